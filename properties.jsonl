{"id": "C01", "title": "Unescaping inverts escaping", "statement": "unescape_path(escape_path(s)) returns s and raises nothing, so any str can be used as a name inside a file and recovered exactly.", "quantifier": "every str s (any code points, any length)", "why_tests_cant": "The set of names is infinite and interactions between backslash runs, hex digits that follow them and leading dots cannot be enumerated.", "anchors": ["src/hdf5storage/pathesc.py:escape_path", "src/hdf5storage/pathesc.py:unescape_path"]}
{"id": "C02", "title": "Escaped names are safe HDF5 link names", "statement": "escape_path(s) contains no '/' and no NUL character and does not start with '.', so that it denotes a single link in the current Group and can never move around the hierarchy; the empty string is the only one that escapes to the empty string.", "quantifier": "every str s", "why_tests_cant": "Universal over all strings.", "anchors": ["src/hdf5storage/pathesc.py:escape_path"]}
{"id": "C03", "title": "Distinct names never collide after escaping", "statement": "escape_path is injective: two different strs never become the same HDF5 name.", "quantifier": "every pair of strs", "why_tests_cant": "Quantifies over pairs of unbounded strings.", "anchors": ["src/hdf5storage/pathesc.py:escape_path"]}
{"id": "C04", "title": "unescape_path rejects exactly the malformed paths", "statement": "unescape_path(s) raises ValueError('Invalid escape') exactly when some maximal run of backslashes in s has odd length and is not followed by xHH, uHHHH or UHHHHHHHH; on every other string it decodes, and documented errors are the only errors.", "quantifier": "every str s", "why_tests_cant": "Regex scanning behaviour with backtracking on all strings.", "anchors": ["src/hdf5storage/pathesc.py:unescape_path", "src/hdf5storage/pathesc.py:_find_invalid_escape_re"]}
{"id": "C05", "title": "What unescaping computes", "statement": "On valid input unescape_path decodes each escape sequence independently, left to right: text, '\\\\\\\\' -> '\\\\', hex escapes -> the character.", "quantifier": "every valid str s", "why_tests_cant": "Universal over strings; interaction of the two replacement passes.", "anchors": ["src/hdf5storage/pathesc.py:unescape_path", "src/hdf5storage/pathesc.py:_replace_fun_unescape"]}
{"id": "C06", "title": "Separated paths name exactly the parts given", "statement": "For a Sequence of non-empty parts, process_path returns the escaped last part as target and the '/'-joined escaped other parts as Group (root if there is none): nothing is normalised away, no part ('..', '.', 'a/b', NUL) traverses.", "quantifier": "every non-empty list of non-empty strs", "why_tests_cant": "All lists of all strings; interaction of join, normpath, dirname and escaping.", "anchors": ["src/hdf5storage/pathesc.py:process_path"]}
{"id": "C07", "title": "Separated paths are injective", "statement": "Two different Sequences of non-empty parts give different (Group, target) pairs, so data stored under different separated paths never overlap.", "quantifier": "every pair of lists of non-empty strs", "why_tests_cant": "Pairs of unbounded lists of unbounded strings.", "anchors": ["src/hdf5storage/pathesc.py:process_path"]}
{"id": "C08", "title": "str paths are normalised, target is a single component", "statement": "For a str path process_path returns a pair (Group, target) with a non-empty Group and a non-empty target that has no '/', the target is not '..' unless the path climbs above a relative start, and joining them gives a path with the same normal form; process_path of that joined path returns the same pair (idempotent).", "quantifier": "every str path", "why_tests_cant": "All strings; '..' / '.' / '//' interplay.", "anchors": ["src/hdf5storage/pathesc.py:process_path"]}
{"id": "C09", "title": "MATLAB compatibility is never silently broken in Options", "statement": "After construction and after any sequence of attribute assignments (valid or invalid, in any order), if options.matlab_compatible is True then every option MATLAB needs has its MATLAB value.", "quantifier": "every constructor argument combination and every finite sequence of setter calls", "why_tests_cant": "Arbitrary histories of setters.", "anchors": ["src/hdf5storage/__init__.py:Options.__init__", "src/hdf5storage/__init__.py:Options.matlab_compatible"]}
{"id": "C10", "title": "Options always hold legal values", "statement": "After any history of constructor/setter calls with arbitrary values every option has a value inside its documented domain; illegal values leave the option as it was; setting an option never changes another one except for the documented matlab_compatible coupling.", "quantifier": "every sequence of setter calls with arbitrary values", "why_tests_cant": "Arbitrary histories and values.", "anchors": ["src/hdf5storage/__init__.py:Options"]}
{"id": "C11", "title": "Marshaller lookup honours the priority order", "statement": "For every set of registered marshallers and every permutation of the priority, the marshaller found for a type / type string / MATLAB class is the first one, in (user,builtin,plugin) priority order and in registration order, that declares it; None iff nobody declares it.", "quantifier": "every list of marshallers, every priority, every history of add/remove/clear", "why_tests_cant": "Arbitrary registration histories.", "anchors": ["src/hdf5storage/__init__.py:MarshallerCollection._update_marshallers", "src/hdf5storage/__init__.py:MarshallerCollection.get_marshaller_for_type"]}
{"id": "C12", "title": "Lazy loading is unobservable", "statement": "For any history of lookups and registrations, the marshaller and the has-modules answer returned by the get_marshaller_for_* methods depend only on the current registration and on which modules can be imported, not on lazy_loading nor on earlier lookups.", "quantifier": "every import environment, every history", "why_tests_cant": "Arbitrary interleavings of lookups and registrations with caching.", "anchors": ["src/hdf5storage/__init__.py:MarshallerCollection.get_marshaller_for_type", "src/hdf5storage/__init__.py:MarshallerCollection._import_marshaller_modules"]}
{"id": "C13", "title": "add/remove/clear marshallers act as an ordered set", "statement": "add_marshaller appends those not yet present, remove_marshaller removes, clear_marshallers empties the user list; builtin and plugin ones never change; non-marshaller arguments raise TypeError.", "quantifier": "every history of add/remove/clear calls", "why_tests_cant": "Arbitrary histories.", "anchors": ["src/hdf5storage/__init__.py:MarshallerCollection.add_marshaller", "src/hdf5storage/__init__.py:MarshallerCollection.remove_marshaller", "src/hdf5storage/__init__.py:MarshallerCollection.clear_marshallers"]}
{"id": "C14", "title": "Zero-shape detection terminates and is exact", "statement": "does_dtype_have_a_zero_shape(dt) terminates and is True iff some (sub)dtype nested anywhere in dt has a subarray shape containing 0.", "quantifier": "every dtype tree", "why_tests_cant": "Unbounded nesting; termination.", "anchors": ["src/hdf5storage/utilities.py:does_dtype_have_a_zero_shape"]}
{"id": "C15", "title": "Dimension reversal is lossless", "statement": "Transposing when writing and transposing back when reading recovers every element at its index for any rank and shape, including zero-sized dimensions; 1-d to 2-d promotion followed by reshape to the recorded shape recovers the array.", "quantifier": "every shape and every element assignment", "why_tests_cant": "All ranks and shapes.", "anchors": ["src/hdf5storage/Marshallers.py:NumpyScalarArrayMarshaller.write", "src/hdf5storage/Marshallers.py:NumpyScalarArrayMarshaller.read"]}
{"id": "C16", "title": "str to UTF-16/UTF-32 integer conversion is invertible", "statement": "For every str without surrogates, NULs at the end or a leading BOM, the uint16 (or uint32 fallback) codes hdf5storage stores decode back to the same str; surrogate pairs handled.", "quantifier": "every str", "why_tests_cant": "All strings.", "anchors": ["src/hdf5storage/utilities.py:convert_numpy_str_to_uint16", "src/hdf5storage/utilities.py:convert_numpy_str_to_uint32", "src/hdf5storage/utilities.py:convert_to_str", "src/hdf5storage/utilities.py:convert_to_numpy_str"]}
{"id": "C17", "title": "Complex encode/decode are inverse", "statement": "decode_complex(encode_complex(a)) recovers the real and imaginary part of every element bit for bit (NaN, inf, -0.0 included) for every recognised pair of field names, and structured data not of complex shape is left alone.", "quantifier": "every array of complex numbers, every field name pair", "why_tests_cant": "All bit patterns, all names.", "anchors": ["src/hdf5storage/utilities.py:encode_complex", "src/hdf5storage/utilities.py:decode_complex"]}
{"id": "C18", "title": "Attribute synchronisation", "statement": "After set_attributes_all(target, attributes, discard_others=True) on an object, the attributes are exactly the given ones with the given values, whatever attributes the object had before.", "quantifier": "every previous attribute set and every requested one", "why_tests_cant": "All pairs of attribute maps.", "anchors": ["src/hdf5storage/utilities.py:set_attributes_all"]}
{"id": "C19", "title": "Compression / chunking / checksum decisions", "statement": "A Dataset is compressed iff it is non-scalar, compression is on and its byte size reaches the threshold; shuffle only when compressed; scalars never get filters; uncompressed data gets fletcher32 iff the option uncompressed_fletcher32_filter is set.", "quantifier": "every size, threshold and option combination", "why_tests_cant": "Full cross product of options and sizes.", "anchors": ["src/hdf5storage/Marshallers.py:NumpyScalarArrayMarshaller.write"]}
{"id": "C20", "title": "Reference names are fresh", "statement": "Every element written through the references group gets a name that no object in that group has; no two live references share a name, for every history of writes.", "quantifier": "every content of the references group, every RNG outcome, every nesting", "why_tests_cant": "Randomised names and nested writes: adversarial schedules.", "anchors": ["src/hdf5storage/utilities.py:LowLevelFile.next_unused_ref_group_name", "src/hdf5storage/utilities.py:LowLevelFile.write_object_array"]}
{"id": "C21", "title": "Opening a file never destroys data unasked", "statement": "Opening an existing HDF5 file for writing keeps its contents unless truncate_existing is given, or matlab_compatible, truncate_invalid_matlab and a userblock under 128 bytes; the header is written only when there is room in the userblock.", "quantifier": "every file state and option combination", "why_tests_cant": "All combinations of prior states.", "anchors": ["src/hdf5storage/__init__.py:File.__init__"]}
{"id": "C22", "title": "MATLAB header is well formed", "statement": "For every time of creation the first bytes written to a MATLAB file are exactly 128 bytes: text padded to 116, 8 zero bytes, version 0x0200 and 'IM'.", "quantifier": "every date/time the header can be made at", "why_tests_cant": "All times, year widths.", "anchors": ["src/hdf5storage/__init__.py:File.__init__"]}
{"id": "C23", "title": "writes validates before touching the file", "statement": "File.writes with an invalid path or a path inside the references group raises before anything is written: the file is unchanged.", "quantifier": "every mapping", "why_tests_cant": "All mappings with a bad entry at any position.", "anchors": ["src/hdf5storage/__init__.py:File.writes"]}
{"id": "C24", "title": "The references group is protected", "statement": "write to a path equal to or inside options.group_for_references raises ValueError, and write to any other path does not.", "quantifier": "every group_for_references, every path", "why_tests_cant": "All pairs of paths.", "anchors": ["src/hdf5storage/__init__.py:File.writes"]}
{"id": "C25", "title": "len, iteration, containment and deletion agree", "statement": "len(f) == len(list(f)); iterating yields exactly the top-level names (as they are in the file, escaped) other than the references group; `in` and `del` agree with them.", "quantifier": "every set of top-level names", "why_tests_cant": "All sets of names and orders.", "anchors": ["src/hdf5storage/__init__.py:File.__len__", "src/hdf5storage/__init__.py:File.__iter__", "src/hdf5storage/__init__.py:File.__contains__", "src/hdf5storage/__init__.py:File.__delitem__"]}
{"id": "C26", "title": "Closed files stay closed", "statement": "After close() every data operation raises OSError and changes nothing; close is idempotent; this holds for any operation sequence.", "quantifier": "every sequence of operations", "why_tests_cant": "Arbitrary histories.", "anchors": ["src/hdf5storage/__init__.py:File.close", "src/hdf5storage/__init__.py:File.closed"]}
{"id": "C27", "title": "Scalar and string round trip", "statement": "Writing a Python scalar (bool, int of any size, float, complex, None, Ellipsis, NotImplemented, str, bytes, bytearray) to a fresh name and reading it back gives an equal value of the same type under the default MATLAB-compatible and the Python options.", "quantifier": "every value, every supported option set", "why_tests_cant": "Infinite values.", "anchors": ["src/hdf5storage/Marshallers.py:PythonScalarMarshaller", "src/hdf5storage/Marshallers.py:PythonStringMarshaller", "src/hdf5storage/Marshallers.py:PythonNoneEllipsisNotImplementedMarshaller"]}
{"id": "C28", "title": "Numpy array round trip", "statement": "Writing a numpy array/scalar and reading it with compatible options recovers the kind of object, the dtype (with the names, dtypes and shapes of the fields of structured arrays), the shape and every element.", "quantifier": "every shape, every element, every option set in the stated class", "why_tests_cant": "Infinite values.", "anchors": ["src/hdf5storage/Marshallers.py:NumpyScalarArrayMarshaller"]}
{"id": "C29", "title": "Container round trip at any nesting", "statement": "Lists, tuples, sets, frozensets, deques, dicts, slices, ranges, Fractions, ChainMaps nested to any depth are read back equal.", "quantifier": "every nested value", "why_tests_cant": "Unbounded nesting.", "anchors": ["src/hdf5storage/Marshallers.py:PythonListMarshaller", "src/hdf5storage/Marshallers.py:PythonTupleSetDequeMarshaller", "src/hdf5storage/Marshallers.py:PythonDictMarshaller", "src/hdf5storage/utilities.py:LowLevelFile.write_object_array", "src/hdf5storage/utilities.py:LowLevelFile.read_object_array"]}
{"id": "C30", "title": "Writes do not disturb other data", "statement": "Writing a value to one path leaves what is read from any other, non-overlapping path unchanged.", "quantifier": "every file state, value and pair of paths", "why_tests_cant": "All heaps.", "anchors": ["src/hdf5storage/utilities.py:LowLevelFile.write_data"]}
{"id": "C31", "title": "Last write wins", "statement": "Writing v2 over v1 at the same path and reading gives the same as writing v2 alone.", "quantifier": "every pair of values and options", "why_tests_cant": "All pairs.", "anchors": ["src/hdf5storage/utilities.py:set_attributes_all", "src/hdf5storage/Marshallers.py:NumpyScalarArrayMarshaller.write"]}
{"id": "C32", "title": "action_for_matlab_incompatible is honoured", "statement": "With 'error' an unsupported type raises before the datum is written; with 'discard' nothing is written for it; with 'ignore' it is written.", "quantifier": "every value and option", "why_tests_cant": "All values at any depth.", "anchors": ["src/hdf5storage/Marshallers.py:NumpyScalarArrayMarshaller.write"]}
{"id": "C33", "title": "Reading a missing path fails cleanly", "statement": "Reading a path that does not exist raises KeyError and does not change the file; reads never modify the file.", "quantifier": "every file state and path", "why_tests_cant": "All states.", "anchors": ["src/hdf5storage/__init__.py:File.reads", "src/hdf5storage/utilities.py:LowLevelFile.read_data"]}
{"id": "C34", "title": "loadmat returns exactly the requested variables", "statement": "loadmat returns a dict whose keys are the requested names that exist (or all the variables when none are requested).", "quantifier": "every file, every list of names", "why_tests_cant": "All states.", "anchors": ["src/hdf5storage/__init__.py:loadmat"]}
{"id": "C35", "title": "File operations are atomic across threads", "statement": "Concurrent calls on one File are linearizable: each interleaving is equivalent to some sequential order.", "quantifier": "every interleaving of every number of threads", "why_tests_cant": "Thread schedules.", "anchors": ["src/hdf5storage/__init__.py:File"]}
{"id": "C36", "title": "Dict keys survive storage", "statement": "Dicts with str/bytes/np.str_/np.bytes_ keys keep keys with their types and values; dicts with any other key are kept through keys/values.", "quantifier": "every dict", "why_tests_cant": "All dicts.", "anchors": ["src/hdf5storage/Marshallers.py:PythonDictMarshaller"]}
{"id": "C37", "title": "Integers of any size", "statement": "Any Python int survives a write and read, including those outside int64/uint64.", "quantifier": "every int", "why_tests_cant": "Infinite.", "anchors": ["src/hdf5storage/Marshallers.py:PythonScalarMarshaller"]}
{"id": "C38", "title": "Path comparison and containment across API forms", "statement": "str, bytes, PurePath and Sequence forms of the same path denote the same object.", "quantifier": "every path", "why_tests_cant": "All strings.", "anchors": ["src/hdf5storage/pathesc.py:process_path"]}
{"id": "C39", "title": "Stored data survives any later history", "statement": "What can be read from a path stays the same through any number of later sessions, writes (successful or not) and deletions at paths that neither contain it nor are inside it.", "quantifier": "every file, every value, every later history", "why_tests_cant": "Unbounded histories.", "anchors": ["src/hdf5storage/__init__.py:File", "src/hdf5storage/utilities.py:LowLevelFile"]}
{"id": "C40", "title": "Writing supported data does not fail", "statement": "Writing values whose types and contents are supported to places where there is nothing yet does not raise, whatever else is in the file and whatever the options.", "quantifier": "every file state, every supported value, every option set in the stated class", "why_tests_cant": "All values, states and options.", "anchors": ["src/hdf5storage/utilities.py:LowLevelFile.write_data", "src/hdf5storage/Marshallers.py:NumpyScalarArrayMarshaller.write", "src/hdf5storage/Marshallers.py:PythonDictMarshaller.write"]}
{"id": "C41", "title": "MATLAB sees what was written", "statement": "After a successful write to new places with matlab_compatible on (however the options object got there), every value that has a MATLAB form is stored as MATLAB 7.3 expects: MATLAB_class of the dtype, at least two dimensions, elements in column-major order, chars with their width in MATLAB_int_decode, empties as their dimensions with MATLAB_empty, cells as references to objects in /#refs#, structs and dicts as Groups with MATLAB_fields in order, and H5PATH on every object that is part of another.", "quantifier": "every option history, file state, value with a MATLAB form, set of items and schedule of random names without repeats", "why_tests_cant": "All nested values, shapes, dtypes and option histories.", "anchors": ["src/hdf5storage/Marshallers.py:NumpyScalarArrayMarshaller.write", "src/hdf5storage/Marshallers.py:PythonDictMarshaller.write", "src/hdf5storage/utilities.py:LowLevelFile.write_object_array"]}
{"id": "C42", "title": "MATLAB files read as NumPy arrays", "statement": "Reading a path of a file where there is a MATLAB 7.3 value without Python metadata (made by MATLAB or anyone else) gives it as NumPy: numeric and logical arrays of the class's dtype with MATLAB's dimensions and every element at its index, char arrays as rows of text (a pair of UTF-16 halves is one character), cell arrays as object arrays of what their elements read as, structs and struct arrays as structured arrays (dicts with structs_as_dicts) with the fields in MATLAB's order, empties with their dimensions and dtype.", "quantifier": "every file, path, MATLAB value of any nesting and size found there, and options", "why_tests_cant": "MATLAB values nest without bound, and the contents of foreign files are arbitrary.", "anchors": ["src/hdf5storage/Marshallers.py:NumpyScalarArrayMarshaller.read", "src/hdf5storage/Marshallers.py:PythonDictMarshaller.read", "src/hdf5storage/utilities.py:LowLevelFile.read_data"]}
{"id": "C43", "title": "Values written without metadata come back as MATLAB sees them", "statement": "Values written with matlab_compatible on and store_python_metadata off, to new places, and then read with any options (same references group) come back as the NumPy form of what MATLAB sees of them: composition of C41 and C42.", "quantifier": "every option history, file state, set of items, values with a MATLAB form and text of any characters, and schedule of random names without repeats", "why_tests_cant": "Composition of writing and reading over all nested values and option histories.", "anchors": ["src/hdf5storage/Marshallers.py:NumpyScalarArrayMarshaller.write", "src/hdf5storage/Marshallers.py:NumpyScalarArrayMarshaller.read", "src/hdf5storage/Marshallers.py:PythonDictMarshaller.write"]}
{"id": "C44", "title": "Module level functions round trip", "statement": "What hdf5storage.writes/write/savemat put into a file name, hdf5storage.read/loadmat get back from that file name the same, whatever was at that name before, with their own default options.", "quantifier": "every initial directory entry at the name, options history, set of items, storable values of any nesting, schedule of random names without repeats, time of day", "why_tests_cant": "Holds over all values, prior file contents, option combinations and time stamps; needs open, header, write, close, reopen and read composed.", "anchors": ["src/hdf5storage/__init__.py:writes", "src/hdf5storage/__init__.py:write", "src/hdf5storage/__init__.py:reads", "src/hdf5storage/__init__.py:read", "src/hdf5storage/__init__.py:savemat", "src/hdf5storage/__init__.py:loadmat", "src/hdf5storage/__init__.py:File.__init__"]}
{"id": "C45", "title": "Metadata not asked for is not written", "statement": "With store_python_metadata off no Python.* attribute is ever put on anything in the file, and with matlab_compatible off none of MATLAB's, except the mark of the canonical empty in the references group; and nothing else is ever put on anything.", "quantifier": "every history of sessions, writes (failing ones too) and deletions, all values and options", "why_tests_cant": "All code paths over nested values and overwriting would have to be exercised.", "anchors": ["src/hdf5storage/Marshallers.py:TypeMarshaller.write_metadata", "src/hdf5storage/Marshallers.py:NumpyScalarArrayMarshaller.write_metadata", "src/hdf5storage/Marshallers.py:PythonDictMarshaller.write_metadata", "src/hdf5storage/utilities.py:set_attributes_all", "src/hdf5storage/utilities.py:write_object_array", "src/hdf5storage/__init__.py:savemat"]}
{"id": "C46", "title": "A Group is read as a dict of exactly its readable members", "statement": "Whatever wrote the file, a Group marked as a dict with str keys (or a MATLAB struct read with structs_as_dicts) is read as a dict with exactly the members that can be read on their own, each with the value it has when read on its own; members that cannot be read are left out without an error. A dict stored as keys and values is read as their pairs; of equal keys the last value wins and no two keys are equal.", "quantifier": "every file content, options, nesting of members, equality of keys", "why_tests_cant": "Every member value, and every cause of an unreadable member at any depth, would have to be tried.", "anchors": ["src/hdf5storage/Marshallers.py:PythonDictMarshaller.read", "src/hdf5storage/Marshallers.py:NumpyScalarArrayMarshaller.read", "src/hdf5storage/utilities.py:LowLevelFile.read_data"]}
{"id": "C47", "title": "pop and popitem remove exactly what they return", "statement": "f.pop(path) returns what f[path] is and removes that path and what is inside it, nothing else; if there is nothing it returns the default or raises KeyError; if reading fails nothing is removed. f.popitem() does so with some name in the root, never the references group, and raises KeyError only when len(f) is 0.", "quantifier": "every file history, path, default and options", "why_tests_cant": "Every history of the file before the call matters.", "anchors": ["src/hdf5storage/__init__.py:File.__getitem__", "src/hdf5storage/__init__.py:File.__delitem__", "src/hdf5storage/__init__.py:File.__iter__"]}
{"id": "C48", "title": "clear empties the file", "statement": "f.clear() terminates and leaves no name in the root, len(f) is 0, but keeps the references group.", "quantifier": "every file history and options", "why_tests_cant": "Depends on every value in the file being readable and on the order of the names.", "anchors": ["src/hdf5storage/__init__.py:File.__iter__", "src/hdf5storage/__init__.py:File.__getitem__", "src/hdf5storage/__init__.py:File.__delitem__"]}
{"id": "C49", "title": "get, setdefault and update agree with reading and writing", "statement": "f.get(path, d) is f[path] or d when there is nothing, and changes nothing; f.setdefault(path, d) is f[path], or writes d and returns it; f.update(items) does what f.writes(items) does.", "quantifier": "every file, path, value, list of items and options", "why_tests_cant": "All files, values and lists of items.", "anchors": ["src/hdf5storage/__init__.py:File.__getitem__", "src/hdf5storage/__init__.py:File.__setitem__", "src/hdf5storage/__init__.py:File.writes"]}
{"id": "C50", "title": "items and values are complete", "statement": "f.items() gives every name in the root except the references group exactly once, with the value that reading it gives; as many as len(f).", "quantifier": "every file history and options", "why_tests_cant": "Every set of names, relative to the name of the references group, would have to be tried.", "anchors": ["src/hdf5storage/__init__.py:File.__iter__", "src/hdf5storage/__init__.py:File.__len__", "src/hdf5storage/__init__.py:File.__getitem__"]}
{"id": "C51", "title": "The inherited methods are atomic too", "statement": "When threads share a File, f.pop(path), like the methods of File itself (C35), takes effect at one moment: two threads that pop the same path do not both get its value or an error instead of their default; nothing is removed twice.", "quantifier": "every file, every number of threads, their calls and every schedule", "why_tests_cant": "Interleavings of threads cannot be enumerated by running them.", "anchors": ["src/hdf5storage/__init__.py:File.__getitem__", "src/hdf5storage/__init__.py:File.__delitem__", "src/hdf5storage/__init__.py:File._lock"]}
{"id": "C52", "title": "Plugins cannot break a collection", "statement": "MarshallerCollection(load_plugins=True) succeeds whenever its arguments are valid, whatever the installed plugins do: one that cannot be loaded, is not callable, raises or returns something else gives nothing and cannot be told from one that is not installed; of the others exactly the TypeMarshallers they return are used, in order, the last entry point of a module, for API version 1.0 only. Without load_plugins no plugin has any effect.", "quantifier": "every set of installed entry points and every way they behave, all arguments, every history of the module", "why_tests_cant": "The behaviours and combinations of third-party packages cannot be enumerated.", "anchors": ["src/hdf5storage/__init__.py:MarshallerCollection.__init__", "src/hdf5storage/plugins.py:find_thirdparty_marshaller_plugins", "src/hdf5storage/plugins.py:supported_marshaller_api_versions"]}
{"id": "C53", "title": "The default collection is one shared object", "statement": "get_default_marshaller_collection gives the same object until make_new_default_marshaller_collection succeeds (if it raises nothing changes); Options made without a collection hold that object and keep it, when the default is replaced too, until they are given another; what a collection answers depends only on the methods called on it, by whomever, never on other collections, Options or Files.", "quantifier": "every history of calls of the module", "why_tests_cant": "Sharing and isolation over unbounded histories of calls.", "anchors": ["src/hdf5storage/__init__.py:get_default_marshaller_collection", "src/hdf5storage/__init__.py:make_new_default_marshaller_collection", "src/hdf5storage/__init__.py:Options.marshaller_collection"]}
{"id": "C54", "title": "A File has its own options but shares the collection", "statement": "Changing an Options object after a File was opened with it, in any way, does not change the options the File goes by; marshallers registered in the collection it held then are found by the File, and a collection given to the Options object later is not.", "quantifier": "every history of calls after the File was opened", "why_tests_cant": "Aliasing over unbounded histories.", "anchors": ["src/hdf5storage/__init__.py:File.__init__", "src/hdf5storage/__init__.py:Options"]}
{"id": "C55", "title": "Data is read by the marshaller that wrote it", "statement": "A value is written by the first marshaller in the order of the priority that declares its type, and refused if the modules that one needs are not there; what has a Python.Type is read by the first that declares it. With the builtin marshallers first (the default) whatever plugins and users register, at any time, each builtin type is written by its builtin marshaller, marked with that marshaller's type string for it, and read by the same marshaller. Everything nobody declares is read as NumPy data.", "quantifier": "every collection (builtin, plugin, user marshallers, priority, importable modules), every history of it, every type, value and attributes in the file", "why_tests_cant": "Third-party marshallers and the histories of registrations cannot be enumerated.", "anchors": ["src/hdf5storage/utilities.py:LowLevelFile.write_data", "src/hdf5storage/utilities.py:LowLevelFile.read_data", "src/hdf5storage/Marshallers.py:TypeMarshaller.get_type_string", "src/hdf5storage/__init__.py:MarshallerCollection"]}
{"id": "C56", "title": "References never dangle, and reading always ends", "statement": "Whatever was written, overwritten (in failing calls too) and deleted outside the references group, in any number of sessions, each reference in the file leads to an object in the references group; no way along members and references leads back to where it started; so reading any path with any options comes to an end.", "quantifier": "every history of sessions, writes with any values and options (failing ones too) and deletions; every path read", "why_tests_cant": "Dangling and cyclic references come from the interplay of overwriting and the choice of names over unbounded histories and nested values.", "anchors": ["src/hdf5storage/utilities.py:LowLevelFile.write_object_array", "src/hdf5storage/utilities.py:LowLevelFile.read_object_array", "src/hdf5storage/utilities.py:LowLevelFile.next_unused_ref_group_name", "src/hdf5storage/__init__.py:File.writes", "src/hdf5storage/__init__.py:File.__delitem__"]}
{"id": "C57", "title": "The canonical empty stays as MATLAB wants it", "statement": "In every file made or changed through the API the member 'a' of the references group, whenever there is one, is two unsigned zeros marked as MATLAB's canonical empty; nothing written, overwritten or deleted outside the references group ever changes that.", "quantifier": "every history of sessions, writes with any values and options (failing ones too) and deletions", "why_tests_cant": "Names of elements, nesting and overwriting over unbounded histories.", "anchors": ["src/hdf5storage/utilities.py:LowLevelFile.write_object_array", "src/hdf5storage/utilities.py:LowLevelFile.next_unused_ref_group_name"]}
{"id": "C58", "title": "A write cut short anywhere leaves all other data", "statement": "If a call of write(s) is cut short at any moment (an interrupt, the process killed between two calls of HDF5), and the file is opened again, every path that does not overlap with one being written reads as before and is in the file or not as before; and what was cut short can be deleted and written again. The path itself may be what it was, gone, or incomplete.", "quantifier": "every file history (with other calls cut short in it too), every call with any values and options, every point of it, every other path", "why_tests_cant": "Every crash point of every call in every state would have to be tried.", "anchors": ["src/hdf5storage/__init__.py:File.writes", "src/hdf5storage/utilities.py:LowLevelFile.write_data", "src/hdf5storage/utilities.py:LowLevelFile.write_object_array", "src/hdf5storage/utilities.py:set_attributes_all", "src/hdf5storage/Marshallers.py:NumpyScalarArrayMarshaller.write", "src/hdf5storage/Marshallers.py:PythonDictMarshaller.write"]}
{"id": "C59", "title": "A File can be used further after an interrupt", "statement": "If a call of write(s) is cut short by an exception that is caught (a KeyboardInterrupt) and the same File is used further, every path that does not overlap with one being written reads as before and is in the file or not as before, and whatever is written then, to any path (after deleting what is there), reads back as it would from an untouched file.", "quantifier": "every file history (with other calls cut short in it too), every call with any values and options, every point of it, every later value and path", "why_tests_cant": "What the session remembers (references group, canonical empty, names used) at every point of every call would have to be tried.", "anchors": ["src/hdf5storage/__init__.py:File.writes", "src/hdf5storage/utilities.py:LowLevelFile.write_data", "src/hdf5storage/utilities.py:LowLevelFile.write_object_array", "src/hdf5storage/__init__.py:File.__delitem__"]}
{"id": "C60", "title": "Data of other programs is read as it is", "statement": "Where nothing in a file says how to read it (no attribute that hdf5storage knows can be reached: files of h5py, of other programs), reading gives the data: a Dataset as an ndarray of its dtype, dimensions and elements (compounds of r and i as complex numbers), a Dataset of references as an object array of what each refers to, a Group as a structured array with one record whose fields, in alphabetical order, are its members by their unescaped names, or, if all of them are Datasets of references, as the structured array that has them as columns.", "quantifier": "every file, whoever wrote it, every path and options; every nesting of Groups and references", "why_tests_cant": "The shapes, types and nestings of data of other programs cannot be enumerated.", "anchors": ["src/hdf5storage/utilities.py:LowLevelFile.read_data", "src/hdf5storage/utilities.py:LowLevelFile.read_object_array", "src/hdf5storage/Marshallers.py:NumpyScalarArrayMarshaller.read"]}
{"id": "C61", "title": "Written for neither Python nor MATLAB, data is stored bare", "statement": "With matlab_compatible and store_python_metadata off (and none of the conversions made for MATLAB), a value is stored as it is and nothing is added: numbers and arrays with their dtypes, dimensions and elements, None as an array without elements, integers that do not fit 64 bits as their digits, text as the array of its codes, lists and object arrays as references to their elements, dicts, Fractions, slices and structured arrays that HDF5 has no type for as Groups of their members under the escaped names, and no object of it has an attribute; it stays so while other paths are written or deleted, and reading gives what C60 says of such data.", "quantifier": "every value of the supported kinds at every nesting, every options with those off, every reachable file, every sequence of calls at other paths afterwards", "why_tests_cant": "tests compare after reading; what other programs find in the file, and that no attribute or marker is left at any depth, is a claim about every value", "anchors": ["src/hdf5storage/Marshallers.py:PythonScalarMarshaller.write", "src/hdf5storage/Marshallers.py:NumpyScalarArrayMarshaller.write", "src/hdf5storage/Marshallers.py:PythonDictMarshaller.write", "src/hdf5storage/utilities.py:write_object_array", "src/hdf5storage/utilities.py:set_attributes_all"]}
{"id": "C62", "title": "What is read depends on five options only", "statement": "Of the options, only reverse_dimension_order, structs_as_dicts, group_for_references, dict_like_keys_name and dict_like_values_name matter to reading: with two Options that agree on these (whatever the others are, matlab_compatible and the options of compression included), reading any path, iterating, counting, items(), read, reads and loadmat give the same values and the same errors for every file. Setting any other option but matlab_compatible (which sets one of these) changes nothing of what is read, and each of the five does matter: there is a file that is read differently with it alone changed. Writing, on the other hand, never depends on structs_as_dicts.", "quantifier": "every pair of Options, every file whoever wrote it and however damaged, every path", "why_tests_cant": "tests read each file with one or two Options; that no option but five is consulted for any file is a claim about all pairs", "anchors": ["src/hdf5storage/__init__.py:File.reads", "src/hdf5storage/__init__.py:File.__iter__", "src/hdf5storage/__init__.py:loadmat", "src/hdf5storage/Marshallers.py:NumpyScalarArrayMarshaller.read", "src/hdf5storage/Marshallers.py:PythonDictMarshaller.read", "src/hdf5storage/utilities.py:read_data"]}
