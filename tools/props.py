import json
P=[]
def p(id,title,statement,quant,why,anchors):
    P.append(dict(id=id,title=title,statement=statement,quantifier=quant,why_tests_cant=why,anchors=anchors))
PE="src/hdf5storage/pathesc.py"; U="src/hdf5storage/utilities.py"; M="src/hdf5storage/Marshallers.py"; I="src/hdf5storage/__init__.py"
p("C01","Unescaping inverts escaping","unescape_path(escape_path(s)) returns s and raises nothing, so any str can be used as a name inside a file and recovered exactly.","every str s (any code points, any length)","The set of names is infinite and interactions between backslash runs, hex digits that follow them and leading dots cannot be enumerated.",[PE+":escape_path",PE+":unescape_path"])
p("C02","Escaped names are safe HDF5 link names","escape_path(s) contains no '/' and no NUL character and does not start with '.', so that it denotes a single link in the current Group and can never move around the hierarchy; the empty string is the only one that escapes to the empty string.","every str s","Universal over all strings.",[PE+":escape_path"])
p("C03","Distinct names never collide after escaping","escape_path is injective: two different strs never become the same HDF5 name.","every pair of strs","Quantifies over pairs of unbounded strings.",[PE+":escape_path"])
p("C04","unescape_path rejects exactly the malformed paths","unescape_path(s) raises ValueError('Invalid escape') exactly when some maximal run of backslashes in s has odd length and is not followed by xHH, uHHHH or UHHHHHHHH; on every other string it decodes, and documented errors are the only errors.","every str s","Regex scanning behaviour with backtracking on all strings.",[PE+":unescape_path",PE+":_find_invalid_escape_re"])
p("C05","What unescaping computes","On valid input unescape_path decodes each escape sequence independently, left to right: text, '\\\\\\\\' -> '\\\\', hex escapes -> the character.","every valid str s","Universal over strings; interaction of the two replacement passes.",[PE+":unescape_path",PE+":_replace_fun_unescape"])
p("C06","Separated paths name exactly the parts given","For a Sequence of non-empty parts, process_path returns the escaped last part as target and the '/'-joined escaped other parts as Group (root if there is none): nothing is normalised away, no part ('..', '.', 'a/b', NUL) traverses.","every non-empty list of non-empty strs","All lists of all strings; interaction of join, normpath, dirname and escaping.",[PE+":process_path"])
p("C07","Separated paths are injective","Two different Sequences of non-empty parts give different (Group, target) pairs, so data stored under different separated paths never overlap.","every pair of lists of non-empty strs","Pairs of unbounded lists of unbounded strings.",[PE+":process_path"])
p("C08","str paths are normalised, target is a single component","For a str path process_path returns a pair (Group, target) with a non-empty Group and a non-empty target that has no '/', the target is not '..' unless the path climbs above a relative start, and joining them gives a path with the same normal form; process_path of that joined path returns the same pair (idempotent).","every str path","All strings; '..' / '.' / '//' interplay.",[PE+":process_path"])
p("C09","MATLAB compatibility is never silently broken in Options","After construction and after any sequence of attribute assignments (valid or invalid, in any order), if options.matlab_compatible is True then every option MATLAB needs has its MATLAB value.","every constructor argument combination and every finite sequence of setter calls","Arbitrary histories of setters.",[I+":Options.__init__",I+":Options.matlab_compatible"])
p("C10","Options always hold legal values","After any history of constructor/setter calls with arbitrary values every option has a value inside its documented domain; illegal values leave the option as it was; setting an option never changes another one except for the documented matlab_compatible coupling.","every sequence of setter calls with arbitrary values","Arbitrary histories and values.",[I+":Options"])
p("C11","Marshaller lookup honours the priority order","For every set of registered marshallers and every permutation of the priority, the marshaller found for a type / type string / MATLAB class is the first one, in (user,builtin,plugin) priority order and in registration order, that declares it; None iff nobody declares it.","every list of marshallers, every priority, every history of add/remove/clear","Arbitrary registration histories.",[I+":MarshallerCollection._update_marshallers",I+":MarshallerCollection.get_marshaller_for_type"])
p("C12","Lazy loading is unobservable","For any history of lookups and registrations, the marshaller and the has-modules answer returned by the get_marshaller_for_* methods depend only on the current registration and on which modules can be imported, not on lazy_loading nor on earlier lookups.","every import environment, every history","Arbitrary interleavings of lookups and registrations with caching.",[I+":MarshallerCollection.get_marshaller_for_type",I+":MarshallerCollection._import_marshaller_modules"])
p("C13","add/remove/clear marshallers act as an ordered set","add_marshaller appends those not yet present, remove_marshaller removes, clear_marshallers empties the user list; builtin and plugin ones never change; non-marshaller arguments raise TypeError.","every history of add/remove/clear calls","Arbitrary histories.",[I+":MarshallerCollection.add_marshaller",I+":MarshallerCollection.remove_marshaller",I+":MarshallerCollection.clear_marshallers"])
p("C14","Zero-shape detection terminates and is exact","does_dtype_have_a_zero_shape(dt) terminates and is True iff some (sub)dtype nested anywhere in dt has a subarray shape containing 0.","every dtype tree","Unbounded nesting; termination.",[U+":does_dtype_have_a_zero_shape"])
p("C15","Dimension reversal is lossless","Transposing when writing and transposing back when reading recovers every element at its index for any rank and shape, including zero-sized dimensions; 1-d to 2-d promotion followed by reshape to the recorded shape recovers the array.","every shape and every element assignment","All ranks and shapes.",[M+":NumpyScalarArrayMarshaller.write",M+":NumpyScalarArrayMarshaller.read"])
p("C16","str to UTF-16/UTF-32 integer conversion is invertible","For every str without surrogates, NULs at the end or a leading BOM, the uint16 (or uint32 fallback) codes hdf5storage stores decode back to the same str; surrogate pairs handled.","every str","All strings.",[U+":convert_numpy_str_to_uint16",U+":convert_numpy_str_to_uint32",U+":convert_to_str",U+":convert_to_numpy_str"])
p("C17","Complex encode/decode are inverse","decode_complex(encode_complex(a)) recovers the real and imaginary part of every element bit for bit (NaN, inf, -0.0 included) for every recognised pair of field names, and structured data not of complex shape is left alone.","every array of complex numbers, every field name pair","All bit patterns, all names.",[U+":encode_complex",U+":decode_complex"])
p("C18","Attribute synchronisation","After set_attributes_all(target, attributes, discard_others=True) on an object, the attributes are exactly the given ones with the given values, whatever attributes the object had before.","every previous attribute set and every requested one","All pairs of attribute maps.",[U+":set_attributes_all"])
p("C19","Compression / chunking / checksum decisions","A Dataset is compressed iff it is non-scalar, compression is on and its byte size reaches the threshold; shuffle only when compressed; scalars never get filters; uncompressed data gets fletcher32 iff the option uncompressed_fletcher32_filter is set.","every size, threshold and option combination","Full cross product of options and sizes.",[M+":NumpyScalarArrayMarshaller.write"])
p("C20","Reference names are fresh","Every element written through the references group gets a name that no object in that group has; no two live references share a name, for every history of writes.","every content of the references group, every RNG outcome, every nesting","Randomised names and nested writes: adversarial schedules.",[U+":LowLevelFile.next_unused_ref_group_name",U+":LowLevelFile.write_object_array"])
p("C21","Opening a file never destroys data unasked","Opening an existing HDF5 file for writing keeps its contents unless truncate_existing is given, or matlab_compatible, truncate_invalid_matlab and a userblock under 128 bytes; the header is written only when there is room in the userblock.","every file state and option combination","All combinations of prior states.",[I+":File.__init__"])
p("C22","MATLAB header is well formed","For every time of creation the first bytes written to a MATLAB file are exactly 128 bytes: text padded to 116, 8 zero bytes, version 0x0200 and 'IM'.","every date/time the header can be made at","All times, year widths.",[I+":File.__init__"])
p("C23","writes validates before touching the file","File.writes with an invalid path or a path inside the references group raises before anything is written: the file is unchanged.","every mapping","All mappings with a bad entry at any position.",[I+":File.writes"])
p("C24","The references group is protected","write to a path equal to or inside options.group_for_references raises ValueError, and write to any other path does not.","every group_for_references, every path","All pairs of paths.",[I+":File.writes"])
p("C25","len, iteration, containment and deletion agree","len(f) == len(list(f)); iterating yields exactly the top-level names (as they are in the file, escaped) other than the references group; `in` and `del` agree with them.","every set of top-level names","All sets of names and orders.",[I+":File.__len__",I+":File.__iter__",I+":File.__contains__",I+":File.__delitem__"])
p("C26","Closed files stay closed","After close() every data operation raises OSError and changes nothing; close is idempotent; this holds for any operation sequence.","every sequence of operations","Arbitrary histories.",[I+":File.close",I+":File.closed"])
p("C27","Scalar and string round trip","Writing a Python scalar (bool, int of any size, float, complex, None, Ellipsis, NotImplemented, str, bytes, bytearray) to a fresh name and reading it back gives an equal value of the same type under the default MATLAB-compatible and the Python options.","every value, every supported option set","Infinite values.",[M+":PythonScalarMarshaller",M+":PythonStringMarshaller",M+":PythonNoneEllipsisNotImplementedMarshaller"])
p("C28","Numpy array round trip","Writing a numpy array/scalar and reading it with compatible options recovers the kind of object, the dtype (with the names, dtypes and shapes of the fields of structured arrays), the shape and every element.","every shape, every element, every option set in the stated class","Infinite values.",[M+":NumpyScalarArrayMarshaller"])
p("C29","Container round trip at any nesting","Lists, tuples, sets, frozensets, deques, dicts, slices, ranges, Fractions, ChainMaps nested to any depth are read back equal.","every nested value","Unbounded nesting.",[M+":PythonListMarshaller",M+":PythonTupleSetDequeMarshaller",M+":PythonDictMarshaller",U+":LowLevelFile.write_object_array",U+":LowLevelFile.read_object_array"])
p("C30","Writes do not disturb other data","Writing a value to one path leaves what is read from any other, non-overlapping path unchanged.","every file state, value and pair of paths","All heaps.",[U+":LowLevelFile.write_data"])
p("C31","Last write wins","Writing v2 over v1 at the same path and reading gives the same as writing v2 alone.","every pair of values and options","All pairs.",[U+":set_attributes_all",M+":NumpyScalarArrayMarshaller.write"])
p("C32","action_for_matlab_incompatible is honoured","With 'error' an unsupported type raises before the datum is written; with 'discard' nothing is written for it; with 'ignore' it is written.","every value and option","All values at any depth.",[M+":NumpyScalarArrayMarshaller.write"])
p("C33","Reading a missing path fails cleanly","Reading a path that does not exist raises KeyError and does not change the file; reads never modify the file.","every file state and path","All states.",[I+":File.reads",U+":LowLevelFile.read_data"])
p("C34","loadmat returns exactly the requested variables","loadmat returns a dict whose keys are the requested names that exist (or all the variables when none are requested).","every file, every list of names","All states.",[I+":loadmat"])
p("C35","File operations are atomic across threads","Concurrent calls on one File are linearizable: each interleaving is equivalent to some sequential order.","every interleaving of every number of threads","Thread schedules.",[I+":File"])
p("C36","Dict keys survive storage","Dicts with str/bytes/np.str_/np.bytes_ keys keep keys with their types and values; dicts with any other key are kept through keys/values.","every dict","All dicts.",[M+":PythonDictMarshaller"])
p("C37","Integers of any size","Any Python int survives a write and read, including those outside int64/uint64.","every int","Infinite.",[M+":PythonScalarMarshaller"])
p("C38","Path comparison and containment across API forms","str, bytes, PurePath and Sequence forms of the same path denote the same object.","every path","All strings.",[PE+":process_path"])
p("C39","Stored data survives any later history","What can be read from a path stays the same through any number of later sessions, writes (successful or not) and deletions at paths that neither contain it nor are inside it.","every file, every value, every later history","Unbounded histories.",[I+":File",U+":LowLevelFile"])
p("C40","Writing supported data does not fail","Writing values whose types and contents are supported to places where there is nothing yet does not raise, whatever else is in the file and whatever the options.","every file state, every supported value, every option set in the stated class","All values, states and options.",[U+":LowLevelFile.write_data",M+":NumpyScalarArrayMarshaller.write",M+":PythonDictMarshaller.write"])
p("C41","MATLAB sees what was written","After a successful write to new places with matlab_compatible on (however the options object got there), every value that has a MATLAB form is stored as MATLAB 7.3 expects: MATLAB_class of the dtype, at least two dimensions, elements in column-major order, chars with their width in MATLAB_int_decode, empties as their dimensions with MATLAB_empty, cells as references to objects in /#refs#, structs and dicts as Groups with MATLAB_fields in order, and H5PATH on every object that is part of another.","every option history, file state, value with a MATLAB form, set of items and schedule of random names without repeats","All nested values, shapes, dtypes and option histories.",[M+":NumpyScalarArrayMarshaller.write",M+":PythonDictMarshaller.write",U+":LowLevelFile.write_object_array"])
p("C42","MATLAB files read as NumPy arrays","Reading a path of a file where there is a MATLAB 7.3 value without Python metadata (made by MATLAB or anyone else) gives it as NumPy: numeric and logical arrays of the class's dtype with MATLAB's dimensions and every element at its index, char arrays as rows of text (a pair of UTF-16 halves is one character), cell arrays as object arrays of what their elements read as, structs and struct arrays as structured arrays (dicts with structs_as_dicts) with the fields in MATLAB's order, empties with their dimensions and dtype.","every file, path, MATLAB value of any nesting and size found there, and options","MATLAB values nest without bound, and the contents of foreign files are arbitrary.",[M+":NumpyScalarArrayMarshaller.read",M+":PythonDictMarshaller.read",U+":LowLevelFile.read_data"])
p("C43","Values written without metadata come back as MATLAB sees them","Values written with matlab_compatible on and store_python_metadata off, to new places, and then read with any options (same references group) come back as the NumPy form of what MATLAB sees of them: composition of C41 and C42.","every option history, file state, set of items, values with a MATLAB form and text of any characters, and schedule of random names without repeats","Composition of writing and reading over all nested values and option histories.",[M+":NumpyScalarArrayMarshaller.write",M+":NumpyScalarArrayMarshaller.read",M+":PythonDictMarshaller.write"])
p("C44","Module level functions round trip","What hdf5storage.writes/write/savemat put into a file name, hdf5storage.read/loadmat get back from that file name the same, whatever was at that name before, with their own default options.","every initial directory entry at the name, options history, set of items, storable values of any nesting, schedule of random names without repeats, time of day","Holds over all values, prior file contents, option combinations and time stamps; needs open, header, write, close, reopen and read composed.",[I+":writes",I+":write",I+":reads",I+":read",I+":savemat",I+":loadmat",I+":File.__init__"])
p("C45","Metadata not asked for is not written","With store_python_metadata off no Python.* attribute is ever put on anything in the file, and with matlab_compatible off none of MATLAB's, except the mark of the canonical empty in the references group; and nothing else is ever put on anything.","every history of sessions, writes (failing ones too) and deletions, all values and options","All code paths over nested values and overwriting would have to be exercised.",[M+":TypeMarshaller.write_metadata",M+":NumpyScalarArrayMarshaller.write_metadata",M+":PythonDictMarshaller.write_metadata",U+":set_attributes_all",U+":write_object_array",I+":savemat"])
p("C46","A Group is read as a dict of exactly its readable members","Whatever wrote the file, a Group marked as a dict with str keys (or a MATLAB struct read with structs_as_dicts) is read as a dict with exactly the members that can be read on their own, each with the value it has when read on its own; members that cannot be read are left out without an error. A dict stored as keys and values is read as their pairs; of equal keys the last value wins and no two keys are equal.","every file content, options, nesting of members, equality of keys","Every member value, and every cause of an unreadable member at any depth, would have to be tried.",[M+":PythonDictMarshaller.read",M+":NumpyScalarArrayMarshaller.read",U+":LowLevelFile.read_data"])
p("C47","pop and popitem remove exactly what they return","f.pop(path) returns what f[path] is and removes that path and what is inside it, nothing else; if there is nothing it returns the default or raises KeyError; if reading fails nothing is removed. f.popitem() does so with some name in the root, never the references group, and raises KeyError only when len(f) is 0.","every file history, path, default and options","Every history of the file before the call matters.",[I+":File.__getitem__",I+":File.__delitem__",I+":File.__iter__"])
p("C48","clear empties the file","f.clear() terminates and leaves no name in the root, len(f) is 0, but keeps the references group.","every file history and options","Depends on every value in the file being readable and on the order of the names.",[I+":File.__iter__",I+":File.__getitem__",I+":File.__delitem__"])
p("C49","get, setdefault and update agree with reading and writing","f.get(path, d) is f[path] or d when there is nothing, and changes nothing; f.setdefault(path, d) is f[path], or writes d and returns it; f.update(items) does what f.writes(items) does.","every file, path, value, list of items and options","All files, values and lists of items.",[I+":File.__getitem__",I+":File.__setitem__",I+":File.writes"])
p("C50","items and values are complete","f.items() gives every name in the root except the references group exactly once, with the value that reading it gives; as many as len(f).","every file history and options","Every set of names, relative to the name of the references group, would have to be tried.",[I+":File.__iter__",I+":File.__len__",I+":File.__getitem__"])
p("C51","The inherited methods are atomic too","When threads share a File, f.pop(path), like the methods of File itself (C35), takes effect at one moment: two threads that pop the same path do not both get its value or an error instead of their default; nothing is removed twice.","every file, every number of threads, their calls and every schedule","Interleavings of threads cannot be enumerated by running them.",[I+":File.__getitem__",I+":File.__delitem__",I+":File._lock"])
p("C52","Plugins cannot break a collection","MarshallerCollection(load_plugins=True) succeeds whenever its arguments are valid, whatever the installed plugins do: one that cannot be loaded, is not callable, raises or returns something else gives nothing and cannot be told from one that is not installed; of the others exactly the TypeMarshallers they return are used, in order, the last entry point of a module, for API version 1.0 only. Without load_plugins no plugin has any effect.","every set of installed entry points and every way they behave, all arguments, every history of the module","The behaviours and combinations of third-party packages cannot be enumerated.",[I+":MarshallerCollection.__init__","src/hdf5storage/plugins.py:find_thirdparty_marshaller_plugins","src/hdf5storage/plugins.py:supported_marshaller_api_versions"])
p("C53","The default collection is one shared object","get_default_marshaller_collection gives the same object until make_new_default_marshaller_collection succeeds (if it raises nothing changes); Options made without a collection hold that object and keep it, when the default is replaced too, until they are given another; what a collection answers depends only on the methods called on it, by whomever, never on other collections, Options or Files.","every history of calls of the module","Sharing and isolation over unbounded histories of calls.",[I+":get_default_marshaller_collection",I+":make_new_default_marshaller_collection",I+":Options.marshaller_collection"])
p("C54","A File has its own options but shares the collection","Changing an Options object after a File was opened with it, in any way, does not change the options the File goes by; marshallers registered in the collection it held then are found by the File, and a collection given to the Options object later is not.","every history of calls after the File was opened","Aliasing over unbounded histories.",[I+":File.__init__",I+":Options"])
p("C55","Data is read by the marshaller that wrote it","A value is written by the first marshaller in the order of the priority that declares its type, and refused if the modules that one needs are not there; what has a Python.Type is read by the first that declares it. With the builtin marshallers first (the default) whatever plugins and users register, at any time, each builtin type is written by its builtin marshaller, marked with that marshaller's type string for it, and read by the same marshaller. Everything nobody declares is read as NumPy data.","every collection (builtin, plugin, user marshallers, priority, importable modules), every history of it, every type, value and attributes in the file","Third-party marshallers and the histories of registrations cannot be enumerated.",[U+":LowLevelFile.write_data",U+":LowLevelFile.read_data",M+":TypeMarshaller.get_type_string",I+":MarshallerCollection"])
p("C56","References never dangle, and reading always ends","Whatever was written, overwritten (in failing calls too) and deleted outside the references group, in any number of sessions, each reference in the file leads to an object in the references group; no way along members and references leads back to where it started; so reading any path with any options comes to an end.","every history of sessions, writes with any values and options (failing ones too) and deletions; every path read","Dangling and cyclic references come from the interplay of overwriting and the choice of names over unbounded histories and nested values.",[U+":LowLevelFile.write_object_array",U+":LowLevelFile.read_object_array",U+":LowLevelFile.next_unused_ref_group_name",I+":File.writes",I+":File.__delitem__"])
p("C57","The canonical empty stays as MATLAB wants it","In every file made or changed through the API the member 'a' of the references group, whenever there is one, is two unsigned zeros marked as MATLAB's canonical empty; nothing written, overwritten or deleted outside the references group ever changes that.","every history of sessions, writes with any values and options (failing ones too) and deletions","Names of elements, nesting and overwriting over unbounded histories.",[U+":LowLevelFile.write_object_array",U+":LowLevelFile.next_unused_ref_group_name"])
p("C58","A write cut short anywhere leaves all other data","If a call of write(s) is cut short at any moment (an interrupt, the process killed between two calls of HDF5), and the file is opened again, every path that does not overlap with one being written reads as before and is in the file or not as before; and what was cut short can be deleted and written again. The path itself may be what it was, gone, or incomplete.","every file history (with other calls cut short in it too), every call with any values and options, every point of it, every other path","Every crash point of every call in every state would have to be tried.",[I+":File.writes",U+":LowLevelFile.write_data",U+":LowLevelFile.write_object_array",U+":set_attributes_all",M+":NumpyScalarArrayMarshaller.write",M+":PythonDictMarshaller.write"])
p("C59","A File can be used further after an interrupt","If a call of write(s) is cut short by an exception that is caught (a KeyboardInterrupt) and the same File is used further, every path that does not overlap with one being written reads as before and is in the file or not as before, and whatever is written then, to any path (after deleting what is there), reads back as it would from an untouched file.","every file history (with other calls cut short in it too), every call with any values and options, every point of it, every later value and path","What the session remembers (references group, canonical empty, names used) at every point of every call would have to be tried.",[I+":File.writes",U+":LowLevelFile.write_data",U+":LowLevelFile.write_object_array",I+":File.__delitem__"])
p("C60","Data of other programs is read as it is","Where nothing in a file says how to read it (no attribute that hdf5storage knows can be reached: files of h5py, of other programs), reading gives the data: a Dataset as an ndarray of its dtype, dimensions and elements (compounds of r and i as complex numbers), a Dataset of references as an object array of what each refers to, a Group as a structured array with one record whose fields, in alphabetical order, are its members by their unescaped names, or, if all of them are Datasets of references, as the structured array that has them as columns.","every file, whoever wrote it, every path and options; every nesting of Groups and references","The shapes, types and nestings of data of other programs cannot be enumerated.",[U+":LowLevelFile.read_data",U+":LowLevelFile.read_object_array",M+":NumpyScalarArrayMarshaller.read"])
p("C61","Written for neither Python nor MATLAB, data is stored bare","With matlab_compatible and store_python_metadata off (and none of the conversions made for MATLAB), a value is stored as it is and nothing is added: numbers and arrays with their dtypes, dimensions and elements, None as an array without elements, integers that do not fit 64 bits as their digits, text as the array of its codes, lists and object arrays as references to their elements, dicts, Fractions, slices and structured arrays that HDF5 has no type for as Groups of their members under the escaped names, and no object of it has an attribute; it stays so while other paths are written or deleted, and reading gives what C60 says of such data.","every value of the supported kinds at every nesting, every options with those off, every reachable file, every sequence of calls at other paths afterwards","tests compare after reading; what other programs find in the file, and that no attribute or marker is left at any depth, is a claim about every value",[M+":PythonScalarMarshaller.write", M+":NumpyScalarArrayMarshaller.write", M+":PythonDictMarshaller.write", U+":write_object_array", U+":set_attributes_all"])
p("C62","What is read depends on five options only","Of the options, only reverse_dimension_order, structs_as_dicts, group_for_references, dict_like_keys_name and dict_like_values_name matter to reading: with two Options that agree on these (whatever the others are, matlab_compatible and the options of compression included), reading any path, iterating, counting, items(), read, reads and loadmat give the same values and the same errors for every file. Setting any other option but matlab_compatible (which sets one of these) changes nothing of what is read, and each of the five does matter: there is a file that is read differently with it alone changed. Writing, on the other hand, never depends on structs_as_dicts.","every pair of Options, every file whoever wrote it and however damaged, every path","tests read each file with one or two Options; that no option but five is consulted for any file is a claim about all pairs",[I+":File.reads", I+":File.__iter__", I+":loadmat", M+":NumpyScalarArrayMarshaller.read", M+":PythonDictMarshaller.read", U+":read_data"])
open('/verif/properties.jsonl','w').write(''.join(json.dumps(x)+'\n' for x in P))
