# A formal model of hdf5storage in Rocq/Coq 8.16

The code is `/repo/src/hdf5storage`: `pathesc.py`, `utilities.py`, `Marshallers.py` and `__init__.py`.
The model is in `rocq/theories`, as executable Gallina functions over the standard library,
with exceptions as values; every definition cites the lines it models.  Line numbers are those of
the pinned commit.

How the theories are organised:

* **Model** files (`PathEsc.v`, `OptionsM.v`, `MarshalW.v`, `FileApi.v`, ...) follow the code function by function.
* **Spec** files (`*Spec.v`) are what the theorems are stated in: they are short, and do not use the
  functions of the code under scrutiny except for the API calls themselves.
* **Facts** files (everything else) hold the proofs.
* **Props_\*.v** state one theorem per property or part of it (`Cnn_name`), followed by a
  concrete case that meets its hypotheses (`Cnn_ex...`, an `Example`), mostly run by `vm_compute`.

Naming: `Cnn_..._refuted` proves that the English property, taken literally, is *false* of the code, by
a concrete counterexample (a finding); `Cnn_..._partial` proves it where the finding does not apply, or up to a
restriction that is stated in its hypotheses and in the notes of `MANIFEST.json`.

## Plan per property

| Property | Modelled | Proof |
|---|---|---|
| C01-C05 escaping | a backtracking regex engine (`Regex.v`, list of successes in `re`'s priority order), the four regexes of pathesc.py literally, `re.sub`, `str.replace`, `chr`/`int(_,16)` | engine reduced to scanners by lemma, induction on the string; the non-compositional `\x5c\x5c` and the OverflowError of `\Uffffffff` are refuted |
| C06-C08, C38 paths | CPython `posixpath` join/normpath/dirname/basename/commonpath; `process_path` for str, bytes, PurePath and sequences | induction on component lists |
| C09, C10 Options | every setter and `__init__` over a universe of Python values | invariant over sequences of assignments |
| C11-C13 collections | MarshallerCollection, with the import system as an oracle | invariant; refinement to "first in priority order" |
| C14 | dtype trees, the worklist loop | recursive specification, measure |
| C15 | n-d arrays as shape and row-major list, transpose, reshape | ravel/unravel bijection, induction on the rank |
| C16, C17 | UTF-8/16/32 codecs, the conversions of utilities.py; complex numbers as pairs of bit patterns | arithmetic and induction; cases on names |
| C18 | attribute maps, dtype and shape of attributes, `set_attributes_all` | pointwise equality of maps |
| C19 | the filters asked for in `create_dataset` | invariant over all writes of a session, all sizes |
| C20 | `next_unused_ref_group_name` over an oracle for random numbers | freshness invariant |
| C21, C22 | `File.__init__` over states of the file system; the header bytes over all datetimes | cases; length arithmetic |
| C23-C26, C33, C34 | the methods of `File` over a heap model of HDF5; `loadmat` | induction over lists of calls |
| C27-C29, C36, C37, C44 round trip | write and read of all marshallers over the heap, values as a nested inductive type | footprints ("what is read depends on", "what a write changes"), induction on values; then lifted to the API, histories and the module functions |
| C28 structured arrays | compound Datasets and Groups of fields | `StructBuild`, `RoundStruct`; each column is read back, then transposed |
| C30, C39 frame | elementary changes to the heap | every write is a sequence of elementary changes off the way to other objects |
| C31 overwriting | in-place overwriting of Datasets, Groups used again for dicts and structured arrays, attributes left over | invariant over the history of one path; what a value leaves at its place (`Over.spot`) is kept by everything elsewhere, induction over the depth of dicts and structured arrays (`OverDict.v`) |
| C32 incompatible data | the three actions | cases, frame |
| C35 threads | threads of steps with the re-entrant lock of File, all interleavings | simulation by the serial history, induction over schedules |
| C40 progress | as C27-C29 | every step of a write succeeds in a new place |
| C41 MATLAB's view | a description of MATLAB 7.3 files as a tree of objects (`MatlabSpec.v`) | writing yields a tree (`Plan.v`) that matches the description |
| C42, C43 reading MATLAB | the readers without Python metadata | induction on the description of MATLAB values |
| C60 data of other programs | the same readers on objects with none of the known attributes (`PlainSpec.unmarked`) | induction on the description of the data (`PlainRead.plain_shows`); two cases refuted |
| C61 bare data | the plans of Plan.v (what each writer leaves) with the nine options off (`PlainApi.plainly`); the specification `PlainSpec.plain_of`, `unadorned` | every plan is a `tree` without attributes (`PlainPlan.plan_in`, induction on the fuel), laid out in the file (C35's invariant), then C60 to read |
| C62 options of reading | FileApi.v, OpenM.v, MarshalR.v, NpRead.v as for C29 and C44 | the readers take nothing from the options but five fields: with these equal both sides are the same term; a file with a record for each of the five shows that it matters; the writers with structs_as_dicts changed are equal function by function, bottom up |
| C45 metadata | the attributes asked for by every marshaller | invariant over all objects of the file |
| C46 Groups as dicts | `PythonDictMarshaller.read` | exact characterisation of the members |
| C47-C50 | the methods `File` inherits from `collections.abc.MutableMapping`, written out from the standard library (`MapM.v`) | composition of C25, C27-C33 |
| C51 inherited methods and threads | a pop is a read followed by a del in the interleavings of C35 | links only disappear between writes; a schedule refutes atomicity |
| C52 plugins | `plugins.py` and the constructor with arguments of any type (`Session.v`); an entry point is its name, its module and what loading, calling and iterating it does | the dict comprehension is refined to "last entry point of each module, modules in order"; equal plugin lists give equal answers |
| C53, C54 default collection and sharing | collections, Options and Files as objects in a store (`Session.v`), with the module's list of one default | invariant (the Options of Files are not held by the user); per-collection refinement to C11-C13 |
| C55 read by the writer | the choice in `write_data`/`read_data`, `get_type_string` and the tables (types, type strings, MATLAB classes) of all builtin marshallers (`Dispatch.v`), over the collections of C11-C13 | refinement to "the first that declares"; the tables do not overlap (decided on the tables, then lifted to every collection); the type string in the file from the layout of C41 |
| C56 references in order | the heap with its references, all writers, `del`, all readers (`RefSpec.v`, `Refs.v`, `RefRead.v`, `RefApi.v`) | invariant over histories: what is referred to is in the references group and leads on to an end (inductive `ends`); writers add references only to elements they have just written, under names nobody refers to; then the depth of reading is bounded for the whole file and the result no longer depends on it |
| C57 canonical empty | as C56 | part of the invariant over histories of C30 (`FrameFacts.wf`), unfolded into `RefSpec.empty_mark` |
| C58 calls cut short | all writers again in a trace monad that gives the states in between (`CutM.v`); histories (`reachable`, `later`, `made_with`) contain calls cut short | erasure to the programs without the states (`C58_same`); the states are exactly one elementary change apart, from the first to the last, and each is reached by such steps (`C58_steps`, `CutSpec.v`, `CutChain.v`); the invariant and the frame of C30 hold at each state in between (`CutFrame.v`, `CutFacts.v`), the steps of C19/C45 lead to each of them (`StepsCut.v`) |
| C59 going on after an interrupt | the same states, without `new_session`; `R_cut`, `L_cut`, `Made_cut` go on from them, so C19, C25, C30, C39, C40, C45 hold after a caught interrupt too | `cut_elsewhere`, `done_again`; the window in which the canonical empty has no attributes yet is refuted by evaluation (`C59_half_made_refuted`) |

## What is modelled, file by file

| Code | Model | Left out |
|---|---|---|
| pathesc.py l.52-336 (all) | `Regex.v`, `PathEsc.v`, `PosixPath.v`, `ProcessPath.v` | `re` itself is a model (`Regex.v`); a PurePath is what `parts`, `as_posix()` etc. give |
| utilities.py l.55-99 `does_dtype_have_a_zero_shape` | `DtypeShape.v` | |
| l.102-130 `read_all_attributes_into` | `Attrs.v`, `Hdf5.v` | the h5py work-around for broken attributes |
| l.133-644 LowLevelFile | `MarshalW.v` (`write`, `write_object_array`, `next_name`), `MarshalR.v` (`read`, `read_object_array`) | the `defaultdict`/weak caches (only their observable effect) |
| l.647-1185 dtype names and string conversions | `StrConv.v`, `NdArray.v`, `Value.v` | conversions of values the marshallers never pass |
| l.1188-1321 complex | `ComplexM.v` | |
| l.1324-1443 attributes | `Attrs.v` | |
| Marshallers.py l.66-565 TypeMarshaller | dispatch in `MarshalW.v`/`MarshalR.v` and, for any collection, `Dispatch.v`; lookups in `MColl.v` | the body of `read_approximate` (used only when a marshaller's modules are missing; of the built-in ones only the one for Fraction needs any, `fractions`) |
| l.567-1512 NumpyScalarArrayMarshaller | `NpWrite.v`, `NpDims.v`, `NpRead.v`, `np_write`/`np_read` in `MarshalW.v`/`MarshalR.v` | float arithmetic: floats are bit patterns; byte order |
| l.1515-2465 all other marshallers | `MarshalW.v`, `MarshalR.v` | `deque.maxlen`, `fold` (the code does not store them either) |
| `__init__.py` l.79-1005 Options | `OptionsM.v`; the option `marshaller_collection` in `Session.v` | |
| l.1008-1516 MarshallerCollection | `MColl.v` | bodies of third-party marshallers |
| l.1519-2237 File | `OpenM.v` (`__init__`), `FileApi.v`, `ThreadM.v` (locking), `MapM.v` (inherited methods) | `__enter__`/`__exit__`/`__del__`, which only call `close` |
| l.2240-2722 functions of the module | `OpenM.v` | |
| l.2725-2783 default collection | `Session.v`; reading and writing data (C14-C51) is modelled for the built-in collection | |
| plugins.py | `Session.v` | what third-party plugins do is a parameter |
| exceptions.py | not modelled | class definitions |

HDF5 and h5py are modelled by `Hdf5.v`: a heap of Groups and Datasets with attributes, links by name, references to
objects, `require_group`, `create_dataset`, `del`, `get`, and in-place assignment.  numpy arrays are a dtype, a shape and a
list of elements (`NdArray.v`).  Those two are assumptions about libraries, not models of code of the repository.

Statements use some functions of the model as words (paths, text, dtypes).  `Props_Words.v` says what these mean without the model:
C08_places (the place a path denotes, component by component), C29_words (code points, UTF-8 bytes, NULs), C42_words (UTF-16, decimal text),
C28_words (parts of a dtype), and C14_used (the short recursion used in the writing of arrays gives the same as the loop of `does_dtype_have_a_zero_shape`).

## Simplifications that matter

* Floats are bit patterns; nothing is computed with them.  `np.array_equal` is equality of shape and elements.
* Depth of recursion and the number of random draws are bounded by parameters (`n`, `tries`) over which every theorem
  quantifies; running out is `OutOfFuel` (RecursionError, or a loop that goes on).  C40 says how large they have to be.
* Random numbers are an arbitrary infinite sequence `rnd`.  Where a theorem needs them not to repeat within one call, it says so (`no_repeat`);
  C20 refutes the property without it.
* `==` of dict keys and set elements is an arbitrary relation `keq`, constrained only where a theorem says so.
* Reading does not change the file (h5py's caches are not modelled).  Memory and disk are the same: flushing and closing lose nothing.
* Calls cut short (C58, and in all histories): between any two calls of h5py that change the file, attribute by attribute, and anywhere inside the
  overwriting of a Dataset in place; each other call of h5py happens or does not (HDF5's own crash consistency is not modelled).  A call cut
  short between the making of the canonical empty and that of its attributes is in C58_other_data and C59_other_data, but histories do not go on from there
  (`mark_done`; after opening again the next write would replace it; for the same File see C59_half_made_refuted).  Histories go on with the same File after a
  caught interrupt as well as with a new one: the changes of `_refs_group`, `_created_refs_group`, `_canonical_empty` and of the random names used are
  steps of their own (`CutM.new_refsT`).  Not modelled: an interrupt after l.417-433 set `_refs_group` and before l.436 set `_refs_group_name`, which leaves
  the name None for the rest of the File (`H5PATH` of later elements would be the text 'None').
  A file opened read-only is not told from a writable one in `FileApi.v`; C21 covers what opening does.
* Names of fields in `Python.Fields` are looked up as single links.  `h5py` shows a compound of two floats named r and i as complex; the model
  does that at the top level only, so nested ones are excluded by `plain_type` (C28).
* Threads (C35): a step is everything a method does with the lock held.  The iterator of `__iter__` that is consumed after the lock is
  released, reading `closed` without the lock, and mutable data changed by another thread during a write are outside of the theorem.
* 4300-digit limit of `int(str)` in recent Python is not modelled.

## Findings (each is a theorem named `..._refuted`, or an example)

1. C04: `unescape_path("\\Uffffffff")` raises OverflowError, not ValueError.  C05: `\x5c\x5c...` is not decoded compositionally.
2. C08: `process_path` of a relative str is not idempotent.  C38: a PurePath and the str of it may differ.
3. C10/C24: `group_for_references="//"` is accepted; the guard over-rejects paths when the group is nested; `del f["#refs#"]` is not guarded;
   a dict written to `/` with `delete_unused_variables` deletes the references.
4. C13: an `add_marshaller` that raises has added the marshallers before the bad one.
5. C16/C27/C36: a str whose last code point is a multiple of 256 (e.g. U+0100) cannot be read: UnicodeDecodeError; as the value of a dict it is silently dropped (C46).
   Trailing NULs and a leading U+FEFF are lost.
6. C17: `complex_names` other than the recognised ones are not decoded.
7. C18/C31: an attribute that is left from an earlier value and has another dtype or shape is silently kept.  So bytes keys added to a dict of str keys come back as str; keys that are gone stay in the file without `delete_unused_variables`; a dict written over a structured array comes back as a structured array, and the reverse.
8. C20: the name of an element is reserved before nested elements are written; equal random numbers lose data.
9. C25/C34: `__iter__` uses `dropwhile`, so `#refs#` is listed when a name sorts before it; `loadmat` without names, `items` and `values` then raise (`popitem` and `clear` never see it, C47, C48).
10. C28: structured arrays: fields (r, i) become complex, bytes and str fields narrower than the dtype lose the dtype, empty arrays lose the dtypes of fields, fields of objects that are all numpy objects become typed.
11. C30: `dict_like_keys_name` with a slash lets a write of a dict change data elsewhere.
12. C32: with action "ignore", float16 arrays are written with dimensions reversed and read without.
13. C40: with `matlab_compatible`, writing a dict to a non-ASCII path raises UnicodeEncodeError after having written it.
14. C41: Counter gets no MATLAB_class.  C42: a struct without fields cannot be read (UnboundLocalError); with `structs_as_dicts` its members have their dimensions reversed.
15. C48: `clear` stops at a value that cannot be read.  C49: `update` writes the items before a bad path.  C51: `pop` is a read and a del, not atomic.
16. C52: a plugin that raises SystemExit or KeyboardInterrupt gets through `contextlib.suppress(Exception)` and aborts the constructor.
17. Non-gzip compressed Datasets cannot be overwritten in place (a bare `except` around `KeyError`, then `create_dataset` on an existing name).
18. C55: with the user marshallers first, one that declares a type string of another marshaller, but not the type, reads what the other one wrote.
19. C56: if random names repeat within a call (a chance of 2^-64 a pair, or a poor random source), a list in a list in a list can become a Dataset that refers to itself; reading it recurses without end.  `del f['/#refs#']` is allowed and makes all references dangle.
20. C56: in a file from elsewhere, an element named 'a' in the references group is deleted at the next write of a list to any path, and references to it dangle.
21. C58: overwriting is not atomic: when the type, shape or filters differ the old Dataset is deleted before the new one is made, and in place old and new elements can be mixed; after an interrupt the old value is lost.
22. C59: interrupted between `create_dataset('a')` and its attributes (utilities.py l.455-467), the File takes the canonical empty as complete and never marks it: what is left out of later lists reads back as two zeros instead of an empty array. An interrupt after l.433 and before l.436 (not modelled) leaves `_refs_group_name` None, so that H5PATH of later elements would be wrong.
23. C60: a Group without attributes or members (made by another program, or by writing {} without metadata) cannot be read: UnboundLocalError, Marshallers.py l.1308-1310; neither can one whose members are Datasets of references of different shapes, such as {'a': [1, 2], 'b': [3]} written with matlab_compatible and store_python_metadata off: IndexError, l.1317.
24. C23: `File._writable` is set to True for every File (`__init__.py` l.1666 does not use the argument), so the documented OSError "File is not writable." is never raised (l.1883, l.2228): for a file opened for reading `writes({})` succeeds, and other writes and `del` are refused by h5py only, with ValueError or KeyError, after the paths have been checked.  The model follows the code: no such check (`FileApi.v` l.13).

## Trusted base

* Coq 8.16.1's kernel (`coqc`; `vm_compute` is used for examples and finite checks, no `native_compute`), and the standard library.
* `Print Assumptions` of every theorem of `MANIFEST.json` says "Closed under the global context": no axioms.
  The files load seven axioms of the standard library, `Coq.ssr.ssrunder.Under_rel.{Under_rel, Under_relE, under_rel_done, Over_rel, over_rel,
  over_rel_done, Under_rel_from_rel}` (through `Zify`/ssreflect); no theorem depends on them.
* No axioms, parameters, functors, module types or plugins of our own; no `Admitted`; no kernel check is switched off.
* That the model says what the code does (read against the source; nothing was run), and that `Hdf5.v`, `NdArray.v`, `Unicode.v`, `PosixPath.v` and `Regex.v`
  describe h5py, numpy, CPython's codecs, `posixpath` and `re`.
* `tools/` only generates `MANIFEST.json` and `properties.jsonl` and runs the mutations of `seeded/LOG.jsonl`.
