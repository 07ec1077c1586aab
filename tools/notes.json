{
 "C04": {
  "note": "Accepts exactly the well-formed paths; refuted: an escape above U+10FFFF that overflows C int raises OverflowError instead of ValueError."
 },
 "C05": {
  "note": "Proved for paths where no escaped backslash is followed by text that forms an escape; refuted in general (second pass over the result of the first)."
 },
 "C08": {
  "note": "All parts proved except idempotence of relative paths, which is refuted."
 },
 "C10": {
  "note": "Proved; refuted: group_for_references may be '//', the root."
 },
 "C13": {
  "note": "Proved for every history; refuted: a rejected add_marshaller is not atomic."
 },
 "C16": {
  "note": "Proved for strs whose last code point is not a multiple of 256 (and the width conditions in the statement); refuted for others."
 },
 "C17": {
  "note": "Proved for the names decode_complex recognises; refuted for other complex_names."
 },
 "C18": {
  "note": "Proved for objects without an attribute of the same name and another layout; refuted otherwise."
 },
 "C20": {
  "note": "Names are unused always; distinct when random numbers do not repeat within the call, refuted otherwise."
 },
 "C24": {
  "note": "Guard proved; exactness for a references group in the root; refuted for nested groups, '//', del and dicts at '/'."
 },
 "C25": {
  "note": "len/iteration proved when no name sorts before the references group; refuted otherwise; deletion proved."
 },
 "C27": {
  "note": "Every scalar; strs and bytes with the restrictions of C16; refuted for the others."
 },
 "C28": {
  "note": "Arrays of every dtype and shape, structured arrays with the restrictions of struct_obj/keeps_type/plain_type; the excluded ones are refuted. Missing: structured arrays with fields that are bytes narrower than the dtype etc. are false, not open."
 },
 "C29": {
  "note": "All containers at any nesting of storable leaves. Excluded: deque.maxlen, fold (not stored by the code), strs of C16."
 },
 "C30": {
  "note": "Proved for keys/values names without slash and other paths not below the one written; refuted for names with a slash."
 },
 "C31": {
  "note": "Proved for values of the same type, Dataset/Group changes, disjoint stored dtypes, dicts and records over dicts and records whose members can replace each other (to any depth), and structured arrays over structured arrays of the same container and number of dimensions, with the same or other fields, as Groups (single and several elements), or of the same dtype as compound Datasets; refuted in general (stale attributes, stale types of keys, keys that are gone without delete_unused_variables, dicts over structured arrays and the reverse). Missing: only pairs of different types whose attributes happen to have the same lengths."
 },
 "C32": {
  "note": "error and discard proved exactly; ignore for reading with the same order of dimensions, refuted otherwise."
 },
 "C34": {
  "note": "Proved for given names; for all variables when no name sorts before the references group, refuted otherwise."
 },
 "C36": {
  "note": "Proved for distinct texts of the key types; refuted for keys whose texts coincide or cannot be read."
 },
 "C38": {
  "note": "bytes and sequences proved; PurePath for paths with at most one initial slash that are absolute or have a component, refuted otherwise."
 },
 "C40": {
  "note": "Proved for storable values in new places; refuted for non-ASCII Group paths with matlab_compatible."
 },
 "C41": {
  "note": "Proved, also through later changes elsewhere, for presentable values in new places with the references group /#refs#; refuted for Counter (no MATLAB_class)."
 },
 "C42": {
  "note": "Proved for MATLAB values outside the references group of the reading options, described by MatlabSpec/MatReadSpec.readable (text of any characters, with UTF-16 pairs unless 32-bit text in the file has halves); refuted for structs without fields and for structs_as_dicts with several elements."
 },
 "C43": {
  "note": "Values that are presentable (C41) and modest (those C42 can read), references group /#refs#, written to new places."
 },
 "C44": {
  "note": "write/read for storable values in new places (C29, C40); savemat/loadmat with the names given (all names: C34)."
 },
 "C48": {
  "note": "Proved: clear ends, and empties the file unless a name cannot be read; refuted for files with a value that cannot be read."
 },
 "C49": {
  "note": "get proved; setdefault for storable defaults in new places; update equals writes when all paths can be written, refuted otherwise (paths are not checked first)."
 },
 "C50": {
  "note": "Proved when iteration does not give the references group and all values can be read; refuted otherwise."
 },
 "C51": {
  "note": "Refuted: pop reads and deletes in two calls. What remains is that nothing is removed twice."
 },
 "C52": {
  "note": "Proved for plugins that raise Exceptions; refuted for the exceptions that are no Exception (SystemExit, KeyboardInterrupt), which get through. Leaving out bad plugins: for plugins in different modules (of one module the last entry point counts, even if it is bad)."
 },
 "C53": {
  "note": "Plugins are assumed not to put modules into sys.modules that cannot be imported."
 },
 "C54": {
  "note": "Lookups stand for what reads and writes of the File use of the collection."
 },
 "C55": {
  "note": "Proved when no earlier marshaller declares the type or the type string (C55_own) and always for builtin types with the builtin marshallers first (C55_builtin_first); refuted for other priorities: a marshaller that declares only the type string takes over reading. C55_default_reader also justifies that the model of reading (C14-C51) dispatches on Python.Type only."
 },
 "C56": {
  "note": "Proved for files that start empty or in order, when no random number for a name comes twice within a call and the references group is not deleted. All of these are needed: C56_repeat_refuted (a Dataset comes to refer to itself and reading never ends), C56_del_refuted and C56_elsewhere_refuted (an element called 'a' in a file from elsewhere). C56_deep_enough shows that the proviso of C46 can always be met."
 },
 "C57": {
  "note": "For files that start empty or where 'a' is a canonical empty already; another 'a' is replaced at the next write of objects (C56_elsewhere_refuted shows what that does to references to it)."
 },
 "C58": {
  "note": "C58_other_data is complete for calls cut short between two calls of h5py that change the file (attributes one by one), and anywhere inside the overwriting of a Dataset in place, for files that start empty or in order. C58_again_partial: for values that can be stored (C29), deleting first; not after a cut between the making of the canonical empty and that of its attributes (mark_done), from which histories do not go on either (see C59). That the path itself is the old or the new value is refuted (C58_old_or_new_refuted). Since histories (reachable, later) contain calls cut short, C19, C25, C30, C39, C40, C45 and the others over histories hold after them too. C58_same ties the programs with the states in between to the others, and C58_steps says that no state is left out: from the first to the last they are one link, one attribute or one element apart, and each of them comes about so."
 },
 "C59": {
  "note": "C59_other_data is complete for the cuts of C58; of the session variables that utilities.py l.417-436 set one after the other, only _refs_group_name staying None (an interrupt between l.433 and l.436) is not modelled. C59_again_partial: like C58_again_partial, with the same File, not after a cut between the making of the canonical empty and that of its attributes, for which the claim is false (C59_half_made_refuted: elements left out of a list then read back as two zeros)."
 },
 "C60": {
  "note": "C60_plain_read_partial: for every file and nesting, any attributes besides the library's own. Missing, and refuted: a Group without members (C60_no_members_refuted: UnboundLocalError), and one whose members are all arrays of references of different dimensions (C60_ragged_refuted: IndexError); so values written without metadata can be unreadable. Compounds that hold references are not in the model. A member that is an array without axes may come back as its element (as NumPy stores it in a field)."
 },
 "C61": {
  "note": "C61_plain_write_partial (what is in the file), C61_stays_partial (after any later calls elsewhere), C61_arrays_back (arrays of numbers, bytes, truth values come back exactly), C61_read_back_partial (composition with C60, for data that is sound in the sense of C60). Missing: arrays whose elements are not what their dtypes say, dicts two keys of which have the same text, existing or overlapping paths, repeated random names."
 },
 "C62": {
  "note": "C62_file (the methods of File), C62_module (read, reads, loadmat), C62_set (setting another option), C62_each (each of the five matters: a file that is read differently), C62_writing (structs_as_dicts does not matter to writing)."
 }
}