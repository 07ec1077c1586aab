{
 "claims": [
  {
   "property": "C01",
   "status": "proved",
   "theorems": [
    "C01_unescape_escape"
   ],
   "note": ""
  },
  {
   "property": "C02",
   "status": "proved",
   "theorems": [
    "C02_escape_safe"
   ],
   "note": ""
  },
  {
   "property": "C03",
   "status": "proved",
   "theorems": [
    "C03_escape_injective"
   ],
   "note": ""
  },
  {
   "property": "C04",
   "status": "partial",
   "theorems": [
    "C04_malformed_rejected",
    "C04_wellformed_grammar",
    "C04_wellformed_accepted",
    "C04_only_ValueError_refuted"
   ],
   "note": "Accepts exactly the well-formed paths; refuted: an escape above U+10FFFF that overflows C int raises OverflowError instead of ValueError."
  },
  {
   "property": "C05",
   "status": "partial",
   "theorems": [
    "C05_unescape_meaning_partial",
    "C05_unescape_meaning_refuted"
   ],
   "note": "Proved for paths where no escaped backslash is followed by text that forms an escape; refuted in general (second pass over the result of the first)."
  },
  {
   "property": "C06",
   "status": "proved",
   "theorems": [
    "C06_separated_path",
    "C06_no_traversal",
    "C06_empty_parts_vanish",
    "C06_type_errors"
   ],
   "note": ""
  },
  {
   "property": "C07",
   "status": "proved",
   "theorems": [
    "C07_separated_injective"
   ],
   "note": ""
  },
  {
   "property": "C08",
   "status": "partial",
   "theorems": [
    "C08_target_single",
    "C08_idempotent_absolute",
    "C08_idempotent_relative_refuted",
    "C08_clean_absolute",
    "C08_absolute_no_traversal",
    "C08_dotdot_cancels",
    "C08_places"
   ],
   "note": "All parts proved except idempotence of relative paths, which is refuted."
  },
  {
   "property": "C09",
   "status": "proved",
   "theorems": [
    "C09_matlab_values",
    "C09_matlab_on"
   ],
   "note": ""
  },
  {
   "property": "C10",
   "status": "partial",
   "theorems": [
    "C10_always_legal",
    "C10_set_value",
    "C10_set_errors",
    "C10_frame",
    "C10_refs_not_root_refuted"
   ],
   "note": "Proved; refuted: group_for_references may be '//', the root."
  },
  {
   "property": "C11",
   "status": "proved",
   "theorems": [
    "C11_priority",
    "C11_lookup"
   ],
   "note": ""
  },
  {
   "property": "C12",
   "status": "proved",
   "theorems": [
    "C12_lazy_unobservable",
    "C12_lookups_change_nothing"
   ],
   "note": ""
  },
  {
   "property": "C13",
   "status": "partial",
   "theorems": [
    "C13_history",
    "C13_rejected_add_atomic_refuted"
   ],
   "note": "Proved for every history; refuted: a rejected add_marshaller is not atomic."
  },
  {
   "property": "C14",
   "status": "proved",
   "theorems": [
    "C14_zero_shape",
    "C14_used"
   ],
   "note": ""
  },
  {
   "property": "C15",
   "status": "proved",
   "theorems": [
    "C15_dims_lossless",
    "C15_reversed_index"
   ],
   "note": ""
  },
  {
   "property": "C16",
   "status": "partial",
   "theorems": [
    "C16_str_codes_partial",
    "C16_utf16_or_32",
    "C16_bytes_codes",
    "C16_str_codes_refuted"
   ],
   "note": "Proved for strs whose last code point is not a multiple of 256 (and the width conditions in the statement); refuted for others."
  },
  {
   "property": "C17",
   "status": "partial",
   "theorems": [
    "C17_complex_roundtrip",
    "C17_others_left_alone",
    "C17_any_names_refuted"
   ],
   "note": "Proved for the names decode_complex recognises; refuted for other complex_names."
  },
  {
   "property": "C18",
   "status": "partial",
   "theorems": [
    "C18_attributes_exact_partial",
    "C18_stale_attribute_refuted"
   ],
   "note": "Proved for objects without an attribute of the same name and another layout; refuted otherwise."
  },
  {
   "property": "C19",
   "status": "proved",
   "theorems": [
    "C19_filters"
   ],
   "note": ""
  },
  {
   "property": "C20",
   "status": "partial",
   "theorems": [
    "C20_unused",
    "C20_distinct_partial",
    "C20_distinct_refuted"
   ],
   "note": "Names are unused always; distinct when random numbers do not repeat within the call, refuted otherwise."
  },
  {
   "property": "C21",
   "status": "proved",
   "theorems": [
    "C21_kept",
    "C21_read_only",
    "C21_foreign",
    "C21_new",
    "C21_write_elsewhere"
   ],
   "note": ""
  },
  {
   "property": "C22",
   "status": "proved",
   "theorems": [
    "C22_header"
   ],
   "note": ""
  },
  {
   "property": "C23",
   "status": "proved",
   "theorems": [
    "C23_validates_first"
   ],
   "note": ""
  },
  {
   "property": "C24",
   "status": "partial",
   "theorems": [
    "C24_protected",
    "C24_exact_partial",
    "C24_nested_refuted",
    "C24_slashes_refuted",
    "C24_del_refuted",
    "C24_root_refuted"
   ],
   "note": "Guard proved; exactness for a references group in the root; refuted for nested groups, '//', del and dicts at '/'."
  },
  {
   "property": "C25",
   "status": "partial",
   "theorems": [
    "C25_len_iter_partial",
    "C25_len_iter_refuted",
    "C25_del",
    "C25_len"
   ],
   "note": "len/iteration proved when no name sorts before the references group; refuted otherwise; deletion proved."
  },
  {
   "property": "C26",
   "status": "proved",
   "theorems": [
    "C26_closed"
   ],
   "note": ""
  },
  {
   "property": "C27",
   "status": "partial",
   "theorems": [
    "C27_scalars_partial",
    "C27_scalars_refuted"
   ],
   "note": "Every scalar; strs and bytes with the restrictions of C16; refuted for the others."
  },
  {
   "property": "C28",
   "status": "partial",
   "theorems": [
    "C28_arrays_partial",
    "C28_structured",
    "C28_structured_refuted",
    "C28_words"
   ],
   "note": "Arrays of every dtype and shape, structured arrays with the restrictions of struct_obj/keeps_type/plain_type; the excluded ones are refuted. Missing: structured arrays with fields that are bytes narrower than the dtype etc. are false, not open."
  },
  {
   "property": "C29",
   "status": "partial",
   "theorems": [
    "C29_round_trip_partial",
    "C29_words"
   ],
   "note": "All containers at any nesting of storable leaves. Excluded: deque.maxlen, fold (not stored by the code), strs of C16."
  },
  {
   "property": "C30",
   "status": "partial",
   "theorems": [
    "C30_other_data_partial",
    "C30_del_partial",
    "C30_keys_name_refuted"
   ],
   "note": "Proved for keys/values names without slash and other paths not below the one written; refuted for names with a slash."
  },
  {
   "property": "C31",
   "status": "partial",
   "theorems": [
    "C31_last_write_partial",
    "C31_last_write_refuted",
    "C31_dict_refuted",
    "C31_struct_refuted"
   ],
   "note": "Proved for values of the same type, Dataset/Group changes, disjoint stored dtypes, dicts and records over dicts and records whose members can replace each other (to any depth), and structured arrays over structured arrays of the same container and number of dimensions, with the same or other fields, as Groups (single and several elements), or of the same dtype as compound Datasets; refuted in general (stale attributes, stale types of keys, keys that are gone without delete_unused_variables, dicts over structured arrays and the reverse). Missing: only pairs of different types whose attributes happen to have the same lengths."
  },
  {
   "property": "C32",
   "status": "partial",
   "theorems": [
    "C32_error",
    "C32_not_written",
    "C32_discard",
    "C32_ignore_partial",
    "C32_ignore_refuted"
   ],
   "note": "error and discard proved exactly; ignore for reading with the same order of dimensions, refuted otherwise."
  },
  {
   "property": "C33",
   "status": "proved",
   "theorems": [
    "C33_missing",
    "C33_reads_pure"
   ],
   "note": ""
  },
  {
   "property": "C34",
   "status": "partial",
   "theorems": [
    "C34_names",
    "C34_mdict",
    "C34_all_partial",
    "C34_all_refuted"
   ],
   "note": "Proved for given names; for all variables when no name sorts before the references group, refuted otherwise."
  },
  {
   "property": "C35",
   "status": "proved",
   "theorems": [
    "C35_atomic",
    "C35_any_steps",
    "C35_no_deadlock"
   ],
   "note": ""
  },
  {
   "property": "C36",
   "status": "partial",
   "theorems": [
    "C36_dicts_partial",
    "C36_texts_refuted"
   ],
   "note": "Proved for distinct texts of the key types; refuted for keys whose texts coincide or cannot be read."
  },
  {
   "property": "C37",
   "status": "proved",
   "theorems": [
    "C37_ints"
   ],
   "note": ""
  },
  {
   "property": "C38",
   "status": "partial",
   "theorems": [
    "C38_bytes_form",
    "C38_bytes_form_total",
    "C38_purepath_form_partial",
    "C38_purepath_form_refuted",
    "C38_sequence_form"
   ],
   "note": "bytes and sequences proved; PurePath for paths with at most one initial slash that are absolute or have a component, refuted otherwise."
  },
  {
   "property": "C39",
   "status": "proved",
   "theorems": [
    "C39_survives",
    "C39_stored_survives"
   ],
   "note": ""
  },
  {
   "property": "C40",
   "status": "partial",
   "theorems": [
    "C40_writes_succeed",
    "C40_ascii_refuted"
   ],
   "note": "Proved for storable values in new places; refuted for non-ASCII Group paths with matlab_compatible."
  },
  {
   "property": "C41",
   "status": "partial",
   "theorems": [
    "C41_matlab_form_partial",
    "C41_stays_partial",
    "C41_counter_refuted"
   ],
   "note": "Proved, also through later changes elsewhere, for presentable values in new places with the references group /#refs#; refuted for Counter (no MATLAB_class)."
  },
  {
   "property": "C42",
   "status": "partial",
   "theorems": [
    "C42_matlab_read_partial",
    "C42_no_fields_refuted",
    "C42_dicts_shape_refuted",
    "C42_words"
   ],
   "note": "Proved for MATLAB values outside the references group of the reading options, described by MatlabSpec/MatReadSpec.readable (text of any characters, with UTF-16 pairs unless 32-bit text in the file has halves); refuted for structs without fields and for structs_as_dicts with several elements."
  },
  {
   "property": "C43",
   "status": "partial",
   "theorems": [
    "C43_without_metadata_partial"
   ],
   "note": "Values that are presentable (C41) and modest (those C42 can read), references group /#refs#, written to new places."
  },
  {
   "property": "C44",
   "status": "partial",
   "theorems": [
    "C44_write_read_partial",
    "C44_default_reading",
    "C44_savemat_loadmat_partial"
   ],
   "note": "write/read for storable values in new places (C29, C40); savemat/loadmat with the names given (all names: C34)."
  },
  {
   "property": "C45",
   "status": "proved",
   "theorems": [
    "C45_only_asked",
    "C45_no_python",
    "C45_added",
    "C45_savemat"
   ],
   "note": ""
  },
  {
   "property": "C46",
   "status": "proved",
   "theorems": [
    "C46_dict",
    "C46_struct",
    "C46_pairs"
   ],
   "note": ""
  },
  {
   "property": "C47",
   "status": "proved",
   "theorems": [
    "C47_pop",
    "C47_popitem"
   ],
   "note": ""
  },
  {
   "property": "C48",
   "status": "partial",
   "theorems": [
    "C48_clear_partial",
    "C48_clear_readable",
    "C48_clear_refuted"
   ],
   "note": "Proved: clear ends, and empties the file unless a name cannot be read; refuted for files with a value that cannot be read."
  },
  {
   "property": "C49",
   "status": "partial",
   "theorems": [
    "C49_get",
    "C49_setdefault_partial",
    "C49_update_partial",
    "C49_update_refuted"
   ],
   "note": "get proved; setdefault for storable defaults in new places; update equals writes when all paths can be written, refuted otherwise (paths are not checked first)."
  },
  {
   "property": "C50",
   "status": "partial",
   "theorems": [
    "C50_items_partial",
    "C50_items_refuted"
   ],
   "note": "Proved when iteration does not give the references group and all values can be read; refuted otherwise."
  },
  {
   "property": "C51",
   "status": "partial",
   "theorems": [
    "C51_pop_refuted",
    "C51_once_partial"
   ],
   "note": "Refuted: pop reads and deletes in two calls. What remains is that nothing is removed twice."
  },
  {
   "property": "C52",
   "status": "partial",
   "theorems": [
    "C52_construct",
    "C52_lookup",
    "C52_bad_plugins",
    "C52_off",
    "C52_exit_refuted"
   ],
   "note": "Proved for plugins that raise Exceptions; refuted for the exceptions that are no Exception (SystemExit, KeyboardInterrupt), which get through. Leaving out bad plugins: for plugins in different modules (of one module the last entry point counts, even if it is bad)."
  },
  {
   "property": "C53",
   "status": "proved",
   "theorems": [
    "C53_exists",
    "C53_stays",
    "C53_make_new",
    "C53_options",
    "C53_own_history",
    "C53_others"
   ],
   "note": "Plugins are assumed not to put modules into sys.modules that cannot be imported."
  },
  {
   "property": "C54",
   "status": "proved",
   "theorems": [
    "C54_snapshot",
    "C54_shared",
    "C54_keywords"
   ],
   "note": "Lookups stand for what reads and writes of the File use of the collection."
  },
  {
   "property": "C55",
   "status": "partial",
   "theorems": [
    "C55_write",
    "C55_read",
    "C55_own",
    "C55_builtin_first",
    "C55_values",
    "C55_in_file",
    "C55_default_reader",
    "C55_read_by_writer_refuted"
   ],
   "note": "Proved when no earlier marshaller declares the type or the type string (C55_own) and always for builtin types with the builtin marshallers first (C55_builtin_first); refuted for other priorities: a marshaller that declares only the type string takes over reading. C55_default_reader also justifies that the model of reading (C14-C51) dispatches on Python.Type only."
  },
  {
   "property": "C56",
   "status": "partial",
   "theorems": [
    "C56_never_dangle",
    "C56_no_way_back",
    "C56_reading_ends",
    "C56_deep_enough",
    "C56_repeat_refuted",
    "C56_del_refuted",
    "C56_elsewhere_refuted"
   ],
   "note": "Proved for files that start empty or in order, when no random number for a name comes twice within a call and the references group is not deleted. All of these are needed: C56_repeat_refuted (a Dataset comes to refer to itself and reading never ends), C56_del_refuted and C56_elsewhere_refuted (an element called 'a' in a file from elsewhere). C56_deep_enough shows that the proviso of C46 can always be met."
  },
  {
   "property": "C57",
   "status": "proved",
   "theorems": [
    "C57_canonical"
   ],
   "note": "For files that start empty or where 'a' is a canonical empty already; another 'a' is replaced at the next write of objects (C56_elsewhere_refuted shows what that does to references to it)."
  },
  {
   "property": "C58",
   "status": "partial",
   "theorems": [
    "C58_same",
    "C58_steps",
    "C58_finite",
    "C58_other_data",
    "C58_again_partial",
    "C58_old_or_new_refuted"
   ],
   "note": "C58_other_data is complete for calls cut short between two calls of h5py that change the file (attributes one by one), and anywhere inside the overwriting of a Dataset in place, for files that start empty or in order. C58_again_partial: for values that can be stored (C29), deleting first; not after a cut between the making of the canonical empty and that of its attributes (mark_done), from which histories do not go on either (see C59). That the path itself is the old or the new value is refuted (C58_old_or_new_refuted). Since histories (reachable, later) contain calls cut short, C19, C25, C30, C39, C40, C45 and the others over histories hold after them too. C58_same ties the programs with the states in between to the others, and C58_steps says that no state is left out: from the first to the last they are one link, one attribute or one element apart, and each of them comes about so."
  },
  {
   "property": "C59",
   "status": "partial",
   "theorems": [
    "C59_other_data",
    "C59_again_partial",
    "C59_half_made_refuted"
   ],
   "note": "C59_other_data is complete for the cuts of C58; of the session variables that utilities.py l.417-436 set one after the other, only _refs_group_name staying None (an interrupt between l.433 and l.436) is not modelled. C59_again_partial: like C58_again_partial, with the same File, not after a cut between the making of the canonical empty and that of its attributes, for which the claim is false (C59_half_made_refuted: elements left out of a list then read back as two zeros)."
  },
  {
   "property": "C60",
   "status": "partial",
   "theorems": [
    "C60_plain_read_partial",
    "C60_no_members_refuted",
    "C60_ragged_refuted"
   ],
   "note": "C60_plain_read_partial: for every file and nesting, any attributes besides the library's own. Missing, and refuted: a Group without members (C60_no_members_refuted: UnboundLocalError), and one whose members are all arrays of references of different dimensions (C60_ragged_refuted: IndexError); so values written without metadata can be unreadable. Compounds that hold references are not in the model. A member that is an array without axes may come back as its element (as NumPy stores it in a field)."
  },
  {
   "property": "C61",
   "status": "partial",
   "theorems": [
    "C61_plain_write_partial",
    "C61_stays_partial",
    "C61_read_back_partial",
    "C61_arrays_back"
   ],
   "note": "C61_plain_write_partial (what is in the file), C61_stays_partial (after any later calls elsewhere), C61_arrays_back (arrays of numbers, bytes, truth values come back exactly), C61_read_back_partial (composition with C60, for data that is sound in the sense of C60). Missing: arrays whose elements are not what their dtypes say, dicts two keys of which have the same text, existing or overlapping paths, repeated random names."
  },
  {
   "property": "C62",
   "status": "proved",
   "theorems": [
    "C62_file",
    "C62_module",
    "C62_set",
    "C62_each",
    "C62_writing"
   ],
   "note": "C62_file (the methods of File), C62_module (read, reads, loadmat), C62_set (setting another option), C62_each (each of the five matters: a file that is read differently), C62_writing (structs_as_dicts does not matter to writing)."
  }
 ]
}