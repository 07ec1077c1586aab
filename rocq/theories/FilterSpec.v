(** How Datasets are to be stored (docstrings of compress, compress_size_threshold,
    shuffle_filter, ..., __init__.py l.810-1005), and files made with one set of options. *)
From Verif Require Import Base PathEsc Dec NdArray Value OptionsM Attrs Hdf5 NpWrite MarshalW FileApi CutM ProcessPath.
Local Open Scope nat_scope.

(** compress is on, the data is not scalar, and takes up at least compress_size_threshold bytes *)
Definition to_compress (o : options) (shape : list nat) (bytes : nat) : Prop :=
  shape <> [] /\ o_compress o = true /\ exists z, as_int (o_threshold o) = Some z /\ (z <= Z.of_nat bytes)%Z.
Definition stored_right (o : options) (shape : list nat) (bytes : nat) (f : filt) : Prop :=
  (to_compress o shape bytes ->
     f_comp f = Some (o_algorithm o) /\ (o_algorithm o = lit "gzip" -> f_level f = as_int (o_level o)) /\
     f_shuffle f = o_shuffle o /\ f_fletcher f = o_cfletcher o) /\
  (~ to_compress o shape bytes ->
     f_comp f = None /\ f_level f = None /\ f_shuffle f = false /\ (f_fletcher f = true <-> shape <> [] /\ o_ufletcher o = true)) /\
  (f_chunked f = true <-> f_comp f <> None \/ f_fletcher f = true).

(** the bytes an element of a type takes in memory: strings have four for each character,
    references and pointers eight *)
Inductive occupies : dt -> nat -> Prop :=
| Oc_bool : occupies TBool 1
| Oc_uint w : occupies (TU w) w
| Oc_int w : occupies (TI w) w
| Oc_float w : occupies (TF w) w
| Oc_complex w : occupies (TC w) w
| Oc_bytes n : occupies (TS n) n
| Oc_text n : occupies (TUni n) (4 * n)
| Oc_object : occupies TObj 8
| Oc_ref : occupies TRef 8
| Oc_no_fields : occupies (TStruct []) 0
| Oc_field k d sh fs a b : occupies d a -> occupies (TStruct fs) b -> occupies (TStruct ((k, (d, sh)) :: fs)) (prod sh * a + b).

(** any number of sessions with the options [o], of any writes, some perhaps cut short, and deletions *)
Inductive made_with (o : options) : st -> Prop :=
| Made_new : made_with o empty_file
| Made_reopen s : made_with o s -> made_with o (new_session s)
| Made_writes s b rnd tries n mdict : made_with o s -> made_with o (fl_st (fst (file_writes o rnd tries n (mkFile b s) mdict)))
| Made_cut s b rnd tries n mdict s' : made_with o s -> cut_states o rnd tries n (mkFile b s) mdict s' -> made_with o s'
| Made_del s b p : made_with o s -> made_with o (fl_st (fst (file_del (mkFile b s) p))).

(** the names of the attributes that may be put on something with the options [o]: those
    of the Python metadata if asked for, and MATLAB's if asked for *)
Definition python_attr (k : pystr) : Prop := exists r, k = lit "Python." ++ r.
Definition matlab_attrs : list pystr := [lit "H5PATH"; lit "MATLAB_class"; lit "MATLAB_empty"; lit "MATLAB_fields"; lit "MATLAB_int_decode"].
Definition attr_allowed (o : options) (k : pystr) : Prop :=
  (o_store_python_metadata o = true /\ python_attr k) \/ (o_matlab_compatible o = true /\ In k matlab_attrs).
(** the mark of the canonical empty, "a" in the references group, which is always there *)
Definition canonical_mark (name : list pystr) (k : pystr) (v : aval) : Prop :=
  last name [] = lit "a" /\ ((k = lit "MATLAB_class" /\ v = AStr (lit "canonical empty")) \/ (k = lit "MATLAB_empty" /\ v = AU8 1)).
