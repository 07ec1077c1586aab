(** Properties C15-C18: conversions of arrays and attributes on the way to the file. *)
From Verif Require Import Base Unicode Dec NdArray Value OptionsM StrConv NpDims ConvFacts ComplexM Attrs.
Local Open Scope nat_scope.

(** C15: whatever the options, what is read back has the shape, type and elements
    of what was written (any rank, zero lengths included). *)
Theorem C15_dims_lossless : forall A o (a : arr A), wf_arr a ->
  read_dims (o_reverse o) (a_shape a) (write_dims o a) = a.
Proof. exact @dims_roundtrip. Qed.
Print Assumptions C15_dims_lossless.

(** with dimensions reversed every element is stored at the reversed index *)
Theorem C15_reversed_index : forall A o (a : arr A) idx, wf_arr a -> o_reverse o = true -> o_atleast_2d o = false ->
  at_index (write_dims o a) (rev idx) = at_index a idx.
Proof. exact @stored_at. Qed.
Print Assumptions C15_reversed_index.

Definition c15_arr : arr pyval := mkArr (TI 8) [2; 3; 2] (map (fun k => XInt (Z.of_nat k)) (seq 0 12)).
Example C15_ex : wf_arr c15_arr /\ at_index c15_arr [1; 2; 0] = Some (XInt 10) /\
  map (fun k => XInt (Z.of_nat k)) [0; 6; 2; 8; 4; 10; 1; 7; 3; 9; 5; 11] = a_data (tr c15_arr).
Proof. vm_compute. repeat split. Qed.
(** without reading with the same reversal the elements are scrambled *)
Example C15_ex_mismatch : read_dims false [2; 3; 2] (tr c15_arr) <> c15_arr.
Proof. vm_compute. discriminate. Qed.

(** C16: the strings of a str array or np.str_ come back, through either encoding,
    for every array shape and every setting of the options.  Missing for the full
    property: strings whose last code point is a multiple of 256 (see
    C16_str_codes_refuted), and 0-d ndarrays when UTF-16 conversion is on (the
    writer indexes an empty shape tuple). *)
Theorem C16_str_codes_partial : forall o c n sh l,
  Forall (fun e => exists s, e = XStr s /\ length s <= n /\ good_str s) l ->
  length l = prod sh -> n <> 0 -> prod sh <> 0 ->
  (c = CScalar -> sh = []) -> (c <> CScalar -> o_str_utf16 o = true -> sh <> []) ->
  exists b, store_str o c (mkArr (TUni n) sh l) = Ok b /\ (a_dt b = TU 2 \/ a_dt b = TU 4) /\
  exists a, read_str_array (o_reverse o) n sh (write_dims o b) = Ok a /\ a_shape a = sh /\ a_data a = l.
Proof.
  exact (fun o c n sh l H1 H2 H3 H4 H5 H6 =>
    match str_array_back o c n sh l H1 H2 H3 H4 H5 H6 with
    | ex_intro _ b (conj E (conj R W)) => ex_intro _ b (conj E (conj W (ex_intro _ _ (conj R (conj eq_refl
        (eq_sym (str_elems_map n l H1)))))))
    end).
Qed.
Print Assumptions C16_str_codes_partial.

(** UTF-16 is used exactly when asked for and no character needs a surrogate pair. *)
Theorem C16_utf16_or_32 : forall o s b, store_str o CScalar (np_str s) = Ok b -> good_str s -> s <> [] ->
  a_dt b = TU 2 <-> o_str_utf16 o = true /\ Forall (fun c => (c < 65536)%N) s.
Proof. exact str_scalar_width. Qed.
Print Assumptions C16_utf16_or_32.

(** np.bytes_ scalars and arrays come back whatever their bytes are (numpy itself
    does not show trailing NULs: strip0 s = s). *)
Theorem C16_bytes_codes : forall o n sh l,
  Forall (fun e => exists s, e = XBytes s /\ length s <= n /\ strip0 s = s) l ->
  length l = prod sh -> n <> 0 -> prod sh <> 0 ->
  read_bytes_array (o_reverse o) n sh (write_dims o (store_bytes o (mkArr (TS n) sh l))) = Ok (mkArr (TS n) sh l).
Proof. exact bytes_array_back. Qed.
Print Assumptions C16_bytes_codes.

(** Without the restriction the property is false: U+0100 is written without an
    error and cannot be read back. *)
Theorem C16_str_codes_refuted : forall o, exists s b,
  scalar_str s /\ strip0 s = s /\ store_str o CScalar (np_str s) = Ok b /\
  read_str_array (o_reverse o) 1 [] (write_dims o b) = Err UnicodeDecodeError.
Proof.
  intros o. exists [256%N], (mkArr (if o_str_utf16 o then TU 2 else TU 4) [1] [XInt 256]).
  split; [repeat constructor|]. split; [reflexivity|].
  destruct o as [a b c d e f g h i j]. destruct h, f, j; (split; [reflexivity|reflexivity]).
Qed.
Print Assumptions C16_str_codes_refuted.

(** an astral and a BMP string in a 2x1 array *)
Example C16_ex : Forall (fun e => exists s, e = XStr s /\ length s <= 3 /\ good_str s)
  [@XStr pyval [119070; 97]%N; XStr [224; 946]%N] /\ length [XStr [119070; 97]%N; @XStr pyval [224; 946]%N] = prod [2; 1].
Proof.
  split; [|reflexivity]. repeat constructor; eexists; (split; [reflexivity|]); (split; [cbn; lia|]);
    (split; [repeat constructor|right; vm_compute; discriminate]).
Qed.

(** C17 *)
Theorem C17_complex_roundtrip : forall A (a : arr A) names,
  (a_dt a = TC 8 \/ a_dt a = TC 16) -> Forall (fun e => exists re im, e = XCpx re im) (a_data a) ->
  recognised names ->
  exists b, encode_complex names a = Ok b /\ decode_complex b = Ok a /\ decode_complex (h5py_present b) = Ok a.
Proof. exact (fun A a names H1 H2 H3 => decode_encode a names (conj H1 H2) H3). Qed.
Print Assumptions C17_complex_roundtrip.

Theorem C17_others_left_alone : forall A (a : arr A),
  (forall n0 f0 n1 f1, a_dt a = TStruct [(n0, f0); (n1, f1)] -> ~ recognised (n0, n1) /\ ~ recognised (n1, n0)) ->
  decode_complex a = Ok a.
Proof. exact @decode_left_alone. Qed.
Print Assumptions C17_others_left_alone.

(** options.complex_names accepts any two strs, but only recognised names are
    decoded, and with ("imag", "real") the parts come back swapped. *)
Theorem C17_any_names_refuted : exists names (a b : arr pyval), (forall x, x = fst names -> x <> snd names) /\
  cpx_array a /\ encode_complex names a = Ok b /\ decode_complex b <> Ok a /\ exists a', decode_complex b = Ok a' /\ a_dt a' = a_dt a.
Proof.
  exists (lit "imag", lit "real"), (mkArr (TC 16) [] [XCpx 1 2]).
  eexists. split; [intros x ->; discriminate|]. split; [split; [right; reflexivity|repeat constructor; eauto]|].
  split; [reflexivity|]. split; [vm_compute; discriminate|]. eexists. split; reflexivity.
Qed.
Print Assumptions C17_any_names_refuted.
Example C17_ex : recognised (lit "r", lit "i") /\ recognised (lit "Real", lit "Imaginary") /\
  cpx_array (mkArr (TC 16) [2] [@XCpx pyval 9221120237041090560 1; XCpx 9223372036854775808 0]).
Proof.
  split; [split; cbn; auto|]. split; [split; cbn; auto|]. split; [right; reflexivity|]. repeat constructor; eauto.
Qed.

(** C18: on an object whose attributes are absent or of the same kind and length,
    set_attributes_all leaves exactly the requested attributes (and the others when
    they are not to be discarded). *)
Theorem C18_attributes_exact_partial : forall a reqs discard,
  NoDup (map fst reqs) ->
  (forall k q, In (k, q) reqs -> exists v, req_val q = Ok v) ->
  (forall k q old, In (k, q) reqs -> a k = Some old -> replaceable k q old) ->
  exists a', set_attributes_all a reqs discard = (a', None) /\
    (forall k v, requested reqs k v -> a' k = Some v) /\
    (forall k, ~ In k (map fst reqs) -> a' k = if discard then None else a k).
Proof. exact set_all_ok. Qed.
Print Assumptions C18_attributes_exact_partial.

(** ... but an existing attribute of another length is silently kept. *)
Theorem C18_stale_attribute_refuted : exists a reqs k v, NoDup (map fst reqs) /\ requested reqs k v /\
  exists a', set_attributes_all a reqs true = (a', None) /\ a' k <> Some v /\ a' k = a k.
Proof.
  exists (set_attr (lit "Python.Type") (AStr (lit "numpy.int64")) no_attrs), [(lit "Python.Type", QString (lit "long"))],
    (lit "Python.Type"), (AStr (lit "long")).
  split; [repeat constructor; cbn; tauto|]. split; [eexists; split; [left; reflexivity|reflexivity]|].
  eexists. split; [reflexivity|]. split; [vm_compute; discriminate|reflexivity].
Qed.
Print Assumptions C18_stale_attribute_refuted.
Example C18_ex :
  let a := set_attr (lit "Python.Type") (AStr (lit "int")) (set_attr (lit "MATLAB_class") (AStr (lit "int64")) no_attrs) in
  let reqs := [(lit "Python.Type", QString (lit "str")); (lit "Python.Shape", QVal (AU64s [2; 3]))] in
  NoDup (map fst reqs) /\ (forall k q, In (k, q) reqs -> exists v, req_val q = Ok v) /\
  (forall k q old, In (k, q) reqs -> a k = Some old -> replaceable k q old).
Proof.
  split; [apply NoDup_cons; [cbn; intros [H|[]]; discriminate|apply NoDup_cons; [intros []|apply NoDup_nil]]|]. split.
  - intros k q [H|[H|[]]]; injection H as <- <-; eexists; reflexivity.
  - intros k q old [H|[H|[]]] E; injection H as <- <-; vm_compute in E; [|discriminate].
    injection E as <-. right. right. eexists. split; reflexivity.
Qed.
