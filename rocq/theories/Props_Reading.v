(** Property C62: what is read depends on five of the options, and what is written not
    on structs_as_dicts. *)
From Verif Require Import OptionsSpec Base PathEsc PosixPath ProcessPath Unicode Dec NdArray Value OptionsM StrConv MColl Attrs Hdf5 HeapFacts NpWrite MarshalW MarshalR FileApi OpenM RoundSpec Props_Options Props_Round Props_Matlab Props_MatRead ApiSpec.
Local Open Scope nat_scope.

(** the options that say how to read *)
Inductive for_reading : optname -> Prop :=
| Fr_reverse : for_reading ReverseDimensionOrder
| Fr_structs : for_reading StructsAsDicts
| Fr_refs : for_reading GroupForReferences
| Fr_keys : for_reading DictLikeKeysName
| Fr_values : for_reading DictLikeValuesName.
Definition read_alike (o o' : options) : Prop := forall n, for_reading n -> get o n = get o' n.

Lemma alike_fields o o' : read_alike o o' ->
  o_reverse o = o_reverse o' /\ o_structs_as_dicts o = o_structs_as_dicts o' /\ o_refs o = o_refs o' /\
  o_keys_name o = o_keys_name o' /\ o_values_name o = o_values_name o'.
Proof.
  intros H.
  assert (A := H _ Fr_reverse). assert (B := H _ Fr_structs). assert (C := H _ Fr_refs). assert (D := H _ Fr_keys). assert (E := H _ Fr_values).
  cbn [get] in A, B, C, D, E. injection A. injection B. injection C. injection D. injection E. auto 10.
Qed.
(** C62: with options that agree on those five (and whatever the others are), every way
    of reading gives the same, errors included. *)
Theorem C62_file : forall o o' depth keq f, read_alike o o' ->
  (forall p, file_read o depth keq f p = file_read o' depth keq f p) /\
  (forall ps, file_reads o depth keq f ps = file_reads o' depth keq f ps) /\
  file_len o f = file_len o' f /\ file_iter o f = file_iter o' f /\
  file_items depth keq o f = file_items depth keq o' f.
Proof.
  intros o o' depth keq f H. apply alike_fields in H. destruct o, o'. cbn in H. destruct H as (-> & -> & -> & -> & ->).
  repeat split; intros; reflexivity.
Qed.
Print Assumptions C62_file.
Theorem C62_module : forall o o' depth keq t, read_alike o o' ->
  (forall p e, mod_read depth keq t o p e = mod_read depth keq t o' p e) /\
  (forall ps e, mod_reads depth keq t o ps e = mod_reads depth keq t o' ps e) /\
  (forall peq d name old append names, loadmat depth keq t peq d name old append names o = loadmat depth keq t peq d name old append names o').
Proof.
  intros o o' depth keq t H. apply alike_fields in H. destruct o, o'. cbn in H. destruct H as (-> & -> & -> & -> & ->).
  repeat split; intros; reflexivity.
Qed.
Print Assumptions C62_module.
(** C62: so setting any other option (but matlab_compatible, which sets some of those)
    changes nothing of what is read. *)
Theorem C62_set : forall o n v o', set o n v = Ok o' -> ~ for_reading n -> n <> MatlabCompatible -> read_alike o o'.
Proof.
  intros o n v o' S NR NM k Hk. symmetry.
  assert (KN : k <> n) by (intros E; subst; contradiction). assert (KM : k <> MatlabCompatible) by (intros E; subst; inversion Hk).
  destruct (C10_frame o n v o' k S KN) as (F & _). auto.
Qed.
Print Assumptions C62_set.

(** C62: each of the five matters: for each there are a file, a path and options that
    differ in nothing else with which something else is read. *)
Definition c62_heap : heap := fun i => match i with
  | 0 => Some (mkObj [] (att []) (BGroup [(lit "a", 1); (lit "g", 2); (lit "d", 3); (lit "e", 7)]))
  | 1 => Some (mkObj [lit "a"] (att [(lit "Python.Type", AStr (lit "numpy.ndarray")); (lit "Python.numpy.UnderlyingType", AStr (lit "int64"));
                (lit "Python.numpy.Container", AStr (lit "ndarray")); (lit "Python.Shape", AU64s [2; 2])]) (BData (mkArr (TI 8) [2; 2] [XInt 1; XInt 2; XInt 3; XInt 4]) no_filt))
  | 2 => Some (mkObj [lit "g"] (att [(lit "MATLAB_class", AStr (lit "struct"))]) (BGroup [(lit "x", 4)]))
  | 3 => Some (mkObj [lit "d"] (att [(lit "Python.Type", AStr (lit "dict")); (lit "Python.dict.StoredAs", AStr (lit "keys_values"))])
                (BGroup [(lit "keys", 5); (lit "values", 6); (lit "k", 6); (lit "v", 5)]))
  | 4 => Some (mkObj [lit "g"; lit "x"] (att []) (BData (mkArr (TI 8) [] [XInt 3]) no_filt))
  | 5 => Some (mkObj [lit "d"; lit "keys"] (att []) (BData (mkArr TRef [1] [XPtr 4]) no_filt))
  | 6 => Some (mkObj [lit "d"; lit "values"] (att []) (BData (mkArr TRef [1] [XPtr 1]) no_filt))
  | 7 => Some (mkObj [lit "e"] (att [(lit "Python.Type", AStr (lit "dict"))]) (BGroup [(lit "y", 4)]))
  | _ => None
  end.
Definition c62_file : file := mkFile true (mkSt c62_heap 8 None false None 8 0).
Definition c62_reads (o : options) : list (res pyval) :=
  map (fun p => snd (file_read o 20 key_eq c62_file (PStr p))) [lit "/a"; lit "/g"; lit "/d"; lit "/e"].
Definition c62_other (n : optname) : optval := match n with
  | ReverseDimensionOrder | StructsAsDicts => OVBool true
  | GroupForReferences => OVStr (lit "/e/y")
  | DictLikeKeysName => OVStr (lit "k")
  | _ => OVStr (lit "v") end.
Definition c62_base : options := match init (fun n => match n with MatlabCompatible => OVBool false | n => default_args n end) with Ok o => o | Err _ => raw_defaults end.
Definition c62_set (n : optname) : options := match set c62_base n (c62_other n) with Ok o => o | Err _ => c62_base end.
Theorem C62_each : forall n, for_reading n -> exists o o', set o n (c62_other n) = Ok o' /\ (forall k, k <> n -> get o k = get o' k) /\ c62_reads o <> c62_reads o'.
Proof.
  intros n H. exists c62_base, (c62_set n). destruct H; (split; [vm_compute; reflexivity|]); (split; [intros k Hk; destruct k; try reflexivity; congruence|]).
  all: intros E; apply (f_equal (map (fun r => match r with Ok v => Some v | Err _ => None end))) in E; vm_compute in E; discriminate E.
Qed.
Print Assumptions C62_each.


(** The functions that write, taken with two options that differ in structs_as_dicts only. *)
Section Writers.
Variables (o : options) (b : bool).
Local Notation u := (upd_bool o StructsAsDicts b).
Ltac by_fields := cbv delta [upd_bool o_store_python_metadata o_matlab_compatible o_action o_delete_unused o_struct_as_struct o_atleast_2d o_bytes_utf16 o_str_utf16 o_bools_uint8 o_reverse o_structs_as_dicts o_shape_empty o_complex_names o_refs o_oned_as o_keys_name o_values_name o_compress o_threshold o_algorithm o_level o_shuffle o_cfletcher o_ufletcher]; destruct o; cbv beta iota; reflexivity.
Lemma s_np_incompatible : np_incompatible u = np_incompatible o. Proof. cbv beta delta [np_incompatible]; by_fields. Qed.
Lemma s_as_group : as_group u = as_group o. Proof. cbv beta delta [as_group]; try rewrite s_np_incompatible; by_fields. Qed.
Lemma s_np_filters : np_filters u = np_filters o. Proof. cbv beta delta [np_filters]; try rewrite s_np_incompatible; try rewrite s_as_group; by_fields. Qed.
Lemma s_fields_anyway : fields_anyway u = fields_anyway o. Proof. cbv beta delta [fields_anyway]; try rewrite s_np_incompatible; try rewrite s_as_group; try rewrite s_np_filters; by_fields. Qed.
Lemma s_np_prepare : np_prepare u = np_prepare o. Proof. cbv beta delta [np_prepare]; try rewrite s_np_incompatible; try rewrite s_as_group; try rewrite s_np_filters; try rewrite s_fields_anyway; by_fields. Qed.
Lemma s_np_attrs : np_attrs u = np_attrs o. Proof. cbv beta delta [np_attrs]; try rewrite s_np_incompatible; try rewrite s_as_group; try rewrite s_np_filters; try rewrite s_fields_anyway; try rewrite s_np_prepare; by_fields. Qed.
Lemma s_ensure_refs : ensure_refs u = ensure_refs o. Proof. cbv beta delta [ensure_refs]; try rewrite s_np_incompatible; try rewrite s_as_group; try rewrite s_np_filters; try rewrite s_fields_anyway; try rewrite s_np_prepare; try rewrite s_np_attrs; by_fields. Qed.
Lemma s_put_dataset : put_dataset u = put_dataset o. Proof. cbv beta delta [put_dataset]; try rewrite s_np_incompatible; try rewrite s_as_group; try rewrite s_np_filters; try rewrite s_fields_anyway; try rewrite s_np_prepare; try rewrite s_np_attrs; try rewrite s_ensure_refs; by_fields. Qed.
Lemma s_dict_attrs : dict_attrs u = dict_attrs o. Proof. cbv beta delta [dict_attrs]; try rewrite s_np_incompatible; try rewrite s_as_group; try rewrite s_np_filters; try rewrite s_fields_anyway; try rewrite s_np_prepare; try rewrite s_np_attrs; try rewrite s_ensure_refs; try rewrite s_put_dataset; by_fields. Qed.
Lemma s_mark_path : mark_path u = mark_path o. Proof. cbv beta delta [mark_path]; try rewrite s_np_incompatible; try rewrite s_as_group; try rewrite s_np_filters; try rewrite s_fields_anyway; try rewrite s_np_prepare; try rewrite s_np_attrs; try rewrite s_ensure_refs; try rewrite s_put_dataset; try rewrite s_dict_attrs; by_fields. Qed.
Lemma s_write_element : write_element u = write_element o. Proof. cbv beta delta [write_element]; try rewrite s_np_incompatible; try rewrite s_as_group; try rewrite s_np_filters; try rewrite s_fields_anyway; try rewrite s_np_prepare; try rewrite s_np_attrs; try rewrite s_ensure_refs; try rewrite s_put_dataset; try rewrite s_dict_attrs; try rewrite s_mark_path; by_fields. Qed.
Lemma s_write_object_array : write_object_array u = write_object_array o. Proof. cbv beta delta [write_object_array]; try rewrite s_np_incompatible; try rewrite s_as_group; try rewrite s_np_filters; try rewrite s_fields_anyway; try rewrite s_np_prepare; try rewrite s_np_attrs; try rewrite s_ensure_refs; try rewrite s_put_dataset; try rewrite s_dict_attrs; try rewrite s_mark_path; try rewrite s_write_element; by_fields. Qed.
Lemma s_write_field : write_field u = write_field o. Proof. cbv beta delta [write_field]; try rewrite s_np_incompatible; try rewrite s_as_group; try rewrite s_np_filters; try rewrite s_fields_anyway; try rewrite s_np_prepare; try rewrite s_np_attrs; try rewrite s_ensure_refs; try rewrite s_put_dataset; try rewrite s_dict_attrs; try rewrite s_mark_path; try rewrite s_write_element; try rewrite s_write_object_array; by_fields. Qed.
Lemma s_write_struct : write_struct u = write_struct o. Proof. cbv beta delta [write_struct]; try rewrite s_np_incompatible; try rewrite s_as_group; try rewrite s_np_filters; try rewrite s_fields_anyway; try rewrite s_np_prepare; try rewrite s_np_attrs; try rewrite s_ensure_refs; try rewrite s_put_dataset; try rewrite s_dict_attrs; try rewrite s_mark_path; try rewrite s_write_element; try rewrite s_write_object_array; try rewrite s_write_field; by_fields. Qed.
Lemma s_np_write : np_write u = np_write o. Proof. cbv beta delta [np_write]; try rewrite s_np_incompatible; try rewrite s_as_group; try rewrite s_np_filters; try rewrite s_fields_anyway; try rewrite s_np_prepare; try rewrite s_np_attrs; try rewrite s_ensure_refs; try rewrite s_put_dataset; try rewrite s_dict_attrs; try rewrite s_mark_path; try rewrite s_write_element; try rewrite s_write_object_array; try rewrite s_write_field; try rewrite s_write_struct; by_fields. Qed.
Lemma s_write_item : write_item u = write_item o. Proof. cbv beta delta [write_item]; try rewrite s_np_incompatible; try rewrite s_as_group; try rewrite s_np_filters; try rewrite s_fields_anyway; try rewrite s_np_prepare; try rewrite s_np_attrs; try rewrite s_ensure_refs; try rewrite s_put_dataset; try rewrite s_dict_attrs; try rewrite s_mark_path; try rewrite s_write_element; try rewrite s_write_object_array; try rewrite s_write_field; try rewrite s_write_struct; try rewrite s_np_write; by_fields. Qed.
Lemma s_dict_write : dict_write u = dict_write o. Proof. cbv beta delta [dict_write]; try rewrite s_np_incompatible; try rewrite s_as_group; try rewrite s_np_filters; try rewrite s_fields_anyway; try rewrite s_np_prepare; try rewrite s_np_attrs; try rewrite s_ensure_refs; try rewrite s_put_dataset; try rewrite s_dict_attrs; try rewrite s_mark_path; try rewrite s_write_element; try rewrite s_write_object_array; try rewrite s_write_field; try rewrite s_write_struct; try rewrite s_np_write; try rewrite s_write_item; by_fields. Qed.
Lemma s_write_value : write_value u = write_value o. Proof. cbv beta delta [write_value]; try rewrite s_np_incompatible; try rewrite s_as_group; try rewrite s_np_filters; try rewrite s_fields_anyway; try rewrite s_np_prepare; try rewrite s_np_attrs; try rewrite s_ensure_refs; try rewrite s_put_dataset; try rewrite s_dict_attrs; try rewrite s_mark_path; try rewrite s_write_element; try rewrite s_write_object_array; try rewrite s_write_field; try rewrite s_write_struct; try rewrite s_np_write; try rewrite s_write_item; try rewrite s_dict_write; by_fields. Qed.
Lemma s_write rnd tries n : write u rnd tries n = write o rnd tries n.
Proof. induction n as [|n IH]; [reflexivity|]. cbn [write]. rewrite IH, s_write_value. reflexivity. Qed.
Lemma s_check p : check_path u p = check_path o p. Proof. destruct o; reflexivity. Qed.
Lemma s_write_at rnd tries n : write_at u rnd tries n = write_at o rnd tries n.
Proof. cbv beta delta [write_at]. rewrite s_write. reflexivity. Qed.
Lemma s_checks m : mapr (fun pv : pypath * pyval => do gt <- check_path u (fst pv); Ok (gt, snd pv)) m = mapr (fun pv => do gt <- check_path o (fst pv); Ok (gt, snd pv)) m.
Proof. induction m as [|pv m IH]; [reflexivity|]. cbn [mapr]. rewrite s_check, IH. reflexivity. Qed.
Lemma s_writes rnd tries n f m : file_writes u rnd tries n f m = file_writes o rnd tries n f m.
Proof. unfold file_writes. rewrite s_checks, s_write_at. reflexivity. Qed.
Lemma s_open t a e : open_file u t a e = open_file o t a e.
Proof. destruct o; reflexivity. Qed.
Lemma s_mod rnd tries n t tr tri m e : mod_writes rnd tries n t u tr tri m e = mod_writes rnd tries n t o tr tri m e.
Proof. unfold mod_writes. rewrite s_open. destruct (open_file o t _ e) as [e1 [f|]]; [rewrite s_writes|]; reflexivity. Qed.
End Writers.

(** C62: and no way of writing asks for structs_as_dicts. *)
Theorem C62_writing : forall o o', (forall n, n <> StructsAsDicts -> get o n = get o' n) ->
  (forall rnd tries depth f m, file_writes o rnd tries depth f m = file_writes o' rnd tries depth f m) /\
  (forall rnd tries depth f v p, file_write o rnd tries depth f v p = file_write o' rnd tries depth f v p) /\
  (forall rnd tries depth t tr tri m e, mod_writes rnd tries depth t o tr tri m e = mod_writes rnd tries depth t o' tr tri m e).
Proof.
  intros o o' H.
  assert (E : forall b, upd_bool o StructsAsDicts b = upd_bool o' StructsAsDicts b).
  { intros b.
    pose proof (H StorePythonMetadata ltac:(discriminate)) as A0; cbn [get] in A0.
    pose proof (H MatlabCompatible ltac:(discriminate)) as A1; cbn [get] in A1.
    pose proof (H ActionForMatlabIncompatible ltac:(discriminate)) as A2; cbn [get] in A2.
    pose proof (H DeleteUnusedVariables ltac:(discriminate)) as A3; cbn [get] in A3.
    pose proof (H StructuredNumpyNdarrayAsStruct ltac:(discriminate)) as A4; cbn [get] in A4.
    pose proof (H MakeAtleast2d ltac:(discriminate)) as A5; cbn [get] in A5.
    pose proof (H ConvertNumpyBytesToUtf16 ltac:(discriminate)) as A6; cbn [get] in A6.
    pose proof (H ConvertNumpyStrToUtf16 ltac:(discriminate)) as A7; cbn [get] in A7.
    pose proof (H ConvertBoolsToUint8 ltac:(discriminate)) as A8; cbn [get] in A8.
    pose proof (H ReverseDimensionOrder ltac:(discriminate)) as A9; cbn [get] in A9.
    pose proof (H StoreShapeForEmpty ltac:(discriminate)) as A10; cbn [get] in A10.
    pose proof (H ComplexNames ltac:(discriminate)) as A11; cbn [get] in A11.
    pose proof (H GroupForReferences ltac:(discriminate)) as A12; cbn [get] in A12.
    pose proof (H OnedAs ltac:(discriminate)) as A13; cbn [get] in A13.
    pose proof (H DictLikeKeysName ltac:(discriminate)) as A14; cbn [get] in A14.
    pose proof (H DictLikeValuesName ltac:(discriminate)) as A15; cbn [get] in A15.
    pose proof (H Compress ltac:(discriminate)) as A16; cbn [get] in A16.
    pose proof (H CompressSizeThreshold ltac:(discriminate)) as A17; cbn [get] in A17.
    pose proof (H CompressionAlgorithm ltac:(discriminate)) as A18; cbn [get] in A18.
    pose proof (H GzipCompressionLevel ltac:(discriminate)) as A19; cbn [get] in A19.
    pose proof (H ShuffleFilter ltac:(discriminate)) as A20; cbn [get] in A20.
    pose proof (H CompressedFletcher32Filter ltac:(discriminate)) as A21; cbn [get] in A21.
    pose proof (H UncompressedFletcher32Filter ltac:(discriminate)) as A22; cbn [get] in A22.
    clear H.
    injection A0 as A0.
    injection A1 as A1.
    injection A2 as A2.
    injection A3 as A3.
    injection A4 as A4.
    injection A5 as A5.
    injection A6 as A6.
    injection A7 as A7.
    injection A8 as A8.
    injection A9 as A9.
    injection A10 as A10.
    injection A11 as A11 A11b.
    injection A12 as A12.
    injection A13 as A13.
    injection A14 as A14.
    injection A15 as A15.
    injection A16 as A16.
    injection A18 as A18.
    injection A20 as A20.
    injection A21 as A21.
    injection A22 as A22.
    destruct o as [? ? ? ? ? ? ? ? ? ? ? ? [? ?] ? ? ? ? ? ? ? ? ? ? ?], o' as [? ? ? ? ? ? ? ? ? ? ? ? [? ?] ? ? ? ? ? ? ? ? ? ? ?].
    cbn in A0, A1, A2, A3, A4, A5, A6, A7, A8, A9, A10, A11, A12, A13, A14, A15, A16, A17, A18, A19, A20, A21, A22, A11b. subst. reflexivity. }
  specialize (E true). split; [|split]; intros.
  - rewrite <- (s_writes o true), <- (s_writes o' true), E. reflexivity.
  - unfold file_write. rewrite <- (s_writes o true), <- (s_writes o' true), E. reflexivity.
  - rewrite <- (s_mod o true), <- (s_mod o' true), E. reflexivity.
Qed.
Print Assumptions C62_writing.
