(** Property C45: metadata that was not asked for is not written. *)
From Verif Require Import Base PathEsc PosixPath ProcessPath Unicode Dec NdArray Value OptionsM OptionsSpec Attrs Hdf5 HeapFacts MarshalW MarshalR FileApi ApiSpec Steps FilterSpec FilterFacts OpenM OpenSpec Props_Module.
Local Open Scope nat_scope.

(** C45: in a file made with one set of options, through any number of sessions of writes
    and deletions, whatever they wrote and whether they failed, an attribute of an object
    is either one of hdf5storage's Python metadata and store_python_metadata is on, or one
    of those MATLAB uses and matlab_compatible is on; except for the mark on the canonical
    empty. *)
Theorem C45_only_asked : forall o s i ob k v, made_with o s -> hp s i = Some ob -> o_attrs ob k = Some v ->
  attr_allowed o k \/ canonical_mark (o_name ob) k v.
Proof. intros o s i ob k v M H. exact (only_asked o s M i ob H k v). Qed.
Print Assumptions C45_only_asked.
Theorem C45_no_python : forall o s i ob k v, o_store_python_metadata o = false -> made_with o s -> hp s i = Some ob -> o_attrs ob k = Some v ->
  ~ python_attr k.
Proof.
  intros o s i ob k v MF M H E [r ->]. destruct (C45_only_asked o s i ob _ v M H E) as [[[X _]|[_ X]]|[_ [[X _]|[X _]]]]; try discriminate X; [congruence|].
  unfold matlab_attrs in X. cbn [In] in X. repeat (destruct X as [X|X]; [discriminate X|]). exact X.
Qed.
Print Assumptions C45_no_python.
(** Writing to a file made any other way adds only such attributes to it. *)
Theorem C45_added : forall o rnd tries n b s mdict i ob k v, hp (fl_st (fst (file_writes o rnd tries n (mkFile b s) mdict))) i = Some ob -> o_attrs ob k = Some v ->
  (exists ob0, hp s i = Some ob0 /\ o_attrs ob0 k = Some v) \/ attr_allowed o k \/ canonical_mark (o_name ob) k v.
Proof.
  intros o rnd tries n b s mdict i ob k v H E.
  assert (K : kept (hp s) o (fl_st (fst (file_writes o rnd tries n (mkFile b s) mdict)))).
  { eapply (steps_inv o); [apply kept_step|apply (does_writes o rnd tries n (mkFile b s) mdict)|]. intros i' ob' k' v' H' E'. left. eauto. }
  exact (K i ob k v H E).
Qed.
Print Assumptions C45_added.
(** savemat passes on what it is told, and is always for MATLAB. *)
Theorem C45_savemat : forall metadata oned action, save_args oned action ->
  exists o, savemat_options metadata oned action = Ok o /\ o_store_python_metadata o = metadata /\ o_matlab_compatible o = true /\ o_oned_as o = oned /\ o_action o = action.
Proof.
  intros metadata oned action [[-> | ->] [-> | [-> | ->]]]; destruct metadata; (eexists; split; [vm_compute; reflexivity|]); vm_compute; auto.
Qed.
Print Assumptions C45_savemat.
Definition c45_value : pyval := VDict MDict [(VStr (lit "k"), VSeq QList [VInt 1; VStr (lit "s"); VSeq QTuple []])].
Definition c45_file (metadata matlab : bool) : st :=
  fl_st (fst (file_writes (with_option (with_option default_options StorePythonMetadata (OVBool metadata)) MatlabCompatible (OVBool matlab)) N.of_nat 5 20 (mkFile true empty_file) [(PStr (lit "/x"), c45_value)])).
Definition attrs_there (s : st) (p : list pystr) : list pystr :=
  match walk (hp s) 0 p with
  | Some i => filter (fun k => match attrs_of (hp s) i k with Some _ => true | None => false end)
                [lit "Python.Type"; lit "Python.Fields"; lit "Python.Shape"; lit "MATLAB_class"; lit "MATLAB_fields"; lit "H5PATH"]
  | None => []
  end.
Example C45_ex : (forall a b, made_with (with_option (with_option default_options StorePythonMetadata (OVBool a)) MatlabCompatible (OVBool b)) (c45_file a b)) /\
  attrs_there (c45_file true true) [lit "x"; lit "k"] = [lit "Python.Type"; lit "Python.Shape"; lit "MATLAB_class"; lit "H5PATH"] /\
  attrs_there (c45_file true false) [lit "x"; lit "k"] = [lit "Python.Type"; lit "Python.Shape"] /\
  attrs_there (c45_file false true) [lit "x"] = [lit "MATLAB_class"; lit "MATLAB_fields"] /\
  attrs_there (c45_file false false) [lit "x"; lit "k"] = [].
Proof. split; [intros; apply Made_writes, Made_new|]. vm_compute. auto. Qed.
