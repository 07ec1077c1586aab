(** Property C32: what is done with data MATLAB has no type for. *)
From Verif Require Import Base PathEsc PosixPath ProcessPath Unicode Dec NdArray Value OptionsM OptionsSpec NpDims Hdf5 HeapFacts NpWrite MarshalW MarshalR FileApi ApiSpec FileFacts RndFacts RoundSpec ProgressSpec Plan IncompatSpec Incompat Props_Round.
Local Open Scope nat_scope.

(** C32, "error": a call that does not raise has not been given such data, anywhere inside
    of any of the values. *)
Theorem C32_error : forall o rnd tries n f mdict f', o_matlab_compatible o = true -> o_action o = lit "error" ->
  file_writes o rnd tries n f mdict = (f', Ok tt) -> forall p v, In (p, v) mdict -> forall c a, no_class (a_dt a) -> ~ within (VNp c a) v.
Proof. intros o rnd tries n f mdict f' HM HE E p v H. exact (writes_fine o rnd tries HM HE n f mdict f' E p v H). Qed.
Print Assumptions C32_error.
(** "error" and "discard", given such data for a path: the first raises
    TypeNotMatlabCompatibleError, the second does not; either way there is afterwards at
    the path what was there before. *)
Theorem C32_not_written : forall refs s o rnd tries n p cs c a f r, good_refs refs -> reachable refs s -> usable refs o -> any_place o s p cs ->
  o_matlab_compatible o = true -> no_class (a_dt a) -> o_action o = lit "error" \/ o_action o = lit "discard" ->
  file_write o rnd tries (S n) (mkFile true s) (VNp c a) p = (f, r) ->
  (o_action o = lit "error" -> r = Err TypeNotMatlabCompatibleError) /\ (o_action o = lit "discard" -> r = Ok tt) /\
  snd (file_contains f p) = snd (file_contains (mkFile true s) p) /\
  forall ro m keq, o_refs ro = refs -> snd (file_read ro m keq f p) = snd (file_read ro m keq (mkFile true s) p).
Proof. exact not_written. Qed.
Print Assumptions C32_not_written.
(** "discard", inside of dicts: of the values found under the keys of a dict, or of a dict
    in it, and so on, exactly those MATLAB has no type for are left out. *)
Theorem C32_discard : forall refs s o rnd tries n mdict f, good_refs refs -> reachable refs s -> usable refs o -> o_keys_name o <> o_values_name o ->
  o_matlab_compatible o = true -> o_struct_as_struct o = true -> o_action o = lit "discard" ->
  (forall p v, In (p, v) mdict -> valid_path p /\ tidy v /\ snd (file_contains (mkFile true s) p) = Ok false) ->
  ForallOrdPairs (fun x y => forall a b, denotes (fst x) a -> denotes (fst y) b -> ~ overlap a b) mdict ->
  file_writes o rnd tries n (mkFile true s) mdict = (f, Ok tt) -> no_repeat rnd (rpos s) (rpos (fl_st f)) ->
  forall p v cs x ts q, In (p, v) mdict -> denotes p cs -> not_refs x -> member x v ts -> valid_path q -> denotes q (cs ++ map escaped ts) ->
  (snd (file_contains f q) = Ok false <-> unsupported x) /\ (snd (file_contains f q) = Ok true <-> ~ unsupported x).
Proof. exact discarded_members. Qed.
Print Assumptions C32_discard.
(** "ignore": such an array is written, and can be read back by a reader with the same
    order of dimensions. *)
Theorem C32_ignore_partial : forall refs s wo ro keq rnd tries n m p cs c a f r, setting refs s wo ro keq -> new_place wo s p cs ->
  np_obj wo c a -> no_class (a_dt a) -> o_action wo = lit "ignore" -> o_reverse ro = o_reverse wo ->
  0 < tries -> 0 < n -> 0 < m -> file_write wo rnd tries n (mkFile true s) (VNp c a) p = (f, r) ->
  r = Ok tt /\ exists b, file_read ro m keq f p = (f, Ok (VNp c b)) /\ a_dt b = a_dt a /\ a_shape b = a_shape a /\ a_data b = a_data a.
Proof.
  intros refs s wo ro keq rnd tries n m p cs c a f r S NP HN NC HI HR HT Hn Hm E.
  destruct (C28_arrays_partial refs s wo ro keq rnd tries n m p cs c a f r S NP HN) as (R & b & B1 & B2 & B3 & B4); auto.
  - intros _. right. auto.
  - intros D. rewrite D in NC. exact NC.
  - split; [exact R|]. exists b. split; [exact B1|]. split; [|auto]. destruct B2 as [B2|(x & y & B2 & _)]; [symmetry; exact B2|]. rewrite B2 in NC. destruct NC.
Qed.
Print Assumptions C32_ignore_partial.
(** the missing part: with another order of dimensions for reading, the elements are not
    where they were *)
Definition act (x : pystr) : options := with_option default_options ActionForMatlabIncompatible (OVStr x).
Definition halves : pyval := VNp CNdarray (mkArr (TF 2) [2; 2] [XFlt 1; XFlt 2; XFlt 3; XFlt 4]%N).
Definition at_x (o : options) (v : pyval) : file := fst (file_write o N.of_nat 5 20 (mkFile true empty_file) v (PStr (lit "/x"))).
Theorem C32_ignore_refuted : let wo := act (lit "ignore") in
  snd (file_read wo 20 key_eq (at_x wo halves) (PStr (lit "/x"))) = Ok halves /\
  snd (file_read python_options 20 key_eq (at_x wo (VDict MDict [(VStr (lit "k"), halves)])) (PStr (lit "/x/k"))) = Ok halves /\
  snd (file_read (with_option python_options ReverseDimensionOrder (OVBool false)) 20 key_eq (at_x wo halves) (PStr (lit "/x"))) =
    Ok (VNp CNdarray (mkArr (TF 2) [2; 2] [XFlt 1; XFlt 3; XFlt 2; XFlt 4]%N)).
Proof. vm_compute. auto. Qed.
Print Assumptions C32_ignore_refuted.
(** for example *)
Definition c32_value : pyval := VDict MDict [(VStr (lit "a"), VInt 1); (VStr (lit "b"), halves); (VStr (lit "c"), VDict MDict [(VBytes (lit "d"), halves); (VStr (lit "e"), VNone)])].
Example C32_ex :
  snd (file_write (act (lit "error")) N.of_nat 5 20 (mkFile true empty_file) (VSeq QList [VInt 1; VSeq QTuple [halves]]) (PStr (lit "/x"))) = Err TypeNotMatlabCompatibleError /\
  within halves (VSeq QList [VInt 1; VSeq QTuple [halves]]) /\
  snd (file_write (act (lit "discard")) N.of_nat 5 20 (mkFile true empty_file) c32_value (PStr (lit "/x"))) = Ok tt /\
  member halves c32_value [lit "b"] /\ member halves c32_value [lit "c"; lit "d"] /\ member VNone c32_value [lit "c"; lit "e"] /\ tidy c32_value /\
  map (fun p => snd (file_contains (at_x (act (lit "discard")) c32_value) (PStr p))) [lit "/x/a"; lit "/x/b"; lit "/x/c/d"; lit "/x/c/e"] = [Ok true; Ok false; Ok false; Ok true] /\
  (* the elements of a list that are left out become empty arrays *)
  snd (file_read (act (lit "discard")) 20 key_eq (at_x (act (lit "discard")) (VSeq QList [VInt 1; halves])) (PStr (lit "/x"))) =
    Ok (VSeq QList [VInt 1; VNp CNdarray (mkArr (TF 8) [0; 0] [])]).
Proof.
  assert (K1 : forall x y z : pyval, Forall2 key_text (map fst [(VStr (lit "a"), x); (VStr (lit "b"), y); (VStr (lit "c"), z)]) [lit "a"; lit "b"; lit "c"]) by (intros; cbn [map fst]; repeat (apply Forall2_cons; [apply K_str|]); apply Forall2_nil).
  assert (K2 : forall x y : pyval, Forall2 key_text (map fst [(VBytes (lit "d"), x); (VStr (lit "e"), y)]) [lit "d"; lit "e"]).
  { intros. cbn [map fst]. apply Forall2_cons; [apply K_bytes; vm_compute; reflexivity|]. apply Forall2_cons; [apply K_str|apply Forall2_nil]. }
  assert (N1 : NoDup [lit "a"; lit "b"; lit "c"]) by (repeat (constructor; [cbn; intuition discriminate|]); constructor).
  assert (N2 : NoDup [lit "d"; lit "e"]) by (repeat (constructor; [cbn; intuition discriminate|]); constructor).
  split; [vm_compute; reflexivity|]. split; [apply In_seq with (x := VSeq QTuple [halves]); [cbn; auto|]; apply In_seq with (x := halves); [cbn; auto|apply In_self]|].
  split; [vm_compute; reflexivity|]. split; [eapply M_in with (i := 1); [apply K1|exact N1|reflexivity|reflexivity|apply M_here]|].
  split; [eapply M_in with (i := 2); [apply K1|exact N1|reflexivity|reflexivity|]; eapply M_in with (i := 0); [apply K2|exact N2|reflexivity|reflexivity|apply M_here]|].
  split; [eapply M_in with (i := 2); [apply K1|exact N1|reflexivity|reflexivity|]; eapply M_in with (i := 1); [apply K2|exact N2|reflexivity|reflexivity|apply M_here]|].
  assert (TH : tidy halves) by (apply T_np; [repeat constructor|discriminate]).
  split; [|split; vm_compute; reflexivity].
  apply T_dict; [intros cs E; injection E as <-; exact N1|discriminate|]. constructor; [repeat constructor|]. constructor; [exact TH|]. constructor; [|constructor].
  apply T_dict; [intros cs E; vm_compute in E; injection E as <-; exact N2|intros X; vm_compute in X; discriminate|]. constructor; [exact TH|]. repeat constructor.
Qed.
