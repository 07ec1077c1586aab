(** Property C41: files written with matlab_compatible are what MATLAB expects. *)
From Verif Require Import OptionsSpec Base PathEsc PosixPath ProcessPath Unicode UnicodeFacts Dec NdArray Value OptionsM StrConv MColl Hdf5 HeapFacts NpWrite MarshalW MarshalR FileApi ApiSpec FileFacts RndFacts RoundSpec MatlabSpec MatlabApi ProgressSpec MatlabLater Props_Round.
Local Open Scope nat_scope.

(** C41: with options however they came about, as long as matlab_compatible is on, every
    value that has a MATLAB form is found in the file in that form: the right class,
    dimensions and elements in MATLAB's order, cell arrays as references into /#refs#,
    structs as Groups with their fields in order, each object with its H5PATH. *)
Theorem C41_matlab_form_partial : forall args o0 l o s rnd tries n mdict f,
  init args = Ok o0 -> o = fold_left assign l o0 -> get o MatlabCompatible = OVBool true ->
  plain_link (o_keys_name o) -> plain_link (o_values_name o) -> o_keys_name o <> o_values_name o ->
  reachable (lit "/#refs#") s ->
  (forall p v, In (p, v) mdict -> valid_path p /\ presentable v /\ snd (file_contains (mkFile true s) p) = Ok false) ->
  ForallOrdPairs (fun x y => forall a b, denotes (fst x) a -> denotes (fst y) b -> ~ overlap a b) mdict ->
  file_writes o rnd tries n (mkFile true s) mdict = (f, Ok tt) -> no_repeat rnd (rpos s) (rpos (fl_st f)) ->
  forall p v, In (p, v) mdict ->
  exists t i m, denotes p t /\ walk (hp (fl_st f)) 0 t = Some i /\ looks o v m /\ mat (hp (fl_st f)) i m.
Proof.
  intros args o0 l o s rnd tries n mdict f HI HO HM K1 K2 KN HR OK ND E NR.
  apply (writes_shown o s rnd tries n mdict f); auto. exact (matlab_forced args o0 l o HI HO HM).
Qed.
Print Assumptions C41_matlab_form_partial.

(** for example *)
Definition c41_value : pyval :=
  VDict MDict [(VStr (lit "a"), VInt (10 ^ 30)); (VStr (lit "b"), VSeq QList [VStr [104; 233; 128512]%N; VNone; VBool true]);
    (VBytes (lit "c/d"), VNp CNdarray (mkArr (TU 2) [2; 3] (map XInt [1; 2; 3; 4; 5; 6]%Z)));
    (VStr (lit "e"), VNp CNdarray (mkArr (TStruct [(lit "x", (TF 8, [])); (lit "y", (TI 4, [2]))]) [2]
      [XRec [[XFlt 7%N]; [XInt 1; XInt 2]]; XRec [[XFlt 8%N]; [XInt 3; XInt 4]]]%Z));
    (VStr (lit "f"), VRec RSlice [VInt 1; VNone; VComplex 5%N 6%N])].
Ltac fa := repeat (apply Forall_cons; [|]); try apply Forall_nil.
Ltac ints := fa; split; discriminate || reflexivity.
Lemma c41_presentable : presentable c41_value.
Proof.
  apply Pr_dict with (texts := [lit "a"; lit "b"; lit "c/d"; lit "e"; lit "f"]); [discriminate| |repeat constructor; cbn; intuition discriminate|]; cbn [map fst snd].
  - constructor; [constructor|]. constructor; [constructor|]. constructor; [constructor; reflexivity|]. constructor; [constructor|]. constructor; [constructor|]. constructor.
  - fa.
    + constructor.
    + apply Pr_seq. fa; [apply Pr_str; [fa; reflexivity|discriminate]|constructor|constructor].
    + eapply Pr_num; [reflexivity|reflexivity|]. cbn [a_data a_dt map]. fa; split; [discriminate|reflexivity|discriminate|reflexivity|discriminate|reflexivity|discriminate|reflexivity|discriminate|reflexivity|discriminate|reflexivity].
    + eapply Pr_struct; [reflexivity|reflexivity|repeat constructor; cbn; intuition discriminate|]. cbn [a_data].
      fa; eexists; (split; [reflexivity|]); (split; [reflexivity|]); cbn [combine]; fa; cbn [fst snd field_item item_of]; (eapply Pr_num; [reflexivity|reflexivity|]); cbn [a_data a_dt]; fa; try exact I; split; discriminate || reflexivity.
    + apply Pr_rec; [cbn; lia|]. fa; constructor.
Qed.
Lemma c41_ok : snd (file_writes default_options N.of_nat 5 20 (mkFile true empty_file) [(PStr (lit "/x"), c41_value)]) = Ok tt.
Proof. vm_compute. reflexivity. Qed.
Lemma c41_init : init default_args = Ok default_options. Proof. vm_compute. reflexivity. Qed.
Lemma c41_on : get default_options MatlabCompatible = OVBool true. Proof. vm_compute. reflexivity. Qed.
Lemma c41_names : o_keys_name default_options <> o_values_name default_options. Proof. vm_compute. discriminate. Qed.
Lemma c41_free : snd (file_contains (mkFile true empty_file) (PStr (lit "/x"))) = Ok false. Proof. vm_compute. reflexivity. Qed.
Lemma c41_path : forall t, denotes (PStr (lit "/x")) t -> t = [lit "x"].
Proof. intros t (g & x & D1 & D2). vm_compute in D1. injection D1 as <- <-. exact D2. Qed.
Example C41_ex : forall f r, file_writes default_options N.of_nat 5 20 (mkFile true empty_file) [(PStr (lit "/x"), c41_value)] = (f, r) ->
  r = Ok tt /\ exists i m, walk (hp (fl_st f)) 0 [lit "x"] = Some i /\ looks default_options c41_value m /\ mat (hp (fl_st f)) i m.
Proof.
  intros f r E. pose proof c41_ok as OK. rewrite E in OK. cbn [snd] in OK. subst r. split; [reflexivity|].
  destruct (C41_matlab_form_partial default_args default_options [] default_options empty_file N.of_nat 5 20 [(PStr (lit "/x"), c41_value)] f c41_init eq_refl c41_on
    (proj1 (proj2 default_usable)) (proj2 (proj2 default_usable)) c41_names (R_new _)) with (p := PStr (lit "/x")) (v := c41_value) as (t & i & m & D & W & LK & M).
  - intros p v [[= <- <-]|[]]. split; [|split; [exact c41_presentable|exact c41_free]]. intros cs D. rewrite (c41_path cs D). constructor; [reflexivity|constructor].
  - constructor; constructor.
  - exact E.
  - intros a b H1 H2 H3. lia.
  - left. reflexivity.
  - exists i, m. rewrite (c41_path t D) in W. auto.
Qed.

(** ... and it stays in that form through whatever the API does elsewhere in the file
    afterwards: writes with any options at other paths, deletions, closing and reopening. *)
Theorem C41_stays_partial : forall args o0 l o s rnd tries n mdict f,
  init args = Ok o0 -> o = fold_left assign l o0 -> get o MatlabCompatible = OVBool true ->
  plain_link (o_keys_name o) -> plain_link (o_values_name o) -> o_keys_name o <> o_values_name o ->
  reachable (lit "/#refs#") s ->
  (forall p v, In (p, v) mdict -> valid_path p /\ presentable v /\ snd (file_contains (mkFile true s) p) = Ok false) ->
  ForallOrdPairs (fun x y => forall a b, denotes (fst x) a -> denotes (fst y) b -> ~ overlap a b) mdict ->
  file_writes o rnd tries n (mkFile true s) mdict = (f, Ok tt) -> no_repeat rnd (rpos s) (rpos (fl_st f)) ->
  forall p v, In (p, v) mdict ->
  exists t m, denotes p t /\ looks o v m /\
    forall s', later (lit "/#refs#") p (fl_st f) s' -> exists i, walk (hp s') 0 t = Some i /\ mat (hp s') i m.
Proof.
  intros args o0 l o s rnd tries n mdict f HI HO HM K1 K2 KN HR OK ND E NR.
  apply (writes_stay o s rnd tries n mdict f); auto. exact (matlab_forced args o0 l o HI HO HM).
Qed.
Print Assumptions C41_stays_partial.
Example C41_stays_ex : forall f r, file_writes default_options N.of_nat 5 20 (mkFile true empty_file) [(PStr (lit "/x"), c41_value)] = (f, r) ->
  let s1 := fl_st (fst (file_writes python_options N.of_nat 5 20 (mkFile true (new_session (fl_st f))) [(PStr (lit "/a/b"), c36_value)])) in
  let s2 := fl_st (fst (file_del (mkFile true s1) (PStr (lit "/a")))) in
  r = Ok tt /\ exists i m, walk (hp s2) 0 [lit "x"] = Some i /\ looks default_options c41_value m /\ mat (hp s2) i m.
Proof.
  intros f r E s1 s2. pose proof c41_ok as OK. rewrite E in OK. cbn [snd] in OK. subst r. split; [reflexivity|].
  destruct (C41_stays_partial default_args default_options [] default_options empty_file N.of_nat 5 20 [(PStr (lit "/x"), c41_value)] f c41_init eq_refl c41_on
    (proj1 (proj2 default_usable)) (proj2 (proj2 default_usable)) c41_names (R_new _)) with (p := PStr (lit "/x")) (v := c41_value) as (t & m & D & LK & M).
  - intros p v [[= <- <-]|[]]. split; [|split; [exact c41_presentable|exact c41_free]]. intros cs D. rewrite (c41_path cs D). constructor; [reflexivity|constructor].
  - constructor; constructor.
  - exact E.
  - intros a b H1 H2 H3. lia.
  - left. reflexivity.
  - destruct (M s2) as (i & W & R); [|exists i, m; rewrite (c41_path t D) in W; auto].
    assert (DA : forall qs, denotes (PStr (lit "/a")) qs -> qs = [lit "a"]) by (intros qs (g & q & P & ->); vm_compute in P; injection P as <- <-; vm_compute; reflexivity).
    assert (DB : forall qs, denotes (PStr (lit "/a/b")) qs -> qs = [lit "a"; lit "b"]) by (intros qs (g & q & P & ->); vm_compute in P; injection P as <- <-; vm_compute; reflexivity).
    unfold s2, s1. apply later_del; [apply later_writes; [apply L_reopen, L_none|apply python_usable|]| |].
    + intros p v cs qs [[= <- <-]|[]] D1 D2. rewrite (DB _ D1), (c41_path _ D2). split; [discriminate|]. intros [[c X]|[c X]]; discriminate.
    + intros cs D1. rewrite (DA _ D1). intros [[c X]|[c X]]; vm_compute in X; discriminate.
    + intros cs qs D1 D2. rewrite (DA _ D1), (c41_path _ D2). intros [[c X]|[c X]]; discriminate.
Qed.

(** a Counter has no class, so MATLAB does not see what it is *)
Theorem C41_counter_refuted : let f := written default_options (VDict MCounter [(VStr (lit "a"), VInt 1)]) in
  exists i, walk (hp (fl_st f)) 0 [lit "x"] = Some i /\ (forall m, ~ mat (hp (fl_st f)) i m).
Proof.
  set (f := written _ _). assert (X : exists i, walk (hp (fl_st f)) 0 [lit "x"] = Some i /\ exists ob, hp (fl_st f) i = Some ob /\ o_attrs ob k_class = None).
  { eexists. split; [vm_compute; reflexivity|]. eexists. split; [vm_compute; reflexivity|vm_compute; reflexivity]. }
  destruct X as (i & W & ob & E1 & E2). exists i. split; [exact W|]. intros m M.
  assert (Y : exists c, o_attrs ob k_class = Some c) by (inversion M; subst; rewrite E1 in *; match goal with X : Some _ = Some _ |- _ => injection X as <- end; eauto).
  destruct Y as [c Y]. rewrite E2 in Y. discriminate Y.
Qed.
Print Assumptions C41_counter_refuted.
