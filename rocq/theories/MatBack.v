(** Values written for MATLAB without Python metadata, and read. *)
From Verif Require Import Base PathEsc PathEscFacts PosixPath PosixFacts ProcessPath ProcessPathFacts Unicode Dec NdArray Value OptionsM StrConv ComplexM Attrs NpDims Hdf5 HeapFacts NpWrite NpRead MarshalW MarshalR FrameFacts WriteFrame ReadFacts FileApi ApiFacts ApiSpec HistoryFacts FileFacts RoundNp RndFacts RoundSpec RoundHeap RoundWrite RoundVal RoundDict Plan Layout LayoutNp LayoutApi MatlabSpec MatlabFacts MatlabPlan MatlabApi MatReadSpec MatRead MatReadStruct.
Local Open Scope nat_scope.

(** ** no Python metadata *)
Definition bare_at (at_ : attrs) : Prop := Forall (fun k => at_ k = None) python_attrs.
Inductive pyless : ltree -> Prop :=
| PL_data at_ a f : bare_at at_ -> (forall j, ~ In (XPtr j) (a_data a)) -> pyless (LData at_ a f)
| PL_refs at_ sh f l : bare_at at_ -> Forall pyless l -> pyless (LRefs at_ sh f l)
| PL_group at_ l : bare_at at_ -> Forall (fun kT => pyless (snd kT)) l -> pyless (LGroup at_ l)
| PL_canon : pyless LCanon.

Definition matlab_names : list pystr := [lit "MATLAB_fields"; lit "MATLAB_empty"; lit "MATLAB_class"; lit "MATLAB_int_decode"].
Definition matty (l : list (pystr * areq)) : Prop := Forall (fun kq => In (fst kq) matlab_names) l.
Lemma dput_matty k q l : In k matlab_names -> matty l -> matty (dput k q l).
Proof.
  intros K H. unfold matty in *. induction H as [|[k' q'] l H1 H2 IH]; cbn [dput]; [constructor; [exact K|constructor]|].
  destruct (eqb_str k k'); constructor; auto.
Qed.
Lemma matty_bare l : matty l -> bare_at (fresh_attrs l).
Proof.
  intros H. apply Forall_forall. intros k Hk. unfold fresh_attrs. destruct (assoc k l) as [q|] eqn:E; [|reflexivity]. exfalso.
  apply assoc_In in E. unfold matty in H. rewrite Forall_forall in H. specialize (H _ E). cbn [fst] in H. clear - Hk H.
  unfold python_attrs in Hk. unfold matlab_names in H. cbn [In] in Hk, H.
  repeat (destruct H as [H|H]; [subst k; repeat (destruct Hk as [Hk|Hk]; [discriminate Hk|]); exact Hk|]). exact H.
Qed.
Section Less.
Variable o : options.
Hypothesis HP : o_store_python_metadata o = false.
Lemma np_matty v ts pre w st : matty pre -> matty (np_attrs o v ts pre w st).
Proof.
  intros H. destruct v as [c a]. unfold np_attrs. rewrite HP. cbn [andb].
  assert (N : forall k, In k matlab_names -> In k matlab_names) by auto.
  assert (K1 : In (lit "MATLAB_fields") matlab_names) by (cbn; auto). assert (K2 : In (lit "MATLAB_empty") matlab_names) by (cbn; auto).
  assert (K3 : In (lit "MATLAB_class") matlab_names) by (cbn; auto). assert (K4 : In (lit "MATLAB_int_decode") matlab_names) by (cbn; auto 6).
  set (x := if w || fields_anyway o a then _ else pre).
  assert (X : matty x).
  { unfold x. destruct (w || fields_anyway o a); [|exact H]. destruct (o_matlab_compatible o); [|exact H]. destruct (matlab_fields _); [|exact H]. apply dput_matty; auto. }
  clearbody x. set (y := if np_empty a then _ else x).
  assert (Y : matty y).
  { unfold y. destruct (np_empty a); [|exact X]. destruct (o_matlab_compatible o); [|exact X]. apply dput_matty; auto. }
  clearbody y. destruct (o_matlab_compatible o); [|exact Y]. destruct (is_struct (a_dt a) && o_struct_as_struct o); [apply dput_matty; auto|].
  destruct (matlab_class_of (a_dt a)) as [cls|]; [|exact Y].
  assert (Z : matty (dput (lit "MATLAB_class") (QString cls) y)) by (apply dput_matty; auto).
  destruct (a_dt a); try exact Z; (destruct st as [d|]; [|exact Z]); destruct d; apply dput_matty; auto.
Qed.
Lemma dict_matty ts pl codes : matty (dict_attrs o ts pl codes).
Proof.
  unfold dict_attrs. rewrite HP. set (names := match codes with Some cs => map _ cs | None => [] end). clearbody names.
  set (x := if o_matlab_compatible o && _ then _ else []). assert (X : matty x).
  { unfold x. destruct (_ && _); [|constructor]. destruct (matlab_fields names); [|constructor]. apply dput_matty; [cbn; auto|constructor]. }
  clearbody x. destruct (_ && pl); [|exact X]. apply dput_matty; [cbn; auto|exact X].
Qed.
Lemma noptr_plain (l : list (elem pyval)) j : ~ In (XPtr j) (map noptr l).
Proof. intros H. apply in_map_iff in H. destruct H as (e & E & _). destruct e; discriminate E. Qed.

Lemma ok_some {A} (x y : A) : Ok (Some x) = Ok (Some y) -> x = y. Proof. congruence. Qed.
Section P.
Variable pl : pyval -> res (option ltree).
Hypothesis PL : forall v T, pl v = Ok (Some T) -> pyless T.
Lemma elems_pyless l Ts : mapr (plan_elem pl) l = Ok Ts -> Forall pyless Ts.
Proof.
  revert Ts. induction l as [|v l IH]; intros Ts H; cbn [mapr] in H; [injection H as <-; constructor|].
  unfold plan_elem at 1 in H. destruct (pl v) as [[T|]|] eqn:E; cbn [bindr] in H; try discriminate H; destruct (mapr (plan_elem pl) l) as [Ts'|] eqn:E2; try discriminate H; injection H as <-; constructor; eauto; constructor.
Qed.
Lemma items_pyless {A} (f : A -> res (option (pystr * ltree))) l Ts : (forall x k T, f x = Ok (Some (k, T)) -> pyless T) -> mapr f l = Ok Ts -> Forall (fun kT : pystr * ltree => pyless (snd kT)) (somes Ts).
Proof.
  intros F. revert Ts. induction l as [|v l IH]; intros Ts H; cbn [mapr] in H; [injection H as <-; constructor|].
  destruct (f v) as [[[k T]|]|] eqn:E; cbn [bindr] in H; try discriminate H; destruct (mapr f l) as [Ts'|] eqn:E2; try discriminate H; injection H as <-; pose proof (IH Ts' eq_refl) as IHT; unfold somes in *; cbn [flat_map app]; [constructor; [eapply F; exact E|]|]; exact IHT.
Qed.
Lemma np_pyless v ts T : plan_np o pl v ts = Ok (Some T) -> pyless T.
Proof.
  destruct v as [c a]. unfold plan_np. destruct (_ && _); [discriminate|]. destruct (_ && _); [discriminate|].
  destruct (np_prepare o (c, a)) as [b|]; [|discriminate]. cbn [bindr]. destruct (as_group o a (a_dt b)).
  - destruct (mapr (plan_field o pl b) _) as [l|] eqn:E; [|discriminate]. cbn [bindr]. intros H. apply ok_some in H. subst T. constructor.
    + apply matty_bare, np_matty. destruct (o_matlab_compatible o); [|constructor]. constructor; [cbn; auto|constructor].
    + eapply items_pyless; [|exact E]. intros [m [nm fd]] k T H. unfold plan_field in H. destruct (pl _) as [[T'|]|] eqn:EP; cbn [bindr option_map] in H; try discriminate H. injection H as <- <-.
      apply PL in EP. destruct (prod (a_shape b) =? 1); [rewrite map_attrs_id; exact EP|].
      assert (B : bare_at no_attrs) by (apply Forall_forall; reflexivity). destruct EP; constructor; assumption.
  - unfold plan_data. set (at1 := fresh_attrs (np_attrs o (c, a) ts [] false (Some TRef))). assert (B : forall st, bare_at (fresh_attrs (np_attrs o (c, a) ts [] false st))) by (intros st; apply matty_bare, np_matty; constructor).
    assert (X : forall (ll : res (list ltree)) sh f, (forall l, ll = Ok l -> Forall pyless l) -> (do l <- ll; Ok (Some (LRefs at1 sh f l))) = Ok (Some T) -> pyless T).
    { intros ll sh f F H. destruct ll as [l|]; [|discriminate]. cbn [bindr] in H. apply ok_some in H. subst T. constructor; [apply B|apply F; reflexivity]. }
    destruct (a_dt b); try (intros H; apply ok_some in H; subst T; constructor; [apply B|apply noptr_plain]).
    apply X. intros l. apply elems_pyless.
Qed.
Lemma dict_pyless items ts p T : plan_dict o pl items ts p = Ok (Some T) -> pyless T.
Proof.
  unfold plan_dict. set (kvs := match key_codes _ with Some _ => _ | None => _ end). destruct (mapr (plan_item pl) kvs) as [l|] eqn:E; [|discriminate]. cbn [bindr]. intros H. apply ok_some in H. subst T. constructor.
  - apply matty_bare, dict_matty.
  - eapply items_pyless; [|exact E]. intros x k T H. unfold plan_item in H. destruct (pl _) as [[T'|]|] eqn:EP; cbn [bindr option_map] in H; try discriminate H. injection H as <- <-. apply PL in EP. exact EP.
Qed.
Lemma value_pyless v T : plan_value o pl v = Ok (Some T) -> pyless T.
Proof.
  destruct v; cbn [plan_value]; try apply np_pyless; try apply dict_pyless; [|discriminate].
  destruct (utf8_encode _); [|discriminate]. cbn [bindr]. apply np_pyless.
Qed.
End P.
Lemma plan_pyless n : forall v T, plan o n v = Ok (Some T) -> pyless T.
Proof. induction n as [|n IH]; intros v T; [discriminate|]. cbn [plan]. apply value_pyless. exact IH. Qed.
End Less.

(** ** the objects of a value are foreign *)
Lemma bare_keeps mk at_ ob : keeps_rest mk -> bare_at at_ -> (forall k, o_attrs ob k = mk at_ k) -> Forall (fun k => o_attrs ob k = None) python_attrs.
Proof.
  intros K B E. unfold bare_at in B. rewrite Forall_forall in *. intros k Hk. rewrite E, K; [apply B; exact Hk|].
  intros ->. clear - Hk. unfold python_attrs in Hk. cbn [In] in Hk. repeat (destruct Hk as [Hk|Hk]; [discriminate Hk|]). exact Hk.
Qed.
Lemma mat_not_canonical h i m : mat h i m -> is_canonical h i = true -> False.
Proof.
  intros M C. assert (X : exists ob, h i = Some ob /\ exists c, o_attrs ob k_class = Some (AStr c) /\ (In c num_classes \/ c = lit "cell" \/ c = lit "struct")).
  { destruct M as [i ob cls a f data E1 C1 M1 F1 B L1 L2 L3 N|i ob cls dims f E1 C1 M1 F1 K B L Z|i ob sh f js ms E1 C1 M1 F1 B L1 L2 L3 FF|i ob dims f E1 C1 M1 F1 B L Z
    |i ob ls order fs E1 C1 M1 B ND KK FO FF|i ob ls order sh fs E1 C1 M1 B ND KK FO L1 L2 FF|i ob dims f names order E1 C1 M1 B L Z FO|i ob f S _ _ _ _ _]; try (exists ob; split; [exact E1|]; eexists; split; [exact C1|]; auto); [|discriminate S].
    left. destruct N as [|e m l ms N _]; [exfalso; cbn in L2; lia|]. eapply number_class. exact N. }
  destruct X as (ob & E & c & K & CC). unfold is_canonical in C. rewrite E in C. change (lit "MATLAB_class") with k_class in C. rewrite K in C.
  destruct (o_body ob); [|discriminate C]. apply andb_true_iff in C. destruct C as [C _]. apply andb_true_iff in C. destruct C as [_ C]. apply eqb_str_eq in C. subst c.
  destruct CC as [CC|[CC|CC]]; try discriminate CC. unfold num_classes in CC. cbn [In] in CC. repeat (destruct CC as [CC|CC]; [discriminate CC|]). exact CC.
Qed.
(** MATLAB values, and the columns of structs *)
Definition mattish (h : heap) (j : nat) : Prop := (exists m, mat h j m) \/
  exists oj sh js f, h j = Some oj /\ o_body oj = BData (mkArr TRef sh (map XPtr js)) f /\ o_attrs oj k_class = None /\ Forall (fun k => exists m, mat h k m) js.
Lemma mattish_not_canonical h j : mattish h j -> is_canonical h j = true -> False.
Proof.
  intros [(m & M)|(oj & sh & js & f & E & B & K & _)] C; [eapply mat_not_canonical; eassumption|].
  unfold is_canonical in C. rewrite E, B in C. cbn [a_dt] in C. rewrite andb_false_r in C. discriminate C.
Qed.
(** what is referred to, or a member, is one *)
Lemma ptr_inj (js js' : list nat) : map (@XPtr nat) js = map XPtr js' -> js = js'.
Proof. revert js'. induction js as [|x js IH]; intros [|y js'] H; try discriminate H; [reflexivity|]. cbn in H. injection H as -> H. f_equal. apply IH. exact H. Qed.
Lemma F2_left {A B} (R : A -> B -> Prop) l m x : Forall2 R l m -> In x l -> exists y, R x y.
Proof. induction 1; intros []; subst; eauto. Qed.
Lemma mattish_ref h j ob sh js f : mattish h j -> h j = Some ob -> o_body ob = BData (mkArr TRef sh (map XPtr js)) f -> forall k, In k js -> mattish h k.
Proof.
  intros M E B k Hk. left. destruct M as [(m & M)|(oj & sh' & js' & f' & E' & B' & _ & F)].
  - inversion M as [i ob' cls a g data E1 C1 M1 F1 B1 L1 L2 L3 N|i ob' cls dims g E1 C1 M1 F1 K B1 L Z|i ob' sh' g js' ms E1 C1 M1 F1 B1 L1 L2 L3 FF|i ob' dims g E1 C1 M1 F1 B1 L Z
    |i ob' ls order fs E1 C1 M1 B1 ND KK FO FF|i ob' ls order sh' fs E1 C1 M1 B1 ND KK FO L1 L2 FF|i ob' dims g names order E1 C1 M1 B1 L Z FO|i ob' g S _ _ _ _ _]; subst; try discriminate S;
      assert (ob' = ob) by congruence; subst ob'; rewrite B in B1; try discriminate B1.
    + injection B1 as <- _. cbn [a_dt a_data] in N. exfalso. destruct js as [|x js]; [destruct Hk|]. inversion N as [|? ? ? ? X]; subst. inversion X.
    + injection B1 as _ B1 _. apply ptr_inj in B1. subst js'. destruct (F2_left _ _ _ _ FF Hk) as (y & _ & _ & Y). eauto.
  - assert (oj = ob) by congruence. subst oj. rewrite B in B'. injection B' as _ B' _. apply ptr_inj in B'. subst js'. rewrite Forall_forall in F. apply F. exact Hk.
Qed.
Lemma mattish_member h j ob ls : mattish h j -> h j = Some ob -> o_body ob = BGroup ls -> NoDup (map fst ls) -> forall k x, In (k, x) ls -> mattish h x.
Proof.
  intros M E B ND k x Hk. destruct M as [(m & M)|(oj & sh' & js' & f' & E' & B' & _ & F)]; [|congruence].
  inversion M as [i ob' cls a g data E1 C1 M1 F1 B1 L1 L2 L3 N|i ob' cls dims g E1 C1 M1 F1 K B1 L Z|i ob' sh' g js' ms E1 C1 M1 F1 B1 L1 L2 L3 FF|i ob' dims g E1 C1 M1 F1 B1 L Z
    |i ob' ls' order fs E1 C1 M1 B1 ND' KK FO FF|i ob' ls' order sh' fs E1 C1 M1 B1 ND' KK FO L1 L2 FF|i ob' dims g names order E1 C1 M1 B1 L Z FO|i ob' g S _ _ _ _ _]; subst; try discriminate S;
      assert (ob' = ob) by congruence; subst ob'; rewrite B in B1; try discriminate B1; injection B1 as <-.
  - assert (X : In k (map fst fs)) by (apply KK; apply in_map_iff; exists (k, x); auto). apply in_map_iff in X. destruct X as ([k' m] & <- & X). rewrite Forall_forall in FF.
    destruct (FF _ X) as (y & A1 & _ & _ & A2). cbn [fst snd] in *. rewrite (In_assoc _ _ _ ND Hk) in A1. injection A1 as <-. left. eauto.
  - assert (X : In k (map fst fs)) by (apply KK; apply in_map_iff; exists (k, x); auto). apply in_map_iff in X. destruct X as ([k' m] & <- & X). rewrite Forall_forall in FF.
    destruct (FF _ X) as (y & oy & g & js & A1 & _ & (oy' & A2 & A3) & A4 & A5 & _ & A6). cbn [fst snd] in *. rewrite (In_assoc _ _ _ ND Hk) in A1. injection A1 as <-.
    right. assert (oy' = oy) by congruence. subst oy'. exists oy, sh', js, g. split; [exact A4|]. split; [exact A5|]. split; [apply A3; discriminate|].
    clear - A6. induction A6 as [|a b l m (_ & _ & H) _ IH]; constructor; eauto.
Qed.
Lemma rep_foreign o ro h Q i T : o_matlab_compatible o = true -> pyless T -> rep o h Q (fun a => a) i T -> mattish h i ->
  (forall j ls, Hdf5.links h j = ls -> NoDup (map fst ls)) -> (forall j, Q j \/ j = i -> name_text (name_of h j) <> o_refs ro) -> foreign ro h i.
Proof.
  intros HM PL RP MT ND NM. exists (fun j => (Q j \/ j = i) /\ mattish h j /\ exists mk T, keeps_rest mk /\ pyless T /\ rep o h Q mk j T). split; [|split].
  - split; [right; reflexivity|]. split; [exact MT|]. exists (fun a => a), T. split; [intros a k _; reflexivity|]. auto.
  - intros j k (JQ & JM & mk & TJ & KR & PJ & RJ) (ob & E & LD). destruct RJ as [mk j at_ a f (ob' & E1 & E2 & E3)|mk j at_ sh f js l (ob' & E1 & E2 & E3) FF|mk j at_ ls l (ob' & E1 & E2 & E3) N1 N2 FF|mk j C].
    + exfalso. assert (ob' = ob) by congruence. subst ob'. rewrite E3 in LD. inversion PJ as [? ? ? _ X| | |]; subst. exact (X _ LD).
    + assert (ob' = ob) by congruence. subst ob'. rewrite E3 in LD. cbn [a_data] in LD. apply in_map_iff in LD. destruct LD as (k' & [= ->] & LD). inversion PJ as [|? ? ? ? _ PLs| |]; subst.
      assert (X : exists T, Q k /\ rep o h Q (marked o (path_comps (o_refs o))) k T /\ pyless T).
      { clear - FF LD PLs. revert PLs. induction FF as [|x T js l (A1 & A2) _ IH]; intros PLs; [destruct LD|]. inversion PLs; subst. destruct LD as [->|LD]; [eauto|auto]. }
      destruct X as (T' & Qk & Rk & Pk). split; [left; exact Qk|]. split; [eapply mattish_ref; eassumption|]. exists (marked o (path_comps (o_refs o))), T'. split; [apply keeps_marked; exact HM|]. auto.
    + assert (ob' = ob) by congruence. subst ob'. rewrite E3 in LD. apply in_map_iff in LD. destruct LD as ([n k'] & Ek & LD). cbn in Ek. subst k'. inversion PJ as [| |? ? _ PLs|]; subst.
      assert (NL : NoDup (map fst ls)) by (apply (ND j); unfold Hdf5.links; rewrite E, E3; reflexivity).
      assert (X : In n (map fst l)) by (apply N2; apply in_map_iff; exists (n, k); auto). apply in_map_iff in X. destruct X as ([n' T'] & <- & X). rewrite Forall_forall in FF, PLs.
      destruct (FF _ X) as (y & A1 & A2 & A3). cbn [fst snd] in *. rewrite (In_assoc _ _ _ NL LD) in A1. injection A1 as <-.
      split; [left; exact A2|]. split; [eapply mattish_member; eassumption|]. exists (marked o (name_of h j)), T'. split; [apply keeps_marked; exact HM|]. split; [apply (PLs _ X)|exact A3].
    + destruct (mattish_not_canonical _ _ JM C).
  - intros j ob (JQ & JM & mk & TJ & KR & PJ & RJ) E. split; [|split; [apply NM; exact JQ|]].
    + destruct RJ as [mk j at_ a f (ob' & E1 & E2 & E3)|mk j at_ sh f js l (ob' & E1 & E2 & E3) FF|mk j at_ ls l (ob' & E1 & E2 & E3) N1 N2 FF|mk j C];
        [| | |destruct (mattish_not_canonical _ _ JM C)]; assert (ob' = ob) by congruence; subst ob'; (eapply bare_keeps; [exact KR| |exact E2]); inversion PJ; assumption.
    + destruct (o_body ob) eqn:B; [exact I|]. apply (ND j). unfold Hdf5.links. rewrite E, B. reflexivity.
Qed.
Fixpoint mat_weaken h i m (H : mat h i m) {struct H} : mat_in false h i m.
Proof.
  assert (K : forall j p, known true h j p -> known false h j p) by (intros j p (ob & _ & L & _); exact L).
  destruct H as [i ob cls a f data E C M F B L1 L2 L3 N|i ob cls dims f E C M F Kc B L Z|i ob sh f js ms E C M F B L1 L2 L3 FF|i ob dims f E C M F B L Z
    |i ob ls order fs E C M B ND KK FO FF|i ob ls order sh fs E C M B ND KK FO L1 L2 FF|i ob dims f names order E C M B L Z FO|i ob f S E C M F B].
  - eapply Mat_num; eassumption.
  - eapply Mat_num_empty; eassumption.
  - eapply Mat_cell; try eassumption. clear - FF K mat_weaken. induction FF as [|j m js ms (A1 & A2 & A3) _ IH]; constructor; [|exact IH]. split; [eapply K; exact A1|]. split; [exact A2|]. apply mat_weaken. exact A3.
  - eapply Mat_cell_empty; eassumption.
  - eapply Mat_struct; try eassumption. clear - FF K mat_weaken. induction FF as [|km fs (j & A1 & A2 & A3 & A4) _ IH]; constructor; [|exact IH]. exists j. split; [exact A1|]. split; [eapply K; exact A2|]. split; [exact A3|]. apply mat_weaken. exact A4.
  - eapply Mat_structs; try eassumption. clear - FF K mat_weaken. induction FF as [|km fs (j & oj & f & js & A1 & A2 & A3 & A4 & A5 & A6 & A7) _ IH]; constructor; [|exact IH]. exists j, oj, f, js.
    split; [exact A1|]. split; [eapply K; exact A2|]. repeat (split; [assumption|]). clear - A7 K mat_weaken. induction A7 as [|x m xs ms (B1 & B2 & B3) _ IH]; constructor; [|exact IH]. split; [eapply K; exact B1|]. split; [exact B2|]. apply mat_weaken. exact B3.
  - eapply Mat_struct_empty; eassumption.
  - discriminate S.
Qed.

(** ** File.read *)
Lemma read_seen pairs o keq s p t i m : isabs (o_refs o) = true -> valid_path p -> denotes p t -> apart o t -> walk (hp s) 0 t = Some i ->
  foreign o (hp s) i -> mat_in false (hp s) i m -> readable (o_structs_as_dicts o) pairs m -> (pairs = true -> wide_whole (hp s)) ->
  exists v N, seen (o_structs_as_dicts o) m v /\ forall n, N <= n -> file_read o n keq (mkFile true s) p = (mkFile true s, Ok v).
Proof.
  intros HA V D AP W (P & P1 & P2 & P3) M R HW.
  destruct (mat_gives o keq (hp s) P P2 P3 pairs HW i m M P1 R) as (v & S & _ & N & HN). exists v, N. split; [exact S|]. intros n Hn.
  assert (D' := D). destruct D' as (g & tt' & PP & ->). change (path_comps (posix_join g [tt'])) with (loc g tt') in *.
  assert (CP : check_path o p = Ok (g, tt')) by (apply check_path_iff; auto).
  unfold file_read, file_reads. cbn [mapr snd fl_open fl_st]. rewrite CP. cbn [bindr mapr fst snd].
  rewrite (read_at_eq o keq n p g tt' s PP); [|destruct AP as (? & ? & ? & ? & -> & _); discriminate|exact (V _ D)].
  rewrite W, (HN n Hn). reflexivity.
Qed.

(** ** File.writes and File.read *)
Lemma writes_checked o rnd tries n s mdict f : file_writes o rnd tries n (mkFile true s) mdict = (f, Ok tt) -> forall p v, In (p, v) mdict -> exists gt, check_path o p = Ok gt.
Proof.
  intros E p v Hin. unfold file_writes in E. destruct (mapr (fun pv : pypath * pyval => do gt <- check_path o (fst pv); Ok (gt, snd pv)) mdict) as [l|e] eqn:EM; [|discriminate].
  clear E. revert l EM. induction mdict as [|[q w] md IH]; intros l EM; [destruct Hin|]. cbn [mapr fst snd] in EM.
  destruct (check_path o q) as [gt|] eqn:EC; [|discriminate]. cbn [bindr] in EM. destruct (mapr _ md) as [l'|]; [|discriminate]. destruct Hin as [[= -> ->]|Hin]; [eauto|]. apply (IH Hin l'). reflexivity.
Qed.
Lemma writes_seen o ro keq s rnd tries n mdict f :
  o_matlab_compatible o = true /\ o_struct_as_struct o = true /\ o_atleast_2d o = true /\ o_bytes_utf16 o = true /\ o_str_utf16 o = true /\ o_bools_uint8 o = true /\
    o_reverse o = true /\ o_shape_empty o = true /\ o_complex_names o = (lit "real", lit "imag") /\ o_refs o = lit "/#refs#" ->
  o_store_python_metadata o = false -> o_refs ro = lit "/#refs#" ->
  reachable (lit "/#refs#") s -> plain_link (o_keys_name o) -> plain_link (o_values_name o) -> o_keys_name o <> o_values_name o ->
  (forall p v, In (p, v) mdict -> valid_path p /\ presentable v /\ snd (file_contains (mkFile true s) p) = Ok false) ->
  ForallOrdPairs (fun x y => forall a b, denotes (fst x) a -> denotes (fst y) b -> ~ overlap a b) mdict ->
  file_writes o rnd tries n (mkFile true s) mdict = (f, Ok tt) -> no_repeat rnd (rpos s) (rpos (fl_st f)) ->
  forall p v, In (p, v) mdict -> exists m, looks o v m /\ (readable (o_structs_as_dicts ro) false m ->
    exists v' N, seen (o_structs_as_dicts ro) m v' /\ forall k, N <= k -> file_read ro k keq f p = (f, Ok v')).
Proof.
  intros (M1 & M2 & M3 & M4 & M5 & M6 & M7 & M8 & M9 & M10) MP RO HR K1 K2 KN OK ND E NR p v Hin.
  assert (GR : good_refs (lit "/#refs#")) by (split; [reflexivity|vm_compute; discriminate]).
  assert (U : usable (lit "/#refs#") o) by (split; auto).
  assert (OK' : forall p v, In (p, v) mdict -> ~ denotes p []).
  { intros q w Hq D. destruct (OK q w Hq) as (V & _ & N). rewrite (contains_iff q [] s V D) in N. discriminate N. }
  destruct (api_filled _ s o rnd tries n mdict f GR HR U KN) with (p := p) (v := v) as (t & D & F); auto.
  { intros q w H. destruct (OK q w H) as (H1 & H2 & H3). split; [exact H1|]. split; [apply presentable_tidy; exact H2|exact H3]. }
  assert (W' : wf o (fl_st f)) by (apply (reachable_wf (lit "/#refs#")); [exact GR| |exact M10]; eapply R_write; eassumption).
  destruct (OK p v Hin) as (VP & PV & _).
  unfold filled in F. destruct (plan o n v) as [r|] eqn:PL; [|destruct F].
  destruct (proj1 (plan_shows o M1 M2 M3 M4 M5 M6 M7 M8 M9 M10 n) v PV r PL) as (T & m & -> & LK & S).
  destruct F as (i & W & (LI & AI & Q & SQ & QI & KI & R)). exists m. split; [exact LK|]. intros RD.
  assert (HA : isabs (o_refs o) = true) by (rewrite M10; reflexivity).
  assert (TN : t <> []).
  { intros ->. exact (OK' p v Hin D). }
  assert (AP : apart o t).
  { destruct (writes_checked _ _ _ _ _ _ _ E p v Hin) as ([g tt'] & CP). apply check_path_iff in CP; [|exact HA]. destruct CP as (PP & [X|X]); [unfold rp in X; rewrite M10 in X; vm_compute in X; discriminate X|].
    destruct D as (g' & t' & PP' & ->). rewrite PP in PP'. injection PP' as <- <-. destruct X as [X|X]; [|exact X]. exfalso. apply TN. exact X. }
  assert (ARP : rp o = [lit "#refs#"]) by (unfold rp; rewrite M10; vm_compute; reflexivity).
  assert (M : mat (hp (fl_st f)) i m) by (apply (proj2 S (hp (fl_st f)) Q (fun a => a) i); [intros a k _; reflexivity|intros j Hj; apply (SQ j Hj)|exact R]).
  destruct f as [fo s']. cbn [fl_st] in *.
  assert (FO : fo = true).
  { clear - E. unfold file_writes in E. destruct (mapr _ mdict); [|discriminate]. cbn [fl_open fl_st] in E. destruct (iterM _ _ s). injection E as <- _ _. reflexivity. }
  subst fo. apply (read_seen false) with (t := t) (i := i); auto; try (intros XX; discriminate XX).
  - rewrite RO. reflexivity.
  - unfold apart, rp in *. rewrite RO. rewrite M10 in AP. exact AP.
  - assert (PLS : pyless T) by (eapply plan_pyless; eassumption).
    eapply (rep_foreign o ro _ Q i T); auto.
    + left. eauto.
    + intros j ls <-. apply (t_keys _ _ (w_tree _ _ W')).
    + intros j Hj X. rewrite RO in X.
      assert (X2 : Forall clean (name_of (hp s') j)).
      { assert (LJ : live (hp s') j = true) by (destruct Hj as [Hj| ->]; [apply (SQ j Hj)|exact LI]). exact (live_clean _ _ _ (w_tree _ _ W') LJ). }
      assert (NJ : name_of (hp s') j = [lit "#refs#"]) by (rewrite <- (text_comps _ X2), X; vm_compute; reflexivity).
      assert (AR : area o t (name_of (hp s') j) \/ name_of (hp s') j = ra o).
      { destruct Hj as [Hj| ->]; [|left; exact AI]. destruct (SQ j Hj) as (_ & [A|[A _]] & _); auto. }
      rewrite NJ in AR. destruct AR as [[[x A]|[k [x A]]]|A].
      * destruct AP as (a & b & r1 & r2 & -> & X3 & NE). rewrite ARP in X3. injection X3 as <- <-. cbn in A. injection A as <- _. congruence.
      * rewrite ARP in A. discriminate A.
      * unfold ra in A. rewrite ARP in A. discriminate A.
  - apply mat_weaken. exact M.
Qed.

(** ** modest values *)
Lemma f_pos_onto dims : forall p, p < prod dims -> exists idx, Forall2 lt idx dims /\ f_pos dims idx = p.
Proof.
  induction dims as [|d ds IH]; intros p H.
  - unfold prod in H. cbn in H. exists []. split; [constructor|cbn; lia].
  - rewrite prod_cons in H. destruct d as [|d]; [lia|]. destruct (IH (p / S d)) as (idx & I1 & I2); [apply Nat.div_lt_upper_bound; lia|].
    exists (p mod S d :: idx). split; [constructor; [apply Nat.mod_upper_bound; lia|exact I1]|]. cbn [f_pos]. rewrite I2. pose proof (Nat.div_mod p (S d)). lia.
Qed.
Lemma column_all {A} (P : A -> Prop) dims l m : column_major dims l m -> Forall P l -> Forall P m.
Proof.
  intros (L1 & L2 & H) F. rewrite Forall_forall in *. intros x Hx. apply In_nth_error in Hx. destruct Hx as (p & Hp).
  destruct (f_pos_onto dims p) as (idx & I1 & I2); [rewrite <- L2; apply nth_error_Some; congruence|]. specialize (H idx I1). rewrite I2, Hp in H. apply F. symmetry in H. apply nth_error_In in H. exact H.
Qed.
Lemma text_inj a : forall b, text a = text b -> a = b.
Proof. induction a as [|x a IH]; intros [|y b] H; try discriminate H; [reflexivity|]. cbn in H. injection H as H1 H2. apply IH in H2. apply N2Z.inj in H1. congruence. Qed.
Lemma text_readable dicts pairs s : sound_text s -> readable dicts pairs (MArr (lit "char") [1; length s] (text s)).
Proof.
  intros [B L]. apply Re_char. intros rs (R1 & R2 & R3). unfold prod in R1. cbn in R1. destruct rs as [|r [|]]; try discriminate R1. cbn [concat] in R3. rewrite app_nil_r in R3. apply (row_major default_options) in R3. apply text_inj in R3. subst r.
  assert (X : Forall (fun c => ~ half c) s) by (eapply Forall_impl; [|exact B]; intros c H; cbn beta in H; unfold half; lia).
  constructor; [|constructor]. exists s. split; [|split; [exact L|intros _; exact X]]. exists s, 0. cbn [repeat]. rewrite app_nil_r. split; [reflexivity|].
  clear L. induction B as [|c s H _ IH]; inversion X; subst; constructor; auto. lia.
Qed.
Lemma digits_sound z : sound_text (show_Z z).
Proof.
  pose proof (show_Z_ascii z) as A. split; [eapply Forall_impl; [|exact A]; intros c H; cbn beta in *; left; lia|].
  pose proof (show_Z_nonempty z) as N. assert (X : In (last (show_Z z) 1%N) (show_Z z)). { destruct (exists_last N) as (l & x & ->). rewrite last_last. apply in_or_app. right. left. reflexivity. }
  rewrite Forall_forall in A. specialize (A _ X). cbn beta in A. rewrite N.mod_small by lia. lia.
Qed.
Lemma names_unescaped us : Forall2 unescaped (map escaped us) us.
Proof. induction us as [|u us IH]; constructor; [apply unescape_escaped|exact IH]. Qed.
Lemma rec_unescaped k names r : attribute_names k = names ++ r -> Forall2 unescaped names names /\ NoDup names.
Proof.
  rewrite names_rec. intros E. assert (F : Forall (fun x => unescaped x x) (rec_fields k)) by (destruct k; repeat constructor; vm_compute; reflexivity).
  assert (ND : NoDup (rec_fields k)) by (destruct k; repeat constructor; vm_compute; intuition discriminate). rewrite E in F, ND. apply Forall_app in F. destruct F as [F _].
  split; [clear - F; induction F; constructor; auto|]. clear - ND. induction names as [|x l IH]; [constructor|]. cbn in ND. inversion ND; subst. constructor; [|auto]. intros X. apply H1. apply in_or_app. auto.
Qed.
Lemma combine_fst {A B} (l : list A) : forall m : list B, length l = length m -> map fst (combine l m) = l.
Proof. induction l as [|x l IH]; intros [|y m] H; try discriminate H; [reflexivity|]. cbn in *. f_equal. apply IH. lia. Qed.
Lemma singles_readable dicts pairs names ms : Forall (readable dicts pairs) ms -> Forall (fun kms : pystr * list mval => Forall (readable dicts pairs) (snd kms)) (combine names (map (fun m => [m]) ms)).
Proof. intros F. revert names. induction F as [|m ms H F IH]; intros [|n names]; cbn; constructor; [repeat constructor; exact H|apply IH]. Qed.

Lemma text_not k t : key_text k t -> not_text k -> False.
Proof. intros K N. destruct K; cbn in N; auto. exact (N _ H). Qed.
Lemma key_texts_fun ks ts : Forall2 key_text ks ts -> forall ts', Forall2 key_text ks ts' -> ts = ts'.
Proof.
  intros H ts' H'. destruct (key_codes_texts _ _ H) as (cs & C1 & <- & _). destruct (key_codes_texts _ _ H') as (cs' & C1' & <- & _). congruence.
Qed.
Fixpoint modest_readable dicts pairs o v m (H : looks o v m) {struct H} : modest dicts v -> readable dicts pairs m.
Proof.
  intros M. destruct H as [v V|b|z Z|z Z|x|x y|s|s|s|s|c a cls l data C S CM|c a n rs data D NZ R CM|c a n D NZ|c a l ms data D E F CM|c a fs cols ms D P1 E F|c a fs cols D P2 F|c a fs D P0|k l ms F|k l texts ms K F|k l mk mv X F1 F2|k fs names ms (r & R) L F].
  - apply Re_num. discriminate.
  - apply Re_num. discriminate.
  - apply Re_num. discriminate.
  - apply text_readable, digits_sound.
  - apply Re_num. discriminate.
  - apply Re_num. discriminate.
  - apply text_readable. inversion M as [v V|v s' [V|[V|[V|V]]] X| | | | | |]; subst; try discriminate V; [destruct V|]. congruence.
  - apply text_readable. inversion M as [v V|v s' [V|[V|[V|V]]] X| | | | | |]; subst; try discriminate V; [destruct V|]. congruence.
  - apply text_readable. inversion M as [v V|v s' [V|[V|[V|V]]] X| | | | | |]; subst; try discriminate V; [destruct V|]. congruence.
  - apply text_readable. inversion M as [v V|v s' [V|[V|[V|V]]] X| | | | | |]; subst; try discriminate V; [destruct V|]. congruence.
  - apply Re_num. intros ->. clear - C. destruct (a_dt a) as [|w|w|w|w|n|n| | |]; try discriminate C; do 17 (destruct w as [|w]; try discriminate C).
  - exfalso. inversion M as [v V|v s' [V|[V|[V|V]]] X|? ? NC|? ? ? D' |? ? ? D'| | |]; subst; try discriminate V; [destruct V|apply NC; destruct D as [D|D]; rewrite D; reflexivity|destruct D; congruence|destruct D; congruence].
  - exfalso. inversion M as [v V|v s' [V|[V|[V|V]]] X|? ? NC|? ? ? D' |? ? ? D'| | |]; subst; try discriminate V; [destruct V|apply NC; destruct D as [D|D]; rewrite D; reflexivity|destruct D; congruence|destruct D; congruence].
  - inversion M as [v V|v s' [V|[V|[V|V]]] X|? ? NC|? ? l' D' E' F'|? ? ? D'| | |]; subst; try discriminate V; [destruct V|rewrite D in NC; exfalso; apply NC; reflexivity| |congruence].
    assert (l' = l). { rewrite E in E'. clear - E'. revert l' E'. induction l as [|x l IH]; intros [|y l'] H; try discriminate H; [reflexivity|]. cbn in H. injection H as -> H. f_equal. auto. } subst l'.
    apply Re_cell. apply (column_all _ _ _ _ CM). clear - F F' modest_readable. induction F as [|v m l ms H _ IH]; inversion F'; subst; constructor; [eapply modest_readable; eassumption|auto].
  - inversion M as [v V|v s' [V|[V|[V|V]]] X|? ? NC|? ? l' D' E' F'|? ? fs' D' NE ND FM| | |]; subst; try discriminate V; [destruct V|rewrite D in NC; exfalso; apply NC; reflexivity|congruence|].
    assert (fs' = fs) by congruence. subst fs'. rewrite E in FM. destruct (FM cols (or_introl eq_refl)) as [LC FC]. pose proof (F2_len _ _ _ F) as LM. rewrite combine_length, LC, Nat.min_id in LM.
    assert (MN : map fst (combine (map escaped (map fst fs)) (map (fun m => [m]) ms)) = map escaped (map fst fs)) by (apply combine_fst; rewrite !map_length; lia).
    apply Re_struct with (us := map fst fs); [|rewrite MN; apply names_unescaped|exact ND|].
    + destruct NE as [NE|[NE|NE]]; [auto| |rewrite P1 in NE; discriminate NE]. right. left. destruct fs; [congruence|]. destruct ms; [discriminate LM|]. discriminate.
    + apply singles_readable. assert (FC' : Forall (fun fc => modest dicts (field_item (fst (snd (fst fc))) (snd (snd (fst fc))) (snd fc))) (combine fs cols)).
      { clear - LC FC. revert cols LC FC. induction fs as [|f fs IH]; intros [|x cols] LC FC; try discriminate LC; constructor; [exact (FC 0 f eq_refl)|]. apply IH; [cbn in LC; lia|]. intros n g Hn. exact (FC (S n) g Hn). }
      clear - F FC' modest_readable. induction F as [|v m l ms H _ IH]; inversion FC'; subst; constructor; [eapply modest_readable; eassumption|auto].
  - inversion M as [v V|v s' [V|[V|[V|V]]] X|? ? NC|? ? l' D' E' F'|? ? fs' D' NE ND FM| | |]; subst; try discriminate V; [destruct V|rewrite D in NC; exfalso; apply NC; reflexivity|congruence|].
    assert (fs' = fs) by congruence. subst fs'. pose proof (F2_len _ _ _ F) as LM. rewrite combine_length, seq_length, Nat.min_id in LM.
    assert (MN : map fst (combine (map escaped (map fst fs)) cols) = map escaped (map fst fs)) by (apply combine_fst; rewrite !map_length; lia).
    apply Re_struct with (us := map fst fs); [|rewrite MN; apply names_unescaped|exact ND|].
    + destruct NE as [NE|[NE|NE]]; [auto| |lia]. right. left. destruct fs; [congruence|]. destruct cols; [discriminate LM|]. discriminate.
    + assert (X : Forall (Forall (readable dicts pairs)) cols).
      { assert (NF : Forall (fun nf => nth_error fs (fst nf) = Some (snd nf)) (combine (seq 0 (length fs)) fs)).
        { assert (G : forall gs hs, fs = hs ++ gs -> Forall (fun nf => nth_error fs (fst nf) = Some (snd nf)) (combine (seq (length hs) (length gs)) gs)).
          { clear. induction gs as [|g gs IH]; intros hs E; cbn; constructor; [cbn; rewrite E, nth_error_app2, Nat.sub_diag by lia; reflexivity|].
            specialize (IH (hs ++ [g])). rewrite app_length, Nat.add_1_r in IH. apply IH. rewrite <- app_assoc. exact E. }
          apply (G fs []). reflexivity. }
        clear - F FM NF modest_readable. induction F as [|nf col nfs cols (vs & ms & A1 & A2 & A3) _ IH]; constructor; inversion NF as [|? ? N1 N2]; subst; [|auto].
        apply (column_all _ _ _ _ A3). clear A3 IH N2 NF. 
        assert (MV : Forall (modest dicts) vs).
        { assert (G : forall l, Forall2 (fun e v => exists es, e = XRec es /\ v = field_item (fst (snd (snd nf))) (snd (snd (snd nf))) (nth (fst nf) es [])) l vs -> (forall e, In e l -> In e (a_data a)) -> Forall (modest dicts) vs).
          { clear - FM N1. induction vs as [|v vs IH]; intros l H HI; [constructor|]. inversion H as [|e ? l' ? (es & -> & ->) H2]; subst. constructor; [|apply (IH l'); [exact H2|intros e He; apply HI; right; exact He]].
            apply (proj2 (FM es (HI _ (or_introl eq_refl))) _ _ N1). }
          apply (G _ A1). auto. }
        clear - A2 MV modest_readable. induction A2 as [|v m l ms H _ IH]; inversion MV; subst; constructor; [eapply modest_readable; eassumption|auto]. }
      clear - X. generalize (map escaped (map fst fs)). induction X as [|c cs H _ IH]; intros [|n names]; cbn; constructor; [exact H|apply IH].
  - inversion M as [v V|v s' [V|[V|[V|V]]] X|? ? NC|? ? l' D' E' F'|? ? fs' D' NE ND FM| | |]; subst; try discriminate V; [destruct V|rewrite D in NC; exfalso; apply NC; reflexivity|congruence|].
    assert (fs' = fs) by congruence. subst fs'. 
    assert (MN : map fst (map (fun k => (escaped k, [] : list mval)) (map fst fs)) = map escaped (map fst fs)) by (rewrite map_map; reflexivity).
    apply Re_struct with (us := map fst fs); [|rewrite MN; apply names_unescaped|exact ND|].
    + right. right. change (two_d (a_shape a)) with (NdArray.atleast_2d (a_shape a)). rewrite atleast_2d_prod. exact P0.
    + rewrite Forall_map. apply Forall_forall. constructor.
  - inversion M as [v V|v s' [V|[V|[V|V]]] X| | | |? ? F'| |]; subst; try discriminate V; [destruct V|]. apply Re_cell. clear - F F' modest_readable. induction F as [|v m l ms H _ IH]; inversion F'; subst; constructor; [eapply modest_readable; eassumption|auto].
  - inversion M as [v V|v s' [V|[V|[V|V]]] X| | | | |? ? texts' NE K' ND F'|]; subst; try discriminate V; [destruct V|]. 
    assert (texts' = texts) by (apply (key_texts_fun _ _ K' _ K)). subst texts'.
    pose proof (F2_len _ _ _ F) as LM. pose proof (F2_len _ _ _ K) as LK. rewrite map_length in LM, LK.
    assert (MN : map fst (combine (map escaped texts) (map (fun m => [m]) ms)) = map escaped texts) by (apply combine_fst; rewrite !map_length; lia).
    apply Re_struct with (us := texts); [|rewrite MN; apply names_unescaped|exact ND|].
    + destruct NE as [NE|NE]; [auto|]. right. left. destruct l; [congruence|]. destruct texts; [discriminate LK|]. destruct ms; [discriminate LM|]. discriminate.
    + apply singles_readable. clear - F F' modest_readable. revert F F'. generalize (map snd l). intros l' F. induction F as [|v m l' ms H _ IH]; intros F'; inversion F'; subst; constructor; [eapply modest_readable; eassumption|auto].
  - exfalso. inversion M as [v V|v s' [V|[V|[V|V]]] X'| | | | |? ? texts' NE K' ND F'|]; subst; try discriminate V; [destruct V|]. 
    assert (TN : forall ks ts, Exists not_text ks -> Forall2 key_text ks ts -> False) by (intros ks ts E; revert ts; induction E as [x ks E|x ks E IH]; intros ts K2; inversion K2 as [|? t ? ts' K3 K4]; subst; [exact (text_not _ _ K3 E)|exact (IH _ K4)]). exact (TN _ _ X K').
  - inversion M as [v V|v s' [V|[V|[V|V]]] X| | | | | |? ? NE F']; subst; try discriminate V; [destruct V|]. destruct (rec_unescaped _ _ _ R) as [U ND]. pose proof (F2_len _ _ _ F) as LM.
    assert (MN : map fst (combine names (map (fun m => [m]) ms)) = names) by (apply combine_fst; rewrite !map_length; lia).
    apply Re_struct with (us := names); [|rewrite MN; exact U|exact ND|].
    + destruct NE as [NE|NE]; [auto|]. right. left. destruct fs; [congruence|]. destruct names; [discriminate L|]. destruct ms; [discriminate LM|]. discriminate.
    + apply singles_readable. clear - F F' modest_readable. induction F as [|v m l' ms H _ IH]; inversion F'; subst; constructor; [eapply modest_readable; eassumption|auto].
Qed.
