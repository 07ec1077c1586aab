(** The objects in the file after a value has been written to a new place are those of
    Plan.v. *)
From Verif Require Import Base PathEsc PathEscFacts PosixPath PosixFacts ProcessPathFacts Unicode UnicodeFacts Dec NdArray Value OptionsM StrConv ComplexM Attrs NpDims MColl Hdf5 HeapFacts NpWrite NpRead MarshalW MarshalR FrameFacts WriteFrame ReadFacts RoundSpec RoundNp RoundHeap RoundWrite RoundVal RoundDict Plan.
Local Open Scope nat_scope.

Section Layout.
Variables (o : options) (rnd : nat -> N) (tries : nat).
Notation rp := (rp o). Notation ra := (ra o). Notation wf := (wf o). Notation frame := (frame o rnd). Notation fut := (fut rnd).
Notation okt := (okt o). Notation wspec := (wspec o rnd). Notation reg := (reg o rnd). Notation elem_reg := (elem_reg o rnd). Notation unreserved := (unreserved o rnd).
Notation rep := (rep o). Notation marked := (marked o). Notation clear := (clear o).
Hypotheses (Hkn : o_keys_name o = [] \/ clean (o_keys_name o)) (Hvn : o_values_name o = [] \/ clean (o_values_name o)) (Hkv : o_keys_name o <> o_values_name o).
Hypothesis HI : inj_rnd rnd.

(** ** trees in heaps *)
Definition kids (h : heap) (Q : nat -> Prop) (i : nat) : Prop := exists ob, h i = Some ob /\
  (forall k m, In (k, m) (links h i) -> Q m) /\ (forall a f m, o_body ob = BData a f -> In (XPtr m) (a_data a) -> Q m).
Definition shut (h : heap) (P : list pystr -> Prop) (Q : nat -> Prop) : Prop := forall j, Q j ->
  live h j = true /\ (P (name_of h j) \/ name_of h j = ra /\ is_canonical h j = true) /\ kids h Q j.
(** a tree at [i], and at an object that has been marked *)
Definition laid (h : heap) (P : list pystr -> Prop) (i : nat) (T : ltree) : Prop :=
  live h i = true /\ P (name_of h i) /\ exists Q, shut h P Q /\ ~ Q i /\ kids h Q i /\ rep h Q (fun a => a) i T.
Definition sub (h : heap) (P : list pystr -> Prop) (p : list pystr) (j : nat) (T : ltree) : Prop :=
  exists Q, Q j /\ shut h P Q /\ rep h Q (marked p) j T.

Lemma rep_ext h h' (Q : nat -> Prop) T : forall m i, rep h Q m i T -> (forall j, Q j -> h' j = h j) -> h' i = h i -> rep h' Q m i T.
Proof.
  induction T as [at_ a f|at_ sh f l IH|at_ l IH|] using ltree_ind'; intros m i R HQ Hi; inversion R as [m0 i0 x1 x2 x3 OB|m0 i0 x1 x2 x3 js x4 OB FF|m0 i0 x1 ls x4 OB ND KK FF|m0 i0 CC]; subst.
  - constructor. destruct OB as (ob & A). exists ob. rewrite Hi. exact A.
  - econstructor; [destruct OB as (ob & A); exists ob; rewrite Hi; exact A|].
    clear - IH FF HQ. revert l IH FF. induction js as [|j js I]; intros l IH F; inversion F; subst; constructor.
    + destruct H1 as [A B]. split; [exact A|]. inversion IH; subst. match goal with X : forall m i, _ |- _ => apply X end; auto.
    + apply I; [inversion IH; assumption|assumption].
  - assert (NM : name_of h' i = name_of h i) by (unfold name_of; rewrite Hi; reflexivity).
    apply R_group with (ls := ls); auto; [destruct OB as (ob & A); exists ob; rewrite Hi; exact A|].
    rewrite NM. rewrite Forall_forall in *. intros kT Hk. destruct (FF kT Hk) as (j & J1 & J2 & J3). exists j. split; [exact J1|]. split; [exact J2|].
    apply (IH kT Hk); auto.
  - constructor. unfold is_canonical in *. rewrite Hi. assumption.
Qed.
Lemma rep_mono h (Q Q' : nat -> Prop) T : (forall j, Q j -> Q' j) -> forall m i, rep h Q m i T -> rep h Q' m i T.
Proof.
  intros HQ. induction T as [at_ a f|at_ sh f l IH|at_ l IH|] using ltree_ind'; intros m i R; inversion R as [m0 i0 x1 x2 x3 OB|m0 i0 x1 x2 x3 js x4 OB FF|m0 i0 x1 ls x4 OB ND KK FF|m0 i0 CC]; subst.
  - constructor. assumption.
  - econstructor; [eassumption|]. clear - IH FF HQ. revert l IH FF. induction js as [|j js I]; intros l IH F; inversion F; subst; constructor.
    + destruct H1 as [A B]. split; [auto|]. inversion IH; subst. match goal with X : forall m i, _ |- _ => apply X end; auto.
    + apply I; [inversion IH; assumption|assumption].
  - eapply R_group; eauto. rewrite Forall_forall in *. intros kT Hk. destruct (FF kT Hk) as (j & J1 & J2 & J3). exists j. auto.
  - constructor. assumption.
Qed.
(** another mark on the root *)
Definition root_attrs (T : ltree) : attrs := match T with LData a _ _ | LRefs a _ _ _ | LGroup a _ => a | LCanon => no_attrs end.
Lemma rep_root h h' (Q : nat -> Prop) T f m' i ob ob' : T <> LCanon -> rep h Q (fun a => a) i T -> ~ Q i -> (forall j, j <> i -> h' j = h j) -> h i = Some ob -> h' i = Some ob' ->
  o_name ob' = o_name ob -> o_body ob' = o_body ob -> (forall k, o_attrs ob' k = m' (f (root_attrs T)) k) -> rep h' Q m' i (map_attrs f T).
Proof.
  intros NC R NQ Ho Ei Ei' En Eb Ea.
  assert (HQ : forall j, Q j -> h' j = h j) by (intros j Hj; apply Ho; intros ->; exact (NQ Hj)).
  inversion R as [m0 i0 x1 x2 x3 OB|m0 i0 x1 x2 x3 js x4 OB FF|m0 i0 x1 ls x4 OB ND KK FF|m0 i0 CC]; subst; cbn [map_attrs root_attrs] in *; try congruence.
  - constructor. exists ob'. destruct OB as (x & X1 & X2 & X3). assert (x = ob) by congruence. subst x. split; [exact Ei'|]. split; [exact Ea|congruence].
  - econstructor.
    + exists ob'. destruct OB as (x & X1 & X2 & X3). assert (x = ob) by congruence. subst x. split; [exact Ei'|]. split; [exact Ea|]. rewrite Eb. exact X3.
    + eapply Forall2_imp; [|exact FF]. cbn. intros j T [A B]. split; [exact A|]. eapply rep_ext; [exact B|exact HQ|apply HQ; exact A].
  - assert (NM : name_of h' i = name_of h i) by (unfold name_of; rewrite Ei, Ei'; exact En).
    eapply R_group; eauto.
    + exists ob'. destruct OB as (x & X1 & X2 & X3). assert (x = ob) by congruence. subst x. split; [exact Ei'|]. split; [exact Ea|]. rewrite Eb. exact X3.
    + rewrite NM. eapply Forall_impl; [|exact FF]. cbn. intros kT (j & J1 & J2 & J3). exists j. split; [exact J1|]. split; [exact J2|]. eapply rep_ext; [exact J3|exact HQ|apply HQ; exact J2].
Qed.

Lemma kids_ext h h' (Q : nat -> Prop) i : kids h Q i -> h' i = h i -> kids h' Q i.
Proof. intros (ob & A & B & C) E. exists ob. rewrite E. split; [exact A|]. split; [|exact C]. intros k m. unfold links. rewrite E. apply B. Qed.
Lemma kids_mono h (Q Q' : nat -> Prop) i : (forall j, Q j -> Q' j) -> kids h Q i -> kids h Q' i.
Proof. intros H (ob & A & B & C). exists ob. split; [exact A|]. split; [intros; eapply H, B; eassumption|intros; eapply H, C; eassumption]. Qed.
Lemma shut_weaken h (P P' : list pystr -> Prop) Q : (forall p, P p -> P' p) -> shut h P Q -> shut h P' Q.
Proof. intros H S j Hj. destruct (S j Hj) as (A & [B|B] & C); auto. Qed.
Lemma laid_weaken h (P P' : list pystr -> Prop) i T : (forall p, P p -> P' p) -> laid h P i T -> laid h P' i T.
Proof. intros H (A & B & Q & C & D). split; [exact A|]. split; [auto|]. exists Q. split; [eapply shut_weaken; eassumption|exact D]. Qed.
Lemma sub_weaken h (P P' : list pystr -> Prop) p i T : (forall q, P q -> P' q) -> sub h P p i T -> sub h P' p i T.
Proof. intros H (Q & A & B & C). exists Q. split; [exact A|]. split; [eapply shut_weaken; eassumption|exact C]. Qed.

(** ** under later changes *)
Lemma canon_data h i : is_canonical h i = true -> is_group h i = false.
Proof. unfold is_canonical, is_group. destruct (h i) as [ob|]; [|reflexivity]. destruct (o_body ob); [reflexivity|discriminate]. Qed.
Lemma shut_same R s s' P Q j : frame R s s' -> clear P R -> ~ R ra -> shut (hp s) P Q -> Q j -> hp s' j = hp s j /\ live (hp s') j = true.
Proof.
  intros F H NR S Hj. destruct (S j Hj) as (A & B & _). destruct B as [B|[B C]].
  - destruct (H _ B) as (N1 & N2 & N3). split; [apply (f_same _ _ _ _ _ F)|apply (f_live _ _ _ _ _ F)]; assumption.
  - rewrite <- B in NR. split; [|apply (f_live _ _ _ _ _ F); assumption]. apply (f_keep _ _ _ _ _ F j A NR). apply canon_data. exact C.
Qed.
Lemma shut_frame R s s' P Q : frame R s s' -> clear P R -> ~ R ra -> shut (hp s) P Q -> shut (hp s') P Q.
Proof.
  intros F H NR S j Hj. destruct (shut_same R s s' P Q j F H NR S Hj) as [E L]. destruct (S j Hj) as (A & B & C).
  split; [exact L|]. split; [|eapply kids_ext; eassumption]. unfold name_of, is_canonical in *. rewrite E. exact B.
Qed.
Lemma sub_frame R s s' P p i T : frame R s s' -> clear P R -> ~ R ra -> sub (hp s) P p i T -> sub (hp s') P p i T.
Proof.
  intros F H NR (Q & A & B & C). exists Q. split; [exact A|]. split; [eapply shut_frame; eassumption|].
  eapply rep_ext; [exact C| |]; intros; eapply shut_same; eassumption.
Qed.
Lemma laid_frame R s s' P i T : frame R s s' -> clear P R -> ~ R ra -> laid (hp s) P i T -> laid (hp s') P i T.
Proof.
  intros F H NR (A & B & Q & C & D & D' & E). destruct (H _ B) as (N1 & N2 & N3). pose proof (f_same _ _ _ _ _ F i A N1 N3 N2) as X.
  split; [apply (f_live _ _ _ _ _ F); assumption|]. split; [unfold name_of in *; rewrite X; exact B|]. exists Q.
  split; [eapply shut_frame; eassumption|]. split; [exact D|]. split; [eapply kids_ext; eassumption|].
  eapply rep_ext; [exact E| |exact X]. intros; eapply shut_same; eassumption.
Qed.
(** the root is given other attributes *)
Lemma touch_sub s P i T f p ob a : T <> LCanon -> laid (hp s) P i T -> hp s i = Some ob -> (forall k, a k = marked p (f (root_attrs T)) k) ->
  sub (hp (set_hp s (upd (hp s) i (with_attrs ob a)))) P p i (map_attrs f T).
Proof.
  intros NC (A & B & Q & C & D & K & E) Ei Ha. cbn [hp set_hp]. set (h' := upd (hp s) i (with_attrs ob a)).
  assert (O : forall j, j <> i -> h' j = hp s j) by (intros j N; apply upd_other; exact N).
  assert (I : h' i = Some (with_attrs ob a)) by apply upd_same.
  assert (SK : same_kind (o_body ob) (o_body (with_attrs ob a))) by (cbn; destruct (o_body ob); cbn; auto).
  assert (LV : forall j, live h' j = live (hp s) j) by (intros j; apply (change_live s i ob (with_attrs ob a) Ei eq_refl SK)).
  assert (NM : forall j, name_of h' j = name_of (hp s) j).
  { intros j. destruct (Nat.eq_dec j i) as [->|N]; [unfold name_of; rewrite I, Ei; reflexivity|unfold name_of; rewrite O by exact N; reflexivity]. }
  exists (fun j => j = i \/ Q j). split; [left; reflexivity|]. split.
  - intros j Hj. rewrite LV, NM. assert (KK : kids h' (fun j => j = i \/ Q j) j).
    { destruct Hj as [->|Hj].
      - destruct K as (ob' & K1 & K2 & K3). exists (with_attrs ob a). split; [exact I|]. split.
        + intros k m Hm. right. apply (K2 k m). unfold links in *. rewrite I in Hm. rewrite Ei. exact Hm.
        + intros x y m Hb Hm. right. apply (K3 x y m); [|exact Hm]. assert (ob' = ob) by congruence. subst. exact Hb.
      - assert (N : j <> i) by (intros ->; exact (D Hj)). eapply kids_mono; [intros x Hx; right; exact Hx|]. eapply kids_ext; [apply (C j Hj)|apply O; exact N]. }
    destruct Hj as [->|Hj]; [auto|]. assert (N : j <> i) by (intros ->; exact (D Hj)). destruct (C j Hj) as (C1 & C2 & C3).
    split; [exact C1|]. split; [|exact KK]. destruct C2 as [C2|[C2 C4]]; [left; exact C2|right]. split; [exact C2|]. unfold is_canonical in *. rewrite O by exact N. exact C4.
  - eapply rep_mono; [intros x Hx; right; exact Hx|].
    eapply rep_root; [exact NC|exact E|exact D|exact O|exact Ei|exact I|reflexivity|reflexivity|exact Ha].
Qed.
Lemma laid_attrs h P i T ob : T <> LCanon -> laid h P i T -> h i = Some ob -> forall k, o_attrs ob k = root_attrs T k.
Proof.
  intros NC (_ & _ & Q & _ & _ & _ & R) Ei. inversion R as [m0 i0 x1 x2 x3 OB|m0 i0 x1 x2 x3 js x4 OB FF|m0 i0 x1 ls x4 OB ND KK FF|m0 i0 CC]; subst; cbn [root_attrs]; try congruence; destruct OB as (x & X1 & X2 & X3); assert (x = ob) by congruence; subst x; exact X2.
Qed.
Lemma mark_sub s i cs s' P T : T <> LCanon -> mark_path o i (name_text cs) s = (s', Ok tt) -> laid (hp s) P i T -> sub (hp s') P cs i T.
Proof.
  intros NC E L. assert (exists ob a, hp s i = Some ob /\ s' = set_hp s (upd (hp s) i (with_attrs ob a)) /\ forall k, a k = marked cs (o_attrs ob) k) as (ob & a & Ei & -> & Ha).
  { unfold mark_path in E. unfold Plan.marked. destruct (o_matlab_compatible o).
    - apply bind_ok in E. destruct E as (s1 & b & E1 & E). apply lift_ok in E1. destruct E1 as [-> E1]. apply ascii_bytes_inv in E1. destruct E1 as [-> _].
      unfold modify_attr, set_attrs, attrs_of in E. destruct (hp s i) as [ob|]; [|discriminate]. injection E as <-. exists ob. eexists. repeat split.
    - unfold drop_attr, set_attrs, attrs_of in E. destruct (hp s i) as [ob|]; [|discriminate]. injection E as <-. exists ob. eexists. repeat split. }
  pose proof (touch_sub s P i T (fun a => a) cs ob a NC L Ei) as X. destruct T; [| | |congruence]; apply X; intros k; rewrite Ha;
    pose proof (laid_attrs _ _ _ _ ob NC L Ei) as Y; unfold Plan.marked; destruct (o_matlab_compatible o); unfold set_attr, del_attr; destruct (eqb_str k _); auto.
Qed.

(** ** specification of writing *)
Definition lspec (wr : nat -> pystr -> pyval -> M (option nat)) (pl : pyval -> res (option ltree)) : Prop := forall s g nm v s' r,
  wf s -> okt s g nm -> lookup (hp s) g nm = None -> unreserved s (name_of (hp s) g ++ [nm]) -> tidy v ->
  wr g nm v s = (s', Ok r) -> exists R, pl v = Ok R /\
  match r, R with
  | None, None => lookup (hp s') g nm = None
  | Some i, Some T => T <> LCanon /\ root_attrs T h5path = None /\ laid (hp s') (reg s (name_of (hp s) g ++ [nm])) i T
  | _, _ => False
  end.

Section Marsh.
Variables (wr : nat -> pystr -> pyval -> M (option nat)) (pl : pyval -> res (option ltree)).
Hypotheses (Hwr : wspec wr) (Hl : lspec wr pl).

Lemma element_laid s g c v s' j : wf s -> rgrp s = Some g -> canon s = Some c -> tidy v ->
  write_element o rnd tries wr g c v s = (s', Ok j) -> exists T, plan_elem pl v = Ok T /\ sub (hp s') (elem_reg s) rp j T.
Proof.
  intros W Hr Hc Hv E. pose proof (w_sess _ _ W g Hr) as Hw. pose proof (walk_root_name _ _ _ _ (w_tree _ _ W) Hw) as Hn.
  assert (LV : live (hp s) g = true) by (apply live_walk; rewrite Hn; exact Hw). destruct (w_refs _ _ W g Hw) as [Gg _].
  unfold write_element in E. apply bind_ok in E. destruct E as (s1 & k & E1 & E).
  destruct (next_keeps o rnd tries (fun _ => False) s g W Hr) as (K1 & K2 & K3). rewrite E1 in K1, K2, K3. cbn [fst snd] in *.
  destruct (K3 k eq_refl) as (Q1 & Q2 & Q3 & Q4 & Q5 & Q6 & Q7 & Q8). specialize (Q8 HI).
  apply bind_ok in E. destruct E as (s2 & r & E2 & E).
  assert (PA : forall x, pre (rp ++ [x]) (rp ++ [k]) -> x = k).
  { intros x P. apply pre_antisym_len in P; [|rewrite !app_length; cbn; lia]. apply app_inj_tail in P. tauto. }
  assert (NA : ~ pre (rp ++ [k]) ra).
  { intros P. apply pre_antisym_len in P; [|unfold FrameFacts.ra; rewrite !app_length; cbn; lia]. apply app_inj_tail in P. tauto. }
  assert (OK : okt s1 g k).
  { constructor; rewrite ?Q1, ?Hn; auto. intros x P. apply PA in P. subst x. exact Q7. }
  assert (U : unreserved s1 (name_of (hp s1) g ++ [k])).
  { rewrite Q1, Hn. split; [exact NA|]. intros x P. apply PA in P. subst x. exact Q8. }
  rewrite <- Q1 in Q3. destruct (Hl s1 g k v s2 r K1 OK Q3 U Hv E2) as (R & ER & Hh). unfold plan_elem. rewrite ER. cbn [bindr].
  pose proof (Hwr s1 g k v K1 OK) as (W2 & F2 & _). rewrite E2, Q1, Hn in *. cbn [fst] in *.
  destruct r as [i|], R as [T|]; try contradiction.
  - destruct Hh as (NC & H5 & Hh). apply bind_ok in E. destruct E as (s3 & p & E3 & E). apply gets_ok in E3. destruct E3 as [-> ->].
    apply bind_ok in E. destruct E as (s4 & [] & E4 & E). apply ret_ok in E. destruct E as [-> ->].
    assert (NG : name_of (hp s2) g = rp).
    { assert (X : hp s1 g <> None) by (rewrite Q1; eapply live_exists; eassumption). destruct (f_obj _ _ _ _ _ F2 g X) as (_ & -> & _). rewrite Q1. exact Hn. }
    rewrite NG in E4. exists T. split; [reflexivity|]. eapply sub_weaken; [|eapply mark_sub; [exact NC|exact E4|exact Hh]].
    intros q [P|P]; [exists k; split; assumption|]. eapply elem_mono; eassumption.
  - apply ret_ok in E. destruct E as [-> ->]. exists LCanon. split; [reflexivity|].
    assert (C2 : canon s2 = Some c) by (apply (f_canon _ _ _ _ _ F2), (f_canon _ _ _ _ _ K2); exact Hc).
    destruct (w_canon _ _ W2 c C2) as (g' & G1 & G2).
    assert (G3 : rgrp s2 = Some g) by (apply (f_rgrp _ _ _ _ _ F2); exact Q2). rewrite G3 in G1. injection G1 as <-.
    pose proof (w_sess _ _ W2 g G3) as Hw2. destruct (w_refs _ _ W2 g Hw2) as [_ CC]. specialize (CC c G2).
    pose proof (walk_root_name _ _ _ _ (w_tree _ _ W2) Hw2) as Hn2.
    assert (A2 : at_target s2 rp g).
    { split; [|split; [|exact Hn2]].
      - assert (X : hp s1 g <> None) by (rewrite Q1; eapply live_exists; eassumption). apply (f_obj _ _ _ _ _ F2 g X).
      - apply live_walk. rewrite Hn2. exact Hw2. }
    destruct (link_child o s2 rp g (lit "a") c W2 A2 G2) as (B1 & B2 & B3).
    exists (fun j => j = c). split; [reflexivity|]. split; [|constructor; exact CC].
    intros j ->. split; [exact B2|]. split; [right; split; [exact B3|exact CC]|].
    unfold is_canonical in CC. destruct (hp s2 c) as [ob|] eqn:Ec; [|discriminate]. exists ob. split; [exact Ec|].
    destruct (o_body ob) as [d f|] eqn:Eb; [|discriminate]. split; [unfold links; rewrite Ec, Eb; intros k' m []|].
    intros x y m [= <- <-] Hm. exfalso. do 2 (apply andb_true_iff in CC; destruct CC as [CC _]). apply andb_true_iff in CC. destruct CC as [_ CC].
    rewrite forallb_forall in CC. specialize (CC _ Hm). discriminate.
Qed.
Lemma elements_laid g c l : forall s s' js, wf s -> rgrp s = Some g -> canon s = Some c -> ptr_ok o (hp s) c -> Forall tidy l ->
  mapM (write_element o rnd tries wr g c) l s = (s', Ok js) -> exists Ts, mapr (plan_elem pl) l = Ok Ts /\ Forall2 (sub (hp s') (elem_reg s) rp) js Ts.
Proof.
  induction l as [|v l IH]; intros s s' js W Hr Hc Pc HT E; cbn [mapM] in E.
  - apply ret_ok in E. destruct E as [-> ->]. exists []. split; [reflexivity|constructor].
  - inversion HT as [|? ? Hv HT']; subst. apply bind_ok in E. destruct E as (s1 & j & E1 & E). apply bind_ok in E. destruct E as (s2 & js' & E2 & E).
    apply ret_ok in E. destruct E as [-> ->].
    destruct (element_keeps o rnd tries Hkn Hvn wr Hwr (fun _ => False) s g c v W Hr Pc) as (K1 & K2 & K3). rewrite E1 in *. cbn [fst snd] in *.
    destruct (K3 j eq_refl) as [R1 _]. pose proof (ptr_ok_frame _ _ _ _ _ _ K2 Pc) as P1.
    assert (K4 : wf s2 /\ frame (fun _ => False) s1 s2).
    { destruct (mapM_keeps o rnd (fun _ => False) (fun s => rgrp s = Some g /\ ptr_ok o (hp s) c) (fun _ _ => True) (write_element o rnd tries wr g c) l s1) as (H1 & H2 & _); auto.
      - intros s3 x _ W3 [R3 P3]. destruct (element_keeps o rnd tries Hkn Hvn wr Hwr (fun _ => False) s3 g c x W3 R3 P3) as (J1 & J2 & J3).
        split; [exact J1|]. split; [exact J2|]. intros y Hy. destruct (J3 y Hy) as [H1 _]. split; [split; [exact H1|]|exact I]. eapply ptr_ok_frame; eassumption.
      - rewrite E2 in *. auto. }
    destruct K4 as [W2 F2]. destruct (element_laid s g c v s1 j W Hr Hc Hv E1) as (T & T1 & T2).
    destruct (IH s1 s2 js' K1 R1 (f_canon _ _ _ _ _ K2 c Hc) P1 HT' E2) as (Ts & U1 & U2).
    exists (T :: Ts). cbn [mapr]. rewrite T1, U1. split; [reflexivity|]. constructor.
    + eapply sub_frame; [exact F2|apply elem_clear0|tauto|exact T2].
    + eapply Forall2_imp; [|exact U2]. cbn. intros a b Hab. eapply sub_weaken; [|exact Hab]. intros p Hp. eapply elem_mono; eassumption.
Qed.
Lemma object_array_laid a s s' d : wf s -> Forall tidy (map elem_val (a_data a)) ->
  write_object_array o rnd tries wr a s = (s', Ok d) ->
  exists js Ts, d = mkArr TRef (a_shape a) (map XPtr js) /\ mapr (plan_elem pl) (map elem_val (a_data a)) = Ok Ts /\ Forall2 (sub (hp s') (elem_reg s) rp) js Ts.
Proof.
  intros W HT E. unfold write_object_array in E. apply bind_ok in E. destruct E as (s1 & g & E1 & E).
  destruct (ensure_refs_keeps o rnd (fun _ => False) s W) as (W1 & F1 & Q1). rewrite E1 in *. cbn [fst snd] in *. specialize (Q1 g eq_refl).
  apply bind_ok in E. destruct E as (s2 & c & E2 & E).
  destruct (ensure_canon_keeps o rnd tries (fun _ => False) s1 g W1 Q1) as (W2 & F2 & Q2). rewrite E2 in *. cbn [fst snd] in *. destruct (Q2 c eq_refl) as [R2 P2].
  assert (C2 : canon s2 = Some c).
  { unfold ensure_canon in E2. destruct (canon s1) as [x|] eqn:C; [injection E2 as <- <-; exact C|].
    destruct (lookup (hp s1) g (lit "a")) as [x|] eqn:L.
    - destruct (is_canonical (hp s1) x); [injection E2 as <- <-; reflexivity|]. apply bind_ok in E2. destruct E2 as (s3 & [] & _ & E2).
      unfold new_canon in E2. apply bind_ok in E2. destruct E2 as (s4 & y & _ & E2). apply bind_ok in E2. destruct E2 as (s5 & [] & E5 & E2). injection E5 as <-. apply ret_ok in E2. destruct E2 as [-> ->]. reflexivity.
    - unfold new_canon in E2. apply bind_ok in E2. destruct E2 as (s4 & y & _ & E2). apply bind_ok in E2. destruct E2 as (s5 & [] & E5 & E2). injection E5 as <-. apply ret_ok in E2. destruct E2 as [-> ->]. reflexivity. }
  apply bind_ok in E. destruct E as (s3 & js & E3 & E). apply ret_ok in E. destruct E as [-> ->].
  destruct (elements_laid g c _ s2 s3 js W2 R2 C2 P2 HT E3) as (Ts & T1 & T2).
  exists js, Ts. split; [reflexivity|]. split; [exact T1|]. eapply Forall2_imp; [|exact T2]. cbn. intros x y Hxy.
  eapply sub_weaken; [|exact Hxy]. intros p Hp. eapply elem_mono; [exact F1|]. eapply elem_mono; eassumption.
Qed.

(** ** members of Groups *)
Section Members.
Variables (t : list pystr) (i : nat) (f : attrs -> attrs) (post : nat -> M unit).
Hypothesis f_ext : forall a b, (forall k, a k = b k) -> forall k, f a k = f b k.
Hypothesis Hpost : forall s1 s2 j ob, hp s1 j = Some ob -> o_attrs ob h5path = None -> name_of (hp s1) i = t -> post j s1 = (s2, Ok tt) ->
  exists a, s2 = set_hp s1 (upd (hp s1) j (with_attrs ob a)) /\ forall k, a k = marked t (f (o_attrs ob)) k.
Definition step (kv : pystr * pyval) : M unit :=
  let* r := wr i (fst kv) (snd kv) in match r with None => ret tt | Some j => post j end.
Definition plan_member (kv : pystr * pyval) : res (option (pystr * ltree)) :=
  do r <- pl (snd kv); Ok (option_map (fun T => (fst kv, map_attrs f T)) r).
(** a member is there as planned, [R] *)
Definition member (s : st) (P : list pystr -> Prop) (kv : pystr * pyval) (R : option (pystr * ltree)) : Prop :=
  match R with
  | None => lookup (hp s) i (fst kv) = None
  | Some kT => fst kT = fst kv /\ exists j, lookup (hp s) i (fst kT) = Some j /\ sub (hp s) P t j (snd kT)
  end.

Lemma marked_ext a b : (forall k, a k = b k) -> forall k, marked t (f a) k = marked t (f b) k.
Proof. intros H k. unfold Plan.marked. destruct (o_matlab_compatible o); unfold set_attr, del_attr; destruct (eqb_str k h5path); auto. Qed.
Lemma step_laid s kv s' u : wf s -> at_target s t i -> is_group (hp s) i = true -> unreserved s t -> lookup (hp s) i (fst kv) = None ->
  (fst kv = [] \/ clean (fst kv)) -> tidy (snd kv) -> step kv s = (s', Ok u) ->
  wf s' /\ frame (pre (t ++ [fst kv])) s s' /\ at_target s' t i /\ is_group (hp s') i = true /\ attrs_of (hp s') i = attrs_of (hp s) i /\
  (forall k', k' <> fst kv -> lookup (hp s') i k' = lookup (hp s) i k') /\
  exists R, plan_member kv = Ok R /\ member s' (reg s (t ++ [fst kv])) kv R.
Proof.
  destruct kv as [k v]. unfold plan_member, member, step. cbn [fst snd]. intros W A G U L C V E. destruct A as (A1 & A2 & A3).
  assert (K : okt s i k).
  { destruct (unreserved_member o rnd s t k U) as [U1 U2]. constructor; rewrite ?A3; auto. intros x P F. apply (U2 x P). apply futc_fut. exact F. }
  pose proof (Hwr s i k v W K) as (W1 & F1 & P1). apply bind_ok in E. destruct E as (s1 & r & E1 & E). rewrite E1 in *. cbn [fst snd] in *.
  assert (UM : unreserved s (name_of (hp s) i ++ [k])) by (rewrite A3; apply unreserved_member; exact U).
  destruct (Hl s i k v s1 r W K L UM V E1) as (R & ER & HR). rewrite ER. cbn [bindr]. rewrite A3 in *. destruct u.
  assert (NT : ~ pre (t ++ [k]) t) by apply pre_snoc_self.
  assert (X : wf s' /\ frame (pre (t ++ [k])) s s' /\ match R with None => lookup (hp s') i k = None | Some T => exists j, at_target s' (t ++ [k]) j /\ sub (hp s') (reg s (t ++ [k])) t j (map_attrs f T) end).
  { destruct r as [j|], R as [T|]; try contradiction.
    - destruct HR as (NC & H5 & HL). specialize (P1 _ eq_refl). cbn beta iota in P1. destruct P1 as (P1 & P2 & P3).
      destruct (hp s1 j) as [ob|] eqn:Ej; [|congruence].
      assert (AO : forall x, o_attrs ob x = root_attrs T x) by (eapply laid_attrs; eassumption).
      assert (NI : name_of (hp s1) i = t) by (destruct (f_obj _ _ _ _ _ F1 i A1) as (_ & -> & _); exact A3).
      destruct (Hpost s1 s' j ob Ej) as (a & -> & Ha); [rewrite AO; exact H5|exact NI|exact E|].
      assert (NA : name_of (hp s1) j <> ra) by (rewrite P3; intros Y; apply (proj1 UM); rewrite Y; apply pre_refl).
      assert (SK : same_kind (o_body ob) (o_body (with_attrs ob a))) by (cbn; destruct (o_body ob); cbn; auto).
      split; [eapply wf_change; [exact W1|exact Ej|reflexivity|exact SK|exact NA|]; intros d x m B; apply (w_ptrs _ _ W1 j ob d x m Ej B)|].
      split; [eapply frame_trans; [exact F1|eapply frame_change; [exact W1|exact Ej|reflexivity|exact SK|rewrite P3; apply pre_refl]|exact W]|].
      exists j. split.
      + split; [cbn [hp set_hp]; rewrite upd_same; discriminate|]. split; [cbn [hp set_hp]; rewrite (change_live s1 j ob (with_attrs ob a) Ej eq_refl SK); exact P2|].
        cbn [hp set_hp]. rewrite (mod_name _ _ _ (with_attrs ob a) Ej eq_refl). exact P3.
      + apply touch_sub; auto. intros x. rewrite Ha. apply marked_ext. exact AO.
    - apply ret_ok in E. destruct E as [-> _]. auto. }
  destruct X as (W2 & F2 & X). assert (AT : at_target s' t i) by (apply (at_target_frame o rnd _ _ _ _ _ F2 NT); repeat split; assumption).
  split; [exact W2|]. split; [exact F2|]. split; [exact AT|]. split; [destruct (f_obj _ _ _ _ _ F2 i A1) as (_ & _ & ->); exact G|].
  split; [apply (f_keep _ _ _ _ _ F2 i A2); rewrite A3; exact NT|].
  split; [intros k' N; apply (other_link o rnd s s' t i k k'); auto; repeat split; assumption|].
  eexists. split; [reflexivity|]. destruct R as [T|]; cbn [option_map fst snd]; [|exact X]. split; [reflexivity|].
  destruct X as (j & J1 & J2). exists j. split; [apply (child_link o s' t); assumption|exact J2].
Qed.

Definition below (s : st) (p : list pystr) : Prop := exists k, reg s (t ++ [k]) p.
Lemma steps_laid kvs : forall s s' u, wf s -> at_target s t i -> is_group (hp s) i = true -> unreserved s t ->
  NoDup (map fst kvs) -> (forall k, In k (map fst kvs) -> lookup (hp s) i k = None) -> Forall (fun kv => fst kv = [] \/ clean (fst kv)) kvs ->
  Forall tidy (map snd kvs) -> iterM step kvs s = (s', Ok u) ->
  wf s' /\ frame (keys_of kvs t) s s' /\ at_target s' t i /\ is_group (hp s') i = true /\ attrs_of (hp s') i = attrs_of (hp s) i /\
  (forall k', ~ In k' (map fst kvs) -> lookup (hp s') i k' = lookup (hp s) i k') /\
  exists l, mapr plan_member kvs = Ok l /\ Forall2 (member s' (below s)) kvs l.
Proof.
  induction kvs as [|[k v] kvs IH]; intros s s' u W A G U N L C V E; cbn [iterM] in E.
  - apply ret_ok in E. destruct E as [-> _]. split; [exact W|]. split; [apply frame_refl; exact W|]. split; [exact A|]. split; [exact G|]. split; [reflexivity|]. split; [reflexivity|].
    exists []. split; [reflexivity|constructor].
  - apply bind_ok in E. destruct E as (s1 & u1 & E1 & E). cbn [map fst snd] in *. inversion N as [|? ? N1 N2]; subst. inversion C as [|? ? C1 C2]; subst. inversion V as [|? ? V1 V2]; subst. cbn [fst] in C1.
    destruct (step_laid s (k, v) s1 u1 W A G U (L k (or_introl eq_refl)) C1 V1 E1) as (W1 & F1 & A1 & G1 & T1 & L1 & R & R1 & R2). cbn [fst] in *.
    assert (U1 : unreserved s1 t) by (eapply unreserved_frame; eassumption).
    destruct (IH s1 s' u W1 A1 G1 U1 N2) as (W2 & F2 & A2 & G2 & T2 & L2 & l & H1 & H2); auto.
    { intros k' Hk. rewrite L1; [apply L; right; exact Hk|]. intros ->. exact (N1 Hk). }
    split; [exact W2|]. split.
    { eapply frame_trans; [|eapply frame_sub; [exact F2|]|exact W].
      - eapply frame_sub; [exact F1|]. intros q Pq. exists k. split; [left; reflexivity|exact Pq].
      - intros q (k' & Hk & Pq). exists k'. split; [right; exact Hk|exact Pq]. }
    split; [exact A2|]. split; [exact G2|]. split; [congruence|]. split.
    { intros k' Hk. cbn in Hk. rewrite L2 by tauto. apply L1. intros ->. tauto. }
    exists (R :: l). cbn [mapr]. rewrite R1, H1. split; [reflexivity|]. constructor.
    + unfold member in *. cbn [fst] in *. destruct R as [kT|]; [|rewrite L2; assumption]. destruct R2 as (E2 & j & J1 & J2). split; [exact E2|]. rewrite E2 in *.
      exists j. split; [rewrite L2; assumption|]. eapply sub_weaken; [|eapply sub_frame; [exact F2| | |exact J2]].
      * intros p Hp. exists k. exact Hp.
      * intros q Hq. assert (CC : forall k2, In k2 (map fst kvs) -> clear (reg s (t ++ [k])) (pre (t ++ [k2]))).
        { intros k2 H. apply member_clear; [exact U|]. intros ->. exact (N1 H). }
        destruct (Hq : reg s (t ++ [k]) q) as [Hp|Hp].
        -- split; [intros (k2 & K1 & K2); apply (proj1 (CC k2 K1 q Hq) K2)|]. split; [intros x (k2 & K1 & K2); apply (proj1 (proj2 (CC k2 K1 q Hq)) x K2)|].
           intros P. apply (not_refs o rnd s t U). eapply pre_snoc. eapply pre_trans; eassumption.
        -- split; [intros (k2 & K1 & K2); apply (proj1 (CC k2 K1 q Hq) K2)|]. split; [intros x (k2 & K1 & K2); apply (proj1 (proj2 (CC k2 K1 q Hq)) x K2)|].
           apply (elem_clear0 o rnd s q Hp).
      * intros (k2 & _ & K2). apply (proj1 (unreserved_member o rnd s t k2 U) K2).
    + eapply Forall2_imp; [|exact H2]. cbn. intros kv R' HR. unfold member in *. destruct R' as [kT|]; [|exact HR]. destruct HR as (X1 & j' & X2 & X3).
      split; [exact X1|]. exists j'. split; [exact X2|]. eapply sub_weaken; [|exact X3].
      intros q (x & [Hq|Hq]); exists x; [left; exact Hq|right; eapply elem_mono; eassumption].
Qed.

(** ** the Group itself *)
Lemma shut_union h P Q1 Q2 : shut h P Q1 -> shut h P Q2 -> shut h P (fun j => Q1 j \/ Q2 j).
Proof.
  intros S1 S2 j [Hj|Hj]; [destruct (S1 j Hj) as (A & B & C)|destruct (S2 j Hj) as (A & B & C)]; (split; [exact A|]; split; [exact B|]; eapply kids_mono; [|exact C]; cbn; auto).
Qed.
Lemma shut_none h P : shut h P (fun _ => False). Proof. intros j []. Qed.
Lemma members_union s P kvs l : Forall2 (member s P) kvs l ->
  exists Q, shut (hp s) P Q /\ Forall (fun kT => exists j, lookup (hp s) i (fst kT) = Some j /\ Q j /\ rep (hp s) Q (marked t) j (snd kT)) (somes l).
Proof.
  induction 1 as [|kv R kvs l H _ (Q & I1 & I2)]; [exists (fun _ => False); split; [apply shut_none|constructor]|].
  destruct R as [kT|]; [|exists Q; split; assumption]. destruct H as (_ & j & J1 & (Q1 & B1 & B2 & B3)).
  exists (fun j => Q1 j \/ Q j). split; [apply shut_union; assumption|]. cbn [somes flat_map app]. constructor.
  - exists j. split; [exact J1|]. split; [left; exact B1|]. eapply rep_mono; [|exact B3]. intros x Hx; left; exact Hx.
  - eapply Forall_impl; [|exact I2]. cbn. intros x (j' & X1 & X2 & X3). exists j'. split; [exact X1|]. split; [right; exact X2|]. eapply rep_mono; [|exact X3]. intros y Hy; right; exact Hy.
Qed.
Lemma below_not s0 : unreserved s0 t -> ~ below s0 t.
Proof. intros U (k & [P|(x & X1 & X2)]); [apply (pre_snoc_self _ _ P)|apply (proj2 U x X2 X1)]. Qed.
Lemma below_reg s0 p : below s0 p -> reg s0 t p.
Proof. intros (k & H). eapply reg_member. exact H. Qed.
Lemma group_laid s0 s ob at_ ls kvs l : wf s -> at_target s t i -> unreserved s0 t -> hp s i = Some ob -> o_body ob = BGroup ls -> (forall k, o_attrs ob k = at_ k) ->
  NoDup (map fst kvs) -> (forall k, ~ In k (map fst kvs) -> lookup (hp s) i k = None) -> Forall2 (member s (below s0)) kvs l ->
  laid (hp s) (reg s0 t) i (LGroup at_ (somes l)).
Proof.
  intros W (A1 & A2 & A3) U Ei Eb Ea N NO HM. destruct (members_union s _ kvs l HM) as (Q & S & F).
  assert (LL : links (hp s) i = ls) by (unfold links; rewrite Ei, Eb; reflexivity).
  assert (TRA : t <> ra) by (intros E; apply (proj1 U); rewrite E; apply pre_refl).
  assert (KK : forall k, In k (map fst ls) <-> In k (map fst (somes l))).
  { intros k. split.
    - intros Hk. assert (LK : lookup (hp s) i k <> None).
      { unfold lookup. rewrite LL. apply in_map_iff in Hk. destruct Hk as ([k' m] & <- & Hm). destruct (t_keys _ _ (w_tree _ _ W) i) as [ND _]. rewrite LL in ND.
        cbn [fst]. rewrite (in_assoc k' m ls ND Hm). discriminate. }
      destruct (in_dec (list_eq_dec N.eq_dec) k (map fst kvs)) as [H|H]; [|destruct (LK (NO k H))]. clear - HM H LK.
      induction HM as [|kv R kvs l H1 _ IH]; [destruct H|]. destruct H as [<-|H].
      + destruct R as [kT|]; [|destruct (LK H1)]. destruct H1 as [E _]. cbn. left. exact E.
      + specialize (IH H). destruct R as [kT|]; [right|]; exact IH.
    - intros Hk. apply in_map_iff in Hk. destruct Hk as (kT & <- & Hk). rewrite Forall_forall in F. destruct (F kT Hk) as (j & J1 & _).
      unfold lookup in J1. rewrite LL in J1. apply assoc_In in J1. apply in_map_iff. exists (fst kT, j). auto. }
  assert (ND : NoDup (map fst (somes l)) /\ forall k, In k (map fst (somes l)) -> In k (map fst kvs)).
  { clear - HM N. induction HM as [|kv R kvs l H1 _ IH]; [split; [constructor|intros k []]|]. cbn [map] in N. inversion N; subst. destruct (IH H3) as [I1 I2].
    destruct R as [kT|]; [|split; [exact I1|intros k Hk; right; apply I2; exact Hk]]. destruct H1 as [E _]. cbn [somes flat_map app map]. split.
    - constructor; [|exact I1]. rewrite E. intros Y. apply H2. apply I2. exact Y.
    - intros k [<-|Hk]; [left; congruence|right; apply I2; exact Hk]. }
  split; [exact A2|]. split; [rewrite A3; left; apply pre_refl|]. exists Q. split; [eapply shut_weaken; [|exact S]; intros p; apply below_reg|].
  split. { intros Qi. destruct (S i Qi) as (_ & [B|[B _]] & _); rewrite A3 in B; [apply (below_not s0 U B)|congruence]. }
  split.
  - exists ob. split; [exact Ei|]. split; [|intros a x m B; rewrite Eb in B; discriminate].
    intros k m Hm. rewrite LL in Hm. assert (Hk : In k (map fst ls)) by (apply in_map_iff; exists (k, m); auto). apply KK in Hk.
    apply in_map_iff in Hk. destruct Hk as (kT & <- & Hk). rewrite Forall_forall in F. destruct (F kT Hk) as (j & J1 & J2 & _).
    destruct (t_keys _ _ (w_tree _ _ W) i) as [NDl _]. rewrite LL in NDl. unfold lookup in J1. rewrite LL, (in_assoc _ m ls NDl Hm) in J1. injection J1 as ->. exact J2.
  - apply R_group with (ls := ls); [exists ob; auto|apply ND|exact KK|]. rewrite A3. eapply Forall_impl; [|exact F]. cbn. intros kT (j & J1 & J2 & J3). exists j.
    split; [unfold lookup in J1; rewrite LL in J1; exact J1|]. split; assumption.
Qed.
End Members.
End Marsh.
End Layout.
