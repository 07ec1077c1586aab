(** What is written stays readable while more is written: the part of the round trip
    that is about the file. *)
From Verif Require Import Base PathEsc PosixPath PosixFacts ProcessPathFacts Unicode UnicodeFacts Dec NdArray Value OptionsM StrConv ComplexM Attrs NpDims MColl Hdf5 HeapFacts NpWrite NpRead MarshalW MarshalR FrameFacts WriteFrame ReadFacts RoundSpec RoundNp.
Local Open Scope nat_scope.

(** ** computations that end well *)
Lemma bind_ok {A B} (m : M A) (k : A -> M B) s s' b : bindm m k s = (s', Ok b) ->
  exists s1 a, m s = (s1, Ok a) /\ k a s1 = (s', Ok b).
Proof. unfold bindm. destruct (m s) as [s1 [a|e]]; [eauto|discriminate]. Qed.
Lemma lift_ok {A} (r : res A) s s' a : lift r s = (s', Ok a) -> s' = s /\ r = Ok a.
Proof. unfold lift. intros [= -> ->]. auto. Qed.
Lemma gets_ok {A} (f : st -> A) s s' a : gets f s = (s', Ok a) -> s' = s /\ a = f s.
Proof. unfold gets. intros [= -> ->]. auto. Qed.
Lemma ret_ok {A} (x : A) s s' a : ret x s = (s', Ok a) -> s' = s /\ a = x.
Proof. unfold ret. intros [= -> ->]. auto. Qed.

Section Held.
Variables (wo ro : options) (keq : pyval -> pyval -> bool) (rnd : nat -> N).
Notation rp := (rp wo). Notation ra := (ra wo). Notation wf := (wf wo). Notation frame := (frame wo rnd). Notation fut := (fut rnd).

(** the objects in [Q] lie in the region [P] and nothing leads out of [Q] *)
Definition closed (h : heap) (P : list pystr -> Prop) (Q : nat -> Prop) : Prop :=
  forall j, Q j -> live h j = true /\ P (name_of h j) /\ exists ob, h j = Some ob /\
    (forall k m, In (k, m) (links h j) -> Q m) /\
    (forall a f m, o_body ob = BData a f -> In (XPtr m) (a_data a) -> Q m).
(** [i] has a type string *)
Definition has_type (h : heap) (i : nat) : Prop := exists ob, h i = Some ob /\ o_attrs ob (lit "Python.Type") <> None.
Lemma type_has h i ob t : h i = Some ob -> attr_str (o_attrs ob) (lit "Python.Type") = Ok (Some t) -> has_type h i.
Proof. intros E1 E2. exists ob. split; [exact E1|]. unfold attr_str in E2. destruct (o_attrs ob (lit "Python.Type")); [discriminate|discriminate E2]. Qed.
(** reading [i] gives [v] *)
Definition held (h : heap) (P : list pystr -> Prop) (i : nat) (v : pyval) : Prop :=
  exists Q v', Q i /\ closed h P Q /\ same v v' /\ has_type h i /\ forall n, depth v <= n -> read ro keq h n i = Ok v'.

Lemma closed_weaken h (P P' : list pystr -> Prop) Q : closed h P Q -> (forall p, P p -> P' p) -> closed h P' Q.
Proof. intros C H j Hj. destruct (C j Hj) as (A1 & A2 & A3). auto. Qed.
Lemma held_weaken h (P P' : list pystr -> Prop) i v : held h P i v -> (forall p, P p -> P' p) -> held h P' i v.
Proof. intros (Q & v' & H1 & H2 & H3) H. exists Q, v'. split; [exact H1|]. split; [eapply closed_weaken; eassumption|exact H3]. Qed.
Lemma closed_union h P (Q : nat -> nat -> Prop) : (forall x, closed h P (Q x)) -> closed h P (fun j => exists x, Q x j).
Proof.
  intros C j [x Hx]. destruct (C x j Hx) as (A1 & A2 & ob & A3 & A4 & A5). split; [exact A1|]. split; [exact A2|].
  exists ob. split; [exact A3|]. split; [intros k m Hm; exists x; apply (A4 k m Hm)|intros a f m B Hm; exists x; apply (A5 a f m B Hm)].
Qed.

(** heaps that only differ in H5PATH on [Q] *)
Lemma held_eqo h h' P i v :
  held h P i v -> (forall j ob, live h j = true -> P (name_of h j) -> h j = Some ob -> live h' j = true /\ exists ob', h' j = Some ob' /\ eqo ob ob') ->
  held h' P i v.
Proof.
  intros (Q & v' & Qi & C & S & T & R) H.
  assert (AG : agree h h' Q).
  { intros j Hj. destruct (C j Hj) as (A1 & A2 & ob & A3 & A4 & A5). destruct (H j ob A1 A2 A3) as (B1 & ob' & B2 & B3).
    exists ob, ob'. split; [exact A3|]. split; [exact B2|]. split; [exact B3|]. split; [exact A4|].
    intros a f m B Hm. pose proof (A5 a f m B Hm) as Qm. destruct (C m Qm) as (C1 & C2 & om & C3 & _). destruct (H m om C1 C2 C3) as (D1 & _).
    rewrite C1, D1. auto. }
  exists Q, v'. split; [exact Qi|]. split; [|split; [exact S|split]].
  - intros j Hj. destruct (C j Hj) as (A1 & A2 & ob & A3 & A4 & A5). destruct (H j ob A1 A2 A3) as (B1 & ob' & B2 & B3).
    destruct B3 as (E1 & E2 & E3). split; [exact B1|]. split.
    + unfold name_of in *. rewrite B2. rewrite A3 in A2. rewrite <- E1. exact A2.
    + exists ob'. split; [exact B2|]. split.
      * intros k m Hm. apply (A4 k m). unfold links in *. rewrite B2 in Hm. rewrite A3, E2. exact Hm.
      * intros a f m B. apply A5 with (f := f). rewrite E2. exact B.
  - destruct T as (ob & T1 & T2). destruct (C i Qi) as (A1 & A2 & _). destruct (H i ob A1 A2 T1) as (_ & ob' & B2 & _ & _ & B3). exists ob'. split; [exact B2|]. rewrite <- B3 by discriminate. exact T2.
  - intros n Hn. rewrite (read_stable ro keq h h' Q AG n i Qi). apply R. exact Hn.
Qed.
Lemma eqo_refl ob : eqo ob ob. Proof. repeat split; reflexivity. Qed.
Definition clear (P R : list pystr -> Prop) : Prop := forall p, P p -> ~ R p /\ (forall k, ~ R (p ++ [k])) /\ ~ pre p rp.
Lemma held_frame R s s' P i v : frame R s s' -> clear P R -> held (hp s) P i v -> held (hp s') P i v.
Proof.
  intros F H X. eapply held_eqo; [exact X|]. intros j ob L Pj E. destruct (H _ Pj) as (N1 & N2 & N3).
  split; [apply (f_live _ _ _ _ _ F); assumption|]. exists ob. split; [|apply eqo_refl]. rewrite <- E. apply (f_same _ _ _ _ _ F); assumption.
Qed.
Lemma closed_frame R s s' P Q : frame R s s' -> clear P R -> closed (hp s) P Q -> closed (hp s') P Q.
Proof.
  intros F H C j Hj. destruct (C j Hj) as (A1 & A2 & ob & A3 & A4 & A5). destruct (H _ A2) as (N1 & N2 & N3).
  pose proof (f_same _ _ _ _ _ F j A1 N1 N3 N2) as E. split; [apply (f_live _ _ _ _ _ F); assumption|].
  unfold name_of, links in *. rewrite E. eauto.
Qed.

(** marking an object with the path of its Group *)
Lemma mark_held s i p s' P j v : mark_path wo i p s = (s', Ok tt) -> held (hp s) P j v -> held (hp s') P j v.
Proof.
  intros E X. assert (exists ob a, hp s i = Some ob /\ s' = set_hp s (upd (hp s) i (with_attrs ob a)) /\ forall k, k <> h5path -> o_attrs ob k = a k) as (ob & a & Ei & -> & Ha).
  { unfold mark_path in E. destruct (o_matlab_compatible wo).
    - apply bind_ok in E. destruct E as (s1 & b & E1 & E). apply lift_ok in E1. destruct E1 as [-> E1].
      unfold modify_attr, set_attrs, attrs_of in E. destruct (hp s i) as [ob|]; [|discriminate]. injection E as <-.
      exists ob. eexists. split; [reflexivity|]. split; [reflexivity|]. intros k Hk. unfold set_attr. rewrite (proj2 (eqb_str_neq _ _)); [reflexivity|exact Hk].
    - unfold drop_attr, set_attrs, attrs_of in E. destruct (hp s i) as [ob|]; [|discriminate]. injection E as <-.
      exists ob. eexists. split; [reflexivity|]. split; [reflexivity|]. intros k Hk. unfold del_attr. rewrite (proj2 (eqb_str_neq _ _)); [reflexivity|exact Hk]. }
  eapply held_eqo; [exact X|]. intros m om L Pm Em. cbn [hp set_hp].
  assert (SK : same_kind (o_body ob) (o_body (with_attrs ob a))) by (cbn; destruct (o_body ob); cbn; auto).
  split; [rewrite (change_live s i ob (with_attrs ob a)); auto|].
  destruct (Nat.eq_dec m i) as [->|N].
  - rewrite upd_same. rewrite Ei in Em. injection Em as <-. eexists. split; [reflexivity|]. split; [reflexivity|]. split; [reflexivity|exact Ha].
  - rewrite upd_other by exact N. exists om. split; [exact Em|apply eqo_refl].
Qed.

(** ** regions *)
(** what belongs to a value written at [t]; what belongs to elements of arrays *)
Definition elem_reg (s : st) (p : list pystr) : Prop := exists k, fut s k /\ pre (rp ++ [k]) p.
Definition reg (s : st) (t p : list pystr) : Prop := pre t p \/ elem_reg s p.
Definition unreserved (s : st) (t : list pystr) : Prop := ~ pre t ra /\ forall k, pre (rp ++ [k]) t -> ~ fut s k.

Lemma elem_mono R s s' p : frame R s s' -> elem_reg s' p -> elem_reg s p.
Proof. intros F (k & H1 & H2). exists k. split; [eapply fut_mono; eassumption|exact H2]. Qed.
Lemma unreserved_frame R s s' t : frame R s s' -> unreserved s t -> unreserved s' t.
Proof. intros F [H1 H2]. split; [exact H1|]. intros k P X. apply (H2 k P). eapply fut_mono; eassumption. Qed.
Lemma unreserved_member s t k : unreserved s t -> unreserved s (t ++ [k]).
Proof.
  intros [H1 H2]. split; [intros P; apply H1; eapply pre_snoc; exact P|]. intros x P. destruct (pre_snoc_inv _ _ _ P) as [Q|Q]; [apply H2; exact Q|].
  apply app_inj_tail in Q. destruct Q as [Q _]. exfalso. apply H1. rewrite <- Q. apply pre_app.
Qed.
Lemma not_refs s t : unreserved s t -> ~ pre t rp.
Proof. intros [H _] P. apply H. eapply pre_trans; [exact P|apply pre_app]. Qed.

(** elements are not below [t] *)
Lemma elem_clear s t : unreserved s t -> clear (elem_reg s) (pre t).
Proof.
  intros [H1 H2] p (k & Hk & Hp).
  assert (N : forall q, pre p q -> ~ pre t q).
  { intros q Pq Tq. pose proof (pre_trans _ _ _ Hp Pq) as E. destruct (pre_cmp _ _ _ Tq E) as [X|X].
    - destruct (pre_snoc_inv _ _ _ X) as [Y|Y]; [apply H1; eapply pre_trans; [exact Y|apply pre_app]|].
      apply (H2 k); [rewrite Y; apply pre_refl|exact Hk].
    - apply (H2 k X Hk). }
  split; [apply N, pre_refl|]. split; [intros x; apply N, pre_app|].
  intros Q. pose proof (pre_trans _ _ _ Hp Q) as X. apply (pre_snoc_self _ _ X).
Qed.
Lemma elem_clear0 s : clear (elem_reg s) (fun _ => False).
Proof.
  intros p (k & Hk & Hp). split; [tauto|]. split; [tauto|]. intros Q. pose proof (pre_trans _ _ _ Hp Q) as X. apply (pre_snoc_self _ _ X).
Qed.
(** a member of [t] and another one *)
Lemma member_clear s t k1 k2 : unreserved s t -> k1 <> k2 -> clear (reg s (t ++ [k1])) (pre (t ++ [k2])).
Proof.
  intros H N p [Hp|Hp]; [|apply (elem_clear s (t ++ [k2]) (unreserved_member s t k2 H) p Hp)].
  assert (NN : forall q, pre (t ++ [k1]) q -> ~ pre (t ++ [k2]) q).
  { intros q [x X] [y Y]. rewrite X, <- !app_assoc in Y. apply app_inv_head in Y. cbn in Y. congruence. }
  split; [apply NN; exact Hp|]. split; [intros x; apply NN; eapply pre_trans; [exact Hp|apply pre_app]|].
  intros Q. apply (not_refs s t H). eapply pre_snoc. eapply pre_trans; eassumption.
Qed.
Lemma reg_member s t k p : reg s (t ++ [k]) p -> reg s t p.
Proof. intros [H|H]; [left; eapply pre_snoc; exact H|right; exact H]. Qed.

(** ** links of a Group while one member is written *)
Lemma child_link s t i k j : wf s -> at_target s t i -> at_target s (t ++ [k]) j -> lookup (hp s) i k = Some j.
Proof.
  intros W (A1 & A2 & A3) (B1 & B2 & B3). apply live_walk in A2. apply live_walk in B2. rewrite A3 in A2. rewrite B3, walk_snoc, A2 in B2. exact B2.
Qed.
Lemma link_child s t i k j : wf s -> at_target s t i -> lookup (hp s) i k = Some j -> at_target s (t ++ [k]) j.
Proof.
  intros W (A1 & A2 & A3) L. destruct (t_link _ _ (w_tree _ _ W) _ _ _ L) as [H1 H2]. rewrite A3 in H2.
  split; [exact H1|]. split; [|exact H2]. eapply live_child; [apply (w_tree _ _ W)|exact A2|exact L].
Qed.
Lemma other_link s s' t i k k' : wf s -> wf s' -> frame (pre (t ++ [k])) s s' -> unreserved s t -> at_target s t i -> at_target s' t i -> k' <> k ->
  lookup (hp s') i k' = lookup (hp s) i k'.
Proof.
  intros W W' F U A A' N. destruct (lookup (hp s) i k') as [j|] eqn:L.
  - apply (child_link s' t); auto. apply (at_target_frame wo rnd _ _ _ _ _ F); [|apply (link_child s t i); assumption].
    intros [x X]. rewrite <- app_assoc in X. apply app_inv_head in X. cbn in X. congruence.
  - destruct (lookup (hp s') i k') as [j|] eqn:L'; [|reflexivity]. exfalso.
    destruct (link_child s' t i k' j W' A' L') as (B1 & B2 & B3). destruct (hp s j) as [ob|] eqn:E.
    + assert (X : hp s j <> None) by congruence. destruct (f_obj _ _ _ _ _ F j X) as (_ & Y & _).
      pose proof (f_dead _ _ _ _ _ F j X B2) as Lj. assert (lookup (hp s) i k' = Some j); [|congruence].
      apply (child_link s t); auto. split; [exact X|]. split; [exact Lj|congruence].
    + destruct (f_born _ _ _ _ _ F j E B2) as [[x X]|[X|(y & Y1 & Y2)]]; rewrite B3 in *.
      * rewrite <- app_assoc in X. apply app_inv_head in X. cbn in X. congruence.
      * apply (proj1 (unreserved_member s t k' U)). exact X.
      * apply (proj2 (unreserved_member s t k' U) y Y2 Y1).
Qed.
End Held.
