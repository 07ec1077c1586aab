(** References never dangle. *)
From Verif Require Import Base Unicode PathEsc PosixPath PosixFacts ProcessPath ProcessPathFacts MColl Dec NdArray Value Attrs OptionsM StrConv ComplexM NpDims Hdf5 HeapFacts NpWrite MarshalW FrameFacts WriteFrame MarshalR ReadFacts FileApi ApiFacts ApiSpec HistoryFacts RndFacts RoundHeap RefSpec.
Local Open Scope nat_scope.

Lemma referred_in h i ob a f j : h i = Some ob -> o_body ob = BData a f -> In (XPtr j) (a_data a) -> referred h j.
Proof. intros. exists i, ob, a, f. auto. Qed.

(** ** every object *)
Lemma longest h n : exists B, forall i, i < n -> length (name_of h i) <= B.
Proof.
  induction n as [|n [B H]]; [exists 0; lia|]. exists (Nat.max B (length (name_of h n))). intros i Hi.
  destruct (Nat.eq_dec i n) as [->|N]; [lia|]. assert (i < n) by lia. specialize (H i H0). lia.
Qed.
Lemma orderly_ends h n : tree h n -> orderly h -> forall i, h i <> None -> ends h i.
Proof.
  intros T O. destruct (longest h n) as [B HB].
  assert (X : forall m i, B - length (name_of h i) <= m -> h i <> None -> ends h i).
  { induction m as [|m IH]; intros i Hm Hi; destruct (h i) as [ob|] eqn:E; try congruence; destruct (o_body ob) as [a f|ls] eqn:Bo.
    - eapply E_data; [exact E|exact Bo| |]; intros j Hj; apply O; eapply referred_in; eassumption.
    - eapply E_group; [exact E|exact Bo|]. intros k j Hin. exfalso.
      assert (L : lookup h i k = Some j).
      { unfold lookup. apply In_assoc; [apply (t_keys _ _ T)|]. unfold Hdf5.links. rewrite E, Bo. exact Hin. }
      destruct (t_link _ _ T _ _ _ L) as [Hj N]. destruct (h j) as [oj|] eqn:Ej; [|congruence].
      pose proof (HB j (t_bound _ _ T _ _ Ej)) as H1. rewrite N, app_length in H1. cbn in H1. lia.
    - eapply E_data; [exact E|exact Bo| |]; intros j Hj; apply O; eapply referred_in; eassumption.
    - eapply E_group; [exact E|exact Bo|]. intros k j Hin.
      assert (L : lookup h i k = Some j).
      { unfold lookup. apply In_assoc; [apply (t_keys _ _ T)|]. unfold Hdf5.links. rewrite E, Bo. exact Hin. }
      destruct (t_link _ _ T _ _ _ L) as [Hj N]. apply IH; [|exact Hj]. rewrite N, app_length. cbn. lia. }
  intros i Hi. apply (X (B - length (name_of h i)) i); auto.
Qed.

(** ** programs that make no references *)
Definition quiet {A} (m : M A) : Prop := forall s j, referred (hp (fst (m s))) j -> referred (hp s) j.
Lemma quiet_ret {A} (a : A) : quiet (ret a). Proof. intros s j H. exact H. Qed.
Lemma quiet_fail {A} e : quiet (@fail A e). Proof. intros s j H. exact H. Qed.
Lemma quiet_lift {A} (r : res A) : quiet (lift r). Proof. intros s j H. exact H. Qed.
Lemma quiet_gets {A} (f : st -> A) : quiet (gets f). Proof. intros s j H. exact H. Qed.
Lemma quiet_bind {A B} (m : M A) (k : A -> M B) : quiet m -> (forall a, quiet (k a)) -> quiet (bindm m k).
Proof.
  intros H1 H2 s j. unfold bindm. specialize (H1 s j). destruct (m s) as [s1 [a|e]]; cbn [fst] in *; [|exact H1].
  intros H. apply H1. apply (H2 a s1 j H).
Qed.
Lemma quiet_iter {A} (f : A -> M unit) l : (forall x, quiet (f x)) -> quiet (iterM f l).
Proof. intros H. induction l as [|x l IH]; cbn [iterM]; [apply quiet_ret|]. apply quiet_bind; auto. Qed.
Lemma quiet_upd h i ob j : (forall a f, o_body ob = BData a f -> In (XPtr j) (a_data a) -> referred h j) -> referred (upd h i ob) j -> referred h j.
Proof.
  intros H (m & om & a & f & E1 & E2 & E3). destruct (Nat.eq_dec m i) as [->|N].
  - rewrite upd_same in E1. injection E1 as <-. eauto.
  - rewrite upd_other in E1 by exact N. eapply referred_in; eassumption.
Qed.
Lemma quiet_set_links i ls : quiet (set_links i ls).
Proof. intros s j. unfold set_links. destruct (hp s i); cbn [fst hp set_hp]; [|auto]. apply quiet_upd. discriminate. Qed.
Lemma quiet_set_attrs i a : quiet (set_attrs i a).
Proof.
  intros s j. unfold set_attrs. destruct (hp s i) as [ob|] eqn:E; cbn [fst hp set_hp]; [|auto]. apply quiet_upd.
  intros d f B H. eapply referred_in; eassumption.
Qed.
Lemma quiet_unlink_at cs : forall g, quiet (unlink_at g cs).
Proof.
  induction cs as [|k cs IH]; intros g; cbn [unlink_at]; [apply quiet_fail|]. destruct cs as [|k2 cs].
  - intros s j. destruct (lookup (hp s) g k); [apply quiet_set_links|auto].
  - intros s j. destruct (lookup (hp s) g k) as [m|]; [apply IH|auto].
Qed.
Lemma quiet_unlink g nm : quiet (unlink g nm).
Proof. unfold unlink. destruct (name_err nm); [apply quiet_fail|apply quiet_unlink_at]. Qed.
Definition no_refs (b : body) : Prop := match b with BData a _ => forall j, ~ In (XPtr j) (a_data a) | BGroup _ => True end.
Lemma quiet_alloc g k at_ b : no_refs b -> quiet (alloc g k at_ b).
Proof.
  intros Hb s j. unfold alloc. destruct (hp s g) as [ob|]; [|auto]. destruct (o_body ob) as [|ls]; [auto|]. cbn [fst hp].
  intros H. apply quiet_upd in H; [apply quiet_upd in H; [exact H|discriminate]|]. cbn [o_body]. intros a f -> X. destruct (Hb j X).
Qed.
Lemma quiet_create_at at_ b cs : no_refs b -> forall g, quiet (create_at g cs at_ b).
Proof.
  intros Hb. induction cs as [|k cs IH]; intros g; cbn [create_at]; [apply quiet_fail|]. destruct cs as [|k2 cs].
  - intros s j. destruct (lookup (hp s) g k); [auto|apply quiet_alloc; exact Hb].
  - intros s j. destruct (lookup (hp s) g k) as [m|]; [apply IH|]. apply quiet_bind; [apply quiet_alloc; exact I|intros x; apply IH].
Qed.
Lemma quiet_new_link g nm at_ b : no_refs b -> quiet (new_link g nm at_ b).
Proof. intros Hb. unfold new_link. destruct (name_err nm); [apply quiet_fail|apply quiet_create_at; exact Hb]. Qed.
Lemma quiet_create_group g nm : quiet (create_group g nm). Proof. apply quiet_new_link. exact I. Qed.
Lemma quiet_get g nm : quiet (get_obj g nm).
Proof. unfold get_obj. destruct (name_err nm); [apply quiet_fail|apply quiet_gets]. Qed.
Lemma quiet_require nm : quiet (require_group nm).
Proof.
  unfold require_group. apply quiet_bind; [apply quiet_get|]. intros [i|]; [|apply quiet_create_group]. intros s j. destruct (is_group (hp s) i); auto.
Qed.
Lemma quiet_sync i reqs d : quiet (sync_attrs i reqs d).
Proof.
  intros s j. unfold sync_attrs. destruct (set_attributes_all _ _ _) as [a e]. pose proof (quiet_set_attrs i a s j) as Q.
  destruct (set_attrs i a s) as [s1 [u|x]]; [destruct e|]; exact Q.
Qed.
Lemma quiet_mark o i p : quiet (mark_path o i p).
Proof.
  unfold mark_path. destruct (o_matlab_compatible o).
  - apply quiet_bind; [apply quiet_lift|]. intros b s j. apply quiet_set_attrs.
  - intros s j. apply quiet_set_attrs.
Qed.
Lemma quiet_session f : (forall s, hp (f s) = hp s) -> quiet (set_session f).
Proof. intros H s j. unfold set_session. cbn [fst]. rewrite H. auto. Qed.
Lemma quiet_refs o : quiet (ensure_refs o).
Proof.
  intros s j. unfold ensure_refs. destruct (rgrp s); [auto|]. revert s j. apply quiet_bind; [apply quiet_get|].
  assert (C : quiet (let* g := create_group 0 (o_refs o) in let* _ := set_session (with_rgrp g true) in ret g)).
  { apply quiet_bind; [apply quiet_create_group|]. intros g. apply quiet_bind; [apply quiet_session; reflexivity|intros; apply quiet_ret]. }
  intros [g|]; [|exact C]. apply quiet_bind; [apply quiet_gets|]. intros [].
  - apply quiet_bind; [apply quiet_session; reflexivity|intros; apply quiet_ret].
  - apply quiet_bind; [apply quiet_unlink|intros; exact C].
Qed.
Lemma quiet_canon g : quiet (ensure_canon g).
Proof.
  assert (C : quiet (new_canon g)).
  { unfold new_canon. apply quiet_bind; [apply quiet_new_link; intros j [X|[X|X]]; [discriminate|discriminate|destruct X]|].
    intros c. apply quiet_bind; [apply quiet_session; reflexivity|intros; apply quiet_ret]. }
  intros s j. unfold ensure_canon. destruct (canon s); [auto|]. destruct (lookup (hp s) g (lit "a")) as [c|]; [|apply C].
  destruct (is_canonical (hp s) c); [auto|]. revert s j. apply quiet_bind; [apply quiet_unlink|intros; apply C].
Qed.
Lemma quiet_open g nm : quiet (open_group g nm).
Proof.
  unfold open_group. apply quiet_bind; [apply quiet_get|]. intros [i|]; [|apply quiet_create_group].
  apply quiet_bind; [apply quiet_gets|]. intros []; [apply quiet_ret|]. apply quiet_bind; [apply quiet_unlink|intros; apply quiet_create_group].
Qed.
Lemma quiet_prune i keep : quiet (prune i keep).
Proof. intros s j. unfold prune. apply quiet_iter. intros k. apply quiet_unlink_at. Qed.

(** programs that make references only to what is in [P] *)
Definition adds {A} (P : nat -> Prop) (m : M A) : Prop := forall s j, referred (hp (fst (m s))) j -> referred (hp s) j \/ P j.
Lemma quiet_adds {A} P (m : M A) : quiet m -> adds P m.
Proof. intros H s j Hj. left. apply (H s j Hj). Qed.
Lemma adds_bind {A B} P (m : M A) (k : A -> M B) : adds P m -> (forall a, adds P (k a)) -> adds P (bindm m k).
Proof.
  intros H1 H2 s j. unfold bindm. specialize (H1 s j). destruct (m s) as [s1 [a|e]]; cbn [fst] in *; [|exact H1].
  intros H. destruct (H2 a s1 j H) as [X|X]; [auto|right; exact X].
Qed.
Lemma adds_upd (P : nat -> Prop) h i ob j : (forall a f, o_body ob = BData a f -> In (XPtr j) (a_data a) -> referred h j \/ P j) -> referred (upd h i ob) j -> referred h j \/ P j.
Proof.
  intros H (m & om & a & f & E1 & E2 & E3). destruct (Nat.eq_dec m i) as [->|N].
  - rewrite upd_same in E1. injection E1 as <-. eauto.
  - rewrite upd_other in E1 by exact N. left. eapply referred_in; eassumption.
Qed.
Lemma adds_alloc g k at_ a f : adds (fun j => In (XPtr j) (a_data a)) (alloc g k at_ (BData a f)).
Proof.
  intros s j. unfold alloc. destruct (hp s g) as [ob|]; [|auto]. destruct (o_body ob) as [|ls]; [auto|]. cbn [fst hp].
  intros H. apply (adds_upd (fun j => In (XPtr j) (a_data a))) in H.
  - destruct H as [H|H]; [|right; exact H]. apply quiet_upd in H; [left; exact H|discriminate].
  - cbn [o_body]. intros a' f' [= <- <-] X. right. exact X.
Qed.
Lemma adds_create_at at_ a f cs : forall g, adds (fun j => In (XPtr j) (a_data a)) (create_at g cs at_ (BData a f)).
Proof.
  induction cs as [|k cs IH]; intros g; cbn [create_at]; [apply quiet_adds, quiet_fail|]. destruct cs as [|k2 cs].
  - intros s j. destruct (lookup (hp s) g k); [auto|apply adds_alloc].
  - intros s j. destruct (lookup (hp s) g k) as [m|]; [apply IH|]. apply (adds_bind (fun j => In (XPtr j) (a_data a))); [apply quiet_adds, quiet_alloc; exact I|intros x; apply IH].
Qed.
Lemma adds_create g nm a f : adds (fun j => In (XPtr j) (a_data a)) (create_dataset g nm a f).
Proof.
  unfold create_dataset. destruct (h5_able (a_dt a)); [|apply quiet_adds, quiet_fail]. unfold new_link. destruct (name_err nm); [apply quiet_adds, quiet_fail|].
  apply (adds_create_at no_attrs (mkArr (stored_dt (a_dt a)) (a_shape a) (a_data a)) f).
Qed.
Lemma adds_put o g nm a : adds (fun j => In (XPtr j) (a_data a)) (put_dataset o g nm a).
Proof.
  assert (RP : forall f, adds (fun j => In (XPtr j) (a_data a)) (replace_dataset g nm a f)).
  { intros f. apply adds_bind; [apply quiet_adds, quiet_unlink|]. intros _. apply adds_create. }
  unfold put_dataset. cbv zeta. apply adds_bind.
  - apply quiet_adds. intros s j. unfold catch. pose proof (quiet_get g nm s j) as Q. destruct (get_obj g nm s) as [s1 [r|e]]; exact Q.
  - intros [i|]; [|apply adds_create]. apply adds_bind; [apply quiet_adds, quiet_gets|]. intros b.
    destruct (same_dataset _ _ _); [|apply RP]. destruct (same_opts _ _) as [[]|]; [|apply RP|apply quiet_adds, quiet_fail].
    intros s j. unfold overwrite. destruct (hp s i) as [ob|] eqn:E; [|auto]. destruct (o_body ob) as [old f|] eqn:B; [|auto]. cbn [fst hp set_hp].
    apply (adds_upd (fun j => In (XPtr j) (a_data a))). intros a' f' H X. cbn in H. injection H as <- <-. right. exact X.
Qed.

Section Refs.
Variables (o : options) (rnd : nat -> N) (tries : nat).
Hypotheses (Hkn : o_keys_name o = [] \/ clean (o_keys_name o)) (Hvn : o_values_name o = [] \/ clean (o_values_name o)).
Hypothesis HI : inj_rnd rnd.
Notation rp := (rp o). Notation ra := (ra o). Notation wf := (wf o). Notation frame := (frame o rnd). Notation fut := (fut rnd).
Notation ptr_ok := (ptr_ok o). Notation okt := (okt o). Notation keeps := (keeps o rnd). Notation unreserved := (unreserved o rnd).

(** ** what a change elsewhere leaves as it is *)
Section Change.
Variables (R : list pystr -> Prop) (K : pystr -> Prop) (s s' : st).
Hypotheses (W : wf s) (F : frame R s s') (O : orderly (hp s)).
Hypothesis HK : forall j, referred (hp s) j -> exists k, K k /\ name_of (hp s) j = rp ++ [k].
Hypothesis HR : forall k q, K k -> pre (rp ++ [k]) q -> ~ R q.
Lemma ends_frame i : ends (hp s) i -> live (hp s) i = true -> (exists k, K k /\ pre (rp ++ [k]) (name_of (hp s) i)) ->
  ends (hp s') i /\ live (hp s') i = true.
Proof.
  induction 1 as [i ob a f E B H1 H2 IH|i ob ls E B H1 IH]; intros L (k & Hk & P).
  - pose proof (HR k _ Hk P) as N. pose proof (f_live _ _ _ _ _ F i L N) as L'. split; [|exact L'].
    destruct (f_keep _ _ _ _ _ F i L N) as [_ X]. assert (G : is_group (hp s) i = false) by (unfold is_group; rewrite E, B; reflexivity).
    specialize (X G). rewrite E in X.
    assert (Y : forall j, In (XPtr j) (a_data a) -> ends (hp s') j /\ live (hp s') j = true).
    { intros j Hj. apply IH; [exact Hj|apply H1; exact Hj|]. destruct (HK j (referred_in _ _ _ _ _ _ E B Hj)) as (k2 & K1 & K2).
      exists k2. split; [exact K1|]. rewrite K2. apply pre_refl. }
    eapply E_data; [exact X|exact B| |]; intros j Hj; apply (Y j Hj).
  - pose proof (HR k _ Hk P) as N. pose proof (f_live _ _ _ _ _ F i L N) as L'. split; [|exact L'].
    assert (X : hp s' i = hp s i).
    { apply (f_same _ _ _ _ _ F i L N).
      - intros Q. apply (pre_snoc_self rp k). eapply pre_trans; eassumption.
      - intros x. apply (HR k); [exact Hk|]. eapply pre_trans; [exact P|apply pre_app]. }
    rewrite E in X. eapply E_group; [exact X|exact B|]. intros x j Hin.
    assert (LK : lookup (hp s) i x = Some j).
    { unfold lookup. apply In_assoc; [apply (t_keys _ _ (w_tree _ _ W))|]. unfold Hdf5.links. rewrite E, B. exact Hin. }
    destruct (t_link _ _ (w_tree _ _ W) _ _ _ LK) as [_ Nj].
    apply (IH x j Hin); [eapply live_child; [apply (w_tree _ _ W)|exact L|exact LK]|].
    exists k. split; [exact Hk|]. rewrite Nj. eapply pre_trans; [exact P|apply pre_app].
Qed.
Lemma orderly_frame :
  (forall j, referred (hp s') j -> referred (hp s) j \/ (live (hp s) j = true /\ exists k, K k /\ name_of (hp s) j = rp ++ [k])) ->
  orderly (hp s').
Proof.
  intros HN j Hj. assert (X : live (hp s) j = true /\ ends (hp s) j /\ exists k, K k /\ name_of (hp s) j = rp ++ [k]).
  { destruct (HN j Hj) as [H|[H1 H2]].
    - destruct (O j H) as [H1 H2]. auto.
    - split; [exact H1|]. split; [|exact H2]. eapply orderly_ends; [apply (w_tree _ _ W)|exact O|]. eapply live_exists; eassumption. }
  destruct X as (X1 & X2 & k & X3 & X4). destruct (ends_frame j X2 X1); [|auto]. exists k. split; [exact X3|]. rewrite X4. apply pre_refl.
Qed.
End Change.

(** ** places that nothing refers to *)
Definition unref (s : st) (t : list pystr) : Prop := ~ pre ra t /\ forall j, referred (hp s) j -> ~ pre (name_of (hp s) j) t.
Record good (T : list pystr -> Prop) (s : st) : Prop := {
  g_wf : wf s;
  g_ord : orderly (hp s);
  g_res : forall t, T t -> unreserved s t;
  g_ref : forall t, T t -> unref s t }.
Lemma unref_member s t k : wf s -> unreserved s t -> unref s t -> unref s (t ++ [k]).
Proof.
  intros W [U _] [H1 H2]. split.
  - intros P. destruct (pre_snoc_inv _ _ _ P) as [Q|Q]; [exact (H1 Q)|]. apply app_inj_tail in Q. destruct Q as [Q _].
    apply U. rewrite <- Q. apply pre_app.
  - intros j (i & ob & a & f & E1 & E2 & E3) P. destruct (pre_snoc_inv _ _ _ P) as [Q|Q]; [apply (H2 j); [eapply referred_in; eassumption|exact Q]|].
    destruct (w_ptrs _ _ W _ _ _ _ _ E1 E2 E3) as (_ & x & X). rewrite X in Q. apply app_inj_tail in Q. destruct Q as [Q _].
    apply U. rewrite <- Q. apply pre_app.
Qed.
Definition also (T : list pystr -> Prop) (t p : list pystr) : Prop := T p \/ p = t.
Lemma good_less (T T' : list pystr -> Prop) s : (forall t, T t -> T' t) -> good T' s -> good T s.
Proof. intros H [G1 G2 G3 G4]. constructor; auto. Qed.
Lemma good_member T s t k : good T s -> T t -> good (also T (t ++ [k])) s.
Proof.
  intros [G1 G2 G3 G4] Ht. constructor; auto.
  - intros x [H| ->]; [auto|]. apply unreserved_member. auto.
  - intros x [H| ->]; [auto|]. apply unref_member; auto.
Qed.
Lemma referred_ok s j : wf s -> referred (hp s) j -> hp s j <> None /\ exists k, name_of (hp s) j = rp ++ [k].
Proof. intros W (i & ob & a & f & E1 & E2 & E3). exact (w_ptrs _ _ W _ _ _ _ _ E1 E2 E3). Qed.

(** a change below [t] that makes only references to what may be referred to *)
Definition may_refer (T : list pystr -> Prop) (s : st) (j : nat) : Prop :=
  live (hp s) j = true /\ (exists k, name_of (hp s) j = rp ++ [k]) /\ forall t, T t -> ~ pre (name_of (hp s) j) t.
Lemma good_step T R s s' : good T s -> wf s' -> frame R s s' -> (exists t, T t /\ (forall q, R q -> pre t q)) \/ (forall k q, pre (rp ++ [k]) q -> ~ R q) ->
  (forall j, referred (hp s') j -> referred (hp s) j \/ may_refer T s j) -> good T s'.
Proof.
  intros [G1 G2 G3 G4] W' F HT HN.
  assert (N : forall j, referred (hp s') j -> hp s j <> None /\ name_of (hp s') j = name_of (hp s) j /\ forall t, T t -> ~ pre (name_of (hp s) j) t).
  { intros j Hj. destruct (HN j Hj) as [H|(H1 & H2 & H3)].
    - destruct (referred_ok s j G1 H) as [H1 _]. split; [exact H1|]. split; [apply (f_obj _ _ _ _ _ F j H1)|]. intros t Ht. apply (G4 t Ht). exact H.
    - pose proof (live_exists _ _ _ G1 H1) as E. split; [exact E|]. split; [apply (f_obj _ _ _ _ _ F j E)|exact H3]. }
  constructor.
  - exact W'.
  - apply (orderly_frame R (fun k => forall t, T t -> ~ pre (rp ++ [k]) t) s s' G1 F G2).
    + intros j Hj. destruct (referred_ok s j G1 Hj) as (_ & k & E). exists k. split; [|exact E]. intros t Ht. rewrite <- E. apply (G4 t Ht). exact Hj.
    + intros k q Hk P HRq. destruct HT as [(t & Ht & HT)|HT]; [|apply (HT k q P HRq)]. pose proof (HT q HRq) as Pq.
      destruct (pre_cmp _ _ _ Pq P) as [X|X]; [|exact (Hk t Ht X)].
      destruct (pre_snoc_inv _ _ _ X) as [Y|Y]; [|apply (Hk t Ht); rewrite Y; apply pre_refl].
      apply (proj1 (G3 t Ht)). eapply pre_trans; [exact Y|apply pre_app].
    + intros j Hj. destruct (HN j Hj) as [H|(H1 & (k & H2) & H3)]; [left; exact H|right]. split; [exact H1|]. exists k. split; [|exact H2]. rewrite <- H2. exact H3.
  - intros t Ht. eapply unreserved_frame; [exact F|auto].
  - intros t Ht. split; [apply (G4 t Ht)|]. intros j Hj. destruct (N j Hj) as (_ & -> & H). auto.
Qed.

(** ** programs *)
Definition jkeeps {A} (T R : list pystr -> Prop) (s : st) (p : st * res A) (Q : st -> A -> Prop) : Prop := keeps R s p Q /\ good T (fst p).
Lemma jkeeps_ret {A} T R s (a : A) (Q : st -> A -> Prop) : good T s -> Q s a -> jkeeps T R s (s, Ok a) Q.
Proof. intros G H. split; [apply keeps_ret; [apply (g_wf _ _ G)|exact H]|exact G]. Qed.
Lemma jkeeps_err {A} T R s e (Q : st -> A -> Prop) : good T s -> jkeeps T R s (s, Err e) Q.
Proof. intros G. split; [apply keeps_err; apply (g_wf _ _ G)|exact G]. Qed.
Lemma jkeeps_bind {A B} T R s (m : M A) (k : A -> M B) (P : st -> A -> Prop) (Q : st -> B -> Prop) :
  good T s -> jkeeps T R s (m s) P ->
  (forall a s1, good T s1 -> frame R s s1 -> P s1 a -> m s = (s1, Ok a) -> jkeeps T R s1 (k a s1) Q) ->
  jkeeps T R s (bindm m k s) Q.
Proof.
  intros G [K1 K2] H. split.
  - eapply keeps_bind; [apply (g_wf _ _ G)|exact K1|]. intros a s1 W1 F1 P1 E. apply H; auto. rewrite E in K2. exact K2.
  - unfold bindm. destruct K1 as (H1 & H2 & H3). destruct (m s) as [s1 [a|e]] eqn:E; cbn [fst snd] in *; [|exact K2]. apply (H a s1); auto.
Qed.
Lemma jkeeps_imp {A} T R s p (P Q : st -> A -> Prop) : jkeeps T R s p P -> (forall s' a, good T s' -> frame R s s' -> P s' a -> Q s' a) -> jkeeps T R s p Q.
Proof. intros [K1 K2] H. split; [|exact K2]. destruct K1 as (H1 & H2 & H3). split; [exact H1|]. split; [exact H2|]. auto. Qed.
Lemma jkeeps_sub {A} (T R R' : list pystr -> Prop) s p (P : st -> A -> Prop) : jkeeps T R s p P -> (forall q, R q -> R' q) -> jkeeps T R' s p P.
Proof. intros [K1 K2] H. split; [|exact K2]. eapply keeps_sub; eassumption. Qed.
Lemma jkeeps_less {A} (T T' R : list pystr -> Prop) s p (P : st -> A -> Prop) : jkeeps T' R s p P -> (forall q, T q -> T' q) -> jkeeps T R s p P.
Proof. intros [K1 K2] H. split; [exact K1|]. eapply good_less; eassumption. Qed.
Lemma jkeeps_iter {A} (T R : list pystr -> Prop) (I : st -> Prop) (f : A -> M unit) l : forall s,
  (forall s1 x, In x l -> good T s1 -> I s1 -> jkeeps T R s1 (f x s1) (fun s2 _ => I s2)) ->
  good T s -> I s -> jkeeps T R s (iterM f l s) (fun s' _ => I s').
Proof.
  induction l as [|x l IH]; intros s H G Hs; cbn [iterM]; [apply jkeeps_ret; assumption|].
  eapply jkeeps_bind; [exact G|apply H; [left; reflexivity|assumption|assumption]|].
  intros u s1 G1 F1 I1 _. apply IH; auto. intros s2 y Hy. apply H. right. exact Hy.
Qed.
Lemma jkeeps_mapM {A B} (T R : list pystr -> Prop) (I : st -> Prop) (Q : st -> B -> Prop) (f : A -> M B) l : forall s,
  (forall s1 x, In x l -> good T s1 -> I s1 -> jkeeps T R s1 (f x s1) (fun s2 b => I s2 /\ Q s2 b)) ->
  (forall s1 s2 b, good T s1 -> frame R s1 s2 -> Q s1 b -> Q s2 b) ->
  good T s -> I s -> jkeeps T R s (mapM f l s) (fun s' bs => I s' /\ Forall (Q s') bs).
Proof.
  induction l as [|x l IH]; intros s H HQ W Hs; cbn [mapM]; [apply jkeeps_ret; auto|].
  eapply jkeeps_bind; [exact W|apply H; [left; reflexivity|assumption|assumption]|].
  intros b s1 W1 F1 [I1 Q1] _. eapply jkeeps_bind; [exact W1|apply IH; auto; intros s2 y Hy; apply H; right; exact Hy|].
  intros bs s2 W2 F2 [I2 Q2] _. apply jkeeps_ret; [exact W2|]. split; [exact I2|]. constructor; [|exact Q2]. exact (HQ s1 s2 b W1 F2 Q1).
Qed.
(** a quiet program that is known to stay below a place *)
Lemma quiet_keeps {A} T t s (m : M A) (Q : st -> A -> Prop) : quiet m -> good T s -> T t -> keeps (pre t) s (m s) Q -> jkeeps T (pre t) s (m s) Q.
Proof.
  intros Hq G Ht K. split; [exact K|]. destruct K as (W' & F & _). eapply good_step; [exact G|exact W'|exact F|left; exists t; auto|].
  intros j Hj. left. apply (Hq s j Hj).
Qed.
Lemma quiet_anywhere {A} T R s (m : M A) (Q : st -> A -> Prop) : quiet m -> good T s -> (forall R, keeps R s (m s) Q) -> jkeeps T R s (m s) Q.
Proof.
  intros Hq G K. split; [apply K|]. destruct (K (fun _ => False)) as (W' & F & _). eapply good_step; [exact G|exact W'|exact F|right; auto|].
  intros j Hj. left. apply (Hq s j Hj).
Qed.

Lemma may_refer_frame T R s s' j : wf s -> frame R s s' -> (forall k q, pre (rp ++ [k]) q -> ~ R q) -> may_refer T s j -> may_refer T s' j.
Proof.
  intros W F HR (H1 & (k & H2) & H3). pose proof (live_exists _ _ _ W H1) as E. destruct (f_obj _ _ _ _ _ F j E) as (_ & N & _).
  split; [|split].
  - apply (f_live _ _ _ _ _ F j H1). rewrite H2. apply (HR k), pre_refl.
  - exists k. congruence.
  - rewrite N. exact H3.
Qed.

Section Marsh.
Variable wr : nat -> pystr -> pyval -> M (option nat).
Hypothesis Hwr : wspec o rnd wr.
Definition wgood (wr : nat -> pystr -> pyval -> M (option nat)) : Prop := forall T s g nm v, good T s -> okt s g nm -> T (name_of (hp s) g ++ [nm]) ->
  good T (fst (wr g nm v s)).
Hypothesis Hwg : wgood wr.
Lemma wr_j T s g nm v : good T s -> okt s g nm -> T (name_of (hp s) g ++ [nm]) ->
  jkeeps T (pre (name_of (hp s) g ++ [nm])) s (wr g nm v s)
    (fun s' r => match r with Some i => at_target s' (name_of (hp s) g ++ [nm]) i | None => True end).
Proof. intros G K Ht. split; [apply (Hwr s g nm v (g_wf _ _ G) K)|apply Hwg; assumption]. Qed.

Lemma element_j T R s g c v : good T s -> rgrp s = Some g -> may_refer T s c ->
  jkeeps T R s (write_element o rnd tries wr g c v s) (fun s' j => rgrp s' = Some g /\ may_refer T s' j).
Proof.
  intros G Hr Mc. pose proof (g_wf _ _ G) as W.
  pose proof (w_sess _ _ W g Hr) as Hw. pose proof (walk_root_name _ _ _ _ (w_tree _ _ W) Hw) as Hn.
  assert (LV : live (hp s) g = true) by (apply live_walk; rewrite Hn; exact Hw). destruct (w_refs _ _ W g Hw) as [Gg _].
  assert (Pc : ptr_ok (hp s) c) by (destruct Mc as (M1 & M2 & M3); split; [apply (live_exists _ _ _ W M1)|exact M2]).
  destruct (element_keeps o rnd tries Hkn Hvn wr Hwr (fun _ => False) s g c v W Hr Pc) as (_ & FF & _).
  pose proof (may_refer_frame T _ _ _ c W FF (fun _ _ _ x => x) Mc) as Mc'.
  destruct (element_keeps o rnd tries Hkn Hvn wr Hwr R s g c v W Hr Pc) as (E1 & E2 & _).
  set (Z := fun p : st * res nat => may_refer T (fst p) c -> good T (fst p) /\ forall j, snd p = Ok j -> rgrp (fst p) = Some g /\ may_refer T (fst p) j).
  cut (Z (write_element o rnd tries wr g c v s)).
  { intros X. destruct (X Mc') as [X1 X2]. split; [split; [exact E1|]; split; [exact E2|exact X2]|exact X1]. }
  clear E1 E2 Mc' FF. unfold write_element.
  destruct (next_keeps o rnd tries (fun _ => False) s g W Hr) as (K1 & K2 & K3). unfold bindm at 1.
  destruct (next_name rnd tries g s) as [s1 [k|e]] eqn:En; cbn [fst snd] in *.
  2: { intros _. split; [|discriminate]. eapply good_step; [exact G|exact K1|exact K2|right; auto|].
       intros j Hj. left. replace (hp s) with (hp s1); [exact Hj|].
       assert (X : hp (fst (next_name rnd tries g s)) = hp s).
       { clear. unfold next_name. destruct (rcreated s); [reflexivity|]. revert s. induction tries as [|n IH]; intros s; cbn [draw]; [reflexivity|].
         destruct (lookup (hp s) g (show_hex16 (rnd (rpos s)))); [|reflexivity]. rewrite IH. reflexivity. }
       rewrite En in X. exact X. }
  destruct (K3 k eq_refl) as (Q1 & Q2 & Q3 & Q4 & Q5 & Q6 & Q7 & Q8). specialize (Q8 HI).
  assert (SN : forall x y, pre (rp ++ [x]) (rp ++ [y]) -> x = y).
  { intros x y P. apply pre_antisym_len in P; [|rewrite !app_length; cbn; lia]. apply app_inj_tail in P. apply P. }
  assert (OK : okt s1 g k).
  { constructor; rewrite ?Q1; auto.
    - intros P. rewrite Hn in P. apply Q5. apply SN. exact P.
    - intros x P. rewrite Hn in P. apply SN in P. subst x. exact Q7. }
  assert (G1 : good (also T (rp ++ [k])) s1).
  { constructor.
    - exact K1.
    - rewrite Q1. apply (g_ord _ _ G).
    - intros t [Ht| ->]; [eapply unreserved_frame; [exact K2|apply (g_res _ _ G t Ht)]|]. split.
      + intros P. apply Q5. apply SN. exact P.
      + intros x P. apply SN in P. subst x. exact Q8.
    - intros t [Ht| ->].
      + destruct (g_ref _ _ G t Ht) as [H1 H2]. split; [exact H1|]. rewrite Q1. exact H2.
      + split; [intros P; apply Q5; symmetry; apply SN; exact P|]. rewrite Q1. intros j Hj P.
        destruct (referred_ok s j W Hj) as (_ & x & X). rewrite X in P. apply SN in P. subst x.
        destruct (g_ord _ _ G j Hj) as [L _]. apply live_walk in L. rewrite X, walk_snoc, Hw in L. congruence. }
  assert (TT : also T (rp ++ [k]) (name_of (hp s1) g ++ [k])) by (right; rewrite Q1, Hn; reflexivity).
  pose proof (wr_j _ s1 g k v G1 OK TT) as J. rewrite Q1, Hn in J.
  unfold bindm at 1. destruct J as [(J1 & J2 & J3) J4]. destruct (wr g k v s1) as [s2 [r|e]]; cbn [fst snd] in *.
  2: { intros _. split; [|discriminate]. eapply good_less; [|exact J4]. intros t Ht. left. exact Ht. }
  assert (R2 : rgrp s2 = Some g) by (apply (f_rgrp _ _ _ _ _ J2); exact Q2). destruct r as [i|].
  - specialize (J3 _ eq_refl). destruct J3 as (A1 & A2 & A3). unfold bindm at 1, gets.
    assert (KM : keeps (pre (rp ++ [k])) s2 (mark_path o i (name_text (name_of (hp s2) g)) s2) (fun _ _ => True)).
    { apply mark_keeps; [apply (g_wf _ _ J4)|rewrite A3; apply pre_refl|rewrite A3; intros X; apply app_inj_tail in X; tauto]. }
    pose proof (quiet_keeps _ (rp ++ [k]) s2 _ _ (quiet_mark o i _) J4 (or_intror eq_refl) KM) as [(M1 & M2 & _) M4].
    assert (LM : live (hp (fst (mark_path o i (name_text (name_of (hp s2) g)) s2))) i = true /\ name_of (hp (fst (mark_path o i (name_text (name_of (hp s2) g)) s2))) i = rp ++ [k]).
    { assert (KM0 : keeps (eq (rp ++ [k])) s2 (mark_path o i (name_text (name_of (hp s2) g)) s2) (fun _ _ => True)).
      { apply mark_keeps; [apply (g_wf _ _ J4)|rewrite A3; reflexivity|rewrite A3; intros X; apply app_inj_tail in X; tauto]. }
      split; [|rewrite (proj1 (proj2 (f_obj _ _ _ _ _ M2 i A1))); exact A3]. clear - A1 A2 J4.
      assert (SA : forall a, live (hp (fst (set_attrs i a s2))) i = true).
      { intros a. unfold set_attrs. destruct (hp s2 i) as [ob|] eqn:E; [|exact A2]. cbn [fst hp set_hp].
        rewrite (change_live s2 i ob (with_attrs ob a) E eq_refl); [exact A2|]. cbn. destruct (o_body ob); cbn; auto. }
      unfold mark_path. destruct (o_matlab_compatible o).
      - unfold bindm, lift. destruct (ascii_bytes _); [|exact A2]. unfold modify_attr. apply SA.
      - unfold drop_attr. apply SA. }
    unfold bindm. destruct (mark_path o i (name_text (name_of (hp s2) g)) s2) as [s3 [u|e]]; cbn [fst snd ret] in *.
    + intros _. split; [eapply good_less; [|exact M4]; intros t Ht; left; exact Ht|]. intros j [= <-].
      split; [apply (f_rgrp _ _ _ _ _ M2); exact R2|]. split; [apply LM|]. split; [exists k; apply LM|]. change (forall t, T t -> ~ pre (name_of (hp s3) i) t); rewrite (proj2 LM).
      intros t Ht P. apply (proj2 (g_res _ _ G t Ht) k P Q6).
    + intros _. split; [|discriminate]. eapply good_less; [|exact M4]. intros t Ht. left. exact Ht.
  - cbn [ret fst snd]. intros Mc'. split; [eapply good_less; [|exact J4]; intros t Ht; left; exact Ht|]. intros j [= <-]. auto.
Qed.

Lemma canon_got g s s' c : ensure_canon g s = (s', Ok c) -> canon s' = Some c.
Proof.
  unfold ensure_canon. destruct (canon s) as [x|] eqn:E; [intros [= <- <-]; exact E|].
  assert (C : forall s, new_canon g s = (s', Ok c) -> canon s' = Some c).
  { intros s0 H. unfold new_canon in H. apply bind_ok in H. destruct H as (s1 & x & _ & H). unfold bindm, set_session, ret in H. injection H as <- <-. reflexivity. }
  destruct (lookup (hp s) g (lit "a")) as [x|]; [|apply C]. destruct (is_canonical (hp s) x); [intros [= <- <-]; reflexivity|].
  intros H. apply bind_ok in H. destruct H as (s1 & u & _ & H). apply (C s1 H).
Qed.
Lemma object_array_j T s a : good T s ->
  jkeeps T (fun _ => False) s (write_object_array o rnd tries wr a s) (fun s' d => forall j, In (XPtr j) (a_data d) -> may_refer T s' j).
Proof.
  intros G. unfold write_object_array. eapply jkeeps_bind; [exact G|apply quiet_anywhere; [apply quiet_refs|exact G|intros R; apply ensure_refs_keeps; apply (g_wf _ _ G)]|].
  intros g s1 G1 F1 R1 _.
  eapply jkeeps_bind; [exact G1|apply quiet_anywhere; [apply quiet_canon|exact G1|intros R; apply (ensure_canon_keeps o rnd tries R s1 g (g_wf _ _ G1) R1)]|].
  intros c s2 G2 F2 [R2 P2] EC. assert (Mc : may_refer T s2 c).
  { pose proof (g_wf _ _ G2) as W2. destruct (w_canon _ _ W2 c (canon_got _ _ _ _ EC)) as (g2 & X1 & X2). rewrite R2 in X1. injection X1 as <-.
    pose proof (w_sess _ _ W2 g R2) as Hw. destruct (t_link _ _ (w_tree _ _ W2) _ _ _ X2) as [_ N]. rewrite (walk_root_name _ _ _ _ (w_tree _ _ W2) Hw) in N.
    split; [|split].
    - apply live_walk. rewrite N, walk_snoc, Hw. exact X2.
    - exists (lit "a"). exact N.
    - rewrite N. intros t Ht. apply (g_ref _ _ G2 t Ht). }
  eapply jkeeps_bind; [exact G2| |].
  - apply (jkeeps_mapM T (fun _ => False) (fun s => rgrp s = Some g /\ may_refer T s c) (fun s j => may_refer T s j)); auto.
    + intros s3 x _ G3 [R3 M3]. destruct (element_j T (fun _ => False) s3 g c x G3 R3 M3) as [(K1 & K2 & K3) K4]. split; [|exact K4].
      split; [exact K1|]. split; [exact K2|]. intros j Hj. destruct (K3 j Hj) as [H1 H2]. split; [split; [exact H1|]|exact H2].
      eapply may_refer_frame; [apply (g_wf _ _ G3)|exact K2|auto|exact M3].
    + intros x y b Gx F M. eapply may_refer_frame; [apply (g_wf _ _ Gx)|exact F|auto|exact M].
  - intros refs s3 G3 F3 [_ Q3] _. apply jkeeps_ret; [exact G3|]. cbn [a_data]. intros j Hj. apply in_map_iff in Hj.
    destruct Hj as (x & [= ->] & Hx). rewrite Forall_forall in Q3. auto.
Qed.
Lemma put_dataset_j T s g nm a : good T s -> okt s g nm -> T (name_of (hp s) g ++ [nm]) -> (forall j, In (XPtr j) (a_data a) -> may_refer T s j) ->
  jkeeps T (pre (name_of (hp s) g ++ [nm])) s (put_dataset o g nm a s) (fun s' i => at_target s' (name_of (hp s) g ++ [nm]) i).
Proof.
  intros G K Ht Hp.
  assert (KP : keeps (pre (name_of (hp s) g ++ [nm])) s (put_dataset o g nm a s) (fun s' i => at_target s' (name_of (hp s) g ++ [nm]) i)).
  { apply put_dataset_keeps; [apply (g_wf _ _ G)|exact K|]. intros j Hj. destruct (Hp j Hj) as (H1 & H2 & _). split; [eapply live_exists; [apply (g_wf _ _ G)|exact H1]|exact H2]. }
  split; [exact KP|]. destruct KP as (W' & F & _). eapply good_step; [exact G|exact W'|exact F|left; eexists; split; [exact Ht|auto]|].
  intros j Hj. destruct (adds_put o g nm a s j Hj) as [H|H]; [left; exact H|right; auto].
Qed.

(** one member of the Group at the target *)
Lemma member_good {A} T s t i k v (f : option nat -> M A) : good T s -> T t -> at_target s t i -> is_group (hp s) i = true -> (k = [] \/ clean k) ->
  quiet (f None) -> (forall j, quiet (f (Some j))) -> (f None = fun s => (s, snd (f None s))) ->
  (forall s1 j, wf s1 -> at_target s1 (t ++ [k]) j -> exists Q, keeps (pre (t ++ [k])) s1 (f (Some j) s1) Q) ->
  good T (fst ((let* r := wr i k v in f r) s)).
Proof.
  intros G Ht A0 Gi Hk Q1 Q2 Q3 Hf. pose proof (good_member T s t k G Ht) as G'. pose proof (g_res _ _ G t Ht) as [U1 U2].
  assert (K : okt s i k) by (apply (okt_member o s t); auto; [apply (g_wf _ _ G)|intros x P X; apply (U2 x P); apply futc_fut; exact X]).
  destruct A0 as (A1 & A2 & A3). assert (TT : also T (t ++ [k]) (name_of (hp s) i ++ [k])) by (right; rewrite A3; reflexivity).
  pose proof (wr_j _ s i k v G' K TT) as [(W1 & F1 & H1) G1]. rewrite A3 in *. unfold bindm. destruct (wr i k v s) as [s1 [r|e]]; cbn [fst snd] in *.
  2: { eapply good_less; [|exact G1]. intros x Hx. left. exact Hx. }
  apply (good_less T (also T (t ++ [k]))); [intros x Hx; left; exact Hx|]. destruct r as [j|].
  - destruct (Hf s1 j W1 (H1 _ eq_refl)) as [Q KQ]. eapply (quiet_keeps _ (t ++ [k])); [apply Q2|exact G1|right; reflexivity|exact KQ].
  - rewrite Q3. exact G1.
Qed.
Lemma field_good T s t i b nf : good T s -> T t -> at_target s t i -> is_group (hp s) i = true -> good T (fst (write_field o wr i b nf s)).
Proof.
  intros G Ht A0 Gi. destruct nf as [n [name f]]. unfold write_field. cbv zeta.
  pose proof (g_res _ _ G t Ht) as [U1 U2].
  apply (member_good T s t i (escaped name) _ (fun r => match r with None => ret tt | Some j => _ end)); auto using escaped_name, quiet_ret.
  - intros j. apply quiet_bind; [apply quiet_gets|]. intros p. apply quiet_sync.
  - intros s1 j W1 (P1 & P2 & P3). exists (fun _ _ => True). unfold bindm at 1, gets at 1. apply sync_keeps; [exact W1|rewrite P3; apply pre_refl|].
    rewrite P3. intros X. apply U1. rewrite <- X. apply pre_app.
Qed.
Lemma item_good T s t i p kv : good T s -> T t -> at_target s t i -> is_group (hp s) i = true -> (fst kv = [] \/ clean (fst kv)) -> good T (fst (write_item o wr i p kv s)).
Proof.
  intros G Ht A0 Gi Hk. unfold write_item. pose proof (g_res _ _ G t Ht) as [U1 U2].
  apply (member_good T s t i (fst kv) _ (fun r => match r with None => ret tt | Some j => _ end)); auto using quiet_ret.
  - intros j. apply quiet_mark.
  - intros s1 j W1 (P1 & P2 & P3). exists (fun _ _ => True). apply mark_keeps; [exact W1|rewrite P3; apply pre_refl|].
    rewrite P3. intros X. apply U1. rewrite <- X. apply pre_app.
Qed.
Lemma good_res T s t : good T s -> T t -> ~ pre t ra /\ forall k, pre (rp ++ [k]) t -> ~ futc s k.
Proof. intros G Ht. destruct (g_res _ _ G t Ht) as [U1 U2]. split; [exact U1|]. intros k P X. apply (U2 k P). apply futc_fut. exact X. Qed.
Lemma field_j T s t i b nf : good T s -> T t -> at_target s t i -> is_group (hp s) i = true ->
  jkeeps T (pre t) s (write_field o wr i b nf s) (fun s' _ => at_target s' t i /\ is_group (hp s') i = true).
Proof.
  intros G Ht A0 Gi. destruct (good_res T s t G Ht) as [U1 U2]. split; [|eapply field_good; eassumption].
  eapply keeps_imp; [apply (field_keeps o rnd wr Hwr); try assumption; apply (g_wf _ _ G)|]. intros s' a _ _ [H _]. exact H.
Qed.
Lemma item_j T s t i p kv : good T s -> T t -> at_target s t i -> is_group (hp s) i = true -> (fst kv = [] \/ clean (fst kv)) ->
  jkeeps T (pre t) s (write_item o wr i p kv s) (fun s' _ => at_target s' t i /\ is_group (hp s') i = true).
Proof.
  intros G Ht A0 Gi Hk. destruct (good_res T s t G Ht) as [U1 U2]. split; [|eapply item_good; eassumption].
  eapply keeps_imp; [apply (item_keeps o rnd wr Hwr); try assumption; apply (g_wf _ _ G)|]. intros s' a _ _ [H _]. exact H.
Qed.
Lemma prune_j T s t i keep : good T s -> T t -> at_target s t i -> is_group (hp s) i = true ->
  jkeeps T (pre t) s (prune i keep s) (fun s' _ => at_target s' t i /\ is_group (hp s') i = true).
Proof.
  intros G Ht A0 Gi. destruct (good_res T s t G Ht) as [U1 U2]. apply quiet_keeps; auto using quiet_prune. apply prune_keeps; auto. apply (g_wf _ _ G).
Qed.
Lemma struct_j T s g nm b : good T s -> okt s g nm -> T (name_of (hp s) g ++ [nm]) ->
  jkeeps T (pre (name_of (hp s) g ++ [nm])) s (write_struct o wr g nm b s) (fun s' i => at_target s' (name_of (hp s) g ++ [nm]) i).
Proof.
  intros G K Ht. set (t := name_of (hp s) g ++ [nm]) in *. unfold write_struct.
  eapply jkeeps_bind; [exact G|apply quiet_keeps; [apply quiet_open|exact G|exact Ht|apply open_group_keeps; [apply (g_wf _ _ G)|assumption]]|].
  fold t. intros i s1 G1 F1 [A1 I1] _.
  eapply jkeeps_bind with (P := fun s' _ => at_target s' t i /\ is_group (hp s') i = true); [exact G1| |].
  - destruct (o_delete_unused o); [apply prune_j; assumption|apply jkeeps_ret; auto].
  - intros u s2 G2 F2 [A2 I2] _. eapply jkeeps_bind; [exact G2| |].
    + apply (jkeeps_iter T (pre t) (fun s => at_target s t i /\ is_group (hp s) i = true)); auto.
      intros s3 x _ G3 [A3 I3]. apply field_j; assumption.
    + intros u3 s3 G3 F3 [A3 I3] _. apply jkeeps_ret; assumption.
Qed.
Lemma sync_target s t i r d : wf s -> at_target s t i -> t <> ra ->
  keeps (pre t) s (sync_attrs i r d s) (fun s' _ => at_target s' t i /\ is_group (hp s') i = is_group (hp s) i).
Proof.
  intros W1 (A1 & A2 & A3) NA. unfold sync_attrs. destruct (set_attributes_all (attrs_of (hp s) i) r d) as [at_ e]. unfold set_attrs.
  destruct (hp s i) as [ob|] eqn:E; [|congruence].
  assert (SK : same_kind (o_body ob) (o_body (with_attrs ob at_))) by (cbn; destruct (o_body ob); cbn; auto).
  assert (KK : wf (set_hp s (upd (hp s) i (with_attrs ob at_))) /\ frame (pre t) s (set_hp s (upd (hp s) i (with_attrs ob at_))) /\
               at_target (set_hp s (upd (hp s) i (with_attrs ob at_))) t i /\ is_group (upd (hp s) i (with_attrs ob at_)) i = is_group (hp s) i).
  { split; [|split; [|split]].
    - eapply wf_change; eauto; [congruence|]. intros dd f j E2 Hj. eapply (w_ptrs _ _ W1); eassumption.
    - eapply frame_change; eauto. rewrite A3. apply pre_refl.
    - split; [cbn; rewrite upd_same; discriminate|]. split; [cbn; rewrite (change_live s i ob (with_attrs ob at_) E eq_refl SK); exact A2|].
      rewrite <- A3. apply (mod_name _ _ ob (with_attrs ob at_) E eq_refl).
    - apply (mod_group _ _ _ _ E SK). }
  destruct e; (split; [apply KK|split; [apply KK|]]); [discriminate|]. intros u _. apply KK.
Qed.
Lemma np_j T s g nm v ts : good T s -> okt s g nm -> T (name_of (hp s) g ++ [nm]) ->
  jkeeps T (pre (name_of (hp s) g ++ [nm])) s (np_write o rnd tries wr g nm v ts s)
    (fun s' r => match r with Some i => at_target s' (name_of (hp s) g ++ [nm]) i | None => True end).
Proof.
  intros G K Ht. set (t := name_of (hp s) g ++ [nm]) in *. destruct v as [c a]. unfold np_write.
  destruct (np_incompatible o a && eqb_str (o_action o) (lit "error")); [apply jkeeps_err; exact G|].
  destruct (np_incompatible o a && eqb_str (o_action o) (lit "discard")); [apply jkeeps_ret; auto|].
  assert (NA : t <> ra) by (intros X; apply (k_refs _ _ _ _ K); fold t; rewrite X; apply pre_refl).
  unfold bindm at 1, lift. destruct (np_prepare o (c, a)) as [b|e]; [|apply jkeeps_err; exact G].
  assert (SY : forall s1 i r, good T s1 -> at_target s1 t i -> jkeeps T (pre t) s1 ((let* _ := sync_attrs i r true in ret (Some i)) s1)
     (fun s' r => match r with Some i => at_target s' t i | None => True end)).
  { intros s1 i r G1 A1. eapply jkeeps_bind; [exact G1|apply quiet_keeps; [apply quiet_sync|exact G1|exact Ht|apply sync_target; [apply (g_wf _ _ G1)|exact A1|exact NA]]|].
    intros u s2 G2 F2 [A4 _] _. apply jkeeps_ret; assumption. }
  destruct (as_group o a (a_dt b)).
  - eapply jkeeps_bind; [exact G|apply struct_j; assumption|]. fold t. intros i s1 G1 F1 A1 _. apply SY; assumption.
  - eapply jkeeps_bind with (P := fun s' d => forall j, In (XPtr j) (a_data d) -> may_refer T s' j); [exact G| |].
    + assert (PL : jkeeps T (pre t) s (ret (plain_data b) s) (fun s' d => forall j, In (XPtr j) (a_data d) -> may_refer T s' j)).
      { apply jkeeps_ret; [exact G|]. cbn. intros j Hj. apply in_map_iff in Hj. destruct Hj as (x & X & _). destruct (noptr_ptr _ _ X). }
      destruct (a_dt b); try exact PL. eapply jkeeps_sub; [apply object_array_j; exact G|]. intros q [].
    + intros d s1 G1 F1 P1 _. destruct (okt_frame _ _ _ _ _ _ _ (g_wf _ _ G) F1 (okt_own s g nm) K) as [K1 N1].
      eapply jkeeps_bind; [exact G1|unfold t; rewrite <- N1; apply put_dataset_j; try assumption; rewrite N1; exact Ht|].
      rewrite N1. fold t. intros i s2 G2 F2 A2 _. unfold bindm at 1, gets at 1. apply SY; assumption.
Qed.
Lemma dict_good T s g nm items ts plain : good T s -> okt s g nm -> T (name_of (hp s) g ++ [nm]) ->
  jkeeps T (pre (name_of (hp s) g ++ [nm])) s (dict_write o wr g nm items ts plain s) (fun _ _ => True).
Proof.
  intros G K Ht. set (t := name_of (hp s) g ++ [nm]) in *. unfold dict_write.
  assert (NA : t <> ra) by (intros X; apply (k_refs _ _ _ _ K); fold t; rewrite X; apply pre_refl).
  eapply jkeeps_bind; [exact G|apply quiet_keeps; [apply quiet_open|exact G|exact Ht|apply open_group_keeps; [apply (g_wf _ _ G)|assumption]]|].
  fold t. intros i s1 G1 F1 [A1 I1] _.
  cbv zeta. match goal with |- context [prune i (map fst ?x)] => set (kvs := x) end.
  assert (HK : forall kv, In kv kvs -> fst kv = [] \/ clean (fst kv)).
  { intros [k v] Hin. unfold kvs in Hin. destruct (key_codes (map fst items)) as [cs|].
    - apply in_combine_l in Hin. apply in_map_iff in Hin. destruct Hin as (x & <- & _). apply escaped_name.
    - destruct Hin as [[= <- <-]|[[= <- <-]|[]]]; assumption. }
  eapply jkeeps_bind; [exact G1|apply quiet_keeps; [apply quiet_sync|exact G1|exact Ht|apply sync_target; [apply (g_wf _ _ G1)|exact A1|exact NA]]|].
  intros u s2 G2 F2 [A2 I2] _. rewrite I1 in I2.
  eapply jkeeps_bind with (P := fun s' _ => at_target s' t i /\ is_group (hp s') i = true); [exact G2| |].
  { match goal with |- jkeeps _ _ _ ((if ?c then _ else _) _) _ => destruct c end; [apply prune_j; assumption|apply jkeeps_ret; auto]. }
  intros u2 s3 G3 F3 [A3 I3] _. unfold bindm at 1, gets at 1.
  eapply jkeeps_bind with (P := fun s' _ => at_target s' t i /\ is_group (hp s') i = true); [exact G3| |].
  { destruct (o_matlab_compatible o); [|apply jkeeps_ret; auto]. unfold bindm, lift. destruct (ascii_bytes _); [apply jkeeps_ret|apply jkeeps_err]; auto. }
  intros u3 s4 G4 F4 [A4 I4] _. eapply jkeeps_bind; [exact G4| |].
  - apply (jkeeps_iter T (pre t) (fun s => at_target s t i /\ is_group (hp s) i = true)); auto.
    intros s5 x Hx G5 [A5 I5]. apply item_j; auto.
  - intros u4 s5 G5 F5 _ _. apply jkeeps_ret; auto.
Qed.
Lemma value_good : wgood (write_value o rnd tries wr).
Proof.
  intros T s g nm v G K Ht. unfold write_value. destruct v; try (apply np_j; assumption); try (eapply dict_good; eassumption).
  - unfold bindm, lift. destruct (utf8_encode text); [apply np_j; assumption|exact G].
  - exact G.
Qed.
End Marsh.

Theorem write_good n : wgood (write o rnd tries n).
Proof.
  induction n as [|n IH]; [intros T s g nm v G K Ht; exact G|]. cbn [write]. apply value_good; [apply write_keeps; assumption|exact IH].
Qed.
End Refs.
