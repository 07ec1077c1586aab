(** The states in between are one step apart. *)
From Verif Require Import Base PathEsc PosixPath PosixFacts ProcessPath ProcessPathFacts Unicode MColl Dec NdArray Value OptionsM StrConv Attrs Hdf5 HeapFacts NpWrite NpRead MarshalW MarshalR FileApi CutM CutSpec CutFacts CutEnd.
Local Open Scope nat_scope.

Lemma steps_mono (P Q : st -> Prop) h h' : (forall x, P x -> Q x) -> by_steps P h h' -> by_steps Q h h'.
Proof. intros H. induction 1; [constructor|econstructor; eauto]. Qed.
Lemma steps_trans P h1 h2 h3 : by_steps P h1 h2 -> by_steps P h2 h3 -> by_steps P h1 h3.
Proof. induction 1; intros; [assumption|econstructor; eauto]. Qed.
Lemma change_fin h h' : change h h' -> finite_attrs h -> finite_attrs h'.
Proof.
  intros C F i oi E. destruct C as [g ob ls k H1 H2 H3 H4 H5|g ob ls k c H1 H2 H3 H4 H5 H6 H7|j ob k a H1 H2 H3 H4|j ob t sh d d' f n H1 H2 H3 H4 H5].
  - destruct (Nat.eq_dec i g) as [->|N]; [|rewrite H5 in E by exact N; eauto]. rewrite H4 in E. injection E as <-. cbn [o_attrs]. eauto.
  - destruct (Nat.eq_dec i g) as [->|N]; [rewrite H5 in E; injection E as <-; cbn [o_attrs]; eauto|].
    destruct (h i) as [oh|] eqn:Eh; [rewrite (H6 i N) in E by congruence; rewrite Eh in E; injection E as <-; eauto|].
    exists []. intros k' K. rewrite (H7 _ _ Eh E) in K. unfold no_attrs in K. congruence.
  - destruct (Nat.eq_dec i j) as [->|N]; [|rewrite H4 in E by exact N; eauto]. rewrite H2 in E. injection E as <-. cbn [o_attrs].
    destruct (F _ _ H1) as [l Hl]. exists (k :: l). intros k' K. destruct (list_eq_dec N.eq_dec k' k) as [->|N]; [left; reflexivity|].
    right. apply Hl. rewrite <- (H3 k' N). exact K.
  - destruct (Nat.eq_dec i j) as [->|N]; [|rewrite H5 in E by exact N; eauto]. rewrite H3 in E. injection E as <-. cbn [o_attrs]. eauto.
Qed.
Lemma steps_fin P h h' : by_steps P h h' -> finite_attrs h -> finite_attrs h'.
Proof. induction 1; intros F; [exact F|]. apply IHby_steps. eapply change_fin; eassumption. Qed.

(** no object has a number that is still to be given out *)
Definition fresh (s : st) : Prop := forall i ob, hp s i = Some ob -> i < nxt s.
Definition okst (s : st) : Prop := fresh s /\ finite_attrs (hp s).
Definition chainT {A} (m : T A) : Prop := forall s, okst s ->
  (by_steps (fst (m s)) (hp s) (hp (fst (snd (m s)))) /\ fresh (fst (snd (m s)))) /\
  (forall x, fst (m s) x -> by_steps (fst (m s)) (hp s) (hp x)).
Lemma chain_ok {A} (m : T A) s : chainT m -> okst s -> okst (fst (snd (m s))).
Proof. intros H K. destruct (H s K) as [[H1 H2] _]. split; [exact H2|]. eapply steps_fin; [exact H1|apply K]. Qed.
Definition same_heap {A} (m : M A) := forall s, hp (fst (m s)) = hp s /\ nxt (fst (m s)) = nxt s.
Lemma chain_quiet {A} (m : M A) : same_heap m -> chainT (pure m).
Proof. intros H s [K _]. cbn [pure fst snd]. destruct (H s) as [H1 H2]. split; [|intros x []]. split; [rewrite H1; constructor|]. intros i ob E. rewrite H1 in E. rewrite H2. eauto. Qed.
(** one call of h5py *)
Definition one_call {A} (m : M A) : Prop := forall s, fresh s ->
  (hp (fst (m s)) = hp s \/ change (hp s) (hp (fst (m s)))) /\ fresh (fst (m s)).
Lemma chain_op {A} (m : M A) : one_call m -> chainT (op m).
Proof.
  intros H s [K _]. cbn [op fst snd]. destruct (H s K) as [EC F].
  assert (X : by_steps (eq (fst (m s))) (hp s) (hp (fst (m s)))).
  { destruct EC as [E|C]; [rewrite E; constructor|]. econstructor; [exact C|reflexivity|constructor]. }
  split; [split; [exact X|exact F]|]. intros x <-. exact X.
Qed.
Lemma chain_bind {A B} (m : T A) (k : A -> T B) : chainT m -> (forall a, chainT (k a)) -> chainT (bindt m k).
Proof.
  intros H1 H2 s K. unfold bindt. pose proof (chain_ok m s H1 K) as K1. destruct (H1 s K) as [[C1 F1] D1]. destruct (snd (m s)) as [s1 [a|e]]; cbn [fst snd] in *.
  - destruct (H2 a s1 K1) as [[C2 F2] D2]. split; [split; [|exact F2]|intros x [X|X]].
    + eapply steps_trans; eapply steps_mono; try eassumption; cbn beta; auto.
    + eapply steps_mono; [|exact (D1 x X)]. cbn beta. auto.
    + eapply steps_trans; eapply steps_mono; try exact C1; try exact (D2 x X); cbn beta; auto.
  - auto.
Qed.
Lemma chain_ret {A} (a : A) : chainT (pure (ret a)). Proof. apply chain_quiet. split; reflexivity. Qed.
Lemma chain_iter {A} (f : A -> T unit) l : (forall a, chainT (f a)) -> chainT (iterT f l).
Proof. intros H. induction l as [|x l IH]; cbn [iterT]; [apply chain_ret|]. apply chain_bind; [apply H|]. intros _. exact IH. Qed.
Lemma chain_map {A B} (f : A -> T B) l : (forall a, chainT (f a)) -> chainT (mapT f l).
Proof. intros H. induction l as [|x l IH]; cbn [mapT]; [apply chain_ret|]. apply chain_bind; [apply H|]. intros y. apply chain_bind; [exact IH|]. intros ys. apply chain_ret. Qed.

(** ** the calls of h5py *)
Lemma assoc_none {B} k (l : list (pystr * B)) : assoc k l = None -> ~ In k (map fst l).
Proof.
  induction l as [|[k' v] l IH]; cbn; [auto|]. destruct (eqb_str_spec k k') as [->|N]; [discriminate|]. intros H [E|I]; [congruence|exact (IH H I)].
Qed.
Lemma assoc_some {B} k (l : list (pystr * B)) v : assoc k l = Some v -> In k (map fst l).
Proof.
  induction l as [|[k' w] l IH]; cbn; [discriminate|]. destruct (eqb_str_spec k k') as [->|N]; [auto|]. auto.
Qed.
Lemma upd_same h i ob : upd h i ob i = Some ob. Proof. unfold upd. rewrite Nat.eqb_refl. reflexivity. Qed.
Lemma upd_other h i j ob : j <> i -> upd h i ob j = h j. Proof. intros N. unfold upd. apply Nat.eqb_neq in N. rewrite N. reflexivity. Qed.
Lemma fresh_upd s i ob o' : fresh s -> hp s i = Some ob -> fresh (set_hp s (upd (hp s) i o')).
Proof. intros F E j oj H. cbn [set_hp hp nxt] in *. destruct (Nat.eq_dec j i) as [->|N]; [eauto|]. rewrite upd_other in H by exact N. eauto. Qed.
Lemma call_unlink_at cs : forall g, one_call (unlink_at g cs).
Proof.
  induction cs as [|k cs IH]; intros g s F; [cbn; auto|]. destruct cs as [|k2 cs].
  - cbn [unlink_at]. destruct (lookup (hp s) g k) as [j|] eqn:L; [|cbn [fst]; auto]. unfold set_links. destruct (group_body _ _ (lookup_group _ _ _ _ L)) as (ob & ls & E & B & Ls).
    rewrite E, Ls. cbn [fst]. split; [|eapply fresh_upd; eassumption]. right. cbn [set_hp hp]. eapply (One_link_removed _ _ g ob ls k); [exact E|exact B| |apply upd_same|intros; apply upd_other; assumption].
    unfold lookup in L. rewrite Ls in L. eapply assoc_some; exact L.
  - cbn [unlink_at]. destruct (lookup (hp s) g k) as [j|]; [apply (IH j s F)|cbn [fst]; auto].
Qed.
Lemma call_unlink g nm : one_call (unlink g nm).
Proof. unfold unlink. destruct (name_err nm); [intros s F; cbn; auto|apply call_unlink_at]. Qed.
Lemma alloc_call g k b s : fresh s -> lookup (hp s) g k = None -> alloc g k no_attrs b s = (s, Err ValueError) \/
  (change (hp s) (hp (fst (alloc g k no_attrs b s))) /\ fresh (fst (alloc g k no_attrs b s))).
Proof.
  intros F L. unfold alloc. destruct (hp s g) as [ob|] eqn:E; [|auto]. destruct (o_body ob) as [|ls] eqn:B; [auto|]. right. cbn [fst hp].
  assert (N0 : hp s (nxt s) = None). { destruct (hp s (nxt s)) eqn:X; [|reflexivity]. apply F in X. lia. }
  assert (Ng : g <> nxt s) by (intros ->; congruence). split.
  - eapply (One_link_made _ _ g ob ls k (nxt s)); [exact E|exact B| |exact N0| | |].
    + apply assoc_none. unfold lookup, links in L. rewrite E, B in L. exact L.
    + rewrite upd_other by exact Ng. apply upd_same.
    + intros i N X. rewrite upd_other by (intros ->; congruence). apply upd_other. exact N.
    + intros i oi X Y. destruct (Nat.eq_dec i (nxt s)) as [->|N]; [rewrite upd_same in Y; injection Y as <-; reflexivity|]. rewrite upd_other in Y by exact N.
      destruct (Nat.eq_dec i g) as [->|N']; [congruence|]. rewrite upd_other in Y by exact N'. congruence.
  - intros i oi Y. cbn [hp nxt] in *. destruct (Nat.eq_dec i (nxt s)) as [->|N]; [lia|]. rewrite upd_other in Y by exact N.
    destruct (Nat.eq_dec i g) as [->|N']; [apply F in E; lia|]. rewrite upd_other in Y by exact N'. apply F in Y. lia.
Qed.
(** inside something new *)
Lemma create_inside b n0 cs : forall s j, fresh s -> n0 <= j -> n0 <= nxt s -> Hdf5.links (hp s) j = [] -> (forall i oi, n0 <= i -> hp s i = Some oi -> o_attrs oi = no_attrs) ->
  let s' := fst (create_at j cs no_attrs b s) in
  fresh s' /\ (forall i, i < n0 -> hp s' i = hp s i) /\ (forall i oi, n0 <= i -> hp s' i = Some oi -> o_attrs oi = no_attrs).
Proof.
  induction cs as [|k cs IH]; intros s j F Hj Hn L A; [cbn; auto|].
  assert (X : forall bd, let s1 := fst (alloc j k no_attrs bd s) in fresh s1 /\ (forall i, i < n0 -> hp s1 i = hp s i) /\ (forall i oi, n0 <= i -> hp s1 i = Some oi -> o_attrs oi = no_attrs) /\
     n0 <= nxt s1 /\ (forall i, snd (alloc j k no_attrs bd s) = Ok i -> i = nxt s /\ (bd = BGroup [] -> Hdf5.links (hp s1) i = []))).
  { intros bd. unfold alloc. destruct (hp s j) as [ob|] eqn:E; [|cbn; repeat split; auto; discriminate]. destruct (o_body ob) as [|ls] eqn:B; [cbn; repeat split; auto; discriminate|].
    cbn [fst snd hp nxt]. split; [|split; [|split; [|split; [lia|]]]].
    - intros i oi Y. cbn [hp nxt] in *. destruct (Nat.eq_dec i (nxt s)) as [->|N]; [lia|]. rewrite upd_other in Y by exact N.
      destruct (Nat.eq_dec i j) as [->|N']; [apply F in E; lia|]. rewrite upd_other in Y by exact N'. apply F in Y. lia.
    - intros i Hi. rewrite !upd_other by lia. reflexivity.
    - intros i oi Hi Y. destruct (Nat.eq_dec i (nxt s)) as [->|N]; [rewrite upd_same in Y; injection Y as <-; reflexivity|]. rewrite upd_other in Y by exact N.
      destruct (Nat.eq_dec i j) as [->|N']; [rewrite upd_same in Y; injection Y as <-; cbn [with_body o_attrs]; eauto|]. rewrite upd_other in Y by exact N'. eauto.
    - intros i Hi. injection Hi as <-. split; [reflexivity|]. intros ->. unfold Hdf5.links. rewrite upd_same. reflexivity. }
  assert (LK : lookup (hp s) j k = None) by (unfold lookup; rewrite L; reflexivity).
  destruct cs as [|k2 cs].
  - cbn [create_at]. rewrite LK. destruct (X b) as (X1 & X2 & X3 & _). auto.
  - change (create_at j (k :: k2 :: cs) no_attrs b s) with (match lookup (hp s) j k with Some j => create_at j (k2 :: cs) no_attrs b s
       | None => (let* j := alloc j k no_attrs (BGroup []) in create_at j (k2 :: cs) no_attrs b) s end). rewrite LK. unfold bindm.
    destruct (X (BGroup [])) as (X1 & X2 & X3 & X4 & X5). destruct (alloc j k no_attrs (BGroup []) s) as [s1 [i|e]]; cbn [fst snd] in *; [|auto].
    destruct (X5 i eq_refl) as [-> X6]. destruct (IH s1 (nxt s) X1 Hn X4 (X6 eq_refl) X3) as (Y1 & Y2 & Y3). split; [exact Y1|]. split; [|exact Y3].
    intros i Hi. rewrite Y2 by exact Hi. auto.
Qed.
Lemma call_create_at b cs : forall g, one_call (create_at g cs no_attrs b).
Proof.
  induction cs as [|k cs IH]; intros g s F; [cbn; auto|]. destruct cs as [|k2 cs].
  - cbn [create_at]. destruct (lookup (hp s) g k) eqn:L; [cbn [fst]; auto|]. destruct (alloc_call g k b s F L) as [E|[E1 E2]]; [rewrite E; cbn [fst]; auto|auto].
  - change (create_at g (k :: k2 :: cs) no_attrs b s) with (match lookup (hp s) g k with Some j => create_at j (k2 :: cs) no_attrs b s
       | None => (let* j := alloc g k no_attrs (BGroup []) in create_at j (k2 :: cs) no_attrs b) s end). destruct (lookup (hp s) g k) eqn:L; [apply IH; exact F|].
    unfold bindm, alloc. destruct (hp s g) as [ob|] eqn:E; [|cbn [fst]; auto]. destruct (o_body ob) as [|ls] eqn:B; [cbn [fst]; auto|].
    assert (Fg : g < nxt s) by (apply F in E; exact E).
    assert (N0 : forall i, nxt s <= i -> hp s i = None). { intros i Hi. destruct (hp s i) eqn:X; [|reflexivity]. apply F in X. lia. }
    match goal with |- context [create_at (nxt s) _ _ _ ?x] => set (s1 := x) end.
    destruct (create_inside b (nxt s) (k2 :: cs) s1 (nxt s)) as (Y1 & Y2 & Y3).
    + intros i oi Y. unfold s1 in *. cbn [hp nxt] in *. destruct (Nat.eq_dec i (nxt s)) as [->|N]; [lia|]. rewrite upd_other in Y by exact N.
      destruct (Nat.eq_dec i g) as [->|N']; [lia|]. rewrite upd_other in Y by exact N'. apply F in Y. lia.
    + lia.
    + unfold s1. cbn [nxt]. lia.
    + unfold s1, Hdf5.links. cbn [hp]. rewrite upd_same. reflexivity.
    + intros i oi Hi Y. unfold s1 in Y. cbn [hp] in Y. destruct (Nat.eq_dec i (nxt s)) as [->|N]; [rewrite upd_same in Y; injection Y as <-; reflexivity|].
      rewrite !upd_other in Y by lia. rewrite N0 in Y by exact Hi. discriminate Y.
    + split; [|exact Y1]. right. eapply (One_link_made _ _ g ob ls k (nxt s)); [exact E|exact B| |apply N0; lia| | |].
      * apply assoc_none. unfold lookup, Hdf5.links in L. rewrite E, B in L. exact L.
      * rewrite Y2 by exact Fg. unfold s1. cbn [hp]. rewrite upd_other by lia. apply upd_same.
      * intros i N X. assert (Hi : i < nxt s). { destruct (hp s i) eqn:Z; [apply F in Z; exact Z|congruence]. }
        rewrite Y2 by exact Hi. unfold s1. cbn [hp]. rewrite !upd_other by lia. reflexivity.
      * intros i oi X Y. destruct (Nat.lt_ge_cases i (nxt s)) as [Hi|Hi]; [|eauto]. rewrite Y2 in Y by exact Hi. unfold s1 in Y. cbn [hp] in Y.
        rewrite upd_other in Y by lia. destruct (Nat.eq_dec i g) as [->|N']; [congruence|]. rewrite upd_other in Y by exact N'. congruence.
Qed.
Lemma call_new_link g nm b : one_call (new_link g nm no_attrs b).
Proof. unfold new_link. destruct (name_err nm); [intros s F; cbn; auto|apply call_create_at]. Qed.
Lemma call_create_dataset g nm a f : one_call (create_dataset g nm a f).
Proof. unfold create_dataset. destruct (h5_able _); [apply call_new_link|intros s F; cbn; auto]. Qed.
Lemma call_set_attr i k (F : attrs -> attrs) : (forall a k', k' <> k -> F a k' = a k') -> one_call (fun s => set_attrs i (F (attrs_of (hp s) i)) s).
Proof.
  intros H s Fr. unfold set_attrs, attrs_of. destruct (hp s i) as [ob|] eqn:E; [|cbn [fst]; auto]. cbn [fst]. split; [|eapply fresh_upd; eassumption]. right.
  cbn [set_hp hp]. eapply (One_attribute _ _ i ob k); [exact E|apply upd_same| |intros; apply upd_other; assumption]. apply H.
Qed.
Lemma call_mark o i p : one_call (mark_path o i p).
Proof.
  intros s F. unfold mark_path. destruct (o_matlab_compatible o).
  - unfold bindm, lift. destruct (ascii_bytes p) as [l|]; [|cbn [fst]; auto]. apply (call_set_attr i (lit "H5PATH") (set_attr (lit "H5PATH") (AStr l))); [|exact F].
    intros a k' N. unfold set_attr. destruct (eqb_str_spec k' (lit "H5PATH")); congruence.
  - apply (call_set_attr i (lit "H5PATH") (del_attr (lit "H5PATH"))); [|exact F].
    intros a k' N. unfold del_attr. destruct (eqb_str_spec k' (lit "H5PATH")); congruence.
Qed.
Lemma call_require g : one_call (require_group g).
Proof.
  intros s F. unfold require_group, bindm, get_obj. destruct (name_err g); [cbn [fst fail]; auto|]. unfold gets. destruct (walk _ _ _) as [i|].
  - destruct (is_group (hp s) i); cbn [fst]; auto.
  - apply call_new_link. exact F.
Qed.

(** ** the attributes, one by one *)
Lemma put_one ex k q a a' : put_attr ex k q a = Ok a' -> forall k', k' <> k -> a' k' = a k'.
Proof.
  assert (S : forall v k', k' <> k -> set_attr k v a k' = a k') by (intros v k' N; unfold set_attr; destruct (eqb_str_spec k' k); congruence).
  unfold put_attr. intros H k' N. destruct q; try (injection H as <-; apply S; exact N);
    (destruct (req_val _); [|discriminate H]; cbn [bindr] in H; repeat match type of H with context [match ?x with _ => _ end] => destruct x end; injection H as <-; auto).
Qed.
Section Attrs.
Variables (s : st) (i : nat) (ob : obj) (P : st -> Prop).
Hypothesis E : hp s i = Some ob.
Definition at_attrs (a : attrs) : st := set_hp s (upd (hp s) i (with_attrs ob a)).
Lemma attr_step a a' k : (forall k', k' <> k -> a' k' = a k') -> change (hp (at_attrs a)) (hp (at_attrs a')).
Proof.
  intros H. unfold at_attrs. cbn [set_hp hp]. eapply (One_attribute _ _ i (with_attrs ob a) k a'); [apply upd_same|apply upd_same|exact H|].
  intros j N. rewrite !upd_other by exact N. reflexivity.
Qed.
Lemma attr_first a k : (forall k', k' <> k -> a k' = o_attrs ob k') -> change (hp s) (hp (at_attrs a)).
Proof.
  intros H. unfold at_attrs. cbn [set_hp hp]. eapply (One_attribute _ _ i ob k a); [exact E|apply upd_same|exact H|].
  intros j N. apply upd_other. exact N.
Qed.
Lemma put_chain_to ex reqs : forall a y, (forall x, put_states ex reqs a x -> P (at_attrs x)) -> put_states ex reqs a y ->
  by_steps P (hp (at_attrs a)) (hp (at_attrs y)).
Proof.
  induction reqs as [|[k q] reqs IH]; intros a y H Y; cbn [put_states] in *; [rewrite Y; constructor|]. destruct Y as [->|Y]; [constructor|].
  destruct (put_attr ex k q a) as [a'|e] eqn:Ea; [|contradiction].
  apply (Then _ _ (at_attrs a')); [apply (attr_step a a' k), (put_one _ _ _ _ _ Ea)|apply H; right; destruct reqs as [|[k2 q2] reqs]; cbn [put_states]; auto|].
  apply IH; [|exact Y]. intros x X. apply H. auto.
Qed.
Lemma put_last ex reqs : forall a, put_states ex reqs a (fst (put_attrs ex reqs a)).
Proof. induction reqs as [|[k q] reqs IH]; intros a; cbn [put_states put_attrs]; [reflexivity|]. destruct (put_attr ex k q a); [right; apply IH|left; reflexivity]. Qed.
Lemma put_fin l ex reqs : forall a, (forall k, a k <> None -> In k l) -> exists l', forall k, fst (put_attrs ex reqs a) k <> None -> In k l'.
Proof.
  revert l. induction reqs as [|[k q] reqs IH]; intros l a H; cbn [put_attrs]; [eauto|]. destruct (put_attr ex k q a) as [a'|e] eqn:Ea; [|eauto].
  apply (IH (k :: l)). intros k' K. destruct (list_eq_dec N.eq_dec k' k) as [->|N]; [left; reflexivity|]. right. apply H. rewrite <- (put_one _ _ _ _ _ Ea k' N). exact K.
Qed.
(** without those of the list *)
Definition without (d : pystr -> bool) (l : list pystr) (a : attrs) : attrs := fun k => if d k && mem_str k l then None else a k.
Lemma del_chain d a l2 : forall l1, (forall x, (forall k, x k = a k \/ (x k = None /\ d k = true)) -> P (at_attrs x)) ->
  by_steps P (hp (at_attrs (without d l1 a))) (hp (at_attrs (without d (rev l2 ++ l1) a))).
Proof.
  induction l2 as [|k l2 IH]; intros l1 H; cbn [rev app]; [constructor|]. rewrite <- app_assoc. cbn [app].
  apply (Then _ _ (at_attrs (without d (k :: l1) a))); [|apply H|apply IH; exact H].
  - apply (attr_step _ _ k). intros k' N. unfold without. cbn [mem_str existsb]. unfold mem_str. cbn [existsb]. destruct (eqb_str_spec k' k); [congruence|reflexivity].
  - intros k'. unfold without. destruct (d k') eqn:D; cbn [andb]; [|auto]. destruct (mem_str _ _); auto.
Qed.
End Attrs.
Lemma sync_to i reqs d s ob x : finite_attrs (hp s) -> hp s i = Some ob -> attr_states (attrs_of (hp s) i) reqs d x ->
  by_steps (fst (sync_attrsT i reqs d s)) (hp s) (hp (at_attrs s i ob x)).
Proof.
  intros FA Eo AX. unfold sync_attrsT. cbn [fst].
  match goal with |- by_steps ?p _ _ => set (P := p) end.
  assert (HP : forall x, attr_states (attrs_of (hp s) i) reqs d x -> P (at_attrs s i ob x)) by (intros y Y; exists y, ob; auto).
  unfold attr_states, attrs_of in HP, AX. rewrite Eo in HP, AX. set (a0 := o_attrs ob) in *.
  apply (Then _ _ (at_attrs s i ob a0)); [apply (attr_first s i ob Eo a0 []); reflexivity|apply HP; left; destruct reqs as [|[? ?] ?]; cbn [put_states]; auto|].
  destruct AX as [AX|(D & NE & AX)]; [apply (put_chain_to s i ob P a0 reqs a0 x); [intros y Y; apply HP; auto|exact AX]|].
  eapply steps_trans; [apply (put_chain_to s i ob P a0 reqs a0 _ (fun y Y => HP y (or_introl Y)) (put_last a0 reqs a0))|].
  destruct (FA i ob Eo) as [l Hl]. destruct (put_fin l a0 reqs a0 Hl) as [l' Hl'].
  set (a1 := fst (put_attrs a0 reqs a0)) in *.
  set (dd := fun k => match x k with None => true | Some _ => false end).
  assert (HQ : forall y, (forall k, y k = a1 k \/ (y k = None /\ dd k = true)) -> P (at_attrs s i ob y)).
  { intros y Y. apply HP. right. split; [exact D|]. split; [exact NE|]. intros k. destruct (Y k) as [|[Y1 Y2]]; [auto|]. unfold dd in Y2. destruct (AX k) as [X|[_ X]]; [|auto].
    left. rewrite Y1. destruct (x k); [discriminate Y2|exact X]. }
  assert (ES : forall l, (forall k, without dd l a1 k = a1 k \/ (without dd l a1 k = None /\ dd k = true))).
  { intros l0 k. unfold without. destruct (dd k); cbn [andb]; [|auto]. destruct (mem_str _ _); auto. }
  apply (Then _ _ (at_attrs s i ob (without dd [] a1))); [apply (attr_step s i ob a1 _ []); intros k _; unfold without; rewrite andb_false_r; reflexivity|apply HQ, ES|].
  eapply steps_trans; [apply (del_chain s i ob P dd a1 (rev l') []); exact HQ|]. rewrite rev_involutive, app_nil_r.
  refine (Then _ _ (at_attrs s i ob _) _ _ _ (Done _ _)).
  - apply (attr_step s i ob _ _ []). intros k _. unfold without. unfold dd. destruct (x k) as [v|] eqn:X; cbn [andb].
    + destruct (AX k) as [Y|[Y _]]; congruence.
    + destruct (mem_str k l') eqn:M; [reflexivity|]. destruct (a1 k) eqn:A; [|reflexivity]. assert (I : In k l') by (apply Hl'; congruence). apply mem_str_In in I. congruence.
  - apply HQ. intros k. unfold dd. destruct (AX k) as [Y|[Y _]]; [auto|]. right. rewrite Y. auto.
Qed.
Lemma chain_sync i reqs d : chainT (sync_attrsT i reqs d).
Proof.
  intros s [F FA]. pose proof (fun ob x => sync_to i reqs d s ob x FA) as TO. split.
  - cbn [sync_attrsT fst snd] in *. unfold sync_attrs. destruct (set_attributes_all (attrs_of (hp s) i) reqs d) as [a e] eqn:E.
    unfold set_attrs. destruct (hp s i) as [ob|] eqn:Eo; [|cbn [fst]; split; [constructor|exact F]].
    replace (fst (match e with Some e0 => (set_hp s (upd (hp s) i (with_attrs ob a)), @Err unit e0) | None => (set_hp s (upd (hp s) i (with_attrs ob a)), Ok tt) end))
      with (at_attrs s i ob a) by (destruct e; reflexivity).
    split; [|eapply fresh_upd; eassumption]. apply TO; [reflexivity|]. unfold attr_states. unfold set_attributes_all in E.
    pose proof (put_last (attrs_of (hp s) i) reqs (attrs_of (hp s) i)) as PL.
    destruct (put_attrs _ reqs _) as [a1 e1]. cbn [fst snd] in *. destruct e1; injection E as <- <-; [left; exact PL|].
    destruct d; [|left; exact PL]. right. split; [reflexivity|]. split; [reflexivity|]. intros k. cbn [andb]. destruct (mem_str k (map fst reqs)) eqn:M; [left; reflexivity|].
    right. split; [reflexivity|]. intros I. apply mem_str_In in I. congruence.
  - intros x X. destruct X as (a & ob & E & A & ->). apply TO; assumption.
Qed.

(** ** the elements of a Dataset, one by one *)
Lemma nth_mix {X} (a b : list X) j k : j <= length a -> nth_error (firstn j a ++ skipn j b) k = if k <? j then nth_error a k else nth_error b k.
Proof.
  intros H. destruct (Nat.ltb_spec k j).
  - rewrite nth_error_app1 by (rewrite firstn_length; lia). rewrite <- (firstn_skipn j a) at 2. rewrite nth_error_app1 by (rewrite firstn_length; lia). reflexivity.
  - rewrite nth_error_app2 by (rewrite firstn_length; lia). rewrite firstn_length, Nat.min_l by lia.
    rewrite <- (firstn_skipn j b) at 2. destruct (Nat.le_gt_cases j (length b)).
    + rewrite nth_error_app2 by (rewrite firstn_length; lia). rewrite firstn_length, Nat.min_l by lia. reflexivity.
    + rewrite skipn_all2 by lia. rewrite app_nil_r. rewrite firstn_all2 by lia. transitivity (@None X); [destruct (k - j); reflexivity|symmetry; apply nth_error_None; lia].
Qed.
Lemma overwrite_to i a s ob old f new : hp s i = Some ob -> o_body ob = BData old f -> length new = length (a_data a) ->
  (forall k e, nth_error new k = Some e -> nth_error (a_data old) k = Some e \/ nth_error (a_data a) k = Some e) ->
  by_steps (fst (overwriteT i a s)) (hp s) (upd (hp s) i (with_body ob (BData (mkArr (a_dt old) (a_shape old) new) f))).
Proof.
  intros E B LN HN. unfold overwriteT. cbn [fst]. set (ol := a_data old) in *.
  (** as long as the new one *)
  set (base := firstn (length new) ol ++ skipn (length ol) new).
  assert (HB : forall k, nth_error base k = if k <? length ol then (if k <? length new then nth_error ol k else None) else nth_error new k).
  { intros k. unfold base. destruct (Nat.le_gt_cases (length ol) (length new)).
    - rewrite firstn_all2 by lia. destruct (Nat.ltb_spec k (length ol)).
      + rewrite nth_error_app1 by lia. destruct (Nat.ltb_spec k (length new)); [reflexivity|lia].
      + rewrite nth_error_app2 by lia. rewrite <- (firstn_skipn (length ol) new) at 2. rewrite nth_error_app2 by (rewrite firstn_length; lia). rewrite firstn_length, Nat.min_l by lia. reflexivity.
    - rewrite skipn_all2 by lia. rewrite app_nil_r. destruct (Nat.ltb_spec k (length new)).
      + destruct (Nat.ltb_spec k (length ol)); [|lia]. rewrite <- (firstn_skipn (length new) ol) at 2. rewrite nth_error_app1 by (rewrite firstn_length; lia). reflexivity.
      + transitivity (@None (elem nat)); [apply nth_error_None; rewrite firstn_length; lia|]. symmetry. destruct (k <? length ol); [reflexivity|apply nth_error_None; lia]. }
  assert (LB : length base = length new). { unfold base. rewrite app_length, firstn_length, skipn_length. lia. }
  set (st_ := fun d => set_hp s (upd (hp s) i (with_body ob (BData (mkArr (a_dt old) (a_shape old) d) f)))).
  match goal with |- by_steps ?p _ _ => set (P := p) end.
  assert (HP : forall j, j <= length new -> P (st_ (firstn j new ++ skipn j base))).
  { intros j Hj. exists ob, old, f, (firstn j new ++ skipn j base). split; [exact E|]. split; [exact B|]. split; [rewrite app_length, firstn_length, skipn_length; lia|]. split; [|reflexivity].
    intros k e. rewrite nth_mix by exact Hj. fold ol. destruct (k <? j); [apply HN|]. rewrite HB. destruct (k <? length ol); [destruct (k <? length new); [auto|discriminate]|apply HN]. }
  assert (ST : forall d d' n, (forall k e e', k <> n -> nth_error d k = Some e -> nth_error d' k = Some e' -> e = e') -> change (hp (st_ d)) (hp (st_ d'))).
  { intros d d' n H. unfold st_. cbn [set_hp hp]. eapply (One_element _ _ i (with_body ob (BData (mkArr (a_dt old) (a_shape old) d) f)) (a_dt old) (a_shape old) d d' f n);
      [apply upd_same|reflexivity|apply upd_same|exact H|]. intros j N. rewrite !upd_other by exact N. reflexivity. }
  apply (Then _ _ (st_ (firstn 0 new ++ skipn 0 base))); [|apply HP; lia|].
  - unfold st_. cbn [set_hp hp firstn skipn app]. assert (EO : old = mkArr (a_dt old) (a_shape old) ol) by (destruct old; reflexivity).
    eapply (One_element _ _ i ob (a_dt old) (a_shape old) ol base f 0); [exact E|rewrite <- EO; exact B|apply upd_same| |intros j N; apply upd_other; exact N].
    intros k e e' _ H1 H2. rewrite HB in H2. destruct (Nat.ltb_spec k (length ol)); [destruct (k <? length new); congruence|].
    assert (X : nth_error ol k = None) by (apply nth_error_None; lia). congruence.
  - assert (G : forall m j, j + m = length new -> by_steps P (hp (st_ (firstn j new ++ skipn j base))) (hp (st_ new))).
    { induction m as [|m IH]; intros j Hj.
      - rewrite firstn_all2, skipn_all2, app_nil_r by lia. constructor.
      - apply (Then _ _ (st_ (firstn (S j) new ++ skipn (S j) base))); [|apply HP; lia|apply IH; lia].
        apply (ST _ _ j). intros k e e' N. rewrite !nth_mix by lia. destruct (Nat.ltb_spec k j), (Nat.ltb_spec k (S j)); try lia; congruence. }
    apply (G (length new) 0). lia.
Qed.
Lemma chain_overwrite i a : chainT (overwriteT i a).
Proof.
  intros s [F FA]. split.
  - pose proof (fun ob old f => overwrite_to i a s ob old f (a_data a)) as TO. cbn [overwriteT fst snd] in *. unfold overwrite. destruct (hp s i) as [ob|] eqn:E; [|cbn [fst]; split; [constructor|exact F]].
    destruct (o_body ob) as [old f|] eqn:B; [|cbn [fst]; split; [constructor|exact F]]. cbn [fst]. split; [|eapply fresh_upd; eassumption].
    cbn [set_hp hp]. apply TO; auto.
  - intros x (ob & old & f & d & E & B & L & H & ->). cbn [set_hp hp]. eapply overwrite_to; eassumption.
Qed.
Lemma fresh_hp s s' : hp s' = hp s -> nxt s' = nxt s -> fresh s -> fresh s'.
Proof. intros H1 H2 F i ob E. rewrite H1 in E. rewrite H2. eauto. Qed.
Lemma quiet_get g nm : same_heap (get_obj g nm). Proof. intros s. unfold get_obj. destruct (name_err nm); split; reflexivity. Qed.
Ltac calls := apply chain_op; first [apply call_new_link|apply call_unlink|apply call_unlink_at|apply call_create_dataset|apply call_mark|apply call_require].
Ltac sessions := apply chain_op; intros ? ?; split; [left; reflexivity|assumption].
Ltac quiets := apply chain_quiet; intros ?; split; reflexivity.
Lemma call_quiet {A} (m : M A) : same_heap m -> one_call m.
Proof. intros H s F. destruct (H s) as [H1 H2]. split; [left; exact H1|]. intros i ob E. rewrite H1 in E. rewrite H2. eauto. Qed.
Section Chain.
Variables (o : options) (rnd : nat -> N) (tries : nat).
Lemma quiet_next g : same_heap (next_name rnd tries g).
Proof.
  intros s. unfold next_name. destruct (rcreated s); [split; reflexivity|]. revert s. induction tries as [|n IH]; intros s; cbn [draw]; [split; reflexivity|].
  destruct (lookup _ _ _); [apply (IH (mkSt (hp s) (nxt s) (rgrp s) (rcreated s) (canon s) (counter s) (S (rpos s))))|split; reflexivity].
Qed.
Lemma chain_refs : chainT (ensure_refsT o).
Proof.
  intros s. unfold ensure_refsT. destruct (rgrp s); [apply chain_ret|]. revert s. match goal with |- forall s, okst s -> (by_steps (fst (?m s)) _ _ /\ _) /\ _ => change (chainT m) end.
  assert (NG : chainT (step* g := op (create_group 0 (o_refs o)) in new_refsT g)).
  { apply chain_bind; [calls|]. intros g. unfold new_refsT. do 2 (apply chain_bind; [sessions|]; intros _). apply chain_ret. }
  apply chain_bind; [apply chain_quiet, quiet_get|]. intros [g|]; [|exact NG]. apply chain_bind; [quiets|]. intros [|].
  - apply chain_bind; [sessions|]. intros _. apply chain_ret.
  - apply chain_bind; [calls|]. intros _. exact NG.
Qed.
Lemma chain_new_canon g : chainT (new_canonT g).
Proof.
  intros s [F _]. unfold new_canonT. cbn [fst snd].
  assert (X : forall a, new_link g (lit "a") a canon_body s = match lookup (hp s) g (lit "a") with Some _ => (s, Err ValueError) | None => alloc g (lit "a") a canon_body s end).
  { intros a. unfold new_link. replace (name_err (lit "a")) with (@None exn) by (vm_compute; reflexivity).
    replace (path_comps (lit "a")) with [lit "a"] by (vm_compute; reflexivity). replace (start_of g (lit "a")) with g by (vm_compute; reflexivity). reflexivity. }
  match goal with |- (by_steps ?p _ _ /\ _) /\ _ => set (P := p) end.
  assert (HP : forall a c, In a canon_parts -> snd (new_link g (lit "a") a canon_body s) = Ok c -> P (with_canon c (fst (new_link g (lit "a") a canon_body s)))) by (intros a c Ha Hc; exists a; eauto).
  assert (HP0 : P (fst (new_link g (lit "a") no_attrs canon_body s))) by (exists no_attrs; split; [left; reflexivity|auto]).
  unfold new_canon, bindm. rewrite (X canon_attrs). destruct (lookup (hp s) g (lit "a")) as [|] eqn:L; [cbn [fst]; split; [split; [constructor|exact F]|intros x (a & _ & [[_ ->]|(c & Hc & ->)]); [rewrite X; constructor|rewrite X in Hc; discriminate Hc]]|].
  assert (NG : is_group (hp s) g = false \/ exists ob ls, hp s g = Some ob /\ o_body ob = BGroup ls).
  { unfold is_group. destruct (hp s g) as [ob|]; [|auto]. destruct (o_body ob) as [|ls] eqn:B; [auto|]. right. exists ob, ls. auto. }
  destruct NG as [NG|(ob & ls & E & B)]; [rewrite (alloc_nogroup _ _ _ _ _ NG); cbn [fst]; split; [split; [constructor|exact F]|intros x (a & _ & [[_ ->]|(c & Hc & ->)]); [rewrite X, (alloc_nogroup _ _ _ _ _ NG); constructor|rewrite X, (alloc_nogroup _ _ _ _ _ NG) in Hc; discriminate Hc]]|].
  assert (AO : forall a, snd (alloc g (lit "a") a canon_body s) = Ok (nxt s)) by (intros a; unfold alloc; rewrite E, B; reflexivity).
  pose proof HP0 as P0. pose proof (HP _ (nxt s) (or_intror (or_introl eq_refl))) as P1. pose proof (HP _ (nxt s) (or_intror (or_intror (or_introl eq_refl)))) as P2.
  rewrite X in P0, P1, P2. specialize (P1 (AO _)). specialize (P2 (AO _)).
  destruct (alloc_call g (lit "a") canon_body s F L) as [Z|[Z1 Z2]]; [unfold alloc in Z; rewrite E, B in Z; discriminate Z|].
  assert (Y : forall a1 a2 k, (forall k', k' <> k -> a2 k' = a1 k') ->
      change (hp (fst (alloc g (lit "a") a1 canon_body s))) (hp (fst (alloc g (lit "a") a2 canon_body s)))).
  { intros a1 a2 k H. unfold alloc. rewrite E, B. cbn [fst hp]. eapply (One_attribute _ _ (nxt s) _ k a2); [apply upd_same|apply upd_same|exact H|].
    intros j N. rewrite !(upd_other _ _ _ _ N). reflexivity. }
  assert (S0 : forall k v a k', k' <> k -> set_attr k v a k' = a k') by (intros k v a k' N; unfold set_attr; destruct (eqb_str_spec k' k); congruence).
  assert (C2 : by_steps P (hp s) (hp (fst (alloc g (lit "a") (set_attr (lit "MATLAB_class") (AStr (lit "canonical empty")) no_attrs) canon_body s)))).
  { apply (Then _ _ _ _ Z1 P0). refine (Then _ _ (with_canon (nxt s) _) _ (Y _ _ (lit "MATLAB_class") _) P1 _); [apply S0|]. constructor. }
  assert (C3 : by_steps P (hp s) (hp (fst (alloc g (lit "a") canon_attrs canon_body s)))).
  { eapply steps_trans; [exact C2|]. refine (Then _ _ (with_canon (nxt s) _) _ (Y _ _ (lit "MATLAB_empty") _) P2 _); [apply S0|]. constructor. }
  split; [split|intros x (a & Ha & Hx); assert (HX : hp x = hp (fst (alloc g (lit "a") a canon_body s))) by (destruct Hx as [[_ ->]|(c & _ & ->)]; rewrite X; reflexivity);
    rewrite HX; destruct Ha as [<-|[<-|[<-|[]]]]; [exact (Then _ _ _ _ Z1 P0 (Done _ _))|exact C2|exact C3]].
  - unfold alloc in C3 |- *. rewrite E, B in C3 |- *. exact C3.
  - unfold alloc in *. rewrite E, B in *. intros i oi W. cbn [fst set_session with_canon ret hp nxt] in *.
    apply (Z2 i (if i =? nxt s then mkObj (o_name ob ++ [lit "a"]) no_attrs canon_body else oi)). cbn [hp]. destruct (Nat.eqb_spec i (nxt s)) as [->|N]; [apply upd_same|].
    rewrite upd_other in * by exact N. exact W.
Qed.
Lemma chain_canon g : chainT (ensure_canonT g).
Proof.
  intros s. unfold ensure_canonT. destruct (canon s); [apply chain_ret|]. destruct (lookup (hp s) g (lit "a")) as [c|]; [|apply chain_new_canon].
  destruct (is_canonical (hp s) c).
  - apply chain_bind; [sessions|]. intros _. apply chain_ret.
  - apply chain_bind; [calls|]. intros _. apply chain_new_canon.
Qed.
Section Wr.
Variable wr : nat -> pystr -> pyval -> T (option nat).
Hypothesis Hwr : forall g nm v, chainT (wr g nm v).
Lemma chain_element g c v : chainT (write_elementT o rnd tries wr g c v).
Proof.
  unfold write_elementT. apply chain_bind; [apply chain_op, call_quiet, quiet_next|]. intros nm. apply chain_bind; [apply Hwr|]. intros [i|]; [|apply chain_ret].
  apply chain_bind; [quiets|]. intros p. apply chain_bind; [calls|]. intros _. apply chain_ret.
Qed.
Lemma chain_object_array a : chainT (write_object_arrayT o rnd tries wr a).
Proof.
  unfold write_object_arrayT. apply chain_bind; [apply chain_refs|]. intros g. apply chain_bind; [apply chain_canon|]. intros c.
  apply chain_bind; [apply chain_map; intros; apply chain_element|]. intros r. apply chain_ret.
Qed.
Lemma chain_open g nm : chainT (open_groupT g nm).
Proof.
  unfold open_groupT. apply chain_bind; [apply chain_quiet, quiet_get|]. intros [i|]; [|calls]. apply chain_bind; [quiets|].
  intros [|]; [apply chain_ret|]. apply chain_bind; [calls|]. intros _. calls.
Qed.
Lemma chain_prune i keep : chainT (pruneT i keep).
Proof. intros s. unfold pruneT. apply chain_iter. intros k. calls. Qed.
Lemma chain_field i b nf : chainT (write_fieldT o wr i b nf).
Proof.
  destruct nf as [n [name f]]. unfold write_fieldT. apply chain_bind; [apply Hwr|]. intros [j|]; [|apply chain_ret].
  apply chain_bind; [quiets|]. intros p. apply chain_sync.
Qed.
Lemma chain_struct g nm b : chainT (write_structT o wr g nm b).
Proof.
  unfold write_structT. apply chain_bind; [apply chain_open|]. intros i. apply chain_bind; [destruct (o_delete_unused o); [apply chain_prune|apply chain_ret]|]. intros _.
  apply chain_bind; [apply chain_iter; intros; apply chain_field|]. intros _. apply chain_ret.
Qed.
Lemma chain_put g nm a : chainT (put_datasetT o g nm a).
Proof.
  unfold put_datasetT. cbv zeta.
  assert (RP : forall f, chainT (replace_datasetT g nm a f)) by (intros f; apply chain_bind; [calls|]; intros _; calls).
  apply chain_bind; [apply chain_quiet; intros s; unfold catch; pose proof (quiet_get g nm s) as X; destruct (get_obj g nm s) as [s1 [r|e]]; exact X|].
  intros [i|]; [|calls]. apply chain_bind; [quiets|]. intros b.
  destruct (same_dataset _ _ _); [|apply RP]. destruct (same_opts _ _) as [[|]|]; [apply chain_overwrite|apply RP|quiets].
Qed.
Lemma chain_np g nm v ts : chainT (np_writeT o rnd tries wr g nm v ts).
Proof.
  destruct v as [c a]. unfold np_writeT. destruct (_ && _); [quiets|]. destruct (_ && _); [apply chain_ret|].
  apply chain_bind; [quiets|]. intros b. destruct (as_group _ _ _).
  - apply chain_bind; [apply chain_struct|]. intros i. apply chain_bind; [apply chain_sync|]. intros _. apply chain_ret.
  - apply chain_bind; [destruct (a_dt b); try apply chain_ret; apply chain_object_array|]. intros d. apply chain_bind; [apply chain_put|]. intros i.
    apply chain_bind; [quiets|]. intros t. apply chain_bind; [apply chain_sync|]. intros _. apply chain_ret.
Qed.
Lemma chain_item i p kv : chainT (write_itemT o wr i p kv).
Proof. unfold write_itemT. apply chain_bind; [apply Hwr|]. intros [j|]; [calls|apply chain_ret]. Qed.
Lemma chain_dict g nm items ts plain : chainT (dict_writeT o wr g nm items ts plain).
Proof.
  unfold dict_writeT. apply chain_bind; [apply chain_open|]. intros i. apply chain_bind; [apply chain_sync|]. intros _.
  apply chain_bind; [match goal with |- chainT (if ?c then _ else _) => destruct c end; [apply chain_prune|apply chain_ret]|]. intros _.
  apply chain_bind; [quiets|]. intros p.
  apply chain_bind; [apply chain_quiet; intros s; destruct (o_matlab_compatible o); [unfold bindm, lift; destruct (ascii_bytes p)|]; split; reflexivity|]. intros _.
  apply chain_bind; [apply chain_iter; intros; apply chain_item|]. intros _. apply chain_ret.
Qed.
Lemma chain_value g nm v : chainT (write_valueT o rnd tries wr g nm v).
Proof.
  destruct v; cbn [write_valueT]; try apply chain_np; try apply chain_dict; try (quiets).
  apply chain_bind; [quiets|]. intros b. apply chain_np.
Qed.
End Wr.
Lemma chain_write n : forall g nm v, chainT (writeT o rnd tries n g nm v).
Proof. induction n as [|n IH]; intros g nm v; cbn [writeT]; [quiets|]. apply chain_value. exact IH. Qed.
Lemma chain_write_at n g t v : chainT (write_atT o rnd tries n g t v).
Proof. unfold write_atT. apply chain_bind; [calls|]. intros i. apply chain_bind; [apply chain_write|]. intros _. apply chain_ret. Qed.
End Chain.
Lemma cut_steps o rnd tries n f mdict f' r : okst (fl_st f) -> file_writes o rnd tries n f mdict = (f', r) ->
  by_steps (cut_states o rnd tries n f mdict) (hp (fl_st f)) (hp (fl_st f')) /\
  forall x, cut_states o rnd tries n f mdict x -> by_steps (cut_states o rnd tries n f mdict) (hp (fl_st f)) (hp x).
Proof.
  intros K E. pose proof (file_writes_same o rnd tries n f mdict) as X. rewrite E in X. unfold cut_states. unfold file_writesT in *.
  destruct (mapr _ mdict) as [l|e]; [|cbn [snd] in X; injection X as <- <-; split; [constructor|intros x [->|[]]; constructor]].
  destruct (fl_open f); [|cbn [snd] in X; injection X as <- <-; split; [constructor|intros x [->|[]]; constructor]].
  cbn [snd fst] in *. destruct (chain_iter _ l (fun x => chain_write_at o rnd tries n (fst (fst x)) (snd (fst x)) (snd x)) (fl_st f) K) as ((C & _) & D).
  injection X as <- <-. cbn [fl_st]. split; [eapply steps_mono; [|exact C]; cbn beta; auto|]. intros x [->|X]; [constructor|]. eapply steps_mono; [|exact (D x X)]. cbn beta. auto.
Qed.
