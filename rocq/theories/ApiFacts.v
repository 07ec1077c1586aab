(** File: where paths lead, and what its methods keep. *)
From Verif Require Import Base PathEsc PosixPath PosixFacts ProcessPath ProcessPathFacts Unicode MColl Dec NdArray Value OptionsM StrConv Attrs Hdf5 HeapFacts NpWrite NpRead MarshalW MarshalR FrameFacts WriteFrame ReadFacts FileApi.
Local Open Scope nat_scope.

Lemma filter_keep_nonempty l : filter keep (filter nonempty l) = filter keep l.
Proof.
  induction l as [|x l IH]; cbn; [reflexivity|]. destruct x as [|c x]; cbn; [exact IH|]. rewrite IH. reflexivity.
Qed.
Lemma path_comps_keep s : path_comps s = filter keep (split_slash s). Proof. reflexivity. Qed.
Lemma join_comps g t : noslash t -> path_comps (posix_join g [t]) = path_comps g ++ path_comps t.
Proof.
  intros H. rewrite !path_comps_keep. rewrite <- (filter_keep_nonempty (split_slash (posix_join g [t]))).
  rewrite posix_join_comps by (repeat constructor; exact H). rewrite filter_app, !filter_keep_nonempty, (split_noslash t) by exact H. reflexivity.
Qed.
Lemma slash_comps s : path_comps (fslash :: s) = path_comps s.
Proof. unfold path_comps. cbn [split_slash]. change (fslash =? fslash)%N with true. reflexivity. Qed.

(** what a pair from process_path is *)
Lemma pair_cases p g t : process_path p = Ok (g, t) ->
  g <> [] /\ noslash t /\ ((t = s_dot /\ path_comps g = []) \/ clean t).
Proof.
  unfold process_path. destruct (path_string p) as [s|]; [|discriminate]. cbn [bindr]. intros E0.
  assert (E : split_path s = (g, t)) by congruence. clear E0. pose proof (split_path_target s) as T. rewrite E in T. destruct T as (T1 & T2 & T3 & T4).
  split; [exact T1|]. split; [exact T3|]. destruct (snoc_cases (resolve s)) as [R|(init & l & R)].
  - left. rewrite (split_path_nil s R) in E. injection E as <- <-. split; [reflexivity|].
    generalize (initial_slashes s). intros k. destruct k as [|k]; [reflexivity|].
    rewrite <- (path_comps_built (S k) []) by constructor. rewrite app_nil_r. reflexivity.
  - right. split; [exact T2|]. split; [|exact T3]. intros X. apply T4 in X. rewrite X in R. destruct init; discriminate.
Qed.
(** the links from the root to the object: h5py splits at '/', drops '' and '.' *)
Definition loc (g t : pystr) : list pystr := path_comps (posix_join g [t]).
Lemma loc_eq p g t : process_path p = Ok (g, t) ->
  loc g t = path_comps g ++ path_comps t.
Proof. intros H. apply join_comps. apply (pair_cases _ _ _ H). Qed.
Lemma loc_clean p g t : process_path p = Ok (g, t) -> loc g t = [] \/ (clean t /\ loc g t = path_comps g ++ [t]).
Proof.
  intros H. rewrite (loc_eq _ _ _ H). destruct (pair_cases _ _ _ H) as (_ & _ & [[-> E]|C]).
  - left. rewrite E. reflexivity.
  - right. split; [exact C|]. rewrite (proj1 (comps_clean t C)). reflexivity.
Qed.

Lemma common_nil a b : common_prefix a b = [] <-> a = [] \/ b = [] \/ exists x y a' b', a = x :: a' /\ b = y :: b' /\ x <> y.
Proof.
  destruct a as [|x a], b as [|y b]; cbn; try (split; auto; fail). destruct (eqb_str_spec x y) as [->|N].
  - split; [discriminate|]. intros [H|[H|(u & v & a' & b' & H1 & H2 & H3)]]; try discriminate. congruence.
  - split; [|reflexivity]. intros _. right. right. exists x, y, a, b. auto.
Qed.
Lemma join_slash_nil cs : Forall clean cs -> join_slash cs = [] -> cs = [].
Proof.
  intros H E. destruct cs as [|c cs]; [reflexivity|]. inversion H as [|? ? (C & _)]; subst. destruct cs; cbn in E; [congruence|].
  destruct c; [congruence|discriminate].
Qed.
Lemma common_clean a b : Forall clean a -> Forall clean (common_prefix a b).
Proof.
  revert b; induction a as [|x a IH]; intros [|y b] H; cbn; try constructor. inversion H; subst.
  destruct (eqb_str x y); constructor; auto.
Qed.
(** what the guard lets through *)
Lemma check_path_iff o p g t : isabs (o_refs o) = true ->
  (check_path o p = Ok (g, t) <-> process_path p = Ok (g, t) /\ (rp o = [] \/ loc g t = [] \/ apart o (loc g t))).
Proof.
  intros HA. unfold check_path. destruct (process_path p) as [[g' t']|e] eqn:E; cbn [bindr fst snd]; [|split; [discriminate|intros [X _]; discriminate]].
  destruct (pair_cases _ _ _ E) as (P1 & P2 & P3).
  set (full := posix_join (if isabs g' then [] else [fslash]) [g'; t']).
  assert (FC : path_comps full = loc g' t' /\ isabs full = true).
  { unfold full, posix_join. cbn [fold_left]. destruct (isabs g') eqn:Ia.
    - assert (J : join_step [] g' = g') by (unfold join_step, isabs in *; rewrite Ia; reflexivity). rewrite J. split; [reflexivity|].
      unfold join_step. rewrite (starts_noslash t' P2). destruct g' as [|c g']; [congruence|]. cbn [orb].
      destruct (ends_slash (c :: g')); exact Ia.
    - assert (J : join_step [fslash] g' = fslash :: g') by (unfold join_step, isabs in *; rewrite Ia; reflexivity). rewrite J. split.
      + change (path_comps (posix_join (fslash :: g') [t']) = loc g' t'). unfold loc. rewrite !join_comps, slash_comps by exact P2. reflexivity.
      + unfold join_step. rewrite (starts_noslash t' P2). cbn [orb]. destruct (ends_slash (fslash :: g')); reflexivity. }
  destruct FC as [F1 F2]. unfold commonpath2. rewrite HA, F2. cbn [Bool.eqb bindr]. rewrite F1. fold (rp o).
  set (cp := common_prefix (rp o) (loc g' t')).
  assert (IFF : eqb_str ([fslash] ++ join_slash cp) [fslash] = true <-> rp o = [] \/ loc g' t' = [] \/ apart o (loc g' t')).
  { rewrite eqb_str_eq. split.
    - intros X. cbn in X. injection X as X. apply join_slash_nil in X; [|apply common_clean, path_comps_clean].
      apply common_nil in X. destruct X as [X|[X|(x & y & a' & b' & X1 & X2 & X3)]]; auto. right. right. exists y, x, b', a'. auto.
    - intros X. assert (cp = []) as ->; [|reflexivity]. apply common_nil. destruct X as [X|[X|(y & x & b' & a' & X1 & X2 & X3)]]; auto.
      right. right. exists x, y, a', b'. auto. }
  destruct (eqb_str ([fslash] ++ join_slash cp) [fslash]) eqn:B.
  - split; [intros [= <- <-]|]; [split; [reflexivity|apply IFF; reflexivity]|]. intros [X _]. exact X.
  - split; [discriminate|]. intros [[= <- <-] X]. apply IFF in X. congruence.
Qed.

Lemma apart_ra o t : apart o t -> ~ pre t (ra o) /\ ~ pre (rp o) t.
Proof.
  intros A. split; [|apply (apart_pre o t A)]. destruct A as (a & b & r1 & r2 & -> & E & N). unfold ra. rewrite E.
  intros [x X]. cbn in X. congruence.
Qed.

(** ** what a call of writes may touch *)
Definition onway (t p : list pystr) : Prop := pre t p \/ pre p t.

Section Api.
Variables (o : options) (rnd : nat -> N) (tries n : nat).
Hypotheses (Hkn : o_keys_name o = [] \/ clean (o_keys_name o)) (Hvn : o_values_name o = [] \/ clean (o_values_name o)).
Notation wf := (wf o). Notation keeps := (keeps o rnd). Notation rp := (rp o). Notation ra := (ra o).

Lemma create_group_keeps (R : list pystr -> Prop) full cs : forall s g, wf s -> live (hp s) g = true -> name_of (hp s) g ++ cs = full ->
  Forall clean cs -> ~ pre rp full -> (forall p, pre p full -> R p) ->
  keeps R s (create_at g cs no_attrs (BGroup []) s) (fun s' i => live (hp s') i = true /\ is_group (hp s') i = true /\ name_of (hp s') i = full).
Proof.
  induction cs as [|k cs IH]; intros s g W Lg E Hc Hr HR; cbn [create_at]; [apply keeps_err; exact W|].
  inversion Hc as [|? ? Hk Hcs]; subst x l.
  assert (PR : pre (name_of (hp s) g ++ [k]) full) by (exists cs; rewrite <- E, <- app_assoc; reflexivity).
  assert (AL : is_group (hp s) g = true -> lookup (hp s) g k = None ->
     let s1 := mkSt (add_obj (hp s) g k (nxt s) no_attrs (BGroup [])) (S (nxt s)) (rgrp s) (rcreated s) (canon s) (counter s) (rpos s) in
     wf s1 /\ frame o rnd R s s1 /\ live (hp s1) (nxt s) = true /\ name_of (hp s1) (nxt s) = name_of (hp s) g ++ [k] /\ is_group (hp s1) (nxt s) = true).
  { intros Gg L s1. split; [|split; [|split; [|split]]].
    - apply wf_new; auto; try discriminate.
      + intros X. exfalso. apply Hr. rewrite X in PR. eapply pre_trans; [|exact PR]. apply pre_app.
      + intros X. exfalso. apply Hr. eapply pre_trans; [|exact PR]. rewrite (walk_root_name _ _ _ _ (w_tree _ _ W) (w_sess _ _ W _ X)). apply pre_app.
    - apply frame_new; auto.
    - apply (new_live_n o s g k no_attrs (BGroup [])); auto.
    - apply add_name_new.
    - unfold is_group, s1. cbn [hp]. rewrite HeapFacts.add_new. reflexivity. }
  destruct cs as [|k2 cs].
  - destruct (lookup (hp s) g k) eqn:L; [apply keeps_err; exact W|].
    destruct (is_group (hp s) g) eqn:Gg; [|rewrite alloc_nogroup by exact Gg; apply keeps_err; exact W].
    rewrite alloc_eq by exact Gg. destruct (AL eq_refl eq_refl) as (H1 & H2 & H3 & H4 & H5). split; [exact H1|]. split; [exact H2|].
    intros i [= <-]. cbn [fst]. split; [exact H3|]. split; [exact H5|]. rewrite H4. exact E.
  - destruct (lookup (hp s) g k) as [j|] eqn:L.
    + destruct (t_link _ _ (w_tree _ _ W) _ _ _ L) as [E1 E2]. apply IH; auto.
      * eapply live_child; [apply (w_tree _ _ W)|exact Lg|exact L].
      * rewrite E2, <- app_assoc. exact E.
    + destruct (is_group (hp s) g) eqn:Gg; [|unfold bindm; rewrite alloc_nogroup by exact Gg; apply keeps_err; exact W].
      destruct (AL eq_refl eq_refl) as (H1 & H2 & H3 & H4 & H5). unfold bindm. rewrite alloc_eq by exact Gg.
      match goal with |- keeps R s (create_at _ _ _ _ ?x) _ => set (s1 := x) in * end.
      destruct (IH s1 (nxt s) H1 H3) as (K1 & K2 & K3); auto; [rewrite H4, <- app_assoc; exact E|].
      split; [exact K1|]. split; [eapply frame_trans; eassumption|]. exact K3.
Qed.
Lemma require_keeps (R : list pystr -> Prop) s g : wf s -> ~ pre rp (path_comps g) -> (forall p, pre p (path_comps g) -> R p) ->
  keeps R s (require_group g s) (fun s' i => live (hp s') i = true /\ is_group (hp s') i = true /\ name_of (hp s') i = path_comps g).
Proof.
  intros W Hr HR. unfold require_group, get_obj. destruct (name_err g) as [e|] eqn:NE; [unfold bindm; cbn; apply keeps_err; exact W|].
  unfold bindm, gets, start_of. replace (if isabs g then 0 else 0) with 0 by (destruct (isabs g); reflexivity).
  destruct (walk (hp s) 0 (path_comps g)) as [i|] eqn:Hw.
  - destruct (is_group (hp s) i) eqn:G; [|apply keeps_err; exact W]. apply keeps_ret; [exact W|].
    pose proof (walk_root_name _ _ _ _ (w_tree _ _ W) Hw) as N. split; [apply live_walk; rewrite N; exact Hw|]. auto.
  - unfold create_group, new_link. rewrite NE. unfold start_of. replace (if isabs g then 0 else 0) with 0 by (destruct (isabs g); reflexivity).
    apply create_group_keeps; auto using path_comps_clean.
    + apply (root_live o). exact W.
    + rewrite (root_name _ _ (w_tree _ _ W)). reflexivity.
Qed.
Lemma write_at_keeps s g t v : wf s -> clean t -> apart o (path_comps g ++ [t]) ->
  keeps (onway (path_comps g ++ [t])) s (write_at o rnd tries n g t v s) (fun _ _ => True).
Proof.
  intros W C A. destruct (apart_ra _ _ A) as [A1 A2]. unfold write_at.
  eapply keeps_bind; [exact W|apply require_keeps; [exact W| |]|].
  - intros P. apply A2. eapply pre_trans; [exact P|apply pre_app].
  - intros p P. right. eapply pre_trans; [exact P|apply pre_app].
  - intros i s1 W1 F1 (L1 & G1 & N1) _. eapply keeps_bind with (P := fun _ _ => True); [exact W1| |intros; apply keeps_ret; auto].
    assert (OK : okt o s1 i t).
    { constructor; auto; rewrite N1; auto. intros k P. exfalso. apply A2. eapply pre_trans; [|exact P]. apply pre_app. }
    eapply keeps_imp; [eapply keeps_sub; [apply (write_keeps o rnd tries Hkn Hvn n s1 i t v W1 OK)|]|auto].
    rewrite N1. intros p P. left. exact P.
Qed.
Lemma writes_keeps (R : list pystr -> Prop) s l : wf s ->
  (forall x, In x l -> clean (snd (fst x)) /\ apart o (path_comps (fst (fst x)) ++ [snd (fst x)]) /\
       forall p, onway (path_comps (fst (fst x)) ++ [snd (fst x)]) p -> R p) ->
  keeps R s (iterM (fun x => write_at o rnd tries n (fst (fst x)) (snd (fst x)) (snd x)) l s) (fun _ _ => True).
Proof.
  intros W H. apply (iterM_keeps o rnd R (fun _ => True)); auto. intros s1 x Hx W1 _. destruct (H x Hx) as (H1 & H2 & H3).
  eapply keeps_sub; [apply write_at_keeps; assumption|exact H3].
Qed.
End Api.

(** ** reading elsewhere *)
Lemma frame_walk_t o rnd (R : list pystr -> Prop) s s' q : wf o s -> tree (hp s') (nxt s') -> frame o rnd R s s' ->
  ~ R q -> apart o q -> walk (hp s') 0 q = walk (hp s) 0 q.
Proof.
  intros W W' F NR A. destruct (apart_ra _ _ A) as [A1 A2].
  destruct (walk (hp s) 0 q) as [i|] eqn:E.
  - pose proof (walk_root_name _ _ _ _ (w_tree _ _ W) E) as N. assert (L : live (hp s) i = true) by (apply live_walk; rewrite N; exact E).
    assert (L' : live (hp s') i = true) by (apply (f_live _ _ _ _ _ F); [exact L|rewrite N; exact NR]).
    apply live_walk in L'. rewrite (proj1 (proj2 (f_obj _ _ _ _ _ F i (live_exists _ _ _ W L)))), N in L'. exact L'.
  - destruct (walk (hp s') 0 q) as [j|] eqn:E'; [|reflexivity]. exfalso.
    pose proof (walk_root_name _ _ _ _ W' E') as N. assert (L : live (hp s') j = true) by (apply live_walk; rewrite N; exact E').
    destruct (hp s j) as [ob|] eqn:Ej.
    + assert (Xj : hp s j <> None) by congruence. pose proof (f_dead _ _ _ _ _ F j Xj L) as L0. apply live_walk in L0.
      rewrite <- (proj1 (proj2 (f_obj _ _ _ _ _ F j Xj))), N in L0. congruence.
    + destruct (f_born _ _ _ _ _ F j Ej L) as [H|[H|(k & _ & H)]]; rewrite N in H; auto.
      apply A2. eapply pre_trans; [apply pre_app|exact H].
Qed.
Lemma frame_walk o rnd (R : list pystr -> Prop) s s' q : wf o s -> wf o s' -> frame o rnd R s s' ->
  ~ R q -> apart o q -> walk (hp s') 0 q = walk (hp s) 0 q.
Proof. intros W W'. apply frame_walk_t; [exact W|apply (w_tree _ _ W')]. Qed.

(** a region that [q] and the references Group stay out of *)
Definition off (o : options) (R : list pystr -> Prop) (q : list pystr) : Prop :=
  (forall p, pre q p -> ~ R p) /\ (forall k p, pre (rp o ++ [k]) p -> ~ R p).
Lemma onway_off o t q : apart o t -> ~ pre t q -> ~ pre q t -> off o (onway t) q.
Proof.
  intros A N1 N2. destruct (apart_ra _ _ A) as [A1 A2]. assert (A0 : ~ pre t (rp o)) by (apply (apart_pre o t A)). split.
  - intros p P [H|H].
    + destruct (pre_cmp _ _ _ P H); auto.
    + apply N2. eapply pre_trans; eassumption.
  - intros k p P [H|H].
    + destruct (pre_cmp _ _ _ P H) as [Y|Y]; [apply A2; eapply pre_trans; [|exact Y]; apply pre_app|].
      destruct (pre_snoc_inv _ _ _ Y) as [Z|Z]; [auto|]. apply A2. rewrite Z. apply pre_app.
    + apply A2. eapply pre_trans; [|eapply pre_trans; [exact P|exact H]]. apply pre_app.
Qed.
Theorem frame_read_off o rnd R s s' q i n ro keq : wf o s -> frame o rnd R s s' -> off o R q -> ~ pre q (rp o) ->
  walk (hp s) 0 q = Some i -> read ro keq (hp s') n i = read ro keq (hp s) n i.
Proof.
  intros W F [O1 O2] N3 Hq. pose proof (w_tree _ _ W) as T.
  pose proof (walk_root_name _ _ _ _ T Hq) as Nq. assert (Lq : live (hp s) i = true) by (apply live_walk; rewrite Nq; exact Hq).
  assert (NR : forall p, pre q p \/ (exists k, pre (rp o ++ [k]) p) -> ~ R p /\ ~ pre p (rp o) /\ forall k, ~ R (p ++ [k])).
  { intros p Hp. split; [destruct Hp as [Hp|[k Hp]]; eauto|]. split.
    - intros P. destruct Hp as [Hp|[k Hp]]; [apply N3; eapply pre_trans; eassumption|].
      pose proof (pre_len _ _ P). pose proof (pre_len _ _ Hp) as L. rewrite app_length in L. cbn in L. lia.
    - intros k. destruct Hp as [Hp|[k2 Hp]]; [apply O1|apply (O2 k2)]; (eapply pre_trans; [exact Hp|apply pre_app]). }
  apply (read_stable ro keq (hp s) (hp s') (fun j => live (hp s) j = true /\ (pre q (name_of (hp s) j) \/ exists k, pre (rp o ++ [k]) (name_of (hp s) j)))).
  2: { split; [exact Lq|]. left. rewrite Nq. apply pre_refl. }
  intros j [Lj Pj]. destruct (NR _ Pj) as (B1 & B2 & B3). pose proof (live_exists _ _ _ W Lj) as Ej.
  pose proof (f_same _ _ _ _ _ F j Lj B1 B2 B3) as Es. destruct (hp s j) as [ob|] eqn:Eo; [|congruence].
  exists ob, ob. split; [reflexivity|]. split; [exact Es|]. split; [repeat split|]. split.
  + intros k m Hm. assert (K : lookup (hp s) j k = Some m) by (unfold lookup; apply In_assoc; [apply (t_keys _ _ T)|exact Hm]).
    split; [eapply live_child; eassumption|]. destruct (t_link _ _ T _ _ _ K) as [_ Nm]. rewrite Nm.
    destruct Pj as [P|[k2 P]]; [left|right; exists k2]; (eapply pre_trans; [exact P|apply pre_app]).
  + intros a f m B Hm. destruct (w_ptrs _ _ W _ _ _ _ _ Eo B Hm) as [P1 (k & P2)].
    assert (Pm : pre q (name_of (hp s) m) \/ exists k, pre (rp o ++ [k]) (name_of (hp s) m)) by (right; exists k; rewrite P2; apply pre_refl).
    destruct (NR _ Pm) as (C1 & _). split; [|auto]. apply eq_true_iff_eq. split; intros L.
    * apply (f_dead _ _ _ _ _ F); assumption.
    * apply (f_live _ _ _ _ _ F); assumption.
Qed.
