From Verif Require Import Base MColl MCollSpec.
From Coq Require Import Permutation.
Local Open Scope nat_scope.

(** ** dictionaries *)
Lemma dict_find_app k d e : dict_find k (d ++ e) = match dict_find k d with Some i => Some i | None => dict_find k e end.
Proof. induction d as [|[k' i] d IH]; cbn; [reflexivity|]. destruct (eqb_str k k'); [reflexivity|exact IH]. Qed.

Lemma dict_find_add k d k' i : dict_find k (dict_add d k' i) =
  match dict_find k d with Some j => Some j | None => if eqb_str k k' then Some i else None end.
Proof.
  unfold dict_add. destruct (dict_find k' d) eqn:E.
  - destruct (dict_find k d) eqn:E2; [reflexivity|]. destruct (eqb_str_spec k k'); [congruence|reflexivity].
  - rewrite dict_find_app. cbn. reflexivity.
Qed.

Lemma dict_find_adds k i l : forall d, dict_find k (fold_left (fun d k => dict_add d k i) l d) =
  match dict_find k d with Some j => Some j | None => if mem_str k l then Some i else None end.
Proof.
  induction l as [|k' l IH]; intros d; cbn [fold_left].
  - cbn. destruct (dict_find k d); reflexivity.
  - rewrite IH, dict_find_add. cbn [mem_str existsb]. destruct (dict_find k d); [reflexivity|].
    unfold mem_str. cbn [existsb]. destruct (eqb_str k k'); reflexivity.
Qed.

(** position of the first marshaller that declares [k] *)
Fixpoint first_pos (keys : mid -> list pystr) (k : pystr) (ms : list mid) : option nat :=
  match ms with
  | [] => None
  | m :: r => if mem_str k (keys m) then Some 0 else option_map S (first_pos keys k r)
  end.

Lemma build_index_find keys k ms : forall i d, dict_find k (build_index keys ms i d) =
  match dict_find k d with Some j => Some j | None => option_map (Nat.add i) (first_pos keys k ms) end.
Proof.
  induction ms as [|m ms IH]; intros i d; cbn [build_index first_pos option_map].
  - destruct (dict_find k d); reflexivity.
  - rewrite IH, dict_find_adds. destruct (dict_find k d); [reflexivity|].
    destruct (mem_str k (keys m)); cbn [option_map]; [f_equal; lia|].
    destruct (first_pos keys k ms); cbn [option_map]; [f_equal; lia|reflexivity].
Qed.

Lemma first_pos_spec keys k ms :
  match first_pos keys k ms with
  | Some i => exists m, nth_error ms i = Some m /\ first_declaring keys k ms (Some m)
  | None => first_declaring keys k ms None
  end.
Proof.
  induction ms as [|m ms IH]; cbn [first_pos]; [constructor|].
  destruct (mem_str k (keys m)) eqn:E.
  - exists m. split; [reflexivity|]. constructor. apply mem_str_In. exact E.
  - assert (Hn : ~ In k (keys m)) by (rewrite <- mem_str_In; congruence).
    destruct (first_pos keys k ms) as [i|]; cbn [option_map].
    + destruct IH as (m' & H1 & H2). exists m'. split; [exact H1|]. constructor; assumption.
    + constructor; assumption.
Qed.

(** ** priority *)
Lemma insert_perm x l : Permutation (insert_str x l) (x :: l).
Proof.
  induction l as [|y l IH]; cbn; [reflexivity|]. destruct (str_le x y); [reflexivity|].
  rewrite IH. apply perm_swap.
Qed.
Lemma sorted_perm l : Permutation (sorted l) l.
Proof. induction l as [|x l IH]; cbn; [reflexivity|]. rewrite insert_perm, IH. reflexivity. Qed.

Lemma eqb_strs_eq a b : eqb_strs a b = true <-> a = b.
Proof.
  revert b. induction a as [|x a IH]; intros [|y b]; cbn; try (split; congruence).
  rewrite andb_true_iff, IH. destruct (eqb_str_spec x y); split; intros; try (split; congruence); [destruct H; congruence| destruct H; congruence].
Qed.

Lemma str_le_total a b : str_le a b = true \/ str_le b a = true.
Proof.
  revert b. induction a as [|x a IH]; intros [|y b]; cbn; auto.
  destruct (N.ltb_spec x y); [auto|]. destruct (N.ltb_spec y x); auto.
Qed.
Lemma str_le_antisym a b : str_le a b = true -> str_le b a = true -> a = b.
Proof.
  revert b. induction a as [|x a IH]; intros [|y b]; cbn; try congruence.
  destruct (N.ltb_spec x y), (N.ltb_spec y x); try congruence; try lia.
  intros. f_equal; [lia|]. apply IH; assumption.
Qed.
Lemma str_le_trans a b c : str_le a b = true -> str_le b c = true -> str_le a c = true.
Proof.
  revert b c. induction a as [|x a IH]; intros [|y b] [|z c]; cbn; try congruence.
  destruct (N.ltb_spec x y), (N.ltb_spec y z), (N.ltb_spec x z), (N.ltb_spec y x), (N.ltb_spec z y), (N.ltb_spec z x);
    try congruence; try lia. intros. eapply IH; eassumption.
Qed.

(** sorted is a canonical form, so the constructor's check is: a permutation *)
Inductive srt : list pystr -> Prop :=
| srt_nil : srt [] | srt_cons x l : Forall (fun y => str_le x y = true) l -> srt l -> srt (x :: l).
Lemma insert_srt x l : srt l -> srt (insert_str x l).
Proof.
  induction 1 as [|y l Hf Hs IH]; cbn; [repeat constructor|].
  destruct (str_le x y) eqn:E.
  - constructor; [|constructor; assumption]. constructor; [exact E|].
    eapply Forall_impl; [|exact Hf]. intros z Hz. eapply str_le_trans; eassumption.
  - constructor; [|exact IH]. rewrite insert_perm. constructor; [|exact Hf].
    destruct (str_le_total x y); congruence.
Qed.
Lemma sorted_srt l : srt (sorted l).
Proof. induction l; cbn; [constructor|apply insert_srt; assumption]. Qed.
Lemma srt_unique a : forall b, srt a -> srt b -> Permutation a b -> a = b.
Proof.
  induction a as [|x a IH]; intros b Ha Hb P.
  - apply Permutation_nil in P. congruence.
  - destruct b as [|y b]; [apply Permutation_sym, Permutation_nil in P; discriminate|].
    inversion Ha as [|? ? Hfa Hsa]; inversion Hb as [|? ? Hfb Hsb]; subst.
    assert (x = y).
    { assert (Hx : In x (y :: b)) by (rewrite <- P; left; reflexivity).
      assert (Hy : In y (x :: a)) by (rewrite P; left; reflexivity).
      rewrite Forall_forall in Hfa, Hfb. destruct Hx as [|Hx]; [congruence|]. destruct Hy as [|Hy]; [congruence|].
      apply str_le_antisym; auto. }
    subst y. f_equal. apply IH; [assumption..|]. eapply Permutation_cons_inv; exact P.
Qed.
Lemma sorted_eq_perm a b : sorted a = sorted b <-> Permutation a b.
Proof.
  split; intros H.
  - rewrite <- (sorted_perm a), H. apply sorted_perm.
  - apply srt_unique; try apply sorted_srt. rewrite !sorted_perm. exact H.
Qed.

Definition three := [lit "builtin"; lit "plugin"; lit "user"].

Lemma combine_ordered prio b p u : (forall v, In v prio -> In v three) ->
  combine_lists prio b p u = Ok (ordered prio b p u).
Proof.
  induction prio as [|v prio IH]; intros H; [reflexivity|].
  assert (Hv : In v three) by (apply H; left; reflexivity).
  cbn [combine_lists ordered flat_map]. rewrite IH by (intros w Hw; apply H; right; exact Hw). cbn [bindr].
  destruct Hv as [<-|[<-|[<-|[]]]]; cbn; reflexivity.
Qed.

(** ** modules *)
Section WithEnv.
Variable info : mid -> minfo.
Variable env : pyenv.
Variable sys0 : list pystr.
Hypothesis Hcoh : coherent env sys0.

Definition msys (s : list pystr) : Prop :=
  incl sys0 s /\ forall n, In n s -> In n sys0 \/ importable env n = true.

Lemma msys_more s l : msys s -> (forall k, In k l -> In k sys0 \/ importable env k = true) -> msys (l ++ s).
Proof.
  intros [H1 H2] H. split; [intros x Hx; apply in_or_app; auto|].
  intros n Hn. apply in_app_or in Hn. destruct Hn; auto.
Qed.

Lemma import_spec names : forall s s' ok, msys s -> import_modules env s names = (s', ok) ->
  msys s' /\ (ok = true <-> forall n, In n names -> In n sys0 \/ importable env n = true).
Proof.
  induction names as [|n names IH]; intros s s' ok Hs H; cbn [import_modules] in H.
  - inversion H; subst. split; [exact Hs|]. split; [intros _ n []|auto].
  - destruct (mem_str n s) eqn:E.
    + destruct (IH _ _ _ Hs H) as [H1 H2]. split; [exact H1|]. rewrite H2.
      apply mem_str_In in E. split; intros G k; [intros [<-|Hk]; [apply Hs, E|auto]|intros Hk; apply G; right; exact Hk].
    + destruct (importable env n) eqn:Ei.
      * assert (Hs' : msys (n :: brings env n ++ s)).
        { change (msys ((n :: brings env n) ++ s)). apply msys_more; [exact Hs|].
          intros k [<-|Hk]; [auto|]. destruct Hcoh as [_ Hc]. apply (Hc n); auto. }
        destruct (IH _ _ _ Hs' H) as [H1 H2]. split; [exact H1|]. rewrite H2.
        split; intros G k; [intros [<-|Hk]; auto|intros Hk; apply G; right; exact Hk].
      * inversion H; subst. split.
        -- apply msys_more; [exact Hs|]. intros k Hk. destruct Hcoh as [_ Hc]. apply (Hc n); auto.
        -- split; [discriminate|]. intros G. exfalso. destruct (G n (or_introl eq_refl)) as [G'|G']; [|congruence].
           assert (mem_str n s = true) by (apply mem_str_In; apply Hs; exact G'). congruence.
Qed.

Definition parents_ok (m : mid) : Prop := forall n, In n (i_parents (info m)) -> In n sys0 \/ findable env n = true.
Definition modules_ok (m : mid) : Prop := forall n, In n (i_modules (info m)) -> In n sys0 \/ importable env n = true.

Lemma parents_spec s m : msys s -> parents_present info env s m = true <-> parents_ok m.
Proof.
  intros [H1 H2]. unfold parents_present, parents_ok. rewrite forallb_forall. split; intros H n Hn.
  - specialize (H n Hn). apply orb_true_iff in H. destruct H as [H|H]; [|auto].
    apply mem_str_In in H. destruct (H2 n H) as [G|G]; [auto|]. right. apply (proj1 Hcoh). exact G.
  - apply orb_true_iff. destruct (H n Hn) as [G|G]; [left; apply mem_str_In; auto|right; exact G].
Qed.

(** what the two flags of a marshaller may say *)
Definition flags_ok (m : mid) (has imp : bool) : Prop :=
  (has = true -> parents_ok m) /\ (imp = true -> available info env sys0 m) /\
  (has = false -> ~ available info env sys0 m).

Lemma check_modules_spec lazy s m s' h i : msys s -> check_modules info env lazy s m = (s', h, i) ->
  msys s' /\ flags_ok m h i.
Proof.
  intros Hs H. unfold check_modules in H. pose proof (parents_spec s m Hs) as Hp.
  destruct (parents_present info env s m) eqn:Ep; cbn [negb] in H.
  - destruct (forallb (fun n => mem_str n s) (i_modules (info m))) eqn:Ef.
    + inversion H; subst. split; [exact Hs|]. assert (P : parents_ok m) by (apply Hp; reflexivity).
      split; [auto|]. split; [|discriminate]. intros _. split; [exact P|].
      intros n Hn. rewrite forallb_forall in Ef. apply Hs. apply mem_str_In. auto.
    + destruct lazy.
      * inversion H; subst. split; [exact Hs|]. split; [intros _; apply Hp; reflexivity|]. split; discriminate.
      * destruct (import_modules env s (i_modules (info m))) as [s1 ok] eqn:Ei.
        destruct (import_spec _ _ _ _ Hs Ei) as [H1 H2]. inversion H; subst. split; [exact H1|].
        assert (P : parents_ok m) by (apply Hp; reflexivity).
        split; [auto|]. split; [intros E; split; [exact P|apply H2; exact E]|].
        intros E [_ A]. apply H2 in A. congruence.
  - inversion H; subst. split; [exact Hs|]. split; [discriminate|]. split; [discriminate|].
    intros _ [A _]. apply Hp in A. discriminate.
Qed.

Inductive flags : list mid -> list bool -> list bool -> Prop :=
| flags_nil : flags [] [] []
| flags_cons m ms h hs i is : flags_ok m h i -> flags ms hs is -> flags (m :: ms) (h :: hs) (i :: is).

Lemma check_all_spec lazy ms : forall s s' hs is, msys s -> check_all info env lazy s ms = (s', hs, is) ->
  msys s' /\ flags ms hs is.
Proof.
  induction ms as [|m ms IH]; intros s s' hs is Hs H; cbn [check_all] in H.
  - inversion H; subst. split; [exact Hs|constructor].
  - destruct (check_modules info env lazy s m) as [[s1 h] i] eqn:E1.
    destruct (check_all info env lazy s1 ms) as [[s2 hs'] is'] eqn:E2.
    destruct (check_modules_spec _ _ _ _ _ _ Hs E1) as [H1 F1].
    destruct (IH _ _ _ _ H1 E2) as [H2 F2]. inversion H; subst. split; [exact H2|constructor; assumption].
Qed.

Lemma flags_at ms hs is i m : flags ms hs is -> nth_error ms i = Some m ->
  flags_ok m (nth i hs false) (nth i is false).
Proof.
  intros F. revert i. induction F as [|m0 ms h hs i0 is F0 F IH]; intros i H; [destruct i; discriminate|].
  destruct i; cbn in H; [inversion H; subst; exact F0|apply IH; exact H].
Qed.

Lemma flags_set ms hs is i m ok : flags ms hs is -> nth_error ms i = Some m -> flags_ok m ok ok ->
  flags ms (set_nth i ok hs) (set_nth i ok is).
Proof.
  intros F. revert i. induction F as [|m0 ms h hs i0 is F0 F IH]; intros i H Hok; [destruct i; discriminate|].
  destruct i; cbn in H.
  - inversion H; subst. unfold set_nth. cbn. constructor; assumption.
  - unfold set_nth. cbn. constructor; [exact F0|]. apply IH; assumption.
Qed.

(** ** the invariant *)
Variables (prio : list pystr) (b p : list mid).
Hypothesis Hprio : forall v, In v prio -> In v three.

Definition R (st : list pystr * coll) (s : spec_state) : Prop :=
  let '(sysm, c) := st in
  msys sysm /\ c_priority c = prio /\ c_builtin c = b /\ c_plugin c = p /\
  c_user c = s_user s /\ NoDup (s_user s) /\
  c_all c = ordered prio b p (s_visible s) /\ flags (c_all c) (c_has c) (c_imported c) /\
  c_types c = build_index (type_keys info) (c_all c) 0 [] /\
  c_strings c = build_index (fun m => i_strings (info m)) (c_all c) 0 [] /\
  c_classes c = build_index (fun m => i_classes (info m)) (c_all c) 0 [].

Lemma upd_out_spec sysm c u : msys sysm -> c_priority c = prio -> c_builtin c = b -> c_plugin c = p -> NoDup u ->
  exists s' c', upd_out info env sysm (with_user c u) = (s', c', OutUnit) /\
    R (s', c') {| s_user := u; s_visible := u |}.
Proof.
  intros Hs Hp Hb Hpl Hn. unfold upd_out, update. cbn [with_user c_priority c_builtin c_plugin c_user c_lazy].
  rewrite Hp, Hb, Hpl, combine_ordered by exact Hprio. cbn [bindr].
  destruct (check_all info env (c_lazy c) sysm (ordered prio b p u)) as [[s' hs] is] eqn:E.
  destruct (check_all_spec _ _ _ _ _ _ Hs E) as [H1 H2].
  eexists _, _. split; [reflexivity|]. unfold R. cbn. intuition.
Qed.

Lemma mem_mid_In m l : mem_mid m l = true <-> In m l.
Proof.
  unfold mem_mid. rewrite existsb_exists. split; [intros (x & H1 & H2); apply N.eqb_eq in H2; subst; exact H1|].
  intros H. exists m. split; [exact H|apply N.eqb_refl].
Qed.

Lemma NoDup_snoc (m : mid) l : NoDup l -> ~ In m l -> NoDup (l ++ [m]).
Proof.
  intros H1 H2. apply (Permutation_NoDup (l := m :: l)); [|constructor; assumption].
  apply Permutation_cons_append.
Qed.

Lemma add_loop_spec l : forall u u' ok, NoDup u -> add_loop u l = (u', ok) ->
  NoDup u' /\ u' = spec_add u l /\ ok = negb (existsb (fun x => match x with None => true | _ => false end) l).
Proof.
  induction l as [|[m|] l IH]; intros u u' ok Hn H; cbn [add_loop] in H.
  - inversion H; subst. auto.
  - cbn [spec_add existsb orb]. apply IH in H; [exact H|].
    destruct (mem_mid m u) eqn:E; [exact Hn|]. apply NoDup_snoc; [exact Hn|]. rewrite <- mem_mid_In, E. discriminate.
  - inversion H; subst. auto.
Qed.

Lemma remove_first_filter m u : NoDup u -> (if mem_mid m u then remove_first m u else u) = filter (fun x => negb (N.eqb m x)) u.
Proof.
  assert (Hni : forall u, ~ In m u -> filter (fun x => negb (N.eqb m x)) u = u).
  { induction u0 as [|x u0 IH]; intros H; [reflexivity|]. cbn. destruct (N.eqb_spec m x); [subst; destruct H; left; reflexivity|].
    cbn. f_equal. apply IH. intros G; apply H; right; exact G. }
  intros Hn. destruct (mem_mid m u) eqn:E.
  - clear E. induction Hn as [|x u Hx Hu IH]; [reflexivity|]. cbn. destruct (N.eqb_spec m x); cbn.
    + subst. symmetry. apply Hni. exact Hx.
    + f_equal. exact IH.
  - symmetry. apply Hni. rewrite <- mem_mid_In, E. discriminate.
Qed.

Lemma filter_filter {A} (f g : A -> bool) l : filter f (filter g l) = filter (fun x => g x && f x) l.
Proof. induction l as [|x l IH]; [reflexivity|]. cbn. destruct (g x); cbn; [destruct (f x); rewrite IH; reflexivity|exact IH]. Qed.

Lemma remove_loop_spec l : forall u, NoDup u -> remove_loop u l = spec_remove u l /\ NoDup (spec_remove u l).
Proof.
  assert (Hnd : forall u l, NoDup u -> NoDup (spec_remove u l)) by (intros; apply NoDup_filter; assumption).
  intros u Hu. split; [|apply Hnd, Hu]. revert u Hu. induction l as [|[m|] l IH]; intros u Hu.
  - unfold remove_loop, spec_remove. cbn. symmetry. induction u as [|x u IHu]; [reflexivity|]. cbn. f_equal.
    apply IHu. inversion Hu; assumption.
  - change (remove_loop u (Some m :: l)) with (remove_loop (if mem_mid m u then remove_first m u else u) l).
    rewrite remove_first_filter by exact Hu. rewrite IH by (apply NoDup_filter; exact Hu).
    unfold spec_remove. rewrite filter_filter. apply filter_ext. intros x. cbn [existsb]. rewrite negb_orb. reflexivity.
  - change (remove_loop u (None :: l)) with (remove_loop u l). rewrite IH by exact Hu. reflexivity.
Qed.

Lemma get_by_spec keys sysm c s k d : R (sysm, c) s -> d = build_index keys (c_all c) 0 [] ->
  exists s' c' o, get_by info env d k sysm c = (s', c', o) /\ R (s', c') s /\
    answer info env sys0 keys k (ordered prio b p (s_visible s)) o.
Proof.
  intros HR ->. pose proof HR as HR0.
  destruct HR as (Hs & Hp & Hb & Hpl & Hu & Hnd & Hall & Hf & H1 & H2 & H3).
  unfold get_by. rewrite build_index_find. cbn [dict_find]. unfold answer. rewrite <- Hall.
  pose proof (first_pos_spec keys k (c_all c)) as Hfp.
  destruct (first_pos keys k (c_all c)) as [i|]; cbn [option_map].
  - destruct Hfp as (m & Hm & Hd). cbn [Nat.add]. unfold get_at. rewrite Hm.
    pose proof (flags_at _ _ _ _ _ Hf Hm) as (F1 & F2 & F3).
    destruct (nth i (c_imported c) false) eqn:Ei.
    + exists sysm, c, (OutGet (Some m) true). split; [reflexivity|]. split; [exact HR0|].
      exists (Some m), true. split; [reflexivity|]. split; [exact Hd|]. split; [intros _; exists m; auto|auto].
    + destruct (nth i (c_has c) false) eqn:Eh; cbn [negb].
      * destruct (import_modules env sysm (i_modules (info m))) as [s' ok] eqn:Em.
        destruct (import_spec _ _ _ _ Hs Em) as [G1 G2]. eexists _, _, _. split; [reflexivity|].
        assert (Hav : ok = true <-> available info env sys0 m).
        { rewrite G2. unfold available. split; [intros G; split; [apply F1; reflexivity|exact G]|intros [_ G]; exact G]. }
        split.
        -- unfold R. cbn. repeat (split; [assumption|]). split; [|auto].
           eapply flags_set; [exact Hf|exact Hm|]. split; [intros _; apply F1; reflexivity|].
           split; [apply Hav|]. intros E A. apply Hav in A. congruence.
        -- exists (Some m), ok. split; [reflexivity|]. split; [exact Hd|]. rewrite Hav.
           split; [intros A; exists m; auto|intros (x & E & A); inversion E; subst; exact A].
      * exists sysm, c, (OutGet (Some m) false). split; [reflexivity|]. split; [exact HR0|].
        exists (Some m), false. split; [reflexivity|]. split; [exact Hd|].
        split; [discriminate|]. intros (x & E & A). inversion E; subst. destruct (F3 eq_refl A).
  - eexists _, _, _. split; [reflexivity|]. split; [exact HR0|].
    exists None, false. split; [reflexivity|]. split; [exact Hfp|]. split; [discriminate|]. intros (x & E & _). discriminate.
Qed.

Lemma step_spec st s op : R st s -> exists st' o, step info env st op = (fst st', snd st', o) /\
  R st' (spec_step s op) /\ spec_out info env sys0 prio b p s op o.
Proof.
  destruct st as [sysm c]. intros HR. pose proof HR as HR0.
  destruct HR as (Hs & Hp & Hb & Hpl & Hu & Hnd & Hall & Hf & H1 & H2 & H3).
  destruct op as [l|l| |t|k|k]; cbn [step spec_step spec_out].
  - destruct (add_loop (c_user c) l) as [u ok] eqn:Ea. rewrite Hu in Ea.
    destruct (add_loop_spec _ _ _ _ Hnd Ea) as (N1 & N2 & N3). rewrite N3.
    destruct (existsb _ l); cbn [negb].
    + exists (sysm, with_user c u), (OutErr TypeError). split; [reflexivity|]. split; [|reflexivity].
      unfold R. cbn. rewrite <- N2. intuition.
    + destruct (upd_out_spec sysm c u Hs Hp Hb Hpl N1) as (s' & c' & E & HR'). rewrite E.
      exists (s', c'), OutUnit. rewrite <- N2. auto.
  - destruct (remove_loop_spec l (c_user c)) as [N1 N2]; [rewrite Hu; exact Hnd|]. rewrite N1.
    destruct (upd_out_spec sysm c (spec_remove (c_user c) l) Hs Hp Hb Hpl N2) as (s' & c' & E & HR'). rewrite E.
    exists (s', c'), OutUnit. rewrite <- Hu. auto.
  - destruct (upd_out_spec sysm c [] Hs Hp Hb Hpl (NoDup_nil _)) as (s' & c' & E & HR'). rewrite E.
    exists (s', c'), OutUnit. auto.
  - destruct (get_by_spec (fun m => map ty_key (i_types (info m))) sysm c s (ty_key t) (c_types c) HR0 H1) as (s' & c' & o & E & HR' & Ho).
    exists (s', c'), o. auto.
  - destruct (get_by_spec (fun m => i_strings (info m)) sysm c s k (c_strings c) HR0 H2) as (s' & c' & o & E & HR' & Ho).
    exists (s', c'), o. auto.
  - destruct (get_by_spec (fun m => i_classes (info m)) sysm c s k (c_classes c) HR0 H3) as (s' & c' & o & E & HR' & Ho).
    exists (s', c'), o. auto.
Qed.
End WithEnv.

(** ** every history *)
Inductive spec_outs (info : mid -> minfo) (env : pyenv) (sys0 : list pystr) (prio : list pystr) (b p : list mid) :
  spec_state -> list cop -> list cout -> Prop :=
| so_nil s : spec_outs info env sys0 prio b p s [] []
| so_cons s op ops o os : spec_out info env sys0 prio b p s op o ->
    spec_outs info env sys0 prio b p (spec_step s op) ops os ->
    spec_outs info env sys0 prio b p s (op :: ops) (o :: os).

Lemma run_spec info env sys0 prio b p : coherent env sys0 -> (forall v, In v prio -> In v three) ->
  forall ops st s, R info env sys0 prio b p st s -> exists st' os, run info env st ops = (fst st', snd st', os) /\
  R info env sys0 prio b p st' (spec_run s ops) /\ spec_outs info env sys0 prio b p s ops os.
Proof.
  intros Hc Hp. induction ops as [|op ops IH]; intros st s HR; cbn [run].
  - exists st, []. split; [reflexivity|]. split; [exact HR|constructor].
  - destruct (step_spec info env sys0 Hc prio b p Hp st s op HR) as (st1 & o & E & HR1 & Ho). rewrite E.
    destruct (IH (fst st1, snd st1) (spec_step s op)) as (st' & os & E' & HR' & Hos); [destruct st1; exact HR1|].
    rewrite E'. exists st', (o :: os). split; [reflexivity|]. split; [exact HR'|]. constructor; assumption.
Qed.

Lemma create_from info env sys0 sysm b p lazy prio ms :
  coherent env sys0 -> msys env sys0 sysm ->
  if existsb (fun x => match x with None => true | _ => false end) ms
  then create info env sysm b p lazy prio ms = Err ValueError \/ create info env sysm b p lazy prio ms = Err TypeError
  else (Permutation prio three -> exists st, create info env sysm b p lazy prio ms = Ok st /\
          R info env sys0 prio b p st {| s_user := spec_add [] ms; s_visible := spec_add [] ms |} /\
          c_lazy (snd st) = lazy) /\
       (~ Permutation prio three -> create info env sysm b p lazy prio ms = Err ValueError).
Proof.
  intros Hc Hsys. unfold create.
  destruct (Nat.eqb_spec (length prio) 3) as [El|El]; cbn [negb].
  2:{ destruct (existsb _ ms); [auto|]. split; [|reflexivity]. intros P. apply Permutation_length in P. destruct (El P). }
  destruct (eqb_strs (sorted prio) (sorted three)) eqn:Es; unfold three in Es; rewrite Es; cbn [negb].
  2:{ destruct (existsb _ ms); [auto|]. split; [|reflexivity]. intros P.
      apply sorted_eq_perm in P. apply eqb_strs_eq in P. unfold three in P. congruence. }
  apply eqb_strs_eq, sorted_eq_perm in Es.
  assert (Hp : forall v, In v prio -> In v three) by (intros v Hv; rewrite <- Es; exact Hv).
  cbn [step c_user]. destruct (add_loop [] ms) as [u ok] eqn:Ea.
  destruct (add_loop_spec _ _ _ _ (NoDup_nil _) Ea) as (N1 & N2 & N3). rewrite N3.
  destruct (existsb _ ms); cbn [negb]; [auto|]. split; [|intros H; destruct (H Es)].
  intros _.
  match goal with |- context [with_user ?c0 u] => set (c := c0) end.
  destruct (upd_out_spec info env sys0 Hc prio b p Hp sysm c u) as (s' & c' & E & HR'); try reflexivity; [exact Hsys|exact N1|].
  rewrite E. exists (s', c'). split; [reflexivity|]. rewrite <- N2. split; [exact HR'|].
  cbn [snd]. unfold upd_out, update in E. destruct (combine_lists _ _ _ _) eqn:Ecl; cbn [bindr] in E; [|discriminate].
  destruct (check_all _ _ _ _ _) as [[? ?] ?]. assert (E' : c' = snd (s', c')) by reflexivity.
  inversion E. reflexivity.
Qed.

Lemma msys_refl env sys0 : msys env sys0 sys0.
Proof. split; [intros x Hx; exact Hx|auto]. Qed.

Lemma create_spec info env sys0 b p lazy prio ms :
  coherent env sys0 ->
  if existsb (fun x => match x with None => true | _ => false end) ms
  then exists e, create info env sys0 b p lazy prio ms = Err e
  else (Permutation prio three -> exists st, create info env sys0 b p lazy prio ms = Ok st /\
          R info env sys0 prio b p st {| s_user := spec_add [] ms; s_visible := spec_add [] ms |} /\
          c_lazy (snd st) = lazy) /\
       (~ Permutation prio three -> create info env sys0 b p lazy prio ms = Err ValueError).
Proof.
  intros Hc. pose proof (create_from info env sys0 sys0 b p lazy prio ms Hc (msys_refl env sys0)) as H.
  destruct (existsb _ ms); [|exact H]. destruct H; eauto.
Qed.

Lemma first_declaring_fun keys k l a b : first_declaring keys k l a -> first_declaring keys k l b -> a = b.
Proof. intros H. revert b. induction H; intros b' H'; inversion H'; subst; try reflexivity; try contradiction; auto. Qed.

Lemma answer_fun info env sys0 keys k l o o' : answer info env sys0 keys k l o -> answer info env sys0 keys k l o' -> o = o'.
Proof.
  intros (m & h & -> & F & H) (m' & h' & -> & F' & H').
  rewrite (first_declaring_fun _ _ _ _ _ F F') in *. f_equal.
  destruct h, h'; try reflexivity; [symmetry; apply H', H; reflexivity|apply H, H'; reflexivity].
Qed.

Lemma collection_history info env sys0 b p lazy prio ms st ops st' os :
  coherent env sys0 -> create info env sys0 b p lazy prio ms = Ok st -> run info env st ops = (fst st', snd st', os) ->
  Permutation prio three /\
  R info env sys0 prio b p st' (spec_run {| s_user := spec_add [] ms; s_visible := spec_add [] ms |} ops) /\
  spec_outs info env sys0 prio b p {| s_user := spec_add [] ms; s_visible := spec_add [] ms |} ops os.
Proof.
  intros Hc Hcr Hrun. pose proof (create_spec info env sys0 b p lazy prio ms Hc) as H. rewrite Hcr in H.
  destruct (existsb _ ms); [destruct H as (e & H); discriminate|]. destruct H as [H1 H2].
  assert (P : Permutation prio three).
  { destruct (eqb_strs (sorted prio) (sorted three)) eqn:E.
    - apply sorted_eq_perm, eqb_strs_eq. exact E.
    - exfalso. discriminate H2. intros P. apply sorted_eq_perm, eqb_strs_eq in P. congruence. }
  split; [exact P|]. destruct (H1 P) as (st1 & E1 & HR & _). assert (st1 = st) by congruence. subst st1.
  destruct (run_spec info env sys0 prio b p Hc) with (ops := ops) (2 := HR) as (st2 & os2 & E2 & HR2 & Ho2).
  { intros v Hv. rewrite <- P. exact Hv. }
  rewrite E2 in Hrun. assert (st2 = st') by (destruct st2, st'; cbn in *; congruence).
  assert (os2 = os) by congruence. subst. auto.
Qed.

Lemma collection_step info env sys0 b p lazy prio ms st ops st' os op :
  coherent env sys0 -> create info env sys0 b p lazy prio ms = Ok st -> run info env st ops = (fst st', snd st', os) ->
  spec_out info env sys0 prio b p (spec_run {| s_user := spec_add [] ms; s_visible := spec_add [] ms |} ops) op
    (snd (step info env st' op)).
Proof.
  intros Hc H1 H2. destruct (collection_history _ _ _ _ _ _ _ _ _ _ _ _ Hc H1 H2) as (P & HR & _).
  destruct (step_spec info env sys0 Hc prio b p) with (op := op) (2 := HR) as (st2 & o & E & _ & Ho).
  { intros v Hv. rewrite <- P. exact Hv. }
  rewrite E. exact Ho.
Qed.

Lemma lazy_irrelevant info env sys0 b p prio ms lazy1 lazy2 st1 st2 ops1 ops2 st1' st2' os1 os2 op :
  coherent env sys0 ->
  create info env sys0 b p lazy1 prio ms = Ok st1 -> create info env sys0 b p lazy2 prio ms = Ok st2 ->
  run info env st1 ops1 = (fst st1', snd st1', os1) -> run info env st2 ops2 = (fst st2', snd st2', os2) ->
  (forall s, s_visible (spec_run s ops1) = s_visible (spec_run s ops2)) ->
  snd (step info env st1' op) = snd (step info env st2' op).
Proof.
  intros Hc C1 C2 R1 R2 Hv.
  pose proof (collection_step _ _ _ _ _ _ _ _ _ _ _ _ op Hc C1 R1) as S1.
  pose proof (collection_step _ _ _ _ _ _ _ _ _ _ _ _ op Hc C2 R2) as S2.
  destruct op as [l|l| |t|k|k]; cbn [spec_out] in S1, S2; try congruence;
   try (rewrite Hv in S1; eapply answer_fun; eassumption).
  destruct (existsb _ l); congruence.
Qed.

Lemma spec_run_lookups l : (forall op, In op l -> match op with OpType _ | OpString _ | OpClass _ => True | _ => False end) ->
  forall s, spec_run s l = s.
Proof.
  induction l as [|op l IH]; intros H s; [reflexivity|]. cbn [spec_run fold_left].
  specialize (IH (fun o Ho => H o (or_intror Ho))). unfold spec_run in IH. rewrite IH.
  specialize (H op (or_introl eq_refl)). destruct op; try contradiction; reflexivity.
Qed.

Lemma create_priority info env sys0 b p lazy prio ms : coherent env sys0 ->
  (exists st, create info env sys0 b p lazy prio (map Some ms) = Ok st) <->
  Permutation prio [lit "builtin"; lit "plugin"; lit "user"].
Proof.
  intros Hc. pose proof (create_spec info env sys0 b p lazy prio (map Some ms) Hc) as H.
  assert (E : existsb (fun x : option mid => match x with None => true | _ => false end) (map Some ms) = false).
  { clear. induction ms; [reflexivity|exact IHms]. }
  rewrite E in H. destruct H as [H1 H2]. split.
  - intros [st Hst].
    destruct (eqb_strs (sorted prio) (sorted three)) eqn:Es; [apply sorted_eq_perm, eqb_strs_eq; exact Es|].
    exfalso. rewrite H2 in Hst; [discriminate|]. intros P. apply sorted_eq_perm, eqb_strs_eq in P. congruence.
  - intros P. destruct (H1 P) as (st & Hst & _). eauto.
Qed.
