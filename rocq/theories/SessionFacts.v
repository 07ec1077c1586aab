(** Proofs about the module's global state. *)
From Coq Require Import Permutation Lia.
From Verif Require Import Base OptionsM MColl MCollSpec MCollFacts Session SessionSpec.

(** ** plugins *)
Lemma dput_keys d k e : map fst (dput d k e) = if mem_str k (map fst d) then map fst d else map fst d ++ [k].
Proof.
  induction d as [|[k' e'] d IH]; [reflexivity|]. cbn [dput map fst mem_str existsb].
  destruct (eqb_str k k') eqn:E; cbn [orb map fst]; [reflexivity|].
  rewrite IH. unfold mem_str. destruct (existsb (eqb_str k) (map fst d)); reflexivity.
Qed.
Lemma dput_in d k e x y : NoDup (map fst d) -> In (x, y) (dput d k e) -> (x = k /\ y = e) \/ (x <> k /\ In (x, y) d).
Proof.
  induction d as [|[k' e'] d IH]; cbn [dput map fst]; intros Hn H.
  - destruct H as [H|[]]. left. inversion H; auto.
  - inversion Hn as [|? ? Hk Hd]; subst. destruct (eqb_str_spec k k') as [->|Hne].
    + destruct H as [H|H]; [left; inversion H; auto|]. right. split; [|right; exact H].
      intros ->. apply Hk. apply in_map_iff. exists (k', y). auto.
    + destruct H as [H|H]; [inversion H; subst; right; split; [congruence|left; reflexivity]|].
      destruct (IH Hd H) as [A|[A B]]; [auto|]. right. split; [exact A|right; exact B].
Qed.

Lemma speaks_more eps x m e : speaks eps m e -> (supported x -> e_module x <> m) -> speaks (eps ++ [x]) m e.
Proof.
  intros (a & b & -> & Hs & Hm & Hl) Hx. exists a, (b ++ [x]). rewrite <- app_assoc. split; [reflexivity|].
  split; [exact Hs|]. split; [exact Hm|]. intros y Hy Hsy. apply in_app_or in Hy. destruct Hy as [Hy|[<-|[]]]; auto.
Qed.

Lemma plugin_dict_spec eps : let d := plugin_dict (lit "1.0") eps in
  modules eps (map fst d) /\ NoDup (map fst d) /\ forall k e, In (k, e) d -> speaks eps k e.
Proof.
  induction eps as [|x eps IH] using rev_ind; cbn zeta.
  - split; [constructor|]. split; [constructor|]. intros k e [].
  - unfold plugin_dict. rewrite fold_left_app. cbn [fold_left]. fold (plugin_dict (lit "1.0") eps).
    set (d := plugin_dict (lit "1.0") eps) in *. cbn zeta in IH. destruct IH as (H1 & H2 & H3).
    destruct (eqb_str_spec (e_name x) (lit "1.0")) as [Hx|Hx].
    + assert (Hk : map fst (dput d (e_module x) x) = (if mem_str (e_module x) (map fst d) then map fst d else map fst d ++ [e_module x])) by apply dput_keys.
      assert (Hm : modules (eps ++ [x]) (map fst (dput d (e_module x) x)) /\ NoDup (map fst (dput d (e_module x) x))).
      { rewrite Hk. destruct (mem_str (e_module x) (map fst d)) eqn:E.
        - apply mem_str_In in E. split; [apply mo_again; assumption|exact H2].
        - assert (En : ~ In (e_module x) (map fst d)) by (intros A; apply mem_str_In in A; congruence).
          split; [apply mo_new; assumption|]. apply NoDup_Add with (1 := Add_app (e_module x) (map fst d) []).
          rewrite app_nil_r. auto. }
      split; [apply Hm|]. split; [apply Hm|]. intros k e Hin. apply dput_in in Hin; [|exact H2].
      destruct Hin as [[-> ->]|[Hne Hin]].
      * exists eps, []. split; [reflexivity|]. split; [exact Hx|]. split; [reflexivity|]. intros y [].
      * apply speaks_more; [auto|]. intros _. congruence.
    + split; [apply mo_other; assumption|]. split; [exact H2|]. intros k e Hin. apply speaks_more; [auto|].
      intros Hs. destruct (Hx Hs).
Qed.

Lemma speaks_in eps m e : speaks eps m e -> In e eps /\ supported e.
Proof. intros (a & b & -> & Hs & _). split; [apply in_elt|exact Hs]. Qed.

Lemma load_one_spec e : ~ exits e -> exists ms, load_one e = Some ms /\ gives e ms.
Proof.
  intros Hx. unfold load_one. destruct (e_acts e) as [[x|]| |[x|]| |l [[x|]|]] eqn:E;
    try (exfalso; apply Hx; unfold exits; eauto; fail);
    try (eexists; split; [reflexivity|]; apply gi_bad; intros (l' & E'); congruence).
  eexists. split; [reflexivity|]. eapply gi_good; [exact E|reflexivity].
Qed.

Lemma load_each_spec (Q : list pystr -> Prop) (d : list (pystr * entry)) : (forall e, In e (map snd d) -> ~ exits e) ->
  (forall s e, In e (map snd d) -> Q s -> Q (e_brings e ++ s)) -> forall s, Q s ->
  exists s' mss, load_each s d = (s', Some (concat mss)) /\ Forall2 gives (map snd d) mss /\ Q s'.
Proof.
  induction d as [|[k e] d IH]; cbn [map snd load_each]; intros Hx HQ s Hs.
  - exists s, []. split; [reflexivity|]. split; [constructor|exact Hs].
  - destruct (load_one_spec e) as (ms & E & Hg); [apply Hx; left; reflexivity|]. rewrite E.
    destruct (IH (fun x Hi => Hx x (or_intror Hi)) (fun s x Hi => HQ s x (or_intror Hi)) (e_brings e ++ s)) as (s' & mss & E' & F & Hs').
    { apply HQ; [left; reflexivity|exact Hs]. }
    rewrite E'. exists s', (ms :: mss). split; [reflexivity|]. split; [constructor; assumption|exact Hs'].
Qed.

Lemma load_spec env sys0 s eps : no_exit eps ->
  (forall e k, In e eps -> In k (e_brings e) -> In k sys0 \/ importable env k = true) -> msys env sys0 s ->
  exists s' ms, load_versions s eps supported_versions = (s', Some ms) /\ plugin_marshallers eps ms /\ msys env sys0 s'.
Proof.
  intros Hn Hb Hs. destruct (plugin_dict_spec eps) as (H1 & H2 & H3). cbn zeta in *.
  cbn [load_versions supported_versions].
  assert (Hin : forall e, In e (map snd (plugin_dict (lit "1.0") eps)) -> In e eps /\ supported e).
  { intros e He. apply in_map_iff in He. destruct He as ([k e'] & <- & He). eapply speaks_in, H3, He. }
  destruct (load_each_spec (msys env sys0) (plugin_dict (lit "1.0") eps)) with (s := s) as (s' & mss & E & F & Hs'); [| |exact Hs|].
  - intros e He. apply Hin in He. apply Hn; apply He.
  - intros s1 e He Hs1. apply Hin in He. apply msys_more; [exact Hs1|]. intros k Hk. eapply Hb; [apply He|exact Hk].
  - rewrite E. cbn [option_map]. rewrite app_nil_r. exists s', (concat mss). split; [reflexivity|].
    split; [|exact Hs']. exists (map fst (plugin_dict (lit "1.0") eps)), (map snd (plugin_dict (lit "1.0") eps)), mss.
    split; [exact H1|]. split; [|split; [exact F|reflexivity]].
    clear - H3. induction (plugin_dict (lit "1.0") eps) as [|[k e] d IH]; [constructor|]. constructor.
    + apply H3. left. reflexivity.
    + apply IH. intros k' e' Hi. apply H3. right. exact Hi.
Qed.

(** the specification determines the list *)
Lemma modules_fun eps : forall a b, modules eps a -> modules eps b -> a = b.
Proof.
  induction eps as [|x eps IH] using rev_ind; intros a b Ha Hb.
  - assert (N : forall m, modules [] m -> m = []).
    { intros m Hm. inversion Hm; try reflexivity; destruct eps; discriminate. }
    rewrite (N a Ha), (N b Hb). reflexivity.
  - assert (Inv : forall m, modules (eps ++ [x]) m -> exists m0, modules eps m0 /\
       ((supported x /\ ~ In (e_module x) m0 /\ m = m0 ++ [e_module x]) \/
        (supported x /\ In (e_module x) m0 /\ m = m0) \/ (~ supported x /\ m = m0))).
    { intros m Hm. inversion Hm as [E|? ? e H1 H2 H3 E|? ? e H1 H2 H3 E|? ? e H1 H2 E];
        try (apply app_inj_tail in E; destruct E as [<- <-]); eauto 8.
      destruct eps; discriminate. }
    destruct (Inv a Ha) as (a0 & A0 & A). destruct (Inv b Hb) as (b0 & B0 & B).
    rewrite (IH _ _ A0 B0) in *. intuition congruence.
Qed.

Lemma app_suffix {A} (a b c d : list A) (x y : A) : a ++ x :: b = c ++ y :: d ->
  (b = d /\ x = y) \/ (In y b) \/ (In x d).
Proof.
  revert c. induction a as [|z a IH]; intros [|w c] H; cbn [app] in H.
  - inversion H. auto.
  - inversion H; subst. right. left. apply in_elt.
  - inversion H; subst. right. right. apply in_elt.
  - inversion H. apply IH in H2. exact H2.
Qed.

Lemma speaks_fun eps m e e' : speaks eps m e -> speaks eps m e' -> e = e'.
Proof.
  intros (a & b & E & Hs & Hm & Hl) (c & d & E' & Hs' & Hm' & Hl'). rewrite E in E'.
  apply app_suffix in E'. destruct E' as [[_ ->]|[H|H]]; [reflexivity| |].
  - destruct (Hl e' H Hs' Hm').
  - destruct (Hl' e H Hs Hm).
Qed.

Lemma gives_fun e a b : gives e a -> gives e b -> a = b.
Proof.
  intros [l ms E ->|H] [l' ms' E' ->|H']; try reflexivity.
  - rewrite E in E'. congruence.
  - destruct H'. exists l. exact E.
  - destruct H. exists l'. exact E'.
Qed.

Lemma F2_fun {A B} (P : A -> B -> Prop) : (forall a b c, P a b -> P a c -> b = c) ->
  forall l m n, Forall2 P l m -> Forall2 P l n -> m = n.
Proof.
  intros HP. induction l as [|a l IH]; intros m n H1 H2; inversion H1; inversion H2; subst; [reflexivity|].
  f_equal; eauto.
Qed.

Lemma plugin_marshallers_fun eps a b : plugin_marshallers eps a -> plugin_marshallers eps b -> a = b.
Proof.
  intros (m & es & mss & H1 & H2 & H3 & ->) (m' & es' & mss' & H1' & H2' & H3' & ->).
  rewrite (modules_fun _ _ _ H1 H1') in *. rewrite (F2_fun _ (speaks_fun eps) _ _ _ H2 H2') in *.
  rewrite (F2_fun _ gives_fun _ _ _ H3 H3'). reflexivity.
Qed.

(** ** the constructor *)
Section WithEnv.
Variable info : mid -> minfo.
Variable env : pyenv.
Variable sys0 : list pystr.
Hypothesis Hcoh : coherent env sys0.

Lemma R_sys prio b p s s' c sp : R info env sys0 prio b p (s, c) sp -> msys env sys0 s' -> R info env sys0 prio b p (s', c) sp.
Proof. intros (_ & H) Hs. split; assumption. Qed.

Lemma all_strs_map l : all_strs (map PEStr l) = Some l.
Proof. induction l as [|s l IH]; [reflexivity|]. cbn [map all_strs]. rewrite IH. reflexivity. Qed.
Lemma all_strs_inv l ps : all_strs l = Some ps -> l = map PEStr ps.
Proof.
  revert ps. induction l as [|[s|z] l IH]; intros ps H; cbn [all_strs] in H; [inversion H; reflexivity| |discriminate].
  destruct (all_strs l) as [r|]; [|discriminate]. cbn [option_map] in H. inversion H. cbn [map]. f_equal. auto.
Qed.

Lemma no_none (l : list mid) : existsb (fun x : option mid => match x with None => true | _ => false end) (map Some l) = false.
Proof. induction l as [|m l IH]; [reflexivity|exact IH]. Qed.
Lemma no_none_inv l : existsb (fun x : option mid => match x with None => true | _ => false end) l = false -> exists u, l = map Some u.
Proof.
  induction l as [|[m|] l IH]; cbn [existsb orb]; intros H; [exists []; reflexivity| |discriminate].
  destruct (IH H) as (u & ->). exists (m :: u). reflexivity.
Qed.

Definition start (user : list mid) : spec_state :=
  {| s_user := spec_add [] (map Some user); s_visible := spec_add [] (map Some user) |}.

Lemma load_any s load eps : (load = true -> no_exit eps /\
    forall e k, In e eps -> In k (e_brings e) -> In k sys0 \/ importable env k = true) -> msys env sys0 s ->
  exists s' plug, (if load then load_versions s eps supported_versions else (s, Some [])) = (s', Some plug) /\
    loaded load eps plug /\ msys env sys0 s'.
Proof.
  intros Ht Hs. destruct load.
  - destruct (Ht eq_refl) as [H1 H2]. exact (load_spec env sys0 s eps H1 H2 Hs).
  - exists s, []. split; [reflexivity|]. split; [reflexivity|exact Hs].
Qed.

Lemma construct_good s a r load prio user : msys env sys0 s -> good_args a load prio user ->
  tame_around env sys0 (a_load a) r ->
  exists s' c plug, construct info env s a r = (s', BColl c) /\ loaded load (r_entries r) plug /\
    R info env sys0 prio (r_builtin r) plug (s', c) (start user).
Proof.
  intros Hs [G1 G2 G3 G4 G5] Ht. unfold construct. rewrite G1, G3. destruct (a_lazy a) as [lazy|]; [|congruence].
  rewrite map_length, all_strs_map.
  assert (El : length prio = 3%nat) by (apply Permutation_length in G4; exact G4). rewrite El. cbn [Nat.eqb negb].
  assert (Es : eqb_strs (sorted prio) (sorted [lit "builtin"; lit "plugin"; lit "user"]) = true).
  { apply eqb_strs_eq, sorted_eq_perm. exact G4. }
  rewrite Es. cbn [negb].
  destruct (load_any s load (r_entries r)) as (s1 & plug & E & Hl & Hs1); [|exact Hs|].
  { intros ->. apply Ht. exact G1. }
  rewrite E.
  assert (Eu : as_list (a_marshallers a) = map Some user) by (destruct G5 as [->|(m & -> & ->)]; reflexivity).
  rewrite Eu. pose proof (create_from info env sys0 s1 (r_builtin r) plug lazy prio (map Some user) Hcoh Hs1) as H.
  rewrite no_none in H. destruct H as [H _]. destruct (H G4) as ([s' c] & Ec & HR & _). rewrite Ec.
  exists s', c, plug. auto.
Qed.

Lemma construct_bad s a r : msys env sys0 s -> tame_around env sys0 (a_load a) r ->
  (forall load prio user, ~ good_args a load prio user) ->
  exists s' e, construct info env s a r = (s', BErr e) /\ (e = TypeError \/ e = ValueError) /\ msys env sys0 s'.
Proof.
  intros Hs Ht Hb. unfold construct.
  destruct (a_load a) as [load|] eqn:E1; [|exists s, TypeError; auto].
  destruct (a_lazy a) as [lazy|] eqn:E2; [|exists s, TypeError; auto].
  destruct (a_priority a) as [prio|] eqn:E3; [|exists s, TypeError; auto].
  destruct (Nat.eqb (length prio) 3); cbn [negb]; [|exists s, ValueError; auto].
  destruct (all_strs prio) as [ps|] eqn:E4; [|destruct (all_ints prio); eexists _, _; (split; [reflexivity|]); auto].
  destruct (eqb_strs _ _) eqn:E5; cbn [negb]; [|exists s, ValueError; auto].
  apply eqb_strs_eq, sorted_eq_perm in E5.
  destruct (load_any s load (r_entries r)) as (s1 & plug & E & Hl & Hs1); [|exact Hs|].
  { intros ->. apply Ht. reflexivity. }
  rewrite E. pose proof (create_from info env sys0 s1 (r_builtin r) plug lazy ps (as_list (a_marshallers a)) Hcoh Hs1) as H.
  destruct (existsb _ (as_list (a_marshallers a))) eqn:Eu.
  - destruct H as [-> | ->]; eexists _, _; (split; [reflexivity|]); auto.
  - exfalso. apply no_none_inv in Eu. destruct Eu as (u & Eu). apply (Hb load ps u). constructor.
    + exact E1.
    + congruence.
    + rewrite E3. f_equal. apply all_strs_inv. exact E4.
    + exact E5.
    + destruct (a_marshallers a) as [m|l]; cbn [as_list] in Eu; [|left; f_equal; exact Eu].
      destruct u as [|x [|]]; try discriminate. inversion Eu. right. exists x. auto.
Qed.

Lemma good_or_not a : (exists load prio user, good_args a load prio user) \/ (forall load prio user, ~ good_args a load prio user).
Proof.
  destruct (a_load a) as [load|] eqn:E1; [|right; intros l p u [H]; congruence].
  destruct (a_lazy a) as [lazy|] eqn:E2; [|right; intros l p u [_ H]; congruence].
  destruct (a_priority a) as [prio|] eqn:E3; [|right; intros l p u [_ _ H]; congruence].
  destruct (all_strs prio) as [ps|] eqn:E4.
  2:{ right. intros l p u [_ _ H _]. rewrite E3 in H. inversion H; subst. rewrite all_strs_map in E4. discriminate. }
  destruct (eqb_strs (sorted ps) (sorted three_names)) eqn:E5.
  2:{ right. intros l p u [_ _ H P]. rewrite E3 in H. inversion H; subst. rewrite all_strs_map in E4. inversion E4; subst.
      apply sorted_eq_perm, eqb_strs_eq in P. congruence. }
  apply eqb_strs_eq, sorted_eq_perm in E5.
  destruct (existsb (fun x : option mid => match x with None => true | _ => false end) (as_list (a_marshallers a))) eqn:Eu.
  - right. intros l p u [_ _ _ _ H].
    assert (Eu' : as_list (a_marshallers a) = map Some u) by (destruct H as [->|(m & -> & ->)]; reflexivity).
    rewrite Eu', no_none in Eu. discriminate.
  - left. apply no_none_inv in Eu. destruct Eu as (u & Eu). exists load, ps, u. constructor; auto; [congruence| |].
    + rewrite E3. f_equal. apply all_strs_inv. exact E4.
    + destruct (a_marshallers a) as [m|l]; cbn [as_list] in Eu; [|left; f_equal; exact Eu].
      destruct u as [|x [|]]; try discriminate. inversion Eu. right. exists x. auto.
Qed.

(** ** the invariant of the module *)
Definition knows (g : gstate) (c : nat) (prio : list pystr) (b p : list mid) (sp : spec_state) : Prop :=
  Permutation prio three_names /\ exists x, nth_error (g_colls g) c = Some x /\ R info env sys0 prio b p (g_sys g, x) sp.

Record ginv (g : gstate) : Prop := {
  gi_sys : msys env sys0 (g_sys g);
  gi_colls : forall c, (c < length (g_colls g))%nat -> exists prio b p sp, knows g c prio b p sp;
  gi_default : exists d, g_default g = [d] /\ (d < length (g_colls g))%nat;
  gi_opts : forall k b, nth_error (g_opts g) k = Some b -> (b_coll b < length (g_colls g))%nat;
  gi_names : forall k, In k (g_names g) -> (k < length (g_opts g))%nat;
  gi_files : forall k, In k (g_files g) -> (k < length (g_opts g))%nat;
  gi_apart : forall k, In k (g_names g) -> ~ In k (g_files g);
  gi_ndn : NoDup (g_names g) }.

Lemma set_nth_len {A} i (x : A) l : length (set_nth i x l) = length l.
Proof.
  unfold set_nth. rewrite app_length, firstn_length. pose proof (skipn_length i l) as H.
  destruct (skipn i l) as [|y r]; cbn [length] in *; lia.
Qed.
Lemma set_nth_nth {A} i (x : A) l j : nth_error (set_nth i x l) j =
  if Nat.eqb j i then (if Nat.ltb i (length l) then Some x else None) else nth_error l j.
Proof.
  revert i j. unfold set_nth. induction l as [|y l IH]; intros [|i] [|j]; cbn [firstn skipn app nth_error length Nat.eqb].
  - reflexivity.
  - reflexivity.
  - reflexivity.
  - destruct (Nat.eqb j i); reflexivity.
  - reflexivity.
  - reflexivity.
  - reflexivity.
  - rewrite IH. reflexivity.
Qed.

Definition same_rest (g g' : gstate) : Prop :=
  g_default g' = g_default g /\ g_opts g' = g_opts g /\ g_names g' = g_names g /\ g_files g' = g_files g.

(** collections change by a method call *)
Lemma on_coll_spec g c op g' out : ginv g -> on_coll info env g c op = (g', out) ->
  same_rest g g' /\ length (g_colls g') = length (g_colls g) /\ msys env sys0 (g_sys g') /\
  (forall c0 prio b p sp, knows g c0 prio b p sp -> knows g' c0 prio b p (spec_run sp (uses c0 [OColl c op]))) /\
  (forall prio b p sp, knows g c prio b p sp -> exists o, out = GLook o /\ spec_out info env sys0 prio b p sp op o).
Proof.
  intros HI H. unfold on_coll in H. destruct (nth_error (g_colls g) c) as [x|] eqn:Ex.
  2:{ inversion H; subst. split; [repeat split|]. split; [reflexivity|]. split; [apply HI|]. split.
      - intros c0 prio b p sp (P & x & Hx & HR). cbn [uses]. destruct (Nat.eqb_spec c c0) as [<-|Hne]; [congruence|].
        split; [exact P|]. exists x. auto.
      - intros prio b p sp (P & x & Hx & _). congruence. }
  assert (Hlt : (c < length (g_colls g))%nat) by (apply nth_error_Some; congruence).
  assert (Hstep : forall prio b p sp, knows g c prio b p sp -> exists s' x' o, step info env (g_sys g, x) op = (s', x', o) /\
     R info env sys0 prio b p (s', x') (spec_step sp op) /\ spec_out info env sys0 prio b p sp op o).
  { intros prio b p sp (P & y & Hy & HR). assert (y = x) by congruence. subst y.
    destruct (step_spec info env sys0 Hcoh prio b p) with (st := (g_sys g, x)) (s := sp) (op := op) as ([s' x'] & o & E & A & B).
    - intros v Hv. rewrite <- P. exact Hv.
    - exact HR.
    - exists s', x', o. auto. }
  destruct (step info env (g_sys g, x) op) as [[s' x'] o] eqn:Es.
  inversion H; subst. cbn [with_colls g_colls g_sys]. split; [repeat split|].
  split; [apply set_nth_len|].
  destruct (gi_colls g HI c Hlt) as (prio0 & b0 & p0 & sp0 & K0).
  destruct (Hstep _ _ _ _ K0) as (s1 & x1 & o1 & E1 & HR1 & _). inversion E1; subst s1 x1 o1.
  assert (Hs : msys env sys0 s') by apply HR1. split; [exact Hs|]. split.
  - intros c0 prio b p sp K. cbn [uses]. pose proof K as (P & y & Hy & HR). split; [exact P|].
    cbn [with_colls g_colls g_sys]. rewrite set_nth_nth. rewrite (Nat.eqb_sym c c0). destruct (Nat.eqb_spec c0 c) as [->|Hne].
    + apply Nat.ltb_lt in Hlt. rewrite Hlt. exists x'. split; [reflexivity|].
      destruct (Hstep _ _ _ _ K) as (s1 & x1 & o1 & E2 & HR2 & _). inversion E2; subst. exact HR2.
    + exists y. split; [exact Hy|]. exact (R_sys _ _ _ _ _ _ _ HR Hs).
  - intros prio b p sp K. destruct (Hstep _ _ _ _ K) as (s1 & x1 & o1 & E2 & _ & Ho). inversion E2; subst.
    exists o1. auto.
Qed.

(** a new collection *)
Lemma new_coll_spec g a r g' out : msys env sys0 (g_sys g) -> tame_around env sys0 (a_load a) r ->
  new_coll info env g a r = (g', out) -> same_rest g g' /\ msys env sys0 (g_sys g') /\
  (forall c prio b p sp, knows g c prio b p sp -> knows g' c prio b p sp) /\
  ((exists load prio user plug, good_args a load prio user /\ loaded load (r_entries r) plug /\
      out = GColl (length (g_colls g)) /\ length (g_colls g') = S (length (g_colls g)) /\
      knows g' (length (g_colls g)) prio (r_builtin r) plug (start user)) \/
   ((forall load prio user, ~ good_args a load prio user) /\ g_colls g' = g_colls g /\
    (out = GErr TypeError \/ out = GErr ValueError))).
Proof.
  intros Hs Ht H. unfold new_coll in H. destruct (good_or_not a) as [(load & prio & user & G)|Hb].
  - destruct (construct_good (g_sys g) a r load prio user Hs G Ht) as (s' & c & plug & E & Hl & HR). rewrite E in H.
    inversion H; subst. cbn [with_colls g_colls g_sys]. split; [repeat split|].
    assert (Hs' : msys env sys0 s') by apply HR. split; [exact Hs'|]. split.
    + intros c0 prio0 b0 p0 sp0 (P & x & Hx & HR0). split; [exact P|]. exists x. cbn [with_colls g_colls g_sys].
      split; [|exact (R_sys _ _ _ _ _ _ _ HR0 Hs')]. rewrite nth_error_app1; [exact Hx|]. apply nth_error_Some. congruence.
    + left. exists load, prio, user, plug. split; [exact G|]. split; [exact Hl|]. split; [reflexivity|].
      split; [rewrite app_length; cbn [length]; lia|]. split; [apply G|]. exists c. cbn [with_colls g_colls g_sys].
      split; [|exact HR]. rewrite nth_error_app2 by lia. rewrite Nat.sub_diag. reflexivity.
  - destruct (construct_bad (g_sys g) a r Hs Ht Hb) as (s' & e & E & He & Hs'). rewrite E in H.
    inversion H; subst. cbn [with_sys g_colls g_sys]. split; [repeat split|]. split; [exact Hs'|]. split.
    + intros c0 prio0 b0 p0 sp0 (P & x & Hx & HR0). split; [exact P|]. exists x. split; [exact Hx|].
      exact (R_sys _ _ _ _ _ _ _ HR0 Hs').
    + right. split; [exact Hb|]. split; [reflexivity|]. destruct He as [-> | ->]; auto.
Qed.

Lemma knows_lt g c prio b p sp : knows g c prio b p sp -> (c < length (g_colls g))%nat.
Proof. intros (_ & x & Hx & _). apply nth_error_Some. congruence. Qed.

(** what does not touch the collections *)
Lemma knows_eq g g' c prio b p sp : g_sys g' = g_sys g -> g_colls g' = g_colls g ->
  knows g c prio b p sp -> knows g' c prio b p sp.
Proof. unfold knows. intros -> ->. auto. Qed.

Lemma ginv_same g g' : ginv g -> same_rest g g' -> msys env sys0 (g_sys g') ->
  (length (g_colls g) <= length (g_colls g'))%nat ->
  (forall c, (c < length (g_colls g'))%nat -> exists prio b p sp, knows g' c prio b p sp) -> ginv g'.
Proof.
  intros [I1 I2 I3 I4 I5 I6 I7 I8] (E1 & E2 & E3 & E4) Hs Hl Hk. constructor; rewrite ?E1, ?E2, ?E3, ?E4; auto.
  - destruct I3 as (d & Hd & Hlt). exists d. split; [exact Hd|lia].
  - intros k b Hb. apply I4 in Hb. lia.
Qed.

Lemma opt_of_spec g o k b : opt_of g o = Some (k, b) ->
  nth_error (g_names g) o = Some k /\ nth_error (g_opts g) k = Some b.
Proof.
  unfold opt_of. destruct (nth_error (g_names g) o) as [k0|]; [|discriminate].
  destruct (nth_error (g_opts g) k0) as [b0|] eqn:E; [|discriminate]. cbn [option_map]. intros H. inversion H; subst. auto.
Qed.
Lemma file_opt_spec g f k b : file_opt g f = Some (k, b) ->
  nth_error (g_files g) f = Some k /\ nth_error (g_opts g) k = Some b.
Proof.
  unfold file_opt. destruct (nth_error (g_files g) f) as [k0|]; [|discriminate].
  destruct (nth_error (g_opts g) k0) as [b0|] eqn:E; [|discriminate]. cbn [option_map]. intros H. inversion H; subst. auto.
Qed.

(** setting an attribute of an Options object *)
Lemma ginv_set g k b : ginv g -> (b_coll b < length (g_colls g))%nat -> ginv (with_opts g (set_nth k b (g_opts g))).
Proof.
  intros [I1 I2 I3 I4 I5 I6 I7 I8] Hb. constructor; cbn [with_opts g_sys g_colls g_default g_opts g_names g_files]; auto.
  - intros j y. rewrite set_nth_nth. destruct (Nat.eqb j k); [|apply I4]. destruct (Nat.ltb k (length (g_opts g))); [|discriminate].
    intros E. inversion E; subst. exact Hb.
  - intros j Hj. rewrite set_nth_len. auto.
  - intros j Hj. rewrite set_nth_len. auto.
Qed.

(** a new Options object, held by the user or by a File *)
Lemma ginv_new g b (file : bool) : ginv g -> (b_coll b < length (g_colls g))%nat ->
  ginv {| g_sys := g_sys g; g_colls := g_colls g; g_default := g_default g; g_opts := g_opts g ++ [b];
          g_names := if file then g_names g else g_names g ++ [length (g_opts g)];
          g_files := if file then g_files g ++ [length (g_opts g)] else g_files g |}.
Proof.
  intros [I1 I2 I3 I4 I5 I6 I7 I8] Hb. constructor; cbn [g_sys g_colls g_default g_opts g_names g_files]; auto.
  - intros j y Hj. destruct (Nat.lt_ge_cases j (length (g_opts g))) as [H|H].
    + rewrite nth_error_app1 in Hj by exact H. eauto.
    + rewrite nth_error_app2 in Hj by exact H. destruct (j - length (g_opts g))%nat as [|[|]]; cbn in Hj; try discriminate.
      inversion Hj; subst. exact Hb.
  - intros j Hj. rewrite app_length. cbn [length]. destruct file; [apply I5 in Hj; lia|].
    apply in_app_or in Hj. destruct Hj as [Hj|[<-|[]]]; [apply I5 in Hj; lia|lia].
  - intros j Hj. rewrite app_length. cbn [length]. destruct file; [|apply I6 in Hj; lia].
    apply in_app_or in Hj. destruct Hj as [Hj|[<-|[]]]; [apply I6 in Hj; lia|lia].
  - intros j Hj Hf. destruct file.
    + apply in_app_or in Hf. destruct Hf as [Hf|[<-|[]]]; [exact (I7 j Hj Hf)|apply I5 in Hj; lia].
    + apply in_app_or in Hj. destruct Hj as [Hj|[<-|[]]]; [exact (I7 j Hj Hf)|apply I6 in Hf; lia].
  - destruct file; [exact I8|]. apply NoDup_Add with (1 := Add_app (length (g_opts g)) (g_names g) []).
    rewrite app_nil_r. split; [exact I8|]. intros H. apply I5 in H. lia.
Qed.

Lemma is_coll_lt g mc c : is_coll g mc = Some c -> mc = Some c /\ (c < length (g_colls g))%nat.
Proof.
  unfold is_coll. destruct mc as [k|]; [|discriminate]. destruct (Nat.ltb_spec k (length (g_colls g))) as [H|H]; [|discriminate].
  intros E. inversion E; subst. auto.
Qed.

Lemma new_options_spec g args mc g' x : ginv g -> new_options g args mc = (g', x) ->
  match x with
  | Some e => g' = g /\ exists y, e = GErr y
  | None => exists o c, init args = Ok o /\ g' = with_opts g (g_opts g ++ [{| b_opts := o; b_coll := c |}]) /\
      (c < length (g_colls g))%nat /\
      ((mc = Some c) \/ (is_coll g mc = None /\ get_default g = Some c))
  end.
Proof.
  intros HI. unfold new_options. destruct (init args) as [o|e]; [|intros H; inversion H; subst; split; [reflexivity|eauto]].
  destruct (is_coll g mc) as [c|] eqn:E.
  - apply is_coll_lt in E. intros H. inversion H; subst. exists o, c. destruct E as [E1 E2]. split; [reflexivity|]. split; [reflexivity|]. auto.
  - destruct (gi_default g HI) as (d & Hd & Hlt). unfold get_default. rewrite Hd. cbn [nth_error].
    intros H. inversion H; subst. exists o, d. split; [reflexivity|]. split; [reflexivity|]. auto.
Qed.

Lemma gstep_spec g op g' out : ginv g -> tame env sys0 op -> gstep info env g op = (g', out) ->
  ginv g' /\ forall c prio b p sp, knows g c prio b p sp -> knows g' c prio b p (spec_run sp (uses c [op])).
Proof.
  intros HI Ht H.
  assert (Knew : forall a r g1 o1, tame_around env sys0 (a_load a) r -> new_coll info env g a r = (g1, o1) ->
     ginv g1 /\ (forall c prio b p sp, knows g c prio b p sp -> knows g1 c prio b p sp)).
  { intros a r g1 o1 Hta E. destruct (new_coll_spec g a r g1 o1 (gi_sys g HI) Hta E) as (S1 & S2 & S3 & S4).
    split; [|exact S3]. apply (ginv_same g g1 HI S1 S2).
    - destruct S4 as [(? & ? & ? & ? & _ & _ & _ & El & _)|(_ & El & _)]; rewrite El; lia.
    - intros c Hc. destruct (Nat.lt_ge_cases c (length (g_colls g))) as [Hlt|Hge].
      + destruct (gi_colls g HI c Hlt) as (prio & b & p & sp & K). exists prio, b, p, sp. auto.
      + destruct S4 as [(load & prio & user & plug & _ & _ & _ & El & K)|(_ & El & _)]; [|rewrite El in Hc; lia].
        assert (c = length (g_colls g)) by lia. subst c. eauto. }
  assert (Kon : forall c op0 g1 o1, on_coll info env g c op0 = (g1, o1) -> ginv g1 /\
     (forall c0 prio b p sp, knows g c0 prio b p sp -> knows g1 c0 prio b p (spec_run sp (uses c0 [OColl c op0])))).
  { intros c op0 g1 o1 E. destruct (on_coll_spec g c op0 g1 o1 HI E) as (S1 & S2 & S3 & S4 & _).
    split; [|exact S4]. apply (ginv_same g g1 HI S1 S3); [lia|]. intros c0 Hc. rewrite S2 in Hc.
    destruct (gi_colls g HI c0 Hc) as (prio & b & p & sp & K). eauto 8. }
  assert (Ksame : forall g1, g_sys g1 = g_sys g -> g_colls g1 = g_colls g ->
     forall c prio b p sp, knows g c prio b p sp -> knows g1 c prio b p sp).
  { intros g1 E1 E2 c prio b p sp. apply knows_eq; assumption. }
  assert (Knop : forall c prio b p sp, knows g c prio b p sp -> knows g c prio b p sp) by auto.
  destruct op as [a r|a r| |c op0|args mc|o n v|o n|o mc|o|o|args mc|f n|f op0]; cbn [gstep tame] in *.
  - destruct (Knew a r g' out Ht H) as [A B]. split; [exact A|]. intros c prio b p sp K. exact (B c prio b p sp K).
  - destruct (new_coll info env g a r) as [g1 o1] eqn:E. destruct (Knew a r g1 o1 Ht E) as [A B].
    destruct (new_coll_spec g a r g1 o1 (gi_sys g HI) Ht E) as (_ & _ & _ & S4).
    destruct S4 as [(load & prio & user & plug & _ & _ & -> & El & K)|(_ & _ & S4)].
    + inversion H; subst. destruct (gi_default g1 A) as (d & Hd & _). rewrite Hd. split.
      * destruct A as [I1 I2 I3 I4 I5 I6 I7 I8]. constructor; cbn [with_default g_sys g_colls g_default g_opts g_names g_files]; auto.
        exists (length (g_colls g)). split; [reflexivity|lia].
      * intros c prio0 b p sp K0. apply (knows_eq g1); [reflexivity|reflexivity|]. exact (B c prio0 b p sp K0).
    + assert (H' : (g1, o1) = (g', out)) by (destruct S4 as [-> | ->]; exact H). inversion H'; subst. split; [exact A|].
      intros c prio b p sp K. exact (B c prio b p sp K).
  - inversion H; subst. split; [exact HI|exact Knop].
  - exact (Kon c op0 g' out H).
  - destruct (new_options g args mc) as [g1 x] eqn:E. pose proof (new_options_spec g args mc g1 x HI E) as S. destruct x as [e|].
    + destruct S as [-> _]. inversion H; subst. split; [exact HI|exact Knop].
    + destruct S as (o & c & _ & -> & Hc & _). inversion H; subst. split.
      * exact (ginv_new g {| b_opts := o; b_coll := c |} false HI Hc).
      * intros c0 prio b p sp K. apply (knows_eq g); [reflexivity|reflexivity|exact K].
  - destruct (opt_of g o) as [[k b]|] eqn:Eo; [|inversion H; subst; split; [exact HI|exact Knop]].
    apply opt_of_spec in Eo. destruct Eo as [_ Eb].
    destruct (set (b_opts b) n v) as [o'|e]; inversion H; subst; [|split; [exact HI|exact Knop]]. split.
    + apply ginv_set; [exact HI|]. exact (gi_opts g HI k b Eb).
    + intros c0 prio b0 p sp K. apply (knows_eq g); [reflexivity|reflexivity|exact K].
  - inversion H; subst. split; [exact HI|exact Knop].
  - destruct (opt_of g o) as [[k b]|] eqn:Eo; [|inversion H; subst; split; [exact HI|exact Knop]].
    destruct (is_coll g mc) as [c|] eqn:Ec; inversion H; subst; [|split; [exact HI|exact Knop]].
    apply is_coll_lt in Ec. split.
    + apply ginv_set; [exact HI|]. apply Ec.
    + intros c0 prio b0 p sp K. apply (knows_eq g); [reflexivity|reflexivity|exact K].
  - inversion H; subst. split; [exact HI|exact Knop].
  - destruct (opt_of g o) as [[k b]|] eqn:Eo; [|inversion H; subst; split; [exact HI|exact Knop]].
    apply opt_of_spec in Eo. destruct Eo as [_ Eb]. inversion H; subst. split.
    + exact (ginv_new g b true HI (gi_opts g HI k b Eb)).
    + intros c0 prio b0 p sp K. apply (knows_eq g); [reflexivity|reflexivity|exact K].
  - destruct (new_options g args mc) as [g1 x] eqn:E. pose proof (new_options_spec g args mc g1 x HI E) as S. destruct x as [e|].
    + destruct S as [-> _]. inversion H; subst. split; [exact HI|exact Knop].
    + destruct S as (o & c & _ & -> & Hc & _). inversion H; subst. split.
      * exact (ginv_new g {| b_opts := o; b_coll := c |} true HI Hc).
      * intros c0 prio b p sp K. apply (knows_eq g); [reflexivity|reflexivity|exact K].
  - inversion H; subst. split; [exact HI|exact Knop].
  - destruct (file_opt g f) as [[k b]|] eqn:Eo; [|inversion H; subst; split; [exact HI|exact Knop]].
    destruct (is_lookup op0) eqn:El; [|inversion H; subst; split; [exact HI|exact Knop]].
    destruct (Kon (b_coll b) op0 g' out H) as [A B]. split; [exact A|]. intros c prio b0 p sp K.
    specialize (B c prio b0 p sp K). cbn [uses] in B |- *. destruct (Nat.eqb (b_coll b) c); [|exact B].
    destruct op0; try discriminate El; exact B.
Qed.

Lemma import_good : good_args import_args false three_names [].
Proof. constructor; try reflexivity; [discriminate|left; reflexivity]. Qed.

Lemma session_ginv g : session info env sys0 g -> ginv g.
Proof.
  induction 1 as [r g H|g op g' out _ IH Ht H].
  - unfold imported in H. cbn [gstep] in H.
    match type of H with context [new_coll info env ?g0 _ _] => set (g00 := g0) in H end.
    destruct (new_coll info env g00 import_args r) as [g1 o1] eqn:E.
    destruct (new_coll_spec g00 import_args r g1 o1 (msys_refl env sys0)) with (2 := E) as (S1 & S2 & _ & S4).
    { intros A. discriminate A. }
    destruct S4 as [(load & prio & user & plug & _ & _ & -> & El & K)|(B & _)].
    2:{ destruct (B false three_names [] import_good). }
    inversion H; subst. destruct S1 as (D1 & D2 & D3 & D4). rewrite D1. cbn [g_default g00] in *.
    change (length (g_colls g1) = 1%nat) in El. change (knows g1 0 prio (r_builtin r) plug (start user)) in K. constructor; cbn [with_default g_sys g_colls g_default g_opts g_names g_files]; auto.
    + intros c Hc. exists prio, (r_builtin r), plug, (start user). assert (c = 0%nat) by lia. subst c.
      apply (knows_eq g1); [reflexivity|reflexivity|exact K].
    + exists 0%nat. split; [reflexivity|lia].
    + rewrite D2. intros [|k] b; discriminate.
    + rewrite D3. intros k [].
    + rewrite D4. intros k [].
    + rewrite D3. intros k [].
    + rewrite D3. constructor.
  - exact (proj1 (gstep_spec g op g' out IH Ht H)).
Qed.

Lemma grun_session : forall ops g g' os, session info env sys0 g -> Forall (tame env sys0) ops ->
  grun info env g ops = (g', os) -> session info env sys0 g'.
Proof.
  induction ops as [|op ops IH]; intros g g' os Hg Ht H; cbn [grun] in H; [inversion H; subst; exact Hg|].
  inversion Ht; subst. destruct (gstep info env g op) as [g1 o] eqn:E1. destruct (grun info env g1 ops) as [g2 os2] eqn:E2.
  inversion H; subst. eapply IH; [|eassumption|exact E2]. eapply se_call; eauto.
Qed.

Lemma uses_cons c op ops : uses c (op :: ops) = uses c [op] ++ uses c ops.
Proof. destruct op; try reflexivity. cbn [uses]. destruct (Nat.eqb c0 c); reflexivity. Qed.

Lemma grun_knows : forall ops g g' os c prio b p sp, ginv g -> Forall (tame env sys0) ops ->
  grun info env g ops = (g', os) -> knows g c prio b p sp -> knows g' c prio b p (spec_run sp (uses c ops)).
Proof.
  induction ops as [|op ops IH]; intros g g' os c prio b p sp Hg Ht H K; cbn [grun] in H; [inversion H; subst; exact K|].
  inversion Ht; subst. destruct (gstep info env g op) as [g1 o] eqn:E1. destruct (grun info env g1 ops) as [g2 os2] eqn:E2.
  inversion H; subst. destruct (gstep_spec g op g1 o Hg ltac:(assumption) E1) as [I K1].
  rewrite uses_cons. unfold spec_run. rewrite fold_left_app. eapply IH; [exact I|assumption|exact E2|]. apply K1, K.
Qed.

(** what there is after a successful construction *)
Lemma made g a r g1 c : session info env sys0 g -> tame_around env sys0 (a_load a) r ->
  (gstep info env g (ONew a r) = (g1, GColl c) \/
   (gstep info env g (OMakeDefault a r) = (g1, GNone) /\ the_default info env g1 c)) ->
  exists load prio user plug, good_args a load prio user /\ loaded load (r_entries r) plug /\
    knows g1 c prio (r_builtin r) plug (start user) /\ c = length (g_colls g).
Proof.
  intros Hg Ht H. pose proof (session_ginv g Hg) as HI. destruct H as [H|[H D]].
  - cbn [gstep] in H. destruct (new_coll_spec g a r g1 _ (gi_sys g HI) Ht H) as (_ & _ & _ & S4).
    destruct S4 as [(load & prio & user & plug & G & L & E & _ & K)|(_ & _ & [S4|S4])]; try discriminate S4.
    inversion E; subst c. exists load, prio, user, plug. auto.
  - cbn [gstep] in H. destruct (new_coll info env g a r) as [g0 o0] eqn:E0.
    destruct (new_coll_spec g a r g0 o0 (gi_sys g HI) Ht E0) as (S1 & _ & _ & S4).
    destruct S4 as [(load & prio & user & plug & G & L & -> & _ & K)|(_ & _ & [-> | ->])]; try discriminate H.
    inversion H; subst. unfold the_default in D. cbn [gstep snd] in D.
    destruct S1 as (D1 & _). destruct (gi_default g HI) as (d & Hd & _). rewrite D1, Hd in D. cbn in D. inversion D; subst c.
    exists load, prio, user, plug. split; [exact G|]. split; [exact L|]. split; [|reflexivity].
    apply (knows_eq g0); [reflexivity|reflexivity|exact K].
Qed.

Lemma isolated g a r g1 c ops g2 os op : session info env sys0 g -> tame_around env sys0 (a_load a) r ->
  (gstep info env g (ONew a r) = (g1, GColl c) \/
   (gstep info env g (OMakeDefault a r) = (g1, GNone) /\ the_default info env g1 c)) ->
  Forall (tame env sys0) ops -> grun info env g1 ops = (g2, os) ->
  exists load prio user plug out, good_args a load prio user /\ loaded load (r_entries r) plug /\
    snd (gstep info env g2 (OColl c op)) = GLook out /\
    spec_out info env sys0 prio (r_builtin r) plug (spec_run (start user) (uses c ops)) op out.
Proof.
  intros Hg Ht H Hops Hrun. destruct (made g a r g1 c Hg Ht H) as (load & prio & user & plug & G & L & K & _).
  assert (Hg1 : session info env sys0 g1).
  { destruct H as [H|[H _]]; eapply se_call; try exact H; eauto. }
  pose proof (session_ginv g1 Hg1) as I1.
  pose proof (grun_knows ops g1 g2 os c _ _ _ _ I1 Hops Hrun K) as K2.
  pose proof (session_ginv g2 (grun_session ops g1 g2 os Hg1 Hops Hrun)) as I2.
  destruct (gstep info env g2 (OColl c op)) as [g3 o3] eqn:E. cbn [gstep] in E.
  destruct (on_coll_spec g2 c op g3 o3 I2 E) as (_ & _ & _ & _ & S). destruct (S _ _ _ _ K2) as (out & -> & Ho).
  exists load, prio, user, plug, out. auto.
Qed.

Lemma new_ok_iff g a r : session info env sys0 g -> tame_around env sys0 (a_load a) r ->
  ((exists c, snd (gstep info env g (ONew a r)) = GColl c) <-> exists load prio user, good_args a load prio user) /\
  ((forall c, snd (gstep info env g (ONew a r)) <> GColl c) ->
     snd (gstep info env g (ONew a r)) = GErr TypeError \/ snd (gstep info env g (ONew a r)) = GErr ValueError).
Proof.
  intros Hg Ht. pose proof (session_ginv g Hg) as HI. cbn [gstep]. destruct (new_coll info env g a r) as [g1 o] eqn:E.
  destruct (new_coll_spec g a r g1 o (gi_sys g HI) Ht E) as (_ & _ & _ & S4). cbn [snd].
  destruct S4 as [(load & prio & user & plug & G & _ & -> & _)|(B & _ & S4)].
  - split; [split; eauto|]. intros H. destruct (H _ eq_refl).
  - split; [|intros _; exact S4]. split.
    + intros (c & ->). destruct S4 as [S4|S4]; discriminate S4.
    + intros (load & prio & user & G). destruct (B _ _ _ G).
Qed.

(** the default changes only by a successful make_new_default_marshaller_collection *)
Lemma step_default g op g' out : gstep info env g op = (g', out) ->
  (forall a r, op = OMakeDefault a r -> out <> GNone) -> g_default g' = g_default g.
Proof.
  intros H Hm.
  assert (Kn : forall a r g1 o1, new_coll info env g a r = (g1, o1) -> g_default g1 = g_default g).
  { intros a r g1 o1 E. unfold new_coll in E. destruct (construct _ _ _ _ _) as [s [c|e|]]; inversion E; reflexivity. }
  assert (Ko : forall c op0 g1 o1, on_coll info env g c op0 = (g1, o1) -> g_default g1 = g_default g).
  { intros c op0 g1 o1 E. unfold on_coll in E. destruct (nth_error _ _); [|inversion E; reflexivity].
    destruct (step _ _ _ _) as [[s x] o]; inversion E; reflexivity. }
  assert (Kp : forall args mc g1 x, new_options g args mc = (g1, x) -> g_default g1 = g_default g).
  { intros args mc g1 x E. unfold new_options in E. destruct (init args); [|inversion E; reflexivity].
    destruct (match is_coll g mc with Some c => Some c | None => get_default g end); inversion E; reflexivity. }
  destruct op as [a r|a r| |c op0|args mc|o n v|o n|o mc|o|o|args mc|f n|f op0]; cbn [gstep] in H;
    try (inversion H; subst; reflexivity).
  - eauto.
  - destruct (new_coll info env g a r) as [g1 o1] eqn:E. pose proof (Kn _ _ _ _ E) as E2.
    destruct o1; inversion H; subst; try exact E2. destruct (Hm a r eq_refl eq_refl).
  - eauto.
  - destruct (new_options g args mc) as [g1 [e|]] eqn:E; inversion H; subst; exact (Kp _ _ _ _ E).
  - destruct (opt_of g o) as [[k b]|]; [destruct (set (b_opts b) n v)|]; inversion H; reflexivity.
  - destruct (opt_of g o) as [[k b]|]; [destruct (is_coll g mc)|]; inversion H; reflexivity.
  - destruct (opt_of g o) as [[k b]|]; inversion H; reflexivity.
  - destruct (new_options g args mc) as [g1 [e|]] eqn:E; inversion H; subst; exact (Kp _ _ _ _ E).
  - destruct (file_opt g f) as [[k b]|]; [destruct (is_lookup op0)|]; inversion H; eauto.
Qed.

Lemma run_default : forall ops g g' os, grun info env g ops = (g', os) ->
  (forall i a r, nth_error ops i = Some (OMakeDefault a r) -> nth_error os i <> Some GNone) ->
  g_default g' = g_default g.
Proof.
  induction ops as [|op ops IH]; intros g g' os H Hm; cbn [grun] in H; [inversion H; reflexivity|].
  destruct (gstep info env g op) as [g1 o] eqn:E1. destruct (grun info env g1 ops) as [g2 os2] eqn:E2.
  inversion H; subst. transitivity (g_default g1).
  - apply (IH _ _ _ E2). intros i a r Hi. exact (Hm (S i) a r Hi).
  - apply (step_default g op g1 o E1). intros a r ->. intros ->. exact (Hm 0%nat a r eq_refl eq_refl).
Qed.

(** Options objects: who can change them *)
Definition obj_kept (g g' : gstate) (k : nat) : Prop :=
  forall b, nth_error (g_opts g) k = Some b -> nth_error (g_opts g') k = Some b.

Lemma step_opts g op g' out : ginv g -> gstep info env g op = (g', out) ->
  (forall i k, nth_error (g_names g) i = Some k -> nth_error (g_names g') i = Some k) /\
  (forall i k, nth_error (g_files g) i = Some k -> nth_error (g_files g') i = Some k) /\
  (forall k b, nth_error (g_opts g) k = Some b ->
    (forall i, nth_error (g_names g) i = Some k -> (forall n v, op <> OSet i n v) /\ (forall mc, op <> OSetColl i mc)) ->
    nth_error (g_opts g') k = Some b) /\
  (forall k b, nth_error (g_opts g) k = Some b ->
    (forall i, nth_error (g_names g) i = Some k -> forall c, op <> OSetColl i (Some c)) ->
    exists b', nth_error (g_opts g') k = Some b' /\ b_coll b' = b_coll b).
Proof.
  intros HI H.
  assert (Kn : forall a r g1 o1, new_coll info env g a r = (g1, o1) -> g_opts g1 = g_opts g /\ g_names g1 = g_names g /\ g_files g1 = g_files g).
  { intros a r g1 o1 E. unfold new_coll in E. destruct (construct _ _ _ _ _) as [s [c|e|]]; inversion E; auto. }
  assert (Ko : forall c op0 g1 o1, on_coll info env g c op0 = (g1, o1) -> g_opts g1 = g_opts g /\ g_names g1 = g_names g /\ g_files g1 = g_files g).
  { intros c op0 g1 o1 E. unfold on_coll in E. destruct (nth_error _ _); [|inversion E; auto].
    destruct (step _ _ _ _) as [[s x] o]; inversion E; auto. }
  assert (Same : g_opts g' = g_opts g /\ g_names g' = g_names g /\ g_files g' = g_files g ->
     (forall i k, nth_error (g_names g) i = Some k -> nth_error (g_names g') i = Some k) /\
     (forall i k, nth_error (g_files g) i = Some k -> nth_error (g_files g') i = Some k) /\
     (forall k b, nth_error (g_opts g) k = Some b ->
        (forall i, nth_error (g_names g) i = Some k -> (forall n v, op <> OSet i n v) /\ (forall mc, op <> OSetColl i mc)) ->
        nth_error (g_opts g') k = Some b) /\
     (forall k b, nth_error (g_opts g) k = Some b ->
        (forall i, nth_error (g_names g) i = Some k -> forall c, op <> OSetColl i (Some c)) ->
        exists b', nth_error (g_opts g') k = Some b' /\ b_coll b' = b_coll b)).
  { intros (-> & -> & ->). split; [auto|]. split; [auto|]. split; [auto|]. eauto. }
  assert (Grow : forall {A} (l : list A) x i y, nth_error l i = Some y -> nth_error (l ++ [x]) i = Some y).
  { intros A l x i y Hi. rewrite nth_error_app1; [exact Hi|]. apply nth_error_Some. congruence. }
  destruct op as [a r|a r| |c op0|args mc|o n v|o n|o mc|o|o|args mc|f n|f op0]; cbn [gstep] in H;
    try (inversion H; subst; apply Same; auto; fail).
  - apply Same. eauto.
  - apply Same. destruct (new_coll info env g a r) as [g1 o1] eqn:E. pose proof (Kn _ _ _ _ E) as E2.
    destruct o1; inversion H; subst; exact E2.
  - apply Same. eauto.
  - destruct (new_options g args mc) as [g1 x] eqn:E. pose proof (new_options_spec g args mc g1 x HI E) as S. destruct x as [e|].
    + destruct S as [-> _]. inversion H; subst. apply Same. auto.
    + destruct S as (o & c & _ & -> & Hc & _). inversion H; subst.
      cbn [with_names with_opts g_opts g_names g_files]. split; [auto|]. split; [auto|]. split; eauto 6.
  - destruct (opt_of g o) as [[k b]|] eqn:Eo; [|inversion H; subst; apply Same; auto].
    apply opt_of_spec in Eo. destruct Eo as [En Eb].
    destruct (set (b_opts b) n v) as [o'|e]; inversion H; subst; [|apply Same; auto].
    cbn [with_opts g_opts g_names g_files]. split; [auto|]. split; [auto|]. split.
    + intros k0 b0 Hk Hno. rewrite set_nth_nth. destruct (Nat.eqb_spec k0 k) as [->|]; [|exact Hk].
      destruct (Hno o En) as [Hno1 _]. destruct (Hno1 n v eq_refl).
    + intros k0 b0 Hk _. rewrite set_nth_nth. destruct (Nat.eqb_spec k0 k) as [->|]; [|eauto].
      assert (Hlt : Nat.ltb k (length (g_opts g)) = true) by (apply Nat.ltb_lt, nth_error_Some; congruence). rewrite Hlt.
      eexists. split; [reflexivity|]. cbn [b_coll]. congruence.
  - destruct (opt_of g o) as [[k b]|] eqn:Eo; [|inversion H; subst; apply Same; auto].
    apply opt_of_spec in Eo. destruct Eo as [En Eb].
    destruct (is_coll g mc) as [c|] eqn:Ec; inversion H; subst; [|apply Same; auto].
    apply is_coll_lt in Ec. destruct Ec as [-> _].
    cbn [with_opts g_opts g_names g_files]. split; [auto|]. split; [auto|]. split.
    + intros k0 b0 Hk Hno. rewrite set_nth_nth. destruct (Nat.eqb_spec k0 k) as [->|]; [|exact Hk].
      destruct (Hno o En) as [_ Hno2]. destruct (Hno2 _ eq_refl).
    + intros k0 b0 Hk Hno. rewrite set_nth_nth. destruct (Nat.eqb_spec k0 k) as [->|]; [|eauto].
      destruct (Hno o En c eq_refl).
  - destruct (opt_of g o) as [[k b]|] eqn:Eo; [|inversion H; subst; apply Same; auto].
    inversion H; subst. cbn [with_files with_opts g_opts g_names g_files]. split; [auto|]. split; [auto|]. split; eauto 6.
  - destruct (new_options g args mc) as [g1 x] eqn:E. pose proof (new_options_spec g args mc g1 x HI E) as S. destruct x as [e|].
    + destruct S as [-> _]. inversion H; subst. apply Same. auto.
    + destruct S as (o & c & _ & -> & Hc & _). inversion H; subst.
      cbn [with_files with_opts g_opts g_names g_files]. split; [auto|]. split; [auto|]. split; eauto 6.
  - destruct (file_opt g f) as [[k b]|]; [destruct (is_lookup op0)|]; inversion H; subst; apply Same; eauto.
Qed.

(** the collection an Options object holds *)
Lemma run_held : forall ops g g' os i c, session info env sys0 g -> Forall (tame env sys0) ops ->
  grun info env g ops = (g', os) -> (forall mc, ~ In (OSetColl i (Some mc)) ops) ->
  snd (gstep info env g (OGetColl i)) = GColl c -> snd (gstep info env g' (OGetColl i)) = GColl c.
Proof.
  induction ops as [|op ops IH]; intros g g' os i c Hg Ht H Hno Hc; cbn [grun] in H; [inversion H; subst; exact Hc|].
  inversion Ht; subst. destruct (gstep info env g op) as [g1 o] eqn:E1. destruct (grun info env g1 ops) as [g2 os2] eqn:E2.
  inversion H; subst. apply (IH g1 g' os2); [eapply se_call; eauto|assumption|exact E2| |].
  { intros mc A. exact (Hno mc (or_intror A)). }
  pose proof (session_ginv g Hg) as HI. destruct (step_opts g op g1 o HI E1) as (S1 & _ & _ & S4).
  cbn [gstep snd] in Hc |- *. unfold opt_of in *. destruct (nth_error (g_names g) i) as [k|] eqn:Ei; [|discriminate].
  destruct (nth_error (g_opts g) k) as [b|] eqn:Ek; cbn [option_map] in Hc; [|discriminate].
  rewrite (S1 i k Ei). destruct (S4 k b Ek) as (b' & -> & Eb).
  - intros j Hj c0 ->. assert (j = i).
    { pose proof (gi_ndn g HI) as Hn. rewrite NoDup_nth_error in Hn. apply Hn; [apply nth_error_Some; congruence|congruence]. }
    subst j. exact (Hno c0 (or_introl eq_refl)).
  - cbn [option_map]. rewrite Eb. exact Hc.
Qed.

(** the options of a File never change *)
Lemma run_file : forall ops g g' os f k b, session info env sys0 g -> Forall (tame env sys0) ops ->
  grun info env g ops = (g', os) -> file_opt g f = Some (k, b) -> file_opt g' f = Some (k, b).
Proof.
  induction ops as [|op ops IH]; intros g g' os f k b Hg Ht H Hf; cbn [grun] in H; [inversion H; subst; exact Hf|].
  inversion Ht; subst. destruct (gstep info env g op) as [g1 o] eqn:E1. destruct (grun info env g1 ops) as [g2 os2] eqn:E2.
  inversion H; subst. apply (IH g1 g' os2); [eapply se_call; eauto|assumption|exact E2|].
  pose proof (session_ginv g Hg) as HI. destruct (step_opts g op g1 o HI E1) as (_ & S2 & S3 & _).
  apply file_opt_spec in Hf. destruct Hf as [Hf Hk]. unfold file_opt. rewrite (S2 f k Hf), (S3 k b Hk); [reflexivity|].
  intros i Hi. exfalso. apply (gi_apart g HI k); eapply nth_error_In; eassumption.
Qed.

Lemma spec_out_fun prio b p sp op o o' : spec_out info env sys0 prio b p sp op o -> spec_out info env sys0 prio b p sp op o' -> o = o'.
Proof.
  destruct op as [l|l| |t|k|k]; cbn [spec_out]; try (eapply answer_fun; eassumption); try congruence.
  destruct (existsb _ l); congruence.
Qed.

(** calls that are not about [c] do not change what [c] answers *)
Lemma others g op0 g' out c op : session info env sys0 g -> tame env sys0 op0 -> gstep info env g op0 = (g', out) ->
  (c < length (g_colls g))%nat -> (forall x, op0 = OColl c x -> is_lookup x = true) ->
  snd (gstep info env g' (OColl c op)) = snd (gstep info env g (OColl c op)).
Proof.
  intros Hg Ht H Hc Hno. pose proof (session_ginv g Hg) as HI.
  destruct (gi_colls g HI c Hc) as (prio & b & p & sp & K). destruct (gstep_spec g op0 g' out HI Ht H) as [HI' K'].
  specialize (K' _ _ _ _ _ K).
  assert (E : spec_run sp (uses c [op0]) = sp).
  { destruct op0 as [| | |c0 x| | | | | | | | |]; try reflexivity. cbn [uses]. destruct (Nat.eqb_spec c0 c) as [->|]; [|reflexivity].
    specialize (Hno x eq_refl). destruct x; try discriminate Hno; reflexivity. }
  rewrite E in K'. cbn [gstep].
  destruct (on_coll info env g c op) as [h o] eqn:E1. destruct (on_coll_spec g c op h o HI E1) as (_ & _ & _ & _ & S).
  destruct (S _ _ _ _ K) as (q & -> & Hq).
  destruct (on_coll info env g' c op) as [h' o'] eqn:E2. destruct (on_coll_spec g' c op h' o' HI' E2) as (_ & _ & _ & _ & S').
  destruct (S' _ _ _ _ K') as (q' & -> & Hq'). cbn [snd]. f_equal. eapply spec_out_fun; eassumption.
Qed.

(** two collections with the same specification answer the same, for ever *)
Lemma alike_runs : forall ops g h c d prio b p sp, ginv g -> ginv h -> knows g c prio b p sp -> knows h d prio b p sp ->
  snd (grun info env g (map (OColl c) ops)) = snd (grun info env h (map (OColl d) ops)).
Proof.
  induction ops as [|op ops IH]; intros g h c d prio b p sp Ig Ih Kg Kh; [reflexivity|].
  cbn [map grun].
  destruct (gstep info env g (OColl c op)) as [g1 o1] eqn:E1. destruct (gstep info env h (OColl d op)) as [h1 o2] eqn:E2.
  destruct (gstep_spec g (OColl c op) g1 o1 Ig I E1) as [Ig1 Kg1]. destruct (gstep_spec h (OColl d op) h1 o2 Ih I E2) as [Ih1 Kh1].
  specialize (Kg1 _ _ _ _ _ Kg). specialize (Kh1 _ _ _ _ _ Kh). cbn [uses] in Kg1, Kh1. rewrite Nat.eqb_refl in Kg1, Kh1.
  specialize (IH g1 h1 c d prio b p _ Ig1 Ih1 Kg1 Kh1).
  destruct (grun info env g1 (map (OColl c) ops)) as [g2 l1]. destruct (grun info env h1 (map (OColl d) ops)) as [h2 l2].
  cbn [snd] in IH |- *. f_equal; [|exact IH].
  cbn [gstep] in E1, E2. destruct (on_coll_spec g c op g1 o1 Ig E1) as (_ & _ & _ & _ & S1).
  destruct (on_coll_spec h d op h1 o2 Ih E2) as (_ & _ & _ & _ & S2).
  destruct (S1 _ _ _ _ Kg) as (q1 & -> & Q1). destruct (S2 _ _ _ _ Kh) as (q2 & -> & Q2). f_equal.
  eapply spec_out_fun; eassumption.
Qed.
End WithEnv.

(** ** leaving out bad plugins *)
Definition supp (e : entry) : bool := eqb_str (e_name e) (lit "1.0").
Definition gift (e : entry) : list mid := match e_acts e with PGives l None => marshallers_in l | _ => [] end.

Lemma gives_gift e : gives e (gift e).
Proof.
  unfold gift. destruct (e_acts e) as [x| |x| |l [x|]] eqn:E;
    try (apply gi_bad; intros (l' & E'); congruence; fail).
  eapply gi_good; [exact E|reflexivity].
Qed.

Lemma distinct_plugins eps : NoDup (map e_module (filter supp eps)) ->
  plugin_marshallers eps (flat_map gift (filter supp eps)).
Proof.
  intros Hn. exists (map e_module (filter supp eps)), (filter supp eps), (map gift (filter supp eps)).
  split; [|split; [|split; [|rewrite flat_map_concat_map; reflexivity]]].
  - induction eps as [|e eps IH] using rev_ind; [constructor|]. rewrite filter_app, map_app in *. cbn [filter] in *.
    destruct (supp e) eqn:E.
    + cbn [map] in *. apply mo_new.
      * apply IH. apply NoDup_remove_1 in Hn. rewrite app_nil_r in Hn. exact Hn.
      * apply eqb_str_eq. exact E.
      * apply NoDup_remove_2 in Hn. rewrite app_nil_r in Hn. exact Hn.
    + cbn [map] in *. rewrite app_nil_r in *. apply mo_other; [apply IH, Hn|]. intros S. apply eqb_str_eq in S. unfold supp in E. congruence.
  - induction eps as [|e eps IH] using rev_ind; [constructor|]. rewrite filter_app, map_app in *. cbn [filter] in *.
    destruct (supp e) eqn:E.
    + cbn [map] in *. pose proof (NoDup_remove_2 _ _ _ Hn) as Hnot. apply NoDup_remove_1 in Hn. rewrite app_nil_r in Hn, Hnot.
      apply Forall2_app.
      * specialize (IH Hn). assert (Hall : forall m, In m (map e_module (filter supp eps)) -> m <> e_module e) by (intros m Hm ->; exact (Hnot Hm)).
        revert IH Hall. generalize (map e_module (filter supp eps)) (filter supp eps). intros ms es F. induction F as [|m x ms0 es0 Hx F IHF]; intros Hall; [constructor|].
        constructor; [|apply IHF; intros y Hy; apply Hall; right; exact Hy]. apply speaks_more; [exact Hx|].
        intros _ A. apply (Hall m); [left; reflexivity|]. symmetry. exact A.
      * constructor; [|constructor]. exists eps, []. split; [reflexivity|]. split; [apply eqb_str_eq; exact E|]. split; [reflexivity|].
        intros x [].
    + cbn [map] in *. rewrite app_nil_r in *. specialize (IH Hn).
      revert IH. generalize (map e_module (filter supp eps)) (filter supp eps). intros ms es F. induction F as [|m x ms0 es0 Hx F IHF]; [constructor|].
      constructor; [|exact IHF]. apply speaks_more; [exact Hx|]. intros S. apply eqb_str_eq in S. unfold supp in E. congruence.
  - induction (filter supp eps) as [|e l IH]; [constructor|]. constructor; [apply gives_gift|].
    apply IH. inversion Hn; assumption.
Qed.

Lemma separate_tail e eps : separate (e :: eps) -> separate eps.
Proof. intros H a x b -> Hx. exact (H (e :: a) x b eq_refl Hx). Qed.

Lemma separate_NoDup eps : separate eps -> NoDup (map e_module (filter supp eps)).
Proof.
  induction eps as [|e eps IH]; intros H; [constructor|]. cbn [filter]. specialize (IH (separate_tail _ _ H)).
  destruct (supp e) eqn:E; [|exact IH]. cbn [map]. constructor; [|exact IH]. intros Hi. apply in_map_iff in Hi.
  destruct Hi as (x & Ex & Hx). apply filter_In in Hx. destruct Hx as [Hx Hs].
  exact (H [] e eps eq_refl (proj1 (eqb_str_eq _ _) E) x Hx (proj1 (eqb_str_eq _ _) Hs) Ex).
Qed.

Lemma thinned_in eps eps' : thinned eps eps' -> forall e, In e eps' -> In e eps.
Proof.
  induction 1 as [|e l l' _ IH|e l l' _ _ IH]; intros x Hx; [exact Hx| |right; auto].
  destruct Hx as [<-|Hx]; [left; reflexivity|right; auto].
Qed.

Lemma thinned_NoDup eps eps' : thinned eps eps' -> NoDup (map e_module (filter supp eps)) -> NoDup (map e_module (filter supp eps')).
Proof.
  induction 1 as [|e l l' T IH|e l l' _ T IH]; intros H; [constructor| |].
  - cbn [filter] in *. destruct (supp e); [|auto]. cbn [map] in *. inversion H; subst. constructor; [|auto].
    intros Hi. apply in_map_iff in Hi. destruct Hi as (x & Ex & Hx). apply filter_In in Hx.
    match goal with A : ~ In _ _ |- _ => apply A end. apply in_map_iff. exists x. split; [exact Ex|].
    apply filter_In. split; [eapply thinned_in; [exact T|apply Hx]|apply Hx].
  - cbn [filter] in H. destruct (supp e); [inversion H; subst|]; auto.
Qed.

Lemma thinned_gift eps eps' : thinned eps eps' -> flat_map gift (filter supp eps) = flat_map gift (filter supp eps').
Proof.
  induction 1 as [|e l l' T IH|e l l' B T IH]; [reflexivity| |].
  - cbn [filter]. destruct (supp e); [|exact IH]. cbn [flat_map]. rewrite IH. reflexivity.
  - cbn [filter]. destruct (supp e); [|exact IH]. cbn [flat_map].
    assert (E : gift e = []); [|rewrite E; exact IH].
    unfold gift. destruct (e_acts e) as [| | | |lm [x|]] eqn:Ea; try reflexivity. destruct B. exists lm. exact Ea.
Qed.

Lemma thinned_loaded load eps eps' a b : separate eps -> thinned eps eps' -> loaded load eps a -> loaded load eps' b -> a = b.
Proof.
  intros Hs T Ha Hb. destruct load; cbn [loaded] in *; [|congruence].
  pose proof (separate_NoDup eps Hs) as N. pose proof (thinned_NoDup _ _ T N) as N'.
  rewrite (plugin_marshallers_fun _ _ _ Ha (distinct_plugins eps N)).
  rewrite (plugin_marshallers_fun _ _ _ Hb (distinct_plugins eps' N')). apply thinned_gift, T.
Qed.

Lemma good_args_fun a l1 p1 u1 l2 p2 u2 : good_args a l1 p1 u1 -> good_args a l2 p2 u2 -> l1 = l2 /\ p1 = p2 /\ u1 = u2.
Proof.
  intros [A1 _ A3 _ A5] [B1 _ B3 _ B5]. split; [congruence|]. split.
  - rewrite A3 in B3. inversion B3 as [E]. revert E. clear. revert p2. induction p1 as [|x p IH]; intros [|y q] E; try discriminate; [reflexivity|].
    inversion E; subst. f_equal. auto.
  - assert (I : forall u v : list mid, map Some u = map Some v -> u = v).
    { induction u as [|x u IH]; intros [|y v] E; try discriminate; [reflexivity|]. inversion E; subst. f_equal. auto. }
    destruct A5 as [A|(m & -> & A)], B5 as [B|(m' & -> & B)]; rewrite A in B; inversion B; auto.
Qed.
