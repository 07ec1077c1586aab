From Verif Require Import Base PathEsc PosixPath PosixFacts OptionsM OptionsSpec.

Definition minv (o : options) : Prop :=
  get o MatlabCompatible = OVBool true -> forall n v, matlab_value n = Some v -> get o n = v.

Definition linv (o : options) : Prop := forall n, legal n (get o n).

(** the part of [minv] for one option *)
Definition minv1 (o : options) (n : optname) : Prop :=
  get o MatlabCompatible = OVBool true -> forall v, matlab_value n = Some v -> get o n = v.

Lemma normpath_nonroot s : (Nat.ltb 1 (List.length (normpath s)) && isabs (normpath s)) = true <->
  isabs (normpath s) = true /\ normpath s <> [fslash].
Proof.
  rewrite andb_true_iff, Nat.ltb_lt. split.
  - intros [H1 H2]. split; [exact H2|]. intros E. rewrite E in H1. cbn in H1. lia.
  - intros [H1 H2]. split; [|exact H1]. destruct (normpath s) as [|c [|d p]]; [discriminate| |cbn; lia].
    cbn in H1. apply N.eqb_eq in H1. subst. congruence.
Qed.

Ltac dopts o := destruct o as [a b c d e f g h i j k l [m1 m2] n' p q r s t u v' w x y].

Lemma set_ok_or_type o n v : (exists o', set o n v = Ok o') \/
  (set o n v = Err TypeError /\ enumerated n /\ hashable v = false).
Proof.
  unfold enumerated. destruct n; cbn [set]; try (left; eexists; reflexivity).
  - destruct v as [[]| | | |]; left; eexists; reflexivity.
  - unfold in_set. destruct (hashable v) eqn:E; cbn [bindr]; [left; eexists; reflexivity|right; auto].
  - unfold in_set. destruct (hashable v) eqn:E; cbn [bindr]; [left; eexists; reflexivity|right; auto].
  - unfold in_set. destruct (hashable v) eqn:E; cbn [bindr]; [left; eexists; reflexivity|right; auto].
Qed.

Lemma ok_inj {A} (x y : A) : Ok x = Ok y -> y = x.
Proof. congruence. Qed.

(** what a setter does to the option itself *)
Lemma set_self_legal o n v o' : set o n v = Ok o' -> legal n v -> get o' n = v.
Proof.
  intros H L. dopts o. destruct n; cbn [set legal] in *;
   try (destruct L as [bb ->]; destruct bb; cbn in H; inversion H; subst; reflexivity).
  - destruct L as [-> | [-> | ->]]; vm_compute in H; inversion H; reflexivity.
  - destruct L as (a' & b' & ->). cbn in H. inversion H; subst.
    match goal with |- context [if ?c then _ else _] => destruct c end; reflexivity.
  - destruct L as (z & -> & L1 & L2).
    pose proof (proj2 (normpath_nonroot z) (conj L1 L2)) as E.
    cbv zeta in H. rewrite E in H. inversion H; subst. cbn [upd_str o_refs].
    match goal with |- context [if ?c then _ else _] => destruct c end; reflexivity.
  - destruct L as [-> | ->]; vm_compute in H; inversion H; reflexivity.
  - destruct L as (z & E & Hz). rewrite E in H. destruct (Z.leb_spec 0 z); [|lia]. inversion H; reflexivity.
  - destruct L as [-> | [-> | ->]]; vm_compute in H; inversion H; reflexivity.
  - destruct L as (z & E & Hz). rewrite E in H. destruct (Z.leb_spec 0 z); [|lia].
    destruct (Z.leb_spec z 9); [|lia]. inversion H; reflexivity.
Qed.

Lemma mem3 s a b c : mem_str s [a; b; c] = true -> s = a \/ s = b \/ s = c.
Proof. rewrite mem_str_In. cbn. intuition. Qed.
Lemma mem2 s a b : mem_str s [a; b] = true -> s = a \/ s = b.
Proof. rewrite mem_str_In. cbn. intuition. Qed.

Lemma set_self_illegal o n v o' : set o n v = Ok o' -> ~ legal n v -> get o' n = get o n.
Proof.
  intros H L. dopts o. destruct n; cbn [set legal] in *;
   try (destruct v as [bb| | | |]; [destruct L; eexists; reflexivity|..];
        cbn in H; inversion H; subst; clear H;
        repeat match goal with |- context [match ?z with true => _ | false => _ end] => destruct z end; reflexivity).
  - unfold in_set in H. destruct (hashable v); [|discriminate]. cbn [bindr] in H. apply ok_inj in H. subst o'.
    destruct v as [| |z| |]; try reflexivity. match goal with |- context [mem_str ?A ?B] => destruct (mem_str A B) eqn:E end; [|reflexivity].
    apply mem3 in E. destruct L. intuition (subst; auto).
  - apply ok_inj in H; subst o'.
    assert (E : (match v with OVTuple [OVStr a'; OVStr b'] =>
        upd_names (mkOptions a b c d e f g h i j k l (m1, m2) n' p q r s t u v' w x y) (a', b')
        | _ => mkOptions a b c d e f g h i j k l (m1, m2) n' p q r s t u v' w x y end)
      = mkOptions a b c d e f g h i j k l (m1, m2) n' p q r s t u v' w x y).
    { destruct v as [| | |[|[] [|[] [|]]]|]; try reflexivity. destruct L. eexists _, _. reflexivity. }
    rewrite E. match goal with |- context [if ?c then _ else _] => destruct c end; reflexivity.
  - apply ok_inj in H; subst o'. destruct v as [| |z| |].
    3:{ cbv zeta. destruct (Nat.ltb 1 (List.length (normpath z)) && isabs (normpath z)) eqn:E.
        - apply normpath_nonroot in E. destruct L. exists z. tauto.
        - match goal with |- context [if ?c then _ else _] => destruct c end; reflexivity. }
    all: match goal with |- context [if ?c then _ else _] => destruct c end; reflexivity.
  - unfold in_set in H. destruct (hashable v); [|discriminate]. cbn [bindr] in H. apply ok_inj in H. subst o'.
    destruct v as [| |z| |]; try reflexivity. match goal with |- context [mem_str ?A ?B] => destruct (mem_str A B) eqn:E end; [|reflexivity].
    apply mem2 in E. destruct L. intuition (subst; auto).
  - destruct v as [| |z| |]; cbn in H; inversion H; subst; try reflexivity. destruct L. eexists; reflexivity.
  - destruct v as [| |z| |]; cbn in H; inversion H; subst; try reflexivity. destruct L. eexists; reflexivity.
  - destruct (as_int v) as [z|] eqn:E; inversion H; subst; [|reflexivity].
    destruct (Z.leb_spec 0 z); [|reflexivity]. destruct L. exists z. auto.
  - unfold in_set in H. destruct (hashable v); [|discriminate]. cbn [bindr] in H. apply ok_inj in H; subst o'.
    assert (E : (if match v with OVStr z => mem_str z [lit "gzip"; lit "lzf"; lit "szip"] | _ => false end
        then match v with OVStr z => upd_str (mkOptions a b c d e f g h i j k l (m1, m2) n' p q r s t u v' w x y) CompressionAlgorithm z
               | _ => mkOptions a b c d e f g h i j k l (m1, m2) n' p q r s t u v' w x y end
        else mkOptions a b c d e f g h i j k l (m1, m2) n' p q r s t u v' w x y)
        = mkOptions a b c d e f g h i j k l (m1, m2) n' p q r s t u v' w x y).
    { destruct v as [| |z| |]; try reflexivity. match goal with |- context [mem_str ?A ?B] => destruct (mem_str A B) eqn:E end; [|reflexivity].
      apply mem3 in E. destruct L. intuition (subst; auto). }
    rewrite E. match goal with |- context [if ?c then _ else _] => destruct c end; reflexivity.
  - destruct (as_int v) as [z|] eqn:E; inversion H; subst; [|reflexivity].
    destruct (Z.leb_spec 0 z); [|reflexivity]. destruct (Z.leb_spec z 9); [|reflexivity].
    destruct L. exists z. auto.
Qed.

(** Shape of every setter: it changes at most the option itself and clears
    matlab_compatible, unless it is matlab_compatible itself *)
Definition same_but (n : optname) (o o' : options) : Prop :=
  forall k, k <> n -> k <> MatlabCompatible -> get o' k = get o k.

Ltac dopts' o := destruct o as [? ? ? ? ? ? ? ? ? ? ? ? [? ?] ? ? ? ? ? ? ? ? ? ? ?].
Lemma same_upd_bool o n b : same_but n o (upd_bool o n b).
Proof. intros k H1 H2. dopts' o. destruct n; destruct k; reflexivity || congruence. Qed.
Lemma same_upd_str o n s' : same_but n o (upd_str o n s').
Proof. intros k H1 H2. dopts' o. destruct n; destruct k; reflexivity || congruence. Qed.
Lemma same_upd_int o n s' : same_but n o (upd_int o n s').
Proof. intros k H1 H2. dopts' o. destruct n; destruct k; reflexivity || congruence. Qed.
Lemma same_upd_names o z : same_but ComplexNames o (upd_names o z).
Proof. intros k H1 H2. dopts' o. destruct k; reflexivity || congruence. Qed.
Lemma get_upd_matlab o b k : k <> MatlabCompatible -> get (upd_matlab o b) k = get o k.
Proof. intros H. dopts' o. destruct k; reflexivity || congruence. Qed.
Lemma get_upd_matlab_self o b : get (upd_matlab o b) MatlabCompatible = OVBool b.
Proof. dopts' o. reflexivity. Qed.
Lemma mc_upd_bool o n b : n <> MatlabCompatible -> get (upd_bool o n b) MatlabCompatible = get o MatlabCompatible.
Proof. intros H. dopts' o. destruct n; reflexivity || congruence. Qed.
Lemma mc_upd_str o n z : get (upd_str o n z) MatlabCompatible = get o MatlabCompatible.
Proof. dopts' o. destruct n; reflexivity. Qed.
Lemma mc_upd_int o n z : get (upd_int o n z) MatlabCompatible = get o MatlabCompatible.
Proof. dopts' o. destruct n; reflexivity. Qed.
Lemma mc_upd_names o z : get (upd_names o z) MatlabCompatible = get o MatlabCompatible.
Proof. dopts' o. reflexivity. Qed.

(** A setter other than matlab_compatible's: the result [o'] is either [o1] or
    [o1] with compatibility cleared, where [o1] differs from [o] at most in [n];
    and if compatibility was not cleared, the option has its MATLAB value. *)
Lemma set_shape o n v o' : n <> MatlabCompatible -> set o n v = Ok o' ->
  exists o1, same_but n o o1 /\ get o1 MatlabCompatible = get o MatlabCompatible /\
    ((o' = o1 /\ forall w, matlab_value n = Some w -> get o1 n = w) \/ o' = upd_matlab o1 false).
Proof.
  intros Hn H.
  assert (Hfree : forall o1, same_but n o o1 -> get o1 MatlabCompatible = get o MatlabCompatible ->
            o' = o1 -> matlab_value n = None ->
            exists o1, same_but n o o1 /\ get o1 MatlabCompatible = get o MatlabCompatible /\
            ((o' = o1 /\ forall w, matlab_value n = Some w -> get o1 n = w) \/ o' = upd_matlab o1 false)).
  { intros o1 H1 H2 H3 H4. exists o1. split; [exact H1|]. split; [exact H2|]. left. split; [exact H3|]. congruence. }
  assert (Hrefl : same_but n o o) by (intros k _ _; reflexivity).
  assert (Hb : forall w, same_but n o (set_free_bool o n w) /\
                get (set_free_bool o n w) MatlabCompatible = get o MatlabCompatible).
  { intros w. unfold set_free_bool. destruct w; auto using same_upd_bool, mc_upd_bool. }
  assert (Hfb : set_forced_bool o n v = o' -> matlab_value n = Some (OVBool true) ->
                (forall o1, exists b, get o1 n = OVBool b) ->
            exists o1, same_but n o o1 /\ get o1 MatlabCompatible = get o MatlabCompatible /\
            ((o' = o1 /\ forall w, matlab_value n = Some w -> get o1 n = w) \/ o' = upd_matlab o1 false)).
  { intros E Hm Hgb. destruct (Hb v) as [H1 H2]. exists (set_free_bool o n v). split; [exact H1|]. split; [exact H2|].
    unfold set_forced_bool in E. unfold set_free_bool in *.
    set (o1 := match v with OVBool b => upd_bool o n b | _ => o end) in *.
    destruct (Hgb o1) as (b & Eb). rewrite Eb in E. destruct b.
    - left. split; [congruence|]. intros w Hw. congruence.
    - right. congruence. }
  destruct n; cbn [set] in H; try congruence;
   try (apply ok_inj in H; subst o'; destruct (Hb v) as [H1 H2]; eapply Hfree; [exact H1|exact H2|reflexivity|reflexivity]);
   try (apply ok_inj in H; subst o'; apply Hfb; [reflexivity|reflexivity|intros o1; dopts' o1; eexists; reflexivity]).
  - unfold in_set in H. destruct (hashable v); [|discriminate]. cbn [bindr] in H. apply ok_inj in H; subst o'.
    match goal with |- context [if ?c then _ else _] => destruct c end;
      [destruct v|]; (eapply Hfree; [| |reflexivity|]; auto using same_upd_str, mc_upd_str).
  - apply ok_inj in H; subst o'; clear Hfb Hfree Hb.
    set (o1 := match v with OVTuple [OVStr a; OVStr b] => upd_names o (a, b) | _ => o end).
    assert (H1 : same_but ComplexNames o o1 /\ get o1 MatlabCompatible = get o MatlabCompatible).
    { unfold o1. destruct v as [| | |[|[] [|[] [|]]]|]; auto using same_upd_names, mc_upd_names. }
    destruct H1 as [H1 H2]. exists o1. split; [exact H1|]. split; [exact H2|].
    destruct (eqb_str_spec (fst (o_complex_names o1)) (lit "real")) as [E1|]; [|right; reflexivity].
    destruct (eqb_str_spec (snd (o_complex_names o1)) (lit "imag")) as [E2|]; [|right; reflexivity].
    left. split; [reflexivity|]. intros w0 Hw. cbn [matlab_value] in Hw. inversion Hw; subst.
    cbn [get]. rewrite E1, E2. reflexivity.
  - apply ok_inj in H; subst o'; clear Hfb Hfree Hb.
    set (o1 := match v with
                | OVStr s => let p := normpath s in
                    if Nat.ltb 1 (List.length p) && isabs p then upd_str o GroupForReferences s else o
                | _ => o end).
    assert (H1 : same_but GroupForReferences o o1 /\ get o1 MatlabCompatible = get o MatlabCompatible).
    { unfold o1. destruct v; auto. cbv zeta. destruct (_ && _); auto using same_upd_str, mc_upd_str. }
    destruct H1 as [H1 H2]. exists o1. split; [exact H1|]. split; [exact H2|].
    destruct (eqb_str_spec (o_refs o1) (lit "/#refs#")) as [E1|]; [|right; reflexivity].
    left. split; [reflexivity|]. intros w0 Hw. cbn [matlab_value] in Hw. inversion Hw; subst.
    cbn [get]. rewrite E1. reflexivity.
  - unfold in_set in H. destruct (hashable v); [|discriminate]. cbn [bindr] in H. apply ok_inj in H; subst o'.
    match goal with |- context [if ?c then _ else _] => destruct c end;
      [destruct v|]; (eapply Hfree; [| |reflexivity|]; auto using same_upd_str, mc_upd_str).
  - apply ok_inj in H; subst o'. destruct v; (eapply Hfree; [| |reflexivity|]; auto using same_upd_str, mc_upd_str).
  - apply ok_inj in H; subst o'. destruct v; (eapply Hfree; [| |reflexivity|]; auto using same_upd_str, mc_upd_str).
  - apply ok_inj in H; subst o'. destruct (as_int v); [destruct (0 <=? z)%Z|]; (eapply Hfree; [| |reflexivity|]; auto using same_upd_int, mc_upd_int).
  - unfold in_set in H. destruct (hashable v); [|discriminate]. cbn [bindr] in H. apply ok_inj in H; subst o'; clear Hfb Hfree Hb.
    set (o1 := if match v with OVStr s => mem_str s [lit "gzip"; lit "lzf"; lit "szip"] | _ => false end
               then match v with OVStr s => upd_str o CompressionAlgorithm s | _ => o end else o).
    assert (H1 : same_but CompressionAlgorithm o o1 /\ get o1 MatlabCompatible = get o MatlabCompatible).
    { unfold o1. destruct v; auto. destruct (mem_str _ _); auto using same_upd_str, mc_upd_str. }
    destruct H1 as [H1 H2]. exists o1. split; [exact H1|]. split; [exact H2|].
    destruct (eqb_str_spec (o_algorithm o1) (lit "gzip")) as [E1|]; [|right; reflexivity].
    left. split; [reflexivity|]. intros w0 Hw. cbn [matlab_value] in Hw. inversion Hw; subst.
    cbn [get]. rewrite E1. reflexivity.
  - apply ok_inj in H; subst o'. destruct (as_int v); [destruct ((0 <=? z)%Z && (z <=? 9)%Z)|]; (eapply Hfree; [| |reflexivity|]; auto using same_upd_int, mc_upd_int).
Qed.

Lemma force_minv o n v : matlab_value n = Some v -> get (force_matlab o) n = v.
Proof. dopts' o. destruct n; cbn [matlab_value]; intros H; inversion H; reflexivity. Qed.

Lemma matlab_value_not_mc n v : matlab_value n = Some v -> n <> MatlabCompatible.
Proof. intros H ->. discriminate. Qed.

(** one setter call keeps / establishes the per-option invariant *)
Lemma set_minv1 o n v o' k : set o n v = Ok o' -> (k = n \/ n = MatlabCompatible \/ minv1 o k) ->
  (n = MatlabCompatible -> minv1 o k) -> minv1 o' k.
Proof.
  intros H Hk Hmc. destruct (optname_eq_dec n MatlabCompatible) as [->|Hn].
  - specialize (Hmc eq_refl). cbn [set] in H. destruct v as [[]| | | |]; inversion H; subst; try exact Hmc.
    + intros _ w Hw. apply force_minv. exact Hw.
    + intros E. rewrite get_upd_matlab_self in E. discriminate.
  - destruct (set_shape o n v o' Hn H) as (o1 & Hs & Hm & [[-> Hv]| ->]).
    + intros E w Hw. destruct (optname_eq_dec k n) as [->|Hkn]; [apply Hv; exact Hw|].
      destruct Hk as [Hk|[Hk|Hk]]; [congruence|congruence|].
      rewrite Hs; [apply Hk; [congruence|exact Hw]|exact Hkn|eapply matlab_value_not_mc; exact Hw].
    + intros E. rewrite get_upd_matlab_self in E. discriminate.
Qed.

(** ** every reachable state *)

Lemma set_all_minv1 args : forall l o o' k, set_all o args l = Ok o' ->
  (minv1 o k \/ (exists l1 l2, l = l1 ++ k :: l2 /\ ~ In MatlabCompatible l1)) ->
  k <> MatlabCompatible -> minv1 o' k.
Proof.
  induction l as [|n l IH]; intros o o' k H Hk Hkm.
  - cbn in H. inversion H; subst. destruct Hk as [Hk|(l1 & l2 & E & _)]; [exact Hk|destruct l1; discriminate].
  - cbn [set_all] in H. destruct (set o n (args n)) as [o1|e] eqn:E1; [|discriminate]. cbn [bindr] in H.
    apply (IH o1 o' k H); [|exact Hkm].
    destruct Hk as [Hk|(l1 & l2 & E & Hn)].
    + left. eapply set_minv1; [exact E1|auto|auto].
    + destruct l1 as [|x l1]; cbn in E; inversion E; subst.
      * left. eapply set_minv1; [exact E1|auto|]. intros; congruence.
      * right. exists l1, l2. split; [reflexivity|]. intros Hin. apply Hn. right; exact Hin.
Qed.

Lemma before_mc n : n <> MatlabCompatible ->
  exists l1 l2, init_order = l1 ++ n :: l2 /\ ~ In MatlabCompatible l1.
Proof.
  intros H.
  assert (Hin : In n (removelast init_order)).
  { destruct n; try congruence; cbn; auto 30. }
  apply in_split in Hin. destruct Hin as (l1 & l2 & E).
  exists l1, (l2 ++ [MatlabCompatible]). split.
  - change init_order with (removelast init_order ++ [MatlabCompatible]). rewrite E, <- app_assoc. reflexivity.
  - intros Hm. assert (Hx : In MatlabCompatible (removelast init_order)) by (rewrite E; apply in_or_app; auto).
    cbn in Hx. intuition discriminate.
Qed.

Lemma init_minv args o : init args = Ok o -> minv o.
Proof.
  intros H E n v Hv. pose proof (matlab_value_not_mc n v Hv) as Hn.
  assert (H1 : minv1 o n); [|apply H1; [exact E|exact Hv]].
  unfold init in H. eapply set_all_minv1; [exact H| |exact Hn]. right. apply before_mc. exact Hn.
Qed.

Lemma assign_minv o nv : minv o -> minv (assign o nv).
Proof.
  intros H. unfold assign. destruct (set o (fst nv) (snd nv)) as [o'|] eqn:E; [|exact H].
  intros Em n v Hv. refine (set_minv1 o _ _ o' n E _ _ Em v Hv).
  - right; right. intros E' w Hw. apply H; assumption.
  - intros _ E' w Hw. apply H; assumption.
Qed.

Lemma history_minv args o l : init args = Ok o -> minv (fold_left assign l o).
Proof.
  intros H. apply init_minv in H. revert o H. induction l as [|nv l IH]; intros o H; [exact H|].
  cbn [fold_left]. apply IH, assign_minv, H.
Qed.

Lemma legal_force o n : linv o -> legal n (get (force_matlab o) n).
Proof.
  intros H. specialize (H n). dopts' o. destruct n; cbn [get force_matlab legal] in *; cbn in *; eauto.
  eexists; split; [reflexivity|]. split; [reflexivity|discriminate].
Qed.

Lemma set_linv o n v o' : linv o -> set o n v = Ok o' -> linv o'.
Proof.
  intros Hl H k. destruct (optname_eq_dec n MatlabCompatible) as [->|Hn].
  - cbn [set] in H. destruct v as [[]| | | |]; inversion H; subst; try apply Hl.
    + apply legal_force, Hl.
    + destruct (optname_eq_dec k MatlabCompatible) as [->|Hk].
      * rewrite get_upd_matlab_self. eexists; reflexivity.
      * rewrite get_upd_matlab by exact Hk. apply Hl.
  - destruct (optname_eq_dec k n) as [->|Hkn].
    + assert (Hdec : legal n v \/ ~ legal n v).
      { clear. destruct n; cbn [legal];
         try (destruct v as [bb| | | |]; [left; eexists; reflexivity|right; intros (? & ?); discriminate..]);
         try (destruct v as [| |s| |]; [| |left; eexists; reflexivity| |]; right; intros (? & ?); discriminate).
        - destruct v as [| |s| |]; try (right; intuition discriminate).
          destruct (mem_str s [lit "ignore"; lit "discard"; lit "error"]) eqn:E.
          + apply mem3 in E. left. intuition (subst; auto).
          + right. intros H. apply not_true_iff_false in E. apply E. apply mem_str_In. cbn [In].
            destruct H as [H|[H|H]]; inversion H; auto.
        - destruct v as [| | |[|[] [|[] [|]]]|]; try (right; intros (? & ? & ?); discriminate). left. eexists _, _; reflexivity.
        - destruct v as [| |s| |]; try (right; intros (? & ? & ?); discriminate).
          destruct (Nat.ltb 1 (List.length (normpath s)) && isabs (normpath s)) eqn:E.
          + apply normpath_nonroot in E. left. exists s. tauto.
          + right. intros (z & Hz & H1). inversion Hz; subst. apply normpath_nonroot in H1. congruence.
        - destruct v as [| |s| |]; try (right; intuition discriminate).
          destruct (mem_str s [lit "row"; lit "column"]) eqn:E.
          + apply mem2 in E. left. intuition (subst; auto).
          + right. intros H. apply not_true_iff_false in E. apply E. apply mem_str_In. cbn [In].
            destruct H as [H|H]; inversion H; auto.
        - destruct (as_int v) as [z|]; [|right; intros (? & ? & _); discriminate].
          destruct (Z.le_gt_cases 0 z); [left; eauto|right; intros (z' & E & ?); inversion E; lia].
        - destruct v as [| |s| |]; try (right; intuition discriminate).
          destruct (mem_str s [lit "gzip"; lit "lzf"; lit "szip"]) eqn:E.
          + apply mem3 in E. left. intuition (subst; auto).
          + right. intros H. apply not_true_iff_false in E. apply E. apply mem_str_In. cbn [In].
            destruct H as [H|[H|H]]; inversion H; auto.
        - destruct (as_int v) as [z|]; [|right; intros (? & ? & _); discriminate].
          destruct (Z.le_gt_cases 0 z); [|right; intros (z' & E & ?); inversion E; lia].
          destruct (Z.le_gt_cases z 9); [left; eauto|right; intros (z' & E & ?); inversion E; lia]. }
      destruct Hdec as [L|L].
      * rewrite (set_self_legal _ _ _ _ H L). exact L.
      * rewrite (set_self_illegal _ _ _ _ H L). apply Hl.
    + destruct (set_shape o n v o' Hn H) as (o1 & Hs & Hm & [[-> Hv]| ->]).
      * destruct (optname_eq_dec k MatlabCompatible) as [->|Hk]; [rewrite Hm; apply Hl|rewrite Hs by assumption; apply Hl].
      * destruct (optname_eq_dec k MatlabCompatible) as [->|Hk].
        -- rewrite get_upd_matlab_self. eexists; reflexivity.
        -- rewrite get_upd_matlab, Hs by assumption. apply Hl.
Qed.

Lemma raw_linv : linv raw_defaults.
Proof.
  intros n. destruct n; cbn; eauto.
  - eexists; split; [reflexivity|]. split; [reflexivity|discriminate].
  - eexists; split; [reflexivity|lia].
  - eexists; split; [reflexivity|lia].
Qed.

Lemma set_all_linv args : forall l o o', linv o -> set_all o args l = Ok o' -> linv o'.
Proof.
  induction l as [|n l IH]; intros o o' Hl H; cbn in H; [inversion H; subst; exact Hl|].
  destruct (set o n (args n)) as [o1|] eqn:E; [|discriminate]. eapply IH; [|exact H]. eapply set_linv; eauto.
Qed.

Lemma history_linv args o l : init args = Ok o -> linv (fold_left assign l o).
Proof.
  intros H. assert (Hl : linv o) by (eapply set_all_linv; [apply raw_linv|exact H]). clear H.
  revert o Hl. induction l as [|nv l IH]; intros o Hl; [exact Hl|]. cbn [fold_left]. apply IH.
  unfold assign. destruct (set o (fst nv) (snd nv)) eqn:E; [eapply set_linv; eauto|exact Hl].
Qed.

(** frame *)
Lemma set_frame o n v o' k : set o n v = Ok o' -> k <> n ->
  (k <> MatlabCompatible -> n <> MatlabCompatible -> get o' k = get o k) /\
  (k = MatlabCompatible -> get o' k = get o k \/ (get o' k = OVBool false /\ matlab_value n <> None)) /\
  (n = MatlabCompatible -> get o' k = get o k \/ (v = OVBool true /\ matlab_value k = Some (get o' k))).
Proof.
  intros H Hk. repeat split.
  - intros H1 H2. destruct (set_shape o n v o' H2 H) as (o1 & Hs & Hm & [[-> Hv]| ->]).
    + apply Hs; assumption.
    + rewrite get_upd_matlab by assumption. apply Hs; assumption.
  - intros ->. assert (Hn : n <> MatlabCompatible) by congruence.
    destruct (set_shape o n v o' Hn H) as (o1 & Hs & Hm & [[-> Hv]| ->]); [left; exact Hm|].
    destruct (matlab_value n) eqn:Em; [right; split; [apply get_upd_matlab_self|discriminate]|].
    left. clear - H Em Hn.
    destruct n; cbn [matlab_value] in Em; try discriminate; try congruence; cbn [set] in H;
     try (apply ok_inj in H; rewrite H; unfold set_free_bool; destruct v; try reflexivity;
          apply mc_upd_bool; discriminate).
    + unfold in_set in H. destruct (hashable v); [|discriminate]. cbn [bindr] in H. apply ok_inj in H. rewrite H.
      destruct v as [| |z| |]; try reflexivity. destruct (mem_str z _); [apply mc_upd_str|reflexivity].
    + unfold in_set in H. destruct (hashable v); [|discriminate]. cbn [bindr] in H. apply ok_inj in H. rewrite H.
      destruct v as [| |z| |]; try reflexivity. destruct (mem_str z _); [apply mc_upd_str|reflexivity].
    + apply ok_inj in H. rewrite H. destruct v; try reflexivity. apply mc_upd_str.
    + apply ok_inj in H. rewrite H. destruct v; try reflexivity. apply mc_upd_str.
    + apply ok_inj in H. rewrite H. destruct (as_int v) as [z|]; [|reflexivity].
      destruct (0 <=? z)%Z; [apply mc_upd_int|reflexivity].
    + apply ok_inj in H. rewrite H. destruct (as_int v) as [z|]; [|reflexivity].
      destruct ((0 <=? z) && (z <=? 9))%Z; [apply mc_upd_int|reflexivity].
  - intros ->. cbn [set] in H. destruct v as [[]| | | |]; apply ok_inj in H; rewrite H; auto.
    + destruct (matlab_value k) as [w|] eqn:Ek.
      * right. split; [reflexivity|]. rewrite (force_minv _ _ _ Ek). reflexivity.
      * left. dopts' o. destruct k; try discriminate Ek; try reflexivity. congruence.
    + left. apply get_upd_matlab. exact Hk.
Qed.
