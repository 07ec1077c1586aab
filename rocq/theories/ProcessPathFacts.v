From Verif Require Import Base Unicode UnicodeFacts PathEsc PathEscSpec PathEscFacts PosixPath PosixFacts ProcessPath.
Local Open Scope nat_scope.

Lemma clean_part c : clean c -> part_ok c.
Proof. intros (A & B & C). split; assumption. Qed.

Lemma part_noslash c : part_ok c -> noslash c.
Proof. intros [_ H]; exact H. Qed.

(** the pair for a given number of leading slashes and list of components *)
Definition pair_of (k : nat) (init : list pystr) (l : pystr) : pystr * pystr :=
  (match repeat fslash k ++ join_slash init with [] => [fslash] | g => g end, l).

Lemma split_path_snoc s init l : resolve s = init ++ [l] ->
  split_path s = pair_of (initial_slashes s) init l.
Proof.
  intros E. pose proof (resolve_nf s) as [Hc _]. rewrite E in Hc. apply Forall_app in Hc.
  destruct Hc as [Hi Hl]. inversion Hl as [|? ? (L1 & L2 & L3) _]; subst.
  assert (Hs : s <> []).
  { intros ->. cbn in E. destruct init; discriminate. }
  unfold split_path. rewrite normpath_eq by exact Hs. rewrite E.
  set (k := initial_slashes s) in *.
  assert (Hip : Forall part_ok init) by (eapply Forall_impl; [|exact Hi]; apply clean_part).
  assert (Hne : repeat fslash k ++ join_slash (init ++ [l]) <> []).
  { destruct init as [|i0 init].
    - cbn. destruct k; [exact L1|discriminate].
    - rewrite join_app by discriminate. intros H. apply app_eq_nil in H. destruct H as [_ H].
      apply app_eq_nil in H. destruct H; discriminate. }
  assert (Hm : (match repeat fslash k ++ join_slash (init ++ [l]) with [] => s_dot | n :: l0 => n :: l0 end)
               = repeat fslash k ++ join_slash (init ++ [l])).
  { destruct (repeat fslash k ++ join_slash (init ++ [l])); [congruence|reflexivity]. }
  rewrite Hm. unfold pair_of.
  destruct init as [|i0 init].
  - cbn [app join_slash]. destruct k as [|k].
    + cbn [repeat app]. destruct (dir_base_rel l L3) as [-> ->]. destruct l; [congruence|reflexivity].
    + destruct (dir_base_slashes k l L3) as [-> ->]. rewrite app_nil_r. destruct l; [congruence|reflexivity].
  - destruct (dir_base_join (repeat fslash k) (i0 :: init) l) as [-> ->]; [discriminate|exact Hip|exact L3|].
    destruct l; [congruence|].
    destruct (repeat fslash k ++ join_slash (i0 :: init)); reflexivity.
Qed.

Lemma split_path_nil s : resolve s = [] ->
  split_path s = (match repeat fslash (initial_slashes s) with [] => [fslash] | g => g end, s_dot).
Proof.
  intros E. destruct s as [|c s]; [reflexivity|]. unfold split_path.
  rewrite normpath_eq by discriminate. rewrite E. cbn [join_slash]. rewrite app_nil_r.
  set (k := initial_slashes (c :: s)). destruct k as [|k].
  - reflexivity.
  - destruct (dir_base_slashes k [] (fun H => H)) as [H1 H2]. rewrite app_nil_r in H1, H2.
    cbn [repeat] in *. rewrite H1, H2. reflexivity.
Qed.

Lemma snoc_cases {A} (l : list A) : l = [] \/ exists init x, l = init ++ [x].
Proof.
  destruct l as [|a l]; [left; reflexivity|right].
  destruct (@exists_last _ (a :: l)) as (q & x & E); [discriminate|]. eauto.
Qed.

(** ** Separated paths *)

Definition esc (s : pystr) : pystr := text (esc_tokens s).

Lemma escape_esc s : escape_path s = Ok (esc s).
Proof. apply escape_path_text. Qed.

Lemma esc_inj s t : esc s = esc t -> s = t.
Proof. intros H. apply escape_injective. rewrite !escape_esc. congruence. Qed.

Lemma esc_noslash s : noslash (esc s).
Proof. apply esc_chars. Qed.

Lemma esc_clean s : s <> [] -> clean (esc s) /\ esc s <> s_dotdot.
Proof.
  intros H. assert (H1 : esc s <> []) by (intros E; apply (proj1 (esc_nonempty s)) in E; congruence).
  pose proof (esc_head s) as Hh. unfold esc in *. repeat split.
  - exact H1.
  - intros E. rewrite E in Hh. cbn in Hh. congruence.
  - apply esc_noslash.
  - intros E. rewrite E in Hh. cbn in Hh. congruence.
Qed.

Lemma mapr_ok {A B} (f : A -> res B) (g : A -> B) l :
  (forall a, In a l -> f a = Ok (g a)) -> mapr f l = Ok (map g l).
Proof.
  induction l as [|a l IH]; intros H; cbn; [reflexivity|].
  rewrite H by (left; reflexivity). rewrite IH by (intros; apply H; right; assumption). reflexivity.
Qed.

Lemma seq_parts (parts : list pystr) :
  mapr (fun e => do v <- elem_str e; escape_path v) (map EStr parts) = Ok (map esc parts).
Proof.
  induction parts as [|p ps IH]; [reflexivity|]. cbn [map mapr elem_str bindr]. rewrite escape_esc, IH. reflexivity.
Qed.

Lemma filter_all {A} (f : A -> bool) l : Forall (fun x => f x = true) l -> filter f l = l.
Proof. induction 1 as [|x l Hx Hl IH]; cbn; [reflexivity|]. rewrite Hx, IH. reflexivity. Qed.

Definition nonempty (c : pystr) : bool := match c with [] => false | _ => true end.

Lemma split_app_gen q s : split_slash (q ++ fslash :: s) = split_slash q ++ split_slash s.
Proof.
  induction q as [|c q IH].
  - cbn [app split_slash]. rewrite N.eqb_refl. reflexivity.
  - cbn [app split_slash]. rewrite IH. destruct (N.eqb_spec c fslash); [reflexivity|].
    destruct (split_slash q) as [|w ws] eqn:E; [destruct (split_nonempty q E)|]. reflexivity.
Qed.

Lemma ends_slash_inv p : ends_slash p = true -> exists q, p = q ++ [fslash].
Proof.
  intros H. destruct (snoc_cases p) as [->|(q & x & ->)]; [discriminate|].
  rewrite ends_slash_app in H. apply N.eqb_eq in H. subst. eauto.
Qed.

Lemma join_step_comps p w : noslash w ->
  filter nonempty (split_slash (join_step p w)) = filter nonempty (split_slash p) ++ filter nonempty [w].
Proof.
  intros Hw. unfold join_step. rewrite starts_noslash by exact Hw.
  destruct p as [|c p].
  - cbn [app orb]. rewrite split_noslash by exact Hw. reflexivity.
  - cbn [orb]. destruct (ends_slash (c :: p)) eqn:E.
    + apply ends_slash_inv in E. destruct E as (q & ->). rewrite <- app_assoc. cbn [app].
      rewrite split_app_gen. rewrite (split_app_gen q []). rewrite (split_noslash w) by exact Hw.
      rewrite !filter_app. cbn [split_slash]. cbn [filter nonempty]. rewrite app_nil_r. reflexivity.
    + rewrite split_app_gen, (split_noslash w) by exact Hw. apply filter_app.
Qed.

Lemma posix_join_comps ws : forall p, Forall noslash ws ->
  filter nonempty (split_slash (posix_join p ws)) = filter nonempty (split_slash p) ++ filter nonempty ws.
Proof.
  induction ws as [|w ws IH]; intros p Hws; [cbn; rewrite app_nil_r; reflexivity|].
  inversion Hws; subst. unfold posix_join in *. cbn [fold_left]. rewrite IH by assumption.
  rewrite join_step_comps by assumption. rewrite <- app_assoc. f_equal. rewrite <- filter_app. reflexivity.
Qed.

Lemma join_step_abs p w : noslash w -> isabs p = false -> isabs (join_step p w) = false.
Proof.
  intros Hw Hp. unfold join_step. rewrite (starts_noslash w) by exact Hw.
  destruct p as [|c p]; cbn [orb app].
  - apply starts_noslash. exact Hw.
  - destruct (ends_slash (c :: p)); exact Hp.
Qed.

Lemma posix_join_abs ws : forall p, Forall noslash ws -> isabs p = false -> isabs (posix_join p ws) = false.
Proof.
  induction ws as [|w ws IH]; intros p Hws Hp; [exact Hp|]. inversion Hws; subst.
  unfold posix_join in *. cbn [fold_left]. apply IH; [assumption|]. apply join_step_abs; assumption.
Qed.

Lemma nc_filter i cs : forall acc, norm_comps i acc cs = norm_comps i acc (filter nonempty cs).
Proof.
  induction cs as [|c cs IH]; intros acc; [reflexivity|]. destruct c as [|x c].
  - cbn [filter nonempty]. rewrite nc_skip by auto. apply IH.
  - cbn [filter nonempty]. cbn [norm_comps].
    destruct (eqb_str (x :: c) [] || eqb_str (x :: c) s_dot); [apply IH|].
    destruct (negb (eqb_str (x :: c) s_dotdot) || negb i && match acc with [] => true | _ :: _ => false end ||
       match acc with [] => false | a :: _ => eqb_str a s_dotdot end); [apply IH|].
    destruct acc; apply IH.
Qed.

Lemma filter_esc parts : filter nonempty (map esc parts) = map esc (filter nonempty parts).
Proof.
  induction parts as [|p ps IH]; [reflexivity|]. cbn [map filter].
  destruct p as [|c p].
  - change (esc []) with (@nil N). cbn [nonempty]. exact IH.
  - assert (nonempty (esc (c :: p)) = true) as ->.
    { destruct (esc (c :: p)) eqn:E; [|reflexivity]. apply (proj1 (esc_nonempty (c :: p))) in E. discriminate. }
    cbn [nonempty map]. rewrite IH. reflexivity.
Qed.

(** what a separated path resolves to: the escaped non-empty parts *)
Lemma seq_resolve parts : parts <> [] ->
  exists s, path_string (PSeq (map EStr parts)) = Ok s /\ isabs s = false /\
            resolve s = map esc (filter nonempty parts).
Proof.
  intros Hne. cbn [path_string]. rewrite seq_parts. cbn [bindr].
  destruct parts as [|p ps]; [congruence|]. cbn [map posix_join_star].
  set (s := posix_join (esc p) (map esc ps)). exists s. split; [reflexivity|].
  assert (Hns : Forall noslash (map esc ps)).
  { apply Forall_forall. intros x Hx. apply in_map_iff in Hx. destruct Hx as (y & <- & _). apply esc_noslash. }
  assert (Habs : isabs s = false).
  { apply posix_join_abs; [exact Hns|]. apply starts_noslash, esc_noslash. }
  split; [exact Habs|].
  unfold resolve. rewrite initial_isabs, Habs, nc_filter. unfold s. rewrite posix_join_comps by exact Hns.
  rewrite split_noslash by apply esc_noslash. rewrite <- filter_app.
  change ([esc p] ++ map esc ps) with (map esc (p :: ps)). rewrite filter_esc.
  apply nc_nf_id.
  assert (Hf : Forall (fun c => clean c /\ c <> s_dotdot) (map esc (filter nonempty (p :: ps)))).
  { apply Forall_forall. intros x Hx. apply in_map_iff in Hx. destruct Hx as (y & <- & Hy).
    apply filter_In in Hy. destruct Hy as [_ Hy]. apply esc_clean. destruct y; [discriminate|congruence]. }
  split.
  - eapply Forall_impl; [|exact Hf]. cbn. tauto.
  - exists 0, (map esc (filter nonempty (p :: ps))). split; [reflexivity|]. eapply Forall_impl; [|exact Hf]. cbn. tauto.
Qed.

Lemma initial_rel s : isabs s = false -> initial_slashes s = 0.
Proof. rewrite <- initial_isabs. destruct (initial_slashes s); [reflexivity|discriminate]. Qed.

Lemma process_seq_snoc parts init l : filter nonempty parts = init ++ [l] ->
  process_path (PSeq (map EStr parts)) =
  Ok (match init with [] => [fslash] | _ => join_slash (map esc init) end, esc l).
Proof.
  intros E. assert (Hne : parts <> []) by (intros ->; destruct init; discriminate).
  destruct (seq_resolve parts Hne) as (s & Hs & Ha & Hr). unfold process_path. rewrite Hs. cbn [bindr].
  rewrite E, map_app in Hr. cbn [map] in Hr. rewrite (split_path_snoc s _ _ Hr), (initial_rel s Ha).
  unfold pair_of. cbn [repeat app]. f_equal. f_equal.
  destruct init as [|i0 init]; [reflexivity|].
  assert (Hp : i0 <> []).
  { assert (Hin : In i0 (filter nonempty parts)) by (rewrite E; left; reflexivity).
    apply filter_In in Hin. destruct i0; [destruct Hin; discriminate|discriminate]. }
  destruct (join_slash (map esc (i0 :: init))) eqn:Ej; [|reflexivity].
  exfalso. cbn [map] in Ej. destruct (map esc init) eqn:Em.
  - cbn in Ej. apply (proj1 (esc_nonempty i0)) in Ej. congruence.
  - rewrite join_cons in Ej by discriminate. apply app_eq_nil in Ej. destruct Ej; discriminate.
Qed.

Lemma process_seq_empty parts : parts <> [] -> filter nonempty parts = [] ->
  process_path (PSeq (map EStr parts)) = Ok ([fslash], s_dot).
Proof.
  intros Hne E. destruct (seq_resolve parts Hne) as (s & Hs & Ha & Hr). unfold process_path. rewrite Hs. cbn [bindr].
  rewrite E in Hr. rewrite (split_path_nil s Hr), (initial_rel s Ha). reflexivity.
Qed.

Lemma join_slash_inj a b : Forall part_ok a -> Forall part_ok b -> join_slash a = join_slash b -> a = b.
Proof.
  intros Ha Hb E.
  destruct a as [|x a], b as [|y b]; [reflexivity| | |].
  - exfalso. pose proof (last_join_end (y :: b)) as H. destruct H as (h & w & Ej & [Hw _]); [discriminate|exact Hb|].
    rewrite Ej in E. cbn in E. symmetry in E. apply app_eq_nil in E. destruct E; congruence.
  - exfalso. pose proof (last_join_end (x :: a)) as H. destruct H as (h & w & Ej & [Hw _]); [discriminate|exact Ha|].
    rewrite Ej in E. cbn in E. apply app_eq_nil in E. destruct E; congruence.
  - apply (f_equal split_slash) in E. rewrite !split_join in E; try discriminate; auto.
    + eapply Forall_impl; [|exact Hb]. apply part_noslash.
    + eapply Forall_impl; [|exact Ha]. apply part_noslash.
Qed.

Lemma esc_parts_ok l : Forall (fun p => p <> []) l -> Forall part_ok (map esc l).
Proof.
  intros H. apply Forall_forall. intros x Hx. apply in_map_iff in Hx. destruct Hx as (y & <- & Hy).
  rewrite Forall_forall in H. apply clean_part, esc_clean. auto.
Qed.

Lemma map_inj_list {A B} (f : A -> B) : (forall x y, f x = f y -> x = y) -> forall a b, map f a = map f b -> a = b.
Proof.
  intros Hf. induction a as [|x a IH]; intros [|y b] H; cbn in H; try discriminate; [reflexivity|].
  inversion H. f_equal; auto.
Qed.

Lemma nonempty_filter l : Forall (fun p => p <> []) l -> filter nonempty l = l.
Proof. intros H. apply filter_all. eapply Forall_impl; [|exact H]. intros [|c s]; [congruence|reflexivity]. Qed.

Lemma process_seq_inj a b : a <> [] -> b <> [] ->
  Forall (fun p => p <> []) a -> Forall (fun p => p <> []) b ->
  process_path (PSeq (map EStr a)) = process_path (PSeq (map EStr b)) -> a = b.
Proof.
  intros Ha Hb Fa Fb E.
  destruct (snoc_cases a) as [->|(ia & la & ->)]; [congruence|].
  destruct (snoc_cases b) as [->|(ib & lb & ->)]; [congruence|].
  rewrite (process_seq_snoc _ ia la) in E by (apply nonempty_filter; exact Fa).
  rewrite (process_seq_snoc _ ib lb) in E by (apply nonempty_filter; exact Fb).
  inversion E as [[E1 E2]]. apply esc_inj in E2. subst lb. f_equal.
  apply Forall_app in Fa, Fb. destruct Fa as [Fa _], Fb as [Fb _].
  assert (Hslash : forall l, Forall (fun p => p <> []) l -> l <> [] -> join_slash (map esc l) <> [fslash]).
  { intros l Hl Hne Ej. destruct l as [|x l]; [congruence|]. inversion Hl; subst.
    destruct (esc_clean x H1) as [(C1 & C2 & C3) _].
    cbn [map] in Ej. destruct (map esc l) eqn:Em.
    - cbn in Ej. apply C3. rewrite Ej. left; reflexivity.
    - rewrite join_cons in Ej by discriminate. destruct (esc x) as [|c e] eqn:Ee; [congruence|].
      cbn in Ej. inversion Ej; subst. apply C3. left; reflexivity. }
  destruct ia as [|xa ia], ib as [|xb ib].
  - reflexivity.
  - exfalso. apply (Hslash (xb :: ib)); [exact Fb|discriminate|congruence].
  - exfalso. apply (Hslash (xa :: ia)); [exact Fa|discriminate|congruence].
  - apply join_slash_inj in E1; [|apply esc_parts_ok; assumption..].
    apply map_inj_list in E1; [exact E1|exact esc_inj].
Qed.

(** ** str paths *)

Lemma split_path_abs_clean cs : Forall clean cs -> Forall (fun c => c <> s_dotdot) cs ->
  forall init l, cs = init ++ [l] ->
  split_path (fslash :: join_slash cs) = (fslash :: join_slash init, l).
Proof.
  intros Hc Hd init l ->.
  destruct (resolve_built 1 (init ++ [l])) as [Hi Hr]; [lia|split; assumption|].
  cbn [repeat app] in *. rewrite (split_path_snoc _ _ _ Hr), Hi. reflexivity.
Qed.

Lemma split_path_target s : let '(g, t) := split_path s in
  g <> [] /\ t <> [] /\ noslash t /\ (t = s_dot <-> resolve s = []) .
Proof.
  pose proof (resolve_nf s) as [Hc _].
  destruct (snoc_cases (resolve s)) as [E|(init & l & E)].
  - rewrite (split_path_nil s E). repeat split; auto; try discriminate.
    + destruct (repeat fslash (initial_slashes s)); discriminate.
    + intros [H|[]]; discriminate.
  - rewrite (split_path_snoc s init l E). unfold pair_of. rewrite E in Hc. apply Forall_app in Hc.
    destruct Hc as [_ Hl]. inversion Hl as [|? ? (L1 & L2 & L3)]; subst. repeat split; auto.
    + destruct (repeat fslash (initial_slashes s) ++ join_slash init); discriminate.
    + intros ->. congruence.
    + intros H9. rewrite E in H9. destruct init; discriminate.
Qed.

(** idempotence on absolute paths: joining the pair and processing again *)
Lemma split_path_idem s : isabs s = true ->
  let '(g, t) := split_path s in split_path (posix_join g [t]) = split_path s.
Proof.
  intros Ha. pose proof (resolve_nf s) as Hnf. rewrite initial_isabs, Ha in Hnf.
  pose proof (initial_le s) as Hk2.
  assert (Hk : exists k, initial_slashes s = S k).
  { pose proof (initial_isabs s) as Hi. rewrite Ha in Hi. destruct (initial_slashes s); [discriminate|eauto]. }
  destruct Hk as (k & Hk). destruct Hnf as [Hc Hd].
  destruct (snoc_cases (resolve s)) as [E|(init & l & E)].
  - rewrite (split_path_nil s E), Hk. cbn [repeat].
    assert (Hj : posix_join (fslash :: repeat fslash k) [s_dot] = repeat fslash (S k) ++ s_dot).
    { unfold posix_join. cbn [fold_left]. unfold join_step. cbn [starts_slash s_dot].
      change (dot =? fslash)%N with false. cbv iota.
      assert (ends_slash (fslash :: repeat fslash k) = true) as ->.
      { change (fslash :: repeat fslash k) with (repeat fslash (S k)). replace (S k) with (k + 1) by lia.
        rewrite repeat_app. apply ends_slash_app. }
      reflexivity. }
    rewrite Hj.
    assert (Hr : resolve (repeat fslash (S k) ++ s_dot) = []).
    { unfold resolve. rewrite split_repeat, nc_skip_empties. reflexivity. }
    rewrite (split_path_nil _ Hr). rewrite initial_repeat; [reflexivity|lia|cbn; discriminate].
  - rewrite (split_path_snoc s init l E), Hk. unfold pair_of. cbn [repeat app].
    rewrite E in Hc, Hd. pose proof Hc as Hc'. apply Forall_app in Hc'. destruct Hc' as [Hi Hl].
    inversion Hl as [|? ? (L1 & L2 & L3)]; subst.
    assert (Hj : posix_join (fslash :: repeat fslash k ++ join_slash init) [l] = repeat fslash (S k) ++ join_slash (init ++ [l])).
    { unfold posix_join. cbn [fold_left]. unfold join_step. rewrite starts_noslash by exact L3.
      destruct init as [|i0 init].
      - cbn [join_slash app]. rewrite app_nil_r.
        assert (ends_slash (fslash :: repeat fslash k) = true) as ->.
        { change (fslash :: repeat fslash k) with (repeat fslash (S k)). replace (S k) with (k + 1) by lia.
          rewrite repeat_app. apply ends_slash_app. }
        reflexivity.
      - destruct (last_join_end (i0 :: init)) as (h & w & Ej & [W1 W2]); [discriminate| |].
        { eapply Forall_impl; [|exact Hi]. apply clean_part. }
        assert (ends_slash (fslash :: repeat fslash k ++ join_slash (i0 :: init)) = false) as ->.
        { rewrite Ej. rewrite app_assoc. change (fslash :: (repeat fslash k ++ h) ++ w) with ((fslash :: repeat fslash k ++ h) ++ w).
          apply ends_slash_app_noslash; assumption. }
        cbn [orb]. rewrite join_app by discriminate. cbn [repeat app]. rewrite <- app_assoc. reflexivity. }
    rewrite Hj.
    destruct (resolve_built (S k) (init ++ [l])) as [Hi' Hr]; [lia|split; assumption|].
    rewrite (split_path_snoc _ _ _ Hr), Hi'. reflexivity.
Qed.

(** inserting "x/.." between components of an absolute path changes nothing, for x a plain name *)
Lemma nc_app i : forall a acc b, norm_comps i acc (a ++ b) = norm_comps i (rev (norm_comps i acc a)) b.
Proof.
  induction a as [|c a IH]; intros acc b; [cbn; rewrite rev_involutive; reflexivity|].
  cbn [app norm_comps]. destruct (eqb_str c [] || eqb_str c s_dot); [apply IH|].
  destruct (negb (eqb_str c s_dotdot) || negb i && match acc with [] => true | _ :: _ => false end ||
       match acc with [] => false | a :: _ => eqb_str a s_dotdot end); [apply IH|].
  destruct acc; apply IH.
Qed.

Lemma nc_cancel i acc x b : clean x -> x <> s_dotdot -> norm_comps i acc (x :: s_dotdot :: b) = norm_comps i acc b.
Proof.
  intros (A & B & C) D. rewrite nc_push by assumption. cbn [norm_comps].
  change (eqb_str s_dotdot [] || eqb_str s_dotdot s_dot) with false. cbv iota.
  change (negb (eqb_str s_dotdot s_dotdot)) with false. rewrite andb_false_r. cbn [orb].
  apply eqb_str_neq in D. rewrite D. reflexivity.
Qed.

Lemma resolve_cancel pre x post : isabs pre = true -> clean x -> x <> s_dotdot ->
  resolve (pre ++ fslash :: x ++ fslash :: s_dotdot ++ fslash :: post) = resolve (pre ++ fslash :: post).
Proof.
  intros Ha Hx Hd. unfold resolve. rewrite !initial_isabs.
  assert (Habs : forall q, isabs (pre ++ q) = true) by (intros q; destruct pre; [discriminate|exact Ha]).
  rewrite !Habs. rewrite !split_app_gen. rewrite (split_noslash x) by apply Hx.
  rewrite (split_noslash s_dotdot) by apply clean_dotdot.
  rewrite (nc_app _ (split_slash pre) _ ([x] ++ _)), (nc_app _ (split_slash pre) _ (split_slash post)).
  cbn [app]. rewrite nc_cancel by assumption. reflexivity.
Qed.

(** ** The other forms of a path *)

Lemma process_bytes s b : utf8_encode s = Ok b -> process_path (PBytes b) = process_path (PStr s).
Proof. intros H. unfold process_path. cbn [path_string]. rewrite (utf8_decode_encode s b H). reflexivity. Qed.

Definition keep (c : pystr) : bool := negb (eqb_str c [] || eqb_str c s_dot).

Lemma nc_keep i cs : forall acc, norm_comps i acc cs = norm_comps i acc (filter keep cs).
Proof.
  induction cs as [|c cs IH]; intros acc; [reflexivity|]. cbn [filter]. unfold keep at 1.
  destruct (eqb_str c [] || eqb_str c s_dot) eqn:E; cbn [negb norm_comps]; rewrite E.
  - apply IH.
  - destruct (negb (eqb_str c s_dotdot) || negb i && match acc with [] => true | _ :: _ => false end ||
       match acc with [] => false | a :: _ => eqb_str a s_dotdot end); [apply IH|].
    destruct acc; apply IH.
Qed.

Lemma path_comps_clean s : Forall clean (path_comps s).
Proof.
  apply Forall_forall. intros x Hx. unfold path_comps in Hx. apply filter_In in Hx. destruct Hx as [Hi Hk].
  rewrite negb_true_iff, orb_false_iff, !eqb_str_neq in Hk. destruct Hk. repeat split; auto.
  pose proof (split_all_noslash s) as Hn. rewrite Forall_forall in Hn. apply Hn. exact Hi.
Qed.

Lemma filter_keep_clean cs : Forall clean cs -> filter keep cs = cs.
Proof.
  intros H. apply filter_all. eapply Forall_impl; [|exact H]. intros a (A & B & C). unfold keep.
  rewrite negb_true_iff, orb_false_iff, !eqb_str_neq. auto.
Qed.

Lemma resolve_comps s : resolve s = norm_comps (isabs s) [] (path_comps s).
Proof. unfold resolve. rewrite initial_isabs. apply nc_keep. Qed.

Lemma path_comps_built k cs : Forall clean cs -> path_comps (repeat fslash k ++ join_slash cs) = cs.
Proof.
  intros H. unfold path_comps. fold keep. rewrite split_repeat, filter_app.
  assert (E : filter keep (repeat [] k) = []) by (induction k; cbn; auto). rewrite E. cbn [app].
  destruct cs as [|c cs]; [reflexivity|]. rewrite split_join; [apply filter_keep_clean; exact H|discriminate|].
  eapply Forall_impl; [|exact H]. intros a (A & B & C). exact C.
Qed.

Lemma split_path_comps s t : initial_slashes s = initial_slashes t -> path_comps s = path_comps t ->
  split_path s = split_path t.
Proof.
  intros Hi Hp. assert (Hr : resolve s = resolve t).
  { rewrite !resolve_comps, <- !initial_isabs, Hi, Hp. reflexivity. }
  destruct (snoc_cases (resolve t)) as [E|(init & l & E)].
  - rewrite (split_path_nil t E), (split_path_nil s) by congruence. rewrite Hi. reflexivity.
  - rewrite (split_path_snoc t init l E), (split_path_snoc s init l) by congruence. rewrite Hi. reflexivity.
Qed.

Lemma process_pure s : initial_slashes s <= 1 -> isabs s = true \/ path_comps s <> [] ->
  process_path (PPure (pure_posix s)) = process_path (PStr s).
Proof.
  intros Hk Hne. unfold process_path. cbn [path_string pure_posix pp_root pp_parts].
  pose proof (path_comps_clean s) as Hc.
  assert (Hpo : Forall part_ok (path_comps s)) by (eapply Forall_impl; [|exact Hc]; apply clean_part).
  assert (Hs : exists p, (if eqb_str (repeat fslash (initial_slashes s)) [] || eqb_str (repeat fslash (initial_slashes s)) [fslash]
       then posix_join_star match repeat fslash (initial_slashes s) with
             | [] => path_comps s | _ :: _ => repeat fslash (initial_slashes s) :: path_comps s end
       else posix_join_star (tl match repeat fslash (initial_slashes s) with
             | [] => path_comps s | _ :: _ => repeat fslash (initial_slashes s) :: path_comps s end))
       = Ok p /\ p = repeat fslash (initial_slashes s) ++ join_slash (path_comps s)).
  { destruct (initial_slashes s) as [|[|k]] eqn:Ek; [| |lia]; cbn [repeat app].
    - eexists. split; [|reflexivity]. rewrite eqb_str_refl. cbn [orb]. apply posix_join_star_parts; [|exact Hpo].
      destruct Hne as [Hne|Hne]; [|exact Hne]. rewrite <- initial_isabs, Ek in Hne. discriminate.
    - eexists. split; [|reflexivity]. rewrite eqb_str_refl, orb_true_r. cbn [posix_join_star]. f_equal.
      destruct (path_comps s) as [|c cs]; [reflexivity|]. inversion Hpo as [|? ? [P1 P2] P3]; subst.
      unfold posix_join. cbn [fold_left]. unfold join_step at 2. rewrite starts_noslash by exact P2.
      change (ends_slash [fslash]) with true. cbn [orb app].
      fold (posix_join (fslash :: c) cs). rewrite posix_join_parts; [|discriminate| |exact P3].
      + destruct cs; reflexivity.
      + change (fslash :: c) with ([fslash] ++ c). apply ends_slash_app_noslash; assumption. }
  destruct Hs as (p & -> & ->). cbn [bindr]. f_equal. apply split_path_comps.
  - apply initial_repeat; [lia|]. pose proof (join_head _ Hc) as Hh. destruct (join_slash (path_comps s)); [exact I|exact Hh].
  - apply path_comps_built. exact Hc.
Qed.

(** parts that need no escaping *)
Definition plain_part (p : pystr) : Prop :=
  p <> [] /\ hd_error p <> Some dot /\ Forall (fun c => c <> bslash /\ c <> fslash /\ c <> nul) p.

Lemma esc_plain p : plain_part p -> esc p = p.
Proof.
  intros (H1 & H2 & H3). unfold esc. destruct p as [|c p]; [congruence|]. cbn [esc_tokens].
  destruct (N.eqb_spec c dot); [cbn in H2; congruence|]. clear H1 H2 n.
  induction H3 as [|x l (A & B & C) Hl IH]; [reflexivity|]. unfold text in *. cbn [map flat_map]. rewrite IH.
  unfold esc_token. apply N.eqb_neq in A, B, C. rewrite A, B, C. reflexivity.
Qed.

Lemma process_seq_plain parts : parts <> [] -> Forall plain_part parts ->
  process_path (PSeq (map EStr parts)) = process_path (PStr (join_slash parts)).
Proof.
  intros Hne Hp. assert (Hm : map esc parts = parts).
  { induction Hp as [|p ps H1 H2 IH]; [congruence|]. cbn [map]. rewrite esc_plain by exact H1. f_equal.
    destruct ps; [reflexivity|]. apply IH. discriminate. }
  unfold process_path. cbn [path_string]. rewrite seq_parts. cbn [bindr]. rewrite Hm.
  rewrite posix_join_star_parts; [reflexivity|exact Hne|].
  rewrite <- Hm. apply esc_parts_ok. eapply Forall_impl; [|exact Hp]. intros a (A & _). exact A.
Qed.

Lemma mapr_err {A B} (f : A -> res B) l x : In x l -> (forall a, In a l -> (exists b, f a = Ok b) \/ f a = Err TypeError) ->
  f x = Err TypeError -> mapr f l = Err TypeError.
Proof.
  induction l as [|a l IH]; intros Hin H Hx; [destruct Hin|]. cbn [mapr].
  destruct (H a) as [(b & Hb)|Ha]; [left; reflexivity| |].
  - rewrite Hb. cbn [bindr]. rewrite IH; [reflexivity| |intros; apply H; right; assumption|exact Hx].
    destruct Hin as [->|Hin]; [congruence|exact Hin].
  - rewrite Ha. reflexivity.
Qed.

Lemma process_seq_bad l : In EOther l -> (forall b, ~ In (EBytes b) l) ->
  process_path (PSeq l) = Err TypeError.
Proof.
  intros Hin Hb. unfold process_path. cbn [path_string].
  rewrite (mapr_err _ l EOther); [reflexivity|exact Hin| |reflexivity].
  intros a Ha. destruct a as [s|b|p|]; cbn [elem_str bindr].
  - left. rewrite escape_esc. eauto.
  - destruct (Hb b Ha).
  - left. rewrite escape_esc. eauto.
  - right. reflexivity.
Qed.

Lemma Forall2_esc l el : Forall2 (fun p e => escape_path p = Ok e) l el -> el = map esc l.
Proof.
  induction 1 as [|p e l el H1 H2 IH]; [reflexivity|]. cbn [map]. rewrite escape_esc in H1. congruence.
Qed.

Lemma process_seq_exact : forall init l einit el,
  Forall (fun p => p <> []) (init ++ [l]) ->
  Forall2 (fun p e => escape_path p = Ok e) init einit -> escape_path l = Ok el ->
  process_path (PSeq (map EStr (init ++ [l]))) =
  Ok (match einit with [] => [fslash] | _ => join_slash einit end, el).
Proof.
  intros init l einit el H H2 H3. apply Forall2_esc in H2. rewrite escape_esc in H3. inversion H3; subst.
  rewrite (process_seq_snoc _ init l) by (apply nonempty_filter; exact H). destruct init; reflexivity.
Qed.

Lemma path_comps_join cs : Forall clean cs -> path_comps (join_slash cs) = cs.
Proof. intros H. apply (path_comps_built 0). exact H. Qed.

Lemma process_seq_no_traversal : forall parts g t,
  Forall (fun p => p <> []) parts -> parts <> [] ->
  process_path (PSeq (map EStr parts)) = Ok (g, t) ->
  path_comps g ++ [t] = map esc parts /\
  Forall (fun c => c <> [] /\ c <> s_dot /\ c <> s_dotdot /\ ~ In fslash c) (path_comps g ++ [t]).
Proof.
  intros parts g t H Hne E. destruct (snoc_cases parts) as [->|(init & l & ->)]; [congruence|].
  rewrite (process_seq_snoc _ init l) in E by (apply nonempty_filter; exact H). inversion E; subst.
  assert (Hc : Forall (fun c => clean c /\ c <> s_dotdot) (map esc (init ++ [l]))).
  { apply Forall_forall. intros x Hx. apply in_map_iff in Hx. destruct Hx as (y & <- & Hy).
    rewrite Forall_forall in H. apply esc_clean. auto. }
  assert (Hg : path_comps match init with [] => [fslash] | _ :: _ => join_slash (map esc init) end = map esc init).
  { destruct init as [|i0 init]; [reflexivity|]. apply path_comps_join. rewrite map_app in Hc. apply Forall_app in Hc.
    eapply Forall_impl; [|apply Hc]. cbn. tauto. }
  rewrite Hg, map_app. split; [reflexivity|]. rewrite map_app in Hc. eapply Forall_impl; [|exact Hc].
  cbn. intros a ((A & B & C) & D). auto.
Qed.

Lemma filter_ext_nonempty l : filter (fun p => negb (eqb_str p [])) l = filter nonempty l.
Proof. apply filter_ext. intros [|c p]; reflexivity. Qed.

Lemma process_seq_filter : forall parts, parts <> [] ->
  process_path (PSeq (map EStr parts)) =
  match filter (fun p => negb (eqb_str p [])) parts with
  | [] => Ok ([fslash], s_dot)
  | parts' => process_path (PSeq (map EStr parts'))
  end.
Proof.
  intros parts Hne. rewrite filter_ext_nonempty.
  destruct (filter nonempty parts) as [|p ps] eqn:E; [apply process_seq_empty; assumption|].
  destruct (snoc_cases (p :: ps)) as [?|(init & l & El)]; [discriminate|].
  rewrite El in *. rewrite (process_seq_snoc _ init l E).
  assert (Hf : filter nonempty (init ++ [l]) = init ++ [l]).
  { rewrite <- E. apply filter_all. apply Forall_forall. intros x Hx. apply filter_In in Hx. tauto. }
  rewrite (process_seq_snoc _ init l Hf). reflexivity.
Qed.

Lemma process_str_target : forall s, exists g t, process_path (PStr s) = Ok (g, t) /\
  g <> [] /\ t <> [] /\ ~ In fslash t.
Proof.
  intros s. pose proof (split_path_target s) as H. unfold process_path. cbn [path_string bindr].
  destruct (split_path s) as [g t]. exists g, t. destruct H as (A & B & C & D). auto.
Qed.

Lemma process_str_idem : forall s g t, isabs s = true ->
  process_path (PStr s) = Ok (g, t) ->
  process_path (PStr (posix_join g [t])) = Ok (g, t).
Proof.
  intros s g t Ha E. pose proof (split_path_idem s Ha) as H. unfold process_path in *. cbn [path_string bindr] in *.
  assert (E' : split_path s = (g, t)) by congruence. rewrite E' in H. congruence.
Qed.

Lemma process_str_clean : forall init l,
  Forall (fun c => c <> [] /\ c <> s_dot /\ c <> s_dotdot /\ ~ In fslash c) (init ++ [l]) ->
  process_path (PStr (fslash :: join_slash (init ++ [l]))) = Ok (fslash :: join_slash init, l).
Proof.
  intros init l H. unfold process_path. cbn [path_string bindr]. f_equal.
  apply (split_path_abs_clean (init ++ [l])).
  - eapply Forall_impl; [|exact H]. intros a (A & B & C & D). repeat split; assumption.
  - eapply Forall_impl; [|exact H]. intros a (A & B & C & D). assumption.
  - reflexivity.
Qed.

Lemma process_str_no_traversal : forall s g t, isabs s = true -> process_path (PStr s) = Ok (g, t) ->
  isabs g = true /\ Forall (fun c => c <> s_dotdot) (path_comps g) /\ t <> s_dotdot.
Proof.
  intros s g t Ha E. unfold process_path in E. cbn [path_string bindr] in E. assert (E' : split_path s = (g, t)) by congruence.
  pose proof (resolve_nf s) as Hnf. rewrite initial_isabs, Ha in Hnf. destruct Hnf as [Hc Hd].
  assert (Hk : exists k, initial_slashes s = S k).
  { pose proof (initial_isabs s) as Hi. rewrite Ha in Hi. destruct (initial_slashes s); [discriminate|eauto]. }
  destruct Hk as (k & Hk).
  destruct (snoc_cases (resolve s)) as [Er|(init & l & Er)].
  - rewrite (split_path_nil s Er), Hk in E'. inversion E'; subst. split; [reflexivity|]. split; [|discriminate].
    pose proof (path_comps_built (S k) [] (Forall_nil _)) as Hp. cbn [join_slash] in Hp. rewrite app_nil_r in Hp.
    cbn [repeat] in Hp. rewrite Hp. constructor.
  - rewrite (split_path_snoc s init l Er), Hk in E'. unfold pair_of in E'. cbn [repeat app] in E'.
    inversion E'; subst. rewrite Er in Hc, Hd. apply Forall_app in Hc, Hd.
    destruct Hc as [Hc _], Hd as [Hd Hl]. split; [reflexivity|]. split.
    + change (fslash :: repeat fslash k ++ join_slash init) with (repeat fslash (S k) ++ join_slash init).
      rewrite path_comps_built by exact Hc. exact Hd.
    + inversion Hl; assumption.
Qed.


Lemma process_str_cancel : forall pre x post, isabs pre = true ->
  x <> [] -> x <> s_dot -> x <> s_dotdot -> ~ In fslash x ->
  initial_slashes (pre ++ fslash :: post) = initial_slashes (pre ++ fslash :: x) ->
  process_path (PStr (pre ++ fslash :: x ++ fslash :: s_dotdot ++ fslash :: post)) =
  process_path (PStr (pre ++ fslash :: post)).
Proof.
  intros pre x post Ha H1 H2 H3 H4 Hi. unfold process_path. cbn [path_string bindr]. f_equal.
  pose proof (resolve_cancel pre x post Ha (conj H1 (conj H2 H4)) H3) as Hr.
  assert (Hi' : initial_slashes (pre ++ fslash :: x ++ fslash :: s_dotdot ++ fslash :: post) = initial_slashes (pre ++ fslash :: post)).
  { rewrite Hi. clear - H1 Ha. destruct x as [|c x]; [congruence|].
    destruct pre as [|a [|b [|d pre]]]; [discriminate|reflexivity..]. }
  destruct (snoc_cases (resolve (pre ++ fslash :: post))) as [E|(init & l & E)].
  - rewrite (split_path_nil _ E), (split_path_nil (pre ++ fslash :: x ++ fslash :: s_dotdot ++ fslash :: post)) by congruence.
    rewrite Hi'. reflexivity.
  - rewrite (split_path_snoc _ init l E), (split_path_snoc (pre ++ fslash :: x ++ fslash :: s_dotdot ++ fslash :: post) init l) by congruence.
    rewrite Hi'. reflexivity.
Qed.

Lemma process_rel_not_idem : exists s g t, process_path (PStr s) = Ok (g, t) /\
  process_path (PStr (posix_join g [t])) <> Ok (g, t).
Proof.
  exists (lit ".."), [fslash], s_dotdot. split; [vm_compute; reflexivity|].
  vm_compute. discriminate.
Qed.
