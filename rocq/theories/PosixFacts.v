From Verif Require Import Base PathEsc PosixPath.
Local Open Scope nat_scope.

Definition noslash (c : pystr) : Prop := ~ In fslash c.

Lemma noslash_cons x c : noslash (x :: c) <-> x <> fslash /\ noslash c.
Proof. unfold noslash. cbn. intuition. Qed.

Lemma split_noslash c : noslash c -> split_slash c = [c].
Proof.
  induction c as [|x c IH]; [reflexivity|]. intros H. apply noslash_cons in H. destruct H as [Hx Hc].
  cbn [split_slash]. rewrite IH by exact Hc. apply N.eqb_neq in Hx. rewrite Hx. reflexivity.
Qed.

Lemma split_app c s : noslash c -> split_slash (c ++ fslash :: s) = c :: split_slash s.
Proof.
  induction c as [|x c IH]; intros H.
  - cbn [app split_slash]. rewrite N.eqb_refl. reflexivity.
  - apply noslash_cons in H. destruct H as [Hx Hc]. cbn [app split_slash]. rewrite IH by exact Hc.
    apply N.eqb_neq in Hx. rewrite Hx. reflexivity.
Qed.

Lemma join_cons w ws : ws <> [] -> join_slash (w :: ws) = w ++ fslash :: join_slash ws.
Proof. destruct ws; [congruence|reflexivity]. Qed.

Lemma split_join cs : cs <> [] -> Forall noslash cs -> split_slash (join_slash cs) = cs.
Proof.
  intros Hne H. induction H as [|w ws Hw Hws IH]; [congruence|].
  destruct ws as [|v ws].
  - apply split_noslash. exact Hw.
  - rewrite join_cons by discriminate. rewrite split_app by exact Hw. rewrite IH by discriminate. reflexivity.
Qed.

Lemma split_nonempty s : split_slash s <> [].
Proof. destruct s as [|c s]; cbn; [discriminate|]. destruct (c =? fslash)%N; [discriminate|]. destruct (split_slash s); discriminate. Qed.

Lemma split_all_noslash s : Forall noslash (split_slash s).
Proof.
  induction s as [|c s IH]; cbn [split_slash].
  - repeat constructor. intros [].
  - destruct (N.eqb_spec c fslash).
    + constructor; [intros []|exact IH].
    + destruct (split_slash s) as [|w ws]; inversion IH; subst; constructor; auto.
      * intros [H|[]]; congruence.
      * apply noslash_cons. auto.
Qed.

Lemma join_split s : join_slash (split_slash s) = s.
Proof.
  induction s as [|c s IH]; [reflexivity|]. cbn [split_slash].
  destruct (N.eqb_spec c fslash) as [->|Hc].
  - rewrite join_cons by apply split_nonempty. rewrite IH. reflexivity.
  - destruct (split_slash s) as [|w ws] eqn:E; [destruct (split_nonempty s E)|].
    destruct ws as [|v ws]; cbn [join_slash app] in *; rewrite <- IH; reflexivity.
Qed.

Lemma join_app a b : a <> [] -> b <> [] -> join_slash (a ++ b) = join_slash a ++ fslash :: join_slash b.
Proof.
  intros Ha Hb. induction a as [|w ws IH]; [congruence|].
  destruct ws as [|v ws].
  - cbn [app]. rewrite join_cons by exact Hb. reflexivity.
  - cbn [app] in *. rewrite join_cons by discriminate. rewrite IH by discriminate.
    rewrite (join_cons w (v :: ws)) by discriminate. rewrite <- app_assoc. reflexivity.
Qed.

Lemma split_last_noslash t : noslash t -> split_last_slash t = ([], t).
Proof.
  induction t as [|c t IH]; [reflexivity|]. intros H. apply noslash_cons in H. destruct H as [Hc Ht].
  cbn [split_last_slash]. rewrite IH by exact Ht. apply N.eqb_neq in Hc. rewrite Hc. reflexivity.
Qed.

Lemma split_last_app h t : noslash t -> split_last_slash (h ++ fslash :: t) = (h ++ [fslash], t).
Proof.
  intros Ht. induction h as [|c h IH].
  - cbn [app split_last_slash]. rewrite split_last_noslash by exact Ht. rewrite N.eqb_refl. reflexivity.
  - cbn [app split_last_slash]. rewrite IH. destruct h; reflexivity.
Qed.

(** *** components *)
Definition clean (c : pystr) : Prop := c <> [] /\ c <> s_dot /\ noslash c.
Definition nf (initial : bool) (cs : list pystr) : Prop :=
  Forall clean cs /\
  if initial then Forall (fun c => c <> s_dotdot) cs
  else exists n rest, cs = repeat s_dotdot n ++ rest /\ Forall (fun c => c <> s_dotdot) rest.

Lemma clean_dotdot : clean s_dotdot.
Proof. repeat split; try discriminate. intros [H|[H|[]]]; discriminate. Qed.

Lemma nc_skip i acc c r : c = [] \/ c = s_dot -> norm_comps i acc (c :: r) = norm_comps i acc r.
Proof. intros [-> | ->]; reflexivity. Qed.

Lemma nc_push i acc c r : c <> [] -> c <> s_dot -> c <> s_dotdot ->
  norm_comps i acc (c :: r) = norm_comps i (c :: acc) r.
Proof.
  intros H1 H2 H3. cbn [norm_comps].
  apply eqb_str_neq in H1, H2, H3. rewrite H1, H2, H3. reflexivity.
Qed.

Lemma nc_plain i acc cs : Forall clean cs -> Forall (fun c => c <> s_dotdot) cs ->
  norm_comps i acc cs = rev acc ++ cs.
Proof.
  revert acc; induction cs as [|c cs IH]; intros acc H1 H2.
  - cbn. rewrite app_nil_r. reflexivity.
  - inversion H1 as [|? ? (A & B & C)]; inversion H2; subst.
    rewrite nc_push by assumption. rewrite IH by assumption. cbn [rev]. rewrite <- app_assoc. reflexivity.
Qed.

Lemma nc_dotdots n m rest : 
  norm_comps false (repeat s_dotdot m) (repeat s_dotdot n ++ rest) = norm_comps false (repeat s_dotdot (n + m)) rest.
Proof.
  revert m; induction n as [|n IH]; intros m; [reflexivity|].
  cbn [repeat app norm_comps]. change (eqb_str s_dotdot [] || eqb_str s_dotdot s_dot) with false. cbv iota.
  change (negb (eqb_str s_dotdot s_dotdot)) with false.
  destruct m as [|m].
  - cbn [repeat]. change (false || negb false && true || false) with true. cbv iota.
    change [s_dotdot] with (repeat s_dotdot 1). rewrite IH. f_equal.
    replace (n + 1) with (S n + 0) by lia. reflexivity.
  - cbn [repeat]. change (eqb_str s_dotdot s_dotdot) with true. cbn [negb andb orb].
    change (s_dotdot :: s_dotdot :: repeat s_dotdot m) with (repeat s_dotdot (S (S m))).
    rewrite IH. f_equal. replace (n + S (S m)) with (S n + S m) by lia. reflexivity.
Qed.

Lemma rev_repeat {A} (a : A) n : rev (repeat a n) = repeat a n.
Proof.
  induction n as [|n IH]; [reflexivity|]. cbn [repeat rev]. rewrite IH.
  clear IH. induction n as [|n IH]; [reflexivity|]. cbn [repeat app]. rewrite IH. reflexivity.
Qed.

Lemma nc_nf_id i cs : nf i cs -> norm_comps i [] cs = cs.
Proof.
  intros [Hc H]. destruct i.
  - rewrite nc_plain by assumption. reflexivity.
  - destruct H as (n & rest & -> & Hr).
    change ([] : list pystr) with (repeat s_dotdot 0). rewrite nc_dotdots.
    apply Forall_app in Hc. rewrite nc_plain by tauto.
    rewrite rev_repeat, Nat.add_0_r. reflexivity.
Qed.

(** invariant of the loop: [rev acc] is in normal form *)
Lemma nc_nf i : forall cs acc, Forall noslash cs -> nf i (rev acc) -> nf i (norm_comps i acc cs).
Proof.
  induction cs as [|c cs IH]; intros acc Hns Hacc; [exact Hacc|].
  inversion Hns as [|? ? Hc Hcs]; subst. cbn [norm_comps].
  destruct (eqb_str_spec c []) as [->|N1]; [apply IH; assumption|].
  destruct (eqb_str_spec c s_dot) as [->|N2]; [apply IH; assumption|].
  cbn [orb]. destruct (eqb_str_spec c s_dotdot) as [->|N3]; cbn [negb orb].
  - destruct acc as [|a acc].
    + destruct i; cbn [negb andb orb].
      * apply IH; assumption.
      * apply IH; [assumption|]. split; [constructor; [apply clean_dotdot|constructor]|].
        exists 1, []. split; [reflexivity|constructor].
    + rewrite andb_false_r. cbn [orb].
      destruct (eqb_str_spec a s_dotdot) as [->|Ha].
      * apply IH; [assumption|]. destruct Hacc as [Hcl Hd]. split.
        -- cbn [rev] in *. apply Forall_app. split; [exact Hcl|]. constructor; [apply clean_dotdot|constructor].
        -- destruct i.
           ++ cbn [rev] in Hd. apply Forall_app in Hd. destruct Hd as [_ Hd]. inversion Hd; congruence.
           ++ destruct Hd as (n & rest & E & Hr). cbn [rev] in E.
              assert (rest = []) as ->.
              { destruct rest as [|y rest']; [reflexivity|].
                exfalso. destruct (@exists_last _ (y :: rest')) as (q & x & Eq); [discriminate|].
                rewrite Eq in *. rewrite app_assoc in E. apply app_inj_tail in E. destruct E as [_ <-].
                apply Forall_app in Hr. destruct Hr as [_ Hr]. inversion Hr; congruence. }
              rewrite app_nil_r in E. exists (S n), []. split; [|constructor].
              rewrite app_nil_r. cbn [rev]. rewrite E. symmetry. change (s_dotdot :: repeat s_dotdot n) with (repeat s_dotdot (S n)).
              replace (S n) with (n + 1) by lia. rewrite repeat_app. reflexivity.
      * apply IH; [assumption|]. destruct Hacc as [Hcl Hd]. cbn [rev] in *. apply Forall_app in Hcl.
        split; [tauto|]. destruct i.
        -- apply Forall_app in Hd. tauto.
        -- destruct Hd as (n & rest & E & Hr). exists n.
           destruct rest as [|y rest'].
           ++ exfalso. rewrite app_nil_r in E. destruct n as [|n]; [destruct (rev acc); discriminate|].
              replace (S n) with (n + 1) in E by lia. rewrite repeat_app in E. cbn in E.
              apply app_inj_tail in E. destruct E; congruence.
           ++ destruct (@exists_last _ (y :: rest')) as (q & x & Eq); [discriminate|]. rewrite Eq in *.
              rewrite app_assoc in E. apply app_inj_tail in E. destruct E as [E _].
              exists q. split; [exact E|]. apply Forall_app in Hr. tauto.
  - apply IH; [assumption|]. destruct Hacc as [Hcl Hd]. cbn [rev]. split.
    + apply Forall_app. split; [exact Hcl|]. repeat constructor; auto.
    + destruct i.
      * apply Forall_app. split; [exact Hd|]. constructor; auto.
      * destruct Hd as (n & rest & E & Hr). exists n, (rest ++ [c]). split.
        -- rewrite E, <- app_assoc. reflexivity.
        -- apply Forall_app. split; [exact Hr|]. constructor; auto.
Qed.

Lemma nf_nil i : nf i [].
Proof. split; [constructor|]. destruct i; [constructor|]. exists 0, []. split; [reflexivity|constructor]. Qed.

Definition resolve (s : pystr) : list pystr :=
  norm_comps (negb (Nat.eqb (initial_slashes s) 0)) [] (split_slash s).

Lemma resolve_nf s : nf (negb (Nat.eqb (initial_slashes s) 0)) (resolve s).
Proof. apply nc_nf; [apply split_all_noslash|apply nf_nil]. Qed.

Lemma normpath_eq s : s <> [] -> normpath s =
  match repeat fslash (initial_slashes s) ++ join_slash (resolve s) with [] => s_dot | p => p end.
Proof. destruct s; [congruence|]. intros _. unfold normpath. fold (resolve (n :: s)). destruct (repeat fslash (initial_slashes (n :: s)) ++ join_slash (resolve (n :: s))); reflexivity. Qed.

Lemma initial_le s : initial_slashes s <= 2.
Proof.
  destruct s as [|a r]; cbn; [lia|]. destruct (a =? fslash)%N; [|lia].
  destruct r as [|b r]; [lia|]. destruct (b =? fslash)%N; [|lia].
  destruct r as [|c r]; [lia|]. destruct (c =? fslash)%N; lia.
Qed.

Lemma initial_isabs s : negb (Nat.eqb (initial_slashes s) 0) = isabs s.
Proof.
  destruct s as [|a r]; cbn; [reflexivity|]. destruct (a =? fslash)%N; [|reflexivity].
  destruct r as [|b r]; [reflexivity|]. destruct (b =? fslash)%N; [|reflexivity].
  destruct r as [|c r]; [reflexivity|]. destruct (c =? fslash)%N; reflexivity.
Qed.

Lemma join_head cs : Forall clean cs -> match join_slash cs with c :: _ => c <> fslash | [] => cs = [] end.
Proof.
  intros H. destruct cs as [|w ws]; [reflexivity|]. inversion H as [|? ? (A & B & C) D]; subst.
  destruct w as [|c w]; [congruence|]. apply noslash_cons in C.
  destruct ws; cbn; tauto.
Qed.

Lemma initial_repeat k p : k <= 2 -> match p with c :: _ => c <> fslash | [] => True end ->
  initial_slashes (repeat fslash k ++ p) = k.
Proof.
  intros Hk Hp. destruct k as [|[|[|k]]]; [| | |lia]; cbn [repeat app initial_slashes]; rewrite ?N.eqb_refl.
  - destruct p as [|c p]; [reflexivity|]. cbn. apply N.eqb_neq in Hp. rewrite Hp. reflexivity.
  - destruct p as [|c p]; [reflexivity|]. apply N.eqb_neq in Hp. rewrite Hp. reflexivity.
  - destruct p as [|c p]; [reflexivity|]. apply N.eqb_neq in Hp. rewrite Hp. reflexivity.
Qed.

Lemma split_repeat k p : split_slash (repeat fslash k ++ p) = repeat [] k ++ split_slash p.
Proof.
  induction k as [|k IH]; [reflexivity|]. cbn [repeat app split_slash].
  change (fslash =? fslash)%N with true. cbv iota. rewrite IH. reflexivity.
Qed.

Lemma nc_skip_empties i acc k r : norm_comps i acc (repeat [] k ++ r) = norm_comps i acc r.
Proof. induction k as [|k IH]; [reflexivity|]. cbn [repeat app]. rewrite nc_skip by auto. exact IH. Qed.

(** the components of a path built from a normal form *)
Lemma resolve_built k cs : k <= 2 -> nf (negb (Nat.eqb k 0)) cs ->
  initial_slashes (repeat fslash k ++ join_slash cs) = k /\ resolve (repeat fslash k ++ join_slash cs) = cs.
Proof.
  intros Hk Hnf. pose proof (join_head cs (proj1 Hnf)) as Hh.
  assert (Hi : initial_slashes (repeat fslash k ++ join_slash cs) = k).
  { apply initial_repeat; [exact Hk|]. destruct (join_slash cs); auto. }
  split; [exact Hi|]. unfold resolve. rewrite Hi, split_repeat, nc_skip_empties.
  destruct cs as [|w ws]; [reflexivity|].
  rewrite split_join; [|discriminate|].
  - apply nc_nf_id. exact Hnf.
  - destruct Hnf as [Hc _]. eapply Forall_impl; [|exact Hc]. intros a (A & B & C). exact C.
Qed.

(** *** join *)
Lemma ends_slash_app p c : ends_slash (p ++ [c]) = (c =? fslash)%N.
Proof. unfold ends_slash. rewrite rev_app_distr. reflexivity. Qed.

Lemma ends_noslash p : noslash p -> ends_slash p = false.
Proof.
  intros H. destruct p as [|c p]; [reflexivity|].
  destruct (@exists_last _ (c :: p)) as (q & x & E); [discriminate|]. rewrite E in *.
  rewrite ends_slash_app. apply N.eqb_neq. intros ->. apply H. apply in_or_app. right. left. reflexivity.
Qed.

Lemma starts_noslash p : noslash p -> starts_slash p = false.
Proof. destruct p as [|c p]; [reflexivity|]. intros H. apply noslash_cons in H. apply N.eqb_neq. tauto. Qed.

Lemma ends_slash_app_noslash p w : w <> [] -> noslash w -> ends_slash (p ++ w) = false.
Proof.
  intros Hw Hn. destruct (@exists_last _ w Hw) as (q & x & ->). rewrite app_assoc, ends_slash_app.
  apply N.eqb_neq. intros ->. apply Hn. apply in_or_app. right. left. reflexivity.
Qed.

Definition part_ok (w : pystr) : Prop := w <> [] /\ noslash w.

Lemma posix_join_parts ws : forall p, p <> [] -> ends_slash p = false -> Forall part_ok ws ->
  posix_join p ws = match ws with [] => p | _ => p ++ fslash :: join_slash ws end.
Proof.
  induction ws as [|w ws IH]; intros p Hp He Hws; [reflexivity|].
  inversion Hws as [|? ? [H1 H2] H3]; subst. unfold posix_join in *. cbn [fold_left].
  assert (E : join_step p w = p ++ fslash :: w).
  { unfold join_step. rewrite starts_noslash by exact H2. destruct p; [congruence|]. rewrite He. reflexivity. }
  rewrite E. rewrite IH; [|destruct p; discriminate| |exact H3].
  - destruct ws; [reflexivity|]. rewrite (join_cons w) by discriminate. rewrite <- app_assoc. reflexivity.
  - change (p ++ fslash :: w) with (p ++ [fslash] ++ w). rewrite app_assoc. apply ends_slash_app_noslash; assumption.
Qed.

Lemma posix_join_star_parts ws : ws <> [] -> Forall part_ok ws ->
  posix_join_star ws = Ok (join_slash ws).
Proof.
  intros Hne H. destruct ws as [|w ws]; [congruence|]. inversion H as [|? ? [H1 H2] H3]; subst.
  cbn [posix_join_star]. rewrite posix_join_parts by auto using ends_noslash. destruct ws; reflexivity.
Qed.

(** *** dirname / basename of built paths *)
Lemma rstrip_app h : ends_slash h = false -> rstrip_slashes (h ++ [fslash]) = h.
Proof.
  intros H. unfold rstrip_slashes. rewrite rev_app_distr. cbn. 
  unfold ends_slash in H. destruct (rev h) as [|c r] eqn:E.
  - apply (f_equal (@rev N)) in E. rewrite rev_involutive in E. subst. reflexivity.
  - cbn in *. rewrite H. rewrite <- E. apply rev_involutive.
Qed.

Lemma forallb_slash_false h w : w <> [] -> noslash w -> forallb (N.eqb fslash) (h ++ w ++ [fslash]) = false.
Proof.
  intros Hw Hn. rewrite !forallb_app. destruct w as [|c w]; [congruence|]. apply noslash_cons in Hn.
  cbn [forallb]. destruct (N.eqb_spec fslash c); [intuition congruence|]. cbn [andb]. apply andb_false_r.
Qed.

Lemma dir_base_rel t : noslash t -> dirname t = [] /\ basename t = t.
Proof. intros H. unfold dirname, basename. rewrite split_last_noslash by exact H. auto. Qed.

Lemma dir_base_slashes k t : noslash t -> dirname (repeat fslash (S k) ++ t) = repeat fslash (S k) /\
  basename (repeat fslash (S k) ++ t) = t.
Proof.
  intros H. replace (repeat fslash (S k)) with (repeat fslash k ++ [fslash]) by
    (replace (S k) with (k + 1) by lia; rewrite repeat_app; reflexivity).
  unfold dirname, basename. rewrite <- app_assoc. cbn [app]. rewrite split_last_app by exact H. cbn [fst snd].
  split; [|reflexivity].
  assert (forallb (N.eqb fslash) (repeat fslash k ++ [fslash]) = true) as ->; [|reflexivity].
  rewrite forallb_app. cbn [forallb]. rewrite N.eqb_refl. rewrite andb_true_r. induction k; cbn; auto.
Qed.

Lemma last_join_end cs : cs <> [] -> Forall part_ok cs -> exists h w, join_slash cs = h ++ w /\ part_ok w.
Proof.
  intros Hne H. destruct (@exists_last _ cs Hne) as (q & w & ->).
  apply Forall_app in H. destruct H as [_ H]. inversion H; subst.
  destruct q as [|q0 q].
  - exists [], w. auto.
  - rewrite join_app by discriminate. exists (join_slash (q0 :: q) ++ [fslash]), w.
    rewrite <- app_assoc. auto.
Qed.

Lemma dir_base_join pre init l : init <> [] -> Forall part_ok init -> noslash l ->
  dirname (pre ++ join_slash (init ++ [l])) = pre ++ join_slash init /\
  basename (pre ++ join_slash (init ++ [l])) = l.
Proof.
  intros Hne Hi Hl. rewrite join_app by (assumption || discriminate). cbn [join_slash].
  rewrite app_assoc. unfold dirname, basename. rewrite split_last_app by exact Hl. cbn [fst snd].
  split; [|reflexivity].
  destruct (last_join_end init Hne Hi) as (h & w & -> & [Hw Hwn]).
  assert (E : forallb (N.eqb fslash) ((pre ++ h ++ w) ++ [fslash]) = false).
  { rewrite app_assoc, <- app_assoc. apply forallb_slash_false; assumption. }
  rewrite E. apply rstrip_app. rewrite app_assoc. apply ends_slash_app_noslash; assumption.
Qed.
