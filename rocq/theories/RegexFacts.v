(** Facts about the regex engine model. *)
From Verif Require Import Base Regex.
Local Open Scope nat_scope.

Definition rlen (st : rst) : nat := List.length (snd st).

Fixpoint iterR (m : rst -> list rst) (k : nat) (st st' : rst) : Prop :=
  match k with
  | O => st = st'
  | S k' => exists st1, In st1 (m st) /\ iterR m k' st1 st'
  end.

Definition le_opt (k : nat) (o : option nat) : Prop :=
  match o with None => True | Some n => k <= n end.

Lemma rep_S m fuel' mn mx st : rep m (S fuel') mn mx st =
        (match mx with
         | Some O => []
         | _ => flat_map (fun st' =>
                  if Nat.ltb (List.length (snd st')) (List.length (snd st))
                  then rep m fuel' (pred mn) (dec_opt mx) st' else [])
                (m st)
         end) ++ (match mn with O => [st] | S _ => [] end).
Proof. reflexivity. Qed.

Lemma rep_In m (Hm : forall a b, In b (m a) -> rlen b < rlen a) :
  forall fuel mn mx st st', rlen st < fuel ->
  In st' (rep m fuel mn mx st) <-> exists k, mn <= k /\ le_opt k mx /\ iterR m k st st'.
Proof.
  induction fuel as [|fuel IH]; intros mn mx st st' Hf; [lia|].
  cbn [rep]. rewrite in_app_iff. split.
  - intros [H|H].
    + assert (H' : mx <> Some O /\ In st' (flat_map (fun st'0 : rst =>
          if length (snd st'0) <? length (snd st) then rep m fuel (pred mn) (dec_opt mx) st'0 else []) (m st))).
      { destruct mx as [[|n]|]; [destruct H|split; [discriminate|exact H]..]. }
      destruct H' as [Hmx H'].
      apply in_flat_map in H'. destruct H' as (st1 & H1 & H2).
      pose proof (Hm _ _ H1) as Hl. unfold rlen in *.
      destruct (Nat.ltb_spec (length (snd st1)) (length (snd st))); [|lia].
      apply IH in H2; [|unfold rlen; lia].
      destruct H2 as (k & Hk1 & Hk2 & Hk3). exists (S k). split; [lia|]. split.
      * destruct mx as [[|n]|]; cbn in *; [congruence|lia|exact I].
      * cbn. exists st1. auto.
    + destruct mn; [|destruct H]. destruct H as [->|[]]. exists 0. cbn.
      split; [lia|]. split; [destruct mx; cbn; [lia|exact I]|reflexivity].
  - intros (k & Hk1 & Hk2 & Hk3). destruct k as [|k].
    + right. assert (mn = 0) by lia. subst. cbn in Hk3. subst. left; reflexivity.
    + left. cbn in Hk3. destruct Hk3 as (st1 & H1 & H2).
      assert (H' : In st' (flat_map (fun st'0 : rst =>
          if length (snd st'0) <? length (snd st) then rep m fuel (pred mn) (dec_opt mx) st'0 else []) (m st))).
      { apply in_flat_map. exists st1. split; [exact H1|].
        pose proof (Hm _ _ H1) as Hl. unfold rlen in *.
        destruct (Nat.ltb_spec (length (snd st1)) (length (snd st))); [|lia].
        apply IH; [unfold rlen; lia|]. exists k. split; [lia|]. split; [|exact H2].
        destruct mx as [[|n]|]; cbn in *; [lia|lia|exact I]. }
      destruct mx as [[|n]|]; [cbn in Hk2; lia|exact H'|exact H'].
Qed.

Lemma class_progress p a b : In b (matches (RClass p) a) -> rlen b < rlen a.
Proof.
  cbn. destruct a as [bl s]; cbn. destruct s as [|c s]; [intros []|].
  destruct (p c); [|intros []]. intros [<-|[]]. unfold rlen; cbn. lia.
Qed.

Lemma class_In p st st' : In st' (matches (RClass p) st) <->
  exists c, p c = true /\ snd st = c :: snd st' /\ fst st' = false.
Proof.
  cbn. destruct st as [bl s], st' as [bl' s']; cbn. destruct s as [|c s].
  - split; [intros []|intros (c & _ & H & _); discriminate].
  - destruct (p c) eqn:E.
    + split.
      * intros [H|[]]. inversion H; subst. exists c; auto.
      * intros (c' & H1 & H2 & H3). inversion H2; subst. left; reflexivity.
    + split; [intros []|]. intros (c' & H1 & H2 & H3). inversion H2; subst. congruence.
Qed.

Lemma iter_class p k : forall st st', iterR (matches (RClass p)) k st st' <->
  exists cs, List.length cs = k /\ forallb p cs = true /\ snd st = cs ++ snd st' /\
             (fst st' = match k with O => fst st | _ => false end).
Proof.
  induction k as [|k IH]; intros st st'; cbn [iterR].
  - split.
    + intros ->. exists []. auto.
    + intros (cs & H1 & H2 & H3 & H4). destruct cs; [|discriminate]. cbn in H3.
      destruct st, st'; cbn in *; congruence.
  - split.
    + intros (st1 & H1 & H2). apply class_In in H1. destruct H1 as (c & Hc & Hs & Hf).
      apply IH in H2. destruct H2 as (cs & Hl & Ha & Hs' & Hf'). exists (c :: cs).
      cbn. rewrite Hl, Hc, Ha, Hs, Hs'. repeat split; auto. rewrite Hf'. destruct k; auto.
    + intros (cs & H1 & H2 & H3 & H4). destruct cs as [|c cs]; [discriminate|].
      cbn in H2. apply andb_prop in H2. destruct H2 as [H2 H2'].
      exists (false, cs ++ snd st'). split.
      * apply class_In. exists c. cbn. auto.
      * apply IH. exists cs. cbn in *. repeat split; auto. rewrite H4. destruct k; reflexivity.
Qed.

Lemma rep_class_In p mn mx st st' :
  In st' (matches (RRep mn mx (RClass p)) st) <->
  exists cs, mn <= List.length cs /\ le_opt (List.length cs) mx /\ forallb p cs = true /\
     snd st = cs ++ snd st' /\ (fst st' = match cs with [] => fst st | _ => false end).
Proof.
  cbn [matches]. rewrite rep_In.
  2:{ intros a b. apply class_progress. }
  2:{ unfold rlen; lia. }
  split.
  - intros (k & H1 & H2 & H3). apply iter_class in H3. destruct H3 as (cs & H3 & H4 & H5 & H6).
    exists cs. subst k. repeat split; auto. rewrite H6. destruct cs; reflexivity.
  - intros (cs & H1 & H2 & H3 & H4 & H5). exists (List.length cs). repeat split; auto.
    apply iter_class. exists cs. repeat split; auto. rewrite H5. destruct cs; reflexivity.
Qed.

(** Greedy repetition of a class over a maximal run: longest first. *)
Fixpoint pre_tails (cs rest : pystr) : list pystr :=
  match cs with [] => [rest] | c :: cs' => pre_tails cs' rest ++ [c :: cs' ++ rest] end.

Lemma rep_class_run p cs rest :
  forallb p cs = true -> (match rest with c :: _ => p c = false | [] => True end) ->
  forall fuel, length cs < fuel ->
  rep (matches (RClass p)) fuel 0 None (false, cs ++ rest) = map (pair false) (pre_tails cs rest).
Proof.
  intros Hcs Hr. induction cs as [|c cs IH]; intros fuel Hf.
  - destruct fuel; [cbn in Hf; lia|]. cbn [rep pre_tails map app].
    assert (matches (RClass p) (false, rest) = []) as ->.
    { cbn. destruct rest; [reflexivity|]. rewrite Hr. reflexivity. }
    reflexivity.
  - destruct fuel; [cbn in Hf; lia|]. cbn in Hcs. apply andb_prop in Hcs. destruct Hcs as [Hc Hcs].
    cbn [rep]. assert (matches (RClass p) (false, (c :: cs) ++ rest) = [(false, cs ++ rest)]) as ->.
    { cbn. rewrite Hc. reflexivity. }
    cbn [flat_map snd]. rewrite app_nil_r.
    destruct (Nat.ltb_spec (length (cs ++ rest)) (length ((c :: cs) ++ rest))) as [H|H];
      [|cbn in H; lia].
    cbn [dec_opt]. rewrite IH; [|exact Hcs|cbn in Hf; lia].
    cbn [pre_tails]. rewrite map_app. reflexivity.
Qed.

Lemma rep_class_run1 p b c cs rest :
  forallb p (c :: cs) = true -> (match rest with d :: _ => p d = false | [] => True end) ->
  matches (RRep 1 None (RClass p)) (b, c :: cs ++ rest) = map (pair false) (pre_tails cs rest).
Proof.
  intros Hcs Hr. cbn in Hcs. apply andb_prop in Hcs. destruct Hcs as [Hc Hcs].
  change (matches (RRep 1 None (RClass p)) (b, c :: cs ++ rest)) with
    (rep (matches (RClass p)) (S (S (length (cs ++ rest)))) 1 None (b, c :: cs ++ rest)).
  rewrite rep_S. assert (matches (RClass p) (b, c :: cs ++ rest) = [(false, cs ++ rest)]) as ->.
  { cbn. rewrite Hc. reflexivity. }
  cbn [flat_map snd]. rewrite !app_nil_r.
  destruct (Nat.ltb_spec (length (cs ++ rest)) (length (c :: cs ++ rest))) as [H|H];
    [|cbn in H; lia].
  cbn [dec_opt pred]. apply rep_class_run; auto. rewrite app_length. lia.
Qed.

Lemma rep_class_run1_none p b s :
  (match s with d :: _ => p d = false | [] => True end) ->
  matches (RRep 1 None (RClass p)) (b, s) = [].
Proof.
  intros H. cbn. destruct s as [|d s]; cbn; [reflexivity|]. rewrite H. reflexivity.
Qed.

(** Exactly n characters of a class. *)
Fixpoint all_n (p : N -> bool) (n : nat) (s : pystr) : bool :=
  match n with
  | O => true
  | S n' => match s with c :: s' => p c && all_n p n' s' | [] => false end
  end.

Lemma all_n_split p n s : all_n p n s = true <->
  exists ds tl, s = ds ++ tl /\ length ds = n /\ forallb p ds = true.
Proof.
  revert s; induction n as [|n IH]; intros s; cbn.
  - split; [|auto]. intros _. exists [], s. auto.
  - destruct s as [|c s].
    + split; [discriminate|]. intros (ds & tl & H1 & H2 & H3). destruct ds; discriminate.
    + rewrite andb_true_iff, IH. split.
      * intros (Hc & ds & tl & H1 & H2 & H3). exists (c :: ds), tl. cbn. subst. rewrite Hc, H3. auto.
      * intros (ds & tl & H1 & H2 & H3). destruct ds as [|d ds]; [discriminate|].
        cbn in *. inversion H1; subst. apply andb_prop in H3. destruct H3. split; auto.
        exists ds, tl. auto.
Qed.

Lemma rep_exact p n : forall b s fuel, length s < fuel ->
  rep (matches (RClass p)) fuel n (Some n) (b, s) =
  if all_n p n s then [(match n with O => b | _ => false end, skipn n s)] else [].
Proof.
  induction n as [|n IH]; intros b s fuel Hf.
  - destruct fuel; [lia|]. cbn. reflexivity.
  - destruct fuel; [lia|]. cbn [rep dec_opt pred all_n]. destruct s as [|c s]; [reflexivity|].
    cbn [matches snd]. destruct (p c) eqn:E; cbn [andb]; [|reflexivity].
    cbn [flat_map snd]. rewrite !app_nil_r.
    destruct (Nat.ltb_spec (length s) (length (c :: s))) as [H|H]; [|cbn in H; lia].
    rewrite IH by (cbn in Hf; lia). destruct (all_n p n s); [|reflexivity]. cbn. destruct n; reflexivity.
Qed.

Lemma matches_exact p n b s :
  matches (RRep n (Some n) (RClass p)) (b, s) =
  if all_n p n s then [(match n with O => b | _ => false end, skipn n s)] else [].
Proof. change (matches (RRep n (Some n) (RClass p)) (b, s)) with
    (rep (matches (RClass p)) (S (length s)) n (Some n) (b, s)). apply rep_exact. lia. Qed.

Lemma search_from_spec r s : forall b, re_search_from r b s = true <->
  exists pre suf, s = pre ++ suf /\
     matches r (match pre with [] => b | _ => false end, suf) <> [].
Proof.
  induction s as [|c s IH]; intros b.
  - cbn [re_search_from]. destruct (matches r (b, [])) eqn:E.
    + split; [intros Hx; discriminate Hx|]. intros (pre & suf & H & Hm). symmetry in H.
      apply app_eq_nil in H. destruct H; subst. congruence.
    + split; [|reflexivity]. intros _. exists [], []. split; [reflexivity|]. rewrite E. discriminate.
  - cbn [re_search_from]. destruct (matches r (b, c :: s)) eqn:E.
    + rewrite IH. split.
      * intros (pre & suf & H & Hm). exists (c :: pre), suf. split; [cbn; congruence|].
        destruct pre; exact Hm.
      * intros (pre & suf & H & Hm). destruct pre as [|d pre].
        -- cbn in H. subst. congruence.
        -- cbn in H. inversion H; subst. exists pre, suf. split; [reflexivity|].
           destruct pre; exact Hm.
    + split; [|reflexivity]. intros _. exists [], (c :: s). split; [reflexivity|]. rewrite E. discriminate.
Qed.
