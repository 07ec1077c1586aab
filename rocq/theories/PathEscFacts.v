(** Proofs about escape_path / unescape_path. *)
From Verif Require Import Base Regex RegexFacts PathEsc PathEscSpec.
Local Open Scope nat_scope.

Lemma nonempty_In {A} (l : list A) : l <> [] <-> exists x, In x l.
Proof.
  destruct l as [|a l]; split; try congruence.
  - intros (x & []).
  - intros _. exists a. left; reflexivity.
Qed.

Lemma seq_In a b st st' : In st' (matches (RSeq a b) st) <->
  exists st1, In st1 (matches a st) /\ In st' (matches b st1).
Proof. cbn [matches]. apply in_flat_map. Qed.

Lemma alt_In a b st st' : In st' (matches (RAlt a b) st) <->
  In st' (matches a st) \/ In st' (matches b st).
Proof. cbn [matches]. apply in_app_iff. Qed.

Lemma eol_In st st' : In st' (matches REol st) <->
  st' = st /\ (snd st = [] \/ snd st = [10%N]).
Proof.
  cbn. destruct st as [b s]; cbn. destruct s as [|c [|d s]].
  - split; [intros [<-|[]]; auto|intros [-> _]; left; reflexivity].
  - destruct (N.eqb_spec c 10).
    + subst. split; [intros [<-|[]]; auto|intros [-> _]; left; reflexivity].
    + split; [intros []|]. intros [_ [H|H]]; congruence.
  - split; [intros []|]. intros [_ [H|H]]; congruence.
Qed.

Lemma bol_In st st' : In st' (matches RBol st) <-> st' = st /\ fst st = true.
Proof.
  cbn. destruct (fst st); split.
  - intros [<-|[]]; auto.
  - intros [-> _]; left; reflexivity.
  - intros [].
  - intros [_ H]; discriminate.
Qed.

Lemma cls1_In x st st' : In st' (matches (cls1 x) st) <-> snd st = x :: snd st' /\ fst st' = false.
Proof.
  unfold cls1. rewrite class_In. split.
  - intros (c & H & H1 & H2). apply N.eqb_eq in H. subst. auto.
  - intros [H1 H2]. exists x. rewrite N.eqb_refl. auto.
Qed.

Definition two_bs := RSeq (cls1 bslash) (cls1 bslash).

Lemma two_bs_In st st' : In st' (matches two_bs st) <->
  snd st = bslash :: bslash :: snd st' /\ fst st' = false.
Proof.
  unfold two_bs. rewrite seq_In. split.
  - intros (st1 & H1 & H2). apply cls1_In in H1, H2. destruct H1, H2. split; [congruence|auto].
  - intros [H1 H2]. exists (false, bslash :: snd st'). split; apply cls1_In; cbn; auto.
Qed.

Lemma iter_two_bs k : forall st st', iterR (matches two_bs) k st st' <->
  snd st = repeat bslash (2 * k) ++ snd st' /\ fst st' = (match k with O => fst st | _ => false end).
Proof.
  induction k as [|k IH]; intros st st'; cbn [iterR].
  - cbn. split; [intros ->; auto|]. destruct st, st'; cbn. intros [-> ->]; reflexivity.
  - replace (2 * S k) with (S (S (2 * k))) by lia. cbn [repeat app]. split.
    + intros (st1 & H1 & H2). apply two_bs_In in H1. apply IH in H2.
      destruct H1 as [H1 H1'], H2 as [H2 H2']. rewrite H1, H2. split; [reflexivity|].
      rewrite H2'. destruct k; auto.
    + intros [H1 H2]. exists (false, repeat bslash (2 * k) ++ snd st'). split.
      * apply two_bs_In. auto.
      * apply IH. cbn. split; [reflexivity|]. rewrite H2. destruct k; reflexivity.
Qed.

Lemma rep_two_bs_In st st' : In st' (matches (RRep 0 None two_bs) st) <->
  exists k, snd st = repeat bslash (2 * k) ++ snd st' /\
            fst st' = (match k with O => fst st | _ => false end).
Proof.
  change (matches (RRep 0 None two_bs) st) with
    (rep (matches two_bs) (S (rlen st)) 0 None st).
  rewrite rep_In.
  - split.
    + intros (k & _ & _ & H). apply iter_two_bs in H. eauto.
    + intros (k & H). exists k. split; [lia|]. split; [exact I|]. apply iter_two_bs. exact H.
  - intros a b H. apply two_bs_In in H. unfold rlen. destruct H as [H _]. rewrite H. cbn. lia.
  - lia.
Qed.

(** end_or_nonhex after at most k hex digits: not k+1 hex digits ahead *)
Lemma short_hex k b s :
  (exists st', In st' (matches (RSeq (RRep 0 (Some k) hexc) end_or_nonhex) (b, s))) <->
  all_n is_hex (S k) s = false.
Proof.
  split.
  - intros (st' & H). apply seq_In in H. destruct H as (st1 & H1 & H2).
    apply rep_class_In in H1. destruct H1 as (cs & _ & Hle & Hall & Hs & _). cbn [snd le_opt] in *.
    apply not_true_is_false. intros Ht. apply all_n_split in Ht.
    destruct Ht as (ds & tl & -> & Hl & Hd).
    unfold end_or_nonhex in H2. apply alt_In in H2.
    assert (Hnext : match snd st1 with [] => True | c :: _ => is_hex c = false end).
    { destruct H2 as [H2|H2].
      - apply eol_In in H2. destruct H2 as [_ [H2|H2]]; rewrite H2; [exact I|reflexivity].
      - unfold nhexc in H2. apply class_In in H2. destruct H2 as (c & Hc & H2 & _). rewrite H2.
        destruct (is_hex c); [discriminate|reflexivity]. }
    assert (Hlen : length cs < length ds) by lia.
    destruct (snd st1) as [|c r] eqn:E.
    + apply (f_equal (@length N)) in Hs. rewrite !app_length in Hs. cbn in Hs. lia.
    + assert (Hin : nth (length cs) (ds ++ tl) 0%N = c).
      { rewrite Hs, app_nth2, Nat.sub_diag by lia. reflexivity. }
      rewrite app_nth1 in Hin by lia.
      rewrite forallb_forall in Hd. specialize (Hd c). rewrite Hnext in Hd.
      assert (In c ds) by (rewrite <- Hin; apply nth_In; lia). specialize (Hd H). discriminate.
  - revert b s. induction k as [|k IH]; intros b s H.
    + destruct s as [|c s].
      * exists (b, []). apply seq_In. exists (b, []). split.
        -- apply rep_class_In. exists []. cbn. repeat split; auto; lia.
        -- apply alt_In. left. apply eol_In. auto.
      * cbn in H. rewrite andb_true_r in H. exists (false, s). apply seq_In. exists (b, c :: s). split.
        -- apply rep_class_In. exists []. cbn. repeat split; auto; lia.
        -- apply alt_In. right. apply class_In. exists c. cbn. rewrite H. auto.
    + destruct s as [|c s].
      * exists (b, []). apply seq_In. exists (b, []). split.
        -- apply rep_class_In. exists []. cbn. repeat split; auto; lia.
        -- apply alt_In. left. apply eol_In. auto.
      * cbn [all_n] in H. destruct (is_hex c) eqn:E.
        -- destruct (IH false s) as (st' & Hst).
           { exact H. }
           apply seq_In in Hst. destruct Hst as (st1 & H1 & H2).
           exists st'. apply seq_In. exists st1. split; [|exact H2].
           apply rep_class_In in H1. destruct H1 as (cs & _ & Hle & Hall & Hs & Hf).
           apply rep_class_In. exists (c :: cs). cbn [length snd fst forallb le_opt] in *. rewrite E, Hall.
           repeat split; [lia|lia|cbn; congruence|]. rewrite Hf. destruct cs; reflexivity.
        -- exists (false, s). apply seq_In. exists (b, c :: s). split.
           ++ apply rep_class_In. exists []. cbn. repeat split; auto; lia.
           ++ apply alt_In. right. apply class_In. exists c. cbn. rewrite E. auto.
Qed.

(** The rest after the backslashes is not a hex escape and not a backslash *)
Definition hex_follows_b (rest : pystr) : bool :=
  match rest with
  | [] => false
  | k :: r => ((k =? chx)%N && all_n is_hex 2 r) || ((k =? chu)%N && all_n is_hex 4 r)
              || ((k =? chU)%N && all_n is_hex 8 r)
  end.

Lemma hex_follows_b_spec rest : hex_follows_b rest = true <-> hex_escape_follows rest.
Proof.
  unfold hex_escape_follows, hex_kind. destruct rest as [|k r]; cbn [hex_follows_b].
  - split; [discriminate|]. intros (k & ds & tl & H & _). discriminate.
  - rewrite !orb_true_iff, !andb_true_iff, !N.eqb_eq, !all_n_split. split.
    + intros [[[-> (ds & tl & -> & H1 & H2)]|[-> (ds & tl & -> & H1 & H2)]]|[-> (ds & tl & -> & H1 & H2)]];
        eexists _, ds, tl; auto 6.
    + intros (k' & ds & tl & H & [[-> H1]|[[-> H1]|[-> H1]]] & H2); inversion H; subst; eauto 9.
Qed.

Definition tail_re : re :=
     (RAlt REol
     (RAlt (RClass (fun c => negb ((c =? chx) || (c =? chu) || (c =? chU) || (c =? bslash))%N))
     (RAlt (RSeq (cls1 chx) (RSeq (RRep 0 (Some 1%nat) hexc) end_or_nonhex))
     (RAlt (RSeq (cls1 chu) (RSeq (RRep 0 (Some 3%nat) hexc) end_or_nonhex))
           (RSeq (cls1 chU) (RSeq (RRep 0 (Some 7%nat) hexc) end_or_nonhex)))))).

Lemma seq_cls1 x r b s : (exists st', In st' (matches (RSeq (cls1 x) r) (b, s))) <->
  exists s', s = x :: s' /\ exists st', In st' (matches r (false, s')).
Proof.
  split.
  - intros (st' & H). apply seq_In in H. destruct H as ([b1 s1] & H1 & H2).
    apply cls1_In in H1. cbn in H1. destruct H1; subst. eauto.
  - intros (s' & -> & st' & H). exists st'. apply seq_In. exists (false, s'). split; auto.
    apply cls1_In. auto.
Qed.

Lemma alt_ex a b st : (exists st', In st' (matches (RAlt a b) st)) <->
  (exists st', In st' (matches a st)) \/ (exists st', In st' (matches b st)).
Proof.
  split.
  - intros (st' & H). apply alt_In in H. destruct H; eauto.
  - intros [(st' & H)|(st' & H)]; exists st'; apply alt_In; auto.
Qed.

Lemma tail_re_spec b rest : (exists st', In st' (matches tail_re (b, rest))) <->
  hex_follows_b rest = false /\ hd_error rest <> Some bslash.
Proof.
  unfold tail_re. rewrite !alt_ex, !seq_cls1.
  setoid_rewrite short_hex.
  split.
  - intros [(st' & H)|[(st' & H)|[(s' & -> & H)|[(s' & -> & H)|(s' & -> & H)]]]].
    + apply eol_In in H. destruct H as [_ [H|H]]; cbn in H; subst; split; try reflexivity; discriminate.
    + apply class_In in H. destruct H as (c & H & Hs & _). cbn in Hs. subst rest.
      rewrite negb_true_iff, !orb_false_iff in H. destruct H as [[[H1 H2] H3] H4].
      cbn. rewrite H1, H2, H3. split; [reflexivity|]. intros [= ->].
      rewrite N.eqb_refl in H4. discriminate.
    + split; [|discriminate]. cbn [hex_follows_b]. rewrite H. reflexivity.
    + split; [|discriminate]. cbn [hex_follows_b]. rewrite H. reflexivity.
    + split; [|discriminate]. cbn [hex_follows_b]. rewrite H. reflexivity.
  - intros [H1 H2]. destruct rest as [|c r].
    + left. exists (b, []). apply eol_In. auto.
    + cbn [hex_follows_b] in H1. rewrite !orb_false_iff in H1. destruct H1 as [[Hx Hu] HU].
      destruct (N.eqb_spec c chx) as [->|N1]; [right; right; left; eauto|].
      destruct (N.eqb_spec c chu) as [->|N2]; [right; right; right; left; eauto|].
      destruct (N.eqb_spec c chU) as [->|N3]; [right; right; right; right; eauto|].
      right; left. exists (false, r). apply class_In. exists c. cbn. repeat split; auto.
      rewrite negb_true_iff, !orb_false_iff, !N.eqb_neq. repeat split; auto. intros ->. cbn in H2. congruence.
Qed.

Lemma odd_decomp n : Nat.odd n = true -> exists k, n = S (2 * k).
Proof. intros H. apply Nat.odd_spec in H. destruct H as [m Hm]. exists m. lia. Qed.

Lemma ends_dec (pre : pystr) : pre = [] \/ ends_in_bslash pre \/
  exists p c, pre = p ++ [c] /\ c <> bslash.
Proof.
  destruct pre as [|x pre'].
  - left; reflexivity.
  - right. destruct (@exists_last _ (x :: pre')) as (p & c & H); [discriminate|].
    rewrite H. destruct (N.eq_dec c bslash) as [->|Hn].
    + left. exists p. reflexivity.
    + right. eauto.
Qed.

Lemma ends_last p c : ends_in_bslash (p ++ [c]) <-> c = bslash.
Proof.
  split.
  - intros (q & H). apply app_inj_tail in H. tauto.
  - intros ->. exists p. reflexivity.
Qed.

Lemma starts_hd s : starts_with_bslash s <-> hd_error s = Some bslash.
Proof.
  split; [intros (p & ->); reflexivity|]. destruct s; [discriminate|]. intros [= ->]. exists s. reflexivity.
Qed.

(** The search for an invalid escape succeeds iff there is an odd maximal run
    of backslashes that no hex escape follows. *)
Lemma invalid_search_iff s : re_search find_invalid_escape_re s = true <->
  exists pre n rest, s = pre ++ repeat bslash n ++ rest /\ ~ ends_in_bslash pre /\
    ~ starts_with_bslash rest /\ Nat.odd n = true /\ ~ hex_escape_follows rest.
Proof.
  unfold re_search. rewrite search_from_spec. split.
  - intros (pre & suf & -> & H). apply nonempty_In in H. destruct H as (st' & H).
    unfold find_invalid_escape_re in H. apply seq_In in H. destruct H as (st1 & H1 & H).
    apply seq_In in H. destruct H as (st2 & H2 & H). apply seq_In in H. destruct H as (st3 & H3 & H).
    apply cls1_In in H2. fold two_bs in H3. apply rep_two_bs_In in H3. destruct H3 as (k & H3 & _).
    assert (H' : exists st', In st' (matches tail_re (fst st3, snd st3)))
      by (exists st'; destruct st3; exact H).
    apply tail_re_spec in H'. destruct H' as [Hh Hn].
    assert (Hfin : exists pre', pre ++ suf = pre' ++ snd st1 /\ ~ ends_in_bslash pre').
    { apply alt_In in H1. destruct H1 as [H1|H1].
      - apply bol_In in H1. destruct H1 as [-> Hb]. cbn [fst snd] in *.
        destruct pre; [|discriminate]. exists []. split; [reflexivity|].
        intros (p & Hp). destruct p; discriminate.
      - apply class_In in H1. destruct H1 as (c & Hc & Hs & _). cbn [snd] in Hs.
        exists (pre ++ [c]). split; [rewrite Hs, <- app_assoc; reflexivity|].
        rewrite ends_last. intros ->. rewrite N.eqb_refl in Hc. discriminate. }
    destruct Hfin as (pre' & -> & He).
    exists pre', (S (2 * k)), (snd st3). destruct H2 as [H2 _]. rewrite H2, H3. cbn [repeat app].
    split; [reflexivity|]. split; [exact He|]. split; [rewrite starts_hd; exact Hn|].
    split; [rewrite Nat.odd_succ; apply Nat.even_spec; exists k; lia|].
    rewrite <- hex_follows_b_spec. congruence.
  - intros (pre & n & rest & -> & He & Hs & Ho & Hh). destruct (odd_decomp n Ho) as (k & ->).
    assert (Ht : exists st', In st' (matches tail_re ((match k with O => false | _ => false end), rest))).
    { apply tail_re_spec. split; [|rewrite <- starts_hd; exact Hs].
      apply not_true_is_false. rewrite hex_follows_b_spec. exact Hh. }
    destruct Ht as (st' & Ht).
    assert (Hrun : forall b, In (false, rest) (matches (RRep 0 None two_bs) (false, repeat bslash (2 * k) ++ rest))
                   /\ In (false, repeat bslash (2 * k) ++ rest)
                       (matches (cls1 bslash) (b, repeat bslash (S (2 * k)) ++ rest))).
    { intros b. split.
      - apply rep_two_bs_In. exists k. cbn. destruct k; auto.
      - apply cls1_In. auto. }
    destruct (ends_dec pre) as [->|[He'|(p & c & -> & Hc)]]; [|contradiction|].
    + exists [], (repeat bslash (S (2 * k)) ++ rest). split; [reflexivity|].
      apply nonempty_In. exists st'. apply seq_In.
      exists (true, repeat bslash (S (2 * k)) ++ rest). split.
      { apply alt_In. left. apply bol_In. auto. }
      apply seq_In. eexists. split; [apply Hrun|]. apply seq_In. eexists. split; [apply Hrun; exact true|].
      destruct k; exact Ht.
    + exists p, (c :: repeat bslash (S (2 * k)) ++ rest). split.
      { rewrite <- app_assoc. reflexivity. }
      apply nonempty_In. exists st'. apply seq_In.
      exists (false, repeat bslash (S (2 * k)) ++ rest). split.
      { apply alt_In. right. apply class_In. exists c. cbn [snd fst]. repeat split; auto.
        rewrite negb_true_iff. apply N.eqb_neq. exact Hc. }
      apply seq_In. eexists. split; [apply Hrun|]. apply seq_In. eexists. split; [apply Hrun; exact true|].
      destruct k; exact Ht.
Qed.

Lemma search_false_well_escaped s :
  re_search find_invalid_escape_re s = false <-> well_escaped s.
Proof.
  split.
  - intros H pre n rest -> He Hs Ho. rewrite <- hex_follows_b_spec.
    destruct (hex_follows_b rest) eqn:E; [reflexivity|]. exfalso.
    rewrite <- not_true_iff_false in H. apply H. apply invalid_search_iff.
    exists pre, n, rest. rewrite <- hex_follows_b_spec, E. repeat split; auto; discriminate.
  - intros H. apply not_true_iff_false. intros Hs. apply invalid_search_iff in Hs.
    destruct Hs as (pre & n & rest & -> & H1 & H2 & H3 & H4). apply H4. eapply H; eauto.
Qed.

(** ** The substitution of hex escapes *)

Definition hex_alt : re :=
    (RAlt (RSeq (cls1 chx) (RRep 2 (Some 2%nat) hexc))
    (RAlt (RSeq (cls1 chu) (RRep 4 (Some 4%nat) hexc))
          (RSeq (cls1 chU) (RRep 8 (Some 8%nat) hexc)))).

Definition hexlen (rest : pystr) : option nat :=
  match rest with
  | [] => None
  | k :: r => if (k =? chx)%N then if all_n is_hex 2 r then Some 3 else None
              else if (k =? chu)%N then if all_n is_hex 4 r then Some 5 else None
              else if (k =? chU)%N then if all_n is_hex 8 r then Some 9 else None
              else None
  end.

Lemma cls1_exact x n b s : matches (RSeq (cls1 x) (RRep (S n) (Some (S n)) hexc)) (b, s) =
  match s with
  | k :: r => if (k =? x)%N then if all_n is_hex (S n) r then [(false, skipn (S (S n)) s)] else [] else []
  | [] => []
  end.
Proof.
  destruct s as [|k r]; [reflexivity|].
  change (matches (RSeq (cls1 x) (RRep (S n) (Some (S n)) hexc)) (b, k :: r)) with
    (flat_map (matches (RRep (S n) (Some (S n)) hexc)) (if (x =? k)%N then [(false, r)] else [])).
  rewrite N.eqb_sym. destruct (k =? x)%N; [|reflexivity].
  cbn [flat_map]. unfold hexc. rewrite matches_exact, app_nil_r. reflexivity.
Qed.

Lemma hex_alt_matches b rest : matches hex_alt (b, rest) =
  match hexlen rest with Some k => [(false, skipn k rest)] | None => [] end.
Proof.
  unfold hex_alt.
  change (matches (RAlt (RSeq (cls1 chx) (RRep 2 (Some 2) hexc))
     (RAlt (RSeq (cls1 chu) (RRep 4 (Some 4) hexc)) (RSeq (cls1 chU) (RRep 8 (Some 8) hexc)))) (b, rest))
  with (matches (RSeq (cls1 chx) (RRep 2 (Some 2) hexc)) (b, rest) ++
       (matches (RSeq (cls1 chu) (RRep 4 (Some 4) hexc)) (b, rest) ++
        matches (RSeq (cls1 chU) (RRep 8 (Some 8) hexc)) (b, rest))).
  rewrite !cls1_exact. unfold hexlen. destruct rest as [|k r]; [reflexivity|].
  destruct (N.eqb_spec k chx) as [->|N1].
  - change (chx =? chu)%N with false. change (chx =? chU)%N with false.
    rewrite !app_nil_r. destruct (all_n is_hex 2 r); reflexivity.
  - destruct (N.eqb_spec k chu) as [->|N2].
    + change (chu =? chU)%N with false. cbn [app]. rewrite app_nil_r. destruct (all_n is_hex 4 r); reflexivity.
    + destruct (N.eqb_spec k chU) as [->|N3]; [|reflexivity].
      cbn [app]. destruct (all_n is_hex 8 r); reflexivity.
Qed.

Lemma hex_alt_bs b s : matches hex_alt (b, bslash :: s) = [].
Proof. rewrite hex_alt_matches. reflexivity. Qed.

Lemma flat_map_pre_tails n rest :
  flat_map (matches hex_alt) (map (pair false) (pre_tails (repeat bslash n) rest)) =
  matches hex_alt (false, rest).
Proof.
  induction n as [|n IH]; cbn [repeat pre_tails].
  - cbn [map flat_map]. apply app_nil_r.
  - rewrite map_app, flat_map_app, IH. cbn [map flat_map]. rewrite hex_alt_bs.
    rewrite !app_nil_r. reflexivity.
Qed.

Lemma forallb_repeat_bs n : forallb (N.eqb bslash) (repeat bslash n) = true.
Proof. induction n; cbn; auto. Qed.

Lemma esc_match n rest b : hd_error rest <> Some bslash ->
  matches find_escapes_re (b, repeat bslash (S n) ++ rest) =
  match hexlen rest with Some k => [(false, skipn k rest)] | None => [] end.
Proof.
  intros Hr. unfold find_escapes_re. fold hex_alt.
  change (matches (RSeq (RRep 1 None (cls1 bslash)) hex_alt) (b, repeat bslash (S n) ++ rest)) with
    (flat_map (matches hex_alt) (matches (RRep 1 None (RClass (N.eqb bslash))) (b, bslash :: repeat bslash n ++ rest))).
  rewrite rep_class_run1.
  - rewrite flat_map_pre_tails. apply hex_alt_matches.
  - apply (forallb_repeat_bs (S n)).
  - destruct rest as [|d r]; [exact I|]. apply N.eqb_neq. cbn in Hr. congruence.
Qed.

Lemma esc_nomatch c s b : c <> bslash -> matches find_escapes_re (b, c :: s) = [].
Proof.
  intros H. unfold find_escapes_re. fold hex_alt.
  change (matches (RSeq (RRep 1 None (cls1 bslash)) hex_alt) (b, c :: s)) with
    (flat_map (matches hex_alt) (matches (RRep 1 None (RClass (N.eqb bslash))) (b, c :: s))).
  rewrite rep_class_run1_none; [reflexivity|]. apply N.eqb_neq. congruence.
Qed.

Lemma hexlen_le rest k : hexlen rest = Some k -> 0 < k /\ k <= length rest /\ 1 < k.
Proof.
  unfold hexlen. destruct rest as [|c r]; [discriminate|].
  assert (Hall : forall n, all_n is_hex n r = true -> n <= length r).
  { intros n H. apply all_n_split in H. destruct H as (ds & tl & -> & H & _). rewrite app_length. lia. }
  destruct (c =? chx)%N.
  - destruct (all_n is_hex 2 r) eqn:E; [|discriminate]. apply Hall in E. intros [= <-]. cbn. lia.
  - destruct (c =? chu)%N.
    + destruct (all_n is_hex 4 r) eqn:E; [|discriminate]. apply Hall in E. intros [= <-]. cbn. lia.
    + destruct (c =? chU)%N; [|discriminate].
      destruct (all_n is_hex 8 r) eqn:E; [|discriminate]. apply Hall in E. intros [= <-]. cbn. lia.
Qed.

Lemma is_hex_not_bs c : is_hex c = true -> c <> bslash.
Proof. intros H ->. discriminate. Qed.

Lemma hexlen_nobs rest k : hexlen rest = Some k -> Forall (fun c => c <> bslash) (firstn k rest).
Proof.
  unfold hexlen. destruct rest as [|c r]; [discriminate|].
  assert (Hall : forall n, all_n is_hex n r = true -> Forall (fun c => c <> bslash) (firstn n r)).
  { intros n H. apply all_n_split in H. destruct H as (ds & tl & -> & H & Hf). subst n.
    rewrite firstn_app, firstn_all, Nat.sub_diag. cbn. rewrite app_nil_r.
    apply Forall_forall. intros x Hx. apply is_hex_not_bs. rewrite forallb_forall in Hf. auto. }
  destruct (N.eqb_spec c chx) as [->|_].
  - destruct (all_n is_hex 2 r) eqn:E; [|discriminate]. apply Hall in E. intros [= <-].
    cbn [firstn]. constructor; [discriminate|exact E].
  - destruct (N.eqb_spec c chu) as [->|_].
    + destruct (all_n is_hex 4 r) eqn:E; [|discriminate]. apply Hall in E. intros [= <-].
      cbn [firstn]. constructor; [discriminate|exact E].
    + destruct (N.eqb_spec c chU) as [->|_]; [|discriminate].
      destruct (all_n is_hex 8 r) eqn:E; [|discriminate]. apply Hall in E. intros [= <-].
      cbn [firstn]. constructor; [discriminate|exact E].
Qed.

Lemma hexlen_kind k ds tl : hex_kind k (length ds) -> forallb is_hex ds = true ->
  hexlen (k :: ds ++ tl) = Some (S (length ds)).
Proof.
  intros Hk Hd. assert (Ha : all_n is_hex (length ds) (ds ++ tl) = true)
    by (apply all_n_split; eauto).
  unfold hexlen. destruct Hk as [[-> E]|[[-> E]|[-> E]]]; rewrite E in *; cbn [N.eqb chx chu chU Pos.eqb]; rewrite Ha; reflexivity.
Qed.

Lemma run_decomp (s : pystr) : exists n rest, s = repeat bslash n ++ rest /\ hd_error rest <> Some bslash.
Proof.
  induction s as [|c s IH].
  - exists 0, []. split; [reflexivity|discriminate].
  - destruct (N.eq_dec c bslash) as [->|Hn].
    + destruct IH as (n & rest & -> & H). exists (S n), rest. auto.
    + exists 0, (c :: s). split; [reflexivity|]. cbn. congruence.
Qed.

Section Sub.
  Variable f : pystr -> res pystr.
  Let sub := re_sub_from find_escapes_re f.

  Lemma sub_fuel_S fuel b s : sub (S fuel) b s =
      match s with
      | [] => Ok []
      | c :: s' =>
          match matches find_escapes_re (b, s) with
          | (_, rest) :: _ =>
              do t <- f (firstn (length s - length rest) s);
              do u <- sub fuel false rest; Ok (t ++ u)
          | [] => do u <- sub fuel false s'; Ok (c :: u)
          end
      end.
  Proof. destruct s; reflexivity. Qed.

  Lemma matches_flag s b b' : s <> [] -> matches find_escapes_re (b, s) = matches find_escapes_re (b', s).
  Proof.
    intros Hs. destruct (run_decomp s) as ([|n] & rest & -> & H).
    - cbn [repeat app] in *. destruct rest as [|c r]; [congruence|].
      rewrite !esc_nomatch; auto; cbn in H; congruence.
    - rewrite !esc_match; auto.
  Qed.

  Lemma matches_shorter b s b' rest l : matches find_escapes_re (b, s) = (b', rest) :: l ->
    length rest < length s.
  Proof.
    destruct (run_decomp s) as ([|n] & r & -> & H).
    - cbn [repeat app]. destruct r as [|c r]; [cbn; discriminate|].
      rewrite esc_nomatch; [discriminate|]. cbn in H; congruence.
    - rewrite esc_match by exact H. destruct (hexlen r) as [k|] eqn:E; [|discriminate].
      intros [= <- <- <-]. apply hexlen_le in E. rewrite skipn_length. cbn. rewrite app_length. lia.
  Qed.

  Lemma sub_indep : forall n s fuel fuel' b b', length s <= n -> length s < fuel -> length s < fuel' ->
    sub fuel b s = sub fuel' b' s.
  Proof.
    induction n as [|n IH]; intros s fuel fuel' b b' Hn Hf Hf'.
    - destruct s; [|cbn in Hn; lia]. destruct fuel, fuel'; reflexivity.
    - destruct fuel; [lia|]. destruct fuel'; [lia|]. rewrite !sub_fuel_S.
      destruct s as [|c s]; [reflexivity|]. cbn [length] in *.
      rewrite (matches_flag (c :: s) b b') by discriminate.
      destruct (matches find_escapes_re (b', c :: s)) as [|[b1 rest] l] eqn:E.
      + rewrite (IH s fuel fuel' false false) by lia. reflexivity.
      + apply matches_shorter in E. cbn [length] in E.
        rewrite (IH rest fuel fuel' false false) by lia. reflexivity.
  Qed.

  Definition hsub (s : pystr) : res pystr := re_sub find_escapes_re f s.

  Lemma hsub_sub fuel b s : length s < fuel -> sub fuel b s = hsub s.
  Proof. intros H. unfold hsub, re_sub. apply (sub_indep (length s)); lia. Qed.

  Lemma hsub_nil : hsub [] = Ok [].
  Proof. reflexivity. Qed.

  Lemma hsub_cons c s : c <> bslash -> hsub (c :: s) = do u <- hsub s; Ok (c :: u).
  Proof.
    intros Hc. unfold hsub at 1, re_sub. fold (sub (S (length (c :: s))) true (c :: s)). rewrite sub_fuel_S, esc_nomatch by exact Hc.
    rewrite hsub_sub by (cbn; lia). reflexivity.
  Qed.

  Lemma hsub_hex n rest k : hd_error rest <> Some bslash -> hexlen rest = Some k ->
    hsub (repeat bslash (S n) ++ rest) =
    do t <- f (repeat bslash (S n) ++ firstn k rest); do u <- hsub (skipn k rest); Ok (t ++ u).
  Proof.
    intros Hr Hk. pose proof (hexlen_le _ _ Hk) as Hkl.
    unfold hsub at 1, re_sub. set (s := repeat bslash (S n) ++ rest).
    fold (sub (S (length s)) true s). rewrite sub_fuel_S.
    assert (Hm : matches find_escapes_re (true, s) = [(false, skipn k rest)]).
    { unfold s. rewrite esc_match by exact Hr. rewrite Hk. reflexivity. }
    rewrite Hm.
    assert (Hfirst : firstn (length s - length (skipn k rest)) s = repeat bslash (S n) ++ firstn k rest).
    { unfold s. rewrite app_length, skipn_length, repeat_length.
      replace (S n + length rest - (length rest - k)) with (S n + k) by lia.
      rewrite firstn_app, repeat_length, firstn_all2 by (rewrite repeat_length; lia).
      replace (S n + k - S n) with k by lia. reflexivity. }
    rewrite Hfirst. rewrite hsub_sub.
    - destruct s eqn:E; [unfold s in E; discriminate|reflexivity].
    - unfold s. rewrite skipn_length, app_length, repeat_length. lia.
  Qed.

  Lemma hsub_nohex n rest : hd_error rest <> Some bslash -> hexlen rest = None ->
    hsub (repeat bslash n ++ rest) = do u <- hsub rest; Ok (repeat bslash n ++ u).
  Proof.
    intros Hr Hk. induction n as [|n IH].
    - cbn [repeat app]. destruct (hsub rest); reflexivity.
    - unfold hsub at 1, re_sub.
      fold (sub (S (length (repeat bslash (S n) ++ rest))) true (repeat bslash (S n) ++ rest)).
      rewrite sub_fuel_S, esc_match by exact Hr. rewrite Hk. cbn [repeat app].
      rewrite hsub_sub by (cbn; lia). rewrite IH. destruct (hsub rest); reflexivity.
  Qed.

  Lemma hsub_nobs p s : Forall (fun c => c <> bslash) p ->
    hsub (p ++ s) = do u <- hsub s; Ok (p ++ u).
  Proof.
    induction 1 as [|c p Hc Hp IH]; cbn [app].
    - destruct (hsub s); reflexivity.
    - rewrite hsub_cons, IH by exact Hc. destruct (hsub s); reflexivity.
  Qed.
End Sub.

Notation usub := (hsub replace_fun_unescape).

Lemma count_bs_run n p : Forall (fun c => c <> bslash) p -> count_bs (repeat bslash n ++ p) = n.
Proof.
  intros Hp. unfold count_bs. rewrite filter_app, app_length.
  assert (H1 : filter (N.eqb bslash) (repeat bslash n) = repeat bslash n).
  { induction n; cbn; congruence. }
  assert (H2 : filter (N.eqb bslash) p = []).
  { induction Hp as [|c p Hc Hp IH]; cbn; [reflexivity|].
    change (match c with 0%N => false | N.pos q => (92 =? q)%positive end) with (bslash =? c)%N.
    destruct (N.eqb_spec bslash c); [congruence|]. exact IH. }
  rewrite H1, H2, repeat_length. cbn. lia.
Qed.

Lemma unescape_run n k p : k <> bslash -> Forall (fun c => c <> bslash) p ->
  replace_fun_unescape (repeat bslash n ++ k :: p) =
  if Nat.even n then Ok (repeat bslash n ++ k :: p)
  else do c <- chr (int16 p); Ok (repeat bslash (n - 1) ++ [c]).
Proof.
  intros Hk Hp. unfold replace_fun_unescape. rewrite count_bs_run by (constructor; assumption).
  replace (skipn (n + 1) (repeat bslash n ++ k :: p)) with p; [reflexivity|].
  rewrite skipn_app, repeat_length. rewrite skipn_all2 by (rewrite repeat_length; lia).
  replace (n + 1 - n) with 1 by lia. reflexivity.
Qed.

Lemma usub_dbl s : usub (bslash :: bslash :: s) = do u <- usub s; Ok (bslash :: bslash :: u).
Proof.
  destruct (run_decomp s) as (n & rest & -> & Hr).
  change (bslash :: bslash :: repeat bslash n ++ rest) with (repeat bslash (S (S n)) ++ rest).
  destruct (hexlen rest) as [k|] eqn:E.
  - rewrite (hsub_hex _ _ _ k) by assumption.
    pose proof (hexlen_nobs _ _ E) as Hnb. pose proof (hexlen_le _ _ E) as Hk.
    destruct k as [|k]; [lia|]. destruct rest as [|c r]; [discriminate|].
    cbn [firstn] in *. inversion Hnb as [|x y Hc Hp]; subst.
    rewrite unescape_run by assumption.
    destruct n as [|n].
    + change (Nat.even 2) with true. cbn [repeat app].
      assert (He : usub (c :: r) = do u <- usub (skipn k r); Ok ((c :: firstn k r) ++ u)).
      { rewrite <- (hsub_nobs _ (c :: firstn k r)) by exact Hnb. cbn [app]. rewrite firstn_skipn. reflexivity. }
      rewrite He. cbn [skipn bindr].
      destruct (usub (skipn k r)); reflexivity.
    + rewrite (hsub_hex _ n _ (S k)) by assumption. cbn [firstn]. rewrite unescape_run by assumption.
      change (Nat.even (S (S (S n)))) with (Nat.even (S n)).
      destruct (Nat.even (S n)).
      * cbn [bindr]. destruct (usub (skipn (S k) (c :: r))); reflexivity.
      * destruct (chr (int16 (firstn k r))); [|reflexivity]. cbn [bindr].
        destruct (usub (skipn (S k) (c :: r))); [|reflexivity]. cbn [bindr].
        replace (S (S (S n)) - 1) with (S (S (S n - 1))) by lia. reflexivity.
  - rewrite hsub_nohex by assumption. rewrite hsub_nohex by assumption.
    destruct (usub rest); reflexivity.
Qed.

Lemma usub_hex k ds s : hex_kind k (length ds) -> forallb is_hex ds = true ->
  usub (bslash :: k :: ds ++ s) = do c <- chr (int16 ds); do u <- usub s; Ok (c :: u).
Proof.
  intros Hk Hd. pose proof (hexlen_kind k ds s Hk Hd) as Hl.
  change (bslash :: k :: ds ++ s) with (repeat bslash 1 ++ (k :: ds ++ s)).
  assert (Hkb : k <> bslash).
  { destruct Hk as [[-> _]|[[-> _]|[-> _]]]; discriminate. }
  rewrite (hsub_hex _ 0 _ (S (length ds))); [|cbn; congruence|exact Hl].
  cbn [firstn skipn]. rewrite firstn_app, firstn_all, Nat.sub_diag. cbn [firstn]. rewrite app_nil_r.
  rewrite skipn_app, skipn_all, Nat.sub_diag. cbn [skipn app].
  rewrite (unescape_run 1 k ds).
  - cbn [Nat.even repeat Nat.sub app]. destruct (chr (int16 ds)); [|reflexivity]. reflexivity.
  - exact Hkb.
  - apply Forall_forall. intros x Hx. apply is_hex_not_bs. rewrite forallb_forall in Hd. auto.
Qed.

(** what the first pass leaves for each token *)
Definition expand (t : token) : res pystr :=
  match t with
  | TChar c => Ok [c]
  | TBackslash => Ok [bslash; bslash]
  | THex _ ds => do c <- chr (int16 ds); Ok [c]
  end.

Lemma usub_text ts : Forall token_ok ts ->
  usub (text ts) = do l <- mapr expand ts; Ok (List.concat l).
Proof.
  induction 1 as [|t ts Ht Hts IH]; [reflexivity|].
  unfold text in *. cbn [flat_map mapr]. destruct t as [c| |k ds]; cbn [token_text expand bindr].
  - cbn [app]. rewrite hsub_cons by exact Ht. rewrite IH. destruct (mapr expand ts); reflexivity.
  - cbn [app]. rewrite usub_dbl, IH. destruct (mapr expand ts); reflexivity.
  - cbn [app]. destruct Ht as [Hk Hd]. rewrite usub_hex by assumption. rewrite IH.
    destruct (chr (int16 ds)); [|reflexivity]. cbn [bindr]. destruct (mapr expand ts); reflexivity.
Qed.

(** ** Tokens are exactly the well escaped strings *)

Lemma ends_cons c s : s <> [] -> ends_in_bslash (c :: s) -> ends_in_bslash s.
Proof.
  intros Hs (p & H). destruct (@exists_last _ s Hs) as (q & d & ->).
  destruct p as [|x p]; cbn in H.
  - inversion H. symmetry in H2. destruct q; discriminate.
  - inversion H; subst. exists p. assumption.
Qed.

Lemma ends_single c : ends_in_bslash [c] -> c = bslash.
Proof. intros H. apply (ends_last []). exact H. Qed.

Lemma we_cons c s : c <> bslash -> well_escaped (c :: s) -> well_escaped s.
Proof.
  intros Hc H pre n rest -> He. apply (H (c :: pre) n rest eq_refl).
  intros Hx. destruct pre as [|p pre].
  - apply ends_single in Hx. congruence.
  - apply He. apply ends_cons in Hx; [exact Hx|discriminate].
Qed.

Lemma we_app p s : p <> [] -> ~ ends_in_bslash p -> well_escaped (p ++ s) -> well_escaped s.
Proof.
  intros Hp He H pre n rest -> Hpre. apply (H (p ++ pre) n rest).
  - rewrite <- app_assoc. reflexivity.
  - destruct (ends_dec pre) as [->|[Hx|(q & c & -> & Hc)]].
    + rewrite app_nil_r. exact He.
    + contradiction.
    + rewrite app_assoc, ends_last. exact Hc.
Qed.

Lemma we_dbl s : well_escaped (bslash :: bslash :: s) -> well_escaped s.
Proof.
  intros H pre n rest -> He Hs Ho. destruct pre as [|c pre].
  - apply (H [] (S (S n)) rest); auto.
  - apply (H (bslash :: bslash :: c :: pre) n rest); auto.
    intros Hx. apply He. apply ends_cons in Hx; [|discriminate]. apply ends_cons in Hx; [|discriminate]. exact Hx.
Qed.

Lemma tokens_exist : forall n s, length s <= n -> well_escaped s ->
  exists ts, Forall token_ok ts /\ s = text ts.
Proof.
  induction n as [|n IH]; intros s Hn Hs.
  - destruct s; [|cbn in Hn; lia]. exists []. split; [constructor|reflexivity].
  - destruct s as [|c s]; [exists []; split; [constructor|reflexivity]|].
    cbn in Hn. destruct (N.eq_dec c bslash) as [->|Hc].
    + destruct s as [|d s].
      * exfalso. destruct (Hs [] 1 [] eq_refl) as (k & ds & tl & Hx & _); auto; try discriminate.
        -- intros (p & Hp). destruct p; discriminate.
        -- intros (p & Hp). discriminate.
      * destruct (N.eq_dec d bslash) as [->|Hd].
        -- destruct (IH s) as (ts & Hts & ->); [cbn in Hn; lia|apply we_dbl; exact Hs|].
           exists (TBackslash :: ts). split; [constructor; [exact I|exact Hts]|reflexivity].
        -- destruct (Hs [] 1 (d :: s) eq_refl) as (k & ds & tl & Hx & Hk & Hh); auto.
           { intros (p & Hp). destruct p; discriminate. }
           { intros (p & Hp). congruence. }
           inversion Hx; subst.
           destruct (IH tl) as (ts & Hts & ->).
           { cbn in Hn. rewrite app_length in Hn. lia. }
           { apply (we_app (bslash :: k :: ds)); [discriminate| |exact Hs].
             assert (Hne : ds <> []) by (destruct Hk as [[_ Hk]|[[_ Hk]|[_ Hk]]]; destruct ds; discriminate).
             destruct (@exists_last _ ds Hne) as (q & e & ->).
             change (bslash :: k :: q ++ [e]) with ((bslash :: k :: q) ++ [e]). rewrite ends_last.
             rewrite forallb_app in Hh. apply andb_prop in Hh. destruct Hh as [_ Hh].
             cbn in Hh. rewrite andb_true_r in Hh. apply is_hex_not_bs. exact Hh. }
           exists (THex k ds :: ts). split; [constructor; [split; assumption|exact Hts]|reflexivity].
    + destruct (IH s) as (ts & Hts & ->); [lia|apply (we_cons c); assumption|].
      exists (TChar c :: ts). split; [constructor; assumption|reflexivity].
Qed.

(** conversely *)
Lemma we_nil : well_escaped [].
Proof.
  intros pre n rest H. symmetry in H. apply app_eq_nil in H. destruct H as [-> H].
  apply app_eq_nil in H. destruct H as [H ->]. destruct n; [discriminate|discriminate].
Qed.

Lemma we_char c s : c <> bslash -> well_escaped s -> well_escaped (c :: s).
Proof.
  intros Hc H pre n rest E He Hr Ho. destruct pre as [|x pre].
  - destruct n as [|n]; [discriminate|]. cbn in E. inversion E. congruence.
  - cbn in E. inversion E; subst. eapply H; eauto. intros (p & ->). apply He. exists (x :: p). reflexivity.
Qed.

Lemma we_nobs p s : Forall (fun c => c <> bslash) p -> well_escaped s -> well_escaped (p ++ s).
Proof. induction 1; cbn; auto using we_char. Qed.

Lemma we_dbl_intro s : well_escaped s -> well_escaped (bslash :: bslash :: s).
Proof.
  intros H pre n rest E He Hr Ho. destruct pre as [|x pre].
  - destruct n as [|[|n]]; [discriminate| |].
    + cbn in E. destruct rest as [|d rest]; [discriminate|]. inversion E; subst.
      exfalso. apply Hr. exists rest. reflexivity.
    + cbn in E. inversion E; subst. apply (H [] n rest); auto.
  - cbn in E. inversion E; subst. destruct pre as [|y pre].
    + exfalso. apply He. exists []. reflexivity.
    + cbn in *. inversion H2; subst. apply (H pre n rest); auto.
      intros (p & ->). apply He. exists (bslash :: bslash :: p). reflexivity.
Qed.

Lemma we_hex_intro k ds s : hex_kind k (length ds) -> forallb is_hex ds = true ->
  well_escaped s -> well_escaped (bslash :: k :: ds ++ s).
Proof.
  intros Hk Hd Hs.
  assert (Hkb : k <> bslash) by (destruct Hk as [[-> _]|[[-> _]|[-> _]]]; discriminate).
  assert (Hw : well_escaped (k :: ds ++ s)).
  { apply we_char; [exact Hkb|]. apply we_nobs; [|exact Hs].
    apply Forall_forall. intros x Hx. apply is_hex_not_bs. rewrite forallb_forall in Hd. auto. }
  intros pre n rest E He Hr Ho. destruct pre as [|x pre].
  - destruct n as [|[|n]]; [discriminate| |].
    + cbn in E. inversion E; subst. exists k, ds, s. auto.
    + cbn in E. inversion E. congruence.
  - cbn in E. inversion E; subst. destruct pre as [|y pre].
    + exfalso. apply He. exists []. reflexivity.
    + apply (Hw (y :: pre) n rest); auto. intros (p & Hp). apply He. exists (bslash :: p). rewrite Hp. reflexivity.
Qed.

Lemma text_well_escaped ts : Forall token_ok ts -> well_escaped (text ts).
Proof.
  induction 1 as [|t ts Ht Hts IH]; [apply we_nil|]. unfold text in *. cbn [flat_map].
  destruct t as [c| |k ds]; cbn [token_text app] in *.
  - apply we_char; assumption.
  - apply we_dbl_intro; assumption.
  - destruct Ht. apply we_hex_intro; assumption.
Qed.

(** ** Full unescape *)

Lemma unescape_text ts : Forall token_ok ts ->
  unescape_path (text ts) = do l <- mapr expand ts; Ok (replace_dbl (List.concat l)).
Proof.
  intros H. unfold unescape_path. pose proof (text_well_escaped ts H) as Hw.
  apply search_false_well_escaped in Hw. rewrite Hw.
  change (re_sub find_escapes_re replace_fun_unescape (text ts)) with (usub (text ts)).
  rewrite usub_text by exact H. destruct (mapr expand ts); reflexivity.
Qed.

(** a token the second pass treats independently of its neighbours *)
Definition hex_plain (t : token) : Prop :=
  match t with THex _ ds => int16 ds <> bslash /\ (int16 ds < max_cp)%N | _ => True end.

Lemma chr_lt v : (v < max_cp)%N -> chr v = Ok v.
Proof. intros H. unfold chr. apply N.ltb_lt in H. rewrite H. reflexivity. Qed.

Lemma replace_dbl_cons c s : c <> bslash -> replace_dbl (c :: s) = c :: replace_dbl s.
Proof. intros H. cbn. apply N.eqb_neq in H. unfold bslash in *. rewrite H. reflexivity. Qed.

Lemma unescape_decodes ts : Forall token_ok ts -> Forall hex_plain ts ->
  unescape_path (text ts) = Ok (map token_meaning ts).
Proof.
  intros Hok Hp. rewrite unescape_text by exact Hok.
  assert (H : exists l, mapr expand ts = Ok l /\ replace_dbl (List.concat l) = map token_meaning ts).
  { revert Hp. induction Hok as [|t ts Ho Hok IH]; intros Hp; [exists []; auto|].
    inversion Hp as [|t' ts' Ht Hts]; subst.
    destruct (IH Hts) as (l & E & Hl). cbn [mapr map]. rewrite E.
    destruct t as [c| |k ds]; cbn [expand bindr token_meaning].
    - exists ([c] :: l). split; [reflexivity|]. cbn [List.concat app]. rewrite replace_dbl_cons, Hl by exact Ho. reflexivity.
    - exists ([bslash; bslash] :: l). split; [reflexivity|]. cbn [List.concat app]. cbn. rewrite <- Hl. reflexivity.
    - destruct Ht as [H1 H2]. rewrite chr_lt by exact H2. exists ([int16 ds] :: l). split; [reflexivity|].
      cbn [List.concat app]. rewrite replace_dbl_cons, Hl by exact H1. reflexivity. }
  destruct H as (l & -> & H). cbn [bindr]. congruence.
Qed.

(** Every hex escape denotes a character. *)
Definition hex_in_range (t : token) : Prop :=
  match t with THex _ ds => (int16 ds < max_cp)%N | _ => True end.

Lemma unescape_total ts : Forall token_ok ts -> Forall hex_in_range ts ->
  exists u, unescape_path (text ts) = Ok u.
Proof.
  intros Hok Hp. rewrite unescape_text by exact Hok.
  assert (H : exists l, mapr expand ts = Ok l).
  { induction Hp as [|t ts Ht Hts IH]; [eexists; reflexivity|]. inversion Hok; subst.
    destruct IH as (l & E); [assumption|]. cbn [mapr]. rewrite E.
    destruct t as [c| |k ds]; cbn [expand bindr]; try (eexists; reflexivity).
    rewrite chr_lt by exact Ht. eexists; reflexivity. }
  destruct H as (l & ->). eexists; reflexivity.
Qed.

Lemma chr_err v e : chr v = Err e -> e = ValueError \/ (e = OverflowError /\ 2147483648 <= v)%N.
Proof.
  unfold chr. destruct (v <? max_cp)%N; [discriminate|].
  destruct (N.ltb_spec v 2147483648); intros [= <-]; auto.
Qed.

Lemma unescape_out_of_range ts : Forall token_ok ts -> ~ Forall hex_in_range ts ->
  exists e, unescape_path (text ts) = Err e /\ (e = ValueError \/ e = OverflowError).
Proof.
  intros Hok Hn. rewrite unescape_text by exact Hok.
  assert (H : exists e, mapr expand ts = Err e /\ (e = ValueError \/ e = OverflowError)).
  { induction Hok as [|t ts Ho Hok IH]; [exfalso; apply Hn; constructor|].
    cbn [mapr].
    assert (Hcase : (exists e, expand t = Err e /\ (e = ValueError \/ e = OverflowError)) \/
                    (exists v, expand t = Ok v) /\ hex_in_range t).
    { destruct t as [c| |k ds]; cbn; try (right; split; [eexists; reflexivity|exact I]).
      destruct (chr (int16 ds)) as [v|e] eqn:E; cbn.
      - right. split; [eexists; reflexivity|]. unfold chr in E.
        destruct (N.ltb_spec (int16 ds) max_cp); [assumption|]. destruct (int16 ds <? 2147483648)%N; discriminate.
      - left. exists e. split; [reflexivity|]. apply chr_err in E. tauto. }
    destruct Hcase as [(e & -> & He)|[(v & ->) Hr]].
    - exists e. auto.
    - cbn [bindr]. destruct IH as (e & -> & He).
      + intros Hf. apply Hn. constructor; assumption.
      + exists e. auto. }
  destruct H as (e & -> & He). exists e. auto.
Qed.

(** ** Escape *)

Definition esc_token (c : N) : token :=
  if (c =? nul)%N then THex chx (lit "00")
  else if (c =? fslash)%N then THex chx (lit "2f")
  else if (c =? bslash)%N then TBackslash
  else TChar c.

Definition dot_token : token := THex chx (lit "2e").

Fixpoint esc_tokens (s : pystr) : list token :=
  match s with
  | c :: s' => if (c =? dot)%N then dot_token :: esc_tokens s' else map esc_token s
  | [] => []
  end.

Lemma fsn_sub s : forall fuel b, length s < fuel ->
  re_sub_from find_fslashnull_re replace_fun_escape fuel b s = Ok (text (map esc_token s)).
Proof.
  induction s as [|c s IH]; intros fuel b Hf; (destruct fuel; [lia|]); [reflexivity|].
  cbn [re_sub_from]. unfold find_fslashnull_re at 1. cbn [matches snd].
  cbn [length] in Hf. unfold text in *. cbn [map flat_map]. unfold esc_token at 1.
  assert (Hone : firstn (length (c :: s) - length s) (c :: s) = [c]).
  { cbn [length]. rewrite Nat.sub_succ_l, Nat.sub_diag by lia. reflexivity. }
  destruct (N.eqb_spec c nul) as [->|N1].
  - cbn [bslash fslash nul N.eqb Pos.eqb orb]. rewrite Hone. cbn [replace_fun_escape].
    change (0 =? nul)%N with true. cbn [bindr]. rewrite IH by lia. reflexivity.
  - destruct (N.eqb_spec c fslash) as [->|N2].
    + change ((fslash =? bslash)%N || true || false) with true. cbv iota. rewrite Hone. cbn [replace_fun_escape].
      change (fslash =? nul)%N with false. change (fslash =? fslash)%N with true. cbn [bindr].
      rewrite IH by lia. reflexivity.
    + destruct (N.eqb_spec c bslash) as [->|N3]; cbn [orb].
      * rewrite Hone. cbn [replace_fun_escape].
        change (bslash =? nul)%N with false. change (bslash =? fslash)%N with false.
        change (bslash =? bslash)%N with true. cbn [bindr].
        rewrite IH by lia. reflexivity.
      * rewrite IH by lia. reflexivity.
Qed.

Lemma dots_decomp (s : pystr) : exists n rest, s = repeat dot n ++ rest /\ hd_error rest <> Some dot.
Proof.
  induction s as [|c s IH].
  - exists 0, []. split; [reflexivity|discriminate].
  - destruct (N.eq_dec c dot) as [->|Hn].
    + destruct IH as (n & rest & -> & H). exists (S n), rest. auto.
    + exists 0, (c :: s). split; [reflexivity|]. cbn. congruence.
Qed.

Lemma pre_tails_hd n rest : exists l, pre_tails (repeat dot n) rest = rest :: l.
Proof.
  induction n as [|n (l & IH)]; cbn [repeat pre_tails]; [eexists; reflexivity|].
  rewrite IH. eexists; reflexivity.
Qed.

Lemma esc_tokens_dots n rest : hd_error rest <> Some dot ->
  esc_tokens (repeat dot n ++ rest) = repeat dot_token n ++ map esc_token rest.
Proof.
  intros H. induction n as [|n IH]; cbn [repeat app].
  - destruct rest as [|c r]; [reflexivity|]. cbn [esc_tokens].
    destruct (N.eqb_spec c dot); [cbn in H; congruence|reflexivity].
  - cbn [esc_tokens]. change (dot =? dot)%N with true. cbv iota. rewrite IH. reflexivity.
Qed.

Lemma text_dots n : text (repeat dot_token n) = repeat_str (lit "\x2e") n.
Proof. induction n as [|n IH]; cbn [repeat repeat_str]; [reflexivity|]. unfold text in *. cbn [flat_map]. rewrite IH. reflexivity. Qed.

Lemma text_app a b : text (a ++ b) = text a ++ text b.
Proof. apply flat_map_app. Qed.

Lemma escape_path_text s : escape_path s = Ok (text (esc_tokens s)).
Proof.
  destruct (dots_decomp s) as (n & rest & -> & Hr). rewrite esc_tokens_dots by exact Hr.
  unfold escape_path, re_match, find_dots_re.
  destruct n as [|n]; cbn [repeat app].
  - assert (E : matches (RRep 1 None (cls1 dot)) (true, rest) = []).
    { apply rep_class_run1_none. destruct rest as [|c r]; [exact I|]. apply N.eqb_neq. cbn in Hr. congruence. }
    rewrite E. unfold re_sub. rewrite fsn_sub by lia. reflexivity.
  - assert (E : exists l, matches (RRep 1 None (cls1 dot)) (true, dot :: repeat dot n ++ rest) = (false, rest) :: l).
    { unfold cls1. rewrite rep_class_run1.
      - destruct (pre_tails_hd n rest) as (l & ->). eexists; reflexivity.
      - clear. cbn. induction n; cbn; auto.
      - destruct rest as [|c r]; [exact I|]. apply N.eqb_neq. cbn in Hr. congruence. }
    destruct E as (l & ->). cbn [snd]. unfold re_sub. rewrite fsn_sub by lia. cbn [bindr].
    replace (length (dot :: repeat dot n ++ rest) - length rest) with (S n)
      by (cbn [length]; rewrite app_length, repeat_length; lia).
    f_equal. change (dot_token :: repeat dot_token n ++ map esc_token rest) with (repeat dot_token (S n) ++ map esc_token rest).
    rewrite text_app, text_dots. reflexivity.
Qed.

Lemma esc_token_ok c : token_ok (esc_token c) /\ hex_plain (esc_token c) /\ token_meaning (esc_token c) = c.
Proof.
  unfold esc_token.
  destruct (N.eqb_spec c nul) as [->|N1].
  { split; [split; [left; auto|reflexivity]|]. split; [split; [discriminate|reflexivity]|reflexivity]. }
  destruct (N.eqb_spec c fslash) as [->|N2].
  { split; [split; [left; auto|reflexivity]|]. split; [split; [discriminate|reflexivity]|reflexivity]. }
  destruct (N.eqb_spec c bslash) as [->|N3]; repeat split; auto.
Qed.

Lemma esc_tokens_ok s : Forall token_ok (esc_tokens s) /\ Forall hex_plain (esc_tokens s) /\
  map token_meaning (esc_tokens s) = s.
Proof.
  induction s as [|c s IH]; [repeat constructor|]. cbn [esc_tokens].
  destruct (N.eqb_spec c dot) as [->|Hc].
  - destruct IH as (H1 & H2 & H3). split; [|split].
    + constructor; [split; [left; auto|reflexivity]|exact H1].
    + constructor; [split; [discriminate|reflexivity]|exact H2].
    + cbn [map]. rewrite H3. reflexivity.
  - clear IH. generalize (c :: s). intros l. induction l as [|x l (H1 & H2 & H3)]; [repeat constructor|].
    destruct (esc_token_ok x) as (E1 & E2 & E3). split; [|split].
    + constructor; assumption.
    + constructor; assumption.
    + cbn [map] in *. congruence.
Qed.

Lemma unescape_escape s : exists e, escape_path s = Ok e /\ unescape_path e = Ok s.
Proof.
  exists (text (esc_tokens s)). split; [apply escape_path_text|].
  destruct (esc_tokens_ok s) as (H1 & H2 & H3). rewrite unescape_decodes by assumption. congruence.
Qed.

Lemma esc_chars s : ~ In fslash (text (esc_tokens s)) /\ ~ In nul (text (esc_tokens s)).
Proof.
  assert (Hc : forall c x, In x (token_text (esc_token c)) -> x <> fslash /\ x <> nul).
  { intros c x. unfold esc_token.
    destruct (N.eqb_spec c nul) as [->|N1]; [cbn; intuition (subst; discriminate)|].
    destruct (N.eqb_spec c fslash) as [->|N2]; [cbn; intuition (subst; discriminate)|].
    destruct (N.eqb_spec c bslash) as [->|N3]; cbn; intros H;
     [intuition (subst; discriminate)|destruct H as [<-|[]]; auto]. }
  assert (H : forall x, In x (text (esc_tokens s)) -> x <> fslash /\ x <> nul).
  { induction s as [|c s IH]; [intros x []|]. cbn [esc_tokens]. intros x.
    destruct (N.eqb_spec c dot) as [->|Hd].
    - unfold text in *. cbn [flat_map]. rewrite in_app_iff. intros [H|H]; [|auto].
      cbn in H. intuition (subst; discriminate).
    - unfold text. rewrite in_flat_map. intros (t & Ht & Hx). apply in_map_iff in Ht.
      destruct Ht as (y & <- & _). eauto. }
  split; intros Hx; apply H in Hx; tauto.
Qed.

Lemma esc_head s : hd_error (text (esc_tokens s)) <> Some dot.
Proof.
  destruct s as [|c s]; [discriminate|]. cbn [esc_tokens].
  destruct (N.eqb_spec c dot) as [->|Hd]; [discriminate|].
  unfold text. cbn [map flat_map]. unfold esc_token at 1.
  destruct (c =? nul)%N; [discriminate|]. destruct (c =? fslash)%N; [discriminate|].
  destruct (c =? bslash)%N; [discriminate|]. cbn. congruence.
Qed.

Lemma esc_nonempty s : text (esc_tokens s) = [] <-> s = [].
Proof.
  split; [|intros ->; reflexivity]. destruct s as [|c s]; [reflexivity|]. cbn [esc_tokens].
  destruct (c =? dot)%N; [discriminate|]. unfold text. cbn [map flat_map]. unfold esc_token at 1.
  destruct (c =? nul)%N; [discriminate|]. destruct (c =? fslash)%N; [discriminate|].
  destruct (c =? bslash)%N; discriminate.
Qed.

Lemma escape_injective s t : escape_path s = escape_path t -> s = t.
Proof.
  intros H. destruct (unescape_escape s) as (e & He & Hs). destruct (unescape_escape t) as (f & Hf & Ht).
  congruence.
Qed.

Lemma re_search_cases s : well_escaped s \/ unescape_path s = Err ValueError.
Proof.
  destruct (re_search find_invalid_escape_re s) eqn:E.
  - right. unfold unescape_path. rewrite E. reflexivity.
  - left. apply search_false_well_escaped. exact E.
Qed.

Lemma unescape_not_compositional : exists ts, Forall token_ok ts /\ Forall hex_in_range ts /\
  unescape_path (text ts) <> Ok (map token_meaning ts).
Proof.
  exists [THex chx (lit "5c"); THex chx (lit "5c")]. split; [|split].
  - repeat constructor; left; auto.
  - repeat constructor.
  - vm_compute. discriminate.
Qed.
