(** Properties C19 and C20: how Datasets are stored, and names of elements. *)
From Verif Require Import Base PathEsc PosixPath ProcessPath Unicode Dec NdArray Value OptionsM OptionsSpec Hdf5 HeapFacts MarshalW MarshalR FrameFacts WriteFrame FileApi ApiSpec HistoryFacts FilterSpec FilterFacts RndFacts.
Local Open Scope nat_scope.

(** C19: in a file made with one set of options, through any number of sessions,
    overwriting and deleting, every Dataset has exactly the filters it should have for
    its shape and size ([stored_right]).  The one exception is the canonical empty of
    the references group, two uint64 zeros, never filtered.  (h5py gives a zero-width
    string type one byte; the size counted is then 0.) *)
Theorem C19_filters : forall o s i ob a f, made_with o s -> hp s i = Some ob -> o_body ob = BData a f ->
  (exists d k, (d = a_dt a \/ (d = TS 0 /\ a_dt a = TS 1)) /\ occupies d k /\ stored_right o (a_shape a) (prod (a_shape a) * k) f) \/
  BData a f = BData (mkArr (TU 8) [2] [XInt 0; XInt 0]) (mkFilt None None false false false).
Proof.
  intros o s i ob a f M H B. destruct (filters_right o s M i ob H a f B) as [(d & D1 & D2)|C]; [left|right; exact C].
  exists d, (itemsize d). split; [|split; [apply occupies_itemsize|exact D2]]. destruct d; cbn [stored_dt] in D1; auto. destruct n; auto.
Qed.
Print Assumptions C19_filters.
Definition c19_options : options := with_option default_options CompressSizeThreshold (OVInt 100).
Definition c19_file : file := fst (file_writes c19_options N.of_nat 5 20 (mkFile true empty_file)
  [(PStr (lit "/big"), VNp CNdarray (mkArr (TI 8) [13] (map (fun k => XInt (Z.of_nat k)) (seq 0 13))));
   (PStr (lit "/small"), VNp CNdarray (mkArr (TI 8) [12] (map (fun k => XInt (Z.of_nat k)) (seq 0 12))))]).
Definition filters_at (f : file) (k : pystr) : option filt :=
  match lookup (hp (fl_st f)) 0 k with
  | Some i => match hp (fl_st f) i with Some ob => match o_body ob with BData _ x => Some x | _ => None end | None => None end
  | None => None
  end.
Example C19_ex : made_with c19_options (fl_st c19_file) /\
  filters_at c19_file (lit "big") = Some (mkFilt (Some (lit "gzip")) (Some 7%Z) true true true) /\
  filters_at c19_file (lit "small") = Some (mkFilt None None false false false).
Proof. split; [apply Made_writes, Made_new|]. vm_compute. auto. Qed.

(** C20: the name given to a new element is not in use at that time, whatever the
    random numbers are ... *)
Theorem C20_unused : forall refs s o rnd tries g s' k, good_refs refs -> reachable refs s -> o_refs o = refs ->
  rgrp s = Some g -> next_name rnd tries g s = (s', Ok k) ->
  lookup (hp s) g k = None /\ k <> lit "a" /\ hp s' = hp s.
Proof.
  intros refs s o rnd tries g s' k GR HR Ho Hg E. pose proof (next_keeps o rnd tries (fun _ => True) s g (reachable_wf refs s GR HR o Ho) Hg) as (_ & _ & K).
  rewrite E in K. destruct (K k eq_refl) as (K1 & K2 & K3 & K4 & K5 & _). auto.
Qed.
Print Assumptions C20_unused.
Lemma draw_at rnd n g : forall s s' k, draw rnd n g s = (s', Ok k) -> exists p, rpos s <= p /\ p < rpos s' /\ k = show_hex16 (rnd p).
Proof.
  induction n as [|n IH]; intros s s' k E; [discriminate|]. cbn [draw] in E. destruct (lookup _ _ _).
  - destruct (IH _ _ _ E) as (p & P1 & P2 & P3). cbn in P1. exists p. split; [lia|auto].
  - injection E as <- <-. exists (rpos s). cbn. split; [lia|]. split; [lia|reflexivity].
Qed.
(** ... and is never given again in the session, if the references group was made in it,
    or else if the random numbers drawn meanwhile do not repeat.  [s2]: any later state. *)
Theorem C20_distinct_partial : forall refs s o rnd tries tries' g s' k s2 s3 k2, good_refs refs -> reachable refs s -> o_refs o = refs ->
  rgrp s = Some g -> next_name rnd tries g s = (s', Ok k) ->
  rcreated s = true \/ no_repeat rnd (rpos s) (rpos s3) ->
  rgrp s2 = rgrp s' -> rcreated s2 = rcreated s' -> (counter s' <= counter s2)%N -> rpos s' <= rpos s2 ->
  next_name rnd tries' g s2 = (s3, Ok k2) -> k2 <> k.
Proof.
  intros refs s o rnd tries tries' g s' k s2 s3 k2 GR HR Ho Hg E HC H1 H2 H3 H4 E2 ->.
  pose proof (next_keeps o rnd tries (fun _ => True) s g (reachable_wf refs s GR HR o Ho) Hg) as (_ & F & K).
  rewrite E in K, F. cbn [fst] in F. destruct (K k eq_refl) as (K1 & K2 & K3 & K4 & K5 & K6 & K7 & K8).
  destruct (f_rgrp _ _ _ _ _ F g Hg) as [G1 G2]. cbn [fst] in *.
  unfold next_name in E2. destruct (rcreated s2) eqn:C2.
  - injection E2 as <- <-. apply K7. unfold futc. rewrite G1. split; [congruence|]. exists (counter s2). auto.
  - destruct HC as [HC|HC]; [congruence|]. unfold next_name in E. assert (X : rcreated s = false) by congruence. rewrite X in E.
    destruct (draw_at _ _ _ _ _ _ E) as (p & P1 & P2 & P3). destruct (draw_at _ _ _ _ _ _ E2) as (q & Q1 & Q2 & Q3).
    rewrite P3 in Q3. apply show_hex16_inj in Q3. apply (HC p q); [lia|lia|lia|exact Q3].
Qed.
Print Assumptions C20_distinct_partial.
(** With random numbers that repeat, an element is lost: the name of an outer element is
    chosen, but not taken, before the inner ones are written. *)
Definition c20_file : file := mkFile true (new_session (fl_st (fst (file_write default_options N.of_nat 5 20 (mkFile true empty_file)
  (VSeq QList [VInt 5]) (PStr (lit "/x")))))).
Theorem C20_distinct_refuted :
  let f := fst (file_write default_options (fun _ => 77%N) 5 20 c20_file (VSeq QList [VSeq QList [VInt 1]]) (PStr (lit "/y"))) in
  snd (file_write default_options (fun _ => 77%N) 5 20 c20_file (VSeq QList [VSeq QList [VInt 1]]) (PStr (lit "/y"))) = Ok tt /\
  snd (file_read default_options 20 key_eq f (PStr (lit "/y"))) = Err ValueError.
Proof. vm_compute. auto. Qed.
Print Assumptions C20_distinct_refuted.
Example C20_ex :
  let f := fst (file_write default_options N.of_nat 5 20 c20_file (VSeq QList [VSeq QList [VInt 1]]) (PStr (lit "/y"))) in
  snd (file_read default_options 20 key_eq f (PStr (lit "/y"))) = Ok (VSeq QList [VSeq QList [VInt 1]]) /\
  snd (file_read default_options 20 key_eq f (PStr (lit "/x"))) = Ok (VSeq QList [VInt 5]).
Proof. vm_compute. auto. Qed.
