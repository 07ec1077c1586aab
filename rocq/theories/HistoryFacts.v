(** Every file that can be reached is well formed; what calls leave unchanged. *)
From Verif Require Import Base PathEsc PosixPath PosixFacts ProcessPath ProcessPathFacts Unicode MColl Dec NdArray Value OptionsM StrConv Attrs Hdf5 HeapFacts NpWrite NpRead MarshalW MarshalR FrameFacts WriteFrame ReadFacts FileApi ApiFacts CutM CutFrame CutFacts ApiSpec.
Local Open Scope nat_scope.

Lemma wf_options o o' s : o_refs o = o_refs o' -> wf o s -> wf o' s.
Proof.
  intros E W. assert (R : rp o = rp o') by (unfold rp; rewrite E; reflexivity). destruct W.
  constructor; auto; rewrite <- ?R; auto. intros i ob a f j H1 H2 H3. unfold ptr_ok. rewrite <- R. eapply w_ptrs; eassumption.
Qed.
Lemma wf_empty o : path_comps (o_refs o) <> [] -> wf o empty_file.
Proof.
  intros NR. fold (rp o) in NR. constructor.
  - constructor.
    + exists (mkObj [] no_attrs (BGroup [])), []. auto.
    + intros i ob. cbn. destruct (Nat.eqb_spec i 0); [lia|discriminate].
    + intros i k j. unfold lookup, links. cbn. destruct (i =? 0); discriminate.
    + intros i. unfold links. cbn. destruct (i =? 0); cbn; split; constructor.
  - intros g. destruct (rp o); [congruence|]. discriminate.
  - discriminate.
  - discriminate.
  - cbn. lia.
  - discriminate.
  - intros i ob a f j. cbn. destruct (i =? 0); [intros [= <-]|]; discriminate.
Qed.
Lemma wf_session o s : wf o s -> wf o (new_session s).
Proof.
  intros W. destruct W. constructor; auto; cbn [hp nxt rgrp rcreated canon counter rpos new_session]; try discriminate.
Qed.

Lemma unlink_at_eq s cs : forall g, unlink_at g cs s =
  match rev cs with
  | [] => (s, Err KeyError)
  | k :: r => match walk (hp s) g (rev r) with
              | Some i => match lookup (hp s) i k with
                          | Some _ => (set_hp s (rm_link (hp s) i k), Ok tt)
                          | None => (s, Err KeyError)
                          end
              | None => (s, Err KeyError)
              end
  end.
Proof.
  induction cs as [|k cs IH]; intros g; [reflexivity|]. destruct cs as [|k2 cs].
  - cbn [unlink_at rev app walk]. destruct (lookup (hp s) g k) eqn:L; [|reflexivity].
    destruct (group_body _ _ (lookup_group _ _ _ _ L)) as (ob & ls & B1 & B2 & B3). unfold set_links. rewrite B1. f_equal. f_equal.
    unfold rm_link, with_body, name_of, attrs_of. rewrite B1. reflexivity.
  - change (unlink_at g (k :: k2 :: cs) s) with (match lookup (hp s) g k with Some j => unlink_at j (k2 :: cs) s | None => (s, Err KeyError) end).
    destruct (snoc_cases (k2 :: cs)) as [X|(init & x & X)]; [discriminate|]. rewrite X in *.
    change (rev (k :: init ++ [x])) with (rev (init ++ [x]) ++ [k]). rewrite rev_app_distr. cbn [rev app].
    rewrite rev_app_distr, rev_involutive. cbn [rev app walk].
    destruct (lookup (hp s) g k) as [j|] eqn:L; [|reflexivity]. rewrite IH, rev_app_distr. cbn [rev app]. rewrite rev_involutive. reflexivity.
Qed.
Lemma del_keeps o rnd s name : wf o s -> ~ overlap (path_comps name) (rp o) ->
  keeps o rnd (pre (path_comps name)) s (unlink 0 name s) (fun _ _ => True).
Proof.
  intros W NO. unfold unlink. destruct (name_err name); [apply keeps_err; exact W|].
  unfold start_of. replace (if isabs name then 0 else 0) with 0 by (destruct (isabs name); reflexivity).
  rewrite unlink_at_eq. destruct (snoc_cases (path_comps name)) as [X|(init & x & X)]; rewrite X in *; [apply keeps_err; exact W|].
  rewrite rev_app_distr. cbn [rev app]. rewrite rev_involutive. destruct (walk (hp s) 0 init) as [i|] eqn:Hw; [|apply keeps_err; exact W].
  destruct (lookup (hp s) i x) eqn:L; [|apply keeps_err; exact W]. pose proof (walk_root_name _ _ _ _ (w_tree _ _ W) Hw) as N.
  pose proof (lookup_group _ _ _ _ L) as G. split; cbn [fst snd]; [|split; [|auto]].
  - apply wf_unlink; auto. rewrite N. intros P. apply NO. unfold ra in P. destruct (pre_snoc_inv _ _ _ P) as [Q|Q].
    + left. exact Q.
    + right. rewrite Q. apply pre_app.
  - apply frame_unlink; auto. rewrite N. auto.
Qed.

Lemma plain_clean s : plain_link s -> s = [] \/ clean s.
Proof. intros (A & B & C). right. split; [exact A|]. split; [exact B|exact C]. Qed.

(** a call of writes: where it goes *)
Lemma writes_cases o rnd tries n s mdict f r : good_refs (o_refs o) -> plain_link (o_keys_name o) -> plain_link (o_values_name o) ->
  wf o s -> (forall p v, In (p, v) mdict -> ~ denotes p []) ->
  file_writes o rnd tries n (mkFile true s) mdict = (f, r) ->
  wf o (fl_st f) /\ fl_open f = true /\
  frame o rnd (fun p => exists q v cs, In (q, v) mdict /\ denotes q cs /\ apart o cs /\ onway cs p) s (fl_st f).
Proof.
  intros [HA NR] K1 K2 W NZ. unfold file_writes.
  destruct (mapr (fun pv => do gt <- check_path o (fst pv); Ok (gt, snd pv)) mdict) as [l|e] eqn:E.
  2: { intros [= <- <-]. cbn. split; [exact W|]. split; [reflexivity|apply frame_refl; exact W]. }
  cbn [fl_open fl_st].
  assert (HL : forall x, In x l -> exists p v, In (p, v) mdict /\ check_path o p = Ok (fst x) /\ snd x = v).
  { clear - E. revert l E. induction mdict as [|[p v] m IH]; intros l; cbn [mapr]; [intros [= <-] x []|].
    cbn [fst snd]. destruct (check_path o p) as [gt|] eqn:C; [|discriminate]. cbn [bindr].
    destruct (mapr _ m) as [l'|]; [|discriminate]. cbn [bindr]. intros [= <-] x [<-|Hx].
    - exists p, v. cbn. auto.
    - destruct (IH l' eq_refl x Hx) as (p' & v' & H1 & H2). exists p', v'. split; [right; exact H1|exact H2]. }
  destruct (iterM _ l s) as [s' r'] eqn:I. intros [= <- <-]. cbn [fl_st].
  pose proof (writes_keeps o rnd tries n (plain_clean _ K1) (plain_clean _ K2)
     (fun p => exists q v cs, In (q, v) mdict /\ denotes q cs /\ apart o cs /\ onway cs p) s l W) as K.
  rewrite I in K. destruct K as (T1 & T2 & _); [|cbn [fst] in *; auto].
  intros [[g t] v] Hx. destruct (HL _ Hx) as (p & v' & H1 & H2 & H3). cbn [fst snd] in *.
  apply check_path_iff in H2; [|exact HA]. destruct H2 as [H2 H4].
  assert (D : denotes p (loc g t)) by (exists g, t; auto).
  destruct (loc_clean _ _ _ H2) as [Z|[C LE]]; [rewrite Z in D; destruct (NZ p v' H1 D)|].
  destruct H4 as [H4|[H4|H4]]; [destruct (NR H4)|rewrite H4 in D; destruct (NZ p v' H1 D)|]. rewrite <- LE.
  split; [exact C|]. split; [exact H4|]. intros q Hq. exists p, v', (loc g t). auto.
Qed.
(** and one that is cut short *)
Lemma cut_cases o rnd tries n s mdict s' : good_refs (o_refs o) -> plain_link (o_keys_name o) -> plain_link (o_values_name o) ->
  wf o s -> (forall p v, In (p, v) mdict -> ~ denotes p []) ->
  cut_states o rnd tries n (mkFile true s) mdict s' ->
  fine o s' /\ frame o rnd (fun p => exists q v cs, In (q, v) mdict /\ denotes q cs /\ apart o cs /\ onway cs p) s s'.
Proof.
  intros [HA NR] K1 K2 W NZ [->|H]; [cbn [fl_st]; split; [apply wf_fine; exact W|apply frame_refl; exact W]|]. unfold file_writesT in H.
  destruct (mapr (fun pv => do gt <- check_path o (fst pv); Ok (gt, snd pv)) mdict) as [l|e] eqn:E; [|destruct H].
  cbn [fl_open fl_st fst snd] in H.
  assert (HL : forall x, In x l -> exists p v, In (p, v) mdict /\ check_path o p = Ok (fst x) /\ snd x = v).
  { clear - E. revert l E. induction mdict as [|[p v] m IH]; intros l; cbn [mapr]; [intros [= <-] x []|].
    cbn [fst snd]. destruct (check_path o p) as [gt|] eqn:C; [|discriminate]. cbn [bindr].
    destruct (mapr _ m) as [l'|]; [|discriminate]. cbn [bindr]. intros [= <-] x [<-|Hx].
    - exists p, v. cbn. auto.
    - destruct (IH l' eq_refl x Hx) as (p' & v' & H1 & H2). exists p', v'. split; [right; exact H1|exact H2]. }
  destruct (writes_keepsT o rnd tries n (plain_clean _ K1) (plain_clean _ K2)
     (fun p => exists q v cs, In (q, v) mdict /\ denotes q cs /\ apart o cs /\ onway cs p) s l W) as [K _]; [|exact (K s' H)].
  intros [[g t] v] Hx. destruct (HL _ Hx) as (p & v' & H1 & H2 & H3). cbn [fst snd] in *.
  apply check_path_iff in H2; [|exact HA]. destruct H2 as [H2 H4].
  assert (D : denotes p (loc g t)) by (exists g, t; auto).
  destruct (loc_clean _ _ _ H2) as [Z|[C LE]]; [rewrite Z in D; destruct (NZ p v' H1 D)|].
  destruct H4 as [H4|[H4|H4]]; [destruct (NR H4)|rewrite H4 in D; destruct (NZ p v' H1 D)|]. rewrite <- LE.
  split; [exact C|]. split; [exact H4|]. intros q Hq. exists p, v', (loc g t). auto.
Qed.

Lemma canonical_empty_is h c oc : h c = Some oc -> canonical_empty oc -> is_canonical h c = true.
Proof. intros E (w & f & B & C & M). unfold is_canonical. rewrite E, B, C, M. reflexivity. Qed.
Lemma cut_done o refs s : o_refs o = refs -> fine o s -> mark_done refs s -> wf o s.
Proof.
  intros E [_ F] D. apply F. intros c Hc. unfold ra, rp in Hc. rewrite E in Hc. destruct (D c Hc) as (oc & D1 & D2). exact (canonical_empty_is _ _ _ D1 D2).
Qed.
Lemma wf_elsewhere refs s o : from_elsewhere refs s -> o_refs o = refs -> wf o (new_session s).
Proof.
  intros [E1 E2 E3 E4 E5 E6] <-.
  assert (LK : forall i k j, lookup (hp s) i k = Some j -> exists ob ls, hp s i = Some ob /\ o_body ob = BGroup ls /\ In (k, j) ls).
  { intros i k j H. unfold lookup, Hdf5.links in H. destruct (hp s i) as [ob|]; [|discriminate]. destruct (o_body ob) as [|ls] eqn:B; [discriminate|]. exists ob, ls. split; [reflexivity|]. split; [exact B|]. apply assoc_In. exact H. }
  constructor; cbn [new_session hp nxt rgrp rcreated canon counter]; try discriminate; try lia.
  - constructor.
    + exact E1.
    + exact E2.
    + intros i k j H. destruct (LK _ _ _ H) as (ob & ls & A1 & A2 & A3). destruct (E3 _ _ _ _ _ A1 A2 A3) as (_ & _ & oj & J1 & J2). split; [congruence|]. unfold name_of. rewrite A1, J1. exact J2.
    + intros i. unfold Hdf5.links. destruct (hp s i) as [ob|] eqn:A1; [|split; constructor]. destruct (o_body ob) as [|ls] eqn:A2; [split; constructor|]. split; [eapply E4; eassumption|].
      apply Forall_forall. intros k H. apply in_map_iff in H. destruct H as ((k' & j) & <- & H). destruct (E3 _ _ _ _ _ A1 A2 H) as ((P1 & P2 & P3) & _). split; [exact P1|]. split; [exact P2|exact P3].
  - intros g H. destruct (E5 g H) as (ob & ls & A1 & A2 & A3). split; [unfold is_group; rewrite A1, A2; reflexivity|].
    intros c Hc. destruct (LK _ _ _ Hc) as (ob' & ls' & B1 & B2 & B3). rewrite A1 in B1. injection B1 as <-. rewrite A2 in B2. injection B2 as <-. destruct (A3 c B3) as (oc & C1 & C2). eapply canonical_empty_is; eassumption.
  - intros i ob a f j A1 A2 A3. destruct (E6 _ _ _ _ _ A1 A2 A3) as (oj & k & J1 & J2). split; [congruence|]. exists k. unfold name_of. rewrite J1. exact J2.
Qed.
Theorem reachable_wf refs s : good_refs refs -> reachable refs s -> forall o, o_refs o = refs -> wf o s.
Proof.
  intros GR. induction 1 as [|s FE|s H IH|s o rnd tries n mdict f r H IH U NZ E|s o rnd tries n mdict s' H IH U NZ E MD|s p f r H IH NO E]; intros o' Ho.
  - apply wf_empty. rewrite Ho. apply GR.
  - eapply wf_elsewhere; eassumption.
  - apply wf_session. auto.
  - destruct U as (U1 & U2 & U3). apply (wf_options o); [congruence|].
    eapply writes_cases; try eassumption; [rewrite U1; exact GR|]. apply IH. exact U1.
  - destruct U as (U1 & U2 & U3). apply (wf_options o); [congruence|].
    apply (cut_done o refs _ U1); [|exact MD]. eapply cut_cases; try eassumption; [rewrite U1; exact GR|]. apply IH. exact U1.
  - unfold file_del in E. destruct (process_path p) as [[g t]|e] eqn:P; [|injection E as <- <-; auto].
    cbn [fl_open fl_st] in E. destruct (unlink 0 (posix_join g [t]) s) as [s' r'] eqn:U. injection E as <- <-. cbn [fl_st].
    pose proof (del_keeps o' (fun _ => 0%N) s (posix_join g [t]) (IH o' Ho)) as K. rewrite U in K. apply K.
    intros O. apply (NO (path_comps (posix_join g [t]))); [exists g, t; auto|]. unfold rp in O. rewrite Ho in O. exact O.
Qed.

(** ** reads elsewhere *)
Lemma read_at_walk o keq n g t s s' : clean t -> name_err t = None -> 
  walk (hp s') 0 (path_comps g ++ [t]) = walk (hp s) 0 (path_comps g ++ [t]) ->
  (forall i, walk (hp s) 0 (path_comps g ++ [t]) = Some i -> read o keq (hp s') n i = read o keq (hp s) n i) ->
  read_at o n keq g t s' = read_at o n keq g t s.
Proof.
  intros C NE Hw Hr.
  assert (G : forall x, read_at o n keq g t x = match name_err g with Some e => Err e | None =>
     match walk (hp x) 0 (path_comps g ++ [t]) with Some j => read o keq (hp x) n j | None => Err KeyError end end).
  { intros x. unfold read_at, get_obj at 1. destruct (name_err g); [reflexivity|]. cbn [fail gets snd bindr].
    unfold start_of. replace (if isabs g then 0 else 0) with 0 by (destruct (isabs g); reflexivity).
    rewrite walk_snoc. destruct (walk (hp x) 0 (path_comps g)) as [i|]; [|reflexivity].
    destruct (get_name i t x (or_intror C)) as [(e & E)|(_ & _ & E)].
    { unfold get_obj in E. rewrite NE in E. discriminate. }
    rewrite E. cbn [snd bindr]. destruct (is_group (hp x) i) eqn:Gi; [reflexivity|].
    destruct (lookup (hp x) i t) eqn:L; [apply lookup_group in L; congruence|reflexivity]. }
  rewrite !G, Hw. destruct (name_err g); [reflexivity|]. destruct (walk (hp s) 0 (path_comps g ++ [t])); [auto|reflexivity].
Qed.
(** the text of the target has neither NULs nor surrogates *)
Definition valid_target (q : pypath) : Prop := forall g t, process_path q = Ok (g, t) -> name_err t = None.

Lemma read_elsewhere_t o rnd (R : list pystr -> Prop) s s' ro keq m q : good_refs (o_refs o) -> o_refs ro = o_refs o -> valid_target q ->
  wf o s -> tree (hp s') (nxt s') -> frame o rnd R s s' -> (forall qs, denotes q qs -> qs <> [] /\ (apart o qs -> off o R qs)) ->
  snd (file_read ro m keq (mkFile true s') q) = snd (file_read ro m keq (mkFile true s) q).
Proof.
  intros [HA NR] HR V W W' F H. unfold file_read, file_reads. cbn [snd mapr fl_open fl_st].
  destruct (check_path ro q) as [[g t]|e] eqn:C; [|reflexivity]. cbn [bindr mapr fst snd].
  apply check_path_iff in C; [|rewrite HR; exact HA]. destruct C as [P C].
  assert (D : denotes q (loc g t)) by (exists g, t; auto). destruct (H _ D) as [NZ OF].
  destruct (loc_clean _ _ _ P) as [Z|[Cl LE]]; [contradiction|]. unfold apart, rp in *. rewrite HR in C.
  destruct C as [C|[C|C]]; [contradiction|contradiction|]. specialize (OF C). rewrite LE in *.
  assert (A : apart o (path_comps g ++ [t])) by exact C. destruct (apart_ra _ _ A) as [A1 A2].
  rewrite (read_at_walk ro keq m g t s s' Cl (V g t P)); [reflexivity| |].
  - eapply frame_walk_t; try eassumption. apply OF. apply pre_refl.
  - intros i Hi. eapply frame_read_off; try eassumption. apply (proj1 (apart_pre o _ A)).
Qed.
Lemma read_elsewhere o rnd (R : list pystr -> Prop) s s' ro keq m q : good_refs (o_refs o) -> o_refs ro = o_refs o -> valid_target q ->
  wf o s -> wf o s' -> frame o rnd R s s' -> (forall qs, denotes q qs -> qs <> [] /\ (apart o qs -> off o R qs)) ->
  snd (file_read ro m keq (mkFile true s') q) = snd (file_read ro m keq (mkFile true s) q).
Proof. intros H1 H2 H3 W W'. apply read_elsewhere_t; auto. apply (w_tree _ _ W'). Qed.
