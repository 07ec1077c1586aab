(** What was written for MATLAB stays as it is, whatever is done elsewhere in the file. *)
From Verif Require Import Base PathEsc PathEscFacts PosixPath PosixFacts ProcessPath ProcessPathFacts Unicode Dec NdArray Value OptionsM Attrs Hdf5 HeapFacts NpWrite MarshalW MarshalR FrameFacts WriteFrame ReadFacts FileApi ApiFacts CutM ApiSpec HistoryFacts FileFacts RndFacts RoundSpec RoundHeap RoundWrite RoundVal RoundDict RoundAll RoundApi ProgressSpec OverSpec Over OverApi.
From Verif Require Import OptionsSpec MatlabSpec MatlabFacts MatlabPlan MatlabApi Plan Layout LayoutNp LayoutApi.
Local Open Scope nat_scope.

(** what is kept by changes elsewhere and by new sessions is kept *)
Lemma later_frame refs q qs s s' (P : st -> Prop) : good_refs refs -> denotes q qs -> qs <> [] -> ~ same_top qs (path_comps refs) -> later refs q s s' ->
  reachable refs s -> (forall s, P s -> P (new_session s)) ->
  (forall o rnd R s s', o_refs o = refs -> wf o s -> wf o s' -> frame o rnd R s s' -> apart o qs -> off o R qs -> P s -> P s') -> P s -> reachable refs s' /\ P s'.
Proof.
  intros GR D NZ NS L HR HN HF K. induction L as [s|s s' L IH|s s' o rnd tries n mdict f r L IH U NO E|s s' o rnd tries n mdict s2 L IH U NO E MD|s s' p f r L IH NR NO E]; auto.
  - destruct (IH HR K) as [I1 I2]. split; [apply R_reopen; exact I1|auto].
  - destruct (IH HR K) as [HR' I2]. clear IH. destruct U as (U1 & U2 & U3).
    assert (NZ' : forall p' v', In (p', v') mdict -> ~ denotes p' []). { intros p' v' Hx D'. destruct (NO p' v' [] qs Hx D' D) as [X _]. congruence. }
    split; [eapply R_write; [exact HR'|split; [exact U1|split; [exact U2|exact U3]]|exact NZ'|exact E]|].
    pose proof (reachable_wf refs s' GR HR' o U1) as W.
    destruct (writes_cases o rnd tries n s' mdict f r) as (W' & OP & F); auto. { rewrite U1. exact GR. }
    assert (A : apart o qs) by (apply same_top_apart; [rewrite U1; exact GR|exact NZ|unfold ApiSpec.refs_path; rewrite U1; exact NS]).
    eapply HF; [exact U1|exact W|exact W'|exact F|exact A| |exact I2]. split.
    + intros p0 Hp (q' & v' & cs & I & D' & A' & ON). destruct (NO q' v' cs qs I D' D) as [_ O].
      destruct (onway_off o cs qs A') as [X _]; [intros Y; apply O; left; exact Y|intros Y; apply O; right; exact Y|]. exact (X p0 Hp ON).
    + intros k p0 Hp (q' & v' & cs & I & D' & A' & ON). destruct (NO q' v' cs qs I D' D) as [_ O].
      destruct (onway_off o cs qs A') as [_ X]; [intros Y; apply O; left; exact Y|intros Y; apply O; right; exact Y|]. exact (X k p0 Hp ON).
  - destruct (IH HR K) as [HR' I2]. clear IH. destruct U as (U1 & U2 & U3).
    assert (NZ' : forall p' v', In (p', v') mdict -> ~ denotes p' []). { intros p' v' Hx D'. destruct (NO p' v' [] qs Hx D' D) as [X _]. congruence. }
    split; [eapply R_cut; [exact HR'|split; [exact U1|split; [exact U2|exact U3]]|exact NZ'|exact E|exact MD]|].
    pose proof (reachable_wf refs s' GR HR' o U1) as W.
    destruct (cut_cases o rnd tries n s' mdict s2) as (W'' & F); auto. { rewrite U1. exact GR. } pose proof (cut_done o refs s2 U1 W'' MD) as W'.
    assert (A : apart o qs) by (apply same_top_apart; [rewrite U1; exact GR|exact NZ|unfold ApiSpec.refs_path; rewrite U1; exact NS]).
    eapply HF; [exact U1|exact W|exact W'|exact F|exact A| |exact I2]. split.
    + intros p0 Hp (q' & v' & cs & I & D' & A' & ON). destruct (NO q' v' cs qs I D' D) as [_ O].
      destruct (onway_off o cs qs A') as [X _]; [intros Y; apply O; left; exact Y|intros Y; apply O; right; exact Y|]. exact (X p0 Hp ON).
    + intros k p0 Hp (q' & v' & cs & I & D' & A' & ON). destruct (NO q' v' cs qs I D' D) as [_ O].
      destruct (onway_off o cs qs A') as [_ X]; [intros Y; apply O; left; exact Y|intros Y; apply O; right; exact Y|]. exact (X k p0 Hp ON).
  - destruct (IH HR K) as [HR' I2]. clear IH. split; [eapply R_del; [exact HR'|exact NR|exact E]|].
    set (wo := upd_str default_options GroupForReferences refs).
    assert (HO : o_refs wo = refs) by reflexivity. clearbody wo.
    pose proof (reachable_wf refs s' GR HR' wo HO) as W.
    unfold file_del in E. destruct (process_path p) as [[gp tp]|e] eqn:Pp; [|injection E as <- <-; exact I2]. cbn [fl_open fl_st] in E.
    assert (DP : denotes p (loc gp tp)) by (exists gp, tp; auto).
    assert (N2 : ~ overlap (path_comps (posix_join gp [tp])) (rp wo)) by (unfold rp; rewrite HO; apply NR; exact DP).
    pose proof (del_keeps wo (fun _ => 0%N) s' (posix_join gp [tp]) W N2) as KK. destruct (unlink 0 (posix_join gp [tp]) s') as [s2 r'].
    injection E as <- <-. destruct KK as (W' & F & _). cbn [fst fl_st] in *. fold (loc gp tp) in *. specialize (NO _ _ DP D).
    assert (A : apart wo qs) by (apply same_top_apart; [rewrite HO; exact GR|exact NZ|unfold ApiSpec.refs_path; rewrite HO; exact NS]).
    eapply HF; [exact HO|exact W|exact W'|exact F|exact A| |exact I2]. split.
    + intros p0 H1 H2. destruct (pre_cmp _ _ _ H1 H2) as [Y|Y]; apply NO; [right|left]; exact Y.
    + intros k p0 H1 H2. apply N2. destruct (pre_cmp _ _ _ H1 H2) as [Y|Y].
      * right. eapply pre_trans; [|exact Y]. apply pre_app.
      * destruct (pre_snoc_inv _ _ _ Y) as [Z|Z]; [left; exact Z|right; rewrite Z; apply pre_app].
Qed.
(** of the options only the references group matters for these *)
Lemma frame_refs o o' rnd R s s' : o_refs o = o_refs o' -> frame o rnd R s s' -> frame o' rnd R s s'.
Proof. intros E [F1 F2 F3 F4 F5 F6 F7 F8 F9 F10 F11]. constructor; auto; unfold ra, rp in *; rewrite <- E; auto. Qed.
Lemma wf_refs o o' s : o_refs o = o_refs o' -> wf o s -> wf o' s.
Proof. intros E [W1 W2 W3 W4 W5 W6 W7]. constructor; auto; unfold ptr_ok, rp in *; rewrite <- E; auto. Qed.
Lemma off_refs o o' R t : o_refs o = o_refs o' -> off o R t -> off o' R t.
Proof. intros E [H1 H2]. unfold off, ra, rp in *. rewrite <- E. auto. Qed.

Lemma writes_stay o s rnd tries n mdict f :
  o_matlab_compatible o = true /\ o_struct_as_struct o = true /\ o_atleast_2d o = true /\ o_bytes_utf16 o = true /\ o_str_utf16 o = true /\ o_bools_uint8 o = true /\
    o_reverse o = true /\ o_shape_empty o = true /\ o_complex_names o = (lit "real", lit "imag") /\ o_refs o = lit "/#refs#" ->
  reachable (lit "/#refs#") s -> plain_link (o_keys_name o) -> plain_link (o_values_name o) -> o_keys_name o <> o_values_name o ->
  (forall p v, In (p, v) mdict -> valid_path p /\ presentable v /\ snd (file_contains (mkFile true s) p) = Ok false) ->
  ForallOrdPairs (fun x y => forall a b, denotes (fst x) a -> denotes (fst y) b -> ~ overlap a b) mdict ->
  file_writes o rnd tries n (mkFile true s) mdict = (f, Ok tt) -> no_repeat rnd (rpos s) (rpos (fl_st f)) ->
  forall p v, In (p, v) mdict -> exists t m, denotes p t /\ looks o v m /\
    forall s', later (lit "/#refs#") p (fl_st f) s' -> exists i, walk (hp s') 0 t = Some i /\ mat (hp s') i m.
Proof.
  intros (M1 & M2 & M3 & M4 & M5 & M6 & M7 & M8 & M9 & M10) HR K1 K2 KN OK ND E NR p v Hin.
  assert (GR : good_refs (lit "/#refs#")) by (split; [reflexivity|vm_compute; discriminate]).
  assert (U : usable (lit "/#refs#") o) by (split; auto).
  destruct (api_filled _ s o rnd tries n mdict f GR HR U KN) with (p := p) (v := v) as (t & D & F); auto.
  { intros q w H. destruct (OK q w H) as (H1 & H2 & H3). split; [exact H1|]. split; [apply presentable_tidy; exact H2|exact H3]. }
  destruct (OK p v Hin) as (VP & PV & NC).
  assert (NZ : t <> []).
  { intros ->. rewrite (contains_iff p [] s VP D) in NC. discriminate NC. }
  assert (NS : ~ same_top t (path_comps (lit "/#refs#"))).
  { intros S. unfold file_writes in E. destruct (mapr_bad (fun pv => do gt <- check_path o (fst pv); Ok (gt, snd pv)) mdict (p, v) ValueError Hin) as [e' X]; [|rewrite X in E; discriminate].
    cbn [fst snd]. rewrite (check_refuses o p t D); [reflexivity|]. unfold ApiSpec.refs_path. rewrite M10. exact S. }
  assert (RF : reachable (lit "/#refs#") (fl_st f)).
  { eapply R_write; [exact HR|exact U| |exact E]. intros q w Hq DQ. destruct (OK q w Hq) as (V1 & _ & C1). rewrite (contains_iff q [] s V1 DQ) in C1. discriminate C1. }
  assert (FL : forall s', later (lit "/#refs#") p (fl_st f) s' -> filled o n s' t v).
  { intros s' L. refine (proj2 (later_frame (lit "/#refs#") p t (fl_st f) s' (fun x => filled o n x t v) GR D NZ NS L RF _ _ F)).
    - intros x. exact (fun H => H).
    - intros o2 rnd2 R a b O2 Wa Wb Fr A O. assert (EO : o_refs o2 = o_refs o) by congruence. apply (filled_frame o n rnd2 R a b t v).
      + exact (wf_refs _ _ _ EO Wa).
      + exact (wf_refs _ _ _ EO Wb).
      + exact (frame_refs _ _ _ _ _ _ EO Fr).
      + unfold apart, rp in *. rewrite <- EO. exact A.
      + exact (off_refs _ _ _ _ EO O). }
  unfold filled in F. destruct (plan o n v) as [r|] eqn:PL; [|destruct F].
  destruct (proj1 (plan_shows o M1 M2 M3 M4 M5 M6 M7 M8 M9 M10 n) v PV r PL) as (T & m & -> & LK & S).
  exists t, m. split; [exact D|]. split; [exact LK|]. intros s' L. specialize (FL s' L). unfold filled in FL. rewrite PL in FL.
  destruct FL as (i & W & (_ & _ & Q & SQ & _ & _ & R)). exists i. split; [exact W|].
  apply (proj2 S (hp s') Q (fun a => a) i); [intros a k _; reflexivity|intros j Hj; apply (SQ j Hj)|exact R].
Qed.
