(** Writing over what is there already, through the class File. *)
From Verif Require Import Base PathEsc PathEscFacts PosixPath PosixFacts ProcessPath ProcessPathFacts Unicode Dec NdArray Value OptionsM Attrs Hdf5 HeapFacts NpWrite MarshalW MarshalR FrameFacts WriteFrame ReadFacts FileApi ApiFacts CutM ApiSpec HistoryFacts FileFacts RndFacts RoundSpec RoundHeap RoundWrite RoundVal RoundDict RoundAll RoundApi ProgressSpec OverSpec Over OverDict.
Local Open Scope nat_scope.

(** ** what was written last is there, and looks like it *)
Definition kept (wo ro : options) (keq : pyval -> pyval -> bool) (s : st) (t : list pystr) (v : pyval) : Prop :=
  found ro keq s t v /\ exists i, walk (hp s) 0 t = Some i /\ spot wo (hp s) i v.

Lemma apart_pre o t p : apart o t -> pre t p -> ~ pre p (rp o).
Proof. intros (a & b & r1 & r2 & -> & E & N) [x ->] [y Y]. rewrite E in Y. injection Y as X _. congruence. Qed.
Lemma kept_frame wo ro keq o rnd (R : list pystr -> Prop) s s' t v : wf o s -> wf o s' -> frame o rnd R s s' -> apart o t -> off o R t ->
  kept wo ro keq s t v -> kept wo ro keq s' t v.
Proof.
  intros W W' F A O [H1 (i & H2 & H3)]. split; [exact (found_frame o ro keq rnd R s s' t v W W' F A O H1)|].
  exists i. pose proof (walk_root_name _ _ _ _ (w_tree _ _ W) H2) as N. assert (L : live (hp s) i = true) by (apply live_walk; rewrite N; exact H2).
  split; [rewrite (frame_walk o rnd R s s' t W W' F); [exact H2|apply O, pre_refl|exact A]|].
  apply (spot_frame wo o rnd R s s' i v W F H3 t); [split; [exact (live_exists o _ _ W L)|split; assumption]|].
  intros p Hp. split; [apply O; exact Hp|apply (apart_pre o t p A Hp)].
Qed.

Section Api.
Variables (wo ro : options) (keq : pyval -> pyval -> bool) (tries n : nat).
Hypotheses (HP : paired wo ro).
Hypothesis str_keys : forall a b, keq (VStr a) (VStr b) = eqb_str a b.
Let Hkn := keys_clean wo ro HP.
Let Hvn := values_clean wo ro HP.

(** nothing is there, or something that can be written over *)
Definition overwritable (s : st) (t : list pystr) (w : pyval) : Prop :=
  walk (hp s) 0 t = None \/ exists i v, walk (hp s) 0 t = Some i /\ spot wo (hp s) i v /\ storable wo ro keq v /\ replaces wo v w.

Lemma write_at_kept0 rnd s g t v s' : inj_rnd rnd -> wf wo s -> clean t -> apart wo (path_comps g ++ [t]) -> overwritable s (path_comps g ++ [t]) v ->
  storable wo ro keq v -> write_at wo rnd tries n g t v s = (s', Ok tt) -> kept wo ro keq s' (path_comps g ++ [t]) v.
Proof.
  intros HI W C A L V E. destruct (apart_ra _ _ A) as [A1 A2]. unfold write_at in E. unfold bindm in E.
  assert (KR : keeps wo rnd (fun p => pre p (path_comps g)) s (require_group g s) (fun s' i => live (hp s') i = true /\ is_group (hp s') i = true /\ name_of (hp s') i = path_comps g)).
  { apply require_keeps; [exact W| |auto]. intros P. apply A2. eapply pre_trans; [exact P|apply pre_app]. }
  destruct (require_group g s) as [s1 [i|e]] eqn:E1; [|discriminate]. destruct KR as (W1 & F1 & K). destruct (K i eq_refl) as (L1 & G1 & N1). cbn [fst snd] in *. clear K.
  assert (NP : ~ pre (path_comps g ++ [t]) (path_comps g)) by (intros P; apply pre_len in P; rewrite app_length in P; cbn in P; lia).
  assert (WE : walk (hp s1) 0 (path_comps g ++ [t]) = walk (hp s) 0 (path_comps g ++ [t])) by (apply (frame_walk wo rnd _ s s1 _ W W1 F1); auto).
  assert (LE : lookup (hp s1) i t = walk (hp s) 0 (path_comps g ++ [t])).
  { rewrite <- WE, walk_snoc. apply live_walk in L1. rewrite N1 in L1. rewrite L1. reflexivity. }
  assert (X : spare wo ro keq s1 i t v).
  { destruct L as [L|(j & w & L & T & VW & RP)]; [left; rewrite LE; exact L|right; right]. exists j, w. split; [rewrite LE; exact L|]. split; [|auto].
    pose proof (walk_root_name _ _ _ _ (w_tree _ _ W) L) as N. assert (LJ : live (hp s) j = true) by (apply live_walk; rewrite N; exact L).
    apply (spot_frame wo wo rnd _ s s1 j w W F1 T (path_comps g ++ [t])); [split; [exact (live_exists wo _ _ W LJ)|split; assumption]|].
    intros p Hp. split; [intros P; apply NP; eapply pre_trans; eassumption|apply (apart_pre wo _ p A Hp)]. }
  assert (OK : okt wo s1 i t).
  { constructor; auto; rewrite N1; auto. intros k P. exfalso. apply A2. eapply pre_trans; [|exact P]. apply pre_app. }
  assert (U : unreserved wo rnd s1 (name_of (hp s1) i ++ [t])).
  { split; rewrite N1; [exact A1|]. intros k P. exfalso. apply A2. eapply pre_trans; [|exact P]. apply pre_app. }
  destruct (write wo rnd tries n i t v s1) as [s2 [r|e]] eqn:E2; [|discriminate]. injection E as <-.
  destruct (write_keeps wo rnd tries Hkn Hvn n s1 i t v W1 OK) as (_ & _ & KW). rewrite E2 in KW. cbn [fst snd] in KW.
  destruct (write_ospec wo ro keq rnd tries HP HI str_keys n s1 i t v s2 r W1 OK X U V E2) as (j & -> & (Q & v' & _ & _ & H1 & _ & H2) & T).
  destruct (KW _ eq_refl) as (_ & L2 & N2). rewrite N1 in N2. apply live_walk in L2. rewrite N2 in L2.
  split; [exists j, v'; auto|exists j; auto].
Qed.
Lemma write_at_kept rnd s g t v s' : no_repeat rnd (rpos s) (rpos s') -> wf wo s -> clean t -> apart wo (path_comps g ++ [t]) -> overwritable s (path_comps g ++ [t]) v ->
  storable wo ro keq v -> write_at wo rnd tries n g t v s = (s', Ok tt) -> kept wo ro keq s' (path_comps g ++ [t]) v.
Proof.
  intros NR W C A L V E. apply (write_at_kept0 (extend rnd (rpos s) (rpos s')) s); auto; [exact (extend_inj _ _ _ NR)|].
  destruct (det_write_at wo tries n g t v rnd s) as [_ D]. rewrite E in D. cbn [fst] in D. apply D. intros p Hp. apply extend_in. exact Hp.
Qed.
End Api.

(** ** the class File *)
Lemma same_top_apart o cs : good_refs (o_refs o) -> cs <> [] -> ~ same_top cs (refs_path o) -> apart o cs.
Proof.
  intros [_ NR] NZ NS. unfold apart, rp. unfold refs_path in NS. destruct (path_comps (o_refs o)) as [|b r2]; [congruence|].
  destruct cs as [|a r1]; [congruence|]. exists a, b, r1, r2. split; [reflexivity|]. split; [reflexivity|]. intros ->. apply NS. exists b, r1, r2. auto.
Qed.
Lemma file_kept refs s wo ro keq rnd tries n p cs v f : good_refs refs -> reachable refs s -> usable refs wo -> paired wo ro -> (forall a b, keq (VStr a) (VStr b) = eqb_str a b) -> denotes p cs -> ~ same_top cs (refs_path wo) -> cs <> [] ->
  overwritable wo ro keq s cs v -> storable wo ro keq v -> file_write wo rnd tries n (mkFile true s) v p = (f, Ok tt) ->
  no_repeat rnd (rpos s) (rpos (fl_st f)) -> fl_open f = true /\ kept wo ro keq (fl_st f) cs v.
Proof.
  intros G1 G2 (U1 & U2 & U3) G4 G6 D NS NZ OV V E NR.
  pose proof (reachable_wf refs s G1 G2 wo U1) as W.
  assert (HA : isabs (o_refs wo) = true) by (rewrite U1; apply G1).
  unfold file_write, file_writes in E. cbn [mapr fst snd] in E. destruct (check_path wo p) as [[g t]|] eqn:EC; [|discriminate]. cbn [bindr mapr fst snd fl_open fl_st iterM] in E.
  unfold bindm in E. destruct (write_at wo rnd tries n g t v s) as [s' [u|e]] eqn:EW; cbn [ret] in E; [|discriminate]. injection E as <-. cbn [fl_st fl_open] in *. destruct u. split; [reflexivity|].
  apply check_path_iff in EC; [|exact HA]. destruct EC as [P AP]. assert (D' : denotes p (loc g t)) by (exists g, t; auto). pose proof (denotes_fun _ _ _ D D') as EQ.
  destruct (loc_clean _ _ _ P) as [Z|[C LE]]; [congruence|]. rewrite LE in EQ. rewrite EQ in *.
  eapply write_at_kept; try eassumption. apply same_top_apart; [rewrite U1; exact G1|exact NZ|exact NS].
Qed.
Lemma kept_read refs s wo ro keq p cs v : good_refs refs -> usable refs wo -> paired wo ro -> valid_path p -> denotes p cs -> ~ same_top cs (refs_path wo) -> cs <> [] -> kept wo ro keq s cs v ->
  exists v', same v v' /\ forall m, depth v <= m -> file_read ro m keq (mkFile true s) p = (mkFile true s, Ok v').
Proof.
  intros G1 (U1 & U2 & U3) G4 V D NS NZ [(i & v' & K1 & K2 & K3) _]. exists v'. split; [exact K2|]. intros m Hm.
  pose proof (V _ D) as VF. destruct D as (g & t & P & ->). 
  assert (A : apart wo (loc g t)) by (apply same_top_apart; [rewrite U1; exact G1|exact NZ|exact NS]).
  assert (CP : check_path ro p = Ok (g, t)).
  { apply check_path_iff; [rewrite (p_refs _ _ G4), U1; apply G1|]. split; [exact P|]. right. right. unfold apart, rp. rewrite (p_refs _ _ G4). exact A. }
  unfold file_read, file_reads. cbn [mapr snd fl_open fl_st]. rewrite CP. cbn [bindr mapr fst snd].
  rewrite (read_at_eq ro keq m p g t s P NZ VF). fold (loc g t) in K1. rewrite K1, (K3 m Hm). reflexivity.
Qed.
Lemma kept_session wo ro keq s qs v : kept wo ro keq s qs v -> kept wo ro keq (new_session s) qs v.
Proof. intros [I2 I3]. split; [destruct I2 as (i & v' & X)|destruct I3 as (i & X)]; [exists i, v'|exists i]; exact X. Qed.
Lemma later_kept refs s s' wo ro keq q qs v : good_refs refs -> o_refs wo = refs -> denotes q qs -> qs <> [] -> ~ same_top qs (path_comps refs) -> later refs q s s' ->
  reachable refs s -> kept wo ro keq s qs v -> reachable refs s' /\ kept wo ro keq s' qs v.
Proof.
  intros GR HO D NZ NS L HR K. induction L as [s|s s' L IH|s s' o rnd tries n mdict f r L IH U NO E|s s' o rnd tries n mdict s2 L IH U NO E MD|s s' p f r L IH NR NO E]; auto.
  - destruct (IH HR K) as [I1 I2]. split; [apply R_reopen; exact I1|apply kept_session; exact I2].
  - destruct (IH HR K) as [HR' I2]. clear IH. destruct U as (U1 & U2 & U3).
    assert (NZ' : forall p' v', In (p', v') mdict -> ~ denotes p' []). { intros p' v' Hx D'. destruct (NO p' v' [] qs Hx D' D) as [X _]. congruence. }
    split; [eapply R_write; [exact HR'|split; [exact U1|split; [exact U2|exact U3]]|exact NZ'|exact E]|].
    pose proof (reachable_wf refs s' GR HR' o U1) as W.
    destruct (writes_cases o rnd tries n s' mdict f r) as (W' & OP & F); auto. { rewrite U1. exact GR. }
    assert (A : apart o qs) by (apply same_top_apart; [rewrite U1; exact GR|exact NZ|unfold refs_path; rewrite U1; exact NS]).
    eapply (kept_frame wo ro keq o rnd); [exact W|exact W'|exact F|exact A| |exact I2]. split.
    + intros p0 Hp (q' & v' & cs & I & D' & A' & ON). destruct (NO q' v' cs qs I D' D) as [_ O].
      destruct (onway_off o cs qs A') as [X _]; [intros Y; apply O; left; exact Y|intros Y; apply O; right; exact Y|]. exact (X p0 Hp ON).
    + intros k p0 Hp (q' & v' & cs & I & D' & A' & ON). destruct (NO q' v' cs qs I D' D) as [_ O].
      destruct (onway_off o cs qs A') as [_ X]; [intros Y; apply O; left; exact Y|intros Y; apply O; right; exact Y|]. exact (X k p0 Hp ON).
  - destruct (IH HR K) as [HR' I2]. clear IH. destruct U as (U1 & U2 & U3).
    assert (NZ' : forall p' v', In (p', v') mdict -> ~ denotes p' []). { intros p' v' Hx D'. destruct (NO p' v' [] qs Hx D' D) as [X _]. congruence. }
    split; [eapply R_cut; [exact HR'|split; [exact U1|split; [exact U2|exact U3]]|exact NZ'|exact E|exact MD]|].
    pose proof (reachable_wf refs s' GR HR' o U1) as W.
    destruct (cut_cases o rnd tries n s' mdict s2) as (W'' & F); auto. { rewrite U1. exact GR. } pose proof (cut_done o refs s2 U1 W'' MD) as W'.
    assert (A : apart o qs) by (apply same_top_apart; [rewrite U1; exact GR|exact NZ|unfold ApiSpec.refs_path; rewrite U1; exact NS]).
    eapply (kept_frame wo ro keq o rnd); [exact W|exact W'|exact F|exact A| |exact I2]. split.
    + intros p0 Hp (q' & v' & cs & I & D' & A' & ON). destruct (NO q' v' cs qs I D' D) as [_ O].
      destruct (onway_off o cs qs A') as [X _]; [intros Y; apply O; left; exact Y|intros Y; apply O; right; exact Y|]. exact (X p0 Hp ON).
    + intros k p0 Hp (q' & v' & cs & I & D' & A' & ON). destruct (NO q' v' cs qs I D' D) as [_ O].
      destruct (onway_off o cs qs A') as [_ X]; [intros Y; apply O; left; exact Y|intros Y; apply O; right; exact Y|]. exact (X k p0 Hp ON).
  - destruct (IH HR K) as [HR' I2]. clear IH. split; [eapply R_del; [exact HR'|exact NR|exact E]|].
    pose proof (reachable_wf refs s' GR HR' wo HO) as W.
    unfold file_del in E. destruct (process_path p) as [[gp tp]|e] eqn:Pp; [|injection E as <- <-; exact I2]. cbn [fl_open fl_st] in E.
    assert (DP : denotes p (loc gp tp)) by (exists gp, tp; auto).
    assert (N2 : ~ overlap (path_comps (posix_join gp [tp])) (rp wo)) by (unfold rp; rewrite HO; apply NR; exact DP).
    pose proof (del_keeps wo (fun _ => 0%N) s' (posix_join gp [tp]) W N2) as KK. destruct (unlink 0 (posix_join gp [tp]) s') as [s2 r'].
    injection E as <- <-. destruct KK as (W' & F & _). cbn [fst fl_st] in *. fold (loc gp tp) in *. specialize (NO _ _ DP D).
    assert (A : apart wo qs) by (apply same_top_apart; [rewrite HO; exact GR|exact NZ|unfold refs_path; rewrite HO; exact NS]).
    eapply (kept_frame wo ro keq wo (fun _ => 0%N)); [exact W|exact W'|exact F|exact A| |exact I2]. split.
    + intros p0 H1 H2. destruct (pre_cmp _ _ _ H1 H2) as [Y|Y]; apply NO; [right|left]; exact Y.
    + intros k p0 H1 H2. apply N2. destruct (pre_cmp _ _ _ H1 H2) as [Y|Y].
      * right. eapply pre_trans; [|exact Y]. apply pre_app.
      * destruct (pre_snoc_inv _ _ _ Y) as [Z|Z]; [left; exact Z|right; rewrite Z; apply pre_app].
Qed.

Theorem last_kept refs wo ro keq p cs s v : good_refs refs -> usable refs wo -> paired wo ro -> (forall a b, keq (VStr a) (VStr b) = eqb_str a b) ->
  last_wrote refs wo ro keq p cs s v ->
  (denotes p cs /\ valid_path p /\ cs <> [] /\ ~ same_top cs (refs_path wo)) /\ storable wo ro keq v /\ reachable refs s /\ kept wo ro keq s cs v.
Proof.
  intros GR U HP SK H.
  assert (RW : forall s rnd tries n v f, denotes p cs -> cs <> [] -> reachable refs s -> file_write wo rnd tries n (mkFile true s) v p = (f, Ok tt) -> reachable refs (fl_st f)).
  { intros s0 rnd tries n v0 f D NZ HR E. eapply R_write; [exact HR|exact U| |exact E]. intros q w [[= <- <-]|[]] D'. apply NZ. exact (denotes_fun _ _ _ D D'). }
  induction H as [s rnd tries n v f HR NP V E NR|s s' v H IH L|s rnd tries n v w f H IH V RP E NR].
  - destruct NP as [D NE NT NZ NW FW].
    destruct (file_kept refs s wo ro keq rnd tries n p cs v f) as [_ K]; auto; [left; exact NW|].
    split; [|split; [exact V|split; [eapply RW; eassumption|exact K]]].
    split; [exact D|]. split; [intros cs' D'; rewrite (denotes_fun _ _ _ D' D); exact NE|]. auto.
  - destruct IH as ((D & VP & NZ & NT) & V & HR & K). destruct U as (U1 & U2 & U3).
    destruct (later_kept refs s s' wo ro keq p cs v GR U1 D NZ) as [X1 X2]; auto. unfold refs_path in NT. rewrite U1 in NT. exact NT.
  - destruct IH as ((D & VP & NZ & NT) & V0 & HR & [_ (i & K1 & K2)]).
    destruct (file_kept refs s wo ro keq rnd tries n p cs w f) as [_ K]; auto; [right; exists i, v; auto|].
    split; [auto|]. split; [exact V|]. split; [eapply RW; eassumption|exact K].
Qed.
