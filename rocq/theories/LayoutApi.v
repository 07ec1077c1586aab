(** The objects in the file after a call of File.writes to new paths. *)
From Verif Require Import Base PathEsc PathEscFacts PosixPath PosixFacts ProcessPath ProcessPathFacts Unicode Dec NdArray Value OptionsM Attrs Hdf5 HeapFacts NpWrite MarshalW MarshalR FrameFacts WriteFrame ReadFacts FileApi ApiFacts ApiSpec HistoryFacts FileFacts RndFacts RoundSpec RoundHeap RoundWrite RoundVal RoundDict RoundAll RoundApi Plan Layout LayoutNp.
Local Open Scope nat_scope.

Section Api.
Variables (wo : options) (tries n : nat).
Hypotheses (Hkn : o_keys_name wo = [] \/ clean (o_keys_name wo)) (Hvn : o_values_name wo = [] \/ clean (o_values_name wo)) (Hkv : o_keys_name wo <> o_values_name wo).

(** where the objects of a value written at [t] are *)
Definition area (t p : list pystr) : Prop := pre t p \/ exists k, pre (rp wo ++ [k]) p.
(** the objects at [t] are those of the value [v] *)
Definition filled (s : st) (t : list pystr) (v : pyval) : Prop :=
  match plan wo n v with
  | Ok None => walk (hp s) 0 t = None
  | Ok (Some T) => exists i, walk (hp s) 0 t = Some i /\ laid wo (hp s) (area t) i T
  | Err _ => False
  end.

Lemma write_at_filled0 rnd s g t v s' : inj_rnd rnd -> wf wo s -> clean t -> apart wo (path_comps g ++ [t]) -> walk (hp s) 0 (path_comps g ++ [t]) = None ->
  tidy v -> write_at wo rnd tries n g t v s = (s', Ok tt) -> filled s' (path_comps g ++ [t]) v.
Proof.
  intros HI W C A L V E. destruct (apart_ra _ _ A) as [A1 A2]. unfold write_at in E. unfold bindm in E.
  assert (KR : keeps wo rnd (fun p => pre p (path_comps g)) s (require_group g s) (fun s' i => live (hp s') i = true /\ is_group (hp s') i = true /\ name_of (hp s') i = path_comps g)).
  { apply require_keeps; [exact W| |auto]. intros P. apply A2. eapply pre_trans; [exact P|apply pre_app]. }
  destruct (require_group g s) as [s1 [i|e]] eqn:E1; [|discriminate]. destruct KR as (W1 & F1 & K). destruct (K i eq_refl) as (L1 & G1 & N1). cbn [fst snd] in *. clear K.
  assert (X : lookup (hp s1) i t = None).
  { assert (Y : walk (hp s1) 0 (path_comps g ++ [t]) = None).
    { rewrite (frame_walk wo rnd _ s s1 _ W W1 F1); [exact L| |exact A]. intros P. apply pre_len in P. rewrite app_length in P. cbn in P. lia. }
    rewrite walk_snoc in Y. apply live_walk in L1. rewrite N1 in L1. rewrite L1 in Y. exact Y. }
  assert (OK : okt wo s1 i t).
  { constructor; auto; rewrite N1; auto. intros k P. exfalso. apply A2. eapply pre_trans; [|exact P]. apply pre_app. }
  assert (U : unreserved wo rnd s1 (name_of (hp s1) i ++ [t])).
  { split; rewrite N1; [exact A1|]. intros k P. exfalso. apply A2. eapply pre_trans; [|exact P]. apply pre_app. }
  destruct (write wo rnd tries n i t v s1) as [s2 [r|e]] eqn:E2; [|discriminate]. injection E as <-.
  destruct (write_keeps wo rnd tries Hkn Hvn n s1 i t v W1 OK) as (W2 & F2 & KW). rewrite E2 in W2, F2, KW. cbn [fst snd] in W2, F2, KW.
  destruct (write_laid wo rnd tries Hkn Hvn Hkv HI n s1 i t v s2 r W1 OK X U V E2) as (R & ER & B). unfold filled. rewrite ER.
  destruct r as [j|], R as [T|]; [|destruct B|destruct B|].
  - destruct B as (B1 & B2 & B3). rewrite N1 in B3. destruct (KW _ eq_refl) as (_ & L2 & N2). rewrite N1 in N2. exists j. apply live_walk in L2. rewrite N2 in L2. split; [exact L2|].
    eapply laid_weaken; [|exact B3]. intros p [P|(k & _ & P)]; [left; exact P|right; exists k; exact P].
  - rewrite walk_snoc. assert (L2 : live (hp s2) i = true).
    { apply (f_live _ _ _ _ _ F2); [exact L1|]. rewrite N1. intros P. apply pre_len in P. rewrite app_length in P. cbn in P. lia. }
    apply live_walk in L2. rewrite (proj1 (proj2 (f_obj _ _ _ _ _ F2 i (live_exists _ _ _ W1 L1)))), N1 in L2. rewrite L2. exact B.
Qed.
Lemma write_at_filled rnd s g t v s' : no_repeat rnd (rpos s) (rpos s') -> wf wo s -> clean t -> apart wo (path_comps g ++ [t]) -> walk (hp s) 0 (path_comps g ++ [t]) = None ->
  tidy v -> write_at wo rnd tries n g t v s = (s', Ok tt) -> filled s' (path_comps g ++ [t]) v.
Proof.
  intros NR W C A L V E. apply (write_at_filled0 (extend rnd (rpos s) (rpos s')) s); auto; [exact (extend_inj _ _ _ NR)|].
  destruct (det_write_at wo tries n g t v rnd s) as [_ D]. rewrite E in D. cbn [fst] in D. apply D. intros p Hp. apply extend_in. exact Hp.
Qed.
Lemma area_clear R t : apart wo t -> off wo R t -> clear wo (area t) R /\ ~ R (ra wo).
Proof.
  intros A [O1 O2]. destruct (apart_pre wo t A) as [A1 A2]. split; [|apply (O2 (lit "a")); apply pre_refl].
  intros p [P|(k & P)].
  - split; [apply O1; exact P|]. split; [intros k; apply O1; eapply pre_trans; [exact P|apply pre_app]|]. intros Y. apply A1. eapply pre_trans; eassumption.
  - split; [apply (O2 k); exact P|]. split; [intros k2; apply (O2 k); eapply pre_trans; [exact P|apply pre_app]|]. intros Y. apply pre_len in P. apply pre_len in Y. rewrite app_length in P. cbn in P. lia.
Qed.
Lemma filled_frame rnd (R : list pystr -> Prop) s s' t v : wf wo s -> wf wo s' -> frame wo rnd R s s' -> apart wo t -> off wo R t -> filled s t v -> filled s' t v.
Proof.
  intros W W' F A O. pose proof (frame_walk wo rnd R s s' t W W' F (proj1 O t (pre_refl t)) A) as X. unfold filled. rewrite X.
  destruct (plan wo n v) as [[T|]|e]; auto. intros (i & H1 & H2). exists i. split; [exact H1|].
  destruct (area_clear R t A O) as [K1 K2]. eapply laid_frame; eassumption.
Qed.

Definition slot (s : st) (x : pystr * pystr * pyval) : Prop :=
  clean (snd (fst x)) /\ apart wo (at_ x) /\ walk (hp s) 0 (at_ x) = None /\ tidy (snd x).
Lemma writes_filled rnd l : forall s s', no_repeat rnd (rpos s) (rpos s') -> wf wo s -> (forall x, In x l -> slot s x) ->
  ForallOrdPairs (fun x y => ~ overlap (at_ x) (at_ y)) l ->
  iterM (fun x => write_at wo rnd tries n (fst (fst x)) (snd (fst x)) (snd x)) l s = (s', Ok tt) ->
  forall x, In x l -> filled s' (at_ x) (snd x).
Proof.
  induction l as [|x l IH]; intros s s' NR W OK ND E; [intros y []|]. cbn [iterM] in E.
  inversion ND as [|? ? D1 D2]. subst. unfold bindm in E.
  destruct (OK x (or_introl eq_refl)) as (C & A & L & V).
  pose proof (write_at_keeps wo rnd tries n Hkn Hvn s (fst (fst x)) (snd (fst x)) (snd x) W C A) as K.
  destruct (write_at wo rnd tries n (fst (fst x)) (snd (fst x)) (snd x) s) as [s1 [u|e]] eqn:E1; [|discriminate]. destruct K as (W1 & F1 & _). cbn [fst] in *. destruct u.
  assert (R1 : rpos s <= rpos s1). { destruct (det_write_at wo tries n (fst (fst x)) (snd (fst x)) (snd x) rnd s) as [D _]. rewrite E1 in D. exact D. }
  pose proof (rpos_iter wo tries n rnd l s1) as R2. rewrite E in R2. cbn [fst] in R2.
  assert (OFF : forall y, In y l -> off wo (onway (at_ y)) (at_ x)).
  { intros y Hy. rewrite Forall_forall in D1. specialize (D1 y Hy). destruct (OK y (or_intror Hy)) as (_ & Ay & _). apply onway_off; [exact Ay| |]; intros P; apply D1; [right|left]; exact P. }
  assert (OK1 : forall y, In y l -> slot s1 y).
  { intros y Hy. destruct (OK y (or_intror Hy)) as (Cy & Ay & Ly & Vy). split; [exact Cy|]. split; [exact Ay|]. split; [|exact Vy].
    rewrite (frame_walk wo rnd _ s s1 _ W W1 F1); [exact Ly| |exact Ay]. rewrite Forall_forall in D1. specialize (D1 y Hy). intros [P|P]; apply D1; [left|right]; exact P. }
  intros y [<-|Hy].
  - pose proof (writes_keeps wo rnd tries n Hkn Hvn (fun p => exists y, In y l /\ onway (at_ y) p) s1 l W1) as K. rewrite E in K. destruct K as (W2 & F2 & _).
    { intros z Hz. destruct (OK1 z Hz) as (H1 & H2 & _). split; [exact H1|]. split; [exact H2|]. intros p Hp. exists z. auto. }
    cbn [fst] in *. eapply (filled_frame rnd); [exact W1|exact W2|exact F2|exact A| |].
    + split; [intros p P (z & Hz & O); exact (proj1 (OFF z Hz) p P O)|intros k p P (z & Hz & O); exact (proj2 (OFF z Hz) k p P O)].
    + apply (write_at_filled rnd s); auto. intros i j H1 H2 H3. apply NR; lia.
  - apply (IH s1 s'); auto. intros i j H1 H2 H3. apply NR; lia.
Qed.
End Api.

(** the items of a call of writes to new paths *)
Theorem api_filled refs s wo rnd tries n mdict f : good_refs refs -> reachable refs s -> usable refs wo -> o_keys_name wo <> o_values_name wo ->
  (forall p v, In (p, v) mdict -> valid_path p /\ tidy v /\ snd (file_contains (mkFile true s) p) = Ok false) ->
  ForallOrdPairs (fun x y => forall a b, denotes (fst x) a -> denotes (fst y) b -> ~ overlap a b) mdict ->
  file_writes wo rnd tries n (mkFile true s) mdict = (f, Ok tt) -> no_repeat rnd (rpos s) (rpos (fl_st f)) ->
  forall p v, In (p, v) mdict -> exists t, denotes p t /\ filled wo n (fl_st f) t v.
Proof.
  intros GR HR (U1 & U2 & U3) HN OK ND E NR p v Hin.
  pose proof (reachable_wf refs s GR HR wo U1) as W.
  assert (HA : isabs (o_refs wo) = true) by (rewrite U1; apply GR). assert (NZ : rp wo <> []) by (unfold rp; rewrite U1; apply GR).
  unfold file_writes in E. destruct (mapr (fun pv : pypath * pyval => do gt <- check_path wo (fst pv); Ok (gt, snd pv)) mdict) as [l|e] eqn:EM; [|discriminate].
  cbn [fl_open fl_st] in E. destruct (iterM _ l s) as [s' r] eqn:EI. injection E as <- ->. cbn [fl_st] in *.
  assert (HL : Forall2 (fun pv x => process_path (fst pv) = Ok (fst x) /\ snd x = snd pv /\ denotes (fst pv) (at_ x) /\ slot wo s x /\ loc (fst (fst x)) (snd (fst x)) = at_ x) mdict l).
  { clear Hin EI NR ND p v. revert l EM. induction mdict as [|[p v] md IH]; intros l EM; cbn [mapr] in EM; [injection EM as <-; constructor|].
    cbn [fst snd] in EM. destruct (check_path wo p) as [[g t]|] eqn:EC; [|discriminate]. cbn [bindr] in EM.
    destruct (mapr _ md) as [l'|]; [|discriminate]. injection EM as <-. destruct (OK p v (or_introl eq_refl)) as (V & S & N).
    constructor; [|apply IH; [intros p' v' H; apply OK; right; exact H|reflexivity]]. cbn [fst snd].
    apply check_path_iff in EC; [|exact HA]. destruct EC as [P AP]. assert (D : denotes p (loc g t)) by (exists g, t; auto).
    rewrite (contains_iff p (loc g t) s V D) in N. cbn [snd] in N. destruct (walk (hp s) 0 (loc g t)) eqn:WK; [discriminate|].
    assert (LZ : loc g t <> []) by (intros Z; rewrite Z in WK; discriminate).
    destruct (loc_clean _ _ _ P) as [Z|[C LE]]; [contradiction|]. destruct AP as [X|[X|AP]]; [contradiction|contradiction|].
    rewrite LE in D, AP, WK. unfold slot, at_. cbn [fst snd]. rewrite LE. split; [exact P|]. split; [reflexivity|]. split; [exact D|]. split; [|reflexivity]. split; [exact C|]. split; [exact AP|]. split; [exact WK|exact S]. }
  assert (ND' : ForallOrdPairs (fun x y => ~ overlap (at_ x) (at_ y)) l).
  { clear - ND HL. revert ND. induction HL as [|pv x md l Hx HL IH]; intros ND; [constructor|]. inversion ND as [|? ? D1 D2]; subst. constructor; [|apply IH; exact D2].
    clear - D1 Hx HL. induction HL as [|pw y md l Hy HL IH]; [constructor|]. inversion D1 as [|? ? D3 D4]; subst. constructor; [|apply IH; exact D4].
    apply D3; [apply Hx|apply Hy]. }
  assert (EX : exists x, In x l /\ denotes p (at_ x) /\ snd x = v).
  { clear - HL Hin. induction HL as [|pv x md l Hx HL IH]; [destruct Hin|]. destruct Hin as [->|Hin].
    - exists x. destruct Hx as (H1 & H2 & H3 & H4 & H5). cbn [fst snd] in *. split; [left; reflexivity|]. auto.
    - destruct (IH Hin) as (y & Hy & HH). exists y. split; [right; exact Hy|exact HH]. }
  destruct EX as (x & Hx & D & <-).
  assert (HO : forall x, In x l -> slot wo s x).
  { clear - HL. induction HL as [|pv x md l Hx HL IH]; intros y; [intros []|]. intros [<-|Hy]; [apply Hx|apply IH; exact Hy]. }
  exists (at_ x). split; [exact D|]. apply (writes_filled wo tries n (plain_clean _ U2) (plain_clean _ U3) HN rnd l s s' NR W HO ND' EI x Hx).
Qed.
