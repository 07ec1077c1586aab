(** The round trip through the class File. *)
From Verif Require Import Base PathEsc PathEscFacts PosixPath PosixFacts ProcessPath ProcessPathFacts Unicode Dec NdArray Value OptionsM Attrs Hdf5 HeapFacts NpWrite MarshalW MarshalR FrameFacts WriteFrame ReadFacts FileApi ApiFacts ApiSpec HistoryFacts FileFacts RndFacts RoundSpec RoundHeap RoundWrite RoundVal RoundDict RoundAll.
Local Open Scope nat_scope.

Section Api.
Variables (wo ro : options) (keq : pyval -> pyval -> bool) (tries n : nat).
Hypotheses (HP : paired wo ro).
Hypothesis str_keys : forall a b, keq (VStr a) (VStr b) = eqb_str a b.
Let Hkn := keys_clean wo ro HP.
Let Hvn := values_clean wo ro HP.

(** what is found at [t] in [s] is [v] *)
Definition found (s : st) (t : list pystr) (v : pyval) : Prop :=
  exists i v', walk (hp s) 0 t = Some i /\ same v v' /\ forall m, depth v <= m -> read ro keq (hp s) m i = Ok v'.

Lemma write_at_found0 rnd s g t v s' : inj_rnd rnd -> wf wo s -> clean t -> apart wo (path_comps g ++ [t]) -> walk (hp s) 0 (path_comps g ++ [t]) = None ->
  storable wo ro keq v -> write_at wo rnd tries n g t v s = (s', Ok tt) -> found s' (path_comps g ++ [t]) v.
Proof.
  intros HI W C A L V E. destruct (apart_ra _ _ A) as [A1 A2]. unfold write_at in E. unfold bindm in E.
  assert (KR : keeps wo rnd (fun p => pre p (path_comps g)) s (require_group g s) (fun s' i => live (hp s') i = true /\ is_group (hp s') i = true /\ name_of (hp s') i = path_comps g)).
  { apply require_keeps; [exact W| |auto]. intros P. apply A2. eapply pre_trans; [exact P|apply pre_app]. }
  destruct (require_group g s) as [s1 [i|e]] eqn:E1; [|discriminate]. destruct KR as (W1 & F1 & K). destruct (K i eq_refl) as (L1 & G1 & N1). cbn [fst snd] in *. clear K.
  assert (X : lookup (hp s1) i t = None).
  { assert (Y : walk (hp s1) 0 (path_comps g ++ [t]) = None).
    { rewrite (frame_walk wo rnd _ s s1 _ W W1 F1); [exact L| |exact A]. intros P. apply pre_len in P. rewrite app_length in P. cbn in P. lia. }
    rewrite walk_snoc in Y. apply live_walk in L1. rewrite N1 in L1. rewrite L1 in Y. exact Y. }
  assert (OK : okt wo s1 i t).
  { constructor; auto; rewrite N1; auto. intros k P. exfalso. apply A2. eapply pre_trans; [|exact P]. apply pre_app. }
  assert (U : unreserved wo rnd s1 (name_of (hp s1) i ++ [t])).
  { split; rewrite N1; [exact A1|]. intros k P. exfalso. apply A2. eapply pre_trans; [|exact P]. apply pre_app. }
  destruct (write wo rnd tries n i t v s1) as [s2 [r|e]] eqn:E2; [|discriminate]. injection E as <-.
  destruct (write_keeps wo rnd tries Hkn Hvn n s1 i t v W1 OK) as (_ & _ & KW). rewrite E2 in KW. cbn [fst snd] in KW.
  destruct (write_back wo ro keq rnd tries HP HI str_keys n s1 i t v s2 r W1 OK X U V E2) as (j & -> & (Q & v' & _ & _ & H1 & _ & H2)).
  destruct (KW _ eq_refl) as (_ & L2 & N2). rewrite N1 in N2. exists j, v'. split; [|auto]. apply live_walk in L2. rewrite N2 in L2. exact L2.
Qed.
Lemma write_at_found rnd s g t v s' : no_repeat rnd (rpos s) (rpos s') -> wf wo s -> clean t -> apart wo (path_comps g ++ [t]) -> walk (hp s) 0 (path_comps g ++ [t]) = None ->
  storable wo ro keq v -> write_at wo rnd tries n g t v s = (s', Ok tt) -> found s' (path_comps g ++ [t]) v.
Proof.
  intros NR W C A L V E. apply (write_at_found0 (extend rnd (rpos s) (rpos s')) s); auto; [exact (extend_inj _ _ _ NR)|].
  destruct (det_write_at wo tries n g t v rnd s) as [_ D]. rewrite E in D. cbn [fst] in D. apply D. intros p Hp. apply extend_in. exact Hp.
Qed.

(** the items of a dict *)
Definition at_ (x : pystr * pystr * pyval) : list pystr := path_comps (fst (fst x)) ++ [snd (fst x)].
Definition item_ok (s : st) (x : pystr * pystr * pyval) : Prop :=
  clean (snd (fst x)) /\ apart wo (at_ x) /\ walk (hp s) 0 (at_ x) = None /\ storable wo ro keq (snd x).
Lemma found_frame rnd (R : list pystr -> Prop) s s' t v : wf wo s -> wf wo s' -> frame wo rnd R s s' -> apart wo t -> off wo R t -> found s t v -> found s' t v.
Proof.
  intros W W' F A O (i & v' & H1 & H2 & H3). exists i, v'. destruct (apart_pre wo t A) as [A1 _].
  rewrite (frame_walk wo rnd R s s' t W W' F); [|apply O, pre_refl|exact A]. split; [exact H1|]. split; [exact H2|].
  intros m Hm. rewrite (frame_read_off wo rnd R s s' t i m ro keq W F O A1 H1). auto.
Qed.
Lemma rpos_iter rnd l s : rpos s <= rpos (fst (iterM (fun x : pystr * pystr * pyval => write_at wo rnd tries n (fst (fst x)) (snd (fst x)) (snd x)) l s)).
Proof.
  assert (D : det (fun rnd => iterM (fun x : pystr * pystr * pyval => write_at wo rnd tries n (fst (fst x)) (snd (fst x)) (snd x)) l)).
  { apply (det_iter (fun rnd (x : pystr * pystr * pyval) => write_at wo rnd tries n (fst (fst x)) (snd (fst x)) (snd x))). intros x. apply det_write_at. }
  apply (D rnd s).
Qed.
Lemma writes_found rnd l : forall s s', no_repeat rnd (rpos s) (rpos s') -> wf wo s -> (forall x, In x l -> item_ok s x) ->
  ForallOrdPairs (fun x y => ~ overlap (at_ x) (at_ y)) l ->
  iterM (fun x => write_at wo rnd tries n (fst (fst x)) (snd (fst x)) (snd x)) l s = (s', Ok tt) ->
  forall x, In x l -> found s' (at_ x) (snd x).
Proof.
  induction l as [|x l IH]; intros s s' NR W OK ND E; [intros y []|]. cbn [iterM] in E.
  inversion ND as [|? ? D1 D2]. subst. unfold bindm in E.
  destruct (OK x (or_introl eq_refl)) as (C & A & L & V).
  pose proof (write_at_keeps wo rnd tries n Hkn Hvn s (fst (fst x)) (snd (fst x)) (snd x) W C A) as K.
  destruct (write_at wo rnd tries n (fst (fst x)) (snd (fst x)) (snd x) s) as [s1 [u|e]] eqn:E1; [|discriminate]. destruct K as (W1 & F1 & _). cbn [fst] in *. destruct u.
  assert (R1 : rpos s <= rpos s1). { destruct (det_write_at wo tries n (fst (fst x)) (snd (fst x)) (snd x) rnd s) as [D _]. rewrite E1 in D. exact D. }
  pose proof (rpos_iter rnd l s1) as R2. rewrite E in R2. cbn [fst] in R2.
  assert (OFF : forall y, In y l -> off wo (onway (at_ y)) (at_ x)).
  { intros y Hy. rewrite Forall_forall in D1. specialize (D1 y Hy). destruct (OK y (or_intror Hy)) as (_ & Ay & _). apply onway_off; [exact Ay| |]; intros P; apply D1; [right|left]; exact P. }
  assert (OK1 : forall y, In y l -> item_ok s1 y).
  { intros y Hy. destruct (OK y (or_intror Hy)) as (Cy & Ay & Ly & Vy). split; [exact Cy|]. split; [exact Ay|]. split; [|exact Vy].
    rewrite (frame_walk wo rnd _ s s1 _ W W1 F1); [exact Ly| |exact Ay]. rewrite Forall_forall in D1. specialize (D1 y Hy). intros [P|P]; apply D1; [left|right]; exact P. }
  intros y [<-|Hy].
  - pose proof (writes_keeps wo rnd tries n Hkn Hvn (fun p => exists y, In y l /\ onway (at_ y) p) s1 l W1) as K. rewrite E in K. destruct K as (W2 & F2 & _).
    { intros z Hz. destruct (OK1 z Hz) as (H1 & H2 & _). split; [exact H1|]. split; [exact H2|]. intros p Hp. exists z. auto. }
    cbn [fst] in *. eapply (found_frame rnd); [exact W1|exact W2|exact F2|exact A| |].
    + split; [intros p P (z & Hz & O); exact (proj1 (OFF z Hz) p P O)|intros k p P (z & Hz & O); exact (proj2 (OFF z Hz) k p P O)].
    + apply (write_at_found rnd s); auto. intros i j H1 H2 H3. apply NR; lia.
  - apply (IH s1 s'); auto. intros i j H1 H2 H3. apply NR; lia.
Qed.
End Api.

(** mdict of a call of writes, all of which can be read back: new paths *)
Theorem api_found refs s wo ro rnd tries n keq mdict f : good_refs refs -> reachable refs s -> usable refs wo -> paired wo ro ->
  (forall a b, keq (VStr a) (VStr b) = eqb_str a b) ->
  (forall p v, In (p, v) mdict -> valid_path p /\ storable wo ro keq v /\ snd (file_contains (mkFile true s) p) = Ok false) ->
  ForallOrdPairs (fun x y => forall a b, denotes (fst x) a -> denotes (fst y) b -> ~ overlap a b) mdict ->
  file_writes wo rnd tries n (mkFile true s) mdict = (f, Ok tt) -> no_repeat rnd (rpos s) (rpos (fl_st f)) ->
  forall p v, In (p, v) mdict -> exists v', same v v' /\ forall m, depth v <= m -> file_read ro m keq f p = (f, Ok v').
Proof.
  intros GR HR (U1 & U2 & U3) HP SK OK ND E NR p v Hin.
  pose proof (reachable_wf refs s GR HR wo U1) as W.
  assert (HA : isabs (o_refs wo) = true) by (rewrite U1; apply GR). assert (NZ : rp wo <> []) by (unfold rp; rewrite U1; apply GR).
  unfold file_writes in E. destruct (mapr (fun pv : pypath * pyval => do gt <- check_path wo (fst pv); Ok (gt, snd pv)) mdict) as [l|e] eqn:EM; [|discriminate].
  cbn [fl_open fl_st] in E. destruct (iterM _ l s) as [s' r] eqn:EI. injection E as <- ->. cbn [fl_st] in *.
  (* the items in l *)
  assert (HL : Forall2 (fun pv x => process_path (fst pv) = Ok (fst x) /\ snd x = snd pv /\ denotes (fst pv) (at_ x) /\ item_ok wo ro keq s x /\ loc (fst (fst x)) (snd (fst x)) = at_ x) mdict l).
  { clear Hin EI NR ND p v. revert l EM. induction mdict as [|[p v] md IH]; intros l EM; cbn [mapr] in EM; [injection EM as <-; constructor|].
    cbn [fst snd] in EM. destruct (check_path wo p) as [[g t]|] eqn:EC; [|discriminate]. cbn [bindr] in EM.
    destruct (mapr _ md) as [l'|]; [|discriminate]. injection EM as <-. destruct (OK p v (or_introl eq_refl)) as (V & S & N).
    constructor; [|apply IH; [intros p' v' H; apply OK; right; exact H|reflexivity]]. cbn [fst snd].
    apply check_path_iff in EC; [|exact HA]. destruct EC as [P AP]. assert (D : denotes p (loc g t)) by (exists g, t; auto).
    rewrite (contains_iff p (loc g t) s V D) in N. cbn [snd] in N. destruct (walk (hp s) 0 (loc g t)) eqn:WK; [discriminate|].
    assert (LZ : loc g t <> []) by (intros Z; rewrite Z in WK; discriminate).
    destruct (loc_clean _ _ _ P) as [Z|[C LE]]; [contradiction|]. destruct AP as [X|[X|AP]]; [contradiction|contradiction|].
    rewrite LE in D, AP, WK. unfold item_ok, at_. cbn [fst snd]. rewrite LE. split; [exact P|]. split; [reflexivity|]. split; [exact D|]. split; [|reflexivity]. split; [exact C|]. split; [exact AP|]. split; [exact WK|exact S]. }
  assert (ND' : ForallOrdPairs (fun x y => ~ overlap (at_ x) (at_ y)) l).
  { clear - ND HL. revert ND. induction HL as [|pv x md l Hx HL IH]; intros ND; [constructor|]. inversion ND as [|? ? D1 D2]; subst. constructor; [|apply IH; exact D2].
    clear - D1 Hx HL. induction HL as [|pw y md l Hy HL IH]; [constructor|]. inversion D1 as [|? ? D3 D4]; subst. constructor; [|apply IH; exact D4].
    apply D3; [apply Hx|apply Hy]. }
  assert (EX : exists x, In x l /\ process_path p = Ok (fst x) /\ snd x = v /\ item_ok wo ro keq s x /\ loc (fst (fst x)) (snd (fst x)) = at_ x).
  { clear - HL Hin. induction HL as [|pv x md l Hx HL IH]; [destruct Hin|]. destruct Hin as [->|Hin].
    - exists x. destruct Hx as (H1 & H2 & H3 & H4 & H5). cbn [fst snd] in *. split; [left; reflexivity|]. auto.
    - destruct (IH Hin) as (y & Hy & HH). exists y. split; [right; exact Hy|exact HH]. }
  destruct EX as ([[g t] v0] & Hx & P & X2 & (C & A & _) & LE). cbn [fst snd] in *. subst v0.
  assert (HO : forall x, In x l -> item_ok wo ro keq s x).
  { clear - HL. induction HL as [|pv x md l Hx HL IH]; intros y; [intros []|]. intros [<-|Hy]; [apply Hx|apply IH; exact Hy]. }
  destruct (writes_found wo ro keq tries n HP SK rnd l s s' NR W HO ND' EI _ Hx) as (i & v' & K1 & K2 & K3).
  exists v'. split; [exact K2|]. intros m Hm. destruct (OK p v Hin) as (V & _).
  assert (D : denotes p (loc g t)) by (exists g, t; auto).
  assert (CP : check_path ro p = Ok (g, t)).
  { apply check_path_iff; [rewrite (p_refs _ _ HP); exact HA|]. split; [exact P|]. right. right. rewrite LE. unfold apart, rp. rewrite (p_refs _ _ HP). exact A. }
  unfold file_read, file_reads. cbn [mapr snd fl_open fl_st]. rewrite CP. cbn [bindr mapr fst snd].
  rewrite (read_at_eq ro keq m p g t s' P); [|rewrite LE; unfold at_; destruct (path_comps _); discriminate|exact (V _ D)].
  cbn [fst snd] in K1, K3. rewrite LE, K1, (K3 m Hm). reflexivity.
Qed.
