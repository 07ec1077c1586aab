(** Writing storable values to new places through the class File does not fail. *)
From Verif Require Import OptionsSpec RoundNp Base PathEsc PathEscFacts PosixPath PosixFacts ProcessPath ProcessPathFacts Unicode Dec NdArray Value OptionsM Attrs Hdf5 HeapFacts NpWrite MarshalW MarshalR FrameFacts WriteFrame ReadFacts FileApi ApiFacts ApiSpec HistoryFacts FileFacts RndFacts RoundSpec RoundHeap RoundWrite RoundVal RoundDict RoundAll RoundApi ProgressSpec Progress.
Local Open Scope nat_scope.

Lemma create_in_empty cs : forall s g a b, cs <> [] -> is_group (hp s) g = true -> links (hp s) g = [] -> exists s' i, create_at g cs a b s = (s', Ok i).
Proof.
  induction cs as [|k cs IH]; intros s g a b NZ G L; [congruence|]. cbn [create_at].
  assert (X : lookup (hp s) g k = None) by (unfold lookup; rewrite L; reflexivity).
  destruct cs as [|k2 cs]; rewrite X; [rewrite alloc_eq by exact G; eauto|]. unfold bindm. rewrite alloc_eq by exact G. apply IH; [discriminate| |];
  unfold is_group, links, add_obj, upd; cbn [hp]; rewrite Nat.eqb_refl; reflexivity.
Qed.
Lemma create_ok cs : forall s g a b, cs <> [] -> (forall q r i, cs = q ++ r -> r <> [] -> walk (hp s) g q = Some i -> is_group (hp s) i = true) -> walk (hp s) g cs = None ->
  exists s' i, create_at g cs a b s = (s', Ok i).
Proof.
  induction cs as [|k cs IH]; intros s g a b NZ FW E; [congruence|]. cbn [create_at]. cbn [walk] in E.
  assert (G : is_group (hp s) g = true) by (apply (FW [] (k :: cs) g); [reflexivity|discriminate|reflexivity]).
  destruct cs as [|k2 cs]. { destruct (lookup (hp s) g k) eqn:L; [discriminate|]. rewrite alloc_eq by exact G. eauto. }
  destruct (lookup (hp s) g k) as [j|] eqn:L.
  - apply IH; [discriminate| |exact E]. intros q r i Eq Hr W. apply (FW (k :: q) r i); [cbn [app]; rewrite Eq; reflexivity|exact Hr|]. cbn [walk]. rewrite L. exact W.
  - unfold bindm. rewrite alloc_eq by exact G. apply create_in_empty; [discriminate| |]; unfold is_group, links, add_obj, upd; cbn [hp]; rewrite Nat.eqb_refl; reflexivity.
Qed.
Lemma require_ran s g : name_err g = None -> (forall q r i, path_comps g = q ++ r -> walk (hp s) 0 q = Some i -> is_group (hp s) i = true) ->
  exists s' i, require_group g s = (s', Ok i).
Proof.
  intros NE FW. unfold require_group, get_obj. rewrite NE. unfold bindm, gets, start_of. replace (if isabs g then 0 else 0) with 0 by (destruct (isabs g); reflexivity).
  destruct (walk (hp s) 0 (path_comps g)) as [i|] eqn:E.
  - rewrite (FW (path_comps g) [] i); [eauto|rewrite app_nil_r; reflexivity|exact E].
  - unfold create_group, new_link. rewrite NE. unfold start_of. replace (if isabs g then 0 else 0) with 0 by (destruct (isabs g); reflexivity).
    apply create_ok; [intros Z; rewrite Z in E; discriminate| |exact E]. intros q r i Eq _ W. apply (FW q r i); assumption.
Qed.
Lemma walk_way h t i : walk h 0 t = Some i -> forall a b j, t = a ++ b -> b <> [] -> walk h 0 a = Some j -> is_group h j = true.
Proof.
  intros W a b j -> NZ Wa. rewrite walk_app, Wa in W. destruct b as [|k b]; [congruence|]. cbn [walk] in W. destruct (lookup h j k) eqn:L; [|discriminate].
  eapply lookup_group. exact L.
Qed.

Lemma pre_dec a b : {c | b = a ++ c} + {~ pre a b}.
Proof.
  revert b. induction a as [|x a IH]; intros b; [left; exists b; reflexivity|]. destruct b as [|y b]; [right; intros [c X]; discriminate|].
  destruct (eqb_str_spec x y) as [->|N]; [|right; intros [c X]; cbn in X; congruence]. destruct (IH b) as [[c ->]|NP]; [left; exists c; reflexivity|].
  right. intros [c X]. injection X as X. apply NP. exists c. exact X.
Qed.
Section Api.
Variables (wo ro : options) (keq : pyval -> pyval -> bool) (tries n : nat).
Hypotheses (HP : paired wo ro) (HY : ready wo).
Hypothesis str_keys : forall a b, keq (VStr a) (VStr b) = eqb_str a b.
Let Hkn := keys_clean wo ro HP.
Let Hvn := values_clean wo ro HP.

Definition writable (s : st) (x : pystr * pystr * pyval) : Prop :=
  item_ok wo ro keq s x /\ name_err (fst (fst x)) = None /\ name_err (snd (fst x)) = None /\ free_way s (at_ x) /\ depth (snd x) <= n /\
  (o_matlab_compatible wo = true -> ascii_groups (snd x) /\ (grouplike (snd x) -> Forall ascii (at_ x))).
Lemma write_at_ran0 rnd s g t v : inj_rnd rnd -> wf wo s -> writable s (g, t, v) -> ran tries s (write_at wo rnd tries n g t v s).
Proof.
  intros HI W ((C & A & L & V) & N1 & N2 & FW & D & HA). cbn [fst snd] in *. unfold at_ in *. cbn [fst snd] in *.
  destruct (apart_ra _ _ A) as [A1 A2]. unfold write_at.
  assert (KR : keeps wo rnd (fun p => pre p (path_comps g)) s (require_group g s) (fun s' i => live (hp s') i = true /\ is_group (hp s') i = true /\ name_of (hp s') i = path_comps g)).
  { apply require_keeps; [exact W| |auto]. intros P. apply A2. eapply pre_trans; [exact P|apply pre_app]. }
  destruct (require_ran s g N1) as (s1 & i & E1).
  { intros q r j Eq Wq. apply (FW q (r ++ [t]) j); [rewrite Eq, app_assoc; reflexivity|destruct r; discriminate|exact Wq]. }
  pose proof (still_require g s) as S1. rewrite E1 in S1, KR. cbn [fst] in S1.
  destruct KR as (W1 & F1 & K). destruct (K i eq_refl) as (L1 & G1 & NN1). cbn [fst snd] in *. clear K.
  assert (X : lookup (hp s1) i t = None).
  { assert (Y : walk (hp s1) 0 (path_comps g ++ [t]) = None).
    { rewrite (frame_walk wo rnd _ s s1 _ W W1 F1); [exact L| |exact A]. intros P. apply pre_len in P. rewrite app_length in P. cbn in P. lia. }
    rewrite walk_snoc in Y. apply live_walk in L1. rewrite NN1 in L1. rewrite L1 in Y. exact Y. }
  assert (OK : okt wo s1 i t).
  { constructor; auto; rewrite NN1; auto. intros k P. exfalso. apply A2. eapply pre_trans; [|exact P]. apply pre_app. }
  assert (U : unreserved wo rnd s1 (name_of (hp s1) i ++ [t])).
  { split; rewrite NN1; [exact A1|]. intros k P. exfalso. apply A2. eapply pre_trans; [|exact P]. apply pre_app. }
  assert (RW : ran tries s1 (write wo rnd tries n i t v s1)).
  { apply (write_ran wo ro keq rnd tries HP HI HY str_keys n); auto. rewrite NN1. exact HA. }
  unfold bindm. rewrite E1. destruct RW as [R1 R2]. destruct (write wo rnd tries n i t v s1) as [s2 [r|e]]; unfold ran; cbn [fst snd ret] in *; (split; [lia|]); [exact I|]. destruct R2. split; [assumption|lia].
Qed.
Lemma write_at_ran rnd s g t v : no_repeat rnd (rpos s) (rpos (fst (write_at wo rnd tries n g t v s))) -> wf wo s -> writable s (g, t, v) -> ran tries s (write_at wo rnd tries n g t v s).
Proof.
  intros NR W H. destruct (det_write_at wo tries n g t v rnd s) as [_ D].
  specialize (D (extend rnd (rpos s) (rpos (fst (write_at wo rnd tries n g t v s))))). rewrite <- D; [|intros p Hp; apply extend_in; exact Hp].
  apply write_at_ran0; auto. exact (extend_inj _ _ _ NR).
Qed.
Lemma writes_ran rnd l : forall s, no_repeat rnd (rpos s) (rpos (fst (iterM (fun x => write_at wo rnd tries n (fst (fst x)) (snd (fst x)) (snd x)) l s))) -> wf wo s ->
  (forall x, In x l -> writable s x) -> ForallOrdPairs (fun x y => ~ overlap (at_ x) (at_ y)) l ->
  ran tries s (iterM (fun x => write_at wo rnd tries n (fst (fst x)) (snd (fst x)) (snd x)) l s).
Proof.
  induction l as [|x l IH]; intros s NR W OK ND; [apply ran_ok; lia|]. cbn [iterM] in *.
  inversion ND as [|? ? D1 D2]. subst. destruct x as [[g t] v]. cbn [fst snd] in *.
  pose proof (OK _ (or_introl eq_refl)) as HX. destruct HX as ((C & A & L & V) & HX'). 
  pose proof (write_at_keeps wo rnd tries n Hkn Hvn s g t v W C A) as K.
  assert (R1 : rpos s <= rpos (fst (write_at wo rnd tries n g t v s))) by apply (det_write_at wo tries n g t v rnd s).
  assert (LE : rpos (fst (write_at wo rnd tries n g t v s)) <= rpos (fst (bindm (write_at wo rnd tries n g t v) (fun _ => iterM (fun x => write_at wo rnd tries n (fst (fst x)) (snd (fst x)) (snd x)) l) s))).
  { unfold bindm. destruct (write_at wo rnd tries n g t v s) as [s1 [u|e]]; cbn [fst]; [apply rpos_iter|lia]. }
  apply ran_bind.
  { apply write_at_ran; [intros i j H1 H2 H3; apply NR; lia|exact W|apply OK; left; reflexivity]. }
  intros s1 u E1 _. rewrite E1 in K, R1, LE. unfold bindm in NR, LE. rewrite E1 in NR, LE. cbn [fst] in *. destruct K as (W1 & F1 & _). cbn [fst] in *. destruct u.
  assert (FD : found ro keq s1 (at_ (g, t, v)) v).
  { apply (write_at_found wo ro keq tries n HP str_keys rnd s); auto. intros i j H1 H2 H3. apply NR; lia. }
  apply IH; auto.
  { intros i j H1 H2 H3. apply NR; lia. }
  intros y Hy. destruct (OK y (or_intror Hy)) as ((Cy & Ay & Ly & Vy) & Ny1 & Ny2 & FWy & Dy & Hay). rewrite Forall_forall in D1. specialize (D1 y Hy).
  split; [split; [exact Cy|split; [exact Ay|split; [|exact Vy]]]|].
  { rewrite (frame_walk wo rnd _ s s1 _ W W1 F1); [exact Ly| |exact Ay]. intros [P|P]; apply D1; [left|right]; exact P. }
  split; [exact Ny1|]. split; [exact Ny2|]. split; [|split; [exact Dy|exact Hay]].
  intros a b i Eab NZ Wa. destruct FD as (jx & vx & Wx & _).
  destruct (pre_dec a (at_ (g, t, v))) as [[c Pc]|NP].
  - destruct c as [|c1 c]. { exfalso. apply D1. left. rewrite app_nil_r in Pc. rewrite Pc, Eab. apply pre_app. }
    eapply walk_way; [exact Wx|exact Pc|discriminate|exact Wa].
  - assert (NO : ~ onway (at_ (g, t, v)) a). { intros [P|P]; [|exact (NP P)]. apply D1. left. rewrite Eab. eapply pre_trans; [exact P|apply pre_app]. }
    assert (AA : a <> []). { intros ->. apply NP. exists (at_ (g, t, v)). reflexivity. }
    assert (Aa : apart wo a). { clear - Ay AA Eab. rewrite Eab in Ay. destruct Ay as (x & y' & l1 & l2 & E1 & E2 & E3). destruct a as [|a0 a]; [congruence|]. cbn [app] in E1. injection E1 as -> E1. exists x, y', a, l2. auto. }
    rewrite (frame_walk wo rnd _ s s1 _ W W1 F1 NO Aa) in Wa. pose proof (FWy a b i Eab NZ Wa) as GI.
    assert (HN : hp s i <> None). { intros Z. unfold is_group in GI. rewrite Z in GI. discriminate. }
    destruct (f_obj _ _ _ _ _ F1 i HN) as (_ & _ & X). rewrite X. exact GI.
Qed.
End Api.

Theorem api_ran refs s wo ro rnd tries n keq mdict f r : good_refs refs -> reachable refs s -> usable refs wo -> paired wo ro -> ready wo ->
  (forall a b, keq (VStr a) (VStr b) = eqb_str a b) ->
  (forall p v, In (p, v) mdict -> exists cs, new_place wo s p cs /\ storable wo ro keq v /\ depth v <= n /\ writes_to wo cs v) ->
  ForallOrdPairs (fun x y => forall a b, denotes (fst x) a -> denotes (fst y) b -> ~ overlap a b) mdict ->
  file_writes wo rnd tries n (mkFile true s) mdict = (f, r) -> no_repeat rnd (rpos s) (rpos (fl_st f)) ->
  r = Ok tt \/ (r = Err OutOfFuel /\ rpos s + tries <= rpos (fl_st f)).
Proof.
  intros GR HR (U1 & U2 & U3) HP HY SK OK ND E NR.
  pose proof (reachable_wf refs s GR HR wo U1) as W.
  assert (HA : isabs (o_refs wo) = true) by (rewrite U1; apply GR). assert (NZ : rp wo <> []) by (unfold rp; rewrite U1; apply GR).
  unfold file_writes in E.
  assert (EM : exists l, mapr (fun pv : pypath * pyval => do gt <- check_path wo (fst pv); Ok (gt, snd pv)) mdict = Ok l /\ Forall2 (fun pv x => denotes (fst pv) (at_ x) /\ writable wo ro keq n s x) mdict l).
  { clear ND E NR. induction mdict as [|[p v] md IH]; [exists []; split; [reflexivity|constructor]|].
    destruct IH as (l & E1 & E2); [intros p' v' H; apply OK; right; exact H|].
    destruct (OK p v (or_introl eq_refl)) as (cs & [D NE ST NC WK FW] & SV & DV & AV). destruct D as (g & t & P & Ec). fold (loc g t) in Ec. subst cs.
    assert (AP : apart wo (loc g t)).
    { unfold same_top, refs_path in ST. fold (rp wo) in ST. destruct (loc g t) as [|x a]; [congruence|]. destruct (rp wo) as [|y b] eqn:Er; [congruence|]. exists x, y, a, b. unfold rp in Er. split; [reflexivity|]. split; [exact Er|]. intros ->. apply ST. exists y, a, b. auto. }
    assert (EC : check_path wo p = Ok (g, t)) by (apply check_path_iff; [exact HA|]; split; [exact P|]; right; right; exact AP).
    destruct (loc_name_err _ _ _ P NE) as (_ & N1 & N2). specialize (N2 NC).
    destruct (loc_clean _ _ _ P) as [Z|[C LE]]; [contradiction|].
    exists ((g, t, v) :: l). cbn [mapr fst snd]. rewrite EC. cbn [bindr]. rewrite E1. split; [reflexivity|]. constructor; [|exact E2]. cbn [fst snd]. unfold at_. cbn [fst snd]. rewrite LE in *.
    split; [exists g, t; auto|]. unfold writable, item_ok, at_. cbn [fst snd]. split; [auto|]. auto 7. }
  destruct EM as (l & EM & HL). rewrite EM in E. cbn [fl_open fl_st] in E.
  destruct (iterM _ l s) as [s' r'] eqn:EI. injection E as <- <-. cbn [fl_st] in *.
  assert (ND' : ForallOrdPairs (fun x y => ~ overlap (at_ x) (at_ y)) l).
  { clear - ND HL. revert ND. induction HL as [|pv x md l Hx HL IH]; intros ND; [constructor|]. inversion ND as [|? ? D1 D2]; subst. constructor; [|apply IH; exact D2].
    clear - D1 Hx HL. induction HL as [|pw y md l Hy HL IH]; [constructor|]. inversion D1 as [|? ? D3 D4]; subst. constructor; [|apply IH; exact D4].
    apply D3; [apply Hx|apply Hy]. }
  assert (HO : forall x, In x l -> writable wo ro keq n s x).
  { clear - HL. induction HL as [|pv x md l Hx HL IH]; intros y; [intros []|]. intros [<-|Hy]; [apply Hx|apply IH; exact Hy]. }
  pose proof (writes_ran wo ro keq tries n HP HY SK rnd l s) as R. rewrite EI in R. destruct (R NR W HO ND') as [R1 R2]. cbn [fst snd] in *.
  destruct r' as [[]|e]; [left; reflexivity|]. destruct R2 as [-> R2]. right. auto.
Qed.

(** success, and what is read back *)
Theorem round_trip refs s wo ro rnd tries n keq mdict f r : good_refs refs -> reachable refs s -> usable refs wo -> paired wo ro -> ready wo ->
  (forall a b, keq (VStr a) (VStr b) = eqb_str a b) ->
  (forall p v, In (p, v) mdict -> exists cs, new_place wo s p cs /\ storable wo ro keq v /\ depth v <= n /\ writes_to wo cs v) ->
  ForallOrdPairs (fun x y => forall a b, denotes (fst x) a -> denotes (fst y) b -> ~ overlap a b) mdict ->
  file_writes wo rnd tries n (mkFile true s) mdict = (f, r) -> no_repeat rnd (rpos s) (rpos (fl_st f)) -> rpos (fl_st f) < rpos s + tries ->
  r = Ok tt /\ forall p v, In (p, v) mdict -> exists v', same v v' /\ forall m, depth v <= m -> file_read ro m keq f p = (f, Ok v').
Proof.
  intros GR HR HU HP HY SK OK ND E NR LT. destruct (api_ran refs s wo ro rnd tries n keq mdict f r GR HR HU HP HY SK OK ND E NR) as [->|[_ X]]; [|lia].
  split; [reflexivity|]. intros p v Hin. eapply (api_found refs s wo ro rnd tries n keq mdict f); eauto.
  intros q w Hq. destruct (OK q w Hq) as (cs & [D NE ST NC WK FW] & SV & DV & AV).
  assert (V : valid_path q). { intros cs' D'. replace cs' with cs; [exact NE|]. destruct D as (g & t & P & ->), D' as (g' & t' & P' & ->). rewrite P in P'. injection P' as <- <-. reflexivity. }
  split; [exact V|]. split; [exact SV|]. rewrite (contains_iff q cs s V D). cbn [snd]. rewrite WK. reflexivity.
Qed.

(** ** values for which no random numbers are drawn *)
Lemma np_still o rnd tries wr g nm c a ts : simple (a_dt a) -> a_dt a <> TObj -> still (np_write o rnd tries wr g nm (c, a) ts).
Proof.
  intros Hs HO. unfold np_write. destruct (_ && _); [apply still_fail|]. destruct (_ && _); [apply still_ret|].
  intros s. unfold bindm at 1. unfold lift. destruct (np_prepare o (c, a)) as [b|] eqn:Eb; [|reflexivity].
  destruct (prep_dt o c a b Eb Hs) as (PD1 & PD2 & _).
  replace (as_group o a (a_dt b)) with false. 2: { unfold as_group. destruct (is_struct (a_dt b)); [rewrite PD1 by reflexivity; reflexivity|reflexivity]. }
  revert s. match goal with |- forall s, rpos (fst (?m s)) = rpos s => change (still m) end.
  apply still_bind. { destruct (a_dt b) eqn:Ed; try apply still_ret. destruct (PD2 eq_refl). contradiction. }
  intros d. apply still_bind; [apply still_put|]. intros i. apply still_bind; [apply still_gets|]. intros t. apply still_bind; [apply still_sync|]. intros; apply still_ret.
Qed.
Definition no_draws (v : pyval) : Prop := match v with VNp _ a => simple (a_dt a) /\ a_dt a <> TObj | _ => plain_scalar v end.
Lemma write_still o rnd tries n g nm v : no_draws v -> still (write o rnd tries n g nm v).
Proof.
  intros H. destruct n as [|n]; cbn [write]; [apply still_fail|]. destruct v; cbn [no_draws plain_scalar] in H; try contradiction; cbn [write_value].
  all: try (apply np_still; [exact I|discriminate]).
  - apply np_still; unfold int_array; match goal with |- context [if ?c then _ else _] => destruct c end; try exact I; discriminate.
  - apply np_still; apply H.
  - apply still_bind; [apply still_lift|]. intros b. apply np_still; [exact I|discriminate].
Qed.
Lemma file_still o rnd tries n s p v : no_draws v -> rpos (fl_st (fst (file_write o rnd tries n (mkFile true s) v p))) = rpos s.
Proof.
  intros H. unfold file_write, file_writes. destruct (mapr _ _) as [l|] eqn:E; [|reflexivity]. cbn [fl_open fl_st].
  cbn [mapr fst snd] in E. destruct (check_path o p) as [gt|]; [|discriminate]. injection E as <-.
  assert (S : still (iterM (fun x : pystr * pystr * pyval => write_at o rnd tries n (fst (fst x)) (snd (fst x)) (snd x)) [(gt, v)])).
  { cbn [iterM fst snd]. apply still_bind; [|intros; apply still_ret]. unfold write_at. apply still_bind; [apply still_require|]. intros i. apply still_bind; [apply write_still, H|]. intros; apply still_ret. }
  specialize (S s). destruct (iterM _ _ s) as [s' r]. exact S.
Qed.
(** for those *)
Theorem round_trip1 refs s wo ro rnd tries n keq p cs v : good_refs refs -> reachable refs s -> usable refs wo -> paired wo ro -> ready wo ->
  (forall a b, keq (VStr a) (VStr b) = eqb_str a b) -> new_place wo s p cs -> storable wo ro keq v -> depth v <= n -> writes_to wo cs v -> no_draws v -> 0 < tries ->
  let '(f, r) := file_write wo rnd tries n (mkFile true s) v p in
  r = Ok tt /\ exists v', same v v' /\ forall m, depth v <= m -> file_read ro m keq f p = (f, Ok v').
Proof.
  intros GR HR HU HP HY SK NP SV DV WT ND HT. pose proof (file_still wo rnd tries n s p v ND) as S. destruct (file_write wo rnd tries n (mkFile true s) v p) as [f r] eqn:E. cbn [fst] in S.
  destruct (round_trip refs s wo ro rnd tries n keq [(p, v)] f r) as [R1 R2]; auto.
  - intros q w [[= <- <-]|[]]. exists cs. auto.
  - constructor; constructor.
  - intros i j H1 H2 H3. lia.
  - lia.
  - split; [exact R1|]. apply R2. left. reflexivity.
Qed.
