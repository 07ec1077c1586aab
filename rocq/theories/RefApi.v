(** References through the class File. *)
From Verif Require Import Base Unicode PathEsc PathEscFacts PosixPath PosixFacts ProcessPath ProcessPathFacts MColl Dec NdArray Value Attrs OptionsM NpDims Hdf5 HeapFacts NpWrite MarshalW MarshalR FrameFacts WriteFrame ReadFacts FileApi ApiFacts ApiSpec HistoryFacts RndFacts RoundHeap RefSpec Refs RefRead.
Local Open Scope nat_scope.

Lemma good_apart o rnd s t : wf o s -> orderly (hp s) -> ~ overlap t (rp o) -> good o rnd (eq t) s.
Proof.
  intros W O A. assert (P : forall k, ~ pre (rp o ++ [k]) t) by (intros k X; apply A; right; eapply pre_snoc; exact X).
  constructor; auto.
  - intros x <-. split; [|intros k X; destruct (P k X)]. intros X. apply A. unfold ra in X. destruct (pre_snoc_inv _ _ _ X) as [Y| ->]; [left; exact Y|right; apply pre_app].
  - intros x <-. split; [apply P|]. intros j Hj. destruct (referred_ok o s j W Hj) as (_ & k & ->). apply P.
Qed.
Lemma good_orderly o rnd T s : good o rnd T s -> orderly (hp s). Proof. apply g_ord. Qed.

Section Api.
Variables (o : options) (tries n : nat).
Hypotheses (Hkn : o_keys_name o = [] \/ clean (o_keys_name o)) (Hvn : o_values_name o = [] \/ clean (o_values_name o)).
Lemma write_at_orderly rnd s g t v : inj_rnd rnd -> wf o s -> orderly (hp s) -> clean t -> apart o (path_comps g ++ [t]) ->
  orderly (hp (fst (write_at o rnd tries n g t v s))).
Proof.
  intros HI W O C A. destruct (apart_ra _ _ A) as [A1 A2]. unfold write_at. unfold bindm at 1.
  assert (KR : keeps o rnd (fun p => pre p (path_comps g)) s (require_group g s) (fun s' i => live (hp s') i = true /\ is_group (hp s') i = true /\ name_of (hp s') i = path_comps g)).
  { apply require_keeps; [exact W| |auto]. intros P. apply A2. eapply pre_trans; [exact P|apply pre_app]. }
  assert (G : good o rnd (eq (path_comps g ++ [t])) s).
  { apply good_apart; auto. intros [X|X]; [|exact (A2 X)]. apply A1. eapply pre_trans; [exact X|apply pre_app]. }
  assert (G1 : good o rnd (eq (path_comps g ++ [t])) (fst (require_group g s))).
  { destruct KR as (W1 & F1 & _). eapply good_step; [exact G|exact W1|exact F1|right|].
    - intros k q P1 P2. apply A2. eapply pre_trans; [|apply pre_app]. eapply pre_snoc. eapply pre_trans; eassumption.
    - intros j Hj. left. apply (quiet_require g s j Hj). }
  destruct (require_group g s) as [s1 [i|e]]; cbn [fst] in *; [|apply (g_ord _ _ _ _ G1)].
  destruct KR as (W1 & F1 & K). destruct (K i eq_refl) as (L1 & I1 & N1). cbn [fst snd] in *.
  assert (OK : okt o s1 i t).
  { constructor; auto; rewrite N1; auto. intros k P. exfalso. apply A2. eapply pre_trans; [|exact P]. apply pre_app. }
  pose proof (write_good o rnd tries Hkn Hvn HI n (eq (path_comps g ++ [t])) s1 i t v G1 OK ltac:(rewrite N1; reflexivity)) as GW.
  unfold bindm. destruct (write o rnd tries n i t v s1) as [s2 [r|e]]; apply (g_ord _ _ _ _ GW).
Qed.
Lemma writes_orderly0 rnd l : inj_rnd rnd -> forall s, wf o s -> orderly (hp s) ->
  (forall x, In x l -> clean (snd (fst x)) /\ apart o (path_comps (fst (fst x)) ++ [snd (fst x)])) ->
  orderly (hp (fst (iterM (fun x : pystr * pystr * pyval => write_at o rnd tries n (fst (fst x)) (snd (fst x)) (snd x)) l s))).
Proof.
  intros HI. induction l as [|x l IH]; intros s W O H; cbn [iterM]; [exact O|]. destruct (H x (or_introl eq_refl)) as [C A].
  pose proof (write_at_orderly rnd s (fst (fst x)) (snd (fst x)) (snd x) HI W O C A) as O1.
  destruct (write_at_keeps o rnd tries n Hkn Hvn s (fst (fst x)) (snd (fst x)) (snd x) W C A) as (W1 & _ & _).
  unfold bindm. destruct (write_at o rnd tries n (fst (fst x)) (snd (fst x)) (snd x) s) as [s1 [u|e]]; cbn [fst] in *; [|exact O1].
  apply IH; auto. intros y Hy. apply H. right. exact Hy.
Qed.
End Api.

Lemma writes_orderly o rnd tries n s mdict f r : good_refs (o_refs o) -> plain_link (o_keys_name o) -> plain_link (o_values_name o) ->
  wf o s -> orderly (hp s) -> (forall p v, In (p, v) mdict -> ~ denotes p []) ->
  file_writes o rnd tries n (mkFile true s) mdict = (f, r) -> no_repeat rnd (rpos s) (rpos (fl_st f)) -> orderly (hp (fl_st f)).
Proof.
  intros [HA NR] K1 K2 W O NZ. unfold file_writes.
  destruct (mapr (fun pv => do gt <- check_path o (fst pv); Ok (gt, snd pv)) mdict) as [l|e] eqn:E; [|intros [= <- <-] _; exact O].
  cbn [fl_open fl_st].
  assert (HL : forall x, In x l -> clean (snd (fst x)) /\ apart o (path_comps (fst (fst x)) ++ [snd (fst x)])).
  { assert (HL : forall x, In x l -> exists p v, In (p, v) mdict /\ check_path o p = Ok (fst x) /\ snd x = v).
    { clear - E. revert l E. induction mdict as [|[p v] m IH]; intros l; cbn [mapr]; [intros [= <-] x []|].
      cbn [fst snd]. destruct (check_path o p) as [gt|] eqn:C; [|discriminate]. cbn [bindr].
      destruct (mapr _ m) as [l'|]; [|discriminate]. cbn [bindr]. intros [= <-] x [<-|Hx].
      - exists p, v. cbn. auto.
      - destruct (IH l' eq_refl x Hx) as (p' & v' & H1 & H2). exists p', v'. split; [right; exact H1|exact H2]. }
    intros [[g t] v] Hx. destruct (HL _ Hx) as (p & v' & H1 & H2 & H3). cbn [fst snd] in *.
    apply check_path_iff in H2; [|exact HA]. destruct H2 as [H2 H4].
    assert (D : denotes p (loc g t)) by (exists g, t; auto).
    destruct (loc_clean _ _ _ H2) as [Z|[C LE]]; [rewrite Z in D; destruct (NZ p v' H1 D)|].
    destruct H4 as [H4|[H4|H4]]; [destruct (NR H4)|rewrite H4 in D; destruct (NZ p v' H1 D)|]. rewrite <- LE. auto. }
  assert (D : det (fun rnd => iterM (fun x : pystr * pystr * pyval => write_at o rnd tries n (fst (fst x)) (snd (fst x)) (snd x)) l)).
  { apply (det_iter (fun rnd (x : pystr * pystr * pyval) => write_at o rnd tries n (fst (fst x)) (snd (fst x)) (snd x))). intros x. apply det_write_at. }
  destruct (iterM _ l s) as [s' r'] eqn:I. intros [= <- <-] HR. cbn [fl_st] in *.
  destruct (D rnd s) as [_ D']. rewrite I in D'. cbn [fst] in D'.
  specialize (D' (extend rnd (rpos s) (rpos s')) (fun p Hp => extend_in rnd _ _ p Hp)).
  pose proof (writes_orderly0 o tries n (plain_clean _ K1) (plain_clean _ K2) (extend rnd (rpos s) (rpos s')) l (extend_inj _ _ _ HR) s W O HL) as X.
  rewrite D' in X. exact X.
Qed.

Lemma grown_reachable refs s : grown refs s -> reachable refs s.
Proof.
  induction 1; [apply R_new|apply R_other; assumption|apply R_reopen; assumption|eapply R_write; eassumption|eapply R_del; eassumption].
Qed.
Lemma some_refs refs : exists o, o_refs o = refs.
Proof.
  destruct raw_defaults as [a b c d e f g h i j k l m n' p q r s t u v w x y].
  exists (mkOptions a b c d e f g h i j k l m refs p q r s t u v w x y). reflexivity.
Qed.
Theorem grown_orderly refs s : good_refs refs -> grown refs s -> orderly (hp s).
Proof.
  intros GR. induction 1 as [|s FE O|s H IH|s o rnd tries n mdict f r H IH U NZ E NR|s p f r H IH NO E].
  - intros j (i & ob & a & f & E1 & E2 & E3). cbn in E1. destruct (i =? 0); [|discriminate]. injection E1 as <-. discriminate.
  - exact O.
  - exact IH.
  - destruct U as (U1 & U2 & U3). eapply writes_orderly; try eassumption; [rewrite U1; exact GR|].
    apply (reachable_wf refs s GR (grown_reachable refs s H) o U1).
  - unfold file_del in E. destruct (process_path p) as [[g t]|e] eqn:P; [|injection E as <- <-; exact IH].
    cbn [fl_open fl_st] in E. destruct (unlink 0 (posix_join g [t]) s) as [s' r'] eqn:UN. injection E as <- <-. cbn [fl_st].
    destruct (some_refs refs) as [o Ho]. pose proof (reachable_wf refs s GR (grown_reachable refs s H) o Ho) as W.
    assert (A : ~ overlap (path_comps (posix_join g [t])) (rp o)).
    { intros OV. apply (NO (path_comps (posix_join g [t]))); [exists g, t; auto|]. unfold rp in OV. rewrite Ho in OV. exact OV. }
    pose proof (del_keeps o (fun _ => 0%N) s _ W A) as (W' & F & _). rewrite UN in W', F. cbn [fst] in W', F.
    pose proof (good_apart o (fun _ => 0%N) s _ W IH A) as G.
    apply (g_ord o (fun _ => 0%N) (eq (path_comps (posix_join g [t])))). eapply good_step; [exact G|exact W'|exact F| |].
    + left. eexists. split; [reflexivity|auto].
    + intros j Hj. left. apply (quiet_unlink 0 (posix_join g [t]) s j). rewrite UN. exact Hj.
Qed.
Theorem grown_refs refs s i ob a f j : good_refs refs -> grown refs s -> hp s i = Some ob -> o_body ob = BData a f -> In (XPtr j) (a_data a) ->
  exists k, walk (hp s) 0 (path_comps refs ++ [k]) = Some j.
Proof.
  intros GR G E B X. destruct (some_refs refs) as [o Ho]. pose proof (reachable_wf refs s GR (grown_reachable refs s G) o Ho) as W.
  destruct (w_ptrs _ _ W _ _ _ _ _ E B X) as (_ & k & N). exists k.
  destruct (grown_orderly refs s GR G j (referred_in _ _ _ _ _ _ E B X)) as [L _]. unfold rp in N. rewrite Ho in N. rewrite <- N.
  unfold live in L. destruct (walk (hp s) 0 (name_of (hp s) j)) as [x|]; [|discriminate]. apply Nat.eqb_eq in L. congruence.
Qed.
Theorem grown_ends refs s i : good_refs refs -> grown refs s -> hp s i <> None -> ends (hp s) i.
Proof.
  intros GR G E. destruct (some_refs refs) as [o Ho]. pose proof (reachable_wf refs s GR (grown_reachable refs s G) o Ho) as W.
  eapply orderly_ends; [apply (w_tree _ _ W)|apply (grown_orderly refs s GR G)|exact E].
Qed.

(** ** reading through the class File *)
Lemma nf_join_star l : nf (posix_join_star l). Proof. unfold posix_join_star. repeat nf_step. Qed.
Lemma nf_process p : nf (process_path p).
Proof.
  unfold process_path. apply nf_bind; [|discriminate]. unfold path_string. destruct p as [s|b|pp|l|]; try discriminate; [apply nf_decode_utf8| |].
  - repeat (nf_step || apply nf_join_star).
  - apply nf_bind; [|intros; apply nf_join_star]. apply nf_mapr. intros e _. apply nf_bind.
    + unfold elem_str. repeat (nf_step || apply nf_decode_utf8).
    + intros v _. rewrite escape_path_text. discriminate.
Qed.
Lemma nf_check o p : nf (check_path o p).
Proof.
  unfold check_path. apply nf_bind; [apply nf_process|]. intros gt _. cbv zeta. apply nf_bind; [unfold commonpath2; repeat nf_step|]. intros c _. repeat nf_step.
Qed.
Lemma nf_err {A B} e : nf (@Err A e) -> nf (@Err B e). Proof. unfold nf. intros H [= ->]. apply H. reflexivity. Qed.
Lemma nf_get g nm s : nf (snd (get_obj g nm s)).
Proof. unfold get_obj, name_err. repeat (destruct (_ : bool); [discriminate|]). destruct nm; discriminate. Qed.
Lemma walk_exists (h : heap) k cs : tree h k -> forall i j, h i <> None -> walk h i cs = Some j -> h j <> None.
Proof.
  intros T. induction cs as [|c cs IH]; intros i j E W; cbn [walk] in W; [congruence|]. destruct (lookup h i c) as [x|] eqn:L; [|discriminate].
  apply (IH x j); [|exact W]. apply (t_link _ _ T _ _ _ L).
Qed.
Lemma read_at_settles n s : (forall i, hp s i <> None -> settles (hp s) n i) -> (forall i j cs, hp s i <> None -> walk (hp s) i cs = Some j -> hp s j <> None) -> hp s 0 <> None ->
  forall o keq g t, nf (read_at o n keq g t s) /\ forall m, n <= m -> read_at o m keq g t s = read_at o n keq g t s.
Proof.
  intros HE HW H0 o keq g t. unfold read_at. pose proof (nf_get 0 g s) as N1. destruct (snd (get_obj 0 g s)) as [[i|]|e] eqn:G1; cbn [bindr] in *.
  2: { split; [discriminate|reflexivity]. } 2: { split; [eapply nf_err; exact N1|reflexivity]. }
  destruct (is_group (hp s) i) eqn:IG; [|split; [discriminate|reflexivity]].
  pose proof (nf_get i t s) as N2. destruct (snd (get_obj i t s)) as [[j|]|e] eqn:G2; cbn [bindr] in *.
  2: { split; [discriminate|reflexivity]. } 2: { split; [eapply nf_err; exact N2|reflexivity]. }
  assert (EI : hp s i <> None) by (intros X; unfold is_group in IG; rewrite X in IG; discriminate).
  assert (EJ : hp s j <> None).
  { unfold get_obj in G2. destruct (name_err t); [discriminate|]. cbn in G2. injection G2 as G2. unfold start_of in G2. destruct (isabs t); [apply (HW 0 j _ H0 G2)|apply (HW i j _ EI G2)]. }
  apply (HE j EJ o keq).
Qed.
Lemma mapr_nf_ext {A B} (f g : A -> res B) l : (forall x, nf (f x) /\ g x = f x) -> nf (mapr f l) /\ mapr g l = mapr f l.
Proof. intros H. split; [apply nf_mapr; intros x _; apply H|apply mapr_ext; intros x _; apply H]. Qed.
Theorem grown_reads refs s : good_refs refs -> grown refs s ->
  exists n, forall o keq ps, exists r, r <> Err OutOfFuel /\ forall m, n <= m -> file_reads o m keq (mkFile true s) ps = (mkFile true s, r).
Proof.
  intros GR G. destruct (some_refs refs) as [o' Ho]. pose proof (reachable_wf refs s GR (grown_reachable refs s G) o' Ho) as W.
  destruct (all_settle (hp s) (nxt s)) as [n SN].
  { intros i Hi. destruct (hp s i) as [ob|] eqn:E; [|congruence]. apply (t_bound _ _ (w_tree _ _ W) i ob E). }
  { intros i Hi. apply (grown_ends refs s i GR G Hi). }
  exists n. intros o keq ps.
  unfold file_reads. cbn [fl_open fl_st]. assert (N : nf (mapr (check_path o) ps)) by (apply nf_mapr; intros; apply nf_check).
  destruct (mapr (check_path o) ps) as [l|e]; cbn [bindr]; [|exists (Err e); split; [eapply nf_err; exact N|reflexivity]].
  assert (R : forall gt : pystr * pystr, nf (read_at o n keq (fst gt) (snd gt) s) /\ forall m, n <= m -> read_at o m keq (fst gt) (snd gt) s = read_at o n keq (fst gt) (snd gt) s).
  { intros [g t]. apply read_at_settles; [exact SN| |].
    + intros i j cs Hi Hw. eapply walk_exists; [apply (w_tree _ _ W)|exact Hi|exact Hw].
    + destruct (t_root _ _ (w_tree _ _ W)) as (ob & ls & R & _). congruence. }
  exists (mapr (fun gt => read_at o n keq (fst gt) (snd gt) s) l). split; [apply nf_mapr; intros x _; apply R|].
  intros m Hm. f_equal. apply mapr_ext. intros x _. apply R. exact Hm.
Qed.

(** ** no way back *)
Lemma ends_acc h i : ends h i -> Acc (fun j k => leads_to h k j) i.
Proof.
  induction 1 as [i ob a f E B H1 H2 IH|i ob ls E B H1 IH]; constructor; intros j (ob' & E' & L); rewrite E in E'; injection E' as <-; destruct L as [(a' & f' & B' & X)|(ls' & k & B' & X)]; rewrite B in B'; try discriminate; injection B' as <- ; try (injection H as <-).
  - apply IH. exact X.
  - eapply IH. exact X.
Qed.
Lemma acc_way h i : Acc (fun j k => leads_to h k j) i -> Acc (fun j k => way h k j) i.
Proof.
  induction 1 as [i _ IH]. constructor. intros j H. destruct H as [i j H|i x j H H']; [apply IH; exact H|]. apply (Acc_inv (IH x H)). exact H'.
Qed.
Lemma acc_irrefl {A} (R : A -> A -> Prop) x : Acc R x -> ~ R x x.
Proof. induction 1 as [x _ IH]. intros H. exact (IH x H H). Qed.
Lemma way_exists h i j : way h i j -> h i <> None.
Proof. intros H. destruct H as [i j (ob & E & _)|i j k (ob & E & _) _]; congruence. Qed.
Theorem grown_no_way_back refs s i : good_refs refs -> grown refs s -> ~ way (hp s) i i.
Proof.
  intros GR G H. pose proof (way_exists _ _ _ H) as E.
  exact (acc_irrefl _ i (acc_way _ _ (ends_acc _ _ (grown_ends refs s i GR G E))) H).
Qed.

(** ** the canonical empty *)
Theorem canonical_always refs s c : good_refs refs -> reachable refs s -> walk (hp s) 0 (path_comps refs ++ [lit "a"]) = Some c ->
  exists ob, hp s c = Some ob /\ empty_mark ob.
Proof.
  intros GR G E. destruct (some_refs refs) as [o Ho]. pose proof (reachable_wf refs s GR G o Ho) as W.
  rewrite walk_snoc in E. destruct (walk (hp s) 0 (path_comps refs)) as [g|] eqn:Hg; [|discriminate].
  assert (C : is_canonical (hp s) c = true) by (apply (w_refs _ _ W g); [unfold rp; rewrite Ho; exact Hg|exact E]).
  unfold is_canonical in C. destruct (hp s c) as [ob|]; [|discriminate]. exists ob. split; [reflexivity|]. unfold empty_mark.
  destruct (o_body ob) as [a f|]; [|discriminate]. apply andb_true_iff in C. destruct C as [C C5]. apply andb_true_iff in C. destruct C as [C C4].
  apply andb_true_iff in C. destruct C as [C C3]. apply andb_true_iff in C. destruct C as [C1 C2]. split; [|split].
  - destruct (a_dt a) as [|w| | | | | | | | ] eqn:D; try discriminate. exists a, f, w. split; [reflexivity|]. split; [exact D|].
    split; [destruct (eqb_shape_spec (a_shape a) [2]); [assumption|discriminate]|]. intros e He. rewrite forallb_forall in C3. specialize (C3 e He).
    destruct e; try discriminate. apply Z.eqb_eq in C3. subst. reflexivity.
  - unfold reads_as. destruct (o_attrs ob (lit "MATLAB_class")) as [[b| |b| | | | | ]|]; try discriminate; destruct (eqb_str_spec b (lit "canonical empty")); try discriminate; subst; auto.
  - destruct (o_attrs ob (lit "MATLAB_empty")) as [[]|]; try discriminate; [left|right]; repeat f_equal; [apply N.eqb_eq|apply Z.eqb_eq]; assumption.
Qed.
