(** C61 for calls of File.writes, and what File.read gives afterwards. *)
From Verif Require Import OptionsSpec OptionsFacts Base PathEsc PathEscFacts PosixPath PosixFacts ProcessPath ProcessPathFacts Unicode Dec NdArray Value OptionsM Attrs Hdf5 HeapFacts NpWrite MarshalW MarshalR FrameFacts WriteFrame ReadFacts FileApi ApiFacts ApiSpec HistoryFacts FileFacts RndFacts RoundSpec RoundHeap RoundWrite RoundVal RoundDict RoundApi Plan Layout LayoutNp LayoutApi MatlabSpec MatlabFacts MatlabPlan MatlabApi ProgressSpec MatlabLater MatReadSpec MatBack PlainSpec PlainRead PlainPlan.
Local Open Scope nat_scope.

Fixpoint writable_tidy v (H : writable v) {struct H} : tidy v.
Proof.
  assert (G : forall l, Forall writable l -> Forall tidy l).
  { intros l F. induction F; constructor; auto. }
  assert (A : forall c a, a_dt a <> TObj -> (forall fs, a_dt a <> TStruct fs) -> Forall (fun e => match e with XPtr _ => False | _ => True end) (a_data a) -> tidy (VNp c a)).
  { clear. intros c a D1 D2 F. apply T_np; [|intros fs D; destruct (D2 fs D)]. eapply Forall_impl; [|exact F]. intros e He. destruct e; try (apply T_atom; exact I). destruct He. }
  destruct H as [v AT|c a SI L F|c a w DT L F|c a n DT L F|c a l DT L DA F|c a fs DT L ND X F|k l F|k l texts KT ND F|k l NT FK F|k fs L F].
  - apply T_atom. exact AT.
  - apply A; [intros D; rewrite D in SI; exact SI|intros fs D; rewrite D in SI; exact SI|]. eapply Forall_impl; [|exact F]. intros e (e' & S). inversion S; exact I.
  - apply A; [congruence|congruence|]. eapply Forall_impl; [|exact F]. intros e (x & y & ->). exact I.
  - apply A; [congruence|congruence|]. eapply Forall_impl; [|exact F]. intros e (s & -> & _). exact I.
  - apply T_np; [|congruence]. rewrite DA, Forall_map. apply G. exact F.
  - apply T_np.
    + eapply Forall_impl; [|exact F]. intros e (s & -> & _). apply T_atom. exact I.
    + intros fs' D. rewrite D in DT. injection DT as ->. split; [exact ND|]. intros cols n f Hin Hn.
      assert (Y : Forall (fun e => forall cols, e = XRec cols -> forall n f, nth_error fs n = Some f -> tidy (field_item (fst (snd f)) (snd (snd f)) (nth n cols []))) (a_data a)).
      { clear - F writable_tidy. induction F as [|e l (cs & -> & L & F) _ IH]; constructor; [|exact IH]. intros cols [= <-]. clear IH.
        assert (F' : Forall (fun fc => tidy (field_item (fst (snd (fst fc))) (snd (snd (fst fc))) (snd fc))) (combine fs cs)).
        { clear L. induction F as [|fc l' F1 _ IF]; constructor; [apply writable_tidy; exact F1|exact IF]. }
        clear - F' L. revert fs L F'. induction cs as [|c cs IC]; intros fs L F n f Hn.
        - destruct fs; [destruct n; discriminate Hn|discriminate L].
        - destruct fs as [|x fs]; [discriminate L|]. cbn [combine] in F. inversion F as [|? ? F1 F2]; subst. destruct n as [|n]; cbn in Hn.
          + injection Hn as <-. exact F1.
          + cbn [nth]. apply (IC fs); auto. }
      rewrite Forall_forall in Y. exact (Y _ Hin cols eq_refl n f Hn).
  - apply T_seq. auto.
  - apply T_dict; auto.
    + intros cs E. destruct (key_codes_texts _ _ KT) as (cs' & C1 & C2 & _). assert (cs' = cs) by congruence. subst cs'. rewrite C2. exact ND.
    + intros E. destruct (key_codes_texts _ _ KT) as (cs' & C1 & _). congruence.
  - apply T_dict; auto. intros cs E. rewrite (key_codes_other _ NT) in E. discriminate E.
  - apply T_rec. auto.
Qed.

(** nothing but the value is to be stored *)
Definition plainly (o : options) : Prop := forall n, In n [MatlabCompatible; StorePythonMetadata; StructuredNumpyNdarrayAsStruct; MakeAtleast2d; ConvertNumpyBytesToUtf16;
  ConvertNumpyStrToUtf16; ConvertBoolsToUint8; ReverseDimensionOrder; StoreShapeForEmpty] -> get o n = OVBool false.
Lemma plainly_off o : plainly o -> o_matlab_compatible o = false /\ o_store_python_metadata o = false /\ o_struct_as_struct o = false /\ o_atleast_2d o = false /\ o_bytes_utf16 o = false /\
  o_str_utf16 o = false /\ o_bools_uint8 o = false /\ o_reverse o = false /\ o_shape_empty o = false.
Proof.
  intros H. assert (G : forall n b, get o n = OVBool b -> In n [MatlabCompatible; StorePythonMetadata; StructuredNumpyNdarrayAsStruct; MakeAtleast2d; ConvertNumpyBytesToUtf16;
    ConvertNumpyStrToUtf16; ConvertBoolsToUint8; ReverseDimensionOrder; StoreShapeForEmpty] -> b = false).
  { intros n b E Hin. rewrite (H n Hin) in E. injection E as <-. reflexivity. }
  repeat split; [eapply (G MatlabCompatible)|eapply (G StorePythonMetadata)|eapply (G StructuredNumpyNdarrayAsStruct)|eapply (G MakeAtleast2d)|eapply (G ConvertNumpyBytesToUtf16)|eapply (G ConvertNumpyStrToUtf16)
   |eapply (G ConvertBoolsToUint8)|eapply (G ReverseDimensionOrder)|eapply (G StoreShapeForEmpty)]; try reflexivity; cbn; tauto.
Qed.

Lemma filled_plain o n s0 t0 v : plainly o -> writable v -> filled o n s0 t0 v -> exists m, plain_of o v m /\ forall s t, wf o s -> filled o n s t v -> apart o t ->
  exists i, walk (hp s) 0 t = Some i /\ plain_in (hp s) i m /\ unadorned (hp s) i /\ forall ro, o_refs ro = o_refs o -> unmarked ro (hp s) i.
Proof.
  intros PO PV F0. destruct (plainly_off o PO) as (M1 & M2 & M3 & M4 & M5 & M6 & M7 & M8 & M9).
  unfold filled in *. destruct (plan o n v) as [r|] eqn:PL; [|destruct F0].
  destruct (proj1 (plan_in o M1 M2 M3 M4 M5 M6 M7 M8 M9 n) v PV r PL) as (T & m & -> & LK & S).
  exists m. split; [exact LK|]. intros s t W' F AP.
  destruct F as (i & W & (LI & AI & Q & SQ & QI & KI & R)).
  assert (ND : forall j ls, Hdf5.links (hp s) j = ls -> NoDup (map fst ls)) by (intros j ls <-; apply (t_keys _ _ (w_tree _ _ W'))).
  destruct (tree_unadorned o M1 (hp s) Q T m i S R ND) as (P & P1 & P2 & P3).
  exists i. split; [exact W|]. split; [|split].
  - eapply (tree_in o (hp s) Q); [intros j Hj; apply (SQ j Hj)|exact S|exact R].
  - exists P. split; [exact P1|]. split; [exact P2|]. intros j Hj. apply (P3 j Hj).
  - intros ro RO. exists P. split; [exact P1|]. split; [exact P2|]. intros j ob Hj E. destruct (P3 j Hj) as (JQ & ob' & E' & NA). assert (ob' = ob) by congruence. subst ob'. split; [|split].
    + apply Forall_forall. intros k _. apply NA.
    + intros X. rewrite RO in X.
      assert (LJ : live (hp s) j = true) by (destruct JQ as [Hj'| ->]; [apply (SQ j Hj')|exact LI]).
      assert (X2 : Forall clean (name_of (hp s) j)) by (exact (live_clean _ _ _ (w_tree _ _ W') LJ)).
      assert (NJ : name_of (hp s) j = rp o) by (rewrite <- (text_comps _ X2), X; reflexivity).
      assert (AR : area o t (name_of (hp s) j) \/ name_of (hp s) j = ra o).
      { destruct JQ as [Hj'| ->]; [|left; exact AI]. destruct (SQ j Hj') as (_ & [A|[A _]] & _); auto. }
      rewrite NJ in AR. destruct AR as [[A|[k A]]|A].
      * exact (proj1 (apart_pre o t AP) A).
      * destruct A as [x A]. apply (f_equal (@length _)) in A. rewrite !app_length in A. cbn in A. lia.
      * unfold ra in A. apply (f_equal (@length _)) in A. rewrite app_length in A. cbn in A. lia.
    + destruct (o_body ob) eqn:B; [exact I|]. apply (ND j). unfold Hdf5.links. rewrite E, B. reflexivity.
Qed.

(** ** File.writes *)
Section Writes.
Variables (refs : pystr) (o : options) (s : st) (rnd : nat -> N) (tries n : nat) (mdict : list (pypath * pyval)) (f : file).
Hypotheses (GR : good_refs refs) (PO : plainly o) (U : usable refs o) (KN : o_keys_name o <> o_values_name o) (RS : reachable refs s)
  (OK : forall p v, In (p, v) mdict -> valid_path p /\ writable v /\ snd (file_contains (mkFile true s) p) = Ok false)
  (ND : ForallOrdPairs (fun x y => forall a b, denotes (fst x) a -> denotes (fst y) b -> ~ overlap a b) mdict)
  (E : file_writes o rnd tries n (mkFile true s) mdict = (f, Ok tt)) (NR : no_repeat rnd (rpos s) (rpos (fl_st f))).

Lemma not_root q w : In (q, w) mdict -> ~ denotes q [].
Proof. intros Hq D. destruct (OK q w Hq) as (V & _ & N). rewrite (contains_iff q [] s V D) in N. discriminate N. Qed.
Lemma writes_filled p v : In (p, v) mdict -> exists t, denotes p t /\ filled o n (fl_st f) t v.
Proof.
  intros Hin. apply (api_filled refs s o rnd tries n mdict f GR RS U KN); auto.
  intros q w H. destruct (OK q w H) as (H1 & H2 & H3). split; [exact H1|]. split; [apply writable_tidy; exact H2|exact H3].
Qed.
Lemma writes_reach : reachable refs (fl_st f).
Proof. eapply R_write; [exact RS|exact U| |exact E]. intros q w Hq. eapply not_root; exact Hq. Qed.
Lemma writes_apart p v t : In (p, v) mdict -> denotes p t -> apart o t.
Proof.
  intros Hin D. assert (HA : isabs (o_refs o) = true) by (rewrite (proj1 U); apply GR).
  destruct (writes_checked _ _ _ _ _ _ _ E p v Hin) as ([g tt'] & CP). apply check_path_iff in CP; [|exact HA]. destruct CP as (PP & [X|X]); [unfold rp in X; rewrite (proj1 U) in X; destruct (proj2 GR X)|].
  destruct D as (g' & t' & PP' & ->). rewrite PP in PP'. injection PP' as <- <-. destruct X as [X|X]; [|exact X].
  exfalso. apply (not_root p v Hin). exists g, tt'. split; [exact PP|]. symmetry. exact X.
Qed.
Lemma writes_plain p v : In (p, v) mdict -> exists t i m, denotes p t /\ walk (hp (fl_st f)) 0 t = Some i /\ plain_of o v m /\ plain_in (hp (fl_st f)) i m /\ unadorned (hp (fl_st f)) i.
Proof.
  intros Hin. destruct (writes_filled p v Hin) as (t & D & F).
  destruct (filled_plain o n (fl_st f) t v PO (proj1 (proj2 (OK p v Hin))) F) as (m & P1 & X).
  destruct (X (fl_st f) t (reachable_wf refs _ GR writes_reach o (proj1 U)) F (writes_apart p v t Hin D)) as (i & W & P2 & P3 & _).
  exists t, i, m. auto.
Qed.
Lemma writes_plain_stay p v : In (p, v) mdict -> exists t m, denotes p t /\ plain_of o v m /\
  forall s', later refs p (fl_st f) s' -> exists i, walk (hp s') 0 t = Some i /\ plain_in (hp s') i m /\ unadorned (hp s') i.
Proof.
  intros Hin. destruct (writes_filled p v Hin) as (t & D & F). pose proof (writes_apart p v t Hin D) as AP.
  assert (NZ : t <> []) by (intros ->; exact (not_root p v Hin D)).
  assert (NS : ~ same_top t (path_comps refs)).
  { intros S. destruct (writes_checked _ _ _ _ _ _ _ E p v Hin) as (gt & CP). rewrite (check_refuses o p t D) in CP; [discriminate CP|]. unfold ApiSpec.refs_path. rewrite (proj1 U). exact S. }
  assert (FL : forall s', later refs p (fl_st f) s' -> reachable refs s' /\ filled o n s' t v).
  { intros s' L.
    refine (later_frame refs p t (fl_st f) s' (fun x => filled o n x t v) GR D NZ NS L writes_reach _ _ F).
    - intros x. exact (fun H => H).
    - intros o2 rnd2 R a b O2 Wa Wb Fr A O. assert (EO : o_refs o2 = o_refs o) by (rewrite O2; symmetry; apply U). apply (filled_frame o n rnd2 R a b t v).
      + exact (wf_refs _ _ _ EO Wa).
      + exact (wf_refs _ _ _ EO Wb).
      + exact (frame_refs _ _ _ _ _ _ EO Fr).
      + unfold apart, rp in *. rewrite <- EO. exact A.
      + exact (off_refs _ _ _ _ EO O). }
  destruct (filled_plain o n (fl_st f) t v PO (proj1 (proj2 (OK p v Hin))) F) as (m & M0 & X).
  exists t, m. split; [exact D|]. split; [exact M0|]. intros s' L. destruct (FL s' L) as [RS' F'].
  destruct (X s' t (reachable_wf refs _ GR RS' o (proj1 U)) F' AP) as (i & W & M2 & M3 & _). exists i. auto.
Qed.
(** ** and File.read *)
Lemma writes_read ro keq p v : o_refs ro = refs -> In (p, v) mdict -> exists m, plain_of o v m /\
  (sound m -> exists v' N, shown_as m v' /\ forall k, N <= k -> file_read ro k keq f p = (f, Ok v')).
Proof.
  intros RO Hin. destruct (writes_filled p v Hin) as (t & D & F). pose proof (writes_apart p v t Hin D) as AP.
  destruct (filled_plain o n (fl_st f) t v PO (proj1 (proj2 (OK p v Hin))) F) as (m & P1 & X).
  destruct (X (fl_st f) t (reachable_wf refs _ GR writes_reach o (proj1 U)) F AP) as (i & W & P2 & _ & P4).
  exists m. split; [exact P1|]. intros SO.
  assert (FO : f = mkFile true (fl_st f)).
  { clear - E. unfold file_writes in E. destruct (mapr _ mdict); [|discriminate]. cbn [fl_open fl_st] in E. destruct (iterM _ _ s). injection E as <- _. reflexivity. }
  rewrite FO. apply (read_plain ro keq (fl_st f) p t i m); auto.
  - rewrite RO. apply GR.
  - apply (OK p v Hin).
  - destruct AP as (a & b & r1 & r2 & X1 & X2 & X3). exists a, b, r1, r2. split; [exact X1|]. split; [|exact X3]. unfold rp in *. rewrite RO. rewrite (proj1 U) in X2. exact X2.
  - apply P4. rewrite RO. symmetry. exact (proj1 U).
Qed.
End Writes.

(** ** arrays of numbers, truth values and bytes *)
Lemma same_both l1 l2 l3 : Forall2 same_elem l1 l2 -> Forall2 same_elem l1 l3 -> l2 = l3.
Proof. intros F2 F3. rewrite <- (sames_up _ _ F2). apply sames_up. exact F3. Qed.
Lemma complex_both l1 : forall l2 l3, Forall2 same_complex l1 l2 -> Forall2 same_complex l1 l3 -> l2 = l3.
Proof.
  induction l1 as [|e l1 IH]; intros l2 l3 F2 F3; inversion F2 as [|? ? ? ? (x & y & E1 & ->)]; inversion F3 as [|? ? ? ? (x' & y' & E1' & ->)]; subst; [reflexivity|].
  injection E1' as -> ->. f_equal. auto.
Qed.
Definition flat_array (o : options) (d : dt) : Prop :=
  (simple d /\ d <> TS 0) \/ (o_complex_names o = (lit "r", lit "i") /\ (d = TC 8 \/ d = TC 16)).
Lemma flat_plain o c a m : flat_array o (a_dt a) -> plain_of o (VNp c a) m -> sound m /\ forall v, shown_as m v -> v = VNp CNdarray a.
Proof.
  intros FA H. inversion H as [v D|b|z F|z F|x|x y|s|v s t D C|c' a' l SI F|c' a' w l DT F|c' a' n rs DT X F|c' a' n DT X|c' a' fs l DT X F|c' a' l ps DT X F|c' a' fs cols ps DT X1 X2 X3 F|c' a' fs cols DT X1 X2 F|k l ps F|k l texts ps K F|k l pk pv K F1 F2|k fs names ps K L F]; subst;
    try (exfalso; unfold flat_array, simple in FA; rewrite DT in FA; destruct FA as [[[] _]|[_ [Y|Y]]]; discriminate Y).
  - destruct D as [D|[D|D]]; discriminate D.
  - destruct D as [D|[D|(d & D & _)]]; discriminate D.
  - assert (ST : stored_type (a_dt a) = a_dt a).
    { destruct FA as [[S N]|[_ [Y|Y]]]; [|rewrite Y in SI; destruct SI..]. destruct (a_dt a); try reflexivity. destruct n; [destruct (N eq_refl)|reflexivity]. }
    rewrite ST. assert (NP : forall w, a_dt a <> pair_type w) by (intros w E; rewrite E in SI; exact SI). split.
    + eapply So_data; [exact F|]. intros w E. destruct (NP w E).
    + intros v S. inversion S as [a0 l0 N0 F0|a0 w l0 W E F0| | | |]; subst; [|destruct (NP w E)]. cbn [a_dt a_shape a_data] in *. rewrite (same_both _ _ _ F0 F). destruct a; reflexivity.
  - destruct FA as [[S _]|[CN FA]]; [rewrite DT in S; destruct S|]. assert (W : (w = 8 \/ w = 16)) by (rewrite DT in FA; destruct FA as [[= ->]|[= ->]]; auto).
    assert (TY : complex_type o (w / 2) = pair_type (w / 2)) by (unfold complex_type; rewrite CN; reflexivity). rewrite TY. split.
    + assert (EX : exists l', Forall2 same_elem l l').
      { clear - F. induction F as [|e e' l l' (x & y & -> & ->) _ (m & IH)]; [exists []; constructor|]. exists (XRec [[XFlt x]; [XFlt y]] :: m). constructor; [|exact IH]. repeat constructor. }
      destruct EX as [l' EX]. eapply So_data; [exact EX|]. intros w' _. cbn [a_data]. clear - F. induction F as [|e e' l l' (x & y & -> & ->) _ IH]; constructor; eauto.
    + intros v S. inversion S as [a0 l0 N0 F0|a0 w' l0 W' E F0| | | |]; subst; cbn [a_dt a_shape a_data] in *.
      * exfalso. apply (N0 (w / 2)); [destruct W as [-> | ->]; cbn; auto|reflexivity].
      * rewrite (complex_both _ _ _ F0 F). assert (w' = w / 2) by (destruct W as [-> | ->], W' as [-> | ->]; try reflexivity; discriminate E). subst w'.
        replace (2 * (w / 2)) with w by (destruct W as [-> | ->]; reflexivity). rewrite <- DT. destruct a; reflexivity.
Qed.
