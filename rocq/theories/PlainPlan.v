(** The tree of objects that writing with neither Python metadata nor MATLAB
    compatibility leaves is the value as it is, without attributes. *)
From Verif Require Import Props_Words.
From Verif Require Import Base PathEsc PathEscFacts PosixPath PosixFacts ProcessPathFacts Unicode UnicodeFacts Dec NdArray Value OptionsM StrConv ComplexM Attrs NpDims ConvFacts MColl Hdf5 HeapFacts NpWrite NpRead MarshalW MarshalR FrameFacts WriteFrame ReadFacts RoundSpec RoundNp RoundHeap RoundWrite RoundVal RoundDict Plan Layout LayoutNp MatlabSpec MatlabFacts MatlabPlan MatReadSpec PlainSpec.
Local Open Scope nat_scope.
Local Arguments prod : simpl never.

(** ** types that need a Group *)
Lemma part_needs d n e sh : Props_Words.part d n e sh -> (e = TObj \/ odd_name n \/ In 0 sh) -> needs_group d.
Proof.
  induction 1 as [fs n e sh I|fs n e sh n' e' sh' I P IH]; intros H.
  - destruct H as [->|[H|H]]; [eapply Ng_object|eapply Ng_name|eapply Ng_zero]; eassumption.
  - eapply Ng_inner; eauto.
Qed.
Lemma needs_part d : needs_group d -> exists n e sh, Props_Words.part d n e sh /\ (e = TObj \/ odd_name n \/ In 0 sh).
Proof.
  induction 1 as [fs k sh I|fs k d sh I H|fs k d sh I H|fs k d sh I _ (n & e & sh' & P & H)].
  - exists k, TObj, sh. split; [constructor; exact I|auto].
  - exists k, d, sh. split; [constructor; exact I|auto].
  - exists k, d, sh. split; [constructor; exact I|auto].
  - exists n, e, sh'. split; [econstructor 2; eassumption|exact H].
Qed.
Lemma group_iff fs : (has_object (TStruct fs) || has_null (TStruct fs)) || has_zero_shape (TStruct fs) = true <-> needs_group (TStruct fs).
Proof.
  destruct (Props_Words.C28_words (TStruct fs)) as (Z & O & N). rewrite !orb_true_iff, Z, O, N. split.
  - intros [[[H|(n & sh & P)]|(n & e & sh & P & H)]|(n & e & sh & P & H)]; [discriminate H|..]; eapply part_needs; eauto.
  - intros H. apply needs_part in H. destruct H as (n & e & sh & P & [-> |[H|H]]).
    + left. left. right. eauto.
    + left. right. exists n, e, sh. auto.
    + right. exists n, e, sh. auto.
Qed.

(** ** trees without attributes *)
Inductive tree : ltree -> pval -> Prop :=
| Tr_data at_ a f : (forall k, at_ k = None) -> a_dt a <> TRef -> length (a_data a) = prod (a_shape a) -> Forall (fun e => exists e', same_elem e e') (a_data a) -> tree (LData at_ a f) (PData a)
| Tr_refs at_ sh f Ts ps : (forall k, at_ k = None) -> length Ts = prod sh -> Forall2 tree Ts ps -> tree (LRefs at_ sh f Ts) (PRefs sh ps)
| Tr_group at_ names Ts ps : (forall k, at_ k = None) -> length names = length Ts -> Forall2 tree Ts ps -> tree (LGroup at_ (combine names Ts)) (PGroup (combine names ps)).
Lemma same_noptr : forall e e', same_elem e' e -> noptr e = e'.
Proof.
  fix go 3. intros e e' H. destruct H as [| | | | | |c c' F]; try reflexivity. cbn [noptr]. f_equal.
  induction F as [|r r' c c' R _ IH]; [reflexivity|]. cbn [map]. f_equal; [|exact IH].
  induction R as [|x x' r r' X _ IHr]; [reflexivity|]. cbn [map]. f_equal; [|exact IHr]. apply go. exact X.
Qed.
Lemma sames_noptr l : Forall (fun e => exists e', same_elem e' e) l -> Forall2 same_elem (map noptr l) l.
Proof. induction 1 as [|e l (e' & S) _ IH]; cbn [map]; constructor; auto. rewrite (same_noptr _ _ S). exact S. Qed.
Lemma sames_left l m : Forall2 same_elem l m -> Forall (fun e => exists e', same_elem e e') l.
Proof. induction 1; constructor; eauto. Qed.

Section Plain.
Variable o : options.
Hypotheses (HM : o_matlab_compatible o = false) (HP : o_store_python_metadata o = false) (HS : o_struct_as_struct o = false) (H2 : o_atleast_2d o = false)
  (HB : o_bytes_utf16 o = false) (HU : o_str_utf16 o = false) (HL : o_bools_uint8 o = false) (HR : o_reverse o = false) (HE : o_shape_empty o = false).

Definition keeps_none (mk : attrs -> attrs) : Prop := forall a k, a k = None -> mk a k = None.
Lemma keeps_marked p : keeps_none (marked o p).
Proof. intros a k N. unfold marked. rewrite HM. unfold del_attr. destruct (eqb_str k h5path); auto. Qed.

Section InFile.
Variables (h : heap) (Q : nat -> Prop).
Hypothesis LQ : forall j, Q j -> live h j = true.
Fixpoint tree_in T p (H : tree T p) {struct H} : forall mk i, rep o h Q mk i T -> plain_in h i p.
Proof.
  destruct H as [at_ a f N D L E|at_ sh f Ts ps N L F|at_ names Ts ps N L F]; intros mk i R.
  - inversion R as [m0 i0 x1 x2 x3 (ob & E1 & E2 & E3)| | |]; subst. eapply Pi_data; eassumption.
  - inversion R as [|m0 i0 x1 x2 x3 js x4 (ob & E1 & E2 & E3) FF| |]; subst.
    eapply Pi_refs with (js := js); [exact E1|exact E3| | |].
    + rewrite <- L. apply (F2_len _ _ _ FF).
    + clear - FF LQ. induction FF as [|j T js Ts [Qj _] _ IH]; constructor; auto.
    + clear - F FF tree_in. revert js FF. induction F as [|T p Ts ps X _ IH]; intros js FF; inversion FF as [|j ? js' ? [_ R'] FF']; subst; constructor; [|apply IH; exact FF']. eapply tree_in; eassumption.
  - inversion R as [| |m0 i0 x1 ls x4 (ob & E1 & E2 & E3) ND KK FF|]; subst. pose proof (F2_len _ _ _ F) as LM.
    assert (M1 : map fst (combine names ps) = names) by (apply combine_fst; congruence).
    assert (M2 : map fst (combine names Ts) = names) by (apply combine_fst; congruence). rewrite M2 in *.
    eapply Pi_group; [exact E1|exact E3|rewrite M1; exact ND|rewrite M1; exact KK|].
    clear - F FF L tree_in. revert names L FF. induction F as [|T p Ts ps X _ IH]; intros [|x names] L FF; cbn in L; try discriminate; cbn [combine] in *; [constructor|].
    inversion FF as [|? ? (j & J1 & J2 & J3) FF']; subst. cbn [fst snd] in *. constructor; [|apply IH; [lia|exact FF']]. exists j. cbn [fst snd]. split; [exact J1|]. eapply tree_in; eassumption.
Qed.
Lemma tree_unadorned T p i : tree T p -> rep o h Q (fun a => a) i T -> (forall j ls, Hdf5.links h j = ls -> NoDup (map fst ls)) ->
  exists P : nat -> Prop, P i /\ (forall j k, P j -> leads h j k -> P k) /\ (forall j, P j -> (Q j \/ j = i) /\ exists ob, h j = Some ob /\ forall k, o_attrs ob k = None).
Proof.
  intros TT RP ND. exists (fun j => (Q j \/ j = i) /\ exists mk T p, keeps_none mk /\ tree T p /\ rep o h Q mk j T). split; [|split].
  - split; [right; reflexivity|]. exists (fun a => a), T, p. split; [intros a k N; exact N|]. auto.
  - intros j k (JQ & mk & TJ & pj & KR & PJ & RJ) (ob & E & LD). destruct PJ as [at_ a f N D L F|at_ sh f Ts ps N L F|at_ names Ts ps N L F].
    + exfalso. inversion RJ as [m0 i0 x1 x2 x3 (ob' & E1 & E2 & E3)| | |]; subst. assert (ob' = ob) by congruence. subst ob'. rewrite E3 in LD. rewrite Forall_forall in F. destruct (F _ LD) as (e' & S). inversion S.
    + inversion RJ as [|m0 i0 x1 x2 x3 js x4 (ob' & E1 & E2 & E3) FF| |]; subst. assert (ob' = ob) by congruence. subst ob'. rewrite E3 in LD. cbn [a_data] in LD. apply in_map_iff in LD. destruct LD as (k' & [= ->] & LD).
      assert (X : exists T p, Q k /\ rep o h Q (marked o (path_comps (o_refs o))) k T /\ tree T p).
      { clear - FF LD F. revert ps F. induction FF as [|x T js l (A1 & A2) _ IH]; intros ps F; [destruct LD|]. inversion F; subst. destruct LD as [->|LD]; [eauto|eauto]. }
      destruct X as (T' & p' & Qk & Rk & Pk). split; [left; exact Qk|]. exists (marked o (path_comps (o_refs o))), T', p'. split; [apply keeps_marked|]. auto.
    + inversion RJ as [| |m0 i0 x1 ls x4 (ob' & E1 & E2 & E3) N1 N2 FF|]; subst. assert (ob' = ob) by congruence. subst ob'. rewrite E3 in LD. apply in_map_iff in LD. destruct LD as ([n k'] & Ek & LD). cbn in Ek. subst k'.
      assert (NL : NoDup (map fst ls)) by (apply (ND j); unfold Hdf5.links; rewrite E, E3; reflexivity).
      assert (X : In n (map fst (combine names Ts))) by (apply N2; apply in_map_iff; exists (n, k); auto). apply in_map_iff in X. destruct X as ([n' T'] & <- & X). rewrite Forall_forall in FF.
      destruct (FF _ X) as (y & A1 & A2 & A3). cbn [fst snd] in *. rewrite (In_assoc _ _ _ NL LD) in A1. injection A1 as <-.
      apply in_combine_r in X. assert (Y : exists p, tree T' p) by (clear - F X; induction F as [|T0 p0 Ts ps H F IH]; [destruct X|destruct X as [->|X]; [eauto|auto]]). destruct Y as (p' & Y).
      split; [left; exact A2|]. exists (marked o (name_of h j)), T', p'. split; [apply keeps_marked|]. auto.
  - intros j (JQ & mk & TJ & pj & KR & PJ & RJ). split; [exact JQ|].
    destruct PJ as [at_ a f N D L F|at_ sh f Ts ps N L F|at_ names Ts ps N L F]; inversion RJ as [m0 i0 x1 x2 x3 (ob & E1 & E2 & E3)|m0 i0 x1 x2 x3 js x4 (ob & E1 & E2 & E3) FF|m0 i0 x1 ls x4 (ob & E1 & E2 & E3) N1 N2 FF|]; subst; exists ob; (split; [exact E1|]); intros k; rewrite E2; apply KR; apply N.
Qed.
End InFile.

(** ** what is stored *)
Lemma attrs_none v ts pre w st k : pre = [] -> fresh_attrs (np_attrs o v ts pre w st) k = None.
Proof.
  intros ->. destruct v as [c a]. assert (X : np_attrs o (c, a) ts [] w st = []); [|rewrite X; reflexivity].
  unfold np_attrs. rewrite HM, HP. cbv zeta. destruct (w || fields_anyway o a), (np_empty a); reflexivity.
Qed.
Lemma dict_none ts plain codes k : fresh_attrs (dict_attrs o ts plain codes) k = None.
Proof. unfold dict_attrs. rewrite HM, HP. cbn [andb]. cbv zeta. destruct codes; reflexivity. Qed.
Lemma prep c a : np_prepare o (c, a) = do b <- (match a_dt a with TUni _ => convert_numpy_str_to_uint32 a | _ => Ok a end); if is_cpx (a_dt b) then encode_complex (o_complex_names o) b else Ok b.
Proof.
  unfold np_prepare. assert (SB : store_bytes o a = a) by (unfold store_bytes; rewrite HB; destruct (a_dt a); reflexivity). rewrite SB.
  unfold store_str. rewrite HU. unfold write_dims. rewrite H2, HR, HL, HE. 
  destruct (a_dt a); cbn [bindr andb]; rewrite ?andb_false_r; try reflexivity.
  destruct (convert_numpy_str_to_uint32 a) as [b|]; cbn [bindr]; rewrite ?andb_false_r; reflexivity.
Qed.
Section Pl.
Variable pl : pyval -> res (option ltree).
Lemma plan_np_eq c a ts : plan_np o pl (c, a) ts =
  (do b <- np_prepare o (c, a);
    if as_group o a (a_dt b) then
      do l <- mapr (plan_field o pl b) (combine (seq 0 (length (struct_fields (a_dt b)))) (struct_fields (a_dt b)));
      Ok (Some (LGroup (fresh_attrs (np_attrs o (c, a) ts [] true None)) (somes l)))
    else plan_data o pl (c, a) ts b).
Proof. unfold plan_np, np_incompatible. rewrite HM. reflexivity. Qed.
Definition data_tree (b : arr pyval) (T : ltree) : Prop := exists at_ f, T = LData at_ (mkArr (stored_dt (a_dt b)) (a_shape b) (map noptr (a_data b))) f /\ forall k, at_ k = None.
Lemma plan_data_eq v ts b r : a_dt b <> TObj -> plan_data o pl v ts b = Ok r -> exists T, r = Some T /\ data_tree b T.
Proof.
  intros D E. assert (X : exists f st, plan_data o pl v ts b = Ok (Some (LData (fresh_attrs (np_attrs o v ts [] false st)) (mkArr (stored_dt (a_dt b)) (a_shape b) (map noptr (a_data b))) f))).
  { unfold plan_data. destruct (a_dt b); try (do 2 eexists; reflexivity). congruence. }
  destruct X as (f & st & X). rewrite X in E. injection E as <-. eexists. split; [reflexivity|]. do 2 eexists. split; [reflexivity|]. intros k. apply attrs_none. reflexivity.
Qed.
Lemma not_group a d : is_struct d = false -> as_group o a d = false.
Proof. intros H. unfold as_group. rewrite H. reflexivity. Qed.
Lemma stored_is d : stored_dt d = stored_type d.
Proof. destruct d as [| | | | |n| | | |]; try reflexivity. destruct n; reflexivity. Qed.
Lemma data_in b T l : data_tree b T -> a_dt b <> TRef -> length (a_data b) = prod (a_shape b) -> map noptr (a_data b) = l -> Forall (fun e => exists e', same_elem e e') l -> tree T (PData (mkArr (stored_type (a_dt b)) (a_shape b) l)).
Proof.
  intros (at_ & f & -> & N) D L <- F. rewrite stored_is. apply Tr_data; auto; cbn [a_dt a_data a_shape].
  - destruct (a_dt b); cbn; congruence.
  - rewrite map_length. exact L.
Qed.
(** numbers and bytes *)
Lemma simple_in c a ts r : simple (a_dt a) -> length (a_data a) = prod (a_shape a) -> Forall (fun e => exists e', same_elem e' e) (a_data a) ->
  plan_np o pl (c, a) ts = Ok r -> exists T l, r = Some T /\ Forall2 same_elem l (a_data a) /\ tree T (PData (mkArr (stored_type (a_dt a)) (a_shape a) l)).
Proof.
  intros S L F E. rewrite plan_np_eq, prep in E.
  assert (X : (do b <- match a_dt a with TUni _ => convert_numpy_str_to_uint32 a | _ => Ok a end; if is_cpx (a_dt b) then encode_complex (o_complex_names o) b else Ok b) = Ok a).
  { destruct (a_dt a) eqn:D; cbn [bindr]; rewrite ?D; try reflexivity; destruct S. }
  rewrite X in E. cbn [bindr] in E. rewrite not_group in E by (destruct (a_dt a); try reflexivity; destruct S).
  apply plan_data_eq in E; [|destruct (a_dt a); try congruence; destruct S]. destruct E as (T & -> & D). pose proof (sames_noptr _ F) as SN.
  exists T, (map noptr (a_data a)). split; [reflexivity|]. split; [exact SN|]. apply data_in; auto; [destruct (a_dt a); try congruence; destruct S|]. exact (sames_left _ _ SN).
Qed.
Lemma complex_in c a w ts r : a_dt a = TC w -> length (a_data a) = prod (a_shape a) -> Forall (fun e => exists x y, e = XCpx x y) (a_data a) ->
  plan_np o pl (c, a) ts = Ok r -> exists T l, r = Some T /\ Forall2 same_complex l (a_data a) /\ tree T (PData (mkArr (complex_type o (w / 2)) (a_shape a) l)).
Proof.
  intros S L F E. rewrite plan_np_eq, prep, S in E. cbn [bindr] in E. rewrite S in E. cbn [is_cpx] in E. unfold encode_complex in E. rewrite S in E.
  destruct (eqb_str _ _); [discriminate E|]. cbn [bindr a_dt] in E. unfold as_group in E. rewrite S in E. cbn [is_cpx negb] in E. rewrite andb_false_r in E. cbn [andb] in E.
  apply plan_data_eq in E; [|discriminate]. destruct E as (T & -> & D). exists T, (map noptr (map encode_elem (a_data a))). split; [reflexivity|].
  assert (SN : Forall2 same_complex (map noptr (map encode_elem (a_data a))) (a_data a)).
  { clear - F. induction F as [|e l (x & y & ->) _ IH]; cbn [map]; constructor; auto. exists x, y. auto. }
  split; [exact SN|]. apply (data_in _ _ _ D); cbn [a_dt a_data a_shape]; auto; [discriminate|rewrite map_length; exact L|].
  clear - SN. induction SN as [|e e' l m (x & y & -> & ->) _ IH]; constructor; auto. exists (XRec [[XFlt x]; [XFlt y]]). repeat constructor.
Qed.
Lemma text_in c a n ts r : a_dt a = TUni n -> length (a_data a) = prod (a_shape a) -> Forall (fun e => exists s, e = XStr s /\ length s <= n) (a_data a) ->
  plan_np o pl (c, a) ts = Ok r -> exists T, r = Some T /\
    ((n * prod (a_shape a) = 0 /\ tree T (PData (mkArr (TU 4) [0] []))) \/
     (n * prod (a_shape a) <> 0 /\ exists rs, Forall2 (fun e r => exists s, e = XStr s /\ r = s ++ repeat 0%N (n - length s)) (a_data a) rs /\
        tree T (PData (mkArr (TU 4) (widen n (a_shape a)) (code_data (concat rs)))))).
Proof.
  intros S L F E. rewrite plan_np_eq, prep, S in E. unfold convert_numpy_str_to_uint32 in E. rewrite S in E. unfold nbytes, size in E. rewrite S in E. cbn [itemsize] in E.
  destruct (Nat.eqb_spec (prod (a_shape a) * (4 * n)) 0) as [Z|NZ].
  - cbn [bindr a_dt is_cpx] in E. rewrite not_group in E by reflexivity. apply plan_data_eq in E; [|discriminate]. destruct E as (T & -> & D). exists T. split; [reflexivity|]. left. split; [nia|].
    apply (data_in _ _ [] D); try reflexivity; [discriminate|constructor].
  - destruct (mapr _ _) as [us|] eqn:M; [|discriminate E]. cbn [bindr a_dt is_cpx] in E. rewrite not_group in E by reflexivity. apply plan_data_eq in E; [|discriminate]. destruct E as (T & -> & D). exists T. split; [reflexivity|]. right. split; [nia|].
    apply mapr_F2 in M. exists (map (pad n) us).
    assert (X : Forall2 (fun e s => e = XStr s /\ length s <= n) (a_data a) us).
    { clear - M F. induction M as [|e s l us E _ IH]; [constructor|]. inversion F as [|? ? (t & -> & H1) H3]; subst. constructor; [|auto]. injection E as <-. auto. }
    split; [clear - X; induction X as [|e s l us (-> & H1) _ IH]; cbn [map]; constructor; auto; exists s; auto|].
    rewrite <- widen_eq, flat_units in D. apply (data_in _ _ _ D); cbn [a_dt a_shape a_data]; [discriminate| | |].
    + unfold units. rewrite map_length, widen_prod, (MatlabPlan.concat_len o n).
      * rewrite map_length, <- L, (F2_len _ _ _ X). reflexivity.
      * clear - X. induction X as [|e s l us (-> & H1) _ IH]; cbn [map]; constructor; auto. apply pad_len. exact H1.
    + unfold units, code_data. rewrite map_map. reflexivity.
    + unfold code_data. rewrite Forall_map. apply Forall_forall. intros x _. eexists. constructor.
Qed.
End Pl.

Definition presents (pl : pyval -> res (option ltree)) : Prop := forall v, writable v -> forall r, pl v = Ok r -> exists T p, r = Some T /\ plain_of o v p /\ tree T p.
Definition unfolds (pl : pyval -> res (option ltree)) : Prop :=
  forall a r, pl (VNp CNdarray a) = Ok r -> exists pl' ts, presents pl' /\ plan_np o pl' (CNdarray, a) ts = Ok r.

(** arrays of objects *)
Lemma elems_in pl l : presents pl -> Forall writable l -> forall Ts, mapr (plan_elem pl) l = Ok Ts -> exists ps, Forall2 (plain_of o) l ps /\ Forall2 tree Ts ps.
Proof.
  intros PP H. induction H as [|v l Hv _ IH]; intros Ts E; cbn [mapr] in E; [injection E as <-; exists []; auto|].
  unfold plan_elem in E at 1. destruct (pl v) as [r|] eqn:V; [|discriminate E]. cbn [bindr] in E. destruct (mapr (plan_elem pl) l) as [Ts'|]; [|discriminate E]. cbn [bindr] in E. injection E as <-.
  destruct (PP v Hv r V) as (T & m & -> & LK & S). destruct (IH Ts' eq_refl) as (ms & M1 & M2). exists (m :: ms). auto.
Qed.
Lemma obj_in pl c a ts l r : presents pl -> a_dt a = TObj -> length (a_data a) = prod (a_shape a) -> a_data a = map XPtr l -> Forall writable l ->
  plan_np o pl (c, a) ts = Ok r -> exists A f Ts ps, r = Some (LRefs A (a_shape a) f Ts) /\ (forall k, A k = None) /\ length Ts = prod (a_shape a) /\ Forall2 (plain_of o) l ps /\ Forall2 tree Ts ps.
Proof.
  intros PP D L EL HL' P. rewrite plan_np_eq, prep, D in P. cbn [bindr] in P. rewrite D in P. cbn [is_cpx bindr] in P. rewrite D in P. rewrite not_group in P by reflexivity.
  unfold plan_data in P. rewrite D in P. rewrite EL, map_map in P. cbn [elem_val] in P. rewrite map_id in P.
  destruct (mapr _ _) as [Ts|] eqn:M; [|discriminate P]. cbn [bindr] in P. set (AA := fresh_attrs _) in P. assert (NA : forall k, AA k = None) by (intros k; apply attrs_none; reflexivity). clearbody AA. injection P as <-.
  destruct (elems_in pl l PP HL' Ts M) as (ps & M1 & M2).
  do 3 eexists. exists ps. split; [reflexivity|]. split; [exact NA|]. split; [|auto].
  rewrite (F2_len _ _ _ M2), <- (F2_len _ _ _ M1), <- L, EL, map_length. reflexivity.
Qed.

(** structured arrays that are Groups *)
Lemma fields_one pl (fs : list (pystr * (dt * list nat))) cols b : presents pl -> prod (a_shape b) = 1 -> a_data b = [XRec cols] ->
  forall k fs' cols', fs' = skipn k fs -> cols' = skipn k cols -> length cols' = length fs' ->
  Forall (fun fc => writable (field_item (fst (snd (fst fc))) (snd (snd (fst fc))) (snd fc))) (combine fs' cols') ->
  forall l, mapr (plan_field o pl b) (combine (seq k (length fs')) fs') = Ok l ->
  exists Ts ms, somes l = combine (map escaped (map fst fs')) Ts /\ length Ts = length fs' /\ Forall2 tree Ts ms /\
    Forall2 (fun fc m => plain_of o (field_item (fst (snd (fst fc))) (snd (snd (fst fc))) (snd fc)) m) (combine fs' cols') ms.
Proof.
  intros PP P1 DB k fs'. revert k. induction fs' as [|[name [d sh]] fs' IH]; intros k cols' E1 E2 L HW l M.
  - cbn in M. injection M as <-. destruct cols'; [|discriminate L]. exists [], []. repeat split; constructor.
  - destruct cols' as [|es cols']; [discriminate L|]. cbn [length seq combine mapr] in M. inversion HW as [|? ? Hp HW']; subst. cbn [fst snd] in Hp.
    destruct (plan_field o pl b (k, (name, (d, sh)))) as [x|] eqn:PF; [|discriminate M]. cbn [bindr] in M. destruct (mapr _ _) as [l'|] eqn:M'; [|discriminate M]. cbn [bindr] in M. injection M as <-.
    assert (S1 : fs' = skipn (S k) fs) by (clear - E1; revert fs E1; induction k as [|k IH]; intros [|x fs] E; cbn in E |- *; try discriminate; [injection E as _ E; exact E|apply IH; exact E]).
    assert (S2 : cols' = skipn (S k) cols) by (clear - E2; revert cols E2; induction k as [|k IH]; intros [|x fs] E; cbn in E |- *; try discriminate; [injection E as _ E; exact E|apply IH; exact E]).
    assert (N2 : nth k cols [] = es) by (clear - E2; revert cols E2; induction k as [|k IH]; intros [|x fs] E; cbn in E |- *; try discriminate; [injection E as E _; congruence|apply IH; exact E]).
    destruct (IH (S k) cols' S1 S2 ltac:(cbn in L; lia) HW' l' M') as (Ts & ms & I1 & I2 & I3 & I4).
    unfold plan_field in PF. rewrite P1 in PF. cbn [Nat.eqb] in PF.
    assert (FV : field_value o b k (d, sh) = field_item d sh es).
    { unfold field_value. rewrite HR, P1, DB. cbn [Nat.eqb]. unfold column. cbn [map a_data a_shape a_dt fst snd]. rewrite N2. reflexivity. }
    rewrite FV in PF. destruct (pl (field_item d sh es)) as [r|] eqn:PL; [|discriminate PF]. cbn [bindr] in PF. injection PF as <-.
    destruct (PP _ Hp r PL) as (T & m & -> & LK & S). cbn [option_map]. rewrite map_attrs_id.
    exists (T :: Ts), (m :: ms). cbn [somes flat_map map fst combine length app]. fold (somes l'). rewrite I1, I2. repeat split; constructor; auto.
Qed.
Lemma fields_many pl b : unfolds pl -> prod (a_shape b) <> 1 -> length (a_data b) = prod (a_shape b) ->
  forall nfs, Forall (fun nf => Forall writable (column (fst nf) (snd (snd nf)) (a_data b))) nfs ->
  forall l, mapr (plan_field o pl b) nfs = Ok l ->
  exists Ts cols, somes l = combine (map (fun nf => escaped (fst (snd nf))) nfs) Ts /\ length Ts = length nfs /\ Forall2 tree Ts cols /\
    Forall2 (fun nf p => exists ps, Forall2 (plain_of o) (column (fst nf) (snd (snd nf)) (a_data b)) ps /\ p = PRefs (a_shape b) ps) nfs cols.
Proof.
  intros UU P1 LD. induction nfs as [|[n [name f]] nfs IH]; intros HW l M.
  - cbn in M. injection M as <-. exists [], []. repeat split; constructor.
  - cbn [mapr] in M. inversion HW as [|? ? Hp HW']; subst. cbn [fst snd] in Hp.
    destruct (plan_field o pl b (n, (name, f))) as [x|] eqn:PF; [|discriminate M]. cbn [bindr] in M. destruct (mapr _ _) as [l'|] eqn:M'; [|discriminate M]. cbn [bindr] in M. injection M as <-.
    destruct (IH HW' l' eq_refl) as (Ts & cols & I1 & I2 & I3 & I4).
    assert (SB : prod (a_shape b) =? 1 = false) by (apply Nat.eqb_neq; exact P1).
    unfold plan_field in PF. rewrite SB in PF.
    assert (FV : field_value o b n f = VNp CNdarray (mkArr TObj (a_shape b) (map XPtr (column n f (a_data b))))) by (unfold field_value; rewrite HR, SB; reflexivity).
    rewrite FV in PF. destruct (pl _) as [r|] eqn:PL; [|discriminate PF]. cbn [bindr] in PF. injection PF as <-.
    destruct (UU _ r PL) as (pl' & ts & PP & PN).
    destruct (obj_in pl' CNdarray (mkArr TObj (a_shape b) (map XPtr (column n f (a_data b)))) ts (column n f (a_data b)) r PP eq_refl) as (A & ff & Ts' & ps & -> & N & C1 & C2 & C3); cbn [a_shape a_data]; auto.
    { unfold column. rewrite !map_length. exact LD. }
    cbn [option_map map_attrs].
    exists (LRefs no_attrs (a_shape b) ff Ts' :: Ts), (PRefs (a_shape b) ps :: cols). cbn [somes flat_map map fst snd combine length app]. fold (somes l'). rewrite I1, I2. repeat split.
    + constructor; [|exact I3]. apply Tr_refs; auto.
    + constructor; [|exact I4]. exists ps. auto.
Qed.
Lemma struct_in pl c a ts fs r : presents pl -> unfolds pl -> a_dt a = TStruct fs -> length (a_data a) = prod (a_shape a) ->
  (needs_group (TStruct fs) \/ Forall (fun e => exists e', same_elem e' e) (a_data a)) ->
  Forall (fun e => exists cols, e = XRec cols /\ length cols = length fs /\
       Forall (fun fc => writable (field_item (fst (snd (fst fc))) (snd (snd (fst fc))) (snd fc))) (combine fs cols)) (a_data a) ->
  plan_np o pl (c, a) ts = Ok r -> exists T p, r = Some T /\ plain_of o (VNp c a) p /\ tree T p.
Proof.
  intros PP UU D L GS HW P. rewrite plan_np_eq, prep, D in P. cbn [bindr] in P. rewrite D in P. cbn [is_cpx bindr] in P.
  assert (AG : as_group o a (a_dt a) = has_object (TStruct fs) || has_null (TStruct fs) || has_zero_shape (TStruct fs)) by (unfold as_group; rewrite D, HS; reflexivity).
  rewrite AG in P. clear AG. destruct (has_object (TStruct fs) || has_null (TStruct fs) || has_zero_shape (TStruct fs)) eqn:G.
  - apply group_iff in G. rewrite D in P. cbn [struct_fields] in P.
    destruct (mapr _ _) as [l|] eqn:M; [|discriminate P]. cbn [bindr] in P. set (AA := fresh_attrs _) in P. assert (NA : forall k, AA k = None) by (intros k; apply attrs_none; reflexivity). clearbody AA. injection P as <-.
    assert (LF : length (map escaped (map fst fs)) = length fs) by (rewrite !map_length; reflexivity).
    destruct (Nat.eq_dec (prod (a_shape a)) 1) as [O|O].
    + rewrite O in L. destruct (a_data a) as [|e [|]] eqn:DA; try discriminate L. inversion HW as [|? ? (cols & -> & LC & HC') _]; subst.
      destruct (fields_one pl fs cols a PP O DA 0 fs cols eq_refl eq_refl LC HC' l M) as (Ts & ms & S1 & S2 & S3 & S4).
      eexists. eexists. split; [reflexivity|]. split; [apply (Po_record o c a fs cols ms D G O DA S4)|]. rewrite S1. apply Tr_group; auto; congruence.
    + assert (CF : Forall (fun nf : nat * (pystr * (dt * list nat)) => Forall writable (column (fst nf) (snd (snd nf)) (a_data a))) (combine (seq 0 (length fs)) fs)).
      { apply Forall_forall. intros [n [name f]] Hn. cbn [fst snd]. unfold column. rewrite Forall_map. rewrite Forall_forall in HW |- *.
        intros e He. destruct (HW e He) as (cols & -> & LC & HC'). rewrite Forall_forall in HC'.
        assert (NF : nth_error fs n = Some (name, f)).
        { clear - Hn. assert (G : forall k, In (n, (name, f)) (combine (seq k (length fs)) fs) -> k <= n /\ nth_error fs (n - k) = Some (name, f)).
          { clear Hn. induction fs as [|x fs IH]; intros k H; cbn [length seq combine In] in H; [destruct H|]. destruct H as [H|H]; [injection H as -> ->; rewrite Nat.sub_diag; auto|].
            specialize (IH _ H). clear H. rename IH into H. destruct H as [H1 H2]. split; [lia|]. replace (n - k) with (S (n - S k)) by lia. exact H2. }
          destruct (G 0 Hn) as [_ G']. rewrite Nat.sub_0_r in G'. exact G'. }
        assert (NL : n < length cols) by (rewrite LC; apply nth_error_Some; congruence).
        assert (NC : nth_error cols n = Some (nth n cols [])) by (apply nth_error_nth'; exact NL).
        apply (HC' ((name, f), nth n cols [])). clear - NF NC. revert cols n NF NC. generalize (@nil (elem pyval)) as d0. intros d0 cols n. revert cols. induction fs as [|x fs IH] in n |- *; intros [|y cols] NF NC; destruct n; try discriminate; cbn in *.
        - injection NF as ->. auto.
        - right. apply IH; auto. }
      destruct (fields_many pl a UU O L _ CF l M) as (Ts & cols & S1 & S2 & S3 & S4).
      assert (NM : map (fun nf : nat * (pystr * (dt * list nat)) => escaped (fst (snd nf))) (combine (seq 0 (length fs)) fs) = map escaped (map fst fs)).
      { rewrite map_map. rewrite <- (combine_snd (seq 0 (length fs)) fs) at 3 by apply seq_length. rewrite map_map. reflexivity. }
      rewrite NM in S1. rewrite combine_length, seq_length, Nat.min_id in S2.
      eexists. eexists. split; [reflexivity|]. split; [apply (Po_records o c a fs cols D G O)|].
      * clear - S4 HW. induction S4 as [|nf col nfs cols (ms & H1 & H3) _ IH]; constructor; [|exact IH]. exists (column (fst nf) (snd (snd nf)) (a_data a)), ms.
        split; [|split; [exact H1|exact H3]]. clear - HW. induction HW as [|e l (cs & -> & _) _ IH]; cbn [column map]; constructor; [|exact IH]. exists cs. auto.
      * rewrite S1. apply Tr_group; auto; congruence.
  - assert (NG : ~ needs_group (TStruct fs)) by (intros X; apply group_iff in X; congruence). destruct GS as [GS|GS]; [contradiction|].
    apply plan_data_eq in P; [|congruence]. destruct P as (T & -> & DT). pose proof (sames_noptr _ GS) as SN.
    exists T, (PData (mkArr (TStruct fs) (a_shape a) (map noptr (a_data a)))). split; [reflexivity|]. split; [apply Po_compound; auto|].
    replace (TStruct fs) with (stored_type (a_dt a)) by (rewrite D; reflexivity). apply data_in; auto; [congruence|]. exact (sames_left _ _ SN).
Qed.

(** dicts *)
Lemma items_in pl vs : presents pl -> Forall writable vs -> forall names l, length names = length vs -> mapr (plan_item pl) (combine names vs) = Ok l ->
  exists Ts ms, somes l = combine names Ts /\ length names = length Ts /\ Forall2 tree Ts ms /\ Forall2 (plain_of o) vs ms.
Proof.
  intros PP H. induction H as [|v vs Hv _ IH]; intros [|x names] l L M; try discriminate L.
  - cbn in M. injection M as <-. exists [], []. repeat split; constructor.
  - cbn [combine mapr] in M. unfold plan_item in M at 1. cbn [fst snd] in M. destruct (pl v) as [r|] eqn:V; [|discriminate M]. cbn [bindr] in M.
    destruct (mapr (plan_item pl) (combine names vs)) as [l'|] eqn:M'; [|discriminate M]. cbn [bindr] in M. injection M as <-.
    destruct (IH names l' ltac:(cbn in L; lia) M') as (Ts & ms & I1 & I2 & I3 & I4). destruct (PP v Hv r V) as (T & m & -> & LK & S).
    exists (T :: Ts), (m :: ms). cbn [option_map somes flat_map combine length app]. fold (somes l'). rewrite I1, I2. repeat split; constructor; auto.
Qed.
Lemma texts_in pl items ts plain texts r : presents pl -> Forall2 key_text (map fst items) texts -> Forall writable (map snd items) -> plan_dict o pl items ts plain = Ok r ->
  exists T ps, r = Some T /\ Forall2 (plain_of o) (map snd items) ps /\ tree T (PGroup (combine (map escaped texts) ps)).
Proof.
  intros PP HT HW P. destruct (key_codes_texts _ _ HT) as (cs & C1 & C2 & _). unfold plan_dict in P. rewrite C1 in P.
  replace (map (fun c : N * pystr => escaped (snd c)) cs) with (map escaped texts) in * by (rewrite <- C2, map_map; reflexivity).
  destruct (mapr _ _) as [l|] eqn:M; [|discriminate P]. cbn [bindr] in P. set (AA := fresh_attrs _) in P. assert (NA : forall k, AA k = None) by (intros k; apply dict_none). clearbody AA. injection P as <-.
  destruct (items_in pl _ PP HW (map escaped texts) l) as (Ts & ms & I1 & I2 & I3 & I4); [rewrite map_length, <- (F2_len _ _ _ HT), !map_length; reflexivity|exact M|].
  eexists. exists ms. split; [reflexivity|]. split; [exact I4|]. rewrite I1. apply Tr_group; auto.
Qed.
Lemma others_in pl items ts plain r : presents pl -> Exists not_text (map fst items) -> Forall writable (map fst items) -> Forall writable (map snd items) ->
  plan_dict o pl items ts plain = Ok r -> exists T pk pv, r = Some T /\ Forall2 (plain_of o) (map fst items) pk /\ Forall2 (plain_of o) (map snd items) pv /\
  tree T (PGroup [(o_keys_name o, PRefs [length items] pk); (o_values_name o, PRefs [length items] pv)]).
Proof.
  intros PP HT H1 H2' P. unfold plan_dict in P. rewrite (key_codes_other _ HT) in P.
  destruct (mapr _ _) as [l|] eqn:M; [|discriminate P]. cbn [bindr] in P. set (AA := fresh_attrs _) in P. assert (NA : forall k, AA k = None) by (intros k; apply dict_none). clearbody AA. injection P as <-.
  change [(o_keys_name o, VSeq QTuple (map fst items)); (o_values_name o, VSeq QTuple (map snd items))] with (combine [o_keys_name o; o_values_name o] [VSeq QTuple (map fst items); VSeq QTuple (map snd items)]) in M.
  destruct (items_in pl [VSeq QTuple (map fst items); VSeq QTuple (map snd items)] PP ltac:(constructor; [apply Wr_seq; assumption|constructor; [apply Wr_seq; assumption|constructor]]) [o_keys_name o; o_values_name o] l eq_refl M) as (Ts & ms & I1 & I2 & I3 & I4).
  inversion I4 as [|? m1 ? ms1 K1 K1']; subst. inversion K1' as [|? m2 ? ms2 K2 K2']; subst. inversion K2'; subst.
  assert (X : forall l m, plain_of o (VSeq QTuple l) m -> exists ms, m = PRefs [length l] ms /\ Forall2 (plain_of o) l ms).
  { clear. intros l m H. inversion H; subst; [match goal with X : _ \/ _ |- _ => destruct X as [X|[X|X]]; discriminate X end|match goal with X : _ \/ _ \/ _ |- _ => destruct X as [X|[X|(? & X & _)]]; discriminate X end|]. eauto. }
  destruct (X _ _ K1) as (mk & -> & L1). destruct (X _ _ K2) as (mv & -> & L2). rewrite !map_length in *.
  eexists. exists mk, mv. split; [reflexivity|]. split; [exact L1|]. split; [exact L2|]. rewrite I1.
  exact (Tr_group AA [o_keys_name o; o_values_name o] Ts _ NA I2 I3).
Qed.

(** ** every value *)
Lemma one_simple pl c a ts r d e : a = mkArr d [] [e] -> simple d -> (exists e', same_elem e' e) -> plan_np o pl (c, a) ts = Ok r ->
  exists T e', r = Some T /\ same_elem e' e /\ tree T (PData (mkArr (stored_type d) [] [e'])).
Proof.
  intros -> S X P. destruct (simple_in pl c (mkArr d [] [e]) ts r S eq_refl ltac:(constructor; [exact X|constructor]) P) as (T & l & -> & F & TT). cbn [a_data a_dt a_shape] in *.
  inversion F as [|e' ? l' ? SE F']; subst. inversion F'; subst. eauto.
Qed.
Lemma chop s : chopped s (strip0 s).
Proof.
  split; [|apply strip0_decomp]. induction s as [|c s IH] using rev_ind; [cbn; discriminate|]. destruct (N.eq_dec c 0) as [->|N].
  - change [0%N] with (repeat 0%N 1). rewrite strip0_app_zeros. exact IH.
  - rewrite strip0_nz by exact N. rewrite last_last. exact N.
Qed.
Lemma bytes_in pl c s ts r : plan_np o pl (c, np_bytes s) ts = Ok r -> exists T t, r = Some T /\ chopped s t /\ tree T (PData (mkArr (TS (Nat.max 1 (length s))) [] [XBytes t])).
Proof.
  intros P. destruct (one_simple pl c _ ts r (TS (length s)) (XBytes (strip0 s)) eq_refl I (ex_intro _ _ (Sm_bytes _)) P) as (T & e & -> & S & TT). inversion S; subst.
  exists T, (strip0 s). split; [reflexivity|]. split; [apply chop|exact TT].
Qed.
Lemma plan_value_in pl : presents pl -> unfolds pl -> presents (plan_value o pl).
Proof.
  intros PP UU v HW r P.
  assert (NONE : forall ts, plan_np o pl (CNdarray, none_array) ts = Ok r -> exists T, r = Some T /\ tree T (PData (mkArr (TF 8) [0] []))).
  { intros ts X. destruct (simple_in pl CNdarray none_array ts r I eq_refl ltac:(constructor) X) as (T & l & -> & F & TT). inversion F; subst. eauto. }
  destruct HW as [v A|c a S L F|c a w D L F|c a n D L F|c a l D L E F|c a fs D L ND GS F|k l F|k l texts K ND F|k l K F1 F2|k fs LF F]; cbn [plan_value] in P.
  - destruct v; try destruct A; cbn [plan_value] in P.
    + destruct (NONE _ P) as (T & -> & S). exists T. eexists. split; [reflexivity|]. split; [|exact S]. apply Po_nothing. auto.
    + destruct (NONE _ P) as (T & -> & S). exists T. eexists. split; [reflexivity|]. split; [|exact S]. apply Po_nothing. auto.
    + destruct (NONE _ P) as (T & -> & S). exists T. eexists. split; [reflexivity|]. split; [|exact S]. apply Po_nothing. auto.
    + destruct (one_simple pl _ _ _ r TBool (XBool b) eq_refl I (ex_intro _ _ (Sm_bool b)) P) as (T & e & -> & S & TT). inversion S; subst. exists T. eexists. split; [reflexivity|]. split; [|exact TT]. constructor.
    + unfold int_array in P. destruct (_ && _) eqn:FT.
      * destruct (one_simple pl _ _ _ r (TI 8) (XInt z) eq_refl I (ex_intro _ _ (Sm_int z)) P) as (T & e & -> & S & TT). inversion S; subst. exists T. eexists. split; [reflexivity|]. split; [|exact TT].
        apply Po_int. apply andb_true_iff in FT. unfold fits. cbn. lia.
      * destruct (bytes_in pl _ _ _ r P) as (T & t & -> & C & TT). exists T. eexists. split; [reflexivity|]. split; [|exact TT].
        pose proof (show_Z_ascii z) as SA. pose proof (show_Z_nonempty z) as SN.
        assert (t = show_Z z).
        { destruct C as (C1 & k & C2). destruct k as [|k]; [cbn in C2; rewrite app_nil_r in C2; auto|]. exfalso. rewrite C2 in SA. apply Forall_app in SA. destruct SA as [_ SA]. cbn in SA. inversion SA as [|? ? B _]; subst. lia. }
        subst t. replace (Nat.max 1 (length (show_Z z))) with (length (show_Z z)) by (destruct (show_Z z); [congruence|cbn; lia]).
        apply Po_bigint. apply andb_false_iff in FT. unfold fits. cbn. lia.
    + destruct (one_simple pl _ _ _ r (TF 8) (XFlt bits) eq_refl I (ex_intro _ _ (Sm_flt bits)) P) as (T & e & -> & S & TT). inversion S; subst. exists T. eexists. split; [reflexivity|]. split; [|exact TT]. constructor.
    + destruct (complex_in pl _ (mkArr (TC 16) [] [XCpx re im]) 16 _ r eq_refl eq_refl ltac:(repeat constructor; eauto) P) as (T & l & -> & S & TT). cbn [a_data a_shape] in *.
      inversion S as [|e ? l' ? (x & y & -> & E) S']; subst. inversion S'; subst. injection E as <- <-. exists T. eexists. split; [reflexivity|]. split; [|exact TT]. apply Po_complex.
    + destruct (text_in pl _ (np_str s) (length s) _ r eq_refl eq_refl ltac:(constructor; [exists (strip0 s); split; [reflexivity|apply strip0_len]|constructor]) P) as (T & -> & [(Z & TT)|(Z & rs & RS & TT)]).
      * cbn [np_str a_shape] in Z. unfold prod in Z. cbn in Z. destruct s; [|cbn in Z; lia]. exists T. eexists. split; [reflexivity|]. split; [|exact TT]. apply (Po_str o []).
      * exists T. eexists. split; [reflexivity|]. split; [|exact TT]. cbn [np_str a_data a_shape widen] in *. inversion RS as [|? x ? ? (t & E & ->) R2]; subst. inversion R2; subst. injection E as <-. cbn [concat]. rewrite app_nil_r.
        fold (pad (length s) (strip0 s)). rewrite pad_strip0. apply Po_str.
    + destruct (bytes_in pl _ _ _ r P) as (T & t & -> & C & TT). exists T. eexists. split; [reflexivity|]. split; [|exact TT]. eapply Po_bytes; eauto.
    + destruct (bytes_in pl _ _ _ r P) as (T & t & -> & C & TT). exists T. eexists. split; [reflexivity|]. split; [|exact TT]. eapply Po_bytes; eauto.
    + destruct (utf8_encode _) as [b|] eqn:U; [|discriminate P]. cbn [bindr] in P. destruct (bytes_in pl _ _ _ r P) as (T & t & -> & C & TT). exists T. eexists. split; [reflexivity|]. split; [|exact TT]. eapply Po_bytes; eauto.
    + discriminate P.
  - destruct (simple_in pl c a _ r S L F P) as (T & l & -> & SE & TT). exists T. eexists. split; [reflexivity|]. split; [|exact TT]. apply Po_np; auto.
  - destruct (complex_in pl c a w _ r D L F P) as (T & l & -> & SE & TT). exists T. eexists. split; [reflexivity|]. split; [|exact TT]. apply Po_np_complex; auto.
  - destruct (text_in pl c a n _ r D L F P) as (T & -> & [(Z & TT)|(Z & rs & RS & TT)]); exists T; eexists; (split; [reflexivity|]); (split; [|exact TT]).
    + eapply Po_no_text; eauto.
    + eapply Po_text; eauto.
  - destruct (obj_in pl c a _ l r PP D L E F P) as (A & f & Ts & ps & -> & N & L' & PO & TT). eexists. eexists. split; [reflexivity|]. split; [eapply Po_objects; eauto|]. apply Tr_refs; auto.
  - eapply struct_in; eauto.
  - destruct (obj_in pl CNdarray (obj_array l) (seq_type k) l r PP eq_refl) as (A & f & Ts & ps & -> & N & L' & PO & TT); auto.
    { cbn [obj_array a_data a_shape]. rewrite map_length. unfold prod. cbn. lia. }
    eexists. eexists. split; [reflexivity|]. split; [eapply Po_seq; eauto|]. apply Tr_refs; auto.
  - destruct (texts_in pl l _ _ texts r PP K F P) as (T & ms & -> & LK & S). exists T. eexists. split; [reflexivity|]. split; [|exact S]. apply Po_dict; auto.
  - destruct (others_in pl l _ _ r PP K F1 F2 P) as (T & mk & mv & -> & LK1 & LK2 & S). exists T. eexists. split; [reflexivity|]. split; [|exact S]. apply Po_dict_other; auto.
  - set (names := firstn (length fs) (rec_fields k)). destruct (rec_texts k (length fs)) as (T1 & T2 & T3). fold names in T1, T2, T3.
    assert (LN : length names = length fs) by (unfold names; rewrite firstn_length; rewrite names_rec in *; lia).
    assert (RI : rec_items k fs = combine (map VStr names) fs) by (unfold rec_items, names; rewrite <- firstn_map, firstn_combine_l; reflexivity).
    rewrite RI in P. destruct (texts_in pl (combine (map VStr names) fs) (rec_type k) true names r PP) as (T & ms & -> & LK & S).
    { rewrite combine_fst by (rewrite map_length; exact LN). exact T1. }
    { rewrite combine_snd by (rewrite map_length; exact LN). exact F. }
    { exact P. }
    rewrite combine_snd in LK by (rewrite map_length; exact LN). exists T. eexists. split; [reflexivity|].
    assert (EN : map escaped names = names).
    { assert (FA : Forall (fun t => escaped t = t) names) by (unfold names; apply Forall_firstn'; destruct k; repeat constructor; vm_compute; reflexivity).
      clear - FA. induction FA as [|t l H _ IH]; cbn [map]; congruence. }
    rewrite EN in S. split; [|exact S]. apply Po_rec; auto. exists (skipn (length fs) (rec_fields k)). rewrite names_rec. symmetry. apply firstn_skipn.
Qed.
Lemma plan_in n : presents (plan o n) /\ unfolds (plan o n).
Proof.
  induction n as [|n [I1 I2]]; split.
  - intros v _ r P. discriminate P.
  - intros a r P. discriminate P.
  - apply plan_value_in; assumption.
  - intros a r P. cbn [plan plan_value] in P. eauto.
Qed.
End Plain.
