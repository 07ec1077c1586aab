From Verif Require Import Base PathEsc PosixPath PosixFacts ProcessPath ProcessPathFacts Unicode Dec NdArray Value OptionsM StrConv ComplexM Attrs NpDims Hdf5 HeapFacts NpWrite NpRead MarshalW MarshalR FrameFacts WriteFrame ReadFacts RoundSpec RoundNp RoundHeap RoundDict FileApi ApiFacts ApiSpec FileFacts HistoryFacts ProgressSpec Progress ProgressApi RndFacts Plan Layout LayoutNp LayoutApi PathEscFacts MatlabFacts IncompatSpec.
Local Open Scope nat_scope.

Lemma mapM_each {A B} (f : A -> M B) l : forall s s' ys, mapM f l s = (s', Ok ys) -> forall x, In x l -> exists s1 s2 y, f x s1 = (s2, Ok y).
Proof.
  induction l as [|a l IH]; intros s s' ys E x H; [destruct H|]. cbn [mapM] in E. apply bind_ok in E. destruct E as (s1 & y & E1 & E).
  destruct H as [<-|H]; [eauto|]. apply bind_ok in E. destruct E as (s2 & zs & E2 & _). eapply IH; eassumption.
Qed.
Lemma iterM_each {A} (f : A -> M unit) l : forall s s' u, iterM f l s = (s', Ok u) -> forall x, In x l -> exists s1 s2 y, f x s1 = (s2, Ok y).
Proof.
  induction l as [|a l IH]; intros s s' ys E x H; [destruct H|]. cbn [iterM] in E. apply bind_ok in E. destruct E as (s1 & y & E1 & E).
  destruct H as [<-|H]; [eauto|]. eapply IH; eassumption.
Qed.
Lemma tr_in {A} (a : arr A) e : wf_arr a -> In e (a_data a) -> In e (a_data (tr a)).
Proof. intros W H. rewrite <- (tr_tr a W) in H. unfold tr in H at 1. cbn [a_data] in H. apply transpose_in in H. exact H. Qed.
Lemma dims_all {A} o (a : arr A) e : wf_arr a -> In e (a_data a) -> In e (a_data (write_dims o a)).
Proof.
  intros W H. unfold write_dims. assert (W1 : wf_arr (if o_atleast_2d o then reshape (atleast_2d (a_shape a)) a else a)).
  { destruct (o_atleast_2d o); [|exact W]. unfold wf_arr in *. cbn [reshape a_data a_shape]. rewrite W. symmetry. apply atleast_2d_prod. }
  assert (H1 : In e (a_data (if o_atleast_2d o then reshape (atleast_2d (a_shape a)) a else a))) by (destruct (o_atleast_2d o); exact H).
  destruct (o_reverse o); [apply tr_in; assumption|exact H1].
Qed.
Lemma prep_all o c a b e : np_prepare o (c, a) = Ok b -> (a_dt a = TObj \/ is_struct (a_dt a) = true) -> wf_arr a -> In e (a_data a) -> b = write_dims o a /\ In e (a_data b).
Proof.
  intros E D W H.
  assert (NE : np_empty a = false).
  { unfold np_empty. unfold wf_arr in W. unfold size. replace (is_strdt (a_dt a)) with false by (destruct D as [D|D]; destruct (a_dt a); try discriminate; reflexivity).
    rewrite <- W. destruct (a_data a); [destruct H|]. reflexivity. }
  assert (X : b = write_dims o a).
  { unfold np_prepare in E. rewrite NE, andb_false_r in E. unfold store_bytes in E.
    assert (Y : (do b2 <- store_str o c a; let b3 := write_dims o b2 in
       let b4 := if dt_eqb (a_dt b3) TBool && o_bools_uint8 o then mkArr (TU 1) (a_shape b3) (map bool_to_u8 (a_data b3)) else b3 in
       if is_cpx (a_dt b4) then encode_complex (o_complex_names o) b4 else Ok b4) = Ok b).
    { destruct D as [D|D]; destruct (a_dt a); try discriminate; exact E. }
    assert (Z : store_str o c a = Ok a) by (unfold store_str; destruct D as [D|D]; destruct (a_dt a); try discriminate; reflexivity).
    rewrite Z in Y. cbn [bindr] in Y. cbv zeta in Y. rewrite write_dims_dt in Y.
    destruct D as [D|D]; destruct (a_dt a) eqn:Ed; try discriminate; cbn [dt_eqb andb] in Y; rewrite write_dims_dt, Ed in Y; cbn [is_cpx] in Y; congruence. }
  split; [exact X|]. rewrite X. apply dims_all; assumption.
Qed.
Lemma dims_wf {A} o (a : arr A) : wf_arr a -> wf_arr (write_dims o a).
Proof.
  intros W. unfold write_dims. assert (W1 : wf_arr (if o_atleast_2d o then reshape (atleast_2d (a_shape a)) a else a)).
  { destruct (o_atleast_2d o); [|exact W]. unfold wf_arr in *. cbn [reshape a_data a_shape]. rewrite W. symmetry. apply atleast_2d_prod. }
  destruct (o_reverse o); [apply tr_wf|]; exact W1.
Qed.
Lemma codes_len ks cs : key_codes ks = Some cs -> length cs = length ks.
Proof. revert cs. induction ks as [|k ks IH]; intros cs E; cbn [key_codes] in E; [injection E as <-; reflexivity|]. destruct (key_code k); [|discriminate]. destruct (key_codes ks); [|discriminate]. injection E as <-. cbn. rewrite (IH l); reflexivity. Qed.
Lemma in_combine_r' {A B} (ys : list B) y : forall (xs : list A), In y ys -> length ys <= length xs -> exists x, In (x, y) (combine xs ys).
Proof.
  induction ys as [|z ys IH]; intros xs H L; [destruct H|]. destruct xs as [|x xs]; [cbn in L; lia|]. cbn [combine].
  destruct H as [->|H]; [exists x; left; reflexivity|]. destruct (IH xs H) as (x' & X); [cbn in L; lia|]. exists x'. right. exact X.
Qed.
Lemma nth_combine {A B} (ys : list B) y : forall (xs : list A) i, nth_error ys i = Some y -> i < length xs -> exists x, In (x, y) (combine xs ys).
Proof.
  induction ys as [|z ys IH]; intros xs i H L; [destruct i; discriminate|]. destruct xs as [|x xs]; [cbn in L; lia|]. cbn [combine].
  destruct i as [|i]; [injection H as ->; exists x; left; reflexivity|]. destruct (IH xs i H) as (x' & X); [cbn in L; lia|]. exists x'. right. exact X.
Qed.
Lemma no_class_incompatible o a : o_matlab_compatible o = true -> no_class (a_dt a) -> np_incompatible o a = true.
Proof.
  intros M N. unfold np_incompatible. rewrite M. destruct (a_dt a) as [| | |w|w| | | | |]; try destruct N; cbn [is_struct andb negb]; 
    do 17 (destruct w as [|w]; [try reflexivity; congruence|]); reflexivity.
Qed.

Section Error.
Variables (o : options) (rnd : nat -> N) (tries : nat).
Hypotheses (HM : o_matlab_compatible o = true) (HE : o_action o = lit "error").
Section Wr.
Variable wr : nat -> pystr -> pyval -> M (option nat).
Definition fine (v : pyval) : Prop := forall c a, no_class (a_dt a) -> ~ within (VNp c a) v.
Hypothesis Hwr : forall g nm v s s' r, wr g nm v s = (s', Ok r) -> fine v.
Lemma np_fine g nm c a ts s s' r : np_write o rnd tries wr g nm (c, a) ts s = (s', Ok r) ->
  ~ no_class (a_dt a) /\ (forall x, a_dt a = TObj -> wf_arr a -> In (XPtr x) (a_data a) -> fine x) /\
  (forall fs n name d sh cols, a_dt a = TStruct fs -> wf_arr a -> In (XRec cols) (a_data a) -> nth_error fs n = Some (name, (d, sh)) -> fine (field_item d sh (nth n cols []))).
Proof.
  intros E. unfold np_write in E. rewrite HE in E. replace (eqb_str (lit "error") (lit "error")) with true in E by reflexivity.
  destruct (np_incompatible o a) eqn:NI; [discriminate E|]. cbn [andb] in E.
  apply bind_ok in E. destruct E as (s1 & b & E1 & E). apply lift_ok in E1. destruct E1 as [-> E1]. split; [|split].
  - intros N. rewrite (no_class_incompatible o a HM N) in NI. discriminate.
  - intros x D W H. destruct (prep_all o c a b _ E1 (or_introl D) W H) as [-> Hb]. pose proof (write_dims_dt o a) as DB. rewrite D in DB.
    unfold as_group in E. rewrite DB in E. cbn [is_struct andb] in E.
    apply bind_ok in E. destruct E as (s2 & d & E2 & _). unfold write_object_array in E2.
    apply bind_ok in E2. destruct E2 as (s3 & g' & _ & E2). apply bind_ok in E2. destruct E2 as (s4 & c' & _ & E2).
    apply bind_ok in E2. destruct E2 as (s5 & refs & E2 & _).
    destruct (mapM_each _ _ _ _ _ E2 x) as (t1 & t2 & y & E3).
    { apply in_map_iff. exists (XPtr x). split; [reflexivity|exact Hb]. }
    unfold write_element in E3. apply bind_ok in E3. destruct E3 as (t3 & nm' & _ & E3). apply bind_ok in E3. destruct E3 as (t4 & r' & E3 & _).
    eapply Hwr. exact E3.
  - intros fs n name d sh cols D W H HN.
    assert (D' : is_struct (a_dt a) = true) by (rewrite D; reflexivity).
    destruct (prep_all o c a b _ E1 (or_intror D') W H) as [-> Hb]. pose proof (write_dims_dt o a) as DB. rewrite D in DB.
    assert (SS : o_struct_as_struct o = true).
    { unfold np_incompatible in NI. rewrite HM, D in NI. cbn [matlab_class_of is_struct andb orb] in NI. apply negb_false_iff in NI. exact NI. }
    unfold as_group in E. rewrite DB, D, SS in E. cbn [is_struct is_cpx andb negb orb] in E.
    apply bind_ok in E. destruct E as (s2 & i & E2 & _). unfold write_struct in E2. rewrite DB in E2. cbn [struct_fields] in E2.
    apply bind_ok in E2. destruct E2 as (s3 & i' & _ & E2). apply bind_ok in E2. destruct E2 as (s4 & u & _ & E2).
    apply bind_ok in E2. destruct E2 as (s5 & u' & E2 & _).
    assert (IN : In (n, (name, (d, sh))) (combine (seq 0 (length fs)) fs)).
    { clear - HN. assert (G : forall k, In (k + n, (name, (d, sh))) (combine (seq k (length fs)) fs)); [|apply (G 0)].
      revert n HN. induction fs as [|f fs IH]; intros n HN k; [destruct n; discriminate|]. cbn [length seq combine].
      destruct n as [|n]; [injection HN as ->; left; rewrite Nat.add_0_r; reflexivity|]. right. rewrite Nat.add_succ_r. apply (IH n HN (S k)). }
    destruct (iterM_each _ _ _ _ _ E2 _ IN) as (t1 & t2 & y & E3). unfold write_field in E3.
    apply bind_ok in E3. destruct E3 as (t3 & r' & E3 & _). apply Hwr in E3. clear E2.
    set (b := write_dims o a) in *. assert (WB : wf_arr b) by (apply dims_wf; exact W).
    set (x := field_item d sh (nth n cols [])) in *.
    assert (WC : wf_arr (mkArr TObj (a_shape b) (map XPtr (column n (d, sh) (a_data b))))).
    { unfold wf_arr, column in *. cbn [a_data a_shape]. rewrite !map_length. exact WB. }
    assert (IC : In (XPtr x) (map XPtr (column n (d, sh) (a_data b)))).
    { apply in_map. unfold column. apply in_map_iff. exists (XRec cols). split; [reflexivity|exact Hb]. }
    set (col := mkArr TObj (a_shape b) (map XPtr (column n (d, sh) (a_data b)))) in *.
    assert (WC' : wf_arr (if o_reverse o then tr col else col)) by (destruct (o_reverse o); [apply tr_wf|]; exact WC).
    assert (IC' : In (XPtr x) (a_data (if o_reverse o then tr col else col))) by (destruct (o_reverse o); [apply tr_in; [exact WC|]|]; exact IC).
    assert (DC : a_dt (if o_reverse o then tr col else col) = TObj) by (destruct (o_reverse o); reflexivity).
    assert (LC : length (a_data (if o_reverse o then tr col else col)) = prod (a_shape b)).
    { rewrite WC'. destruct (o_reverse o); cbn [tr a_shape]; [apply prod_rev|reflexivity]. }
    destruct (prod (a_shape b) =? 1) eqn:P1.
    + apply Nat.eqb_eq in P1. rewrite P1 in LC. destruct (a_data (if o_reverse o then tr col else col)) as [|e [|]]; try discriminate LC. destruct IC' as [-> |[]]. exact E3.
    + intros c' a' N' I. apply (E3 c' a' N'). eapply In_cell; eauto.
Qed.
Lemma dict_fine g nm items ts plain s s' r : dict_write o wr g nm items ts plain s = (s', Ok r) ->
  (forall kx x, In (kx, x) items -> fine x) /\ (Exists not_text (map fst items) -> forall kx x, In (kx, x) items -> fine kx).
Proof.
  intros E. unfold dict_write in E. apply bind_ok in E. destruct E as (s1 & i & _ & E). apply bind_ok in E. destruct E as (s2 & u & _ & E).
  apply bind_ok in E. destruct E as (s3 & u3 & _ & E). apply bind_ok in E. destruct E as (s4 & p & _ & E). apply bind_ok in E. destruct E as (s5 & u5 & _ & E).
  apply bind_ok in E. destruct E as (s6 & u6 & E & _).
  assert (K : forall kv, In kv match key_codes (map fst items) with
                          | None => [(o_keys_name o, VSeq QTuple (map fst items)); (o_values_name o, VSeq QTuple (map snd items))]
                          | Some cs => combine (map (fun c => escaped (snd c)) cs) (map snd items)
                          end -> fine (snd kv)).
  { intros kv H. destruct (iterM_each _ _ _ _ _ E kv H) as (t1 & t2 & y & E3). unfold write_item in E3. apply bind_ok in E3. destruct E3 as (t3 & r' & E3 & _). eapply Hwr. exact E3. }
  clear E. split.
  - intros kx x H. destruct (key_codes (map fst items)) as [cs|] eqn:KC.
    + destruct (in_combine_r' (map snd items) x (map (fun c => escaped (snd c)) cs)) as (k & Hk).
      { apply in_map_iff. exists (kx, x). auto. }
      { rewrite !map_length. apply codes_len in KC. rewrite map_length in KC. lia. }
      exact (K _ Hk).
    + intros c a N I. apply (K (o_values_name o, VSeq QTuple (map snd items)) (or_intror (or_introl eq_refl)) c a N). eapply In_seq; [|exact I]. apply in_map_iff. exists (kx, x). auto.
  - intros NT kx x H. rewrite (key_codes_other _ NT) in K.
    intros c a N I. apply (K (o_keys_name o, VSeq QTuple (map fst items)) (or_introl eq_refl) c a N). eapply In_seq; [|exact I]. apply in_map_iff. exists (kx, x). auto.
Qed.
Lemma value_fine g nm v s s' r : write_value o rnd tries wr g nm v s = (s', Ok r) -> fine v.
Proof.
  intros E c a N I. inversion I; subst; cbn [write_value] in E.
  - destruct (np_fine _ _ _ _ _ _ _ _ E) as [X _]. exact (X N).
  - destruct (np_fine _ _ _ _ _ _ _ _ E) as (_ & X & _). refine (X x eq_refl _ _ c a N H0).
    + unfold wf_arr, obj_array, prod. cbn [a_data a_shape fold_right]. rewrite map_length. lia.
    + apply in_map. exact H.
  - destruct (dict_fine _ _ _ _ _ _ _ _ E) as [X _]. exact (X _ _ H c a N H0).
  - destruct (dict_fine _ _ _ _ _ _ _ _ E) as [_ X]. exact (X H0 _ _ H c a N H1).
  - destruct (dict_fine _ _ _ _ _ _ _ _ E) as [X _]. destruct (nth_combine fs x (map VStr (rec_fields k)) i H0) as (kx & Hk); [rewrite map_length; destruct k; exact H|].
    exact (X kx x Hk c a N H1).
  - destruct (np_fine _ _ _ _ _ _ _ _ E) as (_ & X & _). exact (X x H H0 H1 c a N H2).
  - destruct (np_fine _ _ _ _ _ _ _ _ E) as (_ & _ & X). exact (X fs n name d sh cols H H0 H1 H2 c a N H3).
Qed.
End Wr.
Lemma write_fine n : forall g nm v s s' r, write o rnd tries n g nm v s = (s', Ok r) -> fine v.
Proof. induction n as [|n IH]; intros g nm v s s' r E; [discriminate E|]. cbn [write] in E. eapply value_fine; [exact IH|exact E]. Qed.
Lemma writes_fine n f mdict f' : file_writes o rnd tries n f mdict = (f', Ok tt) -> forall p v, In (p, v) mdict -> fine v.
Proof.
  intros E p v H. unfold file_writes in E. destruct (mapr (fun pv : pypath * pyval => do gt <- check_path o (fst pv); Ok (gt, snd pv)) mdict) as [l|e] eqn:EM; [|discriminate].
  destruct (fl_open f); [|discriminate]. destruct (iterM _ l (fl_st f)) as [s' r] eqn:EI. injection E as <- ->.
  assert (X : exists x, In x l /\ snd x = v).
  { clear EI. revert l EM. induction mdict as [|[q w] md IH]; intros l EM; [destruct H|]. cbn [mapr fst snd] in EM. destruct (check_path o q) as [gt|]; [|discriminate]. cbn [bindr] in EM.
    destruct (mapr _ md) as [l'|] eqn:EL; [|discriminate]. injection EM as <-. destruct H as [[= -> ->]|H]; [exists (gt, v); split; [left|]; reflexivity|].
    destruct (IH H l' eq_refl) as (x & X1 & X2). exists x. split; [right; exact X1|exact X2]. }
  destruct X as (x & Hx & <-). destruct (iterM_each _ _ _ _ _ EI x Hx) as (t1 & t2 & y & E3). unfold write_at in E3.
  apply bind_ok in E3. destruct E3 as (t3 & i & _ & E3). apply bind_ok in E3. destruct E3 as (t4 & r' & E3 & _). eapply write_fine. exact E3.
Qed.
End Error.
(** ** data that is not written *)
Lemma np_not_written o rnd tries wr g nm c a ts s : o_matlab_compatible o = true -> no_class (a_dt a) ->
  (o_action o = lit "error" -> np_write o rnd tries wr g nm (c, a) ts s = (s, Err TypeNotMatlabCompatibleError)) /\
  (o_action o = lit "discard" -> np_write o rnd tries wr g nm (c, a) ts s = (s, Ok None)).
Proof.
  intros M N. pose proof (no_class_incompatible o a M N) as NI. unfold np_write. rewrite NI. split; intros ->; reflexivity.
Qed.
Lemma not_written refs s o rnd tries n p cs c a f r : good_refs refs -> reachable refs s -> usable refs o -> any_place o s p cs ->
  o_matlab_compatible o = true -> no_class (a_dt a) -> o_action o = lit "error" \/ o_action o = lit "discard" ->
  file_write o rnd tries (S n) (mkFile true s) (VNp c a) p = (f, r) ->
  (o_action o = lit "error" -> r = Err TypeNotMatlabCompatibleError) /\ (o_action o = lit "discard" -> r = Ok tt) /\
  snd (file_contains f p) = snd (file_contains (mkFile true s) p) /\
  forall ro m keq, o_refs ro = refs -> snd (file_read ro m keq f p) = snd (file_read ro m keq (mkFile true s) p).
Proof.
  intros GR HR (U1 & U2 & U3) [D NE ST NC FW] HM N HE E.
  pose proof (reachable_wf refs s GR HR o U1) as W. assert (HA : isabs (o_refs o) = true) by (rewrite U1; apply GR).
  assert (V : valid_path p). { intros cs' D'. replace cs' with cs; [exact NE|]. destruct D as (g & t & P & ->), D' as (g' & t' & P' & ->). rewrite P in P'. injection P' as <- <-. reflexivity. }
  pose proof D as D0. destruct D as (g & t & P & Ec). fold (loc g t) in Ec. subst cs.
  assert (AP : apart o (loc g t)).
  { unfold same_top, refs_path in ST. fold (rp o) in ST. assert (NZ : rp o <> []) by (unfold rp; rewrite U1; apply GR). destruct (loc g t) as [|x l]; [congruence|]. destruct (rp o) as [|y b] eqn:Er; [congruence|]. exists x, y, l, b. unfold rp in Er. split; [reflexivity|]. split; [exact Er|]. intros ->. apply ST. exists y, l, b. auto. }
  assert (EC : check_path o p = Ok (g, t)) by (apply check_path_iff; [exact HA|]; split; [exact P|]; right; right; exact AP).
  destruct (loc_name_err _ _ _ P NE) as (_ & N1 & N2). specialize (N2 NC).
  destruct (loc_clean _ _ _ P) as [Z|[C LE]]; [contradiction|]. rewrite LE in *. destruct (apart_ra _ _ AP) as [A1 A2].
  assert (KR : keeps o rnd (fun p => pre p (path_comps g)) s (require_group g s) (fun s' i => live (hp s') i = true /\ is_group (hp s') i = true /\ name_of (hp s') i = path_comps g)).
  { apply require_keeps; [exact W| |auto]. intros Q. apply A2. eapply pre_trans; [exact Q|apply pre_app]. }
  destruct (require_ran s g N1) as (s1 & i & E1).
  { intros q r' j Eq Wq. apply (FW q (r' ++ [t]) j); [rewrite Eq, app_assoc; reflexivity|destruct r'; discriminate|exact Wq]. }
  rewrite E1 in KR. destruct KR as (W1 & F1 & _). cbn [fst] in *.
  unfold file_write, file_writes in E. cbn [mapr fst snd] in E. rewrite EC in E. cbn [bindr mapr fl_open fl_st iterM fst snd] in E.
  unfold write_at in E. unfold bindm in E. rewrite E1 in E. cbn [write write_value] in E.
  destruct (np_not_written o rnd tries (write o rnd tries n) i t c a (np_type c (a_dt a)) s1 HM N) as [X1 X2].
  assert (F : f = mkFile true s1 /\ (o_action o = lit "error" -> r = Err TypeNotMatlabCompatibleError) /\ (o_action o = lit "discard" -> r = Ok tt)).
  { destruct HE as [HE|HE]; [rewrite (X1 HE) in E|rewrite (X2 HE) in E]; cbn [ret] in E; injection E as <- <-; (split; [reflexivity|]); rewrite HE; split; intros Q; try reflexivity; discriminate Q. }
  destruct F as (-> & F2 & F3). split; [exact F2|]. split; [exact F3|]. 
  assert (NR : ~ pre (path_comps g ++ [t]) (path_comps g)) by (intros Q; apply pre_len in Q; rewrite app_length in Q; cbn in Q; lia).
  split.
  - rewrite !(contains_iff p _ _ V D0). cbn [snd]. rewrite (frame_walk o rnd _ s s1 _ W W1 F1 NR AP). reflexivity.
  - intros ro m keq Hro. apply (read_elsewhere o rnd (fun p => pre p (path_comps g))); auto; [rewrite U1; exact GR|rewrite U1; exact Hro|intros g' t' P'; rewrite P in P'; injection P' as <- <-; exact N2|].
    intros qs (g' & t' & P' & ->). rewrite P in P'. injection P' as <- <-. fold (loc g t). rewrite LE. split; [exact NC|]. intros _. split; [intros q Pq Q; apply NR; eapply pre_trans; eassumption|].
    intros k q Pq Q. apply A2. eapply pre_trans; [apply pre_app|]. eapply pre_trans; [exact Pq|]. eapply pre_trans; [exact Q|apply pre_app].
Qed.

(** ** discarded members *)
Section Discard.
Variable o : options.
Hypotheses (HM : o_matlab_compatible o = true) (HS : o_struct_as_struct o = true).
Lemma incompatible_no_class a : np_incompatible o a = true -> no_class (a_dt a) \/ a_dt a = TRef.
Proof.
  unfold np_incompatible. rewrite HM, HS, andb_true_r. cbn [andb]. intros E. apply negb_true_iff in E. apply orb_false_iff in E. destruct E as [E1 E2].
  destruct (a_dt a) as [| | |w|w| | | | |]; try discriminate; [left|left|right; reflexivity]; cbn [no_class]; split; intros ->; discriminate.
Qed.
Lemma plan_np_none pl c a ts : plan_np o pl (c, a) ts = Ok None -> no_class (a_dt a) \/ a_dt a = TRef.
Proof.
  unfold plan_np. intros E. destruct (np_incompatible o a) eqn:NI; [apply incompatible_no_class; exact NI|]. cbn [andb] in E.
  destruct (np_prepare o (c, a)) as [b|]; [|discriminate]. cbn [bindr] in E. destruct (as_group o a (a_dt b)).
  - destruct (mapr _ _); discriminate.
  - unfold plan_data in E. destruct (a_dt b); try discriminate. destruct (mapr _ _); discriminate.
Qed.
Lemma plan_none n v : not_refs v -> plan o n v = Ok None -> unsupported v.
Proof.
  intros NR. destruct n as [|n]; [discriminate|]. cbn [plan]. destruct v; cbn [plan_value]; intros E; try discriminate E;
    try (apply plan_np_none in E; cbn [a_dt] in E; destruct E as [E|E]; try (destruct E; fail); try discriminate E; destruct E; congruence).
  - apply plan_np_none in E. exfalso. unfold int_array in E. destruct (_ && _); cbn in E; destruct E as [E|E]; try (destruct E; fail); discriminate E.
  - apply plan_np_none in E. destruct E as [E|E]; [exists c, a; auto|]. destruct (NR c a eq_refl E).
  - unfold plan_dict in E. destruct (mapr _ _); discriminate.
  - unfold plan_dict in E. destruct (mapr _ _); discriminate.
  - destruct (utf8_encode _); [|discriminate]. apply plan_np_none in E. cbn in E. destruct E as [[]|E]; discriminate E.
Qed.
Hypothesis HD : o_action o = lit "discard".
Lemma plan_discarded n v : unsupported v -> 0 < n -> plan o n v = Ok None.
Proof.
  intros (c & a & -> & N) Hn. destruct n as [|n]; [lia|]. cbn [plan plan_value]. unfold plan_np. rewrite (no_class_incompatible o a HM N), HD. reflexivity.
Qed.
Lemma F2_nth {A B} (R : A -> B -> Prop) l m : Forall2 R l m -> forall i x, nth_error l i = Some x -> exists y, nth_error m i = Some y /\ R x y.
Proof. induction 1 as [|a b l m H _ IH]; intros i x E; destruct i; try discriminate; [injection E as <-; exists b; auto|]. apply IH. exact E. Qed.
Lemma nth_combine' {A B} (ys : list B) y x : forall (xs : list A) i, nth_error xs i = Some x -> nth_error ys i = Some y -> nth_error (combine xs ys) i = Some (x, y).
Proof. induction ys as [|z ys IH]; intros xs i E F; destruct i, xs; try discriminate; [injection E as ->; injection F as ->; reflexivity|]. apply IH; assumption. Qed.
Lemma somes_in {A} (l : list (option A)) x : In x (somes l) <-> In (Some x) l.
Proof.
  induction l as [|[y|] l IH]; cbn [somes flat_map]; [tauto| |]; cbn [app In]; fold (somes l); rewrite IH; split; intros H; try tauto.
  - destruct H as [->|H]; auto.
  - destruct H as [[= ->]|H]; auto.
  - destruct H as [H|H]; [discriminate|exact H].
Qed.
Lemma member_walk x : not_refs x -> forall v ts, member x v ts -> forall n T h Q m i, plan o n v = Ok (Some T) -> rep o h Q m i T ->
  (walk h i (map escaped ts) = None <-> unsupported x).
Proof.
  intros NR v ts M. induction M as [|k l texts i kx y t ts HT ND HL HX M IH]; intros n T h Q m j E R.
  - split; [discriminate|]. intros U. destruct n as [|n]; [discriminate|]. rewrite (plan_discarded (S n) _ U) in E; [discriminate|lia].
  - destruct n as [|n]; [discriminate|]. cbn [plan plan_value] in E. unfold plan_dict in E. destruct (key_codes_texts _ _ HT) as (cs & C1 & C2 & _). rewrite C1 in E.
    destruct (mapr _ _) as [ls|] eqn:EL; [|discriminate]. cbn [bindr] in E. injection E as <-. apply mapr_F2 in EL.
    set (kvs := combine (map (fun c : N * pystr => escaped (snd c)) cs) (map snd l)) in *.
    assert (KN : map (fun c : N * pystr => escaped (snd c)) cs = map escaped texts) by (rewrite <- C2, map_map; reflexivity).
    assert (KI : nth_error kvs i = Some (escaped t, y)).
    { unfold kvs. rewrite KN. apply nth_combine'; [apply map_nth_error; exact HX|]. apply (map_nth_error snd _ _ HL). }
    destruct (F2_nth _ _ _ EL _ _ KI) as (q & Q1 & Q2). unfold plan_item in Q2. cbn [fst snd] in Q2.
    destruct (plan o n y) as [r|] eqn:EP; [|discriminate]. cbn [bindr] in Q2. injection Q2 as <-.
    clear C2. inversion R as [| |m0 i0 x1 lk x4 OB NDL KK FF|]; subst. cbn [map walk]. destruct OB as (ob & O1 & O2 & O3).
    assert (LK : lookup h j (escaped t) = assoc (escaped t) lk) by (unfold lookup, links; rewrite O1, O3; reflexivity). rewrite LK.
    destruct r as [T|]; cbn [option_map] in Q1.
    + apply nth_error_In in Q1. apply somes_in in Q1. rewrite Forall_forall in FF. destruct (FF _ Q1) as (j' & J1 & J2 & J3). cbn [fst snd] in *. rewrite J1. eapply IH; eassumption.
    + assert (NONE : assoc (escaped t) lk = None).
      { destruct (assoc (escaped t) lk) eqn:EA; [|reflexivity]. exfalso. 
        assert (X : In (escaped t) (map fst lk)) by (apply assoc_In in EA; apply in_map_iff; eexists; split; [|exact EA]; reflexivity).
        apply KK in X. apply in_map_iff in X. destruct X as ((k' & T) & X1 & X2). cbn [fst] in X1. subst k'. apply somes_in in X2.
        apply In_nth_error in X2. destruct X2 as (i' & X2).
        assert (LEN : i' < length kvs) by (rewrite (Forall2_len _ _ _ EL); apply nth_error_Some; congruence).
        destruct (nth_error kvs i') as [[k' y']|] eqn:KI'; [|apply nth_error_None in KI'; lia].
        destruct (F2_nth _ _ _ EL _ _ KI') as (q & Q1' & Q2'). rewrite X2 in Q1'. injection Q1' as <-. unfold plan_item in Q2'. cbn [fst snd] in Q2'.
        destruct (plan o n y') as [[T'|]|]; try discriminate. cbn [bindr option_map] in Q2'. injection Q2' as -> _.
        assert (i = i'); [|subst i'; congruence].
        assert (NDK : NoDup (map escaped texts)).
        { clear - ND. induction ND as [|a b H _ I]; [constructor|]. cbn [map]. constructor; [|exact I]. intros X. apply in_map_iff in X. destruct X as (u & Eu & Hu). apply escaped_inj in Eu. subst u. exact (H Hu). }
        assert (LL : length texts = length l) by (rewrite <- (Forall2_len _ _ _ HT), map_length; reflexivity).
        assert (KF : map fst kvs = map escaped texts) by (unfold kvs; rewrite KN; apply combine_fst; rewrite !map_length; exact LL).
        rewrite NoDup_nth_error in NDK. rewrite <- KF in NDK. apply NDK; [rewrite map_length; apply nth_error_Some; congruence|].
        rewrite (map_nth_error fst _ _ KI), (map_nth_error fst _ _ KI'). reflexivity. }
      rewrite NONE. split; [intros _|reflexivity]. destruct ts as [|t' ts].
      * inversion M; subst. eapply plan_none; eassumption.
      * inversion M; subst. exfalso. destruct n as [|n]; [discriminate|]. cbn [plan plan_value] in EP. unfold plan_dict in EP. destruct (mapr _ _); discriminate.
Qed.
End Discard.
Lemma discarded_members refs s o rnd tries n mdict f : good_refs refs -> reachable refs s -> usable refs o -> o_keys_name o <> o_values_name o ->
  o_matlab_compatible o = true -> o_struct_as_struct o = true -> o_action o = lit "discard" ->
  (forall p v, In (p, v) mdict -> valid_path p /\ tidy v /\ snd (file_contains (mkFile true s) p) = Ok false) ->
  ForallOrdPairs (fun x y => forall a b, denotes (fst x) a -> denotes (fst y) b -> ~ overlap a b) mdict ->
  file_writes o rnd tries n (mkFile true s) mdict = (f, Ok tt) -> no_repeat rnd (rpos s) (rpos (fl_st f)) ->
  forall p v cs x ts q, In (p, v) mdict -> denotes p cs -> not_refs x -> member x v ts -> valid_path q -> denotes q (cs ++ map escaped ts) ->
  (snd (file_contains f q) = Ok false <-> unsupported x) /\ (snd (file_contains f q) = Ok true <-> ~ unsupported x).
Proof.
  intros GR HR U HN HM HS HD OK ND E NR p v cs x ts q Hin D NX M VQ DQ.
  destruct (api_filled refs s o rnd tries n mdict f GR HR U HN OK ND E NR p v Hin) as (t & Dt & F).
  assert (t = cs). { destruct D as (g & u & P & ->), Dt as (g' & u' & P' & ->). rewrite P in P'. injection P' as <- <-. reflexivity. } subst t.
  assert (FO : f = mkFile true (fl_st f)).
  { unfold file_writes in E. destruct (mapr _ mdict); [|discriminate]. cbn [fl_open fl_st] in E. destruct (iterM _ _ _). injection E as <- _. reflexivity. }
  rewrite FO. rewrite (contains_iff q _ _ VQ DQ). cbn [snd].
  assert (W : walk (hp (fl_st f)) 0 (cs ++ map escaped ts) = None <-> unsupported x).
  { rewrite walk_app. unfold filled in F. destruct (plan o n v) as [[T|]|] eqn:EP; [| |destruct F].
    - destruct F as (i & W & (_ & _ & Q & _ & _ & _ & R)). rewrite W. eapply member_walk; eassumption.
    - rewrite F. split; [intros _|reflexivity]. destruct ts as [|t' ts]; inversion M; subst.
      + eapply plan_none; eassumption.
      + exfalso. destruct n as [|n]; [discriminate|]. cbn [plan plan_value] in EP. unfold plan_dict in EP. destruct (mapr _ _); discriminate. }
  destruct (walk _ _ _); (split; split; intros X; try reflexivity; try discriminate X).
  - apply W in X. discriminate.
  - intros Y. apply W in Y. discriminate.
  - apply W. reflexivity.
  - destruct X. apply W. reflexivity.
Qed.
