(** The tree of objects that writing with the options MATLAB needs leaves is the MATLAB
    form of the value. *)
From Verif Require Import Base PathEsc PathEscFacts PosixPath PosixFacts ProcessPathFacts Unicode UnicodeFacts Dec NdArray Value OptionsM StrConv ComplexM Attrs NpDims ConvFacts MColl Hdf5 HeapFacts NpWrite NpRead MarshalW MarshalR FrameFacts WriteFrame ReadFacts RoundSpec RoundNp RoundHeap RoundWrite RoundVal RoundDict Plan Layout LayoutNp MatlabSpec MatlabFacts.
Local Open Scope nat_scope.
Local Arguments prod : simpl never.
Local Arguments transpose : simpl never.

Lemma transpose_none {A} sh : transpose sh ([] : list A) = [].
Proof. unfold transpose, gather. induction (seq 0 (prod sh)) as [|k r IH]; [reflexivity|]. cbn [flat_map]. rewrite IH. destruct (ravel sh (rev (unravel (rev sh) k))); reflexivity. Qed.

Section Mat.
Variable o : options.
Hypotheses (HM : o_matlab_compatible o = true) (HS : o_struct_as_struct o = true) (H2 : o_atleast_2d o = true)
  (HB : o_bytes_utf16 o = true) (HU : o_str_utf16 o = true) (HL : o_bools_uint8 o = true) (HR : o_reverse o = true) (HE : o_shape_empty o = true)
  (HC : o_complex_names o = (lit "real", lit "imag")) (HF : o_refs o = lit "/#refs#").

(** ** trees that show a MATLAB value wherever they are *)
Definition keeps_rest (mk : attrs -> attrs) : Prop := forall a k, k <> h5path -> mk a k = a k.
Definition shows (T : ltree) (m : mval) : Prop := T <> LCanon /\ forall h (Q : nat -> Prop) mk i, keeps_rest mk -> (forall j, Q j -> live h j = true) ->
  rep o h Q mk i T -> mat h i m /\ classy h i.
Lemma keeps_marked p : keeps_rest (marked o p).
Proof. intros a k N. unfold marked. rewrite HM. apply set_attr_other. exact N. Qed.
Lemma rep_belongs h Q p j T : T <> LCanon -> rep o h Q (marked o p) j T -> live h j = true -> belongs h j (name_text p).
Proof.
  intros N R L. assert (X : exists at_ b, obj_is h j (marked o p at_) b) by (inversion R; subst; eauto; congruence).
  destruct X as (at_ & b & ob & E1 & E2 & E3). exists ob. split; [exact E1|]. split; [exact L|]. unfold k_path. rewrite E2. unfold marked. rewrite HM. apply set_attr_same.
Qed.
Lemma refs_text : name_text (path_comps (o_refs o)) = refs_path.
Proof. rewrite HF. vm_compute. reflexivity. Qed.
Definition ne_path : k_class <> h5path /\ k_empty <> h5path /\ k_decode <> h5path /\ k_fields <> h5path.
Proof. repeat split; discriminate. Qed.

Lemma shows_num at_ d f cls l : at_ k_class = Some (AStr cls) -> at_ k_empty = None -> at_ k_fields = None -> 2 <= length (a_shape d) -> length (a_data d) = prod (a_shape d) -> prod (a_shape d) <> 0 ->
  Forall2 (number cls (a_dt d) (at_ k_decode)) (a_data d) l -> shows (LData at_ d f) (MArr cls (rev (a_shape d)) l).
Proof.
  intros A1 A2 A0 L1 L2 L3 N. split; [discriminate|]. intros h Q mk i K _ R. inversion R as [m0 i0 x1 x2 x3 (ob & E1 & E2 & E3)| | |]; subst.
  destruct ne_path as (N1 & N2 & N3 & N4).
  assert (B1 : o_attrs ob k_class = Some (AStr cls)) by (rewrite E2, K; auto). split; [|exists ob; eauto].
  eapply Mat_num; [exact E1|exact B1|rewrite E2, K; auto|rewrite E2, K; auto|exact E3|exact L1|exact L2|exact L3|]. rewrite E2, K by exact N3. exact N.
Qed.
Lemma shows_num_empty at_ f cls dims : at_ k_class = Some (AStr cls) -> at_ k_empty = Some (AU8 1) -> at_ k_fields = None -> In cls num_classes -> 2 <= length dims -> prod dims = 0 ->
  shows (LData at_ (dims_data dims) f) (MArr cls dims []).
Proof.
  intros A1 A2 A0 I L P. split; [discriminate|]. intros h Q mk i K _ R. inversion R as [m0 i0 x1 x2 x3 (ob & E1 & E2 & E3)| | |]; subst.
  destruct ne_path as (N1 & N2 & N3 & N4).
  assert (B1 : o_attrs ob k_class = Some (AStr cls)) by (rewrite E2, K; auto). split; [|exists ob; eauto].
  eapply Mat_num_empty; [exact E1|exact B1|rewrite E2, K; auto|rewrite E2, K; auto|exact I|exact E3|exact L|exact P].
Qed.
Lemma shows_cell_empty at_ f dims : at_ k_class = Some (AStr (lit "cell")) -> at_ k_empty = Some (AU8 1) -> at_ k_fields = None -> 2 <= length dims -> prod dims = 0 ->
  shows (LData at_ (dims_data dims) f) (MCell dims []).
Proof.
  intros A1 A2 A0 L P. split; [discriminate|]. intros h Q mk i K _ R. inversion R as [m0 i0 x1 x2 x3 (ob & E1 & E2 & E3)| | |]; subst.
  destruct ne_path as (N1 & N2 & N3 & N4).
  assert (B1 : o_attrs ob k_class = Some (AStr (lit "cell"))) by (rewrite E2, K; auto). split; [|exists ob; eauto].
  eapply Mat_cell_empty; [exact E1|exact B1|rewrite E2, K; auto|rewrite E2, K; auto|exact E3|exact L|exact P].
Qed.
Lemma order_flds names at_ ob : at_ k_fields = flds_of names -> o_attrs ob k_fields = at_ k_fields -> NoDup names -> field_order ob names (order_of names).
Proof.
  intros A E N. unfold field_order. rewrite E, A. unfold flds_of, order_of, ascii_str. destruct (forallb _ names); [|reflexivity]. split; [reflexivity|]. split; [exact N|]. intros k. reflexivity.
Qed.
Lemma shows_struct_empty at_ f dims names : at_ k_class = Some (AStr (lit "struct")) -> at_ k_empty = Some (AU8 1) -> at_ k_fields = flds_of names -> NoDup names -> 2 <= length dims -> prod dims = 0 ->
  shows (LData at_ (dims_data dims) f) (MStruct (order_of names) dims (map (fun k => (k, [])) names)).
Proof.
  intros A1 A2 A3 ND L P. split; [discriminate|]. intros h Q mk i K _ R. inversion R as [m0 i0 x1 x2 x3 (ob & E1 & E2 & E3)| | |]; subst.
  destruct ne_path as (N1 & N2 & N3 & N4).
  assert (B1 : o_attrs ob k_class = Some (AStr (lit "struct"))) by (rewrite E2, K; auto). split; [|exists ob; eauto].
  eapply Mat_struct_empty; [exact E1|exact B1|rewrite E2, K; auto|exact E3|exact L|exact P|]. eapply order_flds; [exact A3| |exact ND]. rewrite E2. apply K. exact N4.
Qed.
Lemma elems_mat h (Q : nat -> Prop) js Ts ms : (forall j, Q j -> live h j = true) -> Forall2 (fun j T => Q j /\ rep o h Q (marked o (path_comps (o_refs o))) j T) js Ts ->
  Forall2 shows Ts ms -> Forall2 (fun j m => belongs h j refs_path /\ classy h j /\ mat h j m) js ms.
Proof.
  intros LQ H. revert ms. induction H as [|j T js Ts [Hj R] _ IH]; intros ms S; inversion S as [|? m ? ms' [NC X] S']; subst; constructor; [|apply IH; exact S'].
  destruct (X h Q _ j (keeps_marked _) LQ R) as [Y Z]. split; [|auto]. rewrite <- refs_text. eapply rep_belongs; eauto.
Qed.
Lemma shows_cell at_ sh f Ts ms : at_ k_class = Some (AStr (lit "cell")) -> at_ k_empty = None -> at_ k_fields = None -> 2 <= length sh -> length Ts = prod sh -> prod sh <> 0 ->
  Forall2 shows Ts ms -> shows (LRefs at_ sh f Ts) (MCell (rev sh) ms).
Proof.
  intros A1 A2 A0 L1 L2 L3 S. split; [discriminate|]. intros h Q mk i K LQ R. inversion R as [|m0 i0 x1 x2 x3 js x4 (ob & E1 & E2 & E3) FF| |]; subst.
  destruct ne_path as (N1 & N2 & N3 & N4).
  assert (B1 : o_attrs ob k_class = Some (AStr (lit "cell"))) by (rewrite E2, K; auto). split; [|exists ob; eauto].
  eapply Mat_cell; [exact E1|exact B1|rewrite E2, K; auto|rewrite E2, K; auto|exact E3|exact L1|rewrite <- L2; apply (F2_len _ _ _ FF)|exact L3|]. eapply elems_mat; eauto.
Qed.
Lemma shows_struct at_ names Ts ms : at_ k_class = Some (AStr (lit "struct")) -> at_ k_empty = None -> at_ k_fields = flds_of names \/ at_ k_fields = None -> length names = length Ts ->
  Forall2 shows Ts ms -> shows (LGroup at_ (combine names Ts)) (MStruct (match at_ k_fields with None => None | _ => order_of names end) [1; 1] (combine names (map (fun m => [m]) ms))).
Proof.
  intros A1 A2 A3 L S. split; [discriminate|]. intros h Q mk i K LQ R. inversion R as [| |m0 i0 x1 ls x4 (ob & E1 & E2 & E3) ND KK FF|]; subst.
  destruct ne_path as (N1 & N2 & N3 & N4). pose proof (F2_len _ _ _ S) as LM.
  assert (B1 : o_attrs ob k_class = Some (AStr (lit "struct"))) by (rewrite E2, K; auto). split; [|exists ob; eauto].
  replace (combine names (map (fun m => [m]) ms)) with (map (fun km : pystr * mval => (fst km, [snd km])) (combine names ms))
    by (clear; revert ms; induction names as [|x names IH]; intros [|y ms]; cbn; auto; rewrite IH; reflexivity).
  assert (M1 : map fst (combine names ms) = names) by (apply combine_fst; congruence).
  assert (M2 : map fst (combine names Ts) = names) by (apply combine_fst; congruence). rewrite M2 in *.
  eapply Mat_struct; [exact E1|exact B1|rewrite E2, K; auto|exact E3|rewrite M1; exact ND|rewrite M1; exact KK| |].
  - rewrite M1. assert (EF : o_attrs ob k_fields = at_ k_fields) by (rewrite E2; apply K; exact N4).
    destruct (at_ k_fields) as [v|] eqn:AF; [|unfold field_order; rewrite EF; reflexivity].
    destruct A3 as [A3|A3]; [|discriminate]. apply (order_flds names at_); [rewrite AF; exact A3|rewrite AF; exact EF|exact ND].
  - clear - L S FF LQ HM HF HS. revert names L FF. induction S as [|T m Ts ms [NC X] S IH]; intros [|x names] L FF; cbn in L; try discriminate; cbn [combine] in *; [constructor|].
    inversion FF as [|? ? (j & J1 & J2 & J3) FF']; subst. cbn [fst snd] in *. constructor; [|apply IH; [lia|exact FF']]. cbn [fst snd].
    exists j. split; [exact J1|]. destruct (X h Q _ j (keeps_marked _) LQ J3) as [Y Z]. split; [|auto]. eapply rep_belongs; eauto.
Qed.
(** the fields of an array of structs: references that have lost their other attributes *)
Definition column_of (sh : list nat) (T : ltree) (ms : list mval) : Prop := exists f Ts, T = LRefs no_attrs sh f Ts /\ length Ts = prod sh /\ Forall2 shows Ts ms.
Lemma shows_structs at_ names sh Cs cols : at_ k_class = Some (AStr (lit "struct")) -> at_ k_empty = None -> at_ k_fields = flds_of names -> length names = length Cs ->
  2 <= length sh -> 2 <= prod sh -> Forall2 (column_of sh) Cs cols -> shows (LGroup at_ (combine names Cs)) (MStruct (order_of names) (rev sh) (combine names cols)).
Proof.
  intros A1 A2 A3 L L1 L2 S. split; [discriminate|]. intros h Q mk i K LQ R. inversion R as [| |m0 i0 x1 ls x4 (ob & E1 & E2 & E3) ND KK FF|]; subst.
  destruct ne_path as (N1 & N2 & N3 & N4). pose proof (F2_len _ _ _ S) as LM.
  assert (B1 : o_attrs ob k_class = Some (AStr (lit "struct"))) by (rewrite E2, K; auto). split; [|exists ob; eauto].
  assert (M1 : map fst (combine names cols) = names) by (apply combine_fst; congruence).
  assert (M2 : map fst (combine names Cs) = names) by (apply combine_fst; congruence). rewrite M2 in *.
  eapply Mat_structs; [exact E1|exact B1|rewrite E2, K; auto|exact E3|rewrite M1; exact ND|rewrite M1; exact KK| |exact L1|exact L2|].
  - rewrite M1. apply (order_flds names at_); [exact A3|rewrite E2; apply K; exact N4|exact ND].
  - clear - L S FF LQ HM HF HS. revert names L FF. induction S as [|T m Cs ms (f & Ts & -> & LT & X) S IH]; intros [|x names] L FF; cbn in L; try discriminate; cbn [combine] in *; [constructor|].
    inversion FF as [|? ? (j & J1 & J2 & J3) FF']; subst. cbn [fst snd] in *. constructor; [|apply IH; [lia|exact FF']]. cbn [fst snd].
    assert (NC : LRefs no_attrs sh f Ts <> LCanon) by discriminate. pose proof (rep_belongs h Q _ j _ NC J3 (LQ _ J2)) as BL.
    inversion J3 as [|m0 i0 x1 x2 x3 js x4 (oj & E1 & E2 & E3) F3| |]; subst. exists j, oj, f, js. split; [exact J1|]. split; [exact BL|]. split.
    + exists oj. split; [exact E1|]. intros k N. rewrite E2. apply (keeps_marked (name_of h i) no_attrs k). exact N.
    + split; [exact E1|]. split; [exact E3|]. split; [rewrite <- LT; apply (F2_len _ _ _ F3)|]. eapply elems_mat; eauto.
Qed.

(** ** text *)
Lemma widen_eq n sh : widen n sh = scale_last n (atleast_1d sh).
Proof. destruct sh as [|x sh]; [unfold scale_last; cbn; rewrite Nat.add_0_r; reflexivity|reflexivity]. Qed.
Lemma widen_prod n sh : prod (widen n sh) = n * prod sh.
Proof. rewrite widen_eq, scale_last_prod by apply atleast_1d_nonnil. rewrite atleast_1d_prod. reflexivity. Qed.
Lemma flat_units n (ll : list (list N)) : flat_map (fun u => @units pyval (pad n u)) ll = units (concat (map (pad n) ll)).
Proof. rewrite units_concat. rewrite !flat_map_concat_map, map_map. reflexivity. Qed.
Lemma concat_len {A} n (rs : list (list A)) : Forall (fun r => length r = n) rs -> length (concat rs) = n * length rs.
Proof. induction 1 as [|r rs H _ IH]; cbn [concat length]; [lia|]. rewrite app_length, H, IH. lia. Qed.
Lemma Forall_concat' {A} (P : A -> Prop) ll : Forall (Forall P) ll -> Forall P (concat ll).
Proof. induction 1; cbn [concat]; [constructor|]. apply Forall_app. auto. Qed.
Lemma pad_bound b n s : (0 < b)%N -> Forall (fun u => (u < b)%N) s -> Forall (fun u => (u < b)%N) (pad n s).
Proof. intros Hb H. unfold pad. apply Forall_app. split; [exact H|]. apply Forall_forall. intros x Hx. apply repeat_spec in Hx. subst. exact Hb. Qed.
Lemma utf16_units s : forall u, utf16_encode s = Ok u -> Forall (fun x => (x < 65536)%N) u.
Proof.
  induction s as [|c s IH]; intros u H; cbn [utf16_encode] in H; [injection H as <-; constructor|].
  destruct (is_scalar c) eqn:S; [|discriminate]. destruct (utf16_encode s) as [b|]; [|discriminate]. injection H as <-.
  apply Forall_app. split; [|apply IH; reflexivity]. pose proof (enc16_bound [c]) as X. cbn [flat_map] in X. rewrite app_nil_r in X. apply X. constructor; [exact S|constructor].
Qed.
Definition stored_text (n : nat) (a b2 : arr pyval) : Prop := exists w rs, (w = 2 \/ w = 4) /\ b2 = mkArr (TU w) (widen n (a_shape a)) (units (concat rs)) /\
  rows n (a_data a) rs /\ Forall (fun r => length r = n) rs /\ Forall (fun u => (u < 2 ^ (8 * N.of_nat w))%N) (concat rs) /\ length rs = length (a_data a).
Lemma u32_rows n a b2 : a_dt a = TUni n -> Forall (fun e => exists s, e = XStr s /\ length s <= n /\ code_points s) (a_data a) -> n * prod (a_shape a) <> 0 ->
  convert_numpy_str_to_uint32 a = Ok b2 -> stored_text n a b2.
Proof.
  intros D H NZ E. unfold convert_numpy_str_to_uint32, nbytes, size in E. rewrite D in E. cbn [itemsize] in E. destruct (Nat.eqb_spec (prod (a_shape a) * (4 * n)) 0); [nia|].
  destruct (mapr _ _) as [us|] eqn:M; [|discriminate]. cbn [bindr] in E. injection E as <-. apply mapr_F2 in M. exists 4, (map (pad n) us). split; [auto|]. rewrite <- widen_eq, flat_units. split; [reflexivity|].
  assert (X : Forall2 (fun e s => e = XStr s /\ length s <= n /\ code_points s) (a_data a) us).
  { clear - M H. induction M as [|e s l us E _ IH]; [constructor|]. inversion H as [|? ? (t & -> & H1 & H2) H3]; subst. constructor; [|auto]. injection E as <-. auto. }
  pose proof (F2_len _ _ _ X) as LX. clear M H. split; [left|split; [|split; [|rewrite map_length; auto]]].
  - clear - X. induction X as [|e s l us (-> & H1 & H2) _ IH]; cbn [map]; constructor; auto. exists s. auto.
  - clear - X. induction X as [|e s l us (-> & H1 & H2) _ IH]; cbn [map]; constructor; auto. apply pad_len. exact H1.
  - apply Forall_concat'. clear - X. induction X as [|e s l us (-> & H1 & H2) _ IH]; cbn [map]; constructor; auto. apply pad_bound; [reflexivity|exact H2].
Qed.
Lemma str_rows c a n b2 : a_dt a = TUni n -> length (a_data a) = prod (a_shape a) -> (c = CScalar -> a_shape a = []) ->
  Forall (fun e => exists s, e = XStr s /\ length s <= n /\ code_points s) (a_data a) -> n * prod (a_shape a) <> 0 ->
  store_str o c a = Ok b2 -> stored_text n a b2.
Proof.
  intros D L SC H NZ E. unfold store_str in E. rewrite D, HU in E.
  destruct (convert_numpy_str_to_uint16 a) as [b|] eqn:E16; [|eapply u32_rows; eauto].
  assert (K : last (a_shape b) 0 = last (widen n (a_shape a)) 0 -> stored_text n a b).
  { intros W. unfold convert_numpy_str_to_uint16, nbytes, size in E16. rewrite D in E16. cbn [itemsize] in E16. destruct (Nat.eqb_spec (prod (a_shape a) * (4 * n)) 0); [nia|].
    destruct (mapr _ _) as [us|] eqn:M; [|discriminate]. cbn [bindr] in E16. injection E16 as <-. cbn [a_shape] in W. rewrite widen_eq in W. rewrite !scale_last_last in W by apply atleast_1d_nonnil.
    set (words := list_max (map (@length N) us)) in *.
    assert (WN : words = n).
    { assert (last (atleast_1d (a_shape a)) 0 <> 0); [|nia]. intros Z. apply NZ. rewrite <- (atleast_1d_prod (a_shape a)). rewrite (prod_last _ (atleast_1d_nonnil _)), Z. lia. }
    apply mapr_F2 in M. exists 2, (map (pad n) us). split; [auto|]. rewrite WN. rewrite <- widen_eq, flat_units. split; [reflexivity|].
    assert (LE : Forall (fun u => length u <= n) us) by (apply Forall_forall; intros u Hu; rewrite <- WN; apply list_max_le'; apply in_map; exact Hu).
    pose proof (F2_len _ _ _ M) as LX.
    assert (X : Forall2 (fun e u => exists s, e = XStr s /\ utf16_encode s = Ok u) (a_data a) us).
    { clear - M. induction M as [|e s l us E _ IH]; [constructor|]. constructor; [|auto]. destruct e; try discriminate E. exists s0. auto. }
    split; [right|split; [|split; [|rewrite map_length; auto]]].
    - clear - X. induction X as [|e u l us (s & -> & H1) _ IH]; cbn [map]; constructor; auto. exists s, u. auto.
    - clear - LE. induction LE; cbn [map]; constructor; auto. apply pad_len. assumption.
    - apply Forall_concat'. clear - X. induction X as [|e u l us (s & -> & H1) _ IH]; cbn [map]; constructor; auto. apply pad_bound; [reflexivity|]. apply (utf16_units s). exact H1. }
  assert (NN : a_shape a <> [] -> last (widen n (a_shape a)) 0 = last (a_shape a) 0 * n).
  { intros S. rewrite widen_eq. rewrite scale_last_last by apply atleast_1d_nonnil. destruct (a_shape a); [congruence|reflexivity]. }
  assert (G : forall sh, sh = a_shape a -> sh <> [] -> (if last (a_shape b) 0 =? last sh 0 * n then Ok b else convert_numpy_str_to_uint32 a) = Ok b2 -> stored_text n a b2).
  { intros sh -> S X. destruct (Nat.eqb_spec (last (a_shape b) 0) (last (a_shape a) 0 * n)) as [Y|Y]; [|eapply u32_rows; eauto]. injection X as <-. apply K. rewrite NN by exact S. exact Y. }
  assert (G2 : match a_shape a with [] => Err IndexError | n0 :: l => if last (a_shape b) 0 =? last (n0 :: l) 0 * n then Ok b else convert_numpy_str_to_uint32 a end = Ok b2 -> stored_text n a b2).
  { intros X. destruct (a_shape a) as [|x sh] eqn:S; [discriminate|]. apply (G (x :: sh)); [reflexivity|discriminate|exact X]. }
  destruct c; [|exact (G2 E)..].
  rewrite (SC eq_refl) in *. destruct (Nat.eqb_spec n (hd 0 (a_shape b))) as [Y|Y]; [|eapply u32_rows; eauto; rewrite (SC eq_refl); exact NZ]. injection E as <-. apply K.
  unfold convert_numpy_str_to_uint16 in E16. rewrite (SC eq_refl) in E16. destruct (_ =? 0); [injection E16 as <-; cbn in Y; unfold prod in NZ; cbn in NZ; lia|].
  destruct (mapr _ _); [|discriminate]. injection E16 as <-. exact (eq_sym Y).
Qed.
Lemma bytes_rows a n : a_dt a = TS n -> length (a_data a) = prod (a_shape a) ->
  Forall (fun e => exists s, e = XBytes s /\ length s <= n /\ ascii_bytes_only s) (a_data a) -> n * prod (a_shape a) <> 0 -> stored_text n a (store_bytes o a).
Proof.
  intros D L H NZ. unfold store_bytes. rewrite D, HB. unfold nbytes, size. rewrite D. cbn [itemsize]. destruct (Nat.eqb_spec (prod (a_shape a) * n) 0); [nia|].
  set (us := map elem_bytes (a_data a)).
  assert (X : Forall2 (fun e s => e = XBytes s /\ length s <= n /\ ascii_bytes_only s) (a_data a) us).
  { unfold us. clear - H. induction H as [|e l (s & -> & H1 & H2) _ IH]; cbn [map elem_bytes]; constructor; auto. }
  assert (EQ : flat_map (fun e : elem pyval => match e with XBytes s => pad n s | _ => [] end) (a_data a) = concat (map (pad n) us)).
  { clear - X. induction X as [|e s l us (-> & _) _ IH]; cbn; [reflexivity|]. f_equal. exact IH. }
  rewrite EQ.
  assert (B : Forall (Forall (fun u => (u < 128)%N)) (map (pad n) us)).
  { clear - X. induction X as [|e s l us (-> & H1 & H2) _ IH]; cbn [map]; constructor; auto. apply pad_bound; [reflexivity|exact H2]. }
  assert (FB : forallb (fun u => (u <? 128)%N) (concat (map (pad n) us)) = true).
  { apply forallb_forall. pose proof (Forall_concat' _ _ B) as B'. rewrite Forall_forall in B'. intros x Hx. apply N.ltb_lt. auto. }
  rewrite FB. pose proof (F2_len _ _ _ X) as LX. exists 2, (map (pad n) us). split; [auto|]. rewrite <- widen_eq. split; [reflexivity|].
  split; [left|split; [|split; [|rewrite map_length; auto]]].
  - clear - X. induction X as [|e s l us (-> & H1 & H2) _ IH]; cbn [map]; constructor; auto. exists s. auto.
  - clear - X. induction X as [|e s l us (-> & H1 & H2) _ IH]; cbn [map]; constructor; auto. apply pad_len. exact H1.
  - eapply Forall_impl; [|apply Forall_concat'; exact B]. intros x Hx. cbv beta in *. eapply N.lt_trans; [exact Hx|reflexivity].
Qed.

(** ** what is stored *)
Lemma prep_eq c a b2 : store_str o c (store_bytes o a) = Ok b2 -> np_prepare o (c, a) =
  let b3 := tr (reshape (two_d (a_shape b2)) b2) in
  let b4 := if dt_eqb (a_dt b2) TBool then mkArr (TU 1) (a_shape b3) (map bool_to_u8 (a_data b3)) else b3 in
  let b5 := if np_empty a then shape_array (two_d (a_shape b2)) else b4 in
  if is_cpx (a_dt b5) then encode_complex (lit "real", lit "imag") b5 else Ok b5.
Proof.
  intros E. unfold np_prepare. rewrite E. cbn [bindr]. unfold write_dims. rewrite H2, HR, HL, HE, HC, andb_true_r. cbn [a_dt tr reshape andb].
  rewrite <- two_d_eq. cbv zeta. destruct (np_empty a); [|reflexivity].
  match goal with |- context [rev (a_shape ?x)] => replace (rev (a_shape x)) with (two_d (a_shape b2)) end; [reflexivity|].
  destruct (dt_eqb (a_dt b2) TBool); cbn [a_shape tr reshape]; rewrite rev_involutive; reflexivity.
Qed.
Lemma prep_empty c a b2 : store_str o c (store_bytes o a) = Ok b2 -> np_empty a = true -> np_prepare o (c, a) = Ok (shape_array (two_d (a_shape b2))).
Proof. intros E N. rewrite (prep_eq c a b2 E), N. reflexivity. Qed.
Lemma prep_plain c a b2 : store_str o c (store_bytes o a) = Ok b2 -> np_empty a = false -> a_dt b2 <> TBool -> is_cpx (a_dt b2) = false ->
  np_prepare o (c, a) = Ok (mkArr (a_dt b2) (rev (two_d (a_shape b2))) (transpose (two_d (a_shape b2)) (a_data b2))).
Proof.
  intros E N B C. rewrite (prep_eq c a b2 E), N. destruct (dt_eqb (a_dt b2) TBool) eqn:X; [destruct (a_dt b2); try discriminate X; congruence|].
  cbn [a_dt tr reshape]. cbv zeta. cbn [a_dt a_shape a_data]. rewrite C. reflexivity.
Qed.
Lemma nostr_store c a : is_strdt (a_dt a) = false -> store_str o c (store_bytes o a) = Ok a.
Proof. unfold store_str, store_bytes. destruct (a_dt a) eqn:D; cbn [is_strdt]; try discriminate; rewrite D; reflexivity. Qed.
Lemma prep_num c a cls : class_for (a_dt a) = Some cls -> np_empty a = false ->
  np_prepare o (c, a) = Ok (mkArr (num_dt (a_dt a)) (rev (two_d (a_shape a))) (map (num_conv (a_dt a)) (transpose (two_d (a_shape a)) (a_data a)))).
Proof.
  intros H N. destruct a as [d sh l]. cbn [a_dt a_shape a_data] in *.
  rewrite (prep_eq c _ _ (nostr_store c (mkArr d sh l) (proj1 (proj2 (proj2 (proj2 (proj2 (num_cls _ _ H)))))))), N. cbn [a_dt a_shape a_data tr reshape].
  table H; cbn [dt_eqb num_dt num_conv a_dt a_shape a_data is_cpx]; cbv zeta; cbn [a_dt is_cpx]; try rewrite map_id; reflexivity.
Qed.
Lemma shape_dims sh : mkArr (stored_dt (a_dt (A := pyval) (shape_array sh))) (a_shape (A := pyval) (shape_array sh)) (map noptr (a_data (shape_array sh))) = dims_data sh.
Proof. unfold shape_array, dims_data. cbn [a_dt a_shape a_data stored_dt]. rewrite map_map. reflexivity. Qed.

Lemma num_compatible a : matlab_class_of (a_dt a) <> None \/ is_struct (a_dt a) = true -> np_incompatible o a = false.
Proof. intros H. unfold np_incompatible. rewrite HM, HS. destruct (matlab_class_of (a_dt a)), (is_struct (a_dt a)); cbn; auto. destruct H; congruence. Qed.
Lemma num_empty a : is_strdt (a_dt a) = false -> np_empty a = (prod (a_shape a) =? 0).
Proof. intros H. unfold np_empty, size. rewrite H. cbn [andb]. rewrite orb_false_r. reflexivity. Qed.
(** the attributes, not to be looked into *)
Definition nattrs_sig c a ts pre w st : {A : attrs | A = fresh_attrs (np_attrs o (c, a) ts pre w st)}.
Proof. eexists. reflexivity. Qed.
Definition nattrs c a ts pre w st : attrs := proj1_sig (nattrs_sig c a ts pre w st).
Lemma nattrs_eq c a ts pre w st : nattrs c a ts pre w st = fresh_attrs (np_attrs o (c, a) ts pre w st).
Proof. exact (proj2_sig (nattrs_sig c a ts pre w st)). Qed.

Section Pl.
Variable pl : pyval -> res (option ltree).

Lemma plan_data_eq c a ts b : plan_data o pl (c, a) ts b =
  let f := filt_of (np_filters o (a_shape b) (size b * itemsize (a_dt b))) in
  if dt_eqb (a_dt b) TObj then do l <- mapr (plan_elem pl) (map elem_val (a_data b)); Ok (Some (LRefs (nattrs c a ts [] false (Some TRef)) (a_shape b) f l))
  else let d := mkArr (stored_dt (a_dt b)) (a_shape b) (map noptr (a_data b)) in Ok (Some (LData (nattrs c a ts [] false (Some (a_dt (h5py_present d)))) d f)).
Proof. unfold plan_data. destruct (a_dt b); cbn [dt_eqb]; cbv zeta; rewrite nattrs_eq; reflexivity. Qed.
Lemma shape_data sh c a ts : plan_data o pl (c, a) ts (shape_array sh) =
  Ok (Some (LData (nattrs c a ts [] false (Some (TU 8))) (dims_data sh) (filt_of (np_filters o (a_shape (A := pyval) (shape_array sh)) (size (A := pyval) (shape_array sh) * itemsize (TU 8)))))).
Proof. rewrite plan_data_eq. cbn [a_dt shape_array dt_eqb]. rewrite <- shape_dims. reflexivity. Qed.

Lemma plan_np_eq c a ts : np_incompatible o a = false -> plan_np o pl (c, a) ts =
  (do b <- np_prepare o (c, a);
    if as_group o a (a_dt b) then
      do l <- mapr (plan_field o pl b) (combine (seq 0 (length (struct_fields (a_dt b)))) (struct_fields (a_dt b)));
      Ok (Some (LGroup (nattrs c a ts [(lit "MATLAB_class", QPyStr (lit "struct"))] true None) (somes l)))
    else plan_data o pl (c, a) ts b).
Proof. intros H. unfold plan_np. rewrite H, HM, nattrs_eq. reflexivity. Qed.
Lemma attrs_shown c a ts st : np_incompatible o a = false -> ascii_bytes (cls_of (a_dt a)) = Ok (cls_of (a_dt a)) ->
  let A := nattrs c a ts [] false st in
  A k_class = Some (AStr (cls_of (a_dt a))) /\ A k_empty = (if np_empty a then Some (AU8 1) else None) /\ A k_decode = dec_of (a_dt a) st /\
  A k_fields = (if fields_anyway o a then flds_of (map escaped (field_names (a_dt a))) else None).
Proof. intros H1 H3 A. unfold A. rewrite nattrs_eq. destruct (np_attrs_mat o HM HS c a ts [] false st (or_introl eq_refl) H1) as (X1 & X2 & X3 & X4). rewrite H3 in X1. auto. Qed.
Lemma not_group a d : is_struct d = false -> as_group o a d = false.
Proof. intros H. unfold as_group. rewrite H. reflexivity. Qed.

Lemma attrs_shown' c a ts st : np_incompatible o a = false -> ascii_bytes (cls_of (a_dt a)) = Ok (cls_of (a_dt a)) -> is_struct (a_dt a) = false ->
  let A := nattrs c a ts [] false st in
  A k_class = Some (AStr (cls_of (a_dt a))) /\ A k_empty = (if np_empty a then Some (AU8 1) else None) /\ A k_decode = dec_of (a_dt a) st /\ A k_fields = None.
Proof.
  intros Y1 Y2 Y3 A. destruct (attrs_shown c a ts st Y1 Y2) as (X1 & X2 & X3 & X4). fold A in X1, X2, X3, X4. unfold fields_anyway in X4. rewrite Y3 in X4. auto.
Qed.
(** numbers *)
Lemma num_shows c a ts cls r : class_for (a_dt a) = Some cls -> length (a_data a) = prod (a_shape a) -> Forall (holds_num (a_dt a)) (a_data a) ->
  plan_np o pl (c, a) ts = Ok r -> exists T l, r = Some T /\ shows T (MArr cls (two_d (a_shape a)) l) /\ exists l0, Forall2 shown (a_data a) l0 /\ column_major (two_d (a_shape a)) l0 l.
Proof.
  intros CF L HH E. destruct (num_cls _ _ CF) as (C1 & C2 & C3 & C4 & C5 & C6 & C7 & C8 & C9 & C10).
  assert (NI := num_compatible a (or_introl C4)). rewrite plan_np_eq in E by exact NI.
  assert (PR : prod (two_d (a_shape a)) = prod (a_shape a)) by apply atleast_2d_prod.
  assert (SH : Forall2 shown (a_data a) (map show1 (a_data a))).
  { rewrite <- (map_id (a_data a)) at 1. apply F2_map2. eapply Forall_impl; [|exact HH]. intros e He. eapply num_shown; eauto. }
  assert (CM : column_major (two_d (a_shape a)) (map show1 (a_data a)) (map show1 (transpose (two_d (a_shape a)) (a_data a)))).
  { rewrite <- transpose_map. apply column_transpose. rewrite map_length. congruence. }
  assert (NST : is_struct (a_dt a) = false) by (clear - CF; destruct (a_dt a); try reflexivity; discriminate CF).  assert (CA : ascii_bytes (cls_of (a_dt a)) = Ok (cls_of (a_dt a))) by (rewrite C1; exact C2).
  pose proof (num_empty a C5) as NE. destruct (prod (a_shape a) =? 0) eqn:Z.
  - apply Nat.eqb_eq in Z. rewrite (prep_empty c a a (nostr_store c a C5) NE) in E. cbn [bindr] in E. rewrite not_group in E by reflexivity.
    rewrite shape_data in E. injection E as <-. destruct (attrs_shown' c a ts (Some (TU 8)) NI CA NST) as (X1 & X2 & X3 & X4). rewrite NE in X2. rewrite C1 in X1.
    eexists. exists []. split; [reflexivity|]. split.
    + apply shows_num_empty; auto using two_d_len. congruence.
    + exists (map show1 (a_data a)). split; [exact SH|]. rewrite Z in L. destruct (a_data a); [|discriminate L]. cbn [map] in *. rewrite transpose_none in CM. exact CM.
  - apply Nat.eqb_neq in Z. rewrite (prep_num c a cls CF NE) in E. cbn [bindr a_dt] in E.
    assert (AG : as_group o a (num_dt (a_dt a)) = false).
    { unfold as_group. destruct (is_cpx (a_dt a)) eqn:IC; [cbn [negb]; rewrite andb_false_r; reflexivity|]. replace (is_struct (num_dt (a_dt a))) with false; [reflexivity|]. clear - IC C10. destruct (a_dt a); try discriminate; reflexivity. }
    rewrite AG, plan_data_eq in E. cbv zeta in E. cbn [a_dt a_shape a_data] in E. replace (dt_eqb (num_dt (a_dt a)) TObj) with false in E by (clear - C8; destruct (num_dt (a_dt a)); try reflexivity; congruence).
    set (f := filt_of _) in E. set (d := mkArr (stored_dt (num_dt (a_dt a))) (rev (two_d (a_shape a))) (map noptr (map (num_conv (a_dt a)) (transpose (two_d (a_shape a)) (a_data a))))) in E.
    injection E as <-. assert (DT : a_dt (h5py_present d) = num_dt (a_dt a)) by (unfold d; rewrite C7; apply C9). rewrite DT.
    destruct (attrs_shown' c a ts (Some (num_dt (a_dt a))) NI CA NST) as (X1 & X2 & X3 & X4). rewrite NE in X2. rewrite C1 in X1.
    eexists. exists (map show1 (transpose (two_d (a_shape a)) (a_data a))). split; [reflexivity|]. split; [|exists (map show1 (a_data a)); auto].
    assert (SD : a_shape d = rev (two_d (a_shape a))) by reflexivity. rewrite <- (rev_involutive (two_d (a_shape a))) at 1. rewrite <- SD.
    apply shows_num; auto.
    + rewrite SD, rev_length. apply two_d_len.
    + rewrite SD, prod_rev. unfold d. cbn [a_data]. rewrite !map_length. apply transpose_len. congruence.
    + rewrite SD, prod_rev, PR. exact Z.
    + rewrite X3. unfold d. cbn [a_dt a_data]. rewrite C7, map_map. apply F2_map2. apply transpose_Forall. eapply Forall_impl; [|exact HH]. intros e He. apply num_elem; auto.
Qed.

(** text *)
Lemma text_shows c a ts r n w b2 rs : a_dt a = TUni n \/ a_dt a = TS n -> n * prod (a_shape a) <> 0 -> store_str o c (store_bytes o a) = Ok b2 -> (w = 2 \/ w = 4) ->
  b2 = mkArr (TU w) (widen n (a_shape a)) (units (concat rs)) -> length (concat rs) = prod (widen n (a_shape a)) -> Forall (fun u => (u < 2 ^ (8 * N.of_nat w))%N) (concat rs) ->
  plan_np o pl (c, a) ts = Ok r ->
  exists T, r = Some T /\ shows T (MArr (lit "char") (two_d (widen n (a_shape a))) (transpose (two_d (widen n (a_shape a))) (MatlabSpec.text (concat rs)))).
Proof.
  intros D NZ E Hw -> LC BD P.
  assert (CL : cls_of (a_dt a) = lit "char") by (destruct D as [-> | ->]; reflexivity).
  assert (NI : np_incompatible o a = false) by (apply num_compatible; left; destruct D as [-> | ->]; discriminate).
  assert (IZ : prod (a_shape a) <> 0 /\ n <> 0) by (split; intros Z; rewrite Z in NZ; lia). destruct IZ as [Z1 Z2].
  assert (NE : np_empty a = false).
  { unfold np_empty, nbytes, size. destruct (Nat.eqb_spec (prod (a_shape a)) 0); [lia|]. cbn [orb]. destruct D as [-> | ->]; cbn [is_strdt itemsize andb]; apply Nat.eqb_neq; nia. }
  rewrite plan_np_eq in P by exact NI. rewrite (prep_plain c a _ E NE) in P by (cbn; congruence). cbn [bindr a_dt a_shape a_data] in P. rewrite not_group in P by reflexivity.
  rewrite plan_data_eq in P. cbv zeta in P. cbn [a_dt a_shape a_data stored_dt h5py_present dt_eqb] in P. injection P as <-.
  assert (NST : is_struct (a_dt a) = false) by (destruct D as [D|D]; rewrite D; reflexivity).  assert (CA : ascii_bytes (cls_of (a_dt a)) = Ok (cls_of (a_dt a))) by (rewrite CL; reflexivity).
  destruct (attrs_shown' c a ts (Some (TU w)) NI CA NST) as (X1 & X2 & X3 & X4). rewrite NE in X2. rewrite CL in X1.
  assert (DO : dec_of (a_dt a) (Some (TU w)) = Some (AI64 (Z.of_nat w))) by (destruct D as [-> | ->]; reflexivity). rewrite DO in X3.
  eexists. split; [reflexivity|]. set (dims := two_d (widen n (a_shape a))) in *.
  assert (PD : prod dims = prod (widen n (a_shape a))) by (apply atleast_2d_prod).
  assert (PW : prod (widen n (a_shape a)) = n * prod (a_shape a)).
  { unfold widen. destruct (a_shape a) as [|x sh] eqn:S; [unfold prod; cbn; lia|]. change (removelast (x :: sh) ++ [last (x :: sh) 1 * n]) with (scale_last n (x :: sh)). rewrite scale_last_prod by discriminate. lia. }
  match goal with |- shows (LData ?A ?d ?f) _ => set (dd := d) end.
  assert (SD : a_shape dd = rev dims) by reflexivity.
  match goal with |- shows _ (MArr ?c dims ?x) => replace (MArr c dims x) with (MArr c (rev (a_shape dd)) x) by (rewrite SD, rev_involutive; reflexivity) end. apply shows_num; auto.
  - rewrite SD, rev_length. apply two_d_len.
  - rewrite SD, prod_rev. unfold dd. cbn [a_data]. rewrite map_length. apply transpose_len. unfold units. rewrite map_length. congruence.
  - rewrite SD, prod_rev, PD, PW. exact NZ.
  - rewrite X3. unfold dd. cbn [a_dt a_data]. rewrite <- transpose_map. apply transpose_F2. unfold units, MatlabSpec.text. rewrite map_map. apply F2_map2. eapply Forall_impl; [|exact BD].
    intros u Hu. cbv beta in *. cbn [unit_ noptr]. apply N_char; [exact Hw|]. unfold fits. destruct Hw as [-> | ->]; [change (2 ^ (8 * N.of_nat 2))%N with 65536%N in Hu|change (2 ^ (8 * N.of_nat 4))%N with 4294967296%N in Hu]; cbn; lia.
Qed.
Lemma no_text_shows c a ts r n b2 : a_dt a = TUni n \/ a_dt a = TS n -> n * prod (a_shape a) = 0 -> store_str o c (store_bytes o a) = Ok b2 -> a_shape b2 = [0] ->
  plan_np o pl (c, a) ts = Ok r -> exists T, r = Some T /\ shows T (MArr (lit "char") [1; 0] []).
Proof.
  intros D Z E S P. assert (CL : cls_of (a_dt a) = lit "char") by (destruct D as [-> | ->]; reflexivity).
  assert (NI : np_incompatible o a = false) by (apply num_compatible; left; destruct D as [-> | ->]; discriminate).
  assert (NE : np_empty a = true).
  { unfold np_empty, nbytes, size. destruct (Nat.eqb_spec (prod (a_shape a)) 0); [reflexivity|]. cbn [orb]. destruct D as [-> | ->]; cbn [is_strdt itemsize andb]; apply Nat.eqb_eq; nia. }
  rewrite plan_np_eq in P by exact NI. rewrite (prep_empty c a _ E NE) in P. cbn [bindr] in P. rewrite not_group in P by reflexivity. rewrite shape_data, S in P. injection P as <-.
  assert (NST : is_struct (a_dt a) = false) by (destruct D as [D|D]; rewrite D; reflexivity).  assert (CA : ascii_bytes (cls_of (a_dt a)) = Ok (cls_of (a_dt a))) by (rewrite CL; reflexivity).
  destruct (attrs_shown' c a ts (Some (TU 8)) NI CA NST) as (X1 & X2 & X3 & X4). rewrite NE in X2. rewrite CL in X1.
  eexists. split; [reflexivity|]. change [1; 0] with (two_d [0]). apply shows_num_empty; auto; vm_compute; tauto.
Qed.
(** an array of text *)
Lemma chars_shows c a ts r n : (a_dt a = TUni n /\ (c = CScalar -> a_shape a = []) /\ Forall (fun e => exists s, e = XStr s /\ length s <= n /\ code_points s) (a_data a)) \/
  (a_dt a = TS n /\ Forall (fun e => exists s, e = XBytes s /\ length s <= n /\ ascii_bytes_only s) (a_data a)) -> length (a_data a) = prod (a_shape a) ->
  plan_np o pl (c, a) ts = Ok r -> exists T, r = Some T /\
    ((n * prod (a_shape a) = 0 /\ shows T (MArr (lit "char") [1; 0] [])) \/
     (n * prod (a_shape a) <> 0 /\ exists rs data, rows n (a_data a) rs /\ column_major (two_d (widen n (a_shape a))) (MatlabSpec.text (concat rs)) data /\
        shows T (MArr (lit "char") (two_d (widen n (a_shape a))) data))).
Proof.
  intros H L P. assert (D : a_dt a = TUni n \/ a_dt a = TS n) by tauto.
  assert (SB : exists b2, store_str o c (store_bytes o a) = Ok b2).
  { rewrite plan_np_eq in P by (apply num_compatible; left; destruct D as [-> | ->]; discriminate). unfold np_prepare in P. destruct (store_str o c (store_bytes o a)) as [b2|]; [eauto|discriminate P]. }
  destruct SB as [b2 SB]. destruct (Nat.eq_dec (n * prod (a_shape a)) 0) as [Z|NZ].
  - assert (S0 : a_shape b2 = [0]).
    { destruct H as [(H1 & H3 & H4)|(H1 & H3)].
      - unfold store_bytes in SB. rewrite H1 in SB. unfold store_str in SB. rewrite H1, HU in SB.
        assert (NB : nbytes a =? 0 = true) by (unfold nbytes, size; rewrite H1; cbn [itemsize]; apply Nat.eqb_eq; nia).
        unfold convert_numpy_str_to_uint16, convert_numpy_str_to_uint32 in SB. rewrite NB in SB. cbn [a_shape] in SB.
        destruct c; [|destruct (a_shape a); [discriminate|]..]; destruct (_ =? _); injection SB as <-; reflexivity.
      - unfold store_bytes in SB. rewrite H1, HB in SB. replace (nbytes a =? 0) with true in SB; [|symmetry; unfold nbytes, size; rewrite H1; cbn [itemsize]; apply Nat.eqb_eq; nia].
        injection SB as <-. reflexivity. }
    destruct (no_text_shows c a ts r n b2 D Z SB S0 P) as (T & -> & S). exists T. auto.
  - assert (ST : stored_text n a b2).
    { destruct H as [(H1 & H3 & H4)|(H1 & H3)].
      - unfold store_bytes in SB. rewrite H1 in SB. eapply str_rows; eauto.
      - pose proof (bytes_rows a n H1 L H3 NZ) as X. destruct X as (w & rs & X1 & X2 & X3). rewrite X2 in SB. injection SB as <-. exists w, rs. auto. }
    destruct ST as (w & rs & W & B & R & LR & BD & LL).
    assert (LC : length (concat rs) = prod (widen n (a_shape a))) by (rewrite widen_prod, (concat_len n) by exact LR; rewrite LL, L; reflexivity).
    destruct (text_shows c a ts r n w b2 rs D NZ SB W B LC BD P) as (T & -> & S). exists T. split; [reflexivity|]. right. split; [exact NZ|].
    exists rs, (transpose (two_d (widen n (a_shape a))) (MatlabSpec.text (concat rs))). split; [exact R|]. split; [|exact S].
    apply column_transpose. unfold MatlabSpec.text. rewrite map_length, LC. symmetry. apply atleast_2d_prod.
Qed.
End Pl.

Definition presents (pl : pyval -> res (option ltree)) : Prop := forall v, presentable v -> forall r, pl v = Ok r -> exists T m, r = Some T /\ looks o v m /\ shows T m.

(** arrays of objects *)
Definition cell_of (dims : list nat) (l : list pyval) (T : ltree) : Prop := exists A f Ts ms data,
  T = LRefs A (rev dims) f Ts /\ length Ts = prod dims /\ Forall2 shows Ts data /\ Forall2 (looks o) l ms /\ column_major dims ms data.
Lemma elems_shown pl l : presents pl -> Forall presentable l -> forall Ts, mapr (plan_elem pl) l = Ok Ts -> exists ms, Forall2 (looks o) l ms /\ Forall2 shows Ts ms.
Proof.
  intros PP H. induction H as [|v l Hv _ IH]; intros Ts E; cbn [mapr] in E; [injection E as <-; exists []; auto|].
  unfold plan_elem in E at 1. destruct (pl v) as [r|] eqn:V; [|discriminate E]. cbn [bindr] in E. destruct (mapr (plan_elem pl) l) as [Ts'|]; [|discriminate E]. cbn [bindr] in E. injection E as <-.
  destruct (PP v Hv r V) as (T & m & -> & LK & S). destruct (IH Ts' eq_refl) as (ms & M1 & M2). exists (m :: ms). auto.
Qed.
Lemma obj_shows pl c a ts l r : presents pl -> a_dt a = TObj -> length (a_data a) = prod (a_shape a) -> a_data a = map XPtr l -> Forall presentable l ->
  plan_np o pl (c, a) ts = Ok r -> exists T, r = Some T /\ (prod (a_shape a) <> 0 -> cell_of (two_d (a_shape a)) l T) /\
  exists ms data, Forall2 (looks o) l ms /\ column_major (two_d (a_shape a)) ms data /\ shows T (MCell (two_d (a_shape a)) data).
Proof.
  intros PP D L EL HL' P. set (dims := two_d (a_shape a)) in *. assert (PR : prod dims = prod (a_shape a)) by apply atleast_2d_prod.
  assert (NI : np_incompatible o a = false) by (apply num_compatible; left; rewrite D; discriminate). rewrite plan_np_eq in P by exact NI.
  assert (NST : is_struct (a_dt a) = false) by (rewrite D; reflexivity).  assert (CA : ascii_bytes (cls_of (a_dt a)) = Ok (cls_of (a_dt a))) by (rewrite D; reflexivity).
  assert (CL : cls_of (a_dt a) = lit "cell") by (rewrite D; reflexivity).
  assert (NS : is_strdt (a_dt a) = false) by (rewrite D; reflexivity). pose proof (num_empty a NS) as NE.
  destruct (Nat.eqb_spec (prod (a_shape a)) 0) as [Z|Z].
  - rewrite (prep_empty c a a (nostr_store c a NS) NE) in P. cbn [bindr] in P. rewrite not_group in P by reflexivity. rewrite shape_data in P. injection P as <-.
    destruct (attrs_shown' c a ts (Some (TU 8)) NI CA NST) as (X1 & X2 & X3 & X4). rewrite NE in X2. rewrite CL in X1.
    assert (l = []) by (rewrite Z, EL, map_length in L; destruct l; [reflexivity|discriminate L]). subst l.
    eexists. split; [reflexivity|]. split; [congruence|]. exists [], []. split; [constructor|]. split.
    + pose proof (column_transpose (A := mval) dims [] ltac:(cbn [length]; congruence)) as CT. rewrite transpose_none in CT. exact CT.
    + apply shows_cell_empty; auto; [unfold dims; apply two_d_len|congruence].
  - rewrite (prep_plain c a a (nostr_store c a NS) NE) in P by (rewrite D; try discriminate; reflexivity). cbn [bindr a_dt] in P. rewrite D in P. rewrite not_group in P by reflexivity.
    rewrite plan_data_eq in P. cbv zeta in P. cbn [a_dt a_shape a_data dt_eqb] in P. fold dims in P. rewrite EL, transpose_map, map_map in P. cbn [elem_val] in P. rewrite map_id in P.
    destruct (mapr _ _) as [Ts|] eqn:M; [|discriminate P]. cbn [bindr] in P. injection P as <-.
    assert (LL : length l = prod dims) by (rewrite PR, <- L, EL, map_length; reflexivity).
    destruct (elems_shown pl _ PP (transpose_Forall _ dims l HL') Ts M) as (data & M1 & M2).
    destruct (F2_transpose_back _ dims l data LL M1) as (ms & LK & CM).
    destruct (attrs_shown' c a ts (Some TRef) NI CA NST) as (X1 & X2 & X3 & X4). rewrite NE in X2. rewrite CL in X1.
    assert (LT : length Ts = prod dims) by (rewrite (F2_len _ _ _ M2), <- (F2_len _ _ _ M1); apply transpose_len; exact LL).
    eexists. split; [reflexivity|]. split; [intros _; unfold cell_of; do 5 eexists; split; [reflexivity|]; repeat (split; [eassumption|]); exact CM|].
    exists ms, data. split; [exact LK|]. split; [exact CM|]. replace (MCell dims data) with (MCell (rev (rev dims)) data) by (rewrite rev_involutive; reflexivity). apply shows_cell; auto; rewrite ?prod_rev; auto; [rewrite rev_length; apply two_d_len|congruence].
Qed.

(** structured arrays *)
Lemma escaped_nodup l : NoDup l -> NoDup (map escaped l).
Proof. induction 1 as [|x l H _ IH]; cbn [map]; constructor; auto. intros X. apply in_map_iff in X. destruct X as (u & Eu & Hu). apply escaped_inj in Eu. subst u. exact (H Hu). Qed.
Lemma two_d_two_d sh : two_d (two_d sh) = two_d sh.
Proof. destruct sh as [|a [|b r]]; reflexivity. Qed.
Lemma map_attrs_id T : map_attrs (fun a => a) T = T.
Proof. destruct T; reflexivity. Qed.
Lemma column_transposed n f sh l : column n f (transpose sh l) = transpose sh (column n f l).
Proof. unfold column. rewrite transpose_map. reflexivity. Qed.
(** the fields of one struct *)
Lemma fields_one pl (fs : list (pystr * (dt * list nat))) cols b : presents pl -> prod (a_shape b) = 1 -> a_data b = [XRec cols] ->
  forall k fs' cols', fs' = skipn k fs -> cols' = skipn k cols -> length cols' = length fs' ->
  Forall (fun fc => presentable (field_item (fst (snd (fst fc))) (snd (snd (fst fc))) (snd fc))) (combine fs' cols') ->
  forall l, mapr (plan_field o pl b) (combine (seq k (length fs')) fs') = Ok l ->
  exists Ts ms, somes l = combine (map escaped (map fst fs')) Ts /\ length Ts = length fs' /\ Forall2 shows Ts ms /\
    Forall2 (fun fc m => looks o (field_item (fst (snd (fst fc))) (snd (snd (fst fc))) (snd fc)) m) (combine fs' cols') ms.
Proof.
  intros PP P1 DB k fs'. revert k. induction fs' as [|[name [d sh]] fs' IH]; intros k cols' E1 E2 L HP l M.
  - cbn in M. injection M as <-. destruct cols'; [|discriminate L]. exists [], []. repeat split; constructor.
  - destruct cols' as [|es cols']; [discriminate L|]. cbn [length seq combine mapr] in M. inversion HP as [|? ? Hp HP']; subst. cbn [fst snd] in Hp.
    destruct (plan_field o pl b (k, (name, (d, sh)))) as [x|] eqn:PF; [|discriminate M]. cbn [bindr] in M. destruct (mapr _ _) as [l'|] eqn:M'; [|discriminate M]. cbn [bindr] in M. injection M as <-.
    assert (S1 : fs' = skipn (S k) fs) by (clear - E1; revert fs E1; induction k as [|k IH]; intros [|x fs] E; cbn in E |- *; try discriminate; [injection E as _ E; exact E|apply IH; exact E]).
    assert (S2 : cols' = skipn (S k) cols) by (clear - E2; revert cols E2; induction k as [|k IH]; intros [|x fs] E; cbn in E |- *; try discriminate; [injection E as _ E; exact E|apply IH; exact E]).
    assert (N2 : nth k cols [] = es) by (clear - E2; revert cols E2; induction k as [|k IH]; intros [|x fs] E; cbn in E |- *; try discriminate; [injection E as E _; congruence|apply IH; exact E]).
    destruct (IH (S k) cols' S1 S2 ltac:(cbn in L; lia) HP' l' M') as (Ts & ms & I1 & I2 & I3 & I4).
    unfold plan_field in PF. rewrite P1 in PF. cbn [Nat.eqb] in PF.
    assert (FV : field_value o b k (d, sh) = field_item d sh es).
    { unfold field_value. rewrite HR, P1, DB. cbn [Nat.eqb]. unfold column, tr. cbn [map a_data a_shape a_dt fst snd]. rewrite single_transpose by exact P1. rewrite N2. reflexivity. }
    rewrite FV in PF. destruct (pl (field_item d sh es)) as [r|] eqn:PL; [|discriminate PF]. cbn [bindr] in PF. injection PF as <-.
    destruct (PP _ Hp r PL) as (T & m & -> & LK & S). cbn [option_map]. rewrite map_attrs_id.
    exists (T :: Ts), (m :: ms). cbn [somes flat_map map fst combine length app]. fold (somes l'). rewrite I1, I2. repeat split; constructor; auto.
Qed.
(** the fields of many *)
Definition unfolds (pl : pyval -> res (option ltree)) : Prop :=
  forall a r, pl (VNp CNdarray a) = Ok r -> exists pl' ts, presents pl' /\ plan_np o pl' (CNdarray, a) ts = Ok r.
Lemma fields_many pl (fs : list (pystr * (dt * list nat))) b dims data : unfolds pl -> prod dims <> 1 -> prod dims <> 0 -> two_d dims = dims -> length data = prod dims -> b = mkArr (TStruct fs) (rev dims) (transpose dims data) ->
  forall nfs, Forall (fun nf => Forall presentable (column (fst nf) (snd (snd nf)) data)) nfs ->
  forall l, mapr (plan_field o pl b) nfs = Ok l ->
  exists Ts cols, somes l = combine (map (fun nf => escaped (fst (snd nf))) nfs) Ts /\ length Ts = length nfs /\ Forall2 (column_of (rev dims)) Ts cols /\
    Forall2 (fun nf col => exists ms, Forall2 (looks o) (column (fst nf) (snd (snd nf)) data) ms /\ column_major dims ms col) nfs cols.
Proof.
  intros UU P1 P0 TD LD DB. induction nfs as [|[n [name f]] nfs IH]; intros HP l M.
  - cbn in M. injection M as <-. exists [], []. repeat split; constructor.
  - cbn [mapr] in M. inversion HP as [|? ? Hp HP']; subst x l0. cbn [fst snd] in Hp.
    destruct (plan_field o pl b (n, (name, f))) as [x|] eqn:PF; [|discriminate M]. cbn [bindr] in M. destruct (mapr _ _) as [l'|] eqn:M'; [|discriminate M]. cbn [bindr] in M. injection M as <-.
    destruct (IH HP' l' eq_refl) as (Ts & cols & I1 & I2 & I3 & I4).
    assert (SB : prod (a_shape b) =? 1 = false) by (rewrite DB; cbn [a_shape]; rewrite prod_rev; apply Nat.eqb_neq; exact P1).
    unfold plan_field in PF. rewrite SB in PF.
    assert (FV : field_value o b n f = VNp CNdarray (mkArr TObj dims (map XPtr (column n f data)))).
    { unfold field_value. rewrite HR, SB, DB. unfold tr. cbn [a_data a_shape a_dt]. rewrite column_transposed, <- transpose_map, rev_involutive, transpose_invol; [reflexivity|]. unfold column. rewrite !map_length. exact LD. }
    rewrite FV in PF. destruct (pl _) as [r|] eqn:PL; [|discriminate PF]. cbn [bindr] in PF. injection PF as <-.
    destruct (UU _ r PL) as (pl' & ts & PP & PN).
    destruct (obj_shows pl' CNdarray (mkArr TObj dims (map XPtr (column n f data))) ts (column n f data) r PP eq_refl) as (T & -> & CO & _); cbn [a_shape a_data]; auto.
    { unfold column. rewrite !map_length. exact LD. }
    cbn [a_shape] in CO. rewrite TD in CO. destruct (CO P0) as (A & ff & Ts' & ms & dat & -> & C1 & C2 & C3 & C4). cbn [option_map map_attrs].
    exists (LRefs no_attrs (rev dims) ff Ts' :: Ts), (dat :: cols). cbn [somes flat_map map fst snd combine length app]. fold (somes l'). rewrite I1, I2. repeat split.
    + constructor; [|exact I3]. exists ff, Ts'. rewrite prod_rev. auto.
    + constructor; [|exact I4]. exists ms. auto.
Qed.
Lemma struct_attrs c a ts fs pre w st : a_dt a = TStruct fs -> pre = [] \/ pre = [(lit "MATLAB_class", QPyStr (lit "struct"))] ->
  nattrs c a ts pre w st k_class = Some (AStr (lit "struct")) /\ nattrs c a ts pre w st k_empty = (if np_empty a then Some (AU8 1) else None) /\
  nattrs c a ts pre w st k_fields = flds_of (map escaped (map fst fs)).
Proof.
  intros D Hp. assert (NI : np_incompatible o a = false) by (apply num_compatible; right; rewrite D; reflexivity).
  rewrite nattrs_eq. destruct (np_attrs_mat o HM HS c a ts pre w st Hp NI) as (X1 & X2 & X3 & X4). rewrite X1, X2, X4. rewrite D. unfold fields_anyway. rewrite D, HS. cbn [is_struct andb orb]. rewrite orb_true_r. auto.
Qed.
Lemma order_shown (A : attrs) names : A k_fields = flds_of names -> match A k_fields with None => None | _ => order_of names end = order_of names.
Proof. intros H. rewrite H. unfold flds_of, order_of, ascii_str. destruct (forallb _ names); reflexivity. Qed.
Lemma record_shows pl c a ts fs r : presents pl -> unfolds pl -> a_dt a = TStruct fs -> length (a_data a) = prod (a_shape a) -> NoDup (map fst fs) ->
  Forall (fun e => exists cols, e = XRec cols /\ length cols = length fs /\
       Forall (fun fc => presentable (field_item (fst (snd (fst fc))) (snd (snd (fst fc))) (snd fc))) (combine fs cols)) (a_data a) ->
  plan_np o pl (c, a) ts = Ok r -> exists T m, r = Some T /\ looks o (VNp c a) m /\ shows T m.
Proof.
  intros PP UU D L ND HP P. set (dims := two_d (a_shape a)) in *. assert (PR : prod dims = prod (a_shape a)) by apply atleast_2d_prod.
  assert (NI : np_incompatible o a = false) by (apply num_compatible; right; rewrite D; reflexivity). rewrite plan_np_eq in P by exact NI.
  assert (NS : is_strdt (a_dt a) = false) by (rewrite D; reflexivity). pose proof (num_empty a NS) as NE.
  destruct (Nat.eqb_spec (prod (a_shape a)) 0) as [Z|Z].
  - rewrite (prep_empty c a a (nostr_store c a NS) NE) in P. cbn [bindr] in P. rewrite not_group in P by reflexivity. rewrite shape_data in P. injection P as <-.
    destruct (struct_attrs c a ts fs [] false (Some (TU 8)) D (or_introl eq_refl)) as (X1 & X2 & X3). rewrite NE in X2.
    eexists. eexists. split; [reflexivity|]. split; [apply (Lk_no_records o c a fs D Z)|]. rewrite <- (map_map escaped (fun k => (k, []))).
    apply shows_struct_empty; auto; [apply escaped_nodup; exact ND|apply two_d_len|]. fold dims. congruence.
  - rewrite (prep_plain c a a (nostr_store c a NS) NE) in P by (rewrite D; try discriminate; reflexivity). cbn [bindr a_dt] in P. fold dims in P. rewrite D in P.
    replace (as_group o a (TStruct fs)) with true in P by (unfold as_group; rewrite D, HS; reflexivity). cbn [struct_fields] in P.
    destruct (mapr _ _) as [l|] eqn:M; [|discriminate P]. cbn [bindr] in P. injection P as <-.
    destruct (struct_attrs c a ts fs [(lit "MATLAB_class", QPyStr (lit "struct"))] true None D (or_intror eq_refl)) as (X1 & X2 & X3). rewrite NE in X2.
    assert (LF : length (map escaped (map fst fs)) = length fs) by (rewrite !map_length; reflexivity).
    destruct (Nat.eq_dec (prod (a_shape a)) 1) as [O|O].
    + rewrite O in L. destruct (a_data a) as [|e [|]] eqn:DA; try discriminate L. inversion HP as [|? ? (cols & -> & LC & HC') _]; subst.
      rewrite single_transpose in M by congruence.
      destruct (fields_one pl fs cols (mkArr (TStruct fs) (rev dims) [XRec cols]) PP ltac:(cbn [a_shape]; rewrite prod_rev; congruence) eq_refl 0 fs cols eq_refl eq_refl LC HC' l M) as (Ts & ms & S1 & S2 & S3 & S4).
      eexists. eexists. split; [reflexivity|]. split; [apply (Lk_record o c a fs cols ms D O DA S4)|]. rewrite S1.
      rewrite <- (order_shown _ _ X3). apply shows_struct; auto. congruence.
    + assert (CF : Forall (fun nf : nat * (pystr * (dt * list nat)) => Forall presentable (column (fst nf) (snd (snd nf)) (a_data a))) (combine (seq 0 (length fs)) fs)).
      { apply Forall_forall. intros [n [name f]] Hn. apply in_combine_l in Hn as H1. cbn [fst snd]. unfold column. rewrite Forall_map. rewrite Forall_forall in HP |- *.
        intros e He. destruct (HP e He) as (cols & -> & LC & HC'). rewrite Forall_forall in HC'.
        assert (NF : nth_error fs n = Some (name, f)).
        { clear - Hn. assert (G : forall k, In (n, (name, f)) (combine (seq k (length fs)) fs) -> k <= n /\ nth_error fs (n - k) = Some (name, f)).
          { clear Hn. induction fs as [|x fs IH]; intros k H; cbn [length seq combine In] in H; [destruct H|]. destruct H as [H|H]; [injection H as -> ->; rewrite Nat.sub_diag; auto|].
            specialize (IH _ H). clear H. rename IH into H. destruct H as [H1 H2]. split; [lia|]. replace (n - k) with (S (n - S k)) by lia. exact H2. }
          destruct (G 0 Hn) as [_ G']. rewrite Nat.sub_0_r in G'. exact G'. }
        assert (NL : n < length cols) by (rewrite LC; apply nth_error_Some; congruence).
        assert (NC : nth_error cols n = Some (nth n cols [])) by (apply nth_error_nth'; exact NL).
        apply (HC' ((name, f), nth n cols [])). clear - NF NC. revert cols n NF NC. generalize (@nil (elem pyval)) as d0. intros d0 cols n. revert cols. induction fs as [|x fs IH] in n |- *; intros [|y cols] NF NC; destruct n; try discriminate; cbn in *.
        - injection NF as ->. auto.
        - right. apply IH; auto. }
      destruct (fields_many pl fs _ dims (a_data a) UU ltac:(congruence) ltac:(congruence) (two_d_two_d _) ltac:(congruence) eq_refl _ CF l M) as (Ts & cols & S1 & S2 & S3 & S4).
      assert (NM : map (fun nf : nat * (pystr * (dt * list nat)) => escaped (fst (snd nf))) (combine (seq 0 (length fs)) fs) = map escaped (map fst fs)).
      { rewrite map_map. rewrite <- (combine_snd (seq 0 (length fs)) fs) at 3 by apply seq_length. rewrite map_map. reflexivity. }
      rewrite NM in S1. rewrite combine_length, seq_length, Nat.min_id in S2.
      eexists. eexists. split; [reflexivity|]. split; [apply (Lk_records o c a fs cols D); [lia|]|].
      * clear - S4 HP. induction S4 as [|nf col nfs cols (ms & H1 & H2) _ IH]; constructor; [|exact IH]. exists (column (fst nf) (snd (snd nf)) (a_data a)), ms.
        split; [|split; [exact H1|exact H2]]. clear - HP. induction HP as [|e l (cs & -> & _) _ IH]; cbn [column map]; constructor; [|exact IH]. exists cs. auto.
      * rewrite S1. fold dims. replace (MStruct (order_of (map escaped (map fst fs))) dims) with (MStruct (order_of (map escaped (map fst fs))) (rev (rev dims))) by (rewrite rev_involutive; reflexivity).
        apply shows_structs; auto; [congruence|rewrite rev_length; apply two_d_len|rewrite prod_rev; lia].
Qed.

(** dicts *)
Lemma items_shown pl vs : presents pl -> Forall presentable vs -> forall names l, length names = length vs -> mapr (plan_item pl) (combine names vs) = Ok l ->
  exists Ts ms, somes l = combine names Ts /\ length names = length Ts /\ Forall2 shows Ts ms /\ Forall2 (looks o) vs ms.
Proof.
  intros PP H. induction H as [|v vs Hv _ IH]; intros [|x names] l L M; try discriminate L.
  - cbn in M. injection M as <-. exists [], []. repeat split; constructor.
  - cbn [combine mapr] in M. unfold plan_item in M at 1. cbn [fst snd] in M. destruct (pl v) as [r|] eqn:V; [|discriminate M]. cbn [bindr] in M.
    destruct (mapr (plan_item pl) (combine names vs)) as [l'|] eqn:M'; [|discriminate M]. cbn [bindr] in M. injection M as <-.
    destruct (IH names l' ltac:(cbn in L; lia) M') as (Ts & ms & I1 & I2 & I3 & I4). destruct (PP v Hv r V) as (T & m & -> & LK & S).
    exists (T :: Ts), (m :: ms). cbn [option_map somes flat_map combine length app]. fold (somes l'). rewrite I1, I2. repeat split; constructor; auto.
Qed.
Lemma texts_shows pl items ts texts r : presents pl -> Forall2 key_text (map fst items) texts -> Forall presentable (map snd items) -> plan_dict o pl items ts true = Ok r ->
  exists T ms, r = Some T /\ Forall2 (looks o) (map snd items) ms /\ shows T (MStruct (order_of (map escaped texts)) [1; 1] (combine (map escaped texts) (map (fun m => [m]) ms))).
Proof.
  intros PP HT HP P. destruct (key_codes_texts _ _ HT) as (cs & C1 & C2 & _). unfold plan_dict in P. rewrite C1 in P.
  pose proof (dict_attrs_mat o HM ts (Some cs)) as DA. cbv zeta in DA. generalize dependent (fresh_attrs (dict_attrs o ts true (Some cs))). intros A P (A1 & A2 & A3).
  replace (map (fun c : N * pystr => escaped (snd c)) cs) with (map escaped texts) in * by (rewrite <- C2, map_map; reflexivity).
  destruct (mapr _ _) as [l|] eqn:M; [|discriminate P]. cbn [bindr] in P. injection P as <-.
  destruct (items_shown pl _ PP HP (map escaped texts) l) as (Ts & ms & I1 & I2 & I3 & I4); [rewrite map_length, <- (F2_len _ _ _ HT), !map_length; reflexivity|exact M|].
  exists (LGroup A (somes l)), ms. split; [reflexivity|]. split; [exact I4|]. rewrite I1, <- (order_shown _ _ A3). apply shows_struct; auto.
Qed.
Lemma others_shows pl items ts r : presents pl -> (forall l, Forall presentable l -> presentable (VSeq QTuple l)) -> Exists not_text (map fst items) -> Forall presentable (map fst items) -> Forall presentable (map snd items) ->
  plan_dict o pl items ts true = Ok r -> exists T mk mv, r = Some T /\ Forall2 (looks o) (map fst items) mk /\ Forall2 (looks o) (map snd items) mv /\
  shows T (MStruct None [1; 1] [(o_keys_name o, [MCell [1; length items] mk]); (o_values_name o, [MCell [1; length items] mv])]).
Proof.
  intros PP SQ HT H1 H2' P. unfold plan_dict in P. rewrite (key_codes_other _ HT) in P.
  pose proof (dict_attrs_mat o HM ts None) as DA. cbv zeta in DA. generalize dependent (fresh_attrs (dict_attrs o ts true None)). intros A P (A1 & A2 & A3).
  destruct (mapr _ _) as [l|] eqn:M; [|discriminate P]. cbn [bindr] in P. injection P as <-.
  change [(o_keys_name o, VSeq QTuple (map fst items)); (o_values_name o, VSeq QTuple (map snd items))] with (combine [o_keys_name o; o_values_name o] [VSeq QTuple (map fst items); VSeq QTuple (map snd items)]) in M.
  destruct (items_shown pl [VSeq QTuple (map fst items); VSeq QTuple (map snd items)] PP ltac:(constructor; [apply SQ; assumption|constructor; [apply SQ; assumption|constructor]]) [o_keys_name o; o_values_name o] l eq_refl M) as (Ts & ms & I1 & I2 & I3 & I4).
  inversion I4 as [|? m1 ? ms1 K1 K1']; subst. inversion K1' as [|? m2 ? ms2 K2 K2']; subst. inversion K2'; subst.
  assert (X : forall l m, looks o (VSeq QTuple l) m -> exists ms, m = MCell [1; length l] ms /\ Forall2 (looks o) l ms).
  { clear. intros l m H. inversion H; subst; [match goal with X : _ \/ _ |- _ => destruct X as [X|[X|X]]; discriminate X end|]. eauto. }
  destruct (X _ _ K1) as (mk & -> & L1). destruct (X _ _ K2) as (mv & -> & L2). rewrite !map_length in *.
  exists (LGroup A (somes l)), mk, mv. split; [reflexivity|]. split; [exact L1|]. split; [exact L2|]. rewrite I1.
  pose proof (shows_struct A [o_keys_name o; o_values_name o] Ts _ A1 A2 (or_intror A3) I2 I3) as S. rewrite A3 in S. exact S.
Qed.

(** ** every value *)
Lemma row_major {A} n (l m : list A) : column_major [1; n] l m -> m = l.
Proof.
  intros (L1 & L2 & H). assert (PN : prod [1; n] = n) by (unfold prod; cbn; lia). rewrite PN in *.
  assert (G : forall k, k < n -> nth_error m k = nth_error l k).
  { intros k Hk. pose proof (H [0; k] ltac:(repeat constructor; lia)) as X. cbn [f_pos c_pos fold_right] in X. rewrite !Nat.mul_0_r, !Nat.mul_1_r, !Nat.add_0_r in X. cbn [Nat.add Nat.mul] in X. rewrite !Nat.add_0_r in X. exact X. }
  clear H PN. revert m l L1 L2 G. induction n as [|n IH]; intros [|y m] [|x l] L1 L2 G; try discriminate; [reflexivity|].
  pose proof (G 0 ltac:(lia)) as G0. injection G0 as ->. f_equal. apply IH; auto. intros k Hk. apply (G (S k)). lia.
Qed.
Lemma np_shows pl c a ts r : presents pl -> unfolds pl -> presentable (VNp c a) -> plan_np o pl (c, a) ts = Ok r -> exists T m, r = Some T /\ looks o (VNp c a) m /\ shows T m.
Proof.
  intros PP UU HP P. inversion HP; subst.
  - destruct (num_shows pl c a ts cls r) as (T & l & -> & S & l0 & S1 & S2); auto. exists T. eexists. split; [reflexivity|]. split; [|exact S]. eapply Lk_np; eauto.
  - destruct (chars_shows pl c a ts r n) as (T & -> & [(Z & S)|(Z & rs & data & R & CM & S)]); auto; exists T; eexists; (split; [reflexivity|]); (split; [|exact S]).
    + eapply Lk_no_chars; eauto.
    + eapply Lk_chars; eauto.
  - destruct (chars_shows pl c a ts r n) as (T & -> & [(Z & S)|(Z & rs & data & R & CM & S)]); auto; exists T; eexists; (split; [reflexivity|]); (split; [|exact S]).
    + eapply Lk_no_chars; eauto.
    + eapply Lk_chars; eauto.
  - destruct (obj_shows pl c a ts l r) as (T & -> & _ & ms & data & LK & CM & S); auto. exists T. eexists. split; [reflexivity|]. split; [|exact S]. eapply Lk_objects; eauto.
  - eapply record_shows; eauto.
Qed.
(** one number, and one string *)
Lemma one_num pl c a ts r cls e : a_shape a = [] -> a_data a = [e] -> class_for (a_dt a) = Some cls -> holds_num (a_dt a) e -> plan_np o pl (c, a) ts = Ok r ->
  exists T, r = Some T /\ shows T (MArr cls [1; 1] [show1 e]).
Proof.
  intros S D C H P. destruct (num_shows pl c a ts cls r) as (T & l & -> & SH & l0 & S1 & S2); auto; [rewrite S, D; reflexivity|rewrite D; repeat constructor; exact H|].
  rewrite S in *. cbn [two_d] in *. apply row_major in S2. subst l. rewrite D in S1. inversion S1 as [|? m ? ? SE S1']; subst. inversion S1'; subst. exists T. split; [reflexivity|].
  replace (show1 e) with m by (destruct SE; reflexivity). exact SH.
Qed.
(** as many units as code points: none takes two *)
Lemma utf16_long s : forall u, utf16_encode s = Ok u -> length s <= length u.
Proof.
  induction s as [|c s IH]; intros u H; cbn [utf16_encode] in H; [injection H as <-; cbn; lia|].
  destruct (is_scalar c); [|discriminate]. destruct (utf16_encode s) as [b|]; [|discriminate]. injection H as <-. specialize (IH b eq_refl). rewrite app_length. unfold utf16_enc1. destruct (c <? 65536)%N; cbn; lia.
Qed.
Lemma utf16_same s : forall u, utf16_encode s = Ok u -> length u <= length s -> u = s.
Proof.
  induction s as [|c s IH]; intros u H L; cbn [utf16_encode] in H; [injection H as <-; reflexivity|].
  destruct (is_scalar c); [|discriminate]. destruct (utf16_encode s) as [b|] eqn:E; [|discriminate]. injection H as <-. pose proof (utf16_long s b E). rewrite app_length in L.
  unfold utf16_enc1 in *. destruct (c <? 65536)%N; cbn in L; [|lia]. cbn. f_equal. apply IH; [reflexivity|lia].
Qed.
Lemma one_text pl c d s ts r : (d = TUni (length s) /\ code_points s /\ strip0 s = s) \/ (d = TS (length s) /\ ascii_bytes_only s) -> 
  plan_np o pl (c, mkArr d [] [match d with TUni _ => XStr (strip0 s) | _ => XBytes (strip0 s) end]) ts = Ok r ->
  exists T, r = Some T /\ shows T (MArr (lit "char") [1; length s] (MatlabSpec.text s)).
Proof.
  intros H P. set (a := mkArr d [] _) in *.
  assert (LEN : length (a_data a) = prod (a_shape a)) by reflexivity.
  assert (PA : prod (a_shape a) = 1) by reflexivity.
  assert (SB : forall b, Forall (fun u => (u < b)%N) s -> Forall (fun u => (u < b)%N) (strip0 s)).
  { intros b Hb. destruct (strip0_decomp s) as [k Hk]. rewrite Hk in Hb. apply Forall_app in Hb. tauto. }
  destruct (chars_shows pl c a ts r (length s)) as (T & -> & [(Z & S)|(Z & rs & data & R & CM & S)]); auto.
  - destruct H as [(-> & H1 & H2')|(-> & H1)]; [left|right]; repeat split; auto.
    + constructor; [|constructor]. exists (strip0 s). split; [reflexivity|]. split; [apply strip0_len|]. apply SB. exact H1.
    + constructor; [|constructor]. exists (strip0 s). split; [reflexivity|]. split; [apply strip0_len|]. apply SB. exact H1.
  - exists T. split; [reflexivity|]. rewrite PA in Z. destruct s; [exact S|cbn in Z; lia].
  - exists T. split; [reflexivity|]. cbn [a widen a_shape two_d] in *. pose proof (proj1 CM) as CL. apply row_major in CM. subst data.
    replace s with (concat rs) at 2; [exact S|]. unfold rows in R. cbn [a_data a] in R.
    destruct R as [R|R]; inversion R as [|? x ? ? R1 R2]; subst; inversion R2; subst; cbn [concat]; rewrite app_nil_r.
    + destruct R1 as (t & R1 & ->). assert (t = strip0 s) by (destruct H as [(-> & _)|(-> & _)]; destruct R1 as [R1|R1]; congruence). subst t. fold (pad (length s) (strip0 s)). apply pad_strip0.
    + destruct R1 as (t & u & R1 & E & ->). destruct H as [(-> & H1 & H2')|(-> & _)]; [|discriminate R1]. assert (t = s) by congruence. subst t.
      assert (LU : length u <= length s).
      { unfold MatlabSpec.text in CL. rewrite map_length in CL. cbn [concat] in CL. rewrite app_nil_r, app_length in CL. unfold prod in CL. cbn in CL. lia. }
      rewrite (utf16_same s u E LU), Nat.sub_diag. apply app_nil_r.
Qed.

Lemma Forall_firstn' {A} (P : A -> Prop) n l : Forall P l -> Forall P (firstn n l).
Proof. intros H. rewrite <- (firstn_skipn n l) in H. apply Forall_app in H. tauto. Qed.
Lemma plan_value_shows pl : presents pl -> unfolds pl -> presents (plan_value o pl).
Proof.
  intros PP UU v HP r P.
  assert (NONE : forall ts, plan_np o pl (CNdarray, none_array) ts = Ok r -> exists T, r = Some T /\ shows T (MArr (lit "double") [1; 0] [])).
  { intros ts X. destruct (num_shows pl CNdarray none_array ts (lit "double") r) as (T & l & -> & S & l0 & S1 & S2); auto; [constructor|]. exists T. split; [reflexivity|].
    cbn [none_array a_shape a_data two_d] in *. inversion S1; subst. apply row_major in S2. subst l. exact S. }
  destruct HP; cbn [plan_value] in P.
  - destruct (NONE _ P) as (T & -> & S). exists T. eexists. split; [reflexivity|]. split; [|exact S]. apply Lk_nothing. auto.
  - destruct (NONE _ P) as (T & -> & S). exists T. eexists. split; [reflexivity|]. split; [|exact S]. apply Lk_nothing. auto.
  - destruct (NONE _ P) as (T & -> & S). exists T. eexists. split; [reflexivity|]. split; [|exact S]. apply Lk_nothing. auto.
  - destruct (one_num pl CScalar (mkArr TBool [] [XBool b]) _ r (lit "logical") (XBool b) eq_refl eq_refl eq_refl I P) as (T & -> & S). exists T. eexists. split; [reflexivity|]. split; [|exact S]. apply Lk_bool.
  - unfold int_array in P. destruct (_ && _) eqn:F.
    + assert (FT : fits (TI 8) z) by (apply andb_true_iff in F; unfold fits; cbn; lia).
      destruct (one_num pl CScalar (mkArr (TI 8) [] [XInt z]) _ r (lit "int64") (XInt z) eq_refl eq_refl eq_refl FT P) as (T & -> & S). exists T. eexists. split; [reflexivity|]. split; [|exact S]. apply Lk_int. exact FT.
    + assert (FT : ~ fits (TI 8) z) by (apply andb_false_iff in F; unfold fits; cbn; lia).
      destruct (one_text pl CScalar (TS (length (show_Z z))) (show_Z z) (lit "long") r (or_intror (conj eq_refl (Forall_impl _ (fun c H => proj2 H) (show_Z_ascii z)))) P) as (T & -> & S).
      exists T. eexists. split; [reflexivity|]. split; [|exact S]. apply Lk_bigint. exact FT.
  - destruct (one_num pl CScalar (mkArr (TF 8) [] [XFlt x]) _ r (lit "double") (XFlt x) eq_refl eq_refl eq_refl I P) as (T & -> & S). exists T. eexists. split; [reflexivity|]. split; [|exact S]. apply Lk_float.
  - destruct (one_num pl CScalar (mkArr (TC 16) [] [XCpx x y]) _ r (lit "double") (XCpx x y) eq_refl eq_refl eq_refl I P) as (T & -> & S). exists T. eexists. split; [reflexivity|]. split; [|exact S]. apply Lk_complex.
  - assert (SS : strip0 s = s) by (destruct s as [|c s] using rev_ind; [reflexivity|]; rewrite last_snoc in H0; apply strip0_nz; exact H0).
    destruct (one_text pl CScalar (TUni (length s)) s _ r (or_introl (conj eq_refl (conj H SS))) P) as (T & -> & S). exists T. eexists. split; [reflexivity|]. split; [|exact S]. apply Lk_str.
  - destruct (one_text pl CScalar (TS (length s)) s _ r (or_intror (conj eq_refl H)) P) as (T & -> & S). exists T. eexists. split; [reflexivity|]. split; [|exact S]. apply Lk_bytes.
  - destruct (one_text pl CScalar (TS (length s)) s _ r (or_intror (conj eq_refl H)) P) as (T & -> & S). exists T. eexists. split; [reflexivity|]. split; [|exact S]. apply Lk_bytearray.
  - rewrite (proj2 (ascii_utf16 s H)) in P. cbn [bindr] in P.
    destruct (one_text pl CScalar (TS (length s)) s _ r (or_intror (conj eq_refl H)) P) as (T & -> & S). exists T. eexists. split; [reflexivity|]. split; [|exact S]. apply Lk_dtype.
  - eapply np_shows; eauto. eapply Pr_num; eauto.
  - eapply np_shows; eauto. eapply Pr_chars; eauto.
  - eapply np_shows; eauto. eapply Pr_bytes_array; eauto.
  - eapply np_shows; eauto. eapply Pr_objects; eauto.
  - eapply np_shows; eauto. eapply Pr_struct; eauto.
  - destruct (obj_shows pl CNdarray (obj_array l) (seq_type k) l r PP eq_refl) as (T & -> & _ & ms & data & LK & CM & S); auto.
    { cbn [obj_array a_data a_shape]. rewrite map_length. unfold prod. cbn. lia. }
    cbn [obj_array a_shape two_d] in *. apply row_major in CM. subst data. exists T. eexists. split; [reflexivity|]. split; [|exact S]. apply Lk_seq. exact LK.
  - assert (PL : match k with MCounter => false | _ => true end = true) by (destruct k; congruence). rewrite PL in P.
    destruct (texts_shows pl l _ texts r PP H0 H3 P) as (T & ms & -> & LK & S). exists T. eexists. split; [reflexivity|]. split; [|exact S]. apply Lk_dict; auto.
  - assert (PL : match k with MCounter => false | _ => true end = true) by (destruct k; congruence). rewrite PL in P.
    destruct (others_shows pl l _ r PP (Pr_seq QTuple) H0 H1 H3 P) as (T & mk & mv & -> & LK1 & LK2 & S). exists T. eexists. split; [reflexivity|]. split; [|exact S]. apply Lk_dict_other; auto.
  - set (names := firstn (length fs) (rec_fields k)). destruct (rec_texts k (length fs)) as (T1 & T2 & T3). fold names in T1, T2, T3.
    assert (LN : length names = length fs) by (unfold names; rewrite firstn_length; rewrite names_rec in *; lia).
    assert (RI : rec_items k fs = combine (map VStr names) fs) by (unfold rec_items, names; rewrite <- firstn_map, firstn_combine_l; reflexivity).
    rewrite RI in P. destruct (texts_shows pl (combine (map VStr names) fs) (rec_type k) names r PP) as (T & ms & -> & LK & S).
    { rewrite combine_fst by (rewrite map_length; exact LN). exact T1. }
    { rewrite combine_snd by (rewrite map_length; exact LN). exact H0. }
    { exact P. }
    rewrite combine_snd in LK by (rewrite map_length; exact LN). exists T. eexists. split; [reflexivity|].
    assert (EN : map escaped names = names /\ order_of names = Some names).
    { assert (FA : Forall (fun t => escaped t = t /\ forallb (fun c => (c <? 128)%N) t = true) names).
      { unfold names. apply Forall_firstn'. destruct k; repeat constructor; vm_compute; reflexivity. }
      clear - FA. split; [induction FA as [|t l [H _] _ IH]; cbn [map]; congruence|]. unfold order_of.
      replace (forallb _ names) with true; [reflexivity|]. symmetry. apply forallb_forall. rewrite Forall_forall in FA. intros t Ht. apply FA. exact Ht. }
    destruct EN as [EN1 EN2]. rewrite EN1, EN2 in S. split; [|exact S]. apply Lk_rec; auto. exists (skipn (length fs) (rec_fields k)). rewrite names_rec. symmetry. apply firstn_skipn.
Qed.
Lemma plan_shows n : presents (plan o n) /\ unfolds (plan o n).
Proof.
  induction n as [|n [I1 I2]]; split.
  - intros v _ r P. discriminate P.
  - intros a r P. discriminate P.
  - apply plan_value_shows; assumption.
  - intros a r P. cbn [plan plan_value] in P. eauto.
Qed.
End Mat.
