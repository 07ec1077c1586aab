(** Property C28 for structured arrays. *)
From Verif Require Import OptionsSpec Base PathEsc PosixPath ProcessPath Unicode UnicodeFacts Dec NdArray Value OptionsM StrConv MColl Hdf5 HeapFacts NpWrite MarshalW MarshalR FileApi ApiSpec FileFacts RndFacts RoundSpec RoundNp RoundApi ProgressSpec ProgressApi Props_Round.
Local Open Scope nat_scope.

(** C28: structured arrays whose fields are bools and numbers, of any shape, with any
    number of elements: they come back with the same names, dtypes and elements, as an
    ndarray, a matrix, a recarray or a numpy.void, whether they are stored as a Group with
    a Dataset for every field or as a compound type.  Not the one with two floats r and i *)
Definition number (d : dt) : Prop := match d with TBool | TU _ | TI _ | TF _ => True | TC w => w = 8 \/ w = 16 | _ => False end.
Record table (wo ro : options) (c : container) (a : arr pyval) (fs : list (pystr * (dt * list nat))) : Prop := {
  tb_obj : struct_obj c a fs;
  tb_fields : Forall (fun f => number (fst (snd f)) /\ compatible wo ro (mkArr (fst (snd f)) [] [])) fs;
  tb_elems : forall cells, In (XRec cells) (a_data a) -> Forall2 (fun f cell => Forall (typed (fst (snd f))) cell) fs cells;
  tb_matlab : o_matlab_compatible wo = true -> o_struct_as_struct wo = true /\ o_structs_as_dicts ro = false;
  tb_complex : like_complex fs = false }.
Lemma number_flat d e : number d -> typed d e -> no_objects e = true /\ edepth depth e = 0 /\ forall e', same_elem e e' -> e' = e.
Proof.
  intros N T. assert (D : d <> TObj) by (intros ->; exact N). destruct (typed_flat d e T D) as (X1 & X2 & X3). split; [|auto].
  destruct d, e; cbn in *; try contradiction; reflexivity.
Qed.
Lemma number_item d sh cell : number d -> field_item d sh cell = VNp (match sh, cell with [], [e] => CScalar | _, _ => CNdarray end) (mkArr d sh cell).
Proof. intros N. unfold field_item. destruct sh; [|reflexivity]. destruct cell as [|e [|]]; try reflexivity. destruct d; cbn in N; try contradiction; reflexivity. Qed.
Lemma number_plain d : number d -> plain_type d = true. Proof. destruct d; cbn; tauto || reflexivity. Qed.
Lemma F2_nth {A B} (R : A -> B -> Prop) l m k x d : Forall2 R l m -> nth_error l k = Some x -> R x (nth k m d).
Proof. intros H. revert k. induction H as [|a b l m Hx H IH]; intros [|k] E; try discriminate; [injection E as <-; exact Hx|]. cbn [nth]. auto. Qed.
Section Table.
Variables (wo ro : options) (keq : pyval -> pyval -> bool) (c : container) (a : arr pyval) (fs : list (pystr * (dt * list nat))).
Hypothesis T : table wo ro c a fs.
Lemma table_items k f x : nth_error fs k = Some f -> In x (field_values k (snd f) a) ->
  exists c' cell, x = VNp c' (mkArr (fst (snd f)) (snd (snd f)) cell) /\ (c' = CScalar -> snd (snd f) = []) /\ (c' = CScalar \/ c' = CNdarray) /\
    length cell = prod (snd (snd f)) /\ Forall (typed (fst (snd f))) cell /\ number (fst (snd f)) /\ compatible wo ro (mkArr (fst (snd f)) [] []).
Proof.
  intros Hk Hx. unfold field_values, column in Hx. apply in_map_iff in Hx. destruct Hx as (e & <- & He).
  pose proof (st_rows _ _ _ (tb_obj _ _ _ _ _ T)) as R. rewrite Forall_forall in R. destruct (R e He) as (cells & -> & LC).
  pose proof (tb_elems _ _ _ _ _ T cells He) as TC. pose proof (tb_fields _ _ _ _ _ T) as TF. rewrite Forall_forall in TF. destruct (TF f (nth_error_In _ _ Hk)) as [N C].
  rewrite (number_item _ _ _ N). eexists _, (nth k cells []). split; [reflexivity|].
  pose proof (F2_nth _ _ _ _ _ [] LC Hk) as L. pose proof (F2_nth _ _ _ _ _ [] TC Hk) as TY. cbn beta in *.
  destruct (snd (snd f)) as [|x0 sh]; [destruct (nth k cells []) as [|e0 [|]]|]; auto 10; repeat split; auto; discriminate.
Qed.
Lemma item_storable c' d sh cell : (c' = CScalar -> sh = []) -> (c' = CScalar \/ c' = CNdarray) -> length cell = prod sh -> Forall (typed d) cell -> number d -> compatible wo ro (mkArr d [] []) ->
  storable wo ro keq (VNp c' (mkArr d sh cell)).
Proof.
  intros H1 H2 H3 H4 H5 H6. apply V_np; [|exact H6|].
  - constructor; cbn [a_dt a_data a_shape]; auto.
    + destruct d; cbn in H5; tauto.
    + intros E. split; [auto|]. split; [intros ->; exact H5|]. destruct d; cbn in H5; tauto.
    + destruct H2; congruence.
    + destruct d; cbn in H5; tauto.
    + intros _ _ n ->. destruct H5.
  - intros p Hp. cbn [a_data] in Hp. rewrite Forall_forall in H4. destruct (number_flat _ _ H5 (H4 _ Hp)) as [X _]. discriminate X.
Qed.
Lemma table_storable : storable wo ro keq (VNp c a).
Proof.
  pose proof (tb_obj _ _ _ _ _ T) as SO. eapply V_struct; [exact SO|exact (tb_matlab _ _ _ _ _ T)|..]; intros SG.
  - intros k f Hk. left. split.
    + pose proof (tb_fields _ _ _ _ _ T) as TF. rewrite Forall_forall in TF. destruct (TF f (nth_error_In _ _ Hk)) as [N _]. destruct f as [nm [d sh]]. cbn [snd fst] in *. destruct d; cbn in N; tauto.
    + apply Forall_forall. intros x Hx. destruct (table_items _ _ _ Hk Hx) as (c' & cell & -> & _). exists c', (mkArr (fst (snd f)) (snd (snd f)) cell). auto.
  - intros k f x Hk Hx. destruct (table_items _ _ _ Hk Hx) as (c' & cell & -> & X1 & X2 & X3 & X4 & X5 & X6). apply item_storable; assumption.
  - pose proof (tb_fields _ _ _ _ _ T) as TF. split.
    + apply forallb_forall. intros e He. pose proof (st_rows _ _ _ SO) as R. rewrite Forall_forall in R. destruct (R e He) as (cells & -> & LC).
      pose proof (tb_elems _ _ _ _ _ T cells He) as TC. cbn [no_objects]. clear - TC TF. induction TC as [|f cell fs cells H TC IH]; [reflexivity|]. inversion TF as [|? ? [N _] TF']; subst.
      cbn [forallb]. rewrite IH by exact TF'. rewrite andb_true_r. apply forallb_forall. intros e He. rewrite Forall_forall in H. apply (number_flat _ _ N (H e He)).
    + rewrite (st_dt _ _ _ SO). cbn [plain_type]. rewrite (tb_complex _ _ _ _ _ T). cbn [negb andb]. destruct (st_some _ _ _ SO) as [_ NF]. destruct fs as [|f0 r]; [congruence|]. cbn [length Nat.eqb negb andb].
      apply forallb_forall. intros [nm [d sh]] Hf. rewrite Forall_forall in TF. apply number_plain. apply (TF _ Hf).
Qed.
Lemma table_depth : depth (VNp c a) <= 3.
Proof.
  cbn [depth]. apply le_n_S. apply list_max_le. rewrite Forall_map, Forall_forall. intros e He.
  pose proof (st_rows _ _ _ (tb_obj _ _ _ _ _ T)) as R. rewrite Forall_forall in R. destruct (R e He) as (cells & -> & _).
  pose proof (tb_elems _ _ _ _ _ T cells He) as TC. pose proof (tb_fields _ _ _ _ _ T) as TF. cbn [edepth]. apply le_n_S, le_n_S. apply list_max_le. rewrite Forall_map. clear - TC TF.
  induction TC as [|f cell fs cells H TC IH]; [constructor|]. inversion TF as [|? ? [N _] TF']; subst. constructor; [|auto]. apply list_max_le. rewrite Forall_map, Forall_forall. rewrite Forall_forall in H.
  intros e He. destruct (number_flat _ _ N (H e He)) as (_ & X & _). change (edepth depth e <= 0). rewrite X. lia.
Qed.
Lemma table_groups : ascii_groups (VNp c a).
Proof.
  eapply G_struct; [apply (st_dt _ _ _ (tb_obj _ _ _ _ _ T))|]. intros k f x Hk Hx. destruct (table_items _ _ _ Hk Hx) as (c' & cell & -> & X1 & X2 & X3 & X4 & X5 & X6).
  assert (NS : is_struct (fst (snd f)) = false) by (destruct (fst (snd f)); cbn in *; tauto).
  split; [|cbn [grouplike a_dt]; congruence]. apply G_np; [exact NS|]. intros p Hp. cbn [a_data] in Hp. rewrite Forall_forall in X4. destruct (number_flat _ _ X5 (X4 _ Hp)) as [X _]. discriminate X.
Qed.
Lemma table_exact v : same (VNp c a) v -> v = VNp c a.
Proof.
  intros S. pose proof (st_rows _ _ _ (tb_obj _ _ _ _ _ T)) as R. pose proof (tb_elems _ _ _ _ _ T) as TE. pose proof (tb_fields _ _ _ _ _ T) as TF. pose proof (st_dt _ _ _ (tb_obj _ _ _ _ _ T)) as D.
  inversion S as [|c' a' b S1 S2 S3| | |]; subst; [reflexivity|]. f_equal. destruct a as [d sh l], b as [d' sh' l']. cbn [a_dt a_shape a_data] in *. f_equal; [|congruence|].
  - destruct S1 as [S1|(x & y & S1 & _)]; congruence.
  - assert (X : forall e e', In e l -> same_elem e e' -> e' = e).
    { intros e e' He Se. rewrite Forall_forall in R. destruct (R e He) as (cells & -> & _). specialize (TE cells He). inversion Se as [| |x m H]; subst; [reflexivity|]. f_equal.
      clear - TE TF H. revert m H. induction TE as [|f cell fs cells HC TE IH]; intros m H; inversion H as [|? y ? m' H1 H2]; subst; [reflexivity|]. inversion TF as [|? ? [N _] TF']; subst. f_equal; [|auto].
      clear - HC N H1. induction H1 as [|e e' l l' He H1 IH]; [reflexivity|]. inversion HC as [|? ? T0 HC']; subst. f_equal; [|auto]. apply (number_flat _ _ N T0). exact He. }
    clear - S3 X. induction S3 as [|e e' l l' He S3 IH]; [reflexivity|]. f_equal; [apply X; [left; reflexivity|exact He]|]. apply IH. intros; apply X; [right|]; assumption.
Qed.
End Table.
Theorem C28_structured : forall refs s wo ro keq rnd tries n m p cs c a fs f r, setting refs s wo ro keq -> new_place wo s p cs ->
  table wo ro c a fs -> (o_matlab_compatible wo = true -> Forall ascii cs) -> 3 <= n -> 3 <= m ->
  file_write wo rnd tries n (mkFile true s) (VNp c a) p = (f, r) -> no_repeat rnd (rpos s) (rpos (fl_st f)) -> rpos (fl_st f) < rpos s + tries ->
  r = Ok tt /\ file_read ro m keq f p = (f, Ok (VNp c a)).
Proof.
  intros refs s wo ro keq rnd tries n m p cs c a fs f r [G1 G2 G3 G4 G5 G6] NP T AC Hn Hm E NR HT. pose proof (table_depth _ _ _ _ _ T) as DV.
  destruct (round_trip refs s wo ro rnd tries n keq [(p, VNp c a)] f r) as [R1 R2]; auto.
  - intros q w [[= <- <-]|[]]. exists cs. split; [exact NP|]. split; [eapply table_storable; exact T|]. split; [lia|]. intros M. split; [eapply table_groups; exact T|auto].
  - constructor; constructor.
  - split; [exact R1|]. destruct (R2 p _ (or_introl eq_refl)) as (v' & S & R). rewrite (table_exact _ _ _ _ _ T v' S) in R. apply R. lia.
Qed.
Print Assumptions C28_structured.

Definition c28_fields : list (pystr * (dt * list nat)) := [(lit "x", (TF 8, [])); (lit "n/m", (TI 4, [3])); (lit "b", (TBool, []))].
Definition c28_row (k : Z) : elem pyval := XRec [[XFlt (Z.to_N k)]; map XInt [k; k; k]; [XBool true]]%Z.
Definition c28_table : arr pyval := mkArr (TStruct c28_fields) [2; 3] (map c28_row [1; 2; 3; 4; 5; 6]%Z).
Definition c28_record : arr pyval := mkArr (TStruct c28_fields) [] [c28_row 7].
Lemma c28_rows c sh l o : (c = CScalar -> sh = []) -> (c = CMatrix -> length sh = 2) -> length l = prod sh -> prod sh <> 0 -> (o_matlab_compatible o = true -> o_struct_as_struct o = true /\ o_structs_as_dicts o = false) ->
  table o o c (mkArr (TStruct c28_fields) sh (map c28_row l)) c28_fields.
Proof.
  intros H1 H2 H3 H4 H5. constructor; cbn [a_dt a_data a_shape]; auto.
  - constructor; cbn [a_dt a_data a_shape]; auto; [rewrite map_length; exact H3|split; [exact H4|discriminate]|split|].
    + repeat constructor; cbn; intuition discriminate.
    + apply Forall_cons; [split; [discriminate|ascii_all]|]. apply Forall_cons; [split; [discriminate|ascii_all]|]. apply Forall_cons; [split; [discriminate|ascii_all]|apply Forall_nil].
    + rewrite Forall_map. apply Forall_forall. intros k _. eexists. split; [reflexivity|]. repeat constructor.
  - repeat constructor; cbn; auto.
  - intros cells Hc. apply in_map_iff in Hc. destruct Hc as (k & [= <-] & _). repeat constructor.
Qed.
Example C28_structured_ex :
  table default_options default_options CNdarray c28_table c28_fields /\ table python_options python_options CRecarray c28_table c28_fields /\
  table bare_options bare_options CNdarray c28_table c28_fields /\ setting (lit "/#refs#") empty_file bare_options bare_options key_eq /\
  table default_options default_options CScalar c28_record c28_fields /\
  back default_options (VNp CNdarray c28_table) = Ok (VNp CNdarray c28_table) /\ back default_options (VNp CMatrix c28_table) = Ok (VNp CMatrix c28_table) /\
  back python_options (VNp CRecarray c28_table) = Ok (VNp CRecarray c28_table) /\
  back bare_options (VNp CNdarray c28_table) = Ok (VNp CNdarray c28_table) /\ back bare_options (VNp CScalar c28_record) = Ok (VNp CScalar c28_record) /\
  back default_options (VNp CScalar c28_record) = Ok (VNp CScalar c28_record) /\ back python_options (VNp CScalar c28_record) = Ok (VNp CScalar c28_record).
Proof.
  split; [|split; [|split; [|split; [apply bare_setting|split]]]].
  - apply c28_rows; [discriminate|discriminate|reflexivity|vm_compute; discriminate|]. intros _. split; vm_compute; reflexivity.
  - apply c28_rows; [discriminate|discriminate|reflexivity|vm_compute; discriminate|]. intros X. vm_compute in X. discriminate.
  - apply c28_rows; [discriminate|discriminate|reflexivity|vm_compute; discriminate|]. intros X. vm_compute in X. discriminate.
  - apply (c28_rows CScalar [] [7%Z]); [reflexivity|discriminate|reflexivity|vm_compute; discriminate|]. intros _. split; vm_compute; reflexivity.
  - vm_compute. auto 12.
Qed.
(** what is not kept: two floats named r and i as a compound type are read as complex
    numbers; a field of bytes or of objects gets the dtype of its values when it is stored
    on its own; without elements the dtypes of the fields are lost *)
Theorem C28_structured_refuted :
  let ri := [(lit "r", (TF 8, [])); (lit "i", (TF 8, []))] in
  let b3 := [(lit "s", (TS 3, []))] in let ob := [(lit "o", (TObj, []))] in
  back bare_options (VNp CNdarray (mkArr (TStruct ri) [1] [XRec [[XFlt 1]; [XFlt 2]]])) = Ok (VNp CNdarray (mkArr (TC 16) [1] [XCpx 1 2])) /\
  back default_options (VNp CNdarray (mkArr (TStruct b3) [1] [XRec [[XBytes (lit "a")]]])) =
    Ok (VNp CNdarray (mkArr (TStruct [(lit "s", (TS 1, []))]) [1] [XRec [[XBytes (lit "a")]]])) /\
  back default_options (VNp CNdarray (mkArr (TStruct ob) [1] [XRec [[XPtr (np_scalar (TF 8) (XFlt 1))]]])) =
    Ok (VNp CNdarray (mkArr (TStruct [(lit "o", (TF 8, []))]) [1] [XRec [[XFlt 1]]])) /\
  back default_options (VNp CNdarray (mkArr (TStruct ri) [0] [])) = Ok (VNp CNdarray (mkArr (TStruct [(lit "r", (TObj, [])); (lit "i", (TObj, []))]) [0] [])).
Proof. vm_compute. auto 6. Qed.
Print Assumptions C28_structured_refuted.
