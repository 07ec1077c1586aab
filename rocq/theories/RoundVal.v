(** The round trip of each kind of value that is stored as a numpy object. *)
From Verif Require Import Base PathEsc PosixPath PosixFacts ProcessPathFacts Unicode UnicodeFacts Dec NdArray Value OptionsM StrConv ComplexM Attrs NpDims MColl Hdf5 HeapFacts NpWrite NpRead MarshalW MarshalR FrameFacts WriteFrame ReadFacts RoundSpec RoundNp RoundHeap RoundWrite.
Local Open Scope nat_scope.

(** what a reader does with the numpy object that has been read *)
Definition post_of (keq : pyval -> pyval -> bool) (kd : rkind) (w : pyval) : res pyval :=
  match kd with
  | KNp => Ok w
  | KBool => do e <- item w; py_bool e
  | KInt => do e <- item w; py_int e
  | KFloat => do e <- item w; py_float e
  | KComplex => do e <- item w; py_complex e
  | KStr => do s <- py_str w; Ok (VStr s)
  | KBytes => do s <- py_bytes w; Ok (VBytes s)
  | KByteArray => do s <- py_bytes w; Ok (VByteArray s)
  | KConst v => Ok v
  | KSeq k => do l <- py_list w; Ok (seq_read keq k l)
  | KDtype => do s <- py_str w; Ok (VDtype s)
  | KDict _ | KRec _ => Err NotImplementedError
  end.
Lemma read_post ro keq h rd i ob ts mc kd w : h i = Some ob -> attr_str (o_attrs ob) (lit "Python.Type") = Ok (Some ts) ->
  attr_str (o_attrs ob) (lit "MATLAB_class") = Ok mc -> reader_kind (Some ts) = kd -> match kd with KDict _ | KRec _ => False | _ => True end ->
  np_read ro h rd ob = Ok w -> read_value ro keq h rd i = post_of keq kd w.
Proof.
  intros E1 E2 E3 E4 E5 E6. unfold read_value. rewrite E1, E2. cbn [bindr]. rewrite E3. cbn [bindr]. rewrite E4.
  destruct kd; try destruct E5; rewrite ?E6; reflexivity.
Qed.

(** type strings of numpy objects are not those of other types *)
Lemma reader_np t r : t = lit "numpy." ++ r -> t <> lit "numpy.dtype" -> reader_kind (Some t) = KNp.
Proof.
  intros -> N. unfold reader_kind. assert (X : assoc (lit "numpy." ++ r) type_table = None); [|rewrite X; reflexivity].
  unfold type_table. apply eqb_str_neq in N. remember (lit "numpy." ++ r) as t.
  repeat (cbn [assoc];
    match goal with |- context [eqb_str ?a ?b] =>
      assert (eqb_str a b = false) as -> by (first [exact N|subst t; vm_compute; reflexivity]) end). reflexivity.
Qed.
Lemma np_type_prefix c d : exists r, np_type c d = lit "numpy." ++ r.
Proof. destruct c; try (eexists; reflexivity). destruct d; try (eexists; reflexivity). Qed.
Lemma np_type_not_dtype c d : np_type c d <> lit "numpy.dtype".
Proof.
  destruct c; try (vm_compute; discriminate). destruct d; cbn [np_type scalar_type]; try (vm_compute; discriminate).
Qed.
Lemma np_type_reader c d : reader_kind (Some (np_type c d)) = KNp.
Proof. destruct (np_type_prefix c d) as [r E]. eapply reader_np; [exact E|apply np_type_not_dtype]. Qed.
Lemma np_type_ascii c d : Forall (fun x => (x < 128)%N) (np_type c d).
Proof.
  assert (A : forall l, forallb (fun x => (x <? 128)%N) l = true -> Forall (fun x => (x < 128)%N) l).
  { intros l H. rewrite forallb_forall in H. apply Forall_forall. intros x Hx. apply N.ltb_lt, H, Hx. }
  destruct c; try (apply A; reflexivity). destruct d; try (apply A; reflexivity); cbn [np_type scalar_type]; apply Forall_app; (split; [apply A; reflexivity|apply dt_name_ascii]).
Qed.

Lemma set_of_new (keq : pyval -> pyval -> bool) l : forall d, (forall x y, In x d -> In y l -> keq x y = false) -> ForallOrdPairs (fun x y => keq x y = false) l ->
  fold_left (fun d x => if existsb (fun y => keq y x) d then d else d ++ [x]) l d = d ++ l.
Proof.
  induction l as [|x l IH]; intros d H1 H2; cbn [fold_left]; [rewrite app_nil_r; reflexivity|]. inversion H2 as [|? ? H3 H4]; subst.
  assert (existsb (fun y => keq y x) d = false) as ->.
  { destruct (existsb (fun y => keq y x) d) eqn:E; [|reflexivity]. apply existsb_exists in E. destruct E as (y & Hy & E). rewrite (H1 y x Hy (or_introl eq_refl)) in E. discriminate. }
  rewrite IH, <- app_assoc; [reflexivity| |exact H4]. intros a b Ha Hb. apply in_app_or in Ha. destruct Ha as [Ha|[<-|[]]]; [apply H1; [exact Ha|right; exact Hb]|].
  rewrite Forall_forall in H3. apply H3. exact Hb.
Qed.
Lemma set_of_distinct (keq : pyval -> pyval -> bool) l : ForallOrdPairs (fun x y => keq x y = false) l -> set_of keq l = l.
Proof. intros H. unfold set_of. rewrite set_of_new; [reflexivity|intros x y []|exact H]. Qed.
Lemma forall_forall2 {A B} (P : A -> Prop) (R : A -> B -> Prop) (Q : B -> Prop) l m : Forall P l -> Forall2 R l m -> (forall x y, P x -> R x y -> Q y) -> Forall Q m.
Proof. intros H F I. induction F; inversion H; subst; constructor; eauto. Qed.
Lemma differ_same (keq : pyval -> pyval -> bool) l m : ForallOrdPairs (differ keq) l -> Forall2 same l m -> ForallOrdPairs (fun x y => keq x y = false) m.
Proof.
  intros H. revert m. induction H as [|x l H1 H2 IH]; intros m F; inversion F as [|? y ? m' S F']; subst; constructor; [|apply IH; exact F'].
  eapply forall_forall2; [exact H1|exact F'|]. intros a b D Sab. apply D; assumption.
Qed.
Lemma same_ptrs l l' : Forall2 same_elem (map XPtr l) l' -> exists m, l' = map XPtr m /\ Forall2 same l m.
Proof.
  revert l'. induction l as [|x l IH]; intros l' H; inversion H as [|? e ? r S F]; subst; [exists []; split; [reflexivity|constructor]|].
  destruct (IH r F) as (m & -> & Hm). inversion S; subst; [exists (x :: m)|exists (q :: m)]; (split; [reflexivity|constructor; [|exact Hm]]); [apply S_refl|assumption].
Qed.
Lemma map_item_obj m : map (item_of TObj) (map XPtr m) = m.
Proof. rewrite map_map. cbn. apply map_id. Qed.

Lemma strip0_all l : Forall (fun c => c <> 0%N) l -> strip0 l = l.
Proof. induction l as [|c l IH]; intros H; [reflexivity|]. inversion H; subst. rewrite strip0_cons, IH by assumption. destruct l; [|reflexivity]. destruct (N.eqb_spec c 0); [congruence|reflexivity]. Qed.
Lemma show_Z_strip z : strip0 (show_Z z) = show_Z z.
Proof. apply strip0_all. eapply Forall_impl; [|apply show_Z_ascii]. cbn. lia. Qed.
Lemma pad_self l : pad (length l) l = l.
Proof. unfold pad. rewrite Nat.sub_diag. cbn. apply app_nil_r. Qed.
(** the numpy object and the type string a value that is no Group is stored as *)
Definition np_form (v : pyval) : option (container * arr pyval * pystr) :=
  match v with
  | VNone => Some (CNdarray, none_array, lit "builtins.NoneType")
  | VEllipsis => Some (CNdarray, none_array, lit "builtins.ellipsis")
  | VNotImplemented => Some (CNdarray, none_array, lit "builtins.NotImplementedType")
  | VBool b => Some (CScalar, mkArr TBool [] [XBool b], lit "bool")
  | VInt z => Some (CScalar, int_array z, lit "long")
  | VFloat x => Some (CScalar, mkArr (TF 8) [] [XFlt x], lit "float")
  | VComplex x y => Some (CScalar, mkArr (TC 16) [] [XCpx x y], lit "complex")
  | VStr s => Some (CScalar, np_str s, lit "str")
  | VBytes s => Some (CScalar, np_bytes s, lit "bytes")
  | VByteArray s => Some (CScalar, np_bytes s, lit "bytearray")
  | VNp c a => Some (c, a, np_type c (a_dt a))
  | VSeq k l => Some (CNdarray, obj_array l, seq_type k)
  | VDtype t => match utf8_encode t with Ok b => Some (CScalar, np_bytes b, lit "numpy.dtype") | Err _ => None end
  | VDict _ _ | VRec _ _ | VOther => None
  end.
(** what may be at [nm] in [g] when [v] is written there *)
Definition vacant (wo : options) (s : st) (g : nat) (nm : pystr) (v : pyval) : Prop :=
  match np_form v with
  | Some (c, a, ts) => room wo s g nm c a ts /\ (is_struct (a_dt a) && stored_as_group wo (a_dt a) = true -> forall i, lookup (hp s) g nm = Some i -> is_group (hp s) i = false)
  | None => forall i, lookup (hp s) g nm = Some i -> is_group (hp s) i = false
  end.
Lemma vacant_none wo s g nm v : lookup (hp s) g nm = None -> vacant wo s g nm v.
Proof. intros L. unfold vacant. destruct (np_form v) as [[[c a] ts]|]; [split; [apply room_none; exact L|congruence]|congruence]. Qed.
Section Values.
Variables (wo ro : options) (keq : pyval -> pyval -> bool) (rnd : nat -> N) (tries : nat).
Notation wf := (wf wo). Notation okt := (okt wo). Notation wspec := (wspec wo rnd).
Notation held := (held ro keq). Notation reg := (reg wo rnd). Notation unreserved := (unreserved wo rnd).
Notation storable := (storable wo ro keq).
Hypotheses (HP : paired wo ro) (HI : inj_rnd rnd).
Variable wr : nat -> pystr -> pyval -> M (option nat).
Hypotheses (Hwr : wspec wr) (Hrt : rspec wo ro keq rnd wr).
Variables (s : st) (g : nat) (nm : pystr).
Hypotheses (W : wf s) (K : okt s g nm) (U : unreserved s (name_of (hp s) g ++ [nm])).

Lemma kind_held c a ts kd s' r v :
  room wo s g nm c a ts -> np_obj wo c a -> compatible wo ro a -> (forall p, In (XPtr p) (a_data a) -> storable p) ->
  Forall (fun x => (x < 128)%N) ts -> (c = CRecarray -> ts = lit "numpy.recarray") ->
  reader_kind (Some ts) = kd -> match kd with KDict _ | KRec _ => False | _ => True end ->
  (forall a', same (VNp c a) (VNp c a') -> (c = CScalar -> a' = a) -> exists v', post_of keq kd (VNp c a') = Ok v' /\ same v v') ->
  1 <= depth v -> (forall p, In (XPtr p) (a_data a) -> S (depth p) <= depth v) ->
  np_write wo rnd tries wr g nm (c, a) ts s = (s', Ok r) ->
  exists i, r = Some i /\ held (hp s') (reg s (name_of (hp s) g ++ [nm])) i v.
Proof.
  intros H0 H1 H2 H3 H4 H5 H6 H7 H8 H9 H10 E.
  eapply (np_held wo ro keq rnd tries HP HI wr Hwr Hrt s g nm c a ts s' r v (post_of keq kd)); try eassumption.
  intros h rd i ob E1 E2 E3 w E4. eapply read_post; eassumption.
Qed.
Ltac ascii := repeat (apply Forall_cons; [vm_compute; reflexivity|]); apply Forall_nil.

(** a scalar, that is read back as it is *)
Lemma scalar_held a ts kd s' r v :
  room wo s g nm CScalar a ts -> np_obj wo CScalar a -> compatible wo ro a -> a_dt a <> TObj ->
  Forall (fun x => (x < 128)%N) ts -> reader_kind (Some ts) = kd -> match kd with KDict _ | KRec _ => False | _ => True end ->
  post_of keq kd (VNp CScalar a) = Ok v -> depth v = 1 ->
  np_write wo rnd tries wr g nm (CScalar, a) ts s = (s', Ok r) ->
  exists i, r = Some i /\ held (hp s') (reg s (name_of (hp s) g ++ [nm])) i v.
Proof.
  intros H0 H1 H2 H3 H4 H5 H6 H7 H8 E.
  assert (NP : forall p, ~ In (XPtr p) (a_data a)).
  { intros p Hp. pose proof (n_elems _ _ _ H1) as T. rewrite Forall_forall in T. specialize (T _ Hp). destruct (a_dt a); try destruct T; congruence. }
  eapply (kind_held CScalar a ts kd); try eassumption.
  - intros p Hp. destruct (NP p Hp).
  - discriminate.
  - intros a' _ Ha. rewrite (Ha eq_refl). exists v. split; [exact H7|apply S_refl].
  - lia.
  - intros p Hp. destruct (NP p Hp).
Qed.

Ltac scal := first [eassumption | ascii | exact I | reflexivity | discriminate | (intros _; left; exact I)].
Lemma bool_held b s' r : vacant wo s g nm (VBool b) -> write_value wo rnd tries wr g nm (VBool b) s = (s', Ok r) ->
  exists i, r = Some i /\ held (hp s') (reg s (name_of (hp s) g ++ [nm])) i (VBool b).
Proof. intros VC E. cbn [write_value] in E. eapply scalar_held with (kd := KBool); [exact (proj1 VC)|..|exact E]; try scal. apply scalar_obj; exact I. Qed.
Lemma float_held b s' r : vacant wo s g nm (VFloat b) -> write_value wo rnd tries wr g nm (VFloat b) s = (s', Ok r) ->
  exists i, r = Some i /\ held (hp s') (reg s (name_of (hp s) g ++ [nm])) i (VFloat b).
Proof. intros VC E. cbn [write_value] in E. eapply scalar_held with (kd := KFloat); [exact (proj1 VC)|..|exact E]; try scal. apply scalar_obj; exact I. Qed.
Lemma complex_held x y s' r : vacant wo s g nm (VComplex x y) -> write_value wo rnd tries wr g nm (VComplex x y) s = (s', Ok r) ->
  exists i, r = Some i /\ held (hp s') (reg s (name_of (hp s) g ++ [nm])) i (VComplex x y).
Proof. intros VC E. cbn [write_value] in E. eapply scalar_held with (kd := KComplex); [exact (proj1 VC)|..|exact E]; try scal. apply scalar_obj; cbn; auto. Qed.
Lemma int_held z s' r : vacant wo s g nm (VInt z) -> write_value wo rnd tries wr g nm (VInt z) s = (s', Ok r) ->
  exists i, r = Some i /\ held (hp s') (reg s (name_of (hp s) g ++ [nm])) i (VInt z).
Proof.
  intros VC E. cbn [write_value] in E. eapply scalar_held with (kd := KInt); [exact (proj1 VC)|..|exact E]; unfold int_array; try match goal with |- context [if ?c then _ else _] => destruct c end; try scal.
  - apply scalar_obj; exact I.
  - apply (bytes_obj wo rnd HI). apply show_Z_strip.
  - unfold np_bytes. rewrite show_Z_strip. cbn [post_of item bindr]. rewrite pad_self. cbn [py_int]. rewrite parse_show_Z. reflexivity.
Qed.
Lemma bytes_held b s' r : strip0 b = b -> vacant wo s g nm (VBytes b) -> write_value wo rnd tries wr g nm (VBytes b) s = (s', Ok r) ->
  exists i, r = Some i /\ held (hp s') (reg s (name_of (hp s) g ++ [nm])) i (VBytes b).
Proof.
  intros X VC E. cbn [write_value] in E. eapply scalar_held with (kd := KBytes); [exact (proj1 VC)|..|exact E]; try scal. apply (bytes_obj wo rnd HI); exact X.
  unfold np_bytes. rewrite X. cbn [post_of py_bytes bindr]. rewrite pad_self. reflexivity.
Qed.
Lemma bytearray_held b s' r : strip0 b = b -> vacant wo s g nm (VByteArray b) -> write_value wo rnd tries wr g nm (VByteArray b) s = (s', Ok r) ->
  exists i, r = Some i /\ held (hp s') (reg s (name_of (hp s) g ++ [nm])) i (VByteArray b).
Proof.
  intros X VC E. cbn [write_value] in E. eapply scalar_held with (kd := KByteArray); [exact (proj1 VC)|..|exact E]; try scal. apply (bytes_obj wo rnd HI); exact X.
  unfold np_bytes. rewrite X. cbn [post_of py_bytes bindr]. rewrite pad_self. reflexivity.
Qed.
Lemma dtype_held t b s' r : utf8_encode t = Ok b -> strip0 b = b -> vacant wo s g nm (VDtype t) -> write_value wo rnd tries wr g nm (VDtype t) s = (s', Ok r) ->
  exists i, r = Some i /\ held (hp s') (reg s (name_of (hp s) g ++ [nm])) i (VDtype t).
Proof.
  intros T X VC E. unfold vacant, np_form in VC. rewrite T in VC. cbn [write_value] in E. apply bind_ok in E. destruct E as (s1 & b' & E1 & E). apply lift_ok in E1. destruct E1 as [-> E1].
  rewrite T in E1. injection E1 as <-. eapply scalar_held with (kd := KDtype); [exact (proj1 VC)|..|exact E]; try scal. apply (bytes_obj wo rnd HI); exact X.
  unfold np_bytes. rewrite X. cbn [post_of py_str a_dt a_data flat_map]. rewrite pad_self. rewrite app_nil_r.
  rewrite (utf8_decode_encode _ _ T). reflexivity.
Qed.
Lemma str_held t s' r : text_ok t -> vacant wo s g nm (VStr t) -> write_value wo rnd tries wr g nm (VStr t) s = (s', Ok r) ->
  exists i, r = Some i /\ held (hp s') (reg s (name_of (hp s) g ++ [nm])) i (VStr t).
Proof.
  intros [T B] VC E. cbn [write_value] in E. eapply scalar_held with (kd := KStr); [exact (proj1 VC)|..|exact E]; try scal. apply (str_obj wo rnd HI); exact T.
  unfold np_str. rewrite (good_strip t T). cbn [post_of py_str a_dt a_data flat_map]. rewrite pad_self. rewrite app_nil_r.
  unfold units_to_str. assert (X : strip_bom t = t) by (destruct t as [|c t]; [reflexivity|]; cbn [strip_bom hd] in *; destruct (N.eqb_spec c bom); [unfold bom in *; congruence|reflexivity]).
  rewrite X, utf32_decode_ok by apply T. reflexivity.
Qed.
Lemma const_held v ts s' r : v = VNone /\ ts = lit "builtins.NoneType" \/ v = VEllipsis /\ ts = lit "builtins.ellipsis" \/ v = VNotImplemented /\ ts = lit "builtins.NotImplementedType" ->
  room wo s g nm CNdarray none_array ts -> np_write wo rnd tries wr g nm (CNdarray, none_array) ts s = (s', Ok r) ->
  exists i, r = Some i /\ held (hp s') (reg s (name_of (hp s) g ++ [nm])) i v.
Proof.
  intros H VC E. eapply kind_held with (kd := KConst v); [exact VC|..|exact E]; try scal.
  - constructor; cbn; try congruence; auto.
  - intros p [].
  - destruct H as [[_ ->]|[[_ ->]|[_ ->]]]; ascii.
  - destruct H as [[-> ->]|[[-> ->]|[-> ->]]]; vm_compute; reflexivity.
  - intros a' _ _. exists v. split; [reflexivity|apply S_refl].
  - destruct H as [[-> _]|[[-> _]|[-> _]]]; cbn; lia.
  - intros p [].
Qed.
Lemma list_max_in x l : In x l -> x <= list_max l.
Proof. intros H. pose proof (list_max_le l (list_max l)) as [X _]. specialize (X (le_n _)). rewrite Forall_forall in X. apply X, H. Qed.
Lemma value_np_held c a s' r : np_obj wo c a -> compatible wo ro a -> (forall p, In (XPtr p) (a_data a) -> storable p) -> vacant wo s g nm (VNp c a) -> write_value wo rnd tries wr g nm (VNp c a) s = (s', Ok r) ->
  exists i, r = Some i /\ held (hp s') (reg s (name_of (hp s) g ++ [nm])) i (VNp c a).
Proof.
  intros H1 H2 H3 VC E. cbn [write_value] in E.
  eapply kind_held with (kd := KNp); [exact (proj1 VC)|exact H1|exact H2|exact H3| | | | | | | |exact E]; try scal.
  - apply np_type_ascii.
  - intros ->. reflexivity.
  - apply np_type_reader.
  - intros a' S _. exists (VNp c a'). split; [reflexivity|exact S].
  - cbn [depth]. lia.
  - intros p Hp. cbn [depth]. apply le_n_S. apply list_max_in. apply in_map_iff. exists (XPtr p). auto.
Qed.
Lemma seq_held k l s' r : seq_ok keq k l -> Forall storable l -> vacant wo s g nm (VSeq k l) -> write_value wo rnd tries wr g nm (VSeq k l) s = (s', Ok r) ->
  exists i, r = Some i /\ held (hp s') (reg s (name_of (hp s) g ++ [nm])) i (VSeq k l).
Proof.
  intros H1 H2 VC E. cbn [write_value] in E.
  assert (IN : forall p, In (XPtr p) (a_data (obj_array l)) -> In p l).
  { intros p Hp. cbn [obj_array a_data] in Hp. apply in_map_iff in Hp. destruct Hp as (x & [= ->] & Hx). exact Hx. }
  eapply kind_held with (kd := KSeq k); [exact (proj1 VC)|apply seq_obj|..|exact E]; try scal.
  - intros p Hp. rewrite Forall_forall in H2. apply H2, IN, Hp.
  - destruct k; ascii.
  - destruct k; vm_compute; reflexivity.
  - intros a' S _. inversion S as [|c x y Sd Ss Se| | |]; subst.
    + exists (VSeq k l). split; [|apply S_refl]. cbn [post_of py_list obj_array a_shape a_dt a_data bindr]. rewrite map_item_obj. f_equal.
      destruct k; cbn [seq_read]; try reflexivity; try (rewrite set_of_distinct; [reflexivity|eapply differ_same; [exact H1|]; clear; induction l; constructor; auto; apply S_refl]).
      destruct l; [destruct (H1 eq_refl)|reflexivity].
    + destruct (same_ptrs l _ Se) as (m & Em & Hm). destruct a' as [d' sh' da']. cbn [obj_array a_dt a_shape a_data] in *. subst da' sh'.
      assert (Ed : d' = TObj) by (destruct Sd as [<-|(n & m' & X & _)]; [reflexivity|discriminate]). subst d'.
      exists (VSeq k m). split; [|apply S_seq; exact Hm]. cbn [post_of py_list a_shape a_dt a_data bindr]. rewrite map_item_obj. f_equal.
      destruct k; cbn [seq_read]; try reflexivity; try (rewrite set_of_distinct; [reflexivity|eapply differ_same; [exact H1|exact Hm]]).
      inversion Hm; subst; [destruct (H1 eq_refl)|reflexivity].
  - cbn [depth]. lia.
  - intros p Hp. cbn [depth]. apply le_n_S. apply list_max_in. apply in_map, IN, Hp.
Qed.
End Values.
