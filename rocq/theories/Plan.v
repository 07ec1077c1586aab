(** What writing a value leaves in the file, as a pure function of the options and the
    value: the tree of objects (Datasets and Groups) with their attributes.  It follows
    the write methods of the marshallers (Marshallers.py l.700-1148, l.1780-1955,
    utilities.py l.377-501) with everything about the file left out; Layout.v proves that
    the file written by the model in MarshalW.v has exactly these objects. *)
From Verif Require Import Base PathEsc PosixPath Unicode Dec NdArray Value OptionsM StrConv ComplexM Attrs NpDims Hdf5 NpWrite NpRead MarshalW MarshalR ReadFacts RoundNp.
Local Open Scope nat_scope.

Inductive ltree :=
| LData (at_ : attrs) (a : arr nat) (f : filt)                       (* a Dataset without references *)
| LRefs (at_ : attrs) (sh : list nat) (f : filt) (l : list ltree)    (* a Dataset of references *)
| LGroup (at_ : attrs) (l : list (pystr * ltree))
| LCanon.                                                            (* the canonical empty *)
Definition map_attrs (f : attrs -> attrs) (T : ltree) : ltree :=
  match T with
  | LData at_ a x => LData (f at_) a x
  | LRefs at_ sh x l => LRefs (f at_) sh x l
  | LGroup at_ l => LGroup (f at_) l
  | LCanon => LCanon
  end.

Section Plan.
Variable o : options.
Section P.
Variable pl : pyval -> res (option ltree).

Definition plan_elem (v : pyval) : res ltree :=
  do r <- pl v; Ok (match r with None => LCanon | Some T => T end).
(** l.899-938 for one field *)
Definition field_value (b : arr pyval) (n : nat) (f : dt * list nat) : pyval :=
  let col := mkArr TObj (a_shape b) (map XPtr (column n f (a_data b))) in
  let col := if o_reverse o then tr col else col in
  if prod (a_shape b) =? 1 then match a_data col with XPtr x :: _ => x | _ => VOther end else VNp CNdarray col.
Definition plan_field (b : arr pyval) (nf : nat * (pystr * (dt * list nat))) : res (option (pystr * ltree)) :=
  let '(n, (name, f)) := nf in
  do r <- pl (field_value b n f);
  Ok (option_map (fun T => (escaped name, map_attrs (fun a => if prod (a_shape b) =? 1 then a else no_attrs) T)) r).
Definition plan_item (kv : pystr * pyval) : res (option (pystr * ltree)) :=
  do r <- pl (snd kv); Ok (option_map (pair (fst kv)) r).

(** l.940-1011: an array stored as a Dataset; [b] is data_to_store *)
Definition plan_data (v : npval) (ts : pystr) (b : arr pyval) : res (option ltree) :=
  let f := filt_of (np_filters o (a_shape b) (size b * itemsize (a_dt b))) in
  match a_dt b with
  | TObj =>
      do l <- mapr plan_elem (map elem_val (a_data b));
      Ok (Some (LRefs (fresh_attrs (np_attrs o v ts [] false (Some TRef))) (a_shape b) f l))
  | _ =>
      let d := mkArr (stored_dt (a_dt b)) (a_shape b) (map noptr (a_data b)) in
      Ok (Some (LData (fresh_attrs (np_attrs o v ts [] false (Some (a_dt (h5py_present d))))) d f))
  end.
(** NumpyScalarArrayMarshaller.write, l.700-1011 *)
Definition plan_np (v : npval) (ts : pystr) : res (option ltree) :=
  let '(c, a) := v in
  if np_incompatible o a && eqb_str (o_action o) (lit "error") then Err TypeNotMatlabCompatibleError
  else if np_incompatible o a && eqb_str (o_action o) (lit "discard") then Ok None
  else
    do b <- np_prepare o v;
    if as_group o a (a_dt b) then
      do l <- mapr (plan_field b) (combine (seq 0 (length (struct_fields (a_dt b)))) (struct_fields (a_dt b)));
      let pre := if o_matlab_compatible o then [(lit "MATLAB_class", QPyStr (lit "struct"))] else [] in
      Ok (Some (LGroup (fresh_attrs (np_attrs o v ts pre true None)) (somes l)))
    else
      plan_data v ts b.

(** PythonDictMarshaller.write, l.1780-1876 *)
Definition plan_dict (items : list (pyval * pyval)) (ts : pystr) (plain : bool) : res (option ltree) :=
  let codes := key_codes (map fst items) in
  let kvs := match codes with
             | None => [(o_keys_name o, VSeq QTuple (map fst items)); (o_values_name o, VSeq QTuple (map snd items))]
             | Some cs => combine (map (fun c => escaped (snd c)) cs) (map snd items)
             end in
  do l <- mapr plan_item kvs;
  Ok (Some (LGroup (fresh_attrs (dict_attrs o ts plain codes)) (somes l))).

(** LowLevelFile.write_data *)
Definition plan_value (v : pyval) : res (option ltree) :=
  match v with
  | VNone => plan_np (CNdarray, none_array) (lit "builtins.NoneType")
  | VEllipsis => plan_np (CNdarray, none_array) (lit "builtins.ellipsis")
  | VNotImplemented => plan_np (CNdarray, none_array) (lit "builtins.NotImplementedType")
  | VBool b => plan_np (CScalar, mkArr TBool [] [XBool b]) (lit "bool")
  | VInt z => plan_np (CScalar, int_array z) (lit "long")
  | VFloat x => plan_np (CScalar, mkArr (TF 8) [] [XFlt x]) (lit "float")
  | VComplex x y => plan_np (CScalar, mkArr (TC 16) [] [XCpx x y]) (lit "complex")
  | VStr s => plan_np (CScalar, np_str s) (lit "str")
  | VBytes s => plan_np (CScalar, np_bytes s) (lit "bytes")
  | VByteArray s => plan_np (CScalar, np_bytes s) (lit "bytearray")
  | VNp c a => plan_np (c, a) (np_type c (a_dt a))
  | VSeq k l => plan_np (CNdarray, obj_array l) (seq_type k)
  | VDict k l => plan_dict l (dict_type k) (match k with MCounter => false | _ => true end)
  | VRec k fs => plan_dict (rec_items k fs) (rec_type k) true
  | VDtype t => do b <- utf8_encode t; plan_np (CScalar, np_bytes b) (lit "numpy.dtype")
  | VOther => Err NotImplementedError
  end.
End P.

Fixpoint plan (n : nat) (v : pyval) : res (option ltree) :=
  match n with O => Err OutOfFuel | S n' => plan_value (plan n') v end.

(** what marking with the path of the containing Group does (utilities.py l.490-497,
    Marshallers.py l.931-938, l.1868-1874) *)
Definition marked (p : list pystr) (a : attrs) : attrs :=
  if o_matlab_compatible o then set_attr h5path (AStr (name_text p)) a else del_attr h5path a.

(** the object [i] of a file is the root of a tree; everything below is in [Q] *)
Definition obj_is (h : heap) (i : nat) (at_ : attrs) (b : body) : Prop :=
  exists ob, h i = Some ob /\ (forall k, o_attrs ob k = at_ k) /\ o_body ob = b.
Inductive rep (h : heap) (Q : nat -> Prop) : (attrs -> attrs) -> nat -> ltree -> Prop :=
| R_data m i at_ a f : obj_is h i (m at_) (BData a f) -> rep h Q m i (LData at_ a f)
| R_refs m i at_ sh f js l : obj_is h i (m at_) (BData (mkArr TRef sh (map XPtr js)) f) ->
    Forall2 (fun j T => Q j /\ rep h Q (marked (path_comps (o_refs o))) j T) js l -> rep h Q m i (LRefs at_ sh f l)
| R_group m i at_ ls l : obj_is h i (m at_) (BGroup ls) -> NoDup (map fst l) -> (forall k, In k (map fst ls) <-> In k (map fst l)) ->
    Forall (fun kT => exists j, assoc (fst kT) ls = Some j /\ Q j /\ rep h Q (marked (name_of h i)) j (snd kT)) l -> rep h Q m i (LGroup at_ l)
| R_canon m i : is_canonical h i = true -> rep h Q m i LCanon.

(** values whose dicts have no two keys with the same text (those would be written to the
    same place); fields of structured arrays have different names *)
Inductive tidy : pyval -> Prop :=
| T_atom v : match v with VNp _ _ | VSeq _ _ | VDict _ _ | VRec _ _ => False | _ => True end -> tidy v
| T_np c a : Forall (fun e => tidy (elem_val e)) (a_data a) ->
    (forall fs, a_dt a = TStruct fs -> NoDup (map fst fs) /\ forall cols n f, In (XRec cols) (a_data a) -> nth_error fs n = Some f ->
       tidy (field_item (fst (snd f)) (snd (snd f)) (nth n cols []))) -> tidy (VNp c a)
| T_seq k l : Forall tidy l -> tidy (VSeq k l)
| T_dict k l : (forall cs, key_codes (map fst l) = Some cs -> NoDup (map snd cs)) -> (key_codes (map fst l) = None -> Forall tidy (map fst l)) ->
    Forall tidy (map snd l) -> tidy (VDict k l)
| T_rec k l : Forall tidy l -> tidy (VRec k l).
End Plan.

Lemma ltree_ind' (P : ltree -> Prop) (H1 : forall at_ a f, P (LData at_ a f)) (H2 : forall at_ sh f l, Forall P l -> P (LRefs at_ sh f l))
  (H3 : forall at_ l, Forall (fun kT => P (snd kT)) l -> P (LGroup at_ l)) (H4 : P LCanon) : forall T, P T.
Proof.
  fix go 1. intros [at_ a f|at_ sh f l|at_ l|].
  - apply H1.
  - apply H2. induction l as [|T l IH]; constructor; [apply go|exact IH].
  - apply H3. induction l as [|[k T] l IH]; constructor; [apply go|exact IH].
  - exact H4.
Qed.
