(** What the round trip properties (C27-C29, C36, C37) say: when a value read back is
    the same as the one written, and for which values that holds. *)
From Verif Require Import Base PathEsc Unicode Dec NdArray Value OptionsM OptionsSpec StrConv ComplexM MColl Hdf5 NpWrite.
Local Open Scope nat_scope.

(** the attributes that make up a value of one of these types, as its documentation has
    them; a timezone has a name or not *)
Definition attribute_names (k : reckind) : list pystr := map lit match k with
  | RSlice | RRange => ["start"; "stop"; "step"]
  | RFraction => ["numerator"; "denominator"]
  | RTimedelta => ["days"; "seconds"; "microseconds"]
  | RTimezone => ["offset"; "name"]
  | RDate => ["year"; "month"; "day"]
  | RTime => ["hour"; "minute"; "second"; "microsecond"; "tzinfo"]
  | RDatetime => ["year"; "month"; "day"; "hour"; "minute"; "second"; "microsecond"; "tzinfo"]
  end%string.

(** the same dtype; only the width reserved for the elements of a str array may differ *)
Definition same_dt (d e : dt) : Prop := d = e \/ exists n m, d = TUni n /\ e = TUni m.

(** the same type and the same contents, all the way down *)
Inductive same : pyval -> pyval -> Prop :=
| S_refl v : same v v
| S_np c a b : same_dt (a_dt a) (a_dt b) -> a_shape a = a_shape b -> Forall2 same_elem (a_data a) (a_data b) ->
    same (VNp c a) (VNp c b)
| S_seq k l m : Forall2 same l m -> same (VSeq k l) (VSeq k m)
| S_dict k l m : Forall2 (fun x y => same (fst x) (fst y) /\ same (snd x) (snd y)) l m -> same (VDict k l) (VDict k m)
| S_rec k l m : Forall2 same l m -> same (VRec k l) (VRec k m)
with same_elem : elem pyval -> elem pyval -> Prop :=
| S_erefl e : same_elem e e
| S_ptr p q : same p q -> same_elem (XPtr p) (XPtr q)
| S_cells l m : Forall2 (Forall2 same_elem) l m -> same_elem (XRec l) (XRec m).

(** elements that an array of a dtype can hold.  numpy does not show trailing NULs of
    bytes; a str whose last code point is a multiple of 256 is not read back (C16) *)
Definition typed (d : dt) (e : elem pyval) : Prop :=
  match d, e with
  | TBool, XBool _ | TU _, XInt _ | TI _, XInt _ | TF _, XFlt _ | TObj, XPtr _ => True
  | TC w, XCpx _ _ => w = 8 \/ w = 16
  | TS n, XBytes s => length s <= n /\ strip0 s = s
  | TUni n, XStr s => length s <= n /\ good_str s
  | _, _ => False
  end.

(** the numpy objects spoken about: arrays of any shape, matrices, chararrays,
    recarrays and scalars, of bools, ints, floats, complex numbers, bytes, strs and
    objects; structured dtypes are below *)
Record np_obj (o : options) (c : container) (a : arr pyval) : Prop := {
  n_len : length (a_data a) = prod (a_shape a);
  n_elems : Forall (typed (a_dt a)) (a_data a);
  n_kind : match a_dt a with TRef | TStruct _ => False | TC w => w = 8 \/ w = 16 | _ => True end;
  n_scalar : c = CScalar -> a_shape a = [] /\ a_dt a <> TObj /\
    match a_dt a, a_data a with
    | TS n, [XBytes s] => n = length s
    | TUni n, [XStr s] => n = length s
    | _, _ => True
    end;
  n_matrix : c = CMatrix -> length (a_shape a) = 2;
  n_width : c <> CScalar -> match a_dt a with TS 0 | TUni 0 => False | _ => True end;
  (* converting a 0-d str array to UTF-16 fails (C16) *)
  n_0d : c <> CScalar -> o_str_utf16 o = true -> forall n, a_dt a = TUni n -> a_shape a <> [] }.

(** structured arrays with the fields [fs]: at least one element and one field, names that
    are different and not empty.  Every element has the elements of its fields. *)
Record struct_obj (c : container) (a : arr pyval) (fs : list (pystr * (dt * list nat))) : Prop := {
  st_dt : a_dt a = TStruct fs;
  st_len : length (a_data a) = prod (a_shape a);
  st_some : prod (a_shape a) <> 0 /\ fs <> [];
  st_names : NoDup (map fst fs) /\ Forall (fun t => t <> [] /\ scalar_str t) (map fst fs);
  st_rows : Forall (fun e => exists cells, e = XRec cells /\ Forall2 (fun f cell => length cell = prod (snd (snd f))) fs cells) (a_data a);
  st_scalar : c = CScalar -> a_shape a = [];
  st_matrix : c = CMatrix -> length (a_shape a) = 2 }.
(** what x[name] is for the elements x of an array, for the [n]th name, whose dtype and
    shape are [f] *)
Definition field_values (n : nat) (f : dt * list nat) (a : arr pyval) : list pyval := column n f (a_data a).
(** a structured array that is stored as a Group: with the option for it, or when HDF5 has
    no such type *)
Definition stored_as_group (o : options) (d : dt) : bool := o_struct_as_struct o || has_object d || has_null d || has_zero_shape d.
(** the values of a field by which its type is found again: they are all numpy objects of
    the dtype and the shape of the field (not: bytes and strs that are shorter than the
    field), or it is a field of objects that are not all numpy objects *)
Definition numpy_of (f : dt * list nat) (x : pyval) : Prop := exists c a, x = VNp c a /\ a_dt a = fst f /\ a_shape a = snd f.
Definition keeps_type (f : dt * list nat) (items : list pyval) : Prop :=
  (match f with (TUni _, _) | (TObj, []) => False | _ => True end /\ Forall (numpy_of f) items) \/
  (f = (TObj, []) /\ Exists (fun x => match x with VNp _ _ => False | _ => True end) items).
Fixpoint no_objects (e : elem pyval) : bool :=
  match e with XPtr _ => false | XRec cells => forallb (forallb no_objects) cells | _ => true end.
(** the types of fields that HDF5 has: not without fields, and not two fields r and i of floats, which h5py takes
    for complex numbers *)
Definition like_complex (fs : list (pystr * (dt * list nat))) : bool :=
  match fs with
  | [(n0, (TF _, [])); (n1, (TF _, []))] => eqb_str n0 (lit "r") && eqb_str n1 (lit "i")
  | _ => false
  end.
Fixpoint plain_type (d : dt) : bool :=
  match d with
  | TS 0 | TUni _ | TObj | TRef => false
  | TStruct fs => negb (like_complex fs) && negb (length fs =? 0) && forallb (fun f => match f with (_, (e, _)) => plain_type e end) fs
  | _ => true
  end.

(** options for writing and for reading that go together *)
Record paired (wo ro : options) : Prop := {
  p_meta : o_store_python_metadata wo = true;
  p_rev : o_matlab_compatible wo = true -> o_reverse wo = true;
  p_cpx : recognised (o_complex_names wo);
  p_same : o_matlab_compatible wo = true \/ o_reverse ro = o_reverse wo;
  p_refs : o_refs ro = o_refs wo;
  p_keys : escape_path (o_keys_name wo) = Ok (o_keys_name wo) /\ o_keys_name wo <> [] /\
           escape_path (o_values_name wo) = Ok (o_values_name wo) /\ o_values_name wo <> [] /\ o_keys_name wo <> o_values_name wo }.

(** a MATLAB compatible dtype; or one that is written anyway, and read with the same
    order of dimensions *)
Definition compatible (wo ro : options) (a : arr pyval) : Prop :=
  o_matlab_compatible wo = true ->
  (match a_dt a with TF 4 | TF 8 | TC 8 | TC 16 => True | TF _ | TC _ => False | _ => True end) \/
  (o_action wo = lit "ignore" /\ o_reverse ro = o_reverse wo).

(** the text a key of a dict is stored under *)
Inductive key_text : pyval -> pystr -> Prop :=
| K_str s : key_text (VStr s) s
| K_bytes s b : utf8_encode s = Ok b -> key_text (VBytes b) s
| K_npbytes s b : utf8_encode s = Ok b -> key_text (VNp CScalar (np_bytes b)) s
| K_npstr s : hd 0%N s <> 65279%N -> scalar_str s -> key_text (VNp CScalar (np_str s)) s.
(** neither a str, bytes, np.str_ nor np.bytes_, or not decodable *)
Definition not_text (k : pyval) : Prop :=
  match k with
  | VStr _ => False
  | VBytes b => forall s, utf8_encode s <> Ok b
  | VNp CScalar a => match a_dt a with TS _ | TUni _ => False | _ => True end
  | _ => True
  end.

(** the values that are read back the same *)
Section Storable.
Variables (wo ro : options) (keq : pyval -> pyval -> bool).
(** [x] and [y] are different as members of a set or keys of a dict *)
Definition differ (x y : pyval) : Prop := forall x' y', same x x' -> same y y' -> keq x' y' = false.

Definition text_ok (s : pystr) : Prop := good_str s /\ hd 0%N s <> 65279%N.
Definition seq_ok (k : seqkind) (l : list pyval) : Prop :=
  match k with
  | QSet | QFrozenset => ForallOrdPairs differ l
  | QChainMap => l <> []
  | _ => True
  end.
Definition rec_ok (k : reckind) (fs : list pyval) : Prop :=
  match k with
  | RSlice | RRange | RTimedelta | RDate => length fs = 3
  | RFraction => length fs = 2
  | RTimezone => length fs = 1 \/ length fs = 2
  | RTime => length fs = 5
  | RDatetime => length fs = 8
  end.

Inductive storable : pyval -> Prop :=
| V_none : storable VNone
| V_ellipsis : storable VEllipsis
| V_notimplemented : storable VNotImplemented
| V_bool b : storable (VBool b)
| V_int z : storable (VInt z)
| V_float x : storable (VFloat x)
| V_complex x y : storable (VComplex x y)
| V_str s : text_ok s -> storable (VStr s)
| V_bytes s : strip0 s = s -> storable (VBytes s)
| V_bytearray s : strip0 s = s -> storable (VByteArray s)
| V_dtype t b : utf8_encode t = Ok b -> strip0 b = b -> storable (VDtype t)
| V_np c a : np_obj wo c a -> compatible wo ro a -> (forall p, In (XPtr p) (a_data a) -> storable p) -> storable (VNp c a)
| V_struct c a fs : struct_obj c a fs ->
    (o_matlab_compatible wo = true -> o_struct_as_struct wo = true /\ o_structs_as_dicts ro = false) ->
    (stored_as_group wo (a_dt a) = true -> forall n f, nth_error fs n = Some f -> keeps_type (snd f) (field_values n (snd f) a)) ->
    (stored_as_group wo (a_dt a) = true -> forall n f x, nth_error fs n = Some f -> In x (field_values n (snd f) a) -> storable x) ->
    (stored_as_group wo (a_dt a) = false -> forallb no_objects (a_data a) = true /\ plain_type (a_dt a) = true) -> storable (VNp c a)
| V_seq k l : seq_ok k l -> Forall storable l -> storable (VSeq k l)
| V_rec k fs : rec_ok k fs -> Forall storable fs -> storable (VRec k fs)
(* all keys are strings with different texts *)
| V_dict k l texts : ForallOrdPairs differ (map fst l) -> Forall2 key_text (map fst l) texts -> NoDup texts ->
    Forall (fun t => t <> [] /\ scalar_str t) texts -> Forall storable (map snd l) -> storable (VDict k l)
(* some key is not a string *)
| V_dict_other k l : ForallOrdPairs differ (map fst l) -> Exists not_text (map fst l) ->
    Forall storable (map fst l) -> Forall storable (map snd l) -> storable (VDict k l).
End Storable.
