(** Reading: LowLevelFile.read_data and read_object_array (utilities.py l.278-375,
    l.503-544) and the read methods of the marshallers (Marshallers.py). *)
From Verif Require Import Base PathEsc PosixPath Unicode Dec NdArray Value OptionsM StrConv ComplexM Attrs NpDims MColl Hdf5 NpWrite NpRead MarshalW.
Local Open Scope nat_scope.

(** which marshaller reads a type string (utilities.py l.351-366; MarshallerCollection);
    everything else goes to NumpyScalarArrayMarshaller *)
Inductive rkind :=
| KNp | KBool | KInt | KFloat | KComplex | KStr | KBytes | KByteArray
| KConst (v : pyval) | KDict (k : dictkind) | KRec (k : reckind) | KSeq (k : seqkind) | KDtype.
Definition type_table : list (pystr * rkind) :=
  [(lit "bool", KBool); (lit "int", KInt); (lit "long", KInt); (lit "float", KFloat); (lit "complex", KComplex);
   (lit "str", KStr); (lit "bytes", KBytes); (lit "bytearray", KByteArray);
   (lit "builtins.NoneType", KConst VNone); (lit "builtins.ellipsis", KConst VEllipsis);
   (lit "builtins.NotImplementedType", KConst VNotImplemented);
   (lit "dict", KDict MDict); (lit "collections.OrderedDict", KDict MOrderedDict); (lit "collections.Counter", KDict MCounter);
   (lit "slice", KRec RSlice); (lit "range", KRec RRange); (lit "fractions.Fraction", KRec RFraction);
   (lit "datetime.timedelta", KRec RTimedelta); (lit "datetime.timezone", KRec RTimezone); (lit "datetime.date", KRec RDate);
   (lit "datetime.time", KRec RTime); (lit "datetime.datetime", KRec RDatetime);
   (lit "list", KSeq QList); (lit "tuple", KSeq QTuple); (lit "set", KSeq QSet); (lit "frozenset", KSeq QFrozenset);
   (lit "collections.deque", KSeq QDeque); (lit "collections.ChainMap", KSeq QChainMap); (lit "numpy.dtype", KDtype)].
Definition reader_kind (ts : option pystr) : rkind :=
  match ts with
  | Some t => match assoc t type_table with Some k => k | None => KNp end
  | None => KNp
  end.

(** contextlib.suppress(Exception) around a read; running out of steps is not an
    exception and is passed on *)
Definition quiet {A} (r : res A) : res (option A) :=
  match r with Ok a => Ok (Some a) | Err OutOfFuel => Err OutOfFuel | Err _ => Ok None end.

(** ** Python's conversions of what has been read *)
(** data.item() *)
Definition item (v : pyval) : res (elem pyval) :=
  match v with
  | VNp CScalar (mkArr (TS n) [] [XBytes s]) => Ok (XBytes (pad n s))
  | VNp CScalar (mkArr (TUni n) [] [XStr s]) => Ok (XStr (pad n s))
  | VNp _ a => match a_data a with [e] => Ok e | _ => Err ValueError end
  | _ => Err AttributeError
  end.
(** bool(x), int(x), float(x), complex(x) of what item gives.  Conversions that change
    the kind of number are not modelled (NotImplementedError); only foreign files lead
    there. *)
Definition py_bool (e : elem pyval) : res pyval :=
  match e with
  | XBool b => Ok (VBool b)
  | XInt z => Ok (VBool (negb (z =? 0)%Z))
  | _ => Err NotImplementedError
  end.
Definition py_int (e : elem pyval) : res pyval :=
  match e with
  | XInt z => Ok (VInt z)
  | XBool b => Ok (VInt (if b then 1 else 0))
  | XBytes s | XStr s => match parse_Z s with Some z => Ok (VInt z) | None => Err ValueError end
  | _ => Err NotImplementedError
  end.
Definition py_float (e : elem pyval) : res pyval :=
  match e with XFlt x => Ok (VFloat x) | _ => Err NotImplementedError end.
Definition py_complex (e : elem pyval) : res pyval :=
  match e with XCpx x y => Ok (VComplex x y) | _ => Err NotImplementedError end.
(** utilities.convert_to_str (l.833-855) *)
Definition py_str (v : pyval) : res pystr :=
  match v with
  | VNp _ a =>
      match a_dt a with
      | TU 1 => bytes_decode_utf8 (of_units (a_data a))
      | TU 2 => units_to_str 2 (of_units (a_data a))
      | TU 4 => units_to_str 4 (of_units (a_data a))
      | TS n => bytes_decode_utf8 (flat_map (fun e => match e with XBytes s => pad n s | _ => [] end) (a_data a))
      | TUni n => units_to_str 4 (flat_map (fun e => match e with XStr s => pad n s | _ => [] end) (a_data a))
      | _ => Err TypeError
      end
  | VStr s => Ok s
  | VBytes b | VByteArray b => bytes_decode_utf8 b
  | _ => Err TypeError
  end.
(** bytes(data) of a np.bytes_; of an array it is its memory (not modelled) *)
Definition py_bytes (v : pyval) : res (list N) :=
  match v with
  | VNp CScalar (mkArr (TS n) [] [XBytes s]) => Ok (pad n s)
  | _ => Err NotImplementedError
  end.
(** list(data): the rows *)
Definition py_list (v : pyval) : res (list pyval) :=
  match v with
  | VNp CScalar _ => Err TypeError
  | VNp c a =>
      match a_shape a with
      | [] => Err TypeError
      | [_] => Ok (map (item_of (a_dt a)) (a_data a))
      | n :: sh => Ok (map (fun row => VNp c (mkArr (a_dt a) sh row)) (chunks (prod sh) n (a_data a)))
      end
  | VDict _ l => Ok (map fst l)
  | VSeq _ l => Ok l
  | _ => Err TypeError
  end.

Section Reader.
Variable o : options.
(** when two keys of a dict, or members of a set, are the same (__eq__ and __hash__) *)
Variable keq : pyval -> pyval -> bool.

(** dict(items): a repeated key keeps its place and gets the last value *)
Fixpoint dict_put (k v : pyval) (l : list (pyval * pyval)) : list (pyval * pyval) :=
  match l with
  | [] => [(k, v)]
  | (k', v') :: r => if keq k' k then (k', v) :: r else (k', v') :: dict_put k v r
  end.
Definition dict_of (items : list (pyval * pyval)) : list (pyval * pyval) :=
  fold_left (fun d kv => dict_put (fst kv) (snd kv) d) items [].
(** set(items) *)
Definition set_of (l : list pyval) : list pyval :=
  fold_left (fun d x => if existsb (fun y => keq y x) d then d else d ++ [x]) l [].

Variable h : heap.
Section ReadOne.
Variable rd : nat -> res pyval.

(** l.1183-1190 and utilities.py l.539-544 *)
Definition deref (e : elem nat) : res (elem pyval) :=
  match e with
  | XPtr j => if live h j then do v <- rd j; Ok (XPtr v) else Err ValueError
  | _ => Err ValueError
  end.
Definition read_array (a : arr nat) : res (arr pyval) :=
  match a_dt a with
  | TRef => do l <- mapr deref (a_data a); Ok (mkArr TObj (a_shape a) l)
  | _ => Ok (amap (fun _ => VNone) (h5py_present a))
  end.

(** l.1215-1226: only such Datasets can be the columns of a structured array with more
    than one element *)
Definition own_attrs : list pystr :=
  [lit "Python.Type"; lit "Python.Shape"; lit "Python.numpy.UnderlyingType"; lit "Python.numpy.Container"; lit "Python.Fields";
   lit "MATLAB_class"; lit "MATLAB_int_decode"; lit "MATLAB_fields"].
Definition is_column (j : nat) : bool :=
  match h j with
  | Some ob =>
      match o_body ob with
      | BData a _ => dt_eqb (a_dt a) TRef && forallb (fun k => match o_attrs ob k with None => true | Some _ => false end) own_attrs
      | BGroup _ => false
      end
  | None => false
  end.
Definition is_refs (j : nat) : bool := eqb_str (name_text (name_of h j)) (o_refs o).

(** l.1207-1229: the members that can be read, by unescaped name *)
Definition read_members (ls : list (pystr * nat)) : res (list (pystr * pyval)) :=
  do ms <- mapr (fun kj => do uk <- unescape_path (fst kj);
                           if is_refs (snd kj) then Ok None
                           else do r <- quiet (rd (snd kj)); Ok (option_map (fun v => (uk, v)) r)) ls;
  Ok (fold_left (fun d m => match m with Some (k, v) => dput k v d | None => d end) ms []).
Definition multi_element (ls : list (pystr * nat)) : bool :=
  forallb (fun kj => is_refs (snd kj) || is_column (snd kj)) ls.

(** l.1249-1262: the order of the fields *)
Definition field_order (ra : rattrs) (present : list pystr) : res (list pystr) :=
  do given <- (match ra_fields ra, ra_mfields ra with
               | Some fs, _ => do l <- mapr unescape_path fs; Ok (Some l)
               | None, Some fs => do l <- mapr unescape_path fs; Ok (Some l)
               | None, None => Ok None
               end);
  match given with
  | Some l => Ok (l ++ sorted (filter (fun k => negb (mem_str k l)) present))
  | None => Ok (sorted present)
  end.

(** l.1192-1317; inl: a dict is returned at once (l.1231-1232) *)
Definition read_group (ra : rattrs) (ls : list (pystr * nat)) : res (pyval + arr pyval) :=
  do ms <- read_members ls;
  if match ra_mclass ra with Some c => eqb_str c (lit "struct") | None => false end && o_structs_as_dicts o
  then Ok (inl (VDict MDict (map (fun kv => (VStr (fst kv), snd kv)) ms)))
  else
    do cols <- mapr (fun kv =>
                 if multi_element ls
                 then match snd kv with VNp _ a => Ok (fst kv, a) | _ => Err AttributeError end
                 else Ok (fst kv, mkArr TObj [1] [XPtr (snd kv)])) ms;
    do fields <- field_order ra (map fst cols);
    do a <- build_struct fields cols;
    Ok (inr a).

(** NumpyScalarArrayMarshaller.read, l.1150-1512 *)
Definition np_read (ob : obj) : res pyval :=
  do ra <- read_attrs (o_attrs ob);
  match o_body ob with
  | BData a _ => do d <- read_array a; np_finish o ra d
  | BGroup ls => do r <- read_group ra ls;
                 match r with inl v => Ok v | inr d => np_finish o ra d end
  end.

(** PythonDictMarshaller.read, l.1957-2069 *)
(** l.2030-2038 *)
Definition key_of (code : N) (s : pystr) : res pyval :=
  if (code =? 116)%N then Ok (VStr s)
  else if (code =? 98)%N then do b <- utf8_encode s; Ok (VBytes b)
  else if (code =? 83)%N then do b <- utf8_encode s; Ok (VNp CScalar (np_bytes b))
  else if (code =? 85)%N then Ok (VNp CScalar (np_str s))
  else Err KeyError.
(** l.2040-2062 for one field, [code]: its key_str_types character *)
Definition read_item (i : nat) (kc : pystr * option N) : res (option (pyval * pyval)) :=
  quiet (do uk <- unescape_path (fst kc);
         match lookup h i (fst kc) with
         | None => Err KeyError
         | Some j =>
             do v <- rd j;
             do k <- (match snd kc with Some c => key_of c uk | None => Ok (VStr uk) end);
             Ok (k, v)
         end).
Definition skipped (i : nat) (k : pystr) : bool :=
  match unescape_path k with
  | Ok _ => match lookup h i k with Some j => is_refs j | None => false end
  | Err _ => false
  end.
Definition somes {A} (l : list (option A)) : list A := flat_map (fun x => match x with Some a => [a] | None => [] end) l.
Fixpoint add_new (l extra : list pystr) : list pystr :=
  match extra with [] => l | k :: r => add_new (if mem_str k l then l else l ++ [k]) r end.
Definition dict_items (i : nat) (at_ : attrs) (ls : list (pystr * nat)) : res (list (pyval * pyval)) :=
  do stored_as <- attr_str at_ (lit "Python.dict.StoredAs");
  do types <- attr_str at_ (lit "Python.dict.key_str_types");
  let fields := attr_strs at_ (lit "Python.Fields") in
  let '(kn, vn) := match attr_strs at_ (lit "Python.dict.keys_values_names") with
                   | Some (a :: b :: _) => (a, b)
                   | _ => (o_keys_name o, o_values_name o)
                   end in
  match (if match stored_as with Some s => eqb_str s (lit "keys_values") | None => false end
         then match lookup h i (escaped kn), lookup h i (escaped vn) with Some a, Some b => Some (a, b) | _, _ => None end
         else None) with
  | Some (a, b) =>
      do ks <- rd a; do vs <- rd b;
      do kl <- py_list ks; do vl <- py_list vs; Ok (combine kl vl)
  | None =>
      let all := add_new (add_new (match fields with Some l => l | None => [] end)
                                  (match attr_fields at_ (lit "MATLAB_fields") with Some l => l | None => [] end))
                         (map fst ls) in
      let codes := match fields, types with
                   | Some fs, Some ts => if length fs =? length ts then map Some ts else []
                   | _, _ => []
                   end in
      let pairs := combine all (codes ++ repeat None (length all)) in
      do rs <- mapr (fun kc => if skipped i (fst kc) then Ok None else read_item i kc) pairs;
      Ok (somes rs)
  end.
Definition dict_read (i : nat) (ob : obj) : res (list (pyval * pyval)) :=
  match o_body ob with
  | BGroup ls => do l <- dict_items i (o_attrs ob) ls; Ok (dict_of l)
  | BData _ _ => Err NotImplementedError
  end.

(** tp(...) of a record from the dict read (l.2143-2155, l.2243-2251, l.2302-2303):
    slice and range use three keys, the others are given all items as keywords.
    Defaults for keywords that are missing, and the checks of the constructors, are
    not modelled. *)
Definition find_key (l : list (pyval * pyval)) (k : pystr) : option pyval :=
  match find (fun kv => match fst kv with VStr s => eqb_str s k | _ => false end) l with Some kv => Some (snd kv) | None => None end.
Definition rec_read (k : reckind) (l : list (pyval * pyval)) : res pyval :=
  let need := match k with
              | RTimezone => if Nat.ltb (length l) 2 then [lit "offset"] else rec_fields k
              | _ => rec_fields k
              end in
  let known kv := match fst kv with VStr s => mem_str s (rec_fields k) | _ => false end in
  if match k with RSlice | RRange => false | _ => negb (forallb known l) end then Err TypeError
  else
    do fs <- mapr (fun f => match find_key l f with Some v => Ok v | None => Err KeyError end) need;
    Ok (VRec k fs).

Definition seq_read (k : seqkind) (l : list pyval) : pyval :=
  match k with
  | QSet | QFrozenset => VSeq k (set_of l)
  | QChainMap => VSeq k (match l with [] => [VDict MDict []] | _ => l end)
  | _ => VSeq k l
  end.

(** LowLevelFile.read_data of an object *)
Definition read_value (i : nat) : res pyval :=
  match h i with
  | None => Err KeyError
  | Some ob =>
      do ts <- attr_str (o_attrs ob) (lit "Python.Type");
      do _ <- attr_str (o_attrs ob) (lit "MATLAB_class");
      match reader_kind ts with
      | KNp => np_read ob
      | KBool => do v <- np_read ob; do e <- item v; py_bool e
      | KInt => do v <- np_read ob; do e <- item v; py_int e
      | KFloat => do v <- np_read ob; do e <- item v; py_float e
      | KComplex => do v <- np_read ob; do e <- item v; py_complex e
      | KStr => do v <- np_read ob; do s <- py_str v; Ok (VStr s)
      | KBytes => do v <- np_read ob; do s <- py_bytes v; Ok (VBytes s)
      | KByteArray => do v <- np_read ob; do s <- py_bytes v; Ok (VByteArray s)
      | KConst v => Ok v
      | KDict k => do l <- dict_read i ob; Ok (VDict k l)
      | KRec k => do l <- dict_read i ob; rec_read k l
      | KSeq k => do v <- np_read ob; do l <- py_list v; Ok (seq_read k l)
      | KDtype => do v <- np_read ob; do s <- py_str v; Ok (VDtype s)
      end
  end.
End ReadOne.

(** nesting through references and Groups, at most [n] deep *)
Fixpoint read (n : nat) (i : nat) : res pyval :=
  match n with
  | O => Err OutOfFuel
  | S n' => read_value (read n') i
  end.
End Reader.
