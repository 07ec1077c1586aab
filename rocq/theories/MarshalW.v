(** Writing: LowLevelFile.write_data, write_object_array and
    next_unused_ref_group_name (utilities.py l.212-276, l.377-501, l.546-644) and the
    write methods of the marshallers (Marshallers.py). *)
From Verif Require Import Base PathEsc PosixPath Unicode Dec NdArray Value OptionsM StrConv ComplexM Attrs NpDims Hdf5 NpWrite.
Local Open Scope nat_scope.

(** ** which type string a value gets (TypeMarshaller.get_type_string, l.326-336, and
    the types and python_type_strings of each marshaller) *)
Definition seq_type (k : seqkind) : pystr :=
  match k with
  | QList => lit "list" | QTuple => lit "tuple" | QSet => lit "set" | QFrozenset => lit "frozenset"
  | QDeque => lit "collections.deque" | QChainMap => lit "collections.ChainMap"
  end.
Definition dict_type (k : dictkind) : pystr :=
  match k with
  | MDict => lit "dict" | MOrderedDict => lit "collections.OrderedDict" | MCounter => lit "collections.Counter"
  end.
Definition rec_type (k : reckind) : pystr :=
  match k with
  | RSlice => lit "slice" | RRange => lit "range" | RFraction => lit "fractions.Fraction"
  | RTimedelta => lit "datetime.timedelta" | RTimezone => lit "datetime.timezone" | RDate => lit "datetime.date"
  | RTime => lit "datetime.time" | RDatetime => lit "datetime.datetime"
  end.
Definition scalar_type (d : dt) : pystr :=
  match d with
  | TBool => lit "numpy.bool_"
  | TS _ => lit "numpy.bytes_"
  | TUni _ => lit "numpy.str_"
  | TObj | TRef => lit "numpy.object_"
  | TStruct _ => lit "numpy.void"
  | _ => lit "numpy." ++ dt_name d
  end.
Definition np_type (c : container) (d : dt) : pystr :=
  match c with
  | CNdarray => lit "numpy.ndarray" | CMatrix => lit "numpy.matrix" | CChararray => lit "numpy.chararray"
  | CRecarray => lit "numpy.recarray" | CScalar => scalar_type d
  end.

(** the names of the attributes that make up a record (l.2131, l.2202-2224, l.2289); a
    timezone has a name or not *)
Definition rec_fields (k : reckind) : list pystr :=
  match k with
  | RSlice | RRange => [lit "start"; lit "stop"; lit "step"]
  | RFraction => [lit "numerator"; lit "denominator"]
  | RTimedelta => [lit "days"; lit "seconds"; lit "microseconds"]
  | RTimezone => [lit "offset"; lit "name"]
  | RDate => [lit "year"; lit "month"; lit "day"]
  | RTime => [lit "hour"; lit "minute"; lit "second"; lit "microsecond"; lit "tzinfo"]
  | RDatetime => [lit "year"; lit "month"; lit "day"; lit "hour"; lit "minute"; lit "second"; lit "microsecond"; lit "tzinfo"]
  end.
Definition rec_items (k : reckind) (fields : list pyval) : list (pyval * pyval) := combine (map VStr (rec_fields k)) fields.

(** np.zeros((0,), np.float64), l.1741 *)
Definition none_array : arr pyval := mkArr (TF 8) [0] [].
(** np.int64(data), else np.bytes_(data), l.1609-1613.  np.bytes_ of an int is taken to
    be the decimal text. *)
Definition int_array (z : Z) : arr pyval :=
  if ((-9223372036854775808 <=? z) && (z <=? 9223372036854775807))%Z then mkArr (TI 8) [] [XInt z]
  else np_bytes (show_Z z).
(** the 1-d object array of a sequence, l.2342-2343.  numpy is taken to store each
    element as it is. *)
Definition obj_array (l : list pyval) : arr pyval := mkArr TObj [length l] (map XPtr l).

(** ** keys of dicts (l.1793-1813): the type code and the text, None when the key is not
    a string or cannot be decoded.  A bytes key is decoded as UTF-8, a np.str_ through
    its UTF-32 bytes (utilities.py l.833-855). *)
Definition key_code (k : pyval) : option (N * pystr) :=
  match k with
  | VStr s => Some (116%N, s)                                           (* t *)
  | VBytes b => match bytes_decode_utf8 b with Ok s => Some (98%N, s) | Err _ => None end   (* b *)
  | VNp CScalar (mkArr (TUni n) [] [XStr s]) =>
      match units_to_str 4 (pad n s) with Ok t => Some (85%N, t) | Err _ => None end        (* U *)
  | VNp CScalar (mkArr (TS n) [] [XBytes s]) =>
      match bytes_decode_utf8 (pad n s) with Ok t => Some (83%N, t) | Err _ => None end     (* S *)
  | _ => None
  end.
Fixpoint key_codes (ks : list pyval) : option (list (N * pystr)) :=
  match ks with
  | [] => Some []
  | k :: r => match key_code k, key_codes r with Some c, Some cs => Some (c :: cs) | _, _ => None end
  end.

(** data without the pointers (only arrays without object fields are stored as they are) *)
Fixpoint noptr (e : elem pyval) : elem nat :=
  match e with
  | XBool b => XBool b | XInt z => XInt z | XFlt b => XFlt b | XCpx r i => XCpx r i
  | XBytes s => XBytes s | XStr s => XStr s
  | XPtr _ => XInt 0
  | XRec fs => XRec (map (map noptr) fs)
  end.
Definition plain_data (a : arr pyval) : arr nat := mkArr (a_dt a) (a_shape a) (map noptr (a_data a)).
(** the object that an element of an object array is *)
Definition elem_val (e : elem pyval) : pyval := match e with XPtr v => v | _ => VOther end.

(** utilities.py l.447-456: a properly formatted canonical empty *)
Definition is_canonical (h : heap) (i : nat) : bool :=
  match h i with
  | Some ob =>
      match o_body ob with
      | BData a _ =>
          eqb_shape (a_shape a) [2] && match a_dt a with TU _ => true | _ => false end &&
          forallb (fun e => match e with XInt z => (z =? 0)%Z | _ => false end) (a_data a) &&
          match o_attrs ob (lit "MATLAB_class") with
          | Some (AStr b) => eqb_str b (lit "canonical empty")
          | Some (AText b) => eqb_str b (lit "canonical empty")
          | _ => false
          end &&
          match o_attrs ob (lit "MATLAB_empty") with
          | Some (AU8 n) => (n =? 1)%N | Some (AI64 z) => (z =? 1)%Z | _ => false
          end
      | _ => false
      end
  | None => false
  end.

Section Writer.
Variable o : options.
(** random.getrandbits(64), the successive values; and how many are tried for one name
    before giving up (the loop of l.641-643 has no bound) *)
Variable rnd : nat -> N.
Variable tries : nat.

(** ** the references group *)
Definition set_session (f : st -> st) : M unit := fun s => (f s, Ok tt).
Definition with_rgrp (g : nat) (b : bool) (s : st) : st := mkSt (hp s) (nxt s) (Some g) b (canon s) (counter s) (rpos s).
Definition with_canon (c : nat) (s : st) : st := mkSt (hp s) (nxt s) (rgrp s) (rcreated s) (Some c) (counter s) (rpos s).

(** utilities.py l.417-436 *)
Definition ensure_refs : M nat := fun s =>
  match rgrp s with
  | Some g => (s, Ok g)
  | None =>
      (let* r := get_obj 0 (o_refs o) in
       match r with
       | Some g =>
           let* isg := gets (fun s => is_group (hp s) g) in
           if isg then (let* _ := set_session (with_rgrp g false) in ret g)
           else
             let* _ := unlink 0 (o_refs o) in
             let* g := create_group 0 (o_refs o) in
             let* _ := set_session (with_rgrp g true) in ret g
       | None =>
           let* g := create_group 0 (o_refs o) in
           let* _ := set_session (with_rgrp g true) in ret g
       end) s
  end.

(** utilities.py l.460-467; the Dataset is given its attributes as it is made *)
Definition canon_attrs : attrs :=
  set_attr (lit "MATLAB_empty") (AU8 1) (set_attr (lit "MATLAB_class") (AStr (lit "canonical empty")) no_attrs).
Definition canon_body : body := BData (mkArr (TU 8) [2] [XInt 0; XInt 0]) (mkFilt None None false false false).
Definition new_canon (g : nat) : M nat :=
  let* c := new_link g (lit "a") canon_attrs canon_body in
  let* _ := set_session (with_canon c) in ret c.
(** l.443-467.  An undecodable MATLAB_class counts as a wrong one (the code would raise). *)
Definition ensure_canon (g : nat) : M nat := fun s =>
  match canon s with
  | Some c => (s, Ok c)
  | None =>
      match lookup (hp s) g (lit "a") with
      | Some c => if is_canonical (hp s) c then (with_canon c s, Ok c)
                  else (let* _ := unlink g (lit "a") in new_canon g) s
      | None => new_canon g s
      end
  end.

(** l.546-644; the references group is always known when it is called *)
Fixpoint draw (n : nat) (g : nat) : M pystr := fun s =>
  match n with
  | O => (s, Err OutOfFuel)
  | S n' =>
      let name := show_hex16 (rnd (rpos s)) in
      let s1 := mkSt (hp s) (nxt s) (rgrp s) (rcreated s) (canon s) (counter s) (S (rpos s)) in
      match lookup (hp s) g name with Some _ => draw n' g s1 | None => (s1, Ok name) end
  end.
Definition next_name (g : nat) : M pystr := fun s =>
  if rcreated s
  then (mkSt (hp s) (nxt s) (rgrp s) (rcreated s) (canon s) (counter s + 1)%N (rpos s), Ok (show_hex (counter s)))
  else draw tries g s.

(** l.490-497 and Marshallers.py l.1868-1874 *)
Definition mark_path (i : nat) (p : pystr) : M unit :=
  if o_matlab_compatible o then
    let* b := lift (ascii_bytes p) in modify_attr i (lit "H5PATH") (AStr b)
  else drop_attr i (lit "H5PATH").

(** ** the marshallers; [wr] writes a value inside a Group (write_data) and gives the
    object, None if the value was discarded *)
Section Marshallers.
Variable wr : nat -> pystr -> pyval -> M (option nat).

(** utilities.py l.377-501 *)
Definition write_element (g c : nat) (v : pyval) : M nat :=
  let* nm := next_name g in
  let* r := wr g nm v in
  match r with
  | None => ret c
  | Some i =>
      let* p := gets (fun s => name_text (name_of (hp s) g)) in
      let* _ := mark_path i p in ret i
  end.
Definition write_object_array (a : arr pyval) : M (arr nat) :=
  let* g := ensure_refs in
  let* c := ensure_canon g in
  let* refs := mapM (write_element g c) (map elem_val (a_data a)) in
  ret (mkArr TRef (a_shape a) (map XPtr refs)).

(** Marshallers.py l.871-876 and l.1819-1824 *)
Definition open_group (g : nat) (nm : pystr) : M nat :=
  let* r := get_obj g nm in
  match r with
  | None => create_group g nm
  | Some i =>
      let* isg := gets (fun s => is_group (hp s) i) in
      if isg then ret i else (let* _ := unlink g nm in create_group g nm)
  end.
(** l.886-888 and l.1857-1858 *)
Definition prune (i : nat) (keep : list pystr) : M unit := fun s =>
  iterM (fun k => unlink_at i [k]) (filter (fun k => negb (mem_str k keep)) (map fst (links (hp s) i))) s.

(** l.899-938 for one field; [b] is data_to_store *)
Definition write_field (i : nat) (b : arr pyval) (nf : nat * (pystr * (dt * list nat))) : M unit :=
  let '(n, (name, f)) := nf in
  let col := mkArr TObj (a_shape b) (map XPtr (column n f (a_data b))) in
  let col := if o_reverse o then tr col else col in
  let single := (prod (a_shape b) =? 1) in
  let v := if single then match a_data col with XPtr x :: _ => x | _ => VOther end else VNp CNdarray col in
  let* r := wr i (escaped name) v in
  match r with
  | None => ret tt
  | Some j =>
      let* p := gets (fun s => name_text (name_of (hp s) i)) in
      sync_attrs j (if o_matlab_compatible o then [(lit "H5PATH", QString p)] else []) (negb single)
  end.
(** l.862-938 *)
Definition write_struct (g : nat) (nm : pystr) (b : arr pyval) : M nat :=
  let fs := struct_fields (a_dt b) in
  let* i := open_group g nm in
  let* _ := (if o_delete_unused o then prune i (map escaped (map fst fs)) else ret tt) in
  let* _ := iterM (write_field i b) (combine (seq 0 (length fs)) fs) in
  ret i.

(** l.984-1001.  When [d_opts] is missing, filters["compression_opts"] raises KeyError
    inside the try and the bare except creates the Dataset, which exists. *)
Definition same_dataset (b : body) (a : arr nat) (df : dfilters) : bool :=
  match b with
  | BData old f =>
      dt_eqb (a_dt (h5py_present old)) (a_dt a) && eqb_shape (a_shape old) (a_shape a) &&
      (match f_comp f, d_comp df with Some x, Some y => eqb_str x y | None, None => true | _, _ => false end) &&
      Bool.eqb (f_shuffle f) (d_shuffle df) && Bool.eqb (f_fletcher f) (d_fletcher df)
  | BGroup _ => false
  end.
Definition same_opts (b : body) (df : dfilters) : option bool :=
  match d_opts df with
  | None => None
  | Some l => match b with
              | BData _ f => Some (match f_level f, l with Some x, Some y => (x =? y)%Z | None, None => true | _, _ => false end)
              | _ => Some false
              end
  end.
Definition replace_dataset (g : nat) (nm : pystr) (a : arr nat) (f : filt) : M nat :=
  let* _ := unlink g nm in create_dataset g nm a f.
(** dsetgrp[...] = data_to_store *)
Definition overwrite (i : nat) (a : arr nat) : M nat := fun s =>
  match hp s i with
  | Some ob => match o_body ob with
               | BData old f => (set_hp s (upd (hp s) i (with_body ob (BData (mkArr (a_dt old) (a_shape old) (a_data a)) f))), Ok i)
               | _ => (s, Err TypeError)
               end
  | None => (s, Err KeyError)
  end.
Definition put_dataset (g : nat) (nm : pystr) (a : arr nat) : M nat :=
  let df := np_filters o (a_shape a) (size a * itemsize (a_dt a)) in
  let* r := catch (get_obj g nm) (fun _ => ret None) in
  match r with
  | None => create_dataset g nm a (filt_of df)
  | Some i =>
      let* b := gets (fun s => match hp s i with Some ob => o_body ob | None => BGroup [] end) in
      if same_dataset b a df then
        match same_opts b df with
        | None => fail ValueError
        | Some true => overwrite i a
        | Some false => replace_dataset g nm a (filt_of df)
        end
      else replace_dataset g nm a (filt_of df)
  end.
(** dsetgrp.dtype *)
Definition dset_dtype (h : heap) (i : nat) : option dt :=
  match h i with
  | Some ob => match o_body ob with BData a _ => Some (a_dt (h5py_present a)) | _ => None end
  | None => None
  end.

(** NumpyScalarArrayMarshaller.write, l.700-1011, [ts]: the type string *)
Definition np_write (g : nat) (nm : pystr) (v : npval) (ts : pystr) : M (option nat) :=
  let '(c, a) := v in
  if np_incompatible o a && eqb_str (o_action o) (lit "error") then fail TypeNotMatlabCompatibleError
  else if np_incompatible o a && eqb_str (o_action o) (lit "discard") then ret None
  else
    let* b := lift (np_prepare o v) in
    if as_group o a (a_dt b) then
      let* i := write_struct g nm b in
      let pre := if o_matlab_compatible o then [(lit "MATLAB_class", QPyStr (lit "struct"))] else [] in
      let* _ := sync_attrs i (np_attrs o v ts pre true None) true in
      ret (Some i)
    else
      let* d := (match a_dt b with TObj => write_object_array b | _ => ret (plain_data b) end) in
      let* i := put_dataset g nm d in
      let* t := gets (fun s => dset_dtype (hp s) i) in
      let* _ := sync_attrs i (np_attrs o v ts [] false t) true in
      ret (Some i).

(** PythonDictMarshaller.write_metadata, l.1878-1955; [plain]: type(data) is dict or
    OrderedDict *)
Definition dict_attrs (ts : pystr) (plain : bool) (codes : option (list (N * pystr))) : list (pystr * areq) :=
  let names := match codes with Some cs => map (fun c => escaped (snd c)) cs | None => [] end in
  let at1 := if o_store_python_metadata o then
      match codes with
      | None => [(lit "Python.dict.StoredAs", QString (lit "keys_values"));
                 (lit "Python.dict.keys_values_names", QStrs [o_keys_name o; o_values_name o])]
      | Some cs => [(lit "Python.dict.StoredAs", QString (lit "individually"));
                    (lit "Python.Fields", QStrs names);
                    (lit "Python.dict.key_str_types", QString (map fst cs))]
      end else [] in
  let at2 := if o_matlab_compatible o && match codes with Some _ => true | None => false end then
      match matlab_fields names with Some fs => dput (lit "MATLAB_fields") (QVal fs) at1 | None => at1 end else at1 in
  let at3 := if o_matlab_compatible o && plain then dput (lit "MATLAB_class") (QString (lit "struct")) at2 else at2 in
  if o_store_python_metadata o then dput (lit "Python.Type") (QString ts) at3 else at3.

(** PythonDictMarshaller.write, l.1780-1876 *)
Definition write_item (i : nat) (p : pystr) (kv : pystr * pyval) : M unit :=
  let* r := wr i (fst kv) (snd kv) in
  match r with None => ret tt | Some j => mark_path j p end.
Definition dict_write (g : nat) (nm : pystr) (items : list (pyval * pyval)) (ts : pystr) (plain : bool) : M (option nat) :=
  let codes := key_codes (map fst items) in
  let* i := open_group g nm in
  let* _ := sync_attrs i (dict_attrs ts plain codes) true in
  let kvs := match codes with
             | None => [(o_keys_name o, VSeq QTuple (map fst items)); (o_values_name o, VSeq QTuple (map snd items))]
             | Some cs => combine (map (fun c => escaped (snd c)) cs) (map snd items)
             end in
  let* _ := (if match codes with None => true | _ => false end || o_delete_unused o then prune i (map fst kvs) else ret tt) in
  let* p := gets (fun s => name_text (name_of (hp s) i)) in
  let* _ := (if o_matlab_compatible o then let* _ := lift (ascii_bytes p) in ret tt else ret tt) in
  let* _ := iterM (write_item i p) kvs in
  ret (Some i).

(** LowLevelFile.write_data: the marshaller of the type of the value *)
Definition write_value (g : nat) (nm : pystr) (v : pyval) : M (option nat) :=
  match v with
  | VNone => np_write g nm (CNdarray, none_array) (lit "builtins.NoneType")
  | VEllipsis => np_write g nm (CNdarray, none_array) (lit "builtins.ellipsis")
  | VNotImplemented => np_write g nm (CNdarray, none_array) (lit "builtins.NotImplementedType")
  | VBool b => np_write g nm (CScalar, mkArr TBool [] [XBool b]) (lit "bool")
  | VInt z => np_write g nm (CScalar, int_array z) (lit "long")
  | VFloat x => np_write g nm (CScalar, mkArr (TF 8) [] [XFlt x]) (lit "float")
  | VComplex x y => np_write g nm (CScalar, mkArr (TC 16) [] [XCpx x y]) (lit "complex")
  | VStr s => np_write g nm (CScalar, np_str s) (lit "str")
  | VBytes s => np_write g nm (CScalar, np_bytes s) (lit "bytes")
  | VByteArray s => np_write g nm (CScalar, np_bytes s) (lit "bytearray")
  | VNp c a => np_write g nm (c, a) (np_type c (a_dt a))
  | VSeq k l => np_write g nm (CNdarray, obj_array l) (seq_type k)
  | VDict k l => dict_write g nm l (dict_type k) (match k with MCounter => false | _ => true end)
  | VRec k fs => dict_write g nm (rec_items k fs) (rec_type k) true
  | VDtype t => let* b := lift (utf8_encode t) in np_write g nm (CScalar, np_bytes b) (lit "numpy.dtype")
  | VOther => fail NotImplementedError
  end.
End Marshallers.

(** nesting: [n] bounds the depth.  (Python has a bound on recursion too.) *)
Fixpoint write (n : nat) (g : nat) (nm : pystr) (v : pyval) : M (option nat) :=
  match n with
  | O => fail OutOfFuel
  | S n' => write_value (write n') g nm v
  end.
End Writer.

(** how deep a value is *)
Definition edepth {A} (f : A -> nat) : elem A -> nat :=
  fix go (e : elem A) : nat :=
    match e with
    | XPtr p => f p
    | XRec fs => 2 + list_max (map (fun l => list_max (map go l)) fs)
    | _ => 0
    end.
Fixpoint depth (v : pyval) : nat :=
  match v with
  | VNp _ a => 1 + list_max (map (edepth depth) (a_data a))
  | VSeq _ l => 1 + list_max (map depth l)
  | VDict _ l => 2 + list_max (map (fun kv => Nat.max (depth (fst kv)) (depth (snd kv))) l)
  | VRec _ l => 1 + list_max (map depth l)
  | _ => 1
  end.
