(** NumpyScalarArrayMarshaller.read (Marshallers.py l.1150-1512): what is done with
    the array once it has been read from a Dataset or put together from a Group. *)
From Verif Require Import Base PathEsc Dec NdArray Value OptionsM Unicode StrConv ComplexM Attrs NpDims MColl Hdf5 NpWrite.
Local Open Scope nat_scope.

(** utilities.convert_attribute_to_string (l.1324-1354) *)
Definition attr_str (a : attrs) (k : pystr) : res (option pystr) :=
  match a k with
  | Some (AStr b) => do s <- bytes_decode_utf8 b; Ok (Some s)
  | Some (AText s) => Ok (Some s)
  | _ => Ok None
  end.
(** utilities.convert_attribute_to_string_array (l.1357-1379); what is not a list
    of strs is taken as absent here *)
Definition attr_strs (a : attrs) (k : pystr) : option (list pystr) :=
  match a k with Some (AStrs l) => Some l | _ => None end.
Definition attr_fields (a : attrs) (k : pystr) : option (list pystr) :=
  match a k with Some (AFields l) => Some l | _ => None end.
Definition attr_shape (a : attrs) (k : pystr) : option (list nat) :=
  match a k with Some (AU64s l) => Some l | _ => None end.
(** attributes[k] == 1 *)
Definition attr_is1 (a : attrs) (k : pystr) : bool :=
  match a k with Some (AU8 n) => (n =? 1)%N | Some (AI64 z) => (z =? 1)%Z | _ => false end.

Fixpoint prefixed (p s : pystr) : option pystr :=
  match p, s with
  | [], _ => Some s
  | x :: p', y :: s' => if (x =? y)%N then prefixed p' s' else None
  | _, [] => None
  end.
Definition starts_with (p s : pystr) : bool := match prefixed p s with Some _ => true | None => false end.

(** np.dtype(name) for the names of the modelled types; "voidN" is an untyped
    block, shown as N/8 bytes here *)
Definition bits_of (s : pystr) : option nat := match parse_N s with Some n => Some (N.to_nat n / 8) | None => None end.
Definition dtype_of_name (s : pystr) : res dt :=
  if eqb_str s (lit "bool") then Ok TBool
  else if eqb_str s (lit "object") then Ok TObj
  else
    match prefixed (lit "uint") s, prefixed (lit "int") s, prefixed (lit "float") s, prefixed (lit "complex") s,
          prefixed (lit "void") s with
    | Some r, _, _, _, _ => match bits_of r with Some w => Ok (TU w) | None => Err TypeError end
    | _, Some r, _, _, _ => match bits_of r with Some w => Ok (TI w) | None => Err TypeError end
    | _, _, Some r, _, _ => match bits_of r with Some w => Ok (TF w) | None => Err TypeError end
    | _, _, _, Some r, _ => match bits_of r with Some w => Ok (TC w) | None => Err TypeError end
    | _, _, _, _, Some r => match bits_of r with Some w => Ok (TS w) | None => Err TypeError end
    | _, _, _, _, _ => Err TypeError
    end.

(** int(text) *)
Definition int_text (s : pystr) : res nat := match parse_N s with Some n => Ok (N.to_nat n) | None => Err ValueError end.
(** int(int(underlying_type[len("bytes"):]) / 8), and with 32 for str; 1 when the name has no number *)
Definition nchars (pre : pystr) (per : nat) (u : pystr) : res nat :=
  match prefixed pre u with
  | Some [] => Ok 1
  | Some r => do n <- int_text r; Ok (n / per)
  | None => Err ValueError
  end.

(** np.bool_(data) *)
Definition to_bool (e : elem pyval) : elem pyval :=
  match e with
  | XInt z => XBool (negb (z =? 0)%Z)
  | XBool b => XBool b
  | _ => XBool true     (* not modelled further *)
  end.

(** the dtype whose fields are all objects, l.1327-1340 *)
Definition object_struct (names : list pystr) : dt := TStruct (map (fun k => (k, (TObj, []))) names).

Definition nodup_str (l : list pystr) : bool :=
  (fix go l := match l with [] => true | x :: r => negb (mem_str x r) && go r end) l.

(** data.flat[0] *)
Definition flat0 (a : arr pyval) : res pyval :=
  match a_data a with e :: _ => Ok (item_of (a_dt a) e) | [] => Err IndexError end.

(** l.1312-1455 with the Python metadata.  [bare]: data has been replaced by
    np.bytes_(b"") or np.str_(""), which has no settable shape. *)
Definition np_meta (reverse : bool) (ts under : pystr) (shape : list nat) (container : option pystr)
    (python_empty : bool) (struct_names : option (list pystr)) (matlab_class : option pystr) (data : arr pyval) : res pyval :=
  let reversed := match matlab_class with Some _ => true | None => reverse end in
  let is_bytes := starts_with (lit "bytes") under in
  let is_strs := starts_with (lit "str") under in
  (* l.1350-1371 *)
  do d1 <- (if python_empty then
              do dt1 <- (if is_bytes then do n <- nchars (lit "bytes") 8 under; Ok (TS n)
                         else if is_strs then do n <- nchars (lit "str") 32 under; Ok (TUni n)
                         else match struct_names with
                              | Some names => Ok (object_struct names)
                              | None => dtype_of_name under
                              end);
              let z := np_zeros shape dt1 in Ok (if reversed then tr z else z)
            else Ok data);
  (* l.1375-1382 *)
  do d2 <- (if starts_with (lit "complex") under then decode_complex d1 else Ok d1);
  let d3 := if eqb_str under (lit "bool") && negb (dt_eqb (a_dt d2) TBool)
            then mkArr TBool (a_shape d2) (map to_bool (a_data d2)) else d2 in
  let d4 := if reversed then tr d3 else d3 in
  (* l.1395-1414 *)
  do d5 <- (if is_bytes then
              if eqb_str under (lit "bytes") then Ok (mkArr (TS 0) [] [XBytes []], true)
              else do n <- nchars (lit "bytes") 8 under; do d <- convert_to_numpy_bytes d4 n; Ok (d, false)
            else if is_strs || match matlab_class with Some c => eqb_str c (lit "char") | None => false end then
              if eqb_str under (lit "str") then Ok (mkArr (TUni 0) [] [XStr []], true)
              else if is_strs then do n <- nchars (lit "str") 32 under; do d <- convert_to_numpy_str d4 (Some n); Ok (d, false)
              else do d <- convert_to_numpy_str d4 None; Ok (d, false)
            else Ok (d4, false));
  let '(d5, bare) := d5 in
  (* l.1419-1420 *)
  do d6 <- (if negb (eqb_shape shape (a_shape d5)) && (prod shape =? prod (a_shape d5))
            then (if bare then Err AttributeError else Ok (reshape shape d5)) else Ok d5);
  (* l.1424-1425 *)
  let rec_ := eqb_str ts (lit "numpy.recarray") in
  (* l.1431-1465 *)
  match container with
  | Some c =>
      if eqb_str c (lit "scalar") then
        if (is_bytes || is_strs) && python_empty then Ok (if is_bytes then VNp CScalar (np_bytes []) else VNp CScalar (np_str []))
        else if bare then Ok (VNp CScalar d6) else flat0 d6
      else if eqb_str c (lit "ndarray") then Ok (VNp CNdarray d6)
      else if eqb_str c (lit "chararray") then Ok (VNp CChararray d6)
      else if eqb_str c (lit "matrix") then
        match a_shape d6 with
        | _ :: _ :: _ :: _ => Err ValueError
        | sh => Ok (VNp CMatrix (reshape (atleast_2d sh) d6))
        end
      else Ok (VNp (if rec_ then CRecarray else CNdarray) d6)
  | None => Ok (VNp (if rec_ then CRecarray else CNdarray) d6)
  end.

(** l.676-692 *)
Definition matlab_dtype (c : pystr) : option dt :=
  assoc c [(lit "logical", TBool); (lit "uint8", TU 1); (lit "uint16", TU 2); (lit "uint32", TU 4); (lit "uint64", TU 8);
           (lit "int8", TI 1); (lit "int16", TI 2); (lit "int32", TI 4); (lit "int64", TI 8); (lit "single", TF 4);
           (lit "double", TF 8); (lit "char", TUni 1); (lit "cell", TObj); (lit "canonical empty", TF 8); (lit "struct", TObj)].

(** the ints of data as a shape *)
Definition as_shape (a : arr pyval) : list nat :=
  map (fun e => match e with XInt z => Z.to_nat z | _ => 0 end) (a_data a).

(** l.1467-1509 with only MATLAB's attributes *)
Definition np_matlab (matlab_class : pystr) (d0 : dt) (matlab_empty : bool) (fields : option (list pystr)) (data : arr pyval) : res pyval :=
  do d1 <- (if matlab_empty then
              do dt1 <- (match fields with
                         | None => Ok d0
                         | Some names => do names <- mapr unescape_path names; Ok (object_struct names)
                         end);
              Ok (np_zeros (as_shape data) dt1)
            else Ok (tr data));
  do d2 <- (if eqb_str matlab_class (lit "single") || eqb_str matlab_class (lit "double") then decode_complex d1 else Ok d1);
  let d3 := if eqb_str matlab_class (lit "logical") then mkArr TBool (a_shape d2) (map to_bool (a_data d2)) else d2 in
  do d4 <- (match a_dt d3 with
            | TS _ => Ok d3
            | _ => if eqb_str matlab_class (lit "char") then convert_to_numpy_str d3 None else Ok d3
            end);
  Ok (VNp CNdarray d4).

(** the attributes read looks at, l.1162-1182 *)
Record rattrs := mkRA { ra_type : option pystr; ra_under : option pystr; ra_shape : option (list nat); ra_cont : option pystr;
  ra_empty : bool; ra_fields : option (list pystr); ra_mclass : option pystr; ra_mempty : bool; ra_mfields : option (list pystr) }.
Definition read_attrs (a : attrs) : res rattrs :=
  do t <- attr_str a (lit "Python.Type");
  do u <- attr_str a (lit "Python.numpy.UnderlyingType");
  do c <- attr_str a (lit "Python.numpy.Container");
  do m <- attr_str a (lit "MATLAB_class");
  Ok (mkRA t u (attr_shape a (lit "Python.Shape")) c (attr_is1 a (lit "Python.Empty")) (attr_strs a (lit "Python.Fields"))
           m (attr_is1 a (lit "MATLAB_empty")) (attr_fields a (lit "MATLAB_fields"))).

(** l.1312-1512: from the array to the value *)
Definition np_finish (o : options) (r : rattrs) (data : arr pyval) : res pyval :=
  match ra_type r, ra_under r, ra_shape r with
  | Some ts, Some u, Some sh =>
      do names <- (match ra_fields r, ra_mfields r with
                   | Some fs, _ => do ns <- mapr unescape_path fs; Ok (Some ns)
                   | None, Some fs => Ok (Some fs)
                   | None, None => Ok None
                   end);
      np_meta (o_reverse o) ts u sh (ra_cont r) (ra_empty r) names (ra_mclass r) data
  | _, _, _ =>
      match ra_mclass r with
      | Some c => match matlab_dtype c with
                  | Some d => np_matlab c d (ra_mempty r) (ra_mfields r) data
                  | None => Ok (VNp CNdarray data)
                  end
      | None => Ok (VNp CNdarray data)
      end
  end.

(** ** a structured array from the members of a Group (l.1243-1310) *)
(** the type and shape of a numpy object *)
Definition np_layout (v : pyval) : option (dt * list nat) :=
  match v with VNp _ a => Some (a_dt a, a_shape a) | _ => None end.
(** l.1259-1283, [v]: the object array of the values of the field *)
Definition field_type (v : arr pyval) : dt * list nat :=
  let items := map (item_of (a_dt v)) (a_data v) in
  match items with
  | [] => (TObj, [])
  | x :: _ =>
      match np_layout x with
      | None => (TObj, [])
      | Some (d, sh) =>
          if forallb (fun y => match np_layout y with Some (e, th) => dt_eqb d e && eqb_shape sh th | None => false end) items
          then (d, sh) else (TObj, [])
      end
  end.
(** data[k][index] = x, l.1306-1310: a field of an array type takes the elements *)
Definition cell_elems (f : dt * list nat) (v : pyval) : list (elem pyval) :=
  match f, v with
  | (TObj, []), _ => [XPtr v]
  | _, VNp _ a => a_data a
  | _, _ => [XPtr v]
  end.
(** [names]: in the order of the dtype; [members]: their arrays *)
Definition build_struct (names : list pystr) (members : list (pystr * arr pyval)) : res (arr pyval) :=
  do cols <- mapr (fun k => match assoc k members with Some v => Ok (k, v) | None => Err KeyError end) names;
  if negb (nodup_str names) then Err ValueError else
  match rev cols with
  | [] => Err RuntimeErr                        (* v is not bound *)
  | (_, lastv) :: _ =>
      let sh := a_shape lastv in
      let types := map (fun kv => (fst kv, field_type (snd kv))) cols in
      if existsb (Nat.eqb 0) sh then Ok (mkArr (TStruct types) sh [])
      else if forallb (fun kv => eqb_shape (a_shape (snd kv)) sh || existsb (Nat.eqb 0) (a_shape (snd kv))) cols then
        Ok (mkArr (TStruct types) sh
              (map (fun n => XRec (map (fun kv => let f := field_type (snd kv) in
                                    if existsb (Nat.eqb 0) (a_shape (snd kv)) then repeat (zero_elem (fst f)) (prod (snd f))
                                    else match nth_error (a_data (snd kv)) n with
                                         | Some e => cell_elems f (item_of (a_dt (snd kv)) e)
                                         | None => []
                                         end) cols)) (seq 0 (prod sh))))
      else Err IndexError
  end.
