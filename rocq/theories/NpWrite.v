(** The parts of NumpyScalarArrayMarshaller.write and .write_metadata
    (Marshallers.py l.700-1148) that only compute: what array is stored, with which
    filters, and which attributes are asked for. *)
From Verif Require Import Base PathEsc ProcessPathFacts Dec NdArray Value OptionsM StrConv ComplexM Attrs NpDims Hdf5.
Local Open Scope nat_scope.

(** escape_path never raises (ProcessPathFacts.escape_esc) *)
Definition escaped (s : pystr) : pystr := match escape_path s with Ok t => t | Err _ => [] end.
Lemma escaped_esc s : escaped s = esc s.
Proof. unfold escaped. rewrite escape_esc. reflexivity. Qed.

(** a numpy object: its container (ndarray, matrix, ..., or scalar) and contents *)
Definition npval := (container * arr pyval)%type.

Definition is_struct (d : dt) : bool := match d with TStruct _ => true | _ => false end.
Definition is_cpx (d : dt) : bool := match d with TC _ => true | _ => false end.
Definition is_strdt (d : dt) : bool := match d with TS _ | TUni _ => true | _ => false end.

(** l.654-671 __MATLAB_classes, by dtype.type *)
Definition matlab_class_of (d : dt) : option pystr :=
  match d with
  | TBool => Some (lit "logical")
  | TU _ | TI _ => Some (dt_name d)
  | TF 4 | TC 8 => Some (lit "single")
  | TF 8 | TC 16 => Some (lit "double")
  | TS _ | TUni _ => Some (lit "char")
  | TObj => Some (lit "cell")
  | _ => None
  end.

(** l.716-722 *)
Definition np_incompatible (o : options) (a : arr pyval) : bool :=
  o_matlab_compatible o &&
  negb (match matlab_class_of (a_dt a) with Some _ => true | None => false end
        || is_struct (a_dt a) && o_struct_as_struct o).

(** data.size == 0 or (bytes or str and data.nbytes == 0), l.814-817, l.1101-1103 *)
Definition np_empty (a : arr pyval) : bool :=
  (size a =? 0) || is_strdt (a_dt a) && (nbytes a =? 0).

Definition bool_to_u8 {A} (e : elem A) : elem A := match e with XBool b => XInt (if b then 1 else 0) | _ => e end.

(** l.732-825: everything up to the encoding of complex numbers *)
Definition np_prepare (o : options) (v : npval) : res (arr pyval) :=
  let '(c, a) := v in
  let b1 := store_bytes o a in
  do b2 <- store_str o c b1;
  let b3 := write_dims o b2 in
  let b4 := if dt_eqb (a_dt b3) TBool && o_bools_uint8 o
            then mkArr (TU 1) (a_shape b3) (map bool_to_u8 (a_data b3)) else b3 in
  let b5 := if o_shape_empty o && np_empty a
            then shape_array (if o_reverse o then rev (a_shape b4) else a_shape b4) else b4 in
  if is_cpx (a_dt b5) then encode_complex (o_complex_names o) b5 else Ok b5.

(** dtype.hasobject *)
Fixpoint has_object (d : dt) : bool :=
  match d with
  | TObj => true
  | TStruct fs => existsb (fun f => match f with (_, (e, _)) => has_object e end) fs
  | _ => false
  end.
(** the text \x00 in str(dtype): the repr of a name with a NUL has it, and so does
    that of a name with the text itself *)
Fixpoint has_sub (p s : pystr) : bool :=
  match s with
  | [] => match p with [] => true | _ => false end
  | _ :: r => eqb_str p (firstn (length p) s) || has_sub p r
  end.
Definition null_name (n : pystr) : bool := existsb (N.eqb 0) n || has_sub (lit "\x00") n.
Fixpoint has_null (d : dt) : bool :=
  match d with
  | TStruct fs => existsb (fun f => match f with (n, (e, _)) => null_name n || has_null e end) fs
  | _ => false
  end.
(** utilities.does_dtype_have_a_zero_shape (see DtypeShape.v) *)
Fixpoint has_zero_shape (d : dt) : bool :=
  match d with
  | TStruct fs => existsb (fun f => match f with (_, (e, sh)) => existsb (Nat.eqb 0) sh || has_zero_shape e end) fs
  | _ => false
  end.

(** l.850-861; [d] is data_to_store.dtype, [a] the data given *)
Definition as_group (o : options) (a : arr pyval) (d : dt) : bool :=
  is_struct d && negb (is_cpx (a_dt a)) &&
  (o_struct_as_struct o || (has_object d || has_null d) || has_zero_shape d).

(** l.948-976 *)
Record dfilters := mkDF { d_comp : option pystr; d_opts : option (option Z); d_shuffle : bool; d_fletcher : bool; d_chunks : bool }.
Definition np_filters (o : options) (shape : list nat) (bytes : nat) : dfilters :=
  let notscalar := negb (eqb_shape shape []) in
  let '(comp, opts, shuffle, fletcher) :=
    if notscalar && o_compress o && match as_int (o_threshold o) with Some z => (z <=? Z.of_nat bytes)%Z | None => false end
    then (Some (o_algorithm o),
          (if eqb_str (o_algorithm o) (lit "gzip") then Some (as_int (o_level o)) else None),   (* None: no such key *)
          o_shuffle o, o_cfletcher o)
    else (None, Some None, false, if notscalar then o_ufletcher o else false) in
  mkDF comp opts shuffle fletcher (match comp with Some _ => true | None => fletcher end).
Definition filt_of (d : dfilters) : filt :=
  mkFilt (d_comp d) (match d_opts d with Some x => x | None => None end) (d_shuffle d) (d_fletcher d) (d_chunks d).

(** ** attributes (l.1013-1148) *)
(** a Python dict in insertion order *)
Fixpoint dput {B} (k : pystr) (v : B) (l : list (pystr * B)) : list (pystr * B) :=
  match l with
  | [] => [(k, v)]
  | (k', v') :: r => if eqb_str k k' then (k', v) :: r else (k', v') :: dput k v r
  end.
Definition container_name (c : container) : pystr :=
  match c with
  | CScalar => lit "scalar" | CNdarray => lit "ndarray" | CMatrix => lit "matrix"
  | CChararray => lit "chararray" | CRecarray => lit "recarray"
  end.
Definition ascii_str (s : pystr) : bool := forallb (fun c => (c <? 128)%N) s.
(** the names as 'S1' arrays; UnicodeEncodeError if one is not ASCII *)
Definition matlab_fields (names : list pystr) : option aval :=
  if forallb ascii_str names then Some (AFields names) else None.

Definition struct_fields (d : dt) : list (pystr * (dt * list nat)) := match d with TStruct fs => fs | _ => [] end.
Definition field_names (d : dt) : list pystr := map fst (struct_fields d).

(** l.1078-1079 when the array was not stored as a Group *)
Definition fields_anyway (o : options) (a : arr pyval) : bool :=
  is_struct (a_dt a) &&
  (o_struct_as_struct o || has_object (a_dt a) || has_null (a_dt a) || existsb (Nat.eqb 0) (a_shape a)
   || existsb (fun f => match f with (_, (_, sh)) => existsb (Nat.eqb 0) (a_shape a ++ sh) end) (struct_fields (a_dt a))).

(** the attributes asked for; [stored]: dsetgrp.dtype, None for a Group *)
Definition np_attrs (o : options) (v : npval) (ts : pystr) (attributes : list (pystr * areq)) (wrote_as_struct : bool)
    (stored : option dt) : list (pystr * areq) :=
  let '(c, a) := v in
  let at1 := if o_store_python_metadata o then
      dput (lit "Python.numpy.Container") (QString (container_name c))
      (dput (lit "Python.numpy.UnderlyingType") (QString (dt_name (a_dt a)))
      (dput (lit "Python.Shape") (QVal (AU64s (a_shape a))) attributes)) else attributes in
  let at2 := if wrote_as_struct || fields_anyway o a then
      let names := map escaped (field_names (a_dt a)) in
      let x := if o_store_python_metadata o then dput (lit "Python.Fields") (QStrs names) at1 else at1 in
      if o_matlab_compatible o then
        match matlab_fields names with Some fs => dput (lit "MATLAB_fields") (QVal fs) x | None => x end
      else x
    else at1 in
  let at3 := if np_empty a then
      let x := if o_store_python_metadata o then dput (lit "Python.Empty") (QVal (AU8 1)) at2 else at2 in
      if o_matlab_compatible o then dput (lit "MATLAB_empty") (QVal (AU8 1)) x else x
    else at2 in
  let at4 := if o_matlab_compatible o then
      if is_struct (a_dt a) && o_struct_as_struct o then dput (lit "MATLAB_class") (QString (lit "struct")) at3
      else match matlab_class_of (a_dt a) with
           | Some cls =>
               let x := dput (lit "MATLAB_class") (QString cls) at3 in
               match a_dt a with
               | TS _ | TUni _ | TBool =>
                   match stored with
                   | Some (TS _) => dput (lit "MATLAB_int_decode") (QPyInt 1) x
                   | Some d => dput (lit "MATLAB_int_decode") (QVal (AI64 (Z.of_nat (itemsize d)))) x
                   | None => x
                   end
               | _ => x
               end
           | None => at3
           end
    else at3 in
  (* TypeMarshaller.write_metadata, l.450-458 *)
  if o_store_python_metadata o && negb (mem_str (lit "Python.Type") (map fst at4))
  then dput (lit "Python.Type") (QString ts) at4 else at4.

(** ** the columns of a structured array (l.897-908): for a field, what x[field]
    gives for every element x *)
Definition field_item (d : dt) (sh : list nat) (es : list (elem pyval)) : pyval :=
  match sh, es with
  | [], [e] => item_of d e
  | _, _ => VNp CNdarray (mkArr d sh es)
  end.
Definition column (n : nat) (f : dt * list nat) (l : list (elem pyval)) : list pyval :=
  map (fun e => match e with XRec cols => field_item (fst f) (snd f) (nth n cols []) | _ => VNone end) l.
