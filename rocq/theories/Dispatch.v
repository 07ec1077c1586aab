(** Which marshaller writes and reads what: LowLevelFile.write_data and read_data
    (utilities.py l.256-276, l.335-375), TypeMarshaller.get_type_string
    (Marshallers.py l.276-336) and the tables of the builtin marshallers. *)
From Verif Require Import Base Dec NdArray Value MColl NpWrite MarshalW MarshalR.
Local Open Scope nat_scope.

(** ** the builtin marshallers, in the order inspect.getmembers gives them (by name) *)
Definition ob (modname name : string) : tyref := TyObj (lit modname) (lit name).
Definition table (types : list tyref) (strings classes : list string) : minfo :=
  {| i_parents := []; i_modules := []; i_types := types; i_strings := map lit strings; i_classes := map lit classes |}.

Definition builtin_classes : list (string * minfo) :=
  [("NumpyDtypeMarshaller"%string,                                       (* l.1515-1524 *)
    table [ob "numpy" "dtype"] ["numpy.dtype"%string] []);
   ("NumpyScalarArrayMarshaller"%string,                                 (* l.567-698 *)
    table
      [ob "numpy" "ndarray"; ob "numpy" "matrix"; ob "numpy" "chararray"; ob "numpy" "recarray"; ob "numpy" "bool_";
       ob "numpy" "void"; ob "numpy" "uint8"; ob "numpy" "uint16"; ob "numpy" "uint32"; ob "numpy" "uint64";
       ob "numpy" "int8"; ob "numpy" "int16"; ob "numpy" "int32"; ob "numpy" "int64"; ob "numpy" "float16";
       ob "numpy" "float32"; ob "numpy" "float64"; ob "numpy" "complex64"; ob "numpy" "complex128";
       ob "numpy" "bytes_"; ob "numpy" "str_"; ob "numpy" "object_"]
      ["numpy.ndarray"; "numpy.matrix"; "numpy.chararray"; "numpy.recarray"; "numpy.bool_"; "numpy.void";
       "numpy.uint8"; "numpy.uint16"; "numpy.uint32"; "numpy.uint64"; "numpy.int8"; "numpy.int16"; "numpy.int32";
       "numpy.int64"; "numpy.float16"; "numpy.float32"; "numpy.float64"; "numpy.complex64"; "numpy.complex128";
       "numpy.bytes_"; "numpy.str_"; "numpy.object_"]%string
      ["logical"; "uint8"; "uint16"; "uint32"; "uint64"; "int8"; "int16"; "int32"; "int64"; "single"; "double";
       "single"; "double"; "char"; "char"; "cell"]%string);
   ("PythonChainMapMarshaller"%string,                                   (* l.2421-2430 *)
    table [ob "collections" "ChainMap"] ["collections.ChainMap"%string] []);
   ("PythonCounterMarshaller"%string,                                    (* l.2072-2081 *)
    table [ob "collections" "Counter"] ["collections.Counter"%string] []);
   ("PythonDatetimeObjsMarshaller"%string,                               (* l.2158-2183 *)
    table [ob "datetime" "timedelta"; ob "datetime" "timezone"; ob "datetime" "date"; ob "datetime" "time"; ob "datetime" "datetime"]
      ["datetime.timedelta"; "datetime.timezone"; "datetime.date"; "datetime.time"; "datetime.datetime"]%string []);
   ("PythonDictMarshaller"%string,                                       (* l.1757-1778 *)
    table [ob "builtins" "dict"; ob "collections" "OrderedDict"] ["dict"; "collections.OrderedDict"]%string []);
   ("PythonFractionMarshaller"%string,                                   (* l.2254-2269 *)
    {| i_parents := [lit "fractions"]; i_modules := [lit "fractions"]; i_types := [TyName (lit "fractions.Fraction")];
       i_strings := [lit "fractions.Fraction"]; i_classes := [] |});
   ("PythonListMarshaller"%string,                                       (* l.2317-2326 *)
    table [ob "builtins" "list"] ["list"%string] []);
   ("PythonNoneEllipsisNotImplementedMarshaller"%string,                 (* l.1710-1722 *)
    table [ob "builtins" "NoneType"; ob "builtins" "ellipsis"; ob "builtins" "NotImplementedType"]
      ["builtins.NoneType"; "builtins.ellipsis"; "builtins.NotImplementedType"]%string []);
   ("PythonScalarMarshaller"%string,                                     (* l.1567-1583 *)
    table [ob "builtins" "bool"; ob "builtins" "int"; ob "builtins" "int"; ob "builtins" "float"; ob "builtins" "complex"]
      ["bool"; "int"; "long"; "float"; "complex"]%string []);
   ("PythonSliceRangeMarshaller"%string,                                 (* l.2102-2111 *)
    table [ob "builtins" "slice"; ob "builtins" "range"] ["slice"; "range"]%string []);
   ("PythonStringMarshaller"%string,                                     (* l.1646-1655 *)
    table [ob "builtins" "str"; ob "builtins" "bytes"; ob "builtins" "bytearray"] ["str"; "bytes"; "bytearray"]%string []);
   ("PythonTupleSetDequeMarshaller"%string,                              (* l.2368-2377 *)
    table [ob "builtins" "tuple"; ob "builtins" "set"; ob "builtins" "frozenset"; ob "collections" "deque"]
      ["tuple"; "set"; "frozenset"; "collections.deque"]%string []);
   ("TypeMarshaller"%string, table [] [] [])].                           (* l.66-274 *)

(** l.276-291: dict(zip(self.types, self.python_type_strings)): the last of
    equal types counts.  l.333-336: by the type, else by its name. *)
Fixpoint zip_last (same : tyref -> bool) (ts : list tyref) (ss : list pystr) : option pystr :=
  match ts, ss with
  | t :: ts', s :: ss' =>
      match zip_last same ts' ss' with Some r => Some r | None => if same t then Some s else None end
  | _, _ => None
  end.
Definition is_object (m n : pystr) (t : tyref) : bool :=
  match t with TyObj m' n' => eqb_str m m' && eqb_str n n' | TyName _ => false end.
Definition is_name (s : pystr) (t : tyref) : bool :=
  match t with TyName s' => eqb_str s s' | TyObj _ _ => false end.
Definition get_type_string (i : minfo) (m n : pystr) : res pystr :=
  match zip_last (is_object m n) (i_types i) (i_strings i) with
  | Some s => Ok s
  | None => match zip_last (is_name (m ++ lit "." ++ n)) (i_types i) (i_strings i) with
            | Some s => Ok s
            | None => Err KeyError
            end
  end.

(** type(data), with the work-around for dtypes (utilities.py l.261-265): module
    and name.  [None]: a type this model knows nothing about *)
Definition type_of (v : pyval) : option (pystr * pystr) :=
  let b s := Some (lit "builtins", lit s) in
  let np s := Some (lit "numpy", s) in
  match v with
  | VNone => b "NoneType"%string | VEllipsis => b "ellipsis"%string | VNotImplemented => b "NotImplementedType"%string
  | VBool _ => b "bool"%string | VInt _ => b "int"%string | VFloat _ => b "float"%string | VComplex _ _ => b "complex"%string
  | VStr _ => b "str"%string | VBytes _ => b "bytes"%string | VByteArray _ => b "bytearray"%string
  | VNp CNdarray _ => np (lit "ndarray") | VNp CMatrix _ => np (lit "matrix") | VNp CChararray _ => np (lit "chararray")
  | VNp CRecarray _ => np (lit "recarray")
  | VNp CScalar a =>
      match a_dt a with
      | TBool => np (lit "bool_") | TS _ => np (lit "bytes_") | TUni _ => np (lit "str_") | TObj | TRef => np (lit "object_")
      | TStruct _ => np (lit "void") | d => np (dt_name d)
      end
  | VSeq QList _ => b "list"%string | VSeq QTuple _ => b "tuple"%string | VSeq QSet _ => b "set"%string
  | VSeq QFrozenset _ => b "frozenset"%string
  | VSeq QDeque _ => Some (lit "collections", lit "deque") | VSeq QChainMap _ => Some (lit "collections", lit "ChainMap")
  | VDict MDict _ => b "dict"%string | VDict MOrderedDict _ => Some (lit "collections", lit "OrderedDict")
  | VDict MCounter _ => Some (lit "collections", lit "Counter")
  | VRec RSlice _ => b "slice"%string | VRec RRange _ => b "range"%string
  | VRec RFraction _ => Some (lit "fractions", lit "Fraction")
  | VRec RTimedelta _ => Some (lit "datetime", lit "timedelta") | VRec RTimezone _ => Some (lit "datetime", lit "timezone")
  | VRec RDate _ => Some (lit "datetime", lit "date") | VRec RTime _ => Some (lit "datetime", lit "time")
  | VRec RDatetime _ => Some (lit "datetime", lit "datetime")
  | VDtype _ => np (lit "dtype")
  | VOther => None
  end.

Section WithEnv.
Variable info : mid -> minfo.
Variable env : pyenv.

(** utilities.py l.266-276: the marshaller whose write is called *)
Definition pick_write (st : list pystr * coll) (t : tyref) : res mid :=
  match snd (step info env st (OpType t)) with
  | OutGet (Some m) true => Ok m
  | _ => Err NotImplementedError
  end.

(** utilities.py l.351-375: the marshaller whose read ([true]) or
    read_approximate ([false]) is called.  [ts], [mc]: the attributes Python.Type
    and MATLAB_class if they are there; [d]: dtype.type of a Dataset, [None] for a
    Group *)
Definition first_try (ts mc : option pystr) (d : option tyref) : cop :=
  match ts, mc, d with
  | Some s, _, _ => OpString s
  | None, Some c, _ => OpClass c
  | None, None, Some t => OpType t
  | None, None, None => OpClass (lit "struct")
  end.
Definition pick_read (st : list pystr * coll) (ts mc : option pystr) (d : option tyref) : res (mid * bool) :=
  let '(s1, c1, o1) := step info env st (first_try ts mc d) in
  let o := match o1 with OutGet None _ => snd (step info env (s1, c1) (OpType (ob "numpy" "uint8"))) | _ => o1 end in
  match o with OutGet (Some m) has => Ok (m, has) | _ => Err CantReadError end.
End WithEnv.
