(** Specification of the choice of marshallers. *)
From Verif Require Import Base Dec NdArray Value MColl MCollSpec Dispatch MarshalR.
Local Open Scope nat_scope.

(** the order in which the marshallers of a collection are asked, after the
    calls [ops] on a collection made with the user marshallers [ms] *)
Definition in_order (prio : list pystr) (b p : list mid) (ms : list (option mid)) (ops : list cop) : list mid :=
  ordered prio b p (s_visible (spec_run {| s_user := spec_add [] ms; s_visible := spec_add [] ms |} ops)).

(** the keys a marshaller declares *)
Definition types_of (info : mid -> minfo) (m : mid) : list pystr := map ty_key (i_types (info m)).
Definition strings_of (info : mid -> minfo) (m : mid) : list pystr := i_strings (info m).
Definition classes_of (info : mid -> minfo) (m : mid) : list pystr := i_classes (info m).

(** what is decisive for reading: Python.Type if it is there, else MATLAB_class,
    else the type of the elements of a Dataset; a Group is a struct *)
Inductive decides (info : mid -> minfo) : option pystr -> option pystr -> option tyref -> (mid -> list pystr) -> pystr -> Prop :=
| de_string s mc d : decides info (Some s) mc d (strings_of info) s
| de_class c d : decides info None (Some c) d (classes_of info) c
| de_dtype t : decides info None None (Some t) (types_of info) (ty_key t)
| de_group : decides info None None None (classes_of info) (lit "struct").

(** the first marshaller that declares it, or else the one for numpy.uint8 *)
Definition reads_by (info : mid -> minfo) (l : list mid) (ts mc : option pystr) (d : option tyref) (r : option mid) : Prop :=
  exists keys k, decides info ts mc d keys k /\
    ((exists m, r = Some m /\ first_declaring keys k l (Some m)) \/
     (first_declaring keys k l None /\ first_declaring (types_of info) (lit "numpy.uint8") l r)).

(** the builtin marshallers of a collection: one instance of each class *)
Definition builtin_instances (info : mid -> minfo) (b : list mid) : Prop :=
  Forall2 (fun m k => info m = snd k) b builtin_classes.

(** the type string [s] that the marshaller [m] uses for the type [t] *)
Definition string_for (info : mid -> minfo) (m : mid) (modname name : pystr) (s : pystr) : Prop :=
  get_type_string (info m) modname name = Ok s.

(** [m] is an instance of the builtin class [k] *)
Definition instance (info : mid -> minfo) (b : list mid) (m : mid) (k : string) : Prop :=
  exists n i, nth_error b n = Some m /\ nth_error builtin_classes n = Some (k, i) /\ info m = i.

(** the class whose read method the model of reading takes for a kind *)
Definition class_of_kind (k : rkind) : string :=
  match k with
  | KNp => "NumpyScalarArrayMarshaller"
  | KBool | KInt | KFloat | KComplex => "PythonScalarMarshaller"
  | KStr | KBytes | KByteArray => "PythonStringMarshaller"
  | KConst _ => "PythonNoneEllipsisNotImplementedMarshaller"
  | KDict MCounter => "PythonCounterMarshaller"
  | KDict _ => "PythonDictMarshaller"
  | KRec (RSlice | RRange) => "PythonSliceRangeMarshaller"
  | KRec RFraction => "PythonFractionMarshaller"
  | KRec _ => "PythonDatetimeObjsMarshaller"
  | KSeq QList => "PythonListMarshaller"
  | KSeq QChainMap => "PythonChainMapMarshaller"
  | KSeq _ => "PythonTupleSetDequeMarshaller"
  | KDtype => "NumpyDtypeMarshaller"
  end%string.

(** numpy scalars of the types that are supported *)
Definition plain_np (v : pyval) : Prop :=
  match v with
  | VNp CScalar a =>
      match a_dt a with
      | TU w | TI w => In w [1; 2; 4; 8]
      | TF w => In w [2; 4; 8]
      | TC w => In w [8; 16]
      | _ => True
      end
  | VOther => False
  | _ => True
  end.
