(** Model of class Options (__init__.py l.79-1005), all options except
    marshaller_collection (an isinstance-guarded assignment, l.311-316). *)
From Verif Require Import Base PathEsc PosixPath.

(** Python values as far as the setters look at them.  [OVOther h]: any other
    object; [h]: is it hashable. *)
Inductive optval :=
| OVBool (b : bool) | OVInt (z : Z) | OVStr (s : pystr) | OVTuple (l : list optval) | OVOther (h : bool).

Fixpoint hashable (v : optval) : bool :=
  match v with
  | OVTuple l => forallb hashable l
  | OVOther h => h
  | _ => true
  end.

(** The option names (l.195-221). *)
Inductive optname :=
| StorePythonMetadata | MatlabCompatible | ActionForMatlabIncompatible | DeleteUnusedVariables
| StructuredNumpyNdarrayAsStruct | MakeAtleast2d | ConvertNumpyBytesToUtf16 | ConvertNumpyStrToUtf16
| ConvertBoolsToUint8 | ReverseDimensionOrder | StructsAsDicts | StoreShapeForEmpty | ComplexNames
| GroupForReferences | OnedAs | DictLikeKeysName | DictLikeValuesName | Compress
| CompressSizeThreshold | CompressionAlgorithm | GzipCompressionLevel | ShuffleFilter
| CompressedFletcher32Filter | UncompressedFletcher32Filter.

Scheme Equality for optname.

(** The private attributes (l.226-249), in the order of the record. *)
Record options := mkOptions {
  o_store_python_metadata : bool;
  o_matlab_compatible : bool;
  o_action : pystr;
  o_delete_unused : bool;
  o_struct_as_struct : bool;
  o_atleast_2d : bool;
  o_bytes_utf16 : bool;
  o_str_utf16 : bool;
  o_bools_uint8 : bool;
  o_reverse : bool;
  o_structs_as_dicts : bool;
  o_shape_empty : bool;
  o_complex_names : pystr * pystr;
  o_refs : pystr;
  o_oned_as : pystr;
  o_keys_name : pystr;
  o_values_name : pystr;
  o_compress : bool;
  o_threshold : optval;       (* an int, possibly a bool: bool is a subclass of int *)
  o_algorithm : pystr;
  o_level : optval;           (* an int, possibly a bool *)
  o_shuffle : bool;
  o_cfletcher : bool;
  o_ufletcher : bool }.

(** l.226-249: the defaults before the setters run *)
Definition raw_defaults : options := {|
  o_store_python_metadata := true; o_matlab_compatible := true; o_action := lit "error";
  o_delete_unused := false; o_struct_as_struct := false; o_atleast_2d := false;
  o_bytes_utf16 := false; o_str_utf16 := false; o_bools_uint8 := false; o_reverse := false;
  o_structs_as_dicts := false; o_shape_empty := false; o_complex_names := (lit "r", lit "i");
  o_refs := lit "/#refs#"; o_oned_as := lit "row"; o_keys_name := lit "keys";
  o_values_name := lit "values"; o_compress := true; o_threshold := OVInt 16384;
  o_algorithm := lit "gzip"; o_level := OVInt 7; o_shuffle := true; o_cfletcher := true;
  o_ufletcher := false |}.

(** The value of a property getter. *)
Definition get (o : options) (n : optname) : optval :=
  match n with
  | StorePythonMetadata => OVBool (o_store_python_metadata o)
  | MatlabCompatible => OVBool (o_matlab_compatible o)
  | ActionForMatlabIncompatible => OVStr (o_action o)
  | DeleteUnusedVariables => OVBool (o_delete_unused o)
  | StructuredNumpyNdarrayAsStruct => OVBool (o_struct_as_struct o)
  | MakeAtleast2d => OVBool (o_atleast_2d o)
  | ConvertNumpyBytesToUtf16 => OVBool (o_bytes_utf16 o)
  | ConvertNumpyStrToUtf16 => OVBool (o_str_utf16 o)
  | ConvertBoolsToUint8 => OVBool (o_bools_uint8 o)
  | ReverseDimensionOrder => OVBool (o_reverse o)
  | StructsAsDicts => OVBool (o_structs_as_dicts o)
  | StoreShapeForEmpty => OVBool (o_shape_empty o)
  | ComplexNames => OVTuple [OVStr (fst (o_complex_names o)); OVStr (snd (o_complex_names o))]
  | GroupForReferences => OVStr (o_refs o)
  | OnedAs => OVStr (o_oned_as o)
  | DictLikeKeysName => OVStr (o_keys_name o)
  | DictLikeValuesName => OVStr (o_values_name o)
  | Compress => OVBool (o_compress o)
  | CompressSizeThreshold => o_threshold o
  | CompressionAlgorithm => OVStr (o_algorithm o)
  | GzipCompressionLevel => o_level o
  | ShuffleFilter => OVBool (o_shuffle o)
  | CompressedFletcher32Filter => OVBool (o_cfletcher o)
  | UncompressedFletcher32Filter => OVBool (o_ufletcher o)
  end.

(** field updates *)
Definition upd_matlab (o : options) (b : bool) : options :=
  match o with mkOptions a _ c d e f g h i j k l m n p q r s t u v w x y =>
               mkOptions a b c d e f g h i j k l m n p q r s t u v w x y end.
Definition upd_bool (o : options) (n : optname) (z : bool) : options :=
  match o with mkOptions a b c d e f g h i j k l m n' p q r s t u v w x y =>
  match n with
  | StorePythonMetadata => mkOptions z b c d e f g h i j k l m n' p q r s t u v w x y
  | DeleteUnusedVariables => mkOptions a b c z e f g h i j k l m n' p q r s t u v w x y
  | StructuredNumpyNdarrayAsStruct => mkOptions a b c d z f g h i j k l m n' p q r s t u v w x y
  | MakeAtleast2d => mkOptions a b c d e z g h i j k l m n' p q r s t u v w x y
  | ConvertNumpyBytesToUtf16 => mkOptions a b c d e f z h i j k l m n' p q r s t u v w x y
  | ConvertNumpyStrToUtf16 => mkOptions a b c d e f g z i j k l m n' p q r s t u v w x y
  | ConvertBoolsToUint8 => mkOptions a b c d e f g h z j k l m n' p q r s t u v w x y
  | ReverseDimensionOrder => mkOptions a b c d e f g h i z k l m n' p q r s t u v w x y
  | StructsAsDicts => mkOptions a b c d e f g h i j z l m n' p q r s t u v w x y
  | StoreShapeForEmpty => mkOptions a b c d e f g h i j k z m n' p q r s t u v w x y
  | Compress => mkOptions a b c d e f g h i j k l m n' p q r z t u v w x y
  | ShuffleFilter => mkOptions a b c d e f g h i j k l m n' p q r s t u v z x y
  | CompressedFletcher32Filter => mkOptions a b c d e f g h i j k l m n' p q r s t u v w z y
  | UncompressedFletcher32Filter => mkOptions a b c d e f g h i j k l m n' p q r s t u v w x z
  | _ => o
  end end.
Definition upd_str (o : options) (n : optname) (z : pystr) : options :=
  match o with mkOptions a b c d e f g h i j k l m n' p q r s t u v w x y =>
  match n with
  | ActionForMatlabIncompatible => mkOptions a b z d e f g h i j k l m n' p q r s t u v w x y
  | GroupForReferences => mkOptions a b c d e f g h i j k l m z p q r s t u v w x y
  | OnedAs => mkOptions a b c d e f g h i j k l m n' z q r s t u v w x y
  | DictLikeKeysName => mkOptions a b c d e f g h i j k l m n' p z r s t u v w x y
  | DictLikeValuesName => mkOptions a b c d e f g h i j k l m n' p q z s t u v w x y
  | CompressionAlgorithm => mkOptions a b c d e f g h i j k l m n' p q r s t z v w x y
  | _ => o
  end end.
Definition upd_int (o : options) (n : optname) (z : optval) : options :=
  match o with mkOptions a b c d e f g h i j k l m n' p q r s t u v w x y =>
  match n with
  | CompressSizeThreshold => mkOptions a b c d e f g h i j k l m n' p q r s z u v w x y
  | GzipCompressionLevel => mkOptions a b c d e f g h i j k l m n' p q r s t u z w x y
  | _ => o
  end end.
Definition upd_names (o : options) (z : pystr * pystr) : options :=
  match o with mkOptions a b c d e f g h i j k l _ n' p q r s t u v w x y =>
    mkOptions a b c d e f g h i j k l z n' p q r s t u v w x y end.

(** l.379-389: what setting matlab_compatible to True assigns *)
Definition force_matlab (o : options) : options :=
  match o with mkOptions a _ c _ _ _ _ _ _ _ k _ _ _ p q r s t _ v w x y =>
    mkOptions a true c true true true true true true true k true (lit "real", lit "imag") (lit "/#refs#")
              p q r s t (lit "gzip") v w x y end.

(** int(value) of the values that pass isinstance(value, int) *)
Definition as_int (v : optval) : option Z :=
  match v with OVInt z => Some z | OVBool b => Some (if b then 1 else 0)%Z | _ => None end.

(** a boolean option whose False value ends MATLAB compatibility
    (e.g. l.437-443) *)
Definition set_forced_bool (o : options) (n : optname) (v : optval) : options :=
  let o1 := match v with OVBool b => upd_bool o n b | _ => o end in
  match get o1 n with OVBool false => upd_matlab o1 false | _ => o1 end.

(** a boolean option that does not matter to MATLAB (e.g. l.332-336) *)
Definition set_free_bool (o : options) (n : optname) (v : optval) : options :=
  match v with OVBool b => upd_bool o n b | _ => o end.

(** [value in {...}]: TypeError for an unhashable value (e.g. l.418) *)
Definition in_set (v : optval) (l : list pystr) : res bool :=
  if hashable v then Ok (match v with OVStr s => mem_str s l | _ => false end) else Err TypeError.

(** The property setters, l.311-1005. *)
Definition set (o : options) (n : optname) (v : optval) : res options :=
  match n with
  | StorePythonMetadata | StructsAsDicts | Compress | ShuffleFilter
  | CompressedFletcher32Filter | UncompressedFletcher32Filter => Ok (set_free_bool o n v)
  | MatlabCompatible =>                                          (* l.373-389 *)
      match v with OVBool true => Ok (force_matlab o) | OVBool false => Ok (upd_matlab o false) | _ => Ok o end
  | ActionForMatlabIncompatible =>                               (* l.412-419 *)
      do b <- in_set v [lit "ignore"; lit "discard"; lit "error"];
      Ok (if b then match v with OVStr s => upd_str o n s | _ => o end else o)
  | DeleteUnusedVariables | StructuredNumpyNdarrayAsStruct | MakeAtleast2d
  | ConvertNumpyBytesToUtf16 | ConvertNumpyStrToUtf16 | ConvertBoolsToUint8
  | ReverseDimensionOrder | StoreShapeForEmpty => Ok (set_forced_bool o n v)
  | ComplexNames =>                                              (* l.687-699 *)
      let o1 := match v with OVTuple [OVStr a; OVStr b] => upd_names o (a, b) | _ => o end in
      Ok (if eqb_str (fst (o_complex_names o1)) (lit "real") && eqb_str (snd (o_complex_names o1)) (lit "imag")
          then o1 else upd_matlab o1 false)
  | GroupForReferences =>                                        (* l.724-733 *)
      let o1 := match v with
                | OVStr s => let p := normpath s in
                    if Nat.ltb 1 (List.length p) && isabs p then upd_str o n s else o
                | _ => o end in
      Ok (if eqb_str (o_refs o1) (lit "/#refs#") then o1 else upd_matlab o1 false)
  | OnedAs =>                                                    (* l.753-756 *)
      do b <- in_set v [lit "row"; lit "column"];
      Ok (if b then match v with OVStr s => upd_str o n s | _ => o end else o)
  | DictLikeKeysName | DictLikeValuesName =>                     (* l.779-808 *)
      Ok (match v with OVStr s => upd_str o n s | _ => o end)
  | CompressSizeThreshold =>                                     (* l.852-855 *)
      Ok (match as_int v with Some z => if (0 <=? z)%Z then upd_int o n v else o | None => o end)
  | CompressionAlgorithm =>                                      (* l.893-900 *)
      do b <- in_set v [lit "gzip"; lit "lzf"; lit "szip"];
      let o1 := if b then match v with OVStr s => upd_str o n s | _ => o end else o in
      Ok (if eqb_str (o_algorithm o1) (lit "gzip") then o1 else upd_matlab o1 false)
  | GzipCompressionLevel =>                                      (* l.922-925 *)
      Ok (match as_int v with Some z => if (0 <=? z)%Z && (z <=? 9)%Z then upd_int o n v else o | None => o end)
  end.

(** l.255-278: __init__ runs the setters in this order *)
Definition init_order : list optname :=
  [StorePythonMetadata; ActionForMatlabIncompatible; DeleteUnusedVariables;
   StructuredNumpyNdarrayAsStruct; MakeAtleast2d; ConvertNumpyBytesToUtf16; ConvertNumpyStrToUtf16;
   ConvertBoolsToUint8; ReverseDimensionOrder; StructsAsDicts; StoreShapeForEmpty; ComplexNames;
   GroupForReferences; OnedAs; DictLikeKeysName; DictLikeValuesName; Compress; CompressSizeThreshold;
   CompressionAlgorithm; GzipCompressionLevel; ShuffleFilter; CompressedFletcher32Filter;
   UncompressedFletcher32Filter; MatlabCompatible].

Fixpoint set_all (o : options) (args : optname -> optval) (l : list optname) : res options :=
  match l with
  | [] => Ok o
  | n :: r => do o1 <- set o n (args n); set_all o1 args r
  end.

(** Options(...): None-like exceptions leave no object *)
Definition init (args : optname -> optval) : res options := set_all raw_defaults args init_order.

(** default arguments l.197-220 *)
Definition default_args (n : optname) : optval :=
  match n with
  | MatlabCompatible => OVBool true
  | n => get raw_defaults n
  end.

(** a later assignment; when it raises the object keeps its state *)
Definition assign (o : options) (nv : optname * optval) : options :=
  match set o (fst nv) (snd nv) with Ok o' => o' | Err _ => o end.

Definition all_optnames : list optname := init_order.
