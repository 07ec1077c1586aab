(** Documented domains and MATLAB values of the options (docstrings l.79-193
    and of the properties). *)
From Verif Require Import Base PathEsc PosixPath OptionsM.

(** the value MATLAB compatibility requires (l.344-366) *)
Definition matlab_value (n : optname) : option optval :=
  match n with
  | DeleteUnusedVariables | StructuredNumpyNdarrayAsStruct | MakeAtleast2d
  | ConvertNumpyBytesToUtf16 | ConvertNumpyStrToUtf16 | ConvertBoolsToUint8
  | ReverseDimensionOrder | StoreShapeForEmpty => Some (OVBool true)
  | ComplexNames => Some (OVTuple [OVStr (lit "real"); OVStr (lit "imag")])
  | GroupForReferences => Some (OVStr (lit "/#refs#"))
  | CompressionAlgorithm => Some (OVStr (lit "gzip"))
  | _ => None
  end.

(** the documented domain of each option *)
Definition legal (n : optname) (v : optval) : Prop :=
  match n with
  | ActionForMatlabIncompatible => v = OVStr (lit "ignore") \/ v = OVStr (lit "discard") \/ v = OVStr (lit "error")
  | OnedAs => v = OVStr (lit "row") \/ v = OVStr (lit "column")
  | CompressionAlgorithm => v = OVStr (lit "gzip") \/ v = OVStr (lit "lzf") \/ v = OVStr (lit "szip")
  | ComplexNames => exists a b, v = OVTuple [OVStr a; OVStr b]
  | GroupForReferences => exists s, v = OVStr s /\ isabs (normpath s) = true /\ normpath s <> [fslash]
  | DictLikeKeysName | DictLikeValuesName => exists s, v = OVStr s
  | CompressSizeThreshold => exists z, as_int v = Some z /\ (0 <= z)%Z
  | GzipCompressionLevel => exists z, as_int v = Some z /\ (0 <= z <= 9)%Z
  | _ => exists b, v = OVBool b
  end.

(** options whose value is checked with [in], hence needing a hash *)
Definition enumerated (n : optname) : Prop :=
  n = ActionForMatlabIncompatible \/ n = OnedAs \/ n = CompressionAlgorithm.
