(** What the properties of data that MATLAB has no type for speak about. *)
From Verif Require Import Base PathEsc NdArray Value NpDims Hdf5 NpWrite MarshalW RoundSpec.
Local Open Scope nat_scope.

(** floating point and complex types of a width other than single's and double's *)
Definition no_class (d : dt) : Prop :=
  match d with
  | TF w => w <> 4 /\ w <> 8
  | TC w => w <> 8 /\ w <> 16
  | _ => False
  end.
(** [w] is the value [v], or somewhere inside: in a sequence, a dict or an object with
    attributes, an object array, or a field of a structured array.  The keys of a dict are
    data if one of them is not a text. *)
Inductive within (w : pyval) : pyval -> Prop :=
| In_self : within w w
| In_seq k l x : In x l -> within w x -> within w (VSeq k l)
| In_value k l kx x : In (kx, x) l -> within w x -> within w (VDict k l)
| In_key k l kx x : In (kx, x) l -> Exists not_text (map fst l) -> within w kx -> within w (VDict k l)
| In_attr k fs i x : i < length (attribute_names k) -> nth_error fs i = Some x -> within w x -> within w (VRec k fs)
| In_cell c a x : a_dt a = TObj -> length (a_data a) = prod (a_shape a) -> In (XPtr x) (a_data a) -> within w x -> within w (VNp c a)
| In_field c a fs n name d sh cols : a_dt a = TStruct fs -> length (a_data a) = prod (a_shape a) -> In (XRec cols) (a_data a) ->
    nth_error fs n = Some (name, (d, sh)) -> within w (field_item d sh (nth n cols [])) -> within w (VNp c a).

(** a numpy object that MATLAB has no type for *)
Definition unsupported (v : pyval) : Prop := exists c a, v = VNp c a /\ no_class (a_dt a).
(** not an array of h5py references, which is not user data *)
Definition not_refs (v : pyval) : Prop := forall c a, v = VNp c a -> a_dt a <> TRef.
(** [x] is found in [v] under the keys with the texts [ts], through dicts in dicts whose
    keys are all texts *)
Inductive member (x : pyval) : pyval -> list pystr -> Prop :=
| M_here : member x x []
| M_in k l texts i kx y t ts : Forall2 key_text (map fst l) texts -> NoDup texts -> nth_error l i = Some (kx, y) -> nth_error texts i = Some t ->
    member x y ts -> member x (VDict k l) (t :: ts).
