(** When a value can be written over another one (property C31). *)
From Verif Require Import Base PathEsc PosixPath ProcessPath Unicode NdArray Value OptionsM Hdf5 NpWrite HeapFacts FileApi ApiSpec RndFacts RoundSpec ProgressSpec.
Local Open Scope nat_scope.

(** the dtypes of the numpy objects a value is stored as *)
Definition dtype_of (v : pyval) (d : dt) : Prop :=
  match v with
  | VNone | VEllipsis | VNotImplemented => d = TF 8
  | VBool _ => d = TBool
  | VInt _ => d = TI 8 \/ exists n, d = TS n
  | VFloat _ => d = TF 8
  | VComplex _ _ => d = TC 16
  | VStr _ => exists n, d = TUni n
  | VBytes _ | VByteArray _ | VDtype _ => exists n, d = TS n
  | VSeq _ _ => d = TObj
  | VNp _ a => d = a_dt a
  | VDict _ _ | VRec _ _ | VOther => False
  end.
(** the dtypes numpy objects of the dtype [d] are stored with, depending on the options *)
Definition may_be (d x : dt) : Prop :=
  match d with
  | TBool => x = TBool \/ x = TU 1
  | TS _ => (exists n, x = TS n) \/ x = TU 2
  | TUni _ => x = TU 2 \/ x = TU 4
  | TC w => exists a b, x = TStruct [(a, (TF (w / 2), [])); (b, (TF (w / 2), []))]
  | d => x = d
  end.
(** values without contents: their shape may be stored instead, as uint64 *)
Definition blank (v : pyval) : Prop :=
  match v with
  | VNone | VEllipsis | VNotImplemented => True
  | VStr s | VBytes s | VByteArray s | VDtype s => s = []
  | VSeq _ l => l = []
  | VNp _ a => prod (a_shape a) = 0 \/ a_dt a = TS 0 \/ a_dt a = TUni 0
  | _ => False
  end.
Definition stored_dtype (v : pyval) (x : dt) : Prop := (exists d, dtype_of v d /\ may_be d x) \/ blank v /\ x = TU 8.

(** values of the same type: of arrays, the container, the dtype and the number of
    dimensions are the same *)
Definition same_type (v w : pyval) : Prop :=
  match v, w with
  | VNone, VNone | VEllipsis, VEllipsis | VNotImplemented, VNotImplemented => True
  | VBool _, VBool _ | VInt _, VInt _ | VFloat _, VFloat _ | VComplex _ _, VComplex _ _ | VStr _, VStr _ => True
  | VBytes s, VBytes t | VByteArray s, VByteArray t | VDtype s, VDtype t => s = [] <-> t = []
  | VSeq k _, VSeq k' _ => k = k'
  | VNp c a, VNp c' a' => c = c' /\ a_dt a = a_dt a' /\ length (a_shape a) = length (a_shape a')
  | _, _ => False
  end.
(** values that are stored as Groups: dicts, namedtuples and the like, and structured
    arrays, depending on the options and the types of their fields *)
Definition grouped (o : options) (v : pyval) : Prop :=
  match v with VNp _ a => is_struct (a_dt a) && stored_as_group o (a_dt a) = true | v => dictlike v end.
Definition str_key (k : pyval) : Prop := match k with VStr _ => True | _ => False end.

(** [w] can be written over [v]: one is stored as a Group and the other is not, they are
    of the same type, or have no dtype in common to be stored with.  A dict can be written
    over a dict of the same kind: if the keys of both are texts, the members with the same
    key have to be able to replace each other, the keys that are gone have to be removed by
    the option delete_unused_variables, and the keys are strs or there are as many as before
    (the new types of keys are not stored if their number changes, and strs are assumed
    then); or if both have keys of other types.  A structured array that is stored as a Group
    can be written over another one in the same container with as many dimensions: fields
    that are gone have to be removed by the option delete_unused_variables, and if both have
    a single element, the values of the fields with the same name have to be able to replace
    each other. *)
Inductive replaces (o : options) : pyval -> pyval -> Prop :=
| R_group v w : grouped o v -> ~ grouped o w -> replaces o v w
| R_dataset v w : ~ grouped o v -> grouped o w -> replaces o v w
| R_same v w : ~ grouped o v -> same_type v w -> replaces o v w
| R_dtype v w : ~ grouped o v -> ~ grouped o w -> (forall x, stored_dtype v x -> ~ stored_dtype w x) -> replaces o v w
| R_dict k l l' t t' : Forall2 key_text (map fst l) t -> Forall2 key_text (map fst l') t' ->
    (forall x v w, In (x, v) (combine t (map snd l)) -> In (x, w) (combine t' (map snd l')) -> replaces o v w) ->
    (o_delete_unused o = true \/ forall x, In x t -> In x t') ->
    (Forall str_key (map fst l') \/ length l = length l' /\ ~ Forall str_key (map fst l)) ->
    replaces o (VDict k l) (VDict k l')
| R_keyed k l l' : Exists not_text (map fst l) -> Exists not_text (map fst l') -> replaces o (VDict k l) (VDict k l')
| R_rec k fs fs' : length fs = length fs' -> (forall v w, In (v, w) (combine fs fs') -> replaces o v w) -> replaces o (VRec k fs) (VRec k fs')
| R_struct c a a' fs fs' : a_dt a = TStruct fs -> a_dt a' = TStruct fs' -> stored_as_group o (a_dt a) = true -> stored_as_group o (a_dt a') = true ->
    length (a_shape a) = length (a_shape a') -> (o_delete_unused o = true \/ forall x, In x (map fst fs) -> In x (map fst fs')) ->
    (prod (a_shape a) = 1 -> prod (a_shape a') = 1 -> forall n f n' f' v w, nth_error fs n = Some f -> nth_error fs' n' = Some f' -> fst f = fst f' ->
       In v (field_values n (snd f) a) -> In w (field_values n' (snd f') a') -> replaces o v w) ->
    replaces o (VNp c a) (VNp c a').

(** [v] was the last value written to [p], the links [cs], which was a new place before the
    first write to it: the file is now [s].  In between there may be anything else, elsewhere *)
Inductive last_wrote (refs : pystr) (wo ro : options) (keq : pyval -> pyval -> bool) (p : pypath) (cs : list pystr) : st -> pyval -> Prop :=
| W_first s rnd tries n v f : reachable refs s -> new_place wo s p cs -> storable wo ro keq v ->
    file_write wo rnd tries n (mkFile true s) v p = (f, Ok tt) -> no_repeat rnd (rpos s) (rpos (fl_st f)) -> last_wrote refs wo ro keq p cs (fl_st f) v
| W_later s s' v : last_wrote refs wo ro keq p cs s v -> later refs p s s' -> last_wrote refs wo ro keq p cs s' v
| W_again s rnd tries n v w f : last_wrote refs wo ro keq p cs s v -> storable wo ro keq w -> replaces wo v w ->
    file_write wo rnd tries n (mkFile true s) w p = (f, Ok tt) -> no_repeat rnd (rpos s) (rpos (fl_st f)) -> last_wrote refs wo ro keq p cs (fl_st f) w.
