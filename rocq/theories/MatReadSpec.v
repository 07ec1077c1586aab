(** What reading gives for MATLAB values that no Python metadata was stored with.
    Used by C42. *)
From Verif Require Import Base PathEsc Unicode NdArray Value OptionsM Attrs Hdf5 NpWrite RoundSpec MatlabSpec.
From Coq Require Export Permutation Sorted.
Local Open Scope nat_scope.

(** dtypes of arrays without elements *)
Definition empty_types : list (pystr * dt) :=
  (lit "logical", TBool) :: (lit "char", TUni 1) :: (lit "single", TF 4) :: (lit "double", TF 8) :: int_types.

(** the rows of an array of characters: the last index goes along a row *)
Definition char_rows (dims : list nat) (data : list mnum) (rs : list (list N)) : Prop :=
  length rs = prod (removelast dims) /\ Forall (fun r => length r = last dims 0) rs /\ column_major dims (text (concat rs)) data.
(** text is of characters, not of halves of pairs *)
Definition half (c : N) : Prop := (55296 <= c < 57344)%N.
Definition characters (s : pystr) : Prop := Forall (fun c => (c < 55296 \/ 57344 <= c < 1114112)%N) s.
(** what the numbers in the file are as text: a pair of halves is one character *)
Inductive encodes : list N -> pystr -> Prop :=
| En_end : encodes [] []
| En_one c r s : ~ half c -> (c < 1114112)%N -> encodes r s -> encodes (c :: r) (c :: s)
| En_pair x y r s : (55296 <= x < 56320)%N -> (56320 <= y < 57344)%N -> encodes r s -> encodes (x :: y :: r) (65536 + (x - 55296) * 1024 + (y - 56320) :: s)%N.
(** a row is a text and NULs *)
Definition row_text (r s : list N) : Prop := exists e z, r = e ++ repeat 0%N z /\ encodes e s.
Definition longest (ss : list pystr) : nat := fold_right Nat.max 1 (map (@length N) ss).

(** field names as they are in the file and as they are in Python, in the order of the
    dtype: MATLAB's if it is there, alphabetical otherwise *)
Definition unescaped (k u : pystr) : Prop := unescape_path k = Ok u.
Fixpoint before (a b : pystr) : Prop :=
  match a, b with
  | _, [] => False
  | [], _ => True
  | x :: a', y :: b' => (x < y)%N \/ x = y /\ before a' b'
  end.
Definition in_order (order : option (list pystr)) (us names : list pystr) : Prop :=
  match order with
  | Some l => Forall2 unescaped l names
  | None => Permutation us names /\ StronglySorted before names
  end.

(** the type of a field: that of what is in it, if all of that has the same type and
    dimensions, otherwise objects *)
Definition alike (vs : list pyval) (d : dt) (sh : list nat) : Prop := vs <> [] /\ Forall (fun v => exists c l, v = VNp c (mkArr d sh l)) vs.
Definition field_of (vs : list pyval) (d : dt) (sh : list nat) : Prop := alike vs d sh \/ ((forall e th, ~ alike vs e th) /\ d = TObj /\ sh = []).

Section Seen.
Variable dicts : bool.     (* structs_as_dicts *)
Variable pairs : bool.     (* whether there may be pairs of halves *)

Inductive seen : mval -> pyval -> Prop :=
| Se_num cls dims data d l l' : data <> [] -> class_for d = Some cls -> Forall (holds_num d) l -> column_major dims l l' -> Forall2 shown l' data ->
    seen (MArr cls dims data) (VNp CNdarray (mkArr d dims l))
| Se_empty cls dims d : In (cls, d) empty_types -> prod dims = 0 -> seen (MArr cls dims []) (VNp CNdarray (mkArr d dims []))
| Se_char dims data rs ss : data <> [] -> char_rows dims data rs -> Forall2 row_text rs ss -> Forall (fun s => last s 1%N <> 0%N) ss ->
    seen (MArr (lit "char") dims data) (VNp CNdarray (mkArr (TUni (longest ss)) (removelast dims ++ [1]) (map XStr ss)))
| Se_cell dims ms l l' : Forall2 seen ms l' -> column_major dims l l' -> seen (MCell dims ms) (VNp CNdarray (mkArr TObj dims (map XPtr l)))
(* a struct, and an array of structs: every field of every record is what its value is read as *)
| Se_struct order dims fs us types recs : dicts = false -> prod dims <> 0 -> Forall2 unescaped (map fst fs) us -> in_order order us (map fst types) -> length types = length fs ->
    Forall2 (fun kms u => exists vs ws p d sh, Forall2 seen (snd kms) vs /\ column_major dims ws vs /\ nth_error types p = Some (u, (d, sh)) /\ field_of vs d sh /\
       Forall2 (fun r w => exists cells, r = XRec cells /\ length cells = length types /\ field_item d sh (nth p cells []) = w) recs ws) fs us ->
    seen (MStruct order dims fs) (VNp CNdarray (mkArr (TStruct types) (if list_eq_dec Nat.eq_dec dims [1; 1] then [1] else dims) recs))
| Se_no_structs l dims fs names : prod dims = 0 -> Forall2 unescaped l names ->
    seen (MStruct (Some l) dims fs) (VNp CNdarray (mkArr (TStruct (map (fun k => (k, (TObj, []))) names)) dims []))
| Se_no_structs_fields dims fs : prod dims = 0 -> seen (MStruct None dims fs) (VNp CNdarray (mkArr TObj dims []))
(* with structs_as_dicts *)
| Se_dict order fs items items' : dicts = true -> Permutation items items' ->
    Forall2 (fun kms kv => exists u m, unescaped (fst kms) u /\ fst kv = VStr u /\ snd kms = [m] /\ seen m (snd kv)) fs items' ->
    seen (MStruct order [1; 1] fs) (VDict MDict items)
| Se_dicts order dims fs items items' : dicts = true -> 2 <= prod dims -> Permutation items items' ->
    Forall2 (fun kms kv => exists u l, unescaped (fst kms) u /\ fst kv = VStr u /\ snd kv = VNp CNdarray (mkArr TObj (rev dims) (map XPtr l)) /\ Forall2 seen (snd kms) l) fs items' ->
    seen (MStruct order dims fs) (VDict MDict items).

(** what can be read: text (in which halves come in pairs, if at all) whose last character
    is no multiple of 256 (C16), field names that stay different; a struct without fields
    can only be read as a dict *)
Inductive readable : mval -> Prop :=
| Re_num cls dims data : cls <> lit "char" -> readable (MArr cls dims data)
| Re_char dims data : (forall rs, char_rows dims data rs -> Forall (fun r => exists s, row_text r s /\ (last s 1 mod 256 <> 0)%N /\ (pairs = false -> Forall (fun c => ~ half c) r)) rs) ->
    readable (MArr (lit "char") dims data)
| Re_cell dims ms : Forall readable ms -> readable (MCell dims ms)
| Re_struct order dims fs us : (dicts = true \/ fs <> [] \/ prod dims = 0) -> Forall2 unescaped (map fst fs) us -> NoDup us ->
    Forall (fun kms => Forall readable (snd kms)) fs -> readable (MStruct order dims fs).
End Seen.

(** the objects that can be reached have no Python metadata, none of them is the Group of
    references, and the members of a Group have different names (as HDF5 sees to) *)
Definition python_attrs : list pystr :=
  [lit "Python.Type"; lit "Python.Shape"; lit "Python.Empty"; lit "Python.numpy.UnderlyingType"; lit "Python.numpy.Container"; lit "Python.Fields"].
Definition leads (h : heap) (i j : nat) : Prop := exists ob, h i = Some ob /\
  match o_body ob with BGroup ls => In j (map snd ls) | BData a _ => In (XPtr j) (a_data a) end.
(** pairs are of 16-bit halves: text of 32-bit numbers has none *)
Definition wide_whole (h : heap) : Prop := forall i ob a f, h i = Some ob -> o_body ob = BData a f -> a_dt a = TU 4 -> o_attrs ob k_class = Some (AStr (lit "char")) ->
  Forall (fun e => forall z, e = XInt z -> ~ half (Z.to_N z)) (a_data a).
Definition foreign (o : options) (h : heap) (i : nat) : Prop := exists P : nat -> Prop, P i /\
  (forall j k, P j -> leads h j k -> P k) /\
  (forall j ob, P j -> h j = Some ob -> Forall (fun k => o_attrs ob k = None) python_attrs /\ name_text (name_of h j) <> o_refs o /\
     match o_body ob with BGroup ls => NoDup (map fst ls) | BData _ _ => True end).

(** ** values that come back without metadata: text of characters that does
    not end in one that is a multiple of 256 *)
Definition sound_text (s : pystr) : Prop := characters s /\ (last s 1 mod 256 <> 0)%N.
Inductive modest (dicts : bool) : pyval -> Prop :=
| Mo_one v : match v with VNone | VEllipsis | VNotImplemented | VBool _ | VInt _ | VFloat _ | VComplex _ _ => True | _ => False end -> modest dicts v
| Mo_text v s : v = VStr s \/ v = VBytes s \/ v = VByteArray s \/ v = VDtype s -> sound_text s -> modest dicts v
| Mo_num c a : class_for (a_dt a) <> None -> modest dicts (VNp c a)
| Mo_objects c a l : a_dt a = TObj -> a_data a = map XPtr l -> Forall (modest dicts) l -> modest dicts (VNp c a)
| Mo_struct c a fs : a_dt a = TStruct fs -> dicts = true \/ fs <> [] \/ prod (a_shape a) = 0 -> NoDup (map fst fs) ->
    (forall cols, In (XRec cols) (a_data a) -> length cols = length fs /\
       forall n f, nth_error fs n = Some f -> modest dicts (field_item (fst (snd f)) (snd (snd f)) (nth n cols []))) -> modest dicts (VNp c a)
| Mo_seq k l : Forall (modest dicts) l -> modest dicts (VSeq k l)
| Mo_dict k l texts : dicts = true \/ l <> [] -> Forall2 key_text (map fst l) texts -> NoDup texts -> Forall (modest dicts) (map snd l) -> modest dicts (VDict k l)
| Mo_rec k fs : dicts = true \/ fs <> [] -> Forall (modest dicts) fs -> modest dicts (VRec k fs).
