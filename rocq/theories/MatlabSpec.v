(** What a file looks like to MATLAB (version 7.3 MAT files), and how Python values are
    to appear there.  Used by C41. *)
From Verif Require Import Base PathEsc Unicode Dec NdArray Value OptionsM Attrs Hdf5 NpWrite MarshalW RoundSpec.
Local Open Scope nat_scope.

(** ** MATLAB values *)
Inductive mnum := MInt (z : Z) | MFlt (bits : N) | MCpx (re im : N).
(** elements in MATLAB's order: the first index changes fastest *)
Inductive mval :=
| MArr (cls : pystr) (dims : list nat) (data : list mnum)
| MCell (dims : list nat) (data : list mval)
| MStruct (order : option (list pystr)) (dims : list nat) (fields : list (pystr * list mval)).

(** the attributes MATLAB looks at *)
Definition k_class := lit "MATLAB_class".
Definition k_empty := lit "MATLAB_empty".
Definition k_decode := lit "MATLAB_int_decode".
Definition k_fields := lit "MATLAB_fields".
Definition k_path := lit "H5PATH".

Definition int_types : list (pystr * dt) :=
  [(lit "int8", TI 1); (lit "int16", TI 2); (lit "int32", TI 4); (lit "int64", TI 8);
   (lit "uint8", TU 1); (lit "uint16", TU 2); (lit "uint32", TU 4); (lit "uint64", TU 8)].
(** what fits in an integer type *)
Definition fits (d : dt) (z : Z) : Prop :=
  match d with
  | TI w => (- 2 ^ (8 * Z.of_nat w - 1) <= z < 2 ^ (8 * Z.of_nat w - 1))%Z
  | TU w => (0 <= z < 2 ^ (8 * Z.of_nat w))%Z
  | _ => False
  end.
Definition float_types : list (pystr * nat) := [(lit "single", 4); (lit "double", 8)].
Definition mat_complex (w : nat) : dt := TStruct [(lit "real", (TF w, [])); (lit "imag", (TF w, []))].

(** an element of a Dataset of a class, whose integers stand for characters or truth
    values when MATLAB_int_decode says how wide they are *)
Inductive number : pystr -> dt -> option aval -> elem nat -> mnum -> Prop :=
| N_int cls d z : In (cls, d) int_types -> fits d z -> number cls d None (XInt z) (MInt z)
| N_logical z : z = 0%Z \/ z = 1%Z -> number (lit "logical") (TU 1) (Some (AI64 1)) (XInt z) (MInt z)
| N_char w z : w = 2 \/ w = 4 -> fits (TU w) z -> number (lit "char") (TU w) (Some (AI64 (Z.of_nat w))) (XInt z) (MInt z)
| N_real cls w x : In (cls, w) float_types -> number cls (TF w) None (XFlt x) (MFlt x)
| N_complex cls w x y : In (cls, w) float_types -> number cls (mat_complex w) None (XRec [[XFlt x]; [XFlt y]]) (MCpx x y).
Definition num_classes : list pystr := lit "logical" :: lit "char" :: map fst int_types ++ map fst float_types.

(** HDF5 stores the last index fastest, so the dimensions of a Dataset are those of the
    MATLAB array in the opposite order and the elements come as they are.  An array
    without elements is a vector of its dimensions.  The elements of a cell array are
    objects in /#refs#, and know it; the fields of a struct are the members of its
    Group. *)
Definition refs_path : list N := lit "/#refs#".
Definition dims_data (dims : list nat) : arr nat := mkArr (TU 8) [length dims] (map (fun n => XInt (Z.of_nat n)) dims).
Definition field_order (ob : obj) (names : list pystr) (order : option (list pystr)) : Prop :=
  match o_attrs ob k_fields with
  | None => order = None
  | Some (AFields l) => order = Some l /\ NoDup l /\ forall k, In k l <-> In k names
  | Some _ => False
  end.
Definition belongs (h : heap) (j : nat) (path : list N) : Prop :=
  exists oj, h j = Some oj /\ live h j = true /\ o_attrs oj k_path = Some (AStr path).
(* what an object is known by: files made here, or any others *)
Definition known (strict : bool) (h : heap) (j : nat) (path : list N) : Prop :=
  if strict then belongs h j path else live h j = true.
Definition classless (h : heap) (j : nat) : Prop := exists oj, h j = Some oj /\ forall k, k <> k_path -> o_attrs oj k = None.
Definition classy (h : heap) (j : nat) : Prop := exists oj c, h j = Some oj /\ o_attrs oj k_class = Some c.

(** [strict]: every object has its H5PATH; otherwise it need not have one, and the empty
    array that all unset elements share may be there *)
Inductive mat_in (strict : bool) (h : heap) : nat -> mval -> Prop :=
| Mat_num i ob cls a f data : h i = Some ob -> o_attrs ob k_class = Some (AStr cls) -> o_attrs ob k_empty = None -> o_attrs ob k_fields = None ->
    o_body ob = BData a f -> 2 <= length (a_shape a) -> length (a_data a) = prod (a_shape a) -> prod (a_shape a) <> 0 ->
    Forall2 (number cls (a_dt a) (o_attrs ob k_decode)) (a_data a) data ->
    mat_in strict h i (MArr cls (rev (a_shape a)) data)
| Mat_num_empty i ob cls dims f : h i = Some ob -> o_attrs ob k_class = Some (AStr cls) -> o_attrs ob k_empty = Some (AU8 1) -> o_attrs ob k_fields = None ->
    In cls num_classes -> o_body ob = BData (dims_data dims) f -> 2 <= length dims -> prod dims = 0 ->
    mat_in strict h i (MArr cls dims [])
| Mat_cell i ob sh f js ms : h i = Some ob -> o_attrs ob k_class = Some (AStr (lit "cell")) -> o_attrs ob k_empty = None -> o_attrs ob k_fields = None ->
    o_body ob = BData (mkArr TRef sh (map XPtr js)) f -> 2 <= length sh -> length js = prod sh -> prod sh <> 0 ->
    Forall2 (fun j m => known strict h j refs_path /\ classy h j /\ mat_in strict h j m) js ms ->
    mat_in strict h i (MCell (rev sh) ms)
| Mat_cell_empty i ob dims f : h i = Some ob -> o_attrs ob k_class = Some (AStr (lit "cell")) -> o_attrs ob k_empty = Some (AU8 1) -> o_attrs ob k_fields = None ->
    o_body ob = BData (dims_data dims) f -> 2 <= length dims -> prod dims = 0 ->
    mat_in strict h i (MCell dims [])
| Mat_struct i ob ls order fs : h i = Some ob -> o_attrs ob k_class = Some (AStr (lit "struct")) -> o_attrs ob k_empty = None ->
    o_body ob = BGroup ls -> NoDup (map fst fs) -> (forall k, In k (map fst ls) <-> In k (map fst fs)) ->
    field_order ob (map fst fs) order ->
    Forall (fun km => exists j, assoc (fst km) ls = Some j /\ known strict h j (name_text (name_of h i)) /\ classy h j /\ mat_in strict h j (snd km)) fs ->
    mat_in strict h i (MStruct order [1; 1] (map (fun km => (fst km, [snd km])) fs))
| Mat_structs i ob ls order sh fs : h i = Some ob -> o_attrs ob k_class = Some (AStr (lit "struct")) -> o_attrs ob k_empty = None ->
    o_body ob = BGroup ls -> NoDup (map fst fs) -> (forall k, In k (map fst ls) <-> In k (map fst fs)) ->
    field_order ob (map fst fs) order -> 2 <= length sh -> 2 <= prod sh ->
    Forall (fun km => exists j oj f js, assoc (fst km) ls = Some j /\ known strict h j (name_text (name_of h i)) /\ classless h j /\
       h j = Some oj /\ o_body oj = BData (mkArr TRef sh (map XPtr js)) f /\ length js = prod sh /\
       Forall2 (fun j m => known strict h j refs_path /\ classy h j /\ mat_in strict h j m) js (snd km)) fs ->
    mat_in strict h i (MStruct order (rev sh) fs)
| Mat_struct_empty i ob dims f names order : h i = Some ob -> o_attrs ob k_class = Some (AStr (lit "struct")) -> o_attrs ob k_empty = Some (AU8 1) ->
    o_body ob = BData (dims_data dims) f -> 2 <= length dims -> prod dims = 0 -> field_order ob names order ->
    mat_in strict h i (MStruct order dims (map (fun k => (k, [])) names))
| Mat_canonical i ob f : strict = false -> h i = Some ob -> o_attrs ob k_class = Some (AStr (lit "canonical empty")) -> o_attrs ob k_empty = Some (AU8 1) -> o_attrs ob k_fields = None ->
    o_body ob = BData (dims_data [0; 0]) f -> mat_in strict h i (MArr (lit "double") [0; 0] []).
Notation mat := (mat_in true).

(** ** Python values in MATLAB *)
(** MATLAB arrays have at least two dimensions *)
Definition two_d (sh : list nat) : list nat := match sh with [] => [1; 1] | [n] => [1; n] | _ => sh end.
(** the place of an index in MATLAB's order, and in C order *)
Fixpoint f_pos (dims idx : list nat) : nat :=
  match dims, idx with d :: ds, i :: is => i + d * f_pos ds is | _, _ => 0 end.
Fixpoint c_pos (dims idx : list nat) : nat :=
  match dims, idx with _ :: ds, i :: is => i * fold_right Nat.mul 1 ds + c_pos ds is | _, _ => 0 end.
Definition column_major {A} (dims : list nat) (l m : list A) : Prop :=
  length l = prod dims /\ length m = prod dims /\
  forall idx, Forall2 lt idx dims -> nth_error m (f_pos dims idx) = nth_error l (c_pos dims idx).

Definition class_for (d : dt) : option pystr :=
  match d with
  | TBool => Some (lit "logical")
  | TI 1 => Some (lit "int8") | TI 2 => Some (lit "int16") | TI 4 => Some (lit "int32") | TI 8 => Some (lit "int64")
  | TU 1 => Some (lit "uint8") | TU 2 => Some (lit "uint16") | TU 4 => Some (lit "uint32") | TU 8 => Some (lit "uint64")
  | TF 4 | TC 8 => Some (lit "single")
  | TF 8 | TC 16 => Some (lit "double")
  | _ => None
  end.
Inductive shown : elem pyval -> mnum -> Prop :=
| Sh_bool b : shown (XBool b) (MInt (if b then 1 else 0))
| Sh_int z : shown (XInt z) (MInt z)
| Sh_flt x : shown (XFlt x) (MFlt x)
| Sh_cpx x y : shown (XCpx x y) (MCpx x y).
Definition text (s : list N) : list mnum := map (fun c => MInt (Z.of_N c)) s.
(** strings of an array next to each other, all as wide as the dtype says *)
Definition widen (n : nat) (sh : list nat) : list nat := match sh with [] => [n] | _ => removelast sh ++ [last sh 1 * n] end.
(** either all as code points or all in UTF-16 *)
Definition rows (n : nat) (l : list (elem pyval)) (rs : list (list N)) : Prop :=
  Forall2 (fun e r => exists s, (e = XStr s \/ e = XBytes s) /\ r = s ++ repeat 0%N (n - length s)) l rs \/
  Forall2 (fun e r => exists s u, e = XStr s /\ utf16_encode s = Ok u /\ r = u ++ repeat 0%N (n - length u)) l rs.
(** the order of the fields is kept if their names can be written *)
Definition order_of (names : list pystr) : option (list pystr) :=
  if forallb (forallb (fun c => (c <? 128)%N)) names then Some names else None.

Section Looks.
Variable o : options.
Inductive looks : pyval -> mval -> Prop :=
| Lk_nothing v : v = VNone \/ v = VEllipsis \/ v = VNotImplemented -> looks v (MArr (lit "double") [1; 0] [])
| Lk_bool b : looks (VBool b) (MArr (lit "logical") [1; 1] [MInt (if b then 1 else 0)])
| Lk_int z : fits (TI 8) z -> looks (VInt z) (MArr (lit "int64") [1; 1] [MInt z])
| Lk_bigint z : ~ fits (TI 8) z -> looks (VInt z) (MArr (lit "char") [1; length (show_Z z)] (text (show_Z z)))
| Lk_float x : looks (VFloat x) (MArr (lit "double") [1; 1] [MFlt x])
| Lk_complex x y : looks (VComplex x y) (MArr (lit "double") [1; 1] [MCpx x y])
| Lk_str s : looks (VStr s) (MArr (lit "char") [1; length s] (text s))
| Lk_bytes s : looks (VBytes s) (MArr (lit "char") [1; length s] (text s))
| Lk_bytearray s : looks (VByteArray s) (MArr (lit "char") [1; length s] (text s))
| Lk_dtype s : looks (VDtype s) (MArr (lit "char") [1; length s] (text s))
| Lk_np c a cls l data : class_for (a_dt a) = Some cls -> Forall2 shown (a_data a) l ->
    column_major (two_d (a_shape a)) l data -> looks (VNp c a) (MArr cls (two_d (a_shape a)) data)
| Lk_chars c a n rs data : a_dt a = TUni n \/ a_dt a = TS n -> n * prod (a_shape a) <> 0 -> rows n (a_data a) rs ->
    column_major (two_d (widen n (a_shape a))) (text (concat rs)) data -> looks (VNp c a) (MArr (lit "char") (two_d (widen n (a_shape a))) data)
| Lk_no_chars c a n : a_dt a = TUni n \/ a_dt a = TS n -> n * prod (a_shape a) = 0 -> looks (VNp c a) (MArr (lit "char") [1; 0] [])
| Lk_objects c a l ms data : a_dt a = TObj -> a_data a = map XPtr l -> Forall2 looks l ms ->
    column_major (two_d (a_shape a)) ms data -> looks (VNp c a) (MCell (two_d (a_shape a)) data)
| Lk_record c a fs cols ms : a_dt a = TStruct fs -> prod (a_shape a) = 1 -> a_data a = [XRec cols] ->
    Forall2 (fun fc m => looks (field_item (fst (snd (fst fc))) (snd (snd (fst fc))) (snd fc)) m) (combine fs cols) ms ->
    looks (VNp c a) (MStruct (order_of (map escaped (map fst fs))) [1; 1] (combine (map escaped (map fst fs)) (map (fun m => [m]) ms)))
| Lk_records c a fs cols : a_dt a = TStruct fs -> 2 <= prod (a_shape a) ->
    Forall2 (fun nf col => exists vs ms, Forall2 (fun e v => exists es, e = XRec es /\ v = field_item (fst (snd (snd nf))) (snd (snd (snd nf))) (nth (fst nf) es [])) (a_data a) vs /\
        Forall2 looks vs ms /\ column_major (two_d (a_shape a)) ms col) (combine (seq 0 (length fs)) fs) cols ->
    looks (VNp c a) (MStruct (order_of (map escaped (map fst fs))) (two_d (a_shape a)) (combine (map escaped (map fst fs)) cols))
| Lk_no_records c a fs : a_dt a = TStruct fs -> prod (a_shape a) = 0 ->
    looks (VNp c a) (MStruct (order_of (map escaped (map fst fs))) (two_d (a_shape a)) (map (fun k => (escaped k, [])) (map fst fs)))
| Lk_seq k l ms : Forall2 looks l ms -> looks (VSeq k l) (MCell [1; length l] ms)
| Lk_dict k l texts ms : Forall2 key_text (map fst l) texts -> Forall2 looks (map snd l) ms ->
    looks (VDict k l) (MStruct (order_of (map escaped texts)) [1; 1] (combine (map escaped texts) (map (fun m => [m]) ms)))
| Lk_dict_other k l mk mv : Exists not_text (map fst l) -> Forall2 looks (map fst l) mk -> Forall2 looks (map snd l) mv ->
    looks (VDict k l) (MStruct None [1; 1] [(o_keys_name o, [MCell [1; length l] mk]); (o_values_name o, [MCell [1; length l] mv])])
(* a timezone has a name or not *)
| Lk_rec k fs names ms : (exists r, attribute_names k = names ++ r) -> length names = length fs -> Forall2 looks fs ms ->
    looks (VRec k fs) (MStruct (Some names) [1; 1] (combine names (map (fun m => [m]) ms))).
End Looks.

(** ** the values spoken about: those that have a MATLAB form *)
Definition ascii_bytes_only (s : list N) : Prop := Forall (fun c => (c < 128)%N) s.
Definition code_points (s : pystr) : Prop := Forall (fun c => (c < 2 ^ 32)%N) s.
Definition holds_num (d : dt) (e : elem pyval) : Prop :=
  match d, e with
  | TBool, XBool _ | TF _, XFlt _ | TC _, XCpx _ _ => True
  | TU _, XInt z | TI _, XInt z => fits d z
  | _, _ => False
  end.
Inductive presentable : pyval -> Prop :=
| Pr_none : presentable VNone
| Pr_ellipsis : presentable VEllipsis
| Pr_notimplemented : presentable VNotImplemented
| Pr_bool b : presentable (VBool b)
| Pr_int z : presentable (VInt z)
| Pr_float x : presentable (VFloat x)
| Pr_complex x y : presentable (VComplex x y)
(* NULs at the end of a str do not survive being made a np.str_ *)
| Pr_str s : code_points s -> last s 1%N <> 0%N -> presentable (VStr s)
| Pr_bytes s : ascii_bytes_only s -> presentable (VBytes s)
| Pr_bytearray s : ascii_bytes_only s -> presentable (VByteArray s)
| Pr_dtype s : ascii_bytes_only s -> presentable (VDtype s)
| Pr_num c a cls : class_for (a_dt a) = Some cls -> length (a_data a) = prod (a_shape a) -> Forall (holds_num (a_dt a)) (a_data a) -> presentable (VNp c a)
| Pr_chars c a n : a_dt a = TUni n -> length (a_data a) = prod (a_shape a) -> (c = CScalar -> a_shape a = []) ->
    Forall (fun e => exists s, e = XStr s /\ length s <= n /\ code_points s) (a_data a) -> presentable (VNp c a)
| Pr_bytes_array c a n : a_dt a = TS n -> length (a_data a) = prod (a_shape a) ->
    Forall (fun e => exists s, e = XBytes s /\ length s <= n /\ ascii_bytes_only s) (a_data a) -> presentable (VNp c a)
| Pr_objects c a l : a_dt a = TObj -> length (a_data a) = prod (a_shape a) -> a_data a = map XPtr l -> Forall presentable l -> presentable (VNp c a)
| Pr_struct c a fs : a_dt a = TStruct fs -> length (a_data a) = prod (a_shape a) -> NoDup (map fst fs) ->
    Forall (fun e => exists cols, e = XRec cols /\ length cols = length fs /\
       Forall (fun fc => presentable (field_item (fst (snd (fst fc))) (snd (snd (fst fc))) (snd fc))) (combine fs cols)) (a_data a) -> presentable (VNp c a)
| Pr_seq k l : Forall presentable l -> presentable (VSeq k l)
| Pr_dict k l texts : k <> MCounter -> Forall2 key_text (map fst l) texts -> NoDup texts -> Forall presentable (map snd l) -> presentable (VDict k l)
| Pr_dict_other k l : k <> MCounter -> Exists not_text (map fst l) -> Forall presentable (map fst l) -> Forall presentable (map snd l) -> presentable (VDict k l)
| Pr_rec k fs : length fs <= length (attribute_names k) -> Forall presentable fs -> presentable (VRec k fs).
