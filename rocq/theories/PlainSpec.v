(** HDF5 data without any of the attributes this library knows: what other programs
    write, and what is written without Python metadata and for no MATLAB.  Used by C60
    and C61. *)
From Verif Require Import Base PathEsc Unicode Dec NdArray Value OptionsM Hdf5 NpWrite RoundSpec MatlabSpec MatReadSpec.
Local Open Scope nat_scope.

(** the data: an array, an array of references to others, a Group *)
Inductive pval :=
| PData (a : arr nat)
| PRefs (dims : list nat) (l : list pval)
| PGroup (l : list (pystr * pval)).

(** what there is at an object of the file *)
Inductive plain_in (h : heap) : nat -> pval -> Prop :=
| Pi_data i ob a f : h i = Some ob -> o_body ob = BData a f -> a_dt a <> TRef -> length (a_data a) = prod (a_shape a) -> plain_in h i (PData a)
| Pi_refs i ob dims js f l : h i = Some ob -> o_body ob = BData (mkArr TRef dims (map XPtr js)) f -> length js = prod dims ->
    Forall (fun j => live h j = true) js -> Forall2 (plain_in h) js l -> plain_in h i (PRefs dims l)
| Pi_group i ob ls fs : h i = Some ob -> o_body ob = BGroup ls -> NoDup (map fst fs) -> (forall k, In k (map fst ls) <-> In k (map fst fs)) ->
    Forall (fun kp => exists j, assoc (fst kp) ls = Some j /\ plain_in h j (snd kp)) fs -> plain_in h i (PGroup fs).

(** no object that can be reached has an attribute that says how it is to be read *)
Definition known_attrs : list pystr :=
  python_attrs ++ [lit "MATLAB_class"; lit "MATLAB_empty"; lit "MATLAB_fields"; lit "MATLAB_int_decode"].
Definition unmarked (o : options) (h : heap) (i : nat) : Prop := exists P : nat -> Prop, P i /\
  (forall j k, P j -> leads h j k -> P k) /\
  (forall j ob, P j -> h j = Some ob -> Forall (fun k => o_attrs ob k = None) known_attrs /\ name_text (name_of h j) <> o_refs o /\
     match o_body ob with BGroup ls => NoDup (map fst ls) | BData _ _ => True end).

(** an element in the file, and in NumPy *)
Inductive same_elem : elem nat -> elem pyval -> Prop :=
| Sm_bool b : same_elem (XBool b) (XBool b)
| Sm_int z : same_elem (XInt z) (XInt z)
| Sm_flt x : same_elem (XFlt x) (XFlt x)
| Sm_cpx x y : same_elem (XCpx x y) (XCpx x y)
| Sm_bytes s : same_elem (XBytes s) (XBytes s)
| Sm_str s : same_elem (XStr s) (XStr s)
| Sm_rec c c' : Forall2 (Forall2 same_elem) c c' -> same_elem (XRec c) (XRec c').
(** complex numbers are compounds of two floats, named r and i *)
Definition pair_type (w : nat) : dt := TStruct [(lit "r", (TF w, [])); (lit "i", (TF w, []))].
Definition same_complex (e : elem nat) (e' : elem pyval) : Prop := exists x y, e = XRec [[XFlt x]; [XFlt y]] /\ e' = XCpx x y.

(** a member of a Group as a field: as it is; or, of an array without axes, its one
    element *)
Definition as_item (v w : pyval) : Prop := w = v \/ exists d e, v = VNp CNdarray (mkArr d [] [e]) /\ w = item_of d e.

Definition besides_refs (p : pval) : Prop := forall dims l, p <> PRefs dims l.

(** what reading gives *)
Inductive shown_as : pval -> pyval -> Prop :=
| Sa_data a l : (forall w, w = 4 \/ w = 8 -> a_dt a <> pair_type w) -> Forall2 same_elem (a_data a) l -> shown_as (PData a) (VNp CNdarray (mkArr (a_dt a) (a_shape a) l))
| Sa_complex a w l : w = 4 \/ w = 8 -> a_dt a = pair_type w -> Forall2 same_complex (a_data a) l -> shown_as (PData a) (VNp CNdarray (mkArr (TC (2 * w)) (a_shape a) l))
| Sa_refs dims l vs : Forall2 shown_as l vs -> shown_as (PRefs dims l) (VNp CNdarray (mkArr TObj dims (map XPtr vs)))
(* a Group is one record, whose fields are its members *)
| Sa_record fs us types cells : (exists k p, In (k, p) fs /\ besides_refs p) -> Forall2 unescaped (map fst fs) us -> in_order None us (map fst types) ->
    length types = length fs -> length cells = length types ->
    Forall2 (fun kp u => exists n d sh v, nth_error types n = Some (u, (d, sh)) /\ shown_as (snd kp) v /\ field_of [v] d sh /\ as_item v (field_item d sh (nth n cells []))) fs us ->
    shown_as (PGroup fs) (VNp CNdarray (mkArr (TStruct types) [1] [XRec cells]))
(* unless all of them are arrays of references: then it is an array of records *)
| Sa_columns fs us types dims recs : prod dims <> 0 -> Forall2 unescaped (map fst fs) us -> in_order None us (map fst types) -> length types = length fs ->
    Forall2 (fun kp u => exists l vs n d sh, snd kp = PRefs dims l /\ Forall2 shown_as l vs /\ nth_error types n = Some (u, (d, sh)) /\ field_of vs d sh /\
       Forall2 (fun r v => exists cells, r = XRec cells /\ length cells = length types /\ as_item v (field_item d sh (nth n cells []))) recs vs) fs us ->
    shown_as (PGroup fs) (VNp CNdarray (mkArr (TStruct types) dims recs))
| Sa_no_rows fs us dims names : prod dims = 0 -> Forall2 unescaped (map fst fs) us -> in_order None us names -> Forall (fun kp => snd kp = PRefs dims []) fs ->
    shown_as (PGroup fs) (VNp CNdarray (mkArr (TStruct (map (fun k => (k, (TObj, []))) names)) dims [])).

(** what can be read: no references within compounds, no Group without members, names
    that stay different, and if all the members of a Group are arrays of references
    then they have the same dimensions *)
Inductive sound : pval -> Prop :=
| So_data a l : Forall2 same_elem (a_data a) l -> (forall w, a_dt a = pair_type w -> Forall (fun e => exists x y, e = XRec [[XFlt x]; [XFlt y]]) (a_data a)) -> sound (PData a)
| So_refs dims l : Forall sound l -> sound (PRefs dims l)
| So_group fs us : fs <> [] -> Forall2 unescaped (map fst fs) us -> NoDup us -> Forall (fun kp => sound (snd kp)) fs ->
    (exists k p, In (k, p) fs /\ besides_refs p) \/ (exists dims, Forall (fun kp => exists l, snd kp = PRefs dims l) fs) -> sound (PGroup fs).

(** ** how values are written when neither Python metadata nor MATLAB is wanted *)
(** compounds cannot hold objects, or fields without elements, and names with NULs (or
    with the text that stands for one) cannot be those of fields *)
Definition odd_name (k : pystr) : Prop := In 0%N k \/ exists a b, k = a ++ lit "\x00" ++ b.
Inductive needs_group : dt -> Prop :=
| Ng_object fs k sh : In (k, (TObj, sh)) fs -> needs_group (TStruct fs)
| Ng_name fs k d sh : In (k, (d, sh)) fs -> odd_name k -> needs_group (TStruct fs)
| Ng_zero fs k d sh : In (k, (d, sh)) fs -> In 0 sh -> needs_group (TStruct fs)
| Ng_inner fs k d sh : In (k, (d, sh)) fs -> needs_group d -> needs_group (TStruct fs).
(** numbers, truth values and bytes; there are no strings of no bytes in HDF5 *)
Definition simple (d : dt) : Prop := match d with TBool | TI _ | TU _ | TF _ | TS _ => True | _ => False end.
Definition stored_type (d : dt) : dt := match d with TS n => TS (Nat.max 1 n) | _ => d end.
Definition complex_type (o : options) (w : nat) : dt := TStruct [(fst (o_complex_names o), (TF w, [])); (snd (o_complex_names o), (TF w, []))].
Definition code_data (s : pystr) : list (elem nat) := map (fun c => XInt (Z.of_N c)) s.
(** a string of bytes loses the NULs at its end *)
Definition chopped (s t : list N) : Prop := last t 1%N <> 0%N /\ exists k, s = t ++ repeat 0%N k.

Section PlainOf.
Variable o : options.
Inductive plain_of : pyval -> pval -> Prop :=
| Po_nothing v : v = VNone \/ v = VEllipsis \/ v = VNotImplemented -> plain_of v (PData (mkArr (TF 8) [0] []))
| Po_bool b : plain_of (VBool b) (PData (mkArr TBool [] [XBool b]))
| Po_int z : fits (TI 8) z -> plain_of (VInt z) (PData (mkArr (TI 8) [] [XInt z]))
| Po_bigint z : ~ fits (TI 8) z -> plain_of (VInt z) (PData (mkArr (TS (length (show_Z z))) [] [XBytes (show_Z z)]))
| Po_float x : plain_of (VFloat x) (PData (mkArr (TF 8) [] [XFlt x]))
| Po_complex x y : plain_of (VComplex x y) (PData (mkArr (complex_type o 8) [] [XRec [[XFlt x]; [XFlt y]]]))
| Po_str s : plain_of (VStr s) (PData (mkArr (TU 4) [length s] (code_data s)))
| Po_bytes v s t : v = VBytes s \/ v = VByteArray s \/ (exists d, v = VDtype d /\ utf8_encode d = Ok s) -> chopped s t ->
    plain_of v (PData (mkArr (TS (Nat.max 1 (length s))) [] [XBytes t]))
| Po_np c a l : simple (a_dt a) -> Forall2 same_elem l (a_data a) -> plain_of (VNp c a) (PData (mkArr (stored_type (a_dt a)) (a_shape a) l))
| Po_np_complex c a w l : a_dt a = TC w -> Forall2 same_complex l (a_data a) -> plain_of (VNp c a) (PData (mkArr (complex_type o (w / 2)) (a_shape a) l))
| Po_text c a n rs : a_dt a = TUni n -> n * prod (a_shape a) <> 0 -> Forall2 (fun e r => exists s, e = XStr s /\ r = s ++ repeat 0%N (n - length s)) (a_data a) rs ->
    plain_of (VNp c a) (PData (mkArr (TU 4) (widen n (a_shape a)) (code_data (concat rs))))
| Po_no_text c a n : a_dt a = TUni n -> n * prod (a_shape a) = 0 -> plain_of (VNp c a) (PData (mkArr (TU 4) [0] []))
| Po_compound c a fs l : a_dt a = TStruct fs -> ~ needs_group (TStruct fs) -> Forall2 same_elem l (a_data a) -> plain_of (VNp c a) (PData (mkArr (TStruct fs) (a_shape a) l))
| Po_objects c a l ps : a_dt a = TObj -> a_data a = map XPtr l -> Forall2 plain_of l ps -> plain_of (VNp c a) (PRefs (a_shape a) ps)
(* the fields of one record; of several, arrays of references *)
| Po_record c a fs cols ps : a_dt a = TStruct fs -> needs_group (TStruct fs) -> prod (a_shape a) = 1 -> a_data a = [XRec cols] ->
    Forall2 (fun fc p => plain_of (field_item (fst (snd (fst fc))) (snd (snd (fst fc))) (snd fc)) p) (combine fs cols) ps ->
    plain_of (VNp c a) (PGroup (combine (map escaped (map fst fs)) ps))
| Po_records c a fs cols : a_dt a = TStruct fs -> needs_group (TStruct fs) -> prod (a_shape a) <> 1 ->
    Forall2 (fun nf p => exists vs ps, Forall2 (fun e v => exists es, e = XRec es /\ v = field_item (fst (snd (snd nf))) (snd (snd (snd nf))) (nth (fst nf) es [])) (a_data a) vs /\
        Forall2 plain_of vs ps /\ p = PRefs (a_shape a) ps) (combine (seq 0 (length fs)) fs) cols ->
    plain_of (VNp c a) (PGroup (combine (map escaped (map fst fs)) cols))
| Po_seq k l ps : Forall2 plain_of l ps -> plain_of (VSeq k l) (PRefs [length l] ps)
| Po_dict k l texts ps : Forall2 key_text (map fst l) texts -> Forall2 plain_of (map snd l) ps -> plain_of (VDict k l) (PGroup (combine (map escaped texts) ps))
| Po_dict_other k l pk pv : Exists not_text (map fst l) -> Forall2 plain_of (map fst l) pk -> Forall2 plain_of (map snd l) pv ->
    plain_of (VDict k l) (PGroup [(o_keys_name o, PRefs [length l] pk); (o_values_name o, PRefs [length l] pv)])
| Po_rec k fs names ps : (exists r, attribute_names k = names ++ r) -> length names = length fs -> Forall2 plain_of fs ps ->
    plain_of (VRec k fs) (PGroup (combine names ps)).
End PlainOf.

(** the values spoken about: arrays whose elements are what their dtypes say, dicts
    without two keys of the same text *)
Inductive writable : pyval -> Prop :=
| Wr_atom v : match v with VNp _ _ | VSeq _ _ | VDict _ _ | VRec _ _ => False | _ => True end -> writable v
| Wr_np c a : simple (a_dt a) -> length (a_data a) = prod (a_shape a) -> Forall (fun e => exists e', same_elem e' e) (a_data a) -> writable (VNp c a)
| Wr_complex c a w : a_dt a = TC w -> length (a_data a) = prod (a_shape a) -> Forall (fun e => exists x y, e = XCpx x y) (a_data a) -> writable (VNp c a)
| Wr_text c a n : a_dt a = TUni n -> length (a_data a) = prod (a_shape a) -> Forall (fun e => exists s, e = XStr s /\ length s <= n) (a_data a) -> writable (VNp c a)
| Wr_objects c a l : a_dt a = TObj -> length (a_data a) = prod (a_shape a) -> a_data a = map XPtr l -> Forall writable l -> writable (VNp c a)
| Wr_struct c a fs : a_dt a = TStruct fs -> length (a_data a) = prod (a_shape a) -> NoDup (map fst fs) -> (needs_group (TStruct fs) \/ Forall (fun e => exists e', same_elem e' e) (a_data a)) ->
    Forall (fun e => exists cols, e = XRec cols /\ length cols = length fs /\
       Forall (fun fc => writable (field_item (fst (snd (fst fc))) (snd (snd (fst fc))) (snd fc))) (combine fs cols)) (a_data a) -> writable (VNp c a)
| Wr_seq k l : Forall writable l -> writable (VSeq k l)
| Wr_dict k l texts : Forall2 key_text (map fst l) texts -> NoDup texts -> Forall writable (map snd l) -> writable (VDict k l)
| Wr_dict_other k l : Exists not_text (map fst l) -> Forall writable (map fst l) -> Forall writable (map snd l) -> writable (VDict k l)
| Wr_rec k fs : length fs <= length (attribute_names k) -> Forall writable fs -> writable (VRec k fs).

(** nothing that can be reached has attributes *)
Definition unadorned (h : heap) (i : nat) : Prop := exists P : nat -> Prop, P i /\ (forall j k, P j -> leads h j k -> P k) /\
  (forall j, P j -> exists ob, h j = Some ob /\ forall k, o_attrs ob k = None).
