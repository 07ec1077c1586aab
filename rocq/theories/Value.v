(** Python and numpy values as far as the marshallers look at them. *)
From Verif Require Import Base Dec NdArray.
Local Open Scope nat_scope.

(** numpy dtypes, little endian; [w] and [n] count bytes, for [TUni] characters.
    longdouble, clongdouble, datetime64, timedelta64 and non-native byte orders
    are not modelled.  [TRef]: h5py's reference dtype (only inside files). *)
Inductive dt :=
| TBool | TU (w : nat) | TI (w : nat) | TF (w : nat) | TC (w : nat)
| TS (n : nat) | TUni (n : nat) | TObj | TRef
| TStruct (fields : list (pystr * (dt * list nat))).

Fixpoint dt_eqb (a b : dt) : bool :=
  match a, b with
  | TBool, TBool => true
  | TU w, TU v | TI w, TI v | TF w, TF v | TC w, TC v | TS w, TS v | TUni w, TUni v => Nat.eqb w v
  | TObj, TObj => true
  | TRef, TRef => true
  | TStruct fs, TStruct gs =>
      (fix go (fs gs : list (pystr * (dt * list nat))) : bool :=
         match fs, gs with
         | [], [] => true
         | (n, (d, sh)) :: fs', (m, (e, th)) :: gs' =>
             eqb_str n m && dt_eqb d e && (if list_eq_dec Nat.eq_dec sh th then true else false) && go fs' gs'
         | _, _ => false
         end) fs gs
  | _, _ => false
  end.

(** dtype.itemsize *)
Fixpoint itemsize (d : dt) : nat :=
  match d with
  | TBool => 1
  | TU w | TI w | TF w | TC w => w
  | TS n => n
  | TUni n => 4 * n
  | TObj | TRef => 8
  | TStruct fs => list_sum (map (fun f => match f with (_, (e, sh)) => prod sh * itemsize e end) fs)
  end.

(** dtype.name *)
Definition show_nat (n : nat) : pystr := show_N (N.of_nat n).
Definition dt_name (d : dt) : pystr :=
  match d with
  | TBool => lit "bool"
  | TU w => lit "uint" ++ show_nat (8 * w)
  | TI w => lit "int" ++ show_nat (8 * w)
  | TF w => lit "float" ++ show_nat (8 * w)
  | TC w => lit "complex" ++ show_nat (8 * w)
  | TS 0 => lit "bytes"
  | TS n => lit "bytes" ++ show_nat (8 * n)
  | TUni 0 => lit "str"
  | TUni n => lit "str" ++ show_nat (32 * n)
  | TObj | TRef => lit "object"
  | TStruct fs => lit "void" ++ show_nat (8 * itemsize d)
  end.

(** Array elements.  [XFlt]: the bits of a float.  [XBytes], [XStr]: without the
    NULs that pad them to the width of the dtype (numpy never shows those).
    [XPtr]: what an object array holds, or a reference inside a file.
    [XRec]: the elements of each field of a structured type, in C order. *)
Inductive elem (A : Type) :=
| XBool (b : bool) | XInt (z : Z) | XFlt (bits : N) | XCpx (re im : N)
| XBytes (s : list N) | XStr (s : pystr) | XPtr (p : A) | XRec (fields : list (list (elem A))).
Arguments XBool {A}. Arguments XInt {A}. Arguments XFlt {A}. Arguments XCpx {A}.
Arguments XBytes {A}. Arguments XStr {A}. Arguments XPtr {A}. Arguments XRec {A}.

Record arr (A : Type) := mkArr { a_dt : dt; a_shape : list nat; a_data : list (elem A) }.
Arguments mkArr {A}. Arguments a_dt {A}. Arguments a_shape {A}. Arguments a_data {A}.

Inductive container := CScalar | CNdarray | CMatrix | CChararray | CRecarray.
Inductive seqkind := QList | QTuple | QSet | QFrozenset | QDeque | QChainMap.
Inductive dictkind := MDict | MOrderedDict | MCounter.
Inductive reckind := RSlice | RRange | RFraction | RTimedelta | RTimezone | RDate | RTime | RDatetime.

(** Python values.  dicts in iteration order; sets in iteration order; a record
    ([VRec]) by the attributes its marshaller stores, in that order.  Not
    represented: deque.maxlen, and the fold of times. *)
Inductive pyval :=
| VNone | VEllipsis | VNotImplemented
| VBool (b : bool) | VInt (z : Z) | VFloat (bits : N) | VComplex (re im : N)
| VStr (s : pystr) | VBytes (s : list N) | VByteArray (s : list N)
| VNp (c : container) (a : arr pyval)
| VSeq (k : seqkind) (l : list pyval)
| VDict (k : dictkind) (l : list (pyval * pyval))
| VRec (k : reckind) (fields : list pyval)
| VDtype (text : pystr)
| VOther.

(** elementwise change of the pointers *)
Fixpoint emap {A B} (f : A -> B) (e : elem A) : elem B :=
  match e with
  | XBool b => XBool b | XInt z => XInt z | XFlt b => XFlt b | XCpx r i => XCpx r i
  | XBytes s => XBytes s | XStr s => XStr s
  | XPtr p => XPtr (f p)
  | XRec fs => XRec (map (map (emap f)) fs)
  end.
Definition amap {A B} (f : A -> B) (a : arr A) : arr B :=
  mkArr (a_dt a) (a_shape a) (map (emap f) (a_data a)).

Definition size {A} (a : arr A) : nat := prod (a_shape a).
Definition nbytes {A} (a : arr A) : nat := size a * itemsize (a_dt a).

(** NUL padding to a width, and its removal *)
Definition pad (n : nat) (s : list N) : list N := s ++ repeat 0%N (n - length s).
Fixpoint strip0 (s : list N) : list N :=
  match s with
  | [] => []
  | c :: r => match strip0 r with
              | [] => if (c =? 0)%N then [] else [c]
              | r' => c :: r'
              end
  end.

(** the same elements with another dtype and shape *)
Definition tr {A} (a : arr A) : arr A :=
  mkArr (a_dt a) (rev (a_shape a)) (transpose (a_shape a) (a_data a)).
Definition reshape {A} (sh : list nat) (a : arr A) : arr A := mkArr (a_dt a) sh (a_data a).

(** the element np.zeros fills an array with *)
Fixpoint zero_elem (d : dt) : elem pyval :=
  match d with
  | TBool => XBool false
  | TU _ | TI _ => XInt 0
  | TF _ => XFlt 0
  | TC _ => XCpx 0 0
  | TS _ => XBytes []
  | TUni _ => XStr []
  | TObj | TRef => XPtr (VInt 0)
  | TStruct fs => XRec (map (fun f => match f with (_, (e, sh)) => repeat (zero_elem e) (prod sh) end) fs)
  end.
Definition np_zeros (sh : list nat) (d : dt) : arr pyval := mkArr d sh (repeat (zero_elem d) (prod sh)).

(** np.uint64(tuple of ints) *)
Definition shape_array {A} (sh : list nat) : arr A :=
  mkArr (TU 8) [length sh] (map (fun n => XInt (Z.of_nat n)) sh).

(** a numpy scalar *)
Definition np_scalar (d : dt) (e : elem pyval) : pyval := VNp CScalar (mkArr d [] [e]).
(** np.bytes_(b), np.str_(s): the width is the length, padding included *)
Definition np_bytes (b : list N) : arr pyval := mkArr (TS (length b)) [] [XBytes (strip0 b)].
Definition np_str (s : pystr) : arr pyval := mkArr (TUni (length s)) [] [XStr (strip0 s)].
(** what indexing gives for one element: numpy strings get the width of their
    own length, object arrays give the object *)
Definition item_of (d : dt) (e : elem pyval) : pyval :=
  match d, e with
  | TObj, XPtr v => v
  | TS _, XBytes s => np_scalar (TS (length s)) e
  | TUni _, XStr s => np_scalar (TUni (length s)) e
  | _, _ => np_scalar d e
  end.

Lemma strip0_cons c r : strip0 (c :: r) = match strip0 r with [] => if (c =? 0)%N then [] else [c] | r' => c :: r' end.
Proof. reflexivity. Qed.
Lemma strip0_repeat n : strip0 (repeat 0%N n) = [].
Proof. induction n; cbn; [reflexivity|]. rewrite IHn. reflexivity. Qed.
Lemma strip0_app_zeros s n : strip0 (s ++ repeat 0%N n) = strip0 s.
Proof. induction s as [|c s IH]; cbn; [apply strip0_repeat|]. rewrite IH. reflexivity. Qed.
Lemma strip0_decomp s : exists n, s = strip0 s ++ repeat 0%N n.
Proof.
  induction s as [|c s [n IH]]; [exists 0; reflexivity|]. cbn. destruct (strip0 s) as [|d r] eqn:E; cbn in IH.
  - destruct (N.eqb_spec c 0); [exists (S n); cbn; congruence|exists n; cbn; congruence].
  - exists n. cbn. f_equal. exact IH.
Qed.
Lemma strip0_idem s : strip0 (strip0 s) = strip0 s.
Proof.
  destruct (strip0_decomp s) as [n H]. rewrite H at 2. rewrite strip0_app_zeros. reflexivity.
Qed.
Lemma strip0_len s : length (strip0 s) <= length s.
Proof. destruct (strip0_decomp s) as [n H]. rewrite H at 2. rewrite app_length. lia. Qed.
Lemma pad_len n s : length s <= n -> length (pad n s) = n.
Proof. intros H. unfold pad. rewrite app_length, repeat_length. lia. Qed.
Lemma strip0_pad n s : strip0 (pad n s) = strip0 s.
Proof. apply strip0_app_zeros. Qed.
Lemma pad_strip0 s : pad (length s) (strip0 s) = s.
Proof.
  destruct (strip0_decomp s) as [n H]. unfold pad. assert (E : length s = length (strip0 s) + n).
  { rewrite H at 1. rewrite app_length, repeat_length. reflexivity. }
  rewrite E. replace (length (strip0 s) + n - length (strip0 s)) with n by lia. symmetry. exact H.
Qed.
