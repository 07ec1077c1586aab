(** Writes that are cut short: the programs of [MarshalW] and [FileApi] again, with the
    states of the file in between.  Each call of h5py that changes the file is a step;
    setting several attributes is one step for each, and overwriting a Dataset in place is
    not taken to be one step: any of its elements may be old or new.  [C58_same] in Props_Cut.v: apart from the states
    in between they are the same programs. *)
From Verif Require Import Base Unicode PathEsc PosixPath ProcessPath Dec NdArray Value OptionsM StrConv ComplexM Attrs NpDims MColl Hdf5 NpWrite MarshalW FileApi.
Local Open Scope nat_scope.

(** the states in between (and the last one, if something has changed), and the result *)
Definition T (A : Type) := st -> (st -> Prop) * (st * res A).
Definition nostate : st -> Prop := fun _ => False.
(** something that changes neither the file nor what the session knows *)
Definition pure {A} (m : M A) : T A := fun s => (nostate, m s).
(** one call of h5py, or a change of what the session knows *)
Definition op {A} (m : M A) : T A := fun s => (eq (fst (m s)), m s).
Definition bindt {A B} (m : T A) (k : A -> T B) : T B := fun s =>
  let p := m s in
  match snd p with
  | (s1, Ok a) => ((fun x => fst p x \/ fst (k a s1) x), snd (k a s1))
  | (s1, Err e) => (fst p, (s1, Err e))
  end.
Notation "'step*' x := m 'in' k" := (bindt m (fun x => k)) (at level 200, x pattern, m at level 100, k at level 200).
Fixpoint iterT {A} (f : A -> T unit) (l : list A) : T unit :=
  match l with [] => pure (ret tt) | x :: r => step* _ := f x in iterT f r end.
Fixpoint mapT {A B} (f : A -> T B) (l : list A) : T (list B) :=
  match l with [] => pure (ret []) | x :: r => step* y := f x in step* ys := mapT f r in pure (ret (y :: ys)) end.

(** utilities.py l.1382-1443: first the attributes are set one by one, then the others are
    deleted one by one, in some order *)
Fixpoint put_states (existing : attrs) (reqs : list (pystr * areq)) (a : attrs) (x : attrs) : Prop :=
  match reqs with
  | [] => x = a
  | (k, q) :: r => x = a \/ match put_attr existing k q a with Ok a' => put_states existing r a' x | Err _ => False end
  end.
Definition attr_states (a : attrs) (reqs : list (pystr * areq)) (discard : bool) (x : attrs) : Prop :=
  put_states a reqs a x \/
  (discard = true /\ snd (put_attrs a reqs a) = None /\
   forall k, x k = fst (put_attrs a reqs a) k \/ (x k = None /\ ~ In k (map fst reqs))).
Definition sync_attrsT (i : nat) (reqs : list (pystr * areq)) (discard : bool) : T unit := fun s =>
  ((fun x => exists a ob, hp s i = Some ob /\ attr_states (attrs_of (hp s) i) reqs discard a /\ x = set_hp s (upd (hp s) i (with_attrs ob a))),
   sync_attrs i reqs discard s).
(** dsetgrp[...] = data_to_store, Marshallers.py l.997 *)
Definition overwriteT (i : nat) (a : arr nat) : T nat := fun s =>
  ((fun x => exists ob old f d, hp s i = Some ob /\ o_body ob = BData old f /\ length d = length (a_data a) /\
      (forall k e, nth_error d k = Some e -> nth_error (a_data old) k = Some e \/ nth_error (a_data a) k = Some e) /\
      x = set_hp s (upd (hp s) i (with_body ob (BData (mkArr (a_dt old) (a_shape old) d) f)))),
   overwrite i a s).

Section Writer.
Variables (o : options) (rnd : nat -> N) (tries : nat).

(** utilities.py l.428-430: the Group is known before it is known to be new *)
Definition new_refsT (g : nat) : T nat :=
  step* _ := op (set_session (with_rgrp g false)) in
  step* _ := op (set_session (with_rgrp g true)) in pure (ret g).
(** utilities.py l.417-436 *)
Definition ensure_refsT : T nat := fun s =>
  match rgrp s with
  | Some g => pure (ret g) s
  | None =>
      (step* r := pure (get_obj 0 (o_refs o)) in
       match r with
       | Some g =>
           step* isg := pure (gets (fun s => is_group (hp s) g)) in
           if isg then (step* _ := op (set_session (with_rgrp g false)) in pure (ret g))
           else
             step* _ := op (unlink 0 (o_refs o)) in
             step* g := op (create_group 0 (o_refs o)) in new_refsT g
       | None =>
           step* g := op (create_group 0 (o_refs o)) in new_refsT g
       end) s
  end.
(** l.443-467 *)
(** the Dataset, which the session takes as the canonical empty, then with one attribute,
    then with both *)
Definition canon_parts : list attrs := [no_attrs; set_attr (lit "MATLAB_class") (AStr (lit "canonical empty")) no_attrs; canon_attrs].
Definition new_canonT (g : nat) : T nat := fun s =>
  ((fun x => exists a, In a canon_parts /\
      let p := new_link g (lit "a") a canon_body s in
      (a = no_attrs /\ x = fst p) \/ exists c, snd p = Ok c /\ x = with_canon c (fst p)), new_canon g s).
Definition ensure_canonT (g : nat) : T nat := fun s =>
  match canon s with
  | Some c => pure (ret c) s
  | None =>
      match lookup (hp s) g (lit "a") with
      | Some c => if is_canonical (hp s) c then (step* _ := op (set_session (with_canon c)) in pure (ret c)) s
                  else (step* _ := op (unlink g (lit "a")) in new_canonT g) s
      | None => new_canonT g s
      end
  end.
(** l.490-497 and Marshallers.py l.1868-1874 *)
Definition mark_pathT (i : nat) (p : pystr) : T unit := op (mark_path o i p).

Section Marshallers.
Variable wr : nat -> pystr -> pyval -> T (option nat).

(** utilities.py l.377-501 *)
Definition write_elementT (g c : nat) (v : pyval) : T nat :=
  step* nm := op (next_name rnd tries g) in
  step* r := wr g nm v in
  match r with
  | None => pure (ret c)
  | Some i =>
      step* p := pure (gets (fun s => name_text (name_of (hp s) g))) in
      step* _ := mark_pathT i p in pure (ret i)
  end.
Definition write_object_arrayT (a : arr pyval) : T (arr nat) :=
  step* g := ensure_refsT in
  step* c := ensure_canonT g in
  step* refs := mapT (write_elementT g c) (map elem_val (a_data a)) in
  pure (ret (mkArr TRef (a_shape a) (map XPtr refs))).

(** Marshallers.py l.871-876 and l.1819-1824 *)
Definition open_groupT (g : nat) (nm : pystr) : T nat :=
  step* r := pure (get_obj g nm) in
  match r with
  | None => op (create_group g nm)
  | Some i =>
      step* isg := pure (gets (fun s => is_group (hp s) i)) in
      if isg then pure (ret i) else (step* _ := op (unlink g nm) in op (create_group g nm))
  end.
(** l.886-888 and l.1857-1858 *)
Definition pruneT (i : nat) (keep : list pystr) : T unit := fun s =>
  iterT (fun k => op (unlink_at i [k])) (filter (fun k => negb (mem_str k keep)) (map fst (links (hp s) i))) s.

(** l.899-938 *)
Definition write_fieldT (i : nat) (b : arr pyval) (nf : nat * (pystr * (dt * list nat))) : T unit :=
  let '(n, (name, f)) := nf in
  let col := mkArr TObj (a_shape b) (map XPtr (column n f (a_data b))) in
  let col := if o_reverse o then tr col else col in
  let single := (prod (a_shape b) =? 1) in
  let v := if single then match a_data col with XPtr x :: _ => x | _ => VOther end else VNp CNdarray col in
  step* r := wr i (escaped name) v in
  match r with
  | None => pure (ret tt)
  | Some j =>
      step* p := pure (gets (fun s => name_text (name_of (hp s) i))) in
      sync_attrsT j (if o_matlab_compatible o then [(lit "H5PATH", QString p)] else []) (negb single)
  end.
(** l.862-938 *)
Definition write_structT (g : nat) (nm : pystr) (b : arr pyval) : T nat :=
  let fs := struct_fields (a_dt b) in
  step* i := open_groupT g nm in
  step* _ := (if o_delete_unused o then pruneT i (map escaped (map fst fs)) else pure (ret tt)) in
  step* _ := iterT (write_fieldT i b) (combine (seq 0 (length fs)) fs) in
  pure (ret i).

(** l.984-1001 *)
Definition replace_datasetT (g : nat) (nm : pystr) (a : arr nat) (f : filt) : T nat :=
  step* _ := op (unlink g nm) in op (create_dataset g nm a f).
Definition put_datasetT (g : nat) (nm : pystr) (a : arr nat) : T nat :=
  let df := np_filters o (a_shape a) (size a * itemsize (a_dt a)) in
  step* r := pure (catch (get_obj g nm) (fun _ => ret None)) in
  match r with
  | None => op (create_dataset g nm a (filt_of df))
  | Some i =>
      step* b := pure (gets (fun s => match hp s i with Some ob => o_body ob | None => BGroup [] end)) in
      if same_dataset b a df then
        match same_opts b df with
        | None => pure (fail ValueError)
        | Some true => overwriteT i a
        | Some false => replace_datasetT g nm a (filt_of df)
        end
      else replace_datasetT g nm a (filt_of df)
  end.
(** l.700-1011 *)
Definition np_writeT (g : nat) (nm : pystr) (v : npval) (ts : pystr) : T (option nat) :=
  let '(c, a) := v in
  if np_incompatible o a && eqb_str (o_action o) (lit "error") then pure (fail TypeNotMatlabCompatibleError)
  else if np_incompatible o a && eqb_str (o_action o) (lit "discard") then pure (ret None)
  else
    step* b := pure (lift (np_prepare o v)) in
    if as_group o a (a_dt b) then
      step* i := write_structT g nm b in
      let pre := if o_matlab_compatible o then [(lit "MATLAB_class", QPyStr (lit "struct"))] else [] in
      step* _ := sync_attrsT i (np_attrs o v ts pre true None) true in
      pure (ret (Some i))
    else
      step* d := (match a_dt b with TObj => write_object_arrayT b | _ => pure (ret (plain_data b)) end) in
      step* i := put_datasetT g nm d in
      step* t := pure (gets (fun s => dset_dtype (hp s) i)) in
      step* _ := sync_attrsT i (np_attrs o v ts [] false t) true in
      pure (ret (Some i)).

(** l.1780-1876 *)
Definition write_itemT (i : nat) (p : pystr) (kv : pystr * pyval) : T unit :=
  step* r := wr i (fst kv) (snd kv) in
  match r with None => pure (ret tt) | Some j => mark_pathT j p end.
Definition dict_writeT (g : nat) (nm : pystr) (items : list (pyval * pyval)) (ts : pystr) (plain : bool) : T (option nat) :=
  let codes := key_codes (map fst items) in
  step* i := open_groupT g nm in
  step* _ := sync_attrsT i (dict_attrs o ts plain codes) true in
  let kvs := match codes with
             | None => [(o_keys_name o, VSeq QTuple (map fst items)); (o_values_name o, VSeq QTuple (map snd items))]
             | Some cs => combine (map (fun c => escaped (snd c)) cs) (map snd items)
             end in
  step* _ := (if match codes with None => true | _ => false end || o_delete_unused o then pruneT i (map fst kvs) else pure (ret tt)) in
  step* p := pure (gets (fun s => name_text (name_of (hp s) i))) in
  step* _ := pure (if o_matlab_compatible o then let* _ := lift (ascii_bytes p) in ret tt else ret tt) in
  step* _ := iterT (write_itemT i p) kvs in
  pure (ret (Some i)).

(** utilities.py l.212-276 *)
Definition write_valueT (g : nat) (nm : pystr) (v : pyval) : T (option nat) :=
  match v with
  | VNone => np_writeT g nm (CNdarray, none_array) (lit "builtins.NoneType")
  | VEllipsis => np_writeT g nm (CNdarray, none_array) (lit "builtins.ellipsis")
  | VNotImplemented => np_writeT g nm (CNdarray, none_array) (lit "builtins.NotImplementedType")
  | VBool b => np_writeT g nm (CScalar, mkArr TBool [] [XBool b]) (lit "bool")
  | VInt z => np_writeT g nm (CScalar, int_array z) (lit "long")
  | VFloat x => np_writeT g nm (CScalar, mkArr (TF 8) [] [XFlt x]) (lit "float")
  | VComplex x y => np_writeT g nm (CScalar, mkArr (TC 16) [] [XCpx x y]) (lit "complex")
  | VStr s => np_writeT g nm (CScalar, np_str s) (lit "str")
  | VBytes s => np_writeT g nm (CScalar, np_bytes s) (lit "bytes")
  | VByteArray s => np_writeT g nm (CScalar, np_bytes s) (lit "bytearray")
  | VNp c a => np_writeT g nm (c, a) (np_type c (a_dt a))
  | VSeq k l => np_writeT g nm (CNdarray, obj_array l) (seq_type k)
  | VDict k l => dict_writeT g nm l (dict_type k) (match k with MCounter => false | _ => true end)
  | VRec k fs => dict_writeT g nm (rec_items k fs) (rec_type k) true
  | VDtype t => step* b := pure (lift (utf8_encode t)) in np_writeT g nm (CScalar, np_bytes b) (lit "numpy.dtype")
  | VOther => pure (fail NotImplementedError)
  end.
End Marshallers.
Fixpoint writeT (n : nat) (g : nat) (nm : pystr) (v : pyval) : T (option nat) :=
  match n with
  | O => pure (fail OutOfFuel)
  | S n' => write_valueT (writeT n') g nm v
  end.

(** __init__.py l.1844-1927 *)
Definition write_atT (n : nat) (g t : pystr) (v : pyval) : T unit :=
  step* i := op (require_group g) in
  step* _ := writeT n i t v in pure (ret tt).
Definition file_writesT (n : nat) (f : file) (mdict : list (pypath * pyval)) : (st -> Prop) * (file * res unit) :=
  match mapr (fun pv => do gt <- check_path o (fst pv); Ok (gt, snd pv)) mdict with
  | Err e => (nostate, (f, Err e))
  | Ok l =>
      if fl_open f then
        let p := iterT (fun x => write_atT n (fst (fst x)) (snd (fst x)) (snd x)) l (fl_st f) in
        (fst p, (mkFile true (fst (snd p)), snd (snd p)))
      else (nostate, (f, Err OSError))
  end.
(** the states in which the call can be cut short *)
Definition cut_states (n : nat) (f : file) (mdict : list (pypath * pyval)) (s : st) : Prop :=
  s = fl_st f \/ fst (file_writesT n f mdict) s.
End Writer.
