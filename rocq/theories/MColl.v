(** Model of class MarshallerCollection (__init__.py l.1008-1516).
    Marshallers are object identities [mid]; [minfo] gives the attributes
    TypeMarshaller documents (Marshallers.py l.186-270).  Simplifications: the
    attributes of a marshaller do not change while it is registered; [==] of
    marshallers is identity (TypeMarshaller defines no __eq__). *)
From Verif Require Import Base.

Definition mid := N.

(** an entry of TypeMarshaller.types: the name of a type or the type itself *)
Inductive tyref := TyName (s : pystr) | TyObj (modname qualname : pystr).

(** l.1267-1270 and l.1418-1419: str form of a type *)
Definition ty_key (t : tyref) : pystr :=
  match t with TyName s => s | TyObj m n => m ++ lit "." ++ n end.

Record minfo := { i_parents : list pystr;       (* required_parent_modules *)
                  i_modules : list pystr;       (* required_modules *)
                  i_types : list tyref;         (* types *)
                  i_strings : list pystr;       (* python_type_strings *)
                  i_classes : list pystr }.     (* matlab_classes *)

(** The import machinery, an oracle: [findable n] pkgutil.find_loader(n) is not
    None; [importable n] importlib.import_module(n) succeeds; [brings n] what it
    then adds to sys.modules besides [n]; [kept n] what a failing import leaves
    there. *)
Record pyenv := { findable : pystr -> bool; importable : pystr -> bool;
                  brings : pystr -> list pystr; kept : pystr -> list pystr }.

Section WithEnv.
Variable info : mid -> minfo.
Variable env : pyenv.

(** l.1283-1305: _import_marshaller_modules; sys.modules is threaded *)
Fixpoint import_modules (sysm : list pystr) (names : list pystr) : list pystr * bool :=
  match names with
  | [] => (sysm, true)
  | n :: r =>
      if mem_str n sysm then import_modules sysm r
      else if importable env n then import_modules (n :: brings env n ++ sysm) r
      else (kept env n ++ sysm, false)
  end.

(** A Python dict built by "insert when absent": first binding wins. *)
Fixpoint dict_find (k : pystr) (d : list (pystr * nat)) : option nat :=
  match d with
  | [] => None
  | (k', i) :: r => if eqb_str k k' then Some i else dict_find k r
  end.
Definition dict_add (d : list (pystr * nat)) (k : pystr) (i : nat) : list (pystr * nat) :=
  match dict_find k d with Some _ => d | None => d ++ [(k, i)] end.

(** l.1260-1281 for one of the three dictionaries *)
Fixpoint build_index (keys : mid -> list pystr) (ms : list mid) (i : nat) (d : list (pystr * nat)) :=
  match ms with
  | [] => d
  | m :: r => build_index keys r (S i) (fold_left (fun d k => dict_add d k i) (keys m) d)
  end.

Definition type_keys (m : mid) : list pystr := map ty_key (i_types (info m)).

Record coll := {
  c_priority : list pystr;              (* _priority *)
  c_lazy : bool;                        (* _lazy_loading *)
  c_builtin : list mid;
  c_plugin : list mid;
  c_user : list mid;
  c_all : list mid;                     (* _marshallers *)
  c_has : list bool;                    (* _has_required_modules *)
  c_imported : list bool;               (* _imported_required_modules *)
  c_types : list (pystr * nat);
  c_strings : list (pystr * nat);
  c_classes : list (pystr * nat) }.

(** l.1198-1207 *)
Fixpoint combine_lists (prio : list pystr) (b p u : list mid) : res (list mid) :=
  match prio with
  | [] => Ok []
  | v :: r =>
      if eqb_str v (lit "builtin") then do t <- combine_lists r b p u; Ok (b ++ t)
      else if eqb_str v (lit "plugin") then do t <- combine_lists r b p u; Ok (p ++ t)
      else if eqb_str v (lit "user") then do t <- combine_lists r b p u; Ok (u ++ t)
      else Err ValueError
  end.

(** l.1217-1224 *)
Definition parents_present (sysm : list pystr) (m : mid) : bool :=
  forallb (fun n => mem_str n sysm || findable env n) (i_parents (info m)).

(** l.1215-1246: one marshaller; returns (sys.modules, has, imported) *)
Definition check_modules (lazy : bool) (sysm : list pystr) (m : mid) : list pystr * bool * bool :=
  if negb (parents_present sysm m) then (sysm, false, false)
  else if forallb (fun n => mem_str n sysm) (i_modules (info m)) then (sysm, true, true)
  else if lazy then (sysm, true, false)
  else let '(s, ok) := import_modules sysm (i_modules (info m)) in (s, ok, ok).

Fixpoint check_all (lazy : bool) (sysm : list pystr) (ms : list mid) : list pystr * list bool * list bool :=
  match ms with
  | [] => (sysm, [], [])
  | m :: r =>
      let '(s1, h, i) := check_modules lazy sysm m in
      let '(s2, hs, is) := check_all lazy s1 r in (s2, h :: hs, i :: is)
  end.

(** l.1184-1281: _update_marshallers *)
Definition update (sysm : list pystr) (c : coll) : res (list pystr * coll) :=
  do all <- combine_lists (c_priority c) (c_builtin c) (c_plugin c) (c_user c);
  let '(s, hs, is) := check_all (c_lazy c) sysm all in
  Ok (s, {| c_priority := c_priority c; c_lazy := c_lazy c; c_builtin := c_builtin c;
            c_plugin := c_plugin c; c_user := c_user c; c_all := all; c_has := hs; c_imported := is;
            c_types := build_index type_keys all 0 [];
            c_strings := build_index (fun m => i_strings (info m)) all 0 [];
            c_classes := build_index (fun m => i_classes (info m)) all 0 [] |}).

Definition with_user (c : coll) (u : list mid) : coll :=
  {| c_priority := c_priority c; c_lazy := c_lazy c; c_builtin := c_builtin c; c_plugin := c_plugin c;
     c_user := u; c_all := c_all c; c_has := c_has c; c_imported := c_imported c;
     c_types := c_types c; c_strings := c_strings c; c_classes := c_classes c |}.

Definition mem_mid (m : mid) (l : list mid) : bool := existsb (N.eqb m) l.

(** l.1342-1349: [None] is an object that is no TypeMarshaller *)
Fixpoint add_loop (u : list mid) (l : list (option mid)) : list mid * bool :=
  match l with
  | [] => (u, true)
  | None :: _ => (u, false)
  | Some m :: r => add_loop (if mem_mid m u then u else u ++ [m]) r
  end.

Fixpoint remove_first (m : mid) (l : list mid) : list mid :=
  match l with [] => [] | x :: r => if N.eqb m x then r else x :: remove_first m r end.

(** l.1372-1374; objects that are no marshallers are never in the list *)
Definition remove_loop (u : list mid) (l : list (option mid)) : list mid :=
  fold_left (fun u x => match x with Some m => if mem_mid m u then remove_first m u else u | None => u end) l u.

(** The operations; a state is (sys.modules, collection). *)
Inductive cop :=
| OpAdd (l : list (option mid)) | OpRemove (l : list (option mid)) | OpClear
| OpType (t : tyref) | OpString (s : pystr) | OpClass (s : pystr).

Inductive cout := OutUnit | OutErr (e : exn) | OutGet (m : option mid) (has : bool).

(** l.1425-1432: answer of the getters once the index is known *)
Definition set_nth {A} (i : nat) (x : A) (l : list A) : list A :=
  firstn i l ++ match skipn i l with [] => [] | _ :: r => x :: r end.
Definition get_at (sysm : list pystr) (c : coll) (i : nat) : list pystr * coll * cout :=
  match nth_error (c_all c) i with
  | None => (sysm, c, OutErr IndexError)
  | Some m =>
      if nth i (c_imported c) false then (sysm, c, OutGet (Some m) true)
      else if negb (nth i (c_has c) false) then (sysm, c, OutGet (Some m) false)
      else let '(s, ok) := import_modules sysm (i_modules (info m)) in
           (s, {| c_priority := c_priority c; c_lazy := c_lazy c; c_builtin := c_builtin c;
                  c_plugin := c_plugin c; c_user := c_user c; c_all := c_all c;
                  c_has := set_nth i ok (c_has c); c_imported := set_nth i ok (c_imported c);
                  c_types := c_types c; c_strings := c_strings c; c_classes := c_classes c |},
            OutGet (Some m) ok)
  end.
Definition get_by (d : list (pystr * nat)) (k : pystr) (sysm : list pystr) (c : coll) :=
  match dict_find k d with
  | Some i => get_at sysm c i
  | None => (sysm, c, OutGet None false)
  end.

Definition upd_out (sysm : list pystr) (c : coll) : list pystr * coll * cout :=
  match update sysm c with Ok (s, c') => (s, c', OutUnit) | Err e => (sysm, c, OutErr e) end.

Definition step (st : list pystr * coll) (op : cop) : list pystr * coll * cout :=
  let '(sysm, c) := st in
  match op with
  | OpAdd l =>                                    (* l.1307-1350 *)
      let '(u, ok) := add_loop (c_user c) l in
      if ok then upd_out sysm (with_user c u) else (sysm, with_user c u, OutErr TypeError)
  | OpRemove l => upd_out sysm (with_user c (remove_loop (c_user c) l))   (* l.1352-1375 *)
  | OpClear => upd_out sysm (with_user c [])                              (* l.1377-1386 *)
  | OpType t => get_by (c_types c) (ty_key t) sysm c                      (* l.1388-1432 *)
  | OpString s => get_by (c_strings c) s sysm c                           (* l.1434-1474 *)
  | OpClass s => get_by (c_classes c) s sysm c                            (* l.1476-1516 *)
  end.

(** sorted() of str *)
Fixpoint str_le (a b : pystr) : bool :=
  match a, b with
  | [], _ => true
  | _ :: _, [] => false
  | x :: a', y :: b' => if x <? y then true else if y <? x then false else str_le a' b'
  end.
Fixpoint insert_str (x : pystr) (l : list pystr) : list pystr :=
  match l with [] => [x] | y :: r => if str_le x y then x :: l else y :: insert_str x r end.
Definition sorted (l : list pystr) : list pystr := fold_right insert_str [] l.
Fixpoint eqb_strs (a b : list pystr) : bool :=
  match a, b with
  | [], [] => true
  | x :: a', y :: b' => eqb_str x y && eqb_strs a' b'
  | _, _ => false
  end.

(** l.1081-1166: the constructor for well-typed arguments; [builtin] and
    [plugin] are the lists inspection and the entry points give *)
Definition create (sysm : list pystr) (builtin plugin : list mid) (lazy : bool)
    (priority : list pystr) (ms : list (option mid)) : res (list pystr * coll) :=
  if negb (Nat.eqb (length priority) 3) then Err ValueError
  else if negb (eqb_strs (sorted priority) (sorted [lit "builtin"; lit "plugin"; lit "user"])) then Err ValueError
  else
    let c := {| c_priority := priority; c_lazy := lazy; c_builtin := builtin; c_plugin := plugin;
                c_user := []; c_all := []; c_has := []; c_imported := []; c_types := [];
                c_strings := []; c_classes := [] |} in
    match step (sysm, c) (OpAdd ms) with
    | (s, c', OutErr e) => Err e
    | (s, c', _) => Ok (s, c')
    end.

(** a history of operations *)
Fixpoint run (st : list pystr * coll) (ops : list cop) : list pystr * coll * list cout :=
  match ops with
  | [] => (fst st, snd st, [])
  | op :: r =>
      let '(s, c, o) := step st op in
      let '(s', c', os) := run (s, c) r in (s', c', o :: os)
  end.
End WithEnv.
