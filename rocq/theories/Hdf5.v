(** A model of an open HDF5 file as h5py shows it: objects (Groups and Datasets)
    with attributes, reached from the root Group through links, and references to
    objects.  This part models h5py/HDF5, not code of the repository.

    Simplifications: every object has exactly one link, made when it is created (no
    hard links to existing objects, soft or external links: the repository makes
    none), so it also remembers the path it was created at.  An object that has
    been unlinked is gone for references, even while a handle to it is kept open. *)
From Verif Require Import Base PathEsc PosixPath Unicode MColl Dec NdArray Value Attrs.
Local Open Scope nat_scope.

(** the storage settings of a Dataset: dset.compression, .compression_opts,
    .shuffle, .fletcher32, and whether it is chunked *)
Record filt := mkFilt { f_comp : option pystr; f_level : option Z; f_shuffle : bool; f_fletcher : bool; f_chunked : bool }.

Inductive body :=
| BData (a : arr nat) (f : filt)
| BGroup (links : list (pystr * nat)).

Record obj := mkObj { o_name : list pystr; o_attrs : attrs; o_body : body }.
Definition heap := nat -> option obj.

(** An open file together with the state LowLevelFile keeps about it
    (utilities.py l.187-200): the references Group, whether it was made by this
    LowLevelFile, the canonical empty, and the counter for names.  [rpos] counts the
    random numbers drawn. *)
Record st := mkSt { hp : heap; nxt : nat; rgrp : option nat; rcreated : bool; canon : option nat; counter : N; rpos : nat }.

(** ** computations that may raise; changes made before an exception stay *)
Definition M (A : Type) := st -> st * res A.
Definition ret {A} (a : A) : M A := fun s => (s, Ok a).
Definition fail {A} (e : exn) : M A := fun s => (s, Err e).
Definition bindm {A B} (m : M A) (k : A -> M B) : M B :=
  fun s => match m s with (s1, Ok a) => k a s1 | (s1, Err e) => (s1, Err e) end.
Notation "'let*' x := m 'in' k" := (bindm m (fun x => k)) (at level 200, x pattern, m at level 100, k at level 200).
Definition lift {A} (r : res A) : M A := fun s => (s, r).
Definition catch {A} (m : M A) (h : exn -> M A) : M A :=
  fun s => match m s with (s1, Err e) => h e s1 | p => p end.
Fixpoint iterM {A} (f : A -> M unit) (l : list A) : M unit :=
  match l with [] => ret tt | x :: r => let* _ := f x in iterM f r end.
Fixpoint mapM {A B} (f : A -> M B) (l : list A) : M (list B) :=
  match l with [] => ret [] | x :: r => let* y := f x in let* ys := mapM f r in ret (y :: ys) end.
Definition gets {A} (f : st -> A) : M A := fun s => (s, Ok (f s)).

(** ** links *)
Fixpoint assoc {B} (k : pystr) (l : list (pystr * B)) : option B :=
  match l with [] => None | (k', v) :: r => if eqb_str k k' then Some v else assoc k r end.
(** in the order of the names *)
Fixpoint ins {B} (k : pystr) (v : B) (l : list (pystr * B)) : list (pystr * B) :=
  match l with
  | [] => [(k, v)]
  | (k', v') :: r => if str_le k k' then (k, v) :: l else (k', v') :: ins k v r
  end.
Definition del_key {B} (k : pystr) (l : list (pystr * B)) : list (pystr * B) :=
  filter (fun p => negb (eqb_str k (fst p))) l.

Definition links (h : heap) (i : nat) : list (pystr * nat) :=
  match h i with Some o => match o_body o with BGroup ls => ls | _ => [] end | None => [] end.
Definition is_group (h : heap) (i : nat) : bool :=
  match h i with Some o => match o_body o with BGroup _ => true | _ => false end | None => false end.
Definition name_of (h : heap) (i : nat) : list pystr := match h i with Some o => o_name o | None => [] end.
Definition attrs_of (h : heap) (i : nat) : attrs := match h i with Some o => o_attrs o | None => no_attrs end.
Definition lookup (h : heap) (i : nat) (k : pystr) : option nat := assoc k (links h i).
Fixpoint walk (h : heap) (i : nat) (cs : list pystr) : option nat :=
  match cs with
  | [] => Some i
  | k :: r => match lookup h i k with Some j => walk h j r | None => None end
  end.
(** reachable, so that a reference to it can be followed *)
Definition live (h : heap) (i : nat) : bool :=
  match walk h 0 (name_of h i) with Some j => i =? j | None => false end.

Definition upd (h : heap) (i : nat) (o : obj) : heap := fun j => if j =? i then Some o else h j.
Definition with_body (o : obj) (b : body) : obj := mkObj (o_name o) (o_attrs o) b.
Definition with_attrs (o : obj) (a : attrs) : obj := mkObj (o_name o) a (o_body o).
Definition set_hp (s : st) (h : heap) : st := mkSt h (nxt s) (rgrp s) (rcreated s) (canon s) (counter s) (rpos s).
Definition put_obj (i : nat) (o : obj) : M unit := fun s => (set_hp s (upd (hp s) i o), Ok tt).
Definition set_links (i : nat) (ls : list (pystr * nat)) : M unit :=
  fun s => match hp s i with
           | Some o => (set_hp s (upd (hp s) i (with_body o (BGroup ls))), Ok tt)
           | None => (s, Err KeyError)
           end.
Definition set_attrs (i : nat) (a : attrs) : M unit :=
  fun s => match hp s i with
           | Some o => (set_hp s (upd (hp s) i (with_attrs o a)), Ok tt)
           | None => (s, Err KeyError)
           end.

(** ** names: paths relative to a Group, or absolute; "" is refused and so are NULs
    and characters that UTF-8 cannot encode *)
Definition name_err (s : pystr) : option exn :=
  if negb (forallb is_scalar s) then Some UnicodeEncodeError
  else if existsb (N.eqb 0) s then Some ValueError
  else match s with [] => Some ValueError | _ => None end.
Definition start_of (g : nat) (s : pystr) : nat := if isabs s then 0 else g.

(** grp.get(name) *)
Definition get_obj (g : nat) (name : pystr) : M (option nat) :=
  match name_err name with
  | Some e => fail e
  | None => gets (fun s => walk (hp s) (start_of g name) (path_comps name))
  end.

Definition alloc (g : nat) (k : pystr) (at_ : attrs) (b : body) : M nat :=
  fun s =>
    match hp s g with
    | Some o =>
        match o_body o with
        | BGroup ls =>
            let i := nxt s in
            let h := upd (upd (hp s) g (with_body o (BGroup (ins k i ls)))) i (mkObj (o_name o ++ [k]) at_ b) in
            (mkSt h (S i) (rgrp s) (rcreated s) (canon s) (counter s) (rpos s), Ok i)
        | _ => (s, Err ValueError)
        end
    | None => (s, Err ValueError)
    end.
(** a new link, and the Groups in between that do not exist; it must not exist *)
Fixpoint create_at (g : nat) (cs : list pystr) (at_ : attrs) (b : body) : M nat :=
  match cs with
  | [] => fail ValueError
  | [k] => fun s => match lookup (hp s) g k with Some _ => (s, Err ValueError) | None => alloc g k at_ b s end
  | k :: r => fun s =>
      match lookup (hp s) g k with
      | Some j => create_at j r at_ b s
      | None => (let* j := alloc g k no_attrs (BGroup []) in create_at j r at_ b) s
      end
  end.
Definition new_link (g : nat) (name : pystr) (at_ : attrs) (b : body) : M nat :=
  match name_err name with
  | Some e => fail e
  | None => create_at (start_of g name) (path_comps name) at_ b
  end.
Definition create_group (g : nat) (name : pystr) : M nat := new_link g name no_attrs (BGroup []).

(** del grp[name] *)
Fixpoint unlink_at (g : nat) (cs : list pystr) : M unit :=
  match cs with
  | [] => fail KeyError
  | [k] => fun s => match lookup (hp s) g k with
                    | Some _ => set_links g (del_key k (links (hp s) g)) s
                    | None => (s, Err KeyError)
                    end
  | k :: r => fun s => match lookup (hp s) g k with Some j => unlink_at j r s | None => (s, Err KeyError) end
  end.
Definition unlink (g : nat) (name : pystr) : M unit :=
  match name_err name with
  | Some e => fail e
  | None => unlink_at (start_of g name) (path_comps name)
  end.

(** f.require_group(name) *)
Definition require_group (name : pystr) : M nat :=
  let* o := get_obj 0 name in
  match o with
  | Some i => fun s => if is_group (hp s) i then (s, Ok i) else (s, Err TypeError)
  | None => create_group 0 name
  end.

(** obj.attrs.modify(k, v); del obj.attrs[k] *)
Definition modify_attr (i : nat) (k : pystr) (v : aval) : M unit :=
  fun s => set_attrs i (set_attr k v (attrs_of (hp s) i)) s.
Definition drop_attr (i : nat) (k : pystr) : M unit :=
  fun s => set_attrs i (del_attr k (attrs_of (hp s) i)) s.
(** utilities.set_attributes_all on an object *)
Definition sync_attrs (i : nat) (reqs : list (pystr * areq)) (discard : bool) : M unit :=
  fun s =>
    let '(a, e) := set_attributes_all (attrs_of (hp s) i) reqs discard in
    match set_attrs i a s with
    | (s1, Ok _) => match e with Some e => (s1, Err e) | None => (s1, Ok tt) end
    | p => p
    end.

(** obj.name *)
Definition name_text (cs : list pystr) : pystr :=
  match cs with [] => lit "/" | _ => flat_map (fun c => fslash :: c) cs end.

(** dtypes h5py can create a Dataset of; string types get at least one byte *)
Fixpoint h5_able (d : dt) : bool :=
  match d with
  | TUni _ | TObj => false
  | TStruct fs => negb (Nat.eqb (length fs) 0) && forallb (fun f => match f with (_, (e, _)) => h5_able e end) fs
  | _ => true
  end.
Definition stored_dt (d : dt) : dt := match d with TS 0 => TS 1 | d => d end.
Definition create_dataset (g : nat) (name : pystr) (a : arr nat) (f : filt) : M nat :=
  if h5_able (a_dt a) then new_link g name no_attrs (BData (mkArr (stored_dt (a_dt a)) (a_shape a) (a_data a)) f)
  else fail TypeError.

(** an empty file *)
Definition empty_file : st :=
  mkSt (fun i => if i =? 0 then Some (mkObj [] no_attrs (BGroup [])) else None) 1 None false None 11 0.
