(** The methods that File inherits from collections.abc.MutableMapping (__init__.py
    l.1519): CPython's Lib/_collections_abc.py, classes Mapping and MutableMapping, which
    are written in terms of the methods of FileApi.v.  [items] is OpenM.file_items. *)
From Verif Require Import Base PathEsc PosixPath ProcessPath Value OptionsM Hdf5 MarshalW MarshalR FileApi.
Local Open Scope nat_scope.

Section Map.
Variables (o : options) (rnd : nat -> N) (tries depth_ : nat) (keq : pyval -> pyval -> bool).

(** Mapping.get: [try: return self[key] except KeyError: return default] *)
Definition file_get (f : file) (p : pypath) (default : pyval) : file * res pyval :=
  let '(f', r) := file_read o depth_ keq f p in
  (f', match r with Err KeyError => Ok default | r => r end).

(** MutableMapping.pop: the read is tried, and deleting is outside of the try; [None]: no
    default was given *)
Definition file_pop (f : file) (p : pypath) (default : option pyval) : file * res pyval :=
  let '(f1, r) := file_read o depth_ keq f p in
  match r with
  | Err KeyError => (f1, match default with Some d => Ok d | None => Err KeyError end)
  | Err e => (f1, Err e)
  | Ok v => let '(f2, r2) := file_del f1 p in (f2, do _ <- r2; Ok v)
  end.

(** MutableMapping.popitem: the first name iterating gives; KeyError when there is none *)
Definition file_popitem (f : file) : file * res (pystr * pyval) :=
  let '(f1, r) := file_iter o f in
  match r with
  | Err e => (f1, Err e)
  | Ok [] => (f1, Err KeyError)
  | Ok (k :: _) =>
      let '(f2, r2) := file_read o depth_ keq f1 (PStr k) in
      match r2 with
      | Err e => (f2, Err e)
      | Ok v => let '(f3, r3) := file_del f2 (PStr k) in (f3, do _ <- r3; Ok (k, v))
      end
  end.

(** MutableMapping.clear: popitem until a KeyError is raised; at most [m] times *)
Fixpoint file_clear (m : nat) (f : file) : file * res unit :=
  match m with
  | O => (f, Err OutOfFuel)
  | S m' =>
      let '(f1, r) := file_popitem f in
      match r with
      | Ok _ => file_clear m' f1
      | Err KeyError => (f1, Ok tt)
      | Err e => (f1, Err e)
      end
  end.

(** MutableMapping.setdefault *)
Definition file_setdefault (f : file) (p : pypath) (d : pyval) : file * res pyval :=
  let '(f1, r) := file_read o depth_ keq f p in
  match r with
  | Err KeyError => let '(f2, r2) := file_write o rnd tries depth_ f1 d p in (f2, do _ <- r2; Ok d)
  | r => (f1, r)
  end.

(** MutableMapping.update: one item after the other *)
Fixpoint file_update (f : file) (items : list (pypath * pyval)) : file * res unit :=
  match items with
  | [] => (f, Ok tt)
  | (p, v) :: r =>
      let '(f1, x) := file_write o rnd tries depth_ f v p in
      match x with Ok _ => file_update f1 r | Err e => (f1, Err e) end
  end.
End Map.
