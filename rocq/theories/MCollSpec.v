(** Specification of a marshaller collection: an ordered set of user
    marshallers, three lists, and one rule for lookups. *)
From Verif Require Import Base MColl.

(** what the library documents: available means all the parent modules are
    there and all the required modules are loaded or can be imported *)
Definition available (info : mid -> minfo) (env : pyenv) (sys0 : list pystr) (m : mid) : Prop :=
  (forall n, In n (i_parents (info m)) -> In n sys0 \/ findable env n = true) /\
  (forall n, In n (i_modules (info m)) -> In n sys0 \/ importable env n = true).

(** the import machinery is coherent: importing never makes available
    something that was not *)
Definition coherent (env : pyenv) (sys0 : list pystr) : Prop :=
  (forall n, importable env n = true -> findable env n = true) /\
  (forall n k, In k (brings env n) \/ In k (kept env n) ->
      In k sys0 \/ importable env k = true).

(** the order of the marshallers given the priority *)
Definition ordered (prio : list pystr) (b p u : list mid) : list mid :=
  flat_map (fun v => if eqb_str v (lit "builtin") then b else if eqb_str v (lit "plugin") then p else u) prio.

(** [m] is the first of [l] that declares [k]; [None]: nobody does *)
Inductive first_declaring (keys : mid -> list pystr) (k : pystr) : list mid -> option mid -> Prop :=
| fd_none : first_declaring keys k [] None
| fd_here m l : In k (keys m) -> first_declaring keys k (m :: l) (Some m)
| fd_later m l r : ~ In k (keys m) -> first_declaring keys k l r -> first_declaring keys k (m :: l) r.

(** the user marshallers as an ordered set *)
Fixpoint spec_add (u : list mid) (l : list (option mid)) : list mid :=
  match l with
  | Some m :: r => spec_add (if mem_mid m u then u else u ++ [m]) r
  | _ => u
  end.
Definition spec_remove (u : list mid) (l : list (option mid)) : list mid :=
  filter (fun m => negb (existsb (fun x => match x with Some k => N.eqb k m | None => false end) l)) u.

(** abstract state: the user list, and the one in force for lookups (a
    rejected add_marshaller call does not refresh the lookups) *)
Record spec_state := { s_user : list mid; s_visible : list mid }.
Definition spec_step (s : spec_state) (op : cop) : spec_state :=
  match op with
  | OpAdd l =>
      let u := spec_add (s_user s) l in
      if existsb (fun x => match x with None => true | _ => false end) l
      then {| s_user := u; s_visible := s_visible s |} else {| s_user := u; s_visible := u |}
  | OpRemove l => let u := spec_remove (s_user s) l in {| s_user := u; s_visible := u |}
  | OpClear => {| s_user := []; s_visible := [] |}
  | _ => s
  end.
Definition spec_run (s : spec_state) (ops : list cop) : spec_state := fold_left spec_step ops s.

(** the answer of a lookup among the marshallers [l] *)
Definition answer (info : mid -> minfo) (env : pyenv) (sys0 : list pystr) (keys : mid -> list pystr) (k : pystr)
    (l : list mid) (o : cout) : Prop :=
  exists m has, o = OutGet m has /\ first_declaring keys k l m /\
    (has = true <-> exists x, m = Some x /\ available info env sys0 x).
Definition spec_out (info : mid -> minfo) (env : pyenv) (sys0 : list pystr) (prio : list pystr) (b p : list mid)
    (s : spec_state) (op : cop) (o : cout) : Prop :=
  let l := ordered prio b p (s_visible s) in
  match op with
  | OpAdd l => if existsb (fun x => match x with None => true | _ => false end) l
               then o = OutErr TypeError else o = OutUnit
  | OpRemove _ | OpClear => o = OutUnit
  | OpType t => answer info env sys0 (fun m => map ty_key (i_types (info m))) (ty_key t) l o
  | OpString k => answer info env sys0 (fun m => i_strings (info m)) k l o
  | OpClass k => answer info env sys0 (fun m => i_classes (info m)) k l o
  end.
