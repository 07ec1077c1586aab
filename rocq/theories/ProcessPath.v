(** Model of pathesc.py l.238-336 process_path. *)
From Verif Require Import Base Unicode PathEsc PosixPath.

(** The forms of a path.  A [pathlib.PurePath] is represented by what the code
    uses of it: [.root], [.parts] and [str(.)]. *)
Record purepath := { pp_root : pystr; pp_parts : list pystr; pp_str : pystr }.

Inductive pathelem :=
| EStr (s : pystr) | EBytes (b : list N) | EPure (p : purepath) | EOther.

Inductive pypath :=
| PStr (s : pystr) | PBytes (b : list N) | PPure (p : purepath)
| PSeq (l : list pathelem) | POther.

(** pathesc.py l.296-309: one element of a separated path *)
Definition elem_str (e : pathelem) : res pystr :=
  match e with
  | EStr s => Ok s
  | EBytes b => bytes_decode_utf8 b
  | EPure p => Ok (pp_str p)
  | EOther => Err TypeError
  end.

(** pathesc.py l.282-315 *)
Definition path_string (p : pypath) : res pystr :=
  match p with
  | PStr s => Ok s
  | PBytes b => bytes_decode_utf8 b
  | PPure pp =>
      if eqb_str (pp_root pp) [] || eqb_str (pp_root pp) [fslash]
      then posix_join_star (pp_parts pp)
      else posix_join_star (tl (pp_parts pp))
  | PSeq l =>
      do parts <- mapr (fun e => do v <- elem_str e; escape_path v) l;
      posix_join_star parts
  | POther => Err TypeError
  end.

(** pathesc.py l.317-336 *)
Definition split_path (p : pystr) : pystr * pystr :=
  let path := normpath p in
  let g := dirname path in
  let t := basename path in
  (match g with [] => [fslash] | _ => g end, match t with [] => s_dot | _ => t end).

Definition process_path (p : pypath) : res (pystr * pystr) :=
  do s <- path_string p; Ok (split_path s).

(** CPython's PurePosixPath(s): the root is "//" for exactly two leading
    slashes, "/" for one or more than two; empty and "." components vanish. *)
Definition pure_posix (s : pystr) : purepath :=
  let root := repeat fslash (initial_slashes s) in
  let cs := path_comps s in
  {| pp_root := root;
     pp_parts := match root with [] => cs | _ => root :: cs end;
     pp_str := match root ++ join_slash cs with [] => s_dot | p => p end |}.
