(** Executable model of the parts of CPython's posixpath (Lib/posixpath.py)
    that pathesc.py and __init__.py use, on str paths. *)
From Verif Require Import Base PathEsc.

(** s.split("/") *)
Fixpoint split_slash (s : pystr) : list pystr :=
  match s with
  | [] => [[]]
  | c :: r => if c =? fslash then [] :: split_slash r
              else match split_slash r with
                   | w :: ws => (c :: w) :: ws
                   | [] => [[c]]
                   end
  end.

(** "/".join(cs) *)
Fixpoint join_slash (cs : list pystr) : pystr :=
  match cs with
  | [] => []
  | [w] => w
  | w :: ws => w ++ fslash :: join_slash ws
  end.

Definition starts_slash (s : pystr) : bool :=
  match s with c :: _ => c =? fslash | [] => false end.
Definition ends_slash (s : pystr) : bool := starts_slash (rev s).

(** posixpath.isabs *)
Definition isabs (s : pystr) : bool := starts_slash s.

(** posixpath.join(a, *p) *)
Definition join_step (path b : pystr) : pystr :=
  if starts_slash b then b
  else if match path with [] => true | _ => false end || ends_slash path then path ++ b
  else path ++ fslash :: b.
Definition posix_join (a : pystr) (p : list pystr) : pystr := fold_left join_step p a.
(** posixpath.join( *parts ): the first argument is required *)
Definition posix_join_star (parts : list pystr) : res pystr :=
  match parts with
  | [] => Err TypeError
  | a :: p => Ok (posix_join a p)
  end.

Definition s_dot : pystr := [dot].
Definition s_dotdot : pystr := [dot; dot].

(** posixpath.normpath: the component loop; [acc] is new_comps reversed *)
Fixpoint norm_comps (initial : bool) (acc : list pystr) (comps : list pystr) : list pystr :=
  match comps with
  | [] => rev acc
  | c :: r =>
      if eqb_str c [] || eqb_str c s_dot then norm_comps initial acc r
      else if negb (eqb_str c s_dotdot)
              || (negb initial && match acc with [] => true | _ => false end)
              || match acc with a :: _ => eqb_str a s_dotdot | [] => false end
           then norm_comps initial (c :: acc) r
      else match acc with
           | _ :: acc' => norm_comps initial acc' r
           | [] => norm_comps initial [] r
           end
  end.

Definition initial_slashes (s : pystr) : nat :=
  match s with
  | a :: r =>
      if a =? fslash then
        match r with
        | b :: r' => if b =? fslash
                     then match r' with
                          | c :: _ => if c =? fslash then 1%nat else 2%nat
                          | [] => 2%nat
                          end
                     else 1%nat
        | [] => 1%nat
        end
      else 0%nat
  | [] => 0%nat
  end.

Definition normpath (s : pystr) : pystr :=
  match s with
  | [] => s_dot
  | _ =>
      let k := initial_slashes s in
      let cs := norm_comps (negb (Nat.eqb k 0)) [] (split_slash s) in
      let p := repeat fslash k ++ join_slash cs in
      match p with [] => s_dot | _ => p end
  end.

(** index of the last "/" plus one, as a split: (p[:i], p[i:]) *)
Fixpoint split_last_slash (s : pystr) : pystr * pystr :=
  match s with
  | [] => ([], [])
  | c :: r =>
      let '(h, t) := split_last_slash r in
      match h with
      | [] => if c =? fslash then ([c], t) else ([], c :: t)
      | _ => (c :: h, t)
      end
  end.

Fixpoint drop_slashes (s : pystr) : pystr :=
  match s with c :: r => if c =? fslash then drop_slashes r else s | [] => [] end.
Definition rstrip_slashes (s : pystr) : pystr := rev (drop_slashes (rev s)).

(** posixpath.dirname / basename / split *)
Definition dirname (s : pystr) : pystr :=
  let head := fst (split_last_slash s) in
  if forallb (N.eqb fslash) head then head else rstrip_slashes head.
Definition basename (s : pystr) : pystr := snd (split_last_slash s).
Definition posix_split (s : pystr) : pystr * pystr := (dirname s, basename s).

(** posixpath.commonpath((a, b)) *)
Definition path_comps (s : pystr) : list pystr :=
  filter (fun c => negb (eqb_str c [] || eqb_str c s_dot)) (split_slash s).
Fixpoint common_prefix (a b : list pystr) : list pystr :=
  match a, b with
  | x :: a', y :: b' => if eqb_str x y then x :: common_prefix a' b' else []
  | _, _ => []
  end.
Definition commonpath2 (a b : pystr) : res pystr :=
  if Bool.eqb (isabs a) (isabs b)
  then Ok ((if isabs a then [fslash] else []) ++ join_slash (common_prefix (path_comps a) (path_comps b)))
  else Err ValueError.   (* Can't mix absolute and relative paths *)
