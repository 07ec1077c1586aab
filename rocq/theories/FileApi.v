(** The class File (__init__.py l.1519-2237): an open file with its options. *)
From Verif Require Import Base PathEsc PosixPath ProcessPath Unicode Dec NdArray Value OptionsM Attrs Hdf5 NpWrite MarshalW MarshalR.
Local Open Scope nat_scope.

(** l.1894-1913 and l.2000-2019: the Group and the name of a path; a ValueError when it
    meets the references group *)
Definition check_path (o : options) (p : pypath) : res (pystr * pystr) :=
  do gt <- process_path p;
  let prefix := if isabs (fst gt) then [] else [fslash] in
  do c <- commonpath2 (o_refs o) (posix_join prefix [fst gt; snd gt]);
  if eqb_str c [fslash] then Ok gt else Err ValueError.

(** [fl_open]: self._file is not None.  self._writable is True for every File (l.1666),
    so it is left out.  A file opened with mode "r" is not told from one opened for
    writing here: h5py would refuse changes to it. *)
Record file := mkFile { fl_open : bool; fl_st : st }.

Section File.
Variables (o : options) (rnd : nat -> N) (tries depth_ : nat) (keq : pyval -> pyval -> bool).

(** l.1921-1927, one value *)
Definition write_at (g t : pystr) (v : pyval) : M unit :=
  let* i := require_group g in
  let* _ := write o rnd tries depth_ i t v in ret tt.

(** l.1844-1927, the items of mdict in order *)
Definition file_writes (f : file) (mdict : list (pypath * pyval)) : file * res unit :=
  match mapr (fun pv => do gt <- check_path o (fst pv); Ok (gt, snd pv)) mdict with
  | Err e => (f, Err e)
  | Ok l =>
      if fl_open f then
        let '(s, r) := iterM (fun x => write_at (fst (fst x)) (snd (fst x)) (snd x)) l (fl_st f) in
        (mkFile true s, r)
      else (f, Err OSError)
  end.
(** l.1808-1842 and l.2168-2202 *)
Definition file_write (f : file) (v : pyval) (p : pypath) : file * res unit := file_writes f [(p, v)].

(** l.2027-2035 *)
Definition read_at (g t : pystr) (s : st) : res pyval :=
  do og <- snd (get_obj 0 g s);
  match og with
  | Some i =>
      if is_group (hp s) i then
        do oi <- snd (get_obj i t s);
        match oi with
        | Some j => read o keq (hp s) depth_ j
        | None => Err KeyError
        end
      else Err KeyError
  | None => Err KeyError
  end.
(** l.1964-2037.  Nothing that reading does (f.get, attribute and Dataset reads,
    following references) changes the file. *)
Definition file_reads (f : file) (paths : list pypath) : file * res (list pyval) :=
  (f, do l <- mapr (check_path o) paths;
      if fl_open f then mapr (fun gt => read_at (fst gt) (snd gt) (fl_st f)) l else Err OSError).
(** l.1929-1962 and l.2135-2166 *)
Definition file_read (f : file) (p : pypath) : file * res pyval :=
  (f, do l <- snd (file_reads f [p]); match l with [v] => Ok v | _ => Err IndexError end).

(** [name in f]: like f.get, the error of a bad name aside *)
Definition h5_in (s : st) (name : pystr) : res bool :=
  do r <- snd (get_obj 0 name s); Ok (match r with Some _ => true | None => false end).

(** l.2039-2068 *)
Definition file_len (f : file) : file * res nat :=
  (f, if fl_open f then
        let n := length (links (hp (fl_st f)) 0) in
        if negb (n =? 0) && eqb_str (dirname (o_refs o)) [fslash] then
          do b <- h5_in (fl_st f) (o_refs o); Ok (if b then n - 1 else n)
        else Ok n
      else Err OSError).

(** l.2070-2095 *)
Definition file_contains (f : file) (p : pypath) : file * res bool :=
  (f, match process_path p with
      | Err TypeError => Ok false
      | Err e => Err e
      | Ok (g, t) => if fl_open f then h5_in (fl_st f) (posix_join g [t]) else Err OSError
      end).

(** l.2097-2133: the names; the iterator is not taken apart from the list of the names
    it gives *)
Fixpoint dropwhile {A} (p : A -> bool) (l : list A) : list A :=
  match l with [] => [] | x :: r => if p x then dropwhile p r else l end.
Definition file_iter (f : file) : file * res (list pystr) :=
  (f, if fl_open f then
        let names := map fst (links (hp (fl_st f)) 0) in
        Ok (if eqb_str (dirname (o_refs o)) [fslash] then dropwhile (eqb_str (tl (o_refs o))) names else names)
      else Err OSError).

(** l.2204-2237 *)
Definition file_del (f : file) (p : pypath) : file * res unit :=
  match process_path p with
  | Err e => (f, Err e)
  | Ok (g, t) =>
      if fl_open f then let '(s, r) := unlink 0 (posix_join g [t]) (fl_st f) in (mkFile true s, r)
      else (f, Err OSError)
  end.

(** l.1786-1791 *)
Definition file_close (f : file) : file * res unit := (mkFile false (fl_st f), Ok tt).
(** l.1793-1806; what is in memory and what is on disk are not told apart *)
Definition file_flush (f : file) : file * res unit := (f, if fl_open f then Ok tt else Err OSError).
End File.

(** a new LowLevelFile for the same contents (l.1758-1761, utilities.py l.187-200) *)
Definition new_session (s : st) : st := mkSt (hp s) (nxt s) None false None 11 (rpos s).
