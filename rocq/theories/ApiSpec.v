(** What the properties of File speak about. *)
From Verif Require Import Base PathEsc PosixPath ProcessPath Value OptionsM NdArray Attrs Hdf5 HeapFacts FileApi CutM.
Local Open Scope nat_scope.

(** the link names from the root to the object a path denotes: h5py takes a path apart
    at '/', and skips '' and '.' *)
Definition denotes (p : pypath) (cs : list pystr) : Prop :=
  exists g t, process_path p = Ok (g, t) /\ cs = path_comps (posix_join g [t]).
(** one is inside the other, or they are the same ([pre]: is a prefix) *)
Definition overlap (a b : list pystr) : Prop := pre a b \/ pre b a.
(** the links to the references group *)
Definition refs_path (o : options) : list pystr := path_comps (o_refs o).

(** a plain link name: not '' nor '.', and without '/' *)
Definition plain_link (s : pystr) : Prop := s <> [] /\ s <> [dot] /\ ~ In fslash s.
(** options fit for a file whose references group is [refs]; the names for the keys and
    the values of dicts are link names *)
Definition good_refs (refs : pystr) : Prop := isabs refs = true /\ path_comps refs <> [].
Definition usable (refs : pystr) (o : options) : Prop :=
  o_refs o = refs /\ plain_link (o_keys_name o) /\ plain_link (o_values_name o).

(** a file made by another program in the way MATLAB makes them: each object has one path,
    under which it is found; what references lead to is in the references group, where 'a',
    if it is there, is the canonical empty *)
Definition canonical_empty (ob : obj) : Prop := exists w f, o_body ob = BData (mkArr (TU w) [2] [XInt 0; XInt 0]) f /\
  o_attrs ob (lit "MATLAB_class") = Some (AStr (lit "canonical empty")) /\ o_attrs ob (lit "MATLAB_empty") = Some (AU8 1).
Record from_elsewhere (refs : pystr) (s : st) : Prop := {
  e_root : exists ob ls, hp s 0 = Some ob /\ o_name ob = [] /\ o_body ob = BGroup ls;
  e_finite : forall i ob, hp s i = Some ob -> i < nxt s;
  e_links : forall i ob ls k j, hp s i = Some ob -> o_body ob = BGroup ls -> In (k, j) ls ->
    plain_link k /\ name_err k = None /\ exists oj, hp s j = Some oj /\ o_name oj = o_name ob ++ [k];
  e_keys : forall i ob ls, hp s i = Some ob -> o_body ob = BGroup ls -> NoDup (map fst ls);
  e_refs : forall g, walk (hp s) 0 (path_comps refs) = Some g -> exists ob ls, hp s g = Some ob /\ o_body ob = BGroup ls /\
    forall c, In (lit "a", c) ls -> exists oc, hp s c = Some oc /\ canonical_empty oc;
  e_ptrs : forall i ob a f j, hp s i = Some ob -> o_body ob = BData a f -> In (XPtr j) (a_data a) ->
    exists oj k, hp s j = Some oj /\ o_name oj = path_comps refs ++ [k] }.

(** the files that can come about through the API with one references group: a new one, or
    one from elsewhere, and then any number of sessions in which values are written,
    successfully or not, and paths are deleted, but not "/" and (with del) not the
    references group; a call of write(s) may also be cut short, after which the session may
    go on (an interrupt that is caught) or end, but not between the making of the canonical
    empty and that of its attributes *)
Definition mark_done (refs : pystr) (s : st) : Prop := forall c, walk (hp s) 0 (path_comps refs ++ [lit "a"]) = Some c ->
  exists oc, hp s c = Some oc /\ canonical_empty oc.
Inductive reachable (refs : pystr) : st -> Prop :=
| R_new : reachable refs empty_file
| R_other s : from_elsewhere refs s -> reachable refs (new_session s)
| R_reopen s : reachable refs s -> reachable refs (new_session s)
| R_write s o rnd tries n mdict f r :
    reachable refs s -> usable refs o -> (forall p v, In (p, v) mdict -> ~ denotes p []) ->
    file_writes o rnd tries n (mkFile true s) mdict = (f, r) -> reachable refs (fl_st f)
| R_cut s o rnd tries n mdict s' :
    reachable refs s -> usable refs o -> (forall p v, In (p, v) mdict -> ~ denotes p []) ->
    cut_states o rnd tries n (mkFile true s) mdict s' -> mark_done refs s' -> reachable refs s'
| R_del s p f r :
    reachable refs s -> (forall cs, denotes p cs -> ~ overlap cs (path_comps refs)) ->
    file_del (mkFile true s) p = (f, r) -> reachable refs (fl_st f).

(** Options() *)
Definition default_options : options := match init default_args with Ok o => o | Err _ => raw_defaults end.
(** o = Options(); o.matlab_compatible = False, for a file that is not for MATLAB: the
    other options stay as they are *)
Definition python_options : options := upd_matlab default_options false.
(** Options(matlab_compatible=False) *)
Definition bare_options : options := match init (fun n => match n with MatlabCompatible => OVBool false | n => default_args n end) with Ok o => o | Err _ => raw_defaults end.
(** for examples: == of the keys that occur in them *)
Definition key_eq (a b : pyval) : bool :=
  match a, b with
  | VStr s, VStr t => eqb_str s t
  | VBytes s, VBytes t => eqb_str s t
  | VInt x, VInt y => Z.eqb x y
  | VNone, VNone => true
  | _, _ => false
  end.

(** the calls of a File *)
Inductive call :=
| KWrites (mdict : list (pypath * pyval)) | KReads (paths : list pypath) | KLen | KContains (p : pypath) | KIter | KDel (p : pypath)
| KClose | KFlush.
Inductive answer := AUnit | AVals (l : list pyval) | ANat (n : nat) | ABool (b : bool) | ANames (l : list pystr).
Definition map_res {A B} (f : A -> B) (x : file * res A) : file * res B :=
  (fst x, match snd x with Ok a => Ok (f a) | Err e => Err e end).
Definition do_call (o : options) (rnd : nat -> N) (tries n : nat) (keq : pyval -> pyval -> bool) (c : call) (f : file) : file * res answer :=
  match c with
  | KWrites m => map_res (fun _ => AUnit) (file_writes o rnd tries n f m)
  | KReads ps => map_res AVals (file_reads o n keq f ps)
  | KLen => map_res ANat (file_len o f)
  | KContains p => map_res ABool (file_contains f p)
  | KIter => map_res ANames (file_iter o f)
  | KDel p => map_res (fun _ => AUnit) (file_del f p)
  | KClose => map_res (fun _ => AUnit) (file_close f)
  | KFlush => map_res (fun _ => AUnit) (file_flush f)
  end.
Fixpoint do_calls o rnd tries n keq (cs : list call) (f : file) : file * list (res answer) :=
  match cs with
  | [] => (f, [])
  | c :: r => let '(f1, a) := do_call o rnd tries n keq c f in
              let '(f2, l) := do_calls o rnd tries n keq r f1 in (f2, a :: l)
  end.

(** the same first link name *)
Definition same_top (a b : list pystr) : Prop := exists x a' b', a = x :: a' /\ b = x :: b'.
(** Options() with one option set *)
Definition with_option (o : options) (n : optname) (v : optval) : options := assign o (n, v).
(** names that h5py takes: no NULs nor surrogates *)
Definition valid_path (p : pypath) : Prop := forall cs, denotes p cs -> Forall (fun c => name_err c = None) cs.

(** what a closed file answers *)
Definition closed_answer (o : options) (c : call) (a : res answer) : Prop :=
  match c with
  | KClose => a = Ok AUnit
  | KLen | KIter | KFlush => a = Err OSError
  | KContains p => match process_path p with
                   | Err TypeError => a = Ok (ABool false)   (* not a path *)
                   | Err e => a = Err e
                   | Ok _ => a = Err OSError
                   end
  | KDel p => match process_path p with Err e => a = Err e | Ok _ => a = Err OSError end
  | KWrites m => (exists e, a = Err e) /\
      ((forall p v, In (p, v) m -> exists cs, denotes p cs /\ ~ same_top cs (refs_path o)) -> a = Err OSError)
  | KReads ps => (exists e, a = Err e) /\
      ((forall p, In p ps -> exists cs, denotes p cs /\ ~ same_top cs (refs_path o)) -> a = Err OSError)
  end.
