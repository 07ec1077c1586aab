(** What the properties of references speak about. *)
From Verif Require Import Base PathEsc PosixPath ProcessPath Value OptionsM NdArray Attrs Hdf5 HeapFacts FileApi ApiSpec RndFacts.
Local Open Scope nat_scope.

(** some Dataset in the file, whether it is still linked or not, has a reference to [j] *)
Definition referred (h : heap) (j : nat) : Prop :=
  exists i ob a f, h i = Some ob /\ o_body ob = BData a f /\ In (XPtr j) (a_data a).

(** going on from [i] to the members of Groups and along the references of Datasets comes
    to an end on every way, and every reference met leads to an object that is in the file
    under its own path *)
Inductive ends (h : heap) : nat -> Prop :=
| E_data i ob a f : h i = Some ob -> o_body ob = BData a f ->
    (forall j, In (XPtr j) (a_data a) -> live h j = true) -> (forall j, In (XPtr j) (a_data a) -> ends h j) -> ends h i
| E_group i ob ls : h i = Some ob -> o_body ob = BGroup ls -> (forall k j, In (k, j) ls -> ends h j) -> ends h i.

(** a member of a Group, or what a Dataset has a reference to *)
Definition leads_to (h : heap) (i j : nat) : Prop := exists ob, h i = Some ob /\
  ((exists a f, o_body ob = BData a f /\ In (XPtr j) (a_data a)) \/ exists ls k, o_body ob = BGroup ls /\ In (k, j) ls).
(** one step or more *)
Inductive way (h : heap) : nat -> nat -> Prop :=
| W_step i j : leads_to h i j -> way h i j
| W_more i j k : leads_to h i j -> way h j k -> way h i k.

(** references are in order *)
Definition orderly (h : heap) : Prop := forall j, referred h j -> live h j = true /\ ends h j.

(** the files that can come about through the API with one references group: as [reachable],
    but the file it started with is in order, and no random number comes twice within a call *)
Inductive grown (refs : pystr) : st -> Prop :=
| G_new : grown refs empty_file
| G_other s : from_elsewhere refs s -> orderly (hp s) -> grown refs (new_session s)
| G_reopen s : grown refs s -> grown refs (new_session s)
| G_write s o rnd tries n mdict f r :
    grown refs s -> usable refs o -> (forall p v, In (p, v) mdict -> ~ denotes p []) ->
    file_writes o rnd tries n (mkFile true s) mdict = (f, r) -> no_repeat rnd (rpos s) (rpos (fl_st f)) -> grown refs (fl_st f)
| G_del s p f r :
    grown refs s -> (forall cs, denotes p cs -> ~ overlap cs (path_comps refs)) ->
    file_del (mkFile true s) p = (f, r) -> grown refs (fl_st f).

(** what MATLAB wants a reference to nothing to lead to *)
Definition reads_as (a : option aval) (t : pystr) : Prop := a = Some (AStr t) \/ a = Some (AText t).
Definition empty_mark (ob : obj) : Prop :=
  (exists a f w, o_body ob = BData a f /\ a_dt a = TU w /\ a_shape a = [2] /\ forall e, In e (a_data a) -> e = XInt 0) /\
  reads_as (o_attrs ob (lit "MATLAB_class")) (lit "canonical empty") /\
  (o_attrs ob (lit "MATLAB_empty") = Some (AU8 1) \/ o_attrs ob (lit "MATLAB_empty") = Some (AI64 1)).
