(** What the properties of the methods File inherits from MutableMapping speak about
    (C47-C50). *)
From Verif Require Import Base PathEsc PosixPath ProcessPath Value OptionsM Hdf5 HeapFacts MarshalW MarshalR FileApi ApiSpec.
Local Open Scope nat_scope.

(** the open file [f'] is [f] without what the links [cs] lead to: [in] tells the same of
    any path that does not lead there, and the same is read from paths that do not overlap *)
Record without (refs : pystr) (cs : list pystr) (f f' : file) : Prop := {
  u_open : fl_open f' = true;
  u_contains : forall q qs, valid_path q -> denotes q qs ->
    (snd (file_contains f' q) = Ok true <-> snd (file_contains f q) = Ok true /\ ~ pre cs qs);
  u_reads : forall ro m keq q qs, o_refs ro = refs -> valid_path q -> denotes q qs -> ~ overlap cs qs ->
    snd (file_read ro m keq f' q) = snd (file_read ro m keq f q) }.
(** a name in the root of the file, other than the references group "/k" *)
Definition name_in (k : pystr) (f : file) (name : pystr) : Prop :=
  name <> k /\ plain_link name /\ snd (file_contains f (PStr name)) = Ok true.
