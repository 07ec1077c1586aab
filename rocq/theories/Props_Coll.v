(** Properties C11-C13: the marshaller collection. *)
From Coq Require Import Permutation.
From Verif Require Import Base MColl MCollSpec MCollFacts.

(** C11: construction accepts exactly the permutations of the three names. *)
Theorem C11_priority : forall info env sys0 builtin plugin lazy prio ms,
  coherent env sys0 ->
  (exists st, create info env sys0 builtin plugin lazy prio (map Some ms) = Ok st) <->
  Permutation prio [lit "builtin"; lit "plugin"; lit "user"].
Proof. exact create_priority. Qed.
Print Assumptions C11_priority.

(** C11, C12, C13: after any history of registrations and lookups on a
    collection, every operation answers as the specification says: lookups give
    the first marshaller in priority order that declares the key and whether it
    is available, whatever was looked up before. *)
Theorem C11_lookup : forall info env sys0 builtin plugin lazy prio ms st ops st' os op,
  coherent env sys0 ->
  create info env sys0 builtin plugin lazy prio ms = Ok st ->
  run info env st ops = (fst st', snd st', os) ->
  spec_out info env sys0 prio builtin plugin
    (spec_run {| s_user := spec_add [] ms; s_visible := spec_add [] ms |} ops) op
    (snd (step info env st' op)).
Proof. exact collection_step. Qed.
Print Assumptions C11_lookup.

(** C12: lazy loading and earlier lookups cannot be observed. *)
Theorem C12_lazy_unobservable :
  forall info env sys0 builtin plugin prio ms lazy1 lazy2 st1 st2 ops1 ops2 st1' st2' os1 os2 op,
  coherent env sys0 ->
  create info env sys0 builtin plugin lazy1 prio ms = Ok st1 ->
  create info env sys0 builtin plugin lazy2 prio ms = Ok st2 ->
  run info env st1 ops1 = (fst st1', snd st1', os1) ->
  run info env st2 ops2 = (fst st2', snd st2', os2) ->
  (forall s, s_visible (spec_run s ops1) = s_visible (spec_run s ops2)) ->
  snd (step info env st1' op) = snd (step info env st2' op).
Proof. exact lazy_irrelevant. Qed.
Print Assumptions C12_lazy_unobservable.

(** lookups do not count as a change of the registration *)
Theorem C12_lookups_change_nothing : forall l,
  (forall op, In op l -> match op with OpType _ | OpString _ | OpClass _ => True | _ => False end) ->
  forall s, spec_run s l = s.
Proof. exact spec_run_lookups. Qed.
Print Assumptions C12_lookups_change_nothing.

(** C13: the outputs of a whole history follow the ordered-set specification;
    builtin and plugin marshallers and the priority never change. *)
Theorem C13_history : forall info env sys0 builtin plugin lazy prio ms st ops st' os,
  coherent env sys0 ->
  create info env sys0 builtin plugin lazy prio ms = Ok st ->
  run info env st ops = (fst st', snd st', os) ->
  let s0 := {| s_user := spec_add [] ms; s_visible := spec_add [] ms |} in
  spec_outs info env sys0 prio builtin plugin s0 ops os /\
  c_user (snd st') = s_user (spec_run s0 ops) /\ NoDup (c_user (snd st')) /\
  c_builtin (snd st') = builtin /\ c_plugin (snd st') = plugin /\ c_priority (snd st') = prio.
Proof.
  intros info env sys0 builtin plugin lazy prio ms st ops st' os Hc H1 H2 s0.
  destruct (collection_history _ _ _ _ _ _ _ _ _ _ _ _ Hc H1 H2) as (P & HR & Ho).
  destruct st' as [s' c']. destruct HR as (_ & Hp & Hb & Hpl & Hu & Hnd & _).
  exact (conj Ho (conj Hu (conj (eq_ind_r (@NoDup mid) Hnd Hu) (conj Hb (conj Hpl Hp))))).
Qed.
Print Assumptions C13_history.

(** A concrete world: the user marshaller 7 and the builtin one 1 both declare
    "dict"; 7 needs a module that cannot be imported. *)
Definition ex_info (m : mid) : minfo :=
  if N.eqb m 7 then {| i_parents := [lit "scipy"]; i_modules := [lit "scipy"; lit "scipy.sparse"];
                       i_types := [TyObj (lit "builtins") (lit "dict")]; i_strings := [lit "x"]; i_classes := [] |}
  else {| i_parents := []; i_modules := []; i_types := [TyName (lit "builtins.dict")];
          i_strings := [lit "dict"]; i_classes := [lit "struct"] |}.
Definition ex_env : pyenv :=
  {| findable := fun n => eqb_str n (lit "scipy"); importable := fun n => eqb_str n (lit "scipy");
     brings := fun _ => []; kept := fun _ => [] |}.
Example ex_coherent : coherent ex_env [].
Proof. split; [intros n H; exact H|]. cbn. tauto. Qed.
Example ex_run :
  match create ex_info ex_env [] [1%N] [] true [lit "user"; lit "builtin"; lit "plugin"] [Some 7%N] with
  | Ok st => snd (run ex_info ex_env st
      [OpType (TyName (lit "builtins.dict")); OpRemove [Some 7%N]; OpType (TyObj (lit "builtins") (lit "dict"));
       OpClass (lit "struct"); OpClass (lit "cell"); OpAdd [Some 7%N; None]; OpString (lit "x"); OpAdd [];
       OpString (lit "x")])
  | Err _ => [] end
  = [OutGet (Some 7%N) false; OutUnit; OutGet (Some 1%N) true; OutGet (Some 1%N) true; OutGet None false;
     OutErr TypeError; OutGet None false; OutUnit; OutGet (Some 7%N) false].
Proof. vm_compute. reflexivity. Qed.

(** C13, finding: an add_marshaller call that raises TypeError is not atomic:
    the marshallers before the bad one are registered (and come into force at
    the next registration call). *)
Theorem C13_rejected_add_atomic_refuted : exists info env sys0 st st1 st2,
  coherent env sys0 /\
  create info env sys0 [] [] true [lit "user"; lit "builtin"; lit "plugin"] [] = Ok st /\
  step info env st (OpAdd [Some 7%N; None]) = (fst st1, snd st1, OutErr TypeError) /\
  step info env st1 (OpAdd []) = (fst st2, snd st2, OutUnit) /\
  snd (step info env st (OpString (lit "x"))) = OutGet None false /\
  snd (step info env st2 (OpString (lit "x"))) = OutGet (Some 7%N) false.
Proof.
  exists ex_info, ex_env, [].
  destruct (create ex_info ex_env [] [] [] true [lit "user"; lit "builtin"; lit "plugin"] []) as [st|] eqn:E;
    vm_compute in E; [|discriminate].
  assert (E' : st = snd (true, st)) by reflexivity. inversion E as [E0]. clear E'.
  eexists (_, _), (_, _), (_, _). split; [exact ex_coherent|]. vm_compute. repeat split.
Qed.
Print Assumptions C13_rejected_add_atomic_refuted.
