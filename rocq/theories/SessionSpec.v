(** Specification of plugins, of the default collection and of what Options
    and File objects share. *)
From Coq Require Import Permutation.
From Verif Require Import Base OptionsM MColl MCollSpec Session.

(** ** Plugins *)

(** the entry points of the one Marshaller API version there is *)
Definition supported (e : entry) : Prop := e_name e = lit "1.0".

(** [e] is the entry point that counts for [modname]: the last one *)
Definition speaks (eps : list entry) (modname : pystr) (e : entry) : Prop :=
  exists before after, eps = before ++ e :: after /\ supported e /\ e_module e = modname /\
    forall x, In x after -> supported x -> e_module x <> modname.

(** the modules with entry points, in the order in which they turn up *)
Inductive modules : list entry -> list pystr -> Prop :=
| mo_nil : modules [] []
| mo_new eps mods e : modules eps mods -> supported e -> ~ In (e_module e) mods ->
    modules (eps ++ [e]) (mods ++ [e_module e])
| mo_again eps mods e : modules eps mods -> supported e -> In (e_module e) mods -> modules (eps ++ [e]) mods
| mo_other eps mods e : modules eps mods -> ~ supported e -> modules (eps ++ [e]) mods.

(** a plugin that does what it should *)
Definition well_behaved (e : entry) : Prop := exists l, e_acts e = PGives l None.

(** what a plugin gives: the TypeMarshallers in what it returns, in order;
    nothing if it misbehaves in any way *)
Inductive gives (e : entry) : list mid -> Prop :=
| gi_good l ms : e_acts e = PGives l None ->
    ms = flat_map (fun x => match x with Some m => [m] | None => [] end) l -> gives e ms
| gi_bad : ~ well_behaved e -> gives e [].

Definition plugin_marshallers (eps : list entry) (ms : list mid) : Prop :=
  exists mods es mss, modules eps mods /\ Forall2 (speaks eps) mods es /\ Forall2 gives es mss /\ ms = concat mss.

(** it raises one of the exceptions that are no Exception (SystemExit, ...) *)
Definition exits (e : entry) : Prop :=
  e_acts e = PLoadRaises Fatal \/ e_acts e = PCallRaises Fatal \/ exists l, e_acts e = PGives l (Some Fatal).
Definition no_exit (eps : list entry) : Prop := forall e, In e eps -> supported e -> ~ exits e.

(** the marshallers [load_plugins] stands for *)
Definition loaded (load : bool) (eps : list entry) (ms : list mid) : Prop :=
  if load then plugin_marshallers eps ms else ms = [].

(** ** The arguments of MarshallerCollection *)

Definition three_names : list pystr := [lit "builtin"; lit "plugin"; lit "user"].

Record good_args (a : initargs) (load : bool) (prio : list pystr) (user : list mid) : Prop := {
  ga_load : a_load a = Some load;
  ga_lazy : a_lazy a <> None;
  ga_priority : a_priority a = Some (map PEStr prio);
  ga_names : Permutation prio three_names;
  ga_user : a_marshallers a = MaMany (map Some user) \/ exists m, user = [m] /\ a_marshallers a = MaOne (Some m) }.

(** ** The module *)

(** plugins that neither exit nor put into sys.modules what cannot be imported *)
Definition tame_around (env : pyenv) (sys0 : list pystr) (load : option bool) (r : around) : Prop :=
  load = Some true -> no_exit (r_entries r) /\
  forall e k, In e (r_entries r) -> In k (e_brings e) -> In k sys0 \/ importable env k = true.
Definition tame (env : pyenv) (sys0 : list pystr) (op : gop) : Prop :=
  match op with ONew a r | OMakeDefault a r => tame_around env sys0 (a_load a) r | _ => True end.

(** the state of the module after its import and any calls *)
Inductive session (info : mid -> minfo) (env : pyenv) (sys0 : list pystr) : gstate -> Prop :=
| se_import r g : imported info env sys0 r = (g, GNone) -> session info env sys0 g
| se_call g op g' out : session info env sys0 g -> tame env sys0 op ->
    gstep info env g op = (g', out) -> session info env sys0 g'.

(** the methods called on the collection [c], whoever held it *)
Fixpoint uses (c : nat) (ops : list gop) : list cop :=
  match ops with
  | [] => []
  | OColl k op :: r => if Nat.eqb k c then op :: uses c r else uses c r
  | _ :: r => uses c r
  end.

(** the collection that make_new_default_marshaller_collection last made *)
Definition the_default (info : mid -> minfo) (env : pyenv) (g : gstate) (c : nat) : Prop :=
  snd (gstep info env g OGetDefault) = GColl c.

(** [eps'] is [eps] with some of the misbehaving plugins left out *)
Inductive thinned : list entry -> list entry -> Prop :=
| th_nil : thinned [] []
| th_keep e eps eps' : thinned eps eps' -> thinned (e :: eps) (e :: eps')
| th_drop e eps eps' : ~ well_behaved e -> thinned eps eps' -> thinned (e :: eps) eps'.

(** no two plugins in the same module *)
Definition separate (eps : list entry) : Prop :=
  forall a e b, eps = a ++ e :: b -> supported e -> forall x, In x b -> supported x -> e_module x <> e_module e.
