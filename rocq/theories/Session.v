(** Model of the module's global state: the default marshaller collection,
    the Options and File objects that hold collections, and the plugins
    (plugins.py; __init__.py l.219-316, l.1081-1166, l.1644-1667, l.2725-2783).
    Python objects are indices into lists, so that sharing is visible. *)
From Verif Require Import Base OptionsM MColl.

(** ** Plugins *)

(** An exception raised by somebody else's code: an Exception, or one of the
    BaseExceptions that are not (SystemExit, KeyboardInterrupt, ...). *)
Inductive pexn := Ordinary (e : exn) | Fatal.

(** What [fun = p.load(); fun(__version__)] and the iteration over its result
    do (l.1134-1145).  [PGives l e]: the iteration gives the objects [l]
    ([None]: no TypeMarshaller) and then ends, or raises [e]. *)
Inductive pacts :=
| PLoadRaises (e : pexn)
| PNotCallable
| PCallRaises (e : pexn)
| PNotIterable
| PGives (l : list (option mid)) (e : option pexn).

(** An entry point of the group 'hdf5storage.marshallers.plugins'
    (plugins.py l.84-86): name, module_name, what it does and what loading and
    calling it adds to sys.modules. *)
Record entry := { e_name : pystr; e_module : pystr; e_acts : pacts; e_brings : list pystr }.

(** plugins.py l.34-53 *)
Definition supported_versions : list pystr := [lit "1.0"].

(** a Python dict with str keys: setting keeps the place of an old key *)
Fixpoint dput (d : list (pystr * entry)) (k : pystr) (e : entry) : list (pystr * entry) :=
  match d with
  | [] => [(k, e)]
  | (k', e') :: r => if eqb_str k k' then (k', e) :: r else (k', e') :: dput r k e
  end.

(** plugins.py l.56-90: the inner dict for one version *)
Definition plugin_dict (ver : pystr) (eps : list entry) : list (pystr * entry) :=
  fold_left (fun d p => if eqb_str (e_name p) ver then dput d (e_module p) p else d) eps [].

(** l.1139-1145: what is kept of the result of a plugin *)
Definition marshallers_in (l : list (option mid)) : list mid :=
  flat_map (fun x => match x with Some m => [m] | None => [] end) l.

(** l.1133-1145: one plugin; [None]: an exception gets out *)
Definition load_one (p : entry) : option (list mid) :=
  match e_acts p with
  | PLoadRaises Fatal | PCallRaises Fatal | PGives _ (Some Fatal) => None
  | PLoadRaises (Ordinary _) | PCallRaises (Ordinary _) | PGives _ (Some (Ordinary _)) => Some []
  | PNotCallable | PNotIterable => Some []
  | PGives l None => Some (marshallers_in l)
  end.

(** l.1132-1145: the loop over the plugins of one version *)
Fixpoint load_each (sysm : list pystr) (ps : list (pystr * entry)) : list pystr * option (list mid) :=
  match ps with
  | [] => (sysm, Some [])
  | (_, p) :: r =>
      let s := e_brings p ++ sysm in
      match load_one p with
      | None => (s, None)
      | Some ms => let '(s', o) := load_each s r in (s', option_map (app ms) o)
      end
  end.

(** l.1129-1145: the loop over the versions *)
Fixpoint load_versions (sysm : list pystr) (eps : list entry) (vers : list pystr) : list pystr * option (list mid) :=
  match vers with
  | [] => (sysm, Some [])
  | v :: r =>
      match load_each sysm (plugin_dict v eps) with
      | (s, None) => (s, None)
      | (s, Some ms) => let '(s', o) := load_versions s eps r in (s', option_map (app ms) o)
      end
  end.

(** ** The constructor with arguments of any type *)

(** an element of [priority]; simplification: only str and int *)
Inductive pelem := PEStr (s : pystr) | PEInt (z : Z).

(** The arguments; [None]: of a wrong type.  [MaOne]: no iterable; [MaMany]:
    an iterable. *)
Inductive marg := MaOne (m : option mid) | MaMany (l : list (option mid)).
Record initargs := {
  a_load : option bool; a_lazy : option bool; a_priority : option (list pelem); a_marshallers : marg }.

(** what Python finds around the call: the new instances of the builtin
    marshallers (l.1113-1123) and the installed entry points *)
Record around := { r_builtin : list mid; r_entries : list entry }.

Fixpoint all_strs (l : list pelem) : option (list pystr) :=
  match l with
  | [] => Some []
  | PEStr s :: r => option_map (cons s) (all_strs r)
  | PEInt _ :: _ => None
  end.
Definition all_ints (l : list pelem) : bool :=
  forallb (fun x => match x with PEInt _ => true | _ => false end) l.

(** l.1307-1309: a single marshaller is made a list *)
Definition as_list (a : marg) : list (option mid) :=
  match a with MaOne m => [m] | MaMany l => l end.

Inductive built := BColl (c : coll) | BErr (e : exn) | BFatal.

Section WithEnv.
Variable info : mid -> minfo.
Variable env : pyenv.

(** l.1081-1166.  sorted() raises TypeError when str and int are mixed. *)
Definition construct (sysm : list pystr) (a : initargs) (r : around) : list pystr * built :=
  match a_load a, a_lazy a, a_priority a with
  | None, _, _ | _, None, _ | _, _, None => (sysm, BErr TypeError)
  | Some load, Some lazy, Some prio =>
      if negb (Nat.eqb (length prio) 3) then (sysm, BErr ValueError)
      else match all_strs prio with
      | None => (sysm, BErr (if all_ints prio then ValueError else TypeError))
      | Some ps =>
          if negb (eqb_strs (sorted ps) (sorted [lit "builtin"; lit "plugin"; lit "user"]))
          then (sysm, BErr ValueError)
          else match (if load then load_versions sysm (r_entries r) supported_versions else (sysm, Some [])) with
          | (s, None) => (s, BFatal)
          | (s, Some plug) =>
              match create info env s (r_builtin r) plug lazy ps (as_list (a_marshallers a)) with
              | Ok (s', c) => (s', BColl c)
              | Err e => (s, BErr e)
              end
          end
      end
  end.

(** ** The module *)

(** an Options object: its options and its collection (l.282-286) *)
Record optobj := { b_opts : options; b_coll : nat }.

(** [g_colls], [g_opts]: all the collection and Options objects there are;
    [g_default]: _default_marshaller_collection (l.2782), a list so that it can
    be set from functions; [g_names]: the Options objects the user holds;
    [g_files]: the _options of the File objects (l.1667). *)
Record gstate := {
  g_sys : list pystr;
  g_colls : list coll;
  g_default : list nat;
  g_opts : list optobj;
  g_names : list nat;
  g_files : list nat }.

Definition with_sys (g : gstate) (s : list pystr) : gstate :=
  {| g_sys := s; g_colls := g_colls g; g_default := g_default g; g_opts := g_opts g;
     g_names := g_names g; g_files := g_files g |}.
Definition with_colls (g : gstate) (s : list pystr) (l : list coll) : gstate :=
  {| g_sys := s; g_colls := l; g_default := g_default g; g_opts := g_opts g;
     g_names := g_names g; g_files := g_files g |}.
Definition with_default (g : gstate) (l : list nat) : gstate :=
  {| g_sys := g_sys g; g_colls := g_colls g; g_default := l; g_opts := g_opts g;
     g_names := g_names g; g_files := g_files g |}.
Definition with_opts (g : gstate) (l : list optobj) : gstate :=
  {| g_sys := g_sys g; g_colls := g_colls g; g_default := g_default g; g_opts := l;
     g_names := g_names g; g_files := g_files g |}.
Definition with_names (g : gstate) (l : list nat) : gstate :=
  {| g_sys := g_sys g; g_colls := g_colls g; g_default := g_default g; g_opts := g_opts g;
     g_names := l; g_files := g_files g |}.
Definition with_files (g : gstate) (l : list nat) : gstate :=
  {| g_sys := g_sys g; g_colls := g_colls g; g_default := g_default g; g_opts := g_opts g;
     g_names := g_names g; g_files := l |}.

Inductive gout :=
| GNone | GErr (e : exn) | GFatal      (* returned nothing; raised; raised a BaseException *)
| GColl (c : nat) | GOptions (o : nat) | GFile (f : nat)   (* a new or an old object *)
| GVal (v : optval) | GLook (o : cout)
| GNoSuch.                             (* the call is about an object the user has not got *)

(** What a user can do.  [c], [o], [f] are collections, Options and Files the
    user got before.  A collection argument [None] stands for anything that is
    no MarshallerCollection, None included. *)
Inductive gop :=
| ONew (a : initargs) (r : around)                 (* MarshallerCollection(...) *)
| OMakeDefault (a : initargs) (r : around)         (* make_new_default_marshaller_collection(...) *)
| OGetDefault                                      (* get_default_marshaller_collection() *)
| OColl (c : nat) (op : cop)                       (* a method of a collection *)
| OOptions (args : optname -> optval) (mc : option nat)    (* Options(...) *)
| OSet (o : nat) (n : optname) (v : optval)        (* o.n = v *)
| OGet (o : nat) (n : optname)                     (* o.n *)
| OSetColl (o : nat) (mc : option nat)             (* o.marshaller_collection = mc *)
| OGetColl (o : nat)                               (* o.marshaller_collection *)
| OFile (o : nat)                                  (* File(..., options=o) *)
| OFileKw (args : optname -> optval) (mc : option nat)     (* File(..., **keywords) *)
| OFileGet (f : nat) (n : optname)                 (* the option the reads and writes of f go by *)
| OFileLook (f : nat) (op : cop).                  (* the lookups reads and writes of f make *)

Definition is_lookup (op : cop) : bool :=
  match op with OpType _ | OpString _ | OpClass _ => true | _ => false end.

(** a constructed collection becomes an object *)
Definition new_coll (g : gstate) (a : initargs) (r : around) : gstate * gout :=
  match construct (g_sys g) a r with
  | (s, BColl c) => (with_colls g s (g_colls g ++ [c]), GColl (length (g_colls g)))
  | (s, BErr e) => (with_sys g s, GErr e)
  | (s, BFatal) => (with_sys g s, GFatal)
  end.

(** a method of the collection object [c] *)
Definition on_coll (g : gstate) (c : nat) (op : cop) : gstate * gout :=
  match nth_error (g_colls g) c with
  | None => (g, GNoSuch)
  | Some x => let '(s, x', o) := step info env (g_sys g, x) op in
              (with_colls g s (set_nth c x' (g_colls g)), GLook o)
  end.

(** l.2747 *)
Definition get_default (g : gstate) : option nat := nth_error (g_default g) 0.

(** l.282-286 and l.316: does [mc] denote a collection *)
Definition is_coll (g : gstate) (mc : option nat) : option nat :=
  match mc with Some c => if Nat.ltb c (length (g_colls g)) then Some c else None | None => None end.

(** l.195-286: Options(...); the new object is the last of [g_opts] *)
Definition new_options (g : gstate) (args : optname -> optval) (mc : option nat) : gstate * option gout :=
  match init args with
  | Err e => (g, Some (GErr e))
  | Ok o =>
      match (match is_coll g mc with Some c => Some c | None => get_default g end) with
      | None => (g, Some (GErr IndexError))
      | Some c => (with_opts g (g_opts g ++ [{| b_opts := o; b_coll := c |}]), None)
      end
  end.

(** the Options object the user knows as [o] *)
Definition opt_of (g : gstate) (o : nat) : option (nat * optobj) :=
  match nth_error (g_names g) o with
  | None => None
  | Some k => option_map (pair k) (nth_error (g_opts g) k)
  end.
Definition file_opt (g : gstate) (f : nat) : option (nat * optobj) :=
  match nth_error (g_files g) f with
  | None => None
  | Some k => option_map (pair k) (nth_error (g_opts g) k)
  end.

Definition gstep (g : gstate) (op : gop) : gstate * gout :=
  match op with
  | ONew a r => new_coll g a r
  | OMakeDefault a r =>                            (* l.2771-2775 *)
      match new_coll g a r with
      | (g', GColl c) => (with_default g' (match g_default g' with [] => [c] | _ :: t => c :: t end), GNone)
      | p => p
      end
  | OGetDefault =>
      (g, match get_default g with Some c => GColl c | None => GErr IndexError end)
  | OColl c op => on_coll g c op
  | OOptions args mc =>
      match new_options g args mc with
      | (g', Some e) => (g', e)
      | (g', None) => (with_names g' (g_names g' ++ [length (g_opts g)]), GOptions (length (g_names g)))
      end
  | OSet o n v =>
      match opt_of g o with
      | None => (g, GNoSuch)
      | Some (k, b) =>
          match set (b_opts b) n v with
          | Err e => (g, GErr e)
          | Ok o' => (with_opts g (set_nth k {| b_opts := o'; b_coll := b_coll b |} (g_opts g)), GNone)
          end
      end
  | OGet o n =>
      (g, match opt_of g o with None => GNoSuch | Some (_, b) => GVal (get (b_opts b) n) end)
  | OSetColl o mc =>                               (* l.311-316 *)
      match opt_of g o with
      | None => (g, GNoSuch)
      | Some (k, b) =>
          match is_coll g mc with
          | None => (g, GNone)
          | Some c => (with_opts g (set_nth k {| b_opts := b_opts b; b_coll := c |} (g_opts g)), GNone)
          end
      end
  | OGetColl o =>                                  (* l.288-309 *)
      (g, match opt_of g o with None => GNoSuch | Some (_, b) => GColl (b_coll b) end)
  | OFile o =>                                     (* l.1657-1667: copy.copy(options) *)
      match opt_of g o with
      | None => (g, GNoSuch)
      | Some (_, b) =>
          let g' := with_opts g (g_opts g ++ [b]) in
          (with_files g' (g_files g ++ [length (g_opts g)]), GFile (length (g_files g)))
      end
  | OFileKw args mc =>                             (* l.1655-1656, l.1667 *)
      match new_options g args mc with
      | (g', Some e) => (g', e)
      | (g', None) => (with_files g' (g_files g' ++ [length (g_opts g)]), GFile (length (g_files g)))
      end
  | OFileGet f n =>
      (g, match file_opt g f with None => GNoSuch | Some (_, b) => GVal (get (b_opts b) n) end)
  | OFileLook f op =>                              (* utilities.py l.266, l.353-368 *)
      match file_opt g f with
      | None => (g, GNoSuch)
      | Some (_, b) => if is_lookup op then on_coll g (b_coll b) op else (g, GNoSuch)
      end
  end.

Fixpoint grun (g : gstate) (ops : list gop) : gstate * list gout :=
  match ops with
  | [] => (g, [])
  | op :: r => let '(g1, o) := gstep g op in let '(g2, os) := grun g1 r in (g2, o :: os)
  end.

(** l.2782-2783: what importing the module does; [None]: the import fails *)
Definition import_args : initargs :=
  {| a_load := Some false; a_lazy := Some true;
     a_priority := Some [PEStr (lit "builtin"); PEStr (lit "plugin"); PEStr (lit "user")];
     a_marshallers := MaMany [] |}.
Definition imported (sysm : list pystr) (r : around) : gstate * gout :=
  gstep {| g_sys := sysm; g_colls := []; g_default := []; g_opts := []; g_names := []; g_files := [] |}
        (OMakeDefault import_args r).
End WithEnv.
