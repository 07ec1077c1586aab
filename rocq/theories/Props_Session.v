(** Properties C52-C54: plugins, the default collection, and what Options and
    File objects share. *)
From Coq Require Import Permutation Lia.
From Verif Require Import Base OptionsM OptionsSpec MColl MCollSpec MCollFacts Session SessionSpec SessionFacts.

(** ** C52: plugins *)

(** C52: whether a collection can be made depends on the arguments only: no
    plugin that raises an Exception, is not callable or returns rubbish makes
    the constructor fail. *)
Theorem C52_construct : forall info env sys0 g a r, coherent env sys0 ->
  session info env sys0 g -> tame_around env sys0 (a_load a) r ->
  ((exists c, snd (gstep info env g (ONew a r)) = GColl c) <-> exists load prio user, good_args a load prio user) /\
  ((forall c, snd (gstep info env g (ONew a r)) <> GColl c) ->
     snd (gstep info env g (ONew a r)) = GErr TypeError \/ snd (gstep info env g (ONew a r)) = GErr ValueError).
Proof. intros info env sys0 g a r Hc. exact (new_ok_iff info env sys0 Hc g a r). Qed.
Print Assumptions C52_construct.

(** C52: a collection made with load_plugins has exactly the marshallers of the
    well-behaved plugins, each module's last entry point, in the order the
    modules turn up; lookups follow the priority over them (C11), after any
    history of calls of the module. *)
Theorem C52_lookup : forall info env sys0 g a r g1 c ops g2 os op, coherent env sys0 ->
  session info env sys0 g -> tame_around env sys0 (a_load a) r ->
  gstep info env g (ONew a r) = (g1, GColl c) ->
  Forall (tame env sys0) ops -> grun info env g1 ops = (g2, os) ->
  exists load prio user plug out, good_args a load prio user /\ loaded load (r_entries r) plug /\
    snd (gstep info env g2 (OColl c op)) = GLook out /\
    spec_out info env sys0 prio (r_builtin r) plug
      (spec_run {| s_user := spec_add [] (map Some user); s_visible := spec_add [] (map Some user) |} (uses c ops)) op out.
Proof.
  intros info env sys0 g a r g1 c ops g2 os op Hc Hg Ht H. exact (isolated info env sys0 Hc g a r g1 c ops g2 os op Hg Ht (or_introl H)).
Qed.
Print Assumptions C52_lookup.

(** C52: a misbehaving plugin cannot be told from one that is not installed. *)
Theorem C52_bad_plugins : forall info env sys0 g a b eps eps' g1 c g1' c' ops, coherent env sys0 ->
  session info env sys0 g ->
  tame_around env sys0 (a_load a) {| r_builtin := b; r_entries := eps |} ->
  separate eps -> thinned eps eps' ->
  gstep info env g (ONew a {| r_builtin := b; r_entries := eps |}) = (g1, GColl c) ->
  gstep info env g (ONew a {| r_builtin := b; r_entries := eps' |}) = (g1', GColl c') ->
  snd (grun info env g1 (map (OColl c) ops)) = snd (grun info env g1' (map (OColl c') ops)).
Proof.
  intros info env sys0 g a b eps eps' g1 c g1' c' ops Hc Hg Ht Hs T H H'.
  assert (Ht' : tame_around env sys0 (a_load a) {| r_builtin := b; r_entries := eps' |}).
  { intros E. destruct (Ht E) as [N B]. cbn [r_entries] in *. pose proof (thinned_in _ _ T) as I.
    split; [intros e He; apply N; auto|]. intros e k He. apply B. auto. }
  destruct (made info env sys0 Hc g a _ g1 c Hg Ht (or_introl H)) as (l & p & u & plug & G & L & K & _).
  destruct (made info env sys0 Hc g a _ g1' c' Hg Ht' (or_introl H')) as (l' & p' & u' & plug' & G' & L' & K' & _).
  destruct (good_args_fun _ _ _ _ _ _ _ G G') as (<- & <- & <-). cbn [r_entries r_builtin] in *.
  rewrite <- (thinned_loaded _ _ _ _ _ Hs T L L') in K'.
  eapply (alike_runs info env sys0 Hc); [| |exact K|exact K'].
  - apply (session_ginv info env sys0 Hc). eapply se_call; [exact Hg| |exact H]. exact Ht.
  - apply (session_ginv info env sys0 Hc). eapply se_call; [exact Hg| |exact H']. exact Ht'.
Qed.
Print Assumptions C52_bad_plugins.

(** C52: without load_plugins what is installed does not matter. *)
Theorem C52_off : forall info env g a b eps eps', a_load a <> Some true ->
  gstep info env g (ONew a {| r_builtin := b; r_entries := eps |}) =
  gstep info env g (ONew a {| r_builtin := b; r_entries := eps' |}).
Proof.
  intros info env g a b eps eps' H. cbn [gstep]. unfold new_coll, construct. cbn [r_entries r_builtin].
  destruct (a_load a) as [[|]|]; [congruence| |]; reflexivity.
Qed.
Print Assumptions C52_off.

(** A concrete world: marshallers 7 (needs a module that cannot be imported), 8
    (of a plugin) and 1 (builtin); a plugin that raises, one that gives 8 and
    an object that is no marshaller, one that raises after giving 9, one of a
    later API version; and a second entry point of the good plugin's module. *)
Definition s_info (m : mid) : minfo :=
  if N.eqb m 7 then {| i_parents := [lit "scipy"]; i_modules := [lit "scipy"; lit "scipy.sparse"];
                       i_types := [TyObj (lit "builtins") (lit "dict")]; i_strings := [lit "x"]; i_classes := [] |}
  else if N.eqb m 8 then {| i_parents := []; i_modules := []; i_types := []; i_strings := [lit "x"; lit "dict"]; i_classes := [] |}
  else {| i_parents := []; i_modules := []; i_types := [TyName (lit "builtins.dict")];
          i_strings := [lit "dict"]; i_classes := [lit "struct"] |}.
Definition s_env : pyenv :=
  {| findable := fun n => eqb_str n (lit "scipy") || eqb_str n (lit "good");
     importable := fun n => eqb_str n (lit "scipy") || eqb_str n (lit "good");
     brings := fun _ => []; kept := fun _ => [] |}.
Example s_coherent : coherent s_env [].
Proof. split; [intros n H; exact H|]. cbn. tauto. Qed.

Definition p_old : entry :=
  {| e_name := lit "1.0"; e_module := lit "good"; e_acts := PGives [Some 5] None; e_brings := [lit "good"] |}.
Definition p_raises : entry :=
  {| e_name := lit "1.0"; e_module := lit "bad"; e_acts := PLoadRaises (Ordinary ImportError); e_brings := [] |}.
Definition p_good : entry :=
  {| e_name := lit "1.0"; e_module := lit "good"; e_acts := PGives [None; Some 8] None; e_brings := [lit "good"] |}.
Definition p_late : entry :=
  {| e_name := lit "1.0"; e_module := lit "late"; e_acts := PGives [Some 9] (Some (Ordinary ValueError)); e_brings := [] |}.
Definition p_other : entry :=
  {| e_name := lit "2.0"; e_module := lit "next"; e_acts := PGives [Some 9] None; e_brings := [] |}.
Definition p_exits : entry :=
  {| e_name := lit "1.0"; e_module := lit "quits"; e_acts := PCallRaises Fatal; e_brings := [] |}.
Definition s_around : around := {| r_builtin := [1; 2]; r_entries := [p_old; p_raises; p_good; p_late; p_other] |}.
Definition s_args : initargs :=
  {| a_load := Some true; a_lazy := Some false; a_priority := Some (map PEStr [lit "user"; lit "plugin"; lit "builtin"]);
     a_marshallers := MaOne (Some 7) |}.
Definition s_start : gstate := fst (imported s_info s_env [] {| r_builtin := [1]; r_entries := [p_exits] |}).
Example s_session : session s_info s_env [] s_start.
Proof. apply se_import with (r := {| r_builtin := [1]; r_entries := [p_exits] |}). vm_compute. reflexivity. Qed.
Example s_tame : tame_around s_env [] (a_load s_args) s_around.
Proof.
  intros _. split.
  - intros e He _ X. cbn in He. repeat destruct He as [<-|He]; try contradiction;
      destruct X as [X|[X|(l & X)]]; discriminate X.
  - intros e k He Hk. right. cbn in He. repeat destruct He as [<-|He]; try contradiction; cbn in Hk;
      repeat destruct Hk as [<-|Hk]; try contradiction; reflexivity.
Qed.
Example C52_ex :
  snd (grun s_info s_env s_start [ONew s_args s_around; OColl 1 (OpString (lit "dict")); OColl 1 (OpString (lit "x"));
         OColl 1 (OpClass (lit "struct")); OColl 0 (OpString (lit "x"))])
  = [GColl 1; GLook (OutGet (Some 8) true); GLook (OutGet (Some 7) false); GLook (OutGet (Some 1) true);
     GLook (OutGet None false)].
Proof. vm_compute. reflexivity. Qed.
Example C52_loaded : loaded true (r_entries s_around) [8].
Proof.
  cbn [loaded s_around r_entries]. exists [lit "good"; lit "bad"; lit "late"], [p_good; p_raises; p_late], [[8]; []; []].
  split; [|split; [|split]].
  - apply (mo_other [p_old; p_raises; p_good; p_late] _ p_other); [|intros X; discriminate X].
    apply (mo_new [p_old; p_raises; p_good] [lit "good"; lit "bad"] p_late); [|reflexivity|].
    + apply (mo_again [p_old; p_raises] [lit "good"; lit "bad"] p_good); [|reflexivity|left; reflexivity].
      apply (mo_new [p_old] [lit "good"] p_raises); [|reflexivity|intros [X|[]]; discriminate X].
      apply (mo_new [] [] p_old); [constructor|reflexivity|intros []].
    + intros [X|[X|[]]]; discriminate X.
  - constructor; [|constructor; [|constructor; [|constructor]]].
    + exists [p_old; p_raises], [p_late; p_other]. split; [reflexivity|]. split; [reflexivity|]. split; [reflexivity|].
      intros x [<-|[<-|[]]] _ X; discriminate X.
    + exists [p_old], [p_good; p_late; p_other]. split; [reflexivity|]. split; [reflexivity|]. split; [reflexivity|].
      intros x [<-|[<-|[<-|[]]]] _ X; discriminate X.
    + exists [p_old; p_raises; p_good], [p_other]. split; [reflexivity|]. split; [reflexivity|]. split; [reflexivity|].
      intros x [<-|[]] _ X; discriminate X.
  - constructor; [|constructor; [|constructor; [|constructor]]].
    + eapply gi_good; [reflexivity|reflexivity].
    + apply gi_bad. intros (l & X). discriminate X.
    + apply gi_bad. intros (l & X). discriminate X.
  - reflexivity.
Qed.
Example C52_thinned : separate [p_raises; p_good; p_late] /\ thinned [p_raises; p_good; p_late] [p_good].
Proof.
  split.
  - intros a e b E Hs x Hx Hsx X.
    destruct a as [|? [|? [|? [|]]]]; inversion E; subst; cbn in Hx;
      repeat destruct Hx as [<-|Hx]; try contradiction; discriminate X.
  - apply th_drop; [intros (l & X); discriminate X|]. apply th_keep. apply th_drop; [intros (l & X); discriminate X|]. constructor.
Qed.

(** C52, limit: "a plugin cannot make the constructor fail" is false of the
    exceptions that are no Exception: a plugin that calls sys.exit() gets
    through, although the arguments are good. *)
Theorem C52_exit_refuted : exists g a r, session s_info s_env [] g /\
  (exists load prio user, good_args a load prio user) /\ snd (gstep s_info s_env g (ONew a r)) = GFatal.
Proof.
  exists s_start, s_args, {| r_builtin := [1]; r_entries := [p_good; p_exits] |}. split; [exact s_session|].
  split; [|vm_compute; reflexivity]. exists true, [lit "user"; lit "plugin"; lit "builtin"], [7]. constructor; try reflexivity.
  - discriminate.
  - apply Permutation_sym. apply (Permutation_trans (l' := [lit "plugin"; lit "builtin"; lit "user"])); [apply perm_swap|].
    apply (Permutation_trans (l' := [lit "plugin"; lit "user"; lit "builtin"])); [apply perm_skip, perm_swap|apply perm_swap].
  - right. exists 7. auto.
Qed.
Print Assumptions C52_exit_refuted.

(** ** C53: the default collection *)

(** C53: there always is a default. *)
Theorem C53_exists : forall info env sys0 g, coherent env sys0 -> session info env sys0 g ->
  exists c, the_default info env g c.
Proof.
  intros info env sys0 g Hc Hg. destruct (gi_default info env sys0 g (session_ginv info env sys0 Hc g Hg)) as (d & Hd & _).
  exists d. unfold the_default. cbn [gstep snd]. unfold get_default. rewrite Hd. reflexivity.
Qed.
Print Assumptions C53_exists.

(** C53: it stays the same object until make_new_default_marshaller_collection
    succeeds; a call of it that raises leaves the old default in place. *)
Theorem C53_stays : forall info env g ops g' os c,
  grun info env g ops = (g', os) -> the_default info env g c ->
  (forall i a r, nth_error ops i = Some (OMakeDefault a r) -> nth_error os i <> Some GNone) ->
  the_default info env g' c.
Proof.
  intros info env g ops g' os c H D Hm. unfold the_default in *. cbn [gstep snd] in *. unfold get_default in *.
  rewrite (run_default info env ops g g' os H Hm). exact D.
Qed.
Print Assumptions C53_stays.

(** C53: a successful make_new_default_marshaller_collection makes an object no
    Options held; those that exist keep what they hold. *)
Theorem C53_make_new : forall info env sys0 g a r g' c, coherent env sys0 ->
  session info env sys0 g -> tame_around env sys0 (a_load a) r ->
  gstep info env g (OMakeDefault a r) = (g', GNone) -> the_default info env g' c ->
  ~ the_default info env g c /\
  forall o k, snd (gstep info env g (OGetColl o)) = GColl k ->
    snd (gstep info env g' (OGetColl o)) = GColl k /\ k <> c.
Proof.
  intros info env sys0 g a r g' c Hc Hg Ht H D.
  pose proof (session_ginv info env sys0 Hc g Hg) as HI.
  destruct (made info env sys0 Hc g a r g' c Hg Ht (or_intror (conj H D))) as (l & p & u & plug & _ & _ & _ & ->).
  split.
  - intros D0. destruct (gi_default info env sys0 g HI) as (d & Hd & Hlt). unfold the_default in D0.
    cbn [gstep snd] in D0. unfold get_default in D0. rewrite Hd in D0. cbn in D0. inversion D0. lia.
  - intros o k Hk. split.
    + apply (run_held info env sys0 Hc [OMakeDefault a r] g g' [GNone]); auto.
      * cbn [grun]. rewrite H. reflexivity.
      * intros mc [X|[]]. discriminate X.
    + cbn [gstep snd] in Hk. destruct (opt_of g o) as [[j b]|] eqn:E; [|discriminate]. inversion Hk; subst.
      apply opt_of_spec in E. pose proof (gi_opts info env sys0 g HI j b (proj2 E)). lia.
Qed.
Print Assumptions C53_make_new.

(** C53: Options made without a collection hold the default of that moment, and
    they go on holding it, whatever is called, until they are given another
    one. *)
Theorem C53_options : forall info env sys0 g args mc g1 o c ops g2 os, coherent env sys0 ->
  session info env sys0 g ->
  gstep info env g (OOptions args mc) = (g1, GOptions o) ->
  match mc with None => the_default info env g c | Some k => k = c /\ snd (gstep info env g (OColl k OpClear)) <> GNoSuch end ->
  Forall (tame env sys0) ops -> grun info env g1 ops = (g2, os) ->
  (forall k, ~ In (OSetColl o (Some k)) ops) ->
  snd (gstep info env g2 (OGetColl o)) = GColl c.
Proof.
  intros info env sys0 g args mc g1 o c ops g2 os Hc Hg H Hm Hops Hrun Hno.
  pose proof (session_ginv info env sys0 Hc g Hg) as HI.
  assert (Hg1 : session info env sys0 g1) by (eapply se_call; [exact Hg| |exact H]; exact I).
  apply (run_held info env sys0 Hc ops g1 g2 os o c Hg1 Hops Hrun Hno).
  cbn [gstep] in H. destruct (new_options g args mc) as [h x] eqn:E.
  pose proof (new_options_spec info env sys0 g args mc h x HI E) as S. destruct x as [e|].
  { destruct S as [_ (y & ->)]. inversion H. }
  destruct S as (ob & d & _ & -> & _ & Hd). inversion H; subst. cbn [gstep snd]. unfold opt_of.
  cbn [with_names with_opts g_names g_opts]. rewrite nth_error_app2 by lia. rewrite Nat.sub_diag. cbn [nth_error].
  rewrite nth_error_app2 by lia. rewrite Nat.sub_diag. cbn [nth_error option_map b_coll]. f_equal.
  destruct mc as [k|].
  - destruct Hm as [-> Hk]. destruct Hd as [Hd|[Hd _]]; [congruence|]. exfalso. apply Hk. cbn [gstep]. unfold on_coll.
    unfold is_coll in Hd. destruct (Nat.ltb_spec c (length (g_colls g))) as [L|L]; [discriminate|].
    apply nth_error_None in L. rewrite L. reflexivity.
  - destruct Hd as [Hd|[_ Hd]]; [discriminate|]. unfold the_default in Hm. cbn [gstep snd] in Hm. rewrite Hd in Hm.
    inversion Hm. reflexivity.
Qed.
Print Assumptions C53_options.

(** C53: what a collection answers depends on the methods called on that
    object, through whomever it was reached, and on nothing else: no call about
    another collection, Options or File changes it, nor does a failed
    construction. *)
Theorem C53_own_history : forall info env sys0 g a r g1 c ops g2 os op, coherent env sys0 ->
  session info env sys0 g -> tame_around env sys0 (a_load a) r ->
  gstep info env g (OMakeDefault a r) = (g1, GNone) -> the_default info env g1 c ->
  Forall (tame env sys0) ops -> grun info env g1 ops = (g2, os) ->
  exists load prio user plug out, good_args a load prio user /\ loaded load (r_entries r) plug /\
    snd (gstep info env g2 (OColl c op)) = GLook out /\
    spec_out info env sys0 prio (r_builtin r) plug
      (spec_run {| s_user := spec_add [] (map Some user); s_visible := spec_add [] (map Some user) |} (uses c ops)) op out.
Proof.
  intros info env sys0 g a r g1 c ops g2 os op Hc Hg Ht H D.
  exact (isolated info env sys0 Hc g a r g1 c ops g2 os op Hg Ht (or_intror (conj H D))).
Qed.
Print Assumptions C53_own_history.
Theorem C53_others : forall info env sys0 g call g' out c op, coherent env sys0 ->
  session info env sys0 g -> tame env sys0 call -> gstep info env g call = (g', out) ->
  snd (gstep info env g (OColl c op)) <> GNoSuch ->
  (forall x, call = OColl c x -> is_lookup x = true) ->
  snd (gstep info env g' (OColl c op)) = snd (gstep info env g (OColl c op)).
Proof.
  intros info env sys0 g call g' out c op Hc Hg Ht H Hk. apply (others info env sys0 Hc g call g' out c op Hg Ht H).
  cbn [gstep] in Hk. unfold on_coll in Hk. destruct (nth_error (g_colls g) c) eqn:E; [apply nth_error_Some; congruence|].
  destruct Hk. reflexivity.
Qed.
Print Assumptions C53_others.

(** the marshaller 7 is added through the Options' collection, which is the
    default's; a failed and then a good call for a new default; Options keep
    the old one *)
Example C53_ex :
  snd (grun s_info s_env s_start
   [OGetDefault; OOptions default_args None; OGetColl 0; OColl 0 (OpAdd [Some 7]);
    OMakeDefault {| a_load := Some false; a_lazy := None; a_priority := a_priority import_args; a_marshallers := MaMany [] |} s_around;
    OGetDefault; OColl 0 (OpString (lit "x")); OMakeDefault import_args s_around; OGetDefault; OGetColl 0;
    OColl 1 (OpString (lit "x")); OColl 0 (OpString (lit "x")); OSetColl 0 None; OGetColl 0; OSetColl 0 (Some 1%nat); OGetColl 0])
  = [GColl 0; GOptions 0; GColl 0; GLook OutUnit; GErr TypeError; GColl 0; GLook (OutGet (Some 7) false); GNone; GColl 1; GColl 0;
     GLook (OutGet None false); GLook (OutGet (Some 7) false); GNone; GColl 0; GNone; GColl 1].
Proof. vm_compute. reflexivity. Qed.

(** ** C54: a File has its own copy of the options *)

(** C54: nothing done later, to the Options object or to anything else, changes
    the options a File goes by. *)
Theorem C54_snapshot : forall info env sys0 g o g1 f n ops g2 os v, coherent env sys0 ->
  session info env sys0 g -> gstep info env g (OFile o) = (g1, GFile f) ->
  snd (gstep info env g (OGet o n)) = GVal v ->
  Forall (tame env sys0) ops -> grun info env g1 ops = (g2, os) ->
  snd (gstep info env g2 (OFileGet f n)) = GVal v.
Proof.
  intros info env sys0 g o g1 f n ops g2 os v Hc Hg H Hv Hops Hrun.
  assert (Hg1 : session info env sys0 g1) by (eapply se_call; [exact Hg| |exact H]; exact I).
  cbn [gstep] in H. cbn [gstep snd] in Hv. destruct (opt_of g o) as [[k b]|] eqn:E; [|discriminate]. inversion H; subst.
  assert (F : file_opt (with_files (with_opts g (g_opts g ++ [b])) (g_files g ++ [length (g_opts g)])) (length (g_files g))
              = Some (length (g_opts g), b)).
  { unfold file_opt. cbn [with_files with_opts g_files g_opts]. rewrite nth_error_app2 by lia. rewrite Nat.sub_diag. cbn [nth_error].
    rewrite nth_error_app2 by lia. rewrite Nat.sub_diag. reflexivity. }
  pose proof (run_file info env sys0 Hc ops _ g2 os _ _ _ Hg1 Hops Hrun F) as F2.
  cbn [gstep snd]. rewrite F2. exact Hv.
Qed.
Print Assumptions C54_snapshot.

(** C54: but the collection is shared: the lookups of a File are those of the
    collection the options held when it was opened, with all that was
    registered there since. *)
Theorem C54_shared : forall info env sys0 g o g1 f ops g2 os c op, coherent env sys0 ->
  session info env sys0 g -> gstep info env g (OFile o) = (g1, GFile f) ->
  snd (gstep info env g (OGetColl o)) = GColl c ->
  Forall (tame env sys0) ops -> grun info env g1 ops = (g2, os) -> is_lookup op = true ->
  snd (gstep info env g2 (OFileLook f op)) = snd (gstep info env g2 (OColl c op)).
Proof.
  intros info env sys0 g o g1 f ops g2 os c op Hc Hg H Hv Hops Hrun Hl.
  assert (Hg1 : session info env sys0 g1) by (eapply se_call; [exact Hg| |exact H]; exact I).
  cbn [gstep] in H. cbn [gstep snd] in Hv. destruct (opt_of g o) as [[k b]|] eqn:E; [|discriminate]. inversion H; subst.
  assert (F : file_opt (with_files (with_opts g (g_opts g ++ [b])) (g_files g ++ [length (g_opts g)])) (length (g_files g))
              = Some (length (g_opts g), b)).
  { unfold file_opt. cbn [with_files with_opts g_files g_opts]. rewrite nth_error_app2 by lia. rewrite Nat.sub_diag. cbn [nth_error].
    rewrite nth_error_app2 by lia. rewrite Nat.sub_diag. reflexivity. }
  pose proof (run_file info env sys0 Hc ops _ g2 os _ _ _ Hg1 Hops Hrun F) as F2.
  cbn [gstep snd]. rewrite F2, Hl. inversion Hv; subst. reflexivity.
Qed.
Print Assumptions C54_shared.

(** C54: a File opened with keyword arguments goes by the default collection of
    that moment, for ever. *)
Theorem C54_keywords : forall info env sys0 g args g1 f ops g2 os c op, coherent env sys0 ->
  session info env sys0 g -> gstep info env g (OFileKw args None) = (g1, GFile f) ->
  the_default info env g c ->
  Forall (tame env sys0) ops -> grun info env g1 ops = (g2, os) -> is_lookup op = true ->
  snd (gstep info env g2 (OFileLook f op)) = snd (gstep info env g2 (OColl c op)).
Proof.
  intros info env sys0 g args g1 f ops g2 os c op Hc Hg H D Hops Hrun Hl.
  pose proof (session_ginv info env sys0 Hc g Hg) as HI.
  assert (Hg1 : session info env sys0 g1) by (eapply se_call; [exact Hg| |exact H]; exact I).
  cbn [gstep] in H. destruct (new_options g args None) as [h x] eqn:E.
  pose proof (new_options_spec info env sys0 g args None h x HI E) as S. destruct x as [e|].
  { destruct S as [_ (y & ->)]. inversion H. }
  destruct S as (ob & d & _ & -> & _ & [Hd|[_ Hd]]); [discriminate|]. inversion H; subst.
  cbn [with_opts g_files] in Hrun, Hg1 |- *.
  assert (F : file_opt (with_files (with_opts g (g_opts g ++ [{| b_opts := ob; b_coll := d |}])) (g_files g ++ [length (g_opts g)])) (length (g_files g))
              = Some (length (g_opts g), {| b_opts := ob; b_coll := d |})).
  { unfold file_opt. cbn [with_files with_opts g_files g_opts]. rewrite nth_error_app2 by lia. rewrite Nat.sub_diag. cbn [nth_error].
    rewrite nth_error_app2 by lia. rewrite Nat.sub_diag. reflexivity. }
  pose proof (run_file info env sys0 Hc ops _ g2 os _ _ _ Hg1 Hops Hrun F) as F2.
  unfold the_default in D. cbn [gstep snd] in D. rewrite Hd in D. inversion D; subst.
  cbn [gstep snd]. rewrite F2, Hl. reflexivity.
Qed.
Print Assumptions C54_keywords.

(** the options of a File survive a change of the Options object; a marshaller
    added to the shared collection afterwards is found; giving the Options
    object another collection does not reach the File *)
Example C54_ex :
  snd (grun s_info s_env s_start
   [OOptions default_args None; OFile 0; OSet 0 StoreShapeForEmpty (OVBool false); OGet 0 MatlabCompatible;
    OFileGet 0 MatlabCompatible; OFileGet 0 StoreShapeForEmpty; ONew s_args s_around; OSetColl 0 (Some 1%nat);
    OFileLook 0 (OpString (lit "x")); OColl 0 (OpAdd [Some 8]); OFileLook 0 (OpString (lit "x"));
    OMakeDefault import_args s_around; OFileKw default_args None; OFileLook 1 (OpString (lit "x")); OFileLook 0 (OpString (lit "x"))])
  = [GOptions 0; GFile 0; GNone; GVal (OVBool false); GVal (OVBool true); GVal (OVBool true); GColl 1; GNone;
     GLook (OutGet None false); GLook OutUnit; GLook (OutGet (Some 8) true);
     GNone; GFile 1; GLook (OutGet None false); GLook (OutGet (Some 8) true)].
Proof. vm_compute. reflexivity. Qed.
