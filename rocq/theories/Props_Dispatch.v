(** Property C55: data is read by the marshaller that wrote it. *)
From Coq Require Import Permutation.
From Verif Require Import Base PathEsc PosixPath ProcessPath Unicode Dec NdArray Value OptionsM Attrs Hdf5 NpWrite MarshalW MarshalR RoundNp Plan Layout FileApi ApiSpec RndFacts LayoutApi MColl MCollSpec MCollFacts Dispatch DispatchSpec DispatchFacts.
Local Open Scope nat_scope.

(** C55, writing: whatever was done with the collection before, a value is
    written by the first marshaller, in the order of the priority, that declares
    its type, if the modules that one needs are there; otherwise the write is
    refused, even if a later marshaller could do it. *)
Theorem C55_write : forall info env sys0 b p lazy prio ms ops st st' os t,
  coherent env sys0 -> create info env sys0 b p lazy prio ms = Ok st -> run info env st ops = (fst st', snd st', os) ->
  (forall m, pick_write info env st' t = Ok m <->
     first_declaring (types_of info) (ty_key t) (in_order prio b p ms ops) (Some m) /\ available info env sys0 m) /\
  ((forall m, first_declaring (types_of info) (ty_key t) (in_order prio b p ms ops) (Some m) -> ~ available info env sys0 m) ->
     pick_write info env st' t = Err NotImplementedError).
Proof.
  intros info env sys0 b p lazy prio ms ops st st' os t Hc Hcr Hr.
  pose proof (fun m => write_spec info env sys0 b p lazy prio ms ops st st' os Hc Hcr Hr t m) as W. split; [exact W|].
  intros N. apply (write_else info env). intros m E. apply W in E. destruct E as [F A]. exact (N m F A).
Qed.
Print Assumptions C55_write.

(** C55, reading: Python.Type alone decides if it is there, else MATLAB_class,
    else the type of the elements; if nobody declares that, the marshaller for
    numpy.uint8 reads; if there is no such marshaller, CantReadError.  The exact
    read is used if the modules are there, the approximate one if not. *)
Theorem C55_read : forall info env sys0 b p lazy prio ms ops st st' os ts mc d,
  coherent env sys0 -> create info env sys0 b p lazy prio ms = Ok st -> run info env st ops = (fst st', snd st', os) ->
  exists r, reads_by info (in_order prio b p ms ops) ts mc d r /\
    match r with
    | Some m => exists has, pick_read info env st' ts mc d = Ok (m, has) /\ (has = true <-> available info env sys0 m)
    | None => pick_read info env st' ts mc d = Err CantReadError
    end.
Proof. exact read_spec. Qed.
Print Assumptions C55_read.

(** C55: a marshaller before which nobody in the order declares the type or the
    type string it writes, both writes and reads the values of that type. *)
Theorem C55_own : forall info env sys0 b p lazy prio ms ops st st' os before m after modname name s,
  coherent env sys0 -> create info env sys0 b p lazy prio ms = Ok st -> run info env st ops = (fst st', snd st', os) ->
  in_order prio b p ms ops = before ++ m :: after -> available info env sys0 m ->
  string_for info m modname name s ->
  (forall x, In x before -> ~ In (modname ++ lit "." ++ name) (types_of info x) /\ ~ In s (strings_of info x)) ->
  pick_write info env st' (TyObj modname name) = Ok m /\ forall mc d, pick_read info env st' (Some s) mc d = Ok (m, true).
Proof.
  intros info env sys0 b p lazy prio ms ops st st' os before m after modname name s Hc Hcr Hr Ho Ha Hs Hb.
  destruct (string_declared _ _ _ _ _ Hs) as [D1 D2]. split.
  - apply (proj1 (C55_write info env sys0 b p lazy prio ms ops st st' os _ Hc Hcr Hr)). split; [|exact Ha]. rewrite Ho.
    apply fd_app; [intros x Hx; apply (Hb x Hx)|exact D2].
  - intros mc d. destruct (C55_read info env sys0 b p lazy prio ms ops st st' os (Some s) mc d Hc Hcr Hr) as (r & R & E).
    assert (R' : reads_by info (in_order prio b p ms ops) (Some s) mc d (Some m)).
    { exists (strings_of info), s. split; [constructor|left]. exists m. split; [reflexivity|]. rewrite Ho.
      apply fd_app; [intros x Hx; apply (Hb x Hx)|exact D1]. }
    rewrite (reads_by_fun _ _ _ _ _ _ _ R R') in E. destruct E as (has & E & H). rewrite E. rewrite (proj2 H Ha). reflexivity.
Qed.
Print Assumptions C55_own.

(** C55: with the builtin marshallers first, as by default, no plugin and no user
    marshaller, registered at any time, changes who writes and who reads the
    values the builtin marshallers are for, and what one of them writes it reads. *)
Theorem C55_builtin_first : forall info env sys0 b p lazy prio ms ops st st' os m modname name s,
  coherent env sys0 -> builtin_instances info b ->
  create info env sys0 b p lazy (lit "builtin" :: prio) ms = Ok st -> run info env st ops = (fst st', snd st', os) ->
  In m b -> string_for info m modname name s -> available info env sys0 m ->
  pick_write info env st' (TyObj modname name) = Ok m /\ forall mc d, pick_read info env st' (Some s) mc d = Ok (m, true).
Proof.
  intros info env sys0 b p lazy prio ms ops st st' os m modname name s Hc Hb Hcr Hr Hm Hs Ha.
  destruct (string_declared _ _ _ _ _ Hs) as [D1 D2].
  apply In_nth_error in Hm. destruct Hm as [n Hn].
  assert (X : exists k i, nth_error builtin_classes n = Some (k, i) /\ info m = i).
  { clear - Hb Hn. unfold builtin_instances in Hb. revert n Hn. induction Hb as [|x [k i] l l' H F IH]; intros [|n] Hn; try discriminate.
    - injection Hn as ->. exists k, i. auto.
    - exact (IH n Hn). }
  destruct X as (k & i & Hk & Hi).
  set (rest := ordered prio b p (s_visible (spec_run {| s_user := spec_add [] ms; s_visible := spec_add [] ms |} ops))).
  assert (El : in_order (lit "builtin" :: prio) b p ms ops = b ++ rest) by reflexivity.
  split.
  - apply (proj1 (C55_write info env sys0 b p lazy (lit "builtin" :: prio) ms ops st st' os _ Hc Hcr Hr)). split; [|exact Ha]. rewrite El.
    apply (builtin_first info b rest n m k i (types_of info) (fun i => map ty_key (i_types i)) Hb Hn Hk Hi (fun _ => eq_refl) types_disjoint). exact D2.
  - intros mc d. destruct (C55_read info env sys0 b p lazy (lit "builtin" :: prio) ms ops st st' os (Some s) mc d Hc Hcr Hr) as (r & R & E).
    assert (R' : reads_by info (in_order (lit "builtin" :: prio) b p ms ops) (Some s) mc d (Some m)).
    { exists (strings_of info), s. split; [constructor|left]. exists m. split; [reflexivity|]. rewrite El.
      apply (builtin_first info b rest n m k i (strings_of info) i_strings Hb Hn Hk Hi (fun _ => eq_refl) strings_disjoint). exact D1. }
    rewrite (reads_by_fun _ _ _ _ _ _ _ R R') in E. destruct E as (has & E & H). rewrite E. rewrite (proj2 H Ha). reflexivity.
Qed.
Print Assumptions C55_builtin_first.

(** C55: every value the model of writing is about has a type that exactly one
    kind of builtin marshaller is for; and the class whose read method the model
    of reading takes for the type string that one writes is the same class. *)
Theorem C55_values : forall v, plain_np v -> exists modname name cls i s,
  type_of v = Some (modname, name) /\ In (cls, i) builtin_classes /\ get_type_string i modname name = Ok s /\
  class_of_kind (reader_kind (Some s)) = cls.
Proof.
  intros v P. destruct (value_class v P) as (m & n & cls & i & A & B & C & D). exists m, n, cls, i, (string_of v). auto.
Qed.
Print Assumptions C55_values.

(** C55, in the file: what a successful writes with store_python_metadata puts at
    a new path carries that type string in Python.Type. *)
Theorem C55_in_file : forall refs s wo rnd tries n mdict f,
  good_refs refs -> reachable refs s -> usable refs wo -> o_keys_name wo <> o_values_name wo -> o_store_python_metadata wo = true ->
  (forall p v, In (p, v) mdict -> valid_path p /\ tidy v /\ snd (file_contains (mkFile true s) p) = Ok false) ->
  ForallOrdPairs (fun x y => forall a b, denotes (fst x) a -> denotes (fst y) b -> ~ overlap a b) mdict ->
  file_writes wo rnd tries n (mkFile true s) mdict = (f, Ok tt) -> no_repeat rnd (rpos s) (rpos (fl_st f)) ->
  forall p v, In (p, v) mdict -> plain_np v -> exists t, denotes p t /\
    (walk (hp (fl_st f)) 0 t = None \/
     exists j ob modname name cls i ts, walk (hp (fl_st f)) 0 t = Some j /\ hp (fl_st f) j = Some ob /\
       o_attrs ob (lit "Python.Type") = Some (AStr ts) /\
       type_of v = Some (modname, name) /\ In (cls, i) builtin_classes /\ get_type_string i modname name = Ok ts).
Proof.
  intros refs s wo rnd tries n mdict f GR HR U K M OK ND E NR p v Hin P.
  destruct (api_filled refs s wo rnd tries n mdict f GR HR U K OK ND E NR p v Hin) as (t & D & F).
  exists t. split; [exact D|]. unfold filled in F. destruct (plan wo n v) as [[T|]|e] eqn:EP; [|left; exact F|destruct F].
  right. destruct F as (j & W & L). destruct L as (_ & _ & Q & _ & _ & _ & R).
  destruct (rep_typed _ _ _ _ _ _ R (plan_typed wo n v T M EP)) as (ob & E1 & E2).
  destruct (value_class v P) as (m & nn & cls & i & A & B & C & _).
  exists j, ob, m, nn, cls, i, (string_of v). auto 7.
Qed.
Print Assumptions C55_in_file.

(** C55: with the builtin marshallers only, everything that can be in a file is
    read by the class the model of reading takes: the one of the type string if
    it is one of theirs, and NumpyScalarArrayMarshaller for all the rest,
    whatever MATLAB_class says. *)
Theorem C55_default_reader : forall info env sys0 b lazy prio ops st st' os ts mc d,
  coherent env sys0 -> builtin_instances info b ->
  create info env sys0 b [] lazy prio [] = Ok st -> run info env st ops = (fst st', snd st', os) ->
  (forall op, In op ops -> match op with OpAdd _ => False | _ => True end) ->
  (forall t, d = Some t -> exists x, ty_key t = lit "numpy." ++ x /\ x <> lit "dtype") ->
  exists m has, pick_read info env st' ts mc d = Ok (m, has) /\ instance info b m (class_of_kind (reader_kind ts)) /\
    (has = true <-> available info env sys0 m).
Proof.
  intros info env sys0 b lazy prio ops st st' os ts mc d Hc Hb Hcr Hr Hops Hd.
  destruct (C55_read info env sys0 b [] lazy prio [] ops st st' os ts mc d Hc Hcr Hr) as (r & R & E).
  assert (V : s_visible (spec_run {| s_user := []; s_visible := [] |} ops) = [] /\ s_user (spec_run {| s_user := []; s_visible := [] |} ops) = []).
  { clear - Hops. revert Hops. induction ops as [|op ops IH] using rev_ind; intros H; [auto|]. unfold spec_run in *. rewrite fold_left_app. cbn [fold_left].
    destruct IH as [A B]; [intros x Hx; apply H; apply in_or_app; left; exact Hx|].
    destruct (fold_left spec_step ops _) as [u w]. cbn [s_user s_visible] in A, B. subst u w.
    specialize (H op ltac:(apply in_or_app; right; left; reflexivity)). destruct op; try contradiction; cbn [spec_step s_user s_visible spec_remove filter]; auto. }
  assert (El : in_order prio b [] [] ops = b).
  { assert (P : Permutation prio three).
    { pose proof (create_from info env sys0 sys0 b [] lazy prio [] Hc (msys_refl env sys0)) as C. cbn [existsb] in C. destruct C as [_ C].
      destruct (perm_dec prio three) as [X|X]; [exact X|]. rewrite (C X) in Hcr. discriminate. }
    unfold in_order. cbn [spec_add]. rewrite (proj1 V). unfold ordered.
    apply (one_of_three prio b P). }
  rewrite El in R. destruct (builtin_reads info b ts mc d Hb Hd) as (m & R' & I).
  rewrite (reads_by_fun _ _ _ _ _ _ _ R R') in E. destruct E as (has & E & H). exists m, has. auto.
Qed.
Print Assumptions C55_default_reader.

(** A concrete world: the builtin marshallers are 0 to 13; 98 is a plugin that
    declares numpy.ndarray and a type string of its own; 99 declares no type, but
    the type string "dict". *)
Definition d_info (m : mid) : minfo :=
  if N.eqb m 99 then table [] ["dict"%string] []
  else if N.eqb m 98 then table [ob "numpy" "ndarray"] ["mine"%string] ["cell"%string]
  else snd (nth (N.to_nat m) builtin_classes (""%string, table [] [] [])).
Definition d_builtin : list mid := map N.of_nat (seq 0 14).
Definition d_env : pyenv :=
  {| findable := fun n => eqb_str n (lit "fractions"); importable := fun n => eqb_str n (lit "fractions"); brings := fun _ => []; kept := fun _ => [] |}.
Lemma d_coherent : coherent d_env [].
Proof. split; [intros n H; exact H|]. cbn. tauto. Qed.
Lemma d_instances : builtin_instances d_info d_builtin.
Proof. unfold builtin_instances, d_builtin, builtin_classes. cbn [seq map]. repeat (constructor; [reflexivity|]). constructor. Qed.

(** with the builtin ones first *)
Example d_first : match create d_info d_env [] d_builtin [98%N] true [lit "builtin"; lit "plugin"; lit "user"] [Some 99%N] with
  | Ok st => [pick_write d_info d_env st (ob "builtins" "dict"); pick_write d_info d_env st (ob "numpy" "ndarray");
              pick_write d_info d_env st (ob "fractions" "Fraction"); pick_write d_info d_env st (ob "builtins" "object")]
             = [Ok 5%N; Ok 1%N; Ok 6%N; Err NotImplementedError] /\
             [pick_read d_info d_env st (Some (lit "dict")) (Some (lit "struct")) None;
              pick_read d_info d_env st (Some (lit "mine")) None None;
              pick_read d_info d_env st (Some (lit "unknown")) (Some (lit "cell")) None;
              pick_read d_info d_env st None (Some (lit "cell")) None; pick_read d_info d_env st None None None]
             = [Ok (5%N, true); Ok (98%N, true); Ok (1%N, true); Ok (1%N, true); Ok (1%N, true)]
  | Err _ => False
  end.
Proof. vm_compute. split; reflexivity. Qed.
(** and the hypotheses of the theorems hold of it *)
Example d_strings : string_for d_info 5%N (lit "builtins") (lit "dict") (lit "dict") /\
  string_for d_info 6%N (lit "fractions") (lit "Fraction") (lit "fractions.Fraction") /\
  string_for d_info 9%N (lit "builtins") (lit "int") (lit "long") /\ In 6%N d_builtin /\ available d_info d_env [] 6%N.
Proof.
  split; [vm_compute; reflexivity|]. split; [vm_compute; reflexivity|]. split; [vm_compute; reflexivity|]. split; [vm_compute; auto 20|].
  split; intros n [<-|[]]; right; reflexivity.
Qed.

(** C55, finding: in general it is false.  With the user marshallers first, one
    that declares the type string of another marshaller, but not its type, reads
    what the other one wrote. *)
Theorem C55_read_by_writer_refuted : ~ forall info env sys0 b p lazy prio ms st m modname name s mc d,
  coherent env sys0 -> builtin_instances info b -> Permutation prio [lit "builtin"; lit "plugin"; lit "user"] ->
  create info env sys0 b p lazy prio ms = Ok st ->
  pick_write info env st (TyObj modname name) = Ok m -> string_for info m modname name s ->
  pick_read info env st (Some s) mc d = Ok (m, true).
Proof.
  intros H. destruct (create d_info d_env [] d_builtin [98%N] true [lit "user"; lit "builtin"; lit "plugin"] [Some 99%N]) as [st|] eqn:E; [|vm_compute in E; discriminate].
  specialize (H d_info d_env [] d_builtin [98%N] true [lit "user"; lit "builtin"; lit "plugin"] [Some 99%N] st 5%N (lit "builtins") (lit "dict") (lit "dict") None None
    d_coherent d_instances).
  assert (P : Permutation [lit "user"; lit "builtin"; lit "plugin"] [lit "builtin"; lit "plugin"; lit "user"]).
  { apply Permutation_sym. apply (Permutation_app_comm [lit "builtin"; lit "plugin"] [lit "user"]). }
  specialize (H P E). clear P. vm_compute in E. injection E as <-.
  specialize (H ltac:(vm_compute; reflexivity) ltac:(vm_compute; reflexivity)). vm_compute in H. discriminate.
Qed.
Print Assumptions C55_read_by_writer_refuted.
