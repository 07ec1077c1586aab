(** A write that is cut short has done some of the elementary changes. *)
From Verif Require Import Base PathEsc PosixPath PosixFacts ProcessPath ProcessPathFacts Unicode MColl Dec NdArray Value OptionsM StrConv Attrs Hdf5 HeapFacts NpWrite NpRead MarshalW MarshalR FileApi ApiFacts CutM CutFrame CutFacts ApiSpec FilterSpec FileFacts HistoryFacts Steps.
Local Open Scope nat_scope.

Section Cut.
Variables (o : options) (rnd : nat -> N) (tries : nat).
Notation steps := (steps o). Notation does := (@does o _).
Definition doesT {A} (m : T A) : Prop := forall s, steps s (fst (snd (m s))) /\ forall x, fst (m s) x -> steps s x.
Lemma dT_pure {A} (m : M A) : does m -> doesT (pure m). Proof. intros H s. split; [apply H|intros x []]. Qed.
Lemma dT_op {A} (m : M A) : does m -> doesT (op m). Proof. intros H s. split; [apply H|]. intros x <-. apply H. Qed.
Lemma dT_bind {A B} (m : T A) (k : A -> T B) : doesT m -> (forall a, doesT (k a)) -> doesT (bindt m k).
Proof.
  intros H1 H2 s. unfold bindt. destruct (H1 s) as [X Y]. destruct (snd (m s)) as [s1 [a|e]]; cbn [fst snd] in *; [|auto].
  destruct (H2 a s1) as [X2 Y2]. split; [eapply steps_app; eassumption|]. intros x [Hx|Hx]; [auto|eapply steps_app; [exact X|auto]].
Qed.
Lemma dT_ret {A} (a : A) : doesT (pure (ret a)). Proof. apply dT_pure, does_ret. Qed.
Lemma dT_gets {A} (f : st -> A) : doesT (pure (gets f)). Proof. apply dT_pure, does_gets. Qed.
Lemma dT_iter {A} (f : A -> T unit) l : (forall a, doesT (f a)) -> doesT (iterT f l).
Proof. intros H. induction l as [|x l IH]; cbn [iterT]; [apply dT_ret|]. apply dT_bind; [apply H|]. intros _. exact IH. Qed.
Lemma dT_map {A B} (f : A -> T B) l : (forall a, doesT (f a)) -> doesT (mapT f l).
Proof. intros H. induction l as [|x l IH]; cbn [mapT]; [apply dT_ret|]. apply dT_bind; [apply H|]. intros y. apply dT_bind; [exact IH|]. intros ys. apply dT_ret. Qed.
Lemma put_states_keys ex reqs : forall a x, put_states ex reqs a x -> forall k v, x k = Some v -> a k = Some v \/ In k (map fst reqs).
Proof.
  induction reqs as [|[k0 q] reqs IH]; intros a x; cbn [put_states]; [intros ->; auto|]. intros [->|H] k v E; [auto|].
  destruct (put_attr ex k0 q a) as [a'|] eqn:P; [|destruct H]. destruct (IH a' x H k v E) as [X|X]; [|right; right; exact X].
  destruct (put_attr_keys _ _ _ _ _ P k v X) as [Y| ->]; [auto|]. right. left. reflexivity.
Qed.
Lemma dT_sync i reqs d : (forall k, In k (map fst reqs) -> attr_allowed o k) -> doesT (sync_attrsT i reqs d).
Proof.
  intros A s. split; [apply does_sync; exact A|]. intros x (a & ob & E & H & ->). apply steps_one, St_attrs; [exact E|].
  intros k v Hk. rewrite <- (attrs_at _ _ _ E). destruct H as [H|(_ & _ & H)].
  - destruct (put_states_keys _ _ _ _ H k v Hk) as [X|X]; auto.
  - destruct (H k) as [Y|[Y _]]; [|congruence]. rewrite Y in Hk. destruct (put_attrs_keys _ _ _ _ _ Hk) as [X|X]; auto.
Qed.
Lemma dT_refs : doesT (ensure_refsT o).
Proof.
  intros s. unfold ensure_refsT. destruct (rgrp s); [apply dT_ret|]. revert s. fold (@doesT nat).
  assert (NG : doesT (step* g := op (create_group 0 (o_refs o)) in new_refsT g)).
  { apply dT_bind; [apply dT_op, does_group|]. intros g. unfold new_refsT. do 2 (apply dT_bind; [apply dT_op, does_session; reflexivity|]; intros _). apply dT_ret. }
  apply dT_bind; [apply dT_pure, does_get|]. intros [g|]; [|exact NG]. apply dT_bind; [apply dT_gets|]. intros [|].
  - apply dT_bind; [apply dT_op, does_session; reflexivity|]. intros _. apply dT_ret.
  - apply dT_bind; [apply dT_op, does_unlink|]. intros _. exact NG.
Qed.
Lemma dT_new_canon g : doesT (new_canonT g).
Proof.
  intros s. split; [apply does_new_canon|]. intros x (a & Ha & X).
  assert (Y : steps s (fst (new_link g (lit "a") a canon_body s))).
  { unfold new_link. change (name_err (lit "a")) with (@None exn). cbn iota.
    change (path_comps (lit "a")) with [lit "a"]. cbn [create_at]. change (start_of g (lit "a")) with g.
    destruct (lookup (hp s) g (lit "a")) eqn:L; [constructor|].
    destruct (is_group (hp s) g) eqn:G; [rewrite alloc_eq by exact G; apply steps_one, St_canon; assumption|rewrite alloc_nogroup by exact G; constructor]. }
  destruct X as [[_ ->]|(c & _ & ->)]; [exact Y|]. eapply steps_app; [exact Y|]. apply steps_one, St_session; reflexivity.
Qed.
Lemma dT_canon g : doesT (ensure_canonT g).
Proof.
  intros s. unfold ensure_canonT. destruct (canon s); [apply dT_ret|]. destruct (lookup (hp s) g (lit "a")) as [c|]; [|apply dT_new_canon].
  destruct (is_canonical (hp s) c).
  - apply dT_bind; [apply dT_op, does_session; reflexivity|]. intros _. apply dT_ret.
  - apply dT_bind; [apply dT_op, does_unlink|]. intros _. apply dT_new_canon.
Qed.

Section Wr.
Variable wr : nat -> pystr -> pyval -> T (option nat).
Hypothesis Hwr : forall g nm v, doesT (wr g nm v).
Lemma dT_element g c v : doesT (write_elementT o rnd tries wr g c v).
Proof.
  unfold write_elementT. apply dT_bind; [apply dT_op, does_next|]. intros nm. apply dT_bind; [apply Hwr|]. intros [i|]; [|apply dT_ret].
  apply dT_bind; [apply dT_gets|]. intros p. apply dT_bind; [apply dT_op, does_mark|]. intros _. apply dT_ret.
Qed.
Lemma dT_object_array a : doesT (write_object_arrayT o rnd tries wr a).
Proof.
  unfold write_object_arrayT. apply dT_bind; [apply dT_refs|]. intros g. apply dT_bind; [apply dT_canon|]. intros c.
  apply dT_bind; [apply dT_map; intros; apply dT_element|]. intros r. apply dT_ret.
Qed.
Lemma dT_open g nm : doesT (open_groupT g nm).
Proof.
  unfold open_groupT. apply dT_bind; [apply dT_pure, does_get|]. intros [i|]; [|apply dT_op, does_group]. apply dT_bind; [apply dT_gets|].
  intros [|]; [apply dT_ret|]. apply dT_bind; [apply dT_op, does_unlink|]. intros _. apply dT_op, does_group.
Qed.
Lemma dT_prune i keep : doesT (pruneT i keep).
Proof. intros s. unfold pruneT. apply dT_iter. intros k. apply dT_op, does_unlink_at. Qed.
Lemma dT_field i b nf : doesT (write_fieldT o wr i b nf).
Proof.
  destruct nf as [n [name f]]. unfold write_fieldT. apply dT_bind; [apply Hwr|]. intros [j|]; [|apply dT_ret].
  apply dT_bind; [apply dT_gets|]. intros p. apply dT_sync. destruct (o_matlab_compatible o) eqn:E; [|intros k []]. intros k [<-|[]].
  apply mat_ok; [exact E|left; reflexivity].
Qed.
Lemma dT_struct g nm b : doesT (write_structT o wr g nm b).
Proof.
  unfold write_structT. apply dT_bind; [apply dT_open|]. intros i. apply dT_bind; [destruct (o_delete_unused o); [apply dT_prune|apply dT_ret]|]. intros _.
  apply dT_bind; [apply dT_iter; intros; apply dT_field|]. intros _. apply dT_ret.
Qed.
Lemma dT_put g nm a : doesT (put_datasetT o g nm a).
Proof.
  unfold put_datasetT. set (df := np_filters o (a_shape a) (size a * itemsize (a_dt a))).
  assert (RP : doesT (replace_datasetT g nm a (filt_of df))).
  { apply dT_bind; [apply dT_op, does_unlink|]. intros _. apply dT_op, does_create_dataset. }
  apply dT_bind; [apply dT_pure, does_catch; [apply does_get|intros; apply does_ret]|]. intros [i|]; [|apply dT_op, does_create_dataset].
  intros s. unfold bindt at 1 2. unfold pure, gets. cbn [fst snd]. 
  match goal with |- context [same_dataset ?b a df] => set (bb := b) end.
  destruct (same_dataset bb a df) eqn:E1; [|destruct (RP s) as [R1 R2]; split; [exact R1|intros x [[]|Hx]; auto]].
  destruct (same_opts bb df) as [[|]|] eqn:E2; [|destruct (RP s) as [R1 R2]; split; [exact R1|intros x [[]|Hx]; auto]|split; [constructor|intros x [[]|[]]]].
  split.
  - cbn [snd overwriteT]. unfold overwrite. destruct (hp s i) as [ob|] eqn:Eo; [|constructor]. destruct (o_body ob) as [old f|] eqn:Eb; [|constructor].
    unfold bb in E1, E2. rewrite ?Eo, ?Eb in E1, E2. apply steps_one. apply (St_over o s i ob old f a (a_data a)); assumption.
  - intros x [[]|(ob & old & f & d & Eo & Eb & _ & _ & ->)]. unfold bb in E1, E2. rewrite Eo, Eb in E1, E2.
    apply steps_one. apply (St_over o s i ob old f a d); assumption.
Qed.
Lemma dT_np g nm v ts : doesT (np_writeT o rnd tries wr g nm v ts).
Proof.
  destruct v as [c a]. unfold np_writeT. destruct (_ && _); [apply dT_pure, does_fail|]. destruct (_ && _); [apply dT_ret|].
  apply dT_bind; [apply dT_pure, does_lift|]. intros b. destruct (as_group _ _ _).
  - apply dT_bind; [apply dT_struct|]. intros i. apply dT_bind; [apply dT_sync, (np_attrs_allowed o rnd tries); destruct (o_matlab_compatible o) eqn:E; [intros k [<-|[]]; apply mat_ok; [exact E|apply mem_str_In; reflexivity]|intros k []]|]. intros _. apply dT_ret.
  - apply dT_bind; [destruct (a_dt b); try apply dT_ret; apply dT_object_array|]. intros d. apply dT_bind; [apply dT_put|]. intros i.
    apply dT_bind; [apply dT_gets|]. intros t. apply dT_bind; [apply dT_sync, (np_attrs_allowed o rnd tries); intros k []|]. intros _. apply dT_ret.
Qed.
Lemma dT_item i p kv : doesT (write_itemT o wr i p kv).
Proof. unfold write_itemT. apply dT_bind; [apply Hwr|]. intros [j|]; [apply dT_op, does_mark|apply dT_ret]. Qed.
Lemma dT_dict g nm items ts plain : doesT (dict_writeT o wr g nm items ts plain).
Proof.
  unfold dict_writeT. apply dT_bind; [apply dT_open|]. intros i. apply dT_bind; [apply dT_sync, (dict_attrs_allowed o rnd tries)|]. intros _.
  apply dT_bind; [match goal with |- doesT (if ?c then _ else _) => destruct c end; [apply dT_prune|apply dT_ret]|]. intros _. apply dT_bind; [apply dT_gets|]. intros p.
  apply dT_bind; [apply dT_pure, does_if; [apply does_bind; [apply does_lift|intros; apply does_ret]|apply does_ret]|]. intros _.
  apply dT_bind; [apply dT_iter; intros; apply dT_item|]. intros _. apply dT_ret.
Qed.
Lemma dT_value g nm v : doesT (write_valueT o rnd tries wr g nm v).
Proof.
  destruct v; cbn [write_valueT]; try apply dT_np; try apply dT_dict; try (apply dT_pure, does_fail).
  apply dT_bind; [apply dT_pure, does_lift|]. intros b. apply dT_np.
Qed.
End Wr.
Lemma dT_write n : forall g nm v, doesT (writeT o rnd tries n g nm v).
Proof. induction n as [|n IH]; intros g nm v; cbn [writeT]; [apply dT_pure, does_fail|]. apply dT_value. exact IH. Qed.
Lemma dT_write_at n g t v : doesT (write_atT o rnd tries n g t v).
Proof. unfold write_atT. apply dT_bind; [apply dT_op, does_require|]. intros i. apply dT_bind; [apply dT_write|]. intros _. apply dT_ret. Qed.
Lemma does_cut n f mdict s' : cut_states o rnd tries n f mdict s' -> steps (fl_st f) s'.
Proof.
  intros [->|H]; [constructor|]. unfold file_writesT in H. destruct (mapr _ mdict) as [l|]; [|destruct H]. destruct (fl_open f); [|destruct H].
  refine (proj2 (dT_iter _ l _ (fl_st f)) s' H). intros x. apply dT_write_at.
Qed.
End Cut.
