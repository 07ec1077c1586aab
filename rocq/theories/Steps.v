(** Everything a write does to a file is a sequence of a few elementary changes; so what
    these preserve holds of every file. *)
From Verif Require Import Base PathEsc PosixPath PosixFacts ProcessPath ProcessPathFacts Unicode MColl Dec NdArray Value OptionsM StrConv Attrs Hdf5 HeapFacts NpWrite NpRead MarshalW MarshalR FileApi CutM ApiFacts ApiSpec FilterSpec FileFacts HistoryFacts.
Local Open Scope nat_scope.

Definition put_new (s : st) (g : nat) (k : pystr) (a : attrs) (b : body) : st :=
  mkSt (add_obj (hp s) g k (nxt s) a b) (S (nxt s)) (rgrp s) (rcreated s) (canon s) (counter s) (rpos s).
Definition good_link (k : pystr) : Prop := clean k /\ Forall okch k.

Section Steps.
Variables (o : options) (rnd : nat -> N) (tries : nat).

Inductive step : st -> st -> Prop :=
| St_group s g k : is_group (hp s) g = true -> lookup (hp s) g k = None -> good_link k -> step s (put_new s g k no_attrs (BGroup []))
| St_canon s g a : In a canon_parts -> is_group (hp s) g = true -> lookup (hp s) g (lit "a") = None -> step s (put_new s g (lit "a") a canon_body)
| St_data s g k a : is_group (hp s) g = true -> lookup (hp s) g k = None -> good_link k -> h5_able (a_dt a) = true ->
    step s (put_new s g k no_attrs (BData (mkArr (stored_dt (a_dt a)) (a_shape a) (a_data a)) (filt_of (np_filters o (a_shape a) (size a * itemsize (a_dt a))))))
| St_attrs s i ob at_ : hp s i = Some ob -> (forall k v, at_ k = Some v -> o_attrs ob k = Some v \/ attr_allowed o k) -> step s (set_hp s (upd (hp s) i (with_attrs ob at_)))
| St_unlink s g k j : lookup (hp s) g k = Some j -> step s (set_hp s (rm_link (hp s) g k))
| St_over s i ob old f a d : hp s i = Some ob -> o_body ob = BData old f ->
    same_dataset (BData old f) a (np_filters o (a_shape a) (size a * itemsize (a_dt a))) = true ->
    same_opts (BData old f) (np_filters o (a_shape a) (size a * itemsize (a_dt a))) = Some true ->
    step s (set_hp s (upd (hp s) i (with_body ob (BData (mkArr (a_dt old) (a_shape old) d) f))))
| St_session s s' : hp s' = hp s -> nxt s' = nxt s -> step s s'.
Inductive steps : st -> st -> Prop :=
| steps_nil s : steps s s
| steps_cons s s1 s2 : step s s1 -> steps s1 s2 -> steps s s2.
Lemma steps_one s s' : step s s' -> steps s s'. Proof. intros H. econstructor; [exact H|constructor]. Qed.
Lemma steps_app s1 s2 s3 : steps s1 s2 -> steps s2 s3 -> steps s1 s3.
Proof. induction 1; [auto|]. intros H2. econstructor; eauto. Qed.

Definition does {A} (m : M A) : Prop := forall s, steps s (fst (m s)).
Lemma does_ret {A} (a : A) : does (ret a). Proof. intros s. constructor. Qed.
Lemma does_fail {A} e : does (@fail A e). Proof. intros s. constructor. Qed.
Lemma does_lift {A} (r : res A) : does (lift r). Proof. intros s. constructor. Qed.
Lemma does_gets {A} (f : st -> A) : does (gets f). Proof. intros s. constructor. Qed.
Lemma does_bind {A B} (m : M A) (k : A -> M B) : does m -> (forall a, does (k a)) -> does (bindm m k).
Proof.
  intros H1 H2 s. unfold bindm. pose proof (H1 s) as X. destruct (m s) as [s1 [a|e]]; cbn [fst] in *; [|exact X].
  eapply steps_app; [exact X|apply H2].
Qed.
Lemma does_if {A} (b : bool) (m1 m2 : M A) : does m1 -> does m2 -> does (if b then m1 else m2). Proof. destruct b; auto. Qed.
Lemma does_iter {A} (f : A -> M unit) l : (forall a, In a l -> does (f a)) -> does (iterM f l).
Proof. induction l as [|x l IH]; intros H; cbn [iterM]; [apply does_ret|]. apply does_bind; [apply H; left; reflexivity|]. intros _. apply IH. intros a Ha. apply H. right. exact Ha. Qed.
Lemma does_map {A B} (f : A -> M B) l : (forall a, does (f a)) -> does (mapM f l).
Proof.
  intros H. induction l as [|x l IH]; cbn [mapM]; [apply does_ret|]. apply does_bind; [apply H|]. intros y. apply does_bind; [exact IH|]. intros ys. apply does_ret.
Qed.
Lemma does_catch {A} (m : M A) h : does m -> (forall e, does (h e)) -> does (catch m h).
Proof.
  intros H1 H2 s. unfold catch. pose proof (H1 s) as X. destruct (m s) as [s1 [a|e]]; cbn [fst] in *; [exact X|]. eapply steps_app; [exact X|apply H2].
Qed.
Lemma does_get g name : does (get_obj g name).
Proof. unfold get_obj. destruct (name_err name); [apply does_fail|apply does_gets]. Qed.
Lemma does_session f : (forall s, hp (f s) = hp s) -> (forall s, nxt (f s) = nxt s) -> does (set_session f).
Proof. intros H1 H2 s. apply steps_one, St_session; [apply H1|apply H2]. Qed.

Lemma comps_good name : Forall okch name -> Forall good_link (path_comps name).
Proof.
  intros F. pose proof (path_comps_clean name) as C. apply Forall_forall. intros k Hk. rewrite Forall_forall in C. split; [auto|].
  apply Forall_forall. intros c Hc. rewrite Forall_forall in F. apply F. unfold path_comps in Hk. apply filter_In in Hk. destruct Hk as [Hk _].
  clear C F. revert k Hk Hc. induction name as [|x name IH]; cbn [split_slash]; intros k Hk Hc.
  - destruct Hk as [<-|[]]. exact Hc.
  - destruct (x =? fslash)%N.
    + destruct Hk as [<-|Hk]; [destruct Hc|]. right. eapply IH; eassumption.
    + destruct (split_slash name) as [|w ws].
      * destruct Hk as [<-|[]]. destruct Hc as [<-|[]]. left. reflexivity.
      * destruct Hk as [<-|Hk]; [destruct Hc as [<-|Hc]; [left; reflexivity|right; eapply IH; [left; reflexivity|exact Hc]]|].
        right. eapply IH; [right; exact Hk|exact Hc].
Qed.
Lemma does_create_at at_ b : (forall s g k, is_group (hp s) g = true -> lookup (hp s) g k = None -> good_link k -> step s (put_new s g k at_ b)) ->
  forall cs g, Forall good_link cs -> does (create_at g cs at_ b).
Proof.
  intros H. induction cs as [|k cs IH]; intros g F; cbn [create_at]; [apply does_fail|]. inversion F as [|? ? Hk Hcs]; subst.
  destruct cs as [|k2 cs].
  - intros s. destruct (lookup (hp s) g k) eqn:L; [constructor|]. destruct (is_group (hp s) g) eqn:G.
    + rewrite alloc_eq by exact G. apply steps_one. apply H; auto.
    + rewrite alloc_nogroup by exact G. constructor.
  - intros s. destruct (lookup (hp s) g k) eqn:L; [apply IH; exact Hcs|].
    destruct (is_group (hp s) g) eqn:G; unfold bindm.
    + rewrite alloc_eq by exact G. eapply steps_cons; [apply (St_group s g k G L Hk)|]. apply IH. exact Hcs.
    + rewrite alloc_nogroup by exact G. constructor.
Qed.
Lemma does_new_link g name at_ b : (forall s g k, is_group (hp s) g = true -> lookup (hp s) g k = None -> good_link k -> step s (put_new s g k at_ b)) ->
  does (new_link g name at_ b).
Proof.
  intros H. unfold new_link. destruct (name_err name) eqn:N; [apply does_fail|]. apply does_create_at; [exact H|]. apply comps_good. apply name_err_iff in N. apply N.
Qed.
Lemma does_group g name : does (create_group g name).
Proof. apply does_new_link. intros. apply St_group; assumption. Qed.
Lemma does_unlink_at cs : forall g, does (unlink_at g cs).
Proof.
  intros g s. rewrite unlink_at_eq. destruct (rev cs) as [|k r]; [constructor|]. destruct (walk (hp s) g (rev r)) as [i|]; [|constructor].
  destruct (lookup (hp s) i k) eqn:L; [|constructor]. apply steps_one. eapply St_unlink. exact L.
Qed.
Lemma does_unlink g name : does (unlink g name).
Proof. unfold unlink. destruct (name_err name); [apply does_fail|apply does_unlink_at]. Qed.
Lemma does_require name : does (require_group name).
Proof.
  unfold require_group. apply does_bind; [apply does_get|]. intros [i|]; [|apply does_group]. intros s. destruct (is_group (hp s) i); constructor.
Qed.
Lemma attrs_at s i ob : hp s i = Some ob -> attrs_of (hp s) i = o_attrs ob.
Proof. intros E. unfold attrs_of. rewrite E. reflexivity. Qed.
Lemma does_set_attrs i a s : (forall k v, a k = Some v -> attrs_of (hp s) i k = Some v \/ attr_allowed o k) -> steps s (fst (set_attrs i a s)).
Proof.
  intros H. unfold set_attrs. destruct (hp s i) as [ob|] eqn:E; [|constructor]. apply steps_one. apply St_attrs; [exact E|].
  rewrite <- (attrs_at _ _ _ E). exact H.
Qed.
Lemma does_modify i k v : attr_allowed o k -> does (modify_attr i k v).
Proof. intros A s. apply does_set_attrs. intros k' v'. unfold set_attr. destruct (eqb_str_spec k' k) as [->|]; auto. Qed.
Lemma does_drop i k : does (drop_attr i k).
Proof. intros s. apply does_set_attrs. intros k' v'. unfold del_attr. destruct (eqb_str k' k); [discriminate|auto]. Qed.
Lemma put_attr_keys ex k q a a' : put_attr ex k q a = Ok a' -> forall k' v, a' k' = Some v -> a k' = Some v \/ k' = k.
Proof.
  assert (S : forall w k' v, set_attr k w a k' = Some v -> a k' = Some v \/ k' = k).
  { intros w k' v. unfold set_attr. destruct (eqb_str_spec k' k); auto. }
  unfold put_attr. intros E.
  repeat match type of E with
         | context [match ?x with _ => _ end] => destruct x; cbn [bindr] in E; try discriminate E
         | bindr ?x _ = _ => destruct x; cbn [bindr] in E; try discriminate E
         end; injection E as <-; eauto.
Qed.
Lemma put_attrs_keys ex reqs : forall a k v, fst (put_attrs ex reqs a) k = Some v -> a k = Some v \/ In k (map fst reqs).
Proof.
  induction reqs as [|[k0 q] reqs IH]; intros a k v; cbn [put_attrs]; [auto|].
  destruct (put_attr ex k0 q a) as [a'|] eqn:E; [|auto]. intros H. apply IH in H. destruct H as [H|H]; [|right; right; exact H].
  destruct (put_attr_keys _ _ _ _ _ E k v H) as [X| ->]; [auto|]. right. left. reflexivity.
Qed.
Lemma does_sync i reqs d : (forall k, In k (map fst reqs) -> attr_allowed o k) -> does (sync_attrs i reqs d).
Proof.
  intros A s. unfold sync_attrs. destruct (set_attributes_all (attrs_of (hp s) i) reqs d) as [a e] eqn:E.
  assert (X : steps s (fst (set_attrs i a s))).
  { apply does_set_attrs. intros k v H. unfold set_attributes_all in E.
    pose proof (put_attrs_keys (attrs_of (hp s) i) reqs (attrs_of (hp s) i) k) as P.
    destruct (put_attrs (attrs_of (hp s) i) reqs (attrs_of (hp s) i)) as [a1 e1]. cbn [fst] in P.
    assert (Y : a1 k = Some v).
    { destruct e1; injection E as <- <-; [exact H|]. destruct (d && negb (mem_str k (map fst reqs))); [discriminate|exact H]. }
    destruct (P v Y); auto. }
  destruct (set_attrs i a s) as [s1 [u|e1]]; cbn [fst] in *; [|exact X]. destruct e; exact X.
Qed.
Lemma dput_in {B} k (v : B) l k' : In k' (map fst (dput k v l)) -> k' = k \/ In k' (map fst l).
Proof.
  induction l as [|[k0 v0] l IH]; cbn [dput map fst In].
  - intros [<-|[]]. auto.
  - destruct (eqb_str _ _) eqn:Q; cbn [map fst In].
    + intros [<-|H]; auto.
    + intros [<-|H]; auto. apply IH in H. tauto.
Qed.
Lemma py_ok k : o_store_python_metadata o = true -> python_attr k -> attr_allowed o k. Proof. left; auto. Qed.
Lemma mat_ok k : o_matlab_compatible o = true -> In k matlab_attrs -> attr_allowed o k. Proof. right; auto. Qed.
Lemma py_test k : eqb_str (firstn 7 k) (lit "Python.") = true -> python_attr k.
Proof. intros H. apply eqb_str_eq in H. exists (skipn 7 k). rewrite <- H. symmetry. apply firstn_skipn. Qed.
Ltac allowed :=
  first [ apply py_ok; [assumption|apply py_test; reflexivity] | apply mat_ok; [assumption|apply mem_str_In; reflexivity] ].
Definition all_allowed (l : list (pystr * areq)) : Prop := forall k, In k (map fst l) -> attr_allowed o k.
Lemma allowed_dput k q l : attr_allowed o k -> all_allowed l -> all_allowed (dput k q l).
Proof. intros A L k' H. apply dput_in in H. destruct H as [->|H]; auto. Qed.
Lemma allowed_let f e : all_allowed e -> (forall x, all_allowed x -> all_allowed (f x)) -> all_allowed (let x := e in f x).
Proof. intros H G. apply G, H. Qed.
Ltac one_let H := match goal with |- all_allowed (let x := ?e in @?f x) => refine (allowed_let f e _ _); [|intros ? H; cbv beta] end.
Lemma np_attrs_allowed v ts pre b t : all_allowed pre -> all_allowed (np_attrs o v ts pre b t).
Proof.
  destruct v as [c a]. intros HP. cbv beta delta [np_attrs]. cbv iota.
  destruct (o_store_python_metadata o) eqn:EM; destruct (o_matlab_compatible o) eqn:EC; cbv iota delta [andb];
  (one_let K1; [repeat (apply allowed_dput; [allowed|]); exact HP|];
   one_let K2; [destruct (b || fields_anyway o a); cbv zeta; [try destruct (matlab_fields (map escaped (field_names (a_dt a)))); repeat (apply allowed_dput; [allowed|]); exact K1|exact K1]|];
   one_let K3; [destruct (np_empty a); cbv zeta; repeat (apply allowed_dput; [allowed|]); exact K2|];
   one_let K4; [try (destruct (is_struct (a_dt a)), (o_struct_as_struct o); cbv iota; try destruct (matlab_class_of (a_dt a)); cbv zeta; try (destruct (a_dt a); try destruct t as [[]|]));
      repeat (apply allowed_dput; [allowed|]); exact K3|]).
  all: try match goal with |- context [if negb ?b then _ else _] => destruct (negb b) end; repeat (apply allowed_dput; [allowed|]); exact K4.
Qed.
Lemma dict_attrs_allowed ts plain codes : all_allowed (dict_attrs o ts plain codes).
Proof.
  unfold dict_attrs.
  destruct (o_store_python_metadata o) eqn:EM; destruct (o_matlab_compatible o) eqn:EC; cbn [andb]; cbv zeta;
   destruct codes as [cs|]; try (destruct (matlab_fields _)); destruct plain; repeat (apply allowed_dput; [allowed|]); cbn [all_allowed map fst In];
   intros k H; repeat (destruct H as [<-|H]; [allowed|]); destruct H.
Qed.
Lemma does_create_dataset g name a : does (create_dataset g name a (filt_of (np_filters o (a_shape a) (size a * itemsize (a_dt a))))).
Proof.
  unfold create_dataset. destruct (h5_able (a_dt a)) eqn:H; [|apply does_fail]. apply does_new_link. intros. apply St_data; assumption.
Qed.
Lemma does_refs : does (ensure_refs o).
Proof.
  intros s. unfold ensure_refs. destruct (rgrp s); [constructor|]. revert s. fold (@does nat).
  apply does_bind; [apply does_get|]. intros [g|].
  - apply does_bind; [apply does_gets|]. intros [|].
    + apply does_bind; [apply does_session; reflexivity|]. intros _. apply does_ret.
    + apply does_bind; [apply does_unlink|]. intros _. apply does_bind; [apply does_group|]. intros g'.
      apply does_bind; [apply does_session; reflexivity|]. intros _. apply does_ret.
  - apply does_bind; [apply does_group|]. intros g'. apply does_bind; [apply does_session; reflexivity|]. intros _. apply does_ret.
Qed.
Lemma good_a : good_link (lit "a").
Proof. split; [split; [discriminate|split; [discriminate|intros [H|[]]; discriminate]]|]. repeat constructor; discriminate. Qed.
Lemma does_new_canon g : does (new_canon g).
Proof.
  unfold new_canon. apply does_bind.
  - unfold new_link. change (name_err (lit "a")) with (@None exn). cbn iota. change (path_comps (lit "a")) with [lit "a"]. cbn [create_at]. intros s.
    change (start_of g (lit "a")) with g. destruct (lookup (hp s) g (lit "a")) eqn:L; [constructor|].
    destruct (is_group (hp s) g) eqn:G; [rewrite alloc_eq by exact G; apply steps_one, St_canon; [right; right; left; reflexivity|assumption|assumption]|rewrite alloc_nogroup by exact G; constructor].
  - intros c. apply does_bind; [apply does_session; reflexivity|]. intros _. apply does_ret.
Qed.
Lemma does_canon g : does (ensure_canon g).
Proof.
  intros s. unfold ensure_canon. destruct (canon s); [constructor|]. destruct (lookup (hp s) g (lit "a")) as [c|]; [|apply does_new_canon].
  destruct (is_canonical (hp s) c).
  - apply steps_one. apply St_session; reflexivity.
  - apply (does_bind (unlink g (lit "a")) (fun _ => new_canon g)); [apply does_unlink|]. intros _. apply does_new_canon.
Qed.
Lemma does_draw n g : does (draw rnd n g).
Proof.
  induction n as [|n IH]; intros s; cbn [draw]; [constructor|].
  destruct (lookup (hp s) g (show_hex16 (rnd (rpos s)))).
  - eapply steps_cons; [|apply IH]. apply St_session; reflexivity.
  - apply steps_one, St_session; reflexivity.
Qed.
Lemma does_next g : does (next_name rnd tries g).
Proof. intros s. unfold next_name. destruct (rcreated s); [apply steps_one, St_session; reflexivity|apply does_draw]. Qed.
Lemma does_mark i p : does (mark_path o i p).
Proof. unfold mark_path. destruct (o_matlab_compatible o) eqn:E; [|apply does_drop]. apply does_bind; [apply does_lift|]. intros b. apply does_modify. apply mat_ok; [exact E|left; reflexivity]. Qed.

Section Wr.
Variable wr : nat -> pystr -> pyval -> M (option nat).
Hypothesis Hwr : forall g nm v, does (wr g nm v).
Lemma does_element g c v : does (write_element o rnd tries wr g c v).
Proof.
  unfold write_element. apply does_bind; [apply does_next|]. intros nm. apply does_bind; [apply Hwr|]. intros [i|]; [|apply does_ret].
  apply does_bind; [apply does_gets|]. intros p. apply does_bind; [apply does_mark|]. intros _. apply does_ret.
Qed.
Lemma does_object_array a : does (write_object_array o rnd tries wr a).
Proof.
  unfold write_object_array. apply does_bind; [apply does_refs|]. intros g. apply does_bind; [apply does_canon|]. intros c.
  apply does_bind; [apply does_map; intros; apply does_element|]. intros r. apply does_ret.
Qed.
Lemma does_open g nm : does (open_group g nm).
Proof.
  unfold open_group. apply does_bind; [apply does_get|]. intros [i|]; [|apply does_group]. apply does_bind; [apply does_gets|]. intros [|]; [apply does_ret|].
  apply does_bind; [apply does_unlink|]. intros _. apply does_group.
Qed.
Lemma does_prune i keep : does (prune i keep).
Proof. intros s. unfold prune. apply does_iter. intros k _. apply does_unlink_at. Qed.
Lemma does_field i b nf : does (write_field o wr i b nf).
Proof.
  destruct nf as [n [name f]]. unfold write_field. apply does_bind; [apply Hwr|]. intros [j|]; [|apply does_ret].
  apply does_bind; [apply does_gets|]. intros p. apply does_sync. destruct (o_matlab_compatible o) eqn:E; [|intros k []]. intros k [<-|[]]. allowed.
Qed.
Lemma does_struct g nm b : does (write_struct o wr g nm b).
Proof.
  unfold write_struct. apply does_bind; [apply does_open|]. intros i. apply does_bind; [apply does_if; [apply does_prune|apply does_ret]|]. intros _.
  apply does_bind; [apply does_iter; intros; apply does_field|]. intros _. apply does_ret.
Qed.
Lemma does_put g nm a : does (put_dataset o g nm a).
Proof.
  unfold put_dataset. set (df := np_filters o (a_shape a) (size a * itemsize (a_dt a))).
  apply does_bind; [apply does_catch; [apply does_get|intros; apply does_ret]|]. intros [i|]; [|apply does_create_dataset].
  intros s. unfold bindm, gets. destruct (same_dataset _ a df) eqn:E1.
  2: { apply does_bind; [apply does_unlink|]. intros _. apply does_create_dataset. }
  destruct (same_opts _ df) as [[|]|] eqn:E2; [|apply does_bind; [apply does_unlink|]; intros _; apply does_create_dataset|constructor].
  unfold overwrite. destruct (hp s i) as [ob|] eqn:Eo; [|constructor]. destruct (o_body ob) as [old f|] eqn:Eb; [|constructor].
  apply steps_one. apply (St_over s i ob old f a (a_data a)); assumption.
Qed.
Lemma does_np g nm v ts : does (np_write o rnd tries wr g nm v ts).
Proof.
  destruct v as [c a]. unfold np_write. apply does_if; [apply does_fail|]. apply does_if; [apply does_ret|].
  apply does_bind; [apply does_lift|]. intros b. apply does_if.
  - apply does_bind; [apply does_struct|]. intros i. apply does_bind; [apply does_sync, np_attrs_allowed; destruct (o_matlab_compatible o) eqn:E; [intros k [<-|[]]; allowed|intros k []]|]. intros _. apply does_ret.
  - apply does_bind; [destruct (a_dt b); try apply does_ret; apply does_object_array|]. intros d. apply does_bind; [apply does_put|]. intros i.
    apply does_bind; [apply does_gets|]. intros t. apply does_bind; [apply does_sync, np_attrs_allowed; intros k []|]. intros _. apply does_ret.
Qed.
Lemma does_item i p kv : does (write_item o wr i p kv).
Proof. unfold write_item. apply does_bind; [apply Hwr|]. intros [j|]; [apply does_mark|apply does_ret]. Qed.
Lemma does_dict g nm items ts plain : does (dict_write o wr g nm items ts plain).
Proof.
  unfold dict_write. apply does_bind; [apply does_open|]. intros i. apply does_bind; [apply does_sync, dict_attrs_allowed|]. intros _.
  apply does_bind; [apply does_if; [apply does_prune|apply does_ret]|]. intros _. apply does_bind; [apply does_gets|]. intros p.
  apply does_bind; [apply does_if; [apply does_bind; [apply does_lift|intros; apply does_ret]|apply does_ret]|]. intros _.
  apply does_bind; [apply does_iter; intros; apply does_item|]. intros _. apply does_ret.
Qed.
Lemma does_value g nm v : does (write_value o rnd tries wr g nm v).
Proof.
  destruct v; cbn [write_value]; try apply does_np; try apply does_dict; try apply does_fail.
  apply does_bind; [apply does_lift|]. intros b. apply does_np.
Qed.
End Wr.
Lemma does_write n : forall g nm v, does (write o rnd tries n g nm v).
Proof. induction n as [|n IH]; intros g nm v; cbn [write]; [apply does_fail|]. apply does_value. exact IH. Qed.
Lemma does_write_at n g t v : does (write_at o rnd tries n g t v).
Proof. unfold write_at. apply does_bind; [apply does_require|]. intros i. apply does_bind; [apply does_write|]. intros _. apply does_ret. Qed.
Lemma does_writes n f mdict : steps (fl_st f) (fl_st (fst (file_writes o rnd tries n f mdict))).
Proof.
  unfold file_writes. destruct (mapr _ mdict) as [l|]; [|constructor]. destruct (fl_open f); [|constructor].
  pose proof (does_iter (fun x : pystr * pystr * pyval => write_at o rnd tries n (fst (fst x)) (snd (fst x)) (snd x)) l (fun a _ => does_write_at n _ _ _) (fl_st f)) as X.
  destruct (iterM _ l (fl_st f)) as [s r]. exact X.
Qed.
Lemma does_del f p : steps (fl_st f) (fl_st (fst (file_del f p))).
Proof.
  unfold file_del. destruct (process_path p) as [[g t]|]; [|constructor]. destruct (fl_open f); [|constructor].
  pose proof (does_unlink 0 (posix_join g [t]) (fl_st f)) as X. destruct (unlink 0 (posix_join g [t]) (fl_st f)). exact X.
Qed.
(** what every elementary change preserves *)
Lemma steps_inv (I : st -> Prop) : (forall s s', I s -> step s s' -> I s') -> forall s s', steps s s' -> I s -> I s'.
Proof. intros H s s' S. induction S; eauto. Qed.
End Steps.
