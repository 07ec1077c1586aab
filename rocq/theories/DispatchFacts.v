(** Proofs about the choice of marshallers. *)
From Coq Require Import Permutation Lia.
From Verif Require Import Base Unicode Dec NdArray Value OptionsM Attrs Hdf5 NpWrite MarshalW MarshalR HeapFacts RoundNp Plan Layout MatBack MColl MCollSpec MCollFacts Dispatch DispatchSpec.
Local Open Scope nat_scope.

Section After.
Variables (info : mid -> minfo) (env : pyenv) (sys0 : list pystr).
Variables (b p : list mid) (lazy : bool) (prio : list pystr) (ms : list (option mid)) (ops : list cop).
Variables (st st' : list pystr * coll) (os : list cout).
Hypothesis Hcoh : coherent env sys0.
Hypothesis Hcreate : create info env sys0 b p lazy prio ms = Ok st.
Hypothesis Hrun : run info env st ops = (fst st', snd st', os).
Let l := in_order prio b p ms ops.

Lemma look op keys k : (op = OpType (TyName k) /\ keys = types_of info \/ op = OpString k /\ keys = strings_of info \/
    op = OpClass k /\ keys = classes_of info \/ (exists t, op = OpType t /\ k = ty_key t /\ keys = types_of info)) ->
  exists m has, snd (step info env st' op) = OutGet m has /\ first_declaring keys k l m /\
    (has = true <-> exists x, m = Some x /\ available info env sys0 x) /\
    exists os1, run info env st (ops ++ [op]) = (fst (fst (step info env st' op)), snd (fst (step info env st' op)), os1).
Proof.
  intros H. pose proof (collection_step info env sys0 b p lazy prio ms st ops st' os op Hcoh Hcreate Hrun) as S.
  assert (Hr : exists os1, run info env st (ops ++ [op]) = (fst (fst (step info env st' op)), snd (fst (step info env st' op)), os1)).
  { clear - Hrun. revert st os Hrun. induction ops as [|a r IH]; intros st os Hrun; cbn [app run] in *.
    - inversion Hrun as [[E1 E2 E3]]. replace st with st' by (destruct st, st'; cbn in *; congruence).
      destruct (step info env st' op) as [[s c] o]. eauto.
    - destruct (step info env st a) as [[s c] o]. destruct (run info env (s, c) r) as [[s2 c2] os2] eqn:E.
      inversion Hrun; subst. destruct (IH (s, c) os2) as (os3 & E3); [rewrite E; reflexivity|]. rewrite E3. eauto. }
  destruct H as [[-> ->]|[[-> ->]|[[-> ->]|(t & -> & -> & ->)]]]; cbn [spec_out] in S;
    destruct S as (m & has & E & F & A); exists m, has; (split; [exact E|]); (split; [exact F|]); (split; [exact A|exact Hr]).
Qed.

Lemma write_spec t m : pick_write info env st' t = Ok m <->
  first_declaring (types_of info) (ty_key t) l (Some m) /\ available info env sys0 m.
Proof.
  destruct (look (OpType t) (types_of info) (ty_key t)) as (x & has & E & F & A & _); [right; right; right; eauto|].
  unfold pick_write. rewrite E. split.
  - destruct x as [x|]; [|discriminate]. destruct has; [|discriminate]. intros H. inversion H; subst. split; [exact F|].
    destruct A as [A _]. destruct (A eq_refl) as (y & Ey & Hy). inversion Ey; subst. exact Hy.
  - intros [F' Hav]. rewrite (first_declaring_fun _ _ _ _ _ F F') in *. destruct A as [_ A]. rewrite A by eauto. reflexivity.
Qed.

Lemma write_else t : (forall m, pick_write info env st' t <> Ok m) -> pick_write info env st' t = Err NotImplementedError.
Proof.
  unfold pick_write. destruct (snd (step info env st' (OpType t))) as [|e|[m|] [|]]; intros H; try reflexivity.
  destruct (H m eq_refl).
Qed.
End After.

Lemma read_spec info env sys0 b p lazy prio ms ops st st' os ts mc d : coherent env sys0 ->
  create info env sys0 b p lazy prio ms = Ok st -> run info env st ops = (fst st', snd st', os) ->
  exists r, reads_by info (in_order prio b p ms ops) ts mc d r /\
    match r with
    | Some m => exists has, pick_read info env st' ts mc d = Ok (m, has) /\ (has = true <-> available info env sys0 m)
    | None => pick_read info env st' ts mc d = Err CantReadError
    end.
Proof.
  intros Hc Hcr Hrun. set (l := in_order prio b p ms ops).
  assert (D : exists keys k, decides info ts mc d keys k /\
     (first_try ts mc d = OpType (TyName k) /\ keys = types_of info \/ first_try ts mc d = OpString k /\ keys = strings_of info \/
      first_try ts mc d = OpClass k /\ keys = classes_of info \/ (exists t, first_try ts mc d = OpType t /\ k = ty_key t /\ keys = types_of info))).
  { destruct ts as [s|]; [|destruct mc as [c|]; [|destruct d as [t|]]]; cbn [first_try].
    - exists (strings_of info), s. split; [constructor|auto].
    - exists (classes_of info), c. split; [constructor|auto].
    - exists (types_of info), (ty_key t). split; [constructor|right; right; right; eauto].
    - exists (classes_of info), (lit "struct"). split; [constructor|auto]. }
  destruct D as (keys & k & D & Hk).
  destruct (look info env sys0 b p lazy prio ms ops st st' os Hc Hcr Hrun (first_try ts mc d) keys k Hk) as (m1 & has1 & E1 & F1 & A1 & os1 & R1).
  fold l in F1. unfold pick_read. destruct (step info env st' (first_try ts mc d)) as [[s1 c1] o1] eqn:Es. cbn [fst snd] in *. subst o1.
  destruct m1 as [m1|].
  - exists (Some m1). split; [exists keys, k; split; [exact D|left; eauto]|]. exists has1. split; [reflexivity|].
    rewrite A1. split; [intros (x & Ex & Hx); inversion Ex; subst; exact Hx|eauto].
  - destruct (look info env sys0 b p lazy prio ms (ops ++ [first_try ts mc d]) st (s1, c1) os1 Hc Hcr R1 (OpType (ob "numpy" "uint8")) (types_of info) (lit "numpy.uint8"))
      as (m2 & has2 & E2 & F2 & A2 & _).
    { right. right. right. exists (ob "numpy" "uint8"). auto. }
    rewrite E2.
    assert (El : in_order prio b p ms (ops ++ [first_try ts mc d]) = l).
    { unfold l, in_order. f_equal. f_equal. unfold spec_run. rewrite fold_left_app. cbn [fold_left].
      destruct ts, mc, d; reflexivity. }
    rewrite El in F2. exists m2. split; [exists keys, k; split; [exact D|right; split; assumption]|].
    destruct m2 as [m2|]; [|reflexivity]. exists has2. split; [reflexivity|].
    rewrite A2. split; [intros (x & Ex & Hx); inversion Ex; subst; exact Hx|eauto].
Qed.

Lemma decides_fun info ts mc d keys k keys' k' : decides info ts mc d keys k -> decides info ts mc d keys' k' -> keys = keys' /\ k = k'.
Proof. intros H H'. inversion H; subst; inversion H'; subst; auto. Qed.

Lemma reads_by_fun info l ts mc d r r' : reads_by info l ts mc d r -> reads_by info l ts mc d r' -> r = r'.
Proof.
  intros (keys & k & D & H) (keys' & k' & D' & H'). destruct (decides_fun _ _ _ _ _ _ _ _ D D') as [<- <-].
  destruct H as [(m & -> & F)|[F G]], H' as [(m' & -> & F')|[F' G']].
  - exact (first_declaring_fun _ _ _ _ _ F F').
  - pose proof (first_declaring_fun _ _ _ _ _ F F'). discriminate.
  - pose proof (first_declaring_fun _ _ _ _ _ F F'). discriminate.
  - exact (first_declaring_fun _ _ _ _ _ G G').
Qed.

(** the first one that declares a key *)
Lemma fd_app keys k a m r : (forall x, In x a -> ~ In k (keys x)) -> In k (keys m) -> first_declaring keys k (a ++ m :: r) (Some m).
Proof.
  induction a as [|x a IH]; intros H Hm; cbn [app]; [apply fd_here; exact Hm|].
  apply fd_later; [apply H; left; reflexivity|]. apply IH; [|exact Hm]. intros y Hy. apply H. right. exact Hy.
Qed.
Lemma fd_none_all keys k l : (forall x, In x l -> ~ In k (keys x)) -> first_declaring keys k l None.
Proof. induction l as [|x l IH]; intros H; [constructor|]. apply fd_later; [apply H; left; reflexivity|]. apply IH. intros y Hy. apply H. right. exact Hy. Qed.

Lemma zip_last_in same ts ss s : zip_last same ts ss = Some s -> In s ss /\ exists t, In t ts /\ same t = true.
Proof.
  revert ss. induction ts as [|t ts IH]; intros [|s0 ss] H; cbn [zip_last] in H; try discriminate.
  destruct (zip_last same ts ss) as [r|] eqn:E.
  - inversion H; subst. destruct (IH _ E) as [A (t' & B & C)]. split; [right; exact A|]. exists t'. split; [right; exact B|exact C].
  - destruct (same t) eqn:Et; [|discriminate]. inversion H; subst. split; [left; reflexivity|]. exists t. split; [left; reflexivity|exact Et].
Qed.
Lemma string_declared info m modname name s : string_for info m modname name s ->
  In s (strings_of info m) /\ In (modname ++ lit "." ++ name) (types_of info m).
Proof.
  unfold string_for, get_type_string, strings_of, types_of. destruct (zip_last (is_object modname name) _ _) as [r|] eqn:E.
  - intros H. inversion H; subst. destruct (zip_last_in _ _ _ _ E) as [A (t & B & C)]. split; [exact A|]. apply in_map_iff. exists t.
    split; [|exact B]. destruct t as [x|x y]; [discriminate C|]. cbn [is_object] in C. apply andb_prop in C. destruct C as [C1 C2].
    apply eqb_str_eq in C1, C2. subst. reflexivity.
  - destruct (zip_last (is_name _) _ _) as [r|] eqn:E2; [|discriminate]. intros H. inversion H; subst.
    destruct (zip_last_in _ _ _ _ E2) as [A (t & B & C)]. split; [exact A|]. apply in_map_iff. exists t. split; [|exact B].
    destruct t as [x|x y]; [|discriminate C]. cbn [is_name] in C. apply eqb_str_eq in C. subst. reflexivity.
Qed.

(** ** the tables of the builtin marshallers do not overlap *)
Definition disjoint_keys (f : minfo -> list pystr) (ks : list (string * minfo)) : bool :=
  forallb (fun n => match nth_error ks n with
     | None => true
     | Some (_, i) => forallb (fun k => forallb (fun j => negb (mem_str k (f (snd j)))) (firstn n ks)) (f i)
     end) (seq 0 (length ks)).

Lemma disjoint_spec f ks n c i k : disjoint_keys f ks = true -> nth_error ks n = Some (c, i) -> In k (f i) ->
  forall j, In j (firstn n ks) -> ~ In k (f (snd j)).
Proof.
  intros H Hn Hk j Hj A. unfold disjoint_keys in H. rewrite forallb_forall in H.
  assert (Hlt : n < length ks) by (apply nth_error_Some; congruence).
  specialize (H n). rewrite Hn in H. rewrite forallb_forall in H.
  specialize (H ltac:(apply in_seq; lia) k Hk). rewrite forallb_forall in H. specialize (H j Hj).
  apply mem_str_In in A. rewrite A in H. discriminate.
Qed.
Lemma types_disjoint : disjoint_keys (fun i => map ty_key (i_types i)) builtin_classes = true.
Proof. vm_compute. reflexivity. Qed.
Lemma strings_disjoint : disjoint_keys i_strings builtin_classes = true.
Proof. vm_compute. reflexivity. Qed.

Lemma F2_firstn {A B} (P : A -> B -> Prop) l m n : Forall2 P l m -> Forall2 P (firstn n l) (firstn n m).
Proof. intros H. revert n. induction H; intros [|n]; cbn [firstn]; constructor; auto. Qed.
Lemma F2_left {A B} (P : A -> B -> Prop) l m x : Forall2 P l m -> In x l -> exists y, In y m /\ P x y.
Proof.
  induction 1 as [|a c l m H F IH]; intros Hi; [destruct Hi|]. destruct Hi as [->|Hi]; [exists c; split; [left; reflexivity|exact H]|].
  destruct (IH Hi) as (y & Hy & Hp). exists y. split; [right; exact Hy|exact Hp].
Qed.

Lemma split_nth {A} (l : list A) n x : nth_error l n = Some x -> l = firstn n l ++ x :: skipn (S n) l.
Proof. revert n. induction l as [|a l IH]; intros [|n] H; try discriminate; cbn in *; [congruence|]. f_equal. auto. Qed.

Lemma builtin_first info bs rest n m k i keys (f : minfo -> list pystr) : builtin_instances info bs -> nth_error bs n = Some m ->
  nth_error builtin_classes n = Some (k, i) -> info m = i -> (forall x, keys x = f (info x)) -> disjoint_keys f builtin_classes = true ->
  forall key, In key (keys m) -> first_declaring keys key (bs ++ rest) (Some m).
Proof.
  intros Hb Hn Hk Hi Hf Hd key Hkey. rewrite (split_nth bs n m Hn). rewrite <- app_assoc. cbn [app].
  apply fd_app; [|exact Hkey]. intros x Hx A. destruct (F2_left _ _ _ _ (F2_firstn _ _ _ n Hb) Hx) as (j & Hj & E).
  rewrite Hf in A, Hkey. rewrite Hi in Hkey. rewrite E in A.
  exact (disjoint_spec f _ _ _ _ _ Hd Hk Hkey j Hj A).
Qed.

(** ** the type string in the file *)
Definition untyped (l : list (pystr * areq)) : Prop := ~ In (lit "Python.Type") (map fst l).
Lemma untyped_dput k q l : k <> lit "Python.Type" -> untyped l -> untyped (dput k q l).
Proof. intros N H. unfold untyped. rewrite dput_keys. intuition congruence. Qed.
Ltac untyp := repeat first [assumption | apply untyped_dput; [vm_compute; discriminate|] | match goal with |- untyped (if ?c then _ else _) => destruct c end | match goal with |- untyped (match ?c with _ => _ end) => destruct c end].
Lemma np_attrs_typed o v ts pre w stored : o_store_python_metadata o = true -> untyped pre ->
  assoc (lit "Python.Type") (np_attrs o v ts pre w stored) = Some (QString ts).
Proof.
  intros Hm H. unfold np_attrs. destruct v as [c a]. cbv zeta.
  match goal with |- context [if np_empty a then _ else ?x] => assert (A2 : untyped x) by (destruct (w || fields_anyway o a); untyp); set (at2 := x) in * end. clearbody at2.
  match goal with |- context [if o_store_python_metadata o && negb (mem_str (lit "Python.Type") (map fst ?x)) then _ else _] => assert (A4 : untyped x); [|set (at4 := x) in *; clearbody at4] end.
  { match goal with |- context [dput (lit "MATLAB_class") (QString (lit "struct")) ?x] => assert (A3 : untyped x) by untyp; set (at3 := x) in *; clearbody at3 end. untyp. }
  rewrite Hm. destruct (mem_str (lit "Python.Type") (map fst at4)) eqn:M; [apply mem_str_In in M; destruct (A4 M)|].
  cbn [andb negb]. rewrite assoc_dput, eqb_str_refl. reflexivity.
Qed.
Lemma dict_attrs_typed o ts plain codes : o_store_python_metadata o = true ->
  assoc (lit "Python.Type") (dict_attrs o ts plain codes) = Some (QString ts).
Proof.
  intros Hm. unfold dict_attrs. cbv zeta.
  match goal with |- context [if o_store_python_metadata o then dput (lit "Python.Type") _ ?x else _] => generalize x; intros rest end.
  rewrite Hm. rewrite assoc_dput, eqb_str_refl. reflexivity.
Qed.

(** the type string that write_value gives a value *)
Definition string_of (v : pyval) : pystr :=
  match v with
  | VNone => lit "builtins.NoneType" | VEllipsis => lit "builtins.ellipsis" | VNotImplemented => lit "builtins.NotImplementedType"
  | VBool _ => lit "bool" | VInt _ => lit "long" | VFloat _ => lit "float" | VComplex _ _ => lit "complex"
  | VStr _ => lit "str" | VBytes _ => lit "bytes" | VByteArray _ => lit "bytearray"
  | VNp c a => np_type c (a_dt a) | VSeq k _ => seq_type k | VDict k _ => dict_type k | VRec k _ => rec_type k
  | VDtype _ => lit "numpy.dtype" | VOther => []
  end.
Definition top_attrs (T : ltree) : attrs :=
  match T with LData a _ _ | LRefs a _ _ _ | LGroup a _ => a | LCanon => no_attrs end.

Lemma fresh_typed reqs ts : assoc (lit "Python.Type") reqs = Some (QString ts) -> Forall (fun x => (x < 128)%N) ts ->
  fresh_attrs reqs (lit "Python.Type") = Some (AStr ts).
Proof. intros H A. unfold fresh_attrs. rewrite H. cbn [req_val]. rewrite ascii_bytes_ok by exact A. reflexivity. Qed.

Lemma plan_np_typed o pl v ts T : o_store_python_metadata o = true -> Forall (fun x => (x < 128)%N) ts ->
  plan_np o pl v ts = Ok (Some T) -> top_attrs T (lit "Python.Type") = Some (AStr ts).
Proof.
  intros Hm Ha H. unfold plan_np in H. destruct v as [c a]. destruct (np_incompatible o a && _); [discriminate|].
  destruct (np_incompatible o a && _); [discriminate|]. destruct (np_prepare o (c, a)) as [b|]; [|discriminate]. cbn [bindr] in H.
  destruct (as_group o a (a_dt b)).
  - destruct (mapr _ _) as [l|]; [|discriminate]. cbn [bindr] in H. apply ok_some in H. subst T. cbn [top_attrs].
    apply fresh_typed; [|exact Ha]. apply np_attrs_typed; [exact Hm|]. unfold untyped. destruct (o_matlab_compatible o); cbn [map fst In]; intuition discriminate.
  - unfold plan_data in H. destruct (a_dt b);
      try (apply ok_some in H; subst T; cbn [top_attrs]; apply fresh_typed; [|exact Ha]; apply np_attrs_typed; [exact Hm|intros []]).
    destruct (mapr _ _) as [l|]; [|discriminate]. cbn [bindr] in H. apply ok_some in H. subst T. cbn [top_attrs].
    apply fresh_typed; [|exact Ha]. apply np_attrs_typed; [exact Hm|intros []].
Qed.
Lemma plan_dict_typed o pl l ts plain T : o_store_python_metadata o = true -> Forall (fun x => (x < 128)%N) ts ->
  plan_dict o pl l ts plain = Ok (Some T) -> top_attrs T (lit "Python.Type") = Some (AStr ts).
Proof.
  intros Hm Ha H. unfold plan_dict in H. destruct (mapr _ _) as [x|]; [|discriminate]. cbn [bindr] in H. apply ok_some in H. subst T. cbn [top_attrs].
  apply fresh_typed; [|exact Ha]. apply dict_attrs_typed. exact Hm.
Qed.
Lemma np_type_ascii c d : Forall (fun x => (x < 128)%N) (np_type c d).
Proof.
  destruct c; cbn [np_type]; try (repeat constructor; fail). destruct d; cbn [scalar_type]; try (repeat constructor; fail);
    apply Forall_app; split; try apply dt_name_ascii; repeat constructor.
Qed.
Lemma plan_typed o n v T : o_store_python_metadata o = true -> plan o n v = Ok (Some T) ->
  top_attrs T (lit "Python.Type") = Some (AStr (string_of v)).
Proof.
  intros Hm. destruct n as [|n]; [discriminate|]. cbn [plan]. unfold plan_value.
  destruct v; intros H; try discriminate; try (revert H; apply plan_np_typed; [exact Hm|]; try (apply np_type_ascii); repeat constructor; fail).
  - revert H. apply plan_np_typed; [exact Hm|]. destruct k; repeat constructor.
  - revert H. apply plan_dict_typed; [exact Hm|]. destruct k; repeat constructor.
  - revert H. apply plan_dict_typed; [exact Hm|]. destruct k; repeat constructor.
  - destruct (utf8_encode _) as [b|]; [|discriminate]. cbn [bindr] in H. revert H. apply plan_np_typed; [exact Hm|]. repeat constructor.
Qed.
Lemma rep_typed h o Q i T x : rep o h Q (fun a => a) i T -> top_attrs T (lit "Python.Type") = Some x ->
  exists ob, h i = Some ob /\ o_attrs ob (lit "Python.Type") = Some x.
Proof.
  intros H E. inversion H as [m i' at_ a f O|m i' at_ sh f js l O|m i' at_ ls l O|]; subst; cbn [top_attrs] in E; try discriminate;
    destruct O as (ob & E1 & E2 & _); exists ob; rewrite E2; auto.
Qed.

(** ** which class is for which value *)
Lemma value_class v : plain_np v -> exists m n cls i, type_of v = Some (m, n) /\ In (cls, i) builtin_classes /\
  get_type_string i m n = Ok (string_of v) /\ class_of_kind (reader_kind (Some (string_of v))) = cls.
Proof.
  assert (G : forall m n v', type_of v' = Some (m, n) -> 
    existsb (fun k => match get_type_string (snd k) m n with Ok s => eqb_str s (string_of v') && String.eqb (class_of_kind (reader_kind (Some (string_of v')))) (fst k) | _ => false end) builtin_classes = true ->
    exists m n cls i, type_of v' = Some (m, n) /\ In (cls, i) builtin_classes /\
  get_type_string i m n = Ok (string_of v') /\ class_of_kind (reader_kind (Some (string_of v'))) = cls).
  { intros m n v' Ht H. apply existsb_exists in H. destruct H as ([cls i] & Hi & H). cbn [fst snd] in H.
    destruct (get_type_string i m n) as [s|] eqn:E; [|discriminate]. apply andb_prop in H. destruct H as [H1 H2].
    apply eqb_str_eq in H1. apply String.eqb_eq in H2. subst. exists m, n, (class_of_kind (reader_kind (Some (string_of v')))), i. auto. }
  intros P. destruct v; try (eapply G; [reflexivity|vm_compute; reflexivity]); try (destruct k; eapply G; [reflexivity|vm_compute; reflexivity] ; fail).
  - destruct c; try (eapply G; [reflexivity|vm_compute; reflexivity]). destruct a as [d sh l]. cbn [plain_np a_dt] in P.
    destruct d; try (eapply G; [reflexivity|vm_compute; reflexivity]); cbn [In] in P;
      repeat (destruct P as [<-|P]; [eapply G; [reflexivity|vm_compute; reflexivity]|]); contradiction.
  - destruct k; (eapply G; [reflexivity|vm_compute; reflexivity]).
  - destruct k; (eapply G; [reflexivity|vm_compute; reflexivity]).
  - destruct k; (eapply G; [reflexivity|vm_compute; reflexivity]).
  - destruct P.
Qed.

(** ** a collection of the builtin marshallers only *)
Lemma nth_S {A} (x : A) l n : nth_error (x :: l) (S n) = nth_error l n.
Proof. reflexivity. Qed.
Lemma first_find info (keys : mid -> list pystr) (f : minfo -> list pystr) key : (forall x, keys x = f (info x)) ->
  forall b ks, Forall2 (fun m k => info m = snd k) b ks ->
  match find (fun c : string * minfo => mem_str key (f (snd c))) ks with
  | Some c => exists n m, first_declaring keys key b (Some m) /\ nth_error b n = Some m /\ nth_error ks n = Some c /\ info m = snd c
  | None => first_declaring keys key b None
  end.
Proof.
  intros Hf. induction 1 as [|m c b ks Hm F IH]; cbn [find]; [constructor|].
  destruct (mem_str key (f (snd c))) eqn:M.
  - apply mem_str_In in M. exists 0, m. repeat split; auto. apply fd_here. rewrite Hf, Hm. exact M.
  - assert (N : ~ In key (keys m)) by (rewrite Hf, Hm; intros A; apply mem_str_In in A; congruence).
    destruct (find _ ks) as [c'|]; [|apply fd_later; assumption]. destruct IH as (n & x & A & B & C & D). exists (S n), x.
    repeat split; try assumption. apply fd_later; assumption.
Qed.
Definition numpy_class : string := "NumpyScalarArrayMarshaller".

Lemma find_strings s : match find (fun c : string * minfo => mem_str s (i_strings (snd c))) builtin_classes with
  | Some c => fst c = class_of_kind (reader_kind (Some s))
  | None => class_of_kind (reader_kind (Some s)) = numpy_class
  end.
Proof.
  assert (F : Forall (fun s => match find (fun c : string * minfo => mem_str s (i_strings (snd c))) builtin_classes with
     | Some c => fst c = class_of_kind (reader_kind (Some s)) | None => class_of_kind (reader_kind (Some s)) = numpy_class end)
     (flat_map (fun c => i_strings (snd c)) builtin_classes)) by (vm_compute; repeat constructor).
  destruct (find (fun c : string * minfo => mem_str s (i_strings (snd c))) builtin_classes) as [c|] eqn:E.
  - destruct (find_some _ _ E) as [A B]. apply mem_str_In in B. rewrite Forall_forall in F.
    specialize (F s ltac:(apply in_flat_map; eauto)). rewrite E in F. exact F.
  - assert (N : assoc s type_table = None).
    { destruct (assoc s type_table) as [k|] eqn:Ea; [|reflexivity]. apply assoc_In in Ea. exfalso.
      assert (T : Forall (fun x => existsb (fun c : string * minfo => mem_str (fst x) (i_strings (snd c))) builtin_classes = true) type_table) by (vm_compute; repeat constructor).
      rewrite Forall_forall in T. specialize (T _ Ea). cbn [fst] in T. apply existsb_exists in T. destruct T as (c & A & B).
      rewrite (find_none _ _ E _ A) in B. discriminate. }
    cbn [reader_kind]. rewrite N. reflexivity.
Qed.
Lemma find_classes s c : find (fun c : string * minfo => mem_str s (i_classes (snd c))) builtin_classes = Some c -> fst c = numpy_class.
Proof.
  intros H. destruct (find_some _ _ H) as [A B].
  assert (T : Forall (fun c : string * minfo => i_classes (snd c) = [] \/ fst c = numpy_class) builtin_classes).
  { repeat (constructor; [first [left; reflexivity|right; reflexivity]|]). constructor. }
  rewrite Forall_forall in T. destruct (T _ A) as [T'|T']; [|exact T']. rewrite T' in B. discriminate.
Qed.
Lemma find_types s c : find (fun c : string * minfo => mem_str s (map ty_key (i_types (snd c)))) builtin_classes = Some c ->
  (exists x, s = lit "numpy." ++ x) -> s <> lit "numpy.dtype" -> fst c = numpy_class.
Proof.
  intros H [x ->] N. destruct (find_some _ _ H) as [A B]. apply mem_str_In in B.
  assert (T : Forall (fun c : string * minfo => fst c = numpy_class \/ Forall (fun k => eqb_str (firstn 6 k) (lit "numpy.") = false \/ k = lit "numpy.dtype") (map ty_key (i_types (snd c)))) builtin_classes).
  { repeat (constructor; [first [left; reflexivity|right; repeat (constructor; [first [left; reflexivity|right; reflexivity]|]); constructor]|]). constructor. }
  rewrite Forall_forall in T. destruct (T _ A) as [T'|T']; [exact T'|]. rewrite Forall_forall in T'. destruct (T' _ B) as [K|K]; [|congruence].
  assert (E : firstn 6 (lit "numpy." ++ x) = lit "numpy.") by reflexivity. rewrite E in K. vm_compute in K. discriminate.
Qed.
Lemma find_uint8 : option_map fst (find (fun c : string * minfo => mem_str (lit "numpy.uint8") (map ty_key (i_types (snd c)))) builtin_classes) = Some numpy_class.
Proof. vm_compute. reflexivity. Qed.

Lemma builtin_reads info b ts mc d : builtin_instances info b ->
  (forall t, d = Some t -> exists x, ty_key t = lit "numpy." ++ x /\ x <> lit "dtype") ->
  exists m, reads_by info b ts mc d (Some m) /\ instance info b m (class_of_kind (reader_kind ts)).
Proof.
  intros Hb Hd.
  assert (FB : exists m, first_declaring (types_of info) (lit "numpy.uint8") b (Some m) /\ instance info b m numpy_class).
  { pose proof (first_find info (types_of info) (fun i => map ty_key (i_types i)) (lit "numpy.uint8") (fun _ => eq_refl) b builtin_classes Hb) as F.
    pose proof find_uint8 as U. destruct (find _ builtin_classes) as [[cn ci]|]; [|discriminate]. cbn [option_map fst] in U. injection U as ->.
    destruct F as (n & m & A & B & C & D). exists m. split; [exact A|]. exists n, ci. auto. }
  destruct FB as (mb & FB & IB).
  destruct ts as [s|]; [|destruct mc as [c|]; [|destruct d as [t|]]].
  - pose proof (first_find info (strings_of info) i_strings s (fun _ => eq_refl) b builtin_classes Hb) as F. pose proof (find_strings s) as U.
    destruct (find _ builtin_classes) as [[cn ci]|].
    + cbn [fst] in U. destruct F as (n & m & A & B & C & D). exists m. split; [exists (strings_of info), s; split; [constructor|left; eauto]|].
      rewrite <- U. exists n, ci. auto.
    + exists mb. split; [exists (strings_of info), s; split; [constructor|right; auto]|]. rewrite U. exact IB.
  - pose proof (first_find info (classes_of info) i_classes c (fun _ => eq_refl) b builtin_classes Hb) as F. pose proof (find_classes c) as U.
    destruct (find _ builtin_classes) as [[cn ci]|].
    + specialize (U _ eq_refl). cbn [fst] in U. subst cn. destruct F as (n & m & A & B & C & D). exists m. split; [exists (classes_of info), c; split; [constructor|left; eauto]|].
      exists n, ci. auto.
    + exists mb. split; [exists (classes_of info), c; split; [constructor|right; auto]|exact IB].
  - pose proof (first_find info (types_of info) (fun i => map ty_key (i_types i)) (ty_key t) (fun _ => eq_refl) b builtin_classes Hb) as F.
    pose proof (find_types (ty_key t)) as U. destruct (Hd t eq_refl) as (x & Ex & Nx).
    destruct (find _ builtin_classes) as [[cn ci]|].
    + specialize (U _ eq_refl (ex_intro _ x Ex)). cbn [fst] in U. rewrite U in F.
      2:{ rewrite Ex. intros K. apply Nx. change (lit "numpy.dtype") with (lit "numpy." ++ lit "dtype") in K. apply app_inv_head in K. exact K. }
      destruct F as (n & m & A & B & C & D). exists m. split; [exists (types_of info), (ty_key t); split; [constructor|left; eauto]|].
      exists n, ci. auto.
    + exists mb. split; [exists (types_of info), (ty_key t); split; [constructor|right; auto]|exact IB].
  - pose proof (first_find info (classes_of info) i_classes (lit "struct") (fun _ => eq_refl) b builtin_classes Hb) as F. pose proof (find_classes (lit "struct")) as U.
    destruct (find _ builtin_classes) as [[cn ci]|].
    + specialize (U _ eq_refl). cbn [fst] in U. subst cn. destruct F as (n & m & A & B & C & D). exists m. split; [exists (classes_of info), (lit "struct"); split; [constructor|left; eauto]|].
      exists n, ci. auto.
    + exists mb. split; [exists (classes_of info), (lit "struct"); split; [constructor|right; auto]|exact IB].
Qed.

Lemma perm_dec (a b : list pystr) : {Permutation a b} + {~ Permutation a b}.
Proof.
  destruct (list_eq_dec (list_eq_dec N.eq_dec) (sorted a) (sorted b)) as [E|E]; [left|right]; rewrite <- sorted_eq_perm; exact E.
Qed.
Lemma one_of_three prio (b : list mid) : Permutation prio three ->
  flat_map (fun v => if eqb_str v (lit "builtin") then b else if eqb_str v (lit "plugin") then [] else []) prio = b.
Proof.
  intros P. pose proof (Permutation_length P) as L. destruct prio as [|x [|y [|z [|w prio]]]]; try discriminate L.
  assert (N : NoDup [x; y; z]).
  { apply (Permutation_NoDup (Permutation_sym P)). repeat constructor; vm_compute; intuition discriminate. }
  assert (I : forall v, In v [x; y; z] -> In v three) by (intros v Hv; exact (Permutation_in _ P Hv)).
  destruct (I x) as [<-|[<-|[<-|[]]]]; [cbn; auto| | |];
  (destruct (I y) as [<-|[<-|[<-|[]]]]; [cbn; auto| | |]);
  (destruct (I z) as [<-|[<-|[<-|[]]]]; [cbn; auto| | |]);
  try (exfalso; inversion N as [|? ? N1 N2]; inversion N2 as [|? ? N3 N4]; cbn [In] in *; tauto);
  cbn [flat_map]; rewrite ?app_nil_r; reflexivity.
Qed.
