(** HDF5 attributes and set_attributes_all (utilities.py l.1382-1443). *)
From Verif Require Import Base.
Local Open Scope nat_scope.

(** Attribute values, by what h5py gives back for them: np.bytes_ scalars, str
    arrays, a str, uint64 vectors, uint8 and int64 scalars, MATLAB_fields (an array
    of 'S1' arrays), and anything else (a layout, i.e. dtype and shape, and the
    contents). *)
Inductive aval :=
| AStr (b : list N) | AStrs (l : list pystr) | AText (s : pystr) | AU64s (l : list nat)
| AU8 (n : N) | AI64 (z : Z) | AFields (l : list (list N)) | AOther (layout : nat) (contents : nat).

Definition attrs := pystr -> option aval.
Definition no_attrs : attrs := fun _ => None.
Definition set_attr (k : pystr) (v : aval) (a : attrs) : attrs := fun k' => if eqb_str k' k then Some v else a k'.
Definition del_attr (k : pystr) (a : attrs) : attrs := fun k' => if eqb_str k' k then None else a k'.

(** what callers ask for: ("string", s), ("string_array", l), and the different
    ("value", v): a numpy object, or a Python int or str *)
Inductive areq := QString (s : pystr) | QStrs (l : list pystr) | QVal (v : aval) | QPyInt (z : Z) | QPyStr (s : pystr).

(** np.bytes_(str): only ASCII *)
Definition ascii_bytes (s : pystr) : res (list N) :=
  if forallb (fun c => (c <? 128)%N) s then Ok s else Err UnicodeEncodeError.

(** the stored form of a request *)
Definition req_val (q : areq) : res aval :=
  match q with
  | QString s => do b <- ascii_bytes s; Ok (AStr b)
  | QStrs l => Ok (AStrs l)
  | QVal v => Ok v
  | QPyInt z => Ok (AI64 z)
  | QPyStr s => Ok (AText s)
  end.

(** val.dtype == existing.dtype and val.shape == existing.shape; a str has no
    dtype *)
Definition has_dtype (v : aval) : bool := match v with AText _ => false | _ => true end.
Definition same_layout (v w : aval) : bool :=
  match v, w with
  | AStr a, AStr b => length a =? length b
  | AU64s a, AU64s b => length a =? length b
  | AU8 _, AU8 _ => true
  | AI64 _, AI64 _ => true
  | AOther a _, AOther b _ => a =? b
  | _, _ => false
  end.

(** l.1418-1439 for one attribute.  For MATLAB_fields np.array_equal is taken to
    decide equality, so the attribute ends with the new value either way. *)
Definition put_attr (existing : attrs) (k : pystr) (q : areq) (a : attrs) : res attrs :=
  match q with
  | QStrs l => Ok (set_attr k (AStrs l) a)
  | _ =>
      do v <- req_val q;
      match existing k with
      | None => Ok (set_attr k v a)
      | Some old =>
          if eqb_str k (lit "MATLAB_fields") then Ok (set_attr k v a)
          else
            match q with
            | QPyInt _ | QPyStr _ => Ok (set_attr k v a)         (* AttributeError, l.1438 *)
            | _ => if has_dtype old
                   then (if same_layout v old then Ok (set_attr k v a) else Ok a)
                   else Ok (set_attr k v a)
            end
      end
  end.

(** l.1382-1443.  The attributes as they are when it ends, and the exception if
    one is raised (then the remaining work is not done). *)
Fixpoint put_attrs (existing : attrs) (reqs : list (pystr * areq)) (a : attrs) : attrs * option exn :=
  match reqs with
  | [] => (a, None)
  | (k, q) :: r => match put_attr existing k q a with
                   | Ok a' => put_attrs existing r a'
                   | Err e => (a, Some e)
                   end
  end.
Definition set_attributes_all (a : attrs) (reqs : list (pystr * areq)) (discard : bool) : attrs * option exn :=
  let '(a', e) := put_attrs a reqs a in
  match e with
  | Some _ => (a', e)
  | None => ((fun k => if discard && negb (mem_str k (map fst reqs)) then None else a' k), None)
  end.

(** ** specification: the value of the (only) request for a name *)
Definition requested (reqs : list (pystr * areq)) (k : pystr) (v : aval) : Prop :=
  exists q, In (k, q) reqs /\ req_val q = Ok v.
(** an attribute that set_attributes_all is able to replace by the request *)
Definition replaceable (k : pystr) (q : areq) (old : aval) : Prop :=
  match q with
  | QStrs _ | QPyInt _ | QPyStr _ => True
  | _ => k = lit "MATLAB_fields" \/ (exists s, old = AText s) \/
         exists v, req_val q = Ok v /\ same_layout v old = true
  end.

Lemma put_ok ex k q a v : req_val q = Ok v -> (forall old, ex k = Some old -> replaceable k q old) ->
  put_attr ex k q a = Ok (set_attr k v a).
Proof.
  intros Hv Hr. unfold put_attr.
  assert (G : (forall l, q <> QStrs l) -> (do v0 <- req_val q; match ex k with
      | None => Ok (set_attr k v0 a)
      | Some old => if eqb_str k (lit "MATLAB_fields") then Ok (set_attr k v0 a) else
          match q with
          | QPyInt _ | QPyStr _ => Ok (set_attr k v0 a)
          | _ => if has_dtype old then (if same_layout v0 old then Ok (set_attr k v0 a) else Ok a) else Ok (set_attr k v0 a)
          end end) = Ok (set_attr k v a)).
  { intros NS. rewrite Hv. cbn [bindr]. destruct (ex k) as [old|] eqn:E; [|reflexivity]. specialize (Hr old eq_refl).
    destruct (eqb_str_spec k (lit "MATLAB_fields")); [reflexivity|].
    assert (K : forall w, (k = lit "MATLAB_fields" \/ (exists s, old = AText s) \/ same_layout v old = true) ->
       (if has_dtype old then if same_layout v old then Ok (set_attr k v a) else Ok w else Ok (set_attr k v a)) = Ok (set_attr k v a)).
    { intros w [?|[[s ->]| ->]]; [congruence|reflexivity|destruct (has_dtype old); reflexivity]. }
    destruct q; cbn [replaceable] in Hr; try reflexivity.
    - apply K. destruct Hr as [?|[?|(v' & E1 & E2)]]; auto. right. right. congruence.
    - destruct (NS l eq_refl).
    - apply K. destruct Hr as [?|[?|(v' & E1 & E2)]]; auto. right. right. congruence. }
  destruct q; try (apply G; discriminate). cbn in Hv. injection Hv as <-. reflexivity.
Qed.

Lemma set_attr_same k v a : set_attr k v a k = Some v.
Proof. unfold set_attr. rewrite eqb_str_refl. reflexivity. Qed.
Lemma set_attr_other k v a k' : k' <> k -> set_attr k v a k' = a k'.
Proof. intros H. unfold set_attr. apply eqb_str_neq in H. rewrite H. reflexivity. Qed.

Lemma put_attrs_ok ex reqs : forall a,
  NoDup (map fst reqs) ->
  (forall k q, In (k, q) reqs -> exists v, req_val q = Ok v) ->
  (forall k q old, In (k, q) reqs -> ex k = Some old -> replaceable k q old) ->
  exists a', put_attrs ex reqs a = (a', None) /\
    (forall k q v, In (k, q) reqs -> req_val q = Ok v -> a' k = Some v) /\
    (forall k, ~ In k (map fst reqs) -> a' k = a k).
Proof.
  induction reqs as [|[k q] reqs IH]; intros a Hn Hv Hr; cbn [put_attrs].
  - exists a. repeat split. intros k q v [].
  - destruct (Hv k q (or_introl eq_refl)) as [v Ev].
    rewrite (put_ok ex k q a v Ev) by (intros old Ho; apply (Hr k q old (or_introl eq_refl) Ho)).
    cbn in Hn. inversion Hn; subst.
    destruct (IH (set_attr k v a)) as (a' & E & H3 & H4); auto.
    { intros k1 q1 Hi. apply (Hv k1 q1). right. exact Hi. }
    { intros k1 q1 old Hi. apply (Hr k1 q1). right. exact Hi. }
    exists a'. rewrite E. repeat split.
    + intros k1 q1 v1 [Hi|Hi] Hv1.
      * injection Hi as <- <-. rewrite H4 by assumption. rewrite set_attr_same. congruence.
      * eapply H3; eassumption.
    + intros k1 Hk1. cbn in Hk1. rewrite H4 by tauto. apply set_attr_other. intros ->. tauto.
Qed.

Lemma set_all_ok a reqs d :
  NoDup (map fst reqs) ->
  (forall k q, In (k, q) reqs -> exists v, req_val q = Ok v) ->
  (forall k q old, In (k, q) reqs -> a k = Some old -> replaceable k q old) ->
  exists a', set_attributes_all a reqs d = (a', None) /\
    (forall k v, requested reqs k v -> a' k = Some v) /\
    (forall k, ~ In k (map fst reqs) -> a' k = if d then None else a k).
Proof.
  intros Hn Hv Hr. unfold set_attributes_all. destruct (put_attrs_ok a reqs a Hn Hv Hr) as (a' & E & H1 & H2).
  rewrite E. eexists. split; [reflexivity|]. split.
  - intros k v (q & Hi & Hq). cbn beta. assert (M : mem_str k (map fst reqs) = true).
    { apply mem_str_In. apply in_map_iff. exists (k, q). auto. }
    rewrite M, andb_false_r. eapply H1; eassumption.
  - intros k Hk. cbn beta. destruct (mem_str k (map fst reqs)) eqn:M; [apply mem_str_In in M; tauto|].
    destruct d; cbn; [reflexivity|]. apply H2. exact Hk.
Qed.
