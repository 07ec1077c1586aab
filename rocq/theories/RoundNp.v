(** Round trip of numpy objects, apart from the file: attributes and conversions. *)
From Verif Require Import Base PathEsc Unicode UnicodeFacts Dec NdArray Value OptionsM OptionsSpec StrConv ComplexM Attrs NpDims MColl ConvFacts Hdf5 HeapFacts NpWrite NpRead MarshalW MarshalR RoundSpec.
Local Open Scope nat_scope.
Local Arguments prod : simpl never.
Local Arguments transpose : simpl never.

(** ** attributes of a new object *)
Lemma assoc_dput {B} k k' (v : B) l : assoc k (dput k' v l) = if eqb_str k k' then Some v else assoc k l.
Proof.
  induction l as [|[x y] l IH]; cbn; [reflexivity|]. destruct (eqb_str_spec k' x) as [->|N]; cbn.
  - destruct (eqb_str k x); reflexivity.
  - rewrite IH. destruct (eqb_str_spec k x) as [->|]; [|reflexivity]. destruct (eqb_str_spec x k') as [E|]; [congruence|reflexivity].
Qed.
Lemma dput_keys {B} k (v : B) l x : In x (map fst (dput k v l)) <-> x = k \/ In x (map fst l).
Proof.
  induction l as [|[a b] l IH]; cbn; [intuition congruence|]. destruct (eqb_str_spec k a) as [->|N]; cbn; [intuition congruence|].
  rewrite IH. intuition congruence.
Qed.
Lemma dput_nodup {B} k (v : B) l : NoDup (map fst l) -> NoDup (map fst (dput k v l)).
Proof.
  induction l as [|[a b] l IH]; cbn; intros H; [constructor; [intros []|constructor]|]. inversion H; subst.
  destruct (eqb_str_spec k a) as [->|N]; cbn; [constructor; assumption|]. constructor; [|auto]. rewrite dput_keys. intuition congruence.
Qed.

Lemma dt_eqb_eq : forall a b, dt_eqb a b = true -> a = b.
Proof.
  fix REC 1. intros a b. destruct a as [|w|w|w|w|n|n| | |fs], b as [|w'|w'|w'|w'|n'|n'| | |gs]; intros H; try discriminate H; try reflexivity;
    try (cbn in H; apply Nat.eqb_eq in H; congruence).
  f_equal. revert gs H. induction fs as [|[k [d sh]] fs IH]; intros [|[k' [d' sh']] gs] H; try discriminate H; [reflexivity|].
  cbn in H. apply andb_true_iff in H. destruct H as [H H4]. apply andb_true_iff in H. destruct H as [H H3]. apply andb_true_iff in H. destruct H as [H1 H2].
  apply eqb_str_eq in H1. apply REC in H2. destruct (list_eq_dec Nat.eq_dec sh sh'); [|discriminate]. subst. f_equal. apply IH. exact H4.
Qed.
Definition fresh_attrs (reqs : list (pystr * areq)) : attrs := fun k =>
  match assoc k reqs with Some q => match req_val q with Ok v => Some v | Err _ => None end | None => None end.
Lemma put_fresh reqs : forall a a', put_attrs no_attrs reqs a = (a', None) -> NoDup (map fst reqs) ->
  forall k, a' k = match assoc k reqs with Some q => match req_val q with Ok v => Some v | Err _ => None end | None => a k end.
Proof.
  induction reqs as [|[k q] reqs IH]; cbn [put_attrs assoc]; intros a a' H N x; [injection H as ->; reflexivity|].
  cbn in N. inversion N; subst. destruct (put_attr no_attrs k q a) as [a1|] eqn:E; [|discriminate].
  assert (E1 : exists v, req_val q = Ok v /\ a1 = set_attr k v a).
  { unfold put_attr in E. destruct q; cbn [req_val] in *; try (destruct (ascii_bytes s) as [b|]; [|discriminate]; cbn in E); injection E as <-; eexists; split; reflexivity. }
  destruct E1 as (v & E1 & ->). rewrite (IH _ _ H) by assumption. destruct (eqb_str_spec x k) as [->|NE].
  - rewrite E1. assert (assoc k reqs = None) as ->.
    { destruct (assoc k reqs) as [q'|] eqn:E'; [|reflexivity]. apply assoc_In in E'. destruct H2. apply in_map_iff. exists (k, q'). auto. }
    apply set_attr_same.
  - destruct (assoc x reqs); [reflexivity|]. apply set_attr_other. exact NE.
Qed.
Lemma sync_fresh reqs d a' : set_attributes_all no_attrs reqs d = (a', None) -> NoDup (map fst reqs) -> forall k, a' k = fresh_attrs reqs k.
Proof.
  unfold set_attributes_all. destruct (put_attrs no_attrs reqs no_attrs) as [a1 [e|]] eqn:E; [discriminate|]. intros [= <-] N k.
  pose proof (put_fresh _ _ _ E N k) as P. unfold fresh_attrs. destruct (mem_str k (map fst reqs)) eqn:M.
  - rewrite andb_false_r, P. destruct (assoc k reqs); reflexivity.
  - assert (assoc k reqs = None) as A.
    { destruct (assoc k reqs) as [q'|] eqn:E'; [|reflexivity]. apply assoc_In in E'. assert (In k (map fst reqs)) by (apply in_map_iff; exists (k, q'); auto).
      apply mem_str_In in H. congruence. }
    rewrite A in *. destruct d; cbn; [reflexivity|exact P].
Qed.

Lemma in_assoc {B} k (v : B) l : NoDup (map fst l) -> In (k, v) l -> assoc k l = Some v.
Proof.
  induction l as [|[k' v'] l IH]; intros N H; [destruct H|]. cbn [map fst] in N. inversion N; subst. cbn [assoc]. destruct H as [[= -> ->]|H]; [rewrite eqb_str_refl; reflexivity|].
  rewrite (proj2 (eqb_str_neq k k')); [apply IH; assumption|]. intros ->. apply H2. apply in_map_iff. exists (k', v). auto.
Qed.
(** the same over old attributes that can be replaced *)
Lemma put_over ex reqs : forall a a', put_attrs ex reqs a = (a', None) -> NoDup (map fst reqs) ->
  (forall k q old, In (k, q) reqs -> ex k = Some old -> replaceable k q old) ->
  forall k, a' k = match assoc k reqs with Some q => match req_val q with Ok v => Some v | Err _ => None end | None => a k end.
Proof.
  induction reqs as [|[k q] reqs IH]; cbn [put_attrs assoc]; intros a a' H N R x; [injection H as ->; reflexivity|].
  cbn in N. inversion N; subst. destruct (put_attr ex k q a) as [a1|] eqn:E; [|discriminate].
  assert (E1 : exists v, req_val q = Ok v /\ a1 = set_attr k v a).
  { destruct (req_val q) as [v|e] eqn:EV.
    - exists v. split; [reflexivity|]. rewrite (put_ok ex k q a v EV) in E by (intros old Ho; apply (R k q old (or_introl eq_refl) Ho)). congruence.
    - exfalso. unfold put_attr in E. destruct q; cbn [req_val] in *; try discriminate. rewrite EV in E. discriminate. }
  destruct E1 as (v & E1 & ->). rewrite (IH _ _ H) by (try assumption; intros k1 q1 old Hi; apply (R k1 q1 old (or_intror Hi))). destruct (eqb_str_spec x k) as [->|NE].
  - rewrite E1. assert (assoc k reqs = None) as ->.
    { destruct (assoc k reqs) as [q'|] eqn:E'; [|reflexivity]. apply assoc_In in E'. destruct H2. apply in_map_iff. exists (k, q'). auto. }
    apply set_attr_same.
  - destruct (assoc x reqs); [reflexivity|]. apply set_attr_other. exact NE.
Qed.
Lemma sync_over ex reqs a' : set_attributes_all ex reqs true = (a', None) -> NoDup (map fst reqs) ->
  (forall k q old, In (k, q) reqs -> ex k = Some old -> replaceable k q old) -> forall k, a' k = fresh_attrs reqs k.
Proof.
  unfold set_attributes_all. destruct (put_attrs ex reqs ex) as [a1 [e|]] eqn:E; [discriminate|]. intros [= <-] N R k.
  pose proof (put_over _ _ _ _ E N R k) as P. unfold fresh_attrs. destruct (mem_str k (map fst reqs)) eqn:M.
  - cbn. rewrite P. apply mem_str_In in M. destruct (assoc k reqs) as [q|] eqn:A; [reflexivity|]. exfalso. apply in_map_iff in M. destruct M as ([k' q] & M1 & M). cbn [fst] in M1. subst k'.
    rewrite (in_assoc k q reqs N M) in A. discriminate.
  - assert (assoc k reqs = None) as A.
    { destruct (assoc k reqs) as [q'|] eqn:E'; [|reflexivity]. apply assoc_In in E'. assert (In k (map fst reqs)) by (apply in_map_iff; exists (k, q'); auto).
      apply mem_str_In in H. congruence. }
    rewrite A. reflexivity.
Qed.

(** ** strings in attributes *)
Lemma ascii_bytes_ok s : Forall (fun c => (c < 128)%N) s -> ascii_bytes s = Ok s.
Proof.
  intros H. unfold ascii_bytes. assert (forallb (fun c => (c <? 128)%N) s = true) as ->; [|reflexivity].
  apply forallb_forall. rewrite Forall_forall in H. intros x Hx. specialize (H x Hx). lia.
Qed.
Lemma ascii_bytes_inv s b : ascii_bytes s = Ok b -> b = s /\ Forall (fun c => (c < 128)%N) s.
Proof.
  unfold ascii_bytes. destruct (forallb _ s) eqn:E; [|discriminate]. intros [= <-]. split; [reflexivity|].
  rewrite forallb_forall in E. apply Forall_forall. intros x Hx. specialize (E x Hx). lia.
Qed.
Lemma ascii_scalar s : Forall (fun c => (c < 128)%N) s -> utf8_encode s = Ok s.
Proof. intros H. apply (ascii_utf16 s H). Qed.
Lemma ascii_decode s : Forall (fun c => (c < 128)%N) s -> bytes_decode_utf8 s = Ok s.
Proof. intros H. apply utf8_decode_encode. apply ascii_scalar. exact H. Qed.

Lemma show_nat_ascii n : Forall (fun c => (c < 128)%N) (show_nat n).
Proof. eapply Forall_impl; [|apply show_N_digits]. intros c Hc. cbn in Hc. lia. Qed.
Lemma dt_name_ascii d : Forall (fun c => (c < 128)%N) (dt_name d).
Proof.
  destruct d; unfold dt_name; try (destruct n); try (apply Forall_app; split; [|apply show_nat_ascii]); repeat constructor.
Qed.
Lemma container_ascii c : Forall (fun x => (x < 128)%N) (container_name c).
Proof. destruct c; repeat constructor. Qed.

(** ** the attributes of a numpy object that is not stored as a Group *)
Definition simple (d : dt) : Prop := match d with TRef | TStruct _ => False | _ => True end.
Definition mclass (o : options) (d : dt) : option pystr := if o_matlab_compatible o then matlab_class_of d else None.

Ltac lits := repeat match goal with |- context [eqb_str ?a ?b] =>
  let x := eval vm_compute in (eqb_str a b) in match x with true => change (eqb_str a b) with true | false => change (eqb_str a b) with false end end; cbv iota.

Definition np_type_attrs (c : container) (a : arr pyval) : list (pystr * areq) :=
  dput (lit "Python.numpy.Container") (QString (container_name c))
      (dput (lit "Python.numpy.UnderlyingType") (QString (dt_name (a_dt a)))
      (dput (lit "Python.Shape") (QVal (AU64s (a_shape a))) [])).

Section Attrs.
Variables (o : options) (c : container) (a : arr pyval) (ts : pystr) (t : option dt).
Hypotheses (Hm : o_store_python_metadata o = true) (Hs : simple (a_dt a)).
Local Notation reqs := (np_attrs o (c, a) ts [] false t).

Lemma np_attrs_eq : exists l, reqs = dput (lit "Python.Type") (QString ts) l /\ NoDup (map fst l) /\
  assoc (lit "Python.numpy.Container") l = Some (QString (container_name c)) /\
  assoc (lit "Python.numpy.UnderlyingType") l = Some (QString (dt_name (a_dt a))) /\
  assoc (lit "Python.Shape") l = Some (QVal (AU64s (a_shape a))) /\
  assoc (lit "Python.Fields") l = None /\ assoc (lit "MATLAB_fields") l = None /\
  assoc (lit "Python.Empty") l = (if np_empty a then Some (QVal (AU8 1)) else None) /\
  assoc (lit "MATLAB_class") l = option_map QString (mclass o (a_dt a)).
Proof.
  unfold np_attrs. rewrite Hm. assert (fields_anyway o a = false) as -> by (unfold fields_anyway; destruct (a_dt a); cbn in Hs; tauto || reflexivity).
  assert (is_struct (a_dt a) = false) as -> by (destruct (a_dt a); cbn in Hs; tauto || reflexivity).
  cbn [orb andb]. fold (np_type_attrs c a).
  set (l1 := if np_empty a then _ else _).
  assert (L1 : NoDup (map fst l1)) by (unfold l1, np_type_attrs; destruct (np_empty a), (o_matlab_compatible o); repeat apply dput_nodup; constructor).
  assert (T1 : ~ In (lit "Python.Type") (map fst l1)).
  { unfold l1, np_type_attrs. destruct (np_empty a), (o_matlab_compatible o); rewrite !dput_keys; cbn [map In]; intuition discriminate. }
  assert (G : forall k, assoc k l1 = if np_empty a then
       (if o_matlab_compatible o && eqb_str k (lit "MATLAB_empty") then Some (QVal (AU8 1)) else
        if eqb_str k (lit "Python.Empty") then Some (QVal (AU8 1)) else assoc k (np_type_attrs c a)) else assoc k (np_type_attrs c a)).
  { intros k. unfold l1. destruct (np_empty a); [|reflexivity]. destruct (o_matlab_compatible o); rewrite !assoc_dput; reflexivity. }
  clearbody l1.
  set (l2 := if o_matlab_compatible o then _ else l1).
  assert (L2 : NoDup (map fst l2)).
  { unfold l2. destruct (o_matlab_compatible o); [|exact L1]. destruct (matlab_class_of (a_dt a)); [|exact L1].
    destruct (a_dt a); try (apply dput_nodup; exact L1); destruct t as [[]|]; repeat apply dput_nodup; exact L1. }
  assert (T2 : ~ In (lit "Python.Type") (map fst l2)).
  { unfold l2. destruct (o_matlab_compatible o); [|exact T1]. destruct (matlab_class_of (a_dt a)); [|exact T1].
    destruct (a_dt a); rewrite ?dput_keys; try (intuition discriminate); destruct t as [[]|]; rewrite !dput_keys; intuition discriminate. }
  assert (G2 : forall k, k <> lit "MATLAB_int_decode" -> assoc k l2 = if eqb_str k (lit "MATLAB_class") then
      match mclass o (a_dt a) with Some x => Some (QString x) | None => assoc k l1 end else assoc k l1).
  { intros k N. apply eqb_str_neq in N. unfold l2, mclass. destruct (o_matlab_compatible o).
    2: destruct (eqb_str k (lit "MATLAB_class")); reflexivity.
    destruct (matlab_class_of (a_dt a)); [|destruct (eqb_str k (lit "MATLAB_class")); reflexivity].
    destruct (a_dt a); rewrite ?assoc_dput; try reflexivity; destruct t as [[]|]; rewrite ?assoc_dput, ?N; reflexivity. }
  clearbody l2.
  exists l2. split.
  { destruct (mem_str (lit "Python.Type") (map fst l2)) eqn:M; [apply mem_str_In in M; tauto|]. reflexivity. }
  split; [exact L2|]. rewrite !G2 by discriminate. lits. rewrite !G. lits. rewrite !andb_false_r. unfold np_type_attrs. rewrite !assoc_dput. lits.
  cbn [assoc]. destruct (np_empty a), (mclass o (a_dt a)); repeat split; reflexivity.
Qed.

Lemma np_attrs_nodup : NoDup (map fst reqs).
Proof. destruct np_attrs_eq as (l & -> & N & _). apply dput_nodup. exact N. Qed.

Lemma np_read_attrs at_ : Forall (fun x => (x < 128)%N) ts -> (forall k, k <> lit "H5PATH" -> at_ k = fresh_attrs reqs k) ->
  exists me, read_attrs at_ = Ok (mkRA (Some ts) (Some (dt_name (a_dt a))) (Some (a_shape a)) (Some (container_name c)) (np_empty a) None
                     (mclass o (a_dt a)) me None) /\
  attr_str at_ (lit "Python.Type") = Ok (Some ts) /\ attr_str at_ (lit "MATLAB_class") = Ok (mclass o (a_dt a)).
Proof.
  intros At H. destruct np_attrs_eq as (l & E & _ & E1 & E2 & E3 & E4 & E5 & E6 & E7).
  assert (MC : forall x, mclass o (a_dt a) = Some x -> Forall (fun x => (x < 128)%N) x).
  { unfold mclass. destruct (o_matlab_compatible o); [|discriminate]. intros x Hx. unfold matlab_class_of in Hx.
    assert (AL : forall y, Some y = Some x -> Forall (fun x => (x < 128)%N) y -> Forall (fun x => (x < 128)%N) x) by (intros y [= ->]; auto).
    destruct (a_dt a); try discriminate; try (eapply AL; [exact Hx|]; first [apply dt_name_ascii|repeat constructor]; fail).
    all: do 17 (try (destruct w as [|w]); try discriminate; try (eapply AL; [exact Hx|]; repeat constructor; fail)). }
  assert (F : forall k, k <> lit "H5PATH" -> k <> lit "Python.Type" -> at_ k = match assoc k l with Some q => match req_val q with Ok v => Some v | Err _ => None end | None => None end).
  { intros k N1 N2. rewrite H by exact N1. unfold fresh_attrs. rewrite E, assoc_dput. apply eqb_str_neq in N2. rewrite N2. reflexivity. }
  assert (F0 : at_ (lit "Python.Type") = Some (AStr ts)).
  { rewrite H by discriminate. unfold fresh_attrs. rewrite E, assoc_dput, eqb_str_refl. cbn [req_val]. rewrite ascii_bytes_ok by exact At. reflexivity. }
  assert (A1 : attr_str at_ (lit "Python.Type") = Ok (Some ts)) by (unfold attr_str; rewrite F0, ascii_decode by exact At; reflexivity).
  assert (A2 : attr_str at_ (lit "MATLAB_class") = Ok (mclass o (a_dt a))).
  { unfold attr_str. rewrite F, E7 by discriminate. destruct (mclass o (a_dt a)) as [x|]; [|reflexivity]. cbn [option_map req_val].
    rewrite ascii_bytes_ok by (apply MC; reflexivity). cbn [bindr]. rewrite ascii_decode by (apply MC; reflexivity). reflexivity. }
  exists (attr_is1 at_ (lit "MATLAB_empty")). split; [|split; assumption].
  unfold read_attrs. rewrite A1, A2. cbn [bindr].
  assert (A3 : attr_str at_ (lit "Python.numpy.UnderlyingType") = Ok (Some (dt_name (a_dt a)))).
  { unfold attr_str. rewrite F, E2 by discriminate. cbn [req_val]. rewrite ascii_bytes_ok by apply dt_name_ascii. cbn [bindr]. rewrite ascii_decode by apply dt_name_ascii. reflexivity. }
  assert (A4 : attr_str at_ (lit "Python.numpy.Container") = Ok (Some (container_name c))).
  { unfold attr_str. rewrite F, E1 by discriminate. cbn [req_val]. rewrite ascii_bytes_ok by apply container_ascii. cbn [bindr]. rewrite ascii_decode by apply container_ascii. reflexivity. }
  rewrite A3, A4. cbn [bindr]. f_equal. unfold attr_shape, attr_strs, attr_fields, attr_is1.
  rewrite (F (lit "Python.Shape")), (F (lit "Python.Empty")), (F (lit "Python.Fields")), (F (lit "MATLAB_fields")), E3, E4, E5, E6 by discriminate.
  cbn [req_val]. f_equal. destruct (np_empty a); reflexivity.
Qed.
End Attrs.

(** ** dtype names *)
Lemma prefixed_app p s : prefixed p (p ++ s) = Some s.
Proof. induction p as [|x p IH]; cbn; [reflexivity|]. rewrite N.eqb_refl. exact IH. Qed.
Lemma int_show n : int_text (show_nat n) = Ok n.
Proof. unfold int_text, show_nat. rewrite parse_show_N, Nat2N.id. reflexivity. Qed.
Lemma bits_show w : bits_of (show_nat (8 * w)) = Some w.
Proof. unfold bits_of, show_nat. rewrite parse_show_N, Nat2N.id. f_equal. rewrite Nat.mul_comm. apply Nat.div_mul. discriminate. Qed.
Lemma nchars_show p per n : per <> 0 -> nchars p per (p ++ show_nat (per * n)) = Ok n.
Proof.
  intros Hp. unfold nchars. rewrite prefixed_app. pose proof (show_N_nonempty (N.of_nat (per * n))) as E. fold (show_nat (per * n)) in E.
  rewrite int_show. destruct (show_nat (per * n)); [congruence|]. cbn [bindr]. rewrite Nat.mul_comm, Nat.div_mul by exact Hp. reflexivity.
Qed.
Lemma dtype_name d : simple d -> match d with TS _ | TUni _ => False | _ => True end -> dtype_of_name (dt_name d) = Ok d.
Proof.
  destruct d; cbn [simple]; try tauto; intros _ _; unfold dtype_of_name, dt_name; lits; try reflexivity.
  - change (eqb_str (lit "uint" ++ show_nat (8 * w)) (lit "bool")) with false. change (eqb_str (lit "uint" ++ show_nat (8 * w)) (lit "object")) with false.
    cbv iota. rewrite prefixed_app, bits_show. reflexivity.
  - change (eqb_str (lit "int" ++ show_nat (8 * w)) (lit "bool")) with false. change (eqb_str (lit "int" ++ show_nat (8 * w)) (lit "object")) with false.
    cbv iota. rewrite prefixed_app, bits_show. reflexivity.
  - change (eqb_str (lit "float" ++ show_nat (8 * w)) (lit "bool")) with false. change (eqb_str (lit "float" ++ show_nat (8 * w)) (lit "object")) with false.
    cbv iota. rewrite prefixed_app, bits_show. reflexivity.
  - change (eqb_str (lit "complex" ++ show_nat (8 * w)) (lit "bool")) with false. change (eqb_str (lit "complex" ++ show_nat (8 * w)) (lit "object")) with false.
    cbv iota. rewrite prefixed_app, bits_show. reflexivity.
Qed.
Definition is_bytes_dt (d : dt) : bool := match d with TS _ => true | _ => false end.
Definition is_uni_dt (d : dt) : bool := match d with TUni _ => true | _ => false end.
Lemma starts_bytes d : simple d -> starts_with (lit "bytes") (dt_name d) = is_bytes_dt d.
Proof. destruct d; try (intros []; fail); try reflexivity; destruct n; reflexivity. Qed.
Lemma starts_str d : simple d -> starts_with (lit "str") (dt_name d) = is_uni_dt d.
Proof. destruct d; try (intros []; fail); try reflexivity; destruct n; reflexivity. Qed.
Lemma starts_complex d : simple d -> starts_with (lit "complex") (dt_name d) = is_cpx d.
Proof. destruct d; try (intros []; fail); try reflexivity; destruct n; reflexivity. Qed.
Lemma name_bool d : simple d -> eqb_str (dt_name d) (lit "bool") = dt_eqb d TBool.
Proof. destruct d; try (intros []; fail); try reflexivity; destruct n; reflexivity. Qed.

(** ** the container *)
Definition fin (ts : pystr) (c : container) (d : arr pyval) : res pyval :=
  match c with
  | CScalar => flat0 d
  | CNdarray => Ok (VNp CNdarray d)
  | CChararray => Ok (VNp CChararray d)
  | CMatrix => match a_shape d with _ :: _ :: _ :: _ => Err ValueError | sh => Ok (VNp CMatrix (reshape (atleast_2d sh) d)) end
  | CRecarray => Ok (VNp (if eqb_str ts (lit "numpy.recarray") then CRecarray else CNdarray) d)
  end.
Lemma reshape_self {A} (a : arr A) : reshape (a_shape a) a = a.
Proof. destruct a; reflexivity. Qed.

(** the last steps, for what is in [d4] (l.1395-1455) *)
Definition meta_end (ts : pystr) (c : container) (d : dt) (sh : list nat) (d4 : arr pyval) (mc : option pystr) : res pyval :=
  do d5 <- (if is_bytes_dt d then (match d with TS n => convert_to_numpy_bytes d4 n | _ => Ok d4 end)
            else if is_uni_dt d then (match d with TUni n => convert_to_numpy_str d4 (Some n) | _ => Ok d4 end) else Ok d4);
  fin ts c (fix_shape sh d5).
Lemma np_meta_end ro ts c d sh mc D D' :
  simple d -> match d with TS 0 | TUni 0 => False | _ => True end ->
  (match mc with Some x => x = lit "char" -> is_bytes_dt d || is_uni_dt d = true | None => True end) ->
  (do d2 <- (if is_cpx d then decode_complex D else Ok D);
   Ok (if dt_eqb d TBool && negb (dt_eqb (a_dt d2) TBool) then mkArr TBool (a_shape d2) (map to_bool (a_data d2)) else d2)) = Ok D' ->
  np_meta (o_reverse ro) ts (dt_name d) sh (Some (container_name c)) false None mc D =
  meta_end ts c d sh (if match mc with Some _ => true | None => o_reverse ro end then tr D' else D') mc.
Proof.
  intros Hs Hw Hc HD. unfold np_meta. rewrite (starts_bytes d Hs), (starts_str d Hs), (starts_complex d Hs), (name_bool d Hs). cbn [bindr].
  destruct (if is_cpx d then decode_complex D else Ok D) as [d2|] eqn:E2; [|discriminate HD]. cbn [bindr] in HD |- *. injection HD as ->.
  set (D4 := if match mc with Some _ => true | None => o_reverse ro end then tr D' else D'). unfold meta_end.
  assert (FI : forall d5, (do d6 <- (if negb (eqb_shape sh (a_shape d5)) && (prod sh =? prod (a_shape d5)) then Ok (reshape sh d5) else Ok d5);
    if eqb_str (container_name c) (lit "scalar") then
        if (is_bytes_dt d || is_uni_dt d) && false then Ok (if is_bytes_dt d then VNp CScalar (np_bytes []) else VNp CScalar (np_str []))
        else flat0 d6
      else if eqb_str (container_name c) (lit "ndarray") then Ok (VNp CNdarray d6)
      else if eqb_str (container_name c) (lit "chararray") then Ok (VNp CChararray d6)
      else if eqb_str (container_name c) (lit "matrix") then
        match a_shape d6 with
        | _ :: _ :: _ :: _ => Err ValueError
        | sh => Ok (VNp CMatrix (reshape (atleast_2d sh) d6))
        end
      else Ok (VNp (if eqb_str ts (lit "numpy.recarray") then CRecarray else CNdarray) d6)) = fin ts c (fix_shape sh d5)).
  { intros d5. assert ((if negb (eqb_shape sh (a_shape d5)) && (prod sh =? prod (a_shape d5)) then Ok (reshape sh d5) else Ok d5) = Ok (fix_shape sh d5)) as ->.
    { unfold fix_shape. destruct (_ && _); reflexivity. }
    cbn [bindr]. rewrite andb_false_r. destruct c; reflexivity. }
  destruct (is_bytes_dt d) eqn:Eb.
  - destruct d; try discriminate. destruct n; [tauto|]. change (dt_name (TS (S n))) with (lit "bytes" ++ show_nat (8 * S n)).
    assert (eqb_str (lit "bytes" ++ show_nat (8 * S n)) (lit "bytes") = false) as ->.
    { apply eqb_str_neq. intros E. change (lit "bytes") with (lit "bytes" ++ []) in E at 2. apply app_inv_head in E. apply (show_N_nonempty _ E). }
    rewrite nchars_show by discriminate. cbn [bindr]. destruct (convert_to_numpy_bytes D4 (S n)) as [d5|]; [|reflexivity]. cbn [bindr].
    apply (FI d5).
  - destruct (is_uni_dt d) eqn:Eu.
    + destruct d; try discriminate. destruct n; [tauto|]. change (dt_name (TUni (S n))) with (lit "str" ++ show_nat (32 * S n)).
      assert (eqb_str (lit "str" ++ show_nat (32 * S n)) (lit "str") = false) as ->.
      { apply eqb_str_neq. intros E. change (lit "str") with (lit "str" ++ []) in E at 2. apply app_inv_head in E. apply (show_N_nonempty _ E). }
      cbn [orb]. rewrite nchars_show by discriminate. cbn [bindr]. destruct (convert_to_numpy_str D4 (Some (S n))) as [d5|]; [|reflexivity]. cbn [bindr].
      apply (FI d5).
    + assert (match mc with Some c0 => eqb_str c0 (lit "char") | None => false end = false) as ->.
      { destruct mc as [x|]; [|reflexivity]. apply eqb_str_neq. intros E. specialize (Hc E). discriminate. }
      cbn [orb bindr]. apply (FI D4).
Qed.

(** ** what comes back from the file for a stored array *)
Definition fetched (b D : arr pyval) : Prop :=
  match a_dt b with
  | TObj => exists l, D = mkArr TObj (a_shape b) l /\ Forall2 same_elem (a_data b) l
  | _ => D = amap (fun _ => VNone) (h5py_present (mkArr (stored_dt (a_dt b)) (a_shape b) (map noptr (a_data b))))
  end.

Lemma rev_flag wo ro a : paired wo ro -> simple (a_dt a) -> compatible wo ro a ->
  match mclass wo (a_dt a) with Some _ => true | None => o_reverse ro end = o_reverse wo.
Proof.
  intros P Hs C. unfold mclass. destruct (o_matlab_compatible wo) eqn:M.
  - destruct (C M) as [K|[_ K]].
    + rewrite (p_rev _ _ P M). destruct (a_dt a); try reflexivity; try (cbn in Hs; tauto); cbn in K;
        do 17 (destruct w as [|w]; try reflexivity; try tauto).
    + rewrite K. destruct (matlab_class_of (a_dt a)); [symmetry; apply (p_rev _ _ P M)|reflexivity].
  - destruct (p_same _ _ P) as [X|X]; [congruence|exact X].
Qed.

Lemma tr_empty {A} (a : arr A) : wf_arr a -> prod (a_shape a) = 0 -> a_data a = [].
Proof. unfold wf_arr. intros H E. rewrite E in H. apply length_zero_iff_nil. exact H. Qed.

Lemma fin_np ts c a : (c = CScalar -> False) -> (c = CMatrix -> length (a_shape a) = 2) -> (c = CRecarray -> ts = lit "numpy.recarray") ->
  fin ts c a = Ok (VNp c a).
Proof.
  intros H1 H2 H3. destruct c; cbn [fin]; try reflexivity; [destruct (H1 eq_refl)| |].
  - specialize (H2 eq_refl). destruct a as [d sh l]. cbn [a_shape] in *. destruct sh as [|x [|y [|z r]]]; try discriminate. reflexivity.
  - rewrite (H3 eq_refl), eqb_str_refl. reflexivity.
Qed.

Lemma noptr_typed d e : typed d e -> d <> TObj -> emap (fun _ => VNone) (noptr e) = e.
Proof. destruct d, e; cbn; intros H N; tauto || reflexivity || congruence. Qed.
Lemma noptr_list d l : Forall (typed d) l -> d <> TObj -> map (emap (fun _ => VNone)) (map noptr l) = l.
Proof. intros H N. induction H as [|e l He _ IH]; cbn; [reflexivity|]. rewrite (noptr_typed d) by assumption. f_equal. exact IH. Qed.
Lemma noptr_units l : map (emap (fun _ => VNone)) (map noptr (units l)) = units l.
Proof. unfold units. rewrite !map_map. reflexivity. Qed.

Lemma write_dims_map {A B} o (f : elem A -> elem B) (d : dt) (a : arr A) :
  write_dims o (mkArr d (a_shape a) (map f (a_data a))) = mkArr d (a_shape (write_dims o a)) (map f (a_data (write_dims o a))).
Proof.
  unfold write_dims. destruct (o_atleast_2d o), (o_reverse o); cbn; unfold tr; cbn [a_dt a_shape a_data reshape]; rewrite ?transpose_map; reflexivity.
Qed.
Lemma write_dims_in {A} o (a : arr A) e : In e (a_data (write_dims o a)) -> In e (a_data a).
Proof. unfold write_dims. destruct (o_atleast_2d o), (o_reverse o); cbn; auto; intros H; apply transpose_in in H; exact H. Qed.

(** related arrays stay related *)
Lemma forall2_transpose {A} (P : A -> A -> Prop) sh l m : Forall2 P l m -> Forall2 P (transpose sh l) (transpose sh m).
Proof.
  intros H. assert (E : exists z, l = map fst z /\ m = map snd z /\ Forall (fun p => P (fst p) (snd p)) z).
  { induction H as [|x y l m Hx _ (z & -> & -> & Hz)]; [exists []; repeat split; constructor|]. exists ((x, y) :: z). repeat split. constructor; assumption. }
  destruct E as (z & -> & -> & Hz). rewrite !transpose_map.
  assert (Hz' : Forall (fun p => P (fst p) (snd p)) (transpose sh z)).
  { rewrite Forall_forall in *. intros p Hp. apply Hz. eapply transpose_in. exact Hp. }
  induction Hz'; cbn; constructor; assumption.
Qed.
Lemma write_dims_related wo (a : arr pyval) l : wf_arr a -> Forall2 same_elem (a_data (write_dims wo a)) l ->
  exists a', mkArr (a_dt a) (a_shape (write_dims wo a)) l = write_dims wo a' /\ wf_arr a' /\ a_dt a' = a_dt a /\ a_shape a' = a_shape a /\
    Forall2 same_elem (a_data a) (a_data a').
Proof.
  intros W H. unfold write_dims in *. set (sh1 := if o_atleast_2d wo then atleast_2d (a_shape a) else a_shape a).
  assert (E1 : (if o_atleast_2d wo then reshape (atleast_2d (a_shape a)) a else a) = mkArr (a_dt a) sh1 (a_data a)) by (unfold sh1; destruct (o_atleast_2d wo), a; reflexivity).
  assert (P1 : prod sh1 = prod (a_shape a)) by (unfold sh1; destruct (o_atleast_2d wo); [apply atleast_2d_prod|reflexivity]).
  rewrite E1 in *. destruct (o_reverse wo); cbn [tr a_dt a_shape a_data] in *.
  - assert (L : length l = prod sh1).
    { apply Forall2_len in H. rewrite <- H. apply transpose_len. unfold wf_arr in W. lia. }
    set (m := transpose (rev sh1) l). assert (Lm : length m = prod sh1) by (unfold m; rewrite transpose_len; rewrite prod_rev; auto).
    exists (mkArr (a_dt a) (a_shape a) m). cbn [a_dt a_shape a_data]. split; [|split; [|split; [|split]]]; try reflexivity.
    + destruct (o_atleast_2d wo); cbn [reshape a_dt a_shape a_data]; fold sh1; unfold tr; cbn [a_dt a_shape a_data]; f_equal;
        pose proof (transpose_invol (rev sh1) l) as Q; rewrite rev_involutive in Q; symmetry; apply Q; rewrite prod_rev; exact L.
    + unfold wf_arr. cbn. lia.
    + unfold m. rewrite <- (transpose_invol sh1 (a_data a)) by (unfold wf_arr in W; lia). apply forall2_transpose. exact H.
  - exists (mkArr (a_dt a) (a_shape a) l). cbn [a_dt a_shape a_data]. split; [|split; [|split; [|split]]]; try reflexivity; try assumption.
    + destruct (o_atleast_2d wo); reflexivity.
    + apply Forall2_len in H. unfold wf_arr in *. cbn. lia.
Qed.

Lemma decode_elem_emap {A B} (f : A -> B) sw (e : elem A) : decode_elem sw (emap f e) = emap f (decode_elem sw e).
Proof.
  destruct e as [| | | | | | |fs]; try reflexivity. cbn [emap].
  destruct fs as [|[|e0 [|]] [|[|e1 [|]] [|]]]; try reflexivity; destruct e0; try reflexivity; destruct e1; try reflexivity; destruct sw; reflexivity.
Qed.
Lemma decode_complex_amap {A B} (f : A -> B) (a b : arr A) : decode_complex a = Ok b -> decode_complex (amap f a) = Ok (amap f b).
Proof.
  unfold decode_complex. cbn [amap a_dt a_shape a_data]. destruct (a_dt a) as [| | | | | | | | |fs]; try (intros [= <-]; reflexivity).
  destruct fs as [|[n0 [d0 s0]] [|[n1 [d1 s1]] [|]]]; try (intros [= <-]; reflexivity).
  assert (G : forall sw, (match d0, s0, d1, s1 with
        | TF 4, [], TF 4, [] => Ok (mkArr (TC 8) (a_shape a) (map (decode_elem sw) (a_data a)))
        | TF 8, [], TF 8, [] => Ok (mkArr (TC 16) (a_shape a) (map (decode_elem sw) (a_data a)))
        | _, _, _, _ => Err NotImplementedError end) = Ok b ->
      (match d0, s0, d1, s1 with
        | TF 4, [], TF 4, [] => Ok (mkArr (TC 8) (a_shape a) (map (decode_elem sw) (map (emap f) (a_data a))))
        | TF 8, [], TF 8, [] => Ok (mkArr (TC 16) (a_shape a) (map (decode_elem sw) (map (emap f) (a_data a))))
        | _, _, _, _ => Err NotImplementedError end) = Ok (amap f b)).
  { intros sw. assert (E : map (decode_elem sw) (map (emap f) (a_data a)) = map (emap f) (map (decode_elem sw) (a_data a))).
    { rewrite !map_map. apply map_ext. intros e. apply decode_elem_emap. }
    rewrite E. destruct d0 as [|w0|w0|w0|w0|w0|w0| | |]; try discriminate. do 9 (try (destruct w0 as [|w0]); try discriminate).
    all: destruct s0; try discriminate; destruct d1 as [|w1|w1|w1|w1|w1|w1| | |]; try discriminate.
    all: do 9 (try (destruct w1 as [|w1]); try discriminate); destruct s1; try discriminate; intros [= <-]; reflexivity. }
  destruct (part_of n0), (part_of n1); try apply G; intros [= <-]; reflexivity.
Qed.

(** ** elements without pointers are stored as they are *)
Definition flat (e : elem pyval) : Prop := emap (fun _ => VNone) (noptr e) = e.
Lemma flat_list l : Forall flat l -> map (emap (fun _ => VNone)) (map noptr l) = l.
Proof. induction 1 as [|e l He _ IH]; cbn; [reflexivity|]. rewrite He. f_equal. exact IH. Qed.
Lemma flat_typed d e : typed d e -> d <> TObj -> flat e.
Proof. apply noptr_typed. Qed.
Lemma flat_units us : Forall flat (units us).
Proof. unfold units. apply Forall_forall. intros e H. apply in_map_iff in H. destruct H as (u & <- & _). reflexivity. Qed.
Lemma flat_map_units {B} (f : B -> list N) l : Forall flat (flat_map (fun x => units (f x)) l).
Proof. induction l as [|x l IH]; [constructor|]. cbn. apply Forall_app. split; [apply flat_units|exact IH]. Qed.
Lemma fetched_flat b D : simple (a_dt b) -> a_dt b <> TObj -> a_dt b <> TS 0 -> Forall flat (a_data b) -> fetched b D -> D = b.
Proof.
  unfold fetched. destruct b as [d sh l]. cbn [a_dt a_shape a_data]. intros Hs H1 H2 Hf H.
  assert (E : D = amap (fun _ : nat => VNone) (mkArr d sh (map noptr l))).
  { destruct d; cbn in Hs; try tauto; try exact H. destruct n; [congruence|exact H]. }
  rewrite E. unfold amap. cbn [a_dt a_shape a_data]. rewrite flat_list by exact Hf. reflexivity.
Qed.
Lemma uint16_flat a b : convert_numpy_str_to_uint16 a = Ok b -> Forall flat (a_data b) /\ a_dt b = TU 2.
Proof.
  unfold convert_numpy_str_to_uint16. destruct (_ =? 0); [intros [= <-]; split; [constructor|reflexivity]|].
  destruct (mapr _ _); [|discriminate]. cbn [bindr]. intros [= <-]. split; [apply flat_map_units|reflexivity].
Qed.
Lemma uint32_flat a b : convert_numpy_str_to_uint32 a = Ok b -> Forall flat (a_data b) /\ a_dt b = TU 4.
Proof.
  unfold convert_numpy_str_to_uint32. destruct (_ =? 0); [intros [= <-]; split; [constructor|reflexivity]|]. destruct (a_dt a); try discriminate.
  destruct (mapr _ _); [|discriminate]. cbn [bindr]. intros [= <-]. split; [apply flat_map_units|reflexivity].
Qed.
Lemma store_str_flat o c a n b : a_dt a = TUni n -> store_str o c a = Ok b -> Forall flat (a_data b) /\ (a_dt b = TU 2 \/ a_dt b = TU 4).
Proof.
  intros E. unfold store_str. rewrite E.
  assert (A : forall b, convert_numpy_str_to_uint16 a = Ok b -> Forall flat (a_data b) /\ (a_dt b = TU 2 \/ a_dt b = TU 4)) by (intros x Hx; apply uint16_flat in Hx; tauto).
  assert (B : convert_numpy_str_to_uint32 a = Ok b -> Forall flat (a_data b) /\ (a_dt b = TU 2 \/ a_dt b = TU 4)) by (intros Hx; apply uint32_flat in Hx; tauto).
  destruct (o_str_utf16 o); [|exact B]. destruct (convert_numpy_str_to_uint16 a) as [x|] eqn:E1; [|exact B].
  destruct c; try (destruct (a_shape a); [discriminate|]); try (destruct (_ =? _); [intros [= <-]; apply A; reflexivity|exact B]).
Qed.
Lemma write_dims_flat o (a : arr pyval) : Forall flat (a_data a) -> Forall flat (a_data (write_dims o a)).
Proof. rewrite !Forall_forall. intros H e He. apply H. eapply write_dims_in. exact He. Qed.

Lemma str_elems_typed n l : Forall (typed (TUni n)) l -> str_elems n l.
Proof. intros H. eapply Forall_impl; [|exact H]. intros e He. destruct e; cbn in He; try tauto. exists s. tauto. Qed.
Lemma bytes_elems_typed n l : Forall (typed (TS n)) l -> bytes_elems n l.
Proof. intros H. eapply Forall_impl; [|exact H]. intros e He. destruct e; cbn in He; try tauto. exists s. tauto. Qed.

Lemma np_meta_empty rv ts c d sh mc D : simple d -> match d with TS 0 | TUni 0 => False | _ => True end -> prod sh = 0 -> c <> CScalar ->
  (match mc with Some x => x = lit "char" -> is_bytes_dt d || is_uni_dt d = true | None => True end) ->
  np_meta rv ts (dt_name d) sh (Some (container_name c)) true None mc D = fin ts c (mkArr d sh []).
Proof.
  intros Hs Hw Hp Hn Hc. unfold np_meta. cbv iota beta zeta. rewrite (starts_bytes d Hs), (starts_str d Hs), (starts_complex d Hs), (name_bool d Hs).
  set (rev_ := match mc with Some _ => true | None => rv end).
  assert (T1 : (do dt1 <- (if is_bytes_dt d then do n <- nchars (lit "bytes") 8 (dt_name d); Ok (TS n)
                         else if is_uni_dt d then do n <- nchars (lit "str") 32 (dt_name d); Ok (TUni n)
                         else dtype_of_name (dt_name d));
              Ok (if rev_ then tr (np_zeros sh dt1) else np_zeros sh dt1)) = Ok (if rev_ then tr (mkArr d sh []) else mkArr d sh [])).
  { assert (TT : forall e, Ok (if rev_ then tr (np_zeros sh e) else np_zeros sh e) = Ok (if rev_ then tr (mkArr e sh []) else mkArr e sh [])).
    { intros e. unfold np_zeros. rewrite Hp. reflexivity. }
    destruct (is_bytes_dt d) eqn:Eb; [|destruct (is_uni_dt d) eqn:Eu].
    - destruct d; try discriminate. destruct n; [tauto|]. change (dt_name (TS (S n))) with (lit "bytes" ++ show_nat (8 * S n)). rewrite nchars_show by discriminate. apply TT.
    - destruct d; try discriminate. destruct n; [tauto|]. change (dt_name (TUni (S n))) with (lit "str" ++ show_nat (32 * S n)). rewrite nchars_show by discriminate. apply TT.
    - rewrite dtype_name; [apply TT|exact Hs|]. destruct d; try discriminate; exact I. }
  rewrite T1. clear T1. cbn [bindr]. set (d1 := if rev_ then _ else _).
  assert (D1 : a_dt d1 = d) by (unfold d1; destruct rev_; reflexivity).
  assert (D2 : (if is_cpx d then decode_complex d1 else Ok d1) = Ok d1).
  { destruct (is_cpx d) eqn:E; [|reflexivity]. unfold decode_complex. rewrite D1. destruct d; try discriminate. reflexivity. }
  rewrite D2. cbn [bindr]. rewrite D1. rewrite andb_negb_r.
  assert (D4 : (if rev_ then tr d1 else d1) = mkArr d sh []).
  { unfold d1. destruct rev_; [|reflexivity]. apply tr_tr. unfold wf_arr. cbn. lia. }
  rewrite D4.
  assert (FI : (do d6 <- (if negb (eqb_shape sh (a_shape (@mkArr pyval d sh []))) && (prod sh =? prod (a_shape (@mkArr pyval d sh []))) then Ok (reshape sh (mkArr d sh [])) else Ok (mkArr d sh []));
    if eqb_str (container_name c) (lit "scalar") then
        if (is_bytes_dt d || is_uni_dt d) && true then Ok (if is_bytes_dt d then VNp CScalar (np_bytes []) else VNp CScalar (np_str []))
        else flat0 d6
      else if eqb_str (container_name c) (lit "ndarray") then Ok (VNp CNdarray d6)
      else if eqb_str (container_name c) (lit "chararray") then Ok (VNp CChararray d6)
      else if eqb_str (container_name c) (lit "matrix") then
        match a_shape d6 with
        | _ :: _ :: _ :: _ => Err ValueError
        | sh => Ok (VNp CMatrix (reshape (atleast_2d sh) d6))
        end
      else Ok (VNp (if eqb_str ts (lit "numpy.recarray") then CRecarray else CNdarray) d6)) = fin ts c (mkArr d sh [])).
  { cbn [a_shape]. destruct (eqb_shape_spec sh sh) as [_|q]; [|destruct (q eq_refl)]. cbn [negb andb bindr]. destruct c; try reflexivity. destruct (Hn eq_refl). }
  destruct (is_bytes_dt d) eqn:Eb.
  - destruct d; try discriminate. destruct n; [tauto|]. change (dt_name (TS (S n))) with (lit "bytes" ++ show_nat (8 * S n)).
    assert (eqb_str (lit "bytes" ++ show_nat (8 * S n)) (lit "bytes") = false) as ->.
    { apply eqb_str_neq. intros E. change (lit "bytes") with (lit "bytes" ++ []) in E at 2. apply app_inv_head in E. apply (show_N_nonempty _ E). }
    rewrite nchars_show by discriminate. unfold convert_to_numpy_bytes. cbn [bindr a_dt]. apply FI.
  - destruct (is_uni_dt d) eqn:Eu.
    + destruct d; try discriminate. destruct n; [tauto|]. change (dt_name (TUni (S n))) with (lit "str" ++ show_nat (32 * S n)).
      assert (eqb_str (lit "str" ++ show_nat (32 * S n)) (lit "str") = false) as ->.
      { apply eqb_str_neq. intros E. change (lit "str") with (lit "str" ++ []) in E at 2. apply app_inv_head in E. apply (show_N_nonempty _ E). }
      cbn [orb]. rewrite nchars_show by discriminate. unfold convert_to_numpy_str. cbn [bindr a_dt]. apply FI.
    + assert (match mc with Some c0 => eqb_str c0 (lit "char") | None => false end = false) as ->.
      { destruct mc as [x|]; [|reflexivity]. apply eqb_str_neq. intros E. specialize (Hc E). discriminate. }
      cbn [orb bindr]. apply FI.
Qed.

Lemma mclass_char wo d : simple d -> match mclass wo d with Some x => x = lit "char" -> is_bytes_dt d || is_uni_dt d = true | None => True end.
Proof.
  intros Hs. unfold mclass. destruct (o_matlab_compatible wo); [|exact I]. destruct d; cbn in Hs; try tauto; cbn [matlab_class_of]; try reflexivity; try (intros; reflexivity).
  - discriminate.
  - intros E. exfalso. unfold dt_name in E. discriminate.
  - intros E. exfalso. unfold dt_name in E. discriminate.
  - do 9 (destruct w as [|w]; try discriminate; try exact I).
  - do 17 (destruct w as [|w]; try discriminate; try exact I).
  - discriminate.
Qed.

Lemma fin_back o ts c a : np_obj o c a -> (c = CRecarray -> ts = lit "numpy.recarray") -> fin ts c a = Ok (VNp c a).
Proof.
  intros H R. destruct c; try (apply fin_np; [discriminate|exact (n_matrix _ _ _ H)|exact R]).
  cbn [fin]. destruct (n_scalar _ _ _ H eq_refl) as (S1 & S2 & S3). pose proof (n_len _ _ _ H) as L. pose proof (n_elems _ _ _ H) as T.
  destruct a as [d sh l]. cbn [a_dt a_shape a_data] in *. subst sh. change (prod []) with 1 in L.
  destruct l as [|e [|]]; try discriminate. inversion T; subst. unfold flat0. cbn [a_data a_dt]. f_equal. unfold np_scalar.
  destruct d; try (destruct e; cbn in *; tauto || reflexivity || congruence).
  - destruct e; cbn [typed] in *; try tauto. cbn [item_of]. unfold np_scalar. rewrite <- S3. reflexivity.
  - destruct e; cbn [typed] in *; try tauto. cbn [item_of]. unfold np_scalar. rewrite <- S3. reflexivity.
Qed.

Lemma shapes_same {A} (a : arr A) : fix_shape (a_shape a) a = a.
Proof. unfold fix_shape. destruct (eqb_shape_spec (a_shape a) (a_shape a)) as [_|q]; [reflexivity|destruct (q eq_refl)]. Qed.

Lemma encode_noptr l : map noptr (map (@encode_elem pyval) l) = map encode_elem (map noptr l).
Proof. rewrite !map_map. apply map_ext. intros e. destruct e; reflexivity. Qed.

Section Back.
Variables (wo ro : options) (c : container) (a : arr pyval) (ts : pystr) (b D : arr pyval).
Hypotheses (P : paired wo ro) (H : np_obj wo c a) (C : compatible wo ro a) (R : c = CRecarray -> ts = lit "numpy.recarray")
  (W : np_prepare wo (c, a) = Ok b) (F : fetched b D).
Local Notation meta := (np_meta (o_reverse ro) ts (dt_name (a_dt a)) (a_shape a) (Some (container_name c)) (np_empty a) None (mclass wo (a_dt a)) D).

Lemma back_simple : simple (a_dt a).
Proof. pose proof (n_kind _ _ _ H). destruct (a_dt a); cbn in *; tauto. Qed.

Lemma back_empty : np_empty a = true -> meta = Ok (VNp c a).
Proof.
  intros E. rewrite E. pose proof (n_len _ _ _ H) as L. pose proof (n_elems _ _ _ H) as T.
  assert (DC : c = CScalar \/ c <> CScalar) by (destruct c; [left; reflexivity|right; discriminate..]). destruct DC as [Ec|Ec].
  - destruct (n_scalar _ _ _ H Ec) as (S1 & S2 & S3). rewrite Ec. destruct a as [d sh l]. cbn [a_dt a_shape a_data] in *. subst sh.
    unfold np_empty, size, nbytes, size in E. cbn [a_dt a_shape] in E. change (prod []) with 1 in *. cbn [Nat.eqb orb] in E.
    destruct l as [|e [|]]; try discriminate. inversion T; subst.
    destruct d; try discriminate; cbn [is_strdt andb itemsize] in E; apply Nat.eqb_eq in E; destruct e; cbn [typed] in *; try tauto.
    + assert (n = 0) by lia. subst n. destruct s; [|discriminate]. destruct (mclass wo (TS 0)), (o_reverse ro); reflexivity.
    + assert (n = 0) by lia. subst n. destruct s; [|discriminate]. destruct (mclass wo (TUni 0)), (o_reverse ro); reflexivity.
  - pose proof (n_width _ _ _ H Ec) as Wd.
    assert (Z : prod (a_shape a) = 0).
    { unfold np_empty in E. apply orb_true_iff in E. destruct E as [E|E]; [apply Nat.eqb_eq; exact E|].
      apply andb_true_iff in E. destruct E as [E1 E2]. apply Nat.eqb_eq in E2. unfold nbytes, size in E2.
      destruct (a_dt a); try discriminate; cbn [itemsize] in E2; destruct n; try tauto; lia. }
    assert (EA : a = mkArr (a_dt a) (a_shape a) []) by (pose proof (tr_empty a L Z) as Q; destruct a; cbn in *; subst; reflexivity).
    rewrite np_meta_empty; try assumption; [|exact back_simple|apply mclass_char; exact back_simple].
    rewrite <- EA. eapply fin_back; [exact H|exact R].
Qed.

Hypothesis NE : np_empty a = false.
Lemma back_prod : prod (a_shape a) <> 0.
Proof. unfold np_empty in NE. apply orb_false_iff in NE. destruct NE as [E _]. apply Nat.eqb_neq in E. exact E. Qed.
Lemma back_width : match a_dt a with TS 0 | TUni 0 => False | _ => True end.
Proof.
  pose proof NE as E. unfold np_empty in E. apply orb_false_iff in E. destruct E as [_ E]. unfold nbytes in E.
  destruct (a_dt a); try exact I; destruct n; try exact I; cbn in E; rewrite Nat.mul_0_r in E; discriminate.
Qed.

(** the value is what [meta_end] gives *)
Lemma back_meta D' :
  (do d2 <- (if is_cpx (a_dt a) then decode_complex D else Ok D);
   Ok (if dt_eqb (a_dt a) TBool && negb (dt_eqb (a_dt d2) TBool) then mkArr TBool (a_shape d2) (map to_bool (a_data d2)) else d2)) = Ok D' ->
  meta = meta_end ts c (a_dt a) (a_shape a) (if o_reverse wo then tr D' else D') (mclass wo (a_dt a)).
Proof.
  intros E. rewrite NE. rewrite (np_meta_end ro ts c (a_dt a) (a_shape a) (mclass wo (a_dt a)) D D'); try assumption.
  - rewrite (rev_flag wo ro a P back_simple C). reflexivity.
  - exact back_simple.
  - exact back_width.
  - apply mclass_char. exact back_simple.
Qed.
Lemma back_dims D' a' : meta = meta_end ts c (a_dt a) (a_shape a) (if o_reverse wo then tr D' else D') (mclass wo (a_dt a)) ->
  is_bytes_dt (a_dt a) = false -> is_uni_dt (a_dt a) = false -> D' = write_dims wo a' -> wf_arr a' -> a_shape a' = a_shape a ->
  meta = fin ts c a'.
Proof.
  intros -> B1 B2 -> Wf Es. unfold meta_end. rewrite B1, B2. cbn [bindr]. rewrite <- Es. f_equal. apply dims_roundtrip. exact Wf.
Qed.
Lemma prep_plain : is_strdt (a_dt a) = false -> is_cpx (a_dt a) = false -> a_dt a <> TBool -> b = write_dims wo a.
Proof.
  intros H1 H2 H3. unfold np_prepare in W. assert (E1 : store_bytes wo a = a) by (unfold store_bytes; destruct (a_dt a); try discriminate; reflexivity).
  rewrite E1 in W. assert (E2 : store_str wo c a = Ok a) by (unfold store_str; destruct (a_dt a); try discriminate; reflexivity).
  rewrite E2 in W. cbn [bindr] in W. rewrite NE, andb_false_r, !write_dims_dt in W.
  assert (E3 : dt_eqb (a_dt a) TBool = false) by (destruct (a_dt a); try reflexivity; congruence).
  rewrite E3 in W. cbn [andb] in W. rewrite write_dims_dt, H2 in W. injection W as <-. reflexivity.
Qed.

Lemma back_full : exists a', meta = Ok (VNp c a') /\ same (VNp c a) (VNp c a') /\ (c = CScalar -> a' = a).
Proof.
  pose proof (n_len _ _ _ H) as L. pose proof (n_elems _ _ _ H) as T. pose proof back_width as Wd. pose proof back_prod as Pr.
  assert (Wf : wf_arr a) by exact L.
  assert (ID : meta = fin ts c a -> exists a', meta = Ok (VNp c a') /\ same (VNp c a) (VNp c a') /\ (c = CScalar -> a' = a)).
  { intros E. exists a. rewrite E. split; [eapply fin_back; eassumption|]. split; [constructor|reflexivity]. }
  assert (FL : a_dt a <> TObj -> Forall flat (a_data a)).
  { intros N. eapply Forall_impl; [|exact T]. intros e He. eapply flat_typed; eassumption. }
  destruct (is_strdt (a_dt a)) eqn:Es.
  - destruct (a_dt a) as [| | | | |n|n| | |] eqn:Ed; try discriminate.
    + (* bytes *)
      assert (Ea : a = mkArr (TS n) (a_shape a) (a_data a)) by (destruct a; cbn in *; subst; reflexivity).
      destruct n as [|n]; [tauto|].
      assert (BE : bytes_elems (S n) (a_data a)) by (apply bytes_elems_typed; exact T).
      pose proof (bytes_array_back wo (S n) (a_shape a) (a_data a) BE L ltac:(discriminate) Pr) as Q. rewrite <- Ea in Q.
      assert (SD : store_bytes wo a = a \/ (a_dt (store_bytes wo a) = TU 2 /\ Forall flat (a_data (store_bytes wo a)))).
      { destruct (store_bytes_cases wo (S n) (a_shape a) (a_data a) BE L ltac:(discriminate) Pr) as [Q1|(b' & Q1 & Q2 & _)]; rewrite <- Ea in Q1; [left; exact Q1|].
        right. unfold store_bytes in *. rewrite Ed in *. destruct (o_bytes_utf16 wo); [|rewrite <- Q1 in Q2; congruence].
        destruct (nbytes a =? 0); [split; [reflexivity|constructor]|]. destruct (forallb _ _); [|rewrite <- Q1 in Q2; congruence]. split; [reflexivity|]. apply flat_units. }
      assert (Eb : b = write_dims wo (store_bytes wo a)).
      { unfold np_prepare in W. assert (E2 : store_str wo c (store_bytes wo a) = Ok (store_bytes wo a)).
        { unfold store_str. destruct SD as [Q1|[Q1 _]]; rewrite Q1; [rewrite Ed|]; reflexivity. }
        rewrite E2 in W. cbn [bindr] in W. rewrite NE, andb_false_r in W.
        assert (E3 : dt_eqb (a_dt (write_dims wo (store_bytes wo a))) TBool = false /\ is_cpx (a_dt (write_dims wo (store_bytes wo a))) = false).
        { rewrite write_dims_dt. destruct SD as [Q1|[Q1 _]]; rewrite Q1; [rewrite Ed|]; split; reflexivity. }
        destruct E3 as [E3 E4]. rewrite E3 in W. cbn [andb] in W. rewrite E4 in W. injection W as <-. reflexivity. }
      assert (ED : D = b).
      { apply fetched_flat; try assumption; rewrite Eb, ?write_dims_dt.
        - destruct SD as [Q1|[Q1 _]]; rewrite Q1; [rewrite Ed|]; exact I.
        - destruct SD as [Q1|[Q1 _]]; rewrite Q1; [rewrite Ed|]; discriminate.
        - destruct SD as [Q1|[Q1 _]]; rewrite Q1; [rewrite Ed|]; discriminate.
        - apply write_dims_flat. destruct SD as [Q1|[_ Q1]]; [rewrite Q1; apply FL; discriminate|exact Q1]. }
      apply ID. rewrite <- Ed. rewrite (back_meta D) by (rewrite Ed; reflexivity). rewrite Ed. unfold meta_end. cbn [is_bytes_dt].
      unfold read_bytes_array in Q. rewrite ED, Eb.
      destruct (convert_to_numpy_bytes (if o_reverse wo then tr (write_dims wo (store_bytes wo a)) else write_dims wo (store_bytes wo a)) (S n)) as [d5|]; [|discriminate Q].
      cbn [bindr] in *. congruence.
    + (* str *)
      assert (Ea : a = mkArr (TUni n) (a_shape a) (a_data a)) by (destruct a; cbn in *; subst; reflexivity).
      destruct n as [|n]; [tauto|].
      assert (SE : str_elems (S n) (a_data a)) by (apply str_elems_typed; exact T).
      assert (EB : store_bytes wo a = a) by (unfold store_bytes; rewrite Ed; reflexivity).
      destruct (str_array_back wo c (S n) (a_shape a) (a_data a) SE L ltac:(discriminate) Pr) as (b2 & Q1 & Q2 & Q3).
      { intros Ec. apply (n_scalar _ _ _ H Ec). }
      { intros N1 N2. eapply (n_0d _ _ _ H); eassumption. }
      rewrite <- Ea in Q1. pose proof (store_str_flat wo c a (S n) b2 Ed Q1) as [Q4 _].
      assert (Eb : b = write_dims wo b2).
      { unfold np_prepare in W. rewrite EB, Q1 in W. cbn [bindr] in W. rewrite NE, andb_false_r in W.
        assert (E3 : dt_eqb (a_dt (write_dims wo b2)) TBool = false /\ is_cpx (a_dt (write_dims wo b2)) = false).
        { rewrite write_dims_dt. destruct Q3 as [-> | ->]; split; reflexivity. }
        destruct E3 as [E3 E4]. rewrite E3 in W. cbn [andb] in W. rewrite E4 in W. injection W as <-. reflexivity. }
      assert (ED : D = b).
      { apply fetched_flat; try assumption; rewrite Eb, ?write_dims_dt.
        - destruct Q3 as [-> | ->]; exact I.
        - destruct Q3 as [-> | ->]; discriminate.
        - destruct Q3 as [-> | ->]; discriminate.
        - apply write_dims_flat. exact Q4. }
      set (a' := str_array (a_shape a) (map elem_str (a_data a))) in *.
      assert (EM : meta = fin ts c a').
      { rewrite (back_meta D) by (rewrite Ed; reflexivity). rewrite Ed. unfold meta_end. cbn [is_bytes_dt is_uni_dt].
        unfold read_str_array in Q2. rewrite ED, Eb. destruct (convert_to_numpy_str (if o_reverse wo then tr (write_dims wo b2) else write_dims wo b2) (Some (S n))) as [d5|]; [|discriminate Q2].
        cbn [bindr] in *. congruence. }
      rewrite Ed in EM. rewrite EM.
      assert (ES : a_data a' = a_data a) by (unfold a', str_array; cbn [a_data]; symmetry; apply (str_elems_map (S n)); exact SE).
      assert (SA : same (VNp c a) (VNp c a')).
      { constructor; [right; rewrite Ed; do 2 eexists; split; reflexivity|reflexivity|]. rewrite ES. clear. induction (a_data a); constructor; [constructor|assumption]. }
      assert (DC : c = CScalar \/ c <> CScalar) by (destruct c; [left; reflexivity|right; discriminate..]). destruct DC as [Ec|Ec].
      * exists a. split; [|split; [constructor|reflexivity]]. rewrite Ec. cbn [fin]. destruct (n_scalar _ _ _ H Ec) as (S1 & _ & S3).
        rewrite S1 in L. change (prod []) with 1 in L. unfold flat0. rewrite ES. rewrite Ea. cbn [a_data]. rewrite S1. clear Q2 SA ES EM. destruct (a_data a) as [|e [|]]; try discriminate.
        rewrite Ed in S3. inversion T; subst. destruct e; cbn [typed] in *; try tauto. unfold a', str_array. cbn [a_dt item_of]. unfold np_scalar. rewrite <- S3. reflexivity.
      * exists a'. split; [|split; [exact SA|tauto]]. apply fin_np; [tauto| |exact R]. intros E. apply (n_matrix _ _ _ H E).
  - assert (NB : is_bytes_dt (a_dt a) = false /\ is_uni_dt (a_dt a) = false) by (destruct (a_dt a); try discriminate; split; reflexivity). destruct NB as [NB NU].
    destruct (is_cpx (a_dt a)) eqn:Ec.
    + (* complex *)
      destruct (a_dt a) as [| | | |w| | | | |] eqn:Ed; try discriminate.
      assert (EB : store_bytes wo a = a) by (unfold store_bytes; rewrite Ed; reflexivity).
      assert (EU : store_str wo c a = Ok a) by (unfold store_str; rewrite Ed; reflexivity).
      unfold np_prepare in W. rewrite EB, EU in W. cbn [bindr] in W. rewrite NE, andb_false_r, !write_dims_dt, Ed in W. cbn [dt_eqb andb] in W. rewrite write_dims_dt, Ed in W. cbn [is_cpx] in W.
      set (a0 := mkArr (TC w) (a_shape (write_dims wo a)) (map noptr (a_data (write_dims wo a)))).
      assert (CA : cpx_array a0).
      { split; [cbn; pose proof (n_kind _ _ _ H) as K; rewrite Ed in K; destruct K as [-> | ->]; auto|].
        cbn [a_data a0]. apply Forall_forall. intros e He. apply in_map_iff in He. destruct He as (x & <- & Hx). apply write_dims_in in Hx.
        rewrite Forall_forall in T. specialize (T x Hx). destruct x; cbn in T; try tauto. cbn. do 2 eexists. reflexivity. }
      destruct (decode_encode a0 (o_complex_names wo) CA (p_cpx _ _ P)) as (b0 & Q1 & _ & Q3).
      assert (EQ : a_dt b <> TObj /\ mkArr (stored_dt (a_dt b)) (a_shape b) (map noptr (a_data b)) = b0).
      { unfold encode_complex in Q1, W. cbn [a_dt a0] in Q1. rewrite write_dims_dt, Ed in W. destruct (eqb_str _ _); [discriminate|].
        injection Q1 as <-. injection W as <-. cbn [a_dt a_shape a_data stored_dt a0]. rewrite encode_noptr. split; [discriminate|reflexivity]. }
      destruct EQ as [EN EQ]. assert (ED : D = amap (fun _ => VNone) (h5py_present b0)).
      { unfold fetched in F. destruct (a_dt b); try congruence; try (rewrite <- EQ; exact F). }
      apply (decode_complex_amap (fun _ : nat => VNone)) in Q3. rewrite <- ED in Q3.
      assert (A0 : amap (fun _ : nat => VNone) a0 = write_dims wo a).
      { unfold amap, a0. cbn [a_dt a_shape a_data]. rewrite flat_list by (apply write_dims_flat; apply FL; discriminate). rewrite <- Ed, <- (write_dims_dt wo a). destruct (write_dims wo a); reflexivity. }
      rewrite A0 in Q3. rewrite <- Ed in ID |- *. apply ID. eapply back_dims with (D' := write_dims wo a); try assumption; try reflexivity.
      * apply back_meta. rewrite Ed. cbn [is_cpx]. rewrite Q3. reflexivity.
      * rewrite Ed. reflexivity.
      * rewrite Ed. reflexivity.
    + destruct (dt_eqb (a_dt a) TBool) eqn:Eb.
      * (* bool *)
        assert (Ed : a_dt a = TBool) by (destruct (a_dt a); try discriminate; reflexivity).
        assert (EB : store_bytes wo a = a) by (unfold store_bytes; rewrite Ed; reflexivity).
        assert (EU : store_str wo c a = Ok a) by (unfold store_str; rewrite Ed; reflexivity).
        unfold np_prepare in W. rewrite EB, EU in W. cbn [bindr] in W. rewrite NE, andb_false_r, !write_dims_dt, Ed in W. cbn [dt_eqb andb] in W.
        assert (TB : forall e, In e (a_data (write_dims wo a)) -> exists v, e = XBool v).
        { intros e He. apply write_dims_in in He. rewrite Forall_forall in T. specialize (T e He). rewrite Ed in T. destruct e; cbn in T; try tauto. eexists; reflexivity. }
        apply ID. eapply back_dims with (D' := write_dims wo a); try assumption; try reflexivity. apply back_meta. rewrite Ed. cbn [is_cpx bindr dt_eqb].
        destruct (o_bools_uint8 wo).
        -- cbn [is_cpx a_dt] in W. injection W as Eb'. rewrite (fetched_flat b D); try assumption; rewrite <- Eb'; cbn [a_dt]; try exact I; try discriminate.
           ++ cbn [dt_eqb negb andb a_shape a_data]. f_equal. rewrite map_map. rewrite <- (write_dims_dt wo a) in Ed. destruct (write_dims wo a) as [x y z]. cbn [a_dt a_shape a_data] in *.
              f_equal; [congruence|]. clear - TB. induction z as [|e z IH]; cbn; [reflexivity|]. destruct (TB e (or_introl eq_refl)) as [v ->]. cbn. rewrite IH by (intros e He; apply TB; right; exact He).
              destruct v; reflexivity.
           ++ cbn [a_data]. apply Forall_forall. intros e He. apply in_map_iff in He. destruct He as (x & <- & Hx). destruct (TB x Hx) as [v ->]. reflexivity.
        -- rewrite write_dims_dt, Ed in W. cbn [is_cpx] in W. injection W as Eb'. rewrite (fetched_flat b D); try assumption; rewrite <- Eb'; rewrite ?write_dims_dt, ?Ed; try exact I; try discriminate.
           ++ reflexivity.
           ++ apply write_dims_flat. apply FL. rewrite Ed. discriminate.
      * assert (Nb : a_dt a <> TBool) by (intros E; rewrite E in Eb; discriminate).
        pose proof (prep_plain Es Ec Nb) as EP.
        assert (M0 : forall D0, D = D0 -> meta = meta_end ts c (a_dt a) (a_shape a) (if o_reverse wo then tr D0 else D0) (mclass wo (a_dt a))).
        { intros D0 E0. apply back_meta. rewrite Ec. cbn [bindr]. rewrite Eb. cbn [andb]. congruence. }
        destruct (a_dt a) as [| | | | | | | | |] eqn:Ed; try discriminate; try (pose proof back_simple as K; rewrite Ed in K; destruct K; fail).
        4: { (* objects *)
          pose proof F as F'. unfold fetched in F'. rewrite EP, write_dims_dt, Ed in F'. destruct F' as (l & E1 & E2).
          destruct (write_dims_related wo a l Wf E2) as (a' & R1 & R2 & R3 & R4 & R5). rewrite Ed in *. rewrite R1 in E1.
          exists a'. rewrite <- Ed. split; [|split].
          - rewrite (back_dims D a'); try assumption; try (rewrite Ed; reflexivity).
            + apply fin_np; [|intros E; rewrite R4; apply (n_matrix _ _ _ H E)|exact R]. intros E. destruct (n_scalar _ _ _ H E) as (_ & N & _). congruence.
            + rewrite Ed. apply M0. reflexivity.
          - constructor; [left; congruence|congruence|exact R5].
          - intros E. destruct (n_scalar _ _ _ H E) as (_ & N & _). congruence. }
        all: apply ID; rewrite <- Ed; eapply back_dims with (D' := D); try assumption; try (rewrite Ed; reflexivity); try reflexivity; try (rewrite Ed; apply M0; reflexivity).
        all: rewrite <- EP; apply fetched_flat; try assumption; rewrite EP, ?write_dims_dt, ?Ed; try exact I; try discriminate; apply write_dims_flat; apply FL; discriminate.
Qed.
End Back.

(** a numpy object is read back from what was stored *)
Lemma np_meta_back wo ro c a ts b D : paired wo ro -> np_obj wo c a -> compatible wo ro a -> (c = CRecarray -> ts = lit "numpy.recarray") ->
  np_prepare wo (c, a) = Ok b -> fetched b D ->
  exists a', np_meta (o_reverse ro) ts (dt_name (a_dt a)) (a_shape a) (Some (container_name c)) (np_empty a) None (mclass wo (a_dt a)) D = Ok (VNp c a') /\
    same (VNp c a) (VNp c a') /\ (c = CScalar -> a' = a).
Proof.
  intros P H C R W F. destruct (np_empty a) eqn:E.
  - exists a. split; [rewrite <- E; eapply back_empty; eassumption|split; [constructor|reflexivity]].
  - pose proof (back_full wo ro c a ts b D P H C R W F E) as Q. rewrite E in Q. exact Q.
Qed.
