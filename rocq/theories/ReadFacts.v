(** What a read depends on: the object, the objects below it and those reached through
    references, but not the H5PATH attributes. *)
From Verif Require Import Base PathEsc PosixPath PosixFacts ProcessPathFacts Unicode Dec NdArray Value OptionsM StrConv ComplexM Attrs NpDims MColl Hdf5 HeapFacts NpWrite NpRead MarshalW MarshalR FrameFacts WriteFrame.
Local Open Scope nat_scope.

Definition h5path : pystr := lit "H5PATH".
Definition eqo (a b : obj) : Prop :=
  o_name a = o_name b /\ o_body a = o_body b /\ forall k, k <> h5path -> o_attrs a k = o_attrs b k.

(** the objects in [Q] are the same in both heaps, and nothing leads out of [Q] *)
Definition agree (h h' : heap) (Q : nat -> Prop) : Prop :=
  forall i, Q i -> exists ob ob', h i = Some ob /\ h' i = Some ob' /\ eqo ob ob' /\
    (forall k j, In (k, j) (links h i) -> Q j) /\
    (forall a f j, o_body ob = BData a f -> In (XPtr j) (a_data a) -> live h' j = live h j /\ (live h j = true -> Q j)).

Lemma mapr_ext {A B} (f g : A -> res B) l : (forall x, In x l -> f x = g x) -> mapr f l = mapr g l.
Proof.
  induction l as [|x l IH]; intros H; cbn; [reflexivity|]. rewrite (H x) by (left; reflexivity).
  rewrite IH by (intros y Hy; apply H; right; exact Hy). reflexivity.
Qed.
Lemma forallb_ext' {A} (f g : A -> bool) l : (forall x, In x l -> f x = g x) -> forallb f l = forallb g l.
Proof.
  induction l as [|x l IH]; intros H; cbn; [reflexivity|]. rewrite (H x) by (left; reflexivity).
  rewrite IH by (intros y Hy; apply H; right; exact Hy). reflexivity.
Qed.

Section Stable.
Variables (o : options) (keq : pyval -> pyval -> bool) (h h' : heap) (Q : nat -> Prop).
Hypothesis HA : agree h h' Q.

Lemma agree_name i : Q i -> name_of h' i = name_of h i.
Proof. intros H. destruct (HA i H) as (ob & ob' & E & E' & (X & _) & _). unfold name_of. rewrite E, E'. congruence. Qed.
Lemma agree_links i : Q i -> links h' i = links h i.
Proof. intros H. destruct (HA i H) as (ob & ob' & E & E' & (_ & X & _) & _). unfold links. rewrite E, E', X. reflexivity. Qed.
Lemma agree_lookup i k : Q i -> lookup h' i k = lookup h i k.
Proof. intros H. unfold lookup. rewrite agree_links by exact H. reflexivity. Qed.
Lemma agree_closed i k j : Q i -> lookup h i k = Some j -> Q j.
Proof. intros H L. destruct (HA i H) as (ob & ob' & _ & _ & _ & X & _). apply (X k). apply assoc_In. exact L. Qed.
Lemma agree_refs j : Q j -> is_refs o h' j = is_refs o h j.
Proof. intros H. unfold is_refs. rewrite agree_name by exact H. reflexivity. Qed.
Lemma agree_column j : Q j -> is_column h' j = is_column h j.
Proof.
  intros H. destruct (HA j H) as (ob & ob' & E & E' & (_ & X & Y) & _). unfold is_column. rewrite E, E', <- X.
  destruct (o_body ob); [|reflexivity]. f_equal. apply forallb_ext'. intros k Hk. rewrite Y; [reflexivity|].
  intros ->. cbn in Hk. repeat (destruct Hk as [Hk|Hk]; [discriminate|]). destruct Hk.
Qed.

Section One.
Variables rd rd' : nat -> res pyval.
Hypothesis Hrd : forall j, Q j -> rd' j = rd j.

Lemma attrs_read a a' : (forall k, k <> h5path -> a k = a' k) -> read_attrs a' = read_attrs a.
Proof.
  intros H. unfold read_attrs, attr_str, attr_strs, attr_fields, attr_shape, attr_is1. rewrite !H by discriminate. reflexivity.
Qed.
Lemma array_stable i ob a f : Q i -> h i = Some ob -> o_body ob = BData a f -> read_array h' rd' a = read_array h rd a.
Proof.
  intros H E B. destruct (HA i H) as (ob1 & ob' & E1 & E' & _ & _ & P). rewrite E in E1. injection E1 as <-.
  unfold read_array. destruct (a_dt a); try reflexivity.
  rewrite (mapr_ext (deref h' rd') (deref h rd)); [reflexivity|]. intros x Hx. unfold deref. destruct x; try reflexivity.
  destruct (P a f p B Hx) as [P1 P2]. rewrite P1. destruct (live h p) eqn:L; [|reflexivity]. rewrite Hrd by auto. reflexivity.
Qed.
Lemma members_stable ls : (forall k j, In (k, j) ls -> Q j) -> read_members o h' rd' ls = read_members o h rd ls.
Proof.
  intros H. unfold read_members. f_equal. apply mapr_ext. intros [k j] Hk. cbn [fst snd]. pose proof (H k j Hk) as Qj.
  rewrite (agree_refs j Qj), (Hrd j Qj). reflexivity.
Qed.
Lemma multi_stable ls : (forall k j, In (k, j) ls -> Q j) -> multi_element o h' ls = multi_element o h ls.
Proof.
  intros H. unfold multi_element. apply forallb_ext'. intros [k j] Hk. cbn [fst snd]. pose proof (H k j Hk) as Qj.
  rewrite (agree_refs j Qj), (agree_column j Qj). reflexivity.
Qed.
Lemma group_stable r ls : (forall k j, In (k, j) ls -> Q j) -> read_group o h' rd' r ls = read_group o h rd r ls.
Proof. intros H. unfold read_group. rewrite members_stable, multi_stable by exact H. reflexivity. Qed.
Lemma np_stable i ob ob' : Q i -> h i = Some ob -> h' i = Some ob' -> np_read o h' rd' ob' = np_read o h rd ob.
Proof.
  intros H E E'. destruct (HA i H) as (o1 & o2 & E1 & E2 & (_ & X & Y) & P & _). rewrite E in E1. rewrite E' in E2.
  injection E1 as <-. injection E2 as <-. unfold np_read. rewrite (attrs_read _ _ Y). destruct (read_attrs (o_attrs ob)); [|reflexivity].
  cbn [bindr]. rewrite <- X. destruct (o_body ob) as [d f|ls] eqn:B.
  - rewrite (array_stable i ob d f) by assumption. reflexivity.
  - rewrite group_stable; [reflexivity|]. intros k j Hk. apply (P k j). unfold links. rewrite E, B. exact Hk.
Qed.
Lemma skipped_stable i k : Q i -> skipped o h' i k = skipped o h i k.
Proof.
  intros H. unfold skipped. rewrite agree_lookup by exact H. destruct (unescape_path k); [|reflexivity].
  destruct (lookup h i k) eqn:L; [|reflexivity]. apply agree_refs. eapply agree_closed; eassumption.
Qed.
Lemma item_stable i kc : Q i -> read_item h' rd' i kc = read_item h rd i kc.
Proof.
  intros H. unfold read_item. rewrite agree_lookup by exact H. destruct (unescape_path (fst kc)); [|reflexivity]. cbn [bindr].
  destruct (lookup h i (fst kc)) as [j|] eqn:L; [|reflexivity]. rewrite (Hrd j) by (eapply agree_closed; eassumption). reflexivity.
Qed.
Lemma dict_stable i ob ob' : Q i -> h i = Some ob -> h' i = Some ob' -> dict_read o keq h' rd' i ob' = dict_read o keq h rd i ob.
Proof.
  intros H E E'. destruct (HA i H) as (o1 & o2 & E1 & E2 & (_ & X & Y) & P & _). rewrite E in E1. rewrite E' in E2.
  injection E1 as <-. injection E2 as <-. unfold dict_read. rewrite <- X. destruct (o_body ob) as [d f|ls]; [reflexivity|].
  f_equal. unfold dict_items, attr_str, attr_strs, attr_fields. rewrite !Y by discriminate.
  destruct (match o_attrs ob' (lit "Python.dict.StoredAs") with Some (AStr b) => _ | Some (AText s) => _ | _ => _ end) as [sa|]; [|reflexivity].
  cbn [bindr]. destruct (match o_attrs ob' (lit "Python.dict.key_str_types") with Some (AStr b) => _ | Some (AText s) => _ | _ => _ end) as [ty|]; [|reflexivity].
  cbn [bindr]. destruct (match match o_attrs ob' (lit "Python.dict.keys_values_names") with Some (AStrs l) => Some l | _ => None end with Some (a :: b :: _) => (a, b) | _ => _ end) as [kn vn].
  rewrite !agree_lookup by exact H.
  assert (IT : forall (l : list (pystr * option N)),
    mapr (fun kc => if skipped o h' i (fst kc) then Ok None else read_item h' rd' i kc) l =
    mapr (fun kc => if skipped o h i (fst kc) then Ok None else read_item h rd i kc) l).
  { intros l. apply mapr_ext. intros kc _. rewrite skipped_stable, item_stable by exact H. reflexivity. }
  destruct (match sa with Some s => eqb_str s (lit "keys_values") | None => false end).
  2: { rewrite IT. reflexivity. }
  destruct (lookup h i (escaped kn)) as [a|] eqn:La; [|rewrite IT; reflexivity].
  destruct (lookup h i (escaped vn)) as [b|] eqn:Lb; [|rewrite IT; reflexivity].
  rewrite !Hrd by (eapply agree_closed; eassumption). reflexivity.
Qed.
Lemma value_stable i : Q i -> read_value o keq h' rd' i = read_value o keq h rd i.
Proof.
  intros H. destruct (HA i H) as (ob & ob' & E & E' & (_ & X & Y) & _). unfold read_value. rewrite E, E'.
  unfold attr_str. rewrite <- !Y by discriminate.
  destruct (match o_attrs ob (lit "Python.Type") with Some (AStr b) => _ | Some (AText s) => _ | _ => _ end) as [ts|]; [|reflexivity].
  cbn [bindr]. destruct (match o_attrs ob (lit "MATLAB_class") with Some (AStr b) => _ | Some (AText s) => _ | _ => _ end); [|reflexivity].
  cbn [bindr]. rewrite (np_stable i ob ob' H E E'), (dict_stable i ob ob' H E E'). reflexivity.
Qed.
End One.

Theorem read_stable n : forall i, Q i -> read o keq h' n i = read o keq h n i.
Proof.
  induction n as [|n IH]; intros i H; [reflexivity|]. cbn [read]. apply value_stable; assumption.
Qed.
End Stable.

(** ** a write leaves alone what is not on its way *)
Section Apart.
Variable wo : options.

Lemma live_child h n g k j : tree h n -> live h g = true -> lookup h g k = Some j -> live h j = true.
Proof.
  intros T L K. destruct (t_link _ _ T _ _ _ K) as [_ N]. apply live_walk. rewrite N, walk_snoc. apply live_walk in L. rewrite L. exact K.
Qed.
Lemma pre_cmp (a b c : list pystr) : pre a c -> pre b c -> pre a b \/ pre b a.
Proof.
  intros [x X] [y Y]. rewrite X in Y. clear X. revert b Y. induction a as [|u a IH]; intros [|v b] Y; cbn in Y.
  - left; exists []; reflexivity.
  - left; exists (v :: b); reflexivity.
  - right; exists (u :: a); reflexivity.
  - injection Y as -> Y. destruct (IH b Y) as [[z ->]|[z ->]]; [left|right]; exists z; reflexivity.
Qed.

(** [t] and the references Group lie in different top-level objects *)
Definition apart (t : list pystr) : Prop := exists a b r1 r2, t = a :: r1 /\ rp wo = b :: r2 /\ a <> b.
Lemma apart_pre t : apart t -> ~ pre t (rp wo) /\ ~ pre (rp wo) t.
Proof. intros (a & b & r1 & r2 & -> & -> & N). split; intros [x X]; cbn in X; congruence. Qed.

End Apart.
