(** n-dimensional arrays as a shape and the list of their elements in C order;
    reversal of the dimensions (ndarray.T), numpy.atleast_1d/2d and reshape. *)
From Verif Require Import Base.
From Coq Require Import Arith.
Local Open Scope nat_scope.

Definition prod (sh : list nat) : nat := fold_right Nat.mul 1 sh.

(** the position of a multi-index in C order, and back *)
Fixpoint ravel (sh idx : list nat) : nat :=
  match sh, idx with
  | _ :: sh', i :: idx' => i * prod sh' + ravel sh' idx'
  | _, _ => 0
  end.
Fixpoint unravel (sh : list nat) (k : nat) : list nat :=
  match sh with
  | [] => []
  | _ :: sh' => k / prod sh' :: unravel sh' (k mod prod sh')
  end.
Definition in_bounds (sh idx : list nat) : Prop := Forall2 (fun i n => i < n) idx sh.

(** the list whose k-th element is the (f k)-th of l *)
Definition gather {A} (f : nat -> nat) (n : nat) (l : list A) : list A :=
  flat_map (fun k => match nth_error l (f k) with Some x => [x] | None => [] end) (seq 0 n).

(** ndarray.T: the axes in the opposite order (Marshallers.py l.803, l.1369,
    l.1387, l.1492) *)
Definition transpose {A} (sh : list nat) (l : list A) : list A :=
  gather (fun k => ravel sh (rev (unravel (rev sh) k))) (prod sh) l.

(** np.atleast_1d, np.atleast_2d on shapes (l.750, l.795): a new axis of length 1 in front *)
Definition atleast_1d (sh : list nat) : list nat := match sh with [] => [1] | _ => sh end.
Definition atleast_2d (sh : list nat) : list nat :=
  match sh with [] => [1; 1] | [n] => [1; n] | _ => sh end.

(** ** facts *)
Lemma prod_app a b : prod (a ++ b) = prod a * prod b.
Proof. induction a as [|x a IH]; cbn [app prod fold_right]; [symmetry; apply Nat.mul_1_l|]. fold (prod (a ++ b)) (prod a). rewrite IH. ring. Qed.
Lemma prod_rev a : prod (rev a) = prod a.
Proof. induction a; cbn; [reflexivity|]. rewrite prod_app. cbn. fold (prod a0). rewrite IHa. ring. Qed.
Lemma prod_cons n sh : prod (n :: sh) = n * prod sh. Proof. reflexivity. Qed.

Lemma unravel_len sh k : length (unravel sh k) = length sh.
Proof. revert k; induction sh; cbn; intros; [reflexivity|]. rewrite IHsh. reflexivity. Qed.

Lemma unravel_bounds sh : forall k, k < prod sh -> in_bounds sh (unravel sh k).
Proof.
  induction sh as [|n sh IH]; intros k H; cbn; [constructor|].
  rewrite prod_cons in H. assert (prod sh <> 0) by (intros E; rewrite E in H; lia).
  constructor.
  - apply Nat.div_lt_upper_bound; lia.
  - apply IH. apply Nat.mod_upper_bound. assumption.
Qed.

Lemma ravel_unravel sh : forall k, k < prod sh -> ravel sh (unravel sh k) = k.
Proof.
  induction sh as [|n sh IH]; intros k H; cbn; [cbn in H; lia|].
  rewrite prod_cons in H. assert (prod sh <> 0) by (intros E; rewrite E in H; lia).
  rewrite IH by (apply Nat.mod_upper_bound; assumption).
  pose proof (Nat.div_mod k (prod sh) ltac:(assumption)). lia.
Qed.

Lemma ravel_lt sh : forall idx, in_bounds sh idx -> ravel sh idx < prod sh.
Proof.
  induction sh as [|n sh IH]; intros idx H; inversion H; subst; cbn; [lia|].
  fold (prod sh). specialize (IH _ H4). nia.
Qed.

Lemma unravel_ravel sh : forall idx, in_bounds sh idx -> unravel sh (ravel sh idx) = idx.
Proof.
  induction sh as [|n sh IH]; intros idx H; inversion H; subst; cbn; [reflexivity|].
  fold (prod sh). pose proof (ravel_lt sh l ltac:(assumption)) as Hl.
  assert (prod sh <> 0) by lia. f_equal.
  - rewrite Nat.div_add_l by assumption. rewrite Nat.div_small by assumption. lia.
  - rewrite Nat.add_comm, Nat.mod_add by assumption. rewrite Nat.mod_small by assumption. apply IH. assumption.
Qed.

Lemma in_bounds_rev sh idx : in_bounds sh idx -> in_bounds (rev sh) (rev idx).
Proof.
  unfold in_bounds. induction 1; cbn; [constructor|]. apply Forall2_app; [assumption|]. constructor; [assumption|constructor].
Qed.

Lemma gather_spec {A} (f : nat -> nat) (l : list A) n :
  (forall k, k < n -> f k < length l) ->
  length (gather f n l) = n /\ (forall k, k < n -> nth_error (gather f n l) k = nth_error l (f k)).
Proof.
  unfold gather. intros H.
  assert (G : forall s m, s + m <= n ->
    let g := flat_map (fun k => match nth_error l (f k) with Some x => [x] | None => [] end) (seq s m) in
    length g = m /\ forall k, k < m -> nth_error g k = nth_error l (f (s + k))).
  { intros s m. revert s. induction m as [|m IH]; intros s Hs; cbn; [split; [reflexivity|intros; lia]|].
    destruct (nth_error l (f s)) as [x|] eqn:E.
    - destruct (IH (S s)) as [L N]; [lia|]. cbn. split; [rewrite L; reflexivity|].
      intros [|k] Hk; cbn; [rewrite Nat.add_0_r; auto|]. rewrite N by lia. f_equal. f_equal. lia.
    - apply nth_error_None in E. specialize (H s ltac:(lia)). lia. }
  exact (G 0 n (le_n _)).
Qed.

Lemma nth_error_ext' {A} (a b : list A) : length a = length b ->
  (forall k, k < length a -> nth_error a k = nth_error b k) -> a = b.
Proof.
  revert b; induction a as [|x a IH]; destruct b as [|y b]; cbn; intros L H; try lia; [reflexivity|].
  pose proof (H 0 ltac:(lia)) as H0. cbn in H0. injection H0 as ->. f_equal.
  apply IH; [lia|]. intros k Hk. apply (H (S k)). lia.
Qed.

Definition tpos (sh : list nat) (k : nat) : nat := ravel sh (rev (unravel (rev sh) k)).
Lemma tpos_lt sh k : k < prod sh -> tpos sh k < prod sh.
Proof.
  intros H. unfold tpos. apply ravel_lt. rewrite <- (rev_involutive sh) at 1. apply in_bounds_rev.
  apply unravel_bounds. rewrite prod_rev. assumption.
Qed.
Lemma tpos_inv sh k : k < prod sh -> tpos sh (tpos (rev sh) k) = k.
Proof.
  intros H. unfold tpos. rewrite rev_involutive.
  rewrite unravel_ravel.
  - rewrite rev_involutive. apply ravel_unravel. assumption.
  - apply in_bounds_rev. apply unravel_bounds. assumption.
Qed.

Section Tr.
  Context {A : Type}.
  Implicit Type l : list A.

  Lemma transpose_spec sh l : length l = prod sh ->
    length (transpose sh l) = prod sh /\
    (forall k, k < prod sh -> nth_error (transpose sh l) k = nth_error l (tpos sh k)).
  Proof. intros H. apply gather_spec. intros k Hk. rewrite H. apply tpos_lt. assumption. Qed.
  Lemma transpose_len sh l : length l = prod sh -> length (transpose sh l) = prod sh.
  Proof. intros H. apply transpose_spec. assumption. Qed.

  Lemma transpose_invol sh l : length l = prod sh -> transpose (rev sh) (transpose sh l) = l.
  Proof.
    intros H. destruct (transpose_spec sh l H) as [L1 N1].
    destruct (transpose_spec (rev sh) (transpose sh l)) as [L2 N2]; [rewrite prod_rev; assumption|].
    rewrite prod_rev in *. apply nth_error_ext'; [congruence|].
    rewrite L2. intros k Hk. rewrite N2 by assumption.
    rewrite N1 by (rewrite <- (prod_rev sh); apply tpos_lt; rewrite prod_rev; assumption).
    rewrite tpos_inv by assumption. reflexivity.
  Qed.

  Lemma transpose_at sh l idx : length l = prod sh -> in_bounds sh idx ->
    nth_error (transpose sh l) (ravel (rev sh) (rev idx)) = nth_error l (ravel sh idx).
  Proof.
    intros H B. destruct (transpose_spec sh l H) as [L1 N1].
    rewrite N1.
    - f_equal. unfold tpos. rewrite unravel_ravel by (apply in_bounds_rev; assumption).
      rewrite rev_involutive. reflexivity.
    - rewrite <- (prod_rev sh). apply ravel_lt. apply in_bounds_rev. assumption.
  Qed.

  (** at most one axis longer than 1: nothing moves *)
  Lemma transpose_1d n l : length l = n -> transpose [n] l = l.
  Proof.
    intros H. assert (P : prod [n] = n) by (unfold prod; cbn [fold_right]; lia).
    destruct (transpose_spec [n] l) as [L N]; [lia|]. rewrite P in *. apply nth_error_ext'; [lia|].
    intros k Hk. rewrite N by lia. f_equal. unfold tpos. cbn [rev app unravel ravel prod fold_right].
    rewrite Nat.div_1_r. lia.
  Qed.
End Tr.

Lemma transpose_map {A B} (f : A -> B) sh l : transpose sh (map f l) = map f (transpose sh l).
Proof.
  unfold transpose, gather. rewrite !flat_map_concat_map, concat_map, map_map. f_equal. apply map_ext.
  intros k. rewrite nth_error_map. destruct (nth_error l _); reflexivity.
Qed.
Lemma transpose_in {A} sh (l : list A) x : In x (transpose sh l) -> In x l.
Proof.
  unfold transpose, gather. rewrite in_flat_map. intros (k & _ & H).
  destruct (nth_error l _) eqn:E; [|destruct H]. destruct H as [->|[]]. eapply nth_error_In. eassumption.
Qed.
Lemma transpose_nil {A} (l : list A) x : l = [x] -> transpose [] l = l.
Proof. intros ->. reflexivity. Qed.

Lemma atleast_2d_prod sh : prod (atleast_2d sh) = prod sh.
Proof. destruct sh as [|a [|b r]]; cbn; lia. Qed.
Lemma atleast_1d_prod sh : prod (atleast_1d sh) = prod sh.
Proof. destruct sh as [|a r]; cbn; lia. Qed.
