(** The changes of shape made by NumpyScalarArrayMarshaller when writing
    (Marshallers.py l.790-803) and undone when reading (l.1386-1387, l.1413-1414). *)
From Verif Require Import Base Dec NdArray Value OptionsM.
Local Open Scope nat_scope.
Local Arguments prod : simpl never.
Local Arguments Nat.ltb : simpl never.
Local Arguments transpose : simpl never.

(** l.794-803.  [oned_as] has no effect: the column form goes to [new_data], which
    is not used afterwards (l.797). *)
Definition write_dims {A} (o : options) (a : arr A) : arr A :=
  let a1 := if o_atleast_2d o then reshape (atleast_2d (a_shape a)) a else a in
  if o_reverse o then tr a1 else a1.

Definition eqb_shape (a b : list nat) : bool := if list_eq_dec Nat.eq_dec a b then true else false.

(** l.1386-1387 and l.1413-1414 *)
Definition fix_shape {A} (shape : list nat) (a : arr A) : arr A :=
  if negb (eqb_shape shape (a_shape a)) && (prod shape =? prod (a_shape a)) then reshape shape a else a.
Definition read_dims {A} (reversed : bool) (shape : list nat) (a : arr A) : arr A :=
  fix_shape shape (if reversed then tr a else a).

(** the number of elements is what the shape says *)
Definition wf_arr {A} (a : arr A) : Prop := length (a_data a) = prod (a_shape a).
(** the element at a multi-index *)
Definition at_index {A} (a : arr A) (idx : list nat) : option (elem A) :=
  if length idx =? length (a_shape a) then
    (if forallb (fun p => fst p <? snd p) (combine idx (a_shape a)) then nth_error (a_data a) (ravel (a_shape a) idx) else None)
  else None.

Lemma tr_tr {A} (a : arr A) : wf_arr a -> tr (tr a) = a.
Proof.
  destruct a as [d sh l]. unfold wf_arr, tr. cbn [a_dt a_shape a_data]. intros H. rewrite rev_involutive, transpose_invol by exact H. reflexivity.
Qed.
Lemma tr_wf {A} (a : arr A) : wf_arr a -> wf_arr (tr a).
Proof. unfold wf_arr, tr. cbn [a_dt a_shape a_data]. intros H. rewrite prod_rev. apply transpose_len. exact H. Qed.
Lemma eqb_shape_spec a b : reflect (a = b) (eqb_shape a b).
Proof. unfold eqb_shape. destruct (list_eq_dec Nat.eq_dec a b); constructor; assumption. Qed.
Lemma fix_shape_reshape {A} sh' (a : arr A) : prod sh' = prod (a_shape a) -> fix_shape (a_shape a) (reshape sh' a) = a.
Proof.
  intros H. unfold fix_shape. cbn. destruct (eqb_shape_spec (a_shape a) sh') as [E|E]; cbn.
  - rewrite <- E. destruct a; reflexivity.
  - rewrite H, Nat.eqb_refl. destruct a; reflexivity.
Qed.
Lemma write_dims_wf {A} o (a : arr A) : wf_arr a -> wf_arr (write_dims o a).
Proof.
  intros H. unfold write_dims. assert (K : wf_arr (if o_atleast_2d o then reshape (atleast_2d (a_shape a)) a else a)).
  { destruct (o_atleast_2d o); [|exact H]. unfold wf_arr in *. cbn. rewrite atleast_2d_prod. exact H. }
  destruct (o_reverse o); [apply tr_wf|]; exact K.
Qed.
Lemma write_dims_prod {A} o (a : arr A) : prod (a_shape (write_dims o a)) = prod (a_shape a).
Proof.
  unfold write_dims. destruct (o_atleast_2d o), (o_reverse o); cbn; rewrite ?prod_rev, ?atleast_2d_prod; reflexivity.
Qed.
Lemma write_dims_dt {A} o (a : arr A) : a_dt (write_dims o a) = a_dt a.
Proof. unfold write_dims. destruct (o_atleast_2d o), (o_reverse o); reflexivity. Qed.
(** undoing the reversal *)
Lemma write_dims_undo {A} o (a : arr A) : wf_arr a ->
  (if o_reverse o then tr (write_dims o a) else write_dims o a) =
  (if o_atleast_2d o then reshape (atleast_2d (a_shape a)) a else a).
Proof.
  intros H. unfold write_dims. destruct (o_reverse o); [|reflexivity]. apply tr_tr.
  destruct (o_atleast_2d o); [|exact H]. unfold wf_arr in *. cbn. rewrite atleast_2d_prod. exact H.
Qed.
Lemma dims_roundtrip {A} o (a : arr A) : wf_arr a -> read_dims (o_reverse o) (a_shape a) (write_dims o a) = a.
Proof.
  intros H. unfold read_dims. rewrite write_dims_undo by exact H. destruct (o_atleast_2d o).
  - apply fix_shape_reshape. apply atleast_2d_prod.
  - unfold fix_shape. destruct (eqb_shape_spec (a_shape a) (a_shape a)) as [|n]; [reflexivity|destruct (n eq_refl)].
Qed.

Lemma in_bounds_b sh : forall idx, (length idx =? length sh) && forallb (fun p => fst p <? snd p) (combine idx sh) = true <-> in_bounds sh idx.
Proof.
  induction sh as [|n sh IH]; intros idx.
  - destruct idx; cbn; split; intros H; try constructor; try discriminate. inversion H.
  - destruct idx as [|i idx]; cbn; split; intros H; try discriminate; try (inversion H; fail).
    + apply andb_true_iff in H. destruct H as [H1 H2]. apply andb_true_iff in H2. destruct H2 as [H2 H3].
      constructor; [apply Nat.ltb_lt; exact H2|]. apply IH. rewrite H1, H3. reflexivity.
    + inversion H; subst. apply IH in H5. apply andb_true_iff in H5. destruct H5 as [H5 H6].
      rewrite H5, H6. apply Nat.ltb_lt in H3. rewrite H3. reflexivity.
Qed.
Lemma tr_at {A} (a : arr A) idx : wf_arr a -> at_index (tr a) (rev idx) = at_index a idx.
Proof.
  intros H. unfold at_index. cbn [a_shape a_data tr]. rewrite !rev_length.
  destruct (length idx =? length (a_shape a)) eqn:L; [|reflexivity].
  destruct (forallb (fun p => fst p <? snd p) (combine idx (a_shape a))) eqn:B.
  - assert (I : in_bounds (a_shape a) idx) by (apply in_bounds_b; rewrite L, B; reflexivity).
    pose proof (in_bounds_rev _ _ I) as I2. apply in_bounds_b in I2. rewrite !rev_length, L in I2. cbn in I2. rewrite I2.
    apply transpose_at; assumption.
  - destruct (forallb (fun p => fst p <? snd p) (combine (rev idx) (rev (a_shape a)))) eqn:B2; [|reflexivity].
    assert (I : in_bounds (rev (a_shape a)) (rev idx)) by (apply in_bounds_b; rewrite !rev_length, L, B2; reflexivity).
    apply in_bounds_rev in I. rewrite !rev_involutive in I. apply in_bounds_b in I. rewrite L, B in I. discriminate.
Qed.
Lemma stored_at {A} o (a : arr A) idx : wf_arr a -> o_reverse o = true -> o_atleast_2d o = false ->
  at_index (write_dims o a) (rev idx) = at_index a idx.
Proof. intros H R D. unfold write_dims. rewrite R, D. apply tr_at. exact H. Qed.
