(** Model of utilities.does_dtype_have_a_zero_shape (utilities.py l.55-99). *)
From Verif Require Import Base.
Local Open Scope nat_scope.

(** numpy dtypes: a plain type, a structured type (the values of .fields, which
    repeat a field that has a title), a subarray type (.base, .shape). *)
Inductive ndtype :=
| DPlain (code : N)
| DStruct (fields : list (pystr * ndtype))
| DSub (base : ndtype) (shape : list nat).

Definition dt_shape (d : ndtype) : list nat := match d with DSub _ sh => sh | _ => [] end.
(** .fields is None for plain and subarray types *)
Definition dt_fields (d : ndtype) : option (list (pystr * ndtype)) :=
  match d with DStruct fs => Some fs | _ => None end.
Definition dt_base (d : ndtype) : ndtype := match d with DSub b _ => b | _ => d end.
(** c.base != c: a subarray type differs from its item type, every other type
    is its own base *)
Definition base_differs (d : ndtype) : bool := match d with DSub _ _ => true | _ => false end.

Definition zero_in (sh : list nat) : bool := existsb (Nat.eqb 0) sh.

(** l.90-99; [components] with its last element (the one popped) first;
    [None]: out of fuel *)
Fixpoint zloop (fuel : nat) (components : list ndtype) : option bool :=
  match fuel with
  | O => None
  | S fuel =>
      match components with
      | [] => Some false
      | c :: rest =>
          if zero_in (dt_shape c) then Some true
          else
            let rest := match dt_fields c with Some fs => rev (map snd fs) ++ rest | None => rest end in
            let rest := if base_differs c then dt_base c :: rest else rest in
            zloop fuel rest
      end
  end.
Definition does_dtype_have_a_zero_shape (fuel : nat) (d : ndtype) : option bool := zloop fuel [d].

(** ** specification: somewhere inside there is a shape with a 0 *)
Inductive inside : ndtype -> ndtype -> Prop :=
| inside_refl d : inside d d
| inside_field d name f fs : In (name, f) fs -> inside d f -> inside d (DStruct fs)
| inside_base d b sh : inside d b -> inside d (DSub b sh).
Definition has_zero (d : ndtype) : Prop := exists b sh, inside (DSub b sh) d /\ In 0 sh.

(** ** proofs *)
Fixpoint dsize (d : ndtype) : nat :=
  match d with
  | DPlain _ => 1
  | DStruct fs => S (list_sum (map (fun f => dsize (snd f)) fs))
  | DSub b _ => S (dsize b)
  end.
Definition tsize (l : list ndtype) : nat := list_sum (map dsize l).

Lemma list_sum_app a b : list_sum (a ++ b) = list_sum a + list_sum b.
Proof. induction a; cbn; [reflexivity|]. fold (list_sum (a0 ++ b)) (list_sum a0). lia. Qed.
Lemma list_sum_rev a : list_sum (rev a) = list_sum a.
Proof. induction a; cbn; [reflexivity|]. rewrite list_sum_app. cbn. fold (list_sum a0). lia. Qed.
Lemma tsize_cons c l : tsize (c :: l) = dsize c + tsize l. Proof. reflexivity. Qed.
Lemma tsize_rev_app a l : tsize (rev a ++ l) = tsize a + tsize l.
Proof. unfold tsize. rewrite map_app, map_rev, list_sum_app, list_sum_rev. reflexivity. Qed.
Lemma tsize_fields fs : tsize (map snd fs) = list_sum (map (fun f : pystr * ndtype => dsize (snd f)) fs).
Proof. unfold tsize. rewrite map_map. reflexivity. Qed.

Lemma zero_in_In sh : zero_in sh = true <-> In 0 sh.
Proof.
  unfold zero_in. rewrite existsb_exists. split; [intros (x & H & E); apply Nat.eqb_eq in E; subst; exact H|].
  intros H. exists 0. auto.
Qed.

Definition any_zero (l : list ndtype) : Prop := exists d, In d l /\ has_zero d.

Lemma any_zero_cons c l : any_zero (c :: l) <-> has_zero c \/ any_zero l.
Proof.
  unfold any_zero. split.
  - intros (d & [<-|H] & Hz); eauto.
  - intros [H|(d & H1 & H2)]; [exists c; split; [left; reflexivity|exact H]|exists d; split; [right; exact H1|exact H2]].
Qed.
Lemma any_zero_app a l : any_zero (a ++ l) <-> any_zero a \/ any_zero l.
Proof.
  unfold any_zero. split.
  - intros (d & H & Hz). apply in_app_or in H. destruct H; eauto.
  - intros [(d & H & Hz)|(d & H & Hz)]; exists d; (split; [apply in_or_app; auto|exact Hz]).
Qed.
Lemma any_zero_rev a : any_zero (rev a) <-> any_zero a.
Proof. unfold any_zero. split; intros (d & H & Hz); exists d; (split; [|exact Hz]); [apply in_rev; exact H|apply in_rev in H; exact H]. Qed.

Lemma has_zero_plain n : ~ has_zero (DPlain n).
Proof. intros (b & sh & H & _). inversion H. Qed.
Lemma has_zero_struct fs : has_zero (DStruct fs) <-> any_zero (map snd fs).
Proof.
  split.
  - intros (b & sh & H & Hz). inversion H as [|d name f fs' Hin Hi|]; subst. exists f. split; [|exists b, sh; auto].
    apply in_map_iff. exists (name, f). auto.
  - intros (d & H & b & sh & Hi & Hz). apply in_map_iff in H. destruct H as ([n f] & E & Hin). cbn in E. subst.
    exists b, sh. split; [|exact Hz]. econstructor; eassumption.
Qed.
Lemma has_zero_sub b sh : has_zero (DSub b sh) <-> In 0 sh \/ has_zero b.
Proof.
  split.
  - intros (b' & sh' & H & Hz). inversion H as [|?|? ? ? Hi]; subst; [auto|]. right. exists b', sh'. auto.
  - intros [H|(b' & sh' & H & Hz)]; [exists b, sh; split; [constructor|exact H]|].
    exists b', sh'. split; [constructor; exact H|exact Hz].
Qed.

Lemma zloop_spec fuel : forall l, tsize l < fuel ->
  exists r, zloop fuel l = Some r /\ (r = true <-> any_zero l).
Proof.
  induction fuel as [|fuel IH]; intros l H; [lia|]. cbn [zloop].
  destruct l as [|c l].
  - exists false. split; [reflexivity|]. split; [discriminate|]. intros (d & [] & _).
  - rewrite tsize_cons in H. destruct c as [n|fs|b sh]; cbn [dt_shape zero_in existsb dt_fields base_differs dt_base].
    + destruct (IH l) as (r & E & Hr); [cbn in H; lia|]. exists r. split; [exact E|].
      rewrite Hr, any_zero_cons. pose proof (has_zero_plain n). tauto.
    + destruct (IH (rev (map snd fs) ++ l)) as (r & E & Hr).
      { rewrite tsize_rev_app, tsize_fields. cbn in H. lia. }
      exists r. split; [exact E|]. rewrite Hr, any_zero_app, any_zero_rev, any_zero_cons, has_zero_struct. tauto.
    + fold (zero_in sh). destruct (zero_in sh) eqn:Ez.
      * exists true. split; [reflexivity|]. split; [|reflexivity]. intros _. apply any_zero_cons. left.
        apply has_zero_sub. left. apply zero_in_In. exact Ez.
      * destruct (IH (b :: l)) as (r & E & Hr); [rewrite tsize_cons; cbn in H; lia|]. exists r. split; [exact E|].
        rewrite Hr, !any_zero_cons, has_zero_sub.
        assert (~ In 0 sh) by (rewrite <- zero_in_In; congruence). tauto.
Qed.

Lemma zero_shape_exact d : exists n b, (forall fuel, n <= fuel -> does_dtype_have_a_zero_shape fuel d = Some b) /\
  (b = true <-> has_zero d).
Proof.
  destruct (zloop_spec (S (tsize [d])) [d]) as (b & E & Hb); [lia|]. exists (S (tsize [d])), b. split.
  - intros fuel Hf. destruct (zloop_spec fuel [d]) as (b' & E' & Hb'); [lia|]. unfold does_dtype_have_a_zero_shape.
    rewrite E'. f_equal. destruct b, b'; try reflexivity; intuition congruence.
  - rewrite Hb, any_zero_cons. split; [intros [H|(d' & [] & _)]; exact H|auto].
Qed.
