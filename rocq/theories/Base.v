(** Common vocabulary: Python strings, exceptions as values, results. *)
From Coq Require Export Ascii String.
From Coq Require Export NArith ZArith Lia Bool List.
From Coq Require Export ZifyBool ZifyNat ZifyN.
Export ListNotations.
#[global] Open Scope N_scope.
#[global] Open Scope list_scope.

(** A Python [str] is a sequence of code points; Python allows every code
    point below 0x110000, surrogates included. *)
Notation pystr := (list N).
Definition max_cp : N := 1114112. (* 0x110000 *)
Definition wf_str (s : pystr) : Prop := Forall (fun c => c < max_cp) s.

(** ASCII literals. *)
Fixpoint lit (s : String.string) : pystr :=
  match s with
  | String.EmptyString => []
  | String.String a r => N_of_ascii a :: lit r
  end.

(** The exceptions that the modelled code can raise.  [CantReadError] is a
    subclass of OSError and [CantWriteError] too; [TypeNotMatlabCompatibleError]
    is a subclass of CantWriteError (exceptions.py). [UnicodeDecodeError] and
    [UnicodeEncodeError] are subclasses of ValueError in CPython. *)
Inductive exn :=
| TypeError | ValueError | OverflowError | KeyError | IndexError | OSError
| NotImplementedError | AttributeError | UnicodeDecodeError | UnicodeEncodeError
| CantReadError | CantWriteError | TypeNotMatlabCompatibleError
| RuntimeErr | ImportError
| OutOfFuel.   (* not a Python exception: the step bound of a model function was reached *)

Inductive res (A : Type) := Ok (a : A) | Err (e : exn).
Arguments Ok {A} a.
Arguments Err {A} e.

Definition bindr {A B} (m : res A) (f : A -> res B) : res B :=
  match m with Ok a => f a | Err e => Err e end.
Notation "'do' x <- m ; k" := (bindr m (fun x => k))
  (at level 200, x pattern, m at level 100, k at level 200).

Fixpoint mapr {A B} (f : A -> res B) (l : list A) : res (list B) :=
  match l with
  | [] => Ok []
  | a :: r => do b <- f a; do bs <- mapr f r; Ok (b :: bs)
  end.

Fixpoint eqb_str (a b : pystr) : bool :=
  match a, b with
  | [], [] => true
  | x :: a', y :: b' => N.eqb x y && eqb_str a' b'
  | _, _ => false
  end.

Lemma eqb_str_spec a b : reflect (a = b) (eqb_str a b).
Proof.
  revert b; induction a as [|x a IH]; destruct b as [|y b]; cbn; try (constructor; congruence).
  destruct (N.eqb_spec x y); cbn; [|constructor; congruence].
  destruct (IH b); constructor; congruence.
Qed.

Lemma eqb_str_refl a : eqb_str a a = true.
Proof. destruct (eqb_str_spec a a); congruence. Qed.

Lemma eqb_str_eq a b : eqb_str a b = true <-> a = b.
Proof. destruct (eqb_str_spec a b); split; congruence. Qed.

Lemma eqb_str_neq a b : eqb_str a b = false <-> a <> b.
Proof. destruct (eqb_str_spec a b); split; congruence. Qed.

Definition mem_str (a : pystr) (l : list pystr) : bool := existsb (eqb_str a) l.

Lemma mem_str_In a l : mem_str a l = true <-> In a l.
Proof.
  unfold mem_str. rewrite existsb_exists. split.
  - intros (x & Hx & E). apply eqb_str_eq in E. subst; exact Hx.
  - intros H. exists a. split; [exact H|apply eqb_str_refl].
Qed.
