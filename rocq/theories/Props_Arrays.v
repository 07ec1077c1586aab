(** C14: zero-shape detection. *)
From Verif Require Import Base DtypeShape.
Local Open Scope nat_scope.

(** does_dtype_have_a_zero_shape terminates (some number of loop iterations is
    enough, and any larger bound gives the same answer) and answers True exactly
    when a subarray shape with a 0 occurs somewhere inside the dtype. *)
Theorem C14_zero_shape : forall d, exists n b,
  (forall fuel, n <= fuel -> does_dtype_have_a_zero_shape fuel d = Some b) /\
  (b = true <-> exists base sh, inside (DSub base sh) d /\ In 0 sh).
Proof. exact zero_shape_exact. Qed.
Print Assumptions C14_zero_shape.

(** a struct holding a (2,3) subarray of structs with a (0,) subarray inside *)
Example C14_ex : does_dtype_have_a_zero_shape 20
  (DStruct [(lit "a", DPlain 1);
            (lit "b", DSub (DStruct [(lit "c", DSub (DPlain 2) [4; 0])]) [2; 3])]) = Some true.
Proof. reflexivity. Qed.
Example C14_ex2 : does_dtype_have_a_zero_shape 20
  (DStruct [(lit "a", DPlain 1); (lit "b", DSub (DStruct [(lit "c", DSub (DPlain 2) [4; 1])]) [2; 3])]) = Some false.
Proof. reflexivity. Qed.
