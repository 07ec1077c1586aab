(** The last of the states in between is what the whole call leaves. *)
From Verif Require Import Base PathEsc PosixPath PosixFacts ProcessPath ProcessPathFacts Unicode MColl Dec NdArray Value OptionsM StrConv Attrs Hdf5 HeapFacts NpWrite NpRead MarshalW MarshalR FileApi CutM CutFrame CutFacts.
Local Open Scope nat_scope.

(** to show that something is such a state *)
Lemma in_left {A B} (m : T A) (k : A -> T B) s x : fst (m s) x -> fst (bindt m k s) x.
Proof. intros H. unfold bindt. destruct (snd (m s)) as [s1 [a|e]]; [left; exact H|exact H]. Qed.
Lemma in_right {A B} (m : T A) (k : A -> T B) s a x : snd (snd (m s)) = Ok a -> fst (k a (fst (snd (m s)))) x -> fst (bindt m k s) x.
Proof. intros E H. unfold bindt. destruct (snd (m s)) as [s1 [b|e]]; cbn [fst snd] in *; [|discriminate]. injection E as ->. right. exact H. Qed.
