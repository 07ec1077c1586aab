(** Threads that share one File, and what it is for their calls to be atomic
    (property C35). *)
From Verif Require Import Base ProcessPath Value OptionsM Hdf5 MarshalR FileApi ApiSpec.
Local Open Scope nat_scope.

(** what a method does, step by step: [PStep u k] changes the file by [u] and goes on
    with [k], which depends on what the file was; [PLock] and [PUnlock] acquire and
    release the lock of the File; [PRet] returns or raises *)
Inductive prog :=
| PRet (r : res answer)
| PStep (u : file -> file) (k : file -> prog)
| PLock (p : prog)
| PUnlock (p : prog).

(** a thread: between two calls, [k] of which are done, or in its call number [k] *)
Inductive thread := Idle (k : nat) (todo : list call) | Busy (k : nat) (c : call) (p : prog) (todo : list call).
(** the file, the thread that holds the lock, and the threads *)
Record config := mkConfig { c_file : file; c_lock : option nat; c_thr : nat -> thread }.
Inductive event := EInv (t k : nat) (c : call) | ERet (t k : nat) (r : res answer).
Definition put (t : nat) (x : thread) (thr : nat -> thread) : nat -> thread := fun t' => if t' =? t then x else thr t'.

(** what can happen next: any thread makes its next step; the lock is acquired only when
    nobody holds it.  The events are the beginnings and the ends of the calls. *)
Section Exec.
Variable code : call -> prog.
Inductive step : config -> list event -> config -> Prop :=
| X_call f l thr t k c r : thr t = Idle k (c :: r) ->
    step (mkConfig f l thr) [EInv t k c] (mkConfig f l (put t (Busy k c (code c) r) thr))
| X_step f l thr t k c u q r : thr t = Busy k c (PStep u q) r ->
    step (mkConfig f l thr) [] (mkConfig (u f) l (put t (Busy k c (q f) r) thr))
| X_lock f thr t k c p r : thr t = Busy k c (PLock p) r ->
    step (mkConfig f None thr) [] (mkConfig f (Some t) (put t (Busy k c p r) thr))
| X_unlock f thr t k c p r : thr t = Busy k c (PUnlock p) r ->
    step (mkConfig f (Some t) thr) [] (mkConfig f None (put t (Busy k c p r) thr))
| X_ret f l thr t k c a r : thr t = Busy k c (PRet a) r ->
    step (mkConfig f l thr) [ERet t k a] (mkConfig f l (put t (Idle (S k) r) thr)).
(** all that can happen from the file [f0] and threads with the calls [todo] to do *)
Inductive exec (f0 : file) (todo : nat -> list call) : list event -> config -> Prop :=
| X_start : exec f0 todo [] (mkConfig f0 None (fun t => Idle 0 (todo t)))
| X_next H s e s' : exec f0 todo H s -> step s e s' -> exec f0 todo (H ++ e) s'.
End Exec.

(** [a] comes before [b] *)
Definition before {A} (l : list A) (a b : A) : Prop := exists l1 l2 l3, l = l1 ++ a :: l2 ++ b :: l3.

(** calls in one after another, with their answers *)
Definition op : Type := nat * nat * call * res answer.
Definition op_id (x : op) : nat * nat := fst (fst x).
Definition op_call (x : op) : call := snd (fst x).
Definition op_answer (x : op) : res answer := snd x.

(** the calls in the order [lin], one after another from [f0], explain [H]: they have been
    begun, all that have ended are among them with the answers they gave, [f0] gives these
    answers when the calls are made one after another, and a call that ended before
    another one began comes before it *)
Record explains (sequential : list call -> file -> file * list (res answer)) (f0 : file) (H : list event) (lin : list op) : Prop := {
  z_once : NoDup (map op_id lin);
  z_begun : forall t k c a, In (t, k, c, a) lin -> In (EInv t k c) H;
  z_ended : forall t k a, In (ERet t k a) H -> exists c, In (t, k, c, a) lin;
  z_legal : snd (sequential (map op_call lin) f0) = map op_answer lin;
  z_order : forall t k a t' k' c', before H (ERet t k a) (EInv t' k' c') -> In (t', k') (map op_id lin) -> before (map op_id lin) (t, k) (t', k') }.

(** methods that make all their steps with the lock held, however small the steps are:
    alone, they do what [call1] does *)
Fixpoint alone (p : prog) (f : file) : file * res answer :=
  match p with
  | PRet r => (f, r)
  | PStep u k => alone (k f) (u f)
  | PLock p | PUnlock p => alone p f
  end.
Inductive inside : prog -> Prop :=
| I_end r : inside (PUnlock (PRet r))
| I_step u k : (forall f, inside (k f)) -> inside (PStep u k).
Definition disciplined (call1 : call -> file -> file * res answer) (c : call) (p : prog) : Prop :=
  (exists r, p = PRet r /\ forall f, call1 c f = (f, r)) \/ (exists q, p = PLock q /\ inside q /\ forall f, alone q f = call1 c f).
