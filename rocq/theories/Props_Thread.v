(** C35: the calls of threads that share a File are atomic. *)
From Verif Require Import Base PathEsc PosixPath ProcessPath Unicode NdArray Value OptionsM Hdf5 MarshalW MarshalR FileApi ApiSpec ThreadSpec ThreadM ThreadFacts.
Local Open Scope nat_scope.

(** For any number of threads, calls and steps, in any order: what has happened is explained
    by some order of the calls one after another, in which calls that do not overlap in time
    keep their order; and when no call is under way the file is what it would be then.  The
    names that iter(file) gives are taken as they are when it is called (they are really
    taken from the file later, without the lock). *)
Theorem C35_atomic : forall o rnd tries n keq f0 todo H s, exec (file_code o rnd tries n keq) f0 todo H s ->
  exists lin, explains (do_calls o rnd tries n keq) f0 H lin /\
    ((forall t k c p r, c_thr s t <> Busy k c p r) -> c_file s = fst (do_calls o rnd tries n keq (map op_call lin) f0)).
Proof.
  intros o rnd tries n keq f0 todo H s E.
  destruct (exec_good _ _ (file_disciplined o rnd tries n keq) f0 todo H s E) as (lin & [[Z1 Z2 Z3 Z4 Z5] G2 G3]).
  exists lin. split.
  - constructor; auto. rewrite <- calls_do. exact Z4.
  - intros N. rewrite G2; [unfold after; rewrite calls_do; reflexivity|]. destruct (c_lock s) as [h|] eqn:L; [|reflexivity].
    specialize (G3 h). destruct (c_thr s h) as [k r|k c p r] eqn:T; [|destruct (N _ _ _ _ _ T)]. destruct G3 as [X _]. congruence.
Qed.
Print Assumptions C35_atomic.
(** the same however small the steps are that are made with the lock held *)
Theorem C35_any_steps : forall call1 code f0 todo H s, (forall c, disciplined call1 c (code c)) -> exec code f0 todo H s ->
  exists lin, explains (calls call1) f0 H lin.
Proof. intros call1 code f0 todo H s D E. destruct (exec_good call1 code D f0 todo H s E) as (lin & [Z _ _]). eauto. Qed.
Print Assumptions C35_any_steps.
(** there is no deadlock: while some thread is not through, some thread can go on *)
Theorem C35_no_deadlock : forall o rnd tries n keq f0 todo H s t, exec (file_code o rnd tries n keq) f0 todo H s ->
  (forall k, c_thr s t <> Idle k []) -> exists e s', step (file_code o rnd tries n keq) s e s'.
Proof. intros o rnd tries n keq f0 todo H s t. apply exec_on with (call1 := do_call o rnd tries n keq). apply file_disciplined. Qed.
Print Assumptions C35_no_deadlock.

(** ** an execution: the thread that makes the next step, again and again *)
Definition next (code : call -> prog) (t : nat) (s : config) : option (list event * config) :=
  let '(mkConfig f l thr) := s in
  match thr t with
  | Idle k [] => None
  | Idle k (c :: r) => Some ([EInv t k c], mkConfig f l (put t (Busy k c (code c) r) thr))
  | Busy k c (PRet a) r => Some ([ERet t k a], mkConfig f l (put t (Idle (S k) r) thr))
  | Busy k c (PStep u q) r => Some ([], mkConfig (u f) l (put t (Busy k c (q f) r) thr))
  | Busy k c (PLock p) r => match l with None => Some ([], mkConfig f (Some t) (put t (Busy k c p r) thr)) | Some _ => None end
  | Busy k c (PUnlock p) r => match l with Some h => if h =? t then Some ([], mkConfig f None (put t (Busy k c p r) thr)) else None | None => None end
  end.
Lemma next_step code t s e s' : next code t s = Some (e, s') -> step code s e s'.
Proof.
  destruct s as [f l thr]. unfold next. destruct (thr t) as [k [|c r]|k c [a|u q|p|p] r] eqn:T; intros E; try discriminate.
  - injection E as <- <-. apply X_call. exact T.
  - injection E as <- <-. eapply X_ret. exact T.
  - injection E as <- <-. apply X_step. exact T.
  - destruct l; [discriminate|]. injection E as <- <-. apply X_lock. exact T.
  - destruct l as [h|]; [|discriminate]. destruct (Nat.eqb_spec h t) as [->|]; [|discriminate]. injection E as <- <-. apply X_unlock. exact T.
Qed.
Fixpoint schedule (code : call -> prog) (ts : list nat) (H : list event) (s : config) : option (list event * config) :=
  match ts with
  | [] => Some (H, s)
  | t :: r => match next code t s with Some (e, s') => schedule code r (H ++ e) s' | None => None end
  end.
Lemma schedule_exec code f0 todo ts : forall H s H' s', exec code f0 todo H s -> schedule code ts H s = Some (H', s') -> exec code f0 todo H' s'.
Proof.
  induction ts as [|t ts IH]; intros H s H' s' E; cbn [schedule]; [intros [= <- <-]; exact E|].
  destruct (next code t s) as [[e s1]|] eqn:N; [|discriminate]. apply IH. eapply X_next; [exact E|]. eapply next_step. exact N.
Qed.
Lemma next_other code t s e s' t' : next code t s = Some (e, s') -> t' <> t -> c_thr s' t' = c_thr s t'.
Proof.
  destruct s as [f l thr]. unfold next. intros E N. cbn [c_thr].
  destruct (thr t) as [k [|c r]|k c [a|u q|p|p] r]; try discriminate E; try (injection E as _ <-; apply put_other; exact N).
  - destruct l; [discriminate E|]. injection E as _ <-. apply put_other. exact N.
  - destruct l as [h|]; [|discriminate E]. destruct (h =? t); [|discriminate E]. injection E as _ <-. apply put_other. exact N.
Qed.
Lemma schedule_other code ts t' : Forall (fun t => t < t') ts -> forall H s H' s', schedule code ts H s = Some (H', s') -> forall t, t' <= t -> c_thr s' t = c_thr s t.
Proof.
  intros F. induction F as [|x ts F1 F IH]; intros H s H' s'; cbn [schedule]; [intros [= <- <-]; reflexivity|].
  destruct (next code x s) as [[e s1]|] eqn:N; [|discriminate]. intros E t Ht. rewrite (IH _ _ _ _ E t Ht). eapply next_other; [exact N|]. lia.
Qed.
(** thread 0 writes to /x and /y; thread 1 asks for /x while the first of the two is
    written, and again later; thread 2 closes the file in between *)
Definition c35_todo (t : nat) : list call :=
  match t with
  | 0 => [KWrites [(PStr (lit "/x"), VInt 1); (PStr (lit "/y"), VInt 2)]]
  | 1 => [KReads [PStr (lit "/x"); PStr (lit "/y")]; KReads [PStr (lit "/x")]]
  | 2 => [KClose]
  | _ => []
  end.
Definition c35_code := file_code default_options N.of_nat 5 20 key_eq.
Definition c35_run (ts : list nat) := schedule c35_code ts [] (mkConfig (mkFile true empty_file) None (fun t => Idle 0 (c35_todo t))).
Example C35_ex : exists H s, exec c35_code (mkFile true empty_file) c35_todo H s /\ (forall t k c p r, c_thr s t <> Busy k c p r) /\
  H = [EInv 1 0 (KReads [PStr (lit "/x"); PStr (lit "/y")]); EInv 0 0 (KWrites [(PStr (lit "/x"), VInt 1); (PStr (lit "/y"), VInt 2)]); EInv 2 0 KClose;
       ERet 0 0 (Ok AUnit); ERet 1 0 (Ok (AVals [VInt 1; VInt 2])); EInv 1 1 (KReads [PStr (lit "/x")]); ERet 1 1 (Err OSError); ERet 2 0 (Ok AUnit)].
Proof.
  set (ts := [1; 0; 0; 0; 0; 2; 0; 0; 1; 1; 1; 0; 1; 1; 2; 1; 1; 2; 2; 1; 1; 1; 1; 2]).
  assert (X : match c35_run ts with Some (H, s) => Some (H, map (c_thr s) [0; 1; 2]) | None => None end = Some
    ([EInv 1 0 (KReads [PStr (lit "/x"); PStr (lit "/y")]); EInv 0 0 (KWrites [(PStr (lit "/x"), VInt 1); (PStr (lit "/y"), VInt 2)]); EInv 2 0 KClose;
       ERet 0 0 (Ok AUnit); ERet 1 0 (Ok (AVals [VInt 1; VInt 2])); EInv 1 1 (KReads [PStr (lit "/x")]); ERet 1 1 (Err OSError); ERet 2 0 (Ok AUnit)],
     [Idle 1 []; Idle 2 []; Idle 1 []])) by (vm_compute; reflexivity).
  destruct (c35_run ts) as [[H s]|] eqn:E; [|discriminate X]. injection X as X0 X1 X2 X3. exists H, s. split; [|split; [|exact X0]].
  - eapply schedule_exec; [apply X_start|exact E].
  - intros t k c p r. destruct t as [|[|[|t]]]; [rewrite X1; discriminate|rewrite X2; discriminate|rewrite X3; discriminate|].
    rewrite (schedule_other _ _ 3) with (2 := E) by (try lia; unfold ts; repeat constructor; lia). discriminate.
Qed.
