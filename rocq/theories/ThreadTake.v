(** Removing a path succeeds for one thread only, unless something is written. *)
From Verif Require Import Base PathEsc PosixPath PosixFacts ProcessPath Unicode NdArray Value OptionsM Hdf5 HeapFacts NpWrite MarshalW MarshalR FileApi ApiSpec FileFacts ThreadSpec ThreadM ThreadFacts.
Local Open Scope nat_scope.

(** ** the calls of an execution are those the threads have to do *)
Definition of_todo (todo : nat -> list call) (t : nat) (x : thread) : Prop :=
  match x with Idle k r => r = skipn k (todo t) | Busy k c _ r => c :: r = skipn k (todo t) end.
Lemma skipn_cons {A} (l : list A) : forall k c r, c :: r = skipn k l -> nth_error l k = Some c /\ r = skipn (S k) l.
Proof.
  induction l as [|x l IH]; intros [|k] c r E; try discriminate.
  - cbn in E. injection E as -> ->. auto.
  - cbn [skipn nth_error] in *. apply IH in E. exact E.
Qed.
Lemma exec_todo code f0 todo H s : exec code f0 todo H s ->
  (forall t, of_todo todo t (c_thr s t)) /\ forall t k c, In (EInv t k c) H -> nth_error (todo t) k = Some c.
Proof.
  induction 1 as [|H s e s' X [I1 I2] S]; [split; [reflexivity|intros t k c []]|].
  destruct S as [f l thr t k c r T|f l thr t k c u q r T|f thr t k c p r T|f thr t k c p r T|f l thr t k c a r T]; cbn [c_thr] in *;
    pose proof (I1 t) as J; rewrite T in J; cbn [of_todo] in J; pose proof (skipn_cons _ _ _ _ J) as [J1 J2];
    (split; [intros t'; unfold put; destruct (Nat.eqb_spec t' t) as [->|]; [|apply I1]; cbn [of_todo]; auto
            |intros t1 k1 c1 Hin; apply in_app_or in Hin; destruct Hin as [Hin|Hin]; [apply I2; exact Hin|cbn in Hin; intuition congruence]]).
Qed.

(** ** links only go away *)
Definition fewer (h h' : heap) : Prop := forall i k j, lookup h' i k = Some j -> lookup h i k = Some j.
Lemma fewer_walk h h' : fewer h h' -> forall cs i j, walk h' i cs = Some j -> walk h i cs = Some j.
Proof.
  intros F cs. induction cs as [|k r IH]; intros i j W; [exact W|]. cbn [walk] in *.
  destruct (lookup h' i k) as [x|] eqn:L; [|discriminate]. rewrite (F _ _ _ L). apply IH. exact W.
Qed.
Lemma rm_fewer h g k : fewer h (rm_link h g k).
Proof. intros i k' j. rewrite (rm_lookup h g k). destruct ((i =? g) && eqb_str k' k); [discriminate|auto]. Qed.
Lemma fewer_refl h : fewer h h. Proof. intros i k j L. exact L. Qed.

Lemma del_fewer p f f' r : file_del f p = (f', r) -> fewer (hp (fl_st f)) (hp (fl_st f')).
Proof.
  unfold file_del. destruct (process_path p) as [[g t]|e]; [|intros [= <- _]; apply fewer_refl].
  destruct (fl_open f); [|intros [= <- _]; apply fewer_refl].
  destruct (name_err (posix_join g [t])) eqn:N.
  - unfold unlink. rewrite N. intros [= <- _]. apply fewer_refl.
  - rewrite (unlink_eq _ _ N). destruct (rev _) as [|k r0]; [intros [= <- _]; apply fewer_refl|].
    destruct (walk _ 0 (rev r0)) as [j|]; [|intros [= <- _]; apply fewer_refl].
    destruct (lookup _ j k); intros [= <- _]; [apply rm_fewer|apply fewer_refl].
Qed.
(** what del removed is found before and not after *)
Lemma del_ok p f f' cs : denotes p cs -> file_del f p = (f', Ok tt) -> walk (hp (fl_st f)) 0 cs <> None /\ walk (hp (fl_st f')) 0 cs = None.
Proof.
  intros (g & t & P & ->). unfold file_del. rewrite P. destruct (fl_open f); [|discriminate].
  destruct (name_err (posix_join g [t])) eqn:N; [unfold unlink; rewrite N; discriminate|].
  rewrite (unlink_eq _ _ N). set (cs := path_comps (posix_join g [t])). destruct (rev cs) as [|k r0] eqn:R; [discriminate|].
  assert (C : cs = rev r0 ++ [k]) by (rewrite <- (rev_involutive cs), R; reflexivity). rewrite C.
  destruct (walk (hp (fl_st f)) 0 (rev r0)) as [j|] eqn:W; [|discriminate]. destruct (lookup (hp (fl_st f)) j k) as [x|] eqn:L; [|discriminate].
  intros [= <-]. cbn [fl_st hp set_hp]. rewrite !walk_snoc, W, L. split; [discriminate|].
  destruct (walk (rm_link (hp (fl_st f)) j k) 0 (rev r0)) as [j'|] eqn:W'; [|reflexivity].
  pose proof (fewer_walk _ _ (rm_fewer _ _ _) _ _ _ W') as W2. rewrite W in W2. injection W2 as <-. rewrite rm_lookup, Nat.eqb_refl, eqb_str_refl. reflexivity.
Qed.

Section Calls.
Variables (o : options) (rnd : nat -> N) (tries n : nat) (keq : pyval -> pyval -> bool).
Definition quiet (c : call) : Prop := match c with KWrites _ => False | _ => True end.
Lemma call_fewer c f : quiet c -> fewer (hp (fl_st f)) (hp (fl_st (fst (do_call o rnd tries n keq c f)))).
Proof.
  destruct c; cbn [quiet do_call]; intros Q; try destruct Q.
  all: unfold map_res, file_reads, file_len, file_contains, file_iter, file_close, file_flush.
  all: try (cbn [fst fl_st]; apply fewer_refl).
  all: try (destruct (file_del f p) as [f' r] eqn:E; cbn [fst]; exact (del_fewer _ _ _ _ E)).
  all: repeat match goal with |- context [match ?x with _ => _ end] => destruct x end; cbn [fst fl_st]; apply fewer_refl.
Qed.
Lemma calls_app : forall a b f, do_calls o rnd tries n keq (a ++ b) f =
  let '(f1, l1) := do_calls o rnd tries n keq a f in let '(f2, l2) := do_calls o rnd tries n keq b f1 in (f2, l1 ++ l2).
Proof.
  induction a as [|c a IH]; intros b f; cbn [app do_calls]; [destruct (do_calls o rnd tries n keq b f); reflexivity|].
  destruct (do_call o rnd tries n keq c f) as [f1 x]. rewrite IH. destruct (do_calls o rnd tries n keq a f1) as [f2 l1].
  destruct (do_calls o rnd tries n keq b f2). reflexivity.
Qed.
Lemma calls_length : forall a f, length (snd (do_calls o rnd tries n keq a f)) = length a.
Proof.
  induction a as [|c a IH]; intros f; cbn [do_calls]; [reflexivity|]. destruct (do_call o rnd tries n keq c f) as [f1 x]. specialize (IH f1).
  destruct (do_calls o rnd tries n keq a f1). cbn [snd length] in *. congruence.
Qed.
Lemma calls_fewer : forall l f, Forall quiet l -> forall cs, walk (hp (fl_st f)) 0 cs = None -> walk (hp (fl_st (fst (do_calls o rnd tries n keq l f)))) 0 cs = None.
Proof.
  induction l as [|c l IH]; intros f Q cs W; [exact W|]. inversion Q; subst. cbn [do_calls].
  destruct (do_call o rnd tries n keq c f) as [f1 x] eqn:E. specialize (IH f1). destruct (do_calls o rnd tries n keq l f1) as [f2 y]. cbn [fst] in *.
  apply IH; auto. destruct (walk (hp (fl_st f1)) 0 cs) as [j|] eqn:W1; [|reflexivity]. pose proof (call_fewer c f H1) as F. rewrite E in F. cbn [fst] in F.
  rewrite (fewer_walk _ _ F _ _ _ W1) in W. discriminate.
Qed.
(** one after another: a path is removed once, if nothing is written between *)
Lemma calls_take l1 l2 l3 p f : Forall quiet l2 ->
  nth_error (snd (do_calls o rnd tries n keq (l1 ++ KDel p :: l2 ++ KDel p :: l3) f)) (length l1) = Some (Ok AUnit) ->
  nth_error (snd (do_calls o rnd tries n keq (l1 ++ KDel p :: l2 ++ KDel p :: l3) f)) (length l1 + S (length l2)) = Some (Ok AUnit) -> False.
Proof.
  intros Q. rewrite calls_app. pose proof (calls_length l1 f) as L1. destruct (do_calls o rnd tries n keq l1 f) as [f1 a1]. cbn [snd] in L1.
  cbn [do_calls do_call]. unfold map_res. destruct (file_del f1 p) as [f2 r2] eqn:E2. cbn [fst snd]. rewrite calls_app.
  pose proof (calls_length l2 f2) as L2. pose proof (calls_fewer l2 f2 Q) as K. destruct (do_calls o rnd tries n keq l2 f2) as [f3 a3]. cbn [snd fst] in L2, K.
  cbn [do_calls do_call]. unfold map_res. destruct (file_del f3 p) as [f4 r4] eqn:E4. cbn [fst snd]. destruct (do_calls o rnd tries n keq l3 f4) as [f5 a5]. cbn [snd].
  rewrite !nth_error_app2 by lia. replace (length l1 - length a1) with 0 by lia. replace (length l1 + S (length l2) - length a1) with (S (length l2)) by lia.
  cbn [nth_error]. rewrite nth_error_app2 by lia. replace (length l2 - length a3) with 0 by lia. cbn [nth_error].
  intros X1 X2. destruct r2 as [[]|]; [|discriminate]. destruct r4 as [[]|]; [|discriminate].
  assert (D : exists cs, denotes p cs).
  { unfold file_del in E2. destruct (process_path p) as [[g t]|] eqn:P; [|discriminate E2]. exists (path_comps (posix_join g [t])), g, t. auto. }
  destruct D as [cs D]. destruct (del_ok p f1 f2 cs D E2) as [_ N]. destruct (del_ok p f3 f4 cs D E4) as [Y _]. apply Y, K, N.
Qed.
End Calls.

(** two entries of a list, in one order or the other *)
Lemma two_in {A} (l : list A) a b : In a l -> In b l -> a <> b ->
  exists l1 l2 l3, l = l1 ++ a :: l2 ++ b :: l3 \/ l = l1 ++ b :: l2 ++ a :: l3.
Proof.
  intros Ha Hb N. destruct (List.in_split _ _ Ha) as (x & y & ->). apply in_app_or in Hb. destruct Hb as [Hb|[Hb|Hb]]; [|congruence|].
  - destruct (List.in_split _ _ Hb) as (u & v & ->). exists u, v, y. right. rewrite <- app_assoc. reflexivity.
  - destruct (List.in_split _ _ Hb) as (u & v & ->). exists x, u, v. left. reflexivity.
Qed.
Lemma quiet_or (l : list op) : Forall quiet (map op_call l) \/ exists t k m a, In (t, k, KWrites m, a) l.
Proof.
  induction l as [|[[[t k] c] a] l IH]; [left; constructor|]. destruct IH as [IH|(t' & k' & m & a' & I)]; [|right; exists t', k', m, a'; right; exact I].
  destruct c; try (left; constructor; [exact I|exact IH]). right. exists t, k, mdict, a. left. reflexivity.
Qed.
Lemma nth_mid {A B} (f : A -> B) l x r k : k = length l -> nth_error (map f (l ++ x :: r)) k = Some (f x).
Proof. intros ->. rewrite map_app, nth_error_app2 by (rewrite map_length; lia). rewrite map_length, Nat.sub_diag. reflexivity. Qed.
Lemma taken_once o rnd tries n keq f0 todo H s p t k t' k' :
  exec (file_code o rnd tries n keq) f0 todo H s -> (t, k) <> (t', k') ->
  In (EInv t k (KDel p)) H -> In (EInv t' k' (KDel p)) H -> In (ERet t k (Ok AUnit)) H -> In (ERet t' k' (Ok AUnit)) H ->
  exists t2 k2 mdict, In (EInv t2 k2 (KWrites mdict)) H.
Proof.
  intros E N B1 B2 R1 R2.
  destruct (exec_good _ _ (file_disciplined o rnd tries n keq) f0 todo H s E) as (lin & [[Z1 Z2 Z3 Z4 Z5] _ _]). rewrite calls_do in Z4.
  pose proof (proj2 (exec_todo _ _ _ _ _ E)) as TD.
  assert (X : forall t k, In (EInv t k (KDel p)) H -> In (ERet t k (Ok AUnit)) H -> In (t, k, KDel p, Ok AUnit) lin).
  { intros a b Hb Hr. destruct (Z3 _ _ _ Hr) as [c Hc]. pose proof (TD _ _ _ (Z2 _ _ _ _ Hc)) as Y1. rewrite (TD _ _ _ Hb) in Y1. injection Y1 as <-. exact Hc. }
  assert (T : forall t k t' k' l1 l2 l3, lin = l1 ++ (t, k, KDel p, Ok AUnit) :: l2 ++ (t', k', KDel p, Ok AUnit) :: l3 -> exists t2 k2 mdict, In (EInv t2 k2 (KWrites mdict)) H).
  { intros a b a' b' l1 l2 l3 EL. destruct (quiet_or l2) as [Q|(t2 & k2 & m & x & I)].
    - exfalso. apply (calls_take o rnd tries n keq (map op_call l1) (map op_call l2) (map op_call l3) p f0 Q).
      all: assert (EC : map op_call lin = map op_call l1 ++ KDel p :: map op_call l2 ++ KDel p :: map op_call l3) by (rewrite EL, map_app; cbn [map]; rewrite map_app; reflexivity).
      all: rewrite <- EC, Z4, EL.
      + apply (nth_mid op_answer). apply map_length.
      + rewrite app_comm_cons, app_assoc. apply (nth_mid op_answer). rewrite app_length. cbn [length]. rewrite !map_length. reflexivity.
    - exists t2, k2, m. apply (Z2 t2 k2 (KWrites m) x). rewrite EL. apply in_or_app. right. right. apply in_or_app. left. exact I. }
  destruct (two_in lin _ _ (X _ _ B1 R1) (X _ _ B2 R2)) as (l1 & l2 & l3 & [EL|EL]); [congruence| |]; eapply T; exact EL.
Qed.
