(** Lemmas about the calls of File. *)
From Verif Require Import Base PathEsc PosixPath PosixFacts ProcessPath ProcessPathFacts Unicode MColl Dec NdArray Value OptionsM StrConv Attrs Hdf5 HeapFacts NpWrite NpRead MarshalW MarshalR FrameFacts WriteFrame ReadFacts FileApi ApiFacts CutM CutFacts ApiSpec HistoryFacts.
Local Open Scope nat_scope.

(** ** the guard *)
Lemma check_refuses o p cs : denotes p cs -> same_top cs (refs_path o) -> check_path o p = Err ValueError.
Proof.
  intros (g & t & P & ->) S. unfold check_path. rewrite P. cbn [bindr fst snd].
  destruct (isabs (o_refs o)) eqn:A.
  - pose proof (check_path_iff o p g t A) as [I _]. unfold check_path in I. rewrite P in I. cbn [bindr fst snd] in I.
    assert (AF : exists c, commonpath2 (o_refs o) (posix_join (if isabs g then [] else [fslash]) [g; t]) = Ok c).
    { unfold commonpath2. rewrite A. destruct (pair_cases _ _ _ P) as (P1 & P2 & _).
      replace (isabs (posix_join (if isabs g then [] else [fslash]) [g; t])) with true; [cbn [Bool.eqb]; eauto|].
      symmetry. unfold posix_join. cbn [fold_left]. apply starts_noslash in P2. unfold join_step at 1. rewrite P2.
      destruct (isabs g) eqn:Ia.
      - assert (J : join_step [] g = g) by (unfold join_step, isabs in *; rewrite Ia; reflexivity). rewrite J.
        unfold isabs, starts_slash in *. destruct g; [discriminate|]. destruct (_ || _); exact Ia.
      - assert (J : join_step [fslash] g = fslash :: g) by (unfold join_step, isabs in *; rewrite Ia; reflexivity). rewrite J.
        destruct (_ || _); reflexivity. }
    destruct AF as [c E]. rewrite E in *. cbn [bindr] in *. destruct (eqb_str c [fslash]); [|reflexivity].
    destruct (I eq_refl) as [_ X]. destruct S as (x & a' & b' & S1 & S2). unfold loc, refs_path in *.
    destruct X as [X|[X|(u & w & r1 & r2 & X1 & X2 & X3)]]; unfold rp in *; congruence.
  - unfold commonpath2. rewrite A. destruct (pair_cases _ _ _ P) as (P1 & P2 & _).
    replace (isabs (posix_join (if isabs g then [] else [fslash]) [g; t])) with true; [reflexivity|].
    symmetry. unfold posix_join. cbn [fold_left]. apply starts_noslash in P2. unfold join_step at 1. rewrite P2.
    destruct (isabs g) eqn:Ia.
    + assert (J : join_step [] g = g) by (unfold join_step, isabs in *; rewrite Ia; reflexivity). rewrite J.
      unfold isabs, starts_slash in *. destruct g; [discriminate|]. destruct (_ || _); exact Ia.
    + assert (J : join_step [fslash] g = fslash :: g) by (unfold join_step, isabs in *; rewrite Ia; reflexivity). rewrite J.
      destruct (_ || _); reflexivity.
Qed.
Lemma mapr_bad {A B} (f : A -> res B) l x e : In x l -> f x = Err e -> exists e', mapr f l = Err e'.
Proof.
  induction l as [|y l IH]; [intros []|]. intros [->|H] E; cbn [mapr].
  - rewrite E. eexists. reflexivity.
  - destruct (f y); cbn [bindr]; [|eauto]. destruct (IH H E) as [e' ->]. eexists. reflexivity.
Qed.
Lemma check_bad o p : (exists e, process_path p = Err e) \/ (exists cs, denotes p cs /\ same_top cs (refs_path o)) ->
  exists e, check_path o p = Err e.
Proof.
  intros [[e E]|(cs & D & S)]; [|eexists; eapply check_refuses; eassumption]. exists e. unfold check_path. rewrite E. reflexivity.
Qed.
Lemma writes_refused : forall o rnd tries n f mdict p v, In (p, v) mdict ->
  (exists e, process_path p = Err e) \/ (exists cs, denotes p cs /\ same_top cs (refs_path o)) ->
  exists e, file_writes o rnd tries n f mdict = (f, Err e).
Proof.
  intros o rnd tries n f mdict p v H B. destruct (check_bad _ _ B) as [e E]. unfold file_writes.
  destruct (mapr_bad (fun pv => do gt <- check_path o (fst pv); Ok (gt, snd pv)) mdict (p, v) e H) as [e' ->]; [|eauto].
  cbn [fst snd]. rewrite E. reflexivity.
Qed.
Lemma refs_protected : forall o rnd tries n keq f p cs v, denotes p cs -> refs_path o <> [] ->
  pre (refs_path o) cs \/ (cs <> [] /\ pre cs (refs_path o)) ->
  file_write o rnd tries n f v p = (f, Err ValueError) /\ file_read o n keq f p = (f, Err ValueError).
Proof.
  intros o rnd tries n keq f p cs v D NR P. assert (S : same_top cs (refs_path o)).
  { destruct P as [[x ->]|[NZ [x ->]]].
    - destruct (refs_path o) as [|a b]; [congruence|]. exists a, (b ++ x), b. auto.
    - destruct cs as [|a b]; [congruence|]. exists a, b, (b ++ x). auto. }
  pose proof (check_refuses _ _ _ D S) as E. unfold file_write, file_writes, file_read, file_reads. cbn [mapr fst snd]. rewrite E. auto.
Qed.
(** ** names that h5py takes *)
Definition okch (c : N) : Prop := is_scalar c = true /\ c <> 0%N.
Lemma name_err_iff s : name_err s = None <-> s <> [] /\ Forall okch s.
Proof.
  unfold name_err. destruct (forallb is_scalar s) eqn:A; cbn [negb].
  - rewrite forallb_forall in A. destruct (existsb (N.eqb 0) s) eqn:B.
    + split; [discriminate|]. intros [_ F]. apply existsb_exists in B. destruct B as (x & Hx & E). apply N.eqb_eq in E. subst x.
      rewrite Forall_forall in F. destruct (F _ Hx) as [_ X]. congruence.
    + assert (Forall okch s).
      { apply Forall_forall. intros x Hx. split; [auto|]. intros ->. assert (existsb (N.eqb 0) s = true) by (apply existsb_exists; exists 0%N; auto). congruence. }
      destruct s; [split; [discriminate|intros [X _]; congruence]|]. split; [intros _; split; [discriminate|assumption]|auto].
  - split; [discriminate|]. intros [_ F]. assert (forallb is_scalar s = true); [|congruence]. apply forallb_forall.
    rewrite Forall_forall in F. intros x Hx. apply F. exact Hx.
Qed.
Lemma okch_slash : okch fslash. Proof. split; [reflexivity|discriminate]. Qed.
Lemma okch_dot : okch dot. Proof. split; [reflexivity|discriminate]. Qed.
Lemma in_split c s : In c s -> c = fslash \/ exists w, In w (split_slash s) /\ In c w.
Proof.
  induction s as [|x s IH]; [intros []|]. cbn [split_slash]. destruct (N.eqb_spec x fslash) as [->|N].
  - intros [<-|H]; [auto|]. destruct (IH H) as [?|(w & A & B)]; [auto|]. right. exists w. cbn. auto.
  - pose proof (split_nonempty s) as NE. destruct (split_slash s) as [|w ws]; [congruence|]. intros [<-|H].
    + right. exists (x :: w). cbn. auto.
    + destruct (IH H) as [?|(w' & [<-|A] & B)]; [auto| |]; right; [exists (x :: w)|exists w']; cbn; auto.
Qed.
Lemma comps_ok s : Forall (fun c => name_err c = None) (path_comps s) -> Forall okch s.
Proof.
  intros F. apply Forall_forall. intros c Hc. destruct (in_split c s Hc) as [->|(w & A & B)]; [apply okch_slash|].
  destruct (eqb_str_spec w []) as [->|N1]; [destruct B|]. destruct (eqb_str_spec w s_dot) as [->|N2]; [destruct B as [<-|[]]; apply okch_dot|].
  assert (K : In w (path_comps s)).
  { unfold path_comps. apply filter_In. split; [exact A|]. destruct (eqb_str_spec w []); [congruence|]. destruct (eqb_str_spec w s_dot); [congruence|]. reflexivity. }
  rewrite Forall_forall in F. apply F, name_err_iff in K. destruct K as [_ K]. rewrite Forall_forall in K. auto.
Qed.
Lemma join_nonempty g t : g <> [] -> posix_join g [t] <> [].
Proof.
  intros H. unfold posix_join, join_step. cbn [fold_left]. destruct (starts_slash t) eqn:S; [destruct t; discriminate|].
  destruct (_ || _); destruct g; try congruence; discriminate.
Qed.
Lemma loc_name_err p g t : process_path p = Ok (g, t) -> Forall (fun c => name_err c = None) (loc g t) ->
  name_err (posix_join g [t]) = None /\ name_err g = None /\ (loc g t <> [] -> name_err t = None).
Proof.
  intros P F. destruct (pair_cases _ _ _ P) as (P1 & P2 & P3). split; [|split].
  - apply name_err_iff. split; [apply join_nonempty; exact P1|apply comps_ok; exact F].
  - apply name_err_iff. split; [exact P1|]. apply comps_ok. rewrite (loc_eq _ _ _ P) in F. apply Forall_app in F. apply F.
  - intros NZ. destruct (loc_clean _ _ _ P) as [Z|[C E]]; [contradiction|]. rewrite E in F. apply Forall_app in F. destruct F as [_ F].
    inversion F; auto.
Qed.

(** what reading a path comes down to *)
Lemma read_at_eq o keq n p g t s : process_path p = Ok (g, t) -> loc g t <> [] -> Forall (fun c => name_err c = None) (loc g t) ->
  read_at o n keq g t s = match walk (hp s) 0 (loc g t) with Some j => read o keq (hp s) n j | None => Err KeyError end.
Proof.
  intros P NZ F. destruct (loc_name_err _ _ _ P F) as (_ & N1 & N2). specialize (N2 NZ). destruct (loc_clean _ _ _ P) as [Z|[C E]]; [contradiction|].
  rewrite E. unfold read_at, get_obj at 1. rewrite N1. cbn [gets snd bindr]. unfold start_of.
  replace (if isabs g then 0 else 0) with 0 by (destruct (isabs g); reflexivity).
  rewrite walk_snoc. destruct (walk (hp s) 0 (path_comps g)) as [i|]; [|reflexivity].
  destruct (get_name i t s (or_intror C)) as [(e & X)|(_ & _ & X)]; [unfold get_obj in X; rewrite N2 in X; discriminate|].
  rewrite X. cbn [snd bindr]. destruct (is_group (hp s) i) eqn:Gi; [reflexivity|].
  destruct (lookup (hp s) i t) eqn:L; [apply lookup_group in L; congruence|reflexivity].
Qed.
Lemma empty_walk cs : cs <> [] -> walk (hp empty_file) 0 cs = None.
Proof. destruct cs; [congruence|]. reflexivity. Qed.
Lemma refs_exact : forall o n keq p cs k, isabs (o_refs o) = true -> refs_path o = [k] -> denotes p cs -> cs <> [] ->
  Forall (fun c => name_err c = None) cs ->
  snd (file_read o n keq (mkFile true empty_file) p) = Err (if eqb_str (hd [] cs) k then ValueError else KeyError).
Proof.
  intros o n keq p cs k A R D NZ F. destruct cs as [|c cs]; [congruence|]. cbn [hd].
  destruct (eqb_str_spec c k) as [->|NE].
  - unfold file_read, file_reads. cbn [mapr snd]. rewrite (check_refuses o p (k :: cs) D); [reflexivity|]. exists k, cs, []. auto.
  - destruct D as (g & t & P & E). unfold file_read, file_reads. cbn [mapr snd fl_open fl_st].
    assert (C : check_path o p = Ok (g, t)).
    { apply check_path_iff; [exact A|]. split; [exact P|]. right. right. unfold loc. rewrite <- E. exists c, k, cs, []. auto. }
    rewrite C. cbn [bindr mapr fst snd]. assert (F' : Forall (fun c => name_err c = None) (loc g t)) by (unfold loc; rewrite <- E; exact F).
    rewrite (read_at_eq o keq n p g t empty_file P); [|unfold loc; rewrite <- E; discriminate|exact F'].
    rewrite empty_walk by (unfold loc; rewrite <- E; discriminate). reflexivity.
Qed.

(** ** contains, del *)
Lemma in_eq p g t s : process_path p = Ok (g, t) -> Forall (fun c => name_err c = None) (loc g t) ->
  h5_in s (posix_join g [t]) = Ok (match walk (hp s) 0 (loc g t) with Some _ => true | None => false end).
Proof.
  intros P F. destruct (loc_name_err _ _ _ P F) as (N1 & _). unfold h5_in, get_obj. rewrite N1. cbn [gets snd bindr]. unfold start_of, loc.
  destruct (isabs _); reflexivity.
Qed.
Lemma unlink_eq s name : name_err name = None -> unlink 0 name s = 
  match rev (path_comps name) with
  | [] => (s, Err KeyError)
  | k :: r => match walk (hp s) 0 (rev r) with
              | Some g => match lookup (hp s) g k with
                          | Some _ => (set_hp s (rm_link (hp s) g k), Ok tt)
                          | None => (s, Err KeyError)
                          end
              | None => (s, Err KeyError)
              end
  end.
Proof.
  intros N. unfold unlink. rewrite N. unfold start_of. replace (if isabs name then 0 else 0) with 0 by (destruct (isabs name); reflexivity).
  apply unlink_at_eq.
Qed.
Lemma rm_walk h n init g k : tree h n -> walk h 0 init = Some g -> is_group h g = true -> forall qs,
  (pre (init ++ [k]) qs -> walk (rm_link h g k) 0 qs = None) /\ (~ pre (init ++ [k]) qs -> walk (rm_link h g k) 0 qs = walk h 0 qs).
Proof.
  intros T Hw G. apply (rev_ind (fun qs => (pre (init ++ [k]) qs -> walk (rm_link h g k) 0 qs = None) /\
    (~ pre (init ++ [k]) qs -> walk (rm_link h g k) 0 qs = walk h 0 qs))).
  - split; [|reflexivity]. intros [x X]. destruct init; discriminate.
  - intros c qs [I1 I2]. rewrite !walk_snoc. split.
    + intros P. destruct (pre_snoc_inv _ _ _ P) as [Q|Q]; [rewrite I1 by exact Q; reflexivity|].
      apply app_inj_tail in Q. destruct Q as [<- <-]. rewrite I2.
      * rewrite Hw, (rm_lookup h g k). rewrite Nat.eqb_refl, eqb_str_refl. reflexivity.
      * intros P2. apply pre_len in P2. rewrite app_length in P2. cbn in P2. lia.
    + intros P. assert (NQ : ~ pre (init ++ [k]) qs) by (intros Q; apply P; eapply pre_trans; [exact Q|apply pre_app]).
      rewrite I2 by exact NQ. destruct (walk h 0 qs) as [j|] eqn:E; [|reflexivity]. rewrite (rm_lookup h g k).
      destruct (Nat.eqb_spec j g) as [->|]; [|reflexivity]. destruct (eqb_str_spec c k) as [->|]; [|reflexivity]. exfalso. apply P.
      rewrite <- (walk_root_name _ _ _ _ T E), (walk_root_name _ _ _ _ T Hw). apply pre_refl.
Qed.

Lemma contains_iff p cs s : valid_path p -> denotes p cs ->
  file_contains (mkFile true s) p = (mkFile true s, Ok (match walk (hp s) 0 cs with Some _ => true | None => false end)).
Proof.
  intros V D. pose proof (V _ D) as F. destruct D as (g & t & P & ->). unfold file_contains. rewrite P. cbn [fl_open fl_st].
  rewrite (in_eq p g t s P F). reflexivity.
Qed.
Lemma denotes_fun p a b : denotes p a -> denotes p b -> a = b.
Proof. intros (g & t & P & ->) (g' & t' & P' & ->). congruence. Qed.
Lemma del_spec : forall s n p cs, tree (hp s) n -> valid_path p -> denotes p cs ->
  (walk (hp s) 0 cs = None \/ cs = [] -> file_del (mkFile true s) p = (mkFile true s, Err KeyError)) /\
  (walk (hp s) 0 cs <> None -> cs <> [] ->
     exists s', file_del (mkFile true s) p = (mkFile true s', Ok tt) /\
     forall qs, walk (hp s') 0 qs <> None <-> walk (hp s) 0 qs <> None /\ ~ pre cs qs).
Proof.
  intros s n p cs T V D. pose proof (V _ D) as F. destruct D as (g & t & P & ->). destruct (loc_name_err _ _ _ P F) as (N1 & _).
  unfold file_del. rewrite P. cbn [fl_open fl_st]. rewrite (unlink_eq s _ N1).
  destruct (snoc_cases (path_comps (posix_join g [t]))) as [X|(init & x & X)]; rewrite X in *.
  - split; [reflexivity|congruence].
  - rewrite rev_app_distr. cbn [rev app]. rewrite rev_involutive, walk_snoc. split.
    + intros [H|H]; [|destruct init; discriminate]. destruct (walk (hp s) 0 init); [|reflexivity]. rewrite H. reflexivity.
    + intros H _. destruct (walk (hp s) 0 init) as [i|] eqn:Hw; [|congruence]. destruct (lookup (hp s) i x) eqn:L; [|congruence].
      eexists. split; [reflexivity|]. cbn [hp set_hp]. pose proof (lookup_group _ _ _ _ L) as G. intros qs.
      destruct (rm_walk _ _ init i x T Hw G qs) as [R1 R2]. split.
      * intros H1. assert (NP : ~ pre (init ++ [x]) qs) by (intros Q; apply H1; auto). rewrite R2 in H1 by exact NP. auto.
      * intros [H1 H2]. rewrite R2; auto.
Qed.

(** ** len and iteration *)
Lemma dirname_top k : noslash k -> dirname (fslash :: k) = [fslash].
Proof. intros H. exact (proj1 (dir_base_slashes 0 k H)). Qed.
Lemma comps_top k : clean k -> path_comps (fslash :: k) = [k].
Proof. intros C. rewrite slash_comps. apply (comps_clean k C). Qed.
Lemma dropwhile_none {A} (p : A -> bool) l : (forall x, In x l -> p x = false) -> dropwhile p l = l.
Proof. destruct l; [reflexivity|]. intros H. cbn. rewrite H by (left; reflexivity). reflexivity. Qed.
Lemma dropwhile_notin {A} (p : A -> bool) a l : p a = true -> ~ In a (dropwhile p l) -> (forall x, p x = true -> x = a) -> NoDup l ->
  dropwhile p l = filter (fun x => negb (p x)) l.
Proof.
  intros Pa H U. induction l as [|x l IH]; [reflexivity|]. intros ND. inversion ND as [|? ? N1 N2]; subst. cbn in *. destruct (p x) eqn:E; cbn [negb].
  - auto.
  - f_equal. symmetry. rewrite filter_ext_in with (g := fun _ => true); [clear; induction l; cbn; congruence|].
    intros y Hy. destruct (p y) eqn:Ey; [|reflexivity]. apply U in Ey. subst y. exfalso. apply H. right. exact Hy.
Qed.
Lemma filter_len {A} (p : A -> bool) a l : p a = true -> (forall x, p x = true -> x = a) -> NoDup l -> In a l ->
  length (filter (fun x => negb (p x)) l) = length l - 1.
Proof.
  intros Pa U. induction l as [|x l IH]; [intros _ []|]. intros ND. inversion ND as [|? ? N1 N2]; subst. intros H. cbn. destruct (p x) eqn:E; cbn [negb].
  - apply U in E. subst x. rewrite filter_ext_in with (g := fun _ => true); [|intros y Hy; destruct (p y) eqn:Ey; [apply U in Ey; congruence|reflexivity]].
    replace (length l - 0) with (length l) by lia. clear; induction l; cbn; congruence.
  - destruct H as [->|H]; [congruence|]. cbn. rewrite IH by assumption. destruct l; [destruct H|]. cbn. lia.
Qed.
Lemma process_str_plain name : clean name -> process_path (PStr name) = Ok ([fslash], name).
Proof.
  intros Cn. unfold process_path. cbn [path_string bindr]. f_equal. unfold split_path. destruct Cn as (C1 & C2 & C3).
  assert (NP : normpath name = name).
  { rewrite normpath_eq by exact C1. assert (IA : isabs name = false) by (apply starts_noslash; exact C3).
    unfold resolve. rewrite (initial_rel _ IA), (split_noslash name C3). cbn [Nat.eqb negb repeat app].
    assert (R1 : norm_comps false [] [name] = [name]).
    { cbn [norm_comps]. destruct (eqb_str_spec name []); [congruence|]. destruct (eqb_str_spec name s_dot); [congruence|]. cbn [orb].
      rewrite Bool.andb_true_r, Bool.orb_true_r. reflexivity. }
    rewrite R1. cbn. destruct name; [congruence|reflexivity]. }
  rewrite NP. destruct (dir_base_rel name C3) as [-> ->]. destruct name; [congruence|reflexivity].
Qed.
Lemma iter_len : forall refs s o k, reachable refs s -> o_refs o = refs -> refs = fslash :: k -> plain_link k -> name_err k = None ->
  exists l n, snd (file_iter o (mkFile true s)) = Ok l /\ snd (file_len o (mkFile true s)) = Ok n /\ NoDup l /\
  (n = length l <-> ~ In k l) /\
  forall name, name <> k -> plain_link name -> name_err name = None ->
    (In name l <-> snd (file_contains (mkFile true s) (PStr name)) = Ok true).
Proof.
  intros refs s o k HR Ho Hk PK NK. assert (Ck : clean k) by (destruct PK as (A & B & C); exact (conj A (conj B C))).
  assert (GR : good_refs refs) by (rewrite Hk; split; [reflexivity|rewrite comps_top by exact Ck; discriminate]).
  pose proof (w_tree _ _ (reachable_wf refs s GR HR o Ho)) as T. destruct (t_keys _ _ T 0) as [ND CL].
  assert (NE : name_err (fslash :: k) = None).
  { apply name_err_iff. split; [discriminate|]. constructor; [apply okch_slash|]. apply name_err_iff in NK. apply NK. }
  unfold file_iter, file_len. cbn [snd fl_open fl_st]. rewrite Ho, Hk, (dirname_top k) by apply Ck. cbn [tl].
  change (eqb_str [fslash] [fslash]) with true. rewrite Bool.andb_true_r.
  assert (HI : h5_in s (fslash :: k) = Ok (match lookup (hp s) 0 k with Some _ => true | None => false end)).
  { unfold h5_in, get_obj. rewrite NE. cbn [gets snd bindr]. unfold start_of. cbn [isabs starts_slash]. change (fslash =? fslash)%N with true. cbn iota.
    rewrite comps_top by exact Ck. cbn [walk]. destruct (lookup (hp s) 0 k); reflexivity. }
  set (names := map fst (links (hp s) 0)) in *. set (ps := eqb_str k).
  assert (Pk : ps k = true) by apply eqb_str_refl. assert (U : forall x, ps x = true -> x = k) by (intros x E; apply eqb_str_eq in E; auto).
  assert (LN : length (links (hp s) 0) = length names) by (unfold names; rewrite map_length; reflexivity).
  assert (INK : (exists j, lookup (hp s) 0 k = Some j) <-> In k names).
  { unfold lookup. split.
    - intros [j E]. apply assoc_In in E. apply (in_map fst) in E. exact E.
    - intros H. destruct (assoc k (links (hp s) 0)) eqn:E; [eauto|]. apply assoc_None in E. contradiction. }
  exists (dropwhile ps names). rewrite LN.
  assert (LEN : (if negb (length names =? 0) then do b <- h5_in s (fslash :: k); Ok (if b then length names - 1 else length names) else Ok (length names))
     = Ok (if existsb ps names then length names - 1 else length names)).
  { rewrite HI. cbn [bindr]. destruct names as [|x names'] eqn:EN; [reflexivity|]. cbn [length Nat.eqb negb]. f_equal.
    destruct (lookup (hp s) 0 k) eqn:E.
    - assert (existsb ps (x :: names') = true) as ->; [|reflexivity]. apply existsb_exists. exists k. split; [apply INK; eauto|exact Pk].
    - destruct (existsb ps (x :: names')) eqn:X; [|reflexivity]. apply existsb_exists in X. destruct X as (y & Y1 & Y2). apply U in Y2. subst y.
      apply INK in Y1. destruct Y1 as [j Y1]. congruence. }
  eexists. split; [reflexivity|]. split; [exact LEN|].
  assert (SUB : exists hd_, names = hd_ ++ dropwhile ps names /\ Forall (fun x => ps x = true) hd_).
  { clear. induction names as [|x l IH]; [exists []; auto|]. cbn. destruct (ps x) eqn:E; [|exists []; auto]. destruct IH as (h & E1 & E2).
    exists (x :: h). split; [cbn; congruence|constructor; auto]. }
  destruct SUB as (h0 & S1 & S2).
  assert (ND2 : NoDup (dropwhile ps names)) by (rewrite S1 in ND; revert ND; clear; induction h0 as [|x h0 IH]; [auto|]; cbn; intros ND; inversion ND; auto).
  split; [exact ND2|]. split.
  - destruct (existsb ps names) eqn:X.
    + assert (Kin : In k names) by (apply existsb_exists in X; destruct X as (y & Y1 & Y2); apply U in Y2; subst y; exact Y1). split.
      * intros E Hin. destruct h0 as [|a h0].
        { cbn in S1. rewrite <- S1 in E. destruct names; [destruct Kin|]. cbn in E. lia. }
        inversion S2 as [|? ? S3 S4]; subst. apply U in S3. subst a. rewrite S1 in ND. cbn in ND. inversion ND as [|? ? N1 N2]. apply N1. apply in_or_app. right. exact Hin.
      * intros H. rewrite (dropwhile_notin ps k names Pk H U ND). symmetry. apply (filter_len ps k); auto.
    + assert (KN : ~ In k names) by (intros Y; assert (existsb ps names = true) by (apply existsb_exists; exists k; auto); congruence).
      rewrite dropwhile_none; [split; [intros _ Y; contradiction|reflexivity]|]. intros x Hx. destruct (ps x) eqn:Ex; [|reflexivity].
      apply U in Ex. subst x. contradiction.
  - intros name N1 N2 N3. assert (Cn : clean name) by (destruct N2 as (A & B & C); exact (conj A (conj B C))).
    assert (P : process_path (PStr name) = Ok ([fslash], name)) by (apply process_str_plain; exact Cn).
    assert (L : loc [fslash] name = [name]) by (rewrite (loc_eq _ _ _ P); rewrite (proj1 (comps_clean name Cn)); reflexivity).
    assert (D : denotes (PStr name) [name]) by (exists [fslash], name; split; [exact P|symmetry; exact L]).
    rewrite (contains_iff (PStr name) [name] s); [|intros cs D'; rewrite <- (denotes_fun _ _ _ D D'); repeat constructor; exact N3|exact D].
    cbn [snd walk]. assert (IN : In name (dropwhile ps names) <-> In name names).
    { split; [intros H; rewrite S1; apply in_or_app; auto|]. intros H. rewrite S1 in H. apply in_app_or in H. destruct H as [H|H]; [|exact H].
      rewrite Forall_forall in S2. apply S2, U in H. contradiction. }
    rewrite IN. unfold names, lookup. split.
    + intros H. destruct (assoc name (links (hp s) 0)) eqn:E; [reflexivity|]. apply assoc_None in E. contradiction.
    + intros H. destruct (assoc name (links (hp s) 0)) eqn:E; [|discriminate]. apply assoc_In in E. apply (in_map fst) in E. exact E.
Qed.

(** ** closed files *)
Lemma mapr_all {A B} (f : A -> res B) l : (forall x, In x l -> exists b, f x = Ok b) -> exists m, mapr f l = Ok m.
Proof.
  induction l as [|x l IH]; intros H; [exists []; reflexivity|]. cbn [mapr]. destruct (H x (or_introl eq_refl)) as [b ->]. cbn [bindr].
  destruct IH as [m ->]; [intros y Hy; apply H; right; exact Hy|]. eexists. reflexivity.
Qed.
Lemma check_accepts o p cs : isabs (o_refs o) = true -> denotes p cs -> ~ same_top cs (refs_path o) -> exists gt, check_path o p = Ok gt.
Proof.
  intros A (g & t & P & ->) NS. exists (g, t). apply check_path_iff; [exact A|]. split; [exact P|].
  unfold apart, rp, loc. fold (refs_path o). destruct (refs_path o) as [|b r2] eqn:E1; [auto|]. destruct (path_comps (posix_join g [t])) as [|a r1] eqn:E2; [auto|].
  right. right. exists a, b, r1, r2. split; [reflexivity|]. split; [reflexivity|]. intros ->. apply NS. exists b, r1, r2. auto.
Qed.
Lemma closed_call o rnd tries n keq c f : isabs (o_refs o) = true -> fl_open f = false ->
  fst (do_call o rnd tries n keq c f) = f /\ closed_answer o c (snd (do_call o rnd tries n keq c f)).
Proof.
  intros A C. destruct f as [b s]. cbn in C. subst b. destruct c; cbn [do_call closed_answer]; unfold map_res.
  - unfold file_writes. destruct (mapr _ mdict) as [l|e] eqn:E; cbn [fl_open fst snd].
    + split; [reflexivity|]. split; [eauto|]. reflexivity.
    + split; [reflexivity|]. split; [eauto|]. intros H. exfalso.
      destruct (mapr_all (fun pv : pypath * pyval => do gt <- check_path o (fst pv); Ok (gt, snd pv)) mdict) as [m M]; [|congruence].
      intros [p v] Hx. destruct (H p v Hx) as (cs & D & NS). destruct (check_accepts o p cs A D NS) as [gt E']. cbn [fst snd]. rewrite E'. eexists. reflexivity.
  - unfold file_reads. cbn [fl_open fst snd]. destruct (mapr (check_path o) paths) as [l|e] eqn:E; cbn [bindr].
    + split; [reflexivity|]. split; [eauto|]. reflexivity.
    + split; [reflexivity|]. split; [eauto|]. intros H. exfalso. destruct (mapr_all (check_path o) paths) as [m M]; [|congruence].
      intros p Hx. destruct (H p Hx) as (cs & D & NS). exact (check_accepts o p cs A D NS).
  - split; reflexivity.
  - unfold file_contains. cbn [fst snd fl_open]. split; [reflexivity|]. destruct (process_path p) as [[g t]|[]]; reflexivity.
  - split; reflexivity.
  - unfold file_del. cbn [fl_open]. destruct (process_path p) as [[g t]|e]; split; reflexivity.
  - split; reflexivity.
  - split; reflexivity.
Qed.
Lemma closed_calls : forall o rnd tries n keq cs f, isabs (o_refs o) = true -> fl_open f = false ->
  fst (do_calls o rnd tries n keq cs f) = f /\ Forall2 (closed_answer o) cs (snd (do_calls o rnd tries n keq cs f)).
Proof.
  intros o rnd tries n keq cs f A C. induction cs as [|c cs IH]; cbn [do_calls]; [split; [reflexivity|constructor]|].
  destruct (closed_call o rnd tries n keq c f A C) as [E1 E2]. destruct (do_call o rnd tries n keq c f) as [f1 a]. cbn [fst snd] in *. subst f1.
  destruct (do_calls o rnd tries n keq cs f) as [f2 l]. cbn [fst snd] in *. destruct IH as [E3 E4]. split; [exact E3|constructor; assumption].
Qed.

(** ** other data *)
Lemma writes_elsewhere : forall refs s o rnd tries n mdict f' r ro keq m q,
  good_refs refs -> reachable refs s -> usable refs o -> o_refs ro = refs -> valid_path q ->
  (forall p v cs qs, In (p, v) mdict -> denotes p cs -> denotes q qs -> cs <> [] /\ ~ overlap cs qs) ->
  file_writes o rnd tries n (mkFile true s) mdict = (f', r) ->
  snd (file_read ro m keq f' q) = snd (file_read ro m keq (mkFile true s) q) /\
  ((forall qs, denotes q qs -> ~ same_top qs (path_comps refs)) -> snd (file_contains f' q) = snd (file_contains (mkFile true s) q)).
Proof.
  intros refs s o rnd tries n mdict f' r ro keq m q GR HR (U1 & U2 & U3) Hro V NO E.
  destruct (process_path q) as [[g t]|e] eqn:P.
  2: { unfold file_read, file_reads, file_contains, check_path. cbn [mapr snd bindr]. rewrite P. cbn. auto. }
  assert (DQ : denotes q (loc g t)) by (exists g, t; auto).
  pose proof (reachable_wf refs s GR HR o U1) as W.
  destruct mdict as [|[p v] rest]; [injection E as <- <-; auto|]. set (mdict := (p, v) :: rest) in *.
  destruct (process_path p) as [[gp tp]|e] eqn:Pp.
  2: { destruct (writes_refused o rnd tries n (mkFile true s) mdict p v) as [e' E']; [left; reflexivity|left; eauto|]. rewrite E' in E. injection E as <- <-. auto. }
  assert (NZ : loc g t <> []).
  { intros Z. destruct (NO p v (loc gp tp) (loc g t) (or_introl eq_refl)) as [_ O]; [exists gp, tp; auto|exact DQ|]. apply O. right. rewrite Z. exists (loc gp tp). reflexivity. }
  destruct (writes_cases o rnd tries n s mdict f' r) as (W' & OP & F); auto.
  { rewrite U1. exact GR. }
  { intros p' v' Hx D. destruct (NO p' v' [] (loc g t) Hx D DQ) as [X _]. congruence. }
  destruct f' as [b s']. cbn [fl_open fl_st] in *. subst b.
  assert (OFF : off o (fun p0 => exists q v cs, In (q, v) mdict /\ denotes q cs /\ apart o cs /\ onway cs p0) (loc g t)).
  { split.
    - intros p0 Hp (q' & v' & cs & I & D & A & ON). destruct (NO q' v' cs (loc g t) I D DQ) as [_ O].
      destruct (onway_off o cs (loc g t) A) as [X _]; [intros Y; apply O; left; exact Y|intros Y; apply O; right; exact Y|]. exact (X p0 Hp ON).
    - intros k p0 Hp (q' & v' & cs & I & D & A & ON). destruct (NO q' v' cs (loc g t) I D DQ) as [_ O].
      destruct (onway_off o cs (loc g t) A) as [_ X]; [intros Y; apply O; left; exact Y|intros Y; apply O; right; exact Y|]. exact (X k p0 Hp ON). }
  assert (VT : valid_target q).
  { intros g' t' P'. assert (g' = g /\ t' = t) as [-> ->] by (split; congruence). apply (loc_name_err _ _ _ P (V _ DQ)). exact NZ. }
  split.
  - eapply (read_elsewhere o rnd); try eassumption; [rewrite U1; exact GR|congruence|].
    intros qs D. rewrite (denotes_fun _ _ _ D DQ). auto.
  - intros NS. rewrite !(contains_iff q (loc g t)) by assumption. cbn [snd].
    rewrite (frame_walk o rnd _ s s' (loc g t) W W' F); [reflexivity|apply OFF; apply pre_refl|].
    specialize (NS _ DQ). unfold apart, rp. rewrite U1. destruct GR as [_ GR]. destruct (path_comps refs) as [|b r2]; [congruence|].
    destruct (loc g t) as [|a r1]; [congruence|]. exists a, b, r1, r2. split; [reflexivity|]. split; [reflexivity|]. intros ->. apply NS. exists b, r1, r2. auto.
Qed.
Lemma cut_elsewhere : forall refs s o rnd tries n mdict s' ro keq m q,
  good_refs refs -> reachable refs s -> usable refs o -> o_refs ro = refs -> valid_path q ->
  (forall p v cs qs, In (p, v) mdict -> denotes p cs -> denotes q qs -> cs <> [] /\ ~ overlap cs qs) ->
  cut_states o rnd tries n (mkFile true s) mdict s' ->
  snd (file_read ro m keq (mkFile true s') q) = snd (file_read ro m keq (mkFile true s) q) /\
  ((forall qs, denotes q qs -> ~ same_top qs (path_comps refs)) -> snd (file_contains (mkFile true s') q) = snd (file_contains (mkFile true s) q)).
Proof.
  intros refs s o rnd tries n mdict s' ro keq m q GR HR (U1 & U2 & U3) Hro V NO E.
  destruct (process_path q) as [[g t]|e] eqn:P.
  2: { unfold file_read, file_reads, file_contains, check_path. cbn [mapr snd bindr]. rewrite P. cbn. auto. }
  assert (DQ : denotes q (loc g t)) by (exists g, t; auto).
  pose proof (reachable_wf refs s GR HR o U1) as W.
  destruct mdict as [|[p v] rest]; [destruct E as [->|[]]; auto|]. set (mdict := (p, v) :: rest) in *.
  destruct (process_path p) as [[gp tp]|e] eqn:Pp.
  2: { destruct E as [->|E]; [auto|]. unfold file_writesT, mdict in E. cbn [mapr fst snd] in E. unfold check_path in E. rewrite Pp in E. destruct E. }
  assert (NZ : loc g t <> []).
  { intros Z. destruct (NO p v (loc gp tp) (loc g t) (or_introl eq_refl)) as [_ O]; [exists gp, tp; auto|exact DQ|]. apply O. right. rewrite Z. exists (loc gp tp). reflexivity. }
  destruct (cut_cases o rnd tries n s mdict s') as ([W' _] & F); auto.
  { rewrite U1. exact GR. }
  { intros p' v' Hx D. destruct (NO p' v' [] (loc g t) Hx D DQ) as [X _]. congruence. }
  assert (OFF : off o (fun p0 => exists q v cs, In (q, v) mdict /\ denotes q cs /\ apart o cs /\ onway cs p0) (loc g t)).
  { split.
    - intros p0 Hp (q' & v' & cs & I & D & A & ON). destruct (NO q' v' cs (loc g t) I D DQ) as [_ O].
      destruct (onway_off o cs (loc g t) A) as [X _]; [intros Y; apply O; left; exact Y|intros Y; apply O; right; exact Y|]. exact (X p0 Hp ON).
    - intros k p0 Hp (q' & v' & cs & I & D & A & ON). destruct (NO q' v' cs (loc g t) I D DQ) as [_ O].
      destruct (onway_off o cs (loc g t) A) as [_ X]; [intros Y; apply O; left; exact Y|intros Y; apply O; right; exact Y|]. exact (X k p0 Hp ON). }
  assert (VT : valid_target q).
  { intros g' t' P'. assert (g' = g /\ t' = t) as [-> ->] by (split; congruence). apply (loc_name_err _ _ _ P (V _ DQ)). exact NZ. }
  split.
  - eapply (read_elsewhere_t o rnd); try eassumption; [rewrite U1; exact GR|congruence|].
    intros qs D. rewrite (denotes_fun _ _ _ D DQ). auto.
  - intros NS. rewrite !(contains_iff q (loc g t)) by assumption. cbn [snd].
    rewrite (frame_walk_t o rnd _ s s' (loc g t) W W' F); [reflexivity|apply OFF; apply pre_refl|].
    specialize (NS _ DQ). unfold apart, rp. rewrite U1. destruct GR as [_ GR]. destruct (path_comps refs) as [|b r2]; [congruence|].
    destruct (loc g t) as [|a r1]; [congruence|]. exists a, b, r1, r2. split; [reflexivity|]. split; [reflexivity|]. intros ->. apply NS. exists b, r1, r2. auto.
Qed.
Lemma del_elsewhere : forall refs s p f' r ro keq m q,
  good_refs refs -> reachable refs s -> o_refs ro = refs -> valid_path q ->
  (forall cs, denotes p cs -> ~ overlap cs (path_comps refs)) ->
  (forall cs qs, denotes p cs -> denotes q qs -> ~ overlap cs qs) ->
  file_del (mkFile true s) p = (f', r) ->
  snd (file_read ro m keq f' q) = snd (file_read ro m keq (mkFile true s) q).
Proof.
  intros refs s p f' r ro keq m q GR HR Hro V NR NO E.
  destruct (process_path q) as [[g t]|e] eqn:P; [|unfold file_read, file_reads, check_path; cbn [mapr snd bindr]; rewrite P; reflexivity].
  assert (DQ : denotes q (loc g t)) by (exists g, t; auto). pose proof (reachable_wf refs s GR HR ro Hro) as W.
  unfold file_del in E. destruct (process_path p) as [[gp tp]|e] eqn:Pp; [|injection E as <- <-; reflexivity]. cbn [fl_open fl_st] in E.
  assert (DP : denotes p (loc gp tp)) by (exists gp, tp; auto).
  assert (NZ : loc g t <> []).
  { intros Z. apply (NO _ _ DP DQ). right. rewrite Z. exists (loc gp tp). reflexivity. }
  assert (N2 : ~ overlap (path_comps (posix_join gp [tp])) (rp ro)) by (unfold rp; rewrite Hro; apply NR; exact DP).
  pose proof (del_keeps ro (fun _ => 0%N) s (posix_join gp [tp]) W N2) as K. destruct (unlink 0 (posix_join gp [tp]) s) as [s' r'].
  injection E as <- <-. destruct K as (W' & F & _). cbn [fst] in *.
  eapply (read_elsewhere ro (fun _ => 0%N)); try eassumption; [rewrite Hro; exact GR|reflexivity| |].
  { intros g' t' P'. assert (g' = g /\ t' = t) as [-> ->] by (split; congruence). apply (loc_name_err _ _ _ P (V _ DQ)). exact NZ. }
  intros qs D. rewrite (denotes_fun _ _ _ D DQ). split; [exact NZ|]. intros A. specialize (NO _ _ DP DQ). fold (loc gp tp) in *. split.
  - intros p0 H1 H2. destruct (pre_cmp _ _ _ H1 H2) as [Y|Y]; apply NO; [right|left]; exact Y.
  - intros k p0 H1 H2. apply N2. destruct (pre_cmp _ _ _ H1 H2) as [Y|Y].
    + right. eapply pre_trans; [|exact Y]. apply pre_app.
    + destruct (pre_snoc_inv _ _ _ Y) as [Z|Z]; [left; exact Z|right; rewrite Z; apply pre_app].
Qed.
Lemma read_missing : forall o n keq s p cs, isabs (o_refs o) = true -> valid_path p -> denotes p cs -> ~ same_top cs (refs_path o) ->
  snd (file_contains (mkFile true s) p) = Ok false -> file_read o n keq (mkFile true s) p = (mkFile true s, Err KeyError).
Proof.
  intros o n keq s p cs A V D NS H. destruct (check_accepts o p cs A D NS) as [[g t] C]. pose proof (V _ D) as F.
  rewrite (contains_iff p cs s V D) in H. cbn [snd] in H. apply check_path_iff in C; [|exact A]. destruct C as [P C].
  assert (E : cs = loc g t) by (destruct D as (g' & t' & P' & ->); unfold loc; congruence). subst cs.
  unfold file_read, file_reads. cbn [mapr snd fl_open fl_st]. rewrite (proj2 (check_path_iff o p g t A) (conj P C)). cbn [bindr mapr fst snd].
  rewrite (read_at_eq o keq n p g t s P); [|intros Z; rewrite Z in H; discriminate|exact F]. destruct (walk (hp s) 0 (loc g t)); [discriminate|reflexivity].
Qed.
Lemma del_contains : forall refs s p cs, good_refs refs -> reachable refs s -> valid_path p -> denotes p cs ->
  (snd (file_contains (mkFile true s) p) = Ok false \/ cs = [] -> file_del (mkFile true s) p = (mkFile true s, Err KeyError)) /\
  (snd (file_contains (mkFile true s) p) = Ok true -> cs <> [] ->
     exists f', file_del (mkFile true s) p = (f', Ok tt) /\ fl_open f' = true /\
     forall q qs, valid_path q -> denotes q qs ->
       (snd (file_contains f' q) = Ok true <-> snd (file_contains (mkFile true s) q) = Ok true /\ ~ pre cs qs)).
Proof.
  intros refs s p cs GR HR V D. set (o := upd_str default_options GroupForReferences refs).
  pose proof (w_tree _ _ (reachable_wf refs s GR HR o eq_refl)) as T. destruct (del_spec s _ p cs T V D) as [D1 D2].
  rewrite (contains_iff p cs s V D). cbn [snd]. split.
  - intros [H|H]; apply D1; [left|auto]. destruct (walk (hp s) 0 cs); [discriminate|reflexivity].
  - intros H NZ. destruct D2 as (s' & E & W); [|exact NZ|]. { destruct (walk (hp s) 0 cs); discriminate. }
    exists (mkFile true s'). split; [exact E|]. split; [reflexivity|]. intros q qs Vq Dq. rewrite !(contains_iff q qs) by assumption. cbn [snd].
    specialize (W qs). destruct (walk (hp s') 0 qs), (walk (hp s) 0 qs).
    + split; [intros _; split; [reflexivity|]; apply W; discriminate|reflexivity].
    + split; [intros _; exfalso; destruct W as [W _]; destruct W as [W _]; [discriminate|congruence]|intros [X _]; discriminate].
    + split; [discriminate|]. intros [_ X]. destruct W as [_ W]. exfalso. apply W; [|reflexivity]. split; [discriminate|exact X].
    + split; [discriminate|]. intros [X _]. discriminate.
Qed.
Lemma do_calls_app o rnd tries n keq a b f : fst (do_calls o rnd tries n keq (a ++ b) f) = fst (do_calls o rnd tries n keq b (fst (do_calls o rnd tries n keq a f))).
Proof.
  revert f; induction a as [|c a IH]; intros f; [reflexivity|]. cbn [do_calls app]. destruct (do_call o rnd tries n keq c f) as [f1 x]. specialize (IH f1).
  destruct (do_calls o rnd tries n keq (a ++ b) f1), (do_calls o rnd tries n keq a f1). exact IH.
Qed.
Lemma closed_forever : forall o rnd tries n keq before after f, isabs (o_refs o) = true ->
  let f1 := fst (do_calls o rnd tries n keq (before ++ [KClose]) f) in
  fst (do_calls o rnd tries n keq after f1) = f1 /\ fl_open f1 = false /\
  fl_st f1 = fl_st (fst (do_calls o rnd tries n keq before f)) /\
  Forall2 (closed_answer o) after (snd (do_calls o rnd tries n keq after f1)).
Proof.
  intros o rnd tries n keq before after f A f1. unfold f1. rewrite do_calls_app. set (f0 := fst (do_calls o rnd tries n keq before f)).
  assert (C : fst (do_calls o rnd tries n keq [KClose] f0) = mkFile false (fl_st f0)) by reflexivity. rewrite C.
  destruct (closed_calls o rnd tries n keq after (mkFile false (fl_st f0)) A eq_refl) as [H1 H2]. auto.
Qed.
