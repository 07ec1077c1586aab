(** The methods inherited from MutableMapping. *)
From Verif Require Import Base PathEsc PosixPath PosixFacts ProcessPath ProcessPathFacts Unicode MColl Dec NdArray Value OptionsM StrConv Attrs Hdf5 HeapFacts NpWrite MarshalW MarshalR FrameFacts WriteFrame ReadFacts FileApi ApiFacts ApiSpec HistoryFacts FileFacts FilterSpec FilterFacts MapM MapSpec OpenM.
Local Open Scope nat_scope.

(** the names in the root other than the references group [k], and how iterating gives them *)
Lemma names_exact : forall refs s o k, reachable refs s -> o_refs o = refs -> refs = fslash :: k -> plain_link k -> name_err k = None ->
  exists l, NoDup l /\ snd (file_len o (mkFile true s)) = Ok (length l) /\
  (forall name, In name l <-> name_in k (mkFile true s) name) /\
  (snd (file_iter o (mkFile true s)) = Ok l \/
   exists a b, l = a ++ b /\ a <> [] /\ snd (file_iter o (mkFile true s)) = Ok (a ++ k :: b)).
Proof.
  intros refs s o k HR Ho Hk PK NK. destruct (iter_len_exact refs s o k HR Ho Hk PK NK) as (L & n & HI & HL & ND & HN & HC).
  destruct (in_dec (list_eq_dec N.eq_dec) k L) as [IN|NI].
  - apply List.in_split in IN. destruct IN as (a & b & ->).
    assert (NDab : NoDup (a ++ b) /\ ~ In k (a ++ b)) by (apply NoDup_remove in ND; exact ND). destruct NDab as [ND1 ND2].
    assert (HA : a <> []).
    { intros ->. cbn [app] in *. unfold file_iter in HI. cbn [snd fl_open fl_st] in HI. injection HI as HI. rewrite Ho, Hk in HI.
      rewrite dirname_top in HI by apply PK. change (eqb_str [fslash] [fslash]) with true in HI. cbn [tl] in HI. cbn iota in HI.
      revert HI. clear. induction (map fst (Hdf5.links (hp s) 0)) as [|x l IH]; [discriminate|]. cbn [dropwhile]. destruct (eqb_str k x) eqn:E; [exact IH|].
      intros [= -> _]. rewrite eqb_str_refl in E. discriminate. }
    exists (a ++ b). split; [exact ND1|]. split.
    + rewrite HL. f_equal. unfold file_iter, file_len in *. cbn [snd fl_open fl_st] in HI, HL. rewrite Ho, Hk in HI, HL.
      rewrite dirname_top in HI, HL by apply PK. change (eqb_str [fslash] [fslash]) with true in HI, HL. cbn [tl] in HI. cbn iota in HI. rewrite Bool.andb_true_r in HL.
      assert (DW : forall l, dropwhile (eqb_str k) l = a ++ k :: b -> length l = length (a ++ k :: b) \/ exists j r, l = j ++ k :: r /\ r = a ++ k :: b).
      { clear - HA. intros l. induction l as [|x l IH]; [cbn; destruct a; discriminate|]. cbn [dropwhile]. destruct (eqb_str_spec k x) as [<-|NE].
        - intros E. right. destruct (IH E) as [X|(j & r & X & Y)]; [|exists (k :: j), r; rewrite X; auto].
          assert (l = a ++ k :: b) as ->; [|exists [], (a ++ k :: b); auto].
          assert (LE : forall m, exists h, m = h ++ dropwhile (eqb_str k) m).
          { clear. intros m. induction m as [|y m [h E]]; [exists []; reflexivity|]. cbn [dropwhile]. destruct (eqb_str k y); [exists (y :: h); cbn; congruence|exists []; reflexivity]. }
          destruct (LE l) as [h Eh]. rewrite E in Eh. rewrite Eh in X. rewrite app_length in X. assert (h = []) by (destruct h; [reflexivity|cbn in X; lia]). subst h. exact Eh.
        - intros ->. left. reflexivity. }
      injection HI as HI. pose proof (DW _ HI) as DW'. rewrite map_length in DW'.
      assert (NDn : NoDup (map fst (Hdf5.links (hp s) 0))).
      { assert (GR : good_refs refs) by (rewrite Hk; split; [reflexivity|rewrite comps_top by exact PK; discriminate]).
        apply (t_keys _ _ (w_tree _ _ (reachable_wf refs s GR HR o Ho)) 0). }
      destruct DW' as [X|(j & r & X & ->)].
      * assert (n <> length (a ++ k :: b)) by (intros Y; apply HN in Y; apply Y; apply in_or_app; right; left; reflexivity).
        rewrite app_length in *. cbn [length] in *. destruct (length (Hdf5.links (hp s) 0) =? 0) eqn:Z; [apply Nat.eqb_eq in Z; lia|]. cbn [negb] in HL.
        destruct (h5_in s (fslash :: k)) as [[]|]; cbn [bindr] in HL; inversion HL; lia.
      * exfalso. rewrite X in NDn. apply NoDup_remove in NDn. destruct NDn as [_ NDn]. apply NDn. apply in_or_app. right. apply in_or_app. right. left. reflexivity.
    + split.
      * intros name. split.
        -- intros H. assert (name <> k) by (intros ->; exact (ND2 H)). split; [assumption|]. apply HC; [assumption|]. apply in_app_or in H. apply in_or_app. cbn. tauto.
        -- intros (H1 & H2). apply HC in H2; [|exact H1]. apply in_app_or in H2. apply in_or_app. cbn in H2. destruct H2 as [H2|[H2|H2]]; [auto|congruence|auto].
      * right. exists a, b. auto.
  - exists L. split; [exact ND|]. split; [rewrite HL; f_equal; apply HN; exact NI|]. split; [|left; exact HI].
    intros name. split; [intros H; assert (name <> k) by (intros ->; exact (NI H)); split; [assumption|]; apply HC; assumption|intros [H1 H2]; apply HC; assumption].
Qed.

Lemma plain_denotes name : plain_link name -> denotes (PStr name) [name].
Proof.
  intros H. assert (Cn : clean name) by exact H. pose proof (process_str_plain name Cn) as P.
  exists [fslash], name. split; [exact P|]. fold (loc [fslash] name). rewrite (loc_eq _ _ _ P), (proj1 (comps_clean name Cn)). reflexivity.
Qed.
Lemma contained_name name s b : plain_link name -> snd (file_contains (mkFile true s) (PStr name)) = Ok b -> name_err name = None.
Proof.
  intros H. pose proof (process_str_plain name H) as P. unfold file_contains. rewrite P. cbn [snd fl_open fl_st]. unfold h5_in, get_obj.
  destruct (name_err (posix_join [fslash] [name])) eqn:E; [discriminate|]. intros _. apply name_err_iff in E. destruct E as [_ E].
  apply name_err_iff. destruct H as (H1 & H2 & H3). split; [exact H1|]. unfold posix_join in E. cbn [fold_left] in E. unfold join_step in E.
  destruct (starts_slash name) eqn:S1; [exact E|]. cbn in E. inversion E; assumption.
Qed.
Lemma plain_valid name s b : plain_link name -> snd (file_contains (mkFile true s) (PStr name)) = Ok b -> valid_path (PStr name).
Proof.
  intros H C cs D. rewrite (denotes_fun _ _ _ D (plain_denotes name H)). repeat constructor. eapply contained_name; eassumption.
Qed.

(** ** deleting *)
Lemma del_without refs s p cs : good_refs refs -> reachable refs s -> valid_path p -> denotes p cs -> cs <> [] -> ~ overlap cs (path_comps refs) ->
  snd (file_contains (mkFile true s) p) = Ok true ->
  exists s', file_del (mkFile true s) p = (mkFile true s', Ok tt) /\ reachable refs s' /\ without refs cs (mkFile true s) (mkFile true s').
Proof.
  intros GR HR V D NZ NO C. destruct (proj2 (del_contains refs s p cs GR HR V D) C NZ) as (f' & E & O & W).
  destruct f' as [b s']. cbn in O. subst b. exists s'. split; [exact E|]. split; [|constructor].
  - refine (R_del refs s p _ _ HR _ E). intros cs' D'. rewrite (denotes_fun _ _ _ D' D). exact NO.
  - reflexivity.
  - exact W.
  - intros ro m keq q qs Hro Vq Dq N. refine (del_elsewhere refs s p _ _ ro keq m q GR HR Hro Vq _ _ E).
    + intros cs' D'. rewrite (denotes_fun _ _ _ D' D). exact NO.
    + intros cs' qs' D' Dq'. rewrite (denotes_fun _ _ _ D' D), (denotes_fun _ _ _ Dq' Dq). exact N.
Qed.
(** a path that is read is in the file *)
Lemma read_contains o n keq s p cs v : isabs (o_refs o) = true -> valid_path p -> denotes p cs ->
  snd (file_read o n keq (mkFile true s) p) = Ok v -> ~ same_top cs (refs_path o) /\ snd (file_contains (mkFile true s) p) = Ok true.
Proof.
  intros A V D R. assert (NS : ~ same_top cs (refs_path o)).
  { intros S. unfold file_read, file_reads in R. cbn [snd mapr] in R. rewrite (check_refuses o p cs D S) in R. discriminate. }
  split; [exact NS|]. destruct (snd (file_contains (mkFile true s) p)) as [[]|e] eqn:C; [reflexivity| |].
  - rewrite (read_missing o n keq s p cs A V D NS C) in R. discriminate.
  - rewrite (contains_iff p cs s V D) in C. discriminate.
Qed.
Lemma same_top_overlap cs k : cs <> [] -> ~ same_top cs [k] -> ~ overlap cs [k].
Proof.
  intros NZ NS [[x E]|[x E]].
  - destruct cs as [|c cs]; [congruence|]. injection E as <- E. apply NS. exists k, cs, []. auto.
  - apply NS. exists k, x, []. auto.
Qed.

(** ** pop *)
Lemma pop_spec refs s o k n keq p cs d : reachable refs s -> o_refs o = refs -> refs = fslash :: k -> plain_link k ->
  valid_path p -> denotes p cs -> cs <> [] ->
  match snd (file_read o n keq (mkFile true s) p) with
  | Ok v => exists f', file_pop o n keq (mkFile true s) p d = (f', Ok v) /\ reachable refs (fl_st f') /\ without refs cs (mkFile true s) f'
  | Err KeyError => file_pop o n keq (mkFile true s) p d = (mkFile true s, match d with Some d => Ok d | None => Err KeyError end)
  | Err e => file_pop o n keq (mkFile true s) p d = (mkFile true s, Err e)
  end.
Proof.
  intros HR Ho Hk PK V D NZ. assert (Ck : path_comps refs = [k]) by (rewrite Hk; apply comps_top; exact PK).
  assert (GR : good_refs refs) by (split; [rewrite Hk; reflexivity|rewrite Ck; discriminate]).
  assert (A : isabs (o_refs o) = true) by (rewrite Ho; apply GR).
  unfold file_pop. change (file_read o n keq (mkFile true s) p) with (mkFile true s, snd (file_read o n keq (mkFile true s) p)).
  cbn [fst]. destruct (snd (file_read o n keq (mkFile true s) p)) as [v|e] eqn:R; [|destruct e; reflexivity].
  destruct (read_contains o n keq s p cs v A V D R) as [NS C].
  assert (NO : ~ overlap cs (path_comps refs)).
  { rewrite Ck. apply same_top_overlap; [exact NZ|]. unfold refs_path in NS. rewrite Ho, Ck in NS. exact NS. }
  destruct (del_without refs s p cs GR HR V D NZ NO C) as (s' & E & R' & W). rewrite E. cbn [bindr]. exists (mkFile true s'). auto.
Qed.
(** ** popitem *)
Lemma popitem_spec refs s o k n keq : reachable refs s -> o_refs o = refs -> refs = fslash :: k -> plain_link k -> name_err k = None ->
  (exists f', snd (file_len o (mkFile true s)) = Ok 0 /\ f' = mkFile true s /\ file_popitem o n keq (mkFile true s) = (f', Err KeyError)) \/
  exists name m, name_in k (mkFile true s) name /\ snd (file_len o (mkFile true s)) = Ok (S m) /\
    match snd (file_read o n keq (mkFile true s) (PStr name)) with
    | Ok v => exists s', file_popitem o n keq (mkFile true s) = (mkFile true s', Ok (name, v)) /\ reachable refs s' /\
                without refs [name] (mkFile true s) (mkFile true s') /\ snd (file_len o (mkFile true s')) = Ok m
    | Err e => file_popitem o n keq (mkFile true s) = (mkFile true s, Err e)
    end.
Proof.
  intros HR Ho Hk PK NK. destruct (names_exact refs s o k HR Ho Hk PK NK) as (l & ND & HL & HC & HI).
  assert (H0 : match l with [] => snd (file_iter o (mkFile true s)) = Ok [] | x :: _ => exists r, snd (file_iter o (mkFile true s)) = Ok (x :: r) end).
  { destruct HI as [HI|(a & b & -> & HA & HI)]; [destruct l; [exact HI|eauto]|]. destruct a; [congruence|]. cbn. eauto. }
  assert (Ck : path_comps refs = [k]) by (rewrite Hk; apply comps_top; exact PK).
  assert (GR : good_refs refs) by (split; [rewrite Hk; reflexivity|rewrite Ck; discriminate]).
  unfold file_popitem. change (file_iter o (mkFile true s)) with (mkFile true s, snd (file_iter o (mkFile true s))). cbn iota.
  destruct l as [|name l].
  - left. eexists. split; [exact HL|]. split; [reflexivity|]. rewrite H0. reflexivity.
  - right. exists name, (length l). assert (HN : name_in k (mkFile true s) name) by (apply HC; left; reflexivity).
    destruct H0 as [r H0]. rewrite H0. split; [exact HN|]. split; [exact HL|].
    change (file_read o n keq (mkFile true s) (PStr name)) with (mkFile true s, snd (file_read o n keq (mkFile true s) (PStr name))). cbn iota.
    cbn [snd]. destruct (snd (file_read o n keq (mkFile true s) (PStr name))) as [v|e]; [|reflexivity].
    destruct HN as (N1 & N2 & N3). pose proof (plain_denotes name N2) as D. pose proof (plain_valid name s true N2 N3) as V.
    assert (NO : ~ overlap [name] (path_comps refs)).
    { rewrite Ck. intros [[x E]|[x E]]; injection E as -> _; congruence. }
    destruct (del_without refs s (PStr name) [name] GR HR V D ltac:(discriminate) NO N3) as (s' & E & R' & W). rewrite E. cbn [bindr].
    exists s'. split; [reflexivity|]. split; [exact R'|]. split; [exact W|].
    destruct (names_exact refs s' o k R' Ho Hk PK NK) as (l' & ND' & HL' & HC' & _). rewrite HL'. f_equal.
    assert (X : forall x, In x l' <-> In x l).
    { intros x. inversion ND as [|? ? ND1 ND2]; subst. rewrite HC'. split.
      - intros (X1 & X2 & X3). pose proof (plain_valid x s' true X2 X3) as Vx. apply (u_contains _ _ _ _ W _ _ Vx (plain_denotes x X2)) in X3. destruct X3 as [X3 X4].
        assert (In x (name :: l)) as [->|]; [apply HC; split; auto| |assumption]. exfalso. apply X4. exists []. reflexivity.
      - intros Hx. destruct (proj1 (HC x) (or_intror Hx)) as (X1 & X2 & X3). pose proof (plain_valid x s true X2 X3) as Vx.
        split; [exact X1|]. split; [exact X2|]. apply (u_contains _ _ _ _ W _ _ Vx (plain_denotes x X2)). split; [exact X3|].
        intros [z Z]. injection Z as <- _. exact (ND1 Hx). }
    inversion ND as [|? ? ND1 ND2]; subst. apply Nat.le_antisymm; apply NoDup_incl_length; [assumption|intros x; apply X|assumption|intros x; apply X].
Qed.

(** ** clear *)
Lemma pre_cons (a : pystr) qs : pre [a] qs <-> exists r, qs = a :: r.
Proof. split; intros [r E]; exists r; exact E. Qed.
Lemma clear_spec refs o k n keq : o_refs o = refs -> refs = fslash :: k -> plain_link k -> name_err k = None ->
  forall m s fuel, reachable refs s -> snd (file_len o (mkFile true s)) = Ok m -> m < fuel ->
  exists s' r, file_clear o n keq fuel (mkFile true s) = (mkFile true s', r) /\ reachable refs s' /\
  (forall q qs, valid_path q -> denotes q qs -> (qs = [] \/ pre [k] qs) -> (snd (file_contains (mkFile true s') q) = Ok true <-> snd (file_contains (mkFile true s) q) = Ok true)) /\
  ((r = Ok tt /\ snd (file_len o (mkFile true s')) = Ok 0) \/
   exists name e, name_in k (mkFile true s) name /\ name_in k (mkFile true s') name /\
     snd (file_read o n keq (mkFile true s) (PStr name)) = Err e /\ snd (file_read o n keq (mkFile true s') (PStr name)) = Err e /\
     r = match e with KeyError => Ok tt | e => Err e end).
Proof.
  intros Ho Hk PK NK. induction m as [|m IH]; intros s [|fuel] HR HL LT; try lia; cbn [file_clear].
  - destruct (popitem_spec refs s o k n keq HR Ho Hk PK NK) as [(f' & L & -> & E)|(name & m & _ & L & _)]; [|congruence].
    rewrite E. exists s. eexists. split; [reflexivity|]. split; [exact HR|]. split; [intros; reflexivity|]. left. auto.
  - destruct (popitem_spec refs s o k n keq HR Ho Hk PK NK) as [(f' & L & _)|(name & m' & HN & L & X)]; [congruence|].
    assert (m' = m) by congruence. subst m'. destruct (snd (file_read o n keq (mkFile true s) (PStr name))) as [v|e] eqn:R.
    + destruct X as (s1 & E & R1 & W & L1). rewrite E.
      destruct (IH s1 fuel R1 L1 ltac:(lia)) as (s' & r & E' & R' & K & Z). rewrite E'. exists s', r. split; [reflexivity|]. split; [exact R'|].
      destruct HN as (N1 & N2 & N3). split.
      * intros q qs Vq Dq Q. rewrite (K q qs Vq Dq Q). rewrite (u_contains _ _ _ _ W q qs Vq Dq). split; [tauto|]. intros C. split; [exact C|].
        rewrite pre_cons. intros [x ->]. destruct Q as [Q|Q]; [discriminate|]. apply pre_cons in Q. destruct Q as [y [= -> _]]. congruence.
      * destruct Z as [Z|(nm & e & Z1 & Z2 & Z3 & Z4 & Z5)]; [left; exact Z|right]. exists nm, e.
        destruct Z1 as (Y1 & Y2 & Y3). pose proof (plain_valid nm s1 true Y2 Y3) as V. pose proof (plain_denotes nm Y2) as D.
        pose proof (proj1 (u_contains _ _ _ _ W _ _ V D) Y3) as [Y4 Y5]. split; [split; auto|]. split; [exact Z2|]. split; [|auto].
        rewrite <- Z3. symmetry. apply (u_reads _ _ _ _ W o n keq _ _ Ho V D). intros [O|O]; [exact (Y5 O)|]. apply pre_cons in O. destruct O as [x [= -> _]].
        apply Y5. exists []. reflexivity.
    + rewrite X. exists s, (match e with KeyError => Ok tt | e => Err e end). split; [destruct e; reflexivity|]. split; [exact HR|]. split; [intros; reflexivity|]. right. exists name, e.
      rewrite R. split; [exact HN|]. split; [exact HN|]. split; [reflexivity|]. split; [reflexivity|]. destruct e; reflexivity.
Qed.

(** ** update and setdefault *)
Lemma update_eq o rnd tries n : forall l f, fl_open f = true -> Forall (fun pv => exists gt, check_path o (fst pv) = Ok gt) l ->
  file_update o rnd tries n f l = file_writes o rnd tries n f l.
Proof.
  induction l as [|[p v] l IH]; intros f O F.
  - unfold file_writes. cbn [mapr file_update iterM]. rewrite O. cbn [ret]. destruct f as [b s]. cbn in O. subst b. reflexivity.
  - inversion F as [|? ? [gt G] F']; subst. cbn [fst] in G. cbn [file_update]. unfold file_write, file_writes. cbn [mapr fst snd]. rewrite G. cbn [bindr]. rewrite O.
    assert (M : exists m, mapr (fun pv => do gt <- check_path o (fst pv); Ok (gt, snd pv)) l = Ok m).
    { apply mapr_all. intros x Hx. rewrite Forall_forall in F'. destruct (F' x Hx) as [g' G']. rewrite G'. cbn. eauto. }
    destruct M as [m M]. rewrite M. cbn [bindr iterM fst snd].
    destruct (write_at o rnd tries n (fst gt) (snd gt) v (fl_st f)) as [s1 r1] eqn:E1.
    unfold bindm. rewrite E1. destruct r1 as [u|e]; [|reflexivity]. cbn [ret].
    rewrite (IH (mkFile true s1) eq_refl F'). unfold file_writes. rewrite M. cbn [fl_open fl_st]. reflexivity.
Qed.
