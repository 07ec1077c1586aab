(** What a write can change: the programs. *)
From Verif Require Import Base Unicode PathEsc PosixPath PosixFacts ProcessPathFacts MColl Dec NdArray Value Attrs OptionsM StrConv ComplexM NpDims Hdf5 HeapFacts NpWrite MarshalW FrameFacts.
Local Open Scope nat_scope.

Lemma comps_clean nm : clean nm -> path_comps nm = [nm] /\ isabs nm = false.
Proof.
  intros (C1 & C2 & C3). split.
  - unfold path_comps. rewrite split_noslash by exact C3. cbn [filter].
    destruct (eqb_str_spec nm []); [congruence|]. destruct (eqb_str_spec nm s_dot); [congruence|]. reflexivity.
  - destruct nm as [|c nm]; [congruence|]. cbn. apply noslash_cons in C3. apply N.eqb_neq. tauto.
Qed.
Lemma digits_clean l : l <> [] -> Forall (fun c => (48 <= c <= 57 \/ 97 <= c <= 102)%N) l -> clean l.
Proof.
  intros H F. repeat split; [exact H| |].
  - intros ->. apply Forall_inv in F. change dot with 46%N in F. lia.
  - intros I. rewrite Forall_forall in F. apply F in I. unfold fslash in I. lia.
Qed.
Lemma hex_clean n : clean (show_hex n).
Proof. apply digits_clean; [apply show_hex_nonempty|apply show_hex_digits]. Qed.
Lemma hex16_clean n : clean (show_hex16 n).
Proof.
  apply digits_clean; [|apply show_hex16_digits]. intros E. pose proof (show_hex16_len n) as L. rewrite E in L. cbn in L. lia.
Qed.
Lemma escaped_name s : escaped s = [] \/ clean (escaped s).
Proof.
  rewrite escaped_esc. destruct s as [|c s]; [left; reflexivity|right]. apply esc_clean. discriminate.
Qed.

Section WriteFrame.
Variables (o : options) (rnd : nat -> N) (tries : nat).
Hypotheses (Hkn : o_keys_name o = [] \/ clean (o_keys_name o)) (Hvn : o_values_name o = [] \/ clean (o_values_name o)).
Notation rp := (rp o). Notation ra := (ra o). Notation wf := (wf o). Notation frame := (frame o rnd). Notation fut := (fut rnd).
Notation ptr_ok := (ptr_ok o).

(** where a value may be written: [nm] in the Group [g] *)
Record okt (s : st) (g : nat) (nm : pystr) : Prop := {
  k_live : live (hp s) g = true;
  k_group : is_group (hp s) g = true;
  k_name : nm = [] \/ clean nm;
  k_refs : ~ pre (name_of (hp s) g ++ [nm]) ra;
  k_res : forall k, pre (rp ++ [k]) (name_of (hp s) g ++ [nm]) -> ~ futc s k }.

Lemma okt_frame R s s' g nm : wf s -> frame R s s' -> ~ R (name_of (hp s) g) -> okt s g nm ->
  okt s' g nm /\ name_of (hp s') g = name_of (hp s) g.
Proof.
  intros W F N K. pose proof (live_exists _ _ _ W (k_live _ _ _ K)) as E. destruct (f_obj _ _ _ _ _ F g E) as (H1 & H2 & H3).
  split; [|exact H2]. constructor.
  - apply (f_live _ _ _ _ _ F); [apply (k_live _ _ _ K)|exact N].
  - rewrite H3. apply (k_group _ _ _ K).
  - apply (k_name _ _ _ K).
  - rewrite H2. apply (k_refs _ _ _ K).
  - intros k P Fk. rewrite H2 in P. apply (k_res _ _ _ K k P). eapply futc_mono; [exact F|exact Fk].
Qed.
Lemma okt_own s g nm : ~ pre (name_of (hp s) g ++ [nm]) (name_of (hp s) g).
Proof. apply pre_snoc_self. Qed.

(** the result of a computation that stays in a region *)
Definition keeps {A} (R : list pystr -> Prop) (s : st) (p : st * res A) (Q : st -> A -> Prop) : Prop :=
  wf (fst p) /\ frame R s (fst p) /\ forall a, snd p = Ok a -> Q (fst p) a.

Lemma keeps_ret {A} R s (a : A) (Q : st -> A -> Prop) : wf s -> Q s a -> keeps R s (s, Ok a) Q.
Proof. intros W H. split; [exact W|]. split; [apply frame_refl; exact W|]. intros b [= <-]. exact H. Qed.
Lemma keeps_err {A} R s e (Q : st -> A -> Prop) : wf s -> keeps R s (s, Err e) Q.
Proof. intros W. split; [exact W|]. split; [apply frame_refl; exact W|]. intros b [=]. Qed.
Lemma keeps_bind {A B} R s (m : M A) (k : A -> M B) (P : st -> A -> Prop) (Q : st -> B -> Prop) :
  wf s -> keeps R s (m s) P ->
  (forall a s1, wf s1 -> frame R s s1 -> P s1 a -> m s = (s1, Ok a) -> keeps R s1 (k a s1) Q) ->
  keeps R s (bindm m k s) Q.
Proof.
  intros W (H1 & H2 & H3) H. unfold bindm. destruct (m s) as [s1 [a|e]] eqn:E; cbn [fst snd] in *.
  - destruct (H a s1 H1 H2 (H3 a eq_refl) eq_refl) as (K1 & K2 & K3). split; [exact K1|]. split; [|exact K3].
    eapply frame_trans; eassumption.
  - split; [exact H1|]. split; [exact H2|]. intros b [=].
Qed.
Lemma keeps_imp {A} (R : list pystr -> Prop) s p (P Q : st -> A -> Prop) :
  keeps R s p P -> (forall s' a, wf s' -> frame R s s' -> P s' a -> Q s' a) -> keeps R s p Q.
Proof. intros (H1 & H2 & H3) H. split; [exact H1|]. split; [exact H2|]. auto. Qed.
Lemma keeps_sub {A} (R R' : list pystr -> Prop) s p (P : st -> A -> Prop) :
  keeps R s p P -> (forall q, R q -> R' q) -> keeps R' s p P.
Proof. intros (H1 & H2 & H3) H. split; [exact H1|]. split; [eapply frame_sub; eassumption|]. exact H3. Qed.
Lemma keeps_lift {A} R s (r : res A) (Q : st -> A -> Prop) : wf s -> (forall a, r = Ok a -> Q s a) -> keeps R s (lift r s) Q.
Proof. intros W H. split; [exact W|]. split; [apply frame_refl; exact W|]. exact H. Qed.

(** ** elementary operations *)
Lemma name_err_nil : name_err [] <> None. Proof. discriminate. Qed.
Lemma get_name g nm s : (nm = [] \/ clean nm) ->
  (exists e, get_obj g nm s = (s, Err e)) \/ (clean nm /\ name_err nm = None /\ get_obj g nm s = (s, Ok (lookup (hp s) g nm))).
Proof.
  intros H. unfold get_obj. destruct (name_err nm) eqn:E; [left; eexists; reflexivity|].
  destruct H as [->|H]; [discriminate|]. right. destruct (comps_clean nm H) as [E1 E2].
  split; [exact H|]. split; [reflexivity|]. unfold gets, start_of. rewrite E1, E2. cbn. destruct (lookup (hp s) g nm); reflexivity.
Qed.

Lemma new_link_keeps s g nm a b : wf s -> okt s g nm ->
  match b with BGroup ls => ls = [] | BData d _ => forall j, In (XPtr j) (a_data d) -> ptr_ok (hp s) j end ->
  keeps (pre (name_of (hp s) g ++ [nm])) s (new_link g nm a b s)
    (fun s' i => lookup (hp s) g nm = None /\ clean nm /\ i = nxt s /\
       s' = mkSt (add_obj (hp s) g nm (nxt s) a b) (S (nxt s)) (rgrp s) (rcreated s) (canon s) (counter s) (rpos s)).
Proof.
  intros W K Hb. unfold new_link. destruct (name_err nm) eqn:E; [apply keeps_err; exact W|].
  destruct (k_name _ _ _ K) as [->|C]; [discriminate|]. destruct (comps_clean nm C) as [E1 E2].
  unfold start_of. rewrite E1, E2. cbn [create_at]. destruct (lookup (hp s) g nm) eqn:L; [apply keeps_err; exact W|].
  pose proof (k_live _ _ _ K) as Kl. pose proof (k_group _ _ _ K) as Kg.
  rewrite alloc_eq by exact Kg. split; cbn [fst snd]; [|split].
  - apply wf_new; auto.
    + destruct b; auto.
    + intros X. exfalso. apply (k_refs _ _ _ K). rewrite X. unfold FrameFacts.ra. apply pre_app.
    + intros X. exfalso. apply (k_refs _ _ _ K). rewrite X. apply pre_refl.
    + intros X. apply (k_res _ _ _ K). rewrite (walk_root_name _ _ _ _ (w_tree _ _ W) (w_sess _ _ W _ X)). apply pre_refl.
    + intros d f j -> X. apply Hb. exact X.
  - apply frame_new; auto; [destruct b; auto|]. left. apply pre_refl.
  - intros i [= <-]. auto.
Qed.
Lemma unlink_keeps s g nm : wf s -> okt s g nm ->
  keeps (pre (name_of (hp s) g ++ [nm])) s (unlink g nm s) (fun s' _ => s' = set_hp s (rm_link (hp s) g nm)).
Proof.
  intros W K. unfold unlink. destruct (name_err nm) eqn:E; [apply keeps_err; exact W|].
  destruct (k_name _ _ _ K) as [->|C]; [discriminate|]. destruct (comps_clean nm C) as [E1 E2].
  unfold start_of. rewrite E1, E2. cbn [unlink_at]. destruct (lookup (hp s) g nm) eqn:L; [|apply keeps_err; exact W].
  pose proof (k_group _ _ _ K) as Kg. destruct (group_body _ _ Kg) as (ob & ls & B1 & B2 & B3).
  unfold set_links. rewrite B1. assert (X : upd (hp s) g (with_body ob (BGroup (del_key nm (links (hp s) g)))) = rm_link (hp s) g nm).
  { unfold rm_link, with_body, name_of, attrs_of. rewrite B1. reflexivity. }
  rewrite X. split; cbn [fst snd]; [|split].
  - apply wf_unlink; auto. apply (k_refs _ _ _ K).
  - apply frame_unlink; auto.
  - auto.
Qed.
Lemma set_attrs_keeps (R : list pystr -> Prop) s i a : wf s -> R (name_of (hp s) i) -> name_of (hp s) i <> ra ->
  keeps R s (set_attrs i a s) (fun s' _ => exists ob, hp s i = Some ob /\ s' = set_hp s (upd (hp s) i (with_attrs ob a))).
Proof.
  intros W H1 H2. unfold set_attrs. destruct (hp s i) as [ob|] eqn:E; [|apply keeps_err; exact W].
  assert (SK : same_kind (o_body ob) (o_body (with_attrs ob a))) by (cbn; destruct (o_body ob); cbn; auto).
  split; cbn [fst snd]; [|split].
  - eapply wf_change; eauto. intros d f j E2 Hj. eapply (w_ptrs _ _ W); eassumption.
  - eapply frame_change; eauto.
  - intros x _. eauto.
Qed.
Lemma sync_keeps (R : list pystr -> Prop) s i reqs d : wf s -> R (name_of (hp s) i) -> name_of (hp s) i <> ra ->
  keeps R s (sync_attrs i reqs d s) (fun s' _ => True).
Proof.
  intros W H1 H2. unfold sync_attrs. destruct (set_attributes_all (attrs_of (hp s) i) reqs d) as [a e].
  pose proof (set_attrs_keeps R s i a W H1 H2) as (K1 & K2 & K3). destruct (set_attrs i a s) as [s1 [u|x]]; cbn [fst snd] in *.
  - destruct e; split; auto.
  - split; auto.
Qed.
Lemma mark_keeps (R : list pystr -> Prop) s i p : wf s -> R (name_of (hp s) i) -> name_of (hp s) i <> ra ->
  keeps R s (mark_path o i p s) (fun s' _ => True).
Proof.
  intros W H1 H2. unfold mark_path. destruct (o_matlab_compatible o).
  - eapply keeps_bind with (P := fun _ _ => True); [exact W|apply keeps_lift; auto|]. intros b s1 W1 F1 _ E. injection E as <- _.
    unfold modify_attr. eapply keeps_imp; [apply set_attrs_keeps; auto|auto].
  - unfold drop_attr. eapply keeps_imp; [apply set_attrs_keeps; auto|auto].
Qed.

(** loops *)
Lemma iterM_keeps {A} (R : list pystr -> Prop) (I : st -> Prop) (f : A -> M unit) l : forall s,
  (forall s1 x, In x l -> wf s1 -> I s1 -> keeps R s1 (f x s1) (fun s2 _ => I s2)) ->
  wf s -> I s -> keeps R s (iterM f l s) (fun s' _ => I s').
Proof.
  induction l as [|x l IH]; intros s H W Hs; cbn [iterM]; [apply keeps_ret; assumption|].
  eapply keeps_bind; [exact W|apply H; [left; reflexivity|assumption|assumption]|].
  intros u s1 W1 F1 I1 _. apply IH; auto. intros s2 y Hy. apply H. right. exact Hy.
Qed.
Lemma mapM_keeps {A B} (R : list pystr -> Prop) (I : st -> Prop) (Q : st -> B -> Prop) (f : A -> M B) l : forall s,
  (forall s1 x, In x l -> wf s1 -> I s1 -> keeps R s1 (f x s1) (fun s2 b => I s2 /\ Q s2 b)) ->
  (forall s1 s2 b, wf s1 -> frame R s1 s2 -> Q s1 b -> Q s2 b) ->
  wf s -> I s -> keeps R s (mapM f l s) (fun s' bs => I s' /\ Forall (Q s') bs).
Proof.
  induction l as [|x l IH]; intros s H HQ W Hs; cbn [mapM]; [apply keeps_ret; auto|].
  eapply keeps_bind; [exact W|apply H; [left; reflexivity|assumption|assumption]|].
  intros b s1 W1 F1 [I1 Q1] _. eapply keeps_bind; [exact W1|apply IH; auto; intros s2 y Hy; apply H; right; exact Hy|].
  intros bs s2 W2 F2 [I2 Q2] _. apply keeps_ret; [exact W2|]. split; [exact I2|]. constructor; [|exact Q2]. exact (HQ s1 s2 b W1 F2 Q1).
Qed.

(** ** the references Group *)
Lemma create_refs_keeps R cs : forall s g, wf s -> live (hp s) g = true -> name_of (hp s) g ++ cs = rp -> Forall clean cs -> rgrp s = None ->
  keeps R s (create_at g cs no_attrs (BGroup []) s) (fun s' i => walk (hp s') 0 rp = Some i /\ links (hp s') i = [] /\ rgrp s' = None /\ hp s i = None /\ canon s' = canon s).
Proof.
  induction cs as [|k cs IH]; intros s g W Lg E Hc Hr; cbn [create_at]; [apply keeps_err; exact W|].
  inversion Hc as [|? ? Hk Hcs]; subst.
  assert (AL : is_group (hp s) g = true -> lookup (hp s) g k = None ->
     let s1 := mkSt (add_obj (hp s) g k (nxt s) no_attrs (BGroup [])) (S (nxt s)) (rgrp s) (rcreated s) (canon s) (counter s) (rpos s) in
     wf s1 /\ frame R s s1 /\ live (hp s1) (nxt s) = true /\ name_of (hp s1) (nxt s) = name_of (hp s) g ++ [k] /\ links (hp s1) (nxt s) = []).
  { intros Gg L s1. assert (PR : pre (name_of (hp s) g ++ [k]) rp) by (exists cs; rewrite <- E, <- app_assoc; reflexivity).
    split; [|split; [|split; [|split]]].
    - apply wf_new; auto; try discriminate; [|rewrite Hr; discriminate].
      intros X. exfalso. rewrite X in PR. apply (pre_snoc_self _ _ PR).
    - apply frame_new; auto. right. unfold FrameFacts.ra. apply (pre_trans _ rp); [exact PR|apply pre_app].
    - apply (new_live_n o s g k no_attrs (BGroup [])); auto.
    - apply add_name_new.
    - cbn [hp s1]. rewrite (add_links _ _ _ _ no_attrs (BGroup []) (w_tree _ _ W) Gg eq_refl), Nat.eqb_refl. reflexivity. }
  destruct cs as [|k2 cs].
  - destruct (lookup (hp s) g k) eqn:L; [apply keeps_err; exact W|].
    destruct (is_group (hp s) g) eqn:Gg; [|rewrite alloc_nogroup by exact Gg; apply keeps_err; exact W].
    rewrite alloc_eq by exact Gg. destruct (AL eq_refl eq_refl) as (H1 & H2 & H3 & H4 & H5). split; [exact H1|]. split; [exact H2|].
    intros i [= <-]. cbn [fst]. apply live_walk in H3. rewrite H4, E in H3. repeat split; auto.
    apply (add_fresh _ _ g (w_tree _ _ W) Gg).
  - destruct (lookup (hp s) g k) as [j|] eqn:L.
    + destruct (t_link _ _ (w_tree _ _ W) _ _ _ L) as [E1 E2]. apply IH; auto.
      * apply live_walk. rewrite E2, walk_snoc. apply live_walk in Lg. rewrite Lg. exact L.
      * rewrite E2, <- app_assoc. exact E.
    + destruct (is_group (hp s) g) eqn:Gg; [|unfold bindm; rewrite alloc_nogroup by exact Gg; apply keeps_err; exact W].
      destruct (AL eq_refl eq_refl) as (H1 & H2 & H3 & H4 & H5). unfold bindm. rewrite alloc_eq by exact Gg.
      match goal with |- keeps R s (create_at _ _ _ _ ?x) _ => set (s1 := x) in * end.
      destruct (IH s1 (nxt s) H1 H3) as (K1 & K2 & K3); auto; [rewrite H4, <- app_assoc; exact E|].
      split; [exact K1|]. split; [eapply frame_trans; eassumption|]. intros i Hi. destruct (K3 i Hi) as (Q1 & Q2 & Q3 & Q4 & Q5). repeat split; auto.
      destruct (hp s i) eqn:Ei; [|reflexivity]. assert (X : hp s i <> None) by congruence. destruct (f_obj _ _ _ _ _ H2 i X). congruence.
Qed.
Lemma comps_refs_clean : Forall clean rp. Proof. apply path_comps_clean. Qed.

Lemma root_live s : wf s -> live (hp s) 0 = true.
Proof. intros W. apply live_walk. rewrite (root_name _ _ (w_tree _ _ W)). reflexivity. Qed.

Lemma with_rgrp_wf s g b : wf s -> rgrp s = None -> walk (hp s) 0 rp = Some g -> (b = true -> links (hp s) g = []) -> wf (with_rgrp g b s).
Proof.
  intros W Hr Hw Hl. constructor; cbn [hp nxt rgrp rcreated canon counter rpos with_rgrp]; try apply W.
  - intros x [= <-]. exact Hw.
  - intros c E. destruct (w_canon _ _ W c E) as (x & X & _). congruence.
  - intros x c [= <-] Hb _. unfold lookup. rewrite (Hl Hb). reflexivity.
Qed.
Lemma ensure_refs_keeps R s : wf s -> keeps R s (ensure_refs o s) (fun s' g => rgrp s' = Some g).
Proof.
  intros W. unfold ensure_refs. destruct (rgrp s) as [g|] eqn:Er; [apply keeps_ret; auto|].
  assert (ST : forall s1 g b, wf s1 -> rgrp s1 = None -> walk (hp s1) 0 rp = Some g -> (b = true -> links (hp s1) g = []) ->
     keeps R s1 ((let* _ := set_session (with_rgrp g b) in ret g) s1) (fun s' x => rgrp s' = Some x)).
  { intros s1 g b W1 R1 Hw Hl. unfold bindm, set_session, ret. cbn [fst snd]. split; cbn [fst snd].
    - apply with_rgrp_wf; assumption.
    - split; [|intros x [= <-]; reflexivity]. apply frame_session; auto; cbn; try lia. intros x X. congruence. }
  assert (CR : name_err (o_refs o) = None -> keeps R s ((let* g := create_group 0 (o_refs o) in let* _ := set_session (with_rgrp g true) in ret g) s)
     (fun s' g => rgrp s' = Some g)).
  { intros NE. eapply keeps_bind; [exact W| |].
    - unfold create_group, new_link. rewrite NE. unfold start_of. replace (if isabs (o_refs o) then 0 else 0) with 0 by (destruct (isabs (o_refs o)); reflexivity).
      apply create_refs_keeps; auto using root_live, comps_refs_clean. rewrite (root_name _ _ (w_tree _ _ W)). reflexivity.
    - intros g s1 W1 F1 (Q1 & Q2 & Q3 & Q4 & Q5) _. apply ST; auto. }
  unfold get_obj. destruct (name_err (o_refs o)) as [e|] eqn:NE; [unfold bindm; cbn; apply keeps_err; exact W|].
  unfold bindm at 1, gets at 1. unfold start_of. replace (if isabs (o_refs o) then 0 else 0) with 0 by (destruct (isabs (o_refs o)); reflexivity).
  destruct (walk (hp s) 0 (path_comps (o_refs o))) as [g|] eqn:Hw; [|apply CR; reflexivity].
  destruct (w_refs _ _ W g Hw) as [G1 G2]. unfold bindm at 1, gets at 1. rewrite G1. apply ST; auto. discriminate.
Qed.

Lemma canon_a_hex c : (11 <= c)%N -> show_hex c <> lit "a".
Proof. intros H E. change (lit "a") with (show_hex 10) in E. apply show_hex_inj in E. lia. Qed.
Lemma hex16_not_a n : show_hex16 n <> lit "a".
Proof. intros E. pose proof (show_hex16_len n) as L. rewrite E in L. cbn in L. lia. Qed.

Lemma with_canon_keeps R s g c : wf s -> rgrp s = Some g -> lookup (hp s) g (lit "a") = Some c ->
  wf (with_canon c s) /\ (canon s = None -> frame R s (with_canon c s)).
Proof.
  intros W Hr L. split.
  - constructor; cbn [hp nxt rgrp rcreated canon counter rpos with_canon]; try apply W. intros x [= <-]. eauto.
  - intros Hn. apply frame_session; auto; cbn; try lia. intros x. congruence.
Qed.
Lemma ensure_canon_keeps R s g : wf s -> rgrp s = Some g ->
  keeps R s (ensure_canon g s) (fun s' c => rgrp s' = Some g /\ ptr_ok (hp s') c).
Proof.
  intros W Hr. unfold ensure_canon. pose proof (w_sess _ _ W g Hr) as Hw. pose proof (walk_root_name _ _ _ _ (w_tree _ _ W) Hw) as Hn.
  destruct (w_refs _ _ W g Hw) as [G1 G2].
  assert (PO : forall s1 c, wf s1 -> rgrp s1 = Some g -> lookup (hp s1) g (lit "a") = Some c -> ptr_ok (hp s1) c).
  { intros s1 c W1 R1 L. destruct (t_link _ _ (w_tree _ _ W1) _ _ _ L) as [E1 E2]. split; [exact E1|]. exists (lit "a").
    rewrite E2, (walk_root_name _ _ _ _ (w_tree _ _ W1) (w_sess _ _ W1 g R1)). reflexivity. }
  destruct (canon s) as [c|] eqn:Hc.
  - apply keeps_ret; [exact W|]. split; [exact Hr|]. destruct (w_canon _ _ W c Hc) as (x & E1 & E2). rewrite Hr in E1. injection E1 as <-.
    apply PO; auto.
  - destruct (lookup (hp s) g (lit "a")) as [c|] eqn:L.
    + rewrite (G2 c eq_refl). destruct (with_canon_keeps R s g c W Hr L) as [K1 K2]. split; [exact K1|]. split; [auto|].
      intros x [= <-]. cbn [fst hp rgrp with_canon]. split; [exact Hr|]. apply PO; auto.
    + (* the Dataset 'a' is made *)
      assert (Ca : clean (lit "a")) by (apply digits_clean; [discriminate|repeat constructor; cbn; lia]).
      destruct (comps_clean (lit "a") Ca) as [E1 E2]. unfold new_canon, bindm, new_link.
      replace (name_err (lit "a")) with (@None exn) by reflexivity. unfold start_of. rewrite E1, E2. cbn [create_at]. rewrite L.
      rewrite alloc_eq by exact G1. unfold set_session, ret. set (h' := add_obj (hp s) g (lit "a") (nxt s) canon_attrs canon_body).
      set (s1 := mkSt h' (S (nxt s)) (rgrp s) (rcreated s) (canon s) (counter s) (rpos s)).
      assert (LV : live (hp s) g = true) by (apply live_walk; rewrite Hn; exact Hw).
      assert (W1 : wf s1).
      { apply wf_new; auto; try exact I.
        - intros X. exfalso. rewrite Hn in X. apply (snoc_neq _ _ X).
        - intros _. unfold is_canonical. rewrite add_new. reflexivity.
        - intros _ X. unfold futc in X. rewrite Hr in X. destruct X as (_ & c & X1 & X2). symmetry in X2. revert X2. apply canon_a_hex.
          pose proof (w_cnt _ _ W). lia.
        - intros d f j [= <- <-] [X|[X|X]]; [discriminate|discriminate|destruct X]. }
      assert (F1 : frame R s s1) by (apply frame_new; auto; [exact I|]; right; rewrite Hn; apply pre_refl).
      assert (L1 : lookup (hp s1) g (lit "a") = Some (nxt s)).
      { cbn [hp s1]. unfold h'. rewrite (add_lookup _ _ _ _ canon_attrs canon_body (w_tree _ _ W) G1 I), Nat.eqb_refl, eqb_str_refl. reflexivity. }
      destruct (with_canon_keeps R s1 g (nxt s) W1 Hr L1) as [K1 K2]. split; [exact K1|]. split; [eapply frame_trans; [exact F1|auto|exact W]|].
      intros x [= <-]. split; [exact Hr|]. apply PO; auto.
Qed.

(** names of elements *)
Definition inj_rnd : Prop := forall p q, show_hex16 (rnd p) = show_hex16 (rnd q) -> p = q.
Lemma draw_keeps R g : forall n s, wf s -> rgrp s = Some g -> rcreated s = false ->
  keeps R s (draw rnd n g s) (fun s' k => hp s' = hp s /\ rgrp s' = Some g /\ lookup (hp s) g k = None /\ clean k /\ k <> lit "a" /\
     fut s k /\ ~ futc s' k /\ (inj_rnd -> ~ fut s' k)).
Proof.
  induction n as [|n IH]; intros s W Hr Hc; cbn [draw]; [apply keeps_err; exact W|].
  set (s1 := mkSt (hp s) (nxt s) (rgrp s) (rcreated s) (canon s) (counter s) (S (rpos s))).
  assert (W1 : wf s1) by (constructor; apply W).
  assert (F1 : frame R s s1) by (apply frame_session; auto; cbn; try lia; auto).
  destruct (lookup (hp s) g (show_hex16 (rnd (rpos s)))) eqn:L.
  - destruct (IH s1 W1 Hr Hc) as (K1 & K2 & K3). split; [exact K1|]. split; [eapply frame_trans; eassumption|].
    intros k Hk. destruct (K3 k Hk) as (Q1 & Q2 & Q3 & Q4 & Q5 & Q6 & Q7 & Q8). refine (conj Q1 (conj Q2 (conj Q3 (conj Q4 (conj Q5 (conj _ (conj Q7 Q8))))))). eapply fut_mono; eassumption.
  - split; [exact W1|]. split; [exact F1|]. intros k [= <-]. cbn [fst].
    refine (conj eq_refl (conj Hr (conj L (conj (hex16_clean _) (conj (hex16_not_a _) (conj _ (conj _ _))))))).
    + unfold FrameFacts.fut. rewrite Hr, Hc. exists (rpos s). auto.
    + unfold futc. cbn. rewrite Hr, Hc. intros [X _]. discriminate.
    + intros Hi. unfold FrameFacts.fut. cbn. rewrite Hr, Hc. intros (p & X1 & X2). apply Hi in X2. lia.
Qed.
Lemma next_keeps R s g : wf s -> rgrp s = Some g ->
  keeps R s (next_name rnd tries g s) (fun s' k => hp s' = hp s /\ rgrp s' = Some g /\ lookup (hp s) g k = None /\ clean k /\ k <> lit "a" /\
     fut s k /\ ~ futc s' k /\ (inj_rnd -> ~ fut s' k)).
Proof.
  intros W Hr. unfold next_name. destruct (rcreated s) eqn:Hc; [|apply draw_keeps; assumption].
  set (s1 := mkSt (hp s) (nxt s) (rgrp s) true (canon s) (counter s + 1)%N (rpos s)).
  assert (W1 : wf s1).
  { constructor; try apply W; cbn [hp nxt rgrp rcreated canon counter rpos s1].
    - pose proof (w_cnt _ _ W). lia.
    - intros x c E _ Hle. apply (w_new _ _ W); [exact E|exact Hc|lia]. }
  assert (F1 : frame R s s1) by (apply frame_session; auto; cbn; try lia; auto).
  assert (NF : ~ futc s1 (show_hex (counter s))).
  { unfold futc. cbn. rewrite Hr. intros (_ & c & X1 & X2). apply show_hex_inj in X2. lia. }
  split; [exact W1|]. split; [exact F1|]. intros k [= <-]. cbn [fst].
  refine (conj eq_refl (conj Hr (conj _ (conj (hex_clean _) (conj (canon_a_hex _ (w_cnt _ _ W)) (conj _ (conj NF _))))))).
  - apply (w_new _ _ W); auto. lia.
  - unfold FrameFacts.fut. rewrite Hr, Hc. exists (counter s). split; [lia|reflexivity].
  - intros _ X. apply NF. unfold futc, FrameFacts.fut in *. cbn in *. rewrite Hr in *. auto.
Qed.

(** ** the marshallers, for any [wr] that stays below its target *)
Definition at_target (s' : st) (t : list pystr) (i : nat) : Prop :=
  hp s' i <> None /\ live (hp s') i = true /\ name_of (hp s') i = t.
Definition wspec (wr : nat -> pystr -> pyval -> M (option nat)) : Prop := forall s g nm v, wf s -> okt s g nm ->
  keeps (pre (name_of (hp s) g ++ [nm])) s (wr g nm v s)
    (fun s' r => match r with Some i => at_target s' (name_of (hp s) g ++ [nm]) i | None => True end).

Lemma ptr_ok_frame R s s' j : frame R s s' -> ptr_ok (hp s) j -> ptr_ok (hp s') j.
Proof.
  intros F [P1 P2]. destruct (f_obj _ _ _ _ _ F j P1) as (H1 & H2 & _). split; [exact H1|]. rewrite H2. exact P2.
Qed.
Lemma at_target_frame (R : list pystr -> Prop) s s' t i : frame R s s' -> ~ R t -> at_target s t i -> at_target s' t i.
Proof.
  intros F N (P1 & P2 & P3). destruct (f_obj _ _ _ _ _ F i P1) as (H1 & H2 & _). split; [exact H1|]. split; [|congruence].
  apply (f_live _ _ _ _ _ F); [exact P2|]. rewrite P3. exact N.
Qed.
(** members of what is written at the target *)
Lemma okt_member s t i k : wf s -> at_target s t i -> is_group (hp s) i = true -> (k = [] \/ clean k) -> ~ pre t ra ->
  (forall k, pre (rp ++ [k]) t -> ~ futc s k) -> okt s i k.
Proof.
  intros W (A1 & A2 & A3) G Hk N1 N2. constructor; auto.
  - rewrite A3. intros P. apply N1. eapply pre_snoc. exact P.
  - rewrite A3. intros x P. destruct (pre_snoc_inv _ _ _ P) as [Q|Q]; [apply N2; exact Q|]. apply app_inj_tail in Q. destruct Q as [Q _].
    exfalso. apply N1. rewrite <- Q. unfold FrameFacts.ra. apply pre_app.
Qed.

Section Marsh.
Variable wr : nat -> pystr -> pyval -> M (option nat).
Hypothesis Hwr : wspec wr.

Lemma element_keeps (R : list pystr -> Prop) s g c v : wf s -> rgrp s = Some g -> ptr_ok (hp s) c ->
  keeps R s (write_element o rnd tries wr g c v s) (fun s' j => rgrp s' = Some g /\ ptr_ok (hp s') j).
Proof.
  intros W Hr Pc. pose proof (w_sess _ _ W g Hr) as Hw. pose proof (walk_root_name _ _ _ _ (w_tree _ _ W) Hw) as Hn.
  assert (LV : live (hp s) g = true) by (apply live_walk; rewrite Hn; exact Hw). destruct (w_refs _ _ W g Hw) as [Gg _].
  unfold write_element.
  destruct (next_keeps (fun _ => False) s g W Hr) as (K1 & K2 & K3). unfold bindm at 1.
  destruct (next_name rnd tries g s) as [s1 [k|e]] eqn:En; cbn [fst snd] in *; [|split; [exact K1|]; split; [eapply frame_sub; [exact K2|tauto]|discriminate]].
  destruct (K3 k eq_refl) as (Q1 & Q2 & Q3 & Q4 & Q5 & Q6 & Q7 & _).
  (* everything up to the end stays below rp/k *)
  assert (KT : keeps (pre (rp ++ [k])) s1 ((let* r := wr g k v in
      match r with
      | None => ret c
      | Some i => let* p := gets (fun s => name_text (name_of (hp s) g)) in let* _ := mark_path o i p in ret i
      end) s1) (fun s' j => rgrp s' = Some g /\ ptr_ok (hp s') j)).
  { assert (OK : okt s1 g k).
    { constructor; rewrite ?Q1; auto.
      - intros P. rewrite Hn in P. pose proof (pre_len _ _ P) as Le. unfold FrameFacts.ra in *. rewrite !app_length in Le. cbn in Le.
        apply pre_antisym_len in P; [|rewrite !app_length; cbn; lia]. apply app_inj_tail in P. tauto.
      - intros x P. rewrite Hn in P. apply pre_antisym_len in P; [|rewrite !app_length; cbn; lia]. apply app_inj_tail in P.
        destruct P as [_ ->]. exact Q7. }
    pose proof (Hwr s1 g k v K1 OK) as KW. rewrite Q1, Hn in KW. eapply keeps_bind; [exact K1|exact KW|].
    intros r s2 W2 F2 P2 _. assert (R2 : rgrp s2 = Some g) by (apply (f_rgrp _ _ _ _ _ F2); exact Q2). destruct r as [i|].
    - unfold bindm at 1, gets at 1. destruct P2 as (A1 & A2 & A3).
      eapply keeps_bind; [exact W2|apply mark_keeps; [exact W2|rewrite A3; apply pre_refl|rewrite A3; intros X; apply app_inj_tail in X; tauto]|].
      intros u s3 W3 F3 _ _. apply keeps_ret; [exact W3|]. split; [apply (f_rgrp _ _ _ _ _ F3); exact R2|].
      apply (ptr_ok_frame _ _ _ _ F3). split; [exact A1|]. eauto.
    - apply keeps_ret; [exact W2|]. split; [exact R2|]. apply (ptr_ok_frame _ _ _ _ F2). rewrite Q1. exact Pc. }
  destruct KT as (T1 & T2 & T3). split; [exact T1|]. split; [|exact T3].
  (* no living object was there *)
  assert (FF : frame (pre (rp ++ [k])) s (fst ((let* r := wr g k v in
      match r with
      | None => ret c
      | Some i => let* p := gets (fun s => name_text (name_of (hp s) g)) in let* _ := mark_path o i p in ret i
      end) s1))) by (eapply frame_trans; [eapply frame_sub; [exact K2|tauto]|exact T2|exact W]).
  assert (ND : forall i, live (hp s) i = true -> ~ pre (rp ++ [k]) (name_of (hp s) i)).
  { intros i L [x X]. apply live_walk in L. rewrite X, <- app_assoc, walk_app, Hw in L. cbn in L. rewrite Q3 in L. discriminate. }
  eapply frame_weaken; [exact FF| | |].
  - intros i L P. destruct (ND i L P).
  - intros i k2 L P. right. right. destruct (pre_snoc_inv _ _ _ P) as [X|X]; [destruct (ND i L X)|].
    apply app_inj_tail in X. destruct X as [X _]. rewrite <- X. apply pre_refl.
  - intros p P. right. right. exists k. auto.
Qed.
Lemma object_array_keeps R s a : wf s ->
  keeps R s (write_object_array o rnd tries wr a s) (fun s' d => forall j, In (XPtr j) (a_data d) -> ptr_ok (hp s') j).
Proof.
  intros W. unfold write_object_array. eapply keeps_bind; [exact W|apply ensure_refs_keeps; exact W|].
  intros g s1 W1 F1 R1 _. eapply keeps_bind; [exact W1|apply ensure_canon_keeps; assumption|].
  intros c s2 W2 F2 [R2 P2] _. eapply keeps_bind; [exact W2| |].
  - apply (mapM_keeps R (fun s => rgrp s = Some g /\ ptr_ok (hp s) c) (fun s j => ptr_ok (hp s) j)); auto.
    + intros s3 x _ W3 [R3 P3]. destruct (element_keeps R s3 g c x W3 R3 P3) as (K1 & K2 & K3). split; [exact K1|]. split; [exact K2|].
      intros j Hj. destruct (K3 j Hj) as [H1 H2]. split; [split; [exact H1|]|exact H2]. eapply ptr_ok_frame; eassumption.
    + intros x y b _ F. apply (ptr_ok_frame _ _ _ _ F).
  - intros refs s3 W3 F3 [_ Q3] _. apply keeps_ret; [exact W3|]. cbn [a_data]. intros j Hj. apply in_map_iff in Hj.
    destruct Hj as (x & [= ->] & Hx). rewrite Forall_forall in Q3. auto.
Qed.

Lemma new_target s g nm a b i s' : wf s -> okt s g nm -> lookup (hp s) g nm = None -> clean nm ->
  (match b with BGroup ls => ls = [] | _ => True end) -> i = nxt s ->
  s' = mkSt (add_obj (hp s) g nm (nxt s) a b) (S (nxt s)) (rgrp s) (rcreated s) (canon s) (counter s) (rpos s) ->
  at_target s' (name_of (hp s) g ++ [nm]) i /\ is_group (hp s') i = match b with BGroup _ => true | _ => false end.
Proof.
  intros W K L C Hb -> ->. pose proof (k_group _ _ _ K). pose proof (k_live _ _ _ K). unfold at_target. cbn [hp]. split; [split; [|split]|].
  - rewrite add_new. discriminate.
  - apply (new_live_n o s g nm a b); auto.
  - apply add_name_new.
  - unfold is_group. rewrite add_new. destruct b; reflexivity.
Qed.
Lemma found_target s g nm i : wf s -> okt s g nm -> lookup (hp s) g nm = Some i -> at_target s (name_of (hp s) g ++ [nm]) i.
Proof.
  intros W K L. destruct (t_link _ _ (w_tree _ _ W) _ _ _ L) as [E1 E2]. split; [exact E1|]. split; [|exact E2].
  apply live_walk. rewrite E2, walk_snoc. pose proof (proj1 (live_walk _ _) (k_live _ _ _ K)) as X. rewrite X. exact L.
Qed.
Lemma create_group_keeps s g nm : wf s -> okt s g nm ->
  keeps (pre (name_of (hp s) g ++ [nm])) s (create_group g nm s)
    (fun s' i => at_target s' (name_of (hp s) g ++ [nm]) i /\ is_group (hp s') i = true).
Proof.
  intros W K. unfold create_group. eapply keeps_imp; [apply new_link_keeps; auto|].
  intros s' i W' F (L & C & Ei & Es). apply (new_target s g nm no_attrs (BGroup []) i s'); auto.
Qed.
Lemma open_group_keeps s g nm : wf s -> okt s g nm ->
  keeps (pre (name_of (hp s) g ++ [nm])) s (open_group g nm s)
    (fun s' i => at_target s' (name_of (hp s) g ++ [nm]) i /\ is_group (hp s') i = true).
Proof.
  intros W K. unfold open_group, bindm at 1. destruct (get_name g nm s (k_name _ _ _ K)) as [[e ->]|(C & NE & ->)]; [apply keeps_err; exact W|].
  destruct (lookup (hp s) g nm) as [i|] eqn:L; [|apply create_group_keeps; assumption].
  unfold bindm at 1, gets at 1. destruct (is_group (hp s) i) eqn:G.
  - apply keeps_ret; [exact W|]. split; [apply found_target; assumption|exact G].
  - eapply keeps_bind; [exact W|apply unlink_keeps; assumption|]. intros u s1 W1 F1 _ _.
    destruct (okt_frame _ _ _ _ _ W F1 (okt_own s g nm) K) as [K1 N1]. rewrite <- N1. apply create_group_keeps; assumption.
Qed.
Lemma unlink_at1 i k s : is_group (hp s) i = true -> lookup (hp s) i k <> None ->
  unlink_at i [k] s = (set_hp s (rm_link (hp s) i k), Ok tt).
Proof.
  intros G L. cbn [unlink_at]. destruct (lookup (hp s) i k); [|congruence]. destruct (group_body _ _ G) as (ob & ls & B1 & B2 & B3).
  unfold set_links. rewrite B1. unfold rm_link, with_body, name_of, attrs_of. rewrite B1. reflexivity.
Qed.
Lemma prune_keeps s t i keep : wf s -> at_target s t i -> is_group (hp s) i = true -> ~ pre t ra ->
  keeps (pre t) s (prune i keep s) (fun s' _ => at_target s' t i /\ is_group (hp s') i = true).
Proof.
  intros W A G NP. unfold prune.
  apply (iterM_keeps (pre t) (fun s => at_target s t i /\ is_group (hp s) i = true)); auto.
  intros s1 k _ W1 [A1 G1]. destruct (lookup (hp s1) i k) as [j|] eqn:L.
  - assert (X : lookup (hp s1) i k <> None) by congruence. rewrite (unlink_at1 i k s1 G1 X). destruct A1 as (H1 & H2 & H3).
    assert (F : frame (pre (t ++ [k])) s1 (set_hp s1 (rm_link (hp s1) i k))) by (apply frame_unlink; auto; rewrite H3; auto).
    split; cbn [fst snd]; [|split].
    + apply wf_unlink; auto. rewrite H3. intros P. apply NP. eapply pre_snoc. exact P.
    + eapply frame_sub; [exact F|]. intros p P. eapply pre_snoc. exact P.
    + intros u _. split; [|rewrite (proj2 (proj2 (f_obj _ _ _ _ _ F i H1))); exact G1].
      eapply at_target_frame; [exact F|apply pre_snoc_self|]. split; auto.
  - cbn [unlink_at]. rewrite L. apply keeps_err. exact W1.
Qed.

(** one member [k] of the Group at the target *)
Lemma member_keeps {A} s t i k v (f : option nat -> M A) (Q : st -> A -> Prop) :
  wf s -> at_target s t i -> is_group (hp s) i = true -> ~ pre t ra -> (forall k, pre (rp ++ [k]) t -> ~ futc s k) -> (k = [] \/ clean k) ->
  (forall s1 r, wf s1 -> frame (pre (t ++ [k])) s s1 -> match r with Some j => at_target s1 (t ++ [k]) j | None => True end ->
     keeps (pre (t ++ [k])) s1 (f r s1) Q) ->
  keeps (pre t) s ((let* r := wr i k v in f r) s) (fun s' a => Q s' a /\ (at_target s' t i /\ is_group (hp s') i = true) /\ frame (pre (t ++ [k])) s s').
Proof.
  intros W A0 G NP NF Hk Hf. pose proof (okt_member s t i k W A0 G Hk NP NF) as K. pose proof (Hwr s i k v W K) as KW.
  destruct A0 as (A1 & A2 & A3). rewrite A3 in KW.
  assert (KK : keeps (pre (t ++ [k])) s ((let* r := wr i k v in f r) s) Q).
  { eapply keeps_bind; [exact W|exact KW|]. intros r s1 W1 F1 P1 _. apply Hf; assumption. }
  destruct KK as (K1 & K2 & K3). split; [exact K1|]. split; [eapply frame_sub; [exact K2|]; intros p P; eapply pre_snoc; exact P|].
  intros a Ha. split; [auto|]. split; [|exact K2]. split.
  - eapply at_target_frame; [exact K2|apply pre_snoc_self|]. split; auto.
  - rewrite (proj2 (proj2 (f_obj _ _ _ _ _ K2 i A1))). exact G.
Qed.
Lemma field_keeps s t i b nf : wf s -> at_target s t i -> is_group (hp s) i = true -> ~ pre t ra -> (forall k, pre (rp ++ [k]) t -> ~ futc s k) ->
  keeps (pre t) s (write_field o wr i b nf s) (fun s' _ => (at_target s' t i /\ is_group (hp s') i = true) /\ (forall k, pre (rp ++ [k]) t -> ~ futc s' k)).
Proof.
  intros W A G NP NF. destruct nf as [n [name f]]. unfold write_field.
  eapply keeps_imp; [apply member_keeps with (Q := fun _ _ => True); auto using escaped_name|].
  - intros s1 r W1 F1 P1. destruct r as [j|]; [|apply keeps_ret; auto]. destruct P1 as (P1 & P2 & P3).
    unfold bindm at 1, gets at 1. apply sync_keeps; [exact W1|rewrite P3; apply pre_refl|].
    rewrite P3. intros X. apply NP. rewrite <- X. apply pre_app.
  - intros s' a W' F' (_ & AA & F2). split; [exact AA|]. intros k P Fk. apply (NF k P). eapply futc_mono; eassumption.
Qed.
Lemma struct_keeps s g nm b : wf s -> okt s g nm ->
  keeps (pre (name_of (hp s) g ++ [nm])) s (write_struct o wr g nm b s) (fun s' i => at_target s' (name_of (hp s) g ++ [nm]) i).
Proof.
  intros W K. set (t := name_of (hp s) g ++ [nm]). unfold write_struct. eapply keeps_bind; [exact W|apply open_group_keeps; assumption|].
  fold t. intros i s1 W1 F1 [A1 G1] _. pose proof (k_refs _ _ _ K) as NP. fold t in NP.
  assert (NF : forall s2, frame (pre t) s s2 -> forall k, pre (rp ++ [k]) t -> ~ futc s2 k).
  { intros s2 F2 k P Fk. apply (k_res _ _ _ K k P). eapply futc_mono; eassumption. }
  eapply keeps_bind with (P := fun s' _ => at_target s' t i /\ is_group (hp s') i = true); [exact W1| |].
  - destruct (o_delete_unused o); [apply prune_keeps; assumption|apply keeps_ret; auto].
  - intros u s2 W2 F2 [A2 G2] _. eapply keeps_bind; [exact W2| |].
    + apply (iterM_keeps (pre t) (fun s => (at_target s t i /\ is_group (hp s) i = true) /\ (forall k, pre (rp ++ [k]) t -> ~ futc s k))); auto.
      * intros s3 x _ W3 [[A3 G3] N3]. apply field_keeps; assumption.
      * split; [auto|]. apply NF. eapply frame_trans; eassumption.
    + intros u3 s3 W3 F3 [[A3 G3] N3] _. apply keeps_ret; assumption.
Qed.

Lemma create_dataset_keeps s g nm a f : wf s -> okt s g nm -> (forall j, In (XPtr j) (a_data a) -> ptr_ok (hp s) j) ->
  keeps (pre (name_of (hp s) g ++ [nm])) s (create_dataset g nm a f s) (fun s' i => at_target s' (name_of (hp s) g ++ [nm]) i).
Proof.
  intros W K Hp. unfold create_dataset. destruct (h5_able (a_dt a)); [|apply keeps_err; exact W].
  eapply keeps_imp; [apply new_link_keeps; auto|]. intros s' i W' F (L & C & Ei & Es).
  eapply new_target; [exact W|exact K|exact L|exact C| |exact Ei|exact Es]. exact I.
Qed.
Lemma put_dataset_keeps s g nm a : wf s -> okt s g nm -> (forall j, In (XPtr j) (a_data a) -> ptr_ok (hp s) j) ->
  keeps (pre (name_of (hp s) g ++ [nm])) s (put_dataset o g nm a s) (fun s' i => at_target s' (name_of (hp s) g ++ [nm]) i).
Proof.
  intros W K Hp. unfold put_dataset. unfold bindm at 1, catch.
  destruct (get_name g nm s (k_name _ _ _ K)) as [[e ->]|(C & NE & ->)]; [apply create_dataset_keeps; assumption|].
  destruct (lookup (hp s) g nm) as [i|] eqn:L; [|apply create_dataset_keeps; assumption].
  unfold bindm at 1, gets at 1.
  assert (RP : forall f, keeps (pre (name_of (hp s) g ++ [nm])) s (replace_dataset g nm a f s) (fun s' i => at_target s' (name_of (hp s) g ++ [nm]) i)).
  { intros f. unfold replace_dataset. eapply keeps_bind; [exact W|apply unlink_keeps; assumption|]. intros u s1 W1 F1 _ _.
    destruct (okt_frame _ _ _ _ _ W F1 (okt_own s g nm) K) as [K1 N1]. rewrite <- N1. apply create_dataset_keeps; auto.
    intros j Hj. eapply ptr_ok_frame; [exact F1|auto]. }
  destruct (same_dataset _ _ _); [|apply RP]. destruct (same_opts _ _) as [[]|]; [|apply RP|apply keeps_err; exact W].
  pose proof (found_target s g nm i W K L) as (A1 & A2 & A3). unfold overwrite. destruct (hp s i) as [ob|] eqn:E; [|congruence].
  destruct (o_body ob) as [old f|] eqn:B; [|apply keeps_err; exact W].
  set (ob' := with_body ob (BData (mkArr (a_dt old) (a_shape old) (a_data a)) f)).
  assert (SK : same_kind (o_body ob) (o_body ob')) by (rewrite B; exact I).
  assert (F : frame (pre (name_of (hp s) g ++ [nm])) s (set_hp s (upd (hp s) i ob'))).
  { eapply frame_change; eauto. rewrite A3. apply pre_refl. }
  split; cbn [fst snd]; [|split; [exact F|]].
  - eapply wf_change; eauto.
    + rewrite A3. intros X. apply (k_refs _ _ _ K). rewrite X. apply pre_refl.
    + intros d fl j E2 Hj. cbn in E2. injection E2 as <- <-. auto.
  - intros x [= <-]. split; [cbn; rewrite upd_same; discriminate|]. split.
    + cbn. rewrite (change_live s i ob ob'); auto.
    + rewrite <- A3. apply (mod_name _ _ ob ob' E eq_refl).
Qed.

Lemma noptr_ptr e j : noptr e <> XPtr j.
Proof. destruct e; discriminate. Qed.
Lemma np_keeps s g nm v ts : wf s -> okt s g nm ->
  keeps (pre (name_of (hp s) g ++ [nm])) s (np_write o rnd tries wr g nm v ts s)
    (fun s' r => match r with Some i => at_target s' (name_of (hp s) g ++ [nm]) i | None => True end).
Proof.
  intros W K. set (t := name_of (hp s) g ++ [nm]). destruct v as [c a]. unfold np_write.
  destruct (np_incompatible o a && eqb_str (o_action o) (lit "error")); [apply keeps_err; exact W|].
  destruct (np_incompatible o a && eqb_str (o_action o) (lit "discard")); [apply keeps_ret; auto|].
  assert (NA : t <> ra) by (intros X; apply (k_refs _ _ _ K); unfold t in X; rewrite X; apply pre_refl).
  unfold bindm at 1, lift. destruct (np_prepare o (c, a)) as [b|e]; [|apply keeps_err; exact W].
  assert (SY : forall s1 i r, wf s1 -> at_target s1 t i -> keeps (pre t) s1 ((let* _ := sync_attrs i r true in ret (Some i)) s1)
     (fun s' r => match r with Some i => at_target s' t i | None => True end)).
  { intros s1 i r W1 (A1 & A2 & A3). assert (KS : keeps (pre t) s1 (sync_attrs i r true s1) (fun s' _ => at_target s' t i)).
    { unfold sync_attrs. destruct (set_attributes_all (attrs_of (hp s1) i) r true) as [at_ e]. unfold set_attrs.
      destruct (hp s1 i) as [ob|] eqn:E; [|congruence].
      assert (SK : same_kind (o_body ob) (o_body (with_attrs ob at_))) by (cbn; destruct (o_body ob); cbn; auto).
      assert (KK : wf (set_hp s1 (upd (hp s1) i (with_attrs ob at_))) /\ frame (pre t) s1 (set_hp s1 (upd (hp s1) i (with_attrs ob at_))) /\
                   at_target (set_hp s1 (upd (hp s1) i (with_attrs ob at_))) t i).
      { split; [|split].
        - eapply wf_change; eauto; [congruence|]. intros d f j E2 Hj. eapply (w_ptrs _ _ W1); eassumption.
        - eapply frame_change; eauto. rewrite A3. apply pre_refl.
        - split; [cbn; rewrite upd_same; discriminate|]. split; [cbn; rewrite (change_live s1 i ob (with_attrs ob at_) E eq_refl SK); exact A2|].
          rewrite <- A3. apply (mod_name _ _ ob (with_attrs ob at_) E eq_refl). }
      destruct e; (split; [apply KK|split; [apply KK|]]); [discriminate|]. intros u _. apply KK. }
    eapply keeps_bind; [exact W1|exact KS|]. intros u s2 W2 F2 A4 _. apply keeps_ret; assumption. }
  destruct (as_group o a (a_dt b)).
  - eapply keeps_bind; [exact W|apply struct_keeps; assumption|]. fold t. intros i s1 W1 F1 A1 _. apply SY; assumption.
  - eapply keeps_bind with (P := fun s' d => forall j, In (XPtr j) (a_data d) -> ptr_ok (hp s') j); [exact W| |].
    + assert (PL : keeps (pre t) s (ret (plain_data b) s) (fun s' d => forall j, In (XPtr j) (a_data d) -> ptr_ok (hp s') j)).
      { apply keeps_ret; [exact W|]. cbn. intros j Hj. apply in_map_iff in Hj. destruct Hj as (x & X & _). destruct (noptr_ptr _ _ X). }
      destruct (a_dt b); try exact PL. apply object_array_keeps. exact W.
    + intros d s1 W1 F1 P1 _. destruct (okt_frame _ _ _ _ _ W F1 (okt_own s g nm) K) as [K1 N1].
      eapply keeps_bind; [exact W1|unfold t; rewrite <- N1; apply put_dataset_keeps; assumption|].
      rewrite N1. fold t. intros i s2 W2 F2 A2 _. unfold bindm at 1, gets at 1. apply SY; assumption.
Qed.

Lemma item_keeps s t i p kv : wf s -> at_target s t i -> is_group (hp s) i = true -> ~ pre t ra -> (forall k, pre (rp ++ [k]) t -> ~ futc s k) ->
  (fst kv = [] \/ clean (fst kv)) ->
  keeps (pre t) s (write_item o wr i p kv s) (fun s' _ => (at_target s' t i /\ is_group (hp s') i = true) /\ (forall k, pre (rp ++ [k]) t -> ~ futc s' k)).
Proof.
  intros W A G NP NF Hk. destruct kv as [k v]. unfold write_item. cbn [fst snd] in *.
  eapply keeps_imp; [apply member_keeps with (Q := fun _ _ => True); auto|].
  - intros s1 r W1 F1 P1. destruct r as [j|]; [|apply keeps_ret; auto]. destruct P1 as (P1 & P2 & P3).
    apply mark_keeps; [exact W1|rewrite P3; apply pre_refl|].
    rewrite P3. intros X. apply NP. rewrite <- X. apply pre_app.
  - intros s' a W' F' (_ & AA & F2). split; [exact AA|]. intros x P Fk. apply (NF x P). eapply futc_mono; eassumption.
Qed.
Lemma dict_keeps s g nm items ts plain : wf s -> okt s g nm ->
  keeps (pre (name_of (hp s) g ++ [nm])) s (dict_write o wr g nm items ts plain s)
    (fun s' r => exists i, r = Some i /\ at_target s' (name_of (hp s) g ++ [nm]) i /\ is_group (hp s') i = true).
Proof.
  intros W K. set (t := name_of (hp s) g ++ [nm]). unfold dict_write. pose proof (k_refs _ _ _ K) as NP. fold t in NP.
  assert (NF : forall s2, frame (pre t) s s2 -> forall k, pre (rp ++ [k]) t -> ~ futc s2 k).
  { intros s2 F2 k P Fk. apply (k_res _ _ _ K k P). eapply futc_mono; eassumption. }
  assert (NA : t <> ra) by (intros X; apply NP; rewrite X; apply pre_refl).
  eapply keeps_bind; [exact W|apply open_group_keeps; assumption|]. fold t. intros i s1 W1 F1 [A1 G1] _.
  cbv zeta. match goal with |- context [prune i (map fst ?x)] => set (kvs := x) end.
  assert (HK : forall kv, In kv kvs -> fst kv = [] \/ clean (fst kv)).
  { intros [k v] Hin. unfold kvs in Hin. destruct (key_codes (map fst items)) as [cs|].
    - apply in_combine_l in Hin. apply in_map_iff in Hin. destruct Hin as (x & <- & _). apply escaped_name.
    - destruct Hin as [[= <- <-]|[[= <- <-]|[]]]; assumption. }
  eapply keeps_bind with (P := fun s' _ => at_target s' t i /\ is_group (hp s') i = true); [exact W1| |].
  { (* attributes *)
    destruct A1 as (B1 & B2 & B3). unfold sync_attrs. destruct (set_attributes_all _ _ _) as [at_ e]. unfold set_attrs.
    destruct (hp s1 i) as [ob|] eqn:E; [|congruence].
    assert (SK : same_kind (o_body ob) (o_body (with_attrs ob at_))) by (cbn; destruct (o_body ob); cbn; auto).
    assert (KK : wf (set_hp s1 (upd (hp s1) i (with_attrs ob at_))) /\ frame (pre t) s1 (set_hp s1 (upd (hp s1) i (with_attrs ob at_))) /\
                 at_target (set_hp s1 (upd (hp s1) i (with_attrs ob at_))) t i /\ is_group (upd (hp s1) i (with_attrs ob at_)) i = true).
    { split; [|split; [|split]].
      - eapply wf_change; eauto; [congruence|]. intros d f j E2 Hj. eapply (w_ptrs _ _ W1); eassumption.
      - eapply frame_change; eauto. rewrite B3. apply pre_refl.
      - split; [cbn; rewrite upd_same; discriminate|]. split; [cbn; rewrite (change_live s1 i ob (with_attrs ob at_) E eq_refl SK); exact B2|].
        rewrite <- B3. apply (mod_name _ _ ob (with_attrs ob at_) E eq_refl).
      - rewrite (mod_group _ _ _ _ E SK). exact G1. }
    destruct e; (split; [apply KK|split; [apply KK|]]); [discriminate|]. intros u _. apply KK. }
  intros u s2 W2 F2 [A2 G2] _.
  eapply keeps_bind with (P := fun s' _ => at_target s' t i /\ is_group (hp s') i = true); [exact W2| |].
  { match goal with |- keeps _ _ ((if ?c then _ else _) _) _ => destruct c end; [apply prune_keeps; assumption|apply keeps_ret; auto]. }
  intros u2 s3 W3 F3 [A3 G3] _. unfold bindm at 1, gets at 1.
  eapply keeps_bind with (P := fun s' _ => at_target s' t i /\ is_group (hp s') i = true); [exact W3| |].
  { destruct (o_matlab_compatible o); [|apply keeps_ret; auto]. unfold bindm, lift. destruct (ascii_bytes _); [apply keeps_ret|apply keeps_err]; auto. }
  intros u3 s4 W4 F4 [A4 G4] _. eapply keeps_bind; [exact W4| |].
  - apply (iterM_keeps (pre t) (fun s => (at_target s t i /\ is_group (hp s) i = true) /\ (forall k, pre (rp ++ [k]) t -> ~ futc s k))); auto.
    + intros s5 x Hx W5 [[A5 G5] N5]. apply item_keeps; auto.
    + split; [auto|]. apply NF. eapply frame_trans; [|exact F4|exact W]. eapply frame_trans; [|exact F3|exact W]. eapply frame_trans; eassumption.
  - intros u4 s5 W5 F5 [[A5 G5] N5] _. apply keeps_ret; [exact W5|]. exists i. auto.
Qed.
Lemma value_keeps : wspec (write_value o rnd tries wr).
Proof.
  intros s g nm v W K. unfold write_value. destruct v; try (apply np_keeps; assumption);
    try (eapply keeps_imp; [apply dict_keeps; assumption|]; intros s' r _ _ (i & -> & A & _); exact A).
  - unfold bindm, lift. destruct (utf8_encode text); [apply np_keeps; assumption|apply keeps_err; exact W].
  - apply keeps_err. exact W.
Qed.
End Marsh.

(** a write, whether it ends well or with an exception *)
Theorem write_keeps n : wspec (write o rnd tries n).
Proof.
  induction n as [|n IH]; [intros s g nm v W K; apply keeps_err; exact W|]. cbn [write]. apply value_keeps. exact IH.
Qed.
End WriteFrame.
