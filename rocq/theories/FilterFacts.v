From Verif Require Import Base PathEsc PosixPath PosixFacts ProcessPath ProcessPathFacts Unicode MColl Dec NdArray Value OptionsM StrConv Attrs NpDims Hdf5 HeapFacts NpWrite NpRead MarshalW MarshalR FileApi ApiFacts ApiSpec FileFacts HistoryFacts Steps CutM StepsCut FilterSpec.
Local Open Scope nat_scope.

Lemma np_filters_right o shape bytes : stored_right o shape bytes (filt_of (np_filters o shape bytes)).
Proof.
  unfold np_filters. set (t := match as_int (o_threshold o) with Some z => (z <=? Z.of_nat bytes)%Z | None => false end).
  assert (NS : negb (eqb_shape shape []) = true <-> shape <> []).
  { destruct shape; cbn; [split; [discriminate|congruence]|split; [discriminate|reflexivity]]. }
  assert (T : t = true <-> exists z, as_int (o_threshold o) = Some z /\ (z <= Z.of_nat bytes)%Z).
  { unfold t. destruct (as_int (o_threshold o)) as [z|]; [|split; [discriminate|intros (z & X & _); discriminate]].
    rewrite Z.leb_le. split; [eauto|]. intros (z' & [= <-] & X). exact X. }
  destruct (negb (eqb_shape shape []) && o_compress o && t) eqn:E.
  - assert (TC : to_compress o shape bytes).
    { apply andb_prop in E. destruct E as [E E3]. apply andb_prop in E. destruct E as [E1 E2]. split; [apply NS; exact E1|]. split; [exact E2|apply T; exact E3]. }
    cbn [filt_of f_comp f_level f_shuffle f_fletcher f_chunked d_comp d_opts d_shuffle d_fletcher d_chunks]. split; [|split].
    + intros _. split; [reflexivity|]. split; [intros ->; reflexivity|]. split; reflexivity.
    + intros N. contradiction.
    + cbn. split; [intros _; left; discriminate|reflexivity].
  - assert (TC : ~ to_compress o shape bytes).
    { intros (A & B & C). apply NS in A. apply T in C. rewrite A, B, C in E. discriminate. }
    cbn [filt_of f_comp f_level f_shuffle f_fletcher f_chunked d_comp d_opts d_shuffle d_fletcher d_chunks]. split; [|split].
    + intros N. contradiction.
    + intros _. split; [reflexivity|]. split; [reflexivity|]. split; [reflexivity|]. destruct (negb (eqb_shape shape [])).
      * rewrite <- NS. tauto.
      * split; [discriminate|]. intros [X _]. apply NS in X. discriminate.
    + cbn. split; [intros X; right; exact X|intros [X|X]; [congruence|exact X]].
Qed.

(** what holds of every object of a file *)
Definition objs (P : obj -> Prop) (s : st) : Prop := forall i ob, hp s i = Some ob -> P ob.
Definition right_data (o : options) (ob : obj) : Prop :=
  forall a f, o_body ob = BData a f ->
    (exists d, stored_dt d = a_dt a /\ stored_right o (a_shape a) (size a * itemsize d) f) \/ BData a f = canon_body.

Lemma step_objs (P : obj -> Prop) o s s' :
  (forall nm, P (mkObj nm no_attrs (BGroup []))) -> (forall nm at_ l l', P (mkObj nm at_ (BGroup l)) -> P (mkObj nm at_ (BGroup l'))) ->
  (forall nm a, In a canon_parts -> P (mkObj (nm ++ [lit "a"]) a canon_body)) ->
  (forall nm a, P (mkObj nm no_attrs (BData (mkArr (stored_dt (a_dt a)) (a_shape a) (a_data a)) (filt_of (np_filters o (a_shape a) (size a * itemsize (a_dt a))))))) ->
  (forall ob at_, P ob -> (forall k v, at_ k = Some v -> o_attrs ob k = Some v \/ attr_allowed o k) -> P (with_attrs ob at_)) ->
  (forall ob old f a d, P ob -> o_body ob = BData old f ->
    same_dataset (BData old f) a (np_filters o (a_shape a) (size a * itemsize (a_dt a))) = true ->
    same_opts (BData old f) (np_filters o (a_shape a) (size a * itemsize (a_dt a))) = Some true ->
    P (with_body ob (BData (mkArr (a_dt old) (a_shape old) d) f))) ->
  objs P s -> step o s s' -> objs P s'.
Proof.
  intros H1 H2 H3 H4 H5 H6 I S.
  assert (GB : forall g, is_group (hp s) g = true -> forall l, P (mkObj (name_of (hp s) g) (attrs_of (hp s) g) (BGroup l))).
  { intros g G l. destruct (group_body _ _ G) as (ob & ls & E1 & E2 & E3). apply (H2 _ _ (links (hp s) g)).
    rewrite <- (obj_eta _ _ _ _ E1 E2). apply (I _ _ E1). }
  assert (NEW : forall g k at_ b, is_group (hp s) g = true -> P (mkObj (name_of (hp s) g ++ [k]) at_ b) -> objs P (put_new s g k at_ b)).
  { intros g k at_ b G Pb i ob. unfold put_new, add_obj, upd. cbn [hp]. destruct (i =? nxt s); [intros [= <-]; exact Pb|].
    destruct (i =? g); [intros [= <-]; apply GB; exact G|apply I]. }
  destruct S; try (apply NEW; auto; fail).
  - intros j ob'. cbn [hp set_hp]. unfold upd. destruct (j =? i); [intros [= <-]; apply H5; [eapply I|]; eassumption|apply I].
  - intros i ob'. cbn [hp set_hp]. unfold rm_link, upd. destruct (i =? g); [intros [= <-]; apply GB; eapply lookup_group; eassumption|apply I].
  - intros j ob'. cbn [hp set_hp]. unfold upd. destruct (j =? i); [intros [= <-]; eapply H6; eauto|apply I].
  - intros i ob. rewrite H. apply I.
Qed.
Lemma right_step o s s' : objs (right_data o) s -> step o s s' -> objs (right_data o) s'.
Proof.
  apply step_objs.
  - intros nm a f. discriminate.
  - intros nm at_ l l' _ a f. discriminate.
  - intros nm at_ _ a f H. right. symmetry. exact H.
  - intros nm a a' f [= <- <-]. left. exists (a_dt a). split; [reflexivity|]. apply np_filters_right.
  - intros ob at_ H _ a f. apply H.
  - intros ob old f a da H E S1 S2 a' f' [= <- <-]. left. destruct (H old f E) as [(d & D1 & D2)|C].
    + exists d. split; [exact D1|exact D2].
    + injection C as -> ->. exists (TU 8). split; [reflexivity|]. cbn [a_dt a_shape].
      cbn [same_dataset] in S1. apply andb_prop in S1. destruct S1 as [S1 Q5]. apply andb_prop in S1. destruct S1 as [S1 Q4].
      apply andb_prop in S1. destruct S1 as [S1 Q3]. apply andb_prop in S1. destruct S1 as [Q1 Q2].
      assert (DT : a_dt a = TU 8).
      { change (dt_eqb (TU 8) (a_dt a) = true) in Q1. destruct (a_dt a); cbn [dt_eqb] in Q1; try discriminate. apply Nat.eqb_eq in Q1. congruence. }
      assert (SH : a_shape a = [2]) by (cbn [a_shape] in Q2; destruct (a_shape a) as [|x [|y l]]; cbn in Q2; try discriminate;
        unfold eqb_shape in Q2; destruct (list_eq_dec _ _ _) in Q2; congruence).
      assert (SZ : size a * itemsize (a_dt a) = 2 * itemsize (TU 8)) by (unfold size; rewrite SH, DT; reflexivity).
      rewrite SZ, SH in *. pose proof (np_filters_right o [2] (2 * itemsize (TU 8))) as R.
      change (size {| a_dt := TU 8; a_shape := [2]; a_data := da |}) with 2.
      destruct (np_filters o [2] (2 * itemsize (TU 8))) as [c op sh fl ch] eqn:EF. cbn [d_comp d_shuffle d_fletcher f_comp f_shuffle f_fletcher] in *.
      destruct c; [discriminate|]. destruct sh; [discriminate|]. destruct fl; [discriminate|]. cbn [same_opts d_opts f_level] in S2.
      destruct op as [[z|]|]; try discriminate. unfold filt_of in R. cbn [d_comp d_opts d_shuffle d_fletcher d_chunks] in R.
      assert (ch = false) as ->; [|exact R]. destruct ch; [|reflexivity]. destruct R as (_ & _ & R). destruct R as [R _].
      destruct R as [R|R]; [reflexivity| |]; cbn in R; congruence.
Qed.
Theorem filters_right : forall o s, made_with o s -> objs (right_data o) s.
Proof.
  induction 1.
  - intros i ob. cbn. destruct (i =? 0); [|discriminate]. intros [= <-] a f. discriminate.
  - exact IHmade_with.
  - eapply (steps_inv o); [apply right_step|apply (does_writes o rnd tries n (mkFile b s) mdict)|exact IHmade_with].
  - eapply (steps_inv o); [apply right_step|exact (does_cut o rnd tries n (mkFile b s) mdict s' H0)|exact IHmade_with].
  - eapply (steps_inv o); [apply right_step|apply (does_del o (mkFile b s) p)|exact IHmade_with].
Qed.

(** every attribute is one the options allow, or of the canonical empty *)
Definition marked (o : options) (ob : obj) : Prop := forall k v, o_attrs ob k = Some v -> attr_allowed o k \/ canonical_mark (o_name ob) k v.
Lemma canon_marked o nm a : In a canon_parts -> marked o (mkObj (nm ++ [lit "a"]) a canon_body).
Proof.
  intros Ha k v H. right. split; [cbn [o_name]; apply last_last|]. cbn [o_attrs] in H.
  destruct Ha as [<-|[<-|[<-|[]]]]; [discriminate H|unfold set_attr, no_attrs in H; destruct (eqb_str_spec k (lit "MATLAB_class")) as [->|]; [left; split; congruence|discriminate]|].
  unfold canon_attrs, set_attr, no_attrs in H.
  destruct (eqb_str_spec k (lit "MATLAB_empty")) as [->|]; [right; split; congruence|].
  destruct (eqb_str_spec k (lit "MATLAB_class")) as [->|]; [left; split; congruence|discriminate].
Qed.
Lemma marked_step o s s' : objs (marked o) s -> step o s s' -> objs (marked o) s'.
Proof.
  apply step_objs.
  - intros nm k v. discriminate.
  - intros nm at_ l l' H k v. apply H.
  - apply canon_marked.
  - intros nm a k v. discriminate.
  - intros ob at_ H A k v E. destruct (A k v E) as [X|X]; [|left; exact X]. apply (H k v X).
  - intros ob old f a d H _ _ _ k v. apply H.
Qed.
Theorem only_asked : forall o s, made_with o s -> objs (marked o) s.
Proof.
  induction 1.
  - intros i ob. cbn. destruct (i =? 0); [|discriminate]. intros [= <-] k v. discriminate.
  - exact IHmade_with.
  - eapply (steps_inv o); [apply marked_step|apply (does_writes o rnd tries n (mkFile b s) mdict)|exact IHmade_with].
  - eapply (steps_inv o); [apply marked_step|exact (does_cut o rnd tries n (mkFile b s) mdict s' H0)|exact IHmade_with].
  - eapply (steps_inv o); [apply marked_step|apply (does_del o (mkFile b s) p)|exact IHmade_with].
Qed.
(** and a write to any file adds no others *)
Definition kept (h : nat -> option obj) (o : options) (s : st) : Prop := forall i ob k v, hp s i = Some ob -> o_attrs ob k = Some v ->
  (exists ob0, h i = Some ob0 /\ o_attrs ob0 k = Some v) \/ attr_allowed o k \/ canonical_mark (o_name ob) k v.
Lemma kept_step h o s s' : kept h o s -> step o s s' -> kept h o s'.
Proof.
  intros I S.
  assert (AT : forall g, is_group (hp s) g = true -> forall k v, attrs_of (hp s) g k = Some v ->
     (exists ob0, h g = Some ob0 /\ o_attrs ob0 k = Some v) \/ attr_allowed o k \/ canonical_mark (name_of (hp s) g) k v).
  { intros g G k v. destruct (group_body _ _ G) as (ob & ls & E1 & E2 & E3). unfold attrs_of, name_of. rewrite E1. apply I. exact E1. }
  assert (NEW : forall g k at_ b, is_group (hp s) g = true -> marked o (mkObj (name_of (hp s) g ++ [k]) at_ b) -> kept h o (put_new s g k at_ b)).
  { intros g k at_ b G M i ob k' v'. unfold put_new, add_obj, upd. cbn [hp]. destruct (i =? nxt s); [intros [= <-] H; right; apply M; exact H|].
    destruct (i =? g) eqn:Q; [apply Nat.eqb_eq in Q; subst i; intros [= <-]; apply AT; exact G|apply I]. }
  destruct S.
  - apply NEW; [assumption|]. intros k' v'. discriminate.
  - apply NEW; [assumption|]. apply canon_marked. assumption.
  - apply NEW; [assumption|]. intros k' v'. discriminate.
  - intros j ob' k v. cbn [hp set_hp]. unfold upd. destruct (j =? i) eqn:Q; [|apply I]. apply Nat.eqb_eq in Q. subst j. intros [= <-] E.
    destruct (H0 k v E) as [X|X]; [|auto]. exact (I i ob k v H X).
  - intros x ob' k' v'. cbn [hp set_hp]. unfold rm_link, upd. destruct (x =? g) eqn:Q; [|apply I]. apply Nat.eqb_eq in Q. subst x. intros [= <-]. apply AT. eapply lookup_group; eassumption.
  - intros j ob' k v. cbn [hp set_hp]. unfold upd. destruct (j =? i) eqn:Q; [|apply I]. apply Nat.eqb_eq in Q. subst j. intros [= <-]. exact (I i ob k v H).
  - intros j ob' k v. rewrite H. apply I.
Qed.
(** every link name is one that h5py takes *)
Definition names_ok (ob : obj) : Prop := forall ls, o_body ob = BGroup ls -> Forall good_link (map fst ls).
Lemma ins_good {B} k (v : B) l : good_link k -> Forall good_link (map fst l) -> Forall good_link (map fst (ins k v l)).
Proof. intros H F. apply Forall_forall. intros x Hx. apply ins_keys in Hx. rewrite Forall_forall in F. destruct Hx as [->|Hx]; auto. Qed.
Lemma del_good {B} k (l : list (pystr * B)) : Forall good_link (map fst l) -> Forall good_link (map fst (del_key k l)).
Proof. intros F. apply Forall_forall. intros x Hx. apply del_keys in Hx. rewrite Forall_forall in F. auto. Qed.
Lemma names_step o s s' : objs names_ok s -> step o s s' -> objs names_ok s'.
Proof.
  intros I S.
  assert (LK : forall g, is_group (hp s) g = true -> Forall good_link (map fst (links (hp s) g))).
  { intros g G. destruct (group_body _ _ G) as (ob & ls & E1 & E2 & E3). rewrite E3. apply (I _ _ E1 _ E2). }
  assert (NEW : forall g k at_ b, is_group (hp s) g = true -> good_link k -> (forall ls, b = BGroup ls -> ls = []) -> objs names_ok (put_new s g k at_ b)).
  { intros g k at_ b G Gk Hb i ob. unfold put_new, add_obj, upd. cbn [hp]. destruct (i =? nxt s).
    { intros [= <-] ls E. cbn in E. rewrite (Hb _ E). constructor. }
    destruct (i =? g); [intros [= <-] ls [= <-]; apply ins_good; auto|apply I]. }
  destruct S.
  - apply NEW; auto. congruence.
  - apply NEW; auto; [apply good_a|discriminate].
  - apply NEW; auto. discriminate.
  - intros j ob'. cbn [hp set_hp]. unfold upd. destruct (j =? i); [intros [= <-]; exact (I _ _ H)|apply I].
  - intros i ob'. cbn [hp set_hp]. unfold rm_link, upd. destruct (i =? g); [intros [= <-] ls [= <-]; apply del_good, LK; eapply lookup_group; eassumption|apply I].
  - intros j ob'. cbn [hp set_hp]. unfold upd. destruct (j =? i); [intros [= <-] ls; discriminate|apply I].
  - intros i ob. rewrite H. apply I.
Qed.
Theorem reachable_names refs s : reachable refs s -> objs names_ok s.
Proof.
  induction 1 as [|s FE|s H IH|s o rnd tries n mdict f r H IH U NZ E|s o rnd tries n mdict s' H IH U NZ E|s p f r H IH NO E].
  - intros i ob. cbn. destruct (i =? 0); [|discriminate]. intros [= <-] ls [= <-]. constructor.
  - intros i ob A1 ls A2. cbn [new_session hp] in A1. apply Forall_forall. intros k Hk. apply in_map_iff in Hk. destruct Hk as ((k' & j) & <- & Hk). destruct (e_links _ _ FE _ _ _ _ _ A1 A2 Hk) as ((P1 & P2 & P3) & NE & _). split; [|apply name_err_iff in NE; exact (proj2 NE)]. split; [exact P1|]. split; [exact P2|exact P3].
  - exact IH.
  - pose proof (does_writes o rnd tries n (mkFile true s) mdict) as X. rewrite E in X. cbn [fst] in X.
    eapply (steps_inv o); [apply names_step|exact X|exact IH].
  - eapply (steps_inv o); [apply names_step|exact (does_cut o rnd tries n (mkFile true s) mdict s' E)|exact IH].
  - pose proof (does_del default_options (mkFile true s) p) as X. rewrite E in X. cbn [fst] in X.
    eapply (steps_inv default_options); [apply names_step|exact X|exact IH].
Qed.
Lemma iter_len_exact : forall refs s o k, reachable refs s -> o_refs o = refs -> refs = fslash :: k -> plain_link k -> name_err k = None ->
  exists l n, snd (file_iter o (mkFile true s)) = Ok l /\ snd (file_len o (mkFile true s)) = Ok n /\ NoDup l /\
  (n = length l <-> ~ In k l) /\
  forall name, name <> k ->
    (In name l <-> plain_link name /\ snd (file_contains (mkFile true s) (PStr name)) = Ok true).
Proof.
  intros refs s o k HR Ho Hk PK NK. destruct (iter_len refs s o k HR Ho Hk PK NK) as (l & n & A & B & C & D & E).
  exists l, n. split; [exact A|]. split; [exact B|]. split; [exact C|]. split; [exact D|]. intros name NE. split.
  - intros H. assert (G : good_link name).
    { cbn [file_iter snd fl_open fl_st] in A.
      assert (IN : In name (map fst (links (hp s) 0))).
      { injection A as <-. revert H. set (ns := map fst (links (hp s) 0)). destruct (eqb_str (dirname (o_refs o)) [fslash]); [|auto].
        generalize ns. clear. intros ns. induction ns as [|x ns IH]; [auto|]. cbn [dropwhile]. destruct (eqb_str (tl (o_refs o)) x); [right; auto|auto]. }
      unfold links in IN. destruct (hp s 0) as [ob|] eqn:E0; [|destruct IN]. pose proof (reachable_names refs s HR 0 ob E0) as N. unfold names_ok in N.
      destruct (o_body ob) as [|ls]; [destruct IN|]. specialize (N _ eq_refl). rewrite Forall_forall in N. apply N. exact IN. }
    destruct G as [(G1 & G2 & G3) G4]. assert (P : plain_link name) by (split; [exact G1|split; [exact G2|exact G3]]).
    split; [exact P|]. apply E; auto. apply name_err_iff. auto.
  - intros [P H]. apply E; auto. unfold file_contains in H. destruct P as (P1 & P2 & P3).
    assert (PP : exists g, process_path (PStr name) = Ok (g, name) /\ g = [fslash]).
    { exists [fslash]. split; [|reflexivity]. apply process_str_plain. exact (conj P1 (conj P2 P3)). }
    destruct PP as (g & PP & ->). rewrite PP in H. cbn [snd fl_open fl_st] in H. unfold h5_in, get_obj in H.
    destruct (name_err (posix_join [fslash] [name])) eqn:NN; [discriminate|]. apply name_err_iff in NN. apply name_err_iff. split; [exact P1|].
    destruct NN as [_ NN]. unfold posix_join, join_step in NN. cbn [fold_left] in NN.
    assert (ST : starts_slash name = false) by (apply starts_noslash; exact P3). rewrite ST in NN. cbn in NN. inversion NN; assumption.
Qed.

Lemma occupies_itemsize : forall d, occupies d (itemsize d).
Proof.
  fix go 1. intros d. destruct d as [|w|w|w|w|n|n| | |fs]; try constructor.
  induction fs as [|[k [d sh]] fs IH]; [constructor|]. cbn [itemsize map list_sum fold_right] in *. constructor; [apply go|exact IH].
Qed.
