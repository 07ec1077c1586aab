(** The round trip of dicts and of the values that are stored like them. *)
From Verif Require Import Base PathEsc PathEscFacts PosixPath PosixFacts ProcessPathFacts Unicode UnicodeFacts Dec NdArray Value OptionsM StrConv ComplexM Attrs NpDims MColl Hdf5 HeapFacts NpWrite NpRead MarshalW MarshalR FrameFacts WriteFrame ReadFacts RoundSpec RoundNp RoundHeap RoundWrite RoundVal.
Local Open Scope nat_scope.

Lemma text_join cs : cs <> [] -> name_text cs = fslash :: join_slash cs.
Proof.
  intros H. destruct cs as [|c cs]; [congruence|]. clear H. unfold name_text. revert c. induction cs as [|d cs IH]; intros c; [cbn; rewrite app_nil_r; reflexivity|].
  rewrite join_cons by discriminate. change (flat_map (fun c => fslash :: c) (c :: d :: cs)) with ((fslash :: c) ++ flat_map (fun c => fslash :: c) (d :: cs)). rewrite IH. reflexivity.
Qed.
Lemma text_comps cs : Forall clean cs -> path_comps (name_text cs) = cs.
Proof.
  intros H. destruct cs as [|c cs]; [reflexivity|]. rewrite text_join by discriminate. apply (path_comps_built 1 (c :: cs) H).
Qed.
Lemma walk_clean h n : tree h n -> forall p i j, walk h i p = Some j -> Forall clean p.
Proof.
  intros T. induction p as [|k p IH]; intros i j Wk; [constructor|]. cbn [walk] in Wk. destruct (lookup h i k) as [m|] eqn:L; [|discriminate].
  constructor; [|eapply IH; exact Wk]. destruct (t_keys _ _ T i) as [_ C]. rewrite Forall_forall in C. apply C.
  unfold lookup in L. apply assoc_In in L. apply in_map_iff. exists (k, m). auto.
Qed.
Lemma live_clean h n i : tree h n -> live h i = true -> Forall clean (name_of h i).
Proof. intros T L. apply live_walk in L. eapply walk_clean; eassumption. Qed.
Lemma prune_empty i keep s : links (hp s) i = [] -> prune i keep s = (s, Ok tt).
Proof. intros E. unfold prune. rewrite E. reflexivity. Qed.

Notation kst := (lit "Python.dict.key_str_types").
Section Dicts.
Variables (wo ro : options) (keq : pyval -> pyval -> bool) (rnd : nat -> N) (tries : nat).
Notation rp := (rp wo). Notation ra := (ra wo). Notation wf := (wf wo). Notation frame := (frame wo rnd).
Notation okt := (okt wo). Notation wspec := (wspec wo rnd).
Notation held := (held ro keq). Notation reg := (reg wo rnd). Notation unreserved := (unreserved wo rnd).
Notation storable := (storable wo ro keq).
Hypotheses (HP : paired wo ro) (HI : inj_rnd rnd).
Variable wr : nat -> pystr -> pyval -> M (option nat).
Hypotheses (Hwr : wspec wr) (Hrt : rspec wo ro keq rnd wr).

(** ** members *)
Lemma item_held s t i p k v s' u : wf s -> at_target s t i -> is_group (hp s) i = true -> unreserved s t -> lookup (hp s) i k = None ->
  (k = [] \/ clean k) -> storable v -> write_item wo wr i p (k, v) s = (s', Ok u) ->
  wf s' /\ frame (pre (t ++ [k])) s s' /\ at_target s' t i /\ is_group (hp s') i = true /\ attrs_of (hp s') i = attrs_of (hp s) i /\
  (forall k', k' <> k -> lookup (hp s') i k' = lookup (hp s) i k') /\
  exists j, lookup (hp s') i k = Some j /\ held (hp s') (reg s (t ++ [k])) j v.
Proof.
  intros W A G U L C V E. destruct A as (A1 & A2 & A3).
  assert (K : okt s i k).
  { destruct (unreserved_member wo rnd s t k U) as [U1 U2]. constructor; rewrite ?A3; auto. intros x P F. apply (U2 x P). apply futc_fut. exact F. }
  pose proof (Hwr s i k v W K) as (W1 & F1 & P1). unfold write_item in E. cbn [fst snd] in E. apply bind_ok in E. destruct E as (s1 & r & E1 & E). rewrite E1 in *. cbn [fst snd] in *.
  assert (UM : unreserved s (name_of (hp s) i ++ [k])) by (rewrite A3; apply unreserved_member; exact U).
  destruct (Hrt s i k v s1 r W K L UM V E1) as (j & -> & HJ). specialize (P1 _ eq_refl). cbn beta iota in P1. rewrite A3 in *. destruct u.
  assert (NA : name_of (hp s1) j <> ra).
  { destruct P1 as (_ & _ & ->). intros X. apply (proj1 UM). rewrite <- X. apply pre_refl. }
  assert (RJ : pre (t ++ [k]) (name_of (hp s1) j)) by (destruct P1 as (_ & _ & ->); apply pre_refl).
  pose proof (mark_keeps wo rnd (pre (t ++ [k])) s1 j p W1 RJ NA) as (W2 & F2 & _). pose proof (mark_held wo ro keq s1 j p s' (reg s (t ++ [k])) j v E HJ) as HJ'.
  rewrite E in W2, F2. cbn [fst] in W2, F2.
  assert (FF : frame (pre (t ++ [k])) s s') by (eapply frame_trans; eassumption).
  assert (NT : ~ pre (t ++ [k]) t) by apply pre_snoc_self.
  assert (AT : at_target s' t i) by (apply (at_target_frame wo rnd _ _ _ _ _ FF NT); repeat split; assumption).
  split; [exact W2|]. split; [exact FF|]. split; [exact AT|]. split; [destruct (f_obj _ _ _ _ _ FF i A1) as (_ & _ & ->); exact G|].
  split; [apply (f_keep _ _ _ _ _ FF i A2); rewrite A3; exact NT|].
  split.
  - intros k' N. apply (other_link wo rnd s s' t i k k'); auto. repeat split; assumption.
  - exists j. split; [|exact HJ']. apply (child_link wo s' t); auto.
    assert (X : hp s1 j <> None) by apply P1. destruct P1 as (_ & P2 & P3).
    destruct (f_obj _ _ _ _ _ F2 j X) as (Y1 & Y2 & _). split; [exact Y1|]. split; [|congruence].
    destruct HJ' as (Q & v' & Qj & CQ & _). apply (CQ j Qj).
Qed.

Definition keys_of (kvs : list (pystr * pyval)) (t p : list pystr) : Prop := exists k, In k (map fst kvs) /\ pre (t ++ [k]) p.
Lemma members_held t i p kvs : forall s s' u, wf s -> at_target s t i -> is_group (hp s) i = true -> unreserved s t ->
  NoDup (map fst kvs) -> (forall k, In k (map fst kvs) -> lookup (hp s) i k = None) -> Forall (fun kv => fst kv = [] \/ clean (fst kv)) kvs ->
  Forall storable (map snd kvs) -> iterM (write_item wo wr i p) kvs s = (s', Ok u) ->
  wf s' /\ frame (keys_of kvs t) s s' /\ at_target s' t i /\ is_group (hp s') i = true /\ attrs_of (hp s') i = attrs_of (hp s) i /\
  (forall k', ~ In k' (map fst kvs) -> lookup (hp s') i k' = lookup (hp s) i k') /\
  Forall (fun kv => exists j, lookup (hp s') i (fst kv) = Some j /\ held (hp s') (reg s (t ++ [fst kv])) j (snd kv)) kvs.
Proof.
  induction kvs as [|[k v] kvs IH]; intros s s' u W A G U N L C V E; cbn [iterM] in E.
  - apply ret_ok in E. destruct E as [-> _]. split; [exact W|]. split; [apply frame_refl; exact W|]. split; [exact A|]. split; [exact G|]. split; [reflexivity|]. split; [reflexivity|constructor].
  - apply bind_ok in E. destruct E as (s1 & u1 & E1 & E). cbn [map fst snd] in *. inversion N as [|? ? N1 N2]; subst. inversion C as [|? ? C1 C2]; subst. inversion V as [|? ? V1 V2]; subst. cbn [fst] in C1.
    destruct (item_held s t i p k v s1 u1 W A G U (L k (or_introl eq_refl)) C1 V1 E1) as (W1 & F1 & A1 & G1 & T1 & L1 & j & J1 & J2).
    assert (U1 : unreserved s1 t) by (eapply unreserved_frame; eassumption).
    destruct (IH s1 s' u W1 A1 G1 U1 N2) as (W2 & F2 & A2 & G2 & T2 & L2 & H2); auto.
    { intros k' Hk. rewrite L1; [apply L; right; exact Hk|]. intros ->. exact (N1 Hk). }
    split; [exact W2|]. split.
    { eapply frame_trans; [|eapply frame_sub; [exact F2|]|exact W].
      - eapply frame_sub; [exact F1|]. intros q Pq. exists k. split; [left; reflexivity|exact Pq].
      - intros q (k' & Hk & Pq). exists k'. split; [right; exact Hk|exact Pq]. }
    split; [exact A2|]. split; [exact G2|]. split; [congruence|]. split.
    { intros k' Hk. cbn in Hk. rewrite L2 by tauto. apply L1. intros ->. tauto. }
    constructor.
    + cbn [fst snd]. exists j. split; [rewrite L2; assumption|]. eapply held_frame; [exact F2| |exact J2].
      intros q Hq. assert (CC : forall k2, In k2 (map fst kvs) -> clear wo (reg s (t ++ [k])) (pre (t ++ [k2]))).
      { intros k2 H. apply member_clear; [exact U|]. intros ->. exact (N1 H). }
      destruct (Hq : reg s (t ++ [k]) q) as [Hp|Hp].
      * split; [intros (k2 & K1 & K2); apply (proj1 (CC k2 K1 q Hq) K2)|]. split; [intros x (k2 & K1 & K2); apply (proj1 (proj2 (CC k2 K1 q Hq)) x K2)|].
        intros P. apply (not_refs wo rnd s t U). eapply pre_snoc. eapply pre_trans; eassumption.
      * split; [intros (k2 & K1 & K2); apply (proj1 (CC k2 K1 q Hq) K2)|]. split; [intros x (k2 & K1 & K2); apply (proj1 (proj2 (CC k2 K1 q Hq)) x K2)|].
        apply (elem_clear0 wo rnd s q Hp).
    + eapply Forall_impl; [|exact H2]. cbn. intros kv (j' & X1 & X2). exists j'. split; [exact X1|]. eapply held_weaken; [exact X2|].
      intros q [Hq|Hq]; [left; exact Hq|right; eapply elem_mono; eassumption].
Qed.

(** ** what [dict_write] leaves in the file *)
Definition dict_kvs (items : list (pyval * pyval)) : list (pystr * pyval) :=
  match key_codes (map fst items) with
  | None => [(o_keys_name wo, VSeq QTuple (map fst items)); (o_values_name wo, VSeq QTuple (map snd items))]
  | Some cs => combine (map (fun c => escaped (snd c)) cs) (map snd items)
  end.
(** the attributes of a dict; key_str_types may be left from an earlier dict with another
    number of keys, which does not matter when the keys are strs *)
Definition dict_marks (at_ : attrs) (ts : pystr) (plain : bool) (codes : option (list (N * pystr))) : Prop :=
  (forall k, k <> kst -> at_ k = fresh_attrs (dict_attrs wo ts plain codes) k) /\
  (at_ kst = fresh_attrs (dict_attrs wo ts plain codes) kst \/
   exists cs b, codes = Some cs /\ at_ kst = Some (AStr b) /\ Forall (fun x => (x < 128)%N) b /\ length b <> length cs /\ Forall (fun c => fst c = 116%N) cs).
Definition dict_left (s : st) (g : nat) (nm : pystr) (items : list (pyval * pyval)) (ts : pystr) (plain : bool) (s' : st) (r : option nat) : Prop :=
  exists i ob ls Q js vs', r = Some i /\ hp s' i = Some ob /\ o_body ob = BGroup ls /\ Q i /\ closed (hp s') (reg s (name_of (hp s) g ++ [nm])) Q /\
    dict_marks (o_attrs ob) ts plain (key_codes (map fst items)) /\
    (forall k, In k (map fst ls) -> In k (map fst (dict_kvs items))) /\
    Forall2 (fun kv j => lookup (hp s') i (fst kv) = Some j) (dict_kvs items) js /\
    Forall2 same (map snd (dict_kvs items)) vs' /\
    Forall2 (fun j xv => forall n, depth (fst xv) <= n -> read ro keq (hp s') n j = Ok (snd xv)) js (combine (map snd (dict_kvs items)) vs') /\
    Forall (fun j => is_refs ro (hp s') j = false) js.
Lemma dict_tail s t s6 i ts plain items : unreserved s t -> wf s6 -> at_target s6 t i -> is_group (hp s6) i = true ->
  dict_marks (attrs_of (hp s6) i) ts plain (key_codes (map fst items)) ->
  (forall k, In k (map fst (links (hp s6) i)) -> In k (map fst (dict_kvs items))) ->
  Forall (fun kv => exists j, lookup (hp s6) i (fst kv) = Some j /\ held (hp s6) (reg s t) j (snd kv)) (dict_kvs items) ->
  exists ob ls Q js vs', hp s6 i = Some ob /\ o_body ob = BGroup ls /\ Q i /\ closed (hp s6) (reg s t) Q /\
    dict_marks (o_attrs ob) ts plain (key_codes (map fst items)) /\
    (forall k, In k (map fst ls) -> In k (map fst (dict_kvs items))) /\
    Forall2 (fun kv j => lookup (hp s6) i (fst kv) = Some j) (dict_kvs items) js /\
    Forall2 same (map snd (dict_kvs items)) vs' /\
    Forall2 (fun j xv => forall n, depth (fst xv) <= n -> read ro keq (hp s6) n j = Ok (snd xv)) js (combine (map snd (dict_kvs items)) vs') /\
    Forall (fun j => is_refs ro (hp s6) j = false) js.
Proof.
  intros U W6 A6 G6 DM LK0 H6. set (kvs := dict_kvs items) in *.
  assert (JS : exists js, Forall2 (fun kv j => lookup (hp s6) i (fst kv) = Some j) kvs js /\ Forall2 (held (hp s6) (reg s t)) js (map snd kvs)).
  { clear - H6. induction H6 as [|kv l (j & J1 & J2) _ (js & I1 & I2)]; [exists []; split; constructor|]. exists (j :: js). split; constructor; auto. }
  destruct JS as (js & J1 & J2). destruct (same_lists ro keq (hp s6) js _ _ J2) as (Q & vs' & S1 & S2 & S3 & S4).
  destruct A6 as (D1 & D2 & D3). destruct (hp s6 i) as [ob'|] eqn:O6; [|congruence].
  unfold is_group in G6. rewrite O6 in G6. destruct (o_body ob') as [|ls] eqn:B6; [discriminate|].
  assert (LL : links (hp s6) i = ls) by (unfold links; rewrite O6, B6; reflexivity).
  assert (LK : forall k, In k (map fst ls) -> In k (map fst kvs)) by (rewrite <- LL; exact LK0).
  exists ob', ls, (fun j => j = i \/ Q j), js, vs'. split; [reflexivity|]. split; [exact B6|]. split; [left; reflexivity|].
  split; [|split; [|split; [exact LK|split; [exact J1|split; [exact S1|split; [exact S4|]]]]]].
  - intros j [->|Hj].
    + split; [exact D2|]. rewrite D3. split; [left; apply pre_refl|]. exists ob'. split; [exact O6|]. split.
      * intros k m Hm. right. rewrite LL in Hm. assert (Hk : In k (map fst kvs)) by (apply LK; apply in_map_iff; exists (k, m); auto).
        destruct (t_keys _ _ (w_tree _ _ W6) i) as [ND _]. rewrite LL in ND. pose proof (in_assoc k m ls ND Hm) as X.
        apply in_map_iff in Hk. destruct Hk as ([k' v] & Ek & Hk). cbn in Ek. subst k'. clear - J1 S3 Hk X LL.
        induction J1 as [|kv j l js Hl J1 IH]; [destruct Hk|]. inversion S3; subst. destruct Hk as [->|Hk]; [|apply IH; assumption].
        cbn [fst] in Hl. unfold lookup in Hl. rewrite X in Hl. injection Hl as ->. assumption.
      * intros a f m X. congruence.
    + destruct (S2 j Hj) as (C1 & C2 & oj & C3 & C4 & C5). split; [exact C1|]. split; [exact C2|]. exists oj. split; [exact C3|].
      split; [intros k m Hm; right; apply (C4 k m Hm)|intros x y m B Hm; right; apply (C5 x y m B Hm)].
  - unfold attrs_of in DM. rewrite O6 in DM. exact DM.
  - clear - J1 W6 D1 D2 D3 O6 U HP. induction J1 as [|kv j l js Hl J1 IH]; constructor; auto.
    unfold is_refs. apply eqb_str_neq. intros X. assert (AT : at_target s6 t i) by (repeat split; congruence).
    destruct (link_child wo s6 t i (fst kv) j W6 AT Hl) as (Y1 & Y2 & Y3).
    pose proof (live_clean _ _ j (w_tree _ _ W6) Y2) as CL. apply (f_equal path_comps) in X. rewrite text_comps in X by exact CL.
    rewrite (p_refs _ _ HP) in X. change (path_comps (o_refs wo)) with rp in X. rewrite Y3 in X.
    apply (proj1 (unreserved_member wo rnd s t (fst kv) U)). rewrite X. apply pre_app.
Qed.
Lemma dict_stored s g nm items ts plain s' r : wf s -> okt s g nm -> (forall i, lookup (hp s) g nm = Some i -> is_group (hp s) i = false) -> unreserved s (name_of (hp s) g ++ [nm]) ->
  NoDup (map fst (dict_kvs items)) -> Forall (fun kv => fst kv = [] \/ clean (fst kv)) (dict_kvs items) -> Forall storable (map snd (dict_kvs items)) ->
  NoDup (map fst (dict_attrs wo ts plain (key_codes (map fst items)))) ->
  dict_write wo wr g nm items ts plain s = (s', Ok r) ->
  dict_left s g nm items ts plain s' r.
Proof.
  intros W K L U N C V NA E. set (t := name_of (hp s) g ++ [nm]) in *. unfold dict_write in E. cbv zeta in E. fold (dict_kvs items) in E.
  set (kvs := dict_kvs items) in *. set (codes := key_codes (map fst items)) in *.
  apply bind_ok in E. destruct E as (s1 & i & E1 & E).
  assert (E1' : wf s1 /\ frame (pre t) s s1 /\ at_target s1 t i /\ hp s1 i = Some (mkObj t no_attrs (BGroup []))).
  { unfold open_group in E1. apply bind_ok in E1. destruct E1 as (sa & x & Ea & E1).
    destruct (get_name g nm s (k_name _ _ _ _ K)) as [[e X]|(_ & _ & X)]; rewrite X in Ea; [discriminate|]. injection Ea as <- <-.
    destruct (lookup (hp s) g nm) as [j|] eqn:LJ.
    - specialize (L j eq_refl). apply bind_ok in E1. destruct E1 as (s0 & y & Ey & E1). apply gets_ok in Ey. destruct Ey as [-> ->]. rewrite L in E1.
      apply bind_ok in E1. destruct E1 as (s0 & [] & Ey & E1). destruct (unlink_keeps wo rnd s g nm W K) as (W0 & F0 & _). rewrite Ey in *. cbn [fst] in *.
      destruct (okt_frame wo rnd _ _ _ _ _ W F0 (okt_own s g nm) K) as [K0 N0].
      destruct (fresh_link wo rnd s0 g nm no_attrs (BGroup []) s1 i W0 K0 eq_refl E1) as (W1 & F1 & A1 & O1). rewrite N0 in *. fold t in F0, F1, A1, O1.
      split; [exact W1|]. split; [eapply frame_trans; eassumption|]. auto.
    - exact (fresh_link wo rnd s g nm no_attrs (BGroup []) s1 i W K eq_refl E1). }
  destruct E1' as (W1 & F1 & A1 & O1).
  apply bind_ok in E. destruct E as (s2 & [] & E2 & E).
  destruct (sync_stored s1 i _ _ s2 O1 eq_refl NA E2) as (at_ & -> & HA). set (ob := with_attrs (mkObj t no_attrs (BGroup [])) at_) in *.
  set (s2 := set_hp s1 (upd (hp s1) i ob)) in *. destruct A1 as (B1 & B2 & B3).
  assert (O2 : hp s2 i = Some ob) by apply upd_same.
  assert (SK : same_kind (BGroup []) (o_body ob)) by reflexivity.
  assert (W2 : wf s2) by (eapply wf_change; [exact W1|exact O1|reflexivity|reflexivity|rewrite B3; intros X; apply (proj1 U); rewrite X; apply pre_refl|intros d f j [=]]).
  assert (F2 : frame (pre t) s1 s2) by (eapply frame_change; [exact W1|exact O1|reflexivity|exact SK|rewrite B3; apply pre_refl]).
  assert (A2 : at_target s2 t i).
  { split; [rewrite O2; discriminate|]. split; [unfold s2; cbn [hp set_hp]; rewrite (change_live s1 i _ ob O1 eq_refl SK); exact B2|].
    unfold s2. cbn [hp set_hp]. rewrite (mod_name _ _ _ ob O1 eq_refl). exact B3. }
  assert (L2 : links (hp s2) i = []) by (unfold links; rewrite O2; reflexivity).
  assert (G2 : is_group (hp s2) i = true) by (unfold is_group; rewrite O2; reflexivity).
  apply bind_ok in E. destruct E as (s3 & [] & E3 & E).
  assert (s3 = s2) as ->.
  { destruct (_ || _); [rewrite prune_empty in E3 by exact L2; congruence|apply ret_ok in E3; tauto]. }
  apply bind_ok in E. destruct E as (s4 & p & E4 & E). apply gets_ok in E4. destruct E4 as [-> Ep].
  apply bind_ok in E. destruct E as (s5 & [] & E5 & E).
  assert (s5 = s2) as ->.
  { destruct (o_matlab_compatible wo); [|apply ret_ok in E5; tauto]. apply bind_ok in E5. destruct E5 as (s6 & b & E5 & E6). apply lift_ok in E5. destruct E5 as [-> _]. apply ret_ok in E6. tauto. }
  apply bind_ok in E. destruct E as (s6 & [] & E6 & E). apply ret_ok in E. destruct E as [-> ->].
  assert (U2 : unreserved s2 t) by (eapply unreserved_frame; [exact F2|]; eapply unreserved_frame; [exact F1|exact U]).
  destruct (members_held t i p kvs s2 s6 tt W2 A2 G2 U2 N) as (W6 & F6 & A6 & G6 & T6 & L6 & H6); auto.
  { intros k _. unfold lookup. rewrite L2. reflexivity. }
  assert (RM : forall k q, reg s2 (t ++ [k]) q -> reg s t q).
  { intros k q Hq. apply reg_member in Hq. destruct Hq as [Hq|Hq]; [left; exact Hq|right]. eapply elem_mono; [exact F1|]. eapply elem_mono; [exact F2|exact Hq]. }
  destruct (dict_tail s t s6 i ts plain items U W6 A6 G6) as (ob' & ls & Q & js & vs' & X).
  - rewrite T6. unfold attrs_of. rewrite O2. split; [|left]; intros; apply HA.
  - fold kvs. intros k Hk. destruct (in_dec (list_eq_dec N.eq_dec) k (map fst kvs)) as [H|H]; [exact H|]. exfalso.
    specialize (L6 k H). unfold lookup in L6. rewrite L2 in L6. cbn [assoc] in L6.
    apply in_map_iff in Hk. destruct Hk as ([k' m] & <- & Hm). cbn [fst] in *. destruct (t_keys _ _ (w_tree _ _ W6) i) as [ND _].
    rewrite (in_assoc k' m _ ND Hm) in L6. discriminate.
  - fold kvs. eapply Forall_impl; [|exact H6]. cbn beta. intros kv (j & J1 & J2). exists j. split; [exact J1|]. eapply held_weaken; [exact J2|]. apply RM.
  - exists i, ob', ls, Q, js, vs'. split; [reflexivity|exact X].
Qed.

(** ** the attributes of a dict *)
Lemma dict_attrs_eq ts plain codes (Hts : Forall (fun x => (x < 128)%N) ts) (Hc : forall cs, codes = Some cs -> Forall (fun c => (fst c < 128)%N) cs) :
  let reqs := dict_attrs wo ts plain codes in
  let names := match codes with Some cs => map (fun c => escaped (snd c)) cs | None => [] end in
  NoDup (map fst reqs) /\ forall at_, dict_marks at_ ts plain codes ->
    attr_str at_ (lit "Python.Type") = Ok (Some ts) /\
    (exists mc, attr_str at_ (lit "MATLAB_class") = Ok mc) /\
    attr_str at_ (lit "Python.dict.StoredAs") = Ok (Some (match codes with Some _ => lit "individually" | None => lit "keys_values" end)) /\
    (match codes with
     | Some cs => exists b, attr_str at_ kst = Ok (Some b) /\ (b = map fst cs \/ length b <> length cs /\ Forall (fun c => fst c = 116%N) cs)
     | None => attr_str at_ kst = Ok None
     end) /\
    attr_strs at_ (lit "Python.Fields") = match codes with Some _ => Some names | None => None end /\
    attr_strs at_ (lit "Python.dict.keys_values_names") = match codes with Some _ => None | None => Some [o_keys_name wo; o_values_name wo] end /\
    (attr_fields at_ (lit "MATLAB_fields") = None \/ attr_fields at_ (lit "MATLAB_fields") = Some names).
Proof.
  cbv zeta. unfold dict_marks, dict_attrs. rewrite (p_meta _ _ HP).
  set (names := match codes with Some cs => map (fun c => escaped (snd c)) cs | None => [] end).
  match goal with |- context [if o_matlab_compatible wo && plain then dput _ _ (if _ then match _ with Some _ => _ | None => ?x end else _) else _] => set (l1 := x) end.
  assert (L1 : NoDup (map fst l1)).
  { unfold l1. destruct codes; cbn [map fst]; repeat constructor; cbn [In]; intuition discriminate. }
  set (l2 := if o_matlab_compatible wo && _ then _ else l1).
  assert (L2 : NoDup (map fst l2)) by (unfold l2; destruct (_ && _); [destruct (matlab_fields names); [apply dput_nodup|]|]; exact L1).
  assert (G2 : exists mf, (mf = None \/ mf = Some (AFields names)) /\ forall k, assoc k l2 = if eqb_str k (lit "MATLAB_fields") then option_map QVal mf else assoc k l1).
  { assert (N : assoc (lit "MATLAB_fields") l1 = None) by (unfold l1; destruct codes; reflexivity).
    assert (Z : forall k, assoc k l1 = if eqb_str k (lit "MATLAB_fields") then None else assoc k l1) by (intros k; destruct (eqb_str_spec k (lit "MATLAB_fields")) as [->|]; [exact N|reflexivity]).
    unfold l2. destruct (_ && _); [|exists None; split; [left; reflexivity|exact Z]].
    unfold matlab_fields. destruct (forallb ascii_str names); [|exists None; split; [left; reflexivity|exact Z]].
    exists (Some (AFields names)). split; [right; reflexivity|]. intros k. rewrite assoc_dput. reflexivity. }
  destruct G2 as (mf & Hmf & G2). clearbody l2.
  set (l3 := if o_matlab_compatible wo && plain then _ else l2).
  assert (L3 : NoDup (map fst l3)) by (unfold l3; destruct (_ && _); [apply dput_nodup|]; exact L2).
  assert (G3 : forall k, k <> lit "MATLAB_class" -> assoc k l3 = assoc k l2).
  { intros k N. unfold l3. destruct (_ && _); [|reflexivity]. rewrite assoc_dput. apply eqb_str_neq in N. rewrite N. reflexivity. }
  assert (M3 : assoc (lit "MATLAB_class") l3 = Some (QString (lit "struct")) \/ assoc (lit "MATLAB_class") l3 = None).
  { unfold l3. destruct (_ && _); [left; rewrite assoc_dput, eqb_str_refl; reflexivity|]. right. rewrite G2. lits. unfold l1. destruct codes; reflexivity. }
  clearbody l3. split; [apply dput_nodup; exact L3|]. intros at_ [H HK].
  assert (F0 : at_ (lit "Python.Type") = Some (AStr ts)).
  { rewrite H by discriminate. unfold fresh_attrs. rewrite assoc_dput, eqb_str_refl. cbn [req_val]. rewrite ascii_bytes_ok by exact Hts. reflexivity. }
  assert (F : forall k, k <> lit "Python.Type" -> k <> kst -> at_ k = match assoc k l3 with Some q => match req_val q with Ok v => Some v | Err _ => None end | None => None end).
  { intros k N2 N3. rewrite H by exact N3. unfold fresh_attrs. rewrite assoc_dput. apply eqb_str_neq in N2. rewrite N2. reflexivity. }
  split; [unfold attr_str; rewrite F0, ascii_decode by exact Hts; reflexivity|].
  split. { unfold attr_str. rewrite F by discriminate. destruct M3 as [-> | ->]; eexists; reflexivity. }
  unfold attr_str, attr_strs, attr_fields.
  rewrite (F (lit "Python.dict.StoredAs")), (F (lit "Python.Fields")), (F (lit "Python.dict.keys_values_names")), (F (lit "MATLAB_fields")) by discriminate.
  rewrite !G3 by discriminate. rewrite !G2. lits.
  split; [unfold l1; destruct codes; vm_compute; reflexivity|].
  split.
  { assert (KF : forall v, at_ kst = v -> v = fresh_attrs (dput (lit "Python.Type") (QString ts) l3) kst -> v = match assoc kst l1 with Some q => match req_val q with Ok v => Some v | Err _ => None end | None => None end).
    { intros v _ ->. unfold fresh_attrs. rewrite assoc_dput. change (eqb_str kst (lit "Python.Type")) with false. cbn iota. rewrite G3, G2 by discriminate.
      change (eqb_str kst (lit "MATLAB_fields")) with false. reflexivity. }
    destruct HK as [HK|(cs & b & -> & HK & A & B1 & B2)].
    - specialize (KF _ eq_refl HK). rewrite KF. unfold l1. destruct codes as [cs|]; [|reflexivity].
      assert (X : Forall (fun c => (c < 128)%N) (map fst cs)) by (rewrite Forall_map; apply Hc; reflexivity).
      cbn [assoc]. change (eqb_str kst (lit "Python.dict.StoredAs")) with false. change (eqb_str kst (lit "Python.Fields")) with false. change (eqb_str kst (lit "Python.dict.key_str_types")) with true. cbn iota. cbn [req_val].
      rewrite ascii_bytes_ok by exact X. cbn [bindr]. rewrite ascii_decode by exact X. exists (map fst cs). auto.
    - rewrite HK, ascii_decode by exact A. exists b. auto. }
  split; [unfold l1; destruct codes; reflexivity|]. split; [unfold l1; destruct codes; reflexivity|].
  destruct Hmf as [-> | ->]; [left|right]; reflexivity.
Qed.

(** ** keys *)
Lemma key_code_text k t : key_text k t -> exists c, key_code k = Some (c, t) /\ key_of c t = Ok k /\ (c < 128)%N.
Proof.
  intros H. destruct H as [t|t b E|t b E|t B S].
  - exists 116%N. repeat split.
  - exists 98%N. cbn [key_code]. rewrite (utf8_decode_encode _ _ E). repeat split. unfold key_of. cbn. rewrite E. reflexivity.
  - exists 83%N. unfold np_bytes. cbn [key_code]. rewrite pad_strip0, (utf8_decode_encode _ _ E). repeat split. unfold key_of. cbn. rewrite E. reflexivity.
  - exists 85%N. unfold np_str. cbn [key_code]. rewrite pad_strip0. unfold units_to_str.
    assert (X : strip_bom t = t) by (destruct t as [|c t]; [reflexivity|]; cbn [strip_bom hd] in *; destruct (N.eqb_spec c bom); [unfold bom in *; congruence|reflexivity]).
    rewrite X, utf32_decode_ok by exact S. repeat split.
Qed.
Lemma key_codes_texts ks texts : Forall2 key_text ks texts -> exists cs, key_codes ks = Some cs /\ map snd cs = texts /\
  Forall (fun c => (fst c < 128)%N) cs /\ Forall2 (fun c k => key_of (fst c) (snd c) = Ok k) cs ks.
Proof.
  induction 1 as [|k t ks texts H _ (cs & I1 & I2 & I3 & I4)]; [exists []; repeat split; constructor|].
  destruct (key_code_text k t H) as (c & C1 & C2 & C3). exists ((c, t) :: cs). cbn [key_codes map snd fst]. rewrite C1, I1, I2. repeat split; constructor; auto.
Qed.
Lemma key_code_other k : not_text k -> key_code k = None.
Proof.
  intros H. destruct k; try reflexivity; try destruct H.
  - cbn [key_code]. destruct (bytes_decode_utf8 s) as [t|] eqn:E; [|reflexivity]. destruct (H t). apply utf8_encode_decode. exact E.
  - destruct c; try reflexivity. destruct a as [d sh da]. cbn in H. destruct d; try reflexivity; destruct H.
Qed.
Lemma key_codes_other ks : Exists not_text ks -> key_codes ks = None.
Proof.
  induction 1 as [k ks H|k ks H IH]; cbn [key_codes]; [rewrite key_code_other by exact H; reflexivity|]. rewrite IH. destruct (key_code k); reflexivity.
Qed.
Lemma unescape_escaped t : unescape_path (escaped t) = Ok t.
Proof. destruct (unescape_escape t) as (e & E1 & E2). unfold escaped. rewrite E1. exact E2. Qed.
Lemma escaped_inj t u : escaped t = escaped u -> t = u.
Proof. intros H. pose proof (unescape_escaped t) as X. rewrite H, unescape_escaped in X. congruence. Qed.
Lemma escaped_clean t : t <> [] -> clean (escaped t).
Proof. intros H. rewrite escaped_esc. apply esc_clean. exact H. Qed.

Lemma add_new_in l extra : (forall k, In k extra -> In k l) -> MarshalR.add_new l extra = l.
Proof.
  induction extra as [|k r IH]; intros H; [reflexivity|]. cbn [MarshalR.add_new].
  assert (mem_str k l = true) as -> by (apply mem_str_In, H; left; reflexivity). apply IH. intros x Hx. apply H. right. exact Hx.
Qed.

Lemma dict_put_new k v l : (forall x, In x (map fst l) -> keq x k = false) -> dict_put keq k v l = l ++ [(k, v)].
Proof.
  induction l as [|[k' v'] l IH]; intros H; [reflexivity|]. cbn [dict_put]. rewrite (H k') by (left; reflexivity). rewrite IH; [reflexivity|]. intros x Hx. apply H. right. exact Hx.
Qed.
Lemma dict_of_distinct l : ForallOrdPairs (fun x y => keq x y = false) (map fst l) -> dict_of keq l = l.
Proof.
  unfold dict_of. assert (X : forall l d, (forall x y, In x (map fst d) -> In y (map fst l) -> keq x y = false) -> ForallOrdPairs (fun x y => keq x y = false) (map fst l) ->
     fold_left (fun d kv => dict_put keq (fst kv) (snd kv) d) l d = d ++ l).
  { clear l. induction l as [|[k v] l IH]; intros d H1 H2; cbn [fold_left map fst snd] in *; [rewrite app_nil_r; reflexivity|]. inversion H2 as [|? ? H3 H4]; subst.
    rewrite dict_put_new by (intros x Hx; apply H1; [exact Hx|left; reflexivity]). rewrite IH, <- app_assoc; [reflexivity| |exact H4].
    intros x y Hx Hy. rewrite map_app in Hx. apply in_app_or in Hx. destruct Hx as [Hx|[<-|[]]]; [apply H1; [exact Hx|right; exact Hy]|].
    rewrite Forall_forall in H3. apply H3. exact Hy. }
  intros H. rewrite X; [reflexivity|intros x y []|exact H].
Qed.

(** ** reading a dict back *)
Lemma items_back h rd i (cs : list (N * pystr)) js ks vs :
  Forall2 (fun c j => lookup h i (escaped (snd c)) = Some j /\ is_refs ro h j = false) cs js ->
  Forall2 (fun c k => key_of (fst c) (snd c) = Ok k) cs ks -> Forall2 (fun j v => rd j = Ok v) js vs ->
  mapr (fun kc => if skipped ro h i (fst kc) then Ok None else read_item h rd i kc) (combine (map (fun c => escaped (snd c)) cs) (map Some (map fst cs)))
  = Ok (map Some (combine ks vs)).
Proof.
  intros H. revert ks vs. induction H as [|c j cs js [H1 H2] _ IH]; intros ks vs K V; inversion K as [|? k ? ks' K1 K2]; subst; inversion V as [|? v ? vs' V1 V2]; subst; [reflexivity|].
  cbn [map combine mapr fst]. unfold skipped at 1. rewrite unescape_escaped, H1, H2. unfold read_item at 1. cbn [fst snd]. rewrite unescape_escaped. cbn [bindr]. rewrite H1, V1. cbn [bindr].
  rewrite K1. cbn [bindr quiet]. rewrite (IH ks' vs' K2 V2). reflexivity.
Qed.
Lemma somes_map {A} (l : list A) : somes (map Some l) = l.
Proof. induction l as [|x l IH]; [reflexivity|]. cbn. f_equal. exact IH. Qed.
Lemma combine_codes {A B} (l : list A) (m : list B) extra : length l = length m -> combine l (m ++ extra) = combine l m.
Proof. revert m. induction l as [|x l IH]; intros [|y m] E; try discriminate; [reflexivity|]. cbn. f_equal. apply IH. injection E as E. exact E. Qed.

(** the same with the default for the types of keys *)
Lemma items_plain h rd i (cs : list (N * pystr)) js ks vs :
  Forall2 (fun c j => lookup h i (escaped (snd c)) = Some j /\ is_refs ro h j = false) cs js ->
  Forall2 (fun c k => key_of (fst c) (snd c) = Ok k) cs ks -> Forall2 (fun j v => rd j = Ok v) js vs -> Forall (fun c => fst c = 116%N) cs ->
  mapr (fun kc => if skipped ro h i (fst kc) then Ok None else read_item h rd i kc) (combine (map (fun c => escaped (snd c)) cs) (repeat None (length cs)))
  = Ok (map Some (combine ks vs)).
Proof.
  intros H. revert ks vs. induction H as [|c j cs js [H1 H2] _ IH]; intros ks vs K V T; inversion K as [|? k ? ks' K1 K2]; subst; inversion V as [|? v ? vs' V1 V2]; subst; [reflexivity|].
  inversion T as [|? ? T1 T2]; subst. cbn [map combine mapr fst length repeat]. unfold skipped at 1. rewrite unescape_escaped, H1, H2. unfold read_item at 1. cbn [fst snd]. rewrite unescape_escaped. cbn [bindr]. rewrite H1, V1. cbn [bindr].
  rewrite T1 in K1. cbn in K1. injection K1 as <-. cbn [bindr quiet]. rewrite (IH ks' vs' K2 V2 T2). reflexivity.
Qed.
Lemma dict_items_texts h rd i at_ ls cs js ks vs :
  attr_str at_ (lit "Python.dict.StoredAs") = Ok (Some (lit "individually")) ->
  (exists b, attr_str at_ (lit "Python.dict.key_str_types") = Ok (Some b) /\ (b = map fst cs \/ length b <> length cs /\ Forall (fun c => fst c = 116%N) cs)) ->
  attr_strs at_ (lit "Python.Fields") = Some (map (fun c => escaped (snd c)) cs) ->
  attr_strs at_ (lit "Python.dict.keys_values_names") = None ->
  (attr_fields at_ (lit "MATLAB_fields") = None \/ attr_fields at_ (lit "MATLAB_fields") = Some (map (fun c => escaped (snd c)) cs)) ->
  (forall k, In k (map fst ls) -> In k (map (fun c => escaped (snd c)) cs)) ->
  Forall2 (fun c j => lookup h i (escaped (snd c)) = Some j /\ is_refs ro h j = false) cs js ->
  Forall2 (fun c k => key_of (fst c) (snd c) = Ok k) cs ks -> Forall2 (fun j v => rd j = Ok v) js vs ->
  dict_items ro h rd i at_ ls = Ok (combine ks vs).
Proof.
  intros E1 (b & E2 & EB) E3 E4 E5 HL H1 H2 H3. unfold dict_items. rewrite E1, E2. cbn [bindr]. rewrite E3, E4. lits. cbv zeta beta iota.
  assert (A1 : MarshalR.add_new (map (fun c => escaped (snd c)) cs) (match attr_fields at_ (lit "MATLAB_fields") with Some l => l | None => [] end) = map (fun c => escaped (snd c)) cs).
  { destruct E5 as [-> | ->]; [reflexivity|]. apply add_new_in. auto. }
  rewrite A1, add_new_in by exact HL. rewrite !map_length. destruct EB as [-> |[EB ES]].
  - rewrite map_length, Nat.eqb_refl, combine_codes by (rewrite !map_length; reflexivity).
    rewrite (items_back h rd i cs js ks vs H1 H2 H3). cbn [bindr]. rewrite somes_map. reflexivity.
  - assert (length cs =? length b = false) as -> by (apply Nat.eqb_neq; congruence). cbn [app].
    rewrite (items_plain h rd i cs js ks vs H1 H2 H3 ES). cbn [bindr]. rewrite somes_map. reflexivity.
Qed.

Lemma combine_fst {A B} (l : list A) (m : list B) : length l = length m -> map fst (combine l m) = l.
Proof. revert m. induction l as [|x l IH]; intros [|y m] E; try discriminate; [reflexivity|]. cbn. f_equal. apply IH. injection E as E. exact E. Qed.
Lemma combine_snd {A B} (l : list A) (m : list B) : length l = length m -> map snd (combine l m) = m.
Proof. revert m. induction l as [|x l IH]; intros [|y m] E; try discriminate; [reflexivity|]. cbn. f_equal. apply IH. injection E as E. exact E. Qed.
Lemma reads_at h js vs vs' n : length vs = length vs' -> Forall (fun v => depth v <= n) vs ->
  Forall2 (fun j xv => forall n, depth (fst xv) <= n -> read ro keq h n j = Ok (snd xv)) js (combine vs vs') ->
  Forall2 (fun j v => read ro keq h n j = Ok v) js vs'.
Proof.
  revert vs vs'. induction js as [|j js IH]; intros [|v vs] [|v' vs'] L D H; try discriminate; inversion H; subst; constructor.
  - cbn [fst snd] in *. inversion D; subst. auto.
  - inversion D; subst. apply (IH vs vs'); auto.
Qed.

(** the dict is read back *)
Definition items_held (b : nat) (h : heap) (P : list pystr -> Prop) (i : nat) (ts : pystr) (items : list (pyval * pyval)) : Prop :=
  exists ob ls Q ks vs mc, h i = Some ob /\ o_body ob = BGroup ls /\ Q i /\ closed h P Q /\
    attr_str (o_attrs ob) (lit "Python.Type") = Ok (Some ts) /\ attr_str (o_attrs ob) (lit "MATLAB_class") = Ok mc /\
    Forall2 same (map fst items) ks /\ Forall2 same (map snd items) vs /\
    forall n, Forall (fun kv => b + depth (snd kv) <= n /\ (b = 1 -> S (depth (fst kv)) <= n)) items -> dict_items ro h (read ro keq h n) i (o_attrs ob) ls = Ok (combine ks vs).

Section One.
Variables (s : st) (g : nat) (nm : pystr).
(** what is known about the writing *)
Definition dict_sound (items : list (pyval * pyval)) (ts : pystr) (plain : bool) (s' : st) (r : option nat) : Prop :=
  NoDup (map fst (dict_kvs items)) -> Forall (fun kv => fst kv = [] \/ clean (fst kv)) (dict_kvs items) -> Forall storable (map snd (dict_kvs items)) ->
  NoDup (map fst (dict_attrs wo ts plain (key_codes (map fst items)))) -> dict_left s g nm items ts plain s' r.

Lemma same_refl_list l : Forall2 same l l.
Proof. induction l; constructor; auto. apply S_refl. Qed.

Lemma texts_held items texts ts plain s' r : Forall2 key_text (map fst items) texts -> NoDup texts -> Forall (fun t => t <> []) texts ->
  Forall storable (map snd items) -> Forall (fun x => (x < 128)%N) ts ->
  dict_sound items ts plain s' r ->
  exists i, r = Some i /\ items_held 0 (hp s') (reg s (name_of (hp s) g ++ [nm])) i ts items.
Proof.
  intros HT HN HE HS HA E. destruct (key_codes_texts _ _ HT) as (cs & C1 & C2 & C3 & C4).
  assert (KV : dict_kvs items = combine (map (fun c => escaped (snd c)) cs) (map snd items)) by (unfold dict_kvs; rewrite C1; reflexivity).
  assert (LEN : length cs = length items) by (rewrite <- (map_length fst items), (Forall2_len _ _ _ HT), <- C2, map_length; reflexivity).
  assert (KF : map fst (dict_kvs items) = map (fun c => escaped (snd c)) cs) by (rewrite KV; apply combine_fst; rewrite !map_length; exact LEN).
  assert (KS : map snd (dict_kvs items) = map snd items) by (rewrite KV; apply combine_snd; rewrite !map_length; exact LEN).
  assert (KE : map (fun c : N * pystr => escaped (snd c)) cs = map escaped texts) by (rewrite <- C2, map_map; reflexivity).
  destruct (dict_attrs_eq ts plain (key_codes (map fst items)) HA) as (ND & AT); [rewrite C1; intros x [= <-]; exact C3|]. rewrite C1 in AT.
  destruct E as (i & ob & ls & Q & js & vs' & E1 & E2 & E3 & E4 & E5 & E6 & E7 & E8 & E9 & E10 & E11); auto.
  - rewrite KF, KE. clear - HN. induction HN as [|t l H _ IH]; constructor; auto. intros X. apply in_map_iff in X. destruct X as (u & Eu & Hu). apply escaped_inj in Eu. subst u. exact (H Hu).
  - rewrite <- (Forall_map fst (fun x => x = [] \/ clean x)), KF, KE, Forall_map. eapply Forall_impl; [|exact HE]. intros t Ht. right. apply escaped_clean. exact Ht.
  - rewrite KS. exact HS.
  - rewrite C1 in E6. destruct (AT (o_attrs ob) E6) as (T1 & (mc & T2) & T3 & T4 & T5 & T6 & T7). rewrite KS in *. rewrite KF in E7.
    exists i. split; [exact E1|]. exists ob, ls, Q, (map fst items), vs', mc. repeat (split; [first [assumption|apply same_refl_list]|]).
    intros n Hn. apply (dict_items_texts (hp s') _ i (o_attrs ob) ls cs js (map fst items) vs'); auto.
    + rewrite KV in E8. clear - E8 E11 LEN. revert js E8 E11. assert (LM : length cs = length (map snd items)) by (rewrite map_length; exact LEN). clear LEN. revert LM. generalize (map snd items) as l. induction cs as [|c cs IH]; intros [|v l] LM js E8 E11; try discriminate.
      * cbn in E8. inversion E8; subst. constructor.
      * cbn [map combine] in E8. inversion E8 as [|? j ? js' X1 X2]; subst. inversion E11; subst. cbn [fst] in X1. constructor; [auto|]. apply (IH l); auto.
    + eapply reads_at; [apply (Forall2_len _ _ _ E9)| |exact E10]. rewrite Forall_map. eapply Forall_impl; [|exact Hn]. cbn. intros kv [H _]. lia.
Qed.

Lemma other_held items ts plain s' r : Exists not_text (map fst items) -> Forall storable (map fst items) -> Forall storable (map snd items) ->
  Forall (fun x => (x < 128)%N) ts -> dict_sound items ts plain s' r ->
  exists i, r = Some i /\ items_held 1 (hp s') (reg s (name_of (hp s) g ++ [nm])) i ts items.
Proof.
  intros HT HK HS HA E. pose proof (key_codes_other _ HT) as C1.
  assert (KV : dict_kvs items = [(o_keys_name wo, VSeq QTuple (map fst items)); (o_values_name wo, VSeq QTuple (map snd items))]) by (unfold dict_kvs; rewrite C1; reflexivity).
  destruct (p_keys _ _ HP) as (P1 & P2 & P3 & P4 & P5).
  destruct (dict_attrs_eq ts plain (key_codes (map fst items)) HA) as (ND & AT); [rewrite C1; discriminate|]. rewrite C1 in AT.
  destruct E as (i & ob & ls & Q & js & vs' & E1 & E2 & E3 & E4 & E5 & E6 & E7 & E8 & E9 & E10 & E11); auto.
  - rewrite KV. cbn [map fst]. repeat constructor; cbn [In]; intuition congruence.
  - rewrite KV. constructor; [apply (keys_clean _ _ HP)|constructor; [apply (values_clean _ _ HP)|constructor]].
  - rewrite KV. cbn [map snd]. constructor; [|constructor; [|constructor]]; apply V_seq; auto; exact I.
  - rewrite C1 in E6. destruct (AT (o_attrs ob) E6) as (T1 & (mc & T2) & T3 & T4 & T5 & T6 & T7). rewrite KV in *. cbn [map fst snd] in *.
    inversion E8 as [|? j1 ? js1 J1 J1']; subst. inversion J1' as [|? j2 ? js2 J2 J2']; subst. inversion J2'; subst. cbn [fst] in *.
    inversion E9 as [|? v1 ? vs1 V1 V1']; subst. inversion V1' as [|? v2 ? vs2 V2 V2']; subst. inversion V2'; subst. cbn [combine] in E10.
    inversion E10 as [|? ? ? ? R1 R1']; subst. inversion R1' as [|? ? ? ? R2 _]; subst. cbn [fst snd] in *.
    assert (X1 : exists ks, v1 = VSeq QTuple ks /\ Forall2 same (map fst items) ks) by (inversion V1; subst; [eexists; split; [reflexivity|apply same_refl_list]|eauto]).
    assert (X2 : exists ks, v2 = VSeq QTuple ks /\ Forall2 same (map snd items) ks) by (inversion V2; subst; [eexists; split; [reflexivity|apply same_refl_list]|eauto]).
    destruct X1 as (ks & -> & S1). destruct X2 as (vs & -> & S2).
    exists i. split; [reflexivity|]. exists ob, ls, Q, ks, vs, mc. repeat (split; [assumption|]).
    intros n Hn. unfold dict_items. rewrite T3, T4. cbn [bindr]. rewrite T6. lits. unfold escaped. rewrite P1, P3, J1, J2.
    rewrite R1, R2; [reflexivity| |]; cbn [depth]; destruct n as [|n].
    1,3: exfalso; destruct items; [inversion HT|inversion Hn; lia].
    all: apply le_n_S; apply list_max_le; rewrite map_map, Forall_map; eapply Forall_impl; [|exact Hn]; cbn; intros kv [Hx Hy]; specialize (Hy eq_refl); lia.
Qed.

Ltac ascii := repeat (apply Forall_cons; [vm_compute; reflexivity|]); apply Forall_nil.
Lemma dict_held k l s' r : storable (VDict k l) -> dict_sound l (dict_type k) (match k with MCounter => false | _ => true end) s' r ->
  exists i, r = Some i /\ held (hp s') (reg s (name_of (hp s) g ++ [nm])) i (VDict k l).
Proof.
  intros H E. assert (A : Forall (fun x => (x < 128)%N) (dict_type k)) by (destruct k; ascii).
  assert (X : ForallOrdPairs (differ keq) (map fst l) /\ exists i b, b <= 1 /\ r = Some i /\ items_held b (hp s') (reg s (name_of (hp s) g ++ [nm])) i (dict_type k) l).
  { inversion H as [| | | | | | | | | | | | | | |k' l' texts H1 H2 H3 H4 H5|k' l' H1 H2 H3 H4]; subst.
    - split; [exact H1|]. assert (NE : Forall (fun t : pystr => t <> []) texts) by (eapply Forall_impl; [|exact H4]; cbn; tauto).
      destruct (texts_held l texts (dict_type k) _ s' r H2 H3 NE H5 A E) as (i & I1 & I2). exists i, 0. auto.
    - split; [exact H1|]. destruct (other_held l (dict_type k) _ s' r H2 H3 H4 A E) as (i & I1 & I2). exists i, 1. auto. }
  destruct X as (D & i & b & Hb & -> & ob & ls & Q & ks & vs & mc & E1 & E2 & E3 & E4 & E5 & E6 & E7 & E8 & E9).
  exists i. split; [reflexivity|]. exists Q, (VDict k (combine ks vs)). split; [exact E3|]. split; [exact E4|].
  pose proof (Forall2_len _ _ _ E7) as L7. pose proof (Forall2_len _ _ _ E8) as L8. rewrite map_length in L7, L8.
  assert (LK : length ks = length vs) by congruence. split.
  - apply S_dict. clear - E7 E8. revert ks vs E7 E8. induction l as [|[x y] l IH]; intros ks vs E7 E8; inversion E7; subst; inversion E8; subst; constructor; auto.
  - split; [eapply type_has; [exact E1|exact E5]|]. intros n Hn. destruct n as [|n]; [cbn in Hn; lia|]. cbn [read]. unfold read_value. rewrite E1, E5. cbn [bindr]. rewrite E6. cbn [bindr].
    assert (reader_kind (Some (dict_type k)) = KDict k) as -> by (destruct k; vm_compute; reflexivity).
    unfold dict_read. rewrite E2, E9.
    + cbn [bindr]. rewrite dict_of_distinct; [reflexivity|]. rewrite combine_fst by exact LK. eapply differ_same; eassumption.
    + cbn [depth] in Hn. apply le_S_n in Hn. rewrite Forall_forall. intros kv Hkv.
      pose proof (list_max_in (Nat.max (depth (fst kv)) (depth (snd kv))) (map (fun kv => Nat.max (depth (fst kv)) (depth (snd kv))) l)) as X.
      assert (Y : In (Nat.max (depth (fst kv)) (depth (snd kv))) (map (fun kv => Nat.max (depth (fst kv)) (depth (snd kv))) l)) by (apply in_map_iff; exists kv; auto).
      specialize (X Y). lia.
Qed.

(** records *)
Hypothesis str_keys : forall a b, keq (VStr a) (VStr b) = eqb_str a b.
Lemma names_rec k : attribute_names k = rec_fields k.
Proof. destruct k; reflexivity. Qed.
Lemma rec_texts k n : Forall2 key_text (map VStr (firstn n (rec_fields k))) (firstn n (rec_fields k)) /\ NoDup (firstn n (rec_fields k)) /\
  Forall (fun t => t <> []) (firstn n (rec_fields k)).
Proof.
  split; [generalize (firstn n (rec_fields k)) as l; induction l; constructor; auto; constructor|].
  assert (N : NoDup (rec_fields k)) by (destruct k; repeat constructor; cbn [In]; intuition discriminate).
  assert (F : Forall (fun t : pystr => t <> []) (rec_fields k)) by (destruct k; repeat constructor; discriminate).
  rewrite <- (firstn_skipn n (rec_fields k)) in N, F. apply Forall_app in F. split; [|tauto].
  clear - N. generalize dependent (skipn n (rec_fields k)). generalize (firstn n (rec_fields k)) as l. induction l as [|x l IH]; intros m N; [constructor|].
  cbn in N. inversion N; subst. constructor; [|eapply IH; eassumption]. intros X. apply H1. apply in_or_app. left. exact X.
Qed.
Lemma firstn_combine_l {A B} (l : list A) (m : list B) : combine (firstn (length m) l) m = combine l m.
Proof. revert m. induction l as [|x l IH]; intros [|y m]; try reflexivity. cbn [length firstn combine]. f_equal. apply IH. Qed.
Lemma rec_held k fs s' r : rec_ok k fs -> Forall storable fs -> dict_sound (rec_items k fs) (rec_type k) true s' r ->
  exists i, r = Some i /\ held (hp s') (reg s (name_of (hp s) g ++ [nm])) i (VRec k fs).
Proof.
  intros H1 H2 E. assert (A : Forall (fun x => (x < 128)%N) (rec_type k)) by (destruct k; ascii).
  set (names := firstn (length fs) (rec_fields k)). destruct (rec_texts k (length fs)) as (T1 & T2 & T3). fold names in T1, T2, T3.
  assert (LN : length names = length fs).
  { unfold names. rewrite firstn_length. apply Nat.min_l. destruct k; cbn [rec_ok rec_fields length] in *; lia. }
  assert (RI : rec_items k fs = combine (map VStr names) fs).
  { unfold rec_items, names. rewrite <- firstn_map, firstn_combine_l. reflexivity. }
  assert (FI : map fst (rec_items k fs) = map VStr names) by (rewrite RI; apply combine_fst; rewrite map_length; exact LN).
  assert (SI : map snd (rec_items k fs) = fs) by (rewrite RI; apply combine_snd; rewrite map_length; exact LN).
  destruct (texts_held (rec_items k fs) names (rec_type k) true s' r) as (i & -> & ob & ls & Q & ks & vs & mc & E1 & E2 & E3 & E4 & E5 & E6 & E7 & E8 & E9); auto.
  { rewrite FI. exact T1. }
  { rewrite SI. exact H2. }
  rewrite FI in E7. rewrite SI in E8.
  assert (ks = map VStr names) as ->.
  { clear - E7. revert ks E7. induction names as [|x l IH]; intros ks E7; inversion E7 as [|? y ? m S F]; subst; [reflexivity|]. inversion S; subst. cbn [map]. f_equal. apply IH. exact F. }
  pose proof (Forall2_len _ _ _ E8) as L8.
  exists i. split; [reflexivity|]. exists Q, (VRec k vs). split; [exact E3|]. split; [exact E4|]. split; [apply S_rec; exact E8|].
  split; [eapply type_has; [exact E1|exact E5]|]. intros n Hn. destruct n as [|n]; [cbn in Hn; lia|]. cbn [read]. unfold read_value. rewrite E1, E5. cbn [bindr]. rewrite E6. cbn [bindr].
  assert (reader_kind (Some (rec_type k)) = KRec k) as -> by (destruct k; vm_compute; reflexivity).
  unfold dict_read. rewrite E2, E9.
  - cbn [bindr]. rewrite dict_of_distinct.
    + unfold names. destruct k; cbn [rec_ok] in H1.
      all: try (destruct H1 as [H1|H1]).
      all: rewrite H1 in L8 |- *; repeat (destruct vs as [|? vs]; try discriminate); vm_compute; reflexivity.
    + rewrite combine_fst by (rewrite map_length; congruence). clear - T2 str_keys. induction T2 as [|x l X _ IH]; cbn [map]; constructor; auto.
      rewrite Forall_map, Forall_forall. intros y Hy. rewrite str_keys. apply eqb_str_neq. intros ->. exact (X Hy).
  - cbn [depth] in Hn. apply le_S_n in Hn. rewrite Forall_forall. intros kv Hkv. split; [|discriminate]. cbn [Nat.add].
    assert (Y : In (depth (snd kv)) (map depth fs)) by (rewrite <- SI, map_map; apply in_map_iff; exists kv; auto).
    pose proof (list_max_in _ _ Y). lia.
Qed.
End One.
End Dicts.
