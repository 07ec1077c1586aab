(** Reading data that has none of the attributes this library knows. *)
From Verif Require Import Base PathEsc PosixPath ProcessPath Unicode UnicodeFacts Dec NdArray Value OptionsM StrConv ComplexM Attrs NpDims MColl MCollFacts Hdf5 HeapFacts NpWrite NpRead MarshalW MarshalR FrameFacts ReadFacts FileApi ApiFacts ApiSpec HistoryFacts FileFacts RoundNp RoundSpec MatlabSpec MatlabFacts MatReadSpec MatRead MatReadStruct MatBack StructBuild PlainSpec.
Local Open Scope nat_scope.
Local Arguments prod : simpl never.

Fixpoint same_up e e' (H : same_elem e e') {struct H} : emap (fun _ : nat => VNone) e = e'.
Proof.
  destruct H as [| | | | | |c c' F]; try reflexivity. cbn [emap]. f_equal.
  induction F as [|r r' c c' R _ IH]; [reflexivity|]. cbn [map]. f_equal; [|exact IH].
  induction R as [|x x' r r' X _ IHr]; [reflexivity|]. cbn [map]. f_equal; [|exact IHr]. apply same_up. exact X.
Qed.
Lemma sames_up l l' : Forall2 same_elem l l' -> map (emap (fun _ : nat => VNone)) l = l'.
Proof. induction 1 as [|e e' l l' H _ IH]; [reflexivity|]. cbn [map]. rewrite IH, (same_up _ _ H). reflexivity. Qed.
Lemma present_other {A} (a : arr A) : (forall w, w = 4 \/ w = 8 -> a_dt a <> pair_type w) -> h5py_present a = a.
Proof.
  intros H. destruct a as [d sh l]. cbn [a_dt] in H. unfold h5py_present. cbn [a_dt].
  destruct d as [| | | | | | | | |fs]; try reflexivity. destruct fs as [|[n0 [d0 s0]] fs]; try reflexivity.
  destruct d0; try (destruct s0; reflexivity); try reflexivity. destruct s0; try reflexivity. destruct fs as [|[n1 [d1 s1]] fs]; try reflexivity.
  destruct d1; try (destruct s1; reflexivity); try reflexivity. destruct s1; try reflexivity. destruct fs; try reflexivity.
  destruct (eqb_str n0 (lit "r") && eqb_str n1 (lit "i") && (w =? w0) && ((w =? 4) || (w =? 8))) eqn:E; [|reflexivity]. exfalso.
  apply andb_true_iff in E. destruct E as [E E4]. apply andb_true_iff in E. destruct E as [E E3]. apply andb_true_iff in E. destruct E as [E1 E2].
  apply eqb_str_eq in E1. apply eqb_str_eq in E2. apply Nat.eqb_eq in E3. subst n0 n1 w0.
  apply orb_true_iff in E4. apply (H w); [|reflexivity]. destruct E4 as [E4|E4]; apply Nat.eqb_eq in E4; auto.
Qed.
Lemma present_pair {A} w sh (l : list (elem A)) : w = 4 \/ w = 8 -> h5py_present (mkArr (pair_type w) sh l) = mkArr (TC (2 * w)) sh (map (decode_elem false) l).
Proof. intros [-> | ->]; reflexivity. Qed.
Lemma pairs_up l : Forall (fun e : elem nat => exists x y, e = XRec [[XFlt x]; [XFlt y]]) l ->
  exists l', Forall2 same_complex l l' /\ map (emap (fun _ => VNone)) (map (decode_elem false) l) = l'.
Proof.
  induction 1 as [|e l (x & y & ->) _ (l' & A & B)]; [exists []; split; constructor|]. exists (XCpx x y :: l'). split; [constructor; [exists x, y; auto|exact A]|].
  cbn [map]. rewrite B. reflexivity.
Qed.

(** what is read is an array *)
Definition arrayish (v : pyval) : Prop := exists a, v = VNp CNdarray a /\ length (a_data a) = prod (a_shape a).
Lemma item_back sh vs v : Forall arrayish vs -> In v vs ->
  as_item v (field_item (fst (field_type (obj_arr sh vs))) (snd (field_type (obj_arr sh vs))) (cell_elems (field_type (obj_arr sh vs)) v)).
Proof.
  intros S Hv. unfold field_type. rewrite obj_items. destruct vs as [|x vs]; [destruct Hv|].
  destruct (np_layout x) as [[d sx]|] eqn:EL; [|left; reflexivity].
  destruct (forallb _ (x :: vs)) eqn:EF; [|left; reflexivity]. cbn [fst snd].
  rewrite forallb_forall in EF. specialize (EF v Hv). rewrite Forall_forall in S. specialize (S v Hv).
  destruct S as (a & -> & L). cbn [np_layout] in EF.
  apply andb_true_iff in EF. destruct EF as [E1 E2]. apply dt_eqb_eq in E1. destruct (eqb_shape_spec sx (a_shape a)) as [E3|]; [|discriminate E2]. subst d sx.
  destruct a as [d sh' l]. cbn [a_dt a_shape a_data] in *. destruct sh' as [|y sh'].
  - destruct l as [|e [|]]; try discriminate L. unfold cell_elems. destruct d; try (right; eexists; exists e; split; reflexivity). left. reflexivity.
  - left. unfold cell_elems. destruct d; reflexivity.
Qed.
Lemma items_back sh (cs : list (pystr * list pyval)) p k vs : nth_error cs p = Some (k, vs) -> length vs = prod sh -> Forall arrayish vs -> vs <> [] ->
  exists d s, nth_error (types_of sh cs) p = Some (k, (d, s)) /\ field_of vs d s /\
    Forall2 (fun r v => exists cells, r = XRec cells /\ length cells = length cs /\ as_item v (field_item d s (nth p cells []))) (recs_of sh cs) vs.
Proof.
  intros E L S NE. unfold types_of, recs_of. rewrite nth_error_map, E. cbn [option_map fst snd]. destruct (field_type (obj_arr sh vs)) as [d s] eqn:FT. exists d, s. split; [reflexivity|].
  split; [apply (type_back sh); assumption|]. rewrite <- L. apply F2_seq with (d := VNone). intros n Hn. cbn [Nat.add]. eexists. split; [reflexivity|]. split; [apply map_length|].
  rewrite (nth_error_nth _ p (x := cell_elems (d, s) (nth n vs VNone))) by (rewrite nth_error_map, E; cbn [option_map snd]; rewrite FT; reflexivity).
  pose proof (item_back sh vs (nth n vs VNone) S (nth_In _ _ Hn)) as X. rewrite FT in X. exact X.
Qed.
Lemma recs_len sh cs : length (recs_of sh cs) = prod sh.
Proof. unfold recs_of. rewrite map_length, seq_length. reflexivity. Qed.

(** columns without rows *)
Lemma build_none sh members (ks : list pystr) : ks <> [] -> NoDup ks -> prod sh = 0 -> Forall (fun k => assoc k members = Some (obj_arr sh [])) ks ->
  build_struct ks members = Ok (mkArr (TStruct (map (fun k => (k, (TObj, []))) ks)) sh []).
Proof.
  intros NE ND Z HC. unfold build_struct.
  assert (M : mapr (fun k => match assoc k members with Some v => Ok (k, v) | None => Err KeyError end) ks = Ok (map (fun k => (k, obj_arr sh [])) ks)).
  { clear - HC. induction HC as [|k ks A _ IH]; [reflexivity|]. cbn [map mapr]. rewrite A. cbn [bindr]. rewrite IH. reflexivity. }
  rewrite M. cbn [bindr]. rewrite (nodup_str_ok _ ND). cbn [negb].
  rewrite <- map_rev. destruct (rev ks) as [|lv r] eqn:ER; [exfalso; apply NE; rewrite <- (rev_involutive ks), ER; reflexivity|]. cbn [map a_shape obj_arr].
  assert (X : existsb (Nat.eqb 0) sh = true).
  { clear - Z. apply existsb_exists. exists 0. split; [|reflexivity]. induction sh as [|x sh IH]; [discriminate Z|]. rewrite prod_cons in Z. destruct x; [left; reflexivity|]. right. apply IH. nia. }
  rewrite X. rewrite map_map. reflexivity.
Qed.

Section Reading.
Variables (o : options) (keq : pyval -> pyval -> bool) (h : heap) (P : nat -> Prop).
Hypothesis HP : forall j k, P j -> leads h j k -> P k.
Hypothesis HA : forall j ob, P j -> h j = Some ob -> Forall (fun k => o_attrs ob k = None) known_attrs /\ name_text (name_of h j) <> o_refs o /\
  match o_body ob with BGroup ls => NoDup (map fst ls) | BData _ _ => True end.
Notation rd := (read o keq h).
Notation reads := (reads o keq h).
Definition shows (i : nat) (p : pval) : Prop := exists v, shown_as p v /\ arrayish v /\ reads i v.

Lemma HA' : forall j ob, P j -> h j = Some ob -> Forall (fun k => o_attrs ob k = None) python_attrs /\ name_text (name_of h j) <> o_refs o /\
  match o_body ob with BGroup ls => NoDup (map fst ls) | BData _ _ => True end.
Proof. intros j ob Hj E. destruct (HA j ob Hj E) as (A & B). split; [|exact B]. apply Forall_app in A. exact (proj1 A). Qed.
Lemma none_of j ob k : P j -> h j = Some ob -> In k known_attrs -> o_attrs ob k = None.
Proof. intros Hj E K. destruct (HA j ob Hj E) as (A & _). rewrite Forall_forall in A. apply A. exact K. Qed.
Lemma class_known : In k_class known_attrs. Proof. unfold known_attrs. apply in_or_app. right. cbn. auto. Qed.
Lemma fields_known : In k_fields known_attrs. Proof. unfold known_attrs. apply in_or_app. right. cbn. auto. Qed.
Lemma plain_step n i ob : P i -> h i = Some ob -> rd (S n) i =
  match o_body ob with
  | BData a _ => do d <- read_array h (rd n) a; Ok (VNp CNdarray d)
  | BGroup ls => do r <- read_group o h (rd n) (plain_ra None (o_attrs ob)) ls; match r with inl v => Ok v | inr d => Ok (VNp CNdarray d) end
  end.
Proof.
  intros Hi E. rewrite (read_step o keq h P HA' n i ob None Hi E); [reflexivity| |discriminate]. cbn [option_map]. apply (none_of i ob); auto. apply class_known.
Qed.
Lemma steps i v : (exists N, forall n, N <= n -> rd (S n) i = Ok v) -> reads i v.
Proof. apply (reads_step o keq h P HP HA'). Qed.

Lemma shows_data i ob a f : P i -> h i = Some ob -> o_body ob = BData a f -> a_dt a <> TRef -> length (a_data a) = prod (a_shape a) -> sound (PData a) -> shows i (PData a).
Proof.
  intros Hi E B NR L S. inversion S as [a' l SE SC| |]; subst.
  assert (RA : forall r, read_array h r a = Ok (amap (fun _ => VNone) (h5py_present a))) by (intros r; unfold read_array; destruct (a_dt a); try reflexivity; congruence).
  assert (D : (exists w, (w = 4 \/ w = 8) /\ a_dt a = pair_type w) \/ (forall w, w = 4 \/ w = 8 -> a_dt a <> pair_type w)).
  { destruct (dt_eqb (a_dt a) (pair_type 4)) eqn:E4; [left; exists 4; split; [auto|apply dt_eqb_eq; exact E4]|].
    destruct (dt_eqb (a_dt a) (pair_type 8)) eqn:E8; [left; exists 8; split; [auto|apply dt_eqb_eq; exact E8]|].
    right. intros w [-> | ->] X; rewrite X in *; vm_compute in E4, E8; congruence. }
  destruct D as [(w & W & D)|D].
  - destruct (pairs_up _ (SC w D)) as (l' & P1 & P2). exists (VNp CNdarray (mkArr (TC (2 * w)) (a_shape a) l')). split; [eapply Sa_complex; eassumption|]. split.
    + eexists. split; [reflexivity|]. cbn [a_data a_shape]. rewrite <- (F2_len _ _ _ P1). exact L.
    + apply steps. exists 0. intros n _. rewrite (plain_step n i ob Hi E), B, RA. cbn [bindr]. destruct a as [d sh da]. cbn [a_dt a_shape a_data] in *. subst d.
      rewrite (present_pair w sh da W). unfold amap. cbn [a_dt a_shape a_data]. rewrite P2. reflexivity.
  - exists (VNp CNdarray (mkArr (a_dt a) (a_shape a) l)). split; [apply Sa_data; assumption|]. split.
    + eexists. split; [reflexivity|]. cbn [a_data a_shape]. rewrite <- (F2_len _ _ _ SE). exact L.
    + apply steps. exists 0. intros n _. rewrite (plain_step n i ob Hi E), B, RA. cbn [bindr]. rewrite (present_other a D). unfold amap. rewrite (sames_up _ _ SE). reflexivity.
Qed.
Lemma all_shows js ps : Forall2 shows js ps -> exists vs, Forall2 shown_as ps vs /\ Forall arrayish vs /\ Forall2 reads js vs.
Proof. induction 1 as [|j m js ms (v & A & B & C) _ (vs & IA & IB & IC)]; [exists []; repeat constructor|]. exists (v :: vs). repeat constructor; assumption. Qed.
(* an array of references, to whatever *)
Lemma refs_reads i ob dims js f l : P i -> h i = Some ob -> o_body ob = BData (mkArr TRef dims (map XPtr js)) f -> length js = prod dims ->
  Forall (fun j => live h j = true) js -> Forall2 shows js l ->
  exists vs, Forall2 shown_as l vs /\ Forall arrayish vs /\ length vs = prod dims /\ reads i (VNp CNdarray (obj_arr dims vs)).
Proof.
  intros Hi E B L LV G. destruct (all_shows js l G) as (vs & V1 & V2 & V3). destruct (all_reads o keq h P HP HA' js vs V3) as (N & HN).
  exists vs. split; [exact V1|]. split; [exact V2|]. split; [rewrite <- (F2_len _ _ _ V3); exact L|].
  apply steps. exists N. intros n Hn. rewrite (plain_step n i ob Hi E), B, (refs_array o keq h n dims js vs LV (HN n Hn)). reflexivity.
Qed.
Lemma shows_refs i ob dims js f l : P i -> h i = Some ob -> o_body ob = BData (mkArr TRef dims (map XPtr js)) f -> length js = prod dims ->
  Forall (fun j => live h j = true) js -> Forall2 shows js l -> shows i (PRefs dims l).
Proof.
  intros Hi E B L LV G. destruct (refs_reads i ob dims js f l Hi E B L LV G) as (vs & V1 & V2 & V3 & V4). exists (VNp CNdarray (obj_arr dims vs)).
  split; [apply Sa_refs; exact V1|]. split; [|exact V4]. eexists. split; [reflexivity|]. cbn [obj_arr a_data a_shape]. rewrite map_length. exact V3.
Qed.

(** ** Groups *)
Lemma is_col j ob dims js f : P j -> h j = Some ob -> o_body ob = BData (mkArr TRef dims (map XPtr js)) f -> is_column h j = true.
Proof.
  intros Hj E B. unfold is_column. rewrite E, B. cbn [a_dt dt_eqb andb]. apply forallb_forall. intros x Hx. rewrite (none_of j ob x Hj E); [reflexivity|].
  revert x Hx. assert (X : incl own_attrs known_attrs) by (intros x Hx; unfold own_attrs in Hx; unfold known_attrs, python_attrs; cbn [app In] in *; intuition). exact X.
Qed.
Lemma not_col j p : plain_in h j p -> besides_refs p -> is_column h j = false.
Proof.
  intros H N. destruct H as [i ob a f E B D L|i ob dims js f l E B L LV F|i ob ls fs E B ND K F]; unfold is_column; rewrite E, B; try reflexivity.
  - destruct (a_dt a); try reflexivity. congruence.
  - exfalso. apply (N dims l). reflexivity.
Qed.
Definition dummy (fs : list (pystr * pval)) : list (pystr * list mval) := map (fun kp => (fst kp, [])) fs.
Lemma dummy_keys fs : map fst (dummy fs) = map fst fs. Proof. unfold dummy. rewrite map_map. reflexivity. Qed.

Lemma shows_record i ob ls fs us : P i -> h i = Some ob -> o_body ob = BGroup ls -> NoDup (map fst fs) -> (forall k, In k (map fst ls) <-> In k (map fst fs)) ->
  Forall (fun kp => exists j oj, assoc (fst kp) ls = Some j /\ P j /\ h j = Some oj /\ plain_in h j (snd kp) /\ shows j (snd kp)) fs ->
  Forall2 unescaped (map fst fs) us -> NoDup us -> (exists k p, In (k, p) fs /\ besides_refs p) -> shows i (PGroup fs).
Proof.
  intros Hi E B ND KK HF HU NU NR. destruct (HA i ob Hi E) as (_ & _ & NL). rewrite B in NL.
  assert (NE : fs <> []) by (destruct NR as (k & p & I & _); intros ->; destruct I).
  destruct (members o keq h P HP HA' fs (fun m w => shown_as m w /\ arrayish w) ls us NL ND KK HU NU) as (uws & vals & N & U1 & U2 & U3 & U4).
  { eapply Forall_impl; [|exact HF]. intros [k m] (j & oj & A1 & A2 & A3 & _ & (w & A4 & A5 & A6)). exists j, oj, w. auto 10. }
  assert (ME : multi_element o h ls = false).
  { unfold multi_element. destruct (forallb _ ls) eqn:EF; [|reflexivity]. exfalso. rewrite forallb_forall in EF. destruct NR as (k & p & I & NR).
    rewrite Forall_forall in HF. destruct (HF _ I) as (j & oj & A1 & A2 & A3 & A4 & _). cbn [fst snd] in *. specialize (EF (k, j) (assoc_In _ _ _ A1)). cbn [snd] in EF.
    rewrite (not_refs o h P HA' j oj A2 A3), (not_col j p A4 NR) in EF. discriminate EF. }
  set (uvs := map (fun uw : pystr * pyval => (fst uw, [snd uw])) uws).
  assert (FU : map fst uvs = us) by (unfold uvs; rewrite map_map; exact U2).
  assert (X : exists cs, Permutation uvs cs /\ in_order None us (map fst cs) /\
    forall n, read_members o h (rd n) ls = Ok vals -> read_group o h (rd n) (plain_ra None (o_attrs ob)) ls = Ok (inr (mkArr (TStruct (types_of [1] cs)) [1] (recs_of [1] cs)))).
  { apply (group_ok o keq h None ob ls None (dummy fs) us vals uvs [1]); auto.
    - unfold MatlabSpec.field_order. rewrite (none_of i ob k_fields Hi E fields_known). reflexivity.
    - rewrite dummy_keys. exact ND.
    - rewrite dummy_keys. exact HU.
    - intros Z. apply NE. destruct fs; [reflexivity|discriminate Z].
    - unfold uvs. rewrite Forall_map. apply Forall_forall. reflexivity.
    - discriminate.
    - rewrite ME. unfold uvs. rewrite map_map. cbn [fst snd nth]. replace (map (fun x : pystr * pyval => (fst x, snd x)) uws) with uws; [exact U3|]. rewrite <- (map_id uws) at 1. apply map_ext. intros []. reflexivity. }
  destruct X as (cs & PC & IO & RG).
  assert (RE : exists cells, recs_of [1] cs = [XRec cells]) by (eexists; reflexivity). destruct RE as (cells & RE).
  exists (VNp CNdarray (mkArr (TStruct (types_of [1] cs)) [1] (recs_of [1] cs))). split; [|split].
  - assert (TL : length (types_of [1] cs) = length cs) by apply map_length.
    assert (CL : length cells = length cs) by (unfold recs_of in RE; cbn in RE; injection RE as <-; apply map_length).
    rewrite RE. apply Sa_record with (us := us); auto.
    + unfold types_of. rewrite map_map. exact IO.
    + rewrite TL, <- (Permutation_length PC). unfold uvs. rewrite map_length. symmetry. apply (F2_len _ _ _ U1).
    + rewrite CL. symmetry. exact TL.
    + rewrite <- U2. assert (IN : forall uv, In uv uvs -> In uv cs) by (intros uv; apply Permutation_in; exact PC). unfold uvs in IN. clear - U1 IN RE.
      induction U1 as [|[k m] [u w] fs uws (A1 & A2 & A3) _ IH]; cbn [map fst snd] in *; constructor; [|apply IH; intros uv Huv; apply IN; right; exact Huv].
      destruct (In_nth_error _ _ (IN _ (or_introl eq_refl))) as (n & Hn). destruct (items_back [1] cs n u [w] Hn eq_refl) as (d & s & T1 & TF & T2); [constructor; [exact A3|constructor]|discriminate|].
      rewrite RE in T2. inversion T2 as [|? ? ? ? (c' & EC & _ & T3) _]; subst. injection EC as EC. subst c'. exists n, d, s, w. auto.
  - eexists. split; [reflexivity|]. apply recs_len.
  - apply steps. exists N. intros n Hn. rewrite (plain_step n i ob Hi E), B, (RG n (U4 n Hn)). reflexivity.
Qed.
Lemma shows_columns i ob ls fs us dims : P i -> h i = Some ob -> o_body ob = BGroup ls -> NoDup (map fst fs) -> (forall k, In k (map fst ls) <-> In k (map fst fs)) ->
  Forall (fun kp => exists j oj l f js, assoc (fst kp) ls = Some j /\ P j /\ h j = Some oj /\ snd kp = PRefs dims l /\ o_body oj = BData (mkArr TRef dims (map XPtr js)) f /\
     length js = prod dims /\ Forall (fun j => live h j = true) js /\ Forall2 shows js l) fs ->
  Forall2 unescaped (map fst fs) us -> NoDup us -> fs <> [] -> shows i (PGroup fs).
Proof.
  intros Hi E B ND KK HF HU NU NE. destruct (HA i ob Hi E) as (_ & _ & NL). rewrite B in NL.
  destruct (members o keq h P HP HA' fs (fun m w => exists l vs, m = PRefs dims l /\ w = VNp CNdarray (obj_arr dims vs) /\ Forall2 shown_as l vs /\ Forall arrayish vs /\ length vs = prod dims) ls us NL ND KK HU NU) as (uws & vals & N & U1 & U2 & U3 & U4).
  { eapply Forall_impl; [|exact HF]. intros [k m] (j & oj & l & f & js & A1 & A2 & A3 & A4 & A5 & A6 & A7 & A8). cbn [fst snd] in *.
    destruct (refs_reads j oj dims js f l A2 A3 A5 A6 A7 A8) as (vs & V1 & V2 & V3 & V4). exists j, oj, (VNp CNdarray (obj_arr dims vs)). eauto 15. }
  assert (ME : multi_element o h ls = true).
  { unfold multi_element. apply forallb_forall. intros [k j] Hkj. cbn [snd]. apply orb_true_iff. right.
    assert (K : In k (map fst fs)) by (apply KK; apply in_map_iff; exists (k, j); auto). apply in_map_iff in K. destruct K as ([k' m] & Ek & K). cbn in Ek. subst k'.
    rewrite Forall_forall in HF. destruct (HF _ K) as (j' & oj & l & f & js & A1 & A2 & A3 & _ & A5 & _). cbn [fst] in A1. rewrite (In_assoc _ _ _ NL Hkj) in A1. injection A1 as <-.
    eapply is_col; eassumption. }
  assert (X : exists uvs, Forall2 (fun kp uv => exists l, snd kp = PRefs dims l /\ Forall2 shown_as l (snd uv) /\ Forall arrayish (snd uv) /\ length (snd uv) = prod dims) fs uvs /\ uws = map (fun uv => (fst uv, VNp CNdarray (obj_arr dims (snd uv)))) uvs).
  { clear - U1. induction U1 as [|[k m] [u w] fs uws (_ & l & vs & A0 & A1 & A2 & A3 & A4) _ (uvs & IH1 & IH2)]; [exists []; split; [constructor|reflexivity]|].
    cbn [snd] in *. exists ((u, vs) :: uvs). split; [constructor; [exists l; auto|exact IH1]|]. cbn [map fst snd]. congruence. }
  destruct X as (uvs & V1 & V2). assert (FU : map fst uvs = us) by (rewrite <- U2, V2, map_map; reflexivity).
  assert (NF : MatlabSpec.field_order ob (map fst (dummy fs)) None) by (unfold MatlabSpec.field_order; rewrite (none_of i ob k_fields Hi E fields_known); reflexivity).
  destruct (Nat.eq_dec (prod dims) 0) as [Z|NZ].
  - (* no rows *)
    assert (EV : uws = map (fun u => (u, VNp CNdarray (obj_arr dims []))) us).
    { rewrite V2, <- FU, map_map. clear - V1 Z. induction V1 as [|a [u vs] fs uvs (l & _ & _ & _ & L) _ IH]; [reflexivity|]. cbn [map fst snd] in *. rewrite IH. rewrite Z in L. destruct vs; [reflexivity|discriminate L]. }
    set (cols := map (fun u => (u, obj_arr dims [])) us).
    assert (X : exists cols', Permutation cols cols' /\ mapr (fun kv : pystr * pyval => match snd kv with VNp _ a => Ok (fst kv, a) | _ => Err AttributeError end) vals = Ok cols').
    { rewrite EV in U3. apply Permutation_sym in U3. destruct (Permutation_map_inv _ _ U3) as (us' & -> & PU). exists (map (fun u => (u, obj_arr dims [])) us').
      split; [apply Permutation_map; exact PU|]. clear. induction us' as [|u us' IH]; [reflexivity|]. cbn [map mapr fst snd bindr]. rewrite IH. reflexivity. }
    destruct X as (cols' & PC & MC).
    assert (PP : Permutation us (map fst cols')).
    { replace us with (map fst cols) at 1; [apply Permutation_map; exact PC|]. unfold cols. rewrite map_map. apply map_id. }
    destruct (order_ok None ob (dummy fs) None us (map fst cols') NF) as (names & FO' & IO & PN); auto; [rewrite dummy_keys; exact ND|rewrite dummy_keys; exact HU|].
    exists (VNp CNdarray (mkArr (TStruct (map (fun k => (k, (TObj, []))) names)) dims [])). split; [|split].
    + apply Sa_no_rows with (us := us); auto. clear - V1 Z. induction V1 as [|[k p] [u vs] fs uvs (l & A1 & A2 & _ & L) _ IH]; [constructor|]. cbn [snd] in *. constructor; [|exact IH]. cbn [snd].
      rewrite Z in L. destruct vs; [|discriminate L]. inversion A2; subst. reflexivity.
    + eexists. split; [reflexivity|]. cbn [a_data a_shape]. rewrite Z. reflexivity.
    + apply steps. exists N. intros n Hn. rewrite (plain_step n i ob Hi E), B. unfold read_group. rewrite (U4 n Hn). cbn [bindr]. change (ra_mclass (plain_ra None (o_attrs ob))) with (@None pystr). cbn [andb].
      rewrite ME, MC. cbn [bindr]. rewrite FO'. cbn [bindr]. rewrite (build_none dims cols' names); [reflexivity| | |exact Z|].
      * intros ->. apply Permutation_sym, Permutation_nil in PN. rewrite PN in HU. clear - HU NE. destruct fs; [congruence|inversion HU].
      * eapply Permutation_NoDup; [exact PN|exact NU].
      * apply Forall_forall. intros k Hk. apply In_assoc; [eapply Permutation_NoDup; [exact PP|exact NU]|]. eapply Permutation_in; [exact PC|]. unfold cols. apply in_map_iff. exists k. split; [reflexivity|].
        eapply Permutation_in; [apply Permutation_sym; exact PN|exact Hk].
  - assert (X : exists cs, Permutation uvs cs /\ in_order None us (map fst cs) /\
      forall n, read_members o h (rd n) ls = Ok vals -> read_group o h (rd n) (plain_ra None (o_attrs ob)) ls = Ok (inr (mkArr (TStruct (types_of dims cs)) dims (recs_of dims cs)))).
    { apply (group_ok o keq h None ob ls None (dummy fs) us vals uvs dims); auto.
      - rewrite dummy_keys. exact ND.
      - rewrite dummy_keys. exact HU.
      - intros Y. apply NE. destruct fs; [reflexivity|discriminate Y].
      - clear - V1. induction V1 as [|a b fs uvs (l & _ & _ & _ & H) _ IH]; constructor; assumption.
      - rewrite ME, <- V2. exact U3.
      - rewrite ME. discriminate. }
    destruct X as (cs & PC & IO & RG).
    exists (VNp CNdarray (mkArr (TStruct (types_of dims cs)) dims (recs_of dims cs))). split; [|split].
    + assert (TL : length (types_of dims cs) = length cs) by apply map_length.
      apply Sa_columns with (us := us); auto.
      * unfold types_of. rewrite map_map. exact IO.
      * rewrite TL, <- (Permutation_length PC). symmetry. apply (F2_len _ _ _ V1).
      * rewrite <- FU. assert (IN : forall uv, In uv uvs -> In uv cs) by (intros uv; apply Permutation_in; exact PC). clear - V1 IN TL NZ.
        induction V1 as [|[k m] [u vs] fs uvs (l & A1 & A2 & A3 & A4) _ IH]; cbn [map fst snd] in *; constructor; [|apply IH; intros uv Huv; apply IN; right; exact Huv].
        destruct (In_nth_error _ _ (IN _ (or_introl eq_refl))) as (n & Hn). destruct (items_back dims cs n u vs Hn A4 A3) as (d & s & T1 & TF & T2); [intros ->; apply NZ; symmetry; exact A4|].
        exists l, vs, n, d, s. split; [exact A1|]. split; [exact A2|]. split; [exact T1|]. split; [exact TF|]. rewrite TL. exact T2.
    + eexists. split; [reflexivity|]. apply recs_len.
    + apply steps. exists N. intros n Hn. rewrite (plain_step n i ob Hi E), B, (RG n (U4 n Hn)). reflexivity.
Qed.

Lemma shows_list js ms : Forall2 (fun j m => P j -> sound m -> shows j m) js ms -> (forall j, In j js -> P j) -> Forall sound ms -> Forall2 shows js ms.
Proof.
  intros F. induction F as [|j m js ms Hm F IH]; intros HJ R; [constructor|]. inversion R; subst. constructor; [|apply IH; [intros x Hx; apply HJ; right; exact Hx|assumption]].
  apply Hm; [apply HJ; left; reflexivity|assumption].
Qed.
Lemma refs_P i ob dims js f : P i -> h i = Some ob -> o_body ob = BData (mkArr TRef dims (map XPtr js)) f -> forall j, In j js -> P j.
Proof. intros Hi E B j Hj. apply (HP i); [exact Hi|]. eapply leads_ref; [exact E|exact B|]. cbn [a_data]. apply in_map. exact Hj. Qed.
(* with what is needed when it is a member of a Group of columns *)
Definition deep (j : nat) (p : pval) : Prop := (P j -> sound p -> shows j p) /\
  (forall dims l, p = PRefs dims l -> P j -> sound p -> exists oj f js, h j = Some oj /\ o_body oj = BData (mkArr TRef dims (map XPtr js)) f /\
     length js = prod dims /\ Forall (fun j => live h j = true) js /\ Forall2 shows js l).
Fixpoint plain_shows i p (H : plain_in h i p) {struct H} : deep i p.
Proof.
  destruct H as [i ob a f E B D L|i ob dims js f l E B L LV FF|i ob ls fs E B ND KK FF].
  - split; [|discriminate]. intros Hi S. eapply shows_data; eassumption.
  - assert (F' : Forall2 (fun j m => P j -> sound m -> shows j m) js l) by (clear - FF plain_shows; induction FF as [|j m js ms K _ IH]; constructor; [apply plain_shows; exact K|exact IH]). clear FF.
    assert (G : P i -> sound (PRefs dims l) -> Forall2 shows js l) by (intros Hi S; inversion S; subst; apply shows_list; [exact F'|exact (refs_P i ob dims js f Hi E B)|assumption]).
    split.
    + intros Hi S. eapply shows_refs; try eassumption. exact (G Hi S).
    + intros dims' l' [= <- <-] Hi S. exists ob, f, js. auto 10.
  - split; [|discriminate]. intros Hi S.
    assert (F' : Forall (fun kp => exists j, assoc (fst kp) ls = Some j /\ P j /\ plain_in h j (snd kp) /\ deep j (snd kp)) fs).
    { clear - FF plain_shows Hi E B HP. induction FF as [|[k p] fs (j & A1 & A2) _ IH]; constructor; [|exact IH]. exists j. cbn [fst snd] in *. split; [exact A1|]. split; [apply (HP i); [exact Hi|eapply leads_member; eassumption]|].
      split; [exact A2|]. apply plain_shows. exact A2. }
    clear FF plain_shows. inversion S as [| |? us NE HU NU SS DD]; subst. destruct DD as [NR|(dims & CC)].
    + eapply shows_record; try eassumption. rewrite Forall_forall in *. intros kp Hkp. destruct (F' kp Hkp) as (j & A1 & A2 & A3 & A4 & _).
      assert (X : exists oj, h j = Some oj) by (destruct A3; eauto). destruct X as (oj & X). exists j, oj. auto 10.
    + eapply shows_columns with (dims := dims); try eassumption. rewrite Forall_forall in *. intros kp Hkp. destruct (F' kp Hkp) as (j & A1 & A2 & A3 & _ & A4).
      destruct (CC kp Hkp) as (l & EL). destruct (A4 dims l EL A2 (SS kp Hkp)) as (oj & f & js & X1 & X2 & X3 & X4 & X5). exists j, oj, l, f, js. auto 10.
Qed.
End Reading.

Lemma read_plain o keq s p t i m : isabs (o_refs o) = true -> valid_path p -> denotes p t -> apart o t -> walk (hp s) 0 t = Some i ->
  unmarked o (hp s) i -> plain_in (hp s) i m -> sound m ->
  exists v N, shown_as m v /\ forall n, N <= n -> file_read o n keq (mkFile true s) p = (mkFile true s, Ok v).
Proof.
  intros HA V D AP W (P & P1 & P2 & P3) M R.
  destruct (proj1 (plain_shows o keq (hp s) P P2 P3 i m M) P1 R) as (v & S & _ & N & HN). exists v, N. split; [exact S|]. intros n Hn.
  assert (D' := D). destruct D' as (g & tt' & PP & ->). change (path_comps (posix_join g [tt'])) with (loc g tt') in *.
  assert (CP : check_path o p = Ok (g, tt')) by (apply check_path_iff; auto).
  unfold file_read, file_reads. cbn [mapr snd fl_open fl_st]. rewrite CP. cbn [bindr mapr fst snd].
  rewrite (read_at_eq o keq n p g tt' s PP); [|destruct AP as (? & ? & ? & ? & -> & _); discriminate|exact (V _ D)].
  rewrite W, (HN n Hn). reflexivity.
Qed.
