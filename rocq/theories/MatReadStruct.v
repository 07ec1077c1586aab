(** Structs: the array put together from the members of a Group. *)
From Verif Require Import Base PathEsc Unicode UnicodeFacts Dec NdArray Value OptionsM StrConv ComplexM Attrs NpDims MColl MCollFacts Hdf5 HeapFacts NpWrite NpRead MarshalW MarshalR RoundNp MatlabSpec MatlabFacts MatReadSpec MatRead StructBuild.
Local Open Scope nat_scope.
Local Arguments prod : simpl never.
Local Arguments transpose : simpl never.

(** sorted() *)
Lemma le_before a : forall b, str_le a b = true -> a <> b -> before a b.
Proof.
  induction a as [|x a IH]; intros [|y b] H N; cbn in *; try congruence; auto.
  destruct (N.ltb_spec x y); [left; assumption|]. destruct (N.ltb_spec y x); [discriminate|]. assert (x = y) by lia. subst y. right. split; [reflexivity|]. apply IH; [exact H|congruence].
Qed.
Lemma sorted_before l : NoDup l -> StronglySorted before (sorted l).
Proof.
  intros H. assert (N : NoDup (sorted l)) by (eapply Permutation_NoDup; [apply Permutation_sym, sorted_perm|exact H]).
  pose proof (sorted_srt l) as S. clear H. induction S as [|x r F S IH]; constructor; inversion N as [|? ? N1 N2]; subst; [apply IH; exact N2|].
  rewrite Forall_forall in *. intros y Hy. apply le_before; [apply F; exact Hy|]. intros ->. exact (N1 Hy).
Qed.

(** ** fields *)
Lemma field_back sh vs v : Forall solid vs -> In v vs ->
  field_item (fst (field_type (obj_arr sh vs))) (snd (field_type (obj_arr sh vs))) (cell_elems (field_type (obj_arr sh vs)) v) = v.
Proof.
  intros S Hv. unfold field_type. rewrite obj_items. destruct vs as [|x vs]; [destruct Hv|].
  destruct (np_layout x) as [[d sx]|] eqn:EL; [|reflexivity].
  destruct (forallb _ (x :: vs)) eqn:EF; [|reflexivity]. cbn [fst snd].
  rewrite forallb_forall in EF. specialize (EF v Hv). rewrite Forall_forall in S. specialize (S v Hv).
  assert (V : exists c a, v = VNp c a) by (destruct v; try discriminate EF; eauto). destruct V as (c & a & ->). cbn [np_layout] in EF.
  apply andb_true_iff in EF. destruct EF as [E1 E2]. apply dt_eqb_eq in E1. destruct (eqb_shape_spec sx (a_shape a)) as [E3|]; [|discriminate]. subst d sx.
  cbn [solid] in S. destruct c; try contradiction. destruct a as [d sh' l]. cbn [a_dt a_shape a_data] in *. destruct sh' as [|y sh']; [congruence|].
  unfold cell_elems. destruct d; reflexivity.
Qed.
Lemma type_back sh vs d s : vs <> [] -> field_type (obj_arr sh vs) = (d, s) -> field_of vs d s.
Proof.
  intros NE E. unfold field_type in E. rewrite obj_items in E. destruct vs as [|x vs]; [congruence|].
  assert (NO : forall e th, (np_layout x = Some (e, th) -> forallb (fun y => match np_layout y with Some (e', th') => dt_eqb e e' && eqb_shape th th' | None => false end) (x :: vs) = false) -> ~ alike (x :: vs) e th).
  { intros e th X [_ F]. assert (L : np_layout x = Some (e, th)) by (inversion F as [|? ? (c & l & ->) _]; reflexivity). specialize (X L).
    assert (Y : forallb (fun y => match np_layout y with Some (e', th') => dt_eqb e e' && eqb_shape th th' | None => false end) (x :: vs) = true); [|congruence].
    apply forallb_forall. intros y Hy. rewrite Forall_forall in F. destruct (F y Hy) as (c & l & ->). cbn [np_layout a_dt a_shape]. apply andb_true_iff. split; [apply dt_eqb_refl|].
    destruct (eqb_shape_spec th th); [reflexivity|congruence]. }
  destruct (np_layout x) as [[d1 s1]|] eqn:EL.
  - destruct (forallb _ (x :: vs)) eqn:EF.
    + injection E as <- <-. left. split; [discriminate|]. apply Forall_forall. intros y Hy. rewrite forallb_forall in EF. specialize (EF y Hy).
      destruct (np_layout y) as [[e th]|] eqn:EY; [|discriminate EF]. apply andb_true_iff in EF. destruct EF as [E1 E2]. apply dt_eqb_eq in E1. destruct (eqb_shape_spec s1 th) as [E3|]; [|discriminate E2]. subst e th.
      destruct y as [| | | | | | | | | |c a| | | | |]; try discriminate EY. destruct a as [d sh' l]. cbn in EY. injection EY as -> ->. eauto.
    + injection E as <- <-. right. split; [|auto]. intros e th. apply NO. intros [= <- <-]. exact EF.
  - injection E as <- <-. right. split; [|auto]. intros e th. apply NO. discriminate.
Qed.
(** every field of every record of it *)
Lemma build_fields sh (cs : list (pystr * list pyval)) p k vs : nth_error cs p = Some (k, vs) -> length vs = prod sh -> Forall solid vs -> vs <> [] ->
  exists d s, nth_error (map (fun kv => (fst kv, field_type (obj_arr sh (snd kv)))) cs) p = Some (k, (d, s)) /\ field_of vs d s /\
    Forall2 (fun r v => exists cells, r = XRec cells /\ length cells = length cs /\ field_item d s (nth p cells []) = v)
      (map (fun n => XRec (map (fun kv => cell_elems (field_type (obj_arr sh (snd kv))) (nth n (snd kv) VNone)) cs)) (seq 0 (prod sh))) vs.
Proof.
  intros E L S NE. rewrite nth_error_map, E. cbn [option_map fst snd]. destruct (field_type (obj_arr sh vs)) as [d s] eqn:FT. exists d, s. split; [reflexivity|].
  split; [apply (type_back sh); assumption|]. rewrite <- L. apply F2_seq with (d := VNone). intros n Hn. cbn [Nat.add]. eexists. split; [reflexivity|]. split; [apply map_length|].
  rewrite (nth_error_nth _ p (x := cell_elems (d, s) (nth n vs VNone))) by (rewrite nth_error_map, E; cbn [option_map snd]; rewrite FT; reflexivity).
  pose proof (field_back sh vs (nth n vs VNone) S (nth_In _ _ Hn)) as X. rewrite FT in X. exact X.
Qed.

Section Reading.
Variables (o : options) (keq : pyval -> pyval -> bool) (h : heap) (P : nat -> Prop).
Hypothesis HP : forall j k, P j -> leads h j k -> P k.
Hypothesis HA : forall j ob, P j -> h j = Some ob -> Forall (fun k => o_attrs ob k = None) python_attrs /\ name_text (name_of h j) <> o_refs o /\
  match o_body ob with BGroup ls => NoDup (map fst ls) | BData _ _ => True end.
Notation dicts := (o_structs_as_dicts o).
Notation rd := (read o keq h).
Notation reads := (reads o keq h).
Notation gives := (gives o keq h).

Lemma not_refs j ob : P j -> h j = Some ob -> is_refs o h j = false.
Proof. intros Hj E. destruct (HA j ob Hj E) as (_ & N & _). unfold is_refs. apply eqb_str_neq. exact N. Qed.

(** the members of a Group, whose order is not that of the fields *)
Lemma members {X} (fs : list (pystr * X)) (Q : X -> pyval -> Prop) ls us : NoDup (map fst ls) -> NoDup (map fst fs) -> (forall k, In k (map fst ls) <-> In k (map fst fs)) ->
  Forall2 unescaped (map fst fs) us -> NoDup us ->
  Forall (fun km => exists j ob w, assoc (fst km) ls = Some j /\ P j /\ h j = Some ob /\ reads j w /\ Q (snd km) w) fs ->
  exists uws vals N, Forall2 (fun km uw => unescaped (fst km) (fst uw) /\ Q (snd km) (snd uw)) fs uws /\ map fst uws = us /\ Permutation uws vals /\
    forall n, N <= n -> read_members o h (rd n) ls = Ok vals.
Proof.
  intros N1 N2 KK HU NU HF.
  assert (X1 : exists uws lsf, Forall2 (fun km uw => unescaped (fst km) (fst uw) /\ Q (snd km) (snd uw)) fs uws /\ map fst uws = us /\ map fst lsf = map fst fs /\
    Forall2 (fun kj uw => In kj ls /\ unescaped (fst kj) (fst uw) /\ is_refs o h (snd kj) = false /\ reads (snd kj) (snd uw)) lsf uws).
  { clear N1 N2 KK NU. revert us HU. induction HF as [|[k x] fs (j & ob & w & A1 & A2 & A3 & A4 & A5) _ IH]; intros us HU; cbn [map fst snd] in *.
    - inversion HU; subst. exists [], []. repeat split; constructor.
    - inversion HU as [|? u ? us' U1 U2]; subst. destruct (IH us' U2) as (uws & lsf & B1 & B2 & B3 & B4). exists ((u, w) :: uws), ((k, j) :: lsf).
      cbn [map fst snd]. rewrite B2, B3. repeat split; constructor; cbn [fst snd]; auto. split; [apply assoc_In; exact A1|]. split; [exact U1|]. split; [eapply not_refs; eassumption|exact A4]. }
  destruct X1 as (uws & lsf & B1 & B2 & B3 & B4).
  assert (PL : Permutation lsf ls).
  { apply NoDup_Permutation; [apply nodup_pairs; rewrite B3; exact N2|apply nodup_pairs; exact N1|]. intros [k j]. split; intros H.
    - clear - B4 H. induction B4 as [|kj uw lsf uws (A & _) _ IH]; [destruct H|]. destruct H as [->|H]; [exact A|apply IH; exact H].
    - assert (K : In k (map fst lsf)) by (rewrite B3; apply KK; apply in_map_iff; exists (k, j); auto).
      apply in_map_iff in K. destruct K as ([k' j'] & E & K). cbn in E. subst k'.
      assert (L : In (k, j') ls) by (clear - B4 K; induction B4 as [|kj uw lsf uws (A & _) _ IH]; [destruct K|]; destruct K as [->|K]; [exact A|apply IH; exact K]).
      pose proof (In_assoc _ _ _ N1 H) as E1. pose proof (In_assoc _ _ _ N1 L) as E2. congruence. }
  destruct (Permutation_Forall2 PL B4) as (vals & PV & B5').
  assert (B5 : Forall2 (fun kj uw => unescaped (fst kj) (fst uw) /\ is_refs o h (snd kj) = false /\ reads (snd kj) (snd uw)) ls vals)
    by (eapply F2_imp; [|exact B5']; cbn; intros a b H; apply H).
  assert (RS : Forall2 reads (map snd ls) (map snd vals)) by (clear - B5; induction B5 as [|kj uw ls vals (_ & _ & R) _ IH]; constructor; assumption).
  destruct (all_reads o keq h P HP HA _ _ RS) as (N & HN). exists uws, vals, N. split; [exact B1|]. split; [exact B2|]. split; [exact PV|]. intros n Hn. specialize (HN n Hn).
  unfold read_members.
  assert (M : mapr (fun kj => do uk <- unescape_path (fst kj); if is_refs o h (snd kj) then Ok None else do r <- quiet (rd n (snd kj)); Ok (option_map (fun v => (uk, v)) r)) ls = Ok (map (fun x => Some x) vals)).
  { clear - B5 HN. induction B5 as [|[k j] [u w] ls vals (A1 & A2 & _) _ IH]; [reflexivity|]. cbn [map fst snd] in *. inversion HN as [|? ? ? ? H1 H2]; subst.
    cbn [mapr fst snd]. rewrite A1. cbn [bindr]. rewrite A2, H1. cbn [quiet bindr option_map]. rewrite (IH H2). reflexivity. }
  rewrite M. cbn [bindr]. rewrite fold_dput; [reflexivity|]. cbn [map app]. eapply Permutation_NoDup; [apply Permutation_map; exact PV|]. rewrite B2. exact NU.
Qed.

(** the order of the fields *)
Lemma order_ok c ob fs order us present : MatlabSpec.field_order ob (map fst (fs : list (pystr * list mval))) order -> NoDup (map fst fs) -> Forall2 unescaped (map fst fs) us -> NoDup us -> Permutation us present ->
  exists names, MarshalR.field_order (plain_ra c (o_attrs ob)) present = Ok names /\ in_order order us names /\ Permutation us names.
Proof.
  intros FO ND HU NU PM. unfold MatlabSpec.field_order in FO. unfold MarshalR.field_order. cbn [plain_ra ra_fields ra_mfields].
  assert (C : (exists l, o_attrs ob k_fields = Some (AFields l) /\ order = Some l /\ NoDup l /\ forall k, In k l <-> In k (map fst fs)) \/ o_attrs ob k_fields = None /\ order = None).
  { destruct (o_attrs ob k_fields) as [v|]; [left|right; auto]. destruct v; try contradiction. eauto. }
  unfold attr_fields. clear FO. destruct C as [(l & -> & -> & N1 & N2)|(-> & ->)].
  -
    assert (PF : Permutation (map fst fs) l) by (apply NoDup_Permutation; [exact ND|exact N1|]; intros k; symmetry; apply N2).
    destruct (Permutation_Forall2 PF HU) as (names & PN & HN). exists names.
    assert (M : mapr unescape_path l = Ok names) by (apply mapr_ok_list; exact HN). rewrite M. cbn [bindr].
    assert (FE : filter (fun k => negb (mem_str k names)) present = []).
    { assert (X : forall k, In k present -> In k names) by (intros k Hk; eapply Permutation_in; [exact PN|]; eapply Permutation_in; [apply Permutation_sym; exact PM|exact Hk]).
      clear - X. induction present as [|k r IH]; [reflexivity|]. cbn [filter]. assert (E : mem_str k names = true) by (apply mem_str_In, X; left; reflexivity). rewrite E. cbn [negb]. apply IH. intros x Hx. apply X. right. exact Hx. }
    rewrite FE. cbn [sorted fold_right]. rewrite app_nil_r. split; [reflexivity|]. split; [exact HN|exact PN].
  - cbn [bindr]. exists (sorted present). split; [reflexivity|].
    assert (PS : Permutation us (sorted present)) by (etransitivity; [exact PM|apply Permutation_sym, sorted_perm]).
    split; [|exact PS]. split; [exact PS|]. apply sorted_before. eapply Permutation_NoDup; eassumption.
Qed.

Definition types_of sh (cs : list (pystr * list pyval)) := map (fun kv => (fst kv, field_type (obj_arr sh (snd kv)))) cs.
Definition recs_of sh (cs : list (pystr * list pyval)) : list (elem pyval) :=
  map (fun n => XRec (map (fun kv => cell_elems (field_type (obj_arr sh (snd kv))) (nth n (snd kv) VNone)) cs)) (seq 0 (prod sh)).
Lemma struct_seen order dims sh fs us uvs cs : dicts = false -> prod dims <> 0 -> prod sh <> 0 -> Forall2 unescaped (map fst fs) us -> map fst uvs = us ->
  Forall2 (fun kms uv => Forall2 (seen dicts) (snd kms) (snd uv) /\ Forall solid (snd uv) /\ length (snd uv) = prod sh) fs uvs -> Permutation uvs cs -> in_order order us (map fst cs) ->
  (forall ms : list pyval, length ms = prod sh -> column_major dims (transpose sh ms) ms) ->
  seen dicts (MStruct order dims fs) (VNp CNdarray (mkArr (TStruct (types_of sh cs)) (if list_eq_dec Nat.eq_dec dims [1; 1] then [1] else dims) (transpose sh (recs_of sh cs)))).
Proof.
  intros D NZ NS HU EU HF PM IO CM. apply (Se_struct dicts order dims fs us); auto.
  - unfold types_of. rewrite map_map. exact IO.
  - unfold types_of. rewrite map_length, <- (Permutation_length PM). symmetry. apply (F2_len _ _ _ HF).
  - rewrite <- EU. clear IO HU EU us. assert (IN : forall uv, In uv uvs -> In uv cs) by (intros uv; apply Permutation_in; exact PM). clear PM.
    induction HF as [|[k ms] [u vs] fs uvs (A1 & A2 & A3) _ IH]; cbn [map fst snd] in *; constructor; [|apply IH; intros uv Huv; apply IN; right; exact Huv].
    destruct (In_nth_error _ _ (IN _ (or_introl eq_refl))) as (p & Hp).
    destruct (build_fields sh cs p u vs Hp A3 A2) as (d & s & T1 & TF & T2); [intros ->; apply NS; symmetry; exact A3|].
    exists vs, (transpose sh vs), p, d, s. split; [exact A1|]. split; [apply CM; exact A3|]. split; [exact T1|]. split; [exact TF|].
    apply transpose_F2. unfold types_of. rewrite map_length. exact T2.
Qed.
(** from the members to the array *)
Lemma group_ok c ob ls order fs us vals uvs sh : (match c with Some x => eqb_str x (lit "struct") | None => false end && dicts) = false ->
  MatlabSpec.field_order ob (map fst (fs : list (pystr * list mval))) order -> NoDup (map fst fs) -> Forall2 unescaped (map fst fs) us -> NoDup us -> fs <> [] ->
  map fst uvs = us -> Forall (fun uv : pystr * list pyval => length (snd uv) = prod sh) uvs -> prod sh <> 0 ->
  Permutation (map (fun uv => (fst uv, if multi_element o h ls then VNp CNdarray (obj_arr sh (snd uv)) else nth 0 (snd uv) VNone)) uvs) vals ->
  (multi_element o h ls = false -> sh = [1]) ->
  exists cs, Permutation uvs cs /\ in_order order us (map fst cs) /\
    forall n, read_members o h (rd n) ls = Ok vals -> read_group o h (rd n) (plain_ra c (o_attrs ob)) ls = Ok (inr (mkArr (TStruct (types_of sh cs)) sh (recs_of sh cs))).
Proof.
  intros DC FO ND HU NU NE EU LU NZ PV SH.
  set (mu := multi_element o h ls) in *.
  set (cols := map (fun uv => (fst uv, obj_arr sh (snd uv))) uvs).
  assert (X : exists cols', Permutation cols cols' /\ mapr (fun kv : pystr * pyval => if mu then match snd kv with VNp _ a => Ok (fst kv, a) | _ => Err AttributeError end else Ok (fst kv, mkArr TObj [1] [XPtr (snd kv)])) vals = Ok cols').
  { apply Permutation_sym in PV. destruct (Permutation_map_inv _ _ PV) as (uvs' & EV & PU). exists (map (fun uv => (fst uv, obj_arr sh (snd uv))) uvs').
    split; [apply Permutation_map; exact PU|]. rewrite EV.
    assert (LU' : Forall (fun uv : pystr * list pyval => length (snd uv) = prod sh) uvs') by (rewrite Forall_forall in *; intros uv Huv; apply LU; eapply Permutation_in; [apply Permutation_sym; exact PU|exact Huv]).
    clear - LU' SH. induction LU' as [|[u vs] uvs' L _ IH]; [reflexivity|]. cbn [map mapr fst snd] in *. destruct mu.
    - cbn [bindr]. rewrite IH. reflexivity.
    - rewrite (SH eq_refl) in *. destruct vs as [|v [|]]; [discriminate L| |discriminate L]. cbn [nth bindr]. rewrite IH. reflexivity. }
  destruct X as (cols' & PC & MC). clear PV.
  assert (FC : map fst cols = us) by (unfold cols; rewrite map_map; exact EU).
  assert (PP : Permutation us (map fst cols')) by (rewrite <- FC; apply Permutation_map; exact PC).
  destruct (order_ok c ob fs order us (map fst cols') FO ND HU NU PP) as (names & FO' & IO & PN).
  rewrite <- EU in PN. apply Permutation_sym in PN. destruct (Permutation_map_inv _ _ PN) as (cs & -> & PS). exists cs. split; [exact PS|]. split; [exact IO|].
  intros n RM. unfold read_group. rewrite RM. cbn [bindr]. change (ra_mclass (plain_ra c (o_attrs ob))) with c. rewrite DC. fold mu. rewrite MC. cbn [bindr]. rewrite FO'. cbn [bindr].
  rewrite (build_ok sh cols' cs); [reflexivity| | |exact NZ|].
  - intros ->. apply Permutation_sym, Permutation_nil in PS. subst uvs. cbn in EU. subst us. inversion HU. destruct fs; [congruence|discriminate].
  - eapply Permutation_NoDup; [apply Permutation_sym; exact PN|rewrite EU; exact NU].
  - rewrite Forall_forall in *. intros [u vs] Huv. assert (I : In (u, vs) uvs) by (eapply Permutation_in; [apply Permutation_sym; exact PS|exact Huv]). cbn [fst snd]. split; [|apply (LU _ I)].
    apply In_assoc; [eapply Permutation_NoDup; [exact PP|exact NU]|]. eapply Permutation_in; [exact PC|]. unfold cols. apply in_map_iff. exists (u, vs). auto.
Qed.
Lemma finish_struct a d : o_attrs a k_empty = None -> np_finish o (plain_ra (Some (lit "struct")) (o_attrs a)) d = Ok (VNp CNdarray (tr d)).
Proof.
  intros M. rewrite (finish_class o _ _ _ TObj) by (vm_compute; reflexivity). rewrite (not_empty _ M). unfold np_matlab. lits. cbn [bindr orb]. destruct (a_dt (tr d)); reflexivity.
Qed.
Lemma struct_name : In (lit "struct") class_names. Proof. unfold class_names. apply in_or_app. right. cbn. auto. Qed.

Variable pairs : bool.
Hypothesis HW : pairs = true -> wide_whole h.
Lemma gives_struct i ob ls order fs : P i -> h i = Some ob -> o_attrs ob k_class = Some (AStr (lit "struct")) -> o_attrs ob k_empty = None ->
  o_body ob = BGroup ls -> NoDup (map fst fs) -> (forall k, In k (map fst ls) <-> In k (map fst fs)) -> MatlabSpec.field_order ob (map fst fs) order ->
  Forall (fun km => exists j oj, assoc (fst km) ls = Some j /\ P j /\ h j = Some oj /\ o_attrs oj k_class <> None /\ gives j (snd km)) fs ->
  readable dicts pairs (MStruct order [1; 1] (map (fun km => (fst km, [snd km])) fs)) -> gives i (MStruct order [1; 1] (map (fun km => (fst km, [snd km])) fs)).
Proof.
  intros Hi E C M B ND KK FO HF HR. inversion HR as [| | |? ? ? us RN HU NU _]; subst. set (fs1 := map (fun km => (fst km, [snd km])) fs) in *.
  assert (M1 : map fst fs1 = map fst fs) by (unfold fs1; rewrite map_map; reflexivity). rewrite M1 in HU.
  destruct (HA i ob Hi E) as (_ & _ & NL). rewrite B in NL.
  destruct (members fs (fun m w => seen dicts m w /\ solid w) ls us NL ND KK HU NU) as (uws & vals & N & U1 & U2 & U3 & U4).
  { eapply Forall_impl; [|exact HF]. intros [k m] (j & oj & A1 & A2 & A3 & _ & (w & A4 & A5 & A6)). exists j, oj, w. auto 10. }
  destruct (Bool.bool_dec dicts true) as [D|D]; [|apply Bool.not_true_is_false in D].
  - exists (VDict MDict (map (fun kv => (VStr (fst kv), snd kv)) vals)). split; [|split; [exact I|]].
    + apply Se_dict with (items' := map (fun kv => (VStr (fst kv), snd kv)) uws); [exact D|apply Permutation_map, Permutation_sym; exact U3|].
      unfold fs1. clear - U1. induction U1 as [|[k m] [u w] fs uws (A1 & A2 & _) _ IH]; cbn [map]; constructor; [|exact IH]. exists u, m. auto.
    + apply (reads_step o keq h P HP HA). exists N. intros n Hn. rewrite (read_step o keq h P HA n i ob (Some (lit "struct")) Hi E C) by (intros x [= <-]; apply struct_name). rewrite B.
      unfold read_group. rewrite (U4 n Hn). cbn [bindr plain_ra ra_mclass]. lits. rewrite D. reflexivity.
  - assert (NE : fs <> []) by (destruct RN as [RN|[RN|RN]]; [congruence| |discriminate RN]; intros ->; apply RN; reflexivity).
    assert (ME : multi_element o h ls = false).
    { unfold multi_element. destruct (forallb _ ls) eqn:EF; [|reflexivity]. exfalso. rewrite forallb_forall in EF. destruct HF as [|[k m] fs' (j & oj & A1 & A2 & A3 & A4 & _) _]; [congruence|].
      specialize (EF (k, j) (assoc_In _ _ _ A1)). cbn [snd] in EF. rewrite (not_refs j oj A2 A3) in EF. cbn [orb] in EF. unfold is_column in EF. rewrite A3 in EF. destruct (o_body oj); [|discriminate EF].
      apply andb_true_iff in EF. destruct EF as [_ EF]. rewrite forallb_forall in EF. assert (IK : In k_class own_attrs) by (unfold own_attrs, k_class; cbn; auto 10). specialize (EF k_class IK). destruct (o_attrs oj k_class); [discriminate EF|congruence]. }
    set (uvs := map (fun uw : pystr * pyval => (fst uw, [snd uw])) uws).
    assert (FU : map fst uvs = us) by (unfold uvs; rewrite map_map; exact U2).
    assert (X : exists cs, Permutation uvs cs /\ in_order order us (map fst cs) /\
      forall n, read_members o h (rd n) ls = Ok vals -> read_group o h (rd n) (plain_ra (Some (lit "struct")) (o_attrs ob)) ls = Ok (inr (mkArr (TStruct (types_of [1] cs)) [1] (recs_of [1] cs)))).
    { apply (group_ok (Some (lit "struct")) ob ls order fs1 us vals uvs [1]); auto.
      - rewrite M1. exact FO.
      - rewrite M1. exact ND.
      - rewrite M1. exact HU.
      - intros Z. apply NE. unfold fs1 in Z. destruct fs; [reflexivity|discriminate Z].
      - unfold uvs. rewrite Forall_map. apply Forall_forall. reflexivity.
      - discriminate.
      - rewrite ME. unfold uvs. rewrite map_map. cbn [fst snd nth]. replace (map (fun x : pystr * pyval => (fst x, snd x)) uws) with uws; [exact U3|]. rewrite <- (map_id uws) at 1. apply map_ext. intros []. reflexivity. }
    destruct X as (cs & PC & IO & RG). exists (VNp CNdarray (mkArr (TStruct (types_of [1] cs)) [1] (transpose [1] (recs_of [1] cs)))). split; [|split; [discriminate|]].
    + apply (struct_seen order [1; 1] [1] fs1 us uvs cs); auto.
      * discriminate.
      * discriminate.
      * rewrite M1. exact HU.
      * unfold fs1, uvs. clear - U1. induction U1 as [|[k m] [u w] fs uws (_ & A2 & A3) _ IH]; cbn [map fst snd]; constructor; [|exact IH]. cbn [snd]. repeat split; constructor; auto.
      * intros [|m [|]] L; try discriminate L. rewrite transpose_1d by reflexivity. repeat split. intros idx F. inversion F as [|a ? ? ? L1 F1]; subst. inversion F1 as [|b ? ? ? L2 F2]; subst. inversion F2; subst.
        assert (a = 0) by lia. assert (b = 0) by lia. subst. reflexivity.
    + apply (reads_step o keq h P HP HA). exists N. intros n Hn. rewrite (read_step o keq h P HA n i ob (Some (lit "struct")) Hi E C) by (intros x [= <-]; apply struct_name). rewrite B.
      rewrite (RG n (U4 n Hn)). cbn [bindr]. apply finish_struct. exact M.
Qed.

(** arrays of structs *)
Lemma gives_column j oj f sh js ms : P j -> h j = Some oj -> (forall k, k <> k_path -> o_attrs oj k = None) -> o_body oj = BData (mkArr TRef sh (map XPtr js)) f ->
  length js = prod sh -> Forall (fun j => live h j = true) js -> Forall2 gives js ms ->
  exists vs, reads j (VNp CNdarray (obj_arr sh vs)) /\ Forall2 (seen dicts) ms vs /\ Forall solid vs /\ length vs = prod sh.
Proof.
  intros Hj E A B L LV G. destruct (all_gives o keq h js ms G) as (vs & V1 & V2 & V3). exists vs. split; [|split; [exact V1|split; [exact V2|rewrite <- (F2_len _ _ _ V3); exact L]]].
  destruct (all_reads o keq h P HP HA js vs V3) as (N & HN). apply (reads_step o keq h P HP HA). exists N. intros n Hn.
  rewrite (read_step o keq h P HA n j oj None Hj E); [|cbn [option_map]; apply A; discriminate|discriminate]. rewrite B, (refs_array o keq h n sh js vs LV (HN n Hn)). reflexivity.
Qed.
Lemma gives_structs i ob ls order sh fs : P i -> h i = Some ob -> o_attrs ob k_class = Some (AStr (lit "struct")) -> o_attrs ob k_empty = None ->
  o_body ob = BGroup ls -> NoDup (map fst fs) -> (forall k, In k (map fst ls) <-> In k (map fst fs)) -> MatlabSpec.field_order ob (map fst fs) order ->
  2 <= length sh -> 2 <= prod sh ->
  Forall (fun km => exists j oj f js, assoc (fst km) ls = Some j /\ P j /\ h j = Some oj /\ (forall k, k <> k_path -> o_attrs oj k = None) /\
    o_body oj = BData (mkArr TRef sh (map XPtr js)) f /\ length js = prod sh /\ Forall (fun j => live h j = true) js /\ Forall2 gives js (snd km)) fs ->
  readable dicts pairs (MStruct order (rev sh) fs) -> gives i (MStruct order (rev sh) fs).
Proof.
  intros Hi E C M B ND KK FO L1 L2 HF HR. inversion HR as [| | |? ? ? us RN HU NU _]; subst.
  destruct (HA i ob Hi E) as (_ & _ & NL). rewrite B in NL.
  destruct (members fs (fun ms w => exists vs, w = VNp CNdarray (obj_arr sh vs) /\ Forall2 (seen dicts) ms vs /\ Forall solid vs /\ length vs = prod sh) ls us NL ND KK HU NU) as (uws & vals & N & U1 & U2 & U3 & U4).
  { eapply Forall_impl; [|exact HF]. intros [k m] (j & oj & f & js & A1 & A2 & A3 & A4 & A5 & A6 & A7 & A8).
    destruct (gives_column j oj f sh js m A2 A3 A4 A5 A6 A7 A8) as (vs & V1 & V2). exists j, oj, (VNp CNdarray (obj_arr sh vs)). cbn [snd]. eauto 10. }
  assert (PR : prod (rev sh) = prod sh) by apply prod_rev.
  destruct (Bool.bool_dec dicts true) as [D|D]; [|apply Bool.not_true_is_false in D].
  - exists (VDict MDict (map (fun kv => (VStr (fst kv), snd kv)) vals)). split; [|split; [exact I|]].
    + apply Se_dicts with (items' := map (fun kv => (VStr (fst kv), snd kv)) uws); [exact D|lia|apply Permutation_map, Permutation_sym; exact U3|].
      rewrite rev_involutive. clear - U1. induction U1 as [|[k m] [u w] fs uws (A1 & vs & A2 & A3 & _) _ IH]; cbn [map]; constructor; [|exact IH]. cbn [fst snd] in *. exists u, vs. auto.
    + apply (reads_step o keq h P HP HA). exists N. intros n Hn. rewrite (read_step o keq h P HA n i ob (Some (lit "struct")) Hi E C) by (intros x [= <-]; apply struct_name). rewrite B.
      unfold read_group. rewrite (U4 n Hn). cbn [bindr plain_ra ra_mclass]. lits. rewrite D. reflexivity.
  - assert (NE : fs <> []) by (destruct RN as [RN|[RN|RN]]; [congruence|exact RN|lia]).
    assert (ME : multi_element o h ls = true).
    { unfold multi_element. apply forallb_forall. intros [k j] Hkj. cbn [snd]. apply orb_true_iff. right.
      assert (K : In k (map fst fs)) by (apply KK; apply in_map_iff; exists (k, j); auto). apply in_map_iff in K. destruct K as ([k' m] & Ek & K). cbn in Ek. subst k'.
      rewrite Forall_forall in HF. destruct (HF _ K) as (j' & oj & f & js & A1 & A2 & A3 & A4 & A5 & _). cbn [fst] in A1. rewrite (In_assoc _ _ _ NL Hkj) in A1. injection A1 as <-.
      unfold is_column. rewrite A3, A5. cbn [a_dt dt_eqb andb]. apply forallb_forall. intros x Hx. rewrite A4; [reflexivity|]. clear - Hx. unfold own_attrs in Hx. cbn [In] in Hx. intros ->. repeat destruct Hx as [Hx|Hx]; try discriminate Hx. exact Hx. }
    assert (X : exists uvs, Forall2 (fun kms uv => Forall2 (seen dicts) (snd kms) (snd uv) /\ Forall solid (snd uv) /\ length (snd uv) = prod sh) fs uvs /\ uws = map (fun uv => (fst uv, VNp CNdarray (obj_arr sh (snd uv)))) uvs).
    { clear - U1. induction U1 as [|[k m] [u w] fs uws (_ & vs & A1 & A2 & A3 & A4) _ (uvs & IH1 & IH2)]; [exists []; split; [constructor|reflexivity]|].
      cbn [snd] in *. exists ((u, vs) :: uvs). split; [constructor; auto|]. cbn [map fst snd]. congruence. }
    destruct X as (uvs & V1 & V2). assert (FU : map fst uvs = us) by (rewrite <- U2, V2, map_map; reflexivity).
    assert (X : exists cs, Permutation uvs cs /\ in_order order us (map fst cs) /\
      forall n, read_members o h (rd n) ls = Ok vals -> read_group o h (rd n) (plain_ra (Some (lit "struct")) (o_attrs ob)) ls = Ok (inr (mkArr (TStruct (types_of sh cs)) sh (recs_of sh cs)))).
    { apply (group_ok (Some (lit "struct")) ob ls order fs us vals uvs sh); auto.
      - clear - V1. induction V1 as [|a b fs uvs (_ & _ & H) _ IH]; constructor; assumption.
      - lia.
      - rewrite ME, <- V2. exact U3.
      - rewrite ME. discriminate. }
    destruct X as (cs & PC & IO & RG).
    pose proof (struct_seen order (rev sh) sh fs us uvs cs D) as SS. destruct (list_eq_dec Nat.eq_dec (rev sh) [1; 1]) as [Z|_]; [rewrite Z in PR; unfold prod in PR at 1; cbn in PR; lia|].
    exists (VNp CNdarray (mkArr (TStruct (types_of sh cs)) (rev sh) (transpose sh (recs_of sh cs)))). split; [|split; [apply (rev_ne sh L1)|]].
    + apply SS; auto; [lia|lia|]. intros ms L. apply column_back. exact L.
    + apply (reads_step o keq h P HP HA). exists N. intros n Hn. rewrite (read_step o keq h P HA n i ob (Some (lit "struct")) Hi E C) by (intros x [= <-]; apply struct_name). rewrite B.
      rewrite (RG n (U4 n Hn)). cbn [bindr]. apply finish_struct. exact M.
Qed.
Lemma gives_struct_empty i ob dims f names order : P i -> h i = Some ob -> o_attrs ob k_class = Some (AStr (lit "struct")) -> o_attrs ob k_empty = Some (AU8 1) ->
  o_body ob = BData (dims_data dims) f -> 2 <= length dims -> prod dims = 0 -> MatlabSpec.field_order ob names order ->
  readable dicts pairs (MStruct order dims (map (fun k => (k, [])) names)) -> gives i (MStruct order dims (map (fun k => (k, [])) names)).
Proof.
  intros Hi E C M B L Z FO HR. inversion HR as [| | |? ? ? us RN HU NU _]; subst. rewrite map_map, map_id in HU.
  assert (ST : forall n, rd (S n) i = np_matlab (lit "struct") TObj true (attr_fields (o_attrs ob) k_fields) (amap (fun _ => VNone) (dims_data dims))).
  { intros n. apply (empty_step o keq h P HA n i ob _ _ dims f); auto; apply struct_name. }
  unfold MatlabSpec.field_order in FO.
  assert (K : (exists l, o_attrs ob k_fields = Some (AFields l) /\ order = Some l /\ forall k, In k l <-> In k names) \/ o_attrs ob k_fields = None /\ order = None).
  { destruct (o_attrs ob k_fields) as [v|]; [left|right; auto]. destruct v; try contradiction. destruct FO as (F1 & F2 & F3). eauto. }
  clear FO. destruct K as [(l & K1 & -> & K2)|(K1 & ->)].
  - assert (X : exists us', Forall2 unescaped l us').
    { assert (Y : forall k, In k l -> exists u, unescaped k u).
      { intros k Hk. apply K2 in Hk. clear - HU Hk. induction HU as [|k' u ks us H _ IH]; [destruct Hk|]. destruct Hk as [->|Hk]; [eauto|auto]. }
      clear - Y. induction l as [|k l IH]; [exists []; constructor|]. destruct (Y k (or_introl eq_refl)) as (u & Hu). destruct IH as (us & IH); [intros x Hx; apply Y; right; exact Hx|]. exists (u :: us). constructor; assumption. }
    destruct X as (us' & X). eexists. split; [apply (Se_no_structs _ l dims _ us'); assumption|]. split; [apply (rev_ne dims L)|]. apply (reads_step o keq h P HP HA). exists 0. intros n _. rewrite ST.
    unfold attr_fields. rewrite K1. unfold np_matlab. rewrite as_shape_dims. assert (MR : mapr unescape_path l = Ok us') by (apply mapr_ok_list; exact X). rewrite MR. lits. cbn [bindr orb].
    rewrite (zeros_none dims _ Z). cbn [a_dt]. reflexivity.
  - eexists. split; [apply Se_no_structs_fields; assumption|]. split; [apply (rev_ne dims L)|]. apply (reads_step o keq h P HP HA). exists 0. intros n _. rewrite ST, (no_fields _ K1).
    apply (empty_np (lit "struct") TObj dims); auto.
Qed.

(** ** all of it *)
Lemma leads_ref i ob a f j : h i = Some ob -> o_body ob = BData a f -> In (XPtr j) (a_data a) -> leads h i j.
Proof. intros E B H. exists ob. rewrite B. auto. Qed.
Lemma leads_member i ob ls k j : h i = Some ob -> o_body ob = BGroup ls -> assoc k ls = Some j -> leads h i j.
Proof. intros E B H. exists ob. rewrite B. split; [exact E|]. apply in_map_iff. exists (k, j). split; [reflexivity|]. apply assoc_In. exact H. Qed.

Lemma gives_list js ms : Forall2 (fun j m => known false h j refs_path /\ (P j -> readable dicts pairs m -> gives j m)) js ms -> (forall j, In j js -> P j) -> Forall (readable dicts pairs) ms ->
  Forall (fun j => live h j = true) js /\ Forall2 gives js ms.
Proof.
  intros F. induction F as [|j m' js ms (K & Hm) F IH]; intros HJ R; [split; constructor|]. inversion R as [|? ? R1 R2]; subst.
  destruct IH as [I1 I2]; [intros x Hx; apply HJ; right; exact Hx|exact R2|]. split; constructor; auto. apply Hm; [apply HJ; left; reflexivity|exact R1].
Qed.
Fixpoint mat_gives i m (H : mat_in false h i m) {struct H} : P i -> readable dicts pairs m -> gives i m.
Proof.
  intros Hi HR. destruct H as [i ob cls a f data E C M F B L1 L2 L3 N|i ob cls dims f E C M F K B L Z|i ob sh f js ms E C M F B L1 L2 L3 FF|i ob dims f E C M F B L Z
    |i ob ls order fs E C M B ND KK FO FF|i ob ls order sh fs E C M B ND KK FO L1 L2 FF|i ob dims f names order E C M B L Z FO|i ob f S E C M F B].
  - eapply gives_num; eassumption.
  - eapply gives_num_empty; eassumption.
  - inversion HR as [| |? ? R|]; subst.
    assert (FF' : Forall2 (fun j m => known false h j refs_path /\ (P j -> readable dicts pairs m -> gives j m)) js ms).
    { clear - FF mat_gives. induction FF as [|j m js ms (K & _ & Hm) _ IH]; constructor; [|exact IH]. split; [exact K|]. apply mat_gives. exact Hm. }
    clear FF. destruct (gives_list js ms FF') as [G1 G2]; [|exact R|eapply gives_cell; eassumption].
    intros j Hj. apply (HP i); [exact Hi|]. eapply leads_ref; [exact E|exact B|]. cbn [a_data]. apply in_map. exact Hj.
  - eapply gives_cell_empty; eassumption.
  - eapply gives_struct; try eassumption. inversion HR as [| | |? ? ? us _ _ _ R]; subst.
    assert (PJ : forall k j, assoc k ls = Some j -> P j) by (intros k j A; apply (HP i); [exact Hi|]; eapply leads_member; eassumption).
    clear - FF R PJ mat_gives. revert R. induction FF as [|[k m] fs (j & A1 & A2 & (oj & c & A3 & A4) & A5) FF IH]; intros R; [constructor|]. cbn [map] in R. inversion R as [|? ? R1 R2]; subst. inversion R1 as [|? ? R3 _]; subst.
    constructor; [|apply IH; exact R2]. exists j, oj. cbn [fst snd] in *. split; [exact A1|]. split; [eapply PJ; exact A1|]. split; [exact A3|]. split; [congruence|]. apply mat_gives; [exact A5|eapply PJ; exact A1|exact R3].
  - eapply gives_structs; try eassumption. inversion HR as [| | |? ? ? us _ _ _ R]; subst.
    assert (PJ : forall k j, assoc k ls = Some j -> P j) by (intros k j A; apply (HP i); [exact Hi|]; eapply leads_member; eassumption).
    assert (FF' : Forall (fun km => exists j oj f js, assoc (fst km) ls = Some j /\ classless h j /\
       h j = Some oj /\ o_body oj = BData (mkArr TRef sh (map XPtr js)) f /\ length js = prod sh /\
       Forall2 (fun j m => known false h j refs_path /\ (P j -> readable dicts pairs m -> gives j m)) js (snd km)) fs).
    { clear - FF mat_gives. induction FF as [|[k m] fs (j & oj & f & js & A1 & _ & A2 & A5 & A6 & A7 & A8) _ IH]; constructor; [|exact IH]. exists j, oj, f, js. repeat (split; [assumption|]). cbn [fst snd] in *.
      clear - A8 mat_gives. induction A8 as [|j m js ms (K & _ & Hm) _ IH]; constructor; [|exact IH]. split; [exact K|]. apply mat_gives. exact Hm. }
    clear - FF' R PJ HP HA. induction FF' as [|[k m] fs (j & oj & f & js & A1 & (oj' & A3 & A4) & A5 & A6 & A7 & A8) FF IH]; [constructor|]. inversion R as [|? ? R1 R2]; subst.
    constructor; [|apply IH; try exact R2]. 
    + cbn [fst snd] in *. assert (oj' = oj) by congruence. subst oj'. pose proof (PJ _ _ A1) as Pj.
      destruct (gives_list js m A8) as [G1 G2]; [|exact R1|exists j, oj, f, js; auto 10].
      intros x Hx. apply (HP j); [exact Pj|]. eapply leads_ref; [exact A5|exact A6|]. cbn [a_data]. apply in_map. exact Hx.
  - eapply gives_struct_empty; eassumption.
  - eapply gives_canonical; eassumption.
Qed.
End Reading.
