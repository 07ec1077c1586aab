(** The round trip of structured arrays: as a Group of fields or as one Dataset. *)
From Verif Require Import Base PathEsc PathEscFacts PosixPath PosixFacts ProcessPathFacts Unicode UnicodeFacts Dec NdArray Value OptionsM StrConv ComplexM Attrs NpDims MColl Hdf5 HeapFacts NpWrite NpRead MarshalW MarshalR FrameFacts WriteFrame ReadFacts RoundSpec RoundNp RoundHeap RoundWrite RoundVal RoundDict StructBuild.
From Coq Require Import Permutation.
Local Open Scope nat_scope.
Local Arguments prod : simpl never.

(** ** attributes: what is requested is set, or cannot be replaced *)
Lemma put_attr_spec ex k q a a1 : put_attr ex k q a = Ok a1 -> exists v, req_val q = Ok v /\
  (a1 = set_attr k v a \/ a1 = a /\ exists old, ex k = Some old /\ ~ replaceable k q old).
Proof.
  intros E. assert (X : exists v, req_val q = Ok v).
  { destruct q; cbn [put_attr req_val] in *; eauto; destruct (ascii_bytes s); cbn [bindr] in *; eauto; discriminate. }
  destruct X as [v Hv]. exists v. split; [exact Hv|]. unfold put_attr in E.
  destruct q as [s|w|z|l|w]; try (left; cbn [req_val] in Hv; injection Hv as <-; injection E as <-; reflexivity).
  all: rewrite Hv in E; cbn [bindr] in E; destruct (ex k) as [old|] eqn:EX; [|left; congruence].
  all: destruct (eqb_str_spec k (lit "MATLAB_fields")) as [K|K]; [left; congruence|].
  all: try (left; congruence).
  all: destruct (has_dtype old) eqn:HD; [|left; congruence]; destruct (same_layout v old) eqn:SL; [left; congruence|].
  all: right; split; [congruence|]; exists old; split; [reflexivity|]; intros [R|[[x ->]|(v' & R1 & R2)]]; [congruence|discriminate HD|congruence].
Qed.
Lemma put_attrs_spec ex reqs : forall a a', NoDup (map fst reqs) -> put_attrs ex reqs a = (a', None) ->
  (forall k, ~ In k (map fst reqs) -> a' k = a k) /\
  (forall k q, In (k, q) reqs -> exists v, req_val q = Ok v /\ (a' k = Some v \/ a' k = a k /\ exists old, ex k = Some old /\ ~ replaceable k q old)).
Proof.
  induction reqs as [|[k q] reqs IH]; intros a a' Hn E; cbn [put_attrs] in E.
  - injection E as <-. split; [reflexivity|intros k q []].
  - destruct (put_attr ex k q a) as [a1|] eqn:E1; [|discriminate]. cbn [map fst] in Hn. inversion Hn as [|? ? N1 N2]; subst.
    destruct (put_attr_spec _ _ _ _ _ E1) as (v & Hv & C). destruct (IH a1 a' N2 E) as [I1 I2].
    assert (OT : forall k', k' <> k -> a1 k' = a k') by (intros k' N; destruct C as [-> |[-> _]]; [apply set_attr_other; exact N|reflexivity]).
    split.
    + intros k' Hk. cbn [map fst In] in Hk. rewrite I1 by tauto. apply OT. intros ->. tauto.
    + intros k' q' [Hi|Hi].
      * injection Hi as <- <-. exists v. split; [exact Hv|]. rewrite I1 by exact N1. destruct C as [-> |[-> C]]; [left; apply set_attr_same|right; auto].
      * destruct (I2 k' q' Hi) as (v' & V1 & V2). exists v'. split; [exact V1|]. rewrite OT in V2; [exact V2|]. intros ->. apply N1. apply in_map_iff. exists (k, q'). auto.
Qed.
Lemma sync_spec a reqs a' : NoDup (map fst reqs) -> set_attributes_all a reqs true = (a', None) -> forall k,
  a' k = fresh_attrs reqs k \/ exists q old, In (k, q) reqs /\ a k = Some old /\ a' k = Some old /\ ~ replaceable k q old.
Proof.
  intros N E k. unfold set_attributes_all in E. destruct (put_attrs a reqs a) as [a1 [e|]] eqn:P; [discriminate|]. injection E as <-.
  destruct (put_attrs_spec _ _ _ _ N P) as [P1 P2]. cbn [andb]. unfold fresh_attrs.
  destruct (mem_str k (map fst reqs)) eqn:M; cbn [negb].
  - apply mem_str_In in M. apply in_map_iff in M. destruct M as ([k' q] & Ek & Hq). cbn in Ek. subst k'.
    rewrite (in_assoc k q reqs N Hq). destruct (P2 k q Hq) as (v & -> & [-> |[Ha (old & X1 & X2)]]); [left; reflexivity|right]. exists q, old. rewrite Ha. auto.
  - left. destruct (assoc k reqs) as [q|] eqn:A; [|reflexivity]. apply assoc_In in A. exfalso.
    assert (mem_str k (map fst reqs) = true) by (apply mem_str_In; apply in_map_iff; exists (k, q); auto). congruence.
Qed.
Lemma sync_general s i ob reqs s' : hp s i = Some ob -> NoDup (map fst reqs) -> sync_attrs i reqs true s = (s', Ok tt) ->
  exists a, s' = set_hp s (upd (hp s) i (with_attrs ob a)) /\ forall k,
  a k = fresh_attrs reqs k \/ exists q old, In (k, q) reqs /\ o_attrs ob k = Some old /\ a k = Some old /\ ~ replaceable k q old.
Proof.
  intros Ei N E. unfold sync_attrs, attrs_of, set_attrs in E. rewrite Ei in E.
  destruct (set_attributes_all (o_attrs ob) reqs true) as [a e] eqn:S. destruct e as [e|]; [discriminate|].
  injection E as <-. exists a. split; [reflexivity|]. apply (sync_spec _ _ _ N S).
Qed.

(** ** the attributes of a structured array *)
(** the attributes of a structured array, as they are left in the file: the name of the dtype
    may be the one of another structured array, stored there before, if the lengths differ *)
Definition under : pystr := lit "Python.numpy.UnderlyingType".
Definition struct_name (x : option aval) : Prop := exists fs, x = Some (AStr (dt_name (TStruct fs))).
Definition marks (reqs : list (pystr * areq)) (at_ : attrs) : Prop :=
  (forall k, k <> under -> at_ k = fresh_attrs reqs k) /\ (at_ under = fresh_attrs reqs under \/ struct_name (at_ under)).
Lemma marks_fresh reqs at_ : (forall k, at_ k = fresh_attrs reqs k) -> marks reqs at_.
Proof. intros H. split; [intros k _; apply H|left; apply H]. Qed.

Section Attrs.
Variables (o : options) (c : container) (a : arr pyval) (ts : pystr) (t : option dt) (ws : bool) (first : list (pystr * areq)).
Hypotheses (Hm : o_store_python_metadata o = true) (Hs : is_struct (a_dt a) = true) (Hn : np_empty a = false)
  (Hc : o_matlab_compatible o = true -> o_struct_as_struct o = true) (Hf : ws || fields_anyway o a = ws)
  (Hp : first = [] \/ o_matlab_compatible o = true /\ first = [(lit "MATLAB_class", QPyStr (lit "struct"))]).
Local Notation reqs := (np_attrs o (c, a) ts first ws t).
Definition struct_class (o : options) : option pystr := if o_matlab_compatible o then Some (lit "struct") else None.
Lemma struct_attrs_eq : exists l, reqs = dput (lit "Python.Type") (QString ts) l /\ NoDup (map fst l) /\
  (forall k, In k (map fst l) -> k <> lit "H5PATH") /\
  assoc (lit "Python.numpy.Container") l = Some (QString (container_name c)) /\
  assoc (lit "Python.numpy.UnderlyingType") l = Some (QString (dt_name (a_dt a))) /\
  assoc (lit "Python.Shape") l = Some (QVal (AU64s (a_shape a))) /\
  assoc (lit "Python.Fields") l = (if ws then Some (QStrs (map escaped (field_names (a_dt a)))) else None) /\
  (ws = false -> assoc (lit "MATLAB_fields") l = None) /\
  assoc (lit "Python.Empty") l = None /\
  assoc (lit "MATLAB_class") l = option_map QString (struct_class o).
Proof.
  unfold np_attrs. rewrite Hm, Hn, Hf, Hs. cbn [andb].
  set (l0 := dput (lit "Python.numpy.Container") _ _).
  assert (L0 : NoDup (map fst l0)).
  { unfold l0. repeat apply dput_nodup. destruct Hp as [->|[_ ->]]; repeat constructor; cbn; tauto. }
  assert (T0 : forall k, In k (map fst l0) -> In k [lit "Python.numpy.Container"; lit "Python.numpy.UnderlyingType"; lit "Python.Shape"; lit "MATLAB_class"]).
  { unfold l0. intros k. rewrite !dput_keys. destruct Hp as [->|[_ ->]]; cbn [map fst In]; intuition. }
  assert (G0 : forall k, k <> lit "MATLAB_class" -> assoc k l0 =
     if eqb_str k (lit "Python.numpy.Container") then Some (QString (container_name c)) else
     if eqb_str k (lit "Python.numpy.UnderlyingType") then Some (QString (dt_name (a_dt a))) else
     if eqb_str k (lit "Python.Shape") then Some (QVal (AU64s (a_shape a))) else None).
  { intros k N. apply eqb_str_neq in N. unfold l0. rewrite !assoc_dput. destruct Hp as [->|[_ ->]]; cbn [assoc]; [|rewrite N]; reflexivity. }
  assert (M0 : o_matlab_compatible o = false -> assoc (lit "MATLAB_class") l0 = None).
  { intros M. unfold l0. rewrite !assoc_dput. destruct Hp as [->|[X _]]; [lits; reflexivity|congruence]. }
  clearbody l0. set (names := map escaped (field_names (a_dt a))).
  set (l1 := if ws then _ else l0).
  assert (L1 : NoDup (map fst l1)).
  { unfold l1. destruct ws; [|exact L0]. destruct (o_matlab_compatible o); [destruct (matlab_fields names)|]; repeat apply dput_nodup; exact L0. }
  assert (T1 : forall k, In k (map fst l1) -> In k [lit "Python.numpy.Container"; lit "Python.numpy.UnderlyingType"; lit "Python.Shape"; lit "MATLAB_class"; lit "Python.Fields"; lit "MATLAB_fields"]).
  { intros k Hk. assert (X : In k (map fst l0) \/ k = lit "Python.Fields" \/ k = lit "MATLAB_fields").
    { unfold l1 in Hk. destruct ws; [|auto]. destruct (o_matlab_compatible o); [destruct (matlab_fields names)|]; rewrite ?dput_keys in Hk; tauto. }
    destruct X as [X|[->| ->]]; [apply T0 in X|cbn; tauto|cbn; tauto]. cbn [In] in *. tauto. }
  assert (G1 : forall k, k <> lit "MATLAB_fields" -> assoc k l1 = if eqb_str k (lit "Python.Fields") then (if ws then Some (QStrs names) else None) else assoc k l0).
  { intros k N. apply eqb_str_neq in N. unfold l1. destruct ws.
    - destruct (o_matlab_compatible o); [destruct (matlab_fields names)|]; rewrite !assoc_dput, ?N; reflexivity.
    - destruct (eqb_str_spec k (lit "Python.Fields")) as [->|]; [|reflexivity]. apply assoc_None. intros X. apply T0 in X. cbn [In] in X. intuition discriminate. }
  assert (M1 : ws = false -> assoc (lit "MATLAB_fields") l1 = None).
  { intros ->. unfold l1. rewrite G0 by discriminate. lits. reflexivity. }
  clearbody l1.
  set (l2 := if o_matlab_compatible o then _ else l1).
  assert (E2 : l2 = if o_matlab_compatible o then dput (lit "MATLAB_class") (QString (lit "struct")) l1 else l1).
  { unfold l2. destruct (o_matlab_compatible o) eqn:M; [|reflexivity]. rewrite (Hc eq_refl). reflexivity. }
  clearbody l2. subst l2. set (l2 := if o_matlab_compatible o then _ else l1).
  assert (L2 : NoDup (map fst l2)) by (unfold l2; destruct (o_matlab_compatible o); [apply dput_nodup|]; exact L1).
  assert (T2 : forall k, In k (map fst l2) -> In k [lit "Python.numpy.Container"; lit "Python.numpy.UnderlyingType"; lit "Python.Shape"; lit "MATLAB_class"; lit "Python.Fields"; lit "MATLAB_fields"]).
  { intros k Hk. unfold l2 in Hk. destruct (o_matlab_compatible o); [|apply T1; exact Hk]. rewrite dput_keys in Hk. destruct Hk as [->|Hk]; [cbn; tauto|apply T1; exact Hk]. }
  assert (G2 : forall k, k <> lit "MATLAB_class" -> assoc k l2 = assoc k l1).
  { intros k N. apply eqb_str_neq in N. unfold l2. destruct (o_matlab_compatible o); [|reflexivity]. rewrite assoc_dput, N. reflexivity. }
  assert (M2 : assoc (lit "MATLAB_class") l2 = option_map QString (struct_class o)).
  { unfold l2, struct_class. destruct (o_matlab_compatible o); [rewrite assoc_dput, eqb_str_refl; reflexivity|]. rewrite G1 by discriminate. lits. apply M0. reflexivity. }
  clearbody l2. exists l2. split.
  { destruct (mem_str (lit "Python.Type") (map fst l2)) eqn:M; [|reflexivity]. apply mem_str_In in M. apply T2 in M. cbn [In] in M. intuition discriminate. }
  split; [exact L2|]. split. { intros k Hk ->. apply T2 in Hk. cbn [In] in Hk. intuition discriminate. }
  split; [rewrite G2, G1, G0 by discriminate; lits; reflexivity|].
  split; [rewrite G2, G1, G0 by discriminate; lits; reflexivity|].
  split; [rewrite G2, G1, G0 by discriminate; lits; reflexivity|].
  split; [rewrite G2, G1 by discriminate; lits; reflexivity|].
  split; [intros X; rewrite G2 by discriminate; exact (M1 X)|].
  split; [rewrite G2, G1, G0 by discriminate; lits; reflexivity|exact M2].
Qed.
Lemma struct_attrs_nodup : NoDup (map fst reqs).
Proof. destruct struct_attrs_eq as (l & -> & N & _). apply dput_nodup. exact N. Qed.
Lemma fresh_under : fresh_attrs reqs under = Some (AStr (dt_name (a_dt a))).
Proof.
  destruct struct_attrs_eq as (l & E & _ & _ & _ & E2 & _). unfold fresh_attrs. rewrite E, assoc_dput. assert (eqb_str under (lit "Python.Type") = false) as -> by reflexivity.
  unfold under. rewrite E2. cbn [req_val]. rewrite ascii_bytes_ok by apply dt_name_ascii. reflexivity.
Qed.
Lemma marks_under at_ : marks reqs at_ -> exists d, is_struct d = true /\ at_ under = Some (AStr (dt_name d)).
Proof. intros [_ [H|[fs H]]]; [exists (a_dt a); rewrite H; split; [exact Hs|apply fresh_under]|exists (TStruct fs); auto]. Qed.
Lemma struct_read_attrs at_ : Forall (fun x => (x < 128)%N) ts -> marks reqs at_ ->
  exists me mf d, is_struct d = true /\ read_attrs at_ = Ok (mkRA (Some ts) (Some (dt_name d)) (Some (a_shape a)) (Some (container_name c)) false
                     (if ws then Some (map escaped (field_names (a_dt a))) else None) (struct_class o) me mf) /\
  (ws = false -> mf = None) /\
  attr_str at_ (lit "Python.Type") = Ok (Some ts) /\ attr_str at_ (lit "MATLAB_class") = Ok (struct_class o).
Proof.
  intros At HM. destruct (marks_under at_ HM) as (d & Sd & Ud). destruct HM as [H _].
  destruct struct_attrs_eq as (l & E & _ & E0 & E1 & E2 & E3 & E4 & E5 & E6 & E7).
  assert (F : forall k, k <> under -> k <> lit "Python.Type" -> at_ k = match assoc k l with Some q => match req_val q with Ok v => Some v | Err _ => None end | None => None end).
  { intros k N1 N2. rewrite (H k N1). unfold fresh_attrs. rewrite E, assoc_dput. apply eqb_str_neq in N2. rewrite N2. reflexivity. }
  assert (F0 : at_ (lit "Python.Type") = Some (AStr ts)).
  { rewrite H by discriminate. unfold fresh_attrs. rewrite E, assoc_dput, eqb_str_refl. cbn [req_val]. rewrite ascii_bytes_ok by exact At. reflexivity. }
  assert (A1 : attr_str at_ (lit "Python.Type") = Ok (Some ts)) by (unfold attr_str; rewrite F0, ascii_decode by exact At; reflexivity).
  assert (A2 : attr_str at_ (lit "MATLAB_class") = Ok (struct_class o)).
  { unfold attr_str. rewrite F, E7 by discriminate. unfold struct_class. destruct (o_matlab_compatible o); reflexivity. }
  exists (attr_is1 at_ (lit "MATLAB_empty")), (attr_fields at_ (lit "MATLAB_fields")), d. split; [exact Sd|]. split; [|split; [|split; assumption]].
  - unfold read_attrs. rewrite A1, A2. cbn [bindr].
    assert (A3 : attr_str at_ (lit "Python.numpy.UnderlyingType") = Ok (Some (dt_name d))).
    { unfold attr_str. fold under. rewrite Ud. rewrite ascii_decode by apply dt_name_ascii. reflexivity. }
    assert (A4 : attr_str at_ (lit "Python.numpy.Container") = Ok (Some (container_name c))).
    { unfold attr_str. rewrite F, E1 by discriminate. cbn [req_val]. rewrite ascii_bytes_ok by apply container_ascii. cbn [bindr]. rewrite ascii_decode by apply container_ascii. reflexivity. }
    rewrite A3, A4. cbn [bindr]. f_equal. unfold attr_shape, attr_strs, attr_is1 at 1.
    rewrite (F (lit "Python.Shape")), (F (lit "Python.Empty")), (F (lit "Python.Fields")), E3, E4, E6 by discriminate.
    cbn [req_val]. f_equal. destruct ws; reflexivity.
  - intros X. unfold attr_fields. rewrite F, (E5 X) by discriminate. reflexivity.
Qed.
End Attrs.

(** ** from the array to the value *)
Lemma struct_meta rv ts c d sh mc D names : is_struct d = true -> mc = None \/ mc = Some (lit "struct") ->
  np_meta rv ts (dt_name d) sh (Some (container_name c)) false names mc D =
  fin ts c (fix_shape sh (if match mc with Some _ => true | None => rv end then tr D else D)).
Proof.
  intros Hd Hc. destruct d as [| | | | | | | | |fs]; try discriminate. unfold np_meta.
  assert (S1 : starts_with (lit "bytes") (dt_name (TStruct fs)) = false) by reflexivity.
  assert (S2 : starts_with (lit "str") (dt_name (TStruct fs)) = false) by reflexivity.
  assert (S3 : starts_with (lit "complex") (dt_name (TStruct fs)) = false) by reflexivity.
  assert (S4 : eqb_str (dt_name (TStruct fs)) (lit "bool") = false) by reflexivity.
  rewrite S1, S2, S3, S4. cbn [bindr orb andb].
  assert (match mc with Some c0 => eqb_str c0 (lit "char") | None => false end = false) as -> by (destruct Hc as [-> | ->]; reflexivity).
  cbn [bindr]. set (d5 := if match mc with Some _ => true | None => rv end then tr D else D).
  assert ((if negb (eqb_shape sh (a_shape d5)) && (prod sh =? prod (a_shape d5)) then Ok (reshape sh d5) else Ok d5) = Ok (fix_shape sh d5)) as ->.
  { unfold fix_shape. destruct (_ && _); reflexivity. }
  cbn [bindr]. destruct c; reflexivity.
Qed.
Lemma fin_struct ts c d sh l : is_struct d = true -> length l = prod sh -> (c = CScalar -> sh = []) -> (c = CMatrix -> length sh = 2) -> (c = CRecarray -> ts = lit "numpy.recarray") ->
  fin ts c (mkArr d sh l) = Ok (VNp c (mkArr d sh l)).
Proof.
  intros Hd L H1 H2 H3. destruct c; try (apply fin_np; [discriminate|exact H2|exact H3]).
  rewrite (H1 eq_refl) in *. cbn [fin flat0 a_data]. unfold prod in L. cbn in L. destruct l as [|e [|]]; try discriminate. cbn [a_dt]. f_equal.
  destruct d; try discriminate. reflexivity.
Qed.
Lemma struct_rev wo ro : paired wo ro -> match struct_class wo with Some _ => true | None => o_reverse ro end = o_reverse wo.
Proof.
  intros P. unfold struct_class. destruct (o_matlab_compatible wo) eqn:M; [symmetry; apply (p_rev _ _ P M)|]. destruct (p_same _ _ P) as [X|X]; [congruence|exact X].
Qed.
Lemma struct_class_cases wo : struct_class wo = None \/ struct_class wo = Some (lit "struct").
Proof. unfold struct_class. destruct (o_matlab_compatible wo); auto. Qed.
Lemma struct_empty a fs c : struct_obj c a fs -> np_empty a = false.
Proof.
  intros H. unfold np_empty, size. rewrite (st_dt _ _ _ H). cbn [is_strdt andb]. rewrite orb_false_r. apply Nat.eqb_neq. apply (st_some _ _ _ H).
Qed.
Lemma struct_prepare wo c a fs : struct_obj c a fs -> np_prepare wo (c, a) = Ok (write_dims wo a).
Proof.
  intros H. pose proof (struct_empty _ _ _ H) as NE. pose proof (st_dt _ _ _ H) as D. unfold np_prepare.
  assert (E1 : store_bytes wo a = a) by (unfold store_bytes; rewrite D; reflexivity). rewrite E1.
  assert (E2 : store_str wo c a = Ok a) by (unfold store_str; rewrite D; reflexivity). rewrite E2. cbn [bindr].
  rewrite NE, andb_false_r, !write_dims_dt, D. cbn [dt_eqb andb]. rewrite write_dims_dt, D. reflexivity.
Qed.
(** the stored array keeps its shape when its columns are stored like arrays themselves *)
Lemma column_dims wo (a x : arr pyval) : wf_arr x -> a_shape x = a_shape (write_dims wo a) -> write_dims wo (if o_reverse wo then tr x else x) = x.
Proof.
  intros W E. destruct x as [d sh l]. cbn [a_shape] in E. unfold wf_arr in W. cbn [a_data a_shape] in W.
  assert (A2 : forall s, atleast_2d (atleast_2d s) = atleast_2d s) by (intros [|? [|? ?]]; reflexivity).
  unfold write_dims in *. destruct (o_reverse wo).
  - assert (X : (if o_atleast_2d wo then reshape (atleast_2d (a_shape (tr (mkArr d sh l)))) (tr (mkArr d sh l)) else tr (mkArr d sh l)) = tr (mkArr d sh l)).
    { destruct (o_atleast_2d wo); [|reflexivity]. assert (E' : sh = rev (atleast_2d (a_shape a))) by exact E. unfold tr, reshape. cbn [a_dt a_shape a_data]. rewrite E', rev_involutive, A2. reflexivity. }
    rewrite X. unfold tr. cbn [a_dt a_shape a_data]. rewrite rev_involutive, transpose_invol by exact W. reflexivity.
  - destruct (o_atleast_2d wo); [|reflexivity]. assert (E' : sh = atleast_2d (a_shape a)) by exact E. unfold reshape. cbn [a_dt a_shape a_data]. rewrite E', A2. reflexivity.
Qed.

(** attributes of an array of objects do not include H5PATH *)
Lemma obj_attrs_path o a ts ty : o_store_python_metadata o = true -> a_dt a = TObj -> ~ In h5path (map fst (np_attrs o (CNdarray, a) ts [] false ty)).
Proof.
  intros Hm D H. unfold np_attrs in H. rewrite Hm in H.
  assert (fields_anyway o a = false) as F by (unfold fields_anyway; rewrite D; reflexivity). rewrite F, D in H. cbn [orb andb is_struct matlab_class_of] in H.
  destruct (negb _) in H; rewrite ?dput_keys in H; destruct (o_matlab_compatible o), (np_empty a); rewrite ?dput_keys in H; cbn [map In] in H; unfold h5path in H; intuition discriminate.
Qed.

Section Columns.
Variables (wo ro : options) (keq : pyval -> pyval -> bool) (rnd : nat -> N) (tries : nat).
Notation wf := (wf wo). Notation okt := (okt wo). Notation wspec := (wspec wo rnd).
Notation reg := (reg wo rnd). Notation unreserved := (unreserved wo rnd). Notation storable := (storable wo ro keq).
Hypotheses (HP : paired wo ro) (HI : inj_rnd rnd).
(** what writing an array of objects leaves in the file *)
Definition cspec (wr : nat -> pystr -> pyval -> M (option nat)) : Prop := forall s g nm a s' r,
  wf s -> okt s g nm -> unreserved s (name_of (hp s) g ++ [nm]) ->
  a_dt a = TObj -> wf_arr a -> prod (a_shape a) <> 0 -> Forall (fun e => exists p, e = XPtr p /\ storable p) (a_data a) ->
  wr g nm (VNp CNdarray a) s = (s', Ok r) ->
  exists i ob d f l Q, r = Some i /\ hp s' i = Some ob /\ o_body ob = BData d f /\ a_dt d = TRef /\ at_target s' (name_of (hp s) g ++ [nm]) i /\
    closed (hp s') (elem_reg wo rnd s) Q /\ (forall j, In (XPtr j) (a_data d) -> Q j) /\ o_attrs ob h5path = None /\ Forall2 same_elem (a_data (write_dims wo a)) l /\
    forall n, (forall p, In (XPtr p) (a_data a) -> depth p <= n) -> read_array (hp s') (read ro keq (hp s') n) d = Ok (mkArr TObj (a_shape (write_dims wo a)) l).
Lemma column_spec wr : wspec wr -> rspec wo ro keq rnd wr -> cspec (fun g nm v => write_value wo rnd tries wr g nm v).
Proof.
  intros Hwr Hrt s g nm a s' r W K U D WF NZ HS E. cbn [write_value] in E. rewrite D in E. cbn [np_type] in E.
  assert (HN : np_obj wo CNdarray a).
  { constructor; rewrite ?D; try (intros; first [exact I|discriminate]).
    - exact WF.
    - eapply Forall_impl; [|exact HS]. intros e (p & -> & _). exact I. }
  assert (HC : compatible wo ro a) by (intros _; left; rewrite D; exact I).
  assert (HSt : forall p, In (XPtr p) (a_data a) -> storable p).
  { intros p Hp. rewrite Forall_forall in HS. destruct (HS _ Hp) as (q & [= <-] & H). exact H. }
  assert (PB : forall b, np_prepare wo (CNdarray, a) = Ok b -> b = write_dims wo a).
  { intros b Hb. unfold np_prepare in Hb. assert (Y1 : store_bytes wo a = a) by (unfold store_bytes; rewrite D; reflexivity). rewrite Y1 in Hb.
    assert (Y2 : store_str wo CNdarray a = Ok a) by (unfold store_str; rewrite D; reflexivity). rewrite Y2 in Hb. cbn [bindr] in Hb.
    assert (NE : np_empty a = false) by (unfold np_empty, size; rewrite D; cbn [is_strdt andb]; rewrite orb_false_r; apply Nat.eqb_neq; exact NZ).
    rewrite NE, andb_false_r, !write_dims_dt, D in Hb. cbn [dt_eqb andb] in Hb. rewrite write_dims_dt, D in Hb. cbn [is_cpx] in Hb. injection Hb as <-. reflexivity. }
  pose proof (obj_simple _ _ _ HN) as Hs. set (ts := lit "numpy.ndarray") in *.
  destruct (np_stored_any wo ro keq rnd tries HP HI wr Hwr Hrt s g nm CNdarray a ts s' r W K) as (i & ob & d & f & b & D' & Q & ty & E1 & E2 & E3 & [E4 E4'] & E5 & E6 & E6' & E7 & [_ E8] & E9 & E10); auto.
  { right. intros b Hb. rewrite (PB b Hb), write_dims_dt, D. discriminate. }
  { exact (action_ignore wo ro a Hs HC). }
  { intros b Hb. destruct (prep_dt wo CNdarray a b Hb Hs) as (PD1 & PD2 & PD3). split; [|split; [exact PD3|intros EB; exact (prep_obj wo wo CNdarray a b Hb HN EB)]].
    unfold as_group. destruct (is_struct (a_dt b)); [rewrite PD1 by reflexivity; reflexivity|reflexivity]. }
  { intros t. exact (np_attrs_nodup wo CNdarray a ts t (p_meta _ _ HP) Hs). }
  pose proof (PB b E7) as EB.
  assert (DB : a_dt b = TObj) by (rewrite EB, write_dims_dt; exact D).
  unfold fetched in E9. rewrite DB in E9. destruct E9 as (l & -> & Hl). rewrite DB in E4. rewrite EB in *.
  exists i, ob, d, f, l, Q. repeat (split; [first [assumption|reflexivity]|]). split; [|split; [exact Hl|exact E10]].
  apply E8. apply obj_attrs_path; [apply (p_meta _ _ HP)|exact D].
Qed.
End Columns.

Section Fields.
Variables (wo ro : options) (keq : pyval -> pyval -> bool) (rnd : nat -> N) (tries : nat).
Notation rp := (rp wo). Notation ra := (ra wo). Notation wf := (wf wo). Notation frame := (frame wo rnd).
Notation okt := (okt wo). Notation wspec := (wspec wo rnd).
Notation held := (held ro keq). Notation reg := (reg wo rnd). Notation unreserved := (unreserved wo rnd). Notation elem_reg := (elem_reg wo rnd).
Notation storable := (storable wo ro keq).
Hypotheses (HP : paired wo ro) (HI : inj_rnd rnd).

(** the Dataset of the values of a field: its attributes are removed *)
Definition bare (h : heap) (j : nat) : Prop := exists ob d f, h j = Some ob /\ o_body ob = BData d f /\ a_dt d = TRef /\ forall k, k <> h5path -> o_attrs ob k = None.
(** [j] is read as the values [items] of a field: the one of a single element or a column *)
Definition field_at (single : bool) (h : heap) (P : list pystr -> Prop) (j : nat) (sh : list nat) (items : list pyval) : Prop :=
  exists Q vs, Q j /\ closed h P Q /\ Forall2 same items vs /\ is_column h j = negb single /\
    forall n, Forall (fun x => depth x <= n) items ->
      if single then exists v, vs = [v] /\ read ro keq h n j = Ok v
      else read ro keq h (S n) j = Ok (VNp CNdarray (mkArr TObj sh (map XPtr vs))).
Lemma field_at_same single h h' (P P' : list pystr -> Prop) j sh items : field_at single h P j sh items -> (forall p, P p -> P' p) ->
  (forall m ob, live h m = true -> P (name_of h m) -> h m = Some ob -> live h' m = true /\ h' m = Some ob) -> field_at single h' P' j sh items.
Proof.
  intros (Q & vs & Qj & C & S & IC & R) HPP H.
  assert (AG : agree h h' Q).
  { intros m Hm. destruct (C m Hm) as (A1 & A2 & ob & A3 & A4 & A5). destruct (H m ob A1 A2 A3) as (B1 & B2).
    exists ob, ob. split; [exact A3|]. split; [exact B2|]. split; [apply eqo_refl|]. split; [exact A4|].
    intros x y z B Hz. pose proof (A5 x y z B Hz) as Qz. destruct (C z Qz) as (C1 & C2 & om & C3 & _). destruct (H z om C1 C2 C3) as (D1 & _).
    rewrite C1, D1. auto. }
  exists Q, vs. split; [exact Qj|]. split; [|split; [exact S|split]].
  - intros m Hm. destruct (C m Hm) as (A1 & A2 & ob & A3 & A4 & A5). destruct (H m ob A1 A2 A3) as (B1 & B2).
    split; [exact B1|]. unfold name_of, links in *. rewrite A3 in A2, A4. rewrite B2. split; [apply HPP; exact A2|]. exists ob. auto.
  - destruct (C j Qj) as (A1 & A2 & ob & A3 & _). destruct (H j ob A1 A2 A3) as (_ & B2). unfold is_column in *. rewrite A3 in IC. rewrite B2. exact IC.
  - intros n Hn. specialize (R n Hn). rewrite !(read_stable ro keq h h' Q AG _ j Qj). exact R.
Qed.
Lemma held_field h P j x sh : held h P j x -> field_at true h P j sh [x].
Proof.
  intros (Q & v & Qj & C & S & (ob & T1 & T2) & R). exists Q, [v]. split; [exact Qj|]. split; [exact C|]. split; [constructor; [exact S|constructor]|]. split.
  - unfold is_column. rewrite T1. destruct (o_body ob) as [d f|]; [|reflexivity]. cbn [own_attrs forallb]. destruct (o_attrs ob (lit "Python.Type")); [|congruence]. rewrite andb_false_r. reflexivity.
  - intros n Hn. inversion Hn; subst. exists v. auto.
Qed.
Lemma put_attr_other ex k q a a' : put_attr ex k q a = Ok a' -> forall x, x <> k -> a' x = a x.
Proof.
  intros E x Hx. assert (N : eqb_str x k = false) by (apply eqb_str_neq; exact Hx).
  assert (a' = a \/ exists v, a' = set_attr k v a) as [->|(v & ->)]; [|reflexivity|unfold set_attr; rewrite N; reflexivity].
  assert (Y : (exists v, a' = set_attr k v a) \/ bindr (req_val q) (fun v => match ex k with None => Ok (set_attr k v a) | Some old => if eqb_str k (lit "MATLAB_fields") then Ok (set_attr k v a) else
      match q with QPyInt _ | QPyStr _ => Ok (set_attr k v a) | _ => if has_dtype old then (if same_layout v old then Ok (set_attr k v a) else Ok a) else Ok (set_attr k v a) end end) = Ok a').
  { destruct q; first [left; injection E as <-; eauto; fail|right; exact E]. }
  destruct Y as [Y|Y]; [auto|]. destruct (req_val q) as [v|]; [|discriminate]. cbn [bindr] in Y. destruct (ex k); [|injection Y as <-; eauto]. destruct (eqb_str k _); [injection Y as <-; eauto|].
  destruct q; try (injection Y as <-; eauto; fail). all: destruct (has_dtype _); [|injection Y as <-; eauto]; destruct (same_layout _ _); injection Y as <-; eauto.
Qed.
(** the request for H5PATH at most *)
Definition path_only (reqs : list (pystr * areq)) : Prop := reqs = [] \/ exists q, reqs = [(h5path, q)].
(** the same objects, except for H5PATH *)
Definition eqv (h h' : heap) : Prop := forall m ob, h m = Some ob -> exists ob', h' m = Some ob' /\ o_body ob' = o_body ob /\ forall k, k <> h5path -> o_attrs ob' k = o_attrs ob k.
Lemma sync_path s i reqs s' : path_only reqs -> sync_attrs i reqs false s = (s', Ok tt) ->
  exists ob a, hp s i = Some ob /\ s' = set_hp s (upd (hp s) i (with_attrs ob a)) /\ forall k, k <> h5path -> o_attrs ob k = a k.
Proof.
  intros HO E. unfold sync_attrs, set_attrs, attrs_of in E. destruct (hp s i) as [ob|]; [|destruct (set_attributes_all _ _ _); discriminate].
  destruct (set_attributes_all (o_attrs ob) reqs false) as [a e] eqn:SA. destruct e; [discriminate|]. injection E as <-. exists ob, a. split; [reflexivity|]. split; [reflexivity|].
  intros k Hk. unfold set_attributes_all in SA. destruct HO as [->|(q & ->)]; cbn [put_attrs] in SA.
  - injection SA as <-. reflexivity.
  - destruct (put_attr (o_attrs ob) h5path q (o_attrs ob)) as [a1|] eqn:PA; [|discriminate]. injection SA as <-. cbn [andb].
    symmetry. apply (put_attr_other _ _ _ _ _ PA). exact Hk.
Qed.
Lemma sync_path_eqv s i reqs s' : path_only reqs -> sync_attrs i reqs false s = (s', Ok tt) -> eqv (hp s) (hp s').
Proof.
  intros HO E. destruct (sync_path s i reqs s' HO E) as (ob & a & Ei & -> & Ha). intros m om Em. cbn [hp set_hp]. destruct (Nat.eq_dec m i) as [->|N].
  - rewrite upd_same. rewrite Ei in Em. injection Em as <-. eexists. split; [reflexivity|]. split; [reflexivity|]. intros k Hk. symmetry. exact (Ha k Hk).
  - rewrite upd_other by exact N. exists om. split; [exact Em|]. split; reflexivity.
Qed.
Lemma sync_path_held s i reqs s' P j v : path_only reqs -> sync_attrs i reqs false s = (s', Ok tt) -> held (hp s) P j v -> held (hp s') P j v.
Proof.
  intros HO E X. destruct (sync_path s i reqs s' HO E) as (ob & a & Ei & -> & Ha).
  eapply held_eqo; [exact X|]. intros m om L Pm Em. cbn [hp set_hp].
  assert (SK : same_kind (o_body ob) (o_body (with_attrs ob a))) by (cbn; destruct (o_body ob); cbn; auto).
  split; [rewrite (change_live s i ob (with_attrs ob a)); auto|].
  destruct (Nat.eq_dec m i) as [->|N].
  - rewrite upd_same. rewrite Ei in Em. injection Em as <-. eexists. split; [reflexivity|]. split; [reflexivity|]. split; [reflexivity|exact Ha].
  - rewrite upd_other by exact N. exists om. split; [exact Em|apply eqo_refl].
Qed.

Lemma fresh_path reqs k : path_only reqs -> k <> h5path -> fresh_attrs reqs k = None.
Proof.
  intros HO Hk. unfold fresh_attrs. destruct HO as [->|(q & ->)]; [reflexivity|]. cbn [assoc]. assert (eqb_str k h5path = false) as -> by (apply eqb_str_neq; exact Hk). reflexivity.
Qed.
Lemma same_ptrs items l : Forall2 same_elem (map XPtr items) l -> exists vs, l = map XPtr vs /\ Forall2 same items vs.
Proof.
  revert l. induction items as [|x items IH]; intros l H; inversion H as [|? e ? l' H1 H2]; subst; [exists []; split; [reflexivity|constructor]|].
  destruct (IH _ H2) as (vs & -> & I2). assert (exists v, e = XPtr v /\ same x v) as (v & -> & S) by (inversion H1; subst; [exists x; split; [reflexivity|apply S_refl]|eauto]).
  exists (v :: vs). split; [reflexivity|constructor; assumption].
Qed.
Lemma column_length n f (l : list (elem pyval)) : length (column n f l) = length l.
Proof. unfold column. apply map_length. Qed.

Variable wr : nat -> pystr -> pyval -> M (option nat).
Hypotheses (Hwr : wspec wr) (Hrt : rspec wo ro keq rnd wr) (Hcs : cspec wo ro keq rnd wr).
(** the column of an array with more than one element *)
Lemma column_held s g nm (col a0 : arr pyval) items reqs s1 s2 r : wf s -> okt s g nm -> unreserved s (name_of (hp s) g ++ [nm]) ->
  length items = prod (a_shape (write_dims wo a0)) -> prod (a_shape (write_dims wo a0)) <> 0 -> Forall storable items ->
  col = mkArr TObj (a_shape (write_dims wo a0)) (map XPtr items) -> path_only reqs ->
  wr g nm (VNp CNdarray (if o_reverse wo then tr col else col)) s = (s1, Ok r) ->
  exists j, r = Some j /\ (sync_attrs j reqs true s1 = (s2, Ok tt) ->
    field_at false (hp s2) (reg s (name_of (hp s) g ++ [nm])) j (a_shape (write_dims wo a0)) items /\ bare (hp s2) j).
Proof.
  intros W K U LI NZ HS -> HO E. set (sh := a_shape (write_dims wo a0)) in *. set (col := mkArr TObj sh (map XPtr items)) in *. set (t := name_of (hp s) g ++ [nm]) in *.
  assert (WC : wf_arr col) by (unfold wf_arr, col; cbn [a_data a_shape]; rewrite map_length; exact LI).
  set (v := if o_reverse wo then tr col else col) in *.
  assert (DV : a_dt v = TObj) by (unfold v; destruct (o_reverse wo); reflexivity).
  assert (WV : wf_arr v) by (unfold v; destruct (o_reverse wo); [apply tr_wf|]; exact WC).
  assert (IV : forall e, In e (a_data v) -> In e (map XPtr items)) by (unfold v; intros e; destruct (o_reverse wo); [apply transpose_in|auto]).
  assert (PV : prod (a_shape v) <> 0) by (unfold v; destruct (o_reverse wo); [cbn [tr a_shape]; rewrite prod_rev|]; exact NZ).
  assert (WD : write_dims wo v = col) by (apply (column_dims wo a0); [exact WC|reflexivity]).
  destruct (Hcs s g nm v s1 r W K U DV WV PV) as (j & ob & d & f & l & Q & E1 & E2 & E3 & E4 & E5 & E6 & E7 & E8 & E9 & E10).
  { rewrite Forall_forall. intros e He. apply IV in He. apply in_map_iff in He. destruct He as (p & <- & Hp). exists p. split; [reflexivity|]. rewrite Forall_forall in HS. apply HS. exact Hp. }
  { exact E. }
  rewrite WD in E9, E10. change (a_data col) with (map XPtr items) in E9. change (a_shape col) with sh in E10.
  destruct (same_ptrs _ _ E9) as (vs & -> & SV). exists j. split; [exact E1|]. intros Y.
  destruct (sync_stored_over s1 j ob reqs s2 E2) as (a & -> & HA); [| |exact Y|].
  { intros k q old Hk X. exfalso. destruct HO as [->|(q' & ->)]; [destruct Hk|]. destruct Hk as [[= <- _]|[]]. congruence. }
  { destruct HO as [->|(q' & ->)]; repeat constructor. cbn. tauto. }
  assert (HN : forall k, k <> h5path -> a k = None) by (intros k Hk; rewrite HA; apply fresh_path; assumption).
  assert (SK : same_kind (o_body ob) (o_body (with_attrs ob a))) by (cbn; destruct (o_body ob); cbn; auto).
  cbn [hp set_hp]. set (h' := upd (hp s1) j (with_attrs ob a)).
  assert (LV : forall m, live h' m = live (hp s1) m) by (intros m; unfold h'; rewrite (change_live s1 j ob (with_attrs ob a)); auto).
  assert (NM : forall m, name_of h' m = name_of (hp s1) m) by (intros m; unfold h'; apply (mod_name _ _ _ _ E2); reflexivity).
  assert (NJ : ~ Q j).
  { intros Qj. destruct (E6 j Qj) as (_ & (k & F & P) & _). destruct E5 as (_ & _ & E5). rewrite E5 in P. exact (proj2 U k P F). }
  assert (OQ : forall m, Q m -> h' m = hp s1 m) by (intros m Qm; apply upd_other; intros ->; exact (NJ Qm)).
  assert (OJ : h' j = Some (with_attrs ob a)) by apply upd_same.
  assert (AG : agree (hp s1) h' Q).
  { intros m Qm. destruct (E6 m Qm) as (A1 & A2 & om & A3 & A4 & A5). exists om, om. split; [exact A3|]. split; [rewrite OQ by exact Qm; exact A3|]. split; [apply eqo_refl|]. split; [exact A4|].
    intros x y z B Hz. split; [apply LV|]. intros _. exact (A5 x y z B Hz). }
  split; [|exists (with_attrs ob a), d, f; split; [exact OJ|]; split; [exact E3|]; split; [exact E4|exact HN]].
  exists (fun m => m = j \/ Q m), vs. split; [left; reflexivity|]. split; [|split; [exact SV|split]].
  - intros m [->|Qm].
    + rewrite LV, NM. destruct E5 as (F1 & F2 & F3). split; [exact F2|]. split; [rewrite F3; left; apply pre_refl|]. exists (with_attrs ob a). split; [exact OJ|]. split.
      * intros k m Hm. unfold links in Hm. rewrite OJ in Hm. cbn [with_attrs o_body] in Hm. rewrite E3 in Hm. destruct Hm.
      * intros x y m B Hm. cbn [with_attrs o_body] in B. rewrite E3 in B. injection B as <- _. right. apply E7. exact Hm.
    + destruct (E6 m Qm) as (A1 & A2 & om & A3 & A4 & A5). rewrite LV, NM. split; [exact A1|]. split; [right; exact A2|]. exists om. rewrite OQ by exact Qm. split; [exact A3|]. split.
      * intros k x Hx. right. apply (A4 k x). unfold links in *. rewrite OQ in Hx by exact Qm. exact Hx.
      * intros x y z B Hz. right. exact (A5 x y z B Hz).
  - unfold is_column. rewrite OJ. cbn [with_attrs o_body o_attrs]. rewrite E3, E4. cbn [dt_eqb andb negb]. apply forallb_forall. intros k Hk. rewrite HN; [reflexivity|].
    clear - Hk. intros ->. unfold own_attrs in Hk. cbn [In] in Hk. repeat destruct Hk as [Hk|Hk]; try discriminate Hk. exact Hk.
  - intros n Hn. cbn [read]. unfold read_value. rewrite OJ. cbn [with_attrs o_body o_attrs]. unfold attr_str at 1 2. rewrite (HN (lit "Python.Type")), (HN (lit "MATLAB_class")) by discriminate. cbn [bindr].
    assert (reader_kind None = KNp) as -> by reflexivity. unfold np_read. cbn [with_attrs o_body o_attrs].
    unfold read_attrs, attr_str. rewrite (HN (lit "Python.Type")), (HN (lit "MATLAB_class")), (HN (lit "Python.numpy.UnderlyingType")), (HN (lit "Python.numpy.Container")) by discriminate. cbn [bindr]. rewrite E3.
    assert (RA : read_array h' (read ro keq h' n) d = Ok (mkArr TObj sh (map XPtr vs))).
    { rewrite <- (E10 n). 2:{ intros p Hp. apply IV in Hp. apply in_map_iff in Hp. destruct Hp as (q & [= <-] & Hq). rewrite Forall_forall in Hn. apply Hn. exact Hq. }
      unfold read_array. rewrite E4. f_equal. apply mapr_ext. intros e He. unfold deref. destruct e as [| | | | | |p|]; try reflexivity. rewrite LV. destruct (live (hp s1) p); [|reflexivity].
      rewrite (read_stable ro keq (hp s1) h' Q AG n p (E7 p He)). reflexivity. }
    rewrite RA. cbn [bindr]. unfold np_finish. cbn [ra_type ra_mclass]. reflexivity.
Qed.

Lemma field_gen s t i (b a0 : arr pyval) n name f s' u : wf s -> at_target s t i -> is_group (hp s) i = true -> unreserved s t ->
  (prod (a_shape b) = 1 -> forall x s1 r, In x (column n f (a_data b)) -> wr i (escaped name) x s = (s1, Ok r) -> exists j, r = Some j /\ held (hp s1) (reg s (t ++ [escaped name])) j x) ->
  name <> [] -> length (a_data b) = prod (a_shape b) -> prod (a_shape b) <> 0 -> a_shape b = a_shape (write_dims wo a0) -> Forall storable (column n f (a_data b)) ->
  write_field wo wr i b (n, (name, f)) s = (s', Ok u) ->
  wf s' /\ frame (pre (t ++ [escaped name])) s s' /\ at_target s' t i /\ is_group (hp s') i = true /\ attrs_of (hp s') i = attrs_of (hp s) i /\
  (forall k', k' <> escaped name -> lookup (hp s') i k' = lookup (hp s) i k') /\
  exists j, lookup (hp s') i (escaped name) = Some j /\ field_at (prod (a_shape b) =? 1) (hp s') (reg s (t ++ [escaped name])) j (a_shape b) (column n f (a_data b)) /\
    (prod (a_shape b) = 1 -> exists x s1, column n f (a_data b) = [x] /\ wr i (escaped name) x s = (s1, Ok (Some j)) /\ eqv (hp s1) (hp s')) /\ (prod (a_shape b) <> 1 -> bare (hp s') j).
Proof.
  intros W A G U HW NE LB NZ SB HS E. pose proof A as (A1 & A2 & A3). set (k := escaped name) in *.
  assert (C : k = [] \/ clean k) by (right; apply escaped_clean; exact NE).
  assert (K : okt s i k).
  { destruct (unreserved_member wo rnd s t k U) as [U1 U2]. constructor; rewrite ?A3; auto. intros x P F. apply (U2 x P). apply futc_fut. exact F. }
  unfold write_field in E. cbv zeta in E. fold k in E. set (items := column n f (a_data b)) in *.
  set (col := mkArr TObj (a_shape b) (map XPtr items)) in *. set (v := if prod (a_shape b) =? 1 then _ else _) in E.
  apply bind_ok in E. destruct E as (s1 & r & E1 & E).
  pose proof (Hwr s i k v W K) as (W1 & F1 & P1). rewrite E1 in *. cbn [fst snd] in *.
  assert (UM : unreserved s (name_of (hp s) i ++ [k])) by (rewrite A3; apply unreserved_member; exact U).
  assert (LI : length items = prod (a_shape b)) by (unfold items; rewrite column_length; exact LB).
  assert (Z : exists j, r = Some j /\ forall reqs, path_only reqs -> sync_attrs j reqs (negb (prod (a_shape b) =? 1)) s1 = (s', Ok tt) ->
     field_at (prod (a_shape b) =? 1) (hp s') (reg s (t ++ [k])) j (a_shape b) items /\
     (prod (a_shape b) = 1 -> exists x s1, items = [x] /\ wr i k x s = (s1, Ok (Some j)) /\ eqv (hp s1) (hp s')) /\ (prod (a_shape b) <> 1 -> bare (hp s') j)).
  { destruct (prod (a_shape b) =? 1) eqn:S1.
    - apply Nat.eqb_eq in S1. rewrite S1 in LI. destruct items as [|x [|]]; try discriminate. pose proof (Forall_inv HS) as HS1.
      assert (EV : v = x).
      { unfold v. destruct (o_reverse wo); [|reflexivity]. change (match transpose (a_shape b) [XPtr x] with XPtr y :: _ => y | _ => VOther end = x). assert (LT : length (transpose (a_shape b) [XPtr x]) = 1) by (rewrite transpose_len; auto).
        destruct (transpose (a_shape b) [XPtr x]) as [|e [|]] eqn:ET; try discriminate. assert (IE : In e [XPtr x]) by (apply (transpose_in (a_shape b)); rewrite ET; left; reflexivity).
        destruct IE as [<-|[]]. reflexivity. }
      rewrite EV in E1. destruct (HW S1 x s1 r (or_introl eq_refl) E1) as (j & -> & HJ). exists j. split; [reflexivity|].
      intros reqs HO Y. split; [apply held_field; eapply sync_path_held; eassumption|]. split; [|tauto]. intros _. exists x, s1. split; [reflexivity|]. split; [exact E1|]. eapply sync_path_eqv; eassumption.
    - destruct (column_held s i k col a0 items (if o_matlab_compatible wo then [(h5path, QString (name_text (name_of (hp s1) i)))] else []) s1 s' r W K UM) as (j & -> & HJ); rewrite <- ?SB; auto.
      { destruct (o_matlab_compatible wo); [right; eauto|left; reflexivity]. }
      exists j. split; [reflexivity|]. intros reqs HO Y.
      destruct (column_held s i k col a0 items reqs s1 s' (Some j) W K UM) as (j' & [= <-] & HJ'); rewrite <- ?SB; auto.
      rewrite A3, <- SB in HJ'. destruct (HJ' Y) as [HF HB]. split; [exact HF|]. split; [|intros _; exact HB]. intros X. rewrite X in S1. discriminate S1. }
  destruct Z as (j & -> & Z). specialize (P1 _ eq_refl). cbn beta iota in P1. rewrite A3 in *.
  apply bind_ok in E. destruct E as (s2 & p & E2 & E). apply gets_ok in E2. destruct E2 as [-> _]. destruct u.
  assert (NA : name_of (hp s1) j <> ra).
  { destruct P1 as (_ & _ & ->). intros X. apply (proj1 UM). rewrite <- X. apply pre_refl. }
  assert (RJ : pre (t ++ [k]) (name_of (hp s1) j)) by (destruct P1 as (_ & _ & ->); apply pre_refl).
  assert (HO : path_only (if o_matlab_compatible wo then [(lit "H5PATH", QString p)] else [])) by (destruct (o_matlab_compatible wo); [right; eauto|left; reflexivity]).
  pose proof (Z _ HO E) as HJ.
  pose proof (sync_keeps wo rnd (pre (t ++ [k])) s1 j (if o_matlab_compatible wo then [(lit "H5PATH", QString p)] else []) (negb (prod (a_shape b) =? 1)) W1 RJ NA) as (W2 & F2 & _). rewrite E in W2, F2. cbn [fst] in W2, F2.
  assert (FF : frame (pre (t ++ [k])) s s') by (eapply frame_trans; eassumption).
  assert (NT : ~ pre (t ++ [k]) t) by apply pre_snoc_self.
  assert (AT : at_target s' t i) by (apply (at_target_frame wo rnd _ _ _ _ _ FF NT); repeat split; assumption).
  split; [exact W2|]. split; [exact FF|]. split; [exact AT|]. split; [destruct (f_obj _ _ _ _ _ FF i A1) as (_ & _ & ->); exact G|].
  split; [apply (f_keep _ _ _ _ _ FF i A2); rewrite A3; exact NT|].
  split.
  - intros k' N. apply (other_link wo rnd s s' t i k k'); auto.
  - destruct HJ as (HJ & HX). exists j. split; [|split; [exact HJ|exact HX]]. apply (child_link wo s' t); auto.
    assert (X : hp s1 j <> None) by apply P1. destruct P1 as (_ & P2 & P3).
    destruct (f_obj _ _ _ _ _ F2 j X) as (Y1 & Y2 & _). split; [exact Y1|]. split; [|congruence].
    destruct HJ as (Q & vs & Qj & CQ & _). apply (CQ j Qj).
Qed.

Lemma field_held s t i (b a0 : arr pyval) n name f s' u : wf s -> at_target s t i -> is_group (hp s) i = true -> unreserved s t -> lookup (hp s) i (escaped name) = None ->
  name <> [] -> length (a_data b) = prod (a_shape b) -> prod (a_shape b) <> 0 -> a_shape b = a_shape (write_dims wo a0) -> Forall storable (column n f (a_data b)) ->
  write_field wo wr i b (n, (name, f)) s = (s', Ok u) ->
  wf s' /\ frame (pre (t ++ [escaped name])) s s' /\ at_target s' t i /\ is_group (hp s') i = true /\ attrs_of (hp s') i = attrs_of (hp s) i /\
  (forall k', k' <> escaped name -> lookup (hp s') i k' = lookup (hp s) i k') /\
  exists j, lookup (hp s') i (escaped name) = Some j /\ field_at (prod (a_shape b) =? 1) (hp s') (reg s (t ++ [escaped name])) j (a_shape b) (column n f (a_data b)).
Proof.
  intros W A G U L NE LB NZ SB HS E. destruct (field_gen s t i b a0 n name f s' u W A G U) as (X1 & X2 & X3 & X4 & X5 & X6 & j & X7 & X8 & _); auto.
  - intros _ x s1 r Hx E1. pose proof A as (A1 & A2 & A3). rewrite <- A3. apply Hrt with (v := x); auto.
    + destruct (unreserved_member wo rnd s t (escaped name) U) as [U1 U2]. assert (C : escaped name = [] \/ clean (escaped name)) by (right; apply escaped_clean; exact NE). constructor; rewrite ?A3; auto. intros y P F. apply (U2 y P), futc_fut. exact F.
    + rewrite A3. apply unreserved_member. exact U.
    + rewrite Forall_forall in HS. apply HS. exact Hx.
  - split; [exact X1|]. split; [exact X2|]. split; [exact X3|]. split; [exact X4|]. split; [exact X5|]. split; [exact X6|]. exists j. split; [exact X7|exact X8].
Qed.

Lemma field_frame R s s' single P j sh items : frame R s s' -> clear wo P R -> field_at single (hp s) P j sh items -> field_at single (hp s') P j sh items.
Proof.
  intros F C H. eapply field_at_same; [exact H|auto|]. intros m ob L Pm E. destruct (C _ Pm) as (N1 & N2 & N3).
  split; [apply (f_live _ _ _ _ _ F m L); exact N1|]. rewrite <- E. apply (f_same _ _ _ _ _ F m L); auto.
Qed.
Definition nfields : Type := list (nat * (pystr * (dt * list nat))).
Definition nkey (nf : nat * (pystr * (dt * list nat))) : pystr := escaped (fst (snd nf)).
Definition nkeys (l : nfields) (t p : list pystr) : Prop := exists k, In k (map nkey l) /\ pre (t ++ [k]) p.
Lemma fields_held t i (b a0 : arr pyval) (l : nfields) : forall s s' u, wf s -> at_target s t i -> is_group (hp s) i = true -> unreserved s t ->
  length (a_data b) = prod (a_shape b) -> prod (a_shape b) <> 0 -> a_shape b = a_shape (write_dims wo a0) ->
  NoDup (map nkey l) -> (forall k, In k (map nkey l) -> lookup (hp s) i k = None) -> Forall (fun nf => fst (snd nf) <> []) l ->
  Forall (fun nf => Forall storable (column (fst nf) (snd (snd nf)) (a_data b))) l -> iterM (write_field wo wr i b) l s = (s', Ok u) ->
  wf s' /\ frame (nkeys l t) s s' /\ at_target s' t i /\ is_group (hp s') i = true /\ attrs_of (hp s') i = attrs_of (hp s) i /\
  (forall k', ~ In k' (map nkey l) -> lookup (hp s') i k' = lookup (hp s) i k') /\
  Forall (fun nf => exists j, lookup (hp s') i (nkey nf) = Some j /\
     field_at (prod (a_shape b) =? 1) (hp s') (reg s (t ++ [nkey nf])) j (a_shape b) (column (fst nf) (snd (snd nf)) (a_data b))) l.
Proof.
  induction l as [|[n [name f]] l IH]; intros s s' u W A G U LB NZ SB N L C V E; cbn [iterM] in E.
  - apply ret_ok in E. destruct E as [-> _]. split; [exact W|]. split; [apply frame_refl; exact W|]. split; [exact A|]. split; [exact G|]. split; [reflexivity|]. split; [reflexivity|constructor].
  - apply bind_ok in E. destruct E as (s1 & u1 & E1 & E). cbn [map] in *. inversion N as [|? ? N1 N2]; subst. inversion C as [|? ? C1 C2]; subst. inversion V as [|? ? V1 V2]; subst. cbn [fst snd] in C1, V1.
    destruct (field_held s t i b a0 n name f s1 u1 W A G U (L _ (or_introl eq_refl)) C1 LB NZ SB V1 E1) as (W1 & F1 & A1 & G1 & T1 & L1 & j & J1 & J2).
    assert (U1 : unreserved s1 t) by (eapply unreserved_frame; eassumption).
    destruct (IH s1 s' u W1 A1 G1 U1 LB NZ SB N2) as (W2 & F2 & A2 & G2 & T2 & L2 & H2); auto.
    { intros k' Hk. rewrite L1; [apply L; right; exact Hk|]. intros ->. exact (N1 Hk). }
    split; [exact W2|]. split.
    { eapply frame_trans; [|eapply frame_sub; [exact F2|]|exact W].
      - eapply frame_sub; [exact F1|]. intros q Pq. exists (escaped name). split; [left; reflexivity|exact Pq].
      - intros q (k' & Hk & Pq). exists k'. split; [right; exact Hk|exact Pq]. }
    split; [exact A2|]. split; [exact G2|]. split; [congruence|]. split.
    { intros k' Hk. cbn [In] in Hk. rewrite L2 by tauto. apply L1. intros ->. apply Hk. left. reflexivity. }
    constructor.
    + cbn [fst snd nkey]. exists j. split; [rewrite L2; assumption|]. eapply field_frame; [exact F2| |exact J2].
      intros q Hq. assert (CC : forall k2, In k2 (map nkey l) -> clear wo (reg s (t ++ [escaped name])) (pre (t ++ [k2]))).
      { intros k2 H. apply member_clear; [exact U|]. intros <-. exact (N1 H). }
      destruct (Hq : reg s (t ++ [escaped name]) q) as [Hp|Hp].
      * split; [intros (k2 & K1 & K2); apply (proj1 (CC k2 K1 q Hq) K2)|]. split; [intros x (k2 & K1 & K2); apply (proj1 (proj2 (CC k2 K1 q Hq)) x K2)|].
        intros P. apply (not_refs wo rnd s t U). eapply pre_snoc. eapply pre_trans; eassumption.
      * split; [intros (k2 & K1 & K2); apply (proj1 (CC k2 K1 q Hq) K2)|]. split; [intros x (k2 & K1 & K2); apply (proj1 (proj2 (CC k2 K1 q Hq)) x K2)|].
        apply (elem_clear0 wo rnd s q Hp).
    + eapply Forall_impl; [|exact H2]. cbn beta. intros nf (j' & X1 & X2). exists j'. split; [exact X1|]. eapply field_at_same; [exact X2| |auto].
      intros q [Hq|Hq]; [left; exact Hq|right; eapply elem_mono; eassumption].
Qed.

Definition reads_field (single : bool) (h : heap) (sh : list nat) (items : list pyval) (j : nat) (vs : list pyval) : Prop :=
  is_column h j = negb single /\ Forall2 same items vs /\
  forall n, Forall (fun x => depth x <= n) items ->
      if single then exists v, vs = [v] /\ read ro keq h n j = Ok v
      else read ro keq h (S n) j = Ok (VNp CNdarray (mkArr TObj sh (map XPtr vs))).
Lemma fields_together single h P sh i (itm : nat * (pystr * (dt * list nat)) -> list pyval) (l : nfields) :
  Forall (fun nf => exists j, lookup h i (nkey nf) = Some j /\ field_at single h P j sh (itm nf)) l ->
  exists Q jvs, closed h P Q /\ Forall2 (fun nf jv => lookup h i (nkey nf) = Some (fst jv) /\ Q (fst jv) /\ reads_field single h sh (itm nf) (fst jv) (snd jv)) l jvs.
Proof.
  induction 1 as [|nf l (j & L & Q1 & vs & Qj & C & S & IC & R) _ (Q & jvs & IQ & IH)].
  - exists (fun _ => False), []. split; [intros j []|constructor].
  - exists (fun m => Q1 m \/ Q m), ((j, vs) :: jvs). split.
    + intros m [Hm|Hm].
      * destruct (C m Hm) as (A1 & A2 & ob & A3 & A4 & A5). split; [exact A1|]. split; [exact A2|]. exists ob. split; [exact A3|]. split; [intros k x Hx; left; eapply A4; exact Hx|intros x y z B Hz; left; eapply A5; eassumption].
      * destruct (IQ m Hm) as (A1 & A2 & ob & A3 & A4 & A5). split; [exact A1|]. split; [exact A2|]. exists ob. split; [exact A3|]. split; [intros k x Hx; right; eapply A4; exact Hx|intros x y z B Hz; right; eapply A5; eassumption].
    + constructor.
      * cbn [fst snd]. split; [exact L|]. split; [left; exact Qj|]. split; [exact IC|]. split; [exact S|exact R].
      * eapply Forall2_imp; [|exact IH]. cbn. intros x y (X1 & X2 & X3). auto.
Qed.
Lemma group_opened s g nm s1 i : wf s -> okt s g nm -> (forall i, lookup (hp s) g nm = Some i -> is_group (hp s) i = false) -> open_group g nm s = (s1, Ok i) ->
  let t := name_of (hp s) g ++ [nm] in wf s1 /\ frame (pre t) s s1 /\ at_target s1 t i /\ hp s1 i = Some (mkObj t no_attrs (BGroup [])).
Proof.
  intros W K L E1 t. unfold open_group in E1. apply bind_ok in E1. destruct E1 as (sa & x & Ea & E1).
  destruct (get_name g nm s (k_name _ _ _ _ K)) as [[e X]|(_ & _ & X)]; rewrite X in Ea; [discriminate|]. injection Ea as <- <-.
  destruct (lookup (hp s) g nm) as [j|] eqn:LJ.
  - specialize (L j eq_refl). apply bind_ok in E1. destruct E1 as (s0 & y & Ey & E1). apply gets_ok in Ey. destruct Ey as [-> ->]. rewrite L in E1.
    apply bind_ok in E1. destruct E1 as (s0 & [] & Ey & E1). destruct (unlink_keeps wo rnd s g nm W K) as (W0 & F0 & _). rewrite Ey in *. cbn [fst] in *.
    destruct (okt_frame wo rnd _ _ _ _ _ W F0 (okt_own s g nm) K) as [K0 N0].
    destruct (fresh_link wo rnd s0 g nm no_attrs (BGroup []) s1 i W0 K0 eq_refl E1) as (W1 & F1 & A1 & O1). rewrite N0 in *. fold t in F0, F1, A1, O1.
    split; [exact W1|]. split; [eapply frame_trans; eassumption|]. auto.
  - exact (fresh_link wo rnd s g nm no_attrs (BGroup []) s1 i W K eq_refl E1).
Qed.
Definition numbered (fs : list (pystr * (dt * list nat))) : nfields := combine (seq 0 (length fs)) fs.
(** the Group, when its members are written *)
Lemma struct_tail s s2 t (b : arr pyval) (l : nfields) reqs s4 i' s' : unreserved s t -> frame (pre t) s s2 -> unreserved s2 t -> wf s4 -> at_target s4 t i' -> is_group (hp s4) i' = true ->
  (forall k, In k (map fst (links (hp s4) i')) -> In k (map nkey l)) ->
  (forall at_, (forall k, at_ k = fresh_attrs reqs k \/ exists q old, In (k, q) reqs /\ attrs_of (hp s4) i' k = Some old /\ at_ k = Some old /\ ~ replaceable k q old) -> marks reqs at_) ->
  Forall (fun nf => exists j, lookup (hp s4) i' (nkey nf) = Some j /\
     field_at (prod (a_shape b) =? 1) (hp s4) (reg s2 (t ++ [nkey nf])) j (a_shape b) (column (fst nf) (snd (snd nf)) (a_data b))) l ->
  NoDup (map fst reqs) -> sync_attrs i' reqs true s4 = (s', Ok tt) ->
  exists ob ls Q jvs, hp s' i' = Some ob /\ o_body ob = BGroup ls /\ Q i' /\ closed (hp s') (reg s (t)) Q /\
    marks reqs (o_attrs ob) /\ NoDup (map fst ls) /\ (forall k, In k (map fst ls) -> In k (map nkey l)) /\
    Forall2 (fun nf jv => assoc (nkey nf) ls = Some (fst jv) /\ is_refs ro (hp s') (fst jv) = false /\
       reads_field (prod (a_shape b) =? 1) (hp s') (a_shape b) (column (fst nf) (snd (snd nf)) (a_data b)) (fst jv) (snd jv)) l jvs.
Proof.
  intros U F1 U1 W4 A4 G4 LN NA H4 NR ES.
  destruct A4 as (D1 & D2 & D3). destruct (hp s4 i') as [ob|] eqn:O4; [|congruence].
  unfold attrs_of in NA. rewrite O4 in NA.
  unfold is_group in G4. rewrite O4 in G4. destruct (o_body ob) as [|ls] eqn:B4; [discriminate|].
  destruct (sync_general s4 i' ob reqs s' O4 NR ES) as (at_ & -> & HA). apply NA in HA. cbn [hp set_hp]. set (h' := upd (hp s4) i' (with_attrs ob at_)).
  assert (SK : same_kind (o_body ob) (o_body (with_attrs ob at_))) by (cbn; destruct (o_body ob); cbn; auto).
  assert (LV : forall m, live h' m = live (hp s4) m) by (intros m; unfold h'; rewrite (change_live s4 i' ob (with_attrs ob at_)); auto).
  assert (NM : forall m, name_of h' m = name_of (hp s4) m) by (intros m; unfold h'; apply (mod_name _ _ _ _ O4); reflexivity).
  assert (LK : forall k, lookup h' i' k = assoc k ls) by (intros k; unfold lookup, links, h'; rewrite upd_same; cbn [with_attrs o_body]; rewrite B4; reflexivity).
  assert (LL : links (hp s4) i' = ls) by (unfold links; rewrite O4, B4; reflexivity).
  rewrite LL in LN.
  assert (NL : NoDup (map fst ls)) by (destruct (t_keys _ _ (w_tree _ _ W4) i') as [NL _]; rewrite LL in NL; exact NL).
  assert (H5 : Forall (fun nf => exists j, lookup h' i' (nkey nf) = Some j /\ field_at (prod (a_shape b) =? 1) h' (reg s t) j (a_shape b) (column (fst nf) (snd (snd nf)) (a_data b))) l).
  { eapply Forall_impl; [|exact H4]. cbn beta. intros nf (j & J1 & J2). exists j. split; [rewrite LK; unfold lookup in J1; rewrite LL in J1; exact J1|].
    eapply field_at_same; [exact J2| |].
    - intros q Hq. apply reg_member in Hq. destruct Hq as [Hq|Hq]; [left; exact Hq|right; eapply elem_mono; [exact F1|exact Hq]].
    - intros m om Lm Pm Om. rewrite LV. split; [exact Lm|]. unfold h'. rewrite upd_other; [exact Om|]. intros ->. rewrite D3 in Pm. destruct Pm as [Pm|(k & Fk & Pm)]; [exact (pre_snoc_self _ _ Pm)|exact (proj2 U1 k Pm Fk)]. }
  destruct (fields_together _ h' (reg s t) (a_shape b) i' (fun nf => column (fst nf) (snd (snd nf)) (a_data b)) l H5) as (Q & jvs & CQ & HQ).
  exists (with_attrs ob at_), ls, (fun m => m = i' \/ Q m), jvs. split; [apply upd_same|]. split; [exact B4|]. split; [left; reflexivity|]. split; [|split; [exact HA|split; [exact NL|split; [exact LN|]]]].
  - intros m [->|Hm].
    + rewrite LV, NM, D3. split; [exact D2|]. split; [left; apply pre_refl|]. exists (with_attrs ob at_). split; [apply upd_same|]. split.
      * intros k m Hm. right. unfold links, h' in Hm. rewrite upd_same in Hm. cbn [with_attrs o_body] in Hm. rewrite B4 in Hm.
        assert (Hk : In k (map nkey l)) by (apply LN; apply in_map_iff; exists (k, m); auto). pose proof (in_assoc k m ls NL Hm) as X. rewrite <- LK in X. clear - HQ Hk X.
        induction HQ as [|nf jv l jvs (Y1 & Y2 & _) _ IH]; [destruct Hk|]. destruct Hk as [<-|Hk]; [|auto]. rewrite X in Y1. injection Y1 as ->. exact Y2.
      * intros x y z B. cbn [with_attrs o_body] in B. congruence.
    + destruct (CQ m Hm) as (C1 & C2 & oj & C3 & C4 & C5). split; [exact C1|]. split; [exact C2|]. exists oj. split; [exact C3|].
      split; [intros k x Hx; right; apply (C4 k x Hx)|intros x y z B Hz; right; apply (C5 x y z B Hz)].
  - eapply Forall2_imp; [|exact HQ]. cbn beta. intros nf jv (Y1 & Y2 & Y3). rewrite LK in Y1. split; [exact Y1|]. split; [|exact Y3].
    unfold is_refs. apply eqb_str_neq. intros X. assert (AT : at_target s4 t i') by (repeat split; congruence). assert (Y1' : lookup (hp s4) i' (nkey nf) = Some (fst jv)) by (unfold lookup; rewrite LL; exact Y1).
    destruct (link_child wo s4 t i' (nkey nf) (fst jv) W4 AT Y1') as (Z1 & Z2 & Z3).
    pose proof (live_clean _ _ (fst jv) (w_tree _ _ W4) Z2) as CL. apply (f_equal path_comps) in X. rewrite NM, text_comps in X by exact CL.
    rewrite (p_refs _ _ HP) in X. change (path_comps (o_refs wo)) with rp in X. rewrite Z3 in X.
    apply (proj1 (unreserved_member wo rnd s t (nkey nf) U)). rewrite X. apply pre_app.
Qed.
Lemma struct_stored s g nm (b a0 : arr pyval) reqs s1 i s' : wf s -> okt s g nm -> (forall i, lookup (hp s) g nm = Some i -> is_group (hp s) i = false) -> unreserved s (name_of (hp s) g ++ [nm]) ->
  length (a_data b) = prod (a_shape b) -> prod (a_shape b) <> 0 -> a_shape b = a_shape (write_dims wo a0) ->
  let l := numbered (struct_fields (a_dt b)) in
  NoDup (map nkey l) -> Forall (fun nf => fst (snd nf) <> []) l ->
  Forall (fun nf => Forall storable (column (fst nf) (snd (snd nf)) (a_data b))) l ->
  NoDup (map fst reqs) -> write_struct wo wr g nm b s = (s1, Ok i) -> sync_attrs i reqs true s1 = (s', Ok tt) ->
  exists ob ls Q jvs, hp s' i = Some ob /\ o_body ob = BGroup ls /\ Q i /\ closed (hp s') (reg s (name_of (hp s) g ++ [nm])) Q /\
    marks reqs (o_attrs ob) /\ NoDup (map fst ls) /\ (forall k, In k (map fst ls) -> In k (map nkey l)) /\
    Forall2 (fun nf jv => assoc (nkey nf) ls = Some (fst jv) /\ is_refs ro (hp s') (fst jv) = false /\
       reads_field (prod (a_shape b) =? 1) (hp s') (a_shape b) (column (fst nf) (snd (snd nf)) (a_data b)) (fst jv) (snd jv)) l jvs.
Proof.
  intros W K L U LB NZ SB l ND NE HS NR E ES. set (t := name_of (hp s) g ++ [nm]) in *. unfold write_struct in E. cbv zeta in E. fold (numbered (struct_fields (a_dt b))) in E. fold l in E. clearbody l.
  apply bind_ok in E. destruct E as (s2 & i' & E1 & E). destruct (group_opened s g nm s2 i' W K L E1) as (W1 & F1 & A1 & O1). fold t in F1, A1, O1.
  apply bind_ok in E. destruct E as (s3 & [] & E2 & E).
  assert (L2 : links (hp s2) i' = []) by (unfold links; rewrite O1; reflexivity).
  assert (s3 = s2) as -> by (destruct (o_delete_unused wo); [rewrite prune_empty in E2 by exact L2; congruence|apply ret_ok in E2; tauto]).
  apply bind_ok in E. destruct E as (s4 & [] & E3 & E). apply ret_ok in E. destruct E as [-> ->].
  assert (G1 : is_group (hp s2) i' = true) by (unfold is_group; rewrite O1; reflexivity).
  assert (U1 : unreserved s2 t) by (eapply unreserved_frame; [exact F1|exact U]).
  destruct (fields_held t i' b a0 l s2 s4 tt W1 A1 G1 U1 LB NZ SB ND) as (W4 & F4 & A4 & G4 & T4 & L4 & H4); auto.
  { intros k _. unfold lookup. rewrite L2. reflexivity. }
  destruct (struct_tail s s2 t b l reqs s4 i' s' U F1 U1 W4 A4 G4) as (ob & ls & Q & jvs & X); auto.
  { intros k Hk. destruct (in_dec (list_eq_dec N.eq_dec) k (map nkey l)) as [H|H]; [exact H|]. exfalso.
    specialize (L4 k H). unfold lookup in L4. rewrite L2 in L4. cbn in L4.
    apply in_map_iff in Hk. destruct Hk as ([k' m] & <- & Hm). cbn [fst] in *. destruct (t_keys _ _ (w_tree _ _ W4) i') as [NL _].
    rewrite (in_assoc k' m _ NL Hm) in L4. discriminate. }
  { intros at_ HA. apply marks_fresh. intros k. destruct (HA k) as [Y|(q & x & _ & Hx & _)]; [exact Y|]. rewrite T4 in Hx. unfold attrs_of in Hx. rewrite O1 in Hx. discriminate Hx. }
  exists ob, ls, Q, jvs. exact X.
Qed.
End Fields.


(** ** reading the Group back *)
Lemma assoc_map {A B} (g : A -> B) k l : assoc k (map (fun kv => (fst kv, g (snd kv))) l) = option_map g (assoc k l).
Proof. induction l as [|[k' v] l IH]; [reflexivity|]. cbn [map assoc fst snd]. destruct (eqb_str k k'); [reflexivity|exact IH]. Qed.
Lemma mapr_unescape l : mapr unescape_path (map escaped l) = Ok l.
Proof. induction l as [|x l IH]; [reflexivity|]. cbn [map mapr]. rewrite unescape_escaped. cbn [bindr]. rewrite IH. reflexivity. Qed.
Lemma mapr_pure {A B} (f : A -> res B) (g : A -> B) l : (forall x, In x l -> f x = Ok (g x)) -> mapr f l = Ok (map g l).
Proof. induction l as [|x l IH]; intros H; [reflexivity|]. cbn [mapr map]. rewrite H by (left; reflexivity). cbn [bindr]. rewrite IH; [reflexivity|]. intros y Hy. apply H. right. exact Hy. Qed.

Section ReadGroup.
Variables (ro : options) (h : heap) (rd : nat -> res pyval) (ls : list (pystr * nat)).
Lemma members_back (tbl : list (pystr * pyval)) : NoDup (map fst ls) -> (forall k, In k (map fst ls) -> In k (map escaped (map fst tbl))) ->
  NoDup (map fst tbl) -> Forall (fun kw => exists j, assoc (escaped (fst kw)) ls = Some j /\ is_refs ro h j = false /\ rd j = Ok (snd kw)) tbl ->
  exists ms, read_members ro h rd ls = Ok ms /\ Forall (fun kw => assoc (fst kw) ms = Some (snd kw)) tbl /\ (forall kv, In kv ms -> In kv tbl).
Proof.
  intros NL IN NT HT. rewrite Forall_forall in HT.
  assert (X : forall l, (forall x, In x l -> In x ls) -> exists ms, mapr (fun kj => do uk <- unescape_path (fst kj);
                           if is_refs ro h (snd kj) then Ok None
                           else do r <- quiet (rd (snd kj)); Ok (option_map (fun v => (uk, v)) r)) l = Ok (map (fun x => Some x) ms) /\
     map fst l = map escaped (map fst ms) /\ forall kv, In kv ms -> In kv tbl).
  { induction l as [|[k j] l IH]; intros H; [exists []; split; [reflexivity|split; [reflexivity|intros kv []]]|].
    destruct IH as (ms & I1 & I2 & I3); [intros x Hx; apply H; right; exact Hx|].
    assert (Hk : In (k, j) ls) by (apply H; left; reflexivity).
    assert (K : In k (map escaped (map fst tbl))) by (apply IN; apply in_map_iff; exists (k, j); auto).
    apply in_map_iff in K. destruct K as (name & <- & K). apply in_map_iff in K. destruct K as ([name' w] & <- & K). cbn [fst] in *.
    destruct (HT _ K) as (j' & J1 & J2 & J3). cbn [fst snd] in *. rewrite (in_assoc _ _ _ NL Hk) in J1. injection J1 as <-.
    exists ((name', w) :: ms). cbn [mapr fst snd map]. rewrite unescape_escaped. cbn [bindr]. rewrite J2, J3. cbn [quiet bindr option_map]. rewrite I1. cbn [bindr]. split; [reflexivity|]. split; [rewrite I2; reflexivity|].
    intros kv [<-|Hkv]; [exact K|auto]. }
  destruct (X ls) as (ms & M1 & M2 & M3); [auto|]. clear X.
  assert (NM : NoDup (map fst ms)) by (rewrite M2 in NL; eapply NoDup_map_inv; exact NL).
  exists ms. split; [|split; [|exact M3]].
  - unfold read_members. rewrite M1. cbn [bindr]. rewrite fold_dput by exact NM. reflexivity.
  - rewrite Forall_forall. intros [name w] Hw. cbn [fst snd]. destruct (HT _ Hw) as (j & J1 & _). cbn [fst] in J1.
    assert (K : In (escaped name) (map escaped (map fst ms))) by (rewrite <- M2; apply assoc_In in J1; apply in_map_iff; exists (escaped name, j); auto).
    apply in_map_iff in K. destruct K as (name' & Ek & K). apply escaped_inj in Ek. subst name'. apply in_map_iff in K. destruct K as ([name' w'] & Ek & K). cbn [fst] in Ek. subst name'.
    pose proof (M3 _ K) as K'. assert (w' = w) as -> by (pose proof (In_assoc _ _ _ NT K') as Y; rewrite (In_assoc _ _ _ NT Hw) in Y; congruence).
    apply In_assoc; assumption.
Qed.
Lemma group_back ra (cs : list (pystr * list pyval)) sh : cs <> [] -> NoDup (map fst cs) -> prod sh <> 0 -> ra_fields ra = Some (map escaped (map fst cs)) ->
  match ra_mclass ra with Some c => eqb_str c (lit "struct") | None => false end && o_structs_as_dicts ro = false ->
  NoDup (map fst ls) -> (forall k, In k (map fst ls) -> In k (map escaped (map fst cs))) ->
  Forall (fun kv => exists j, assoc (escaped (fst kv)) ls = Some j /\ is_refs ro h j = false /\ length (snd kv) = prod sh /\
     if multi_element ro h ls then rd j = Ok (VNp CNdarray (obj_arr sh (snd kv))) else sh = [1] /\ exists v, snd kv = [v] /\ rd j = Ok v) cs ->
  read_group ro h rd ra ls = Ok (inr (mkArr (TStruct (map (fun kv => (fst kv, field_type (obj_arr sh (snd kv)))) cs)) sh
          (map (fun n => XRec (map (fun kv => cell_elems (field_type (obj_arr sh (snd kv))) (nth n (snd kv) VNone)) cs)) (seq 0 (prod sh))))).
Proof.
  intros NE ND NZ HF HD NL IN HC. set (multi := multi_element ro h ls) in *.
  set (wv := fun vs : list pyval => if multi then VNp CNdarray (obj_arr sh vs) else nth 0 vs VNone).
  set (tbl := map (fun kv => (fst kv, wv (snd kv))) cs).
  assert (TF : map fst tbl = map fst cs) by (unfold tbl; rewrite map_map; reflexivity).
  destruct (members_back tbl NL) as (ms & M1 & M2 & M3).
  { rewrite TF. exact IN. } { rewrite TF. exact ND. }
  { unfold tbl. rewrite Forall_map. eapply Forall_impl; [|exact HC]. cbn beta. intros [k vs] (j & J1 & J2 & _ & J3). cbn [fst snd] in *. exists j. split; [exact J1|]. split; [exact J2|].
    unfold wv. destruct multi; [exact J3|]. destruct J3 as (_ & v & -> & J3). exact J3. }
  unfold read_group. rewrite M1. cbn [bindr]. rewrite HD. fold multi.
  set (arr_of := fun v : pyval => if multi then match v with VNp _ a => a | _ => obj_arr sh [] end else obj_arr [1] [v]).
  assert (MC : mapr (fun kv : pystr * pyval => if multi then match snd kv with VNp _ a => Ok (fst kv, a) | _ => Err AttributeError end else Ok (fst kv, mkArr TObj [1] [XPtr (snd kv)])) ms
     = Ok (map (fun kv => (fst kv, arr_of (snd kv))) ms)).
  { apply mapr_pure. intros [k v] Hk. apply M3 in Hk. unfold tbl in Hk. apply in_map_iff in Hk. destruct Hk as ([k' vs] & [= <- <-] & _). cbn [fst snd]. unfold arr_of, wv. destruct multi; reflexivity. }
  rewrite MC. cbn [bindr]. unfold field_order. rewrite HF, mapr_unescape. cbn [bindr].
  assert (FN : filter (fun k => negb (mem_str k (map fst cs))) (map fst (map (fun kv : pystr * pyval => (fst kv, arr_of (snd kv))) ms)) = []).
  { assert (Y : forall l, (forall k, In k l -> In k (map fst cs)) -> filter (fun k => negb (mem_str k (map fst cs))) l = []).
    { clear. induction l as [|k l IH]; intros H; [reflexivity|]. cbn [filter]. assert (mem_str k (map fst cs) = true) as -> by (apply mem_str_In, H; left; reflexivity). cbn [negb]. apply IH. intros x Hx. apply H. right. exact Hx. }
    apply Y. intros k Hk. rewrite map_map in Hk. cbn [fst] in Hk. apply in_map_iff in Hk. destruct Hk as (kv & <- & Hk). apply M3 in Hk. rewrite <- TF. apply in_map. exact Hk. }
  rewrite FN. cbn [sorted app]. change (sorted []) with (@nil pystr). rewrite app_nil_r.
  rewrite (build_ok sh _ cs NE ND NZ); [reflexivity|]. rewrite Forall_forall in *. intros [k vs] Hk. destruct (HC _ Hk) as (j & J1 & J2 & J3 & J4). cbn [fst snd] in *. split; [|exact J3].
  rewrite assoc_map. assert (Ht : In (k, wv vs) tbl) by (unfold tbl; apply in_map_iff; exists (k, vs); auto). pose proof (M2 _ Ht) as M2'. cbn [fst snd] in M2'. rewrite M2'. cbn [option_map]. f_equal. unfold arr_of, wv.
  destruct multi; [reflexivity|]. destruct J4 as (-> & v & -> & _). reflexivity.
Qed.
End ReadGroup.

(** ** the types and the cells *)
Lemma same_np c a v : same (VNp c a) v -> exists a', v = VNp c a' /\ same_dt (a_dt a) (a_dt a') /\ a_shape a = a_shape a' /\ Forall2 same_elem (a_data a) (a_data a').
Proof.
  intros H. inversion H; subst; [|eauto]. exists a. split; [reflexivity|]. split; [left; reflexivity|]. split; [reflexivity|].
  clear. induction (a_data a); constructor; auto. constructor.
Qed.
Lemma same_np_back v c a : same v (VNp c a) -> exists a', v = VNp c a'.
Proof. intros H. inversion H; subst; eauto. Qed.
Lemma field_type_np sh f items vs : match f with (TUni _, _) | (TObj, []) => False | _ => True end -> Forall (numpy_of f) items -> items <> [] -> Forall2 same items vs ->
  field_type (obj_arr sh vs) = f.
Proof.
  intros Hf HN NE HS. unfold field_type. rewrite obj_items.
  assert (X : Forall (fun v => np_layout v = Some f) vs).
  { clear NE. induction HS as [|x v items vs S _ IH]; constructor; [|apply IH; inversion HN; assumption]. inversion HN as [|? ? (c & a & -> & D & E) _]; subst.
    apply same_np in S. destruct S as (a' & -> & S1 & S2 & _). cbn [np_layout]. rewrite <- S2, E. destruct S1 as [<-|(n & m & Y1 & Y2)]; [rewrite D; destruct f; reflexivity|].
    destruct f as [d th]. cbn [fst] in D. rewrite Y1 in D. subst d. destruct Hf. }
  destruct vs as [|v vs]; [inversion HS; subst; congruence|]. pose proof (Forall_inv X) as X1. cbn beta in X1. rewrite X1. destruct f as [d th].
  assert (forallb (fun y => match np_layout y with Some (e, th') => dt_eqb d e && eqb_shape th th' | None => false end) (v :: vs) = true) as ->; [|reflexivity].
  apply forallb_forall. rewrite Forall_forall in X. intros y Hy. rewrite (X y Hy), dt_eqb_refl. destruct (eqb_shape_spec th th); [reflexivity|congruence].
Qed.
Lemma field_type_obj sh items vs : Exists (fun x => match x with VNp _ _ => False | _ => True end) items -> Forall2 same items vs -> field_type (obj_arr sh vs) = (TObj, []).
Proof.
  intros HE HS. unfold field_type. rewrite obj_items.
  assert (X : Exists (fun v => np_layout v = None) vs).
  { induction HS as [|x v items vs S _ IH]; [inversion HE|]. inversion HE as [? ? H|? ? H]; subst; [left|right; auto]. destruct v; try reflexivity. apply same_np_back in S. destruct S as (a' & ->). destruct H. }
  destruct vs as [|v vs]; [inversion X|]. destruct (np_layout v) as [[d th]|] eqn:E; [|reflexivity].
  match goal with |- context [forallb ?g (v :: vs)] => assert (Y : forallb g (v :: vs) = false) end; [|rewrite Y; reflexivity].
  apply not_true_is_false. intros Y. rewrite forallb_forall in Y. apply Exists_exists in X. destruct X as (x & Hx & X). specialize (Y x Hx). cbn beta in Y. rewrite X in Y. discriminate.
Qed.
Lemma keeps_type_ok sh f items vs : keeps_type f items -> items <> [] -> Forall2 same items vs -> field_type (obj_arr sh vs) = f.
Proof.
  intros [(H1 & H2)|(-> & H)] NE HS; [apply (field_type_np sh f items vs); assumption|apply (field_type_obj sh items vs); assumption].
Qed.
Lemma keeps_type_in f items items' : (forall x, In x items' <-> In x items) -> keeps_type f items -> keeps_type f items'.
Proof.
  intros H [(H1 & H2)|(-> & H2)]; [left|right]; (split; [auto|]).
  - rewrite Forall_forall in *. intros x Hx. apply H2, H, Hx.
  - apply Exists_exists in H2. destruct H2 as (x & Hx & H2). apply Exists_exists. exists x. split; [apply H, Hx|exact H2].
Qed.
Lemma cell_back wo ro keq f cell v items : length cell = prod (snd f) -> keeps_type f items -> In (field_item (fst f) (snd f) cell) items -> storable wo ro keq (field_item (fst f) (snd f) cell) ->
  same (field_item (fst f) (snd f) cell) v -> Forall2 same_elem cell (cell_elems f v).
Proof.
  destruct f as [d sh]. cbn [fst snd]. intros L [(H1 & H2)|([= -> ->] & _)] HI V S.
  - rewrite Forall_forall in H2. destruct (H2 _ HI) as (c & a & E & D & SH). cbn [fst snd] in D, SH. rewrite E in S. apply same_np in S. destruct S as (a' & -> & _ & _ & S).
    assert (DC : a_data a = cell).
    { clear - E L H1. destruct sh as [|x sh].
      - unfold prod in L. cbn in L. destruct cell as [|e [|]]; try discriminate. cbn [field_item] in E. destruct d; try (destruct H1; fail); cbn [item_of] in E; try (injection E as <- <-; reflexivity).
        destruct e; injection E as <- <-; reflexivity.
      - cbn [field_item] in E. destruct cell; injection E as <- <-; reflexivity. }
    rewrite DC in S. destruct d; try exact S. destruct sh; [destruct H1|exact S].
  - unfold prod in L. cbn in L. destruct cell as [|e [|]]; try discriminate. cbn [field_item] in *. cbn [cell_elems].
    destruct e as [| | | | | |p|]; cbn [item_of] in *; try (exfalso; inversion V as [| | | | | | | | | | |? ? N _ _|? ? ? N _ _ _ _| | | |]; subst; [apply (n_scalar _ _ _ N); reflexivity|pose proof (st_dt _ _ _ N); discriminate]).
    constructor; [apply S_ptr; exact S|constructor].
Qed.
Lemma cells_back wo ro keq data n fs : forall k pre cells (cs : list (pystr * list pyval)) sh,
  Forall2 (fun f cell => length cell = prod (snd (snd f))) fs cells -> length pre = k -> nth_error data n = Some (XRec (pre ++ cells)) ->
  Forall2 (fun nf kv => fst kv = fst (snd nf) /\ keeps_type (snd (snd nf)) (column (fst nf) (snd (snd nf)) data) /\ Forall (storable wo ro keq) (column (fst nf) (snd (snd nf)) data) /\
     Forall2 same (column (fst nf) (snd (snd nf)) data) (snd kv)) (combine (seq k (length fs)) fs) cs ->
  Forall2 (Forall2 same_elem) cells (map (fun kv => cell_elems (field_type (obj_arr sh (snd kv))) (nth n (snd kv) VNone)) cs).
Proof.
  induction fs as [|f fs IH]; intros k pre cells cs sh HL HK HD HF; inversion HL as [|? cell ? cells' L1 L2]; subst; cbn [length seq combine] in HF; inversion HF as [|? kv ? cs' (A1 & A2 & A3 & A4) HF']; subst; [constructor|].
  cbn [map fst snd] in *. constructor.
  - assert (NE : column (length pre) (snd f) data <> []) by (destruct data; [destruct n; discriminate|discriminate]).
    rewrite (keeps_type_ok sh (snd f) _ _ A2 NE A4).
    set (x := field_item (fst (snd f)) (snd (snd f)) cell).
    assert (EX : nth_error (column (length pre) (snd f) data) n = Some x).
    { unfold column. rewrite nth_error_map, HD. cbn [option_map]. unfold x. do 2 f_equal. rewrite app_nth2, Nat.sub_diag by lia. reflexivity. }
    apply (cell_back wo ro keq (snd f) cell _ (column (length pre) (snd f) data)); auto.
    + exact (nth_error_In _ _ EX).
    + rewrite Forall_forall in A3. apply A3. exact (nth_error_In _ _ EX).
    + assert (G : forall l m i y, Forall2 same l m -> nth_error l i = Some y -> same y (nth i m VNone)).
      { clear. intros l m i y H. revert i. induction H as [|a b l m S _ IHl]; intros [|i] E; try discriminate; cbn in *; [injection E as <-; exact S|auto]. }
      exact (G _ _ n x A4 EX).
  - apply (IH (S (length pre)) (pre ++ [cell]) cells' cs' sh); auto.
    + rewrite app_length. cbn. lia.
    + rewrite <- app_assoc. exact HD.
Qed.
Lemma F2_flip {A B} (R : A -> B -> Prop) l m : Forall2 R l m -> Forall2 (fun y x => R x y) m l.
Proof. induction 1; constructor; auto. Qed.
Lemma rows_back wo ro keq data fs (cs : list (pystr * list pyval)) sh : data <> [] -> length data = prod sh ->
  Forall (fun e => exists cells, e = XRec cells /\ Forall2 (fun f cell => length cell = prod (snd (snd f))) fs cells) data ->
  Forall2 (fun nf kv => fst kv = fst (snd nf) /\ keeps_type (snd (snd nf)) (column (fst nf) (snd (snd nf)) data) /\ Forall (storable wo ro keq) (column (fst nf) (snd (snd nf)) data) /\
     Forall2 same (column (fst nf) (snd (snd nf)) data) (snd kv)) (numbered fs) cs ->
  map (fun kv => (fst kv, field_type (obj_arr sh (snd kv)))) cs = fs /\
  Forall2 same_elem data (map (fun n => XRec (map (fun kv => cell_elems (field_type (obj_arr sh (snd kv))) (nth n (snd kv) VNone)) cs)) (seq 0 (prod sh))).
Proof.
  intros NE LD HR HF. split.
  - clear HR. assert (X : forall k, Forall2 (fun nf kv => fst kv = fst (snd nf) /\ keeps_type (snd (snd nf)) (column (fst nf) (snd (snd nf)) data) /\ Forall (storable wo ro keq) (column (fst nf) (snd (snd nf)) data) /\
        Forall2 same (column (fst nf) (snd (snd nf)) data) (snd kv)) (combine (seq k (length fs)) fs) cs -> map (fun kv => (fst kv, field_type (obj_arr sh (snd kv)))) cs = fs); [|exact (X 0 HF)].
    clear HF. revert cs. induction fs as [|f fs IH]; intros cs k HF; cbn [length seq combine] in HF; inversion HF as [|? kv ? cs' (A1 & A2 & A3 & A4) HF']; subst; [reflexivity|].
    cbn [map fst snd] in *. rewrite (IH cs' (S k) HF'), A1. f_equal. assert (N2 : column k (snd f) data <> []) by (destruct data; [congruence|discriminate]). rewrite (keeps_type_ok sh (snd f) _ _ A2 N2 A4). destruct f; reflexivity.
  - rewrite <- LD. apply (F2_flip (fun y x => same_elem x y)). apply (F2_seq (fun y x => same_elem x y) _ data (XInt 0) 0). intros n Hn. cbn [Nat.add].
    rewrite Forall_forall in HR. destruct (HR (nth n data (XInt 0)) (nth_In _ _ Hn)) as (cells & EC & HL). rewrite EC. apply S_cells.
    apply (cells_back wo ro keq data n fs 0 [] cells cs sh HL eq_refl); [|exact HF]. rewrite (nth_error_nth' data (XInt 0) Hn). cbn [app]. congruence.
Qed.

(** ** all together *)
Lemma in_transpose {A} sh (l : list A) x : length l = prod sh -> In x l -> In x (transpose sh l).
Proof. intros L H. rewrite <- (transpose_invol sh l L) in H. eapply transpose_in. exact H. Qed.
Lemma write_dims_in_back o (a : arr pyval) e : wf_arr a -> In e (a_data a) -> In e (a_data (write_dims o a)).
Proof.
  intros W H. unfold write_dims. destruct (o_atleast_2d o), (o_reverse o); cbn [tr reshape a_dt a_shape a_data]; auto; apply in_transpose; auto.
  rewrite atleast_2d_prod. exact W.
Qed.
Lemma column_in o (a : arr pyval) n f x : wf_arr a -> In x (column n f (a_data (write_dims o a))) <-> In x (column n f (a_data a)).
Proof.
  intros W. unfold column. split; intros H; apply in_map_iff in H; destruct H as (e & <- & H); apply in_map_iff; exists e; (split; [reflexivity|]); [eapply write_dims_in; exact H|apply write_dims_in_back; assumption].
Qed.
Lemma column_depth n f data x c (a : arr pyval) : a_data a = data -> (forall e, In e data -> exists cells, e = XRec cells) -> In x (column n f data) -> S (S (depth x)) <= depth (VNp c a).
Proof.
  intros <- HX H. unfold column in H. apply in_map_iff in H. destruct H as (e & <- & He). destruct (HX e He) as (cells & ->). clear HX.
  cbn [depth]. assert (Y : edepth depth (XRec cells) <= list_max (map (edepth depth) (a_data a))) by (apply list_max_in; apply in_map; exact He).
  cbn [edepth] in Y. set (M := list_max (map (fun l => list_max (map (edepth depth) l)) cells)) in *.
  assert (Z : list_max (map (edepth depth) (nth n cells [])) <= M).
  { destruct (nth_in_or_default n cells []) as [Hn|Hn]; [apply list_max_in; apply in_map_iff; eauto|rewrite Hn; apply Nat.le_0_l]. }
  assert (X : depth (field_item (fst f) (snd f) (nth n cells [])) <= 1 + M).
  { assert (G : forall d e, depth (item_of d e) <= 1 + edepth depth e).
    { assert (G1 : forall d e, depth (np_scalar d e) <= 1 + edepth depth e) by (intros d e; cbn [np_scalar depth a_data map list_max fold_right]; lia).
      intros d e. destruct d; cbn [item_of]; try apply G1; destruct e; try apply G1. cbn [edepth]. lia. }
    unfold field_item. destruct (snd f); [destruct (nth n cells []) as [|e0 [|]]; [cbn; lia| |cbn [depth a_data]; lia]|cbn [depth a_data]; lia].
    specialize (G (fst f) e0). cbn [map list_max fold_right] in Z. lia. }
  lia.
Qed.
Lemma numbered_fst fs : map (fun nf => fst (snd nf)) (numbered fs) = map fst fs.
Proof. unfold numbered. generalize 0. induction fs as [|f fs IH]; intros k; [reflexivity|]. cbn [length seq combine map snd]. f_equal. apply IH. Qed.
Lemma numbered_nth fs nf : In nf (numbered fs) -> nth_error fs (fst nf) = Some (snd nf).
Proof.
  unfold numbered. assert (X : forall k, In nf (combine (seq k (length fs)) fs) -> k <= fst nf /\ nth_error fs (fst nf - k) = Some (snd nf)).
  { induction fs as [|f fs IH]; intros k H; [destruct H|]. cbn [length seq combine] in H. destruct H as [<-|H]; [split; [reflexivity|]; cbn [fst snd]; rewrite Nat.sub_diag; reflexivity|].
    apply IH in H. destruct H as (H1 & H2). split; [lia|]. replace (fst nf - k) with (S (fst nf - S k)) by lia. exact H2. }
  intros H. apply (X 0) in H. rewrite Nat.sub_0_r in H. apply H.
Qed.
Lemma nodup_escaped l : NoDup l -> NoDup (map escaped l).
Proof. induction 1 as [|x l H _ IH]; constructor; auto. intros X. apply in_map_iff in X. destruct X as (y & E & X). apply escaped_inj in E. subst y. exact (H X). Qed.
Lemma multi_false ro h ls k j : assoc k ls = Some j -> is_refs ro h j = false -> is_column h j = false -> multi_element ro h ls = false.
Proof.
  intros A R C. apply not_true_is_false. intros X. unfold multi_element in X. rewrite forallb_forall in X. specialize (X _ (assoc_In _ _ _ A)). cbn [snd] in X. rewrite R, C in X. discriminate.
Qed.

Section Held.
Variables (wo ro : options) (keq : pyval -> pyval -> bool) (rnd : nat -> N) (tries : nat).
Notation wf := (wf wo). Notation okt := (okt wo). Notation wspec := (wspec wo rnd).
Notation held := (held ro keq). Notation reg := (reg wo rnd). Notation unreserved := (unreserved wo rnd). Notation elem_reg := (elem_reg wo rnd).
Notation storable := (storable wo ro keq).
Hypotheses (HP : paired wo ro) (HI : inj_rnd rnd).
Variable wr : nat -> pystr -> pyval -> M (option nat).
Hypotheses (Hwr : wspec wr) (Hrt : rspec wo ro keq rnd wr) (Hcs : cspec wo ro keq rnd wr).

Section Value.
Variables (c : container) (a : arr pyval) (fs : list (pystr * (dt * list nat))).
Hypotheses (SO : struct_obj c a fs) (MC : o_matlab_compatible wo = true -> o_struct_as_struct wo = true /\ o_structs_as_dicts ro = false).
Local Notation ts := (np_type c (a_dt a)).
Lemma struct_compatible : np_incompatible wo a = false.
Proof. unfold np_incompatible. destruct (o_matlab_compatible wo) eqn:M; [|reflexivity]. destruct (MC eq_refl) as [-> _]. rewrite (st_dt _ _ _ SO). reflexivity. Qed.
Lemma struct_is : is_struct (a_dt a) = true.
Proof. rewrite (st_dt _ _ _ SO). reflexivity. Qed.
Lemma rec_ts : c = CRecarray -> ts = lit "numpy.recarray".
Proof. intros ->. reflexivity. Qed.
(** the end of reading *)
Lemma struct_finish me mf names d0 D a' : is_struct d0 = true -> ra_fields (mkRA (Some ts) (Some (dt_name d0)) (Some (a_shape a)) (Some (container_name c)) false names (struct_class wo) me mf) = names ->
  (names = None -> mf = None) -> (names = None \/ exists l, names = Some (map escaped l)) ->
  fix_shape (a_shape a) (if o_reverse wo then tr D else D) = a' -> a_dt a' = a_dt a -> a_shape a' = a_shape a -> wf_arr a' ->
  np_finish ro (mkRA (Some ts) (Some (dt_name d0)) (Some (a_shape a)) (Some (container_name c)) false names (struct_class wo) me mf) D = Ok (VNp c a').
Proof.
  intros S0 _ HM HN HF HD HS W. unfold np_finish. cbn [ra_type ra_under ra_shape ra_cont ra_empty ra_fields ra_mclass ra_mfields].
  assert (exists l, match names, mf with Some fs0, _ => do ns <- mapr unescape_path fs0; Ok (Some ns) | None, Some fs0 => Ok (Some fs0) | None, None => Ok None end = Ok l) as (l & ->).
  { destruct HN as [->|(l & ->)]; [rewrite (HM eq_refl); eauto|]. rewrite mapr_unescape. cbn [bindr]. eauto. }
  cbn [bindr]. rewrite (struct_meta _ _ _ _ _ _ _ _ S0 (struct_class_cases wo)), (struct_rev wo ro HP), HF. destruct a' as [d sh da]. cbn [a_dt a_shape] in HD, HS. subst d sh.
  apply fin_struct; [exact struct_is|exact W|apply (st_scalar _ _ _ SO)|apply (st_matrix _ _ _ SO)|exact rec_ts].
Qed.
Lemma single_dims (sh : list (elem pyval)) (D : arr pyval) : prod (a_shape a) = 1 -> D = mkArr (a_dt a) [1] sh -> length sh = 1 ->
  fix_shape (a_shape a) (if o_reverse wo then tr D else D) = mkArr (a_dt a) (a_shape a) sh.
Proof.
  intros P -> L. assert (T : tr (mkArr (a_dt a) [1] sh) = mkArr (a_dt a) [1] sh) by (unfold tr; cbn [a_dt a_shape a_data rev app]; rewrite transpose_1d by exact L; reflexivity).
  assert (X : (if o_reverse wo then tr (mkArr (a_dt a) [1] sh) else mkArr (a_dt a) [1] sh) = mkArr (a_dt a) [1] sh) by (destruct (o_reverse wo); [exact T|reflexivity]). rewrite X.
  unfold fix_shape. cbn [a_shape]. assert (P1 : prod [1] = 1) by reflexivity. rewrite P, P1, Nat.eqb_refl, andb_true_r. destruct (eqb_shape_spec (a_shape a) [1]) as [E|E]; cbn [negb]; [rewrite E; reflexivity|reflexivity].
Qed.

(** the Group of the array: what is stored, and that it is read back *)
Definition struct_first : list (pystr * areq) := if o_matlab_compatible wo then [(lit "MATLAB_class", QPyStr (lit "struct"))] else [].
Definition struct_left (h : heap) (P : list pystr -> Prop) (i : nat) : Prop :=
  exists ob ls Q jvs, h i = Some ob /\ o_body ob = BGroup ls /\ Q i /\ closed h P Q /\
    marks (np_attrs wo (c, a) ts struct_first true None) (o_attrs ob) /\ NoDup (map fst ls) /\ (forall k, In k (map fst ls) -> In k (map nkey (numbered fs))) /\
    Forall2 (fun nf jv => assoc (nkey nf) ls = Some (fst jv) /\ is_refs ro h (fst jv) = false /\
       reads_field ro keq (prod (a_shape (write_dims wo a)) =? 1) h (a_shape (write_dims wo a)) (column (fst nf) (snd (snd nf)) (a_data (write_dims wo a))) (fst jv) (snd jv)) (numbered fs) jvs.
Hypotheses (HK : forall n f, nth_error fs n = Some f -> keeps_type (snd f) (field_values n (snd f) a)) (HS : forall n f x, nth_error fs n = Some f -> In x (field_values n (snd f) a) -> storable x).
Lemma first_cases : struct_first = [] \/ o_matlab_compatible wo = true /\ struct_first = [(lit "MATLAB_class", QPyStr (lit "struct"))].
Proof. unfold struct_first. destruct (o_matlab_compatible wo); auto. Qed.
Lemma struct_nodup : NoDup (map fst (np_attrs wo (c, a) ts struct_first true None)).
Proof. exact (struct_attrs_nodup wo c a ts None true struct_first (p_meta _ _ HP) struct_is (struct_empty _ _ _ SO) (fun M => proj1 (MC M)) eq_refl first_cases). Qed.
Lemma struct_keys : map nkey (numbered fs) = map escaped (map fst fs).
Proof. rewrite <- numbered_fst, map_map. reflexivity. Qed.
Lemma struct_columns : Forall (fun nf => keeps_type (snd (snd nf)) (column (fst nf) (snd (snd nf)) (a_data (write_dims wo a))) /\ Forall storable (column (fst nf) (snd (snd nf)) (a_data (write_dims wo a)))) (numbered fs).
Proof.
  pose proof (st_len _ _ _ SO) as WA. rewrite Forall_forall. intros nf Hnf. apply numbered_nth in Hnf. split.
  - eapply keeps_type_in; [|apply HK; exact Hnf]. intros x. apply column_in. exact WA.
  - rewrite Forall_forall. intros x Hx. apply (HS (fst nf) (snd nf) x Hnf). unfold field_values. apply (column_in wo); assumption.
Qed.
Lemma struct_names_ok : NoDup (map nkey (numbered fs)) /\ Forall (fun nf => fst (snd nf) <> []) (numbered fs).
Proof.
  destruct (st_names _ _ _ SO) as (ND & NN). split; [rewrite struct_keys; apply nodup_escaped; exact ND|].
  assert (X : Forall (fun k : pystr => k <> []) (map (fun nf : nat * (pystr * (dt * list nat)) => fst (snd nf)) (numbered fs))) by (rewrite numbered_fst; eapply Forall_impl; [|exact NN]; cbn; tauto). rewrite Forall_map in X. exact X.
Qed.
Lemma struct_parts g nm s s' r : stored_as_group wo (a_dt a) = true -> write_value wo rnd tries wr g nm (VNp c a) s = (s', Ok r) ->
  exists s1 i, r = Some i /\ write_struct wo wr g nm (write_dims wo a) s = (s1, Ok i) /\ sync_attrs i (np_attrs wo (c, a) ts struct_first true None) true s1 = (s', Ok tt).
Proof.
  intros SG E. cbn [write_value] in E. unfold np_write in E. rewrite struct_compatible in E. cbn [andb] in E.
  apply bind_ok in E. destruct E as (s0 & b & E0 & E). apply lift_ok in E0. destruct E0 as [-> E0]. rewrite (struct_prepare wo c a fs SO) in E0. injection E0 as <-.
  set (b := write_dims wo a) in *. assert (DB : a_dt b = a_dt a) by apply write_dims_dt.
  assert (AG : as_group wo a (a_dt b) = true).
  { unfold as_group. rewrite DB. unfold stored_as_group in SG. rewrite (st_dt _ _ _ SO) in *. cbn [is_struct is_cpx negb andb]. rewrite orb_assoc. exact SG. }
  rewrite AG in E. apply bind_ok in E. destruct E as (s1 & i & E1 & E). apply bind_ok in E. destruct E as (s2 & [] & E2 & E). apply ret_ok in E. destruct E as [-> ->].
  exists s1, i. auto.
Qed.
Lemma struct_sound h P i : struct_left h P i -> held h P i (VNp c a).
Proof.
  intros (ob & ls & Q & jvs & O1 & O2 & O3 & O4 & O5 & O6 & O7 & O8). set (b := write_dims wo a) in *. assert (DB : a_dt b = a_dt a) by apply write_dims_dt.
  pose proof first_cases as HF. set (first := struct_first) in *. clearbody first.
  pose proof (p_meta _ _ HP) as Hm. pose proof (struct_empty _ _ _ SO) as Hn. assert (Hc : o_matlab_compatible wo = true -> o_struct_as_struct wo = true) by (intros M; apply (MC M)).
  assert (WA : wf_arr a) by apply (st_len _ _ _ SO).
  assert (WB : wf_arr b) by (apply write_dims_wf; exact WA). assert (PB : prod (a_shape b) = prod (a_shape a)) by apply write_dims_prod.
  destruct (st_some _ _ _ SO) as (NZ & NF). destruct (st_names _ _ _ SO) as (ND & NN).
  pose proof struct_keys as KEYS. pose proof struct_columns as HK'. change (write_dims wo a) with b in HK'.
  set (l := numbered fs) in *. set (single := prod (a_shape b) =? 1) in *.
  set (cs := combine (map fst fs) (map snd jvs)).
  assert (LJ : length (map fst fs) = length (map snd jvs)) by (rewrite !map_length, <- (Forall2_len _ _ _ O8); unfold l, numbered; rewrite combine_length, seq_length; lia).
  assert (CF : map fst cs = map fst fs) by (apply combine_fst; exact LJ).
  assert (CS : Forall2 (fun nf kv => exists j, fst kv = fst (snd nf) /\ assoc (escaped (fst kv)) ls = Some j /\ is_refs ro h j = false /\
     reads_field ro keq single h (a_shape b) (column (fst nf) (snd (snd nf)) (a_data b)) j (snd kv)) l cs).
  { unfold cs. rewrite <- numbered_fst. fold l. clear - O8. induction O8 as [|nf jv l jvs (Y1 & Y2 & Y3) _ IH]; cbn [map combine]; constructor; [|exact IH]. exists (fst jv). cbn [fst snd]. auto. }
  set (sh := if single then [1] else a_shape b). assert (PS : prod sh = prod (a_shape b)) by (unfold sh, single; destruct (Nat.eqb_spec (prod (a_shape b)) 1) as [->|]; reflexivity).
  assert (NEcs : cs <> []) by (intros X; rewrite X in CF; destruct fs; [apply NF; reflexivity|discriminate]).
  assert (RB : map (fun kv => (fst kv, field_type (obj_arr sh (snd kv)))) cs = fs /\
     Forall2 same_elem (a_data b) (map (fun n => XRec (map (fun kv => cell_elems (field_type (obj_arr sh (snd kv))) (nth n (snd kv) VNone)) cs)) (seq 0 (prod sh)))).
  { apply (rows_back wo ro keq).
    - intros X. unfold wf_arr in WB. rewrite X in WB. cbn in WB. lia.
    - rewrite PS. exact WB.
    - pose proof (st_rows _ _ _ SO) as SR. rewrite Forall_forall in *. intros e He. apply SR. eapply write_dims_in. exact He.
    - fold l. clear - CS HK'. induction CS as [|nf kv l cs (j & X1 & X2 & X3 & X4 & X5 & X6) _ IH]; constructor; [|apply IH; inversion HK'; assumption]. inversion HK' as [|? ? (Y1 & Y2) _]; subst. auto. }
  destruct RB as (RT & RR). set (rows := map (fun n => XRec _) (seq 0 (prod sh))) in *.
  assert (LR : length rows = prod (a_shape b)) by (unfold rows; rewrite map_length, seq_length; exact PS).
  destruct (struct_read_attrs wo c a ts None true first Hm struct_is Hn Hc eq_refl HF (o_attrs ob) (np_type_ascii c (a_dt a)) O5) as (me & mf & d0 & S0 & T1 & T2 & T3 & T4).
  assert (FIN : exists a', fix_shape (a_shape a) (if o_reverse wo then tr (mkArr (a_dt a) sh rows) else mkArr (a_dt a) sh rows) = a' /\ a_dt a' = a_dt a /\ a_shape a' = a_shape a /\ wf_arr a' /\ Forall2 same_elem (a_data a) (a_data a')).
  { unfold sh in *. destruct single eqn:ES.
    - unfold single in ES. apply Nat.eqb_eq in ES. exists (mkArr (a_dt a) (a_shape a) rows). split; [apply single_dims; [lia|reflexivity|lia]|]. split; [reflexivity|]. split; [reflexivity|]. split; [unfold wf_arr; cbn [a_data a_shape]; lia|].
      cbn [a_data]. assert (a_data a = a_data b) as ->; [|exact RR]. unfold wf_arr in WA, WB.
      assert (X : forall e, In e (a_data b) -> In e (a_data a)) by (intros e; apply write_dims_in). rewrite ES in WB. rewrite <- PB, ES in WA.
      destruct (a_data a) as [|x [|]]; try discriminate. destruct (a_data b) as [|y [|]]; try discriminate. destruct (X y (or_introl eq_refl)) as [->|[]]. reflexivity.
    - destruct (write_dims_related wo a rows WA RR) as (a' & R1 & R2 & R3 & R4 & R5). fold b in R1. rewrite R1. exists a'. split; [|auto]. rewrite <- R4. apply (dims_roundtrip wo a' R2). }
  destruct FIN as (a' & F1 & F2 & F3 & F4 & F5).
  exists Q, (VNp c a'). split; [exact O3|]. split; [exact O4|]. split; [apply S_np; [left; congruence|congruence|exact F5]|]. split; [eapply type_has; [exact O1|exact T3]|].
  intros n Hd. destruct n as [|n]; [cbn in Hd; lia|]. cbn [read]. unfold read_value. rewrite O1, T3, T4. cbn [bindr]. rewrite np_type_reader.
  unfold np_read. rewrite T1, O2. cbn [bindr].
  assert (DX : forall nf x, In nf l -> In x (column (fst nf) (snd (snd nf)) (a_data b)) -> S (depth x) <= n).
  { intros nf x Hnf Hx. apply le_S_n. eapply Nat.le_trans; [|exact Hd]. apply (column_depth (fst nf) (snd (snd nf)) (a_data a)); [reflexivity| |apply (column_in wo); assumption].
    intros e He. pose proof (st_rows _ _ _ SO) as SR. rewrite Forall_forall in SR. destruct (SR e He) as (cells & -> & _). eauto. }
  assert (JM : multi_element ro h ls = negb single).
  { destruct single eqn:ES; cbn [negb].
    - destruct cs as [|kv cs']; [congruence|]. inversion CS as [|nf ? l' ? (j & X1 & X2 & X3 & X4 & _) _]; subst. eapply multi_false; eassumption.
    - unfold multi_element. apply forallb_forall. intros [k j] Hkj. cbn [snd]. apply orb_true_iff. right. pose proof (In_assoc _ _ _ O6 Hkj) as AJ.
      assert (Hk : In k (map nkey l)) by (apply O7; apply in_map_iff; exists (k, j); auto). clear - O8 Hk AJ. induction O8 as [|nf jv l jvs (Y1 & Y2 & Y3 & _) _ IH]; [destruct Hk|].
      destruct Hk as [<-|Hk]; [rewrite AJ in Y1; injection Y1 as ->; exact Y3|auto]. }
  rewrite (group_back ro h (read ro keq h n) ls _ cs sh NEcs); cbn [ra_fields ra_mclass].
  - cbn [bindr]. fold rows. rewrite RT, <- (st_dt _ _ _ SO). apply struct_finish; auto; try discriminate. right. eauto.
  - rewrite CF. exact ND.
  - rewrite PS, PB. exact NZ.
  - rewrite CF, (st_dt _ _ _ SO). reflexivity.
  - unfold struct_class. destruct (o_matlab_compatible wo) eqn:M; [|reflexivity]. destruct (MC eq_refl) as [_ ->]. apply andb_false_r.
  - exact O6.
  - intros k Hk. rewrite CF, <- KEYS. apply O7. exact Hk.
  - rewrite JM. assert (G : forall l0, (forall x, In x l0 -> In x l) -> forall cs0, Forall2 (fun nf kv => exists j, fst kv = fst (snd nf) /\ assoc (escaped (fst kv)) ls = Some j /\ is_refs ro h j = false /\
       reads_field ro keq single h (a_shape b) (column (fst nf) (snd (snd nf)) (a_data b)) j (snd kv)) l0 cs0 ->
       Forall (fun kv => exists j, assoc (escaped (fst kv)) ls = Some j /\ is_refs ro h j = false /\ length (snd kv) = prod sh /\
         (if negb single then read ro keq h n j = Ok (VNp CNdarray (obj_arr sh (snd kv))) else sh = [1] /\ exists v, snd kv = [v] /\ read ro keq h n j = Ok v)) cs0).
    { intros l0 HL0 cs0 X. induction X as [|nf kv l0 cs0 (j & X1 & X2 & X3 & X4 & X5 & X6) _ IH]; constructor; [|apply IH; intros x Hx; apply HL0; right; exact Hx].
      assert (Hnf : In nf l) by (apply HL0; left; reflexivity).
      exists j. split; [exact X2|]. split; [exact X3|]. split; [rewrite <- (Forall2_len _ _ _ X5), column_length, PS; exact WB|]. unfold sh. destruct single; cbn [negb].
      - split; [reflexivity|]. apply X6. rewrite Forall_forall. intros x Hx. pose proof (DX nf x Hnf Hx). lia.
      - destruct n as [|n']; [exfalso; destruct (a_data b) as [|e da] eqn:ED; [unfold wf_arr in WB; rewrite ED in WB; cbn in WB; lia|]|apply X6; rewrite Forall_forall; intros x Hx; pose proof (DX nf x Hnf Hx); lia].
        pose proof (DX nf _ Hnf (or_introl eq_refl)). lia. }
    apply (G l); auto.
Qed.

Section One.
Variables (s : st) (g : nat) (nm : pystr).
Hypotheses (W : wf s) (K : okt s g nm) (L : forall i, lookup (hp s) g nm = Some i -> is_group (hp s) i = false) (U : unreserved s (name_of (hp s) g ++ [nm])).
Lemma struct_group_held s' r : stored_as_group wo (a_dt a) = true -> write_value wo rnd tries wr g nm (VNp c a) s = (s', Ok r) ->
  exists i, r = Some i /\ held (hp s') (reg s (name_of (hp s) g ++ [nm])) i (VNp c a).
Proof.
  intros SG E. destruct (struct_parts g nm s s' r SG E) as (s1 & i & -> & E1 & E2). exists i. split; [reflexivity|]. apply struct_sound.
  assert (SF : struct_fields (a_dt (write_dims wo a)) = fs) by (rewrite write_dims_dt, (st_dt _ _ _ SO); reflexivity).
  destruct struct_names_ok as (NK & NE). destruct (st_some _ _ _ SO) as (NZ & _).
  destruct (struct_stored wo ro keq rnd HP wr Hwr Hrt Hcs s g nm (write_dims wo a) a (np_attrs wo (c, a) ts struct_first true None) s1 i s' W K L U) as (ob & ls & Q & jvs & X); auto; rewrite ?SF; auto.
  { apply write_dims_wf. apply (st_len _ _ _ SO). }
  { rewrite write_dims_prod. exact NZ. }
  { eapply Forall_impl; [|exact struct_columns]. cbn. tauto. }
  { apply struct_nodup. }
  rewrite SF in X. exists ob, ls, Q, jvs. exact X.
Qed.
End One.
End Value.
End Held.

Lemma noptr_back : forall e : elem pyval, no_objects e = true -> emap (fun _ => VNone) (noptr e) = e.
Proof.
  fix REC 1. intros [b|z|x|x y|s|s|p|cells] H; try reflexivity; [discriminate|]. cbn [no_objects] in H. cbn [noptr emap]. f_equal.
  induction cells as [|c cells IH]; [reflexivity|]. cbn [forallb] in H. apply andb_true_iff in H. destruct H as [H1 H2]. cbn [map]. f_equal; [|exact (IH H2)]. clear IH H2 cells.
  induction c as [|e c IH]; [reflexivity|]. cbn [forallb] in H1. apply andb_true_iff in H1. destruct H1 as [H1 H2]. cbn [map]. f_equal; [exact (REC e H1)|exact (IH H2)].
Qed.
Lemma like_complex_present (a : arr nat) fs : a_dt a = TStruct fs -> like_complex fs = false -> h5py_present a = a.
Proof.
  intros D H. unfold h5py_present. rewrite D. destruct fs as [|[n0 [d0 [|]]] [|[n1 [d1 [|]]] [|]]]; try reflexivity; destruct d0; try reflexivity; destruct d1; try reflexivity.
  cbn [like_complex] in H. rewrite H. reflexivity.
Qed.
Section Compound.
Variables (wo ro : options) (keq : pyval -> pyval -> bool) (rnd : nat -> N) (tries : nat).
Notation wf := (wf wo). Notation okt := (okt wo). Notation wspec := (wspec wo rnd).
Notation held := (held ro keq). Notation reg := (reg wo rnd). Notation unreserved := (unreserved wo rnd). Notation elem_reg := (elem_reg wo rnd).
Notation storable := (storable wo ro keq).
Hypotheses (HP : paired wo ro) (HI : inj_rnd rnd).
Variable wr : nat -> pystr -> pyval -> M (option nat).
Hypotheses (Hwr : wspec wr) (Hrt : rspec wo ro keq rnd wr).
Lemma compound_plain c a fs : struct_obj c a fs -> (o_matlab_compatible wo = true -> o_struct_as_struct wo = true /\ o_structs_as_dicts ro = false) ->
  stored_as_group wo (a_dt a) = false -> o_matlab_compatible wo = false.
Proof.
  intros SO MC SG. unfold stored_as_group in SG. apply orb_false_iff in SG. destruct SG as [SG S4]. apply orb_false_iff in SG. destruct SG as [SG S3]. apply orb_false_iff in SG. destruct SG as [S1 S2].
  destruct (o_matlab_compatible wo); [destruct (MC eq_refl); congruence|reflexivity].
Qed.
Lemma struct_no_ptr c a fs : struct_obj c a fs -> forall p, ~ In (XPtr p) (a_data a).
Proof. intros SO p Hp. pose proof (st_rows _ _ _ SO) as SR. rewrite Forall_forall in SR. destruct (SR _ Hp) as (cells & X & _). discriminate. Qed.
Lemma compound_fields c a fs : struct_obj c a fs -> stored_as_group wo (a_dt a) = false -> fields_anyway wo a = false.
Proof.
  intros SO SG. pose proof (st_dt _ _ _ SO) as D. destruct (st_some _ _ _ SO) as (NZ & NF).
  unfold stored_as_group in SG. apply orb_false_iff in SG. destruct SG as [SG S4]. apply orb_false_iff in SG. destruct SG as [SG S3]. apply orb_false_iff in SG. destruct SG as [S1 S2].
  unfold fields_anyway. rewrite S1, S2, S3. rewrite (nonzero_axes _ NZ). rewrite D in *. cbn [is_struct orb andb struct_fields]. apply not_true_is_false. intros X. apply existsb_exists in X. destruct X as ([k [e sh]] & Hf & X).
  rewrite existsb_app, (nonzero_axes _ NZ) in X. cbn [orb] in X. cbn [has_zero_shape] in S4. assert (Y : existsb (fun f => match f with (_, (e, sh)) => existsb (Nat.eqb 0) sh || has_zero_shape e end) fs = true).
  { apply existsb_exists. exists (k, (e, sh)). split; [exact Hf|]. cbn beta iota. rewrite X. reflexivity. }
  congruence.
Qed.
(** the Dataset of a structured array that is not stored as a Group *)
Lemma compound_stored c a fs s g nm s' r : struct_obj c a fs -> o_matlab_compatible wo = false -> stored_as_group wo (a_dt a) = false ->
  wf s -> okt s g nm -> room wo s g nm c a (np_type c (a_dt a)) -> unreserved s (name_of (hp s) g ++ [nm]) ->
  write_value wo rnd tries wr g nm (VNp c a) s = (s', Ok r) ->
  exists i ob d f b D Q t, r = Some i /\ hp s' i = Some ob /\ o_body ob = BData d f /\ (a_dt d = stored_dt (ref_dt (a_dt b)) /\ a_shape d = a_shape b) /\ at_target s' (name_of (hp s) g ++ [nm]) i /\
    closed (hp s') (elem_reg s) Q /\ (forall j, In (XPtr j) (a_data d) -> Q j) /\ np_prepare wo (c, a) = Ok b /\ (forall k, o_attrs ob k = fresh_attrs (np_attrs wo (c, a) (np_type c (a_dt a)) [] false t) k) /\ fetched b D /\
    forall n, (forall p, In (XPtr p) (a_data a) -> depth p <= n) -> read_array (hp s') (read ro keq (hp s') n) d = Ok D.
Proof.
  intros SO M SG W K RM U E. cbn [write_value] in E. pose proof (compound_fields c a fs SO SG) as FA.
  pose proof (struct_is c a fs SO) as SI. pose proof (st_dt _ _ _ SO) as D. set (ts := np_type c (a_dt a)) in *.
  unfold stored_as_group in SG. apply orb_false_iff in SG. destruct SG as [SG S4]. apply orb_false_iff in SG. destruct SG as [SG S3]. apply orb_false_iff in SG. destruct SG as [S1 S2].
  apply (np_stored_gen wo ro keq rnd tries HP HI wr Hwr Hrt s g nm c a ts s' r W K RM U); [| | | |exact E].
  { intros X. unfold np_incompatible in X. rewrite M in X. discriminate. }
  { intros b Hb. rewrite (struct_prepare wo c a fs SO) in Hb. injection Hb as <-. rewrite write_dims_dt. split; [|split; rewrite D; discriminate].
    unfold as_group. rewrite S1, S2, S3, S4. cbn [orb]. apply andb_false_r. }
  { intros t. exact (struct_attrs_nodup wo c a ts t false [] (p_meta _ _ HP) SI (struct_empty _ _ _ SO) (fun X => ltac:(congruence)) FA (or_introl eq_refl)). }
  { intros p Hp. destruct (struct_no_ptr c a fs SO p Hp). }
Qed.
Lemma struct_compound_held c a fs s g nm s' r : struct_obj c a fs -> (o_matlab_compatible wo = true -> o_struct_as_struct wo = true /\ o_structs_as_dicts ro = false) ->
  wf s -> okt s g nm -> room wo s g nm c a (np_type c (a_dt a)) -> unreserved s (name_of (hp s) g ++ [nm]) ->
  stored_as_group wo (a_dt a) = false -> forallb no_objects (a_data a) = true -> plain_type (a_dt a) = true ->
  write_value wo rnd tries wr g nm (VNp c a) s = (s', Ok r) ->
  exists i, r = Some i /\ held (hp s') (reg s (name_of (hp s) g ++ [nm])) i (VNp c a).
Proof.
  intros SO MC W K RM U SG NO PT E.
  pose proof (compound_plain c a fs SO MC SG) as M. pose proof (compound_fields c a fs SO SG) as FA. pose proof (struct_no_ptr c a fs SO) as FL.
  destruct (compound_stored c a fs s g nm s' r SO M SG W K RM U E) as (i & ob & d & f & b & D' & Q & ty & E1 & E2 & E3 & [E4 E4'] & E5 & E6 & E6' & E7 & E8 & E9 & E10).
  pose proof (struct_is c a fs SO) as SI. pose proof (st_dt _ _ _ SO) as D. set (ts := np_type c (a_dt a)) in *.
  assert (WA : wf_arr a) by apply (st_len _ _ _ SO).
  pose proof (p_meta _ _ HP) as Hm. pose proof (struct_empty _ _ _ SO) as Hn.
  assert (Hc : o_matlab_compatible wo = true -> o_struct_as_struct wo = true) by congruence.
  assert (Hf : false || fields_anyway wo a = false) by exact FA.
  assert (HF : @nil (pystr * areq) = [] \/ o_matlab_compatible wo = true /\ @nil (pystr * areq) = [(lit "MATLAB_class", QPyStr (lit "struct"))]) by (left; reflexivity).
  rewrite (struct_prepare wo c a fs SO) in E7. injection E7 as <-.
  assert (D'' : D' = write_dims wo a).
  { unfold fetched in E9. rewrite write_dims_dt, D in E9. rewrite E9. clear E9. cbn [stored_dt].
    rewrite (like_complex_present _ fs); [|reflexivity|rewrite D in PT; cbn [plain_type] in PT; apply andb_true_iff in PT; destruct PT as [PT _]; apply andb_true_iff in PT; destruct PT as [PT _]; apply negb_true_iff in PT; exact PT].
    unfold amap. cbn [a_dt a_shape a_data]. rewrite <- D, <- (write_dims_dt wo a). destruct (write_dims wo a) as [d0 sh0 l0] eqn:EW. cbn [a_dt a_shape a_data]. f_equal. rewrite map_map.
    rewrite <- (map_id l0) at 2. apply map_ext_in. intros e He. apply noptr_back. rewrite forallb_forall in NO. apply NO. apply (write_dims_in wo). rewrite EW. exact He. }
  subst D'. exists i. split; [exact E1|].
  destruct (struct_read_attrs wo c a ts ty false [] Hm SI Hn Hc Hf HF (o_attrs ob) (np_type_ascii c (a_dt a)) (marks_fresh _ _ E8)) as (me & mf & d0 & S0 & T1 & T2 & T3 & T4).
  exists (fun j => j = i \/ Q j), (VNp c a). split; [left; reflexivity|]. split; [exact (own_closed wo rnd s s' _ i ob d f Q E2 E3 E5 E6 E6')|]. split; [apply S_refl|]. split; [eapply type_has; [exact E2|exact T3]|].
  intros n Hd. destruct n as [|n]; [cbn in Hd; lia|]. cbn [read]. unfold read_value. rewrite E2, T3, T4. cbn [bindr]. unfold ts at 1. rewrite np_type_reader.
  unfold np_read. rewrite T1, E3. cbn [bindr]. rewrite E10 by (intros p Hp; destruct (FL p Hp)). cbn [bindr].
  apply (struct_finish wo ro HP c a fs SO); auto. apply dims_roundtrip. exact WA.
Qed.
End Compound.
