(** Writing a Group over a Group: dicts and structured arrays. *)
From Verif Require Import Base PathEsc PathEscFacts PosixPath PosixFacts ProcessPath ProcessPathFacts Unicode UnicodeFacts Dec NdArray Value OptionsM StrConv ComplexM Attrs NpDims MColl Hdf5 HeapFacts NpWrite NpRead MarshalW MarshalR FrameFacts WriteFrame ReadFacts RoundSpec RoundNp RoundHeap RoundWrite RoundVal RoundDict StructBuild RoundStruct RoundAll ProgressSpec OverSpec Over.
Local Open Scope nat_scope.
Local Arguments prod : simpl never.

(** ** the attributes of dicts *)
Definition stored_as (codes : option (list (N * pystr))) : pystr := match codes with Some _ => lit "individually" | None => lit "keys_values" end.
Definition dict_std (ts : pystr) (codes : option (list (N * pystr))) (kq : pystr * areq) : Prop :=
  fst kq = lit "Python.Type" /\ snd kq = QString ts \/
  fst kq = lit "Python.dict.StoredAs" /\ snd kq = QString (stored_as codes) \/
  fst kq = lit "MATLAB_class" /\ snd kq = QString (lit "struct") \/
  fst kq = lit "Python.Fields" /\ (exists l, snd kq = QStrs l) \/
  fst kq = lit "Python.dict.keys_values_names" /\ (exists l, snd kq = QStrs l) \/
  fst kq = lit "MATLAB_fields" /\ (exists x, snd kq = QVal x) \/
  fst kq = kst /\ (exists cs, codes = Some cs /\ snd kq = QString (map fst cs)).
Lemma dict_attrs_std o ts plain codes : Forall (dict_std ts codes) (dict_attrs o ts plain codes).
Proof.
  unfold dict_attrs. cbv zeta. set (names := match codes with Some cs => map (fun c => escaped (snd c)) cs | None => [] end).
  match goal with |- context [if o_matlab_compatible o && plain then dput _ _ (if _ then match _ with Some _ => _ | None => ?x end else _) else _] => set (l1 := x) end.
  assert (F1 : Forall (dict_std ts codes) l1).
  { unfold l1. destruct (o_store_python_metadata o); [|constructor]. destruct codes as [cs|]; repeat (apply Forall_cons); try apply Forall_nil; unfold dict_std, stored_as; cbn [fst snd]; eauto 12. }
  clearbody l1.
  set (l2 := if o_matlab_compatible o && _ then _ else l1). assert (F2 : Forall (dict_std ts codes) l2).
  { unfold l2. destruct (_ && _); [|exact F1]. destruct (matlab_fields names); [|exact F1]. apply dput_forall; [|exact F1]. unfold dict_std. cbn [fst snd]. eauto 12. }
  clearbody l2.
  set (l3 := if o_matlab_compatible o && plain then _ else l2). assert (F3 : Forall (dict_std ts codes) l3).
  { unfold l3. destruct (_ && _); [|exact F2]. apply dput_forall; [|exact F2]. unfold dict_std. cbn [fst snd]. eauto 12. }
  clearbody l3. destruct (o_store_python_metadata o); [|exact F3]. apply dput_forall; [|exact F3]. unfold dict_std. cbn [fst snd]. eauto 12.
Qed.
Lemma fresh_in reqs k x : fresh_attrs reqs k = Some x -> exists q, In (k, q) reqs /\ req_val q = Ok x.
Proof.
  unfold fresh_attrs. destruct (assoc k reqs) as [q|] eqn:E; [|discriminate]. apply assoc_In in E. destruct (req_val q) as [v|] eqn:V; [|discriminate]. intros [= <-]. eauto.
Qed.
Lemma not_replaceable k s old : ~ replaceable k (QString s) old -> forall b, old = AStr b -> Forall (fun x => (x < 128)%N) s -> length b <> length s.
Proof.
  intros N b -> A L. apply N. right. right. cbn [req_val]. rewrite ascii_bytes_ok by exact A. cbn [bindr]. eexists. split; [reflexivity|]. cbn [same_layout]. apply Nat.eqb_eq. auto.
Qed.
(** the attributes of a dict after they were set over those of another dict *)
Lemma marks_over wo ts plain codes codes' (a a' : attrs) :
  Forall (fun x => (x < 128)%N) ts -> (forall cs, codes = Some cs -> Forall (fun c => (fst c < 128)%N) cs) -> (forall cs, codes' = Some cs -> Forall (fun c => (fst c < 128)%N) cs) ->
  (codes = None <-> codes' = None) ->
  (forall cs cs', codes = Some cs -> codes' = Some cs' -> Forall (fun c => fst c = 116%N) cs' \/ length cs = length cs' /\ ~ Forall (fun c => fst c = 116%N) cs) ->
  (forall k, k <> kst -> k <> h5path -> a k = fresh_attrs (dict_attrs wo ts plain codes) k) ->
  (a kst = fresh_attrs (dict_attrs wo ts plain codes) kst \/ exists cs b, codes = Some cs /\ a kst = Some (AStr b) /\ Forall (fun x => (x < 128)%N) b /\ Forall (fun c => fst c = 116%N) cs) ->
  (forall k, a' k = fresh_attrs (dict_attrs wo ts plain codes') k \/ exists q old, In (k, q) (dict_attrs wo ts plain codes') /\ a k = Some old /\ a' k = Some old /\ ~ replaceable k q old) ->
  dict_marks wo a' ts plain codes'.
Proof.
  intros AT AC AC' CN KC HA HK H. pose proof (dict_attrs_std wo ts plain codes) as S1. pose proof (dict_attrs_std wo ts plain codes') as S2. rewrite Forall_forall in S1, S2.
  assert (QS : forall s s' q1 q old k, q1 = QString s -> q = QString s' -> req_val q1 = Ok old -> Forall (fun x => (x < 128)%N) s -> Forall (fun x => (x < 128)%N) s' -> length s = length s' -> replaceable k q old).
  { intros s s' q1 q old k -> -> E A A' L. cbn [req_val] in E. rewrite ascii_bytes_ok in E by exact A. cbn [bindr] in E. injection E as <-.
    cbn [replaceable req_val]. right. right. rewrite (ascii_bytes_ok s' A'). cbn [bindr]. eexists. split; [reflexivity|]. cbn [same_layout]. apply Nat.eqb_eq. auto. }
  split.
  - intros k NK. destruct (H k) as [E|(q & old & Hq & Ho & _ & NR)]; [exact E|]. exfalso. apply NR. pose proof (S2 _ Hq) as Q. unfold dict_std in Q. cbn [fst snd] in Q.
    assert (NH : k <> h5path).
    { intros ->. destruct Q as [Q|[Q|[Q|[Q|[Q|[Q|Q]]]]]]; destruct Q as [Q _]; discriminate Q. }
    rewrite (HA k NK NH) in Ho. destruct (fresh_in _ _ _ Ho) as (q1 & Hq1 & V1). pose proof (S1 _ Hq1) as Q1. unfold dict_std in Q1. cbn [fst snd] in Q1.
    destruct Q as [Q|[Q|[Q|[Q|[Q|[Q|Q]]]]]]; destruct Q as [K Q]; try congruence.
    + destruct Q1 as [Q1|[Q1|[Q1|[Q1|[Q1|[Q1|Q1]]]]]]; destruct Q1 as [K1 Q1]; try (rewrite K in K1; discriminate K1). exact (QS _ _ _ _ _ k Q1 Q V1 AT AT eq_refl).
    + destruct Q1 as [Q1|[Q1|[Q1|[Q1|[Q1|[Q1|Q1]]]]]]; destruct Q1 as [K1 Q1]; try (rewrite K in K1; discriminate K1).
      assert (SE : stored_as codes = stored_as codes') by (destruct codes, codes'; try reflexivity; destruct CN as [C1 C2]; [specialize (C2 eq_refl); discriminate|specialize (C1 eq_refl); discriminate]).
      rewrite SE in Q1. assert (A : Forall (fun x => (x < 128)%N) (stored_as codes')) by (destruct codes'; repeat constructor). exact (QS _ _ _ _ _ k Q1 Q V1 A A eq_refl).
    + destruct Q1 as [Q1|[Q1|[Q1|[Q1|[Q1|[Q1|Q1]]]]]]; destruct Q1 as [K1 Q1]; try (rewrite K in K1; discriminate K1).
      assert (A : Forall (fun x => (x < 128)%N) (lit "struct")) by (repeat constructor). exact (QS _ _ _ _ _ k Q1 Q V1 A A eq_refl).
    + destruct Q as [l ->]. exact I.
    + destruct Q as [l ->]. exact I.
    + destruct Q as [x ->]. cbn [replaceable]. left. exact K.
  - destruct (H kst) as [E|(q & old & Hq & Ho & Ha & NR)]; [left; exact E|right]. pose proof (S2 _ Hq) as Q. unfold dict_std in Q. cbn [fst snd] in Q.
    destruct Q as [Q|[Q|[Q|[Q|[Q|[Q|Q]]]]]]; destruct Q as [K Q]; try discriminate K. destruct Q as (cs' & C' & ->).
    assert (A' : Forall (fun x => (x < 128)%N) (map fst cs')) by (rewrite Forall_map; apply AC'; exact C').
    assert (exists cs, codes = Some cs) as [cs Cs] by (destruct codes as [cs|]; [eauto|]; rewrite (proj1 CN eq_refl) in C'; discriminate).
    assert (X : exists b, old = AStr b /\ Forall (fun x => (x < 128)%N) b /\ (b = map fst cs \/ Forall (fun c => fst c = 116%N) cs)).
    { destruct HK as [HK|(cs0 & b & X1 & X2 & X3 & X4)].
      - rewrite HK in Ho. destruct (fresh_in _ _ _ Ho) as (q1 & Hq1 & V1). pose proof (S1 _ Hq1) as Q1. unfold dict_std in Q1. cbn [fst snd] in Q1.
        destruct Q1 as [Q1|[Q1|[Q1|[Q1|[Q1|[Q1|Q1]]]]]]; destruct Q1 as [K1 Q1]; try discriminate K1. destruct Q1 as (cs1 & C1 & ->). rewrite Cs in C1. injection C1 as <-.
        assert (A1 : Forall (fun x => (x < 128)%N) (map fst cs)) by (rewrite Forall_map; apply AC; exact Cs).
        cbn [req_val] in V1. rewrite ascii_bytes_ok in V1 by exact A1. injection V1 as <-. exists (map fst cs). auto.
      - exists b. split; [congruence|]. split; [exact X3|]. right. congruence. }
    destruct X as (b & -> & B1 & B2). pose proof (not_replaceable _ _ _ NR b eq_refl A') as LN. rewrite map_length in LN.
    exists cs', b. split; [exact C'|]. split; [exact Ha|]. split; [exact B1|]. split; [exact LN|].
    destruct (KC cs cs' Cs C') as [X|[X1 X2]]; [exact X|]. exfalso. destruct B2 as [-> |B2]; [rewrite map_length in LN; congruence|exact (X2 B2)].
Qed.

(** ** the members of dicts *)
Section Parts.
Variables (wo ro : options) (keq : pyval -> pyval -> bool).
Hypotheses (HP : paired wo ro).
Notation storable := (storable wo ro keq).
Notation dict_kvs := (dict_kvs wo).
Ltac ascii := repeat (apply Forall_cons; [vm_compute; reflexivity|]); apply Forall_nil.
Lemma kvs_texts items texts : Forall2 key_text (map fst items) texts -> dict_kvs items = combine (map escaped texts) (map snd items) /\
  map fst (dict_kvs items) = map escaped texts /\ map snd (dict_kvs items) = map snd items.
Proof.
  intros HT. destruct (key_codes_texts _ _ HT) as (cs & C1 & C2 & C3 & C4).
  assert (E : dict_kvs items = combine (map escaped texts) (map snd items)) by (unfold RoundDict.dict_kvs; rewrite C1, <- C2, map_map; reflexivity).
  assert (L : length (map escaped texts) = length (map snd items)) by (rewrite !map_length, <- (Forall2_len _ _ _ HT), map_length; reflexivity).
  split; [exact E|]. rewrite E. split; [apply combine_fst|apply combine_snd]; exact L.
Qed.
Lemma in_texts k v items texts : Forall2 key_text (map fst items) texts -> In (k, v) (dict_kvs items) -> exists x, k = escaped x /\ In (x, v) (combine texts (map snd items)).
Proof.
  intros HT H. rewrite (proj1 (kvs_texts _ _ HT)) in H. revert H. generalize (map snd items) as l. clear HT. induction texts as [|x texts IH]; intros [|y l] H; try destruct H as [].
  - injection H as <- <-. exists x. split; [reflexivity|]. left. reflexivity.
  - destruct (IH l H) as (z & Z1 & Z2). exists z. split; [exact Z1|right; exact Z2].
Qed.
Lemma rec_items_of k fs : rec_ok k fs -> Forall2 key_text (map fst (rec_items k fs)) (firstn (length fs) (rec_fields k)) /\ map snd (rec_items k fs) = fs /\
  map fst (rec_items k fs) = map VStr (firstn (length fs) (rec_fields k)) /\ length (firstn (length fs) (rec_fields k)) = length fs.
Proof.
  intros H1. set (names := firstn (length fs) (rec_fields k)). destruct (rec_texts k (length fs)) as (T1 & T2 & T3). fold names in T1, T2, T3.
  assert (LN : length names = length fs).
  { unfold names. rewrite firstn_length. apply Nat.min_l. destruct k; cbn [rec_ok rec_fields length] in *; lia. }
  assert (RI : rec_items k fs = combine (map VStr names) fs).
  { unfold rec_items, names. rewrite <- firstn_map, firstn_combine_l. reflexivity. }
  rewrite RI, combine_fst, combine_snd by (rewrite map_length; exact LN). auto.
Qed.
Definition parts (items : list (pyval * pyval)) (ts : pystr) (plain : bool) : Prop :=
  NoDup (map fst (dict_kvs items)) /\ Forall (fun kv => fst kv = [] \/ clean (fst kv)) (dict_kvs items) /\ Forall storable (map snd (dict_kvs items)) /\
  Forall (fun x => (x < 128)%N) ts /\ (forall cs, key_codes (map fst items) = Some cs -> Forall (fun c => (fst c < 128)%N) cs) /\
  NoDup (map fst (dict_attrs wo ts plain (key_codes (map fst items)))).
Lemma texts_parts items texts ts plain : Forall2 key_text (map fst items) texts -> NoDup texts -> Forall (fun t => t <> []) texts -> Forall storable (map snd items) ->
  Forall (fun x => (x < 128)%N) ts -> parts items ts plain.
Proof.
  intros HT HN HE HS HA. destruct (kvs_texts _ _ HT) as (_ & KF & KS). destruct (key_codes_texts _ _ HT) as (cs & C1 & C2 & C3 & C4).
  assert (CC : forall cs, key_codes (map fst items) = Some cs -> Forall (fun c => (fst c < 128)%N) cs) by (rewrite C1; intros x [= <-]; exact C3).
  split; [|split; [|split; [|split; [exact HA|split; [exact CC|]]]]].
  - rewrite KF. clear - HN. induction HN as [|t l H _ IH]; constructor; auto. intros X. apply in_map_iff in X. destruct X as (u & Eu & Hu). apply escaped_inj in Eu. subst u. exact (H Hu).
  - rewrite <- (Forall_map fst (fun x => x = [] \/ clean x)), KF, Forall_map. eapply Forall_impl; [|exact HE]. intros t Ht. right. apply escaped_clean. exact Ht.
  - rewrite KS. exact HS.
  - apply (dict_attrs_eq wo ro HP ts plain _ HA CC).
Qed.
Lemma dict_ascii k : Forall (fun x => (x < 128)%N) (dict_type k).
Proof. destruct k; ascii. Qed.
Lemma rec_ascii k : Forall (fun x => (x < 128)%N) (rec_type k).
Proof. destruct k; ascii. Qed.
Lemma form_parts w items ts plain : storable w -> dict_form w = Some (items, ts, plain) -> parts items ts plain.
Proof.
  intros V F. inversion V; subst w; try discriminate F; cbn [dict_form] in F; injection F as <- <- <-.
  - destruct (rec_items_of k fs H) as (R1 & R2 & R3 & R4). destruct (rec_texts k (length fs)) as (T1 & T2 & T3). eapply texts_parts; eauto; [rewrite R2; assumption|apply rec_ascii].
  - eapply texts_parts; eauto; [|apply dict_ascii]. eapply Forall_impl; [|eassumption]. cbn. tauto.
  - pose proof (key_codes_other _ H0) as C1.
    assert (KV : dict_kvs l = [(o_keys_name wo, VSeq QTuple (map fst l)); (o_values_name wo, VSeq QTuple (map snd l))]) by (unfold RoundDict.dict_kvs; rewrite C1; reflexivity).
    destruct (p_keys _ _ HP) as (P1 & P2 & P3 & P4 & P5). unfold parts. rewrite KV, C1. cbn [map fst snd].
    split; [repeat constructor; cbn [In]; intuition congruence|].
    split; [constructor; [apply (keys_clean _ _ HP)|constructor; [apply (values_clean _ _ HP)|constructor]]|].
    split; [constructor; [|constructor; [|constructor]]; apply V_seq; auto; exact I|].
    split; [apply dict_ascii|]. split; [discriminate|]. apply (dict_attrs_eq wo ro HP _ _ None (dict_ascii k)). discriminate.
Qed.

Lemma str_codes ks cs : key_codes ks = Some cs -> (Forall str_key ks <-> Forall (fun c => fst c = 116%N) cs).
Proof.
  revert cs. induction ks as [|k ks IH]; intros cs E; cbn [key_codes] in E; [injection E as <-; split; constructor|].
  destruct (key_code k) as [c|] eqn:C; [|discriminate]. destruct (key_codes ks) as [cs'|] eqn:C'; [|discriminate]. injection E as <-. specialize (IH cs' eq_refl).
  assert (X : str_key k <-> fst c = 116%N).
  { clear - C. destruct k; cbn [key_code] in C; try discriminate C.
    - injection C as <-. cbn. tauto.
    - destruct (bytes_decode_utf8 s); [|discriminate]. injection C as <-. cbn. split; [tauto|discriminate].
    - cbn [str_key]. destruct c0; try discriminate. destruct a as [d sh da]. destruct d; try discriminate; destruct sh; try discriminate; destruct da as [|e [|]]; try discriminate; destruct e; try discriminate.
      + destruct (bytes_decode_utf8 _); [|discriminate]. injection C as <-. cbn. split; [tauto|discriminate].
      + destruct (units_to_str _ _); [|discriminate]. injection C as <-. cbn. split; [tauto|discriminate]. }
  split; intros F; inversion F; subst; constructor; tauto.
Qed.
Lemma key_codes_len ks cs : key_codes ks = Some cs -> length cs = length ks.
Proof.
  revert cs. induction ks as [|k ks IH]; intros cs E; cbn [key_codes] in E; [injection E as <-; reflexivity|].
  destruct (key_code k) as [c|] eqn:C; [|discriminate]. destruct (key_codes ks) as [cs'|] eqn:C'; [|discriminate]. injection E as <-. cbn [length]. f_equal. auto.
Qed.
Lemma in_combine_pair {A B C} (names : list A) (l : list B) (m : list C) x v w : NoDup names -> In (x, v) (combine names l) -> In (x, w) (combine names m) -> In (v, w) (combine l m).
Proof.
  intros N. revert l m. induction N as [|y names Hy N IH]; intros l m H1 H2; [destruct H1|]. destruct l as [|b l]; [destruct H1|]. destruct m as [|c m]; [destruct H2|]. cbn [combine In] in *.
  destruct H1 as [H1|H1], H2 as [H2|H2].
  - injection H1 as -> ->. injection H2 as ->. left. reflexivity.
  - injection H1 as -> ->. destruct Hy. eapply in_combine_l. exact H2.
  - injection H2 as -> ->. destruct Hy. eapply in_combine_l. exact H1.
  - right. apply IH; assumption.
Qed.

(** what [replaces] says about the members *)
Record fits (i1 i2 : list (pyval * pyval)) : Prop := {
  t_none : key_codes (map fst i1) = None <-> key_codes (map fst i2) = None;
  t_codes : forall cs cs', key_codes (map fst i1) = Some cs -> key_codes (map fst i2) = Some cs' -> Forall (fun c => fst c = 116%N) cs' \/ length cs = length cs' /\ ~ Forall (fun c => fst c = 116%N) cs;
  t_members : forall k v w, In (k, v) (dict_kvs i1) -> In (k, w) (dict_kvs i2) -> replaces wo v w;
  t_gone : key_codes (map fst i2) = None \/ o_delete_unused wo = true \/ forall k, In k (map fst (dict_kvs i1)) -> In k (map fst (dict_kvs i2)) }.
Lemma replaces_fits v w i1 ts1 p1 i2 ts2 p2 : storable v -> storable w -> replaces wo v w -> dict_form v = Some (i1, ts1, p1) -> dict_form w = Some (i2, ts2, p2) ->
  ts1 = ts2 /\ p1 = p2 /\ fits i1 i2.
Proof.
  intros V W R F1 F2. assert (G1 : grouped wo v) by (destruct v; try discriminate F1; exact I). assert (G2 : grouped wo w) by (destruct w; try discriminate F2; exact I).
  destruct R as [v w _ D|v w D _|v w D _|v w D _ _|k l l' t t' HT HT' HM HD HS|k l l' HT HT'|k fs fs' HL HM|c a a' fs fs' ? ? ? ? ? ? ?]; try (destruct (D G1)); try (destruct (D G2)); try discriminate F1.
  - cbn [dict_form] in F1, F2. injection F1 as <- <- <-. injection F2 as <- <- <-. split; [reflexivity|]. split; [reflexivity|].
    destruct (key_codes_texts _ _ HT) as (cs & C1 & C2 & _). destruct (key_codes_texts _ _ HT') as (cs' & C1' & C2' & _). constructor.
    + rewrite C1, C1'. split; discriminate.
    + intros x y Ex Ey. destruct HS as [HS|[HS1 HS2]]; [left; apply (str_codes _ _ Ey); exact HS|right]. rewrite (key_codes_len _ _ Ex), (key_codes_len _ _ Ey), !map_length.
      split; [exact HS1|]. intros X. apply HS2. apply (str_codes _ _ Ex). exact X.
    + intros key a b Ha Hb. destruct (in_texts _ _ _ _ HT Ha) as (x & -> & X). destruct (in_texts _ _ _ _ HT' Hb) as (y & Ey & Y). apply escaped_inj in Ey. subst y. eapply HM; eassumption.
    + right. destruct HD as [HD|HD]; [left; exact HD|right]. rewrite (proj1 (proj2 (kvs_texts _ _ HT))), (proj1 (proj2 (kvs_texts _ _ HT'))).
      intros key Hk. apply in_map_iff in Hk. destruct Hk as (x & <- & Hx). apply in_map, HD, Hx.
  - cbn [dict_form] in F1, F2. injection F1 as <- <- <-. injection F2 as <- <- <-. split; [reflexivity|]. split; [reflexivity|].
    pose proof (key_codes_other _ HT) as C1. pose proof (key_codes_other _ HT') as C1'. constructor.
    + rewrite C1, C1'. split; reflexivity.
    + rewrite C1. discriminate.
    + unfold RoundDict.dict_kvs. rewrite C1, C1'. intros key a b Ha Hb. destruct (p_keys _ _ HP) as (_ & _ & _ & _ & NE). cbn [In] in Ha, Hb.
      destruct Ha as [Ha|[Ha|[]]], Hb as [Hb|[Hb|[]]]; try congruence; injection Ha as <- <-; injection Hb as <-; (apply R_same; [intros []|reflexivity]).
    + left. exact C1'.
  - cbn [dict_form] in F1, F2. injection F1 as <- <- <-. injection F2 as <- <- <-. split; [reflexivity|]. split; [reflexivity|].
    inversion V as [| | | | | | | | | | | | | |? ? RO RS| |]; subst. inversion W as [| | | | | | | | | | | | | |? ? RO' RS'| |]; subst.
    destruct (rec_items_of k fs RO) as (R1 & R2 & R3 & R4). destruct (rec_items_of k fs' RO') as (R1' & R2' & R3' & R4'). rewrite <- HL in R1', R3', R4'.
    destruct (key_codes_texts _ _ R1) as (cs & C1 & _). destruct (key_codes_texts _ _ R1') as (cs' & C1' & _). constructor.
    + rewrite C1, C1'. split; discriminate.
    + intros x y Ex Ey. left. apply (str_codes _ _ Ey). rewrite R3', Forall_map. apply Forall_forall. intros; exact I.
    + intros key a b Ha Hb. destruct (in_texts _ _ _ _ R1 Ha) as (x & -> & X). destruct (in_texts _ _ _ _ R1' Hb) as (y & Ey & Y). apply escaped_inj in Ey. subst y.
      rewrite R2 in X. rewrite R2' in Y. apply HM. destruct (rec_texts k (length fs)) as (_ & T2 & _). eapply in_combine_pair; eassumption.
    + right. right. rewrite (proj1 (proj2 (kvs_texts _ _ R1))), (proj1 (proj2 (kvs_texts _ _ R1'))). auto.
Qed.
End Parts.

(** ** writing over a dict *)
Lemma mark_eqv wo s i p s' : mark_path wo i p s = (s', Ok tt) ->
  forall m ob, hp s m = Some ob -> exists ob', hp s' m = Some ob' /\ o_body ob' = o_body ob /\ forall k, k <> h5path -> o_attrs ob' k = o_attrs ob k.
Proof.
  intros E m om Em. assert (exists ob a, hp s i = Some ob /\ s' = set_hp s (upd (hp s) i (with_attrs ob a)) /\ forall k, k <> h5path -> a k = o_attrs ob k) as (ob & a & Ei & -> & Ha).
  { unfold mark_path in E. destruct (o_matlab_compatible wo).
    - apply bind_ok in E. destruct E as (s1 & b & E1 & E). apply lift_ok in E1. destruct E1 as [-> E1].
      unfold modify_attr, set_attrs, attrs_of in E. destruct (hp s i) as [ob|]; [|discriminate]. injection E as <-.
      exists ob. eexists. split; [reflexivity|]. split; [reflexivity|]. intros k Hk. unfold set_attr. rewrite (proj2 (eqb_str_neq _ _)); [reflexivity|exact Hk].
    - unfold drop_attr, set_attrs, attrs_of in E. destruct (hp s i) as [ob|]; [|discriminate]. injection E as <-.
      exists ob. eexists. split; [reflexivity|]. split; [reflexivity|]. intros k Hk. unfold del_attr. rewrite (proj2 (eqb_str_neq _ _)); [reflexivity|exact Hk]. }
  cbn [hp set_hp]. destruct (Nat.eq_dec m i) as [->|N].
  - rewrite upd_same. rewrite Ei in Em. injection Em as <-. eexists. split; [reflexivity|]. split; [reflexivity|exact Ha].
  - rewrite upd_other by exact N. exists om. split; [exact Em|]. split; reflexivity.
Qed.

Lemma bare_flat h i : bare h i -> is_group h i = false.
Proof. intros (ob & d & f & B1 & B2 & _). unfold is_group. rewrite B1, B2. reflexivity. Qed.
Lemma sync_links i reqs p s s' : sync_attrs i reqs p s = (s', Ok tt) -> forall j, Hdf5.links (hp s') j = Hdf5.links (hp s) j.
Proof.
  intros E j. unfold sync_attrs, attrs_of, set_attrs in E. destruct (set_attributes_all _ reqs p) as [a e]. destruct (hp s i) as [ob|] eqn:Ei; [|destruct e; [discriminate E|injection E as <-; reflexivity]].
  destruct e as [e|]; [discriminate|]. injection E as <-. unfold Hdf5.links. cbn [hp set_hp]. destruct (Nat.eq_dec j i) as [->|N]; [rewrite upd_same, Ei; reflexivity|rewrite upd_other by exact N; reflexivity].
Qed.
Section Writes.
Variables (wo ro : options) (keq : pyval -> pyval -> bool) (rnd : nat -> N) (tries : nat).
Notation rp := (rp wo). Notation ra := (ra wo). Notation wf := (wf wo). Notation frame := (frame wo rnd).
Notation okt := (okt wo). Notation wspec := (wspec wo rnd).
Notation held := (held ro keq). Notation reg := (reg wo rnd). Notation unreserved := (unreserved wo rnd).
Notation storable := (storable wo ro keq). Notation spot := (spot wo). Notation spare := (spare wo ro keq).
Notation dict_kvs := (dict_kvs wo).
Hypotheses (HP : paired wo ro) (HI : inj_rnd rnd).

Lemma spare_frame (R : list pystr -> Prop) s s' t i k w : wf s -> frame R s s' -> unreserved s t -> at_target s t i -> lookup (hp s') i k = lookup (hp s) i k ->
  (forall p, pre (t ++ [k]) p -> ~ R p) -> spare s i k w -> spare s' i k w.
Proof.
  intros W F U A L C [N|[(j & J1 & J2)|(j & v & J1 & J2 & J3 & J4)]]; [left; congruence| |].
  { right. left. exists j. split; [congruence|]. eapply bare_frame; [exact F|apply (link_child wo s t i); eassumption|apply C, pre_refl|exact J2]. }
  right. right. exists j, v. split; [congruence|]. split; [|auto].
  apply (spot_frame wo wo rnd R s s' j v W F J2 (t ++ [k])); [apply (link_child wo s t i); assumption|]. intros p Hp. split; [apply C; exact Hp|].
  intros P. apply (not_refs wo rnd s t U). eapply pre_snoc. eapply pre_trans; eassumption.
Qed.
Lemma siblings t k1 k2 p : k1 <> k2 -> pre (t ++ [k1]) p -> ~ pre (t ++ [k2]) p.
Proof. intros N [x X] [y Y]. rewrite X, <- !app_assoc in Y. apply app_inv_head in Y. cbn in Y. congruence. Qed.

Definition ospec (wr : nat -> pystr -> pyval -> M (option nat)) : Prop := forall s g nm v s' r,
  wf s -> okt s g nm -> spare s g nm v -> unreserved s (name_of (hp s) g ++ [nm]) -> storable v -> wr g nm v s = (s', Ok r) ->
  exists i, r = Some i /\ held (hp s') (reg s (name_of (hp s) g ++ [nm])) i v /\ spot (hp s') i v.

Section Marsh.
Variable wr : nat -> pystr -> pyval -> M (option nat).
Hypotheses (Hwr : wspec wr) (Hov : ospec wr).

Lemma item_over s t i p k v s' u : wf s -> at_target s t i -> is_group (hp s) i = true -> unreserved s t -> spare s i k v ->
  (k = [] \/ clean k) -> storable v -> write_item wo wr i p (k, v) s = (s', Ok u) ->
  wf s' /\ frame (pre (t ++ [k])) s s' /\ at_target s' t i /\ is_group (hp s') i = true /\ attrs_of (hp s') i = attrs_of (hp s) i /\
  (forall k', k' <> k -> lookup (hp s') i k' = lookup (hp s) i k') /\
  exists j, lookup (hp s') i k = Some j /\ held (hp s') (reg s (t ++ [k])) j v /\ spot (hp s') j v.
Proof.
  intros W A G U L C V E. destruct A as (A1 & A2 & A3).
  assert (K : okt s i k).
  { destruct (unreserved_member wo rnd s t k U) as [U1 U2]. constructor; rewrite ?A3; auto. intros x P F. apply (U2 x P). apply futc_fut. exact F. }
  pose proof (Hwr s i k v W K) as (W1 & F1 & P1). unfold write_item in E. cbn [fst snd] in E. apply bind_ok in E. destruct E as (s1 & r & E1 & E). rewrite E1 in *. cbn [fst snd] in *.
  assert (UM : unreserved s (name_of (hp s) i ++ [k])) by (rewrite A3; apply unreserved_member; exact U).
  destruct (Hov s i k v s1 r W K L UM V E1) as (j & -> & HJ & SJ). specialize (P1 _ eq_refl). cbn beta iota in P1. rewrite A3 in *. destruct u.
  assert (NA : name_of (hp s1) j <> ra).
  { destruct P1 as (_ & _ & ->). intros X. apply (proj1 UM). rewrite <- X. apply pre_refl. }
  assert (RJ : pre (t ++ [k]) (name_of (hp s1) j)) by (destruct P1 as (_ & _ & ->); apply pre_refl).
  pose proof (mark_keeps wo rnd (pre (t ++ [k])) s1 j p W1 RJ NA) as (W2 & F2 & _). pose proof (mark_held wo ro keq s1 j p s' (reg s (t ++ [k])) j v E HJ) as HJ'.
  rewrite E in W2, F2. cbn [fst] in W2, F2.
  assert (FF : frame (pre (t ++ [k])) s s') by (eapply frame_trans; eassumption).
  assert (NT : ~ pre (t ++ [k]) t) by apply pre_snoc_self.
  assert (AT : at_target s' t i) by (apply (at_target_frame wo rnd _ _ _ _ _ FF NT); repeat split; assumption).
  split; [exact W2|]. split; [exact FF|]. split; [exact AT|]. split; [destruct (f_obj _ _ _ _ _ FF i A1) as (_ & _ & ->); exact G|].
  split; [apply (f_keep _ _ _ _ _ FF i A2); rewrite A3; exact NT|].
  split.
  - intros k' N. apply (other_link wo rnd s s' t i k k'); auto. repeat split; assumption.
  - exists j. split; [|split; [exact HJ'|eapply spot_eqv; [exact (mark_eqv wo s1 j p s' E)|exact SJ]]]. apply (child_link wo s' t); auto.
    assert (X : hp s1 j <> None) by apply P1. destruct P1 as (_ & P2 & P3).
    destruct (f_obj _ _ _ _ _ F2 j X) as (Y1 & Y2 & _). split; [exact Y1|]. split; [|congruence].
    destruct HJ' as (Q & v' & Qj & CQ & _). apply (CQ j Qj).
Qed.
Lemma members_over t i p kvs : forall s s' u, wf s -> at_target s t i -> is_group (hp s) i = true -> unreserved s t ->
  NoDup (map fst kvs) -> (forall k v, In (k, v) kvs -> spare s i k v) -> Forall (fun kv => fst kv = [] \/ clean (fst kv)) kvs ->
  Forall storable (map snd kvs) -> iterM (write_item wo wr i p) kvs s = (s', Ok u) ->
  wf s' /\ frame (keys_of kvs t) s s' /\ at_target s' t i /\ is_group (hp s') i = true /\ attrs_of (hp s') i = attrs_of (hp s) i /\
  (forall k', ~ In k' (map fst kvs) -> lookup (hp s') i k' = lookup (hp s) i k') /\
  Forall (fun kv => exists j, lookup (hp s') i (fst kv) = Some j /\ held (hp s') (reg s (t ++ [fst kv])) j (snd kv) /\ spot (hp s') j (snd kv)) kvs.
Proof.
  induction kvs as [|[k v] kvs IH]; intros s s' u W A G U N L C V E; cbn [iterM] in E.
  - apply ret_ok in E. destruct E as [-> _]. split; [exact W|]. split; [apply frame_refl; exact W|]. split; [exact A|]. split; [exact G|]. split; [reflexivity|]. split; [reflexivity|constructor].
  - apply bind_ok in E. destruct E as (s1 & u1 & E1 & E). cbn [map fst snd] in *. inversion N as [|? ? N1 N2]; subst. inversion C as [|? ? C1 C2]; subst. inversion V as [|? ? V1 V2]; subst. cbn [fst] in C1.
    destruct (item_over s t i p k v s1 u1 W A G U (L k v (or_introl eq_refl)) C1 V1 E1) as (W1 & F1 & A1 & G1 & T1 & L1 & j & J1 & J2 & J3).
    assert (U1 : unreserved s1 t) by (eapply unreserved_frame; eassumption).
    destruct (IH s1 s' u W1 A1 G1 U1 N2) as (W2 & F2 & A2 & G2 & T2 & L2 & H2); auto.
    { intros k' v' Hk. assert (NE : k' <> k) by (intros ->; apply N1; apply in_map_iff; exists (k, v'); auto).
      apply (spare_frame (pre (t ++ [k])) s s1 t i k' v' W F1 U A (L1 k' NE)); [|apply L; right; exact Hk]. intros q Hq. eapply siblings; eassumption. }
    split; [exact W2|]. split.
    { eapply frame_trans; [|eapply frame_sub; [exact F2|]|exact W].
      - eapply frame_sub; [exact F1|]. intros q Pq. exists k. split; [left; reflexivity|exact Pq].
      - intros q (k' & Hk & Pq). exists k'. split; [right; exact Hk|exact Pq]. }
    split; [exact A2|]. split; [exact G2|]. split; [congruence|]. split.
    { intros k' Hk. cbn in Hk. rewrite L2 by tauto. apply L1. intros ->. tauto. }
    constructor.
    + cbn [fst snd]. exists j. split; [rewrite L2; assumption|]. split.
      * eapply held_frame; [exact F2| |exact J2].
        intros q Hq. assert (CC : forall k2, In k2 (map fst kvs) -> clear wo (reg s (t ++ [k])) (pre (t ++ [k2]))).
        { intros k2 H. apply member_clear; [exact U|]. intros ->. exact (N1 H). }
        destruct (Hq : reg s (t ++ [k]) q) as [Hp|Hp].
        -- split; [intros (k2 & K1 & K2); apply (proj1 (CC k2 K1 q Hq) K2)|]. split; [intros x (k2 & K1 & K2); apply (proj1 (proj2 (CC k2 K1 q Hq)) x K2)|].
           intros P. apply (not_refs wo rnd s t U). eapply pre_snoc. eapply pre_trans; eassumption.
        -- split; [intros (k2 & K1 & K2); apply (proj1 (CC k2 K1 q Hq) K2)|]. split; [intros x (k2 & K1 & K2); apply (proj1 (proj2 (CC k2 K1 q Hq)) x K2)|].
           apply (elem_clear0 wo rnd s q Hp).
      * apply (spot_frame wo wo rnd _ s1 s' j v W1 F2 J3 (t ++ [k])); [apply (link_child wo s1 t i); assumption|]. intros q Hq. split.
        -- intros (k2 & K1 & K2). revert K2. apply (siblings t k k2); [|exact Hq]. intros ->. exact (N1 K1).
        -- intros P. apply (not_refs wo rnd s t U). eapply pre_snoc. eapply pre_trans; eassumption.
    + eapply Forall_impl; [|exact H2]. cbn. intros kv (j' & X1 & X2 & X3). exists j'. split; [exact X1|]. split; [|exact X3]. eapply held_weaken; [exact X2|].
      intros q [Hq|Hq]; [left; exact Hq|right; eapply elem_mono; eassumption].
Qed.

(** removing members *)
Lemma unlinks t i ks : forall s s' u, wf s -> at_target s t i -> is_group (hp s) i = true -> unreserved s t -> iterM (fun k => unlink_at i [k]) ks s = (s', Ok u) ->
  wf s' /\ frame (pre t) s s' /\ at_target s' t i /\ is_group (hp s') i = true /\ attrs_of (hp s') i = attrs_of (hp s) i /\
  (forall k, In k ks -> lookup (hp s') i k = None) /\ (forall k, ~ In k ks -> lookup (hp s') i k = lookup (hp s) i k) /\
  (forall k w, ~ In k ks -> spare s i k w -> spare s' i k w).
Proof.
  induction ks as [|k ks IH]; intros s s' u W A G U E; cbn [iterM] in E.
  - apply ret_ok in E. destruct E as [-> _]. split; [exact W|]. split; [apply frame_refl; exact W|]. repeat (split; [assumption || reflexivity|]). split; [intros k []|]. split; auto.
  - apply bind_ok in E. destruct E as (s1 & u1 & E1 & E). destruct A as (A1 & A2 & A3).
    destruct (lookup (hp s) i k) as [j|] eqn:L; [|cbn [unlink_at] in E1; rewrite L in E1; discriminate].
    rewrite (unlink_at1 i k s G) in E1 by congruence. injection E1 as <- _.
    assert (F1 : frame (pre (t ++ [k])) s (set_hp s (rm_link (hp s) i k))) by (apply frame_unlink; auto; rewrite A3; auto).
    assert (W1 : wf (set_hp s (rm_link (hp s) i k))).
    { apply wf_unlink; auto. rewrite A3. intros P. apply (proj1 U). eapply pre_snoc. exact P. }
    set (s1 := set_hp s (rm_link (hp s) i k)) in *.
    assert (AT : at_target s1 t i) by (apply (at_target_frame wo rnd _ _ _ _ _ F1 (pre_snoc_self t k)); repeat split; assumption).
    assert (G1 : is_group (hp s1) i = true) by (unfold s1; cbn [hp set_hp]; rewrite rm_group; assumption).
    assert (U1 : unreserved s1 t) by (eapply unreserved_frame; eassumption).
    assert (LK : forall k', lookup (hp s1) i k' = if eqb_str k' k then None else lookup (hp s) i k') by (intros k'; unfold s1; cbn [hp set_hp]; rewrite rm_lookup, Nat.eqb_refl; reflexivity).
    destruct (IH s1 s' u W1 AT G1 U1 E) as (W2 & F2 & A2' & G2 & T2 & D2 & L2 & S2).
    split; [exact W2|]. split.
    { eapply frame_trans; [|exact F2|exact W]. eapply frame_sub; [exact F1|]. intros q Hq. eapply pre_snoc. exact Hq. }
    split; [exact A2'|]. split; [exact G2|]. split; [rewrite T2; unfold s1; cbn [hp set_hp]; apply rm_attrs|]. split; [|split].
    + intros k' Hk. destruct (in_dec (list_eq_dec N.eq_dec) k' ks) as [H|H]; [apply D2; exact H|]. rewrite L2 by exact H. destruct Hk as [-> |Hk]; [|destruct (H Hk)]. rewrite LK, eqb_str_refl. reflexivity.
    + intros k' Hk. cbn [In] in Hk. rewrite L2 by tauto. rewrite LK. destruct (eqb_str_spec k' k) as [->|]; [tauto|reflexivity].
    + intros k' w Hk Sp. cbn [In] in Hk. apply S2; [tauto|].
      apply (spare_frame (pre (t ++ [k])) s s1 t i k' w W F1 U); auto; [repeat split; assumption| |].
      * rewrite LK. destruct (eqb_str_spec k' k) as [->|]; [tauto|reflexivity].
      * intros q Hq. apply (siblings t k' k); [|exact Hq]. intros ->. tauto.
Qed.
Lemma links_lookup s i k : In k (map fst (Hdf5.links (hp s) i)) -> lookup (hp s) i k <> None.
Proof.
  intros H X. unfold lookup in X. apply in_map_iff in H. destruct H as ([k' m] & <- & Hm). cbn [fst] in X. clear - Hm X.
  induction (Hdf5.links (hp s) i) as [|[x y] l IH]; [exact Hm|]. cbn [assoc] in X. destruct (eqb_str_spec k' x) as [->|N]; [discriminate|]. destruct Hm as [Hm|Hm]; [congruence|auto].
Qed.
Lemma lookup_links s i k j : lookup (hp s) i k = Some j -> In k (map fst (Hdf5.links (hp s) i)).
Proof. intros H. unfold lookup in H. apply assoc_In in H. apply in_map_iff. exists (k, j). auto. Qed.

(** what is there when the members are written *)
Lemma dict_over s g nm w items ts plain s' r : wf s -> okt s g nm -> spare s g nm w -> unreserved s (name_of (hp s) g ++ [nm]) -> storable w ->
  dict_form w = Some (items, ts, plain) -> dict_write wo wr g nm items ts plain s = (s', Ok r) ->
  dict_left wo ro keq rnd s g nm items ts plain s' r /\ exists i, r = Some i /\ spot (hp s') i w.
Proof.
  intros W K SP U V DF E. destruct (form_parts wo ro keq HP w items ts plain V DF) as (N & C & VS & TA & CA & NA).
  set (t := name_of (hp s) g ++ [nm]) in *. unfold dict_write in E. cbv zeta in E. fold (dict_kvs items) in E.
  set (kvs := dict_kvs items) in *. set (codes := key_codes (map fst items)) in *.
  apply bind_ok in E. destruct E as (s1 & i & E1 & E).
  (* the Group *)
  assert (E1' : wf s1 /\ frame (pre t) s s1 /\ at_target s1 t i /\ exists ob ls, hp s1 i = Some ob /\ o_body ob = BGroup ls /\
     (forall a', (forall k, a' k = fresh_attrs (dict_attrs wo ts plain codes) k \/ exists q old, In (k, q) (dict_attrs wo ts plain codes) /\ o_attrs ob k = Some old /\ a' k = Some old /\ ~ replaceable k q old) ->
       dict_marks wo a' ts plain codes) /\
     (codes = None \/ o_delete_unused wo = true \/ forall k, In k (map fst ls) -> In k (map fst kvs)) /\
     (forall k v, In (k, v) kvs -> spare s1 i k v)).
  { unfold open_group in E1. apply bind_ok in E1. destruct E1 as (sa & x & Ea & E1).
    destruct (get_name g nm s (WriteFrame.k_name _ _ _ _ K)) as [[e X]|(_ & _ & X)]; rewrite X in Ea; [discriminate|]. injection Ea as <- <-.
    assert (FR : forall ob, o_attrs ob = no_attrs -> o_body ob = BGroup [] -> hp s1 i = Some ob ->
       exists ob ls, hp s1 i = Some ob /\ o_body ob = BGroup ls /\
     (forall a', (forall k, a' k = fresh_attrs (dict_attrs wo ts plain codes) k \/ exists q old, In (k, q) (dict_attrs wo ts plain codes) /\ o_attrs ob k = Some old /\ a' k = Some old /\ ~ replaceable k q old) ->
       dict_marks wo a' ts plain codes) /\
     (codes = None \/ o_delete_unused wo = true \/ forall k, In k (map fst ls) -> In k (map fst kvs)) /\
     (forall k v, In (k, v) kvs -> spare s1 i k v)).
    { intros ob Oa Ob Oi. exists ob, []. split; [exact Oi|]. split; [exact Ob|]. split; [|split].
      - intros a' Ha. assert (Y : forall k, a' k = fresh_attrs (dict_attrs wo ts plain codes) k) by (intros k; destruct (Ha k) as [Y|(q & old & _ & Y & _)]; [exact Y|rewrite Oa in Y; discriminate Y]).
        split; [intros k _; apply Y|left; apply Y].
      - right. right. intros k [].
      - intros k v _. left. unfold lookup, Hdf5.links. rewrite Oi, Ob. reflexivity. }
    destruct (lookup (hp s) g nm) as [j|] eqn:LJ.
    - apply bind_ok in E1. destruct E1 as (s0 & y & Ey & E1). apply gets_ok in Ey. destruct Ey as [-> ->]. destruct (is_group (hp s) j) eqn:GJ.
      + apply ret_ok in E1. destruct E1 as [-> ->]. split; [exact W|]. split; [apply frame_refl; exact W|].
        pose proof (found_target wo s g nm j W K LJ) as AJ. fold t in AJ. split; [exact AJ|].
        destruct SP as [SP|[(j' & S1 & S2)|(j' & v & S1 & S2 & S3 & S4)]]; [congruence|rewrite LJ in S1; injection S1 as <-; rewrite (bare_flat _ _ S2) in GJ; discriminate|]. rewrite LJ in S1. injection S1 as <-.
        destruct S2 as [j v c a ts0 ob d f b ty F0 SF T1 T2 T3 T4 T5 T6|j c a fs ob ls m D SG T1 T2 T3 TU T4 T5 T6 T7|j v items0 ts0 plain0 ob ls m DF0 T1 T2 T3 T4 T5 T6 T7].
        * exfalso. unfold is_group in GJ. rewrite T1, T2 in GJ. discriminate.
        * exfalso. assert (GW : grouped wo w) by (destruct w; try discriminate DF; exact I). assert (GV : grouped wo (VNp c a)) by (cbn [grouped]; rewrite SG, D; reflexivity).
          clear - S4 GW GV DF. inversion S4; subst; try tauto. discriminate DF.
        * destruct (replaces_fits wo ro keq HP v w items0 ts0 plain0 items ts plain S3 V S4 DF0 DF) as (-> & -> & [X1 X2 X3 X4]). fold kvs in X3, X4. fold codes in X1, X2, X4.
          destruct (form_parts wo ro keq HP v items0 ts plain S3 DF0) as (_ & _ & VS0 & _ & CA0 & _).
          exists ob, ls. split; [exact T1|]. split; [exact T2|]. split; [|split].
          -- intros a' Ha. apply (marks_over wo ts plain (key_codes (map fst items0)) codes (o_attrs ob) a'); assumption.
          -- destruct X4 as [X4|[X4|X4]]; auto.
          -- intros k0 v0 Hk. destruct (lookup (hp s) j k0) as [j0|] eqn:L0; [|left; exact L0]. right. right.
             assert (Hk0 : In k0 (map fst (dict_kvs items0))). { apply T5. pose proof (lookup_links _ _ _ _ L0) as Y. unfold Hdf5.links in Y. rewrite T1, T2 in Y. exact Y. }
             apply in_map_iff in Hk0. destruct Hk0 as ([k1 w0] & <- & Hk0). cbn [fst] in *. exists j0, w0. split; [exact L0|].
             pose proof (T6 _ _ Hk0) as T6'. rewrite L0 in T6'. injection T6' as ->. split; [apply (T7 _ _ Hk0)|].
             split; [|eapply X3; eassumption]. rewrite Forall_map, Forall_forall in VS0. exact (VS0 _ Hk0).
      + apply bind_ok in E1. destruct E1 as (s0 & [] & Ey & E1). destruct (unlink_keeps wo rnd s g nm W K) as (W0 & F0 & _). rewrite Ey in *. cbn [fst] in *.
        destruct (okt_frame wo rnd _ _ _ _ _ W F0 (okt_own s g nm) K) as [K0 N0].
        destruct (fresh_link wo rnd s0 g nm no_attrs (BGroup []) s1 i W0 K0 eq_refl E1) as (W1 & F1 & A1 & O1). rewrite N0 in *. fold t in F0, F1, A1, O1.
        split; [exact W1|]. split; [eapply frame_trans; eassumption|]. split; [exact A1|]. eapply FR; [| |exact O1]; reflexivity.
    - destruct (fresh_link wo rnd s g nm no_attrs (BGroup []) s1 i W K eq_refl E1) as (W1 & F1 & A1 & O1). split; [exact W1|]. split; [exact F1|]. split; [exact A1|]. eapply FR; [| |exact O1]; reflexivity. }
  destruct E1' as (W1 & F1 & A1 & ob0 & ls0 & O1 & OB1 & DM & PC & SP1).
  (* the attributes *)
  apply bind_ok in E. destruct E as (s2 & [] & E2 & E).
  destruct (sync_general s1 i ob0 _ s2 O1 NA E2) as (at_ & -> & HA). specialize (DM at_ HA). clear HA. set (ob := with_attrs ob0 at_) in *.
  set (s2 := set_hp s1 (upd (hp s1) i ob)) in *. destruct A1 as (B1 & B2 & B3).
  assert (U1 : unreserved s1 t) by (eapply unreserved_frame; [exact F1|exact U]).
  assert (O2 : hp s2 i = Some ob) by apply upd_same.
  assert (OB2 : o_body ob = BGroup ls0) by exact OB1.
  assert (SK : same_kind (o_body ob0) (o_body ob)) by (rewrite OB1, OB2; reflexivity).
  assert (W2 : wf s2).
  { eapply wf_change; [exact W1|exact O1|reflexivity|exact SK|rewrite B3; intros X; apply (proj1 U); rewrite X; apply pre_refl|]. intros d f j Y. rewrite OB2 in Y. discriminate Y. }
  assert (F2 : frame (eq t) s1 s2) by (eapply frame_change; [exact W1|exact O1|reflexivity|exact SK|symmetry; exact B3]).
  assert (A2 : at_target s2 t i).
  { split; [rewrite O2; discriminate|]. split; [unfold s2; cbn [hp set_hp]; rewrite (change_live s1 i _ ob O1 eq_refl SK); exact B2|].
    unfold s2. cbn [hp set_hp]. rewrite (mod_name _ _ _ ob O1 eq_refl). exact B3. }
  assert (LK2 : forall k, lookup (hp s2) i k = lookup (hp s1) i k) by (intros k; unfold lookup, Hdf5.links; rewrite O2, O1, OB1, OB2; reflexivity).
  assert (G2 : is_group (hp s2) i = true) by (unfold is_group; rewrite O2, OB2; reflexivity).
  assert (SP2 : forall k v, In (k, v) kvs -> spare s2 i k v).
  { intros k v Hk. apply (spare_frame (eq t) s1 s2 t i k v W1 F2 U1); auto; [repeat split; assumption|]. intros p Hp <-. exact (pre_snoc_self t k Hp). }
  assert (F12 : frame (pre t) s s2) by (eapply frame_trans; [exact F1|eapply frame_sub; [exact F2|]|exact W]; intros p <-; apply pre_refl).
  assert (U2 : unreserved s2 t) by (eapply unreserved_frame; [exact F12|exact U]).
  assert (LS2 : Hdf5.links (hp s2) i = ls0) by (unfold Hdf5.links; rewrite O2, OB2; reflexivity).
  (* the members that are gone *)
  apply bind_ok in E. destruct E as (s3 & [] & E3 & E).
  assert (E3' : wf s3 /\ frame (pre t) s2 s3 /\ at_target s3 t i /\ is_group (hp s3) i = true /\ attrs_of (hp s3) i = attrs_of (hp s2) i /\
     (forall k, ~ In k (map fst kvs) -> lookup (hp s3) i k = None) /\ (forall k v, In (k, v) kvs -> spare s3 i k v)).
  { destruct (match codes with Some _ => false | None => true end || o_delete_unused wo) eqn:PB.
    - unfold prune in E3. rewrite LS2 in E3. destruct (unlinks t i _ s2 s3 tt W2 A2 G2 U2 E3) as (Y1 & Y2 & Y3 & Y4 & Y5 & Y6 & Y7 & Y8).
      assert (IK : forall k, In k (filter (fun k => negb (mem_str k (map fst kvs))) (map fst ls0)) <-> In k (map fst ls0) /\ ~ In k (map fst kvs)).
      { intros k. rewrite filter_In, negb_true_iff. split; intros [H1 H2]; (split; [exact H1|]); [intros X; apply mem_str_In in X; congruence|]. destruct (mem_str k (map fst kvs)) eqn:M; [apply mem_str_In in M; tauto|reflexivity]. }
      split; [exact Y1|]. split; [exact Y2|]. split; [exact Y3|]. split; [exact Y4|]. split; [exact Y5|]. split.
      + intros k Hk. destruct (in_dec (list_eq_dec N.eq_dec) k (map fst ls0)) as [H|H]; [apply Y6, IK; auto|].
        rewrite Y7 by (rewrite IK; tauto). destruct (lookup (hp s2) i k) as [j|] eqn:L; [|reflexivity]. destruct H. rewrite <- LS2. eapply lookup_links. exact L.
      + intros k v Hk. apply Y8; [|apply SP2; exact Hk]. rewrite IK. intros [_ H]. apply H. apply in_map_iff. exists (k, v). auto.
    - apply ret_ok in E3. destruct E3 as [-> _]. split; [exact W2|]. split; [apply frame_refl; exact W2|]. split; [exact A2|]. split; [exact G2|]. split; [reflexivity|]. split; [|exact SP2].
      apply orb_false_iff in PB. destruct PB as [PB1 PB2]. destruct PC as [PC|[PC|PC]]; [rewrite PC in PB1; discriminate|congruence|].
      intros k Hk. destruct (lookup (hp s2) i k) as [j|] eqn:L; [|reflexivity]. destruct Hk. apply PC. rewrite <- LS2. eapply lookup_links. exact L. }
  destruct E3' as (W3 & F3 & A3 & G3 & T3 & L3 & SP3).
  apply bind_ok in E. destruct E as (s4 & p & E4 & E). apply gets_ok in E4. destruct E4 as [-> Ep].
  apply bind_ok in E. destruct E as (s5 & [] & E5 & E).
  assert (s5 = s3) as ->.
  { destruct (o_matlab_compatible wo); [|apply ret_ok in E5; tauto]. apply bind_ok in E5. destruct E5 as (s6 & b & E5 & E6). apply lift_ok in E5. destruct E5 as [-> _]. apply ret_ok in E6. tauto. }
  (* the members *)
  apply bind_ok in E. destruct E as (s6 & [] & E6 & E). apply ret_ok in E. destruct E as [-> ->].
  assert (F13 : frame (pre t) s s3) by (eapply frame_trans; eassumption).
  assert (U3 : unreserved s3 t) by (eapply unreserved_frame; [exact F13|exact U]).
  destruct (members_over t i p kvs s3 s6 tt W3 A3 G3 U3 N) as (W6 & F6 & A6 & G6 & T6 & L6 & H6); auto.
  assert (RM : forall k q, reg s3 (t ++ [k]) q -> reg s t q).
  { intros k q Hq. apply reg_member in Hq. destruct Hq as [Hq|Hq]; [left; exact Hq|right]. eapply elem_mono; [exact F13|exact Hq]. }
  assert (DM6 : dict_marks wo (attrs_of (hp s6) i) ts plain codes) by (rewrite T6, T3; unfold attrs_of; rewrite O2; exact DM).
  assert (LS6 : forall k, In k (map fst (Hdf5.links (hp s6) i)) -> In k (map fst kvs)).
  { intros k Hk. destruct (in_dec (list_eq_dec N.eq_dec) k (map fst kvs)) as [H|H]; [exact H|]. exfalso. apply (links_lookup _ _ _ Hk). rewrite L6 by exact H. apply L3. exact H. }
  split.
  - destruct (dict_tail wo ro keq rnd HP s t s6 i ts plain items U W6 A6 G6 DM6) as (ob' & ls & Q & js & vs' & X); [exact LS6| |].
    + fold kvs. eapply Forall_impl; [|exact H6]. cbn beta. intros kv (j & J1 & J2 & _). exists j. split; [exact J1|]. eapply held_weaken; [exact J2|]. apply RM.
    + exists i, ob', ls, Q, js, vs'. split; [reflexivity|exact X].
  - exists i. split; [reflexivity|]. destruct A6 as (D1 & D2 & D3). destruct (hp s6 i) as [ob'|] eqn:O6; [|congruence].
    unfold is_group in G6. rewrite O6 in G6. destruct (o_body ob') as [|ls] eqn:B6; [discriminate|].
    assert (LL : Hdf5.links (hp s6) i = ls) by (unfold Hdf5.links; rewrite O6, B6; reflexivity). unfold attrs_of in DM6. rewrite O6 in DM6. destruct DM6 as [M1 M2].
    rewrite Forall_forall in H6.
    apply (P_group wo (hp s6) i w items ts plain ob' ls (fun k => match lookup (hp s6) i k with Some j => j | None => 0 end)); auto.
    + destruct M2 as [M2|(cs & b & M2 & M3 & M4 & M5 & M6)]; [left; exact M2|right; exists cs, b; auto].
    + rewrite <- LL. exact LS6.
    + intros k v Hk. destruct (H6 _ Hk) as (j & J1 & _). cbn [fst] in J1. rewrite J1. reflexivity.
    + intros k v Hk. destruct (H6 _ Hk) as (j & J1 & _ & J2). cbn [fst snd] in J1, J2. rewrite J1. exact J2.
Qed.

(** ** writing a structured array over one of the same type *)
Hypothesis Hcs : cspec wo ro keq rnd wr.
Lemma fields_over t i (b a0 : arr pyval) (l : nfields) : forall s s' u, wf s -> at_target s t i -> is_group (hp s) i = true -> unreserved s t ->
  length (a_data b) = prod (a_shape b) -> prod (a_shape b) <> 0 -> a_shape b = a_shape (write_dims wo a0) ->
  NoDup (map nkey l) -> (prod (a_shape b) = 1 -> forall nf x, In nf l -> In x (column (fst nf) (snd (snd nf)) (a_data b)) -> spare s i (nkey nf) x) -> Forall (fun nf => fst (snd nf) <> []) l ->
  Forall (fun nf => Forall storable (column (fst nf) (snd (snd nf)) (a_data b))) l -> iterM (write_field wo wr i b) l s = (s', Ok u) ->
  wf s' /\ frame (nkeys l t) s s' /\ at_target s' t i /\ is_group (hp s') i = true /\ attrs_of (hp s') i = attrs_of (hp s) i /\
  (forall k', ~ In k' (map nkey l) -> lookup (hp s') i k' = lookup (hp s) i k') /\
  Forall (fun nf => exists j, lookup (hp s') i (nkey nf) = Some j /\
     field_at ro keq (prod (a_shape b) =? 1) (hp s') (reg s (t ++ [nkey nf])) j (a_shape b) (column (fst nf) (snd (snd nf)) (a_data b)) /\
     (prod (a_shape b) = 1 -> forall x, In x (column (fst nf) (snd (snd nf)) (a_data b)) -> spot (hp s') j x) /\ (prod (a_shape b) <> 1 -> bare (hp s') j)) l.
Proof.
  induction l as [|[n [name f]] l IH]; intros s s' u W A G U LB NZ SB N L C V E; cbn [iterM] in E.
  - apply ret_ok in E. destruct E as [-> _]. split; [exact W|]. split; [apply frame_refl; exact W|]. split; [exact A|]. split; [exact G|]. split; [reflexivity|]. split; [reflexivity|constructor].
  - apply bind_ok in E. destruct E as (s1 & u1 & E1 & E). cbn [map] in *. inversion N as [|? ? N1 N2]; subst. inversion C as [|? ? C1 C2]; subst. inversion V as [|? ? V1 V2]; subst. cbn [fst snd] in C1, V1.
    change (nkey (n, (name, f))) with (escaped name) in *.
    assert (WR : prod (a_shape b) = 1 -> forall x s1 r, In x (column n f (a_data b)) -> wr i (escaped name) x s = (s1, Ok r) ->
       exists j, r = Some j /\ held (hp s1) (reg s (t ++ [escaped name])) j x /\ spot (hp s1) j x).
    { intros P1 x s0 r Hx Ex. pose proof A as (A1 & A2 & A3). rewrite <- A3. apply Hov with (v := x); auto.
      - destruct (unreserved_member wo rnd s t (escaped name) U) as [U1 U2]. assert (CL : escaped name = [] \/ clean (escaped name)) by (right; apply escaped_clean; exact C1). constructor; rewrite ?A3; auto. intros y P F. apply (U2 y P), futc_fut. exact F.
      - apply (L P1 (n, (name, f)) x (or_introl eq_refl) Hx).
      - rewrite A3. apply unreserved_member. exact U.
      - rewrite Forall_forall in V1. apply V1. exact Hx. }
    destruct (field_gen wo ro keq rnd wr Hwr Hcs s t i b a0 n name f s1 u1 W A G U) as (W1 & F1 & A1 & G1 & T1 & L1 & j & J1 & J2 & J3 & J4); auto.
    { intros P1 x s0 r Hx Ex. destruct (WR P1 x s0 r Hx Ex) as (j & X1 & X2 & _). eauto. }
    assert (U1 : unreserved s1 t) by (eapply unreserved_frame; eassumption).
    destruct (IH s1 s' u W1 A1 G1 U1 LB NZ SB N2) as (W2 & F2 & A2 & G2 & T2 & L2 & H2); auto.
    { intros P1 nf x Hnf Hx. assert (NE : nkey nf <> escaped name) by (intros X; apply N1; rewrite <- X; apply in_map; exact Hnf).
      apply (spare_frame (pre (t ++ [escaped name])) s s1 t i (nkey nf) x W F1 U A (L1 _ NE)); [|apply (L P1 nf x); [right|]; assumption]. intros q Hq. eapply siblings; eassumption. }
    split; [exact W2|]. split.
    { eapply frame_trans; [|eapply frame_sub; [exact F2|]|exact W].
      - eapply frame_sub; [exact F1|]. intros q Pq. exists (escaped name). split; [left; reflexivity|exact Pq].
      - intros q (k' & Hk & Pq). exists k'. split; [right; exact Hk|exact Pq]. }
    split; [exact A2|]. split; [exact G2|]. split; [congruence|]. split.
    { intros k' Hk. cbn [In] in Hk. rewrite L2 by tauto. apply L1. intros ->. apply Hk. left. reflexivity. }
    assert (NR : forall q, pre (t ++ [escaped name]) q -> ~ nkeys l t q).
    { intros q Hq (k2 & K1 & K2). revert K2. apply (siblings t (escaped name) k2); [|exact Hq]. intros <-. exact (N1 K1). }
    constructor.
    + cbn [fst snd]. change (nkey (n, (name, f))) with (escaped name). exists j. split; [rewrite L2; assumption|]. split; [|split].
      * eapply field_frame; [exact F2| |exact J2].
        intros q Hq. assert (CC : forall k2, In k2 (map nkey l) -> clear wo (reg s (t ++ [escaped name])) (pre (t ++ [k2]))).
        { intros k2 H. apply member_clear; [exact U|]. intros <-. exact (N1 H). }
        destruct (Hq : reg s (t ++ [escaped name]) q) as [Hp|Hp].
        -- split; [intros (k2 & K1 & K2); apply (proj1 (CC k2 K1 q Hq) K2)|]. split; [intros x (k2 & K1 & K2); apply (proj1 (proj2 (CC k2 K1 q Hq)) x K2)|].
           intros P. apply (not_refs wo rnd s t U). eapply pre_snoc. eapply pre_trans; eassumption.
        -- split; [intros (k2 & K1 & K2); apply (proj1 (CC k2 K1 q Hq) K2)|]. split; [intros x (k2 & K1 & K2); apply (proj1 (proj2 (CC k2 K1 q Hq)) x K2)|].
           apply (elem_clear0 wo rnd s q Hp).
      * intros P1 x Hx. destruct (J3 P1) as (y & s0 & Y1 & Y2 & Y3). rewrite Y1 in Hx. destruct Hx as [->|[]].
        destruct (WR P1 x s0 (Some j)) as (j' & [= <-] & _ & Z); [rewrite Y1; left; reflexivity|exact Y2|].
        apply (spot_frame wo wo rnd _ s1 s' j x W1 F2) with (t := t ++ [escaped name]); [eapply spot_eqv; eassumption|apply (link_child wo s1 t i); eassumption|].
        intros q Hq. split; [apply NR; exact Hq|]. intros P. apply (not_refs wo rnd s t U). eapply pre_snoc. eapply pre_trans; eassumption.
      * intros P1. eapply bare_frame; [exact F2|apply (link_child wo s1 t i); eassumption|apply NR, pre_refl|exact (J4 P1)].
    + eapply Forall_impl; [|exact H2]. cbn beta. intros nf (j' & X1 & X2 & X3). exists j'. split; [exact X1|]. split; [|exact X3]. eapply field_at_same; [exact X2| |auto].
      intros q [Hq|Hq]; [left; exact Hq|right; eapply elem_mono; eassumption].
Qed.
Lemma first_std c a ts : Forall (std c a ts) (struct_first wo).
Proof. unfold struct_first. destruct (o_matlab_compatible wo); constructor; [|constructor]. unfold std. cbn [fst snd]. tauto. Qed.
Lemma struct_over s g nm c a fs s' r : wf s -> okt s g nm -> spare s g nm (VNp c a) -> unreserved s (name_of (hp s) g ++ [nm]) -> struct_obj c a fs ->
  (o_matlab_compatible wo = true -> o_struct_as_struct wo = true /\ o_structs_as_dicts ro = false) -> stored_as_group wo (a_dt a) = true ->
  (forall n f, nth_error fs n = Some f -> keeps_type (snd f) (field_values n (snd f) a)) ->
  (forall n f x, nth_error fs n = Some f -> In x (field_values n (snd f) a) -> storable x) ->
  write_value wo rnd tries wr g nm (VNp c a) s = (s', Ok r) -> exists i, r = Some i /\ held (hp s') (reg s (name_of (hp s) g ++ [nm])) i (VNp c a) /\ spot (hp s') i (VNp c a).
Proof.
  intros W K SP U SO MC SG HK HS E. set (t := name_of (hp s) g ++ [nm]) in *.
  destruct (struct_parts wo ro rnd tries wr c a fs SO MC g nm s s' r SG E) as (s1 & i & -> & E1 & E2). clear E. exists i. split; [reflexivity|].
  set (ts := np_type c (a_dt a)) in *. set (reqs := np_attrs wo (c, a) ts (struct_first wo) true None) in *. set (b := write_dims wo a) in *.
  pose proof (st_dt _ _ _ SO) as DT. assert (DB : a_dt b = a_dt a) by apply write_dims_dt. assert (SF : struct_fields (a_dt b) = fs) by (rewrite DB, DT; reflexivity).
  destruct (struct_names_ok c a fs SO) as (NK & NE). destruct (st_some _ _ _ SO) as (NZ & _).
  assert (PB : prod (a_shape b) = prod (a_shape a)) by apply write_dims_prod.
  unfold write_struct in E1. cbv zeta in E1. rewrite SF in E1. fold (numbered fs) in E1. rewrite <- (struct_keys fs) in E1. clear SF. set (l := numbered fs) in *.
  apply bind_ok in E1. destruct E1 as (s2 & i' & EG & E1).
  assert (EG' : wf s2 /\ frame (pre t) s s2 /\ at_target s2 t i' /\ exists ob ls, hp s2 i' = Some ob /\ o_body ob = BGroup ls /\
     (forall at_, (forall k, at_ k = fresh_attrs reqs k \/ exists q old, In (k, q) reqs /\ o_attrs ob k = Some old /\ at_ k = Some old /\ ~ replaceable k q old) -> marks reqs at_) /\
     (o_delete_unused wo = true \/ forall k, In k (map fst ls) -> In k (map nkey l)) /\
     (prod (a_shape a) = 1 -> forall nf x, In nf l -> In x (field_values (fst nf) (snd (snd nf)) a) -> spare s2 i' (nkey nf) x)).
  { assert (FR : forall ob, o_attrs ob = no_attrs -> o_body ob = BGroup [] -> hp s2 i' = Some ob ->
       exists ob ls, hp s2 i' = Some ob /\ o_body ob = BGroup ls /\
     (forall at_, (forall k, at_ k = fresh_attrs reqs k \/ exists q old, In (k, q) reqs /\ o_attrs ob k = Some old /\ at_ k = Some old /\ ~ replaceable k q old) -> marks reqs at_) /\
     (o_delete_unused wo = true \/ forall k, In k (map fst ls) -> In k (map nkey l)) /\
     (prod (a_shape a) = 1 -> forall nf x, In nf l -> In x (field_values (fst nf) (snd (snd nf)) a) -> spare s2 i' (nkey nf) x)).
    { intros ob Oa Ob Oi. exists ob, []. split; [exact Oi|]. split; [exact Ob|]. split; [|split].
      - intros at_ Ha. apply marks_fresh. intros k. destruct (Ha k) as [Y|(q & x & _ & Hx & _)]; [exact Y|]. rewrite Oa in Hx. discriminate Hx.
      - right. intros k [].
      - intros _ nf x _ _. left. unfold lookup, Hdf5.links. rewrite Oi, Ob. reflexivity. }
    destruct (lookup (hp s) g nm) as [j|] eqn:LJ; [destruct (is_group (hp s) j) eqn:GJ|].
    - unfold open_group in EG. apply bind_ok in EG. destruct EG as (sa & x & Ea & EG).
      destruct (get_name g nm s (WriteFrame.k_name _ _ _ _ K)) as [[e X]|(_ & _ & X)]; rewrite X in Ea; [discriminate|]. injection Ea as <- <-. rewrite LJ in EG.
      apply bind_ok in EG. destruct EG as (s0 & y & Ey & EG). apply gets_ok in Ey. destruct Ey as [-> ->]. rewrite GJ in EG. apply ret_ok in EG. destruct EG as [-> ->].
      split; [exact W|]. split; [apply frame_refl; exact W|]. split; [exact (found_target wo s g nm j W K LJ)|].
      destruct SP as [SP|[(j' & S1 & S2)|(j' & v & S1 & S2 & S3 & S4)]]; [congruence|rewrite LJ in S1; injection S1 as <-; rewrite (bare_flat _ _ S2) in GJ; discriminate|]. rewrite LJ in S1. injection S1 as <-.
      assert (GW : grouped wo (VNp c a)) by (cbn [grouped]; rewrite SG, DT; reflexivity).
      destruct S2 as [j v c0 a0 ts0 ob d f b0 ty F0 SF0 T1 T2 T3 T4 T5 T6|j c0 a0 fs0 ob ls m D0 SG0 T1 T2 T3 TU T4 T5 T6 T7|j v items0 ts0 plain0 ob ls m DF0 T1 T2 T3 T4 T5 T6 T7].
      + exfalso. unfold is_group in GJ. rewrite T1, T2 in GJ. discriminate.
      + assert (GV : grouped wo (VNp c0 a0)) by (cbn [grouped]; rewrite SG0, D0; reflexivity).
        assert (CX : c0 = c /\ length (a_shape a0) = length (a_shape a) /\ (o_delete_unused wo = true \/ forall x, In x (map fst fs0) -> In x (map fst fs)) /\
           (prod (a_shape a0) = 1 -> prod (a_shape a) = 1 -> forall n f n' f' v w, nth_error fs0 n = Some f -> nth_error fs n' = Some f' -> fst f = fst f' ->
             In v (field_values n (snd f) a0) -> In w (field_values n' (snd f') a) -> replaces wo v w)).
        { clear - S4 GW GV DT D0. inversion S4 as [| | | | | | |c1 a1 a2 f1 f2 X1 X2 X3 X4 X5 X6 X7]; subst; try tauto. assert (f1 = fs0) by congruence. assert (f2 = fs) by congruence. subst f1 f2. auto. }
        destruct CX as (-> & LE & DU & RM). pose proof (struct_keys fs0) as KS0. pose proof (struct_keys fs) as KS. fold l in KS. set (l0 := numbered fs0) in *.
        exists ob, ls. split; [exact T1|]. split; [exact T2|]. split; [|split].
        * intros at_ HA. split.
          -- intros k NU. destruct (HA k) as [Y|(q & x & Hq & Hx & _ & NR)]; [exact Y|]. destruct NR.
             assert (NH : k <> h5path) by (eapply np_h5; [exact HP|apply first_std|exact Hq]). rewrite T3 in Hx by assumption.
             assert (TE : np_type c (a_dt a0) = ts) by (unfold ts; rewrite D0, DT; reflexivity). rewrite TE in Hx.
             apply (alike_but wo c a0 ts (struct_first wo) true None c a ts None k q x (p_meta _ _ HP) (first_std c a0 ts) (first_std c a ts) (np_type_ascii c (a_dt a)) eq_refl eq_refl); auto; [intros XU; destruct (NU XU)|].
             rewrite D0, DT. intros y z [Y|[_ ->]] [Z|[_ ->]]; try discriminate Y; try discriminate Z. reflexivity.
          -- destruct (HA under) as [Y|(q & x & _ & Hx & Hx' & _)]; [left; exact Y|right]. rewrite Hx', <- Hx. exact TU.
        * destruct DU as [DU|DU]; [left; exact DU|right]. intros k Hk. apply T4 in Hk. rewrite KS. rewrite KS0 in Hk. apply in_map_iff in Hk. destruct Hk as (x & <- & Hx). apply in_map. apply DU. exact Hx.
        * intros P1 nf x Hnf Hx. pose proof (numbered_nth _ _ Hnf) as NT.
          destruct (lookup (hp s) j (nkey nf)) as [j0|] eqn:LK0; [|left; exact LK0]. right.
          assert (H0 : exists nf0, In nf0 l0 /\ nkey nf0 = nkey nf).
          { pose proof (lookup_links _ _ _ _ LK0) as Y. unfold Hdf5.links in Y. rewrite T1, T2 in Y. apply T4 in Y. apply in_map_iff in Y. destruct Y as (nf0 & Y1 & Y2). eauto. }
          destruct H0 as (nf0 & H0 & KE). pose proof (numbered_nth _ _ H0) as NT0.
          assert (NE0 : fst (snd nf0) = fst (snd nf)) by (apply escaped_inj; exact KE).
          assert (LK1 : lookup (hp s) j (nkey nf) = Some (m (nkey nf0))) by (rewrite <- KE; apply T5; exact H0).
          destruct (Nat.eq_dec (prod (a_shape a0)) 1) as [P0|P0]; [|left; exists (m (nkey nf0)); split; [exact LK1|apply T7; assumption]]. right.
          assert (SV : exists y, In y (field_values (fst nf0) (snd (snd nf0)) a0) /\ storable y).
          { inversion S3 as [| | | | | | | | | | |c1 a1 NO| c1 a1 fs1 SO1 _ _ HS1 _| | | |]; subst.
            - exfalso. pose proof (obj_simple _ _ _ NO) as Y. rewrite D0 in Y. exact (match Y with end).
            - assert (fs1 = fs0) by (pose proof (st_dt _ _ _ SO1); congruence). subst fs1. pose proof (st_len _ _ _ SO1) as LA. unfold wf_arr in LA. rewrite P0 in LA.
              destruct (field_values (fst nf0) (snd (snd nf0)) a0) as [|y ys] eqn:FV; [exfalso; unfold field_values in FV; apply (f_equal (@length _)) in FV; rewrite column_length in FV; rewrite FV in LA; discriminate|].
              exists y. split; [left; reflexivity|]. apply (HS1 SG0 (fst nf0) (snd nf0) y NT0). rewrite FV. left. reflexivity. }
          destruct SV as (y & Y1 & Y2). exists (m (nkey nf0)), y. split; [exact LK1|]. split; [apply (T6 P0 nf0 y H0 Y1)|]. split; [exact Y2|].
          exact (RM P0 P1 (fst nf0) (snd nf0) (fst nf) (snd nf) y x NT0 NT NE0 Y1 Hx).
      + exfalso. assert (GV : grouped wo v) by (destruct v; try discriminate DF0; exact I). clear - S4 GW GV DF0. inversion S4; subst; try tauto. discriminate DF0.
    - assert (LG : forall i0, lookup (hp s) g nm = Some i0 -> is_group (hp s) i0 = false) by (intros i0 X; congruence).
      destruct (group_opened wo rnd s g nm s2 i' W K LG EG) as (X1 & X2 & X3 & X4). split; [exact X1|]. split; [exact X2|]. split; [exact X3|]. eapply FR; [| |exact X4]; reflexivity.
    - assert (LG : forall i0, lookup (hp s) g nm = Some i0 -> is_group (hp s) i0 = false) by (intros i0 X; congruence).
      destruct (group_opened wo rnd s g nm s2 i' W K LG EG) as (X1 & X2 & X3 & X4). split; [exact X1|]. split; [exact X2|]. split; [exact X3|]. eapply FR; [| |exact X4]; reflexivity. }
  destruct EG' as (W2 & F2 & A2 & ob0 & ls0 & O2 & OB2 & RA & LN & SP2).
  assert (L2 : Hdf5.links (hp s2) i' = ls0) by (unfold Hdf5.links; rewrite O2, OB2; reflexivity).
  apply bind_ok in E1. destruct E1 as (s3 & [] & E3 & E1).
  assert (G2 : is_group (hp s2) i' = true) by (unfold is_group; rewrite O2, OB2; reflexivity).
  assert (U2 : unreserved s2 t) by (eapply unreserved_frame; [exact F2|exact U]).
  assert (E3' : wf s3 /\ frame (pre t) s2 s3 /\ at_target s3 t i' /\ is_group (hp s3) i' = true /\ attrs_of (hp s3) i' = attrs_of (hp s2) i' /\
     (forall k, ~ In k (map nkey l) -> lookup (hp s3) i' k = None) /\
     (prod (a_shape a) = 1 -> forall nf x, In nf l -> In x (field_values (fst nf) (snd (snd nf)) a) -> spare s3 i' (nkey nf) x)).
  { destruct (o_delete_unused wo) eqn:DU.
    - unfold prune in E3. rewrite L2 in E3. destruct (unlinks t i' _ s2 s3 tt W2 A2 G2 U2 E3) as (Y1 & Y2 & Y3 & Y4 & Y5 & Y6 & Y7 & Y8).
      assert (IK : forall k, In k (filter (fun k => negb (mem_str k (map nkey l))) (map fst ls0)) <-> In k (map fst ls0) /\ ~ In k (map nkey l)).
      { intros k. rewrite filter_In, negb_true_iff. split; intros [H1 H2]; (split; [exact H1|]); [intros X; apply mem_str_In in X; congruence|]. destruct (mem_str k (map nkey l)) eqn:M; [apply mem_str_In in M; tauto|reflexivity]. }
      split; [exact Y1|]. split; [exact Y2|]. split; [exact Y3|]. split; [exact Y4|]. split; [exact Y5|]. split.
      + intros k Hk. destruct (in_dec (list_eq_dec N.eq_dec) k (map fst ls0)) as [H|H]; [apply Y6, IK; auto|].
        rewrite Y7 by (rewrite IK; tauto). destruct (lookup (hp s2) i' k) as [j|] eqn:L; [|reflexivity]. destruct H. rewrite <- L2. eapply lookup_links. exact L.
      + intros P1 nf x Hnf Hx. apply Y8; [|apply SP2; assumption]. rewrite IK. intros [_ H]. apply H. apply in_map. exact Hnf.
    - apply ret_ok in E3. destruct E3 as [-> _]. split; [exact W2|]. split; [apply frame_refl; exact W2|]. split; [exact A2|]. split; [exact G2|]. split; [reflexivity|]. split; [|exact SP2].
      destruct LN as [LN|LN]; [congruence|]. intros k Hk. destruct (lookup (hp s2) i' k) as [j|] eqn:L; [|reflexivity]. destruct Hk. apply LN. rewrite <- L2. eapply lookup_links. exact L. }
  destruct E3' as (W3 & F3 & A3 & G3 & T3 & L3 & SP3).
  assert (F13 : frame (pre t) s s3) by (eapply frame_trans; eassumption).
  assert (U3 : unreserved s3 t) by (eapply unreserved_frame; [exact F13|exact U]).
  apply bind_ok in E1. destruct E1 as (s4 & [] & E4 & E1). apply ret_ok in E1. destruct E1 as [-> ->].
  assert (WA : wf_arr a) by apply (st_len _ _ _ SO).
  destruct (fields_over t i' b a l s3 s4 tt W3 A3 G3 U3) as (W4 & F4 & A4 & G4 & T4 & L4 & H4); auto.
  { apply write_dims_wf. exact WA. }
  { rewrite PB. exact NZ. }
  { intros P1 nf x Hnf Hx. apply SP3; [congruence|exact Hnf|]. unfold field_values. apply (column_in wo); assumption. }
  { eapply Forall_impl; [|exact (struct_columns wo ro keq c a fs SO HK HS)]. cbn. tauto. }
  assert (LN4 : forall k, In k (map fst (Hdf5.links (hp s4) i')) -> In k (map nkey l)).
  { intros k Hk. destruct (in_dec (list_eq_dec N.eq_dec) k (map nkey l)) as [H|H]; [exact H|]. exfalso. apply (links_lookup _ _ _ Hk). rewrite L4 by exact H. apply L3. exact H. }
  assert (RA4 : forall at_, (forall k, at_ k = fresh_attrs reqs k \/ exists q old, In (k, q) reqs /\ attrs_of (hp s4) i' k = Some old /\ at_ k = Some old /\ ~ replaceable k q old) -> marks reqs at_).
  { intros at_ HA. apply RA. intros k. destruct (HA k) as [Y|(q & x & Y1 & Y2 & Y3)]; [left; exact Y|right]. exists q, x. rewrite T4, T3 in Y2. unfold attrs_of in Y2. rewrite O2 in Y2. auto. }
  destruct (struct_tail wo ro keq rnd HP s s3 t b l reqs s4 i' s' U F13 U3 W4 A4 G4 LN4 RA4) as (ob & ls & Q & jvs & X); auto.
  { eapply Forall_impl; [|exact H4]. cbn beta. intros nf (j & J1 & J2 & _). eauto. }
  { eapply struct_nodup; eassumption. }
  split; [apply (struct_sound wo ro keq HP c a fs SO MC HK HS); exists ob, ls, Q, jvs; exact X|].
  destruct X as (X1 & X2 & _ & _ & X5 & X6 & X7 & _).
  pose proof (sync_links _ _ _ _ _ E2 i') as LS. assert (LK : forall k, lookup (hp s') i' k = lookup (hp s4) i' k) by (intros k; unfold lookup; rewrite LS; reflexivity).
  assert (NA : name_of (hp s4) i' <> ra). { destruct A4 as (_ & _ & ->). intros Y. apply (proj1 U). rewrite Y. apply pre_refl. }
  pose proof (sync_keeps wo rnd (eq t) s4 i' reqs true W4 (eq_sym (proj2 (proj2 A4))) NA) as (W5 & F5 & _). rewrite E2 in W5, F5. cbn [fst] in W5, F5.
  rewrite Forall_forall in H4.
  assert (NS : forall k p, pre (t ++ [k]) p -> t <> p) by (intros k p Hp <-; exact (pre_snoc_self t k Hp)).
  apply (P_struct wo (hp s') i' c a fs ob ls (fun k => match lookup (hp s4) i' k with Some j => j | None => 0 end)); auto.
  - intros k N1 _. exact (proj1 X5 k N1).
  - destruct (marks_under wo c a ts None true (struct_first wo) (p_meta _ _ HP) (struct_is c a fs SO) (struct_empty _ _ _ SO) (fun M => proj1 (MC M)) eq_refl (first_cases wo ro MC) (o_attrs ob) X5) as (d & Sd & Ud).
    destruct d as [| | | | | | | | |f0]; try discriminate Sd. exists f0. exact Ud.
  - intros nf Hnf. destruct (H4 nf Hnf) as (j & J1 & _). rewrite LK, J1. reflexivity.
  - intros P1 nf x Hnf Hx. destruct (H4 nf Hnf) as (j & J1 & _ & J3 & _). rewrite J1.
    apply (spot_frame wo wo rnd (eq t) s4 s' j x W4 F5) with (t := t ++ [nkey nf]); [|apply (link_child wo s4 t i'); assumption|].
    + apply J3; [congruence|]. apply (column_in wo); assumption.
    + intros p Hp. split; [exact (NS _ _ Hp)|]. intros P. apply (not_refs wo rnd s t U). eapply pre_snoc. eapply pre_trans; eassumption.
  - intros P1 nf Hnf. destruct (H4 nf Hnf) as (j & J1 & _ & _ & J3). rewrite J1.
    eapply bare_frame; [exact F5|apply (link_child wo s4 t i'); eassumption|apply (NS (nkey nf)), pre_refl|]. apply J3. congruence.
Qed.
End Marsh.

Hypothesis str_keys : forall a b, keq (VStr a) (VStr b) = eqb_str a b.
Theorem write_ospec n : ospec (write wo rnd tries n).
Proof.
  induction n as [|n IH]; intros s g nm v s' r W K SP U V E; [discriminate E|].
  pose proof (write_keeps wo rnd tries (keys_clean wo ro HP) (values_clean wo ro HP) n) as Hwr.
  destruct (dict_form v) as [[[items ts] plain]|] eqn:DF.
  - assert (X : dict_left wo ro keq rnd s g nm items ts plain s' r /\ exists i, r = Some i /\ spot (hp s') i v).
    { apply (dict_over (write wo rnd tries n) Hwr IH s g nm v items ts plain s' r); auto. destruct v; try discriminate DF; cbn [dict_form] in DF; injection DF as <- <- <-; exact E. }
    destruct X as (DL & i & -> & SI). exists i. split; [reflexivity|]. split; [|exact SI].
    assert (H : exists j, Some i = Some j /\ held (hp s') (reg s (name_of (hp s) g ++ [nm])) j v).
    { destruct v; try discriminate DF; cbn [dict_form] in DF; injection DF as <- <- <-.
      - eapply dict_held; eauto. intros _ _ _ _. exact DL.
      - inversion V; subst. eapply rec_held; eauto. intros _ _ _ _. exact DL. }
    destruct H as (j & [= <-] & H). exact H.
  - assert (ND : ~ dictlike v) by (destruct v; try discriminate DF; intros []).
    assert (GC : grouped wo v \/ ~ grouped wo v) by (destruct v; try (right; exact ND); cbn [grouped]; match goal with |- ?x = true \/ _ => destruct x end; auto).
    destruct GC as [GC|GC].
    + destruct v; cbn [grouped] in GC; try (destruct (ND GC)). apply andb_true_iff in GC. destruct GC as [GS GG].
      inversion V as [| | | | | | | | | | |c1 a1 NO| c1 a1 fs SO MC HK HS _| | | |]; subst.
      * exfalso. pose proof (obj_simple _ _ _ NO) as Y. destruct (a_dt a); try discriminate GS. exact (match Y with end).
      * assert (Hcs : cspec wo ro keq rnd (write wo rnd tries n)).
        { destruct n as [|m]; [intros sa ga na aa sb rb _ _ _ _ _ _ _ X; discriminate X|]. exact (column_spec wo ro keq rnd tries HP HI (write wo rnd tries m) (write_keeps wo rnd tries (keys_clean wo ro HP) (values_clean wo ro HP) m) (write_back wo ro keq rnd tries HP HI str_keys m)). }
        exact (struct_over (write wo rnd tries n) Hwr IH Hcs s g nm c a fs s' r W K SP U SO MC GG (HK GG) (HS GG) E).
    + assert (VC : vacant wo s g nm v) by (apply (spare_vacant wo ro keq rnd HP HI); assumption).
      destruct (write_over wo ro keq rnd tries HP HI str_keys (S n) s g nm v s' r W K VC U V) as (i & -> & H); auto.
      { intros m _. apply write_back; assumption. }
      exists i. split; [reflexivity|]. split; [exact H|]. eapply write_spot; eauto.
Qed.
End Writes.
