(** Writing over what is there already. *)
From Verif Require Import Base PathEsc PathEscFacts PosixPath PosixFacts ProcessPath ProcessPathFacts Unicode UnicodeFacts Dec NdArray Value OptionsM StrConv ComplexM Attrs NpDims MColl Hdf5 HeapFacts NpWrite NpRead MarshalW MarshalR FrameFacts WriteFrame ReadFacts RoundSpec RoundNp RoundHeap RoundWrite RoundVal RoundDict StructBuild RoundStruct RoundAll ProgressSpec OverSpec.
Local Open Scope nat_scope.
Local Arguments prod : simpl never.

(** ** the attributes of a numpy object *)
Lemma dput_forall {B} (P : pystr * B -> Prop) k v l : P (k, v) -> Forall P l -> Forall P (dput k v l).
Proof.
  intros H F. induction F as [|[k' v'] l F1 F2 IH]; cbn [dput]; [constructor; [exact H|constructor]|]. destruct (eqb_str_spec k k') as [<-|N]; constructor; auto.
Qed.
Definition class_of (d : dt) (x : pystr) : Prop := matlab_class_of d = Some x \/ is_struct d = true /\ x = lit "struct".
Definition std (c : container) (a : arr pyval) (ts : pystr) (kq : pystr * areq) : Prop :=
  fst kq = lit "Python.Type" /\ snd kq = QString ts \/
  fst kq = lit "Python.numpy.Container" /\ snd kq = QString (container_name c) \/
  fst kq = lit "Python.numpy.UnderlyingType" /\ snd kq = QString (dt_name (a_dt a)) \/
  fst kq = lit "Python.Shape" /\ snd kq = QVal (AU64s (a_shape a)) \/
  fst kq = lit "Python.Empty" /\ snd kq = QVal (AU8 1) \/
  fst kq = lit "MATLAB_empty" /\ snd kq = QVal (AU8 1) \/
  fst kq = lit "MATLAB_class" /\ (snd kq = QPyStr (lit "struct") \/ exists x, class_of (a_dt a) x /\ snd kq = QString x) \/
  fst kq = lit "MATLAB_int_decode" /\ (exists z, snd kq = QPyInt z \/ snd kq = QVal (AI64 z)) \/
  fst kq = lit "Python.Fields" /\ (exists l, snd kq = QStrs l) \/
  fst kq = lit "MATLAB_fields" /\ (exists x, snd kq = QVal x).
Lemma np_attrs_std o c a ts first ws t : o_store_python_metadata o = true -> Forall (std c a ts) first -> Forall (std c a ts) (np_attrs o (c, a) ts first ws t).
Proof.
  intros Hm FF. unfold np_attrs. rewrite Hm. cbn [orb andb].
  match goal with |- context [dput (lit "Python.Fields") _ ?x] => set (l0 := x) end.
  assert (F0 : Forall (std c a ts) l0).
  { unfold l0. repeat apply dput_forall; unfold std; cbn [fst snd]; tauto || exact FF. }
  clearbody l0.
  set (l00 := if ws || fields_anyway o a then _ else l0).
  assert (F00 : Forall (std c a ts) l00).
  { unfold l00. destruct (ws || fields_anyway o a); [|exact F0]. assert (G : Forall (std c a ts) (dput (lit "Python.Fields") (QStrs (map escaped (field_names (a_dt a)))) l0)) by (apply dput_forall; [unfold std; cbn [fst snd]; eauto 14|exact F0]).
    destruct (o_matlab_compatible o); [|exact G]. destruct (matlab_fields _); [|exact G]. apply dput_forall; [unfold std; cbn [fst snd]; eauto 14|exact G]. }
  clearbody l00.
  set (l1 := if np_empty a then _ else _). assert (F1 : Forall (std c a ts) l1).
  { unfold l1. destruct (np_empty a); [|exact F00]. destruct (o_matlab_compatible o); repeat apply dput_forall; auto; unfold std; cbn [fst snd]; tauto. }
  clearbody l1.
  set (l2 := if o_matlab_compatible o then _ else _). assert (F2 : Forall (std c a ts) l2).
  { unfold l2. destruct (o_matlab_compatible o); [|exact F1].
    assert (FC : forall cls, class_of (a_dt a) cls -> Forall (std c a ts) (dput (lit "MATLAB_class") (QString cls) l1)).
    { intros cls HC. apply dput_forall; [|exact F1]. unfold std. cbn [fst snd]. do 6 right. left. split; [reflexivity|]. right. exists cls. auto. }
    destruct (is_struct (a_dt a) && o_struct_as_struct o) eqn:SS; [apply andb_true_iff in SS; apply FC; right; tauto|].
    destruct (matlab_class_of (a_dt a)) as [cls|] eqn:EC; [|exact F1]. specialize (FC cls (or_introl EC)).
    assert (FD : forall q, (exists z, q = QPyInt z \/ q = QVal (AI64 z)) -> Forall (std c a ts) (dput (lit "MATLAB_int_decode") q (dput (lit "MATLAB_class") (QString cls) l1))).
    { intros q Hq. apply dput_forall; [|exact FC]. unfold std. cbn [fst snd]. do 7 right. auto. }
    destruct (a_dt a); try exact FC; destruct t as [[]|]; try exact FC; apply FD; eauto. }
  clearbody l2.
  match goal with |- Forall _ (if ?b then _ else _) => destruct b end; [|exact F2]. apply dput_forall; [|exact F2]. unfold std. cbn [fst snd]. tauto.
Qed.
Lemma ascii_bytes_eq s b : ascii_bytes s = Ok b -> b = s.
Proof. unfold ascii_bytes. destruct (forallb _ s); congruence. Qed.

(** attributes of the same lengths *)
Record alike (c : container) (a : arr pyval) (ts : pystr) (c' : container) (a' : arr pyval) (ts' : pystr) : Prop := {
  k_type : length ts = length ts';
  k_cont : length (container_name c) = length (container_name c');
  k_name : length (dt_name (a_dt a)) = length (dt_name (a_dt a'));
  k_dims : length (a_shape a) = length (a_shape a');
  k_class : forall x y, class_of (a_dt a) x -> class_of (a_dt a') y -> length x = length y }.
Lemma class_ascii d x : matlab_class_of d = Some x -> Forall (fun x => (x < 128)%N) x.
Proof.
  unfold matlab_class_of. intros Hx.
  assert (AL : forall y, Some y = Some x -> Forall (fun x => (x < 128)%N) y -> Forall (fun x => (x < 128)%N) x) by (intros y [= ->]; auto).
  destruct d; try discriminate; try (eapply AL; [exact Hx|]; first [apply dt_name_ascii|repeat constructor]; fail).
  all: do 17 (try (destruct w as [|w]); try discriminate; try (eapply AL; [exact Hx|]; repeat constructor; fail)).
Qed.
Lemma container_ascii c : Forall (fun x => (x < 128)%N) (container_name c).
Proof. destruct c; repeat constructor. Qed.
Lemma class_of_ascii d x : class_of d x -> Forall (fun x => (x < 128)%N) x.
Proof. intros [H|[_ ->]]; [exact (class_ascii d x H)|repeat constructor]. Qed.
Lemma alike_but o c a ts first ws t c' a' ts' t' k q x : o_store_python_metadata o = true -> Forall (std c a ts) first -> Forall (std c' a' ts') first -> Forall (fun x => (x < 128)%N) ts' ->
  length ts = length ts' -> length (container_name c) = length (container_name c') -> (k = under -> length (dt_name (a_dt a)) = length (dt_name (a_dt a'))) -> length (a_shape a) = length (a_shape a') ->
  (forall x y, class_of (a_dt a) x -> class_of (a_dt a') y -> length x = length y) ->
  In (k, q) (np_attrs o (c', a') ts' first ws t') -> fresh_attrs (np_attrs o (c, a) ts first ws t) k = Some x -> replaceable k q x.
Proof.
  intros Hm S1 S2 AT A1 A2 A3 A4 A5 Hq Hx. pose proof (np_attrs_std o c a ts first ws t Hm S1) as F1. pose proof (np_attrs_std o c' a' ts' first ws t' Hm S2) as F2.
  rewrite Forall_forall in F1, F2. specialize (F2 _ Hq). unfold fresh_attrs in Hx.
  destruct (assoc k (np_attrs o (c, a) ts first ws t)) as [q1|] eqn:E1; [|discriminate]. apply assoc_In in E1. specialize (F1 _ E1).
  destruct (req_val q1) as [v1|] eqn:E2; [|discriminate]. injection Hx as ->.
  clear Hq E1. unfold std in F1, F2. cbn [fst snd] in F1, F2.
  assert (QS : forall s s', q1 = QString s -> q = QString s' -> length s = length s' -> Forall (fun x => (x < 128)%N) s' -> replaceable k q x).
  { intros s s' -> -> L A. cbn [req_val] in E2. destruct (ascii_bytes s) as [b|] eqn:E3; [|discriminate]. injection E2 as <-. apply ascii_bytes_eq in E3. subst b.
    cbn [replaceable req_val]. right. right. rewrite (ascii_bytes_ok s' A). cbn [bindr]. eexists. split; [reflexivity|]. cbn [same_layout]. apply Nat.eqb_eq. auto. }
  destruct F1 as [F1|[F1|[F1|[F1|[F1|[F1|[F1|[F1|[F1|F1]]]]]]]]], F2 as [F2|[F2|[F2|[F2|[F2|[F2|[F2|[F2|[F2|F2]]]]]]]]];
    destruct F1 as [K1 Q1], F2 as [K2 Q2]; try (rewrite K1 in K2; discriminate K2).
  - exact (QS _ _ Q1 Q2 A1 AT).
  - exact (QS _ _ Q1 Q2 A2 (container_ascii c')).
  - exact (QS _ _ Q1 Q2 (A3 K1) (dt_name_ascii (a_dt a'))).
  - subst q q1. injection E2 as <-. right. right. eexists. split; [reflexivity|]. cbn [same_layout]. apply Nat.eqb_eq. auto.
  - subst q q1. injection E2 as <-. right. right. eexists. split; reflexivity.
  - subst q q1. injection E2 as <-. right. right. eexists. split; reflexivity.
  - destruct Q2 as [->|(y2 & M2 & Q2)]; [exact I|]. destruct Q1 as [->|(y1 & M1 & Q1)]; [injection E2 as <-; subst q; right; left; eauto|]. exact (QS _ _ Q1 Q2 (A5 _ _ M1 M2) (class_of_ascii _ _ M2)).
  - destruct Q2 as (z & [-> | ->]); [exact I|]. right. right. eexists. split; [reflexivity|]. destruct Q1 as (z' & [-> | ->]); injection E2 as <-; reflexivity.
  - destruct Q2 as (l & ->). exact I.
  - destruct Q2 as (y & ->). left. exact K2.
Qed.
Lemma alike_replaceable o c a ts first ws t c' a' ts' t' : o_store_python_metadata o = true -> Forall (std c a ts) first -> Forall (std c' a' ts') first -> Forall (fun x => (x < 128)%N) ts' -> alike c a ts c' a' ts' ->
  forall k q x, In (k, q) (np_attrs o (c', a') ts' first ws t') -> fresh_attrs (np_attrs o (c, a) ts first ws t) k = Some x -> replaceable k q x.
Proof. intros Hm S1 S2 AT [A1 A2 A3 A4 A5] k q x. exact (alike_but o c a ts first ws t c' a' ts' t' k q x Hm S1 S2 AT A1 A2 (fun _ => A3) A4 A5). Qed.

(** ** the dtype and the shape in the file *)
Lemma prod_2d sh : prod (atleast_2d sh) = prod sh.
Proof. destruct sh as [|n [|m sh]]; cbn [atleast_2d]; unfold prod; cbn [fold_right]; lia. Qed.
Lemma dims_prod {A} o (a : arr A) : prod (a_shape (write_dims o a)) = prod (a_shape a).
Proof.
  unfold write_dims. destruct (o_reverse o), (o_atleast_2d o); unfold tr, reshape; cbn [a_shape]; rewrite ?prod_rev, ?prod_2d; reflexivity.
Qed.
Lemma scale_prod k sh : sh <> [] -> prod (scale_last k sh) = prod sh * k.
Proof.
  intros N. unfold scale_last. rewrite prod_app. rewrite (app_removelast_last 1 N) at 3. rewrite prod_app. unfold prod at 2 4. cbn [fold_right]. lia.
Qed.
(** what is prepared for an object with text or bytes: [n] times as many units, or bytes *)
Definition np_blank (a : arr pyval) : Prop := prod (a_shape a) = 0 \/ a_dt a = TS 0 \/ a_dt a = TUni 0.
Lemma empty_blank a : wf_arr a -> np_empty a = true -> np_blank a.
Proof.
  unfold np_empty, np_blank, size, nbytes. intros W H. apply orb_true_iff in H. destruct H as [H|H].
  - apply Nat.eqb_eq in H. left. exact H.
  - apply andb_true_iff in H. destruct H as [H1 H2]. apply Nat.eqb_eq in H2. apply Nat.eq_mul_0 in H2.
    destruct H2 as [H2|H2]; [left; exact H2|]. destruct (a_dt a) as [| | | | |n|n| | |]; try discriminate; cbn in H2; destruct n; auto; lia.
Qed.
Lemma prep_cases o c a b : np_prepare o (c, a) = Ok b -> exists b2, store_str o c (store_bytes o a) = Ok b2 /\
  (np_empty a = true /\ o_shape_empty o = true /\ a_dt b = TU 8 \/
   (a_dt b2 = TBool /\ a_dt b = TU 1 \/ is_cpx (a_dt b2) = false /\ a_dt b = a_dt b2 \/
    exists w x y, a_dt b2 = TC w /\ a_dt b = TStruct [(x, (TF (w / 2), [])); (y, (TF (w / 2), []))]) /\ prod (a_shape b) = prod (a_shape b2)).
Proof.
  intros W. unfold np_prepare in W. destruct (store_str o c (store_bytes o a)) as [b2|] eqn:E2; [|discriminate]. cbn [bindr] in W.
  exists b2. split; [reflexivity|].
  pose proof (dims_prod o b2) as P3. pose proof (write_dims_dt o b2) as D3. set (b3 := write_dims o b2) in *. clearbody b3.
  set (b4 := if dt_eqb (a_dt b3) TBool && o_bools_uint8 o then _ else b3) in *.
  assert (D4 : (a_dt b2 = TBool /\ a_dt b4 = TU 1 \/ a_dt b4 = a_dt b2) /\ prod (a_shape b4) = prod (a_shape b2)).
  { unfold b4. destruct (dt_eqb (a_dt b3) TBool && o_bools_uint8 o) eqn:X; [|rewrite D3, P3; auto]. cbn [a_dt a_shape]. split; [|exact P3]. left.
    apply andb_true_iff in X. destruct X as [X _]. apply dt_eqb_eq in X. split; [congruence|reflexivity]. }
  clearbody b4. destruct D4 as [D4 P4].
  destruct (o_shape_empty o && np_empty a) eqn:X.
  - cbn [a_dt shape_array is_cpx] in W. injection W as <-. left. apply andb_true_iff in X. destruct X. auto.
  - right. destruct (is_cpx (a_dt b4)) eqn:Y.
    + destruct D4 as [[_ D4]|D4]; [rewrite D4 in Y; discriminate|]. unfold encode_complex in W. destruct (a_dt b4) as [| | | |w| | | | |] eqn:Z; try discriminate.
      destruct (eqb_str _ _); [discriminate|]. injection W as <-. cbn [a_dt a_shape]. split; [|exact P4]. right. right. exists w. eauto.
    + injection W as <-. split; [|exact P4]. destruct D4 as [D4|D4]; [left; exact D4|]. right. left. rewrite <- D4. auto.
Qed.

Lemma store_bytes_cases o (a : arr pyval) n : a_dt a = TS n -> store_bytes o a = a \/ a_dt (store_bytes o a) = TU 2 /\ (a_shape a = [] -> prod (a_shape (store_bytes o a)) = n).
Proof.
  intros E. unfold store_bytes. rewrite E. destruct (o_bytes_utf16 o); [|auto]. destruct (Nat.eqb_spec (nbytes a) 0) as [Z|Z].
  - right. split; [reflexivity|]. intros Hs. unfold nbytes, size in Z. rewrite Hs, E in Z. unfold prod in Z. cbn in Z. cbn [a_shape]. unfold prod. cbn [fold_right]. lia.
  - cbv zeta. match goal with |- context [if ?b then _ else _] => destruct b end; [|auto]. right. split; [reflexivity|]. intros Hs. cbn [a_shape]. rewrite Hs. unfold prod. cbn. lia.
Qed.
Lemma store_str_units o (a : arr pyval) n b : a_dt a = TUni n -> a_shape a = [] -> length (a_data a) = 1 -> store_str o CScalar a = Ok b -> (a_dt b = TU 2 \/ a_dt b = TU 4) /\ prod (a_shape b) = n.
Proof.
  intros E Hs HL H. split; [exact (proj2 (store_str_flat o CScalar a n b E H))|]. unfold store_str in H. rewrite E in H.
  assert (U : convert_numpy_str_to_uint32 a = Ok b -> prod (a_shape b) = n).
  { unfold convert_numpy_str_to_uint32. rewrite E. destruct (Nat.eqb_spec (nbytes a) 0) as [Z|Z].
    - intros [= <-]. unfold nbytes, size in Z. rewrite Hs, E in Z. unfold prod in Z. cbn in Z. cbn [a_shape]. unfold prod. cbn [fold_right]. lia.
    - destruct (mapr _ _); [|discriminate]. intros [= <-]. cbn [a_shape]. rewrite Hs. unfold prod. cbn. lia. }
  destruct (o_str_utf16 o); [|exact (U H)]. destruct (convert_numpy_str_to_uint16 a) as [x|] eqn:E1; [|exact (U H)].
  destruct (Nat.eqb_spec n (hd 0 (a_shape x))) as [N|N]; [|exact (U H)]. injection H as <-. rewrite N. clear U N.
  unfold convert_numpy_str_to_uint16 in E1. destruct (Nat.eqb_spec (nbytes a) 0); [injection E1 as <-; reflexivity|].
  destruct (mapr _ _); [|discriminate]. injection E1 as <-. cbn [a_shape]. rewrite Hs. unfold prod. cbn. lia.
Qed.

Lemma prep_may o c a b : np_prepare o (c, a) = Ok b -> np_obj o c a -> may_be (a_dt a) (a_dt b) \/ np_blank a /\ a_dt b = TU 8.
Proof.
  intros W HN. destruct (prep_cases o c a b W) as (b2 & E2 & [(X1 & _ & X2)|[X _]]); [right; split; [apply empty_blank; [exact (n_len _ _ _ HN)|exact X1]|exact X2]|]. left.
  assert (NB : (forall n, a_dt a <> TS n) -> (forall n, a_dt a <> TUni n) -> b2 = a).
  { intros N1 N2. unfold store_bytes in E2. destruct (a_dt a) eqn:Ed; try (destruct (N1 n); reflexivity); try (destruct (N2 n); reflexivity);
      unfold store_str in E2; rewrite Ed in E2; congruence. }
  destruct (a_dt a) as [|w|w|w|w|n|n| | |fs] eqn:Ed.
  all: try (assert (b2 = a) as -> by (apply NB; discriminate); rewrite Ed in X; destruct X as [[X1 X2]|[[X1 X2]|(w' & x & y & X1 & X2)]]; try discriminate; rewrite X2; cbn [may_be]; auto; fail).
  - assert (b2 = a) as -> by (apply NB; discriminate). rewrite Ed in X. destruct X as [[X1 X2]|[[X1 X2]|(w' & x & y & X1 & X2)]]; try discriminate. injection X1 as ->. rewrite X2. cbn [may_be]. eauto.
  - assert (Y : b2 = store_bytes o a /\ (a_dt b2 = TU 2 \/ a_dt b2 = TS n)).
    { destruct (store_bytes_cases o a n Ed) as [Z|[Z _]].
      - rewrite Z in *. unfold store_str in E2. rewrite Ed in E2. injection E2 as <-. auto.
      - unfold store_str in E2. rewrite Z in E2. injection E2 as <-. auto. }
    destruct Y as [-> Y]. destruct X as [[X1 X2]|[[X1 X2]|(w' & x & y & X1 & X2)]]; destruct Y as [Y|Y]; try congruence; rewrite X2, Y; cbn [may_be]; eauto.
  - assert (Z : store_bytes o a = a) by (unfold store_bytes; rewrite Ed; reflexivity). rewrite Z in E2.
    destruct (store_str_flat o c a n b2 Ed E2) as [_ Y]. destruct X as [[X1 X2]|[[X1 X2]|(w' & x & y & X1 & X2)]]; destruct Y as [Y|Y]; try congruence; rewrite X2, Y; cbn [may_be]; auto.
Qed.
Lemma prep_str o a n b : np_prepare o (CScalar, a) = Ok b -> a_dt a = TUni n -> a_shape a = [] -> length (a_data a) = 1 ->
  (a_dt b = TU 8 /\ n = 0) \/ ((a_dt b = TU 2 \/ a_dt b = TU 4) /\ prod (a_shape b) = n).
Proof.
  intros W E Hs HL. destruct (prep_cases o CScalar a b W) as (b2 & E2 & [(X1 & _ & X2)|[X P]]).
  - left. split; [exact X2|]. destruct (empty_blank a) as [Y|[Y|Y]]; [unfold wf_arr; rewrite Hs; exact HL|exact X1| |congruence|congruence]. rewrite Hs in Y. discriminate.
  - right. assert (Z : store_bytes o a = a) by (unfold store_bytes; rewrite E; reflexivity). rewrite Z in E2. destruct (store_str_units o a n b2 E Hs HL E2) as [Y1 Y2].
    rewrite P. split; [|exact Y2]. destruct X as [[X1 X2]|[[X1 X2]|(w' & x & y & X1 & X2)]]; destruct Y1 as [Y|Y]; try congruence; rewrite X2, Y; auto.
Qed.
Lemma prep_bytes o a n b : np_prepare o (CScalar, a) = Ok b -> a_dt a = TS n -> a_shape a = [] -> length (a_data a) = 1 ->
  (a_dt b = TU 8 /\ n = 0) \/ (a_dt b = TU 2 /\ prod (a_shape b) = n) \/ a_dt b = TS n.
Proof.
  intros W E Hs HL. destruct (prep_cases o CScalar a b W) as (b2 & E2 & [(X1 & _ & X2)|[X P]]).
  - left. split; [exact X2|]. destruct (empty_blank a) as [Y|[Y|Y]]; [unfold wf_arr; rewrite Hs; exact HL|exact X1| |congruence|congruence]. rewrite Hs in Y. discriminate.
  - right. rewrite P. destruct (store_bytes_cases o a n E) as [Z|[Z1 Z2]].
    + rewrite Z in E2. unfold store_str in E2. rewrite E in E2. injection E2 as <-. right. destruct X as [[X1 X2]|[[X1 X2]|(w' & x & y & X1 & X2)]]; congruence.
    + unfold store_str in E2. rewrite Z1 in E2. injection E2 as <-. left. destruct X as [[X1 X2]|[[X1 X2]|(w' & x & y & X1 & X2)]]; try congruence. split; [congruence|auto].
Qed.

(** ** what values are stored as *)
(** ** what a value leaves at its place in the file *)
Definition dict_form (v : pyval) : option (list (pyval * pyval) * pystr * bool) :=
  match v with
  | VDict k l => Some (l, dict_type k, match k with MCounter => false | _ => true end)
  | VRec k fs => Some (rec_items k fs, rec_type k, true)
  | _ => None
  end.
Inductive spot (wo : options) (h : heap) : nat -> pyval -> Prop :=
| P_data i v c a ts ob d f b ty : np_form v = Some (c, a, ts) -> is_struct (a_dt a) && stored_as_group wo (a_dt a) = false -> h i = Some ob -> o_body ob = BData d f -> np_prepare wo (c, a) = Ok b ->
    a_dt d = stored_dt (ref_dt (a_dt b)) -> a_shape d = a_shape b -> (forall k, k <> h5path -> o_attrs ob k = fresh_attrs (np_attrs wo (c, a) ts [] false ty) k) -> spot wo h i v
| P_struct i c a fs ob ls m : a_dt a = TStruct fs -> stored_as_group wo (a_dt a) = true -> h i = Some ob -> o_body ob = BGroup ls ->
    (forall k, k <> under -> k <> h5path -> o_attrs ob k = fresh_attrs (np_attrs wo (c, a) (np_type c (a_dt a)) (struct_first wo) true None) k) -> struct_name (o_attrs ob under) ->
    (forall k, In k (map fst ls) -> In k (map nkey (numbered fs))) ->
    (forall nf, In nf (numbered fs) -> lookup h i (nkey nf) = Some (m (nkey nf))) ->
    (prod (a_shape a) = 1 -> forall nf x, In nf (numbered fs) -> In x (field_values (fst nf) (snd (snd nf)) a) -> spot wo h (m (nkey nf)) x) ->
    (prod (a_shape a) <> 1 -> forall nf, In nf (numbered fs) -> bare h (m (nkey nf))) -> spot wo h i (VNp c a)
| P_group i v items ts plain ob ls m : dict_form v = Some (items, ts, plain) -> h i = Some ob -> o_body ob = BGroup ls ->
    (forall k, k <> kst -> k <> h5path -> o_attrs ob k = fresh_attrs (dict_attrs wo ts plain (key_codes (map fst items))) k) ->
    (o_attrs ob kst = fresh_attrs (dict_attrs wo ts plain (key_codes (map fst items))) kst \/
     exists cs b, key_codes (map fst items) = Some cs /\ o_attrs ob kst = Some (AStr b) /\ Forall (fun x => (x < 128)%N) b /\ Forall (fun c => fst c = 116%N) cs) ->
    (forall k, In k (map fst ls) -> In k (map fst (dict_kvs wo items))) ->
    (forall k w, In (k, w) (dict_kvs wo items) -> lookup h i k = Some (m k)) -> (forall k w, In (k, w) (dict_kvs wo items) -> spot wo h (m k) w) -> spot wo h i v.
Lemma bare_eqv h h' j : eqv h h' -> bare h j -> bare h' j.
Proof. intros H (ob & d & f & B1 & B2 & B3 & B4). destruct (H _ _ B1) as (ob' & H1 & H2 & H3). exists ob', d, f. split; [exact H1|]. split; [congruence|]. split; [exact B3|]. intros k N. rewrite H3 by exact N. auto. Qed.
Lemma spot_eqv wo h h' : eqv h h' -> forall i v, spot wo h i v -> spot wo h' i v.
Proof.
  intros H i v S. induction S as [i v c a ts ob d f b ty F SF T1 T2 T3 T4 T5 T6|i c a fs ob ls m D SG T1 T2 T3 TU T4 T5 T6 IH T7|i v items ts plain ob ls m DF T1 T2 T3 T4 T5 T6 T7 IH].
  - destruct (H _ _ T1) as (ob' & H1 & H2 & H3). apply (P_data wo h' i v c a ts ob' d f b ty); auto; try congruence. intros k N. rewrite H3, T6 by exact N. reflexivity.
  - destruct (H _ _ T1) as (ob' & H1 & H2 & H3). apply (P_struct wo h' i c a fs ob' ls m); auto; try congruence.
    + intros k N1 N2. rewrite H3 by exact N2. auto.
    + rewrite H3 by discriminate. exact TU.
    + intros nf Hk. rewrite <- (T5 nf Hk). unfold lookup, Hdf5.links. rewrite H1, T1, H2. reflexivity.
    + intros N nf Hk. eapply bare_eqv; [exact H|auto].
  - destruct (H _ _ T1) as (ob' & H1 & H2 & H3). apply (P_group wo h' i v items ts plain ob' ls m); auto; try congruence.
    + intros k N1 N2. rewrite H3 by exact N2. auto.
    + rewrite H3 by discriminate. exact T4.
    + intros k w Hk. rewrite <- (T6 k w Hk). unfold lookup, Hdf5.links. rewrite H1, T1, H2. reflexivity.
Qed.
Lemma data_frame o rnd (R : list pystr -> Prop) s s' i t ob d f : frame o rnd R s s' -> at_target s t i -> ~ R t -> hp s i = Some ob -> o_body ob = BData d f -> hp s' i = Some ob.
Proof.
  intros F (A1 & A2 & A3) C T1 T2. rewrite (proj2 (f_keep _ _ _ _ _ F i A2 ltac:(rewrite A3; exact C))); [exact T1|]. unfold is_group. rewrite T1, T2. reflexivity.
Qed.
Lemma bare_frame o rnd (R : list pystr -> Prop) s s' i t : frame o rnd R s s' -> at_target s t i -> ~ R t -> bare (hp s) i -> bare (hp s') i.
Proof. intros F A C (ob & d & f & B1 & B2 & B3 & B4). exists ob, d, f. split; [eapply data_frame; eassumption|]. auto. Qed.
Lemma spot_frame wo o rnd (R : list pystr -> Prop) s s' i v : wf o s -> frame o rnd R s s' -> spot wo (hp s) i v -> forall t, at_target s t i ->
  (forall p, pre t p -> ~ R p /\ ~ pre p (rp o)) -> spot wo (hp s') i v.
Proof.
  intros W F S. induction S as [i v c a ts ob d f b ty F0 SF T1 T2 T3 T4 T5 T6|i c a fs ob ls m D SG T1 T2 T3 TU T4 T5 T6 IH T7|i v items ts plain ob ls m DF T1 T2 T3 T4 T5 T6 T7 IH]; intros t A C.
  - apply (P_data wo (hp s') i v c a ts ob d f b ty); auto. eapply data_frame; [exact F|exact A|apply C, pre_refl|exact T1|exact T2].
  - assert (E : hp s' i = hp s i).
    { destruct A as (A1 & A2 & A3). apply (f_same _ _ _ _ _ F i A2); rewrite A3; try apply C, pre_refl. intros k. apply C, pre_app. }
    apply (P_struct wo (hp s') i c a fs ob ls m); auto; try congruence.
    + intros nf Hk. rewrite <- (T5 nf Hk). unfold lookup, Hdf5.links. rewrite E. reflexivity.
    + intros S1 nf x Hk Hx. apply (IH S1 nf x Hk Hx (t ++ [nkey nf])); [apply (link_child o s t i _ _ W A (T5 nf Hk))|]. intros p Hp. apply C. eapply pre_snoc. exact Hp.
    + intros S1 nf Hk. eapply bare_frame; [exact F|apply (link_child o s t i _ _ W A (T5 nf Hk))|apply C, pre_app|auto].
  - assert (E : hp s' i = hp s i).
    { destruct A as (A1 & A2 & A3). apply (f_same _ _ _ _ _ F i A2); rewrite A3; try apply C, pre_refl. intros k. apply C, pre_app. }
    apply (P_group wo (hp s') i v items ts plain ob ls m); auto; try congruence.
    + intros k w Hk. rewrite <- (T6 k w Hk). unfold lookup, Hdf5.links. rewrite E. reflexivity.
    + intros k w Hk. apply (IH k w Hk (t ++ [k])); [apply (link_child o s t i k (m k) W A (T6 k w Hk))|]. intros p Hp. apply C. eapply pre_snoc. exact Hp.
Qed.

Section Forms.
Variables (wo ro : options) (keq : pyval -> pyval -> bool) (rnd : nat -> N) (tries : nat).
Hypotheses (HP : paired wo ro) (HI : inj_rnd rnd).
Notation storable := (storable wo ro keq).
Ltac ascii := repeat (apply Forall_cons; [vm_compute; reflexivity|]); apply Forall_nil.
Record form_ok (v : pyval) (c : container) (a : arr pyval) (ts : pystr) : Prop := {
  fo_kind : (np_obj wo c a /\ compatible wo ro a /\ forall p, In (XPtr p) (a_data a) -> storable p) \/
    (v = VNp c a /\ ts = np_type c (a_dt a) /\ exists fs, struct_obj c a fs /\ o_matlab_compatible wo = false /\ stored_as_group wo (a_dt a) = false);
  fo_ascii : Forall (fun x => (x < 128)%N) ts; fo_dt : dtype_of v (a_dt a); fo_blank : np_blank a -> blank v }.
Lemma show_Z_nonempty z : show_Z z <> [].
Proof. intros E. pose proof (parse_show_Z z) as P. rewrite E in P. discriminate. Qed.
Lemma utf8_nonempty t : utf8_encode t = Ok [] -> t = [].
Proof. intros E. pose proof (utf8_decode_encode _ _ E) as P. injection P as <-. reflexivity. Qed.
Lemma scalar_form v d e ts : typed d e -> match d with TRef | TStruct _ | TObj | TS _ | TUni _ => False | TC w => w = 8 \/ w = 16 | _ => True end ->
  compatible wo ro (mkArr d [] [e]) -> (forall p, e <> XPtr p) -> Forall (fun x => (x < 128)%N) ts -> dtype_of v d -> form_ok v CScalar (mkArr d [] [e]) ts.
Proof.
  intros H1 H2 H3 H4 H5 H6. constructor; auto.
  - left. split; [apply scalar_obj; assumption|]. split; [exact H3|]. intros p [E|[]]. destruct (H4 p E).
  - intros [B|[B|B]]; cbn in B; [discriminate|subst d; destruct H2|subst d; destruct H2].
Qed.
Lemma bytes_form v s ts : strip0 s = s -> Forall (fun x => (x < 128)%N) ts -> (forall n, dtype_of v (TS n)) -> (s = [] -> blank v) -> form_ok v CScalar (np_bytes s) ts.
Proof.
  intros H1 H2 H3 H4. constructor; auto.
  - left. split; [apply (bytes_obj wo rnd HI); exact H1|]. split; [intros _; left; exact I|]. intros p [E|[]]. discriminate E.
  - apply H3.
  - unfold np_bytes. cbn [a_dt a_shape]. intros [B|[B|B]]; try discriminate. injection B as B. apply H4. destruct s; [reflexivity|discriminate].
Qed.
Ltac sform := apply scalar_form; [first [exact I|right; reflexivity]|first [exact I|right; reflexivity]|intros _; left; exact I|intros p; discriminate|ascii|first [reflexivity|left; reflexivity]].
Lemma form_facts v c a ts : storable v -> ~ grouped wo v -> np_form v = Some (c, a, ts) -> form_ok v c a ts.
Proof.
  intros V US F.
  assert (CO : forall x, compatible wo ro none_array /\ np_obj wo CNdarray none_array /\ In (XPtr x) (a_data none_array) -> False) by (intros x (_ & _ & [])).
  assert (NO : forall w ts0, Forall (fun x => (x < 128)%N) ts0 -> dtype_of w (TF 8) -> blank w -> form_ok w CNdarray none_array ts0).
  { intros w ts0 A D B. constructor; auto.
    left. split; [constructor; cbn; try congruence; auto|]. split; [intros _; left; exact I|intros p []]. }
  destruct V; cbn [np_form] in F; try discriminate F; try (injection F as <- <- <-).
  - apply NO; [ascii|reflexivity|exact I].
  - apply NO; [ascii|reflexivity|exact I].
  - apply NO; [ascii|reflexivity|exact I].
  - sform.
  - unfold int_array. match goal with |- context [if ?b then _ else _] => destruct b end.
    + sform.
    + apply bytes_form; [apply show_Z_strip|ascii|intros n; right; eauto|]. intros E. destruct (show_Z_nonempty z E).
  - sform.
  - sform.
  - destruct H as [T B]. constructor.
    + left. split; [apply (str_obj wo rnd HI); exact T|]. split; [intros _; left; exact I|]. intros p [E|[]]. discriminate E.
    + ascii.
    + cbn. eauto.
    + unfold np_str. cbn [a_dt a_shape]. intros [X|[X|X]]; try discriminate. injection X as X. cbn [blank]. destruct s; [reflexivity|discriminate].
  - apply bytes_form; [exact H|ascii|intros n; cbn; eauto|auto].
  - apply bytes_form; [exact H|ascii|intros n; cbn; eauto|auto].
  - rewrite H in F. injection F as <- <- <-. apply bytes_form; [exact H0|ascii|intros n; cbn; eauto|]. intros ->. apply utf8_nonempty. exact H.
  - constructor; auto; [apply np_type_ascii|reflexivity].
  - match goal with K : struct_obj c0 a0 fs |- _ => rename K into SO end. assert (SG : stored_as_group wo (a_dt a0) = false).
    { cbn [grouped] in US. rewrite (struct_is _ _ _ SO) in US. cbn [andb] in US. apply Bool.not_true_is_false. exact US. }
    constructor.
    + right. split; [reflexivity|]. split; [reflexivity|]. exists fs. split; [exact SO|]. split; [eapply compound_plain; eassumption|exact SG].
    + apply np_type_ascii.
    + reflexivity.
    + auto.
  - assert (IN : forall p, In (XPtr p) (a_data (obj_array l)) -> In p l).
    { intros p Hp. cbn [obj_array a_data] in Hp. apply in_map_iff in Hp. destruct Hp as (x & [= ->] & Hx). exact Hx. }
    constructor.
    + left. split; [apply seq_obj|]. split; [intros _; left; exact I|]. intros p Hp. rewrite Forall_forall in H0. apply H0, IN, Hp.
    + destruct k; ascii.
    + reflexivity.
    + unfold obj_array. cbn [a_dt a_shape]. intros [X|[X|X]]; try discriminate. unfold prod in X. cbn in X. cbn [blank]. destruct l; [reflexivity|cbn in X; lia].
Qed.
Lemma form_prep v c a ts b : form_ok v c a ts -> np_prepare wo (c, a) = Ok b -> (may_be (a_dt a) (a_dt b) \/ np_blank a /\ a_dt b = TU 8) /\ a_dt b <> TRef.
Proof.
  intros [[(K & _)|(_ & _ & fs & SO & _)] _ _ _] P.
  - split; [exact (prep_may wo c a b P K)|]. apply (prep_dt wo c a b P (obj_simple _ _ _ K)).
  - rewrite (struct_prepare wo c a fs SO) in P. injection P as <-. rewrite write_dims_dt, (st_dt _ _ _ SO). split; [left; reflexivity|discriminate].
Qed.
Lemma form_grouped v c a ts : np_form v = Some (c, a, ts) -> (grouped wo v <-> is_struct (a_dt a) && stored_as_group wo (a_dt a) = true).
Proof.
  intros F. destruct v; cbn [np_form] in F; try discriminate; try (injection F as <- <- <-); cbn [grouped dictlike]; try (split; [intros []|discriminate]; fail).
  - unfold int_array. match goal with |- context [if ?b then _ else _] => destruct b end; (split; [intros []|discriminate]).
  - reflexivity.
  - destruct (utf8_encode text); [|discriminate]. injection F as <- <- <-. split; [intros []|discriminate].
Qed.
Lemma form_none v : storable v -> (np_form v = None <-> dictlike v).
Proof.
  intros V. destruct V; cbn [np_form dictlike]; rewrite ?H; split; intros X; try discriminate X; try destruct X; auto.
Qed.

(** what a value leaves at its place *)
Notation spot := (spot wo).
Definition spare (s : st) (g : nat) (nm : pystr) (w : pyval) : Prop :=
  lookup (hp s) g nm = None \/ (exists i, lookup (hp s) g nm = Some i /\ bare (hp s) i) \/
  exists i v, lookup (hp s) g nm = Some i /\ spot (hp s) i v /\ storable v /\ replaces wo v w.
Lemma class_struct d : is_struct d = true -> matlab_class_of d = None.
Proof. destruct d; cbn; congruence. Qed.
Lemma class_fun d x y : class_of d x -> class_of d y -> x = y.
Proof. intros [X|[X1 X2]] [Y|[Y1 Y2]]; try congruence; [rewrite (class_struct _ Y1) in X; discriminate|rewrite (class_struct _ X1) in Y; discriminate]. Qed.

Lemma alike_same c a ts a' : a_dt a = a_dt a' -> length (a_shape a) = length (a_shape a') -> alike c a ts c a' ts.
Proof. intros E1 E2. constructor; rewrite ?E1; auto. intros x y X Y. f_equal. eapply class_fun; eassumption. Qed.
Lemma stored_ts d n : stored_dt d = TS n -> (exists m, d = TS m /\ (m = n \/ m = 0 /\ n = 1)).
Proof. destruct d as [| | | | |[|m]| | | |]; cbn; try discriminate; intros [= <-]; eauto. Qed.
(** the same dtype and shape in the file *)
Lemma same_dtypes v w c a ts c' a' ts' b b' : form_ok v c a ts -> form_ok w c' a' ts' -> np_prepare wo (c, a) = Ok b -> np_prepare wo (c', a') = Ok b' ->
  stored_dt (ref_dt (a_dt b)) = ref_dt (a_dt b') -> exists x, stored_dtype v x /\ stored_dtype w x.
Proof.
  intros F F' P P' E. exists (a_dt b'). destruct (form_prep _ _ _ _ _ F' P') as [M' N']. destruct (form_prep _ _ _ _ _ F P) as [M0 N].
  assert (Y : stored_dtype w (a_dt b')).
  { destruct M' as [M|[M1 M2]]; [left; exists (a_dt a'); split; [apply (fo_dt _ _ _ _ F')|exact M]|right; split; [apply (fo_blank _ _ _ _ F'), M1|exact M2]]. }
  split; [|exact Y].
  assert (D : a_dt b' = a_dt b \/ a_dt b = TS 0 /\ a_dt b' = TS 1).
  { clear - E N N'. destruct (a_dt b) as [| | | | |[|n]| | | |], (a_dt b') as [| | | | |[|n']| | | |]; cbn in E; try congruence; auto. }
  destruct M0 as [M|[M1 M2]].
  - left. exists (a_dt a). split; [apply (fo_dt _ _ _ _ F)|]. destruct D as [-> |[D1 D2]]; [exact M|]. rewrite D1 in M. rewrite D2.
    destruct (a_dt a); cbn [may_be] in *; try discriminate; try (destruct M as [M|M]; discriminate); eauto. destruct M as (x & y & M). discriminate.
  - right. split; [apply (fo_blank _ _ _ _ F), M1|]. destruct D as [-> |[D1 D2]]; congruence.
Qed.
Lemma same_bytes s t ts ts' b b' v w : form_ok v CScalar (np_bytes s) ts -> form_ok w CScalar (np_bytes t) ts' -> length ts = length ts' -> (s = [] <-> t = []) ->
  np_prepare wo (CScalar, np_bytes s) = Ok b -> np_prepare wo (CScalar, np_bytes t) = Ok b' ->
  stored_dt (ref_dt (a_dt b)) = ref_dt (a_dt b') -> a_shape b = a_shape b' -> alike CScalar (np_bytes s) ts CScalar (np_bytes t) ts'.
Proof.
  intros F F' L Z P P' E S. pose proof (prep_bytes wo _ (length s) b P eq_refl eq_refl eq_refl) as C. pose proof (prep_bytes wo _ (length t) b' P' eq_refl eq_refl eq_refl) as C'.
  assert (X : length s = length t).
  { destruct C as [[C1 C2]|[[C1 C2]|C]], C' as [[C1' C2']|[[C1' C2']|C']]; try congruence.
    all: try (rewrite C1, C1' in E; discriminate E). all: try (rewrite C1, C' in E; discriminate E).
    all: try (rewrite C, C' in E; cbn [ref_dt] in E; apply stored_ts in E; destruct E as (m & [= <-] & [E|[E1 E2]]); [exact E|]; destruct s; [|discriminate]; rewrite (proj1 Z eq_refl) in E2; discriminate).
    all: rewrite C, C1' in E; cbn [ref_dt] in E; destruct (length s); discriminate E. }
  unfold np_bytes. constructor; cbn [a_dt a_shape]; rewrite ?X; auto. intros x y X1 X2. f_equal. eapply class_fun; eassumption.
Qed.
Lemma same_alike v w c a ts c' a' ts' b b' : storable v -> storable w -> ~ grouped wo v -> ~ grouped wo w -> np_form v = Some (c, a, ts) -> np_form w = Some (c', a', ts') -> same_type v w ->
  np_prepare wo (c, a) = Ok b -> np_prepare wo (c', a') = Ok b' ->
  stored_dt (ref_dt (a_dt b)) = ref_dt (a_dt b') -> a_shape b = a_shape b' -> alike c a ts c' a' ts'.
Proof.
  intros V V' US US' F F' T P P' E S. pose proof (form_facts _ _ _ _ V US F) as O. pose proof (form_facts _ _ _ _ V' US' F') as O'.
  destruct v, w; cbn [same_type] in T; try destruct T; cbn [np_form] in F, F'; try discriminate F.
  all: try (injection F as <- <- <-; injection F' as <- <- <-; apply alike_same; reflexivity).
  - injection F as <- <- <-. injection F' as <- <- <-.
    assert (C : forall x b0, np_prepare wo (CScalar, int_array x) = Ok b0 -> int_array x = mkArr (TI 8) [] [XInt x] /\ a_dt b0 = TI 8 \/ int_array x = np_bytes (show_Z x) /\ a_dt b0 <> TI 8).
    { intros x b0 Pb. unfold int_array in *. match type of Pb with context [if ?c then _ else _] => destruct c end; [left|right]; (split; [reflexivity|]).
      - destruct (prep_may wo _ _ b0 Pb) as [M|[M _]]; [apply scalar_obj; exact I|exact M|]. destruct M as [M|[M|M]]; discriminate M.
      - destruct (prep_may wo _ _ b0 Pb) as [M|[_ M]]; [apply (bytes_obj wo rnd HI), show_Z_strip| |]; [cbn [np_bytes a_dt may_be] in M; destruct M as [[m M]|M]|]; rewrite M; discriminate. }
    destruct (C _ _ P) as [[C1 C2]|[C1 C2]], (C _ _ P') as [[C3 C4]|[C3 C4]]; rewrite C1, C3 in *.
    + apply alike_same; reflexivity.
    + exfalso. rewrite C2 in E. apply C4. clear - E. destruct (a_dt b'); cbn in E; congruence.
    + exfalso. rewrite C4 in E. apply C2. clear - E. destruct (a_dt b) as [| | | | |[]| | | |]; cbn in E; congruence.
    + eapply same_bytes; eauto. split; intros X; destruct (show_Z_nonempty _ X).
  - injection F as <- <- <-. injection F' as <- <- <-.
    pose proof (prep_str wo _ (length s) b P eq_refl eq_refl eq_refl) as C. pose proof (prep_str wo _ (length s0) b' P' eq_refl eq_refl eq_refl) as C'.
    assert (X : length s = length s0).
    { destruct C as [[C1 C2]|[[C1|C1] C2]], C' as [[C1' C2']|[[C1'|C1'] C2']]; try congruence; rewrite C1, C1' in E; discriminate E. }
    unfold np_str. constructor; cbn [a_dt a_shape]; rewrite ?X; auto. intros x y X1 X2. f_equal. eapply class_fun; eassumption.
  - injection F as <- <- <-. injection F' as <- <- <-. eapply same_bytes; eauto. split; assumption.
  - injection F as <- <- <-. injection F' as <- <- <-. eapply same_bytes; eauto. split; assumption.
  - destruct H0 as [H0 H1]. injection F as <- <- <-. injection F' as <- <- <-. subst c1. rewrite <- H0. apply alike_same; assumption.
  - destruct (utf8_encode text) as [x|] eqn:U; [|discriminate F]. destruct (utf8_encode text0) as [y|] eqn:U0; [|discriminate F'].
    injection F as <- <- <-. injection F' as <- <- <-. eapply same_bytes; eauto. split; intros ->; apply utf8_nonempty in U || apply utf8_nonempty in U0.
    + rewrite (H U) in U0. cbn in U0. congruence.
    + rewrite (H0 U0) in U. cbn in U. congruence.
Qed.
Lemma same_grouped v w : same_type v w -> (grouped wo v <-> grouped wo w).
Proof. destruct v, w; cbn [same_type grouped dictlike]; intros X; try (destruct X; fail); try tauto. destruct X as (_ & E & _). rewrite E. tauto. Qed.
Lemma same_not_dict v w : same_type v w -> ~ dictlike v /\ ~ dictlike w.
Proof. destruct v, w; cbn [same_type dictlike]; intros H; try (destruct H; fail); split; intros X; exact X. Qed.
Lemma np_h5 c a ts first ws t k q : Forall (std c a ts) first -> In (k, q) (np_attrs wo (c, a) ts first ws t) -> k <> h5path.
Proof.
  intros S H. pose proof (np_attrs_std wo c a ts first ws t (p_meta _ _ HP) S) as F. rewrite Forall_forall in F. specialize (F _ H). unfold std in F. cbn [fst] in F.
  intros ->. destruct F as [F|[F|[F|[F|[F|[F|[F|[F|[F|F]]]]]]]]]; destruct F as [F _]; discriminate F.
Qed.
(** what is there does not matter, unless both are Groups *)
Lemma spare_vacant s g nm w : storable w -> spare s g nm w -> ~ grouped wo w -> vacant wo s g nm w.
Proof.
  intros V' SP NW. destruct (lookup (hp s) g nm) as [i|] eqn:L; [|apply vacant_none; exact L].
  unfold vacant. destruct (np_form w) as [[[c' a'] ts']|] eqn:F'.
  2: { destruct NW. apply (form_none w V') in F'. destruct w; try exact F'; destruct F'. }
  pose proof (form_facts _ _ _ _ V' NW F') as O'. split; [|intros IS; destruct NW; apply (form_grouped _ _ _ _ F'); exact IS]. intros i0 ob old f b' L0 O B P'.
  destruct SP as [SP|[(j & L' & ob1 & d1 & f1 & B1 & B2 & B3 & B4)|(j & v & L' & T & V & RP)]]; [congruence| |].
  - assert (j = i0) by congruence. subst j. rewrite O in B1. injection B1 as <-. rewrite B in B2. injection B2 as <- <-. split; [rewrite B3; discriminate|]. intros _ ty k q x Hq Hx.
    rewrite B4 in Hx; [discriminate|]. eapply np_h5; [|exact Hq]. constructor.
  - assert (j = i0) by congruence. subst j. clear L'.
    destruct T as [i0 v c a ts ob1 d f1 b ty F SF T1 T2 T3 T4 T5 T6|i0 c a fs ob1 ls m D SG T1 T2 T3 TU T4 T5 T6 T7|i0 v items ts plain ob1 ls m DF T1 T2 T3 T4 T5 T6 T7].
    + assert (NV : ~ grouped wo v) by (intros X; apply (form_grouped _ _ _ _ F) in X; congruence).
      pose proof (form_facts _ _ _ _ V NV F) as OV.
      assert (ob1 = ob) by congruence. subst ob1. assert (d = old) by congruence. subst d.
      split; [rewrite T4; destruct (a_dt b) as [| | | | |[]| | | |]; discriminate|]. intros E ty' k q x Hq Hx.
      apply andb_true_iff in E. destruct E as [E1 E2]. apply dt_eqb_eq in E1.
      rewrite present_dt in E1 by (rewrite E1, ref_cpx; exact (prep_not_tc wo c' a' b' P')). rewrite T4 in E1.
      assert (SH : a_shape b = a_shape b'). { rewrite <- T5. unfold eqb_shape in E2. destruct (list_eq_dec _ _ _); [assumption|discriminate]. }
      assert (AL : alike c a ts c' a' ts').
      { inversion RP; subst; try tauto; try (destruct NV; exact I).
        - eapply (same_alike v w); eassumption.
        - match goal with K : forall x, stored_dtype v x -> _ |- _ => destruct (same_dtypes v w c a ts c' a' ts' b b' OV O' T3 P' E1) as (y & Y1 & Y2); destruct (K y Y1 Y2) end.
        - destruct NV. cbn [grouped]. match goal with K : a_dt ?x = TStruct _, K2 : stored_as_group wo (a_dt ?x) = true |- _ => rewrite K2, K end. reflexivity. }
      rewrite T6 in Hx by (exact (np_h5 _ _ _ _ _ _ _ _ (Forall_nil _) Hq)).
      exact (alike_replaceable wo c a ts [] false ty c' a' ts' ty' (p_meta _ _ HP) (Forall_nil _) (Forall_nil _) (fo_ascii _ _ _ _ O') AL k q x Hq Hx).
    + exfalso. congruence.
    + exfalso. congruence.
Qed.
Hypothesis str_keys : forall a b, keq (VStr a) (VStr b) = eqb_str a b.
Lemma form_write wr g nm v c a ts : np_form v = Some (c, a, ts) -> forall s, write_value wo rnd tries wr g nm v s = np_write wo rnd tries wr g nm (c, a) ts s.
Proof.
  intros F s. destruct v; cbn [np_form] in F; try discriminate; try (injection F as <- <- <-; reflexivity).
  destruct (utf8_encode text) as [b|] eqn:E; [|discriminate]. injection F as <- <- <-. cbn [write_value]. unfold bindm, lift. rewrite E. reflexivity.
Qed.
Lemma write_spot n s g nm v s' r : wf wo s -> okt wo s g nm -> vacant wo s g nm v -> unreserved wo rnd s (name_of (hp s) g ++ [nm]) -> storable v -> ~ grouped wo v ->
  write wo rnd tries n g nm v s = (s', Ok (Some r)) -> spot (hp s') r v.
Proof.
  intros W K VC U V ND E. destruct n as [|n]; cbn [write] in E; [discriminate|].
  pose proof (write_keeps wo rnd tries (keys_clean wo ro HP) (values_clean wo ro HP) n) as Hwr. pose proof (write_back wo ro keq rnd tries HP HI str_keys n) as Hrt.
  unfold vacant in *. destruct (np_form v) as [[[c a] ts]|] eqn:F; [|destruct ND; apply (form_none v V) in F; destruct v; try exact F; destruct F].
  assert (SF : is_struct (a_dt a) && stored_as_group wo (a_dt a) = false) by (apply Bool.not_true_is_false; intros X; apply ND; apply (form_grouped _ _ _ _ F); exact X).
  pose proof (form_facts _ _ _ _ V ND F) as O. destruct (fo_kind _ _ _ _ O) as [(K1 & K2 & K3)|(-> & -> & fs & SO & M & SG)].
  - rewrite (form_write _ _ _ _ _ _ _ F) in E.
    destruct (np_stored wo ro keq rnd tries HP HI _ Hwr Hrt s g nm c a ts s' _ W K (proj1 VC) U K1 K2 K3 E)
      as (i & ob & d & f & b & D & Q & ty & E1 & E2 & E3 & [E4 E4'] & E5 & E6 & E7 & E8 & E9).
    injection E1 as <-. eapply P_data; eauto.
  - destruct (compound_stored wo ro keq rnd tries HP HI _ Hwr Hrt c a fs s g nm s' _ SO M SG W K (proj1 VC) U E)
      as (i & ob & d & f & b & D & Q & ty & E1 & E2 & E3 & [E4 E4'] & E5 & E6 & E6' & E7 & E8 & E9).
    injection E1 as <-. eapply P_data; eauto.
Qed.
End Forms.
