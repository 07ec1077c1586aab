(** Writing with the options MATLAB needs gives MATLAB values (for C41). *)
From Verif Require Import Base PathEsc PathEscFacts PosixPath PosixFacts ProcessPathFacts Unicode UnicodeFacts Dec NdArray Value OptionsM StrConv ComplexM Attrs NpDims MColl Hdf5 HeapFacts NpWrite NpRead MarshalW MarshalR FrameFacts WriteFrame ReadFacts RoundSpec RoundNp RoundHeap RoundWrite RoundVal RoundDict Plan Layout LayoutNp MatlabSpec.
Local Open Scope nat_scope.
Local Arguments prod : simpl never.
Local Arguments transpose : simpl never.

(** ** order of elements *)
Lemma F2_len {A B} (R : A -> B -> Prop) l m : Forall2 R l m -> length l = length m.
Proof. induction 1; cbn; congruence. Qed.
Lemma c_pos_ravel dims : forall idx, c_pos dims idx = ravel dims idx.
Proof. induction dims as [|d ds IH]; intros [|i is]; cbn [c_pos ravel]; auto; fold (prod ds); rewrite IH; reflexivity. Qed.
Lemma ravel_snoc sh : forall idx d i, length idx = length sh -> ravel (sh ++ [d]) (idx ++ [i]) = ravel sh idx * d + i.
Proof.
  induction sh as [|n sh IH]; intros [|j idx] d i L; cbn in L; try lia; cbn [app ravel].
  - unfold prod. cbn. lia.
  - rewrite IH by lia. rewrite prod_app. replace (prod [d]) with d by (unfold prod; cbn; lia). nia.
Qed.
Lemma f_pos_ravel dims : forall idx, length idx = length dims -> f_pos dims idx = ravel (rev dims) (rev idx).
Proof.
  induction dims as [|d ds IH]; intros [|i is] L; cbn in L; try lia; [reflexivity|]. cbn [f_pos rev].
  rewrite ravel_snoc by (rewrite !rev_length; lia). rewrite IH by lia. lia.
Qed.
Lemma two_d_eq sh : two_d sh = atleast_2d sh. Proof. reflexivity. Qed.
Lemma two_d_len sh : 2 <= length (two_d sh).
Proof. destruct sh as [|a [|b r]]; cbn; lia. Qed.
Lemma column_transpose {A} dims (l : list A) : length l = prod dims -> column_major dims l (transpose dims l).
Proof.
  intros H. split; [exact H|]. split; [apply transpose_len; exact H|]. intros idx I.
  rewrite f_pos_ravel by (exact (F2_len _ _ _ I)). change (c_pos dims idx) with (ravel dims idx). apply transpose_at; [exact H|exact I].
Qed.

(** ** attributes *)
Section Attrs.
Variable o : options.
Hypotheses (HM : o_matlab_compatible o = true) (HS : o_struct_as_struct o = true).
Definition cls_of (d : dt) : pystr := if is_struct d then lit "struct" else match matlab_class_of d with Some c => c | None => [] end.
Definition dec_of (d : dt) (stored : option dt) : option aval :=
  match d with
  | TS _ | TUni _ | TBool => match stored with Some (TS _) => Some (AI64 1) | Some e => Some (AI64 (Z.of_nat (itemsize e))) | None => None end
  | _ => None
  end.
Definition flds_of (names : list pystr) : option aval := if forallb ascii_str names then Some (AFields names) else None.

Definition lay1 (c : container) (a : arr pyval) (l : list (pystr * areq)) := if o_store_python_metadata o then
      dput (lit "Python.numpy.Container") (QString (container_name c))
      (dput (lit "Python.numpy.UnderlyingType") (QString (dt_name (a_dt a)))
      (dput (lit "Python.Shape") (QVal (AU64s (a_shape a))) l)) else l.
Definition lay2 (a : arr pyval) (w : bool) (l : list (pystr * areq)) := if w || fields_anyway o a then
      let names := map escaped (field_names (a_dt a)) in
      let x := if o_store_python_metadata o then dput (lit "Python.Fields") (QStrs names) l else l in
      if o_matlab_compatible o then
        match matlab_fields names with Some fs => dput (lit "MATLAB_fields") (QVal fs) x | None => x end
      else x
    else l.
Definition lay3 (a : arr pyval) (l : list (pystr * areq)) := if np_empty a then
      let x := if o_store_python_metadata o then dput (lit "Python.Empty") (QVal (AU8 1)) l else l in
      if o_matlab_compatible o then dput (lit "MATLAB_empty") (QVal (AU8 1)) x else x
    else l.
Definition lay4 (a : arr pyval) (stored : option dt) (l : list (pystr * areq)) := if o_matlab_compatible o then
      if is_struct (a_dt a) && o_struct_as_struct o then dput (lit "MATLAB_class") (QString (lit "struct")) l
      else match matlab_class_of (a_dt a) with
           | Some cls =>
               let x := dput (lit "MATLAB_class") (QString cls) l in
               match a_dt a with
               | TS _ | TUni _ | TBool =>
                   match stored with
                   | Some (TS _) => dput (lit "MATLAB_int_decode") (QPyInt 1) x
                   | Some d => dput (lit "MATLAB_int_decode") (QVal (AI64 (Z.of_nat (itemsize d)))) x
                   | None => x
                   end
               | _ => x
               end
           | None => l
           end
    else l.
Definition lay5 (ts : pystr) (l : list (pystr * areq)) := if o_store_python_metadata o && negb (mem_str (lit "Python.Type") (map fst l))
  then dput (lit "Python.Type") (QString ts) l else l.
Lemma np_attrs_layers c a ts pre w st : np_attrs o (c, a) ts pre w st = lay5 ts (lay4 a st (lay3 a (lay2 a w (lay1 c a pre)))).
Proof. reflexivity. Qed.
Local Notation got l k := (match assoc k l with Some q => match req_val q with Ok v => Some v | Err _ => None end | None => None end).

Lemma np_attrs_mat c a ts pre w st : pre = [] \/ pre = [(lit "MATLAB_class", QPyStr (lit "struct"))] ->
  np_incompatible o a = false ->
  let A := fresh_attrs (np_attrs o (c, a) ts pre w st) in
  A k_class = (match ascii_bytes (cls_of (a_dt a)) with Ok b => Some (AStr b) | Err _ => None end) /\
  A k_empty = (if np_empty a then Some (AU8 1) else None) /\
  A k_decode = dec_of (a_dt a) st /\
  A k_fields = (if w || fields_anyway o a then flds_of (map escaped (field_names (a_dt a))) else None).
Proof.
  intros HP HI A. unfold A. rewrite np_attrs_layers. clear A. unfold fresh_attrs.
  unfold np_incompatible in HI. rewrite HM, HS, andb_true_r in HI. cbn [andb] in HI. apply negb_false_iff in HI.
  assert (X : forall k l, k = k_class \/ k = k_empty \/ k = k_decode \/ k = k_fields -> assoc k (lay5 ts l) = assoc k l).
  { intros k l Hk. unfold lay5. destruct (_ && _); [|reflexivity]. rewrite assoc_dput. destruct Hk as [->|[->|[->| ->]]]; reflexivity. }
  rewrite !X by auto. clear X.
  set (l1 := lay1 c a pre).
  assert (A1 : assoc k_decode l1 = None /\ assoc k_empty l1 = None /\ assoc k_fields l1 = None).
  { unfold l1, lay1. clear - HP. assert (P : assoc k_decode pre = None /\ assoc k_empty pre = None /\ assoc k_fields pre = None) by (destruct HP as [-> | ->]; repeat split).
    destruct (o_store_python_metadata o); [|exact P]. rewrite !assoc_dput. exact P. }
  clearbody l1. set (l2 := lay2 a w l1).
  assert (A2 : assoc k_decode l2 = None /\ assoc k_empty l2 = None /\ assoc k_fields l2 = (if w || fields_anyway o a then option_map QVal (flds_of (map escaped (field_names (a_dt a)))) else None)).
  { unfold l2, lay2, flds_of, matlab_fields. rewrite HM. destruct A1 as (P1 & P2 & P3). set (ff := map escaped _). clearbody ff. clear - P1 P2 P3.
    destruct (w || fields_anyway o a); [|auto]. destruct (o_store_python_metadata o), (forallb ascii_str ff); cbv zeta; rewrite ?assoc_dput; auto. }
  clearbody l2. set (l3 := lay3 a l2).
  assert (A3 : assoc k_decode l3 = None /\ assoc k_empty l3 = (if np_empty a then Some (QVal (AU8 1)) else None) /\ assoc k_fields l3 = assoc k_fields l2).
  { unfold l3, lay3. rewrite HM. destruct A2 as (P1 & P2 & _). clear - P1 P2. destruct (np_empty a); [|auto]. destruct (o_store_python_metadata o); cbv zeta; rewrite ?assoc_dput; auto. }
  clearbody l3.
  assert (G : forall cl, let l := dput (lit "MATLAB_class") (QString cl) l3 in
    assoc k_class l = Some (QString cl) /\ assoc k_empty l = assoc k_empty l3 /\ assoc k_decode l = None /\ assoc k_fields l = assoc k_fields l3).
  { intros cl l. unfold l. rewrite !assoc_dput. destruct A3 as (Q & _). auto. }
  assert (G2 : forall cl q, let l := dput (lit "MATLAB_int_decode") q (dput (lit "MATLAB_class") (QString cl) l3) in
    assoc k_class l = Some (QString cl) /\ assoc k_empty l = assoc k_empty l3 /\ assoc k_decode l = Some q /\ assoc k_fields l = assoc k_fields l3).
  { intros cl q l. unfold l. rewrite !assoc_dput. auto. }
  set (l4 := lay4 a st l3).
  assert (L4 : exists cl, cls_of (a_dt a) = cl /\ assoc k_class l4 = Some (QString cl) /\ assoc k_empty l4 = assoc k_empty l3 /\ assoc k_fields l4 = assoc k_fields l3 /\ got l4 k_decode = dec_of (a_dt a) st).
  { unfold l4, lay4, cls_of. rewrite HM, HS, andb_true_r. destruct (is_struct (a_dt a)) eqn:SS.
    - exists (lit "struct"). destruct (G (lit "struct")) as (H1 & H2 & H3 & H4). rewrite H1, H2, H3, H4. repeat split. destruct (a_dt a); try discriminate SS. reflexivity.
    - rewrite orb_false_r in HI. destruct (matlab_class_of (a_dt a)) as [cl|] eqn:MC; [|discriminate HI]. exists cl. split; [reflexivity|].
      assert (Y : dec_of (a_dt a) st = None -> forall l, l = dput (lit "MATLAB_class") (QString cl) l3 -> assoc k_class l = Some (QString cl) /\ assoc k_empty l = assoc k_empty l3 /\ assoc k_fields l = assoc k_fields l3 /\ got l k_decode = dec_of (a_dt a) st).
      { intros D l ->. destruct (G cl) as (H1 & H2 & H3 & H4). rewrite H1, H2, H3, H4, D. auto. }
      assert (Z : forall q v, req_val q = Ok v -> dec_of (a_dt a) st = Some v -> forall l, l = dput (lit "MATLAB_int_decode") q (dput (lit "MATLAB_class") (QString cl) l3) -> assoc k_class l = Some (QString cl) /\ assoc k_empty l = assoc k_empty l3 /\ assoc k_fields l = assoc k_fields l3 /\ got l k_decode = dec_of (a_dt a) st).
      { intros q v Hq D l ->. destruct (G2 cl q) as (K1 & K2 & K3 & K4). rewrite K1, K2, K3, K4, D, Hq. auto. }
      clear - Y Z. cbv zeta. destruct (a_dt a); try (apply Y; reflexivity); (destruct st as [[]|]; [(eapply Z; [| |reflexivity]; reflexivity)..|apply Y; reflexivity]). }
  clearbody l4. destruct L4 as (cl & EC & L1 & L2 & L3 & L5). rewrite EC. destruct A3 as (_ & P2 & P3). destruct A2 as (_ & _ & Q3).
  split; [rewrite L1; cbn [req_val]; destruct (ascii_bytes cl); reflexivity|].
  split; [rewrite L2, P2; destruct (np_empty a); reflexivity|]. split; [exact L5|]. rewrite L3, P3, Q3. destruct (w || _); [|reflexivity]; destruct (flds_of _); reflexivity.
Qed.

Lemma dict_attrs_mat ts codes :
  let A := fresh_attrs (dict_attrs o ts true codes) in
  A k_class = Some (AStr (lit "struct")) /\ A k_empty = None /\
  A k_fields = (match codes with Some cs => flds_of (map (fun c => escaped (snd c)) cs) | None => None end).
Proof.
  intros A. unfold A, fresh_attrs, dict_attrs, flds_of, matlab_fields. rewrite HM. cbn [andb].
  destruct codes as [cs|]; [destruct (forallb ascii_str (map (fun c => escaped (snd c)) cs))|];
  destruct (o_store_python_metadata o); rewrite ?assoc_dput; unfold k_class, k_empty, k_fields; lits; cbn [assoc]; lits; repeat split.
Qed.
End Attrs.

(** ** lists *)
Lemma F2_map2 {A B C} (R : B -> C -> Prop) (f : A -> B) (g : A -> C) l : Forall (fun x => R (f x) (g x)) l -> Forall2 R (map f l) (map g l).
Proof. induction 1; constructor; auto. Qed.
Lemma gather_F2 {A B} (R : A -> B -> Prop) f n l m : Forall2 R l m -> Forall2 R (gather f n l) (gather f n m).
Proof.
  intros H. unfold gather. induction (seq 0 n) as [|k r IH]; cbn [flat_map]; [constructor|]. apply Forall2_app; [|exact IH].
  assert (X : forall k, match nth_error l k, nth_error m k with Some x, Some y => R x y | None, None => True | _, _ => False end).
  { clear - H. induction H as [|x y l m Hx H IH]; intros [|k]; cbn; auto. apply IH. }
  specialize (X (f k)). destruct (nth_error l (f k)), (nth_error m (f k)); try contradiction; repeat constructor. exact X.
Qed.
Lemma transpose_F2 {A B} (R : A -> B -> Prop) sh l m : Forall2 R l m -> Forall2 R (transpose sh l) (transpose sh m).
Proof. apply gather_F2. Qed.
Lemma transpose_Forall {A} (P : A -> Prop) sh l : Forall P l -> Forall P (transpose sh l).
Proof. intros H. rewrite Forall_forall in *. intros x Hx. apply H. eapply transpose_in. exact Hx. Qed.
Lemma F2_transpose_back {A B} (R : A -> B -> Prop) dims (l : list A) (m : list B) : length l = prod dims -> Forall2 R (transpose dims l) m ->
  exists m0, Forall2 R l m0 /\ column_major dims m0 m.
Proof.
  intros L H. exists (transpose (rev dims) m). pose proof (F2_len _ _ _ H) as LM. rewrite transpose_len in LM by exact L. split.
  - rewrite <- (transpose_invol dims l L). apply transpose_F2. exact H.
  - rewrite <- (transpose_invol (rev dims) m) at 2 by (rewrite prod_rev; auto). rewrite rev_involutive. apply column_transpose. rewrite transpose_len; rewrite prod_rev; auto.
Qed.
Lemma single_transpose {A} sh (x : A) : prod sh = 1 -> transpose sh [x] = [x].
Proof.
  intros H. pose proof (transpose_len sh [x] (eq_sym H)) as L. rewrite H in L. destruct (transpose sh [x]) as [|y [|z r]] eqn:E; try discriminate.
  assert (I : In y [x]) by (apply (transpose_in sh); rewrite E; left; reflexivity). destruct I as [->|[]]. reflexivity.
Qed.
Lemma mapr_F2 {A B} (f : A -> res B) l : forall m, mapr f l = Ok m -> Forall2 (fun x y => f x = Ok y) l m.
Proof.
  induction l as [|x l IH]; intros m H; cbn [mapr] in H; [injection H as <-; constructor|].
  destruct (f x) as [y|] eqn:E; [|discriminate]. cbn [bindr] in H. destruct (mapr f l) as [ys|]; [|discriminate]. injection H as <-. constructor; auto.
Qed.

(** ** numbers *)
Definition num_table : list (dt * pystr) :=
  [(TBool, lit "logical"); (TI 1, lit "int8"); (TI 2, lit "int16"); (TI 4, lit "int32"); (TI 8, lit "int64");
   (TU 1, lit "uint8"); (TU 2, lit "uint16"); (TU 4, lit "uint32"); (TU 8, lit "uint64");
   (TF 4, lit "single"); (TF 8, lit "double"); (TC 8, lit "single"); (TC 16, lit "double")].
Lemma class_table d cls : class_for d = Some cls -> In (d, cls) num_table.
Proof.
  destruct d as [|w|w|w|w|w|w| | |fs]; cbn [class_for]; try discriminate; [intros [= <-]; left; reflexivity|..];
    do 17 (try (destruct w as [|w]; [try discriminate; intros [= <-]; cbn; tauto|])); discriminate.
Qed.
Definition num_dt (d : dt) : dt := match d with TBool => TU 1 | TC w => mat_complex (w / 2) | _ => d end.
Definition num_conv (d : dt) (e : elem pyval) : elem pyval := match d with TBool => bool_to_u8 e | TC _ => encode_elem e | _ => e end.
Definition show1 (e : elem pyval) : mnum :=
  match e with XBool b => MInt (if b then 1 else 0) | XInt z => MInt z | XFlt x => MFlt x | XCpx x y => MCpx x y | _ => MInt 0 end.
Ltac table H := apply class_table in H; unfold num_table in H; cbn [In] in H;
  repeat (destruct H as [H|H]; [injection H as <- <-|]); [..|destruct H].
Lemma num_elem d cls e : class_for d = Some cls -> holds_num d e -> number cls (num_dt d) (dec_of d (Some (num_dt d))) (noptr (num_conv d e)) (show1 e).
Proof.
  intros H HH. table H; destruct e; try (destruct HH); cbn [num_dt num_conv dec_of noptr show1 bool_to_u8 encode_elem map].
  1: { destruct b; apply N_logical; auto. }
  all: try (apply N_int; [cbn; tauto|exact (conj H H0)]).
  all: try (apply N_real; cbn; tauto).
  all: apply N_complex; cbn; tauto.
Qed.
Lemma num_shown d cls e : class_for d = Some cls -> holds_num d e -> shown e (show1 e).
Proof. intros H HH. table H; destruct e; try (destruct HH); constructor. Qed.
Lemma num_cls d cls : class_for d = Some cls -> cls_of d = cls /\ ascii_bytes cls = Ok cls /\ In cls num_classes /\ matlab_class_of d <> None /\ is_strdt d = false /\ d <> TObj /\
  stored_dt (num_dt d) = num_dt d /\ num_dt d <> TObj /\ (forall l sh, a_dt (h5py_present (A := nat) (mkArr (num_dt d) sh l)) = num_dt d) /\ is_struct d = false.
Proof.
  intros H. table H; (split; [vm_compute; reflexivity|]); (split; [vm_compute; reflexivity|]); (split; [vm_compute; tauto|]); repeat split; try discriminate; try (vm_compute; discriminate).
Qed.
