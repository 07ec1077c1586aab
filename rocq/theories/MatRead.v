(** Reading MATLAB values that have no Python metadata. *)
From Verif Require Import Base PathEsc Unicode UnicodeFacts Dec NdArray Value OptionsM StrConv ComplexM Attrs NpDims MColl MCollFacts Hdf5 HeapFacts NpWrite NpRead MarshalW MarshalR RoundNp MatlabSpec MatlabFacts MatReadSpec.
Local Open Scope nat_scope.
Local Arguments prod : simpl never.
Local Arguments transpose : simpl never.

Lemma F2_imp {A B} (P Q : A -> B -> Prop) l m : (forall a b, P a b -> Q a b) -> Forall2 P l m -> Forall2 Q l m.
Proof. intros H. induction 1; constructor; auto. Qed.
Lemma column_back {A} sh (l : list A) : length l = prod sh -> column_major (rev sh) (transpose sh l) l.
Proof.
  intros H. pose proof (column_transpose (rev sh) (transpose sh l)) as C. rewrite transpose_invol in C by exact H. apply C. rewrite prod_rev. apply transpose_len. exact H.
Qed.

(** ** arrays of numbers *)
Definition up (e : elem nat) : elem pyval := emap (fun _ => VNone) e.
(** the dtype read and the element read *)
Definition to_dt (cls : pystr) (d : dt) : dt :=
  if eqb_str cls (lit "logical") then TBool else match d with TStruct [(_, (TF w, _)); _] => TC (2 * w) | _ => d end.
Definition to_elem (cls : pystr) (d : dt) (e : elem nat) : elem pyval :=
  if eqb_str cls (lit "logical") then to_bool (up e) else match d with TStruct _ => decode_elem false (up e) | _ => up e end.

Definition class_names : list pystr := num_classes ++ [lit "cell"; lit "struct"; lit "canonical empty"].
Lemma class_decodes c : In c class_names -> bytes_decode_utf8 c = Ok c.
Proof.
  assert (X : Forall (fun c => bytes_decode_utf8 c = Ok c) class_names) by (repeat constructor; vm_compute; reflexivity).
  rewrite Forall_forall in X. apply X.
Qed.
Lemma class_dtype c : In c class_names -> exists d, matlab_dtype c = Some d.
Proof.
  assert (X : Forall (fun c => match matlab_dtype c with Some _ => True | None => False end) class_names) by (repeat constructor; vm_compute; exact I).
  rewrite Forall_forall in X. intros H. specialize (X c H). destruct (matlab_dtype c) as [d|]; [eauto|destruct X].
Qed.
Lemma number_class cls d dec e m : number cls d dec e m -> In cls num_classes.
Proof.
  intros H. destruct H; unfold num_classes; cbn; auto.
  - cbn in H. repeat destruct H as [[= <- <-]|H]; auto 20.
  - cbn in H. repeat destruct H as [[= <- <-]|H]; auto 20.
  - cbn in H. repeat destruct H as [[= <- <-]|H]; auto 20.
Qed.
Lemma number_elem cls d dec e m : number cls d dec e m -> cls <> lit "char" ->
  class_for (to_dt cls d) = Some cls /\ holds_num (to_dt cls d) (to_elem cls d e) /\ shown (to_elem cls d e) m.
Proof.
  intros H NC. destruct H as [cls d z I F|z Z|w z W F|cls w x I|cls w x y I].
  - cbn in I. repeat destruct I as [[= <- <-]|I]; [..|destruct I]; (split; [reflexivity|]); (split; [exact F|constructor]).
  - split; [reflexivity|]. split; [destruct Z; subst; exact I|]. destruct Z; subst; constructor.
  - congruence.
  - cbn in I. repeat destruct I as [[= <- <-]|I]; [..|destruct I]; (split; [reflexivity|]); (split; [exact Logic.I|constructor]).
  - cbn in I. repeat destruct I as [[= <- <-]|I]; [..|destruct I]; (split; [reflexivity|]); (split; [exact Logic.I|constructor]).
Qed.
Lemma number_np cls d0 sh l dec (e : elem nat) m fields d : number cls d dec e m -> cls <> lit "char" ->
  np_matlab cls d0 false fields (amap (fun _ => VNone) (h5py_present (mkArr d sh l))) =
  Ok (VNp CNdarray (mkArr (to_dt cls d) (rev sh) (transpose sh (map (to_elem cls d) l)))).
Proof.
  intros H NC. assert (P : h5py_present (mkArr d sh l) = mkArr d sh l).
  { destruct H as [cls d z I F|z Z|w z W F|cls w x I|cls w x y I]; try reflexivity. cbn in I. repeat destruct I as [[= <- <-]|I]; try reflexivity. destruct I. }
  rewrite P. unfold np_matlab. cbn [bindr]. unfold amap, tr. cbn [a_dt a_shape a_data].
  destruct H as [cls d z I F|z Z|w z W F|cls w x I|cls w x y I].
  - cbn in I. repeat destruct I as [[= <- <-]|I]; [..|destruct I]; lits; cbn [orb bindr a_dt]; reflexivity.
  - lits. cbn [orb bindr a_dt a_shape a_data]. rewrite <- transpose_map, map_map. reflexivity.
  - congruence.
  - cbn in I. destruct I as [[= <- <-]|[[= <- <-]|[]]]; lits; cbn [orb bindr a_dt]; unfold decode_complex; cbn [a_dt a_shape a_data bindr]; reflexivity.
  - cbn in I. destruct I as [[= <- <-]|[[= <- <-]|[]]]; lits; cbn [orb bindr]; unfold decode_complex, mat_complex; cbn [a_dt a_shape a_data];
      change (part_of (lit "real")) with PReal; change (part_of (lit "imag")) with PImag; cbn [bindr a_dt a_shape a_data]; rewrite <- transpose_map, map_map; reflexivity.
Qed.

(** ** text *)
Lemma concat_chunks {A} n k : forall l : list A, length l = n * k -> concat (chunks n k l) = l /\ Forall (fun r => length r = n) (chunks n k l) /\ length (chunks n k l) = k.
Proof.
  induction k as [|k IH]; intros l H; cbn [chunks concat].
  - destruct l; [repeat constructor|cbn in H; lia].
  - destruct (IH (skipn n l)) as (A1 & A2 & A3); [rewrite skipn_length; lia|]. rewrite A1, firstn_skipn. split; [reflexivity|]. split; [|cbn; lia].
    constructor; [|exact A2]. rewrite firstn_length. lia.
Qed.
Lemma removelast_prod sh : sh <> [] -> prod sh = prod (removelast sh) * last sh 0.
Proof. intros H. rewrite (app_removelast_last 0 H) at 1. rewrite prod_app. unfold prod at 2. cbn. lia. Qed.
Lemma longest_eq ss : longest ss = Nat.max 1 (list_max (map (@length N) ss)).
Proof. unfold longest, list_max. induction (map (@length N) ss) as [|x l IH]; cbn [fold_right]; lia. Qed.
Lemma enc_good e s : encodes e s -> (last s 1 mod 256 <> 0)%N -> good_str s.
Proof.
  intros H L. split; [|right; exact L]. clear L. induction H as [|c r s HF B _ IH|x y r s X Y _ IH]; constructor; auto; unfold is_scalar, max_cp, is_surrogate, half in *; [lia|].
  assert (Z : ((x - 55296) * 1024 <= 1023 * 1024)%N) by nia. lia.
Qed.
Lemma enc_whole e s : encodes e s -> Forall (fun c => ~ half c) e -> e = s.
Proof.
  induction 1 as [|c r s HF B _ IH|x y r s X Y _ IH]; intros F; [reflexivity| |].
  - inversion F; subst. f_equal. auto.
  - inversion F as [|? ? HX]; subst. exfalso. apply HX. unfold half. lia.
Qed.
Lemma enc_16 e s : encodes e s -> Forall (fun c => (c < 65536)%N) e -> e = flat_map utf16_enc1 s.
Proof.
  induction 1 as [|c r s HF B _ IH|x y r s X Y _ IH]; intros F; [reflexivity| |]; inversion F as [|? ? F1 F2]; subst; cbn [flat_map]; unfold utf16_enc1 at 1.
  - destruct (N.ltb_spec c 65536); [|lia]. cbn [app]. f_equal. auto.
  - inversion F2 as [|? ? F3 F4]; subst. rewrite <- (IH F4). set (p := ((x - 55296) * 1024 + (y - 56320))%N).
    replace (65536 + (x - 55296) * 1024 + (y - 56320))%N with (65536 + p)%N by (unfold p; lia). destruct (N.ltb_spec (65536 + p) 65536); [lia|].
    replace (65536 + p - 65536)%N with p by lia.
    assert (D : (p / 1024 = x - 55296)%N) by (unfold p; rewrite N.div_add_l by lia; rewrite N.div_small by lia; lia).
    assert (M : (p mod 1024 = y - 56320)%N) by (unfold p; rewrite N.add_comm, N.mod_add by lia; apply N.mod_small; lia).
    rewrite D, M. cbn [app]. f_equal; [lia|]. f_equal. lia.
Qed.
Lemma row_decodes w r s : w = 2 \/ w = 4 -> (w = 2 -> Forall (fun c => (c < 65536)%N) r) -> (w = 4 -> Forall (fun c => ~ half c) r) -> row_text r s -> (last s 1 mod 256 <> 0)%N -> decode_chunk w r = Ok s.
Proof.
  intros W S2 S4 (e & z & -> & E) L. pose proof (enc_good e s E L) as G.
  replace (e ++ repeat 0%N z) with (pad (length e + z) e) in * by (unfold pad; f_equal; f_equal; lia).
  destruct W as [-> | ->].
  - specialize (S2 eq_refl). unfold pad in S2. apply Forall_app in S2. rewrite (enc_16 e s E (proj1 S2)). apply good16. exact G.
  - specialize (S4 eq_refl). unfold pad in S4. apply Forall_app in S4. rewrite (enc_whole e s E (proj1 S4)). apply good32. exact G.
Qed.
Lemma chars_np (pairs : bool) d0 fields w dec sh l data : w = 2 \/ w = 4 -> sh <> [] -> length l = prod sh -> prod sh <> 0 ->
  Forall2 (number (lit "char") (TU w) dec) l data ->
  (forall rs, char_rows (rev sh) data rs -> Forall (fun r => exists s, row_text r s /\ (last s 1 mod 256 <> 0)%N /\ (pairs = false -> Forall (fun c => ~ half c) r)) rs) ->
  (w = 4 -> pairs = true -> Forall (fun e => forall z, e = XInt z -> ~ half (Z.to_N z)) l) ->
  exists rs ss, char_rows (rev sh) data rs /\ Forall2 row_text rs ss /\ Forall (fun s => last s 1%N <> 0%N) ss /\
    np_matlab (lit "char") d0 false fields (amap (fun _ => VNone) (mkArr (TU w) sh l)) =
      Ok (VNp CNdarray (mkArr (TUni (longest ss)) (removelast (rev sh) ++ [1]) (map XStr ss))).
Proof.
  intros W NS LL NZ HN HR HW. set (dims := rev sh) in *. set (L := transpose sh (map up l)). set (us := of_units L).
  assert (ND : dims <> []) by (unfold dims; intros E; apply NS; rewrite <- (rev_involutive sh), E; reflexivity).
  assert (PD : prod dims = prod sh) by apply prod_rev.
  assert (LU : length us = prod sh) by (unfold us, of_units; rewrite map_length; apply transpose_len; rewrite map_length; exact LL).
  assert (TX : text us = transpose sh data).
  { unfold us, of_units, text, L. rewrite map_map, transpose_map, map_map, <- transpose_map. f_equal. clear - HN.
    induction HN as [|e m l data H _ IH]; [reflexivity|]. cbn [map]. rewrite IH. f_equal.
    inversion H as [cls d z I F E1 E2 E3 E4 E5| |w' z W' F E1 E2| |]; subst; cbn [up emap].
    - exfalso. cbn in I. repeat destruct I as [I|I]; try discriminate I. exact I.
    - cbn [fits] in F. rewrite Z2N.id by lia. reflexivity. }
  assert (SM : w = 2 -> Forall (fun c => (c < 65536)%N) us).
  { intros ->. unfold us, of_units, L. rewrite Forall_map. apply transpose_Forall. rewrite Forall_map. clear - HN.
    induction HN as [|e m l data H _ IH]; constructor; [|exact IH].
    inversion H as [cls d z I F E1 E2 E3 E4 E5| |w' z W' F E1 E2| |]; subst; cbn [up emap].
    - exfalso. cbn in I. repeat destruct I as [I|I]; try discriminate I. exact I.
    - unfold fits in F. change (2 ^ (8 * Z.of_nat 2))%Z with 65536%Z in F. lia. }
  assert (SW : w = 4 -> pairs = true -> Forall (fun c => ~ half c) us).
  { intros W4 Hp. specialize (HW W4 Hp). unfold us, of_units, L. rewrite Forall_map. apply transpose_Forall. rewrite Forall_map. clear - HW HN.
    revert HW. induction HN as [|e m l data H _ IH]; intros HW; constructor; [|inversion HW; auto].
    inversion HW as [|? ? H1 _]; subst. inversion H as [cls d z I F E1 E2 E3 E4 E5| |w' z W' F E1 E2| |]; subst; cbn [up emap]; [|apply H1; reflexivity].
    exfalso. cbn in I. repeat destruct I as [I|I]; try discriminate I. exact I. }
  set (n := last dims 0). set (k := prod (removelast dims)).
  assert (PK : prod sh = n * k) by (rewrite <- PD, (removelast_prod dims ND); unfold n, k; lia).
  assert (NN : n <> 0) by nia.
  destruct (concat_chunks n k us) as (C1 & C2 & C3); [lia|]. set (rs := chunks n k us) in *.
  assert (CR : char_rows dims data rs).
  { split; [exact C3|]. split; [exact C2|]. rewrite C1, TX. apply column_back. rewrite <- (F2_len _ _ _ HN). exact LL. }
  specialize (HR rs CR).
  assert (X : exists ss, Forall2 (fun r s => row_text r s /\ (last s 1 mod 256 <> 0)%N /\ (pairs = false -> Forall (fun c => ~ half c) r)) rs ss).
  { clear - HR. induction HR as [|r rs (s & H) _ (ss & IH)]; [exists []; constructor|]. exists (s :: ss). constructor; assumption. }
  destruct X as (ss & X). exists rs, ss. split; [exact CR|].
  assert (LZ : Forall (fun s => last s 1%N <> 0%N) ss).
  { clear - X. induction X as [|r s rs ss (_ & H & _) _ IH]; constructor; [|exact IH]. intros E. rewrite E in H. apply H. reflexivity. }
  split; [|split; [exact LZ|]].
  { eapply F2_imp; [|exact X]. intros r s H. apply H. }
  unfold np_matlab. cbn [bindr]. lits. cbn [orb bindr]. unfold amap, tr. cbn [a_dt a_shape a_data]. fold dims. unfold convert_to_numpy_str. cbn [a_dt a_shape a_data].
  assert (E1 : negb ((w =? 1) || (w =? 2) || (w =? 4)) = false) by (destruct W as [-> | ->]; reflexivity). rewrite E1.
  assert (En : n = last dims 0) by reflexivity. assert (Ek : k = prod (removelast dims)) by reflexivity. clearbody n k dims.
  destruct dims as [|x dims'] eqn:ED; [congruence|]. rewrite <- ED in *. rewrite <- En. destruct (Nat.eqb_spec n 0) as [|_]; [lia|]. rewrite Nat.mod_same by exact NN. cbn [orb negb Nat.eqb].
  rewrite Nat.div_same by exact NN. assert (E2 : prod (removelast dims ++ [1]) = k) by (rewrite prod_app; unfold prod at 2; cbn; lia). rewrite E2.
  change (map (emap (fun _ : nat => VNone)) l) with (map up l). fold L. fold us. fold rs.
  rewrite (mapr_ok_list _ rs ss).
  - cbn [bindr]. unfold str_array. rewrite longest_eq. do 3 f_equal. apply map_ext_in. intros s Hs. f_equal.
    rewrite Forall_forall in LZ. specialize (LZ s Hs). clear - LZ. destruct s as [|c s]; [reflexivity|]. assert (NE : c :: s <> []) by discriminate. rewrite (app_removelast_last 1%N NE). apply strip0_nz. exact LZ.
  - assert (SR : w = 2 -> Forall (fun r => Forall (fun c => (c < 65536)%N) r) rs).
    { intros W2. specialize (SM W2). rewrite <- C1 in SM. clear - SM. induction rs as [|r rs IH]; constructor; cbn [concat] in SM; apply Forall_app in SM; destruct SM as [S1 S2]; [exact S1|apply IH; exact S2]. }
    assert (SX : w = 4 -> pairs = true -> Forall (fun r => Forall (fun c => ~ half c) r) rs).
    { intros W4 Hp. specialize (SW W4 Hp). rewrite <- C1 in SW. clear - SW. induction rs as [|r rs IH]; constructor; cbn [concat] in SW; apply Forall_app in SW; destruct SW as [S1 S2]; [exact S1|apply IH; exact S2]. }
    clear - W X SR SX. induction X as [|r s rs ss (H1 & H2 & H3) _ IH]; constructor.
    + apply row_decodes; auto; intros E; [specialize (SR E); inversion SR; assumption|]. destruct pairs; [|auto]. specialize (SX E eq_refl). inversion SX; assumption.
    + apply IH; intros E; [specialize (SR E); inversion SR; assumption|]. intros Hp. specialize (SX E Hp). inversion SX; assumption.
Qed.

(** ** reading *)
Section Reading.
Variables (o : options) (keq : pyval -> pyval -> bool) (h : heap) (P : nat -> Prop).
Hypothesis HP : forall j k, P j -> leads h j k -> P k.
Hypothesis HA : forall j ob, P j -> h j = Some ob -> Forall (fun k => o_attrs ob k = None) python_attrs /\ name_text (name_of h j) <> o_refs o /\
  match o_body ob with BGroup ls => NoDup (map fst ls) | BData _ _ => True end.
Notation dicts := (o_structs_as_dicts o).
Notation rd := (read o keq h).

Definition reads (i : nat) (v : pyval) : Prop := exists N, forall n, N <= n -> rd n i = Ok v.
(** numpy objects are arrays with axes *)
Definition solid (v : pyval) : Prop := match v with VNp CNdarray a => a_shape a <> [] | VNp _ _ => False | _ => True end.
Definition gives (i : nat) (m : mval) : Prop := exists v, seen dicts m v /\ solid v /\ reads i v.

Lemma bare ob : Forall (fun k => o_attrs ob k = None) python_attrs ->
  o_attrs ob (lit "Python.Type") = None /\ o_attrs ob (lit "Python.Shape") = None /\ o_attrs ob (lit "Python.Empty") = None /\
  o_attrs ob (lit "Python.numpy.UnderlyingType") = None /\ o_attrs ob (lit "Python.numpy.Container") = None /\ o_attrs ob (lit "Python.Fields") = None.
Proof. intros H. unfold python_attrs in H. repeat match goal with X : Forall _ (_ :: _) |- _ => inversion X; clear X; subst end. auto 10. Qed.

Definition plain_ra (c : option pystr) (a : attrs) : rattrs := mkRA None None None None false None c (attr_is1 a k_empty) (attr_fields a k_fields).
Lemma read_at_attrs ob c : Forall (fun k => o_attrs ob k = None) python_attrs -> o_attrs ob k_class = option_map AStr c -> (forall x, c = Some x -> In x class_names) ->
  read_attrs (o_attrs ob) = Ok (plain_ra c (o_attrs ob)) /\ attr_str (o_attrs ob) (lit "Python.Type") = Ok None /\ attr_str (o_attrs ob) (lit "MATLAB_class") = Ok c.
Proof.
  intros B C K. destruct (bare ob B) as (B1 & B2 & B3 & B4 & B5 & B6).
  assert (A1 : attr_str (o_attrs ob) (lit "Python.Type") = Ok None) by (unfold attr_str; rewrite B1; reflexivity).
  assert (A2 : attr_str (o_attrs ob) (lit "MATLAB_class") = Ok c).
  { unfold attr_str. fold k_class. rewrite C. destruct c as [c|]; [|reflexivity]. cbn [option_map]. rewrite class_decodes by (apply K; reflexivity). reflexivity. }
  split; [|split; assumption]. unfold read_attrs. rewrite A1, A2. unfold attr_str. rewrite B4, B5. cbn [bindr]. unfold attr_shape, attr_is1, attr_strs. rewrite B2, B3, B6. reflexivity.
Qed.
Lemma read_step n i ob c : P i -> h i = Some ob -> o_attrs ob k_class = option_map AStr c -> (forall x, c = Some x -> In x class_names) ->
  rd (S n) i = match o_body ob with
               | BData a _ => do d <- read_array h (rd n) a; np_finish o (plain_ra c (o_attrs ob)) d
               | BGroup ls => do r <- read_group o h (rd n) (plain_ra c (o_attrs ob)) ls;
                              match r with inl v => Ok v | inr d => np_finish o (plain_ra c (o_attrs ob)) d end
               end.
Proof.
  intros Hi E C K. destruct (HA i ob Hi E) as (B & _). destruct (read_at_attrs ob c B C K) as (R1 & R2 & R3).
  cbn [read]. unfold read_value. rewrite E, R2, R3. cbn [bindr reader_kind]. unfold np_read. rewrite R1. reflexivity.
Qed.
Lemma finish_class c a d t : matlab_dtype c = Some t -> np_finish o (plain_ra (Some c) a) d = np_matlab c t (attr_is1 a k_empty) (attr_fields a k_fields) d.
Proof. intros H. unfold np_finish. cbn [plain_ra ra_type ra_mclass ra_mempty ra_mfields]. rewrite H. reflexivity. Qed.
Lemma reads_step i v : (exists N, forall n, N <= n -> rd (S n) i = Ok v) -> reads i v.
Proof. intros [N H]. exists (S N). intros [|n] L; [lia|]. apply H. lia. Qed.

Lemma not_empty a : a k_empty = None -> attr_is1 a k_empty = false.
Proof. intros H. unfold attr_is1. rewrite H. reflexivity. Qed.
Lemma is_empty a : a k_empty = Some (AU8 1) -> attr_is1 a k_empty = true.
Proof. intros H. unfold attr_is1. rewrite H. reflexivity. Qed.
Lemma rev_ne {A} (l : list A) : 2 <= length l -> l <> [] /\ rev l <> [].
Proof. intros H. split; intros E; [rewrite E in H; cbn in H; lia|]. rewrite <- (rev_involutive l), E in H. cbn in H. lia. Qed.
Lemma num_names c : In c num_classes -> In c class_names. Proof. intros H. apply in_or_app. left. exact H. Qed.

Lemma gives_num pairs i ob cls a f data : (pairs = true -> wide_whole h) -> P i -> h i = Some ob -> o_attrs ob k_class = Some (AStr cls) -> o_attrs ob k_empty = None ->
  o_body ob = BData a f -> 2 <= length (a_shape a) -> length (a_data a) = prod (a_shape a) -> prod (a_shape a) <> 0 ->
  Forall2 (number cls (a_dt a) (o_attrs ob k_decode)) (a_data a) data -> readable dicts pairs (MArr cls (rev (a_shape a)) data) -> gives i (MArr cls (rev (a_shape a)) data).
Proof.
  intros HW Hi E C M B L1 L2 L3 HN HR. destruct a as [d sh l]. cbn [a_dt a_shape a_data] in *. destruct (rev_ne sh L1) as [NS NR].
  assert (X : exists e m, In e l /\ number cls d (o_attrs ob k_decode) e m).
  { destruct HN as [|e m l data H HN]; [cbn in L2; congruence|]. exists e, m. split; [left; reflexivity|exact H]. }
  destruct X as (e & m & _ & X). pose proof (number_class _ _ _ _ _ X) as CN. pose proof (num_names _ CN) as CN'. destruct (class_dtype _ CN') as (t & Ht).
  assert (DN : data <> []) by (intros ->; inversion HN; subst; cbn in L2; congruence).
  assert (ST : forall n, rd (S n) i = np_matlab cls t false (attr_fields (o_attrs ob) k_fields) (amap (fun _ => VNone) (h5py_present (mkArr d sh l)))).
  { intros n. rewrite (read_step n i ob (Some cls) Hi E C) by (intros x [= <-]; exact CN'). rewrite B. unfold read_array. cbn [a_dt a_shape a_data].
    assert (Y : exists z, (match d with TRef => True | _ => False end -> False) /\ z = 0) by (exists 0; split; [inversion X; subst; try tauto; match goal with I : In _ int_types |- _ => cbn in I; repeat destruct I as [[= <- <-]|I]; tauto end|reflexivity]).
    destruct Y as (_ & Y & _). destruct d; try (exfalso; apply Y; exact I); cbn [bindr]; rewrite (finish_class _ _ _ t Ht), (not_empty _ M); reflexivity. }
  destruct (list_eq_dec N.eq_dec cls (lit "char")) as [->|NC].
  - assert (W : exists w, (w = 2 \/ w = 4) /\ d = TU w).
    { inversion X; subst; eauto; match goal with I : In _ _ |- _ => cbn in I; repeat destruct I as [I|I]; try discriminate I; destruct I end. }
    destruct W as (w & W & ->). inversion HR as [? ? ? NN| ? ? RR | |]; subst; [exfalso; apply NN; reflexivity|].
    destruct (chars_np pairs t (attr_fields (o_attrs ob) k_fields) w (o_attrs ob k_decode) sh l data W NS L2 L3 HN RR (fun W4 Hp => HW Hp i ob (mkArr (TU w) sh l) f E B (f_equal TU W4) C)) as (rs & ss & R1 & R2 & R3 & R4).
    eexists. split; [eapply Se_char; eassumption|]. split; [cbn; destruct (removelast (rev sh)); discriminate|].
    apply reads_step. exists 0. intros n _. rewrite ST. exact R4.
  - eexists. split; [eapply (Se_num dicts cls (rev sh) data (to_dt cls d)) with (l' := map (to_elem cls d) l) | split; [|apply reads_step; exists 0; intros n _; rewrite ST; eapply number_np; eassumption]].
    + exact DN.
    + apply (number_elem _ _ _ _ _ X NC).
    + apply transpose_Forall. rewrite Forall_map. clear - HN NC. induction HN as [|x y l data H _ IH]; constructor; [|exact IH]. apply (number_elem _ _ _ _ _ H NC).
    + apply column_back. rewrite map_length. exact L2.
    + clear - HN NC. induction HN as [|x y l data H _ IH]; constructor; [|exact IH]. apply (number_elem _ _ _ _ _ H NC).
    + exact NR.
Qed.

(** arrays without elements *)
Lemma as_shape_dims dims : as_shape (amap (fun _ : nat => VNone) (dims_data dims)) = dims.
Proof. unfold as_shape, amap, dims_data. cbn [a_data]. rewrite !map_map. cbn [emap]. rewrite <- (map_id dims) at 2. apply map_ext. intros n. apply Nat2Z.id. Qed.
Lemma zeros_none dims d : prod dims = 0 -> np_zeros dims d = mkArr d dims [].
Proof. intros H. unfold np_zeros. rewrite H. reflexivity. Qed.
Lemma empty_step n i ob c t dims f : P i -> h i = Some ob -> o_attrs ob k_class = Some (AStr c) -> o_attrs ob k_empty = Some (AU8 1) -> In c class_names -> matlab_dtype c = Some t ->
  o_body ob = BData (dims_data dims) f -> rd (S n) i = np_matlab c t true (attr_fields (o_attrs ob) k_fields) (amap (fun _ => VNone) (dims_data dims)).
Proof.
  intros Hi E C M K T B. rewrite (read_step n i ob (Some c) Hi E C) by (intros x [= <-]; exact K). rewrite B. unfold read_array. cbn [a_dt dims_data h5py_present bindr].
  rewrite (finish_class _ _ _ t T), (is_empty _ M). reflexivity.
Qed.
Lemma no_fields a : a k_fields = None -> attr_fields a k_fields = None.
Proof. intros H. unfold attr_fields. rewrite H. reflexivity. Qed.
Lemma empty_np c t dims : In (c, t) empty_types \/ (c, t) = (lit "cell", TObj) \/ (c, t) = (lit "canonical empty", TF 8) \/ (c, t) = (lit "struct", TObj) -> prod dims = 0 ->
  matlab_dtype c = Some t /\ np_matlab c t true None (amap (fun _ => VNone) (dims_data dims)) = Ok (VNp CNdarray (mkArr t dims [])).
Proof.
  intros H Z. assert (X : In (c, t) (empty_types ++ [(lit "cell", TObj); (lit "canonical empty", TF 8); (lit "struct", TObj)])).
  { apply in_or_app. destruct H as [H|[H|[H|H]]]; [left; exact H|right; rewrite H; cbn; auto..]. }
  clear H. unfold np_matlab. rewrite as_shape_dims. cbn [bindr]. rewrite (zeros_none dims t Z).
  cbn in X. repeat destruct X as [[= <- <-]|X]; [..|destruct X]; lits; (split; [vm_compute; reflexivity|]); reflexivity.
Qed.
Lemma gives_num_empty i ob cls dims f : P i -> h i = Some ob -> o_attrs ob k_class = Some (AStr cls) -> o_attrs ob k_empty = Some (AU8 1) -> o_attrs ob k_fields = None ->
  In cls num_classes -> o_body ob = BData (dims_data dims) f -> 2 <= length dims -> prod dims = 0 -> gives i (MArr cls dims []).
Proof.
  intros Hi E C M F K B L Z. assert (X : exists t, In (cls, t) empty_types).
  { cbn in K. repeat destruct K as [<-|K]; [..|destruct K]; eexists; cbn; auto 20. }
  destruct X as (t & X). destruct (empty_np cls t dims (or_introl X) Z) as [T NM]. exists (VNp CNdarray (mkArr t dims [])).
  split; [apply Se_empty; assumption|]. split; [apply (rev_ne dims L)|]. apply reads_step. exists 0. intros n _.
  rewrite (empty_step n i ob cls t dims f Hi E C M (num_names _ K) T B), (no_fields _ F). exact NM.
Qed.
Lemma gives_canonical i ob f : P i -> h i = Some ob -> o_attrs ob k_class = Some (AStr (lit "canonical empty")) -> o_attrs ob k_empty = Some (AU8 1) -> o_attrs ob k_fields = None ->
  o_body ob = BData (dims_data [0; 0]) f -> gives i (MArr (lit "double") [0; 0] []).
Proof.
  intros Hi E C M F B. destruct (empty_np (lit "canonical empty") (TF 8) [0; 0] ltac:(tauto) eq_refl) as [T NM].
  exists (VNp CNdarray (mkArr (TF 8) [0; 0] [])). split; [apply Se_empty; [cbn; auto|reflexivity]|]. split; [discriminate|]. apply reads_step. exists 0. intros n _.
  rewrite (empty_step n i ob _ _ [0; 0] f Hi E C M) by (exact T || exact B || (unfold class_names; apply in_or_app; right; cbn; auto)). rewrite (no_fields _ F). exact NM.
Qed.
Lemma gives_cell_empty i ob dims f : P i -> h i = Some ob -> o_attrs ob k_class = Some (AStr (lit "cell")) -> o_attrs ob k_empty = Some (AU8 1) -> o_attrs ob k_fields = None ->
  o_body ob = BData (dims_data dims) f -> 2 <= length dims -> prod dims = 0 -> gives i (MCell dims []).
Proof.
  intros Hi E C M F B L Z. destruct (empty_np (lit "cell") TObj dims ltac:(tauto) Z) as [T NM].
  exists (VNp CNdarray (mkArr TObj dims (map XPtr []))). split.
  - apply Se_cell with (l' := []); [constructor|]. split; [rewrite Z; reflexivity|]. split; [rewrite Z; reflexivity|]. intros idx _. destruct (f_pos dims idx), (c_pos dims idx); reflexivity.
  - split; [apply (rev_ne dims L)|]. apply reads_step. exists 0. intros n _.
    rewrite (empty_step n i ob _ _ dims f Hi E C M) by (exact T || exact B || (unfold class_names; apply in_or_app; right; cbn; auto)). rewrite (no_fields _ F). exact NM.
Qed.

(** ** cells *)
Lemma all_reads js vs : Forall2 reads js vs -> exists N, forall n, N <= n -> Forall2 (fun j v => rd n j = Ok v) js vs.
Proof.
  induction 1 as [|j v js vs [N H] _ [M IH]]; [exists 0; constructor|]. exists (N + M). intros n L. constructor; [apply H; lia|apply IH; lia].
Qed.
Lemma refs_array n sh js vs : Forall (fun j => live h j = true) js -> Forall2 (fun j v => rd n j = Ok v) js vs ->
  read_array h (rd n) (mkArr TRef sh (map XPtr js)) = Ok (mkArr TObj sh (map XPtr vs)).
Proof.
  intros L H. unfold read_array. cbn [a_dt a_data a_shape].
  assert (X : mapr (deref h (rd n)) (map XPtr js) = Ok (map XPtr vs)).
  { clear sh. revert L. induction H as [|j v js vs H _ IH]; intros L; [reflexivity|]. inversion L as [|? ? L1 L2]; subst. cbn [map mapr deref]. rewrite L1, H. cbn [bindr]. rewrite (IH L2). reflexivity. }
  rewrite X. reflexivity.
Qed.
Lemma all_gives js ms : Forall2 gives js ms -> exists vs, Forall2 (seen dicts) ms vs /\ Forall solid vs /\ Forall2 reads js vs.
Proof. induction 1 as [|j m js ms (v & A & B & C) _ (vs & IA & IB & IC)]; [exists []; repeat constructor|]. exists (v :: vs). repeat constructor; assumption. Qed.

Lemma gives_cell i ob sh f js ms : P i -> h i = Some ob -> o_attrs ob k_class = Some (AStr (lit "cell")) -> o_attrs ob k_empty = None ->
  o_body ob = BData (mkArr TRef sh (map XPtr js)) f -> 2 <= length sh -> length js = prod sh ->
  Forall (fun j => live h j = true) js -> Forall2 gives js ms -> gives i (MCell (rev sh) ms).
Proof.
  intros Hi E C M B L LJ LV G. destruct (all_gives js ms G) as (vs & V1 & V2 & V3). destruct (all_reads js vs V3) as (N & HN).
  exists (VNp CNdarray (mkArr TObj (rev sh) (map XPtr (transpose sh vs)))). split; [|split].
  - apply Se_cell with (l' := vs); [exact V1|]. apply column_back. rewrite <- (F2_len _ _ _ V3). exact LJ.
  - apply (rev_ne sh L).
  - apply reads_step. exists N. intros n Hn. rewrite (read_step n i ob (Some (lit "cell")) Hi E C) by (intros x [= <-]; unfold class_names; apply in_or_app; right; cbn; auto).
    rewrite B, (refs_array n sh js vs LV (HN n Hn)). cbn [bindr]. rewrite (finish_class _ _ _ TObj) by (vm_compute; reflexivity). rewrite (not_empty _ M).
    unfold np_matlab. lits. cbn [bindr orb]. unfold tr. cbn [a_dt a_shape a_data]. rewrite transpose_map. reflexivity.
Qed.
End Reading.
