(** Facts about opening files. *)
From Verif Require Import Base PathEsc PathEscSpec PathEscFacts PosixPath ProcessPath Dec Value OptionsM Hdf5 FileApi OpenM OpenSpec ApiSpec FileFacts.
Local Open Scope nat_scope.

Lemma small_year n : (n <= 9999)%N -> length (show_N n) <= 4.
Proof.
  intros H.
  assert (C : forallb (fun a => forallb (fun b => length (show_N (100 * N.of_nat a + N.of_nat b)) <=? 4) (seq 0 100)) (seq 0 100) = true)
    by (vm_compute; reflexivity).
  rewrite forallb_forall in C. specialize (C (N.to_nat (n / 100))).
  assert (D : (n / 100 < 100)%N) by (apply N.div_lt_upper_bound; lia).
  assert (D2 : (n mod 100 < 100)%N) by (apply N.mod_upper_bound; lia).
  assert (C1 : In (N.to_nat (n / 100)) (seq 0 100)) by (apply in_seq; lia).
  specialize (C C1). rewrite forallb_forall in C. specialize (C (N.to_nat (n mod 100))).
  assert (C2 : In (N.to_nat (n mod 100)) (seq 0 100)) by (apply in_seq; lia).
  specialize (C C2). rewrite !N2Nat.id in C. rewrite <- N.div_mod in C by lia. apply Nat.leb_le in C. exact C.
Qed.
Lemma two_len n : n < 100 -> length (two n) = 2.
Proof. intros H. do 100 (destruct n as [|n]; [reflexivity|]). lia. Qed.
Lemma show_printable n : printable (show_nat n).
Proof. eapply Forall_impl; [|apply show_N_digits]. cbn. intros; lia. Qed.
Lemma two_printable n : printable (two n).
Proof. apply Forall_app. split; [destruct (n <? 10); repeat constructor; cbn; lia|apply show_printable]. Qed.
Lemma header_text_printable t : valid_now t -> printable (header_text t).
Proof.
  intros (W & M & D & _). unfold header_text.
  repeat first [apply two_printable | apply Forall_app; split];
    try apply show_printable; try (repeat constructor; cbn; lia).
  - destruct (n_weekday t) as [|[|[|[|[|[|[|]]]]]]]; try lia; repeat constructor; cbn; lia.
  - destruct (n_month t - 1) as [|[|[|[|[|[|[|[|[|[|[|[|]]]]]]]]]]]] eqn:E; try lia; repeat constructor; cbn; lia.
Qed.
Lemma header_text_len t : valid_now t -> length (header_text t) <= 116.
Proof.
  intros (W & M & D & H & I & S & Y). unfold header_text. rewrite !app_length.
  rewrite !two_len by lia. pose proof (small_year _ Y) as L. unfold show_nat.
  assert (L1 : length (nth (n_weekday t) weekdays []) = 3) by (destruct (n_weekday t) as [|[|[|[|[|[|[|]]]]]]]; try lia; reflexivity).
  assert (L2 : length (nth (n_month t - 1) months []) = 3).
  { destruct (n_month t - 1) as [|[|[|[|[|[|[|[|[|[|[|[|]]]]]]]]]]]] eqn:E; try lia; reflexivity. }
  rewrite L1, L2. change (length (lit "MATLAB 7.3 MAT-file, Platform: hdf5storage 0.2, Created on: ")) with 60. change (length (lit " HDF5 schema 1.00 .")) with 19. change (length (lit " ")) with 1. change (length (lit ":")) with 1. lia.
Qed.
Lemma two_decimal n : n < 100 -> decimal (two n) n.
Proof.
  intros H. split; [|split].
  - intros E. pose proof (two_len n H) as L. rewrite E in L. discriminate.
  - apply Forall_app. split; [destruct (n <? 10); repeat constructor; cbn; lia|apply show_N_digits].
  - do 100 (destruct n as [|n]; [reflexivity|]). lia.
Qed.
Lemma year_decimal n : (N.of_nat n <= 9999)%N -> decimal (show_nat n) n.
Proof.
  intros H. split; [apply show_N_nonempty|]. split; [apply show_N_digits|]. unfold show_nat. generalize dependent (N.of_nat n). clear n. intros n H.
  assert (C : forallb (fun a => forallb (fun b => N.eqb (fold_left (fun a c => (10 * a + (c - 48))%N) (show_N (100 * N.of_nat a + N.of_nat b)) 0%N) (100 * N.of_nat a + N.of_nat b)) (seq 0 100)) (seq 0 100) = true)
    by (vm_compute; reflexivity).
  rewrite forallb_forall in C. specialize (C (N.to_nat (n / 100))).
  assert (D : (n / 100 < 100)%N) by (apply N.div_lt_upper_bound; lia).
  assert (D2 : (n mod 100 < 100)%N) by (apply N.mod_upper_bound; lia).
  assert (C1 : In (N.to_nat (n / 100)) (seq 0 100)) by (apply in_seq; lia).
  specialize (C C1). rewrite forallb_forall in C. specialize (C (N.to_nat (n mod 100))).
  assert (C2 : In (N.to_nat (n mod 100)) (seq 0 100)) by (apply in_seq; lia). specialize (C C2).
  rewrite !N2Nat.id in C. rewrite <- (N.div_mod n 100) in C by lia. apply N.eqb_eq in C. exact C.
Qed.
Lemma header_stamp t : valid_now t -> exists w, stamp t w /\
  header_text t = lit "MATLAB 7.3 MAT-file, Platform: hdf5storage 0.2, Created on: " ++ w ++ lit " HDF5 schema 1.00 .".
Proof.
  intros (W & M & D & H & I & S & Y). eexists. split.
  - constructor; try (apply two_decimal; lia); try (apply two_len; lia); [| |apply year_decimal; exact Y].
    + instantiate (1 := nth (n_weekday t) weekdays []). apply nth_error_nth'. exact W.
    + instantiate (1 := nth (n_month t - 1) months []). apply nth_error_nth'. change (length _) with 12. lia.
  - unfold header_text. rewrite <- !app_assoc. reflexivity.
Qed.
Lemma header_len t : valid_now t -> length (header t) = 128.
Proof.
  intros V. pose proof (header_text_len t V). unfold header. rewrite !app_length, repeat_length. cbn [length].
  generalize dependent (length (header_text t)). intros. lia.
Qed.

Lemma skipn_header t (l : list N) : valid_now t -> skipn (length (header t)) l = skipn 128 l.
Proof. intros V. rewrite (header_len t V). reflexivity. Qed.

Lemma open_kept o t a im e r : valid_now t -> oa_writable a = true -> ~ truncation_asked o a im ->
  open_file o t a (H5 im) = (e, r) ->
  r = Ok (mkFile true (new_session (im_st im))) /\
  exists im', e = H5 im' /\ im_st im' = im_st im /\
    (o_matlab_compatible o = true /\ 128 <= length (im_user im) -> im_user im' = header t ++ skipn 128 (im_user im)) /\
    (o_matlab_compatible o = false \/ length (im_user im) < 128 -> im' = im).
Proof.
  intros V W NT. unfold open_file. rewrite W. cbn [negb is_file orb h5_open].
  assert (T : oa_truncate a = false) by (destruct (oa_truncate a) eqn:E; [|reflexivity]; destruct NT; left; exact E).
  rewrite T. cbn [orb].
  assert (T2 : o_matlab_compatible o && oa_truncate_invalid a && (length (im_user im) <? 128) = false).
  { destruct (_ && _) eqn:E; [|reflexivity]. destruct NT. right. apply andb_prop in E. destruct E as [E1 E2]. apply andb_prop in E1.
    apply Nat.ltb_lt in E2. tauto. }
  rewrite T2. destruct (o_matlab_compatible o && (128 <=? length (im_user im))) eqn:E; intros H; injection H as <- <-.
  - apply andb_prop in E. destruct E as [E1 E2]. apply Nat.leb_le in E2. split; [reflexivity|]. eexists. split; [reflexivity|]. split; [reflexivity|]. split.
    + intros _. unfold put_header. cbn [im_user]. rewrite skipn_header by assumption. reflexivity.
    + intros [H|H]; [congruence|lia].
  - split; [reflexivity|]. eexists. split; [reflexivity|]. split; [reflexivity|]. split; [|reflexivity].
    intros [H1 H2]. rewrite H1 in E. apply Nat.leb_le in H2. rewrite H2 in E. discriminate.
Qed.
Lemma fresh_result o t : valid_now t ->
  exists im', (if o_matlab_compatible o && (128 <=? length (im_user fresh_image)) then put_header t fresh_image else fresh_image) = im' /\
    im_st im' = empty_file /\ length (im_user im') = 512 /\
    (o_matlab_compatible o = true -> firstn 128 (im_user im') = header t).
Proof.
  intros V. eexists. split; [reflexivity|]. replace (128 <=? length (im_user fresh_image)) with true by reflexivity.
  destruct (o_matlab_compatible o); cbn [andb put_header im_user im_st].
  - split; [reflexivity|]. split.
    + rewrite skipn_header by assumption. rewrite app_length, (header_len t V). reflexivity.
    + intros _. rewrite <- (header_len t V). rewrite firstn_app, Nat.sub_diag, firstn_O, app_nil_r. apply firstn_all.
  - split; [reflexivity|]. split; [reflexivity|]. discriminate.
Qed.
Lemma open_new o t a e : valid_now t -> oa_writable a = true ->
  e = NoFile \/ (oa_truncate a = true /\ e <> Directory) \/ (exists im, e = H5 im /\ truncation_asked o a im) ->
  exists im', open_file o t a e = (H5 im', Ok (mkFile true (new_session empty_file))) /\ im_st im' = empty_file /\ length (im_user im') = 512 /\
    (o_matlab_compatible o = true -> firstn 128 (im_user im') = header t).
Proof.
  intros V W HE. destruct (fresh_result o t V) as (im' & I1 & I2 & I3 & I4). exists im'. split; [|auto].
  unfold open_file. rewrite W. cbn [negb].
  assert (C : (if oa_truncate a || negb (is_file e) then h5_create e
      else match h5_open e with
           | Ok im => if o_matlab_compatible o && oa_truncate_invalid a && (length (im_user im) <? 128)
                      then h5_create e else (e, Ok im)
           | Err x => (e, Err x)
           end) = (H5 fresh_image, Ok fresh_image)).
  { destruct HE as [->|[[T ND]|(im & -> & [T|(T1 & T2 & T3)])]].
    - rewrite orb_true_r. reflexivity.
    - rewrite T. destruct e; try reflexivity. congruence.
    - rewrite T. reflexivity.
    - apply Nat.ltb_lt in T3. cbn [h5_open is_file negb orb]. rewrite T1, T2, T3. destruct (oa_truncate a); reflexivity. }
  rewrite C, I1, I2. reflexivity.
Qed.

Section Dict.
Variable peq : pypath -> pypath -> bool.
Hypothesis HP : same_path peq.
Lemma put_keys k v l x : In x (map fst (var_put peq k v l)) <-> x = k \/ In x (map fst l).
Proof.
  induction l as [|[k' v'] l IH]; cbn; [intuition|]. destruct (peq k' k) eqn:E; cbn.
  - apply HP in E. subst k'. intuition.
  - rewrite IH. intuition.
Qed.
Lemma put_items k v l : items_of l -> items_of (var_put peq k v l) /\
  forall k' v', In (k', v') (var_put peq k v l) <-> (k' = k /\ v' = v) \/ (k' <> k /\ In (k', v') l).
Proof.
  unfold items_of. induction l as [|[k0 v0] l IH]; cbn; intros ND.
  - split; [constructor; [intros []|constructor]|]. intros k' v'. split; [intros [[= <- <-]|[]]; auto|intros [[-> ->]|[_ []]]; auto].
  - inversion ND as [|? ? N1 N2]; subst. destruct (IH N2) as [I1 I2]. destruct (peq k0 k) eqn:E; cbn.
    + apply HP in E. subst k0. split; [constructor; assumption|]. intros k' v'. split.
      * intros [[= <- <-]|H]; [auto|]. right. split; [|auto]. intros ->. apply N1. apply in_map_iff. exists (k, v'). auto.
      * intros [[-> ->]|[H1 [[= -> ->]|H2]]]; auto. congruence.
    + assert (NE : k0 <> k) by (intros H; apply HP in H; congruence). split.
      * constructor; [|exact I1]. intros H. apply put_keys in H. intuition.
      * intros k' v'. rewrite I2. split.
        -- intros [[= <- <-]|[H|H]]; intuition.
        -- intros [H|[H1 [[= -> ->]|H2]]]; intuition.
Qed.
Lemma update_items new : forall l, items_of l -> items_of new -> items_of (var_update peq l new) /\
  forall k v, In (k, v) (var_update peq l new) <-> In (k, v) new \/ (In (k, v) l /\ ~ In k (map fst new)).
Proof.
  induction new as [|[k0 v0] new IH]; intros l HL HN; [split; [exact HL|cbn; tauto]|].
  inversion HN as [|? ? N1 N2]; subst. destruct (put_items k0 v0 l HL) as [P1 P2]. cbn [var_update fold_left fst snd].
  destruct (IH _ P1 N2) as [I1 I2]. split; [exact I1|]. intros k v. rewrite I2, P2. cbn. split.
  - intros [H|[[[-> ->]|[H1 H2]] H3]]; auto. right. split; [exact H2|]. intuition.
  - intros [[[= -> ->]|H]|[H1 H2]]; auto. right. split; [right|]; intuition.
Qed.
(** the loop over the names asked for *)
Lemma names_items (rd : pypath -> res pyval) ks : forall dd, items_of dd ->
  let out := fold_left (fun dd k => match rd k with Ok v => var_put peq k v dd | Err _ => dd end) ks dd in
  items_of out /\ forall k v, In (k, v) out <-> (In k ks /\ rd k = Ok v) \/ (In (k, v) dd /\ ~ (In k ks /\ exists v, rd k = Ok v)).
Proof.
  induction ks as [|k0 ks IH]; intros dd HD; cbn; [split; [exact HD|]; intros; tauto|].
  destruct (rd k0) as [v0|e] eqn:E.
  - destruct (put_items k0 v0 dd HD) as [P1 P2]. destruct (IH _ P1) as [I1 I2]. cbn in I1, I2. split; [exact I1|].
    intros k v. rewrite I2, P2. split.
    + intros [[H1 H2]|[[[-> ->]|[H1 H2]] H3]]; auto. right. split; [exact H2|].
      intros [[-> |H4] H5]; [congruence|]. apply H3. auto.
    + intros [[[<- |H1] H2]|[H1 H2]].
      * destruct (in_dec path_dec k0 ks) as [I|I]; [auto|]. right. split; [left; split; congruence|]. tauto.
      * auto.
      * right. split; [right; split; [|exact H1]|]; [|tauto]. intros ->. apply H2. split; [auto|]. eauto.
  - destruct (IH _ HD) as [I1 I2]. cbn in I1, I2. split; [exact I1|]. intros k v. rewrite I2. split.
    + intros [H|[H1 H2]]; [tauto|]. right. split; [exact H1|]. intros [[<- |H3] [w H4]]; [congruence|]. apply H2. eauto.
    + intros [[[<- |H1] H2]|[H1 H2]]; [congruence|auto|]. right. split; [exact H1|]. intros [H3 H4]. apply H2. auto.
Qed.
End Dict.

Lemma mapr_in {A B} (f : A -> res B) l : forall m, mapr f l = Ok m -> Forall2 (fun a b => f a = Ok b) l m.
Proof.
  induction l as [|a l IH]; cbn; intros m H; [injection H as <-; constructor|].
  destruct (f a) as [b|] eqn:E; [|discriminate]. cbn in H. destruct (mapr f l) as [bs|] eqn:E2; [|discriminate]. injection H as <-.
  constructor; auto.
Qed.
Lemma load_all depth_ keq t peq d name append o l f names : same_path peq ->
  snd (open_file o t (mkOpen false false false) (d (mat_name append name))) = Ok f ->
  snd (file_iter o f) = Ok names -> NoDup names -> (forall k, In k names -> exists s, escape_path s = Ok k) ->
  loadmat depth_ keq t peq d name [] append None o = Ok l ->
  items_of l /\ forall k v, In (k, v) l <->
    exists s e, k = PStr s /\ escape_path s = Ok e /\ In e names /\ snd (file_read o depth_ keq f (PStr e)) = Ok v.
Proof.
  intros HP HO HI ND HE H. unfold loadmat in H. rewrite HO in H. cbn [bindr] in H. unfold file_items in H. rewrite HI in H. cbn [bindr] in H.
  destruct (mapr _ names) as [its|] eqn:E1; [|discriminate]. cbn [bindr] in H.
  destruct (mapr _ its) as [l0|] eqn:E2; [|discriminate]. cbn [bindr] in H. injection H as <-.
  apply mapr_in in E1. apply mapr_in in E2.
  assert (L0 : items_of l0 /\ forall k v, In (k, v) l0 <->
    exists s e, k = PStr s /\ escape_path s = Ok e /\ In e names /\ snd (file_read o depth_ keq f (PStr e)) = Ok v).
  { clear HI. revert its E1 l0 E2. induction names as [|k0 names IH]; intros its E1 l0 E2; inversion E1 as [|? kv ? its' F1 F2]; subst; inversion E2 as [|? kw ? l0' G1 G2]; subst.
    - split; [constructor|]. intros k v. split; [intros []|intros (s & e & _ & _ & [] & _)].
    - inversion ND as [|? ? N1 N2]; subst. destruct (IH N2 (fun k H => HE k (or_intror H)) its' F2 l0' G2) as [J1 J2].
      destruct (snd (file_read o depth_ keq f (PStr k0))) as [v0|] eqn:R; [|discriminate]. cbn [bindr] in F1. injection F1 as <-. cbn [fst snd] in G1.
      destruct (HE k0 (or_introl eq_refl)) as [s0 S0]. destruct (unescape_escape s0) as (e0 & S1 & S2). rewrite S0 in S1. injection S1 as <-.
      rewrite S2 in G1. cbn [bindr] in G1. injection G1 as <-. split.
      + constructor; [|exact J1]. cbn [fst]. intros H. apply in_map_iff in H. destruct H as ([k v] & K1 & K2). cbn in K1. subst k.
        apply J2 in K2. destruct K2 as (s & e & [= <-] & K3 & K4 & _). rewrite S0 in K3. injection K3 as <-. exact (N1 K4).
      + intros k v. cbn [In]. rewrite J2. split.
        * intros [[= <- <-]|(s & e & K1 & K2 & K3 & K4)]; [exists s0, k0; auto 6|exists s, e; auto].
        * intros (s & e & -> & K2 & [-> |K3] & K4); [left|right; exists s, e; auto].
          rewrite R in K4. injection K4 as <-. f_equal. f_equal. destruct (unescape_escape s) as (e' & X1 & X2). congruence. }
  destruct L0 as [L1 L2].
  destruct (update_items peq HP l0 [] ltac:(constructor) L1) as [U1 U2].
  destruct (update_items peq HP (var_update peq [] l0) [] ltac:(constructor) U1) as [U3 U4].
  split; [exact U3|]. intros k v. rewrite U4, U2, L2. cbn [In map]. tauto.
Qed.
Lemma update_nodup peq new : same_path peq -> forall l, items_of l -> items_of (var_update peq l new).
Proof. intros HP. induction new as [|[k v] new IH]; intros l H; [exact H|]. cbn. apply IH. apply put_items; assumption. Qed.
Lemma load_mdict n keq t peq d name append ks o old l' : same_path peq -> items_of old ->
  (loadmat n keq t peq d name old append ks o = Ok l' ->
   exists l, loadmat n keq t peq d name [] append ks o = Ok l /\ items_of l /\ items_of l' /\
   forall k v, In (k, v) l' <-> In (k, v) l \/ (In (k, v) old /\ ~ In k (map fst l))) /\
  (forall e, loadmat n keq t peq d name old append ks o = Err e <-> loadmat n keq t peq d name [] append ks o = Err e).
Proof.
  intros HP HOld. unfold loadmat. destruct (snd (open_file _ _ _ _)) as [f|]; [|cbn [bindr]; split; [discriminate|tauto]]. cbn [bindr].
  match goal with |- context [do data <- ?X; _] => assert (ID : forall data, X = Ok data -> items_of data); [|destruct X as [data|]; [|cbn [bindr]; split; [discriminate|tauto]]] end.
  { destruct ks as [ks|].
    - intros data [= <-]. apply (names_items peq HP (fun k => snd (file_read o n keq f k)) ks []). constructor.
    - intros data H. destruct (file_items n keq o f); [|discriminate]. cbn [bindr] in H. destruct (mapr _ _); [|discriminate]. cbn [bindr] in H. injection H as <-.
      apply update_nodup; [exact HP|constructor]. }
  specialize (ID data eq_refl). cbn [bindr].
  destruct (update_items peq HP data [] ltac:(constructor) ID) as [U1 U2].
  destruct (update_items peq HP data old HOld ID) as [V1 V2]. split; [|intros e; split; discriminate].
  intros H. injection H as <-. eexists. split; [reflexivity|]. split; [exact U1|]. split; [exact V1|]. intros k v. rewrite V2, U2. cbn [In].
  assert (K : In k (map fst data) <-> In k (map fst (var_update peq [] data))).
  { rewrite !in_map_iff. split; intros ([k' v'] & A & B); cbn in A; subst k'; exists (k, v'); (split; [reflexivity|]).
    - apply U2. auto.
    - apply U2 in B. cbn in B. tauto. }
  tauto.
Qed.
Lemma get_obj_heap g k s s' : hp s = hp s' -> snd (get_obj g k s) = snd (get_obj g k s').
Proof. intros H. unfold get_obj. destruct (name_err k); [reflexivity|]. cbn. rewrite H. reflexivity. Qed.
Lemma read_heap o n keq s s' p : hp s = hp s' ->
  snd (file_read o n keq (mkFile true s) p) = snd (file_read o n keq (mkFile true s') p).
Proof.
  intros H. unfold file_read, file_reads. cbn [mapr snd fl_open fl_st]. destruct (check_path o p) as [gt|]; [|reflexivity]. cbn [bindr mapr].
  assert (E : read_at o n keq (fst gt) (snd gt) s = read_at o n keq (fst gt) (snd gt) s'); [|rewrite E; reflexivity].
  unfold read_at. rewrite (get_obj_heap 0 (fst gt) s s' H). destruct (snd (get_obj 0 (fst gt) s')) as [[i|]|]; cbn [bindr]; try reflexivity.
  rewrite H, (get_obj_heap i (snd gt) s s' H). destruct (is_group (hp s') i); reflexivity.
Qed.
