(** Facts about whole conversions, in the form the properties are stated in. *)
From Verif Require Import Base Unicode UnicodeFacts Dec NdArray Value OptionsM StrConv NpDims.
Local Open Scope nat_scope.
Local Arguments prod : simpl never.
Local Arguments Nat.ltb : simpl never.

Lemma enc16_len s : length s <= length (flat_map utf16_enc1 s) /\
  (length (flat_map utf16_enc1 s) = length s <-> Forall (fun c => (c < 65536)%N) s).
Proof.
  induction s as [|c s [IH1 IH2]]; [cbn; split; [lia|split; [constructor|reflexivity]]|].
  cbn [flat_map length]. rewrite app_length. unfold utf16_enc1 at 1 3. destruct (N.ltb_spec c 65536) as [Hc|Hc]; cbn [length].
  - split; [lia|]. split; intros H.
    + constructor; [exact Hc|]. apply IH2. lia.
    + inversion H; subst. apply IH2 in H3. lia.
  - split; [lia|]. split; intros H; [lia|]. inversion H; subst. lia.
Qed.

Lemma str_scalar_width o s b : store_str o CScalar (np_str s) = Ok b -> good_str s -> s <> [] ->
  a_dt b = TU 2 <-> o_str_utf16 o = true /\ Forall (fun c => (c < 65536)%N) s.
Proof.
  intros E Hg Hn. unfold store_str, np_str in E. cbn [a_dt] in E.
  assert (L : 0 < length s) by (destruct s; [congruence|cbn; lia]).
  assert (E32 : forall b', convert_numpy_str_to_uint32 (mkArr (TUni (length s)) [] [XStr (strip0 s)]) = Ok b' -> a_dt b' = TU 4).
  { intros b' E'. unfold convert_numpy_str_to_uint32 in E'. destruct (_ =? 0); cbn in E'; injection E' as <-; reflexivity. }
  destruct (o_str_utf16 o); [|apply E32 in E; rewrite E; split; [discriminate|intros [? _]; discriminate]].
  unfold convert_numpy_str_to_uint16 in E. unfold nbytes, size in E. cbn [a_dt a_shape a_data itemsize] in E.
  change (prod []) with 1 in E. destruct (Nat.eqb_spec (1 * (4 * length s)) 0); [lia|].
  cbn [mapr str_units] in E. rewrite good_strip in E by exact Hg. rewrite utf16_encode_ok in E by apply Hg.
  cbn [bindr map list_max fold_right] in E. cbn [a_shape] in E. unfold scale_last in E. cbn [atleast_1d removelast app last hd] in E.
  rewrite Nat.max_0_r in E. cbn [atleast_1d removelast app last hd] in E.
  destruct (Nat.eqb_spec (length s) (1 * length (flat_map utf16_enc1 s))) as [Q|Q].
  - injection E as <-. cbn. split; [intros _|reflexivity]. split; [reflexivity|]. apply (enc16_len s). lia.
  - rewrite <- (good_strip s Hg) in E at 2. apply E32 in E. rewrite E. split; [discriminate|]. intros [_ H].
    apply (enc16_len s) in H. lia.
Qed.

(** a str array through conversion, change of shape, and back *)
Definition read_str_array (reversed : bool) (n : nat) (shape : list nat) (b : arr pyval) : res (arr pyval) :=
  do c <- convert_to_numpy_str (if reversed then tr b else b) (Some n); Ok (fix_shape shape c).

Lemma str_array_back o c n sh l : str_elems n l -> length l = prod sh -> n <> 0 -> prod sh <> 0 ->
  (c = CScalar -> sh = []) -> (c <> CScalar -> o_str_utf16 o = true -> sh <> []) ->
  exists b, store_str o c (mkArr (TUni n) sh l) = Ok b /\
    read_str_array (o_reverse o) n sh (write_dims o b) = Ok (str_array sh (map elem_str l)) /\
    (a_dt b = TU 2 \/ a_dt b = TU 4).
Proof.
  intros H1 H2 H3 H4 H5 H6. destruct (store_str_ok o c n sh l H1 H2 H3 H4 H5 H6) as (b & E & w & Hw & Hd & Hs & Hl & Hr).
  exists b. split; [exact E|]. split; [|destruct Hw as [-> | ->]; auto].
  unfold read_str_array. rewrite write_dims_undo by exact Hl.
  set (b1 := if o_atleast_2d o then reshape (atleast_2d (a_shape b)) b else b).
  assert (B1 : b1 = mkArr (TU w) (a_shape b1) (a_data b)).
  { unfold b1. destruct (o_atleast_2d o); destruct b; cbn in *; subst; reflexivity. }
  assert (S1 : a_shape b1 <> [] /\ last (a_shape b1) 0 = last (a_shape b) 0 /\ prod (a_shape b1) = prod (a_shape b)).
  { unfold b1. destruct (o_atleast_2d o); cbn [reshape a_shape].
    - rewrite atleast_2d_prod. rewrite Hs. pose proof (scale_last_nonnil n (atleast_1d sh)) as Q.
      destruct (scale_last n (atleast_1d sh)) as [|x [|y r]]; [congruence| |]; repeat split; discriminate.
    - rewrite Hs. repeat split. apply scale_last_nonnil. }
  destruct S1 as (S1 & S2 & S3). rewrite B1, Hr; try assumption.
  - cbn [bindr]. f_equal. set (sh1 := removelast _ ++ _).
    assert (P : prod sh1 = prod sh).
    { unfold sh1. pose proof (last_map_mod (a_shape b1) n S1 H3) as Q. rewrite S2, Hs, scale_last_last, Nat.mod_mul in Q by (assumption || apply atleast_1d_nonnil).
      specialize (Q eq_refl). rewrite S2, Hs, scale_last_last by apply atleast_1d_nonnil. rewrite S3, Hs, scale_last_prod in Q by apply atleast_1d_nonnil.
      rewrite atleast_1d_prod in Q. nia. }
    change (str_array sh1 (map elem_str l)) with (reshape sh1 (str_array sh (map elem_str l))).
    apply (fix_shape_reshape sh1 (str_array sh (map elem_str l))). exact P.
  - rewrite S2, Hs, scale_last_last by apply atleast_1d_nonnil. apply Nat.mod_mul. assumption.
Qed.

Definition read_bytes_array (reversed : bool) (n : nat) (shape : list nat) (b : arr pyval) : res (arr pyval) :=
  do c <- convert_to_numpy_bytes (if reversed then tr b else b) n; Ok (fix_shape shape c).
Lemma bytes_array_back o n sh l : bytes_elems n l -> length l = prod sh -> n <> 0 -> prod sh <> 0 ->
  read_bytes_array (o_reverse o) n sh (write_dims o (store_bytes o (mkArr (TS n) sh l))) = Ok (mkArr (TS n) sh l).
Proof.
  intros H1 H2 H3 H4. unfold read_bytes_array.
  destruct (store_bytes_cases o n sh l H1 H2 H3 H4) as [-> |(b & -> & Hd & Hs & Hl & Hr)].
  - rewrite write_dims_undo by exact H2. set (a := mkArr (TS n) sh l).
    assert (E : forall a1, a_dt a1 = TS n -> convert_to_numpy_bytes a1 n = Ok a1) by (intros a1 E1; unfold convert_to_numpy_bytes; rewrite E1; reflexivity).
    rewrite E by (destruct (o_atleast_2d o); reflexivity). cbn [bindr]. f_equal. destruct (o_atleast_2d o).
    + apply (fix_shape_reshape _ a). apply atleast_2d_prod.
    + unfold fix_shape. destruct (eqb_shape_spec sh (a_shape a)) as [|q]; [reflexivity|destruct (q eq_refl)].
  - rewrite write_dims_undo by exact Hl.
    set (b1 := if o_atleast_2d o then reshape (atleast_2d (a_shape b)) b else b).
    assert (B1 : b1 = mkArr (TU 2) (a_shape b1) (a_data b)).
    { unfold b1. destruct (o_atleast_2d o); destruct b; cbn in *; subst; reflexivity. }
    assert (S1 : a_shape b1 <> [] /\ last (a_shape b1) 0 = last (a_shape b) 0 /\ prod (a_shape b1) = prod (a_shape b)).
    { unfold b1. destruct (o_atleast_2d o); cbn [reshape a_shape].
      - rewrite atleast_2d_prod. rewrite Hs. pose proof (scale_last_nonnil n (atleast_1d sh)) as Q.
        destruct (scale_last n (atleast_1d sh)) as [|x [|y r]]; [congruence| |]; repeat split; discriminate.
      - rewrite Hs. repeat split. apply scale_last_nonnil. }
    destruct S1 as (S1 & S2 & S3). rewrite B1, Hr; try assumption.
    + cbn [bindr]. f_equal. set (sh1 := removelast _ ++ _).
      assert (P : prod sh1 = prod sh).
      { unfold sh1. pose proof (last_map_mod (a_shape b1) n S1 H3) as Q. rewrite S2, Hs, scale_last_last, Nat.mod_mul in Q by (assumption || apply atleast_1d_nonnil).
        specialize (Q eq_refl). rewrite S2, Hs, scale_last_last by apply atleast_1d_nonnil. rewrite S3, Hs, scale_last_prod in Q by apply atleast_1d_nonnil.
        rewrite atleast_1d_prod in Q. nia. }
      apply (fix_shape_reshape sh1 (mkArr (TS n) sh l)). exact P.
    + rewrite S2, Hs, scale_last_last by apply atleast_1d_nonnil. apply Nat.mod_mul. assumption.
Qed.
