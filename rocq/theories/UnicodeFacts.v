From Verif Require Import Base Unicode.
Local Ltac Zify.zify_post_hook ::= Z.div_mod_to_equations.

Lemma is_scalar_spec c : is_scalar c = true <-> c < max_cp /\ (c < 55296 \/ 57343 < c).
Proof. unfold is_scalar, is_surrogate, max_cp. lia. Qed.

Lemma utf8_roundtrip s : scalar_str s ->
  exists b, utf8_encode s = Ok b /\ forall fuel, (List.length b < fuel)%nat -> utf8_decode fuel b = Ok s.
Proof.
  induction 1 as [|c s Hc Hs IH].
  - exists []. split; [reflexivity|]. intros [|fuel] Hf; reflexivity.
  - destruct IH as (b & E & IH). cbn [utf8_encode]. rewrite Hc, E. cbn [bindr].
    eexists. split; [reflexivity|]. intros fuel Hf. rewrite app_length in Hf.
    apply is_scalar_spec in Hc. unfold max_cp in Hc. destruct Hc as [Hm Hsur].
    destruct fuel as [|fuel]; [lia|].
    unfold utf8_enc1 in *.
    destruct (N.ltb_spec c 128) as [H1|H1].
    { cbn [app utf8_decode List.length] in *. destruct (N.ltb_spec c 128); [|lia]. rewrite IH by lia. reflexivity. }
    destruct (N.ltb_spec c 2048) as [H2|H2].
    { cbn [app utf8_decode List.length] in *.
      destruct (N.ltb_spec (192 + c / 64) 128); [lia|].
      assert (E1 : (194 <=? 192 + c / 64) && (192 + c / 64 <=? 223) = true) by lia. rewrite E1.
      assert (E2 : is_cont (128 + c mod 64) = true) by (unfold is_cont; lia). rewrite E2.
      rewrite IH by lia. cbn [bindr]. f_equal. f_equal. lia. }
    destruct (N.ltb_spec c 65536) as [H3|H3].
    { cbn [app utf8_decode List.length] in *.
      destruct (N.ltb_spec (224 + c / 4096) 128); [lia|].
      assert (E1 : (194 <=? 224 + c / 4096) && (224 + c / 4096 <=? 223) = false) by lia. rewrite E1.
      assert (E1' : (224 <=? 224 + c / 4096) && (224 + c / 4096 <=? 239) = true) by lia. rewrite E1'.
      cbv zeta.
      assert (Ec : (224 + c / 4096 - 224) * 4096 + (128 + (c / 64) mod 64 - 128) * 64 + (128 + c mod 64 - 128) = c) by lia.
      rewrite Ec.
      assert (E2 : is_cont (128 + (c / 64) mod 64) && is_cont (128 + c mod 64) && (2048 <=? c) && negb (is_surrogate c) = true)
        by (unfold is_cont, is_surrogate; lia).
      rewrite E2. rewrite IH by lia. reflexivity. }
    { cbn [app utf8_decode List.length] in *.
      destruct (N.ltb_spec (240 + c / 262144) 128); [lia|].
      assert (E1 : (194 <=? 240 + c / 262144) && (240 + c / 262144 <=? 223) = false) by lia. rewrite E1.
      assert (E1' : (224 <=? 240 + c / 262144) && (240 + c / 262144 <=? 239) = false) by lia. rewrite E1'.
      assert (E1'' : (240 <=? 240 + c / 262144) && (240 + c / 262144 <=? 244) = true) by lia. rewrite E1''.
      cbv zeta.
      assert (Ec : (240 + c / 262144 - 240) * 262144 + (128 + (c / 4096) mod 64 - 128) * 4096
                   + (128 + (c / 64) mod 64 - 128) * 64 + (128 + c mod 64 - 128) = c) by lia.
      rewrite Ec.
      assert (E2 : is_cont (128 + (c / 4096) mod 64) && is_cont (128 + (c / 64) mod 64) && is_cont (128 + c mod 64)
                   && (65536 <=? c) && (c <? max_cp) = true)
        by (unfold is_cont, max_cp; lia).
      rewrite E2. rewrite IH by lia. reflexivity. }
Qed.

Lemma utf8_decode_encode s b : utf8_encode s = Ok b -> bytes_decode_utf8 b = Ok s.
Proof.
  intros E. assert (Hs : scalar_str s).
  { revert b E. induction s as [|c s IH]; intros b E; [constructor|]. cbn in E.
    destruct (is_scalar c) eqn:Hc; [|discriminate]. destruct (utf8_encode s); [|discriminate].
    constructor; [exact Hc|]. eapply IH. reflexivity. }
  destruct (utf8_roundtrip s Hs) as (b' & E' & H). rewrite E in E'. inversion E'; subst.
  apply H. lia.
Qed.

Lemma utf8_encode_scalar s : scalar_str s <-> exists b, utf8_encode s = Ok b.
Proof.
  split.
  - intros H. destruct (utf8_roundtrip s H) as (b & E & _). eauto.
  - intros (b & E). revert b E. induction s as [|c s IH]; intros b E; [constructor|]. cbn in E.
    destruct (is_scalar c) eqn:Hc; [|discriminate]. destruct (utf8_encode s); [|discriminate].
    constructor; [exact Hc|]. eapply IH. reflexivity.
Qed.

Lemma utf16_encode_ok s : scalar_str s -> utf16_encode s = Ok (flat_map utf16_enc1 s).
Proof. induction 1 as [|c s Hc Hs IH]; cbn; [reflexivity|]. rewrite Hc, IH. reflexivity. Qed.

Lemma utf16_decode_enc s : scalar_str s -> utf16_decode (flat_map utf16_enc1 s) = Ok s.
Proof.
  induction 1 as [|c s Hc Hs IH]; [reflexivity|]. cbn [flat_map].
  apply is_scalar_spec in Hc. unfold max_cp in Hc. unfold utf16_enc1 at 1.
  destruct (N.ltb_spec c 65536) as [H1|H1].
  - cbn [app utf16_decode]. assert (E : is_surrogate c = false) by (unfold is_surrogate; lia).
    rewrite E, IH. reflexivity.
  - cbn [app utf16_decode].
    assert (E1 : is_surrogate (55296 + (c - 65536) / 1024) = true) by (unfold is_surrogate; lia).
    assert (E2 : is_high (55296 + (c - 65536) / 1024) = true) by (unfold is_high; lia).
    assert (E3 : is_low (56320 + (c - 65536) mod 1024) = true) by (unfold is_low; lia).
    rewrite E1, E2, E3, IH. cbn [bindr]. f_equal. f_equal. lia.
Qed.

Lemma utf32_decode_ok s : scalar_str s -> utf32_decode s = Ok s.
Proof. induction 1 as [|c s Hc Hs IH]; cbn; [reflexivity|]. rewrite Hc, IH. reflexivity. Qed.

Lemma utf8_encode_decode b s : bytes_decode_utf8 b = Ok s -> utf8_encode s = Ok b.
Proof.
  unfold bytes_decode_utf8. assert (H : (List.length b < S (List.length b))%nat) by lia. revert H. generalize (S (List.length b)) as fuel.
  intros fuel. revert b s. induction fuel as [|fuel IH]; intros b s Hf E; [lia|]. cbn [utf8_decode] in E.
  destruct b as [|b0 r0]; [injection E as <-; reflexivity|]. cbn [List.length] in Hf.
  destruct (N.ltb_spec b0 128) as [H0|H0].
  { destruct (utf8_decode fuel r0) as [x|] eqn:X; [|discriminate]. cbn [bindr] in E. injection E as <-. apply IH in X; [|lia]. cbn [utf8_encode].
    assert (is_scalar b0 = true) as -> by (apply is_scalar_spec; unfold max_cp; lia). rewrite X. cbn [bindr]. unfold utf8_enc1.
    destruct (N.ltb_spec b0 128); [reflexivity|lia]. }
  destruct ((194 <=? b0) && (b0 <=? 223)) eqn:H1.
  { destruct r0 as [|b1 r1]; [discriminate|]. unfold is_cont in E. destruct ((128 <=? b1) && (b1 <=? 191)) eqn:C1; [|discriminate].
    destruct (utf8_decode fuel r1) as [x|] eqn:X; [|discriminate]. cbn [bindr] in E. injection E as <-. cbn [List.length] in Hf. apply IH in X; [|lia].
    cbn [utf8_encode]. set (c := (b0 - 192) * 64 + (b1 - 128)). assert (is_scalar c = true) as -> by (apply is_scalar_spec; unfold max_cp, c; lia).
    rewrite X. cbn [bindr]. unfold utf8_enc1. destruct (N.ltb_spec c 128); [unfold c in *; lia|]. destruct (N.ltb_spec c 2048); [|unfold c in *; lia].
    cbn [app]. f_equal. f_equal; [unfold c; lia|f_equal; unfold c; lia]. }
  destruct ((224 <=? b0) && (b0 <=? 239)) eqn:H2.
  { destruct r0 as [|b1 [|b2 r2]]; try discriminate. cbv zeta in E. set (c := (b0 - 224) * 4096 + (b1 - 128) * 64 + (b2 - 128)) in *.
    destruct (is_cont b1 && is_cont b2 && (2048 <=? c) && negb (is_surrogate c)) eqn:C; [|discriminate]. unfold is_cont, is_surrogate in C.
    destruct (utf8_decode fuel r2) as [x|] eqn:X; [|discriminate]. cbn [bindr] in E. injection E as <-. cbn [List.length] in Hf. apply IH in X; [|lia].
    cbn [utf8_encode]. assert (is_scalar c = true) as -> by (apply is_scalar_spec; unfold max_cp; split; [unfold c; lia|lia]).
    rewrite X. cbn [bindr]. unfold utf8_enc1. destruct (N.ltb_spec c 128); [lia|]. destruct (N.ltb_spec c 2048); [lia|]. destruct (N.ltb_spec c 65536); [|unfold c in *; lia].
    cbn [app]. f_equal. f_equal; [unfold c; lia|f_equal; [unfold c; lia|f_equal; unfold c; lia]]. }
  destruct ((240 <=? b0) && (b0 <=? 244)) eqn:H3; [|discriminate].
  destruct r0 as [|b1 [|b2 [|b3 r3]]]; try discriminate. cbv zeta in E. set (c := (b0 - 240) * 262144 + (b1 - 128) * 4096 + (b2 - 128) * 64 + (b3 - 128)) in *.
  destruct (is_cont b1 && is_cont b2 && is_cont b3 && (65536 <=? c) && (c <? max_cp)) eqn:C; [|discriminate]. unfold is_cont, max_cp in C.
  destruct (utf8_decode fuel r3) as [x|] eqn:X; [|discriminate]. cbn [bindr] in E. injection E as <-. cbn [List.length] in Hf. apply IH in X; [|lia].
  cbn [utf8_encode]. assert (is_scalar c = true) as -> by (apply is_scalar_spec; unfold max_cp; lia).
  rewrite X. cbn [bindr]. unfold utf8_enc1. destruct (N.ltb_spec c 128); [lia|]. destruct (N.ltb_spec c 2048); [lia|]. destruct (N.ltb_spec c 65536); [lia|].
  cbn [app]. f_equal. f_equal; [unfold c; lia|f_equal; [unfold c; lia|f_equal; [unfold c; lia|f_equal; unfold c; lia]]].
Qed.
