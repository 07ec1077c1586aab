(** The words in which the other properties are stated, where they are functions of the
    model, said again without it: Unicode and UTF-8 (C29), UTF-16 and decimal text (C42),
    NULs at the end of bytes, what parts a dtype has (C37). *)
From Verif Require Import Base PathEsc PosixPath PosixFacts ProcessPath ProcessPathFacts WriteFrame ApiFacts ApiSpec Unicode UnicodeFacts Dec NdArray Value StrConv Hdf5 HeapFacts FileFacts NpWrite RoundSpec DtypeShape.
From Coq Require Import DecimalN DecimalFacts DecimalPos.
Local Open Scope nat_scope.

(** code points other than surrogates *)
Definition char (c : N) : Prop := (c < 0x110000 /\ ~ (0xD800 <= c <= 0xDFFF))%N.
(** the bytes of a code point: the shortest of the four forms *)
Inductive utf8_of : N -> list N -> Prop :=
| U8_1 c : (c < 0x80)%N -> utf8_of c [c]
| U8_2 a b : (b < 64)%N -> (0x80 <= a * 64 + b < 0x800)%N -> utf8_of (a * 64 + b) [0xC0 + a; 0x80 + b]%N
| U8_3 a b d : (b < 64)%N -> (d < 64)%N -> (0x800 <= a * 4096 + b * 64 + d < 0x10000)%N -> utf8_of (a * 4096 + b * 64 + d) [0xE0 + a; 0x80 + b; 0x80 + d]%N
| U8_4 a b d e : (b < 64)%N -> (d < 64)%N -> (e < 64)%N -> (0x10000 <= a * 262144 + b * 4096 + d * 64 + e)%N ->
    utf8_of (a * 262144 + b * 4096 + d * 64 + e) [0xF0 + a; 0x80 + b; 0x80 + d; 0x80 + e]%N.
(** the code units of a code point: itself, or a high and a low surrogate *)
Inductive utf16_of : N -> list N -> Prop :=
| U16_1 c : (c < 0x10000)%N -> utf16_of c [c]
| U16_2 a b : (b < 0x400)%N -> utf16_of (0x10000 + a * 0x400 + b) [0xD800 + a; 0xDC00 + b]%N.
(** the number that decimal digits stand for *)
Definition dec_value (s : pystr) : N := fold_left (fun a c => 10 * a + (c - 48))%N s 0%N.
Definition dec_digits (s : pystr) : Prop := Forall (fun c => 48 <= c <= 57)%N s /\ s <> [] /\ (hd 0%N s = 48%N -> s = [48%N]).
(** [e], in arrays of shape [sh], is the type of a field of [d], at any depth *)
Inductive part : dt -> pystr -> dt -> list nat -> Prop :=
| P_field fs n e sh : In (n, (e, sh)) fs -> part (TStruct fs) n e sh
| P_deep fs n e sh n' e' sh' : In (n, (e, sh)) fs -> part e n' e' sh' -> part (TStruct fs) n' e' sh'.

Lemma scalar_char c : is_scalar c = true <-> char c.
Proof. rewrite is_scalar_spec. unfold char, max_cp. lia. Qed.
Lemma utf8_enc1_of c bs : char c -> (utf8_enc1 c = bs <-> utf8_of c bs).
Proof.
  intros C. split.
  - intros <-. unfold utf8_enc1. destruct (N.ltb_spec c 128); [constructor; assumption|]. destruct (N.ltb_spec c 2048).
    { pose proof (N.div_mod c 64 ltac:(discriminate)). pose proof (N.mod_lt c 64 ltac:(discriminate)).
      assert (X : utf8_of (c / 64 * 64 + c mod 64) [0xC0 + c / 64; 0x80 + c mod 64]%N) by (constructor; lia).
      replace (c / 64 * 64 + c mod 64)%N with c in X by lia. exact X. }
    destruct (N.ltb_spec c 65536).
    { pose proof (N.div_mod c 64 ltac:(discriminate)). pose proof (N.mod_lt c 64 ltac:(discriminate)).
      pose proof (N.div_mod (c / 64) 64 ltac:(discriminate)). pose proof (N.mod_lt (c / 64) 64 ltac:(discriminate)).
      replace (c / 4096)%N with (c / 64 / 64)%N by (rewrite N.div_div by discriminate; reflexivity).
      assert (X : utf8_of (c / 64 / 64 * 4096 + (c / 64) mod 64 * 64 + c mod 64) [0xE0 + c / 64 / 64; 0x80 + (c / 64) mod 64; 0x80 + c mod 64]%N) by (constructor; lia).
      replace (c / 64 / 64 * 4096 + (c / 64) mod 64 * 64 + c mod 64)%N with c in X by lia. exact X. }
    pose proof (N.div_mod c 64 ltac:(discriminate)). pose proof (N.mod_lt c 64 ltac:(discriminate)).
    pose proof (N.div_mod (c / 64) 64 ltac:(discriminate)). pose proof (N.mod_lt (c / 64) 64 ltac:(discriminate)).
    pose proof (N.div_mod (c / 64 / 64) 64 ltac:(discriminate)). pose proof (N.mod_lt (c / 64 / 64) 64 ltac:(discriminate)).
    replace (c / 4096)%N with (c / 64 / 64)%N by (rewrite N.div_div by discriminate; reflexivity).
    replace (c / 262144)%N with (c / 64 / 64 / 64)%N by (rewrite !N.div_div by discriminate; reflexivity).
    assert (X : utf8_of (c / 64 / 64 / 64 * 262144 + (c / 64 / 64) mod 64 * 4096 + (c / 64) mod 64 * 64 + c mod 64)
      [0xF0 + c / 64 / 64 / 64; 0x80 + (c / 64 / 64) mod 64; 0x80 + (c / 64) mod 64; 0x80 + c mod 64]%N) by (constructor; lia).
    replace (c / 64 / 64 / 64 * 262144 + (c / 64 / 64) mod 64 * 4096 + (c / 64) mod 64 * 64 + c mod 64)%N with c in X by lia. exact X.
  - assert (DM : forall a b m, (b < m)%N -> ((a * m + b) / m = a /\ (a * m + b) mod m = b)%N).
    { intros a b m L. split; [rewrite N.div_add_l by lia; rewrite N.div_small by exact L; lia|rewrite N.add_comm, N.mod_add by lia; apply N.mod_small; exact L]. }
    intros H. unfold utf8_enc1. destruct H as [c H|a b H1 H2|a b d H1 H2 H3|a b d e H1 H2 H3 H4].
    + destruct (N.ltb_spec c 128); [reflexivity|lia].
    + destruct (N.ltb_spec (a * 64 + b) 128); [lia|]. destruct (N.ltb_spec (a * 64 + b) 2048); [|lia]. destruct (DM a b 64%N H1) as [-> ->]. reflexivity.
    + set (c := (a * 4096 + b * 64 + d)%N) in *. destruct (N.ltb_spec c 128); [lia|]. destruct (N.ltb_spec c 2048); [lia|]. destruct (N.ltb_spec c 65536); [|lia].
      replace (c / 4096)%N with (c / 64 / 64)%N by (rewrite N.div_div by discriminate; reflexivity).
      replace c with ((a * 64 + b) * 64 + d)%N by (unfold c; lia). destruct (DM (a * 64 + b)%N d 64%N H2) as [-> ->]. destruct (DM a b 64%N H1) as [-> ->]. reflexivity.
    + set (c := (a * 262144 + b * 4096 + d * 64 + e)%N) in *. destruct (N.ltb_spec c 128); [lia|]. destruct (N.ltb_spec c 2048); [lia|]. destruct (N.ltb_spec c 65536); [lia|].
      replace (c / 4096)%N with (c / 64 / 64)%N by (rewrite N.div_div by discriminate; reflexivity).
      replace (c / 262144)%N with (c / 64 / 64 / 64)%N by (rewrite !N.div_div by discriminate; reflexivity).
      replace c with (((a * 64 + b) * 64 + d) * 64 + e)%N by (unfold c; lia).
      destruct (DM ((a * 64 + b) * 64 + d)%N e 64%N H3) as [-> ->]. destruct (DM (a * 64 + b)%N d 64%N H2) as [-> ->]. destruct (DM a b 64%N H1) as [-> ->]. reflexivity.
Qed.
Lemma utf16_enc1_of c u : (utf16_enc1 c = u <-> utf16_of c u).
Proof.
  split.
  - intros <-. unfold utf16_enc1. destruct (N.ltb_spec c 65536); [constructor; assumption|].
    pose proof (N.div_mod (c - 65536) 1024 ltac:(discriminate)). pose proof (N.mod_lt (c - 65536) 1024 ltac:(discriminate)).
    pose proof (U16_2 ((c - 65536) / 1024)%N ((c - 65536) mod 1024)%N ltac:(assumption)) as X.
    replace (0x10000 + (c - 65536) / 1024 * 0x400 + (c - 65536) mod 1024)%N with c in X by lia. exact X.
  - intros H. unfold utf16_enc1. destruct H as [c H|a b H].
    + destruct (N.ltb_spec c 65536); [reflexivity|lia].
    + destruct (N.ltb_spec (0x10000 + a * 0x400 + b) 65536); [lia|]. replace (0x10000 + a * 0x400 + b - 65536)%N with (a * 1024 + b)%N by lia.
      rewrite N.div_add_l by lia. rewrite (N.div_small b) by exact H. rewrite (N.add_comm (a * 1024)), N.mod_add by lia. rewrite N.mod_small by exact H. rewrite N.add_0_r. reflexivity.
Qed.
Lemma encode_of (enc1 : N -> list N) (enc : pystr -> res (list N)) (R : N -> list N -> Prop) :
  enc [] = Ok [] -> (forall c r, enc (c :: r) = if is_scalar c then (do b <- enc r; Ok (enc1 c ++ b)) else Err UnicodeEncodeError) ->
  (forall c u, char c -> (enc1 c = u <-> R c u)) ->
  forall s b, enc s = Ok b <-> Forall char s /\ exists l, Forall2 R s l /\ b = concat l.
Proof.
  intros E0 E1 HR. induction s as [|c s IH]; intros b.
  - rewrite E0. split; [intros [= <-]; split; [constructor|exists []; split; [constructor|reflexivity]]|]. intros (_ & l & F & ->). inversion F. reflexivity.
  - rewrite E1. destruct (is_scalar c) eqn:S.
    + apply scalar_char in S. destruct (enc s) as [b'|e] eqn:E; cbn [bindr].
      * split.
        { intros [= <-]. destruct (IH b') as [X _]. destruct (X eq_refl) as (F & l & F2 & ->). split; [constructor; assumption|]. exists (enc1 c :: l). split; [constructor; [apply HR; auto|exact F2]|reflexivity]. }
        { intros (F & l & F2 & ->). inversion F; subst. inversion F2 as [|? u ? l' R1 R2]; subst. destruct (IH (concat l')) as [_ X]. assert (FS : Forall char s) by assumption. specialize (X (conj FS (ex_intro _ l' (conj R2 eq_refl)))).
          injection X as ->. apply HR in R1; [|exact S]. rewrite R1. reflexivity. }
      * split; [discriminate|]. intros (F & l & F2 & ->). inversion F; subst. inversion F2 as [|? u ? l' R1 R2]; subst. destruct (IH (concat l')) as [_ X].
        assert (FS : Forall char s) by assumption. specialize (X (conj FS (ex_intro _ l' (conj R2 eq_refl)))). discriminate X.
    + split; [discriminate|]. intros (F & _). inversion F as [|? ? C _]; subst. apply scalar_char in C. congruence.
Qed.
(** C29: text, and bytes without NULs at the end. *)
Theorem C29_words :
  (forall s, scalar_str s <-> Forall char s) /\
  (forall s, good_str s <-> Forall char s /\ forall t c, s = t ++ [c] -> (c mod 256 <> 0)%N) /\
  (forall s b, utf8_encode s = Ok b <-> Forall char s /\ exists l, Forall2 utf8_of s l /\ b = concat l) /\
  (forall s, strip0 s = s <-> forall t c, s = t ++ [c] -> c <> 0%N) /\
  (forall s, name_err s = None <-> s <> [] /\ Forall (fun c => char c /\ c <> 0%N) s).
Proof.
  assert (SC : forall s, scalar_str s <-> Forall char s).
  { intros s. unfold scalar_str. split; intros F; (eapply Forall_impl; [|exact F]); cbn; intros c; apply scalar_char. }
  split; [exact SC|]. split; [|split; [|split]].
  - intros s. unfold good_str. rewrite SC. split; intros [F H]; (split; [exact F|]).
    + intros t c ->. destruct H as [H|H]; [destruct t; discriminate|]. rewrite last_last in H. exact H.
    + destruct s as [|c0 s0] eqn:E; [auto|]. right. rewrite <- E in *. assert (NE : s <> []) by congruence. apply (H (removelast s) (last s 1%N)). apply app_removelast_last. exact NE.
  - apply (encode_of utf8_enc1 utf8_encode utf8_of); [reflexivity|reflexivity|]. intros c u C. apply utf8_enc1_of. exact C.
  - intros s. split.
    + intros H t c -> ->. pose proof (strip0_app_zeros t 1) as X. cbn [repeat] in X. rewrite X in H. pose proof (strip0_len t) as L. rewrite H in L. rewrite app_length in L. cbn in L. lia.
    + intros H. destruct (strip0_decomp s) as [n E]. destruct n as [|n]; [rewrite List.app_nil_r in E; auto|]. exfalso.
      apply (H (strip0 s ++ repeat 0%N n) 0%N); [|reflexivity]. etransitivity; [exact E|]. replace (S n) with (n + 1) by lia. rewrite repeat_app. cbn [repeat]. rewrite app_assoc. reflexivity.
  - intros s. rewrite name_err_iff. split; intros [A F]; (split; [exact A|]); (eapply Forall_impl; [|exact F]); cbn; intros c [X Y]; (split; [apply scalar_char; exact X|exact Y]).
Qed.
Print Assumptions C29_words.

(** C42: UTF-16 and decimal text. *)
Lemma text_value d : forall acc, fold_left (fun a c => 10 * a + (c - 48))%N (text_uint d) (N.pos acc) = N.pos (Pos.of_uint_acc d acc).
Proof.
  induction d; intros acc; cbn [text_uint fold_left Pos.of_uint_acc]; [reflexivity|..];
    match goal with |- fold_left _ _ ?x = N.pos (Pos.of_uint_acc _ ?y) => replace x with (N.pos y) by lia end; apply IHd.
Qed.
Lemma uint_value d : dec_value (text_uint d) = N.of_uint d.
Proof.
  unfold dec_value, N.of_uint. induction d; cbn [text_uint fold_left Pos.of_uint]; [reflexivity|exact IHd|..];
    match goal with |- fold_left _ _ ?x = N.pos (Pos.of_uint_acc _ ?y) => replace x with (N.pos y) by reflexivity end; apply text_value.
Qed.
Lemma show_N_value n : dec_value (show_N n) = n /\ dec_digits (show_N n).
Proof.
  split; [unfold show_N; rewrite uint_value; apply DecimalN.Unsigned.of_to|]. split; [apply show_N_digits|]. split; [apply show_N_nonempty|].
  unfold show_N. pose proof (DecimalN.Unsigned.to_of (N.to_uint n)) as X. rewrite DecimalN.Unsigned.of_to in X. rewrite X.
  unfold Decimal.unorm. destruct (Decimal.nzhead (N.to_uint n)) eqn:Z; cbn; intros H; try discriminate H; try reflexivity.
  exfalso. exact (DecimalFacts.nzhead_nonzero _ _ Z).
Qed.
Theorem C42_words :
  (forall s u, utf16_encode s = Ok u <-> Forall char s /\ exists l, Forall2 utf16_of s l /\ u = concat l) /\
  (forall z, exists s, dec_digits s /\ dec_value s = Z.abs_N z /\ show_Z z = (if (z <? 0)%Z then [45%N] else []) ++ s).
Proof.
  split.
  - apply (encode_of utf16_enc1 utf16_encode utf16_of); [reflexivity|reflexivity|]. intros c u _. apply utf16_enc1_of.
  - intros z. exists (show_N (Z.abs_N z)). destruct (show_N_value (Z.abs_N z)) as [A B]. split; [exact B|]. split; [exact A|]. destruct z; reflexivity.
Qed.
Print Assumptions C42_words.

(** C28: what is looked for in the dtype of a structured array before it is stored as a
    Dataset: fields with objects, names with a NUL, and a shape with a 0, at any depth. *)
Fixpoint dt_size (d : dt) : nat :=
  match d with TStruct fs => S (list_sum (map (fun f => match f with (_, (e, _)) => dt_size e end) fs)) | _ => 1 end.
Lemma field_size fs n e sh : In (n, (e, sh)) fs -> dt_size e < dt_size (TStruct fs).
Proof.
  intros H. cbn [dt_size]. induction fs as [|f fs IH]; [destruct H|]. cbn [map]. destruct H as [->|H]; [cbn; lia|]. specialize (IH H). cbn. fold (list_sum (map (fun f => match f with (_, (e, _)) => dt_size e end) fs)). lia.
Qed.
Lemma any_part (chk : dt -> bool) (here : pystr -> dt -> list nat -> bool) :
  (forall d, (forall fs, d <> TStruct fs) -> chk d = false) ->
  (forall fs, chk (TStruct fs) = existsb (fun f => match f with (n, (e, sh)) => here n e sh || chk e end) fs) ->
  forall d, chk d = true <-> exists n e sh, part d n e sh /\ here n e sh = true.
Proof.
  intros C0 C1. assert (G : forall k d, dt_size d < k -> (chk d = true <-> exists n e sh, part d n e sh /\ here n e sh = true)).
  { induction k as [|k IH]; intros d L; [lia|]. destruct d as [| | | | | | | | |fs]; try (rewrite C0 by discriminate; split; [discriminate|intros (? & ? & ? & P & _); inversion P]).
    rewrite C1, existsb_exists. split.
    - intros ((n & e & sh) & Hin & B). apply Bool.orb_true_iff in B. destruct B as [B|B]; [exists n, e, sh; split; [constructor; exact Hin|exact B]|].
      apply IH in B; [|pose proof (field_size _ _ _ _ Hin); lia]. destruct B as (n' & e' & sh' & P & B). exists n', e', sh'. split; [econstructor 2; eassumption|exact B].
    - intros (n & e & sh & P & B). inversion P as [? ? ? ? Hin|? n1 e1 sh1 ? ? ? Hin P']; subst.
      + exists (n, (e, sh)). split; [exact Hin|]. rewrite B. reflexivity.
      + exists (n1, (e1, sh1)). split; [exact Hin|]. apply Bool.orb_true_iff. right. apply IH; [pose proof (field_size _ _ _ _ Hin); lia|]. exists n, e, sh. auto. }
  intros d. apply (G (S (dt_size d))). lia.
Qed.
Lemma sub_iff p : forall s, has_sub p s = true <-> exists a b, s = a ++ p ++ b.
Proof.
  induction s as [|c s IH]; cbn [has_sub].
  - destruct p as [|x p]; split; intros H.
    + exists [], []. reflexivity.
    + reflexivity.
    + discriminate H.
    + destruct H as (a & b & E). destruct a; discriminate E.
  - rewrite Bool.orb_true_iff, IH. split.
    + intros [H|(a & b & ->)]; [|exists (c :: a), b; reflexivity]. destruct (eqb_str_spec p (firstn (length p) (c :: s))) as [E|]; [|discriminate].
      exists [], (skipn (length p) (c :: s)). cbn [app]. rewrite E at 1. rewrite firstn_skipn. reflexivity.
    + intros (a & b & E). destruct a as [|x a]; [|right; injection E as -> E; eauto]. left. cbn [app] in E. rewrite E. rewrite firstn_app, Nat.sub_diag, firstn_all. cbn [firstn]. rewrite List.app_nil_r.
      destruct (eqb_str_spec p p); congruence.
Qed.
Theorem C28_words : forall d,
  (has_zero_shape d = true <-> exists n e sh, part d n e sh /\ In 0 sh) /\
  (has_object d = true <-> d = TObj \/ exists n sh, part d n TObj sh) /\
  (has_null d = true <-> exists n e sh, part d n e sh /\ (In 0%N n \/ exists a b, n = a ++ lit "\x00" ++ b)).
Proof.
  intros d. split; [|split].
  - rewrite (any_part has_zero_shape (fun _ _ sh => existsb (Nat.eqb 0) sh)).
    + split; intros (n & e & sh & P & Z); exists n, e, sh; (split; [exact P|apply zero_in_In; exact Z]).
    + intros d' N. destruct d'; try reflexivity. congruence.
    + reflexivity.
  - assert (X : has_object d = true <-> d = TObj \/ (match d with TStruct _ => has_object d | _ => false end) = true).
    { destruct d; cbn; (split; [intros; auto|intros [Y|Y]; congruence]). }
    rewrite X. rewrite (any_part (fun d => match d with TStruct _ => has_object d | _ => false end) (fun _ e _ => match e with TObj => true | _ => false end)).
    + split; (intros [H|H]; [auto|right]).
      * destruct H as (n & e & sh & P & E). destruct e; try discriminate E. eauto.
      * destruct H as (n & sh & P). exists n, TObj, sh. auto.
    + intros d' N. destruct d'; try reflexivity. congruence.
    + intros fs. cbn [has_object]. clear. induction fs as [|(n & e & sh) fs IH]; [reflexivity|]. cbn [existsb]. rewrite IH. f_equal. destruct e; cbn; rewrite ?Bool.orb_false_r; reflexivity.
  - rewrite (any_part has_null (fun n _ _ => null_name n)).
    + split; intros (n & e & sh & P & Z); exists n, e, sh; (split; [exact P|]).
      * unfold null_name in Z. apply Bool.orb_true_iff in Z. destruct Z as [Z|Z]; [left|right; apply sub_iff; exact Z]. apply existsb_exists in Z. destruct Z as (x & Hx & E). apply N.eqb_eq in E. subst x. exact Hx.
      * unfold null_name. apply Bool.orb_true_iff. destruct Z as [Z|Z]; [left; apply existsb_exists; exists 0%N; auto|right; apply sub_iff; exact Z].
    + intros d' N. destruct d'; try reflexivity. congruence.
    + reflexivity.
Qed.
Print Assumptions C28_words.

(** C14: and what the writing of arrays asks ([has_zero_shape]) is what
    does_dtype_have_a_zero_shape answers about the dtype of numpy, where a field with a shape
    has a subarray type. *)
Fixpoint numpy_dtype (d : dt) : ndtype :=
  match d with
  | TStruct fs => DStruct (map (fun f => match f with (n, (e, sh)) => (n, match sh with [] => numpy_dtype e | _ => DSub (numpy_dtype e) sh end) end) fs)
  | _ => DPlain 0
  end.
Theorem C14_used : forall d, exists n, forall fuel, n <= fuel -> does_dtype_have_a_zero_shape fuel (numpy_dtype d) = Some (has_zero_shape d).
Proof.
  intros d. destruct (zero_shape_exact (numpy_dtype d)) as (n & b & H1 & H2). exists n. intros fuel L. rewrite (H1 fuel L). f_equal.
  assert (G : forall k d, dt_size d < k -> (has_zero_shape d = true <-> has_zero (numpy_dtype d))).
  { induction k as [|k IH]; intros e Le; [lia|]. destruct e as [| | | | | | | | |fs]; try (split; [discriminate|intros X; exfalso; exact (has_zero_plain _ X)]).
    cbn [has_zero_shape numpy_dtype]. rewrite has_zero_struct, existsb_exists. unfold any_zero. split.
    - intros ((n' & e & sh) & Hin & B). exists (match sh with [] => numpy_dtype e | _ => DSub (numpy_dtype e) sh end). split.
      { apply in_map_iff. exists (n', match sh with [] => numpy_dtype e | _ => DSub (numpy_dtype e) sh end). split; [reflexivity|]. apply in_map_iff. exists (n', (e, sh)). auto. }
      apply Bool.orb_true_iff in B. assert (X : has_zero_shape e = true -> has_zero (numpy_dtype e)) by (apply IH; pose proof (field_size _ _ _ _ Hin); lia).
      destruct sh as [|y sh]; [destruct B as [B|B]; [discriminate B|auto]|]. apply has_zero_sub. destruct B as [B|B]; [left; apply zero_in_In; exact B|right; auto].
    - intros (x & Hx & Z). apply in_map_iff in Hx. destruct Hx as ((n' & x') & <- & Hx). apply in_map_iff in Hx. destruct Hx as ((n2 & e & sh) & E & Hin). injection E as <- <-. cbn [snd] in Z.
      exists (n2, (e, sh)). split; [exact Hin|]. apply Bool.orb_true_iff. assert (X : has_zero (numpy_dtype e) -> has_zero_shape e = true) by (apply IH; pose proof (field_size _ _ _ _ Hin); lia).
      destruct sh as [|y sh]; [right; auto|]. apply has_zero_sub in Z. destruct Z as [Z|Z]; [left; apply zero_in_In; exact Z|right; auto]. }
  assert (X : b = true <-> has_zero_shape d = true) by (rewrite H2; symmetry; apply (G (S (dt_size d))); lia).
  destruct b, (has_zero_shape d); try reflexivity; [symmetry; apply X; reflexivity|apply X; reflexivity].
Qed.
Print Assumptions C14_used.
Example C14_used_ex : has_zero_shape (TStruct [(lit "a", (TI 8, [])); (lit "b", (TStruct [(lit "c", (TF 8, [4; 0]))], [2; 3]))]) = true /\
  does_dtype_have_a_zero_shape 20 (numpy_dtype (TStruct [(lit "a", (TI 8, [])); (lit "b", (TStruct [(lit "c", (TF 8, [4; 0]))], [2; 3]))])) = Some true.
Proof. vm_compute. auto. Qed.

(** C08: the place a str path denotes ([denotes], which the properties of File speak about),
    by walking along its components: "" and "." stay, ".." goes back, the others go on.  At
    the root ".." stays too; at the beginning of a relative path it is kept as a name. *)
Definition enter (absolute : bool) (at_ : list pystr) (c : pystr) : list pystr :=
  if eqb_str c [] || eqb_str c (lit ".") then at_
  else if eqb_str c (lit "..") && (absolute || negb (eqb_str (last at_ (lit "..")) (lit ".."))) then removelast at_
  else at_ ++ [c].
Lemma norm_enter a : forall cs acc, (a = true -> Forall (fun c => c <> s_dotdot) acc) -> norm_comps a acc cs = fold_left (enter a) cs (rev acc).
Proof.
  induction cs as [|c cs IH]; intros acc H; [reflexivity|]. cbn [norm_comps fold_left]. unfold enter at 2. change s_dot with (lit "."). change s_dotdot with (lit "..").
  destruct (eqb_str c [] || eqb_str c (lit ".")); [apply IH; exact H|]. destruct (eqb_str_spec c (lit "..")) as [->|N]; cbn [negb andb orb].
  - destruct acc as [|x acc]; cbn [rev last removelast].
    + destruct a; cbn [negb andb orb]; [apply (IH []); exact H|]. change (eqb_str (lit "..") (lit "..")) with true. cbn [negb]. rewrite IH; [reflexivity|discriminate].
    + rewrite last_last, removelast_last. rewrite Bool.andb_false_r. cbn [orb]. destruct (eqb_str_spec x (lit "..")) as [->|X]; cbn [negb orb].
      * destruct a; cbn [orb]; [specialize (H eq_refl); inversion H as [|? ? Q _]; exfalso; apply Q; reflexivity|]. rewrite IH; [reflexivity|discriminate].
      * replace (a || true)%bool with true by (destruct a; reflexivity). apply IH. intros E. specialize (H E). inversion H; assumption.
  - rewrite IH; [reflexivity|]. intros E. constructor; [exact N|exact (H E)].
Qed.
Lemma resolve_denotes s : denotes (PStr s) (resolve s).
Proof.
  unfold denotes. destruct (snoc_cases (resolve s)) as [E|(init & l & E)].
  - exists (match repeat fslash (initial_slashes s) with [] => [fslash] | g => g end), s_dot.
    assert (P : process_path (PStr s) = Ok (match repeat fslash (initial_slashes s) with [] => [fslash] | g => g end, s_dot)).
    { unfold process_path. cbn [path_string bindr]. rewrite (split_path_nil s E). reflexivity. }
    split; [exact P|]. pose proof (loc_eq _ _ _ P) as L. unfold loc in L. rewrite L, E. change (path_comps s_dot) with (@nil pystr). rewrite List.app_nil_r.
    destruct (initial_slashes s) as [|k]; [reflexivity|]. pose proof (path_comps_built (S k) [] (Forall_nil _)) as X. cbn [join_slash] in X. rewrite List.app_nil_r in X. cbn [repeat] in *. symmetry. exact X.
  - pose proof (resolve_nf s) as [Hc _]. rewrite E in Hc. apply Forall_app in Hc. destruct Hc as [Hi Hl]. inversion Hl as [|? ? C _]; subst.
    set (g := match repeat fslash (initial_slashes s) ++ join_slash init with [] => [fslash] | g => g end).
    assert (P : process_path (PStr s) = Ok (g, l)). { unfold process_path. cbn [path_string bindr]. rewrite (split_path_snoc s init l E). reflexivity. }
    exists g, l. split; [exact P|]. pose proof (loc_eq _ _ _ P) as L. unfold loc in L. rewrite L, E. rewrite (proj1 (comps_clean l C)). f_equal.
    pose proof (path_comps_built (initial_slashes s) init Hi) as X. unfold g. destruct (repeat fslash (initial_slashes s) ++ join_slash init) eqn:R; [rewrite <- X, <- R at 1; rewrite R; reflexivity|symmetry; exact X].
Qed.
Theorem C08_places :
  (forall cs, cs <> [] -> Forall (fun c => ~ In fslash c) cs -> denotes (PStr (concat (map (cons fslash) cs))) (fold_left (enter true) cs [])) /\
  (forall c cs, Forall (fun c => ~ In fslash c) (c :: cs) -> c <> [] -> denotes (PStr (c ++ concat (map (cons fslash) cs))) (fold_left (enter false) (c :: cs) [])) /\
  (forall p a b, denotes p a -> denotes p b -> a = b) /\
  (forall a b, overlap a b <-> exists r, b = a ++ r \/ a = b ++ r).
Proof.
  assert (J : forall cs c, c ++ concat (map (cons fslash) cs) = join_slash (c :: cs)).
  { induction cs as [|d cs IH]; intros c; [cbn; apply List.app_nil_r|]. cbn [map concat]. change (join_slash (c :: d :: cs)) with (c ++ fslash :: join_slash (d :: cs)). rewrite <- IH. reflexivity. }
  split; [|split; [|split]].
  - intros [|c cs] NE F; [congruence|]. cbn [map concat]. change ((fslash :: c) ++ concat (map (cons fslash) cs)) with (fslash :: (c ++ concat (map (cons fslash) cs))). rewrite J.
    pose proof (resolve_denotes (fslash :: join_slash (c :: cs))) as X. unfold resolve in X. rewrite initial_isabs in X. cbn [isabs starts_slash] in X.
    change (split_slash (fslash :: join_slash (c :: cs))) with ([] :: split_slash (join_slash (c :: cs))) in X. rewrite split_join in X by (assumption || discriminate).
    rewrite norm_enter in X; [exact X|intros _; constructor].
  - intros c cs F NE. rewrite J. pose proof (resolve_denotes (join_slash (c :: cs))) as X. unfold resolve in X. rewrite initial_isabs in X.
    assert (A : isabs (join_slash (c :: cs)) = false).
    { inversion F as [|? ? F1 _]; subst. destruct c as [|x c]; [congruence|]. assert (N : x <> fslash) by (intros ->; apply F1; left; reflexivity). destruct cs; cbn; apply N.eqb_neq; exact N. }
    rewrite A in X. rewrite split_join in X by (assumption || discriminate). rewrite norm_enter in X; [exact X|discriminate].
  - intros p a b. apply denotes_fun.
  - intros a b. unfold overlap, pre. split.
    + intros [[r E]|[r E]]; exists r; auto.
    + intros (r & [E|E]); [left|right]; exists r; exact E.
Qed.
Print Assumptions C08_places.
Example C08_places_ex : denotes (PStr (lit "/a/../b/./c//")) [lit "b"; lit "c"] /\ denotes (PStr (lit "a/../../b")) [lit ".."; lit "b"].
Proof.
  destruct C08_places as (A & B & _). split.
  - exact (A [lit "a"; lit ".."; lit "b"; lit "."; lit "c"; []; []] ltac:(discriminate) ltac:(repeat constructor; cbn; intuition discriminate)).
  - exact (B (lit "a") [lit ".."; lit ".."; lit "b"] ltac:(repeat constructor; cbn; intuition discriminate) ltac:(discriminate)).
Qed.
