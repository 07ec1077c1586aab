(** Decimal and hexadecimal text of numbers, as Python's str(int), int(text),
    f"{n:x}" and "%016x" % n produce and read them. *)
From Verif Require Import Base.
From Coq Require Import Decimal DecimalN DecimalFacts DecimalPos Hexadecimal HexadecimalN HexadecimalFacts.

Fixpoint text_uint (d : Decimal.uint) : pystr :=
  match d with
  | Decimal.Nil => []
  | Decimal.D0 r => 48 :: text_uint r | Decimal.D1 r => 49 :: text_uint r
  | Decimal.D2 r => 50 :: text_uint r | Decimal.D3 r => 51 :: text_uint r
  | Decimal.D4 r => 52 :: text_uint r | Decimal.D5 r => 53 :: text_uint r
  | Decimal.D6 r => 54 :: text_uint r | Decimal.D7 r => 55 :: text_uint r
  | Decimal.D8 r => 56 :: text_uint r | Decimal.D9 r => 57 :: text_uint r
  end.
Fixpoint uint_text (s : pystr) : option Decimal.uint :=
  match s with
  | [] => Some Decimal.Nil
  | c :: r =>
      match uint_text r with
      | None => None
      | Some d =>
          match c with
          | 48 => Some (Decimal.D0 d) | 49 => Some (Decimal.D1 d) | 50 => Some (Decimal.D2 d)
          | 51 => Some (Decimal.D3 d) | 52 => Some (Decimal.D4 d) | 53 => Some (Decimal.D5 d)
          | 54 => Some (Decimal.D6 d) | 55 => Some (Decimal.D7 d) | 56 => Some (Decimal.D8 d)
          | 57 => Some (Decimal.D9 d) | _ => None
          end
      end
  end.

(** str(n) for n >= 0 *)
Definition show_N (n : N) : pystr := text_uint (N.to_uint n).
(** int(s) on a string of ASCII digits (a sign, blanks and underscores, which
    int() also takes, are not modelled: nothing this package writes has them) *)
Definition parse_N (s : pystr) : option N :=
  match s with [] => None | _ => option_map N.of_uint (uint_text s) end.

(** str(z) *)
Definition show_Z (z : Z) : pystr :=
  match z with
  | Z0 => show_N 0
  | Zpos p => show_N (Npos p)
  | Zneg p => 45 :: show_N (Npos p)
  end.
Definition parse_Z (s : pystr) : option Z :=
  match s with
  | 45 :: r => option_map (fun n => Z.opp (Z.of_N n)) (parse_N r)
  | _ => option_map Z.of_N (parse_N s)
  end.

Lemma uint_text_text d : uint_text (text_uint d) = Some d.
Proof. induction d; cbn; [reflexivity|..]; rewrite IHd; reflexivity. Qed.
Lemma text_uint_digits d : Forall (fun c => 48 <= c <= 57) (text_uint d).
Proof. induction d; cbn; constructor; auto; lia. Qed.
Lemma N_to_uint_nonnil n : N.to_uint n <> Decimal.Nil.
Proof. destruct n; [discriminate|]. cbn. apply DecimalPos.Unsigned.to_uint_nonnil. Qed.
Lemma show_N_nonempty n : show_N n <> [].
Proof. unfold show_N. pose proof (N_to_uint_nonnil n). destruct (N.to_uint n); cbn; congruence. Qed.
Lemma show_N_digits n : Forall (fun c => 48 <= c <= 57) (show_N n).
Proof. apply text_uint_digits. Qed.
Lemma parse_show_N n : parse_N (show_N n) = Some n.
Proof.
  unfold parse_N. destruct (show_N n) eqn:E; [destruct (show_N_nonempty n E)|]. rewrite <- E.
  unfold show_N. rewrite uint_text_text. cbn. f_equal. apply DecimalN.Unsigned.of_to.
Qed.
Lemma show_N_inj n m : show_N n = show_N m -> n = m.
Proof. intros H. apply (f_equal parse_N) in H. rewrite !parse_show_N in H. congruence. Qed.
Lemma show_N_head n : exists c r, show_N n = c :: r /\ 48 <= c <= 57.
Proof.
  pose proof (show_N_digits n) as H. destruct (show_N n) eqn:E; [destruct (show_N_nonempty n E)|].
  inversion H; subst. eauto.
Qed.
Lemma parse_show_Z z : parse_Z (show_Z z) = Some z.
Proof.
  destruct z as [|p|p]; [reflexivity| |].
  - cbn [show_Z]. unfold parse_Z. destruct (show_N_head (N.pos p)) as (c & r & E & Hc). rewrite E.
    replace (option_map Z.of_N (parse_N (c :: r))) with (Some (Z.pos p))
      by (rewrite <- E, parse_show_N; reflexivity).
    destruct (N.eq_dec c 45); [lia|]. destruct c as [|q]; [lia|]. repeat (destruct q as [q|q|]; try reflexivity; try lia).
  - cbn [show_Z parse_Z]. rewrite parse_show_N. reflexivity.
Qed.
Lemma show_Z_ascii z : Forall (fun c => 0 < c < 128) (show_Z z).
Proof.
  destruct z as [|p|p]; cbn [show_Z]; [..|constructor; [lia|]];
    (eapply Forall_impl; [|apply show_N_digits]; cbn; intros; lia).
Qed.
Lemma show_Z_nonempty z : show_Z z <> [].
Proof. destruct z; cbn [show_Z]; try apply show_N_nonempty. discriminate. Qed.

(** *** hexadecimal *)
Fixpoint text_hex (d : Hexadecimal.uint) : pystr :=
  match d with
  | Hexadecimal.Nil => []
  | Hexadecimal.D0 r => 48 :: text_hex r | Hexadecimal.D1 r => 49 :: text_hex r
  | Hexadecimal.D2 r => 50 :: text_hex r | Hexadecimal.D3 r => 51 :: text_hex r
  | Hexadecimal.D4 r => 52 :: text_hex r | Hexadecimal.D5 r => 53 :: text_hex r
  | Hexadecimal.D6 r => 54 :: text_hex r | Hexadecimal.D7 r => 55 :: text_hex r
  | Hexadecimal.D8 r => 56 :: text_hex r | Hexadecimal.D9 r => 57 :: text_hex r
  | Hexadecimal.Da r => 97 :: text_hex r | Hexadecimal.Db r => 98 :: text_hex r
  | Hexadecimal.Dc r => 99 :: text_hex r | Hexadecimal.Dd r => 100 :: text_hex r
  | Hexadecimal.De r => 101 :: text_hex r | Hexadecimal.Df r => 102 :: text_hex r
  end.
(** f"{n:x}" *)
Definition show_hex (n : N) : pystr := text_hex (N.to_hex_uint n).
(** "%016x" % n *)
Definition show_hex16 (n : N) : pystr :=
  let s := show_hex n in repeat 48 (16 - length s)%nat ++ s.

Lemma text_hex_inj a b : text_hex a = text_hex b -> a = b.
Proof. revert b; induction a; destruct b; cbn; intros H; try discriminate; try reflexivity; f_equal; apply IHa; congruence. Qed.
Lemma show_hex_inj n m : show_hex n = show_hex m -> n = m.
Proof.
  intros H. apply text_hex_inj in H. apply (f_equal N.of_hex_uint) in H.
  rewrite !HexadecimalN.Unsigned.of_to in H. exact H.
Qed.
Lemma text_hex_digits d : Forall (fun c => 48 <= c <= 57 \/ 97 <= c <= 102) (text_hex d).
Proof. induction d; cbn; constructor; auto; lia. Qed.
Lemma show_hex_digits n : Forall (fun c => 48 <= c <= 57 \/ 97 <= c <= 102) (show_hex n).
Proof. apply text_hex_digits. Qed.
Lemma show_hex_nonempty n : show_hex n <> [].
Proof.
  unfold show_hex. assert (N.to_hex_uint n <> Hexadecimal.Nil).
  { destruct n; [discriminate|]. cbn. apply HexadecimalPos.Unsigned.to_uint_nonnil. }
  destruct (N.to_hex_uint n); cbn; congruence.
Qed.
Lemma show_hex16_digits n : Forall (fun c => 48 <= c <= 57 \/ 97 <= c <= 102) (show_hex16 n).
Proof.
  unfold show_hex16. apply Forall_app. split; [|apply show_hex_digits].
  apply Forall_forall. intros x H. apply repeat_spec in H. lia.
Qed.
Lemma show_hex16_len n : (16 <= length (show_hex16 n))%nat.
Proof. unfold show_hex16. rewrite app_length, repeat_length. lia. Qed.
