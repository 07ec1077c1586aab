(** Model of encode_complex / decode_complex (utilities.py l.1188-1321) and of the
    way h5py shows compound types of two floats named r and i. *)
From Verif Require Import Base Dec NdArray Value.
Local Open Scope nat_scope.

(** encode_complex, l.1280-1321 (called on complex arrays only, Marshallers.py
    l.824-825): the same memory seen as two float fields.  numpy refuses
    duplicate field names.  (numpy's replacement of an empty name by f0/f1 is not
    modelled.) *)
Definition encode_elem {A} (e : elem A) : elem A :=
  match e with XCpx re im => XRec [[XFlt re]; [XFlt im]] | _ => e end.
Definition encode_complex {A} (names : pystr * pystr) (a : arr A) : res (arr A) :=
  match a_dt a with
  | TC w =>
      if eqb_str (fst names) (snd names) then Err ValueError
      else Ok (mkArr (TStruct [(fst names, (TF (w / 2), [])); (snd names, (TF (w / 2), []))])
                     (a_shape a) (map encode_elem (a_data a)))
  | _ => Err TypeError
  end.

(** str.lower() on ASCII letters; no other character lowers to the letters of the
    names looked for *)
Definition lower1 (c : N) : N := (if (65 <=? c) && (c <=? 90) then c + 32 else c)%N.
Definition lower (s : pystr) : pystr := map lower1 s.
Definition real_fields : list pystr := [lit "r"; lit "re"; lit "real"].
Definition imag_fields : list pystr := [lit "i"; lit "im"; lit "imag"; lit "imaginary"].

(** l.1258-1263 for two fields: which of them is the real and which the imaginary
    part; a later field overrides an earlier one *)
Inductive part := PReal | PImag | PNeither.
Definition part_of (s : pystr) : part :=
  if mem_str (lower s) real_fields then PReal
  else if mem_str (lower s) imag_fields then PImag else PNeither.

Definition decode_elem {A} (swap : bool) (e : elem A) : elem A :=
  match e with
  | XRec [[XFlt x]; [XFlt y]] => if swap then XCpx y x else XCpx x y
  | _ => e
  end.

(** decode_complex, l.1241-1277, with the default complex_names (None, None).
    For fields that are not two floats of the same 4 or 8 byte type, numpy
    would cast them: not modelled. *)
Definition decode_complex {A} (a : arr A) : res (arr A) :=
  match a_dt a with
  | TStruct [(n0, (d0, s0)); (n1, (d1, s1))] =>
      let go (swap : bool) :=
        match d0, s0, d1, s1 with
        | TF 4, [], TF 4, [] => Ok (mkArr (TC 8) (a_shape a) (map (decode_elem swap) (a_data a)))
        | TF 8, [], TF 8, [] => Ok (mkArr (TC 16) (a_shape a) (map (decode_elem swap) (a_data a)))
        | _, _, _, _ => Err NotImplementedError
        end in
      match part_of n0, part_of n1 with
      | PReal, PImag => go false
      | PImag, PReal => go true
      | _, _ => Ok a
      end
  | _ => Ok a
  end.

(** h5py (config.complex_names = ('r', 'i'), its default) maps the compound of two
    equal float fields named r and i, in that order, to a complex dtype *)
Definition h5py_present {A} (a : arr A) : arr A :=
  match a_dt a with
  | TStruct [(n0, (TF w0, [])); (n1, (TF w1, []))] =>
      if eqb_str n0 (lit "r") && eqb_str n1 (lit "i") && (w0 =? w1) && ((w0 =? 4) || (w0 =? 8))
      then mkArr (TC (2 * w0)) (a_shape a) (map (decode_elem false) (a_data a))
      else a
  | _ => a
  end.

(** ** specification *)
(** names that decode_complex recognises, real part first *)
Definition recognised (names : pystr * pystr) : Prop :=
  In (lower (fst names)) [lit "r"; lit "re"; lit "real"] /\
  In (lower (snd names)) [lit "i"; lit "im"; lit "imag"; lit "imaginary"].

Definition cpx_array {A} (a : arr A) : Prop :=
  (a_dt a = TC 8 \/ a_dt a = TC 16) /\ Forall (fun e => exists re im, e = XCpx re im) (a_data a).

Lemma decode_encode_elems {A} (l : list (elem A)) : Forall (fun e => exists re im, e = XCpx re im) l ->
  map (decode_elem false) (map encode_elem l) = l.
Proof. induction 1 as [|e l (re & im & ->) _ IH]; [reflexivity|]. cbn. f_equal. exact IH. Qed.

Lemma recognised_parts names : recognised names -> part_of (fst names) = PReal /\ part_of (snd names) = PImag /\
  eqb_str (fst names) (snd names) = false.
Proof.
  intros [H1 H2]. unfold part_of.
  assert (E1 : mem_str (lower (fst names)) real_fields = true) by (apply mem_str_In; exact H1).
  assert (E2 : mem_str (lower (snd names)) imag_fields = true) by (apply mem_str_In; exact H2).
  assert (E3 : mem_str (lower (snd names)) real_fields = false).
  { destruct (mem_str (lower (snd names)) real_fields) eqn:E; [|reflexivity]. apply mem_str_In in E.
    destruct H2 as [H2|[H2|[H2|[H2|[]]]]]; rewrite <- H2 in E; cbn in E;
      destruct E as [E|[E|[E|[]]]]; discriminate E. }
  rewrite E1, E2, E3. repeat split. apply eqb_str_neq. intros E. rewrite E in E1. congruence.
Qed.

Lemma decode_encode {A} (a : arr A) names : cpx_array a -> recognised names ->
  exists b, encode_complex names a = Ok b /\ decode_complex b = Ok a /\ decode_complex (h5py_present b) = Ok a.
Proof.
  intros [Hd Hl] Hn. destruct (recognised_parts names Hn) as (P0 & P1 & Hne). destruct a as [d sh l]. cbn in *.
  unfold encode_complex. cbn [a_dt a_shape a_data]. destruct Hd as [-> | ->]; rewrite Hne; eexists; (split; [reflexivity|]).
  - split; [unfold decode_complex; cbn [a_dt]; rewrite P0, P1; cbn; rewrite decode_encode_elems by exact Hl; reflexivity|].
    unfold h5py_present. cbn [a_dt a_shape a_data]. change (8 / 2) with 4.
    destruct (eqb_str (fst names) (lit "r") && eqb_str (snd names) (lit "i")); cbn [andb Nat.eqb orb Nat.mul Nat.add].
    + rewrite decode_encode_elems by exact Hl. reflexivity.
    + unfold decode_complex. cbn [a_dt]. rewrite P0, P1. cbn. rewrite decode_encode_elems by exact Hl. reflexivity.
  - split; [unfold decode_complex; cbn [a_dt]; rewrite P0, P1; cbn; rewrite decode_encode_elems by exact Hl; reflexivity|].
    unfold h5py_present. cbn [a_dt a_shape a_data]. change (16 / 2) with 8.
    destruct (eqb_str (fst names) (lit "r") && eqb_str (snd names) (lit "i")); cbn [andb Nat.eqb orb Nat.mul Nat.add].
    + rewrite decode_encode_elems by exact Hl. reflexivity.
    + unfold decode_complex. cbn [a_dt]. rewrite P0, P1. cbn. rewrite decode_encode_elems by exact Hl. reflexivity.
Qed.

Lemma part_real s : part_of s = PReal <-> In (lower s) [lit "r"; lit "re"; lit "real"].
Proof.
  unfold part_of. destruct (mem_str (lower s) real_fields) eqn:E.
  - split; [intros _; apply mem_str_In in E; exact E|reflexivity].
  - split; [destruct (mem_str _ imag_fields); discriminate|]. intros H. apply mem_str_In in H. fold real_fields in H. congruence.
Qed.
Lemma part_imag s : part_of s = PImag -> In (lower s) [lit "i"; lit "im"; lit "imag"; lit "imaginary"].
Proof.
  unfold part_of. destruct (mem_str (lower s) real_fields) eqn:E; [discriminate|].
  destruct (mem_str (lower s) imag_fields) eqn:E'; [|discriminate]. intros _. apply mem_str_In in E'. exact E'.
Qed.
(** not two fields, or the two are not a real and an imaginary part *)
Lemma decode_left_alone {A} (a : arr A) :
  (forall n0 f0 n1 f1, a_dt a = TStruct [(n0, f0); (n1, f1)] ->
     ~ recognised (n0, n1) /\ ~ recognised (n1, n0)) ->
  decode_complex a = Ok a.
Proof.
  intros H. unfold decode_complex. destruct (a_dt a) as [| | | | | | | | |fs] eqn:E; try reflexivity.
  destruct fs as [|[n0 [d0 s0]] [|[n1 [d1 s1]] [|]]]; try reflexivity.
  destruct (H _ _ _ _ eq_refl) as [H1 H2]. unfold recognised in *. cbn [fst snd] in *.
  destruct (part_of n0) eqn:E0, (part_of n1) eqn:E1; try reflexivity;
    try apply part_imag in E0; try apply part_imag in E1; try apply part_real in E0; try apply part_real in E1; tauto.
Qed.
