(** Model of the string conversions of utilities.py (l.688-1185) and of the
    string part of NumpyScalarArrayMarshaller.write (Marshallers.py l.745-788). *)
From Verif Require Import Base Unicode UnicodeFacts Dec NdArray Value OptionsM.
Local Open Scope nat_scope.

Definition scale_last (k : nat) (sh : list nat) : list nat := removelast sh ++ [last sh 1 * k].
Definition unit_ {A} (u : N) : elem A := XInt (Z.of_N u).
Definition units {A} (us : list N) : list (elem A) := map unit_ us.
Definition of_units {A} (l : list (elem A)) : list N :=
  map (fun e => match e with XInt z => Z.to_N z | _ => 0%N end) l.
Definition str_units {A} (e : elem A) : res (list N) :=
  match e with XStr s => utf16_encode s | _ => Err TypeError end.

(** utilities.py l.688-739 convert_numpy_str_to_uint16.  The 'S' array that
    np.char.encode makes is as wide as the longest encoded element (at least one
    byte), so a row has [words] 16 bit words per element. *)
Definition convert_numpy_str_to_uint16 (a : arr pyval) : res (arr pyval) :=
  if nbytes a =? 0 then Ok (mkArr (TU 2) [0] [])
  else
    do us <- mapr str_units (a_data a);
    let words := list_max (map (@length N) us) in
    Ok (mkArr (TU 2) (scale_last words (atleast_1d (a_shape a))) (flat_map (fun u => units (pad words u)) us)).

(** utilities.py l.742-779 *)
Definition convert_numpy_str_to_uint32 (a : arr pyval) : res (arr pyval) :=
  if nbytes a =? 0 then Ok (mkArr (TU 4) [0] [])
  else
    match a_dt a with
    | TUni n =>
        do us <- mapr (fun e => match e with XStr s => Ok s | _ => Err TypeError end) (a_data a);
        Ok (mkArr (TU 4) (scale_last n (atleast_1d (a_shape a))) (flat_map (fun u => units (pad n u)) us))
    | _ => Err TypeError
    end.

(** Marshallers.py l.769-788.  [data] and [data_to_store] are the same array here
    (the bytes conversion before it does not apply to str arrays). *)
Definition store_str (o : options) (c : container) (a : arr pyval) : res (arr pyval) :=
  match a_dt a with
  | TUni n =>
      let new := if o_str_utf16 o
                 then match convert_numpy_str_to_uint16 a with Ok b => Some b | Err _ => None end
                 else None in
      match new with
      | None => convert_numpy_str_to_uint32 a
      | Some b =>
          match c with
          | CScalar => if n =? hd 0 (a_shape b) then Ok b else convert_numpy_str_to_uint32 a
          | _ => match a_shape a with
                 | [] => Err IndexError    (* data_to_store.shape[-1] of a 0-d array, l.783 *)
                 | sh => if last (a_shape b) 0 =? last sh 0 * n then Ok b else convert_numpy_str_to_uint32 a
                 end
          end
      end
  | _ => Ok a
  end.

(** Marshallers.py l.745-756 *)
Definition store_bytes (o : options) (a : arr pyval) : arr pyval :=
  match a_dt a with
  | TS n =>
      if o_bytes_utf16 o then
        if nbytes a =? 0 then mkArr (TU 2) [0] []
        else
          let us := flat_map (fun e => match e with XBytes s => pad n s | _ => [] end) (a_data a) in
          if forallb (fun u => (u <? 128)%N) us
          then mkArr (TU 2) (scale_last n (atleast_1d (a_shape a))) (units us)
          else a
      else a
  | _ => a
  end.

(** chunks of [n] consecutive elements, [k] of them *)
Fixpoint chunks {A} (n k : nat) (l : list A) : list (list A) :=
  match k with O => [] | S k' => firstn n l :: chunks n k' (skipn n l) end.

(** *** decoding (utilities.py l.992-1009): the units of one string are seen as an
    'S' element of their big endian bytes, which loses trailing zero BYTES, and
    decoded strictly *)
Definition be16 (u : N) : list N := [u / 256; u mod 256]%N.
Definition be32 (u : N) : list N := [u / 16777216; (u / 65536) mod 256; (u / 256) mod 256; u mod 256]%N.
Fixpoint un16 (bs : list N) : option (list N) :=
  match bs with
  | [] => Some []
  | a :: b :: r => option_map (cons (a * 256 + b)%N) (un16 r)
  | _ => None
  end.
Fixpoint un32 (bs : list N) : option (list N) :=
  match bs with
  | [] => Some []
  | a :: b :: c :: d :: r => option_map (cons (((a * 256 + b) * 256 + c) * 256 + d)%N) (un32 r)
  | _ => None
  end.
Definition decode_chunk (w : nat) (us : list N) : res pystr :=
  match w with
  | 1 => bytes_decode_utf8 (strip0 us)
  | 2 => match un16 (strip0 (flat_map be16 us)) with Some vs => utf16_decode vs | None => Err UnicodeDecodeError end
  | _ => match un32 (strip0 (flat_map be32 us)) with Some vs => utf32_decode vs | None => Err UnicodeDecodeError end
  end.

Definition str_array (sh : list nat) (ss : list pystr) : arr pyval :=
  mkArr (TUni (Nat.max 1 (list_max (map (@length N) ss)))) sh (map (fun s => XStr (strip0 s)) ss).

(** utilities.py l.859-1018 convert_to_numpy_str on arrays of this model (the
    Python str, bytes and bytearray cases are [np_str] and [np_str] of the decoded
    text).  An array of np.bytes_ is passed to np.char.encode (l.937), which has
    no such method on bytes.  Dividing by a zero length raises ZeroDivisionError
    and an indivisible last axis ValueError: both are [ValueError] here. *)
Definition convert_to_numpy_str (a : arr pyval) (len : option nat) : res (arr pyval) :=
  match a_dt a with
  | TUni _ => Ok a
  | TS _ => Err AttributeError
  | TU w =>
      if negb ((w =? 1) || (w =? 2) || (w =? 4)) then Err TypeError
      else
      match a_shape a with
      | [] => if w =? 4 then Ok (mkArr (TUni 1) [] (map (fun u => XStr (strip0 [u])) (of_units (a_data a))))
              else do ss <- mapr (decode_chunk w) [of_units (a_data a)]; Ok (str_array [] ss)
      | sh =>
          let n := match len with Some n => n | None => last sh 0 end in
          if (n =? 0) || negb (last sh 0 mod n =? 0) then Err ValueError
          else
            let nsh := removelast sh ++ [last sh 0 / n] in
            do ss <- mapr (decode_chunk w) (chunks n (prod nsh) (of_units (a_data a)));
            Ok (str_array nsh ss)
      end
  | _ => Err TypeError
  end.

(** utilities.py l.782-856 convert_to_str on the units of a uint16/uint32 chunk
    or on a uint8 one *)
Definition units_to_str (w : nat) (us : list N) : res pystr :=
  match w with
  | 1 => bytes_decode_utf8 us
  | 2 => utf16_decode (strip_bom us)
  | _ => utf32_decode (strip_bom us)
  end.
(** the bytes that np.bytes_(convert_to_str(chunk).encode("UTF-8")) becomes as an
    element of an 'Sn' array (l.1173-1175): cut to n bytes *)
Definition bytes_chunk (w n : nat) (us : list N) : res (list N) :=
  match w with
  | 1 => Ok (strip0 us)
  | _ => do s <- units_to_str w us; do b <- utf8_encode s; Ok (strip0 (firstn n b))
  end.

(** utilities.py l.1021-1185 convert_to_numpy_bytes with a length, on arrays.  The
    uint8 case (l.1152-1157) reinterprets the buffer; that it must be C
    contiguous is not modelled. *)
Definition convert_to_numpy_bytes (a : arr pyval) (n : nat) : res (arr pyval) :=
  match a_dt a with
  | TS _ => Ok a
  | TUni m =>
      do bs <- mapr (fun e => match e with XStr s => utf8_encode s | _ => Err TypeError end) (a_data a);
      Ok (mkArr (TS (4 * m)) (a_shape a) (map (fun b => XBytes (strip0 b)) bs))
  | TU w =>
      if negb ((w =? 1) || (w =? 2) || (w =? 4)) then Err TypeError
      else
      match a_shape a with
      | [] => do b <- bytes_chunk w 4 (of_units (a_data a)); Ok (mkArr (TS (length b)) [] [XBytes b])
      | sh =>
          if n =? 0 then Err ValueError
          else
            let nsh := removelast sh ++ [last sh 0 / n] in
            do bs <- mapr (bytes_chunk w n) (chunks n (prod nsh) (of_units (a_data a)));
            Ok (mkArr (TS n) nsh (map XBytes bs))
      end
  | _ => Err TypeError
  end.

(** ** specification: the strings that survive *)
(** no surrogates; the last code point does not end in a zero byte (in
    particular no trailing NUL) *)
Definition good_str (s : pystr) : Prop :=
  scalar_str s /\ (s = [] \/ (last s 1 mod 256 <> 0)%N).

(** ** facts *)
Lemma chunks_flat {A} n (ll : list (list A)) : Forall (fun l => length l = n) ll ->
  chunks n (length ll) (concat ll) = ll.
Proof.
  induction 1 as [|l ll H _ IH]; cbn; [reflexivity|]. subst n.
  rewrite firstn_app, skipn_app, firstn_all, skipn_all, Nat.sub_diag. cbn. rewrite app_nil_r. f_equal. exact IH.
Qed.
Lemma of_units_units {A} us : of_units (@units A us) = us.
Proof. unfold of_units, units. rewrite map_map. cbn. rewrite <- (map_id us) at 2. apply map_ext. intros. apply N2Z.id. Qed.
Lemma of_units_concat {A} (ll : list (list N)) : of_units (flat_map (@units A) ll) = concat ll.
Proof.
  induction ll as [|l ll IH]; [reflexivity|]. cbn. unfold of_units in *. rewrite map_app, IH. f_equal. apply of_units_units.
Qed.

Lemma un16_be16 us : Forall (fun u => (u < 65536)%N) us -> un16 (flat_map be16 us) = Some us.
Proof.
  induction 1 as [|u us H _ IH]; [reflexivity|]. cbn [flat_map be16 app un16]. rewrite IH. cbn. f_equal. f_equal.
  pose proof (N.div_mod u 256 ltac:(lia)). lia.
Qed.
Lemma un32_be32 us : Forall (fun u => (u < 4294967296)%N) us -> un32 (flat_map be32 us) = Some us.
Proof.
  induction 1 as [|u us H _ IH]; [reflexivity|]. cbn [flat_map be32 app un32]. rewrite IH. cbn [option_map]. f_equal. f_equal.
  replace 16777216%N with (256 * (256 * 256))%N by reflexivity. replace 65536%N with (256 * 256)%N by reflexivity.
  rewrite <- !N.div_div by lia.
  pose proof (N.div_mod u 256 ltac:(lia)). pose proof (N.div_mod (u / 256) 256 ltac:(lia)).
  pose proof (N.div_mod (u / 256 / 256) 256 ltac:(lia)). lia.
Qed.

Lemma strip0_nz s c : c <> 0%N -> strip0 (s ++ [c]) = s ++ [c].
Proof.
  intros H. induction s as [|d s IH]; cbn.
  - destruct (N.eqb_spec c 0); [lia|reflexivity].
  - rewrite IH. destruct (s ++ [c]) eqn:E; [destruct s; discriminate|reflexivity].
Qed.
Lemma last_snoc {A} (l : list A) x d : last (l ++ [x]) d = x.
Proof. induction l as [|a l IH]; [reflexivity|]. cbn. destruct (l ++ [x]) eqn:E; [destruct l; discriminate|exact IH]. Qed.

(** bytes per unit are 0 0 .. exactly for a zero unit *)
Lemma flat_map_repeat0 f k : (exists j, f 0%N = repeat 0%N j) -> exists m, flat_map f (repeat 0%N k) = repeat 0%N m.
Proof.
  intros [j Hj]. exists (k * j). induction k; [reflexivity|]. cbn [repeat flat_map Nat.mul]. rewrite IHk, Hj, <- repeat_app.
  reflexivity.
Qed.
Lemma strip_units f us n :
  (exists j, f 0%N = repeat 0%N j) ->
  (us = [] \/ exists p q c, flat_map f us = p ++ q ++ [c] /\ c <> 0%N) ->
  strip0 (flat_map f (pad n us)) = flat_map f us.
Proof.
  intros H0 H. unfold pad. rewrite flat_map_app. destruct (flat_map_repeat0 f (n - length us) H0) as [m ->].
  rewrite strip0_app_zeros. destruct H as [->|(p & q & c & -> & Hc)]; [reflexivity|].
  rewrite app_assoc. apply strip0_nz. exact Hc.
Qed.

Lemma last_unit us : us <> [] -> exists p, us = p ++ [last us 1%N].
Proof.
  intros H. exists (removelast us). apply app_removelast_last. exact H.
Qed.
Lemma decode16 us s n : Forall (fun u => (u < 65536)%N) us -> (us = [] \/ (last us 1 mod 256 <> 0)%N) ->
  utf16_decode us = Ok s -> decode_chunk 2 (pad n us) = Ok s.
Proof.
  intros B L D. cbn [decode_chunk]. rewrite strip_units.
  - rewrite un16_be16 by exact B. exact D.
  - exists 2. reflexivity.
  - destruct us as [|u us]; [left; reflexivity|]. destruct L as [L|L]; [discriminate|]. right.
    destruct (last_unit (u :: us)) as [p E]; [discriminate|]. remember (last (u :: us) 1%N) as l. rewrite E, flat_map_app.
    exists (flat_map be16 p), [(l / 256)%N], (l mod 256)%N. split; [reflexivity|exact L].
Qed.
Lemma decode32 us s n : Forall (fun u => (u < 4294967296)%N) us -> (us = [] \/ (last us 1 mod 256 <> 0)%N) ->
  utf32_decode us = Ok s -> decode_chunk 4 (pad n us) = Ok s.
Proof.
  intros B L D. cbn [decode_chunk]. rewrite strip_units.
  - rewrite un32_be32 by exact B. exact D.
  - exists 4. reflexivity.
  - destruct us as [|u us]; [left; reflexivity|]. destruct L as [L|L]; [discriminate|]. right.
    destruct (last_unit (u :: us)) as [p E]; [discriminate|]. remember (last (u :: us) 1%N) as l. rewrite E, flat_map_app.
    exists (flat_map be32 p), [(l / 16777216)%N; ((l / 65536) mod 256)%N; ((l / 256) mod 256)%N], (l mod 256)%N.
    split; [reflexivity|exact L].
Qed.

(** *** whole arrays *)
Lemma prod_last sh : sh <> [] -> prod sh = prod (removelast sh) * last sh 0.
Proof.
  intros H. rewrite (app_removelast_last 0 H) at 1. rewrite prod_app. cbn. lia.
Qed.
Lemma last_map_mod sh n : sh <> [] -> n <> 0 -> last sh 0 mod n = 0 ->
  prod (removelast sh ++ [last sh 0 / n]) * n = prod sh.
Proof.
  intros H Hn Hm. rewrite (prod_last sh H), prod_app. cbn. pose proof (Nat.div_mod (last sh 0) n Hn). nia.
Qed.

Lemma mapr_ok_list {A B} (f : A -> res B) l m : Forall2 (fun a b => f a = Ok b) l m -> mapr f l = Ok m.
Proof. induction 1 as [|a b l m H _ IH]; cbn; [reflexivity|]. rewrite H, IH. reflexivity. Qed.

Lemma load_units w n sh (ll : list (list N)) ss :
  w = 1 \/ w = 2 \/ w = 4 -> sh <> [] -> n <> 0 -> last sh 0 mod n = 0 -> prod sh = n * length ll ->
  Forall2 (fun u s => length u <= n /\ decode_chunk w (pad n u) = Ok s) ll ss ->
  convert_to_numpy_str (mkArr (TU w) sh (flat_map (fun u => units (pad n u)) ll)) (Some n) =
    Ok (str_array (removelast sh ++ [last sh 0 / n]) ss).
Proof.
  intros Hw Hs Hn Hm Hp HF. unfold convert_to_numpy_str. cbn [a_dt a_shape a_data].
  assert (E : negb ((w =? 1) || (w =? 2) || (w =? 4)) = false) by (destruct Hw as [->|[->| ->]]; reflexivity).
  rewrite E. destruct sh as [|x sh]; [congruence|]. set (sh' := x :: sh) in *.
  rewrite Hm. destruct (Nat.eqb_spec n 0); [lia|]. cbn [orb negb Nat.eqb].
  assert (P : prod (removelast sh' ++ [last sh' 0 / n]) = length (map (pad n) ll)).
  { rewrite map_length. pose proof (last_map_mod sh' n Hs Hn Hm). nia. }
  rewrite P. replace (flat_map (fun u => units (pad n u)) ll) with (flat_map (@units pyval) (map (pad n) ll))
    by (rewrite !flat_map_concat_map, map_map; reflexivity).
  rewrite of_units_concat, chunks_flat.
  - rewrite (mapr_ok_list _ _ ss); [reflexivity|]. clear - HF. induction HF as [|u s ll ss [_ H] _ IH]; cbn; constructor; assumption.
  - clear - HF. induction HF as [|u s ll ss [H _] _ IH]; cbn; constructor; [apply pad_len; exact H|assumption].
Qed.

Definition elem_str (e : elem pyval) : pystr := match e with XStr s => s | _ => [] end.
Definition str_elems (n : nat) (l : list (elem pyval)) : Prop :=
  Forall (fun e => exists s, e = XStr s /\ length s <= n /\ good_str s) l.

Lemma enc16_bound s : scalar_str s -> Forall (fun u => (u < 65536)%N) (flat_map utf16_enc1 s).
Proof.
  induction 1 as [|c s Hc Hs IH]; [constructor|]. cbn. apply Forall_app. split; [|exact IH].
  unfold utf16_enc1. unfold is_scalar, max_cp, is_surrogate in Hc. destruct (N.ltb_spec c 65536); repeat constructor; lia.
Qed.
Lemma enc16_last s : scalar_str s -> s <> [] -> flat_map utf16_enc1 s <> [] /\
  (last (flat_map utf16_enc1 s) 1 mod 256 = last s 1 mod 256)%N.
Proof.
  intros Hs Hn. rewrite (app_removelast_last 1%N Hn). rewrite flat_map_app, last_snoc. cbn [flat_map]. rewrite app_nil_r.
  set (c := last s 1%N). assert (In c s) by (unfold c; rewrite (app_removelast_last 1%N Hn) at 2; apply in_or_app; right; left; reflexivity).
  unfold utf16_enc1 at 2 4. destruct (N.ltb_spec c 65536).
  - split; [intros E; apply app_eq_nil in E; destruct E; discriminate|]. rewrite last_snoc. reflexivity.
  - split; [intros E; apply app_eq_nil in E; destruct E; discriminate|].
    change ([55296 + (c - 65536) / 1024; 56320 + (c - 65536) mod 1024])%N with
      ([55296 + (c - 65536) / 1024] ++ [56320 + (c - 65536) mod 1024])%N.
    rewrite app_assoc, last_snoc. lia.
Qed.

Lemma good16 s n : good_str s -> decode_chunk 2 (pad n (flat_map utf16_enc1 s)) = Ok s.
Proof.
  intros [Hs Hl]. apply decode16; [apply enc16_bound; exact Hs| |apply utf16_decode_enc; exact Hs].
  destruct s as [|c s]; [left; reflexivity|]. destruct Hl as [Hl|Hl]; [discriminate|]. right.
  destruct (enc16_last (c :: s) Hs) as [_ ->]; [discriminate|exact Hl].
Qed.
Lemma good32 s n : good_str s -> decode_chunk 4 (pad n s) = Ok s.
Proof.
  intros [Hs Hl]. apply decode32; [|exact Hl|apply utf32_decode_ok; exact Hs].
  eapply Forall_impl; [|exact Hs]. intros c Hc. cbn in Hc. unfold is_scalar, max_cp in Hc. lia.
Qed.

Lemma good_strip s : good_str s -> strip0 s = s.
Proof.
  intros [_ [->|H]]; [reflexivity|]. destruct s as [|c s]; [reflexivity|].
  rewrite (app_removelast_last 1%N (l := c :: s)) by discriminate. apply strip0_nz. intros E. rewrite E in H. apply H. reflexivity.
Qed.

Lemma str_elems_map n l : str_elems n l -> l = map (fun s => XStr (strip0 s)) (map elem_str l).
Proof.
  induction 1 as [|e l (s & -> & _ & Hg) _ IH]; [reflexivity|]. cbn. rewrite good_strip by exact Hg. f_equal. exact IH.
Qed.
Lemma str_elems_enc n l : str_elems n l ->
  mapr str_units l = Ok (map (fun e => flat_map utf16_enc1 (elem_str e)) l).
Proof.
  induction 1 as [|e l (s & -> & _ & Hg) _ IH]; [reflexivity|]. cbn [mapr str_units map elem_str].
  rewrite utf16_encode_ok by apply Hg. rewrite IH. reflexivity.
Qed.
Lemma str_elems_raw n l : str_elems n l ->
  mapr (fun e => match e with XStr s => Ok s | _ => Err TypeError end) l = Ok (map elem_str l).
Proof. induction 1 as [|e l (s & -> & _ & Hg) _ IH]; [reflexivity|]. cbn [mapr elem_str map bindr]. rewrite IH. reflexivity. Qed.

Lemma scale_last_prod k sh : sh <> [] -> prod (scale_last k sh) = k * prod sh.
Proof.
  intros H. unfold scale_last. rewrite (prod_last sh H), prod_app. cbn.
  replace (last sh 1) with (last sh 0); [lia|]. rewrite (app_removelast_last 0 H). rewrite !last_snoc. reflexivity.
Qed.
Lemma scale_last_last k sh : sh <> [] -> last (scale_last k sh) 0 = last sh 0 * k.
Proof.
  intros H. unfold scale_last. rewrite last_snoc. f_equal. rewrite (app_removelast_last 0 H). rewrite !last_snoc. reflexivity.
Qed.
Lemma scale_last_nonnil k sh : scale_last k sh <> [].
Proof. unfold scale_last. destruct (removelast sh); discriminate. Qed.
Lemma atleast_1d_nonnil sh : atleast_1d sh <> []. Proof. destruct sh; discriminate. Qed.

Lemma list_max_le' l x : In x l -> x <= list_max l.
Proof. intros H. pose proof (proj1 (list_max_le l (list_max l)) (le_n _)) as F. rewrite Forall_forall in F. auto. Qed.

Lemma flat_pad_len n (ll : list (list N)) : Forall (fun u => length u <= n) ll ->
  length (flat_map (fun u => @units pyval (pad n u)) ll) = n * length ll.
Proof.
  induction 1 as [|u ll H _ IH]; cbn; [lia|]. rewrite app_length, IH. unfold units. rewrite map_length, pad_len by exact H. lia.
Qed.

(** what is stored for a str array, and what reading it gives *)
Definition stored_str (n : nat) (sh : list nat) (l : list (elem pyval)) (b : arr pyval) : Prop :=
  exists w, (w = 2 \/ w = 4) /\ a_dt b = TU w /\ a_shape b = scale_last n (atleast_1d sh) /\
  length (a_data b) = prod (a_shape b) /\
  forall sh', sh' <> [] -> last sh' 0 mod n = 0 -> prod sh' = prod (a_shape b) ->
    convert_to_numpy_str (mkArr (TU w) sh' (a_data b)) (Some n) =
      Ok (str_array (removelast sh' ++ [last sh' 0 / n]) (map elem_str l)).

Lemma Forall2_len {A B} (P : A -> B -> Prop) l m : Forall2 P l m -> length l = length m.
Proof. induction 1; cbn; congruence. Qed.

Lemma stored_units w n sh l (ll : list (list N)) :
  w = 2 \/ w = 4 -> n <> 0 -> length l = prod sh ->
  Forall2 (fun u s => length u <= n /\ decode_chunk w (pad n u) = Ok s) ll (map elem_str l) ->
  stored_str n sh l (mkArr (TU w) (scale_last n (atleast_1d sh)) (flat_map (fun u => units (pad n u)) ll)).
Proof.
  intros Hw Hn Hl HF. exists w. cbn [a_dt a_shape a_data].
  assert (L : length ll = prod sh) by (apply Forall2_len in HF; rewrite map_length in HF; lia).
  assert (P : prod (scale_last n (atleast_1d sh)) = n * length ll)
    by (rewrite scale_last_prod by apply atleast_1d_nonnil; rewrite atleast_1d_prod; lia).
  repeat split; auto.
  - rewrite P. apply flat_pad_len. clear - HF. induction HF as [|u s ll ss [H _] _ IH]; constructor; assumption.
  - intros sh1 H1 H2 H3. apply load_units; auto. congruence.
Qed.

Lemma str32_stored n sh l : str_elems n l -> length l = prod sh -> n <> 0 -> prod sh <> 0 ->
  exists b, convert_numpy_str_to_uint32 (mkArr (TUni n) sh l) = Ok b /\ stored_str n sh l b.
Proof.
  intros Hl L Hn Hp. unfold convert_numpy_str_to_uint32, nbytes, size. cbn [a_dt a_shape a_data itemsize].
  destruct (Nat.eqb_spec (prod sh * (4 * n)) 0); [nia|]. rewrite (str_elems_raw n) by exact Hl. cbn [bindr].
  eexists. split; [reflexivity|]. apply stored_units; auto.
  clear - Hl. induction Hl as [|e l (s & -> & H1 & H2) _ IH]; cbn; constructor; [|exact IH]. split; [exact H1|apply good32; exact H2].
Qed.

Lemma store_str_ok o c n sh l : str_elems n l -> length l = prod sh -> n <> 0 -> prod sh <> 0 ->
  (c = CScalar -> sh = []) -> (c <> CScalar -> o_str_utf16 o = true -> sh <> []) ->
  exists b, store_str o c (mkArr (TUni n) sh l) = Ok b /\ stored_str n sh l b.
Proof.
  intros Hl L Hn Hp Hc1 Hc2. destruct (str32_stored n sh l Hl L Hn Hp) as (b32 & E32 & S32).
  unfold store_str. cbn [a_dt]. destruct (o_str_utf16 o); [|exists b32; auto].
  unfold convert_numpy_str_to_uint16, nbytes, size. cbn [a_dt a_shape a_data itemsize].
  destruct (Nat.eqb_spec (prod sh * (4 * n)) 0); [nia|]. rewrite (str_elems_enc n) by exact Hl. cbn [bindr].
  set (us := map (fun e => flat_map utf16_enc1 (elem_str e)) l).
  set (words := list_max (map (@length N) us)).
  set (b := mkArr (TU 2) _ _).
  assert (K : words = n -> stored_str n sh l b).
  { intros E. unfold b. rewrite E. apply stored_units; auto.
    assert (Forall (fun u => length u <= n) us).
    { apply Forall_forall. intros u Hu. rewrite <- E. apply list_max_le'. apply in_map. exact Hu. }
    unfold us in *. clear - Hl H. induction Hl as [|e l (s & -> & H1 & H2) _ IH]; cbn in *; [constructor|].
    inversion H; subst. constructor; [|apply IH; assumption]. split; [assumption|]. apply good16. exact H2. }
  assert (G : forall sh0 : list nat, sh0 <> [] -> sh0 = sh -> exists b0,
     (if last (a_shape b) 0 =? last sh0 0 * n then Ok b else convert_numpy_str_to_uint32 (mkArr (TUni n) sh l)) = Ok b0 /\
     stored_str n sh l b0).
  { intros sh0 Hs0 ->. destruct (Nat.eqb_spec (last (a_shape b) 0) (last sh 0 * n)) as [E|E]; [|exists b32; auto].
    exists b. split; [reflexivity|]. apply K. unfold b in E. cbn [a_shape] in E. replace (atleast_1d sh) with sh in E by (destruct sh; [congruence|reflexivity]).
    rewrite scale_last_last in E by exact Hs0. rewrite (prod_last sh Hs0) in Hp. nia. }
  destruct c.
  - assert (sh = []) by auto. subst sh. change (hd 0 (a_shape b)) with (1 * words). rewrite Nat.mul_1_l. destruct (Nat.eqb_spec n words); [exists b; auto|exists b32; auto].
  - destruct sh; [destruct Hc2; try discriminate; reflexivity|]. apply G; [discriminate|reflexivity].
  - destruct sh; [destruct Hc2; try discriminate; reflexivity|]. apply G; [discriminate|reflexivity].
  - destruct sh; [destruct Hc2; try discriminate; reflexivity|]. apply G; [discriminate|reflexivity].
  - destruct sh; [destruct Hc2; try discriminate; reflexivity|]. apply G; [discriminate|reflexivity].
Qed.

(** *** bytes *)
Definition elem_bytes (e : elem pyval) : list N := match e with XBytes s => s | _ => [] end.
Definition bytes_elems (n : nat) (l : list (elem pyval)) : Prop :=
  Forall (fun e => exists s, e = XBytes s /\ length s <= n /\ strip0 s = s) l.

Lemma ascii_utf16 us : Forall (fun u => (u < 128)%N) us -> units_to_str 2 us = Ok us /\ utf8_encode us = Ok us.
Proof.
  intros H. assert (utf16_decode us = Ok us /\ utf8_encode us = Ok us).
  { induction H as [|u us Hu _ [IH1 IH2]]; [split; reflexivity|]. cbn [utf16_decode utf8_encode].
    assert (E1 : is_surrogate u = false) by (unfold is_surrogate; lia).
    assert (E2 : is_scalar u = true) by (unfold is_scalar, is_surrogate, max_cp; lia).
    rewrite E1, E2, IH1, IH2. cbn [bindr]. unfold utf8_enc1. destruct (N.ltb_spec u 128); [|lia]. split; reflexivity. }
  destruct H0 as [E1 E2]. split; [|exact E2]. unfold units_to_str. destruct us as [|u us]; [reflexivity|].
  cbn [strip_bom]. inversion H; subst. destruct (N.eqb_spec u bom); [unfold bom in *; lia|]. exact E1.
Qed.

Lemma load_bytes_units n sh (ll : list (list N)) :
  sh <> [] -> n <> 0 -> last sh 0 mod n = 0 -> prod sh = n * length ll ->
  Forall (fun u => length u <= n /\ Forall (fun x => (x < 128)%N) u) ll ->
  convert_to_numpy_bytes (mkArr (TU 2) sh (flat_map (fun u => units (pad n u)) ll)) n =
    Ok (mkArr (TS n) (removelast sh ++ [last sh 0 / n]) (map (fun u => XBytes (strip0 u)) ll)).
Proof.
  intros Hs Hn Hm Hp HF. unfold convert_to_numpy_bytes. cbn [a_dt a_shape a_data Nat.eqb orb negb].
  destruct sh as [|x sh]; [congruence|]. set (sh' := x :: sh) in *.
  destruct (Nat.eqb_spec n 0); [lia|].
  assert (P : prod (removelast sh' ++ [last sh' 0 / n]) = length (map (pad n) ll)).
  { rewrite map_length. pose proof (last_map_mod sh' n Hs Hn Hm). nia. }
  rewrite P. replace (flat_map (fun u => units (pad n u)) ll) with (flat_map (@units pyval) (map (pad n) ll))
    by (rewrite !flat_map_concat_map, map_map; reflexivity).
  rewrite of_units_concat, chunks_flat.
  - rewrite (mapr_ok_list _ _ (map strip0 ll)); [cbn [bindr]; rewrite map_map; reflexivity|].
    clear - HF. induction HF as [|u ll [H1 H2] _ IH]; cbn [map]; constructor; [|assumption].
    unfold bytes_chunk. destruct (ascii_utf16 (pad n u)) as [E1 E2].
    { unfold pad. apply Forall_app. split; [exact H2|]. apply Forall_forall. intros z Hz. apply repeat_spec in Hz. lia. }
    rewrite E1. cbn [bindr]. rewrite E2. cbn [bindr].
    rewrite firstn_all2 by (rewrite pad_len by exact H1; lia). rewrite strip0_pad. reflexivity.
  - clear - HF. induction HF as [|u ll [H _] _ IH]; cbn; constructor; [apply pad_len; exact H|assumption].
Qed.

Lemma bytes_flat n l : bytes_elems n l ->
  flat_map (fun e : elem pyval => match e with XBytes s => pad n s | _ => [] end) l = concat (map (fun e => pad n (elem_bytes e)) l).
Proof. rewrite flat_map_concat_map. induction 1 as [|e l (s & -> & _ & Hg) _ IH]; [reflexivity|]. cbn. f_equal. exact IH. Qed.
Lemma bytes_elems_map n l : bytes_elems n l -> l = map (fun u => XBytes (strip0 u)) (map elem_bytes l).
Proof. induction 1 as [|e l (s & -> & _ & Hg) _ IH]; [reflexivity|]. cbn. rewrite Hg. f_equal. exact IH. Qed.
Lemma units_concat {A} (ll : list (list N)) : @units A (concat ll) = flat_map units ll.
Proof. induction ll as [|l ll IH]; [reflexivity|]. cbn. unfold units in *. rewrite map_app, IH. reflexivity. Qed.

(** a bytes array is stored as it is or as ASCII words; either way reading gives it back *)
Lemma store_bytes_cases o n sh l : bytes_elems n l -> length l = prod sh -> n <> 0 -> prod sh <> 0 ->
  let a := mkArr (TS n) sh l in
  store_bytes o a = a \/
  exists b, store_bytes o a = b /\ a_dt b = TU 2 /\ a_shape b = scale_last n (atleast_1d sh) /\
    length (a_data b) = prod (a_shape b) /\
    forall sh', sh' <> [] -> last sh' 0 mod n = 0 -> prod sh' = prod (a_shape b) ->
      convert_to_numpy_bytes (mkArr (TU 2) sh' (a_data b)) n =
        Ok (mkArr (TS n) (removelast sh' ++ [last sh' 0 / n]) l).
Proof.
  intros Hl L Hn Hp a. unfold a, store_bytes. cbn [a_dt]. destruct (o_bytes_utf16 o); [|left; reflexivity].
  unfold nbytes, size. cbn [a_dt a_shape a_data itemsize].
  destruct (Nat.eqb_spec (prod sh * n) 0); [nia|].
  rewrite (bytes_flat n l Hl).
  destruct (forallb _ _) eqn:E; [|left; reflexivity]. right. eexists. split; [reflexivity|]. cbn [a_dt a_shape a_data].
  assert (P : prod (scale_last n (atleast_1d sh)) = n * length l)
    by (rewrite scale_last_prod by apply atleast_1d_nonnil; rewrite atleast_1d_prod; lia).
  assert (EQ : @units pyval (concat (map (fun e => pad n (elem_bytes e)) l)) =
               flat_map (fun u => units (pad n u)) (map elem_bytes l)).
  { rewrite units_concat. rewrite !flat_map_concat_map, !map_map. reflexivity. }
  repeat split; auto.
  - rewrite P, EQ. rewrite flat_pad_len; [rewrite map_length; reflexivity|].
    clear - Hl. induction Hl as [|e l (s & -> & H & _) _ IH]; cbn; constructor; assumption.
  - intros sh' H1 H2 H3. rewrite EQ, load_bytes_units; auto.
    + rewrite <- (bytes_elems_map n l Hl). reflexivity.
    + rewrite map_length. congruence.
    + rewrite forallb_forall in E. apply Forall_forall. intros u Hu. apply in_map_iff in Hu.
      destruct Hu as (e & <- & He). split.
      * unfold bytes_elems in Hl. rewrite Forall_forall in Hl. destruct (Hl e He) as (s & -> & H & _). exact H.
      * apply Forall_forall. intros x Hx. apply N.ltb_lt. apply E. apply in_concat. exists (pad n (elem_bytes e)). split.
        { apply in_map_iff. exists e. auto. }
        { apply in_or_app. left. exact Hx. }
Qed.
