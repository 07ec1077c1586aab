(** Model of pathesc.py l.52-235: escape_path and unescape_path. *)
From Verif Require Import Base Regex.

Definition bslash : N := 92.   (* '\\' *)
Definition fslash : N := 47.   (* '/' *)
Definition dot : N := 46.      (* '.' *)
Definition nul : N := 0.
Definition chx : N := 120.     (* 'x' *)
Definition chu : N := 117.     (* 'u' *)
Definition chU : N := 85.      (* 'U' *)

(** [0-9a-fA-F] *)
Definition is_hex (c : N) : bool :=
  ((48 <=? c) && (c <=? 57)) || ((97 <=? c) && (c <=? 102)) || ((65 <=? c) && (c <=? 70)).
Definition cls1 (x : N) : re := RClass (N.eqb x).
Definition hexc : re := RClass is_hex.
Definition nhexc : re := RClass (fun c => negb (is_hex c)).

(** pathesc.py l.58: "\\.+" *)
Definition find_dots_re : re := RRep 1 None (cls1 dot).

(** pathesc.py l.59-64 *)
Definition end_or_nonhex : re := RAlt REol nhexc.
Definition find_invalid_escape_re : re :=
  RSeq (RAlt RBol (RClass (fun c => negb (c =? bslash))))
  (RSeq (cls1 bslash)
  (RSeq (RRep 0 None (RSeq (cls1 bslash) (cls1 bslash)))
     (RAlt REol
     (RAlt (RClass (fun c => negb ((c =? chx) || (c =? chu) || (c =? chU) || (c =? bslash))))
     (RAlt (RSeq (cls1 chx) (RSeq (RRep 0 (Some 1%nat) hexc) end_or_nonhex))
     (RAlt (RSeq (cls1 chu) (RSeq (RRep 0 (Some 3%nat) hexc) end_or_nonhex))
           (RSeq (cls1 chU) (RSeq (RRep 0 (Some 7%nat) hexc) end_or_nonhex)))))))).

(** pathesc.py l.65: a backslash, a slash or a NUL *)
Definition find_fslashnull_re : re :=
  RClass (fun c => (c =? bslash) || (c =? fslash) || (c =? nul)).

(** pathesc.py l.66-68 *)
Definition find_escapes_re : re :=
  RSeq (RRep 1 None (cls1 bslash))
    (RAlt (RSeq (cls1 chx) (RRep 2 (Some 2%nat) hexc))
    (RAlt (RSeq (cls1 chu) (RRep 4 (Some 4%nat) hexc))
          (RSeq (cls1 chU) (RRep 8 (Some 8%nat) hexc)))).

(** lower-case hexadecimal digit, as printed by the format f"{value:02x}" *)
Definition hexdigit (v : N) : N := if v <? 10 then 48 + v else 87 + v.
(** f"{value:0<n>x}" for value < 16^n *)
Fixpoint hexpad (n : nat) (v : N) : pystr :=
  match n with
  | O => []
  | S n' => hexpad n' (v / 16) ++ [hexdigit (v mod 16)]
  end.

(** pathesc.py l.72-114 [_replace_fun_escape]; the match is one character. *)
Definition replace_fun_escape (m : pystr) : res pystr :=
  match m with
  | [c] =>
      if c =? nul then Ok (lit "\x00")          (* _char_escape_conversions, l.69 *)
      else if c =? fslash then Ok (lit "\x2f")
      else if c =? bslash then Ok (lit "\\")
      else if c <=? 255 then Ok ([bslash; chx] ++ hexpad 2 c)
      else if c <=? 65535 then Ok ([bslash; chu] ++ hexpad 4 c)
      else if c <=? 4294967295 then Ok ([bslash; chU] ++ hexpad 8 c)
      else Err NotImplementedError
  | _ => Err TypeError   (* ord() of a str of length <> 1 *)
  end.

(** value of a hexadecimal digit; int(s, base=16) on digits only *)
Definition hexval (c : N) : N :=
  if c <=? 57 then c - 48 else if c <=? 70 then c - 55 else c - 87.
Definition int16 (s : pystr) : N := fold_left (fun a c => a * 16 + hexval c) s 0.

(** chr(v): ValueError from 0x110000 on, OverflowError when v does not fit
    in a C int (CPython up to 3.12; later ones raise ValueError there too). *)
Definition chr (v : N) : res N :=
  if v <? max_cp then Ok v
  else if v <? 2147483648 then Err ValueError else Err OverflowError.

Definition count_bs (s : pystr) : nat := List.length (filter (N.eqb bslash) s).

(** pathesc.py l.117-142 [_replace_fun_unescape] *)
Definition replace_fun_unescape (s : pystr) : res pystr :=
  let count := count_bs s in
  if Nat.even count then Ok s
  else do c <- chr (int16 (skipn (count + 1) s)); Ok (repeat bslash (count - 1) ++ [c]).

(** str.replace("\\\\", "\\"): leftmost, non overlapping *)
Fixpoint replace_dbl (s : pystr) : pystr :=
  match s with
  | c :: r => if c =? bslash
              then match r with
                   | d :: r' => if d =? bslash then bslash :: replace_dbl r' else c :: replace_dbl r
                   | [] => [c]
                   end
              else c :: replace_dbl r
  | [] => []
  end.

Fixpoint repeat_str (s : pystr) (n : nat) : pystr :=
  match n with O => [] | S n' => s ++ repeat_str s n' end.

(** pathesc.py l.145-190, str argument (bytes are decoded first, l.180) *)
Definition escape_path (pth : pystr) : res pystr :=
  match re_match find_dots_re pth with
  | None => re_sub find_fslashnull_re replace_fun_escape pth
  | Some rest =>
      let e := (List.length pth - List.length rest)%nat in
      do t <- re_sub find_fslashnull_re replace_fun_escape rest;
      Ok (repeat_str (lit "\x2e") e ++ t)
  end.

(** pathesc.py l.193-235, str argument *)
Definition unescape_path (pth : pystr) : res pystr :=
  if re_search find_invalid_escape_re pth then Err ValueError
  else do s <- re_sub find_escapes_re replace_fun_unescape pth; Ok (replace_dbl s).
