(** UTF-8, UTF-16 (native little endian code units) and UTF-32 as used through
    bytes.decode / str.encode / ndarray views.  Executable models of CPython's
    strict codecs on code points. *)
From Verif Require Import Base.

Definition is_surrogate (c : N) : bool := (55296 <=? c) && (c <=? 57343).  (* D800..DFFF *)
Definition is_high (c : N) : bool := (55296 <=? c) && (c <=? 56319).       (* D800..DBFF *)
Definition is_low (c : N) : bool := (56320 <=? c) && (c <=? 57343).        (* DC00..DFFF *)

(** a Unicode scalar value *)
Definition is_scalar (c : N) : bool := (c <? max_cp) && negb (is_surrogate c).
Definition scalar_str (s : pystr) : Prop := Forall (fun c => is_scalar c = true) s.

(** *** UTF-8: str.encode("utf-8") with strict errors *)
Definition utf8_enc1 (c : N) : list N :=
  if c <? 128 then [c]
  else if c <? 2048 then [192 + c / 64; 128 + c mod 64]
  else if c <? 65536 then [224 + c / 4096; 128 + (c / 64) mod 64; 128 + c mod 64]
  else [240 + c / 262144; 128 + (c / 4096) mod 64; 128 + (c / 64) mod 64; 128 + c mod 64].

Fixpoint utf8_encode (s : pystr) : res (list N) :=
  match s with
  | [] => Ok []
  | c :: r => if is_scalar c then do b <- utf8_encode r; Ok (utf8_enc1 c ++ b)
              else Err UnicodeEncodeError
  end.

Definition is_cont (b : N) : bool := (128 <=? b) && (b <=? 191).

(** bytes.decode("utf-8") with strict errors: shortest form only, no
    surrogates, nothing above 0x10FFFF. *)
Fixpoint utf8_decode (fuel : nat) (bs : list N) : res pystr :=
  match fuel with
  | O => Ok []
  | S fuel' =>
    match bs with
    | [] => Ok []
    | b0 :: r0 =>
      if b0 <? 128 then do s <- utf8_decode fuel' r0; Ok (b0 :: s)
      else if (194 <=? b0) && (b0 <=? 223) then
        match r0 with
        | b1 :: r1 =>
          if is_cont b1 then do s <- utf8_decode fuel' r1; Ok ((b0 - 192) * 64 + (b1 - 128) :: s)
          else Err UnicodeDecodeError
        | _ => Err UnicodeDecodeError
        end
      else if (224 <=? b0) && (b0 <=? 239) then
        match r0 with
        | b1 :: b2 :: r2 =>
          let c := (b0 - 224) * 4096 + (b1 - 128) * 64 + (b2 - 128) in
          if is_cont b1 && is_cont b2 && (2048 <=? c) && negb (is_surrogate c)
          then do s <- utf8_decode fuel' r2; Ok (c :: s)
          else Err UnicodeDecodeError
        | _ => Err UnicodeDecodeError
        end
      else if (240 <=? b0) && (b0 <=? 244) then
        match r0 with
        | b1 :: b2 :: b3 :: r3 =>
          let c := (b0 - 240) * 262144 + (b1 - 128) * 4096 + (b2 - 128) * 64 + (b3 - 128) in
          if is_cont b1 && is_cont b2 && is_cont b3 && (65536 <=? c) && (c <? max_cp)
          then do s <- utf8_decode fuel' r3; Ok (c :: s)
          else Err UnicodeDecodeError
        | _ => Err UnicodeDecodeError
        end
      else Err UnicodeDecodeError
    end
  end.
Definition bytes_decode_utf8 (bs : list N) : res pystr := utf8_decode (S (List.length bs)) bs.

(** *** UTF-16: str.encode("utf-16-le") as 16 bit code units (strict) *)
Definition utf16_enc1 (c : N) : list N :=
  if c <? 65536 then [c]
  else [55296 + (c - 65536) / 1024; 56320 + (c - 65536) mod 1024].

Fixpoint utf16_encode (s : pystr) : res (list N) :=
  match s with
  | [] => Ok []
  | c :: r => if is_scalar c then do b <- utf16_encode r; Ok (utf16_enc1 c ++ b)
              else Err UnicodeEncodeError
  end.

(** decoding code units, strict *)
Fixpoint utf16_decode (us : list N) : res pystr :=
  match us with
  | [] => Ok []
  | u :: r =>
    if is_surrogate u then
      if is_high u then
        match r with
        | v :: r' => if is_low v then do s <- utf16_decode r';
                        Ok (65536 + (u - 55296) * 1024 + (v - 56320) :: s)
                     else Err UnicodeDecodeError
        | [] => Err UnicodeDecodeError
        end
      else Err UnicodeDecodeError
    else do s <- utf16_decode r; Ok (u :: s)
  end.

(** decoding UTF-32 code units, strict *)
Fixpoint utf32_decode (us : list N) : res pystr :=
  match us with
  | [] => Ok []
  | u :: r => if is_scalar u then do s <- utf32_decode r; Ok (u :: s) else Err UnicodeDecodeError
  end.

(** The "UTF-16"/"UTF-32" codec names (no -le/-be suffix) strip a leading
    byte order mark, U+FEFF in native order. (A byte-swapped mark would switch
    byte order: U+FFFE, see [DESIGN.md].) *)
Definition bom : N := 65279.
Definition strip_bom (us : list N) : list N :=
  match us with u :: r => if u =? bom then r else us | [] => [] end.
