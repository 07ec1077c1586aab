(** Specification of the escape syntax, independent of the regexes. *)
From Verif Require Import Base PathEsc.

(** What may follow an odd run of backslashes: xHH, uHHHH or UHHHHHHHH. *)
Definition hex_kind (k : N) (n : nat) : Prop :=
  (k = chx /\ n = 2%nat) \/ (k = chu /\ n = 4%nat) \/ (k = chU /\ n = 8%nat).

Definition hex_escape_follows (rest : pystr) : Prop :=
  exists k ds tl, rest = k :: ds ++ tl /\ hex_kind k (List.length ds) /\ forallb is_hex ds = true.

Definition ends_in_bslash (s : pystr) : Prop := exists p, s = p ++ [bslash].
Definition starts_with_bslash (s : pystr) : Prop := exists p, s = bslash :: p.

(** Every maximal run of backslashes of odd length is followed by a hex escape. *)
Definition well_escaped (s : pystr) : Prop :=
  forall pre n rest, s = pre ++ repeat bslash n ++ rest ->
    ~ ends_in_bslash pre -> ~ starts_with_bslash rest -> Nat.odd n = true ->
    hex_escape_follows rest.

(** The same syntax as a token grammar, with its meaning. *)
Inductive token := TChar (c : N) | TBackslash | THex (k : N) (ds : pystr).

Definition token_ok (t : token) : Prop :=
  match t with
  | TChar c => c <> bslash
  | TBackslash => True
  | THex k ds => hex_kind k (List.length ds) /\ forallb is_hex ds = true
  end.

Definition token_text (t : token) : pystr :=
  match t with
  | TChar c => [c]
  | TBackslash => [bslash; bslash]
  | THex k ds => bslash :: k :: ds
  end.

Definition token_meaning (t : token) : N :=
  match t with
  | TChar c => c
  | TBackslash => bslash
  | THex _ ds => int16 ds
  end.

Definition text (ts : list token) : pystr := flat_map token_text ts.
