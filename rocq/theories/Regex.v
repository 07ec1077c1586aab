(** A small model of Python's [re] engine: the constructs used by
    pathesc.py l.58-69.  [re] backtracks, preferring the left branch of an
    alternation and as many iterations as possible of a repetition; the list
    of successes below is in exactly that order of preference, so the match
    that Python reports is its head. *)
From Verif Require Import Base.

Inductive re :=
| RClass (p : N -> bool)          (* one character of a class *)
| RSeq (a b : re)
| RAlt (a b : re)                 (* a|b *)
| RRep (mn : nat) (mx : option nat) (a : re)   (* a{mn,mx}, greedy; None: no upper bound *)
| RBol                            (* ^ : only at position 0 (no re.MULTILINE) *)
| REol.                           (* $ : at the end, or just before a final newline *)

(** [(bol, s)]: are we at position 0, and what remains of the subject. *)
Notation rst := (bool * list N)%type.

Definition dec_opt (o : option nat) : option nat :=
  match o with Some (S n) => Some n | _ => o end.

Section Rep.
  Variable m : rst -> list rst.
  (** greedy repetition; an iteration must make progress (as in [re], where
      an iteration that matches nothing ends the loop). Fuel: remaining length + 1. *)
  Fixpoint rep (fuel : nat) (mn : nat) (mx : option nat) (st : rst) : list rst :=
    match fuel with
    | O => []
    | S fuel' =>
        (match mx with
         | Some O => []
         | _ => flat_map (fun st' =>
                  if Nat.ltb (List.length (snd st')) (List.length (snd st))
                  then rep fuel' (pred mn) (dec_opt mx) st' else [])
                (m st)
         end) ++ (match mn with O => [st] | S _ => [] end)
    end.
End Rep.

Fixpoint matches (r : re) (st : rst) : list rst :=
  match r with
  | RClass p => match snd st with
                | c :: s' => if p c then [(false, s')] else []
                | [] => [] end
  | RSeq a b => flat_map (matches b) (matches a st)
  | RAlt a b => matches a st ++ matches b st
  | RRep mn mx a => rep (matches a) (S (List.length (snd st))) mn mx st
  | RBol => if fst st then [st] else []
  | REol => match snd st with
            | [] => [st]
            | [c] => if c =? 10 then [st] else []
            | _ => [] end
  end.

(** Pattern.match(s): rest of the subject after the match at position 0. *)
Definition re_match (r : re) (s : pystr) : option pystr :=
  match matches r (true, s) with st :: _ => Some (snd st) | [] => None end.

(** Pattern.search(s) is not None. *)
Fixpoint re_search_from (r : re) (bol : bool) (s : pystr) : bool :=
  match matches r (bol, s) with
  | _ :: _ => true
  | [] => match s with [] => false | _ :: s' => re_search_from r false s' end
  end.
Definition re_search (r : re) (s : pystr) : bool := re_search_from r true s.

(** Pattern.sub(f, s), for patterns that never match the empty string (all
    that are used): scan left to right, replace the match found at the
    leftmost position, go on after it.  [f] may raise. *)
Fixpoint re_sub_from (r : re) (f : pystr -> res pystr) (fuel : nat) (bol : bool) (s : pystr)
  : res pystr :=
  match fuel with
  | O => Ok []
  | S fuel' =>
      match s with
      | [] => Ok []
      | c :: s' =>
          match matches r (bol, s) with
          | (_, rest) :: _ =>
              do t <- f (firstn (List.length s - List.length rest) s);
              do u <- re_sub_from r f fuel' false rest;
              Ok (t ++ u)
          | [] => do u <- re_sub_from r f fuel' false s'; Ok (c :: u)
          end
      end
  end.
Definition re_sub (r : re) (f : pystr -> res pystr) (s : pystr) : res pystr :=
  re_sub_from r f (S (List.length s)) true s.
