(** What the properties of opening files speak about. *)
From Verif Require Import Base PathEsc ProcessPath Dec Value OptionsM Hdf5 FileApi OpenM.
Local Open Scope nat_scope.

Definition valid_now (t : now) : Prop :=
  n_weekday t < 7 /\ 1 <= n_month t <= 12 /\ 1 <= n_day t <= 31 /\ n_hour t < 24 /\ n_minute t < 60 /\ n_second t < 62 /\ (N.of_nat (n_year t) <= 9999)%N.
(** a text of visible characters and spaces *)
Definition printable (s : list N) : Prop := Forall (fun c => (32 <= c < 127)%N) s.
(** the contents of a file are given up: asked for, or it is not good for MATLAB and this
    was asked for in that case *)
Definition truncation_asked (o : options) (a : open_args) (im : image) : Prop :=
  oa_truncate a = true \/ (o_matlab_compatible o = true /\ oa_truncate_invalid a = true /\ length (im_user im) < 128).
(** a dict with these items *)
Definition items_of {K V} (l : list (K * V)) : Prop := NoDup (map fst l).
(** == of paths as keys of a dict: the same path *)
Definition same_path (peq : pypath -> pypath -> bool) : Prop := forall a b, peq a b = true <-> a = b.
Definition path_dec (a b : pypath) : {a = b} + {a <> b}.
Proof. repeat (decide equality). Defined.
Definition path_eq (a b : pypath) : bool := if path_dec a b then true else false.
(** the digits of a number, in decimal *)
Definition decimal (s : list N) (n : nat) : Prop := s <> [] /\ Forall (fun c => (48 <= c <= 57)%N) s /\ fold_left (fun a c => (10 * a + (c - 48))%N) s 0%N = N.of_nat n.
(** a time as in "Mon Jan 02 03:04:05 2022" *)
Inductive stamp (t : now) : list N -> Prop :=
| Stamp day month dd hh mm ss yyyy :
    nth_error [lit "Mon"; lit "Tue"; lit "Wed"; lit "Thu"; lit "Fri"; lit "Sat"; lit "Sun"] (n_weekday t) = Some day ->
    nth_error [lit "Jan"; lit "Feb"; lit "Mar"; lit "Apr"; lit "May"; lit "Jun"; lit "Jul"; lit "Aug"; lit "Sep"; lit "Oct"; lit "Nov"; lit "Dec"] (n_month t - 1) = Some month ->
    decimal dd (n_day t) -> decimal hh (n_hour t) -> decimal mm (n_minute t) -> decimal ss (n_second t) -> decimal yyyy (n_year t) ->
    length dd = 2 -> length hh = 2 -> length mm = 2 -> length ss = 2 ->
    stamp t (day ++ lit " " ++ month ++ lit " " ++ dd ++ lit " " ++ hh ++ lit ":" ++ mm ++ lit ":" ++ ss ++ lit " " ++ yyyy).
