(** What the properties about reading Groups as dicts speak about (C46). *)
From Verif Require Import Base PathEsc PosixPath ProcessPath Unicode NdArray Value OptionsM Attrs Hdf5 MarshalW FileApi ApiSpec.
Local Open Scope nat_scope.

(** at [cs] there is a Group with these attributes; its members have different names and can be
    given by paths, and none of them is the Group for references *)
Definition group_at (o : options) (s : st) (cs : list pystr) (at_ : attrs) : Prop :=
  (exists i ob ls, walk (hp s) 0 cs = Some i /\ hp s i = Some ob /\ o_body ob = BGroup ls /\ NoDup (map fst ls) /\ o_attrs ob = at_) /\
  forall name j, walk (hp s) 0 (cs ++ [name]) = Some j -> (exists q, valid_path q /\ denotes q (cs ++ [name])) /\ name_text (name_of (hp s) j) <> o_refs o.
(** it was stored as a Python dict (OrderedDict, Counter), with its values under the names
    of their keys, which were all strs *)
Definition dict_types : list (pystr * dictkind) :=
  [(lit "dict", MDict); (lit "collections.OrderedDict", MOrderedDict); (lit "collections.Counter", MCounter)].
Definition says (at_ : attrs) (k v : pystr) : Prop := at_ k = Some (AText v) \/ at_ k = Some (AStr v) /\ Forall (fun c => (c < 128)%N) v.
Definition str_dict (at_ : attrs) (k : dictkind) : Prop :=
  (exists t, says at_ (lit "Python.Type") t /\ In (t, k) dict_types) /\
  (at_ (lit "Python.dict.StoredAs") = None \/ says at_ (lit "Python.dict.StoredAs") (lit "individually")) /\
  (at_ (lit "MATLAB_class") = None \/ exists c, says at_ (lit "MATLAB_class") c) /\
  (at_ (lit "Python.dict.key_str_types") = None \/ exists n, says at_ (lit "Python.dict.key_str_types") (repeat 116%N n)).
(** a MATLAB struct from elsewhere *)
Definition plain_struct (at_ : attrs) : Prop := at_ (lit "MATLAB_class") = Some (AStr (lit "struct")) /\
  forall k, k <> lit "MATLAB_class" -> k <> lit "MATLAB_fields" -> k <> lit "H5PATH" -> at_ k = None.
(** the names of the members stay different when they are unescaped *)
Definition distinct_names (s : st) (cs : list pystr) : Prop :=
  forall a b u, walk (hp s) 0 (cs ++ [a]) <> None -> walk (hp s) 0 (cs ++ [b]) <> None -> unescape_path a = Ok u -> unescape_path b = Ok u -> a = b.
(** none of the members is nested deeper than reading goes *)
Definition deep_enough (o : options) (m : nat) (keq : pyval -> pyval -> bool) (s : st) (cs : list pystr) : Prop :=
  forall name q, denotes q (cs ++ [name]) -> snd (file_read o m keq (mkFile true s) q) <> Err OutOfFuel.
(** the members that can be read, by name, with what is read *)
Definition members_read (o : options) (m : nat) (keq : pyval -> pyval -> bool) (s : st) (cs : list pystr) (l : list (pyval * pyval)) : Prop :=
  forall kx x, In (kx, x) l <-> exists name u q, unescape_path name = Ok u /\ kx = VStr u /\ valid_path q /\ denotes q (cs ++ [name]) /\
    file_read o m keq (mkFile true s) q = (mkFile true s, Ok x).
(** a dict stored as a list of keys and one of values, under these names *)
Definition pairs_dict (o : options) (at_ : attrs) (k : dictkind) (kn vn : pystr) : Prop :=
  (exists t, says at_ (lit "Python.Type") t /\ In (t, k) dict_types) /\
  says at_ (lit "Python.dict.StoredAs") (lit "keys_values") /\
  (at_ (lit "MATLAB_class") = None \/ exists c, says at_ (lit "MATLAB_class") c) /\
  (at_ (lit "Python.dict.key_str_types") = None) /\
  (at_ (lit "Python.dict.keys_values_names") = Some (AStrs [kn; vn]) \/
   at_ (lit "Python.dict.keys_values_names") = None /\ kn = o_keys_name o /\ vn = o_values_name o).
(** dict(zip(ks, vs)): of keys that are equal there is one, with the last value *)
Definition same_key (keq : pyval -> pyval -> bool) (ks : list pyval) : Prop :=
  (forall x, In x ks -> keq x x = true) /\ (forall x y, In x ks -> In y ks -> keq x y = true -> keq y x = true) /\
  (forall x y z, In x ks -> In y ks -> In z ks -> keq x y = true -> keq y z = true -> keq x z = true).
Definition last_given (keq : pyval -> pyval -> bool) (ks vs : list pyval) (k v : pyval) : Prop :=
  exists i k', nth_error ks i = Some k' /\ keq k k' = true /\ nth_error vs i = Some v /\
    forall j kj vj, i < j -> nth_error ks j = Some kj -> nth_error vs j = Some vj -> keq k kj = false.
Definition zipped (keq : pyval -> pyval -> bool) (ks vs : list pyval) (l : list (pyval * pyval)) : Prop :=
  (forall k v, In (k, v) l -> In k ks /\ last_given keq ks vs k v) /\
  (forall i k v, nth_error ks i = Some k -> nth_error vs i = Some v -> exists k0 v0, In (k0, v0) l /\ keq k0 k = true) /\
  ForallOrdPairs (fun x y => keq x y = false) (map fst l).
