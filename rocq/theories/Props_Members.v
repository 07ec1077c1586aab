(** Property C46: reading a Group as a dict. *)
From Verif Require Import Base PathEsc PosixPath ProcessPath Unicode Dec NdArray Value OptionsM OptionsSpec Attrs Hdf5 HeapFacts NpWrite MarshalW MarshalR FileApi ApiSpec FileFacts MembersSpec Members Props_Incompat.
Local Open Scope nat_scope.

(** C46: whatever is in the file, a Group that is marked as a Python dict with str keys is
    read as a dict of exactly the members that can be read on their own, with the values
    they have when read so; the others are left out and it is not an error. *)
Theorem C46_dict : forall o m keq s p cs at_ k, (forall a b, keq (VStr a) (VStr b) = eqb_str a b) -> good_refs (o_refs o) ->
  valid_path p -> denotes p cs -> cs <> [] -> ~ same_top cs (refs_path o) ->
  group_at o s cs at_ -> str_dict at_ k -> distinct_names s cs -> deep_enough o m keq s cs ->
  exists l, file_read o (S m) keq (mkFile true s) p = (mkFile true s, Ok (VDict k l)) /\ members_read o m keq s cs l.
Proof. intros o m keq s p cs at_ k HQ HA V D NZ ST. exact (read_dict o m keq s p cs at_ HQ HA V D NZ ST k). Qed.
Print Assumptions C46_dict.
(** The same for structs that MATLAB has written, with structs_as_dicts, if their names can
    be unescaped. *)
Theorem C46_struct : forall o m keq s p cs at_, good_refs (o_refs o) -> valid_path p -> denotes p cs -> cs <> [] -> ~ same_top cs (refs_path o) ->
  group_at o s cs at_ -> plain_struct at_ -> o_structs_as_dicts o = true -> distinct_names s cs -> deep_enough o m keq s cs ->
  (forall name, walk (hp s) 0 (cs ++ [name]) <> None -> exists u, unescape_path name = Ok u) ->
  exists l, file_read o (S m) keq (mkFile true s) p = (mkFile true s, Ok (VDict MDict l)) /\ members_read o m keq s cs l.
Proof. intros o m keq s p cs at_ HA V D NZ ST. exact (read_struct o m keq s p cs at_ HA V D NZ ST). Qed.
Print Assumptions C46_struct.
(** One that is marked as a dict stored as keys and values is read as the dict of them in
    pairs: no two keys are equal, each has the value given for it last. *)
Theorem C46_pairs : forall o m keq s p cs at_ k kn vn qk qv sk sv ks vs, good_refs (o_refs o) ->
  valid_path p -> denotes p cs -> cs <> [] -> ~ same_top cs (refs_path o) -> group_at o s cs at_ -> pairs_dict o at_ k kn vn ->
  valid_path qk -> denotes qk (cs ++ [escaped kn]) -> file_read o m keq (mkFile true s) qk = (mkFile true s, Ok (VSeq sk ks)) ->
  valid_path qv -> denotes qv (cs ++ [escaped vn]) -> file_read o m keq (mkFile true s) qv = (mkFile true s, Ok (VSeq sv vs)) -> same_key keq ks ->
  exists l, file_read o (S m) keq (mkFile true s) p = (mkFile true s, Ok (VDict k l)) /\ zipped keq ks vs l.
Proof. intros o m keq s p cs at_ k kn vn qk qv sk sv ks vs HA V D NZ ST. exact (read_pairs o m keq s p cs at_ HA V D NZ ST k kn vn qk qv sk sv ks vs). Qed.
Print Assumptions C46_pairs.
(** for example: 'Ā' cannot be read back (C16), so a dict with it comes back without it *)
Definition c46_value : pyval := VDict MDict [(VStr (lit "a"), VInt 1); (VStr (lit "b"), VStr [256%N])].
Definition c46_state : st := fl_st (at_x python_options c46_value).
Lemma c46_links : Hdf5.links (hp c46_state) 1 = [(lit "a", 2); (lit "b", 3)]. Proof. vm_compute. reflexivity. Qed.
Lemma c46_walk name : walk (hp c46_state) 0 ([lit "x"] ++ [name]) = assoc name [(lit "a", 2); (lit "b", 3)].
Proof.
  assert (X : walk (hp c46_state) 0 [lit "x"] = Some 1) by (vm_compute; reflexivity).
  rewrite walk_snoc, X. unfold lookup. rewrite c46_links. destruct (assoc _ _); reflexivity.
Qed.
Lemma c46_names name j : walk (hp c46_state) 0 ([lit "x"] ++ [name]) = Some j -> name = lit "a" /\ j = 2 \/ name = lit "b" /\ j = 3.
Proof.
  rewrite c46_walk. cbn [assoc]. destruct (eqb_str_spec name (lit "a")) as [->|]; [intros [= <-]; auto|]. destruct (eqb_str_spec name (lit "b")) as [->|]; [intros [= <-]; auto|discriminate].
Qed.
Lemma c46_path g k : process_path (PStr (g ++ lit "/" ++ k)) = Ok (g, k) -> posix_join g [k] = g ++ lit "/" ++ k -> denotes (PStr (g ++ lit "/" ++ k)) (path_comps (g ++ lit "/" ++ k)).
Proof. intros P J. exists g, k. rewrite J. auto. Qed.
Lemma valid_by p cs : denotes p cs -> Forall (fun c => name_err c = None) cs -> valid_path p.
Proof. intros D F ds D'. rewrite (denotes_fun _ _ _ D' D). exact F. Qed.
Example C46_ex : exists at_, group_at python_options c46_state [lit "x"] at_ /\ str_dict at_ MDict /\ distinct_names c46_state [lit "x"] /\
  snd (file_write python_options N.of_nat 5 20 (mkFile true empty_file) c46_value (PStr (lit "/x"))) = Ok tt /\
  snd (file_read python_options 20 key_eq (mkFile true c46_state) (PStr (lit "/x"))) = Ok (VDict MDict [(VStr (lit "a"), VInt 1)]) /\
  snd (file_read python_options 20 key_eq (mkFile true c46_state) (PStr (lit "/x/b"))) = Err UnicodeDecodeError.
Proof.
  destruct (hp c46_state 1) as [ob|] eqn:E; [|vm_compute in E; discriminate]. exists (o_attrs ob).
  assert (NT : name_text (name_of (hp c46_state) 2) <> o_refs python_options /\ name_text (name_of (hp c46_state) 3) <> o_refs python_options) by (vm_compute; split; discriminate).
  assert (A : forall k v, attrs_of (hp c46_state) 1 k = v -> o_attrs ob k = v) by (intros k v X; unfold attrs_of in X; rewrite E in X; exact X).
  split; [|split; [|split; [|vm_compute; auto]]].
  - split.
    + exists 1, ob, [(lit "a", 2); (lit "b", 3)]. split; [vm_compute; reflexivity|]. split; [exact E|]. split; [|split; [repeat constructor; cbn; intuition discriminate|reflexivity]].
      pose proof c46_links as L. unfold Hdf5.links in L. rewrite E in L. destruct (o_body ob); [discriminate|rewrite L; reflexivity].
    + intros name j H. destruct (c46_names _ _ H) as [[-> ->]|[-> ->]]; (split; [|apply NT]).
      * exists (PStr (lit "/x/a")). assert (DN : denotes (PStr (lit "/x/a")) ([lit "x"] ++ [lit "a"])) by (apply (c46_path (lit "/x") (lit "a")); vm_compute; reflexivity).
        split; [eapply valid_by; [exact DN|]; repeat (apply Forall_cons; [vm_compute; reflexivity|]); apply Forall_nil|exact DN].
      * exists (PStr (lit "/x/b")). assert (DN : denotes (PStr (lit "/x/b")) ([lit "x"] ++ [lit "b"])) by (apply (c46_path (lit "/x") (lit "b")); vm_compute; reflexivity).
        split; [eapply valid_by; [exact DN|]; repeat (apply Forall_cons; [vm_compute; reflexivity|]); apply Forall_nil|exact DN].
  - assert (ASC : forall l, forallb (fun c => (c <? 128)%N) l = true -> Forall (fun c => (c < 128)%N) l) by (intros l H; rewrite forallb_forall in H; apply Forall_forall; intros c Hc; apply N.ltb_lt; auto).
    split; [|split; [|split]].
    + exists (lit "dict"). split; [|left; reflexivity]. right. split; [apply A; vm_compute; reflexivity|apply ASC; reflexivity].
    + right. right. split; [apply A; vm_compute; reflexivity|apply ASC; reflexivity].
    + left. apply A. vm_compute. reflexivity.
    + right. exists 2. right. split; [apply A; vm_compute; reflexivity|apply ASC; reflexivity].
  - intros a b u HA HB UA UB. destruct (walk (hp c46_state) 0 ([lit "x"] ++ [a])) eqn:EA; [|congruence]. destruct (walk (hp c46_state) 0 ([lit "x"] ++ [b])) eqn:EB; [|congruence].
    destruct (c46_names _ _ EA) as [[-> _]|[-> _]], (c46_names _ _ EB) as [[-> _]|[-> _]]; try reflexivity; vm_compute in UA, UB; congruence.
Qed.
