(** Properties C23-C26, C30 and C33: the calls of File. *)
From Verif Require Import Base PathEsc PosixPath ProcessPath Unicode Dec NdArray Value Attrs OptionsM OptionsSpec Hdf5 HeapFacts MarshalW MarshalR FileApi ApiSpec FileFacts FilterFacts.
Local Open Scope nat_scope.

(** C23: one path that is not a path, or that leads into the top level Group the
    references group is in, and nothing at all is written. *)
Theorem C23_validates_first : forall o rnd tries n f mdict p v, In (p, v) mdict ->
  (exists e, process_path p = Err e) \/ (exists cs, denotes p cs /\ same_top cs (refs_path o)) ->
  exists e, file_writes o rnd tries n f mdict = (f, Err e).
Proof. exact writes_refused. Qed.
Print Assumptions C23_validates_first.
Example C23_ex : let m := [(PStr (lit "/good"), VInt 1); (PStr (lit "/x/../#refs#/b"), VInt 2)] in
  denotes (PStr (lit "/x/../#refs#/b")) [lit "#refs#"; lit "b"] /\ same_top [lit "#refs#"; lit "b"] (refs_path default_options) /\
  snd (file_writes default_options N.of_nat 5 20 (mkFile true empty_file) m) = Err ValueError /\
  snd (file_contains (fst (file_writes default_options N.of_nat 5 20 (mkFile true empty_file) m)) (PStr (lit "/good"))) = Ok false.
Proof. split; [eexists; eexists; split; vm_compute; reflexivity|]. split; [eexists; eexists; eexists; split; vm_compute; reflexivity|]. vm_compute. auto. Qed.

(** C24: the references group cannot be written or read as data, nor what is in it, nor
    what it is in. *)
Theorem C24_protected : forall o rnd tries n keq f p cs v, denotes p cs -> refs_path o <> [] ->
  pre (refs_path o) cs \/ (cs <> [] /\ pre cs (refs_path o)) ->
  file_write o rnd tries n f v p = (f, Err ValueError) /\ file_read o n keq f p = (f, Err ValueError).
Proof. exact refs_protected. Qed.
Print Assumptions C24_protected.
(** With the references group at the top level, as it is by default, exactly the paths in
    it are refused: any other path gets as far as the file (and its absence is a
    KeyError in a new one).  Missing: nested references groups, see below. *)
Theorem C24_exact_partial : forall o n keq p cs k, isabs (o_refs o) = true -> refs_path o = [k] -> denotes p cs -> cs <> [] ->
  Forall (fun c => name_err c = None) cs ->
  snd (file_read o n keq (mkFile true empty_file) p) = Err (if eqb_str (hd [] cs) k then ValueError else KeyError).
Proof. exact refs_exact. Qed.
Print Assumptions C24_exact_partial.
Example C24_ex : isabs (o_refs default_options) = true /\ refs_path default_options = [lit "#refs#"] /\
  denotes (PStr (lit "a/#refs#")) [lit "a"; lit "#refs#"].
Proof. split; [reflexivity|]. split; [reflexivity|]. eexists; eexists; split; vm_compute; reflexivity. Qed.

(** With group_for_references="/a/r", a legal value, "/a/b" is refused although it
    has nothing to do with the references group. *)
Definition nested_options : options := with_option default_options GroupForReferences (OVStr (lit "/a/r")).
Theorem C24_nested_refuted : refs_path nested_options = [lit "a"; lit "r"] /\
  denotes (PStr (lit "/a/b")) [lit "a"; lit "b"] /\ ~ overlap [lit "a"; lit "b"] (refs_path nested_options) /\
  forall rnd tries n f v, file_write nested_options rnd tries n f v (PStr (lit "/a/b")) = (f, Err ValueError).
Proof.
  split; [reflexivity|]. split; [eexists; eexists; split; vm_compute; reflexivity|]. split; [|reflexivity].
  intros [[x X]|[x X]]; vm_compute in X; discriminate.
Qed.
Print Assumptions C24_nested_refuted.
(** group_for_references="//" is accepted, makes the root the references group, and
    protects nothing. *)
Theorem C24_slashes_refuted : let o := with_option default_options GroupForReferences (OVStr (lit "//")) in
  o_refs o = lit "//" /\ refs_path o = [] /\
  forall p g t, process_path p = Ok (g, t) -> check_path o p = Ok (g, t).
Proof.
  cbn zeta. split; [reflexivity|]. split; [reflexivity|]. intros p g t P. apply ApiFacts.check_path_iff; [reflexivity|]. split; [exact P|]. left. reflexivity.
Qed.
Print Assumptions C24_slashes_refuted.
(** [del] is not guarded: after del f["/#refs#"] the elements of every list are gone. *)
Theorem C24_del_refuted : exists f, 
  f = fst (file_write default_options N.of_nat 5 20 (mkFile true empty_file) (VSeq QList [VInt 5]) (PStr (lit "/x"))) /\
  snd (file_read default_options 20 key_eq f (PStr (lit "/x"))) = Ok (VSeq QList [VInt 5]) /\
  snd (file_del f (PStr (lit "/#refs#"))) = Ok tt /\
  snd (file_read default_options 20 key_eq (fst (file_del f (PStr (lit "/#refs#")))) (PStr (lit "/x"))) = Err ValueError.
Proof. eexists. split; [reflexivity|]. vm_compute. auto. Qed.
Print Assumptions C24_del_refuted.
(** Nor is the path "/": with the default options a dict without lists written there removes
    the references group, and with it the elements of every list. *)
Theorem C24_root_refuted : exists f, 
  f = fst (file_write default_options N.of_nat 5 20 (mkFile true empty_file) (VSeq QList [VInt 5]) (PStr (lit "/x"))) /\
  snd (file_contains f (PStr (lit "/#refs#"))) = Ok true /\
  let f' := fst (file_write default_options N.of_nat 5 20 f (VDict MDict [(VStr (lit "y"), VInt 1)]) (PStr (lit "/"))) in
  snd (file_contains f' (PStr (lit "/#refs#"))) = Ok false.
Proof. eexists. split; [reflexivity|]. vm_compute. auto. Qed.
Print Assumptions C24_root_refuted.

(** C25.  For the files that come about with a references group "/k": what iterating
    gives, other than k, are exactly the names for which [in] holds; and len is the
    number of names iterating gives exactly if that does not include k.  (Names are not
    unescaped.)  Missing: iteration can give k. *)
Theorem C25_len_iter_partial : forall refs s o k, reachable refs s -> o_refs o = refs -> refs = fslash :: k -> plain_link k -> name_err k = None ->
  exists l n, snd (file_iter o (mkFile true s)) = Ok l /\ snd (file_len o (mkFile true s)) = Ok n /\ NoDup l /\
  (n = length l <-> ~ In k l) /\
  forall name, name <> k ->
    (In name l <-> plain_link name /\ snd (file_contains (mkFile true s) (PStr name)) = Ok true).
Proof. exact iter_len_exact. Qed.
Print Assumptions C25_len_iter_partial.
(** A name that sorts before "#refs#", and iteration gives the references group. *)
Theorem C25_len_iter_refuted :
  let f := fst (file_write default_options N.of_nat 5 20 (mkFile true empty_file) (VSeq QList [VInt 1]) (PStr (lit "/!a"))) in
  snd (file_iter default_options f) = Ok [lit "!a"; lit "#refs#"] /\ snd (file_len default_options f) = Ok 1.
Proof. vm_compute. auto. Qed.
Print Assumptions C25_len_iter_refuted.
(** [del] removes the path and what is inside, nothing else, and raises KeyError exactly
    when the path is not [in] the file (or is "/"). *)
Theorem C25_del : forall refs s p cs, good_refs refs -> reachable refs s -> valid_path p -> denotes p cs ->
  (snd (file_contains (mkFile true s) p) = Ok false \/ cs = [] -> file_del (mkFile true s) p = (mkFile true s, Err KeyError)) /\
  (snd (file_contains (mkFile true s) p) = Ok true -> cs <> [] ->
     exists f', file_del (mkFile true s) p = (f', Ok tt) /\ fl_open f' = true /\
     forall q qs, valid_path q -> denotes q qs ->
       (snd (file_contains f' q) = Ok true <-> snd (file_contains (mkFile true s) q) = Ok true /\ ~ pre cs qs)).
Proof. exact del_contains. Qed.
Print Assumptions C25_del.
Definition c25_file : file :=
  fst (file_writes default_options N.of_nat 5 20 (mkFile true empty_file)
        [(PStr (lit "/x/a"), VSeq QList [VInt 1]); (PStr (lit "/x/b"), VInt 2); (PStr (lit "/y"), VStr (lit "s"))]).
Lemma c25_reachable : reachable (lit "/#refs#") (fl_st c25_file).
Proof.
  eapply R_write; [apply R_new| | |unfold c25_file; apply surjective_pairing].
  - split; [reflexivity|]. split; vm_compute; (split; [discriminate|]; split; [discriminate|]; intros H; repeat (destruct H as [H|H]; [discriminate|]); destruct H).
  - intros p v [[= <- <-]|[[= <- <-]|[[= <- <-]|[]]]] (g & t & P & E); vm_compute in P; injection P as <- <-; discriminate.
Qed.
Example C25_ex : snd (file_iter default_options c25_file) = Ok [lit "x"; lit "y"] /\ snd (file_len default_options c25_file) = Ok 2 /\
  snd (file_contains c25_file (PStr (lit "/x/b"))) = Ok true /\
  snd (file_contains (fst (file_del c25_file (PStr (lit "/x")))) (PStr (lit "/x/b"))) = Ok false /\
  snd (file_contains (fst (file_del c25_file (PStr (lit "/x")))) (PStr (lit "/y"))) = Ok true.
Proof. vm_compute. auto. Qed.

(** C26: once closed, a File answers every call with an error and nothing changes,
    whatever is called and in whatever order; close can be repeated.  [closed_answer]
    says which error. *)
Theorem C26_closed : forall o rnd tries n keq before after f, isabs (o_refs o) = true ->
  let f1 := fst (do_calls o rnd tries n keq (before ++ [KClose]) f) in
  fst (do_calls o rnd tries n keq after f1) = f1 /\ fl_open f1 = false /\
  fl_st f1 = fl_st (fst (do_calls o rnd tries n keq before f)) /\
  Forall2 (closed_answer o) after (snd (do_calls o rnd tries n keq after f1)).
Proof. exact closed_forever. Qed.
Print Assumptions C26_closed.
Example C26_ex : snd (do_calls default_options N.of_nat 5 20 key_eq
     [KWrites [(PStr (lit "/x"), VInt 1)]; KClose; KReads [PStr (lit "/x")]; KWrites [(PStr (lit "/y"), VInt 1)]; KLen; KContains (PStr (lit "/x"));
      KContains POther; KDel (PStr (lit "/x")); KIter; KFlush; KClose] (mkFile true empty_file)) =
  [Ok AUnit; Ok AUnit; Err OSError; Err OSError; Err OSError; Err OSError; Ok (ABool false); Err OSError; Err OSError; Err OSError; Ok AUnit].
Proof. vm_compute. reflexivity. Qed.

(** C30: writes to paths, even ones that fail half way, leave what is read from any
    path that does not overlap theirs as it was, whatever options it is read with (as
    long as the references group is the same).  For files that come about with one
    references group; not for "/" (see C24_root_refuted), and with names for the keys
    and values of dicts that are link names (see below). *)
Theorem C30_other_data_partial : forall refs s o rnd tries n mdict f' r ro keq m q,
  good_refs refs -> reachable refs s -> usable refs o -> o_refs ro = refs -> valid_path q ->
  (forall p v cs qs, In (p, v) mdict -> denotes p cs -> denotes q qs -> cs <> [] /\ ~ overlap cs qs) ->
  file_writes o rnd tries n (mkFile true s) mdict = (f', r) ->
  snd (file_read ro m keq f' q) = snd (file_read ro m keq (mkFile true s) q) /\
  ((forall qs, denotes q qs -> ~ same_top qs (path_comps refs)) -> snd (file_contains f' q) = snd (file_contains (mkFile true s) q)).
Proof. exact writes_elsewhere. Qed.
Print Assumptions C30_other_data_partial.
Theorem C30_del_partial : forall refs s p f' r ro keq m q,
  good_refs refs -> reachable refs s -> o_refs ro = refs -> valid_path q ->
  (forall cs, denotes p cs -> ~ overlap cs (path_comps refs)) ->
  (forall cs qs, denotes p cs -> denotes q qs -> ~ overlap cs qs) ->
  file_del (mkFile true s) p = (f', r) ->
  snd (file_read ro m keq f' q) = snd (file_read ro m keq (mkFile true s) q).
Proof. exact del_elsewhere. Qed.
Print Assumptions C30_del_partial.
Example C30_ex : good_refs (lit "/#refs#") /\ reachable (lit "/#refs#") (fl_st c25_file) /\
  snd (file_read default_options 20 key_eq (fst (file_write default_options N.of_nat 5 20 c25_file (VSeq QTuple [VInt 7; VOther]) (PStr (lit "/y")))) (PStr (lit "/x/a")))
  = Ok (VSeq QList [VInt 1]) /\
  snd (file_write default_options N.of_nat 5 20 c25_file (VSeq QTuple [VInt 7; VOther]) (PStr (lit "/y"))) = Err NotImplementedError.
Proof. split; [split; [reflexivity|discriminate]|]. split; [exact c25_reachable|]. vm_compute. auto. Qed.
(** The same of a file MATLAB made: "c" is the cell array {uint8(5), []}, whose second cell
    leads to the canonical empty. *)
Definition mat_class (c : pystr) : attrs := set_attr (lit "MATLAB_class") (AStr c) no_attrs.
Definition plain_filt : filt := mkFilt None None false false false.
Definition matlab_file : st := mkSt (fun i => nth i [
    Some (mkObj [] no_attrs (BGroup [(lit "#refs#", 1); (lit "c", 4)]));
    Some (mkObj [lit "#refs#"] no_attrs (BGroup [(lit "a", 2); (lit "b", 3)]));
    Some (mkObj [lit "#refs#"; lit "a"] (set_attr (lit "MATLAB_empty") (AU8 1) (mat_class (lit "canonical empty"))) (BData (mkArr (TU 8) [2] [XInt 0; XInt 0]) plain_filt));
    Some (mkObj [lit "#refs#"; lit "b"] (mat_class (lit "uint8")) (BData (mkArr (TU 1) [1; 1] [XInt 5]) plain_filt));
    Some (mkObj [lit "c"] (mat_class (lit "cell")) (BData (mkArr TRef [2; 1] [XPtr 3; XPtr 2]) plain_filt))] None) 5 None false None 11 0.
Lemma matlab_file_from_elsewhere : from_elsewhere (lit "/#refs#") matlab_file.
Proof.
  assert (HP : forall (P : nat -> obj -> Prop), (forall ob, hp matlab_file 0 = Some ob -> P 0 ob) -> (forall ob, hp matlab_file 1 = Some ob -> P 1 ob) ->
    (forall ob, hp matlab_file 2 = Some ob -> P 2 ob) -> (forall ob, hp matlab_file 3 = Some ob -> P 3 ob) -> (forall ob, hp matlab_file 4 = Some ob -> P 4 ob) ->
    forall i ob, hp matlab_file i = Some ob -> P i ob).
  { intros P P0 P1 P2 P3 P4 i ob E. do 5 (destruct i as [|i]; [auto|]). cbn in E. destruct i; discriminate. }
  constructor.
  - eexists. eexists. repeat split.
  - intros i ob. revert i ob. apply (HP (fun i _ => i < 5)); intros; lia.
  - intros i ob ls k j E. revert ls k j. pattern i, ob. revert i ob E. refine (HP _ _ _ _ _ _); intros ob [= <-] ls k j [= <-] HI; cbn in HI;
      (destruct HI as [[= <- <-]|[[= <- <-]|[]]]; (split; [split; [discriminate|]; split; [discriminate|]; intros HF; vm_compute in HF; repeat (destruct HF as [HF|HF]; [discriminate|]); exact HF|]; split; [vm_compute; reflexivity|]; eexists; split; reflexivity)).
  - intros i ob ls E. revert ls. pattern i, ob. revert i ob E. refine (HP _ _ _ _ _ _); intros ob [= <-] ls [= <-]; cbn; (constructor; [intros HI; vm_compute in HI; destruct HI as [HI|[]]; discriminate|]; constructor; [intros []|constructor]).
  - intros g E. vm_compute in E. injection E as <-. eexists. eexists. split; [reflexivity|]. split; [reflexivity|]. intros c [[= <-]|[HI|[]]]; [|vm_compute in HI; discriminate].
    eexists. split; [reflexivity|]. exists 8, plain_filt. repeat split.
  - intros i ob a f j E. revert a f j. pattern i, ob. revert i ob E. refine (HP _ _ _ _ _ _); intros ob [= <-] a f j [= <- <-] HI; cbn in HI; repeat (destruct HI as [[= <-]|HI] || destruct HI as [HI|HI]; try discriminate); try destruct HI; (eexists; eexists; split; reflexivity).
Qed.
Example C30_ex_matlab : reachable (lit "/#refs#") (new_session matlab_file) /\
  let f := fst (file_write default_options N.of_nat 5 20 (mkFile true (new_session matlab_file)) (VSeq QTuple [VInt 7; VSeq QList []]) (PStr (lit "/t"))) in
  snd (file_read default_options 20 key_eq f (PStr (lit "/t"))) = Ok (VSeq QTuple [VInt 7; VSeq QList []]) /\
  snd (file_read default_options 20 key_eq f (PStr (lit "/c"))) = snd (file_read default_options 20 key_eq (mkFile true (new_session matlab_file)) (PStr (lit "/c"))) /\
  snd (file_read default_options 20 key_eq f (PStr (lit "/c"))) =
    Ok (VNp CNdarray (mkArr TObj [1; 2] [XPtr (VNp CNdarray (mkArr (TU 1) [1; 1] [XInt 5])); XPtr (VNp CNdarray (mkArr (TF 8) [0; 0] []))])).
Proof. split; [apply R_other; exact matlab_file_from_elsewhere|]. vm_compute. auto. Qed.
(** dict_like_keys_name="/other" is accepted, and a dict with an int key written to
    "/d" overwrites "/other". *)
Theorem C30_keys_name_refuted :
  let o := with_option default_options DictLikeKeysName (OVStr (lit "/other")) in
  let f0 := fst (file_write o N.of_nat 5 20 (mkFile true empty_file) (VInt 1) (PStr (lit "/other"))) in
  let f1 := fst (file_write o N.of_nat 5 20 f0 (VDict MDict [(VInt 2, VInt 3)]) (PStr (lit "/d"))) in
  snd (file_read o 20 key_eq f0 (PStr (lit "/other"))) = Ok (VInt 1) /\
  snd (file_read o 20 key_eq f1 (PStr (lit "/other"))) = Ok (VSeq QTuple [VInt 2]).
Proof. vm_compute. auto. Qed.
Print Assumptions C30_keys_name_refuted.

(** C33: reading a path that is not in the file raises KeyError (and ValueError inside the
    references group, C24_protected), and leaves the file as it was; as every read does. *)
Theorem C33_missing : forall o n keq s p cs, isabs (o_refs o) = true -> valid_path p -> denotes p cs -> ~ same_top cs (refs_path o) ->
  snd (file_contains (mkFile true s) p) = Ok false -> file_read o n keq (mkFile true s) p = (mkFile true s, Err KeyError).
Proof. exact read_missing. Qed.
Print Assumptions C33_missing.
Theorem C33_reads_pure : forall o n keq f ps, fst (file_reads o n keq f ps) = f.
Proof. reflexivity. Qed.
Print Assumptions C33_reads_pure.
Example C33_ex : snd (file_contains c25_file (PStr (lit "/y/z"))) = Ok false /\
  snd (file_read default_options 20 key_eq c25_file (PStr (lit "/y/z"))) = Err KeyError.
Proof. vm_compute. auto. Qed.
