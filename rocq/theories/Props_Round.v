(** Properties C27-C29, C36, C37, C39 and C40: what is written can be read back. *)
From Verif Require Import OptionsSpec Base PathEsc PosixPath ProcessPath Unicode UnicodeFacts Dec NdArray Value OptionsM StrConv MColl Hdf5 HeapFacts NpWrite MarshalW MarshalR FileApi ApiSpec FileFacts RndFacts RoundSpec RoundNp RoundWrite RoundApi ProgressSpec ProgressApi.
Local Open Scope nat_scope.

(** the hypotheses hold for Options(), for them with matlab_compatible = False, and for
    Options(matlab_compatible=False), for writing and for reading; and for a new file *)
Ltac ascii_all := repeat (apply Forall_cons; [vm_compute; reflexivity|]); apply Forall_nil.
Lemma default_paired : paired default_options default_options.
Proof. constructor; try (vm_compute; auto; fail); vm_compute; repeat split; try discriminate; auto. Qed.
Lemma python_paired : paired python_options python_options.
Proof. constructor; try (vm_compute; auto; fail); vm_compute; repeat split; try discriminate; auto. Qed.
Lemma default_ready : ready default_options.
Proof. constructor; try (vm_compute; reflexivity). - exists (lit "#refs#"). vm_compute. reflexivity. - intros _. replace (path_comps (o_refs default_options)) with [lit "#refs#"] by (vm_compute; reflexivity). repeat constructor. Qed.
Lemma python_ready : ready python_options.
Proof. constructor; try (vm_compute; reflexivity). - exists (lit "#refs#"). vm_compute. reflexivity. - intros X. vm_compute in X. discriminate. Qed.
Lemma default_refs : good_refs (lit "/#refs#"). Proof. split; [reflexivity|]. vm_compute. discriminate. Qed.
Lemma plain_link_ok k : eqb_str k [] = false -> eqb_str k [dot] = false -> existsb (N.eqb fslash) k = false -> plain_link k.
Proof.
  intros A B C. repeat split; [intros ->; discriminate|intros ->; discriminate|]. intros H.
  assert (existsb (N.eqb fslash) k = true) by (apply existsb_exists; exists fslash; split; [exact H|reflexivity]). congruence.
Qed.
Lemma default_usable : usable (lit "/#refs#") default_options.
Proof. split; [vm_compute; reflexivity|]. split; apply plain_link_ok; vm_compute; reflexivity. Qed.
Lemma python_usable : usable (lit "/#refs#") python_options.
Proof. split; [vm_compute; reflexivity|]. split; apply plain_link_ok; vm_compute; reflexivity. Qed.
Lemma default_setting : setting (lit "/#refs#") empty_file default_options default_options key_eq.
Proof. constructor; [apply default_refs|apply R_new|apply default_usable|apply default_paired|apply default_ready|reflexivity]. Qed.
Lemma python_setting : setting (lit "/#refs#") empty_file python_options python_options key_eq.
Proof. constructor; [apply default_refs|apply R_new|apply python_usable|apply python_paired|apply python_ready|reflexivity]. Qed.
Lemma bare_paired : paired bare_options bare_options.
Proof. constructor; try (vm_compute; auto; fail); vm_compute; repeat split; try discriminate; auto. Qed.
Lemma bare_ready : ready bare_options.
Proof. constructor; try (vm_compute; reflexivity). - exists (lit "#refs#"). vm_compute. reflexivity. - intros X. vm_compute in X. discriminate. Qed.
Lemma bare_usable : usable (lit "/#refs#") bare_options.
Proof. split; [vm_compute; reflexivity|]. split; apply plain_link_ok; vm_compute; reflexivity. Qed.
Lemma bare_setting : setting (lit "/#refs#") empty_file bare_options bare_options key_eq.
Proof. constructor; [apply default_refs|apply R_new|apply bare_usable|apply bare_paired|apply bare_ready|reflexivity]. Qed.
(** a name in the root of a new file *)
Lemma empty_new_place o k : path_comps (lit "/" ++ k) = [k] -> process_path (PStr (lit "/" ++ k)) = Ok (lit "/", k) -> posix_join (lit "/") [k] = lit "/" ++ k ->
  name_err k = None -> hd [] (refs_path o) <> k -> new_place o empty_file (PStr (lit "/" ++ k)) [k].
Proof.
  intros H1 H2 H3 H4 H5. constructor.
  - exists (lit "/"), k. rewrite H3, H1. auto.
  - auto.
  - intros (x & a & b & [= <- <-] & E). rewrite E in H5. apply H5. reflexivity.
  - discriminate.
  - reflexivity.
  - intros a b i E NZ. destruct a as [|x a]; [intros [= <-]; reflexivity|]. injection E as -> E. destruct a; [destruct b; [congruence|discriminate]|discriminate].
Qed.

Lemma scalar_storable wo ro keq v : plain_scalar v -> storable wo ro keq v /\ depth v = 1 /\ (forall cs, writes_to wo cs v) /\ (forall v', same v v' -> v' = v).
Proof.
  intros H. assert (X : match v with VNp _ _ | VSeq _ _ | VRec _ _ | VDict _ _ => False | _ => True end) by (destruct v; cbn in *; tauto).
  split; [|split; [|split]].
  - destruct v; cbn in H; try tauto; try (constructor; assumption). destruct H as (b & H1 & H2). econstructor; eassumption.
  - destruct v; try tauto; reflexivity.
  - intros cs _. split; [apply G_other; exact X|]. destruct v; cbn in *; tauto.
  - intros v' S. inversion S; subst; try reflexivity; destruct X.
Qed.

(** C27: a Python scalar written to a new place can be read from it, equal and of the same
    type ([plain_scalar] leaves out the strs of C16, and bytes that end in NUL) *)
Theorem C27_scalars_partial : forall refs s wo ro keq rnd tries n m p cs v f r, setting refs s wo ro keq -> new_place wo s p cs -> plain_scalar v ->
  0 < tries -> 0 < n -> 0 < m -> file_write wo rnd tries n (mkFile true s) v p = (f, r) ->
  r = Ok tt /\ file_read ro m keq f p = (f, Ok v).
Proof.
  intros refs s wo ro keq rnd tries n m p cs v f r [G1 G2 G3 G4 G5 G6] NP V HT Hn Hm E.
  destruct (scalar_storable wo ro keq v V) as (SV & DV & WT & EQ).
  pose proof (round_trip1 refs s wo ro rnd tries n keq p cs v G1 G2 G3 G4 G5 G6 NP SV) as R. rewrite E, DV in R.
  destruct R as (R1 & v' & R2 & R3); auto. { destruct v; auto; destruct V. }
  split; [exact R1|]. rewrite <- (EQ v' R2). auto.
Qed.
Print Assumptions C27_scalars_partial.
(** for example *)
Example C27_ex : forall v o rnd f r, o = default_options \/ o = python_options -> plain_scalar v ->
  file_write o rnd 5 20 (mkFile true empty_file) v (PStr (lit "/x")) = (f, r) ->
  r = Ok tt /\ file_read o 20 key_eq f (PStr (lit "/x")) = (f, Ok v).
Proof.
  intros v o rnd f r HO V E. eapply (C27_scalars_partial (lit "/#refs#") empty_file o o key_eq rnd 5 20 20 _ [lit "x"] v); [| |exact V|lia|lia|lia|exact E].
  - destruct HO; subst o; [apply default_setting|apply python_setting].
  - apply (empty_new_place o (lit "x")); try (vm_compute; reflexivity). replace (refs_path o) with [lit "#refs#"] by (destruct HO; subst o; vm_compute; reflexivity). discriminate.
Qed.
Lemma text_ok_b s : forallb is_scalar s = true -> (match s with [] => true | _ => negb (last s 1 mod 256 =? 0)%N end = true) -> negb (hd 0%N s =? bom)%N = true -> text_ok s.
Proof.
  intros A B C. split; [split|].
  - apply Forall_forall. rewrite forallb_forall in A. exact A.
  - destruct s; [left; reflexivity|right]. apply negb_true_iff, N.eqb_neq in B. exact B.
  - apply negb_true_iff, N.eqb_neq in C. exact C.
Qed.
Example C27_ex2 : Forall plain_scalar [VNone; VEllipsis; VNotImplemented; VBool true; VInt (-5); VInt 100000000000000000000000000; VFloat 4614253070214989087; VComplex 0 1; VStr (lit "hello"); VStr [955%N; 119070%N]; VStr []; VBytes (lit "abc"); VBytes []; VByteArray [0%N; 255%N]].
Proof. repeat (apply Forall_cons; [cbn [plain_scalar]; first [exact I|reflexivity|apply text_ok_b; reflexivity]|]). apply Forall_nil. Qed.
(** the strs and bytes left out are not read back: they fail to, or change *)
Definition written (o : options) (v : pyval) : file := fst (file_write o N.of_nat 5 20 (mkFile true empty_file) v (PStr (lit "/x"))).
Definition back (o : options) (v : pyval) : res pyval := snd (file_read o 20 key_eq (written o v) (PStr (lit "/x"))).
Theorem C27_scalars_refuted :
  back python_options (VStr [65%N; 256%N]) = Err UnicodeDecodeError /\
  back python_options (VStr [65279%N; 65%N]) = Ok (VStr [65%N]) /\
  back default_options (VBytes [65%N; 0%N]) = Ok (VBytes [65%N]).
Proof. vm_compute. auto. Qed.
Print Assumptions C27_scalars_refuted.

Lemma typed_flat d e : typed d e -> d <> TObj -> (forall e', same_elem e e' -> e' = e) /\ edepth depth e = 0 /\ forall p, e <> XPtr p.
Proof.
  intros T D. assert (X : forall p, e <> XPtr p) by (intros p ->; destruct d; cbn in T; try contradiction; congruence).
  split; [|split; [|exact X]].
  - intros e' S. inversion S; subst; [reflexivity|exfalso; eapply X; reflexivity|destruct d; destruct T].
  - destruct e; try reflexivity; [exfalso; eapply X; reflexivity|]. destruct d; destruct T.
Qed.
(** C28: a numpy array, matrix, chararray, recarray or scalar of bools, ints, floats,
    complex numbers, bytes or strs can be read back: the same kind of object, with the same
    dtype (of str arrays the width aside), shape and elements *)
Theorem C28_arrays_partial : forall refs s wo ro keq rnd tries n m p cs c a f r, setting refs s wo ro keq -> new_place wo s p cs ->
  np_obj wo c a -> compatible wo ro a -> a_dt a <> TObj ->
  0 < tries -> 0 < n -> 0 < m -> file_write wo rnd tries n (mkFile true s) (VNp c a) p = (f, r) ->
  r = Ok tt /\ exists b, file_read ro m keq f p = (f, Ok (VNp c b)) /\ same_dt (a_dt a) (a_dt b) /\ a_shape b = a_shape a /\ a_data b = a_data a.
Proof.
  intros refs s wo ro keq rnd tries n m p cs c a f r [G1 G2 G3 G4 G5 G6] NP HN HC HO HT Hn Hm E.
  pose proof (n_elems _ _ _ HN) as TE. rewrite Forall_forall in TE.
  assert (NPT : forall q, ~ In (XPtr q) (a_data a)) by (intros q Hq; destruct (typed_flat _ _ (TE _ Hq) HO) as (_ & _ & X); eapply X; reflexivity).
  assert (DV : depth (VNp c a) = 1).
  { cbn [depth]. assert (X : list_max (map (edepth depth) (a_data a)) <= 0); [|lia]. apply list_max_le. rewrite Forall_map, Forall_forall. intros e He. destruct (typed_flat _ _ (TE _ He) HO) as (_ & -> & _). lia. }
  pose proof (round_trip1 refs s wo ro rnd tries n keq p cs (VNp c a) G1 G2 G3 G4 G5 G6 NP) as R. rewrite E, DV in R.
  destruct R as (R1 & v' & R2 & R3); auto.
  - apply V_np; auto. intros q Hq. destruct (NPT q Hq).
  - assert (NS : is_struct (a_dt a) = false) by (pose proof (RoundWrite.obj_simple _ _ _ HN); destruct (a_dt a); cbn in *; tauto).
    intros _. split; [|cbn [grouplike]; congruence]. apply G_np; [exact NS|]. intros q Hq. destruct (NPT q Hq).
  - split; [|exact HO]. pose proof (n_kind _ _ _ HN). destruct (a_dt a); cbn in *; tauto.
  - split; [exact R1|]. inversion R2 as [|c' a' b S1 S2 S3| | |]; subst.
    + exists a. split; [auto|]. split; [left; reflexivity|auto].
    + exists b. split; [auto|]. split; [exact S1|]. split; [auto|]. clear - S3 TE HO. induction S3 as [|x y l l' X S3 IH]; [reflexivity|].
      destruct (typed_flat _ _ (TE x (or_introl eq_refl)) HO) as (Y & _). rewrite (Y y X). f_equal. apply IH. intros e He. apply TE. right. exact He.
Qed.
Print Assumptions C28_arrays_partial.
Example C28_ex :
  let a := mkArr (TF 8) [2; 3] (map XFlt [1; 2; 3; 4; 5; 6]%N) in let b := mkArr (TUni 2) [2; 1] [XStr (lit "ab"); XStr (lit "c")] in
  np_obj default_options CNdarray a /\ compatible default_options default_options a /\ np_obj python_options CMatrix b /\ compatible python_options python_options b /\
  new_place default_options empty_file (PStr (lit "/x")) [lit "x"] /\
  back default_options (VNp CNdarray a) = Ok (VNp CNdarray a) /\ back python_options (VNp CMatrix b) = Ok (VNp CMatrix b).
Proof.
  assert (T1 : text_ok (lit "ab")) by (apply text_ok_b; reflexivity). assert (T2 : text_ok (lit "c")) by (apply text_ok_b; reflexivity).
  cbv zeta. split; [|split; [|split; [|split; [|split; [|split]]]]].
  - generalize default_options. intros o. constructor; cbn; auto; try discriminate; try congruence. repeat constructor.
  - intros _. left. exact I.
  - generalize python_options. intros o. constructor; cbn; auto; try discriminate; try congruence. constructor; [split; [cbn; lia|apply T1]|]. constructor; [split; [cbn; lia|apply T2]|constructor].
  - intros X. vm_compute in X. discriminate.
  - apply (empty_new_place default_options (lit "x")); try (vm_compute; reflexivity). replace (refs_path default_options) with [lit "#refs#"] by (vm_compute; reflexivity). discriminate.
  - vm_compute. reflexivity.
  - vm_compute. reflexivity.
Qed.

(** C29: any values that are storable, of any nesting, written together to new places that
    are not inside each other can all be read back the same, unless random numbers drawn
    for names in the references group repeat.  [rpos]: how many have been drawn; [tries]
    bounds how often in a row a name can be found to be taken. *)
Theorem C29_round_trip_partial : forall refs s wo ro keq rnd tries n mdict f r, setting refs s wo ro keq ->
  (forall p v, In (p, v) mdict -> exists cs, new_place wo s p cs /\ storable wo ro keq v /\ depth v <= n /\ writes_to wo cs v) ->
  ForallOrdPairs (fun x y => forall a b, denotes (fst x) a -> denotes (fst y) b -> ~ overlap a b) mdict ->
  file_writes wo rnd tries n (mkFile true s) mdict = (f, r) -> no_repeat rnd (rpos s) (rpos (fl_st f)) -> rpos (fl_st f) < rpos s + tries ->
  r = Ok tt /\ forall p v, In (p, v) mdict -> exists v', same v v' /\ forall m, depth v <= m -> file_read ro m keq f p = (f, Ok v').
Proof. intros refs s wo ro keq rnd tries n mdict f r [G1 G2 G3 G4 G5 G6]. apply (round_trip refs); assumption. Qed.
Print Assumptions C29_round_trip_partial.
Definition c29_value : pyval := VSeq QList [VInt 1; VSeq QTuple [VStr (lit "a"); VSeq QSet [VInt 1; VInt 2]]; VDict MDict [(VStr (lit "k"), VSeq QDeque [VNone])]; VRec RSlice [VInt 1; VInt 2; VNone]].
Lemma same_int z v : same (VInt z) v -> v = VInt z. Proof. intros H. inversion H. reflexivity. Qed.
Lemma same_str z v : same (VStr z) v -> v = VStr z. Proof. intros H. inversion H. reflexivity. Qed.
Lemma c29_storable o : storable o o key_eq c29_value.
Proof.
  apply V_seq; [exact I|]. constructor; [constructor|]. constructor.
  { apply V_seq; [exact I|]. constructor; [apply V_str, text_ok_b; reflexivity|]. constructor; [|constructor]. apply V_seq; [|repeat constructor].
    constructor; [|constructor; constructor]. constructor; [|constructor]. intros x y X Y. apply same_int in X, Y. subst. reflexivity. }
  constructor.
  { apply V_dict with (texts := [lit "k"]); cbn [map fst snd].
    - constructor; constructor.
    - constructor; constructor.
    - constructor; [intros []|constructor].
    - constructor; [|constructor]. split; [discriminate|]. repeat constructor.
    - repeat constructor. }
  constructor; [|constructor]. apply V_rec; [reflexivity|]. repeat constructor.
Qed.
Example C29_ex : setting (lit "/#refs#") empty_file default_options default_options key_eq /\ new_place default_options empty_file (PStr (lit "/x")) [lit "x"] /\
  storable default_options default_options key_eq c29_value /\ depth c29_value <= 20 /\ writes_to default_options [lit "x"] c29_value /\
  no_repeat N.of_nat 0 (rpos (fl_st (written default_options c29_value))) /\ rpos (fl_st (written default_options c29_value)) < 0 + 5 /\
  back default_options c29_value = Ok c29_value /\ back python_options c29_value = Ok c29_value.
Proof.
  split; [apply default_setting|]. split; [|split; [apply c29_storable|split; [cbn; lia|split; [|split; [|split; [|split]]]]]].
  - apply (empty_new_place default_options (lit "x")); try (vm_compute; reflexivity). replace (refs_path default_options) with [lit "#refs#"] by (vm_compute; reflexivity). discriminate.
  - intros _. split; [|intros []]. unfold c29_value. repeat (first [apply G_seq|apply G_rec|apply G_dict|apply G_other; exact I|apply Forall_cons|apply Forall_nil]).
    intros x v t [[= <- <-]|[]] _ [].
  - intros i j H1 H2 H3 H4. lia.
  - vm_compute. lia.
  - vm_compute. reflexivity.
  - vm_compute. reflexivity.
Qed.
(** and then, what C40 says: nothing but that can go wrong *)
(** C40: writing storable values to new places does not raise, whatever else is in the
    file; only the search for an unused name may go on *)
Theorem C40_writes_succeed : forall refs s wo ro keq rnd tries n mdict f r, setting refs s wo ro keq ->
  (forall p v, In (p, v) mdict -> exists cs, new_place wo s p cs /\ storable wo ro keq v /\ depth v <= n /\ writes_to wo cs v) ->
  ForallOrdPairs (fun x y => forall a b, denotes (fst x) a -> denotes (fst y) b -> ~ overlap a b) mdict ->
  file_writes wo rnd tries n (mkFile true s) mdict = (f, r) -> no_repeat rnd (rpos s) (rpos (fl_st f)) ->
  r = Ok tt \/ (r = Err OutOfFuel /\ rpos s + tries <= rpos (fl_st f)).
Proof. intros refs s wo ro keq rnd tries n mdict f r [G1 G2 G3 G4 G5 G6]. apply (api_ran refs s wo ro rnd tries n keq); assumption. Qed.
Print Assumptions C40_writes_succeed.
(** without [writes_to]: a dict in a dict under a key that is not ASCII cannot be written
    for MATLAB; part of it is in the file then *)
Theorem C40_ascii_refuted :
  let v := VDict MDict [(VStr [233%N], VDict MDict [(VStr (lit "a"), VInt 1)])] in
  storable default_options default_options key_eq v /\
  snd (file_write default_options N.of_nat 5 20 (mkFile true empty_file) v (PStr (lit "/x"))) = Err UnicodeEncodeError /\
  snd (file_contains (written default_options v) (PStr (lit "/x"))) = Ok true.
Proof.
  cbv zeta. split; [|vm_compute; auto]. apply V_dict with (texts := [[233%N]]); cbn [map fst snd].
  - constructor; constructor.
  - constructor; constructor.
  - constructor; [intros []|constructor].
  - constructor; [|constructor]. split; [discriminate|]. repeat constructor.
  - constructor; [|constructor]. apply V_dict with (texts := [lit "a"]); cbn [map fst snd].
    + constructor; constructor.
    + constructor; constructor.
    + constructor; [intros []|constructor].
    + constructor; [|constructor]. split; [discriminate|]. repeat constructor.
    + repeat constructor.
Qed.
Print Assumptions C40_ascii_refuted.

(** C36: a dict (OrderedDict, Counter) whose keys are strs, bytes, np.str_ and np.bytes_
    with different texts, or some other storable keys, is read back as a dict of the same
    type, with the same keys in the same order, and the same values *)
Theorem C36_dicts_partial : forall refs s wo ro keq rnd tries n p cs k l f r, setting refs s wo ro keq -> new_place wo s p cs ->
  storable wo ro keq (VDict k l) -> depth (VDict k l) <= n -> writes_to wo cs (VDict k l) ->
  file_write wo rnd tries n (mkFile true s) (VDict k l) p = (f, r) -> no_repeat rnd (rpos s) (rpos (fl_st f)) -> rpos (fl_st f) < rpos s + tries ->
  r = Ok tt /\ exists l', (forall m, depth (VDict k l) <= m -> file_read ro m keq f p = (f, Ok (VDict k l'))) /\
    Forall2 same (map fst l) (map fst l') /\ Forall2 same (map snd l) (map snd l') /\
    ((forall x, In x (map fst l) -> (exists t, x = VStr t) \/ (exists b, x = VBytes b)) -> map fst l' = map fst l).
Proof.
  intros refs s wo ro keq rnd tries n p cs k l f r [G1 G2 G3 G4 G5 G6] NP SV DV WT E NR LT.
  destruct (round_trip refs s wo ro rnd tries n keq [(p, VDict k l)] f r) as [R1 R2]; auto.
  - intros q w [[= <- <-]|[]]. exists cs. auto.
  - constructor; constructor.
  - split; [exact R1|]. destruct (R2 p (VDict k l) (or_introl eq_refl)) as (v' & S & R3).
    assert (X : exists l', v' = VDict k l' /\ Forall2 same (map fst l) (map fst l') /\ Forall2 same (map snd l) (map snd l')).
    { inversion S as [v| | |k' l1 l' S1|]; subst.
      - exists l. split; [reflexivity|]. assert (Z : forall m, Forall2 same m m) by (induction m; constructor; auto; apply S_refl). split; apply Z.
      - exists l'. split; [reflexivity|]. clear - S1. induction S1 as [|x y l l' [H1 H2] S1 [IH1 IH2]]; [split; constructor|]. cbn [map]. split; constructor; auto. }
    destruct X as (l' & -> & X1 & X2). exists l'. split; [exact R3|]. split; [exact X1|]. split; [exact X2|].
    intros T. revert X1 T. generalize (map fst l) (map fst l'). intros a b. induction 1 as [|x y a b H1 H2 IH]; intros T; [reflexivity|].
    f_equal; [|apply IH; intros z Hz; apply T; right; exact Hz]. destruct (T x (or_introl eq_refl)) as [[t ->]|[t ->]]; inversion H1; reflexivity.
Qed.
Print Assumptions C36_dicts_partial.
Definition c36_value : pyval := VDict MDict [(VStr (lit "b"), VInt 1); (VBytes (lit "a"), VStr (lit "x")); (VStr (lit "a/b"), VNone)].
Definition c36_other : pyval := VDict MOrderedDict [(VInt 3, VInt 1); (VStr (lit "a"), VNone)].
Lemma scalar_text t : forallb is_scalar t = true -> scalar_str t.
Proof. intros A. apply Forall_forall. rewrite forallb_forall in A. exact A. Qed.
Example C36_ex : forall o, storable o o key_eq c36_value /\ storable o o key_eq c36_other /\
  back default_options c36_value = Ok c36_value /\ back python_options c36_value = Ok c36_value /\ back default_options c36_other = Ok c36_other.
Proof.
  intros o. split; [|split; [|vm_compute; auto]].
  - apply V_dict with (texts := [lit "b"; lit "a"; lit "a/b"]); cbn [map fst snd].
    + repeat constructor; intros x y X Y; inversion X; inversion Y; reflexivity.
    + repeat constructor.
    + repeat constructor; cbn; intuition discriminate.
    + repeat (apply Forall_cons; [split; [discriminate|apply scalar_text; reflexivity]|]). apply Forall_nil.
    + apply Forall_cons; [constructor|]. apply Forall_cons; [apply V_str, text_ok_b; reflexivity|]. apply Forall_cons; constructor.
  - apply V_dict_other; cbn [map fst snd].
    + repeat constructor; intros x y X Y; inversion X; inversion Y; reflexivity.
    + apply Exists_cons_hd. exact I.
    + apply Forall_cons; [constructor|]. apply Forall_cons; [apply V_str, text_ok_b; reflexivity|constructor].
    + repeat constructor.
Qed.
(** 'a' and b'a' have the same text; '' has no name *)
Theorem C36_texts_refuted :
  let v := VDict MDict [(VStr (lit "a"), VInt 1); (VBytes (lit "a"), VInt 2)] in
  snd (file_write default_options N.of_nat 5 20 (mkFile true empty_file) v (PStr (lit "/x"))) = Ok tt /\
  back default_options v = Ok (VDict MDict [(VStr (lit "a"), VInt 2); (VBytes (lit "a"), VInt 2)]).
Proof. vm_compute. auto. Qed.
Print Assumptions C36_texts_refuted.

(** C37: an int of any size is read back as it was *)
Theorem C37_ints : forall refs s wo ro keq rnd tries n m p cs z f r, setting refs s wo ro keq -> new_place wo s p cs ->
  0 < tries -> 0 < n -> 0 < m -> file_write wo rnd tries n (mkFile true s) (VInt z) p = (f, r) ->
  r = Ok tt /\ file_read ro m keq f p = (f, Ok (VInt z)).
Proof. intros refs s wo ro keq rnd tries n m p cs z f r G NP HT Hn Hm. apply (C27_scalars_partial refs s wo ro keq rnd tries n m p cs); auto. exact I. Qed.
Print Assumptions C37_ints.
Example C37_ex : back default_options (VInt (10 ^ 40)) = Ok (VInt (10 ^ 40)) /\ back default_options (VInt (- 2 ^ 63)) = Ok (VInt (- 2 ^ 63)) /\
  back default_options (VInt (2 ^ 64 - 1)) = Ok (VInt (2 ^ 64 - 1)) /\ back python_options (VInt (- 2 ^ 63 - 1)) = Ok (VInt (- 2 ^ 63 - 1)).
Proof. vm_compute. auto. Qed.

(** C39: what can be read from a place stays the same whatever happens later elsewhere *)
Lemma later_reachable refs q s s' : good_refs refs -> (exists qs, denotes q qs) -> later refs q s s' -> reachable refs s -> reachable refs s'.
Proof.
  intros GR [qs DQ] L HR. induction L as [s|s s' L IH|s s' o rnd tries n mdict f r L IH U NO E|s s' o rnd tries n mdict s2 L IH U NO E MD|s s' p f r L IH NR NO E]; auto.
  - apply R_reopen. auto.
  - eapply R_write; [apply IH; exact HR|exact U| |exact E]. intros p v Hin D. destruct (NO p v [] qs Hin D DQ) as [X _]. congruence.
  - eapply R_cut; [apply IH; exact HR|exact U| |exact E|exact MD]. intros p v Hin D. destruct (NO p v [] qs Hin D DQ) as [X _]. congruence.
  - eapply R_del; [apply IH; exact HR|exact NR|exact E].
Qed.
Lemma read_session ro m keq s q : snd (file_read ro m keq (mkFile true (new_session s)) q) = snd (file_read ro m keq (mkFile true s) q).
Proof.
  unfold file_read, file_reads. cbn [mapr snd fl_open fl_st]. destruct (check_path ro q) as [[g t]|]; [|reflexivity]. cbn [bindr mapr fst snd].
  assert (X : read_at ro m keq g t (new_session s) = read_at ro m keq g t s); [|rewrite X; reflexivity].
  unfold read_at, get_obj. destruct (name_err g); [reflexivity|]. cbn [gets snd bindr]. change (hp (new_session s)) with (hp s).
  destruct (walk _ _ _) as [i|]; [|reflexivity]. destruct (is_group _ _); [|reflexivity]. destruct (name_err t); reflexivity.
Qed.
Theorem C39_survives : forall refs s s' ro keq m q qs, good_refs refs -> reachable refs s -> o_refs ro = refs -> valid_path q -> denotes q qs ->
  later refs q s s' -> snd (file_read ro m keq (mkFile true s') q) = snd (file_read ro m keq (mkFile true s) q).
Proof.
  intros refs s s' ro keq m q qs GR HR HO V D L. assert (DQ : exists qs, denotes q qs) by eauto.
  induction L as [s|s s' L IH|s s' o rnd tries n mdict f r L IH U NO E|s s' o rnd tries n mdict s2 L IH U NO E MD|s s' p f r L IH NR NO E]; auto.
  - rewrite <- IH by exact HR. apply read_session.
  - rewrite <- IH by exact HR. pose proof (later_reachable _ _ _ _ GR DQ L HR) as HR'.
    destruct (writes_elsewhere refs s' o rnd tries n mdict f r ro keq m q GR HR' U HO V NO E) as [X _].
    assert (F : fl_open f = true). { unfold file_writes in E. destruct (mapr _ _); [|injection E as <- _; reflexivity]. cbn [fl_open] in E. destruct (iterM _ _ _). injection E as <- _. reflexivity. }
    destruct f as [b x]. cbn [fl_open fl_st] in *. subst b. exact X.
  - rewrite <- IH by exact HR. pose proof (later_reachable _ _ _ _ GR DQ L HR) as HR'.
    destruct (cut_elsewhere refs s' o rnd tries n mdict s2 ro keq m q GR HR' U HO V NO E) as [X _]. exact X.
  - rewrite <- IH by exact HR. pose proof (later_reachable _ _ _ _ GR DQ L HR) as HR'.
    pose proof (del_elsewhere refs s' p f r ro keq m q GR HR' HO V NR NO E) as X.
    assert (F : fl_open f = true). { unfold file_del in E. destruct (process_path p) as [[g t]|]; [|injection E as <- _; reflexivity]. cbn [fl_open] in E. destruct (unlink _ _ _). injection E as <- _. reflexivity. }
    destruct f as [b x]. cbn [fl_open fl_st] in *. subst b. exact X.
Qed.
Print Assumptions C39_survives.
(** so what was written once (C29) can be read for ever *)
Theorem C39_stored_survives : forall refs s wo ro keq rnd tries n p cs v f r s', setting refs s wo ro keq -> new_place wo s p cs ->
  storable wo ro keq v -> depth v <= n -> writes_to wo cs v -> file_write wo rnd tries n (mkFile true s) v p = (f, r) ->
  no_repeat rnd (rpos s) (rpos (fl_st f)) -> rpos (fl_st f) < rpos s + tries -> later refs p (fl_st f) s' ->
  exists v', same v v' /\ forall m, depth v <= m -> snd (file_read ro m keq (mkFile true s') p) = Ok v'.
Proof.
  intros refs s wo ro keq rnd tries n p cs v f r s' G NP SV DV WT E NR LT L.
  destruct (C29_round_trip_partial refs s wo ro keq rnd tries n [(p, v)] f r G) as [R1 R2]; auto.
  - intros q w [[= <- <-]|[]]. exists cs. auto.
  - constructor; constructor.
  - destruct (R2 p v (or_introl eq_refl)) as (v' & S & R3). exists v'. split; [exact S|]. intros m Hm. specialize (R3 m Hm).
    assert (F : fl_open f = true). { unfold file_write, file_writes in E. destruct (mapr _ _); [|injection E as <- _; reflexivity]. cbn [fl_open] in E. destruct (iterM _ _ _). injection E as <- _. reflexivity. }
    destruct G as [G1 G2 G3 G4 G5 G6]. destruct NP as [D NE ST NC WK FW].
    assert (RF : reachable refs (fl_st f)).
    { eapply R_write; [exact G2|exact G3| |exact E]. intros q w [[= <- <-]|[]] D'. apply NC. destruct D as (g & t & P & ->), D' as (g' & t' & P' & X). rewrite P in P'. injection P' as <- <-. auto. }
    rewrite (C39_survives refs (fl_st f) s' ro keq m p cs); auto.
    + destruct f as [b x]. cbn [fl_open fl_st] in *. subst b. rewrite R3. reflexivity.
    + destruct G3 as [X _]. rewrite <- X. apply (p_refs _ _ G4).
    + intros cs' D'. replace cs' with cs; [exact NE|]. destruct D as (g & t & P & ->), D' as (g' & t' & P' & ->). rewrite P in P'. injection P' as <- <-. reflexivity.
Qed.
Print Assumptions C39_stored_survives.
Lemma later_writes refs q s s' o rnd tries n mdict : later refs q s s' -> usable refs o ->
  (forall p v cs qs, In (p, v) mdict -> denotes p cs -> denotes q qs -> cs <> [] /\ ~ overlap cs qs) ->
  later refs q s (fl_st (fst (file_writes o rnd tries n (mkFile true s') mdict))).
Proof. intros H1 H2 H3. eapply L_write; eauto. apply surjective_pairing. Qed.
Lemma later_del refs q s s' p : later refs q s s' -> (forall cs, denotes p cs -> ~ overlap cs (path_comps refs)) ->
  (forall cs qs, denotes p cs -> denotes q qs -> ~ overlap cs qs) -> later refs q s (fl_st (fst (file_del (mkFile true s') p))).
Proof. intros H1 H2 H3. eapply L_del; eauto. apply surjective_pairing. Qed.
Example C39_ex :
  let s := fl_st (written default_options c29_value) in
  let s1 := fl_st (fst (file_writes python_options N.of_nat 5 20 (mkFile true (new_session s)) [(PStr (lit "/a/b"), c36_value)])) in
  let s2 := fl_st (fst (file_del (mkFile true s1) (PStr (lit "/a")))) in
  later (lit "/#refs#") (PStr (lit "/x")) s s2 /\ snd (file_contains (mkFile true s1) (PStr (lit "/a/b/b"))) = Ok true /\
  snd (file_read default_options 20 key_eq (mkFile true s2) (PStr (lit "/x"))) = Ok c29_value.
Proof.
  intros s s1 s2. split; [|vm_compute; auto].
  assert (DX : forall qs, denotes (PStr (lit "/x")) qs -> qs = [lit "x"]) by (intros qs (g & t & P & ->); vm_compute in P; injection P as <- <-; vm_compute; reflexivity).
  assert (DA : forall qs, denotes (PStr (lit "/a")) qs -> qs = [lit "a"]) by (intros qs (g & t & P & ->); vm_compute in P; injection P as <- <-; vm_compute; reflexivity).
  assert (DB : forall qs, denotes (PStr (lit "/a/b")) qs -> qs = [lit "a"; lit "b"]) by (intros qs (g & t & P & ->); vm_compute in P; injection P as <- <-; vm_compute; reflexivity).
  apply later_del; [apply later_writes; [apply L_reopen, L_none|apply python_usable|]| |].
  - intros p v cs qs [[= <- <-]|[]] D1 D2. rewrite (DB _ D1), (DX _ D2). split; [discriminate|]. intros [[c X]|[c X]]; discriminate.
  - intros cs D1. rewrite (DA _ D1). intros [[c X]|[c X]]; vm_compute in X; discriminate.
  - intros cs qs D1 D2. rewrite (DA _ D1), (DX _ D2). intros [[c X]|[c X]]; discriminate.
Qed.
