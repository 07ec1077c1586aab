(** Property C58: a write that is cut short anywhere leaves all other data as it was. *)
From Verif Require Import Base PathEsc PosixPath PosixFacts ProcessPath ProcessPathFacts Unicode Dec NdArray Value OptionsM OptionsSpec Attrs Hdf5 HeapFacts NpWrite MarshalW MarshalR FrameFacts WriteFrame ApiFacts FileApi CutM CutSpec CutFacts CutEnd CutChain ApiSpec HistoryFacts FileFacts RndFacts RoundSpec ProgressSpec Props_Round Props_Refs Props_Incompat.
Local Open Scope nat_scope.

(** The programs with the states in between do the same as the programs without them. *)
Theorem C58_same : forall o rnd tries n f mdict, snd (file_writesT o rnd tries n f mdict) = file_writes o rnd tries n f mdict.
Proof. exact file_writes_same. Qed.
Print Assumptions C58_same.
(** The whole call is done in single steps ([change] in CutSpec.v: one link is removed, or
    made, or one attribute or one element changes), and after each of them it can be cut
    short; and every state in which it can be cut short comes about through such steps. *)
Theorem C58_steps : forall refs s o rnd tries n mdict f r, good_refs refs -> reachable refs s -> usable refs o -> finite_attrs (hp s) ->
  file_writes o rnd tries n (mkFile true s) mdict = (f, r) ->
  by_steps (cut_states o rnd tries n (mkFile true s) mdict) (hp s) (hp (fl_st f)) /\
  forall s', cut_states o rnd tries n (mkFile true s) mdict s' -> by_steps (cut_states o rnd tries n (mkFile true s) mdict) (hp s) (hp s').
Proof.
  intros refs s o rnd tries n mdict f r GR HR U FA E. eapply (cut_steps o rnd tries n (mkFile true s)); [|exact E]. split; [|exact FA].
  intros i ob X. exact (t_bound _ _ (w_tree _ _ (reachable_wf refs _ GR HR o (proj1 U))) i ob X).
Qed.
Print Assumptions C58_steps.
(** The condition: in a file made with this library every object has finitely many attributes
    (in one made elsewhere too, of course, but nothing in [reachable] says so). *)
Theorem C58_finite : (finite_attrs (hp empty_file)) /\
  (forall refs s o rnd tries n mdict f r, good_refs refs -> reachable refs s -> usable refs o -> finite_attrs (hp s) ->
   file_writes o rnd tries n (mkFile true s) mdict = (f, r) -> finite_attrs (hp (fl_st f))) /\
  (forall refs s o rnd tries n mdict s', good_refs refs -> reachable refs s -> usable refs o -> finite_attrs (hp s) ->
   cut_states o rnd tries n (mkFile true s) mdict s' -> finite_attrs (hp s')) /\
  (forall s p f r, finite_attrs (hp s) -> file_del (mkFile true s) p = (f, r) -> finite_attrs (hp (fl_st f))).
Proof.
  split; [|split; [|split]].
  - intros i ob H. exists []. intros k K. exfalso. cbn in H. destruct (i =? 0); [|discriminate H]. injection H as <-. unfold no_attrs in K. cbn in K. congruence.
  - intros refs s o rnd tries n mdict f r GR HR U FA E. destruct (C58_steps _ _ _ _ _ _ _ _ _ GR HR U FA E) as [X _]. eapply steps_fin; eassumption.
  - intros refs s o rnd tries n mdict s' GR HR U FA E. destruct (C58_steps _ _ o rnd tries n mdict _ _ GR HR U FA (surjective_pairing _)) as [_ X]. eapply steps_fin; [exact (X s' E)|exact FA].
  - intros s p f r FA E. unfold file_del in E. destruct (process_path p) as [[g t]|]; [|injection E as <- <-; exact FA]. cbn [fl_open fl_st] in E.
    unfold unlink in E. destruct (name_err _); [injection E as <- <-; exact FA|]. 
    assert (X : forall cs g s, finite_attrs (hp s) -> finite_attrs (hp (fst (unlink_at g cs s)))).
    { clear. induction cs as [|k cs IH]; intros g s F; [exact F|]. destruct cs as [|k2 cs].
      - cbn [unlink_at]. destruct (lookup _ _ _); [|exact F]. unfold set_links. destruct (hp s g) as [ob|] eqn:E; [|exact F]. cbn [fst set_hp hp]. intros i oi H. unfold upd in H.
        destruct (i =? g); [injection H as <-; cbn [with_body o_attrs]; eauto|eauto].
      - cbn [unlink_at]. destruct (lookup _ _ _); [apply IH; exact F|exact F]. }
    match type of E with context [unlink_at ?a ?b s] => specialize (X b a s FA); destruct (unlink_at a b s) as [s1 [u|e]] end; cbn [fst] in X; injection E as <- <-; exact X.
Qed.
Print Assumptions C58_finite.

Lemma contains_session s q : snd (file_contains (mkFile true (new_session s)) q) = snd (file_contains (mkFile true s) q).
Proof. unfold file_contains. destruct (process_path q) as [[g t]|]; [|reflexivity]. cbn [snd fl_open fl_st]. unfold h5_in, get_obj. destruct (name_err _); reflexivity. Qed.
(** C58: [s]: a file made through the API, also one in which there have been calls cut short
    before; [s']: what a call of write(s) has left of it that was cut short anywhere.  When it
    is opened again, every path that does not overlap with one being written reads as before
    and is in the file or not as before. *)
Theorem C58_other_data : forall refs s o rnd tries n mdict s' ro keq m q, good_refs refs -> reachable refs s -> usable refs o -> o_refs ro = refs ->
  valid_path q -> (forall p v cs qs, In (p, v) mdict -> denotes p cs -> denotes q qs -> cs <> [] /\ ~ overlap cs qs) ->
  cut_states o rnd tries n (mkFile true s) mdict s' ->
  snd (file_read ro m keq (mkFile true (new_session s')) q) = snd (file_read ro m keq (mkFile true s) q) /\
  ((forall qs, denotes q qs -> ~ same_top qs (path_comps refs)) ->
   snd (file_contains (mkFile true (new_session s')) q) = snd (file_contains (mkFile true s) q)).
Proof.
  intros refs s o rnd tries n mdict s' ro keq m q GR HR U Hro V NO E. rewrite read_session, contains_session.
  exact (cut_elsewhere refs s o rnd tries n mdict s' ro keq m q GR HR U Hro V NO E).
Qed.
Print Assumptions C58_other_data.

Lemma del_way s n p cs : tree (hp s) n -> valid_path p -> denotes p cs -> cs <> [] -> walk (hp s) 0 cs <> None -> free_way s cs ->
  exists s', file_del (mkFile true s) p = (mkFile true s', Ok tt) /\ walk (hp s') 0 cs = None /\ free_way s' cs /\ rpos s' = rpos s.
Proof.
  intros T V D NZ H FW. pose proof (V _ D) as F. destruct D as (g & t & P & ->). destruct (loc_name_err _ _ _ P F) as (N1 & _).
  unfold file_del. rewrite P. cbn [fl_open fl_st]. rewrite (unlink_eq s _ N1).
  destruct (snoc_cases (path_comps (posix_join g [t]))) as [X|(init & x & X)]; rewrite X in *; [congruence|].
  rewrite rev_app_distr. cbn [rev app]. rewrite rev_involutive. rewrite walk_snoc in H.
  destruct (walk (hp s) 0 init) as [i|] eqn:Hw; [|congruence]. destruct (lookup (hp s) i x) eqn:L; [|congruence].
  eexists. split; [reflexivity|]. cbn [hp set_hp rpos]. pose proof (lookup_group _ _ _ _ L) as G. split; [|split].
  - apply (rm_walk _ _ init i x T Hw G). apply pre_refl.
  - intros a b j E Nb W. cbn [hp set_hp] in *. destruct (rm_walk _ _ init i x T Hw G a) as [_ R2]. rewrite R2 in W.
    + specialize (FW a b j E Nb W). unfold is_group, rm_link, upd in *. destruct (j =? i); [reflexivity|exact FW].
    + intros [y Y]. rewrite Y in E. rewrite <- !app_assoc in E. apply (f_equal (@length _)) in E. rewrite !app_length in E. cbn in E. destruct b; [congruence|]. cbn in E. lia.
  - reflexivity.
Qed.
(** What has been cut short can be done again, in any state a file can be in: what is at the
    path (if anything is) can be deleted, and the value written there and read back. *)
Lemma done_again refs s0 wo ro keq rnd tries n p cs v : good_refs refs -> reachable refs s0 -> usable refs wo -> paired wo ro -> ready wo -> (forall a b, keq (VStr a) (VStr b) = eqb_str a b) ->
  any_place wo s0 p cs -> storable wo ro keq v -> depth v <= n -> writes_to wo cs v ->
  let f0 := mkFile true s0 in
  let f1 := match snd (file_contains f0 p) with Ok true => fst (file_del f0 p) | _ => f0 end in
  forall f r, file_write wo rnd tries n f1 v p = (f, r) -> no_repeat rnd (rpos s0) (rpos (fl_st f)) -> rpos (fl_st f) < rpos s0 + tries ->
  r = Ok tt /\ exists v', same v v' /\ forall m, depth v <= m -> file_read ro m keq f p = (f, Ok v').
Proof.
  intros G1 RC G3 G4 G5 G6 [A1 A2 A3 A4 A5] SV DV WT f0 f1 f r E NP LT.
  assert (HX : exists s1, f1 = mkFile true s1 /\ reachable refs s1 /\ walk (hp s1) 0 cs = None /\ free_way s1 cs /\ rpos s1 = rpos s0).
  { assert (VP : valid_path p). { intros x Dx. rewrite (denotes_fun _ _ _ Dx A1). exact A2. }
    pose proof (w_tree _ _ (reachable_wf refs _ G1 RC wo (proj1 G3))) as T.
    unfold f1, f0. rewrite (contains_iff p cs _ VP A1). cbn [snd]. destruct (walk (hp s0) 0 cs) eqn:Wk.
    - destruct (del_way s0 _ p cs T VP A1 A4) as (s1 & D1 & D2 & D3 & D4); [congruence|exact A5|]. rewrite D1. exists s1. split; [reflexivity|].
      split; [|auto]. change s1 with (fl_st (mkFile true s1)). eapply R_del; [exact RC| |exact D1]. intros x Dx. rewrite (denotes_fun _ _ _ Dx A1).
      intros OV. apply A3. destruct G3 as (U1 & _). unfold refs_path in *. rewrite U1 in *.
      destruct G1 as (_ & GN). destruct cs as [|c cs']; [congruence|]. destruct (path_comps refs) as [|d ds] eqn:PR; [destruct OV as [[y Y]|[y Y]]; congruence|].
      exists c, cs', ds. split; [reflexivity|]. destruct OV as [[y Y]|[y Y]]; cbn in Y; congruence.
    - exists s0. auto. }
  destruct HX as (s1 & F1 & R1 & W1 & FW & RP). rewrite F1 in E. rewrite <- RP in NP, LT. unfold file_write in E.
  destruct (C29_round_trip_partial refs s1 wo ro keq rnd tries n [(p, v)] f r) as [X Y]; auto.
  - constructor; assumption.
  - intros q w [[= <- <-]|[]]. exists cs. split; [constructor; assumption|auto].
  - constructor; constructor.
  - split; [exact X|]. apply Y. left. reflexivity.
Qed.
(** So it can after an interrupt, when the file has been opened again. *)
Theorem C58_again_partial : forall refs s o rnd0 tries0 n0 mdict s' wo ro keq rnd tries n p cs v, setting refs s wo ro keq ->
  usable refs o -> (forall q w, In (q, w) mdict -> ~ denotes q []) -> cut_states o rnd0 tries0 n0 (mkFile true s) mdict s' -> mark_done refs s' ->
  any_place wo (new_session s') p cs -> storable wo ro keq v -> depth v <= n -> writes_to wo cs v ->
  let f0 := mkFile true (new_session s') in
  let f1 := match snd (file_contains f0 p) with Ok true => fst (file_del f0 p) | _ => f0 end in
  forall f r, file_write wo rnd tries n f1 v p = (f, r) -> no_repeat rnd (rpos s') (rpos (fl_st f)) -> rpos (fl_st f) < rpos s' + tries ->
  r = Ok tt /\ exists v', same v v' /\ forall m, depth v <= m -> file_read ro m keq f p = (f, Ok v').
Proof.
  intros refs s o rnd0 tries0 n0 mdict s' wo ro keq rnd tries n p cs v [G1 G2 G3 G4 G5 G6] U NR C MD A SV DV WT.
  apply (done_again refs (new_session s') wo ro keq rnd tries n p cs v); auto. apply R_reopen. eapply R_cut; eassumption.
Qed.
Print Assumptions C58_again_partial.

(** where in a call something is cut short *)
Lemma cut_at o rnd tries n s p g t v i x : check_path o p = Ok (g, t) -> snd (require_group g s) = Ok i ->
  fst (writeT o rnd tries n i t v (fst (require_group g s))) x -> cut_states o rnd tries n (mkFile true s) [(p, v)] x.
Proof.
  intros C R H. right. unfold file_writesT. cbn [mapr fst snd]. rewrite C. cbn [bindr mapr fl_open fl_st iterT fst snd]. apply in_left. unfold write_atT.
  apply (in_right (op (require_group g)) _ s i x R). apply in_left. exact H.
Qed.
Lemma cut_np o rnd tries wr g t c a b ts s x : np_incompatible o a = false -> np_prepare o (c, a) = Ok b -> as_group o a (a_dt b) = false -> a_dt b <> TObj ->
  fst (put_datasetT o g t (plain_data b) s) x -> fst (np_writeT o rnd tries wr g t (c, a) ts s) x.
Proof.
  intros H1 H2 H3 H4 H. unfold np_writeT. rewrite H1. cbn [andb]. apply (in_right (pure (lift (np_prepare o (c, a)))) _ s b x); [cbn [pure snd lift]; exact H2|]. rewrite H3.
  apply (in_right _ _ _ (plain_data b)); [destruct (a_dt b); try reflexivity; congruence|]. apply in_left. destruct (a_dt b); try exact H; congruence.
Qed.
Lemma get_obj_is g t s r : snd (get_obj g t s) = Ok r -> get_obj g t s = (s, Ok r).
Proof. unfold get_obj. destruct (name_err t); [discriminate|]. unfold gets. cbn [snd]. intros H. rewrite H. reflexivity. Qed.
Lemma cut_gone o g t a s i : snd (get_obj g t s) = Ok (Some i) ->
  same_dataset (match hp s i with Some ob => o_body ob | None => BGroup [] end) a (np_filters o (a_shape a) (size a * itemsize (a_dt a))) = false ->
  fst (put_datasetT o g t a s) (fst (unlink g t s)).
Proof.
  intros H1' H2. pose proof (get_obj_is _ _ _ _ H1') as H1. unfold put_datasetT. cbv zeta. eapply (in_right _ _ _ (Some i)); cbn [pure fst snd]; unfold catch; rewrite H1; cbn [fst snd]; [reflexivity|].
  eapply in_right; [reflexivity|]. cbn [pure gets fst snd]. rewrite H2. apply in_left. reflexivity.
Qed.
Lemma cut_torn o g t a s i ob old f d : snd (get_obj g t s) = Ok (Some i) -> hp s i = Some ob -> o_body ob = BData old f ->
  same_dataset (BData old f) a (np_filters o (a_shape a) (size a * itemsize (a_dt a))) = true ->
  same_opts (BData old f) (np_filters o (a_shape a) (size a * itemsize (a_dt a))) = Some true ->
  length d = length (a_data a) -> (forall k e, nth_error d k = Some e -> nth_error (a_data old) k = Some e \/ nth_error (a_data a) k = Some e) ->
  fst (put_datasetT o g t a s) (set_hp s (upd (hp s) i (with_body ob (BData (mkArr (a_dt old) (a_shape old) d) f)))).
Proof.
  intros H1' H2 H3 H4 H5 H6 H7. pose proof (get_obj_is _ _ _ _ H1') as H1. unfold put_datasetT. cbv zeta. eapply (in_right _ _ _ (Some i)); cbn [pure fst snd]; unfold catch; rewrite H1; cbn [fst snd]; [reflexivity|].
  eapply in_right; [reflexivity|]. cbn [pure gets fst snd]. rewrite H2, H3, H4, H5. exists ob, old, f, d. auto.
Qed.
Definition c58_file : file := fst (file_writes default_options N.of_nat 5 20 (mkFile true empty_file)
  [(PStr (lit "/x"), VSeq QList [VInt 1]); (PStr (lit "/y"), VInt 1); (PStr (lit "/z"), VNp CNdarray (mkArr (TI 8) [1; 2] [XInt 1; XInt 2]))]).
Lemma c58_reachable : reachable (lit "/#refs#") (fl_st c58_file).
Proof.
  eapply (R_write _ empty_file default_options N.of_nat 5 20); [apply R_new|apply default_usable| |apply surjective_pairing].
  intros p v [[= <- <-]|[[= <- <-]|[[= <- <-]|[]]]]; (eapply not_root; [vm_compute; reflexivity|vm_compute; discriminate]).
Qed.
(** The hypotheses of [C58_steps] are met by this file. *)
Example C58_steps_ex : good_refs (lit "/#refs#") /\ reachable (lit "/#refs#") (fl_st c58_file) /\ usable (lit "/#refs#") default_options /\ finite_attrs (hp (fl_st c58_file)).
Proof.
  split; [apply default_refs|]. split; [apply c58_reachable|]. split; [apply default_usable|]. destruct C58_finite as (F0 & F1 & _).
  eapply (F1 (lit "/#refs#") empty_file default_options N.of_nat 5 20); [apply default_refs|apply R_new|apply default_usable|exact F0|apply surjective_pairing].
Qed.
(** a str over an int, cut short when the old Dataset is deleted and the new one not made *)
Lemma c58_gone : exists s', cut_states default_options N.of_nat 5 20 (mkFile true (fl_st c58_file)) [(PStr (lit "/y"), VStr (lit "abc"))] s' /\
  snd (file_contains (mkFile true (new_session s')) (PStr (lit "/y"))) = Ok false /\ mark_done (lit "/#refs#") s'.
Proof.
  set (s := fl_st c58_file). exists (fst (unlink 0 (lit "y") s)). split.
  - apply (cut_at _ _ _ _ _ _ (lit "/") (lit "y") _ 0); [vm_compute; reflexivity..|]. replace (fst (require_group (lit "/") s)) with s by (vm_compute; reflexivity).
    change 20 with (S 19). cbn [writeT write_valueT]. eapply cut_np; [vm_compute; reflexivity|vm_compute; reflexivity|vm_compute; reflexivity|vm_compute; discriminate|].
    apply (cut_gone _ _ _ _ _ 5); vm_compute; reflexivity.
  - split; [vm_compute; reflexivity|]. intros c H. vm_compute in H. injection H as <-. eexists. split; [vm_compute; reflexivity|].
    exists 8, (mkFilt None None false false false). split; [reflexivity|]. split; vm_compute; reflexivity.
Qed.
(** an array over another one, cut short in the middle of the transfer *)
Definition c58_array (x y : Z) : pyval := VNp CNdarray (mkArr (TI 8) [1; 2] [XInt x; XInt y]).
Lemma c58_torn : exists s', cut_states default_options N.of_nat 5 20 (mkFile true (fl_st c58_file)) [(PStr (lit "/z"), c58_array 3 4)] s' /\
  snd (file_read default_options 20 key_eq (mkFile true (new_session s')) (PStr (lit "/z"))) = Ok (c58_array 1 4).
Proof.
  set (s := fl_st c58_file). destruct (hp s 6) as [ob|] eqn:E6; [|vm_compute in E6; discriminate E6].
  destruct (o_body ob) as [old f|] eqn:B; [|apply (f_equal (fun x => match x with Some o => match o_body o with BData _ _ => true | _ => false end | None => true end)) in E6; rewrite B in E6; vm_compute in E6; discriminate E6].
  assert (X : match hp s 6 with Some o => match o_body o with BData a _ => Some a | _ => None end | None => None end = Some (mkArr (TI 8) [2; 1] [XInt 1; XInt 2])) by (vm_compute; reflexivity).
  assert (Y : match hp s 6 with Some o => match o_body o with BData _ f => Some f | _ => None end | None => None end = Some (mkFilt None None false false false)) by (vm_compute; reflexivity).
  rewrite E6, B in X, Y. injection X as ->. injection Y as ->.
  exists (set_hp s (upd (hp s) 6 (with_body ob (BData (mkArr (TI 8) [2; 1] [XInt 1; XInt 4]) (mkFilt None None false false false))))). split.
  - apply (cut_at _ _ _ _ _ _ (lit "/") (lit "z") _ 0); [vm_compute; reflexivity..|]. replace (fst (require_group (lit "/") s)) with s by (vm_compute; reflexivity).
    change 20 with (S 19). cbn [writeT write_valueT c58_array]. eapply cut_np; [vm_compute; reflexivity|vm_compute; reflexivity|vm_compute; reflexivity|vm_compute; discriminate|].
    apply (cut_torn _ _ _ _ s 6 ob (mkArr (TI 8) [2; 1] [XInt 1; XInt 2]) (mkFilt None None false false false) [XInt 1; XInt 4]); [vm_compute; reflexivity|exact E6|exact B|vm_compute; reflexivity|vm_compute; reflexivity|reflexivity|].
    intros [|[|[|k]]] e H; cbn in H; try discriminate H; injection H as <-; [left|right]; reflexivity.
  - assert (Z : ob = match hp s 6 with Some o => o | None => mkObj [] no_attrs (BGroup []) end) by (rewrite E6; reflexivity). rewrite Z. vm_compute. reflexivity.
Qed.
(** But the path itself is neither what it was nor what it was to be: it may be gone, or an
    array with old and new elements. *)
Theorem C58_old_or_new_refuted :
  (exists refs s p v w s', good_refs refs /\ reachable refs s /\ usable refs default_options /\
     cut_states default_options N.of_nat 5 20 (mkFile true s) [(p, w)] s' /\
     snd (file_read default_options 20 key_eq (mkFile true s) p) = Ok v /\
     snd (file_write default_options N.of_nat 5 20 (mkFile true s) w p) = Ok tt /\
     snd (file_contains (mkFile true (new_session s')) p) = Ok false) /\
  (exists refs s p s', good_refs refs /\ reachable refs s /\ usable refs default_options /\
     cut_states default_options N.of_nat 5 20 (mkFile true s) [(p, c58_array 3 4)] s' /\
     snd (file_read default_options 20 key_eq (mkFile true s) p) = Ok (c58_array 1 2) /\
     snd (file_write default_options N.of_nat 5 20 (mkFile true s) (c58_array 3 4) p) = Ok tt /\
     snd (file_read default_options 20 key_eq (mkFile true (new_session s')) p) = Ok (c58_array 1 4)).
Proof.
  split.
  - destruct c58_gone as (s' & H1 & H2 & MD). exists (lit "/#refs#"), (fl_st c58_file), (PStr (lit "/y")), (VInt 1), (VStr (lit "abc")), s'.
    split; [apply default_refs|]. split; [apply c58_reachable|]. split; [apply default_usable|]. split; [exact H1|]. split; [vm_compute; reflexivity|]. split; [vm_compute; reflexivity|exact H2].
  - destruct c58_torn as (s' & H1 & H2). exists (lit "/#refs#"), (fl_st c58_file), (PStr (lit "/z")), s'.
    split; [apply default_refs|]. split; [apply c58_reachable|]. split; [apply default_usable|]. split; [exact H1|]. split; [vm_compute; reflexivity|]. split; [vm_compute; reflexivity|exact H2].
Qed.
Print Assumptions C58_old_or_new_refuted.
(** For example, in both cases the list is still there; and what is gone can be written again. *)
Example C58_ex : exists s', cut_states default_options N.of_nat 5 20 (mkFile true (fl_st c58_file)) [(PStr (lit "/y"), VStr (lit "abc"))] s' /\
  snd (file_contains (mkFile true (new_session s')) (PStr (lit "/y"))) = Ok false /\
  snd (file_read default_options 20 key_eq (mkFile true (new_session s')) (PStr (lit "/x"))) = Ok (VSeq QList [VInt 1]).
Proof.
  destruct c58_gone as (s' & H1 & H2 & MD). exists s'. split; [exact H1|]. split; [exact H2|].
  destruct (C58_other_data (lit "/#refs#") (fl_st c58_file) default_options N.of_nat 5 20 [(PStr (lit "/y"), VStr (lit "abc"))] s' default_options key_eq 20 (PStr (lit "/x"))) as [X _].
  - apply default_refs. - apply c58_reachable. - apply default_usable. - vm_compute. reflexivity.
  - intros cs D. rewrite (denotes_fun (PStr (lit "/x")) cs [lit "x"] D); [repeat constructor|]. exists (lit "/"), (lit "x"). split; vm_compute; reflexivity.
  - intros p v cs qs [[= <- <-]|[]] D1 D2. rewrite (denotes_fun (PStr (lit "/y")) cs [lit "y"] D1), (denotes_fun (PStr (lit "/x")) qs [lit "x"] D2).
    + split; [discriminate|]. intros [[y Y]|[y Y]]; discriminate Y.
    + exists (lit "/"), (lit "x"). split; vm_compute; reflexivity.
    + exists (lit "/"), (lit "y"). split; vm_compute; reflexivity.
  - exact H1.
  - rewrite X. vm_compute. reflexivity.
Qed.
(** and the hypotheses of [C58_again_partial] are met there *)
Example C58_again_ex : exists s', setting (lit "/#refs#") (fl_st c58_file) default_options default_options key_eq /\
  cut_states default_options N.of_nat 5 20 (mkFile true (fl_st c58_file)) [(PStr (lit "/y"), VStr (lit "abc"))] s' /\
  snd (file_contains (mkFile true (new_session s')) (PStr (lit "/y"))) = Ok false /\ mark_done (lit "/#refs#") s' /\
  any_place default_options (new_session s') (PStr (lit "/y")) [lit "y"] /\ storable default_options default_options key_eq (VInt 2) /\ writes_to default_options [lit "y"] (VInt 2).
Proof.
  destruct c58_gone as (s' & H1 & H2 & MD). exists s'.
  split; [constructor; [apply default_refs|apply c58_reachable|apply default_usable|apply default_paired|apply default_ready|reflexivity]|].
  split; [exact H1|]. split; [exact H2|]. split; [exact MD|]. split; [|split; [constructor|intros _; split; [apply G_other; exact I|intros []]]].
  assert (RC : reachable (lit "/#refs#") (new_session s')).
  { apply R_reopen. eapply R_cut; [apply c58_reachable|apply default_usable| |exact H1|exact MD]. intros p v [[= <- <-]|[]]. eapply not_root; [vm_compute; reflexivity|vm_compute; discriminate]. }
  constructor.
  - exists (lit "/"), (lit "y"). split; vm_compute; reflexivity.
  - repeat constructor.
  - intros (x & a & b & A1 & A2). vm_compute in A2. injection A1 as <- <-. discriminate A2.
  - discriminate.
  - intros a b i E Nb W. destruct a as [|c a]; [|destruct a; [|discriminate E]; destruct b; [congruence|discriminate E]]. injection W as <-.
    destruct (t_root _ _ (w_tree _ _ (reachable_wf _ _ default_refs RC default_options (proj1 default_usable)))) as (ob & ls & X1 & _ & X2). unfold is_group. rewrite X1, X2. reflexivity.
Qed.

(** C59: the File can also be used further without opening it again, when the interrupt has
    been caught. *)
Theorem C59_other_data : forall refs s o rnd tries n mdict s' ro keq m q, good_refs refs -> reachable refs s -> usable refs o -> o_refs ro = refs ->
  valid_path q -> (forall p v cs qs, In (p, v) mdict -> denotes p cs -> denotes q qs -> cs <> [] /\ ~ overlap cs qs) ->
  cut_states o rnd tries n (mkFile true s) mdict s' ->
  snd (file_read ro m keq (mkFile true s') q) = snd (file_read ro m keq (mkFile true s) q) /\
  ((forall qs, denotes q qs -> ~ same_top qs (path_comps refs)) ->
   snd (file_contains (mkFile true s') q) = snd (file_contains (mkFile true s) q)).
Proof. exact cut_elsewhere. Qed.
Print Assumptions C59_other_data.
Theorem C59_again_partial : forall refs s o rnd0 tries0 n0 mdict s' wo ro keq rnd tries n p cs v, setting refs s wo ro keq ->
  usable refs o -> (forall q w, In (q, w) mdict -> ~ denotes q []) -> cut_states o rnd0 tries0 n0 (mkFile true s) mdict s' -> mark_done refs s' ->
  any_place wo s' p cs -> storable wo ro keq v -> depth v <= n -> writes_to wo cs v ->
  let f0 := mkFile true s' in
  let f1 := match snd (file_contains f0 p) with Ok true => fst (file_del f0 p) | _ => f0 end in
  forall f r, file_write wo rnd tries n f1 v p = (f, r) -> no_repeat rnd (rpos s') (rpos (fl_st f)) -> rpos (fl_st f) < rpos s' + tries ->
  r = Ok tt /\ exists v', same v v' /\ forall m, depth v <= m -> file_read ro m keq f p = (f, Ok v').
Proof.
  intros refs s o rnd0 tries0 n0 mdict s' wo ro keq rnd tries n p cs v [G1 G2 G3 G4 G5 G6] U NR C MD A SV DV WT.
  apply (done_again refs s' wo ro keq rnd tries n p cs v); auto. eapply R_cut; eassumption.
Qed.
Print Assumptions C59_again_partial.
(** [mark_done] is needed: the first list of a file, cut short when the canonical empty has
    been made and has none of its attributes yet.  The File takes it as complete from then
    on: an element that is left out of a list becomes an array of two zeros.  After opening
    the file again it becomes an empty array, as it should. *)
Lemma cut_canon o rnd tries wr g t c a b g1 ts s x : np_incompatible o a = false -> np_prepare o (c, a) = Ok b -> as_group o a (a_dt b) = false -> a_dt b = TObj ->
  snd (snd (ensure_refsT o s)) = Ok g1 -> fst (ensure_canonT g1 (fst (snd (ensure_refsT o s)))) x -> fst (np_writeT o rnd tries wr g t (c, a) ts s) x.
Proof.
  intros H1 H2 H3 H4 H5 H. unfold np_writeT. rewrite H1. cbn [andb]. apply (in_right (pure (lift (np_prepare o (c, a)))) _ s b x); [cbn [pure snd lift]; exact H2|]. rewrite H3.
  apply in_left. rewrite H4. unfold write_object_arrayT. eapply in_right; [exact H5|]. apply in_left. exact H.
Qed.
Lemma cut_unmarked g s c : canon s = None -> lookup (hp s) g (lit "a") = None -> snd (new_link g (lit "a") no_attrs canon_body s) = Ok c ->
  fst (ensure_canonT g s) (with_canon c (fst (new_link g (lit "a") no_attrs canon_body s))).
Proof.
  intros H1 H2 H3. unfold ensure_canonT. rewrite H1, H2. unfold new_canonT. cbn [fst]. exists no_attrs. split; [left; reflexivity|]. right. exists c. auto.
Qed.
Lemma c59_unmarked : exists s', cut_states default_options N.of_nat 5 20 (mkFile true empty_file) [(PStr (lit "/x"), VSeq QList [VInt 1])] s' /\
  s' = (let s1 := fst (snd (ensure_refsT default_options empty_file)) in with_canon 2 (fst (new_link 1 (lit "a") no_attrs canon_body s1))).
Proof.
  set (s := empty_file). eexists. split; [|reflexivity]. cbv zeta.
  apply (cut_at _ _ _ _ _ _ (lit "/") (lit "x") _ 0); [vm_compute; reflexivity..|]. replace (fst (require_group (lit "/") s)) with s by (vm_compute; reflexivity).
  change 20 with (S 19). cbn [writeT write_valueT]. eapply (cut_canon _ _ _ _ _ _ _ _ _ 1); [vm_compute; reflexivity..|].
  apply cut_unmarked; vm_compute; reflexivity.
Qed.
Theorem C59_half_made_refuted : exists refs s p v s', good_refs refs /\ reachable refs s /\ usable refs default_options /\
  cut_states default_options N.of_nat 5 20 (mkFile true s) [(p, v)] s' /\
  let again f := snd (file_read default_options 20 key_eq (fst (file_write (act (lit "discard")) N.of_nat 5 20 f (VSeq QList [VInt 1; halves]) p)) p) in
  again (mkFile true s') = Ok (VSeq QList [VInt 1; VNp CNdarray (mkArr (TU 8) [2] [XInt 0; XInt 0])]) /\
  again (mkFile true (new_session s')) = Ok (VSeq QList [VInt 1; VNp CNdarray (mkArr (TF 8) [0; 0] [])]).
Proof.
  destruct c59_unmarked as (s' & H1 & H2). exists (lit "/#refs#"), empty_file, (PStr (lit "/x")), (VSeq QList [VInt 1]), s'.
  split; [apply default_refs|]. split; [apply R_new|]. split; [apply default_usable|]. split; [exact H1|]. rewrite H2. clear H1 H2. split; vm_compute; reflexivity.
Qed.
Print Assumptions C59_half_made_refuted.
(** The hypotheses are met; what was cut short is written again with the same File. *)
Example C59_ex : exists s', setting (lit "/#refs#") (fl_st c58_file) default_options default_options key_eq /\
  cut_states default_options N.of_nat 5 20 (mkFile true (fl_st c58_file)) [(PStr (lit "/y"), VStr (lit "abc"))] s' /\
  mark_done (lit "/#refs#") s' /\
  snd (file_contains (mkFile true s') (PStr (lit "/y"))) = Ok false /\
  snd (file_read default_options 20 key_eq (mkFile true s') (PStr (lit "/x"))) = Ok (VSeq QList [VInt 1]) /\
  any_place default_options s' (PStr (lit "/y")) [lit "y"] /\ storable default_options default_options key_eq (VInt 2) /\ writes_to default_options [lit "y"] (VInt 2).
Proof.
  destruct c58_gone as (s' & H1 & H2 & MD). exists s'.
  split; [constructor; [apply default_refs|apply c58_reachable|apply default_usable|apply default_paired|apply default_ready|reflexivity]|].
  split; [exact H1|]. split; [exact MD|]. split; [rewrite <- contains_session; exact H2|].
  split.
  { destruct (C59_other_data (lit "/#refs#") (fl_st c58_file) default_options N.of_nat 5 20 [(PStr (lit "/y"), VStr (lit "abc"))] s' default_options key_eq 20 (PStr (lit "/x"))) as [X _].
    - apply default_refs. - apply c58_reachable. - apply default_usable. - vm_compute. reflexivity.
    - intros cs D. rewrite (denotes_fun (PStr (lit "/x")) cs [lit "x"] D); [repeat constructor|]. exists (lit "/"), (lit "x"). split; vm_compute; reflexivity.
    - intros p v cs qs [[= <- <-]|[]] D1 D2. rewrite (denotes_fun (PStr (lit "/y")) cs [lit "y"] D1), (denotes_fun (PStr (lit "/x")) qs [lit "x"] D2).
      + split; [discriminate|]. intros [[y Y]|[y Y]]; discriminate Y.
      + exists (lit "/"), (lit "x"). split; vm_compute; reflexivity.
      + exists (lit "/"), (lit "y"). split; vm_compute; reflexivity.
    - exact H1.
    - rewrite X. vm_compute. reflexivity. }
  split; [|split; [constructor|intros _; split; [apply G_other; exact I|intros []]]].
  assert (RC : reachable (lit "/#refs#") s').
  { eapply R_cut; [apply c58_reachable|apply default_usable| |exact H1|exact MD]. intros p v [[= <- <-]|[]]. eapply not_root; [vm_compute; reflexivity|vm_compute; discriminate]. }
  constructor.
  - exists (lit "/"), (lit "y"). split; vm_compute; reflexivity.
  - repeat constructor.
  - intros (x & a & b & A1 & A2). vm_compute in A2. injection A1 as <- <-. discriminate A2.
  - discriminate.
  - intros a b i E Nb W. destruct a as [|c a]; [|destruct a; [|discriminate E]; destruct b; [congruence|discriminate E]]. injection W as <-.
    destruct (t_root _ _ (w_tree _ _ (reachable_wf _ _ default_refs RC default_options (proj1 default_usable)))) as (ob & ls & X1 & _ & X2). unfold is_group. rewrite X1, X2. reflexivity.
Qed.
