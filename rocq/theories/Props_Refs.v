(** Property C56: references never dangle, and reading always comes to an end. *)
From Verif Require Import Base PathEsc PosixPath ProcessPath Unicode Dec NdArray Value OptionsM OptionsSpec Attrs Hdf5 HeapFacts NpWrite MarshalW MarshalR FrameFacts WriteFrame FileApi ApiSpec ApiFacts RndFacts MembersSpec RefSpec RefRead RefApi Props_Store.
Local Open Scope nat_scope.

(** C56: in every file that comes about through the API ([grown]: any number of sessions,
    writes with any options, also such that fail in the middle, and deletions outside the
    references group), each reference in each Dataset leads to an object that is there,
    in the references group. *)
Theorem C56_never_dangle : forall refs s i ob a f j, good_refs refs -> grown refs s ->
  hp s i = Some ob -> o_body ob = BData a f -> In (XPtr j) (a_data a) -> exists k, walk (hp s) 0 (path_comps refs ++ [k]) = Some j.
Proof. exact grown_refs. Qed.
Print Assumptions C56_never_dangle.
(** No way along members and references leads back to where it started. *)
Theorem C56_no_way_back : forall refs s i, good_refs refs -> grown refs s -> ~ way (hp s) i i.
Proof. exact grown_no_way_back. Qed.
Print Assumptions C56_no_way_back.
(** So reading comes to an end: for each file there is a number of levels with which every
    read, of any paths and with any options, gives its final answer. *)
Theorem C56_reading_ends : forall refs s, good_refs refs -> grown refs s ->
  exists n, forall o keq ps, exists r, r <> Err OutOfFuel /\ forall m, n <= m -> file_reads o m keq (mkFile true s) ps = (mkFile true s, r).
Proof. exact grown_reads. Qed.
Print Assumptions C56_reading_ends.

(** In particular the proviso of C46, that reading goes deep enough, can always be met. *)
Theorem C56_deep_enough : forall refs s, good_refs refs -> grown refs s -> exists n, forall o m keq cs, n <= m -> deep_enough o m keq s cs.
Proof.
  intros refs s GR G. destruct (grown_reads refs s GR G) as [n H]. exists n. intros o m keq cs L name q _. destruct (H o keq [q]) as (r & R1 & R2).
  unfold file_read. rewrite (R2 m L). cbn [snd]. destruct r as [l|e]; cbn [bindr]; [destruct l as [|v [|w l]]; discriminate|]. intros [= ->]. apply R1. reflexivity.
Qed.
Print Assumptions C56_deep_enough.

(** for example: lists in lists in lists, written in two sessions, one over another, and one deleted *)
Definition c56_refs : pystr := o_refs default_options.
Definition c56_rnd (n : nat) : N := (1000 + 7 * N.of_nat n)%N.
Definition deep_list : pyval := VSeq QList [VSeq QTuple [VSeq QList [VInt 1; VStr (lit "a")]; VNone]; VDict MDict [(VInt 1, VSeq QSet [VInt 2; VInt 3])]].
Definition c56_first : file := fst (file_writes default_options c56_rnd 5 20 (mkFile true empty_file) [(PStr (lit "/x"), deep_list); (PStr (lit "/z"), deep_list)]).
Definition c56_second : file := fst (file_writes default_options c56_rnd 5 20 (mkFile true (new_session (fl_st c56_first))) [(PStr (lit "/g/y"), deep_list); (PStr (lit "/x"), VSeq QList [deep_list])]).
Definition c56_third : file := fst (file_del c56_second (PStr (lit "/z"))).
Lemma c56_usable : usable c56_refs default_options.
Proof. split; [reflexivity|]. split; vm_compute; (split; [discriminate|]; split; [discriminate|]; intros H; repeat (destruct H as [H|H]; [discriminate|]); destruct H). Qed.
Lemma c56_no_repeat a b : no_repeat c56_rnd a b.
Proof. intros i j _ L _. unfold c56_rnd. lia. Qed.
Lemma not_root p g t : process_path p = Ok (g, t) -> path_comps (posix_join g [t]) <> [] -> ~ denotes p [].
Proof. intros P N (g' & t' & P' & E). rewrite P in P'. injection P' as <- <-. congruence. Qed.
Lemma open_file f : fl_open f = true -> f = mkFile true (fl_st f). Proof. destruct f as [b s]. cbn. intros ->. reflexivity. Qed.
Example C56_ex : good_refs c56_refs /\ grown c56_refs (fl_st c56_third) /\
  snd (file_reads default_options 20 key_eq c56_third [PStr (lit "/x"); PStr (lit "/g/y")]) = Ok [VSeq QList [deep_list]; deep_list] /\
  (exists i ob a f j, hp (fl_st c56_third) i = Some ob /\ o_body ob = BData a f /\ In (XPtr j) (a_data a)).
Proof.
  split; [split; [reflexivity|vm_compute; discriminate]|]. split; [|split].
  - assert (G1 : grown c56_refs (fl_st c56_first)).
    { eapply (G_write _ _ default_options c56_rnd 5 20); [apply G_new|exact c56_usable| |apply surjective_pairing|apply c56_no_repeat].
      intros p v [[= <- <-]|[[= <- <-]|[]]]; (eapply not_root; [vm_compute; reflexivity|vm_compute; discriminate]). }
    assert (G2 : grown c56_refs (fl_st c56_second)).
    { eapply (G_write _ _ default_options c56_rnd 5 20); [apply G_reopen; exact G1|exact c56_usable| |apply surjective_pairing|apply c56_no_repeat].
      intros p v [[= <- <-]|[[= <- <-]|[]]]; (eapply not_root; [vm_compute; reflexivity|vm_compute; discriminate]). }
    assert (O2 : fl_open c56_second = true) by (vm_compute; reflexivity).
    apply (G_del c56_refs (fl_st c56_second) (PStr (lit "/z")) c56_third (snd (file_del c56_second (PStr (lit "/z"))))); [exact G2| |].
    + intros cs (g & t & P & ->). assert (X : process_path (PStr (lit "/z")) = Ok ([fslash], lit "z")) by (vm_compute; reflexivity).
      assert (Q : g = [fslash] /\ t = lit "z") by (split; congruence). destruct Q as [-> ->]. intros O. assert (Y : path_comps (posix_join [fslash] [lit "z"]) = [lit "z"]) by (vm_compute; reflexivity).
      rewrite Y in O. assert (Z : path_comps c56_refs = [lit "#refs#"]) by (vm_compute; reflexivity). rewrite Z in O.
      destruct O as [[r O]|[r O]]; apply (f_equal (fun l => hd [] l)) in O; vm_compute in O; discriminate O.
    + rewrite <- (open_file _ O2). unfold c56_third. apply surjective_pairing.
  - vm_compute. reflexivity.
  - exists 5. do 4 eexists. split; [vm_compute; reflexivity|]. split; [vm_compute; reflexivity|]. vm_compute. left. reflexivity.
Qed.

(** With random numbers that repeat it fails: a list in a list in a list, where each is
    given the same name, comes to be a Dataset that refers to itself, and reading it never
    comes to an end (in Python, a RecursionError). *)
Definition c56_value : pyval := VSeq QList [VSeq QList [VSeq QList [VInt 1]]].
Definition c56_loop : file := fst (file_write default_options (fun _ => 77%N) 5 20 c20_file c56_value (PStr (lit "/y"))).
Theorem C56_repeat_refuted :
  snd (file_write default_options (fun _ => 77%N) 5 20 c20_file c56_value (PStr (lit "/y"))) = Ok tt /\
  (exists i, way (hp (fl_st c56_loop)) i i) /\
  forall n, snd (file_read default_options n key_eq c56_loop (PStr (lit "/y"))) = Err OutOfFuel.
Proof.
  split; [vm_compute; reflexivity|]. split.
  { exists 6. apply W_step. eexists. split; [vm_compute; reflexivity|]. left. do 2 eexists. split; [vm_compute; reflexivity|left; reflexivity]. }
  assert (L : forall n, read default_options key_eq (hp (fl_st c56_loop)) n 6 = Err OutOfFuel).
  { induction n as [|n IH]; [reflexivity|]. cbn [read]. revert IH. generalize (read default_options key_eq (hp (fl_st c56_loop)) n). intros rd H. vm_compute. vm_compute in H. rewrite H. reflexivity. }
  intros [|n]; [vm_compute; reflexivity|]. unfold file_read, file_reads. cbn [snd fl_open fl_st].
  assert (P : mapr (check_path default_options) [PStr (lit "/y")] = Ok [([fslash], lit "y")]) by (vm_compute; reflexivity). rewrite P. cbn [bindr].
  assert (O : fl_open c56_loop = true) by (vm_compute; reflexivity). rewrite O. cbn [mapr fst snd]. unfold read_at.
  assert (G : snd (get_obj 0 [fslash] (fl_st c56_loop)) = Ok (Some 0)) by (vm_compute; reflexivity). rewrite G. cbn [bindr].
  assert (I : is_group (hp (fl_st c56_loop)) 0 = true) by (vm_compute; reflexivity). rewrite I.
  assert (Y : snd (get_obj 0 (lit "y") (fl_st c56_loop)) = Ok (Some 7)) by (vm_compute; reflexivity). rewrite Y. cbn [bindr].
  assert (R : read default_options key_eq (hp (fl_st c56_loop)) (S n) 7 = Err OutOfFuel).
  { cbn [read]. specialize (L n). revert L. generalize (read default_options key_eq (hp (fl_st c56_loop)) n). intros rd H. vm_compute. vm_compute in H. rewrite H. reflexivity. }
  rewrite R. reflexivity.
Qed.
Print Assumptions C56_repeat_refuted.
(** Deleting the references group is allowed, and leaves references that lead nowhere. *)
Theorem C56_del_refuted :
  let f := fst (file_write default_options c56_rnd 5 20 (mkFile true empty_file) deep_list (PStr (lit "/x"))) in
  let f' := fst (file_del f (PStr (lit "/#refs#"))) in
  snd (file_del f (PStr (lit "/#refs#"))) = Ok tt /\ snd (file_read default_options 20 key_eq f (PStr (lit "/x"))) = Ok deep_list /\
  snd (file_read default_options 20 key_eq f' (PStr (lit "/x"))) = Err ValueError.
Proof. vm_compute. auto. Qed.
Print Assumptions C56_del_refuted.
(** So does, in a file from elsewhere, an element that is named 'a', which MATLAB and this
    package use for the canonical empty only: it is replaced when a list is written to
    another path. *)
Definition c56_elsewhere : st := mkSt
  (fun i => match i with
   | 0 => Some (mkObj [] no_attrs (BGroup [(lit "#refs#", 1); (lit "x", 3)]))
   | 1 => Some (mkObj [lit "#refs#"] no_attrs (BGroup [(lit "a", 2)]))
   | 2 => Some (mkObj [lit "#refs#"; lit "a"] no_attrs (BData (mkArr (TI 8) [1] [XInt 5]) (mkFilt None None false false false)))
   | 3 => Some (mkObj [lit "x"] no_attrs (BData (mkArr TRef [1] [XPtr 2]) (mkFilt None None false false false)))
   | _ => None
   end) 4 None false None 11 0.
Theorem C56_elsewhere_refuted :
  let f := mkFile true (new_session c56_elsewhere) in
  let f' := fst (file_write default_options c56_rnd 5 20 f (VSeq QList [VInt 1]) (PStr (lit "/y"))) in
  snd (file_write default_options c56_rnd 5 20 f (VSeq QList [VInt 1]) (PStr (lit "/y"))) = Ok tt /\
  (exists v, snd (file_read default_options 20 key_eq f (PStr (lit "/x"))) = Ok v) /\
  snd (file_read default_options 20 key_eq f' (PStr (lit "/x"))) = Err ValueError.
Proof. vm_compute. split; [reflexivity|]. split; [eexists; reflexivity|reflexivity]. Qed.
Print Assumptions C56_elsewhere_refuted.

(** C57: in every file that comes about through the API, the member 'a' of the references
    group, when there is one, is a canonical empty as MATLAB wants it. *)
Theorem C57_canonical : forall refs s c, good_refs refs -> reachable refs s -> walk (hp s) 0 (path_comps refs ++ [lit "a"]) = Some c ->
  exists ob, hp s c = Some ob /\ empty_mark ob.
Proof. exact canonical_always. Qed.
Print Assumptions C57_canonical.
(** for example, in the file of C56 *)
Example C57_ex : reachable c56_refs (fl_st c56_third) /\ exists c, walk (hp (fl_st c56_third)) 0 (path_comps c56_refs ++ [lit "a"]) = Some c.
Proof. split; [apply grown_reachable, C56_ex|]. exists 2. vm_compute. reflexivity. Qed.
