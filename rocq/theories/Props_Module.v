(** Property C44: the functions of the module that write and read files. *)
From Verif Require Import Base PathEsc PosixPath ProcessPath Dec NdArray Value OptionsM OptionsSpec Hdf5 HeapFacts MarshalW MarshalR FileApi ApiSpec FileFacts OpenM OpenSpec OpenFacts HistoryFacts RndFacts RoundSpec ProgressSpec Props_Round Props_Open.
Local Open Scope nat_scope.

(** what is written into: the contents of the file, or nothing if there is none or they
    are given up *)
Inductive contents (o : options) (a : open_args) : entry -> st -> Prop :=
| Co_new : contents o a NoFile empty_file
| Co_truncated e : oa_truncate a = true -> e <> Directory -> contents o a e empty_file
| Co_given_up im : truncation_asked o a im -> contents o a (H5 im) empty_file
| Co_kept im : ~ truncation_asked o a im -> contents o a (H5 im) (im_st im).
Lemma contents_open o t a e s : valid_now t -> oa_writable a = true -> contents o a e s ->
  exists im, open_file o t a e = (H5 im, Ok (mkFile true (new_session s))).
Proof.
  intros V W C. destruct C as [|e T D|im T|im T].
  - destruct (C21_new o t a NoFile V W) as (im & E & _); [auto|]. eauto.
  - destruct (C21_new o t a e V W) as (im & E & _); [auto|]. eauto.
  - destruct (C21_new o t a (H5 im) V W) as (im' & E & _); [eauto|]. eauto.
  - destruct (open_file o t a (H5 im)) as [e r] eqn:E. destruct (C21_kept o t a im e r V W T E) as [-> (im' & -> & _)]. eauto.
Qed.
Lemma setting_session refs s wo ro keq : setting refs s wo ro keq -> setting refs (new_session s) wo ro keq.
Proof. intros [A B C D E F]. constructor; auto. apply R_reopen. exact B. Qed.
Lemma place_session o s p cs : new_place o s p cs -> new_place o (new_session s) p cs.
Proof. intros [A B C D E F]. constructor; auto. Qed.

(** C44: what hdf5storage.write(s) put in a file, hdf5storage.read(s) gets from it. *)
Theorem C44_write_read_partial : forall refs s wo ro keq rnd tries n t t' tr tri mdict e e' r, setting refs s wo ro keq -> valid_now t ->
  contents wo (mkOpen true tr tri) e s ->
  (forall p v, In (p, v) mdict -> exists cs, new_place wo s p cs /\ storable wo ro keq v /\ depth v <= n /\ writes_to wo cs v) ->
  ForallOrdPairs (fun x y => forall a b, denotes (fst x) a -> denotes (fst y) b -> ~ overlap a b) mdict ->
  mod_writes rnd tries n t wo tr tri mdict e = (e', r) ->
  (forall s', (exists im, e' = H5 im /\ im_st im = s') -> no_repeat rnd (rpos s) (rpos s') /\ rpos s' < rpos s + tries) ->
  r = Ok tt /\ forall p v, In (p, v) mdict -> exists v', same v v' /\ forall m, depth v <= m -> mod_read m keq t' ro p e' = (e', Ok v').
Proof.
  intros refs s wo ro keq rnd tries n t t' tr tri mdict e e' r SE V C OK ND W NR.
  destruct (contents_open wo t (mkOpen true tr tri) e s V eq_refl C) as (im & EO). unfold mod_writes in W. rewrite EO in W.
  destruct (file_writes wo rnd tries n (mkFile true (new_session s)) mdict) as [f r'] eqn:EW. injection W as <- <-. cbn [stored] in *.
  destruct (NR (fl_st f)) as [N1 N2]; [eexists; split; reflexivity|].
  destruct (C29_round_trip_partial refs (new_session s) wo ro keq rnd tries n mdict f r' (setting_session _ _ _ _ _ SE)) as [R RD]; auto.
  { intros p v H. destruct (OK p v H) as (cs & A & B). exists cs. split; [apply place_session; exact A|exact B]. }
  split; [exact R|]. intros p v H. destruct (RD p v H) as (v' & S & X). exists v'. split; [exact S|]. intros m Hm.
  unfold mod_read, open_file. cbn [oa_writable negb h5_open bindr im_st]. f_equal.
  assert (O : fl_open f = true).
  { clear - EW. unfold file_writes in EW. destruct (mapr _ mdict) as [l|]; [|injection EW as <- _; reflexivity]. cbn [fl_open] in EW. destruct (iterM _ _ _) as [s0 r0]. injection EW as <- _. reflexivity. }
  specialize (X m Hm). destruct f as [b sf]. cbn in O. subst b. cbn [fl_st]. transitivity (snd (file_read ro m keq (mkFile true sf) p)); [apply read_heap; reflexivity|]. rewrite X. reflexivity.
Qed.
Print Assumptions C44_write_read_partial.

(** Options(matlab_compatible=False): nothing is changed for MATLAB *)
Definition plain_args (n : optname) : optval := match n with MatlabCompatible => OVBool false | n => default_args n end.
Lemma plain_given : exists po, init plain_args = Ok po /\ ready po /\ usable (lit "/#refs#") po /\ o_reverse po = false /\ o_matlab_compatible po = false /\ paired default_options po /\ paired po po.
Proof.
  eexists. split; [vm_compute; reflexivity|]. split; [constructor; try (vm_compute; reflexivity); [exists (lit "#refs#"); vm_compute; reflexivity|discriminate]|].
  split; [split; [vm_compute; reflexivity|]; split; apply plain_link_ok; vm_compute; reflexivity|]. split; [reflexivity|]. split; [reflexivity|].
  split; constructor; try (vm_compute; auto; fail); vm_compute; repeat split; try discriminate; auto.
Qed.
(** read without options reads what write wrote, with its default options, or with
    matlab_compatible=False *)
Theorem C44_default_reading : forall wo, wo = default_options \/ init plain_args = Ok wo ->
  exists ro, reading_options None default_args = Ok ro /\ forall s, reachable (lit "/#refs#") s -> setting (lit "/#refs#") s wo ro key_eq.
Proof.
  intros wo H. destruct plain_given as (po & E & R & U & _ & _ & P1 & P2). exists po. split; [exact E|]. intros s HS.
  destruct H as [-> | H]; [|assert (wo = po) by congruence; subst wo]; constructor; auto using default_refs, default_usable, default_ready.
Qed.
Print Assumptions C44_default_reading.

(** savemat and loadmat, with the same name up to ".mat": every variable saved is loaded,
    the same, whatever oned_as and action_for_matlab_incompatible *)
Definition save_args (oned action : pystr) : Prop := (oned = lit "row" \/ oned = lit "column") /\ (action = lit "ignore" \/ action = lit "discard" \/ action = lit "error").
Lemma savemat_setting oned action : save_args oned action -> exists o, savemat_options true oned action = Ok o /\ 
  usable (lit "/#refs#") o /\ ready o /\ paired o default_options.
Proof.
  intros [[-> | ->] [-> | [-> | ->]]]; (eexists; split; [vm_compute; reflexivity|]);
   (split; [split; [vm_compute; reflexivity|]; split; apply plain_link_ok; vm_compute; reflexivity|]); split.
  all: try (constructor; try (vm_compute; reflexivity); [exists (lit "#refs#"); vm_compute; reflexivity|intros _; repeat constructor]; fail).
  all: constructor; try (vm_compute; auto; fail); vm_compute; repeat split; try discriminate; auto.
Qed.
Lemma savemat_is rnd tries n t d name mdict append metadata oned action tr tri o : savemat_options metadata oned action = Ok o ->
  savemat rnd tries n t d name mdict append metadata oned action tr tri =
  let '(e, r) := mod_writes rnd tries n t o tr tri mdict (d (mat_name append name)) in (put_disk d (mat_name append name) e, r).
Proof. intros H. unfold savemat. cbv zeta. rewrite H. reflexivity. Qed.
Lemma savemat_loadmat ro : forall oned action o s rnd tries n t t' peq d d' name name' append append' tr tri mdict r, setting (lit "/#refs#") s o ro key_eq -> valid_now t -> same_path peq ->
  savemat_options true oned action = Ok o -> contents o (mkOpen true tr tri) (d (mat_name append name)) s -> reachable (lit "/#refs#") s ->
  (forall p v, In (p, v) mdict -> exists cs, new_place o s p cs /\ storable o ro key_eq v /\ depth v <= n /\ writes_to o cs v) ->
  ForallOrdPairs (fun x y => forall a b, denotes (fst x) a -> denotes (fst y) b -> ~ overlap a b) mdict ->
  savemat rnd tries n t d name mdict append true oned action tr tri = (d', r) ->
  (forall s', (exists im, d' (mat_name append name) = H5 im /\ im_st im = s') -> no_repeat rnd (rpos s) (rpos s') /\ rpos s' < rpos s + tries) ->
  mat_name append' name' = mat_name append name ->
  r = Ok tt /\
  forall p v ks m, In (p, v) mdict -> In p ks -> depth v <= m ->
  exists l v', loadmat m key_eq t' peq d' name' [] append' (Some ks) ro = Ok l /\ In (p, v') l /\ same v v'.
Proof.
  intros oned action o s rnd tries n t t' peq d d' name name' append append' tr tri mdict r ST V SP OO C HR OK ND W NR EN.
  rewrite (savemat_is _ _ _ _ _ _ _ _ _ _ _ _ _ _ OO) in W. destruct (mod_writes rnd tries n t o tr tri mdict (d (mat_name append name))) as [e r'] eqn:EW. injection W as <- <-.
  assert (PE : put_disk d (mat_name append name) e (mat_name append name) = e) by (unfold put_disk; rewrite eqb_str_refl; reflexivity). rewrite PE in NR.
  destruct (C44_write_read_partial _ _ _ _ _ _ _ _ t t' _ _ _ _ _ _ ST V C OK ND EW NR) as [R RD]. split; [exact R|].
  intros p v ks m Hin Hk Hm. destruct (RD p v Hin) as (v' & S & X). specialize (X m Hm). unfold mod_read in X.
  destruct (open_file ro t' (mkOpen false false false) e) as [e1 [f|]] eqn:OF; [|discriminate X]. injection X as -> X.
  destruct (C34_names m key_eq t' peq (put_disk d (mat_name append name) e) name' append' ks ro f SP) as (l & L1 & _ & L2); [rewrite EN, PE, OF; reflexivity|].
  exists l, v'. split; [exact L1|]. split; [|exact S]. apply L2. auto.
Qed.
Theorem C44_savemat_loadmat_partial : forall oned action o s rnd tries n t t' peq d d' name name' append append' tr tri mdict r, save_args oned action -> valid_now t -> same_path peq ->
  savemat_options true oned action = Ok o -> contents o (mkOpen true tr tri) (d (mat_name append name)) s -> reachable (lit "/#refs#") s ->
  (forall p v, In (p, v) mdict -> exists cs, new_place o s p cs /\ storable o default_options key_eq v /\ depth v <= n /\ writes_to o cs v) ->
  ForallOrdPairs (fun x y => forall a b, denotes (fst x) a -> denotes (fst y) b -> ~ overlap a b) mdict ->
  savemat rnd tries n t d name mdict append true oned action tr tri = (d', r) ->
  (forall s', (exists im, d' (mat_name append name) = H5 im /\ im_st im = s') -> no_repeat rnd (rpos s) (rpos s') /\ rpos s' < rpos s + tries) ->
  mat_name append' name' = mat_name append name ->
  r = Ok tt /\
  forall p v ks m, In (p, v) mdict -> In p ks -> depth v <= m ->
  exists l v', loadmat m key_eq t' peq d' name' [] append' (Some ks) default_options = Ok l /\ In (p, v') l /\ same v v'.
Proof.
  intros oned action o s rnd tries n t t' peq d d' name name' append append' tr tri mdict r SA V SP OO C HR.
  destruct (savemat_setting oned action SA) as (o' & EO & U & RY & P). assert (o' = o) by congruence. subst o'.
  assert (ST : setting (lit "/#refs#") s o default_options key_eq). { constructor; [apply default_refs|exact HR|exact U|exact P|exact RY|intros; reflexivity]. }
  exact (savemat_loadmat default_options oned action o s rnd tries n t t' peq d d' name name' append append' tr tri mdict r ST V SP OO C HR).
Qed.
Print Assumptions C44_savemat_loadmat_partial.
Definition c44_saved : disk * res unit := savemat N.of_nat 5 20 c21_now (fun _ => NoFile) (lit "d") [(PStr (lit "/x"), c29_value); (PStr (lit "y"), VInt 3)] true true (lit "row") (lit "error") false false.
Example C44_ex : save_args (lit "row") (lit "error") /\ savemat_options true (lit "row") (lit "error") = Ok default_options /\
  contents default_options (mkOpen true false false) NoFile empty_file /\ reachable (lit "/#refs#") empty_file /\
  new_place default_options empty_file (PStr (lit "/x")) [lit "x"] /\ new_place default_options empty_file (PStr (lit "y")) [lit "y"] /\
  mat_name true (lit "d") = mat_name false (lit "d.mat") /\ snd c44_saved = Ok tt /\
  loadmat 20 key_eq c21_now path_eq (fst c44_saved) (lit "d.mat") [] false (Some [PStr (lit "/x"); PStr (lit "y")]) default_options =
   Ok [(PStr (lit "/x"), c29_value); (PStr (lit "y"), VInt 3)].
Proof.
  split; [split; auto|]. split; [vm_compute; reflexivity|]. split; [constructor|]. split; [apply R_new|]. split; [apply C29_ex|].
  split; [|split; [reflexivity|vm_compute; auto]].
  pose proof (empty_new_place default_options (lit "y")) as H. destruct H as [A B C D E F]; try (vm_compute; reflexivity).
  { replace (refs_path default_options) with [lit "#refs#"] by (vm_compute; reflexivity). discriminate. }
  constructor; auto.
Qed.
