(** Property C60: HDF5 data that nothing says how to read. *)
From Verif Require Import OptionsSpec Base PathEsc PosixPath ProcessPath Unicode Dec NdArray Value OptionsM StrConv MColl Attrs Hdf5 HeapFacts NpWrite MarshalW MarshalR FileApi ApiSpec FileFacts ReadFacts RndFacts RoundSpec MatlabSpec MatReadSpec MatBack ProgressSpec PlainSpec PlainRead PlainApi Props_Round Props_Matlab Props_MatRead.
Local Open Scope nat_scope.

(** C60: any file, whoever wrote it: an object from which none with an attribute that
    this library knows can be reached is read as it is: an array, with its dtype,
    dimensions and elements, as that; an array of references as an object array of what
    they refer to; a Group as a structured array with its members as the fields of one
    record, or, when they are all arrays of references, as its columns.  Missing: the
    cases that are not [sound]. *)
Theorem C60_plain_read_partial : forall o keq s p t i m a b r1 r2,
  isabs (o_refs o) = true -> valid_path p -> denotes p t -> t = a :: r1 -> ApiSpec.refs_path o = b :: r2 -> a <> b ->
  walk (hp s) 0 t = Some i -> unmarked o (hp s) i -> plain_in (hp s) i m -> sound m ->
  exists v N, shown_as m v /\ forall n, N <= n -> file_read o n keq (mkFile true s) p = (mkFile true s, Ok v).
Proof.
  intros o keq s p t i m a b r1 r2 HA V D E1 E2 NE W F M R. apply (read_plain o keq s p t i m); auto. exists a, b, r1, r2. auto.
Qed.
Print Assumptions C60_plain_read_partial.

(** for example, a Group with an array of float32, a number, an array of references to
    a complex number and a text, and a Group of two columns *)
Definition c60_heap : heap := fun i => match i with
  | 0 => Some (mkObj [] (att []) (BGroup [(lit "g", 1); (lit "data", 5)]))
  | 1 => Some (mkObj [lit "g"] (att [(lit "units", AStr (lit "mm"))]) (BGroup [(lit "z", 2); (lit "n", 3); (lit "r", 4); (lit "t\x2f", 8)]))
  | 2 => Some (mkObj [lit "g"; lit "z"] (att []) (BData (mkArr (TF 4) [2; 2] (map XFlt [1; 2; 3; 4]%N)) no_filt))
  | 3 => Some (mkObj [lit "g"; lit "n"] (att []) (BData (mkArr (TI 8) [] [XInt (-7)]) no_filt))
  | 4 => Some (mkObj [lit "g"; lit "r"] (att []) (BData (mkArr TRef [2; 1] [XPtr 6; XPtr 7]) no_filt))
  | 5 => Some (mkObj [lit "data"] (att []) (BGroup [(lit "c", 6); (lit "s", 7)]))
  | 6 => Some (mkObj [lit "data"; lit "c"] (att []) (BData (mkArr (pair_type 8) [1] [XRec [[XFlt 5%N]; [XFlt 6%N]]]) no_filt))
  | 7 => Some (mkObj [lit "data"; lit "s"] (att []) (BData (mkArr (TS 3) [] [XBytes (lit "abc")]) no_filt))
  | 8 => Some (mkObj [lit "g"; lit "t\x2f"] (att []) (BGroup [(lit "v", 9); (lit "u", 10)]))
  | 9 => Some (mkObj [lit "g"; lit "t\x2f"; lit "v"] (att []) (BData (mkArr TRef [2] [XPtr 7; XPtr 7]) no_filt))
  | 10 => Some (mkObj [lit "g"; lit "t\x2f"; lit "u"] (att []) (BData (mkArr TRef [2] [XPtr 3; XPtr 6]) no_filt))
  | _ => None
  end.
Definition c60_file : st := mkSt c60_heap 11 None false None 11 0.
Definition c60_n : pval := PData (mkArr (TI 8) [] [XInt (-7)]).
Definition c60_c : pval := PData (mkArr (pair_type 8) [1] [XRec [[XFlt 5%N]; [XFlt 6%N]]]).
Definition c60_s : pval := PData (mkArr (TS 3) [] [XBytes (lit "abc")]).
Definition c60_t : pval := PGroup [(lit "v", PRefs [2] [c60_s; c60_s]); (lit "u", PRefs [2] [c60_n; c60_c])].
Definition c60_m : pval := PGroup [(lit "z", PData (mkArr (TF 4) [2; 2] (map XFlt [1; 2; 3; 4]%N))); (lit "n", c60_n); (lit "r", PRefs [2; 1] [c60_c; c60_s]); (lit "t\x2f", c60_t)].
Lemma c60_in_n : plain_in c60_heap 3 c60_n. Proof. eapply Pi_data; try reflexivity. discriminate. Qed.
Lemma c60_in_c : plain_in c60_heap 6 c60_c. Proof. eapply Pi_data; try reflexivity. discriminate. Qed.
Lemma c60_in_s : plain_in c60_heap 7 c60_s. Proof. eapply Pi_data; try reflexivity. discriminate. Qed.
Lemma c60_in : plain_in c60_heap 1 c60_m.
Proof.
  pose proof c60_in_n as PN. pose proof c60_in_c as PC. pose proof c60_in_s as PS.
  eapply Pi_group; try reflexivity.
  - cbn [map fst]. repeat constructor; cbn; intuition discriminate.
  - fa; cbn [fst snd].
    + exists 2. split; [reflexivity|]. eapply Pi_data; try reflexivity. discriminate.
    + exists 3. split; [reflexivity|exact PN].
    + exists 4. split; [reflexivity|]. apply Pi_refs with (ob := mkObj [lit "g"; lit "r"] (att []) (BData (mkArr TRef [2; 1] [XPtr 6; XPtr 7]) no_filt)) (js := [6; 7]) (f := no_filt); try reflexivity; [repeat constructor|]. constructor; [exact PC|]. constructor; [exact PS|constructor].
    + exists 8. split; [reflexivity|]. eapply Pi_group; try reflexivity.
      * cbn [map fst]. repeat constructor; cbn; intuition discriminate.
      * fa; cbn [fst snd].
        -- exists 9. split; [reflexivity|]. apply Pi_refs with (ob := mkObj [lit "g"; lit "t\x2f"; lit "v"] (att []) (BData (mkArr TRef [2] [XPtr 7; XPtr 7]) no_filt)) (js := [7; 7]) (f := no_filt); try reflexivity; [repeat constructor|]. constructor; [exact PS|]. constructor; [exact PS|constructor].
        -- exists 10. split; [reflexivity|]. apply Pi_refs with (ob := mkObj [lit "g"; lit "t\x2f"; lit "u"] (att []) (BData (mkArr TRef [2] [XPtr 3; XPtr 6]) no_filt)) (js := [3; 6]) (f := no_filt); try reflexivity; [repeat constructor|]. constructor; [exact PN|]. constructor; [exact PC|constructor].
Qed.
Lemma c60_sound_n : sound c60_n. Proof. eapply So_data; [repeat constructor|discriminate]. Qed.
Lemma c60_sound_c : sound c60_c.
Proof. eapply So_data; [repeat constructor|]. intros w _. constructor; [|constructor]. exists 5%N, 6%N. reflexivity. Qed.
Lemma c60_sound_s : sound c60_s. Proof. eapply So_data; [repeat constructor|discriminate]. Qed.
Lemma c60_sound : sound c60_m.
Proof.
  pose proof c60_sound_n as PN. pose proof c60_sound_c as PC. pose proof c60_sound_s as PS.
  apply So_group with (us := [lit "z"; lit "n"; lit "r"; lit "t/"]).
  - discriminate.
  - cbn [map fst]. repeat constructor; vm_compute; reflexivity.
  - repeat constructor; cbn; intuition discriminate.
  - fa; cbn [snd].
    + eapply So_data; [repeat constructor|discriminate].
    + exact PN.
    + constructor. fa; assumption.
    + apply So_group with (us := [lit "v"; lit "u"]); [discriminate|cbn [map fst]; repeat constructor; vm_compute; reflexivity|repeat constructor; cbn; intuition discriminate| |].
      * fa; cbn [snd]; constructor; fa; assumption.
      * right. exists [2]. fa; eexists; reflexivity.
  - left. exists (lit "n"), c60_n. split; [cbn; auto|]. discriminate.
Qed.
Lemma c60_unmarked : unmarked default_options c60_heap 1.
Proof.
  exists (fun j => In j [1; 2; 3; 4; 6; 7; 8; 9; 10]). split; [cbn; auto|]. split.
  - intros j k Hj (ob & E & L). cbn [In] in Hj. repeat (destruct Hj as [<-|Hj]; [injection E as <-; cbn in L; repeat (destruct L as [L|L]; [try discriminate L; try (injection L as <-); subst; cbn; tauto|]); contradiction|]). destruct Hj.
  - intros j ob Hj E. cbn [In] in Hj. repeat (destruct Hj as [<-|Hj]; [injection E as <-; split; [repeat constructor|split; [vm_compute; discriminate|cbn [o_body]; try exact I; repeat constructor; cbn; intuition discriminate]]|]). destruct Hj.
Qed.
Example C60_ex : exists v N, shown_as c60_m v /\ forall n, N <= n -> file_read default_options n key_eq (mkFile true c60_file) (PStr (lit "/g")) = (mkFile true c60_file, Ok v).
Proof.
  assert (D : denotes (PStr (lit "/g")) [lit "g"]) by (eexists; eexists; split; vm_compute; reflexivity).
  eapply (C60_plain_read_partial default_options key_eq c60_file (PStr (lit "/g")) [lit "g"] 1 c60_m); try reflexivity; try exact D.
  - intros cs (g & x & D1 & D2). vm_compute in D1. injection D1 as <- <-. subst cs. repeat constructor.
  - discriminate.
  - exact c60_unmarked.
  - exact c60_in.
  - exact c60_sound.
Qed.
(** the value read *)
Example C60_value : snd (file_read default_options 20 key_eq (mkFile true c60_file) (PStr (lit "/g"))) =
  Ok (let c := VNp CNdarray (mkArr (TC 16) [1] [XCpx 5%N 6%N]) in let s := VNp CNdarray (mkArr (TS 3) [] [XBytes (lit "abc")]) in let n := VNp CNdarray (mkArr (TI 8) [] [XInt (-7)]) in
      let ty := TStruct [(lit "u", (TObj, [])); (lit "v", (TS 3, []))] in
      VNp CNdarray (mkArr (TStruct [(lit "n", (TI 8, [])); (lit "r", (TObj, [2; 1])); (lit "t/", (ty, [2])); (lit "z", (TF 4, [2; 2]))]) [1]
        [XRec [[XInt (-7)]; [XPtr c; XPtr s]; [XRec [[XPtr n]; [XBytes (lit "abc")]]; XRec [[XPtr c]; [XBytes (lit "abc")]]]; map XFlt [1; 2; 3; 4]%N]])).
Proof. vm_compute. reflexivity. Qed.

(** a Group without members cannot be read *)
Definition c60_empty : st := mkSt (fun i => match i with
  | 0 => Some (mkObj [] (att []) (BGroup [(lit "g", 1)]))
  | 1 => Some (mkObj [lit "g"] (att []) (BGroup []))
  | _ => None end) 2 None false None 11 0.
Theorem C60_no_members_refuted : plain_in (hp c60_empty) 1 (PGroup []) /\ unmarked default_options (hp c60_empty) 1 /\ walk (hp c60_empty) 0 [lit "g"] = Some 1 /\
  forall n keq, exists e, snd (file_read default_options n keq (mkFile true c60_empty) (PStr (lit "/g"))) = Err e.
Proof.
  split; [eapply Pi_group; try reflexivity; constructor|]. split; [|split; [reflexivity|]].
  - exists (fun j => j = 1). split; [reflexivity|]. split.
    + intros j k -> (ob & E & L). injection E as <-. destruct L.
    + intros j ob -> E. injection E as <-. split; [repeat constructor|]. split; [vm_compute; discriminate|constructor].
  - intros n keq. destruct n; eexists; vm_compute; reflexivity.
Qed.
Print Assumptions C60_no_members_refuted.
(** nor one whose members are arrays of references of different lengths, as
    {'a': [None, True], 'b': [False]} is written without metadata *)
Definition c60_ragged : st := mkSt (fun i => match i with
  | 0 => Some (mkObj [] (att []) (BGroup [(lit "g", 1); (lit "x", 4)]))
  | 1 => Some (mkObj [lit "g"] (att []) (BGroup [(lit "a", 2); (lit "b", 3)]))
  | 2 => Some (mkObj [lit "g"; lit "a"] (att []) (BData (mkArr TRef [2] [XPtr 4; XPtr 4]) no_filt))
  | 3 => Some (mkObj [lit "g"; lit "b"] (att []) (BData (mkArr TRef [1] [XPtr 4]) no_filt))
  | 4 => Some (mkObj [lit "x"] (att []) (BData (mkArr TBool [] [XBool true]) no_filt))
  | _ => None end) 5 None false None 11 0.
Definition c60_b : pval := PData (mkArr TBool [] [XBool true]).
Theorem C60_ragged_refuted : plain_in (hp c60_ragged) 1 (PGroup [(lit "a", PRefs [2] [c60_b; c60_b]); (lit "b", PRefs [1] [c60_b])]) /\
  unmarked default_options (hp c60_ragged) 1 /\ walk (hp c60_ragged) 0 [lit "g"] = Some 1 /\
  forall keq, snd (file_read default_options 20 keq (mkFile true c60_ragged) (PStr (lit "/g"))) = Err IndexError.
Proof.
  split; [|split; [|split; [reflexivity|]]].
  - assert (PB : plain_in (hp c60_ragged) 4 c60_b) by (eapply Pi_data; try reflexivity; discriminate).
    eapply Pi_group; try reflexivity.
    + cbn [map fst]. repeat constructor; cbn; intuition discriminate.
    + fa; cbn [fst snd].
      * exists 2. split; [reflexivity|]. apply Pi_refs with (ob := mkObj [lit "g"; lit "a"] (att []) (BData (mkArr TRef [2] [XPtr 4; XPtr 4]) no_filt)) (js := [4; 4]) (f := no_filt); try reflexivity; repeat constructor; exact PB.
      * exists 3. split; [reflexivity|]. apply Pi_refs with (ob := mkObj [lit "g"; lit "b"] (att []) (BData (mkArr TRef [1] [XPtr 4]) no_filt)) (js := [4]) (f := no_filt); try reflexivity; repeat constructor; exact PB.
  - exists (fun j => In j [1; 2; 3; 4]). split; [cbn; auto|]. split.
    + intros j k Hj (ob & E & L). cbn [In] in Hj. repeat (destruct Hj as [<-|Hj]; [injection E as <-; cbn in L; repeat (destruct L as [L|L]; [try discriminate L; try (injection L as <-); subst; cbn; tauto|]); contradiction|]). destruct Hj.
    + intros j ob Hj E. cbn [In] in Hj. repeat (destruct Hj as [<-|Hj]; [injection E as <-; split; [repeat constructor|split; [vm_compute; discriminate|cbn [o_body]; try exact I; repeat constructor; cbn; intuition discriminate]]|]). destruct Hj.
  - intros keq. vm_compute. reflexivity.
Qed.
Print Assumptions C60_ragged_refuted.

(** C61: written with neither Python metadata nor MATLAB in mind (and so without any of
    the conversions made for MATLAB), a value is found in the file as it is, and nothing
    else: numbers and arrays with their types and dimensions, text as the array of its
    codes, lists and object arrays as references to their elements, dicts (and records
    that HDF5 has no types for) as Groups of their members, and no attribute anywhere.
    Missing: arrays whose elements are not what their dtypes say, dicts two keys of
    which have the same text, paths that exist, overlapping paths, repeated random names. *)
Theorem C61_plain_write_partial : forall refs o s rnd tries n mdict f,
  good_refs refs -> plainly o -> usable refs o -> o_keys_name o <> o_values_name o -> reachable refs s ->
  (forall p v, In (p, v) mdict -> valid_path p /\ writable v /\ snd (file_contains (mkFile true s) p) = Ok false) ->
  ForallOrdPairs (fun x y => forall a b, denotes (fst x) a -> denotes (fst y) b -> ~ overlap a b) mdict ->
  file_writes o rnd tries n (mkFile true s) mdict = (f, Ok tt) -> no_repeat rnd (rpos s) (rpos (fl_st f)) ->
  forall p v, In (p, v) mdict -> exists t i m, denotes p t /\ walk (hp (fl_st f)) 0 t = Some i /\ plain_of o v m /\ plain_in (hp (fl_st f)) i m /\ unadorned (hp (fl_st f)) i.
Proof. intros. eapply (writes_plain refs o s rnd tries n mdict f); eauto. Qed.
Print Assumptions C61_plain_write_partial.
(** ... and it stays so through whatever is written or deleted elsewhere afterwards *)
Theorem C61_stays_partial : forall refs o s rnd tries n mdict f,
  good_refs refs -> plainly o -> usable refs o -> o_keys_name o <> o_values_name o -> reachable refs s ->
  (forall p v, In (p, v) mdict -> valid_path p /\ writable v /\ snd (file_contains (mkFile true s) p) = Ok false) ->
  ForallOrdPairs (fun x y => forall a b, denotes (fst x) a -> denotes (fst y) b -> ~ overlap a b) mdict ->
  file_writes o rnd tries n (mkFile true s) mdict = (f, Ok tt) -> no_repeat rnd (rpos s) (rpos (fl_st f)) ->
  forall p v, In (p, v) mdict -> exists t m, denotes p t /\ plain_of o v m /\
    forall s', later refs p (fl_st f) s' -> exists i, walk (hp s') 0 t = Some i /\ plain_in (hp s') i m /\ unadorned (hp s') i.
Proof. intros. eapply (writes_plain_stay refs o s rnd tries n mdict f); eauto. Qed.
Print Assumptions C61_stays_partial.
(** ... and read back it is what C60 says: the arrays as they are, text as its codes, a
    list as an object array, a dict as a record of its members *)
Theorem C61_read_back_partial : forall refs o ro keq s rnd tries n mdict f,
  good_refs refs -> plainly o -> usable refs o -> o_keys_name o <> o_values_name o -> o_refs ro = refs -> reachable refs s ->
  (forall p v, In (p, v) mdict -> valid_path p /\ writable v /\ snd (file_contains (mkFile true s) p) = Ok false) ->
  ForallOrdPairs (fun x y => forall a b, denotes (fst x) a -> denotes (fst y) b -> ~ overlap a b) mdict ->
  file_writes o rnd tries n (mkFile true s) mdict = (f, Ok tt) -> no_repeat rnd (rpos s) (rpos (fl_st f)) ->
  forall p v, In (p, v) mdict -> exists m, plain_of o v m /\ (sound m -> exists v' N, shown_as m v' /\ forall k, N <= k -> file_read ro k keq f p = (f, Ok v')).
Proof. intros. eapply (writes_read refs o s rnd tries n mdict f); eauto. Qed.
Print Assumptions C61_read_back_partial.

(** ... so that arrays of numbers, truth values and bytes, and complex ones as long as the
    names for them are r and i, are exactly what they were: dtype, dimensions, elements *)
Theorem C61_arrays_back : forall refs o ro keq s rnd tries n mdict f,
  good_refs refs -> plainly o -> usable refs o -> o_keys_name o <> o_values_name o -> o_refs ro = refs -> reachable refs s ->
  (forall p v, In (p, v) mdict -> valid_path p /\ writable v /\ snd (file_contains (mkFile true s) p) = Ok false) ->
  ForallOrdPairs (fun x y => forall a b, denotes (fst x) a -> denotes (fst y) b -> ~ overlap a b) mdict ->
  file_writes o rnd tries n (mkFile true s) mdict = (f, Ok tt) -> no_repeat rnd (rpos s) (rpos (fl_st f)) ->
  forall p c a, In (p, VNp c a) mdict ->
    match a_dt a with
    | TBool | TI _ | TU _ | TF _ => True
    | TS k => k <> 0
    | TC w => (w = 8 \/ w = 16) /\ o_complex_names o = (lit "r", lit "i")
    | _ => False
    end ->
  exists N, forall k, N <= k -> file_read ro k keq f p = (f, Ok (VNp CNdarray a)).
Proof.
  intros refs o ro keq s rnd tries n mdict f GR PO U KN RO RS OK ND E NR p c a Hin TY.
  destruct (writes_read refs o s rnd tries n mdict f GR PO U KN RS OK ND E NR ro keq p (VNp c a) RO Hin) as (m & PL & X).
  destruct (flat_plain o c a m) as [SO SH]; [|exact PL|].
  - unfold flat_array, simple. destruct (a_dt a) as [|w|w|w|w|k|k| | |fs]; try (left; split; [exact I|discriminate]); try contradiction.
    + right. destruct TY as [W CN]. split; [exact CN|]. destruct W as [-> | ->]; auto.
    + left. split; [exact I|]. intros E0. injection E0 as ->. exact (TY eq_refl).
  - destruct (X SO) as (v' & N & S & R). exists N. rewrite (SH v' S) in R. exact R.
Qed.
Print Assumptions C61_arrays_back.

(** for example *)
Definition c61_options : options := with_option ApiSpec.bare_options StorePythonMetadata (OVBool false).
Definition c61_value : pyval :=
  VDict MDict [(VStr (lit "a"), VInt (2 ^ 70)); (VStr (lit "b/c"), VSeq QList [VStr [104; 233; 128512]%N; VNone; VComplex 5%N 6%N]);
    (VBytes (lit "d"), VNp CNdarray (mkArr (TU 2) [2; 3] (map XInt [1; 2; 3; 4; 5; 6]%Z)));
    (VStr (lit "e"), VNp CNdarray (mkArr (TStruct [(lit "x", (TF 8, [])); (lit "y", (TObj, []))]) [2]
      [XRec [[XFlt 7%N]; [XPtr (VBool true)]]; XRec [[XFlt 8%N]; [XPtr (VBytes (lit "uv"))]]]));
    (VStr (lit "f"), VNp CNdarray (mkArr (TUni 3) [2] [XStr (lit "ab"); XStr (lit "cde")]))].
Lemma c61_plainly : plainly c61_options.
Proof. intros n H. cbn [In] in H. repeat (destruct H as [<-|H]; [vm_compute; reflexivity|]). destruct H. Qed.
Lemma c61_writable : writable c61_value.
Proof.
  apply Wr_dict with (texts := [lit "a"; lit "b/c"; lit "d"; lit "e"; lit "f"]); [|repeat constructor; cbn; intuition discriminate|]; cbn [map fst snd].
  - constructor; [constructor|]. constructor; [constructor|]. constructor; [constructor; reflexivity|]. constructor; [constructor|]. constructor; [constructor|]. constructor.
  - fa.
    + constructor. exact I.
    + apply Wr_seq. fa; constructor; exact I.
    + apply Wr_np; [exact I|reflexivity|]. cbn [a_data map]. fa; eexists; constructor.
    + eapply Wr_struct; [reflexivity|reflexivity|repeat constructor; cbn; intuition discriminate|left; eapply Ng_object; right; left; reflexivity|]. cbn [a_data].
      fa; eexists; (split; [reflexivity|]); (split; [reflexivity|]); cbn [combine]; fa; cbn [fst snd field_item item_of]; try (constructor; exact I); apply Wr_np; cbn; try exact I; try reflexivity; fa; eexists; constructor.
    + eapply Wr_text; [reflexivity|reflexivity|]. cbn [a_data]. fa; eexists; (split; [reflexivity|cbn; lia]).
Qed.
Lemma c61_ok : snd (file_writes c61_options N.of_nat 5 20 (mkFile true empty_file) [(PStr (lit "/x"), c61_value)]) = Ok tt.
Proof. vm_compute. reflexivity. Qed.
Lemma c61_usable : usable (lit "/#refs#") c61_options. Proof. repeat split; vm_compute; try reflexivity; try discriminate; intuition discriminate. Qed.
Example C61_ex : forall f r, file_writes c61_options N.of_nat 5 20 (mkFile true empty_file) [(PStr (lit "/x"), c61_value)] = (f, r) ->
  r = Ok tt /\ exists i m, walk (hp (fl_st f)) 0 [lit "x"] = Some i /\ plain_of c61_options c61_value m /\ plain_in (hp (fl_st f)) i m /\ unadorned (hp (fl_st f)) i.
Proof.
  intros f r E. pose proof c61_ok as OK. rewrite E in OK. cbn [snd] in OK. subst r. split; [reflexivity|].
  destruct (C61_plain_write_partial (lit "/#refs#") c61_options empty_file N.of_nat 5 20 [(PStr (lit "/x"), c61_value)] f) with (p := PStr (lit "/x")) (v := c61_value) as (t & i & m & D & W & P1 & P2 & P3).
  - apply default_refs.
  - exact c61_plainly.
  - exact c61_usable.
  - vm_compute. discriminate.
  - apply R_new.
  - intros p v [[= <- <-]|[]]. split; [|split; [exact c61_writable|exact c41_free]]. intros cs D. rewrite (c41_path cs D). constructor; [reflexivity|constructor].
  - constructor; constructor.
  - exact E.
  - intros a b H1 H2 H3. lia.
  - left. reflexivity.
  - exists i, m. rewrite (c41_path t D) in W. auto.
Qed.
(** the value read: the text is now an array of codes, the large integer its digits *)
Example C61_value : snd (file_read default_options 20 key_eq (fst (file_writes c61_options N.of_nat 5 20 (mkFile true empty_file) [(PStr (lit "/x"), c61_value)])) (PStr (lit "/x"))) =
  Ok (let num d e := VNp CNdarray (mkArr d [] [e]) in
      let text s := VNp CNdarray (mkArr (TU 4) [length s] (map (fun c => XInt (Z.of_N c)) s)) in
      VNp CNdarray (mkArr (TStruct [(lit "a", (TS 22, [])); (lit "b/c", (TObj, [3])); (lit "d", (TU 2, [2; 3])); (lit "e", (TStruct [(lit "x", (TF 8, [])); (lit "y", (TObj, []))], [2])); (lit "f", (TU 4, [6]))]) [1]
        [XRec [[XBytes (lit "1180591620717411303424")]; [XPtr (text [104; 233; 128512]%N); XPtr (VNp CNdarray (mkArr (TF 8) [0] [])); XPtr (num (TC 16) (XCpx 5%N 6%N))];
          map XInt [1; 2; 3; 4; 5; 6]%Z; [XRec [[XFlt 7%N]; [XPtr (num TBool (XBool true))]]; XRec [[XFlt 8%N]; [XPtr (num (TS 2) (XBytes (lit "uv")))]]];
          map (fun c => XInt (Z.of_N c)) (lit "ab" ++ [0%N] ++ lit "cde")]])).
Proof. vm_compute. reflexivity. Qed.
Definition c61_array : arr pyval := mkArr (TC 16) [2; 2] [XCpx 1 2; XCpx 3 4; XCpx 5 6; XCpx 7 8]%N.
Example C61_arrays_ex : forall f r, file_writes c61_options N.of_nat 5 20 (mkFile true empty_file) [(PStr (lit "/x"), VNp CMatrix c61_array)] = (f, r) ->
  r = Ok tt /\ exists N, forall k, N <= k -> file_read default_options k key_eq f (PStr (lit "/x")) = (f, Ok (VNp CNdarray c61_array)).
Proof.
  intros f r E. assert (OK : snd (file_writes c61_options N.of_nat 5 20 (mkFile true empty_file) [(PStr (lit "/x"), VNp CMatrix c61_array)]) = Ok tt) by (vm_compute; reflexivity).
  rewrite E in OK. cbn [snd] in OK. subst r. split; [reflexivity|].
  apply (C61_arrays_back (lit "/#refs#") c61_options default_options key_eq empty_file N.of_nat 5 20 [(PStr (lit "/x"), VNp CMatrix c61_array)] f) with (c := CMatrix).
  - apply default_refs.
  - exact c61_plainly.
  - exact c61_usable.
  - vm_compute. discriminate.
  - vm_compute. reflexivity.
  - apply R_new.
  - intros p v [[= <- <-]|[]]. split; [|split; [|exact c41_free]].
    + intros cs D. rewrite (c41_path cs D). constructor; [reflexivity|constructor].
    + eapply Wr_complex; [reflexivity|reflexivity|]. cbn [a_data c61_array]. fa; eexists; eexists; reflexivity.
  - constructor; constructor.
  - exact E.
  - intros a b H1 H2 H3. lia.
  - left. reflexivity.
  - cbn [a_dt c61_array]. split; [auto|vm_compute; reflexivity].
Qed.
