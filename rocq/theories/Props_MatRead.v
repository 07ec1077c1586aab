(** Properties C42 and C43: values without Python metadata, as MATLAB stores them. *)
From Verif Require Import OptionsSpec Base PathEsc PosixPath ProcessPath Unicode UnicodeFacts Dec NdArray Value OptionsM StrConv MColl Attrs Hdf5 HeapFacts NpWrite MarshalW MarshalR FileApi ApiSpec FileFacts ReadFacts RndFacts RoundSpec MatlabSpec MatlabApi MatReadSpec MatBack Props_Round Props_Matlab.
Local Open Scope nat_scope.

(** C42: any file, whoever wrote it: where it has a MATLAB value without Python metadata
    (all the objects it is made of), reading gives the NumPy array, of the class's dtype
    and with MATLAB's dimensions, cell arrays as object arrays, structs as structured
    arrays (or dicts, with structs_as_dicts), that has every element, character and field
    in its place.  Pairs of 16-bit halves are one character ([pairs]), and then text of
    32-bit numbers has none.  Missing: the cases in [readable]. *)
Theorem C42_matlab_read_partial : forall pairs o keq s p t i m a b r1 r2,
  isabs (o_refs o) = true -> valid_path p -> denotes p t -> t = a :: r1 -> ApiSpec.refs_path o = b :: r2 -> a <> b ->
  walk (hp s) 0 t = Some i -> foreign o (hp s) i -> mat_in false (hp s) i m -> readable (o_structs_as_dicts o) pairs m -> (pairs = true -> wide_whole (hp s)) ->
  exists v N, seen (o_structs_as_dicts o) m v /\ forall n, N <= n -> file_read o n keq (mkFile true s) p = (mkFile true s, Ok v).
Proof.
  intros pairs o keq s p t i m a b r1 r2 HA V D E1 E2 NE W F M R HW. apply (read_seen pairs o keq s p t i m); auto. exists a, b, r1, r2. auto.
Qed.
Print Assumptions C42_matlab_read_partial.

(** for example, s.a = [1 2 3; 4 5 6] and s.b = 'hi' in MATLAB, with the fields in the
    order b, a *)
Definition no_filt : filt := mkFilt None None false false false.
Definition att (l : list (pystr * aval)) : attrs := fun k => assoc k l.
Definition c42_heap : heap := fun i => match i with
  | 0 => Some (mkObj [] (att []) (BGroup [(lit "s", 1)]))
  | 1 => Some (mkObj [lit "s"] (att [(k_class, AStr (lit "struct")); (k_fields, AFields [lit "b"; lit "a"])]) (BGroup [(lit "a", 2); (lit "b", 3)]))
  | 2 => Some (mkObj [lit "s"; lit "a"] (att [(k_class, AStr (lit "double"))]) (BData (mkArr (TF 8) [3; 2] (map XFlt [1; 4; 2; 5; 3; 6]%N)) no_filt))
  | 3 => Some (mkObj [lit "s"; lit "b"] (att [(k_class, AStr (lit "char")); (k_decode, AI64 2)]) (BData (mkArr (TU 2) [2; 1] (map XInt [104; 105]%Z)) no_filt))
  | _ => None
  end.
Definition c42_file : st := mkSt c42_heap 4 None false None 11 0.
Definition c42_m : mval := MStruct (Some [lit "b"; lit "a"]) [1; 1]
  [(lit "a", [MArr (lit "double") [2; 3] (map MFlt [1; 4; 2; 5; 3; 6]%N)]); (lit "b", [MArr (lit "char") [1; 2] (text (lit "hi"))])].
Lemma c42_mat : mat_in false c42_heap 1 c42_m.
Proof.
  eapply (Mat_struct false c42_heap 1 _ _ _ [(lit "a", MArr (lit "double") [2; 3] (map MFlt [1; 4; 2; 5; 3; 6]%N)); (lit "b", MArr (lit "char") [1; 2] (text (lit "hi")))]); try reflexivity.
  - repeat constructor; cbn; intuition discriminate.
  - split; [reflexivity|]. split; [repeat constructor; cbn; intuition discriminate|]. intros k. cbn. tauto.
  - constructor; [|constructor; [|constructor]]; cbn [fst snd].
    + exists 2. split; [reflexivity|]. split; [reflexivity|]. split; [eexists; eexists; split; reflexivity|].
      eapply (Mat_num false c42_heap 2 _ _ (mkArr (TF 8) [3; 2] (map XFlt [1; 4; 2; 5; 3; 6]%N))); try reflexivity; try discriminate. cbn [a_data a_dt map]. repeat (constructor; [apply N_real; cbn; auto|]). constructor.
    + exists 3. split; [reflexivity|]. split; [reflexivity|]. split; [eexists; eexists; split; reflexivity|].
      eapply (Mat_num false c42_heap 3 _ _ (mkArr (TU 2) [2; 1] (map XInt [104; 105]%Z))); try reflexivity; try discriminate. cbn [a_data a_dt map text]. repeat (constructor; [apply (N_char 2); [auto|split; [discriminate|reflexivity]]|]). constructor.
Qed.
Lemma c42_foreign : foreign default_options c42_heap 1.
Proof.
  exists (fun j => j = 1 \/ j = 2 \/ j = 3). split; [auto|]. split.
  - intros j k [-> | [-> | ->]] (ob & E & L); injection E as <-; cbn in L; intuition discriminate || intuition.
  - intros j ob [-> | [-> | ->]] E; injection E as <-; (split; [repeat constructor|]); (split; [vm_compute; discriminate|]); cbn [o_body]; auto. repeat constructor; cbn; intuition discriminate.
Qed.
Lemma c42_readable dicts : readable dicts false c42_m.
Proof.
  apply Re_struct with (us := [lit "a"; lit "b"]); [right; left; discriminate| | |].
  - repeat constructor; vm_compute; reflexivity.
  - repeat constructor; cbn; intuition discriminate.
  - constructor; [|constructor; [|constructor]]; cbn [snd]; (constructor; [|constructor]); [apply Re_num; discriminate|].
    apply (text_readable dicts false (lit "hi")). split; [repeat constructor; left; reflexivity|vm_compute; discriminate].
Qed.
Example C42_ex : exists v N, seen false c42_m v /\ forall n, N <= n -> file_read default_options n key_eq (mkFile true c42_file) (PStr (lit "/s")) = (mkFile true c42_file, Ok v).
Proof.
  assert (D : denotes (PStr (lit "/s")) [lit "s"]) by (eexists; eexists; split; vm_compute; reflexivity).
  eapply (C42_matlab_read_partial false default_options key_eq c42_file (PStr (lit "/s")) [lit "s"] 1 c42_m); try reflexivity; try exact D.
  - intros cs (g & x & D1 & D2). vm_compute in D1. injection D1 as <- <-. subst cs. repeat constructor.
  - discriminate.
  - exact c42_foreign.
  - exact c42_mat.
  - apply c42_readable.
  - intros X. discriminate X.
Qed.
(** and the character U+1F601, as MATLAB has it: two elements of a char array *)
Definition c42_pair : st := mkSt (fun i => match i with
  | 0 => Some (mkObj [] (att []) (BGroup [(lit "s", 1)]))
  | 1 => Some (mkObj [lit "s"] (att [(k_class, AStr (lit "char")); (k_decode, AI64 2)]) (BData (mkArr (TU 2) [2; 1] (map XInt [55357; 56833]%Z)) no_filt))
  | _ => None end) 2 None false None 11 0.
Definition c42_smile : mval := MArr (lit "char") [1; 2] [MInt 55357; MInt 56833].
Lemma c42_halves rs : char_rows [1; 2] [MInt 55357; MInt 56833] rs -> rs = [[55357; 56833]%N].
Proof.
  intros (R1 & R2 & R3). change (length rs = 1) in R1. destruct rs as [|r [|]]; try discriminate R1. inversion R2 as [|? ? L _]; subst. change (length r = 2) in L. destruct r as [|x [|y [|]]]; try discriminate L.
  destruct R3 as (_ & _ & R3). pose proof (R3 [0; 0] ltac:(repeat constructor)) as A. pose proof (R3 [0; 1] ltac:(repeat constructor)) as B. cbn in A, B. injection A as A. injection B as B.
  assert (x = 55357%N) by lia. assert (y = 56833%N) by lia. subst. reflexivity.
Qed.
Lemma c42_row s : row_text [55357; 56833]%N s -> s = [128513%N].
Proof.
  intros (e & z & E & H). destruct H as [|c r s C B H|x y r s X Y H]; cbn [app] in E.
  - destruct z as [|z]; cbn [repeat] in E; discriminate E.
  - injection E as E1 E2. subst c. exfalso. apply C. split; [discriminate|reflexivity].
  - injection E as E1 E2 E3. subst x y. destruct r as [|c r]; [inversion H; reflexivity|discriminate E3].
Qed.
Example C42_ex_pairs : exists N, forall n, N <= n -> file_read default_options n key_eq (mkFile true c42_pair) (PStr (lit "/s")) = (mkFile true c42_pair, Ok (VNp CNdarray (mkArr (TUni 1) [1; 1] [XStr [128513%N]]))).
Proof.
  assert (D : denotes (PStr (lit "/s")) [lit "s"]) by (eexists; eexists; split; vm_compute; reflexivity).
  assert (E : encodes [55357; 56833]%N [128513%N]) by (apply (En_pair 55357 56833 [] []); [split; reflexivity || discriminate|split; reflexivity || discriminate|constructor]).
  destruct (C42_matlab_read_partial true default_options key_eq c42_pair (PStr (lit "/s")) [lit "s"] 1 c42_smile (lit "s") (lit "#refs#") [] []) as (v & N & S & H); try reflexivity; try exact D.
  - intros cs (g & x & D1 & D2). vm_compute in D1. injection D1 as <- <-. subst cs. repeat constructor.
  - discriminate.
  - exists (fun j => j = 1). split; [reflexivity|]. split.
    + intros j k -> (ob & X & L). injection X as <-. cbn in L. intuition discriminate.
    + intros j ob -> X. injection X as <-. split; [repeat constructor|]. split; [vm_compute; discriminate|exact I].
  - eapply (Mat_num false (hp c42_pair) 1 _ _ (mkArr (TU 2) [2; 1] (map XInt [55357; 56833]%Z))); try reflexivity; try discriminate. cbn [a_data a_dt map]. repeat (constructor; [apply (N_char 2); [auto|split; [discriminate|reflexivity]]|]). constructor.
  - apply Re_char. intros rs R. rewrite (c42_halves rs R). constructor; [|constructor]. exists [128513%N]. split; [|split; [vm_compute; discriminate|intros X; discriminate X]]. exists [55357; 56833]%N, 0. split; [reflexivity|exact E].
  - intros _ i ob a f X B T C. destruct i as [|[|]]; try discriminate X; injection X as <-; cbn in B; try discriminate B. injection B as <- <-. discriminate T.
  - exists N. intros n Hn. rewrite (H n Hn). do 2 f_equal. inversion S as [|?|? ? rs ss DN R F LN| | | | | |]; subst; [exfalso|].
    + match goal with X : class_for _ = Some _ |- _ => revert X end. clear. intros X. destruct d as [|w|w|w|w|n|n| | |]; try discriminate X; do 17 (destruct w as [|w]; try discriminate X).
    + rewrite (c42_halves rs R) in F. inversion F as [|r s ? ? RT F']; subst. inversion F'; subst. rewrite (c42_row _ RT). reflexivity.
Qed.

(** a struct without fields cannot be read unless as a dict *)
Definition c42_empty : st := mkSt (fun i => match i with
  | 0 => Some (mkObj [] (att []) (BGroup [(lit "s", 1)]))
  | 1 => Some (mkObj [lit "s"] (att [(k_class, AStr (lit "struct"))]) (BGroup []))
  | _ => None end) 2 None false None 11 0.
Theorem C42_no_fields_refuted : mat_in false (hp c42_empty) 1 (MStruct None [1; 1] []) /\ walk (hp c42_empty) 0 [lit "s"] = Some 1 /\
  forall n keq, exists e, snd (file_read default_options n keq (mkFile true c42_empty) (PStr (lit "/s"))) = Err e.
Proof.
  split; [|split; [reflexivity|]].
  - apply (Mat_struct false (hp c42_empty) 1 (mkObj [lit "s"] (att [(k_class, AStr (lit "struct"))]) (BGroup [])) [] None []); try reflexivity; constructor.
  - intros n keq. destruct n; eexists; vm_compute; reflexivity.
Qed.
Print Assumptions C42_no_fields_refuted.
(** with structs_as_dicts, the arrays of the fields of a 1x2 struct array are 2x1 *)
Definition c42_two : st := mkSt (fun i => match i with
  | 0 => Some (mkObj [] (att []) (BGroup [(lit "s", 1); (lit "#refs#", 3)]))
  | 1 => Some (mkObj [lit "s"] (att [(k_class, AStr (lit "struct"))]) (BGroup [(lit "a", 2)]))
  | 2 => Some (mkObj [lit "s"; lit "a"] (att []) (BData (mkArr TRef [2; 1] [XPtr 4; XPtr 5]) no_filt))
  | 3 => Some (mkObj [lit "#refs#"] (att []) (BGroup [(lit "b", 4); (lit "c", 5)]))
  | 4 => Some (mkObj [lit "#refs#"; lit "b"] (att [(k_class, AStr (lit "double"))]) (BData (mkArr (TF 8) [1; 1] [XFlt 7%N]) no_filt))
  | 5 => Some (mkObj [lit "#refs#"; lit "c"] (att [(k_class, AStr (lit "double"))]) (BData (mkArr (TF 8) [1; 1] [XFlt 8%N]) no_filt))
  | _ => None end) 6 None false None 11 0.
Definition c42_m2 : mval := MStruct None [1; 2] [(lit "a", [MArr (lit "double") [1; 1] [MFlt 7%N]; MArr (lit "double") [1; 1] [MFlt 8%N]])].
Theorem C42_dicts_shape_refuted : mat_in false (hp c42_two) 1 c42_m2 /\
  snd (file_read (with_option default_options StructsAsDicts (OVBool true)) 20 key_eq (mkFile true c42_two) (PStr (lit "/s"))) =
  Ok (VDict MDict [(VStr (lit "a"), VNp CNdarray (mkArr TObj [2; 1]
    [XPtr (VNp CNdarray (mkArr (TF 8) [1; 1] [XFlt 7%N])); XPtr (VNp CNdarray (mkArr (TF 8) [1; 1] [XFlt 8%N]))]))]).
Proof.
  split; [|vm_compute; reflexivity].
  eapply (Mat_structs false (hp c42_two) 1 _ _ _ [2; 1] [(lit "a", [MArr (lit "double") [1; 1] [MFlt 7%N]; MArr (lit "double") [1; 1] [MFlt 8%N]])]); try reflexivity.
  - repeat constructor; cbn; intuition discriminate.
  - constructor; [|constructor]. exists 2. eexists. eexists. exists [4; 5]. split; [reflexivity|]. split; [reflexivity|]. split; [eexists; split; [reflexivity|]; intros; reflexivity|]. split; [reflexivity|]. split; [reflexivity|]. split; [reflexivity|]. cbn [snd].
    constructor; [|constructor; [|constructor]]; (split; [reflexivity|]); (split; [eexists; eexists; split; reflexivity|]).
    + eapply (Mat_num false (hp c42_two) 4 _ _ (mkArr (TF 8) [1; 1] [XFlt 7%N])); try reflexivity; try discriminate. cbn. constructor; [apply N_real; cbn; auto|constructor].
    + eapply (Mat_num false (hp c42_two) 5 _ _ (mkArr (TF 8) [1; 1] [XFlt 8%N])); try reflexivity; try discriminate. cbn. constructor; [apply N_real; cbn; auto|constructor].
Qed.
Print Assumptions C42_dicts_shape_refuted.

(** C43: written for MATLAB without Python metadata, then read, with whatever options
    and at the same place: what comes back is what MATLAB sees of the value (C41), as
    NumPy arrays (C42).  Missing: the values that are not [presentable] and [modest]. *)
Theorem C43_without_metadata_partial : forall args o0 l o ro keq s rnd tries n mdict f,
  init args = Ok o0 -> o = fold_left assign l o0 -> get o MatlabCompatible = OVBool true -> get o StorePythonMetadata = OVBool false ->
  get ro GroupForReferences = OVStr (lit "/#refs#") ->
  plain_link (o_keys_name o) -> plain_link (o_values_name o) -> o_keys_name o <> o_values_name o ->
  reachable (lit "/#refs#") s ->
  (forall p v, In (p, v) mdict -> valid_path p /\ presentable v /\ modest (o_structs_as_dicts ro) v /\ snd (file_contains (mkFile true s) p) = Ok false) ->
  ForallOrdPairs (fun x y => forall a b, denotes (fst x) a -> denotes (fst y) b -> ~ overlap a b) mdict ->
  file_writes o rnd tries n (mkFile true s) mdict = (f, Ok tt) -> no_repeat rnd (rpos s) (rpos (fl_st f)) ->
  forall p v, In (p, v) mdict ->
  exists m v' N, looks o v m /\ seen (o_structs_as_dicts ro) m v' /\ forall k, N <= k -> file_read ro k keq f p = (f, Ok v').
Proof.
  intros args o0 l o ro keq s rnd tries n mdict f HI HO HM HP HF K1 K2 KN HR OK ND E NR p v Hin.
  cbn [get] in HP, HF. injection HP as HP. injection HF as HF.
  destruct (writes_seen o ro keq s rnd tries n mdict f (matlab_forced args o0 l o HI HO HM) HP HF HR K1 K2 KN) with (p := p) (v := v) as (m & L & X); auto.
  { intros q w H. destruct (OK q w H) as (A1 & A2 & _ & A4). auto. }
  destruct (OK p v Hin) as (_ & _ & MO & _). destruct X as (v' & N & S & RD); [eapply modest_readable; eassumption|]. exists m, v', N. auto.
Qed.
Print Assumptions C43_without_metadata_partial.
(** for example *)
Definition bare_options : options := with_option default_options StorePythonMetadata (OVBool false).
Definition c43_value : pyval :=
  VDict MDict [(VStr (lit "a"), VInt (10 ^ 30)); (VStr (lit "b"), VSeq QList [VStr [104; 233]%N; VNone; VBool true]);
    (VBytes (lit "c/d"), VNp CNdarray (mkArr (TU 2) [2; 3] (map XInt [1; 2; 3; 4; 5; 6]%Z)))].
Lemma c43_presentable : presentable c43_value.
Proof.
  apply Pr_dict with (texts := [lit "a"; lit "b"; lit "c/d"]); [discriminate| |repeat constructor; cbn; intuition discriminate|]; cbn [map fst snd].
  - constructor; [constructor|]. constructor; [constructor|]. constructor; [constructor; reflexivity|]. constructor.
  - fa.
    + constructor.
    + apply Pr_seq. fa; [apply Pr_str; [fa; reflexivity|discriminate]|constructor|constructor].
    + eapply Pr_num; [reflexivity|reflexivity|]. cbn [a_data a_dt map]. fa; split; discriminate || reflexivity.
Qed.
Lemma c43_modest : modest false c43_value.
Proof.
  apply Mo_dict with (texts := [lit "a"; lit "b"; lit "c/d"]); [right; discriminate| |repeat constructor; cbn; intuition discriminate|]; cbn [map fst snd].
  - constructor; [constructor|]. constructor; [constructor|]. constructor; [constructor; reflexivity|]. constructor.
  - fa.
    + constructor. exact I.
    + apply Mo_seq. fa; [eapply Mo_text; [left; reflexivity|]; split; [fa; left; reflexivity|vm_compute; discriminate]|constructor; exact I|constructor; exact I].
    + apply Mo_num. discriminate.
Qed.
Lemma c43_ok : snd (file_writes bare_options N.of_nat 5 20 (mkFile true empty_file) [(PStr (lit "/x"), c43_value)]) = Ok tt.
Proof. vm_compute. reflexivity. Qed.
Lemma c43_opts : bare_options = fold_left assign [(StorePythonMetadata, OVBool false)] default_options /\ get bare_options MatlabCompatible = OVBool true /\ get bare_options StorePythonMetadata = OVBool false /\
  get default_options GroupForReferences = OVStr (lit "/#refs#") /\ o_keys_name bare_options = o_keys_name default_options /\ o_values_name bare_options = o_values_name default_options /\ o_structs_as_dicts default_options = false.
Proof. vm_compute. auto 10. Qed.
Example C43_ex : forall f r, file_writes bare_options N.of_nat 5 20 (mkFile true empty_file) [(PStr (lit "/x"), c43_value)] = (f, r) ->
  r = Ok tt /\ exists m v' N, looks bare_options c43_value m /\ seen false m v' /\ forall k, N <= k -> file_read default_options k key_eq f (PStr (lit "/x")) = (f, Ok v').
Proof.
  intros f r E. pose proof c43_ok as OK. rewrite E in OK. cbn [snd] in OK. subst r. split; [reflexivity|].
  destruct c43_opts as (B1 & B2 & B3 & B4 & B5 & B6 & B7). rewrite <- B7.
  eapply (C43_without_metadata_partial default_args default_options [(StorePythonMetadata, OVBool false)] bare_options default_options key_eq empty_file N.of_nat 5 20 [(PStr (lit "/x"), c43_value)] f c41_init B1 B2 B3 B4).
  - rewrite B5. exact (proj1 (proj2 default_usable)).
  - rewrite B6. exact (proj2 (proj2 default_usable)).
  - rewrite B5, B6. exact c41_names.
  - exact (R_new _).
  - intros p v [[= <- <-]|[]]. split; [intros cs D; rewrite (c41_path cs D); constructor; [reflexivity|constructor]|]. split; [exact c43_presentable|]. split; [rewrite B7; exact c43_modest|exact c41_free].
  - constructor; constructor.
  - exact E.
  - intros a b H1 H2 H3. lia.
  - left. reflexivity.
Qed.
