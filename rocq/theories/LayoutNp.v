(** The objects in the file after a write, continued: numpy objects, dicts and every value. *)
From Verif Require Import Base PathEsc PathEscFacts PosixPath PosixFacts ProcessPathFacts Unicode UnicodeFacts Dec NdArray Value OptionsM StrConv ComplexM Attrs NpDims MColl Hdf5 HeapFacts NpWrite NpRead MarshalW MarshalR FrameFacts WriteFrame ReadFacts RoundSpec RoundNp RoundHeap RoundWrite RoundVal RoundDict Plan Layout.
Local Open Scope nat_scope.

(** ** attributes asked for: no name twice, and never H5PATH *)
Definition good_reqs (l : list (pystr * areq)) : Prop := NoDup (map fst l) /\ ~ In h5path (map fst l).
Lemma good_dput k v l : k <> h5path -> good_reqs l -> good_reqs (dput k v l).
Proof. intros N [A B]. split; [apply dput_nodup; exact A|]. rewrite dput_keys. intuition congruence. Qed.
Ltac good := repeat first [assumption | apply good_dput; [vm_compute; discriminate|] | match goal with |- good_reqs (if ?c then _ else _) => destruct c end | match goal with |- good_reqs (match ?c with _ => _ end) => destruct c end].
Lemma np_attrs_good o v ts pre w stored : good_reqs pre -> good_reqs (np_attrs o v ts pre w stored).
Proof.
  intros H. unfold np_attrs. destruct v as [c a]. cbv zeta. 
  match goal with |- context [if np_empty a then _ else ?x] => assert (A2 : good_reqs x) by (destruct (w || fields_anyway o a); good); set (at2 := x) in * end. clearbody at2.
  match goal with |- context [if o_store_python_metadata o && negb (mem_str (lit "Python.Type") (map fst ?x)) then _ else _] => assert (A4 : good_reqs x); [|set (at4 := x) in *; clearbody at4] end.
  { match goal with |- context [dput (lit "MATLAB_class") (QString (lit "struct")) ?x] => assert (A3 : good_reqs x) by good; set (at3 := x) in *; clearbody at3 end. good. }
  good.
Qed.
Lemma dict_attrs_good o ts plain codes : good_reqs (dict_attrs o ts plain codes).
Proof.
  unfold dict_attrs. cbv zeta.
  match goal with |- context [dput (lit "MATLAB_class") _ (if _ then match _ with Some _ => _ | None => ?x end else _)] => assert (A1 : good_reqs x); [|set (at1 := x) in *; clearbody at1] end.
  { destruct (o_store_python_metadata o); [|split; [constructor|intros []]]. destruct codes; (split; [repeat constructor; cbn [In map fst]; intuition discriminate|]); vm_compute; intuition discriminate. }
  good.
Qed.
Lemma good_fresh l : good_reqs l -> fresh_attrs l h5path = None.
Proof.
  intros [_ H]. unfold fresh_attrs. destruct (assoc h5path l) as [q|] eqn:E; [|reflexivity]. apply assoc_In in E. destruct H. apply in_map_iff. exists (h5path, q). auto.
Qed.

(** ** what is stored of a numpy object *)
Lemma prep_gen wo c a b : np_prepare wo (c, a) = Ok b ->
  (a_dt b = TObj -> a_dt a = TObj /\ forall e, In e (a_data b) -> In e (a_data a)) /\
  (is_struct (a_dt b) = true -> is_cpx (a_dt a) = true \/ a_dt b = a_dt a /\ forall e, In e (a_data b) -> In e (a_data a)).
Proof.
  intros W. unfold np_prepare in W.
  destruct (store_str wo c (store_bytes wo a)) as [b2|] eqn:E2; [|discriminate]. cbn [bindr] in W.
  set (b3 := write_dims wo b2) in *. set (b4 := if dt_eqb (a_dt b3) TBool && o_bools_uint8 wo then _ else b3) in *.
  set (b5 := if o_shape_empty wo && np_empty a then _ else b4) in *.
  assert (D2 : b2 = a \/ (a_dt b2 <> TObj /\ is_struct (a_dt b2) = false /\ is_cpx (a_dt b2) = false)).
  { destruct (a_dt a) eqn:Ed.
    all: try (left; unfold store_bytes in E2; rewrite Ed in E2; unfold store_str in E2; rewrite Ed in E2; injection E2 as <-; reflexivity).
    - right. assert (X : a_dt (store_bytes wo a) = TS n \/ a_dt (store_bytes wo a) = TU 2).
      { unfold store_bytes. rewrite Ed. destruct (o_bytes_utf16 wo); [|left; exact Ed]. destruct (nbytes a =? 0); [right; reflexivity|].
        match goal with |- context [if ?c then _ else _] => destruct c end; [right; reflexivity|left; exact Ed]. }
      assert (Y : b2 = store_bytes wo a) by (unfold store_str in E2; destruct X as [X|X]; rewrite X in E2; congruence).
      rewrite Y. destruct X as [X|X]; rewrite X; repeat split; discriminate.
    - right. assert (X : store_bytes wo a = a) by (unfold store_bytes; rewrite Ed; reflexivity). rewrite X in E2.
      destruct (store_str_flat wo c a n b2 Ed E2) as [_ [Y|Y]]; rewrite Y; repeat split; discriminate. }
  assert (E3 : a_dt b3 = a_dt b2) by apply write_dims_dt.
  assert (D5 : (b5 = b3 /\ b2 = a) \/ (a_dt b5 <> TObj /\ is_struct (a_dt b5) = false /\ is_cpx (a_dt b5) = false)).
  { unfold b5. destruct (o_shape_empty wo && np_empty a); [right; cbn; repeat split; discriminate|].
    unfold b4. destruct (dt_eqb (a_dt b3) TBool && o_bools_uint8 wo); [right; cbn; repeat split; discriminate|].
    destruct D2 as [-> |D2]; [left; auto|right; rewrite E3; exact D2]. }
  destruct D5 as [[X5 ->]|(N1 & N2 & N3)].
  - rewrite X5 in *. destruct (is_cpx (a_dt b3)) eqn:Ec.
    + assert (X : is_struct (a_dt b) = true).
      { unfold encode_complex in W. destruct (a_dt b3); try discriminate. destruct (eqb_str _ _); [discriminate|]. injection W as <-. reflexivity. }
      split; [intros E; rewrite E in X; discriminate|]. intros _. left. rewrite <- E3. exact Ec.
    + injection W as <-. split; [intros E; rewrite E3 in E; split; [exact E|intros e; apply write_dims_in]|]. intros _. right. split; [exact E3|intros e; apply write_dims_in].
  - rewrite N3 in W. injection W as <-. split; [intros E; congruence|congruence].
Qed.
Lemma mapr_map {A B C} (g : A -> B) (f : B -> res C) l : mapr f (map g l) = mapr (fun x => f (g x)) l.
Proof. induction l as [|x l IH]; [reflexivity|]. cbn [map mapr]. rewrite IH. reflexivity. Qed.
Lemma iterM_map {A B} (g : A -> B) (f : B -> M unit) l : forall s, iterM f (map g l) s = iterM (fun x => f (g x)) l s.
Proof. induction l as [|x l IH]; intros s; [reflexivity|]. cbn [map iterM]. unfold bindm. destruct (f (g x) s) as [s1 [u|e]]; [apply IH|reflexivity]. Qed.
Lemma iterM_ext {A} (f g : A -> M unit) l : (forall x s, f x s = g x s) -> forall s, iterM f l s = iterM g l s.
Proof. intros H. induction l as [|x l IH]; intros s; [reflexivity|]. cbn [iterM]. unfold bindm. rewrite H. destruct (g x s) as [s1 [u|e]]; [apply IH|reflexivity]. Qed.
Lemma in_numbered {A} (l : list A) n x : In (n, x) (combine (seq 0 (length l)) l) -> nth_error l n = Some x.
Proof.
  intros H. assert (G : forall (l : list A) k, In (n, x) (combine (seq k (length l)) l) -> k <= n /\ nth_error l (n - k) = Some x).
  { clear. induction l as [|y l IH]; intros k H; [destruct H|]. cbn [length seq combine] in H. destruct H as [[= -> ->]|H].
    - rewrite Nat.sub_diag. auto.
    - destruct (IH (S k) H) as [H1 H2]. split; [lia|]. replace (n - k) with (S (n - S k)) by lia. exact H2. }
  destruct (G l 0 H) as [_ X]. rewrite Nat.sub_0_r in X. exact X.
Qed.
Lemma elem_val_tidy (l : list (elem pyval)) (P : pyval -> Prop) : (forall e, In e l -> P (elem_val e)) -> Forall P (map elem_val l).
Proof. intros H. rewrite Forall_map, Forall_forall. exact H. Qed.

Section LayoutNp.
Variables (o : options) (rnd : nat -> N) (tries : nat).
Notation rp := (rp o). Notation ra := (ra o). Notation wf := (wf o). Notation frame := (frame o rnd). Notation fut := (fut rnd).
Notation okt := (okt o). Notation wspec := (wspec o rnd). Notation reg := (reg o rnd). Notation elem_reg := (elem_reg o rnd). Notation unreserved := (unreserved o rnd).
Notation rep := (rep o). Notation marked := (marked o). Notation clear := (clear o). Notation laid := (laid o). Notation shut := (shut o). Notation sub := (sub o).
Hypotheses (Hkn : o_keys_name o = [] \/ clean (o_keys_name o)) (Hvn : o_values_name o = [] \/ clean (o_values_name o)) (Hkv : o_keys_name o <> o_values_name o).
Hypothesis HI : inj_rnd rnd.

Lemma touch_laid s P i T f ob a : T <> LCanon -> laid (hp s) P i T -> hp s i = Some ob -> (forall k, a k = f (root_attrs T) k) ->
  laid (hp (set_hp s (upd (hp s) i (with_attrs ob a)))) P i (map_attrs f T).
Proof.
  intros NC (A & B & Q & C & D & K & E) Ei Ha. cbn [hp set_hp]. set (h' := upd (hp s) i (with_attrs ob a)).
  assert (O : forall j, j <> i -> h' j = hp s j) by (intros j N; apply upd_other; exact N).
  assert (I : h' i = Some (with_attrs ob a)) by apply upd_same.
  assert (SK : same_kind (o_body ob) (o_body (with_attrs ob a))) by (cbn; destruct (o_body ob); cbn; auto).
  assert (LV : forall j, live h' j = live (hp s) j) by (intros j; apply (change_live s i ob (with_attrs ob a) Ei eq_refl SK)).
  assert (NM : forall j, name_of h' j = name_of (hp s) j).
  { intros j. destruct (Nat.eq_dec j i) as [->|N]; [unfold name_of; rewrite I, Ei; reflexivity|unfold name_of; rewrite O by exact N; reflexivity]. }
  split; [rewrite LV; exact A|]. split; [rewrite NM; exact B|]. exists Q. split; [|split; [exact D|split]].
  - intros j Hj. rewrite LV, NM. assert (N : j <> i) by (intros ->; exact (D Hj)). destruct (C j Hj) as (C1 & C2 & C3).
    split; [exact C1|]. split; [|eapply kids_ext; [exact C3|apply O; exact N]]. destruct C2 as [C2|[C2 C4]]; [left; exact C2|right]. split; [exact C2|]. unfold is_canonical in *. rewrite O by exact N. exact C4.
  - destruct K as (ob' & K1 & K2 & K3). exists (with_attrs ob a). split; [exact I|]. split.
    + intros k m Hm. apply (K2 k m). unfold links in *. rewrite I in Hm. rewrite Ei. exact Hm.
    + intros x y m Hb Hm. apply (K3 x y m); [|exact Hm]. assert (ob' = ob) by congruence. subst. exact Hb.
  - eapply (rep_root o (hp s)); [exact NC|exact E|exact D|exact O|exact Ei|exact I|reflexivity|reflexivity|exact Ha].
Qed.

Section Marsh.
Variables (wr : nat -> pystr -> pyval -> M (option nat)) (pl : pyval -> res (option ltree)).
Hypotheses (Hwr : wspec wr) (Hl : lspec o rnd wr pl).

Lemma put_new_f s g nm d s' i : okt s g nm -> lookup (hp s) g nm = None -> put_dataset o g nm d s = (s', Ok i) ->
  new_link g nm no_attrs (BData (mkArr (stored_dt (a_dt d)) (a_shape d) (a_data d)) (filt_of (np_filters o (a_shape d) (size d * itemsize (a_dt d))))) s = (s', Ok i).
Proof.
  intros K L E. unfold put_dataset in E. cbv zeta in E. apply bind_ok in E. destruct E as (s1 & r & E1 & E).
  assert (s1 = s /\ r = None) as [-> ->].
  { unfold catch in E1. destruct (get_name g nm s (k_name _ _ _ _ K)) as [[e X]|(C & NE & X)]; rewrite X in E1; [apply ret_ok in E1; tauto|].
    rewrite L in E1. injection E1 as <- <-. auto. }
  unfold create_dataset in E. destruct (h5_able (a_dt d)); [|discriminate]. exact E.
Qed.

Lemma subs_union h P p js Ts : Forall2 (sub h P p) js Ts ->
  exists Q, shut h P Q /\ Forall2 (fun j T => Q j /\ rep h Q (marked p) j T) js Ts.
Proof.
  induction 1 as [|j T js Ts (Q1 & A & B & C) _ (Q & I1 & I2)]; [exists (fun _ => False); split; [intros j []|constructor]|].
  exists (fun x => Q1 x \/ Q x). split; [apply shut_union; assumption|]. constructor.
  - split; [left; exact A|]. eapply rep_mono; [|exact C]. intros x Hx; left; exact Hx.
  - eapply Forall2_imp; [|exact I2]. cbn. intros x y [X1 X2]. split; [right; exact X1|]. eapply rep_mono; [|exact X2]. intros z Hz; right; exact Hz.
Qed.

Lemma np_data_laid s g nm c a ts b s' r : wf s -> okt s g nm -> lookup (hp s) g nm = None -> unreserved s (name_of (hp s) g ++ [nm]) -> tidy (VNp c a) ->
  np_prepare o (c, a) = Ok b ->
  (let* d := (match a_dt b with TObj => write_object_array o rnd tries wr b | _ => ret (plain_data b) end) in
   let* i := put_dataset o g nm d in
   let* t := gets (fun s => dset_dtype (hp s) i) in
   let* _ := sync_attrs i (np_attrs o (c, a) ts [] false t) true in
   ret (Some i)) s = (s', Ok r) ->
  exists i T, r = Some i /\ T <> LCanon /\ root_attrs T h5path = None /\ laid (hp s') (reg s (name_of (hp s) g ++ [nm])) i T /\
    plan_data o pl (c, a) ts b = Ok (Some T).
Proof.
  intros W K L U HT E0 E. set (t := name_of (hp s) g ++ [nm]) in *.
  destruct (prep_gen o c a b E0) as (PO & _).
  assert (HE : a_dt b = TObj -> Forall tidy (map elem_val (a_data b))).
  { intros EB. destruct (PO EB) as [_ SUB]. inversion HT as [v X| c' a' H1 H2| | |]; subst; [destruct X|]. apply elem_val_tidy. intros e He. rewrite Forall_forall in H1. apply H1, SUB, He. }
  apply bind_ok in E. destruct E as (s1 & d & E1 & E).
  set (f := filt_of (np_filters o (a_shape b) (size b * itemsize (a_dt b)))).
  set (PL := plan_data o pl (c, a) ts b).
  assert (A1 : wf s1 /\ frame (pre t) s s1 /\ (forall j, In (XPtr j) (a_data d) -> ptr_ok o (hp s1) j) /\ lookup (hp s1) g nm = None /\
     filt_of (np_filters o (a_shape d) (size d * itemsize (a_dt d))) = f /\
     exists Q mk ty, shut (hp s1) (elem_reg s) Q /\ (forall j, In (XPtr j) (a_data d) -> Q j) /\
       a_dt (h5py_present (mkArr (stored_dt (a_dt d)) (a_shape d) (a_data d))) = ty /\
       PL = Ok (Some (mk (fresh_attrs (np_attrs o (c, a) ts [] false (Some ty))))) /\ (forall x, mk x <> LCanon /\ root_attrs (mk x) = x) /\
       (forall h m i at_, (forall j, Q j -> h j = hp s1 j) -> obj_is h i (m at_) (BData (mkArr (stored_dt (a_dt d)) (a_shape d) (a_data d)) f) -> rep h Q m i (mk at_))).
  { destruct (match a_dt b with TObj => true | _ => false end) eqn:EO.
    - assert (EB : a_dt b = TObj) by (destruct (a_dt b); try discriminate; reflexivity). specialize (HE EB). unfold PL, plan_data. cbv zeta. fold f. rewrite EB in E1 |- *.
      destruct (object_array_keeps o rnd tries Hkn Hvn wr Hwr (pre t) s b W) as (W1 & F1 & P1). rewrite E1 in *. cbn [fst snd] in *.
      destruct (object_array_laid o rnd tries Hkn Hvn HI wr pl Hwr Hl b s s1 d W HE E1) as (js & Ts & -> & HM & HJ). specialize (P1 _ eq_refl).
      split; [exact W1|]. split; [exact F1|]. split; [exact P1|]. split; [|split].
      + destruct (object_array_keeps o rnd tries Hkn Hvn wr Hwr (fun _ => False) s b W) as (_ & F0 & _). rewrite E1 in F0. cbn [fst] in F0.
        destruct (lookup (hp s1) g nm) as [j|] eqn:Lj; [|reflexivity]. exfalso.
        assert (AT : at_target s1 (name_of (hp s) g) g).
        { apply (at_target_frame o rnd (fun _ => False) s); [exact F0|tauto|]. split; [apply live_exists with (o := o); [exact W|apply (k_live _ _ _ _ K)]|].
          split; [apply (k_live _ _ _ _ K)|reflexivity]. }
        destruct (link_child o s1 (name_of (hp s) g) g nm j W1 AT Lj) as (B1 & B2 & B3). fold t in B3.
        destruct (hp s j) as [ob|] eqn:Ej.
        * assert (X : hp s j <> None) by congruence. destruct (f_obj _ _ _ _ _ F0 j X) as (_ & Y & _). pose proof (f_dead _ _ _ _ _ F0 j X B2) as Lv.
          apply live_walk in Lv. rewrite <- Y, B3 in Lv. unfold t in Lv. rewrite walk_snoc in Lv. pose proof (proj1 (live_walk _ _) (k_live _ _ _ _ K)) as LG. rewrite LG in Lv. congruence.
        * destruct (f_born _ _ _ _ _ F0 j Ej B2) as [[]|[X|(y & Y1 & Y2)]]; rewrite B3 in *; [apply (proj1 U X)|apply (proj2 U y Y2 Y1)].
      + unfold f. rewrite EB. reflexivity.
      + destruct (subs_union (hp s1) _ _ js Ts HJ) as (Q & S1 & S2).
        exists Q, (fun x => LRefs x (a_shape b) f Ts), TRef. split; [exact S1|]. split; [|split; [reflexivity|split; [rewrite HM; reflexivity|split; [intros x; split; [discriminate|reflexivity]|]]]].
        * cbn [a_data]. intros j Hj. apply in_map_iff in Hj. destruct Hj as (x & [= ->] & Hx). clear - S2 Hx. induction S2 as [|y T l m [A _] _ IH]; [destruct Hx|destruct Hx as [->|Hx]]; auto.
        * intros h m i at_ HQ OB. eapply R_refs; [exact OB|]. eapply Forall2_imp; [|exact S2]. cbn. intros j T [X1 X2]. split; [exact X1|]. eapply rep_ext; [exact X2|exact HQ|apply HQ; exact X1].
    - assert (E1' : (s1, Ok d) = (s, Ok (plain_data b))) by (rewrite <- E1; destruct (a_dt b); try discriminate; reflexivity).
      injection E1' as -> ->. split; [exact W|]. split; [apply frame_refl; exact W|]. split; [|split; [exact L|split; [reflexivity|]]].
      + intros j Hj. cbn in Hj. apply in_map_iff in Hj. destruct Hj as (x & X & _). destruct (noptr_ptr _ _ X).
      + set (d' := mkArr (stored_dt (a_dt b)) (a_shape b) (map noptr (a_data b))).
        exists (fun _ => False), (fun x => LData x d' f), (a_dt (h5py_present d')). split; [intros j []|]. split; [|split; [reflexivity|split; [|split; [intros x; split; [discriminate|reflexivity]|]]]].
        * intros j Hj; cbn in Hj; apply in_map_iff in Hj; destruct Hj as (x & X & _); destruct (noptr_ptr _ _ X).
        * unfold PL, plan_data. cbv zeta. fold d' f. destruct (a_dt b); try discriminate; reflexivity.
        * intros h m i at_ _ OB. constructor. exact OB. }
  clearbody f PL. destruct A1 as (W1 & F1 & P1 & L1 & EF & Q & mk & ty & Q1 & Q2 & Q3 & Q4 & Q5 & Q6).
  destruct (okt_frame o rnd _ _ _ _ _ W F1 (okt_own s g nm) K) as [K1 N1].
  apply bind_ok in E. destruct E as (s2 & i & E2 & E). pose proof (put_new_f s1 g nm d s2 i K1 L1 E2) as E2'. rewrite EF in E2'.
  set (d' := mkArr (stored_dt (a_dt d)) (a_shape d) (a_data d)) in *.
  destruct (fresh_link o rnd s1 g nm no_attrs (BData d' f) s2 i W1 K1) as (W2 & F2 & A2 & O2); [exact P1|exact E2'|]. rewrite N1 in F2, A2, O2. fold t in F2, A2, O2.
  apply bind_ok in E. destruct E as (s2' & ty' & E3 & E). apply gets_ok in E3. destruct E3 as [-> ->].
  assert (ET : dset_dtype (hp s2) i = Some ty) by (unfold dset_dtype; rewrite O2; cbn [o_body]; rewrite Q3; reflexivity). rewrite ET in E.
  apply bind_ok in E. destruct E as (s3 & [] & E4 & E). apply ret_ok in E. destruct E as [-> ->].
  assert (GR : good_reqs (np_attrs o (c, a) ts [] false (Some ty))) by (apply np_attrs_good; split; [constructor|intros []]).
  destruct (sync_stored s2 i _ _ s3 O2 eq_refl (proj1 GR) E4) as (at_ & -> & HA).
  set (ob := with_attrs (mkObj t no_attrs (BData d' f)) at_) in *.
  assert (FC : frame (pre t) s2 (set_hp s2 (upd (hp s2) i ob))).
  { eapply frame_change; [exact W2|exact O2|reflexivity|exact I|]. destruct A2 as (_ & _ & ->). apply pre_refl. }
  assert (FE : frame (pre t) s1 (set_hp s2 (upd (hp s2) i ob))) by (eapply frame_trans; eassumption).
  pose proof (elem_clear o rnd s t U) as CL. assert (NR : ~ pre t ra) by apply (proj1 U).
  pose proof (shut_frame o rnd _ _ _ _ _ FE CL NR Q1) as Q1'.
  exists i, (mk (fresh_attrs (np_attrs o (c, a) ts [] false (Some ty)))). destruct (Q5 (fresh_attrs (np_attrs o (c, a) ts [] false (Some ty)))) as [Z1 Z2].
  split; [reflexivity|]. split; [exact Z1|]. split; [rewrite Z2; apply good_fresh; exact GR|]. split; [|exact Q4].
  assert (LI : live (upd (hp s2) i ob) i = true).
  { rewrite (change_live s2 i (mkObj t no_attrs (BData d' f)) ob O2 eq_refl I). apply A2. }
  cbn [hp set_hp] in *. assert (NI : name_of (upd (hp s2) i ob) i = t) by (unfold name_of; rewrite upd_same; reflexivity).
  split; [exact LI|]. split; [left; rewrite NI; apply pre_refl|]. exists Q. split; [eapply shut_weaken; [|exact Q1']; intros p Hp; right; exact Hp|].
  split; [|split].
  - intros Qi. destruct (Q1' i Qi) as (_ & [(x & X1 & X2)|[X _]] & _); rewrite NI in *; [apply (proj2 U x X2 X1)|apply NR; rewrite X; apply pre_refl].
  - exists ob. split; [apply upd_same|]. split; [unfold links; rewrite upd_same; intros k m []|]. intros x y m [= <- <-] Hm. apply Q2. exact Hm.
  - apply Q6; [|exists ob; split; [apply upd_same|]; split; [exact HA|reflexivity]]. intros j Hj. destruct (shut_same o rnd _ _ _ _ _ j FE CL NR Q1 Hj) as [X _]. exact X.
Qed.

Lemma new_group s g nm s1 i : wf s -> okt s g nm -> lookup (hp s) g nm = None -> unreserved s (name_of (hp s) g ++ [nm]) -> open_group g nm s = (s1, Ok i) ->
  wf s1 /\ frame (pre (name_of (hp s) g ++ [nm])) s s1 /\ at_target s1 (name_of (hp s) g ++ [nm]) i /\ hp s1 i = Some (mkObj (name_of (hp s) g ++ [nm]) no_attrs (BGroup [])) /\
  unreserved s1 (name_of (hp s) g ++ [nm]).
Proof.
  intros W K L U E. assert (E' : new_link g nm no_attrs (BGroup []) s = (s1, Ok i)).
  { unfold open_group in E. apply bind_ok in E. destruct E as (sa & x & Ea & E).
    destruct (get_name g nm s (k_name _ _ _ _ K)) as [[e X]|(_ & _ & X)]; rewrite X in Ea; [discriminate|]. rewrite L in Ea. injection Ea as <- <-. exact E. }
  destruct (fresh_link o rnd s g nm no_attrs (BGroup []) s1 i W K eq_refl E') as (W1 & F1 & A1 & O1). repeat (split; [assumption|]). eapply unreserved_frame; eassumption.
Qed.

(** the attributes given to the members of a structured array *)
Section Field.
Variables (single : bool) (t : list pystr) (i : nat).
Definition field_post (j : nat) : M unit :=
  let* p := gets (fun s => name_text (name_of (hp s) i)) in
  sync_attrs j (if o_matlab_compatible o then [(lit "H5PATH", QString p)] else []) (negb single).
Definition field_keep (a : attrs) : attrs := if single then a else no_attrs.
Lemma field_post_ok s1 s2 j ob : hp s1 j = Some ob -> o_attrs ob h5path = None -> name_of (hp s1) i = t -> field_post j s1 = (s2, Ok tt) ->
  exists a, s2 = set_hp s1 (upd (hp s1) j (with_attrs ob a)) /\ forall k, a k = marked t (field_keep (o_attrs ob)) k.
Proof.
  intros Ej H5 Ni E. unfold field_post in E. apply bind_ok in E. destruct E as (s3 & p & E1 & E). apply gets_ok in E1. destruct E1 as [-> ->]. rewrite Ni in E.
  unfold sync_attrs, attrs_of, set_attrs in E. rewrite Ej in E. unfold Plan.marked, field_keep. destruct (o_matlab_compatible o).
  - unfold set_attributes_all in E. cbn [put_attrs] in E. destruct (put_attr (o_attrs ob) (lit "H5PATH") (QString (name_text t)) (o_attrs ob)) as [a'|] eqn:PA; [|discriminate].
    injection E as <-. eexists. split; [reflexivity|]. unfold put_attr in PA. cbn [req_val] in PA. destruct (ascii_bytes (name_text t)) as [x|] eqn:AB; [|discriminate]. apply ascii_bytes_inv in AB. destruct AB as [-> _].
    cbn [bindr] in PA. fold h5path in PA. rewrite H5 in PA. injection PA as <-. intros k. cbn [map fst]. change (lit "H5PATH") with h5path. unfold set_attr. destruct (eqb_str_spec k h5path) as [->|N].
    + change [72%N; 53%N; 80%N; 65%N; 84%N; 72%N] with h5path. rewrite eqb_str_refl. cbn. rewrite andb_false_r. reflexivity.
    + change [72%N; 53%N; 80%N; 65%N; 84%N; 72%N] with h5path. apply eqb_str_neq in N. rewrite N.
      destruct single; reflexivity.
  - unfold set_attributes_all in E. cbn [put_attrs] in E. injection E as <-. eexists. split; [reflexivity|]. intros k. cbn [map mem_str]. unfold del_attr.
    destruct (eqb_str_spec k h5path) as [->|N]; destruct single; cbn; auto.
Qed.
Lemma field_keep_ext a b : (forall k, a k = b k) -> forall k, field_keep a k = field_keep b k.
Proof. unfold field_keep. intros H k. destruct single; auto. Qed.
End Field.

Lemma field_tidy b nf : (forall e, In e (a_data b) -> forall cols n f, e = XRec cols -> nth_error (struct_fields (a_dt b)) n = Some f -> tidy (field_item (fst (snd f)) (snd (snd f)) (nth n cols []))) ->
  In nf (combine (seq 0 (length (struct_fields (a_dt b)))) (struct_fields (a_dt b))) -> tidy (field_value o b (fst nf) (snd (snd nf))).
Proof.
  intros H Hnf. destruct nf as [n f]. apply in_numbered in Hnf. cbn [fst snd]. unfold field_value. cbv zeta.
  assert (HC : forall v, In v (column n (snd f) (a_data b)) -> tidy v).
  { intros v Hv. unfold column in Hv. apply in_map_iff in Hv. destruct Hv as (e & <- & He). destruct e; try (apply T_atom; exact I). exact (H (XRec fields) He fields n f eq_refl Hnf). }
  set (col := if o_reverse o then _ else _).
  assert (HD : forall e, In e (a_data col) -> exists v, e = XPtr v /\ tidy v).
  { intros e He. assert (X : In e (map XPtr (column n (snd f) (a_data b)))).
    { unfold col in He. destruct (o_reverse o); [|exact He]. cbn [tr a_data] in He. apply transpose_in in He. exact He. }
    apply in_map_iff in X. destruct X as (v & <- & Hv). eauto. }
  assert (HT : a_dt col = TObj) by (unfold col; destruct (o_reverse o); reflexivity).
  destruct (prod (a_shape b) =? 1).
  - destruct (a_data col) as [|e l]; [apply T_atom; exact I|]. destruct (HD e (or_introl eq_refl)) as (v & -> & Hv). exact Hv.
  - apply T_np; [rewrite Forall_forall; intros e He; destruct (HD e He) as (v & -> & Hv); exact Hv|]. rewrite HT. discriminate.
Qed.

Lemma struct_laid s g nm c a ts b s' r : wf s -> okt s g nm -> lookup (hp s) g nm = None -> unreserved s (name_of (hp s) g ++ [nm]) -> tidy (VNp c a) ->
  np_prepare o (c, a) = Ok b -> as_group o a (a_dt b) = true ->
  (let* i := write_struct o wr g nm b in
   let pre := if o_matlab_compatible o then [(lit "MATLAB_class", QPyStr (lit "struct"))] else [] in
   let* _ := sync_attrs i (np_attrs o (c, a) ts pre true None) true in
   ret (Some i)) s = (s', Ok r) ->
  exists i T, r = Some i /\ T <> LCanon /\ root_attrs T h5path = None /\ laid (hp s') (reg s (name_of (hp s) g ++ [nm])) i T /\
    (do l <- mapr (plan_field o pl b) (combine (seq 0 (length (struct_fields (a_dt b)))) (struct_fields (a_dt b)));
      let pre := if o_matlab_compatible o then [(lit "MATLAB_class", QPyStr (lit "struct"))] else [] in
      Ok (Some (LGroup (fresh_attrs (np_attrs o (c, a) ts pre true None)) (somes l)))) = Ok (Some T).
Proof.
  intros W K L U HT E0 AG E. set (t := name_of (hp s) g ++ [nm]) in *.
  assert (FT : NoDup (map fst (struct_fields (a_dt b))) /\ forall e, In e (a_data b) -> forall cols n f, e = XRec cols -> nth_error (struct_fields (a_dt b)) n = Some f -> tidy (field_item (fst (snd f)) (snd (snd f)) (nth n cols []))).
  { unfold as_group in AG. apply andb_true_iff in AG. destruct AG as [AG _]. apply andb_true_iff in AG. destruct AG as [S1 S2]. destruct (prep_gen o c a b E0) as (_ & PS).
    destruct (PS S1) as [C|[SD SUB]]; [rewrite C in S2; discriminate|]. rewrite SD in *. destruct (a_dt a) as [| | | | | | | | |fs] eqn:Ea; try discriminate.
    inversion HT as [v X| c' a' H1 H2| | |]; subst; [destruct X|]. destruct (H2 fs Ea) as [H3 H4]. split; [exact H3|]. intros e He cols n f -> Hn. apply (H4 cols n f); [apply SUB; exact He|exact Hn]. }
  destruct FT as [ND FT]. set (fs := struct_fields (a_dt b)) in *. set (nfs := combine (seq 0 (length fs)) fs) in *.
  set (single := prod (a_shape b) =? 1) in *.
  apply bind_ok in E. destruct E as (s4 & i & E1 & E). cbv zeta in E.
  unfold write_struct in E1. cbv zeta in E1. fold fs nfs in E1. apply bind_ok in E1. destruct E1 as (s1 & i' & E1 & E2).
  destruct (new_group s g nm s1 i' W K L U E1) as (W1 & F1 & A1 & O1 & U1). fold t in F1, A1, O1, U1.
  apply bind_ok in E2. destruct E2 as (s2 & [] & E2 & E3).
  assert (L1 : links (hp s1) i' = []) by (unfold links; rewrite O1; reflexivity).
  assert (s2 = s1) as ->. { destruct (o_delete_unused o); [rewrite prune_empty in E2 by exact L1; congruence|apply ret_ok in E2; tauto]. }
  apply bind_ok in E3. destruct E3 as (s3 & [] & E3 & E4). apply ret_ok in E4. destruct E4 as [-> ->].
  set (kvs := map (fun nf : nat * (pystr * (dt * list nat)) => (escaped (fst (snd nf)), field_value o b (fst nf) (snd (snd nf)))) nfs).
  assert (E3' : iterM (step wr i' (field_post single i')) kvs s1 = (s3, Ok tt)).
  { unfold kvs. rewrite iterM_map, <- E3. apply iterM_ext. intros [n [name fd]] sx. reflexivity. }
  assert (KF : map fst kvs = map escaped (map fst fs)).
  { unfold kvs, nfs. rewrite map_map. cbn [fst]. rewrite <- (map_map (fun nf : nat * (pystr * (dt * list nat)) => fst (snd nf)) escaped). f_equal.
    rewrite <- (map_map snd fst). rewrite combine_snd by apply seq_length. reflexivity. }
  assert (NK : NoDup (map fst kvs)).
  { rewrite KF. clear - ND. induction ND as [|x l H _ IH]; constructor; auto. intros X. apply in_map_iff in X. destruct X as (u & Eu & Hu). apply escaped_inj in Eu. subst u. exact (H Hu). }
  assert (CK : Forall (fun kv => fst kv = [] \/ clean (fst kv)) kvs).
  { rewrite <- (Forall_map fst (fun x => x = [] \/ clean x)), KF, Forall_map, Forall_forall. intros x _. destruct x as [|y x]; [left; vm_compute; reflexivity|right; apply escaped_clean; discriminate]. }
  assert (TK : Forall tidy (map snd kvs)).
  { unfold kvs. rewrite map_map, Forall_map, Forall_forall. intros nf Hnf. apply field_tidy; [exact FT|exact Hnf]. }
  assert (G1 : is_group (hp s1) i' = true) by (unfold is_group; rewrite O1; reflexivity).
  assert (N1 : forall k, In k (map fst kvs) -> lookup (hp s1) i' k = None) by (intros k _; unfold lookup; rewrite L1; reflexivity).
  destruct (steps_laid o rnd Hkn Hvn wr pl Hwr Hl t i' (field_keep single) (field_post single i') (field_keep_ext single)
     (fun x y j ob => field_post_ok single t i' x y j ob) kvs s1 s3 tt W1 A1 G1 U1 NK N1 CK TK E3') as (W3 & F3 & A3 & G3 & T3 & L3 & l & P1 & P2).
  destruct (hp s3 i') as [ob|] eqn:O3; [|destruct A3 as (X & _); congruence].
  unfold is_group in G3. rewrite O3 in G3. destruct (o_body ob) as [|ls] eqn:B3; [discriminate|].
  assert (AO : o_attrs ob = no_attrs) by (unfold attrs_of in T3; rewrite O3, O1 in T3; exact T3).
  assert (LO : forall k, ~ In k (map fst kvs) -> lookup (hp s3) i' k = None) by (intros k Hk; rewrite (L3 k Hk); unfold lookup; rewrite L1; reflexivity).
  assert (LD : laid (hp s3) (reg s1 t) i' (LGroup no_attrs (somes l))).
  { apply (group_laid o rnd t i' s1 s3 ob no_attrs ls kvs l W3 A3 U1 O3 B3); auto. intros k. rewrite AO. reflexivity. }
  apply bind_ok in E. destruct E as (s5 & [] & E5 & E). apply ret_ok in E. destruct E as [-> ->].
  set (pre_ := if o_matlab_compatible o then _ else _) in *.
  assert (GR : good_reqs (np_attrs o (c, a) ts pre_ true None)).
  { apply np_attrs_good. unfold pre_. destruct (o_matlab_compatible o); (split; [repeat constructor; cbn [In map fst]; tauto|cbn [In map fst]]); [|tauto]. intros [X|[]]. revert X. vm_compute. discriminate. }
  destruct (sync_stored s3 i' ob _ s5 O3 AO (proj1 GR) E5) as (at_ & -> & HA).
  exists i', (LGroup (fresh_attrs (np_attrs o (c, a) ts pre_ true None)) (somes l)). split; [reflexivity|]. split; [discriminate|]. split; [apply good_fresh; exact GR|]. split.
  - eapply laid_weaken; [|eapply (touch_laid s3 _ i' (LGroup no_attrs (somes l)) (fun _ => fresh_attrs (np_attrs o (c, a) ts pre_ true None)) ob at_ ltac:(discriminate) LD O3)].
    + intros p [Hp|Hp]; [left; exact Hp|right; eapply elem_mono; eassumption].
    + exact HA.
  - assert (PM : mapr (plan_field o pl b) nfs = Ok l).
    { rewrite <- P1. unfold kvs. rewrite mapr_map. apply mapr_ext. intros [n [name fd]] _. reflexivity. }
    rewrite PM. reflexivity.
Qed.

Lemma np_laid s g nm c a ts s' r : wf s -> okt s g nm -> lookup (hp s) g nm = None -> unreserved s (name_of (hp s) g ++ [nm]) -> tidy (VNp c a) ->
  np_write o rnd tries wr g nm (c, a) ts s = (s', Ok r) -> exists R, plan_np o pl (c, a) ts = Ok R /\
  match r, R with
  | None, None => lookup (hp s') g nm = None
  | Some i, Some T => T <> LCanon /\ root_attrs T h5path = None /\ laid (hp s') (reg s (name_of (hp s) g ++ [nm])) i T
  | _, _ => False
  end.
Proof.
  intros W K L U HT E. unfold np_write in E. unfold plan_np.
  destruct (np_incompatible o a && eqb_str (o_action o) (lit "error")); [discriminate|].
  destruct (np_incompatible o a && eqb_str (o_action o) (lit "discard")); [apply ret_ok in E; destruct E as [-> ->]; exists None; auto|].
  apply bind_ok in E. destruct E as (s0 & b & E0 & E). apply lift_ok in E0. destruct E0 as [-> E0]. rewrite E0. cbn [bindr].
  destruct (as_group o a (a_dt b)) eqn:AG.
  - destruct (struct_laid s g nm c a ts b s' r W K L U HT E0 AG E) as (i & T & -> & H1 & H2 & H3 & H4). exists (Some T). auto.
  - destruct (np_data_laid s g nm c a ts b s' r W K L U HT E0 E) as (i & T & -> & H1 & H2 & H3 & H4). exists (Some T). auto.
Qed.

Lemma mark_post t i s1 s2 j ob : hp s1 j = Some ob -> o_attrs ob h5path = None -> name_of (hp s1) i = t -> mark_path o j (name_text t) s1 = (s2, Ok tt) ->
  exists a, s2 = set_hp s1 (upd (hp s1) j (with_attrs ob a)) /\ forall k, a k = marked t (o_attrs ob) k.
Proof.
  intros Ej _ _ E. unfold mark_path in E. unfold Plan.marked. destruct (o_matlab_compatible o).
  - apply bind_ok in E. destruct E as (s3 & b & E1 & E). apply lift_ok in E1. destruct E1 as [-> E1]. apply ascii_bytes_inv in E1. destruct E1 as [-> _].
    unfold modify_attr, set_attrs, attrs_of in E. rewrite Ej in E. injection E as <-. eexists. repeat split.
  - unfold drop_attr, set_attrs, attrs_of in E. rewrite Ej in E. injection E as <-. eexists. repeat split.
Qed.
Lemma map_attrs_id T : map_attrs (fun a => a) T = T.
Proof. destruct T; reflexivity. Qed.
Lemma dict_laid s g nm items ts plain s' r : wf s -> okt s g nm -> lookup (hp s) g nm = None -> unreserved s (name_of (hp s) g ++ [nm]) ->
  (forall cs, key_codes (map fst items) = Some cs -> NoDup (map snd cs)) -> (key_codes (map fst items) = None -> Forall tidy (map fst items)) -> Forall tidy (map snd items) ->
  dict_write o wr g nm items ts plain s = (s', Ok r) -> exists R, plan_dict o pl items ts plain = Ok R /\
  match r, R with
  | None, None => lookup (hp s') g nm = None
  | Some i, Some T => T <> LCanon /\ root_attrs T h5path = None /\ laid (hp s') (reg s (name_of (hp s) g ++ [nm])) i T
  | _, _ => False
  end.
Proof.
  intros W K L U ND TK0 TV E. set (t := name_of (hp s) g ++ [nm]) in *. unfold dict_write in E. cbv zeta in E. unfold plan_dict. cbv zeta. fold (dict_kvs o items) in E |- *.
  set (kvs := dict_kvs o items) in *.
  assert (KK : NoDup (map fst kvs) /\ Forall (fun kv => fst kv = [] \/ clean (fst kv)) kvs /\ Forall tidy (map snd kvs)).
  { unfold kvs, dict_kvs. destruct (key_codes (map fst items)) as [cs|] eqn:KC.
    - specialize (ND cs eq_refl). assert (LEN : length cs = length (map snd items)).
      { clear - KC. rewrite map_length. rewrite <- (map_length fst items). revert cs KC. generalize (map fst items) as ks. induction ks as [|k ks IH]; intros cs H; cbn [key_codes] in H; [injection H as <-; reflexivity|].
        destruct (key_code k) as [c|]; [|discriminate]. destruct (key_codes ks) as [r|]; [|discriminate]. injection H as <-. cbn [length]. rewrite (IH r eq_refl). reflexivity. }
      rewrite <- (Forall_map fst (fun x => x = [] \/ clean x)), combine_fst, combine_snd by (rewrite !map_length in *; exact LEN). rewrite <- (map_map snd escaped). split; [|split; [|exact TV]].
      + clear - ND. induction ND as [|x l H _ IH]; constructor; auto. intros X. apply in_map_iff in X. destruct X as (u & Eu & Hu). apply escaped_inj in Eu. subst u. exact (H Hu).
      + rewrite Forall_map, Forall_forall. intros x _. destruct x as [|y x]; [left; vm_compute; reflexivity|right; apply escaped_clean; discriminate].
    - cbn [map fst snd]. split; [repeat constructor; cbn [In]; intuition congruence|]. split; [constructor; [exact Hkn|constructor; [exact Hvn|constructor]]|].
      constructor; [apply T_seq; apply TK0; reflexivity|constructor; [apply T_seq; exact TV|constructor]]. }
  destruct KK as (NK & CK & TK). clearbody kvs. set (reqs := dict_attrs o ts plain (key_codes (map fst items))) in *.
  pose proof (dict_attrs_good o ts plain (key_codes (map fst items))) as GR. fold reqs in GR. set (anon := match key_codes (map fst items) with None => true | _ => false end) in *. clearbody reqs anon.
  apply bind_ok in E. destruct E as (s1 & i & E1 & E).
  destruct (new_group s g nm s1 i W K L U E1) as (W1 & F1 & A1 & O1 & U1). fold t in F1, A1, O1, U1.
  apply bind_ok in E. destruct E as (s2 & [] & E2 & E).
  destruct (sync_stored s1 i _ _ s2 O1 eq_refl (proj1 GR) E2) as (at_ & -> & HA). set (ob := with_attrs (mkObj t no_attrs (BGroup [])) at_) in *.
  set (s2 := set_hp s1 (upd (hp s1) i ob)) in *. destruct A1 as (B1 & B2 & B3).
  assert (O2 : hp s2 i = Some ob) by apply upd_same.
  assert (SK : same_kind (BGroup []) (o_body ob)) by reflexivity.
  assert (W2 : wf s2) by (eapply wf_change; [exact W1|exact O1|reflexivity|reflexivity|rewrite B3; intros X; apply (proj1 U); rewrite X; apply pre_refl|intros d f j [=]]).
  assert (F2 : frame (pre t) s1 s2) by (eapply frame_change; [exact W1|exact O1|reflexivity|exact SK|rewrite B3; apply pre_refl]).
  assert (A2 : at_target s2 t i).
  { split; [rewrite O2; discriminate|]. split; [unfold s2; cbn [hp set_hp]; rewrite (change_live s1 i _ ob O1 eq_refl SK); exact B2|].
    unfold s2. cbn [hp set_hp]. rewrite (mod_name _ _ _ ob O1 eq_refl). exact B3. }
  assert (L2 : links (hp s2) i = []) by (unfold links; rewrite O2; reflexivity).
  assert (G2 : is_group (hp s2) i = true) by (unfold is_group; rewrite O2; reflexivity).
  assert (U2 : unreserved s2 t) by (eapply unreserved_frame; eassumption).
  apply bind_ok in E. destruct E as (s3 & [] & E3 & E).
  assert (s3 = s2) as ->.
  { destruct (_ || _); [rewrite prune_empty in E3 by exact L2; congruence|apply ret_ok in E3; tauto]. }
  apply bind_ok in E. destruct E as (s4 & p & E4 & E). apply gets_ok in E4. destruct E4 as [-> ->].
  apply bind_ok in E. destruct E as (s5 & [] & E5 & E).
  assert (s5 = s2) as ->.
  { destruct (o_matlab_compatible o); [|apply ret_ok in E5; tauto]. apply bind_ok in E5. destruct E5 as (s6 & b & E5 & E6). apply lift_ok in E5. destruct E5 as [-> _]. apply ret_ok in E6. tauto. }
  apply bind_ok in E. destruct E as (s6 & [] & E6 & E). apply ret_ok in E. destruct E as [-> ->].
  assert (N2 : name_of (hp s2) i = t) by apply A2. rewrite N2 in E6.
  assert (E6' : iterM (step wr i (fun j => mark_path o j (name_text t))) kvs s2 = (s6, Ok tt)) by (rewrite <- E6; apply iterM_ext; intros [k v] sx; reflexivity).
  assert (N1 : forall k, In k (map fst kvs) -> lookup (hp s2) i k = None) by (intros k _; unfold lookup; rewrite L2; reflexivity).
  destruct (steps_laid o rnd Hkn Hvn wr pl Hwr Hl t i (fun a => a) (fun j => mark_path o j (name_text t)) (fun a b H => H)
     (fun x y j ob => mark_post t i x y j ob) kvs s2 s6 tt W2 A2 G2 U2 NK N1 CK TK E6') as (W6 & F6 & A6 & G6 & T6 & L6 & l & P1 & P2).
  destruct (hp s6 i) as [ob6|] eqn:O6; [|destruct A6 as (X & _); congruence].
  unfold is_group in G6. rewrite O6 in G6. destruct (o_body ob6) as [|ls] eqn:B6; [discriminate|].
  assert (AO : o_attrs ob6 = at_) by (unfold attrs_of in T6; rewrite O6, O2 in T6; exact T6).
  assert (LO : forall k, ~ In k (map fst kvs) -> lookup (hp s6) i k = None) by (intros k Hk; rewrite (L6 k Hk); unfold lookup; rewrite L2; reflexivity).
  exists (Some (LGroup (fresh_attrs reqs) (somes l))). split.
  - assert (PM : mapr (plan_item pl) kvs = Ok l).
    { rewrite <- P1. apply mapr_ext. intros [k v] _. unfold plan_item, plan_member. cbn [fst snd]. destruct (pl v) as [[T|]|]; [|reflexivity|reflexivity]. cbn [bindr option_map]. rewrite map_attrs_id. reflexivity. }
    rewrite PM. reflexivity.
  - split; [discriminate|]. split; [apply good_fresh; exact GR|]. eapply laid_weaken; [|apply (group_laid o rnd t i s2 s6 ob6 (fresh_attrs reqs) ls kvs l W6 A6 U2 O6 B6)]; auto.
    + intros q [Hq|Hq]; [left; exact Hq|right]. eapply elem_mono; [exact F1|]. eapply elem_mono; [exact F2|exact Hq].
    + intros k. rewrite AO. apply HA.
Qed.

Lemma rec_codes k fs cs : key_codes (map fst (rec_items k fs)) = Some cs -> NoDup (map snd cs).
Proof.
  intros H. assert (X : map snd cs = map (fun x => match x with VStr s => s | _ => [] end) (map fst (rec_items k fs)) /\ Forall (fun x => exists s, x = VStr s) (map fst (rec_items k fs))).
  { revert cs H. unfold rec_items. generalize (rec_fields k) as l. intros l. revert fs. induction l as [|x l IH]; intros fs cs H; [injection H as <-; split; [reflexivity|constructor]|].
    destruct fs as [|f fs]; [injection H as <-; split; [reflexivity|constructor]|]. cbn [map combine fst key_codes key_code] in *.
    destruct (key_codes (map fst (combine (map VStr l) fs))) as [r|] eqn:E; [|discriminate]. injection H as <-. destruct (IH fs r E) as [I1 I2]. cbn [map snd]. rewrite I1. split; [reflexivity|]. constructor; eauto. }
  destruct X as [-> _]. unfold rec_items. assert (NR : NoDup (rec_fields k)) by (destruct k; cbn [rec_fields]; repeat constructor; cbn [In]; intuition discriminate).
  clear H. revert fs NR. generalize (rec_fields k) as l. intros l. induction l as [|x l IH]; intros fs NR; [constructor|]. destruct fs as [|f fs]; [constructor|].
  inversion NR; subst. cbn [map combine fst]. constructor; [|apply IH; assumption]. intros X. apply H1. clear - X. revert fs X. induction l as [|y l IH]; intros fs X; [destruct X|]. destruct fs as [|f fs]; [destruct X|].
  cbn [map combine fst] in X. destruct X as [->|X]; [left; reflexivity|right; eapply IH; exact X].
Qed.
Lemma rec_keyed k fs : key_codes (map fst (rec_items k fs)) <> None.
Proof.
  unfold rec_items. generalize (rec_fields k) as l. intros l. revert fs. induction l as [|x l IH]; intros fs; [discriminate|]. destruct fs as [|f fs]; [discriminate|].
  cbn [map combine fst key_codes key_code]. specialize (IH fs). destruct (key_codes _); [discriminate|congruence].
Qed.
Lemma atom_tidy c a : a_dt a <> TObj -> (forall e, In e (a_data a) -> tidy (elem_val e)) -> match a_dt a with TStruct _ => False | _ => True end -> tidy (VNp c a).
Proof. intros _ H S. apply T_np; [rewrite Forall_forall; exact H|]. intros fs E. rewrite E in S. destruct S. Qed.
Lemma value_laid : lspec o rnd (write_value o rnd tries wr) (plan_value o pl).
Proof.
  intros s g nm v s' r W K L U V E.
  assert (AT : forall c d sh e, match d with TObj | TStruct _ => False | _ => True end -> (forall x, In x e -> match x with XPtr _ => False | _ => True end) -> tidy (VNp c (mkArr d sh e))).
  { intros c d sh e Hd He. apply T_np; cbn [a_data a_dt].
    - rewrite Forall_forall. intros x Hx. specialize (He x Hx). destruct x; try destruct He; apply T_atom; exact I.
    - intros fs ->. destruct Hd. }
  destruct v; cbn [write_value plan_value] in E |- *; try (eapply np_laid; eauto; apply AT; [exact I|intros ? [<-|[]]; exact I]); try (eapply np_laid; eauto; apply AT; [exact I|intros ? []]).
  - (* int *) eapply np_laid; eauto. unfold int_array. destruct (_ && _)%bool; [|unfold np_bytes]; apply AT; try exact I; intros ? [<-|[]]; exact I.
  - (* numpy *) eapply np_laid; eauto.
  - (* sequence *) eapply np_laid; eauto. inversion V as [v0 X| |k' l' H| |]; subst; [destruct X|]. apply T_np; cbn [obj_array a_data a_dt]; [|discriminate].
    rewrite Forall_map. cbn [elem_val]. exact H.
  - (* dict *) inversion V as [v0 X| | |k' l' H1 H2 H3|]; subst; [destruct X|]. eapply dict_laid; eauto.
  - (* record *) inversion V as [v0 X| | | |k' l' H]; subst; [destruct X|]. eapply dict_laid; eauto.
    + apply rec_codes.
    + intros X. destruct (rec_keyed _ _ X).
    + unfold rec_items. clear - H. generalize (map VStr (rec_fields k)) as ks. intros ks. revert fields H. induction ks as [|x ks IH]; intros fields H; [constructor|]. destruct H as [|f l Hf H]; [constructor|]. cbn [combine map snd]. constructor; auto.
  - (* dtype *) apply bind_ok in E. destruct E as (s1 & b & E1 & E). apply lift_ok in E1. destruct E1 as [-> E1]. rewrite E1. cbn [bindr]. eapply np_laid; eauto.
    unfold np_bytes. apply AT; [exact I|intros ? [<-|[]]; exact I].
  - discriminate.
Qed.
End Marsh.

Theorem write_laid n : lspec o rnd (write o rnd tries n) (plan o n).
Proof.
  induction n as [|n IH]; intros s g nm v s' r W K L U V E; cbn [write plan] in *; [discriminate|].
  exact (value_laid (write o rnd tries n) (plan o n) (write_keeps o rnd tries Hkn Hvn n) IH s g nm v s' r W K L U V E).
Qed.
End LayoutNp.
