(** The round trip of a write: what np_write, dict_write and the other marshallers put
    into the file is read back. *)
From Verif Require Import Base PathEsc PosixPath PosixFacts ProcessPathFacts Unicode UnicodeFacts Dec NdArray Value OptionsM StrConv ComplexM Attrs NpDims MColl Hdf5 HeapFacts NpWrite NpRead MarshalW MarshalR FrameFacts WriteFrame ReadFacts RoundSpec RoundNp RoundHeap.
Local Open Scope nat_scope.

Lemma prep_dt wo c a b : np_prepare wo (c, a) = Ok b -> simple (a_dt a) ->
  (is_struct (a_dt b) = true -> is_cpx (a_dt a) = true) /\
  (a_dt b = TObj -> a_dt a = TObj /\ forall e, In e (a_data b) -> In e (a_data a)) /\ a_dt b <> TRef.
Proof.
  intros W Hs. unfold np_prepare in W.
  destruct (store_str wo c (store_bytes wo a)) as [b2|] eqn:E2; [|discriminate]. cbn [bindr] in W.
  set (b3 := write_dims wo b2) in *. set (b4 := if dt_eqb (a_dt b3) TBool && o_bools_uint8 wo then _ else b3) in *.
  set (b5 := if o_shape_empty wo && np_empty a then _ else b4) in *.
  assert (D2 : is_cpx (a_dt b2) = is_cpx (a_dt a) /\ is_struct (a_dt b2) = false /\ (a_dt b2 = TObj -> b2 = a) /\ a_dt b2 <> TRef).
  { destruct (a_dt a) eqn:Ed; cbn in Hs; try tauto.
    all: try (unfold store_bytes in E2; rewrite Ed in E2; unfold store_str in E2; rewrite Ed in E2; injection E2 as <-; rewrite Ed; repeat split; try reflexivity; discriminate).
    - (* bytes *)
      assert (X : a_dt (store_bytes wo a) = TS n \/ a_dt (store_bytes wo a) = TU 2).
      { unfold store_bytes. rewrite Ed. destruct (o_bytes_utf16 wo); [|left; exact Ed]. destruct (nbytes a =? 0); [right; reflexivity|].
        match goal with |- context [if ?c then _ else _] => destruct c end; [right; reflexivity|left; exact Ed]. }
      assert (Y : b2 = store_bytes wo a) by (unfold store_str in E2; destruct X as [X|X]; rewrite X in E2; congruence).
      rewrite Y. destruct X as [X|X]; rewrite X; repeat split; try reflexivity; discriminate.
    - (* str *)
      assert (X : store_bytes wo a = a) by (unfold store_bytes; rewrite Ed; reflexivity). rewrite X in E2.
      destruct (store_str_flat wo c a n b2 Ed E2) as [_ [Y|Y]]; rewrite Y; repeat split; try reflexivity; discriminate. }
  destruct D2 as (D1 & D2 & D3 & D3').
  assert (E3 : a_dt b3 = a_dt b2) by apply write_dims_dt.
  assert (D4 : (is_cpx (a_dt b4) = true -> is_cpx (a_dt a) = true) /\ is_struct (a_dt b4) = false /\ (a_dt b4 = TObj -> b4 = b3) /\ a_dt b4 <> TRef).
  { unfold b4. destruct (dt_eqb (a_dt b3) TBool && o_bools_uint8 wo); [cbn [a_dt is_cpx is_struct]; repeat split; discriminate|].
    rewrite E3, D1, D2. repeat split; auto. }
  destruct D4 as (D4 & D5 & D6 & D6').
  assert (D7 : (is_cpx (a_dt b5) = true -> is_cpx (a_dt a) = true) /\ is_struct (a_dt b5) = false /\ (a_dt b5 = TObj -> b5 = b3) /\ a_dt b5 <> TRef).
  { unfold b5. destruct (o_shape_empty wo && np_empty a); [cbn [a_dt shape_array is_cpx is_struct]; repeat split; discriminate|]. auto. }
  destruct D7 as (D7 & D8 & D9 & D9'). destruct (is_cpx (a_dt b5)) eqn:Ec.
  - split; [intros _; apply D7; reflexivity|]. assert (X : is_struct (a_dt b) = true).
    { unfold encode_complex in W. destruct (a_dt b5); try discriminate. destruct (eqb_str _ _); [discriminate|]. injection W as <-. reflexivity. }
    split; intros E; rewrite E in X; discriminate.
  - injection W as <-. split; [congruence|]. split; [|exact D9']. intros E. assert (E4 : a_dt b2 = TObj) by (rewrite <- E3, <- (D9 E); exact E). rewrite <- (D3 E4). split; [exact E4|]. intros e He.
    rewrite (D9 E) in He. apply write_dims_in in He. exact He.
Qed.

Lemma obj_simple o c a : np_obj o c a -> simple (a_dt a).
Proof. intros H. pose proof (n_kind _ _ _ H). destruct (a_dt a); cbn in *; tauto. Qed.
Lemma prep_obj wo o c a b : np_prepare wo (c, a) = Ok b -> np_obj o c a -> a_dt b = TObj ->
  Forall (fun e => exists p, e = XPtr p /\ In (XPtr p) (a_data a)) (a_data b).
Proof.
  intros W HN EB. pose proof (obj_simple _ _ _ HN) as Hs.
  destruct (prep_dt wo c a b W Hs) as (_ & H & _). destruct (H EB) as [EA HI]. rewrite Forall_forall. intros e He. apply HI in He.
  pose proof (n_elems _ _ _ HN) as T. rewrite Forall_forall in T. specialize (T e He). rewrite EA in T. destruct e; try destruct T. eauto.
Qed.
Lemma Forall2_len {A B} (P : A -> B -> Prop) l m : Forall2 P l m -> length l = length m.
Proof. induction 1; cbn; congruence. Qed.
Lemma Forall2_imp {A B} (P Q : A -> B -> Prop) l m : (forall x y, P x y -> Q x y) -> Forall2 P l m -> Forall2 Q l m.
Proof. intros H. induction 1; constructor; auto. Qed.

Section Write.
Variables (wo ro : options) (keq : pyval -> pyval -> bool) (rnd : nat -> N) (tries : nat).
Notation rp := (rp wo). Notation ra := (ra wo). Notation wf := (wf wo). Notation frame := (frame wo rnd). Notation fut := (fut rnd).
Notation okt := (okt wo). Notation wspec := (wspec wo rnd). Notation keeps := (keeps wo rnd).
Notation held := (held ro keq). Notation reg := (reg wo rnd). Notation elem_reg := (elem_reg wo rnd). Notation unreserved := (unreserved wo rnd).
Notation storable := (storable wo ro keq).
Hypotheses (HP : paired wo ro) (HI : inj_rnd rnd).
Lemma keys_clean : o_keys_name wo = [] \/ clean (o_keys_name wo).
Proof. right. destruct (p_keys _ _ HP) as (H1 & H2 & _). rewrite escape_esc in H1. injection H1 as H1. rewrite <- H1. apply esc_clean. exact H2. Qed.
Lemma values_clean : o_values_name wo = [] \/ clean (o_values_name wo).
Proof. right. destruct (p_keys _ _ HP) as (_ & _ & H1 & H2 & _). rewrite escape_esc in H1. injection H1 as H1. rewrite <- H1. apply esc_clean. exact H2. Qed.

Definition rspec (wr : nat -> pystr -> pyval -> M (option nat)) : Prop := forall s g nm v s' r,
  wf s -> okt s g nm -> lookup (hp s) g nm = None -> unreserved s (name_of (hp s) g ++ [nm]) -> storable v ->
  wr g nm v s = (s', Ok r) -> exists i, r = Some i /\ held (hp s') (reg s (name_of (hp s) g ++ [nm])) i v.

Section Marsh.
Variable wr : nat -> pystr -> pyval -> M (option nat).
Hypotheses (Hwr : wspec wr) (Hrt : rspec wr).

Lemma element_held s g c v s' j : wf s -> rgrp s = Some g -> storable v ->
  write_element wo rnd tries wr g c v s = (s', Ok j) -> held (hp s') (elem_reg s) j v.
Proof.
  intros W Hr Hv E. pose proof (w_sess _ _ W g Hr) as Hw. pose proof (walk_root_name _ _ _ _ (w_tree _ _ W) Hw) as Hn.
  assert (LV : live (hp s) g = true) by (apply live_walk; rewrite Hn; exact Hw). destruct (w_refs _ _ W g Hw) as [Gg _].
  unfold write_element in E. apply bind_ok in E. destruct E as (s1 & k & E1 & E).
  destruct (next_keeps wo rnd tries (fun _ => False) s g W Hr) as (K1 & K2 & K3). rewrite E1 in K1, K2, K3. cbn [fst snd] in *.
  destruct (K3 k eq_refl) as (Q1 & Q2 & Q3 & Q4 & Q5 & Q6 & Q7 & Q8). specialize (Q8 HI).
  apply bind_ok in E. destruct E as (s2 & r & E2 & E).
  assert (PA : forall x, pre (rp ++ [x]) (rp ++ [k]) -> x = k).
  { intros x P. apply pre_antisym_len in P; [|rewrite !app_length; cbn; lia]. apply app_inj_tail in P. tauto. }
  assert (NA : ~ pre (rp ++ [k]) ra).
  { intros P. apply pre_antisym_len in P; [|unfold FrameFacts.ra; rewrite !app_length; cbn; lia]. apply app_inj_tail in P. tauto. }
  assert (OK : okt s1 g k).
  { constructor; rewrite ?Q1, ?Hn; auto. intros x P. apply PA in P. subst x. exact Q7. }
  assert (U : unreserved s1 (name_of (hp s1) g ++ [k])).
  { rewrite Q1, Hn. split; [exact NA|]. intros x P. apply PA in P. subst x. exact Q8. }
  rewrite <- Q1 in Q3. destruct (Hrt s1 g k v s2 r K1 OK Q3 U Hv E2) as (i & -> & Hh). rewrite Q1, Hn in Hh.
  apply bind_ok in E. destruct E as (s3 & p & E3 & E). apply gets_ok in E3. destruct E3 as [-> ->].
  apply bind_ok in E. destruct E as (s4 & [] & E4 & E). apply ret_ok in E. destruct E as [-> ->].
  eapply held_weaken; [eapply mark_held; [exact E4|exact Hh]|].
  intros q [P|P]; [exists k; split; assumption|]. eapply elem_mono; eassumption.
Qed.

Lemma elements_held g c l : forall s s' js, wf s -> rgrp s = Some g -> ptr_ok wo (hp s) c -> Forall storable l ->
  mapM (write_element wo rnd tries wr g c) l s = (s', Ok js) -> Forall2 (held (hp s') (elem_reg s)) js l.
Proof.
  induction l as [|v l IH]; intros s s' js W Hr Hc Hl E; cbn [mapM] in E.
  - apply ret_ok in E. destruct E as [-> ->]. constructor.
  - inversion Hl as [|? ? Hv Hl']; subst. apply bind_ok in E. destruct E as (s1 & j & E1 & E). apply bind_ok in E. destruct E as (s2 & js' & E2 & E).
    apply ret_ok in E. destruct E as [-> ->].
    destruct (element_keeps wo rnd tries keys_clean values_clean wr Hwr (fun _ => False) s g c v W Hr Hc) as (K1 & K2 & K3). rewrite E1 in *. cbn [fst snd] in *.
    destruct (K3 j eq_refl) as [R1 _]. pose proof (ptr_ok_frame _ _ _ _ _ _ K2 Hc) as P1.
    assert (K4 : wf s2 /\ frame (fun _ => False) s1 s2).
    { destruct (mapM_keeps wo rnd (fun _ => False) (fun s => rgrp s = Some g /\ ptr_ok wo (hp s) c) (fun _ _ => True) (write_element wo rnd tries wr g c) l s1) as (H1 & H2 & _); auto.
      - intros s3 x _ W3 [R3 P3]. destruct (element_keeps wo rnd tries keys_clean values_clean wr Hwr (fun _ => False) s3 g c x W3 R3 P3) as (J1 & J2 & J3).
        split; [exact J1|]. split; [exact J2|]. intros y Hy. destruct (J3 y Hy) as [H1 _]. split; [split; [exact H1|]|exact I]. eapply ptr_ok_frame; eassumption.
      - rewrite E2 in *. auto. }
    destruct K4 as [W2 F2]. constructor.
    + eapply held_frame; [exact F2|apply elem_clear0|]. eapply element_held; eassumption.
    + eapply Forall2_imp; [|eapply IH; [exact K1|exact R1|exact P1|exact Hl'|exact E2]]. cbn. intros a b Hab. eapply held_weaken; [exact Hab|]. intros p Hp. eapply elem_mono; eassumption.
Qed.

Lemma object_array_held a s s' d : wf s -> Forall storable (map elem_val (a_data a)) ->
  write_object_array wo rnd tries wr a s = (s', Ok d) ->
  exists js, d = mkArr TRef (a_shape a) (map XPtr js) /\ Forall2 (held (hp s') (elem_reg s)) js (map elem_val (a_data a)).
Proof.
  intros W Hl E. unfold write_object_array in E. apply bind_ok in E. destruct E as (s1 & g & E1 & E).
  destruct (ensure_refs_keeps wo rnd (fun _ => False) s W) as (W1 & F1 & Q1). rewrite E1 in *. cbn [fst snd] in *. specialize (Q1 g eq_refl).
  apply bind_ok in E. destruct E as (s2 & c & E2 & E).
  destruct (ensure_canon_keeps wo rnd tries (fun _ => False) s1 g W1 Q1) as (W2 & F2 & Q2). rewrite E2 in *. cbn [fst snd] in *. destruct (Q2 c eq_refl) as [R2 P2].
  apply bind_ok in E. destruct E as (s3 & js & E3 & E). apply ret_ok in E. destruct E as [-> ->].
  exists js. split; [reflexivity|]. eapply Forall2_imp; [|eapply elements_held; [exact W2|exact R2|exact P2|exact Hl|exact E3]]. cbn. intros x y Hxy.
  eapply held_weaken; [exact Hxy|]. intros p Hp. eapply elem_mono; [exact F1|]. eapply elem_mono; eassumption.
Qed.

(** a new object with fresh attributes *)
Lemma fresh_link s g nm a b s' i : wf s -> okt s g nm ->
  match b with BGroup ls => ls = [] | BData d _ => forall j, In (XPtr j) (a_data d) -> ptr_ok wo (hp s) j end ->
  new_link g nm a b s = (s', Ok i) ->
  wf s' /\ frame (pre (name_of (hp s) g ++ [nm])) s s' /\ at_target s' (name_of (hp s) g ++ [nm]) i /\
  hp s' i = Some (mkObj (name_of (hp s) g ++ [nm]) a b).
Proof.
  intros W K Hb E. destruct (new_link_keeps wo rnd s g nm a b W K Hb) as (K1 & K2 & K3). rewrite E in *. cbn [fst snd] in *.
  destruct (K3 i eq_refl) as (L & C & Ei & Es). split; [exact K1|]. split; [exact K2|].
  assert (Hb' : match b with BGroup ls => ls = [] | _ => True end) by (destruct b; auto).
  split; [apply (new_target wo s g nm a b i s' W K L C Hb' Ei Es)|]. rewrite Es, Ei. cbn [hp]. apply HeapFacts.add_new.
Qed.
Lemma sync_stored_over s i ob reqs s' : hp s i = Some ob -> (forall k q old, In (k, q) reqs -> o_attrs ob k = Some old -> replaceable k q old) -> NoDup (map fst reqs) ->
  sync_attrs i reqs true s = (s', Ok tt) ->
  exists a, s' = set_hp s (upd (hp s) i (with_attrs ob a)) /\ forall k, a k = fresh_attrs reqs k.
Proof.
  intros Ei Ea N E. unfold sync_attrs, attrs_of, set_attrs in E. rewrite Ei in E.
  destruct (set_attributes_all (o_attrs ob) reqs true) as [a e] eqn:S. destruct e as [e|]; [discriminate|].
  injection E as <-. exists a. split; [reflexivity|]. intros k. eapply sync_over; eassumption.
Qed.

Lemma sync_stored_if s i ob reqs s' : hp s i = Some ob -> NoDup (map fst reqs) -> sync_attrs i reqs true s = (s', Ok tt) ->
  exists a, s' = set_hp s (upd (hp s) i (with_attrs ob a)) /\ (forall k, ~ In k (map fst reqs) -> a k = None) /\
    ((forall k q old, In (k, q) reqs -> o_attrs ob k = Some old -> replaceable k q old) -> forall k, a k = fresh_attrs reqs k).
Proof.
  intros Ei N E. unfold sync_attrs, attrs_of, set_attrs in E. rewrite Ei in E.
  destruct (set_attributes_all (o_attrs ob) reqs true) as [a e] eqn:S. destruct e as [e|]; [discriminate|].
  injection E as <-. exists a. split; [reflexivity|]. split; [|intros Ea k; eapply sync_over; eassumption].
  intros k Hk. unfold set_attributes_all in S. destruct (put_attrs (o_attrs ob) reqs (o_attrs ob)) as [a1 [e|]]; [discriminate|]. injection S as <-. cbn [andb].
  destruct (mem_str k (map fst reqs)) eqn:M; [apply mem_str_In in M; tauto|reflexivity].
Qed.

Lemma sync_stored s i ob reqs s' : hp s i = Some ob -> o_attrs ob = no_attrs -> NoDup (map fst reqs) ->
  sync_attrs i reqs true s = (s', Ok tt) ->
  exists a, s' = set_hp s (upd (hp s) i (with_attrs ob a)) /\ forall k, a k = fresh_attrs reqs k.
Proof.
  intros Ei Ea N E. eapply sync_stored_over; eauto. intros k q x _ H. rewrite Ea in H. discriminate H.
Qed.

Lemma put_new s g nm d s' i : okt s g nm -> lookup (hp s) g nm = None -> put_dataset wo g nm d s = (s', Ok i) ->
  exists f, new_link g nm no_attrs (BData (mkArr (stored_dt (a_dt d)) (a_shape d) (a_data d)) f) s = (s', Ok i).
Proof.
  intros K L E. unfold put_dataset in E. apply bind_ok in E. destruct E as (s1 & r & E1 & E).
  assert (s1 = s /\ r = None) as [-> ->].
  { unfold catch in E1. destruct (get_name g nm s (k_name _ _ _ _ K)) as [[e X]|(C & NE & X)]; rewrite X in E1; [apply ret_ok in E1; tauto|].
    rewrite L in E1. injection E1 as <- <-. auto. }
  unfold create_dataset in E. destruct (h5_able (a_dt d)); [|discriminate]. eauto.
Qed.

(** ** what may be there already *)
Definition ref_dt (d : dt) : dt := match d with TObj => TRef | d => d end.
(** for the numpy object [c], [a] of the type string [ts] at [nm] in [g]: nothing, a Group
    or a Dataset that is either replaced or has attributes that can be replaced *)
Definition room (s : st) (g : nat) (nm : pystr) (c : container) (a : arr pyval) (ts : pystr) : Prop :=
  forall i ob old f b, lookup (hp s) g nm = Some i -> hp s i = Some ob -> o_body ob = BData old f -> np_prepare wo (c, a) = Ok b ->
  a_dt old <> TS 0 /\
  (dt_eqb (a_dt (h5py_present old)) (ref_dt (a_dt b)) && eqb_shape (a_shape old) (a_shape b) = true ->
   forall ty k q x, In (k, q) (np_attrs wo (c, a) ts [] false ty) -> o_attrs ob k = Some x -> replaceable k q x).
Lemma ref_cpx d : is_cpx (ref_dt d) = is_cpx d.
Proof. destruct d; reflexivity. Qed.
Lemma ref_stored d : ref_dt d <> TS 0 -> stored_dt (ref_dt d) = ref_dt d.
Proof. destruct d as [| | | | |[]| | | |]; cbn; congruence. Qed.
Lemma room_none s g nm c a ts : lookup (hp s) g nm = None -> room s g nm c a ts.
Proof. intros L i ob old f b H. congruence. Qed.
Lemma prep_not_tc c a b : np_prepare wo (c, a) = Ok b -> is_cpx (a_dt b) = false.
Proof.
  intros W. unfold np_prepare in W.
  destruct (store_str wo c (store_bytes wo a)) as [b2|] eqn:E2; [|discriminate]. cbn [bindr] in W.
  match type of W with (if is_cpx (a_dt ?x) then _ else _) = _ => set (b5 := x) in * end.
  destruct (is_cpx (a_dt b5)) eqn:Ec; [|injection W as <-; exact Ec].
  unfold encode_complex in W. destruct (a_dt b5); try discriminate. destruct (eqb_str _ _); [discriminate|]. injection W as <-. reflexivity.
Qed.
Lemma present_dt {A} (x : arr A) : is_cpx (a_dt (h5py_present x)) = false -> h5py_present x = x.
Proof.
  unfold h5py_present. destruct (a_dt x) as [| | | | | | | | |fs] eqn:E; auto. destruct fs as [|[n0 [d0 s0]] fs]; auto. destruct d0; auto. destruct s0; auto.
  destruct fs as [|[n1 [d1 s1]] fs]; auto. destruct d1; auto. destruct s1; auto. destruct fs; auto. destruct (_ && _); [discriminate|reflexivity].
Qed.

Lemma put_any s g nm c a ts b d s' i : wf s -> okt s g nm -> (forall j, In (XPtr j) (a_data d) -> ptr_ok wo (hp s) j) ->
  np_prepare wo (c, a) = Ok b -> a_dt d = ref_dt (a_dt b) -> a_shape d = a_shape b -> (room s g nm c a ts \/ ref_dt (a_dt b) <> TS 0) ->
  put_dataset wo g nm d s = (s', Ok i) ->
  wf s' /\ frame (pre (name_of (hp s) g ++ [nm])) s s' /\ at_target s' (name_of (hp s) g ++ [nm]) i /\
  exists ob f, hp s' i = Some ob /\ o_body ob = BData (mkArr (stored_dt (a_dt d)) (a_shape d) (a_data d)) f /\ o_name ob = name_of (hp s) g ++ [nm] /\
    (room s g nm c a ts -> forall ty k q x, In (k, q) (np_attrs wo (c, a) ts [] false ty) -> o_attrs ob k = Some x -> replaceable k q x).
Proof.
  intros W K Pd EB ED ES RM E. destruct (put_dataset_keeps wo rnd s g nm d W K Pd) as (W' & F' & A'). rewrite E in *. cbn [fst snd] in *. specialize (A' i eq_refl).
  split; [exact W'|]. split; [exact F'|]. split; [exact A'|].
  assert (CR : forall s1 f, wf s1 -> okt s1 g nm -> name_of (hp s1) g = name_of (hp s) g -> (forall j, In (XPtr j) (a_data d) -> ptr_ok wo (hp s1) j) -> create_dataset g nm d f s1 = (s', Ok i) ->
    exists ob f, hp s' i = Some ob /\ o_body ob = BData (mkArr (stored_dt (a_dt d)) (a_shape d) (a_data d)) f /\ o_name ob = name_of (hp s) g ++ [nm] /\
      (room s g nm c a ts -> forall ty k q x, In (k, q) (np_attrs wo (c, a) ts [] false ty) -> o_attrs ob k = Some x -> replaceable k q x)).
  { intros s1 f W1 K1 N1 P1 E1. unfold create_dataset in E1. destruct (h5_able (a_dt d)); [|discriminate].
    destruct (fresh_link s1 g nm no_attrs (BData (mkArr (stored_dt (a_dt d)) (a_shape d) (a_data d)) f) s' i W1 K1) as (_ & _ & _ & O); [exact P1|exact E1|].
    eexists. exists f. split; [exact O|]. split; [reflexivity|]. split; [cbn [o_name]; rewrite N1; reflexivity|]. intros _ ty k q x _ H. discriminate H. }
  unfold put_dataset in E. cbv zeta in E. set (df := np_filters wo (a_shape d) (size d * itemsize (a_dt d))) in *.
  apply bind_ok in E. destruct E as (s1 & r & E1 & E).
  assert (s1 = s /\ (r = None \/ r = lookup (hp s) g nm)) as [-> R].
  { unfold catch in E1. destruct (get_name g nm s (k_name _ _ _ _ K)) as [[e X]|(C & NE & X)]; rewrite X in E1; [apply ret_ok in E1; tauto|].
    injection E1 as <- <-. auto. }
  destruct r as [j|]; [|eapply CR; [exact W|exact K|reflexivity|exact Pd|exact E]]. destruct R as [R|R]; [discriminate|]. symmetry in R.
  apply bind_ok in E. destruct E as (s1 & bd & E2 & E). apply gets_ok in E2. destruct E2 as [-> E2].
  assert (RP : forall f, replace_dataset g nm d f s = (s', Ok i) -> exists ob f, hp s' i = Some ob /\ o_body ob = BData (mkArr (stored_dt (a_dt d)) (a_shape d) (a_data d)) f /\ o_name ob = name_of (hp s) g ++ [nm] /\
      (room s g nm c a ts -> forall ty k q x, In (k, q) (np_attrs wo (c, a) ts [] false ty) -> o_attrs ob k = Some x -> replaceable k q x)).
  { intros f E3. unfold replace_dataset in E3. apply bind_ok in E3. destruct E3 as (s1 & [] & E3 & E4).
    destruct (unlink_keeps wo rnd s g nm W K) as (W1 & F1 & _). rewrite E3 in *. cbn [fst] in *.
    destruct (okt_frame wo rnd _ _ _ _ _ W F1 (okt_own s g nm) K) as [K1 N1]. eapply CR; [exact W1|exact K1|exact N1| |exact E4]. intros j0 Hj. eapply ptr_ok_frame; [exact F1|auto]. }
  destruct (same_dataset bd d df) eqn:SD; [|eapply RP; exact E].
  destruct (same_opts bd df) as [[]|]; [|eapply RP; exact E|discriminate].
  unfold overwrite in E. destruct (hp s j) as [ob|] eqn:Ej; [|discriminate]. rewrite E2 in SD. destruct (o_body ob) as [old f|] eqn:Eb; [|discriminate].
  injection E as <- <-. cbn [same_dataset] in SD. rewrite !andb_true_iff in SD. destruct SD as [[[[SD1 SD2] _] _] _].
  rewrite ED in SD1. rewrite ES in SD2.
  assert (R2 : room s g nm c a ts -> forall ty k q x, In (k, q) (np_attrs wo (c, a) ts [] false ty) -> o_attrs ob k = Some x -> replaceable k q x).
  { intros RM'. destruct (RM' j ob old f b R Ej Eb EB) as [_ R2]. rewrite SD1, SD2 in R2. exact (R2 eq_refl). }
  apply dt_eqb_eq in SD1. assert (PR : h5py_present old = old).
  { apply present_dt. rewrite SD1, ref_cpx. exact (prep_not_tc c a b EB). }
  rewrite PR in SD1.
  assert (R1 : ref_dt (a_dt b) <> TS 0).
  { destruct RM as [RM|RM]; [|exact RM]. rewrite <- SD1. apply (RM j ob old f b R Ej Eb EB). }
  assert (SH : a_shape old = a_shape b). { unfold eqb_shape in SD2. destruct (list_eq_dec _ _ _); [assumption|discriminate]. }
  eexists. exists f. split; [cbn [hp set_hp]; apply upd_same|]. split.
  - cbn [with_body o_body]. rewrite SD1, SH, ED, ES. rewrite ref_stored; [reflexivity|exact R1].
  - split; [|exact R2]. cbn [with_body o_name]. destruct A' as (_ & _ & A3). unfold name_of in A3. cbn [hp set_hp] in A3. rewrite upd_same in A3. exact A3.
Qed.

Lemma same_lists (h : heap) js vs (R : list pystr -> Prop) : Forall2 (held h R) js vs ->
  exists Q vs', Forall2 same vs vs' /\ closed h R Q /\ Forall Q js /\
    Forall2 (fun j xv => forall n, depth (fst xv) <= n -> read ro keq h n j = Ok (snd xv)) js (combine vs vs').
Proof.
  induction 1 as [|j v js vs (Q1 & v' & A1 & A2 & A3 & _ & A4) _ (Q & vs' & B1 & B2 & B3 & B4)].
  - exists (fun _ => False), []. repeat split; try constructor. all: try destruct H. 
  - exists (fun j => Q1 j \/ Q j), (v' :: vs'). split; [constructor; assumption|]. split; [|split].
    + intros k [Hk|Hk].
      * destruct (A2 k Hk) as (C1 & C2 & ob & C3 & C4 & C5). split; [exact C1|]. split; [exact C2|]. exists ob. split; [exact C3|]. split; [intros; left; eapply C4; eassumption|intros; left; eapply C5; eassumption].
      * destruct (B2 k Hk) as (C1 & C2 & ob & C3 & C4 & C5). split; [exact C1|]. split; [exact C2|]. exists ob. split; [exact C3|]. split; [intros; right; eapply C4; eassumption|intros; right; eapply C5; eassumption].
    + constructor; [left; exact A1|]. eapply Forall_impl; [|exact B3]. intros; right; assumption.
    + cbn [combine]. constructor; [exact A4|exact B4].
Qed.

Lemma read_refs h1 h js vs vs' (Q : nat -> Prop) n : Forall Q js -> length vs' = length vs ->
  Forall2 (fun j xv => forall n, depth (fst xv) <= n -> read ro keq h1 n j = Ok (snd xv)) js (combine vs vs') ->
  (forall j n, Q j -> read ro keq h n j = read ro keq h1 n j) -> (forall j, Q j -> live h j = true) -> Forall (fun v => depth v <= n) vs ->
  mapr (deref h (read ro keq h n)) (map XPtr js) = Ok (map XPtr vs').
Proof.
  intros HQ HL H2 HR HV HD. revert vs vs' HL H2 HD. induction HQ as [|j js Qj HQ IH]; intros vs vs' HL H2 HD.
  - inversion H2 as [E|]. destruct vs, vs'; try discriminate. reflexivity.
  - destruct vs as [|v vs], vs' as [|v' vs']; try discriminate; inversion H2; subst. inversion HD; subst. cbn [map mapr deref].
    rewrite HV, HR by assumption. cbn [fst snd] in *. rewrite H3 by assumption. cbn [bindr]. rewrite (IH vs vs'); auto.
Qed.
Lemma action_ignore a : simple (a_dt a) -> compatible wo ro a -> np_incompatible wo a = true -> o_action wo = lit "ignore".
Proof.
  intros Hs C. unfold np_incompatible. intros E. apply andb_true_iff in E. destruct E as [M E]. destruct (C M) as [K|[K _]]; [|exact K]. exfalso.
  destruct (a_dt a); cbn in Hs; try tauto; cbn in E; try discriminate; cbn in K; do 17 (destruct w as [|w]; try discriminate; try tauto).
Qed.

(** what is at the place is not touched by the writes of elements *)
Lemma place_frame s s1 g nm : wf s -> wf s1 -> okt s g nm -> unreserved s (name_of (hp s) g ++ [nm]) -> frame (fun _ => False) s s1 ->
  lookup (hp s1) g nm = lookup (hp s) g nm /\
  forall i, lookup (hp s) g nm = Some i -> is_group (hp s1) i = is_group (hp s) i /\ (is_group (hp s) i = false -> hp s1 i = hp s i).
Proof.
  intros W W1 K U F0. set (t := name_of (hp s) g ++ [nm]) in *.
  assert (AT : at_target s1 (name_of (hp s) g) g).
  { apply (at_target_frame wo rnd (fun _ => False) s); [exact F0|tauto|]. split; [apply live_exists with (o := wo); [exact W|apply (k_live _ _ _ _ K)]|].
    split; [apply (k_live _ _ _ _ K)|reflexivity]. }
  split.
  - destruct (lookup (hp s) g nm) as [j|] eqn:L.
    + pose proof (found_target wo s g nm j W K L) as A. fold t in A. pose proof (at_target_frame wo rnd (fun _ => False) s s1 t j F0 (fun x => x) A) as (_ & B2 & B3).
      destruct AT as (_ & C2 & C3). apply live_walk in B2, C2. rewrite B3 in B2. unfold t in B2. rewrite walk_snoc in B2. rewrite C3 in C2. rewrite C2 in B2. exact B2.
    + destruct (lookup (hp s1) g nm) as [j|] eqn:Lj; [|reflexivity]. exfalso.
      destruct (link_child wo s1 (name_of (hp s) g) g nm j W1 AT Lj) as (B1 & B2 & B3). fold t in B3.
      destruct (hp s j) as [ob|] eqn:Ej.
      * assert (X : hp s j <> None) by congruence. destruct (f_obj _ _ _ _ _ F0 j X) as (_ & Y & _). pose proof (f_dead _ _ _ _ _ F0 j X B2) as Lv.
        apply live_walk in Lv. rewrite <- Y, B3 in Lv. unfold t in Lv. rewrite walk_snoc in Lv. pose proof (proj1 (live_walk _ _) (k_live _ _ _ _ K)) as LG. rewrite LG in Lv. congruence.
      * destruct (f_born _ _ _ _ _ F0 j Ej B2) as [[]|[X|(y & Y1 & Y2)]]; rewrite B3 in *; [apply (proj1 U X)|apply (proj2 U y Y2 Y1)].
  - intros i L. pose proof (found_target wo s g nm i W K L) as (A1 & A2 & A3). split; [apply (f_obj _ _ _ _ _ F0 i A1)|]. apply (f_keep _ _ _ _ _ F0 i A2). tauto.
Qed.
Lemma room_frame s s1 g nm c a ts : wf s -> wf s1 -> okt s g nm -> unreserved s (name_of (hp s) g ++ [nm]) -> frame (fun _ => False) s s1 ->
  room s g nm c a ts -> room s1 g nm c a ts.
Proof.
  intros W W1 K U F R i ob old f b L O B P. destruct (place_frame s s1 g nm W W1 K U F) as [E1 E2]. rewrite E1 in L. destruct (E2 i L) as [E3 E4].
  assert (G : is_group (hp s) i = false). { rewrite <- E3. unfold is_group. rewrite O, B. reflexivity. }
  rewrite (E4 G) in O. exact (R i ob old f b L O B P).
Qed.
(** the Dataset and what it refers to *)
Lemma own_closed s s' t i ob d f Q : hp s' i = Some ob -> o_body ob = BData d f -> at_target s' t i -> closed (hp s') (elem_reg s) Q -> (forall j, In (XPtr j) (a_data d) -> Q j) ->
  closed (hp s') (reg s t) (fun j => j = i \/ Q j).
Proof.
  intros O OB (_ & LI & N) QC QP j [->|Hj].
  - split; [exact LI|]. rewrite N. split; [left; apply pre_refl|]. exists ob. split; [exact O|]. unfold links. rewrite O, OB.
    split; [intros k m []|]. intros x y m X Hm. injection X as <- <-. right. apply QP. exact Hm.
  - destruct (QC j Hj) as (C1 & C2 & oj & C3 & C4 & C5). split; [exact C1|]. split; [right; exact C2|]. exists oj. split; [exact C3|].
    split; [intros k m Hm; right; apply (C4 k m Hm)|intros x y m B Hm; right; apply (C5 x y m B Hm)].
Qed.
(** what [np_write] leaves in the file *)
Lemma np_stored_any s g nm c a ts s' r : wf s -> okt s g nm -> (room s g nm c a ts \/ forall b, np_prepare wo (c, a) = Ok b -> ref_dt (a_dt b) <> TS 0) -> unreserved s (name_of (hp s) g ++ [nm]) ->
  (np_incompatible wo a = true -> o_action wo = lit "ignore") ->
  (forall b, np_prepare wo (c, a) = Ok b -> as_group wo a (a_dt b) = false /\ a_dt b <> TRef /\
     (a_dt b = TObj -> Forall (fun e => exists p, e = XPtr p /\ In (XPtr p) (a_data a)) (a_data b))) ->
  (forall ty, NoDup (map fst (np_attrs wo (c, a) ts [] false ty))) -> (forall p, In (XPtr p) (a_data a) -> storable p) ->
  np_write wo rnd tries wr g nm (c, a) ts s = (s', Ok r) ->
  exists i ob d f b D Q t, r = Some i /\ hp s' i = Some ob /\ o_body ob = BData d f /\ (a_dt d = stored_dt (ref_dt (a_dt b)) /\ a_shape d = a_shape b) /\ at_target s' (name_of (hp s) g ++ [nm]) i /\
    closed (hp s') (elem_reg s) Q /\ (forall j, In (XPtr j) (a_data d) -> Q j) /\ np_prepare wo (c, a) = Ok b /\
    ((room s g nm c a ts -> forall k, o_attrs ob k = fresh_attrs (np_attrs wo (c, a) ts [] false t) k) /\ (forall k, ~ In k (map fst (np_attrs wo (c, a) ts [] false t)) -> o_attrs ob k = None)) /\ fetched b D /\
    forall n, (forall p, In (XPtr p) (a_data a) -> depth p <= n) -> read_array (hp s') (read ro keq (hp s') n) d = Ok D.
Proof.
  intros W K L U AI HB HN HS E. set (t := name_of (hp s) g ++ [nm]) in *.
  unfold np_write in E.
  destruct (np_incompatible wo a && eqb_str (o_action wo) (lit "error")) eqn:X1.
  { apply andb_true_iff in X1. destruct X1 as [X1 X2]. rewrite (AI X1) in X2. discriminate. }
  destruct (np_incompatible wo a && eqb_str (o_action wo) (lit "discard")) eqn:X2.
  { apply andb_true_iff in X2. destruct X2 as [X2 X3]. rewrite (AI X2) in X3. discriminate. }
  apply bind_ok in E. destruct E as (s0 & b & E0 & E). apply lift_ok in E0. destruct E0 as [-> E0].
  destruct (HB b E0) as (AG & PD3 & PO0).
  rewrite AG in E. apply bind_ok in E. destruct E as (s1 & d & E1 & E).
  (* the array *)
  assert (A1 : wf s1 /\ frame (pre t) s s1 /\ (forall j, In (XPtr j) (a_data d) -> ptr_ok wo (hp s1) j) /\ (a_dt d = ref_dt (a_dt b) /\ a_shape d = a_shape b) /\ (room s g nm c a ts -> room s1 g nm c a ts) /\
     exists D Q, fetched b D /\ closed (hp s1) (elem_reg s) Q /\ (forall j, In (XPtr j) (a_data d) -> Q j) /\
       forall h, (forall j n, Q j -> read ro keq h n j = read ro keq (hp s1) n j) -> (forall j, Q j -> live h j = true) ->
       forall n, (forall p, In (XPtr p) (a_data a) -> depth p <= n) ->
       read_array h (read ro keq h n) (mkArr (stored_dt (a_dt d)) (a_shape d) (a_data d)) = Ok D).
  { destruct (match a_dt b with TObj => true | _ => false end) eqn:EO.
    - assert (EB : a_dt b = TObj) by (destruct (a_dt b); try discriminate; reflexivity). rewrite EB in E1.
      pose proof (PO0 EB) as PO.
      assert (Hl : Forall storable (map elem_val (a_data b))).
      { rewrite Forall_map. eapply Forall_impl; [|exact PO]. intros e (p & -> & Hp). apply HS. exact Hp. }
      destruct (object_array_keeps wo rnd tries keys_clean values_clean wr Hwr (pre t) s b W) as (W1 & F1 & P1). rewrite E1 in *. cbn [fst snd] in *.
      destruct (object_array_held b s s1 d W Hl E1) as (js & -> & HJ). specialize (P1 _ eq_refl).
      split; [exact W1|]. split; [exact F1|]. split; [exact P1|].
      { destruct (object_array_keeps wo rnd tries keys_clean values_clean wr Hwr (fun _ => False) s b W) as (_ & F0 & _). rewrite E1 in F0. cbn [fst] in F0.
        split; [rewrite EB; split; reflexivity|]. split; [exact (room_frame s s1 g nm c a ts W W1 K U F0)|].
        destruct (same_lists (hp s1) js _ _ HJ) as (Q & vs' & S1 & S2 & S3 & S4).
        exists (mkArr TObj (a_shape b) (map XPtr vs')), Q. split; [|split; [exact S2|split]].
        * unfold fetched. rewrite EB. eexists. split; [reflexivity|]. clear - S1 PO.
          revert vs' S1. induction PO as [|e l (p & -> & _) T IH]; intros vs' S1; cbn [map elem_val] in S1; inversion S1; subst; cbn [map]; constructor; [constructor; assumption|].
          apply IH. assumption.
        * cbn [a_data]. intros j Hj. apply in_map_iff in Hj. destruct Hj as (x & [= ->] & Hx). rewrite Forall_forall in S3. apply S3. exact Hx.
        * intros h HR HL n Hn. unfold read_array. cbn [a_dt a_shape a_data stored_dt].
          assert (DL : Forall (fun v => depth v <= n) (map elem_val (a_data b))).
          { rewrite Forall_map. eapply Forall_impl; [|exact PO]. intros e (p & -> & Hp). apply Hn. exact Hp. }
          rewrite (read_refs (hp s1) h js (map elem_val (a_data b)) vs' Q n); auto. symmetry. eapply Forall2_len. exact S1. }
    - assert (E1' : (s1, Ok d) = (s, Ok (plain_data b))) by (rewrite <- E1; destruct (a_dt b); try discriminate; reflexivity).
      injection E1' as -> ->. split; [exact W|]. split; [apply frame_refl; exact W|]. split; [|split; [split; [unfold plain_data; cbn [a_dt]; clear - EO; destruct (a_dt b); try discriminate; reflexivity|reflexivity]|split; [exact (fun R => R)|]]].
      + intros j Hj. cbn in Hj. apply in_map_iff in Hj. destruct Hj as (x & X & _). destruct (noptr_ptr _ _ X).
      + exists (amap (fun _ => VNone) (h5py_present (mkArr (stored_dt (a_dt b)) (a_shape b) (map noptr (a_data b))))), (fun _ => False). split; [unfold fetched; destruct (a_dt b); try discriminate; reflexivity|].
        split; [intros j []|]. split; [intros j Hj; cbn in Hj; apply in_map_iff in Hj; destruct Hj as (x & X & _); destruct (noptr_ptr _ _ X)|].
        intros h _ _ n _. unfold read_array. cbn [a_dt a_shape a_data plain_data]. destruct (a_dt b); try discriminate; cbn [stored_dt]; try congruence; try reflexivity; destruct n0; reflexivity. }
  destruct A1 as (W1 & F1 & P1 & [ED ES] & L1 & D & Q & Q1 & Q2 & Q3 & Q4).
  destruct (okt_frame wo rnd _ _ _ _ _ W F1 (okt_own s g nm) K) as [K1 N1].
  apply bind_ok in E. destruct E as (s2 & i & E2 & E).
  assert (L' : room s1 g nm c a ts \/ ref_dt (a_dt b) <> TS 0) by (destruct L as [L|L]; [left; exact (L1 L)|right; exact (L b E0)]).
  destruct (put_any s1 g nm c a ts b d s2 i W1 K1 P1 E0 ED ES L' E2) as (W2 & F2 & A2 & ob0 & f & O2 & O3 & O4 & RP). rewrite N1 in F2, A2, O4. fold t in F2, A2, O4.
  set (d' := mkArr (stored_dt (a_dt d)) (a_shape d) (a_data d)) in *.
  apply bind_ok in E. destruct E as (s2' & ty & E3 & E). apply gets_ok in E3. destruct E3 as [-> ->].
  apply bind_ok in E. destruct E as (s3 & [] & E4 & E). apply ret_ok in E. destruct E as [-> ->].
  set (ty := dset_dtype (hp s2) i) in *.
  destruct (sync_stored_if s2 i _ _ s3 O2 (HN ty) E4) as (at_ & -> & HNo & HA).
  set (ob := with_attrs ob0 at_) in *.
  assert (OB : o_body ob = BData d' f) by exact O3.
  assert (SK : same_kind (o_body ob0) (o_body ob)) by (rewrite OB, O3; exact I).
  assert (FC : frame (pre t) s2 (set_hp s2 (upd (hp s2) i ob))).
  { eapply frame_change; [exact W2|exact O2|reflexivity|exact SK|]. destruct A2 as (_ & _ & ->). apply pre_refl. }
  assert (FE : frame (pre t) s1 (set_hp s2 (upd (hp s2) i ob))) by (eapply frame_trans; eassumption).
  pose proof (elem_clear wo rnd s t U) as CL.
  pose proof (closed_frame wo rnd _ _ _ _ _ FE CL Q2) as Q2'.
  exists i, ob, d', f, b, D, Q, ty. split; [reflexivity|]. cbn [hp set_hp] in *.
  split; [apply upd_same|]. split; [exact OB|]. split; [split; [cbn [d' a_dt]; rewrite ED; reflexivity|exact ES]|].
  assert (LI : live (upd (hp s2) i ob) i = true).
  { rewrite (change_live s2 i ob0 ob O2 eq_refl SK). apply A2. }
  split. { split; [cbn [hp set_hp]; rewrite upd_same; discriminate|]. split; [exact LI|]. unfold name_of. cbn [hp set_hp]. rewrite upd_same. exact O4. }
  split; [exact Q2'|]. split; [exact Q3|]. split; [exact E0|split; [split; [intros R k; apply HA; exact (RP (L1 R) ty)|exact HNo]|split; [exact Q1|]]].
  - apply Q4.
    + intros j n Qj. apply (read_stable ro keq (hp s1) (upd (hp s2) i ob) Q); [|exact Qj].
      intros m Qm. destruct (Q2 m Qm) as (C1 & C2 & om & C3 & C4 & C5). destruct (CL _ C2) as (X1' & X2' & X3').
      exists om, om. split; [exact C3|]. split; [rewrite <- C3; apply (f_same _ _ _ _ _ FE m C1 X1' X3' X2')|]. split; [apply eqo_refl|]. split; [exact C4|].
      intros x y z B Hz. pose proof (C5 x y z B Hz) as Qz. destruct (Q2 z Qz) as (-> & _). destruct (Q2' z Qz) as (-> & _). auto.
    + intros j Qj. apply (Q2' j Qj).
Qed.

Lemma np_stored_gen s g nm c a ts s' r : wf s -> okt s g nm -> room s g nm c a ts -> unreserved s (name_of (hp s) g ++ [nm]) ->
  (np_incompatible wo a = true -> o_action wo = lit "ignore") ->
  (forall b, np_prepare wo (c, a) = Ok b -> as_group wo a (a_dt b) = false /\ a_dt b <> TRef /\
     (a_dt b = TObj -> Forall (fun e => exists p, e = XPtr p /\ In (XPtr p) (a_data a)) (a_data b))) ->
  (forall ty, NoDup (map fst (np_attrs wo (c, a) ts [] false ty))) -> (forall p, In (XPtr p) (a_data a) -> storable p) ->
  np_write wo rnd tries wr g nm (c, a) ts s = (s', Ok r) ->
  exists i ob d f b D Q t, r = Some i /\ hp s' i = Some ob /\ o_body ob = BData d f /\ (a_dt d = stored_dt (ref_dt (a_dt b)) /\ a_shape d = a_shape b) /\ at_target s' (name_of (hp s) g ++ [nm]) i /\
    closed (hp s') (elem_reg s) Q /\ (forall j, In (XPtr j) (a_data d) -> Q j) /\ np_prepare wo (c, a) = Ok b /\ (forall k, o_attrs ob k = fresh_attrs (np_attrs wo (c, a) ts [] false t) k) /\ fetched b D /\
    forall n, (forall p, In (XPtr p) (a_data a) -> depth p <= n) -> read_array (hp s') (read ro keq (hp s') n) d = Ok D.
Proof.
  intros W K L U AI HB HN HS E.
  destruct (np_stored_any s g nm c a ts s' r W K (or_introl L) U AI HB HN HS E) as (i & ob & d & f & b & D & Q & t & E1 & E2 & E3 & E4 & E5 & E6 & E7 & E8 & [E9 _] & E10 & E11).
  exists i, ob, d, f, b, D, Q, t. repeat (split; [first [assumption|exact (E9 L)]|]). exact E11.
Qed.

Lemma np_stored0 s g nm c a ts s' r : wf s -> okt s g nm -> room s g nm c a ts -> unreserved s (name_of (hp s) g ++ [nm]) ->
  np_obj wo c a -> compatible wo ro a -> (forall p, In (XPtr p) (a_data a) -> storable p) ->
  np_write wo rnd tries wr g nm (c, a) ts s = (s', Ok r) ->
  exists i ob d f b D Q t, r = Some i /\ hp s' i = Some ob /\ o_body ob = BData d f /\ (a_dt d = stored_dt (ref_dt (a_dt b)) /\ a_shape d = a_shape b) /\ at_target s' (name_of (hp s) g ++ [nm]) i /\
    closed (hp s') (elem_reg s) Q /\ (forall j, In (XPtr j) (a_data d) -> Q j) /\ np_prepare wo (c, a) = Ok b /\ (forall k, o_attrs ob k = fresh_attrs (np_attrs wo (c, a) ts [] false t) k) /\ fetched b D /\
    forall n, (forall p, In (XPtr p) (a_data a) -> depth p <= n) -> read_array (hp s') (read ro keq (hp s') n) d = Ok D.
Proof.
  intros W K L U HN HC HS E. pose proof (obj_simple _ _ _ HN) as Hs.
  apply np_stored_gen; auto.
  - exact (action_ignore a Hs HC).
  - intros b E0. destruct (prep_dt wo c a b E0 Hs) as (PD1 & PD2 & PD3). split; [|split; [exact PD3|intros EB; exact (prep_obj wo wo c a b E0 HN EB)]].
    unfold as_group. destruct (is_struct (a_dt b)); [rewrite PD1 by reflexivity; reflexivity|reflexivity].
  - intros ty. exact (np_attrs_nodup wo c a ts ty (p_meta _ _ HP) Hs).
Qed.
Lemma np_stored s g nm c a ts s' r : wf s -> okt s g nm -> room s g nm c a ts -> unreserved s (name_of (hp s) g ++ [nm]) ->
  np_obj wo c a -> compatible wo ro a -> (forall p, In (XPtr p) (a_data a) -> storable p) ->
  np_write wo rnd tries wr g nm (c, a) ts s = (s', Ok r) ->
  exists i ob d f b D Q t, r = Some i /\ hp s' i = Some ob /\ o_body ob = BData d f /\ (a_dt d = stored_dt (ref_dt (a_dt b)) /\ a_shape d = a_shape b) /\ Q i /\ closed (hp s') (reg s (name_of (hp s) g ++ [nm])) Q /\
    np_prepare wo (c, a) = Ok b /\ (forall k, o_attrs ob k = fresh_attrs (np_attrs wo (c, a) ts [] false t) k) /\ fetched b D /\
    forall n, (forall p, In (XPtr p) (a_data a) -> depth p <= n) -> read_array (hp s') (read ro keq (hp s') n) d = Ok D.
Proof.
  intros W K L U HN HC HS E.
  destruct (np_stored0 s g nm c a ts s' r W K L U HN HC HS E) as (i & ob & d & f & b & D & Q & ty & E1 & E2 & E3 & E4 & E5 & E6 & E7 & E8).
  exists i, ob, d, f, b, D, (fun j => j = i \/ Q j), ty. split; [exact E1|]. split; [exact E2|]. split; [exact E3|]. split; [exact E4|]. split; [left; reflexivity|].
    split; [exact (own_closed s s' _ i ob d f Q E2 E3 E5 E6 E7)|exact E8].
Qed.

Lemma np_returned s g nm c a ts s' r : wf s -> okt s g nm -> room s g nm c a ts -> unreserved s (name_of (hp s) g ++ [nm]) ->
  np_obj wo c a -> compatible wo ro a -> (forall p, In (XPtr p) (a_data a) -> storable p) ->
  Forall (fun x => (x < 128)%N) ts -> (c = CRecarray -> ts = lit "numpy.recarray") ->
  np_write wo rnd tries wr g nm (c, a) ts s = (s', Ok r) ->
  exists i ob Q a', r = Some i /\ Q i /\ closed (hp s') (reg s (name_of (hp s) g ++ [nm])) Q /\ same (VNp c a) (VNp c a') /\ (c = CScalar -> a' = a) /\
    hp s' i = Some ob /\ attr_str (o_attrs ob) (lit "Python.Type") = Ok (Some ts) /\ attr_str (o_attrs ob) (lit "MATLAB_class") = Ok (mclass wo (a_dt a)) /\
    forall n, (forall p, In (XPtr p) (a_data a) -> depth p <= n) -> np_read ro (hp s') (read ro keq (hp s') n) ob = Ok (VNp c a').
Proof.
  intros W K L U HN HC HS HT HR E.
  destruct (np_stored s g nm c a ts s' r W K L U HN HC HS E) as (i & ob & d & f & b & D & Q & ty & E1 & E2 & E3 & _ & E4 & E5 & E6 & E7 & E8 & E9).
  destruct (np_read_attrs wo c a ts ty (p_meta _ _ HP) (obj_simple _ _ _ HN) (o_attrs ob) HT) as (me & R1 & R2 & R3); [intros k _; apply E7|].
  destruct (np_meta_back wo ro c a ts b D HP HN HC HR E6 E8) as (a' & M1 & M2 & M3).
  exists i, ob, Q, a'. refine (conj E1 (conj E4 (conj E5 (conj M2 (conj M3 (conj E2 (conj R2 (conj R3 _)))))))).
  intros n Hn. unfold np_read. rewrite R1. cbn [bindr]. rewrite E3, (E9 n Hn). cbn [bindr]. unfold np_finish. cbn [ra_type ra_under ra_shape ra_fields ra_mfields bindr].
  exact M1.
Qed.

(** any value kept as a numpy object [c], [a] under the type string [ts] *)
Lemma np_held s g nm c a ts s' r v (post : pyval -> res pyval) :
  wf s -> okt s g nm -> room s g nm c a ts -> unreserved s (name_of (hp s) g ++ [nm]) ->
  np_obj wo c a -> compatible wo ro a -> (forall p, In (XPtr p) (a_data a) -> storable p) ->
  Forall (fun x => (x < 128)%N) ts -> (c = CRecarray -> ts = lit "numpy.recarray") ->
  (forall h rd i ob, h i = Some ob -> attr_str (o_attrs ob) (lit "Python.Type") = Ok (Some ts) ->
     attr_str (o_attrs ob) (lit "MATLAB_class") = Ok (mclass wo (a_dt a)) ->
     forall w, np_read ro h rd ob = Ok w -> read_value ro keq h rd i = post w) ->
  (forall a', same (VNp c a) (VNp c a') -> (c = CScalar -> a' = a) -> exists v', post (VNp c a') = Ok v' /\ same v v') ->
  1 <= depth v -> (forall p, In (XPtr p) (a_data a) -> S (depth p) <= depth v) ->
  np_write wo rnd tries wr g nm (c, a) ts s = (s', Ok r) ->
  exists i, r = Some i /\ held (hp s') (reg s (name_of (hp s) g ++ [nm])) i v.
Proof.
  intros W K L U HN HC HS HT HR HV HB D1 D2 E.
  destruct (np_returned s g nm c a ts s' r W K L U HN HC HS HT HR E) as (i & ob & Q & a' & E1 & E2 & E3 & E4 & E5 & E6 & E7 & E8 & E9).
  exists i. split; [exact E1|]. destruct (HB a' E4 E5) as (v' & V1 & V2). exists Q, v'. split; [exact E2|]. split; [exact E3|]. split; [exact V2|]. split; [exact (type_has _ _ _ _ E6 E7)|].
  intros n Hn. destruct n as [|n]; [lia|]. cbn [read]. rewrite (HV _ _ _ _ E6 E7 E8 (VNp c a')); [exact V1|]. apply E9. intros p Hp. specialize (D2 p Hp). lia.
Qed.

Ltac ascii := repeat (apply Forall_cons; [vm_compute; reflexivity|]); apply Forall_nil.
Lemma scalar_obj d e : typed d e -> match d with TRef | TStruct _ | TObj | TS _ | TUni _ => False | TC w => w = 8 \/ w = 16 | _ => True end ->
  np_obj wo CScalar (mkArr d [] [e]).
Proof.
  intros H1 H2. constructor; cbn [a_dt a_shape a_data]; try congruence.
  - reflexivity.
  - constructor; [exact H1|constructor].
  - destruct d; auto.
  - intros _. split; [reflexivity|]. split; [intros ->; exact H2|]. destruct d; auto; destruct H2.
Qed.
Lemma bytes_obj s : strip0 s = s -> np_obj wo CScalar (np_bytes s).
Proof.
  intros H. unfold np_bytes. rewrite H. constructor; cbn [a_dt a_shape a_data]; try congruence; auto.
  - constructor; [|constructor]. split; [lia|exact H].
  - intros _. repeat split. discriminate.
Qed.
Lemma str_obj s : good_str s -> np_obj wo CScalar (np_str s).
Proof.
  intros H. unfold np_str. rewrite (good_strip s H). constructor; cbn [a_dt a_shape a_data]; try congruence; auto.
  - constructor; [|constructor]. split; [lia|exact H].
  - intros _. repeat split. discriminate.
Qed.
Lemma seq_obj l : np_obj wo CNdarray (obj_array l).
Proof.
  unfold obj_array. constructor; cbn [a_dt a_shape a_data]; try congruence; auto.
  - rewrite map_length. cbn. lia.
  - rewrite Forall_map, Forall_forall. intros; exact I.
Qed.
End Marsh.
End Write.
