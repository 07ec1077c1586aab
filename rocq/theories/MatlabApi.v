(** C41 for calls of File.writes. *)
From Verif Require Import OptionsSpec OptionsFacts Base PathEsc PathEscFacts PosixPath PosixFacts ProcessPath ProcessPathFacts Unicode Dec NdArray Value OptionsM Attrs Hdf5 HeapFacts NpWrite MarshalW MarshalR FrameFacts WriteFrame ReadFacts FileApi ApiFacts ApiSpec HistoryFacts FileFacts RndFacts RoundSpec RoundHeap RoundWrite RoundVal RoundDict Plan Layout LayoutNp LayoutApi MatlabSpec MatlabFacts MatlabPlan.
Local Open Scope nat_scope.

Lemma tidy_flat {A} (f : A -> elem pyval) l : (forall x, match f x with XPtr _ => False | _ => True end) -> Forall (fun e => tidy (elem_val e)) (map f l).
Proof. intros H. rewrite Forall_map. apply Forall_forall. intros x _. specialize (H x). destruct (f x); try (apply T_atom; exact I). destruct H. Qed.
Fixpoint presentable_tidy v (H : presentable v) {struct H} : tidy v.
Proof.
  assert (G : forall l, Forall presentable l -> Forall tidy l).
  { intros l F. induction F; constructor; auto. }
  assert (A : forall c a, a_dt a <> TObj -> (forall fs, a_dt a <> TStruct fs) -> Forall (fun e => match e with XPtr _ => False | _ => True end) (a_data a) -> tidy (VNp c a)).
  { clear. intros c a D1 D2 F. apply T_np; [|intros fs D; destruct (D2 fs D)]. eapply Forall_impl; [|exact F]. intros e He. destruct e; try (apply T_atom; exact I). destruct He. }
  destruct H; try (apply T_atom; exact I).
  - apply A; [intros D; rewrite D in H; discriminate H|intros fs D; rewrite D in H; discriminate H|]. eapply Forall_impl; [|exact H1]. intros e He. destruct e; auto. destruct (a_dt a); destruct He.
  - apply A; [congruence|congruence|]. eapply Forall_impl; [|exact H2]. intros e (s & -> & _). exact I.
  - apply A; [congruence|congruence|]. eapply Forall_impl; [|exact H1]. intros e (s & -> & _). exact I.
  - apply T_np; [|congruence]. rewrite H1, Forall_map. apply G. assumption.
  - apply T_np.
    + eapply Forall_impl; [|exact H2]. intros e (s & -> & _). apply T_atom. exact I.
    + intros fs' D. rewrite D in H. injection H as ->. split; [exact H1|]. intros cols n f Hin Hn.
      assert (X : Forall (fun e => forall cols, e = XRec cols -> forall n f, nth_error fs n = Some f -> tidy (field_item (fst (snd f)) (snd (snd f)) (nth n cols []))) (a_data a)).
      { clear - H2 presentable_tidy. induction H2 as [|e l (cs & -> & L & F) _ IH]; constructor; [|exact IH]. intros cols [= <-]. clear IH.
        assert (F' : Forall (fun fc => tidy (field_item (fst (snd (fst fc))) (snd (snd (fst fc))) (snd fc))) (combine fs cs)).
        { clear L. induction F as [|fc l' F1 _ IF]; constructor; [apply presentable_tidy; exact F1|exact IF]. }
        clear - F' L. revert fs L F'. induction cs as [|c cs IC]; intros fs L F n f Hn.
        - destruct fs; [destruct n; discriminate Hn|discriminate L].
        - destruct fs as [|x fs]; [discriminate L|]. cbn [combine] in F. inversion F as [|? ? F1 F2]; subst. destruct n as [|n]; cbn in Hn.
          + injection Hn as <-. exact F1.
          + cbn [nth]. apply (IC fs); auto. }
      rewrite Forall_forall in X. exact (X _ Hin cols eq_refl n f Hn).
  - apply T_seq. auto.
  - apply T_dict; auto.
    + intros cs E. destruct (key_codes_texts _ _ H0) as (cs' & C1 & C2 & _). assert (cs' = cs) by congruence. subst cs'. rewrite C2. exact H1.
    + intros E. destruct (key_codes_texts _ _ H0) as (cs' & C1 & _). congruence.
  - apply T_dict; auto. intros cs E. rewrite (key_codes_other _ H0) in E. discriminate E.
  - apply T_rec. auto.
Qed.

(** the options MATLAB needs *)
Lemma matlab_forced args o0 l o : init args = Ok o0 -> o = fold_left assign l o0 -> get o MatlabCompatible = OVBool true ->
  o_matlab_compatible o = true /\ o_struct_as_struct o = true /\ o_atleast_2d o = true /\ o_bytes_utf16 o = true /\ o_str_utf16 o = true /\ o_bools_uint8 o = true /\
  o_reverse o = true /\ o_shape_empty o = true /\ o_complex_names o = (lit "real", lit "imag") /\ o_refs o = lit "/#refs#".
Proof.
  intros HI HO HM. rewrite HO in *. set (x := fold_left assign l o0) in *. assert (HM' := HM). pose proof (history_minv args o0 l HI) as F. fold x in F. specialize (F HM). clearbody x.
  cbn [get] in HM'. injection HM' as HM'.
  pose proof (F StructuredNumpyNdarrayAsStruct _ eq_refl) as F1. pose proof (F MakeAtleast2d _ eq_refl) as F2. pose proof (F ConvertNumpyBytesToUtf16 _ eq_refl) as F3.
  pose proof (F ConvertNumpyStrToUtf16 _ eq_refl) as F4. pose proof (F ConvertBoolsToUint8 _ eq_refl) as F5. pose proof (F ReverseDimensionOrder _ eq_refl) as F6.
  pose proof (F StoreShapeForEmpty _ eq_refl) as F7. pose proof (F ComplexNames _ eq_refl) as F8. pose proof (F GroupForReferences _ eq_refl) as F9.
  clear F HM. cbn [get] in *. injection F1 as F1. injection F2 as F2. injection F3 as F3. injection F4 as F4. injection F5 as F5. injection F6 as F6. injection F7 as F7. injection F9 as F9.
  destruct (o_complex_names x) as [u v]. cbn [fst snd] in F8. injection F8 as -> ->. auto 12.
Qed.

Lemma writes_shown o s rnd tries n mdict f :
  o_matlab_compatible o = true /\ o_struct_as_struct o = true /\ o_atleast_2d o = true /\ o_bytes_utf16 o = true /\ o_str_utf16 o = true /\ o_bools_uint8 o = true /\
    o_reverse o = true /\ o_shape_empty o = true /\ o_complex_names o = (lit "real", lit "imag") /\ o_refs o = lit "/#refs#" ->
  reachable (lit "/#refs#") s -> plain_link (o_keys_name o) -> plain_link (o_values_name o) -> o_keys_name o <> o_values_name o ->
  (forall p v, In (p, v) mdict -> valid_path p /\ presentable v /\ snd (file_contains (mkFile true s) p) = Ok false) ->
  ForallOrdPairs (fun x y => forall a b, denotes (fst x) a -> denotes (fst y) b -> ~ overlap a b) mdict ->
  file_writes o rnd tries n (mkFile true s) mdict = (f, Ok tt) -> no_repeat rnd (rpos s) (rpos (fl_st f)) ->
  forall p v, In (p, v) mdict -> exists t i m, denotes p t /\ walk (hp (fl_st f)) 0 t = Some i /\ looks o v m /\ mat (hp (fl_st f)) i m.
Proof.
  intros (M1 & M2 & M3 & M4 & M5 & M6 & M7 & M8 & M9 & M10) HR K1 K2 KN OK ND E NR p v Hin.
  assert (GR : good_refs (lit "/#refs#")) by (split; [reflexivity|vm_compute; discriminate]).
  assert (U : usable (lit "/#refs#") o) by (split; auto).
  destruct (api_filled _ s o rnd tries n mdict f GR HR U KN) with (p := p) (v := v) as (t & D & F); auto.
  { intros q w H. destruct (OK q w H) as (H1 & H2 & H3). split; [exact H1|]. split; [apply presentable_tidy; exact H2|exact H3]. }
  destruct (OK p v Hin) as (_ & PV & _).
  unfold filled in F. destruct (plan o n v) as [r|] eqn:PL; [|destruct F].
  destruct (proj1 (plan_shows o M1 M2 M3 M4 M5 M6 M7 M8 M9 M10 n) v PV r PL) as (T & m & -> & LK & S).
  destruct F as (i & W & (_ & _ & Q & SQ & _ & _ & R)). exists t, i, m. split; [exact D|]. split; [exact W|]. split; [exact LK|].
  apply (proj2 S (hp (fl_st f)) Q (fun a => a) i); [intros a k _; reflexivity|intros j Hj; apply (SQ j Hj)|exact R].
Qed.
