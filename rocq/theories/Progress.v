(** Storable values can be written to new places: nothing raises, unless [tries] random
    numbers in a row were names in use (or the nesting is deeper than [n]). *)
From Verif Require Import Base PathEsc PathEscSpec PathEscFacts PosixPath PosixFacts ProcessPathFacts Unicode UnicodeFacts Dec NdArray Value OptionsM StrConv ComplexM Attrs NpDims MColl Hdf5 HeapFacts NpWrite NpRead MarshalW MarshalR FrameFacts WriteFrame ReadFacts FileApi ApiFacts ApiSpec HistoryFacts FileFacts RndFacts RoundSpec RoundNp RoundHeap RoundWrite RoundVal RoundDict StructBuild RoundStruct RoundAll RoundApi ProgressSpec.
Local Open Scope nat_scope.

Section Ran.
Variable tries : nat.
(** it came to an end, or gave up after at least [tries] draws *)
Definition ran {A} (s : st) (p : st * res A) : Prop :=
  rpos s <= rpos (fst p) /\ match snd p with Ok _ => True | Err e => e = OutOfFuel /\ rpos s + tries <= rpos (fst p) end.
Lemma ran_ok {A} s s' (a : A) : rpos s <= rpos s' -> ran s (s', Ok a). Proof. intros H. split; [exact H|exact I]. Qed.
Lemma ran_bind {A B} s (m : M A) (k : A -> M B) : ran s (m s) -> (forall s1 a, m s = (s1, Ok a) -> rpos s <= rpos s1 -> ran s1 (k a s1)) -> ran s (bindm m k s).
Proof.
  intros [H1 H2] H. unfold bindm. destruct (m s) as [s1 [a|e]] eqn:E; cbn [fst snd] in *; [|split; assumption].
  destruct (H s1 a eq_refl H1) as [K1 K2]. split; [lia|]. destruct (snd (k a s1)); [exact I|]. destruct K2 as [-> K2]. split; [reflexivity|lia].
Qed.
Lemma ran_later {A} s s1 (p : st * res A) : rpos s <= rpos s1 -> ran s1 p -> ran s p.
Proof. intros H [H1 H2]. split; [lia|]. destruct (snd p); [exact I|]. destruct H2 as [-> H2]. split; [reflexivity|lia]. Qed.
Lemma ran_ret {A} s (a : A) : ran s (ret a s). Proof. apply ran_ok. lia. Qed.
Lemma ran_still {A} s (m : M A) s' a : still m -> m s = (s', Ok a) -> ran s (m s).
Proof. intros H E. pose proof (H s) as X. rewrite E in X |- *. cbn [fst] in X. apply ran_ok. lia. Qed.
End Ran.

Lemma name_text_ascii cs : Forall ascii cs -> ascii (name_text cs).
Proof.
  intros H. assert (X : ascii (flat_map (fun c => fslash :: c) cs)).
  { induction H as [|c cs Hc _ IH]; cbn [flat_map]; [constructor|]. apply Forall_app. split; [|exact IH]. constructor; [reflexivity|exact Hc]. }
  unfold name_text. destruct cs; [constructor; [reflexivity|constructor]|exact X].
Qed.
(** ** escaped names *)
Lemma esc_in s c : In c (esc s) -> In c s \/ (c < 128)%N.
Proof.
  unfold esc. assert (Hc : forall y, In c (token_text (esc_token y)) -> c = y \/ (c < 128)%N).
  { intros y. unfold esc_token. destruct (N.eqb_spec y nul); [cbn; intuition (subst; right; reflexivity)|].
    destruct (N.eqb_spec y fslash); [cbn; intuition (subst; right; reflexivity)|].
    destruct (N.eqb_spec y bslash); cbn; intuition (subst; auto; right; reflexivity). }
  induction s as [|d s IH]; [intros []|]. cbn [esc_tokens]. destruct (N.eqb_spec d dot) as [->|Hd].
  - unfold text in *. cbn [flat_map]. rewrite in_app_iff. intros [H|H]; [right; cbn in H; intuition (subst; reflexivity)|].
    destruct (IH H) as [X|X]; [left; right; exact X|right; exact X].
  - unfold text. rewrite in_flat_map. intros (t & Ht & Hx). apply in_map_iff in Ht. destruct Ht as (y & <- & Hy).
    destruct (Hc y Hx) as [->|X]; [left; exact Hy|right; exact X].
Qed.
Lemma name_ok s : s <> [] -> Forall okch s -> name_err s = None.
Proof. intros H1 H2. apply name_err_iff. auto. Qed.
Lemma ascii_scalar1 c : (c < 128)%N -> is_scalar c = true.
Proof. intros H. unfold is_scalar, is_surrogate, max_cp. destruct (N.ltb_spec c 1114112), (N.leb_spec 55296 c); try lia; reflexivity. Qed.
Lemma escaped_ok t : t <> [] -> scalar_str t -> name_err (escaped t) = None.
Proof.
  intros H S. rewrite escaped_esc. apply name_ok; [apply (esc_clean t H)|]. apply Forall_forall. intros c Hc. split.
  - destruct (esc_in t c Hc) as [X|X]; [unfold scalar_str in S; rewrite Forall_forall in S; apply S; exact X|]. apply ascii_scalar1. exact X.
  - intros ->. apply (proj2 (esc_chars t)). exact Hc.
Qed.
Lemma escaped_ascii t : ascii t -> ascii (escaped t).
Proof.
  intros A. rewrite escaped_esc. unfold ascii. apply Forall_forall. intros c Hc. destruct (esc_in t c Hc) as [X|X]; [|exact X]. unfold ascii in A. rewrite Forall_forall in A. auto.
Qed.
Lemma digits_ok l : l <> [] -> Forall (fun c => (48 <= c <= 57 \/ 97 <= c <= 102)%N) l -> name_err l = None /\ ascii l.
Proof.
  intros H F. split; [apply name_ok; [exact H|]|]; (eapply Forall_impl; [|exact F]); intros c Hc; cbn in *; [|lia].
  split; [apply ascii_scalar1; lia|lia].
Qed.
Lemma hex_ok n : name_err (show_hex n) = None /\ ascii (show_hex n).
Proof. apply digits_ok; [apply show_hex_nonempty|apply show_hex_digits]. Qed.
Lemma hex16_ok n : name_err (show_hex16 n) = None /\ ascii (show_hex16 n).
Proof. apply digits_ok; [|apply show_hex16_digits]. intros E. pose proof (show_hex16_len n) as L. rewrite E in L. cbn in L. lia. Qed.

(** ** preparing an array never fails *)
Lemma mapr_ok {A B} (f : A -> res B) l : (forall x, In x l -> exists y, f x = Ok y) -> exists m, mapr f l = Ok m.
Proof.
  induction l as [|x l IH]; intros H; [eexists; reflexivity|]. destruct (H x (or_introl eq_refl)) as [y Hy].
  destruct IH as [m Hm]; [intros z Hz; apply H; right; exact Hz|]. cbn [mapr]. rewrite Hy. cbn [bindr]. rewrite Hm. eexists; reflexivity.
Qed.
Lemma prepare_ok wo ro c a : paired wo ro -> np_obj wo c a -> exists b, np_prepare wo (c, a) = Ok b.
Proof.
  intros HP H. unfold np_prepare. assert (exists b, store_str wo c (store_bytes wo a) = Ok b) as [b2 ->].
  { destruct (a_dt a) eqn:Ed.
    all: try (assert (X : store_bytes wo a = a) by (unfold store_bytes; rewrite Ed; reflexivity); unfold store_str; rewrite X, Ed; eexists; reflexivity).
    - assert (X : a_dt (store_bytes wo a) = TS n \/ a_dt (store_bytes wo a) = TU 2).
      { unfold store_bytes. rewrite Ed. destruct (o_bytes_utf16 wo); [|left; exact Ed]. destruct (nbytes a =? 0); [right; reflexivity|].
        match goal with |- context [if ?c then _ else _] => destruct c end; [right; reflexivity|left; exact Ed]. }
      unfold store_str. destruct X as [-> | ->]; eexists; reflexivity.
    - assert (X : store_bytes wo a = a) by (unfold store_bytes; rewrite Ed; reflexivity). rewrite X.
      assert (U : exists b, convert_numpy_str_to_uint32 a = Ok b).
      { unfold convert_numpy_str_to_uint32. destruct (nbytes a =? 0); [eexists; reflexivity|]. rewrite Ed.
        destruct (mapr_ok (fun e : elem pyval => match e with XStr s => Ok s | _ => Err TypeError end) (a_data a)) as [m ->]; [|eexists; reflexivity].
        intros e He. pose proof (n_elems _ _ _ H) as T. rewrite Forall_forall in T. specialize (T e He). rewrite Ed in T. destruct e; try destruct T. eexists; reflexivity. }
      unfold store_str. rewrite Ed. destruct (o_str_utf16 wo) eqn:EU; [|exact U]. destruct (convert_numpy_str_to_uint16 a) as [b|]; [|exact U].
      destruct c.
      all: try (match goal with |- exists b, (if ?c then _ else _) = _ => destruct c end; [eexists; reflexivity|exact U]).
      all: destruct (a_shape a) as [|d sh] eqn:Es; [exfalso; eapply (n_0d _ _ _ H); [discriminate|exact EU|exact Ed|exact Es]|].
      all: match goal with |- exists b, (if ?c then _ else _) = _ => destruct c end; [eexists; reflexivity|exact U]. }
  cbn [bindr]. set (b5 := if o_shape_empty wo && np_empty a then _ else _). destruct (is_cpx (a_dt b5)) eqn:Ec; [|eexists; reflexivity].
  unfold encode_complex. destruct (a_dt b5); try discriminate. pose proof (p_cpx _ _ HP) as R. unfold recognised in R.
  destruct (recognised_parts _ R) as (_ & _ & N). rewrite N. eexists; reflexivity.
Qed.
Lemma prep_able wo c a b : np_prepare wo (c, a) = Ok b -> simple (a_dt a) -> a_dt b <> TObj -> h5_able (a_dt b) = true.
Proof.
  intros W Hs NO. unfold np_prepare in W.
  destruct (store_str wo c (store_bytes wo a)) as [b2|] eqn:E2; [|discriminate]. cbn [bindr] in W.
  set (b3 := write_dims wo b2) in *. set (b4 := if dt_eqb (a_dt b3) TBool && o_bools_uint8 wo then _ else b3) in *.
  set (b5 := if o_shape_empty wo && np_empty a then _ else b4) in *.
  assert (D2 : match a_dt b2 with TUni _ | TStruct _ => False | _ => True end).
  { destruct (a_dt a) eqn:Ed; cbn in Hs; try tauto.
    all: try (unfold store_bytes in E2; rewrite Ed in E2; unfold store_str in E2; rewrite Ed in E2; injection E2 as <-; rewrite Ed; exact I).
    - assert (X : a_dt (store_bytes wo a) = TS n \/ a_dt (store_bytes wo a) = TU 2).
      { unfold store_bytes. rewrite Ed. destruct (o_bytes_utf16 wo); [|left; exact Ed]. destruct (nbytes a =? 0); [right; reflexivity|].
        match goal with |- context [if ?c then _ else _] => destruct c end; [right; reflexivity|left; exact Ed]. }
      assert (Y : b2 = store_bytes wo a) by (unfold store_str in E2; destruct X as [X|X]; rewrite X in E2; congruence).
      rewrite Y. destruct X as [-> | ->]; exact I.
    - assert (X : store_bytes wo a = a) by (unfold store_bytes; rewrite Ed; reflexivity). rewrite X in E2.
      destruct (store_str_flat wo c a n b2 Ed E2) as [_ [Y|Y]]; rewrite Y; exact I. }
  assert (D5 : match a_dt b5 with TUni _ | TStruct _ => False | _ => True end).
  { unfold b5. destruct (o_shape_empty wo && np_empty a); [exact I|]. unfold b4. destruct (_ && _); [exact I|]. unfold b3. rewrite write_dims_dt. exact D2. }
  destruct (is_cpx (a_dt b5)) eqn:Ec.
  - unfold encode_complex in W. destruct (a_dt b5); try discriminate. destruct (eqb_str _ _); [discriminate|]. injection W as <-. reflexivity.
  - injection W as <-. destruct (a_dt b5); try reflexivity; try congruence; destruct D5.
Qed.

(** ** attributes of new objects *)
Lemma fresh_sync reqs i s ob : hp s i = Some ob -> o_attrs ob = no_attrs -> NoDup (map fst reqs) ->
  (forall k q, In (k, q) reqs -> exists v, req_val q = Ok v) -> exists s', sync_attrs i reqs true s = (s', Ok tt).
Proof.
  intros Ei Ea N H. unfold sync_attrs, attrs_of, set_attrs. rewrite Ei, Ea.
  destruct (set_all_ok no_attrs reqs true N H) as (a' & -> & _); [discriminate|]. eexists; reflexivity.
Qed.
Lemma dput_reqs (P : areq -> Prop) k q l : P q -> (forall k' q', In (k', q') l -> P q') -> forall k' q', In (k', q') (dput k q l) -> P q'.
Proof.
  intros H. induction l as [|[x y] l IH]; intros F k' q'; cbn [dput]; [intros [[= <- <-]|[]]; exact H|].
  destruct (eqb_str k x).
  - intros [[= <- <-]|X]; [exact H|]. apply (F k'). right. exact X.
  - intros [[= <- <-]|X]; [apply (F x); left; reflexivity|]. eapply IH; [|exact X]. intros a b Y. apply (F a). right. exact Y.
Qed.
Definition fine (q : areq) : Prop := exists v, req_val q = Ok v.
Lemma fine_string s : ascii s -> fine (QString s). Proof. intros H. exists (AStr s). cbn [req_val]. rewrite ascii_bytes_ok by exact H. reflexivity. Qed.
Lemma fine_val v : fine (QVal v). Proof. eexists; reflexivity. Qed.
Lemma fine_int v : fine (QPyInt v). Proof. eexists; reflexivity. Qed.
Lemma fine_strs v : fine (QStrs v). Proof. eexists; reflexivity. Qed.
Ltac ascii_lit := repeat (apply Forall_cons; [vm_compute; reflexivity|]); apply Forall_nil.
Lemma class_ascii d x : matlab_class_of d = Some x -> ascii x.
Proof.
  intros Hx. unfold matlab_class_of in Hx.
  assert (AL : forall y, Some y = Some x -> ascii y -> ascii x) by (intros y [= ->]; auto).
  destruct d; try discriminate; try (eapply AL; [exact Hx|]; first [apply dt_name_ascii|repeat constructor]; fail).
  all: do 17 (try (destruct w as [|w]); try discriminate; try (eapply AL; [exact Hx|]; repeat constructor; fail)).
Qed.
Lemma np_attrs_fine' o c a ts first ws t : (forall k q, In (k, q) first -> fine q) -> ascii ts -> forall k q, In (k, q) (np_attrs o (c, a) ts first ws t) -> fine q.
Proof.
  intros H0 Ht. unfold np_attrs.
  set (l1 := if o_store_python_metadata o then dput (lit "Python.numpy.Container") _ _ else _).
  assert (H1 : forall k q, In (k, q) l1 -> fine q).
  { unfold l1. destruct (o_store_python_metadata o); [|exact H0]. apply dput_reqs; [apply fine_string, container_ascii|]. apply dput_reqs; [apply fine_string, dt_name_ascii|].
    apply dput_reqs; [apply fine_val|exact H0]. }
  clearbody l1. set (l1' := if ws || fields_anyway o a then _ else l1).
  assert (H1' : forall k q, In (k, q) l1' -> fine q).
  { unfold l1'. destruct (ws || _); [|exact H1]. cbv zeta. set (m := if o_store_python_metadata o then _ else l1).
    assert (Hm : forall k q, In (k, q) m -> fine q) by (unfold m; destruct (o_store_python_metadata o); [apply dput_reqs; [apply fine_strs|]|]; exact H1).
    clearbody m. destruct (o_matlab_compatible o); [|exact Hm]. destruct (matlab_fields _); [apply dput_reqs; [apply fine_val|]|]; exact Hm. }
  clearbody l1'. set (l2 := if np_empty a then _ else l1').
  assert (H2 : forall k q, In (k, q) l2 -> fine q).
  { unfold l2. destruct (np_empty a); [|exact H1']. destruct (o_store_python_metadata o), (o_matlab_compatible o); repeat (apply dput_reqs; [apply fine_val|]); exact H1'. }
  clearbody l2. set (l3 := if o_matlab_compatible o then _ else l2).
  assert (H3 : forall k q, In (k, q) l3 -> fine q).
  { unfold l3. destruct (o_matlab_compatible o); [|exact H2]. destruct (_ && _); [apply dput_reqs; [apply fine_string; ascii_lit|exact H2]|].
    destruct (matlab_class_of (a_dt a)) eqn:E; [|exact H2]. apply class_ascii in E.
    destruct (a_dt a); try (apply dput_reqs; [apply fine_string; exact E|exact H2]); destruct t as [[]|];
      repeat (apply dput_reqs; [first [apply fine_int|apply fine_val|apply fine_string; exact E]|]); exact H2. }
  clearbody l3. destruct (o_store_python_metadata o && _); [apply dput_reqs; [apply fine_string; exact Ht|]|]; exact H3.
Qed.
Lemma np_attrs_fine o c a ts t : ascii ts -> forall k q, In (k, q) (np_attrs o (c, a) ts [] false t) -> fine q.
Proof. apply np_attrs_fine'. intros k q []. Qed.
Lemma dict_attrs_fine o ts plain codes : ascii ts -> (forall cs, codes = Some cs -> Forall (fun c => (fst c < 128)%N) cs) ->
  forall k q, In (k, q) (dict_attrs o ts plain codes) -> fine q.
Proof.
  intros Ht Hc. unfold dict_attrs. cbv zeta. set (l1 := if o_store_python_metadata o then match codes with Some _ => _ | None => _ end else []).
  assert (H1 : forall k q, In (k, q) l1 -> fine q).
  { unfold l1. destruct (o_store_python_metadata o); [|intros k q []]. destruct codes as [cs|].
    - intros k q [[= <- <-]|[[= <- <-]|[[= <- <-]|[]]]]; [apply fine_string; ascii_lit|apply fine_strs|]. apply fine_string. unfold ascii. rewrite Forall_map. apply Hc. reflexivity.
    - intros k q [[= <- <-]|[[= <- <-]|[]]]; [apply fine_string; ascii_lit|apply fine_strs]. }
  clearbody l1. set (l2 := if o_matlab_compatible o && _ then _ else l1).
  assert (H2 : forall k q, In (k, q) l2 -> fine q).
  { unfold l2. destruct (_ && _); [|exact H1]. destruct (matlab_fields _); [apply dput_reqs; [apply fine_val|]|]; exact H1. }
  clearbody l2. set (l3 := if o_matlab_compatible o && plain then _ else l2).
  assert (H3 : forall k q, In (k, q) l3 -> fine q).
  { unfold l3. destruct (_ && _); [|exact H2]. apply dput_reqs; [apply fine_string; ascii_lit|exact H2]. }
  clearbody l3. destruct (o_store_python_metadata o); [apply dput_reqs; [apply fine_string; exact Ht|]|]; exact H3.
Qed.

(** ** the write itself *)
Section Write.
Variables (wo ro : options) (keq : pyval -> pyval -> bool) (rnd : nat -> N) (tries : nat).
Local Notation rp := (rp wo). Local Notation ra := (ra wo). Local Notation wf := (wf wo). Local Notation frame := (frame wo rnd).
Local Notation okt := (okt wo). Local Notation wspec := (wspec wo rnd). Local Notation unreserved := (unreserved wo rnd).
Local Notation storable := (storable wo ro keq). Local Notation ran := (ran tries).
Hypotheses (HP : paired wo ro) (HI : inj_rnd rnd) (HY : ready wo).
Let Hkn := keys_clean wo ro HP.
Let Hvn := values_clean wo ro HP.

Lemma draw_ran g n : forall s, Progress.ran n s (draw rnd n g s).
Proof.
  induction n as [|n IH]; intros s; cbn [draw]; [split; cbn; [lia|]; split; [reflexivity|lia]|].
  destruct (lookup _ _ _); [|apply ran_ok; cbn; lia]. set (s1 := mkSt _ _ _ _ _ _ _). destruct (IH s1) as [H1 H2]. cbn [rpos s1] in *.
  split; [lia|]. destruct (snd _); [exact I|]. destruct H2 as [-> H2]. split; [reflexivity|lia].
Qed.
Lemma next_ran g s : ran s (next_name rnd tries g s).
Proof. unfold next_name. destruct (rcreated s); [apply ran_ok; cbn; lia|apply draw_ran]. Qed.
Lemma draw_form g n : forall s s' k, draw rnd n g s = (s', Ok k) -> exists x, k = show_hex16 x.
Proof. induction n as [|n IH]; intros s s' k; cbn [draw]; [discriminate|]. destruct (lookup _ _ _); [apply IH|]. intros [= <- <-]. eauto. Qed.
Lemma next_form g s s' k : next_name rnd tries g s = (s', Ok k) -> name_err k = None /\ ascii k.
Proof.
  unfold next_name. destruct (rcreated s); [intros [= <- <-]; apply hex_ok|]. intros E. apply draw_form in E. destruct E as [x ->]. apply hex16_ok.
Qed.
Lemma mark_ran s i p : hp s i <> None -> (o_matlab_compatible wo = true -> ascii p) -> exists s', mark_path wo i p s = (s', Ok tt).
Proof.
  intros H A. unfold mark_path. destruct (o_matlab_compatible wo).
  - unfold bindm, lift. rewrite ascii_bytes_ok by (apply A; reflexivity). unfold modify_attr, set_attrs. destruct (hp s i); [eexists; reflexivity|congruence].
  - unfold drop_attr, set_attrs. destruct (hp s i); [eexists; reflexivity|congruence].
Qed.
Lemma new_ran s g nm a b : okt s g nm -> name_err nm = None -> lookup (hp s) g nm = None -> exists s' i, new_link g nm a b s = (s', Ok i).
Proof.
  intros K N L. unfold new_link. rewrite N. destruct (k_name _ _ _ _ K) as [->|C]; [discriminate|]. destruct (comps_clean nm C) as [E1 E2].
  unfold start_of. rewrite E1, E2. cbn [create_at]. rewrite L, alloc_eq by apply (k_group _ _ _ _ K). eauto.
Qed.
Lemma get_ran s g nm : okt s g nm -> name_err nm = None -> get_obj g nm s = (s, Ok (lookup (hp s) g nm)).
Proof.
  intros K N. destruct (get_name g nm s (k_name _ _ _ _ K)) as [[e X]|(_ & _ & X)]; [|exact X]. unfold get_obj in X. rewrite N in X. discriminate.
Qed.
Lemma refs_ran s : wf s -> exists s' g, ensure_refs wo s = (s', Ok g).
Proof.
  intros W. unfold ensure_refs. destruct (rgrp s) as [g|]; [eauto|]. destruct (y_refs _ HY) as [k E].
  unfold bindm at 1. unfold get_obj, start_of, gets. rewrite (y_refs_name _ HY). replace (if isabs (o_refs wo) then 0 else 0) with 0 by (destruct (isabs _); reflexivity).
  destruct (walk (hp s) 0 (path_comps (o_refs wo))) as [g|] eqn:Wk.
  - destruct (w_refs _ _ W g Wk) as [G _]. unfold bindm, set_session, ret. rewrite G. eauto.
  - unfold create_group, new_link, start_of, bindm, set_session, ret. rewrite (y_refs_name _ HY). replace (if isabs (o_refs wo) then 0 else 0) with 0 by (destruct (isabs _); reflexivity).
    rewrite E in *. cbn [create_at walk] in *. destruct (lookup (hp s) 0 k) eqn:L; [discriminate|]. destruct (t_root _ _ (w_tree _ _ W)) as (ob & ls & H1 & _ & H3).
    rewrite alloc_eq by (unfold is_group; rewrite H1, H3; reflexivity). eauto.
Qed.
Lemma canon_ran s g : wf s -> rgrp s = Some g -> exists s' c, ensure_canon g s = (s', Ok c).
Proof.
  intros W R. unfold ensure_canon. destruct (canon s) as [c|]; [eauto|]. pose proof (w_sess _ _ W g R) as Wk. destruct (w_refs _ _ W g Wk) as [G C].
  destruct (lookup (hp s) g (lit "a")) as [c|] eqn:L; [rewrite (C c eq_refl); eauto|].
  unfold new_canon, new_link, bindm, set_session, ret. change (name_err (lit "a")) with (@None exn). change (path_comps (lit "a")) with [lit "a"]. change (start_of g (lit "a")) with g.
  cbn [create_at]. rewrite L, alloc_eq by exact G. eauto.
Qed.

Definition pspec (n : nat) (wr : nat -> pystr -> pyval -> M (option nat)) : Prop := forall s g nm v,
  wf s -> okt s g nm -> lookup (hp s) g nm = None -> unreserved s (name_of (hp s) g ++ [nm]) -> storable v -> name_err nm = None -> depth v <= n ->
  (o_matlab_compatible wo = true -> ascii_groups v /\ (grouplike v -> Forall ascii (name_of (hp s) g ++ [nm]))) -> ran s (wr g nm v s).

Section Marsh.
Variable n : nat.
Variable wr : nat -> pystr -> pyval -> M (option nat).
Hypotheses (Hwr : wspec wr) (Hrt : rspec wo ro keq rnd wr) (Hcs : cspec wo ro keq rnd wr) (Hpr : pspec n wr).

Lemma element_ran s g c v : wf s -> rgrp s = Some g -> storable v -> depth v <= n -> (o_matlab_compatible wo = true -> ascii_groups v) ->
  ran s (write_element wo rnd tries wr g c v s).
Proof.
  intros W Hr Hv Hd HA. pose proof (w_sess _ _ W g Hr) as Hw. pose proof (walk_root_name _ _ _ _ (w_tree _ _ W) Hw) as Hn.
  assert (LV : live (hp s) g = true) by (apply live_walk; rewrite Hn; exact Hw). destruct (w_refs _ _ W g Hw) as [Gg _].
  unfold write_element. apply ran_bind; [apply next_ran|]. intros s1 k E1 R1.
  destruct (next_keeps wo rnd tries (fun _ => False) s g W Hr) as (K1 & K2 & K3). rewrite E1 in K1, K2, K3. cbn [fst snd] in *.
  destruct (K3 k eq_refl) as (Q1 & Q2 & Q3 & Q4 & Q5 & Q6 & Q7 & Q8). specialize (Q8 HI). destruct (next_form g s s1 k E1) as [N1 N2].
  assert (PA : forall x, pre (rp ++ [x]) (rp ++ [k]) -> x = k).
  { intros x P. apply pre_antisym_len in P; [|rewrite !app_length; cbn; lia]. apply app_inj_tail in P. tauto. }
  assert (NA : ~ pre (rp ++ [k]) ra).
  { intros P. apply pre_antisym_len in P; [|unfold FrameFacts.ra; rewrite !app_length; cbn; lia]. apply app_inj_tail in P. tauto. }
  assert (OK : okt s1 g k).
  { constructor; rewrite ?Q1, ?Hn; auto. intros x P. apply PA in P. subst x. exact Q7. }
  assert (U : unreserved s1 (name_of (hp s1) g ++ [k])).
  { rewrite Q1, Hn. split; [exact NA|]. intros x P. apply PA in P. subst x. exact Q8. }
  rewrite <- Q1 in Q3.
  assert (AS : o_matlab_compatible wo = true -> Forall ascii rp) by (intros M; exact (y_ascii _ HY M)).
  apply ran_bind.
  { apply Hpr; auto. intros M. split; [apply HA; exact M|]. intros _. rewrite Q1, Hn. apply Forall_app. split; [apply AS; exact M|]. constructor; [exact N2|constructor]. }
  intros s2 r E2 R2. destruct (Hrt s1 g k v s2 r K1 OK Q3 U Hv E2) as (i & -> & (Q & v' & Qi & CQ & _)).
  destruct (Hwr s1 g k v K1 OK) as (W2 & F2 & _). rewrite E2 in W2, F2. cbn [fst] in *.
  destruct (CQ i Qi) as (_ & _ & ob & Oi & _).
  assert (NG : name_of (hp s2) g = rp).
  { assert (X : hp s1 g <> None) by (apply live_exists with (o := wo); [exact K1|apply (k_live _ _ _ _ OK)]). destruct (f_obj _ _ _ _ _ F2 g X) as (_ & Y & _). rewrite Y, Q1. exact Hn. }
  unfold bindm at 1. unfold gets. rewrite NG. destruct (mark_ran s2 i (name_text rp)) as [s3 E3]; [congruence|intros M; apply name_text_ascii, AS, M|].
  pose proof (still_mark wo i (name_text rp) s2) as S3. rewrite E3 in S3. cbn [fst] in S3. unfold bindm. rewrite E3. apply ran_ok. lia.
Qed.
Lemma elements_ran g c l : forall s, wf s -> rgrp s = Some g -> ptr_ok wo (hp s) c -> Forall storable l -> Forall (fun v => depth v <= n) l ->
  (o_matlab_compatible wo = true -> Forall ascii_groups l) -> ran s (mapM (write_element wo rnd tries wr g c) l s).
Proof.
  induction l as [|v l IH]; intros s W Hr Hc Hl Hd HA; cbn [mapM]; [apply ran_ret|]. inversion Hl as [|? ? Hv Hl']; subst. inversion Hd; subst.
  apply ran_bind; [apply element_ran; auto; intros M; specialize (HA M); inversion HA; assumption|]. intros s1 j E1 R1.
  destruct (element_keeps wo rnd tries Hkn Hvn wr Hwr (fun _ => False) s g c v W Hr Hc) as (K1 & K2 & K3). rewrite E1 in *. cbn [fst snd] in *.
  destruct (K3 j eq_refl) as [R2 _]. pose proof (ptr_ok_frame _ _ _ _ _ _ K2 Hc) as P1.
  apply ran_bind; [apply IH; auto; intros M; specialize (HA M); inversion HA; assumption|]. intros; apply ran_ret.
Qed.
Lemma object_array_ran a s : wf s -> Forall storable (map elem_val (a_data a)) -> Forall (fun v => depth v <= n) (map elem_val (a_data a)) ->
  (o_matlab_compatible wo = true -> Forall ascii_groups (map elem_val (a_data a))) -> ran s (write_object_array wo rnd tries wr a s).
Proof.
  intros W Hl Hd HA. unfold write_object_array. apply ran_bind.
  { destruct (refs_ran s W) as (s' & g & E). eapply ran_still; [apply still_refs|exact E]. }
  intros s1 g E1 R1. destruct (ensure_refs_keeps wo rnd (fun _ => False) s W) as (W1 & F1 & Q1). rewrite E1 in *. cbn [fst snd] in *. specialize (Q1 g eq_refl).
  apply ran_bind.
  { destruct (canon_ran s1 g W1 Q1) as (s' & c & E). eapply ran_still; [apply still_canon|exact E]. }
  intros s2 c E2 R2. destruct (ensure_canon_keeps wo rnd tries (fun _ => False) s1 g W1 Q1) as (W2 & F2 & Q2). rewrite E2 in *. cbn [fst snd] in *. destruct (Q2 c eq_refl) as [R3 P2].
  apply ran_bind; [apply elements_ran; auto|]. intros; apply ran_ret.
Qed.
(** the place stays free *)
Lemma array_free b s s1 d g nm : wf s -> okt s g nm -> lookup (hp s) g nm = None -> unreserved s (name_of (hp s) g ++ [nm]) ->
  write_object_array wo rnd tries wr b s = (s1, Ok d) -> lookup (hp s1) g nm = None.
Proof.
  intros W K L U E1. set (t := name_of (hp s) g ++ [nm]) in *.
  destruct (object_array_keeps wo rnd tries Hkn Hvn wr Hwr (fun _ => False) s b W) as (W1 & F0 & _). rewrite E1 in W1, F0. cbn [fst] in W1, F0.
  destruct (lookup (hp s1) g nm) as [j|] eqn:Lj; [|reflexivity]. exfalso.
  assert (AT : at_target s1 (name_of (hp s) g) g).
  { apply (at_target_frame wo rnd (fun _ => False) s); [exact F0|tauto|]. split; [apply live_exists with (o := wo); [exact W|apply (k_live _ _ _ _ K)]|].
    split; [apply (k_live _ _ _ _ K)|reflexivity]. }
  destruct (link_child wo s1 (name_of (hp s) g) g nm j W1 AT Lj) as (B1 & B2 & B3). fold t in B3.
  destruct (hp s j) as [ob|] eqn:Ej.
  - assert (X : hp s j <> None) by congruence. destruct (f_obj _ _ _ _ _ F0 j X) as (_ & Y & _). pose proof (f_dead _ _ _ _ _ F0 j X B2) as Lv.
    apply live_walk in Lv. rewrite <- Y, B3 in Lv. unfold t in Lv. rewrite walk_snoc in Lv. pose proof (proj1 (live_walk _ _) (k_live _ _ _ _ K)) as LG. rewrite LG in Lv. congruence.
  - destruct (f_born _ _ _ _ _ F0 j Ej B2) as [[]|[X|(y & Y1 & Y2)]]; rewrite B3 in *; [apply (proj1 U X)|apply (proj2 U y Y2 Y1)].
Qed.
Lemma np_ran s g nm c a ts : wf s -> okt s g nm -> lookup (hp s) g nm = None -> unreserved s (name_of (hp s) g ++ [nm]) -> name_err nm = None ->
  np_obj wo c a -> compatible wo ro a -> (forall p, In (XPtr p) (a_data a) -> storable p /\ depth p <= n /\ (o_matlab_compatible wo = true -> ascii_groups p)) ->
  ascii ts -> ran s (np_write wo rnd tries wr g nm (c, a) ts s).
Proof.
  intros W K L U N HN HC HS HT. pose proof (obj_simple _ _ _ HN) as Hs. pose proof (action_ignore wo ro a Hs HC) as AI. unfold np_write.
  destruct (np_incompatible wo a && eqb_str (o_action wo) (lit "error")) eqn:X1.
  { apply andb_true_iff in X1. destruct X1 as [X1 X2]. rewrite (AI X1) in X2. discriminate. }
  destruct (np_incompatible wo a && eqb_str (o_action wo) (lit "discard")) eqn:X2.
  { apply andb_true_iff in X2. destruct X2 as [X2 X3]. rewrite (AI X2) in X3. discriminate. }
  destruct (prepare_ok wo ro c a HP HN) as [b Eb]. unfold bindm at 1. unfold lift. rewrite Eb.
  destruct (prep_dt wo c a b Eb Hs) as (PD1 & PD2 & PD3).
  assert (AG : as_group wo a (a_dt b) = false).
  { unfold as_group. destruct (is_struct (a_dt b)); [rewrite PD1 by reflexivity; reflexivity|reflexivity]. }
  rewrite AG. set (ma := match a_dt b with TObj => write_object_array wo rnd tries wr b | _ => ret (plain_data b) end).
  assert (MA : ran s (ma s) /\ forall s1 d, ma s = (s1, Ok d) -> wf s1 /\ frame (pre (name_of (hp s) g ++ [nm])) s s1 /\ (forall j, In (XPtr j) (a_data d) -> ptr_ok wo (hp s1) j) /\
     lookup (hp s1) g nm = None /\ h5_able (a_dt d) = true).
  { destruct (match a_dt b with TObj => true | _ => false end) eqn:EO.
    - assert (EB : a_dt b = TObj) by (destruct (a_dt b); try discriminate; reflexivity). unfold ma. rewrite EB.
      pose proof (prep_obj wo wo c a b Eb HN EB) as PO. split.
      + apply object_array_ran; [exact W|..]; [| |intros M]; rewrite Forall_map; (eapply Forall_impl; [|exact PO]); intros e (p & -> & Hp); cbn [elem_val]; apply (HS p Hp); exact M.
      + intros s1 d E1. destruct (object_array_keeps wo rnd tries Hkn Hvn wr Hwr (pre (name_of (hp s) g ++ [nm])) s b W) as (W1 & F1 & P1). rewrite E1 in *. cbn [fst snd] in *.
        split; [exact W1|]. split; [exact F1|]. split; [apply (P1 d eq_refl)|]. split; [exact (array_free b s s1 d g nm W K L U E1)|].
        unfold write_object_array in E1. apply bind_ok in E1. destruct E1 as (? & ? & _ & E1). apply bind_ok in E1. destruct E1 as (? & ? & _ & E1). apply bind_ok in E1. destruct E1 as (? & ? & _ & E1).
        apply ret_ok in E1. destruct E1 as [_ ->]. reflexivity.
    - assert (MR : ma = ret (plain_data b)) by (unfold ma; destruct (a_dt b); try discriminate; reflexivity). rewrite MR. split; [apply ran_ret|].
      intros s1 d E1. apply ret_ok in E1. destruct E1 as [-> ->]. split; [exact W|]. split; [apply frame_refl; exact W|]. split; [|split; [exact L|]].
      + intros j Hj. cbn in Hj. apply in_map_iff in Hj. destruct Hj as (x & X & _). destruct (noptr_ptr _ _ X).
      + cbn [plain_data a_dt]. eapply prep_able; [exact Eb|exact Hs|]. intros X. rewrite X in EO. discriminate. }
  destruct MA as [MA1 MA2]. apply ran_bind; [exact MA1|]. intros s1 d E1 R1. destruct (MA2 s1 d E1) as (W1 & F1 & P1 & L1 & H5).
  destruct (okt_frame wo rnd _ _ _ _ _ W F1 (okt_own s g nm) K) as [K1 N1].
  assert (PD : exists s2 i, put_dataset wo g nm d s1 = (s2, Ok i)).
  { unfold put_dataset. unfold bindm, catch. rewrite (get_ran s1 g nm K1 N), L1. unfold create_dataset. rewrite H5. apply new_ran; assumption. }
  destruct PD as (s2 & i & E2). pose proof (still_put wo g nm d s1) as S2. rewrite E2 in S2. cbn [fst] in S2.
  destruct (put_new wo s1 g nm d s2 i K1 L1 E2) as (f & E2').
  set (d' := mkArr (stored_dt (a_dt d)) (a_shape d) (a_data d)) in *.
  destruct (fresh_link wo rnd s1 g nm no_attrs (BData d' f) s2 i W1 K1) as (W2 & F2 & A2 & O2); [exact P1|exact E2'|].
  unfold bindm at 1. rewrite E2. unfold bindm at 1. unfold gets. set (ty := dset_dtype (hp s2) i).
  destruct (fresh_sync (np_attrs wo (c, a) ts [] false ty) i s2 _ O2 eq_refl (np_attrs_nodup wo c a ts ty (p_meta _ _ HP) Hs)) as [s3 E3].
  { intros k q Hq. eapply np_attrs_fine; eassumption. }
  pose proof (still_sync i (np_attrs wo (c, a) ts [] false ty) true s2) as S3. unfold bindm. rewrite E3 in S3 |- *. cbn [fst] in S3. apply ran_ok. lia.
Qed.

Definition member_ok (t : list pystr) (kv : pystr * pyval) : Prop :=
  name_err (fst kv) = None /\ depth (snd kv) <= n /\
  (o_matlab_compatible wo = true -> ascii_groups (snd kv) /\ (grouplike (snd kv) -> Forall ascii (t ++ [fst kv]))).
Lemma members_ran t i p kvs : forall s, wf s -> at_target s t i -> is_group (hp s) i = true -> unreserved s t ->
  NoDup (map fst kvs) -> (forall k, In k (map fst kvs) -> lookup (hp s) i k = None) -> Forall (fun kv => fst kv = [] \/ clean (fst kv)) kvs ->
  Forall storable (map snd kvs) -> Forall (member_ok t) kvs -> (o_matlab_compatible wo = true -> ascii p) ->
  ran s (iterM (write_item wo wr i p) kvs s).
Proof.
  induction kvs as [|[k v] kvs IH]; intros s W A G U N L C V O P; cbn [iterM]; [apply ran_ret|].
  cbn [map fst snd] in *. inversion N as [|? ? N1 N2]; subst. inversion C as [|? ? C1 C2]; subst. inversion V as [|? ? V1 V2]; subst. inversion O as [|? ? O1 O2]; subst. cbn [fst] in C1.
  destruct O1 as (O3 & O4 & O5). cbn [fst snd] in *. pose proof A as (A1 & A2 & A3).
  assert (K : okt s i k).
  { destruct (unreserved_member wo rnd s t k U) as [U1 U2]. constructor; rewrite ?A3; auto. intros x Q F. apply (U2 x Q). apply futc_fut. exact F. }
  assert (UM : unreserved s (name_of (hp s) i ++ [k])) by (rewrite A3; apply unreserved_member; exact U).
  assert (LK : lookup (hp s) i k = None) by (apply L; left; reflexivity).
  apply ran_bind.
  - unfold write_item. cbn [fst snd]. apply ran_bind; [apply Hpr; auto; rewrite A3; exact O5|]. intros s1 r E1 R1.
    destruct (Hrt s i k v s1 r W K LK UM V1 E1) as (j & -> & (Q & v' & Qj & CQ & _)). destruct (CQ j Qj) as (_ & _ & ob & Oj & _).
    destruct (mark_ran s1 j p) as [s2 E2]; [congruence|exact P|]. eapply ran_still; [apply still_mark|exact E2].
  - intros s1 u E1 R1. destruct (item_held wo ro keq rnd wr Hwr Hrt s t i p k v s1 u W A G U LK C1 V1 E1) as (W1 & F1 & A1' & G1 & T1 & L1 & _).
    apply IH; auto; [eapply unreserved_frame; eassumption|]. intros k' Hk. rewrite L1; [apply L; right; exact Hk|]. intros ->. exact (N1 Hk).
Qed.
Lemma dict_ran s g nm items ts plain : wf s -> okt s g nm -> lookup (hp s) g nm = None -> unreserved s (name_of (hp s) g ++ [nm]) -> name_err nm = None ->
  NoDup (map fst (dict_kvs wo items)) -> Forall (fun kv => fst kv = [] \/ clean (fst kv)) (dict_kvs wo items) -> Forall storable (map snd (dict_kvs wo items)) ->
  ascii ts -> (forall cs, key_codes (map fst items) = Some cs -> Forall (fun c => (fst c < 128)%N) cs) ->
  (o_matlab_compatible wo = true -> Forall ascii (name_of (hp s) g ++ [nm])) -> Forall (member_ok (name_of (hp s) g ++ [nm])) (dict_kvs wo items) ->
  ran s (dict_write wo wr g nm items ts plain s).
Proof.
  intros W K L U NE N C V HA HC HM HO. set (t := name_of (hp s) g ++ [nm]) in *. unfold dict_write. cbv zeta. fold (dict_kvs wo items).
  set (kvs := dict_kvs wo items) in *. set (codes := key_codes (map fst items)) in *.
  destruct (new_ran s g nm no_attrs (BGroup []) K NE L) as (s1 & i & E1).
  assert (OG : open_group g nm s = (s1, Ok i)).
  { unfold open_group, bindm. rewrite (get_ran s g nm K NE), L. exact E1. }
  destruct (fresh_link wo rnd s g nm no_attrs (BGroup []) s1 i W K eq_refl E1) as (W1 & F1 & A1 & O1). fold t in F1, A1, O1.
  pose proof (still_open g nm s) as S1. rewrite OG in S1. cbn [fst] in S1.
  destruct (dict_attrs_eq wo ro HP ts plain codes HA HC) as (ND & _).
  destruct (fresh_sync (dict_attrs wo ts plain codes) i s1 _ O1 eq_refl ND) as [s2 E2].
  { intros k q Hq. eapply dict_attrs_fine; eassumption. }
  pose proof (still_sync i (dict_attrs wo ts plain codes) true s1) as S2. rewrite E2 in S2. cbn [fst] in S2.
  destruct (sync_stored s1 i _ _ s2 O1 eq_refl ND E2) as (at_ & Es & HAt). set (ob := with_attrs (mkObj t no_attrs (BGroup [])) at_) in *.
  destruct A1 as (B1 & B2 & B3).
  assert (O2 : hp s2 i = Some ob) by (rewrite Es; apply upd_same).
  assert (SK : same_kind (BGroup []) (o_body ob)) by reflexivity.
  assert (W2 : wf s2) by (rewrite Es; eapply wf_change; [exact W1|exact O1|reflexivity|reflexivity|rewrite B3; intros X; apply (proj1 U); rewrite X; apply pre_refl|intros d f j [=]]).
  assert (F2 : frame (pre t) s1 s2) by (rewrite Es; eapply frame_change; [exact W1|exact O1|reflexivity|exact SK|rewrite B3; apply pre_refl]).
  assert (A2 : at_target s2 t i).
  { split; [rewrite O2; discriminate|]. rewrite Es. cbn [hp set_hp]. split; [rewrite (change_live s1 i _ ob O1 eq_refl SK); exact B2|].
    rewrite (mod_name _ _ _ ob O1 eq_refl). exact B3. }
  assert (L2 : links (hp s2) i = []) by (unfold links; rewrite O2; reflexivity).
  assert (G2 : is_group (hp s2) i = true) by (unfold is_group; rewrite O2; reflexivity).
  assert (U2 : unreserved s2 t) by (eapply unreserved_frame; [exact F2|]; eapply unreserved_frame; [exact F1|exact U]).
  apply (ran_later _ s s2); [lia|].
  unfold bindm at 1. rewrite OG. unfold bindm at 1. rewrite E2. unfold bindm at 1.
  match goal with |- context [(if ?c then prune i (map fst kvs) else ret tt) s2] => assert (PR : (if c then prune i (map fst kvs) else ret tt) s2 = (s2, Ok tt)) end.
  { destruct (_ || _); [apply prune_empty; exact L2|reflexivity]. }
  rewrite PR. unfold bindm at 1. unfold gets. assert (NT : name_of (hp s2) i = t) by apply A2. rewrite NT.
  assert (AP : o_matlab_compatible wo = true -> ascii (name_text t)) by (intros M; apply name_text_ascii, HM, M).
  unfold bindm at 1. match goal with |- context [(if o_matlab_compatible wo then ?m else ?k) s2] => assert (AC : (if o_matlab_compatible wo then m else k) s2 = (s2, Ok tt)) end.
  { destruct (o_matlab_compatible wo); [|reflexivity]. unfold bindm, lift. rewrite ascii_bytes_ok by (apply AP; reflexivity). reflexivity. }
  rewrite AC. apply ran_bind; [|intros; apply ran_ret]. apply (members_ran t); auto. intros k _. unfold lookup. rewrite L2. reflexivity.
Qed.

(** ** structured arrays *)
Lemma path_sync_ran s j p disc : hp s j <> None -> (o_matlab_compatible wo = true -> ascii p) ->
  exists s', sync_attrs j (if o_matlab_compatible wo then [(h5path, QString p)] else []) disc s = (s', Ok tt).
Proof.
  intros Ej P. destruct (hp s j) as [ob|] eqn:Eo; [|congruence]. unfold sync_attrs, attrs_of, set_attrs. rewrite Eo.
  assert (X : exists a, set_attributes_all (o_attrs ob) (if o_matlab_compatible wo then [(h5path, QString p)] else []) disc = (a, None)).
  { unfold set_attributes_all. destruct (o_matlab_compatible wo) eqn:M; cbn [put_attrs]; [|eexists; reflexivity].
    assert (Y : exists a, put_attr (o_attrs ob) h5path (QString p) (o_attrs ob) = Ok a).
    { unfold put_attr. destruct (fine_string p (P eq_refl)) as [v ->]. cbn [bindr]. destruct (o_attrs ob h5path); [|eexists; reflexivity].
      match goal with |- context [if ?c then _ else _] => destruct c end; [eexists; reflexivity|]. destruct (has_dtype _); [destruct (same_layout _ _)|]; eexists; reflexivity. }
    destruct Y as [a ->]. eexists; reflexivity. }
  destruct X as [a ->]. eexists; reflexivity.
Qed.
(** a field of the structured array can be written *)
Definition field_ok (t : list pystr) (b : arr pyval) (nf : nat * (pystr * (dt * list nat))) : Prop :=
  name_err (nkey nf) = None /\ Forall (fun x => S (depth x) <= n) (column (fst nf) (snd (snd nf)) (a_data b)) /\
  (o_matlab_compatible wo = true -> Forall ascii t /\ Forall (fun x => ascii_groups x /\ (grouplike x -> ascii (fst (snd nf)))) (column (fst nf) (snd (snd nf)) (a_data b))).
Lemma field_ran s t i (b a0 : arr pyval) nf : wf s -> at_target s t i -> is_group (hp s) i = true -> unreserved s t -> lookup (hp s) i (nkey nf) = None ->
  fst (snd nf) <> [] -> length (a_data b) = prod (a_shape b) -> prod (a_shape b) <> 0 -> Forall storable (column (fst nf) (snd (snd nf)) (a_data b)) -> field_ok t b nf ->
  ran s (write_field wo wr i b nf s).
Proof.
  intros W A G U L NE LB NZ HS (N & HD & HA). destruct nf as [m [name f]]. unfold nkey in *. cbn [fst snd] in *. pose proof A as (A1 & A2 & A3). set (k := escaped name) in *.
  assert (C : k = [] \/ clean k) by (right; apply escaped_clean; exact NE).
  assert (K : okt s i k).
  { destruct (unreserved_member wo rnd s t k U) as [U1 U2]. constructor; rewrite ?A3; auto. intros x P F. apply (U2 x P). apply futc_fut. exact F. }
  unfold write_field. cbv zeta. fold k. set (items := column m f (a_data b)) in *.
  set (col := mkArr TObj (a_shape b) (map XPtr items)) in *. set (v := if prod (a_shape b) =? 1 then _ else _).
  assert (UM : unreserved s (name_of (hp s) i ++ [k])) by (rewrite A3; apply unreserved_member; exact U).
  assert (LI : length items = prod (a_shape b)) by (unfold items; rewrite column_length; exact LB).
  set (col' := if o_reverse wo then tr col else col) in *.
  assert (WC : wf_arr col') by (unfold col'; destruct (o_reverse wo); [apply tr_wf|]; unfold wf_arr, col; cbn [a_data a_shape]; rewrite map_length; exact LI).
  assert (IN : forall e, In e (a_data col') -> exists x, e = XPtr x /\ In x items).
  { intros e He. assert (X : In e (a_data col)). { unfold col' in He. destruct (o_reverse wo); [|exact He]. eapply transpose_in. exact He. }
    cbn [col a_data] in X. apply in_map_iff in X. destruct X as (x & <- & Hx). eauto. }
  rewrite Forall_forall in HS, HD.
  assert (V : storable v /\ depth v <= n /\ (o_matlab_compatible wo = true -> ascii_groups v /\ (grouplike v -> Forall ascii (name_of (hp s) i ++ [k])))).
  { unfold v. destruct (prod (a_shape b) =? 1) eqn:S1.
    - apply Nat.eqb_eq in S1. destruct (a_data col') as [|e r] eqn:ED.
      { exfalso. unfold wf_arr in WC. rewrite ED in WC. cbn in WC. assert (X : prod (a_shape col') = prod (a_shape b)) by (unfold col'; destruct (o_reverse wo); [apply prod_rev|reflexivity]). congruence. }
      destruct (IN e (or_introl eq_refl)) as (x & -> & Hx). split; [auto|]. split; [specialize (HD x Hx); lia|]. intros M. destruct (HA M) as [T1 T2]. rewrite Forall_forall in T2. destruct (T2 x Hx) as [T3 T4].
      split; [exact T3|]. intros GX. rewrite A3. apply Forall_app. split; [exact T1|]. constructor; [|constructor]. apply escaped_ascii. auto.
    - assert (DC : a_dt col' = TObj) by (unfold col'; destruct (o_reverse wo); reflexivity). split; [|split].
      + apply V_np.
        * constructor; rewrite ?DC; try (intros; first [exact I|discriminate]); [exact WC|]. apply Forall_forall. intros e He. destruct (IN e He) as (x & -> & _). exact I.
        * intros _. left. rewrite DC. exact I.
        * intros p Hp. destruct (IN _ Hp) as (x & [= ->] & Hx). auto.
      + cbn [depth]. destruct n as [|n']; [destruct items as [|x r]; [cbn in LI; lia|]; specialize (HD x (or_introl eq_refl)); lia|].
        apply le_n_S. apply list_max_le. rewrite Forall_map. apply Forall_forall. intros e He. destruct (IN e He) as (x & -> & Hx). cbn [edepth]. specialize (HD x Hx). lia.
      + intros M. destruct (HA M) as [T1 T2]. rewrite Forall_forall in T2. split; [|cbn [grouplike]; rewrite DC; discriminate].
        apply G_np; [rewrite DC; reflexivity|]. intros p Hp. destruct (IN _ Hp) as (x & [= ->] & Hx). apply (T2 x Hx). }
  destruct V as (V1 & V2 & V3). apply ran_bind; [apply Hpr; auto|]. intros s1 r E1 R1.
  destruct (Hrt s i k v s1 r W K L UM V1 E1) as (j & -> & (Q & v' & Qj & CQ & _)). destruct (CQ j Qj) as (_ & _ & ob & Oj & _).
  pose proof (Hwr s i k v W K) as (W1 & F1 & P1). rewrite E1 in *. cbn [fst snd] in *.
  assert (A' : at_target s1 t i). { apply (at_target_frame wo rnd _ _ _ _ _ F1); [rewrite A3; apply pre_snoc_self|exact A]. }
  unfold bindm at 1. unfold gets. rewrite (proj2 (proj2 A')).
  destruct (path_sync_ran s1 j (name_text t) (negb (prod (a_shape b) =? 1))) as [s2 E2]; [congruence|intros M; apply name_text_ascii, (HA M)|].
  fold h5path. rewrite E2. apply ran_ok. pose proof (still_sync j (if o_matlab_compatible wo then [(h5path, QString (name_text t))] else []) (negb (prod (a_shape b) =? 1)) s1) as S2. rewrite E2 in S2. cbn [fst] in S2. lia.
Qed.
Lemma fields_ran t i (b a0 : arr pyval) (l : nfields) : forall s, wf s -> at_target s t i -> is_group (hp s) i = true -> unreserved s t ->
  length (a_data b) = prod (a_shape b) -> prod (a_shape b) <> 0 -> a_shape b = a_shape (write_dims wo a0) ->
  NoDup (map nkey l) -> (forall k, In k (map nkey l) -> lookup (hp s) i k = None) -> Forall (fun nf => fst (snd nf) <> []) l ->
  Forall (fun nf => Forall storable (column (fst nf) (snd (snd nf)) (a_data b))) l -> Forall (field_ok t b) l -> ran s (iterM (write_field wo wr i b) l s).
Proof.
  induction l as [|nf l IH]; intros s W A G U LB NZ SB N L NE HS HO; cbn [iterM]; [apply ran_ret|].
  cbn [map] in *. inversion N as [|? ? N1 N2]; subst. inversion NE as [|? ? NE1 NE2]; subst. inversion HS as [|? ? HS1 HS2]; subst. inversion HO as [|? ? HO1 HO2]; subst.
  assert (LK : lookup (hp s) i (nkey nf) = None) by (apply L; left; reflexivity).
  apply ran_bind; [eapply field_ran; eauto|]. intros s1 u E1 R1. destruct nf as [m [name f]].
  destruct (field_held wo ro keq rnd wr Hwr Hrt Hcs s t i b a0 m name f s1 u W A G U LK NE1 LB NZ SB HS1 E1) as (W1 & F1 & A1 & G1 & T1 & L1 & _).
  apply IH; auto; [eapply unreserved_frame; eassumption|]. intros k' Hk. rewrite L1; [apply L; right; exact Hk|]. intros ->. exact (N1 Hk).
Qed.
Lemma struct_ran s g nm c a fs : wf s -> okt s g nm -> lookup (hp s) g nm = None -> unreserved s (name_of (hp s) g ++ [nm]) -> name_err nm = None ->
  struct_obj c a fs -> (o_matlab_compatible wo = true -> o_struct_as_struct wo = true /\ o_structs_as_dicts ro = false) -> stored_as_group wo (a_dt a) = true ->
  (forall m f x, nth_error fs m = Some f -> In x (field_values m (snd f) a) -> storable x) -> depth (VNp c a) <= S n ->
  (o_matlab_compatible wo = true -> Forall ascii (name_of (hp s) g ++ [nm]) /\ forall m f x, nth_error fs m = Some f -> In x (field_values m (snd f) a) -> ascii_groups x /\ (grouplike x -> ascii (fst f))) ->
  ran s (write_value wo rnd tries wr g nm (VNp c a) s).
Proof.
  intros W K L U NE SO MC SG HS HD HA. set (t := name_of (hp s) g ++ [nm]) in *. cbn [write_value]. unfold np_write. rewrite (struct_compatible wo ro c a fs SO MC). cbn [andb].
  unfold bindm at 1. unfold lift. rewrite (struct_prepare wo c a fs SO). set (b := write_dims wo a) in *. assert (DB : a_dt b = a_dt a) by apply write_dims_dt.
  assert (AG : as_group wo a (a_dt b) = true).
  { unfold as_group. rewrite DB. unfold stored_as_group in SG. rewrite (st_dt _ _ _ SO) in *. cbn [is_struct is_cpx negb andb]. rewrite orb_assoc. exact SG. }
  rewrite AG. set (first := if o_matlab_compatible wo then _ else []).
  assert (HF : first = [] \/ o_matlab_compatible wo = true /\ first = [(lit "MATLAB_class", QPyStr (lit "struct"))]) by (unfold first; destruct (o_matlab_compatible wo); auto).
  assert (WA : wf_arr a) by apply (st_len _ _ _ SO).
  assert (WB : wf_arr b) by (apply write_dims_wf; exact WA). assert (PB : prod (a_shape b) = prod (a_shape a)) by apply write_dims_prod.
  destruct (st_some _ _ _ SO) as (NZ & NF). destruct (st_names _ _ _ SO) as (ND & NN).
  assert (SF : struct_fields (a_dt b) = fs) by (rewrite DB, (st_dt _ _ _ SO); reflexivity).
  assert (KEYS : map nkey (numbered fs) = map escaped (map fst fs)) by (rewrite <- numbered_fst, map_map; reflexivity).
  destruct (new_ran s g nm no_attrs (BGroup []) K NE L) as (s1 & i & E1).
  assert (OG : open_group g nm s = (s1, Ok i)).
  { unfold open_group, bindm. rewrite (get_ran s g nm K NE), L. exact E1. }
  destruct (fresh_link wo rnd s g nm no_attrs (BGroup []) s1 i W K eq_refl E1) as (W1 & F1 & A1 & O1). fold t in F1, A1, O1.
  pose proof (still_open g nm s) as S1. rewrite OG in S1. cbn [fst] in S1.
  assert (L1 : links (hp s1) i = []) by (unfold links; rewrite O1; reflexivity).
  assert (G1 : is_group (hp s1) i = true) by (unfold is_group; rewrite O1; reflexivity).
  assert (U1 : unreserved s1 t) by (eapply unreserved_frame; [exact F1|exact U]).
  apply (ran_later _ s s1); [lia|]. 
  assert (FR : ran s1 (iterM (write_field wo wr i b) (numbered fs) s1) /\ forall s2 u, iterM (write_field wo wr i b) (numbered fs) s1 = (s2, Ok u) -> exists ob, hp s2 i = Some ob /\ o_attrs ob = no_attrs).
  { assert (Y1 : NoDup (map nkey (numbered fs))) by (rewrite KEYS; apply nodup_escaped; exact ND).
    assert (Y2 : forall k, In k (map nkey (numbered fs)) -> lookup (hp s1) i k = None) by (intros k _; unfold lookup; rewrite L1; reflexivity).
    assert (Y0 : forall nf, In nf (numbered fs) -> In (fst (snd nf)) (map fst fs)). { intros nf Hnf. rewrite <- numbered_fst. apply (in_map (fun x => fst (snd x))). exact Hnf. }
    rewrite Forall_forall in NN.
    assert (Y3 : Forall (fun nf => fst (snd nf) <> []) (numbered fs)) by (apply Forall_forall; intros nf Hnf; apply (NN _ (Y0 nf Hnf))).
    assert (Y4 : Forall (fun nf => Forall storable (column (fst nf) (snd (snd nf)) (a_data b))) (numbered fs)).
    { apply Forall_forall. intros nf Hnf. apply numbered_nth in Hnf. apply Forall_forall. intros x Hx. eapply HS; [exact Hnf|]. exact (proj1 (column_in wo a _ _ _ WA) Hx). }
    assert (Y5 : Forall (field_ok t b) (numbered fs)).
    { apply Forall_forall. intros nf Hnf. destruct (NN _ (Y0 nf Hnf)) as [Z1 Z2]. apply numbered_nth in Hnf. split; [apply escaped_ok; assumption|].
      assert (ROWS : forall e, In e (a_data a) -> exists cells, e = XRec cells). { pose proof (st_rows _ _ _ SO) as R. rewrite Forall_forall in R. intros e He. destruct (R e He) as (cells & X & _). eauto. }
      split.
      - apply Forall_forall. intros x Hx. apply (proj1 (column_in wo a _ _ _ WA)) in Hx. pose proof (column_depth _ _ _ x c a eq_refl ROWS Hx). lia.
      - intros M. destruct (HA M) as [T1 T2]. split; [exact T1|]. apply Forall_forall. intros x Hx. apply (proj1 (column_in wo a _ _ _ WA)) in Hx. eapply T2; eassumption. }
    split; [apply (fields_ran t i b a); auto; rewrite PB; exact NZ|]. intros s2 u E2.
    destruct (fields_held wo ro keq rnd wr Hwr Hrt Hcs t i b a (numbered fs) s1 s2 u W1 A1 G1 U1 WB) as (W2 & F2 & A2 & G2 & T2 & _); auto; [rewrite PB; exact NZ|].
    destruct A2 as (D1 & _ & _). destruct (hp s2 i) as [ob|] eqn:O2; [|congruence]. exists ob. split; [reflexivity|]. unfold attrs_of in T2. rewrite O2, O1 in T2. exact T2. }
  destruct FR as [FR1 FR2].
  assert (WS : ran s1 (bindm (iterM (write_field wo wr i b) (numbered fs)) (fun _ => ret i) s1)) by (apply ran_bind; [exact FR1|intros; apply ran_ret]).
  assert (WE : write_struct wo wr g nm b s = bindm (iterM (write_field wo wr i b) (numbered fs)) (fun _ => ret i) s1).
  { unfold write_struct. cbv zeta. rewrite SF. fold (numbered fs). unfold bindm at 1. rewrite OG. unfold bindm at 1.
    assert (PR : (if o_delete_unused wo then prune i (map escaped (map fst fs)) else ret tt) s1 = (s1, Ok tt)) by (destruct (o_delete_unused wo); [apply prune_empty; exact L1|reflexivity]).
    rewrite PR. reflexivity. }
  unfold bindm at 1. rewrite WE.
  pose proof (p_meta _ _ HP) as Hm. pose proof (struct_empty _ _ _ SO) as Hn. assert (Hc : o_matlab_compatible wo = true -> o_struct_as_struct wo = true) by (intros M; apply (MC M)).
  pose proof (struct_attrs_nodup wo c a (np_type c (a_dt a)) None true first Hm (struct_is c a fs SO) Hn Hc eq_refl HF) as NR.
  destruct (bindm (iterM (write_field wo wr i b) (numbered fs)) (fun _ => ret i) s1) as [s2 [j|e]] eqn:EB; [|exact WS].
  apply bind_ok in EB. destruct EB as (s2' & u & E2 & EB). apply ret_ok in EB. destruct EB as [-> ->]. destruct (FR2 _ _ E2) as (ob & O2 & NA).
  destruct (fresh_sync (np_attrs wo (c, a) (np_type c (a_dt a)) first true None) i s2' ob O2 NA NR) as [s3 E3].
  { apply np_attrs_fine'; [|apply np_type_ascii]. intros k q Hq. destruct HF as [-> |[_ ->]]; [destruct Hq|]. destruct Hq as [[= <- <-]|[]]. eexists; reflexivity. }
  pose proof (still_sync i (np_attrs wo (c, a) (np_type c (a_dt a)) first true None) true s2') as S3. unfold bindm. rewrite E3 in S3 |- *. cbn [fst] in S3. apply ran_ok. destruct WS as [WS _]. cbn [fst] in WS. lia.
Qed.
Fixpoint plain_able d : plain_type d = true -> h5_able d = true.
Proof.
  destruct d as [| | | | |[|n0]| | | |fs]; cbn [plain_type h5_able]; try discriminate; try reflexivity.
  intros X. apply andb_true_iff in X. destruct X as [X1 X2]. apply andb_true_iff in X1. destruct X1 as [_ X1]. assert (Y : negb (length fs =? 0) = true) by exact X1. rewrite Y. cbn [andb]. clear X1 Y.
  induction fs as [|[k [e sh]] fs IH]; cbn [forallb] in *; [reflexivity|]. apply andb_true_iff in X2. destruct X2 as [X2 X3]. rewrite (plain_able e X2). exact (IH X3).
Qed.
Lemma compound_ran s g nm c a fs : wf s -> okt s g nm -> lookup (hp s) g nm = None -> unreserved s (name_of (hp s) g ++ [nm]) -> name_err nm = None ->
  struct_obj c a fs -> (o_matlab_compatible wo = true -> o_struct_as_struct wo = true /\ o_structs_as_dicts ro = false) -> stored_as_group wo (a_dt a) = false -> h5_able (a_dt a) = true ->
  ran s (write_value wo rnd tries wr g nm (VNp c a) s).
Proof.
  intros W K L U NE SO MC SG PT. cbn [write_value]. unfold np_write. rewrite (struct_compatible wo ro c a fs SO MC). cbn [andb].
  unfold bindm at 1. unfold lift. rewrite (struct_prepare wo c a fs SO). set (b := write_dims wo a) in *. assert (DB : a_dt b = a_dt a) by apply write_dims_dt.
  assert (AG : as_group wo a (a_dt b) = false).
  { unfold as_group. rewrite DB. unfold stored_as_group in SG. apply orb_false_iff in SG. destruct SG as [SG S4]. apply orb_false_iff in SG. destruct SG as [SG S3]. apply orb_false_iff in SG. destruct SG as [S1 S2]. rewrite S1, S2, S3, S4. cbn [orb]. apply andb_false_r. }
  rewrite AG. rewrite DB. rewrite (st_dt _ _ _ SO) at 1. set (d := plain_data b).
  unfold bindm at 1. unfold ret at 1.
  assert (PD : exists s2 i, put_dataset wo g nm d s = (s2, Ok i)).
  { unfold put_dataset. unfold bindm, catch. rewrite (get_ran s g nm K NE), L. unfold create_dataset. unfold d. cbn [plain_data a_dt]. rewrite DB, PT. apply new_ran; assumption. }
  destruct PD as (s2 & i & E2). pose proof (still_put wo g nm d s) as S2. rewrite E2 in S2. cbn [fst] in S2.
  destruct (put_new wo s g nm d s2 i K L E2) as (f & E2').
  set (d' := mkArr (stored_dt (a_dt d)) (a_shape d) (a_data d)) in *.
  destruct (fresh_link wo rnd s g nm no_attrs (BData d' f) s2 i W K) as (W2 & F2 & A2 & O2); [|exact E2'|].
  { intros j Hj. cbn in Hj. apply in_map_iff in Hj. destruct Hj as (x & X & _). destruct (noptr_ptr _ _ X). }
  unfold bindm at 1. rewrite E2. unfold bindm at 1. unfold gets. set (ty := dset_dtype (hp s2) i).
  assert (M : o_matlab_compatible wo = false).
  { destruct (o_matlab_compatible wo); [|reflexivity]. destruct (MC eq_refl) as [X _]. unfold stored_as_group in SG. rewrite X in SG. discriminate. }
  destruct (st_some _ _ _ SO) as (NZ & NF).
  assert (FA : false || fields_anyway wo a = false).
  { cbn [orb]. unfold stored_as_group in SG. apply orb_false_iff in SG. destruct SG as [SG S4]. apply orb_false_iff in SG. destruct SG as [SG S3]. apply orb_false_iff in SG. destruct SG as [S1 S2'].
    unfold fields_anyway. rewrite S1, S2', S3. rewrite (nonzero_axes _ NZ). rewrite (st_dt _ _ _ SO) in *. cbn [is_struct orb andb struct_fields]. apply not_true_is_false. intros X. apply existsb_exists in X. destruct X as ([k [e sh]] & Hf & X).
    rewrite existsb_app, (nonzero_axes _ NZ) in X. cbn [orb] in X. cbn [has_zero_shape] in S4. assert (Y : existsb (fun f => match f with (_, (e, sh)) => existsb (Nat.eqb 0) sh || has_zero_shape e end) fs = true).
    { apply existsb_exists. exists (k, (e, sh)). split; [exact Hf|]. cbn beta iota. rewrite X. reflexivity. }
    congruence. }
  pose proof (struct_attrs_nodup wo c a (np_type c (a_dt a)) ty false [] (p_meta _ _ HP) (struct_is c a fs SO) (struct_empty _ _ _ SO)) as NR.
  destruct (fresh_sync (np_attrs wo (c, a) (np_type c (a_dt a)) [] false ty) i s2 _ O2 eq_refl) as [s3 E3].
  { apply NR; [congruence|exact FA|left; reflexivity]. }
  { apply np_attrs_fine, np_type_ascii. }
  pose proof (still_sync i (np_attrs wo (c, a) (np_type c (a_dt a)) [] false ty) true s2) as S3. unfold bindm. rewrite E3 in S3 |- *. cbn [fst] in S3. apply ran_ok. lia.
Qed.

Section One.
Variables (s : st) (g : nat) (nm : pystr).
Hypotheses (W : wf s) (K : okt s g nm) (L : lookup (hp s) g nm = None) (U : unreserved s (name_of (hp s) g ++ [nm])) (NE : name_err nm = None).
Lemma texts_ran items texts ts plain : Forall2 key_text (map fst items) texts -> NoDup texts -> Forall (fun t => t <> [] /\ scalar_str t) texts ->
  Forall storable (map snd items) -> ascii ts -> Forall (fun v => depth v <= n) (map snd items) ->
  (o_matlab_compatible wo = true -> Forall ascii (name_of (hp s) g ++ [nm]) /\ Forall ascii_groups (map snd items) /\
     forall x v t, In (x, v) items -> key_text x t -> grouplike v -> ascii t) ->
  ran s (dict_write wo wr g nm items ts plain s).
Proof.
  intros HT HN HE HS HA HD HG. destruct (key_codes_texts _ _ HT) as (cs & C1 & C2 & C3 & C4).
  assert (KV : dict_kvs wo items = combine (map (fun c => escaped (snd c)) cs) (map snd items)) by (unfold dict_kvs; rewrite C1; reflexivity).
  assert (LEN : length cs = length items) by (rewrite <- (map_length fst items), (Forall2_len _ _ _ HT), <- C2, map_length; reflexivity).
  assert (KF : map fst (dict_kvs wo items) = map (fun c => escaped (snd c)) cs) by (rewrite KV; apply combine_fst; rewrite !map_length; exact LEN).
  assert (KS : map snd (dict_kvs wo items) = map snd items) by (rewrite KV; apply combine_snd; rewrite !map_length; exact LEN).
  assert (KE : map (fun c : N * pystr => escaped (snd c)) cs = map escaped texts) by (rewrite <- C2, map_map; reflexivity).
  apply dict_ran; auto.
  - rewrite KF, KE. clear - HN. induction HN as [|t l H _ IH]; constructor; auto. intros X. apply in_map_iff in X. destruct X as (u & Eu & Hu). apply escaped_inj in Eu. subst u. exact (H Hu).
  - rewrite <- (Forall_map fst (fun x => x = [] \/ clean x)), KF, KE, Forall_map. eapply Forall_impl; [|exact HE]. intros t [Ht _]. right. apply escaped_clean. exact Ht.
  - rewrite KS. exact HS.
  - intros x. rewrite C1. intros [= <-]. exact C3.
  - intros M. apply (HG M).
  - assert (EQ : dict_kvs wo items = combine (map escaped texts) (map snd items)) by (rewrite KV, KE; reflexivity). rewrite EQ.
    set (t0 := name_of (hp s) g ++ [nm]) in *. clear - HT HE HD HG. revert texts HT HE HD HG. induction items as [|[x v] items IH]; intros texts HT HE HD HG; cbn [map] in HT; inversion HT as [|? t ? texts' T1 T2]; subst; cbn [map combine]; constructor.
    + cbn [map snd] in *. inversion HE as [|? ? [X1 X2] _]; subst. inversion HD; subst. split; [apply escaped_ok; assumption|]. split; [assumption|]. intros M. destruct (HG M) as (Y1 & Y2 & Y3).
      inversion Y2; subst. split; [assumption|]. intros DL. apply Forall_app. split; [exact Y1|]. constructor; [|constructor]. cbn [fst]. apply escaped_ascii. eapply Y3; [left; reflexivity|exact T1|exact DL].
    + cbn [map snd] in *. inversion HE; subst. inversion HD; subst. apply IH; auto. intros M. destruct (HG M) as (Y1 & Y2 & Y3). inversion Y2; subst. split; [exact Y1|]. split; [assumption|].
      intros x' v' t' Hin. apply Y3. right. exact Hin.
Qed.
Lemma other_ran items ts plain : Exists not_text (map fst items) -> Forall storable (map fst items) -> Forall storable (map snd items) -> ascii ts ->
  Forall (fun v => S (depth v) <= n) (map fst items) -> Forall (fun v => S (depth v) <= n) (map snd items) ->
  (o_matlab_compatible wo = true -> Forall ascii (name_of (hp s) g ++ [nm]) /\ Forall ascii_groups (map fst items) /\ Forall ascii_groups (map snd items)) ->
  ran s (dict_write wo wr g nm items ts plain s).
Proof.
  intros HT HK HS HA HD1 HD2 HG. pose proof (key_codes_other _ HT) as C1.
  assert (KV : dict_kvs wo items = [(o_keys_name wo, VSeq QTuple (map fst items)); (o_values_name wo, VSeq QTuple (map snd items))]) by (unfold dict_kvs; rewrite C1; reflexivity).
  destruct (p_keys _ _ HP) as (P1 & P2 & P3 & P4 & P5).
  assert (DS : forall l, l <> [] -> Forall (fun v => S (depth v) <= n) l -> depth (VSeq QTuple l) <= n).
  { intros l Z F. cbn [depth]. destruct n as [|n']; [destruct l; [congruence|inversion F; lia]|]. apply le_n_S. apply list_max_le. rewrite Forall_map. eapply Forall_impl; [|exact F]. cbn. lia. }
  assert (Z : items <> []) by (intros ->; inversion HT).
  apply dict_ran; auto.
  - rewrite KV. cbn [map fst]. repeat constructor; cbn [In]; intuition congruence.
  - rewrite KV. constructor; [apply (keys_clean _ _ HP)|constructor; [apply (values_clean _ _ HP)|constructor]].
  - rewrite KV. cbn [map snd]. constructor; [|constructor; [|constructor]]; apply V_seq; auto; exact I.
  - intros x X. rewrite C1 in X. discriminate.
  - intros M. apply (HG M).
  - rewrite KV. constructor; [|constructor; [|constructor]]; (split; [apply HY|]); (split; [apply DS; [destruct items; [congruence|discriminate]|assumption]|]); intros M; destruct (HG M) as (_ & Y1 & Y2); (split; [constructor; assumption|intros []]).
Qed.
Lemma value_ran v : storable v -> depth v <= S n -> (o_matlab_compatible wo = true -> ascii_groups v /\ (grouplike v -> Forall ascii (name_of (hp s) g ++ [nm]))) ->
  ran s (write_value wo rnd tries wr g nm v s).
Proof.
  intros V D A. assert (SC : forall d e ts, typed d e -> match d with TRef | TStruct _ | TObj | TS _ | TUni _ => False | TF w => w = 8 | TC w => w = 16 | _ => True end ->
     ascii ts -> ran s (np_write wo rnd tries wr g nm (CScalar, mkArr d [] [e]) ts s)).
  { intros d e ts T1 T2 T3. apply np_ran; auto.
    - apply scalar_obj; [exact T1|]. destruct d; auto.
    - intros M. left. cbn [a_dt]. destruct d; auto; subst; exact I.
    - intros p [X|[]]. subst e. destruct d; try destruct T1; destruct T2. }
  assert (BY : forall b ts, strip0 b = b -> ascii ts -> ran s (np_write wo rnd tries wr g nm (CScalar, np_bytes b) ts s)).
  { intros b ts T1 T2. apply np_ran; auto; [apply (bytes_obj wo rnd HI); exact T1|intros M; left; exact I|]. intros p [X|[]]. discriminate. }
  inversion V; subst; cbn [write_value].
  1-3: apply np_ran; auto; [constructor; cbn; try congruence; auto|intros M; left; exact I|intros p []|ascii_lit].
  - apply SC; [exact I|exact I|ascii_lit].
  - unfold int_array. match goal with |- context [if ?c then _ else _] => destruct c end; [apply SC; [exact I|exact I|ascii_lit]|apply BY; [apply show_Z_strip|ascii_lit]].
  - apply SC; [exact I|reflexivity|ascii_lit].
  - apply SC; [cbn; auto|reflexivity|ascii_lit].
  - apply np_ran; auto; [apply (str_obj wo rnd HI); apply H|intros M; left; exact I|intros p [X|[]]; discriminate|ascii_lit].
  - apply BY; [assumption|ascii_lit].
  - apply BY; [assumption|ascii_lit].
  - unfold bindm, lift. rewrite H. apply BY; [assumption|ascii_lit].
  - apply np_ran; auto; [|apply np_type_ascii]. intros p Hp. split; [auto|]. split.
    + cbn [depth] in D. apply le_S_n in D. etransitivity; [|exact D]. apply list_max_in. apply in_map_iff. exists (XPtr p). auto.
    + intros M. destruct (A M) as [A1 _]. inversion A1 as [c' a' fs' X|c' a' X0 X| | | |v' X]; subst; [|auto|destruct X]. exfalso. pose proof (obj_simple _ _ _ H) as Y. rewrite X in Y. exact Y.
  - fold (write_value wo rnd tries wr g nm (VNp c a)). destruct (Bool.bool_dec (stored_as_group wo (a_dt a)) true) as [SG|SG]; [|apply Bool.not_true_is_false in SG].
    + eapply struct_ran; eauto. intros M. destruct (A M) as [A1 A2]. split; [apply A2; cbn [grouplike]; eapply struct_is; eassumption|].
      inversion A1 as [c' a' fs' X Y|c' a' X0 X| | | |v' X]; subst; [|rewrite (st_dt _ _ _ H) in X0; discriminate|destruct X].
      rewrite (st_dt _ _ _ H) in X. injection X as <-. exact Y.
    + eapply compound_ran; eauto. apply plain_able, (H3 SG).
  - apply np_ran; auto; [apply seq_obj|intros M; left; exact I| |destruct k; ascii_lit].
    intros p Hp. cbn [obj_array a_data] in Hp. apply in_map_iff in Hp. destruct Hp as (x & [= ->] & Hx).
    rewrite Forall_forall in H0. split; [auto|]. split.
    + cbn [depth] in D. apply le_S_n in D. etransitivity; [|exact D]. apply list_max_in. apply in_map. exact Hx.
    + intros M. destruct (A M) as [A1 _]. inversion A1 as [| |k' l' X| | |v' X]; subst; [rewrite Forall_forall in X; auto|destruct X].
  - set (names := firstn (length fs) (rec_fields k)). destruct (rec_texts k (length fs)) as (T1 & T2 & T3). fold names in T1, T2, T3.
    assert (LN : length names = length fs).
    { unfold names. rewrite firstn_length. apply Nat.min_l. destruct k; cbn [rec_ok rec_fields length] in *; lia. }
    assert (RI : rec_items k fs = combine (map VStr names) fs).
    { unfold rec_items, names. rewrite <- firstn_map, firstn_combine_l. reflexivity. }
    assert (FI : map fst (rec_items k fs) = map VStr names) by (rewrite RI; apply combine_fst; rewrite map_length; exact LN).
    assert (SI : map snd (rec_items k fs) = fs) by (rewrite RI; apply combine_snd; rewrite map_length; exact LN).
    assert (NAS : Forall ascii names).
    { unfold names. assert (X : Forall ascii (rec_fields k)) by (destruct k; repeat (apply Forall_cons; [ascii_lit|]); apply Forall_nil). rewrite <- (firstn_skipn (length fs)) in X. apply Forall_app in X. tauto. }
    apply texts_ran with (texts := names); auto.
    + rewrite FI. exact T1.
    + rewrite Forall_forall in T3, NAS. apply Forall_forall. intros x Hx. split; [apply T3, Hx|]. eapply Forall_impl; [|apply NAS, Hx]. intros c. apply ascii_scalar1.
    + rewrite SI. assumption.
    + destruct k; ascii_lit.
    + rewrite SI. cbn [depth] in D. apply le_S_n in D. apply list_max_le in D. rewrite Forall_map in D. exact D.
    + intros M. destruct (A M) as [A1 A2]. split; [apply A2; exact I|]. rewrite SI. split; [inversion A1 as [| | |k' l' X| |v' X]; subst; [exact X|destruct X]|].
      intros x v t Hin KT _. apply (in_map fst) in Hin. rewrite FI in Hin. cbn [fst] in Hin. apply in_map_iff in Hin. destruct Hin as (y & <- & Hy). inversion KT; subst. rewrite Forall_forall in NAS. auto.
  - cbn [depth] in D. apply le_S_n in D. destruct n as [|n'] eqn:En; [lia|]. rewrite <- En in *. assert (D' : list_max (map (fun kv => Nat.max (depth (fst kv)) (depth (snd kv))) l) <= n) by lia.
    apply list_max_le in D'. rewrite Forall_map in D'. apply texts_ran with (texts := texts); auto.
    + destruct k; ascii_lit.
    + rewrite Forall_map. eapply Forall_impl; [|exact D']. cbn. intros; lia.
    + intros M. destruct (A M) as [A1 A2]. split; [apply A2; exact I|]. inversion A1 as [| | | |k' l' X Y Z|v' X]; subst; [auto|destruct X].
  - cbn [depth] in D. apply le_S_n in D. assert (D' : S (list_max (map (fun kv => Nat.max (depth (fst kv)) (depth (snd kv))) l)) <= n) by lia. clear D.
    destruct n as [|n'] eqn:En; [lia|]. rewrite <- En in *. rewrite En in D'. apply le_S_n in D'.
    apply list_max_le in D'. rewrite Forall_map in D'. apply other_ran; auto.
    + destruct k; ascii_lit.
    + rewrite Forall_map. eapply Forall_impl; [|exact D']. cbn. intros; lia.
    + rewrite Forall_map. eapply Forall_impl; [|exact D']. cbn. intros; lia.
    + intros M. destruct (A M) as [A1 A2]. split; [apply A2; exact I|]. inversion A1 as [| | | |k' l' X Y Z|v' X]; subst; [auto|destruct X].
Qed.
End One.
End Marsh.
Hypothesis str_keys : forall a b, keq (VStr a) (VStr b) = eqb_str a b.
Theorem write_ran n : pspec n (write wo rnd tries n).
Proof.
  induction n as [|n IH]; intros s g nm v W K L U V N D A; [destruct v; cbn in D; lia|]. cbn [write].
  apply (value_ran n); auto.
  - apply write_keeps; assumption.
  - apply write_back; assumption.
  - destruct n as [|m]; [intros sa ga na aa sb rb _ _ _ _ _ _ _ X; discriminate X|].
    exact (column_spec wo ro keq rnd tries HP HI (write wo rnd tries m) (write_keeps wo rnd tries (keys_clean wo ro HP) (values_clean wo ro HP) m) (write_back wo ro keq rnd tries HP HI str_keys m)).
Qed.
End Write.
