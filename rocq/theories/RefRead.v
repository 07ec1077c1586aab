(** Reading comes to an end. *)
From Verif Require Import Base Unicode PathEsc PathEscFacts PosixPath ProcessPath MColl Dec NdArray Value Attrs OptionsM StrConv ComplexM NpDims Hdf5 HeapFacts NpWrite NpRead MarshalW MarshalR ReadFacts FileApi ApiSpec Members RefSpec.
Local Open Scope nat_scope.

Definition nf {A} (r : res A) : Prop := r <> Err OutOfFuel.
Lemma nf_bind {A B} (m : res A) (k : A -> res B) : nf m -> (forall a, m = Ok a -> nf (k a)) -> nf (bindr m k).
Proof. unfold nf. destruct m as [a|e]; cbn [bindr]; [auto|]. intros H _ [= ->]. apply H. reflexivity. Qed.
Lemma nf_mapr {A B} (f : A -> res B) l : (forall x, In x l -> nf (f x)) -> nf (mapr f l).
Proof.
  induction l as [|x l IH]; intros H; cbn [mapr]; [discriminate|]. apply nf_bind; [apply H; left; reflexivity|]. intros b _.
  apply nf_bind; [apply IH; intros y Hy; apply H; right; exact Hy|]. discriminate.
Qed.
Ltac nf_step :=
  match goal with
  | |- nf (Ok _) => discriminate
  | |- nf (Err _) => discriminate
  | |- nf (bindr _ _) => apply nf_bind; [|intros ? _]
  | |- nf (match ?x with _ => _ end) => destruct x
  | |- nf (mapr _ _) => apply nf_mapr; intros ? _
  end.
Lemma nf_unescape p : nf (unescape_path p).
Proof. intros E. apply (unescape_no_fuel _ _ E). reflexivity. Qed.
Lemma nf_utf8_decode n : forall bs, nf (utf8_decode n bs).
Proof. induction n as [|n IH]; intros bs; cbn [utf8_decode]; [discriminate|]. repeat (nf_step || apply IH). Qed.
Lemma nf_decode_utf8 bs : nf (bytes_decode_utf8 bs). Proof. apply nf_utf8_decode. Qed.
Lemma nf_utf8_encode s : nf (utf8_encode s).
Proof. induction s as [|c s IH]; cbn [utf8_encode]; [discriminate|]. repeat (nf_step || apply IH). Qed.
Lemma nf_utf32 us : nf (utf32_decode us).
Proof. induction us as [|c s IH]; cbn [utf32_decode]; [discriminate|]. repeat (nf_step || apply IH). Qed.
Lemma nf_utf16 : forall us, nf (utf16_decode us).
Proof.
  fix IH 1. intros [|u r]; cbn [utf16_decode]; [discriminate|]. destruct (is_surrogate u).
  - destruct (is_high u); [|discriminate]. destruct r as [|v r]; [discriminate|]. destruct (is_low v); [|discriminate].
    apply nf_bind; [apply IH|discriminate].
  - apply nf_bind; [apply IH|discriminate].
Qed.
Lemma nf_units w us : nf (units_to_str w us).
Proof. unfold units_to_str. repeat (nf_step || apply nf_decode_utf8 || apply nf_utf16 || apply nf_utf32). Qed.
Lemma nf_chunk w us : nf (decode_chunk w us).
Proof. unfold decode_chunk. repeat (nf_step || apply nf_decode_utf8 || apply nf_utf16 || apply nf_utf32). Qed.
Lemma nf_bytes_chunk w n us : nf (bytes_chunk w n us).
Proof. unfold bytes_chunk. repeat (nf_step || apply nf_units || apply nf_utf8_encode). Qed.
Lemma nf_np_str a l : nf (convert_to_numpy_str a l).
Proof. unfold convert_to_numpy_str. cbv zeta. repeat (nf_step || apply nf_chunk). Qed.
Lemma nf_np_bytes a n : nf (convert_to_numpy_bytes a n).
Proof. unfold convert_to_numpy_bytes. cbv zeta. repeat (nf_step || apply nf_bytes_chunk || apply nf_utf8_encode). Qed.
Lemma nf_complex {A} (a : arr A) : nf (decode_complex a).
Proof. unfold decode_complex. cbv zeta. repeat nf_step. Qed.
Lemma nf_attr_str a k : nf (attr_str a k).
Proof. unfold attr_str. repeat (nf_step || apply nf_decode_utf8). Qed.
Lemma nf_read_attrs a : nf (read_attrs a).
Proof. unfold read_attrs. repeat (nf_step || apply nf_attr_str). Qed.
Lemma nf_dtype_name s : nf (dtype_of_name s).
Proof. unfold dtype_of_name. repeat nf_step. Qed.
Lemma nf_nchars p n u : nf (nchars p n u).
Proof. unfold nchars, int_text. repeat nf_step. Qed.
Lemma nf_flat0 a : nf (flat0 a). Proof. unfold flat0. repeat nf_step. Qed.
Lemma nf_meta rv ts u sh c e ns mc d : nf (np_meta rv ts u sh c e ns mc d).
Proof.
  unfold np_meta. cbv zeta. repeat (nf_step || apply nf_nchars || apply nf_dtype_name || apply nf_complex || apply nf_np_bytes || apply nf_np_str || apply nf_flat0).
Qed.
Lemma nf_np_matlab c d e fs a : nf (np_matlab c d e fs a).
Proof. unfold np_matlab. cbv zeta. repeat (nf_step || apply nf_unescape || apply nf_complex || apply nf_np_str). Qed.
Lemma nf_finish o r d : nf (np_finish o r d).
Proof. unfold np_finish. repeat (nf_step || apply nf_unescape || apply nf_meta || apply nf_np_matlab). Qed.
Lemma nf_build ns ms : nf (build_struct ns ms).
Proof. unfold build_struct. cbv zeta. repeat nf_step. Qed.
Lemma nf_quiet {A} (r : res A) : nf r -> nf (MarshalR.quiet r).
Proof. unfold MarshalR.quiet. destruct r as [a|e]; [discriminate|]. intros H. destruct e; try discriminate. destruct (H eq_refl). Qed.
Lemma nf_item v : nf (item v). Proof. unfold item. repeat nf_step. Qed.
Lemma nf_py_list v : nf (py_list v). Proof. unfold py_list. repeat nf_step. Qed.
Lemma nf_py_str v : nf (py_str v). Proof. unfold py_str. repeat (nf_step || apply nf_decode_utf8 || apply nf_units). Qed.
Lemma nf_py_bytes v : nf (py_bytes v). Proof. unfold py_bytes. repeat nf_step. Qed.
Lemma nf_py_bool e : nf (py_bool e). Proof. unfold py_bool. repeat nf_step. Qed.
Lemma nf_py_int e : nf (py_int e). Proof. unfold py_int. repeat nf_step. Qed.
Lemma nf_py_float e : nf (py_float e). Proof. unfold py_float. repeat nf_step. Qed.
Lemma nf_py_complex e : nf (py_complex e). Proof. unfold py_complex. repeat nf_step. Qed.
Lemma nf_key c s : nf (key_of c s). Proof. unfold key_of. repeat (nf_step || apply nf_utf8_encode). Qed.
Lemma nf_rec k l : nf (rec_read k l). Proof. unfold rec_read. cbv zeta. repeat nf_step. Qed.

Section Read.
Variables (o : options) (keq : pyval -> pyval -> bool) (h : heap).
(** the objects that reading [ob] goes on to *)
Definition next_of (ob : obj) (j : nat) : Prop :=
  match o_body ob with BData a _ => In (XPtr j) (a_data a) | BGroup ls => exists k, In (k, j) ls end.
Section One.
Variables (rd : nat -> res pyval) (i : nat) (ob : obj).
Hypotheses (E : h i = Some ob) (H : forall j, next_of ob j -> nf (rd j)).
Lemma nf_np : nf (np_read o h rd ob).
Proof.
  unfold np_read. apply nf_bind; [apply nf_read_attrs|]. intros ra _. unfold next_of in H. destruct (o_body ob) as [a f|ls].
  - apply nf_bind; [|intros d _; apply nf_finish]. unfold read_array.
    destruct (a_dt a); try discriminate. apply nf_bind; [|discriminate]. apply nf_mapr. intros e He. unfold deref. destruct e as [ | | | | | |j| ]; try discriminate.
    destruct (live h j); [|discriminate]. apply nf_bind; [apply H; exact He|discriminate].
  - apply nf_bind; [|intros [v|d] _; [discriminate|apply nf_finish]]. unfold read_group.
    apply nf_bind.
    { unfold read_members. apply nf_bind; [|discriminate]. apply nf_mapr. intros [k j] Hin. apply nf_bind; [apply nf_unescape|]. intros uk _.
      destruct (is_refs o h (snd (k, j))); [discriminate|]. apply nf_bind; [|discriminate]. apply nf_quiet, H. eauto. }
    intros ms _. destruct (_ && _); [discriminate|]. apply nf_bind; [repeat nf_step|]. intros cols _.
    apply nf_bind; [unfold field_order; repeat (nf_step || apply nf_unescape)|]. intros fs _. apply nf_bind; [apply nf_build|discriminate].
Qed.
Lemma nf_dict : nf (dict_read o keq h rd i ob).
Proof.
  unfold dict_read, next_of in *. destruct (o_body ob) as [|ls] eqn:B; [discriminate|]. apply nf_bind; [|discriminate].
  assert (L : forall k j, lookup h i k = Some j -> nf (rd j)).
  { intros k j L. apply H. exists k. unfold lookup, Hdf5.links in L. rewrite E, B in L. apply assoc_In. exact L. }
  unfold dict_items. apply nf_bind; [apply nf_attr_str|]. intros sa _. apply nf_bind; [apply nf_attr_str|]. intros ts _. cbv zeta.
  match goal with |- nf (let '(a, b) := ?x in _) => destruct x as [kn vn] end.
  match goal with |- nf (match ?x with Some _ => _ | None => _ end) => destruct x as [[a b]|] eqn:X end.
  - assert (Y : nf (rd a) /\ nf (rd b)).
    { destruct (match sa with Some s => _ | None => _ end); [|discriminate]. destruct (lookup h i (escaped kn)) as [x|] eqn:L1; [|discriminate].
      destruct (lookup h i (escaped vn)) as [y|] eqn:L2; [|discriminate]. injection X as <- <-. split; eapply L; eassumption. }
    apply nf_bind; [apply Y|]. intros ks _. apply nf_bind; [apply Y|]. intros vs _. repeat (nf_step || apply nf_py_list).
  - apply nf_bind; [|discriminate]. apply nf_mapr. intros kc _. destruct (skipped o h i (fst kc)); [discriminate|]. unfold read_item. apply nf_quiet.
    apply nf_bind; [apply nf_unescape|]. intros uk _. destruct (lookup h i (fst kc)) as [j|] eqn:LK; [|discriminate].
    apply nf_bind; [eapply L; exact LK|]. intros v _. repeat (nf_step || apply nf_key).
Qed.
Lemma nf_value : nf (read_value o keq h rd i).
Proof.
  unfold read_value. rewrite E. apply nf_bind; [apply nf_attr_str|]. intros ts _. apply nf_bind; [apply nf_attr_str|]. intros _ _.
  destruct (reader_kind ts); repeat (apply nf_np || apply nf_item || apply nf_py_bool || apply nf_py_int || apply nf_py_float || apply nf_py_complex
    || apply nf_py_str || apply nf_py_bytes || apply nf_py_list || apply nf_rec || apply nf_dict || nf_step).
Qed.
End One.

(** what is read depends on what is read of the next objects only *)
Section Ext.
Variables (rd rd' : nat -> res pyval) (i : nat) (ob : obj).
Hypothesis E : h i = Some ob.
Hypothesis Hrd : forall j, next_of ob j -> rd' j = rd j.
Lemma ext_array a f : o_body ob = BData a f -> read_array h rd' a = read_array h rd a.
Proof.
  intros B. unfold read_array. destruct (a_dt a); try reflexivity. rewrite (mapr_ext (deref h rd') (deref h rd)); [reflexivity|].
  intros x Hx. unfold deref. destruct x; try reflexivity. rewrite Hrd; [reflexivity|]. unfold next_of. rewrite B. exact Hx.
Qed.
Lemma ext_np : np_read o h rd' ob = np_read o h rd ob.
Proof.
  unfold np_read. destruct (read_attrs (o_attrs ob)); [|reflexivity]. cbn [bindr]. destruct (o_body ob) as [d f|ls] eqn:B.
  - rewrite (ext_array d f B). reflexivity.
  - unfold read_group. replace (read_members o h rd' ls) with (read_members o h rd ls); [reflexivity|]. unfold read_members. f_equal. apply mapr_ext.
    intros [k j] Hk. cbn [fst snd]. rewrite (Hrd j); [reflexivity|]. unfold next_of. rewrite B. exists k. exact Hk.
Qed.
Lemma ext_lookup k j : lookup h i k = Some j -> rd' j = rd j.
Proof.
  intros L. apply Hrd. apply assoc_In in L. unfold Hdf5.links in L. rewrite E in L. unfold next_of. destruct (o_body ob); [destruct L|]. exists k. exact L.
Qed.
Lemma ext_dict : dict_read o keq h rd' i ob = dict_read o keq h rd i ob.
Proof.
  unfold dict_read. destruct (o_body ob) as [d f|ls]; [reflexivity|]. f_equal. unfold dict_items.
  destruct (attr_str (o_attrs ob) (lit "Python.dict.StoredAs")) as [sa|]; [|reflexivity]. cbn [bindr].
  destruct (attr_str (o_attrs ob) (lit "Python.dict.key_str_types")) as [ty|]; [|reflexivity]. cbn [bindr].
  match goal with |- context [let '(_, _) := ?x in _] => destruct x as [kn vn] end.
  assert (IT : forall (l : list (pystr * option N)),
    mapr (fun kc => if skipped o h i (fst kc) then Ok None else read_item h rd' i kc) l =
    mapr (fun kc => if skipped o h i (fst kc) then Ok None else read_item h rd i kc) l).
  { intros l. apply mapr_ext. intros kc _. unfold read_item. destruct (unescape_path (fst kc)); [|reflexivity]. cbn [bindr].
    destruct (lookup h i (fst kc)) as [j|] eqn:L; [|reflexivity]. rewrite (ext_lookup _ _ L). reflexivity. }
  destruct (match sa with Some s => eqb_str s (lit "keys_values") | None => false end).
  2: { rewrite IT. reflexivity. }
  destruct (lookup h i (escaped kn)) as [a|] eqn:La; [|rewrite IT; reflexivity].
  destruct (lookup h i (escaped vn)) as [b|] eqn:Lb; [|rewrite IT; reflexivity].
  rewrite (ext_lookup _ _ La), (ext_lookup _ _ Lb). reflexivity.
Qed.
Lemma ext_value : read_value o keq h rd' i = read_value o keq h rd i.
Proof.
  unfold read_value. rewrite E. destruct (attr_str (o_attrs ob) (lit "Python.Type")) as [ts|]; [|reflexivity].
  cbn [bindr]. destruct (attr_str (o_attrs ob) (lit "MATLAB_class")); [|reflexivity]. cbn [bindr]. rewrite ext_np, ext_dict. reflexivity.
Qed.
End Ext.

End Read.

(** with so many levels reading comes to an end, whatever the options, and more make no difference *)
Definition settles (h : heap) (n i : nat) : Prop :=
  forall o keq, nf (read o keq h n i) /\ forall m, n <= m -> read o keq h m i = read o keq h n i.
Section Ends.
Variable h : heap.
Lemma settles_more n m i : n <= m -> settles h n i -> settles h m i.
Proof. intros L H o keq. destruct (H o keq) as [H1 H2]. split; [rewrite (H2 m L); exact H1|]. intros k K. rewrite (H2 m L), (H2 k); [reflexivity|lia]. Qed.
Lemma enough (l : list nat) : (forall j, In j l -> exists n, settles h n j) -> exists n, forall j, In j l -> settles h n j.
Proof.
  induction l as [|x l IH]; intros H; [exists 0; intros j []|]. destruct (H x (or_introl eq_refl)) as [n1 H1].
  destruct IH as [n2 H2]; [intros j Hj; apply H; right; exact Hj|]. exists (Nat.max n1 n2).
  intros j [<-|Hj]; [apply (settles_more n1)|apply (settles_more n2)]; auto; lia.
Qed.
Lemma enough_next i ob (l : list nat) : h i = Some ob -> (forall j, next_of ob j -> In j l) ->
  (forall j, In j l -> exists n, settles h n j) -> exists n, settles h n i.
Proof.
  intros E H1 H2. destruct (enough l H2) as [n H]. exists (S n). intros o keq. split.
  - cbn [read]. eapply nf_value; [exact E|]. intros j Hj. apply (H j (H1 j Hj)).
  - intros [|m] Hm; [lia|]. cbn [read]. eapply ext_value; [exact E|]. intros j Hj. apply (H j (H1 j Hj)). lia.
Qed.
Theorem read_ends i : ends h i -> exists n, settles h n i.
Proof.
  induction 1 as [i ob a f E B H1 H2 IH|i ob ls E B H1 IH].
  - apply (enough_next i ob (flat_map (fun e => match e with XPtr j => [j] | _ => [] end) (a_data a)) E).
    + unfold next_of. rewrite B. intros j Hj. apply in_flat_map. exists (XPtr j). split; [exact Hj|left; reflexivity].
    + intros j Hj. apply in_flat_map in Hj. destruct Hj as (e & He & Hj). destruct e; cbn in Hj; try tauto. destruct Hj as [<-|[]]. apply IH. exact He.
  - apply (enough_next i ob (map snd ls) E).
    + unfold next_of. rewrite B. intros j [k Hk]. apply (in_map snd _ _ Hk).
    + intros j Hj. apply in_map_iff in Hj. destruct Hj as ([k x] & <- & Hx). eapply IH. exact Hx.
Qed.
Lemma all_settle b : (forall i, h i <> None -> i < b) -> (forall i, h i <> None -> ends h i) -> exists n, forall i, h i <> None -> settles h n i.
Proof.
  intros B E. destruct (enough (filter (fun i => match h i with Some _ => true | None => false end) (seq 0 b))) as [n H].
  - intros j Hj. apply filter_In in Hj. destruct Hj as [_ Hj]. apply read_ends, E. intros X. rewrite X in Hj. discriminate.
  - exists n. intros i Hi. apply H. apply filter_In. split; [apply in_seq; specialize (B i Hi); lia|]. destruct (h i); congruence.
Qed.
End Ends.
