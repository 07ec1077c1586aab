(** C31: the last write wins. *)
From Verif Require Import Base PathEsc PathEscFacts PosixPath PosixFacts ProcessPath Unicode Dec NdArray Value OptionsM Attrs Hdf5 HeapFacts FileApi MarshalW MarshalR ApiSpec HistoryFacts FileFacts RndFacts RoundSpec ProgressSpec OverSpec OverApi Props_Round Props_Struct.
Local Open Scope nat_scope.

(** C31.  After any number of writes to a place, each value being able to replace the one
    before it ([replaces]), and anything elsewhere in between, the place holds the last one.
    This includes a dict over a dict and a structured array over a structured array, where
    the Group is used again and the members are written over.  Missing: the values for which the claim is wrong,
    below, and pairs of different types whose attributes happen to have the same lengths. *)
Theorem C31_last_write_partial : forall refs wo ro keq p cs s v, good_refs refs -> usable refs wo -> paired wo ro ->
  (forall a b, keq (VStr a) (VStr b) = eqb_str a b) -> last_wrote refs wo ro keq p cs s v ->
  exists v', same v v' /\ forall m, depth v <= m -> file_read ro m keq (mkFile true s) p = (mkFile true s, Ok v').
Proof.
  intros refs wo ro keq p cs s v GR U HP SK H. destruct (last_kept refs wo ro keq p cs s v GR U HP SK H) as ((D & VP & NZ & NT) & _ & HR & K).
  exact (kept_read refs s wo ro keq p cs v GR U HP VP D NT NZ K).
Qed.
Print Assumptions C31_last_write_partial.

(** a dict, over it a list, a str, another str, and a list, with a write elsewhere *)
Definition c31_puts : list (pypath * pyval) :=
  [(PStr (lit "/x"), c36_value); (PStr (lit "/x"), VSeq QList [VInt 1]); (PStr (lit "/x"), VStr (lit "ab")); (PStr (lit "/y"), c36_value);
   (PStr (lit "/x"), VStr (lit "xyz")); (PStr (lit "/x"), c29_value)].
Definition puts (o : options) (l : list (pypath * pyval)) : file :=
  fold_left (fun f pv => fst (file_write o N.of_nat 5 20 f (snd pv) (fst pv))) l (mkFile true empty_file).
Definition read_x (o : options) (f : file) : res pyval := snd (file_read o 20 key_eq f (PStr (lit "/x"))).
Lemma N_no_repeat a b : no_repeat N.of_nat a b.
Proof. intros i j H1 H2 H3 H4. lia. Qed.
Lemma write_ok o f v p : snd (file_write o N.of_nat 5 20 f v p) = Ok tt -> file_write o N.of_nat 5 20 f v p = (fst (file_write o N.of_nat 5 20 f v p), Ok tt).
Proof. intros <-. apply surjective_pairing. Qed.
Lemma open_eta f : fl_open f = true -> f = mkFile true (fl_st f).
Proof. destruct f. cbn. intros ->. reflexivity. Qed.
Example C31_ex : last_wrote (lit "/#refs#") default_options default_options key_eq (PStr (lit "/x")) [lit "x"] (fl_st (puts default_options c31_puts)) c29_value /\
  read_x default_options (puts default_options c31_puts) = Ok c29_value.
Proof.
  split; [|vm_compute; reflexivity].
  assert (ST : forall k, k <= 6 -> fl_open (puts default_options (firstn k c31_puts)) = true).
  { intros k Hk. do 7 (destruct k as [|k]; [vm_compute; reflexivity|]). lia. }
  assert (OK : forall k pv, k < 6 -> nth_error c31_puts k = Some pv -> snd (file_write default_options N.of_nat 5 20 (mkFile true (fl_st (puts default_options (firstn k c31_puts)))) (snd pv) (fst pv)) = Ok tt).
  { intros k pv Hk. do 6 (destruct k as [|k]; [intros [= <-]; vm_compute; reflexivity|]). lia. }
  assert (NX : forall k pv, k < 6 -> nth_error c31_puts k = Some pv -> puts default_options (firstn (S k) c31_puts) = fst (file_write default_options N.of_nat 5 20 (mkFile true (fl_st (puts default_options (firstn k c31_puts)))) (snd pv) (fst pv))).
  { intros k pv Hk E. rewrite <- (open_eta _ (ST k ltac:(lia))). unfold puts. replace (firstn (S k) c31_puts) with (firstn k c31_puts ++ [pv]); [rewrite fold_left_app; reflexivity|].
    do 6 (destruct k as [|k]; [injection E as <-; reflexivity|]). lia. }
  pose proof (fun k v Hk E => write_ok _ _ _ _ (OK k (PStr (lit "/x"), v) Hk E)) as OX. cbn [fst snd] in OX.
  assert (ND : forall v w, ~ dictlike v -> ~ dictlike w -> (forall d e, dtype_of v d -> dtype_of w e -> forall x, may_be d x -> ~ may_be e x) -> ~ blank v -> ~ blank w -> (forall c a, v <> VNp c a) -> (forall c a, w <> VNp c a) -> replaces default_options v w).
  { intros v w D1 D2 X B1 B2 U1 U2. apply R_dtype; [destruct v; first [exact D1|destruct (U1 _ _ eq_refl)]|destruct w; first [exact D2|destruct (U2 _ _ eq_refl)]|]. intros x [(d & H1 & H2)|[H1 _]] [(e & H3 & H4)|[H3 _]]; first [exact (X d e H1 H3 x H2 H4)|exact (B1 H1)|exact (B2 H3)]. }
  change c31_puts with (firstn 6 c31_puts). rewrite (NX 5 (PStr (lit "/x"), c29_value) ltac:(lia) eq_refl). cbn [fst snd].
  eapply W_again with (v := VStr (lit "xyz")); [|apply c29_storable| |apply (OX 5 _ ltac:(lia) eq_refl)|apply N_no_repeat].
  2: { apply ND; [intros []|intros []| |discriminate|discriminate|discriminate|discriminate]. intros d e [n ->] -> x. cbn [may_be]. intros [-> | ->]; discriminate. }
  rewrite (NX 4 (PStr (lit "/x"), VStr (lit "xyz")) ltac:(lia) eq_refl). cbn [fst snd].
  eapply W_again with (v := VStr (lit "ab")); [|apply V_str, text_ok_b; reflexivity|apply R_same; [intros []|exact I]|apply (OX 4 _ ltac:(lia) eq_refl)|apply N_no_repeat].
  eapply W_later.
  2: { rewrite (NX 3 (PStr (lit "/y"), c36_value) ltac:(lia) eq_refl). cbn [fst snd]. unfold file_write. apply later_writes; [apply L_none|apply default_usable|].
       intros p v cs qs [[= <- <-]|[]] (g & t & P & ->) (g' & t' & P' & ->). vm_compute in P, P'. injection P as <- <-. injection P' as <- <-. split; [discriminate|].
       intros [[c X]|[c X]]; vm_compute in X; discriminate X. }
  rewrite (NX 2 (PStr (lit "/x"), VStr (lit "ab")) ltac:(lia) eq_refl). cbn [fst snd].
  eapply W_again with (v := VSeq QList [VInt 1]); [|apply V_str, text_ok_b; reflexivity| |apply (OX 2 _ ltac:(lia) eq_refl)|apply N_no_repeat].
  2: { apply ND; [intros []|intros []| |discriminate|discriminate|discriminate|discriminate]. intros d e -> [n ->] x. cbn [may_be]. intros ->. intros [E|E]; discriminate. }
  rewrite (NX 1 (PStr (lit "/x"), VSeq QList [VInt 1]) ltac:(lia) eq_refl). cbn [fst snd].
  eapply W_again with (v := c36_value); [|apply V_seq; [exact I|repeat constructor]|apply R_group; [exact I|intros []]|apply (OX 1 _ ltac:(lia) eq_refl)|apply N_no_repeat].
  rewrite (NX 0 (PStr (lit "/x"), c36_value) ltac:(lia) eq_refl). cbn [fst snd firstn].
  eapply W_first; [| |apply C36_ex|apply (OX 0 _ ltac:(lia) eq_refl)|apply N_no_repeat].
  - apply R_new.
  - apply (empty_new_place default_options (lit "x")); try (vm_compute; reflexivity). replace (refs_path default_options) with [lit "#refs#"] by (vm_compute; reflexivity). discriminate.
Qed.

(** the claim in general is wrong: attributes of another length stay as they were, if the
    Dataset or the Group can be used again *)
Definition twice (o : options) (v w : pyval) : res pyval := read_x o (puts o [(PStr (lit "/x"), v); (PStr (lit "/x"), w)]).
Theorem C31_last_write_refuted :
  (* a tuple over a list, a bytearray over bytes, NotImplemented over None *)
  twice default_options (VSeq QList [VInt 1]) (VSeq QTuple [VInt 1]) = Ok (VSeq QList [VInt 1]) /\
  twice default_options (VBytes (lit "ab")) (VByteArray (lit "ab")) = Ok (VBytes (lit "ab")) /\
  twice default_options VNone VNotImplemented = Ok VNone /\
  (* bytes over a str of as many characters *)
  twice default_options (VStr (lit "ab")) (VBytes (lit "ab")) = Ok (VStr (lit "ab")) /\
  (* an array of shape (4,) over one of shape (1,4) *)
  (let a sh := VNp CNdarray (mkArr (TI 8) sh [XInt 1; XInt 2; XInt 3; XInt 4]) in twice default_options (a [1; 4]) (a [4]) = Ok (a [1; 4])) /\
  (* a dict with an int key over one with str keys *)
  twice default_options (VDict MDict [(VStr (lit "a"), VInt 1)]) (VDict MDict [(VInt 2, VInt 3)]) =
    Ok (VDict MDict [(VStr (lit "keys"), VSeq QTuple [VInt 2]); (VStr (lit "values"), VSeq QTuple [VInt 3])]) /\
  (* a dict with a bytes key over one with two str keys *)
  twice default_options (VDict MDict [(VStr (lit "a"), VInt 1); (VStr (lit "b"), VInt 1)]) (VDict MDict [(VBytes (lit "a"), VInt 1)]) =
    Ok (VDict MDict [(VStr (lit "a"), VInt 1)]).
Proof. vm_compute. repeat split. Qed.
Print Assumptions C31_last_write_refuted.

(** a dict over a dict, members of which are dicts, over it another *)
Definition c31_dict1 : pyval := VDict MDict
  [(VStr (lit "a"), VDict MOrderedDict [(VStr (lit "x"), VInt 1); (VStr (lit "y"), VStr (lit "text"))]); (VStr (lit "b"), VSeq QList [VInt 1]); (VStr (lit "s"), VStr (lit "old"))].
Definition c31_dict2 : pyval := VDict MDict
  [(VStr (lit "s"), VStr (lit "newer")); (VStr (lit "c"), VNone); (VStr (lit "a"), VDict MOrderedDict [(VStr (lit "y"), VStr (lit "abc"))])].
Definition c31_dict3 : pyval := VDict MDict [(VStr (lit "a"), VInt 5); (VStr (lit "c"), VDict MDict [(VInt 1, VInt 2)])].
Definition c31_dicts : list (pypath * pyval) := [(PStr (lit "/x"), c31_dict1); (PStr (lit "/x"), c31_dict2); (PStr (lit "/x"), c31_dict3)].
Lemma str_dict k l : Forall (fun kv => match fst kv with VStr t => t <> [] /\ forallb is_scalar t = true | _ => False end) l ->
  NoDup (map (fun kv => match fst kv with VStr t => t | _ => [] end) l) -> Forall (storable default_options default_options key_eq) (map snd l) ->
  storable default_options default_options key_eq (VDict k l).
Proof.
  intros F N S. apply V_dict with (texts := map (fun kv => match fst kv with VStr t => t | _ => [] end) l); auto.
  - clear S. induction l as [|[x y] l IH]; [constructor|]. inversion F as [|? ? F1 F2]; subst. inversion N as [|? ? N1 N2]; subst. cbn [map fst] in *. constructor; [|auto].
    destruct x; try destruct F1. clear - N1 F2. rewrite Forall_map, Forall_forall. intros [y z] Hy. rewrite Forall_forall in F2. specialize (F2 _ Hy). cbn [fst] in *. destruct y; try destruct F2.
    assert (E : forall a b, eqb_str a b = false -> differ key_eq (VStr a) (VStr b)).
    { intros a b E a' b' Sa Sb. inversion Sa; inversion Sb; subst. exact E. }
    apply E, eqb_str_neq. intros ->. apply N1. apply in_map_iff. eexists. split; [|exact Hy]. reflexivity.
  - clear S N. induction F as [|[x y] l F1 F2 IH]; [constructor|]. cbn [map fst] in *. destruct x; try destruct F1. constructor; [constructor|exact IH].
  - rewrite Forall_map. eapply Forall_impl; [|exact F]. intros [x y] Hx. cbn [fst] in *. destruct x; try destruct Hx. split; [assumption|]. apply Forall_forall. rewrite forallb_forall in H0. exact H0.
Qed.

Ltac sdict := apply str_dict; [repeat (apply Forall_cons; [split; [discriminate|reflexivity]|]); apply Forall_nil|repeat constructor; cbn; intuition discriminate|cbn [map snd]].
Lemma c31_storable : Forall (storable default_options default_options key_eq) [c31_dict1; c31_dict2; c31_dict3].
Proof.
  repeat apply Forall_cons; try apply Forall_nil; unfold c31_dict1, c31_dict2, c31_dict3; sdict; repeat apply Forall_cons; try apply Forall_nil.
  - sdict. repeat apply Forall_cons; try apply Forall_nil; [constructor|apply V_str, text_ok_b; reflexivity].
  - apply V_seq; [exact I|repeat constructor].
  - apply V_str, text_ok_b; reflexivity.
  - apply V_str, text_ok_b; reflexivity.
  - constructor.
  - sdict. repeat apply Forall_cons; try apply Forall_nil. apply V_str, text_ok_b; reflexivity.
  - constructor.
  - apply V_dict_other; cbn [map fst snd]; [repeat constructor|apply Exists_cons_hd; exact I|repeat constructor|repeat constructor].
Qed.
Lemma c31_replaces : replaces default_options c31_dict1 c31_dict2 /\ replaces default_options c31_dict2 c31_dict3.
Proof.
  assert (DU : o_delete_unused default_options = true) by (vm_compute; reflexivity). split.
  - apply R_dict with (t := [lit "a"; lit "b"; lit "s"]) (t' := [lit "s"; lit "c"; lit "a"]); [repeat constructor|repeat constructor| |left; exact DU|left; repeat constructor].
    cbn [map snd combine In]. intros x v w H1 H2. repeat destruct H1 as [H1|H1]; try contradiction; repeat destruct H2 as [H2|H2]; try contradiction; injection H1 as <- <-; try discriminate H2; injection H2 as <-.
    + apply R_dict with (t := [lit "x"; lit "y"]) (t' := [lit "y"]); [repeat constructor|repeat constructor| |left; exact DU|left; repeat constructor].
      cbn [map snd combine In]. intros x v w H1 H2. repeat destruct H1 as [H1|H1]; try contradiction; repeat destruct H2 as [H2|H2]; try contradiction; injection H1 as <- <-; try discriminate H2; injection H2 as <-.
      apply R_same; [intros []|exact I].
    + apply R_same; [intros []|exact I].
  - apply R_dict with (t := [lit "s"; lit "c"; lit "a"]) (t' := [lit "a"; lit "c"]); [repeat constructor|repeat constructor| |left; exact DU|left; repeat constructor].
    cbn [map snd combine In]. intros x v w H1 H2. repeat destruct H1 as [H1|H1]; try contradiction; repeat destruct H2 as [H2|H2]; try contradiction; injection H1 as <- <-; try discriminate H2; injection H2 as <-.
    + apply R_dataset; [intros []|exact I].
    + apply R_group; [exact I|intros []].
Qed.
Example C31_dict_ex : last_wrote (lit "/#refs#") default_options default_options key_eq (PStr (lit "/x")) [lit "x"] (fl_st (puts default_options c31_dicts)) c31_dict3 /\
  read_x default_options (puts default_options c31_dicts) = Ok c31_dict3.
Proof.
  split; [|vm_compute; reflexivity].
  assert (ST : forall k, k <= 3 -> fl_open (puts default_options (firstn k c31_dicts)) = true).
  { intros k Hk. do 4 (destruct k as [|k]; [vm_compute; reflexivity|]). lia. }
  assert (OK : forall k pv, k < 3 -> nth_error c31_dicts k = Some pv -> snd (file_write default_options N.of_nat 5 20 (mkFile true (fl_st (puts default_options (firstn k c31_dicts)))) (snd pv) (fst pv)) = Ok tt).
  { intros k pv Hk. do 3 (destruct k as [|k]; [intros [= <-]; vm_compute; reflexivity|]). lia. }
  assert (NX : forall k pv, k < 3 -> nth_error c31_dicts k = Some pv -> puts default_options (firstn (S k) c31_dicts) = fst (file_write default_options N.of_nat 5 20 (mkFile true (fl_st (puts default_options (firstn k c31_dicts)))) (snd pv) (fst pv))).
  { intros k pv Hk E. rewrite <- (open_eta _ (ST k ltac:(lia))). unfold puts. replace (firstn (S k) c31_dicts) with (firstn k c31_dicts ++ [pv]); [rewrite fold_left_app; reflexivity|].
    do 3 (destruct k as [|k]; [injection E as <-; reflexivity|]). lia. }
  pose proof (fun k v Hk E => write_ok _ _ _ _ (OK k (PStr (lit "/x"), v) Hk E)) as OX. cbn [fst snd] in OX. destruct c31_replaces as [R1 R2].
  pose proof c31_storable as CS. inversion CS as [|? ? CS1 CS0]; subst. inversion CS0 as [|? ? CS2 CS4]; subst. inversion CS4 as [|? ? CS3 _]; subst. clear CS CS0 CS4.
  change c31_dicts with (firstn 3 c31_dicts). rewrite (NX 2 (PStr (lit "/x"), c31_dict3) ltac:(lia) eq_refl). cbn [fst snd].
  eapply W_again with (v := c31_dict2); [|exact CS3|exact R2|apply (OX 2 _ ltac:(lia) eq_refl)|apply N_no_repeat].
  rewrite (NX 1 (PStr (lit "/x"), c31_dict2) ltac:(lia) eq_refl). cbn [fst snd].
  eapply W_again with (v := c31_dict1); [|exact CS2|exact R1|apply (OX 1 _ ltac:(lia) eq_refl)|apply N_no_repeat].
  rewrite (NX 0 (PStr (lit "/x"), c31_dict1) ltac:(lia) eq_refl). cbn [fst snd firstn].
  eapply W_first; [| |exact CS1|apply (OX 0 _ ltac:(lia) eq_refl)|apply N_no_repeat].
  - apply R_new.
  - apply (empty_new_place default_options (lit "x")); try (vm_compute; reflexivity). replace (refs_path default_options) with [lit "#refs#"] by (vm_compute; reflexivity). discriminate.
Qed.
(** where the conditions on dicts are not met: the types of the keys stay as they were when
    their number changes, and then strs are read; keys that are gone stay in the file without
    the option delete_unused_variables *)
Theorem C31_dict_refuted :
  (let v := VDict MDict [(VStr (lit "a"), VInt 1)] in let w := VDict MDict [(VStr (lit "a"), VInt 1); (VBytes (lit "b"), VInt 2)] in
   twice default_options v w = Ok (VDict MDict [(VStr (lit "a"), VInt 1); (VStr (lit "b"), VInt 2)])) /\
  (let v := VDict MDict [(VStr (lit "a"), VInt 1); (VStr (lit "b"), VInt 2)] in let w := VDict MDict [(VStr (lit "a"), VInt 3)] in
   o_delete_unused bare_options = false /\ twice bare_options v w = Ok (VDict MDict [(VStr (lit "a"), VInt 3); (VStr (lit "b"), VInt 2)]) /\
   o_delete_unused default_options = true /\ twice default_options v w = Ok w).
Proof. vm_compute. repeat split. Qed.
Print Assumptions C31_dict_refuted.

(** a structured array over a structured array, with one and with more elements, and with
    other fields *)
Definition c31_rows (sh : list nat) (l : list Z) : pyval := VNp CNdarray (mkArr (TStruct c28_fields) sh (map c28_row l)).
Lemma rows_storable sh l : length l = prod sh -> prod sh <> 0 -> storable default_options default_options key_eq (c31_rows sh l).
Proof.
  intros H1 H2. eapply table_storable. apply (c28_rows CNdarray sh l default_options); auto; try discriminate.
Qed.
Lemma default_group d : stored_as_group default_options d = true.
Proof. unfold stored_as_group. replace (o_struct_as_struct default_options) with true by (vm_compute; reflexivity). reflexivity. Qed.
Lemma rows_replace sh l sh' l' : length sh = length sh' -> replaces default_options (c31_rows sh l) (c31_rows sh' l').
Proof.
  intros L. apply R_struct with (fs := c28_fields) (fs' := c28_fields); [reflexivity|reflexivity|apply default_group|apply default_group|exact L|right; auto|].
  intros _ _ n f n' f' v w Hn Hn' NE Hv Hw. unfold field_values, NpWrite.column in Hv, Hw. cbn [a_data] in Hv, Hw.
  apply in_map_iff in Hv. destruct Hv as (x & <- & Hx). apply in_map_iff in Hw. destruct Hw as (y & <- & Hy).
  apply in_map_iff in Hx. destruct Hx as (k & <- & _). apply in_map_iff in Hy. destruct Hy as (k' & <- & _).
  destruct n as [|[|[|n]]]; [injection Hn as <-|injection Hn as <-|injection Hn as <-|destruct n; discriminate Hn];
    (destruct n' as [|[|[|n']]]; [injection Hn' as <-|injection Hn' as <-|injection Hn' as <-|destruct n'; discriminate Hn']; try discriminate NE; (apply R_same; [cbn; discriminate|cbn; auto])).
Qed.
(** one with other fields, one of which has the same name: the name of the dtype has another
    length *)
Definition c31_other_fields : list (pystr * (dt * list nat)) := [(lit "b", (TF 8, [])); (lit "p/q", (TI 2, []))].
Definition c31_other : pyval := VNp CNdarray (mkArr (TStruct c31_other_fields) [1; 1] [XRec [[XFlt 4]; [XInt 5]]]).
Lemma other_storable : storable default_options default_options key_eq c31_other.
Proof.
  eapply table_storable with (fs := c31_other_fields). constructor; cbn [a_dt a_data a_shape]; auto; try (intros _; split; vm_compute; reflexivity).
  - constructor; cbn [a_dt a_data a_shape]; auto; try discriminate; [split; discriminate|split|].
    + repeat constructor; cbn; intuition discriminate.
    + apply Forall_cons; [split; [discriminate|ascii_all]|]. apply Forall_cons; [split; [discriminate|ascii_all]|apply Forall_nil].
    + repeat constructor. eexists. split; [reflexivity|]. repeat constructor.
  - repeat constructor; cbn; auto.
  - intros cells [[= <-]|[]]. repeat constructor.
Qed.
Lemma other_replace k : replaces default_options (c31_rows [1; 1] [k]) c31_other.
Proof.
  apply R_struct with (fs := c28_fields) (fs' := c31_other_fields); [reflexivity|reflexivity|apply default_group|apply default_group|reflexivity|left; vm_compute; reflexivity|].
  intros _ _ n f n' f' v w Hn Hn' NE Hv Hw. destruct n as [|[|[|n]]]; [injection Hn as <-|injection Hn as <-|injection Hn as <-|destruct n; discriminate Hn];
    (destruct n' as [|[|n']]; [injection Hn' as <-|injection Hn' as <-|destruct n'; discriminate Hn']; try discriminate NE).
  destruct Hv as [<-|[]], Hw as [<-|[]]. apply R_dtype; [cbn; discriminate|cbn; discriminate|].
  intros x [(d & -> & H1)|[H1 _]]; [|cbn in H1; intuition discriminate]. intros [(e & -> & H2)|[H2 _]]; [|cbn in H2; intuition discriminate]. cbn in H1, H2. intuition congruence.
Qed.
Lemma other_replaced sh l : length sh = 2 -> prod sh <> 1 -> replaces default_options c31_other (c31_rows sh l).
Proof.
  intros L P. apply R_struct with (fs := c31_other_fields) (fs' := c28_fields); [reflexivity|reflexivity|apply default_group|apply default_group|symmetry; exact L|left; vm_compute; reflexivity|].
  intros _ X. destruct (P X).
Qed.
Definition c31_tables : list (pypath * pyval) := [(PStr (lit "/x"), c36_value); (PStr (lit "/x"), VInt 3); (PStr (lit "/x"), c31_rows [2; 2] [1; 2; 3; 4]%Z);
  (PStr (lit "/x"), c31_rows [1; 1] [5]%Z); (PStr (lit "/x"), c31_other); (PStr (lit "/x"), c31_rows [1; 3] [7; 8; 9]%Z)].
Example C31_struct_ex : last_wrote (lit "/#refs#") default_options default_options key_eq (PStr (lit "/x")) [lit "x"] (fl_st (puts default_options c31_tables)) (c31_rows [1; 3] [7; 8; 9]%Z) /\
  read_x default_options (puts default_options c31_tables) = Ok (c31_rows [1; 3] [7; 8; 9]%Z) /\
  read_x default_options (puts default_options (firstn 5 c31_tables)) = Ok c31_other /\ read_x default_options (puts default_options (firstn 4 c31_tables)) = Ok (c31_rows [1; 1] [5]%Z).
Proof.
  split; [|vm_compute; auto].
  assert (ST : forall k, k <= 6 -> fl_open (puts default_options (firstn k c31_tables)) = true).
  { intros k Hk. do 7 (destruct k as [|k]; [vm_compute; reflexivity|]). lia. }
  assert (OK : forall k pv, k < 6 -> nth_error c31_tables k = Some pv -> snd (file_write default_options N.of_nat 5 20 (mkFile true (fl_st (puts default_options (firstn k c31_tables)))) (snd pv) (fst pv)) = Ok tt).
  { intros k pv Hk. do 6 (destruct k as [|k]; [intros [= <-]; vm_compute; reflexivity|]). lia. }
  assert (NX : forall k pv, k < 6 -> nth_error c31_tables k = Some pv -> puts default_options (firstn (S k) c31_tables) = fst (file_write default_options N.of_nat 5 20 (mkFile true (fl_st (puts default_options (firstn k c31_tables)))) (snd pv) (fst pv))).
  { intros k pv Hk E. rewrite <- (open_eta _ (ST k ltac:(lia))). unfold puts. replace (firstn (S k) c31_tables) with (firstn k c31_tables ++ [pv]); [rewrite fold_left_app; reflexivity|].
    do 6 (destruct k as [|k]; [injection E as <-; reflexivity|]). lia. }
  pose proof (fun k v Hk E => write_ok _ _ _ _ (OK k (PStr (lit "/x"), v) Hk E)) as OX. cbn [fst snd] in OX.
  change c31_tables with (firstn 6 c31_tables). rewrite (NX 5 (PStr (lit "/x"), c31_rows [1; 3] [7; 8; 9]%Z) ltac:(lia) eq_refl). cbn [fst snd].
  eapply W_again with (v := c31_other); [|apply rows_storable; [reflexivity|discriminate]|apply other_replaced; [reflexivity|discriminate]|apply (OX 5 _ ltac:(lia) eq_refl)|apply N_no_repeat].
  rewrite (NX 4 (PStr (lit "/x"), c31_other) ltac:(lia) eq_refl). cbn [fst snd].
  eapply W_again with (v := c31_rows [1; 1] [5]%Z); [|exact other_storable|apply other_replace|apply (OX 4 _ ltac:(lia) eq_refl)|apply N_no_repeat].
  rewrite (NX 3 (PStr (lit "/x"), c31_rows [1; 1] [5]%Z) ltac:(lia) eq_refl). cbn [fst snd].
  eapply W_again with (v := c31_rows [2; 2] [1; 2; 3; 4]%Z); [|apply rows_storable; [reflexivity|discriminate]|apply rows_replace; reflexivity|apply (OX 3 _ ltac:(lia) eq_refl)|apply N_no_repeat].
  rewrite (NX 2 (PStr (lit "/x"), c31_rows [2; 2] [1; 2; 3; 4]%Z) ltac:(lia) eq_refl). cbn [fst snd].
  eapply W_again with (v := VInt 3); [|apply rows_storable; [reflexivity|discriminate]|apply R_dataset; [intros []|cbn [c31_rows grouped a_dt]; rewrite default_group; reflexivity]|apply (OX 2 _ ltac:(lia) eq_refl)|apply N_no_repeat].
  rewrite (NX 1 (PStr (lit "/x"), VInt 3) ltac:(lia) eq_refl). cbn [fst snd].
  eapply W_again with (v := c36_value); [|constructor|apply R_group; [exact I|intros []]|apply (OX 1 _ ltac:(lia) eq_refl)|apply N_no_repeat].
  rewrite (NX 0 (PStr (lit "/x"), c36_value) ltac:(lia) eq_refl). cbn [fst snd firstn].
  eapply W_first; [| |apply C36_ex|apply (OX 0 _ ltac:(lia) eq_refl)|apply N_no_repeat].
  - apply R_new.
  - apply (empty_new_place default_options (lit "x")); try (vm_compute; reflexivity). replace (refs_path default_options) with [lit "#refs#"] by (vm_compute; reflexivity). discriminate.
Qed.
(** where the conditions on structured arrays are not met: a dict over a structured array and
    the reverse, a recarray over an ndarray, another number of dimensions: the types and the
    shapes of the first ones stay *)
Theorem C31_struct_refuted :
  let d := VDict MDict [(VStr (lit "a"), VInt 1)] in
  let v c sh := VNp c (mkArr (TStruct [(lit "a", (TI 8, []))]) sh [XRec [[XInt 1]]]) in
  twice default_options (v CNdarray [1]) d = Ok (v CNdarray [1]) /\ twice default_options d (v CNdarray [1]) = Ok d /\
  twice default_options (v CNdarray [1]) (v CRecarray [1]) = Ok (v CNdarray [1]) /\ twice default_options (v CNdarray [1; 1]) (v CNdarray [1]) = Ok (v CNdarray [1; 1]).
Proof. vm_compute. auto. Qed.
Print Assumptions C31_struct_refuted.
