(** What a write that is cut short can change: [WriteFrame] for the states in between. *)
From Verif Require Import Base Unicode PathEsc PosixPath PosixFacts ProcessPath ProcessPathFacts MColl Dec NdArray Value Attrs OptionsM StrConv ComplexM NpDims Hdf5 HeapFacts NpWrite MarshalW FrameFacts WriteFrame FileApi CutM.
Local Open Scope nat_scope.

(** ** the programs are the same *)
Lemma bindt_snd {A B} (m : T A) (k : A -> T B) (m' : M A) (k' : A -> M B) s :
  (forall s, snd (m s) = m' s) -> (forall a s, snd (k a s) = k' a s) -> snd (bindt m k s) = bindm m' k' s.
Proof.
  intros H1 H2. unfold bindt, bindm. rewrite H1. destruct (m' s) as [s1 [a|e]]; cbn [snd]; [apply H2|reflexivity].
Qed.
Lemma iterT_snd {A} (f : A -> T unit) (f' : A -> M unit) l : (forall x s, snd (f x s) = f' x s) -> forall s, snd (iterT f l s) = iterM f' l s.
Proof.
  intros H. induction l as [|x l IH]; intros s; cbn [iterT iterM]; [reflexivity|]. apply bindt_snd; auto.
Qed.
Lemma mapT_snd {A B} (f : A -> T B) (f' : A -> M B) l : (forall x s, snd (f x s) = f' x s) -> forall s, snd (mapT f l s) = mapM f' l s.
Proof.
  intros H. induction l as [|x l IH]; intros s; cbn [mapT mapM]; [reflexivity|]. apply bindt_snd; auto. intros a s1. apply bindt_snd; auto.
Qed.

Section Same.
Variables (o : options) (rnd : nat -> N) (tries : nat).
Lemma ensure_refs_same s : snd (ensure_refsT o s) = ensure_refs o s.
Proof.
  unfold ensure_refsT, ensure_refs. destruct (rgrp s); [reflexivity|]. apply bindt_snd; [reflexivity|]. intros [g|] s1.
  - apply bindt_snd; [reflexivity|]. intros [] s2; repeat (apply bindt_snd; [reflexivity|intros ? ?]); reflexivity.
  - repeat (apply bindt_snd; [reflexivity|intros ? ?]); reflexivity.
Qed.
Lemma new_canon_same g s : snd (new_canonT g s) = new_canon g s.
Proof. reflexivity. Qed.
Lemma ensure_canon_same g s : snd (ensure_canonT g s) = ensure_canon g s.
Proof.
  unfold ensure_canonT, ensure_canon. destruct (canon s); [reflexivity|]. destruct (lookup _ _ _); [|apply new_canon_same].
  destruct (is_canonical _ _); [reflexivity|]. apply bindt_snd; [reflexivity|]. intros _ s1. apply new_canon_same.
Qed.
Lemma open_group_same g nm s : snd (open_groupT g nm s) = open_group g nm s.
Proof.
  unfold open_groupT, open_group. apply bindt_snd; [reflexivity|]. intros [i|] s1; [|reflexivity]. apply bindt_snd; [reflexivity|].
  intros [] s2; [reflexivity|]. apply bindt_snd; reflexivity.
Qed.
Lemma prune_same i keep s : snd (pruneT i keep s) = prune i keep s.
Proof. unfold pruneT, prune. apply iterT_snd. reflexivity. Qed.
Lemma put_dataset_same g nm a s : snd (put_datasetT o g nm a s) = put_dataset o g nm a s.
Proof.
  unfold put_datasetT, put_dataset. apply bindt_snd; [reflexivity|]. intros [i|] s1; [|reflexivity]. apply bindt_snd; [reflexivity|].
  assert (RP : forall f s, snd (replace_datasetT g nm a f s) = replace_dataset g nm a f s) by (intros; apply bindt_snd; reflexivity).
  intros b s2. destruct (same_dataset _ _ _); [|apply RP]. destruct (same_opts _ _) as [[]|]; [reflexivity|apply RP|reflexivity].
Qed.
Section Marsh.
Variables (wrT : nat -> pystr -> pyval -> T (option nat)) (wr : nat -> pystr -> pyval -> M (option nat)).
Hypothesis Hw : forall g nm v s, snd (wrT g nm v s) = wr g nm v s.
Lemma element_same g c v s : snd (write_elementT o rnd tries wrT g c v s) = write_element o rnd tries wr g c v s.
Proof.
  unfold write_elementT, write_element. apply bindt_snd; [reflexivity|]. intros nm s1. apply bindt_snd; [intros; apply Hw|].
  intros [i|] s2; [|reflexivity]. repeat (apply bindt_snd; [reflexivity|intros ? ?]). reflexivity.
Qed.
Lemma object_array_same a s : snd (write_object_arrayT o rnd tries wrT a s) = write_object_array o rnd tries wr a s.
Proof.
  unfold write_object_arrayT, write_object_array. apply bindt_snd; [apply ensure_refs_same|]. intros g s1.
  apply bindt_snd; [intros; apply ensure_canon_same|]. intros c s2. apply bindt_snd; [|reflexivity].
  apply mapT_snd. intros x s3. apply element_same.
Qed.
Lemma field_same i b nf s : snd (write_fieldT o wrT i b nf s) = write_field o wr i b nf s.
Proof.
  destruct nf as [n [name f]]. unfold write_fieldT, write_field. apply bindt_snd; [intros; apply Hw|]. intros [j|] s1; [|reflexivity].
  apply bindt_snd; [reflexivity|]. reflexivity.
Qed.
Lemma struct_same g nm b s : snd (write_structT o wrT g nm b s) = write_struct o wr g nm b s.
Proof.
  unfold write_structT, write_struct. apply bindt_snd; [intros; apply open_group_same|]. intros i s1.
  apply bindt_snd; [intros; destruct (o_delete_unused o); [apply prune_same|reflexivity]|]. intros u s2.
  apply bindt_snd; [|reflexivity]. apply iterT_snd. intros x s3. apply field_same.
Qed.
Lemma np_same g nm v ts s : snd (np_writeT o rnd tries wrT g nm v ts s) = np_write o rnd tries wr g nm v ts s.
Proof.
  destruct v as [c a]. unfold np_writeT, np_write. destruct (_ && _); [reflexivity|]. destruct (_ && _); [reflexivity|].
  apply bindt_snd; [reflexivity|]. intros b s1. destruct (as_group _ _ _).
  - apply bindt_snd; [intros; apply struct_same|]. intros i s2. apply bindt_snd; [reflexivity|reflexivity].
  - apply bindt_snd; [intros s2; destruct (a_dt b); try reflexivity; apply object_array_same|]. intros d s2.
    apply bindt_snd; [intros; apply put_dataset_same|]. intros i s3. apply bindt_snd; [reflexivity|]. intros t s4.
    apply bindt_snd; [reflexivity|reflexivity].
Qed.
Lemma item_same i p kv s : snd (write_itemT o wrT i p kv s) = write_item o wr i p kv s.
Proof. unfold write_itemT, write_item. apply bindt_snd; [intros; apply Hw|]. intros [j|] s1; reflexivity. Qed.
Lemma dict_same g nm items ts plain s : snd (dict_writeT o wrT g nm items ts plain s) = dict_write o wr g nm items ts plain s.
Proof.
  unfold dict_writeT, dict_write. apply bindt_snd; [intros; apply open_group_same|]. intros i s1. apply bindt_snd; [reflexivity|].
  intros u s2. apply bindt_snd; [intros s3; destruct (_ || _); [apply prune_same|reflexivity]|]. intros u2 s3.
  apply bindt_snd; [reflexivity|]. intros p s4. apply bindt_snd; [reflexivity|]. intros u3 s5. apply bindt_snd; [|reflexivity].
  apply iterT_snd. intros x s6. apply item_same.
Qed.
Lemma value_same g nm v s : snd (write_valueT o rnd tries wrT g nm v s) = write_value o rnd tries wr g nm v s.
Proof.
  unfold write_valueT, write_value. destruct v; try apply np_same; try apply dict_same; try reflexivity.
  apply bindt_snd; [reflexivity|]. intros b s1. apply np_same.
Qed.
End Marsh.
Lemma write_same n : forall g nm v s, snd (writeT o rnd tries n g nm v s) = write o rnd tries n g nm v s.
Proof. induction n as [|n IH]; intros g nm v s; cbn [writeT write]; [reflexivity|]. apply value_same. exact IH. Qed.
Lemma write_at_same n g t v s : snd (write_atT o rnd tries n g t v s) = write_at o rnd tries n g t v s.
Proof.
  unfold write_atT, write_at. apply bindt_snd; [reflexivity|]. intros i s1. apply bindt_snd; [intros; apply write_same|]. reflexivity.
Qed.
End Same.

(** ** the frame *)
Section Frame.
Variables (o : options) (rnd : nat -> N) (tries : nat).
Hypotheses (Hkn : o_keys_name o = [] \/ clean (o_keys_name o)) (Hvn : o_values_name o = [] \/ clean (o_values_name o)).
Notation rp := (rp o). Notation ra := (ra o). Notation wf := (wf o). Notation frame := (frame o rnd). Notation fut := (fut rnd).
Notation ptr_ok := (ptr_ok o). Notation okt := (okt o). Notation keeps := (keeps o rnd).

(** the canonical empty, if it is there, has its attributes *)
Definition whole (s : st) : Prop := forall c, walk (hp s) 0 ra = Some c -> is_canonical (hp s) c = true.
Definition fine (s : st) : Prop := tree (hp s) (nxt s) /\ (whole s -> wf s).
Lemma wf_fine s : wf s -> fine s. Proof. intros W. split; [apply (w_tree _ _ W)|auto]. Qed.
Definition keepsT {A} (R : list pystr -> Prop) (s : st) (p : (st -> Prop) * (st * res A)) (Q : st -> A -> Prop) : Prop :=
  (forall x, fst p x -> fine x /\ frame R s x) /\ keeps R s (snd p) Q.
Lemma keepsT_pure {A} R s (m : M A) Q : keeps R s (m s) Q -> keepsT R s (pure m s) Q.
Proof. intros K. split; [intros x []|exact K]. Qed.
Lemma keepsT_op {A} R s (m : M A) Q : keeps R s (m s) Q -> keepsT R s (op m s) Q.
Proof. intros K. split; [|exact K]. intros x <-. split; [apply wf_fine|]; apply K. Qed.
Lemma keepsT_ret {A} R s (a : A) (Q : st -> A -> Prop) : wf s -> Q s a -> keepsT R s (pure (ret a) s) Q.
Proof. intros. apply keepsT_pure, keeps_ret; assumption. Qed.
Lemma keepsT_err {A} R s e (Q : st -> A -> Prop) : wf s -> keepsT R s (pure (fail e) s) Q.
Proof. intros. apply keepsT_pure, keeps_err; assumption. Qed.
Lemma keepsT_bind {A B} R s (m : T A) (k : A -> T B) (P : st -> A -> Prop) (Q : st -> B -> Prop) :
  wf s -> keepsT R s (m s) P -> (forall a s1, wf s1 -> frame R s s1 -> P s1 a -> keepsT R s1 (k a s1) Q) -> keepsT R s (bindt m k s) Q.
Proof.
  intros W (M0 & H1 & H2 & H3) H. unfold bindt. destruct (snd (m s)) as [s1 [a|e]] eqn:E; cbn [fst snd] in *.
  - destruct (H a s1 H1 H2 (H3 a eq_refl)) as (N0 & K1 & K2 & K3). split; cbn [fst snd].
    + intros x [X|X]; [exact (M0 x X)|]. destruct (N0 x X) as [X1 X2]. split; [exact X1|]. eapply frame_trans; eassumption.
    + split; [exact K1|]. split; [|exact K3]. eapply frame_trans; eassumption.
  - split; [exact M0|]. split; [exact H1|]. split; [exact H2|]. intros b [=].
Qed.
Lemma keepsT_step0 {A B} R s (m : M A) (k : A -> T B) a Q : m s = (s, Ok a) -> keepsT R s (k a s) Q -> keepsT R s (bindt (pure m) k s) Q.
Proof.
  intros E (K1 & K2). unfold bindt, pure. cbn [fst snd]. rewrite E. split; cbn [fst snd]; [|exact K2]. intros x [[]|X]. exact (K1 x X).
Qed.
Lemma keepsT_fail0 {A B} R s (m : M A) (k : A -> T B) e Q : m s = (s, Err e) -> wf s -> keepsT R s (bindt (pure m) k s) Q.
Proof.
  intros E W. unfold bindt, pure. cbn [fst snd]. rewrite E. split; cbn [fst snd]; [intros x []|apply keeps_err; exact W].
Qed.
Lemma keepsT_imp {A} (R : list pystr -> Prop) s p (P Q : st -> A -> Prop) :
  keepsT R s p P -> (forall s' a, wf s' -> frame R s s' -> P s' a -> Q s' a) -> keepsT R s p Q.
Proof. intros [K1 K2] H. split; [exact K1|]. eapply keeps_imp; eassumption. Qed.
Lemma keepsT_sub {A} (R R' : list pystr -> Prop) s p (P : st -> A -> Prop) :
  keepsT R s p P -> (forall q, R q -> R' q) -> keepsT R' s p P.
Proof.
  intros [K1 K2] H. split; [|eapply keeps_sub; eassumption]. intros x X. destruct (K1 x X) as [X1 X2]. split; [exact X1|eapply frame_sub; eassumption].
Qed.
Lemma iterT_keeps {A} (R : list pystr -> Prop) (I : st -> Prop) (f : A -> T unit) l : forall s,
  (forall s1 x, In x l -> wf s1 -> I s1 -> keepsT R s1 (f x s1) (fun s2 _ => I s2)) ->
  wf s -> I s -> keepsT R s (iterT f l s) (fun s' _ => I s').
Proof.
  induction l as [|x l IH]; intros s H W Hs; cbn [iterT]; [apply keepsT_ret; assumption|].
  eapply keepsT_bind; [exact W|apply H; [left; reflexivity|assumption|assumption]|].
  intros u s1 W1 F1 I1. apply IH; auto. intros s2 y Hy. apply H. right. exact Hy.
Qed.
Lemma mapT_keeps {A B} (R : list pystr -> Prop) (I : st -> Prop) (Q : st -> B -> Prop) (f : A -> T B) l : forall s,
  (forall s1 x, In x l -> wf s1 -> I s1 -> keepsT R s1 (f x s1) (fun s2 b => I s2 /\ Q s2 b)) ->
  (forall s1 s2 b, wf s1 -> frame R s1 s2 -> Q s1 b -> Q s2 b) ->
  wf s -> I s -> keepsT R s (mapT f l s) (fun s' bs => I s' /\ Forall (Q s') bs).
Proof.
  induction l as [|x l IH]; intros s H HQ W Hs; cbn [mapT]; [apply keepsT_ret; auto|].
  eapply keepsT_bind; [exact W|apply H; [left; reflexivity|assumption|assumption]|].
  intros b s1 W1 F1 [I1 Q1]. eapply keepsT_bind; [exact W1|apply IH; auto; intros s2 y Hy; apply H; right; exact Hy|].
  intros bs s2 W2 F2 [I2 Q2]. apply keepsT_ret; [exact W2|]. split; [exact I2|]. constructor; [|exact Q2]. exact (HQ s1 s2 b W1 F2 Q1).
Qed.

Lemma attrs_any (R : list pystr -> Prop) s i ob a : wf s -> hp s i = Some ob -> R (name_of (hp s) i) -> name_of (hp s) i <> ra ->
  wf (set_hp s (upd (hp s) i (with_attrs ob a))) /\ frame R s (set_hp s (upd (hp s) i (with_attrs ob a))).
Proof.
  intros W E H1 H2.
  assert (SK : same_kind (o_body ob) (o_body (with_attrs ob a))) by (cbn; destruct (o_body ob); cbn; auto). split.
  - eapply wf_change; eauto. intros d f j E2 Hj. eapply (w_ptrs _ _ W); eassumption.
  - eapply frame_change; eauto.
Qed.
Lemma sync_keepsT (R : list pystr -> Prop) s i reqs d Q : wf s -> R (name_of (hp s) i) -> name_of (hp s) i <> ra ->
  keeps R s (sync_attrs i reqs d s) Q -> keepsT R s (sync_attrsT i reqs d s) Q.
Proof.
  intros W H1 H2 K. split; [|exact K]. intros x (a & ob & E & _ & ->). destruct (attrs_any R s i ob a W E H1 H2). auto using wf_fine.
Qed.
Lemma mark_keepsT (R : list pystr -> Prop) s i p : wf s -> R (name_of (hp s) i) -> name_of (hp s) i <> ra ->
  keepsT R s (mark_pathT o i p s) (fun s' _ => True).
Proof. intros. apply keepsT_op, mark_keeps; assumption. Qed.

Lemma create_refs_keepsT R s : wf s -> rgrp s = None -> name_err (o_refs o) = None ->
  keeps R s (create_group 0 (o_refs o) s) (fun s' i => walk (hp s') 0 rp = Some i /\ Hdf5.links (hp s') i = [] /\ rgrp s' = None).
Proof.
  intros W Hr NE. unfold create_group, new_link. rewrite NE. unfold start_of. replace (if isabs (o_refs o) then 0 else 0) with 0 by (destruct (isabs (o_refs o)); reflexivity).
  eapply keeps_imp.
  - apply (create_refs_keeps o rnd R (path_comps (o_refs o)) s 0 W); [eapply root_live; exact W| |apply comps_refs_clean|exact Hr].
    rewrite (root_name _ _ (w_tree _ _ W)). reflexivity.
  - cbv beta. intros s' i _ _ (Q1 & Q2 & Q3 & _). auto.
Qed.
Lemma ensure_refs_keepsT R s : wf s -> keepsT R s (ensure_refsT o s) (fun s' g => rgrp s' = Some g).
Proof.
  intros W. unfold ensure_refsT. destruct (rgrp s) as [g|] eqn:Er; [apply keepsT_ret; auto|].
  assert (ST : forall s1 g b, wf s1 -> rgrp s1 = None -> walk (hp s1) 0 rp = Some g -> (b = true -> Hdf5.links (hp s1) g = []) ->
     keepsT R s1 ((step* _ := op (set_session (with_rgrp g b)) in pure (ret g)) s1) (fun s' x => rgrp s' = Some x)).
  { intros s1 g b W1 R1 Hw Hl. apply keepsT_bind with (P := fun s' (_ : unit) => rgrp s' = Some g); [exact W1| |intros u s2 W2 _ H; apply keepsT_ret; assumption].
    apply keepsT_op. unfold set_session. split; cbn [fst snd]; [apply with_rgrp_wf; assumption|]. split; [|reflexivity].
    apply frame_session; auto; cbn; try lia. intros x X. congruence. }
  assert (NW : forall s1 g, wf s1 -> rgrp s1 = None -> walk (hp s1) 0 rp = Some g -> Hdf5.links (hp s1) g = [] ->
     keepsT R s1 (new_refsT g s1) (fun s' x => rgrp s' = Some x)).
  { intros s1 g W1 R1 Hw Hl. destruct (ST s1 g true W1 R1 Hw (fun _ => Hl)) as [_ K]. split; [|exact K].
    assert (W2 : wf (with_rgrp g false s1)) by (apply with_rgrp_wf; auto; discriminate).
    assert (W3 : wf (with_rgrp g true s1)) by (apply with_rgrp_wf; auto).
    assert (F2 : forall b, frame R s1 (with_rgrp g b s1)) by (intros b; apply frame_session; auto; cbn; try lia; intros x X; congruence).
    unfold new_refsT, bindt. cbn [op set_session fst snd pure nostate ret]. intros x X.
    cut (x = with_rgrp g false s1 \/ x = with_rgrp g true s1); [intros [-> | ->]; auto using wf_fine|].
    destruct X as [<- | [<- | []]]; auto. }
  assert (CR : name_err (o_refs o) = None -> keepsT R s ((step* g := op (create_group 0 (o_refs o)) in new_refsT g) s)
     (fun s' g => rgrp s' = Some g)).
  { intros NE. eapply keepsT_bind; [exact W|apply keepsT_op, create_refs_keepsT; assumption|].
    intros g s1 W1 F1 (Q1 & Q2 & Q3). apply NW; auto. }
  assert (GO : get_obj 0 (o_refs o) s = (s, match name_err (o_refs o) with Some e => Err e | None => Ok (walk (hp s) 0 rp) end)).
  { unfold get_obj. destruct (name_err (o_refs o)); [reflexivity|]. unfold gets, start_of. replace (if isabs (o_refs o) then 0 else 0) with 0 by (destruct (isabs (o_refs o)); reflexivity). reflexivity. }
  destruct (name_err (o_refs o)) as [e|] eqn:NE; [eapply keepsT_fail0; [exact GO|exact W]|].
  eapply keepsT_step0; [exact GO|]. destruct (walk (hp s) 0 rp) as [g|] eqn:Hw; [|apply CR; reflexivity].
  destruct (w_refs _ _ W g Hw) as [G1 G2]. eapply keepsT_step0; [reflexivity|]. rewrite G1. apply ST; auto. discriminate.
Qed.
Lemma ensure_canon_keepsT R s g : wf s -> rgrp s = Some g ->
  keepsT R s (ensure_canonT g s) (fun s' c => rgrp s' = Some g /\ ptr_ok (hp s') c).
Proof.
  intros W Hr. split; [|rewrite ensure_canon_same; apply ensure_canon_keeps; assumption].
  unfold ensure_canonT. destruct (canon s) as [c|] eqn:Hc; [intros x []|].
  pose proof (w_sess _ _ W g Hr) as Hw. destruct (w_refs _ _ W g Hw) as [G1 G2].
  destruct (lookup (hp s) g (lit "a")) as [c|] eqn:L.
  { rewrite (G2 c eq_refl). unfold bindt. cbn [op set_session fst snd pure nostate]. intros x [<-|[]]. destruct (with_canon_keeps o rnd R s g c W Hr L) as [W2 F2]. auto using wf_fine. }
  unfold new_canonT. cbn [fst snd]. intros x (a & _ & X).
  assert (Ca : clean (lit "a")) by (apply digits_clean; [discriminate|repeat constructor; cbn; lia]).
  destruct (comps_clean (lit "a") Ca) as [E1 E2]. unfold new_link in X.
  replace (name_err (lit "a")) with (@None exn) in X by reflexivity. unfold start_of in X. rewrite E1, E2 in X. cbn [create_at] in X. rewrite L in X.
  rewrite alloc_eq in X by exact G1. cbn [fst snd] in X.
  pose proof (walk_root_name _ _ _ _ (w_tree _ _ W) Hw) as Hn.
  assert (LV : live (hp s) g = true) by (apply live_walk; rewrite Hn; exact Hw).
  set (s1 := mkSt (add_obj (hp s) g (lit "a") (nxt s) a canon_body) (S (nxt s)) (rgrp s) (rcreated s) (canon s) (counter s) (rpos s)) in *.
  assert (F1 : frame R s s1) by (apply frame_new; auto; [exact I|]; right; rewrite Hn; apply pre_refl).
  assert (T1 : tree (hp s1) (nxt s1)) by (cbn [s1 hp nxt]; apply add_tree; auto; [apply (w_tree _ _ W)|exact I]).
  assert (W1 : whole s1 -> wf s1).
  { intros WH. unfold s1. apply wf_new; auto; try exact I.
    + intros Y. exfalso. rewrite Hn in Y. apply (snoc_neq _ _ Y).
    + intros Y. apply WH. unfold s1. cbn [hp]. rewrite <- Y. apply (new_walk_n o); auto. exact I.
    + intros _ Y. unfold futc in Y. rewrite Hr in Y. destruct Y as (_ & c & X1 & X2). symmetry in X2. revert X2. apply (canon_a_hex rnd tries).
      pose proof (w_cnt _ _ W). lia.
    + intros d f j [= <- <-] [Y|[Y|Y]]; [discriminate|discriminate|destruct Y]. }
  destruct X as [[_ ->]|(c & [= <-] & ->)]; [split; [split|]; assumption|].
  assert (L1 : lookup (hp s1) g (lit "a") = Some (nxt s)) by (unfold s1; cbn [hp]; rewrite (add_lookup _ _ _ _ a canon_body (w_tree _ _ W) G1 I), Nat.eqb_refl, eqb_str_refl; reflexivity).
  split; [split; [exact T1|]|].
  - intros WH. apply (with_canon_keeps o rnd R s1 g (nxt s)); [apply W1; exact WH|exact Hr|exact L1].
  - destruct F1. constructor; auto. cbn. congruence.
Qed.

Definition wspecT (wr : nat -> pystr -> pyval -> T (option nat)) : Prop := forall s g nm v, wf s -> okt s g nm ->
  keepsT (pre (name_of (hp s) g ++ [nm])) s (wr g nm v s)
    (fun s' r => match r with Some i => at_target s' (name_of (hp s) g ++ [nm]) i | None => True end).

Section Marsh.
Variable wr : nat -> pystr -> pyval -> T (option nat).
Hypothesis Hwr : wspecT wr.

Lemma element_keepsT (R : list pystr -> Prop) s g c v : wf s -> rgrp s = Some g -> ptr_ok (hp s) c ->
  keepsT R s (write_elementT o rnd tries wr g c v s) (fun s' j => rgrp s' = Some g /\ ptr_ok (hp s') j).
Proof.
  intros W Hr Pc. pose proof (w_sess _ _ W g Hr) as Hw. pose proof (walk_root_name _ _ _ _ (w_tree _ _ W) Hw) as Hn.
  assert (LV : live (hp s) g = true) by (apply live_walk; rewrite Hn; exact Hw). destruct (w_refs _ _ W g Hw) as [Gg _].
  unfold write_elementT.
  destruct (next_keeps o rnd tries (fun _ => False) s g W Hr) as (K1 & K2 & K3). unfold bindt at 1. unfold op at 1 2 3. cbn [fst snd].
  destruct (next_name rnd tries g s) as [s1 [k|e]] eqn:En; cbn [fst snd] in *;
    [|split; [intros x <-; split; [apply wf_fine; exact K1|eapply frame_sub; [exact K2|tauto]]|]; split; [exact K1|]; split; [eapply frame_sub; [exact K2|tauto]|discriminate]].
  destruct (K3 k eq_refl) as (Q1 & Q2 & Q3 & Q4 & Q5 & Q6 & Q7 & _).
  match goal with |- keepsT _ _ (_, snd ?p) _ => set (pp := p) end.
  assert (KT : keepsT (pre (rp ++ [k])) s1 pp (fun s' j => rgrp s' = Some g /\ ptr_ok (hp s') j)).
  { unfold pp. assert (OK : okt s1 g k).
    { constructor; rewrite ?Q1; auto.
      - intros P. rewrite Hn in P. pose proof (pre_len _ _ P) as Le. unfold FrameFacts.ra in *. rewrite !app_length in Le. cbn in Le.
        apply pre_antisym_len in P; [|rewrite !app_length; cbn; lia]. apply app_inj_tail in P. tauto.
      - intros x P. rewrite Hn in P. apply pre_antisym_len in P; [|rewrite !app_length; cbn; lia]. apply app_inj_tail in P.
        destruct P as [_ ->]. exact Q7. }
    pose proof (Hwr s1 g k v K1 OK) as KW. rewrite Q1, Hn in KW. eapply keepsT_bind; [exact K1|exact KW|].
    intros r s2 W2 F2 P2. assert (R2 : rgrp s2 = Some g) by (apply (f_rgrp _ _ _ _ _ F2); exact Q2). destruct r as [i|].
    - eapply keepsT_step0; [reflexivity|]. destruct P2 as (A1 & A2 & A3).
      eapply keepsT_bind; [exact W2|apply mark_keepsT; [exact W2|rewrite A3; apply pre_refl|rewrite A3; intros X; apply app_inj_tail in X; tauto]|].
      intros u s3 W3 F3 _. apply keepsT_ret; [exact W3|]. split; [apply (f_rgrp _ _ _ _ _ F3); exact R2|].
      apply (ptr_ok_frame _ _ _ _ _ _ F3). split; [exact A1|]. eauto.
    - apply keepsT_ret; [exact W2|]. split; [exact R2|]. apply (ptr_ok_frame _ _ _ _ _ _ F2). rewrite Q1. exact Pc. }
  assert (ND : forall i, live (hp s) i = true -> ~ pre (rp ++ [k]) (name_of (hp s) i)).
  { intros i L [x X]. apply live_walk in L. rewrite X, <- app_assoc, walk_app, Hw in L. cbn in L. rewrite Q3 in L. discriminate. }
  assert (WK : forall x, frame (pre (rp ++ [k])) s1 x -> frame R s x).
  { intros x F. assert (FF : frame (pre (rp ++ [k])) s x) by (eapply frame_trans; [eapply frame_sub; [exact K2|tauto]|exact F|exact W]).
    eapply frame_weaken; [exact FF| | |].
    - intros i L P. destruct (ND i L P).
    - intros i k2 L P. right. right. destruct (pre_snoc_inv _ _ _ P) as [X|X]; [destruct (ND i L X)|].
      apply app_inj_tail in X. destruct X as [X _]. rewrite <- X. apply pre_refl.
    - intros p P. right. right. exists k. auto. }
  destruct KT as (T0 & T1 & T2 & T3). split; cbn [fst snd].
  - intros x [<-|X]; [split; [apply wf_fine; exact K1|eapply frame_sub; [exact K2|tauto]]|]. destruct (T0 x X) as [X1 X2]. auto.
  - split; [exact T1|]. split; [auto|exact T3].
Qed.
Lemma object_array_keepsT R s a : wf s ->
  keepsT R s (write_object_arrayT o rnd tries wr a s) (fun s' d => forall j, In (XPtr j) (a_data d) -> ptr_ok (hp s') j).
Proof.
  intros W. unfold write_object_arrayT. eapply keepsT_bind; [exact W|apply ensure_refs_keepsT; exact W|].
  intros g s1 W1 F1 R1. eapply keepsT_bind; [exact W1|apply ensure_canon_keepsT; assumption|].
  intros c s2 W2 F2 [R2 P2]. eapply keepsT_bind; [exact W2| |].
  - apply (mapT_keeps R (fun s => rgrp s = Some g /\ ptr_ok (hp s) c) (fun s j => ptr_ok (hp s) j)); auto.
    + intros s3 x _ W3 [R3 P3]. eapply keepsT_imp; [apply (element_keepsT R s3 g c x W3 R3 P3)|]. intros s4 j W4 F4 [H1 H2].
      split; [split; [exact H1|]|exact H2]. eapply ptr_ok_frame; eassumption.
    + intros x y b _ F. apply (ptr_ok_frame _ _ _ _ _ _ F).
  - intros refs s3 W3 F3 [_ Q3]. apply keepsT_ret; [exact W3|]. cbn [a_data]. intros j Hj. apply in_map_iff in Hj.
    destruct Hj as (x & [= ->] & Hx). rewrite Forall_forall in Q3. auto.
Qed.
Lemma open_group_keepsT s g nm : wf s -> okt s g nm ->
  keepsT (pre (name_of (hp s) g ++ [nm])) s (open_groupT g nm s)
    (fun s' i => at_target s' (name_of (hp s) g ++ [nm]) i /\ is_group (hp s') i = true).
Proof.
  intros W K. unfold open_groupT. destruct (get_name g nm s (WriteFrame.k_name _ _ _ _ K)) as [[e E]|(C & NE & E)]; [eapply keepsT_fail0; [exact E|exact W]|].
  eapply keepsT_step0; [exact E|].
  destruct (lookup (hp s) g nm) as [i|] eqn:L; [|apply keepsT_op, create_group_keeps; assumption].
  eapply keepsT_step0; [reflexivity|]. destruct (is_group (hp s) i) eqn:G.
  - apply keepsT_ret; [exact W|]. split; [eapply found_target; eassumption|exact G].
  - eapply keepsT_bind; [exact W|apply keepsT_op, unlink_keeps; assumption|]. intros u s1 W1 F1 _.
    destruct (okt_frame o rnd _ _ _ _ _ W F1 (okt_own s g nm) K) as [K1 N1]. rewrite <- N1. apply keepsT_op, create_group_keeps; assumption.
Qed.
Lemma prune_keepsT s t i keep : wf s -> at_target s t i -> is_group (hp s) i = true -> ~ pre t ra ->
  keepsT (pre t) s (pruneT i keep s) (fun s' _ => at_target s' t i /\ is_group (hp s') i = true).
Proof.
  intros W A G NP. unfold pruneT.
  apply (iterT_keeps (pre t) (fun s => at_target s t i /\ is_group (hp s) i = true)); auto.
  intros s1 k _ W1 [A1 G1]. apply keepsT_op. destruct (lookup (hp s1) i k) as [j|] eqn:L.
  - assert (X : lookup (hp s1) i k <> None) by congruence. rewrite (unlink_at1 i k s1 G1 X). destruct A1 as (H1 & H2 & H3).
    assert (F : frame (pre (t ++ [k])) s1 (set_hp s1 (rm_link (hp s1) i k))) by (apply frame_unlink; auto; rewrite H3; auto).
    split; cbn [fst snd]; [|split].
    + apply wf_unlink; auto. rewrite H3. intros P. apply NP. eapply pre_snoc. exact P.
    + eapply frame_sub; [exact F|]. intros p P. eapply pre_snoc. exact P.
    + intros u _. split; [|rewrite (proj2 (proj2 (f_obj _ _ _ _ _ F i H1))); exact G1].
      eapply at_target_frame; [exact F|apply pre_snoc_self|]. split; auto.
  - cbn [unlink_at]. rewrite L. apply keeps_err. exact W1.
Qed.
Lemma member_keepsT {A} s t i k v (f : option nat -> T A) (Q : st -> A -> Prop) :
  wf s -> at_target s t i -> is_group (hp s) i = true -> ~ pre t ra -> (forall k, pre (rp ++ [k]) t -> ~ futc s k) -> (k = [] \/ clean k) ->
  (forall s1 r, wf s1 -> frame (pre (t ++ [k])) s s1 -> match r with Some j => at_target s1 (t ++ [k]) j | None => True end ->
     keepsT (pre (t ++ [k])) s1 (f r s1) Q) ->
  keepsT (pre t) s ((step* r := wr i k v in f r) s) (fun s' a => Q s' a /\ (at_target s' t i /\ is_group (hp s') i = true) /\ frame (pre (t ++ [k])) s s').
Proof.
  intros W A0 G NP NF Hk Hf. pose proof (okt_member o s t i k W A0 G Hk NP NF) as K. pose proof (Hwr s i k v W K) as KW.
  destruct A0 as (A1 & A2 & A3). rewrite A3 in KW.
  assert (KK : keepsT (pre (t ++ [k])) s ((step* r := wr i k v in f r) s) Q).
  { eapply keepsT_bind; [exact W|exact KW|]. intros r s1 W1 F1 P1. apply Hf; assumption. }
  eapply keepsT_sub with (R := pre (t ++ [k])); [|intros p P; eapply pre_snoc; exact P].
  eapply keepsT_imp; [exact KK|]. intros s' a W' K2 Ha. split; [exact Ha|]. split; [|exact K2]. split.
  - eapply at_target_frame; [exact K2|apply pre_snoc_self|]. split; auto.
  - rewrite (proj2 (proj2 (f_obj _ _ _ _ _ K2 i A1))). exact G.
Qed.
Lemma field_keepsT s t i b nf : wf s -> at_target s t i -> is_group (hp s) i = true -> ~ pre t ra -> (forall k, pre (rp ++ [k]) t -> ~ futc s k) ->
  keepsT (pre t) s (write_fieldT o wr i b nf s) (fun s' _ => (at_target s' t i /\ is_group (hp s') i = true) /\ (forall k, pre (rp ++ [k]) t -> ~ futc s' k)).
Proof.
  intros W A G NP NF. destruct nf as [n [name f]]. unfold write_fieldT.
  eapply keepsT_imp; [apply member_keepsT with (Q := fun _ _ => True); auto using escaped_name|].
  - intros s1 r W1 F1 P1. destruct r as [j|]; [|apply keepsT_ret; auto]. destruct P1 as (P1 & P2 & P3).
    assert (NX : name_of (hp s1) j <> ra) by (rewrite P3; intros X; apply NP; rewrite <- X; apply pre_app).
    eapply keepsT_step0; [reflexivity|]. apply sync_keepsT; [exact W1|rewrite P3; apply pre_refl|exact NX|].
    apply sync_keeps; [exact W1|rewrite P3; apply pre_refl|exact NX].
  - intros s' a W' F' (_ & AA & F2). split; [exact AA|]. intros k P Fk. apply (NF k P). eapply futc_mono; eassumption.
Qed.
Lemma struct_keepsT s g nm b : wf s -> okt s g nm ->
  keepsT (pre (name_of (hp s) g ++ [nm])) s (write_structT o wr g nm b s) (fun s' i => at_target s' (name_of (hp s) g ++ [nm]) i).
Proof.
  intros W K. set (t := name_of (hp s) g ++ [nm]). unfold write_structT. eapply keepsT_bind; [exact W|apply open_group_keepsT; assumption|].
  fold t. intros i s1 W1 F1 [A1 G1]. pose proof (k_refs _ _ _ _ K) as NP. fold t in NP.
  assert (NF : forall s2, frame (pre t) s s2 -> forall k, pre (rp ++ [k]) t -> ~ futc s2 k).
  { intros s2 F2 k P Fk. apply (k_res _ _ _ _ K k P). eapply futc_mono; eassumption. }
  eapply keepsT_bind with (P := fun s' _ => at_target s' t i /\ is_group (hp s') i = true); [exact W1| |].
  - destruct (o_delete_unused o); [apply prune_keepsT; assumption|apply keepsT_ret; auto].
  - intros u s2 W2 F2 [A2 G2]. eapply keepsT_bind; [exact W2| |].
    + apply (iterT_keeps (pre t) (fun s => (at_target s t i /\ is_group (hp s) i = true) /\ (forall k, pre (rp ++ [k]) t -> ~ futc s k))); auto.
      * intros s3 x _ W3 [[A3 G3] N3]. apply field_keepsT; assumption.
      * split; [auto|]. apply NF. eapply frame_trans; eassumption.
    + intros u3 s3 W3 F3 [[A3 G3] N3]. apply keepsT_ret; assumption.
Qed.
Lemma put_dataset_keepsT s g nm a : wf s -> okt s g nm -> (forall j, In (XPtr j) (a_data a) -> ptr_ok (hp s) j) ->
  keepsT (pre (name_of (hp s) g ++ [nm])) s (put_datasetT o g nm a s) (fun s' i => at_target s' (name_of (hp s) g ++ [nm]) i).
Proof.
  intros W K Hp. assert (KK := put_dataset_keeps o rnd s g nm a W K Hp). rewrite <- put_dataset_same in KK. split; [|exact KK]. clear KK.
  assert (KS : keepsT (pre (name_of (hp s) g ++ [nm])) s (put_datasetT o g nm a s) (fun s' i => True)); [|exact (proj1 KS)].
  unfold put_datasetT. cbv zeta.
  assert (CR : forall s1 f, wf s1 -> okt s1 g nm -> (forall j, In (XPtr j) (a_data a) -> ptr_ok (hp s1) j) ->
     keepsT (pre (name_of (hp s1) g ++ [nm])) s1 (op (create_dataset g nm a f) s1) (fun s' i => at_target s' (name_of (hp s1) g ++ [nm]) i)).
  { intros. apply keepsT_op, create_dataset_keeps; assumption. }
  destruct (get_name g nm s (WriteFrame.k_name _ _ _ _ K)) as [[e E]|(C & NE & E)].
  { eapply keepsT_step0; [unfold catch; rewrite E; reflexivity|]. eapply keepsT_imp; [apply CR; assumption|auto]. }
  eapply keepsT_step0; [unfold catch; rewrite E; reflexivity|].
  destruct (lookup (hp s) g nm) as [i|] eqn:L; [|eapply keepsT_imp; [apply CR; assumption|auto]].
  eapply keepsT_step0; [reflexivity|].
  assert (RP : forall f, keepsT (pre (name_of (hp s) g ++ [nm])) s (replace_datasetT g nm a f s) (fun s' i => True)).
  { intros f. unfold replace_datasetT. eapply keepsT_bind; [exact W|apply keepsT_op, unlink_keeps; assumption|]. intros u s1 W1 F1 _.
    destruct (okt_frame o rnd _ _ _ _ _ W F1 (okt_own s g nm) K) as [K1 N1]. rewrite <- N1. eapply keepsT_imp; [apply CR; auto|auto].
    intros j Hj. eapply ptr_ok_frame; [exact F1|auto]. }
  destruct (same_dataset _ _ _); [|apply RP]. destruct (same_opts _ _) as [[]|]; [|apply RP|apply keepsT_err; exact W].
  pose proof (found_target o s g nm i W K L) as (A1 & A2 & A3).
  assert (TW : forall ob old f d, hp s i = Some ob -> o_body ob = BData old f -> (forall e, In e d -> In e (a_data old) \/ In e (a_data a)) ->
    let s' := set_hp s (upd (hp s) i (with_body ob (BData (mkArr (a_dt old) (a_shape old) d) f))) in
    wf s' /\ frame (pre (name_of (hp s) g ++ [nm])) s s').
  { intros ob old f d E1 B Hd. set (ob' := with_body ob (BData (mkArr (a_dt old) (a_shape old) d) f)).
    assert (SK : same_kind (o_body ob) (o_body ob')) by (rewrite B; exact I). split.
    - eapply wf_change; eauto.
      + rewrite A3. intros X. apply (k_refs _ _ _ _ K). rewrite X. apply pre_refl.
      + intros d' fl j E2 Hj. cbn in E2. injection E2 as <- <-. cbn [a_data] in Hj. destruct (Hd _ Hj) as [X|X]; [|auto].
        eapply (w_ptrs _ _ W); eassumption.
    - eapply frame_change; eauto. rewrite A3. apply pre_refl. }
  split.
  - intros x (ob & old & f & d & E1 & B & _ & Hd & ->). destruct (TW ob old f d E1 B) as [T1 T2]; [|auto using wf_fine]. intros e He. apply In_nth_error in He. destruct He as [k He].
    destruct (Hd k e He) as [X|X]; apply nth_error_In in X; auto.
  - unfold overwriteT. cbn [snd]. unfold overwrite. destruct (hp s i) as [ob|] eqn:E1; [|congruence].
    destruct (o_body ob) as [old f|] eqn:B; [|apply keeps_err; exact W].
    destruct (TW ob old f (a_data a) eq_refl B) as [T1 T2]; [auto|]. split; [exact T1|]. split; [exact T2|auto].
Qed.
Lemma sync_targetT s t i reqs d : wf s -> at_target s t i -> t <> ra ->
  keepsT (pre t) s (sync_attrsT i reqs d s) (fun s' _ => at_target s' t i /\ is_group (hp s') i = is_group (hp s) i).
Proof.
  intros W (B1 & B2 & B3) NA. apply sync_keepsT; [exact W|rewrite B3; apply pre_refl|congruence|].
  unfold sync_attrs. destruct (set_attributes_all _ _ _) as [at_ e]. unfold set_attrs.
  destruct (hp s i) as [ob|] eqn:E; [|congruence].
  assert (SK : same_kind (o_body ob) (o_body (with_attrs ob at_))) by (cbn; destruct (o_body ob); cbn; auto).
  destruct (attrs_any (pre t) s i ob at_ W E) as [K1 K2]; [rewrite B3; apply pre_refl|congruence|].
  assert (KK : at_target (set_hp s (upd (hp s) i (with_attrs ob at_))) t i /\ is_group (upd (hp s) i (with_attrs ob at_)) i = is_group (hp s) i).
  { split.
    - split; [cbn; rewrite upd_same; discriminate|]. split; [cbn; rewrite (change_live s i ob (with_attrs ob at_) E eq_refl SK); exact B2|].
      rewrite <- B3. apply (mod_name _ _ ob (with_attrs ob at_) E eq_refl).
    - apply (mod_group _ _ _ _ E SK). }
  destruct e; (split; [exact K1|split; [exact K2|]]); [discriminate|]. intros u _. exact KK.
Qed.
Lemma np_keepsT s g nm v ts : wf s -> okt s g nm ->
  keepsT (pre (name_of (hp s) g ++ [nm])) s (np_writeT o rnd tries wr g nm v ts s)
    (fun s' r => match r with Some i => at_target s' (name_of (hp s) g ++ [nm]) i | None => True end).
Proof.
  intros W K. set (t := name_of (hp s) g ++ [nm]). destruct v as [c a]. unfold np_writeT.
  destruct (np_incompatible o a && eqb_str (o_action o) (lit "error")); [apply keepsT_err; exact W|].
  destruct (np_incompatible o a && eqb_str (o_action o) (lit "discard")); [apply keepsT_ret; auto|].
  assert (NA : t <> ra) by (intros X; apply (k_refs _ _ _ _ K); unfold t in X; rewrite X; apply pre_refl).
  destruct (np_prepare o (c, a)) as [b|e]; [|eapply keepsT_fail0; [reflexivity|exact W]].
  eapply keepsT_step0; [reflexivity|].
  assert (SY : forall s1 i r, wf s1 -> at_target s1 t i -> keepsT (pre t) s1 ((step* _ := sync_attrsT i r true in pure (ret (Some i))) s1)
     (fun s' r => match r with Some i => at_target s' t i | None => True end)).
  { intros s1 i r W1 A1. eapply keepsT_bind; [exact W1|apply sync_targetT; assumption|]. intros u s2 W2 F2 [A4 _]. apply keepsT_ret; assumption. }
  destruct (as_group o a (a_dt b)).
  - eapply keepsT_bind; [exact W|apply struct_keepsT; assumption|]. fold t. intros i s1 W1 F1 A1. apply SY; assumption.
  - eapply keepsT_bind with (P := fun s' d => forall j, In (XPtr j) (a_data d) -> ptr_ok (hp s') j); [exact W| |].
    + assert (PL : keepsT (pre t) s (pure (ret (plain_data b)) s) (fun s' d => forall j, In (XPtr j) (a_data d) -> ptr_ok (hp s') j)).
      { apply keepsT_ret; [exact W|]. cbn. intros j Hj. apply in_map_iff in Hj. destruct Hj as (x & X & _). destruct (noptr_ptr _ _ X). }
      destruct (a_dt b); try exact PL. apply object_array_keepsT. exact W.
    + intros d s1 W1 F1 P1. destruct (okt_frame o rnd _ _ _ _ _ W F1 (okt_own s g nm) K) as [K1 N1].
      eapply keepsT_bind; [exact W1|unfold t; rewrite <- N1; apply put_dataset_keepsT; assumption|].
      rewrite N1. fold t. intros i s2 W2 F2 A2. eapply keepsT_step0; [reflexivity|]. apply SY; assumption.
Qed.
Lemma item_keepsT s t i p kv : wf s -> at_target s t i -> is_group (hp s) i = true -> ~ pre t ra -> (forall k, pre (rp ++ [k]) t -> ~ futc s k) ->
  (fst kv = [] \/ clean (fst kv)) ->
  keepsT (pre t) s (write_itemT o wr i p kv s) (fun s' _ => (at_target s' t i /\ is_group (hp s') i = true) /\ (forall k, pre (rp ++ [k]) t -> ~ futc s' k)).
Proof.
  intros W A G NP NF Hk. destruct kv as [k v]. unfold write_itemT. cbn [fst snd] in *.
  eapply keepsT_imp; [apply member_keepsT with (Q := fun _ _ => True); auto|].
  - intros s1 r W1 F1 P1. destruct r as [j|]; [|apply keepsT_ret; auto]. destruct P1 as (P1 & P2 & P3).
    apply mark_keepsT; [exact W1|rewrite P3; apply pre_refl|].
    rewrite P3. intros X. apply NP. rewrite <- X. apply pre_app.
  - intros s' a W' F' (_ & AA & F2). split; [exact AA|]. intros x P Fk. apply (NF x P). eapply futc_mono; eassumption.
Qed.
Lemma dict_keepsT s g nm items ts plain : wf s -> okt s g nm ->
  keepsT (pre (name_of (hp s) g ++ [nm])) s (dict_writeT o wr g nm items ts plain s)
    (fun s' r => exists i, r = Some i /\ at_target s' (name_of (hp s) g ++ [nm]) i /\ is_group (hp s') i = true).
Proof.
  intros W K. set (t := name_of (hp s) g ++ [nm]). unfold dict_writeT. pose proof (k_refs _ _ _ _ K) as NP. fold t in NP.
  assert (NF : forall s2, frame (pre t) s s2 -> forall k, pre (rp ++ [k]) t -> ~ futc s2 k).
  { intros s2 F2 k P Fk. apply (k_res _ _ _ _ K k P). eapply futc_mono; eassumption. }
  assert (NA : t <> ra) by (intros X; apply NP; rewrite X; apply pre_refl).
  eapply keepsT_bind; [exact W|apply open_group_keepsT; assumption|]. fold t. intros i s1 W1 F1 [A1 G1].
  cbv zeta. match goal with |- context [pruneT i (map fst ?x)] => set (kvs := x) end.
  assert (HK : forall kv, In kv kvs -> fst kv = [] \/ clean (fst kv)).
  { intros [k v] Hin. unfold kvs in Hin. destruct (key_codes (map fst items)) as [cs|].
    - apply in_combine_l in Hin. apply in_map_iff in Hin. destruct Hin as (x & <- & _). apply escaped_name.
    - destruct Hin as [[= <- <-]|[[= <- <-]|[]]]; assumption. }
  eapply keepsT_bind; [exact W1|apply sync_targetT; assumption|]. intros u s2 W2 F2 [A2 G2']. assert (G2 : is_group (hp s2) i = true) by congruence.
  eapply keepsT_bind with (P := fun s' _ => at_target s' t i /\ is_group (hp s') i = true); [exact W2| |].
  { match goal with |- keepsT _ _ ((if ?c then _ else _) _) _ => destruct c end; [apply prune_keepsT; assumption|apply keepsT_ret; auto]. }
  intros u2 s3 W3 F3 [A3 G3]. eapply keepsT_step0; [reflexivity|].
  eapply keepsT_bind with (P := fun s' _ => at_target s' t i /\ is_group (hp s') i = true); [exact W3| |].
  { apply keepsT_pure. destruct (o_matlab_compatible o); [|apply keeps_ret; auto]. unfold bindm, lift. destruct (ascii_bytes _); [apply keeps_ret|apply keeps_err]; auto. }
  intros u3 s4 W4 F4 [A4 G4]. eapply keepsT_bind; [exact W4| |].
  - apply (iterT_keeps (pre t) (fun s => (at_target s t i /\ is_group (hp s) i = true) /\ (forall k, pre (rp ++ [k]) t -> ~ futc s k))); auto.
    + intros s5 x Hx W5 [[A5 G5] N5]. apply item_keepsT; auto.
    + split; [auto|]. apply NF. eapply frame_trans; [|exact F4|exact W]. eapply frame_trans; [|exact F3|exact W]. eapply frame_trans; eassumption.
  - intros u4 s5 W5 F5 [[A5 G5] N5]. apply keepsT_ret; [exact W5|]. exists i. auto.
Qed.
Lemma value_keepsT : wspecT (write_valueT o rnd tries wr).
Proof.
  intros s g nm v W K. unfold write_valueT. destruct v; try (apply np_keepsT; assumption);
    try (eapply keepsT_imp; [apply dict_keepsT; assumption|]; intros s' r _ _ (i & -> & A & _); exact A).
  - destruct (utf8_encode text) as [b|e]; [eapply keepsT_step0; [reflexivity|apply np_keepsT; assumption]|eapply keepsT_fail0; [reflexivity|exact W]].
  - apply keepsT_err. exact W.
Qed.
End Marsh.
Theorem write_keepsT n : wspecT (writeT o rnd tries n).
Proof.
  induction n as [|n IH]; [intros s g nm v W K; apply keepsT_err; exact W|]. cbn [writeT]. apply value_keepsT. exact IH.
Qed.
End Frame.
