(** What a write can change: the elementary changes of a file. *)
From Verif Require Import Base PathEsc PosixPath PosixFacts ProcessPathFacts MColl Dec Value Attrs OptionsM Hdf5 HeapFacts NpWrite MarshalW.
Local Open Scope nat_scope.

Lemma pre_snoc2 x y (k a : pystr) : pre (x ++ [k]) (y ++ [a]) -> pre x y.
Proof. intros P. destruct (pre_snoc_inv _ _ _ P) as [Q|Q]; [eapply pre_snoc; exact Q|]. apply app_inj_tail in Q. destruct Q as [-> _]. apply pre_refl. Qed.
Lemma pre_snoc_self x k : ~ pre (x ++ [k]) x.
Proof. intros P. apply pre_len in P. rewrite app_length in P. cbn in P. lia. Qed.

Section Frame.
Variables (o : options) (rnd : nat -> N).
(** the path of the references Group, and of the canonical empty *)
Definition rp : list pystr := path_comps (o_refs o).
Definition ra : list pystr := rp ++ [lit "a"].

(** names in the references Group that may still be used for new elements; all while
    it is not known how it came to be *)
Definition futc (s : st) (k : pystr) : Prop :=
  match rgrp s with None => True | Some _ => rcreated s = true /\ exists c, (counter s <= c)%N /\ k = show_hex c end.
Definition fut (s : st) (k : pystr) : Prop :=
  match rgrp s with
  | None => True
  | Some _ => if rcreated s then exists c, (counter s <= c)%N /\ k = show_hex c
              else exists p, rpos s <= p /\ k = show_hex16 (rnd p)
  end.
Lemma futc_fut s k : futc s k -> fut s k.
Proof. unfold futc, fut. destruct (rgrp s); [|tauto]. intros [-> H]. exact H. Qed.

Definition ptr_ok (h : heap) (j : nat) : Prop := h j <> None /\ exists k, name_of h j = rp ++ [k].
Record wf (s : st) : Prop := {
  w_tree : tree (hp s) (nxt s);
  w_refs : forall g, walk (hp s) 0 rp = Some g ->
             is_group (hp s) g = true /\ forall c, lookup (hp s) g (lit "a") = Some c -> is_canonical (hp s) c = true;
  w_sess : forall g, rgrp s = Some g -> walk (hp s) 0 rp = Some g;
  w_canon : forall c, canon s = Some c -> exists g, rgrp s = Some g /\ lookup (hp s) g (lit "a") = Some c;
  w_cnt : (11 <= counter s)%N;
  w_new : forall g c, rgrp s = Some g -> rcreated s = true -> (counter s <= c)%N -> lookup (hp s) g (show_hex c) = None;
  w_ptrs : forall i ob a f j, hp s i = Some ob -> o_body ob = BData a f -> In (XPtr j) (a_data a) -> ptr_ok (hp s) j }.

(** between [s] and [s'] only what is in the region [R], or belongs to the bookkeeping
    of references, has changed *)
Record frame (R : list pystr -> Prop) (s s' : st) : Prop := {
  f_nxt : nxt s <= nxt s';
  f_obj : forall i, hp s i <> None -> hp s' i <> None /\ name_of (hp s') i = name_of (hp s) i /\ is_group (hp s') i = is_group (hp s) i;
  f_live : forall i, live (hp s) i = true -> ~ R (name_of (hp s) i) -> live (hp s') i = true;
  f_dead : forall i, hp s i <> None -> live (hp s') i = true -> live (hp s) i = true;
  f_keep : forall i, live (hp s) i = true -> ~ R (name_of (hp s) i) ->
             attrs_of (hp s') i = attrs_of (hp s) i /\ (is_group (hp s) i = false -> hp s' i = hp s i);
  f_same : forall i, live (hp s) i = true -> ~ R (name_of (hp s) i) -> ~ pre (name_of (hp s) i) rp ->
             (forall k, ~ R (name_of (hp s) i ++ [k])) -> hp s' i = hp s i;
  f_born : forall j, hp s j = None -> live (hp s') j = true ->
             R (name_of (hp s') j) \/ pre (name_of (hp s') j) ra \/
             exists k, fut s k /\ pre (rp ++ [k]) (name_of (hp s') j);
  f_rgrp : forall g, rgrp s = Some g -> rgrp s' = Some g /\ rcreated s' = rcreated s;
  f_canon : forall c, canon s = Some c -> canon s' = Some c;
  f_cnt : (counter s <= counter s')%N;
  f_rpos : rpos s <= rpos s' }.

Lemma fut_mono R s s' k : frame R s s' -> fut s' k -> fut s k.
Proof.
  intros F. unfold fut. destruct (rgrp s) as [g|] eqn:E; [|tauto]. destruct (f_rgrp _ _ _ F g E) as [-> ->].
  pose proof (f_cnt _ _ _ F). pose proof (f_rpos _ _ _ F). destruct (rcreated s); intros (c & H1 & H2); exists c; split; auto; lia.
Qed.
Lemma futc_mono R s s' k : frame R s s' -> futc s' k -> futc s k.
Proof.
  intros F. unfold futc. destruct (rgrp s) as [g|] eqn:E; [|tauto]. destruct (f_rgrp _ _ _ F g E) as [-> ->].
  pose proof (f_cnt _ _ _ F). intros (H0 & c & H1 & H2); split; [exact H0|]; exists c; split; auto; lia.
Qed.

Lemma live_exists s i : wf s -> live (hp s) i = true -> hp s i <> None.
Proof.
  intros W L. apply live_walk in L. destruct (t_root _ _ (w_tree _ W)) as (ob & ls & E & _).
  eapply walk_exists; [apply (w_tree _ W)| |exact L]. congruence.
Qed.
Lemma frame_refl R s : wf s -> frame R s s.
Proof.
  intros W. constructor; auto; try lia. intros j E L. apply (live_exists s j W) in L. congruence.
Qed.
Lemma frame_trans R s s1 s2 : frame R s s1 -> frame R s1 s2 -> wf s -> frame R s s2.
Proof.
  intros F G W. constructor.
  - pose proof (f_nxt _ _ _ F). pose proof (f_nxt _ _ _ G). lia.
  - intros i Hi. destruct (f_obj _ _ _ F i Hi) as (H1 & H2 & H3). destruct (f_obj _ _ _ G i H1) as (H4 & H5 & H6).
    repeat split; congruence.
  - intros i L N. pose proof (live_exists _ _ W L) as E. destruct (f_obj _ _ _ F i E) as (H1 & H2 & H3).
    apply (f_live _ _ _ G); [apply (f_live _ _ _ F); assumption|rewrite H2; exact N].
  - intros i Hi L. destruct (f_obj _ _ _ F i Hi) as (H1 & H2 & H3). apply (f_dead _ _ _ F); [exact Hi|]. apply (f_dead _ _ _ G); assumption.
  - intros i L N. pose proof (live_exists _ _ W L) as E. destruct (f_obj _ _ _ F i E) as (H1 & H2 & H3).
    pose proof (f_live _ _ _ F i L N) as L1. destruct (f_keep _ _ _ F i L N) as [A1 B1].
    destruct (f_keep _ _ _ G i L1) as [A2 B2]; [rewrite H2; exact N|]. split; [congruence|]. intros X. rewrite B2; [auto|congruence].
  - intros i L N P C. pose proof (live_exists _ _ W L) as E. destruct (f_obj _ _ _ F i E) as (H1 & H2 & H3).
    pose proof (f_live _ _ _ F i L N) as L1. rewrite (f_same _ _ _ G i L1); rewrite ?H2; auto.
    apply (f_same _ _ _ F); assumption.
  - intros j E L. destruct (hp s1 j) as [ob|] eqn:E1.
    + assert (X : hp s1 j <> None) by congruence. pose proof (f_dead _ _ _ G j X L) as L1.
      destruct (f_obj _ _ _ G j X) as (_ & -> & _). apply (f_born _ _ _ F); assumption.
    + destruct (f_born _ _ _ G j E1 L) as [H|[H|(k & H1 & H2)]]; auto. right. right. exists k. split; [|exact H2].
      eapply fut_mono; [exact F|exact H1].
  - intros g E. destruct (f_rgrp _ _ _ F g E) as [E1 R1]. destruct (f_rgrp _ _ _ G g E1) as [E2 R2]. split; congruence.
  - intros c E. apply (f_canon _ _ _ G), (f_canon _ _ _ F), E.
  - pose proof (f_cnt _ _ _ F). pose proof (f_cnt _ _ _ G). lia.
  - pose proof (f_rpos _ _ _ F). pose proof (f_rpos _ _ _ G). lia.
Qed.
Lemma frame_weaken (R R' : list pystr -> Prop) s s' : frame R s s' ->
  (forall i, live (hp s) i = true -> R (name_of (hp s) i) -> R' (name_of (hp s) i)) ->
  (forall i k, live (hp s) i = true -> R (name_of (hp s) i ++ [k]) ->
     R' (name_of (hp s) i) \/ R' (name_of (hp s) i ++ [k]) \/ pre (name_of (hp s) i) rp) ->
  (forall p, R p -> R' p \/ pre p ra \/ exists k, fut s k /\ pre (rp ++ [k]) p) ->
  frame R' s s'.
Proof.
  intros F H1 H2 H3. constructor; try apply F.
  - intros i L N. apply (f_live _ _ _ F); auto.
  - intros i L N. apply (f_keep _ _ _ F); auto.
  - intros i L N P C. apply (f_same _ _ _ F); auto. intros k K. destruct (H2 i k L K) as [X|[X|X]]; auto. apply (C k X).
  - intros j E L. destruct (f_born _ _ _ F j E L) as [H|H]; [apply H3; exact H|right; exact H].
Qed.
Lemma frame_sub (R R' : list pystr -> Prop) s s' : frame R s s' -> (forall p, R p -> R' p) -> frame R' s s'.
Proof. intros F H. apply (frame_weaken R); auto. Qed.

(** ** the file itself does not change *)
Lemma frame_session R s s' : wf s -> hp s' = hp s -> nxt s' = nxt s ->
  (forall g, rgrp s = Some g -> rgrp s' = Some g /\ rcreated s' = rcreated s) ->
  (forall c, canon s = Some c -> canon s' = Some c) -> (counter s <= counter s')%N -> rpos s <= rpos s' -> frame R s s'.
Proof.
  intros W E1 E2 H1 H2 H3 H4. constructor; try rewrite !E1; auto; try lia.
  intros j E L. exfalso. apply (live_exists s j W) in L. congruence.
Qed.

(** ** a new object *)
Section New.
Variables (s : st) (g : nat) (k : pystr) (a : attrs) (b : body).
Hypotheses (W : wf s) (Lg : live (hp s) g = true) (Gg : is_group (hp s) g = true) (Hk : lookup (hp s) g k = None) (Hc : clean k)
  (Hb : match b with BGroup ls => ls = [] | _ => True end).
Local Notation n := (nxt s).
Local Notation h := (hp s).
Local Notation h' := (add_obj h g k n a b).
Local Notation s' := (mkSt h' (S n) (rgrp s) (rcreated s) (canon s) (counter s) (rpos s)).
Local Notation Ht := (w_tree _ W).
Lemma new_gn : g <> n. Proof. apply (add_gn h n g Ht Gg). Qed.
Lemma new_fresh : h n = None. Proof. apply (add_fresh h n g Ht Gg). Qed.
Lemma new_lookup i k' : lookup h' i k' = if (i =? g) && eqb_str k' k then Some n else lookup h i k'.
Proof. apply (add_lookup h n g k a b Ht Gg Hb). Qed.
Lemma new_lookup_old i k' j : lookup h i k' = Some j -> lookup h' i k' = Some j.
Proof.
  intros L. rewrite new_lookup. destruct (Nat.eqb_spec i g) as [->|]; cbn; [|exact L].
  destruct (eqb_str_spec k' k) as [->|]; [congruence|exact L].
Qed.
Lemma new_walk cs : forall i j, walk h i cs = Some j -> walk h' i cs = Some j.
Proof.
  induction cs as [|c cs IH]; intros i j; cbn; [auto|]. destruct (lookup h i c) as [m|] eqn:E; [|discriminate].
  rewrite (new_lookup_old _ _ _ E). apply IH.
Qed.
Lemma new_nolinks k' : lookup h' n k' = None.
Proof.
  rewrite new_lookup. destruct (Nat.eqb_spec n g) as [E|]; [destruct (new_gn (eq_sym E))|]. cbn.
  unfold lookup, links. rewrite new_fresh. reflexivity.
Qed.
Lemma new_walk_inv cs : forall i j, walk h' i cs = Some j -> j <> n -> walk h i cs = Some j.
Proof.
  induction cs as [|c cs IH]; intros i j; cbn; [auto|]. destruct (lookup h' i c) as [m|] eqn:E; [|discriminate].
  intros Wk N. destruct (Nat.eq_dec m n) as [->|Nm].
  - destruct cs as [|d cs]; cbn in Wk; [congruence|]. rewrite new_nolinks in Wk. discriminate.
  - rewrite new_lookup in E. destruct ((i =? g) && eqb_str c k); [congruence|]. rewrite E. auto.
Qed.
Lemma new_walk_n : walk h' 0 (name_of h g ++ [k]) = Some n.
Proof.
  rewrite walk_snoc. pose proof (proj1 (live_walk h g) Lg) as Lw. rewrite (new_walk _ _ _ Lw). rewrite new_lookup, Nat.eqb_refl, eqb_str_refl. reflexivity.
Qed.
Lemma new_name i : i <> n -> name_of h' i = name_of h i.
Proof. apply (add_name h n g k a b Ht Gg). Qed.
Lemma new_name_n : name_of h' n = name_of h g ++ [k].
Proof. apply add_name_new. Qed.
Lemma new_live_n : live h' n = true.
Proof. apply live_walk. rewrite new_name_n. apply new_walk_n. Qed.
Lemma new_live i : i <> n -> live h' i = live h i.
Proof.
  intros N. apply eq_true_iff_eq. rewrite !live_walk, new_name by exact N. split; [intros X; apply new_walk_inv; assumption|apply new_walk].
Qed.
Lemma new_old i : i <> n -> i <> g -> h' i = h i.
Proof. intros H1 H2. apply add_old; assumption. Qed.
Lemma new_group i : i <> n -> is_group h' i = is_group h i.
Proof. apply (add_group h n g k a b Ht Gg). Qed.
Lemma new_exists i : i <> n -> h i <> None -> h' i <> None.
Proof.
  intros N E. destruct (Nat.eq_dec i g) as [->|]; [rewrite (add_g h n g k a b Ht Gg); discriminate|].
  rewrite new_old by assumption. exact E.
Qed.
Lemma frame_new (R : list pystr -> Prop) :
  R (name_of h g ++ [k]) \/ pre (name_of h g ++ [k]) ra -> frame R s s'.
Proof.
  intros HR. assert (NN : forall i, h i <> None -> i <> n) by (intros i E ->; rewrite new_fresh in E; congruence).
  assert (LN : forall i, live h i = true -> i <> n) by (intros i E; apply NN; apply live_exists; assumption).
  constructor; cbn [hp nxt rgrp rcreated canon counter rpos]; auto; try lia.
  - intros i E. pose proof (NN i E). repeat split; [apply new_exists|apply new_name|apply new_group]; assumption.
  - intros i L N. rewrite new_live; auto.
  - intros i E L. rewrite new_live in L; auto.
  - intros i L N. pose proof (LN i L). split.
    + apply (add_attrs h n g k a b Ht Gg). assumption.
    + intros X. apply new_old; [assumption|]. intros ->. congruence.
  - intros i L N P C. apply new_old; [auto|]. intros ->. destruct HR as [HR|HR]; [apply (C k); exact HR|].
    apply P. apply (pre_snoc2 _ _ _ _ HR).
  - intros j E L. destruct (Nat.eq_dec j n) as [->|N]; [rewrite new_name_n; destruct HR; auto|].
    rewrite new_live in L by exact N. apply (live_exists s j W) in L. congruence.
Qed.
Lemma wf_new :
  (name_of h g ++ [k] = rp -> b = BGroup []) -> (name_of h g ++ [k] = ra -> is_canonical h' n = true) ->
  (rgrp s = Some g -> ~ futc s k) ->
  (forall d f j, b = BData d f -> In (XPtr j) (a_data d) -> ptr_ok h j) -> wf s'.
Proof.
  intros C1 C2 C3 C4. assert (NN : forall i, h i <> None -> i <> n) by (intros i E ->; rewrite new_fresh in E; congruence).
  assert (PO : forall j, ptr_ok h j -> ptr_ok h' j).
  { intros j [P1 P2]. pose proof (NN j P1). split; [apply new_exists; assumption|]. rewrite new_name by assumption. exact P2. }
  assert (TR : tree h' (S n)) by (apply (add_tree h n g k a b Ht Gg Hk Hc Hb)).
  constructor; cbn [hp nxt rgrp rcreated canon counter rpos].
  - exact TR.
  - intros x Wx. destruct (Nat.eq_dec x n) as [->|N].
    + pose proof (walk_root_name _ _ _ _ TR Wx) as E. rewrite new_name_n in E. specialize (C1 E). split.
      * unfold is_group. rewrite add_new, C1. reflexivity.
      * intros c. rewrite new_nolinks. discriminate.
    + pose proof (new_walk_inv _ _ _ Wx N) as Wy. destruct (w_refs _ W x Wy) as [G1 G2]. split; [rewrite new_group; assumption|].
      intros c. rewrite new_lookup. destruct (Nat.eqb_spec x g) as [->|Nx]; destruct (eqb_str_spec (lit "a") k) as [Ek|Nk]; cbn [andb].
      { intros E. assert (c = n) as -> by congruence. apply C2. rewrite <- Ek. unfold ra. rewrite (walk_root_name _ _ _ _ Ht Wy). reflexivity. }
      all: intros L; specialize (G2 c L); rewrite <- G2; unfold is_canonical; rewrite new_old; [reflexivity| |].
      all: try (intros ->; unfold is_canonical in G2; destruct (group_body _ _ Gg) as (ob & ls & E1 & E2 & _); rewrite E1, E2 in G2; discriminate).
      all: apply NN; apply (t_link _ _ Ht _ _ _ L).
  - intros x E. apply new_walk. apply (w_sess _ W). exact E.
  - intros c E. destruct (w_canon _ W c E) as (x & E1 & E2). exists x. split; [exact E1|]. apply new_lookup_old. exact E2.
  - apply (w_cnt _ W).
  - intros x c E1 E2 E3. rewrite new_lookup. destruct (Nat.eqb_spec x g) as [->|Nx]; cbn [andb]; [|apply (w_new _ W); assumption].
    destruct (eqb_str_spec (show_hex c) k) as [E|]; [|apply (w_new _ W); assumption].
    destruct (C3 E1). unfold futc. rewrite E1. split; [exact E2|]. exists c. auto.
  - intros i ob d f j E1 E2 E3. destruct (Nat.eq_dec i n) as [->|N].
    + rewrite add_new in E1. injection E1 as <-. cbn in E2. apply PO. eapply C4; eassumption.
    + destruct (Nat.eq_dec i g) as [->|Ng].
      * rewrite (add_g h n g k a b Ht Gg) in E1. injection E1 as <-. discriminate.
      * rewrite new_old in E1 by assumption. apply PO. eapply (w_ptrs _ W); eassumption.
Qed.
End New.

(** ** a link removed *)
Section Unlink.
Variables (s : st) (g : nat) (k : pystr).
Hypotheses (W : wf s) (Gg : is_group (hp s) g = true).
Local Notation h := (hp s).
Local Notation h' := (rm_link h g k).
Local Notation s' := (set_hp s h').
Local Notation Ht := (w_tree _ W).
Lemma del_walk cs : forall i j, walk h' i cs = Some j -> walk h i cs = Some j.
Proof.
  induction cs as [|c cs IH]; intros i j; cbn; [auto|]. rewrite rm_lookup.
  destruct ((i =? g) && eqb_str c k); [discriminate|]. destruct (lookup h i c); [|discriminate]. apply IH.
Qed.
Lemma del_walk_keep cs j : ~ pre (name_of h g ++ [k]) cs -> walk h 0 cs = Some j -> walk h' 0 cs = Some j.
Proof.
  intros N. apply (walk_pre h h' (nxt s) cs Ht 0 j). intros x k' y P L. rewrite (root_name h (nxt s) Ht) in P. cbn in P.
  rewrite rm_lookup. destruct (Nat.eqb_spec x g) as [->|]; destruct (eqb_str_spec k' k) as [->|]; cbn [andb]; auto. tauto.
Qed.
Lemma del_live i : live h' i = true -> live h i = true.
Proof. rewrite !live_walk. rewrite rm_name. apply del_walk. Qed.
Lemma frame_unlink (R : list pystr -> Prop) : (forall p, pre (name_of h g ++ [k]) p -> R p) -> frame R s s'.
Proof.
  intros HR. constructor; cbn [hp nxt rgrp rcreated canon counter rpos set_hp]; auto; try lia.
  - intros i E. rewrite rm_exists, rm_name, rm_group; auto.
  - intros i L N. apply live_walk. rewrite rm_name. apply del_walk_keep; [auto|]. apply live_walk. exact L.
  - intros i _. apply del_live.
  - intros i L N. split; [apply rm_attrs|]. intros X. apply rm_old. intros ->. congruence.
  - intros i L N P C. apply rm_old. intros ->. apply (C k). apply HR, pre_refl.
  - intros j E L. apply del_live in L. apply (live_exists s j W) in L. congruence.
Qed.
Lemma wf_unlink : ~ pre (name_of h g ++ [k]) ra -> wf s'.
Proof.
  intros NP. assert (NP' : ~ pre (name_of h g ++ [k]) rp) by (intros X; apply NP; apply (pre_trans _ rp); [exact X|apply pre_app]).
  constructor; cbn [hp nxt rgrp rcreated canon counter rpos set_hp].
  - apply (rm_tree (hp s) (nxt s) g k Ht Gg).
  - intros x Wx. apply del_walk in Wx. destruct (w_refs _ W x Wx) as [G1 G2]. split; [rewrite rm_group; assumption|].
    intros c. rewrite rm_lookup. destruct ((x =? g) && eqb_str (lit "a") k); [discriminate|]. intros L. specialize (G2 c L).
    rewrite <- G2. unfold is_canonical. rewrite rm_old; [reflexivity|]. intros ->. unfold is_canonical in G2.
    destruct (group_body _ _ Gg) as (ob & ls & E1 & E2 & _). rewrite E1, E2 in G2. discriminate.
  - intros x E. apply del_walk_keep; [exact NP'|]. apply (w_sess _ W). exact E.
  - intros c E. destruct (w_canon _ W c E) as (x & E1 & E2). exists x. split; [exact E1|]. rewrite rm_lookup.
    destruct (Nat.eqb_spec x g) as [->|]; [|exact E2]. destruct (eqb_str_spec (lit "a") k) as [Ek|]; [|exact E2].
    exfalso. apply NP. rewrite <- Ek. unfold ra. rewrite (walk_root_name _ _ _ _ Ht (w_sess _ W _ E1)). apply pre_refl.
  - apply (w_cnt _ W).
  - intros x c E1 E2 E3. rewrite rm_lookup. destruct ((x =? g) && eqb_str (show_hex c) k); [reflexivity|].
    apply (w_new _ W); assumption.
  - intros i ob d f j E1 E2 E3. destruct (Nat.eq_dec i g) as [->|Ng].
    + rewrite rm_g in E1. injection E1 as <-. discriminate.
    + rewrite rm_old in E1 by assumption. destruct (w_ptrs _ W _ _ _ _ _ E1 E2 E3) as [P1 P2]. split; [rewrite rm_exists; assumption|].
      rewrite rm_name. exact P2.
Qed.
End Unlink.

(** ** an object changed in place *)
Section Change.
Variables (s : st) (i : nat) (ob ob' : obj).
Hypotheses (W : wf s) (Hi : hp s i = Some ob) (Hn : o_name ob' = o_name ob) (Hb : same_kind (o_body ob) (o_body ob')).
Local Notation h := (hp s).
Local Notation h' := (upd h i ob').
Local Notation s' := (set_hp s h').
Local Notation Ht := (w_tree _ W).
Lemma change_live j : live h' j = live h j.
Proof.
  unfold live. rewrite (mod_walk h i ob ob' Hi Hb), (mod_name h i ob ob' Hi Hn). reflexivity.
Qed.
Lemma frame_change (R : list pystr -> Prop) : R (name_of h i) -> frame R s s'.
Proof.
  intros HR. constructor; cbn [hp nxt rgrp rcreated canon counter rpos set_hp]; auto; try lia.
  - intros j E. rewrite (mod_exists h i ob ob' Hi), (mod_name h i ob ob' Hi Hn), (mod_group h i ob ob' Hi Hb). auto.
  - intros j L _. rewrite change_live. exact L.
  - intros j _ L. rewrite change_live in L. exact L.
  - intros j L N. assert (j <> i) by congruence. unfold attrs_of. rewrite upd_other by assumption. auto.
  - intros j L N _ _. assert (j <> i) by congruence. rewrite upd_other by assumption. reflexivity.
  - intros j E L. rewrite change_live in L. apply (live_exists s j W) in L. congruence.
Qed.
Lemma wf_change : name_of h i <> ra -> (forall d f j, o_body ob' = BData d f -> In (XPtr j) (a_data d) -> ptr_ok h j) -> wf s'.
Proof.
  intros Nr HP. constructor; cbn [hp nxt rgrp rcreated canon counter rpos set_hp].
  - apply (mod_tree h (nxt s) i ob ob' Ht Hi Hn Hb).
  - intros x. rewrite (mod_walk h i ob ob' Hi Hb), (mod_group h i ob ob' Hi Hb). intros Wx. destruct (w_refs _ W x Wx) as [G1 G2]. split; [exact G1|].
    intros c. rewrite (mod_lookup h i ob ob' Hi Hb). intros L. rewrite <- (G2 c L). unfold is_canonical. rewrite upd_other; [reflexivity|].
    intros ->. apply Nr. unfold ra. rewrite <- (walk_root_name _ _ _ _ Ht Wx). apply (t_link _ _ Ht _ _ _ L).
  - intros x. rewrite (mod_walk h i ob ob' Hi Hb). apply (w_sess _ W).
  - intros c E. destruct (w_canon _ W c E) as (x & E1 & E2). exists x. rewrite (mod_lookup h i ob ob' Hi Hb). auto.
  - apply (w_cnt _ W).
  - intros x c. rewrite (mod_lookup h i ob ob' Hi Hb). apply (w_new _ W).
  - assert (PO : forall j, ptr_ok h j -> ptr_ok (upd h i ob') j).
    { intros j [P1 P2]. split; [apply (mod_exists h i ob ob' Hi); exact P1|]. rewrite (mod_name h i ob ob' Hi Hn). exact P2. }
    intros x ox d f j E1 E2 E3. destruct (Nat.eq_dec x i) as [->|N].
    + rewrite upd_same in E1. injection E1 as <-. apply PO. eapply HP; eassumption.
    + rewrite upd_other in E1 by assumption. apply PO. eapply (w_ptrs _ W); eassumption.
Qed.
End Change.
End Frame.
