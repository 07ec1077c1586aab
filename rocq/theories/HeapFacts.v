(** Facts about the file model: what the elementary changes do to the links. *)
From Verif Require Import Base PathEsc PosixPath PosixFacts ProcessPathFacts MColl Value Attrs Hdf5.
Local Open Scope nat_scope.

Definition pre (a b : list pystr) : Prop := exists c, b = a ++ c.
Lemma pre_refl a : pre a a. Proof. exists []. rewrite app_nil_r. reflexivity. Qed.
Lemma pre_trans a b c : pre a b -> pre b c -> pre a c.
Proof. intros [x ->] [y ->]. exists (x ++ y). rewrite app_assoc. reflexivity. Qed.
Lemma pre_app a b : pre a (a ++ b). Proof. exists b. reflexivity. Qed.
Lemma pre_snoc a k b : pre (a ++ [k]) b -> pre a b.
Proof. intros [c ->]. rewrite <- app_assoc. apply pre_app. Qed.
Lemma pre_len a b : pre a b -> length a <= length b.
Proof. intros [c ->]. rewrite app_length. lia. Qed.
Lemma pre_snoc_inv a b k : pre a (b ++ [k]) -> pre a b \/ a = b ++ [k].
Proof.
  intros [c E]. destruct c as [|x c] using rev_ind; [right; rewrite app_nil_r in E; auto|].
  rewrite app_assoc in E. apply app_inj_tail in E. left. exists c. tauto.
Qed.
Lemma pre_antisym_len a b : pre a b -> length b <= length a -> a = b.
Proof. intros [c ->] H. rewrite app_length in H. destruct c; [rewrite app_nil_r; reflexivity|cbn in H; lia]. Qed.
Lemma snoc_neq {A} (l : list A) k : l ++ [k] <> l.
Proof. intros E. apply (f_equal (@length A)) in E. rewrite app_length in E. cbn in E. lia. Qed.

Lemma str_le_refl a : str_le a a = true.
Proof. induction a as [|x a IH]; [reflexivity|]. cbn [str_le]. rewrite N.ltb_irrefl. exact IH. Qed.
Lemma assoc_ins {B} k (v : B) l k' : assoc k' (ins k v l) = if eqb_str k' k then Some v else assoc k' l.
Proof.
  induction l as [|[a b] l IH]; cbn; [reflexivity|].
  destruct (str_le k a) eqn:E; cbn; [reflexivity|]. rewrite IH.
  destruct (eqb_str_spec k' a) as [->|]; [|reflexivity].
  destruct (eqb_str_spec a k) as [->|]; [|reflexivity]. rewrite str_le_refl in E. discriminate.
Qed.
Lemma assoc_del {B} k (l : list (pystr * B)) k' : assoc k' (del_key k l) = if eqb_str k' k then None else assoc k' l.
Proof.
  unfold del_key. induction l as [|[a b] l IH]; cbn; [destruct (eqb_str k' k); reflexivity|].
  destruct (eqb_str_spec k a) as [->|N]; cbn; [|rewrite IH].
  - rewrite IH. destruct (eqb_str_spec k' a); reflexivity.
  - destruct (eqb_str_spec k' a) as [->|]; [|reflexivity]. destruct (eqb_str_spec a k); [congruence|reflexivity].
Qed.
Lemma assoc_In {B} k (v : B) l : assoc k l = Some v -> In (k, v) l.
Proof.
  induction l as [|[a b] l IH]; cbn; [discriminate|]. destruct (eqb_str_spec k a) as [->|]; [intros [= ->]; auto|auto].
Qed.
Lemma assoc_None {B} k (l : list (pystr * B)) : assoc k l = None <-> ~ In k (map fst l).
Proof.
  induction l as [|[a b] l IH]; cbn; [tauto|]. destruct (eqb_str_spec k a) as [->|]; [split; [discriminate|intros H; destruct H; auto]|].
  rewrite IH. split; intros H; [intros [E|E]; [congruence|tauto]|tauto].
Qed.
Lemma In_assoc {B} k (v : B) l : NoDup (map fst l) -> In (k, v) l -> assoc k l = Some v.
Proof.
  induction l as [|[a b] l IH]; cbn; [tauto|]. intros Hn [E|E]; [injection E as -> ->; rewrite eqb_str_refl; reflexivity|].
  inversion Hn; subst. destruct (eqb_str_spec k a) as [->|]; [|auto].
  destruct H1. apply in_map_iff. exists (a, v). auto.
Qed.
Lemma ins_keys {B} k (v : B) l x : In x (map fst (ins k v l)) <-> x = k \/ In x (map fst l).
Proof.
  induction l as [|[a b] l IH]; cbn; [intuition|]. destruct (str_le k a); cbn; [intuition|]. rewrite IH. intuition.
Qed.
Lemma ins_nodup {B} k (v : B) l : NoDup (map fst l) -> ~ In k (map fst l) -> NoDup (map fst (ins k v l)).
Proof.
  induction l as [|[a b] l IH]; cbn; intros Hn Hk; [repeat constructor; tauto|].
  destruct (str_le k a); cbn; [constructor; [cbn; tauto|exact Hn]|].
  inversion Hn; subst. constructor; [rewrite ins_keys; intuition|]. apply IH; tauto.
Qed.
Lemma del_keys {B} k (l : list (pystr * B)) x : In x (map fst (del_key k l)) -> In x (map fst l).
Proof. unfold del_key. rewrite !in_map_iff. intros (p & E & H). apply filter_In in H. exists p. tauto. Qed.
Lemma del_nodup {B} k (l : list (pystr * B)) : NoDup (map fst l) -> NoDup (map fst (del_key k l)).
Proof.
  unfold del_key. induction l as [|[a b] l IH]; cbn; intros Hn; [constructor|]. inversion Hn; subst.
  destruct (eqb_str k a); cbn; [auto|]. constructor; [|auto]. intros H. apply H1. apply (del_keys k l a). exact H.
Qed.

Lemma upd_same h i ob : upd h i ob i = Some ob. Proof. unfold upd. rewrite Nat.eqb_refl. reflexivity. Qed.
Lemma upd_other h i ob j : j <> i -> upd h i ob j = h j.
Proof. intros H. unfold upd. apply Nat.eqb_neq in H. rewrite H. reflexivity. Qed.

(** the shape of the heap *)
Record tree (h : heap) (n : nat) : Prop := {
  t_root : exists ob ls, h 0 = Some ob /\ o_name ob = [] /\ o_body ob = BGroup ls;
  t_bound : forall i ob, h i = Some ob -> i < n;
  t_link : forall i k j, lookup h i k = Some j -> h j <> None /\ name_of h j = name_of h i ++ [k];
  t_keys : forall i, NoDup (map fst (links h i)) /\ Forall clean (map fst (links h i)) }.

Lemma lookup_group h i k j : lookup h i k = Some j -> is_group h i = true.
Proof.
  unfold lookup, links, is_group. destruct (h i) as [ob|]; [|discriminate]. destruct (o_body ob); [discriminate|reflexivity].
Qed.
Lemma group_body h i : is_group h i = true -> exists ob ls, h i = Some ob /\ o_body ob = BGroup ls /\ links h i = ls.
Proof.
  unfold is_group, links. destruct (h i) as [ob|]; [|discriminate]. destruct (o_body ob) eqn:E; [discriminate|]. eauto.
Qed.

Lemma walk_app h cs ds : forall i, walk h i (cs ++ ds) = match walk h i cs with Some j => walk h j ds | None => None end.
Proof. induction cs as [|k cs IH]; intros i; cbn; [reflexivity|]. destruct (lookup h i k); [apply IH|reflexivity]. Qed.
Lemma walk_snoc h cs k i : walk h i (cs ++ [k]) = match walk h i cs with Some j => lookup h j k | None => None end.
Proof. rewrite walk_app. destruct (walk h i cs); [|reflexivity]. cbn. destruct (lookup h n k); reflexivity. Qed.
Lemma walk_name h n cs : tree h n -> forall i j, walk h i cs = Some j -> name_of h j = name_of h i ++ cs.
Proof.
  intros Ht. induction cs as [|k cs IH]; intros i j; cbn; [intros [= ->]; rewrite app_nil_r; reflexivity|].
  destruct (lookup h i k) as [m|] eqn:E; [|discriminate]. intros W. apply IH in W. destruct (t_link _ _ Ht _ _ _ E) as [_ H].
  rewrite W, H, <- app_assoc. reflexivity.
Qed.
Lemma root_name h n : tree h n -> name_of h 0 = [].
Proof. intros Ht. destruct (t_root _ _ Ht) as (ob & ls & E & N & _). unfold name_of. rewrite E. exact N. Qed.
Lemma walk_root_name h n cs j : tree h n -> walk h 0 cs = Some j -> name_of h j = cs.
Proof. intros Ht W. rewrite (walk_name h n cs Ht 0 j W), (root_name h n Ht). reflexivity. Qed.
Lemma walk_exists h n cs : tree h n -> forall i j, h i <> None -> walk h i cs = Some j -> h j <> None.
Proof.
  intros Ht. induction cs as [|k cs IH]; intros i j Hi; cbn; [intros [= ->]; exact Hi|].
  destruct (lookup h i k) as [m|] eqn:E; [|discriminate]. apply IH. apply (t_link _ _ Ht _ _ _ E).
Qed.
(** a walk only uses links on its way *)
Lemma walk_pre h h' n cs : tree h n -> forall i j,
  (forall a k b, pre (name_of h a ++ [k]) (name_of h i ++ cs) -> lookup h a k = Some b -> lookup h' a k = Some b) ->
  walk h i cs = Some j -> walk h' i cs = Some j.
Proof.
  intros Ht. induction cs as [|k cs IH]; intros i j H; cbn; [auto|].
  destruct (lookup h i k) as [m|] eqn:E; [|discriminate]. intros W.
  rewrite (H i k m) by (auto; exists cs; rewrite <- app_assoc; reflexivity).
  apply IH; [|exact W]. intros a k' b P. apply H. destruct (t_link _ _ Ht _ _ _ E) as [_ N]. rewrite N, <- app_assoc in P. exact P.
Qed.
Lemma live_walk h i : live h i = true <-> walk h 0 (name_of h i) = Some i.
Proof.
  unfold live. destruct (walk h 0 (name_of h i)) as [j|]; [|split; discriminate]. rewrite Nat.eqb_eq. split; congruence.
Qed.

(** ** the changes *)
(** a new object [i] linked as [k] in [g] *)
Definition add_obj (h : heap) (g : nat) (k : pystr) (i : nat) (a : attrs) (b : body) : heap :=
  upd (upd h g (mkObj (name_of h g) (attrs_of h g) (BGroup (ins k i (links h g))))) i (mkObj (name_of h g ++ [k]) a b).
Definition rm_link (h : heap) (g : nat) (k : pystr) : heap :=
  upd h g (mkObj (name_of h g) (attrs_of h g) (BGroup (del_key k (links h g)))).
(** the object changed in place *)
Definition same_kind (b b' : body) : Prop :=
  match b, b' with BGroup l, BGroup l' => l = l' | BData _ _, BData _ _ => True | _, _ => False end.

Lemma obj_eta h g ob ls : h g = Some ob -> o_body ob = BGroup ls -> ob = mkObj (name_of h g) (attrs_of h g) (BGroup (links h g)).
Proof. intros E B. unfold name_of, attrs_of, links. rewrite E, B. destruct ob; cbn in *; congruence. Qed.

Lemma alloc_eq g k a b s : is_group (hp s) g = true ->
  alloc g k a b s = (mkSt (add_obj (hp s) g k (nxt s) a b) (S (nxt s)) (rgrp s) (rcreated s) (canon s) (counter s) (rpos s), Ok (nxt s)).
Proof.
  intros G. destruct (group_body _ _ G) as (ob & ls & E & B & L). unfold alloc, add_obj. rewrite E, B.
  unfold with_body, name_of, attrs_of. rewrite E, L. reflexivity.
Qed.
Lemma alloc_nogroup g k a b s : is_group (hp s) g = false -> alloc g k a b s = (s, Err ValueError).
Proof.
  unfold is_group, alloc. destruct (hp s g) as [ob|]; [|reflexivity]. destruct (o_body ob); [reflexivity|discriminate].
Qed.

Section Add.
Variables (h : heap) (n g : nat) (k : pystr) (a : attrs) (b : body).
Hypotheses (Ht : tree h n) (Hg : is_group h g = true) (Hk : lookup h g k = None) (Hc : clean k)
  (Hb : match b with BGroup ls => ls = [] | _ => True end).
Let h' := add_obj h g k n a b.
Lemma add_fresh : h n = None.
Proof. destruct (h n) eqn:E; [|reflexivity]. apply (t_bound _ _ Ht) in E. lia. Qed.
Lemma add_gn : g <> n.
Proof. intros E. pose proof add_fresh as H. unfold is_group in Hg. rewrite E, H in Hg. discriminate. Qed.
Lemma add_new : h' n = Some (mkObj (name_of h g ++ [k]) a b).
Proof. apply upd_same. Qed.
Lemma add_old i : i <> n -> i <> g -> h' i = h i.
Proof. intros H1 H2. unfold h', add_obj. rewrite !upd_other by assumption. reflexivity. Qed.
Lemma add_g : h' g = Some (mkObj (name_of h g) (attrs_of h g) (BGroup (ins k n (links h g)))).
Proof. unfold h', add_obj. rewrite upd_other by apply add_gn. apply upd_same. Qed.
Lemma add_name i : i <> n -> name_of h' i = name_of h i.
Proof.
  intros H. destruct (Nat.eq_dec i g) as [->|N]; [unfold name_of at 1; rewrite add_g; reflexivity|].
  unfold name_of. rewrite add_old by assumption. reflexivity.
Qed.
Lemma add_name_new : name_of h' n = name_of h g ++ [k].
Proof. unfold name_of at 1. rewrite add_new. reflexivity. Qed.
Lemma add_attrs i : i <> n -> attrs_of h' i = attrs_of h i.
Proof.
  intros H. destruct (Nat.eq_dec i g) as [->|N]; [unfold attrs_of at 1; rewrite add_g; reflexivity|].
  unfold attrs_of. rewrite add_old by assumption. reflexivity.
Qed.
Lemma add_group i : i <> n -> is_group h' i = is_group h i.
Proof.
  intros H. destruct (Nat.eq_dec i g) as [->|N]; [unfold is_group at 1; rewrite add_g, Hg; reflexivity|].
  unfold is_group. rewrite add_old by assumption. reflexivity.
Qed.
Lemma add_links i : links h' i = if i =? n then [] else if i =? g then ins k n (links h g) else links h i.
Proof.
  unfold links at 1. destruct (Nat.eqb_spec i n) as [->|N]; [rewrite add_new; cbn; destruct b; congruence|].
  destruct (Nat.eqb_spec i g) as [->|N2]; [rewrite add_g; reflexivity|]. rewrite add_old by assumption. reflexivity.
Qed.
Lemma add_lookup i k' : lookup h' i k' = if (i =? g) && eqb_str k' k then Some n else lookup h i k'.
Proof.
  unfold lookup. rewrite add_links. destruct (Nat.eqb_spec i n) as [->|N].
  - destruct (Nat.eqb_spec n g) as [E|N2]; [destruct (add_gn (eq_sym E))|]. cbn. unfold links. rewrite add_fresh. reflexivity.
  - destruct (Nat.eqb_spec i g) as [->|]; cbn; [apply assoc_ins|reflexivity].
Qed.
Lemma add_tree : tree h' (S n).
Proof.
  constructor.
  - destruct (t_root _ _ Ht) as (ob & ls & E & N & B).
    assert (0 <> n) by (intros E0; rewrite E0, add_fresh in E; discriminate).
    destruct (Nat.eq_dec 0 g) as [E0|N2].
    + rewrite E0 in E |- *. eexists. eexists. split; [apply add_g|]. split; [|reflexivity].
      cbn. unfold name_of. rewrite E. exact N.
    + exists ob, ls. rewrite add_old by congruence. auto.
  - intros i ob E. destruct (Nat.eq_dec i n) as [->|N]; [lia|]. destruct (Nat.eq_dec i g) as [->|N2].
    + destruct (group_body _ _ Hg) as (o1 & ls & E1 & _). apply (t_bound _ _ Ht) in E1. lia.
    + rewrite add_old in E by assumption. apply (t_bound _ _ Ht) in E. lia.
  - intros i k' j. rewrite add_lookup. destruct (Nat.eqb_spec i g) as [->|N]; destruct (eqb_str_spec k' k) as [->|N2]; cbn [andb].
    { intros E. assert (j = n) as -> by congruence. rewrite add_new, add_name_new, add_name by apply add_gn. split; [discriminate|reflexivity]. }
    all: intros L; destruct (t_link _ _ Ht _ _ _ L) as [L1 L2].
    all: assert (j <> n) by (intros E; rewrite E, add_fresh in L1; congruence).
    all: split; [destruct (Nat.eq_dec j g) as [E|]; [rewrite E, add_g; discriminate|rewrite add_old by assumption; exact L1]|].
    all: rewrite !add_name; auto using add_gn.
    all: intros E; rewrite E in L; apply lookup_group in L; unfold is_group in L; rewrite add_fresh in L; discriminate.
  - intros i. rewrite add_links. destruct (i =? n); [split; constructor|]. destruct (Nat.eqb_spec i g) as [->|]; [|apply (t_keys _ _ Ht)].
    destruct (t_keys _ _ Ht g) as [K1 K2]. split.
    + apply ins_nodup; [exact K1|]. apply assoc_None. exact Hk.
    + apply Forall_forall. intros x Hx. apply ins_keys in Hx. destruct Hx as [->|Hx]; [exact Hc|].
      rewrite Forall_forall in K2. auto.
Qed.
End Add.

Section Rm.
Variables (h : heap) (n g : nat) (k : pystr).
Hypotheses (Ht : tree h n) (Hg : is_group h g = true).
Let h' := rm_link h g k.
Lemma rm_old i : i <> g -> h' i = h i.
Proof. intros. apply upd_other. assumption. Qed.
Lemma rm_g : h' g = Some (mkObj (name_of h g) (attrs_of h g) (BGroup (del_key k (links h g)))).
Proof. apply upd_same. Qed.
Lemma rm_name i : name_of h' i = name_of h i.
Proof.
  unfold name_of at 1. destruct (Nat.eq_dec i g) as [->|]; [rewrite rm_g; reflexivity|rewrite rm_old by assumption; reflexivity].
Qed.
Lemma rm_attrs i : attrs_of h' i = attrs_of h i.
Proof.
  unfold attrs_of at 1. destruct (Nat.eq_dec i g) as [->|]; [rewrite rm_g; reflexivity|rewrite rm_old by assumption; reflexivity].
Qed.
Lemma rm_group i : is_group h' i = is_group h i.
Proof.
  unfold is_group at 1. destruct (Nat.eq_dec i g) as [->|]; [rewrite rm_g, Hg; reflexivity|rewrite rm_old by assumption; reflexivity].
Qed.
Lemma rm_links i : links h' i = if i =? g then del_key k (links h g) else links h i.
Proof.
  unfold links at 1. destruct (Nat.eqb_spec i g) as [->|]; [rewrite rm_g; reflexivity|rewrite rm_old by assumption; reflexivity].
Qed.
Lemma rm_lookup i k' : lookup h' i k' = if (i =? g) && eqb_str k' k then None else lookup h i k'.
Proof.
  unfold lookup. rewrite rm_links. destruct (Nat.eqb_spec i g) as [->|]; cbn; [apply assoc_del|reflexivity].
Qed.
Lemma rm_exists i : h' i <> None <-> h i <> None.
Proof.
  destruct (Nat.eq_dec i g) as [->|]; [|rewrite rm_old by assumption; tauto]. rewrite rm_g.
  destruct (group_body _ _ Hg) as (ob & ls & E & _). rewrite E. split; discriminate.
Qed.
Lemma rm_tree : tree h' n.
Proof.
  constructor.
  - destruct (t_root _ _ Ht) as (ob & ls & E & N & B). destruct (Nat.eq_dec 0 g) as [E0|N2].
    + rewrite E0 in E |- *. eexists. eexists. split; [apply rm_g|]. split; [|reflexivity]. cbn. unfold name_of. rewrite E. exact N.
    + exists ob, ls. rewrite rm_old by assumption. auto.
  - intros i ob E. assert (h i <> None) by (apply rm_exists; congruence). destruct (h i) eqn:E2; [|congruence].
    apply (t_bound _ _ Ht) in E2. exact E2.
  - intros i k' j. rewrite rm_lookup. destruct ((i =? g) && eqb_str k' k); [discriminate|]. intros L.
    rewrite rm_exists, !rm_name. apply (t_link _ _ Ht). exact L.
  - intros i. rewrite rm_links. destruct (Nat.eqb_spec i g) as [->|]; [|apply (t_keys _ _ Ht)].
    destruct (t_keys _ _ Ht g) as [K1 K2]. split; [apply del_nodup; exact K1|].
    rewrite Forall_forall in *. intros x Hx. apply K2. eapply del_keys. exact Hx.
Qed.
End Rm.

Section Mod.
Variables (h : heap) (n i : nat) (ob ob' : obj).
Hypotheses (Ht : tree h n) (Hi : h i = Some ob) (Hn : o_name ob' = o_name ob) (Hb : same_kind (o_body ob) (o_body ob')).
Let h' := upd h i ob'.
Lemma mod_name j : name_of h' j = name_of h j.
Proof.
  unfold name_of, h', upd. destruct (Nat.eqb_spec j i) as [->|]; [rewrite Hi; exact Hn|reflexivity].
Qed.
Lemma mod_group j : is_group h' j = is_group h j.
Proof.
  unfold is_group, h', upd. destruct (Nat.eqb_spec j i) as [->|]; [rewrite Hi|reflexivity].
  unfold same_kind in Hb. destruct (o_body ob), (o_body ob'); tauto.
Qed.
Lemma mod_links j : links h' j = links h j.
Proof.
  unfold links, h', upd. destruct (Nat.eqb_spec j i) as [->|]; [rewrite Hi|reflexivity].
  unfold same_kind in Hb. destruct (o_body ob), (o_body ob'); try tauto. congruence.
Qed.
Lemma mod_lookup j k : lookup h' j k = lookup h j k.
Proof. unfold lookup. rewrite mod_links. reflexivity. Qed.
Lemma mod_exists j : h' j <> None <-> h j <> None.
Proof.
  unfold h', upd. destruct (Nat.eqb_spec j i) as [->|]; [rewrite Hi; split; discriminate|tauto].
Qed.
Lemma mod_walk cs : forall j, walk h' j cs = walk h j cs.
Proof. induction cs as [|k cs IH]; intros j; cbn; [reflexivity|]. rewrite mod_lookup. destruct (lookup h j k); auto. Qed.
Lemma mod_tree : tree h' n.
Proof.
  constructor.
  - destruct (t_root _ _ Ht) as (o0 & ls & E & N & B). unfold h', upd. destruct (Nat.eqb_spec 0 i) as [<-|].
    + rewrite Hi in E. injection E as ->. unfold same_kind in Hb. rewrite B in Hb. exists ob', ls.
      destruct (o_body ob') eqn:E2; [tauto|]. repeat split; congruence.
    + eauto.
  - intros j o1 E. assert (h j <> None) by (apply mod_exists; congruence). destruct (h j) eqn:E2; [|congruence].
    apply (t_bound _ _ Ht) in E2. exact E2.
  - intros j k m. rewrite mod_lookup, mod_exists, !mod_name. apply (t_link _ _ Ht).
  - intros j. rewrite mod_links. apply (t_keys _ _ Ht).
Qed.
End Mod.
