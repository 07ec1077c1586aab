From Verif Require Import Base PathEsc PosixPath ProcessPath ProcessPathFacts PathEscSpec PathEscFacts Unicode Dec NdArray Value OptionsM Attrs Hdf5 HeapFacts NpWrite NpRead MarshalW MarshalR FrameFacts ReadFacts RoundNp RoundDict MatlabFacts Incompat FileApi ApiFacts ApiSpec FileFacts MembersSpec.
Local Open Scope nat_scope.

Lemma file_read_eq o m keq s q cs : isabs (o_refs o) = true -> valid_path q -> denotes q cs -> cs <> [] -> apart o cs ->
  file_read o m keq (mkFile true s) q = (mkFile true s, match walk (hp s) 0 cs with Some j => read o keq (hp s) m j | None => Err KeyError end).
Proof.
  intros HA V D NZ AP. assert (D' := D). destruct D' as (g & t & P & ->). change (path_comps (posix_join g [t])) with (loc g t) in *.
  assert (CP : check_path o q = Ok (g, t)) by (apply check_path_iff; auto).
  unfold file_read, file_reads. cbn [mapr snd fl_open fl_st]. rewrite CP. cbn [bindr mapr fst snd].
  rewrite (read_at_eq o keq m q g t s P NZ (V _ D)). destruct (walk _ _ _) as [j|]; [|reflexivity]. destruct (read o keq (hp s) m j); reflexivity.
Qed.
Lemma top_apart o cs : ~ same_top cs (refs_path o) -> cs <> [] -> rp o <> [] -> apart o cs.
Proof.
  intros ST NZ NR. unfold same_top, refs_path in ST. unfold rp in NR. destruct cs as [|x l]; [congruence|]. destruct (path_comps (o_refs o)) as [|y b] eqn:Er; [congruence|]. exists x, y, l, b. split; [reflexivity|]. split; [exact Er|]. intros ->. apply ST. exists y, l, b. auto.
Qed.
Lemma apart_app o cs k : apart o cs -> apart o (cs ++ k).
Proof. intros (x & y & a & b & -> & E & N). exists x, y, (a ++ k), b. auto. Qed.
Lemma says_attr at_ k v : says at_ k v -> attr_str at_ k = Ok (Some v).
Proof. unfold attr_str. intros [-> |[-> F]]; [reflexivity|]. rewrite (ascii_decode v F). reflexivity. Qed.

Lemma mapr_error {A B} (f : A -> res B) l e : mapr f l = Err e -> exists x, In x l /\ f x = Err e.
Proof.
  induction l as [|a l IH]; [discriminate|]. cbn [mapr]. destruct (f a) as [b|e'] eqn:E; cbn [bindr]; [|intros [= ->]; exists a; cbn; auto].
  destruct (mapr f l); [discriminate|]. intros X. destruct (IH X) as (x & H1 & H2). exists x. cbn. auto.
Qed.
Lemma unescape_no_fuel name e : unescape_path name = Err e -> e <> OutOfFuel.
Proof.
  intros E. destruct (re_search_cases name) as [WE|X]; [|rewrite X in E; injection E as <-; discriminate].
  destruct (tokens_exist (length name) name (le_n _) WE) as (ts & OK & ->). rewrite (unescape_text ts OK) in E.
  destruct (mapr expand ts) as [l|e'] eqn:EM; [discriminate|]. injection E as ->. apply mapr_error in EM. destruct EM as (t & _ & ET).
  destruct t as [c| |k ds]; cbn [expand] in ET; try discriminate. destruct (chr _) eqn:EC; [discriminate|]. cbn [bindr] in ET. injection ET as ->. apply chr_err in EC. destruct EC as [-> |[-> _]]; discriminate.
Qed.
Section Dict.
Variable keq : pyval -> pyval -> bool.
Hypothesis HQ : forall a b, keq (VStr a) (VStr b) = eqb_str a b.
Definition strs (l : list (pyval * pyval)) : Prop := Forall (fun kv => exists u, fst kv = VStr u) l.
Lemma put_strs u v d : strs d -> strs (dict_put keq (VStr u) v d).
Proof.
  intros H. induction H as [|[k' v'] d [w E] H IH]; cbn [dict_put]; [repeat constructor; cbn; eauto|]. cbn [fst] in E. subst k'.
  destruct (keq (VStr w) (VStr u)); constructor; cbn [fst]; eauto.
Qed.
Lemma put_new u v d : strs d -> In (VStr u, v) (dict_put keq (VStr u) v d).
Proof.
  intros H. induction H as [|[k' v'] d [w E] H IH]; cbn [dict_put]; [left; reflexivity|]. cbn [fst] in E. subst k'. rewrite HQ.
  destruct (eqb_str_spec w u) as [->|]; [left; reflexivity|right; exact IH].
Qed.
Lemma put_old u v d w x : strs d -> w <> u -> In (VStr w, x) d -> In (VStr w, x) (dict_put keq (VStr u) v d).
Proof.
  intros H N. induction H as [|[k' v'] d [z E] H IH]; cbn [dict_put]; [intros []|]. cbn [fst] in E. subst k'. rewrite HQ.
  destruct (eqb_str_spec z u) as [->|].
  - intros [[= -> ->]|I]; [congruence|right; exact I].
  - intros [I|I]; [left; exact I|right; apply IH; exact I].
Qed.
Lemma put_back u v d kx x : strs d -> In (kx, x) (dict_put keq (VStr u) v d) -> kx = VStr u /\ x = v \/ In (kx, x) d.
Proof.
  intros H. induction H as [|[k' v'] d [z E] H IH]; cbn [dict_put]; [intros [[= <- <-]|[]]; auto|]. cbn [fst] in E. subst k'. rewrite HQ.
  destruct (eqb_str_spec z u) as [->|].
  - intros [[= <- <-]|I]; [auto|right; right; exact I].
  - intros [I|I]; [right; left; exact I|]. destruct (IH I) as [?|?]; [auto|right; right; assumption].
Qed.
Lemma dict_of_strs l : strs l -> (forall k x y, In (k, x) l -> In (k, y) l -> x = y) -> forall kx x, In (kx, x) (dict_of keq l) <-> In (kx, x) l.
Proof.
  intros S F. unfold dict_of.
  assert (G : forall l d, strs l -> strs d -> (forall k x y, In (k, x) (d ++ l) -> In (k, y) (d ++ l) -> x = y) ->
    forall kx x, In (kx, x) (fold_left (fun d kv => dict_put keq (fst kv) (snd kv) d) l d) <-> In (kx, x) (d ++ l)).
  { clear l S F. induction l as [|[k v] l IH]; intros d SL SD F kx x; cbn [fold_left fst snd]; [rewrite app_nil_r; reflexivity|].
    inversion SL as [|? ? [u E] SL']; subst. cbn [fst] in E. subst k.
    assert (X : forall kx x, In (kx, x) (dict_put keq (VStr u) v d ++ l) <-> In (kx, x) (d ++ (VStr u, v) :: l)).
    { intros ky y. rewrite !in_app_iff. cbn [In]. split.
      - intros [H|H]; [|auto]. destruct (put_back u v d ky y SD H) as [[-> ->]|H']; auto.
      - intros [H|[[= <- <-]|H]]; [| |auto]; left.
        + assert (exists w, ky = VStr w) as [w ->] by (unfold strs in SD; rewrite Forall_forall in SD; exact (SD _ H)).
          destruct (eqb_str_spec w u) as [->|N]; [|apply put_old; assumption].
          assert (y = v) as -> by (apply (F (VStr u)); rewrite in_app_iff; cbn [In]; auto). apply put_new. exact SD.
        + apply put_new. exact SD. }
    rewrite IH; [apply X|exact SL'|apply put_strs; exact SD|]. intros k y z H1 H2. apply X in H1, H2. exact (F _ _ _ H1 H2). }
  intros kx x. rewrite G; [reflexivity|exact S|constructor|]. intros k y z. cbn [app]. apply F.
Qed.
End Dict.
Lemma add_new_both l extra k : In k (MarshalR.add_new l extra) <-> In k l \/ In k extra.
Proof.
  revert l. induction extra as [|x r IH]; intros l; cbn [MarshalR.add_new]; [cbn; tauto|]. rewrite IH. cbn [In].
  destruct (mem_str x l) eqn:E; [apply mem_str_In in E|rewrite in_app_iff; cbn [In]]; intuition (subst; auto).
Qed.
Lemma in_combine_first {A B} (xs : list A) : forall (ys : list B) x, In x xs -> length xs <= length ys -> exists y, In (x, y) (combine xs ys).
Proof.
  induction xs as [|a xs IH]; intros ys x H L; [destruct H|]. destruct ys as [|y ys]; [cbn in L; lia|]. cbn [combine].
  destruct H as [->|H]; [exists y; left; reflexivity|]. destruct (IH ys x H) as (z & Z); [cbn in L; lia|]. exists z. right. exact Z.
Qed.
Lemma F2_out {A B} (R : A -> B -> Prop) l m y : Forall2 R l m -> In y m -> exists x, In x l /\ R x y.
Proof. induction 1 as [|a b l m H _ IH]; [intros []|]; intros [<-|I]; [exists a; cbn; auto|]. destruct (IH I) as (x & X1 & X2). exists x. cbn. auto. Qed.
Lemma F2_in {A B} (R : A -> B -> Prop) l m x : Forall2 R l m -> In x l -> exists y, In y m /\ R x y.
Proof. induction 1 as [|a b l m H _ IH]; [intros []|]; intros [<-|I]; [exists b; cbn; auto|]. destruct (IH I) as (y & X1 & X2). exists y. cbn. auto. Qed.

Section Read.
Variables (o : options) (m : nat) (keq : pyval -> pyval -> bool) (s : st) (cs : list pystr) (i : nat) (ls : list (pystr * nat)).
Hypotheses (W : walk (hp s) 0 cs = Some i) (L : Hdf5.links (hp s) i = ls).
Hypotheses (HN : forall name j, walk (hp s) 0 (cs ++ [name]) = Some j -> name_text (name_of (hp s) j) <> o_refs o).
Hypotheses (HD : distinct_names s cs) (HF : forall name j, walk (hp s) 0 (cs ++ [name]) = Some j -> read o keq (hp s) m j <> Err OutOfFuel).
(** what the members come to *)
Definition readables (l : list (pyval * pyval)) : Prop :=
  forall kx x, In (kx, x) l <-> exists name u j, unescape_path name = Ok u /\ kx = VStr u /\ walk (hp s) 0 (cs ++ [name]) = Some j /\ read o keq (hp s) m j = Ok x.
Lemma step_walk name : walk (hp s) 0 (cs ++ [name]) = lookup (hp s) i name.
Proof. rewrite walk_snoc, W. destruct (lookup _ _ _); reflexivity. Qed.
Lemma readables_fun l : (forall kx x, In (kx, x) l -> exists name u j, unescape_path name = Ok u /\ kx = VStr u /\ walk (hp s) 0 (cs ++ [name]) = Some j /\ read o keq (hp s) m j = Ok x) ->
  strs l /\ forall k x y, In (k, x) l -> In (k, y) l -> x = y.
Proof.
  intros R. split.
  - apply Forall_forall. intros [k x] H. destruct (R _ _ H) as (n & u & j & _ & -> & _). cbn. eauto.
  - intros k x y H1 H2. destruct (R _ _ H1) as (n1 & u1 & j1 & A1 & -> & B1 & C1). destruct (R _ _ H2) as (n2 & u2 & j2 & A2 & [= ->] & B2 & C2).
    assert (n1 = n2) by (apply (HD n1 n2 u2); auto; congruence). congruence.
Qed.
Lemma dict_items_read at_ k : str_dict at_ k -> exists l, dict_items o (hp s) (read o keq (hp s) m) i at_ ls = Ok l /\ readables l.
Proof.
  intros (_ & SA & _ & KT). unfold dict_items.
  assert (E1 : exists sa, attr_str at_ (lit "Python.dict.StoredAs") = Ok sa /\ match sa with Some s => eqb_str s (lit "keys_values") | None => false end = false).
  { destruct SA as [SA|SA]; [exists None; unfold attr_str; rewrite SA; auto|]. exists (Some (lit "individually")). split; [apply says_attr; exact SA|reflexivity]. }
  destruct E1 as (sa & -> & E1). cbn [bindr].
  assert (E2 : exists ty, attr_str at_ (lit "Python.dict.key_str_types") = Ok ty /\ forall t c, ty = Some t -> In c t -> c = 116%N).
  { destruct KT as [KT|[n KT]]; [exists None; unfold attr_str; rewrite KT; split; [reflexivity|discriminate]|]. eexists. split; [apply says_attr; exact KT|]. intros t c [= <-]. apply repeat_spec. }
  destruct E2 as (ty & -> & E2). cbn [bindr]. rewrite E1.
  destruct (match attr_strs at_ _ with Some (a :: b :: _) => _ | _ => _ end) as [kn vn].
  set (all := MarshalR.add_new _ _). set (codes := match attr_strs at_ _ with Some fs => _ | None => _ end).
  assert (HC : forall c, In (Some c) codes -> c = 116%N).
  { intros c. unfold codes. destruct (attr_strs _ _) as [fs|]; [|intros []]. destruct ty as [t|]; [|intros []]. destruct (_ =? _); [|intros []]. intros H. apply in_map_iff in H. destruct H as (c' & [= ->] & H). apply (E2 t c eq_refl H). }
  assert (HA : forall name, In name (map fst ls) -> In name all) by (intros name H; unfold all; rewrite add_new_both; auto).
  clearbody all codes. set (pairs := combine all (codes ++ repeat None (length all))). set (rd := read o keq (hp s) m) in *.
  set (step := fun kc : pystr * option N => if skipped o (hp s) i (fst kc) then Ok None else read_item (hp s) rd i kc).
  assert (ST : forall name c, In (name, c) pairs -> step (name, c) = Ok (match unescape_path name with
     | Ok u => match lookup (hp s) i name with Some j => match rd j with Ok x => Some (VStr u, x) | Err _ => None end | None => None end
     | Err _ => None end)).
  { intros name c H. unfold step, skipped, read_item. cbn [fst snd]. destruct (unescape_path name) as [u|e] eqn:EU.
    - cbn [bindr]. destruct (lookup (hp s) i name) as [j|] eqn:EL; [|reflexivity]. rewrite <- step_walk in EL.
      assert (RF : is_refs o (hp s) j = false). { unfold is_refs. destruct (eqb_str_spec (name_text (name_of (hp s) j)) (o_refs o)) as [E|]; [|reflexivity]. destruct (HN _ _ EL E). }
      rewrite RF. pose proof (HF _ _ EL) as NF. fold rd in NF. destruct (rd j) as [x|e]; cbn [bindr]; [|destruct e; try reflexivity; congruence].
      assert (KO : match c with Some c => key_of c u | None => Ok (VStr u) end = Ok (VStr u)).
      { destruct c as [c|]; [|reflexivity]. apply in_combine_r in H. apply in_app_or in H. destruct H as [H|H]; [|apply repeat_spec in H; discriminate]. rewrite (HC _ H). reflexivity. }
      rewrite KO. reflexivity.
    - cbn [bindr quiet]. pose proof (unescape_no_fuel name e EU). destruct e; try reflexivity; congruence. }
  destruct (mapr_all step pairs) as (rs & ER). { intros [name c] H. rewrite (ST _ _ H). eauto. }
  rewrite ER. cbn [bindr]. exists (somes rs). split; [reflexivity|]. apply mapr_F2 in ER. intros kx x. rewrite somes_in. split.
  - intros H. destruct (F2_out _ _ _ _ ER H) as ([name c] & H1 & H2). rewrite (ST _ _ H1) in H2. destruct (unescape_path name) as [u|] eqn:EU; [|discriminate].
    destruct (lookup (hp s) i name) as [j|] eqn:EL; [|discriminate]. rewrite <- step_walk in EL. destruct (rd j) as [y|] eqn:ERD; [|discriminate]. injection H2 as <- <-. exists name, u, j. auto.
  - intros (name & u & j & EU & -> & EL & ERD). rewrite step_walk in EL.
    assert (IN : In name all). { apply HA. rewrite <- L. unfold lookup in EL. apply assoc_In in EL. apply in_map_iff. eexists. split; [|exact EL]. reflexivity. }
    destruct (in_combine_first all (codes ++ repeat None (length all)) name IN) as (c & HC'). { rewrite app_length, repeat_length. lia. }
    fold pairs in HC'. destruct (F2_in _ _ _ _ ER HC') as (y & Y1 & Y2). rewrite (ST _ _ HC'), EU, EL in Y2. fold rd in ERD. rewrite ERD in Y2. injection Y2 as <-. exact Y1.
Qed.
(** ** structs *)
Lemma dputs_in {B} (l : list (pystr * B)) : forall d, (forall k x y, In (k, x) (d ++ l) -> In (k, y) (d ++ l) -> x = y) ->
  forall k x, In (k, x) (fold_left (fun d kv => dput (fst kv) (snd kv) d) l d) <-> In (k, x) (d ++ l).
Proof.
  induction l as [|[k v] l IH]; intros d F k0 x0; cbn [fold_left fst snd]; [rewrite app_nil_r; reflexivity|].
  assert (X : forall k1 x, In (k1, x) (dput k v d ++ l) <-> In (k1, x) (d ++ (k, v) :: l)).
  { assert (F' : forall x, In (k, x) d -> x = v) by (intros x H; apply (F k); rewrite in_app_iff; cbn [In]; auto). clear - F'. intros k1 x. rewrite !in_app_iff. cbn [In].
    assert (Y : In (k1, x) (dput k v d) <-> In (k1, x) d \/ (k, v) = (k1, x)); [|rewrite Y; tauto].
    induction d as [|[k' v'] d IH]; cbn [dput In]; [tauto|]. destruct (eqb_str_spec k k') as [->|N]; cbn [In].
    - rewrite (F' v') by (left; reflexivity). tauto.
    - rewrite IH by (intros y Hy; apply F'; right; exact Hy). tauto. }
  rewrite IH; [apply X|]. intros k1 y z H1 H2. apply X in H1, H2. exact (F _ _ _ H1 H2).
Qed.
Lemma fold_somes {B} (ms : list (option (pystr * B))) : forall d,
  fold_left (fun d m => match m with Some (k, v) => dput k v d | None => d end) ms d = fold_left (fun d kv => dput (fst kv) (snd kv) d) (somes ms) d.
Proof. induction ms as [|[[k v]|] ms IH]; intros d; cbn [fold_left somes flat_map app]; [reflexivity| |]; rewrite IH; reflexivity. Qed.
Lemma members_readables : NoDup (map fst ls) -> (forall name, In name (map fst ls) -> exists u, unescape_path name = Ok u) ->
  exists l, read_members o (hp s) (read o keq (hp s) m) ls = Ok l /\ readables (map (fun kv => (VStr (fst kv), snd kv)) l).
Proof.
  intros NDL HU. set (rd := read o keq (hp s) m).
  assert (LK : forall name j, In (name, j) ls -> walk (hp s) 0 (cs ++ [name]) = Some j).
  { intros name j H. rewrite step_walk. unfold lookup. rewrite L. apply In_assoc; assumption. }
  set (step := fun kj : pystr * nat => do uk <- unescape_path (fst kj); if is_refs o (hp s) (snd kj) then Ok None else do r <- quiet (rd (snd kj)); Ok (option_map (fun v => (uk, v)) r)).
  assert (STP : forall name j u, In (name, j) ls -> unescape_path name = Ok u -> step (name, j) = Ok (match rd j with Ok x => Some (u, x) | Err _ => None end)).
  { intros name j u H EU. unfold step. cbn [fst snd]. rewrite EU. cbn [bindr]. pose proof (LK _ _ H) as EL.
    assert (RF : is_refs o (hp s) j = false). { unfold is_refs. destruct (eqb_str_spec (name_text (name_of (hp s) j)) (o_refs o)) as [E|]; [|reflexivity]. destruct (HN _ _ EL E). }
    rewrite RF. pose proof (HF _ _ EL) as NF. fold rd in NF. destruct (rd j) as [x|e]; [reflexivity|]. destruct e; try reflexivity; congruence. }
  assert (HU' : forall name j, In (name, j) ls -> exists u, unescape_path name = Ok u) by (intros name j H; apply HU; apply in_map_iff; exists (name, j); auto).
  destruct (mapr_all step ls) as (ms & EM). { intros [name j] H. destruct (HU' _ _ H) as (u & EU). rewrite (STP _ _ _ H EU). eauto. }
  unfold read_members. fold rd. fold step. rewrite EM. cbn [bindr]. eexists. split; [reflexivity|]. rewrite fold_somes. apply mapr_F2 in EM.
  assert (R : forall u x, In (u, x) (somes ms) <-> exists name j, unescape_path name = Ok u /\ walk (hp s) 0 (cs ++ [name]) = Some j /\ rd j = Ok x).
  { intros u x. rewrite somes_in. split.
    - intros H. destruct (F2_out _ _ _ _ EM H) as ([name j] & H1 & H2). destruct (HU' _ _ H1) as (u' & EU). rewrite (STP _ _ _ H1 EU) in H2. destruct (rd j) as [y|] eqn:ER; [|discriminate]. injection H2 as <- <-. exists name, j. auto.
    - intros (name & j & EU & EL & ER). rewrite step_walk in EL. unfold lookup in EL. rewrite L in EL. apply assoc_In in EL. destruct (F2_in _ _ _ _ EM EL) as (y & Y1 & Y2).
      rewrite (STP _ _ _ EL EU), ER in Y2. injection Y2 as <-. exact Y1. }
  assert (F : forall k x y, In (k, x) (somes ms) -> In (k, y) (somes ms) -> x = y).
  { intros k x y H1 H2. apply R in H1, H2. destruct H1 as (n1 & j1 & A1 & B1 & C1), H2 as (n2 & j2 & A2 & B2 & C2). assert (n1 = n2) by (apply (HD n1 n2 k); auto; congruence). congruence. }
  intros kx x. split.
  - intros H. apply in_map_iff in H. destruct H as ((u & y) & [= <- <-] & H). apply dputs_in in H; [|exact F]. cbn [app] in H. apply R in H. destruct H as (name & j & A1 & A2 & A3). exists name, u, j. auto.
  - intros (name & u & j & A1 & -> & A2 & A3). apply in_map_iff. exists (u, x). split; [reflexivity|]. apply dputs_in; [exact F|]. cbn [app]. apply R. exists name, j. auto.
Qed.
End Read.

(** ** equal keys *)
Section Zip.
Variables (keq : pyval -> pyval -> bool) (ks0 : list pyval).
Hypothesis SK : same_key keq ks0.
Definition apart_keys (d : list (pyval * pyval)) : Prop := ForallOrdPairs (fun x y => keq x y = false) (map fst d) /\ forall x, In x (map fst d) -> In x ks0.
Lemma keq_f x y : In x ks0 -> In y ks0 -> keq x y = false -> keq y x = false.
Proof. destruct SK as (_ & S & _). intros Hx Hy E. destruct (keq y x) eqn:F; [|reflexivity]. rewrite (S y x Hy Hx F) in E. discriminate. Qed.
Lemma put_keys k v d x : In x (map fst (dict_put keq k v d)) -> x = k \/ In x (map fst d).
Proof.
  induction d as [|[k' v'] d IH]; cbn [dict_put map fst In]; [intuition|]. destruct (keq k' k); cbn [map fst In]; [intuition|]. intros [H|H]; [auto|]. destruct (IH H); auto.
Qed.
Lemma put_apart k v d : In k ks0 -> apart_keys d -> apart_keys (dict_put keq k v d).
Proof.
  intros Hk. induction d as [|[k' v'] d IH]; intros [H1 H2]; cbn [dict_put].
  - split; [repeat constructor|]. cbn. intros x [<-|[]]. exact Hk.
  - cbn [map fst] in *. inversion H1 as [|? ? A B]; subst. destruct (keq k' k) eqn:E; [split; cbn [map fst]; assumption|].
    assert (IH' : apart_keys (dict_put keq k v d)) by (apply IH; split; [exact B|intros x Hx; apply H2; right; exact Hx]).
    destruct IH' as [I1 I2]. split; cbn [map fst].
    + constructor; [|exact I1]. rewrite Forall_forall in *. intros x Hx. apply put_keys in Hx. destruct Hx as [->|Hx]; [exact E|auto].
    + intros x [<-|Hx]; [apply H2; left; reflexivity|auto].
Qed.
(** the one with the key given, if there *)
Lemma put_spec k v d : In k ks0 -> apart_keys d -> forall k0 v0, In (k0, v0) (dict_put keq k v d) -> (keq k0 k = true /\ v0 = v) \/ (keq k0 k = false /\ In (k0, v0) d).
Proof.
  intros Hk. destruct SK as (R & S & T). induction d as [|[k' v'] d IH]; intros [H1 H2] k0 v0; cbn [dict_put].
  - intros [[= <- <-]|[]]. left. auto.
  - cbn [map fst] in *. inversion H1 as [|? ? A B]; subst. rewrite Forall_forall in A. destruct (keq k' k) eqn:E.
    + intros [[= <- <-]|H]; [auto|]. right. split; [|right; exact H].
      assert (K0 : In k0 (map fst d)) by (apply in_map_iff; exists (k0, v0); auto).
      destruct (keq k0 k) eqn:F; [|reflexivity]. assert (X : keq k' k0 = true).
      { apply (T k' k k0); auto; try (apply H2; cbn; auto; fail). apply S; auto. apply H2. cbn. auto. }
      rewrite (A k0 K0) in X. discriminate.
    + intros [[= <- <-]|H]; [right; split; [exact E|left; reflexivity]|].
      destruct (IH (conj B (fun x Hx => H2 x (or_intror Hx))) k0 v0 H) as [?|[? ?]]; [auto|right; split; [assumption|right; assumption]].
Qed.
Lemma put_has k v d k1 : In k ks0 -> In k1 ks0 -> apart_keys d -> (keq k k1 = true \/ exists k0 v0, In (k0, v0) d /\ keq k0 k1 = true) ->
  exists k0 v0, In (k0, v0) (dict_put keq k v d) /\ keq k0 k1 = true.
Proof.
  intros Hk Hk1. destruct SK as (R & S & T). induction d as [|[k' v'] d IH]; intros [H1 H2] H; cbn [dict_put].
  - destruct H as [H|(k0 & v0 & [] & _)]. exists k, v. cbn. auto.
  - cbn [map fst] in *. inversion H1 as [|? ? A B]; subst. destruct (keq k' k) eqn:E.
    + destruct H as [H|(k0 & v0 & [[= -> ->]|H3] & H4)].
      * exists k', v. split; [left; reflexivity|]. apply (T k' k k1); auto. apply H2. cbn. auto.
      * exists k0, v. split; [left; reflexivity|exact H4].
      * exists k0, v0. split; [right; exact H3|exact H4].
    + destruct H as [H|(k0 & v0 & [[= -> ->]|H3] & H4)].
      * destruct IH as (k0 & v0 & I1 & I2); [split; [exact B|intros x Hx; apply H2; right; exact Hx]|left; exact H|]. exists k0, v0. split; [right; exact I1|exact I2].
      * exists k0, v0. split; [left; reflexivity|exact H4].
      * destruct IH as (k2 & v2 & I1 & I2); [split; [exact B|intros x Hx; apply H2; right; exact Hx]|right; exists k0, v0; auto|]. exists k2, v2. split; [right; exact I1|exact I2].
Qed.
Lemma nth_split_last {A} (l : list A) x i y : nth_error (l ++ [x]) i = Some y -> (i < length l /\ nth_error l i = Some y) \/ (i = length l /\ y = x).
Proof.
  intros H. destruct (Nat.lt_ge_cases i (length l)) as [L|L]; [rewrite nth_error_app1 in H by exact L; auto|].
  rewrite nth_error_app2 in H by exact L. right. destruct (i - length l) as [|k] eqn:E; [injection H as <-; split; [lia|reflexivity]|]. destruct k; discriminate.
Qed.
Lemma zip_dict ps : (forall x, In x (map fst ps) -> In x ks0) -> zipped keq (map fst ps) (map snd ps) (dict_of keq ps) /\ apart_keys (dict_of keq ps).
Proof.
  induction ps as [|[k v] ps IH] using rev_ind; intros H.
  - cbn. split; [split; [intros k v []|split; [intros [|i] k v E; discriminate E|constructor]]|split; [constructor|intros x []]].
  - assert (H' : forall x, In x (map fst ps) -> In x ks0) by (intros x Hx; apply H; rewrite map_app; apply in_or_app; left; exact Hx).
    assert (Hk : In k ks0) by (apply H; rewrite map_app; apply in_or_app; right; left; reflexivity).
    destruct (IH H') as [(Z1 & Z2 & Z3) AP]. clear IH.
    assert (E : dict_of keq (ps ++ [(k, v)]) = dict_put keq k v (dict_of keq ps)) by (unfold dict_of; rewrite fold_left_app; reflexivity).
    rewrite E. pose proof (put_apart k v _ Hk AP) as AP'. split; [|exact AP']. rewrite !map_app. cbn [map fst snd].
    set (ks := map fst ps) in *. set (vs := map snd ps) in *. assert (LEN : length ks = length vs) by (unfold ks, vs; rewrite !map_length; reflexivity).
    split; [|split; [|apply AP']].
    + intros k0 v0 HI. split.
      { assert (X : In k0 (map fst (dict_put keq k v (dict_of keq ps)))) by (apply in_map_iff; exists (k0, v0); auto).
        apply put_keys in X. apply in_or_app. destruct X as [->|X]; [right; left; reflexivity|]. left. apply in_map_iff in X. destruct X as ((k1 & v1) & <- & X). apply (Z1 _ _ X). }
      destruct (put_spec k v _ Hk AP k0 v0 HI) as [[Q ->]|[Q I]].
      * exists (length ks), k. split; [rewrite nth_error_app2, Nat.sub_diag by lia; reflexivity|]. split; [exact Q|]. split; [rewrite LEN, nth_error_app2, Nat.sub_diag by lia; reflexivity|].
        intros j kj vj L J _. apply nth_split_last in J. lia.
      * destruct (Z1 _ _ I) as (_ & i & k' & N1 & N2 & N3 & N4). assert (LI : i < length ks) by (apply nth_error_Some; congruence).
        exists i, k'. split; [rewrite nth_error_app1 by exact LI; exact N1|]. split; [exact N2|]. split; [rewrite nth_error_app1 by lia; exact N3|].
        intros j kj vj L J V. apply nth_split_last in J. apply nth_split_last in V. destruct J as [[J1 J2]|[J1 ->]]; [|exact Q]. destruct V as [[V1 V2]|[V1 _]]; [eapply N4; eassumption|lia].
    + intros i k1 v1 N1 N2. apply nth_split_last in N1. apply nth_split_last in N2.
      destruct N1 as [[L1 N1]|[L1 ->]].
      * destruct N2 as [[_ N2]|[L2 _]]; [|lia]. apply (put_has k v _ k1); [exact Hk|apply H'; eapply nth_error_In; exact N1|exact AP|]. right. exact (Z2 i k1 v1 N1 N2).
      * apply (put_has k v _ k); [exact Hk|exact Hk|exact AP|]. left. apply (proj1 SK). exact Hk.
Qed.
End Zip.
Lemma zip_firstn {A B} (ks : list A) : forall (vs : list B), map fst (combine ks vs) = firstn (length vs) ks /\ map snd (combine ks vs) = firstn (length ks) vs.
Proof. induction ks as [|k ks IH]; intros [|v vs]; cbn; auto. destruct (IH vs) as [-> ->]. auto. Qed.
Lemma nth_firstn {A} (l : list A) : forall n i x, nth_error (firstn n l) i = Some x <-> nth_error l i = Some x /\ i < n.
Proof.
  induction l as [|a l IH]; intros [|n] [|i] x; cbn [firstn nth_error]; try (split; [discriminate|intros [H1 H2]; discriminate || lia]); try (split; [intros H; split; [exact H|lia]|intros [H _]; exact H]).
  rewrite IH. split; intros [H1 H2]; split; auto; lia.
Qed.
Lemma zipped_dict keq ks vs : same_key keq ks -> zipped keq ks vs (dict_of keq (combine ks vs)).
Proof.
  intros SK. assert (SUB : forall x, In x (map fst (combine ks vs)) -> In x ks).
  { intros x H. destruct (zip_firstn ks vs) as [E _]. rewrite E in H. rewrite <- (firstn_skipn (length vs) ks). apply in_or_app. left. exact H. }
  destruct (zip_dict keq ks SK (combine ks vs) SUB) as [(Z1 & Z2 & Z3) _].
  destruct (zip_firstn ks vs) as [EK EV]. rewrite EK, EV in *. split; [|split; [|exact Z3]].
  - intros k v H. destruct (Z1 k v H) as (I & i & k' & N1 & N2 & N3 & N4). split; [auto|]. apply nth_firstn in N1, N3. exists i, k'. split; [apply N1|]. split; [exact N2|]. split; [apply N3|].
    intros j kj vj L J V. apply (N4 j kj vj L); apply nth_firstn; (split; [assumption|]); apply nth_error_Some; congruence.
  - intros i k v N1 N2. apply (Z2 i k v); apply nth_firstn; (split; [assumption|]); apply nth_error_Some; congruence.
Qed.

(** ** File.read *)
Lemma type_kind t k : In (t, k) dict_types -> reader_kind (Some t) = KDict k.
Proof. intros H. repeat (destruct H as [[= <- <-]|H]; [reflexivity|]). destruct H. Qed.
Section Api.
Variables (o : options) (m : nat) (keq : pyval -> pyval -> bool) (s : st) (p : pypath) (cs : list pystr) (at_ : attrs).
Hypotheses (HQ : forall a b, keq (VStr a) (VStr b) = eqb_str a b) (HA : good_refs (o_refs o)) (V : valid_path p) (D : denotes p cs) (NZ : cs <> []) (ST : ~ same_top cs (refs_path o)).
Lemma path_apart : apart o cs. Proof. apply top_apart; auto. apply HA. Qed.
Lemma member_read q name : valid_path q -> denotes q (cs ++ [name]) ->
  file_read o m keq (mkFile true s) q = (mkFile true s, match walk (hp s) 0 (cs ++ [name]) with Some j => read o keq (hp s) m j | None => Err KeyError end).
Proof. intros VQ DQ. apply file_read_eq; auto; [apply HA|destruct cs; discriminate|apply apart_app, path_apart]. Qed.
Lemma group_reads i l : walk (hp s) 0 cs = Some i -> (forall nm j, walk (hp s) 0 (cs ++ [nm]) = Some j -> exists q, valid_path q /\ denotes q (cs ++ [nm])) ->
  readables o m keq s cs l -> members_read o m keq s cs l.
Proof.
  intros W EX R kx x. rewrite (R kx x). split.
  - intros (name & u & j & A1 & A2 & A3 & A4). destruct (EX _ _ A3) as (q & Q1 & Q2). exists name, u, q. split; [exact A1|]. split; [exact A2|]. split; [exact Q1|]. split; [exact Q2|]. rewrite (member_read q name Q1 Q2), A3, A4. reflexivity.
  - intros (name & u & q & A1 & A2 & Q1 & Q2 & A3). rewrite (member_read q name Q1 Q2) in A3. injection A3 as A3. destruct (walk (hp s) 0 (cs ++ [name])) as [j|] eqn:E; [|discriminate]. exists name, u, j. auto.
Qed.
Lemma read_dict k : group_at o s cs at_ -> str_dict at_ k -> distinct_names s cs -> deep_enough o m keq s cs ->
  exists l, file_read o (S m) keq (mkFile true s) p = (mkFile true s, Ok (VDict k l)) /\ members_read o m keq s cs l.
Proof.
  intros ((i & ob & ls & W & E & B & NDL & EA) & GN) SD DN DE.
  assert (L : Hdf5.links (hp s) i = ls) by (unfold Hdf5.links; rewrite E, B; reflexivity).
  assert (HF : forall name j, walk (hp s) 0 (cs ++ [name]) = Some j -> read o keq (hp s) m j <> Err OutOfFuel).
  { intros name j Wj. destruct (GN _ _ Wj) as ((q & Q1 & Q2) & _). specialize (DE name q Q2). rewrite (member_read q name Q1 Q2), Wj in DE. exact DE. }
  destruct (dict_items_read o m keq s cs i ls W L (fun n j H => proj2 (GN n j H)) HF at_ k SD) as (l & EL & R).
  destruct (readables_fun o m keq s cs DN l (fun kx x => proj1 (R kx x))) as [S1 S2].
  exists (dict_of keq l). split.
  - rewrite (file_read_eq o (S m) keq s p cs (proj1 HA) V D NZ path_apart), W. cbn [read]. unfold read_value. rewrite E, EA.
    destruct SD as ((t & T1 & T2) & _ & MC & _). rewrite (says_attr _ _ _ T1). cbn [bindr].
    assert (X : exists c, attr_str at_ (lit "MATLAB_class") = Ok c) by (destruct MC as [MC|[c MC]]; [exists None; unfold attr_str; rewrite MC; reflexivity|exists (Some c); apply says_attr; exact MC]).
    destruct X as (c & ->). cbn [bindr]. rewrite (type_kind t k T2). unfold dict_read. rewrite B, EA, EL. reflexivity.
  - apply (group_reads i _ W (fun n j H => proj1 (GN n j H))). intros kx x. rewrite <- (R kx x). apply dict_of_strs; assumption.
Qed.
Lemma read_struct : group_at o s cs at_ -> plain_struct at_ -> o_structs_as_dicts o = true -> distinct_names s cs -> deep_enough o m keq s cs ->
  (forall name, walk (hp s) 0 (cs ++ [name]) <> None -> exists u, unescape_path name = Ok u) ->
  exists l, file_read o (S m) keq (mkFile true s) p = (mkFile true s, Ok (VDict MDict l)) /\ members_read o m keq s cs l.
Proof.
  intros ((i & ob & ls & W & E & B & NDL & EA) & GN) [PC PN] SD DN DE HU.
  assert (L : Hdf5.links (hp s) i = ls) by (unfold Hdf5.links; rewrite E, B; reflexivity).
  assert (HF : forall name j, walk (hp s) 0 (cs ++ [name]) = Some j -> read o keq (hp s) m j <> Err OutOfFuel).
  { intros name j Wj. destruct (GN _ _ Wj) as ((q & Q1 & Q2) & _). specialize (DE name q Q2). rewrite (member_read q name Q1 Q2), Wj in DE. exact DE. }
  destruct (members_readables o m keq s cs i ls W L (fun n j H => proj2 (GN n j H)) DN HF NDL) as (l & EL & R).
  { intros name H. apply HU. rewrite (step_walk s cs i W). unfold lookup. rewrite L. destruct (assoc name ls) eqn:EA'; [discriminate|]. apply assoc_None in EA'. contradiction. }
  exists (map (fun kv => (VStr (fst kv), snd kv)) l). split.
  - rewrite (file_read_eq o (S m) keq s p cs (proj1 HA) V D NZ path_apart), W. cbn [read]. unfold read_value. rewrite E, EA.
    assert (N1 : forall k, k <> lit "MATLAB_class" -> k <> lit "MATLAB_fields" -> k <> lit "H5PATH" -> attr_str at_ k = Ok None) by (intros k A1 A2 A3; unfold attr_str; rewrite (PN k A1 A2 A3); reflexivity).
    assert (C1 : attr_str at_ (lit "MATLAB_class") = Ok (Some (lit "struct"))) by (unfold attr_str; rewrite PC; reflexivity).
    rewrite (N1 (lit "Python.Type")), C1 by discriminate. cbn [bindr reader_kind]. unfold np_read. rewrite B, EA. unfold read_attrs.
    rewrite C1, !N1 by discriminate. cbn [bindr]. unfold read_group. rewrite EL. cbn [bindr ra_mclass]. rewrite SD. reflexivity.
  - apply (group_reads i _ W (fun n j H => proj1 (GN n j H))). exact R.
Qed.
Lemma read_pairs k kn vn qk qv sk sv ks vs : group_at o s cs at_ -> pairs_dict o at_ k kn vn -> 
  valid_path qk -> denotes qk (cs ++ [escaped kn]) -> file_read o m keq (mkFile true s) qk = (mkFile true s, Ok (VSeq sk ks)) ->
  valid_path qv -> denotes qv (cs ++ [escaped vn]) -> file_read o m keq (mkFile true s) qv = (mkFile true s, Ok (VSeq sv vs)) -> same_key keq ks ->
  exists l, file_read o (S m) keq (mkFile true s) p = (mkFile true s, Ok (VDict k l)) /\ zipped keq ks vs l.
Proof.
  intros ((i & ob & ls & W & E & B & NDL & EA) & GN) ((t & T1 & T2) & SA & MC & KT & KN) VK DK RK VV DV RV SK.
  exists (dict_of keq (combine ks vs)). split; [|apply zipped_dict; exact SK].
  rewrite (file_read_eq o (S m) keq s p cs (proj1 HA) V D NZ path_apart), W. cbn [read]. unfold read_value. rewrite E, EA.
  rewrite (says_attr _ _ _ T1). cbn [bindr].
  assert (X : exists c, attr_str at_ (lit "MATLAB_class") = Ok c) by (destruct MC as [MC|[c MC]]; [exists None; unfold attr_str; rewrite MC; reflexivity|exists (Some c); apply says_attr; exact MC]).
  destruct X as (c & ->). cbn [bindr]. rewrite (type_kind t k T2). unfold dict_read. rewrite B, EA.
  assert (Y : attr_str at_ (lit "Python.dict.key_str_types") = Ok None) by (unfold attr_str; rewrite KT; reflexivity).
  unfold dict_items. rewrite (says_attr _ _ _ SA), Y. cbn [bindr]. cbv zeta.
  replace (eqb_str (lit "keys_values") (lit "keys_values")) with true by reflexivity.
  assert (Z : match attr_strs at_ (lit "Python.dict.keys_values_names") with Some (a :: b :: _) => (a, b) | _ => (o_keys_name o, o_values_name o) end = (kn, vn)).
  { unfold attr_strs. destruct KN as [-> |(-> & -> & ->)]; reflexivity. }
  rewrite Z. rewrite (member_read qk _ VK DK) in RK. rewrite (member_read qv _ VV DV) in RV. injection RK as RK. injection RV as RV.
  rewrite walk_snoc, W in RK, RV. destruct (lookup (hp s) i (escaped kn)) as [a|]; [|discriminate]. destruct (lookup (hp s) i (escaped vn)) as [b|]; [|discriminate].
  rewrite RK. cbn [bindr]. rewrite RV. reflexivity.
Qed.
End Api.
