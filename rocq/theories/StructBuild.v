(** A structured array put together from the members of a Group: what does not depend
    on where the members come from. *)
From Verif Require Import Base PathEsc Unicode Dec NdArray Value OptionsM Attrs NpDims MColl Hdf5 HeapFacts NpWrite NpRead MarshalW MarshalR.
From Coq Require Import Permutation.
Local Open Scope nat_scope.
Local Arguments prod : simpl never.

Lemma dt_eqb_refl : forall a, dt_eqb a a = true.
Proof.
  fix REC 1. destruct a as [|w|w|w|w|n|n| | |fs]; cbn; try reflexivity; try apply Nat.eqb_refl.
  induction fs as [|[k [d sh]] fs IH]; [reflexivity|]. rewrite eqb_str_refl, REC, IH. destruct (list_eq_dec Nat.eq_dec sh sh); [reflexivity|congruence].
Qed.

Definition obj_arr (sh : list nat) (vs : list pyval) : arr pyval := mkArr TObj sh (map XPtr vs).
Lemma obj_items sh vs : map (item_of (a_dt (obj_arr sh vs))) (a_data (obj_arr sh vs)) = vs.
Proof. cbn. rewrite map_map. cbn. apply map_id. Qed.
Lemma nonzero_axes sh : prod sh <> 0 -> existsb (Nat.eqb 0) sh = false.
Proof.
  intros H. destruct (existsb (Nat.eqb 0) sh) eqn:E; [|reflexivity]. exfalso. apply H. apply existsb_exists in E. destruct E as (x & Hx & E). apply Nat.eqb_eq in E. subst x.
  clear H. induction sh as [|y sh IH]; [destruct Hx|]. rewrite prod_cons. destruct Hx as [->|Hx]; [reflexivity|]. rewrite IH by exact Hx. lia.
Qed.
Lemma nodup_str_ok l : NoDup l -> nodup_str l = true.
Proof.
  induction 1 as [|x l H _ IH]; [reflexivity|]. change (nodup_str (x :: l)) with (negb (mem_str x l) && nodup_str l). rewrite IH, andb_true_r.
  destruct (mem_str x l) eqn:E; [apply mem_str_In in E; contradiction|reflexivity].
Qed.
Lemma build_ok sh members (cs : list (pystr * list pyval)) : cs <> [] -> NoDup (map fst cs) -> prod sh <> 0 ->
  Forall (fun kv => assoc (fst kv) members = Some (obj_arr sh (snd kv)) /\ length (snd kv) = prod sh) cs ->
  build_struct (map fst cs) members =
    Ok (mkArr (TStruct (map (fun kv => (fst kv, field_type (obj_arr sh (snd kv)))) cs)) sh
          (map (fun n => XRec (map (fun kv => cell_elems (field_type (obj_arr sh (snd kv))) (nth n (snd kv) VNone)) cs)) (seq 0 (prod sh)))).
Proof.
  intros NE ND NZ HC. unfold build_struct.
  assert (M : mapr (fun k => match assoc k members with Some v => Ok (k, v) | None => Err KeyError end) (map fst cs) = Ok (map (fun kv => (fst kv, obj_arr sh (snd kv))) cs)).
  { clear - HC. induction HC as [|kv cs (A & _) _ IH]; [reflexivity|]. cbn [map mapr]. rewrite A. cbn [bindr]. rewrite IH. reflexivity. }
  rewrite M. cbn [bindr]. rewrite (nodup_str_ok _ ND). cbn [negb].
  rewrite <- map_rev. destruct (rev cs) as [|lv r] eqn:ER; [exfalso; apply NE; rewrite <- (rev_involutive cs), ER; reflexivity|]. cbn [map a_shape obj_arr].
  rewrite (nonzero_axes sh NZ). rewrite map_map. cbn [fst snd].
  match goal with |- context [forallb ?f ?l] => replace (forallb f l) with true end.
  2:{ symmetry. apply forallb_forall. intros x Hx. apply in_map_iff in Hx. destruct Hx as (kv & <- & _). cbn [fst snd a_shape obj_arr]. destruct (eqb_shape_spec sh sh); [reflexivity|congruence]. }
  do 2 f_equal. apply map_ext_in. intros n Hn. apply in_seq in Hn. f_equal. rewrite map_map. apply map_ext_in. intros kv Hkv. cbn [fst snd a_shape obj_arr a_data a_dt].
  rewrite (nonzero_axes sh NZ). rewrite Forall_forall in HC. destruct (HC kv Hkv) as (_ & L). rewrite nth_error_map.
  rewrite (nth_error_nth' (snd kv) VNone) by lia. cbn [option_map item_of]. reflexivity.
Qed.
Lemma F2_seq {A B} (R : A -> B -> Prop) (f : nat -> A) (l : list B) (d : B) : forall k, (forall n, n < length l -> R (f (k + n)) (nth n l d)) -> Forall2 R (map f (seq k (length l))) l.
Proof.
  induction l as [|b l IH]; intros k H; [constructor|]. cbn [length seq map]. constructor.
  - specialize (H 0). cbn in H. rewrite Nat.add_0_r in H. apply H. lia.
  - apply IH. intros n Hn. specialize (H (S n)). rewrite Nat.add_succ_r in H. apply H. cbn. lia.
Qed.
Lemma dput_new {B} k (v : B) l : ~ In k (map fst l) -> dput k v l = l ++ [(k, v)].
Proof.
  induction l as [|[k' v'] l IH]; intros H; [reflexivity|]. cbn [dput map fst app In] in *. destruct (eqb_str k k') eqn:E.
  - apply eqb_str_eq in E. subst k'. tauto.
  - rewrite IH by tauto. reflexivity.
Qed.
Lemma fold_dput {B} (l : list (pystr * B)) : forall acc, NoDup (map fst acc ++ map fst l) ->
  fold_left (fun d m => match m with Some (k, v) => dput k v d | None => d end) (map (fun x => Some x) l) acc = acc ++ l.
Proof.
  induction l as [|[k v] l IH]; intros acc H; cbn [map fold_left]; [rewrite app_nil_r; reflexivity|]. cbn [map fst] in H.
  pose proof (NoDup_remove_2 _ _ _ H) as N. rewrite dput_new by (intros X; apply N, in_or_app; left; exact X).
  rewrite IH; [rewrite <- app_assoc; reflexivity|]. rewrite map_app, <- app_assoc. exact H.
Qed.
Lemma assoc_Some {B} k (l : list (pystr * B)) : In k (map fst l) -> exists v, assoc k l = Some v.
Proof. intros H. destruct (assoc k l) as [v|] eqn:E; [eauto|]. apply assoc_None in E. contradiction. Qed.
Lemma In_assoc {B} k (v : B) l : NoDup (map fst l) -> In (k, v) l -> assoc k l = Some v.
Proof.
  induction l as [|[k' v'] l IH]; intros N H; [destruct H|]. cbn [map fst] in N. inversion N as [|? ? N1 N2]; subst. cbn [assoc]. destruct H as [[= -> ->]|H].
  - rewrite eqb_str_refl. reflexivity.
  - destruct (eqb_str k k') eqn:E; [|apply IH; assumption]. apply eqb_str_eq in E. subst k'. exfalso. apply N1. apply in_map_iff. exists (k, v). auto.
Qed.
Lemma nodup_pairs {A B} (l : list (A * B)) : NoDup (map fst l) -> NoDup l.
Proof. apply NoDup_map_inv. Qed.
