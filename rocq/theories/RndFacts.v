(** Writing depends only on the random numbers it draws. *)
From Verif Require Import Base PathEsc PosixPath Unicode Dec NdArray Value OptionsM StrConv ComplexM Attrs NpDims Hdf5 NpWrite MarshalW FileApi.
Local Open Scope nat_scope.

(** [m] draws at the positions from [rpos s] on, and depends on nothing else *)
Definition det {A} (m : (nat -> N) -> M A) : Prop := forall rnd s,
  rpos s <= rpos (fst (m rnd s)) /\ forall rnd', (forall p, rpos s <= p < rpos (fst (m rnd s)) -> rnd' p = rnd p) -> m rnd' s = m rnd s.
(** [m] draws nothing *)
Definition still {A} (m : M A) : Prop := forall s, rpos (fst (m s)) = rpos s.

Lemma still_det {A} (m : M A) : still m -> det (fun _ => m).
Proof. intros H rnd s. rewrite H. split; [lia|reflexivity]. Qed.
Lemma det_bind {A B} (m : (nat -> N) -> M A) (k : (nat -> N) -> A -> M B) : det m -> (forall a, det (fun rnd => k rnd a)) ->
  det (fun rnd => bindm (m rnd) (k rnd)).
Proof.
  intros Hm Hk rnd s. unfold bindm. destruct (Hm rnd s) as [M1 M2]. destruct (m rnd s) as [s1 [a|e]] eqn:E; cbn [fst] in *.
  - destruct (Hk a rnd s1) as [K1 K2]. split; [lia|]. intros rnd' H. rewrite M2 by (intros p Hp; apply H; lia). apply K2. intros p Hp. apply H. lia.
  - split; [exact M1|]. intros rnd' H. rewrite M2; auto.
Qed.
Lemma det_if {A} (b : bool) (m k : (nat -> N) -> M A) : det m -> det k -> det (fun rnd => if b then m rnd else k rnd).
Proof. destruct b; auto. Qed.
Lemma still_bind {A B} (m : M A) (k : A -> M B) : still m -> (forall a, still (k a)) -> still (bindm m k).
Proof. intros H1 H2 s. unfold bindm. pose proof (H1 s) as X. destruct (m s) as [s1 [a|e]]; cbn [fst] in *; [rewrite H2|]; exact X. Qed.
Lemma still_ret {A} (x : A) : still (ret x). Proof. intros s. reflexivity. Qed.
Lemma still_fail {A} e : still (@fail A e). Proof. intros s. reflexivity. Qed.
Lemma still_lift {A} (r : res A) : still (lift r). Proof. intros s. reflexivity. Qed.
Lemma still_gets {A} (f : st -> A) : still (gets f). Proof. intros s. reflexivity. Qed.
Lemma still_get g n : still (get_obj g n). Proof. intros s. unfold get_obj. destruct (name_err n); reflexivity. Qed.
Lemma still_alloc g k a b : still (alloc g k a b).
Proof. intros s. unfold alloc. destruct (hp s g) as [o|]; [|reflexivity]. destruct (o_body o); reflexivity. Qed.
Lemma still_create cs : forall g a b, still (create_at g cs a b).
Proof.
  induction cs as [|k cs IH]; intros g a b s; [reflexivity|]. cbn [create_at]. destruct cs as [|k2 cs]; [destruct (lookup (hp s) g k); [reflexivity|apply still_alloc]|].
  destruct (lookup (hp s) g k); [apply IH|]. apply still_bind; [apply still_alloc|intros; apply IH].
Qed.
Lemma still_new g n a b : still (new_link g n a b).
Proof. intros s. unfold new_link. destruct (name_err n); [reflexivity|apply still_create]. Qed.
Lemma still_set_links i ls : still (set_links i ls). Proof. intros s. unfold set_links. destruct (hp s i); reflexivity. Qed.
Lemma still_set_attrs i a : still (set_attrs i a). Proof. intros s. unfold set_attrs. destruct (hp s i); reflexivity. Qed.
Lemma still_unlink_at cs : forall g, still (unlink_at g cs).
Proof.
  induction cs as [|k cs IH]; intros g s; [reflexivity|]. cbn [unlink_at]. destruct cs as [|k2 cs]; destruct (lookup (hp s) g k); try reflexivity; [apply still_set_links|apply IH].
Qed.
Lemma still_unlink g n : still (unlink g n).
Proof. intros s. unfold unlink. destruct (name_err n); [reflexivity|apply still_unlink_at]. Qed.
Lemma still_sync i r d : still (sync_attrs i r d).
Proof.
  intros s. unfold sync_attrs. destruct (set_attributes_all _ _ _) as [a e]. pose proof (still_set_attrs i a s) as X. destruct (set_attrs i a s) as [s1 [u|x]]; [destruct e|]; exact X.
Qed.
Lemma still_iter {A} (f : A -> M unit) l : (forall x, still (f x)) -> still (iterM f l).
Proof. intros H. induction l as [|x l IH]; [apply still_ret|]. cbn [iterM]. apply still_bind; auto. Qed.
Lemma det_iter {A} (f : (nat -> N) -> A -> M unit) l : (forall x, det (fun rnd => f rnd x)) -> det (fun rnd => iterM (f rnd) l).
Proof. intros H. induction l as [|x l IH]; cbn [iterM]; [exact (still_det _ (still_ret tt))|]. apply (det_bind (fun rnd => f rnd x) (fun rnd _ => iterM (f rnd) l)); auto. Qed.
Lemma det_map {A B} (f : (nat -> N) -> A -> M B) l : (forall x, det (fun rnd => f rnd x)) -> det (fun rnd => mapM (f rnd) l).
Proof.
  intros H. induction l as [|x l IH]; cbn [mapM]; [exact (still_det _ (still_ret []))|].
  apply (det_bind (fun rnd => f rnd x) (fun rnd y => bindm (mapM (f rnd) l) (fun ys => ret (y :: ys)))); auto. intros y.
  apply (det_bind (fun rnd => mapM (f rnd) l) (fun rnd ys => ret (y :: ys))); auto. intros ys. apply still_det, still_ret.
Qed.
Ltac still1 := first [apply still_ret|apply still_fail|apply still_lift|apply still_gets|apply still_get|apply still_new|apply still_unlink|apply still_sync|apply still_set_attrs|apply still_unlink_at].

Section Det.
Variables (o : options) (tries : nat).
Lemma det_draw n g : det (fun rnd => draw rnd n g).
Proof.
  induction n as [|n IH]; intros rnd s; cbn [draw]; [split; [cbn; lia|reflexivity]|].
  set (s1 := mkSt (hp s) (nxt s) (rgrp s) (rcreated s) (canon s) (counter s) (S (rpos s))).
  destruct (lookup (hp s) g (show_hex16 (rnd (rpos s)))) eqn:L.
  - destruct (IH rnd s1) as [I1 I2]. change (rpos s1) with (S (rpos s)) in *. split; [lia|]. intros rnd' H. rewrite (H (rpos s)) by lia. rewrite L. apply I2. intros p Hp. apply H. lia.
  - change (rpos (fst (s1, Ok (show_hex16 (rnd (rpos s)))))) with (S (rpos s)). split; [lia|]. intros rnd' H. rewrite (H (rpos s)) by lia. rewrite L. reflexivity.
Qed.
Lemma det_next g : det (fun rnd => next_name rnd tries g).
Proof.
  intros rnd s. unfold next_name. destruct (rcreated s); [split; [cbn; lia|reflexivity]|]. apply det_draw.
Qed.
Lemma still_session f : (forall s, rpos (f s) = rpos s) -> still (set_session f). Proof. intros H s. apply H. Qed.
Lemma still_refs : still (ensure_refs o).
Proof.
  assert (X : forall g b, still (bindm (set_session (with_rgrp g b)) (fun _ => ret g))) by (intros; apply still_bind; [apply still_session; reflexivity|intros; apply still_ret]).
  assert (Y : forall b, still (bindm (create_group 0 (o_refs o)) (fun g => bindm (set_session (with_rgrp g b)) (fun _ => ret g)))) by (intros; apply still_bind; [apply still_new|intros; apply X]).
  intros s. unfold ensure_refs. destruct (rgrp s); [reflexivity|]. revert s.
  match goal with |- forall s, rpos (fst (?m s)) = rpos s => change (still m) end.
  apply still_bind; [apply still_get|]. intros [g|]; [|apply Y]. apply still_bind; [apply still_gets|]. intros [|]; [apply X|]. apply still_bind; [apply still_unlink|]. intros _. apply Y.
Qed.
Lemma still_new_canon g : still (new_canon g).
Proof. apply still_bind; [apply still_new|]. intros c. apply still_bind; [apply still_session; reflexivity|]. intros. apply still_ret. Qed.
Lemma still_canon g : still (ensure_canon g).
Proof.
  intros s. unfold ensure_canon. destruct (canon s); [reflexivity|]. destruct (lookup _ _ _); [|apply still_new_canon]. destruct (is_canonical _ _); [reflexivity|].
  apply still_bind; [apply still_unlink|]. intros. apply still_new_canon.
Qed.
Lemma still_mark i p : still (mark_path o i p).
Proof.
  unfold mark_path. destruct (o_matlab_compatible o); [apply still_bind; [apply still_lift|]; intros b s; apply still_set_attrs|]. intros s. apply still_set_attrs.
Qed.
Lemma still_prune i keep : still (prune i keep).
Proof. intros s. unfold prune. apply still_iter. intros. apply still_unlink_at. Qed.
Lemma still_open g nm : still (open_group g nm).
Proof.
  unfold open_group. apply still_bind; [apply still_get|]. intros [i|]; [|apply still_new]. apply still_bind; [apply still_gets|]. intros [|]; [apply still_ret|].
  apply still_bind; [apply still_unlink|]. intros. apply still_new.
Qed.
Lemma still_create_dataset g nm a f : still (create_dataset g nm a f).
Proof. intros s. unfold create_dataset. destruct (h5_able _); [apply still_new|reflexivity]. Qed.
Lemma still_put g nm a : still (put_dataset o g nm a).
Proof.
  assert (R : forall f, still (replace_dataset g nm a f)) by (intros; apply still_bind; [apply still_unlink|intros; apply still_create_dataset]).
  assert (V : forall i, still (overwrite i a)) by (intros i s; unfold overwrite; destruct (hp s i) as [ob|]; [|reflexivity]; destruct (o_body ob); reflexivity).
  unfold put_dataset. apply still_bind.
  - intros s. unfold catch. pose proof (still_get g nm s) as X. destruct (get_obj g nm s) as [s1 [x|e]]; exact X.
  - intros [i|]; [|apply still_create_dataset]. apply still_bind; [apply still_gets|]. intros b. destruct (same_dataset _ _ _); [|apply R]. destruct (same_opts _ _) as [[|]|]; [apply V|apply R|apply still_fail].
Qed.

Section Rec.
Variable wr : (nat -> N) -> nat -> pystr -> pyval -> M (option nat).
Hypothesis Hw : forall g nm v, det (fun rnd => wr rnd g nm v).
Lemma det_element g c v : det (fun rnd => write_element o rnd tries (wr rnd) g c v).
Proof.
  unfold write_element. apply (det_bind (fun rnd => next_name rnd tries g) (fun rnd nm => bindm (wr rnd g nm v) (fun r => match r with None => ret c | Some i => bindm (gets (fun s => name_text (name_of (hp s) g))) (fun p => bindm (mark_path o i p) (fun _ => ret i)) end))).
  - apply det_next.
  - intros nm. apply (det_bind (fun rnd => wr rnd g nm v) (fun rnd r => match r with None => ret c | Some i => bindm (gets (fun s => name_text (name_of (hp s) g))) (fun p => bindm (mark_path o i p) (fun _ => ret i)) end)); [apply Hw|].
    intros r. apply still_det. destruct r; [|apply still_ret]. apply still_bind; [apply still_gets|]. intros. apply still_bind; [apply still_mark|]. intros. apply still_ret.
Qed.
Lemma det_object_array a : det (fun rnd => write_object_array o rnd tries (wr rnd) a).
Proof.
  unfold write_object_array. apply (det_bind (fun rnd => ensure_refs o) (fun rnd g => bindm (ensure_canon g) (fun c => bindm (mapM (write_element o rnd tries (wr rnd) g c) (map elem_val (a_data a))) (fun refs => ret (mkArr TRef (a_shape a) (map XPtr refs)))))).
  - apply still_det, still_refs.
  - intros g. apply (det_bind (fun rnd => ensure_canon g) (fun rnd c => bindm (mapM (write_element o rnd tries (wr rnd) g c) (map elem_val (a_data a))) (fun refs => ret (mkArr TRef (a_shape a) (map XPtr refs))))).
    + apply still_det, still_canon.
    + intros c. apply (det_bind (fun rnd => mapM (write_element o rnd tries (wr rnd) g c) (map elem_val (a_data a))) (fun rnd refs => ret (mkArr TRef (a_shape a) (map XPtr refs)))).
      * apply det_map. intros. apply det_element.
      * intros. apply still_det, still_ret.
Qed.
Lemma det_field i b nf : det (fun rnd => write_field o (wr rnd) i b nf).
Proof.
  destruct nf as [n [name f]]. unfold write_field.
  cbv zeta.
  match goal with |- det (fun rnd => bindm (wr rnd ?g ?nm ?v) ?k) => apply (det_bind (fun rnd => wr rnd g nm v) (fun _ => k)); [apply Hw|] end.
  intros r. apply still_det. destruct r; [|apply still_ret]. apply still_bind; [apply still_gets|]. intros. apply still_sync.
Qed.
Lemma det_struct g nm b : det (fun rnd => write_struct o (wr rnd) g nm b).
Proof.
  unfold write_struct. cbv zeta.
  match goal with |- det (fun rnd => bindm ?m (fun i => bindm (@?p rnd i) (fun _ => bindm (@?q rnd i) (fun _ => ret i)))) =>
    apply (det_bind (fun _ => m) (fun rnd i => bindm (p rnd i) (fun _ => bindm (q rnd i) (fun _ => ret i)))) end; [apply still_det, still_open|]. intros i.
  match goal with |- det (fun rnd => bindm ?p (fun _ => bindm (@?q rnd) (fun _ => ret i))) =>
    apply (det_bind (fun _ => p) (fun rnd _ => bindm (q rnd) (fun _ => ret i))) end; [apply still_det; destruct (o_delete_unused o); [apply still_prune|apply still_ret]|]. intros _.
  match goal with |- det (fun rnd => bindm (@?q rnd) (fun _ => ret i)) => apply (det_bind q (fun _ _ => ret i)) end; [|intros; apply still_det, still_ret].
  apply (det_iter (fun rnd => write_field o (wr rnd) i b)). intros. apply det_field.
Qed.
Lemma det_np g nm v ts : det (fun rnd => np_write o rnd tries (wr rnd) g nm v ts).
Proof.
  destruct v as [c a]. unfold np_write. destruct (_ && _); [apply still_det, still_fail|]. destruct (_ && _); [apply still_det, still_ret|].
  match goal with |- det (fun rnd => bindm ?m (@?k rnd)) => apply (det_bind (fun _ => m) k) end; [apply still_det, still_lift|]. intros b.
  destruct (as_group _ _ _).
  - match goal with |- det (fun rnd => bindm (@?m rnd) ?k) => apply (det_bind m (fun _ => k)) end; [apply det_struct|]. intros i. apply still_det. apply still_bind; [apply still_sync|]. intros; apply still_ret.
  - match goal with |- det (fun rnd => bindm (@?m rnd) ?k) => apply (det_bind m (fun _ => k)) end.
    + destruct (a_dt b); try (apply still_det, still_ret). apply det_object_array.
    + intros d. apply still_det. apply still_bind; [apply still_put|]. intros i. apply still_bind; [apply still_gets|]. intros t. apply still_bind; [apply still_sync|]. intros; apply still_ret.
Qed.
Lemma det_item i p kv : det (fun rnd => write_item o (wr rnd) i p kv).
Proof.
  unfold write_item. match goal with |- det (fun rnd => bindm (@?m rnd) ?k) => apply (det_bind m (fun _ => k)) end; [apply Hw|]. intros [j|]; apply still_det; [apply still_mark|apply still_ret].
Qed.
Lemma det_dict g nm items ts plain : det (fun rnd => dict_write o (wr rnd) g nm items ts plain).
Proof.
  unfold dict_write. cbv zeta.
  match goal with |- det (fun rnd => bindm ?m (@?k rnd)) => apply (det_bind (fun _ => m) k) end; [apply still_det, still_open|]. intros i. cbv beta.
  match goal with |- det (fun rnd => bindm ?m (@?k rnd)) => apply (det_bind (fun _ => m) k) end; [apply still_det, still_sync|]. intros _. cbv beta.
  match goal with |- det (fun rnd => bindm ?m (@?k rnd)) => apply (det_bind (fun _ => m) k) end; [apply still_det; destruct (_ || _); [apply still_prune|apply still_ret]|]. intros _. cbv beta.
  match goal with |- det (fun rnd => bindm ?m (@?k rnd)) => apply (det_bind (fun _ => m) k) end; [apply still_det, still_gets|]. intros p. cbv beta.
  match goal with |- det (fun rnd => bindm ?m (@?k rnd)) => apply (det_bind (fun _ => m) k) end.
  { apply still_det. destruct (o_matlab_compatible o); [|apply still_ret]. apply still_bind; [apply still_lift|]. intros; apply still_ret. }
  intros _. cbv beta. match goal with |- det (fun rnd => bindm (@?m rnd) ?k) => apply (det_bind m (fun _ => k)) end; [|intros; apply still_det, still_ret].
  apply (det_iter (fun rnd => write_item o (wr rnd) i p)). intros. apply det_item.
Qed.
Lemma det_value g nm v : det (fun rnd => write_value o rnd tries (wr rnd) g nm v).
Proof.
  unfold write_value. destruct v; try apply det_np; try apply det_dict.
  - match goal with |- det (fun rnd => bindm ?m (@?k rnd)) => apply (det_bind (fun _ => m) k) end; [apply still_det, still_lift|]. intros b. apply det_np.
  - apply still_det, still_fail.
Qed.
End Rec.
Lemma det_write n : forall g nm v, det (fun rnd => write o rnd tries n g nm v).
Proof. induction n as [|n IH]; intros g nm v; cbn [write]; [apply still_det, still_fail|]. apply (det_value (fun rnd => write o rnd tries n)). exact IH. Qed.
Lemma still_require g : still (require_group g).
Proof.
  unfold require_group. apply still_bind; [apply still_get|]. intros [i|]; [|apply still_new]. intros s. destruct (is_group _ _); reflexivity.
Qed.
Lemma det_write_at n g t v : det (fun rnd => write_at o rnd tries n g t v).
Proof.
  unfold write_at. match goal with |- det (fun rnd => bindm ?m (@?k rnd)) => apply (det_bind (fun _ => m) k) end; [apply still_det, still_require|]. intros i. cbv beta.
  match goal with |- det (fun rnd => bindm (@?m rnd) ?k) => apply (det_bind m (fun _ => k)) end; [apply det_write|]. intros; apply still_det, still_ret.
Qed.
End Det.

(** ** different random numbers give different names *)
Lemma text_hex_zeros k d : exists d', repeat 48%N k ++ text_hex d = text_hex d' /\ N.of_hex_uint d' = N.of_hex_uint d.
Proof.
  induction k as [|k (d' & E1 & E2)]; [exists d; auto|]. exists (Hexadecimal.D0 d'). cbn [repeat app text_hex]. rewrite E1. split; [reflexivity|exact E2].
Qed.
Lemma show_hex16_inj n m : show_hex16 n = show_hex16 m -> n = m.
Proof.
  unfold show_hex16, show_hex. cbv zeta.
  destruct (text_hex_zeros (16 - length (text_hex (N.to_hex_uint n))) (N.to_hex_uint n)) as (d & -> & E).
  destruct (text_hex_zeros (16 - length (text_hex (N.to_hex_uint m))) (N.to_hex_uint m)) as (d' & -> & E').
  intros H. apply text_hex_inj in H. subst d'. rewrite HexadecimalN.Unsigned.of_to in E, E'. congruence.
Qed.

(** the random numbers at the positions from [a] up to [b] are different *)
Definition no_repeat (rnd : nat -> N) (a b : nat) : Prop := forall i j, a <= i -> i < j -> j < b -> rnd i <> rnd j.
(** others that never repeat, and are the same there *)
Definition beyond (rnd : nat -> N) (b : nat) : N := (1 + fold_right N.max 0 (map rnd (seq 0 b)))%N.
Definition extend (rnd : nat -> N) (a b : nat) (p : nat) : N :=
  if (a <=? p) && (p <? b) then rnd p else (beyond rnd b + N.of_nat p)%N.
Lemma below_beyond rnd b p : p < b -> (rnd p < beyond rnd b)%N.
Proof.
  intros H. unfold beyond. assert (In (rnd p) (map rnd (seq 0 b))) by (apply in_map, in_seq; lia).
  assert (X : forall l x, In x l -> (x <= fold_right N.max 0 l)%N); [|specialize (X _ _ H0); lia].
  induction l as [|y l IH]; intros x; cbn; [intros []|]. intros [->|I]; [lia|]. specialize (IH x I). lia.
Qed.
Lemma extend_in rnd a b p : a <= p < b -> extend rnd a b p = rnd p.
Proof. intros H. unfold extend. destruct (Nat.leb_spec a p), (Nat.ltb_spec p b); cbn; try lia; reflexivity. Qed.
Lemma extend_inj rnd a b : no_repeat rnd a b -> forall p q, show_hex16 (extend rnd a b p) = show_hex16 (extend rnd a b q) -> p = q.
Proof.
  intros NR p q E. apply show_hex16_inj in E. unfold extend in E.
  destruct (Nat.leb_spec a p), (Nat.ltb_spec p b), (Nat.leb_spec a q), (Nat.ltb_spec q b); cbn [andb] in E;
  try (pose proof (below_beyond rnd b p ltac:(lia))); try (pose proof (below_beyond rnd b q ltac:(lia))); try lia.
  destruct (Nat.lt_total p q) as [X|[X|X]]; [exfalso; exact (NR p q ltac:(lia) X ltac:(lia) E)|exact X|exfalso; exact (NR q p ltac:(lia) X ltac:(lia) (eq_sym E))].
Qed.
