(** A call of writes that is cut short: what it leaves unchanged. *)
From Verif Require Import Base PathEsc PosixPath PosixFacts ProcessPath ProcessPathFacts Unicode MColl Dec NdArray Value OptionsM StrConv Attrs Hdf5 HeapFacts NpWrite NpRead MarshalW MarshalR FrameFacts WriteFrame ReadFacts FileApi ApiFacts CutM CutFrame.
Local Open Scope nat_scope.

Section Cut.
Variables (o : options) (rnd : nat -> N) (tries n : nat).
Hypotheses (Hkn : o_keys_name o = [] \/ clean (o_keys_name o)) (Hvn : o_values_name o = [] \/ clean (o_values_name o)).
Lemma write_at_keepsT s g t v : wf o s -> clean t -> apart o (path_comps g ++ [t]) ->
  keepsT o rnd (onway (path_comps g ++ [t])) s (write_atT o rnd tries n g t v s) (fun _ _ => True).
Proof.
  intros W C A. destruct (apart_ra _ _ A) as [A1 A2]. unfold write_atT.
  eapply keepsT_bind; [exact W|apply keepsT_op, require_keeps; [exact W| |]|].
  - intros P. apply A2. eapply pre_trans; [exact P|apply pre_app].
  - intros p P. right. eapply pre_trans; [exact P|apply pre_app].
  - intros i s1 W1 F1 (L1 & G1 & N1). eapply keepsT_bind with (P := fun _ _ => True); [exact W1| |intros; apply keepsT_ret; auto].
    assert (OK : okt o s1 i t).
    { constructor; auto; rewrite N1; auto. intros k P. exfalso. apply A2. eapply pre_trans; [|exact P]. apply pre_app. }
    eapply keepsT_imp; [eapply keepsT_sub; [apply (write_keepsT o rnd tries Hkn Hvn n s1 i t v W1 OK)|]|auto].
    rewrite N1. intros p P. left. exact P.
Qed.
Lemma writes_keepsT (R : list pystr -> Prop) s l : wf o s ->
  (forall x, In x l -> clean (snd (fst x)) /\ apart o (path_comps (fst (fst x)) ++ [snd (fst x)]) /\
       forall p, onway (path_comps (fst (fst x)) ++ [snd (fst x)]) p -> R p) ->
  keepsT o rnd R s (iterT (fun x => write_atT o rnd tries n (fst (fst x)) (snd (fst x)) (snd x)) l s) (fun _ _ => True).
Proof.
  intros W H. apply (iterT_keeps o rnd R (fun _ => True)); auto. intros s1 x Hx W1 _. destruct (H x Hx) as (H1 & H2 & H3).
  eapply keepsT_sub; [apply write_at_keepsT; assumption|exact H3].
Qed.
End Cut.
(** the same call *)
Lemma file_writes_same o rnd tries n f mdict : snd (file_writesT o rnd tries n f mdict) = file_writes o rnd tries n f mdict.
Proof.
  unfold file_writesT, file_writes. destruct (mapr _ mdict) as [l|e]; [|reflexivity]. destruct (fl_open f); [|reflexivity].
  cbv zeta. cbn [snd]. rewrite (iterT_snd _ (fun x => write_at o rnd tries n (fst (fst x)) (snd (fst x)) (snd x))) by (intros; apply write_at_same).
  destruct (iterM _ _ _) as [s r]. reflexivity.
Qed.
