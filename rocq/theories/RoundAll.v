(** Every storable value that is written is read back. *)
From Verif Require Import Base PathEsc PathEscFacts PosixPath PosixFacts ProcessPathFacts Unicode UnicodeFacts Dec NdArray Value OptionsM StrConv ComplexM Attrs NpDims MColl Hdf5 HeapFacts NpWrite NpRead MarshalW MarshalR FrameFacts WriteFrame ReadFacts RoundSpec RoundNp RoundHeap RoundWrite RoundVal RoundDict RoundStruct.
Local Open Scope nat_scope.

Section All.
Variables (wo ro : options) (keq : pyval -> pyval -> bool) (rnd : nat -> N) (tries : nat).
Hypotheses (HP : paired wo ro) (HI : inj_rnd rnd).
Hypothesis str_keys : forall a b, keq (VStr a) (VStr b) = eqb_str a b.
(** ... also over what is there already, if that is of no consequence *)
Theorem write_over n s g nm v s' r : wf wo s -> okt wo s g nm -> vacant wo s g nm v -> unreserved wo rnd s (name_of (hp s) g ++ [nm]) -> storable wo ro keq v ->
  (forall m, m < n -> rspec wo ro keq rnd (write wo rnd tries m)) ->
  write wo rnd tries n g nm v s = (s', Ok r) -> exists i, r = Some i /\ held ro keq (hp s') (reg wo rnd s (name_of (hp s) g ++ [nm])) i v.
Proof.
  intros W K VC U V REC E. destruct n as [|n]; cbn [write] in E; [discriminate|].
  pose proof (write_keeps wo rnd tries (keys_clean wo ro HP) (values_clean wo ro HP) n) as Hwr. pose proof (REC n (le_n _)) as Hrt.
  inversion V; subst.
  - eapply const_held; eauto; exact (proj1 VC).
  - eapply const_held; eauto; exact (proj1 VC).
  - eapply const_held; eauto; exact (proj1 VC).
  - eapply bool_held; eauto.
  - eapply int_held; eauto.
  - eapply float_held; eauto.
  - eapply complex_held; eauto.
  - eapply str_held; eauto.
  - eapply bytes_held; eauto.
  - eapply bytearray_held; eauto.
  - eapply dtype_held; eauto.
  - eapply value_np_held; eauto.
  - destruct (Bool.bool_dec (stored_as_group wo (a_dt a)) true) as [SG|SG]; [|apply Bool.not_true_is_false in SG].
    + assert (Hcs : cspec wo ro keq rnd (write wo rnd tries n)).
      { destruct n as [|m]; [intros sa ga na aa sb rb _ _ _ _ _ _ _ X; discriminate X|]. exact (column_spec wo ro keq rnd tries HP HI (write wo rnd tries m) (write_keeps wo rnd tries (keys_clean wo ro HP) (values_clean wo ro HP) m) (REC m (le_S _ _ (le_n _)))). }
      eapply (struct_group_held wo ro keq rnd tries HP (write wo rnd tries n)); eauto. apply (proj2 VC). rewrite SG, andb_true_r. eapply struct_is; eassumption.
    + destruct (H3 SG) as [X1 X2]. eapply (struct_compound_held wo ro keq rnd tries HP HI (write wo rnd tries n)); eauto. exact (proj1 VC).
  - eapply seq_held; eauto.
  - cbn [write_value] in E. eapply rec_held; eauto. intros X1 X2 X3 X4. eapply dict_stored; eauto.
  - cbn [write_value] in E. eapply dict_held; eauto. intros X1 X2 X3 X4. eapply dict_stored; eauto.
  - cbn [write_value] in E. eapply dict_held; eauto. intros X1 X2 X3 X4. eapply dict_stored; eauto.
Qed.
Theorem write_back n : rspec wo ro keq rnd (write wo rnd tries n).
Proof.
  induction n as [n IH] using lt_wf_ind. intros s g nm v s' r W K L U V E. eapply write_over; eauto. apply vacant_none. exact L.
Qed.
End All.
