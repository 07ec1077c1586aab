(** Properties C21, C22 and C34: opening files, the header, loadmat. *)
From Verif Require Import Base PathEsc PosixPath ProcessPath Dec NdArray Value OptionsM OptionsSpec Hdf5 HeapFacts MarshalW MarshalR FileApi ApiSpec FileFacts OpenM OpenSpec OpenFacts HistoryFacts FilterFacts.
Local Open Scope nat_scope.

(** C21: opening an existing HDF5 file for writing keeps its contents, unless giving
    them up was asked for; the header replaces the first 128 bytes of the userblock if
    the file is for MATLAB and the userblock is large enough, and else nothing at all
    is changed. *)
Theorem C21_kept : forall o t a im e r, valid_now t -> oa_writable a = true -> ~ truncation_asked o a im ->
  open_file o t a (H5 im) = (e, r) ->
  r = Ok (mkFile true (new_session (im_st im))) /\
  exists im', e = H5 im' /\ im_st im' = im_st im /\
    (o_matlab_compatible o = true /\ 128 <= length (im_user im) -> im_user im' = header t ++ skipn 128 (im_user im)) /\
    (o_matlab_compatible o = false \/ length (im_user im) < 128 -> im' = im).
Proof. exact open_kept. Qed.
Print Assumptions C21_kept.
(** Opening for reading changes nothing, whatever is there. *)
Theorem C21_read_only : forall o t a e, oa_writable a = false -> fst (open_file o t a e) = e.
Proof. intros o t a e H. unfold open_file. rewrite H. reflexivity. Qed.
Print Assumptions C21_read_only.
(** A file that is not an HDF5 file, and a directory, are not touched without
    truncate_existing; a directory never is. *)
Theorem C21_foreign : forall o t a e, (exists b, e = Foreign b) /\ oa_truncate a = false \/ e = Directory ->
  open_file o t a e = (e, Err OSError).
Proof.
  intros o t a e [[[b ->] T]| ->]; unfold open_file; [rewrite T|]; destruct (oa_writable a); cbn; rewrite ?orb_true_r; reflexivity.
Qed.
Print Assumptions C21_foreign.
(** When the contents are given up, or there is no file, the file is new: nothing in it,
    and a userblock of 512 bytes. *)
Theorem C21_new : forall o t a e, valid_now t -> oa_writable a = true ->
  e = NoFile \/ (oa_truncate a = true /\ e <> Directory) \/ (exists im, e = H5 im /\ truncation_asked o a im) ->
  exists im', open_file o t a e = (H5 im', Ok (mkFile true (new_session empty_file))) /\ im_st im' = empty_file /\ length (im_user im') = 512 /\
    (o_matlab_compatible o = true -> firstn 128 (im_user im') = header t).
Proof. exact open_new. Qed.
Print Assumptions C21_new.
(** So writing to a file with hdf5storage.write(s) leaves what is read from other paths
    as it was, as long as truncation was not asked for. *)
Theorem C21_write_elsewhere : forall refs im o rnd tries n t t' tr tri mdict e r ro keq m q,
  valid_now t -> good_refs refs -> reachable refs (im_st im) -> usable refs o -> o_refs ro = refs -> valid_path q ->
  ~ truncation_asked o (mkOpen true tr tri) im ->
  (forall p v cs qs, In (p, v) mdict -> denotes p cs -> denotes q qs -> cs <> [] /\ ~ overlap cs qs) ->
  mod_writes rnd tries n t o tr tri mdict (H5 im) = (e, r) ->
  snd (mod_read m keq t' ro q e) = snd (mod_read m keq t' ro q (H5 im)).
Proof.
  intros refs im o rnd tries n t t' tr tri mdict e r ro keq m q V GR HR US RO VP NT NO H. unfold mod_writes in H.
  destruct (open_file o t (mkOpen true tr tri) (H5 im)) as [e1 [f|x]] eqn:E.
  - destruct (open_kept o t (mkOpen true tr tri) im _ _ V eq_refl NT E) as [F (im' & -> & I1 & _)]. injection F as ->.
    destruct (file_writes o rnd tries n (mkFile true (new_session (im_st im))) mdict) as [f' r'] eqn:W. injection H as <- <-.
    unfold mod_read, open_file. cbn [oa_writable negb h5_open stored bindr im_st snd].
    pose proof (writes_elsewhere refs (new_session (im_st im)) o rnd tries n mdict f' r' ro keq m q GR (R_reopen _ _ HR) US RO VP NO W) as [C _].
    transitivity (snd (file_read ro m keq f' q)); [|rewrite C; apply read_heap; reflexivity].
    assert (fl_open f' = true) as O.
    { unfold file_writes in W. destruct (mapr _ mdict) as [l|]; [|injection W as <- _; reflexivity]. cbn [fl_open] in W. destruct (iterM _ _ _) as [s0 r0]. injection W as <- _. reflexivity. }
    destruct f' as [b s']. cbn in O. subst b. apply read_heap. reflexivity.
  - destruct (open_kept o t (mkOpen true tr tri) im _ _ V eq_refl NT E) as [F _]. discriminate.
Qed.
Print Assumptions C21_write_elsewhere.
Definition c21_now : now := mkNow 0 1 1 0 0 0 2022.
Definition c21_writes (o : options) (e : entry) : entry :=
  fst (mod_writes N.of_nat 5 20 c21_now o false true [(PStr (lit "/b"), VInt 2)] e).
Example C21_ex : let im := mkImage (repeat 7%N 130) (fl_st (fst (file_write default_options N.of_nat 5 20 (mkFile true empty_file) (VInt 1) (PStr (lit "/a"))))) in
  valid_now c21_now /\ ~ truncation_asked default_options (mkOpen true false true) im /\
  snd (mod_read 20 key_eq c21_now default_options (PStr (lit "/a")) (c21_writes default_options (H5 im))) = Ok (VInt 1) /\
  snd (mod_read 20 key_eq c21_now default_options (PStr (lit "/b")) (c21_writes default_options (H5 im))) = Ok (VInt 2) /\
  (match c21_writes default_options (H5 im) with H5 im' => skipn 124 (im_user im') | _ => [] end) = [0; 2; 73; 77; 7; 7]%N /\
  snd (mod_read 20 key_eq c21_now default_options (PStr (lit "/a")) (c21_writes default_options (H5 (mkImage [] (im_st im))))) = Err KeyError.
Proof.
  split; [cbv; repeat split; try lia; discriminate|]. split; [intros [H|(_ & _ & H)]; [discriminate|vm_compute in H; lia]|]. vm_compute. auto 6.
Qed.

(** C22: for every time, the header is a readable text with this time that, with spaces,
    fills 116 bytes, eight zero bytes, the version 0x0200 and "IM". *)
Theorem C22_header : forall t, valid_now t -> exists text,
  header t = text ++ [0; 0; 0; 0; 0; 0; 0; 0]%N ++ [0; 2]%N ++ lit "IM" /\
  length text = 116 /\ printable text /\ firstn 19 text = lit "MATLAB 7.3 MAT-file" /\
  exists w n, stamp t w /\ text = lit "MATLAB 7.3 MAT-file, Platform: hdf5storage 0.2, Created on: " ++ w ++ lit " HDF5 schema 1.00 ." ++ repeat 32%N n.
Proof.
  intros t V. pose proof (header_text_len t V) as L. exists (header_text t ++ repeat 32%N (128 - 12 - length (header_text t))).
  split; [unfold header; rewrite <- app_assoc; reflexivity|]. split.
  { rewrite app_length, repeat_length. generalize dependent (length (header_text t)). intros; lia. }
  split; [apply Forall_app; split; [apply header_text_printable; exact V|]|].
  { apply Forall_forall. intros x H. apply repeat_spec in H. subst x. lia. }
  split; [reflexivity|]. destruct (header_stamp t V) as (w & SW & ->). exists w. eexists. split; [exact SW|]. rewrite <- !app_assoc. reflexivity.
Qed.
Print Assumptions C22_header.
Example C22_ex : valid_now (mkNow 3 6 9 12 34 56 2022) /\ header_text (mkNow 3 6 9 12 34 56 2022) = lit "MATLAB 7.3 MAT-file, Platform: hdf5storage 0.2, Created on: Thu Jun 09 12:34:56 2022 HDF5 schema 1.00 .".
Proof. split; [cbv; repeat split; try lia; discriminate|reflexivity]. Qed.
Example C22_ex_new : header_text c21_now = lit "MATLAB 7.3 MAT-file, Platform: hdf5storage 0.2, Created on: Mon Jan 01 00:00:00 2022 HDF5 schema 1.00 .".
Proof. reflexivity. Qed.

(** C34: loadmat with names gives exactly those of the names that can be read, each once,
    and never fails (once the file is open); what was in mdict stays unless read anew. *)
Theorem C34_names : forall n keq t peq d name append ks o f, same_path peq ->
  snd (open_file o t (mkOpen false false false) (d (mat_name append name))) = Ok f ->
  exists l, loadmat n keq t peq d name [] append (Some ks) o = Ok l /\ items_of l /\
  forall k v, In (k, v) l <-> In k ks /\ snd (file_read o n keq f k) = Ok v.
Proof.
  intros n keq t peq d name append ks o f HP HO. unfold loadmat. rewrite HO. cbn [bindr].
  destruct (names_items peq HP (fun k => snd (file_read o n keq f k)) ks [] ltac:(constructor)) as [I1 I2]. cbn zeta in I1, I2.
  eexists. split; [reflexivity|]. destruct (update_items peq HP _ [] ltac:(constructor) I1) as [U1 U2]. split; [exact U1|].
  intros k v. rewrite U2, I2. cbn [In]. tauto.
Qed.
Print Assumptions C34_names.
Theorem C34_mdict : forall n keq t peq d name append ks o old l', same_path peq -> items_of old ->
  (loadmat n keq t peq d name old append ks o = Ok l' ->
   exists l, loadmat n keq t peq d name [] append ks o = Ok l /\ items_of l /\ items_of l' /\
   forall k v, In (k, v) l' <-> In (k, v) l \/ (In (k, v) old /\ ~ In k (map fst l))) /\
  (forall e, loadmat n keq t peq d name old append ks o = Err e <-> loadmat n keq t peq d name [] append ks o = Err e).
Proof. exact load_mdict. Qed.
Print Assumptions C34_mdict.
(** Without names it gives every variable under its unescaped name, if the names iterating
    over the file gives (C25) are escaped names: those hdf5storage makes from parts of
    paths and keys.  Missing: what iterating gives can include the references group. *)
Theorem C34_all_partial : forall n keq t peq d name append o l f names, same_path peq ->
  snd (open_file o t (mkOpen false false false) (d (mat_name append name))) = Ok f ->
  snd (file_iter o f) = Ok names -> NoDup names -> (forall k, In k names -> exists s, escape_path s = Ok k) ->
  loadmat n keq t peq d name [] append None o = Ok l ->
  items_of l /\ forall k v, In (k, v) l <->
    exists s e, k = PStr s /\ escape_path s = Ok e /\ In e names /\ snd (file_read o n keq f (PStr e)) = Ok v.
Proof. exact load_all. Qed.
Print Assumptions C34_all_partial.
Definition c34_disk (mdict : list (pypath * pyval)) : disk * res unit :=
  savemat N.of_nat 5 20 c21_now (fun _ => NoFile) (lit "x") mdict true true (lit "row") (lit "error") false false.
Example C34_ex : same_path path_eq /\
  loadmat 20 key_eq c21_now path_eq (fst (c34_disk [(PStr (lit "a"), VInt 1); (PStr (lit "b"), VStr (lit "s"))])) (lit "x.mat") [] true
    (Some [PStr (lit "b"); PStr (lit "c")]) default_options = Ok [(PStr (lit "b"), VStr (lit "s"))] /\
  loadmat 20 key_eq c21_now path_eq (fst (c34_disk [(PStr (lit "a"), VInt 1); (PStr (lit "b"), VStr (lit "s"))])) (lit "x") [] true
    None default_options = Ok [(PStr (lit "a"), VInt 1); (PStr (lit "b"), VStr (lit "s"))].
Proof.
  split; [intros a b; unfold path_eq; destruct (path_dec a b); split; congruence|]. vm_compute. auto.
Qed.
(** A list in a variable whose name sorts before "#refs#", and loadmat without names
    raises ValueError. *)
Theorem C34_all_refuted : snd (c34_disk [(PStr (lit "!a"), VSeq QList [VInt 1])]) = Ok tt /\
  loadmat 20 key_eq c21_now path_eq (fst (c34_disk [(PStr (lit "!a"), VSeq QList [VInt 1])])) (lit "x") [] true None default_options = Err ValueError.
Proof. vm_compute. auto. Qed.
Print Assumptions C34_all_refuted.
