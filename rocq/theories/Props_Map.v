(** Properties C47-C51 (and a part of C25): File as a MutableMapping. *)
From Verif Require Import Base PathEsc PosixPath PosixFacts ProcessPath Unicode Dec NdArray Value OptionsM OptionsSpec Hdf5 HeapFacts NpWrite MarshalW MarshalR FileApi ApiSpec FileFacts RndFacts RoundSpec ProgressSpec ProgressApi OpenM MapM MapSpec MapFacts ThreadSpec ThreadM ThreadTake Props_File Props_Round Props_Thread.
Local Open Scope nat_scope.

(** C25: len(file) is the number of names in the root other than the references group
    "/k"; iterating gives these names in the same order, with or without k somewhere after
    the first of them. *)
Theorem C25_len : forall refs s o k, reachable refs s -> o_refs o = refs -> refs = fslash :: k -> plain_link k -> name_err k = None ->
  exists l, NoDup l /\ snd (file_len o (mkFile true s)) = Ok (length l) /\
  (forall name, In name l <-> name_in k (mkFile true s) name) /\
  (snd (file_iter o (mkFile true s)) = Ok l \/
   exists a b, l = a ++ b /\ a <> [] /\ snd (file_iter o (mkFile true s)) = Ok (a ++ k :: b)).
Proof. exact names_exact. Qed.
Print Assumptions C25_len.

(** C47: f.pop(path) returns what f[path] is and removes that path and nothing else; when
    f[path] is a KeyError it returns the default, if there is one; other errors are raised
    and nothing is removed. *)
Theorem C47_pop : forall refs s o k n keq p cs d, reachable refs s -> o_refs o = refs -> refs = fslash :: k -> plain_link k ->
  valid_path p -> denotes p cs -> cs <> [] ->
  match snd (file_read o n keq (mkFile true s) p) with
  | Ok v => exists f', file_pop o n keq (mkFile true s) p d = (f', Ok v) /\ reachable refs (fl_st f') /\ without refs cs (mkFile true s) f'
  | Err KeyError => file_pop o n keq (mkFile true s) p d = (mkFile true s, match d with Some d => Ok d | None => Err KeyError end)
  | Err e => file_pop o n keq (mkFile true s) p d = (mkFile true s, Err e)
  end.
Proof. exact pop_spec. Qed.
Print Assumptions C47_pop.
(** f.popitem() does the same with some name in the root, never the references group, and
    len(f) becomes one less; KeyError exactly when len(f) is 0 (or reading raises it). *)
Theorem C47_popitem : forall refs s o k n keq, reachable refs s -> o_refs o = refs -> refs = fslash :: k -> plain_link k -> name_err k = None ->
  (snd (file_len o (mkFile true s)) = Ok 0 -> file_popitem o n keq (mkFile true s) = (mkFile true s, Err KeyError)) /\
  (forall m, snd (file_len o (mkFile true s)) = Ok (S m) -> exists name, name_in k (mkFile true s) name /\
    match snd (file_read o n keq (mkFile true s) (PStr name)) with
    | Ok v => exists f', file_popitem o n keq (mkFile true s) = (f', Ok (name, v)) /\ without refs [name] (mkFile true s) f' /\ snd (file_len o f') = Ok m
    | Err e => file_popitem o n keq (mkFile true s) = (mkFile true s, Err e)
    end).
Proof.
  intros refs s o k n keq HR Ho Hk PK NK. destruct (popitem_spec refs s o k n keq HR Ho Hk PK NK) as [(f' & L & -> & E)|(name & m & HN & L & X)]; (split; [intros L0|intros m0 L0]); try congruence.
  exists name. split; [exact HN|]. assert (m0 = m) by congruence. subst m0.
  destruct (snd (file_read o n keq (mkFile true s) (PStr name))); [|exact X]. destruct X as (s' & X1 & X2 & X3 & X4). exists (mkFile true s'). auto.
Qed.
Print Assumptions C47_popitem.
Definition c47_file : file :=
  fst (file_writes default_options N.of_nat 5 20 (mkFile true empty_file)
        [(PStr (lit "/!a"), VSeq QList [VInt 1]); (PStr (lit "/x/b"), VInt 2); (PStr (lit "/y"), VStr (lit "s"))]).
Lemma c47_reachable : reachable (lit "/#refs#") (fl_st c47_file).
Proof.
  eapply R_write; [apply R_new| | |unfold c47_file; apply surjective_pairing].
  - split; [reflexivity|]. split; vm_compute; (split; [discriminate|]; split; [discriminate|]; intros H; repeat (destruct H as [H|H]; [discriminate|]); destruct H).
  - intros p v [[= <- <-]|[[= <- <-]|[[= <- <-]|[]]]] (g & t & P & E); vm_compute in P; injection P as <- <-; discriminate.
Qed.
Lemma hash_refs_plain : plain_link (lit "#refs#").
Proof. split; [discriminate|]. split; [discriminate|]. intros H; vm_compute in H; repeat (destruct H as [H|H]; [discriminate|]); destruct H. Qed.
Example C47_ex : reachable (lit "/#refs#") (fl_st c47_file) /\ plain_link (lit "#refs#") /\ name_err (lit "#refs#") = None /\
  snd (file_iter default_options c47_file) = Ok [lit "!a"; lit "#refs#"; lit "x"; lit "y"] /\ snd (file_len default_options c47_file) = Ok 3 /\
  snd (file_pop default_options 20 key_eq c47_file (PStr (lit "/x/b")) None) = Ok (VInt 2) /\
  snd (file_pop default_options 20 key_eq c47_file (PStr (lit "/z")) (Some VNone)) = Ok VNone /\
  snd (file_popitem default_options 20 key_eq c47_file) = Ok (lit "!a", VSeq QList [VInt 1]) /\
  snd (file_iter default_options (fst (file_popitem default_options 20 key_eq c47_file))) = Ok [lit "x"; lit "y"].
Proof. split; [exact c47_reachable|]. split; [exact hash_refs_plain|]. split; [vm_compute; reflexivity|]. vm_compute. repeat split; reflexivity. Qed.

(** C48: f.clear() ends; either the file is empty then, apart from the references group,
    or it stopped at a name that cannot be read: with the error, but silently when that is
    a KeyError.  What is in the references group stays. *)
Theorem C48_clear_partial : forall refs s o k n keq m fuel, o_refs o = refs -> refs = fslash :: k -> plain_link k -> name_err k = None ->
  reachable refs s -> snd (file_len o (mkFile true s)) = Ok m -> m < fuel ->
  exists s' r, file_clear o n keq fuel (mkFile true s) = (mkFile true s', r) /\ reachable refs s' /\
  (forall q qs, valid_path q -> denotes q qs -> (qs = [] \/ pre [k] qs) -> (snd (file_contains (mkFile true s') q) = Ok true <-> snd (file_contains (mkFile true s) q) = Ok true)) /\
  ((r = Ok tt /\ snd (file_len o (mkFile true s')) = Ok 0) \/
   exists name e, name_in k (mkFile true s) name /\ name_in k (mkFile true s') name /\
     snd (file_read o n keq (mkFile true s) (PStr name)) = Err e /\ snd (file_read o n keq (mkFile true s') (PStr name)) = Err e /\
     r = match e with KeyError => Ok tt | e => Err e end).
Proof. intros refs s o k n keq m fuel Ho Hk PK NK HR HL LT. exact (clear_spec refs o k n keq Ho Hk PK NK m s fuel HR HL LT). Qed.
Print Assumptions C48_clear_partial.
(** So it removes everything when everything can be read. *)
Theorem C48_clear_readable : forall refs s o k n keq m fuel, o_refs o = refs -> refs = fslash :: k -> plain_link k -> name_err k = None ->
  reachable refs s -> snd (file_len o (mkFile true s)) = Ok m -> m < fuel ->
  (forall name, name_in k (mkFile true s) name -> exists v, snd (file_read o n keq (mkFile true s) (PStr name)) = Ok v) ->
  exists s', file_clear o n keq fuel (mkFile true s) = (mkFile true s', Ok tt) /\ snd (file_len o (mkFile true s')) = Ok 0 /\
  forall name, ~ name_in k (mkFile true s') name.
Proof.
  intros refs s o k n keq m fuel Ho Hk PK NK HR HL LT HA. destruct (clear_spec refs o k n keq Ho Hk PK NK m s fuel HR HL LT) as (s' & r & E & R' & _ & X).
  destruct X as [[-> L]|(name & e & X1 & _ & X2 & _)]; [|destruct (HA _ X1) as [v V]; congruence]. exists s'. split; [exact E|]. split; [exact L|].
  intros name HN. destruct (names_exact refs s' o k R' Ho Hk PK NK) as (l & _ & L' & HC & _). apply HC in HN. destruct l; [destruct HN|]. cbn [length] in L'. congruence.
Qed.
Print Assumptions C48_clear_readable.
Example C48_ex : snd (file_len default_options c47_file) = Ok 3 /\
  snd (file_clear default_options 20 key_eq 4 c47_file) = Ok tt /\ snd (file_len default_options (fst (file_clear default_options 20 key_eq 4 c47_file))) = Ok 0.
Proof. vm_compute. auto. Qed.
(** A str that cannot be read (C16), and clear stops in the middle. *)
Theorem C48_clear_refuted :
  let f := fst (file_writes default_options N.of_nat 5 20 (mkFile true empty_file)
             [(PStr (lit "/a"), VInt 1); (PStr (lit "/b"), VStr [256%N]); (PStr (lit "/c"), VInt 2)]) in
  snd (file_len default_options f) = Ok 3 /\
  snd (file_clear default_options 20 key_eq 9 f) = Err UnicodeDecodeError /\
  snd (file_iter default_options (fst (file_clear default_options 20 key_eq 9 f))) = Ok [lit "b"; lit "c"].
Proof. vm_compute. auto. Qed.
Print Assumptions C48_clear_refuted.

(** C49: f.get(path, default) is f[path], and the default when that is not in the file;
    the file stays as it is.  In the references group it raises ValueError. *)
Theorem C49_get : forall o n keq s p cs d, isabs (o_refs o) = true -> valid_path p -> denotes p cs ->
  fst (file_get o n keq (mkFile true s) p d) = mkFile true s /\
  (forall v, snd (file_read o n keq (mkFile true s) p) = Ok v -> snd (file_get o n keq (mkFile true s) p d) = Ok v) /\
  (~ same_top cs (refs_path o) -> snd (file_contains (mkFile true s) p) = Ok false -> snd (file_get o n keq (mkFile true s) p d) = Ok d) /\
  (same_top cs (refs_path o) -> snd (file_get o n keq (mkFile true s) p d) = Err ValueError).
Proof.
  intros o n keq s p cs d A V D. unfold file_get. split; [reflexivity|]. split; [|split].
  - intros v R. change (file_read o n keq (mkFile true s) p) with (mkFile true s, snd (file_read o n keq (mkFile true s) p)). rewrite R. reflexivity.
  - intros NS C. rewrite (read_missing o n keq s p cs A V D NS C). reflexivity.
  - intros S. unfold file_read, file_reads. cbn [snd mapr fst]. rewrite (check_refuses o p cs D S). reflexivity.
Qed.
Print Assumptions C49_get.
(** f.setdefault(path, default) is f[path] and changes nothing when that can be read; when
    there is nothing, the default is written, returned, and can be read. *)
Theorem C49_setdefault_partial : forall refs s o keq rnd tries n p d,
  (forall v, snd (file_read o n keq (mkFile true s) p) = Ok v -> file_setdefault o rnd tries n keq (mkFile true s) p d = (mkFile true s, Ok v)) /\
  (forall cs f r, setting refs s o o keq -> new_place o s p cs -> storable o o keq d -> depth d <= n -> writes_to o cs d ->
    file_setdefault o rnd tries n keq (mkFile true s) p d = (f, r) -> no_repeat rnd (rpos s) (rpos (fl_st f)) -> rpos (fl_st f) < rpos s + tries ->
    r = Ok d /\ exists v', same d v' /\ forall m, depth d <= m -> file_read o m keq f p = (f, Ok v')).
Proof.
  intros refs s o keq rnd tries n p d. unfold file_setdefault. assert (FR : forall r, snd (file_read o n keq (mkFile true s) p) = r -> file_read o n keq (mkFile true s) p = (mkFile true s, r)) by (intros r <-; reflexivity). split.
  - intros v R. rewrite (FR _ R). reflexivity.
  - intros cs f r HS NP ST DE WT E NR TR. pose proof HS as [G1 G2 G3 G4 G5 G6]. pose proof NP as [L1 L2 L3 L4 L5 L6].
    assert (V : valid_path p) by (intros cs' D'; rewrite (denotes_fun _ _ _ D' L1); exact L2).
    assert (Ho : o_refs o = refs) by apply G3.
    assert (R : snd (file_read o n keq (mkFile true s) p) = Err KeyError).
    { rewrite (read_missing o n keq s p cs); [reflexivity|rewrite Ho; apply G1|exact V|exact L1|exact L3|]. rewrite (contains_iff p cs s V L1), L5. reflexivity. }
    rewrite (FR _ R) in E. destruct (file_write o rnd tries n (mkFile true s) d p) as [f2 r2] eqn:W. injection E as <- <-. unfold file_write in W.
    destruct (round_trip refs s o o rnd tries n keq [(p, d)] f2 r2 G1 G2 G3 G4 G5 G6) as [-> X]; try assumption.
    + intros p' v' [[= <- <-]|[]]. exists cs. auto.
    + repeat constructor.
    + split; [reflexivity|]. apply X. left. reflexivity.
Qed.
Print Assumptions C49_setdefault_partial.
Example C49_ex : snd (file_get default_options 20 key_eq c47_file (PStr (lit "/y")) VNone) = Ok (VStr (lit "s")) /\
  snd (file_get default_options 20 key_eq c47_file (PStr (lit "/z")) VNone) = Ok VNone /\
  snd (file_get default_options 20 key_eq c47_file (PStr (lit "/#refs#/b")) VNone) = Err ValueError /\
  snd (file_setdefault default_options N.of_nat 5 20 key_eq c47_file (PStr (lit "/z")) (VInt 7)) = Ok (VInt 7) /\
  snd (file_read default_options 20 key_eq (fst (file_setdefault default_options N.of_nat 5 20 key_eq c47_file (PStr (lit "/z")) (VInt 7))) (PStr (lit "/z"))) = Ok (VInt 7).
Proof. vm_compute. auto. Qed.
(** f.update(items) is f.writes(items) when the file is open and every path can be
    written to. *)
Theorem C49_update_partial : forall o rnd tries n f items, isabs (o_refs o) = true -> fl_open f = true ->
  (forall p v, In (p, v) items -> exists cs, denotes p cs /\ ~ same_top cs (refs_path o)) ->
  file_update o rnd tries n f items = file_writes o rnd tries n f items.
Proof.
  intros o rnd tries n f items A O H. apply update_eq; [exact O|]. apply Forall_forall. intros [p v] Hx. destruct (H p v Hx) as (cs & D & NS).
  exact (check_accepts o p cs A D NS).
Qed.
Print Assumptions C49_update_partial.
(** But it does not check the paths first, as writes does (C23). *)
Theorem C49_update_refuted :
  let items := [(PStr (lit "/z"), VInt 1); (PStr (lit "/#refs#/x"), VInt 2)] in
  let u := file_update default_options N.of_nat 5 20 c47_file items in
  let w := file_writes default_options N.of_nat 5 20 c47_file items in
  snd u = Err ValueError /\ snd w = Err ValueError /\
  snd (file_contains (fst u) (PStr (lit "/z"))) = Ok true /\ snd (file_contains (fst w) (PStr (lit "/z"))) = Ok false.
Proof. vm_compute. auto. Qed.
Print Assumptions C49_update_refuted.

(** C50: items() gives every name in the root other than the references group once, with
    its value, if iterating does not give the references group and every value can be read. *)
Theorem C50_items_partial : forall refs s o k n keq names, reachable refs s -> o_refs o = refs -> refs = fslash :: k -> plain_link k -> name_err k = None ->
  snd (file_iter o (mkFile true s)) = Ok names -> ~ In k names ->
  (forall name, name_in k (mkFile true s) name -> exists v, snd (file_read o n keq (mkFile true s) (PStr name)) = Ok v) ->
  exists l, file_items n keq o (mkFile true s) = Ok l /\ NoDup (map fst l) /\ snd (file_len o (mkFile true s)) = Ok (length l) /\
  forall name v, In (name, v) l <-> name_in k (mkFile true s) name /\ snd (file_read o n keq (mkFile true s) (PStr name)) = Ok v.
Proof.
  intros refs s o k n keq names HR Ho Hk PK NK HI NI HA. destruct (names_exact refs s o k HR Ho Hk PK NK) as (l & ND & HL & HC & HX).
  assert (l = names) as ->.
  { destruct HX as [HX|(a & b & _ & _ & HX)]; rewrite HX in HI; injection HI as <-; [reflexivity|]. destruct NI. apply in_or_app. right. left. reflexivity. }
  unfold file_items. rewrite HI. cbn [bindr].
  assert (Z : forall ns, (forall x, In x ns -> In x names) -> NoDup ns -> exists l, mapr (fun k0 => do v <- snd (file_read o n keq (mkFile true s) (PStr k0)); Ok (k0, v)) ns = Ok l /\
    map fst l = ns /\ forall name v, In (name, v) l <-> In name ns /\ snd (file_read o n keq (mkFile true s) (PStr name)) = Ok v).
  { clear HI NI HX ND HL. induction ns as [|x ns IH]; intros SUB ND; [exists []; split; [reflexivity|]; split; [reflexivity|]; intros; cbn; tauto|].
    inversion ND as [|? ? N1 N2]; clear ND. destruct (IH (fun y Hy => SUB y (or_intror Hy)) N2) as (l' & M & F & X). destruct (HA x) as [v V]; [apply HC, SUB; left; reflexivity|].
    cbn [mapr]. rewrite V. cbn [bindr]. rewrite M. cbn [bindr]. eexists. split; [reflexivity|]. split; [cbn; congruence|]. intros name w. cbn [In]. rewrite X. split.
    - intros [[= <- <-]|[Y1 Y2]]; auto.
    - intros [[<-|Y] Y2]; [left; congruence|right; auto]. }
  destruct (Z names (fun x Hx => Hx) ND) as (l & M & F & X). exists l. split; [exact M|]. split; [congruence|]. split; [rewrite HL; f_equal; rewrite <- F; apply map_length|].
  intros name v. rewrite X, HC. reflexivity.
Qed.
Print Assumptions C50_items_partial.
Example C50_ex : snd (file_iter default_options c25_file) = Ok [lit "x"; lit "y"] /\
  file_items 20 key_eq default_options c25_file = Ok [(lit "x", VNp CNdarray (mkArr (TStruct [(lit "a", (TObj, [])); (lit "b", (TObj, []))]) [1] [XRec [[XPtr (VSeq QList [VInt 1])]; [XPtr (VInt 2)]]])); (lit "y", VStr (lit "s"))].
Proof. vm_compute. auto. Qed.
(** With a name that sorts before "#refs#" it raises, as loadmat does (C34). *)
Theorem C50_items_refuted : snd (file_len default_options c47_file) = Ok 3 /\ file_items 20 key_eq default_options c47_file = Err ValueError.
Proof. vm_compute. auto. Qed.
Print Assumptions C50_items_refuted.

(** C51: unlike the methods of C35, pop is not atomic: it is a read and, later, a del.  Two
    threads may both read the value, and then one of them raises KeyError although it was
    given a default, which no order of two calls of pop gives. *)
Definition pop_calls (t : nat) : list call :=
  match t with 0 | 1 => [KReads [PStr (lit "/y")]; KDel (PStr (lit "/y"))] | _ => [] end.
Theorem C51_pop_refuted :
  (exists H s, exec (file_code default_options N.of_nat 5 20 key_eq) c47_file pop_calls H s /\
    In (ERet 0 0 (Ok (AVals [VStr (lit "s")]))) H /\ In (ERet 1 0 (Ok (AVals [VStr (lit "s")]))) H /\
    In (ERet 0 1 (Ok AUnit)) H /\ In (ERet 1 1 (Err KeyError)) H) /\
  let '(f1, r1) := file_pop default_options 20 key_eq c47_file (PStr (lit "/y")) (Some VNone) in
  r1 = Ok (VStr (lit "s")) /\ snd (file_pop default_options 20 key_eq f1 (PStr (lit "/y")) (Some VNone)) = Ok VNone.
Proof.
  split; [|vm_compute; auto].
  set (ts := [0; 0; 0; 0; 0; 0; 1; 1; 1; 1; 1; 1; 0; 0; 0; 0; 0; 0; 1; 1; 1; 1; 1; 1]).
  pose (run := schedule (file_code default_options N.of_nat 5 20 key_eq) ts [] (mkConfig c47_file None (fun t => Idle 0 (pop_calls t)))).
  assert (X : match run with Some (H, s) => H | None => [] end =
    [EInv 0 0 (KReads [PStr (lit "/y")]); ERet 0 0 (Ok (AVals [VStr (lit "s")])); EInv 1 0 (KReads [PStr (lit "/y")]); ERet 1 0 (Ok (AVals [VStr (lit "s")]));
     EInv 0 1 (KDel (PStr (lit "/y"))); ERet 0 1 (Ok AUnit); EInv 1 1 (KDel (PStr (lit "/y"))); ERet 1 1 (Err KeyError)]) by (vm_compute; reflexivity).
  destruct run as [[H s]|] eqn:E; [|discriminate X]. exists H, s. split; [|rewrite X; cbn [In]; tauto].
  eapply schedule_exec; [apply X_start|exact E].
Qed.
Print Assumptions C51_pop_refuted.
(** Still, whatever the threads do and however they are interleaved, nothing is removed
    twice: two calls of pop or del for the same path succeed only if some thread writes. *)
Theorem C51_once_partial : forall o rnd tries n keq f0 todo H s p t k t' k',
  exec (file_code o rnd tries n keq) f0 todo H s -> (t, k) <> (t', k') ->
  In (EInv t k (KDel p)) H -> In (EInv t' k' (KDel p)) H -> In (ERet t k (Ok AUnit)) H -> In (ERet t' k' (Ok AUnit)) H ->
  exists t2 k2 mdict, In (EInv t2 k2 (KWrites mdict)) H.
Proof. exact taken_once. Qed.
Print Assumptions C51_once_partial.
(** for example: removed, written again and removed again *)
Definition again_calls (t : nat) : list call :=
  match t with 0 => [KDel (PStr (lit "/y")); KWrites [(PStr (lit "/y"), VInt 3)]] | 1 => [KDel (PStr (lit "/y"))] | _ => [] end.
Example C51_ex : exists H s, exec (file_code default_options N.of_nat 5 20 key_eq) c47_file again_calls H s /\
  In (EInv 0 0 (KDel (PStr (lit "/y")))) H /\ In (EInv 1 0 (KDel (PStr (lit "/y")))) H /\ In (ERet 0 0 (Ok AUnit)) H /\ In (ERet 1 0 (Ok AUnit)) H.
Proof.
  set (ts := [1; 0; 0; 0; 0; 0; 0; 0; 0; 0; 0; 0; 0; 1; 1; 1; 1; 1]).
  pose (run := schedule (file_code default_options N.of_nat 5 20 key_eq) ts [] (mkConfig c47_file None (fun t => Idle 0 (again_calls t)))).
  assert (X : match run with Some (H, s) => H | None => [] end =
    [EInv 1 0 (KDel (PStr (lit "/y"))); EInv 0 0 (KDel (PStr (lit "/y"))); ERet 0 0 (Ok AUnit); EInv 0 1 (KWrites [(PStr (lit "/y"), VInt 3)]); ERet 0 1 (Ok AUnit);
     ERet 1 0 (Ok AUnit)]) by (vm_compute; reflexivity).
  destruct run as [[H s]|] eqn:E; [|discriminate X]. exists H, s. split; [|rewrite X; cbn [In]; tauto].
  eapply schedule_exec; [apply X_start|exact E].
Qed.
