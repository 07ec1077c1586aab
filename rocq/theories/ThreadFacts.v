(** Calls of threads that share a File are atomic. *)
From Verif Require Import Base PathEsc PosixPath ProcessPath NdArray Value OptionsM Hdf5 MarshalW MarshalR FileApi ApiSpec ThreadSpec ThreadM.
Local Open Scope nat_scope.

Lemma before_snoc {A} (l : list A) x a b : before l a b -> before (l ++ [x]) a b.
Proof. intros (l1 & l2 & l3 & ->). exists l1, l2, (l3 ++ [x]). rewrite <- !app_assoc. cbn. rewrite <- app_assoc. reflexivity. Qed.
Lemma before_last {A} (l : list A) a b : In a l -> before (l ++ [b]) a b.
Proof. intros H. apply in_split in H. destruct H as (l1 & l2 & ->). exists l1, l2, []. rewrite <- app_assoc. reflexivity. Qed.
Lemma snoc_cases {A} (l : list A) : l = [] \/ exists m x, l = m ++ [x].
Proof. induction l as [|x l _] using rev_ind; eauto. Qed.
Lemma before_inv {A} (l : list A) x a b : before (l ++ [x]) a b -> before l a b \/ In a l /\ b = x.
Proof.
  intros (l1 & l2 & l3 & E). destruct (snoc_cases l3) as [->|(m & y & ->)].
  - change (l1 ++ a :: l2 ++ [b]) with (l1 ++ (a :: l2) ++ [b]) in E. rewrite app_assoc in E. apply app_inj_tail in E. destruct E as [-> ->]. right. split; [|reflexivity]. apply in_app_iff. right. left. reflexivity.
  - left. replace (l1 ++ a :: l2 ++ b :: m ++ [y]) with ((l1 ++ a :: l2 ++ b :: m) ++ [y]) in E by (rewrite <- !app_assoc; cbn; rewrite <- app_assoc; reflexivity).
    apply app_inj_tail in E. destruct E as [-> _]. exists l1, l2, m. reflexivity.
Qed.

Lemma nodup_snoc {A} (l : list A) x : NoDup l -> ~ In x l -> NoDup (l ++ [x]).
Proof.
  intros H N. induction H as [|y l Y H IH]; [constructor; [intros []|constructor]|]. cbn [app]. constructor.
  - rewrite in_app_iff. intros [I|[<-|[]]]; [exact (Y I)|]. apply N. left. reflexivity.
  - apply IH. intros I. apply N. right. exact I.
Qed.
Section Threads.
Variables (call1 : call -> file -> file * res answer) (code : call -> prog).
Hypothesis DC : forall c, disciplined call1 c (code c).
Fixpoint calls (cs : list call) (f : file) : file * list (res answer) :=
  match cs with
  | [] => (f, [])
  | c :: r => let '(f1, a) := call1 c f in let '(f2, l) := calls r f1 in (f2, a :: l)
  end.
Lemma calls_snoc cs c f : calls (cs ++ [c]) f = (fst (call1 c (fst (calls cs f))), snd (calls cs f) ++ [snd (call1 c (fst (calls cs f)))]).
Proof.
  revert f. induction cs as [|d cs IH]; intros f; cbn [calls app].
  - cbn [fst snd]. destruct (call1 c f). reflexivity.
  - destruct (call1 d f) as [f1 a]. rewrite IH. destruct (calls cs f1) as [f2 l]. cbn [fst snd app]. reflexivity.
Qed.
Variables (f0 : file) (todo : nat -> list call).
Definition after (lin : list op) : file := fst (calls (map op_call lin) f0).

Definition thread_ok (H : list event) (f : file) (l : option nat) (lin : list op) (t : nat) (x : thread) : Prop :=
  match x with
  | Idle k _ => l <> Some t /\ (forall k' c, In (EInv t k' c) H -> k' < k)
  | Busy k c p _ =>
      In (EInv t k c) H /\ (forall k' c', In (EInv t k' c') H -> k' < k \/ k' = k /\ c' = c) /\ (forall a, ~ In (ERet t k a) H) /\
      (l <> Some t /\ p = code c /\ ~ In (t, k) (map op_id lin) \/
       l = Some t /\ inside p /\ alone p f = call1 c (after lin) /\ ~ In (t, k) (map op_id lin) \/
       l <> Some t /\ exists a, p = PRet a /\ In (t, k, c, a) lin)
  end.
Record good (H : list event) (s : config) (lin : list op) : Prop := {
  o_expl : explains calls f0 H lin;
  o_file : c_lock s = None -> c_file s = after lin;
  o_thr : forall t, thread_ok H (c_file s) (c_lock s) lin t (c_thr s t) }.

Lemma put_same t x thr : put t x thr t = x.
Proof. unfold put. rewrite Nat.eqb_refl. reflexivity. Qed.
Lemma put_other t x thr t' : t' <> t -> put t x thr t' = thr t'.
Proof. intros N. unfold put. apply Nat.eqb_neq in N. rewrite N. reflexivity. Qed.

Lemma in_ids t k lin : In (t, k) (map op_id lin) <-> exists c a, In (t, k, c, a) lin.
Proof.
  rewrite in_map_iff. split.
  - intros ([[[t' k'] c] a] & E & I). cbn in E. injection E as -> ->. eauto.
  - intros (c & a & I). exists (t, k, c, a). auto.
Qed.
(** the call that makes its effect now *)
Lemma explains_snoc H lin t k c : explains calls f0 H lin -> In (EInv t k c) H -> ~ In (t, k) (map op_id lin) ->
  explains calls f0 H (lin ++ [(t, k, c, snd (call1 c (after lin)))]).
Proof.
  intros [Z1 Z2 Z3 Z4 Z5] I N. constructor.
  - rewrite map_app. cbn [map]. apply nodup_snoc; auto.
  - intros t' k' c' a Hx. apply in_app_iff in Hx. destruct Hx as [Hx|[[= <- <- <- _]|[]]]; eauto.
  - intros t' k' a Hx. destruct (Z3 _ _ _ Hx) as (c' & Hc). exists c'. apply in_app_iff. auto.
  - rewrite !map_app. cbn [map]. rewrite calls_snoc. cbn [snd]. rewrite Z4. reflexivity.
  - intros t1 k1 a1 t2 k2 c2 B Hx. rewrite map_app in *. cbn [map] in *. apply in_app_iff in Hx. destruct Hx as [Hx|[Hx|[]]].
    + apply before_snoc. eauto.
    + rewrite <- Hx. apply before_last. destruct B as (l1 & l2 & l3 & ->). apply in_ids.
      destruct (Z3 t1 k1 a1) as (c1 & Hc); [apply in_app_iff; right; left; reflexivity|]. eauto.
Qed.
Lemma after_snoc lin t k c a : after (lin ++ [(t, k, c, a)]) = fst (call1 c (after lin)).
Proof. unfold after. rewrite map_app. cbn [map]. rewrite calls_snoc. reflexivity. Qed.

Theorem exec_good H s : exec code f0 todo H s -> exists lin, good H s lin.
Proof.
  intros E. induction E as [|H s0 e s E (lin & [G1 G2 G3]) S]; [|destruct S as [f l thr t k c r T|f l thr t k c u q r T|f thr t k c p r T|f thr t k c p r T|f l thr t k c a r T]];
    rewrite ?app_nil_r; cbn [c_file c_lock c_thr] in *.
  - exists []. constructor; cbn [c_file c_lock c_thr]; auto.
    + constructor; cbn; try (intros; contradiction); auto. constructor.
    + intros t. cbn [thread_ok]. split; [discriminate|intros k c []].
  - (* a call begins *)
    exists lin. pose proof (G3 t) as X. rewrite T in X. destruct X as [X1 X2].
    assert (NL : ~ In (t, k) (map op_id lin)).
    { intros I. apply in_ids in I. destruct I as (c' & a & I). apply (z_begun _ _ _ _ G1) in I. apply X2 in I. lia. }
    constructor; cbn [c_file c_lock c_thr]; [|exact G2|].
    + destruct G1 as [Z1 Z2 Z3 Z4 Z5]. constructor; auto.
      * intros t' k' c' a I. apply in_app_iff. left. eauto.
      * intros t' k' a I. apply in_app_iff in I. destruct I as [I|[I|[]]]; [eauto|discriminate I].
      * intros t1 k1 a1 t2 k2 c2 B I. apply before_inv in B. destruct B as [B|[_ B]]; [eauto|]. injection B as -> -> ->. contradiction.
    + intros t'. destruct (Nat.eq_dec t' t) as [->|N].
      * rewrite put_same. cbn [thread_ok]. split; [apply in_app_iff; right; left; reflexivity|]. split; [|split; [|left; auto]].
        -- intros k' c' I. apply in_app_iff in I. destruct I as [I|[I|[]]]; [left; eauto|]. injection I as <- <-. auto.
        -- intros a I. apply in_app_iff in I. destruct I as [I|[I|[]]]; [|discriminate I]. apply (z_ended _ _ _ _ G1) in I. destruct I as (c' & I). apply NL, in_ids. eauto.
      * rewrite put_other by exact N. specialize (G3 t'). destruct (thr t') as [k' r'|k' c' p' r']; cbn [thread_ok] in *.
        -- destruct G3 as [Y1 Y2]. split; [exact Y1|]. intros k'' c'' I. apply in_app_iff in I. destruct I as [I|[I|[]]]; [eauto|]. injection I as -> -> ->. contradiction.
        -- destruct G3 as (Y1 & Y2 & Y3 & Y4). split; [apply in_app_iff; auto|]. split; [|split; [|exact Y4]].
           ++ intros k'' c'' I. apply in_app_iff in I. destruct I as [I|[I|[]]]; [eauto|]. injection I as -> -> ->. contradiction.
           ++ intros a I. apply in_app_iff in I. destruct I as [I|[I|[]]]; [exact (Y3 _ I)|discriminate I].
  - (* a step *)
    exists lin. pose proof (G3 t) as X. rewrite T in X. destruct X as (X1 & X2 & X3 & [(_ & X & _)|[(-> & X4 & X5 & X6)|(_ & a & X & _)]]).
    { destruct (DC c) as [(a & D & _)|(q' & D & _)]; congruence. } 2: congruence.
    inversion X4 as [|u' k' HK]. subst. cbn [alone] in X5.
    constructor; cbn [c_file c_lock c_thr]; [exact G1|discriminate|]. intros t'. destruct (Nat.eq_dec t' t) as [->|N].
    + rewrite put_same. cbn [thread_ok]. repeat (split; [assumption|]). right. left. auto.
    + rewrite put_other by exact N. specialize (G3 t'). destruct (thr t') as [k' r'|k' c' p' r']; cbn [thread_ok] in *; [exact G3|].
      destruct G3 as (Y1 & Y2 & Y3 & [Y4|[(Y4 & _)|Y4]]); [|injection Y4 as ->; contradiction|]; repeat (split; [assumption|]); [left|right; right]; exact Y4.
  - (* the lock is acquired *)
    exists lin. pose proof (G3 t) as X. rewrite T in X. destruct X as (X1 & X2 & X3 & [(_ & X4 & X5)|[(X & _)|(_ & a & X & _)]]); [|discriminate X|discriminate X].
    destruct (DC c) as [(a & D & _)|(q' & D & D1 & D2)]; [congruence|]. rewrite D in X4. injection X4 as <-.
    constructor; cbn [c_file c_lock c_thr]; [exact G1|discriminate|]. intros t'. destruct (Nat.eq_dec t' t) as [->|N].
    + rewrite put_same. cbn [thread_ok]. repeat (split; [assumption|]). right. left. split; [reflexivity|]. split; [exact D1|]. split; [|exact X5]. rewrite D2, (G2 eq_refl). reflexivity.
    + rewrite put_other by exact N. specialize (G3 t'). assert (Some t <> Some t') by congruence. destruct (thr t') as [k' r'|k' c' p' r']; cbn [thread_ok] in *; [tauto|].
      destruct G3 as (Y1 & Y2 & Y3 & [(_ & Y4)|[(Y4 & _)|(_ & Y4)]]); [|discriminate Y4|]; repeat (split; [assumption|]); [left|right; right]; (split; [assumption|exact Y4]).
  - (* the lock is released: here the call takes place *)
    pose proof (G3 t) as X. rewrite T in X. destruct X as (X1 & X2 & X3 & [(X & _)|[(_ & X4 & X5 & X6)|(X & _)]]); [congruence| |congruence].
    inversion X4 as [a|]. subst p. cbn [alone] in X5. exists (lin ++ [(t, k, c, a)]).
    assert (E1 : after (lin ++ [(t, k, c, a)]) = f) by (rewrite after_snoc, <- X5; reflexivity).
    constructor; cbn [c_file c_lock c_thr].
    + replace a with (snd (call1 c (after lin))) by (rewrite <- X5; reflexivity). apply explains_snoc; auto.
    + intros _. symmetry. exact E1.
    + intros t'. destruct (Nat.eq_dec t' t) as [->|N].
      * rewrite put_same. cbn [thread_ok]. repeat (split; [assumption|]). right. right. split; [discriminate|]. exists a. split; [reflexivity|]. apply in_app_iff. right. left. reflexivity.
      * rewrite put_other by exact N. specialize (G3 t'). destruct (thr t') as [k' r'|k' c' p' r']; cbn [thread_ok] in *; [split; [discriminate|tauto]|].
        destruct G3 as (Y1 & Y2 & Y3 & Y4). repeat (split; [assumption|]). destruct Y4 as [(_ & Y4 & Y5)|[(Y4 & _)|(_ & b & Y4 & Y5)]].
        -- left. split; [discriminate|]. split; [exact Y4|]. rewrite map_app, in_app_iff. intros [I|[I|[]]]; [exact (Y5 I)|]. cbn in I. congruence.
        -- congruence.
        -- right. right. split; [discriminate|]. exists b. split; [exact Y4|]. apply in_app_iff. auto.
  - (* a call ends *)
    pose proof (G3 t) as X. rewrite T in X. destruct X as (X1 & X2 & X3 & X4).
    assert (exists lin', explains calls f0 H lin' /\ after lin' = after lin /\ In (t, k, c, a) lin' /\ l <> Some t /\ forall x, In x lin' <-> In x lin \/ x = (t, k, c, a)) as (lin' & L1 & L2 & L3 & L4 & L5).
    { destruct X4 as [(X4 & X5 & X6)|[(_ & X4 & _)|(X4 & b & X5 & X6)]].
      - destruct (DC c) as [(b & D & D')|(q' & D & _)]; [|congruence]. rewrite D in X5. injection X5 as <-.
        exists (lin ++ [(t, k, c, a)]). split; [replace a with (snd (call1 c (after lin))) by (rewrite D'; reflexivity); apply explains_snoc; auto|].
        split; [rewrite after_snoc, D'; reflexivity|]. split; [apply in_app_iff; right; left; reflexivity|]. split; [exact X4|]. intros x. rewrite in_app_iff. cbn. split; intros [Y|Y]; auto. destruct Y as [<-|[]]. auto.
      - inversion X4.
      - injection X5 as <-. exists lin. split; [exact G1|]. split; [reflexivity|]. split; [exact X6|]. split; [exact X4|]. intros x. split; [auto|]. intros [Y| ->]; assumption. }
    exists lin'. constructor; cbn [c_file c_lock c_thr].
    + destruct L1 as [Z1 Z2 Z3 Z4 Z5]. constructor; auto.
      * intros t' k' c' b I. apply in_app_iff. left. eauto.
      * intros t' k' b I. apply in_app_iff in I. destruct I as [I|[I|[]]]; [eauto|]. injection I as <- <- <-. eauto.
      * intros t1 k1 a1 t2 k2 c2 B I. apply before_inv in B. destruct B as [B|[_ B]]; [eauto|discriminate B].
    + intros Y. rewrite L2. auto.
    + intros t'. destruct (Nat.eq_dec t' t) as [->|N].
      * rewrite put_same. cbn [thread_ok]. split; [exact L4|]. intros k' c' I. apply in_app_iff in I. destruct I as [I|[I|[]]]; [|discriminate I]. destruct (X2 _ _ I) as [?|[? _]]; lia.
      * rewrite put_other by exact N. specialize (G3 t'). destruct (thr t') as [k' r'|k' c' p' r']; cbn [thread_ok] in *.
        -- destruct G3 as [Y1 Y2]. split; [exact Y1|]. intros k'' c'' I. apply in_app_iff in I. destruct I as [I|[I|[]]]; [eauto|discriminate I].
        -- destruct G3 as (Y1 & Y2 & Y3 & Y4). split; [apply in_app_iff; auto|]. split; [|split].
           ++ intros k'' c'' I. apply in_app_iff in I. destruct I as [I|[I|[]]]; [eauto|discriminate I].
           ++ intros b I. apply in_app_iff in I. destruct I as [I|[I|[]]]; [exact (Y3 _ I)|]. injection I as -> -> ->. contradiction.
           ++ assert (NI : ~ In (t', k') (map op_id lin) -> ~ In (t', k') (map op_id lin')).
              { rewrite !in_ids. intros Y (c'' & b & I). apply L5 in I. destruct I as [I|I]; [eauto|]. injection I as -> -> -> ->. contradiction. }
              rewrite L2. destruct Y4 as [(Y4 & Y5 & Y6)|[(Y4 & Y5 & Y6 & Y7)|(Y4 & b & Y5 & Y6)]]; [left; auto|right; left; auto|right; right].
              split; [exact Y4|]. exists b. split; [exact Y5|]. apply L5. auto.
Qed.
(** unless all is done, some thread can go on *)
Theorem exec_on H s t : exec code f0 todo H s -> (forall k, c_thr s t <> Idle k []) -> exists e s', step code s e s'.
Proof.
  intros E N. destruct (exec_good H s E) as (lin & [_ _ G3]). destruct s as [f l thr]. cbn [c_file c_lock c_thr] in *.
  assert (P : forall t', (forall k, thr t' <> Idle k []) -> (l = None \/ l = Some t') -> exists e s', step code (mkConfig f l thr) e s').
  { intros t' N' L. pose proof (G3 t') as X. destruct (thr t') as [k [|c r]|k c p r] eqn:T; [destruct (N' k eq_refl)|eexists; eexists; eapply X_call; exact T|].
    destruct p as [a|u q|p|p]; [eexists; eexists; eapply X_ret; exact T|eexists; eexists; eapply X_step; exact T| |].
    - destruct L as [-> | ->]; [eexists; eexists; eapply X_lock; exact T|]. destruct X as (_ & _ & _ & [(X & _)|[(_ & X & _)|(X & _)]]); [congruence|inversion X|congruence].
    - destruct X as (_ & _ & _ & [(_ & X & _)|[(-> & _)|(_ & a & X & _)]]); [|eexists; eexists; eapply X_unlock; exact T|discriminate X].
      destruct (DC c) as [(a & D & _)|(q' & D & _)]; congruence. }
  destruct l as [h|]; [|apply (P t); auto]. apply (P h); [|auto]. intros k T. specialize (G3 h). rewrite T in G3. destruct G3 as [X _]. congruence.
Qed.
End Threads.

(** ** the methods of File *)
Inductive plain : prog -> Prop :=
| N_ret r : plain (PRet r)
| N_step u k : (forall f, plain (k f)) -> plain (PStep u k).
Lemma leave_inside p : plain p -> inside (leave p) /\ forall f, alone (leave p) f = alone p f.
Proof.
  induction 1 as [r|u k H IH]; cbn [leave alone]; [split; [constructor|reflexivity]|]. split; [constructor; intros f; apply IH|]. intros f. apply IH.
Qed.
Lemma locked_ok call1 c p : plain p -> (forall f, alone p f = call1 c f) -> disciplined call1 c (locked p).
Proof. intros H E. right. destruct (leave_inside p H) as [H1 H2]. exists (leave p). split; [reflexivity|]. split; [exact H1|]. intros f. rewrite H2. apply E. Qed.
Lemma open_plain p : plain p -> plain (when_open p).
Proof. intros H. constructor. intros f. destruct (fl_open f); [exact H|constructor]. Qed.

Section Methods.
Variables (o : options) (rnd : nat -> N) (tries n : nat) (keq : pyval -> pyval -> bool).
Notation call1 := (do_call o rnd tries n keq).
Lemma open_eta f : fl_open f = true -> mkFile true (fl_st f) = f.
Proof. destruct f. cbn. intros ->. reflexivity. Qed.
Lemma write_items_plain l : plain (write_items o rnd tries n l).
Proof. induction l as [|x l IH]; cbn [write_items]; constructor. intros f. destruct (snd _); [exact IH|constructor]. Qed.
Lemma write_items_alone l : forall f, alone (write_items o rnd tries n l) f =
  map_res (fun _ => AUnit) (let '(s, r) := iterM (fun x => write_at o rnd tries n (fst (fst x)) (snd (fst x)) (snd x)) l (fl_st f) in (mkFile (fl_open f) s, r)).
Proof.
  induction l as [|x l IH]; intros f; cbn [write_items alone iterM]; [destruct f; reflexivity|].
  unfold bindm. destruct (write_at o rnd tries n (fst (fst x)) (snd (fst x)) (snd x) (fl_st f)) as [s [u|e]]; cbn [fst snd]; [|reflexivity].
  rewrite IH. reflexivity.
Qed.
Lemma read_items_plain l : forall got, plain (read_items o n keq l got).
Proof. induction l as [|x l IH]; intros got; cbn [read_items]; constructor. intros f. destruct (read_at _ _ _ _ _ _); [apply IH|constructor]. Qed.
Lemma read_items_alone l f : forall got, alone (read_items o n keq l got) f =
  (f, match mapr (fun gt => read_at o n keq (fst gt) (snd gt) (fl_st f)) l with Ok vs => Ok (AVals (got ++ vs)) | Err e => Err e end).
Proof.
  induction l as [|x l IH]; intros got; cbn [read_items alone mapr look]; [rewrite app_nil_r; reflexivity|].
  destruct (read_at o n keq (fst x) (snd x) (fl_st f)) as [v|e]; cbn [alone bindr]; [|reflexivity].
  rewrite IH. destruct (mapr _ l); cbn [bindr]; [|reflexivity]. rewrite <- app_assoc. reflexivity.
Qed.
Theorem file_disciplined c : disciplined call1 c (file_code o rnd tries n keq c).
Proof.
  destruct c as [mdict|paths| |p| |p| |]; cbn [file_code do_call].
  - destruct (mapr _ mdict) as [l|e] eqn:E.
    + apply locked_ok; [apply open_plain, write_items_plain|]. intros f. cbn [do_call]. unfold file_writes, when_open, look. cbn [alone]. rewrite E. destruct (fl_open f) eqn:O; [|reflexivity].
      rewrite write_items_alone, O. reflexivity.
    + left. exists (Err e). split; [reflexivity|]. intros f. cbn [do_call]. unfold file_writes. rewrite E. reflexivity.
  - destruct (mapr _ paths) as [l|e] eqn:E.
    + apply locked_ok; [apply open_plain, read_items_plain|]. intros f. cbn [do_call]. unfold file_reads, when_open, look, map_res. cbn [alone fst snd]. rewrite E. cbn [bindr].
      destruct (fl_open f) eqn:O; [|reflexivity]. rewrite read_items_alone. reflexivity.
    + left. exists (Err e). split; [reflexivity|]. intros f. cbn [do_call]. unfold file_reads, map_res. cbn [fst snd]. rewrite E. reflexivity.
  - apply locked_ok.
    + apply open_plain. constructor. intros f. destruct (_ && _); [|constructor]. constructor. intros g. destruct (h5_in _ _); constructor.
    + intros f. cbn [do_call]. unfold file_len, when_open, look, map_res. cbn [alone fst snd]. destruct (fl_open f); [|reflexivity]. cbn [alone]. destruct (_ && _); [|reflexivity].
      cbn [alone]. destruct (h5_in _ _); reflexivity.
  - destruct (process_path p) as [[g t]|e] eqn:E.
    + apply locked_ok; [apply open_plain; constructor; intros f; constructor|]. intros f. cbn [do_call]. unfold file_contains, when_open, look, map_res. rewrite E. cbn [alone fst snd]. destruct (fl_open f); reflexivity.
    + left. destruct e; eexists; (split; [reflexivity|]); intros f; cbn [do_call]; unfold file_contains, map_res; rewrite E; reflexivity.
  - apply locked_ok; [apply open_plain; constructor; intros f; constructor|]. intros f. cbn [do_call]. unfold file_iter, when_open, look, map_res. cbn [alone fst snd]. destruct (fl_open f); reflexivity.
  - destruct (process_path p) as [[g t]|e] eqn:E.
    + apply locked_ok; [apply open_plain; constructor; intros f; constructor|]. intros f. cbn [do_call]. unfold file_del, when_open, look, map_res. rewrite E. cbn [alone fst snd]. destruct (fl_open f) eqn:O; [|reflexivity].
      cbn [alone]. rewrite O. destruct (unlink _ _ _) as [s [u|e]]; reflexivity.
    + left. exists (Err e). split; [reflexivity|]. intros f. cbn [do_call]. unfold file_del. rewrite E. reflexivity.
  - apply locked_ok; [constructor; intros f; constructor|]. intros f. reflexivity.
  - apply locked_ok; [apply open_plain; constructor|]. intros f. cbn [do_call]. unfold file_flush, when_open, look, map_res. cbn [alone fst snd]. destruct (fl_open f); reflexivity.
Qed.
Lemma calls_do cs f : calls call1 cs f = do_calls o rnd tries n keq cs f.
Proof. revert f. induction cs as [|c cs IH]; intros f; cbn [calls do_calls]; [reflexivity|]. destruct (do_call _ _ _ _ _ c f) as [f1 a]. rewrite IH. reflexivity. Qed.
End Methods.
