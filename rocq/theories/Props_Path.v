(** Properties C01-C08 and C38: escaping, unescaping and processing of paths. *)
From Verif Require Import Base Unicode UnicodeFacts PathEsc PathEscSpec PathEscFacts PosixPath PosixFacts ProcessPath ProcessPathFacts.

(** C01: unescaping inverts escaping, for every str. *)
Theorem C01_unescape_escape : forall s, exists e, escape_path s = Ok e /\ unescape_path e = Ok s.
Proof. exact unescape_escape. Qed.
Print Assumptions C01_unescape_escape.

(** C02: an escaped name is a single, non-traversing HDF5 link name. *)
Theorem C02_escape_safe : forall s, exists e, escape_path s = Ok e /\
  ~ In fslash e /\ ~ In nul e /\ hd_error e <> Some dot /\ (e = [] <-> s = []).
Proof.
  intros s. exists (text (esc_tokens s)). exact
   (conj (escape_path_text s) (conj (proj1 (esc_chars s)) (conj (proj2 (esc_chars s))
     (conj (esc_head s) (esc_nonempty s))))).
Qed.
Print Assumptions C02_escape_safe.

(** C03: distinct names stay distinct. *)
Theorem C03_escape_injective : forall s t, escape_path s = escape_path t -> s = t.
Proof. exact escape_injective. Qed.
Print Assumptions C03_escape_injective.
Example C03_nonvacuous : escape_path (lit "a/b") <> escape_path (lit "a\x2fb").
Proof. vm_compute. discriminate. Qed.

(** C04: malformed escapes raise ValueError, and only they and escapes of
    no character are errors. *)
Theorem C04_malformed_rejected : forall s, ~ well_escaped s -> unescape_path s = Err ValueError.
Proof.
  exact (fun s H => match re_search_cases s with
     | or_introl E => False_ind _ (H E) | or_intror E => E end).
Qed.
Print Assumptions C04_malformed_rejected.
Example C04_malformed_example : ~ well_escaped (lit "a\xg0").
Proof.
  intros H. destruct (H (lit "a") 1%nat (lit "xg0") eq_refl) as (k & ds & tl & E & K & D).
  - intros (p & Hp). destruct p as [|? [|? ?]]; discriminate.
  - intros (p & Hp). discriminate.
  - reflexivity.
  - cbn in E. inversion E; subst. destruct K as [[_ K]|[[K _]|[K _]]]; [|discriminate..].
    destruct ds as [|a [|b [|]]]; try discriminate. inversion H2; subst. discriminate.
Qed.

Theorem C04_wellformed_grammar : forall s,
  well_escaped s <-> exists ts, Forall token_ok ts /\ s = text ts.
Proof.
  exact (fun s => conj (fun H => tokens_exist (List.length s) s (le_n _) H)
     (fun H => match H with ex_intro _ ts (conj Hok E) => eq_ind_r well_escaped (text_well_escaped ts Hok) E end)).
Qed.
Print Assumptions C04_wellformed_grammar.

Theorem C04_wellformed_accepted : forall ts, Forall token_ok ts ->
  (Forall hex_in_range ts -> exists u, unescape_path (text ts) = Ok u) /\
  (~ Forall hex_in_range ts ->
     exists e, unescape_path (text ts) = Err e /\ (e = ValueError \/ e = OverflowError)).
Proof. exact (fun ts H => conj (unescape_total ts H) (unescape_out_of_range ts H)). Qed.
Print Assumptions C04_wellformed_accepted.
Example C04_accepted_example :
  Forall token_ok [TChar 97; TBackslash; THex chu (lit "00e9")] /\
  Forall hex_in_range [TChar 97; TBackslash; THex chu (lit "00e9")].
Proof.
  split; repeat (apply Forall_cons || apply Forall_nil); cbn; try exact I; try discriminate.
  - split; [right; left; split; reflexivity|reflexivity].
  - reflexivity.
Qed.

(** the documented ValueError is not the only error *)
Theorem C04_only_ValueError_refuted : exists s, unescape_path s = Err OverflowError.
Proof. exact (ex_intro _ (lit "\Uffffffff") eq_refl). Qed.
Print Assumptions C04_only_ValueError_refuted.

(** C05: escapes decode independently, when no hex escape denotes a backslash. *)
Theorem C05_unescape_meaning_partial : forall ts, Forall token_ok ts -> Forall hex_plain ts ->
  unescape_path (text ts) = Ok (map token_meaning ts).
Proof. exact unescape_decodes. Qed.
Print Assumptions C05_unescape_meaning_partial.
Example C05_example : Forall token_ok [TBackslash; THex chx (lit "41"); TChar 120] /\
   Forall hex_plain [TBackslash; THex chx (lit "41"); TChar 120].
Proof.
  split; repeat (apply Forall_cons || apply Forall_nil); cbn; try exact I; try discriminate.
  - split; [left; split; reflexivity|reflexivity].
  - split; [discriminate|reflexivity].
Qed.

(** without that restriction it is false: two escaped backslashes become one *)
Theorem C05_unescape_meaning_refuted : exists ts, Forall token_ok ts /\ Forall hex_in_range ts /\
  unescape_path (text ts) <> Ok (map token_meaning ts).
Proof. exact unescape_not_compositional. Qed.
Print Assumptions C05_unescape_meaning_refuted.

(** C06: a separated path names exactly its parts. *)
Theorem C06_separated_path : forall init l einit el,
  Forall (fun p => p <> []) (init ++ [l]) ->
  Forall2 (fun p e => escape_path p = Ok e) init einit -> escape_path l = Ok el ->
  process_path (PSeq (map EStr (init ++ [l]))) =
  Ok (match einit with [] => [fslash] | _ => join_slash einit end, el).
Proof. exact process_seq_exact. Qed.
Print Assumptions C06_separated_path.
Example C06_example :
  process_path (PSeq (map EStr ([lit ".."; lit "a/b"] ++ [lit "."]))) =
  Ok (lit "\x2e\x2e/a\x2fb", lit "\x2e").
Proof. vm_compute. reflexivity. Qed.

(** ... and no component of the resulting path is empty, "." or "..": it does not traverse *)
Theorem C06_no_traversal : forall parts g t,
  Forall (fun p => p <> []) parts -> parts <> [] ->
  process_path (PSeq (map EStr parts)) = Ok (g, t) ->
  path_comps g ++ [t] = map esc parts /\
  Forall (fun c => c <> [] /\ c <> s_dot /\ c <> s_dotdot /\ ~ In fslash c) (path_comps g ++ [t]).
Proof. exact process_seq_no_traversal. Qed.
Print Assumptions C06_no_traversal.

(** empty parts vanish; nothing but empty parts is the root *)
Theorem C06_empty_parts_vanish : forall parts, parts <> [] ->
  process_path (PSeq (map EStr parts)) =
  match filter (fun p => negb (eqb_str p [])) parts with
  | [] => Ok ([fslash], s_dot)
  | parts' => process_path (PSeq (map EStr parts'))
  end.
Proof. exact process_seq_filter. Qed.
Print Assumptions C06_empty_parts_vanish.

(** an empty Sequence and non-path elements raise TypeError *)
Theorem C06_type_errors : process_path (PSeq []) = Err TypeError /\ process_path POther = Err TypeError /\
  forall l, In EOther l -> (forall b, ~ In (EBytes b) l) -> process_path (PSeq l) = Err TypeError.
Proof. exact (conj eq_refl (conj eq_refl process_seq_bad)). Qed.
Print Assumptions C06_type_errors.

(** C07: different separated paths never denote the same place. *)
Theorem C07_separated_injective : forall a b, a <> [] -> b <> [] ->
  Forall (fun p => p <> []) a -> Forall (fun p => p <> []) b ->
  process_path (PSeq (map EStr a)) = process_path (PSeq (map EStr b)) -> a = b.
Proof. exact process_seq_inj. Qed.
Print Assumptions C07_separated_injective.
Example C07_example : process_path (PSeq [EStr (lit "a"); EStr (lit "b")]) <> process_path (PSeq [EStr (lit "a/b")]).
Proof. vm_compute. discriminate. Qed.

(** C08: str paths. *)
Theorem C08_target_single : forall s, exists g t, process_path (PStr s) = Ok (g, t) /\
  g <> [] /\ t <> [] /\ ~ In fslash t.
Proof. exact process_str_target. Qed.
Print Assumptions C08_target_single.

Theorem C08_idempotent_absolute : forall s g t, isabs s = true ->
  process_path (PStr s) = Ok (g, t) ->
  process_path (PStr (posix_join g [t])) = Ok (g, t).
Proof. exact process_str_idem. Qed.
Print Assumptions C08_idempotent_absolute.
Example C08_idem_example : isabs (lit "//a/./b/../c") = true /\
  process_path (PStr (lit "//a/./b/../c")) = Ok (lit "//a", lit "c").
Proof. vm_compute. auto. Qed.

(** on relative paths that climb above their start it is not idempotent *)
Theorem C08_idempotent_relative_refuted : exists s g t, process_path (PStr s) = Ok (g, t) /\
  process_path (PStr (posix_join g [t])) <> Ok (g, t).
Proof.
  exact process_rel_not_idem.
Qed.
Print Assumptions C08_idempotent_relative_refuted.

(** a normalised absolute path is taken as it is *)
Theorem C08_clean_absolute : forall init l,
  Forall (fun c => c <> [] /\ c <> s_dot /\ c <> s_dotdot /\ ~ In fslash c) (init ++ [l]) ->
  process_path (PStr (fslash :: join_slash (init ++ [l]))) = Ok (fslash :: join_slash init, l).
Proof. exact process_str_clean. Qed.
Print Assumptions C08_clean_absolute.

(** an absolute result has no "." or ".." component, so it cannot traverse *)
Theorem C08_absolute_no_traversal : forall s g t, isabs s = true -> process_path (PStr s) = Ok (g, t) ->
  isabs g = true /\ Forall (fun c => c <> s_dotdot) (path_comps g) /\ t <> s_dotdot.
Proof. exact process_str_no_traversal. Qed.
Print Assumptions C08_absolute_no_traversal.

(** "name/.." segments, "." segments and repeated slashes are redundant *)
Theorem C08_dotdot_cancels : forall pre x post, isabs pre = true ->
  x <> [] -> x <> s_dot -> x <> s_dotdot -> ~ In fslash x -> initial_slashes (pre ++ fslash :: post) = initial_slashes (pre ++ fslash :: x) ->
  process_path (PStr (pre ++ fslash :: x ++ fslash :: s_dotdot ++ fslash :: post)) =
  process_path (PStr (pre ++ fslash :: post)).
Proof. exact process_str_cancel. Qed.
Print Assumptions C08_dotdot_cancels.
Example C08_cancel_example : initial_slashes (lit "/a" ++ fslash :: lit "c") = initial_slashes (lit "/a" ++ fslash :: lit "b").
Proof. reflexivity. Qed.

(** C38: the same path in other forms. *)
Theorem C38_bytes_form : forall s b, utf8_encode s = Ok b ->
  process_path (PBytes b) = process_path (PStr s).
Proof. exact process_bytes. Qed.
Print Assumptions C38_bytes_form.

Theorem C38_bytes_form_total : forall s, scalar_str s -> exists b, utf8_encode s = Ok b.
Proof. exact (fun s => proj1 (utf8_encode_scalar s)). Qed.
Print Assumptions C38_bytes_form_total.

Theorem C38_purepath_form_partial : forall s, (initial_slashes s <= 1)%nat -> isabs s = true \/ path_comps s <> [] ->
  process_path (PPure (pure_posix s)) = process_path (PStr s).
Proof. exact process_pure. Qed.
Print Assumptions C38_purepath_form_partial.
Example C38_pure_example : (initial_slashes (lit "/a/b/../c") <= 1)%nat /\ isabs (lit "/a/b/../c") = true.
Proof. cbn. split; [constructor|reflexivity]. Qed.

(** PurePosixPath('.') raises TypeError while '.' is accepted; PurePosixPath('//a/b')
    loses its root *)
Theorem C38_purepath_form_refuted :
  process_path (PPure (pure_posix (lit "."))) = Err TypeError /\
  process_path (PStr (lit ".")) = Ok ([fslash], s_dot) /\
  process_path (PPure (pure_posix (lit "//a/b"))) = Ok (lit "a", lit "b") /\
  process_path (PStr (lit "//a/b")) = Ok (lit "//a", lit "b").
Proof. exact (conj eq_refl (conj eq_refl (conj eq_refl eq_refl))). Qed.
Print Assumptions C38_purepath_form_refuted.

Theorem C38_sequence_form : forall parts, parts <> [] -> Forall plain_part parts ->
  process_path (PSeq (map EStr parts)) = process_path (PStr (join_slash parts)).
Proof. exact process_seq_plain. Qed.
Print Assumptions C38_sequence_form.
Example C38_seq_example : Forall plain_part [lit "a.b"; lit "#c"].
Proof. repeat constructor; discriminate. Qed.
