(** Properties C09 and C10: the Options object. *)
From Verif Require Import Base PathEsc PosixPath PosixFacts OptionsM OptionsSpec OptionsFacts.

(** C09: whatever the constructor arguments and whatever is assigned later,
    legal or not, in any order: matlab_compatible = True implies that every
    option MATLAB needs has its MATLAB value. *)
Theorem C09_matlab_values : forall args o l,
  init args = Ok o ->
  get (fold_left assign l o) MatlabCompatible = OVBool true ->
  forall n v, matlab_value n = Some v -> get (fold_left assign l o) n = v.
Proof. exact (fun args o l H => history_minv args o l H). Qed.
Print Assumptions C09_matlab_values.
Example C09_nonvacuous :
  match init default_args with
  | Ok o => get (fold_left assign [(ReverseDimensionOrder, OVBool false); (OnedAs, OVInt 3);
                                   (MatlabCompatible, OVBool true); (Compress, OVBool false)] o)
             MatlabCompatible = OVBool true
  | Err _ => False end.
Proof. vm_compute. reflexivity. Qed.

(** Assigning matlab_compatible = True really turns it on. *)
Theorem C09_matlab_on : forall o, exists o', set o MatlabCompatible (OVBool true) = Ok o' /\
  get o' MatlabCompatible = OVBool true /\ forall n v, matlab_value n = Some v -> get o' n = v.
Proof.
  intros o. exact (ex_intro _ (force_matlab o) (conj eq_refl
     (conj match o as o0 return (get (force_matlab o0) MatlabCompatible = OVBool true) with
           | mkOptions _ _ _ _ _ _ _ _ _ _ _ _ _ _ _ _ _ _ _ _ _ _ _ _ => eq_refl end
      (fun n v H => force_minv o n v H)))).
Qed.
Print Assumptions C09_matlab_on.

(** C10: every option is in its documented domain after every history. *)
Theorem C10_always_legal : forall args o l,
  init args = Ok o -> forall n, legal n (get (fold_left assign l o) n).
Proof. exact (fun args o l H => history_linv args o l H). Qed.
Print Assumptions C10_always_legal.

(** A legal value is stored, an illegal one leaves the option as it was. *)
Theorem C10_set_value : forall o n v o', set o n v = Ok o' ->
  (legal n v -> get o' n = v) /\ (~ legal n v -> get o' n = get o n).
Proof. exact (fun o n v o' H => conj (set_self_legal o n v o' H) (set_self_illegal o n v o' H)). Qed.
Print Assumptions C10_set_value.

(** The only exception a setter raises is TypeError, for an unhashable value
    given to an enumerated option; every such value is illegal. *)
Theorem C10_set_errors : forall o n v,
  (exists o', set o n v = Ok o') \/ (set o n v = Err TypeError /\ enumerated n /\ hashable v = false).
Proof. exact set_ok_or_type. Qed.
Print Assumptions C10_set_errors.
Example C10_error_example : set raw_defaults OnedAs (OVOther false) = Err TypeError.
Proof. reflexivity. Qed.

(** Setting one option changes no other one, except: a value MATLAB does not
    accept may clear matlab_compatible, and setting matlab_compatible to True
    gives other options their MATLAB values. *)
Theorem C10_frame : forall o n v o' k, set o n v = Ok o' -> k <> n ->
  (k <> MatlabCompatible -> n <> MatlabCompatible -> get o' k = get o k) /\
  (k = MatlabCompatible -> get o' k = get o k \/ (get o' k = OVBool false /\ matlab_value n <> None)) /\
  (n = MatlabCompatible -> get o' k = get o k \/ (v = OVBool true /\ matlab_value k = Some (get o' k))).
Proof. exact set_frame. Qed.
Print Assumptions C10_frame.

(** group_for_references is documented as "an absolute path, not the root":
    the guard tests the length of the normalised path, and POSIX normalisation
    keeps two leading slashes, so "//" -- the root group -- is accepted. *)
Theorem C10_refs_not_root_refuted : exists s o',
  set raw_defaults GroupForReferences (OVStr s) = Ok o' /\ get o' GroupForReferences = OVStr s /\
  path_comps s = [].
Proof. exists (lit "//"). eexists. vm_compute. auto. Qed.
Print Assumptions C10_refs_not_root_refuted.
