(** For which values and options writing to a new place cannot fail (property C40). *)
From Verif Require Import Base PathEsc PosixPath ProcessPath Unicode NdArray Value OptionsM Hdf5 NpWrite HeapFacts FileApi CutM ApiSpec RoundSpec.
Local Open Scope nat_scope.

Definition ascii (s : pystr) : Prop := Forall (fun c => (c < 128)%N) s.
(** values stored as a Group *)
Definition dictlike (v : pyval) : Prop := match v with VDict _ _ | VRec _ _ => True | _ => False end.
(** values that may be stored as a Group *)
Definition grouplike (v : pyval) : Prop := match v with VNp _ a => is_struct (a_dt a) = true | v => dictlike v end.
(** when a Group is inside another one as a member of a dict or the field of a structured
    array, its key is ASCII (for MATLAB its path becomes an attribute, in ASCII) *)
Inductive ascii_groups : pyval -> Prop :=
| G_struct c a fs : a_dt a = TStruct fs -> (forall n f x, nth_error fs n = Some f -> In x (field_values n (snd f) a) -> ascii_groups x /\ (grouplike x -> ascii (fst f))) ->
    ascii_groups (VNp c a)
| G_np c a : is_struct (a_dt a) = false -> (forall p, In (XPtr p) (a_data a) -> ascii_groups p) -> ascii_groups (VNp c a)
| G_seq k l : Forall ascii_groups l -> ascii_groups (VSeq k l)
| G_rec k fs : Forall ascii_groups fs -> ascii_groups (VRec k fs)
| G_dict k l : Forall ascii_groups (map fst l) -> Forall ascii_groups (map snd l) ->
    (forall x v t, In (x, v) l -> key_text x t -> grouplike v -> ascii t) -> ascii_groups (VDict k l)
| G_other v : match v with VNp _ _ | VSeq _ _ | VRec _ _ | VDict _ _ => False | _ => True end -> ascii_groups v.
(** names in the options that h5py accepts; the references Group is in the root *)
Record ready (o : options) : Prop := {
  y_refs : exists k, path_comps (o_refs o) = [k];
  y_refs_name : name_err (o_refs o) = None;
  y_keys : name_err (o_keys_name o) = None;
  y_values : name_err (o_values_name o) = None;
  y_ascii : o_matlab_compatible o = true -> Forall ascii (path_comps (o_refs o)) }.
(** what is there on the way to [t], [t] itself aside, is a Group: h5py can make the others *)
Definition free_way (s : st) (t : list pystr) : Prop := forall a b i, t = a ++ b -> b <> [] -> walk (hp s) 0 a = Some i -> is_group (hp s) i = true.
(** with options [o], [p] is a valid path of links [cs] outside of the references group,
    where there is nothing yet *)
Record new_place (o : options) (s : st) (p : pypath) (cs : list pystr) : Prop := {
  l_denotes : denotes p cs;
  l_names : Forall (fun c => name_err c = None) cs;
  l_refs : ~ same_top cs (refs_path o);
  l_root : cs <> [];
  l_new : walk (hp s) 0 cs = None;
  l_way : free_way s cs }.
(** the same, with or without something there already *)
Record any_place (o : options) (s : st) (p : pypath) (cs : list pystr) : Prop := {
  a_denotes : denotes p cs;
  a_names : Forall (fun c => name_err c = None) cs;
  a_refs : ~ same_top cs (refs_path o);
  a_root : cs <> [];
  a_way : free_way s cs }.
(** a value that can be written there *)
Definition writes_to (wo : options) (cs : list pystr) (v : pyval) : Prop :=
  o_matlab_compatible wo = true -> ascii_groups v /\ (grouplike v -> Forall ascii cs).
(** Python scalars that are stored as they are (C27); see C16 for the strs left out *)
Definition plain_scalar (v : pyval) : Prop :=
  match v with
  | VNone | VEllipsis | VNotImplemented | VBool _ | VInt _ | VFloat _ | VComplex _ _ => True
  | VStr s => text_ok s
  | VBytes s | VByteArray s => strip0 s = s
  | VDtype t => exists b, utf8_encode t = Ok b /\ strip0 b = b
  | _ => False
  end.
(** what may happen later to a file, away from [q]: new sessions, writes of anything with
    any options for the file, successful or not or cut short (see [reachable]), and deletions *)
Inductive later (refs : pystr) (q : pypath) : st -> st -> Prop :=
| L_none s : later refs q s s
| L_reopen s s' : later refs q s s' -> later refs q s (new_session s')
| L_write s s' o rnd tries n mdict f r : later refs q s s' -> usable refs o ->
    (forall p v cs qs, In (p, v) mdict -> denotes p cs -> denotes q qs -> cs <> [] /\ ~ overlap cs qs) ->
    file_writes o rnd tries n (mkFile true s') mdict = (f, r) -> later refs q s (fl_st f)
| L_cut s s' o rnd tries n mdict s2 : later refs q s s' -> usable refs o ->
    (forall p v cs qs, In (p, v) mdict -> denotes p cs -> denotes q qs -> cs <> [] /\ ~ overlap cs qs) ->
    cut_states o rnd tries n (mkFile true s') mdict s2 -> mark_done refs s2 -> later refs q s s2
| L_del s s' p f r : later refs q s s' -> (forall cs, denotes p cs -> ~ overlap cs (path_comps refs)) ->
    (forall cs qs, denotes p cs -> denotes q qs -> ~ overlap cs qs) ->
    file_del (mkFile true s') p = (f, r) -> later refs q s (fl_st f).
(** a file made through the API with the references group [refs], options [wo] for
    writing to it and [ro] for reading from it, and == of keys, [keq] *)
Record setting (refs : pystr) (s : st) (wo ro : options) (keq : pyval -> pyval -> bool) : Prop := {
  g_refs : good_refs refs;
  g_file : reachable refs s;
  g_usable : usable refs wo;
  g_paired : paired wo ro;
  g_ready : ready wo;
  g_keq : forall a b, keq (VStr a) (VStr b) = eqb_str a b }.
