(** What one step of a write does to a file. *)
From Verif Require Import Base Attrs NdArray Value Hdf5.
Local Open Scope nat_scope.

(** One link is removed; or one link is made, to something new that may have new Groups in
    it and has no attributes; or at most one attribute of one object changes; or at most one
    element of one Dataset. *)
Inductive change (h h' : heap) : Prop :=
| One_link_removed g ob ls k :
    h g = Some ob -> o_body ob = BGroup ls -> In k (map fst ls) ->
    h' g = Some (mkObj (o_name ob) (o_attrs ob) (BGroup (del_key k ls))) ->
    (forall i, i <> g -> h' i = h i) -> change h h'
| One_link_made g ob ls k c :
    h g = Some ob -> o_body ob = BGroup ls -> ~ In k (map fst ls) -> h c = None ->
    h' g = Some (mkObj (o_name ob) (o_attrs ob) (BGroup (ins k c ls))) ->
    (forall i, i <> g -> h i <> None -> h' i = h i) ->
    (forall i oi, h i = None -> h' i = Some oi -> o_attrs oi = no_attrs) -> change h h'
| One_attribute i ob k a :
    h i = Some ob -> h' i = Some (mkObj (o_name ob) a (o_body ob)) -> (forall k', k' <> k -> a k' = o_attrs ob k') ->
    (forall j, j <> i -> h' j = h j) -> change h h'
| One_element i ob t sh d d' f n :
    h i = Some ob -> o_body ob = BData (mkArr t sh d) f -> h' i = Some (mkObj (o_name ob) (o_attrs ob) (BData (mkArr t sh d') f)) ->
    (forall k e e', k <> n -> nth_error d k = Some e -> nth_error d' k = Some e' -> e = e') ->
    (forall j, j <> i -> h' j = h j) -> change h h'.

(** from one file to another in such steps, each of which leads to a state with [P] *)
Inductive by_steps (P : st -> Prop) : heap -> heap -> Prop :=
| Done h : by_steps P h h
| Then h x h' : change h (hp x) -> P x -> by_steps P (hp x) h' -> by_steps P h h'.

(** each object has finitely many attributes *)
Definition finite_attrs (h : heap) : Prop := forall i ob, h i = Some ob -> exists l, forall k, o_attrs ob k <> None -> In k l.
