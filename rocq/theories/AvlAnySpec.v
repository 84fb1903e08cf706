(** AVL trees whose comparison function may be anything. *)
From Verif Require Import Base Heap AvlModel AvlSpec.

(** [o] is what a put that returned [r] has taken out of the tree: nothing if
    [r] is NULL, or the association of the element [r]. *)
Definition taken (r : Z) (o : list assoc) : Prop :=
  (r = 0 /\ o = []) \/ (exists k v, o = [(r, k, v)]).

(** [any_history cmp obj h t m]: in heap [h], [t] is a tree that has been made
    with the comparison function [cmp] and its context argument [obj] (or is a
    copy of such a tree) and has been modified in such ways that its associations
    should be [m], in this order. Nothing is required of the comparisons: every
    operation comes with answers [call] of its own, which need not be those of an
    order, nor those that were given to the operations before it.

    As the answers decide where a put adds the new element, the history says
    where a traversal has found it. *)
Inductive any_history (cmp obj : Z) : heap -> Z -> list assoc -> Prop :=
| NH_make h t h' :
    make_avl_tree_2 cmp obj h = Ok (t, h') -> any_history cmp obj h' t []
| NH_put (call : comparator) h t m1 o m2 k v r h' e n :
    any_history cmp obj h t (m1 ++ o ++ m2) -> sparse (m1 ++ o ++ m2) ->
    avl_tree_put call t k v h = Ok (r, h') -> taken r o ->
    traverse_forward t n h' = Ok (handles (m1 ++ (e, k, v) :: m2), h') ->
    any_history cmp obj h' t (m1 ++ (e, k, v) :: m2)
| NH_pop (call : comparator) h t m1 k' v m2 k r h' :
    any_history cmp obj h t (m1 ++ (r, k', v) :: m2) ->
    avl_tree_pop call t k h = Ok (r, h') -> any_history cmp obj h' t (m1 ++ m2)
| NH_detach h t m1 e k v m2 h' :
    any_history cmp obj h t (m1 ++ (e, k, v) :: m2) ->
    avl_tree_detach t e h = Ok (tt, h') -> any_history cmp obj h' t (m1 ++ m2)
| NH_remove h t m1 e k v m2 h' :
    any_history cmp obj h t (m1 ++ (e, k, v) :: m2) ->
    avl_tree_remove t e h = Ok (tt, h') -> any_history cmp obj h' t (m1 ++ m2)
| NH_pop_first h t m r h' :
    any_history cmp obj h t m -> avl_tree_pop_first t h = Ok (r, h') -> any_history cmp obj h' t (tl m)
| NH_pop_last h t m r h' :
    any_history cmp obj h t m -> avl_tree_pop_last t h = Ok (r, h') -> any_history cmp obj h' t (removelast m)
| NH_copy h t m t' h' m' n :
    any_history cmp obj h t m -> avl_tree_copy t h = Ok (t', h') ->
    map a_pair m' = map a_pair m -> traverse_forward t' n h' = Ok (handles m', h') ->
    any_history cmp obj h' t' m'
| NH_other h t m h' :
    any_history cmp obj h t m -> (forall x, In x (footprint t m) -> get h' x = get h x) ->
    any_history cmp obj h' t m.

(** What every operation on a tree leaves alone: an allocated cell that did not
    belong to the tree is unchanged and does not belong to it now; what belongs
    to it now is allocated; a cell that belonged to it neither before nor now is
    unchanged. *)
Definition confined (t : Z) (h : heap) (m : list assoc) (h' : heap) (m' : list assoc) : Prop :=
  (forall x, ~ In x (footprint t m) -> get h x <> None -> get h' x = get h x /\ ~ In x (footprint t m')) /\
  (forall x, In x (footprint t m') -> get h' x <> None) /\
  (forall x, ~ In x (footprint t m) -> ~ In x (footprint t m') -> get h' x = get h x).

(** A lookup has given NULL or an element of the tree whose key answers to [P]. *)
Definition null_or_member (P : Z -> Prop) (m : list assoc) (e : Z) : Prop :=
  e = 0 \/ exists k v, In (e, k, v) m /\ P k.

(** An element outside of trees that still has its key and value. *)
Definition readable (h : heap) (e k v : Z) : Prop :=
  avl_elem_get_key e h = Ok (k, h) /\ avl_elem_get_value e h = Ok (v, h).
