(** AVL trees with keys in memory. *)
From Verif Require Import Base Heap AvlModel KeySpec TreeKeyModel.
From Verif Require AvlSpec.
Open Scope list_scope.
Open Scope Z_scope.

Section Keys.
Context {X : Type} (read : list Z -> option X).
Notation key_at := (key_at read).
Notation readable := (readable read).

(** What the user provides: a total preorder, and a function that compares keys at addresses in this
    order, without changing memory. *)
Context (ask : asker) (cmp obj : Z) (C : X -> X -> Z).
Record comparing : Prop := {
  C_flip : forall x y, readable x -> readable y -> (C x y < 0 <-> C y x > 0);
  C_order : forall x y z, readable x -> readable y -> readable z -> C x y <= 0 -> C y z <= 0 -> C x z <= 0;
  asks_order : forall h k x l y, key_at h k x -> key_at h l y -> ask cmp k l obj h = Ok (C x y, h)
}.

Notation entry := (entry (X := X)).
Definition below (x : X) (m : list entry) : Prop := forall a, In a m -> C (content a) x < 0.
Definition above (x : X) (m : list entry) : Prop := forall a, In a m -> C x (content a) < 0.
(** The tree and its elements. *)
Definition foot (t : Z) (m : list entry) : list Z := t :: map elem m.

(** [e] is the element with the greatest (least) key of those in [m] that satisfy [Q], or NULL. *)
Definition greatest_key (Q : X -> Prop) (m : list entry) (e : Z) : Prop :=
  (e = 0 /\ forall a, In a m -> ~ Q (content a)) \/
  (exists a, In a m /\ elem a = e /\ Q (content a) /\ forall b, In b m -> Q (content b) -> C (content b) (content a) <= 0).
Definition least_key (Q : X -> Prop) (m : list entry) (e : Z) : Prop :=
  (e = 0 /\ forall a, In a m -> ~ Q (content a)) \/
  (exists a, In a m /\ elem a = e /\ Q (content a) /\ forall b, In b m -> Q (content b) -> C (content a) (content b) <= 0).

(** The public functions, what they should return, and what they should do to the associations. *)
Inductive t_op (t : Z) (h : heap) (m : list entry) (h' : heap) : Z -> list entry -> Prop :=
| TO_put_new k x v r e m1 m2 :
    key_at h k x -> m = m1 ++ m2 -> below x m1 -> above x m2 -> few m ->
    t_avl_tree_put ask t k v h = Ok (r, h') -> t_avl_tree_get ask t k h' = Ok (e, h') ->
    t_op t h m h' r (m1 ++ (e, k, x, v) :: m2)
| TO_put_replace k x v r e e0 k0 x0 v0 m1 m2 :
    key_at h k x -> m = m1 ++ (e0, k0, x0, v0) :: m2 -> C x x0 = 0 ->
    t_avl_tree_put ask t k v h = Ok (r, h') -> t_avl_tree_get ask t k h' = Ok (e, h') ->
    t_op t h m h' r (m1 ++ (e, k, x, v) :: m2)
| TO_pop k x r e k0 x0 v m1 m2 :
    key_at h k x -> m = m1 ++ (e, k0, x0, v) :: m2 -> C x x0 = 0 ->
    t_avl_tree_pop ask t k h = Ok (r, h') -> t_op t h m h' r (m1 ++ m2)
| TO_pop_none k x r :
    key_at h k x -> missing C x m -> t_avl_tree_pop ask t k h = Ok (r, h') -> t_op t h m h' r m
| TO_detach e k x v m1 m2 :
    m = m1 ++ (e, k, x, v) :: m2 -> avl_tree_detach t e h = Ok (tt, h') -> t_op t h m h' 0 (m1 ++ m2)
| TO_remove e k x v m1 m2 :
    m = m1 ++ (e, k, x, v) :: m2 -> avl_tree_remove t e h = Ok (tt, h') -> t_op t h m h' 0 (m1 ++ m2)
| TO_pop_first r : avl_tree_pop_first t h = Ok (r, h') -> t_op t h m h' r (tl m)
| TO_pop_last r : avl_tree_pop_last t h = Ok (r, h') -> t_op t h m h' r (removelast m).

(** [sorted_tree h t m]: in heap [h], [t] is a tree that was made with this comparison (or is a copy of
    one) and used in such ways that its associations should be [m], in this order. In between, the
    program may have changed all memory that does not belong to the tree, as long as the keys that
    are in the tree are the same as before. *)
Inductive sorted_tree : heap -> Z -> list entry -> Prop :=
| T_make h t h' : make_avl_tree_2 cmp obj h = Ok (t, h') -> sorted_tree h' t []
| T_op h t m r h' m' : sorted_tree h t m -> t_op t h m h' r m' -> sorted_tree h' t m'
| T_copy h t m t' h' m' n :
    sorted_tree h t m -> avl_tree_copy t h = Ok (t', h') ->
    map (fun a => (address a, content a, value a)) m' = map (fun a => (address a, content a, value a)) m ->
    AvlSpec.traverse_forward t' n h' = Ok (map elem m', h') -> sorted_tree h' t' m'
| T_other h t m h' :
    sorted_tree h t m -> (forall y, In y (foot t m) -> get h' y = get h y) ->
    (forall a, In a m -> key_at h' (address a) (content a)) -> sorted_tree h' t m.

(** Other memory, also unused memory, is as it was; memory that was in use is not taken by the tree. *)
Definition kept_by (t : Z) (m m' : list entry) (h h' : heap) : Prop :=
  (forall y, ~ In y (foot t m) -> get h y <> None -> get h' y = get h y /\ ~ In y (foot t m')) /\
  (forall y, ~ In y (foot t m) -> ~ In y (foot t m') -> get h' y = get h y).
End Keys.

(** The order of words in a dictionary: a word comes before its continuations, else the first byte
    that differs decides. *)
Definition comes_before (s t : list Z) : Prop :=
  (exists c r, t = s ++ c :: r) \/ (exists p c d s' t', s = p ++ c :: s' /\ t = p ++ d :: t' /\ c < d).
