(** AVL trees as sorted sequences of associations, with a history. *)
From Verif Require Import Base Heap AvlModel.
From Coq Require Export Sorted.

(** An association: the handle of the element, its key and its value. *)
Definition assoc : Type := Z * Z * Z.
Definition a_elem (a : assoc) : Z := fst (fst a).
Definition a_key (a : assoc) : Z := snd (fst a).
Definition a_value (a : assoc) : Z := snd a.
Definition a_pair (a : assoc) : Z * Z := (a_key a, a_value a).
Definition handles (m : list assoc) : list Z := map a_elem m.

(** What the user of a tree has to provide: a comparison like memcmp() that is a
    total preorder of the keys. *)
Record total_preorder (f : Z -> Z -> Z) : Prop := {
  cmp_flip : forall k1 k2, f k1 k2 < 0 <-> f k2 k1 > 0;
  cmp_trans : forall k1 k2 k3, f k1 k2 <= 0 -> f k2 k3 <= 0 -> f k1 k3 <= 0
}.

Definition all_below (f : Z -> Z -> Z) (k : Z) (m : list assoc) : Prop := forall a, In a m -> f (a_key a) k < 0.
Definition all_above (f : Z -> Z -> Z) (k : Z) (m : list assoc) : Prop := forall a, In a m -> f k (a_key a) < 0.
(** No association of [m] has a key equal to [k]. *)
Definition absent (f : Z -> Z -> Z) (k : Z) (m : list assoc) : Prop := forall a, In a m -> f k (a_key a) <> 0.

(** In strictly increasing order of the keys. *)
Definition increasing (f : Z -> Z -> Z) (m : list assoc) : Prop :=
  StronglySorted (fun a b => f (a_key a) (a_key b) < 0) m.

(** No tree of 2^60 elements fits the memory. *)
Definition sparse (m : list assoc) : Prop := zlen m < 2 ^ 60.

(** The cells that belong to a tree. *)
Definition footprint (t : Z) (m : list assoc) : list Z := t :: handles m.

(** Client loops over the elements. *)
Fixpoint walk (step : Z -> M Z) (n : nat) (e : Z) : M (list Z) :=
  if e =? 0 then ret []
  else match n with
       | O => no_fuel
       | S n =>
           let! e' := step e in
           let! rest := walk step n e' in
           ret (e :: rest)
       end.
Definition traverse_forward (t : Z) (n : nat) : M (list Z) :=
  let! e := avl_tree_get_first t in walk avl_tree_next n e.
Definition traverse_backward (t : Z) (n : nat) : M (list Z) :=
  let! e := avl_tree_get_last t in walk avl_tree_previous n e.

(** One operation on the tree [t], whose comparison is [f]: the public function
    called, what it returns ([r]; 0 for functions that return nothing), and what
    it should do to the sequence of associations. *)
Inductive avl_op (call : comparator) (f : Z -> Z -> Z) (t : Z) (h : heap) (m : list assoc) (h' : heap) :
  Z -> list assoc -> Prop :=
| AO_put_new k v r e m1 m2 :
    m = m1 ++ m2 -> all_below f k m1 -> all_above f k m2 -> sparse m ->
    avl_tree_put call t k v h = Ok (r, h') -> avl_tree_get call t k h' = Ok (e, h') ->
    avl_op call f t h m h' r (m1 ++ (e, k, v) :: m2)
| AO_put_replace k v r e e0 k0 v0 m1 m2 :
    m = m1 ++ (e0, k0, v0) :: m2 -> f k k0 = 0 ->
    avl_tree_put call t k v h = Ok (r, h') -> avl_tree_get call t k h' = Ok (e, h') ->
    avl_op call f t h m h' r (m1 ++ (e, k, v) :: m2)
| AO_pop k r e k0 v m1 m2 :
    m = m1 ++ (e, k0, v) :: m2 -> f k k0 = 0 ->
    avl_tree_pop call t k h = Ok (r, h') -> avl_op call f t h m h' r (m1 ++ m2)
| AO_pop_none k r :
    absent f k m -> avl_tree_pop call t k h = Ok (r, h') -> avl_op call f t h m h' r m
| AO_detach e k v m1 m2 :
    m = m1 ++ (e, k, v) :: m2 -> avl_tree_detach t e h = Ok (tt, h') -> avl_op call f t h m h' 0 (m1 ++ m2)
| AO_remove e k v m1 m2 :
    m = m1 ++ (e, k, v) :: m2 -> avl_tree_remove t e h = Ok (tt, h') -> avl_op call f t h m h' 0 (m1 ++ m2)
| AO_pop_first r :
    avl_tree_pop_first t h = Ok (r, h') -> avl_op call f t h m h' r (tl m)
| AO_pop_last r :
    avl_tree_pop_last t h = Ok (r, h') -> avl_op call f t h m h' r (removelast m).

(** [avl_history call cmp obj h t m]: in heap [h], [t] is a tree that has been
    made with the comparison function [cmp] and its context argument [obj] (or is
    a copy of such a tree) and has been modified in such ways that its
    associations should be [m], in this order. In between, the rest of the
    program may have changed, allocated and freed any memory that does not belong
    to the tree ([AH_other]), other trees included. It may also have changed what
    the comparison function says, or the keys in place, in ways that keep those
    keys that are in the tree in their order ([AH_reorder]). *)
Inductive avl_history (call : comparator) (cmp obj : Z) : heap -> Z -> list assoc -> Prop :=
| AH_make h t h' :
    total_preorder (fun k1 k2 => call cmp k1 k2 obj) ->
    make_avl_tree_2 cmp obj h = Ok (t, h') -> avl_history call cmp obj h' t []
| AH_op h t m r h' m' :
    avl_history call cmp obj h t m -> avl_op call (fun k1 k2 => call cmp k1 k2 obj) t h m h' r m' ->
    avl_history call cmp obj h' t m'
| AH_copy h t m t' h' m' n :
    avl_history call cmp obj h t m -> avl_tree_copy t h = Ok (t', h') ->
    map a_pair m' = map a_pair m -> traverse_forward t' n h' = Ok (handles m', h') ->
    avl_history call cmp obj h' t' m'
| AH_other h t m h' :
    avl_history call cmp obj h t m -> (forall x, In x (footprint t m) -> get h' x = get h x) ->
    avl_history call cmp obj h' t m
| AH_reorder call' h t m :
    avl_history call' cmp obj h t m ->
    total_preorder (fun k1 k2 => call cmp k1 k2 obj) -> increasing (fun k1 k2 => call cmp k1 k2 obj) m ->
    avl_history call cmp obj h t m.

(** Several operations on one tree in a row. *)
Inductive avl_ops (call : comparator) (f : Z -> Z -> Z) (t : Z) : heap -> list assoc -> heap -> list assoc -> Prop :=
| AS_none h m : avl_ops call f t h m h m
| AS_more h m r h1 m1 h2 m2 :
    avl_op call f t h m h1 r m1 -> avl_ops call f t h1 m1 h2 m2 -> avl_ops call f t h m h2 m2.

(** The height of the subtree of an element in the heap. *)
Inductive height_in (h : heap) : Z -> Z -> Prop :=
| HI_null : height_in h 0 0
| HI_elem e c hl hr :
    get h e = Some (CAelem c) -> height_in h (ae_left c) hl -> height_in h (ae_right c) hr ->
    height_in h e (1 + Z.max hl hr).

(** [n <= 1.45 * log2 (size + 2)] *)
Definition logarithmic (n size : Z) : Prop := 2 ^ (20 * n) <= (size + 2) ^ 29.

(** Two address lists without a common member. *)
Definition apart (xs ys : list Z) : Prop := forall x, In x xs -> ~ In x ys.

(** [e] is the element with the greatest (least) key of those associations of
    [m] whose key satisfies [P], or NULL if there is no such association. *)
Definition greatest (f : Z -> Z -> Z) (P : Z -> Prop) (m : list assoc) (e : Z) : Prop :=
  (e = 0 /\ forall a, In a m -> ~ P (a_key a)) \/
  (exists a, In a m /\ a_elem a = e /\ P (a_key a) /\ forall b, In b m -> P (a_key b) -> f (a_key b) (a_key a) <= 0).
Definition least (f : Z -> Z -> Z) (P : Z -> Prop) (m : list assoc) (e : Z) : Prop :=
  (e = 0 /\ forall a, In a m -> ~ P (a_key a)) \/
  (exists a, In a m /\ a_elem a = e /\ P (a_key a) /\ forall b, In b m -> P (a_key b) -> f (a_key a) (a_key b) <= 0).

(** [e] still holds [k] and [v] and is found under its key. *)
Definition found (call : comparator) (h : heap) (t e k v : Z) : Prop :=
  avl_elem_get_key e h = Ok (k, h) /\ avl_elem_get_value e h = Ok (v, h) /\ avl_tree_get call t k h = Ok (e, h).
