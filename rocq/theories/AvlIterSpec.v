(** AVL trees that are changed while they are traversed: loops of a client. *)
From Verif Require Import Base Heap AvlModel AvlSpec.

(** Removing the associations with the property [p]; the elements are returned in the order in which they are visited:
    for (e = avl_tree_get_first(t); e; e = next) {
        next = avl_tree_next(e);
        if (p(avl_elem_get_key(e), avl_elem_get_value(e))) avl_tree_remove(t, e);
    } *)
Fixpoint remove_loop (n : nat) (t : Z) (p : Z -> Z -> bool) (e : Z) : M (list Z) :=
  match n with
  | O => no_fuel
  | S n =>
      if e =? 0 then ret []
      else
        let! k := avl_elem_get_key e in
        let! v := avl_elem_get_value e in
        let! next := avl_tree_next e in
        do! (if p k v then avl_tree_remove t e else ret tt) in
        let! rest := remove_loop n t p next in
        ret (e :: rest)
  end.
Definition remove_if (n : nat) (t : Z) (p : Z -> Z -> bool) : M (list Z) :=
  let! e := avl_tree_get_first t in remove_loop n t p e.
Definition keep (p : Z -> Z -> bool) (m : list assoc) : list assoc := filter (fun a => negb (p (a_key a) (a_value a))) m.

(** Taking all associations out of the tree:
    while ((e = avl_tree_pop_first(t))) destroy_avl_element(e); *)
Fixpoint drain (n : nat) (t : Z) : M (list (Z * Z)) :=
  match n with
  | O => no_fuel
  | S n =>
      let! e := avl_tree_pop_first t in
      if e =? 0 then ret []
      else
        let! k := avl_elem_get_key e in
        let! v := avl_elem_get_value e in
        do! destroy_avl_element e in
        let! rest := drain n t in
        ret ((k, v) :: rest)
  end.

(** Giving every key a new value:
    for (e = avl_tree_get_first(t); e; e = next) {
        next = avl_tree_next(e);
        old = avl_tree_put(t, avl_elem_get_key(e), g(avl_elem_get_value(e)));
        if (old) destroy_avl_element(old);
    } *)
Fixpoint update_loop (n : nat) (call : comparator) (t : Z) (g : Z -> Z) (e : Z) : M unit :=
  match n with
  | O => no_fuel
  | S n =>
      if e =? 0 then ret tt
      else
        let! k := avl_elem_get_key e in
        let! v := avl_elem_get_value e in
        let! next := avl_tree_next e in
        let! old := avl_tree_put call t k (g v) in
        do! (if old =? 0 then ret tt else destroy_avl_element old) in
        update_loop n call t g next
  end.
Definition update_all (n : nat) (call : comparator) (t : Z) (g : Z -> Z) : M unit :=
  let! e := avl_tree_get_first t in update_loop n call t g e.

(** Only memory of the tree has been changed, new memory has been taken only where none was in use, and what the tree has
    given up has been freed. *)
Definition confined (t : Z) (m : list assoc) (h : heap) (m' : list assoc) (h' : heap) : Prop :=
  (forall x, ~ In x (footprint t m) -> get h x <> None -> ~ In x (footprint t m')) /\
  (forall x, ~ In x (footprint t m) -> ~ In x (footprint t m') -> get h' x = get h x) /\
  (forall x, In x (footprint t m) -> ~ In x (footprint t m') -> get h' x = None).
