(** The functions of AvlModel.v that go from one element to another, with a count
    of the links (left, right, parent) they follow, which the C functions do not
    have. The count is the second component of the result; without it the
    functions are those of AvlModel.v (C114_same). *)
From Verif Require Import Base Heap AvlModel AvlSpec.

(** src/avltree.c:87-88 (the loop of previous_descendant), 491-494 (that of
    avl_tree_get_last) *)
Fixpoint rightmost_moves (n : nat) (adj : Z) : M (Z * Z) :=
  match n with
  | O => no_fuel
  | S n =>
      let! e := ld_aelem adj in
      if ae_right e =? 0 then ret (adj, 0)
      else let! r := rightmost_moves n (ae_right e) in ret (fst r, 1 + snd r)
  end.
(** src/avltree.c:141-142 (the loop of next_descendant), 479-482 (that of
    avl_tree_get_first) *)
Fixpoint leftmost_moves (n : nat) (adj : Z) : M (Z * Z) :=
  match n with
  | O => no_fuel
  | S n =>
      let! e := ld_aelem adj in
      if ae_left e =? 0 then ret (adj, 0)
      else let! r := leftmost_moves n (ae_left e) in ret (fst r, 1 + snd r)
  end.

(** src/avltree.c:82-90 previous_descendant *)
Definition previous_descendant_moves (element : Z) : M (Z * Z) :=
  let! e := ld_aelem element in
  if ae_left e =? 0 then ret (0, 0)
  else let! n := fuel in let! r := rightmost_moves n (ae_left e) in ret (fst r, 1 + snd r).
(** src/avltree.c:136-144 next_descendant *)
Definition next_descendant_moves (element : Z) : M (Z * Z) :=
  let! e := ld_aelem element in
  if ae_right e =? 0 then ret (0, 0)
  else let! n := fuel in let! r := leftmost_moves n (ae_right e) in ret (fst r, 1 + snd r).

(** src/avltree.c:97-99 (the loop of avl_tree_previous) *)
Fixpoint climb_left_moves (n : nat) (element : Z) : M (Z * Z) :=
  match n with
  | O => no_fuel
  | S n =>
      let! e := ld_aelem element in
      if ae_parent e =? 0 then ret (ae_parent e, 0)
      else
        let! p := ld_aelem (ae_parent e) in
        if ae_left p =? element
        then let! r := climb_left_moves n (ae_parent e) in ret (fst r, 1 + snd r)
        else ret (ae_parent e, 1)
  end.
(** src/avltree.c:151-153 (the loop of avl_tree_next) *)
Fixpoint climb_right_moves (n : nat) (element : Z) : M (Z * Z) :=
  match n with
  | O => no_fuel
  | S n =>
      let! e := ld_aelem element in
      if ae_parent e =? 0 then ret (ae_parent e, 0)
      else
        let! p := ld_aelem (ae_parent e) in
        if ae_right p =? element
        then let! r := climb_right_moves n (ae_parent e) in ret (fst r, 1 + snd r)
        else ret (ae_parent e, 1)
  end.

(** src/avltree.c:92-100 avl_tree_previous *)
Definition avl_tree_previous_moves (element : Z) : M (Z * Z) :=
  let! adj := previous_descendant_moves element in
  if fst adj =? 0 then let! n := fuel in climb_left_moves n element else ret adj.
(** src/avltree.c:146-154 avl_tree_next *)
Definition avl_tree_next_moves (element : Z) : M (Z * Z) :=
  let! adj := next_descendant_moves element in
  if fst adj =? 0 then let! n := fuel in climb_right_moves n element else ret adj.

(** src/avltree.c:474-484 avl_tree_get_first *)
Definition avl_tree_get_first_moves (tree : Z) : M (Z * Z) :=
  let! empty := avl_tree_empty tree in
  if empty then ret (0, 0)
  else
    let! t := ld_avl tree in
    let! n := fuel in
    leftmost_moves n (av_root t).
(** src/avltree.c:486-496 avl_tree_get_last *)
Definition avl_tree_get_last_moves (tree : Z) : M (Z * Z) :=
  let! empty := avl_tree_empty tree in
  if empty then ret (0, 0)
  else
    let! t := ld_avl tree in
    let! n := fuel in
    rightmost_moves n (av_root t).

(** The client loops of AvlSpec.v, with the sum of the counts. *)
Fixpoint walk_moves (step : Z -> M (Z * Z)) (n : nat) (e : Z) : M (list Z * Z) :=
  if e =? 0 then ret ([], 0)
  else match n with
       | O => no_fuel
       | S n =>
           let! e' := step e in
           let! rest := walk_moves step n (fst e') in
           ret (e :: fst rest, snd e' + snd rest)
       end.
Definition traverse_forward_moves (t : Z) (n : nat) : M (list Z * Z) :=
  let! e := avl_tree_get_first_moves t in
  let! r := walk_moves avl_tree_next_moves n (fst e) in
  ret (fst r, snd e + snd r).
Definition traverse_backward_moves (t : Z) (n : nat) : M (list Z * Z) :=
  let! e := avl_tree_get_last_moves t in
  let! r := walk_moves avl_tree_previous_moves n (fst e) in
  ret (fst r, snd e + snd r).
