(** Property C114: the work of walking over an AVL tree (src/avltree.c). *)
From Verif Require Import Base Heap AvlModel AvlSpec AvlAnySpec AvlAny AvlWalkModel AvlWalk.

(** The functions that count links are the functions of the library. *)
Theorem C114_same : forall e t n h,
  (let! r := avl_tree_next_moves e in ret (fst r)) h = avl_tree_next e h /\
  (let! r := avl_tree_previous_moves e in ret (fst r)) h = avl_tree_previous e h /\
  (let! r := avl_tree_get_first_moves t in ret (fst r)) h = avl_tree_get_first t h /\
  (let! r := avl_tree_get_last_moves t in ret (fst r)) h = avl_tree_get_last t h /\
  (let! r := traverse_forward_moves t n in ret (fst r)) h = traverse_forward t n h /\
  (let! r := traverse_backward_moves t n in ret (fst r)) h = traverse_backward t n h.
Proof.
  intros e t n h. exact (conj (next_same e h) (conj (previous_same e h) (conj (first_same t h) (conj (last_same t h)
    (conj (forward_same t n h) (backward_same t n h)))))).
Qed.
Print Assumptions C114_same.

(** A walk over all elements, in either direction, follows two links for every
    element but one, and it changes nothing. As in C93, nothing is required of
    the comparisons that made the tree. *)
Theorem C114_traversal : forall cmp obj h t m n, any_history cmp obj h t m -> (length m <= n)%nat ->
  traverse_forward_moves t n h = Ok ((handles m, Z.max 0 (2 * (zlen m - 1))), h) /\
  traverse_backward_moves t n h = Ok ((rev (handles m), Z.max 0 (2 * (zlen m - 1))), h).
Proof.
  intros cmp obj h t m n H L. apply any_tree in H.
  exact (conj (forward_moves cmp obj h t m n H L) (backward_moves cmp obj h t m n H L)).
Qed.
Print Assumptions C114_traversal.

(** No single step follows more than 1.45 * log2 (size + 2) links. *)
Theorem C114_step : forall cmp obj h t m e, any_history cmp obj h t m -> In e (handles m) ->
  exists x i y j,
    avl_tree_next_moves e h = Ok ((x, i), h) /\ avl_tree_previous_moves e h = Ok ((y, j), h) /\
    0 <= i /\ 0 <= j /\ logarithmic i (zlen m) /\ logarithmic j (zlen m).
Proof. intros cmp obj h t m e H. exact (steps_log cmp obj h t m e (any_tree _ _ _ _ _ H)). Qed.
Print Assumptions C114_step.

Theorem C114_ends : forall cmp obj h t m, any_history cmp obj h t m ->
  exists x i y j,
    avl_tree_get_first_moves t h = Ok ((x, i), h) /\ avl_tree_get_last_moves t h = Ok ((y, j), h) /\
    0 <= i /\ 0 <= j /\ logarithmic i (zlen m) /\ logarithmic j (zlen m).
Proof. intros cmp obj h t m H. exact (ends_log cmp obj h t m (any_tree _ _ _ _ _ H)). Qed.
Print Assumptions C114_ends.

(** A tree of the keys 1 to 5, put in ascending order: 8 links in each direction.
    Two links lead from 3 up to 2 (by way of 4), and from 5 up to the root 2 (by
    way of 4) where the walk ends. *)
Definition ex_call : comparator := fun _ k1 k2 _ => k1 - k2.
Definition ex_tree : M Z :=
  let! t := make_avl_tree_2 0 0 in
  do! avl_tree_put ex_call t 1 10 in
  do! avl_tree_put ex_call t 2 20 in
  do! avl_tree_put ex_call t 3 30 in
  do! avl_tree_put ex_call t 4 40 in
  do! avl_tree_put ex_call t 5 50 in ret t.
Definition value {A} (r : res (A * heap)) : option A := match r with Ok (a, _) => Some a | _ => None end.
Example C114_example :
  value ((let! t := ex_tree in
          let! f := traverse_forward_moves t 5 in
          let! b := traverse_backward_moves t 5 in
          let! p := avl_tree_previous_moves (nth 2 (fst f) 0) in
          let! l := avl_tree_next_moves (nth 4 (fst f) 0) in
          ret (length (fst f), snd f, snd b, snd p, fst l, snd l)) heap0)
  = Some (5%nat, 8, 8, 2, 0, 2).
Proof. reflexivity. Qed.
(** A history that meets the hypotheses. *)
Definition after {A} (r : res (A * heap)) : heap := match r with Ok (_, h) => h | _ => heap0 end.
Definition ex1 : heap := after (make_avl_tree_2 0 0 heap0).
Definition ex2 : heap := after (avl_tree_put ex_call 100 1 10 ex1).
Definition ex3 : heap := after (avl_tree_put ex_call 100 2 20 ex2).
Definition ex4 : heap := after (avl_tree_put ex_call 100 3 30 ex3).
Example C114_history_example :
  any_history 0 0 ex4 100 [(101, 1, 10); (102, 2, 20); (103, 3, 30)] /\ value (traverse_forward_moves 100 3 ex4) = Some ([101; 102; 103], 4).
Proof.
  split; [|vm_compute; reflexivity].
  apply (NH_put 0 0 ex_call ex3 100 [(101, 1, 10); (102, 2, 20)] [] [] 3 30 0 _ 103 3); [|reflexivity|reflexivity|left; auto|reflexivity].
  apply (NH_put 0 0 ex_call ex2 100 [(101, 1, 10)] [] [] 2 20 0 _ 102 2); [|reflexivity|reflexivity|left; auto|reflexivity].
  apply (NH_put 0 0 ex_call ex1 100 [] [] [] 1 10 0 _ 101 1); [|reflexivity|reflexivity|left; auto|reflexivity].
  apply (NH_make 0 0 heap0). reflexivity.
Qed.
