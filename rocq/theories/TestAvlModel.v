(** Models of the programs test/avltest.c and test/priorq_test.c with any number of elements and any
    data instead of a million random keys. [xs] are the addresses of the elements (which are also the
    addresses of their keys), [call] interprets the comparison function [cmp]. What is printed is
    left out. *)
From Verif Require Import Base Heap AvlModel PriorqModel.

(** assert() *)
Definition check (b : bool) : M unit := fun h => if b then Ok (tt, h) else Abort.

(** test/avltest.c:39-51 enter_element, enter_data (the loop) *)
Fixpoint enter_elements (call : comparator) (tree : Z) (xs : list Z) : M unit :=
  match xs with
  | [] => ret tt
  | x :: xs =>
      let! old := avl_tree_put call tree x x in
      do! check (old =? 0) in
      enter_elements call tree xs
  end.
(** test/avltest.c:45-51 enter_data *)
Definition enter_data (call : comparator) (cmp : Z) (xs : list Z) : M Z :=
  let! tree := make_avl_tree cmp in
  do! enter_elements call tree xs in
  ret tree.

(** test/avltest.c:91-101 verify_node; [n] is for the recursion *)
Fixpoint verify_node (n : nat) (node : Z) : M unit :=
  match n with
  | O => no_fuel
  | S n =>
      let! c := ld_aelem node in
      do! (if truth (ae_left c) then
             let! l := ld_aelem (ae_left c) in
             do! check (ae_parent l =? node) in
             verify_node n (ae_left c)
           else ret tt) in
      if truth (ae_right c) then
        let! r := ld_aelem (ae_right c) in
        do! check (ae_parent r =? node) in
        verify_node n (ae_right c)
      else ret tt
  end.
(** test/avltest.c:103-109 verify_structure *)
Definition verify_structure (n : nat) (t : Z) : M unit :=
  let! c := ld_avl t in
  if av_root c =? 0 then ret tt
  else
    let! r := ld_aelem (av_root c) in
    do! check (ae_parent r =? 0) in
    verify_node n (av_root c).

(** test/avltest.c:116-122, 125-131: the loops of test_tree_size *)
Fixpoint count_nodes (step : Z -> M Z) (fuel : nat) (node n size : Z) : M Z :=
  if node =? 0 then ret n
  else
    match fuel with
    | O => no_fuel
    | S fuel =>
        do! check (n <? size) in
        let! node := step node in
        count_nodes step fuel node (n + 1) size
    end.
(** test/avltest.c:111-133 test_tree_size *)
Definition test_tree_size (t size : Z) : M unit :=
  let! c := ld_avl t in
  do! check (av_size c =? size) in
  let! node := avl_tree_get_first t in
  let! n := count_nodes avl_tree_next (Z.to_nat size) node 0 size in
  do! check (n =? size) in
  let! node := avl_tree_get_last t in
  let! n := count_nodes avl_tree_previous (Z.to_nat size) node 0 size in
  check (n =? size).

(** test/avltest.c:135-142, 146: check_height. The limit is 1.45 * log2(size + 2); the comparison of
    doubles is taken as one of the numbers: 20 * height < 29 * log2(size + 2). *)
Fixpoint check_height (n : nat) (node height size : Z) : M unit :=
  if node =? 0 then ret tt
  else
    match n with
    | O => no_fuel
    | S n =>
        let! c := ld_aelem node in
        do! check (2 ^ (20 * height) <? (size + 2) ^ 29) in
        do! check_height n (ae_left c) (height + 1) size in
        check_height n (ae_right c) (height + 1) size
    end.
(** test/avltest.c:144-148 verify_height *)
Definition verify_height (n : nat) (t size : Z) : M unit :=
  let! c := ld_avl t in
  check_height n (av_root c) 1 size.

(** test/avltest.c:155-161: the loop of verify_order; keycmp is [call cmp _ _ 0] *)
Fixpoint order_loop (call : comparator) (cmp : Z) (fuel : nat) (node1 : Z) : M unit :=
  let! node2 := avl_tree_next node1 in
  if node2 =? 0 then ret tt
  else
    match fuel with
    | O => no_fuel
    | S fuel =>
        let! k1 := avl_elem_get_key node1 in
        let! k2 := avl_elem_get_key node2 in
        do! check (call cmp k1 k2 0 <? 0) in
        order_loop call cmp fuel node2
    end.
(** test/avltest.c:150-162 verify_order *)
Definition verify_order (call : comparator) (cmp : Z) (fuel : nat) (t : Z) : M unit :=
  let! node1 := avl_tree_get_first t in
  if node1 =? 0 then ret tt else order_loop call cmp fuel node1.

(** test/avltest.c:168-173: the loop of verify_copy *)
Fixpoint copy_loop (call : comparator) (fuel : nat) (copy node : Z) : M unit :=
  if node =? 0 then ret tt
  else
    match fuel with
    | O => no_fuel
    | S fuel =>
        let! k := avl_elem_get_key node in
        let! copy_node := avl_tree_pop call copy k in
        do! check (truth copy_node) in
        let! v := avl_elem_get_value node in
        let! w := avl_elem_get_value copy_node in
        do! check (v =? w) in
        do! destroy_avl_element copy_node in
        let! node := avl_tree_next node in
        copy_loop call fuel copy node
    end.
(** test/avltest.c:164-176 verify_copy *)
Definition verify_copy (call : comparator) (fuel : nat) (t : Z) : M unit :=
  let! copy := avl_tree_copy t in
  let! node := avl_tree_get_first t in
  do! copy_loop call fuel copy node in
  let! e := avl_tree_empty copy in
  do! check e in
  destroy_avl_tree copy.

(** test/avltest.c:178-186 remove_elements; [xs] are the elements from begin to end *)
Fixpoint remove_elements (call : comparator) (t : Z) (xs : list Z) : M unit :=
  match xs with
  | [] => ret tt
  | x :: xs =>
      let! node := avl_tree_pop call t x in
      do! check (truth node) in
      do! destroy_avl_element node in
      remove_elements call t xs
  end.

(** test/avltest.c:188-202 verify_tree. No loop or recursion goes deeper than the size. *)
Definition verify_tree (call : comparator) (cmp t size : Z) : M unit :=
  let n := Z.to_nat size in
  do! verify_structure n t in
  do! test_tree_size t size in
  do! verify_height n t size in
  do! verify_order call cmp n t in
  verify_copy call n t.

(** test/avltest.c:204-214 do_tree *)
Definition do_tree (call : comparator) (cmp t : Z) (xs : list Z) : M unit :=
  let size := zlen xs in
  do! verify_tree call cmp t size in
  let half := size / 2 in
  do! remove_elements call t (firstn (Z.to_nat half) xs) in
  do! verify_tree call cmp t (size - half) in
  do! remove_elements call t (skipn (Z.to_nat half) xs) in
  verify_tree call cmp t 0.

(** test/avltest.c:219-226, 232-239: the loops of enter_ordered_data and enter_reverse_data *)
Fixpoint enter_from (call : comparator) (step : Z -> M Z) (fuel : nat) (tree node : Z) : M unit :=
  if node =? 0 then ret tt
  else
    match fuel with
    | O => no_fuel
    | S fuel =>
        let! element := avl_elem_get_value node in
        let! old := avl_tree_put call tree element element in
        do! check (old =? 0) in
        let! node := step node in
        enter_from call step fuel tree node
    end.
(** test/avltest.c:216-227 enter_ordered_data *)
Definition enter_ordered_data (call : comparator) (cmp : Z) (fuel : nat) (tree : Z) : M Z :=
  let! tree_ordered := make_avl_tree cmp in
  let! node := avl_tree_get_first tree in
  do! enter_from call avl_tree_next fuel tree_ordered node in
  ret tree_ordered.
(** test/avltest.c:229-240 enter_reverse_data *)
Definition enter_reverse_data (call : comparator) (cmp : Z) (fuel : nat) (tree : Z) : M Z :=
  let! tree_reverse := make_avl_tree cmp in
  let! node := avl_tree_get_last tree in
  do! enter_from call avl_tree_previous fuel tree_reverse node in
  ret tree_reverse.

(** test/avltest.c:242-254 main *)
Definition avltest (call : comparator) (cmp : Z) (xs : list Z) : M unit :=
  let! tree := enter_data call cmp xs in
  let! tree_ordered := enter_ordered_data call cmp (length xs) tree in
  let! tree_reverse := enter_reverse_data call cmp (length xs) tree in
  do! do_tree call cmp tree xs in
  do! do_tree call cmp tree_ordered xs in
  do_tree call cmp tree_reverse xs.

(** test/priorq_test.c:45-48: the loop of enter_avl_data *)
Fixpoint put_elements (call : comparator) (tree : Z) (xs : list Z) : M unit :=
  match xs with
  | [] => ret tt
  | x :: xs => do! avl_tree_put call tree x x in put_elements call tree xs
  end.
(** test/priorq_test.c:42-49 enter_avl_data *)
Definition enter_avl_data (call : comparator) (cmp : Z) (xs : list Z) : M Z :=
  let! tree := make_avl_tree cmp in
  do! put_elements call tree xs in
  ret tree.
(** test/priorq_test.c:51-58 enter_pr_data. The queue is a value, as in PriorqModel.v; [compare] is
    what [cmp] computes. *)
Fixpoint enter_pr_data (compare : Z -> Z -> Z) (junk : nat -> Z) (q : priorq) (xs : list Z) : res priorq :=
  match xs with
  | [] => Ok q
  | x :: xs => q <- priorq_enqueue compare junk q x ;; enter_pr_data compare junk q xs
  end.
(** test/priorq_test.c:66-73: the loop of test_correctness *)
Fixpoint dequeue_loop (compare : Z -> Z -> Z) (fuel : nat) (q : priorq) (ae : Z) : M bool :=
  if priorq_empty q then ret true
  else
    match fuel with
    | O => no_fuel
    | S fuel =>
        let! r := lift (priorq_dequeue compare q) in
        let! v := avl_elem_get_value ae in
        if negb (snd r =? v) then ret false
        else
          let! ae := avl_tree_next ae in
          dequeue_loop compare fuel (fst r) ae
    end.
(** test/priorq_test.c:60-77 test_correctness *)
Definition test_correctness (call : comparator) (cmp : Z) (junk : nat -> Z) (xs : list Z) : M bool :=
  let compare a b := call cmp a b 0 in
  let! tree := enter_avl_data call cmp xs in
  let! ae := avl_tree_get_first tree in
  let! prq := lift (enter_pr_data compare junk make_priority_queue xs) in
  let! ok := dequeue_loop compare (length xs) prq ae in
  if ok then do! destroy_avl_tree tree in ret true else ret false.
