(** Model of the program test/priorq_perf.c with any elements. What is printed, the clock and the
    random data are left out. *)
From Verif Require Import Base CMem Heap ObjModel AvlModel AvlSpec TreeKeyModel QueueKeyModel.

(** memcmp() of [n] bytes *)
Fixpoint memcmp (n : nat) (a b : list Z) : res Z :=
  match n with
  | O => Ok 0
  | S n =>
      match a, b with
      | x :: a, y :: b => if x =? y then memcmp n a b else Ok (x - y)
      | _, _ => UB
      end
  end.

Section Perf.
(** The enum K. An element is a struct with [K] bytes in the fields 0 to [K] - 1 and the locator in
    field [K]; the program has an array of them, here each is a block of its own. *)
Context (K : nat) (junk : nat -> Z).

(** test/priorq_perf.c:32-35 cmp *)
Definition perf_cmp : Z -> Z -> Z -> Z -> M Z := fun _ value1 value2 _ =>
  let! a := ld_slots value1 in
  let! b := ld_slots value2 in
  lift (memcmp K a b).
(** test/priorq_perf.c:37-40 reloc *)
Definition perf_reloc : Z -> Z -> Z -> Z -> M unit := fun _ value loc _ => set_field value (Z.of_nat K) loc.
(** The addresses of the two functions *)
Definition CMP : Z := 1.
Definition RELOC : Z := 2.

(** test/priorq_perf.c:46-47 *)
Fixpoint put_all (tree : Z) (elements : list Z) : M unit :=
  match elements with
  | [] => ret tt
  | e :: elements => do! t_avl_tree_put perf_cmp tree e e in put_all tree elements
  end.
(** test/priorq_perf.c:42-49 enter_avl_data; src/avltree.c:27-30 make_avl_tree *)
Definition enter_avl_data (elements : list Z) : M Z :=
  let! tree := make_avl_tree_2 CMP 0 in
  do! put_all tree elements in
  ret tree.
(** test/priorq_perf.c:55-56 *)
Fixpoint enqueue_all (prq : Z) (elements : list Z) : M unit :=
  match elements with
  | [] => ret tt
  | e :: elements => do! m_priorq_enqueue perf_cmp perf_reloc junk prq e in enqueue_all prq elements
  end.
(** test/priorq_perf.c:51-58 enter_pr_data; src/priority_queue.c:36-40 make_priority_queue *)
Definition enter_pr_data (elements : list Z) : M Z :=
  let! prq := m_make_priority_queue_2 junk CMP RELOC 0 in
  do! enqueue_all prq elements in
  ret prq.
(** test/priorq_perf.c:81-82 *)
Fixpoint dequeue_loop (fuel : nat) (prq : Z) : M unit :=
  match fuel with
  | O => no_fuel
  | S fuel =>
      let! b := m_priorq_empty prq in
      if (b : bool) then ret tt
      else do! m_priorq_dequeue perf_cmp perf_reloc prq in dequeue_loop fuel prq
  end.
(** test/priorq_perf.c:90-91 *)
Fixpoint remove_loop (prq : Z) (elements : list Z) : M unit :=
  match elements with
  | [] => ret tt
  | e :: elements =>
      let! loc := field e (Z.of_nat K) in
      do! m_priorq_remove perf_cmp perf_reloc prq loc in
      remove_loop prq elements
  end.

(** test/priorq_perf.c:67-96 test_performance, in three parts; the loops end after at most one round for each
    element and one more *)
Definition measure_avl (elements : list Z) : M unit :=
  let! tree := enter_avl_data elements in
  do! traverse_forward tree (length elements) in
  destroy_avl_tree tree.
Definition measure_dequeue (elements : list Z) : M unit :=
  let! prq := enter_pr_data elements in
  do! dequeue_loop (S (length elements)) prq in
  m_destroy_priority_queue prq.
Definition measure_remove (elements : list Z) : M unit :=
  let! prq := enter_pr_data elements in
  do! remove_loop prq elements in
  m_destroy_priority_queue prq.
Definition test_performance (elements : list Z) : M unit :=
  do! measure_avl elements in
  do! measure_dequeue elements in
  measure_remove elements.
End Perf.
