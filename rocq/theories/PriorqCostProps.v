(** C90: work of the priority queue operations. *)
From Verif Require Import Base PriorqModel PriorqCostModel PriorqSpec PriorqProofs PriorqCost.

(** With [n] elements in the queue, whatever the comparator answers: enqueueing makes at most
    log2(n + 1) comparisons and reports at most one location more. [priorq_enqueue_counted]
    is [priorq_enqueue] with a counter. *)
Theorem C90_enqueue : forall cmp q n junk v, any_history cmp q n -> n + 1 < 2 ^ 60 ->
  exists q' k, priorq_enqueue_counted cmp junk q v = Ok (q', k) /\ priorq_enqueue cmp junk q v = Ok q' /\
    0 <= k <= Z.log2 (n + 1) /\ zlen (calls q') - zlen (calls q) <= Z.log2 (n + 1) + 1.
Proof.
  intros cmp q n junk v H L. apply any_history_safe in H as (W & D & C). destruct (enqueue_cost cmp junk q v W D ltac:(lia)) as (q' & k & A & B & K).
  exists q', k. rewrite C in K. split; [exact A|]. split; [exact B|]. lia.
Qed.
Print Assumptions C90_enqueue.

(** Dequeueing: two comparisons for each level at most. *)
Theorem C90_dequeue : forall cmp q n, any_history cmp q n ->
  exists q' x k, priorq_dequeue_counted cmp q = Ok (q', x, k) /\ priorq_dequeue cmp q = Ok (q', x) /\
    0 <= k <= 2 * Z.log2 (n - 1) /\ zlen (calls q') - zlen (calls q) <= Z.log2 (n - 1) + 1.
Proof.
  intros cmp q n H. apply any_history_safe in H as (W & D & C). destruct (dequeue_cost cmp q W D) as (q' & x & k & A & B & K).
  exists q', x, k. rewrite C in K. split; [exact A|]. split; [exact B|]. lia.
Qed.
Print Assumptions C90_dequeue.

(** Removal by location. *)
Theorem C90_remove : forall cmp q n loc, any_history cmp q n -> 0 <= loc < n ->
  exists q' x k, priorq_remove_counted cmp q loc = Ok (q', x, k) /\ priorq_remove cmp q loc = Ok (q', x) /\
    0 <= k <= 3 * Z.log2 n /\ zlen (calls q') - zlen (calls q) <= 2 * Z.log2 n + 1.
Proof.
  intros cmp q n loc H L. apply any_history_safe in H as (W & D & C). destruct (remove_cost cmp q loc W D ltac:(lia)) as (q' & x & k & A & B & K).
  exists q', x, k. rewrite C in K. split; [exact A|]. split; [exact B|]. lia.
Qed.
Print Assumptions C90_remove.

(** The bounds are reached: with six ascending elements, a seventh that is the least makes
    two comparisons, and dequeueing the first of the six makes four. *)
Example C90_example :
  let put := fun q v => match q with Ok q => priorq_enqueue Z.sub (fun _ => 0) q v | r => r end in
  exists q q' k k' x, fold_left put [10; 20; 30; 40; 50; 60] (Ok make_priority_queue) = Ok q /\ any_history Z.sub q 6 /\
    priorq_enqueue_counted Z.sub (fun _ => 0) q 0 = Ok (q', k) /\ k = Z.log2 (6 + 1) /\
    priorq_dequeue_counted Z.sub q = Ok (x, 10, k') /\ k' = 2 * Z.log2 (6 - 1).
Proof.
  intros put.
  assert (G : forall l q q' n, any_history Z.sub q n -> 0 <= n -> n + zlen l < 2 ^ 60 -> fold_left put l (Ok q) = Ok q' -> any_history Z.sub q' (n + zlen l)).
  { induction l as [|v l IH]; intros q q' n H P L E.
    - cbn in E. injection E as <-. change (zlen []) with 0. rewrite Z.add_0_r. exact H.
    - rewrite zlen_cons in *. pose proof (zlen_nonneg l). cbn [fold_left put] in E.
      destruct (C90_enqueue Z.sub q n (fun _ => 0) v H ltac:(lia)) as (q1 & k & _ & E1 & _). rewrite E1 in E.
      replace (n + (1 + zlen l)) with ((n + 1) + zlen l) by lia.
      apply (IH q1); [apply (A_enqueue Z.sub q n (fun _ => 0) v q1 H ltac:(lia) E1)|lia|lia|exact E]. }
  subst put. cbv beta in G. eexists _, _, _, _, _. split; [vm_compute; reflexivity|]. split.
  - apply (G [10; 20; 30; 40; 50; 60] make_priority_queue _ 0 (A_new Z.sub)); [lia|reflexivity|]. vm_compute. reflexivity.
  - split; [vm_compute; reflexivity|]. split; [reflexivity|]. split; vm_compute; reflexivity.
Qed.
