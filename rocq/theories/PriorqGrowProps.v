(** Property C113: the memory of priority queues. *)
From Verif Require Import Base PriorqModel PriorqSpec PriorqProofs PriorqGrowSpec PriorqGrow.

(** The storage has room for the largest number of elements there ever was and
    at most twice as many slots; all replacements of the storage together have
    copied no more slots than it has; and there are only logarithmically many. *)
Theorem C113_storage : forall cmp q n peak moves, grown cmp q n peak moves ->
  priorq_size q = n /\ n <= peak /\
  peak <= zlen (storage q) <= 2 * peak /\
  sum (map fst moves) <= zlen (storage q) /\
  (moves = [] \/ 2 ^ zlen moves < 4 * peak).
Proof. exact storage_bounds. Qed.
Print Assumptions C113_storage.

(** No operation gets stuck, so the histories go on as one likes. *)
Theorem C113_goes_on : forall cmp q n peak moves, grown cmp q n peak moves ->
  (forall junk v, n + 1 < 2 ^ 60 -> exists q', priorq_enqueue cmp junk q v = Ok q') /\
  (exists q' x, priorq_dequeue cmp q = Ok (q', x)) /\
  (exists q' x, priorq_pop q = Ok (q', x)) /\
  (forall loc, 0 <= loc < n -> exists q' x, priorq_remove cmp q loc = Ok (q', x)).
Proof.
  intros cmp q n peak moves G. apply grown_any, any_history_safe in G as (W & D & C).
  split. { intros junk v Hn. destruct (enqueue_safe cmp junk q v W D ltac:(lia)) as (q' & E & _). eauto. }
  split. { destruct (dequeue_safe cmp q W D) as (q' & x & E & _). eauto. }
  split. { destruct (pop_safe q W D) as (q' & x & E & _). eauto. }
  intros loc Hl. destruct (remove_safe cmp q loc W D ltac:(lia)) as (q' & x & E & _). eauto.
Qed.
Print Assumptions C113_goes_on.

(** Three elements in, two out, three in: storage of 0, 1, 2 and 4 slots. *)
Definition put_in (q : priorq) (v : Z) : priorq :=
  match priorq_enqueue Z.sub (fun _ => 0) q v with Ok q => q | _ => q end.
Definition take_out (r : res (priorq * Z)) : priorq :=
  match r with Ok (q, _) => q | _ => make_priority_queue end.

Example C113_example :
  let q3 := put_in (put_in (put_in make_priority_queue 9) 5) 7 in
  let q1 := take_out (priorq_remove Z.sub (take_out (priorq_dequeue Z.sub q3)) 1) in
  let q := put_in (put_in (put_in q1 2) 1) 6 in
  grown Z.sub q 4 4 [(2, 4); (1, 2); (0, 1)] /\ zlen (storage q) = 4.
Proof.
  intros q3 q1 q. split; [|vm_compute; reflexivity].
  assert (H1 : grown Z.sub (put_in make_priority_queue 9) 1 1 [(0, 1)])
    by (eapply (enqueue_step Z.sub _ 0 0 [] (fun _ => 0) 9 _ _ _ _ (G_new Z.sub)); [lia|vm_compute; reflexivity..]).
  assert (H2 : grown Z.sub (put_in (put_in make_priority_queue 9) 5) 2 2 [(1, 2); (0, 1)])
    by (eapply (enqueue_step Z.sub _ 1 1 [(0, 1)] (fun _ => 0) 5 _ _ _ _ H1); [lia|vm_compute; reflexivity..]).
  assert (H3 : grown Z.sub q3 3 3 [(2, 4); (1, 2); (0, 1)])
    by (eapply (enqueue_step Z.sub _ 2 2 [(1, 2); (0, 1)] (fun _ => 0) 7 _ _ _ _ H2); [lia|vm_compute; reflexivity..]).
  assert (H4 : grown Z.sub (take_out (priorq_dequeue Z.sub q3)) 2 3 [(2, 4); (1, 2); (0, 1)])
    by (apply (G_dequeue Z.sub _ 3 3 [(2, 4); (1, 2); (0, 1)] _ 5 H3); vm_compute; reflexivity).
  assert (H5 : grown Z.sub q1 1 3 [(2, 4); (1, 2); (0, 1)])
    by (apply (G_remove Z.sub _ 2 3 [(2, 4); (1, 2); (0, 1)] 1 _ 9 H4); [lia|vm_compute; reflexivity]).
  assert (H6 : grown Z.sub (put_in q1 2) 2 3 [(2, 4); (1, 2); (0, 1)])
    by (eapply (enqueue_step Z.sub _ 1 3 [(2, 4); (1, 2); (0, 1)] (fun _ => 0) 2 _ _ _ _ H5); [lia|vm_compute; reflexivity..]).
  assert (H7 : grown Z.sub (put_in (put_in q1 2) 1) 3 3 [(2, 4); (1, 2); (0, 1)])
    by (eapply (enqueue_step Z.sub _ 2 3 [(2, 4); (1, 2); (0, 1)] (fun _ => 0) 1 _ _ _ _ H6); [lia|vm_compute; reflexivity..]).
  eapply (enqueue_step Z.sub _ 3 3 [(2, 4); (1, 2); (0, 1)] (fun _ => 0) 6 _ _ _ _ H7); [lia|vm_compute; reflexivity..].
Qed.
