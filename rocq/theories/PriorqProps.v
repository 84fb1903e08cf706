(** Properties C36-C39 of src/priority_queue.c. [history cmp P q m]
    (PriorqSpec.v): [q] results from any sequence of operations of the model,
    and [m] is the multiset of the elements put in and not yet returned. *)
From Verif Require Import Base PriorqModel PriorqSpec PriorqProofs.

(** C36: peek and dequeue return a least queued element; dequeue takes it out
    (once); NULL if and only if empty (elements are not NULL). *)
Theorem C36_least : forall cmp q m, comparator cmp -> history cmp anything q m -> m <> [] ->
  exists q' x m',
    priorq_peek q = Ok x /\ priorq_dequeue cmp q = Ok (q', x) /\
    In x m /\ (forall y, In y m -> cmp x y <= 0) /\
    Permutation m (x :: m') /\ history cmp anything q' m'.
Proof.
  intros cmp q m Hc H Hm.
  destruct (peek_history cmp Hc anything q m H Hm) as (x & q' & A & B & (C & D)).
  destruct (dequeue_history cmp Hc anything q m H Hm) as (q2 & x2 & m' & E & _ & F & G).
  rewrite B in E. inversion E. subst q2 x2. exists q', x, m'. repeat split; auto. exact (G I).
Qed.
Print Assumptions C36_least.

Theorem C36_null_when_empty : forall cmp q, comparator cmp -> history cmp anything q [] ->
  priorq_dequeue cmp q = Ok (q, 0) /\ priorq_peek q = Ok 0 /\ priorq_pop q = Ok (q, 0).
Proof. exact (fun cmp q Hc => empty_history cmp Hc anything q). Qed.
Print Assumptions C36_null_when_empty.

Theorem C36_null_iff_empty : forall cmp q m x q', comparator cmp -> history cmp anything q m -> ~ In 0 m ->
  priorq_dequeue cmp q = Ok (q', x) -> (x = 0 <-> m = []).
Proof.
  intros cmp q m x q' Hc H H0 E. split.
  - intros ->. destruct m as [|y m]; [reflexivity|]. exfalso. apply H0.
    destruct (C36_least cmp q (y :: m) Hc H ltac:(discriminate)) as (q2 & x & m' & _ & E2 & Hin & _).
    rewrite E in E2. inversion E2. subst x. exact Hin.
  - intros ->. destruct (C36_null_when_empty cmp q Hc H) as (E2 & _). rewrite E in E2. inversion E2. reflexivity.
Qed.
Print Assumptions C36_null_iff_empty.

(** C37: every operation changes the multiset by exactly the element put in or
    returned, and the sizes agree with it. *)
Theorem C37_multiset : forall cmp q m, comparator cmp -> history cmp anything q m ->
  priorq_size q = zlen m /\ (priorq_empty q = true <-> m = []) /\
  (forall junk v, room m ->
    exists q', priorq_enqueue cmp junk q v = Ok q' /\ history cmp anything q' (v :: m)) /\
  (m <> [] -> exists q' x m', priorq_dequeue cmp q = Ok (q', x) /\ Permutation m (x :: m') /\ history cmp anything q' m') /\
  (m <> [] -> exists q' x m', priorq_pop q = Ok (q', x) /\ Permutation m (x :: m') /\ history cmp anything q' m') /\
  (forall loc, 0 <= loc < zlen m ->
    exists q' x m', priorq_remove cmp q loc = Ok (q', x) /\ Permutation m (x :: m') /\ history cmp anything q' m').
Proof.
  intros cmp q m Hc H. destruct (history_size cmp Hc anything q m H) as [A B].
  destruct (multiset_history cmp Hc anything q m H) as (C & D & E & F).
  split; [exact A|]. split; [exact B|]. split; [intros junk v Hr; exact (C junk v Hr I)|].
  split. { intros Hm. destruct (D Hm) as (q' & x & m' & ? & ? & G). exists q', x, m'.
           split; [assumption|]. split; [assumption|]. exact (G I). }
  split. { intros Hm. destruct (E Hm) as (q' & x & m' & ? & ? & G). exists q', x, m'.
           split; [assumption|]. split; [assumption|]. exact (G I). }
  intros loc Hl. destruct (F loc Hl) as (q' & x & m' & ? & ? & G). exists q', x, m'.
  split; [assumption|]. split; [assumption|]. exact (G I).
Qed.
Print Assumptions C37_multiset.

(** C37: dequeuing everything yields the queued elements in order. *)
Theorem C37_drain : forall cmp q m, comparator cmp -> history cmp anything q m ->
  exists q' l, drain cmp (length m) q = Ok (q', l) /\ Permutation l m /\ nondecreasing cmp l /\
    priorq_empty q' = true.
Proof. exact (fun cmp q m Hc H => drain_ok cmp Hc (length m) q m H eq_refl). Qed.
Print Assumptions C37_drain.

(** C38: with distinct elements, the location reported last for a queued
    element is where priorq_remove finds it. *)
Theorem C38_location : forall cmp q m e, comparator cmp -> history cmp (@NoDup Z) q m -> In e m ->
  exists loc q' m', last_loc (calls q) e = Some loc /\ 0 <= loc < zlen m /\
    priorq_remove cmp q loc = Ok (q', e) /\ Permutation m (e :: m') /\ history cmp (@NoDup Z) q' m'.
Proof. exact (fun cmp q m e Hc => locate_ok cmp Hc q m e). Qed.
Print Assumptions C38_location.

(** C39: no access outside the block, with any comparator; the block is a power
    of two slots, never fewer than the elements. *)
Theorem C39_memory_safe : forall cmp q n, any_history cmp q n ->
  priorq_size q = n /\ 0 <= n <= max_capacity q /\ zlen (storage q) = max_capacity q /\
  (max_capacity q = 0 \/ exists k, 0 <= k /\ max_capacity q = 2 ^ k) /\
  (forall junk v, n + 1 < 2 ^ 60 -> exists q', priorq_enqueue cmp junk q v = Ok q') /\
  (exists q' x, priorq_dequeue cmp q = Ok (q', x)) /\
  (exists q' x, priorq_pop q = Ok (q', x)) /\
  (exists x, priorq_peek q = Ok x) /\
  (forall loc, 0 <= loc < n -> exists q' x, priorq_remove cmp q loc = Ok (q', x)).
Proof. exact safety_ok. Qed.
Print Assumptions C39_memory_safe.

(** The hypotheses are met: five distinct elements go in (two of them equal for
    the comparator), one is dequeued, another removed by its location. *)
Definition tens (a b : Z) : Z := a / 10 - b / 10.

Lemma tens_comparator : comparator tens.
Proof. unfold tens. split; intros; lia. Qed.


Definition q3 : priorq :=
  Priorq [25; 20; 30; 41; 30; 7; 7; 7] 3 8
    [(41, 3); (30, 2); (25, 0); (10, 0); (20, 1); (30, 4); (30, 1); (41, 3); (25, 2); (41, 1); (20, 0)].

Lemma q3_history (P : list Z -> Prop) : (forall l, NoDup l -> P l) -> history tens P q3 [30; 25; 20].
Proof.
  intros D.
  set (junk := fun _ : nat => 7).
  set (get := fun r : res priorq => match r with Ok q => q | _ => make_priority_queue end).
  set (put := fun q v => get (priorq_enqueue tens junk q v)).
  set (e1 := put make_priority_queue 20). set (e2 := put e1 41). set (e3 := put e2 25).
  set (e4 := put e3 30). set (e5 := put e4 10).
  set (d := match priorq_dequeue tens e5 with Ok (q, _) => q | _ => make_priority_queue end).
  assert (H0 : history tens P make_priority_queue []) by (apply H_new, D; constructor).
  assert (H1 : history tens P e1 [20]).
  { apply (H_enqueue _ _ _ _ junk 20 _ H0); [cbv; reflexivity|apply D|vm_compute; reflexivity].
    repeat constructor; cbn; lia. }
  assert (H2 : history tens P e2 [41; 20]).
  { apply (H_enqueue _ _ _ _ junk 41 _ H1); [cbv; reflexivity|apply D|vm_compute; reflexivity].
    repeat constructor; cbn; lia. }
  assert (H3 : history tens P e3 [25; 41; 20]).
  { apply (H_enqueue _ _ _ _ junk 25 _ H2); [cbv; reflexivity|apply D|vm_compute; reflexivity].
    repeat constructor; cbn; lia. }
  assert (H4 : history tens P e4 [30; 25; 41; 20]).
  { apply (H_enqueue _ _ _ _ junk 30 _ H3); [cbv; reflexivity|apply D|vm_compute; reflexivity].
    repeat constructor; cbn; lia. }
  assert (H5 : history tens P e5 [10; 30; 25; 41; 20]).
  { apply (H_enqueue _ _ _ _ junk 10 _ H4); [cbv; reflexivity|apply D|vm_compute; reflexivity].
    repeat constructor; cbn; lia. }
  assert (H6 : history tens P d [30; 25; 41; 20]).
  { apply (H_dequeue _ _ _ _ d 10 _ H5); [apply D|vm_compute; reflexivity|reflexivity].
    repeat constructor; cbn; lia. }
  apply (H_remove _ _ _ _ 3 q3 41 _ H6); [apply D|vm_compute; split; [discriminate|reflexivity]|vm_compute; reflexivity|].
  - repeat constructor; cbn; lia.
  - symmetry. exact (Permutation_middle [30; 25] [20] 41).
Qed.

Example C36_C37_example : history tens anything q3 [30; 25; 20] /\ exists q, drain tens 3%nat q3 = Ok (q, [25; 20; 30]).
Proof. split; [apply q3_history; intros; exact I|]. eexists. vm_compute. reflexivity. Qed.

Example C38_example : history tens (@NoDup Z) q3 [30; 25; 20] /\ last_loc (calls q3) 20 = Some 1 /\ exists q, priorq_remove tens q3 1 = Ok (q, 20).
Proof. split; [apply q3_history; auto|]. split; [reflexivity|]. eexists. vm_compute. reflexivity. Qed.

(** An illegal comparator. *)
Example C39_example : exists q, any_history (fun _ _ => -1) q 3 /\ max_capacity q = 4.
Proof.
  eexists. split.
  - eapply (A_enqueue _ _ 2 (fun _ => 7) 1).
    + eapply (A_enqueue _ _ 1 (fun _ => 7) 2).
      * eapply (A_enqueue _ _ 0 (fun _ => 7) 3); [apply A_new|cbv; reflexivity|vm_compute; reflexivity].
      * cbv; reflexivity.
      * vm_compute; reflexivity.
    + cbv; reflexivity.
    + vm_compute; reflexivity.
  - reflexivity.
Qed.
