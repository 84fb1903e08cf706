(** C137: priority queues whose elements are in memory: the comparison reads the elements when it is called,
    and the reloc function writes the locator into the element. All other memory may change all the time. *)
From Verif Require Import Base Heap KeySpec TreeKeySpec QueueKeyModel QueueKeySpec QueueKeyProofs.
From Coq Require Import Sorted.
Open Scope list_scope.
Open Scope Z_scope.

Theorem C137_make : forall X (read : list Z -> option X) place ask tell cmp reloc obj C junk h, serving read place ask tell cmp reloc obj C ->
  exists q h', m_make_priority_queue_2 junk cmp reloc obj h = Ok (q, h') /\ queued read place ask tell cmp reloc obj h' q [] /\
  (forall y, get h y <> None -> ~ own h' q y) /\ (forall y, ~ own h' q y -> get h' y = get h y).
Proof. intros X read place ask tell cmp reloc obj C junk h P. exact (make_queued read place ask tell cmp reloc obj C P junk h). Qed.
Print Assumptions C137_make.

Theorem C137_enqueue : forall X (read : list Z -> option X) place ask tell cmp reloc obj C junk h q m a x, serving read place ask tell cmp reloc obj C ->
  queued read place ask tell cmp reloc obj h q m -> key_at read h a x -> ~ own h q a -> ~ In a (map fst m) -> space m ->
  exists h', m_priorq_enqueue ask tell junk q a h = Ok (tt, h') /\ queued read place ask tell cmp reloc obj h' q ((a, x) :: m) /\ same_beside read q ((a, x) :: m) h h'.
Proof. intros X read place ask tell cmp reloc obj C junk h q m a x P. exact (enqueue_queued read place ask tell cmp reloc obj C P junk h q m a x). Qed.
Print Assumptions C137_enqueue.

(** The element that is dequeued, and that peek shows, is a least one by what it says. *)
Theorem C137_dequeue : forall X (read : list Z -> option X) place ask tell cmp reloc obj C h q m, serving read place ask tell cmp reloc obj C ->
  queued read place ask tell cmp reloc obj h q m -> m <> [] ->
  exists a x m' h', m_priorq_peek q h = Ok (a, h) /\ m_priorq_dequeue ask tell q h = Ok (a, h') /\ Permutation m ((a, x) :: m') /\
    (forall b y, In (b, y) m -> C x y <= 0) /\ queued read place ask tell cmp reloc obj h' q m' /\ same_beside read q m h h'.
Proof. intros X read place ask tell cmp reloc obj C h q m P. exact (dequeue_queued read place ask tell cmp reloc obj C P h q m). Qed.
Print Assumptions C137_dequeue.

Theorem C137_pop : forall X (read : list Z -> option X) place ask tell cmp reloc obj C h q m, serving read place ask tell cmp reloc obj C ->
  queued read place ask tell cmp reloc obj h q m -> m <> [] ->
  exists a x m' h', m_priorq_pop q h = Ok (a, h') /\ Permutation m ((a, x) :: m') /\ queued read place ask tell cmp reloc obj h' q m' /\ same_beside read q m h h'.
Proof. intros X read place ask tell cmp reloc obj C h q m P. exact (pop_queued read place ask tell cmp reloc obj C P h q m). Qed.
Print Assumptions C137_pop.

(** Any element can be taken out with the locator that it has noted: it, and no other, is returned. *)
Theorem C137_remove : forall X (read : list Z -> option X) place ask tell cmp reloc obj C h q m a x m', serving read place ask tell cmp reloc obj C ->
  queued read place ask tell cmp reloc obj h q m -> Permutation m ((a, x) :: m') ->
  exists loc h', item read place h a x loc /\ m_priorq_remove ask tell q loc h = Ok (a, h') /\ queued read place ask tell cmp reloc obj h' q m' /\ same_beside read q m h h'.
Proof. intros X read place ask tell cmp reloc obj C h q m a x m' P. exact (remove_queued read place ask tell cmp reloc obj C P h q m a x m'). Qed.
Print Assumptions C137_remove.

(** The elements have noted different locators. *)
Theorem C137_locators : forall X (read : list Z -> option X) place ask tell cmp reloc obj C h q m, serving read place ask tell cmp reloc obj C ->
  queued read place ask tell cmp reloc obj h q m -> NoDup (map fst m) /\
  (forall a x, In (a, x) m -> ~ own h q a /\ exists loc, item read place h a x loc /\ 0 <= loc < zlen m) /\
  (forall a x b y loc, In (a, x) m -> In (b, y) m -> item read place h a x loc -> item read place h b y loc -> a = b).
Proof. intros X read place ask tell cmp reloc obj C h q m P. exact (items_queued read place ask tell cmp reloc obj C P h q m). Qed.
Print Assumptions C137_locators.

Theorem C137_look : forall X (read : list Z -> option X) place ask tell cmp reloc obj C h q m, serving read place ask tell cmp reloc obj C ->
  queued read place ask tell cmp reloc obj h q m ->
  m_priorq_size q h = Ok (zlen m, h) /\ m_priorq_empty q h = Ok (match m with [] => true | _ => false end, h) /\
  (m = [] -> m_priorq_peek q h = Ok (0, h) /\ m_priorq_dequeue ask tell q h = Ok (0, h) /\ m_priorq_pop q h = Ok (0, h)).
Proof. intros X read place ask tell cmp reloc obj C h q m P. exact (look_queued read place ask tell cmp reloc obj C P h q m). Qed.
Print Assumptions C137_look.

(** A queue that is emptied gives its elements in order. *)
Theorem C137_drain : forall X (read : list Z -> option X) place ask tell cmp reloc obj C n h q m, serving read place ask tell cmp reloc obj C ->
  queued read place ask tell cmp reloc obj h q m -> length m = n ->
  exists l h', take_all ask tell n q h = Ok (map fst l, h') /\ Permutation m l /\ StronglySorted (fun a b => C (snd a) (snd b) <= 0) l /\
    queued read place ask tell cmp reloc obj h' q [].
Proof. intros X read place ask tell cmp reloc obj C n h q m P. exact (drain_queued read place ask tell cmp reloc obj C P n h q m). Qed.
Print Assumptions C137_drain.

(** An element is taken out, changed in place, and put back. *)
Theorem C137_move : forall X (read : list Z -> option X) place ask tell cmp reloc obj C junk h q m a x m' y, serving read place ask tell cmp reloc obj C ->
  queued read place ask tell cmp reloc obj h q m -> Permutation m ((a, x) :: m') -> space m' ->
  exists loc h1, item read place h a x loc /\ m_priorq_remove ask tell q loc h = Ok (a, h1) /\
    forall h2, key_at read h2 a y -> (forall b, b <> a -> get h2 b = get h1 b) ->
      exists h3, m_priorq_enqueue ask tell junk q a h2 = Ok (tt, h3) /\ queued read place ask tell cmp reloc obj h3 q ((a, y) :: m').
Proof. intros X read place ask tell cmp reloc obj C junk h q m a x m' y P. exact (move_queued read place ask tell cmp reloc obj C P junk h q m a x m' y). Qed.
Print Assumptions C137_move.

(** Destroying the queue frees its own memory, not the elements. *)
Theorem C137_destroy : forall X (read : list Z -> option X) place ask tell cmp reloc obj C h q m, serving read place ask tell cmp reloc obj C ->
  queued read place ask tell cmp reloc obj h q m ->
  exists h', m_destroy_priority_queue q h = Ok (tt, h') /\ (forall y, own h q y -> get h' y = None) /\ (forall y, ~ own h q y -> get h' y = get h y).
Proof. intros X read place ask tell cmp reloc obj C h q m P. exact (destroy_queued read place ask tell cmp reloc obj C P h q m). Qed.
Print Assumptions C137_destroy.

(** Structs with a time and a field for the locator are such elements. *)
Theorem C137_timers : forall cmp reloc obj, reloc <> 0 -> reloc <> dummy ->
  serving timer noted ask_timer tell_timer cmp reloc obj earlier.
Proof. exact timers_serving. Qed.
Print Assumptions C137_timers.

(** Timers at 1, 2 and 3 for the times 30, 10 and 20, and a queue at 4. The one at 1 was enqueued first and has
    moved since; the one at 3 is cancelled with the locator that it has noted. *)
Definition after {A} (m : M A) (h : heap) : heap := match m h with Ok (_, h') => h' | _ => h end.
Definition empty_memory : heap := mk_heap [] (fun n => Z.of_nat (S n)) O.
Definition no_junk : nat -> Z := fun _ => 0.
Definition timers : heap :=
  after (alloc (CSlots [20; 77])) (after (alloc (CSlots [10; 77])) (after (alloc (CSlots [30; 77])) empty_memory)).
Definition with_queue : heap := after (m_make_priority_queue_2 no_junk 0 1 0) timers.
Definition with_1 : heap := after (m_priorq_enqueue ask_timer tell_timer no_junk 4 1) with_queue.
Definition with_2 : heap := after (m_priorq_enqueue ask_timer tell_timer no_junk 4 2) with_1.
Definition with_3 : heap := after (m_priorq_enqueue ask_timer tell_timer no_junk 4 3) with_2.
Definition without_3 : heap := after (m_priorq_remove ask_timer tell_timer 4 2) with_3.
Example C137_three :
  queued timer noted ask_timer tell_timer 0 1 0 with_3 4 [(3, 20); (2, 10); (1, 30)] /\
  item timer noted with_3 1 30 1 /\ item timer noted with_3 2 10 0 /\ item timer noted with_3 3 20 2 /\
  queued timer noted ask_timer tell_timer 0 1 0 without_3 4 [(2, 10); (1, 30)] /\
  match m_priorq_remove ask_timer tell_timer 4 2 with_3 with Ok (a, _) => a = 3 | _ => False end /\
  match take_all ask_timer tell_timer 3 4 with_3 with Ok (l, _) => l = [2; 3; 1] | _ => False end /\
  match take_all ask_timer tell_timer 2 4 without_3 with Ok (l, _) => l = [2; 1] | _ => False end.
Proof.
  assert (Q0 : queued timer noted ask_timer tell_timer 0 1 0 with_queue 4 []).
  { apply (Q_make _ _ _ _ _ _ _ no_junk timers). vm_compute. reflexivity. }
  assert (Q1 : queued timer noted ask_timer tell_timer 0 1 0 with_1 4 [(1, 30)]).
  { apply (Q_enqueue _ _ _ _ _ _ _ no_junk _ _ _ 1 30 _ Q0).
    - exists [30; 77]. split; vm_compute; reflexivity.
    - intros [E|(_ & c & r & o & n & m & E)]; [lia|vm_compute in E; discriminate].
    - intros [].
    - unfold space. cbn. lia.
    - vm_compute. reflexivity. }
  assert (Q2 : queued timer noted ask_timer tell_timer 0 1 0 with_2 4 [(2, 10); (1, 30)]).
  { apply (Q_enqueue _ _ _ _ _ _ _ no_junk _ _ _ 2 10 _ Q1).
    - exists [10; 77]. split; vm_compute; reflexivity.
    - intros [E|(_ & c & r & o & n & m & E)]; [lia|vm_compute in E; discriminate].
    - cbn. lia.
    - unfold space. cbn. lia.
    - vm_compute. reflexivity. }
  assert (Q3 : queued timer noted ask_timer tell_timer 0 1 0 with_3 4 [(3, 20); (2, 10); (1, 30)]).
  { apply (Q_enqueue _ _ _ _ _ _ _ no_junk _ _ _ 3 20 _ Q2).
    - exists [20; 77]. split; vm_compute; reflexivity.
    - intros [E|(_ & c & r & o & n & m & E)]; [lia|vm_compute in E; discriminate].
    - cbn. lia.
    - unfold space. cbn. lia.
    - vm_compute. reflexivity. }
  assert (I3 : item timer noted with_3 3 20 2) by (exists [20; 2]; vm_compute; auto).
  repeat match goal with |- _ /\ _ => split end.
  - exact Q3.
  - exists [30; 1]. vm_compute. auto.
  - exists [10; 0]. vm_compute. auto.
  - exact I3.
  - eapply (Q_remove _ _ _ _ _ _ _ _ _ _ 3 20 2 _ 3 _ Q3); [apply Permutation_refl|exact I3|vm_compute; reflexivity].
  - vm_compute. reflexivity.
  - vm_compute. reflexivity.
  - vm_compute. reflexivity.
Qed.
