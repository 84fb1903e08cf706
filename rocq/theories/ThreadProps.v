(** C124: threads that use different objects, or only look at shared ones, do not disturb each other. *)
From Verif Require Import Base Heap ListModel ListSpec ListProofs HashModel AvlModel CMem ObjModel ByteHeapModel ObjSpec ThreadModel ThreadSpec Thread ThreadApi ThreadWork.
Open Scope list_scope.
Open Scope Z_scope.

(** Under every schedule of single accesses, and whatever addresses the allocator returns, nothing is
    undefined; memory is what the threads own, each its own part, and the shared part as it was; and a
    thread that has come to its end has a result and memory that it may have when it runs alone. *)
Theorem C124_isolated {A} (shared : list (Z * cell)) (ts : list (prog A * list (Z * cell))) (schedule : list (nat * Z)) :
  separate shared ts ->
  exists w owns, run (start shared ts) schedule = Ok w /\ length owns = length ts /\
    (forall i j own own', i <> j -> nth_error owns i = Some own -> nth_error owns j = Some own' -> ThreadSpec.apart own own') /\
    (forall x c, find (w_mem w) x = Some c <-> (exists i own, nth_error owns i = Some own /\ find own x = Some c) \/ find shared x = Some c) /\
    (forall i p own own' a, nth_error ts i = Some (p, own) -> nth_error owns i = Some own' -> finished w i a -> may_alone shared p own a own').
Proof. exact (isolated shared ts schedule). Qed.
Print Assumptions C124_isolated.

(** No data race: two threads are never about to access the same block unless both read it. *)
Theorem C124_race_free {A} (shared : list (Z * cell)) (ts : list (prog A * list (Z * cell))) (schedule : list (nat * Z)) (w : world A) (i j : nat) (a : Z) (wi wj : bool) :
  separate shared ts -> run (start shared ts) schedule = Ok w -> i <> j ->
  next_access w i = Some (a, wi) -> next_access w j = Some (a, wj) -> wi = false /\ wj = false.
Proof. exact (race_free shared ts schedule w i j a wi wj). Qed.
Print Assumptions C124_race_free.

(** No thread waits for another: at any time, if only one thread goes on, it comes to its end. *)
Theorem C124_ends {A} (shared : list (Z * cell)) (ts : list (prog A * list (Z * cell))) (schedule : list (nat * Z)) (w : world A) (i : nat) :
  separate shared ts -> run (start shared ts) schedule = Ok w -> (i < length ts)%nat ->
  exists n w' a, run w (repeat (i, 0) n) = Ok w' /\ finished w' i a.
Proof. exact (ends shared ts schedule w i). Qed.
Print Assumptions C124_ends.

(** What a program may use for looking at shared objects. *)
Theorem C124_looks :
  (forall e, has_looks (list_elem_get_value e)) /\ (forall l, has_looks (list_get_first l)) /\ (forall l, has_looks (list_get_last l)) /\
  (forall l v, has_looks (list_get l v)) /\ (forall l i, has_looks (list_get_by_index l i)) /\ (forall e, has_looks (list_next e)) /\
  (forall e, has_looks (list_previous e)) /\ (forall l, has_looks (list_empty l)) /\ (forall l, has_looks (list_size l)) /\
  (forall t, has_looks (hash_table_size t)) /\ (forall e, has_looks (hash_elem_get_key e)) /\ (forall e, has_looks (hash_elem_get_value e)) /\
  (forall fn t k, has_looks (hash_table_get fn t k)) /\ (forall t, has_looks (hash_table_get_any t)) /\ (forall e, has_looks (hash_table_get_other e)) /\
  (forall t, has_looks (hash_table_empty t)) /\
  (forall e, has_looks (avl_elem_get_key e)) /\ (forall e, has_looks (avl_elem_get_value e)) /\ (forall t, has_looks (avl_tree_size t)) /\
  (forall call t k, has_looks (avl_tree_get call t k)) /\ (forall e, has_looks (avl_tree_previous e)) /\ (forall e, has_looks (avl_tree_next e)) /\
  (forall call t k, has_looks (avl_tree_get_before call t k)) /\ (forall call t k, has_looks (avl_tree_get_on_or_before call t k)) /\
  (forall call t k, has_looks (avl_tree_get_after call t k)) /\ (forall call t k, has_looks (avl_tree_get_on_or_after call t k)) /\
  (forall t, has_looks (avl_tree_empty t)) /\ (forall t, has_looks (avl_tree_get_first t)) /\ (forall t, has_looks (avl_tree_get_last t)) /\
  (forall s e, has_looks (h_intset_has s e)) /\ (forall s e hit, has_looks (h_intset_find_next s e hit)) /\
  (forall q, has_looks (h_priorq_size q)) /\ (forall q, has_looks (h_priorq_peek q)) /\
  (forall a, has_looks (h_byte_array_size a)) /\ (forall a i, has_looks (let! d := h_byte_array_data a in field d i)).
Proof.
  repeat split; intros; apply looks_exist;
    first [apply c_list_elem_get_value | apply c_list_get_first | apply c_list_get_last | apply c_list_get | apply c_list_get_by_index | apply c_list_next | apply c_list_previous
      | apply c_list_empty | apply c_list_size | apply c_hash_table_size | apply c_hash_elem_get_key | apply c_hash_elem_get_value | apply c_hash_table_get | apply c_hash_table_get_any
      | apply c_hash_table_get_other | apply c_hash_table_empty | apply c_avl_elem_get_key | apply c_avl_elem_get_value | apply c_avl_tree_size | apply c_avl_tree_get
      | apply c_avl_tree_previous | apply c_avl_tree_next | apply c_avl_tree_get_before | apply c_avl_tree_get_on_or_before | apply c_avl_tree_get_after
      | apply c_avl_tree_get_on_or_after | apply c_avl_tree_empty | apply c_avl_tree_get_first | apply c_avl_tree_get_last | apply c_intset_has | apply c_intset_find_next
      | apply c_priorq_size | apply c_priorq_peek | apply c_byte_array_size
      | apply c_bnd; [apply c_byte_array_data|intros d; apply c_field]].
Qed.
Print Assumptions C124_looks.

(** And for changing its own. *)
Theorem C124_changes :
  has_steps make_list /\ (forall l, has_steps (destroy_list l)) /\ (forall l v, has_steps (list_append l v)) /\ (forall l v, has_steps (list_prepend l v)) /\
  (forall l v n, has_steps (list_insert_before l v n)) /\ (forall l e, has_steps (list_remove l e)) /\ (forall l, has_steps (list_pop_first l)) /\
  (forall l, has_steps (list_pop_last l)) /\ (forall l, has_steps (list_copy l)) /\
  (forall c h f, has_steps (make_hash_table c h f)) /\ (forall t, has_steps (destroy_hash_table t)) /\ (forall e, has_steps (destroy_hash_element e)) /\
  (forall fn t k v, has_steps (hash_table_put fn t k v)) /\ (forall t e, has_steps (hash_table_detach t e)) /\ (forall t e, has_steps (hash_table_remove t e)) /\
  (forall fn t k, has_steps (hash_table_pop fn t k)) /\ (forall t, has_steps (hash_table_pop_any t)) /\
  (forall c, has_steps (make_avl_tree c)) /\ (forall c o, has_steps (make_avl_tree_2 c o)) /\ (forall t, has_steps (destroy_avl_tree t)) /\
  (forall e, has_steps (destroy_avl_element e)) /\ (forall call t k v, has_steps (avl_tree_put call t k v)) /\ (forall t e, has_steps (avl_tree_detach t e)) /\
  (forall t e, has_steps (avl_tree_remove t e)) /\ (forall call t k, has_steps (avl_tree_pop call t k)) /\ (forall t, has_steps (avl_tree_pop_first t)) /\
  (forall t, has_steps (avl_tree_pop_last t)) /\ (forall t, has_steps (avl_tree_copy t)) /\
  (forall j n, has_steps (h_make_intset j n)) /\ (forall s, has_steps (h_destroy_intset s)) /\ (forall s, has_steps (h_intset_fill s)) /\
  (forall s e, has_steps (h_intset_add s e)) /\ (forall s e, has_steps (h_intset_remove s e)) /\
  (forall j c, has_steps (h_make_priority_queue j c)) /\ (forall q, has_steps (h_destroy_priority_queue q)) /\
  (forall cd j q v, has_steps (h_priorq_enqueue cd j q v)) /\ (forall cd q, has_steps (h_priorq_dequeue cd q)) /\ (forall q, has_steps (h_priorq_pop q)) /\
  (forall cd q l, has_steps (h_priorq_remove cd q l)) /\
  (forall j m, has_steps (h_make_byte_array j m)) /\ (forall a, has_steps (h_share_byte_array a)) /\ (forall a, has_steps (h_destroy_byte_array a)) /\
  (forall j a s n, has_steps (h_byte_array_append j a (caller s) n)) /\ (forall j a s, has_steps (h_byte_array_append_string j a (caller s))) /\
  (forall j a pos s n, has_steps (h_byte_array_copy j a pos (caller s) n)) /\ (forall j a pos s, has_steps (h_byte_array_copy_string j a pos (caller s))) /\
  (forall j a cb n, has_steps (h_byte_array_append_stream j a cb n)) /\ (forall a, has_steps (h_byte_array_clear a)) /\
  (forall j a n c, has_steps (h_byte_array_resize j a n c)).
Proof.
  repeat split; intros; apply (@steps_exist false);
    first [apply c_make_list | apply c_destroy_list | apply c_list_append | apply c_list_prepend | apply c_list_insert_before | apply c_list_remove | apply c_list_pop_first | apply c_list_pop_last
      | apply c_list_copy | apply c_make_hash_table | apply c_destroy_hash_table | apply c_destroy_hash_element | apply c_hash_table_put | apply c_hash_table_detach | apply c_hash_table_remove
      | apply c_hash_table_pop | apply c_hash_table_pop_any | apply c_make_avl_tree | apply c_make_avl_tree_2 | apply c_destroy_avl_tree | apply c_destroy_avl_element | apply c_avl_tree_put
      | apply c_avl_tree_detach | apply c_avl_tree_remove | apply c_avl_tree_pop | apply c_avl_tree_pop_first | apply c_avl_tree_pop_last | apply c_avl_tree_copy | apply c_make_intset
      | apply c_destroy_intset | apply c_intset_fill | apply c_intset_add | apply c_intset_remove | apply c_make_priority_queue | apply c_destroy_priority_queue | apply c_priorq_enqueue
      | apply c_priorq_dequeue | apply c_priorq_pop | apply c_priorq_remove | apply c_make_byte_array | apply c_share_byte_array | apply c_destroy_byte_array
      | apply c_byte_array_append, c_ret | apply c_byte_array_append_string, c_ret | apply c_byte_array_copy, c_ret | apply c_byte_array_copy_string, c_ret
      | apply c_byte_array_append_stream | apply c_byte_array_clear | apply c_byte_array_resize].
Qed.
Print Assumptions C124_changes.

(** Any number of threads: each reads the first value of a shared list, puts it and its own values in a
    new list, takes them out again and destroys the list. Under every schedule each gets its values in
    order, and when all have come to their ends the memory is as it was at the start. *)
Theorem C124_workers (shared : list (Z * cell)) hints n (common e v : Z) (es : list (Z * Z)) (vss : list (list Z)) (schedule : list (nat * Z)) :
  list_history (mk_heap shared hints n) common ((e, v) :: es) -> (forall vs, In vs vss -> zlen vs < 2 ^ 59) ->
  let ts := map (fun vs => (worker common vs, [])) vss in
  separate shared ts /\
  exists w, run (start shared ts) schedule = Ok w /\
    (forall i r vs, nth_error vss i = Some vs -> finished w i r -> r = v :: vs) /\
    ((forall i vs, nth_error vss i = Some vs -> exists r, finished w i r) -> forall x, find (w_mem w) x = find shared x).
Proof. intros H. exact (workers shared hints n common e v es vss schedule (history_is_list _ _ _ H)). Qed.
Print Assumptions C124_workers.

(** Such a shared list, and two threads that take turns until both have finished. *)
Example C124_example :
  exists shared hints n,
    (let! l := make_list in do! list_append l 5 in ret l) heap0 = Ok (100, mk_heap shared hints n) /\
    list_history (mk_heap shared hints n) 100 [(101, 5)] /\
    exists w, run (start shared (map (fun vs => (worker 100 vs, [])) [[7; 8]; [9]])) (concat (repeat [(0%nat, 0); (1%nat, 0)] 120)) = Ok w /\
      finished w 0 [5; 7; 8] /\ finished w 1 [5; 9] /\ map fst (w_mem w) = map fst shared.
Proof.
  eexists _, _, _. split; [reflexivity|]. split.
  - eapply (LH_step _ _ []); [apply (LH_make heap0); reflexivity|]. apply (S_append _ _ [] 5); [reflexivity|reflexivity].
  - eexists. split; [vm_compute; reflexivity|]. split; [eexists; reflexivity|]. split; [eexists; reflexivity|reflexivity].
Qed.
