(** C134: constant-time operations. *)
From Verif Require Import Base Heap ListModel HashModel AvlModel CMem ObjModel ByteHeapModel ThreadModel ConstSpec Const.
Open Scope list_scope.
Open Scope Z_scope.

Ltac inner := unfold ListModel.size_inc, ListModel.size_dec, ListModel.st_first, ListModel.st_last, ListModel.st_size, ListModel.st_prev, ListModel.st_next, field, set_field, fsfree.

(** An access to a block, or to one of its fields, counts as one. Functions that clear or copy whole
    blocks or call functions of the application are not among these. *)

(** Lists, however long they are. *)
Theorem C134_lists : forall l e n v,
  takes 1 make_list /\ takes 1 (list_elem_get_value e) /\ takes 1 (list_get_first l) /\ takes 1 (list_get_last l) /\
  takes 1 (list_next e) /\ takes 1 (list_previous e) /\ takes 1 (list_empty l) /\ takes 1 (list_size l) /\
  takes 12 (list_append l v) /\ takes 12 (list_prepend l v) /\ takes 14 (list_insert_before l v n) /\ takes 11 (list_remove l e) /\
  takes 13 (list_pop_first l) /\ takes 13 (list_pop_last l).
Proof.
  repeat split; unfold make_list, list_elem_get_value, list_get_first, list_get_last, list_next, list_previous, list_empty, list_size, list_append, list_prepend,
    list_insert_before, list_prepend, list_append, list_pop_first, list_pop_last, list_remove, list_get_first, list_get_last, list_elem_get_value; inner; count.
Qed.
Print Assumptions C134_lists.

(** Tables, also with many keys in the same slot: an element that is known is removed without a
    search. *)
Theorem C134_tables : forall t e,
  takes 1 (hash_table_size t) /\ takes 1 (hash_table_empty t) /\ takes 1 (hash_elem_get_key e) /\ takes 1 (hash_elem_get_value e) /\
  takes 17 (hash_table_detach t e) /\ takes 18 (hash_table_remove t e) /\ takes 1 (destroy_hash_element e).
Proof.
  repeat split; unfold hash_table_size, hash_table_empty, hash_elem_get_key, hash_elem_get_value, hash_table_remove, hash_table_detach, destroy_hash_element, hash_table_size,
    HashModel.ht_size_dec, HashModel.st_ht_size, HashModel.ld_slot, list_remove; inner; count.
Qed.
Print Assumptions C134_tables.

(** Trees. *)
Theorem C134_trees : forall c o t e,
  takes 1 (make_avl_tree c) /\ takes 1 (make_avl_tree_2 c o) /\ takes 1 (avl_tree_size t) /\ takes 1 (avl_tree_empty t) /\
  takes 1 (avl_elem_get_key e) /\ takes 1 (avl_elem_get_value e) /\ takes 1 (destroy_avl_element e).
Proof.
  repeat split; unfold make_avl_tree, make_avl_tree_2, avl_tree_empty, avl_tree_size, avl_elem_get_key, avl_elem_get_value, destroy_avl_element; count.
Qed.
Print Assumptions C134_trees.

(** Sets of any size. *)
Theorem C134_sets : forall s e,
  takes 3 (h_intset_has s e) /\ takes 5 (h_intset_add s e) /\ takes 5 (h_intset_remove s e) /\ takes 3 (h_destroy_intset s).
Proof. repeat split; unfold h_intset_has, h_intset_add, h_intset_remove, h_destroy_intset; inner; count. Qed.
Print Assumptions C134_sets.

(** Queues of any size. *)
Theorem C134_queues : forall q, takes 1 (h_priorq_size q) /\ takes 3 (h_priorq_peek q) /\ takes 7 (h_priorq_pop q) /\ takes 3 (h_destroy_priority_queue q).
Proof. repeat split; unfold h_priorq_peek, h_priorq_pop, h_last, h_priorq_size, h_destroy_priority_queue, stored; inner; count. Qed.
Print Assumptions C134_queues.

(** Byte arrays of any size. *)
Theorem C134_bytes : forall a,
  takes 3 (h_share_byte_array a) /\ takes 6 (h_destroy_byte_array a) /\ takes 1 (h_byte_array_data a) /\ takes 1 (h_byte_array_size a) /\ takes 5 (h_byte_array_clear a).
Proof. repeat split; unfold h_share_byte_array, h_destroy_byte_array, h_byte_array_data, h_byte_array_size, h_byte_array_clear; inner; count. Qed.
Print Assumptions C134_bytes.

(** The numbers mean something: no access at all is not enough for any of these, ... *)
Definition heap_with (n : Z) : heap := mk_heap [(5, CList (mk_list 0 0 n))] (fun _ => 9) 0.
Example C134_example : takes 1 (list_size 5) /\ ~ takes 0 (list_size 5).
Proof.
  split; [apply C134_lists; exact 0|]. intros (s & E & W). pose proof (E (heap_with 1)) as E1. pose proof (E (heap_with 2)) as E2.
  destruct s; try contradiction; vm_compute in E1, E2; congruence.
Qed.
(** ... and one access is not enough to put something in a list. *)
Example C134_append_example : ~ takes 1 (list_append 5 7).
Proof.
  intros (s & E & W). specialize (E (heap_with 0)). assert (A : exists H, list_append 5 7 (heap_with 0) = Ok (9, H) /\ get H 5 = Some (CList (mk_list 9 9 1)) /\ get H 9 <> None).
  { eexists. split; [vm_compute; reflexivity|]. split; [reflexivity|discriminate]. }
  destruct A as (H & A & G5 & G9). rewrite A in E. assert (G : get (heap_with 0) 9 = None) by reflexivity. assert (G' : get (heap_with 0) 5 = Some (CList (mk_list 0 0 0))) by reflexivity.
  destruct s as [a| | | |a k|a ch k|c k|a k|]; try contradiction; cbn [effect] in E; unfold ret, fail, lift, no_fuel in E; try congruence.
  - destruct (get (heap_with 0) a) as [c|]; [|discriminate]. cbn in W. specialize (W c). destruct (k c); try contradiction; cbn [effect] in E; unfold ret, fail, lift, no_fuel in E; congruence.
  - destruct (get (heap_with 0) a) as [c|] eqn:Ga; [|discriminate]. destruct (ch c); [|discriminate]. cbn in W. destruct k; try contradiction; cbn [effect] in E; unfold ret, fail, lift, no_fuel in E; try discriminate.
    injection E as _ <-. apply G9. rewrite Heap.get_put by (intros ->; discriminate Ga). destruct (Z.eqb_spec 9 a) as [<-|]; [congruence|exact G].
  - unfold bnd in E. destruct (alloc c (heap_with 0)) as [[x h]| | |] eqn:Al; try discriminate. cbn in W. specialize (W x). destruct (k x); try contradiction; cbn [effect] in E; unfold ret, fail, lift, no_fuel in E; try discriminate.
    injection E as _ <-. vm_compute in Al. injection Al as <- <-. vm_compute in G5. discriminate.
  - unfold bnd in E. destruct (free a (heap_with 0)) as [[[] h]| | |] eqn:Fr; try discriminate. cbn in W. destruct k; try contradiction; cbn [effect] in E; unfold ret, fail, lift, no_fuel in E; try discriminate.
    injection E as _ <-. unfold free in Fr. destruct (get (heap_with 0) a) eqn:Ga; [|discriminate]. injection Fr as <-.
    unfold get in Ga. cbn in Ga. destruct (a =? 0); [discriminate|]. destruct (Z.eqb_spec a 5) as [->|]; [|discriminate]. vm_compute in G5. discriminate.
Qed.
