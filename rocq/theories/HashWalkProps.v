(** Property C115: the work of walking over a hash table (src/hashtable.c). *)
From Verif Require Import Base Heap ListModel ListSpec ListProofs HashModel HashSpec HashProofs HashAnySpec HashAny HashAnyProps HashWalkModel HashWalk.

(** The functions that record the slots they look at are those of the library. *)
Theorem C115_same : forall t e n h,
  (let! r := hash_table_get_any_recorded t in ret (fst r)) h = hash_table_get_any t h /\
  (let! r := hash_table_get_other_recorded e in ret (fst r)) h = hash_table_get_other e h /\
  (let! r := all_elements_recorded t n in ret (fst r)) h = all_elements t n h.
Proof. intros t e n h. exact (conj (any_same t h) (conj (other_same e h) (all_same t n h))). Qed.
Print Assumptions C115_same.

(** A walk over all elements looks at every slot of the table once, from the
    first to the last, wherever the elements are. As in C97, nothing is required
    of the hash and comparison functions. *)
Theorem C115_traversal : forall hash cmp h t m n, any_history hash cmp h t m -> (length m <= n)%nat ->
  exists es c, all_elements_recorded t n h = Ok ((es, numbers 0 (Z.to_nat (ht_capacity c))), h) /\
    get h t = Some (CHtab c) /\ Permutation es (map a_elem m).
Proof.
  intros hash cmp h t m n H L. destruct (any_table _ _ _ _ _ H) as (arr & bs & I & P).
  assert (Hl : length (ents bs) = length m) by (rewrite (Permutation_length P), map_length; reflexivity).
  eexists _, _. split; [|split; [exact (ih_table _ _ _ _ _ _ _ _ I)|symmetry; apply holds_elems; exact P]].
  rewrite (all_recorded _ _ _ _ h t arr bs n I) by lia. cbn [ht_capacity]. unfold zlen. rewrite Nat2Z.id. reflexivity.
Qed.
Print Assumptions C115_traversal.

(** The three elements of C97 in 53 slots. *)
Example C115_example :
  match all_elements_recorded 100 3 ex4 with
  | Ok ((es, slots), _) => es = [103; 108; 106] /\ length slots = 53%nat /\ slots = numbers 0 53
  | _ => False
  end /\ any_history 0 0 ex4 100 [(108, 7, 30); (106, 7, 20); (103, 7, 10)].
Proof. split; [vm_compute; auto|exact C97_history_example]. Qed.
