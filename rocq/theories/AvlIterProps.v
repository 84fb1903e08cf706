(** C105, C106: AVL trees that are changed while they are traversed. *)
From Verif Require Import Base Heap AvlModel AvlSpec AvlProps AvlIterSpec AvlIter.

(** C105: a loop that fetches the next element first can remove any associations. The elements are visited in the order of their
    keys, each once; exactly the associations with the property are removed, and their elements freed. *)
Theorem C105_tree_remove : forall call cmp obj h t m p n, avl_history call cmp obj h t m -> (length m < n)%nat ->
  exists h', remove_if n t p h = Ok (handles m, h') /\ avl_history call cmp obj h' t (keep p m) /\
    (forall a, In a m -> p (a_key a) (a_value a) = true -> get h' (a_elem a) = None) /\ confined t m h (keep p m) h'.
Proof. exact remove_if_history. Qed.
Print Assumptions C105_tree_remove.

(** A loop that takes out the first element until none is left gets the associations in the order of the keys. *)
Theorem C105_tree_drain : forall call cmp obj t m h n, avl_history call cmp obj h t m -> (length m < n)%nat ->
  exists h', drain n t h = Ok (map a_pair m, h') /\ avl_history call cmp obj h' t [] /\ confined t m h [] h'.
Proof. exact drain_history. Qed.
Print Assumptions C105_tree_drain.

(** C106: a loop that fetches the next element first can put a new value for every key. *)
Theorem C106_tree_partial : forall call cmp obj h t m g n, avl_history call cmp obj h t m -> (length m < n)%nat ->
  exists m' h', update_all n call t g h = Ok (tt, h') /\ avl_history call cmp obj h' t m' /\
    map a_pair m' = map (fun a => (a_key a, g (a_value a))) m /\ confined t m h m' h'.
Proof. exact update_all_history. Qed.
Print Assumptions C106_tree_partial.

Definition five_keys : M Z :=
  let! t := make_avl_tree_2 0 0 in
  do! avl_tree_put ex_call t 5 10 in
  do! avl_tree_put ex_call t 1 20 in
  do! avl_tree_put ex_call t 3 30 in
  do! avl_tree_put ex_call t 4 40 in
  do! avl_tree_put ex_call t 2 50 in
  ret t.
Example C105_tree_example :
  result ((let! t := five_keys in
   let! es := remove_if 6 t (fun k v => Z.odd k) in
   do! update_all 6 ex_call t (fun v => v + 1) in
   let! n := avl_tree_size t in
   let! rest := drain 6 t in
   ret (zlen es, n, rest)) heap0) = Some (5, 2, [(2, 51); (4, 41)]).
Proof. reflexivity. Qed.
