(** C105, C106: hash tables that are changed while they are traversed. *)
From Verif Require Import Base Heap ListModel HashModel HashSpec HashProofs HashProps HashIterSpec HashIter.
From Coq Require Import ZifyBool.

(** C105: a loop that fetches the next element first can remove any associations. Every element is visited once; exactly the
    associations with the property are removed and their elements freed; the loop ends after one step for every element. *)
Theorem C105_table_remove : forall fn cmp h t m p n, ht_history fn cmp h t m -> (length m < n)%nat ->
  exists es h', remove_if n t p h = Ok (es, h') /\ Permutation es (map a_elem m) /\ ht_history fn cmp h' t (keep p m) /\
    (forall a, In a m -> p (a_key a) (a_value a) = true -> get h' (a_elem a) = None) /\ confined t h h'.
Proof. exact remove_if_history. Qed.
Print Assumptions C105_table_remove.

(** A loop that takes out any element until none is left gets every association once and leaves an empty table. *)
Theorem C105_table_drain : forall fn cmp h t m n, ht_history fn cmp h t m -> (length m < n)%nat ->
  exists kvs h', drain n t h = Ok (kvs, h') /\ Permutation kvs (map (fun a => (a_key a, a_value a)) m) /\
    ht_history fn cmp h' t [] /\ confined t h h'.
Proof. exact drain_history. Qed.
Print Assumptions C105_table_drain.

Definition three_keys : M Z :=
  let! t := make_hash_table 10 0 0 in
  do! hash_table_put ex_fn t 1 10 in
  do! hash_table_put ex_fn t 4 20 in
  do! hash_table_put ex_fn t 2 30 in
  ret t.
(** The keys 1, 4 and 2, with 1 and 4 in one bucket. *)
Example C105_table_example :
  result ((let! t := three_keys in
   let! es := remove_if 4 t (fun k v => v =? 10) in
   let! rest := drain 3 t in
   let! n := hash_table_size t in
   ret (zlen es, rest, n)) heap0) = Some (3, [(4, 20); (2, 30)], 0).
Proof. reflexivity. Qed.

(** C106: that a loop which fetches the next element first can put a new value for every key is false for tables in which two
    keys have the same place: hash_table_put moves the key behind the other one, where it is found again, and the loop
    does not end, however many steps it may take. *)
Theorem C106_refuted : forall fn cmp h t m a b rest g, ht_history fn cmp h t m -> Permutation m (a :: b :: rest) ->
  collide fn h t (a_key a) (a_key b) -> (forall v, g v <> v) -> forall n, update_all n fn t g h = NoFuel.
Proof. exact update_all_never. Qed.
Print Assumptions C106_refuted.

(** It is true if no two keys have the same place, or if a second replacement changes nothing. *)
Theorem C106_table_partial : forall fn cmp h t m g n, ht_history fn cmp h t m -> (2 * length m < n)%nat ->
  ((forall v, g (g v) = g v) \/ (forall a b rest, Permutation m (a :: b :: rest) -> ~ collide fn h t (a_key a) (a_key b))) ->
  exists m' h', update_all n fn t g h = Ok (tt, h') /\ ht_history fn cmp h' t m' /\
    Permutation (map (fun a => (a_key a, a_value a)) m') (map (fun a => (a_key a, g (a_value a))) m) /\ confined t h h'.
Proof. exact update_all_ends. Qed.
Print Assumptions C106_table_partial.

Example C106_example :
  (let! t := three_keys in update_all 100 ex_fn t (fun v => v + 1)) heap0 = NoFuel /\
  result ((let! t := three_keys in
   do! update_all 7 ex_fn t (fun v => Z.max v 25) in
   drain 4 t) heap0) = Some [(1, 25); (4, 25); (2, 30)] /\
  result ((let! t := three_keys in
   do! remove_if 4 t (fun k v => k =? 4) in
   do! update_all 5 ex_fn t (fun v => v + 1) in
   drain 4 t) heap0) = Some [(1, 11); (2, 31)].
Proof. split; [|split]; reflexivity. Qed.
Example C106_history_example : exists h t e1 e2 e3,
  ht_history ex_fn 0 h t [(e3, 2, 30); (e2, 4, 20); (e1, 1, 10)] /\ collide ex_fn h t 4 1 /\
  Permutation [(e3, 2, 30); (e2, 4, 20); (e1, 1, 10)] [(e2, 4, 20); (e1, 1, 10); (e3, 2, 30)].
Proof.
  destruct C23_history_example as (h & t & e1 & e2 & e3 & H). exists h, t, e1, e2, e3. split; [exact H|]. split.
  - destruct (history_ht _ _ _ _ _ H) as (hash & arr & bs & I & _). eexists. split; [exact (ih_table _ _ _ _ _ _ _ _ I)|reflexivity].
  - apply (Permutation_middle [(e2, 4, 20); (e1, 1, 10)] [] (e3, 2, 30)).
Qed.
