(** Properties C23-C27: hash tables (src/hashtable.c). *)
From Verif Require Import Base Heap ListModel HashModel HashSpec HashProofs.

(** Keys 1, 4, 7 ... collide, and keys are equal up to the sign. *)
Definition ex_fn : code := mk_code (fun _ k => Z.abs k mod 3) (fun _ a b => Z.abs a - Z.abs b).
Example ex_legal : forall hash cmp, legal ex_fn hash cmp.
Proof.
  intros hash cmp. constructor; cbn [call_cmp call_hash ex_fn]; intros; try lia.
Qed.

(** C23: every modification of a table with any history succeeds, returns what it
    should, and has the effect of the operation on finite maps... *)
Theorem C23_make : forall fn hash cmp capacity h, 0 <= capacity < 2 ^ 64 -> legal fn hash cmp ->
  exists t h', make_hash_table capacity hash cmp h = Ok (t, h') /\ ht_history fn cmp h' t [].
Proof. exact make_history. Qed.
Print Assumptions C23_make.

Theorem C23_put_new : forall fn cmp h t m k v, ht_history fn cmp h t m -> sparse m -> absent fn cmp k m ->
  exists e h', hash_table_put fn t k v h = Ok (0, h') /\ ht_history fn cmp h' t ((e, k, v) :: m).
Proof. exact put_new_history. Qed.
Print Assumptions C23_put_new.

(** The replaced element is returned; it is readable and no longer belongs to the
    table. *)
Theorem C23_put_replace : forall fn cmp h t m k v e' k' w m',
  ht_history fn cmp h t m -> Permutation m ((e', k', w) :: m') -> call_cmp fn cmp k k' = 0 -> w <> v ->
  exists e h', hash_table_put fn t k v h = Ok (e', h') /\ ht_history fn cmp h' t ((e, k, v) :: m') /\ e <> e' /\
    hash_elem_get_key e' h' = Ok (k', h') /\ hash_elem_get_value e' h' = Ok (w, h') /\ ~ owned h' t e'.
Proof. exact put_replace_history. Qed.
Print Assumptions C23_put_replace.

Theorem C23_pop : forall fn cmp h t m k e k' v m',
  ht_history fn cmp h t m -> Permutation m ((e, k', v) :: m') -> call_cmp fn cmp k k' = 0 ->
  exists h', hash_table_pop fn t k h = Ok (e, h') /\ ht_history fn cmp h' t m' /\
    hash_elem_get_key e h' = Ok (k', h') /\ hash_elem_get_value e h' = Ok (v, h') /\ ~ owned h' t e.
Proof. exact pop_history. Qed.
Print Assumptions C23_pop.

Theorem C23_pop_none : forall fn cmp h t m k, ht_history fn cmp h t m -> absent fn cmp k m ->
  hash_table_pop fn t k h = Ok (0, h).
Proof. exact pop_none_history. Qed.
Print Assumptions C23_pop_none.

Theorem C23_detach : forall fn cmp h t m e k v m', ht_history fn cmp h t m -> Permutation m ((e, k, v) :: m') ->
  exists h', hash_table_detach t e h = Ok (tt, h') /\ ht_history fn cmp h' t m' /\
    hash_elem_get_key e h' = Ok (k, h') /\ hash_elem_get_value e h' = Ok (v, h') /\ ~ owned h' t e.
Proof. exact detach_history. Qed.
Print Assumptions C23_detach.

Theorem C23_remove : forall fn cmp h t m e k v m', ht_history fn cmp h t m -> Permutation m ((e, k, v) :: m') ->
  exists h', hash_table_remove t e h = Ok (tt, h') /\ ht_history fn cmp h' t m' /\ get h' e = None.
Proof. exact remove_history. Qed.
Print Assumptions C23_remove.

Theorem C23_pop_any : forall fn cmp h t m, ht_history fn cmp h t m ->
  (m = [] -> hash_table_pop_any t h = Ok (0, h)) /\
  (m <> [] -> exists e k v m' h', Permutation m ((e, k, v) :: m') /\
    hash_table_pop_any t h = Ok (e, h') /\ ht_history fn cmp h' t m' /\
    hash_elem_get_key e h' = Ok (k, h') /\ hash_elem_get_value e h' = Ok (v, h') /\ ~ owned h' t e).
Proof. exact pop_any_history. Qed.
Print Assumptions C23_pop_any.

(** ... and the observers agree with the map: a lookup gives the element of the
    key, or NULL if there is none, ... *)
Theorem C23_get : forall fn cmp h t m k, ht_history fn cmp h t m ->
  (forall e k' v, In (e, k', v) m -> call_cmp fn cmp k k' = 0 -> hash_table_get fn t k h = Ok (e, h)) /\
  (absent fn cmp k m -> hash_table_get fn t k h = Ok (0, h)).
Proof. exact get_history. Qed.
Print Assumptions C23_get.

(** ... an element has the key and the value of its association, and is not
    NULL, ... *)
Theorem C23_element : forall fn cmp h t m e k v, ht_history fn cmp h t m -> In (e, k, v) m ->
  e <> 0 /\ hash_elem_get_key e h = Ok (k, h) /\ hash_elem_get_value e h = Ok (v, h).
Proof. exact element_history. Qed.
Print Assumptions C23_element.

(** ... two associations have different keys and elements, ... *)
Theorem C23_unique : forall fn cmp h t m a b rest, ht_history fn cmp h t m -> Permutation m (a :: b :: rest) ->
  call_cmp fn cmp (a_key a) (a_key b) <> 0 /\ a_elem a <> a_elem b.
Proof. exact unique_history. Qed.
Print Assumptions C23_unique.

(** ... and the size is the number of associations. *)
Theorem C23_size : forall fn cmp h t m, ht_history fn cmp h t m ->
  hash_table_size t h = Ok (zlen m, h) /\
  hash_table_empty t h = Ok (match m with [] => true | _ => false end, h).
Proof. exact size_history. Qed.
Print Assumptions C23_size.

(** A table with two colliding keys and one more, with a history. *)
Example C23_history_example : exists h t e1 e2 e3, ht_history ex_fn 0 h t [(e3, 2, 30); (e2, 4, 20); (e1, 1, 10)].
Proof.
  destruct (C23_make ex_fn 0 0 10 heap0 ltac:(lia) (ex_legal 0 0)) as (t & h0 & _ & H0).
  assert (A1 : absent ex_fn 0 1 []) by (intros a []).
  destruct (C23_put_new _ _ _ _ _ 1 10 H0 ltac:(reflexivity) A1) as (e1 & h1 & _ & H1).
  assert (A2 : absent ex_fn 0 4 [(e1, 1, 10)]) by (intros a [<-|[]]; discriminate).
  destruct (C23_put_new _ _ _ _ _ 4 20 H1 ltac:(reflexivity) A2) as (e2 & h2 & _ & H2).
  assert (A3 : absent ex_fn 0 2 [(e2, 4, 20); (e1, 1, 10)]) by (intros a [<-|[<-|[]]]; discriminate).
  destruct (C23_put_new _ _ _ _ _ 2 30 H2 ltac:(reflexivity) A3) as (e3 & h3 & _ & H3).
  exists h3, t, e1, e2, e3. exact H3.
Qed.

(** A client: put 1, 4, -1 (the key 1 again), pop 4, and look around. *)
Example C23_example :
  result ((let! t := make_hash_table 10 0 0 in
   let! r1 := hash_table_put ex_fn t 1 10 in
   let! r2 := hash_table_put ex_fn t 4 20 in
   let! old := hash_table_put ex_fn t (-1) 30 in
   let! v := hash_elem_get_value old in
   let! e := hash_table_pop ex_fn t 4 in
   let! w := hash_elem_get_value e in
   let! n := hash_table_size t in
   let! g := hash_table_get ex_fn t 1 in
   let! k := hash_elem_get_key g in
   let! x := hash_table_get ex_fn t 4 in
   ret (r1, r2, v, w, n, k, x)) heap0)
  = Some (0, 0, 10, 20, 1, -1, 0).
Proof. reflexivity. Qed.

(** C24: hash_table_get_any followed by hash_table_get_other until NULL visits
    every element exactly once. *)
Theorem C24_traversal : forall fn cmp h t m n, ht_history fn cmp h t m -> (length m <= n)%nat ->
  exists es, all_elements t n h = Ok (es, h) /\ Permutation es (map a_elem m) /\ NoDup es.
Proof. exact traversal_history. Qed.
Print Assumptions C24_traversal.

Example C24_example :
  result ((let! t := make_hash_table 10 0 0 in
   do! hash_table_put ex_fn t 1 10 in
   do! hash_table_put ex_fn t 2 20 in
   do! hash_table_put ex_fn t 4 30 in
   let! es := all_elements t 3 in
   ret (zlen es)) heap0) = Some 3.
Proof. reflexivity. Qed.

(** C25: putting the value that is already there changes nothing at all (the
    heap is the same) and returns NULL. *)
Theorem C25_put_identical : forall fn cmp h t m k e k' v, ht_history fn cmp h t m -> In (e, k', v) m -> call_cmp fn cmp k k' = 0 ->
  hash_table_put fn t k v h = Ok (0, h).
Proof. exact put_same_history. Qed.
Print Assumptions C25_put_identical.

Example C25_example : exists h t m e, ht_history ex_fn 0 h t m /\ In (e, 4, 20) m /\ call_cmp ex_fn 0 (-4) 4 = 0.
Proof.
  destruct C23_history_example as (h & t & e1 & e2 & e3 & H). eexists h, t, _, e2. split; [exact H|]. split; [|reflexivity].
  right; left; reflexivity.
Qed.

(** C26: the table has as many slots as its capacity says, and that is the
    smallest size in the list that is large enough, or, if there is none, the
    largest one. *)
Theorem C26_capacity : forall fn hash cmp capacity h, legal fn hash cmp ->
  exists t h' c slots, make_hash_table capacity hash cmp h = Ok (t, h') /\ get h' t = Some (CHtab c) /\
    get h' (ht_table c) = Some (CSlots slots) /\ zlen slots = ht_capacity c /\
    In (ht_capacity c) GOOD_SIZES /\ 0 < ht_capacity c /\
    (capacity <= ht_capacity c \/ (forall g, In g GOOD_SIZES -> g < capacity /\ g <= ht_capacity c)) /\
    (forall g, In g GOOD_SIZES -> 0 < g -> capacity <= g -> ht_capacity c <= g).
Proof. exact capacity_make. Qed.
Print Assumptions C26_capacity.

Example C26_example :
  map (good_size GOOD_SIZES) [0; 53; 54; 1610612741; 1610612742; 18446744073709551615]
  = [Ok 53; Ok 53; Ok 97; Ok 1610612741; Ok 1610612741; Ok 1610612741].
Proof. reflexivity. Qed.

(** C27: making a table takes only memory that was free, ... *)
Theorem C27_make : forall fn hash cmp capacity h, legal fn hash cmp ->
  exists t h', make_hash_table capacity hash cmp h = Ok (t, h') /\
    (forall x, owned h' t x -> get h x = None /\ get h' x <> None) /\ (forall x, ~ owned h' t x -> get h' x = get h x).
Proof. exact make_foreign. Qed.
Print Assumptions C27_make.

(** ... an operation does not change or take over any allocated cell that does
    not belong to the table; a cell that stops belonging to the table has been
    freed, unless it is the element that the operation has taken out of the
    table, which is as it was; and no cell of the table is free, ... *)
Theorem C27_operation : forall fn cmp h t m h' r m', ht_history fn cmp h t m -> ht_op fn cmp t h m h' r m' ->
  (forall x, ~ owned h t x -> get h x <> None -> get h' x = get h x /\ ~ owned h' t x) /\
  (forall x, ~ owned h t x -> ~ owned h' t x -> get h' x = get h x) /\
  (forall x, owned h t x -> ~ owned h' t x -> get h' x = None \/
     (get h' x = get h x /\ (exists k v, In (x, k, v) m) /\ (forall k v, ~ In (x, k, v) m'))) /\
  (forall x, owned h' t x -> get h' x <> None).
Proof. exact foreign_op. Qed.
Print Assumptions C27_operation.

(** ... and destroying the table frees all that belongs to it and nothing else. *)
Theorem C27_destroy : forall fn cmp h t m, ht_history fn cmp h t m ->
  exists h', destroy_hash_table t h = Ok (tt, h') /\ (forall x, owned h t x -> get h' x = None) /\
    (forall x, ~ owned h t x -> get h' x = get h x).
Proof. exact destroy_history. Qed.
Print Assumptions C27_destroy.

Example C27_example :
  match ((let! t := make_hash_table 10 0 0 in
   do! hash_table_put ex_fn t 1 10 in
   do! hash_table_put ex_fn t 4 20 in
   let! old := hash_table_put ex_fn t (-1) 30 in
   do! destroy_hash_element old in
   let! e := hash_table_get ex_fn t 4 in
   do! hash_table_remove t e in
   destroy_hash_table t) heap0) with
  | Ok (_, h) => Some (length (mem h))
  | _ => None
  end = Some 0%nat.
Proof. reflexivity. Qed.
