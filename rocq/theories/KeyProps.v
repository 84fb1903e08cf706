(** C135: hash tables whose keys are in memory: the callbacks read the keys when they are called. The
    memory that the table has not got may change all the time, except the keys that are in it. *)
From Verif Require Import Base Heap ListModel HashModel HashSpec IntegerModel IntegerProofs KeyModel KeySpec KeyProofs KeyStrings.
Open Scope list_scope.
Open Scope Z_scope.

Theorem C135_make : forall X (read : list Z -> option X) cb hash cmp H C h capacity, proper read cb hash cmp H C -> 0 <= capacity < 2 ^ 64 ->
  exists t h', make_hash_table capacity hash cmp h = Ok (t, h') /\ keyed read cb hash cmp C h' t [] /\
    (forall y, owned h' t y -> get h y = None) /\ (forall y, ~ owned h' t y -> get h' y = get h y).
Proof. intros X read cb hash cmp H C h capacity P. exact (make_keyed read cb hash cmp H C P h capacity). Qed.
Print Assumptions C135_make.

(** A key is found by what it says: any address of an equal key finds the association. *)
Theorem C135_get : forall X (read : list Z -> option X) cb hash cmp H C h t m k x, proper read cb hash cmp H C -> keyed read cb hash cmp C h t m -> key_at read h k x ->
  (forall e k' x' v, In (e, k', x', v) m -> C x x' = 0 -> k_hash_table_get cb t k h = Ok (e, h)) /\
  (missing C x m -> k_hash_table_get cb t k h = Ok (0, h)).
Proof. intros X read cb hash cmp H C h t m k x P. exact (get_keyed read cb hash cmp H C P h t m k x). Qed.
Print Assumptions C135_get.

Theorem C135_put_new : forall X (read : list Z -> option X) cb hash cmp H C h t m k x v, proper read cb hash cmp H C -> keyed read cb hash cmp C h t m -> given read h t k x -> few m -> missing C x m ->
  exists e h', k_hash_table_put cb t k v h = Ok (0, h') /\ keyed read cb hash cmp C h' t ((e, k, x, v) :: m) /\ kept t m ((e, k, x, v) :: m) h h'.
Proof. intros X read cb hash cmp H C h t m k x v P. exact (put_new_keyed read cb hash cmp H C P h t m k x v). Qed.
Print Assumptions C135_put_new.

Theorem C135_put_same : forall X (read : list Z -> option X) cb hash cmp H C h t m k x e k' x' v, proper read cb hash cmp H C -> keyed read cb hash cmp C h t m -> key_at read h k x -> In (e, k', x', v) m -> C x x' = 0 ->
  k_hash_table_put cb t k v h = Ok (0, h).
Proof. intros X read cb hash cmp H C h t m k x e k' x' v P. exact (put_same_keyed read cb hash cmp H C P h t m k x e k' x' v). Qed.
Print Assumptions C135_put_same.

(** The new association has the new address of the key; the old one is returned, and the table does not use it (nor its key) any more. *)
Theorem C135_put_replace : forall X (read : list Z -> option X) cb hash cmp H C h t m k x v e' k' x' w m', proper read cb hash cmp H C -> keyed read cb hash cmp C h t m -> given read h t k x -> Permutation m ((e', k', x', w) :: m') ->
  C x x' = 0 -> w <> v ->
  exists e h', k_hash_table_put cb t k v h = Ok (e', h') /\ keyed read cb hash cmp C h' t ((e, k, x, v) :: m') /\ kept t m ((e, k, x, v) :: m') h h' /\ e <> e' /\
    hash_elem_get_key e' h' = Ok (k', h') /\ hash_elem_get_value e' h' = Ok (w, h') /\ ~ owned h' t e'.
Proof. intros X read cb hash cmp H C h t m k x v e' k' x' w m' P. exact (put_replace_keyed read cb hash cmp H C P h t m k x v e' k' x' w m'). Qed.
Print Assumptions C135_put_replace.

Theorem C135_pop : forall X (read : list Z -> option X) cb hash cmp H C h t m k x e k' x' v m', proper read cb hash cmp H C -> keyed read cb hash cmp C h t m -> key_at read h k x -> Permutation m ((e, k', x', v) :: m') -> C x x' = 0 ->
  exists h', k_hash_table_pop cb t k h = Ok (e, h') /\ keyed read cb hash cmp C h' t m' /\ kept t m m' h h' /\
    hash_elem_get_key e h' = Ok (k', h') /\ hash_elem_get_value e h' = Ok (v, h') /\ ~ owned h' t e.
Proof. intros X read cb hash cmp H C h t m k x e k' x' v m' P. exact (pop_keyed read cb hash cmp H C P h t m k x e k' x' v m'). Qed.
Print Assumptions C135_pop.

Theorem C135_pop_none : forall X (read : list Z -> option X) cb hash cmp H C h t m k x, proper read cb hash cmp H C -> keyed read cb hash cmp C h t m -> key_at read h k x -> missing C x m -> k_hash_table_pop cb t k h = Ok (0, h).
Proof. intros X read cb hash cmp H C h t m k x P. exact (pop_none_keyed read cb hash cmp H C P h t m k x). Qed.
Print Assumptions C135_pop_none.

Theorem C135_detach : forall X (read : list Z -> option X) cb hash cmp H C h t m e k x v m', proper read cb hash cmp H C -> keyed read cb hash cmp C h t m -> Permutation m ((e, k, x, v) :: m') ->
  exists h', hash_table_detach t e h = Ok (tt, h') /\ keyed read cb hash cmp C h' t m' /\ kept t m m' h h' /\
    hash_elem_get_key e h' = Ok (k, h') /\ hash_elem_get_value e h' = Ok (v, h') /\ ~ owned h' t e.
Proof. intros X read cb hash cmp H C h t m e k x v m' P. exact (detach_keyed read cb hash cmp H C P h t m e k x v m'). Qed.
Print Assumptions C135_detach.

Theorem C135_remove : forall X (read : list Z -> option X) cb hash cmp H C h t m e k x v m', proper read cb hash cmp H C -> keyed read cb hash cmp C h t m -> Permutation m ((e, k, x, v) :: m') ->
  exists h', hash_table_remove t e h = Ok (tt, h') /\ keyed read cb hash cmp C h' t m' /\ kept t m m' h h' /\ get h' e = None.
Proof. intros X read cb hash cmp H C h t m e k x v m' P. exact (remove_keyed read cb hash cmp H C P h t m e k x v m'). Qed.
Print Assumptions C135_remove.

Theorem C135_pop_any : forall X (read : list Z -> option X) cb hash cmp H C h t m, proper read cb hash cmp H C -> keyed read cb hash cmp C h t m ->
  (m = [] -> hash_table_pop_any t h = Ok (0, h)) /\
  (m <> [] -> exists e k x v m' h', Permutation m ((e, k, x, v) :: m') /\ hash_table_pop_any t h = Ok (e, h') /\ keyed read cb hash cmp C h' t m' /\ kept t m m' h h' /\
    hash_elem_get_key e h' = Ok (k, h') /\ hash_elem_get_value e h' = Ok (v, h') /\ ~ owned h' t e).
Proof. intros X read cb hash cmp H C h t m P. exact (pop_any_keyed read cb hash cmp H C P h t m). Qed.
Print Assumptions C135_pop_any.

Theorem C135_look : forall X (read : list Z -> option X) cb hash cmp H C h t m n, proper read cb hash cmp H C -> keyed read cb hash cmp C h t m -> (length m <= n)%nat ->
  hash_table_size t h = Ok (zlen m, h) /\ hash_table_empty t h = Ok (match m with [] => true | _ => false end, h) /\
  (forall a, In a m -> elem a <> 0 /\ hash_elem_get_key (elem a) h = Ok (address a, h) /\ hash_elem_get_value (elem a) h = Ok (value a, h)) /\
  (exists es, all_elements t n h = Ok (es, h) /\ Permutation es (map elem m) /\ NoDup es).
Proof. intros X read cb hash cmp H C h t m n P. exact (look_keyed read cb hash cmp H C P h t m n). Qed.
Print Assumptions C135_look.

(** The keys in the table lie outside of it, they are what they were, and no two of them are equal. *)
Theorem C135_keys : forall X (read : list Z -> option X) cb hash cmp H C h t m, proper read cb hash cmp H C -> keyed read cb hash cmp C h t m ->
  (forall a, In a m -> given read h t (address a) (content a)) /\
  (forall a b rest, Permutation m (a :: b :: rest) -> C (content a) (content b) <> 0).
Proof. intros X read cb hash cmp H C h t m P. exact (keys_keyed read cb hash cmp H C P h t m). Qed.
Print Assumptions C135_keys.

Theorem C135_destroy : forall X (read : list Z -> option X) cb hash cmp H C h t m, proper read cb hash cmp H C -> keyed read cb hash cmp C h t m ->
  exists h', destroy_hash_table t h = Ok (tt, h') /\ (forall y, owned h t y -> get h' y = None) /\
    (forall y, ~ owned h t y -> get h' y = get h y).
Proof. intros X read cb hash cmp H C h t m P. exact (destroy_keyed read cb hash cmp H C P h t m). Qed.
Print Assumptions C135_destroy.

(** hash_string and strcmp are such callbacks: keys are equal when they are the same strings. *)
Theorem C135_strings : forall hash cmp,
  proper c_string string_callbacks hash cmp (fun s => u64 (poly (map s8 s))) compare_strings.
Proof. exact strings_proper. Qed.
Print Assumptions C135_strings.

Theorem C135_equal_strings : forall s t, readable c_string s -> readable c_string t -> (compare_strings s t = 0 <-> s = t).
Proof. exact strings_equal. Qed.
Print Assumptions C135_equal_strings.

(** What is in a block: the bytes before the first NUL. *)
Theorem C135_c_string : forall s rest, Forall (fun c => 0 < c < 256) s -> c_string (s ++ 0 :: rest) = Some s.
Proof.
  intros s rest F. induction F as [|c s R F IH]; [reflexivity|]. cbn [app c_string]. rewrite IH.
  destruct (c =? 0) eqn:E; [lia|]. replace (0 <? c) with true by lia. replace (c <? 256) with true by lia. reflexivity.
Qed.
Print Assumptions C135_c_string.

(** Two copies of "ab", at 1 and 2, and a table at 3. The association made with the first copy is found
    with the second. When the program writes over the key in the table, even the same address does not
    find the association any more: the keys have to stay as they are. *)
Definition after {A} (m : M A) (h : heap) : heap := match m h with Ok (_, h') => h' | _ => h end.
Definition empty_memory : heap := mk_heap [] (fun n => Z.of_nat (S n)) O.
Definition two_copies : heap := after (alloc (CSlots [97; 98; 0; 5])) (after (alloc (CSlots [97; 98; 0])) empty_memory).
Definition with_table : heap := after (make_hash_table 2 0 0) two_copies.
Definition with_key : heap := after (k_hash_table_put string_callbacks 3 1 7) with_table.
Definition written_over : heap := after (st_slots 1 [99; 100; 0]) with_key.
Example C135_two_copies : exists e : Z,
  keyed c_string string_callbacks 0 0 compare_strings with_key 3 [(e, 1, [97; 98], 7)] /\
  key_at c_string with_key 2 [97; 98] /\
  k_hash_table_get string_callbacks 3 2 with_key = Ok (e, with_key) /\ e <> 0 /\
  k_hash_table_get string_callbacks 3 1 written_over = Ok (0, written_over).
Proof.
  exists 6.
  assert (K : keyed c_string string_callbacks 0 0 compare_strings with_table 3 []).
  { apply (K_make _ _ _ _ _ two_copies 2); [lia|vm_compute; reflexivity]. }
  split; [|split; [|split; [|split; [lia|]]]].
  - eapply (K_op _ _ _ _ _ _ _ _ 0 _ _ K). eapply (KO_put_new _ _ _ _ _ _ _ 1 [97; 98] 7 0 6).
    + split; [exists [97; 98; 0]; split; reflexivity|].
      destruct (make_keyed c_string string_callbacks 0 0 _ _ (strings_proper 0 0) two_copies 2) as (t & h' & E & _ & F); [lia|].
      assert (E' : make_hash_table 2 0 0 two_copies = Ok (3, with_table)) by (vm_compute; reflexivity).
      rewrite E' in E. injection E as <- <-. intros O. apply (proj1 F) in O. vm_compute in O. discriminate.
    + unfold few. cbn. lia.
    + intros a [].
    + vm_compute. reflexivity.
    + vm_compute. reflexivity.
  - exists [97; 98; 0; 5]. split; vm_compute; reflexivity.
  - vm_compute. reflexivity.
  - vm_compute. reflexivity.
Qed.
