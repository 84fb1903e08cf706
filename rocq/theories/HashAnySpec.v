(** Hash tables whose hash and comparison functions may be anything. *)
From Verif Require Import Base Heap ListModel HashModel HashSpec.

(** [any_history hash cmp h t m]: in heap [h], [t] is a table that has been made
    with the functions [hash] and [cmp] and modified in such ways that its
    associations should be [m] (in some order). Nothing is required of the two
    functions: every operation comes with answers [fn] of its own. The comparison
    need not be an equality, the hashes need not respect it, and neither need
    answer as it did before.

    As the answers decide what a put does, the history says what the caller can
    see of it: the return value, and the elements that a loop over the table
    finds. *)
Inductive any_history (hash cmp : Z) : heap -> Z -> list assoc -> Prop :=
| NH_make h capacity t h' :
    0 <= capacity < 2 ^ 64 -> make_hash_table capacity hash cmp h = Ok (t, h') -> any_history hash cmp h' t []
| NH_put_added (fn : code) h t m k v e h' n es :
    any_history hash cmp h t m -> sparse m ->
    hash_table_put fn t k v h = Ok (0, h') ->
    all_elements t n h' = Ok (es, h') -> Permutation es (e :: map a_elem m) ->
    any_history hash cmp h' t ((e, k, v) :: m)
| NH_put_same (fn : code) h t m k v h' n es :
    any_history hash cmp h t m -> sparse m ->
    hash_table_put fn t k v h = Ok (0, h') ->
    all_elements t n h' = Ok (es, h') -> Permutation es (map a_elem m) ->
    any_history hash cmp h' t m
| NH_put_replaced (fn : code) h t r k' w m k v e h' n es :
    any_history hash cmp h t ((r, k', w) :: m) -> sparse ((r, k', w) :: m) ->
    hash_table_put fn t k v h = Ok (r, h') ->
    all_elements t n h' = Ok (es, h') -> Permutation es (e :: map a_elem m) ->
    any_history hash cmp h' t ((e, k, v) :: m)
| NH_pop (fn : code) h t r k' v m k h' :
    any_history hash cmp h t ((r, k', v) :: m) ->
    hash_table_pop fn t k h = Ok (r, h') -> any_history hash cmp h' t m
| NH_pop_none (fn : code) h t m k h' :
    any_history hash cmp h t m -> hash_table_pop fn t k h = Ok (0, h') -> any_history hash cmp h' t m
| NH_detach h t e k v m h' :
    any_history hash cmp h t ((e, k, v) :: m) -> hash_table_detach t e h = Ok (tt, h') -> any_history hash cmp h' t m
| NH_remove h t e k v m h' :
    any_history hash cmp h t ((e, k, v) :: m) -> hash_table_remove t e h = Ok (tt, h') -> any_history hash cmp h' t m
| NH_pop_any h t r k v m h' :
    any_history hash cmp h t ((r, k, v) :: m) -> hash_table_pop_any t h = Ok (r, h') -> any_history hash cmp h' t m
| NH_perm h t m m' :
    any_history hash cmp h t m -> Permutation m m' -> any_history hash cmp h t m'
| NH_other h t m h' :
    any_history hash cmp h t m -> (forall x, owned h t x -> get h' x = get h x) -> any_history hash cmp h' t m.

(** What an operation on the table [t] that gives the element [r] to the caller
    (or none, if [r] is NULL) leaves alone: an allocated cell that did not belong
    to the table is unchanged and does not belong to it now; what belongs to it
    now is allocated; a cell that belonged to it neither before nor now is
    unchanged; what has left the table has been freed, other than [r]. *)
Definition confined (t r : Z) (h h' : heap) : Prop :=
  (forall x, ~ owned h t x -> get h x <> None -> get h' x = get h x /\ ~ owned h' t x) /\
  (forall x, owned h' t x -> get h' x <> None) /\
  (forall x, ~ owned h t x -> ~ owned h' t x -> get h' x = get h x) /\
  (forall x, owned h t x -> ~ owned h' t x -> x <> r -> get h' x = None).

(** An element that has its key and value. *)
Definition readable (h : heap) (e k v : Z) : Prop :=
  e <> 0 /\ hash_elem_get_key e h = Ok (k, h) /\ hash_elem_get_value e h = Ok (v, h).
