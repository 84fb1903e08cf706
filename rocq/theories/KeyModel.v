(** Hash tables whose callbacks read memory: the functions of src/hashtable.c that call the hash and
    comparison functions of a table, as in HashModel.v, but the callbacks are functions on the heap.
    The other functions of src/hashtable.c make no calls and stay as they are. *)
From Verif Require Import Base Heap ListModel HashModel IntegerModel.

(** What the functions behind the code pointers do. *)
Record callbacks := mk_callbacks {
  ask_hash : Z -> Z -> M Z;
  ask_cmp : Z -> Z -> Z -> M Z
}.

(** table->hash(key) % table->capacity *)
Definition k_bucket_index (cb : callbacks) (table key : Z) : M Z :=
  let! c := ld_htab table in
  let! x := ask_hash cb (ht_hash c) key in
  let! c := ld_htab table in
  if ht_capacity c =? 0 then fail
  else ret (u64 x mod ht_capacity c).

(** src/hashtable.c:101-113 hash_table_get (the loop) *)
Fixpoint k_get_loop (cb : callbacks) (n : nat) (table key le : Z) : M Z :=
  match n with
  | O => no_fuel
  | S n =>
      if le =? 0 then ret 0
      else
        let! element := list_elem_get_value le in
        let! c := ld_htab table in
        let! e := ld_helem element in
        let! x := ask_cmp cb (ht_cmp c) key (he_key e) in
        if x =? 0 then ret element
        else
          let! le := list_next le in
          k_get_loop cb n table key le
  end.
(** src/hashtable.c:101-113 hash_table_get *)
Definition k_hash_table_get (cb : callbacks) (table key : Z) : M Z :=
  let! i := k_bucket_index cb table key in
  let! list := ld_slot table i in
  if list =? 0 then ret 0
  else
    let! n := fuel in
    let! le := list_get_first list in
    k_get_loop cb n table key le.

(** src/hashtable.c:115-140 hash_table_put (the loop) *)
Fixpoint k_put_loop (cb : callbacks) (n : nat) (table i list key value le : Z) : M Z :=
  match n with
  | O => no_fuel
  | S n =>
      if le =? 0 then
        do! add_element table i key value in
        do! ht_size_inc table in
        ret 0
      else
        let! old := list_elem_get_value le in
        let! c := ld_htab table in
        let! e := ld_helem old in
        let! x := ask_cmp cb (ht_cmp c) key (he_key e) in
        if x =? 0 then
          let! old_value := hash_elem_get_value old in
          if old_value =? value then ret 0
          else
            do! list_remove list le in
            do! add_element table i key value in
            ret old
        else
          let! le := list_next le in
          k_put_loop cb n table i list key value le
  end.
(** src/hashtable.c:115-140 hash_table_put *)
Definition k_hash_table_put (cb : callbacks) (table key value : Z) : M Z :=
  let! i := k_bucket_index cb table key in
  let! list := ld_slot table i in
  if list =? 0 then
    let! list := make_list in
    do! st_slot table i list in
    do! add_element table i key value in
    do! ht_size_inc table in
    ret 0
  else
    let! n := fuel in
    let! le := list_get_first list in
    k_put_loop cb n table i list key value le.

(** src/hashtable.c:154-160 hash_table_pop *)
Definition k_hash_table_pop (cb : callbacks) (table key : Z) : M Z :=
  let! element := k_hash_table_get cb table key in
  do! (if element =? 0 then ret tt else hash_table_detach table element) in
  ret element.

(** strcmp of the C library: the difference of the first bytes that differ, as unsigned chars. *)
Fixpoint strcmp (s t : list Z) : res Z :=
  match s, t with
  | c :: s, d :: t => if c =? d then if c =? 0 then Ok 0 else strcmp s t else Ok (c - d)
  | _, _ => UB
  end.

(** Tables made with hash_string (src/hashtable.c:203-209) and strcmp. A key is the address of a
    block that begins with the string. *)
Definition string_callbacks : callbacks := {|
  ask_hash _ key := let! b := ld_slots key in lift (hash_string b);
  ask_cmp _ key1 key2 := let! a := ld_slots key1 in let! b := ld_slots key2 in lift (strcmp a b)
|}.
