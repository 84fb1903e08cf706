(** The functions of HashModel.v with a record of the keys that the comparison function is
    called with, which the C functions do not have. The record, in the order of the calls, is
    the last component of the result; without it the functions are those of HashModel.v
    (C108_same). The hash function is called in [bucket_index] only. *)
From Verif Require Import Base Heap ListModel HashModel.

(** src/hashtable.c:101-113 hash_table_get (the loop) *)
Fixpoint ht_get_loop_recorded (fn : code) (n : nat) (table key le : Z) : M (Z * list Z) :=
  match n with
  | O => no_fuel
  | S n =>
      if le =? 0 then ret (0, [])
      else
        let! element := list_elem_get_value le in
        let! c := ld_htab table in
        let! e := ld_helem element in
        if call_cmp fn (ht_cmp c) key (he_key e) =? 0 then ret (element, [he_key e])
        else
          let! le := list_next le in
          let! r := ht_get_loop_recorded fn n table key le in
          ret (fst r, he_key e :: snd r)
  end.
(** src/hashtable.c:101-113 hash_table_get *)
Definition hash_table_get_recorded (fn : code) (table key : Z) : M (Z * list Z) :=
  let! i := bucket_index fn table key in
  let! list := ld_slot table i in
  if list =? 0 then ret (0, [])
  else
    let! n := fuel in
    let! le := list_get_first list in
    ht_get_loop_recorded fn n table key le.

(** src/hashtable.c:115-140 hash_table_put (the loop) *)
Fixpoint ht_put_loop_recorded (fn : code) (n : nat) (table i list key value le : Z) : M (Z * List.list Z) :=
  match n with
  | O => no_fuel
  | S n =>
      if le =? 0 then
        do! add_element table i key value in
        do! ht_size_inc table in
        ret (0, [])
      else
        let! old := list_elem_get_value le in
        let! c := ld_htab table in
        let! e := ld_helem old in
        if call_cmp fn (ht_cmp c) key (he_key e) =? 0 then
          let! old_value := hash_elem_get_value old in
          if old_value =? value then ret (0, [he_key e])
          else
            do! list_remove list le in
            do! add_element table i key value in
            ret (old, [he_key e])
        else
          let! le := list_next le in
          let! r := ht_put_loop_recorded fn n table i list key value le in
          ret (fst r, he_key e :: snd r)
  end.
(** src/hashtable.c:115-140 hash_table_put *)
Definition hash_table_put_recorded (fn : code) (table key value : Z) : M (Z * list Z) :=
  let! i := bucket_index fn table key in
  let! list := ld_slot table i in
  if list =? 0 then
    let! list := make_list in
    do! st_slot table i list in
    do! add_element table i key value in
    do! ht_size_inc table in
    ret (0, [])
  else
    let! n := fuel in
    let! le := list_get_first list in
    ht_put_loop_recorded fn n table i list key value le.

(** src/hashtable.c:154-160 hash_table_pop *)
Definition hash_table_pop_recorded (fn : code) (table key : Z) : M (Z * list Z) :=
  let! r := hash_table_get_recorded fn table key in
  do! (if fst r =? 0 then ret tt else hash_table_detach table (fst r)) in
  ret r.
