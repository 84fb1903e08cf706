(** Model of src/hashtable.c (hash tables on top of lists). The hash functions
    of that file are in IntegerModel.v. *)
From Verif Require Import Base Heap ListModel.

(** What the functions behind the code pointers [hash] and [cmp] compute. They
    do not access the table. *)
Record code := mk_code { call_hash : Z -> Z -> Z; call_cmp : Z -> Z -> Z -> Z }.

(** src/hashtable.c:9-37 GOOD_SIZES *)
Definition GOOD_SIZES : list Z :=
  [53; 97; 193; 389; 769; 1543; 3079; 6151; 12289; 24593; 49157; 98317; 196613; 393241; 786433; 1572869;
   3145739; 6291469; 12582917; 25165843; 50331653; 100663319; 201326611; 402653189; 805306457; 1610612741; 0].

(** src/hashtable.c:45-47 (the loop over GOOD_SIZES, [goodp] is the rest of the
    array) *)
Fixpoint good_size (goodp : list Z) (capacity : Z) : res Z :=
  match goodp with
  | g0 :: ((g1 :: _) as rest) =>
      if truth g1 && (g0 <? capacity) then good_size rest capacity else Ok g0
  | _ => UB
  end.

(** table->table[i] *)
Definition ld_slot (table i : Z) : M Z :=
  let! c := ld_htab table in
  let! s := ld_slots (ht_table c) in
  lift (rd s i).
(** table->table[i] = v *)
Definition st_slot (table i v : Z) : M unit :=
  let! c := ld_htab table in
  let! s := ld_slots (ht_table c) in
  let! s := lift (wr s i v) in
  st_slots (ht_table c) s.
(** table->size = v *)
Definition st_ht_size (table v : Z) : M unit :=
  let! c := ld_htab table in
  st_htab table (mk_htab (ht_capacity c) v (ht_hash c) (ht_cmp c) (ht_table c)).
Definition ht_size_inc (table : Z) : M unit :=
  let! c := ld_htab table in st_ht_size table (u64 (ht_size c + 1)).
Definition ht_size_dec (table : Z) : M unit :=
  let! c := ld_htab table in st_ht_size table (u64 (ht_size c - 1)).

(** src/hashtable.c:39-54 make_hash_table. fscalloc gives an array of NULLs (its
    overflow is C69; capacity is at most 1610612741 here). *)
Definition make_hash_table (capacity hash cmp : Z) : M Z :=
  let! table := alloc (CHtab (mk_htab 0 0 0 0 0)) in
  let! capacity := lift (good_size GOOD_SIZES capacity) in
  let! slots := alloc (CSlots (repeat 0 (Z.to_nat capacity))) in
  do! st_htab table (mk_htab capacity 0 hash cmp slots) in
  ret table.

(** src/hashtable.c:56-59 destroy_hash_element *)
Definition destroy_hash_element (element : Z) : M unit := free element.

(** src/hashtable.c:61-73 destroy_hash_table (the inner loop) *)
Fixpoint destroy_bucket (n : nat) (le : Z) : M unit :=
  match n with
  | O => no_fuel
  | S n =>
      if le =? 0 then ret tt
      else
        let! element := list_elem_get_value le in
        do! destroy_hash_element element in
        let! le := list_next le in
        destroy_bucket n le
  end.
(** src/hashtable.c:61-73 destroy_hash_table (the outer loop) *)
Fixpoint destroy_buckets (n : nat) (table i : Z) : M unit :=
  match n with
  | O => no_fuel
  | S n =>
      let! c := ld_htab table in
      if i <? ht_capacity c then
        let! list := ld_slot table i in
        do! (if list =? 0 then ret tt
             else
               let! k := fuel in
               let! le := list_get_first list in
               do! destroy_bucket k le in
               let! list := ld_slot table i in
               destroy_list list) in
        destroy_buckets n table (i + 1)
      else ret tt
  end.
(** src/hashtable.c:61-73 destroy_hash_table *)
Definition destroy_hash_table (table : Z) : M unit :=
  let! c := ld_htab table in
  do! destroy_buckets (S (Z.to_nat (ht_capacity c))) table 0 in
  let! c := ld_htab table in
  do! free (ht_table c) in
  free table.

(** src/hashtable.c:75-84 add_element *)
Definition add_element (hash_table list_index key value : Z) : M unit :=
  let! element := alloc (CHelem (mk_helem hash_table list_index 0 key value)) in
  let! list := ld_slot hash_table list_index in
  let! loc := list_append list element in
  let! c := ld_helem element in
  st_helem element (mk_helem (he_table c) (he_index c) loc (he_key c) (he_value c)).

(** src/hashtable.c:86-89 hash_table_size *)
Definition hash_table_size (table : Z) : M Z :=
  let! c := ld_htab table in ret (ht_size c).

(** src/hashtable.c:91-94 hash_elem_get_key *)
Definition hash_elem_get_key (element : Z) : M Z :=
  let! c := ld_helem element in ret (he_key c).

(** src/hashtable.c:96-99 hash_elem_get_value *)
Definition hash_elem_get_value (element : Z) : M Z :=
  let! c := ld_helem element in ret (he_value c).

(** table->hash(key) % table->capacity *)
Definition bucket_index (fn : code) (table key : Z) : M Z :=
  let! c := ld_htab table in
  if ht_capacity c =? 0 then fail
  else ret (u64 (call_hash fn (ht_hash c) key) mod ht_capacity c).

(** src/hashtable.c:101-113 hash_table_get (the loop) *)
Fixpoint ht_get_loop (fn : code) (n : nat) (table key le : Z) : M Z :=
  match n with
  | O => no_fuel
  | S n =>
      if le =? 0 then ret 0
      else
        let! element := list_elem_get_value le in
        let! c := ld_htab table in
        let! e := ld_helem element in
        if call_cmp fn (ht_cmp c) key (he_key e) =? 0 then ret element
        else
          let! le := list_next le in
          ht_get_loop fn n table key le
  end.
(** src/hashtable.c:101-113 hash_table_get *)
Definition hash_table_get (fn : code) (table key : Z) : M Z :=
  let! i := bucket_index fn table key in
  let! list := ld_slot table i in
  if list =? 0 then ret 0
  else
    let! n := fuel in
    let! le := list_get_first list in
    ht_get_loop fn n table key le.

(** src/hashtable.c:115-140 hash_table_put (the loop) *)
Fixpoint ht_put_loop (fn : code) (n : nat) (table i list key value le : Z) : M Z :=
  match n with
  | O => no_fuel
  | S n =>
      if le =? 0 then
        do! add_element table i key value in
        do! ht_size_inc table in
        ret 0
      else
        let! old := list_elem_get_value le in
        let! c := ld_htab table in
        let! e := ld_helem old in
        if call_cmp fn (ht_cmp c) key (he_key e) =? 0 then
          let! old_value := hash_elem_get_value old in
          if old_value =? value then ret 0
          else
            do! list_remove list le in
            do! add_element table i key value in
            ret old
        else
          let! le := list_next le in
          ht_put_loop fn n table i list key value le
  end.
(** src/hashtable.c:115-140 hash_table_put *)
Definition hash_table_put (fn : code) (table key value : Z) : M Z :=
  let! i := bucket_index fn table key in
  let! list := ld_slot table i in
  if list =? 0 then
    let! list := make_list in
    do! st_slot table i list in
    do! add_element table i key value in
    do! ht_size_inc table in
    ret 0
  else
    let! n := fuel in
    let! le := list_get_first list in
    ht_put_loop fn n table i list key value le.

(** src/hashtable.c:142-146 hash_table_detach *)
Definition hash_table_detach (table element : Z) : M unit :=
  let! e := ld_helem element in
  let! list := ld_slot (he_table e) (he_index e) in
  do! list_remove list (he_loc e) in
  ht_size_dec table.

(** src/hashtable.c:148-152 hash_table_remove *)
Definition hash_table_remove (table element : Z) : M unit :=
  do! hash_table_detach table element in
  destroy_hash_element element.

(** src/hashtable.c:154-160 hash_table_pop *)
Definition hash_table_pop (fn : code) (table key : Z) : M Z :=
  let! element := hash_table_get fn table key in
  do! (if element =? 0 then ret tt else hash_table_detach table element) in
  ret element.

(** src/hashtable.c:162-173 hash_table_pop_any (the loop) *)
Fixpoint pop_any_loop (n : nat) (table i : Z) : M Z :=
  match n with
  | O => no_fuel
  | S n =>
      let! c := ld_htab table in
      if i <? ht_capacity c then
        let! list := ld_slot table i in
        let! full := (if list =? 0 then ret false else let! b := list_empty list in ret (negb b)) in
        if full : bool then
          do! ht_size_dec table in
          list_pop_first list
        else pop_any_loop n table (i + 1)
      else ret 0
  end.
(** src/hashtable.c:162-173 hash_table_pop_any *)
Definition hash_table_pop_any (table : Z) : M Z :=
  let! c := ld_htab table in
  pop_any_loop (S (Z.to_nat (ht_capacity c))) table 0.

(** src/hashtable.c:175-183 get_next (the loop) *)
Fixpoint get_next_loop (n : nat) (table i : Z) : M Z :=
  match n with
  | O => no_fuel
  | S n =>
      let! c := ld_htab table in
      if i <? ht_capacity c then
        let! list := ld_slot table i in
        let! full := (if list =? 0 then ret false else let! b := list_empty list in ret (negb b)) in
        if full : bool then
          let! first := list_get_first list in
          list_elem_get_value first
        else get_next_loop n table (i + 1)
      else ret 0
  end.
(** src/hashtable.c:175-183 get_next *)
Definition get_next (table i : Z) : M Z :=
  let! c := ld_htab table in
  get_next_loop (S (Z.to_nat (ht_capacity c))) table i.

(** src/hashtable.c:185-188 hash_table_get_any *)
Definition hash_table_get_any (table : Z) : M Z := get_next table 0.

(** src/hashtable.c:190-196 hash_table_get_other *)
Definition hash_table_get_other (element : Z) : M Z :=
  let! e := ld_helem element in
  let! le := list_next (he_loc e) in
  if truth le then list_elem_get_value le
  else get_next (he_table e) (he_index e + 1).

(** src/hashtable.c:198-201 hash_table_empty *)
Definition hash_table_empty (table : Z) : M bool :=
  let! c := ld_htab table in ret (ht_size c =? 0).
