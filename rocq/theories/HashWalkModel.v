(** hash_table_get_any and hash_table_get_other with a record of the slots of the
    table they look at, which the C functions do not have. The record is the
    second component of the result; without it the functions are those of
    HashModel.v (C115_same). *)
From Verif Require Import Base Heap ListModel HashModel HashSpec.

(** src/hashtable.c:175-183 get_next (the loop) *)
Fixpoint get_next_loop_recorded (n : nat) (table i : Z) : M (Z * list Z) :=
  match n with
  | O => no_fuel
  | S n =>
      let! c := ld_htab table in
      if i <? ht_capacity c then
        let! list := ld_slot table i in
        let! full := (if list =? 0 then ret false else let! b := list_empty list in ret (negb b)) in
        if full : bool then
          let! first := list_get_first list in
          let! e := list_elem_get_value first in
          ret (e, [i])
        else let! r := get_next_loop_recorded n table (i + 1) in ret (fst r, i :: snd r)
      else ret (0, [])
  end.
(** src/hashtable.c:175-183 get_next *)
Definition get_next_recorded (table i : Z) : M (Z * list Z) :=
  let! c := ld_htab table in
  get_next_loop_recorded (S (Z.to_nat (ht_capacity c))) table i.

(** src/hashtable.c:185-188 hash_table_get_any *)
Definition hash_table_get_any_recorded (table : Z) : M (Z * list Z) := get_next_recorded table 0.

(** src/hashtable.c:190-196 hash_table_get_other *)
Definition hash_table_get_other_recorded (element : Z) : M (Z * list Z) :=
  let! e := ld_helem element in
  let! le := list_next (he_loc e) in
  if truth le then let! v := list_elem_get_value le in ret (v, [])
  else get_next_recorded (he_table e) (he_index e + 1).

(** The client loop of HashSpec.v, with all the slots that are looked at. *)
Fixpoint others_recorded (n : nat) (e : Z) : M (list Z * list Z) :=
  if e =? 0 then ret ([], [])
  else match n with
       | O => no_fuel
       | S n =>
           let! e' := hash_table_get_other_recorded e in
           let! rest := others_recorded n (fst e') in
           ret (e :: fst rest, snd e' ++ snd rest)
       end.
Definition all_elements_recorded (t : Z) (n : nat) : M (list Z * list Z) :=
  let! e := hash_table_get_any_recorded t in
  let! r := others_recorded n (fst e) in
  ret (fst r, snd e ++ snd r).

(** The numbers from [i] on, [n] of them. *)
Fixpoint numbers (i : Z) (n : nat) : list Z :=
  match n with O => [] | S n => i :: numbers (i + 1) n end.
