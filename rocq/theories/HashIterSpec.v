(** Hash tables that are changed while they are traversed: loops of a client. *)
From Verif Require Import Base Heap HashModel HashSpec.

(** Removing the associations with the property [p]; the elements are returned in the order in which they are visited:
    for (e = hash_table_get_any(t); e; e = other) {
        other = hash_table_get_other(e);
        if (p(hash_elem_get_key(e), hash_elem_get_value(e))) hash_table_remove(t, e);
    } *)
Fixpoint remove_loop (n : nat) (t : Z) (p : Z -> Z -> bool) (e : Z) : M (list Z) :=
  match n with
  | O => no_fuel
  | S n =>
      if e =? 0 then ret []
      else
        let! k := hash_elem_get_key e in
        let! v := hash_elem_get_value e in
        let! other := hash_table_get_other e in
        do! (if p k v then hash_table_remove t e else ret tt) in
        let! rest := remove_loop n t p other in
        ret (e :: rest)
  end.
Definition remove_if (n : nat) (t : Z) (p : Z -> Z -> bool) : M (list Z) :=
  let! e := hash_table_get_any t in remove_loop n t p e.
Definition keep (p : Z -> Z -> bool) (m : list assoc) : list assoc := filter (fun a => negb (p (a_key a) (a_value a))) m.

(** Taking all associations out of the table, in the order in which they come:
    while ((e = hash_table_pop_any(t))) destroy_hash_element(e); *)
Fixpoint drain (n : nat) (t : Z) : M (list (Z * Z)) :=
  match n with
  | O => no_fuel
  | S n =>
      let! e := hash_table_pop_any t in
      if e =? 0 then ret []
      else
        let! k := hash_elem_get_key e in
        let! v := hash_elem_get_value e in
        do! destroy_hash_element e in
        let! rest := drain n t in
        ret ((k, v) :: rest)
  end.

(** Giving every key a new value:
    for (e = hash_table_get_any(t); e; e = other) {
        other = hash_table_get_other(e);
        old = hash_table_put(t, hash_elem_get_key(e), g(hash_elem_get_value(e)));
        if (old) destroy_hash_element(old);
    } *)
Fixpoint update_loop (n : nat) (fn : code) (t : Z) (g : Z -> Z) (e : Z) : M unit :=
  match n with
  | O => no_fuel
  | S n =>
      if e =? 0 then ret tt
      else
        let! k := hash_elem_get_key e in
        let! v := hash_elem_get_value e in
        let! other := hash_table_get_other e in
        let! old := hash_table_put fn t k (g v) in
        do! (if old =? 0 then ret tt else destroy_hash_element old) in
        update_loop n fn t g other
  end.
Definition update_all (n : nat) (fn : code) (t : Z) (g : Z -> Z) : M unit :=
  let! e := hash_table_get_any t in update_loop n fn t g e.

(** A call has changed memory of the table only, has taken new memory for it only where none was in use, and has freed what
    the table has given up. *)
Definition confined (t : Z) (h h' : heap) : Prop :=
  (forall x, ~ owned h t x -> get h x <> None -> ~ owned h' t x) /\
  (forall x, ~ owned h t x -> ~ owned h' t x -> get h' x = get h x) /\
  (forall x, owned h t x -> ~ owned h' t x -> get h' x = None).

(** Two keys have the same place in the table [t]. *)
Definition collide (fn : code) (h : heap) (t k1 k2 : Z) : Prop :=
  exists c, get h t = Some (CHtab c) /\
    u64 (call_hash fn (ht_hash c) k1) mod ht_capacity c = u64 (call_hash fn (ht_hash c) k2) mod ht_capacity c.
