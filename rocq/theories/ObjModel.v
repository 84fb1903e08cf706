(** Integer sets and priority queues on the heap of Heap.v, struct by struct: which blocks they
    allocate, use and free. IntsetModel.v and PriorqModel.v describe one such object as a value. *)
From Verif Require Import Base CMem Heap IntsetModel PriorqModel.

(** Field [i] of the struct at [a], and a write to it. *)
Definition field (a i : Z) : M Z := let! c := ld_slots a in lift (rd c i).
Definition set_field (a i v : Z) : M unit := let! c := ld_slots a in let! c := lift (wr c i v) in st_slots a c.

(** fsfree, also of NULL *)
Definition fsfree (a : Z) : M unit := if a =? 0 then ret tt else free a.

(** * src/intset.c *)

(** src/intset_imp.h: the struct is [size; data]. *)
Definition SI_size : Z := 0.
Definition SI_data : Z := 1.

(** src/intset.c:12-18 make_intset; the field data is not initialized by fsalloc *)
Definition h_make_intset (junk : nat -> Z) (size : Z) : M Z :=
  let! s := alloc (CSlots (fresh_block junk 2)) in
  do! set_field s SI_size size in
  let! d := alloc (CSlots (repeat 0 (Z.to_nat (bits_to_longs size)))) in
  do! set_field s SI_data d in
  ret s.

(** src/intset.c:20-24 destroy_intset *)
Definition h_destroy_intset (s : Z) : M unit :=
  let! d := field s SI_data in
  do! fsfree d in
  fsfree s.

(** src/intset.c:26-31 intset_fill *)
Fixpoint h_fill_loop (fuel : nat) (s i : Z) : M unit :=
  match fuel with
  | O => no_fuel
  | S fuel =>
      let! n := field s SI_size in
      if i <? bits_to_longs n then
        let! d := field s SI_data in
        do! set_field d i (2 ^ 64 - 1) in
        h_fill_loop fuel s (u32 (i + 1))
      else ret tt
  end.
Definition h_intset_fill (s : Z) : M unit :=
  let! d := field s SI_data in
  let! w := ld_slots d in
  h_fill_loop (S (length w)) s 0.

(** src/intset.c:33-37 intset_add *)
Definition h_intset_add (s elem : Z) : M unit :=
  let! n := field s SI_size in
  if elem <? n then
    let! d := field s SI_data in
    let! x := field d (elem / 64) in
    set_field d (elem / 64) (Z.lor x (u64 (Z.shiftl 1 (elem mod 64))))
  else ret tt.

(** src/intset.c:39-43 intset_remove *)
Definition h_intset_remove (s elem : Z) : M unit :=
  let! n := field s SI_size in
  if elem <? n then
    let! d := field s SI_data in
    let! x := field d (elem / 64) in
    set_field d (elem / 64) (Z.land x (lnot64 (u64 (Z.shiftl 1 (elem mod 64)))))
  else ret tt.

(** src/intset.c:45-51 intset_has *)
Definition h_intset_has (s elem : Z) : M bool :=
  let! n := field s SI_size in
  if elem <? n then
    let! d := field s SI_data in
    let! x := field d (elem / 64) in
    ret (truth (Z.land x (u64 (Z.shiftl 1 (elem mod 64)))))
  else ret false.

(** src/intset.c:53-76 intset_find_next only reads the struct and its block. *)
Definition h_intset_find_next (s elem : Z) (hit : bool) : M Z :=
  let! n := field s SI_size in
  let! d := field s SI_data in
  let! w := ld_slots d in
  lift (intset_find_next (Intset n w) elem hit).

(** * src/priority_queue.c *)

(** src/priority_queue.c:7-14 struct priorq: [cmp; storage; capacity; max_capacity]. Function
    pointers are opaque values, [code] says what they do. The calls of reloc are returned, most
    recent first. *)
Definition PQ_cmp : Z := 0.
Definition PQ_storage : Z := 1.
Definition PQ_capacity : Z := 2.
Definition PQ_max : Z := 3.
Definition relocs : Type := list (Z * Z).

Section Queues.
Variables (code : Z -> Z -> Z -> Z) (junk : nat -> Z).

(** src/priority_queue.c:20-34 make_priority_queue_2 *)
Definition h_make_priority_queue (cmp : Z) : M Z :=
  let! q := alloc (CSlots (fresh_block junk 4)) in
  do! set_field q PQ_cmp cmp in
  do! set_field q PQ_storage 0 in
  do! set_field q PQ_capacity 0 in
  do! set_field q PQ_max 0 in
  ret q.

(** src/priority_queue.c:42-46 destroy_priority_queue *)
Definition h_destroy_priority_queue (q : Z) : M unit :=
  let! s := field q PQ_storage in
  do! fsfree s in
  fsfree q.

(** prq->storage[slot] *)
Definition stored (q slot : Z) : M Z := let! s := field q PQ_storage in field s slot.

(** The comparison function applied. *)
Definition compare (q x y : Z) : M Z := let! f := field q PQ_cmp in ret (code f x y).

(** src/priority_queue.c:48-52 assign *)
Definition h_assign (q slot value : Z) (l : relocs) : M relocs :=
  let! s := field q PQ_storage in
  do! set_field s slot value in
  ret ((value, slot) :: l).

(** src/priority_queue.c:54-65 raise *)
Fixpoint h_raise_loop (fuel : nat) (q slot value : Z) (l : relocs) : M (Z * relocs) :=
  match fuel with
  | O => no_fuel
  | S fuel =>
      if truth slot then
        let parent := u64 (slot - 1) / 2 in
        let! x := stored q parent in
        let! c := compare q value x in
        if c >=? 0 then ret (slot, l)
        else
          let! x := stored q parent in
          let! l := h_assign q slot x l in
          h_raise_loop fuel q parent value l
      else ret (slot, l)
  end.
(** The number of iterations: one more than there are slots in the block. *)
Definition rounds (q : Z) : M nat :=
  let! s := field q PQ_storage in
  if s =? 0 then ret 1%nat else let! b := ld_slots s in ret (S (length b)).
Definition h_raise (q slot value : Z) (l : relocs) : M (Z * relocs) :=
  let! n := rounds q in h_raise_loop n q slot value l.

(** fsrealloc of a block of pointers, to [n * 8] bytes: another block with the old content;
    the old one is gone. *)
Definition h_realloc (a n : Z) : M Z :=
  if a =? 0 then alloc (CSlots (realloc_slots junk [] n))
  else
    let! b := ld_slots a in
    do! free a in
    alloc (CSlots (realloc_slots junk b n)).

(** src/priority_queue.c:67-84 priorq_enqueue *)
Definition h_priorq_enqueue (q value : Z) : M relocs :=
  let! c := field q PQ_capacity in
  let! m := field q PQ_max in
  do! (if c =? m then
         let! n := lift (round_loop 66 (u64 (c + 1)) 1) in
         do! set_field q PQ_max n in
         let! s := field q PQ_storage in
         let! m := field q PQ_max in
         let! s := h_realloc s m in
         set_field q PQ_storage s
       else ret tt) in
  let! slot := field q PQ_capacity in
  do! set_field q PQ_capacity (u64 (slot + 1)) in
  let! r := h_raise q slot value [] in
  h_assign q (fst r) value (snd r).

(** src/priority_queue.c:86-89 priorq_size *)
Definition h_priorq_size (q : Z) : M Z := field q PQ_capacity.

(** src/priority_queue.c:96-115 lower *)
Fixpoint h_lower_loop (fuel : nat) (q slot value : Z) (l : relocs) : M relocs :=
  match fuel with
  | O => no_fuel
  | S fuel =>
      let left := u64 (slot * 2 + 1) in
      let! n := field q PQ_capacity in
      if left >=? n then h_assign q slot value l
      else
        let right := u64 (left + 1) in
        let! branch := (if right >=? n then ret left
                        else
                          let! x := stored q left in
                          let! y := stored q right in
                          let! c := compare q x y in
                          ret (if c <? 0 then left else right)) in
        let! x := stored q branch in
        let! c := compare q value x in
        if c <=? 0 then h_assign q slot value l
        else
          let! x := stored q branch in
          let! l := h_assign q slot x l in
          h_lower_loop fuel q branch value l
  end.
Definition h_lower (q slot value : Z) (l : relocs) : M relocs :=
  let! n := rounds q in h_lower_loop n q slot value l.

(** prq->storage[--prq->capacity] *)
Definition h_last (q : Z) : M Z :=
  let! c := field q PQ_capacity in
  do! set_field q PQ_capacity (u64 (c - 1)) in
  let! c := field q PQ_capacity in
  stored q c.

(** src/priority_queue.c:117-130 priorq_dequeue *)
Definition h_priorq_dequeue (q : Z) : M (Z * relocs) :=
  let! c := field q PQ_capacity in
  if c =? 0 then ret (0, [])
  else if c =? 1 then let! x := h_last q in ret (x, [])
  else
    let! value := stored q 0 in
    let! last := h_last q in
    let! l := h_lower q 0 last [] in
    ret (value, l).

(** src/priority_queue.c:132-137 priorq_peek, with 91-94 priorq_empty *)
Definition h_priorq_peek (q : Z) : M Z :=
  let! n := h_priorq_size q in
  if n =? 0 then ret 0 else stored q 0.

(** src/priority_queue.c:139-144 priorq_pop *)
Definition h_priorq_pop (q : Z) : M Z :=
  let! n := h_priorq_size q in
  if n =? 0 then ret 0 else h_last q.

(** src/priority_queue.c:146-153 priorq_remove *)
Definition h_priorq_remove (q loc : Z) : M (Z * relocs) :=
  let! value := stored q loc in
  let! other := h_last q in
  let! r := h_raise q loc other [] in
  let! l := h_lower q (fst r) other (snd r) in
  ret (value, l).
End Queues.
