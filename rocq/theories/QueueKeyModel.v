(** Priority queues on the heap whose callbacks use the heap: the comparison reads the elements, and reloc
    writes to them. The struct has all its fields here. *)
From Verif Require Import Base Heap PriorqModel ObjModel.

(** src/priority_queue.c:7-14 struct priorq *)
Definition QF_cmp : Z := 0.
Definition QF_reloc : Z := 1.
Definition QF_obj : Z := 2.
Definition QF_storage : Z := 3.
Definition QF_capacity : Z := 4.
Definition QF_max : Z := 5.

(** The address of the function dummy_reloc. *)
Definition dummy : Z := -1.

Section Queues.
(** What the functions behind the code pointers do: [ask cmp elem1 elem2 obj] and
    [tell reloc elem loc obj]. *)
Context (ask : Z -> Z -> Z -> Z -> M Z) (tell : Z -> Z -> Z -> Z -> M unit) (junk : nat -> Z).

(** src/priority_queue.c:20-34 make_priority_queue_2 *)
Definition m_make_priority_queue_2 (cmp reloc obj : Z) : M Z :=
  let! q := alloc (CSlots (fresh_block junk 6)) in
  do! set_field q QF_cmp cmp in
  do! set_field q QF_obj obj in
  do! set_field q QF_reloc (if truth reloc then reloc else dummy) in
  do! set_field q QF_storage 0 in
  do! set_field q QF_capacity 0 in
  do! set_field q QF_max 0 in
  ret q.

(** src/priority_queue.c:42-46 destroy_priority_queue *)
Definition m_destroy_priority_queue (q : Z) : M unit :=
  let! s := field q QF_storage in
  do! fsfree s in
  fsfree q.

(** prq->storage[slot] *)
Definition m_stored (q slot : Z) : M Z := let! s := field q QF_storage in field s slot.

(** prq->cmp(x, y, obj) *)
Definition m_compare (q x y obj : Z) : M Z := let! f := field q QF_cmp in ask f x y obj.

(** src/priority_queue.c:48-52 assign; 16-18 dummy_reloc *)
Definition m_assign (q slot value : Z) : M unit :=
  let! s := field q QF_storage in
  do! set_field s slot value in
  let! f := field q QF_reloc in
  let! obj := field q QF_obj in
  if f =? dummy then ret tt else tell f value slot obj.

(** src/priority_queue.c:54-65 raise *)
Fixpoint m_raise_loop (fuel : nat) (q slot value obj : Z) : M Z :=
  match fuel with
  | O => no_fuel
  | S fuel =>
      if truth slot then
        let parent := u64 (slot - 1) / 2 in
        let! x := m_stored q parent in
        let! c := m_compare q value x obj in
        if c >=? 0 then ret slot
        else
          let! x := m_stored q parent in
          do! m_assign q slot x in
          m_raise_loop fuel q parent value obj
      else ret slot
  end.
(** The number of iterations: one more than there are slots in the block. *)
Definition m_rounds (q : Z) : M nat :=
  let! s := field q QF_storage in
  if s =? 0 then ret 1%nat else let! b := ld_slots s in ret (S (length b)).
Definition m_raise (q slot value : Z) : M Z :=
  let! obj := field q QF_obj in
  let! n := m_rounds q in m_raise_loop n q slot value obj.

(** src/priority_queue.c:67-84 priorq_enqueue *)
Definition m_priorq_enqueue (q value : Z) : M unit :=
  let! c := field q QF_capacity in
  let! m := field q QF_max in
  do! (if c =? m then
         let! n := lift (round_loop 66 (u64 (c + 1)) 1) in
         do! set_field q QF_max n in
         let! s := field q QF_storage in
         let! m := field q QF_max in
         let! s := h_realloc junk s m in
         set_field q QF_storage s
       else ret tt) in
  let! slot := field q QF_capacity in
  do! set_field q QF_capacity (u64 (slot + 1)) in
  let! slot := m_raise q slot value in
  m_assign q slot value.

(** src/priority_queue.c:86-89 priorq_size *)
Definition m_priorq_size (q : Z) : M Z := field q QF_capacity.
(** src/priority_queue.c:91-94 priorq_empty *)
Definition m_priorq_empty (q : Z) : M bool := let! n := m_priorq_size q in ret (n =? 0).

(** src/priority_queue.c:96-115 lower *)
Fixpoint m_lower_loop (fuel : nat) (q slot value obj : Z) : M unit :=
  match fuel with
  | O => no_fuel
  | S fuel =>
      let left := u64 (slot * 2 + 1) in
      let! n := field q QF_capacity in
      if left >=? n then m_assign q slot value
      else
        let right := u64 (left + 1) in
        let! n := field q QF_capacity in
        let! branch := (if right >=? n then ret left
                        else
                          let! x := m_stored q left in
                          let! y := m_stored q right in
                          let! c := m_compare q x y obj in
                          ret (if c <? 0 then left else right)) in
        let! x := m_stored q branch in
        let! c := m_compare q value x obj in
        if c <=? 0 then m_assign q slot value
        else
          let! x := m_stored q branch in
          do! m_assign q slot x in
          m_lower_loop fuel q branch value obj
  end.
Definition m_lower (q slot value : Z) : M unit :=
  let! obj := field q QF_obj in
  let! n := m_rounds q in m_lower_loop n q slot value obj.

(** prq->storage[--prq->capacity] *)
Definition m_last (q : Z) : M Z :=
  let! c := field q QF_capacity in
  do! set_field q QF_capacity (u64 (c - 1)) in
  let! c := field q QF_capacity in
  m_stored q c.

(** src/priority_queue.c:117-130 priorq_dequeue *)
Definition m_priorq_dequeue (q : Z) : M Z :=
  let! c := field q QF_capacity in
  if c =? 0 then ret 0
  else if c =? 1 then m_last q
  else
    let! value := m_stored q 0 in
    let! last := m_last q in
    do! m_lower q 0 last in
    ret value.

(** src/priority_queue.c:132-137 priorq_peek *)
Definition m_priorq_peek (q : Z) : M Z :=
  let! b := m_priorq_empty q in
  if (b : bool) then ret 0 else m_stored q 0.

(** src/priority_queue.c:139-144 priorq_pop *)
Definition m_priorq_pop (q : Z) : M Z :=
  let! b := m_priorq_empty q in
  if (b : bool) then ret 0 else m_last q.

(** src/priority_queue.c:146-153 priorq_remove *)
Definition m_priorq_remove (q loc : Z) : M Z :=
  let! value := m_stored q loc in
  let! other := m_last q in
  let! slot := m_raise q loc other in
  do! m_lower q slot other in
  ret value.

(** A program that dequeues [n] times; not in /repo. *)
Fixpoint take_all (n : nat) (q : Z) : M (list Z) :=
  match n with
  | O => ret []
  | S n => let! a := m_priorq_dequeue q in let! l := take_all n q in ret (a :: l)
  end.
End Queues.

(** The callbacks of a program that keeps timers in a queue: structs whose first field is the time and
    whose second field is the locator. *)
Definition ask_timer : Z -> Z -> Z -> Z -> M Z := fun _ a b _ =>
  let! x := field a 0 in
  let! y := field b 0 in
  ret (if x <? y then -1 else if y <? x then 1 else 0).
Definition tell_timer : Z -> Z -> Z -> Z -> M unit := fun _ a loc _ => set_field a 1 loc.
