(** Model of src/priority_queue.c. Elements ([const void *]) are integers, NULL
    is 0. *)
From Verif Require Import Base.

(** src/priority_queue.c:7-14 struct priorq, without the callbacks: [cmp] is an
    argument of the functions; the calls of [reloc] are recorded in [calls],
    most recent first. [storage] is the content of the allocated block. *)
Record priorq := Priorq
  { storage : list Z; capacity : Z; max_capacity : Z; calls : list (Z * Z) }.

(** src/priority_queue.c:20-34 make_priority_queue_2, 36-40 make_priority_queue *)
Definition make_priority_queue : priorq := Priorq [] 0 0 [].

(** src/priority_queue.c:48-52 assign *)
Definition assign (q : priorq) (slot value : Z) : res priorq :=
  s <- wr (storage q) slot value ;;
  Ok (Priorq s (capacity q) (max_capacity q) ((value, slot) :: calls q)).

(** src/priority_queue.c:54-65 raise *)
Fixpoint raise_loop (cmp : Z -> Z -> Z) (fuel : nat) (q : priorq) (slot value : Z) : res (priorq * Z) :=
  match fuel with
  | O => NoFuel
  | S fuel =>
      if truth slot then
        let parent := u64 (slot - 1) / 2 in
        x <- rd (storage q) parent ;;
        if cmp value x >=? 0 then Ok (q, slot)
        else
          q <- assign q slot x ;;
          raise_loop cmp fuel q parent value
      else Ok (q, slot)
  end.
Definition raise (cmp : Z -> Z -> Z) (q : priorq) (slot value : Z) : res (priorq * Z) :=
  raise_loop cmp (S (length (storage q))) q slot value.

(** src/priority_queue.c:71-77: rounding up to a power of two. *)
Fixpoint round_loop (fuel : nat) (target n : Z) : res Z :=
  match fuel with
  | O => NoFuel
  | S fuel =>
      if n <? target then
        if n >? SIZE_MAX / 2 then Ok SIZE_MAX
        else round_loop fuel target (u64 (Z.shiftl n 1))
      else Ok n
  end.

(** fsrealloc of a block of pointers to [n * 8] bytes (line 80): the common
    prefix is kept. *)
Definition realloc_slots (junk : nat -> Z) (s : list Z) (n : Z) : list Z :=
  let slots := u64 (n * 8) / 8 in
  firstn (Z.to_nat slots) s ++ fresh_block junk (slots - zlen s).

(** src/priority_queue.c:67-84 priorq_enqueue *)
Definition priorq_enqueue (cmp : Z -> Z -> Z) (junk : nat -> Z) (q : priorq) (value : Z) : res priorq :=
  q <- (if capacity q =? max_capacity q then
          n <- round_loop 66 (u64 (capacity q + 1)) 1 ;;
          Ok (Priorq (realloc_slots junk (storage q) n) (capacity q) n (calls q))
        else Ok q) ;;
  let slot := capacity q in
  let q := Priorq (storage q) (u64 (capacity q + 1)) (max_capacity q) (calls q) in
  '(q, slot) <- raise cmp q slot value ;;
  assign q slot value.

(** src/priority_queue.c:86-89 priorq_size *)
Definition priorq_size (q : priorq) : Z := capacity q.

(** src/priority_queue.c:91-94 priorq_empty *)
Definition priorq_empty (q : priorq) : bool := priorq_size q =? 0.

(** src/priority_queue.c:96-115 lower *)
Fixpoint lower_loop (cmp : Z -> Z -> Z) (fuel : nat) (q : priorq) (slot value : Z) : res priorq :=
  match fuel with
  | O => NoFuel
  | S fuel =>
      let left := u64 (slot * 2 + 1) in
      if left >=? capacity q then assign q slot value
      else
        let right := u64 (left + 1) in
        branch <- (if right >=? capacity q then Ok left
                   else
                     x <- rd (storage q) left ;;
                     y <- rd (storage q) right ;;
                     Ok (if cmp x y <? 0 then left else right)) ;;
        x <- rd (storage q) branch ;;
        if cmp value x <=? 0 then assign q slot value
        else
          q <- assign q slot x ;;
          lower_loop cmp fuel q branch value
  end.
Definition lower (cmp : Z -> Z -> Z) (q : priorq) (slot value : Z) : res priorq :=
  lower_loop cmp (S (length (storage q))) q slot value.

(** [--prq->capacity] *)
Definition shrink (q : priorq) : priorq :=
  Priorq (storage q) (u64 (capacity q - 1)) (max_capacity q) (calls q).

(** src/priority_queue.c:117-130 priorq_dequeue; 0 is NULL. *)
Definition priorq_dequeue (cmp : Z -> Z -> Z) (q : priorq) : res (priorq * Z) :=
  if capacity q =? 0 then Ok (q, 0)
  else if capacity q =? 1 then
    let q := shrink q in
    x <- rd (storage q) (capacity q) ;; Ok (q, x)
  else
    value <- rd (storage q) 0 ;;
    let q := shrink q in
    last <- rd (storage q) (capacity q) ;;
    q <- lower cmp q 0 last ;;
    Ok (q, value).

(** src/priority_queue.c:132-137 priorq_peek *)
Definition priorq_peek (q : priorq) : res Z :=
  if priorq_empty q then Ok 0 else rd (storage q) 0.

(** src/priority_queue.c:139-144 priorq_pop *)
Definition priorq_pop (q : priorq) : res (priorq * Z) :=
  if priorq_empty q then Ok (q, 0)
  else
    let q := shrink q in
    x <- rd (storage q) (capacity q) ;; Ok (q, x).

(** src/priority_queue.c:146-153 priorq_remove *)
Definition priorq_remove (cmp : Z -> Z -> Z) (q : priorq) (loc : Z) : res (priorq * Z) :=
  let slot := loc in
  value <- rd (storage q) slot ;;
  let q := shrink q in
  other <- rd (storage q) (capacity q) ;;
  '(q, slot) <- raise cmp q slot other ;;
  q <- lower cmp q slot other ;;
  Ok (q, value).
