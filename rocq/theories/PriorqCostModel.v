(** The functions of PriorqModel.v with a counter of the calls of the comparator, which the
    C functions do not have. The counter is the last component of the result; without it
    the functions are those of PriorqModel.v (PriorqCost.v). *)
From Verif Require Import Base PriorqModel.

(** src/priority_queue.c:54-65 raise *)
Fixpoint raise_loop_counted (cmp : Z -> Z -> Z) (fuel : nat) (q : priorq) (slot value : Z) : res (priorq * Z * Z) :=
  match fuel with
  | O => NoFuel
  | S fuel =>
      if truth slot then
        let parent := u64 (slot - 1) / 2 in
        x <- rd (storage q) parent ;;
        if cmp value x >=? 0 then Ok (q, slot, 1)
        else
          q <- assign q slot x ;;
          '(q, slot, k) <- raise_loop_counted cmp fuel q parent value ;;
          Ok (q, slot, k + 1)
      else Ok (q, slot, 0)
  end.
Definition raise_counted (cmp : Z -> Z -> Z) (q : priorq) (slot value : Z) : res (priorq * Z * Z) :=
  raise_loop_counted cmp (S (length (storage q))) q slot value.

(** src/priority_queue.c:67-84 priorq_enqueue *)
Definition priorq_enqueue_counted (cmp : Z -> Z -> Z) (junk : nat -> Z) (q : priorq) (value : Z) : res (priorq * Z) :=
  q <- (if capacity q =? max_capacity q then
          n <- round_loop 66 (u64 (capacity q + 1)) 1 ;;
          Ok (Priorq (realloc_slots junk (storage q) n) (capacity q) n (calls q))
        else Ok q) ;;
  let slot := capacity q in
  let q := Priorq (storage q) (u64 (capacity q + 1)) (max_capacity q) (calls q) in
  '(q, slot, k) <- raise_counted cmp q slot value ;;
  q <- assign q slot value ;;
  Ok (q, k).

(** src/priority_queue.c:96-115 lower *)
Fixpoint lower_loop_counted (cmp : Z -> Z -> Z) (fuel : nat) (q : priorq) (slot value : Z) : res (priorq * Z) :=
  match fuel with
  | O => NoFuel
  | S fuel =>
      let left := u64 (slot * 2 + 1) in
      if left >=? capacity q then q <- assign q slot value ;; Ok (q, 0)
      else
        let right := u64 (left + 1) in
        '(branch, k) <- (if right >=? capacity q then Ok (left, 0)
                        else
                          x <- rd (storage q) left ;;
                          y <- rd (storage q) right ;;
                          Ok (if cmp x y <? 0 then left else right, 1)) ;;
        x <- rd (storage q) branch ;;
        if cmp value x <=? 0 then q <- assign q slot value ;; Ok (q, k + 1)
        else
          q <- assign q slot x ;;
          '(q, k') <- lower_loop_counted cmp fuel q branch value ;;
          Ok (q, k + 1 + k')
  end.
Definition lower_counted (cmp : Z -> Z -> Z) (q : priorq) (slot value : Z) : res (priorq * Z) :=
  lower_loop_counted cmp (S (length (storage q))) q slot value.

(** src/priority_queue.c:117-130 priorq_dequeue *)
Definition priorq_dequeue_counted (cmp : Z -> Z -> Z) (q : priorq) : res (priorq * Z * Z) :=
  if capacity q =? 0 then Ok (q, 0, 0)
  else if capacity q =? 1 then
    let q := shrink q in
    x <- rd (storage q) (capacity q) ;; Ok (q, x, 0)
  else
    value <- rd (storage q) 0 ;;
    let q := shrink q in
    last <- rd (storage q) (capacity q) ;;
    '(q, k) <- lower_counted cmp q 0 last ;;
    Ok (q, value, k).

(** src/priority_queue.c:146-153 priorq_remove *)
Definition priorq_remove_counted (cmp : Z -> Z -> Z) (q : priorq) (loc : Z) : res (priorq * Z * Z) :=
  let slot := loc in
  value <- rd (storage q) slot ;;
  let q := shrink q in
  other <- rd (storage q) (capacity q) ;;
  '(q, slot, k) <- raise_counted cmp q slot other ;;
  '(q, k') <- lower_counted cmp q slot other ;;
  Ok (q, value, k + k').
