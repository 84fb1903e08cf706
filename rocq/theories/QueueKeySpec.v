(** Priority queues with elements in memory. *)
From Verif Require Import Base Heap KeySpec TreeKeySpec QueueKeyModel.
From Coq Require Export Permutation.
Open Scope list_scope.
Open Scope Z_scope.

Section Queues.
(** [read]: what the comparison depends on; [place]: the locator that an element has noted. *)
Context {X : Type} (read : list Z -> option X) (place : list Z -> Z).
Notation key_at := (key_at read).
(** At [a] is an element that says [x] and has noted the locator [loc]. *)
Definition item (h : heap) (a : Z) (x : X) (loc : Z) : Prop :=
  exists b, get h a = Some (CSlots b) /\ read b = Some x /\ place b = loc.

(** What the user provides: a comparison that computes a total preorder of what the elements say, and a
    reloc function that notes the locator in the element, and nothing else. *)
Context (ask : Z -> Z -> Z -> Z -> M Z) (tell : Z -> Z -> Z -> Z -> M unit) (cmp reloc obj : Z) (C : X -> X -> Z).
Record serving : Prop := {
  s_compares : comparing read ask cmp obj C;
  s_code : reloc <> 0 /\ reloc <> dummy;
  s_notes : forall h a x loc, key_at h a x ->
    exists h', tell reloc a loc obj h = Ok (tt, h') /\ item h' a x loc /\ forall y, y <> a -> get h' y = get h y
}.

(** The queue's own memory: the struct and the storage. *)
Definition own (h : heap) (q y : Z) : Prop :=
  y = q \/ (y <> 0 /\ exists c r o n m, get h q = Some (CSlots [c; r; o; y; n; m])).

(** 2^60 pointers: no allocation of that size succeeds. *)
Definition space (m : list (Z * X)) : Prop := zlen m + 1 < 2 ^ 60.

(** [queued h q m]: in heap [h], [q] is a queue with these callbacks that was used in such ways that the
    elements at the addresses in [m] should be in it, each once. In between, the program may have
    changed all memory that does not belong to the queue, as long as the elements in the queue
    say the same and have the same locators as before. *)
Inductive queued : heap -> Z -> list (Z * X) -> Prop :=
| Q_make junk h q h' : m_make_priority_queue_2 junk cmp reloc obj h = Ok (q, h') -> queued h' q []
| Q_enqueue junk h q m a x h' :
    queued h q m -> key_at h a x -> ~ own h q a -> ~ In a (map fst m) -> space m ->
    m_priorq_enqueue ask tell junk q a h = Ok (tt, h') -> queued h' q ((a, x) :: m)
| Q_dequeue h q m a x m' h' :
    queued h q m -> m_priorq_dequeue ask tell q h = Ok (a, h') -> Permutation m ((a, x) :: m') -> queued h' q m'
| Q_pop h q m a x m' h' :
    queued h q m -> m_priorq_pop q h = Ok (a, h') -> Permutation m ((a, x) :: m') -> queued h' q m'
| Q_remove h q m a x loc m' r h' :
    queued h q m -> Permutation m ((a, x) :: m') -> item h a x loc ->
    m_priorq_remove ask tell q loc h = Ok (r, h') -> queued h' q m'
| Q_other h q m h' :
    queued h q m -> (forall y, own h q y -> get h' y = get h y) ->
    (forall a x loc, In (a, x) m -> item h a x loc -> item h' a x loc) -> queued h' q m.

(** Other memory, also unused memory, is as it was, except what the elements have noted; memory that was in use
    is not taken by the queue, and what the queue has given up is free. *)
Definition same_beside (q : Z) (m : list (Z * X)) (h h' : heap) : Prop :=
  (forall y, ~ own h q y -> ~ own h' q y -> ~ In y (map fst m) -> get h' y = get h y) /\
  (forall y, ~ own h q y -> get h y <> None -> ~ own h' q y) /\
  (forall y, own h q y -> ~ own h' q y -> get h' y = None) /\
  (forall a x, In (a, x) m -> key_at h' a x).
End Queues.

(** Timers *)
Definition timer (b : list Z) : option Z := match b with time :: _ :: _ => Some time | _ => None end.
Definition noted (b : list Z) : Z := match b with _ :: loc :: _ => loc | _ => -1 end.
Definition earlier (x y : Z) : Z := if x <? y then -1 else if y <? x then 1 else 0.
