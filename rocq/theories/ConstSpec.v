(** Functions that access memory a constant number of times. *)
From Verif Require Import Base Heap ThreadModel.
Open Scope list_scope.
Open Scope Z_scope.

(** No execution has more than [n] accesses (loads, stores, allocations and releases), whatever is
    in memory, and there are no loops. *)
Fixpoint within {A} (n : nat) (s : steps A) : Prop :=
  match s, n with
  | Finish _, _ | Undefined, _ | Aborts, _ | Exhausted, _ => True
  | Load _ k, S n => forall c, within n (k c)
  | Store _ _ k, S n | Release _ k, S n => within n k
  | Allocate _ k, S n => forall a, within n (k a)
  | Load _ _, O | Store _ _ _, O | Allocate _ _, O | Release _ _, O | Rounds _ _, _ => False
  end.

(** A function that does the same, in every state of the memory, as a sequence of at most [n]
    accesses. *)
Definition takes {A} (n : nat) (m : M A) : Prop := exists s : steps A, (forall h, effect s h = m h) /\ within n s.
