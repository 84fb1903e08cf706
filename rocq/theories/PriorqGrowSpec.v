(** Priority queues with a record of their storage. *)
From Verif Require Import Base PriorqModel.

(** [grown cmp q n peak moves]: the queue [q] is the result of a sequence of
    operations, it has [n] elements, it never had more than [peak], and its
    storage was replaced as [moves] says, the latest first: slots before and
    after. The comparator may be any function. *)
Inductive grown (cmp : Z -> Z -> Z) : priorq -> Z -> Z -> list (Z * Z) -> Prop :=
| G_new : grown cmp make_priority_queue 0 0 []
| G_enqueue q n peak moves junk v q' :
    grown cmp q n peak moves -> n + 1 < 2 ^ 60 -> priorq_enqueue cmp junk q v = Ok q' ->
    grown cmp q' (n + 1) (Z.max peak (n + 1))
          (if zlen (storage q') =? zlen (storage q) then moves
           else (zlen (storage q), zlen (storage q')) :: moves)
| G_dequeue q n peak moves q' x :
    grown cmp q n peak moves -> priorq_dequeue cmp q = Ok (q', x) ->
    grown cmp q' (Z.max 0 (n - 1)) peak moves
| G_pop q n peak moves q' x :
    grown cmp q n peak moves -> priorq_pop q = Ok (q', x) ->
    grown cmp q' (Z.max 0 (n - 1)) peak moves
| G_remove q n peak moves loc q' x :
    grown cmp q n peak moves -> 0 <= loc < n -> priorq_remove cmp q loc = Ok (q', x) ->
    grown cmp q' (n - 1) peak moves.

Fixpoint sum (l : list Z) : Z := match l with [] => 0 | x :: l => x + sum l end.
