(** Priority queues whose comparison function answers anything, and priority
    queues whose elements change their priorities. *)
From Verif Require Import Base PriorqModel PriorqSpec.

(** The element in slot [loc], which is the locator its reloc call reports. *)
Definition occupant (q : priorq) (loc : Z) (x : Z) : Prop :=
  0 <= loc < priorq_size q /\ rd (storage q) loc = Ok x.

(** The case in which a removal goes wrong: the element sits in the last slot,
    it is not the only one, and [cmp] now puts it before the element in the
    slot above, number [(loc - 1) / 2]. *)
Definition misplaced (cmp : Z -> Z -> Z) (q : priorq) (loc : Z) : Prop :=
  loc = priorq_size q - 1 /\ 0 < loc /\
  exists x y, occupant q loc x /\ occupant q ((loc - 1) / 2) y /\ cmp x y < 0.

(** Pop [n] times: the content, without any comparison. *)
Fixpoint pop_all (n : nat) (q : priorq) : res (list Z) :=
  match n with
  | O => Ok []
  | S n =>
      '(q, x) <- priorq_pop q ;;
      l <- pop_all n q ;;
      Ok (x :: l)
  end.

(** [loose P q m]: [q] results from operations each of which had a comparison
    function of its own, legal or not, and [m] is what should be left. The
    removals of a misplaced element are left out. *)
Inductive loose (P : list Z -> Prop) : priorq -> list Z -> Prop :=
| L_new : P [] -> loose P make_priority_queue []
| L_enqueue cmp q m junk v q' :
    loose P q m -> room m -> P (v :: m) ->
    priorq_enqueue cmp junk q v = Ok q' -> loose P q' (v :: m)
| L_dequeue cmp q m q' x m' :
    loose P q m -> P m' -> priorq_dequeue cmp q = Ok (q', x) -> Permutation m (x :: m') ->
    loose P q' m'
| L_pop q m q' x m' :
    loose P q m -> P m' -> priorq_pop q = Ok (q', x) -> Permutation m (x :: m') ->
    loose P q' m'
| L_remove cmp q m loc q' x m' :
    loose P q m -> P m' -> 0 <= loc < priorq_size q -> ~ misplaced cmp q loc ->
    priorq_remove cmp q loc = Ok (q', x) -> Permutation m (x :: m') ->
    loose P q' m'.

(** Two comparison functions agree on the elements of [m]. *)
Definition agree (m : list Z) (cmp cmp' : Z -> Z -> Z) : Prop :=
  forall a b, In a m -> In b m -> cmp' a b = cmp a b.

(** [evolving P cmp q m]: as [history] (PriorqSpec.v), but the comparison
    function, always a legal one, changes as the elements do. [cmp] is the
    present one. An element outside of the queue may change at any time
    ([E_change]: the queued ones compare as before). An element in the queue may
    change if it is then taken out by its locator ([E_remove]: the other
    elements compare as before, the removal itself uses the new function). *)
Inductive evolving (P : list Z -> Prop) : (Z -> Z -> Z) -> priorq -> list Z -> Prop :=
| E_new cmp : comparator cmp -> P [] -> evolving P cmp make_priority_queue []
| E_change cmp cmp' q m :
    evolving P cmp q m -> comparator cmp' -> agree m cmp cmp' -> evolving P cmp' q m
| E_enqueue cmp q m junk v q' :
    evolving P cmp q m -> room m -> P (v :: m) ->
    priorq_enqueue cmp junk q v = Ok q' -> evolving P cmp q' (v :: m)
| E_dequeue cmp q m q' x m' :
    evolving P cmp q m -> P m' -> priorq_dequeue cmp q = Ok (q', x) -> Permutation m (x :: m') ->
    evolving P cmp q' m'
| E_pop cmp q m q' x m' :
    evolving P cmp q m -> P m' -> priorq_pop q = Ok (q', x) -> Permutation m (x :: m') ->
    evolving P cmp q' m'
| E_remove cmp cmp' q m loc q' x m' :
    evolving P cmp q m -> P m' -> 0 <= loc < priorq_size q ->
    comparator cmp' -> agree m' cmp cmp' -> ~ misplaced cmp' q loc ->
    priorq_remove cmp' q loc = Ok (q', x) -> Permutation m (x :: m') ->
    evolving P cmp' q' m'.
