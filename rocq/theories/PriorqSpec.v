(** Priority queues as multisets with a history. *)
From Verif Require Import Base PriorqModel.
From Coq Require Export Permutation.

(** A legal element comparator: a total preorder. *)
Definition comparator (cmp : Z -> Z -> Z) : Prop :=
  (forall a b, cmp a b < 0 <-> cmp b a > 0) /\
  (forall a b c, cmp a b <= 0 -> cmp b c <= 0 -> cmp a c <= 0).

(** 2^60 pointers: no allocation of that size succeeds. *)
Definition room (m : list Z) : Prop := zlen m + 1 < 2 ^ 60.

(** [history cmp P q m]: the queue [q] is the result of a sequence of
    operations that have put in and returned elements such that the multiset
    [m] (a list up to permutation) should be left. [P] is required of all the
    multisets on the way. *)
Inductive history (cmp : Z -> Z -> Z) (P : list Z -> Prop) : priorq -> list Z -> Prop :=
| H_new : P [] -> history cmp P make_priority_queue []
| H_enqueue q m junk v q' :
    history cmp P q m -> room m -> P (v :: m) ->
    priorq_enqueue cmp junk q v = Ok q' -> history cmp P q' (v :: m)
| H_dequeue q m q' x m' :
    history cmp P q m -> P m' -> priorq_dequeue cmp q = Ok (q', x) -> Permutation m (x :: m') ->
    history cmp P q' m'
| H_pop q m q' x m' :
    history cmp P q m -> P m' -> priorq_pop q = Ok (q', x) -> Permutation m (x :: m') ->
    history cmp P q' m'
| H_remove q m loc q' x m' :
    history cmp P q m -> P m' -> 0 <= loc < priorq_size q ->
    priorq_remove cmp q loc = Ok (q', x) -> Permutation m (x :: m') ->
    history cmp P q' m'.

Definition anything (m : list Z) : Prop := True.

(** Operations with any comparator, legal or not; [n] counts the elements. *)
Inductive any_history (cmp : Z -> Z -> Z) : priorq -> Z -> Prop :=
| A_new : any_history cmp make_priority_queue 0
| A_enqueue q n junk v q' :
    any_history cmp q n -> n + 1 < 2 ^ 60 -> priorq_enqueue cmp junk q v = Ok q' -> any_history cmp q' (n + 1)
| A_dequeue q n q' x :
    any_history cmp q n -> priorq_dequeue cmp q = Ok (q', x) -> any_history cmp q' (Z.max 0 (n - 1))
| A_pop q n q' x :
    any_history cmp q n -> priorq_pop q = Ok (q', x) -> any_history cmp q' (Z.max 0 (n - 1))
| A_remove q n loc q' x :
    any_history cmp q n -> 0 <= loc < n -> priorq_remove cmp q loc = Ok (q', x) -> any_history cmp q' (n - 1).

(** [x] is a highest-priority element of [m]. *)
Definition least (cmp : Z -> Z -> Z) (x : Z) (m : list Z) : Prop :=
  In x m /\ forall y, In y m -> cmp x y <= 0.

(** The location reported most recently for element [e]. *)
Fixpoint last_loc (calls : list (Z * Z)) (e : Z) : option Z :=
  match calls with
  | [] => None
  | (v, loc) :: calls => if v =? e then Some loc else last_loc calls e
  end.

(** Dequeue [n] times. *)
Fixpoint drain (cmp : Z -> Z -> Z) (n : nat) (q : priorq) : res (priorq * list Z) :=
  match n with
  | O => Ok (q, [])
  | S n =>
      '(q, x) <- priorq_dequeue cmp q ;;
      '(q, l) <- drain cmp n q ;;
      Ok (q, x :: l)
  end.

(** Each element compares <= all the later ones. *)
Fixpoint nondecreasing (cmp : Z -> Z -> Z) (l : list Z) : Prop :=
  match l with
  | [] => True
  | x :: l => (forall y, In y l -> cmp x y <= 0) /\ nondecreasing cmp l
  end.
