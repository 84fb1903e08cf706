(** Finite sets of unsigned integers below a size, as histories of operations. *)
From Verif Require Import Base IntsetModel.

Inductive op := Add (e : Z) | Remove (e : Z) | Fill.

(** The arguments are C unsigned ints. *)
Definition op_ok (o : op) : Prop :=
  match o with Add e | Remove e => 0 <= e < 2 ^ 32 | Fill => True end.

(** Is [e] in the set of size [n] after the operations (in order)? The last
    operation that concerns [e] decides. *)
Definition effect (e : Z) (before : bool) (o : op) : bool :=
  match o with
  | Add x => if x =? e then true else before
  | Remove x => if x =? e then false else before
  | Fill => true
  end.
Definition member (n : Z) (ops : list op) (e : Z) : bool :=
  (e <? n) && fold_left (effect e) ops false.

(** [r] is the smallest number in [from, n) with [P r = want], or -1 if there
    is none. *)
Definition first_from (P : Z -> bool) (want : bool) (from n r : Z) : Prop :=
  (from <= r < n /\ P r = want /\ forall e, from <= e < r -> P e <> want) \/
  (r = -1 /\ forall e, from <= e < n -> P e <> want).

(** A history carried out by the model's functions. *)
Definition step (s : intset) (o : op) : res intset :=
  match o with
  | Add e => intset_add s e
  | Remove e => intset_remove s e
  | Fill => intset_fill s
  end.
Fixpoint run (s : intset) (ops : list op) : res intset :=
  match ops with
  | [] => Ok s
  | o :: ops => s <- step s o ;; run s ops
  end.

(** The bits of the block. Those from the size up to the end of the last word
    belong to no element; filling sets them and nothing clears them. *)
Definition is_fill (o : op) : bool := match o with Fill => true | _ => false end.
Definition held (n : Z) (ops : list op) (e : Z) : bool :=
  if e <? n then member n ops e else existsb is_fill ops.

(** What a search that comes to bit [r] first returns. *)
Definition reported (n r : Z) : Z := if r <? n then s32 r else -1.
