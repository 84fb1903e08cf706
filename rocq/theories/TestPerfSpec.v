(** test/priorq_perf.c *)
From Verif Require Import Base Heap.
Open Scope list_scope.
Open Scope Z_scope.

(** The elements lie at different addresses, and each is a key of [K] bytes and a locator. *)
Definition key_of (K : nat) (h : heap) (a : Z) (key : list Z) : Prop :=
  length key = K /\ exists loc, get h a = Some (CSlots (key ++ [loc])).
Definition prepared (K : nat) (h : heap) (elements : list Z) : Prop :=
  NoDup elements /\ forall a, In a elements -> exists key, key_of K h a key.
(** No two have the same key. *)
Definition different_keys (K : nat) (h : heap) (elements : list Z) : Prop :=
  forall a b key, In a elements -> In b elements -> key_of K h a key -> key_of K h b key -> a = b.
(** Nothing has changed but the locators. *)
Definition as_before (K : nat) (elements : list Z) (h h' : heap) : Prop :=
  (forall y, ~ In y elements -> get h' y = get h y) /\
  (forall a key, In a elements -> key_of K h a key -> key_of K h' a key).
