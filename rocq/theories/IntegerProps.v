(** Properties C10, C69, C70. *)
From Verif Require Import Base IntegerModel IntegerProofs.

(** C10 *)
Theorem C10_intptr_round_trip : forall v, - 2 ^ 63 <= v < 2 ^ 63 -> as_intptr (as_integer v) = v.
Proof. exact intptr_round. Qed.
Print Assumptions C10_intptr_round_trip.
Theorem C10_uintptr_round_trip : forall v, 0 <= v < 2 ^ 64 -> as_uintptr (as_unsigned v) = v.
Proof. exact uintptr_round. Qed.
Print Assumptions C10_uintptr_round_trip.
Theorem C10_integer_cmp : forall x y, - 2 ^ 63 <= x < 2 ^ 63 -> - 2 ^ 63 <= y < 2 ^ 63 ->
  integer_cmp (as_integer x) (as_integer y) = match x ?= y with Lt => -1 | Eq => 0 | Gt => 1 end.
Proof. exact integer_cmp_ok. Qed.
Print Assumptions C10_integer_cmp.
Theorem C10_unsigned_cmp : forall x y, 0 <= x < 2 ^ 64 -> 0 <= y < 2 ^ 64 ->
  unsigned_cmp (as_unsigned x) (as_unsigned y) = match x ?= y with Lt => -1 | Eq => 0 | Gt => 1 end.
Proof. exact unsigned_cmp_ok. Qed.
Print Assumptions C10_unsigned_cmp.
Example C10_example :
  integer_cmp (as_integer (-1)) (as_integer 1) = -1 /\
  unsigned_cmp (as_unsigned (2 ^ 64 - 1)) (as_unsigned 1) = 1 /\
  unsigned_cmp (as_unsigned 1) (as_unsigned (2 ^ 63)) = -1.
Proof. vm_compute. auto. Qed.

(** C69 holds when the product does not overflow, and only then. *)
Theorem C69_fscalloc_partial : forall n size, 0 <= n -> 0 <= size -> n * size < 2 ^ 64 ->
  fscalloc n size = repeat 0 (Z.to_nat (n * size)).
Proof. exact fscalloc_ok. Qed.
Print Assumptions C69_fscalloc_partial.
Theorem C69_refuted :
  exists n size, 0 <= n <= SIZE_MAX /\ 0 <= size <= SIZE_MAX /\
    zlen (fscalloc n size) < n /\ zlen (fscalloc n size) <> n * size.
Proof. exact fscalloc_refuted. Qed.
Print Assumptions C69_refuted.
(** What is returned in every case: the size of the block is the product modulo 2^64. *)
Theorem C69_exact : forall n size, 0 <= n <= SIZE_MAX -> 0 <= size <= SIZE_MAX ->
  zlen (fscalloc n size) = (n * size) mod 2 ^ 64 /\ Forall (fun b => b = 0) (fscalloc n size).
Proof. exact fscalloc_exact. Qed.
Print Assumptions C69_exact.
Example C69_example : fscalloc 3 2 = [0; 0; 0; 0; 0; 0].
Proof. vm_compute. reflexivity. Qed.

(** C70: [poly] is the polynomial hash; chars count as signed in hash_string
    and as unsigned in hash_blob. *)
Theorem C70_hash_string : forall s rest, Forall (fun c => byte c /\ c <> 0) s ->
  hash_string (s ++ 0 :: rest) = Ok (u64 (poly (map s8 s))).
Proof. exact hash_string_ok. Qed.
Print Assumptions C70_hash_string.
Theorem C70_hash_blob : forall s rest, bytes s ->
  hash_blob (s ++ rest) (zlen s) = Ok (u64 (poly s)).
Proof. exact hash_blob_ok. Qed.
Print Assumptions C70_hash_blob.
Theorem C70_hash_integer_injective : forall x y, - 2 ^ 63 <= x < 2 ^ 63 -> - 2 ^ 63 <= y < 2 ^ 63 ->
  hash_integer (as_integer x) = hash_integer (as_integer y) -> x = y.
Proof. exact hash_integer_inj. Qed.
Print Assumptions C70_hash_integer_injective.
Theorem C70_hash_unsigned_injective : forall x y, 0 <= x < 2 ^ 64 -> 0 <= y < 2 ^ 64 ->
  hash_unsigned (as_unsigned x) = hash_unsigned (as_unsigned y) -> x = y.
Proof. exact hash_unsigned_inj. Qed.
Print Assumptions C70_hash_unsigned_injective.
(** The values are within the range of uint64_t. *)
Theorem C70_hash_integer_value : forall x, hash_integer (as_integer x) = x mod 2 ^ 64 /\ hash_unsigned (as_unsigned x) = x mod 2 ^ 64.
Proof. exact hash_integer_value. Qed.
Print Assumptions C70_hash_integer_value.
Example C70_example :
  hash_string [97; 195; 0; 5] = Ok ((97 + 9999991) * 9973 + (-61 + 9999991)) /\
  hash_blob [97; 195; 0; 5] 2 = Ok ((97 + 9999991) * 9973 + (195 + 9999991)).
Proof. vm_compute. auto. Qed.
