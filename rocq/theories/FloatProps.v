(** Properties C06-C07: binary64 to integer conversions. *)
From Coq Require Import Reals.
From Flocq Require Import Binary Bits.
From Verif Require Import Base FloatModel FloatSpec FloatProofs FloatFlocq.
Open Scope Z_scope.

(** C06, in integer arithmetic (no axioms). *)
Theorem C06_binary64_to_integer : forall v n, 0 <= v < 2 ^ 64 ->
  binary64_to_integer v = Some n <-> binary64_is v n /\ - 2 ^ 63 <= n < 2 ^ 63.
Proof. exact to_integer_ok. Qed.
Print Assumptions C06_binary64_to_integer.

(** C06 against Flocq's formalisation of IEEE-754. *)
Theorem C06_binary64_to_integer_flocq : forall v n, 0 <= v < 2 ^ 64 ->
  binary64_to_integer v = Some n <->
  (is_finite 53 1024 (b64_of_bits v) = true /\ B2R 53 1024 (b64_of_bits v) = IZR n) /\
  - 2 ^ 63 <= n < 2 ^ 63.
Proof.
  exact (fun v n H => iff_trans (to_integer_ok v n H)
           (and_iff_compat_r _ (binary64_is_flocq v n H))).
Qed.
Print Assumptions C06_binary64_to_integer_flocq.

(** 2^62 + 2^10, -2^63, -0, 1.5, NaN *)
Example C06_example :
  binary64_to_integer 0x43d0000000000001 = Some (2 ^ 62 + 2 ^ 10) /\
  binary64_to_integer 0xc3e0000000000000 = Some (- 2 ^ 63) /\
  binary64_to_integer 0x8000000000000000 = Some 0 /\
  binary64_to_integer 0x3ff8000000000000 = None /\
  binary64_to_integer 0x7ff8000000000000 = None /\
  binary64_to_integer 0x43e0000000000000 = None.
Proof. vm_compute. tauto. Qed.

(** C07 *)
Theorem C07_binary64_to_unsigned : forall v n, 0 <= v < 2 ^ 64 ->
  binary64_to_unsigned v = Some n <-> binary64_is v n /\ 0 <= n < 2 ^ 64.
Proof. exact to_unsigned_ok. Qed.
Print Assumptions C07_binary64_to_unsigned.

Theorem C07_binary64_to_unsigned_flocq : forall v n, 0 <= v < 2 ^ 64 ->
  binary64_to_unsigned v = Some n <->
  (is_finite 53 1024 (b64_of_bits v) = true /\ B2R 53 1024 (b64_of_bits v) = IZR n) /\
  0 <= n < 2 ^ 64.
Proof.
  exact (fun v n H => iff_trans (to_unsigned_ok v n H)
           (and_iff_compat_r _ (binary64_is_flocq v n H))).
Qed.
Print Assumptions C07_binary64_to_unsigned_flocq.

Example C07_example :
  binary64_to_unsigned 0x43efffffffffffff = Some (2 ^ 64 - 2 ^ 11) /\
  binary64_to_unsigned 0x43f0000000000000 = None /\
  binary64_to_unsigned 0xbff0000000000000 = None /\
  binary64_to_unsigned 0x4008000000000000 = Some 3.
Proof. vm_compute. tauto. Qed.
