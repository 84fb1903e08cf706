(** IEEE-754 binary64 interchange format (section 3.4 of the standard), in
    integer arithmetic. *)
From Verif Require Import Base.

Definition f_sign (v : Z) : Z := v / 2 ^ 63.            (* 1 bit *)
Definition f_exp (v : Z) : Z := v / 2 ^ 52 mod 2 ^ 11.  (* biased exponent *)
Definition f_frac (v : Z) : Z := v mod 2 ^ 52.          (* trailing significand *)

(** Finite numbers: biased exponent not all ones. *)
Definition f_finite (v : Z) : Prop := f_exp v <> 2047.

(** A finite number is (-1)^sign * m * 2^(e - 1075) where (m, e) is
    (frac, 1) if the biased exponent is 0 (zero, subnormal) and
    (2^52 + frac, biased exponent) otherwise. [binary64_is v n]: it equals the
    integer [n] (both sides multiplied by 2^1074). *)
Definition binary64_is (v n : Z) : Prop :=
  f_finite v /\
  let m := if f_exp v =? 0 then f_frac v else 2 ^ 52 + f_frac v in
  let e := if f_exp v =? 0 then 1 else f_exp v in
  n * 2 ^ 1074 = (if f_sign v =? 0 then 1 else -1) * m * 2 ^ (e - 1).
