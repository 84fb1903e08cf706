(** Model of src/float.c. The result [None] is "return false", [Some n] is
    "*n = n; return true". *)
From Verif Require Import Base.

Definition LLONG_MIN : Z := - 2 ^ 63.

(** src/float.c:6-42 binary64_to_integer *)
Definition binary64_to_integer (value : Z) : option Z :=
  if negb (truth (u64 (Z.shiftl value 1))) then Some 0
  else if value =? 0xc3e0000000000000 then Some LLONG_MIN
  else
    let bits := 64 in
    let exp := Z.land (Z.shiftr value 52) 0x7ff - 1023 in
    if (exp <? 0) || (exp >=? bits - 1) then None
    else
      let negative := truth (Z.shiftr value 63) in
      let mask := Z.shiftr (2 ^ 64 - 1) 12 in
      let significand := Z.lor (Z.land value mask) (2 ^ 52) in
      if exp >=? 52 then
        let n := s64 (u64 (Z.shiftl significand (exp - 52))) in
        Some (if negative then - n else n)
      else if Z.land value (Z.shiftr mask exp) =? 0 then
        let n := s64 (Z.shiftr significand (52 - exp)) in
        Some (if negative then - n else n)
      else None.

(** src/float.c:44-74 binary64_to_unsigned *)
Definition binary64_to_unsigned (value : Z) : option Z :=
  if negb (truth (u64 (Z.shiftl value 1))) then Some 0
  else
    let negative := truth (Z.shiftr value 63) in
    if negative then None
    else
      let bits := 64 in
      let exp := Z.land (Z.shiftr value 52) 0x7ff - 1023 in
      if (exp <? 0) || (exp >=? bits) then None
      else
        let mask := Z.shiftr (2 ^ 64 - 1) 12 in
        let significand := Z.lor (Z.land value mask) (2 ^ 52) in
        if exp >=? 52 then Some (u64 (Z.shiftl significand (exp - 52)))
        else if Z.land value (Z.shiftr mask exp) =? 0 then Some (Z.shiftr significand (52 - exp))
        else None.
