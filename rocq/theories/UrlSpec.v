(** URL encoding: what it should do. *)
From Verif Require Import Base CharstrSpec.

(** Upper-case hexadecimal digits, "%XX". *)
Definition upper_hex (n : Z) : Z := nth (Z.to_nat n) [48; 49; 50; 51; 52; 53; 54; 55; 56; 57; 65; 66; 67; 68; 69; 70] 0.
Definition percent_encoding (c : Z) : list Z := [37; upper_hex (c / 16); upper_hex (c mod 16)].

(** include/charstr.h:253-260: letters, digits, and
    '-', '.', '/', '<', '>', '\\', '^', '_', '`', '{', '|', ']', '~' *)
Definition documented_plain (c : Z) : bool :=
  ((48 <=? c) && (c <=? 57)) || ((65 <=? c) && (c <=? 90)) || ((97 <=? c) && (c <=? 122)) ||
  existsb (Z.eqb c) [45; 46; 47; 60; 62; 92; 94; 95; 96; 123; 124; 93; 126].
Definition documented_encoding (c : Z) : list Z :=
  if c =? 32 then [43] else if documented_plain c then [c] else percent_encoding c.

(** [d] is the decoding of [e]. *)
Inductive decodes (plus_is_space : bool) : list Z -> list Z -> Prop :=
| Decodes_nil : decodes plus_is_space [] []
| Decodes_plus e d : decodes plus_is_space e d ->
    decodes plus_is_space (43 :: e) ((if plus_is_space then 32 else 43) :: d)
| Decodes_percent h l a b e d : hex_value h a -> hex_value l b -> decodes plus_is_space e d ->
    decodes plus_is_space (37 :: h :: l :: e) (16 * a + b :: d)
| Decodes_plain c e d : c <> 37 -> c <> 43 -> decodes plus_is_space e d -> decodes plus_is_space (c :: e) (c :: d).

(** Some '%' is not followed by two hexadecimal digits. *)
Definition illegal (e : list Z) : Prop :=
  exists pre rest, e = pre ++ 37 :: rest /\
    ~ exists h l t a b, rest = h :: l :: t /\ hex_value h a /\ hex_value l b.
