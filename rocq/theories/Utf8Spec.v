(** UTF-8, after RFC 3629. *)
From Verif Require Import Base.

(** Unicode scalar values: the codepoints that are not surrogates. *)
Definition scalar (cp : Z) : Prop := 0 <= cp <= 0xd7ff \/ 0xe000 <= cp <= 0x10ffff.

(** The encoding of a codepoint. *)
Definition utf8 (cp : Z) : list Z :=
  if cp <? 0x80 then [cp]
  else if cp <? 0x800 then [0xc0 + cp / 64; 0x80 + cp mod 64]
  else if cp <? 0x10000 then [0xe0 + cp / 4096; 0x80 + cp / 64 mod 64; 0x80 + cp mod 64]
  else [0xf0 + cp / 262144; 0x80 + cp / 4096 mod 64; 0x80 + cp / 64 mod 64; 0x80 + cp mod 64].

(** The byte patterns of one to four bytes and their values, whether or not the
    pattern is the shortest for the value. *)
Inductive pattern : list Z -> Z -> Prop :=
| Pattern1 a : 0 <= a < 128 -> pattern [a] a
| Pattern2 a b : 0 <= a < 32 -> 0 <= b < 64 -> pattern [0xc0 + a; 0x80 + b] (a * 64 + b)
| Pattern3 a b c : 0 <= a < 16 -> 0 <= b < 64 -> 0 <= c < 64 ->
    pattern [0xe0 + a; 0x80 + b; 0x80 + c] ((a * 64 + b) * 64 + c)
| Pattern4 a b c d : 0 <= a < 8 -> 0 <= b < 64 -> 0 <= c < 64 -> 0 <= d < 64 ->
    pattern [0xf0 + a; 0x80 + b; 0x80 + c; 0x80 + d] (((a * 64 + b) * 64 + c) * 64 + d).

(** What the code accepts as the encoding of a codepoint. *)
Definition accepted (bs : list Z) (cp : Z) : Prop := pattern bs cp /\ scalar cp.

(** [s] is a concatenation of encodings the code accepts. *)
Definition valid (s : list Z) : Prop :=
  exists parts, s = concat parts /\ Forall (fun bs => exists cp, accepted bs cp) parts.

(** [t] is [s] with exactly the bytes that start no accepted encoding replaced
    by the encoding of U+FFFD. *)
Inductive sane : list Z -> list Z -> Prop :=
| Sane_nil : sane [] []
| Sane_good bs cp s t : accepted bs cp -> sane s t -> sane (bs ++ s) (bs ++ t)
| Sane_bad c s t : (~ exists bs cp u, c :: s = bs ++ u /\ accepted bs cp) ->
    sane s t -> sane (c :: s) (utf8 0xfffd ++ t).
