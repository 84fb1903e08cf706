(** For C128. *)
From Verif Require Import Base.

(** The string begins with a continuation byte of UTF-8. *)
Definition continues (b : list Z) : Prop := match b with [] => False | c :: _ => 0x80 <= c < 0xc0 end.
