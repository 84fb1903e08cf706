(** UTF-8 strings as the library itself tells them from others. *)
From Verif Require Import Base Utf8Model.

(** charstr_valid_utf8 accepts the string in the block. *)
Definition is_utf8 (block : list Z) : Prop := charstr_valid_utf8 (Some block) = Ok true.
