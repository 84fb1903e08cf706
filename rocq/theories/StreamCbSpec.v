(** What byte_array_append_stream should do if its read callback uses byte arrays. *)
From Verif Require Import Base CMem ByteArrayModel ByteArraySpec ByteMemModel ByteMemSpec.

(** There is room for a byte, or none was asked for. *)
Definition has_room (s : sarr) (len : Z) : Prop := len = 0 \/ 0 < ask (limit s) (content s) len.
(** The world when the callback is called: the array [k] has been asked to hold what it may get. *)
Definition called (w : world) (k : nat) (s : sarr) (len : Z) : world :=
  set_slot w k (Some (hold s (zlen (content s) + ask (limit s) (content s) len) (content s))).
(** [d] fits in [n] bytes and [count] of it are announced; nothing is written otherwise. *)
Definition delivers (n : Z) (d : list Z) (count : Z) : Prop :=
  zlen d <= n /\ count <= zlen d /\ (count <= 0 -> d = []).
(** The world after that: the bytes are behind what the array has when the callback returns. *)
Definition received (w : world) (k : nat) (s : sarr) (d : list Z) (count : Z) : world :=
  set_slot w k (Some (hold s 0 (if count >? 0 then content s ++ firstn (Z.to_nat count) d else content s))).

(** The array is as long as before the call, and where it was. *)
Definition still_there (s : sarr) (len : Z) (s' : sarr) : Prop :=
  zlen (content s') = zlen (content s) /\
  room s' = room (hold s (zlen (content s) + ask (limit s) (content s) len) (content s)).
