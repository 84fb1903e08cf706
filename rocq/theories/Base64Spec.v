(** What Base64 is (RFC 4648), independent of the model of src/base64.c. *)
From Verif Require Import Base.

(** The character of a 6-bit value; [p62], [p63] are the last two. *)
Definition alphabet (p62 p63 v : Z) : Z :=
  if v <? 26 then 65 + v            (* A..Z *)
  else if v <? 52 then 97 + (v - 26) (* a..z *)
  else if v <? 62 then 48 + (v - 52) (* 0..9 *)
  else if v =? 62 then p62 else p63.

(** The 6-bit values of a byte string: each 3 bytes give 4 values; a final
    group of 1 (2) byte(s) gives 2 (3) values, low bits zero. *)
Fixpoint sextets (d : list Z) : list Z :=
  match d with
  | [] => []
  | [a] => [a / 4; (a mod 4) * 16]
  | [a; b] => [a / 4; (a mod 4) * 16 + b / 16; (b mod 16) * 4]
  | a :: b :: c :: d =>
    a / 4 :: (a mod 4) * 16 + b / 16 :: (b mod 16) * 4 + c / 64 :: c mod 64 :: sextets d
  end.

(** '=' characters bringing the length to a multiple of 4. *)
Definition padding (d : list Z) : list Z :=
  match (length d mod 3)%nat with
  | O => []
  | S O => [61; 61]
  | _ => [61]
  end.

Definition base64 (p62 p63 : Z) (d : list Z) : list Z :=
  map (alphabet p62 p63) (sextets d) ++ padding d.

(** RFC 4648 value of a character. *)
Definition std_value (p62 p63 c : Z) : option Z :=
  if c =? p62 then Some 62
  else if c =? p63 then Some 63
  else if (65 <=? c) && (c <=? 90) then Some (c - 65)
  else if (97 <=? c) && (c <=? 122) then Some (c - 97 + 26)
  else if (48 <=? c) && (c <=? 57) then Some (c - 48 + 52)
  else None.

(** Documented whitespace (include/base64.h:72): ' ' \t \n \f \r. *)
Definition std_wsp (c : Z) : bool :=
  (c =? 32) || (c =? 9) || (c =? 10) || (c =? 12) || (c =? 13).

(** Text [t] is a Base64 encoding of [d]: characters carrying the values of
    [d] (interleaved with whitespace), the padding, trailing whitespace. *)
Definition decodes (value : Z -> option Z) (wsp : Z -> bool) (t d : list Z) : Prop :=
  bytes d /\
  exists body pad trail,
    t = body ++ pad ++ trail /\
    map value (filter (fun c => negb (wsp c)) body) = map Some (sextets d) /\
    pad = padding d /\
    Forall (fun c => wsp c = true) trail.

(** What the code's table makes of characters: as RFC 4648 except that 0xFF
    counts as value 0 and DEL (0x7F) as whitespace. *)
Definition code_value (p62 p63 c : Z) : option Z :=
  match std_value p62 p63 c with
  | Some v => Some v
  | None => if c =? 255 then Some 0 else None
  end.
Definition code_wsp (c : Z) : bool := std_wsp c || (c =? 127).

(** A character usable as pos62 / pos63: a byte that is not NUL, not '=' and
    not whitespace. *)
Definition good_pos (p : Z) : Prop := byte p /\ p <> 0 /\ p <> 61 /\ code_wsp p = false.

(** As a C [char] argument: [-1] selects the default. *)
Definition pos_char (p default : Z) : Z := if p =? -1 then default else u8 p.

(** The text seen by the decoder: [source_size] bytes, or up to the first NUL
    if that comes earlier. *)
Definition text_of (src : list Z) (source_size : Z) (t : list Z) : Prop :=
  Forall (fun c => byte c /\ c <> 0) t /\
  exists rest, src = t ++ rest /\
    (source_size = zlen t \/ (zlen t < source_size /\ exists r, rest = 0 :: r)).
