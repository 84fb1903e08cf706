(** URL encoder objects in memory: what a program sees of them. *)
From Verif Require Import Base Heap ListSpec CharstrSpec UrlSpec OwnSpec UrlHeapModel.

(** How the encoder made from [reserve] and [unreserve] encodes a byte. The three exceptions
    are those of C55: the double quote and the closing brace stay as they are, the closing bracket does not. *)
Definition standard_code (c : Z) : list Z :=
  if (c =? 34) || (c =? 125) then [c] else if c =? 93 then percent_encoding c else documented_encoding c.
Definition custom_code (reserve unreserve : list Z) (c : Z) : list Z :=
  if existsb (Z.eqb c) unreserve then [c]
  else if existsb (Z.eqb c) reserve then percent_encoding c
  else standard_code c.

(** The string [s] is at the offset [i] of the block [a]. *)
Definition string_at (h : heap) (a i : Z) (s : list Z) : Prop :=
  exists pre rest, get h a = Some (CSlots (pre ++ s ++ 0 :: rest)) /\ zlen pre = i /\ text s.

(** Every state that a program can reach: the encoders that exist, with the strings they were
    made from. [static]: the address of the static encoder. Between the calls, the program may
    do anything (also with the other functions of the library) that does not write to the
    encoders. *)
Inductive encoders (static : Z) : heap -> list (Z * (list Z * list Z)) -> Prop :=
| E_start h : get h static = Some (CSlots static_bytes) -> encoders static h []
| E_create h live junk a i r b j u e h' :
    encoders static h live -> string_at h a i r -> string_at h b j u ->
    h_create_url_encoder junk static a i b j h = Ok (e, h') ->
    encoders static h' ((e, (r, u)) :: live)
| E_destroy h before e ru after h' :
    encoders static h (before ++ (e, ru) :: after) -> h_destroy_url_encoder e h = Ok (tt, h') ->
    encoders static h' (before ++ after)
| E_other h live h' :
    encoders static h live -> get h' static = get h static ->
    (forall e ru, In (e, ru) live -> get h' e = get h e) -> encoders static h' live.
