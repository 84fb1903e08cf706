(** Lists of strings, one URL-encoded string each. *)
From Verif Require Import Base CharstrSpec UrlModel.

(** The encoder never puts the character [d] into an encoding. *)
Definition never_emitted (t : url_encoder) (d : Z) : Prop :=
  forall c, 0 < c < 256 -> ~ In d (charstr_url_custom_encode_byte t c).
(** [e] is what the encoder makes of the string [f], and charstr_url_decode makes [f] of it. *)
Definition there_and_back (junk junk' : nat -> Z) (t : url_encoder) (f e : list Z) : Prop :=
  (forall r, charstr_url_custom_encode junk t (f ++ 0 :: r) = Ok (as_block e)) /\
  charstr_url_decode junk' (as_block e) true = Ok (Some (f ++ [0], zlen f)).
