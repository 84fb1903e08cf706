(** Property C127: results do not depend on whether the type char is signed. *)
From Verif Require Import Base CMem Base64Model Base64Spec Base64Decode Base64Proofs IntegerModel IntegerProofs.
From Verif Require Import CharstrTables CharstrModel Utf8Model UrlModel CharSignModel CharSign.
From Coq Require Import ZifyBool ZifyNat.

(** On a platform with signed char ([sg = true], e.g. x86) the functions are those of the other
    properties, and on either platform they do what those say with the char that the arguments
    pos62 and pos63 become: -1 stays -1 if char is signed, and is 255 otherwise. *)
Theorem C127_encode : forall sg data tl dest size p62 p63,
  bytes data -> zlen data < 2 ^ 62 -> 0 <= size <= zlen dest ->
  let E := base64 (pos_char (char_of sg p62) 43) (pos_char (char_of sg p63) 47) data in
  let k := Z.to_nat (Z.min (zlen E) (size - 1)) in
  base64_encode_buffer_on sg (data ++ tl) (zlen data) dest size p62 p63 =
  Ok (if size =? 0 then dest else firstn k E ++ 0 :: skipn (S k) dest, zlen E).
Proof. exact encode_on_ok. Qed.
Print Assumptions C127_encode.

Theorem C127_decode : forall sg src n t dest size p62 p63 ign, bytes src ->
  text_of src n t -> zlen t < 2 ^ 63 -> 0 <= size <= zlen dest ->
  good_pos (pos_char (char_of sg p62) 43) -> good_pos (pos_char (char_of sg p63) 47) ->
  let value := code_value (pos_char (char_of sg p62) 43) (pos_char (char_of sg p63) 47) in
  let wsp c := ign && code_wsp c in
  (exists d, decodes value wsp t d /\
     base64_decode_buffer_on sg src n dest size p62 p63 ign = Ok (DecOk (zlen d) (stored dest size d))) \/
  ((forall d, ~ decodes value wsp t d) /\
   exists d', base64_decode_buffer_on sg src n dest size p62 p63 ign = Ok (DecFail EILSEQ (stored dest size d'))).
Proof. exact decode_on_ok. Qed.
Print Assumptions C127_decode.

Theorem C127_signed : forall src n dest size p62 p63 ign junk, bytes src -> -128 <= p62 <= 127 -> -128 <= p63 <= 127 ->
  base64_encode_buffer_on true src n dest size p62 p63 = base64_encode_buffer src n dest size p62 p63 /\
  base64_encode_simple_on true junk src n = base64_encode_simple junk src n /\
  base64_decode_buffer_on true src n dest size p62 p63 ign = base64_decode_buffer src n dest size p62 p63 ign /\
  base64_decode_simple_on true junk src = base64_decode_simple junk src /\
  hash_string_on true src = hash_string src.
Proof. exact signed_same. Qed.
Print Assumptions C127_signed.

(** The claim holds if both characters are given and are not -1 or 255. *)
Theorem C127_partial : forall src n dest size p62 p63 ign, bytes src -> u8 p62 <> 255 -> u8 p63 <> 255 ->
  base64_decode_buffer_on false src n dest size p62 p63 ign = base64_decode_buffer_on true src n dest size p62 p63 ign /\
  forall data tl, src = data ++ tl -> n = zlen data -> n < 2 ^ 62 -> 0 <= size <= zlen dest ->
    base64_encode_buffer_on false src n dest size p62 p63 = base64_encode_buffer_on true src n dest size p62 p63.
Proof. exact chars_given. Qed.
Print Assumptions C127_partial.

(** With the defaults, and so with the simple functions, it is false: where char is unsigned both
    last characters of the alphabet are the byte 0xFF. *)
Theorem C127_encode_default : forall sg junk data r, bytes data -> zlen data < 2 ^ 60 ->
  base64_encode_simple_on sg junk (data ++ r) (zlen data) =
  Ok (Some ((if sg then base64 43 47 data else base64 255 255 data) ++ [0])).
Proof. exact encode_default. Qed.
Print Assumptions C127_encode_default.

(** So no standard Base64 text with a '+' or a '/' in it can be decoded there, ... *)
Theorem C127_decode_default_refuted : forall junk t r, bytes (t ++ 0 :: r) -> Forall (fun c => byte c /\ c <> 0) t -> zlen t < 2 ^ 62 ->
  In 43 t \/ In 47 t -> base64_decode_simple_on false junk (t ++ 0 :: r) = Ok None.
Proof. exact plus_slash_rejected. Qed.
Print Assumptions C127_decode_default_refuted.

(** ... and what was encoded is decoded to something else. *)
Theorem C127_round_trip_refuted : forall junk,
  base64_encode_simple_on true junk [255; 254; 253] 3 = Ok (Some [47; 47; 55; 57; 0]) /\
  base64_decode_simple_on true junk [47; 47; 55; 57; 0] = Ok (Some ([255; 254; 253; 0], 3)) /\
  base64_encode_simple_on false junk [255; 254; 253] 3 = Ok (Some [255; 255; 55; 57; 0]) /\
  base64_decode_simple_on false junk [255; 255; 55; 57; 0] = Ok (Some ([251; 238; 253; 0], 3)) /\
  base64_decode_simple_on false junk [47; 47; 55; 57; 0] = Ok None.
Proof. exact round_trip. Qed.
Print Assumptions C127_round_trip_refuted.

(** hash_string: the characters count as chars; so ASCII strings have the same hash everywhere,
    and others need not. *)
Theorem C127_hash : forall sg s rest, Forall (fun c => byte c /\ c <> 0) s ->
  hash_string_on sg (s ++ 0 :: rest) = Ok (u64 (poly (map (char_of sg) s))).
Proof. exact hash_on_ok. Qed.
Print Assumptions C127_hash.

Theorem C127_hash_ascii_partial : forall s rest, Forall (fun c => 0 < c < 128) s ->
  hash_string_on false (s ++ 0 :: rest) = hash_string_on true (s ++ 0 :: rest).
Proof. exact hash_ascii. Qed.
Print Assumptions C127_hash_ascii_partial.

Theorem C127_hash_refuted : forall c, 128 <= c < 256 -> hash_string_on false [c; 0] <> hash_string_on true [c; 0].
Proof. exact hash_differs. Qed.
Print Assumptions C127_hash_refuted.

(** The functions of charstr.c: the bytes [s] of a string are seen as the chars [map (char_of sg) s],
    and the result is the same whatever [sg] is. *)
Theorem C127_chars : forall sg c enc,
  charstr_char_class (char_of sg c) = charstr_char_class c /\ charstr_digit_value (char_of sg c) = charstr_digit_value c /\
  charstr_lcase_char (char_of sg c) = charstr_lcase_char c /\ charstr_ucase_char (char_of sg c) = charstr_ucase_char c /\
  charstr_url_custom_encode_byte enc (char_of sg c) = charstr_url_custom_encode_byte enc c.
Proof. exact same_chars. Qed.
Print Assumptions C127_chars.

Theorem C127_strings : forall sg s t n e, bytes s -> bytes t ->
  let S := map (char_of sg) s in let T := map (char_of sg) t in
  charstr_case_cmp S T = charstr_case_cmp s t /\ charstr_ncase_cmp S T n = charstr_ncase_cmp s t n /\
  charstr_ends_with S T = charstr_ends_with s t /\
  (forall o, charstr_skip_prefix s t = Ok o -> charstr_skip_prefix S T = Ok (option_map (map (char_of sg)) o)) /\
  (forall o, charstr_case_skip_prefix s t = Ok o -> charstr_case_skip_prefix S T = Ok (option_map (map (char_of sg)) o)) /\
  charstr_valid_utf8 (Some S) = charstr_valid_utf8 (Some s) /\
  charstr_valid_utf8_bounded (Some S) e = charstr_valid_utf8_bounded (Some s) e.
Proof. exact same_strings. Qed.
Print Assumptions C127_strings.

Theorem C127_url : forall sg junk enc s t, bytes s -> bytes t ->
  charstr_url_custom_encode junk enc (map (char_of sg) s) = charstr_url_custom_encode junk enc s /\
  charstr_create_url_encoder (map (char_of sg) s) (map (char_of sg) t) = charstr_create_url_encoder s t.
Proof. exact same_url. Qed.
Print Assumptions C127_url.

Example C127_example :
  map (char_of true) [195; 164; 0] = [-61; -92; 0] /\ map (char_of false) [195; 164; 0] = [195; 164; 0] /\
  charstr_valid_utf8 (Some [-61; -92; 0]) = Ok true /\ charstr_valid_utf8 (Some [195; 164; 0]) = Ok true /\
  charstr_valid_utf8 (Some [-61; 65; 0]) = Ok false /\ charstr_case_cmp [-61; 97; 0] [-61; 65; 0] = Ok 0 /\
  base64_decode_buffer_on false [45; 95; 45; 95] 4 [7; 7; 7] 3 45 95 false = Ok (DecOk 3 [251; 255; 191]) /\
  base64_decode_buffer_on true [45; 95; 45; 95] 4 [7; 7; 7] 3 45 95 false = Ok (DecOk 3 [251; 255; 191]).
Proof. vm_compute. repeat split. Qed.
