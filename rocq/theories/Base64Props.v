(** Properties C01-C05: Base64. *)
From Verif Require Import Base Base64Model Base64Spec Base64Proofs Base64Decode Base64Round Base64Any.

(** C02. The first [k = min(length, dest_size - 1)] characters and a NUL are written. *)
Theorem C02_encode_buffer : forall data tl dest size p62 p63,
  bytes data -> zlen data < 2 ^ 62 -> 0 <= size <= zlen dest ->
  let E := base64 (pos_char p62 43) (pos_char p63 47) data in
  let k := Z.to_nat (Z.min (zlen E) (size - 1)) in
  base64_encode_buffer (data ++ tl) (zlen data) dest size p62 p63 =
  Ok (if size =? 0 then dest else firstn k E ++ 0 :: skipn (S k) dest, zlen E).
Proof. exact encode_buffer_ok. Qed.
Print Assumptions C02_encode_buffer.

Example C02_example :
  base64_encode_buffer [104; 105; 33; 46; 99] 4 [7; 7; 7; 7; 7; 7; 7] 6 (-1) (-1)
  = Ok ([97; 71; 107; 104; 76; 0; 7], 8).
Proof. vm_compute. reflexivity. Qed.

(** C03 *)
Theorem C03_encoding_size : forall n,
  0 <= n <= SIZE_MAX ->
  base64_encoding_size n = (if (n + 2) / 3 * 4 <=? SIZE_MAX then (n + 2) / 3 * 4 else SIZE_MAX).
Proof. exact encoding_size_correct. Qed.
Print Assumptions C03_encoding_size.

Theorem C03_encoding_size_is_length : forall p q d, zlen (base64 p q d) = (zlen d + 2) / 3 * 4.
Proof. exact base64_zlen. Qed.
Print Assumptions C03_encoding_size_is_length.

Example C03_example : base64_encoding_size 13835058055282163710 = SIZE_MAX /\
  base64_encoding_size 13835058055282163709 = SIZE_MAX - 3 /\ base64_encoding_size 4 = 8.
Proof. vm_compute. auto. Qed.

(** C04, exact behaviour: the accepted language and the result, for every text,
    with the table's two anomalies (0x7F and 0xFF) spelled out in
    [code_wsp]/[code_value]. *)
Theorem C04_decode_exact : forall src n t dest size p62 p63 ign,
  text_of src n t -> zlen t < 2 ^ 63 -> 0 <= size <= zlen dest ->
  -128 <= p62 <= 127 -> -128 <= p63 <= 127 ->
  good_pos (pos_char p62 43) -> good_pos (pos_char p63 47) ->
  let value := code_value (pos_char p62 43) (pos_char p63 47) in
  let wsp c := ign && code_wsp c in
  (exists d dest', decodes value wsp t d /\
     base64_decode_buffer src n dest size p62 p63 ign = Ok (DecOk (zlen d) dest')) \/
  ((forall d, ~ decodes value wsp t d) /\
   exists dest', base64_decode_buffer src n dest size p62 p63 ign = Ok (DecFail EILSEQ dest')).
Proof. exact decode_exact. Qed.
Print Assumptions C04_decode_exact.

(** C04 for texts without the bytes 0x7F and 0xFF: exactly RFC 4648. *)
Theorem C04_decode_rfc4648_partial : forall src n t dest size p62 p63 ign,
  text_of src n t -> zlen t < 2 ^ 63 -> 0 <= size <= zlen dest ->
  -128 <= p62 <= 127 -> -128 <= p63 <= 127 ->
  good_pos (pos_char p62 43) -> good_pos (pos_char p63 47) ->
  ~ In 127 t -> ~ In 255 t ->
  let value := std_value (pos_char p62 43) (pos_char p63 47) in
  let wsp c := ign && std_wsp c in
  (exists d dest', decodes value wsp t d /\
     base64_decode_buffer src n dest size p62 p63 ign = Ok (DecOk (zlen d) dest')) \/
  ((forall d, ~ decodes value wsp t d) /\
   exists dest', base64_decode_buffer src n dest size p62 p63 ign = Ok (DecFail EILSEQ dest')).
Proof. exact decode_rfc. Qed.
Print Assumptions C04_decode_rfc4648_partial.

(** C04 as stated is false of the code: a text of 0xFF bytes is accepted. *)
Theorem C04_refuted :
  exists src n t dest,
    text_of src n t /\
    (forall d, ~ decodes (std_value 43 47) (fun _ => false) t d) /\
    base64_decode_buffer src n dest (zlen dest) (-1) (-1) false = Ok (DecOk 3 [0; 0; 0]).
Proof. exact decode_refuted. Qed.
Print Assumptions C04_refuted.

(** ... and DEL is skipped as if it were whitespace. *)
Theorem C04_refuted_del :
  exists src n t dest,
    text_of src n t /\
    (forall d, ~ decodes (std_value 43 47) std_wsp t d) /\
    base64_decode_buffer src n dest (zlen dest) (-1) (-1) true = Ok (DecOk 3 [0; 0; 0]).
Proof. exact decode_refuted_del. Qed.
Print Assumptions C04_refuted_del.

(** The decoding of a text is unique. *)
Theorem C04_decoding_unique : forall p q ign t d d',
  good_pos p -> good_pos q ->
  let value := code_value p q in
  let wsp c := ign && code_wsp c in
  decodes value wsp t d -> decodes value wsp t d' -> d = d'.
Proof. exact decodes_unique. Qed.
Print Assumptions C04_decoding_unique.

(** C05: result independent of dest_size, bytes stored, nothing else touched
    ([res] excludes out-of-bounds accesses; [tl] beyond the text is arbitrary). *)
Theorem C05_short_buffer : forall src n t dest size p62 p63 ign,
  text_of src n t -> zlen t < 2 ^ 63 -> 0 <= size <= zlen dest ->
  -128 <= p62 <= 127 -> -128 <= p63 <= 127 ->
  good_pos (pos_char p62 43) -> good_pos (pos_char p63 47) ->
  let value := code_value (pos_char p62 43) (pos_char p63 47) in
  let wsp c := ign && code_wsp c in
  forall d, decodes value wsp t d ->
  let k := Z.to_nat (Z.min size (zlen d)) in
  base64_decode_buffer src n dest size p62 p63 ign = Ok (DecOk (zlen d) (firstn k d ++ skipn k dest)).
Proof. exact decode_short. Qed.
Print Assumptions C05_short_buffer.

(** On failure, too, nothing at or beyond [size] is written. *)
Theorem C05_failure_bounds : forall src n t dest size p62 p63 ign,
  text_of src n t -> zlen t < 2 ^ 63 -> 0 <= size <= zlen dest ->
  -128 <= p62 <= 127 -> -128 <= p63 <= 127 ->
  good_pos (pos_char p62 43) -> good_pos (pos_char p63 47) ->
  forall e dest', base64_decode_buffer src n dest size p62 p63 ign = Ok (DecFail e dest') ->
  length dest' = length dest /\ skipn (Z.to_nat size) dest' = skipn (Z.to_nat size) dest.
Proof. exact decode_failure_bounds. Qed.
Print Assumptions C05_failure_bounds.

(** C05 for all characters as pos62 and pos63, even NUL, '=' and whitespace: one
    verdict and one sequence of bytes [d], whatever the buffer; what is stored
    is the part of [d] that fits. *)
Theorem C05_any_pos : forall src n t p62 p63 ign,
  text_of src n t -> zlen t < 2 ^ 63 ->
  exists (ok : bool) (d : list Z), forall dest size, 0 <= size <= zlen dest ->
    let k := Z.to_nat (Z.min size (zlen d)) in
    let dest' := firstn k d ++ skipn k dest in
    base64_decode_buffer src n dest size p62 p63 ign =
    Ok (if ok then DecOk (zlen d) dest' else DecFail EILSEQ dest').
Proof. exact decode_any. Qed.
Print Assumptions C05_any_pos.

(** A space as pos62: "AAA " and "A A=" with room for two bytes. *)
Example C05_any_pos_example :
  text_of [65; 65; 65; 32] 4 [65; 65; 65; 32] /\
  base64_decode_buffer [65; 65; 65; 32] 4 [9; 9; 9] 2 32 (-1) true = Ok (DecOk 3 [0; 0; 9]) /\
  base64_decode_buffer [65; 32; 65; 61] 4 [9; 9; 9] 2 32 (-1) true = Ok (DecOk 2 [3; 224; 9]).
Proof.
  split; [split; [repeat constructor; unfold byte; lia|exists []; auto]|].
  split; vm_compute; reflexivity.
Qed.

(** "Zg ==" style text with whitespace, a NUL and trailing garbage, short buffer. *)
Example C05_example :
  text_of [90; 10; 109; 57; 118; 0; 55] (u64 (-1)) [90; 10; 109; 57; 118] /\
  decodes (code_value 43 47) code_wsp [90; 10; 109; 57; 118] [102; 111; 111] /\
  base64_decode_buffer [90; 10; 109; 57; 118; 0; 55] (u64 (-1)) [9; 9; 9] 2 (-1) (-1) true
  = Ok (DecOk 3 [102; 111; 9]).
Proof. exact decode_example. Qed.

(** C01 *)
Theorem C01_round_trip : forall data dest size p62 p63 ign n out osize,
  bytes data -> zlen data < 2 ^ 60 ->
  -128 <= p62 <= 127 -> -128 <= p63 <= 127 ->
  good_pos (pos_char p62 43) -> good_pos (pos_char p63 47) ->
  pos_char p62 43 <> pos_char p63 47 ->
  std_value 0 0 (pos_char p62 43) = None -> std_value 0 0 (pos_char p63 47) = None ->
  (* a buffer with room for the whole encoding and the NUL *)
  base64_encoding_size (zlen data) < size -> size <= zlen dest ->
  (* decoding by length, or up to the NUL *)
  base64_encoding_size (zlen data) <= n ->
  0 <= osize <= zlen out -> zlen data <= osize ->
  exists enc len,
    base64_encode_buffer data (zlen data) dest size p62 p63 = Ok (enc, len) /\
    base64_decode_buffer enc n out osize p62 p63 ign
    = Ok (DecOk (zlen data) (data ++ skipn (length data) out)).
Proof. exact round_trip. Qed.
Print Assumptions C01_round_trip.

Theorem C01_simple_round_trip : forall junk1 junk2 data,
  bytes data -> zlen data < 2 ^ 60 ->
  exists enc, base64_encode_simple junk1 data (zlen data) = Ok (Some enc) /\
    enc = base64 43 47 data ++ [0] /\
    base64_decode_simple junk2 enc = Ok (Some (data ++ [0], zlen data)).
Proof. exact simple_round_trip. Qed.
Print Assumptions C01_simple_round_trip.

Example C01_example :
  bytes [0; 255; 16; 7] /\ good_pos (pos_char 45 43) /\ good_pos (pos_char 95 47) /\
  std_value 0 0 (pos_char 45 43) = None /\ std_value 0 0 (pos_char 95 47) = None /\
  base64_encode_buffer [0; 255; 16; 7] 4 (repeat 1 9) 9 45 95
  = Ok ([65; 80; 56; 81; 66; 119; 61; 61; 0], 8).
Proof. exact round_trip_example. Qed.
