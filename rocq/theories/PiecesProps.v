(** Property C128: strings can be processed in pieces. *)
From Verif Require Import Base CMem Base64Model Base64Spec Base64Proofs.
From Verif Require Import CharstrSpec CharstrModel Utf8Spec Utf8Model UrlModel PiecesSpec Pieces.

(** Base64: pieces whose lengths are multiples of 3 (but for the last) can be encoded one by one, ... *)
Theorem C128_base64_encode : forall junk a b ra rb r, bytes a -> bytes b -> zlen a + zlen b < 2 ^ 60 -> zlen a mod 3 = 0 ->
  exists x y, base64_encode_simple junk (a ++ ra) (zlen a) = Ok (Some (x ++ [0])) /\
    base64_encode_simple junk (b ++ rb) (zlen b) = Ok (Some (y ++ [0])) /\
    base64_encode_simple junk (a ++ b ++ r) (zlen a + zlen b) = Ok (Some (x ++ y ++ [0])).
Proof. exact encode_pieces. Qed.
Print Assumptions C128_base64_encode.

(** ... also one after the other into the same buffer. *)
Theorem C128_base64_stream : forall a b tl tl' tl'' dest size p62 p63 dest1 n1 dest2 n2, bytes a -> bytes b -> zlen a + zlen b < 2 ^ 60 -> zlen a mod 3 = 0 ->
  0 <= size <= zlen dest ->
  base64_encode_buffer (a ++ tl) (zlen a) dest size p62 p63 = Ok (dest1, n1) -> n1 < size ->
  base64_encode_buffer (b ++ tl') (zlen b) (skipn (Z.to_nat n1) dest1) (size - n1) p62 p63 = Ok (dest2, n2) ->
  base64_encode_buffer (a ++ b ++ tl'') (zlen a + zlen b) dest size p62 p63 = Ok (firstn (Z.to_nat n1) dest1 ++ dest2, n1 + n2).
Proof. exact encode_stream. Qed.
Print Assumptions C128_base64_stream.

(** Texts can be decoded one by one, if there is no padding but in the last; a text that goes on
    after the padding is rejected. *)
Theorem C128_base64_decode : forall junk t1 t2 r1 r2 r d1 n1 d2 n2, text t1 -> text t2 -> zlen t1 + zlen t2 < 2 ^ 62 ->
  base64_decode_simple junk (t1 ++ 0 :: r1) = Ok (Some (d1 ++ [0], n1)) ->
  base64_decode_simple junk (t2 ++ 0 :: r2) = Ok (Some (d2 ++ [0], n2)) ->
  base64_decode_simple junk (t1 ++ t2 ++ 0 :: r) =
  Ok (if (n1 mod 3 =? 0) || (n2 =? 0) then Some (d1 ++ d2 ++ [0], n1 + n2) else None).
Proof. exact decode_pieces. Qed.
Print Assumptions C128_base64_decode.

(** URL encoding, with any encoder. *)
Theorem C128_url_encode : forall junk reserve unreserve r1 r2 t a b ra rb r, text reserve -> text unreserve ->
  charstr_create_url_encoder (reserve ++ 0 :: r1) (unreserve ++ 0 :: r2) = Ok t ->
  text a -> text b -> 3 * (zlen a + zlen b) + 1 < 2 ^ 64 ->
  exists x y s1 s2 s3, text x /\ text y /\
    charstr_url_custom_encode junk t (a ++ 0 :: ra) = Ok (x ++ 0 :: s1) /\
    charstr_url_custom_encode junk t (b ++ 0 :: rb) = Ok (y ++ 0 :: s2) /\
    charstr_url_custom_encode junk t (a ++ b ++ 0 :: r) = Ok (x ++ y ++ 0 :: s3).
Proof. exact url_encode_pieces. Qed.
Print Assumptions C128_url_encode.

(** URL decoding: if the first piece can be decoded, the whole can be if and only if the rest can. *)
Theorem C128_url_decode : forall junk plus a b ra rb r x n o, text a -> text b -> zlen a + zlen b + 1 < 2 ^ 64 ->
  charstr_url_decode junk (a ++ 0 :: ra) plus = Ok (Some (x ++ [0], n)) ->
  charstr_url_decode junk (b ++ 0 :: rb) plus = Ok o ->
  charstr_url_decode junk (a ++ b ++ 0 :: r) plus = Ok (option_map (fun y => (x ++ fst y, n + snd y)) o).
Proof. exact url_decode_pieces. Qed.
Print Assumptions C128_url_decode.

(** UTF-8: a string can be cut where the first piece is valid, and before every byte that is not a
    continuation byte (0x80-0xBF). *)
Theorem C128_utf8_valid : forall a b ra rb r, text a -> text b -> valid a \/ ~ continues b ->
  exists va vb, charstr_valid_utf8 (Some (a ++ 0 :: ra)) = Ok va /\ charstr_valid_utf8 (Some (b ++ 0 :: rb)) = Ok vb /\
    charstr_valid_utf8 (Some (a ++ b ++ 0 :: r)) = Ok (va && vb).
Proof. exact valid_pieces. Qed.
Print Assumptions C128_utf8_valid.

Theorem C128_utf8_sanitize : forall junk a b ra rb r, text a -> text b -> 3 * (zlen a + zlen b) + 1 < 2 ^ 64 -> valid a \/ ~ continues b ->
  exists x y, charstr_sanitize_utf8 junk (a ++ 0 :: ra) = Ok (x ++ [0]) /\ charstr_sanitize_utf8 junk (b ++ 0 :: rb) = Ok (y ++ [0]) /\
    charstr_sanitize_utf8 junk (a ++ b ++ 0 :: r) = Ok (x ++ y ++ [0]).
Proof. exact sanitize_pieces. Qed.
Print Assumptions C128_utf8_sanitize.

(** Splitting: at every delimiter, at all white space. *)
Theorem C128_split : forall junk a b ra rb r delim max la lb, text a -> text b -> 0 < delim < 256 -> zlen a + zlen b + 1 <= max -> zlen a + zlen b + 2 < 2 ^ 64 ->
  charstr_split junk (a ++ 0 :: ra) delim max = Ok la -> charstr_split junk (b ++ 0 :: rb) delim max = Ok lb ->
  charstr_split junk (a ++ delim :: b ++ 0 :: r) delim max = Ok (la ++ lb).
Proof. exact split_pieces. Qed.
Print Assumptions C128_split.

Theorem C128_atoms : forall junk a b ra rb r c la lb, text a -> text b -> code_white c -> zlen a + zlen b + 2 < 2 ^ 64 ->
  charstr_split_atoms junk (a ++ 0 :: ra) = Ok la -> charstr_split_atoms junk (b ++ 0 :: rb) = Ok lb ->
  charstr_split_atoms junk (a ++ c :: b ++ 0 :: r) = Ok (la ++ lb).
Proof. exact atoms_pieces. Qed.
Print Assumptions C128_atoms.

(** Comparison: after beginnings that are equal but for case, the rest decides. *)
Theorem C128_compare : forall a a' s s' ra ra' rs rs' r r', text a -> text a' -> text s -> text s' ->
  charstr_case_cmp (a ++ 0 :: ra) (a' ++ 0 :: ra') = Ok 0 ->
  charstr_case_cmp (a ++ s ++ 0 :: r) (a' ++ s' ++ 0 :: r') = charstr_case_cmp (s ++ 0 :: rs) (s' ++ 0 :: rs').
Proof. exact cmp_pieces. Qed.
Print Assumptions C128_compare.

Example C128_example :
  base64_encode_simple (fun _ => 9) [102; 111; 111] 3 = Ok (Some [90; 109; 57; 118; 0]) /\
  base64_encode_simple (fun _ => 9) [98] 1 = Ok (Some [89; 103; 61; 61; 0]) /\
  base64_encode_simple (fun _ => 9) [102; 111; 111; 98] 4 = Ok (Some [90; 109; 57; 118; 89; 103; 61; 61; 0]) /\
  base64_decode_simple (fun _ => 9) [90; 109; 57; 118; 89; 103; 61; 61; 0] = Ok (Some ([102; 111; 111; 98; 0], 4)) /\
  base64_decode_simple (fun _ => 9) [89; 103; 61; 61; 90; 109; 57; 118; 0] = Ok None /\
  charstr_url_decode (fun _ => 9) [37; 52; 49; 43; 0] true = Ok (Some ([65; 32; 0], 2)) /\
  charstr_url_decode (fun _ => 9) [37; 52; 0] true = Ok None /\ charstr_url_decode (fun _ => 9) [49; 0] true = Ok (Some ([49; 0], 1)) /\
  charstr_split (fun _ => 9) [97; 44; 98; 44; 0] 44 5 = Ok [[97; 0]; [98; 0]; [0]] /\
  charstr_split_atoms (fun _ => 9) [97; 32; 32; 98; 0] = Ok [[97; 0]; [98; 0]] /\
  charstr_case_cmp [97; 98; 0] [65; 97; 0] = Ok 1.
Proof. vm_compute. repeat split. Qed.

(** Cut inside a character, neither piece is valid, but the whole is. *)
Example C128_needed :
  charstr_valid_utf8 (Some [0xC3; 0]) = Ok false /\ charstr_valid_utf8 (Some [0xA4; 0]) = Ok false /\ charstr_valid_utf8 (Some [0xC3; 0xA4; 0]) = Ok true /\
  ~ valid [0xC3] /\ continues [0xA4] /\ ~ continues [0xC3; 0xA4] /\ valid [0xC3; 0xA4].
Proof.
  repeat (split; [reflexivity|]). assert (T : text [0xC3]) by (repeat constructor; lia). assert (T2 : text [0xC3; 0xA4]) by (repeat constructor; lia).
  destruct (Utf8Proofs.valid_ok [0xC3] [] T) as (b & E & I). assert (b = false) as -> by (vm_compute in E; congruence).
  destruct (Utf8Proofs.valid_ok [0xC3; 0xA4] [] T2) as (b & E' & I'). assert (b = true) as -> by (vm_compute in E'; congruence).
  split; [intros V; apply I in V; discriminate|]. split; [cbn; lia|]. split; [cbn; lia|]. apply I'. reflexivity.
Qed.
