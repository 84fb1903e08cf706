(** Property C139: string functions keep strings UTF-8. *)
From Verif Require Import Base CMem CharstrModel CharstrSpec CharstrProofs Utf8Model Utf8Spec Utf8KeepSpec Utf8Keep.

(** The parts of a UTF-8 string are UTF-8 if it is split at an ASCII character, at any UTF-8 string or at whitespace. *)
Theorem C139_split : forall junk s r delim max parts, text s -> 0 < delim < 128 -> 0 <= max -> zlen s + 1 < 2 ^ 64 ->
  is_utf8 (s ++ 0 :: r) -> charstr_split junk (s ++ 0 :: r) delim max = Ok parts -> Forall is_utf8 parts.
Proof. exact split_utf8. Qed.
Print Assumptions C139_split.
Theorem C139_split_into_array : forall junk s r delim array max n array', text s -> 0 < delim < 128 -> 0 <= max < 2 ^ 32 ->
  zlen s + 1 < 2 ^ 64 -> max + 1 <= zlen array -> is_utf8 (s ++ 0 :: r) ->
  charstr_split_into_array junk (s ++ 0 :: r) delim array max = Ok (n, array') -> Forall is_utf8 (firstn (Z.to_nat (n + 1)) array').
Proof. exact split_into_array_utf8. Qed.
Print Assumptions C139_split_into_array.
Theorem C139_split_str : forall junk s r d rd max parts, text s -> text d -> 0 <= max -> zlen s + 1 < 2 ^ 64 ->
  is_utf8 (s ++ 0 :: r) -> is_utf8 (d ++ 0 :: rd) ->
  charstr_split_str junk (s ++ 0 :: r) (d ++ 0 :: rd) max = Ok parts -> Forall is_utf8 parts.
Proof. exact split_str_utf8. Qed.
Print Assumptions C139_split_str.
Theorem C139_split_atoms : forall junk s r parts, text s -> zlen s + 1 < 2 ^ 64 ->
  is_utf8 (s ++ 0 :: r) -> charstr_split_atoms junk (s ++ 0 :: r) = Ok parts -> Forall is_utf8 parts.
Proof. exact atoms_utf8. Qed.
Print Assumptions C139_split_atoms.

(** So are the stripped string, what is left after a UTF-8 prefix, and the string with its letters in another case. *)
Theorem C139_strip : forall junk s r m, text s -> zlen s + 1 < 2 ^ 64 ->
  is_utf8 (s ++ 0 :: r) -> charstr_strip junk (Some (s ++ 0 :: r)) = Ok (Some m) -> is_utf8 m.
Proof. exact strip_utf8. Qed.
Print Assumptions C139_strip.
Theorem C139_prefix : forall p s r rp t, text p -> text s -> is_utf8 (s ++ 0 :: r) -> is_utf8 (p ++ 0 :: rp) ->
  charstr_skip_prefix (s ++ 0 :: r) (p ++ 0 :: rp) = Ok (Some t) \/
  charstr_case_skip_prefix (s ++ 0 :: r) (p ++ 0 :: rp) = Ok (Some t) -> is_utf8 t.
Proof. exact prefix_utf8. Qed.
Print Assumptions C139_prefix.
Theorem C139_case : forall pre s r b, text s -> is_utf8 (s ++ 0 :: r) ->
  charstr_lcase_str (pre ++ s ++ 0 :: r) (zlen pre) = Ok b \/ charstr_ucase_str (pre ++ s ++ 0 :: r) (zlen pre) = Ok b ->
  is_utf8 (skipn (length pre) b).
Proof. exact case_utf8. Qed.
Print Assumptions C139_case.

(** The case-insensitive comparison of bytes compares codepoints: the first that differ, ASCII letters taken as small, decide. *)
Theorem C139_case_cmp : forall a b ra rb, Forall scalar a -> Forall scalar b -> ~ In 0 a -> ~ In 0 b ->
  charstr_case_cmp (concat (map utf8 a) ++ 0 :: ra) (concat (map utf8 b) ++ 0 :: rb) = Ok (lex (map ascii_lower a) (map ascii_lower b)).
Proof. exact case_cmp_utf8. Qed.
Print Assumptions C139_case_cmp.
(** So does a comparison of bytes such as strcmp's. *)
Theorem C139_order : forall a b, Forall scalar a -> Forall scalar b -> lex (concat (map utf8 a)) (concat (map utf8 b)) = lex a b.
Proof. intros a b. exact (utf8_lex a b). Qed.
Print Assumptions C139_order.

(** U+00E4, U+20AC, 'A', U+00E4 is split at U+20AC, at 'A' and by its prefix U+00E4. The delimiter has to be ASCII or a whole string:
    the byte 0x82, which is in the middle of U+20AC, would leave broken parts. *)
Example C139_example :
  let s := concat (map utf8 [0xe4; 0x20ac; 65; 0xe4]) ++ [0] in
  is_utf8 s /\ charstr_split_str (fun _ => 7) s (utf8 0x20ac ++ [0]) 9 = Ok [[0xc3; 0xa4; 0]; [65; 0xc3; 0xa4; 0]] /\
  charstr_split (fun _ => 7) s 65 9 = Ok [[0xc3; 0xa4; 0xe2; 0x82; 0xac; 0]; [0xc3; 0xa4; 0]] /\
  charstr_skip_prefix s (utf8 0xe4 ++ [0]) = Ok (Some [0xe2; 0x82; 0xac; 65; 0xc3; 0xa4; 0]) /\
  charstr_split (fun _ => 7) s 0x82 9 = Ok [[0xc3; 0xa4; 0xe2; 0]; [0xac; 65; 0xc3; 0xa4; 0]] /\
  charstr_valid_utf8 (Some [0xc3; 0xa4; 0xe2; 0]) = Ok false /\
  charstr_case_cmp (utf8 0x20ac ++ [0]) (utf8 0x1f600 ++ [0]) = Ok (-1).
Proof. cbv zeta. unfold is_utf8. repeat split; vm_compute; reflexivity. Qed.
