(** Properties C40-C46, C71 and C72 of src/charstr.c. A C string with content
    [s] is a block [s ++ 0 :: r]: [r] is whatever follows the terminator, and
    may be empty, in which case reading beyond the terminator is [UB]. *)
From Verif Require Import Base CMem CharstrTables CharstrModel CharstrSpec CharstrProofs.

(** C40: comparison ignoring ASCII case. *)
Theorem C40_case_cmp : forall a b ra rb, text a -> text b ->
  charstr_case_cmp (a ++ 0 :: ra) (b ++ 0 :: rb) = Ok (lex (map ascii_lower a) (map ascii_lower b)).
Proof. exact case_cmp_ok. Qed.
Print Assumptions C40_case_cmp.

(** [holds_upto n a block]: [a] is the first [n] characters of the string at
    [block], which need not be terminated if it has [n] characters. *)
Theorem C40_ncase_cmp : forall a b n ba bb, 0 <= n -> holds_upto n a ba -> holds_upto n b bb ->
  charstr_ncase_cmp ba bb n = Ok (lex (map ascii_lower a) (map ascii_lower b)).
Proof. exact ncase_cmp_ok. Qed.
Print Assumptions C40_ncase_cmp.

(** [lex] is a total order with values -1, 0, 1. *)
Theorem C40_order : forall a b c,
  (lex a b = -1 \/ lex a b = 0 \/ lex a b = 1) /\ lex b a = - lex a b /\
  (lex a b <= 0 -> lex b c <= 0 -> lex a c <= 0) /\ (lex a b = 0 <-> a = b).
Proof. exact (fun a b c => conj (lex_range a b) (conj (lex_sym a b) (conj (lex_trans a b c) (lex_zero a b)))). Qed.
Print Assumptions C40_order.

Example C40_example :
  charstr_case_cmp [72; 101; 0] [104; 69; 0; 7] = Ok 0 /\ charstr_case_cmp [72; 0] [104; 69; 0] = Ok (-1) /\
  holds_upto 2 [72; 101] [72; 101] /\ holds_upto 2 [104] [104; 0] /\ charstr_ncase_cmp [72; 101] [104; 0] 2 = Ok 1 /\
  lex [0xE9] [0x7A] = 1.
Proof.
  repeat split.
  - repeat constructor; lia.
  - right. split; [reflexivity|]. exists []. reflexivity.
  - repeat constructor; lia.
  - left. split; [reflexivity|]. exists []. reflexivity.
Qed.

(** C41: the case mappings. *)
Theorem C41_chars : forall c, 0 <= c < 256 ->
  charstr_lcase_char c = ascii_lower c /\ charstr_ucase_char c = ascii_upper c.
Proof. exact (fun c H => conj (lcase_char_ok c H) (ucase_char_ok c H)). Qed.
Print Assumptions C41_chars.

Theorem C41_strings : forall pre s r, text s ->
  charstr_lcase_str (pre ++ s ++ 0 :: r) (zlen pre) = Ok (pre ++ map ascii_lower s ++ 0 :: r) /\
  charstr_ucase_str (pre ++ s ++ 0 :: r) (zlen pre) = Ok (pre ++ map ascii_upper s ++ 0 :: r).
Proof. exact case_str_ok. Qed.
Print Assumptions C41_strings.

Theorem C41_substrings : forall pre s r, bytes s ->
  charstr_lcase_substr (pre ++ s ++ r) (zlen pre) (zlen pre + zlen s) = Ok (pre ++ map ascii_lower s ++ r) /\
  charstr_ucase_substr (pre ++ s ++ r) (zlen pre) (zlen pre + zlen s) = Ok (pre ++ map ascii_upper s ++ r).
Proof. exact case_substr_ok. Qed.
Print Assumptions C41_substrings.

Example C41_example :
  charstr_lcase_str [88; 72; 0xC9; 105; 0; 65] 1 = Ok [88; 104; 0xC9; 105; 0; 65] /\
  charstr_ucase_substr [97; 98; 99; 100] 1 3 = Ok [97; 66; 67; 100].
Proof. split; reflexivity. Qed.

(** C42 is false: in the table, the entries of 8 and 10-13 are out of place.
    E.g. the entry of '\n' is CHARSTR_FF, and '\r' is no whitespace. *)
Theorem C42_refuted :
  Z.land (charstr_char_class 10) CHARSTR_LF = 0 /\ Z.land (charstr_char_class 8) CHARSTR_LF <> 0 /\
  Z.land (charstr_char_class 10) CHARSTR_FF <> 0 /\ Z.land (charstr_char_class 12) CHARSTR_FF = 0 /\
  Z.land (charstr_char_class 13) CHARSTR_CR = 0 /\ Z.land (charstr_char_class 11) CHARSTR_CR <> 0 /\
  Z.land (charstr_char_class 13) CHARSTR_WHITESPACE = 0.
Proof. repeat split; vm_compute; congruence. Qed.
Print Assumptions C42_refuted.

(** What holds: all other bytes have exactly the documented classes. *)
Theorem C42_classes_partial : forall flag p c, In (flag, p) documented_classes ->
  0 <= c < 256 -> c <> 8 -> ~ 10 <= c <= 13 ->
  (Z.land (charstr_char_class c) flag <> 0 <-> p c = true).
Proof.
  intros flag p c Hin Hc H8 H10. rewrite <- (char_class_ok flag p Hin c Hc).
  - unfold truth. lia.
  - unfold misplaced. lia.
Qed.
Print Assumptions C42_classes_partial.

(** The entries that are out of place. *)
Theorem C42_misplaced_exact :
  charstr_char_class 8 = CHARSTR_CONTROL + CHARSTR_LF /\ charstr_char_class 10 = CHARSTR_CONTROL + CHARSTR_FF /\
  charstr_char_class 11 = CHARSTR_CONTROL + CHARSTR_CR /\ charstr_char_class 12 = CHARSTR_CONTROL /\
  charstr_char_class 13 = CHARSTR_CONTROL.
Proof. repeat split. Qed.
Print Assumptions C42_misplaced_exact.

Theorem C42_no_other_bits : forall c, 0 <= c < 256 ->
  0 <= charstr_char_class c < 0x2000 /\ (128 <= c -> charstr_char_class c = 0).
Proof. exact char_class_bits. Qed.
Print Assumptions C42_no_other_bits.

Example C42_example : charstr_char_class 70 = CHARSTR_UPPER + CHARSTR_HEX + CHARSTR_PRINT.
Proof. reflexivity. Qed.

(** C43: prefixes and suffixes. A pointer result is the rest of the block. *)
Theorem C43_prefix : forall p s r rp, text p -> text s ->
  exists o, charstr_skip_prefix (s ++ 0 :: r) (p ++ 0 :: rp) = Ok o /\
    match o with
    | Some t => exists u, s = p ++ u /\ t = u ++ 0 :: r
    | None => ~ exists u, s = p ++ u
    end.
Proof. exact skip_prefix_ok. Qed.
Print Assumptions C43_prefix.

Theorem C43_case_prefix : forall p s r rp, text p -> text s ->
  exists o, charstr_case_skip_prefix (s ++ 0 :: r) (p ++ 0 :: rp) = Ok o /\
    match o with
    | Some t => exists q u, s = q ++ u /\ map ascii_lower q = map ascii_lower p /\ t = u ++ 0 :: r
    | None => ~ exists q u, s = q ++ u /\ map ascii_lower q = map ascii_lower p
    end.
Proof. exact case_skip_prefix_ok. Qed.
Print Assumptions C43_case_prefix.

Theorem C43_suffix : forall s t r rt, text s -> text t ->
  exists b, charstr_ends_with (s ++ 0 :: r) (t ++ 0 :: rt) = Ok b /\ (b = true <-> exists u, s = u ++ t).
Proof. exact ends_with_ok. Qed.
Print Assumptions C43_suffix.

Example C43_example :
  charstr_skip_prefix [104; 105; 106; 0] [104; 105; 0] = Ok (Some [106; 0]) /\
  charstr_skip_prefix [104; 0] [104; 105; 0] = Ok None /\
  charstr_case_skip_prefix [104; 105; 0] [72; 0] = Ok (Some [105; 0]) /\
  charstr_ends_with [104; 105; 106; 0] [105; 106; 0] = Ok true /\
  charstr_ends_with [106; 0] [105; 106; 0] = Ok false.
Proof. repeat split. Qed.

(** C44: splitting at a character other than NUL. *)
Theorem C44_split : forall junk s r delim max,
  text s -> 0 < delim < 256 -> 0 <= max -> zlen s + 1 < 2 ^ 64 ->
  exists parts, charstr_split junk (s ++ 0 :: r) delim max = Ok (map as_block parts) /\
    join [delim] parts = s /\ zlen parts = Z.min max (count delim s) + 1 /\
    Forall (fun p => ~ In delim p) (removelast parts).
Proof. exact split_ok. Qed.
Print Assumptions C44_split.

Theorem C44_into_array : forall junk s r delim array max,
  text s -> 0 < delim < 256 -> 0 <= max < 2 ^ 32 -> zlen s + 1 < 2 ^ 64 -> max + 1 <= zlen array ->
  exists parts, charstr_split junk (s ++ 0 :: r) delim max = Ok (map as_block parts) /\
    charstr_split_into_array junk (s ++ 0 :: r) delim array max =
      Ok (zlen parts - 1, map as_block parts ++ skipn (length parts) array).
Proof.
  intros junk s r delim array max H1 H2 H3 H4 H5.
  destruct (split_into_array_ok junk s r delim array max H1 H2 H3 H4 H5) as (parts & A & B & _).
  exists parts. split; assumption.
Qed.
Print Assumptions C44_into_array.

Example C44_example :
  charstr_split (fun _ => 9) [97; 47; 47; 98; 47; 99; 0] 47 2 = Ok [[97; 0]; [0]; [98; 47; 99; 0]] /\
  charstr_split_into_array (fun _ => 9) [97; 47; 98; 0] 47 [[1]; [1]; [1]] 2 = Ok (1, [[97; 0]; [98; 0]; [1]]).
Proof. split; reflexivity. Qed.

(** NUL is no legal delimiter: the scan goes on behind the terminator. *)
Example C44_nul_delimiter : charstr_split (fun _ => 9) [97; 0] 0 5 = UB.
Proof. reflexivity. Qed.

(** C45: splitting at a string. *)
Theorem C45_split_str : forall junk s r d rd max,
  text s -> text d -> d <> [] -> 0 <= max -> zlen s + 1 < 2 ^ 64 ->
  exists parts, charstr_split_str junk (s ++ 0 :: r) (d ++ 0 :: rd) max = Ok (map as_block parts) /\
    split_at_string d max s parts.
Proof. exact split_str_ok. Qed.
Print Assumptions C45_split_str.

(** What happens with an empty delimiter. *)
Theorem C45_empty_delimiter : forall junk s r rd max, text s -> 0 <= max -> zlen s + 1 < 2 ^ 64 ->
  charstr_split_str junk (s ++ 0 :: r) (0 :: rd) max = Ok (map as_block (repeat [] (Z.to_nat max) ++ [s])).
Proof. exact split_str_empty. Qed.
Print Assumptions C45_empty_delimiter.

Example C45_example :
  charstr_split_str (fun _ => 9) [97; 97; 97; 98; 97; 97; 0] [97; 97; 0] 5 = Ok [[0]; [97; 98; 0]; [0]].
Proof. reflexivity. Qed.

(** C46 is false for the documented whitespace: '\r' is kept. *)
Theorem C46_refuted :
  charstr_strip (fun _ => 9) (Some [97; 13; 0]) = Ok (Some [97; 13; 0]) /\ ~ stripped doc_white [97; 13] [97; 13] /\
  charstr_split_atoms (fun _ => 9) [97; 11; 98; 0] = Ok [[97; 0]; [98; 0]] /\ ~ atoms doc_white [97; 11; 98] [[97]; [98]].
Proof.
  split; [reflexivity|]. split.
  { intros (w1 & w2 & _ & _ & _ & _ & H). apply (H 13 [97]); [reflexivity|]. unfold doc_white. lia. }
  split; [reflexivity|].
  intros H. inversion H as [|w a s l Hw Ha Hb Hs HA E1 E2]. subst a l.
  destruct w as [|x w].
  - cbn [app] in E1. inversion E1. subst s. destruct Hs as [Hs|(c & s' & Hs & Wc)]; [discriminate|].
    inversion Hs. subst c. unfold doc_white in Wc. lia.
  - inversion Hw as [|? ? Wx _]. cbn [app] in E1. inversion E1. subst x. unfold doc_white in Wx. lia.
Qed.
Print Assumptions C46_refuted.

(** Right for strings without the bytes the table gets wrong (8, 11, 12, 13). *)
Theorem C46_atoms_partial : forall junk s r, text s -> zlen s + 1 < 2 ^ 64 ->
  (forall c, In c s -> c <> 8 /\ c <> 11 /\ c <> 12 /\ c <> 13) ->
  exists parts, charstr_split_atoms junk (s ++ 0 :: r) = Ok (map as_block parts) /\ atoms doc_white s parts.
Proof.
  intros junk s r Hs Hl Hr. destruct (split_atoms_ok junk s r Hs Hl) as (parts & E & A). exists parts.
  split; [exact E|]. apply (atoms_ext code_white); [|exact A]. intros c Hc. apply regular_white, Hr, Hc.
Qed.
Print Assumptions C46_atoms_partial.

Theorem C46_strip_partial : forall junk s r, text s -> zlen s + 1 < 2 ^ 64 ->
  (forall c, In c s -> c <> 8 /\ c <> 11 /\ c <> 12 /\ c <> 13) ->
  exists m, charstr_strip junk (Some (s ++ 0 :: r)) = Ok (Some (as_block m)) /\ stripped doc_white s m.
Proof.
  intros junk s r Hs Hl Hr. destruct (strip_ok junk s r Hs Hl) as (m & E & A). exists m.
  split; [exact E|]. apply (stripped_ext code_white); [|exact A]. intros c Hc. apply regular_white, Hr, Hc.
Qed.
Print Assumptions C46_strip_partial.

(** And for all strings, with what the code takes for whitespace. *)
Theorem C46_atoms_code : forall junk s r, text s -> zlen s + 1 < 2 ^ 64 ->
  exists parts, charstr_split_atoms junk (s ++ 0 :: r) = Ok (map as_block parts) /\ atoms code_white s parts.
Proof. exact split_atoms_ok. Qed.
Print Assumptions C46_atoms_code.

Theorem C46_strip_code : forall junk s r, text s -> zlen s + 1 < 2 ^ 64 ->
  exists m, charstr_strip junk (Some (s ++ 0 :: r)) = Ok (Some (as_block m)) /\ stripped code_white s m.
Proof. exact strip_ok. Qed.
Print Assumptions C46_strip_code.

Theorem C46_strip_null : forall junk, charstr_strip junk None = Ok None.
Proof. reflexivity. Qed.
Print Assumptions C46_strip_null.

Example C46_example :
  charstr_split_atoms (fun _ => 9) [32; 97; 10; 9; 98; 98; 32; 0] = Ok [[97; 0]; [98; 98; 0]] /\
  charstr_strip (fun _ => 9) (Some [32; 9; 97; 32; 98; 32; 0]) = Ok (Some [97; 32; 98; 0]) /\
  charstr_strip (fun _ => 9) (Some [32; 9; 0]) = Ok (Some [0]).
Proof. repeat split. Qed.

(** C71: duplication. The block returned is as long as the string with its NUL. *)
Theorem C71_dupstr : forall junk s r, text s -> zlen s + 1 < 2 ^ 64 ->
  charstr_dupstr junk (Some (s ++ 0 :: r)) = Ok (Some (s ++ [0])) /\ charstr_dupstr junk None = Ok None.
Proof.
  intros junk s r Hs Hl. split; [|reflexivity]. unfold charstr_dupstr.
  rewrite strlen_ok by (apply text_no_nul; assumption). cbn [bind]. rewrite dup_range_ok by assumption. reflexivity.
Qed.
Print Assumptions C71_dupstr.

(** A pointer into the same block is given by the number of bytes behind it;
    [s] may be any bytes, and NULL for the end means up to the terminator. *)
Theorem C71_dupsubstr : forall junk s t, bytes s -> zlen s + 1 < 2 ^ 64 ->
  charstr_dupsubstr junk (Some (s ++ t)) (Some (zlen t)) = Ok (Some (s ++ [0])) /\
  charstr_dupsubstr junk (Some (s ++ t)) None = charstr_dupstr junk (Some (s ++ t)) /\
  charstr_dupsubstr junk None (Some (zlen t)) = Ok None.
Proof.
  intros junk s t Hs Hl. split; [|split; reflexivity]. unfold charstr_dupsubstr.
  rewrite zlen_app. replace (zlen s + zlen t - zlen t) with (zlen s) by lia. pose proof (zlen_nonneg s).
  rewrite u64_small by lia. rewrite dup_range_ok by assumption. reflexivity.
Qed.
Print Assumptions C71_dupsubstr.

Example C71_example :
  charstr_dupstr (fun _ => 9) (Some [104; 105; 0; 5]) = Ok (Some [104; 105; 0]) /\
  charstr_dupsubstr (fun _ => 9) (Some [104; 105; 0; 5]) (Some 3) = Ok (Some [104; 0]).
Proof. split; reflexivity. Qed.

(** C72 *)
Theorem C72_digit_value : forall c n, hex_value c n -> charstr_digit_value c = n.
Proof. exact digit_value_ok. Qed.
Print Assumptions C72_digit_value.

Example C72_example : hex_value 70 15 /\ hex_value 102 15 /\ charstr_digit_value 102 = 15.
Proof. split; [apply (Hex_upper 15); lia|]. split; [apply (Hex_lower 15); lia|reflexivity]. Qed.
