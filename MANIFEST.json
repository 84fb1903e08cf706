{
 "claims": [
  {
   "property": "C01",
   "status": "proved",
   "theorems": [
    "C01_round_trip",
    "C01_simple_round_trip"
   ],
   "note": ""
  },
  {
   "property": "C02",
   "status": "proved",
   "theorems": [
    "C02_encode_buffer"
   ],
   "note": ""
  },
  {
   "property": "C03",
   "status": "proved",
   "theorems": [
    "C03_encoding_size",
    "C03_encoding_size_is_length"
   ],
   "note": ""
  },
  {
   "property": "C04",
   "status": "partial",
   "theorems": [
    "C04_decode_exact",
    "C04_decode_rfc4648_partial",
    "C04_refuted",
    "C04_refuted_del",
    "C04_decoding_unique"
   ],
   "note": "The statement is false of the code (missing comma in the decoding table: 0xFF decodes as 0, DEL counts as whitespace): refuted by witness; proved for texts without 0x7F/0xFF, and the exact language accepted is characterised for all texts."
  },
  {
   "property": "C05",
   "status": "proved",
   "theorems": [
    "C05_short_buffer",
    "C05_failure_bounds",
    "C05_any_pos"
   ],
   "note": ""
  },
  {
   "property": "C06",
   "status": "proved",
   "theorems": [
    "C06_binary64_to_integer",
    "C06_binary64_to_integer_flocq"
   ],
   "note": "Stated against an integer definition of binary64 and again against Flocq's B2R (the latter uses the standard library's real-number axioms)."
  },
  {
   "property": "C07",
   "status": "proved",
   "theorems": [
    "C07_binary64_to_unsigned",
    "C07_binary64_to_unsigned_flocq"
   ],
   "note": "As C06."
  },
  {
   "property": "C08",
   "status": "proved",
   "theorems": [
    "C08_epoch_to_utc",
    "C08_utc_valid"
   ],
   "note": ""
  },
  {
   "property": "C09",
   "status": "partial",
   "theorems": [
    "C09_refuted",
    "C09_refuted_always",
    "C09_epoch_to_utc_partial",
    "C09_mirror_partial",
    "C09_normal_exact"
   ],
   "note": "False of the code: C division truncates, so every negative epoch that is not midnight yields negative time fields (C09_refuted, C09_refuted_always). Proved: what the fields mean for every epoch back to 1600-03-01, and exactly when all of them are in their normal ranges (C09_normal_exact)."
  },
  {
   "property": "C10",
   "status": "proved",
   "theorems": [
    "C10_intptr_round_trip",
    "C10_uintptr_round_trip",
    "C10_integer_cmp",
    "C10_unsigned_cmp"
   ],
   "note": ""
  },
  {
   "property": "C11",
   "status": "proved",
   "theorems": [
    "C11_intset_is_a_set"
   ],
   "note": ""
  },
  {
   "property": "C12",
   "status": "proved",
   "theorems": [
    "C12_intset_search"
   ],
   "note": ""
  },
  {
   "property": "C13",
   "status": "proved",
   "theorems": [
    "C13_intset_memory_safe"
   ],
   "note": ""
  },
  {
   "property": "C14",
   "status": "proved",
   "theorems": [
    "C14_content"
   ],
   "note": ""
  },
  {
   "property": "C15",
   "status": "partial",
   "theorems": [
    "C15_bounds_and_nul_partial",
    "C15_refuted"
   ],
   "note": "Bounds proved for every callback within its contract; NUL termination proved for callbacks that leave the buffer alone when they deliver nothing, refuted otherwise (C15_refuted)."
  },
  {
   "property": "C16",
   "status": "proved",
   "theorems": [
    "C16_failures_atomic"
   ],
   "note": ""
  },
  {
   "property": "C17",
   "status": "proved",
   "theorems": [
    "C17_append_stream"
   ],
   "note": ""
  },
  {
   "property": "C18",
   "status": "proved",
   "theorems": [
    "C18_sharing"
   ],
   "note": ""
  },
  {
   "property": "C19",
   "status": "proved",
   "theorems": [
    "C19_make",
    "C19_append",
    "C19_prepend",
    "C19_insert_before",
    "C19_remove",
    "C19_pop_first",
    "C19_pop_last",
    "C19_observers"
   ],
   "note": ""
  },
  {
   "property": "C20",
   "status": "proved",
   "theorems": [
    "C20_navigation",
    "C20_traversals",
    "C20_stable"
   ],
   "note": ""
  },
  {
   "property": "C21",
   "status": "proved",
   "theorems": [
    "C21_footprint",
    "C21_distinct",
    "C21_destroy",
    "C21_no_leak"
   ],
   "note": ""
  },
  {
   "property": "C22",
   "status": "proved",
   "theorems": [
    "C22_foreach",
    "C22_copy",
    "C22_independent"
   ],
   "note": ""
  },
  {
   "property": "C23",
   "status": "proved",
   "theorems": [
    "C23_make",
    "C23_put_new",
    "C23_put_replace",
    "C23_pop",
    "C23_pop_none",
    "C23_detach",
    "C23_remove",
    "C23_pop_any",
    "C23_get",
    "C23_element",
    "C23_unique",
    "C23_size"
   ],
   "note": ""
  },
  {
   "property": "C24",
   "status": "proved",
   "theorems": [
    "C24_traversal"
   ],
   "note": ""
  },
  {
   "property": "C25",
   "status": "proved",
   "theorems": [
    "C25_put_identical"
   ],
   "note": ""
  },
  {
   "property": "C26",
   "status": "proved",
   "theorems": [
    "C26_capacity"
   ],
   "note": ""
  },
  {
   "property": "C27",
   "status": "proved",
   "theorems": [
    "C27_make",
    "C27_operation",
    "C27_destroy"
   ],
   "note": ""
  },
  {
   "property": "C28",
   "status": "proved",
   "theorems": [
    "C28_make",
    "C28_make_plain",
    "C28_cases",
    "C28_put_new",
    "C28_put_replace",
    "C28_pop",
    "C28_pop_none",
    "C28_detach",
    "C28_remove",
    "C28_pop_first",
    "C28_pop_last",
    "C28_get",
    "C28_element",
    "C28_sorted",
    "C28_size"
   ],
   "note": ""
  },
  {
   "property": "C29",
   "status": "proved",
   "theorems": [
    "C29_get_before",
    "C29_get_on_or_before",
    "C29_get_after",
    "C29_get_on_or_after",
    "C29_ends"
   ],
   "note": ""
  },
  {
   "property": "C30",
   "status": "proved",
   "theorems": [
    "C30_traversal",
    "C30_step",
    "C30_inverse"
   ],
   "note": ""
  },
  {
   "property": "C31",
   "status": "proved",
   "theorems": [
    "C31_balanced",
    "C31_get",
    "C31_neighbours",
    "C31_put"
   ],
   "note": ""
  },
  {
   "property": "C32",
   "status": "partial",
   "theorems": [
    "C32_put_identical_refuted",
    "C32_put_identical_partial"
   ],
   "note": "false of the code: avl_tree_put of the same key and value replaces the element and returns the old one (C32_put_identical_refuted). C32_put_identical_partial: the keys and values are unchanged, and exactly what is returned."
  },
  {
   "property": "C33",
   "status": "proved",
   "theorems": [
    "C33_put",
    "C33_pop",
    "C33_detach",
    "C33_pop_end"
   ],
   "note": ""
  },
  {
   "property": "C34",
   "status": "proved",
   "theorems": [
    "C34_copy",
    "C34_independent"
   ],
   "note": ""
  },
  {
   "property": "C35",
   "status": "proved",
   "theorems": [
    "C35_make",
    "C35_operation",
    "C35_put_allocates",
    "C35_detach_remove",
    "C35_destroy"
   ],
   "note": ""
  },
  {
   "property": "C36",
   "status": "proved",
   "theorems": [
    "C36_least",
    "C36_null_when_empty",
    "C36_null_iff_empty"
   ],
   "note": ""
  },
  {
   "property": "C37",
   "status": "proved",
   "theorems": [
    "C37_multiset",
    "C37_drain"
   ],
   "note": ""
  },
  {
   "property": "C38",
   "status": "proved",
   "theorems": [
    "C38_location"
   ],
   "note": ""
  },
  {
   "property": "C39",
   "status": "proved",
   "theorems": [
    "C39_memory_safe"
   ],
   "note": "For every comparator, legal or not."
  },
  {
   "property": "C40",
   "status": "proved",
   "theorems": [
    "C40_case_cmp",
    "C40_ncase_cmp",
    "C40_order"
   ],
   "note": ""
  },
  {
   "property": "C41",
   "status": "proved",
   "theorems": [
    "C41_chars",
    "C41_strings",
    "C41_substrings"
   ],
   "note": ""
  },
  {
   "property": "C42",
   "status": "partial",
   "theorems": [
    "C42_refuted",
    "C42_classes_partial",
    "C42_misplaced_exact",
    "C42_no_other_bits"
   ],
   "note": "False of the code: five entries of the class table are misplaced (C42_refuted; their content: C42_misplaced_exact). Proved for all other bytes."
  },
  {
   "property": "C43",
   "status": "proved",
   "theorems": [
    "C43_prefix",
    "C43_case_prefix",
    "C43_suffix"
   ],
   "note": ""
  },
  {
   "property": "C44",
   "status": "proved",
   "theorems": [
    "C44_split",
    "C44_into_array"
   ],
   "note": "For delimiters other than NUL."
  },
  {
   "property": "C45",
   "status": "proved",
   "theorems": [
    "C45_split_str",
    "C45_empty_delimiter"
   ],
   "note": "Also what happens with an empty delimiter."
  },
  {
   "property": "C46",
   "status": "partial",
   "theorems": [
    "C46_refuted",
    "C46_atoms_partial",
    "C46_strip_partial",
    "C46_atoms_code",
    "C46_strip_code",
    "C46_strip_null"
   ],
   "note": "False of the code: whitespace is ' ', BS, HT, LF, VT instead of the documented set (C46_refuted). Proved with the documented set for strings without BS, VT, FF, CR, and for all strings with the set the code uses."
  },
  {
   "property": "C47",
   "status": "proved",
   "theorems": [
    "C47_encode",
    "C47_decode"
   ],
   "note": ""
  },
  {
   "property": "C48",
   "status": "partial",
   "theorems": [
    "C48_refuted",
    "C48_accepts_partial",
    "C48_pattern",
    "C48_null"
   ],
   "note": "False of the code: overlong forms are accepted (C48_refuted). Proved: exactly the one- to four-byte patterns of scalar values are accepted, so overlong forms are the only deviation."
  },
  {
   "property": "C49",
   "status": "proved",
   "theorems": [
    "C49_bounded",
    "C49_string",
    "C49_encodings_valid",
    "C49_null"
   ],
   "note": ""
  },
  {
   "property": "C50",
   "status": "proved",
   "theorems": [
    "C50_sanitize",
    "C50_unique"
   ],
   "note": ""
  },
  {
   "property": "C51",
   "status": "proved",
   "theorems": [
    "C51_bounded",
    "C51_null"
   ],
   "note": ""
  },
  {
   "property": "C52",
   "status": "proved",
   "theorems": [
    "C52_round_trip"
   ],
   "note": ""
  },
  {
   "property": "C53",
   "status": "proved",
   "theorems": [
    "C53_encoder",
    "C53_encode",
    "C53_inverse"
   ],
   "note": ""
  },
  {
   "property": "C54",
   "status": "proved",
   "theorems": [
    "C54_decode",
    "C54_unique"
   ],
   "note": ""
  },
  {
   "property": "C55",
   "status": "partial",
   "theorems": [
    "C55_refuted",
    "C55_table_partial"
   ],
   "note": "False of the code for three bytes: double quote, closing bracket, closing brace (C55_refuted). Proved for all others."
  },
  {
   "property": "C56",
   "status": "partial",
   "theorems": [
    "C56_exact",
    "C56_exact_unique",
    "C56_nfd_unique",
    "C56_refuted",
    "C56_decompose_partial",
    "C56_success_partial",
    "C56_no_syllable"
   ],
   "note": "False of the code for Hangul: a syllable whose decomposition does not fit is returned undecomposed (C56_refuted). Proved when the decomposition fits, and for all strings without Hangul syllables; C56_exact says for every string and every amount of space whether the call succeeds and what it writes."
  },
  {
   "property": "C57",
   "status": "partial",
   "theorems": [
    "C57_exact",
    "C57_invalid_exact",
    "C57_refuted",
    "C57_overflow_partial",
    "C57_only_overflow",
    "C57_invalid"
   ],
   "note": "False of the code for Hangul in the same way (C57_refuted). Proved: NULL for a valid string only for lack of space, always NULL for lack of space without Hangul syllables, always NULL for bad UTF-8 (EILSEQ unless space runs out first). C57_exact and C57_invalid_exact say when each error is returned."
  },
  {
   "property": "C58",
   "status": "proved",
   "theorems": [
    "C58_space"
   ],
   "note": ""
  },
  {
   "property": "C59",
   "status": "proved",
   "theorems": [
    "C59_nfc_unique",
    "C59_recompose",
    "C59_nfc",
    "C59_invalid"
   ],
   "note": "For any input the canonical composition algorithm of the standard; for NFD input the result is the NFC."
  },
  {
   "property": "C60",
   "status": "partial",
   "theorems": [
    "C60_refuted",
    "C60_idempotent_partial",
    "C60_round_trip_partial"
   ],
   "note": "False of the code for strings with an overlong NUL (C60_refuted). Proved for all others."
  },
  {
   "property": "C61",
   "status": "proved",
   "theorems": [
    "C61_decomposed",
    "C61_composed"
   ],
   "note": ""
  },
  {
   "property": "C62",
   "status": "proved",
   "theorems": [
    "C62_punycode",
    "C62_punycode_general"
   ],
   "note": ""
  },
  {
   "property": "C63",
   "status": "partial",
   "theorems": [
    "C63_refuted",
    "C63_wellformed_partial"
   ],
   "note": "False of the code: empty labels are accepted (C63_refuted). Proved: the characters, labels of at most 63 characters, names of at most 253 (252 without final dot)."
  },
  {
   "property": "C64",
   "status": "partial",
   "theorems": [
    "C64_refuted_undefined",
    "C64_refuted_abort",
    "C64_safe_partial"
   ],
   "note": "False of the code: a name of ignored codepoints creates a zero-length array (C64_refuted_undefined) and an ASCII label of more than 63 characters next to a non-ASCII label fails an assertion (C64_refuted_abort). C64_safe_partial proves that these are the only cases; C109 says for which names they occur."
  },
  {
   "property": "C65",
   "status": "partial",
   "theorems": [
    "C65_refuted",
    "C65_hyphens_partial"
   ],
   "note": "False of the code: labels other than the last may end with a hyphen (C65_refuted). Proved for the beginning of every label and the end of the name."
  },
  {
   "property": "C66",
   "status": "proved",
   "theorems": [
    "C66_ascii"
   ],
   "note": ""
  },
  {
   "property": "C67",
   "status": "partial",
   "theorems": [
    "C67_file",
    "C67_status_partial",
    "C67_status_refuted",
    "C67_mapping",
    "C67_mapping_outside",
    "C67_mapped",
    "C67_generator"
   ],
   "note": "Mapping proved for every codepoint. Status proved for every codepoint except U+2FA1D, U+3134A and U+E01F0..U+10FFFF, where the claim is false (C67_status_refuted): all predicates return false and charstr_idna_status returns '?'. C67_generator describes the generator exactly for every input file."
  },
  {
   "property": "C68",
   "status": "partial",
   "theorems": [
    "C68_category_partial",
    "C68_unicode_data_partial",
    "C68_unassigned_exact_partial",
    "C68_unassigned_refuted"
   ],
   "note": "False of the code in gaps before a lone codepoint (C68_unassigned_refuted: U+0378 gives Lm). Proved for all assigned codepoints and any data file of the format; C68_unassigned_exact_partial says exactly what unassigned codepoints get."
  },
  {
   "property": "C69",
   "status": "partial",
   "theorems": [
    "C69_fscalloc_partial",
    "C69_refuted",
    "C69_exact"
   ],
   "note": "False of the code: the size multiplication can wrap (C69_refuted; in general: C69_exact). Proved for products below 2^64."
  },
  {
   "property": "C70",
   "status": "proved",
   "theorems": [
    "C70_hash_string",
    "C70_hash_blob",
    "C70_hash_integer_injective",
    "C70_hash_unsigned_injective",
    "C70_hash_integer_value"
   ],
   "note": ""
  },
  {
   "property": "C71",
   "status": "proved",
   "theorems": [
    "C71_dupstr",
    "C71_dupsubstr"
   ],
   "note": ""
  },
  {
   "property": "C72",
   "status": "proved",
   "theorems": [
    "C72_digit_value"
   ],
   "note": ""
  },
  {
   "property": "C73",
   "status": "partial",
   "theorems": [
    "C73_refuted_wrap",
    "C73_refuted_negative",
    "C73_search_mod_partial",
    "C73_refuted_endless",
    "C73_refuted_fill",
    "C73_search_around_partial"
   ],
   "note": "False of the code: word count wraps for the 63 largest sizes; results above INT_MAX become negative; above 2^32-64 a search without a hit (intset_empty of an empty set) never ends, and above 64*(2^32-1) intset_fill never ends. Proved: right modulo 2^32 up to size 2^32-64; above it, the exact result of the search that goes round."
  },
  {
   "property": "C74",
   "status": "partial",
   "theorems": [
    "C74_negative_index_partial",
    "C74_negative_index_refuted",
    "C74_exact"
   ],
   "note": "False of the code for lists of more than INT_MAX elements: the int counter overflows (C74_negative_index_refuted, C74_exact). Proved for all shorter lists."
  },
  {
   "property": "C75",
   "status": "proved",
   "theorems": [
    "C75_lower",
    "C75_upper",
    "C75_idempotent",
    "C75_range",
    "C75_ascii",
    "C75_round_trip"
   ],
   "note": ""
  },
  {
   "property": "C76",
   "status": "partial",
   "theorems": [
    "C76_refuted_room",
    "C76_refuted_long",
    "C76_complete_partial"
   ],
   "note": "False of the code: U+1D160 expands threefold and is rejected (C76_refuted_room), a mapped name of more than 254 UTF-8 bytes is rejected though its encoding is short (C76_refuted_long). C76_complete_partial proves acceptance in all other cases; C109 is the exact condition."
  },
  {
   "property": "C77",
   "status": "partial",
   "theorems": [
    "C77_refuted",
    "C77_invalid_partial"
   ],
   "note": "False of the code: overlong forms are accepted (C77_refuted). Proved for all other invalid strings."
  },
  {
   "property": "C78",
   "status": "partial",
   "theorems": [
    "C78_refuted",
    "C78_mark_partial"
   ],
   "note": "False of the code: nonspacing marks are accepted at the beginning of a label (C78_refuted). Proved for spacing marks (Mc)."
  },
  {
   "property": "C79",
   "status": "partial",
   "theorems": [
    "C79_refuted",
    "C79_refuted_ascii",
    "C79_equivalent_partial"
   ],
   "note": "False of the code where decomposition expands threefold (C79_refuted) and between ASCII and other names (C79_refuted_ascii). Proved for non-ASCII names otherwise."
  },
  {
   "property": "C80",
   "status": "proved",
   "theorems": [
    "C80_fixed"
   ],
   "note": ""
  },
  {
   "property": "C81",
   "status": "partial",
   "theorems": [
    "C81_refuted",
    "C81_injective_partial"
   ],
   "note": "False of the code: labels that already begin with xn-- are accepted (C81_refuted). Proved for names without such labels."
  },
  {
   "property": "C82",
   "status": "partial",
   "theorems": [
    "C82_refuted",
    "C82_normalized_partial"
   ],
   "note": "False of the code: the name is not normalized again after the mapping (C82_refuted). Proved when the mapping changes nothing."
  },
  {
   "property": "C83",
   "status": "proved",
   "theorems": [
    "C83_deterministic"
   ],
   "note": ""
  },
  {
   "property": "C84",
   "status": "proved",
   "theorems": [
    "C84_nfc_verdict",
    "C84_nfd_verdict",
    "C84_decomposed_exact"
   ],
   "note": ""
  },
  {
   "property": "C85",
   "status": "proved",
   "theorems": [
    "C85_nfkc_verdict",
    "C85_nfkd_verdict"
   ],
   "note": ""
  },
  {
   "property": "C86",
   "status": "proved",
   "theorems": [
    "C86_fsalloc",
    "C86_fsfree",
    "C86_fsrealloc",
    "C86_fsrealloc_zero",
    "C86_fsrealloc_null",
    "C86_fscalloc"
   ],
   "note": ""
  },
  {
   "property": "C87",
   "status": "proved",
   "theorems": [
    "C87_calls",
    "C87_initial",
    "C87_balance"
   ],
   "note": ""
  },
  {
   "property": "C88",
   "status": "proved",
   "theorems": [
    "C88_printf",
    "C88_printf_error"
   ],
   "note": "The C library's formatter is abstract: any output or an error."
  },
  {
   "property": "C89",
   "status": "proved",
   "theorems": [
    "C89_decompose",
    "C89_decomposition_equivalent",
    "C89_recomposition_equivalent",
    "C89_recompose",
    "C89_recompose_exists"
   ],
   "note": "Recomposition: for strings without U+0000 (an overlong NUL), when it succeeds; it does unless a character has more than 100 combining characters."
  },
  {
   "property": "C90",
   "status": "proved",
   "theorems": [
    "C90_enqueue",
    "C90_dequeue",
    "C90_remove"
   ],
   "note": "The comparator calls are counted by copies of the functions with a counter, which the theorems show to be the same functions otherwise."
  },
  {
   "property": "C91",
   "status": "proved",
   "theorems": [
    "C91_line",
    "C91_other_line",
    "C91_unambiguous",
    "C91_file",
    "C91_end_to_end",
    "C91_other_status",
    "C91_carriage_return",
    "C91_whitespace",
    "C91_checked"
   ],
   "note": "For lines that end with a newline; with carriage return and newline the status of a line that ends after it is not recognized (C91_carriage_return)."
  },
  {
   "property": "C92",
   "status": "proved",
   "theorems": [
    "C92_combining_class",
    "C92_category",
    "C92_case",
    "C92_decomposition",
    "C92_composite",
    "C92_quick_check",
    "C92_repository"
   ],
   "note": "The format demands ascending codepoints and no carriage returns. That the files of the repository have the formats is checked by tools/check_ucd.py, not by a theorem."
  },
  {
   "property": "C93",
   "status": "proved",
   "theorems": [
    "C93_make",
    "C93_put",
    "C93_get",
    "C93_neighbours",
    "C93_pop",
    "C93_detach",
    "C93_pop_ends",
    "C93_observe",
    "C93_balanced",
    "C93_copy",
    "C93_destroy"
   ],
   "note": "Within one operation the answers are a function of the two keys and the context; they may differ between operations."
  },
  {
   "property": "C94",
   "status": "proved",
   "theorems": [
    "C94_world",
    "C94_released"
   ],
   "note": "The read callback writes to the buffer it is given only and leaves it alone when it delivers nothing."
  },
  {
   "property": "C95",
   "status": "partial",
   "theorems": [
    "C95_refuted",
    "C95_own_bytes_partial",
    "C95_pointers_partial"
   ],
   "note": "False of the code: when the array has to move, the source is in a block that has been freed (C95_refuted). Proved exactly when it works, and exactly as long as a pointer stays valid."
  },
  {
   "property": "C96",
   "status": "proved",
   "theorems": [
    "C96_storage"
   ],
   "note": "The reallocations are recorded by the model's allocator, in a list the code does not read."
  },
  {
   "property": "C97",
   "status": "proved",
   "theorems": [
    "C97_make",
    "C97_put",
    "C97_get_pop",
    "C97_detach",
    "C97_pop_any",
    "C97_observe",
    "C97_destroy"
   ],
   "note": "Within one operation the answers are functions of the keys; they may differ between operations."
  },
  {
   "property": "C98",
   "status": "partial",
   "theorems": [
    "C98_content_partial",
    "C98_misplaced",
    "C98_locators_partial",
    "C98_refuted"
   ],
   "note": "False of the code in one case (C98_refuted): removing the element of the last slot when the function puts it before the element above it. The _partial theorems cover everything else, C98_misplaced says exactly what happens in that case."
  },
  {
   "property": "C99",
   "status": "partial",
   "theorems": [
    "C99_order_partial",
    "C99_update_partial",
    "C99_lost",
    "C99_refuted"
   ],
   "note": "False of the code (C99_refuted): an element of the last slot whose priority has been raised stays queued when it is removed, and another element is lost. The _partial theorems cover every other slot and every change that does not put the element before another; C99_lost is the exact effect of the rest."
  },
  {
   "property": "C100",
   "status": "proved",
   "theorems": [
    "C100_split",
    "C100_atoms",
    "C100_split_str",
    "C100_split_str_empty",
    "C100_into_array",
    "C100_release"
   ],
   "note": "All four splitting functions on the heap; C100_release frees what they return."
  },
  {
   "property": "C101",
   "status": "proved",
   "theorems": [
    "C101_memory",
    "C101_release"
   ],
   "note": "All paths of charstr_idna_encode, with the work areas on the heap."
  },
  {
   "property": "C102",
   "status": "proved",
   "theorems": [
    "C102_call",
    "C102_memory",
    "C102_released",
    "C102_independent"
   ],
   "note": "C102_call and C102_memory for lawful programs, in terms of sets, multisets and byte sequences; C102_independent for all programs without undefined behaviour."
  },
  {
   "property": "C103",
   "status": "partial",
   "theorems": [
    "C103_refuted",
    "C103_refuted_wraps",
    "C103_defined_partial",
    "C103_range_partial"
   ],
   "note": "False in general (C103_refuted: out-of-bounds read at 1600-02-29, signed overflow in the year 5 881 210; C103_refuted_wraps: dates repeat after 2^32 days). C103_defined_partial says exactly for which integers it is defined."
  },
  {
   "property": "C104",
   "status": "partial",
   "theorems": [
    "C104_refuted",
    "C104_foreach_partial",
    "C104_visits_partial",
    "C104_looking_back_partial",
    "C104_worklist_partial",
    "C104_removing_loop"
   ],
   "note": "False if the callback removes the current element (C104_refuted: read of a freed element, for every such callback). Every other change is covered by C104_foreach_partial and C104_visits_partial; C104_removing_loop is the part about loops, in full."
  },
  {
   "property": "C105",
   "status": "proved",
   "theorems": [
    "C105_tree_remove",
    "C105_tree_drain",
    "C105_table_remove",
    "C105_table_drain"
   ],
   "note": "In full, for tables and trees. (include/hashtable.h does not promise that an element stays valid while others are removed; the code keeps it.)"
  },
  {
   "property": "C106",
   "status": "partial",
   "theorems": [
    "C106_tree_partial",
    "C106_refuted",
    "C106_table_partial"
   ],
   "note": "True of AVL trees (C106_tree_partial). False of hash tables: with two keys in one bucket and a function without fixed points the loop never ends (C106_refuted, for every such table). C106_table_partial covers tables without collisions and idempotent functions."
  },
  {
   "property": "C107",
   "status": "proved",
   "theorems": [
    "C107_put",
    "C107_detach",
    "C107_copy",
    "C107_destroy"
   ],
   "note": "In full, with the depth as an argument of the functions of the model."
  },
  {
   "property": "C108",
   "status": "proved",
   "theorems": [
    "C108_same",
    "C108_get",
    "C108_pop",
    "C108_put",
    "C108_count",
    "C108_any"
   ],
   "note": "In full, for functions that record the keys they compare; that the hash function is called once is how the functions are defined."
  },
  {
   "property": "C109",
   "status": "proved",
   "theorems": [
    "C109_encoded",
    "C109_aborts",
    "C109_undefined",
    "C109_refused",
    "C109_unique"
   ],
   "note": "In full: the four outcomes (an encoding, NULL, abort, undefined behaviour) are each characterized by an equivalence."
  },
  {
   "property": "C110",
   "status": "proved",
   "theorems": [
    "C110_valid",
    "C110_any",
    "C110_flags",
    "C110_class"
   ],
   "note": "In full, for all four forms and for invalid strings as well."
  },
  {
   "property": "C111",
   "status": "proved",
   "theorems": [
    "C111_intact",
    "C111_apart",
    "C111_memory",
    "C111_released",
    "C111_make",
    "C111_list",
    "C111_table",
    "C111_tree",
    "C111_others",
    "C111_make_string",
    "C111_string",
    "C111_split"
   ],
   "note": "For all programs of makes, actions and destroys. The strings are those of C100 and C117, except for charstr_split_into_array; a list of strings and its strings are separate things. Data for byte arrays comes from the caller (C102 has data from other byte arrays)."
  },
  {
   "property": "C112",
   "status": "partial",
   "theorems": [
    "C112_refuted",
    "C112_made_partial"
   ],
   "note": "False at 0: the NUL is written to a block of no bytes, undefined in every memory (C112_refuted). All other sizes are proved (C112_made_partial)."
  },
  {
   "property": "C113",
   "status": "proved",
   "theorems": [
    "C113_storage",
    "C113_goes_on"
   ],
   "note": "For all histories and all comparison functions; n + 1 < 2^60 so that the size of the storage in bytes fits."
  },
  {
   "property": "C114",
   "status": "proved",
   "theorems": [
    "C114_same",
    "C114_traversal",
    "C114_step",
    "C114_ends"
   ],
   "note": "The links are counted by copies of the functions that are proved to be the functions of the model (C114_same)."
  },
  {
   "property": "C115",
   "status": "proved",
   "theorems": [
    "C115_same",
    "C115_traversal"
   ],
   "note": "The slots are recorded by copies of the functions that are proved to be the functions of the model (C115_same)."
  },
  {
   "property": "C116",
   "status": "proved",
   "theorems": [
    "C116_create",
    "C116_encode",
    "C116_static",
    "C116_byte",
    "C116_destroy"
   ],
   "note": "The table is modelled as one block of 1024 bytes, and every access as one to a byte of it."
  },
  {
   "property": "C117",
   "status": "proved",
   "theorems": [
    "C117_dupstr",
    "C117_dupsubstr",
    "C117_strip",
    "C117_null",
    "C117_sanitize",
    "C117_url_decode",
    "C117_base64_encode",
    "C117_base64_decode",
    "C117_release"
   ],
   "note": "The content of the block is that of the models of C04, C46, C50, C54 and C71; strings of fewer than 2^60 bytes for the Base64 functions."
  },
  {
   "property": "C118",
   "status": "proved",
   "theorems": [
    "C118_line",
    "C118_other_line",
    "C118_any_line",
    "C118_file",
    "C118_fits"
   ],
   "note": "The line buffer of getline(3) is modelled as a new block for each line. Lines on which an assertion of the generator fails are outside."
  },
  {
   "property": "C119",
   "status": "proved",
   "theorems": [
    "C119_decompose",
    "C119_decompose_tight",
    "C119_idna_encode",
    "C119_idna_encode_fits",
    "C119_idna_encode_tight"
   ],
   "note": "The functions are written a second time with limits for the number of elements of local arrays and for the depth of the recursion, and proved equal to those without limits; smaller limits are refuted. The bytes of a stack frame are not modelled. The recursion of AVL trees is bounded by C107."
  },
  {
   "property": "C120",
   "status": "partial",
   "theorems": [
    "C120_encoding",
    "C120_refuted",
    "C120_decoding_partial",
    "C120_inverse_partial"
   ],
   "note": "A comma is missing in the decoding table: the entries of DEL and of the byte 0xFF are wrong (C120_refuted). All others are right, and on them the tables are inverse to each other."
  },
  {
   "property": "C121",
   "status": "partial",
   "theorems": [
    "C121_same",
    "C121_refuted_family",
    "C121_refuted",
    "C121_quadratic_partial",
    "C121_linear_partial"
   ],
   "note": "False: strings with many combining characters in the wrong order take time quadratic in their length (C121_refuted_family), so no linear bound holds (C121_refuted). charstr_idna_encode normalizes host names before it checks their length. Quadratic time is an upper bound for all strings (C121_quadratic_partial), and the time is linear for strings without long sequences of combining characters (C121_linear_partial). The functions with costs are the same functions (C121_same)."
  },
  {
   "property": "C122",
   "status": "proved",
   "theorems": [
    "C122_same",
    "C122_linear"
   ],
   "note": "The constant is 102, because no more than 100 combining characters are kept (longer sequences are refused with ENOBUFS, C59). The functions with costs are the same functions (C122_same)."
  },
  {
   "property": "C123",
   "status": "proved",
   "theorems": [
    "C123_once",
    "C123_end",
    "C123_no_terminate",
    "C123_reset_default"
   ],
   "note": "For programs that end normally (C123_once, C123_end). A smart pointer that was declared without make_..._ptr or has been moved from may have an empty deleter; handing it an object with reset() ends the program (C123_reset_default), and nothing else does (C123_no_terminate). std::unique_ptr and std::function are modelled from the C++ standard."
  },
  {
   "property": "C124",
   "status": "proved",
   "theorems": [
    "C124_isolated",
    "C124_race_free",
    "C124_ends",
    "C124_looks",
    "C124_changes",
    "C124_workers"
   ],
   "note": "A program is a tree of calls of functions of the model; each has a description access by access (C124_looks for those that only look, C124_changes) with the same effect. Memory is sequentially consistent, which is no restriction because there are no data races (C124_race_free). Allocation and release are atomic. Not covered: list_copy, avl_tree_copy, list_foreach and appending the bytes of a shared byte array: calls that look at a shared object and change own memory at once."
  },
  {
   "property": "C125",
   "status": "proved",
   "theorems": [
    "C125_tree",
    "C125_table"
   ],
   "note": "The histories of C23-C35 (and of all theorems that use them) contain such changes (AH_reorder, HH_change), so all those theorems hold after them, too. C125_tree_needed: where keys in the tree have changed places, a lookup misses."
  },
  {
   "property": "C126",
   "status": "proved",
   "theorems": [
    "C126_make",
    "C126_prime",
    "C126_kept",
    "C126_spread",
    "C126_integers"
   ],
   "note": "C126_needed: with a step that is a multiple of the number of slots all keys collide. Tables for more than 1610612741 keys have 1610612741 slots."
  },
  {
   "property": "C127",
   "status": "partial",
   "theorems": [
    "C127_encode",
    "C127_decode",
    "C127_signed",
    "C127_partial",
    "C127_encode_default",
    "C127_decode_default_refuted",
    "C127_round_trip_refuted",
    "C127_hash",
    "C127_hash_ascii_partial",
    "C127_hash_refuted",
    "C127_chars",
    "C127_strings",
    "C127_url"
   ],
   "note": "False for Base64 with the default characters: where char is unsigned, (char) -1 is 255, which the test for -1 does not recognise. Standard Base64 with '+' or '/' is then rejected, and data is changed by encoding and decoding (C127_round_trip_refuted). hash_string differs for strings that are not ASCII (C127_hash_refuted). Exact behaviour on both platforms: C127_encode, C127_decode, C127_hash. The rest is proved in full."
  },
  {
   "property": "C128",
   "status": "proved",
   "theorems": [
    "C128_base64_encode",
    "C128_base64_stream",
    "C128_base64_decode",
    "C128_url_encode",
    "C128_url_decode",
    "C128_utf8_valid",
    "C128_utf8_sanitize",
    "C128_split",
    "C128_atoms",
    "C128_compare"
   ],
   "note": "C128_needed: UTF-8 cut inside a character."
  },
  {
   "property": "C129",
   "status": "partial",
   "theorems": [
    "C129_64_bits",
    "C129_url_encode",
    "C129_url_encode_default",
    "C129_url_encode_refuted",
    "C129_sanitize",
    "C129_sanitize_refuted",
    "C129_url_decode",
    "C129_base64_size",
    "C129_intset_partial",
    "C129_intset_refuted",
    "C129_byte_array"
   ],
   "note": "False for URL encoding and sanitizing: the size of the result can exceed SIZE_MAX for a string that fits in less than half of the address space, and then memory beyond the block is written (C129_url_encode_refuted, C129_sanitize_refuted; exact condition: C129_url_encode, C129_url_encode_default, C129_sanitize). False for sets with a size above SIZE_MAX + 1 - LONG_BIT, which is possible for the elements of a set where size_t has 32 bits (C129_intset_refuted; all other sizes: C129_intset_partial). The rest is proved in full."
  },
  {
   "property": "C130",
   "status": "partial",
   "theorems": [
    "C130_refuted",
    "C130_callback_partial",
    "C130_moved",
    "C130_destroyed",
    "C130_simple"
   ],
   "note": "False if the callback makes the array move (bytes go to freed memory: C130_refuted, C130_moved), destroys it (C130_destroyed) or changes its length in place (bytes go to the wrong place: second part of C130_refuted). C130_callback_partial: it holds for any operations on other arrays, and for those on the array itself that leave its length and its place."
  },
  {
   "property": "C131",
   "status": "proved",
   "theorems": [
    "C131_url",
    "C131_base64",
    "C131_simple",
    "C131_arrays"
   ],
   "note": "fsalloc is taken to leave errno alone when it succeeds."
  },
  {
   "property": "C132",
   "status": "proved",
   "theorems": [
    "C132_date_test_exact",
    "C132_date_test",
    "C132_date_years",
    "C132_idna_test",
    "C132_idna_test_ascii",
    "C132_idna_one_verdict",
    "C132_normalization_file",
    "C132_avltest",
    "C132_priorq_test",
    "C132_priorq_perf",
    "C132_priorq_perf_queues",
    "C132_intset_test",
    "C132_base64_test",
    "C132_normalization_test"
   ],
   "note": "The programs of test/ that work on concrete data only (bytearray_test.c, charstr_test.c, float_test.c) are not included. The columns in the file of charstr_normalization_test.c have normal forms that fit its arrays. The limit on the height in avltest.c is computed with doubles there and with integers here."
  },
  {
   "property": "C133",
   "status": "partial",
   "theorems": [
    "C133_leak_refuted",
    "C133_use_after_free_refuted",
    "C133_race_refuted",
    "C133_locked_partial"
   ],
   "note": "False: the counter is changed by a plain read and write (C133_race_refuted). Two threads that give up the last two references may leave the array allocated for ever (C133_leak_refuted), and an array may be freed while a thread has a reference (C133_use_after_free_refuted). C133_locked_partial: true if only one thread at a time is in a call, for any number of threads and any order of the calls."
  },
  {
   "property": "C134",
   "status": "proved",
   "theorems": [
    "C134_lists",
    "C134_tables",
    "C134_trees",
    "C134_sets",
    "C134_queues",
    "C134_bytes"
   ],
   "note": "Each function has the same effect, in every state of the memory, as a sequence of at most so many accesses. An access to a block counts as one; allocation and release count as one, as the allocator is not part of the library."
  },
  {
   "property": "C135",
   "status": "proved",
   "theorems": [
    "C135_make",
    "C135_get",
    "C135_put_new",
    "C135_put_same",
    "C135_put_replace",
    "C135_pop",
    "C135_pop_none",
    "C135_detach",
    "C135_remove",
    "C135_pop_any",
    "C135_look",
    "C135_keys",
    "C135_destroy",
    "C135_strings",
    "C135_equal_strings",
    "C135_c_string"
   ],
   "note": "The callbacks are functions on the heap; a key is the address of a block with contents that the callbacks can read. The callbacks change no memory. strcmp is written from the C standard. The example shows that a key that is altered in place is lost."
  },
  {
   "property": "C136",
   "status": "proved",
   "theorems": [
    "C136_make",
    "C136_get",
    "C136_neighbours",
    "C136_place",
    "C136_put_new",
    "C136_put_replace",
    "C136_pop",
    "C136_pop_none",
    "C136_detach",
    "C136_remove",
    "C136_pop_first",
    "C136_pop_last",
    "C136_look",
    "C136_keys",
    "C136_copy",
    "C136_destroy",
    "C136_strings",
    "C136_dictionary"
   ],
   "note": "The callback is a function on the heap; a key is the address of a block with contents that the callback can read. The callback changes no memory. strcmp is written from the C standard. The example shows that a key that is altered in place is lost."
  },
  {
   "property": "C137",
   "status": "proved",
   "theorems": [
    "C137_make",
    "C137_enqueue",
    "C137_dequeue",
    "C137_pop",
    "C137_remove",
    "C137_locators",
    "C137_look",
    "C137_drain",
    "C137_move",
    "C137_destroy",
    "C137_timers"
   ],
   "note": "Both callbacks are functions on the heap; an element is the address of a block that the comparison can read and reloc can write. An element is in the queue at most once. Fewer than 2^60 elements. The theorems are about queues with a reloc function; those without are in C36-C39."
  },
  {
   "property": "C138",
   "status": "proved",
   "theorems": [
    "C138_order",
    "C138_total",
    "C138_different"
   ],
   "note": ""
  },
  {
   "property": "C139",
   "status": "proved",
   "theorems": [
    "C139_split",
    "C139_split_into_array",
    "C139_split_str",
    "C139_split_atoms",
    "C139_strip",
    "C139_prefix",
    "C139_case",
    "C139_case_cmp",
    "C139_order"
   ],
   "note": ""
  },
  {
   "property": "C140",
   "status": "proved",
   "theorems": [
    "C140_fields",
    "C140_records",
    "C140_reserved",
    "C140_default"
   ],
   "note": ""
  },
  {
   "property": "C141",
   "status": "partial",
   "theorems": [
    "C141_ascii",
    "C141_refuted",
    "C141_other_partial",
    "C141_composed_partial"
   ],
   "note": "False of the code: H with U+0331 is xn--h-oeb, h with U+0331 is xn--ckg (C141_refuted), since the mapped name is not normalized again. Proved for ASCII names, and for others if their NFC forms differ only in the case of ASCII letters (with the exceptions of C79), or if charstr_unicode_canonically_composed says of one of them that it is composed."
  },
  {
   "property": "C142",
   "status": "partial",
   "theorems": [
    "C142_refuted",
    "C142_parent_partial",
    "C142_joined_partial",
    "C142_host_partial",
    "C142_ascii"
   ],
   "note": "False of the code: U+4E00 . U+1D160 is encoded, but U+1D160 is not (C142_refuted), since the space for decomposition depends on the size of the whole name. Proved for ASCII names, and for others if charstr_unicode_canonically_composed says of both parts that they are composed and the encoding does not end in a dot; conversely, composed names that are encoded can be joined while they are short enough."
  }
 ]
}