{
 "claims": [
  {
   "property": "C01",
   "status": "proved",
   "theorems": [
    "C01_toUcs4_of_utf8"
   ],
   "note": ""
  },
  {
   "property": "C02",
   "status": "proved",
   "theorems": [
    "C02_toUtf16_of_utf8"
   ],
   "note": ""
  },
  {
   "property": "C03",
   "status": "proved",
   "theorems": [
    "C03_toUcs2_of_utf8"
   ],
   "note": ""
  },
  {
   "property": "C04",
   "status": "proved",
   "theorems": [
    "C04_toUtf8_of_ucs4"
   ],
   "note": ""
  },
  {
   "property": "C05",
   "status": "proved",
   "theorems": [
    "C05_toUtf16_of_ucs4"
   ],
   "note": ""
  },
  {
   "property": "C06",
   "status": "proved",
   "theorems": [
    "C06_toUcs2_of_ucs4"
   ],
   "note": ""
  },
  {
   "property": "C07",
   "status": "proved",
   "theorems": [
    "C07_toUcs4_of_utf16"
   ],
   "note": ""
  },
  {
   "property": "C08",
   "status": "partial",
   "theorems": [
    "C08_toUtf8_of_utf16_refuted",
    "C08_toUtf8_of_utf16_partial"
   ],
   "note": "False as stated: a lone low surrogate is not rejected (C08_..._refuted). The partial theorem is the exact characterisation of what toUtf8(char16_t*) returns on every input."
  },
  {
   "property": "C09",
   "status": "proved",
   "theorems": [
    "C09_ucs4_utf8_ucs4"
   ],
   "note": ""
  },
  {
   "property": "C10",
   "status": "proved",
   "theorems": [
    "C10_ucs4_utf16_ucs4"
   ],
   "note": ""
  },
  {
   "property": "C11",
   "status": "proved",
   "theorems": [
    "C11_utf16_utf8_utf16",
    "C11_utf16_ucs4_utf16"
   ],
   "note": ""
  },
  {
   "property": "C12",
   "status": "proved",
   "theorems": [
    "C12_utf8_ucs4_utf8",
    "C12_utf8_normalised"
   ],
   "note": ""
  },
  {
   "property": "C13",
   "status": "partial",
   "theorems": [
    "C13_outputs_valid_refuted",
    "C13_outputs_valid_partial"
   ],
   "note": "False as stated, because of C08. The partial theorem covers every to-function on every input except toUtf8(char16_t*) on text with a lone low surrogate."
  },
  {
   "property": "C14",
   "status": "partial",
   "theorems": [
    "C14_documented_range_refuted",
    "C14_documented_tail_refuted",
    "C14_exact_answer_partial",
    "C14_accepts_documented_partial",
    "C14_whole_texts_partial"
   ],
   "note": "False as stated: target kUtf16 accepts values above 0x10FFFF and some ignored tails cannot be completed (C14_..._refuted). C14_exact_answer_partial is the exact verdict on every input; the others give the part of the documented meaning that holds."
  },
  {
   "property": "C15",
   "status": "proved",
   "theorems": [
    "C15_exact_answer"
   ],
   "note": ""
  },
  {
   "property": "C16",
   "status": "proved",
   "theorems": [
    "C16_exact_answer"
   ],
   "note": ""
  },
  {
   "property": "C17",
   "status": "partial",
   "theorems": [
    "C17_documented_range_refuted",
    "C17_exact_answer_partial",
    "C17_other_targets_partial"
   ],
   "note": "False as stated for target kUtf16, which accepts values above 0x10FFFF (C17_..._refuted). C17_exact_answer_partial is the exact verdict for every target; the documented meaning holds for the other four (C17_other_targets_partial)."
  },
  {
   "property": "C18",
   "status": "partial",
   "theorems": [
    "C18_utf8_source_refuted",
    "C18_ucs4_source_refuted",
    "C18_from_utf8_partial",
    "C18_from_utf16",
    "C18_from_ucs2",
    "C18_from_ucs4_partial"
   ],
   "note": "False as stated for UTF-8 and UCS-4 sources with target kUtf16 (C18_..._refuted); proved for UTF-16 and UCS-2 sources, and for the others on text up to 0x10FFFF or any other target."
  },
  {
   "property": "C19",
   "status": "proved",
   "theorems": [
    "C19_nesting_utf8",
    "C19_nesting_utf16",
    "C19_nesting_ucs2",
    "C19_nesting_ucs4"
   ],
   "note": ""
  },
  {
   "property": "C20",
   "status": "proved",
   "theorems": [
    "C20_invalid_target",
    "C20_empty_accepted"
   ],
   "note": ""
  },
  {
   "property": "C21",
   "status": "proved",
   "theorems": [
    "C21_is_functions",
    "C21_to_functions",
    "C21_lengths"
   ],
   "note": ""
  },
  {
   "property": "C22",
   "status": "proved",
   "theorems": [
    "C22_is_functions",
    "C22_to_functions",
    "C22_lengths",
    "C22_toLower",
    "C22_toLower_ucs4"
   ],
   "note": ""
  },
  {
   "property": "C23",
   "status": "partial",
   "theorems": [
    "C23_unicodeLength_refuted",
    "C23_wide_refuted",
    "C23_is_functions_partial",
    "C23_to_functions_partial",
    "C23_bounded_partial",
    "C23_wide_partial"
   ],
   "note": "False for the char16_t and char32_t forms of unicodeLength and for five wchar_t conversions, which use a null pointer (C23_..._refuted); the partial theorems cover all other functions, so together every entry point is settled."
  },
  {
   "property": "C24",
   "status": "partial",
   "theorems": [
    "C24_stays_inside_refuted",
    "C24_over_read_partial"
   ],
   "note": "False: one byte behind the n may be read (C24_stays_inside_refuted). C24_over_read_partial states exactly when; C26_exact_answer_partial shows the byte never matters."
  },
  {
   "property": "C25",
   "status": "partial",
   "theorems": [
    "C25_utf8_refuted",
    "C25_utf16_refuted",
    "C25_utf8_partial",
    "C25_utf16_partial",
    "C25_ucs4"
   ],
   "note": "False for char and char16_t (C25_..._refuted), proved for char32_t; the partial theorems state exactly when the element behind the n is read."
  },
  {
   "property": "C26",
   "status": "partial",
   "theorems": [
    "C26_too_lax_refuted",
    "C26_too_strict_refuted",
    "C26_exact_answer_partial",
    "C26_exact_answer_alone_partial",
    "C26_agrees_partial"
   ],
   "note": "False in both directions (C26_..._refuted). The exact verdict on arbitrary bytes is proved, and agreement with the NUL-terminated call on well-formed text cut anywhere."
  },
  {
   "property": "C27",
   "status": "proved",
   "theorems": [
    "C27_counts"
   ],
   "note": ""
  },
  {
   "property": "C28",
   "status": "partial",
   "theorems": [
    "C28_utf8_refuted",
    "C28_utf16_refuted",
    "C28_utf8_partial",
    "C28_utf16_partial"
   ],
   "note": "False (C28_..._refuted): the count is one too small, 2^32 - 1 if nothing precedes the tail. The partial theorems give the exact result on every incomplete tail."
  },
  {
   "property": "C29",
   "status": "proved",
   "theorems": [
    "C29_counts"
   ],
   "note": ""
  },
  {
   "property": "C30",
   "status": "proved",
   "theorems": [
    "C30_counts"
   ],
   "note": ""
  },
  {
   "property": "C31",
   "status": "partial",
   "theorems": [
    "C31_zero_refuted",
    "C31_malformed_refuted",
    "C31_utf8_cut_partial",
    "C31_utf16_cut_partial",
    "C31_utf8_exact_partial",
    "C31_utf16_exact_partial",
    "C31_ucs4"
   ],
   "note": "Cut text is counted as stated; false for a zero inside a sequence and for a stray continuation byte (C31_..._refuted). Exact results on arbitrary elements are proved for all three widths."
  },
  {
   "property": "C32",
   "status": "proved",
   "theorems": [
    "C32_utf8",
    "C32_utf16",
    "C32_across"
   ],
   "note": ""
  },
  {
   "property": "C33",
   "status": "proved",
   "theorems": [
    "C33_chain_is_conjunction",
    "C33_chain_general",
    "C33_inconsistent_chain_refuted"
   ],
   "note": "Proved for all chains without a class both required and forbidden (the proviso of the property); C33_chain_general gives the exact meaning of every chain, and C33_inconsistent_chain_refuted shows the proviso is needed."
  },
  {
   "property": "C34",
   "status": "proved",
   "theorems": [
    "C34_no_check",
    "C34_out_of_range"
   ],
   "note": ""
  },
  {
   "property": "C35",
   "status": "proved",
   "theorems": [
    "C35_equality",
    "C35_equivalence",
    "C35_equal_accept_the_same",
    "C35_equal_to_default"
   ],
   "note": ""
  },
  {
   "property": "C36",
   "status": "proved",
   "theorems": [
    "C36_classes_match_data",
    "C36_overloads_agree"
   ],
   "note": ""
  },
  {
   "property": "C37",
   "status": "partial",
   "theorems": [
    "C37_utf8",
    "C37_ucs2",
    "C37_ucs4",
    "C37_utf16_refuted",
    "C37_utf16_first_units_partial",
    "C37_utf16_bmp_partial"
   ],
   "note": "False for UTF-16: the predicate sees the high surrogate instead of the code point (C37_utf16_refuted). Proved for UTF-8, UCS-2 and UCS-4; the UTF-16 partial theorems are exact."
  },
  {
   "property": "C38",
   "status": "partial",
   "theorems": [
    "C38_utf16_differs_refuted",
    "C38_utf8_ucs4",
    "C38_utf16_no_predicate_partial",
    "C38_basic_plane_partial"
   ],
   "note": "False as soon as UTF-16 text has a surrogate pair and a predicate is given (C38_..._refuted); proved for UTF-8 against UCS-4, for UTF-16 without a predicate and for text of the basic plane."
  },
  {
   "property": "C39",
   "status": "proved",
   "theorems": [
    "C39_pointwise",
    "C39_depends_on_turkic_only",
    "C39_concatenation"
   ],
   "note": ""
  },
  {
   "property": "C40",
   "status": "partial",
   "theorems": [
    "C40_lower_matches_data_refuted",
    "C40_lower_matches_data_partial"
   ],
   "note": "False as stated in every version (C40_..._refuted: U+00D7). The partial theorem is exact: it lists, for each version, precisely the code points that depart from UnicodeData.txt and what they are mapped to."
  },
  {
   "property": "C41",
   "status": "proved",
   "theorems": [
    "C41_idempotent",
    "C41_idempotent_utf8",
    "C41_idempotent_utf16"
   ],
   "note": ""
  },
  {
   "property": "C42",
   "status": "proved",
   "theorems": [
    "C42_capital_i",
    "C42_otherwise_equal"
   ],
   "note": ""
  },
  {
   "property": "C43",
   "status": "proved",
   "theorems": [
    "C43_utf8",
    "C43_utf8_malformed",
    "C43_utf16",
    "C43_utf16_malformed"
   ],
   "note": ""
  },
  {
   "property": "C44",
   "status": "proved",
   "theorems": [
    "C44_scalars_stay_scalars",
    "C44_high_values_unchanged",
    "C44_zero_only_from_zero"
   ],
   "note": ""
  },
  {
   "property": "C45",
   "status": "partial",
   "theorems": [
    "C45_join_split_partial",
    "C45_zero_partial",
    "C45_zero_refuted",
    "C45_overflow_refuted"
   ],
   "note": "False as stated for d = 0 (join appends nothing for it) and for 2^31 or more delimiters, whose int count overflows (C45_..._refuted). Proved for every other s and d; C45_zero_partial gives the exact result for d = 0."
  },
  {
   "property": "C46",
   "status": "partial",
   "theorems": [
    "C46_split_partial",
    "C46_only_cut",
    "C46_empty",
    "C46_overflow_partial"
   ],
   "note": "Proved for fewer than 2^31 delimiters; from 2^31 on the signed counter overflows (C46_overflow_partial, C45_overflow_refuted)."
  },
  {
   "property": "C47",
   "status": "partial",
   "theorems": [
    "C47_split_join_partial",
    "C47_overflow_refuted"
   ],
   "note": "Proved for at most 2^31 pieces; beyond that split's signed counter overflows (C47_overflow_refuted)."
  },
  {
   "property": "C48",
   "status": "partial",
   "theorems": [
    "C48_join_partial",
    "C48_zero_partial",
    "C48_zero_refuted"
   ],
   "note": "False for d = 0 (C48_zero_refuted), where the pieces are just concatenated (C48_zero_partial); proved for every other d."
  },
  {
   "property": "C49",
   "status": "proved",
   "theorems": [
    "C49_trim",
    "C49_trim_set",
    "C49_ascii",
    "C49_white_space",
    "C49_unique",
    "C49_all_blank",
    "C49_front_unique"
   ],
   "note": ""
  },
  {
   "property": "C50",
   "status": "proved",
   "theorems": [
    "C50_utf16",
    "C50_utf8",
    "C50_utf8_malformed"
   ],
   "note": ""
  },
  {
   "property": "C51",
   "status": "proved",
   "theorems": [
    "C51_trim",
    "C51_trim_set",
    "C51_ascii",
    "C51_white_space_32",
    "C51_white_space_16",
    "C51_white_space_8"
   ],
   "note": ""
  },
  {
   "property": "C52",
   "status": "partial",
   "theorems": [
    "C52_exact_partial",
    "C52_left_alone_partial",
    "C52_all_blanks_refuted"
   ],
   "note": "False in every version (C52_all_blanks_refuted). C52_exact_partial: exactly the White_Space code points other than 0x0B, 0x0C, 0x85, 0x1680, 0x2028 and 0x2029 are trimmed."
  },
  {
   "property": "C53",
   "status": "proved",
   "theorems": [
    "C53_cp1252",
    "C53_cp1250",
    "C53_cp1252_assigned",
    "C53_cp1250_assigned",
    "C53_cp1252_unassigned",
    "C53_cp1250_unassigned",
    "C53_unicode",
    "C53_other"
   ],
   "note": ""
  },
  {
   "property": "C54",
   "status": "proved",
   "theorems": [
    "C54_cp1252_valid",
    "C54_cp1250_valid",
    "C54_cp1252_injective",
    "C54_cp1250_injective"
   ],
   "note": ""
  },
  {
   "property": "C55",
   "status": "proved",
   "theorems": [
    "C55_w32_checks",
    "C55_w32_to",
    "C55_w32_copies",
    "C55_w32_from_utf8",
    "C55_w32_from_utf16",
    "C55_w32_inverse",
    "C55_w16_checks",
    "C55_w16_to",
    "C55_w16_copies",
    "C55_w16_ucs2",
    "C55_w16_from_utf8",
    "C55_w16_from_ucs4",
    "C55_w16_inverse"
   ],
   "note": "Every wchar_t entry point is characterised on every NUL-terminated string, for both widths. w16_toUtf8 shares the leniency of C08."
  },
  {
   "property": "C56",
   "status": "partial",
   "theorems": [
    "C56_w32_utf8",
    "C56_w32_utf16",
    "C56_w32_ucs4",
    "C56_w16_utf8_partial",
    "C56_w16_utf16_partial",
    "C56_w16_ucs4_partial",
    "C56_w16_big_refuted",
    "C56_w16_tail_refuted"
   ],
   "note": "Proved for 32-bit wchar_t. False for 16 bits: values above 0x10FFFF pass isWstring but not toWstring, and a lone final high surrogate is copied (C56_..._refuted). The partial theorems are exact."
  },
  {
   "property": "C57",
   "status": "proved",
   "theorems": [
    "C57_version"
   ],
   "note": ""
  },
  {
   "property": "C58",
   "status": "proved",
   "theorems": [
    "C58_checks_of_concatenation",
    "C58_conversions_of_concatenation"
   ],
   "note": ""
  },
  {
   "property": "C59",
   "status": "proved",
   "theorems": [
    "C59_ascii_accepted",
    "C59_ascii_converts"
   ],
   "note": ""
  },
  {
   "property": "C60",
   "status": "proved",
   "theorems": [
    "C60_utf8_injective_and_ordered",
    "C60_utf16_injective"
   ],
   "note": ""
  },
  {
   "property": "C61",
   "status": "partial",
   "theorems": [
    "C61_only_completable_tails_refuted",
    "C61_completable_tails_ignored_partial"
   ],
   "note": "False as stated (C61_..._refuted); completable tails are all ignored (partial), but some tails that cannot be completed are ignored too."
  },
  {
   "property": "C62",
   "status": "partial",
   "theorems": [
    "C62_utf8",
    "C62_utf16",
    "C62_ucs2",
    "C62_ucs4",
    "C62_utf8_converts",
    "C62_utf8_rejects",
    "C62_utf8_predicate",
    "C62_utf16_predicate_partial",
    "C62_ucs2_predicate",
    "C62_ucs4_predicate"
   ],
   "note": "Proved for UTF-8, UCS-2, UCS-4 and for UTF-16 without a predicate; with a predicate UTF-16 asks it about the high surrogate (C37_utf16_refuted), stated exactly in C62_utf16_predicate_partial."
  },
  {
   "property": "C63",
   "status": "partial",
   "theorems": [
    "C63_checks",
    "C63_toUtf8_partial",
    "C63_null_refuted"
   ],
   "note": "Proved for every string; false for a null pointer, which toUtf8 copies from (C63_null_refuted)."
  },
  {
   "property": "C64",
   "status": "partial",
   "theorems": [
    "C64_mbcs_utf8_partial",
    "C64_mbcs_utf16_partial",
    "C64_mbcs_ucs4_partial",
    "C64_unicode_utf8_partial",
    "C64_unicode_utf16_partial",
    "C64_unicode_ucs4_partial",
    "C64_mbcs_refuted",
    "C64_unicode_refuted",
    "C64_unchecked_refuted"
   ],
   "note": "False for both builds (C64_..._refuted): _MBCS converts ASCII only although isTstring accepts more, _UNICODE drops values above 0x10FFFF and does not check UTF-16 at all. The partial theorems give the exact results."
  },
  {
   "property": "C65",
   "status": "partial",
   "theorems": [
    "C65_unicode",
    "C65_mbcs_never_returns_partial",
    "C65_mbcs_refuted"
   ],
   "note": "False for _MBCS: the overloads on strings resolve to themselves and never return (C65_mbcs_refuted, C65_mbcs_never_returns_partial). The _UNICODE overloads meet the property (C65_unicode)."
  },
  {
   "property": "C66",
   "status": "proved",
   "theorems": [
    "C66_lists_the_codes"
   ],
   "note": "Proved for every file of data lines, followed by nothing or by a line the tool stops at."
  },
  {
   "property": "C67",
   "status": "partial",
   "theorems": [
    "C67_ends_partial",
    "C67_never_ends_partial",
    "C67_never_ends_refuted"
   ],
   "note": "Proved for files ending in a newline. False otherwise: a last data line without newline is written for ever (C67_never_ends_refuted, C67_never_ends_partial)."
  },
  {
   "property": "C68",
   "status": "partial",
   "theorems": [
    "C68_no_semicolon_partial",
    "C68_no_semicolon_refuted"
   ],
   "note": "C66 covers files of data lines. False in general: any line of more than ten characters without a semicolon is indexed out of range (C68_no_semicolon_refuted, C68_no_semicolon_partial)."
  },
  {
   "property": "C69",
   "status": "proved",
   "theorems": [
    "C69_isUtf8",
    "C69_isUtf16",
    "C69_isUcs2",
    "C69_isUcs4"
   ],
   "note": "Proved for the four NUL-terminated is-functions."
  },
  {
   "property": "C70",
   "status": "proved",
   "theorems": [
    "C70_toUcs4_8",
    "C70_toUtf16_8",
    "C70_toUcs2_8",
    "C70_toUcs4_16",
    "C70_toUtf8_16",
    "C70_toUtf8_32",
    "C70_toUtf16_32",
    "C70_toUcs2_32"
   ],
   "note": "Proved for the eight NUL-terminated to-functions; an empty result counts as not converted."
  },
  {
   "property": "C71",
   "status": "proved",
   "theorems": [
    "C71_toUcs4_8",
    "C71_toUtf16_8",
    "C71_toUcs2_8",
    "C71_toUcs4_16",
    "C71_toUtf8_16",
    "C71_toUtf8_32",
    "C71_toUtf16_32",
    "C71_toUcs2_32",
    "C71_toUtf8_32_unicode"
   ],
   "note": "Proved for the eight NUL-terminated to-functions; C71_case shows the bounds are reached."
  },
  {
   "property": "C72",
   "status": "proved",
   "theorems": [
    "C72_ucs4",
    "C72_utf8",
    "C72_utf16",
    "C72_ascii",
    "C72_turkic_refuted"
   ],
   "note": "ASCII is left only in a Turkic language (C72_turkic_refuted); the UTF-16 theorem is for the null predicate, as a UTF-16 predicate sees surrogates (C37)."
  },
  {
   "property": "C73",
   "status": "proved",
   "theorems": [
    "C73_ucs4",
    "C73_utf16",
    "C73_utf8"
   ],
   "note": "Texts are well formed; for UTF-8 also at most 0x10FFFF."
  },
  {
   "property": "C74",
   "status": "proved",
   "theorems": [
    "C74_split",
    "C74_join"
   ],
   "note": "Stated for UCS-4; the example shows the comma meets the condition in every version and language."
  },
  {
   "property": "C75",
   "status": "proved",
   "theorems": [
    "C75_utf16",
    "C75_utf8"
   ],
   "note": "The example reaches both bounds."
  },
  {
   "property": "C76",
   "status": "proved",
   "theorems": [
    "C76_predicates",
    "C76_same_without_assigned",
    "C76_isUcs4",
    "C76_isUtf8"
   ],
   "note": "Proved for pred32 and the UTF-8 and UCS-4 is-functions; a chain that both requires and forbids Assigned behaves as requiring it."
  },
  {
   "property": "C77",
   "status": "proved",
   "theorems": [
    "C77_lower"
   ],
   "note": "Stated for UCS-4; the other encodings follow from C43."
  },
  {
   "property": "C78",
   "status": "proved",
   "theorems": [
    "C78_split_at_delimiter",
    "C78_join_append",
    "C78_replace"
   ],
   "note": "split is limited to fewer than 2^31 pieces (see C46)."
  },
  {
   "property": "C79",
   "status": "proved",
   "theorems": [
    "C79_around",
    "C79_around_blank",
    "C79_around_white_space",
    "C79_unchanged",
    "C79_unchanged_blank",
    "C79_unchanged_white_space",
    "C79_larger_set",
    "C79_kinds"
   ],
   "note": "Proved for trim, trim with a set, trimAscii7WhiteSpace and the UTF-16 and UCS-4 trimWhiteSpace."
  },
  {
   "property": "C80",
   "status": "partial",
   "theorems": [
    "C80_order_and_repetition",
    "C80_restricts_partial",
    "C80_restricts_strings_partial",
    "C80_widens_refuted"
   ],
   "note": "Adding conditions restricts a consistent chain; for one that forbids and then requires the same class it does not (C80_widens_refuted)."
  },
  {
   "property": "C81",
   "status": "proved",
   "theorems": [
    "C81_classes"
   ],
   "note": "By linear merges of the range tables."
  },
  {
   "property": "C82",
   "status": "proved",
   "theorems": [
    "C82_utf8",
    "C82_utf16",
    "C82_ucs4",
    "C82_lower"
   ],
   "note": "For valid texts; half a surrogate pair counts -1 (C28)."
  },
  {
   "property": "C83",
   "status": "proved",
   "theorems": [
    "C83_append",
    "C83_append_failing",
    "C83_ascii",
    "C83_sizes",
    "C83_is_utf8"
   ],
   "note": "Both code pages."
  },
  {
   "property": "C84",
   "status": "partial",
   "theorems": [
    "C84_usage",
    "C84_missing_infile",
    "C84_converts_partial",
    "C84_codes_partial",
    "C84_no_outfile_partial",
    "C84_no_infile_partial",
    "C84_silent_failure_refuted",
    "C84_same_file_refuted"
   ],
   "note": "filebuf::open does not throw, so exit codes 3 and 4 are never returned: an outfile that cannot be created goes unnoticed (C84_silent_failure_refuted), and one file given for both is emptied (C84_same_file_refuted). The partial theorems give the behaviour in every case."
  },
  {
   "property": "C85",
   "status": "proved",
   "theorems": [
    "C85_isUtf8",
    "C85_isUtf16",
    "C85_isUcs2",
    "C85_isUcs4"
   ],
   "note": "Gen/Source.v is what tools/cxx2ast.py parsed from /repo; Cxx/Semantics.v gives it meaning (integer promotions, conversions, overload resolution, pointers into arrays, undefined behaviour). The functions of the bits<N> directories are taken from their separate translation (Gen/Unicode<N>.v). isUtf8 needs a byte before the text or an implementation that tolerates the pointer test - 1 (C86)."
  },
  {
   "property": "C86",
   "status": "partial",
   "theorems": [
    "C86_isUtf8_refuted",
    "C86_unicodeLength_refuted",
    "C86_others_partial"
   ],
   "note": "isUtf8 and unicodeLength (char, char16_t) compute src - 1 (string.cxx:236, 760, 853), so they are undefined, strictly, for every text that begins its array; unicodeLength(const char32_t*, n) computes src + n (string.cxx:938). Partial: the other functions never leave their arrays, nor do these where something stands before the text."
  },
  {
   "property": "C87",
   "status": "proved",
   "theorems": [
    "C87_toUtf8",
    "C87_toUcs2",
    "C87_toUtf16",
    "C87_toUcs4"
   ],
   "note": "As C85. Every overload for char, char16_t and char32_t."
  },
  {
   "property": "C88",
   "status": "proved",
   "theorems": [
    "C88_unicodeLength"
   ],
   "note": "As C85. The pointers src - 1 and src + testLength are hypotheses (C86)."
  },
  {
   "property": "C89",
   "status": "proved",
   "theorems": [
    "C89_signedness_rest",
    "C89_signedness_of_char"
   ],
   "note": ""
  },
  {
   "property": "C90",
   "status": "proved",
   "theorems": [
    "C90_conversions",
    "C90_checks",
    "C90_round_trips"
   ],
   "note": "The exactness theorems about the model (C01-C12, C14-C17) carried over to the parsed source by C85 and C87. isUtf8 under implementations that tolerate src - 1 (C86); ranges of kUtf16 as in C14 and C17."
  },
  {
   "property": "C91",
   "status": "proved",
   "theorems": [
    "C91_toLower",
    "C91_tables"
   ],
   "note": "As C85. The functions toLower and toTurkic of the bits<N> directories are taken from Gen/Unicode<N>.v; C91_tables: every version maps char32_t to char32_t."
  },
  {
   "property": "C92",
   "status": "proved",
   "theorems": [
    "C92_code_pages"
   ],
   "note": "As C85."
  },
  {
   "property": "C93",
   "status": "proved",
   "theorems": [
    "C93_trim",
    "C93_trimWhiteSpace"
   ],
   "note": "As C85. The result is what is left in the by-reference argument. [holds] says that the string is shorter than 2^63, as any object is."
  },
  {
   "property": "C94",
   "status": "proved",
   "theorems": [
    "C94_split",
    "C94_join"
   ],
   "note": "As C85, one proof for the template at each of the three character types."
  },
  {
   "property": "C95",
   "status": "proved",
   "theorems": [
    "C95_checks",
    "C95_isWstring",
    "C95_conversions",
    "C95_toWstring"
   ],
   "note": "As C85, in the configuration where wchar_t has 32 bits; C100 has the others."
  },
  {
   "property": "C96",
   "status": "proved",
   "theorems": [
    "C96_predicates",
    "C96_tables"
   ],
   "note": "As C85. The char overload needs every byte assigned and none private, which holds of all tables (C96_tables)."
  },
  {
   "property": "C97",
   "status": "proved",
   "theorems": [
    "C97_trim",
    "C97_split",
    "C97_join",
    "C97_code_pages",
    "C97_toLower"
   ],
   "note": "C39-C54 carried over to the parsed source by C91-C94."
  },
  {
   "property": "C98",
   "status": "proved",
   "theorems": [
    "C98_characters",
    "C98_classes",
    "C98_version"
   ],
   "note": "A compiler from the parsed functions to the functions of the model, proved correct, and a comparison of its output with Gen/Unicode<N>.v in the kernel, for all ten versions."
  },
  {
   "property": "C99",
   "status": "proved",
   "theorems": [
    "C99_transfer",
    "C99_once",
    "C99_conversions",
    "C99_checks",
    "C99_toLower",
    "C99_predicates",
    "C99_strings"
   ],
   "note": "C99_transfer carries every theorem of C85-C97 over to the linked library. isUtf8 as in C90 on machines where forming src - 1 is harmless (C86)."
  },
  {
   "property": "C100",
   "status": "proved",
   "theorems": [
    "C100_checks",
    "C100_isWstring",
    "C100_conversions",
    "C100_toWstring"
   ],
   "note": "As C85; the configuration (what the preprocessor sees) is a parameter of the semantics."
  },
  {
   "property": "C101",
   "status": "proved",
   "theorems": [
    "C101_windows",
    "C101_mbcs",
    "C101_unicode"
   ],
   "note": "As C85. The overloads on strings with _MBCS are in C102: they never return."
  },
  {
   "property": "C102",
   "status": "partial",
   "theorems": [
    "C102_unicode_partial",
    "C102_mbcs_never_partial",
    "C102_mbcs_refuted"
   ],
   "note": "False for _MBCS: overload resolution in the parsed text, seeing only what is declared before, picks the function itself (C102_mbcs_never_partial: no result with any fuel and depth; C102_mbcs_refuted). Partial: true with _UNICODE for every text."
  },
  {
   "property": "C103",
   "status": "proved",
   "theorems": [
    "C103_wide32",
    "C103_to_wide32",
    "C103_wide16",
    "C103_to_wide16",
    "C103_round_trip",
    "C103_linked_round_trip"
   ],
   "note": "From C95 and C100 and the exactness theorems of the model. For 32-bit wchar_t \"is a text\" means up to 0x1FFFFF, see C17."
  },
  {
   "property": "C104",
   "status": "proved",
   "theorems": [
    "C104_returns",
    "C104_edits",
    "C104_once",
    "C104_every_function",
    "C104_left_out"
   ],
   "note": "Covers every name in the parsed library that is not a helper (C104_every_function). Left out of the calls: pointers to the first element of an array for the functions that form the pointer before it, if that is undefined (C86), a number of elements with none after them (C24, C25), toTstring of a string with _MBCS, which never returns (C102)."
  },
  {
   "property": "C105",
   "status": "proved",
   "theorems": [
    "C105_files",
    "C105_bits",
    "C105_calls",
    "C105_runs",
    "C105_leaves",
    "C105_once",
    "C105_returns",
    "C105_edits",
    "C105_round_trips"
   ],
   "note": "The functions come in another order than in Gen/Source.v (files one after another); C105_files says they are a permutation of each other and C105_calls that this does not matter. #include is taken as the order of the files, not expanded."
  },
  {
   "property": "C106",
   "status": "proved",
   "theorems": [
    "C106_program",
    "C106_main",
    "C106_refuses",
    "C106_converts",
    "C106_codes",
    "C106_ends",
    "C106_never_ends",
    "C106_undefined",
    "C106_not_opened",
    "C106_silent_failure"
   ],
   "note": "Files of less than 2^63 bytes and fewer than 2^31 arguments. What is written reaches the file when it is closed; a file has one name; no stream operation throws, so the catch block is never run (simplifications at the top of Cxx/Tool.v)."
  },
  {
   "property": "C107",
   "status": "partial",
   "theorems": [
    "C107_help_partial",
    "C107_counts_partial",
    "C107_order_partial",
    "C107_late_refuted"
   ],
   "note": "What each target does is a parameter of process. C107_late_refuted: clean has been done before the misspelt instal is refused."
  },
  {
   "property": "C108",
   "status": "partial",
   "theorems": [
    "C108_installed_partial",
    "C108_directories_partial",
    "C108_minsizerel_partial",
    "C108_refuted"
   ],
   "note": "From the point where make_all has returned. Missing: lib\\Win32\\MinSizeRel (C108_minsizerel_partial says what it gets instead)."
  },
  {
   "property": "C109",
   "status": "proved",
   "theorems": [
    "C109_install",
    "C109_uninstall"
   ],
   "note": ""
  },
  {
   "property": "C110",
   "status": "proved",
   "theorems": [
    "C110_succeeds",
    "C110_only"
   ],
   "note": ""
  },
  {
   "property": "C111",
   "status": "proved",
   "theorems": [
    "C111_uninstalled"
   ],
   "note": ""
  },
  {
   "property": "C112",
   "status": "partial",
   "theorems": [
    "C112_undone_partial",
    "C112_refuted"
   ],
   "note": ""
  },
  {
   "property": "C113",
   "status": "partial",
   "theorems": [
    "C113_clean_partial",
    "C113_below_partial",
    "C113_no_nsis_partial",
    "C113_refuted"
   ],
   "note": "rmtree is all or nothing in the model. Missing: without makensis, see C113_no_nsis_partial."
  },
  {
   "property": "C114",
   "status": "proved",
   "theorems": [
    "C114_gathered",
    "C114_untouched"
   ],
   "note": "The copying of the NSIS scripts and the run of makensis are not modelled."
  },
  {
   "property": "C115",
   "status": "partial",
   "theorems": [
    "C115_exactly_partial",
    "C115_built_partial",
    "C115_refuted"
   ],
   "note": "make.py hands the version to cmake in decimal; C115_exactly_partial is an equivalence."
  },
  {
   "property": "C116",
   "status": "partial",
   "theorems": [
    "C116_default_partial",
    "C116_quoted_partial",
    "C116_overridden_partial",
    "C116_refuted"
   ],
   "note": "Names of ASCII characters (repr)."
  },
  {
   "property": "C117",
   "status": "partial",
   "theorems": [
    "C117_fresh_partial",
    "C117_faithful_partial",
    "C117_again_partial",
    "C117_deleted_refuted",
    "C117_restored_refuted",
    "C117_failed_refuted"
   ],
   "note": "Missing: removed and restored files and the remains of failed builds, each refuted. C117_faithful_partial covers removals of other files."
  },
  {
   "property": "C118",
   "status": "partial",
   "theorems": [
    "C118_fresh_partial",
    "C118_data_refuted",
    "C118_framework_refuted"
   ],
   "note": "Missing: UnicodeData.txt and submods/CMakeLists.txt, both refuted."
  },
  {
   "property": "C119",
   "status": "partial",
   "theorems": [
    "C119_fresh_partial",
    "C119_module_refuted"
   ],
   "note": "Missing: FindANSAK.cmake, refuted, and what is missing in C118."
  },
  {
   "property": "C120",
   "status": "partial",
   "theorems": [
    "C120_fresh_partial",
    "C120_cleaned_partial",
    "C120_cleaned_refuted",
    "C120_added_refuted",
    "C120_tests_partial"
   ],
   "note": "Missing: after make clean (C120_cleaned_partial: make then never looks at a source again) and files added after configure."
  },
  {
   "property": "C121",
   "status": "partial",
   "theorems": [
    "C121_built_partial",
    "C121_scrubbed_partial",
    "C121_refuted"
   ],
   "note": "make_all and the targets test, package, cmake-install and cmake-uninstall are parameters. Missing: scrub."
  },
  {
   "property": "C122",
   "status": "proved",
   "theorems": [
    "C122_installed"
   ],
   "note": "From the point where build/all.touch is up to date. Which files the pattern *hxx takes is spelt out by hidden and ends."
  },
  {
   "property": "C123",
   "status": "partial",
   "theorems": [
    "C123_install_keeps",
    "C123_uninstall_keeps_partial",
    "C123_home_refuted"
   ],
   "note": "Missing: include and lib of the home directory, removed (if empty) without sudo whatever the prefix (C123_home_refuted)."
  },
  {
   "property": "C124",
   "status": "partial",
   "theorems": [
    "C124_removed_partial",
    "C124_stuck",
    "C124_library_refuted"
   ],
   "note": "Missing: a header that is not there (C124_stuck says what happens then, for every disk)."
  },
  {
   "property": "C125",
   "status": "partial",
   "theorems": [
    "C125_undone_partial",
    "C125_home_partial",
    "C125_sudo_leaves",
    "C125_remains_refuted"
   ],
   "note": "Missing: include, lib and the directories above, but C125_home_partial covers everything for the home directory."
  },
  {
   "property": "C126",
   "status": "partial",
   "theorems": [
    "C126_clean_partial",
    "C126_scrub",
    "C126_everything",
    "C126_sources_refuted",
    "C126_hidden_refuted"
   ],
   "note": "Missing: hidden files, and no directory build: C126_everything says that then everything that is not hidden is deleted."
  },
  {
   "property": "C127",
   "status": "partial",
   "theorems": [
    "C127_defaults_partial",
    "C127_accepted",
    "C127_help",
    "C127_documented_partial",
    "C127_environment_refuted",
    "C127_linux_refuted"
   ],
   "note": "No wildcards, backslashes, dollar signs or newlines in values. Missing: inherited variables and the documented prefix on Linux, both refuted."
  },
  {
   "property": "C128",
   "status": "partial",
   "theorems": [
    "C128_privileged_partial",
    "C128_exact",
    "C128_home_refuted",
    "C128_usr_refuted"
   ],
   "note": "C128_exact is an equivalence for all prefixes without blanks. $second, used and never set in the script, is taken from the environment."
  },
  {
   "property": "C129",
   "status": "partial",
   "theorems": [
    "C129_read_partial",
    "C129_exact",
    "C129_blanks_refuted",
    "C129_hash_refuted"
   ],
   "note": "C129_exact says what make reads for all values; partial for words separated by single blanks."
  },
  {
   "property": "C130",
   "status": "proved",
   "theorems": [
    "C130_installer",
    "C130_packaged"
   ],
   "note": "makensis and the compressed installer are a list of directories with files; the user gives up where a file cannot be written."
  },
  {
   "property": "C131",
   "status": "proved",
   "theorems": [
    "C131_installer",
    "C131_uninstaller"
   ],
   "note": "For every outcome. The uninstaller ignores all failures, as the script does."
  },
  {
   "property": "C132",
   "status": "proved",
   "theorems": [
    "C132_is_empty_dir"
   ],
   "note": "The 21 instructions of the function on a machine with two registers, stack, error flag and open searches."
  },
  {
   "property": "C133",
   "status": "partial",
   "theorems": [
    "C133_files",
    "C133_cmake_partial",
    "C133_cmake_stays",
    "C133_directories",
    "C133_cmake_refuted"
   ],
   "note": "Missing: directories other than include\\ansak (C133_directories: they always stay) and FindANSAK.cmake with something else in include\\ansak (refuted)."
  },
  {
   "property": "C134",
   "status": "partial",
   "theorems": [
    "C134_round_trip_partial",
    "C134_directories_refuted",
    "C134_stale_refuted"
   ],
   "note": "Missing: directories remain and so do stale files in build\\nsis, both refuted."
  },
  {
   "property": "C135",
   "status": "partial",
   "theorems": [
    "C135_same_partial",
    "C135_minsizerel_refuted"
   ],
   "note": "Missing: Win32/MinSizeRel, refuted (the defect of C108)."
  },
  {
   "property": "C136",
   "status": "partial",
   "theorems": [
    "C136_variable_partial",
    "C136_installed_partial",
    "C136_environment",
    "C136_environment_refuted",
    "C136_preferred_refuted"
   ],
   "note": "Missing: ANSAK_DIR in the environment (C136_environment says what happens, for every disk) and CMAKE_PREFIX_PATH, which comes first."
  },
  {
   "property": "C137",
   "status": "partial",
   "theorems": [
    "C137_installer",
    "C137_make_py_partial"
   ],
   "note": "From the build through package, installer and FindANSAK. Missing: Win32/MinSizeRel after make.py install (C108)."
  },
  {
   "property": "C138",
   "status": "partial",
   "theorems": [
    "C138_layouts_partial",
    "C138_case_1",
    "C138_case_2",
    "C138_case_1_refuted",
    "C138_case_2_refuted"
   ],
   "note": "Missing: lib/Debug, and lib with a platform; C138_case_1 and C138_case_2 show that both always fail."
  },
  {
   "property": "C139",
   "status": "partial",
   "theorems": [
    "C139_literal",
    "C139_included_refuted"
   ],
   "note": "C139_literal: the only argument ever passed is the word ANSAK_INCLUDE."
  },
  {
   "property": "C140",
   "status": "partial",
   "theorems": [
    "C140_reported_partial",
    "C140_release_refuted"
   ],
   "note": "Missing: libraries by configuration, of which only Debug is looked for."
  },
  {
   "property": "C141",
   "status": "partial",
   "theorems": [
    "C141_no_effect",
    "C141_switch_refuted"
   ],
   "note": "C141_no_effect: for all disks and settings the libraries are the same with and without it."
  },
  {
   "property": "C142",
   "status": "proved",
   "theorems": [
    "C142_installer",
    "C142_uninstaller",
    "C142_installs",
    "C142_removes"
   ],
   "note": "The lines of the file are in Gen/TextScripts.v; a change of any command in the sections or functions breaks the proof. Lines outside sections and functions are read but, except UninstPage, without effect here."
  },
  {
   "property": "C143",
   "status": "proved",
   "theorems": [
    "C143_text",
    "C143_known",
    "C143_found",
    "C143_environment",
    "C143_environment_refuted",
    "C143_included"
   ],
   "note": "For paths with ordinary names (ordinary: no /, ; or -NOTFOUND in a name; no bare drive as a directory of headers or libraries; a directory called Debug is at least two below the root or a drive). The lines are in Gen/TextScripts.v and read by Model/Cmake.v."
  },
  {
   "property": "C144",
   "status": "proved",
   "theorems": [
    "C144_text"
   ],
   "note": "For settings that do not collide with the words compared in if() (clean). The lines are in Gen/TextLists.v and run by Model/Lists.v."
  },
  {
   "property": "C145",
   "status": "proved",
   "theorems": [
    "C145_version"
   ],
   "note": "For settings that do not collide with the words compared in if() (clean). The lines are in Gen/TextLists.v and run by Model/Lists.v."
  },
  {
   "property": "C146",
   "status": "proved",
   "theorems": [
    "C146_files"
   ],
   "note": "For settings that do not collide with the words compared in if() (clean). The lines are in Gen/TextLists.v and run by Model/Lists.v. The names of the files are in Gen/Files.v; files of cmake itself (CTest, CPack) are left out."
  },
  {
   "property": "C147",
   "status": "partial",
   "theorems": [
    "C147_tests",
    "C147_studio_partial",
    "C147_studio_refuted"
   ],
   "note": "For settings that do not collide with the words compared in if() (clean). The lines are in Gen/TextLists.v and run by Model/Lists.v. False for Visual Studio 2005 and 2008: generators are compared as words."
  },
  {
   "property": "C148",
   "status": "partial",
   "theorems": [
    "C148_coverage_partial",
    "C148_coverage_refuted",
    "C148_studio"
   ],
   "note": "For settings that do not collide with the words compared in if() (clean). The lines are in Gen/TextLists.v and run by Model/Lists.v. False as a part of another project: CodeCoverage is included for the root project only."
  },
  {
   "property": "C149",
   "status": "partial",
   "theorems": [
    "C149_packages_partial",
    "C149_old_cmake",
    "C149_old_cmake_refuted",
    "C149_no_lsb_refuted",
    "C149_redhat_refuted"
   ],
   "note": "For settings that do not collide with the words compared in if() (clean). The lines are in Gen/TextLists.v and run by Model/Lists.v. False before cmake 3.14 (static library without ARCHIVE destination), if lsb_release writes nothing, and for RedHatEnterprise."
  },
  {
   "property": "C150",
   "status": "proved",
   "theorems": [
    "C150_headers"
   ],
   "note": "For settings that do not collide with the words compared in if() (clean). The lines are in Gen/TextLists.v and run by Model/Lists.v."
  },
  {
   "property": "C151",
   "status": "proved",
   "theorems": [
    "C151_version",
    "C151_headers"
   ],
   "note": "For settings that do not collide with the words compared in if() (clean). The lines are in Gen/TextLists.v and run by Model/Lists.v."
  },
  {
   "property": "C152",
   "status": "partial",
   "theorems": [
    "C152_order",
    "C152_linked_partial",
    "C152_linked_refuted"
   ],
   "note": "For settings that do not collide with the words compared in if() (clean). The lines are in Gen/TextLists.v and run by Model/Lists.v. False as a part of another project: gtest_main is linked but the submodules are added for the root project only."
  },
  {
   "property": "C153",
   "status": "proved",
   "theorems": [
    "C153_kept",
    "C153_inputs"
   ],
   "note": "For settings that do not collide with the words compared in if() (clean). The lines are in Gen/TextLists.v and run by Model/Lists.v."
  },
  {
   "property": "C154",
   "status": "partial",
   "theorems": [
    "C154_added",
    "C154_options",
    "C154_static_partial",
    "C154_static_refuted"
   ],
   "note": "The lines are in Gen/TextSubmods.v and run by Model/Submods.v; what googletest does with the variables it is given is not modelled. False for the static runtime: /MD is replaced by /MT after add_subdirectory."
  },
  {
   "property": "C155",
   "status": "partial",
   "theorems": [
    "C155_chosen_partial",
    "C155_absent",
    "C155_absent_refuted",
    "C155_kept",
    "C155_given",
    "C155_given_refuted",
    "C155_help",
    "C155_harmless"
   ],
   "note": "The lines are in Gen/TextCmd.v and run by Model/Cmd.v. False if python is not there (status 9009 passes for a version of at least 3, so python3 is not tried), and with --python: shift leaves %* alone, so configure.py gets --python, which it refuses. For arguments that are single words."
  },
  {
   "property": "C156",
   "status": "partial",
   "theorems": [
    "C156_build_partial",
    "C156_config",
    "C156_config_refuted",
    "C156_test_partial",
    "C156_test_empty",
    "C156_test_refuted",
    "C156_rpm",
    "C156_deb",
    "C156_package"
   ],
   "note": "The lines are in Gen/TextMakefile.v and run by Model/Makefile.v, for values that are words without special characters (the generator may have blanks). False with CONFIG (macOS): the quotes in CONFIG_SELECT make one word of --config and its value; and without (Linux): ctest is given an empty word."
  },
  {
   "property": "C157",
   "status": "partial",
   "theorems": [
    "C157_found",
    "C157_unable",
    "C157_kept",
    "C157_told_partial",
    "C157_told_refuted",
    "C157_required"
   ],
   "note": "The lines are in Gen/TextAsan.v and run by Model/Asan.v; what the compiler makes of a flag is a parameter. False if HAVE_ADDRESS_SANITIZER was true before and the compiler has no sanitizer; CMAKE_REQUIRED_FLAGS is counted among the names it may use, and is always lost."
  },
  {
   "property": "C158",
   "status": "partial",
   "theorems": [
    "C158_elsewhere_partial",
    "C158_mac",
    "C158_mac_refuted",
    "C158_packages"
   ],
   "note": "C127 and C129 put before C156, through the lines of config.make (Model/Configure.v, Model/Makefile.v). The environment of make is taken not to have CXXSELECT, CONFIG_SELECT or C_SELECT. False on macOS of the configuration and elsewhere of the words for ctest, as in C156."
  }
 ]
}