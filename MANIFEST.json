{
 "claims": [
  {
   "property": "C01",
   "status": "proved",
   "theorems": [
    "C01_width_from_int16",
    "C01_width_from_signed",
    "C01_width_from_unsigned",
    "C01_sat_cast_unsigned",
    "C01_sat_cast_signed"
   ],
   "note": ""
  },
  {
   "property": "C02",
   "status": "partial",
   "theorems": [
    "C02_sat_add",
    "C02_sat_sub",
    "C02_sat_add_i32",
    "C02_sat_sub_i32",
    "C02_sat_add_i64",
    "C02_sat_sub_i64_partial",
    "C02_sat_sub_i64_refuted",
    "C02_sat_add_i16",
    "C02_sat_sub_i16",
    "C02_plain_operators"
   ],
   "note": "Addition and 32/16-bit subtraction proved in full. 64-bit subtraction: the exact set of operands for which the code is right is proved (iff); outside it the code is wrong or overflows (refuted)."
  },
  {
   "property": "C03",
   "status": "proved",
   "theorems": [
    "C03_sat_mul_i16",
    "C03_sat_mul_i32",
    "C03_sat_mul_u32",
    "C03_sat_mul_i64",
    "C03_sat_mul_u64"
   ],
   "note": ""
  },
  {
   "property": "C04",
   "status": "partial",
   "theorems": [
    "C04_compare_i32",
    "C04_compare_u32",
    "C04_compare_i64",
    "C04_compare_u64",
    "C04_compare_i16_partial",
    "C04_compare_u16_partial",
    "C04_compare_reversed",
    "C04_compare_reversed_i16_partial",
    "C04_equality_i16",
    "C04_operators_i16_partial",
    "C04_operators_i16_refuted",
    "C04_compare_i16_refuted"
   ],
   "note": "All operators with an int16 on either side, and compare in both directions: exactly where they are right. All overloads proved in full but int16/uint16, for which the exact condition (the difference fits 32 bits) is proved as an iff; outside it the code has signed overflow (refuted)."
  },
  {
   "property": "C05",
   "status": "proved",
   "theorems": [
    "C05_floor",
    "C05_ceil",
    "C05_non_negative_floor",
    "C05_non_negative_ceil",
    "C05_round"
   ],
   "note": ""
  },
  {
   "property": "C06",
   "status": "partial",
   "theorems": [
    "C06_product",
    "C06_product_int16",
    "C06_quotient_int16_partial",
    "C06_quotient_partial",
    "C06_quotient_refuted"
   ],
   "note": "Product in full. Quotient: C06_quotient_partial gives the exact set of operands for which the result is the rounded quotient (an iff); outside it (negative dividends and some divisors) the code is wrong (refuted)."
  },
  {
   "property": "C07",
   "status": "partial",
   "theorems": [
    "C07_literal_partial",
    "C07_literal_exact_partial",
    "C07_literal_iff_partial",
    "C07_literal_value",
    "C07_literal_refuted"
   ],
   "note": "Integer part up to 32766 with at most 19 digits, fraction with at most 14 digits (or any number when the kept digits are below 2^48). Beyond these the code wraps (refuted: 40000_w, long fractions)."
  },
  {
   "property": "C08",
   "status": "partial",
   "theorems": [
    "C08_cstr_partial",
    "C08_cstr_fits",
    "C08_cstr_refuted",
    "C08_cstr_iff",
    "C08_cstr_short"
   ],
   "note": "Every history except write() of more units than fit once the destination has already overflowed; C08_cstr_iff proves this restriction exact: there finish() stores out of the buffer (refuted)."
  },
  {
   "property": "C09",
   "status": "partial",
   "theorems": [
    "C09_array_partial",
    "C09_array_fits",
    "C09_array_refuted",
    "C09_array_iff",
    "C09_array_short"
   ],
   "note": "As C08, for array_destination (C09_array_iff)."
  },
  {
   "property": "C10",
   "status": "proved",
   "theorems": [
    "C10_string_appender",
    "C10_string_maker",
    "C10_sized_string_maker"
   ],
   "note": ""
  },
  {
   "property": "C11",
   "status": "proved",
   "theorems": [
    "C11_cfile"
   ],
   "note": ""
  },
  {
   "property": "C12",
   "status": "partial",
   "theorems": [
    "C12_streambuf_any",
    "C12_streambuf_partial",
    "C12_streambuf_refuted"
   ],
   "note": "C12_streambuf_any: count, success flag and absence of faults on every device and history, and the received text has at most one hole. The prefix property is proved unless a long write() meets a short sputn followed by acceptance; there it is false (refuted)."
  },
  {
   "property": "C13",
   "status": "proved",
   "theorems": [
    "C13_discarder"
   ],
   "note": ""
  },
  {
   "property": "C14",
   "status": "proved",
   "theorems": [
    "C14_write_fill",
    "C14_encode_fill",
    "C14_write_replacement_char"
   ],
   "note": ""
  },
  {
   "property": "C15",
   "status": "proved",
   "theorems": [
    "C15_put",
    "C15_write",
    "C15_default_do_write",
    "C15_interchar_copy",
    "C15_any_history"
   ],
   "note": ""
  },
  {
   "property": "C16",
   "status": "proved",
   "theorems": [
    "C16_utf8_decoding"
   ],
   "note": ""
  },
  {
   "property": "C17",
   "status": "proved",
   "theorems": [
    "C17_utf16_decoding"
   ],
   "note": ""
  },
  {
   "property": "C18",
   "status": "proved",
   "theorems": [
    "C18_utf32_encoding"
   ],
   "note": ""
  },
  {
   "property": "C19",
   "status": "proved",
   "theorems": [
    "C19_validate",
    "C19_encode_char"
   ],
   "note": ""
  },
  {
   "property": "C20",
   "status": "proved",
   "theorems": [
    "C20_valid_text_exact",
    "C20_round_trip"
   ],
   "note": ""
  },
  {
   "property": "C21",
   "status": "proved",
   "theorems": [
    "C21_output_well_formed"
   ],
   "note": ""
  },
  {
   "property": "C22",
   "status": "partial",
   "theorems": [
    "C22_size_predicts_partial",
    "C22_size_8_8_continue",
    "C22_size_8_8_iff_partial",
    "C22_size_32_32_signed_iff_partial",
    "C22_refuted",
    "C22_signed_refuted"
   ],
   "note": "All pairs of encodings except utf8->utf8 with a limit (off by one: proved with the limit shifted, C22_size_8_8_continue, and refuted as stated) and utf32->utf32 with a signed source type (refuted); C22_size_8_8_iff_partial and C22_size_32_32_signed_iff_partial say exactly for which inputs the size is right."
  },
  {
   "property": "C23",
   "status": "proved",
   "theorems": [
    "C23_one_call",
    "C23_resume",
    "C23_resume_terminates"
   ],
   "note": ""
  },
  {
   "property": "C24",
   "status": "partial",
   "theorems": [
    "C24_notified_once_partial",
    "C24_resume_partial",
    "C24_resume_exact_partial",
    "C24_once_iff_partial",
    "C24_resume_refuted"
   ],
   "note": "One call: exactly once. Several calls: each reported at least once, in order, with the right place, at most one repetition per call; exactly once is false (refuted); the number of repetitions is exactly the number of calls stopped at an ill-formed sequence (C24_resume_exact_partial), and C24_once_iff_partial says when there is none."
  },
  {
   "property": "C25",
   "status": "partial",
   "theorems": [
    "C25_unsafe_transcode",
    "C25_unsafe_transcode_scalars",
    "C25_unsafe_size_partial",
    "C25_unsafe_size_8_32_partial",
    "C25_unsafe_size_8_32_iff_partial",
    "C25_unsafe_size_refuted"
   ],
   "note": "unsafe_transcode in full. unsafe_transcode_size for all pairs; utf8->utf32 only where the text fits the limit (refuted otherwise; C25_unsafe_size_8_32_iff_partial says exactly when it is right)."
  },
  {
   "property": "C26",
   "status": "proved",
   "theorems": [
    "C26_lax_16_32",
    "C26_lax_8_same",
    "C26_lax_8_surrogates",
    "C26_lax_8_any"
   ],
   "note": ""
  },
  {
   "property": "C27",
   "status": "proved",
   "theorems": [
    "C27_stop_at_first_invalid"
   ],
   "note": ""
  },
  {
   "property": "C28",
   "status": "partial",
   "theorems": [
    "C28_pivot_transcode",
    "C28_notifications_partial",
    "C28_notifications_exact_partial",
    "C28_notifications_refuted",
    "C28_pivot_size",
    "C28_pivot_unsafe",
    "C28_text_exists",
    "C28_transcode_text",
    "C28_transcode_into",
    "C28_into_failed",
    "C28_pivot_into"
   ],
   "note": "Text, stop reason and position proved in full; notifications up to repetition: an invalid sequence after exactly 16 code points is notified twice (refuted as 'once'); C28_notifications_exact_partial: repeated exactly when the number of the piece is a positive multiple of 16."
  },
  {
   "property": "C29",
   "status": "proved",
   "theorems": [
    "C29_count_codepoints",
    "C29_count_codepoints_fast"
   ],
   "note": ""
  },
  {
   "property": "C30",
   "status": "partial",
   "theorems": [
    "C30_decode_published",
    "C30_encode_decode",
    "C30_decode_encode_partial",
    "C30_windows_1254_refuted",
    "C30_windows_1258_refuted",
    "C30_encode_char",
    "C30_roundtrip"
   ],
   "note": "Decoding agrees with the published tables and encode after decode is proved for the 25 charsets; decode after encode is false for seven code points of windows-1254/1258 (refuted), proved for all others."
  },
  {
   "property": "C31",
   "status": "proved",
   "theorems": [
    "C31_ascii",
    "C31_ascii_text",
    "C31_charset_ok"
   ],
   "note": ""
  },
  {
   "property": "C32",
   "status": "partial",
   "theorems": [
    "C32_to_u32",
    "C32_from_u32",
    "C32_from_u32_unsafe",
    "C32_sanitize",
    "C32_from_u32_size_partial",
    "C32_from_u32_size_iff_partial",
    "C32_from_u32_size_refuted",
    "C32_from_wchar_same",
    "C32_from_wchar_partial",
    "C32_from_wchar_refuted",
    "C32_count",
    "C32_copy"
   ],
   "note": "transcode in full; transcode_size towards single-byte charsets false for U+FFFD, 0xD800, U+FFFF, 0x110000 with stop flags (refuted), proved otherwise; C32_from_u32_size_iff_partial says exactly when it is right. With a signed source type (wchar_t) units from 2^31 on are taken for unsupported code points (refuted; C32_from_wchar_partial gives the result for every input)."
  },
  {
   "property": "C33",
   "status": "partial",
   "theorems": [
    "C33_supported",
    "C33_invalid",
    "C33_unsupported_partial",
    "C33_private_use_refuted"
   ],
   "note": "Proved except for U+E000..U+FFFF under the strict surrogate policy, which the code classifies as invalid (refuted)."
  },
  {
   "property": "C34",
   "status": "proved",
   "theorems": [
    "C34_count_digits",
    "C34_max_num_digits"
   ],
   "note": ""
  },
  {
   "property": "C35",
   "status": "proved",
   "theorems": [
    "C35_printed_digits",
    "C35_repr_unique"
   ],
   "note": ""
  },
  {
   "property": "C36",
   "status": "proved",
   "theorems": [
    "C36_grouped_digits",
    "C36_grouped_remove",
    "C36_grouped_split"
   ],
   "note": ""
  },
  {
   "property": "C37",
   "status": "proved",
   "theorems": [
    "C37_separators_count",
    "C37_any_separator",
    "C37_count_is_number_of_separators",
    "C37_distribute"
   ],
   "note": ""
  },
  {
   "property": "C38",
   "status": "proved",
   "theorems": [
    "C38_args_repeat",
    "C38_args_norepeat",
    "C38_string_repeat",
    "C38_string_norepeat",
    "C38_creator"
   ],
   "note": ""
  },
  {
   "property": "C39",
   "status": "partial",
   "theorems": [
    "C39_integer_text",
    "C39_invalid_separator_refuted",
    "C39_invalid_separator_exact_partial",
    "C39_pointer"
   ],
   "note": "Every integer type, value, format, alignment and facets whose separator can be encoded; with a separator the charset cannot encode the padding is short (refuted): C39_invalid_separator_exact_partial gives the text then, that of the same request with an empty separator."
  },
  {
   "property": "C40",
   "status": "partial",
   "theorems": [
    "C40_no_overflow_partial",
    "C40_sign_only_refuted",
    "C40_binary_grouped_refuted",
    "C40_only_two",
    "C40_strict",
    "C40_sign_only_exact_partial",
    "C40_binary_grouped_exact_partial"
   ],
   "note": "All formats but two, which write outside the buffer (refuted): unaligned sign-only decimal, and base 2 with one-unit separators; the _exact_partial theorems say exactly when (the buffer is neither full nor large enough; the first group does not fit)."
  },
  {
   "property": "C41",
   "status": "partial",
   "theorems": [
    "C41_options_partial",
    "C41_static_bases",
    "C41_base_refuted",
    "C41_base_exact"
   ],
   "note": "All sequences of format calls in which base(n) is not called after precision/pad0; then the code loses options (refuted)."
  },
  {
   "property": "C42",
   "status": "partial",
   "theorems": [
    "C42_integer",
    "C42_integer_size",
    "C42_width_refuted",
    "C42_integer_characters",
    "C42_width_exact_partial"
   ],
   "note": "Sizes in full, with any separator. Widths in full when the thousands separator can be encoded; otherwise the premeasured width counts a column for each separator that is not printed (refuted)."
  },
  {
   "property": "C43",
   "status": "partial",
   "theorems": [
    "C43_plain_string",
    "C43_segmented_exists",
    "C43_when_copied",
    "C43_rendered_exists",
    "C43_fill_units",
    "C43_aligned_string",
    "C43_missing",
    "C43_fill_split",
    "C43_precision_refuted"
   ],
   "note": "All aligned strings without precision, and with precision when the kept prefix has the width the calculator reports; otherwise the padding is short (refuted)."
  },
  {
   "property": "C44",
   "status": "partial",
   "theorems": [
    "C44_precision_simple",
    "C44_precision_std_partial",
    "C44_whole_clusters",
    "C44_chunk_refuted"
   ],
   "note": "fast_width, u32len calculators in full; standard calculator: longest prefix exactly when no 32-code-point chunk short of the end ends at the limit (refuted there), otherwise the first such chunk end."
  },
  {
   "property": "C45",
   "status": "partial",
   "theorems": [
    "C45_join",
    "C45_aligned_join_prints",
    "C45_aligned_join_partial",
    "C45_join_room",
    "C45_measured_refuted"
   ],
   "note": "Unmeasured joins in full; measured joins when widths stay below overflow; otherwise false (refuted)."
  },
  {
   "property": "C46",
   "status": "partial",
   "theorems": [
    "C46_measured",
    "C46_size_exact",
    "C46_width_exact",
    "C46_overflow_refuted"
   ],
   "note": "Sizes in full; widths while the accumulator does not overflow (refuted beyond)."
  },
  {
   "property": "C47",
   "status": "partial",
   "theorems": [
    "C47_char",
    "C47_formatted_char",
    "C47_char32",
    "C47_formatted_char32",
    "C47_bool",
    "C47_formatted_bool",
    "C47_integer",
    "C47_negative_count_refuted",
    "C47_negative_count_exact_partial",
    "C47_negative_char32_exact_partial"
   ],
   "note": "All characters, counts >= 0, widths; a negative count is undefined behaviour, exactly (C47_negative_count_exact_partial; refuted); a negative char32_t count is undefined towards single-byte charsets and nothing with UTF (C47_negative_char32_exact_partial)."
  },
  {
   "property": "C48",
   "status": "proved",
   "theorems": [
    "C48_fast_str_width",
    "C48_fast_str_width_and_pos",
    "C48_u32len_str_width",
    "C48_u32len_str_width_and_pos",
    "C48_fast_u32len_agrees",
    "C48_concat"
   ],
   "note": ""
  },
  {
   "property": "C49",
   "status": "partial",
   "theorems": [
    "C49_str_width",
    "C49_str_width_and_pos_partial",
    "C49_position_exact_partial",
    "C49_longest_ends_at_boundary",
    "C49_chunk_refuted",
    "C49_negative_limit_refuted",
    "C49_negative_limit_exact_partial",
    "C49_pos_width_refuted"
   ],
   "note": "str_width in full; str_width_and_pos: C49_position_exact_partial gives the position in every case (the first 32-code-point chunk end whose prefix is exactly as wide as the limit, if there is one; else the longest prefix); with a negative limit nothing is taken and the limit itself is returned as the width (C49_negative_limit_exact_partial); the reported width is wrong in the cases refuted."
  },
  {
   "property": "C50",
   "status": "proved",
   "theorems": [
    "C50_sum_over_clusters",
    "C50_char_width",
    "C50_table_width",
    "C50_table_properties"
   ],
   "note": ""
  },
  {
   "property": "C51",
   "status": "proved",
   "theorems": [
    "C51_every_string",
    "C51_written",
    "C51_to_string"
   ],
   "note": ""
  },
  {
   "property": "C52",
   "status": "proved",
   "theorems": [
    "C52_size",
    "C52_two_parsers",
    "C52_reserved",
    "C52_measured",
    "C52_widths_exist"
   ],
   "note": ""
  },
  {
   "property": "C53",
   "status": "proved",
   "theorems": [
    "C53_get_facet",
    "C53_rightmost",
    "C53_nesting",
    "C53_constrained_pack",
    "C53_inner_pack",
    "C53_constrainable",
    "C53_with"
   ],
   "note": ""
  },
  {
   "property": "C54",
   "status": "proved",
   "theorems": [
    "C54_range",
    "C54_separated_range",
    "C54_separated",
    "C54_to_string"
   ],
   "note": ""
  },
  {
   "property": "C55",
   "status": "partial",
   "theorems": [
    "C55_special",
    "C55_scientific",
    "C55_fixed_exact",
    "C55_fixed_precision",
    "C55_fixed_partial",
    "C55_general_shortest",
    "C55_general_precision",
    "C55_general_partial",
    "C55_hex_exact",
    "C55_hex_partial",
    "C55_default",
    "C55_argument",
    "C55_default_argument",
    "C55_denotes_exact",
    "C55_denotes_fixed",
    "C55_denotes_scientific",
    "C55_denotes_general",
    "C55_decode64",
    "C55_decode32",
    "C55_fixed_refuted",
    "C55_general_refuted",
    "C55_general_point_refuted",
    "C55_general_separator_refuted",
    "C55_separator_refuted",
    "C55_hex_refuted",
    "C55_characters",
    "C55_double_characters",
    "C55_float_characters",
    "C55_fixed_coded_partial",
    "C55_general_coded_partial",
    "C55_hex_carry_partial"
   ],
   "note": "Default, scientific and unrounded notations in full. Fixed/general/hex with a precision: exactly what is printed and announced in all cases (C55_fixed_coded_partial, C55_general_coded_partial, C55_hex_carry_partial), of which C55_fixed_partial, C55_general_partial and C55_hex_partial are the cases where it is what is asked for; the rest is refuted: stale separator and size counts after a rounding carry, lost hex carry, stripped zeros. These suppose that a separator encoded in one unit is encoded as itself (separator_fine): otherwise it is written unencoded (C55_separator_refuted)."
  },
  {
   "property": "C56",
   "status": "proved",
   "theorems": [
    "C56_to_string",
    "C56_append",
    "C56_reserved_size"
   ],
   "note": ""
  },
  {
   "property": "C57",
   "status": "proved",
   "theorems": [
    "C57_to_string",
    "C57_text_is_value",
    "C57_double_formatted",
    "C57_float_formatted",
    "C57_double_formatted_injective",
    "C57_float_formatted_injective",
    "C57_double_formatted_to_string",
    "C57_float_formatted_to_string",
    "C57_shortest_double",
    "C57_shortest_float",
    "C57_portable",
    "C57_double_decimal",
    "C57_float_decimal",
    "C57_double_roundtrip",
    "C57_float_roundtrip",
    "C57_double_notations",
    "C57_float_notations",
    "C57_rounds_unique",
    "C57_double_injective",
    "C57_float_injective",
    "C57_within_unit"
   ],
   "note": ""
  },
  {
   "property": "C58",
   "status": "partial",
   "theorems": [
    "C58_precision_partial",
    "C58_precision_refuted",
    "C58_double_fixed_exact_partial",
    "C58_double_scientific_exact_partial",
    "C58_double_general_exact_partial",
    "C58_float_fixed_exact_partial",
    "C58_float_scientific_exact_partial",
    "C58_float_general_exact_partial"
   ],
   "note": "Refuted as stated because the shortest decimal is rounded, not the value (0.15 with precision 1). Exact: when digits are dropped the number printed is nearest to the value if and only if the shortest decimal is not half-way, or the value is not on the other side of it; when no digits are dropped it is the shortest decimal, which reads back as the value. For float and double, in fixed, scientific and general notation."
  },
  {
   "property": "C59",
   "status": "partial",
   "theorems": [
    "C59_windows_grouping",
    "C59_windows",
    "C59_posix_partial",
    "C59_posix_no_grouping",
    "C59_other_codeset",
    "C59_char_max_refuted",
    "C59_char_max_exact_partial",
    "C59_posix_too_large"
   ],
   "note": "Windows in full. ISO C grouping strings: all but those ended by CHAR_MAX = 127 (signed char): C59_char_max_exact_partial says exactly what the code gives there (no grouping at all), which is right only when no group precedes it (refuted otherwise)."
  },
  {
   "property": "C60",
   "status": "proved",
   "theorems": [
    "C60_cfile_finished",
    "C60_cfile_dropped",
    "C60_streambuf_finished",
    "C60_cstr_finished",
    "C60_appender_finished",
    "C60_appender_dropped",
    "C60_maker_finished"
   ],
   "note": ""
  },
  {
   "property": "C61",
   "status": "partial",
   "theorems": [
    "C61_appender",
    "C61_maker",
    "C61_sized_maker",
    "C61_streambuf_partial",
    "C61_streambuf_refuted",
    "C61_exceptions_reach"
   ],
   "note": "Strings in full. Streams: no fault, no duplication, count and success right when nothing throws; false otherwise: a throw in recycle() leaves the writer good and finish() then reports success (refuted)."
  },
  {
   "property": "C62",
   "status": "proved",
   "theorems": [
    "C62_last_wins",
    "C62_continues",
    "C62_order",
    "C62_compiles",
    "C62_integer_isolated",
    "C62_free_functions",
    "C62_same_options_same_text"
   ],
   "note": ""
  },
  {
   "property": "C63",
   "status": "partial",
   "theorems": [
    "C63_kept_well_formed",
    "C63_unsafe_same",
    "C63_unsafe_into",
    "C63_fast_width_refuted"
   ],
   "note": "Proved for every calculator but fast_width with a precision; fast_width counts code units and may cut a code point, and the unsafe transcoder then reads past the end (refuted)."
  },
  {
   "property": "C64",
   "status": "proved",
   "theorems": [
    "C64_any",
    "C64_string",
    "C64_aligned_string",
    "C64_double",
    "C64_float",
    "C64_formatted_float",
    "C64_chain",
    "C64_compiles",
    "C64_arguments",
    "C64_tr_arguments",
    "C64_printed",
    "C64_tr_printed",
    "C64_destinations",
    "C64_leading_facets",
    "C64_integer"
   ],
   "note": ""
  },
  {
   "property": "C65",
   "status": "proved",
   "theorems": [
    "C65_iterator",
    "C65_cstr",
    "C65_array"
   ],
   "note": ""
  },
  {
   "property": "C66",
   "status": "proved",
   "theorems": [
    "C66_countl_zero",
    "C66_str_length",
    "C66_str_find",
    "C66_str_equal",
    "C66_str_fill_n",
    "C66_copy_n",
    "C66_lower_bound",
    "C66_int_limits",
    "C66_views",
    "C66_view_equal",
    "C66_view_equal_cstr"
   ],
   "note": ""
  },
  {
   "property": "C67",
   "status": "partial",
   "theorems": [
    "C67_numpunct",
    "C67_numpunct_constructor",
    "C67_numpunct_of_grouping",
    "C67_numpunct_equal",
    "C67_no_groups",
    "C67_no_grouping_refuted",
    "C67_no_grouping_equal_partial",
    "C67_predefined",
    "C67_predefined_integer"
   ],
   "note": "In full for numpunct, default_numpunct and the predefined facets. no_grouping ignores the decimal point set (and compares a member without initialiser): refuted."
  },
  {
   "property": "C68",
   "status": "proved",
   "theorems": [
    "C68_members",
    "C68_replacement_size",
    "C68_equality",
    "C68_find_transcoder",
    "C68_transcode",
    "C68_transcode_into",
    "C68_sizes",
    "C68_unsafe_sizes_are",
    "C68_direct_utf",
    "C68_direct_single_byte"
   ],
   "note": ""
  },
  {
   "property": "C69",
   "status": "proved",
   "theorems": [
    "C69_double",
    "C69_float"
   ],
   "note": ""
  },
  {
   "property": "C70",
   "status": "proved",
   "theorems": [
    "C70_argument",
    "C70_integer",
    "C70_float",
    "C70_default_float",
    "C70_cstr",
    "C70_array",
    "C70_tr_cstr"
   ],
   "note": ""
  },
  {
   "property": "C71",
   "status": "partial",
   "theorems": [
    "C71_double",
    "C71_float",
    "C71_double_injective",
    "C71_float_injective",
    "C71_double_precision_partial",
    "C71_float_precision_partial",
    "C71_precision_refuted",
    "C71_double_carry_partial"
   ],
   "note": "Without a precision in full. With a precision, proved when rounding does not change the digit before the point; otherwise the code leaves that digit and prints zeros (C71_double_carry_partial), which is refuted to be the nearest number: 0x1.f with no digits prints 0x1p+0."
  },
  {
   "property": "C72",
   "status": "proved",
   "theorems": [
    "C72_integer",
    "C72_injective",
    "C72_pointer",
    "C72_to_string"
   ],
   "note": ""
  },
  {
   "property": "C73",
   "status": "proved",
   "theorems": [
    "C73_sanitized",
    "C73_round_trip",
    "C73_round_trip_bytes",
    "C73_to_string"
   ],
   "note": ""
  },
  {
   "property": "C74",
   "status": "partial",
   "theorems": [
    "C74_ensure",
    "C74_flush",
    "C74_u32len_str_width",
    "C74_u32len_width_and_pos",
    "C74_fast_u32len",
    "C74_u32len_refuted"
   ],
   "note": "The assertions of destination.hpp, numpunct.hpp, int_digits.hpp, float.hpp, charset.hpp and the width and printing code are outcomes None of the modelled functions, so each theorem with a result excludes them (DESIGN.md lists those left out); width_as_u32len's is proved to fail exactly beyond 32767 code points and width (refuted as never)."
  },
  {
   "property": "C75",
   "status": "partial",
   "theorems": [
    "C75_reads_exists",
    "C75_notifications",
    "C75_misread_none",
    "C75_direct_order",
    "C75_counts",
    "C75_same_output",
    "C75_printer",
    "C75_once_refuted"
   ],
   "note": "Proved for the two kinds of reports each in order (C75_notifications), in the order of the text with a direct transcoder; that each is reported exactly once is false of the code: C75_once_refuted (and C28_notifications_refuted for the pivot)."
  },
  {
   "property": "C76",
   "status": "proved",
   "theorems": [
    "C76_integer",
    "C76_pointer",
    "C76_double",
    "C76_float",
    "C76_rendered",
    "C76_string",
    "C76_formatted_string",
    "C76_char32",
    "C76_bool",
    "C76_default_float",
    "C76_well_formed_source",
    "C76_char",
    "C76_formatted_char32",
    "C76_formatted_bool",
    "C76_integer_argument",
    "C76_join",
    "C76_aligned_join",
    "C76_range",
    "C76_separated_range",
    "C76_to_string",
    "C76_every_destination",
    "C76_append",
    "C76_tr",
    "C76_integer_bytes",
    "C76_double_bytes",
    "C76_float_bytes"
   ],
   "note": "Proved with no bound on the combinations: well_arg arguments compose through joins, to_string and tr-strings. A raw char or a string copied without transcoding is printed as it is, and unsafe transcoding of ill-formed text is not covered (C25); the single-byte theorems are about integers and doubles (C76_double_bytes under separator_fine, C55). A destination that runs out of room keeps a prefix of the units (C76_cut_ex). C76_fill_needed shows that a surrogate as fill character gives ill-formed output."
  }
 ]
}