{"id": "C01", "title": "Integers convert to width_t with saturation", "statement": "Constructing a width_t from any integer type, or sat_cast to it, gives the integer itself when it lies in the representable range [-32768, 32768 - 1/65536] and the nearest bound otherwise; no integer wraps.", "quantifier": "every value of every signed and unsigned 8/16/32/64-bit source type", "why_tests_cant": "2^64 source values; boundaries differ per source type", "anchors": ["include/strf/width_t.hpp: width_t(int16_t), width_t(T), sat_cast"]}
{"id": "C02", "title": "Saturating addition and subtraction of widths are exact or clamped", "statement": "sat_add / sat_sub of a width with another width or with an integer of any type give the exact real result clamped to [width_min, width_max].", "quantifier": "every pair of a width and a width or an integer of 16/32/64 bits", "why_tests_cant": "2^32 x 2^64 pairs; intermediate overflow happens only in narrow bands", "anchors": ["include/strf/width_t.hpp: sat_add, sat_sub"]}
{"id": "C03", "title": "Saturating multiplication of a width by an integer is exact or clamped", "statement": "sat_mul(w, n) is the exact product clamped to [width_min, width_max], for every integer type of n.", "quantifier": "every width and every integer", "why_tests_cant": "2^32 x 2^64 pairs", "anchors": ["include/strf/width_t.hpp: sat_mul"]}
{"id": "C04", "title": "Width comparisons agree with the numeric order", "statement": "compare(w, x) and the operators ==, <, <=, >, >= between a width and a width or an integer return the truth about the numeric values, without overflow.", "quantifier": "every width, every other width or integer of every type", "why_tests_cant": "overflow of the internal difference needs extreme pairs", "anchors": ["include/strf/width_t.hpp: compare, operator<, operator=="]}
{"id": "C05", "title": "floor, ceil and round of a width are the mathematical functions", "statement": "For a width w, floor() is the greatest integer <= w, ceil() the least integer >= w, round() a nearest integer (ties toward zero as implemented), non_negative_floor/ceil agree on non-negative widths and give 0 on negative ones.", "quantifier": "every representable width", "why_tests_cant": "2^32 values, negative fractional ones rarely exercised", "anchors": ["include/strf/width_t.hpp: floor, ceil, round, non_negative_floor, non_negative_ceil"]}
{"id": "C06", "title": "Width product and quotient operators approximate the real result", "statement": "w1*w2 is the real product truncated toward zero to a multiple of 1/65536, with saturation when out of range; w1/w2 is the real quotient, rounded toward zero to 1/65536 whenever representable.", "quantifier": "every pair of widths (non-zero divisor)", "why_tests_cant": "2^64 pairs, sign combinations", "anchors": ["include/strf/width_t.hpp: operator*=, operator/="]}
{"id": "C07", "title": "The _w literal denotes its decimal value", "statement": "For every decimal literal accepted by operator\"\"_w, the resulting width is the literal's value rounded to a multiple of 1/65536 (error below 1/65536), saturated above.", "quantifier": "every digit string with optional fraction", "why_tests_cant": "unbounded set of literals", "anchors": ["include/strf/width_t.hpp: mp_double_width / operator\"\" _w parsing"]}
{"id": "C08", "title": "C-string destination: result is a NUL-terminated prefix inside the buffer", "statement": "For every sequence of write operations on a cstr_destination of n >= 1 characters: nothing outside the buffer (or the destination's private scratch area) is written; after finish() the buffer holds a prefix of the text that was written, followed by a NUL at the returned pointer; if truncated is false the prefix is the whole text.", "quantifier": "every buffer size, every history of put / write / write_fill / direct-buffer writes / flush / finish", "why_tests_cant": "unbounded histories; out-of-bounds writes may not crash", "anchors": ["include/strf/destination.hpp: basic_cstr_destination (recycle, do_write, finish)"]}
{"id": "C09", "title": "array destination: result is a prefix inside the array", "statement": "For every history of writes on array_destination over an n-character array, only the array (or scratch area) is written, and finish() returns a pointer p such that [begin,p) is a prefix of the written text, the whole text when truncated is false.", "quantifier": "every array size and history", "why_tests_cant": "unbounded histories", "anchors": ["include/strf/destination.hpp: array_destination"]}
{"id": "C10", "title": "String destinations hold exactly the concatenation of what was written", "statement": "string_appender, string_maker and sized_string_maker produce (initial string ++) the exact concatenation of everything written, for every way of splitting it into writes, and writes never leave the buffer obtained from the destination.", "quantifier": "every initial string, every history of operations, any initial size (for the sized maker: any requested size and histories that exceed it)", "why_tests_cant": "buffer-boundary crossings at every offset", "anchors": ["include/strf/to_string.hpp: basic_string_appender, basic_string_maker, basic_sized_string_maker"]}
{"id": "C11", "title": "C file destination: file content is a prefix, count is exact, success iff everything was written", "statement": "With a file that may accept only part of any write, the characters delivered to the file are a prefix of the text written; finish().count is the number delivered; success is true iff everything was delivered.", "quantifier": "every history and every behaviour of the file (how many characters each fwrite accepts)", "why_tests_cant": "failure injection at every point", "anchors": ["include/strf/to_cfile.hpp: cfile_writer_base, narrow_cfile_writer"]}
{"id": "C12", "title": "streambuf destination: content is a prefix, count is exact, success iff everything was written", "statement": "As C11 for std::basic_streambuf.", "quantifier": "every history and every behaviour of the streambuf's sputn", "why_tests_cant": "failure injection at every point", "anchors": ["include/strf/to_streambuf.hpp: basic_streambuf_writer (recycle, do_write, finish)"]}
{"id": "C13", "title": "Discarding destination accepts anything and touches only its scratch buffer", "statement": "discarder never becomes good, every write sequence terminates and stays inside the scratch buffer.", "quantifier": "every history", "why_tests_cant": "unbounded histories", "anchors": ["include/strf/destination.hpp: discarder"]}
{"id": "C14", "title": "write_fill / encode_fill write exactly n copies of the fill character", "statement": "write_fill(dst,n,ch) and charset encode_fill append exactly n copies of the (encoded) fill character to any good destination, nothing for n <= 0, and stop only when the destination reports failure.", "quantifier": "every count, every code point, every destination and buffer position", "why_tests_cant": "counts around the buffer size at every offset", "anchors": ["include/strf/output_buffer_functions.hpp: write_fill, write_fill_continuation", "include/strf/detail/utf.hpp: encode_fill"]}
{"id": "C15", "title": "put/write/copy append exactly the given units to any conforming destination", "statement": "destination::put, write, the default do_write loop and output_buffer_interchar_copy append exactly the given units in order to any destination obeying the destination contract and never write outside the current buffer.", "quantifier": "every data, every sequence of buffer refills", "why_tests_cant": "splits at every position", "anchors": ["include/strf/destination.hpp: output_buffer::write, put, do_write", "include/strf/output_buffer_functions.hpp: output_buffer_interchar_copy"]}
{"id": "C16", "title": "UTF-8 decoding follows the Unicode definition with maximal-subpart replacement", "statement": "Transcoding UTF-8 to UTF-32 (strict surrogates) yields the code points of every well-formed sequence, and one U+FFFD for every maximal subpart of an ill-formed sequence, for arbitrary byte strings.", "quantifier": "every byte string", "why_tests_cant": "infinitely many malformed strings", "anchors": ["include/strf/detail/utf.hpp: static_transcoder<utf8,utf32>::transcode"]}
{"id": "C17", "title": "UTF-16 decoding follows the Unicode definition", "statement": "Transcoding UTF-16 to UTF-32 yields the scalar of every unit / surrogate pair and one U+FFFD per unpaired surrogate (strict), for arbitrary 16-bit unit strings.", "quantifier": "every 16-bit unit string", "why_tests_cant": "infinitely many malformed strings", "anchors": ["include/strf/detail/utf.hpp: static_transcoder<utf16,utf32>::transcode"]}
{"id": "C18", "title": "UTF-32 input is validated and encoded exactly", "statement": "Transcoding UTF-32 to UTF-8/UTF-16/UTF-32 encodes each scalar value by the standard's encoding and replaces each surrogate (strict) and each value above 0x10FFFF by U+FFFD.", "quantifier": "every 32-bit unit string", "why_tests_cant": "unbounded strings", "anchors": ["include/strf/detail/utf.hpp: static_transcoder<utf32,*>::transcode"]}
{"id": "C19", "title": "encode_char, validate and encoded_char_size agree with the standard encoding", "statement": "For every UTF charset and every code point: validate(c) is the number of units of the encoding iff c is a scalar value (else the invalid mark), encode_char writes exactly the standard encoding (that of U+FFFD for invalid ones, in UTF-8 and UTF-16) and its length is encoded_char_size(c).", "quantifier": "every char32_t value", "why_tests_cant": "2^32 values x 3 encodings; range boundaries", "anchors": ["include/strf/detail/utf.hpp: static_charset<...>::encode_char, validate, encoded_char_size"]}
{"id": "C20", "title": "UTF round trips are lossless on valid text", "statement": "For every sequence of scalar values s, encoding s and transcoding between any two UTF encodings gives exactly the target encoding of s; going there and back is the identity.", "quantifier": "every sequence of scalar values, every pair of UTF encodings", "why_tests_cant": "unbounded text", "anchors": ["include/strf/detail/utf.hpp: static_transcoder"]}
{"id": "C21", "title": "Transcoder output is always well-formed", "statement": "Whatever the input, the output of a strict transcoding into UTF-8/16/32 is well-formed in the target encoding.", "quantifier": "every input unit string", "why_tests_cant": "malformed inputs are infinite", "anchors": ["include/strf/detail/utf.hpp: static_transcoder"]}
{"id": "C22", "title": "transcode_size predicts the number of units transcode writes", "statement": "For the same input and flags transcode_size (with a sufficient limit) equals the number of units written by transcode; with a smaller limit it stops without exceeding the limit.", "quantifier": "every input, every limit", "why_tests_cant": "malformed inputs, limits at every boundary", "anchors": ["include/strf/detail/utf.hpp: transcode_size, transcode_size_continue_on_inv_seq_"]}
{"id": "C23", "title": "Transcoding into a bounded buffer can be resumed without loss", "statement": "Transcoding with limited destination space writes a prefix of the complete output that fits, reports insufficient space, and resuming at the returned source position yields the rest: concatenation over any sequence of buffers equals the one-shot output.", "quantifier": "every input, every sequence of buffer sizes", "why_tests_cant": "buffer boundaries x inputs", "anchors": ["include/strf/detail/utf.hpp: transcode", "include/strf/detail/facets/charset.hpp: transcode to destination"]}
{"id": "C24", "title": "Each ill-formed sequence is reported to the error notifier exactly once", "statement": "While transcoding a text the transcoding-error notifier is called exactly once per replaced sequence, in order, also when the text is processed in several chunks.", "quantifier": "every input and chunking", "why_tests_cant": "depends on where chunks end", "anchors": ["include/strf/detail/utf.hpp: transcode, invalid_sequence", "include/strf/detail/facets/charset.hpp: decode_encode"]}
{"id": "C25", "title": "unsafe_transcode equals transcode on valid input", "statement": "On well-formed input, unsafe_transcode and unsafe_transcode_size give the same output and size as the checked versions.", "quantifier": "every well-formed input", "why_tests_cant": "unbounded text", "anchors": ["include/strf/detail/utf.hpp: unsafe_transcode, unsafe_transcode_size"]}
{"id": "C26", "title": "Lax surrogate mode keeps lone surrogates and nothing else changes", "statement": "With flags lax_surrogate_policy, encoded surrogates are accepted as code points and everything else is treated as in strict mode.", "quantifier": "every input", "why_tests_cant": "malformed inputs", "anchors": ["include/strf/detail/utf.hpp: lax_surrogate_policy branches"]}
{"id": "C27", "title": "stop_on_invalid_sequence stops exactly at the first ill-formed sequence", "statement": "With the stop flag, transcode outputs exactly the transcoding of the longest valid prefix, returns invalid_sequence with the source position at that sequence iff one exists, and completed otherwise.", "quantifier": "every input", "why_tests_cant": "malformed inputs at every position", "anchors": ["include/strf/detail/utf.hpp: transcode with transcode_flags::stop_on_invalid_sequence"]}
{"id": "C28", "title": "Transcoding through the UTF-32 pivot equals decode followed by encode", "statement": "The generic decode_encode (used when no direct transcoder exists) yields the same text as decoding everything then encoding everything, for every pivot chunking, and decode_encode_size yields its length.", "quantifier": "every input, any number of 16-code-point chunks", "why_tests_cant": "chunk boundaries x inputs", "anchors": ["include/strf/detail/facets/charset.hpp: decode_encode, decode_encode_size"]}
{"id": "C29", "title": "count_codepoints counts code points", "statement": "count_codepoints(s, max) returns the number of code points the string decodes to (bounded by max) together with the position after them; count_codepoints_fast agrees on valid text.", "quantifier": "every string and maximum", "why_tests_cant": "unbounded strings", "anchors": ["include/strf/detail/utf.hpp: count_codepoints, count_codepoints_fast"]}
{"id": "C30", "title": "Single-byte charsets: decoding and encoding are mutually inverse", "statement": "For each single-byte charset, encode(decode(b)) = b for every byte with a mapping, decode(encode(c)) = c for every code point with a mapping, bytes without mapping decode to U+FFFD and unmapped code points become '?'.", "quantifier": "every charset, all 256 bytes, all 2^32 code points", "why_tests_cant": "2^32 code points x 26 charsets", "anchors": ["include/strf/detail/single_byte_charsets.hpp: impl_*::decode, encode"]}
{"id": "C31", "title": "Single-byte charsets extend ASCII", "statement": "In every single-byte charset the bytes 0x00-0x7F denote the ASCII characters in both directions.", "quantifier": "every charset and ASCII byte", "why_tests_cant": "cross product of charsets and directions; together with C30", "anchors": ["include/strf/detail/single_byte_charsets.hpp: impl_*::decode, encode"]}
{"id": "C32", "title": "Single-byte transcoding maps unit by unit; sizes agree", "statement": "Transcoding to/from UTF-32 is the unit-wise map of encode/decode with replacement, for any chunking, and transcode_size equals the number of units written.", "quantifier": "every input string, flags", "why_tests_cant": "unbounded inputs", "anchors": ["include/strf/detail/single_byte_charsets.hpp: single_byte_charset_to_utf32, utf32_to_single_byte_charset"]}
{"id": "C33", "title": "Errors from UTF-32 to single-byte charsets are classified correctly", "statement": "Code points that are not scalar values are invalid, and scalar values with no mapping are unsupported: stop flags and notifiers react to exactly those classes.", "quantifier": "every code point", "why_tests_cant": "2^32 code points", "anchors": ["include/strf/detail/single_byte_charsets.hpp: find_first_invalid_codepoint, find_first_valid_but_unsupported_codepoint, transcode"]}
{"id": "C34", "title": "Digit counts are exact", "statement": "The digit count used to size integer output equals the number of digits of the value, for bases 2, 8, 10 and 16 and all integer sizes.", "quantifier": "every unsigned value of 8/16/32/64 bits and base", "why_tests_cant": "2^64 values; powers of the base", "anchors": ["include/strf/detail/int_digits.hpp: count_digits, count_digits_unrolled"]}
{"id": "C35", "title": "Printed digits denote the value", "statement": "The digits printed for an integer in base 2, 8, 10, 16 are the canonical positional representation of its magnitude (no leading zero except for 0).", "quantifier": "every value of every integer type and base", "why_tests_cant": "2^64 values", "anchors": ["include/strf/detail/int_digits.hpp: write_*_txtdigits_backwards, intdigits_writer"]}
{"id": "C36", "title": "Digit grouping inserts separators exactly where the grouping says", "statement": "With a numpunct facet, the printed digits with separators removed are the plain digits, and separators are exactly at the positions prescribed by the grouping.", "quantifier": "every value, every grouping, every thousands separator code point", "why_tests_cant": "all groupings x values", "anchors": ["include/strf/detail/int_digits.hpp: write_*_little_sep, write_big_sep", "include/strf/detail/facets/numpunct.hpp: digits_grouping"]}
{"id": "C37", "title": "separators_count / any_separator / distribute agree with the grouping", "statement": "For every grouping and digit count: separators_count is the number of separators of the prescribed grouping, any_separator tells whether it is positive, and distribute yields group sizes that sum to the digit count.", "quantifier": "every grouping and every digit count", "why_tests_cant": "6 groups x 31 sizes x counts", "anchors": ["include/strf/detail/facets/numpunct.hpp: digits_grouping"]}
{"id": "C38", "title": "Grouping constructors represent the requested groups", "statement": "digits_grouping built from integers, from a std::lconv-style string or by the creator represents exactly the requested sequence of group sizes (with the last repeated unless disabled), or is empty when the request is invalid.", "quantifier": "every sequence of group sizes", "why_tests_cant": "30^6 sequences", "anchors": ["include/strf/detail/facets/numpunct.hpp: digits_grouping(...), digits_grouping_creator, ctor2_"]}
{"id": "C39", "title": "Formatted integers: sign, base prefix, precision, zero padding, fill and alignment", "statement": "The text printed for an integer with format options is exactly: fill, sign, base prefix, zero padding (precision or pad0), digits, fill, in the amounts the options prescribe; default printing gives the canonical decimal text.", "quantifier": "every integer of every size incl. the minimum signed value, every combination of options", "why_tests_cant": "options x values", "anchors": ["include/strf/detail/printable_types/int.hpp: init_fmt_int_printer_data, default_int_printer, aligned_default_int_printer"]}
{"id": "C40", "title": "Integer printing never writes outside the destination buffer", "statement": "Whatever the value, options and free space in the destination buffer, printing an integer requests buffer space before writing and never writes past it.", "quantifier": "every value, option set and buffer state", "why_tests_cant": "needs specific leftover space", "anchors": ["include/strf/detail/printable_types/int.hpp: int_printer_no_pad0_nor_punct", "include/strf/detail/int_digits.hpp: intdigits_writer<2>::write_little_sep"]}
{"id": "C41", "title": "Changing the base of a formatted integer keeps its other options", "statement": "Setting the base (hex(), oct(), bin(), base(n)) on a formatted integer value changes the base only: precision, sign, showbase, pad0, alignment and punct are kept.", "quantifier": "every option set", "why_tests_cant": "cross product of options", "anchors": ["include/strf/detail/printable_types/int.hpp: int_format_specifier_*::base, hex, oct, bin"]}
{"id": "C42", "title": "Premeasured size and width equal what is printed", "statement": "For every printable argument the premeasured size equals the number of units the printer then writes, and the premeasured width equals the display width of that text.", "quantifier": "every value and option set", "why_tests_cant": "cross product; silent reallocation hides errors", "anchors": ["include/strf/detail/printable_types/int.hpp: printers' premeasurements", "include/strf/detail/printable_types/string.hpp: init_", "include/strf/detail/printable_types/char.hpp: fmt_char_printer", "include/strf/detail/printable_types/bool.hpp: fmt_bool_printer"]}
{"id": "C43", "title": "Aligned strings are padded to exactly the requested width", "statement": "A string printed with width w and alignment has max(0, round(w - width(s))) fill characters in total, all left / all right / split half-half according to the alignment, around the unmodified (or transcoded) string.", "quantifier": "every string, width, fill, alignment, width calculator", "why_tests_cant": "unbounded strings x fractional widths", "anchors": ["include/strf/detail/printable_types/string.hpp: aligned_strcpy_printer, aligned_transcode_printer"]}
{"id": "C44", "title": "String precision keeps the longest prefix that fits", "statement": "With precision p only a prefix of the string is printed whose width does not exceed p, and (for the simple calculators) it is the longest such prefix; it never splits a code point (a grapheme, for the standard calculator).", "quantifier": "every string and precision", "why_tests_cant": "every cut position", "anchors": ["include/strf/detail/printable_types/string.hpp: aligned_strcpy_printer with precision", "include/strf/detail/facets/width_calculator.hpp: str_width_and_pos"]}
{"id": "C45", "title": "Aligned joins pad the concatenation to the requested width", "statement": "An aligned join prints its arguments' concatenation with exactly the missing width of fill characters at the requested side(s).", "quantifier": "every list of printable arguments, width, alignment", "why_tests_cant": "unbounded argument lists; width accumulation overflow", "anchors": ["include/strf/detail/printable_types/join.hpp: aligned_join_printer, make_printer", "include/strf/detail/premeasurements.hpp: width_accumulator"]}
{"id": "C46", "title": "Accumulated premeasurements equal the sum over the arguments", "statement": "The size accumulator equals the total number of units; the width accumulator's remaining width is max(0, limit - sum of widths) whatever the number of arguments.", "quantifier": "every list of arguments and limit", "why_tests_cant": "overflow needs large totals", "anchors": ["include/strf/detail/premeasurements.hpp: width_accumulator, size_accumulator"]}
{"id": "C47", "title": "Formatted characters and booleans print the right text", "statement": "A char with multi(n), width and fill prints n copies with the right padding; bool prints true/false with alignment.", "quantifier": "every char, count, width, alignment", "why_tests_cant": "counts around buffer size", "anchors": ["include/strf/detail/printable_types/char.hpp: fmt_char_printer", "include/strf/detail/printable_types/bool.hpp: bool_printer, fmt_bool_printer"]}
{"id": "C48", "title": "fast_width / width_as_fast_u32len / width_as_u32len measure strings as documented", "statement": "The width of a string is its number of units / (fast) code points, limited by the given limit; str_width_and_pos returns the longest prefix within the limit, and its width; the width of a concatenation is the sum of the widths.", "quantifier": "every string and limit", "why_tests_cant": "all limits and cuts", "anchors": ["include/strf/detail/facets/width_calculator.hpp: fast_width_t, width_as_fast_u32len_t, width_as_u32len_t"]}
{"id": "C49", "title": "Standard width calculation does not depend on internal chunking", "statement": "std_width_calculator's str_width of a text equals the width computed on its whole code point sequence, whatever its length, and str_width_and_pos never splits a grapheme cluster and never returns a negative width.", "quantifier": "every text and limit", "why_tests_cant": "errors only at multiples of the internal chunk size", "anchors": ["include/strf/detail/facets/width_calculator.hpp: std_width_calculator_t::str_width, str_width_and_pos"]}
{"id": "C50", "title": "Standard width sums one width per grapheme cluster", "statement": "The width is the sum over grapheme clusters (UAX #29 boundaries for the property classes) of the width of the cluster's base code point.", "quantifier": "every code point sequence", "why_tests_cant": "cluster rules interact over unbounded context", "anchors": ["include/strf/detail/facets/width_calculator.hpp: std_width_calc_func"]}
{"id": "C51", "title": "Translation-string formatting places the arguments as documented", "statement": "tr(fmt, args...): text outside braces is copied, {{ prints {, {} and {N} print the arguments, comments are skipped, invalid indexes print the replacement character and are reported.", "quantifier": "every format string and argument list", "why_tests_cant": "unbounded format strings", "anchors": ["include/strf/detail/tr_printer.hpp: tr_string_write"]}
{"id": "C52", "title": "tr-string premeasured size equals the written size", "statement": "The size premeasured for a tr-string equals the number of characters written for the same format string and arguments.", "quantifier": "every format string and argument list", "why_tests_cant": "two separate parsers of the format string must agree on every string", "anchors": ["include/strf/detail/tr_printer.hpp: tr_string_size, tr_string_write, tr_do_premeasurements"]}
{"id": "C53", "title": "The rightmost matching facet wins", "statement": "get_facet on a facets pack returns the last facet in the pack of the requested category whose constraint accepts the argument type, and the category's default otherwise; nesting packs does not matter.", "quantifier": "every pack and argument type", "why_tests_cant": "unbounded packs", "anchors": ["include/strf/facets_pack.hpp: facets_pack, pack, get_facet"]}
{"id": "C54", "title": "Ranges print all elements with separators exactly between them", "statement": "range / separated_range print every element in order with the separator between consecutive elements only; premeasured size equals the text's size.", "quantifier": "every range, including empty, and separator", "why_tests_cant": "unbounded ranges", "anchors": ["include/strf/detail/printable_types/range.hpp: range_printer, separated_range_printer"]}
{"id": "C55", "title": "Floating-point layout from decimal significand and exponent is exact", "statement": "Given the decimal significand m and exponent e of a finite value, fixed / scientific / general notation with optional precision prints a text denoting m*10^e, rounded to nearest-even of the decimal digits when a precision is given, with the requested number of fractional digits.", "quantifier": "every significand, exponent, precision and notation", "why_tests_cant": "2^64 x exponents x precisions", "anchors": ["include/strf/detail/printable_types/float.hpp: init_double_data_*, print_amplified_integer, print_scientific_notation"]}
{"id": "C56", "title": "The reserve policy and the evaluation order do not change what is printed", "statement": "to_string(args...), to_string.reserve(n)(args...) and to_string.reserve_calc()(args...) (and append) return the same text, the concatenation of the arguments' texts (plus a newline with .line), whatever the capacity asked for and the order in which the printers are made; the size reserve_calc asks for is exactly the text's.", "quantifier": "every list of printable arguments, reserved size and evaluation order", "why_tests_cant": "unbounded lists, sizes around buffer boundaries, unspecified evaluation order", "anchors": ["include/strf/detail/reserve_policies.hpp: reserve_calculated_size_and_call_printables, printing_without_tr_string", "include/strf/to_string.hpp"]}
{"id": "C57", "title": "Doubles and floats print as their shortest decimal and read back to the same bits", "statement": "Without a precision, the decimal number printed for a finite double or float rounds (to nearest, ties to even) to exactly that value; no shorter decimal does, and among those as short it is the nearest, ties to an even significand; different values print different texts.", "quantifier": "every finite double and float, every decimal notation, letter case and grouping", "why_tests_cant": "2^64 values; the shortest decimal is a statement about every other decimal", "anchors": ["include/strf/detail/dragonbox.hpp: to_decimal, compute_nearest_normal, compute_nearest_shorter, cache tables, wuint, log, div", "include/strf/detail/printable_types/float.hpp: decode, fast_double_printer"]}
{"id": "C58", "title": "With a precision, the decimal printed is the one nearest to the value", "statement": "With precision p in fixed notation the number printed is the multiple of 10^-p nearest to the value of the double.", "quantifier": "every double and precision", "why_tests_cant": "double rounding happens for a few values only", "anchors": ["include/strf/detail/printable_types/float.hpp: init_double_data_fixed, punct_double_printer"]}
{"id": "C59", "title": "locale_numpunct gives the punctuation of the locale", "statement": "The facet returned by locale_numpunct() has the decimal point and thousands separator the locale's strings spell in its codeset (UTF-8, ISO-8859-1/-3/-15, UTF-16 on Windows), separates digits exactly where the locale's grouping string says (ISO C or Windows syntax), and falls back to no grouping or U+FFFD when a string is missing or malformed.", "quantifier": "every locale: all grouping strings, separator and decimal point strings, codesets", "why_tests_cant": "the set of strings a locale may supply is unbounded and platform dependent", "anchors": ["include/strf/locale.hpp: parse_win_grouping, decode_first_char_from_utf16, decode_first_char, get_decoder, make_numpunct, locale_numpunct"]}
{"id": "C60", "title": "finish() closes a destination and destruction flushes it once", "statement": "After finish() nothing more reaches the file, stream, string or user's buffer, whatever is written afterwards and however often finish() is called again (which then reports failure and the same count); a file writer or string appender destroyed without finish() leaves the same contents finish() would have left; nothing is flushed twice.", "quantifier": "every history of writes and finish() calls, before and after the first finish(), and every device", "why_tests_cant": "unbounded histories; the interleavings of flushes, finish and destruction", "anchors": ["include/strf/to_cfile.hpp: cfile_writer_base::finish, destroy", "include/strf/to_streambuf.hpp: finish, destructor", "include/strf/to_string.hpp: basic_string_appender, basic_string_maker", "include/strf/destination.hpp: basic_cstr_destination::finish"]}
{"id": "C61", "title": "Exceptions of the underlying string or stream do not corrupt a destination", "statement": "If std::string or the stream buffer throws and the caller catches the exception and goes on, no memory outside the buffers is touched, nothing is written twice or out of order; a string appender keeps a prefix of the text, a string maker returns all or nothing, and finish() of a stream writer reports success only if everything was written.", "quantifier": "every history of operations and every set of calls that throw", "why_tests_cant": "crash points: every call of append or sputn may throw", "anchors": ["include/strf/to_string.hpp: basic_string_appender, basic_string_maker, basic_sized_string_maker", "include/strf/to_streambuf.hpp: recycle, do_write, finish"]}
{"id": "C62", "title": "Format functions set their own option only; the last call wins", "statement": "For any chain of format functions (fill, <, >, ^, set_/clear_alignment_format, hex, p, pad0, +, ~, !, *, fixed, sci, multi, transcode_from, ...) on a value, the value is unchanged and every option equals what the last call about it gave, or its default; calls of different families can be reordered without changing the result; a chain compiles exactly when each call belongs to the type and its integer calls are accepted; integers print the same text whatever chain set the options (base(n) is C41's subject).", "quantifier": "every printable type and every finite chain of format functions, in any order", "why_tests_cant": "unbounded chains; each call rebuilds the object from its base classes", "anchors": ["include/strf/detail/value_and_format.hpp: value_and_format, fmt_replace, separate_fmtpair_list", "include/strf/detail/format_functions.hpp: alignment_format_specifier_fn, quantity_format_specifier_fn, free functions", "include/strf/detail/printable_types/float.hpp: *_format_specifier_*fn", "include/strf/detail/printable_types/string.hpp: transcoding_format_specifier_fn, string_precision_format_specifier_fn"]}
{"id": "C63", "title": "unsafe_transcode prints well-formed text like the checked transcoding", "statement": "A well-formed string printed with unsafe_transcode appears as the same text, and is measured with the same size and width, as when printed with sanitising transcoding, for every pair of charsets (direct or through UTF-32), alignment, precision, premeasurement and destination, whether the charsets are compared at compile time or at run time.", "quantifier": "every pair of charsets, width calculator, alignment, precision, well-formed source and destination", "why_tests_cant": "unbounded texts; 28 x 28 pairs of charsets; chunk boundaries of the buffers", "anchors": ["include/strf/detail/printable_types/string.hpp: unsafe_transcode_printer, aligned_unsafe_transcode_printer, string_printer_type, transcode_printer_variant", "include/strf/detail/facets/charset.hpp: unsafe_decode_encode_size, transcode, decode_encode"]}
{"id": "C64", "title": "A printing expression prints its arguments under its facets, whatever the chain of calls", "statement": "For to(dest).with(...).reserve(...)...(args...) and the line, tr and trline forms: whichever calls are chained and in whatever order, the result is the text of the arguments in order under the facets of all the with(...) followed by those of the call (rightmost that accepts the type wins, inner with(...) further right); the reservation chosen and the order of evaluation do not show; the result is what the chosen destination returns for that text.", "quantifier": "every chain of with/reserve/reserve_calc/no_reserve calls, every list of facets, printables (overridden or not, nested with(...)), every destination", "why_tests_cant": "unbounded chains and argument lists; every combination of facets, filters, reservation and destination", "anchors": ["include/strf/printing_syntax.hpp: destination_printing_syntax, with, reserve, reserve_calc, no_reserve, reserve_given_space", "include/strf/detail/separate_args_and_print.hpp", "include/strf/detail/reserve_policies.hpp", "include/strf/detail/printing_helpers.hpp", "include/strf/detail/printable_types/facets_pack.hpp"]}
{"id": "C65", "title": "output_buffer_iterator sends exactly the assigned values", "statement": "Whatever an algorithm does with an output_buffer_iterator and its copies (increment, dereference, assign, in any order), the destination receives exactly the assigned values in order; into a C string of n units the first n-1 and a terminator, into an array of n units the first n, the rest of the buffer untouched, and failed() is true exactly if more values were assigned than fit.", "quantifier": "every sequence of iterator operations, every destination, buffer size and content", "why_tests_cant": "unbounded sequences; every buffer size", "anchors": ["include/strf/iterator.hpp: output_buffer_iterator", "include/strf/destination.hpp: put, basic_cstr_destination, array_destination"]}
{"id": "C66", "title": "The replacements of standard functions agree with the standard ones", "statement": "In builds without the standard library or compiler builtins, the length, search, comparison, fill and copy of strings, binary search, leading-zero count, integer limits and string-view comparison give the standard results and read or write nothing beyond the given range.", "quantifier": "every memory content, count, range, comparison, integer type and value", "why_tests_cant": "all 2^64 values; unbounded strings and ranges", "anchors": ["include/strf/detail/standard_lib_functions.hpp: slow_countl_zero_ll, str_length, str_find, str_equal, str_fill_n, copy_n, lower_bound, int_limits", "include/strf/detail/simple_string_view.hpp: simple_string_view, operator==, operator!="]}
{"id": "C67", "title": "Numeric punctuation facets deliver what was configured", "statement": "After any sequence of setters, a numpunct facet reports the last grouping, separator and decimal point set, counts and distributes as its grouping does, and compares equal exactly to facets with the same configuration; default_numpunct and no_grouping act as no groups, with the decimal point set for no_grouping; every predefined facet is well formed, never uses the same character as separator and decimal point, and integers are printed with it by its groups.", "quantifier": "every history of setter calls, every grouping, number of digits, predefined facet, UTF, integer type, value and format", "why_tests_cant": "unbounded histories; every integer and format for 306 facets", "anchors": ["include/strf/detail/facets/numpunct.hpp: numpunct, default_numpunct, no_grouping, numpunct_en_US and the other predefined facets"]}
{"id": "C68", "title": "A charset chosen at run time behaves as the static one", "statement": "to_dynamic() of any charset gives an object with the same id, replacement character, validation, sizes, encoder, decoder and counters; two of them compare equal exactly when the charset is the same; find_transcoder gives the same transcoder (or none) whether each of the two charsets is static or dynamic, hence transcode, transcode_size, their unsafe forms and transcoding into a destination give the same results and notifications in all four combinations.", "quantifier": "every pair of charsets (UTFs and the 25 single-byte ones), character type, wchar_t width and signedness, flags, source text, space and destination", "why_tests_cant": "every text and limit for 28x28 charset pairs in four combinations of static and dynamic", "anchors": ["include/strf/detail/facets/charset.hpp: dynamic_charset, dynamic_charset_data, find_transcoder, transcode, transcode_size, unsafe_transcode", "include/strf/detail/utf.hpp: static_charset::find_transcoder_to/from, to_dynamic", "include/strf/detail/single_byte_charsets.hpp: single_byte_charset_tilde_family"]}
{"id": "C69", "title": "Printing any float in any format is defined and stays within the destination", "statement": "For every bit pattern of a double or float and every format (notation, precision up to 2^30, zero padding up to 2^30, alignment, sign, showpoint, punctuation with any grouping and separator), the printer computes without integer overflow or out-of-range table access, and its writes append the text to any destination without exceeding the room there is, also in the cases where the announced size or width is too small.", "quantifier": "every bit pattern, format, set of facets and destination", "why_tests_cant": "2^64 values times unbounded formats and facets", "anchors": ["include/strf/detail/printable_types/float.hpp: punct_double_printer, init_double_data_*, print_amplified_integer*, print_hexadecimal_float", "include/strf/detail/dragonbox.hpp: to_decimal"]}
{"id": "C70", "title": "A text that fits in the destination's buffer is printed there, complete, with nothing flushed", "statement": "Every printable argument of the library reserves no more room than the text it prints: if the rest of the destination's buffer is at least as long as the text, printing stores exactly the text there and does not call recycle() nor do_write(), whatever these would do. So strf::to(buffer, size) reports truncation exactly when the text and its terminator do not fit in the buffer (and strf::to(range) exactly when the text does not), otherwise the buffer holds the text (and the terminator) followed by what was there before; also with tr() strings.", "quantifier": "every printable argument, format, facet, buffer size, former contents, and behaviour of recycle/do_write", "why_tests_cant": "a printer that reserves a unit too many (ensure(n+1)) fails only when a text ends exactly at the end of a buffer", "anchors": ["include/strf/destination.hpp: ensure, buffer_space, recycle, basic_cstr_destination, array_destination", "include/strf/detail/int_digits.hpp: write_int, write_digits_*", "include/strf/detail/printable_types/int.hpp", "include/strf/detail/printable_types/float.hpp", "include/strf/detail/printable_types/string.hpp", "include/strf/detail/printable_types/char.hpp", "include/strf/detail/tr_printer.hpp"]}
{"id": "C71", "title": "Hexadecimal floating-point text denotes the value exactly", "statement": "strf::hex(x) of a finite double or float is an optional sign, 0x, hexadecimal digits with a point, p and a decimal exponent which, read as C's strtod reads it, is exactly x (signed zeros and subnormal numbers included), with no digit 0 at the end of the fraction; different values have different texts. With a precision the fraction has that many digits and the number is the nearest such one, ties to even.", "quantifier": "every double and float, precision, sign option, zero padding, letter case, width, fill and alignment, and every charset where the point is encoded as '.'", "why_tests_cant": "2^64 values; the edge cases (subnormal numbers, trailing zeros, ties, carries) depend on the bits of the mantissa", "anchors": ["include/strf/detail/printable_types/float.hpp: init_hex_double_printer_data, print_hexadecimal_float, hex notation in punct_double_printer", "include/strf/detail/printable_types/float.hpp: decode(double), decode(float)"]}
{"id": "C72", "title": "Printed integers read back as the value; different values have different texts", "statement": "Read as fill characters, a sign, the prefix of the base, digits (with the thousands separators between them) and fill characters, the text of an integer printed in any format is the integer: the value in decimal, its two's complement bits in the other bases. So in one format different values of a type have different texts. Pointers read back as the address.", "quantifier": "every integer type and value, base, precision, zero padding, sign and base options, grouping, separator, width, fill and alignment, as long as separator and fill are no letters, digits or signs (and a positive number is not marked by the fill character)", "why_tests_cant": "every value of 64 bits times every format", "anchors": ["include/strf/detail/printable_types/int.hpp", "include/strf/detail/int_digits.hpp"]}
{"id": "C73", "title": "Text printed in another encoding is well-formed, keeps its characters and can be printed back", "statement": "Printing any string, well-formed or not, with transcoding (a different encoding, or strf::sani/sanitize) into a UTF-8, UTF-16 or UTF-32 string gives well-formed text: the characters of the source with U+FFFD for each ill-formed subsequence; sanitizing the result again changes nothing. Well-formed text, in a UTF or in any of the 25 single-byte charsets, keeps its code points, and printing the result in the first encoding gives back the same string, with the checked and the unsafe transcoding.", "quantifier": "every source string, encoding and single-byte charset, policy, width calculator, chain of facets, reservation and evaluation order", "why_tests_cant": "texts are unbounded and the internal buffers are cut at any place", "anchors": ["include/strf/detail/printable_types/string.hpp: transcode_printer, aligned_transcode_printer, transcoding policies", "include/strf/detail/utf.hpp", "include/strf/detail/single_byte_charsets.hpp", "include/strf/detail/facets/charset.hpp"]}
{"id": "C74", "title": "The library's assertions never fail for valid arguments", "statement": "In a build with assertions (STRF_ASSERT), calls that keep the documented preconditions stop at none of them: ensure(n) with n <= 64 and flush() find the room they assert; the loops over digits, groups and separators find what they assert; the width calculators' counts stay within what they assert. Exception: width_as_u32len_t::str_width fails its assertion exactly when the text has more than 32767 code points and the limit is beyond 32767.", "quantifier": "every destination and state, count, grouping, value, string (ill-formed or not) and width limit", "why_tests_cant": "assertions are compiled out in release builds and the tests reach few of the values at which they could fail", "anchors": ["include/strf/destination.hpp: ensure, flush", "include/strf/detail/facets/width_calculator.hpp: width_as_fast_u32len_t, width_as_u32len_t", "include/strf/detail/int_digits.hpp", "include/strf/detail/facets/numpunct.hpp", "include/strf/detail/printable_types/float.hpp", "include/strf/detail/facets/charset.hpp"]}
{"id": "C75", "title": "Printing text in another encoding reports to the error notifier what is wrong with it, in order", "statement": "While a string is transcoded into a destination (by a string printer or strf::transcode to a destination), with flags that do not stop, the transcoding_error_notifier is told of each invalid sequence of the source, in order and with its length, and of each code point that the destination's charset lacks, in order; of nothing else; and of all of them unless the destination fails. Each is reported once, or twice in a row: again when the destination's buffer, or the 16 code points pivot buffer, ran out just in front of it (so exactly-once is false). With a direct transcoder the two kinds are in the order of the text as well. One exception: from UTF-32 to a single-byte charset with the strict surrogate policy, a code point of 0xE000..0xFFFF that is lacked is reported, in its place, as an invalid sequence (C33).", "quantifier": "every pair of charsets (the UTFs and the 25 single-byte ones), source (ill-formed or not), destination kind, state of it and failure of it", "why_tests_cant": "how often something is reported depends on where the buffers of the destination end", "anchors": ["include/strf/detail/facets/charset.hpp: transcode, decode_encode (to a destination)", "include/strf/detail/printable_types/string.hpp: transcode_printer", "include/strf/detail/utf.hpp", "include/strf/detail/single_byte_charsets.hpp"]}
{"id": "C76", "title": "What is printed to a UTF-8, UTF-16 or UTF-32 destination is well-formed text", "statement": "Integers and pointers in every base, format and grouping, every double and float in every notation and precision, booleans, char32_t values, strings in any charset under a policy that sanitizes (plain or formatted with width, fill and precision), joins, and tr-strings of them print a sequence of complete encodings of Unicode scalar values, and so does to_string of several: no padding, separator, decimal point, cut or replacement ever splits or corrupts an encoded character. Fill characters, decimal points and characters to print must not be surrogates (nor beyond 0x10FFFF for UTF-32); a thousands separator that cannot be encoded is not printed, and a tr-string must itself be well-formed. In a single-byte charset integers print only bytes to which the charset assigns a character, and so do floating-point numbers unless their separator is written as a raw character number (C55).", "quantifier": "every value, format, facet, fill character, separator, width, precision, source string (ill-formed or not), list of arguments and tr-string, in the three UTF encodings", "why_tests_cant": "the ways of combining formats, multi-unit fill characters, separators, points and ill-formed sources are unbounded", "anchors": ["include/strf/detail/printable_types/int.hpp", "include/strf/detail/printable_types/float.hpp", "include/strf/detail/printable_types/string.hpp", "include/strf/detail/printable_types/join.hpp", "include/strf/detail/printable_types/char.hpp", "include/strf/detail/tr_printer.hpp: tr_string printing", "include/strf/detail/utf.hpp: encode_char, encode_fill, validate"]}
