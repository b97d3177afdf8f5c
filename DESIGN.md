# Formal model of robhz786/strf in Rocq (Coq 8.16.1)

## Layout

* `properties.jsonl` – the properties (C01…).
* `rocq/theories/*Model*.v` – the model, function by function, each definition citing the C++ lines.
  (`UtfSizeModel`, `DragonTables`, `SbcsTables`, `GcbTable`, `FloatBits`, … belong to the model as well.)
* `rocq/theories/*Spec*.v` – independent specifications: nothing in them comes from the code.
* `rocq/theories/*Proofs*.v` and the others – proofs.
* `rocq/theories/Properties_*.v` – only the property theorems (each closed by `exact`), with
  `Print Assumptions` and a non-vacuity `Example` beside each.
* `MANIFEST.json` – property → theorem names and status.
* `seeded/LOG.jsonl` – mutation experiments: a bug is seeded in the model, the log says which theorem fails.

## Trusted base

* Coq's kernel (8.16.1), including `vm_compute`.
* The reading of the C++ source as the Gallina model: nothing ties them but the cited lines.  Tables (single-byte
  charsets, grapheme-break intervals, dragonbox powers) were extracted from the headers by script.
* Machine integers are `Z` with explicit wrap (`to_u`, `to_i`); signed overflow, out-of-buffer writes,
  failing `STRF_ASSERT`s, out-of-range shifts and other undefined behaviour are the outcome `None`; a theorem that
  concludes `= Some …` therefore includes the absence of all of them.
* Facts about C++ used by the model: two's complement conversions, truncating division, 8-bit bytes, 64-bit
  `long`/`size_t`/`ptrdiff_t`, IEEE 754 `float`/`double` representations (bit patterns), `char` units given as their
  unsigned value.
* Template selection (overload resolution, tag dispatch) was done by hand, reading; where the selection itself is
  the property (C53 facets, C41 formats) it is modelled.

## Assumptions

`Print Assumptions` prints "Closed under the global context" for every theorem of every `Properties_*.v`: no axiom,
of the standard library or otherwise, is used.  (`vcheck` also lists the fields of the module types of Coq's own
`ssr.ssrunder`; they come with the standard library files loaded and no theorem depends on them.)

## Conventions

* Code units and code points are `Z`; strings are `list Z`.
* A theorem with suffix `_partial` proves a restriction of the English property; its comment and the note in
  MANIFEST.json say what is missing.
* A theorem with suffix `_refuted` shows a concrete input on which the *faithful* model (hence, by reading, the
  code) violates the property: these are findings about the code.  A property with a `_refuted` theorem is marked
  `partial` even when the proved part covers everything for which it is true.

## What is modelled

| header | modelled | not modelled |
|---|---|---|
| width_t.hpp | constructors, casts, sat_add/sub/mul, compare, floor/ceil/round, operators, `_w` literals | – |
| destination.hpp, output_buffer_functions.hpp | output_buffer put/write/do_write/copy, cstr, array, discarded, write_fill | output_buffer_test_tool, reference-binding overloads |
| to_string.hpp, to_cfile.hpp, to_streambuf.hpp | all buffer management (appender, maker, sized maker, narrow/wide FILE, streambuf) | `std::basic_string`, `FILE*` and `streambuf` themselves: a string is a list, a device is an arbitrary function |
| detail/utf.hpp | the nine transcoders, their size and unsafe variants, encode/validate/count functions | the `*_sanitized` helper names; signed wide source types: the one place of utf.hpp where they matter, transcode_size 3013-3037, is modelled (C22); all the other reads are cast or masked |
| detail/single_byte_charsets.hpp | the 25 charsets and the shared transcoders, also for a signed source type (SbcsSignedModel) | – |
| detail/facets/charset.hpp | pivot (decode_encode and sizes), transcode to a destination, find_transcoder; dynamic_charset and its data record, find_transcoder_to/from members, all static/dynamic combinations (DynModel) | charset names |
| detail/facets/numpunct.hpp | digits_grouping and its iterators, creators, distribution, separators_count, the three facet classes, the predefined facets | – |
| iterator.hpp, detail/standard_lib_functions.hpp, detail/simple_string_view.hpp | output_buffer_iterator; the freestanding functions; string views | `reference_wrapper`, `addressof`, `bit_cast`, the branches calling std |
| detail/facets/width_calculator.hpp | the four calculators, grapheme state machine and table | – |
| detail/int_digits.hpp | count and write functions, separators | – |
| detail/premeasurements.hpp, measure.hpp, printable_def.hpp, printers_tuple.hpp, printing_syntax.hpp, reserve_policies.hpp | accumulators, printers, the reserve policies, tr variants, overriders | – |
| detail/tr_printer.hpp, detail/polymorphic_printer.hpp | tr_string: parsing, sizes, widths, writing and errors; a polymorphic printer is the printer it wraps | virtual calls |
| detail/printable_types | int, pointers, bool, char, string (all transcoding policies), join, range, tr_string, float, facets_pack | `std::string_view`-like adaptors |
| detail/value_and_format.hpp, detail/format_functions.hpp | specifier lists, fmt_replace, every format function and free function | value categories (`&`/`&&` overloads), deprecated aliases |
| detail/dragonbox.hpp | to_decimal<float>, to_decimal<double> with the policies strf uses (full tables) | the other policies, from_chars-like parts |
| printing_syntax.hpp, separate_args_and_print.hpp, printing_helpers.hpp | chains, overload categories, argument separation, overriders, creators | deprecated aliases, `constexpr` |
| facets_pack.hpp | pack, lookup, constrained facets | `constexpr`/reference plumbing |
| locale.hpp | parse_win_grouping, decoders, make_numpunct, locale_numpunct | the OS call (its result is a parameter) |

Not modelled at all: concurrency (the library has none), exceptions thrown by user types (those of std::string and of
stream buffers are: C61), overload resolution beyond C62.

## Plan per property
* **C01** Integers convert to width_t with saturation – model width_t constructors/casts with explicit wrap; prove equal to clamp(65536 n).
* **C02** Saturating addition and subtraction of widths are exact or clamped – same; the int64 subtraction is false of the code (refuted): the exact set where it holds is an iff.
* **C03** Saturating multiplication of a width by an integer is exact or clamped – all sat_mul overloads, UB-checked 64-bit products.
* **C04** Width comparisons agree with the numeric order – compare overloads; int16/uint16 overflow refuted, with an iff for where it is right; rest proved.
* **C05** floor, ceil and round of a width are the mathematical functions – floor/ceil/round with the code's bit operations vs. mathematical characterisation.
* **C06** Width product and quotient operators approximate the real result – product as truncated clamp; quotient: an iff giving exactly the operands for which the code rounds right; negative dividends refuted.
* **C07** The _w literal denotes its decimal value – template literal parser as recursion on digit lists, u64 wrap included; C07_literal_value gives the value of every literal, C07_literal_iff_partial the exact set of right ones.
* **C08** C-string destination: result is a NUL-terminated prefix inside the buffer – destination state machine with explicit memory regions; invariant over operation histories; refuted after truncation + do_write; proved otherwise.
* **C09** array destination: result is a prefix inside the array – same for array_destination.
* **C10** String destinations hold exactly the concatenation of what was written – state machines of to_string.hpp; R-relation 'content ++ buffer = text so far' by induction over histories.
* **C11** C file destination: file content is a prefix, count is exact, success iff everything was written – file as oracle returning how much of each write is accepted; invariant over histories.
* **C12** streambuf destination: content is a prefix, count is exact, success iff everything was written – same with streambuf as an arbitrary device; C12_streambuf_any covers every history; the prefix part is refuted for do_write after a short write.
* **C13** Discarding destination accepts anything and touches only its scratch buffer – state machine of discarder.
* **C14** write_fill / encode_fill write exactly n copies of the fill character – write_fill loops over any law-abiding destination (abstract record of operations with stated laws).
* **C15** put/write/copy append exactly the given units to any conforming destination – put/write/default do_write/copy over any law-abiding destination.
* **C16** UTF-8 decoding follows the Unicode definition with maximal-subpart replacement – UTF-8 decoder as written (goto structure as list recursion) vs. independent spec by table 3-7 / maximal subparts.
* **C17** UTF-16 decoding follows the Unicode definition – same for UTF-16.
* **C18** UTF-32 input is validated and encoded exactly – same for UTF-32.
* **C19** encode_char, validate and encoded_char_size agree with the standard encoding – per-code-point functions vs. arithmetic definition of the encodings.
* **C20** UTF round trips are lossless on valid text – encode spec + decode correctness.
* **C21** Transcoder output is always well-formed – well-formedness predicate as an independent list predicate.
* **C22** transcode_size predicts the number of units transcode writes – transcode_size functions modelled separately, compared with transcode output length; limit off-by-one refuted.
* **C23** Transcoding into a bounded buffer can be resumed without loss – bounded-space transcode and resumption, induction over input.
* **C24** Each ill-formed sequence is reported to the error notifier exactly once – notifier calls as an event list; one call: exactly once; any number of calls: at least once, in order, at most one repetition per call; refuted as 'exactly once'.
* **C25** unsafe_transcode equals transcode on valid input – unsafe variants modelled; equality on well-formed input.
* **C26** Lax surrogate mode keeps lone surrogates and nothing else changes – policy flag is a parameter of the decoder model.
* **C27** stop_on_invalid_sequence stops exactly at the first ill-formed sequence – stop flag is a parameter of the transcoder model.
* **C28** Transcoding through the UTF-32 pivot equals decode followed by encode – decode_encode loop with pivot buffer over arbitrary decoder/encoder, instantiated.
* **C29** count_codepoints counts code points – count functions modelled and related to decoding.
* **C30** Single-byte charsets: decoding and encoding are mutually inverse – tables transcribed by script from the header; finite sweeps lifted to all code points.
* **C31** Single-byte charsets extend ASCII – finite sweep.
* **C32** Single-byte transcoding maps unit by unit; sizes agree – list maps; sizes.
* **C33** Errors from UTF-32 to single-byte charsets are classified correctly – refuted (0xE000..0xFFFF), proved elsewhere.
* **C34** Digit counts are exact – count_digits comparison trees vs. b^(n-1) <= x < b^n.
* **C35** Printed digits denote the value – digit writers vs. canonical positional digits.
* **C36** Digit grouping inserts separators exactly where the grouping says – little/big separator writers vs. independent grouping spec.
* **C37** separators_count / any_separator / distribute agree with the grouping – bit-packed grouping iterator vs. abstract list of groups.
* **C38** Grouping constructors represent the requested groups – constructors vs. abstract groups.
* **C39** Formatted integers: sign, base prefix, precision, zero padding, fill and alignment – init_fmt_int_printer_data + print vs. textual spec.
* **C40** Integer printing never writes outside the destination buffer – buffer-space-checked printing; two findings refuted; IntOverflow says exactly when these two formats overflow.
* **C41** Changing the base of a formatted integer keeps its other options – format-option records before/after base(); refuted for one class.
* **C42** Premeasured size and width equal what is printed – size/width functions vs. printed text lengths. The width is refuted for a thousands separator that cannot be encoded (counted, not printed); IntChars / FloatChars: the width is the number of characters the text encodes (C42_integer_characters, C55_characters).
* **C43** Aligned strings are padded to exactly the requested width – string printers over any destination; spec text.
* **C44** String precision keeps the longest prefix that fits – precision via str_width_and_pos.
* **C45** Aligned joins pad the concatenation to the requested width – join printer; width overflow refuted.
* **C46** Accumulated premeasurements equal the sum over the arguments – accumulators as folds; overflow refuted.
* **C47** Formatted characters and booleans print the right text – char/bool printers.
* **C48** fast_width / width_as_fast_u32len / width_as_u32len measure strings as documented – width calculators as functions on lists.
* **C49** Standard width calculation does not depend on internal chunking – chunked loops vs. one pass; refuted for pos.
* **C50** Standard width sums one width per grapheme cluster – state machine over property classes; table is a parameter or generated.
* **C51** Translation-string formatting places the arguments as documented – tr_string parser vs. independent grammar-based spec.
* **C52** tr-string premeasured size equals the written size – two parsers agree for all strings.
* **C53** The rightmost matching facet wins – facets pack as list lookup (overload resolution abstracted).
* **C54** Ranges print all elements with separators exactly between them – range printers.
* **C55** Floating-point layout from decimal significand and exponent is exact – digit layout functions for every format and notation, from any decimal (m10, e10); conditions for the formats with precision, with the rest refuted.
* **C56** The reserve policy and the evaluation order do not change what is printed – printers made in any permutation of the arguments; no_reserve, reserve, reserve_calc give the same text.
* **C57** Doubles and floats print as their shortest decimal and read back to the same bits – dragonbox as written (tables, magic numbers, wrap); shortest/closest by an independent rational spec; C57_double_formatted (FloatFmtRead): any decimal format without precision (width, fill, pad0, grouping) reads back to the bitsification of rounding intervals; correctness by three-gap/best-approximation certificates per cache entry, checked by the kernel; bits ↔ rationals in FloatBits.
* **C58** With a precision, the decimal printed is the one nearest to the value – proved relative to the shortest decimal; double rounding refutes it relative to the value. Exact: by convexity of the rounding interval no shorter decimal lies between the shortest decimal and the value, so rounding differs only at ties (PrecisionSpec, PrecisionProofs).
* **C59** locale_numpunct gives the punctuation of the locale – parser of Windows grouping strings vs. independent grammar; ISO C grouping strings; CHAR_MAX refuted.
* **C60** finish() closes a destination and destruction flushes it once – event histories (operations, finish) followed by the destructor; invariants 'closed' kept by every operation.
* **C61** Exceptions of the underlying string or stream do not corrupt a destination – oracle of throwing calls; an operation that throws is abandoned; invariants over histories with catches; stream recycle() refuted.
* **C62** Format functions set their own option only – the object is a value and a list of specifiers; fmt_replace and the selecting constructor are modelled; last-wins by induction on the chain; exact compile condition; texts of integers depend on options only.
* **C63** unsafe_transcode – the unsafe printers share the measuring code of the checked ones (string_arg with policy Unsafe); the unsafe functions, direct or pivot, are related to the same steps as the checked ones on well-formed sources; then the C43/C44 theorems apply. Refuted for fast_width with a precision.
* **C64** the printing syntax – a chain of calls as a fold over (destination, reservation, facets), with the value categories that decide which overload compiles; the separation of the call's arguments; printable selection (own definition, overrider facet, nested with). A destination is described by what it returns for a text (creator_keeps), proved for each of the library's; then any call = texts of the printables under facets given by the rightmost-accepting rule.
* **C65** output_buffer_iterator – an iterator operation is a put or nothing; a sequence is related to a put-only history; for the fixed buffers an exact invariant (contents, position, good) by induction.
* **C66** replacements of standard functions – structural recursions over the accessible memory (None beyond it); binary search by the invariant "less before first, not less from first+len"; the leading-zero tree by case analysis and lia.
* **C67** numpunct facets – setters as a fold, "last value set" as the specification; the predefined table (extracted by script) checked by computation once, then C35–C39 applied to every entry. Refuted for no_grouping.
* **C68** run-time charsets – dynamic_charset_data as a record of functions filled from the static charset; find_transcoder's overloads modelled one by one, each shown to return the static transcoder; then every user of find_transcoder.
* **C69** floats always printable – punct_double_printer's result is shown to exist (no None) with well-formed writes for every decoded double/float: bound on the counts from the init functions, layouts without the side conditions of C55 (FloatSafe, FloatHexCarry, FloatAlways); the same lemmas give what is printed in the cases C55 refutes.

  Properties_Args joins the layers: C64_any (any printable whose printer reads facets), C64_string, C64_aligned_string, C64_double, C64_float and
  C57_to_string (from any printing expression to the bits of the double).

* **C70** text that fits is printed in place – `prints_text p t` (PrintSpec), the meaning of every `arg_ok`, now has two halves: on any
  lawful destination the text is appended (prints_anywhere), and where the buffer has room the writer stays in it (prints_in_room). The second
  half is proved for every printer from the reservations it makes (RoomProofs: tight/frugal sequences of operations; RoomCset, RoomInt,
  RoomFloat; strings through the transcoder's buffer protocol). Theorems that quantify over arbitrary printables therefore suppose printables
  that do not over-reserve; every printable of the library qualifies.

* **C71** hexadecimal text is exact – HexSpec is a reader of such texts (no part of the model), FloatHexRead shows that what C55 says is printed is
  read as the value (float_at of ShortestSpec, rationals), for doubles and floats; the precision case through `nearest`, with the carry into the
  first digit as the exception (refuted). No new code is modelled: decode64/32, init_hex and print_hex are FloatModel's.

* **C72** integers read back – IntReadSpec is a reader (fill, sign, prefix of the base, digits with separators, fill); IntRead shows that the text of
  IntSpec, which C39 says is printed, is read as the value (two's complement bits outside of decimal); injectivity follows.
* **C73** text in another encoding – the string printers of C43 (rendered) with C20/C28/C30: the source's code points are scalar values, their encoding is well-formed, transcoding it again or back is exact; to_string end to end by C64_string.

* **C74** assertions – each STRF_ASSERT of a modelled function makes the result `None`, so every theorem concluding `= Some …` (C08–C15, C35–C40,
  C42, C55, …) excludes its failure; here ensure and flush on any destination (from C08–C13's laws; the flush of each loop asserts the room of its own class: 64 units for
  output_buffer<T,6>, 8 for transcode_dst, 1 for output_buffer<T,0>), and the width calculators' assertions on
  counts, kept as separate predicates (from C29).  Not modelled, because they state a caller's precondition or are implied by the types of the
  model: the destination constructors (destination.hpp:309–323, 454–467, 551–560), `src <= src_end` everywhere, printing_syntax.hpp:654/682,
  to_cfile's `file != nullptr`, numpunct.hpp:192 (`any_separator`, a bool argument), charset.hpp:734; and the few that repeat a test made just before
  (named in the comments of the model).

* **C75** reports – the loops of charset.hpp:1158–1214 and 1548–1583 written once more with what the notifier hears (NoteModel; forgetting it gives back the functions of
  C28 and the string printers, C75_same_output). `reads` and `reports` (NoteSpec) say what should be heard, from the maximal subparts of C20 (`misread` being the one exception, from C33); the invariant of each loop is
  that the prefix dealt with was reported once or twice, the doubles being the step at which the buffer ran out (which was looked at before).
* **C76** well-formedness – every number printed is ASCII and the encodings of fill, point and separator (TextClosed: what holds of these and of concatenations holds of
  `int_text`, `float_text` and of what FloatAlways shows the code prints beyond them). Well-formed texts are closed under concatenation and may be cut at any ASCII unit (WellProofs.well_cut), which is where
  tr-strings are cut; `well_arg` (Properties_Well) is kept by joins, padding, to_string and to_string.tr. In the 25 single-byte charsets the same closure gives bytes that the charset assigns (C76_integer_bytes, C76_double_bytes, C76_float_bytes).

## Findings about the code

Each is a `_refuted` theorem, or a remark from reading (marked †).

* Width: `sat_sub(width_t, int64)` wrong outside a range (C02); int16/uint16 comparisons overflow (C04); quotients of negative
  widths (C06); `40000_w` and long fractions (C07).
* Destinations: cstr/array `do_write` after overflow stores out of bounds (C08, C09); streambuf `do_write` after a short
  `sputn` leaves a hole (C12).
* UTF: 8→8 size limit off by one (C22), unsafe size 8→32 ignores the limit (C25), signed 32-bit sources (C22), notifications repeated on
  resumption (C24) and after exactly 16 code points through the pivot (C28).
* Single-byte: windows-1254 / 1258 encode code points that do not belong to them (C30); U+E000–U+FFFF taken for surrogates
  (C33); transcode_size wrong on U+FFFD, 0xD800, U+FFFF, 0x110000 (C32).
* Integers: padding one short when the separator cannot be encoded (C39); two formats do not reserve enough (C40);
  `base(n)` after precision loses options (C41).
* Strings and joins: precision with a wide character that does not fit (C43), chunk boundary (C44), measured joins near the
  width limit or wider than it (C45), accumulated widths overflow (C46), negative multi count (C47), reported width =
  limit (C49).
* Floats: general/precision carry omits the sign from the size; fixed/precision carry does not recompute separators; stale
  separator count on fixed→sci carry; single-unit separators in print_fixed cast instead of encoded; hex
  precision loses the carry; general+showpoint+precision strips zeros (C55); double rounding (C58); a negative precision
  other than −1 indexes out of the table†.
* Exceptions: `basic_streambuf_writer::recycle` leaves the writer good when `sputn` throws, so that finish() reports success
  although text was lost (C61).
* Locale: CHAR_MAX not honoured in lconv::grouping (C59).
* Unsafe transcoding: fast_width with a precision cuts a code point and the unsafe transcoder reads past the end (C63).
* † `transcode_printer_variant<DstCharT>::operator()` and its aligned twin take a `destination<char>&` whatever DstCharT is;
  `value_and_format(const value_type&, value_and_format<Other>&&)` casts away const (ill-formed if instantiated).
* † `to_string.reserve_calc().tr(...)`, `to_string.with(constrain<F>(a)).with(b)` and
  `fmt_separated_range(initializer_list, sep)` do not compile; C++11 `get_facet<Cat.Tag>` typo; `strcpy` printers
  measure with the facets' charset rather than the argument's; the tr replacement character is counted as one
  column whatever the width calculator says.
* † Printing syntax (C64): `with()` on a non-const lvalue returns an xvalue as `&`, `no_reserve() const&` after a reservation
  builds from `{dest_creator_, fpack_}`, and `reserve(n)` after `reserve(n)` is not a member: none of them compiles.
  `.tr(named_pack, ...)` takes a named pack (or constrained facet) for the tr-string.
* `no_grouping<B>::decimal_point(ch)` stores a value that `decimal_point()` never returns (it returns `U'.'`), and the member
  has no initialiser although operator== reads it (C67).
* † `cast_int` (strf_def.hpp) returns `std::uint64_t`.
* charset.hpp: `has_find_transcoder_to` tests for the member `find_transcoder_from`; harmless for the library's charsets, which have
  both (C68), wrong for a user charset with only one of them.
* single_byte_charsets.hpp:146-279, 2667-2670 compare `*src` with int literals without a cast: with a signed 32-bit source type
  (wchar_t on Linux) every unit from 0x80000000 on is taken for a valid but unsupported code point instead of an invalid sequence,
  so stop_on_invalid_sequence does not stop at it (C32_from_wchar_refuted; SbcsSignedModel).
* width_calculator.hpp:137: `width_as_u32len_t::str_width` asserts `res.count <= width_max.floor()` but counts up to `limit.non_negative_ceil()`, which is
  32768 for a limit beyond 32767: with a text of more than 32767 code points the assertion fails, although `sat_cast` handles the count (the fast
  version asserts with `ceil`) (C74_u32len_refuted).
* numpunct.hpp:316: constructing `digits_grouping_iterator` from an empty `digits_grouping` fails the assertion of `current()`; the library itself only
  uses `get_iterator()`.
* A negative `strf::multi(c, n)` count is not only undefined for a char (C47): a char32_t printed to a destination with a single-byte charset reaches the
  `encode_fill` of that charset, which takes the count for one that fits (`count <= available`) and calls `str_fill_n` with it (undefined); with UTF nothing is printed for it but the fill characters (C47_negative_char32_exact_partial).
* single_byte_charsets.hpp:3125-3147 and char.hpp:107-127 do not test `good()` in their fill loops: a destination that has failed is flushed until the
  whole count has been written to its scratch space.
* An invalid sequence or lacked code point just in front of which the destination's buffer ran out is reported twice to the notifier, since the transcoders report
  before they test for room and are called again from the same place after `recycle()` (C75_once_refuted: 62 units in a 64 unit buffer).
* `strf::to(buf)` with too little room keeps a prefix of the code units, not of the characters: a string copied into it may be cut inside a character (C76_cut_ex).
