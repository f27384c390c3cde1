{
 "claims": [
  {
   "property": "C01",
   "status": "proved",
   "theorems": [
    "C01_integers_canonical",
    "C01_canonical_unique"
   ],
   "note": "All ten integer types, both data models; the canonical numeral is proved unique, so the output is fully determined."
  },
  {
   "property": "C02",
   "status": "proved",
   "theorems": [
    "C02_integer_buffer"
   ],
   "note": "A write or read outside the 22-byte array or the digit table would be the outcome UB, which the theorem excludes."
  },
  {
   "property": "C03",
   "status": "proved",
   "theorems": [
    "C03_integer_round_trip"
   ],
   "note": "For the std::string and the const char* overload of lexi<T>."
  },
  {
   "property": "C04",
   "status": "proved",
   "theorems": [
    "C04_integer_extraction",
    "C04_prefix_exists",
    "C04_prefix_unique"
   ],
   "note": "Every byte string has exactly one maximal numeric prefix (C04_prefix_exists, C04_prefix_unique), so the theorem determines the result on every input."
  },
  {
   "property": "C05",
   "status": "partial",
   "theorems": [
    "C05_malformed_reported_refuted",
    "C05_in_range_partial",
    "C05_exact_iff"
   ],
   "note": "REFUTED: lexi<int>(\"99999999999999999999\") returns -1 (C05_malformed_reported_refuted). Proved instead: the numeric prefix of a text is read exactly if and only if it is in the range of T."
  },
  {
   "property": "C06",
   "status": "proved",
   "theorems": [
    "C06_constructor",
    "C06_enum_formats",
    "C06_enum_round_trip",
    "C06_enum_extraction"
   ],
   "note": "All underlying types of an enumeration, including bool, char, wchar_t, char16_t, char32_t."
  },
  {
   "property": "C07",
   "status": "proved",
   "theorems": [
    "C07_fpos_formats",
    "C07_fpos_round_trip",
    "C07_fpos_extraction"
   ],
   "note": ""
  },
  {
   "property": "C08",
   "status": "proved",
   "theorems": [
    "C08_bool_formats",
    "C08_bool_extracts",
    "C08_other_strings_throw"
   ],
   "note": ""
  },
  {
   "property": "C09",
   "status": "proved",
   "theorems": [
    "C09_null"
   ],
   "note": ""
  },
  {
   "property": "C10",
   "status": "proved",
   "theorems": [
    "C10_char",
    "C10_char_extracts"
   ],
   "note": ""
  },
  {
   "property": "C11",
   "status": "partial",
   "theorems": [
    "C11_float_literals",
    "C11_literals_honoured_refuted",
    "C11_bool_literal_partial",
    "C11_null_literal_partial"
   ],
   "note": "REFUTED: with LEXI_TRUE \"yes\", lexi(true) is the four bytes y e s NUL. Proved: exactly which configured literals are honoured (length 4 for true and null, 5 for false; below 30 for the floating point literals)."
  },
  {
   "property": "C12",
   "status": "proved",
   "theorems": [
    "C12_append",
    "C12_escape",
    "C12_escape_any_platform"
   ],
   "note": ""
  },
  {
   "property": "C13",
   "status": "partial",
   "theorems": [
    "C13_escape_all_refuted",
    "C13_escape_all_partial"
   ],
   "note": "REFUTED: DEL (127) is ASCII, not alphanumeric, and not escaped. Proved: every other ASCII non-alphanumeric character is escaped."
  },
  {
   "property": "C14",
   "status": "proved",
   "theorems": [
    "C14_append",
    "C14_size",
    "C14_exact",
    "C14_exact_char",
    "C14_one_way",
    "C14_jsonify_decodes",
    "C14_jsonify_any_platform"
   ],
   "note": "C14_exact: every byte is written in its one way (short escape, \\u00xx or itself), nothing else is escaped; C14_one_way: the specification allows one text per byte."
  },
  {
   "property": "C15",
   "status": "proved",
   "theorems": [
    "C15_jsonify_utf8"
   ],
   "note": ""
  },
  {
   "property": "C16",
   "status": "partial",
   "theorems": [
    "C16_jsonify_char_refuted",
    "C16_jsonify_char_partial",
    "C16_ascii_only"
   ],
   "note": "REFUTED: jsonify(char 200) is not UTF-8. Proved: valid for the 128 ASCII characters and only for these."
  },
  {
   "property": "C17",
   "status": "proved",
   "theorems": [
    "C17_strings_pass",
    "C17_cstrings_as_strings"
   ],
   "note": ""
  },
  {
   "property": "C18",
   "status": "proved",
   "theorems": [
    "C18_classification",
    "C18_partition"
   ],
   "note": "Against Flocq's binary64; classes disjoint and exhaustive (C18_partition)."
  },
  {
   "property": "C19",
   "status": "proved",
   "theorems": [
    "C19_special_values"
   ],
   "note": ""
  },
  {
   "property": "C20",
   "status": "proved",
   "theorems": [
    "C20_double_round_trip",
    "C20_always_text",
    "C20_float_round_trip"
   ],
   "note": "For any policy for the out of bounds table read of C23: whenever a text is returned it reads back. If the stray read gives any word, a text always is returned (C20_always_text). Floats round back as floats too."
  },
  {
   "property": "C21",
   "status": "proved",
   "theorems": [
    "C21_digit_count"
   ],
   "note": ""
  },
  {
   "property": "C22",
   "status": "proved",
   "theorems": [
    "C22_float_buffer",
    "C22_only_the_table"
   ],
   "note": "C22_only_the_table: the only undefined behaviour is the table read of C23; no write leaves the 30-byte buffer."
  },
  {
   "property": "C23",
   "status": "partial",
   "theorems": [
    "C23_defined_refuted",
    "C23_everywhere",
    "C23_ten_digits",
    "C23_small_integers",
    "C23_last_place",
    "C23_last_place_unique",
    "C23_decided",
    "C23_exact",
    "C23_scale_exists",
    "C23_scale_unique",
    "C23_thirteen_decimals"
   ],
   "note": "REFUTED: formatting 1/3 reads POWER10[15], a table of 10 entries (dtoa.cpp:267), on every platform. Proved: the read is in bounds when the text has at most ten digits, in particular for every integer below 10^9 in magnitude; and exactly when it is not: between 2^-11 and 2^16, for the numbers printed with more than 13 decimals (C23_thirteen_decimals, C23_exact). For every double the place of the last digit, fixed by its value alone, decides it (C23_decided)."
  },
  {
   "property": "C24",
   "status": "partial",
   "theorems": [
    "C24_finite_json",
    "C24_all_json_refuted",
    "C24_configured"
   ],
   "note": "REFUTED for NaN and the infinities: jsonify(NaN) is the bare word NaN, not a JSON text. Proved for every finite double; with configured words exactly when the word is a JSON text (C24_configured)."
  },
  {
   "property": "C25",
   "status": "proved",
   "theorems": [
    "C25_injective"
   ],
   "note": ""
  },
  {
   "property": "C26",
   "status": "proved",
   "theorems": [
    "C26_sign_symmetry"
   ],
   "note": ""
  },
  {
   "property": "C27",
   "status": "proved",
   "theorems": [
    "C27_notation",
    "C27_written"
   ],
   "note": "C27_written: the text is exactly the sign and the digits laid out; no superfluous zeros beyond those fixed notation needs."
  },
  {
   "property": "C28",
   "status": "proved",
   "theorems": [
    "C28_integral"
   ],
   "note": ""
  },
  {
   "property": "C29",
   "status": "proved",
   "theorems": [
    "C29_near_shortest",
    "C29_exactly",
    "C29_exact_decimals"
   ],
   "note": "Margin: 1/500 ulp on each side of the rounding interval; C29_exactly has the exact interval (C90)."
  },
  {
   "property": "C30",
   "status": "partial",
   "theorems": [
    "C30_read_back_refuted",
    "C30_read_back",
    "C30_read_back_or_tie",
    "C30_read_back_near",
    "C30_special_read_back",
    "C30_exactly"
   ],
   "note": "REFUTED on x86 (80-bit long double): 0x1c350e0d552e5ba9 prints 8.51286005118775e-173, which reads back as the next double, through double rounding. Proved: exact with 64-bit and 128-bit long double, and with every format for patterns with an even significand; exactly when it fails (odd significand and the long double read is a midpoint, C30_exactly), and then it is a neighbour, never an infinity."
  },
  {
   "property": "C31",
   "status": "proved",
   "theorems": [
    "C31_float_read_back",
    "C31_float_special"
   ],
   "note": "Every finite non-zero float with every long double format; zero, infinities and NaN in C31_float_special (the sign of zero is lost, C33)."
  },
  {
   "property": "C32",
   "status": "partial",
   "theorems": [
    "C32_long_double_refuted",
    "C32_long_double_read_back",
    "C32_long_double_near"
   ],
   "note": "REFUTED on x86: 1+2^-63 prints 1.0. Proved when long double is binary64; in general the value read is within half a double unit of the nearest double."
  },
  {
   "property": "C33",
   "status": "partial",
   "theorems": [
    "C33_zero_sign_refuted",
    "C33_zero_read_back"
   ],
   "note": "REFUTED: -0.0 prints 0.0 and reads back as +0.0. Proved: both zeros read back as +0.0."
  },
  {
   "property": "C34",
   "status": "proved",
   "theorems": [
    "C34_floats_terminate",
    "C34_terminates",
    "C34_returns"
   ],
   "note": "NoFuel is never the outcome, for every formatter kind."
  },
  {
   "property": "C35",
   "status": "proved",
   "theorems": [
    "C35_every_function",
    "C35_integers_read",
    "C35_positions_read",
    "C35_same_text",
    "C35_same_multiplication",
    "C35_normalize",
    "C35_normalizeBoundary"
   ],
   "note": ""
  },
  {
   "property": "C36",
   "status": "proved",
   "theorems": [
    "C36_cached_power",
    "C36_exponent"
   ],
   "note": "All exponents Grisu2 can ask for, under double, fused and extended evaluation of the index."
  },
  {
   "property": "C37",
   "status": "proved",
   "theorems": [
    "C37_texts_denote",
    "C37_extracts",
    "C37_determined",
    "C37_cstr"
   ],
   "note": "Independent specification of what a text denotes (SpecRead.reads): white space, sign, decimal, hexadecimal, inf, nan; every text denotes exactly one thing. The value is rounded to long double and then to the type asked for. strtold itself is modelled, not verified (C17 7.22.1.3, correctly rounded)."
  },
  {
   "property": "C38",
   "status": "partial",
   "theorems": [
    "C38_locale_refuted",
    "C38_no_fraction",
    "C38_fraction_lost"
   ],
   "note": "REFUTED: with a decimal comma 1.5 is read as 1. Proved: texts without a fraction are independent of the decimal point; of the others exactly the integer part is read."
  },
  {
   "property": "C39",
   "status": "partial",
   "theorems": [
    "C39_self_contained_partial",
    "C39_constructed",
    "C39_origin_alive",
    "C39_origin_dead",
    "C39_origin_changed",
    "C39_same_class",
    "C39_runs_iff",
    "C39_copy_refuted",
    "C39_assignment_refuted",
    "C39_return_elided",
    "C39_model_elided",
    "C39_return_copied"
   ],
   "note": "REFUTED: FormatInt and FormatFloat keep pointers into their own array, so a copy reads the array of the object it descends from: a dangling pointer once that is destroyed, and its new text once it is assigned. Also the public functions depend on the omission of copies that C++14 only permits. Proved: formatters of null, bool and char in every history; every object constructed and never assigned to; copies while their origin is alive and unchanged; exactly what they show when it was changed to another number (a prefix of its text, or the text and its terminator, or an indeterminate read); the histories considered are exactly those of sensible programs."
  },
  {
   "property": "C40",
   "status": "partial",
   "theorems": [
    "C40_format",
    "C40_format_strings",
    "C40_format_rejected",
    "C40_extract_partial",
    "C40_extract_qualified",
    "C40_extract_rejected",
    "C40_qualified_refuted",
    "C40_model",
    "C40_model_routes",
    "C40_model_strings",
    "C40_model_extract"
   ],
   "note": "REFUTED for extraction: lexi<const int>, lexi<const double> and lexi<const std::fpos> have no overload. Proved: formatting for every type and qualifiers, extraction for unqualified types, and for qualified ones the exact result. Types are a grammar of fundamental, enumeration, class, pointer and array types; template argument deduction is modelled for the calls in lexi.hpp."
  },
  {
   "property": "C41",
   "status": "proved",
   "theorems": [
    "C41_decimal_text",
    "C41_decimal_value",
    "C41_decimal_refused"
   ],
   "note": "Stronger than stated: every text of at most 7999 bytes; also texts of any length whose number is below 2^(64*415). 8000 is the first length that can go wrong (C53)."
  },
  {
   "property": "C42",
   "status": "proved",
   "theorems": [
    "C42_add",
    "C42_multiply_64",
    "C42_multiply_32",
    "C42_power_of_five",
    "C42_every_number"
   ],
   "note": "For all three versions of mulAdd. LIMIT is 2^(64*416), the capacity."
  },
  {
   "property": "C43",
   "status": "partial",
   "theorems": [
    "C43_shift",
    "C43_whole_words_refuted",
    "C43_last_word_refuted",
    "C43_last_word_always",
    "C43_whole_words_result"
   ],
   "note": "REFUTED twice: a shift by a multiple of 64 moves the wrong words of a number longer than one word, and a shift that reaches the last word writes digits_[416]. Proved: exact or refused in every other case, and what the words are after a shift of the first kind (C43_whole_words_result)."
  },
  {
   "property": "C44",
   "status": "proved",
   "theorems": [
    "C44_compare",
    "C44_equal",
    "C44_queries"
   ],
   "note": "Also ==(uint64_t), isZero, digit and count."
  },
  {
   "property": "C45",
   "status": "partial",
   "theorems": [
    "C45_difference_partial",
    "C45_identical",
    "C45_lost_borrow_refuted",
    "C45_difference_exactly"
   ],
   "note": "REFUTED: 2^128 - (2^128-2^64+1) comes out too large by 2^128. Proved: the result is right exactly when no borrow arrives at an all-ones word of the smaller number, and too large otherwise; the returned flag is always right; equal numbers throw."
  },
  {
   "property": "C46",
   "status": "partial",
   "theorems": [
    "C46_power",
    "C46_fast_inside",
    "C46_inside",
    "C46_refuted"
   ],
   "note": "REFUTED: StrtodNormalPrecision and fastPath read outside of the table for exponents above 308. Proved: every entry is the nearest double and exact up to 22; fast never leaves the table; the others exactly for exponents up to 308. Literals are taken to be rounded to nearest by the compiler."
  },
  {
   "property": "C47",
   "status": "partial",
   "theorems": [
    "C47_integers_partial",
    "C47_small_exponents",
    "C47_accepted",
    "C47_accepted_all",
    "C47_twice",
    "C47_negative_accepted",
    "C47_accuracy",
    "C47_special_rejected",
    "C47_negative_refuted"
   ],
   "note": "REFUTED for negative significands: -2235605297855e30 is accepted and rounded twice. Proved: every non-negative integer significand, every finite significand with exponent at most 22, exactly which finite significands are accepted, that exponents above 22 round twice, and an error of at most 2^-50 for every finite significand. Evaluation in double (FLT_EVAL_METHOD 0)."
  },
  {
   "property": "C48",
   "status": "partial",
   "theorems": [
    "C48_exactly",
    "C48_short_decimal_refuted",
    "C48_short_decimal"
   ],
   "note": "REFUTED: 1e23 prints as 9.999999999999999e22. Proved for decimals of at most 15 digits that are not within ulp/500 of the ends of the rounding interval, in the normal range; C48_exactly names the exact interval (C90): 1e23 is one unit outside of it."
  },
  {
   "property": "C49",
   "status": "proved",
   "theorems": [
    "C49_views_agree"
   ],
   "note": ""
  },
  {
   "property": "C50",
   "status": "proved",
   "theorems": [
    "C50_float_as_double",
    "C50_long_double_as_double"
   ],
   "note": ""
  },
  {
   "property": "C51",
   "status": "partial",
   "theorems": [
    "C51_in_place_partial",
    "C51_in_place_result",
    "C51_in_place_refuted"
   ],
   "note": "REFUTED: (2^64+5) - 3 written into the left operand gives 2. Proved: right for numbers below 2^64, and exactly what is computed otherwise (C51_in_place_result)."
  },
  {
   "property": "C52",
   "status": "proved",
   "theorems": [
    "C52_words",
    "C52_copies"
   ],
   "note": "The previous contents of the assigned object are arbitrary."
  },
  {
   "property": "C53",
   "status": "partial",
   "theorems": [
    "C53_overrun_refuted",
    "C53_any_digits",
    "C53_too_large",
    "C53_from_8000",
    "C53_exactly",
    "C53_any_text"
   ],
   "note": "REFUTED: 10^7999 (which fits) makes the constructor write digits_[416]. Proved: every digit string gives the exact number or such an overrun; numbers beyond the capacity always overrun, the check is never reached; without leading zeros the overrun begins exactly at 8000 digits (C41_decimal_text up to there); with leading zeros exactly when (C53_exactly), also for texts with other characters (C53_any_text), so that the outcome is known for every text."
  },
  {
   "property": "C54",
   "status": "proved",
   "theorems": [
    "C54_json_iff"
   ],
   "note": "An equivalence: with the default literals the result is a JSON text exactly for the arguments that have one."
  },
  {
   "property": "C55",
   "status": "proved",
   "theorems": [
    "C55_integers",
    "C55_attained",
    "C55_floating"
   ],
   "note": "The bounds for integers are attained (C55_attained); 25 characters by -0.0000012345678901234568."
  },
  {
   "property": "C56",
   "status": "proved",
   "theorems": [
    "C56_order",
    "C56_order_iff"
   ],
   "note": "Between platforms in one direction, on one platform as an equivalence."
  },
  {
   "property": "C57",
   "status": "proved",
   "theorems": [
    "C57_integer_through",
    "C57_integer_kept"
   ],
   "note": "For every decimal point of the locale."
  },
  {
   "property": "C58",
   "status": "partial",
   "theorems": [
    "C58_integer_float_refuted",
    "C58_integer_floating",
    "C58_float_exactly"
   ],
   "note": "REFUTED for float where long double is double (Windows): 2^63+2^39+1 is rounded twice. Proved: long double and double on every platform, float where long double is wider; exactly when the float differs (C58_float_exactly)."
  },
  {
   "property": "C59",
   "status": "partial",
   "theorems": [
    "C59_truncated_refuted",
    "C59_truncated",
    "C59_integer_part",
    "C59_wide"
   ],
   "note": "REFUTED: 5e-324 is read as 5, since the exponent is not read. Proved for doubles printed without an exponent up to 2^53 in magnitude; beyond, the integer read converts to the same double (C59_wide); and for every JSON number, which integer is read."
  },
  {
   "property": "C60",
   "status": "partial",
   "theorems": [
    "C60_stable_refuted",
    "C60_double_stable",
    "C60_float_stable",
    "C60_settles",
    "C60_long_double",
    "C60_long_double_settles",
    "C60_long_double_exactly",
    "C60_exactly"
   ],
   "note": "REFUTED on x86 for the double of C30. Proved for doubles with the other long double formats or an even significand, and for all floats; including zeros, infinities and NaN; the text changes exactly when the double is not read back (C60_exactly); long doubles likewise (C60_long_double_exactly); the second time through text never changes anything (C60_settles)."
  },
  {
   "property": "C61",
   "status": "proved",
   "theorems": [
    "C61_reading_ordered"
   ],
   "note": "Infinities from overflow are included in the order."
  },
  {
   "property": "C62",
   "status": "proved",
   "theorems": [
    "C62_programs_exact",
    "C62_programs_refused"
   ],
   "note": "For both versions of mulAdd and programs of any length; C42, C43 and C52 give single operations."
  },
  {
   "property": "C63",
   "status": "partial",
   "theorems": [
    "C63_accuracy_partial",
    "C63_zero",
    "C63_large_refuted",
    "C63_exactly"
   ],
   "note": "REFUTED for exponents below -616 with significands above 10^292: 1e308 * 10^-617 becomes zero. Proved: it is accurate exactly for exponents from -616 and for values so small that zero is close enough; below -616 the result is always zero; exponents above 308 read outside of the table (C46)."
  },
  {
   "property": "C64",
   "status": "partial",
   "theorems": [
    "C64_half_unit_refuted",
    "C64_least_of_three"
   ],
   "note": "REFUTED: the body of withinHalfULP is a stub that returns 0, that is, exactly half a unit. Proved: min3, the helper its commented body uses."
  },
  {
   "property": "C65",
   "status": "partial",
   "theorems": [
    "C65_every_memory_refuted",
    "C65_closest",
    "C65_zero_memory_refuted",
    "C65_inside"
   ],
   "note": "REFUTED where POWER10 is left: with zeros there, 1 + 2^-52 prints as 1.0000000000000003. The same holds with any contents (C65_every_memory_refuted). Proved when the table is not left (strict policy, at most ten digits, or a last place inside the table by C23_exact); what is printed otherwise is C91."
  },
  {
   "property": "C66",
   "status": "partial",
   "theorems": [
    "C66_double_refuted",
    "C66_float_refuted",
    "C66_direct",
    "C66_nearest_or_tie",
    "C66_none_between",
    "C66_exact",
    "C66_exactly"
   ],
   "note": "REFUTED by double rounding: 9007199254740993.0000000000000000001 as double where long double is wider, 16777217.0000000000000000000000000001 as float everywhere. Proved: nearest for long double, and for double where long double is double; otherwise nearest unless the long double is the middle between two values; exactly when it is not (C66_exactly: the middle is rounded to the other side than the number); never a value between the number and the result; exact where the number is a value of the type."
  },
  {
   "property": "C67",
   "status": "partial",
   "theorems": [
    "C67_nine_digits_refuted",
    "C67_seventeen_digits",
    "C67_exact_decimals"
   ],
   "note": "REFUTED: 0.1f prints 0.10000000149011612, 17 digits. Proved: at most 17, and at most k for floats that are exactly a decimal of k digits."
  },
  {
   "property": "C68",
   "status": "proved",
   "theorems": [
    "C68_json_iff",
    "C68_meaning_exists",
    "C68_meaning_unique"
   ],
   "note": "For every pair of arguments of any types. A long double means the nearest double; zero has no sign."
  },
  {
   "property": "C69",
   "status": "proved",
   "theorems": [
    "C69_extraction"
   ],
   "note": "Every type, every byte string, every decimal point of a locale; default literals."
  },
  {
   "property": "C70",
   "status": "proved",
   "theorems": [
    "C70_embedded",
    "C70_leading_space",
    "C70_json"
   ],
   "note": "Every number type and every number printed; also for every JSON number."
  },
  {
   "property": "C71",
   "status": "partial",
   "theorems": [
    "C71_supported",
    "C71_every_compiler_refuted",
    "C71_exact",
    "C71_cut",
    "C71_legal",
    "C71_values",
    "C71_architecture",
    "C71_branches"
   ],
   "note": "REFUTED for compilers with a 64-bit long that do not define __GNUC__ (IBM XL on AIX): the 32-bit routine is compiled and 2^32 prints as 0. Proved: Windows compilers and all that define __GNUC__; exactly which macros print every long; what is printed otherwise; exactly which compilers get each branch of diyfp.cpp, bigint.cpp and dtoa.cpp."
  },
  {
   "property": "C72",
   "status": "proved",
   "theorems": [
    "C72_text",
    "C72_value",
    "C72_converted",
    "C72_never_extracted",
    "C72_enumeration",
    "C72_enumeration_converted",
    "C72_to_enumeration",
    "C72_null_pointer",
    "C72_string",
    "C72_unambiguous"
   ],
   "note": "Overload resolution by ranks of implicit conversions; arguments are lvalues (the literal 0, a null pointer constant, is not considered). lexi<int>(nullptr) compiles as the extraction from a null pointer (C72_null_pointer)."
  },
  {
   "property": "C73",
   "status": "proved",
   "theorems": [
    "C73_valid",
    "C73_distinct"
   ],
   "note": "Trees of any depth (the trees and their writer are a small program of ours that calls jsonify; the grammar of JSON is SpecJson). Equivalences in both directions."
  },
  {
   "property": "C74",
   "status": "proved",
   "theorems": [
    "C74_escaped",
    "C74_numbers"
   ],
   "note": "The separator may have any length; only its first byte is restricted, and the restriction to a byte other than the backslash is needed (C74_backslash_case)."
  },
  {
   "property": "C75",
   "status": "partial",
   "theorems": [
    "C75_json",
    "C75_tree",
    "C75_numbers",
    "C75_escape_refuted",
    "C75_escape_exactly"
   ],
   "note": "REFUTED for escape: a line feed stays a line feed behind the backslash. Proved for jsonify of every argument, for trees (C73), and for the texts of numbers, null and booleans; escape has control characters exactly if the text has (C75_escape_exactly)."
  },
  {
   "property": "C76",
   "status": "proved",
   "theorems": [
    "C76_format",
    "C76_read",
    "C76_check"
   ],
   "note": "The checked functions repeat those of ModelDtoa, ModelDiyfp and ModelStrtod with a check of every result of type int; they agree with them, so no check fails."
  },
  {
   "property": "C77",
   "status": "proved",
   "theorems": [
    "C77_any_evaluation",
    "C77_directions",
    "C77_model"
   ],
   "note": "Every operation may give either neighbour of the exact result (this includes all IEEE rounding directions, fused operations and excess precision); the five directions of IEEE 754 are shown to be such evaluations (Flocq arithmetic)."
  },
  {
   "property": "C78",
   "status": "partial",
   "theorems": [
    "C78_long_double_exactly",
    "C78_long_float_exactly",
    "C78_double_float_refuted",
    "C78_double_float",
    "C78_float_double",
    "C78_double_long_refuted",
    "C78_double_long",
    "C78_long_double_refuted",
    "C78_long_double",
    "C78_long_float_refuted",
    "C78_long_float",
    "C78_double_float_exactly"
   ],
   "note": "REFUTED for double to float (only doubles in the middle of two floats, where long double is wider than double), for double to long double where it is wider, for long double to double with the 80 bit format, and for long double to float. Proved for float to double always, and in all other cases but those (for long double to float, unless the nearest double is in the middle of two floats); exactly which doubles become another float (C78_double_float_exactly), which long doubles another double or float (C78_long_double_exactly, C78_long_float_exactly); a double always becomes a long double within half a unit of the double."
  },
  {
   "property": "C79",
   "status": "proved",
   "theorems": [
    "C79_read",
    "C79_printed",
    "C79_same_number",
    "C79_same_text"
   ],
   "note": "Sharp: with four places it fails, 5325690978.8283 is printed as 5325690978.8283009 (C79_four_places_case)."
  },
  {
   "property": "C80",
   "status": "proved",
   "theorems": [
    "C80_directed",
    "C80_enclosed",
    "C80_special",
    "C80_default"
   ],
   "note": "The C library is taken to round in the direction that is set (C17 F.5), as glibc does."
  },
  {
   "property": "C81",
   "status": "partial",
   "theorems": [
    "C81_read_back_refuted",
    "C81_read_back",
    "C81_float_back",
    "C81_printed",
    "C81_long_double"
   ],
   "note": "REFUTED for reading: 0.1 read downward is the double before the one printed. Proved: printing does not depend on the direction but for long double, which prints as the double rounded to in the direction; exactly when a double or float is read back, and that it is the next one otherwise."
  },
  {
   "property": "C82",
   "status": "partial",
   "theorems": [
    "C82_reported_refuted",
    "C82_unreported",
    "C82_value",
    "C82_integers",
    "C82_floating",
    "C82_others",
    "C82_integer_alarm",
    "C82_floating_alarm",
    "C82_unsigned",
    "C82_overflow",
    "C82_integers_printed",
    "C82_floats_printed",
    "C82_doubles_printed",
    "C82_tiny_refuted"
   ],
   "note": "REFUTED: out of range is not reported for types narrower than unsigned long long or long double, nor for minus signs with unsigned types; and tiny doubles read back may report it where long double is double. Proved: exactly when errno is set, never for a number in range other than by underflow of long double; reliable for 64-bit unsigned types without minus and for the overflow of long double; untouched by reading back integers, floats, and doubles other than tiny ones."
  },
  {
   "property": "C83",
   "status": "partial",
   "theorems": [
    "C83_libraries",
    "C83_only_bad_alloc_refuted",
    "C83_lexi",
    "C83_escape",
    "C83_jsonify",
    "C83_extract",
    "C83_extract_cstr",
    "C83_enough",
    "C83_inside",
    "C83_outside",
    "C83_short"
   ],
   "note": "REFUTED: escape and jsonify reserve twice the size, so a string of more than half of max_size() throws std::length_error although the result fits. Proved: the exact conditions for either exception, success with enough memory, and that texts inside the object never allocate. The formatter objects have arrays and never allocate; the messages of exceptions of extraction do."
  },
  {
   "property": "C84",
   "status": "proved",
   "theorems": [
    "C84_lexi",
    "C84_escape",
    "C84_jsonify"
   ],
   "note": "escape reserves enough for every text; jsonify reserves two characters for each but writes up to six, so it may reallocate three times. C84_case has texts that reach the bounds."
  },
  {
   "property": "C85",
   "status": "partial",
   "theorems": [
    "C85_order_refuted",
    "C85_order",
    "C85_rounded"
   ],
   "note": "REFUTED: the long long 2^60+1 is greater than the double 2^60, printed as 1152921504606846977 and 1152921504606847000.0. Proved among floats, doubles and integers of magnitude up to 2^53, in any combination; and for all others that do not round to the same double (C85_rounded)."
  },
  {
   "property": "C86",
   "status": "proved",
   "theorems": [
    "C86_libraries",
    "C86_lexi",
    "C86_extract",
    "C86_escape_jsonify",
    "C86_strings",
    "C86_shrink"
   ],
   "note": "The quotation marks are added after shrink_to_fit, so that libstdc++ doubles a block that had just been made exact: C86_case has the sizes needed to the byte."
  },
  {
   "property": "C87",
   "status": "partial",
   "theorems": [
    "C87_model",
    "C87_accepted",
    "C87_directed",
    "C87_directed_small",
    "C87_extended_refuted",
    "C87_exactly",
    "C87_scaling"
   ],
   "note": "REFUTED to nearest in a wider format: on the x87 unit 10375e22 is rounded twice. Proved: correctly rounded in the three directed modes in every format; to nearest exactly when not (C87_exactly); what is accepted depends on neither. The default evaluation is C47 (C87_model)."
  },
  {
   "property": "C88",
   "status": "partial",
   "theorems": [
    "C88_model",
    "C88_model_difference",
    "C88_unchanged",
    "C88_add",
    "C88_multiply_64",
    "C88_multiply_32",
    "C88_power_of_five",
    "C88_add_refuted"
   ],
   "note": "REFUTED for += and *=: 2^26624-1 += 1 leaves 416 zero words, which isZero does not take for zero. Proved: shifts and differences leave the object unchanged; += and *= leave the result modulo 2^26624; mulPow5 stops after the first factor that does not fit."
  },
  {
   "property": "C89",
   "status": "proved",
   "theorems": [
    "C89_programs"
   ],
   "note": "The exclusions are the findings C43, C45 and C51. C89_case is a program with five exceptions."
  },
  {
   "property": "C90",
   "status": "proved",
   "theorems": [
    "C90_exactly",
    "C90_shown",
    "C90_shown_unique",
    "C90_printed",
    "C90_unique",
    "C90_window_exists",
    "C90_window_unique"
   ],
   "note": "An equivalence: lexi returns s iff s is the text of the specification, which names one text. The specification is in real arithmetic and does not mention the code."
  },
  {
   "property": "C91",
   "status": "partial",
   "theorems": [
    "C91_same_text_refuted",
    "C91_exactly",
    "C91_text",
    "C91_unique",
    "C91_strict",
    "C91_first_word",
    "C91_one_place",
    "C91_largest"
   ],
   "note": "REFUTED: 0x40769D4FC660619E prints as 361.83197629593806 with zeros behind the table and as 361.83197629593805 with ones. Proved: exactly the text for any contents (an equivalence with a specification in real arithmetic); only the first word behind the table matters, and only for one last place; below it the last digit is never rounded."
  },
  {
   "property": "C92",
   "status": "proved",
   "theorems": [
    "C92_locales",
    "C92_integral",
    "C92_floating",
    "C92_floating_none",
    "C92_others",
    "C92_model",
    "C92_integers_back",
    "C92_enums_back",
    "C92_fpos_back",
    "C92_numbers",
    "C92_fraction_lost",
    "C92_words"
   ],
   "note": "The locale is a predicate (isspace) and a string (the decimal point), as C17 allows; forms of numbers that a locale may add (7.22.1.3p6) are not modelled, the usual libraries have none."
  },
  {
   "property": "C93",
   "status": "proved",
   "theorems": [
    "C93_programs",
    "C93_operation",
    "C93_every_call",
    "C93_one_result",
    "C93_overrun",
    "C93_numbers"
   ],
   "note": "The calls left out are those of C43 and texts longer than C41 has. C93_every_call and C93_one_result show that the specification says exactly one thing of every other call; C93_case is a program on an object that an exception left."
  },
  {
   "property": "C94",
   "status": "partial",
   "theorems": [
    "C94_unfixed_refuted",
    "C94_fixed",
    "C94_exactly",
    "C94_round_trip",
    "C94_enumerators",
    "C94_values"
   ],
   "note": "REFUTED for enumerations without a fixed underlying type: enum { a, b, c } from the text 4 is outside of its range 0 to 3 (undefined since C++17, an unspecified value before). Proved: always defined with a fixed type, and exactly when otherwise; every value reads back. The range is that of C++20; earlier texts differ only where all enumerators are negative."
  },
  {
   "property": "C95",
   "status": "partial",
   "theorems": [
    "C95_array_refuted",
    "C95_defined",
    "C95_undefined",
    "C95_own_text",
    "C95_nul",
    "C95_model"
   ],
   "note": "REFUTED for arrays: a full array has no terminator, and the characters behind a NUL are dropped. Proved: exactly when each call is defined, and then it is that of the std::string of the text before the first NUL."
  },
  {
   "property": "C96",
   "status": "partial",
   "theorems": [
    "C96_flush_refuted",
    "C96_double",
    "C96_float",
    "C96_long_double",
    "C96_others",
    "C96_double_read",
    "C96_float_read",
    "C96_others_read",
    "C96_double_round_trip",
    "C96_float_round_trip"
   ],
   "note": "REFUTED for subnormal numbers: they print as 0.0 where the unit flushes. Proved: exactly which values change, in formatting and in reading, and that all others and their round trips are unaffected."
  },
  {
   "property": "C97",
   "status": "partial",
   "theorems": [
    "C97_paired_refuted",
    "C97_double_text",
    "C97_float_text",
    "C97_long_double_text",
    "C97_special_text",
    "C97_low_part_refuted",
    "C97_reads",
    "C97_double_round_trip",
    "C97_double_exactly",
    "C97_float_round_trip"
   ],
   "note": "REFUTED for some odd doubles between 2^-1021 and 2^-1001, and for the low parts of long doubles. Proved: the texts, what is read from any text, the round trip of all floats and of all other doubles, and exactly when an odd double in that range is read as a neighbour."
  },
  {
   "property": "C98",
   "status": "partial",
   "theorems": [
    "C98_state_refuted",
    "C98_text",
    "C98_equal",
    "C98_back",
    "C98_place",
    "C98_offset",
    "C98_undefined"
   ],
   "note": "REFUTED for states other than the initial one: the text has the offset only. Proved: the text, equality of texts and of positions, and exactly when the place is kept."
  },
  {
   "property": "C99",
   "status": "proved",
   "theorems": [
    "C99_same",
    "C99_few",
    "C99_shifts",
    "C99_below",
    "C99_none"
   ],
   "note": "For every run that is defined, under either policy for the read behind POWER10; library calls (memmove, strncpy) are not counted. The bound of 9 corrections is an upper bound, not known to be reached."
  },
  {
   "property": "C100",
   "status": "proved",
   "theorems": [
    "C100_read",
    "C100_write",
    "C100_move",
    "C100_bytes",
    "C100_c_string",
    "C100_text",
    "C100_cursor",
    "C100_fresh",
    "C100_read_word",
    "C100_write_word",
    "C100_move_words",
    "C100_clear_words",
    "C100_copy_words",
    "C100_widths",
    "C100_conversions",
    "C100_characters",
    "C100_shifts"
   ],
   "note": "About the machine that all other claims are stated on: it tests the trusted definitions of Machine.v and of the word arrays."
  },
  {
   "property": "C101",
   "status": "proved",
   "theorems": [
    "C101_same",
    "C101_multiply",
    "C101_add",
    "C101_shift",
    "C101_compare",
    "C101_difference",
    "C101_difference_bound",
    "C101_power",
    "C101_decimals"
   ],
   "note": "Turns are counted in an instrumented copy of the model, ModelBigWork.v; C101_same proves that the copy gives the same results."
  },
  {
   "property": "C102",
   "status": "proved",
   "theorems": [
    "C102_printed",
    "C102_text",
    "C102_same",
    "C102_read"
   ],
   "note": "The decoding of x87 objects follows the manual of the processor and is part of the trusted base, as for the other formats IEEE 754."
  },
  {
   "property": "C103",
   "status": "proved",
   "theorems": [
    "C103_word",
    "C103_move",
    "C103_equal",
    "C103_union",
    "C103_orders"
   ],
   "note": "The union is an equivalence: with different orders some double is read wrongly, with 1.5 as the example for the order of the FPA unit."
  },
  {
   "property": "C104",
   "status": "proved",
   "theorems": [
    "C104_text",
    "C104_bool",
    "C104_null",
    "C104_special",
    "C104_view",
    "C104_extract",
    "C104_bool_round",
    "C104_null_round",
    "C104_same"
   ],
   "note": "An exact account for every literal; C104_same shows that without NUL the functions are those of the other properties."
  },
  {
   "property": "C105",
   "status": "partial",
   "theorems": [
    "C105_few",
    "C105_number",
    "C105_any",
    "C105_printed",
    "C105_round_trip",
    "C105_integer",
    "C105_every_integer_refuted"
   ],
   "note": "REFUTED for every printed number, proved with the exact conditions of the statement. C105_every_integer_refuted shows that the conditions on integers are needed: on a platform whose long double is a double an integer of 19 digits may become the wrong double."
  },
  {
   "property": "C106",
   "status": "proved",
   "theorems": [
    "C106_no_race",
    "C106_answers",
    "C106_finishes"
   ],
   "note": "Sequential consistency is assumed; by C106_no_race the C++ memory model gives no other executions."
  },
  {
   "property": "C107",
   "status": "proved",
   "theorems": [
    "C107_no_race",
    "C107_answers",
    "C107_finishes"
   ],
   "note": "For values whose formatting is defined (C23 says which are not). Sequential consistency is assumed; by C107_no_race the C++ memory model gives no other executions. What is behind POWER10 is taken not to change."
  },
  {
   "property": "C108",
   "status": "proved",
   "theorems": [
    "C108_escape",
    "C108_jsonify",
    "C108_cut",
    "C108_begins",
    "C108_truncated",
    "C108_closed",
    "C108_escape_size",
    "C108_jsonify_size",
    "C108_counted"
   ],
   "note": "For every string, without bounds."
  },
  {
   "property": "C109",
   "status": "partial",
   "theorems": [
    "C109_arguments",
    "C109_some_arguments",
    "C109_nul",
    "C109_exactly",
    "C109_every_string_refuted",
    "C109_regex"
   ],
   "note": "REFUTED for a shell with line feeds (a backslash and a line feed are removed) and with empty strings (no argument). Proved: exactly which arguments are read from any strings (C109_arguments, C109_nul), that the strings come back exactly if they are not empty and have no line feed or NUL (C109_exactly), and the regular expressions for every string."
  },
  {
   "property": "C110",
   "status": "partial",
   "theorems": [
    "C110_product",
    "C110_difference",
    "C110_negative",
    "C110_normalize",
    "C110_boundary",
    "C110_zero",
    "C110_normalize_refuted",
    "C110_double",
    "C110_boundaries"
   ],
   "note": "REFUTED for normalize of the generic version: its loop does not end for 2^53. Proved: normalize is right exactly below 2^53 in the generic version and for all but zero in the others, normalizeBoundary exactly below 2^54 (all with the Microsoft compiler), zero is undefined or does not end, a difference is exact exactly if it is not negative, and the rest as stated. The significands of doubles are below 2^53, so that formatting is not affected."
  }
 ]
}