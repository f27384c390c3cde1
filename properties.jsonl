{"id": "C01", "title": "Integers print as their canonical decimal numeral", "statement": "For every value of every supported integer type, lexi(v), string(v), escape(v) and jsonify(v) return the canonical decimal numeral of v: an optional '-' exactly when v<0, then decimal digits without superfluous leading zero, whose positional value is |v|.", "quantifier": "every value of int8_t, uint8_t, short, unsigned short, int, unsigned int, long (32- and 64-bit data models), unsigned long, long long, unsigned long long", "why_tests_cant": "2^64 values per 64-bit type, with 40+ branches that each cover a sub-range; a table or boundary error affects only some of them", "anchors": ["src/int.cpp:FormatInt", "src/detail/itoa.cpp:u32toa", "src/detail/itoa.cpp:i32toa", "src/detail/itoa.cpp:u64toa", "src/detail/itoa.cpp:i64toa"]}
{"id": "C02", "title": "Integer formatting stays inside its buffer and is NUL-terminated", "statement": "Constructing FormatInt from any integer never writes outside its INTEGER_SIZE-byte buffer and never reads outside the digit table; afterwards c_str() holds exactly size() non-NUL characters followed by NUL, and size()==length()==string().size().", "quantifier": "every value of every integer type", "why_tests_cant": "memory safety for all 2^64 inputs cannot be sampled", "anchors": ["include/lexi/detail/fmt.hpp:INTEGER_SIZE", "src/int.cpp:FormatInt", "src/detail/itoa.cpp"]}
{"id": "C03", "title": "Integer round-trip", "statement": "lexi<T>(lexi(v)) == v for every integer type T and every v of type T; the extraction does not throw.", "quantifier": "every integer type and value", "why_tests_cant": "the whole range of each type, including both extremes", "anchors": ["src/int.cpp:FormatInt", "src/int.cpp:ExtractInt", "include/lexi/lexi.hpp:lexi"]}
{"id": "C04", "title": "Exact meaning of integer extraction on every string", "statement": "For every byte string s, lexi<T>(s) never throws and equals: skip C-locale white space, take an optional sign and the maximal run of decimal digits (stopping at any other byte, including an embedded NUL); no digits gives 0; magnitude above 2^64-1 gives the value of T congruent to 2^64-1; otherwise the value of T congruent to the signed number modulo 2^bits(T).", "quantifier": "every byte string of every length, every integer type", "why_tests_cant": "unbounded input space", "anchors": ["src/int.cpp:ExtractInt"]}
{"id": "C05", "title": "Out-of-range or malformed integer text is reported", "statement": "lexi<T>(s) does not return a normal value when s is not a decimal integer or denotes a number outside the range of T (the error is observable).", "quantifier": "every string and integer type", "why_tests_cant": "tests only try a handful of malformed strings; the failure is silent", "anchors": ["src/int.cpp:ExtractInt"]}
{"id": "C06", "title": "Enumerations format and extract through their underlying type", "statement": "For every enum whose underlying type is an integer type, lexi(e) is the canonical decimal numeral of e's underlying value and lexi<Enum>(lexi(e)) == e.", "quantifier": "every underlying integer type (including char and bool underlying types) and every enumerator value", "why_tests_cant": "all values of all underlying types", "anchors": ["include/lexi/enum.hpp:FormatEnum", "include/lexi/enum.hpp:ExtractEnum"]}
{"id": "C07", "title": "Stream positions round-trip", "statement": "lexi(fpos) is the canonical numeral of its streamoff and lexi<fpos>(lexi(p)) has the same offset as p.", "quantifier": "every streamoff value", "why_tests_cant": "2^64 values", "anchors": ["include/lexi/lexi.hpp:Format", "include/lexi/lexi.hpp:Extract"]}
{"id": "C08", "title": "Booleans format to true/false and only those two strings extract", "statement": "lexi(b) is \"true\"/\"false\", lexi<bool>(lexi(b))==b, and lexi<bool>(s) returns a value iff s is exactly one of the two literals (as whole strings, embedded NULs included) and throws runtime_error otherwise.", "quantifier": "both booleans, every byte string", "why_tests_cant": "every other string must be rejected", "anchors": ["src/bool.cpp:FormatBool", "src/bool.cpp:ExtractBool"]}
{"id": "C09", "title": "Null formats to null and only null extracts", "statement": "lexi(nullptr) is \"null\"; lexi<nullptr_t>(s) returns iff s is exactly \"null\" and throws runtime_error otherwise.", "quantifier": "every byte string", "why_tests_cant": "every other string must be rejected", "anchors": ["src/null.cpp:FormatNull", "src/null.cpp:ExtractNull"]}
{"id": "C10", "title": "Characters round-trip, including NUL", "statement": "For every char c, lexi(c) is the one-byte string c (size 1 even for NUL) and lexi<char>(lexi(c)) == c; lexi<char>(s) throws iff s is empty and otherwise returns the first byte.", "quantifier": "all 256 characters, every byte string", "why_tests_cant": "every string", "anchors": ["src/char.cpp:FormatChar", "src/char.cpp:ExtractChar"]}
{"id": "C11", "title": "Configured literals are honoured", "statement": "If the library is compiled with other LEXI_TRUE/LEXI_FALSE/LEXI_NULL/LEXI_NAN/LEXI_INFINITY/LEXI_NEGATIVE_INFINITY literals, formatting the corresponding value returns exactly that literal.", "quantifier": "every configured literal", "why_tests_cant": "tests are compiled with one configuration", "anchors": ["include/lexi/detail/define.hpp", "src/bool.cpp:FormatBool", "src/null.cpp:FormatNull", "src/float.cpp:FormatFloat::format"]}
{"id": "C12", "title": "escape is reversible and marks exactly the documented characters", "statement": "For every byte string s, removing the escaping backslashes from escape(s) gives back s; in escape(s) a character is preceded by an inserted backslash iff it is ASCII 0-47, 58-64, 91-96 or 123-126, everything else (letters, digits, DEL, bytes >= 128) is copied unchanged in order; the result does not depend on whether char is signed and has length between |s| and 2|s|.", "quantifier": "every byte string; both signednesses of char", "why_tests_cant": "unbounded strings", "anchors": ["src/detail/string.cpp:escape", "include/lexi/lexi.hpp:escape"]}
{"id": "C13", "title": "escape escapes all ASCII non-alphanumeric characters", "statement": "As its documentation says, escape precedes every ASCII non-alphanumeric character by a backslash.", "quantifier": "every ASCII character", "why_tests_cant": "the tests try four characters", "anchors": ["src/detail/string.cpp:escape"]}
{"id": "C14", "title": "jsonify(string) is a valid JSON string literal denoting the input", "statement": "For every byte string s, jsonify(s) starts and ends with '\"', its interior contains no raw control character, no unescaped quote and only RFC 8259 escapes, and decoding it with the JSON string grammar yields exactly s; the result does not depend on whether char is signed.", "quantifier": "every byte string", "why_tests_cant": "unbounded strings", "anchors": ["src/detail/string.cpp:jsonify", "include/lexi/lexi.hpp:jsonify"]}
{"id": "C15", "title": "jsonify preserves UTF-8", "statement": "jsonify(s) is well-formed UTF-8 iff s is (so valid UTF-8 text always becomes a valid JSON text).", "quantifier": "every byte string", "why_tests_cant": "unbounded strings and all code points", "anchors": ["src/detail/string.cpp:jsonify"]}
{"id": "C16", "title": "jsonify of a single character is valid JSON text", "statement": "For every char c, jsonify(c) is a valid JSON text (UTF-8 encoded string literal).", "quantifier": "all 256 characters", "why_tests_cant": "tests use four ASCII characters", "anchors": ["src/char.cpp:FormatChar::jsonify"]}
{"id": "C17", "title": "Strings pass through unchanged", "statement": "lexi(s) and string(s) return s unchanged for std::string; for C strings they return the bytes before the first NUL.", "quantifier": "every byte string", "why_tests_cant": "unbounded", "anchors": ["include/lexi/lexi.hpp:lexi", "include/lexi/lexi.hpp:string"]}
{"id": "C18", "title": "IEEE-754 classification is exact", "statement": "isNan, isInf, isInfinity, isNegativeInfinity, isFinite, isZero and isPositive agree with the IEEE-754 binary64 meaning for every bit pattern; the classes are disjoint and exhaustive.", "quantifier": "all 2^64 bit patterns", "why_tests_cant": "2^64 patterns", "anchors": ["src/detail/ieee754.cpp"]}
{"id": "C19", "title": "Special floating point values", "statement": "Every NaN (any payload and sign) prints NaN, +inf prints Infinity, -inf prints -Infinity, both zeros print 0.0, and no other double prints any of these.", "quantifier": "all bit patterns", "why_tests_cant": "2^53 NaN patterns, and the converse over all finite values", "anchors": ["src/float.cpp:FormatFloat::format", "src/detail/dtoa.cpp:dtoa"]}
{"id": "C20", "title": "Finite doubles round-trip through a correctly rounding reader", "statement": "For every finite non-zero double x, whenever lexi(x) returns a string, the decimal number it denotes lies strictly inside the rounding interval of x, so correctly rounding it to binary64 (to nearest) gives back exactly x.", "quantifier": "every finite non-zero double (2^64 minus specials)", "why_tests_cant": "only a few dozen values are tested; the claim rests on an error analysis of 64-bit products and the cached powers", "anchors": ["src/detail/dtoa.cpp:grisu2", "src/detail/dtoa.cpp:generateDigits", "src/detail/dtoa.cpp:prettify", "src/detail/diyfp.cpp"]}
{"id": "C21", "title": "At most 17 significant digits, no leading zero digit", "statement": "For every finite non-zero double, the output has between 1 and 17 significant digits and the first is not 0.", "quantifier": "every finite non-zero double", "why_tests_cant": "worst cases are rare", "anchors": ["src/detail/dtoa.cpp:generateDigits"]}
{"id": "C22", "title": "Float formatting stays inside its buffer and is NUL-terminated", "statement": "Constructing FormatFloat from any value never writes outside its FLOAT_SIZE-byte buffer; afterwards c_str() holds exactly size() non-NUL characters followed by NUL.", "quantifier": "every bit pattern", "why_tests_cant": "memory safety for all inputs; worst-case length must be bounded", "anchors": ["src/float.cpp:FormatFloat", "src/detail/dtoa.cpp", "include/lexi/detail/fmt.hpp:FLOAT_SIZE"]}
{"id": "C23", "title": "Formatting a double has defined behaviour", "statement": "Formatting any double reads only inside the library's constant tables (no out-of-bounds read, no other undefined behaviour).", "quantifier": "every finite double", "why_tests_cant": "an out-of-bounds read of a constant table need not change the visible output", "anchors": ["src/detail/dtoa.cpp:generateDigits", "src/detail/dtoa.cpp:POWER10"]}
{"id": "C24", "title": "Finite floats are JSON numbers", "statement": "For every finite double the output of lexi/jsonify matches the RFC 8259 number grammar; more generally jsonify of any float is valid JSON.", "quantifier": "every bit pattern", "why_tests_cant": "all inputs", "anchors": ["src/float.cpp:FormatFloat::jsonify", "src/detail/dtoa.cpp:prettify"]}
{"id": "C25", "title": "Distinct doubles print distinctly", "statement": "If two non-NaN doubles print the same string then they are equal (same bits, or both zeros).", "quantifier": "every pair of doubles", "why_tests_cant": "2^128 pairs", "anchors": ["src/float.cpp", "src/detail/dtoa.cpp"]}
{"id": "C26", "title": "Sign symmetry", "statement": "For every finite non-zero x, lexi(-x) is '-' followed by lexi(x) for positive x.", "quantifier": "every finite non-zero double", "why_tests_cant": "all values", "anchors": ["src/detail/dtoa.cpp:dtoa"]}
{"id": "C27", "title": "Notation thresholds", "statement": "With D the printed digits and 10^(n-1) <= |value| < 10^n the printed decimal magnitude: fixed notation is used iff -5 <= n <= 21 (value at least 1e-6 and below 1e21), with a fractional part always present; otherwise scientific notation with one leading digit and exponent n-1 (no fraction when there is one digit).", "quantifier": "every finite non-zero double", "why_tests_cant": "every decimal magnitude and digit count combination", "anchors": ["src/detail/dtoa.cpp:prettify", "src/detail/dtoa.cpp:writeExponent"]}
{"id": "C28", "title": "Integral doubles print exactly", "statement": "For every integer n with 0 < |n| <= 2^53, lexi((double)n) is the canonical numeral of n followed by \".0\".", "quantifier": "every integer of magnitude at most 2^53", "why_tests_cant": "2^54 values; rounding in the scaled domain could drop the last digit", "anchors": ["src/detail/dtoa.cpp:grisu2"]}
{"id": "C29", "title": "Near-shortest output", "statement": "No decimal with fewer significant digits than the printed one lies in the rounding interval of x shrunk on each side by a stated tiny margin (Grisu2's safe interval).", "quantifier": "every finite non-zero double and every decimal", "why_tests_cant": "infinitely many decimals", "anchors": ["src/detail/dtoa.cpp:generateDigits"]}
{"id": "C30", "title": "lexi<double>(lexi(x)) == x with the library's own reader", "statement": "For every non-NaN double x (up to the sign of zero), extracting the formatted text with the library gives back x, on every supported long double format.", "quantifier": "every double; long double = binary64 (MSVC), x87 80-bit (x86 GCC/Clang), binary128 (AArch64)", "why_tests_cant": "the reader goes through long double, so a second rounding happens for specific rare values", "anchors": ["src/float.cpp:ExtractFloat", "src/float.cpp:FormatFloat"]}
{"id": "C31", "title": "Single-precision floats round-trip", "statement": "For every finite float f (up to the sign of zero), lexi<float>(lexi(f)) == f on every long double format.", "quantifier": "every float", "why_tests_cant": "2^32 values through two roundings on three formats", "anchors": ["src/float.cpp:FormatFloat", "src/float.cpp:ExtractFloat"]}
{"id": "C32", "title": "long double values round-trip", "statement": "lexi<long double>(lexi(x)) == x for every finite long double x.", "quantifier": "every finite long double", "why_tests_cant": "formatting narrows to double", "anchors": ["src/float.cpp:FormatFloat::format"]}
{"id": "C33", "title": "The sign of zero survives", "statement": "lexi(-0.0) reads back as -0.0.", "quantifier": "the negative zero", "why_tests_cant": "not tested", "anchors": ["src/detail/dtoa.cpp:dtoa"]}
{"id": "C34", "title": "Formatting terminates", "statement": "Formatting any value terminates: the normalisation, digit generation and rounding loops all stop for every input.", "quantifier": "every bit pattern and integer", "why_tests_cant": "termination of the data-dependent loops for all inputs", "anchors": ["src/detail/dtoa.cpp:generateDigits", "src/detail/dtoa.cpp:grisuRound", "src/detail/diyfp.cpp:normalizeBoundary"]}
{"id": "C35", "title": "Same text on every supported compiler", "statement": "The MSVC, GCC/x86-64 and generic implementations of the extended multiplication and normalisation give identical results wherever the formatter uses them, so formatting does not depend on the compiler branch.", "quantifier": "all 64-bit operands / all doubles", "why_tests_cant": "2^128 operand pairs; each build tests only its own branch", "anchors": ["src/detail/diyfp.cpp:mul", "src/detail/diyfp.cpp:normalize", "src/detail/diyfp.cpp:normalizeBoundary", "src/detail/bigint.cpp:mulAdd"]}
{"id": "C36", "title": "The cached power is always in range", "statement": "For every finite non-zero double the selected cached power exists (table index within bounds), approximates the exact power of ten to half a unit, and scales the value so the binary exponent is between -60 and -32; the floating-point computation of the index gives the exact mathematical ceiling, also under fused or extended evaluation.", "quantifier": "every binary exponent of a double", "why_tests_cant": "each exponent needs checking and the tests hit few", "anchors": ["src/detail/dtoa.cpp:getCachedPower"]}
{"id": "C37", "title": "Float extraction meaning", "statement": "lexi<float|double|long double>(s) never throws; for every string denoting a decimal literal it returns the correctly rounded value (via long double), ignoring trailing characters, and 0 when there is no number.", "quantifier": "every byte string", "why_tests_cant": "unbounded", "anchors": ["src/float.cpp:ExtractFloat"]}
{"id": "C38", "title": "Extraction does not depend on the C locale", "statement": "lexi<double>(lexi(x)) gives x whatever decimal point the current C locale uses.", "quantifier": "every decimal-point character", "why_tests_cant": "tests run in the C locale", "anchors": ["src/float.cpp:ExtractFloat"]}
{"id": "C39", "title": "Formatter objects can be copied and returned by value", "statement": "A copy of a formatter object (copy construction, assignment, return by value without elision) yields the same text and remains usable after the source is destroyed.", "quantifier": "every formatter kind and every construct/copy/assign/destroy history", "why_tests_cant": "tests only use temporaries; dangling reads may still look right", "anchors": ["include/lexi/int.hpp:FormatInt", "include/lexi/float.hpp:FormatFloat", "include/lexi/lexi.hpp:Format"]}
{"id": "C40", "title": "Every supported type selects exactly one overload", "statement": "For every supported argument type exactly one Format overload and one Extract overload is enabled and it is the one for that type's kind; cv-qualification of the type does not change that.", "quantifier": "every type", "why_tests_cant": "compile-time property over all types", "anchors": ["include/lexi/detail/type.hpp", "include/lexi/lexi.hpp:Format", "include/lexi/lexi.hpp:Extract"]}
{"id": "C41", "title": "BigInteger from decimal text is exact", "statement": "Constructing BigInteger from any digit string of at most 7900 digits yields exactly that number; a non-digit throws.", "quantifier": "every digit string up to the capacity", "why_tests_cant": "unbounded numbers with multi-word carries", "anchors": ["src/detail/bigint.cpp:BigInteger", "src/detail/bigint.cpp:add", "src/detail/bigint.cpp:parse"]}
{"id": "C42", "title": "BigInteger addition and multiplication are exact", "statement": "+= (64-bit), *= (64-bit), *= (32-bit) and mulPow5 compute the exact integer result whenever it fits the capacity, and throw rather than write out of bounds when it does not.", "quantifier": "every big integer and operand", "why_tests_cant": "multi-word carry chains", "anchors": ["src/detail/bigint.cpp:operator+=", "src/detail/bigint.cpp:operator*=", "src/detail/bigint.cpp:mulPow5"]}
{"id": "C43", "title": "BigInteger left shift is exact", "statement": "<<= n multiplies by 2^n for every n, without touching memory outside the digit array, or throws.", "quantifier": "every big integer and shift", "why_tests_cant": "word-aligned shifts take a separate path", "anchors": ["src/detail/bigint.cpp:operator<<="]}
{"id": "C44", "title": "BigInteger comparison orders by value", "statement": "compare and == agree with the order and equality of the represented numbers.", "quantifier": "every pair of big integers", "why_tests_cant": "all word patterns", "anchors": ["src/detail/bigint.cpp:compare", "src/detail/bigint.cpp:operator=="]}
{"id": "C45", "title": "BigInteger difference is the absolute difference", "statement": "difference(other,&out) sets out to |this-other| and returns whether this<other; it throws when they are equal.", "quantifier": "every pair of big integers", "why_tests_cant": "borrow chains through all-ones words", "anchors": ["src/detail/bigint.cpp:difference"]}
{"id": "C46", "title": "pow10 returns the correctly rounded power in its table range", "statement": "pow10(n) is 10^n correctly rounded for 0<=n<=308 (exact up to 22) and callers never index outside.", "quantifier": "every int n", "why_tests_cant": "the callers' ranges must be shown to stay inside", "anchors": ["src/detail/pow.cpp:pow10", "src/detail/strtod.cpp:fastPath", "src/detail/strtod.cpp:StrtodNormalPrecision"]}
{"id": "C47", "title": "The decimal fast path is correctly rounded", "statement": "When the fast path accepts (significand, exponent) with an integer significand, its result is the correctly rounded value of significand*10^exponent.", "quantifier": "every integer significand representable as double and every exponent", "why_tests_cant": "2^53 significands times 60 exponents", "anchors": ["src/detail/strtod.cpp:fast", "src/detail/strtod.cpp:fastPath"]}
{"id": "C48", "title": "Formatting short decimals reproduces them", "statement": "Reading a decimal with at most 15 significant digits as a double and formatting it again gives back the same decimal.", "quantifier": "every decimal with at most 15 significant digits in the normal range", "why_tests_cant": "10^15 significands times 600 exponents; failures are about one in a thousand", "anchors": ["src/detail/dtoa.cpp:grisu2"]}
{"id": "C49", "title": "Text and number views of a formatter agree", "statement": "For every formatter kind and value: string(), std::string conversion, data()/c_str() with size()/length() all describe the same text; escape() and jsonify() of numbers, booleans and null equal string().", "quantifier": "every formatter kind and value", "why_tests_cant": "all values", "anchors": ["src/int.cpp", "src/float.cpp", "src/bool.cpp", "src/null.cpp", "src/char.cpp"]}
{"id": "C50", "title": "float and long double print as the nearest double", "statement": "lexi(float) is the text of the double with the same value and sign (NaN and infinities map to themselves); lexi(long double) is the text of the nearest double, ties to even, or of the signed infinity when that overflows.", "quantifier": "every float and every long double of every supported format", "why_tests_cant": "all 2^32 floats and 2^80 or 2^128 long doubles, on platforms not at hand", "anchors": ["src/float.cpp:31-68"]}
{"id": "C51", "title": "BigInteger difference may be written in place", "statement": "difference(other,&out) gives |this-other| also when out is one of the two operands.", "quantifier": "every pair of big integers, both aliasings", "why_tests_cant": "the loop bound changes while the output is written; one-word numbers hide it", "anchors": ["src/detail/bigint.cpp:difference"]}
{"id": "C52", "title": "BigInteger copies hold the same number", "statement": "Construction from a word, assignment of a word, copy construction and copy assignment leave the object holding exactly that number, whatever the object held before; no word beyond the array is touched.", "quantifier": "every word, every big integer, every previous contents", "why_tests_cant": "all numbers of up to 416 words and all previous contents", "anchors": ["src/detail/bigint.cpp:BigInteger", "src/detail/bigint.cpp:operator="]}
{"id": "C53", "title": "BigInteger refuses digit strings beyond its capacity", "statement": "Constructing BigInteger from any digit string either yields exactly that number or throws; it never touches memory outside the digit array.", "quantifier": "every digit string of every length", "why_tests_cant": "only strings of 8000 and more digits reach the end of the array", "anchors": ["src/detail/bigint.cpp:BigInteger", "src/detail/bigint.cpp:operator<<="]}
{"id": "C54", "title": "jsonify gives a JSON text exactly where there is one", "statement": "For every argument of jsonify except the non-finite numbers and the texts that are not UTF-8, the result is a JSON text and a JSON value; for those it is neither.", "quantifier": "every value of every supported type, every platform", "why_tests_cant": "doubles alone have 2^64 values and strings are unbounded; an escape that is missed for one byte or a NaN is invisible to a test of another", "anchors": ["include/lexi/lexi.hpp:jsonify", "src/detail/string.cpp:escape", "src/float.cpp:FormatFloat", "src/int.cpp:FormatInt"]}
{"id": "C55", "title": "Texts of numbers are short", "statement": "The text of an integer has at most 3, 4, 5, 6, 10, 11 or 20 characters, by width and signedness, and each bound is attained; the text of a floating point number has 3 to 25 characters.", "quantifier": "every value of every integer and floating point type", "why_tests_cant": "the buffers of the formatters are sized by these bounds; the longest texts belong to a few of 2^64 values", "anchors": ["src/int.cpp:FormatInt", "src/float.cpp:FormatFloat", "src/detail/dtoa.cpp", "src/detail/itoa.cpp"]}
{"id": "C56", "title": "Printing keeps the order of doubles", "statement": "If a double is less than another then the number its text denotes is less than the number the other text denotes; equal doubles have texts denoting equal numbers and conversely.", "quantifier": "every pair of finite doubles", "why_tests_cant": "pairs: 2^128 combinations", "anchors": ["include/lexi/lexi.hpp:lexi", "src/float.cpp:FormatFloat", "src/detail/dtoa.cpp"]}
{"id": "C57", "title": "An integer goes through text into another integer type as by a cast", "statement": "Formatting an integer of one type and extracting another integer type from the text gives the integer modulo the width of the other type; the integer itself if it fits.", "quantifier": "every value, every pair of integer types, every platform", "why_tests_cant": "all pairs of types and values", "anchors": ["include/lexi/lexi.hpp:lexi", "src/int.cpp:FormatInt", "src/int.cpp:ExtractInt"]}
{"id": "C58", "title": "An integer goes through text into a floating point type as by a conversion", "statement": "Formatting an integer and extracting float, double or long double from the text gives the nearest value of that type.", "quantifier": "every value of every integer type, every platform, every decimal point", "why_tests_cant": "double rounding affects a few of 2^64 integers", "anchors": ["src/int.cpp:FormatInt", "src/float.cpp:ExtractFloat"]}
{"id": "C59", "title": "A double goes through text into an integer type by truncation", "statement": "Formatting a double and extracting an integer type from the text gives the double truncated towards zero (modulo the width of the type).", "quantifier": "every finite double, every integer type", "why_tests_cant": "2^64 doubles; wrong for those in scientific notation", "anchors": ["src/float.cpp:FormatFloat", "src/int.cpp:ExtractInt"]}
{"id": "C60", "title": "Printing what was read gives the same text", "statement": "Formatting a value, extracting a value of the same type from the text and formatting that again gives the same text.", "quantifier": "every float, double and long double, including zeros, infinities and NaN; every platform", "why_tests_cant": "double rounding affects a few of 2^64 doubles", "anchors": ["include/lexi/lexi.hpp:lexi", "src/float.cpp:FormatFloat", "src/float.cpp:ExtractFloat"]}
{"id": "C61", "title": "Reading numbers keeps their order", "statement": "If the number that a text denotes is at most the number that another text denotes then so are the extracted values, for float, double and long double; decimal and hexadecimal texts may be mixed.", "quantifier": "every pair of texts that denote numbers, of any length", "why_tests_cant": "unboundedly many texts", "anchors": ["src/float.cpp:ExtractFloat"]}
{"id": "C62", "title": "Programs of BigInteger operations are exact or refused", "statement": "Starting from a 64-bit word, any sequence of additions, multiplications (32 and 64 bit), multiplications by powers of five, shifts by less than a word and assignments leaves exactly the number it computes, as long as the numbers stay below 2^(64*415); an operation whose result needs more than 416 words throws.", "quantifier": "every sequence of operations of any length with any arguments, every starting word, both versions of mulAdd", "why_tests_cant": "sequences of operations are unbounded and carries depend on all previous words", "anchors": ["src/detail/bigint.cpp:operator+=", "src/detail/bigint.cpp:operator*=", "src/detail/bigint.cpp:mulPow5", "src/detail/bigint.cpp:operator<<="]}
{"id": "C63", "title": "Scaling by a power of ten loses at most a few units", "statement": "StrtodNormalPrecision(d, p) is d*10^p up to a relative error of 2^-50 and an absolute one of the smallest double, or an infinity of the right sign when that is beyond the doubles.", "quantifier": "every finite double and every exponent up to 308", "why_tests_cant": "2^64 doubles times all exponents; the errors of two roundings and subnormal results combine", "anchors": ["src/detail/strtod.cpp:StrtodNormalPrecision", "src/detail/strtod.cpp:fastPath", "src/detail/pow.cpp:pow10"]}
{"id": "C64", "title": "The comparison with half a unit is the sign of the difference", "statement": "withinHalfULP(b, d, dExp) is negative, zero or positive as d*10^dExp is less than, exactly or more than half a unit in the last place away from b.", "quantifier": "every double, big integer and exponent", "why_tests_cant": "the function is static and not called; no test reaches it", "anchors": ["src/detail/strtod.cpp:withinHalfULP", "src/detail/strtod.cpp:min3"]}
{"id": "C65", "title": "The last digit printed is the closest", "statement": "Among the decimals with as many places as the text of a double and inside its rounding interval, with a margin of 1/500 of a unit in the last place, none is closer to the double than the text by more than that margin.", "quantifier": "every non-zero finite double and every such decimal", "why_tests_cant": "any other digit inside of the interval reads back as the same double, so round trip tests pass; the distance is to be compared for each of 2^64 doubles", "anchors": ["src/detail/dtoa.cpp:grisuRound", "src/detail/dtoa.cpp:generateDigits", "src/detail/dtoa.cpp:grisu2"]}
{"id": "C66", "title": "Extraction returns the nearest value", "statement": "For every text denoting a decimal or hexadecimal number, lexi<float>, lexi<double> and lexi<long double> return the value of that type nearest to the number (ties to even, overflow to infinity).", "quantifier": "every text, every platform", "why_tests_cant": "the texts that fail lie within 2^-12 of a unit of the middle between two values and depend on the long double format of the machine", "anchors": ["src/float.cpp:ExtractFloat", "include/lexi/float.hpp:ExtractFloat"]}
{"id": "C67", "title": "A float prints with at most nine digits", "statement": "lexi(float) has at most 9 significant digits, the number that always suffices to read the float back.", "quantifier": "every finite float", "why_tests_cant": "floats that are short decimals, as tests use them, print short; the others have up to 17 digits", "anchors": ["include/lexi/float.hpp:FormatFloat", "src/float.cpp:FormatFloat", "src/detail/dtoa.cpp:dtoa"]}
{"id": "C68", "title": "jsonify gives equal texts exactly to equal values", "statement": "Two arguments of any types have the same JSON text iff they mean the same: null, the same boolean, the same text, the same integer, the same floating point number (zero without sign), the same infinity, or NaN. In particular integers and floating point numbers, and strings and other values, are never confused.", "quantifier": "all pairs of arguments of all types", "why_tests_cant": "a statement about all pairs of values of all types", "anchors": ["include/lexi/lexi.hpp:jsonify", "src/detail/string.cpp:jsonify", "src/detail/dtoa.cpp:prettify"]}
{"id": "C69", "title": "Extraction gives a value of the type or throws", "statement": "lexi<T>(s) returns a value of type T, or throws: exactly when T is null and s is not the literal, T is bool and s is neither literal, or T is char and s is empty. There is no undefined behaviour and no endless loop.", "quantifier": "all extraction types and all byte strings", "why_tests_cant": "arbitrary byte strings, including embedded NUL and texts of any length", "anchors": ["include/lexi/lexi.hpp:Extract", "src/int.cpp:ExtractInt", "src/float.cpp:ExtractFloat"]}
{"id": "C70", "title": "A number is read out of the text around it", "statement": "For every number type T, lexi<T> of white space, a number printed by lexi, and any text that does not go on with a digit, the decimal point, an e or an x, is lexi<T> of the number alone. White space before any text does not matter.", "quantifier": "all number types, all printed numbers of all types, all texts behind", "why_tests_cant": "the surrounding text is arbitrary", "anchors": ["src/int.cpp:ExtractInt", "src/float.cpp:ExtractFloat"]}
{"id": "C71", "title": "Every compiler gets the right routine for long", "statement": "Whatever macros a compiler predefines, the conditional compilation in architecture.hpp and int.cpp selects the 64-bit routine where long has 64 bits, so that every long and unsigned long prints as its decimal numeral; SYSTEM_ARCHITECTURE is never redefined with another value. Branches that use extensions of a compiler are compiled only by compilers that have them.", "quantifier": "all sets of predefined macros that describe a compiler, all integer types and values", "why_tests_cant": "a test suite runs on the compilers at hand", "anchors": ["include/lexi/detail/architecture.hpp:SYSTEM_ARCHITECTURE", "src/int.cpp:FormatInt"]}
{"id": "C72", "title": "With an explicit type, text is extracted and values are formatted", "statement": "lexi<T>(x) for a supported type T extracts when x is a text (std::string, pointer to char, array or literal) and formats when x is a value of type T or of another arithmetic type; no value other than the null pointer is taken for a text, and no call is ambiguous, although for T = bool a text also converts to T.", "quantifier": "all supported types T, all argument types with all qualifiers", "why_tests_cant": "overload resolution happens at compile time, for infinitely many argument types", "anchors": ["include/lexi/lexi.hpp:lexi"]}
{"id": "C73", "title": "Arrays and objects written with jsonify are JSON and unambiguous", "statement": "A tree of JSON arrays and objects of any depth, written with jsonify for the leaves and keys and with punctuation only, is a JSON value exactly when every leaf has a JSON text and every key is UTF-8; two such trees have the same text exactly when they have the same form and their leaves mean the same, whatever brackets, commas or quotation marks the strings contain.", "quantifier": "all trees of any depth and width, all arguments of all types", "why_tests_cant": "trees and strings are unbounded; injection through crafted strings needs every string", "anchors": ["include/lexi/lexi.hpp:jsonify", "src/detail/string.cpp:jsonify"]}
{"id": "C74", "title": "Escaped strings and printed numbers can be joined by a separator", "statement": "Strings passed through escape and joined with a separator that begins with a character that escape marks (other than the backslash) determine the list of strings. Texts of numbers joined with a separator that begins with no letter, digit, sign or point determine the list of texts.", "quantifier": "all non-empty lists of any lengths, all strings, all numbers of all types, all such separators", "why_tests_cant": "lists, strings and separators are unbounded", "anchors": ["src/detail/string.cpp:escape", "include/lexi/lexi.hpp:escape"]}
{"id": "C75", "title": "Formatted texts contain no control characters", "statement": "The results of jsonify for every argument, the texts of numbers, null and booleans, and the results of escape contain no byte below 32, so that each takes one line.", "quantifier": "all arguments of all types, all byte strings", "why_tests_cant": "strings are unbounded", "anchors": ["src/detail/string.cpp:jsonify", "src/detail/string.cpp:escape"]}
{"id": "C76", "title": "Floating point conversion has no signed overflow", "statement": "No operation on int in the formatting of a finite double (exponents, lengths, digit counts and buffer indices in dtoa.cpp and diyfp.cpp) or in strtod.cpp leaves the range of int, so that the conversions have no undefined behaviour from signed overflow.", "quantifier": "all finite doubles, all compilers, all exponents that are an int, all buffers and all memory behind the tables", "why_tests_cant": "2^64 doubles and 2^32 exponents, on compiler branches a test run does not take", "anchors": ["src/detail/dtoa.cpp:dtoa", "src/detail/diyfp.cpp:normalizedBoundaries", "src/detail/strtod.cpp:StrtodNormalPrecision"]}
{"id": "C77", "title": "Formatting doubles does not depend on the rounding direction", "statement": "The text of a finite double is the same whatever the rounding direction of the processor and whatever the precision, not below that of double, in which the floating point expression of getCachedPower is evaluated.", "quantifier": "all finite doubles, all rounding directions (also changing from operation to operation), all precisions of at least 53 bits, all compilers", "why_tests_cant": "2^64 doubles; the evaluation depends on compiler flags and the state of the processor", "anchors": ["src/detail/dtoa.cpp:getCachedPower", "src/detail/dtoa.cpp:dtoa"]}
{"id": "C78", "title": "Floating point values go through text into another floating point type as by a conversion", "statement": "A nonzero finite float, double or long double formatted and extracted as another floating point type gives the value a conversion between the types gives (the nearest value of the type, ties to even, with the sign).", "quantifier": "all nonzero finite values of the three types, all three formats of long double", "why_tests_cant": "2^64 doubles; the exceptions are rounding ties, which random tests miss", "anchors": ["src/float.cpp:FormatFloat", "src/float.cpp:ExtractFloat", "src/detail/dtoa.cpp:dtoa"]}
{"id": "C79", "title": "Amounts go through double unchanged", "statement": "A nonzero decimal of at most 15 digits with at most three places, extracted as double and formatted, is the same number again, and the same text if it was written without needless zeros and with a point.", "quantifier": "all texts of such decimals of either sign, all platforms and formats of long double, all memory behind the tables", "why_tests_cant": "10^15 decimals per number of places; with four places one decimal in a few thousand fails", "anchors": ["src/float.cpp:ExtractFloat", "src/detail/dtoa.cpp:generateDigits", "src/detail/dtoa.cpp:prettify"]}
{"id": "C80", "title": "Extraction is correctly rounded in the directed rounding modes", "statement": "After fesetround to downward, upward or toward zero, a text is extracted as the greatest value of the type not above the number it denotes, or the least not below it (the infinities included), with the sign of the text, for float, double and long double; so extracting downward and upward encloses the number with no value of the type in between. Texts that denote no number are extracted as ever.", "quantifier": "all texts, all decimal points, all three types, all formats of long double, the three directions", "why_tests_cant": "infinitely many texts; errors from rounding twice show only next to values of the type", "anchors": ["src/float.cpp:ExtractFloat"]}
{"id": "C81", "title": "Doubles read back unchanged whatever the rounding direction", "statement": "The rounding direction does not change what is formatted (a long double is formatted as the double it is rounded to in the direction), and a nonzero finite double formatted and extracted in any direction is the same double.", "quantifier": "all values, all rounding directions, all results the processor may give for the expression in dtoa.cpp", "why_tests_cant": "tests run in the default direction; 2^64 doubles", "anchors": ["src/float.cpp:FormatFloat", "src/float.cpp:ExtractFloat", "src/detail/dtoa.cpp:getCachedPower"]}
{"id": "C82", "title": "errno tells whether the number was in range", "statement": "With errno 0 before, it is ERANGE after extracting a number exactly if the number in the text is not in the range of the type; extraction of what was formatted leaves errno alone, as does extraction of null, bool and char, and the value extracted does not depend on errno.", "quantifier": "all texts, all types, all decimal points, all platforms, all C libraries (EINVAL or not for texts without a number, ERANGE or not for each underflow)", "why_tests_cant": "tests look at values, not at errno, and see one C library", "anchors": ["src/int.cpp:ExtractInt", "src/float.cpp:ExtractFloat"]}
{"id": "C83", "title": "Running out of memory shows as std::bad_alloc and as nothing else", "statement": "Whichever allocations fail, lexi, escape and jsonify and extraction either give what they give with unlimited memory or throw std::bad_alloc, and this only after an allocation has failed; std::length_error is thrown only if the result is too long for a std::string. Texts that fit into the std::string object need no memory: null, booleans, characters and integers of up to 32 bits are formatted even when there is none.", "quantifier": "all arguments of any length, all patterns of failing allocations, all string libraries with an increasing allocation policy (libstdc++, libc++ and Microsoft are instances), all platforms", "why_tests_cant": "tests do not let allocations fail, and cannot make strings of the maximal size", "anchors": ["src/detail/string.cpp:escape", "src/detail/string.cpp:jsonify", "include/lexi/lexi.hpp:lexi", "include/lexi/lexi.hpp:escape", "include/lexi/lexi.hpp:jsonify", "src/char.cpp:FormatChar"]}
{"id": "C84", "title": "The number of allocations does not depend on the length", "statement": "lexi allocates once at most, and so do escape and jsonify of what is not text; escape of a std::string allocates twice at most, of a char or C string three times; jsonify of a std::string six times at most, of a char or C string seven times, however long the text is and whatever is escaped in it. Each bound is reached.", "quantifier": "all arguments whose doubled size is a size_t, all patterns of failing allocations, all string libraries that grow by half at least", "why_tests_cant": "no test counts allocations, and the bound is for all lengths", "anchors": ["src/detail/string.cpp:escape", "src/detail/string.cpp:jsonify", "include/lexi/lexi.hpp:jsonify"]}
{"id": "C85", "title": "Texts of integers, floats and doubles compare as the values do", "statement": "Whatever the types of two finite numbers (integer, float, double), one is less than the other exactly if the number denoted by its text is less than the number denoted by the other text, and they are equal exactly if the texts denote equal numbers.", "quantifier": "all pairs of values of the integer types, float and double (finite), all platforms", "why_tests_cant": "no test compares texts of values of different types; the counterexamples are among integers beyond 2^53", "anchors": ["include/lexi/lexi.hpp:lexi", "src/float.cpp:FormatFloat", "src/int.cpp:FormatInt", "src/detail/dtoa.cpp"]}
{"id": "C86", "title": "The blocks of memory needed are proportional to the text", "statement": "lexi asks for no block if the text fits into the string object and otherwise for exactly one, of the size of the text; a failed extraction asks for one block for the message. If the capacities of the string library are at most doubled and rounded up by 15 (as in libstdc++, libc++ and Microsoft's), escape of a string of n characters succeeds whenever blocks of up to 4n+18 bytes are to be had, and jsonify whenever blocks of up to 12n+20 bytes are, in whichever order; in general blocks of twice the larger of the result and 2n+1, and 16, suffice.", "quantifier": "all values and strings, all string libraries with such capacities, all patterns of success and failure of larger allocations, all platforms", "why_tests_cant": "no test limits the memory; libstdc++ reaches twice the result in jsonify because the quotation marks are added after shrink_to_fit", "anchors": ["include/lexi/lexi.hpp:jsonify", "src/detail/string.cpp:escape", "src/detail/string.cpp:jsonify", "src/char.cpp:FormatChar::jsonify"]}
{"id": "C87", "title": "The decimal fast path is correctly rounded in every direction and format", "statement": "Whichever rounding direction is set (fesetround) and whichever format expressions are evaluated in (FLT_EVAL_METHOD 0 or 2), the fast path for string-to-double conversion accepts the same non-negative integers and exponents, and what it accepts is the exact product rounded once to double in the direction.", "quantifier": "all finite doubles that are non-negative integers, all exponents, the four rounding directions, evaluation in binary64, x87 extended and binary128", "why_tests_cant": "the function is static and without tests; the wrong results need the x87 unit and products next to the middle of two doubles", "anchors": ["src/detail/strtod.cpp:fast", "src/detail/strtod.cpp:fastPath", "src/detail/strtod.cpp:StrtodNormalPrecision", "src/detail/pow.cpp:pow10"]}
{"id": "C88", "title": "A refused BigInteger operation leaves its object unchanged", "statement": "When an operation on a BigInteger throws because the result does not fit, the object is what it was before.", "quantifier": "every big integer, every word, exponent and shift, all versions of mulAdd", "why_tests_cant": "the result must exceed 416 words, and the words are written before the exception", "anchors": ["src/detail/bigint.cpp:push_back", "src/detail/bigint.cpp:operator+=", "src/detail/bigint.cpp:operator*=", "src/detail/bigint.cpp:mulPow5", "src/detail/bigint.cpp:operator<<=", "src/detail/bigint.cpp:difference"]}
{"id": "C89", "title": "Programs on several BigIntegers that catch exceptions are exact", "statement": "Any program that makes big integers from words, decimal texts of up to 7999 characters and copies, assigns them to each other (also to themselves), adds, multiplies, shifts, subtracts, compares and reads their digits, and catches the exceptions, sees exactly what the same program on numbers would, and every object holds its number; an object left by a refused addition or multiplication may be assigned to. Excluded are the shifts of C43 and the differences of C45 and C51 that go wrong.", "quantifier": "every program of any length on any number of objects, all versions of mulAdd", "why_tests_cant": "programs are unbounded; an object influences later operations through words beyond its count", "anchors": ["src/detail/bigint.cpp:BigInteger", "src/detail/bigint.cpp:operator=", "src/detail/bigint.cpp:difference", "src/detail/bigint.cpp:compare", "src/detail/bigint.cpp:digit"]}
{"id": "C90", "title": "Exactly which text is returned for a double", "statement": "With the 64-bit approximation F*2^E nearest to the power of ten 10^g that the size of |x| selects, the window of the double x is the interval between the two midpoints around |x| multiplied by F, each product rounded to its high 64 bits and moved inwards by one unit. The text of x is the sign and the decimal N*10^P, written as in C27, where P is the highest place at which a decimal lies in the window and N is the one closest to the product of |x| and F, the larger of two. It is returned whenever P >= -g-9 (the range of POWER10), whatever the memory behind the table holds; and no other text is ever returned without reading outside of the table.", "quantifier": "all finite non-zero doubles, all environments", "why_tests_cant": "2^64 doubles; a wrong bit in one of 87 cached powers, a rounding direction or a strict instead of a weak comparison changes the last digit for very few of them, and such texts still read back.", "anchors": ["src/detail/dtoa.cpp:grisu2", "src/detail/dtoa.cpp:getCachedPower", "src/detail/dtoa.cpp:generateDigits", "src/detail/dtoa.cpp:grisuRound", "src/detail/dtoa.cpp:prettify", "src/detail/diyfp.cpp"]}
{"id": "C91", "title": "The text of a double does not depend on the memory behind the table of powers", "statement": "generateDigits reads POWER10[-kappa], which may lie behind the table. The text of a double should be the same whatever is found there. Where it is not: with the words w(10), w(11), .. behind the table, the text is the sign and the decimal N*10^P, where P is the highest place at which a decimal lies in the window of x (C90), and N is the one closest to hi - ((hi - mid)*f mod 2^64)/10^i, with i = -g-P and f the word read for 10^i; only w(10) can change the text, and only where P = -g-10; below, N is the largest in the window.", "quantifier": "all finite non-zero doubles, all environments, all contents of the memory behind the table", "why_tests_cant": "A test runs with one layout of the memory; the contents of POWER10[10] depend on the linker and are often the same in all tests of one program.", "anchors": ["src/detail/dtoa.cpp:generateDigits", "src/detail/dtoa.cpp:grisuRound", "src/detail/dtoa.cpp:POWER10"]}
{"id": "C92", "title": "Reading in any locale of the C library", "statement": "In every locale that the C standard allows (its white space contains that of the C locale and no letter, digit or sign; its decimal point is a string that can not be taken for another part of a number), lexi<T>(s) ignores leading white space of the locale. Integers, enumerations and stream positions are then read as in the C locale, so what lexi printed is read back; floating point numbers are read as with the first decimal point of the locale replaced by one of a single byte, which C37 specifies. JSON numbers are read in full where the decimal point is the full stop, and up to their fraction where it does not contain it. Null, booleans and characters do not depend on the locale.", "quantifier": "all locales, texts, types, values, environments", "why_tests_cant": "The locale is a global setting; a test runs in the locales installed on one machine, and there is no end of texts for each. Multi-byte decimal points and other white space occur in few locales.", "anchors": ["src/int.cpp:ExtractInt", "src/float.cpp:ExtractFloat", "include/lexi/enum.hpp:ExtractEnum", "include/lexi/lexi.hpp:lexi"]}
{"id": "C93", "title": "BigIntegers in any state compute on their words", "statement": "Whatever sequence of operations has been done to BigIntegers, also after exceptions and wrong results, every further operation computes a determined function of the lengths and values of its objects: += and *= the exact result in one more word at most, or 416 words of it and an exception; comparisons the lengths first and then the values (so 416 zero words are greater than 5, and not zero); differences the subtraction word by word, in which a borrow is forgotten at a word of all ones, into another object or in place; shifts by bits the exact product, by one word a copy with the highest word doubled; copies, assignments and single words the same words. Every call that the types allow is covered except shifts that write past the array (which are undefined), shifts by whole words that move unused words, and texts of more than 7999 digits.", "quantifier": "all programs of any length on any number of objects, all reachable states, all arguments", "why_tests_cant": "The states are reached through exceptions that a test has to provoke at the limit of 26624 bits, and there is no end of programs.", "anchors": ["src/detail/bigint.cpp:BigInteger", "src/detail/bigint.cpp:difference", "src/detail/bigint.cpp:compare", "src/detail/bigint.cpp:operator<<="]}
{"id": "C94", "title": "Extraction of an enumeration gives one of its values", "statement": "lexi<E>(text) gives a value of the enumeration E for every text if the underlying type of E is fixed (as it is for every scoped enumeration). Without a fixed type it does so exactly when the number at the beginning of the text, converted to the underlying type, lies in the range of the enumeration, which is that of the smallest integer type that holds the enumerators; otherwise the conversion is undefined. Every value of every enumeration, and so every enumerator, reads back.", "quantifier": "all enumerations with any underlying type and any list of enumerators, all byte strings, all platforms", "why_tests_cant": "Compilers mostly keep the number that was read, so a test passes whether or not the conversion is defined; and enumerations are unbounded in number.", "anchors": ["include/lexi/enum.hpp:ExtractEnum", "include/lexi/lexi.hpp:lexi"]}
{"id": "C95", "title": "Character arrays and pointers are used with the text they hold", "statement": "lexi, string, escape, jsonify and lexi<T> applied to a char pointer or a char array do what they do with the std::string of the characters it holds. This is so exactly for the characters before the first NUL, from a pointer that is not null into an array that has a NUL behind them with every byte before it written; in all other cases (null pointers, full arrays without a terminator, arrays not written) each of the five calls is undefined. The pointers that data() and c_str() of the formatter objects return are of the first kind, so that their text can be formatted and read again; only that of the character NUL is cut.", "quantifier": "all arrays of any length with any bytes, written or not, all positions and null, all types to extract, all platforms", "why_tests_cant": "What lies behind an array differs from run to run, so that a missing terminator shows by chance only; arrays are unbounded in length.", "anchors": ["include/lexi/lexi.hpp:lexi", "include/lexi/lexi.hpp:escape", "include/lexi/lexi.hpp:jsonify", "include/lexi/lexi.hpp:string"]}
{"id": "C96", "title": "The texts of numbers do not depend on whether the floating-point unit flushes subnormal numbers", "statement": "A program may run with the unit set to take subnormal operands for zero and to give zero for subnormal results (the start-up code of -ffast-math sets it for the whole program). Formatting does not change for any value that is not subnormal and for none of the other types, and the round trips of these hold. It does change for subnormal numbers: where comparisons flush, or conversions do and long double is wider than double, every subnormal double prints as 0.0; a subnormal float does so exactly where conversions to wider types flush; a long double where it is rounded to a subnormal double. Reading gives the zero of the same sign instead of a subnormal result where conversions to narrower types flush, and the same result in all other cases.", "quantifier": "all doubles, floats and long doubles of every format, all texts, every combination of the three effects, all platforms", "why_tests_cant": "The mode is set by linking another library or by a flag of another part of the program; tests run without it, and subnormal numbers are a tiny part of random inputs.", "anchors": ["src/detail/dtoa.cpp:dtoa", "src/float.cpp:format", "src/float.cpp:FormatFloat", "src/float.cpp:ExtractFloat"]}
{"id": "C97", "title": "Numbers are formatted and read back where long double is a pair of doubles", "statement": "Where long double is a pair of doubles (GCC on POWER) floats and doubles have the texts they have elsewhere, and a long double has the text of the double nearest to it, so its low part is lost. A number is read as the pair whose sum is the nearest number of 106 bits with none below 2^-1074, a double is its high part. The text of every float is read as that float. The text of a double below 2^-1021 in magnitude, or from 2^-1001 on, or with an even bit pattern, is read as that double. For the others it is read as that double or, exactly when it is odd and the pair read is halfway between it and a neighbour, as that neighbour; this does happen.", "quantifier": "all floats, doubles and pairs; all texts", "why_tests_cant": "It takes a machine of that kind, and doubles within a factor of a million of the smallest normal ones, of which there are too many to try and random tests choose almost none.", "anchors": ["src/float.cpp:format", "src/float.cpp:FormatFloat", "src/float.cpp:ExtractFloat"]}
{"id": "C98", "title": "Stream positions keep their place through text", "statement": "A std::fpos holds an offset and the state of the conversion of multi-byte characters (and in Microsoft's library also the position of the file below, which is added to the offset). Its text is the canonical numeral of the position; two positions have equal texts exactly if they compare equal; the position read from the text compares equal to the one formatted, whichever of the libraries writes and reads. It is the same place in the stream exactly if the conversion was in its initial state: any other state is lost.", "quantifier": "all positions and states, all platforms and libraries", "why_tests_cant": "Positions with another state occur only in streams of stateful encodings, and the operator == that a test would use ignores the state.", "anchors": ["include/lexi/lexi.hpp:Format", "include/lexi/lexi.hpp:Extract"]}
{"id": "C99", "title": "Formatting a number is a small amount of work", "statement": "Formatting a floating point number takes at most 104 turns of the loops that shift a significand, 17 of those that generate a digit, 9 of the one that corrects the last digit and 20 of those that write zeros. The shifts are exactly the number of binary places the value is below the normal numbers, once for each of the loops the build has (two, one or none, by compiler); normal numbers take none. Zeros, infinities and NaNs take no turn at all, and they are the only ones.", "quantifier": "all 64-bit patterns, all compilers and evaluation methods, any memory after the table", "why_tests_cant": "A test can only time a few numbers; a value with a slow loop would be one bit pattern of 2^64, and three builds have different loops.", "anchors": ["src/detail/dtoa.cpp:generateDigits", "src/detail/dtoa.cpp:grisuRound", "src/detail/dtoa.cpp:prettify", "src/detail/diyfp.cpp:DiyFp::normalize", "src/detail/diyfp.cpp:DiyFp::normalizeBoundary"]}
{"id": "C100", "title": "Every access of the formatters to memory is checked", "statement": "In the machine the code is run on, an element read gives the value last written there; reading outside of an array or what was never written, and writing, moving or copying outside of it, is undefined and never a value. memmove copies as if through another array, also when the ranges overlap. A C string is read up to its first NUL. Conversions to a type of w bits give the congruent number of that type; shifts of a 64-bit word by less than 0 or more than 63 are undefined.", "quantifier": "all arrays of bytes and of words, all offsets, lengths and numbers", "why_tests_cant": "An access outside of an array usually gives something and goes unnoticed; that the proofs of memory safety mean anything rests on the machine refusing all of them.", "anchors": ["src/detail/itoa.cpp", "src/detail/dtoa.cpp:prettify", "src/detail/bigint.cpp", "src/detail/diyfp.cpp"]}
{"id": "C101", "title": "Arithmetic on BigIntegers takes as many turns of its loops as there are words to treat", "statement": "Multiplying a BigInteger by a word treats each of its words once, or none when the word is zero or one or the number is one. Adding a word stops after the first word that gives no carry. A shift by bits treats each word once and a shift by whole words none. Comparison looks at no word of numbers with different word counts, and otherwise at the words from the top down to the first difference. A difference compares and then treats every word of the larger number. Multiplying by 5^e takes e/27 large factors, one of 13 for each 13 left, and one more pass. Reading decimal text of n characters, digits or not, reads each character at most once, takes n/19 turns for whole groups, and treats at most 2*g^2 words for g groups of up to 19 characters, and never more than 2*423^2, however long the text is.", "quantifier": "all BigIntegers, words, shifts, exponents and texts, all compilers", "why_tests_cant": "A test sees the result and not the turns; that the work stays below a constant for texts of any length is about infinitely many texts.", "anchors": ["src/detail/bigint.cpp:operator*=", "src/detail/bigint.cpp:operator+=", "src/detail/bigint.cpp:operator<<=", "src/detail/bigint.cpp:mulPow5", "src/detail/bigint.cpp:compare", "src/detail/bigint.cpp:difference", "src/detail/bigint.cpp:BigInteger"]}
{"id": "C102", "title": "Every bit pattern of a long double has the text of what it stands for", "statement": "Whatever the bits of a long double argument are, in each of the three formats, lexi and jsonify give the text of a double: the one nearest to the number the bits stand for, the infinity of that sign, or a NaN. In the x87 format the bits without the integer bit and with an exponent other than zero (unnormals, pseudo-infinities, pseudo-NaNs) are NaNs, and pseudo-denormals are numbers. Objects that mean the same have the same text; different bits mean the same number only for a pseudo-denormal and its normal twin. Extraction stores bits that mean the number that was read, never a pseudo-denormal.", "quantifier": "all bit patterns of 64, 80 and 128 bits, all texts, all environments", "why_tests_cant": "There are 2^80 and 2^128 patterns, and the invalid ones do not come out of arithmetic, so tests do not meet them.", "anchors": ["src/float.cpp:FormatFloat::format", "src/float.cpp:ExtractFloat", "include/lexi/lexi.hpp"]}
{"id": "C103", "title": "BigInteger and the classification of doubles do not depend on the order of bytes", "statement": "memcpy, memmove and memset of bytes copy, shift and clear the words of a BigInteger, and memcmp of bytes is 0 exactly when the words are equal, in whatever order the bytes of a word are in memory, with undefined behaviour for the same arguments. The union of ieee754.hpp gives the bits of every double if doubles and integers have the same order of bytes, and only then.", "quantifier": "all orders of the eight bytes of a word, all arrays and lengths, all doubles", "why_tests_cant": "The tests run on machines of one byte order; there are 40320.", "anchors": ["src/detail/bigint.cpp:operator==", "src/detail/bigint.cpp:operator<<=", "src/detail/bigint.cpp:operator=", "include/lexi/detail/ieee754.hpp:BitwiseDouble", "src/detail/ieee754.cpp:isNan", "src/detail/diyfp.cpp:DiyFp"]}
{"id": "C104", "title": "What any configured literal prints and reads", "statement": "For every choice of LEXI_TRUE, LEXI_FALSE, LEXI_NULL, LEXI_NAN, LEXI_INFINITY and LEXI_NEGATIVE_INFINITY, of any length and also with NULs in it, the text printed, the text read through c_str(), the texts extracted and the literals with undefined behaviour are given exactly; booleans round-trip exactly when the text of LEXI_TRUE before its first NUL has four characters and that of LEXI_FALSE five, and both fit the buffer, null exactly when LEXI_NULL is four characters without NUL.", "quantifier": "all literals, all strings extracted", "why_tests_cant": "The literals are macros of the build; a test runs with one choice of them, and a buffer overrun or a read of unwritten memory need not show.", "anchors": ["include/lexi/detail/define.hpp", "src/bool.cpp:FormatBool", "src/bool.cpp:ExtractBool", "src/null.cpp:FormatNull", "src/null.cpp:ExtractNull", "src/float.cpp:format"]}
{"id": "C105", "title": "Printed numbers are read alike by every C library that follows C17", "statement": "Where strtold only follows the recommended practice of C17 7.22.1.3 (9), rounding correctly the texts of at most DECIMAL_DIG digits and for longer ones rounding the number or one of the two decimals of DECIMAL_DIG digits next to it, every text of a float, double or long double is extracted as with a correctly rounding strtold, and so is every text of an integer where long double is wider than double or the integer is at most 10^17; a nonzero finite double still round-trips exactly, and any text is extracted as the rounding of the number or of one of those two decimals.", "quantifier": "all choices of the library, all texts, values and environments", "why_tests_cant": "A test runs with one C library, mostly one that rounds every text correctly.", "anchors": ["src/float.cpp:ExtractFloat", "src/float.cpp:FormatFloat"]}
{"id": "C106", "title": "Threads may format and extract integers at the same time", "statement": "Any number of threads format integers, extract integers from std::strings they share and read C strings they share, their accesses to memory in any order. There is never a data race, no access is undefined, every thread gets what the call gives when there are no other threads, and it has it after at most 64 accesses of its own (a string's length and one more for extraction), whatever the others do.", "quantifier": "all numbers of threads, all integers and strings, all interleavings", "why_tests_cant": "A race shows, if at all, in few of the interleavings, and a test cannot choose them.", "anchors": ["src/detail/itoa.cpp", "src/int.cpp:FormatInt", "src/int.cpp:ExtractInt"]}
{"id": "C107", "title": "Threads may use the library at the same time", "statement": "Any number of threads format values of any type (null, booleans, characters, integers, floating point numbers, enumerations, stream positions) and extract values from, escape and jsonify std::strings they share, their accesses to the arrays of characters in any order. There is never a data race, no access is undefined where the call is defined without other threads, every thread gets what the call gives when there are no other threads, and it has it after a number of accesses of its own, whatever the others do.", "quantifier": "all numbers of threads, all values and strings, all interleavings", "why_tests_cant": "A race shows, if at all, in few of the interleavings, and a test cannot choose them.", "anchors": ["src/detail/dtoa.cpp:dtoa", "src/detail/itoa.cpp", "src/float.cpp:FormatFloat", "src/int.cpp:FormatInt", "src/bool.cpp:FormatBool", "src/null.cpp:FormatNull", "src/char.cpp:FormatChar", "include/lexi/lexi.hpp"]}
{"id": "C108", "title": "Strings may be escaped in pieces, and a text that was cut off is recognised", "statement": "escape of a concatenation is the concatenation of the escaped pieces, and between the quotation marks the same holds for jsonify. Wherever an escaped text is cut, either both parts are the escaped texts of the parts of the string, or the first part ends in a lone backslash and is the escaped text of nothing; so one escaped text begins with another exactly if the strings do. A jsonify text that is cut off anywhere is not a JSON string, and if a quotation mark is put behind the cut it is none either, or it is the text of the beginning of the string. The texts have exactly one byte more per escaped character, for jsonify one or five more and two for the quotation marks.", "quantifier": "all strings, all ways to cut them, all platforms", "why_tests_cant": "There are unboundedly many strings and places to cut, and an error (such as an escape whose meaning depends on the next character) shows only for particular neighbours.", "anchors": ["src/detail/string.cpp:escape", "src/detail/string.cpp:jsonify", "include/lexi/lexi.hpp:escape", "include/lexi/lexi.hpp:jsonify"]}
{"id": "C109", "title": "Escaped strings are literal arguments of a command and literal regular expressions", "statement": "Strings escaped and joined by spaces are read by a POSIX shell as exactly these strings, one argument each, with nothing expanded, split or executed; and an escaped string used as a Perl-compatible regular expression stands for exactly the characters of the string.", "quantifier": "all lists of strings of any length, all platforms", "why_tests_cant": "Lists and strings are unbounded, and one byte that is missed among its 256 values and neighbours is enough for an injection.", "anchors": ["src/detail/string.cpp:escape", "include/lexi/lexi.hpp:escape"]}
{"id": "C110", "title": "DiyFp computes with the numbers it stands for", "statement": "With f*2^e as the number of a DiyFp: the product of two is the nearest number with its exponent and does not overflow, in all three versions; a difference with equal exponents is exact; normalize and normalizeBoundary keep the number of every DiyFp but zero and set the first bit; the constructor from a double is exact; and normalizedBoundaries gives exactly the ends of the interval of numbers that round to the double.", "quantifier": "all significands of 64 bits, all exponents, all finite doubles, all compilers", "why_tests_cant": "There are 2^128 products and the three versions cannot be run on one machine; an error of one unit shows in few of them.", "anchors": ["src/detail/diyfp.cpp:mul", "src/detail/diyfp.cpp:normalize", "src/detail/diyfp.cpp:normalizeBoundary", "src/detail/diyfp.cpp:DiyFp", "src/detail/diyfp.cpp:normalizedBoundaries"]}
