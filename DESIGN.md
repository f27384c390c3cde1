# Formal model of Alexhuszagh/lexi in Rocq (Coq 8.16.1)

lexi converts values to text and back: `lexi(x)`, `string(x)`, `escape(x)`,
`jsonify(x)` and `lexi<T>(s)`.  `properties.jsonl` states what a user should be
able to rely on (C01..), `MANIFEST.json` says which theorems establish it, and
`rocq/theories` holds the model, the specifications and the proofs.

## How it is built

* `Model*.v`: one executable Gallina model per C++ source file, function by
  function; every definition cites the file and lines it stands for.  No proofs.
* `Spec*.v`: small specifications that do not use the model's algorithms (decimal
  numerals, what a numeric text denotes, RFC 8259 strings and numbers, UTF-8,
  IEEE-754 through Flocq, words of a big number, supported types, what a history of
  objects stands for).
* `Proof*.v`: lemmas.
* `Prop*.v`: the theorems `Cnn_...`, each closed by `exact` (or a witness), with
  `Print Assumptions` beneath and concrete cases (`Example`) beside.  A name ending in
  `_refuted` gives a counterexample to the property as stated; `_partial` marks
  the strongest statement proved instead.

Effects are explicit.  A C++ function that can fail returns
`outcome A := Ok a | Throw msg | UB why | NoFuel`.  `UB` covers out-of-bounds
accesses, reads of indeterminate memory, oversized shifts, out-of-range
float-to-int conversion, use of a dead object.  `NoFuel` marks a loop that outlived
its fuel; the theorems exclude it, so they include termination.  Fixed-width
arithmetic wraps explicitly (`mod 2^n`).  Buffers are `list (option ascii)` (`None` =
indeterminate byte) with checked accesses.

Everything implementation-defined is a parameter and the theorems quantify over it:
width of long, signedness of char and wchar_t, the compiler branch of
each `#if` (MSVC, `__int128`, generic; independently for each function), how the
floating point expression in `getCachedPower` is evaluated (double, fused, x87), the
long double format (64, 80, 128 bits), NaN payloads, the configured literals, the
locale's decimal point, and the memory behind the table `POWER10`.

### The out-of-bounds read in the digit generator

`generateDigits` (src/detail/dtoa.cpp:267) indexes the ten-entry table `POWER10`
with `-kappa`, which reaches 16 and more.  Two policies model this: `Strict` (the read is
`UB`, the C++ standard's view) and `Lenient oracle` (the read gives an arbitrary
32-bit word chosen by an arbitrary oracle, the behaviour of ordinary compiled code).
Properties of the output are proved for every oracle, and under `Strict` whenever
the outcome is defined; definedness itself is refuted (C23).

## What is modelled

| Source | Model | Properties |
|--------|-------|------------|
| src/detail/itoa.cpp | ModelItoa | C01, C02 |
| include/lexi/int.hpp, enum.hpp, src/int.cpp, `strtoull` | ModelInt | C01-C07, C49 |
| src/bool.cpp, null.cpp, char.cpp, detail/define.hpp | ModelText | C08-C11, C16 |
| src/detail/string.cpp | ModelString | C12-C16, C108, C109 |
| include/lexi/lexi.hpp | ModelLexi, ModelType | C17, C40, C49, all API-level statements |
| lexi.hpp: character pointers and arrays | ModelPointer | C95 |
| src/float.cpp, src/detail/dtoa.cpp on a unit that flushes subnormal numbers to zero | ModelFlush | C96 |
| src/float.cpp where long double is a pair of doubles (GCC on POWER); `strtold` is taken to round to 106 bits, none below 2^-1074, and to split the result, its high part deciding overflow | ModelPaired | C97 |
| lexi.hpp: positions in streams with their conversion state, in three standard libraries | ModelPosition | C98 |
| diyfp.cpp, dtoa.cpp, float.cpp with a record of every turn of a loop | ModelWork | C99 |
| bigint.cpp with a record of every turn of a loop | ModelBigWork | C101 |
| float.cpp: long double arguments and results as bits; loading and storing as in IEEE 754 and, for 80 bits, in the manual of the x87 unit | ModelEncoding | C102 |
| bigint.cpp memcpy, memmove, memset, memcmp, and the union of ieee754.hpp, on bytes in a given order | ModelBytes | C103 |
| define.hpp, bool.cpp, null.cpp, float.cpp for literals of any length and with NULs; strncpy and string comparison in full | ModelLiterals | C104 |
| float.cpp with a `strtold` that rounds correctly only up to `DECIMAL_DIG` digits, any choice allowed by C17 7.22.1.3 (9) beyond | ModelReader | C105 |
| itoa.cpp, int.cpp on several threads, every access to memory a step; memory is sequentially consistent, which C++11 1.10 (21) grants to programs without data races | ModelThreads | C106 |
| all formatters, extraction, escape and jsonify on several threads, every access to an array of characters a step | ModelParallel | C107 |
| the machine itself: arrays, copies, conversions, shifts | Machine, ModelDiyfp, ModelBigint | C100 |
| include/lexi/detail/type.hpp | ModelType | C40 |
| include/lexi/enum.hpp: the conversion to enumerations without a fixed type | ModelEnum | C94 |
| overload resolution of `lexi<T>(x)` and of the constructors of FormatInt | ModelCall | C72, C06 |
| src/detail/ieee754.cpp | ModelIeee | C18, C19 |
| src/detail/diyfp.cpp | ModelDiyfp | C35, C110 |
| src/detail/dtoa.cpp | ModelDtoa | C20-C29, C34, C36, C48, C50, C65, C90, C91 |
| src/float.cpp, `strtold` | ModelFloat | C20-C33, C37, C38 |
| lifetimes of the formatter classes | ModelObj | C39 |
| src/detail/bigint.cpp, bigint.hpp | ModelBigint | C41-C45, C51-C53, C62 |
| bigint.cpp: the objects that exceptions leave, programs that catch them | ModelThrown, ModelBigStore | C88, C89, C93 |
| src/detail/pow.cpp, strtod.cpp | ModelStrtod | C46, C47, C63, C64 |
| the `int` arithmetic of dtoa.cpp, diyfp.cpp, strtod.cpp | ModelSigned | C76 |
| the floating point expression of dtoa.cpp in any rounding direction | ModelRounding | C77 |
| strtod.cpp after `fesetround`, and in the formats of FLT_EVAL_METHOD 2 | ModelEval | C87 |
| float.cpp and `strtold` after `fesetround` | ModelDirected | C80, C81 |
| int.cpp, float.cpp, enum.hpp: `strtoull` and `strtold` in any locale | ModelLocale | C92 |
| int.cpp, float.cpp: `errno` after `strtoull` and `strtold` | ModelErrno | C82 |
| capacities, `reserve`, `shrink_to_fit`, failing allocations | ModelMemory | C83, C84, C86 |
| include/lexi/detail/architecture.hpp, every `#if` on the compiler | ModelConfig | C71, C35 |
| the whole interface, types combined | (all of the above) | C54-C61, C66-C70, C73-C75, C78, C79, C85 |

Not modelled: the text in strtod.hpp (all commented out), build files.

TestSuite runs every expectation of the library's own tests (/repo/test) on the model, on
three platforms; all are met.

Simplifications, each noted at the definition: `reserve` and `shrink_to_fit` have no
effect outside ModelMemory; `int` results are exact integers (shown to be in range in C76);
white space is that of the C locale and the decimal point one byte outside ModelLocale; object identities are
lifetimes, so storage reuse never hides a dangling pointer; C++ types are a grammar
(fundamental types, enumerations, std::fpos, classes, pointers, arrays), and argument
deduction is modelled for the calls lexi.hpp makes; the block for the message of an exception counts its characters
only, without a header, and the exception object itself is not counted; a decimal literal in the source is rounded to
nearest by the compiler.

## Trusted base

* Coq's kernel (including `vm_compute`) and the faithfulness of the model to the source.
* The C and C++ library as modelled: `strtoull`, `strtold` (correctly rounded except in C105, as
  glibc, musl and the MSVC runtime do), their effect on `errno` (C17, with its freedoms
  as parameters), `strncpy`, `memmove`, `memcpy`, `memset`, `memcmp`,
  `std::string` (its capacities and allocations as parameters in ModelMemory), copy elision.
* Reading the member of `union BitwiseDouble` that was not written last gives the bits of the other one (GCC, Clang and
  MSVC define this; C++ alone does not).
* Floating point conversions and arithmetic as in IEEE 754 (C17 Annex F): a `long double` out of the range of
  `float` or `double` converts to an infinity, which C++ alone leaves undefined.
* Axioms.  No axioms of our own.  `Print Assumptions` reports:
  * "Closed under the global context" for all theorems of PropInt, PropText,
    PropString, PropBig, PropBigStore, PropBigWords, PropEnum, PropType, PropObj, PropCall, PropMemory, PropBlocks, PropLocale (but C92_fraction_lost), PropPointer (but C95_own_text), PropPosition, PropMachine, PropBigWork, PropBytes, PropLiterals, PropThreads, PropParallel, PropPieces, PropShell and PropConfig (but C35_every_function);
  * also for C18_partition, the three C35_* theorems, C37_texts_denote, C37_cstr,
    C30_special_read_back, C32_long_double_refuted, C46_fast_inside, C46_inside, C46_refuted, C63_zero, C76_read, C77_model,
    C64_least_of_three,
    the C14_* theorems, C12_append, C74_escaped, C75_escape_refuted, C06_enum_extraction, C07_fpos_extraction, C55_integers, C55_attained,
    both C57_*, C59_integer_part, C96_others, C96_others_read, C110_zero, C110_normalize_refuted, and of C82 those about integers, C82_value, C82_others and C82_unreported;
  * for all other theorems of PropFloat, PropFloat2, PropRead, PropMore, PropMeaning, PropJoin,
    PropAmount, PropDirected, PropErrno, PropOverrun, PropRounding, PropSigned, PropStrtod, PropThrough, PropTwice, PropEval, PropSettle, PropWide, PropGrisu, PropBehind, PropFlush, PropPaired, PropWork, PropEncoding, PropReader, PropDiy and C95_own_text (they use real numbers), only axioms of the standard library, all four or some of them:
    `ClassicalDedekindReals.sig_forall_dec`, `ClassicalDedekindReals.sig_not_dec`,
    `FunctionalExtensionality.functional_extensionality_dep`, `Classical_Prop.classic`.

## Findings: properties that do not hold

Each has a `_refuted` theorem with a witness; MANIFEST.json says what holds instead.

| Id | What is wrong |
|----|---------------|
| C05 | malformed and out-of-range integers are read silently (`99999999999999999999` as int is -1) |
| C11 | sizes of the bool and null texts are hard coded; `LEXI_TRUE "yes"` prints a NUL byte |
| C13 | DEL (127) is not escaped |
| C16 | `jsonify` of a char above 127 is not UTF-8 |
| C23 | `POWER10[-kappa]` is read outside of the table |
| C24 | NaN and infinities are printed as bare words, which are not JSON |
| C30 | with the x87 long double a printed double can read back as its neighbour (double rounding) |
| C32 | long doubles are printed as doubles |
| C33 | the sign of zero is lost |
| C38 | reading depends on the locale's decimal point |
| C39 | copies of FormatInt, FormatFloat and FormatEnum point into the original |
| C40 | `lexi<const int>` and other qualified numbers have no overload |
| C43 | a shift by a multiple of 64 moves the wrong words; a shift into the last word overruns the array |
| C45 | `difference` loses a borrow at an all-ones word |
| C46 | exponents above 308 read outside of the table of powers |
| C47 | negative significands are rounded twice |
| C48 | the shortest text is not always found (1e23) |
| C51 | `difference` in place uses the overwritten count |
| C53 | 8000-digit numbers overrun the array; the check for the capacity is never reached |
| C58 | where long double is double, an integer read as float is rounded twice |
| C59 | a double in scientific notation read as an integer loses its exponent (`5e-324` is 5) |
| C60 | with the x87 long double printing what was read may give another text (C30) |
| C63 | scaling 1e308 by 10^-617 gives zero: the exponent is split without regard to the significand |
| C64 | `withinHalfULP` is a stub that returns 0 |
| C65 | where the reads leave `POWER10`, the last digit is not the closest, whatever is found there: 1 + 2^-52 is printed with a last digit 3 |
| C66 | texts close to the middle between two floats or doubles are rounded twice, through long double |
| C67 | a float prints with up to 17 digits, as the double of the same value |
| C71 | a compiler with a 64-bit long that does not define `__GNUC__` gets the 32-bit routine: 2^32 prints as 0 |
| C75 | `escape` leaves control characters, such as a line feed, as they are behind the backslash |
| C78 | a double in the middle of two floats is formatted to a text that is not, and read as the wrong float (`2.06794015e34`); 0.1 is not the same long double after text |
| C81 | 0.1 printed and read with the rounding direction downward is the double before it |
| C82 | numbers out of range of the narrower types leave errno alone (`4294967296` as int, `1e400` as double on x86); subnormal doubles may set it where long double is double |
| C83 | a string of more than half of `max_size()` characters cannot be escaped: `std::length_error`, though the result fits |
| C85 | the long long 2^60+1 prints as less than the double 2^60 does |
| C87 | 10375e22 is rounded twice on the x87 unit |
| C88 | a `+=` or `*=` that throws has already changed the number: 2^26624-1 `+= 1` leaves 416 zero words that are not zero for `isZero` |
| C91 | the word behind `POWER10` can change the last digit: 0x40769D4FC660619E prints as 361.83197629593806 or 361.83197629593805 |
| C94 | a text out of the range of an enumeration without a fixed underlying type is converted all the same (`4` to `enum { a, b, c }`) |
| C96 | with flush-to-zero all subnormal doubles print as `0.0` |
| C97 | on POWER the double 0x002123456789ABCD prints as `4.76660266577987e-308`, which is read as the double below; long doubles lose their low part |
| C98 | the conversion state of a stream position is not in its text and is the initial one when read |
| C95 | a char array without a terminator is read past its end; what is behind a NUL is dropped |
| C105 | where long double is a double, -4611686018427388415 may be extracted as the double below the nearest, C17 recommending exactness only to 17 digits |
| C109 | an escaped line feed is removed by a shell (a line continuation), and an empty string is no argument |
| C110 | the generic `normalize` does not end for the significand 2^53 and is wrong for larger ones (no double has them) |

## Wrong programs

`seeded/LOG.jsonl` records edits of the model, each a realistic bug, made in a
scratch copy.  A script admits every lemma whose proof breaks and then lists the
property theorems whose `Print Assumptions` mention an admitted lemma: these are the
theorems that noticed the bug.
