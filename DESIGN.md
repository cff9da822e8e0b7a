# Formal model of Ieme in Rocq (Coq 8.16.1)

Ieme is a header-only C++20 library of fractions with pluggable operation
policies. This directory holds a Gallina model of the headers under
`/repo/include/ieme`, an independent specification over the rationals (and,
for floating point, over Flocq's IEEE numbers), and machine-checked proofs that
the model meets the properties of `properties.jsonl` - or machine-checked
counterexamples where it does not.

## Layout of `rocq/theories`

| Files | Content |
|---|---|
| `Machine Raw Ops Fraction Fmath Parse Limits Literals Mixed Hash Chrono Stream Float Program Sums Chrono2 Limits2 Algo Format Modes Timer Table Flags Narrow Except Charstream Locale Effects Overload Litexpr Anymode` | the model: computable definitions only, each citing the lines of `/repo` it models |
| `Spec` and `*_spec` | the specification vocabulary of the theorems: values in `option Q`, canonical forms, the grammar of literals, positional values, bounds. No definition there calls a function of the code it specifies |
| `*_proofs`, `*_claims` | lemmas |
| `Props_*` | the claims: one `Theorem Cnn_...` each, proved by `exact`, with `Print Assumptions` below it and `Example`s that meet its hypotheses beside it |
| `Upstream_tests` | the 3858 assertions of the project's own unit tests evaluated on the model (a test of the model's fidelity, not a proof) |
| `Readme_examples` | the examples of the README evaluated on the model (tests, not proofs) |

`MANIFEST.json` maps each property to its theorems. `seeded/LOG.jsonl` records
the wrong programs the theorems were tested against.

## How the code is modelled

* **Machine integers** (`Machine.v`). A representation is a descriptor (signed?,
  number of bits >= 32); values are `Z`. Every C++ operation is a function into
  an outcome type `res A = Ok a | UB reason`: signed overflow, division by zero,
  `min / -1`, over-wide shifts and violated preconditions of
  `std::gcd`/`std::lcm` are `UB`; unsigned arithmetic wraps; `static_cast` is
  modular (C++20). Theorems quantify over every representation, not over
  particular widths.
* **Raw fractions, queries, raw math** (`Raw.v`). A raw fraction is a pair of
  `Z`; each C++ function has one Gallina function.
* **Policies** (`Ops.v`). A policy is a record with one field per C++ static
  member function (34 overloads). `safe` and `fast` are records, and
  `reduced_input`, `reduced_output` are functions from policies to policies,
  exactly as the C++ class templates are. Theorems about "every policy" are by
  induction on the syntax of arbitrarily nested policies.
* **fraction, fraction math, mixed numbers, literals, chrono, limits, hash,
  streams, parsing, floating point**: one file each. The parts of the C++
  standard library they call (`string_view`, `istream`, `duration`, `ratio`,
  `hash`, `memcpy` of an object representation) are modelled from the standard.
* **Client programs** (`Program.v`): a while language whose primitives are the
  library's operations on variables, used to state whole-program claims.

A C++ execution that meets undefined behaviour is a distinct outcome, never a
default value, so "returns" in a statement always means `= Ok _`.

## Trusted base

1. The kernel of Coq 8.16.1 (and `vm_compute`, used for the concrete examples
   and witnesses). No plugin, no axiom of our own, no disabled check, no
   `Admitted`, no functor or module type.
2. Axioms, as listed by the `Print Assumptions` below each theorem:
   * every theorem outside `Props_Float.v`, `Props_Convert.v`, `Props_LitFloat.v` and
     `Props_Dyadic.v` is *closed under the global context*;
   * so are the theorems of `Props_Float.v` other than those of the next line;
   * `C40_correctly_rounded`, `C40_nearest`, `C40_undefined_nan`,
     `C41_float_round_trip`, `C41_double_round_trip`, `C41_canonical_round_trip`,
     `C59_big_endian`, `C65_relative_error`, `C65_minimum_refuted` and all theorems of C72, C73,
     C74 (`Props_Convert`), C99 (`Props_LitFloat`) and C102 (`Props_Dyadic`) use the
     axioms of the standard library's real numbers, on which Flocq rests: `ClassicalDedekindReals.sig_forall_dec`,
     `ClassicalDedekindReals.sig_not_dec`,
     `FunctionalExtensionality.functional_extensionality_dep`,
     `Classical_Prop.classic`.
   * `vcheck`/`coqchk` list in addition `Coq.Reals.Rdefinitions.RbaseSymbolsImpl.*`,
     `RinvImpl.*` and `Coq.ssr.ssrunder.Under_rel.*`. These are the opaque
     interfaces of modules of Coq's standard library, which `coqchk` prints as
     parameters; no theorem depends on them as axioms.
3. That the model is the code. It was written by reading the headers, which
   were neither compiled nor run. `Upstream_tests.v` supports it: of the 3858
   assertions, 3855 hold in the model, and the other three
   (`limits.test.cpp:18, 61, 63`) compare the minimum value under a reducing
   policy, which violates the precondition of `std::gcd`.
4. The reading of the C++20 standard in `Machine.v`, `Stream.v`, `Format.v`, `Chrono.v` and
   `Parse.v`, and the assumptions on the implementation stated in `Float.v`
   (IEC 60559 formats, rounding to nearest even, integers stored in the byte
   order of floats) and `Hash.v` (64-bit `size_t`).

## What is modelled, header by header

| Header | Modelled | Not modelled |
|---|---|---|
| `raw_fraction.hpp` | construction, conversion, `<<`, `>>` | |
| `raw_fraction_queries.hpp`, `fraction_queries.hpp` | every function | |
| `raw_fraction_math.hpp`, `reduce_mode.hpp` | every function; modes that are not enumerators as function arguments (`Modes.v`) and as template arguments (`Anymode.v`) | |
| `math_utilities.hpp` | `abs`, `pow2`, `pow` | |
| `numbers.hpp` | its constants, inlined | |
| `ops.hpp` | all 34 functions of `safe`, `fast`, `reduced_input`, `reduced_output`; the named policies | |
| `fraction.hpp` | constructors, accessors, all operators between any two representations, compound assignment, streams; nested assignments in every order of evaluation (`Effects.v`); writing through the references that `num()`, `den()` and `raw()` return (`Parts.v`), also from several threads (`Threads.v`); overload resolution and the deleted operators (`Overload.v`) | errors in the body of a chosen template, such as operators on fractions of floating-point numbers |
| `fraction_math.hpp` | every function | |
| `mixed_number.hpp` | every constructor, conversion and operator; overload resolution of + (`Overload.v`) | |
| `fraction_literals.hpp` | `_fr`, its operators, `_dec`; the static types of expressions with literals (`Overload.v`, `Litexpr.v`) | what can be done with a fraction whose representation is a literal |
| `parse_utilities.hpp` | every function | |
| `floating_point.hpp` | `to_fraction` for float and double, both byte orders; `to_float`, `to_double`, `to_long_double`; the string conversion | |
| `chrono.hpp` | conversions, `to_fractional`, `clock_wrapper::now`, and the arithmetic, comparisons, `abs`, `floor`, `ceil` of `std::chrono::duration` as instantiated with fractions | reading the clock itself |
| `hash.hpp` | every function, for any `std::hash` of the integers | |
| `limits.hpp` | `limits<fraction>`, `numeric_limits<fraction>` | `has_denorm`, `round_style`, the exponent members and `tinyness_before`, which mean nothing for fractions; the `mixed_number` specialisations, which name non-existent members and cannot be instantiated |

General simplifications, repeated at the definitions: `constexpr`,
`noexcept` (but for streams) and value categories are static and left out, and overload
resolution has a model of its own, `Overload.v`; representation types narrower than `int` have a model of their own, `Narrow.v` (the arithmetic of
`ops.hpp` does not compile for them); streams have the classic locale
(`Locale.v` has any `numpunct` grouping, `Stream.v` has the default flags and no exceptions, `Charstream.v` the character
types, `Except.v` an exception mask, `Format.v` any base, width, fill, adjustment,
`showbase`, `showpos` and `uppercase`, `Flags.v` any set of base bits and `skipws` on
or off).

## Properties and proofs

| Property | Modelled by | Proof |
|---|---|---|
| C01-C06 | policy record, 3 operand shapes | exactness of safe and fast, closure under reduced_input/reduced_output, induction on policies |
| C07, C64 | same | bounds through each intermediate value; C64 is tight |
| C08 | same | corollary of C01-C05 |
| C09 | reduce | gcd algebra |
| C10, C11 | same | symmetric computation; exactness + canonical forms are unique |
| C12-C17 | comparison fields | cross multiplication with signs; refutations for sign-unaware comparisons |
| C18 | all fields | refutation for safe (0/0), positive part for fast and for * and / |
| C19-C21 | reduce, normalize_signs | gcd algebra |
| C22-C26 | queries, reciprocal, abs | case analysis, `Z.quot`/`Z.rem` lemmas |
| C27-C31 | to_whole, redenominate | division lemmas; exact characterisation of where ceil/floor/round fail |
| C32 | pow (fuelled recursion, proved to terminate) | induction |
| C33-C37, C61 | string functions over lists of character codes | grammar soundness and completeness, fold invariants |
| C38-C41, C59, C65 | bit-level model of to_fraction, Flocq for to_float | Flocq |
| C42-C45, C60 | mixed_number | exactness of policy + trunc |
| C46, C62 | hash_combine, abstract std::hash | refutation; positive for reduced fractions and mixed numbers |
| C47-C48 | model of istream/ostream integer extraction | list induction |
| C49-C50 | limits | cross multiplication, refutations |
| C51, C58 | common_type conversion | wrap lemmas |
| C52, C55 | sequences, expression trees | induction |
| C53 | literals | direct |
| C54, C63 | duration_cast and duration operators | exactness |
| C56-C57 | safe vs fast vs reduced_input | monotonicity of magnitudes |
| C66-C67 | client programs | simulation by a rational interpreter, by induction on fuel and syntax |
| C68 | unsigned representations | simulation by the signed representation one bit wider, induction on policies and expressions |
| C72-C74 | pairs of conversions to floating point, and back | monotonicity and relative error of rounding, separation of small fractions |
| C75 | further duration operators | exactness of conversions and of the policy |
| C76 | static members of numeric_limits | ranges; 10^643 <= 2^2136 for digits10; refutations |
| C77-C78 | client programs under policies without reduced results | simulation with an invariant on signs; reduced operands of small values are small |
| C79 | client programs over signed and unsigned representations | the invariant that every variable is in lowest terms and fits its type makes every conversion the identity |
| C80 | to_fraction at an unsigned type | the simulation of C68 through the whole computation |
| C81 | the default operators depend only on the numbers | from the exact domain of C82, exactness and uniqueness of lowest terms |
| C82 | the exact domain of the default operators | each step of the computation after reduction, as an equivalence on the lowest terms |
| C83 | the exact domain of round and redenominate under the default policy | C82 at each step; floor of the lowest terms |
| C84 | mixed-number expressions with small values are defined | induction over the expression; every fractional part is in lowest terms with the denominator of its value |
| C85 | the exact domain of conversions and operations on durations under the default policy | C82 at each step; factors to the common period are integers |
| C86 | duration::zero, min, max | C85 with equal periods; refutation for min and max |
| C87 | the exact domain of fast_reduced_io; safe replaces fast in operations and expressions | case analysis on every product; C56 and uniqueness of lowest terms, induction on the expression |
| C88 | comparison-driven algorithms decide as on the rationals; sorting, binary search | induction on the decision tree; C13 and C82 at each comparison |
| C89 | exact domains of reduce, normalize_signs, the queries, unary minus and abs | case analysis on the signs and least values |
| C90 | exact domain of the conversion of literals | C33 and C82 at each step of the conversion, lowest terms of a sum with an integer |
| C91 | exactly when operations on mixed numbers are defined | each operation reduced to the exact domain of the default +, trunc and % (C82, C83); structural induction over the expression, with results of the default operators never containing the least integer |
| C92 | a wider signed representation computes the identical result, for every policy, function, expression, literal, mixed number, duration and program | each primitive is monotone in the width; lifted by unfolding, induction on policies, expressions and fuel |
| C93 | a program under the default policy is free of undefined behaviour exactly if each operation it performs over the rationals satisfies its own condition | exact step conditions for operands in lowest terms and the undefined fraction, induction on expressions and fuel |
| C94 | `<<` and `>>` under basefield, showbase, showpos, uppercase, width, fill, adjustfield | induction on digits in any base; case analysis of padding; failing cases as general theorems |
| C95 | modes as integers, the switch statements with what follows them | case analysis over C19, C27, C31 |
| C96 | the program in the client language of C66 | simulation over integers at a common denominator, strong induction on the divisor; C93 for definedness |
| C97 | stacks of policies collapse to eighteen, which are pairwise different | induction over the stack with reduce-twice = reduce-once; decoding five observations; simulation over programs |
| C98 | the stacks of C97 without their input layers | reduce is the identity on lowest terms; invariant that every variable and intermediate value stays in lowest terms, by induction on expressions and steps |
| C99 | string_to_fraction and `_dec` followed by the three conversions to floating point | the size of the converted fraction is bounded by that of the literal, its lowest terms are exactly representable, and the division is correctly rounded; for longer literals the relative error of C65 and a witness |
| C100 | hash_value of fractions and mixed numbers with std::hash the identity modulo 2^64 | exclusive or is injective in each argument and commutes with the shift; the shift is injective modulo 2^63 |
| C101 | operators and comparisons in unsigned representations | shape of stacked policies, run of the bottom policy on operands in lowest terms, modular arithmetic |
| C102 | to_fraction, expressions and std::accumulate, to_double | rounding commutes with powers of two away from the subnormal numbers; dyadic rationals are closed under + - *; C55, C38, C66, C65 |
| C103 | Timer.v, Chrono2.v, Chrono.v | induction on the steps over the exactness of conversion and compound assignment (C75), uniqueness of lowest terms for the order, C70 for definedness |
| C104 | Ops.v, Raw.v | each bottom operation characterised by an equivalence with relations on integers, composed with the shape of stacks (C97) |
| C105 | Table.v, Hash.v, Fraction.v | invariant of the table (each element in the bucket of its hash, in lowest terms, once), preserved by every action; uniqueness of lowest terms; witness by computation for the refutation |
| C106 | Flags.v, Format.v, Stream.v | by the base that a text announces: first digit of a magnitude, shape of padded numbers, C94 for a fixed base; witnesses by computation |
| C107 | Fmath.v, Ops.v | the outcome of every operation (C104) composed: the remainder and denominator after cancelling, the least common multiple with 2; witnesses by computation |
| C108 | operators and functions on types below the width of int | conversion to the common type is the identity on values, then C51 and C64 in int; the functions by comparison with those of int |
| C109 | the programs of C66 with one representation type | each condition of C93 holds for all large bounds; induction on expressions and on the number of steps; agreement by C66 |
| C110 | the stream operators with an exception mask, and a device of bounded room | state bits only grow, so the final state decides; prefixes of the text; a numeral without its last digit |
| C111 | the stream operators on 8-bit types | the character of a value is unique; inversion of the reads |
| C112 | Mixed.v `meval` over unsigned types, Umixed_spec.v | simulation: without negation no intermediate result leaves the common range of the unsigned type and the signed one a bit wider, so the two evaluations agree step by step |
| C113 | Program.v `feval`, `ftype`, Blend_spec.v | the common type is a maximum in a total order; simulation in the wider type (C92); canonical forms are unique |
| C114 | to_whole, redenominate | each mode as a relation between an integer and a rational; linear arithmetic over intervals; the exceptions as equivalences |
| C115 | `Locale.v` | lists reversed; induction on groups from the right; inversion of the reader |
| C116 | `Effects.v` | reference evaluation from left to right; frame lemma on the variables read and written; commutation of operands; induction on executions |
| C117 | `Overload.v` | templates as patterns, the selection algorithm of C++20 as a function; case analysis on operand types and on which types exist |
| C118 | `Litexpr.v`, `Overload.v`, `Literals.v` | the type rules of a reader agree with overload resolution by cases on kinds; induction on expressions for types, ranges and values |
| C119 | `Anymode.v`, `Modes.v` | each layer is a change of operands or of the result; induction on the stack, with the claim that 0/0 operands stay 0/0 |
| C120 | `Fmath.v` | the exact form of a power, laws of Z.pow, and the conditions of C82 in lowest terms |
| C121 | `Parts.v`: memory of cells | simulation by integers and rationals without bounds, induction on fuel; frame by induction; aliasing by loads before stores |
| C122 | `Cfrac.v` on `Fmath.v`, `Ops.v` | Euclid on integers, halving of remainders for the number of rounds, induction on policies for each round; coprime continuants for putting together |
| C123 | `Threads.v`, `Parts.v` | non-interference of footprints for small steps, by induction on the schedule; small steps against whole statements |
| C69-C71 | std::accumulate, expression trees | exactness, uniqueness of canonical forms, permutations; invariant "multiple of 1/D" through every intermediate value of safe |

A property with status `partial` is one whose full statement is false of the
code; its counterexample is a `_refuted` theorem and the remaining theorems say
exactly where it holds. Nothing in the list is inexpressible in the model.

## What the proofs found: divergences of the code from the properties

1. Under `fast` (and policies that do not normalise the signs of their inputs)
   `<`, `<=`, `>`, `>=` are reversed when the denominators have opposite signs
   (C13).
2. Under every policy that does not normalise its inputs, the default
   included, comparing a fraction with an integer is reversed when the
   denominator is negative (C14).
3. Under `safe` and the default policy `+`, `-`, `%` of two fractions one of
   which is undefined divide by zero instead of returning an undefined fraction
   (C18).
4. Under `safe` and `fast` dividing by an undefined fraction n/0 gives a defined
   one, 0 over something (C18).
5. `%` by a zero fraction is a division by zero under every policy (C05, C18).
6. `ceil(-1/2)` is 1, `floor(-1/2)` is 0, `round(-3/4)` is 0; under `fast`
   `round((-5)/(-4))` is 2. The `_redenominate` functions inherit this
   (C28-C31).
7. `is_reduced(1/-2)` is true, so `is_reduced` does not recognise the outputs of
   `reduce` (C20). `is_unit_fraction(-1/2)` is true (C23 states it).
8. Anything that reduces a fraction with a part equal to the minimum value
   violates the precondition of `std::gcd` (C19, C57, C65); `is_integer(min/-1)`
   overflows (C23). Three of the project's own assertions do so.
9. Equal fractions can have different hashes (C46).
10. A mixed number made from an undefined fraction divides by zero (C45).
11. Converting a digit sequence overflows although its value is representable,
    because the power of the base past the last digit is computed (C37).
12. Literals without a point (`1e5`, `0x1p3`) are rejected (C35).
13. `to_fraction` of zeros, subnormal numbers and infinities is undefined
    behaviour for every representation of at most 127 bits (float), as is
    2^40+2^17 as a float in 64 bits (C38, C39). The big-endian branch reads the
    wrong bits (C59).
14. `pow` with exponent `INT_MIN` overflows; `pow(0, negative)` is 1/0;
    `pow2(bits - 1)` has the wrong sign (C32).
15. `limits::max` is exceeded by `min / -1`, `limits::smallest` is undercut by
    `-1 / min`; `epsilon` is not the gap after one for unsigned representations
    (C49, C50).
16. `safe` overflows in places where `fast` does not, for negative
    denominators and in comparisons (C56).
17. An undefined fraction makes `<` not a strict weak ordering (C15).
18. Reading text without a slash sets failbit but overwrites the numerator and
    keeps the denominator; any text between numerator and slash is skipped; an
    unsigned fraction reads "-1" as its maximum (C48).
19. `reduced_input<Ops, Mode>::negate` ignores the mode (harmless for values).
20. Operators between `int` and `unsigned` fractions wrap negative parts (C51).
21. A literal too large for the numerator's type wraps silently, and `-(2^63)_fr`
    overflows (C53).
22. `mixed_number<int, unsigned>(-1, 1/2)` is silently wrong, and so is
    `mixed_number<int, long>` of a fraction whose whole part does not fit (C60).
23. Converting durations with representations narrower than 64 bits wraps the
    conversion factor (C54); an undefined duration is `<=` everything (C63),
    because `std::chrono` defines `<=` as `!(r < l)`.
24. Unsigned fractions wrap silently: 1/3 - 1/2 in 32 bits is 1431655765/2
    (C68).
25. `limits` and `numeric_limits` of `mixed_number` do not compile when
    instantiated (not modelled).
26. Conversions to floating point can reverse the order of two fractions whose
    parts are rounded (C72): `5592404/5592405 < 16777217/16777219`, their floats
    the other way round.
27. `numeric_limits` claims `is_modulo` for unsigned fractions and denies
    `traps`; neither is true (C76).
28. `std::chrono::floor` and `ceil` to an ieme duration round nothing: the
    duration is fractional, so the cast is exact (C75).
29. Only policies that return lowest terms or normalise the signs of their inputs
    run every program as over the rationals (C77); the library's policies that
    reduce only their inputs leave the signs alone, so after a division by a
    negative number a comparison with an integer is decided wrongly.
30. Mixing signed and unsigned fractions is silently wrong below zero: for
    `fraction<int>` -1 and `fraction<unsigned>` 1, `-1 < 1` is false (C79).
31. `to_fraction<unsigned>(-1.0f)` is 4294967295/1 and
    `to_fraction<unsigned>(2147483904.0f)` is 256/1 (C80).
32. The README's `to_fraction<int>(-2.25)` cannot compile where int has 32 bits:
    it shifts an int by 52 in a constant expression (`Readme_examples.v`). The
    README also gives `to_long_double(-1/16_fr)` the wrong sign.
33. Even `==` of two different small fractions is undefined behaviour under the
    default policy when their least common denominator does not fit:
    `fraction<int>` 1/65536 == 1/65537 calls std::lcm outside its precondition
    (C82). Nor does `*` cancel across operands: 65536/65537 * 65537/65536
    overflows.
34. Under the default policy a duration that is not a whole number of ticks cannot
    be compared with `duration::max()` (half a second < `seconds::max()` overflows),
    and no duration with `duration::min()`, whose numerator std::gcd does not accept
    (C86).
35. `std::setw` pads only the numerator of a fraction; with `std::hex` or
    `std::oct` a negative fraction is written as unsigned numbers that `>>` of
    the same signed type rejects; -1/2 written with `setw(4)` and `setfill('0')`
    reads back as 0/2 without failing (C94).
36. `to_double(1.0000000000000003_dec)` is not the double 1.0000000000000003: the
    numerator and the denominator are each rounded before the division, so literals of
    more than fifteen digits can be off by a unit in the last place (C99).
37. Comparisons of fractions of unsigned integers compare numerators modulo 2^bits:
    with `unsigned int`, `2/3 == 1431655766` and `1431655766/1 < 4/3` both hold (C101).
38. An `unordered_set` of fractions that are not in lowest terms holds 1/2 and 2/4 as
    two elements and does not find one by the other; an undefined fraction is never
    found (C105).
39. After `unsetf(std::ios::basefield)` a fraction written with zero padding is read as
    octal without failing: 0017/3 becomes 15/3 (C106).
40. With `unsigned int`, `round((2^31+5)/(2^31+7))` is 0 under `fast`, and
    `redenominate(3/4, 2^31)` is 1/4 under the default policy (C107).
41. Comparing two fractions of `unsigned short` under `fast` overflows `int`, for
    example 65535/1 with 1/65535, although the type is unsigned (C108).
42. With types narrower than `int` results that do not fit wrap silently:
    `normalize_signs` of 1/-32768 is 1/32768, `is_proper` of it is false, `trunc` of
    -128/-1 in `signed char` is -128 and `pow2(-16)` of `short` is undefined (C108).
43. `operator>>` and `operator<<` are `noexcept`: after `stream.exceptions(failbit)` a
    malformed fraction, or the end of the input, calls `std::terminate` and no handler
    sees it; after `exceptions(eofbit)` so does reading "3/4" (C110).
44. Fractions of `std::int8_t` and `std::uint8_t` are written and read as characters:
    65/66 is "A/B", reading "3/4" gives 51/52, and 3/10 followed by "1/2" reads back
    as 3/49 (C111).
45. Mixed numbers of unsigned types have no negation: `-mixed_number{1u, {1u, 2u}}` compiles
    and gives a large positive number (C112_negate_refuted), and no mixed number of unsigned
    types represents the opposite of a positive one (C112_never_negative).
46. With an unsigned type among the operands the bracketing of a sum can decide its value:
    `(fraction<int>{-1, 2} + 0u) + 0L` is 4294967295/2, `fraction<int>{-1, 2} + (0u + 0L)`
    the expected -1/2 (C113).
47. `ceil` is not monotone: `ceil(-1/3)` is 1 and `ceil(0)` is 0. Flooring -3/8 to quarters
    and then to halves gives -1/2, flooring it to halves at once 0 (C114).
48. 1000/3 written by a stream whose locale groups digits, as `1,000/3`, is read by a stream
    of the classic locale as 1/3, without failing (C115).
49. `(x += 1) += x` doubles `x + 1` for a fraction, because operands are read when the operator
    is called; for an `int` it adds 1 to twice `x` (C116).
50. Operators between fractions of different policies are deleted, but `+` between mixed
    numbers, or a mixed number and a fraction, of different policies is rejected only
    because two overloads are equally good; mixed numbers have no other binary operator and no
    comparison (C117).
51. A fraction of another policy than the default cannot be divided by a literal: `x / 3_fr`
    is ambiguous. `2_fr / 3_fr` compiles; its type is a fraction of literals, which nothing
    can be done with (C118).
52. `reduced_input<Ops, reduce_mode(7)>` and `reduced_output<Ops, reduce_mode(7)>` compile.
    The first replaces every fraction operand by 0/0 and the second every result, because the
    switch of `reduce` (raw_fraction_math.hpp:53-66) returns 0/0 for other
    values: no arithmetic gives a number, and under the first `x == x` is false (C119).
53. `pow(-2, -1)` is 1/-2, so `pow(-2, -1) < 0` is false under the default policy, and so it is
    for every negative base and negative odd exponent (C120).
54. `x.den() *= -1` turns 1/2 into 1/-2, which is not less than 0 under the default policy:
    programs that write denominators must keep them positive or reduce before comparing with an
    integer (C121).
55. An assignment to a fraction stores the numerator and then the denominator: a thread that
    reads a fraction while another one assigns to it can find a third fraction, such as 3/2
    while 3/4 is assigned to 1/2. Fractions shared by threads need a lock, as any object of
    more than one word does (C123).

## Testing the theorems against wrong programs

In a copy of this directory outside `/verif`, one definition of the model is
edited the way a realistic bug would (a boundary, a missed case, swapped
arguments, a dropped update), everything is rebuilt, and each lemma that no
longer proves is admitted so that the build goes on; the theorems that then
depend on an admitted lemma are the ones that failed. When an edit breaks the
English claim of a property none of whose theorems failed, the theorem is
tightened. Each attempt is a line of `seeded/LOG.jsonl`.
