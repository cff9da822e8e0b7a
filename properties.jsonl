{"id": "C01", "title": "Addition is exact", "statement": "If a + b is evaluated without undefined behaviour and its operands are defined, the resulting fraction is defined and its rational value is exactly value(a) + value(b).", "quantifier": "every signed integer representation, every ops policy (safe, fast and any nesting of reduced_input/reduced_output in either mode), every pair of operands (fraction/fraction, fraction/integer, integer/fraction)", "why_tests_cant": "The operand space is 2^128 pairs per representation times an infinite family of policies; tests sample a few dozen int pairs for eight policies.", "anchors": ["include/ieme/ops.hpp: safe::plus, fast::plus, reduced_input::plus, reduced_output::plus", "include/ieme/fraction.hpp: operator+"]}
{"id": "C02", "title": "Subtraction is exact", "statement": "If a - b is evaluated without undefined behaviour and its operands are defined, the result is defined and its value is exactly value(a) - value(b).", "quantifier": "every signed integer representation, every ops policy (safe, fast and any nesting of reduced_input/reduced_output in either mode), every pair of operands (fraction/fraction, fraction/integer, integer/fraction)", "why_tests_cant": "The operand space is 2^128 pairs per representation times an infinite family of policies; tests sample a few dozen int pairs for eight policies.", "anchors": ["include/ieme/ops.hpp: safe::minus, fast::minus, reduced_input::minus, reduced_output::minus", "include/ieme/fraction.hpp: operator-"]}
{"id": "C03", "title": "Multiplication is exact", "statement": "If a * b is evaluated without undefined behaviour and its operands are defined, the result is defined and its value is exactly value(a) * value(b).", "quantifier": "every signed integer representation, every ops policy (safe, fast and any nesting of reduced_input/reduced_output in either mode), every pair of operands (fraction/fraction, fraction/integer, integer/fraction)", "why_tests_cant": "The operand space is 2^128 pairs per representation times an infinite family of policies; tests sample a few dozen int pairs for eight policies.", "anchors": ["include/ieme/ops.hpp: multiplies", "include/ieme/fraction.hpp: operator*"]}
{"id": "C04", "title": "Division is exact, and division by zero is an undefined fraction, not a trap", "statement": "If a / b is evaluated without undefined behaviour on defined operands, the result is the exact quotient when value(b) is not zero and is an undefined fraction (zero denominator) when value(b) is zero.", "quantifier": "every signed integer representation, every ops policy (safe, fast and any nesting of reduced_input/reduced_output in either mode), every pair of operands (fraction/fraction, fraction/integer, integer/fraction)", "why_tests_cant": "The operand space is 2^128 pairs per representation times an infinite family of policies; tests sample a few dozen int pairs for eight policies.", "anchors": ["include/ieme/ops.hpp: divides", "include/ieme/fraction.hpp: operator/"]}
{"id": "C05", "title": "Modulus is the truncated remainder", "statement": "If a % b is evaluated without undefined behaviour on defined operands then value(b) is not zero and the result is exactly a - b*trunc(a/b): it has the dividend's sign, is smaller than |b| and differs from a by an integer multiple of b.", "quantifier": "every signed integer representation, every ops policy (safe, fast and any nesting of reduced_input/reduced_output in either mode), every pair of operands (fraction/fraction, fraction/integer, integer/fraction)", "why_tests_cant": "The operand space is 2^128 pairs per representation times an infinite family of policies; tests sample a few dozen int pairs for eight policies.", "anchors": ["include/ieme/ops.hpp: modulus", "include/ieme/fraction.hpp: operator%"]}
{"id": "C06", "title": "Negation is exact", "statement": "Unary minus of a defined fraction, when evaluated without undefined behaviour, is the fraction of exactly opposite value, unary plus is the same fraction; an undefined fraction stays undefined.", "quantifier": "every signed representation, policy and fraction", "why_tests_cant": "The operand space is 2^128 pairs per representation times an infinite family of policies; tests sample a few dozen int pairs for eight policies.", "anchors": ["include/ieme/ops.hpp: negate", "include/ieme/fraction.hpp: operator-, operator+ (unary)"]}
{"id": "C07", "title": "Arithmetic is total and exact inside the square-root bound", "statement": "If numerators, denominators and integer operands have magnitude at most B with 2*B*B <= max(Rep), then +, -, *, / and % (non-zero divisor) on defined operands never have undefined behaviour and return the exact value; for unsigned representations the same holds when the exact result of a subtraction is not negative.", "quantifier": "every representation (signed and unsigned, any width from 32 bits), policy, operands within the bound", "why_tests_cant": "Absence of overflow has to hold at every operand under the bound, for every policy nesting.", "anchors": ["include/ieme/ops.hpp", "include/ieme/fraction.hpp"]}
{"id": "C08", "title": "Policies are interchangeable up to value", "statement": "For the same operands, any two ops policies that both finish without undefined behaviour return fractions with equal value (both undefined, or the same rational).", "quantifier": "every pair of policies, signed representation, operation and defined operands", "why_tests_cant": "Needs a comparison of infinitely many policy pairs at every operand.", "anchors": ["include/ieme/ops.hpp"]}
{"id": "C09", "title": "Output-reducing policies return canonical fractions", "statement": "Every result of +, -, *, /, % and unary minus under a policy whose outermost output step is reduce-with-normalised-signs (in particular the default policy) is either 0/0 or has a positive denominator coprime to the numerator.", "quantifier": "every such policy (also under any stack of reduced_input), signed representation, operation, operands (also undefined ones)", "why_tests_cant": "An invariant of the output over all inputs; tests compare by value, not by form.", "anchors": ["include/ieme/ops.hpp: reduced_output, defaults", "include/ieme/raw_fraction_math.hpp: reduce"]}
{"id": "C10", "title": "+ and * commute identically", "statement": "a + b and b + a (and a * b and b * a) give the very same representation, or both are undefined behaviour; likewise for a fraction and an integer in either order.", "quantifier": "every representation, policy, operand pair (also undefined and unsigned)", "why_tests_cant": "The operand space is 2^128 pairs per representation times an infinite family of policies; tests sample a few dozen int pairs for eight policies.", "anchors": ["include/ieme/ops.hpp: plus, multiplies"]}
{"id": "C11", "title": "Ring laws hold bit for bit under the default policy", "statement": "When both sides finish without undefined behaviour, (a+b)+c and a+(b+c), (a*b)*c and a*(b*c), a*(b+c) and a*b+a*c, (a-b)+b and reduce(a) are identical fractions (not only equal) under the default policy.", "quantifier": "every signed representation and triple of defined fractions", "why_tests_cant": "Triples of arbitrary fractions; an infinite family.", "anchors": ["include/ieme/ops.hpp: safe_reduced_io", "include/ieme/fraction.hpp"]}
{"id": "C12", "title": "Equality is equality of values", "statement": "a == b holds exactly when both operands are defined and have the same rational value, and a != b is exactly its negation.", "quantifier": "every signed integer representation, every ops policy (safe, fast and any nesting of reduced_input/reduced_output in either mode), every pair of operands (fraction/fraction, fraction/integer, integer/fraction)", "why_tests_cant": "The operand space is 2^128 pairs per representation times an infinite family of policies; tests sample a few dozen int pairs for eight policies.", "anchors": ["include/ieme/ops.hpp: equal_to, not_equal_to", "include/ieme/fraction.hpp: operator==, operator!="]}
{"id": "C13", "title": "Ordering of two fractions is the ordering of their values", "statement": "For defined fractions a < b, a <= b, a > b, a >= b hold exactly when the rational values are so ordered, whatever the signs of the denominators.", "quantifier": "every signed representation, every policy, all pairs of defined fractions", "why_tests_cant": "The operand space is 2^128 pairs per representation times an infinite family of policies; tests sample a few dozen int pairs for eight policies.", "anchors": ["include/ieme/ops.hpp: less, less_equal, greater, greater_equal", "include/ieme/fraction.hpp"]}
{"id": "C14", "title": "Ordering of a fraction against an integer is the ordering of their values", "statement": "For a defined fraction f and an integer i, f < i, i < f and the other order comparisons hold exactly when the values are so ordered, whatever the sign of f's denominator.", "quantifier": "every signed representation, every policy, every fraction and integer", "why_tests_cant": "The operand space is 2^128 pairs per representation times an infinite family of policies; tests sample a few dozen int pairs for eight policies.", "anchors": ["include/ieme/ops.hpp: less(raw,Rep), less(Rep,raw), ..."]}
{"id": "C15", "title": "< is a strict weak ordering", "statement": "On defined fractions < is irreflexive, asymmetric and transitive and incomparability is transitive and means ==, so that sorted containers and std::sort work.", "quantifier": "all triples of fractions, policies, representations", "why_tests_cant": "Transitivity ranges over all triples.", "anchors": ["include/ieme/ops.hpp: less", "include/ieme/fraction.hpp: operator<"]}
{"id": "C16", "title": "The six comparisons are mutually consistent", "statement": "For every two operands: a > b is b < a; a >= b is b <= a; a <= b is (a < b or a == b); for defined operands exactly one of a < b, a == b, a > b holds; != is the negation of ==.", "quantifier": "all operands, all policies", "why_tests_cant": "All pairs and policies.", "anchors": ["include/ieme/ops.hpp", "include/ieme/fraction.hpp"]}
{"id": "C17", "title": "Undefined fractions are unordered and unequal to everything", "statement": "Any comparison in which an operand is undefined returns false for ==, <, <=, >, >= and true for !=, including against itself.", "quantifier": "all policies, representations (signed and unsigned), operands with at least one undefined", "why_tests_cant": "Holds for every numerator of the undefined fraction and every other operand.", "anchors": ["include/ieme/ops.hpp"]}
{"id": "C18", "title": "Undefined propagates through arithmetic", "statement": "An arithmetic operation (+, -, *, /, %) with an undefined operand yields an undefined fraction, without undefined behaviour.", "quantifier": "all policies, representations, operands with at least one undefined", "why_tests_cant": "Depends on every combination of policy and operation.", "anchors": ["include/ieme/ops.hpp"]}
{"id": "C19", "title": "reduce preserves the value and yields the canonical form", "statement": "reduce(f) of a defined f has the same value, coprime parts and (normalising signs) a positive denominator; it is idempotent; two defined fractions have equal values exactly when they reduce to the identical fraction; an undefined fraction reduces to 0/0. With ignore_signs the denominator keeps its sign.", "quantifier": "every representation, every fraction whose parts have a representable magnitude", "why_tests_cant": "The operand space is 2^128 pairs per representation times an infinite family of policies; tests sample a few dozen int pairs for eight policies.", "anchors": ["include/ieme/raw_fraction_math.hpp: reduce, reduce_normalize_signs, reduce_ignore_signs, normalize_signs"]}
{"id": "C20", "title": "is_reduced recognises the output of reduce", "statement": "is_reduced(f) is true exactly when f is defined and reduce(f) is identical to f.", "quantifier": "every fraction", "why_tests_cant": "The operand space is 2^128 pairs per representation times an infinite family of policies; tests sample a few dozen int pairs for eight policies.", "anchors": ["include/ieme/raw_fraction_queries.hpp: is_reduced, is_reduced_ignore_signs", "include/ieme/raw_fraction_math.hpp: reduce"]}
{"id": "C21", "title": "normalize_signs only moves signs", "statement": "normalize_signs keeps the value, gives a non-negative denominator and leaves the magnitudes of the parts unchanged.", "quantifier": "every signed representation and fraction", "why_tests_cant": "The operand space is 2^128 pairs per representation times an infinite family of policies; tests sample a few dozen int pairs for eight policies.", "anchors": ["include/ieme/raw_fraction_math.hpp: normalize_signs"]}
{"id": "C22", "title": "Sign queries agree with the value", "statement": "is_positive, is_negative, is_zero, is_non_negative, is_non_positive, is_defined and is_undefined agree with the sign and definedness of the value: exactly one of positive, zero, negative, undefined holds.", "quantifier": "every representation and fraction", "why_tests_cant": "All sign combinations of all values.", "anchors": ["include/ieme/raw_fraction_queries.hpp", "include/ieme/fraction_queries.hpp"]}
{"id": "C23", "title": "is_integer, is_unit_fraction, is_proper agree with the value", "statement": "When evaluated without undefined behaviour: is_integer iff the value is an integer; is_unit_fraction iff the value is the reciprocal of a non-zero integer; for defined fractions is_proper iff |value| < 1 and is_improper is its negation.", "quantifier": "every representation and fraction", "why_tests_cant": "The operand space is 2^128 pairs per representation times an infinite family of policies; tests sample a few dozen int pairs for eight policies.", "anchors": ["include/ieme/raw_fraction_queries.hpp: is_integer, is_unit_fraction, is_proper, is_improper"]}
{"id": "C24", "title": "are_identical is representation equality and refines ==", "statement": "are_identical(a,b) iff numerators and denominators coincide; identical defined fractions are ==; two reduce()d fractions that are == are identical; are_different is the negation.", "quantifier": "every pair of fractions, policies", "why_tests_cant": "The operand space is 2^128 pairs per representation times an infinite family of policies; tests sample a few dozen int pairs for eight policies.", "anchors": ["include/ieme/raw_fraction_queries.hpp: are_identical, are_different"]}
{"id": "C25", "title": "reciprocal inverts", "statement": "reciprocal(reciprocal(f)) is identical to f; the reciprocal of a non-zero defined fraction has the inverse value; the reciprocal of zero is undefined.", "quantifier": "every representation and fraction", "why_tests_cant": "The operand space is 2^128 pairs per representation times an infinite family of policies; tests sample a few dozen int pairs for eight policies.", "anchors": ["include/ieme/raw_fraction_math.hpp: reciprocal", "include/ieme/fraction_math.hpp"]}
{"id": "C26", "title": "abs is the absolute value", "statement": "abs(f) of a defined f, when free of undefined behaviour, has value |value(f)|, and is not negative.", "quantifier": "every signed representation, policy, fraction", "why_tests_cant": "The operand space is 2^128 pairs per representation times an infinite family of policies; tests sample a few dozen int pairs for eight policies.", "anchors": ["include/ieme/fraction_math.hpp: abs"]}
{"id": "C27", "title": "trunc rounds toward zero", "statement": "trunc(f) is the integer part of the value: |trunc| <= |value| < |trunc|+1 with the sign of the value; the only undefined behaviour is a zero denominator or min/-1.", "quantifier": "every representation and fraction", "why_tests_cant": "The operand space is 2^128 pairs per representation times an infinite family of policies; tests sample a few dozen int pairs for eight policies.", "anchors": ["include/ieme/fraction_math.hpp: trunc"]}
{"id": "C28", "title": "floor is the greatest integer not above the value", "statement": "floor(f) <= value < floor(f)+1.", "quantifier": "every representation, policy, defined fraction", "why_tests_cant": "The tests use only |value| > 1; the property ranges over all values.", "anchors": ["include/ieme/fraction_math.hpp: floor"]}
{"id": "C29", "title": "ceil is the least integer not below the value", "statement": "ceil(f)-1 < value <= ceil(f).", "quantifier": "every representation, policy, defined fraction", "why_tests_cant": "The tests use only |value| > 1; the property ranges over all values.", "anchors": ["include/ieme/fraction_math.hpp: ceil"]}
{"id": "C30", "title": "round returns a nearest integer", "statement": "|round(f) - value| <= 1/2, ties going up.", "quantifier": "every signed representation, policy, defined fraction", "why_tests_cant": "The tests use only |value| > 1.", "anchors": ["include/ieme/fraction_math.hpp: round, to_whole"]}
{"id": "C31", "title": "redenominate rounds to the requested denominator", "statement": "redenominate(f, d, mode) has denominator exactly d and its value is value(f) rounded to a multiple of 1/|d| in the requested direction (trunc toward zero, ceil up, floor down, round nearest).", "quantifier": "every signed representation, policy, defined fraction, non-zero d of either sign, mode", "why_tests_cant": "The operand space is 2^128 pairs per representation times an infinite family of policies; tests sample a few dozen int pairs for eight policies.", "anchors": ["include/ieme/fraction_math.hpp: redenominate, trunc_redenominate, ceil_redenominate, floor_redenominate, round_redenominate"]}
{"id": "C32", "title": "pow and pow2 are exact powers", "statement": "pow(b, e) and pow2(e), when free of undefined behaviour, have value b^e and 2^e for positive and negative e (0^negative is undefined); pow has no undefined behaviour whenever b^|e| fits the representation; pow2 is exact for |e| <= bits-2.", "quantifier": "every representation, base and int exponent", "why_tests_cant": "The operand space is 2^128 pairs per representation times an infinite family of policies; tests sample a few dozen int pairs for eight policies.", "anchors": ["include/ieme/math_utilities.hpp: pow, pow2", "include/ieme/fraction_math.hpp: pow, pow2"]}
{"id": "C33", "title": "Digit sequences denote their positional value", "statement": "digit_sequence_to_int, when free of undefined behaviour, returns the positional value in the given base of the digits with separators removed; is_valid_digit_sequence accepts exactly digit('?digit)*.", "quantifier": "every string over digits and separators, base 10 or 16, signed representation", "why_tests_cant": "Unbounded strings.", "anchors": ["include/ieme/parse_utilities.hpp: digit_sequence_to_int, is_valid_digit_sequence"]}
{"id": "C34", "title": "The literal scanner accepts exactly a grammar and splits correctly", "statement": "scan_floating_point_string accepts s exactly when s is [0x] whole . fraction [e|p [sign] digits] with valid digit sequences, at least one of whole/fraction present, and a mandatory exponent in hexadecimal; the returned parts are exactly those substrings. It never reads outside the string.", "quantifier": "every string (any bytes, any length below 2^63)", "why_tests_cant": "Unbounded strings; soundness and completeness.", "anchors": ["include/ieme/parse_utilities.hpp: scan_floating_point_string"]}
{"id": "C35", "title": "Every C++ floating-point literal is accepted", "statement": "Every string that is a C++ floating-literal without suffix (including those with an exponent and no point, e.g. 1e5) is accepted.", "quantifier": "every string of the C++ floating-literal grammar", "why_tests_cant": "Completeness over a grammar.", "anchors": ["include/ieme/parse_utilities.hpp: scan_floating_point_string", "include/ieme/fraction_literals.hpp: operator\"\"_dec"]}
{"id": "C36", "title": "Decimal strings convert exactly", "statement": "floating_point_string_to_fraction(s), for an accepted s and free of undefined behaviour, is a defined fraction whose value is exactly (whole + fraction/base^digits) * (10 or 2)^exponent; for a rejected s it is undefined.", "quantifier": "every string, signed representation, policy", "why_tests_cant": "Unbounded strings.", "anchors": ["include/ieme/floating_point.hpp: floating_point_string_to_fraction", "include/ieme/fraction_literals.hpp: operator\"\"_dec"]}
{"id": "C37", "title": "Representable literals convert without overflow", "statement": "If the whole part of an accepted literal fits the representation, then converting its digits has no undefined behaviour.", "quantifier": "every digit sequence whose value fits", "why_tests_cant": "Boundary at every width and base.", "anchors": ["include/ieme/parse_utilities.hpp: digit_sequence_to_int"]}
{"id": "C38", "title": "to_fraction is exact on finite floats", "statement": "to_fraction(x), for every finite float or double x whose value is representable, is exactly the value of x.", "quantifier": "every bit pattern of float and double, every signed representation and policy", "why_tests_cant": "2^64 bit patterns.", "anchors": ["include/ieme/floating_point.hpp: to_fraction, floating_point_to_fraction"]}
{"id": "C39", "title": "to_fraction maps NaN to undefined and infinities to undefined", "statement": "to_fraction(NaN) and to_fraction(inf) are undefined fractions.", "quantifier": "every NaN/infinity bit pattern", "why_tests_cant": "2^53 NaN patterns.", "anchors": ["include/ieme/floating_point.hpp: floating_point_to_fraction"]}
{"id": "C40", "title": "to_float / to_double are correctly rounded for moderate fractions", "statement": "When the reduced numerator and denominator are exactly representable in the float format, to_float/to_double return the IEEE round-to-nearest-even of the exact value; an undefined fraction gives NaN.", "quantifier": "every fraction, representation, policy", "why_tests_cant": "The operand space is 2^128 pairs per representation times an infinite family of policies; tests sample a few dozen int pairs for eight policies.", "anchors": ["include/ieme/floating_point.hpp: fraction_to_floating_point"]}
{"id": "C41", "title": "float -> fraction -> float round-trips", "statement": "to_double(to_fraction(x)) and to_float(to_fraction(x)) return x whenever to_fraction is in its exact domain and the reduced parts fit the significand.", "quantifier": "every finite normal float/double in the domain", "why_tests_cant": "2^64 bit patterns.", "anchors": ["include/ieme/floating_point.hpp"]}
{"id": "C42", "title": "Mixed-number construction normalises and preserves the value", "statement": "mixed_number(w, f), when free of undefined behaviour, has |fractional| < 1, fractional never of opposite sign to the whole part, and whole + fractional equal to w + f exactly.", "quantifier": "every signed representation, policy, whole part and defined fraction", "why_tests_cant": "The operand space is 2^128 pairs per representation times an infinite family of policies; tests sample a few dozen int pairs for eight policies.", "anchors": ["include/ieme/mixed_number.hpp: mixed_number, fix"]}
{"id": "C43", "title": "Fraction <-> mixed number conversions preserve the value", "statement": "mixed_number(f) has whole = trunc(f), a proper fractional part of the same sign, and converting back with as_fraction gives exactly the value of f.", "quantifier": "every signed representation, policy, fraction", "why_tests_cant": "The operand space is 2^128 pairs per representation times an infinite family of policies; tests sample a few dozen int pairs for eight policies.", "anchors": ["include/ieme/mixed_number.hpp: mixed_number(fraction), as_fraction"]}
{"id": "C44", "title": "Mixed-number arithmetic is exact and keeps the normal form", "statement": "Unary minus, mixed + mixed, mixed + fraction, fraction + mixed, mixed + whole and whole + mixed, when free of undefined behaviour, give the exact value in normal form, also through any sequence of such operations.", "quantifier": "every signed representation, policy, operands, sequence of operations", "why_tests_cant": "All histories of operations.", "anchors": ["include/ieme/mixed_number.hpp: operator+, operator-"]}
{"id": "C45", "title": "An undefined fraction can be carried by a mixed number", "statement": "Constructing a mixed number from an undefined fraction is free of undefined behaviour and yields an undefined mixed number.", "quantifier": "every undefined fraction, policy", "why_tests_cant": "Every numerator and policy.", "anchors": ["include/ieme/mixed_number.hpp: fix, mixed_number(fraction)", "include/ieme/limits.hpp: limits<mixed_number>::undefined"]}
{"id": "C46", "title": "Hash is consistent with ==", "statement": "Fractions that compare equal have equal hashes (the std::unordered_map requirement).", "quantifier": "every pair of equal fractions, every std::hash<Rep>", "why_tests_cant": "All pairs of equal fractions.", "anchors": ["include/ieme/hash.hpp: hash, hash_combine"]}
{"id": "C47", "title": "Writing then reading a fraction returns the identical fraction", "statement": "For every fraction f, streaming f out and reading it back gives an identical fraction without stream failure; whatever text not starting with a digit follows it is left unread.", "quantifier": "every representation, every fraction, any following text", "why_tests_cant": "The operand space is 2^128 pairs per representation times an infinite family of policies; tests sample a few dozen int pairs for eight policies.", "anchors": ["include/ieme/raw_fraction.hpp: operator<<, operator>>", "include/ieme/fraction.hpp"]}
{"id": "C48", "title": "Reading leaves the stream failed on malformed text", "statement": "If the text does not consist of an integer, then a '/' later, then an integer, or an integer does not fit (a minus sign in front of a fitting magnitude is taken modulo 2^bits by unsigned representations, as by the standard library), extraction sets failbit; otherwise it succeeds with those integers; blanks around the slash are accepted. A failed read leaves the fraction untouched if there were only blanks; it stores zero for a missing number, the nearest value for one that does not fit, and keeps the old denominator if the numerator or the slash is missing. After a read from a good stream eofbit is set exactly when nothing is left to read.", "quantifier": "every input text", "why_tests_cant": "Unbounded inputs.", "anchors": ["include/ieme/raw_fraction.hpp: operator>>"]}
{"id": "C49", "title": "limits::min and limits::max bound every fraction", "statement": "Every defined fraction f of the representation satisfies limits::min() <= f <= limits::max(), and limits::smallest() is the least positive value.", "quantifier": "every representation and fraction", "why_tests_cant": "All fractions.", "anchors": ["include/ieme/limits.hpp: limits<fraction>::min, max, smallest, undefined"]}
{"id": "C50", "title": "numeric_limits::epsilon is the gap after one", "statement": "epsilon() is the difference between 1 and the least representable value greater than 1.", "quantifier": "every representation, all fractions", "why_tests_cant": "All fractions greater than one.", "anchors": ["include/ieme/limits.hpp: numeric_limits<fraction>::epsilon"]}
{"id": "C51", "title": "Operators on different representations are exact", "statement": "An operator applied to fractions (or integers) of different representations computes in their std::common_type and, when free of undefined behaviour, is exact.", "quantifier": "every pair of representations, policy, operation, operands", "why_tests_cant": "The operand space is 2^128 pairs per representation times an infinite family of policies; tests sample a few dozen int pairs for eight policies.", "anchors": ["include/ieme/fraction.hpp: IEME_DO_FRACTION_AND_FRACTION_OP and the REP variants"]}
{"id": "C52", "title": "Compound assignment sequences are exact", "statement": "f op= x is f = f op x; after any sequence of compound assignments with defined operands and non-zero divisors that runs without undefined behaviour, f holds exactly the rational the sequence denotes, and under the default policy f is canonical.", "quantifier": "every signed representation, policy, initial value and finite sequence of compound assignments", "why_tests_cant": "All histories.", "anchors": ["include/ieme/fraction.hpp: operator+=, operator-=, operator*=, operator/=, operator%="]}
{"id": "C53", "title": "Fraction literals build what they spell", "statement": "n / d_fr is the fraction n/d unreduced, a sign on the literal goes to the denominator, and chains like a/b_fr * c/d_fr are the exact product.", "quantifier": "every numerator and denominator that fits the numerator's type", "why_tests_cant": "The operand space is 2^128 pairs per representation times an infinite family of policies; tests sample a few dozen int pairs for eight policies.", "anchors": ["include/ieme/fraction_literals.hpp: denominator_literal, operator/, operator\"\"_fr"]}
{"id": "C54", "title": "Chrono conversions of fractional durations are lossless", "statement": "Converting any integer or fractional duration to a fractional duration of any other period, when free of undefined behaviour, denotes exactly the same number of seconds; to_fractional keeps the count.", "quantifier": "every count, every pair of periods, policy, signed representation", "why_tests_cant": "All periods and counts.", "anchors": ["include/ieme/chrono.hpp: duration, to_fractional, treat_as_floating_point"]}
{"id": "C55", "title": "Whole expressions are exact under the default policy", "statement": "Any expression tree over fractions and integers built from + - * / % and unary minus evaluates, if free of undefined behaviour, to exactly the rational denoted (undefined precisely when a division by zero or an undefined leaf is involved), in canonical form.", "quantifier": "every expression tree of any depth, signed representation", "why_tests_cant": "Infinitely many expressions.", "anchors": ["include/ieme/ops.hpp: safe_reduced_io", "include/ieme/fraction.hpp"]}
{"id": "C56", "title": "safe never overflows where fast does not", "statement": "For defined operands with positive denominators, whenever an operation under fast is free of undefined behaviour, so is the same operation under safe; and there are operands where safe succeeds and fast overflows.", "quantifier": "every signed representation, operation, operands with positive denominators", "why_tests_cant": "A statement about every overflow point.", "anchors": ["include/ieme/ops.hpp: safe, fast"]}
{"id": "C57", "title": "Reducing inputs never introduces overflow", "statement": "For defined operands with positive denominators (and parts different from the minimum value), whenever a policy safe or fast is free of undefined behaviour on the operands, so is its reduced_input version.", "quantifier": "every signed representation, operation, operands", "why_tests_cant": "A statement about every overflow point.", "anchors": ["include/ieme/ops.hpp: reduced_input"]}
{"id": "C58", "title": "Representation conversion is lossless when it fits", "statement": "Constructing a fraction from a fraction of another representation or policy, from an integer or from a std::ratio keeps numerator and denominator exactly when both fit, and is modular otherwise; default construction is 0/1, of a raw fraction 0/0, which is undefined and what every undefined fraction reduces to.", "quantifier": "every pair of representations and fraction", "why_tests_cant": "The operand space is 2^128 pairs per representation times an infinite family of policies; tests sample a few dozen int pairs for eight policies.", "anchors": ["include/ieme/fraction.hpp: constructors", "include/ieme/raw_fraction.hpp: converting constructor"]}
{"id": "C59", "title": "to_fraction does not depend on byte order", "statement": "to_fraction gives the same result on little-endian and big-endian targets.", "quantifier": "every float bit pattern and byte order", "why_tests_cant": "Tests run on one target only.", "anchors": ["include/ieme/floating_point.hpp: offsets lambda, floating_point_to_fraction"]}
{"id": "C60", "title": "Mixed-representation mixed numbers", "statement": "mixed_number<W,F> with different whole and fraction representations keeps the exact value whenever the truncated fractional part fits W.", "quantifier": "every pair of signed representations, policy, operands", "why_tests_cant": "The operand space is 2^128 pairs per representation times an infinite family of policies; tests sample a few dozen int pairs for eight policies.", "anchors": ["include/ieme/mixed_number.hpp: fix, common_rep_type"]}
{"id": "C61", "title": "A _dec literal is exactly what it spells", "statement": "x_dec either throws at compile time or is a defined fraction whose value is exactly the spelled decimal or hexadecimal literal; it throws exactly for spellings that are no floating literal with a point.", "quantifier": "every spelling", "why_tests_cant": "Unbounded spellings.", "anchors": ["include/ieme/fraction_literals.hpp: operator\"\"_dec", "include/ieme/floating_point.hpp: floating_point_string_to_fraction"]}
{"id": "C62", "title": "Equal mixed numbers hash equal", "statement": "Mixed numbers in normal form whose fractional parts are canonical are identical, hence hash equal, whenever they have the same value, however they were computed.", "quantifier": "every pair of mixed numbers, every std::hash, every pair of expressions", "why_tests_cant": "All pairs of computations with equal value.", "anchors": ["include/ieme/hash.hpp: hash(mixed_number)", "include/ieme/mixed_number.hpp"]}
{"id": "C63", "title": "Durations of different periods add, subtract and compare exactly", "statement": "Sums, differences and comparisons of fractional durations of different periods, when free of undefined behaviour, are those of the numbers of seconds they denote.", "quantifier": "every pair of periods and counts, policy, signed representation of at least 64 bits", "why_tests_cant": "All pairs of periods.", "anchors": ["include/ieme/chrono.hpp: duration, time_point, treat_as_floating_point"]}
{"id": "C64", "title": "Operations are defined wherever the cross products fit", "statement": "Under every policy an operation or comparison is free of undefined behaviour whenever the parts of the operands and the cross products of the schoolbook formula fit the signed representation (operands of + - % defined, divisor of % non-zero).", "quantifier": "every signed representation, policy, operation and operands", "why_tests_cant": "A statement about every overflow point.", "anchors": ["include/ieme/ops.hpp: safe, fast, reduced_input, reduced_output"]}
{"id": "C65", "title": "to_float, to_double and to_long_double are accurate", "statement": "Every defined fraction with no part equal to the minimum value converts, without undefined behaviour, to a finite number within a relative error of 4 * 2^-24 (float), 4 * 2^-53 (double) or 4 * 2^-64 (long double).", "quantifier": "every fraction of every representation of fewer than 128 bits, signed or unsigned", "why_tests_cant": "2^128 fractions.", "anchors": ["include/ieme/floating_point.hpp: fraction_to_floating_point"]}
{"id": "C66", "title": "Programs over fractions compute over the rationals", "statement": "A program with fraction variables, operators, compound assignments (aliased operands included), comparisons, branches and loops, run with any policy that returns lowest terms, takes the same decisions and ends in exactly the rationals the same program computes over the rational numbers, every variable in lowest terms; if it meets no undefined behaviour. Two such policies are indistinguishable.", "quantifier": "every program of any length, any number of loop iterations, every policy returning lowest terms, every assignment of signed representations to variables", "why_tests_cant": "All programs and all executions.", "anchors": ["include/ieme/fraction.hpp: operators, compound assignment, comparisons", "include/ieme/ops.hpp: safe_reduced_io, fast_reduced_io"]}
{"id": "C67", "title": "Programs with small values meet no undefined behaviour", "statement": "If every rational occurring in the run of a program has, in lowest terms, numerator and denominator of magnitude at most B, and 2*B*B fits the type of every operation, then the program runs without undefined behaviour to its exact result.", "quantifier": "every program, run, bound and policy returning lowest terms", "why_tests_cant": "All programs and all executions.", "anchors": ["include/ieme/fraction.hpp", "include/ieme/ops.hpp: safe_reduced_io, fast_reduced_io"]}
{"id": "C68", "title": "Fractions of unsigned integers compute exactly above zero", "statement": "A fraction of unsigned integers computes the same parts as one of the signed type one bit wider whenever that one meets no undefined behaviour and no difference is negative; so operators, whole expressions and comparisons are exact under the same size conditions, and comparisons are right under every policy because no denominator is negative.", "quantifier": "every unsigned representation, policy, operation, comparison, operands, expression tree", "why_tests_cant": "All operands; wrap-around is silent, so tests that pass say nothing about larger values.", "anchors": ["include/ieme/ops.hpp: safe, fast, reduced_input, reduced_output", "include/ieme/fraction.hpp"]}
{"id": "C69", "title": "Sums and products do not depend on order or bracketing", "statement": "Under a policy that returns lowest terms, adding (or multiplying) the same fractions in any order and any bracketing - std::accumulate over a permuted range, a parallel std::reduce - gives the identical fraction whenever both finish without undefined behaviour; in general two computations with the same rational result give the identical fraction.", "quantifier": "every signed representation, policy returning lowest terms, range of any length, permutation, bracketing", "why_tests_cant": "All ranges, orders and bracketings; floating point fails this.", "anchors": ["include/ieme/fraction.hpp: operator+, operator*", "include/ieme/ops.hpp: safe_reduced_io"]}
{"id": "C70", "title": "Sums over a common denominator never overflow under safe", "statement": "If all fractions are multiples of 1/D with D fitting the type, then under every policy built on safe +, - and comparisons are free of undefined behaviour as soon as the scaled numerators and their sum fit, and so is a sum over a range of any length whose scaled partial sums fit; the result is again a multiple of 1/D. fast overflows on such operands.", "quantifier": "every signed representation, policy built on safe, D, operands, ranges of any length", "why_tests_cant": "All ranges and denominators; a statement about every overflow point.", "anchors": ["include/ieme/ops.hpp: safe::plus, safe::minus, safe::less"]}
{"id": "C71", "title": "Computed results compare as the rationals they stand for", "statement": "Comparing the results of any two expressions under a policy that returns lowest terms gives the comparison of the rationals denoted; hence the laws of an ordered field hold through the operators: adding keeps <, multiplying by a positive keeps <, negation reverses <, (a+b)/2 lies strictly between.", "quantifier": "every signed representation, policy returning lowest terms, pair of expression trees, comparison", "why_tests_cant": "All pairs of computations.", "anchors": ["include/ieme/fraction.hpp: operators", "include/ieme/ops.hpp: safe_reduced_io"]}
{"id": "C72", "title": "Conversions to floating point keep sign and order", "statement": "to_float, to_double and to_long_double keep the sign, send only zero to zero and opposite fractions to opposite numbers, for every defined fraction with no part equal to the minimum value; they keep the order of fractions whose reduced parts the floating-point type represents exactly (and, beyond that, can reverse it).", "quantifier": "every pair of fractions, every representation fitting the exponent range", "why_tests_cant": "All pairs of fractions.", "anchors": ["include/ieme/floating_point.hpp: fraction_to_floating_point, to_float, to_double, to_long_double"]}
{"id": "C73", "title": "Small fractions stay distinct as floating-point numbers", "statement": "Fractions whose reduced parts are at most 2^11 (float), 2^26 (double) or 2^31 (long double) convert to numbers that compare exactly as the fractions; so as long double all the fractions over int32 with no minimal part stay distinct, while as double some collide.", "quantifier": "every pair of such fractions, every representation", "why_tests_cant": "All pairs of fractions.", "anchors": ["include/ieme/floating_point.hpp: fraction_to_floating_point, to_float, to_double, to_long_double"]}
{"id": "C74", "title": "Fractions survive a conversion to floating point and back", "statement": "A fraction whose value needs at most 24 (float) or 53 (double) significant bits, and whose magnitude and precision fit the representation, becomes exactly its value, and to_fraction gives that value back; a fraction in lowest terms comes back identical.", "quantifier": "every such fraction, signed representation and policy returning lowest terms", "why_tests_cant": "All dyadic fractions.", "anchors": ["include/ieme/floating_point.hpp: to_fraction, to_float, to_double"]}
{"id": "C75", "title": "Scaling, dividing and rounding durations is exact", "statement": "d * s, d / s, d % s for fractions or integers s, d1 / d2, d1 % d2, d1 += d2 and the like, and std::chrono::abs of fractional durations of any periods are those of the numbers of seconds; (d1 / d2) * d2 is d1; std::chrono::floor and ceil to a fractional duration are the exact conversion and round nothing.", "quantifier": "every count, scalar and pair of periods, policy, signed representation of at least 64 bits", "why_tests_cant": "All periods and counts.", "anchors": ["include/ieme/chrono.hpp: duration, time_point, treat_as_floating_point"]}
{"id": "C76", "title": "numeric_limits describes fractions", "statement": "is_signed says whether negative values exist; digits and digits10 are integers' digits that always fit, and max_digits10 decimal digits tell any two fractions apart; every value lies within 2^digits; quiet_NaN is undefined, different from everything and absorbing; no operation rounds (is_exact); unsigned arithmetic is modular (is_modulo) and nothing traps (traps).", "quantifier": "every representation, policy, fraction and operation", "why_tests_cant": "All values of all types.", "anchors": ["include/ieme/limits.hpp: numeric_limits<fraction>"]}
{"id": "C77", "title": "Programs compute over the rationals under every policy they suit", "statement": "A program that reads no numerator or denominator, started from any fractions, takes the decisions and computes the values of the same program over the rationals when it meets no undefined behaviour: under every policy if it never divides and denominators start positive; with division if the policy reduces its inputs and either normalises their signs, or is built on safe and the program orders fractions only against fractions. The policies faithful for all such programs are exactly those returning lowest terms or normalising input signs.", "quantifier": "every policy, program of any length, number of loop iterations, assignment of signed representations to variables, initial memory", "why_tests_cant": "All programs, policies and executions.", "anchors": ["include/ieme/fraction.hpp: operators, compound assignment, comparisons", "include/ieme/ops.hpp: safe, fast, reduced_input, reduced_output"]}
{"id": "C78", "title": "Reducing only inputs keeps programs with small values defined", "statement": "If every rational occurring in the run of a program has, in lowest terms, parts of magnitude at most B, and 2*B*B fits the type of every operation, then under every policy that reduces its inputs, whether or not it reduces results, the program runs without undefined behaviour to its exact result.", "quantifier": "every policy that reduces its inputs, program it suits, run, bound, initial memory with no part equal to the minimum value", "why_tests_cant": "All programs and executions.", "anchors": ["include/ieme/fraction.hpp", "include/ieme/ops.hpp: reduced_input"]}
{"id": "C79", "title": "Programs mixing signed and unsigned representations compute exactly where every value fits", "statement": "A program whose variables and constants have any representations, signed or unsigned, meets no undefined behaviour and ends in exactly the rationals it denotes, under every policy returning lowest terms, provided every rational it computes has parts of magnitude at most B and is not negative where the type of the operation (the common type of its operands) or of the assigned variable is unsigned, and 2*B*B fits the type of every operation. Outside that condition it can silently be wrong.", "quantifier": "every program, run, bound, policy returning lowest terms, assignment of representations to variables", "why_tests_cant": "All programs and executions; unsigned wrap-around is silent.", "anchors": ["include/ieme/fraction.hpp: operators, compound assignment, comparisons, converting constructors", "include/ieme/ops.hpp: safe_reduced_io"]}
{"id": "C80", "title": "to_fraction into unsigned representations", "statement": "to_fraction of a positive float or double into a fraction of an unsigned type gives exactly what the signed type one bit wider gives, where that is defined; it is exact under every policy for magnitudes between 2^-(bits-24) and 2^(bits-23) (float). A negative number never gives its value, and a number beyond the range silently gives another one.", "quantifier": "every positive float and double, policy and unsigned representation", "why_tests_cant": "2^64 doubles; wrap-around is silent.", "anchors": ["include/ieme/floating_point.hpp: to_fraction, floating_point_to_fraction"]}
{"id": "C81", "title": "Default operators depend only on the numbers", "statement": "Under the default policy the outcome of every arithmetic operator and comparison of two fractions - whether it is free of undefined behaviour and the result, numerator and denominator - depends only on the numbers the operands stand for, not on how they are written.", "quantifier": "every signed representation, operator, comparison, two pairs of operands (no part equal to the minimum value) of the same values", "why_tests_cant": "All pairs of spellings of all operands.", "anchors": ["include/ieme/ops.hpp: safe_reduced_io", "include/ieme/fraction.hpp: operators"]}
{"id": "C82", "title": "Exactly when the default operators are defined", "statement": "Under the default policy + - % are free of undefined behaviour exactly when both operands, in lowest terms, can be written over their least common denominator and the result over it fits; * and / exactly when the products of the lowest terms fit (or the divisor is zero); comparisons exactly when both operands can be written over their least common denominator. What is defined in a representation is defined, with the same result, in every wider one.", "quantifier": "every signed representation, operator, comparison, operands (fractions, or a fraction and an integer)", "why_tests_cant": "A statement about every overflow point.", "anchors": ["include/ieme/ops.hpp: safe_reduced_io, safe, reduced_input, reduced_output", "include/ieme/fraction.hpp: operators"]}
{"id": "C83", "title": "Exactly when rounding is defined", "statement": "Under the default policy round is free of undefined behaviour exactly when the least common multiple of 2 and the denominator in lowest terms fits and the integer below can be written over that denominator; redenominate exactly when the numerator in lowest terms times the new denominator fits (ceil and floor also need the negated new denominator to fit, round also the rounding of the product).", "quantifier": "every signed representation, fraction with no part equal to the minimum value, new denominator, rounding mode", "why_tests_cant": "A statement about every overflow point.", "anchors": ["include/ieme/fraction_math.hpp: round, redenominate, trunc_redenominate, ceil_redenominate, floor_redenominate, round_redenominate"]}
{"id": "C84", "title": "Mixed-number expressions with small values meet no undefined behaviour", "statement": "If every value occurring in an expression over mixed numbers (+, unary +, unary -, with mixed numbers, fractions and integers) has magnitude at most W and, in lowest terms, a denominator of at most B, the fraction types have room for 8*B*B and the whole types for 2*W+2, then under every policy returning lowest terms the expression is evaluated without undefined behaviour to exactly its value in normal form; the whole parts may be far larger than a fraction of the type could hold.", "quantifier": "every expression tree, policy returning lowest terms, assignment of signed representations, bounds B and W", "why_tests_cant": "All expressions; a statement about every overflow point.", "anchors": ["include/ieme/mixed_number.hpp: mixed_number, fix, operators"]}
{"id": "C85", "title": "Exactly when operations on durations are defined", "statement": "Under the default policy a conversion of a fractional duration by the factor n/d is free of undefined behaviour exactly when the numerator in lowest terms times n, and the remaining denominator times d, fit; +, -, /, % and comparisons of durations of different periods exactly when both counts convert to the common period (the greatest of which both periods are multiples) and the operation on the converted counts is defined.", "quantifier": "every signed representation, pair of periods and counts with no part equal to the minimum value", "why_tests_cant": "A statement about every overflow point.", "anchors": ["include/ieme/chrono.hpp: duration, time_point, treat_as_floating_point", "include/ieme/ops.hpp: safe_reduced_io"]}
{"id": "C86", "title": "duration::zero, min and max behave as limits", "statement": "Adding duration::zero() is always defined and keeps the value, comparing with it is always defined and tells the sign; no duration is below duration::min() or above duration::max(), and every duration can be compared with them.", "quantifier": "every duration, period, signed representation", "why_tests_cant": "All durations.", "anchors": ["include/ieme/chrono.hpp: duration, time_point", "include/ieme/limits.hpp: numeric_limits<fraction>::lowest, max"]}
{"id": "C87", "title": "Exactly when fast_reduced_io is defined, and safe can replace it", "statement": "Under fast_reduced_io, arithmetic on fractions with positive denominators is free of undefined behaviour exactly when the cross products of the lowest terms, their sum or difference and the product of the denominators fit, comparisons exactly when the cross products fit. Wherever arithmetic under a policy that returns lowest terms is defined, in whole expressions too, the same policy built on safe returns the identical fraction; the domains coincide for * and / and for coprime denominators, and neither policy's comparisons are defined everywhere the other's are.", "quantifier": "every signed representation, operator, pair of operands with positive denominators and no part equal to the minimum value, and expression", "why_tests_cant": "A statement about every overflow point and every expression.", "anchors": ["include/ieme/ops.hpp: fast_reduced_io, safe_reduced_io"]}
{"id": "C88", "title": "Sorting and searching fractions works as on the rationals", "statement": "An algorithm that reaches a list of fractions only through the comparison operators (sorting, binary search, ordered containers, minimum) gives the answer it gives on the numbers they stand for, if the policy is built on safe or normalises its inputs or all denominators are positive: a sorting algorithm returns the fractions in order of value, a binary search finds the right position. It meets no undefined behaviour if the cross products of any two elements fit or, under the default policy, if any two elements can be written over their least common denominator.", "quantifier": "every comparison-driven algorithm, list of fractions, policy meeting the condition and signed representation", "why_tests_cant": "All algorithms and lists of any length.", "anchors": ["include/ieme/fraction.hpp: operator<, operator==, operator<=", "include/ieme/ops.hpp: less, equal_to"]}
{"id": "C89", "title": "Queries, reduction, unary minus and abs: exactly when they are defined", "statement": "For a signed representation: reduce in either mode has defined behaviour exactly for undefined fractions and for fractions neither of whose parts is the least integer; normalize_signs also for every positive denominator; is_unit_fraction for all but -1/least; is_proper and is_improper exactly without a least part; is_reduced as reduce and also for all fractions whose signs it rejects. Unary minus under a policy that reduces its inputs is defined exactly as reduce, under safe and fast exactly if the numerator is not the least integer, and under the remaining policies exactly if neither part is. abs returns non-negative fractions unchanged and is defined on negative ones exactly if unary minus is.", "quantifier": "every signed representation, fraction and policy", "why_tests_cant": "Exact domains over all integers; tests seldom touch the least integer.", "anchors": ["include/ieme/raw_fraction_math.hpp: reduce, normalize_signs", "include/ieme/raw_fraction_queries.hpp: is_unit_fraction, is_proper, is_improper, is_reduced", "include/ieme/ops.hpp: negate", "include/ieme/fraction.hpp: operator-", "include/ieme/fraction_math.hpp: abs"]}
{"id": "C90", "title": "Exactly when converting a literal is defined", "statement": "Under the default policy the conversion of a floating-point literal to a fraction over a signed representation is free of undefined behaviour exactly if the base to the number of whole digits, the base to the number of fractional digits and the power of the exponent fit, the exponent has at most nine digits, and the number before the exponent in lowest terms, multiplied or divided by that power without cancelling, fits. The same for the _dec suffix in 64 bits. A literal that converts in one representation converts in every wider one to the identical fraction.", "quantifier": "every literal of the accepted grammar, of any length up to INT_MAX, and every signed representation", "why_tests_cant": "An equivalence over all strings of the grammar and all widths.", "anchors": ["include/ieme/floating_point.hpp: to_fraction(std::string_view)", "include/ieme/parse_utilities.hpp: digit_sequence_to_int", "include/ieme/fraction_literals.hpp: operator\"\"_dec"]}
{"id": "C91", "title": "Exactly when operations on mixed numbers are defined", "statement": "Under the default policy, over one signed representation: constructing a mixed number from an integer and a fraction is free of undefined behaviour exactly if the fraction is defined, neither of its parts is the least integer and the whole part of the sum fits; from a fraction under the first two conditions; converting back to a fraction exactly if the numerator in lowest terms fits. A whole expression (+, unary +, unary -, with mixed numbers, fractions and integers) is exactly if at each addition the sum of the whole parts, the sum of the fractional parts over their least common denominator and the whole part with the carry fit, and no negated whole part is the least integer.", "quantifier": "every signed representation, integer, fraction and expression tree of any depth", "why_tests_cant": "A statement about every overflow point of every expression.", "anchors": ["include/ieme/mixed_number.hpp: constructors, operator+, operator-, conversion to fraction", "include/ieme/ops.hpp: safe_reduced_io"]}
{"id": "C92", "title": "A wider representation never changes a result", "statement": "Whatever the library computes over a signed representation without undefined behaviour, it computes over every wider signed representation too, to the identical numerator and denominator: arithmetic, comparisons, unary operators, queries, reduce, trunc/ceil/floor/round, redenominate, pow, literals, expressions, mixed numbers, durations (of 64 bits or more), and whole programs in which the types of any variables are widened and no assignment narrows; under every policy. It does not hold for pow2, for unsigned representations, or for programs with narrowing assignments.", "quantifier": "every pair of signed representations, policy, operation, operands, expression, literal and program with any number of loop iterations", "why_tests_cant": "All pairs of widths, inputs and executions; replacing int by long is the usual answer to overflow.", "anchors": ["include/ieme/ops.hpp: safe, fast, reduced_input, reduced_output", "include/ieme/fraction.hpp: operators", "include/ieme/fraction_math.hpp: to_whole, redenominate, pow, pow2", "include/ieme/mixed_number.hpp: operators", "include/ieme/floating_point.hpp: to_fraction(std::string_view)", "include/ieme/chrono.hpp: duration"]}
{"id": "C93", "title": "Exactly when a program is free of undefined behaviour", "statement": "Under the default policy, with every variable in lowest terms over a signed representation, an expression, a condition or a whole program (assignments, compound assignments, branches, loops, mixed widths and integer operands) runs to its end without undefined behaviour exactly if the same computation over the rationals ends and every operation it performs satisfies a condition on its rational operands and the greatest integer of its type: both operands over their least common denominator, and their sum or difference over it, fit for + and -; both operands over it fit, the divisor is not zero and the quotient fits for %; the products of the parts in lowest terms fit for * and /; both operands over their least common denominator fit for comparisons; no operand has the least integer as numerator. The undefined fraction may be multiplied, divided and compared, and combined with an integer by + and -, but not added, subtracted or taken a remainder of with a fraction. A right operand of && or || that is not evaluated is not constrained.", "quantifier": "every typing of the variables, memory, expression, condition and program with any number of loop iterations", "why_tests_cant": "An equivalence over all programs and inputs; a test shows one execution of one program.", "anchors": ["include/ieme/fraction.hpp: operators, compound assignment, comparison", "include/ieme/fraction_math.hpp: trunc, abs, reduce", "include/ieme/ops.hpp: safe_reduced_io"]}
{"id": "C94", "title": "Fractions under other stream format flags", "statement": "With any combination of base, showbase, showpos, uppercase, width, fill and adjustment, a fraction written to a stream and read back with the same base is identical and the stream does not fail: in decimal for every fraction, in octal and hexadecimal for those without a negative part, provided padding that is needed is blanks outside the number or zeros inside it. Negative parts over a signed representation in octal or hexadecimal always fail to read back. std::setw pads the numerator only and is reset. Other padding or another base can silently read back a different fraction. With the default flags these are the operators of C47 and C48.", "quantifier": "every representation, fraction, combination of flags, width, fill and following text", "why_tests_cant": "Unbounded widths and texts times all flags and fractions; the tests stream with the default flags only.", "anchors": ["include/ieme/raw_fraction.hpp: operator<<, operator>>", "include/ieme/fraction.hpp: operator<<, operator>>"]}
{"id": "C95", "title": "Mode arguments outside the enumerations", "statement": "The mode arguments of reduce, to_whole and redenominate may have any value of int. reduce keeps the value of every fraction for the two enumerators, and for every other mode returns an undefined fraction, so it keeps the value of undefined fractions only. to_whole and redenominate round to the nearest for every mode other than the first three enumerators.", "quantifier": "every mode value, representation, policy and fraction", "why_tests_cant": "The modes are all values of int; the tests pass the enumerators.", "anchors": ["include/ieme/raw_fraction_math.hpp: reduce", "include/ieme/fraction_math.hpp: to_whole, redenominate, reduce", "include/ieme/reduce_mode.hpp: reduce_mode"]}
{"id": "C96", "title": "Euclid's algorithm on fractions", "statement": "The client loop while (y != 0) { tmp = x % y; x = y; y = tmp; } on two defined fractions comes to an end under every policy that returns lowest terms; if it meets no undefined behaviour x is then a greatest common divisor of the two rationals (both are integer multiples of it, and it is an integer multiple of every such rational) and y is 0/1. Under the default policy it meets none exactly if y is zero or both fractions can be written over their least common denominator, except where a numerator in lowest terms is the least integer, or one numerator over the common denominator is the least integer and the other is -1.", "quantifier": "every signed representation and pair of defined fractions, any number of iterations", "why_tests_cant": "Termination and exact definedness over all pairs of fractions of a loop whose length is not bounded by the code.", "anchors": ["include/ieme/fraction.hpp: operator%, operator!=, assignment", "include/ieme/ops.hpp: safe_reduced_io"]}
{"id": "C97", "title": "Every stack of policies behaves as one of eighteen", "statement": "reduced_input and reduced_output can be applied to any policy, any number of times and in any order. Whatever the stack, every arithmetic operator, comparison and negation has exactly the outcome (result or undefined behaviour) it has under one of eighteen policies: safe or fast, with at most one input layer and one output layer, each keeping or normalising signs. Two stacks can be told apart by results exactly if they differ in the bottom policy, in the effect of the input layers together, or in the effect of the output layers together; so repeating or reordering layers is never visible, and the eighteen are pairwise different. No program over variables of any representations can tell two such stacks apart.", "quantifier": "all stacks of layers of any depth, all representations of at least 32 bits (signed and unsigned), all operators and operands, all programs, memories and numbers of steps", "why_tests_cant": "policies are an infinite family of types; a test instantiates a few stacks on a few operands", "anchors": ["include/ieme/ops.hpp: reduced_input, reduced_output, safe, fast", "include/ieme/fraction.hpp: operators"]}
{"id": "C98", "title": "Reducing operands is redundant once everything is in lowest terms", "statement": "On operands in lowest terms, numerators other than the least integer, the reduced_input layers of any policy change nothing: every operator has the same outcome (result or undefined behaviour) without them. Hence a program whose policy normalises its results, and whose constants and initial variables are in lowest terms, runs identically without the input layers, step for step: safe_reduced_o may replace the default policy, and fast_reduced_o may replace fast_reduced_io. Both conditions are needed: with an output layer that keeps signs the memory can differ, and with unreduced memory the program can overflow.", "quantifier": "all stacks of policies, all representations and operands (operators); all programs, signed types without narrowing assignments, memories in lowest terms, numbers of steps (programs)", "why_tests_cant": "equivalence of two policies over all programs and memories is an invariant of every reachable state", "anchors": ["include/ieme/ops.hpp: reduced_input, reduced_output, safe_reduced_o, fast_reduced_o", "include/ieme/fraction.hpp: operators"]}
{"id": "C99", "title": "A literal converted to floating point is the correctly rounded value of the literal", "statement": "Converting the spelling of a literal with a point to a fraction and then to float, double or long double gives the number of that type nearest to the exact value of the literal (ties to even) whenever the power of the base past its digits times the power of the exponent is at most 2^24, 2^53 or 2^64; so a decimal _dec literal of at most fifteen digits, counting the absolute value of the exponent, gives by to_double exactly the double the compiler gives for the literal without the suffix. However long the literal, if _dec accepts it the double is within 4 units of 2^-53 of the exact value, relative to it; beyond the fifteen digits it need not be the nearest one.", "quantifier": "all valid literals, decimal and hexadecimal, with and without exponents and digit separators, all policies, all signed representations of at least 32 bits in which the bound on the digits fits", "why_tests_cant": "There are infinitely many spellings and each combines digit conversion, a power, an addition, a multiplication, reductions and a rounded division; a test compares a few literals with the compiler's own conversion.", "anchors": ["include/ieme/parse_utilities.hpp: string_to_fraction", "include/ieme/fraction_literals.hpp: operator\"\"_dec", "include/ieme/floating_point.hpp: to_float, to_double, to_long_double"]}
{"id": "C100", "title": "Every part of a fraction and of a mixed number reaches its hash", "statement": "With the standard library's hash of integers, two fractions that differ only in the numerator have different hashes, as have two that differ only in the denominator unless the denominators differ by a multiple of 2^63; for mixed numbers the same holds of the whole part, of the numerator modulo 2^63 and of the denominator modulo 2^62. For every fraction and every other denominator exactly one 64-bit numerator collides with it.", "quantifier": "all fractions and mixed numbers over signed and unsigned representations of 32 to 64 bits", "why_tests_cant": "Whether a combination of shifts and exclusive ors loses information is a statement about all pairs of values; a test compares a handful of hashes.", "anchors": ["include/ieme/hash.hpp: std::hash<fraction>, std::hash<mixed_number>, hash_combine"]}
{"id": "C101", "title": "What operators on fractions of unsigned integers compute, also when they wrap", "statement": "Under every policy that reduces its inputs, an operator on defined fractions of unsigned integers has a result exactly if the least common denominator fits (policies built on safe only) and no remainder by zero is taken, and the result is the textbook numerator and denominator modulo 2^bits. A sum or difference is exact if and only if the result fits over the least common denominator, even if the operands brought to it do not. Multiplication by an integer is exact if and only if the numerator fits. Comparisons compare the numerators over the common denominator modulo 2^bits: equal fractions always compare equal, but a fraction can compare equal to a different one, and a larger one as less.", "quantifier": "every unsigned representation of at least 32 bits, every stack of policies that reduces its inputs, all five operators and six comparisons, all pairs of defined fractions and of a fraction and an integer", "why_tests_cant": "The wrap-around affects one pair in an astronomically large set and depends on divisibility; tests with small operands never meet it.", "anchors": ["include/ieme/ops.hpp: safe, fast, reduced_input_ops", "include/ieme/fraction.hpp: operator+ to operator%, operator== to operator>="]}
{"id": "C102", "title": "Computing with floating-point numbers through fractions rounds once", "statement": "An expression of any size that adds, subtracts and multiplies fractions made from floats and doubles by to_fraction, and integers, and that is evaluated without undefined behaviour, is converted by to_double to a nearest double of its exact value; so std::accumulate over doubles made into fractions gives the correctly rounded sum of any number of doubles. More generally every fraction whose value is an integer over a power of two converts correctly rounded, whatever the size of its parts, and after any program the double made from a variable is within four units of 2^-53 of the exact value, however long the program has run.", "quantifier": "every signed representation of 54 to 1023 bits, every policy, expressions of any size, lists of any length, programs of any length, all three floating-point formats for the conversion", "why_tests_cant": "Whether errors accumulate shows only in long computations, and a wrong last bit only for operands chosen to fall next to a midpoint.", "anchors": ["include/ieme/floating_point.hpp: to_fraction, to_float, to_double, to_long_double, fraction_to_floating_point", "include/ieme/fraction.hpp: operator+, operator-, operator*"]}
{"id": "C103", "title": "Accumulating durations never drifts", "statement": "A duration with a fractional representation that is changed by any sequence of +=, -= and %= with durations of arbitrary periods and *= and /= with fractions holds exactly the number of seconds the same steps give in exact arithmetic, as long as every step is defined. With a policy that reduces its results the count is also in lowest terms, so adding the same durations in any order gives the same count bit for bit. A tick added n times moves the duration by exactly n ticks, and with a policy on the safe operations a clock can be ticked until the running count over the common denominator no longer fits.", "quantifier": "every policy, every signed representation of 64 bits or more, every period, start, and every finite sequence of steps", "why_tests_cant": "drift shows only after unboundedly many steps and depends on every period ratio and order of additions", "anchors": ["include/ieme/chrono.hpp: ieme::chrono::duration", "include/ieme/fraction.hpp: fraction operators, compound assignments", "include/ieme/chrono.hpp: common_type specialisation"]}
{"id": "C104", "title": "The outcome of every operation of every policy", "statement": "For every stack of policies, every representation (signed or unsigned) and all operands - unreduced, negative, undefined or extreme, fractions or integers - each arithmetic operator, comparison, unary minus and reduction returns exactly the fraction or truth value obtained by reducing the operands as the input layers say, carrying out the textbook formula on integers with every intermediate result overflowing or wrapping as the type does, and reducing the result as the output layers say; it is undefined exactly when one of those integer steps is. With an integer operand safe and fast do the same.", "quantifier": "every stack of policies, every representation, all operands of it", "why_tests_cant": "a complete description of results and definedness over all bit patterns of all widths is out of reach of any finite set of cases", "anchors": ["include/ieme/ops.hpp: safe, fast, reduced_input, reduced_output", "include/ieme/raw_fraction_math.hpp: reduce", "include/ieme/fraction.hpp: operators"]}
{"id": "C105", "title": "Unordered containers keyed by fractions in lowest terms are sets of rationals", "statement": "A hash table in the manner of std::unordered_set whose keys are defined fractions in lowest terms (what every policy that normalises its output produces) contains a key after any sequence of insertions, erasures and rehashes exactly when the set of the rationals inserted and not erased since contains its value, and iterating over it meets each member once; the history is defined for small keys. With keys that are not in lowest terms this fails: a table that contains 1/2 does not find the equal 2/4 and takes it as a second element; an undefined key is never found.", "quantifier": "all hashes of the integral type, policies, signed integral types, numbers of buckets and finite sequences of insertions, erasures and rehashes", "why_tests_cant": "Whether a lookup fails depends on hashes, bucket counts and the whole history of the table; a test sees one of them.", "anchors": ["include/ieme/hash.hpp: std::hash<ieme::fraction>", "include/ieme/fraction.hpp: operator=="]}
{"id": "C106", "title": "Streams with any basefield and without skipws read back what they wrote", "statement": "Whatever bits of the stream's basefield are set (none, one or several) and whether or not skipws is set, operator>> reads every text consisting of a numerator, anything without a slash, a slash and a denominator in the base of the flags (each in the base it announces, if the flags set none), and reads back identically what operator<< wrote under the same base, or, without a base, in decimal or with showbase. Without skipws a blank in front of either number makes it fail with that number 0. A decimal numerator padded with zeros, or digits written in another base without showbase, are silently read as a different fraction when no base is set.", "quantifier": "all fractions, integral types, combinations of basefield bits, skipws, width, fill, adjustment, showbase, showpos, uppercase and following text", "why_tests_cant": "Eight base combinations times the other flags times all values and texts; a test fixes the flags.", "anchors": ["include/ieme/raw_fraction.hpp: operator<<, operator>>", "include/ieme/fraction.hpp: operator<<, operator>>"]}
{"id": "C107", "title": "Rounding and redenominating fractions of unsigned integers", "statement": "For fractions of unsigned integers, under every policy, trunc, floor, ceil, round and redenominate are defined exactly when the denominator is not zero (and, for round under policies built on safe, the cancelled denominator is even or its double fits), and return exactly the stated integers. round returns the nearest integer, ties up, whenever it is defined under policies built on safe, and under fast when twice the denominator fits; redenominate returns the value times the new denominator rounded in the requested way when the product of numerator and new denominator fits. Otherwise both are silently wrong: with 32 bits (2^31+5)/(2^31+7) rounds to 0 under fast, and 3/4 redenominated to 2^31 is 1/4 under the default policy.", "quantifier": "all unsigned integral types, policies, fractions, new denominators and rounding modes", "why_tests_cant": "The failing inputs are those whose intermediate products wrap, a thin set at the end of the range of each type.", "anchors": ["include/ieme/fraction_math.hpp: trunc, floor, ceil, round, redenominate, trunc_redenominate, floor_redenominate, ceil_redenominate, round_redenominate", "include/ieme/ops.hpp: fast::less, safe::less"]}
{"id": "C108", "title": "Fractions of types narrower than int", "statement": "A fraction of char or short types works with every other type: an operator between two different types is computed in their common type, at least int, with the exact result, and between 8-bit and 16-bit types it cannot overflow under any policy. Between fractions of one such type the comparisons are right: under a fast policy always, for types no wider than short; under a safe policy exactly when the least common multiple of the denominators fits in the type. trunc, floor, ceil, is_proper, normalize_signs and pow2 are right except where a result is not representable, when they wrap silently instead of overflowing: normalize_signs turns 1/-32768 into 1/32768. Comparisons of unsigned short overflow int.", "quantifier": "every integer type of 8 to 31 bits, signed or unsigned, every pair of types, every pair of operands and every policy", "why_tests_cant": "tests of the library use int only; exhaustive tests of two shorts already have 2^64 operand pairs per operator and policy", "anchors": ["include/ieme/fraction.hpp: operator+, operator==, common_fraction_t", "include/ieme/ops.hpp: safe_ops, fast_ops", "include/ieme/raw_fraction_queries.hpp: is_integer, is_unit_fraction, is_proper", "include/ieme/raw_fraction_math.hpp: normalize_signs", "include/ieme/fraction_math.hpp: trunc, ceil, floor, pow2", "include/ieme/math_utilities.hpp: abs, pow2"]}
{"id": "C109", "title": "Every program has a sufficient width", "statement": "Under the default policy a program over fractions that finishes over the rationals runs without undefined behaviour in every signed type from some width on, with the same final fractions in all of them, unless it takes a remainder by zero, the integer part of an undefined fraction, the sum, difference or remainder of two fractions of which one is undefined, or the remainder of an undefined fraction and an integer; and a program that does one of these has undefined behaviour in every type. So undefined behaviour that widening the representation does not cure is always one of these operations.", "quantifier": "every expression, every program with loops, every number of steps, every initial memory in lowest terms, every signed type", "why_tests_cant": "a test uses a few fixed types; no test shows that a width exists for every program, or that a failure persists in every width", "anchors": ["include/ieme/fraction.hpp: operator+, operator-, operator*, operator/, operator%, operator+=, operator==", "include/ieme/ops.hpp: defaults", "include/ieme/fraction_math.hpp: trunc, abs, reduce"]}
{"id": "C110", "title": "Streams that throw and devices that fill up", "statement": "operator>> and operator<< of fractions are noexcept, so on a stream with an exception mask (exceptions()) a failure covered by the mask ends the program instead of throwing. With failbit in the mask, reading returns for exactly the texts of fractions (followed by something, if eofbit is in the mask as well), with the result it has without a mask; malformed text and the end of the input end the program, and with eofbit in the mask so does reading back just what was written. Fractions written with blanks after each are read back under any mask. Writing to a device with room appends the whole text; to one without, the device holds a prefix of the text and the stream is bad, or the program ends if badbit is in the mask. A text that lost its last digit is read back, without failure, as another fraction.", "quantifier": "every exception mask, representation, fraction, text, number of fractions, and amount of room on the device", "why_tests_cant": "The outcome depends on the mask, on where in the text a state bit is first set and on how much room is left; and a test cannot observe a call that ends the program.", "anchors": ["include/ieme/raw_fraction.hpp: operator<<, operator>>", "include/ieme/fraction.hpp: operator<<, operator>>"]}
{"id": "C111", "title": "Streams of fractions of character types", "statement": "A fraction of char, signed char or unsigned char (so of std::int8_t or std::uint8_t) is written as the characters whose codes are its numerator and denominator with a slash between, not as numbers: 65/66 is A/B. Different fractions are written differently. Reading takes one non-blank character, skips past the next slash and takes one more, and fails exactly when the text has not that form; the parts are the codes, so decimal text such as 3/4 is read as 51/52. What was written is read back exactly when neither part is the code of a blank: a blank numerator is replaced by the slash, a blank denominator by whatever follows, without failure.", "quantifier": "both character signednesses, every fraction, every text and every rest of the input", "why_tests_cant": "Which fractions fail depends on character codes: a test with a few fractions round-trips, the twelve blank codes and the texts around them do not.", "anchors": ["include/ieme/raw_fraction.hpp: operator<<, operator>>", "include/ieme/fraction.hpp: operator<<, operator>>"]}
{"id": "C112", "title": "Mixed numbers of unsigned integers", "statement": "An expression over mixed numbers of an unsigned type (construction, unary plus, sums of mixed numbers, fractions and whole numbers, but no negation) gives exactly what it gives over the signed type one bit wider whenever it is defined there, and then its exact value in normal form; so does the conversion of a mixed number to a fraction. If every value in the expression is at most W with a denominator of at most B, where 2W+2 and 8B^2 fit in the type, the result is the number the expression denotes. No mixed number of unsigned types is negative: negating a positive one silently gives another number, as does a sum that does not fit.", "quantifier": "every unsigned integer type not narrower than int, every policy (every policy that reduces its results, for the size bound), every expression without negation over it, every bound B <= W", "why_tests_cant": "Expressions are trees of any depth over 2^32 or 2^64 values; tests that pass for small operands cannot tell modular arithmetic that happens to agree with the exact result from arithmetic that always does within the stated range.", "anchors": ["include/ieme/mixed_number.hpp: mixed_number, as_fraction, operator+, operator-", "include/ieme/fraction.hpp: fraction arithmetic", "include/ieme/ops.hpp: safe, fast"]}
{"id": "C113", "title": "Expressions over operands of different types", "statement": "In an expression that mixes fractions and integers of different integral types the type of the result is the widest type among the operands (the unsigned one where both occur at that width), whatever the order and bracketing. Sums and products of such operands are the same fraction, bit for bit, in every order and bracketing, as long as no operator has to work in an unsigned type, which is so whenever no operand is unsigned. Such an expression gives what it gives with all operands converted to the type of the result, or to a wider signed type, beforehand; the reverse is not so, since a part of the expression may overflow in a narrower type. Where an operator works in an unsigned type the bracketing can decide the value: (-1/2 + 0u) + 0L differs from -1/2 + (0u + 0L).", "quantifier": "every expression of any depth over variables, constants and integers of any integral types, every policy (every policy that reduces its results for order and bracketing), every wider signed type", "why_tests_cant": "Tests fix a few combinations of types and one bracketing; the claim ranges over all types, all trees and all permutations of their operands.", "anchors": ["include/ieme/fraction.hpp: operator+, operator-, operator*, operator/, operator%, common type"]}
{"id": "C114", "title": "Which laws of rounding hold", "statement": "For fractions of signed types: trunc, floor and round never reverse the order of two fractions, and ceil does exactly for a fraction strictly between -1 and 0 against zero; a fraction equal to a whole number is rounded to it in every mode, however it is written; results are less than one away (ceil: two); trunc of opposite fractions is opposite, floor of one is the opposite of ceil of the other exactly for zero and magnitudes of at least one, and round is odd exactly when the fraction is neither half an odd number nor of magnitude strictly between a half and one; for each mode it is known exactly when adding a whole number commutes with rounding. redenominate to the same denominator a second time returns the identical fraction; it keeps the order except in the mode ceil; going to a denominator through a multiple of it gives the same as going directly in the modes trunc and ceil, and in the mode floor except exactly for values less than one fine unit above minus one coarse unit.", "quantifier": "all signed widths, policies, modes, fractions, denominators and multiples; round under policies that compare rightly, or positive denominators", "why_tests_cant": "The laws relate the results on two or three arbitrary fractions; the exceptions are intervals next to zero that samples of positive numbers never meet.", "anchors": ["include/ieme/fraction_math.hpp: trunc, ceil, floor, round, to_whole, redenominate"]}
{"id": "C115", "title": "Streams whose locale groups digits", "statement": "On streams whose locale has a thousands separator and a grouping, operator<< of a fraction or raw fraction writes what the classic locale writes with both numbers grouped, and operator>> of a stream of the same locale reads exactly that fraction back.  Reading succeeds on exactly the texts in which each number is grouped as the locale says or not grouped at all, so text of the classic locale is read by all.  The converse does not hold: a stream of the classic locale reads grouped text without failing but keeps only the leading group of each number, 1,000/3 being read as 1/3.", "quantifier": "all groupings and separators other than digits, signs and the slash; all integral types that streams read as numbers; all fractions; all texts and all characters that may follow", "why_tests_cant": "Locales are runtime data; the tests use the classic locale only, and the loss of digits raises no error.", "anchors": ["include/ieme/raw_fraction.hpp: operator<<, operator>>", "include/ieme/fraction.hpp: operator<<, operator>>"]}
{"id": "C116", "title": "Assignments inside expressions and the order of evaluation", "statement": "Compound assignments and = can be used inside expressions.  Their result is the left variable itself, and operators read the variables they are given only when they are called.  So if no operand of an arithmetic operator writes a variable that the other operand reads or writes, every order and interleaving of the evaluation that C++ allows ends with the same result and the same contents of all variables, or is undefined in all of them.  Expressions without assignments have the value of the sequential model in every order.  x - (x += y) reads the updated x in every order, and (x += y) *= z does what the two statements do in turn even if z is x, so that (x += 1) += x doubles x + 1, as it does not for an int.  Without the condition, as in (x += 1) * -x, the order decides the result.", "quantifier": "all policies, all types of the variables, all stores, all expressions built from variables, temporaries, parts, unary functions, arithmetic operators and nested assignments; all interleavings", "why_tests_cant": "A test runs the one order its compiler chose; there are exponentially many interleavings, and a compiler may change its choice with every build.", "anchors": ["include/ieme/fraction.hpp: operator+=, operator-=, operator*=, operator/=, operator%=, num, den, operator+ - * / %", "include/ieme/fraction_math.hpp: abs, reduce, trunc"]}
{"id": "C117", "title": "Which overload of an operator is called, and that mixing policies never compiles", "statement": "An arithmetic operator, comparison or compound assignment on two fractions of one policy, or on a fraction and an integer, calls the overload for operands of these kinds, and its type is the fraction of the common representation and that policy (bool for comparisons, the variable for assignments). Between fractions of integers with different policies it calls a deleted function, so the program is rejected. operator+ with a mixed number calls the overload for its operands and is rejected for different policies. No other call on fractions is ambiguous, also with the reversed and rewritten comparisons of C++20. A fraction converts implicitly to another fraction or a mixed number exactly if the policy is the same.", "quantifier": "every operator, all operand types built from arithmetic types, other types, fractions and mixed numbers nested to any depth, every relation std::common_type and std::is_convertible may be, with and without rewritten candidates", "why_tests_cant": "what does not compile cannot be in a unit test, and the types are infinitely many", "anchors": ["include/ieme/fraction.hpp: operator+ - * / % (4 overloads each), += -= *= /= %=, == != < <= > >=, constructors", "include/ieme/mixed_number.hpp: operator+, constructors"]}
{"id": "C118", "title": "Expressions with fraction literals have the expected types and values", "statement": "n / d_fr, for an integer n of type T, is the fraction n/d of type fraction<T> with the default policy, and so is n / -d_fr with the opposite denominator; a fraction of the default policy over a literal keeps its type; operators on fractions and integers give the common type; so a chain a1/b1_fr * a2/b2_fr * ... has the common type of its integers. No other combination has the type of an integer, a literal or a fraction of integers; in particular no operator between a literal, or a fraction made from one, and a fraction of another policy is accepted. The value of an expression has the type chosen at compile time and is the rational that it spells, when the literals fit and the operators work in signed types without undefined behaviour. It is computed with the policy of its fractions, whatever the other policies are; if that policy returns lowest terms, every operator applied to a fraction does.", "quantifier": "every expression, of any depth, over integers, literals with signs, and fractions of any representations and policies, with any operators", "why_tests_cant": "The overload is selected from the types of the operands by partial ordering of ten templates in three headers; tests instantiate a few combinations, cannot observe that an expression fails to compile without breaking the build, and cannot range over nested expressions.", "anchors": ["include/ieme/fraction_literals.hpp: operator\"\"_fr, operator+, operator-, operator/", "include/ieme/fraction.hpp: operator+, operator-, operator*, operator/, operator%"]}
{"id": "C119", "title": "Policies instantiated with a mode outside the enumeration", "statement": "reduced_input and reduced_output take their mode as a template argument of an enumeration type, so any int can be cast to it. A policy whose modes have the values of the enumerators is the policy with the enumerators. If any mode anywhere in the policy is something else, no arithmetic operator returns a number: when it returns at all the result is an undefined fraction. Hence, whatever the modes, a number that arithmetic returns is the exact one. A reduced_output with such a mode is defined exactly where the policy inside is, and returns 0/0. A reduced_input with such a mode makes every sum, difference and remainder of two fractions undefined behaviour over safe, and makes all fractions compare as undefined: != is true and the other comparisons are false. The modes of reduced_output do not matter to comparisons and those of reduced_input do not matter to unary minus.", "quantifier": "All finite stacks of reduced_input and reduced_output over safe or fast with any integers as modes, all representations, operators and operands", "why_tests_cant": "There are unboundedly many stacks and 2^32 modes for each layer; the tests instantiate the named policies only.", "anchors": ["include/ieme/ops.hpp: reduced_input, reduced_output", "include/ieme/raw_fraction_math.hpp: reduce", "include/ieme/ops.hpp: negate, plus, minus, multiplies, divides, modulus, equal_to, less"]}
{"id": "C120", "title": "The laws of powers", "statement": "pow(b, e) is the whole number b^e for e >= 0 and 1 over b^-e for e < 0, part by part. It is in lowest terms with a positive denominator unless e is negative and b is zero, or b is negative and e odd. pow(b, -e) is the reciprocal of pow(b, e), and one is defined exactly when the other is. pow2(e) is pow(2, e) up to the sign bit. Under every policy pow(b, m) * pow(b, n), if it is returned, has the value of pow(b, m + n); under policies that return lowest terms and for b > 0 it is that power bit for bit, and under the default policy it is returned exactly when that power is or m and n have opposite signs. For b > 1 powers compare as their exponents. For b < 0 and e negative and odd the default policy answers that the negative number pow(b, e) is not less than zero.", "quantifier": "All signed representations, all bases and all exponents but the least int, all policies", "why_tests_cant": "A test fixes the base and the exponents; the laws relate three calls for all of them, including those that overflow.", "anchors": ["include/ieme/fraction_math.hpp: pow, pow2, reciprocal", "include/ieme/math_utilities.hpp: pow, pow2", "include/ieme/ops.hpp: multiplies, less"]}
{"id": "C121", "title": "Programs that write the parts of fractions", "statement": "numerator(), denominator(), num(), den() and raw() hand out references to the parts of a fraction, so programs can assign to them (x.den() *= 2, x.num() = k, x.raw() = y.raw()) and can pass them to operators that write the same fraction (x *= x.num(), x /= x). Under every policy that returns lowest terms such a program, if it meets no undefined behaviour, assigns to no narrower type and compares only where the comparison is exact for the policy, leaves in every part of every fraction and in every integer variable exactly what it would leave there if integers had no bounds and every operator gave the exact result in lowest terms; in particular two such policies leave the same memory. Under any policy, an operand that refers to the variable assigned to, or to one of its parts, is read before anything is written, so copying it first makes no difference; and a part that no statement assigns to keeps its contents. An integer too large for the part it is assigned to is reduced modulo a power of two, also after a compound assignment computed in a wider type. Comparing a fraction with an integer after writing a negative denominator is the exception: under the default policy 1/-2 < 0 is false.", "quantifier": "every program built from assignments and compound assignments to fractions and to their parts, built-in integer arithmetic, conditions, branches and loops; every memory; every signed representation of every variable; every policy", "why_tests_cant": "programs, loops and memories are unbounded, and aliasing between an operand and the variable assigned to depends on the order of loads and stores", "anchors": ["include/ieme/fraction.hpp: fraction::numerator, fraction::denominator, fraction::num, fraction::den, fraction::raw, operator+=, operator-=, operator*=, operator/=, operator%=", "include/ieme/raw_fraction.hpp: raw_fraction", "include/ieme/fraction_math.hpp: reduce, reciprocal, trunc"]}
{"id": "C122", "title": "Continued fractions", "statement": "The loop 'a = trunc(x); x = x - a; if is_zero(x) stop; x = reciprocal(x)' yields the continued fraction of x. For every fraction whose parts are not the least integer it meets no undefined behaviour in any signed type, under every policy, reducing or not, and ends after at most 2 log2 |denominator| + 2 rounds; the quotients depend only on the value of x, so two fractions of any types have the same quotients exactly if they are equal. Putting a1 + 1/(a2 + 1/(...)) together again with + and reciprocal meets no undefined behaviour either and gives x in lowest terms, with a positive denominator if the policy returns lowest terms. With the least integer as a part the loop can be undefined.", "quantifier": "every fraction with parts other than the least integer, every signed representation, every policy for taking apart and every policy for putting together, every number of rounds", "why_tests_cant": "the number of rounds grows with the operands, every round feeds the representation left by the previous one (its signs and common factors) into the next operator, and absence of overflow must hold for all operands up to the ends of the range", "anchors": ["include/ieme/fraction_math.hpp: trunc, reciprocal", "include/ieme/fraction.hpp: operator-, operator+", "include/ieme/fraction_queries.hpp: is_zero"]}
{"id": "C123", "title": "Threads without data races do not disturb each other, whatever the schedule", "statement": "Let several threads run programs that assign to fractions, to their parts and to integers, through every operator, under any policy, and let no object that one of them can write be read or written by another. Then at every moment of every schedule a thread is where as many steps alone take it and finds in the objects it can touch what it would find there; a thread that has ended leaves in every object it can touch what it leaves there when it runs alone (under a policy that returns lowest terms, what exact arithmetic leaves); objects that no thread writes, such as shared constants, keep their contents; two schedules that end all threads leave the same memory; no schedule has undefined behaviour that no thread has alone; and a thread that ends alone ends in every schedule that gives it enough steps. An assignment to a fraction is not one step, though: a thread that reads a fraction while another assigns to it can find the new numerator over the old denominator.", "quantifier": "all numbers of threads, programs, policies, types, memories and schedules", "why_tests_cant": "Tests run some schedules of some programs; that no schedule matters is a statement about all of them.", "anchors": ["include/ieme/fraction.hpp: fraction::operator= and compound assignments", "include/ieme/raw_fraction.hpp: raw_fraction, copy assignment", "include/ieme/fraction.hpp: operators"]}
