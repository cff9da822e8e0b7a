{
 "claims": [
  {
   "property": "C01",
   "status": "proved",
   "theorems": [
    "C01_addition_exact"
   ],
   "note": ""
  },
  {
   "property": "C02",
   "status": "proved",
   "theorems": [
    "C02_subtraction_exact"
   ],
   "note": ""
  },
  {
   "property": "C03",
   "status": "proved",
   "theorems": [
    "C03_multiplication_exact"
   ],
   "note": ""
  },
  {
   "property": "C04",
   "status": "proved",
   "theorems": [
    "C04_division_exact",
    "C04_division_by_zero_total"
   ],
   "note": ""
  },
  {
   "property": "C05",
   "status": "proved",
   "theorems": [
    "C05_modulus_exact"
   ],
   "note": ""
  },
  {
   "property": "C06",
   "status": "proved",
   "theorems": [
    "C06_negation_exact",
    "C06_unary_operators"
   ],
   "note": ""
  },
  {
   "property": "C07",
   "status": "proved",
   "theorems": [
    "C07_total_in_bound",
    "C07_negate_total"
   ],
   "note": ""
  },
  {
   "property": "C08",
   "status": "proved",
   "theorems": [
    "C08_policies_agree"
   ],
   "note": ""
  },
  {
   "property": "C09",
   "status": "proved",
   "theorems": [
    "C09_canonical_results",
    "C09_canonical_negation"
   ],
   "note": ""
  },
  {
   "property": "C10",
   "status": "proved",
   "theorems": [
    "C10_plus_commutes",
    "C10_multiplies_commutes"
   ],
   "note": ""
  },
  {
   "property": "C11",
   "status": "proved",
   "theorems": [
    "C11_plus_assoc",
    "C11_multiplies_assoc",
    "C11_distributes",
    "C11_sub_add",
    "C11_div_mul",
    "C11_add_negation"
   ],
   "note": ""
  },
  {
   "property": "C12",
   "status": "proved",
   "theorems": [
    "C12_equality_exact",
    "C12_not_equal_is_negation",
    "C12_equality_total"
   ],
   "note": ""
  },
  {
   "property": "C13",
   "status": "partial",
   "theorems": [
    "C13_order_exact",
    "C13_fast_order_same_sign",
    "C13_fast_order_reversed",
    "C13_fast_order_refuted",
    "C13_order_total"
   ],
   "note": "Proved for every policy built on safe or normalising its inputs. For the others the exact behaviour is proved: right for denominators of equal sign, reversed otherwise (C13_fast_order_refuted)."
  },
  {
   "property": "C14",
   "status": "partial",
   "theorems": [
    "C14_order_positive",
    "C14_order_negative_reversed",
    "C14_order_normalising",
    "C14_order_refuted"
   ],
   "note": "False of the code for negative denominators (C14_order_refuted); the theorems give the exact behaviour for every policy."
  },
  {
   "property": "C15",
   "status": "partial",
   "theorems": [
    "C15_positive_denominators",
    "C15_strict_weak_ordering",
    "C15_undefined_refuted"
   ],
   "note": "Proved for policies built on safe or normalising their inputs, and for every policy on positive denominators; refuted for fast (C13_fast_order_refuted) and with an undefined fraction present."
  },
  {
   "property": "C16",
   "status": "proved",
   "theorems": [
    "C16_greater_is_swapped_less",
    "C16_greater_equal_is_swapped_less_equal",
    "C16_less_equal_is_less_or_equal",
    "C16_equal_symmetric",
    "C16_trichotomy"
   ],
   "note": ""
  },
  {
   "property": "C17",
   "status": "proved",
   "theorems": [
    "C17_undefined_unordered",
    "C17_undefined_total"
   ],
   "note": ""
  },
  {
   "property": "C18",
   "status": "partial",
   "theorems": [
    "C18_undefined_propagates_partial",
    "C18_defaults_mul_div",
    "C18_safe_undefined_traps",
    "C18_undefined_propagates_refuted"
   ],
   "note": "The statement is false of the code; see C18_undefined_propagates_refuted and C18_safe_undefined_traps for the exact failures, and the _partial theorem for what holds."
  },
  {
   "property": "C19",
   "status": "proved",
   "theorems": [
    "C19_reduce_value_and_form",
    "C19_reduce_idempotent",
    "C19_reduce_decides_equality",
    "C19_reduce_total",
    "C19_reduce_minimum_refuted"
   ],
   "note": ""
  },
  {
   "property": "C20",
   "status": "partial",
   "theorems": [
    "C20_is_reduced_partial",
    "C20_is_reduced_ignore_signs",
    "C20_is_reduced_decides",
    "C20_is_reduced_refuted"
   ],
   "note": "False for a positive numerator over a negative denominator (C20_is_reduced_refuted); C20_is_reduced_decides gives what is decided for every fraction."
  },
  {
   "property": "C21",
   "status": "proved",
   "theorems": [
    "C21_normalize_signs",
    "C21_normalize_signs_total"
   ],
   "note": ""
  },
  {
   "property": "C22",
   "status": "proved",
   "theorems": [
    "C22_sign_queries",
    "C22_exactly_one"
   ],
   "note": ""
  },
  {
   "property": "C23",
   "status": "proved",
   "theorems": [
    "C23_is_integer",
    "C23_is_unit_fraction",
    "C23_is_proper",
    "C23_is_improper",
    "C23_is_integer_total"
   ],
   "note": ""
  },
  {
   "property": "C24",
   "status": "proved",
   "theorems": [
    "C24_identical_iff",
    "C24_identical_equal",
    "C24_reduced_equal_identical"
   ],
   "note": ""
  },
  {
   "property": "C25",
   "status": "proved",
   "theorems": [
    "C25_reciprocal_involutive",
    "C25_reciprocal_inverts"
   ],
   "note": ""
  },
  {
   "property": "C26",
   "status": "proved",
   "theorems": [
    "C26_abs_exact",
    "C26_abs_total"
   ],
   "note": ""
  },
  {
   "property": "C27",
   "status": "proved",
   "theorems": [
    "C27_trunc_toward_zero",
    "C27_trunc_defined_iff",
    "C27_to_whole"
   ],
   "note": ""
  },
  {
   "property": "C28",
   "status": "partial",
   "theorems": [
    "C28_floor_partial",
    "C28_floor_defined_iff",
    "C28_floor_unsigned",
    "C28_floor_refuted"
   ],
   "note": "False on (-1,0), where floor is 0 (C28_floor_refuted); the _partial theorem gives the exact behaviour for every fraction. Exact for unsigned fractions."
  },
  {
   "property": "C29",
   "status": "partial",
   "theorems": [
    "C29_ceil_partial",
    "C29_ceil_defined_iff",
    "C29_ceil_unsigned",
    "C29_ceil_refuted"
   ],
   "note": "False on (-1,0), where ceil is 1 (C29_ceil_refuted); the _partial theorem gives the exact behaviour for every fraction. Exact for unsigned fractions."
  },
  {
   "property": "C30",
   "status": "partial",
   "theorems": [
    "C30_round_partial",
    "C30_round_total",
    "C30_round_refuted",
    "C30_fast_round_refuted",
    "C30_round_output_partial",
    "C30_round_reversed",
    "C30_round_integer"
   ],
   "note": "False on (-1,-1/2), where round is 0 (C30_round_refuted), and under fast with a negative denominator (C30_fast_round_refuted); the _partial theorems give the exact behaviour otherwise and C30_round_reversed what fast does then."
  },
  {
   "property": "C31",
   "status": "partial",
   "theorems": [
    "C31_trunc_redenominate",
    "C31_floor_redenominate_partial",
    "C31_ceil_redenominate_partial",
    "C31_round_redenominate_partial",
    "C31_redenominate_refuted"
   ],
   "note": "Full for trunc. False for the other modes when value*|d| is in (-1,0) (round: value*d in (-1,-1/2)), as C31_redenominate_refuted shows; the _partial theorems give the exact behaviour."
  },
  {
   "property": "C32",
   "status": "proved",
   "theorems": [
    "C32_pow_exact",
    "C32_pow_defined_iff",
    "C32_pow_unsigned",
    "C32_pow2_exact",
    "C32_pow2_out_of_range",
    "C32_int_min_exponent",
    "C32_pow2_sign_bit_refuted"
   ],
   "note": ""
  },
  {
   "property": "C33",
   "status": "proved",
   "theorems": [
    "C33_valid_iff_digit_sequence",
    "C33_signed_value",
    "C33_unsigned_value",
    "C33_value_bounds"
   ],
   "note": ""
  },
  {
   "property": "C34",
   "status": "proved",
   "theorems": [
    "C34_never_undefined",
    "C34_accepts_literals_only",
    "C34_accepts_every_literal",
    "C34_unambiguous",
    "C34_precision"
   ],
   "note": ""
  },
  {
   "property": "C35",
   "status": "partial",
   "theorems": [
    "C35_accepts_with_point_partial",
    "C35_pointless_rejected",
    "C35_all_literals_refuted"
   ],
   "note": "False: literals without a point are all rejected (C35_pointless_rejected, C35_all_literals_refuted); those with a point are all accepted."
  },
  {
   "property": "C36",
   "status": "proved",
   "theorems": [
    "C36_conversion_exact",
    "C36_rejected_is_undefined",
    "C36_value_unambiguous"
   ],
   "note": ""
  },
  {
   "property": "C37",
   "status": "partial",
   "theorems": [
    "C37_digits_total_partial",
    "C37_literal_total",
    "C37_representable_refuted"
   ],
   "note": "False: the power of the base past the last digit overflows first (C37_representable_refuted); defined exactly when it fits (C33_signed_value), and whole literals convert within the bound of C37_literal_total."
  },
  {
   "property": "C38",
   "status": "partial",
   "theorems": [
    "C38_float_exact",
    "C38_double_exact",
    "C38_float_total_partial",
    "C38_double_total_partial",
    "C38_float_significant_partial",
    "C38_double_significant_partial",
    "C38_float_defined_iff",
    "C38_double_defined_iff",
    "C38_zero_refuted",
    "C38_double_zero_refuted",
    "C38_representable_refuted"
   ],
   "note": "Exactness is full: whatever is returned, for any bit pattern and policy, is the value (C38_float_exact, C38_double_exact). Being defined for every representable value is false: zeros and subnormal numbers are undefined behaviour (C38_zero_refuted, C38_double_zero_refuted), as is 2^40+2^17 in 64 bits (C38_representable_refuted); C38_float_defined_iff and C38_double_defined_iff say exactly where it is defined for policies returning lowest terms; the _partial theorems give ranges for every policy."
  },
  {
   "property": "C39",
   "status": "partial",
   "theorems": [
    "C39_nan_partial",
    "C39_infinity_refuted"
   ],
   "note": "NaNs: full. Infinities: false, undefined behaviour under every policy (C39_infinity_refuted)."
  },
  {
   "property": "C40",
   "status": "proved",
   "theorems": [
    "C40_correctly_rounded",
    "C40_nearest",
    "C40_undefined_nan"
   ],
   "note": ""
  },
  {
   "property": "C41",
   "status": "proved",
   "theorems": [
    "C41_float_round_trip",
    "C41_double_round_trip",
    "C41_canonical_round_trip"
   ],
   "note": ""
  },
  {
   "property": "C42",
   "status": "proved",
   "theorems": [
    "C42_construction",
    "C42_total",
    "C42_unsigned_total",
    "C42_default"
   ],
   "note": ""
  },
  {
   "property": "C43",
   "status": "proved",
   "theorems": [
    "C43_from_fraction",
    "C43_from_other_policy",
    "C43_round_trip",
    "C43_as_fraction",
    "C43_total"
   ],
   "note": ""
  },
  {
   "property": "C44",
   "status": "proved",
   "theorems": [
    "C44_expressions_exact",
    "C44_value_determines"
   ],
   "note": ""
  },
  {
   "property": "C45",
   "status": "partial",
   "theorems": [
    "C45_undefined_refuted",
    "C45_never_undefined"
   ],
   "note": "False of the code, for every policy, type and undefined fraction: the division by zero in trunc is reached (C45_undefined_refuted). C45_never_undefined is the consequence."
  },
  {
   "property": "C46",
   "status": "partial",
   "theorems": [
    "C46_canonical_consistent_partial",
    "C46_reduced_consistent_partial",
    "C46_hash_refuted",
    "C46_any_injective_hash_refuted"
   ],
   "note": "False of the code for every hash that tells 1 from 4 (C46_any_injective_hash_refuted); holds between canonical fractions and after reduce."
  },
  {
   "property": "C47",
   "status": "proved",
   "theorems": [
    "C47_round_trip",
    "C47_sequence_round_trip",
    "C47_written_form",
    "C47_injective"
   ],
   "note": ""
  },
  {
   "property": "C48",
   "status": "proved",
   "theorems": [
    "C48_accepts",
    "C48_only_accepts",
    "C48_fails_iff",
    "C48_unambiguous",
    "C48_no_slash_overwrites",
    "C48_failure",
    "C48_eof",
    "C48_bad_stream"
   ],
   "note": ""
  },
  {
   "property": "C49",
   "status": "partial",
   "theorems": [
    "C49_min_bounds",
    "C49_max_bounds_partial",
    "C49_smallest_partial",
    "C49_limits_are_values",
    "C49_max_refuted",
    "C49_smallest_refuted",
    "C49_operators_agree",
    "C49_numeric_limits_partial"
   ],
   "note": "min holds; max and smallest are false for signed representations (C49_max_refuted, C49_smallest_refuted), by exactly one fraction each: min/-1 and -1/min."
  },
  {
   "property": "C50",
   "status": "partial",
   "theorems": [
    "C50_epsilon_signed_partial",
    "C50_epsilon_unsigned_refuted"
   ],
   "note": "Exact for signed representations; false for unsigned ones (C50_epsilon_unsigned_refuted, which gives the exact gap)."
  },
  {
   "property": "C51",
   "status": "partial",
   "theorems": [
    "C51_computes_in_common_type",
    "C51_compares_in_common_type",
    "C51_mixed_exact",
    "C51_mixed_equality_exact",
    "C51_unsigned_refuted"
   ],
   "note": "Refuted when the common type is unsigned and a part is negative (C51_unsigned_refuted); proved otherwise."
  },
  {
   "property": "C52",
   "status": "proved",
   "theorems": [
    "C52_assignment_sequence_exact",
    "C52_assignment_sequence_undefined",
    "C52_assignment_sequence_canonical",
    "C52_assignment_is_operator"
   ],
   "note": ""
  },
  {
   "property": "C53",
   "status": "proved",
   "theorems": [
    "C53_quotient",
    "C53_negated",
    "C53_double_negated",
    "C53_fraction_over_literal",
    "C53_chain_exact",
    "C53_too_large_refuted",
    "C53_negate_min_undefined"
   ],
   "note": ""
  },
  {
   "property": "C54",
   "status": "partial",
   "theorems": [
    "C54_conversion_exact_partial",
    "C54_wide_conversion_exact",
    "C54_conversion_total",
    "C54_to_fractional_keeps_count",
    "C54_clock_now",
    "C54_narrow_refuted"
   ],
   "note": "Full for signed representations of at least 64 bits, and wherever the conversion factor fits. False for narrower ones, where the factor is converted modulo 2^32 (C54_narrow_refuted)."
  },
  {
   "property": "C55",
   "status": "proved",
   "theorems": [
    "C55_expression_exact",
    "C55_expression_exact_any_policy",
    "C55_expression_canonical",
    "C55_expression_total"
   ],
   "note": ""
  },
  {
   "property": "C56",
   "status": "partial",
   "theorems": [
    "C56_safe_dominates_fast",
    "C56_safe_strictly_better",
    "C56_dominates_refuted"
   ],
   "note": "Proved for arithmetic with positive denominators; refuted without them and for comparisons."
  },
  {
   "property": "C57",
   "status": "proved",
   "theorems": [
    "C57_reduced_input_no_new_overflow",
    "C57_reduced_input_cmp",
    "C57_minimum_refuted"
   ],
   "note": ""
  },
  {
   "property": "C58",
   "status": "proved",
   "theorems": [
    "C58_conversion_lossless_iff",
    "C58_conversion_modular",
    "C58_widening",
    "C58_integer_and_default",
    "C58_raw_default",
    "C58_ratio"
   ],
   "note": ""
  },
  {
   "property": "C59",
   "status": "partial",
   "theorems": [
    "C59_byte_order_refuted",
    "C59_bits_partial",
    "C59_big_endian"
   ],
   "note": "False (C59_byte_order_refuted): the bits reach the function in the same order on both targets (C59_bits_partial), but the big-endian offsets are those of a reversed word; what a big-endian target converts instead is proved (C59_big_endian)."
  },
  {
   "property": "C60",
   "status": "proved",
   "theorems": [
    "C60_construction",
    "C60_from_fraction",
    "C60_narrow_whole_refuted",
    "C60_unsigned_fraction_refuted"
   ],
   "note": ""
  },
  {
   "property": "C61",
   "status": "proved",
   "theorems": [
    "C61_dec_exact",
    "C61_dec_throws"
   ],
   "note": ""
  },
  {
   "property": "C62",
   "status": "proved",
   "theorems": [
    "C62_mixed_hash",
    "C62_computed_hash"
   ],
   "note": ""
  },
  {
   "property": "C63",
   "status": "proved",
   "theorems": [
    "C63_sum_exact",
    "C63_less_exact",
    "C63_less_equal_exact",
    "C63_equal_exact",
    "C63_undefined_less_equal_refuted",
    "C63_time_points"
   ],
   "note": "C63_undefined_less_equal_refuted records that <= on an undefined duration is true, unlike <= on undefined fractions."
  },
  {
   "property": "C64",
   "status": "proved",
   "theorems": [
    "C64_fractions",
    "C64_fraction_integer",
    "C64_integer_fraction",
    "C64_comparisons",
    "C64_integer_comparisons"
   ],
   "note": ""
  },
  {
   "property": "C65",
   "status": "proved",
   "theorems": [
    "C65_relative_error",
    "C65_minimum_refuted"
   ],
   "note": "C65_minimum_refuted records that a part equal to the minimum value is undefined behaviour."
  },
  {
   "property": "C66",
   "status": "proved",
   "theorems": [
    "C66_simulation",
    "C66_still_running",
    "C66_policies_agree"
   ],
   "note": ""
  },
  {
   "property": "C67",
   "status": "proved",
   "theorems": [
    "C67_total",
    "C67_sum_program"
   ],
   "note": ""
  },
  {
   "property": "C68",
   "status": "proved",
   "theorems": [
    "C68_same_as_signed",
    "C68_compares_as_signed",
    "C68_exact",
    "C68_comparisons",
    "C68_expressions",
    "C68_expressions_as_signed",
    "C68_unconditional_refuted"
   ],
   "note": "C68_unconditional_refuted records that both conditions are needed: 1/3 - 1/2 and 65536 * 65537 in 32 bits are silently wrong."
  },
  {
   "property": "C69",
   "status": "proved",
   "theorems": [
    "C69_any_bracketing",
    "C69_accumulate",
    "C69_same_rational",
    "C69_unreduced_refuted"
   ],
   "note": "C69_unreduced_refuted records that a policy returning lowest terms is needed."
  },
  {
   "property": "C70",
   "status": "proved",
   "theorems": [
    "C70_sum",
    "C70_difference",
    "C70_accumulate",
    "C70_comparisons",
    "C70_fast_refuted"
   ],
   "note": "C70_fast_refuted records that fast overflows on such operands."
  },
  {
   "property": "C71",
   "status": "proved",
   "theorems": [
    "C71_compare",
    "C71_add_keeps_order",
    "C71_multiply_keeps_order",
    "C71_negate_reverses_order",
    "C71_halfway_between"
   ],
   "note": ""
  },
  {
   "property": "C72",
   "status": "proved",
   "theorems": [
    "C72_monotone",
    "C72_monotone_refuted",
    "C72_monotone_double_refuted",
    "C72_sign",
    "C72_opposite"
   ],
   "note": "C72_monotone_refuted and C72_monotone_double_refuted record that the order can be reversed when the parts themselves are rounded."
  },
  {
   "property": "C73",
   "status": "proved",
   "theorems": [
    "C73_compare",
    "C73_int32_long_double",
    "C73_int32_double_refuted"
   ],
   "note": "C73_int32_double_refuted records a collision beyond the bound."
  },
  {
   "property": "C74",
   "status": "proved",
   "theorems": [
    "C74_round_trip"
   ],
   "note": ""
  },
  {
   "property": "C75",
   "status": "proved",
   "theorems": [
    "C75_scale_exact",
    "C75_scale_seconds",
    "C75_ratio_exact",
    "C75_remainder_exact",
    "C75_divide_multiply",
    "C75_assign_exact",
    "C75_abs_exact",
    "C75_floor_exact",
    "C75_negate_exact"
   ],
   "note": ""
  },
  {
   "property": "C76",
   "status": "partial",
   "theorems": [
    "C76_is_signed",
    "C76_digits",
    "C76_digits10",
    "C76_is_bounded",
    "C76_quiet_NaN",
    "C76_is_exact",
    "C76_is_modulo_refuted",
    "C76_max_digits10_refuted",
    "C76_traps_refuted",
    "C76_is_integer",
    "C76_constants"
   ],
   "note": "is_modulo, traps and max_digits10 are false of the code: C76_is_modulo_refuted, C76_traps_refuted, C76_max_digits10_refuted. The other members are as stated."
  },
  {
   "property": "C77",
   "status": "proved",
   "theorems": [
    "C77_simulation",
    "C77_still_running",
    "C77_policies_agree",
    "C77_faithful_policies",
    "C77_named_policies"
   ],
   "note": "C77_faithful_policies characterises the policies; those of the library that do not reduce outputs are not faithful for all programs."
  },
  {
   "property": "C78",
   "status": "proved",
   "theorems": [
    "C78_total",
    "C78_unreduced_refuted"
   ],
   "note": "C78_unreduced_refuted records that safe and fast alone overflow on such a program."
  },
  {
   "property": "C79",
   "status": "proved",
   "theorems": [
    "C79_total",
    "C79_unsigned_refuted"
   ],
   "note": "C79_unsigned_refuted records two programs outside the condition, 1/2 - 1 and -1 < 1U, that end with a wrong value."
  },
  {
   "property": "C80",
   "status": "proved",
   "theorems": [
    "C80_float_as_signed",
    "C80_double_as_signed",
    "C80_float_total",
    "C80_double_total",
    "C80_float_significant",
    "C80_negative_refuted",
    "C80_overflow_refuted"
   ],
   "note": "C80_negative_refuted and C80_overflow_refuted record what happens to other numbers."
  },
  {
   "property": "C81",
   "status": "proved",
   "theorems": [
    "C81_arith_by_value",
    "C81_least_integer_refuted",
    "C81_cmp_by_value",
    "C81_fast_refuted"
   ],
   "note": "C81_least_integer_refuted records that the minimum value must be excluded, C81_fast_refuted that fast_reduced_io differs."
  },
  {
   "property": "C82",
   "status": "proved",
   "theorems": [
    "C82_arith_defined_iff",
    "C82_wider_still_defined",
    "C82_wider_cmp_still_defined",
    "C82_arith_int_defined_iff",
    "C82_int_arith_defined_iff",
    "C82_cmp_defined_iff",
    "C82_cmp_int_defined_iff",
    "C82_int_cmp_defined_iff"
   ],
   "note": ""
  },
  {
   "property": "C83",
   "status": "proved",
   "theorems": [
    "C83_round_defined_iff",
    "C83_redenominate_defined_iff"
   ],
   "note": ""
  },
  {
   "property": "C84",
   "status": "proved",
   "theorems": [
    "C84_total",
    "C84_unreduced_refuted"
   ],
   "note": "C84_unreduced_refuted records that a policy returning lowest terms is needed."
  },
  {
   "property": "C85",
   "status": "proved",
   "theorems": [
    "C85_conversion_defined_iff",
    "C85_common_period",
    "C85_arith_defined_iff",
    "C85_cmp_defined_iff",
    "C85_integers_total"
   ],
   "note": ""
  },
  {
   "property": "C86",
   "status": "partial",
   "theorems": [
    "C86_zero_neutral",
    "C86_zero_sign",
    "C86_bounds",
    "C86_max_defined_iff",
    "C86_min_undefined",
    "C86_limits_refuted"
   ],
   "note": "Zero: full. min and max: no comparison that is defined puts a duration outside them (except a count of min/-1), but under the default policy comparisons with max are undefined behaviour for every count that is not whole (C86_max_defined_iff, C86_limits_refuted) and with min always (C86_min_undefined)."
  },
  {
   "property": "C87",
   "status": "proved",
   "theorems": [
    "C87_fast_arith_defined_iff",
    "C87_fast_arith_int_defined_iff",
    "C87_fast_cmp_defined_iff",
    "C87_fast_cmp_int_defined_iff",
    "C87_safe_replaces_fast",
    "C87_safe_replaces_fast_expressions",
    "C87_neither_contains_refuted",
    "C87_same_domain"
   ],
   "note": "C87_neither_contains_refuted records operands that only one of the two policies handles."
  },
  {
   "property": "C88",
   "status": "proved",
   "theorems": [
    "C88_decides",
    "C88_sorts",
    "C88_total",
    "C88_total_default",
    "C88_insertion_sort",
    "C88_lower_bound",
    "C88_undefined_refuted",
    "C88_fast_refuted"
   ],
   "note": "C88_undefined_refuted and C88_fast_refuted record that undefined fractions and, under fast, negative denominators must be excluded."
  },
  {
   "property": "C89",
   "status": "proved",
   "theorems": [
    "C89_reduce_defined_iff",
    "C89_normalize_signs_defined_iff",
    "C89_queries_defined_iff",
    "C89_negate_defined_iff",
    "C89_abs_defined_iff"
   ],
   "note": "Signed representations; unsigned ones cannot hold a negative part."
  },
  {
   "property": "C90",
   "status": "proved",
   "theorems": [
    "C90_literal_defined_iff",
    "C90_dec_defined_iff",
    "C90_wider_still_defined"
   ],
   "note": ""
  },
  {
   "property": "C91",
   "status": "proved",
   "theorems": [
    "C91_make_defined_iff",
    "C91_of_fraction_defined_iff",
    "C91_as_fraction_defined_iff",
    "C91_expression_defined_iff"
   ],
   "note": ""
  },
  {
   "property": "C92",
   "status": "proved",
   "theorems": [
    "C92_arith",
    "C92_comparison",
    "C92_unary",
    "C92_queries",
    "C92_to_whole",
    "C92_redenominate",
    "C92_pow",
    "C92_pow2_refuted",
    "C92_unsigned_refuted",
    "C92_expression",
    "C92_literal",
    "C92_mixed",
    "C92_mixed_to_fraction",
    "C92_duration_cast",
    "C92_duration_arith",
    "C92_duration_comparison",
    "C92_duration_rounding",
    "C92_program",
    "C92_narrowing_refuted"
   ],
   "note": "pow2, unsigned representations and narrowing assignments are refuted with witnesses."
  },
  {
   "property": "C93",
   "status": "proved",
   "theorems": [
    "C93_expression",
    "C93_condition",
    "C93_program",
    "C93_operator"
   ],
   "note": ""
  },
  {
   "property": "C94",
   "status": "proved",
   "theorems": [
    "C94_accepts",
    "C94_round_trip",
    "C94_negative_refuted",
    "C94_width",
    "C94_setw_refuted",
    "C94_fill_refuted",
    "C94_other_base_refuted",
    "C94_default"
   ],
   "note": "C94_negative_refuted, C94_setw_refuted, C94_fill_refuted and C94_other_base_refuted record where a fraction is not read back or not padded as a whole."
  },
  {
   "property": "C95",
   "status": "proved",
   "theorems": [
    "C95_reduce_named",
    "C95_reduce_other",
    "C95_reduce_refuted",
    "C95_to_whole",
    "C95_redenominate"
   ],
   "note": "C95_reduce_refuted records that an unlisted mode loses the value."
  },
  {
   "property": "C96",
   "status": "proved",
   "theorems": [
    "C96_ends",
    "C96_result",
    "C96_defined"
   ],
   "note": ""
  },
  {
   "property": "C97",
   "status": "proved",
   "theorems": [
    "C97_collapse",
    "C97_same",
    "C97_eighteen",
    "C97_programs"
   ],
   "note": ""
  },
  {
   "property": "C98",
   "status": "proved",
   "theorems": [
    "C98_operators",
    "C98_programs",
    "C98_named",
    "C98_keeping_refuted",
    "C98_unreduced_refuted"
   ],
   "note": ""
  },
  {
   "property": "C99",
   "status": "proved",
   "theorems": [
    "C99_literal_rounded",
    "C99_literal_nearest",
    "C99_dec_rounded",
    "C99_dec_error",
    "C99_long_refuted"
   ],
   "note": "longer literals need not be nearest: 1.0000000000000003_dec is a counterexample"
  },
  {
   "property": "C100",
   "status": "proved",
   "theorems": [
    "C100_fraction_hash",
    "C100_mixed_hash",
    "C100_one_collision"
   ],
   "note": ""
  },
  {
   "property": "C101",
   "status": "proved",
   "theorems": [
    "C101_operators",
    "C101_comparisons",
    "C101_sum_exact",
    "C101_difference_exact",
    "C101_scale_exact",
    "C101_comparisons_exact",
    "C101_equality",
    "C101_equal_refuted",
    "C101_order_refuted",
    "C101_product_needs_fit_refuted"
   ],
   "note": "Exactness is an equivalence for sums, differences and multiplication by an integer; for products of two fractions the fitting condition is shown not to be necessary. Different fractions comparing equal and a larger one comparing less are findings."
  },
  {
   "property": "C102",
   "status": "proved",
   "theorems": [
    "C102_dyadic_rounded",
    "C102_polynomials",
    "C102_sum",
    "C102_programs"
   ],
   "note": ""
  },
  {
   "property": "C103",
   "status": "proved",
   "theorems": [
    "C103_exact",
    "C103_order",
    "C103_sum",
    "C103_ticks",
    "C103_total",
    "C103_clock"
   ],
   "note": ""
  },
  {
   "property": "C104",
   "status": "proved",
   "theorems": [
    "C104_arith",
    "C104_cmp",
    "C104_negate",
    "C104_reduce",
    "C104_integers",
    "C104_integer_as_fraction"
   ],
   "note": ""
  },
  {
   "property": "C105",
   "status": "proved",
   "theorems": [
    "C105_set",
    "C105_iterate",
    "C105_defined",
    "C105_unreduced_refuted",
    "C105_undefined"
   ],
   "note": "The full claim for keys of any form is false of the code (C105_unreduced_refuted, C105_undefined); proved for keys in lowest terms"
  },
  {
   "property": "C106",
   "status": "proved",
   "theorems": [
    "C106_accepts",
    "C106_round_trip",
    "C106_noskipws",
    "C106_zeros_refuted",
    "C106_no_showbase_refuted",
    "C106_one_base"
   ],
   "note": "The silent misreadings are stated as C106_zeros_refuted and C106_no_showbase_refuted"
  },
  {
   "property": "C107",
   "status": "proved",
   "theorems": [
    "C107_whole",
    "C107_round",
    "C107_round_nearest",
    "C107_fast_round_refuted",
    "C107_redenominate",
    "C107_redenominate_exact",
    "C107_redenominate_refuted"
   ],
   "note": "Also states where round under fast and redenominate are silently wrong (C107_fast_round_refuted, C107_redenominate_refuted)"
  },
  {
   "property": "C108",
   "status": "proved",
   "theorems": [
    "C108_mixed_exact",
    "C108_mixed_compare",
    "C108_mixed_total",
    "C108_mixed_compare_total",
    "C108_mixed_shorts_refuted",
    "C108_fast_total",
    "C108_unsigned_short_refuted",
    "C108_safe_exactly",
    "C108_safe_integer",
    "C108_whole",
    "C108_whole_least",
    "C108_queries",
    "C108_proper",
    "C108_proper_refuted",
    "C108_signs",
    "C108_signs_refuted",
    "C108_pow2",
    "C108_pow2_refuted"
   ],
   "note": "Where a result does not fit in the type the refuted theorems show the wrong value that is returned."
  },
  {
   "property": "C109",
   "status": "proved",
   "theorems": [
    "C109_expression",
    "C109_program",
    "C109_impossible",
    "C109_same"
   ],
   "note": ""
  },
  {
   "property": "C110",
   "status": "proved",
   "theorems": [
    "C110_same",
    "C110_returns_iff",
    "C110_accepts",
    "C110_malformed_refuted",
    "C110_eof_refuted",
    "C110_sequence",
    "C110_one_more_refuted",
    "C110_room",
    "C110_prefix",
    "C110_full_state",
    "C110_failed_stream",
    "C110_full_refuted",
    "C110_writing_returns",
    "C110_truncated_refuted"
   ],
   "note": ""
  },
  {
   "property": "C111",
   "status": "proved",
   "theorems": [
    "C111_written_form",
    "C111_injective",
    "C111_accepts",
    "C111_only_accepts",
    "C111_round_trip_iff",
    "C111_numerator_refuted",
    "C111_denominator_refuted",
    "C111_decimal_refuted"
   ],
   "note": ""
  },
  {
   "property": "C112",
   "status": "proved",
   "theorems": [
    "C112_as_signed",
    "C112_as_fraction",
    "C112_total",
    "C112_never_negative",
    "C112_negate_refuted",
    "C112_wraps_refuted"
   ],
   "note": "Negation and sums out of range are false of the code for unsigned types and proved so (C112_negate_refuted, C112_wraps_refuted)."
  },
  {
   "property": "C113",
   "status": "proved",
   "theorems": [
    "C113_type",
    "C113_type_order",
    "C113_order",
    "C113_convert_first",
    "C113_signed",
    "C113_unsigned_refuted",
    "C113_convert_refuted"
   ],
   "note": "The reverse of converting first and independence of bracketing with unsigned types are false of the code and refuted (C113_convert_refuted, C113_unsigned_refuted)."
  },
  {
   "property": "C114",
   "status": "proved",
   "theorems": [
    "C114_monotone",
    "C114_ceil_order",
    "C114_whole",
    "C114_near",
    "C114_opposite",
    "C114_shift",
    "C114_again",
    "C114_redenominate_monotone",
    "C114_through_finer",
    "C114_floor_through_finer"
   ],
   "note": ""
  },
  {
   "property": "C115",
   "status": "proved",
   "theorems": [
    "C115_round_trip",
    "C115_injective",
    "C115_written_form",
    "C115_accepts",
    "C115_only_accepts",
    "C115_plain",
    "C115_classic",
    "C115_read_elsewhere",
    "C115_elsewhere_refuted"
   ],
   "note": ""
  },
  {
   "property": "C116",
   "status": "proved",
   "theorems": [
    "C116_order",
    "C116_step",
    "C116_progress",
    "C116_pure",
    "C116_compound",
    "C116_compound_int",
    "C116_assign",
    "C116_shared",
    "C116_chain",
    "C116_int_differs",
    "C116_order_refuted"
   ],
   "note": ""
  },
  {
   "property": "C117",
   "status": "proved",
   "theorems": [
    "C117_fractions",
    "C117_numbers",
    "C117_policies",
    "C117_assign",
    "C117_assign_policies",
    "C117_integers_policies",
    "C117_integers",
    "C117_mixed",
    "C117_mixed_policies",
    "C117_mixed_only_plus",
    "C117_unambiguous",
    "C117_constructors"
   ],
   "note": "For any std::common_type and std::is_convertible; the _integers theorems instantiate them as the library does. Bodies of the chosen functions are the subject of the other claims."
  },
  {
   "property": "C118",
   "status": "proved",
   "theorems": [
    "C118_types",
    "C118_sound",
    "C118_quotient",
    "C118_negated",
    "C118_exact",
    "C118_policies",
    "C118_policies_why",
    "C118_chain",
    "C118_literal_over_literal",
    "C118_own_policy",
    "C118_lowest_terms"
   ],
   "note": "2_fr / 3_fr is not rejected, but has the type of a fraction of literals (C118_literal_over_literal)."
  },
  {
   "property": "C119",
   "status": "proved",
   "theorems": [
    "C119_named",
    "C119_spelled",
    "C119_undefined",
    "C119_never_wrong",
    "C119_output",
    "C119_input_traps",
    "C119_input_compares",
    "C119_output_compares",
    "C119_negates",
    "C119_negates_undefined",
    "C119_refuted"
   ],
   "note": "The values of reduce_mode are modelled as all integers; the type has the values of int."
  },
  {
   "property": "C120",
   "status": "proved",
   "theorems": [
    "C120_parts",
    "C120_lowest_terms",
    "C120_reciprocal",
    "C120_pow2",
    "C120_product",
    "C120_in_range",
    "C120_product_identical",
    "C120_product_defined",
    "C120_monotone",
    "C120_negative_base",
    "C120_refuted"
   ],
   "note": ""
  },
  {
   "property": "C121",
   "status": "proved",
   "theorems": [
    "C121_exact",
    "C121_still_running",
    "C121_policies_agree",
    "C121_frame",
    "C121_alias_part",
    "C121_alias_self",
    "C121_halving",
    "C121_narrowing",
    "C121_narrowing_update",
    "C121_narrowing_raw",
    "C121_negative_den_refuted"
   ],
   "note": ""
  },
  {
   "property": "C122",
   "status": "proved",
   "theorems": [
    "C122_total",
    "C122_only",
    "C122_value",
    "C122_same_iff",
    "C122_rebuild",
    "C122_round_trip",
    "C122_least_refuted"
   ],
   "note": "The least integer is refuted (C122_least_refuted)."
  },
  {
   "property": "C123",
   "status": "proved",
   "theorems": [
    "C123_isolated",
    "C123_every_moment",
    "C123_alone",
    "C123_exact",
    "C123_untouched",
    "C123_deterministic",
    "C123_undefined",
    "C123_progress",
    "C123_torn_refuted"
   ],
   "note": "race freedom is of what programs can read and write, whatever the path taken; loads of one evaluation are one step"
  }
 ]
}