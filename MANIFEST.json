{
 "claims": [
  {
   "property": "C01",
   "status": "proved",
   "theorems": [
    "C01_denotes",
    "C01_outcome",
    "C01_total"
   ],
   "note": ""
  },
  {
   "property": "C02",
   "status": "proved",
   "theorems": [
    "C02_lowest"
   ],
   "note": ""
  },
  {
   "property": "C03",
   "status": "proved",
   "theorems": [
    "C03_equality",
    "C03_canonical_refuted"
   ],
   "note": "Exact characterisation of ==; canonicity itself is refuted by C03_canonical_refuted (2/5 vs 4*10^-1)."
  },
  {
   "property": "C04",
   "status": "proved",
   "theorems": [
    "C04_exact",
    "C04_accepts"
   ],
   "note": ""
  },
  {
   "property": "C05",
   "status": "proved",
   "theorems": [
    "C05_inverse",
    "C05_inverse_defined",
    "C05_inverse_involutive",
    "C05_division",
    "C05_division_by_zero",
    "C05_self_quotient"
   ],
   "note": ""
  },
  {
   "property": "C06",
   "status": "proved",
   "theorems": [
    "C06_commutative",
    "C06_identity",
    "C06_associative_in_value",
    "C06_associative_refuted"
   ],
   "note": "Structural associativity is refuted with a witness; associativity holds in value."
  },
  {
   "property": "C07",
   "status": "proved",
   "theorems": [
    "C07_exact",
    "C07_accepts",
    "C07_refuses",
    "C07_guard_overflow_refuted",
    "C07_refusal_kind"
   ],
   "note": "Acceptance is an iff; the guard can itself overflow (undefined behaviour) instead of reporting a contract violation, witness C07_guard_overflow_refuted."
  },
  {
   "property": "C08",
   "status": "proved",
   "theorems": [
    "C08_mulmod",
    "C08_modpow",
    "C08_zero_modulus",
    "C08_modulus_one_refuted"
   ],
   "note": "modpow(a,0,1) is 1 rather than 0 (C08_modulus_one_refuted)."
  },
  {
   "property": "C09",
   "status": "proved",
   "theorems": [
    "C09_gcdpow"
   ],
   "note": ""
  },
  {
   "property": "C10",
   "status": "proved",
   "theorems": [
    "C10_is_integral",
    "C10_nonpositive_refuted"
   ],
   "note": "Iff for positive ratios; for non-positive ones the function violates its own contract (C10_nonpositive_refuted)."
  },
  {
   "property": "C11",
   "status": "proved",
   "theorems": [
    "C11_greatest",
    "C11_unique",
    "C11_accepts"
   ],
   "note": ""
  },
  {
   "property": "C12",
   "status": "proved",
   "theorems": [
    "C12_symmetric",
    "C12_idempotent",
    "C12_associative_in_value"
   ],
   "note": ""
  },
  {
   "property": "C13",
   "status": "proved",
   "theorems": [
    "C13_template",
    "C13_template_defined",
    "C13_power",
    "C13_power_defined"
   ],
   "note": ""
  },
  {
   "property": "C14",
   "status": "proved",
   "theorems": [
    "C14_exact_root",
    "C14_rounding",
    "C14_silent_rounding_refuted",
    "C14_odd_exponent_refuted"
   ],
   "note": "Exactness for exact powers with aligned exponent, for any usable estimate; silent rounding in both directions and for odd powers of ten is refuted by witnesses."
  },
  {
   "property": "C15",
   "status": "proved",
   "theorems": [
    "C15_runtime_sqrt",
    "C15_runtime_overflow_refuted",
    "C15_near_estimate"
   ],
   "note": "Any estimate within one of the true root, all degrees; the run-time double square root for all operands below 3037000498^2, witness of the overflow above. std::cbrt and std::pow stay arguments (their accuracy is not fixed by the standard)."
  },
  {
   "property": "C16",
   "status": "proved",
   "theorems": [
    "C16_fpow10_exact",
    "C16_fpow10_accuracy",
    "C16_fpow10_double",
    "C16_fpow10_saturates",
    "C16_ipow10"
   ],
   "note": "ipow10 for all exponents; fpow10 exact range, relative error and saturation for float, double and x87 long double."
  },
  {
   "property": "C17",
   "status": "proved",
   "theorems": [
    "C17_parts",
    "C17_dimension",
    "C17_dimension_number",
    "C17_truncates",
    "C17_value",
    "C17_every_defined_result",
    "C17_overflow_is_undefined",
    "C17_unsigned_overflow_refuted",
    "C17_unknown_reference_refuted"
   ],
   "note": "Truncation whenever the products fit, for all integer types; definedness implies it unless a type is uint64. Two witnesses: uint64 wraps, unknown dimensions share a reference."
  },
  {
   "property": "C18",
   "status": "proved",
   "theorems": [
    "C18_error_and_direction",
    "C18_monotone"
   ],
   "note": ""
  },
  {
   "property": "C19",
   "status": "proved",
   "theorems": [
    "C19_exact_and_back"
   ],
   "note": ""
  },
  {
   "property": "C20",
   "status": "proved",
   "theorems": [
    "C20_exists_iff",
    "C20_lossless",
    "C20_int64",
    "C20_narrowing_refuted"
   ],
   "note": "Iff for existence; losslessness when products and value fit, automatic for int64. Narrowing is refuted by a witness."
  },
  {
   "property": "C21",
   "status": "proved",
   "theorems": [
    "C21_refining",
    "C21_coarsening",
    "C21_mixed_refuted"
   ],
   "note": "Refining and coarsening chains of any length; mixed chains refuted."
  },
  {
   "property": "C22",
   "status": "proved",
   "theorems": [
    "C22_accuracy",
    "C22_narrowing",
    "C22_to_integer",
    "C22_identity",
    "C22_exact",
    "C22_monotone",
    "C22_round_trip",
    "C22_underflow_refuted"
   ],
   "note": "float, double and x87 long double; classical gamma bounds; exactness, monotonicity, round trip, identity; underflow of the factor refuted by a witness."
  },
  {
   "property": "C23",
   "status": "proved",
   "theorems": [
    "C23_equal_iff_same_value",
    "C23_int64",
    "C23_defined",
    "C23_narrow_refuted",
    "C23_unknown_reference_refuted"
   ],
   "note": "All integer types when the conversions to the common type do not overflow, automatic for int64; int32 wrap and unknown dimensions refuted by witnesses."
  },
  {
   "property": "C24",
   "status": "proved",
   "theorems": [
    "C24_order_of_values",
    "C24_int64",
    "C24_total_order"
   ],
   "note": ""
  },
  {
   "property": "C25",
   "status": "proved",
   "theorems": [
    "C25_plain_number",
    "C25_plain_number_only_one",
    "C25_exact",
    "C25_int64",
    "C25_commutative",
    "C25_associative"
   ],
   "note": "Exactness for all integer types; commutativity and associativity for int64 quantities of one dimension."
  },
  {
   "property": "C26",
   "status": "proved",
   "theorems": [
    "C26_coarsest_common_divisor",
    "C26_symmetric"
   ],
   "note": ""
  },
  {
   "property": "C27",
   "status": "proved",
   "theorems": [
    "C27_equivalent_dimensions",
    "C27_coherent_ratio_refuted"
   ],
   "note": "Under the condition compatible; the case of a coherent unit with another ratio is refuted by a witness."
  },
  {
   "property": "C28",
   "status": "proved",
   "theorems": [
    "C28_product",
    "C28_quotient"
   ],
   "note": ""
  },
  {
   "property": "C29",
   "status": "proved",
   "theorems": [
    "C29_reciprocal_iff",
    "C29_kilogram_refuted"
   ],
   "note": "Exact condition (iff); the kilogram is the witness."
  },
  {
   "property": "C30",
   "status": "proved",
   "theorems": [
    "C30_scales",
    "C30_value",
    "C30_quotient_value",
    "C30_back",
    "C30_commutes"
   ],
   "note": ""
  },
  {
   "property": "C31",
   "status": "proved",
   "theorems": [
    "C31_operands",
    "C31_remainder_by_number",
    "C31_same_unit",
    "C31_different_units_refuted",
    "C31_recovered",
    "C31_recovered_number"
   ],
   "note": "Recovery of the dividend for operands of any units in one system (signed 64-bit); bound and sign for units of equal magnitude; that the remainder across units is not the physical one is a witness."
  },
  {
   "property": "C32",
   "status": "proved",
   "theorems": [
    "C32_plain_numbers",
    "C32_physical_values",
    "C32_negation",
    "C32_floating_factor_refuted"
   ],
   "note": "Plain-number agreement for all representations; physical values for integral ones."
  },
  {
   "property": "C33",
   "status": "proved",
   "theorems": [
    "C33_floating_bounds",
    "C33_floating_constants",
    "C33_zero_identity",
    "C33_bounds",
    "C33_bounds_other_unit"
   ],
   "note": ""
  },
  {
   "property": "C34",
   "status": "proved",
   "theorems": [
    "C34_exact",
    "C34_result_type",
    "C34_negative_to_unsigned_refuted"
   ],
   "note": ""
  },
  {
   "property": "C35",
   "status": "proved",
   "theorems": [
    "C35_order_and_grouping",
    "C35_same_exponents_same_type"
   ],
   "note": "Both groupings are assumed to be representable; C36_defined gives a sufficient condition."
  },
  {
   "property": "C36",
   "status": "proved",
   "theorems": [
    "C36_exponents_add",
    "C36_defined",
    "C36_product_defined"
   ],
   "note": ""
  },
  {
   "property": "C37",
   "status": "proved",
   "theorems": [
    "C37_make_dimension",
    "C37_normal_form_unique"
   ],
   "note": ""
  },
  {
   "property": "C38",
   "status": "proved",
   "theorems": [
    "C38_same_symbol_refuted",
    "C38_catalogue_refuted"
   ],
   "note": "Witness theorem: operand order changes the type and a base dimension occurs twice. C38_catalogue_refuted: storage capacity has the symbol of mass, traffic intensity that of angle."
  },
  {
   "property": "C39",
   "status": "proved",
   "theorems": [
    "C39_divide_self",
    "C39_neutral",
    "C39_double_inverse",
    "C39_canonical"
   ],
   "note": ""
  },
  {
   "property": "C40",
   "status": "proved",
   "theorems": [
    "C40_power",
    "C40_power_of_base",
    "C40_power_canonical",
    "C40_square_is_product",
    "C40_tenth_power_refuted",
    "C40_cancelled_ten_refuted",
    "C40_negative_power_refuted",
    "C40_unreduced_power_refuted"
   ],
   "note": "Witnesses for the tenth power, a cancelled factor of ten, negative and unreduced powers."
  },
  {
   "property": "C41",
   "status": "proved",
   "theorems": [
    "C41_sort"
   ],
   "note": ""
  },
  {
   "property": "C42",
   "status": "proved",
   "theorems": [
    "C42_equivalence",
    "C42_same_exponents"
   ],
   "note": ""
  },
  {
   "property": "C43",
   "status": "proved",
   "theorems": [
    "C43_reflexive_symmetric",
    "C43_equivalent_is_same_size",
    "C43_anonymous",
    "C43_transitivity_refuted"
   ],
   "note": ""
  },
  {
   "property": "C44",
   "status": "proved",
   "theorems": [
    "C44_multiplicative",
    "C44_inverse",
    "C44_product_of_powers",
    "C44_whole_exponents_exact"
   ],
   "note": "Half exponents are covered when the square root of the ratio is exact (hypothesis exact_root)."
  },
  {
   "property": "C45",
   "status": "proved",
   "theorems": [
    "C45_constituents",
    "C45_exact_iff",
    "C45_exact_iff_deduced_symbol",
    "C45_usual_case",
    "C45_squared_default_unit_refuted",
    "C45_fractional_exponent_refuted"
   ],
   "note": ""
  },
  {
   "property": "C46",
   "status": "proved",
   "theorems": [
    "C46_multiply",
    "C46_divide"
   ],
   "note": ""
  },
  {
   "property": "C47",
   "status": "proved",
   "theorems": [
    "C47_chain",
    "C47_magnitude",
    "C47_equal_iff_factors_agree"
   ],
   "note": ""
  },
  {
   "property": "C48",
   "status": "proved",
   "theorems": [
    "C48_meaning_preserved",
    "C48_lookup_keeps_exponents",
    "C48_order_irrelevant",
    "C48_strict_mode",
    "C48_automatic_mode"
   ],
   "note": ""
  },
  {
   "property": "C49",
   "status": "proved",
   "theorems": [
    "C49_sum",
    "C49_sum_defined",
    "C49_sum_minus_point",
    "C49_point_plus_difference",
    "C49_associative",
    "C49_minus_is_plus_negated",
    "C49_vector_first",
    "C49_order",
    "C49_equality",
    "C49_sum_any_integral",
    "C49_histories",
    "C49_bounds"
   ],
   "note": ""
  },
  {
   "property": "C50",
   "status": "proved",
   "theorems": [
    "C50_difference",
    "C50_comparison",
    "C50_equality",
    "C50_conversion",
    "C50_names_differ",
    "C50_declared_not_dynamic",
    "C50_one_origin_equivalence",
    "C50_sum_keeps_origin",
    "C50_common_type",
    "C50_common_type_usual"
   ],
   "note": ""
  },
  {
   "property": "C51",
   "status": "proved",
   "theorems": [
    "C51_relative_value",
    "C51_relative_value_to_type",
    "C51_truncates",
    "C51_dynamic_origin",
    "C51_declared_origin_lost",
    "C51_dynamic_kept"
   ],
   "note": ""
  },
  {
   "property": "C52",
   "status": "proved",
   "theorems": [
    "C52_kinds_do_not_mix",
    "C52_sum",
    "C52_sum_defined",
    "C52_order",
    "C52_equality",
    "C52_conversion",
    "C52_remainder",
    "C52_one_kind_equivalence",
    "C52_sum_values",
    "C52_order_values",
    "C52_equality_values",
    "C52_scaling",
    "C52_negation",
    "C52_products",
    "C52_products_of_kinds",
    "C52_number_over_kind",
    "C52_histories",
    "C52_cast_to_type",
    "C52_cast_to_kind",
    "C52_cast_to_unit",
    "C52_cast_crosses_kinds",
    "C52_bounds",
    "C52_constants",
    "C52_plus",
    "C52_member_operands",
    "C52_declared_base",
    "C52_declared_derived",
    "C52_remainder_by_quantity",
    "C52_cast_to_kind_and_unit",
    "C52_common_type"
   ],
   "note": ""
  },
  {
   "property": "C53",
   "status": "proved",
   "theorems": [
    "C53_sum",
    "C53_sum_minus_point",
    "C53_point_plus_difference",
    "C53_associative",
    "C53_vector_first",
    "C53_difference",
    "C53_order",
    "C53_equality",
    "C53_conversion",
    "C53_kinds_do_not_mix",
    "C53_histories",
    "C53_named_origin_lost",
    "C53_bounds",
    "C53_from_point",
    "C53_cast_to_type",
    "C53_cast_to_kind_and_unit",
    "C53_cast_to_kind",
    "C53_cast_other"
   ],
   "note": ""
  },
  {
   "property": "C54",
   "status": "proved",
   "theorems": [
    "C54_pow",
    "C54_pow_value_iff",
    "C54_pow_zero",
    "C54_kilogram_refuted",
    "C54_pow_one_refuted",
    "C54_pow_inexact_refuted",
    "C54_fractional_pow",
    "C54_sqrt",
    "C54_sqrt_float",
    "C54_sqrt_negative",
    "C54_cbrt",
    "C54_sqrt_rounded_up_refuted",
    "C54_sqrt_unit_refuted",
    "C54_abs",
    "C54_abs_lowest",
    "C54_abs_unsigned",
    "C54_abs_float",
    "C54_epsilon",
    "C54_epsilon_attained",
    "C54_exp_integral",
    "C54_exp_one"
   ],
   "note": "std::pow, std::cbrt and std::exp are parameters (exactness of std::pow on whole numbers is a hypothesis, shown satisfiable); std::sqrt is the correctly rounded IEEE operation. Value of powers characterised by an iff, kilogram witness; witnesses for pow<1> beyond 2^53, inexact std::pow, sqrt beyond 2^52, silently rounded units, abs of the lowest number."
  },
  {
   "property": "C55",
   "status": "proved",
   "theorems": [
    "C55_duration",
    "C55_value",
    "C55_cast",
    "C55_implicit_iff",
    "C55_from",
    "C55_time_point",
    "C55_clocks_distinct",
    "C55_same_clock"
   ],
   "note": "Values for integer representations; the library has no conversion back to std::chrono at this commit. duration_cast and chrono's implicit rule are restated as rationals, not modelled from <chrono>."
  },
  {
   "property": "C56",
   "status": "proved",
   "theorems": [
    "C56_superscript",
    "C56_regular",
    "C56_distinct",
    "C56_negative",
    "C56_negative_refuted",
    "C56_most_negative_refuted"
   ],
   "note": "All intmax_t except the most negative (witness: overflow). Readers of decimal and superscript digits are independent of the model. The Unicode form of a negative plain number mixes an ASCII minus with superscripts (theorem and witness)."
  },
  {
   "property": "C57",
   "status": "proved",
   "theorems": [
    "C57_concatenation",
    "C57_equality",
    "C57_total_order",
    "C57_symbol_text"
   ],
   "note": ""
  },
  {
   "property": "C58",
   "status": "proved",
   "theorems": [
    "C58_declared_unit",
    "C58_reads_back",
    "C58_up_to_sign",
    "C58_fraction_refuted",
    "C58_slash"
   ],
   "note": "All lists of constituents with symbols that do not contain the characters of products and powers; reading either text returns the exponents exactly when at most one exponent is negative or no negative exponent is a fraction (iff)."
  },
  {
   "property": "C59",
   "status": "proved",
   "theorems": [
    "C59_expansion",
    "C59_text",
    "C59_faithful",
    "C59_exponent_one",
    "C59_outer_exponent_refuted"
   ],
   "note": "Recipes nested to any depth; the true expansion is a separate function whose exponents are proved to add up to those of the dimension; the text is faithful iff the exponents around each constituent multiply to one; witness: a squared speed prints as a speed."
  },
  {
   "property": "C60",
   "status": "proved",
   "theorems": [
    "C60_ratio",
    "C60_unit",
    "C60_distinct",
    "C60_double_prefix_refuted"
   ],
   "note": "Ratios with any stored numerator, denominator and exponent (the exponent INTMAX_MIN has no text); prefix symbols assumed distinct and free of spaces and brackets for distinctness; witness: 10^6 g prints as kkg."
  },
  {
   "property": "C61",
   "status": "proved",
   "theorems": [
    "C61_output",
    "C61_width",
    "C61_padding",
    "C61_sequence",
    "C61_width_format_refuted"
   ],
   "note": "Parametric in how the standard library writes a number; histories of outputs. Witness: with a width set, the number is written in the default format, not the stream's."
  },
  {
   "property": "C62",
   "status": "proved",
   "theorems": [
    "C62_documented",
    "C62_shared",
    "C62_shared_refuted",
    "C62_locale",
    "C62_locale_refuted",
    "C62_rejected",
    "C62_safe",
    "C62_modifier_refuted",
    "C62_default",
    "C62_stream"
   ],
   "note": "fmt's own parsers (align, width, precision) follow its documentation; dynamic width and precision are a separate outcome; how fmt writes a number is a parameter. Five witnesses of undocumented strings that are accepted, and of modifiers shared by all conversions."
  },
  {
   "property": "C63",
   "status": "proved",
   "theorems": [
    "C63_prefixes",
    "C63_complete",
    "C63_distinct",
    "C63_prefixed_unit"
   ],
   "note": "For every selection of the declarations in any order and downcasting mode. C63_prefixed_unit is about any unit and prefix."
  },
  {
   "property": "C64",
   "status": "proved",
   "theorems": [
    "C64_exponents",
    "C64_only_base_quantities",
    "C64_equivalent",
    "C64_base_unit_named"
   ],
   "note": "C64_exponents is about any program using the ISQ class templates; C64_equivalent about selections of the catalogue."
  },
  {
   "property": "C65",
   "status": "proved",
   "theorems": [
    "C65_units",
    "C65_table_functional",
    "C65_rounded",
    "C65_wrong_refuted",
    "C65_natural",
    "C65_every_unit",
    "C65_aliases"
   ],
   "note": "Rounded units are off by less than 1e-7 (C65_rounded); seven units are wrong by more than one per cent (C65_wrong_refuted): hectolitre, fps nautical mile and knot, fps cubic yard, psi and ksi."
  },
  {
   "property": "C66",
   "status": "proved",
   "theorems": [
    "C66_draws",
    "C66_parameters",
    "C66_range",
    "C66_bounds",
    "C66_boundaries",
    "C66_linear_weights",
    "C66_iterators_refuted",
    "C66_constant_weights",
    "C66_empty_refuted",
    "C66_midpoint_refuted"
   ],
   "note": "Parametric in the standard distribution (shown satisfiable by a concrete one). Witnesses: boundaries passed by iterators are not converted, an empty boundary list is undefined, the weights are not the standard's midpoint values."
  },
  {
   "property": "C67",
   "status": "proved",
   "theorems": [
    "C67_references",
    "C67_factor",
    "C67_values",
    "C67_horse_power_refuted"
   ],
   "note": "The pairs for which no conversion compiles are witnessed by C67_horse_power_refuted; the natural system is covered by C65_natural only."
  },
  {
   "property": "C68",
   "status": "proved",
   "theorems": [
    "C68_dimension",
    "C68_unique",
    "C68_rejected",
    "C68_comparison",
    "C68_plain_number_refuted"
   ],
   "note": "pow and the roots are not part of the expressions (C54); adding plain numbers is C68_plain_number_refuted."
  },
  {
   "property": "C69",
   "status": "proved",
   "theorems": [
    "C69_value",
    "C69_comparison",
    "C69_catalogue"
   ],
   "note": "Dividing a number by a quantity needs coherent units inverse to each other, which kilogram breaks (C29_kilogram_refuted). C69_catalogue: the hypotheses on the system hold for the systems of the library in any program."
  },
  {
   "property": "C70",
   "status": "proved",
   "theorems": [
    "C70_formula",
    "C70_catalogue"
   ],
   "note": "C70_catalogue: the hypotheses on the system hold for the systems of the library in any program."
  },
  {
   "property": "C71",
   "status": "proved",
   "theorems": [
    "C71_decimal",
    "C71_decimal_zero",
    "C71_decimal_infinity_refuted",
    "C71_log",
    "C71_log_contract",
    "C71_exp",
    "C71_pow"
   ],
   "note": "IEEE double, rounding to nearest, no excess precision; the unqualified abs taken to be the one for double. Orders and factors (12, 64) of iroot_compile and the defaults (10, 128) of constexpr_pow. Infinities: witness that the loop does not end."
  },
  {
   "property": "C72",
   "status": "proved",
   "theorems": [
    "C72_estimate",
    "C72_exact",
    "C72_floor",
    "C72_same_at_run_time",
    "C72_differs_refuted",
    "C72_degree_refuted",
    "C72_ratio",
    "C72_unit"
   ],
   "note": "Consequences for ratio roots (C14) and square roots of quantities (C54) without any hypothesis on the estimate. Witnesses: 10^18 + 1 has different square roots at compile time and at run time; degree 63 overflows on 1."
  },
  {
   "property": "C73",
   "status": "proved",
   "theorems": [
    "C73_names",
    "C73_available",
    "C73_radioactivity_refuted",
    "C73_unambiguous",
    "C73_natural_refuted",
    "C73_whole_literal",
    "C73_large_literal_audit",
    "C73_large_literal_refuted",
    "C73_float_literal",
    "C73_float_literals_exist",
    "C73_reference"
   ],
   "note": "Witnesses: the aliases of radioactivity.h name types that do not exist (C73_radioactivity_refuted); natural::references::GeV and the aliases of the natural system are ambiguous (C73_natural_refuted); literals of 2^63 and more violate the precondition with audit contracts and come out negative without (C73_large_literal_*)."
  },
  {
   "property": "C74",
   "status": "proved",
   "theorems": [
    "C74_values",
    "C74_reduced_planck_refuted",
    "C74_natural",
    "C74_integral",
    "C74_narrow_refuted"
   ],
   "note": "Witnesses: the reduced Planck constant is 10^15 times its value (C74_reduced_planck_refuted: 6.58e-10 GeV s for 6.58e-16 eV s); the hyperfine frequency as int is 602697178 Hz (C74_narrow_refuted)."
  },
  {
   "property": "C75",
   "status": "proved",
   "theorems": [
    "C75_product",
    "C75_quotient"
   ],
   "note": "The products and quotients of any two declared dimensions of one system; dimensions declared twice in a program (frequency and radioactivity) lead to neither (C48)."
  },
  {
   "property": "C76",
   "status": "proved",
   "theorems": [
    "C76_names",
    "C76_declared",
    "C76_sound",
    "C76_operators",
    "C76_off",
    "C76_off_refuted",
    "C76_dimensionless",
    "C76_information"
   ],
   "note": "All concepts of the ISQ headers, Angle, Dimensionless and those of the quantities of information. The refuted theorem: without downcasting the other concepts are ill-formed when asked about a product."
  },
  {
   "property": "C77",
   "status": "proved",
   "theorems": [
    "C77_cast",
    "C77_convert",
    "C77_sums",
    "C77_products",
    "C77_equality",
    "C77_observed",
    "C77_vector",
    "C77_vector_truncates",
    "C77_measurement",
    "C77_min_expl",
    "C77_sign_refuted",
    "C77_narrowing_refuted",
    "C77_uncertainty_refuted"
   ],
   "note": "For every class whose operators respect the observed number; vectors, measurement and the explicit wrapper are instances. The refuted theorems witness the exceptions of the statement: signed to unsigned, operators on a narrow element type, the uncertainty of a measurement."
  },
  {
   "property": "C78",
   "status": "proved",
   "theorems": [
    "C78_compare",
    "C78_order",
    "C78_exact_order",
    "C78_no_circle",
    "C78_sum",
    "C78_sum_accuracy",
    "C78_compare_accuracy",
    "C78_commutative",
    "C78_order_refuted"
   ],
   "note": "For whole factors that the format holds (every pair of SI-prefixed units up to 10^22 apart in double) the comparison is that of the correctly rounded values; for other factors the accuracy theorems; the refuted theorem shows the order reported the wrong way for Ym and fm."
  },
  {
   "property": "C79",
   "status": "proved",
   "theorems": [
    "C79_available",
    "C79_declared",
    "C79_misprinted_refuted",
    "C79_computed",
    "C79_double_prefix_refuted",
    "C79_natural",
    "C79_one_size",
    "C79_one_size_refuted",
    "C79_output"
   ],
   "note": "Four declared units have a text that says another unit, or none (C79_misprinted_refuted); a prefix in front of a coherent unit that has one already gives kkg and kcm (C79_double_prefix_refuted)."
  },
  {
   "property": "C80",
   "status": "proved",
   "theorems": [
    "C80_included",
    "C80_declared",
    "C80_alone",
    "C80_together",
    "C80_default",
    "C80_unknown",
    "C80_order",
    "C80_sorted",
    "C80_values",
    "C80_catalogue",
    "C80_clashes_refuted"
   ],
   "note": "The literals, aliases and reference objects of the headers are not part of the programs: they declare nothing that downcasting sees. Three pairs of headers cannot be included together in the default mode (C80_clashes_refuted); si.h leaves two of the clashing headers out by commented-out include lines (si.h:50, 65)."
  },
  {
   "property": "C81",
   "status": "proved",
   "theorems": [
    "C81_ill_formed",
    "C81_compare",
    "C81_modulo",
    "C81_nearest",
    "C81_swapped",
    "C81_same_type",
    "C81_assign",
    "C81_add_assign_whole",
    "C81_add_assign_float",
    "C81_difference",
    "C81_remainder",
    "C81_unfit_refuted"
   ],
   "note": "Overload resolution is modelled by its outcome: for an operand that is not a quantity the functions with parameters of type const quantity& are the only candidates. Numbers that do not fit the representation compare modulo 2^w or as the nearest number (C81_unfit_refuted)."
  },
  {
   "property": "C82",
   "status": "proved",
   "theorems": [
    "C82_quantity_value",
    "C82_point_value",
    "C82_kind_value",
    "C82_point_kind_value",
    "C82_quantity_source",
    "C82_point_source",
    "C82_kind_source",
    "C82_point_kind_source",
    "C82_point_as_quantity",
    "C82_kind_as_quantity",
    "C82_point_kind_as_kind",
    "C82_number",
    "C82_implicit_quantity",
    "C82_implicit_point",
    "C82_implicit_kind",
    "C82_implicit_point_kind",
    "C82_rebuilt",
    "C82_deduced",
    "C82_deduced_from"
   ],
   "note": "The value theorems are for the signed 64-bit representation and integral arguments other than unsigned 64-bit ones (as C20). Overload resolution is modelled by its outcome per sort of argument; user-defined quantity-like types other than those of chrono are not modelled."
  },
  {
   "property": "C83",
   "status": "proved",
   "theorems": [
    "C83_typed",
    "C83_unique",
    "C83_rejected",
    "C83_value",
    "C83_frames",
    "C83_origins",
    "C83_comparison",
    "C83_relative_refuted"
   ],
   "note": "The values are for signed 64-bit representations in one system of units, as C69; the rules (typed, unique, rejected) are for all representations, units, systems and origins. Operators that change an object, and sums with plain numbers, are not part of the trees (C32, C49_histories, C81)."
  },
  {
   "property": "C84",
   "status": "proved",
   "theorems": [
    "C84_sound",
    "C84_complete",
    "C84_numbers",
    "C84_decided",
    "C84_rejected",
    "C84_comparison",
    "C84_point_comparison"
   ],
   "note": "All representations of the standard arithmetic types, all units, systems, origins and worlds. Undefined covers overflow, division by zero and floating-point numbers outside an integer type."
  },
  {
   "property": "C85",
   "status": "proved",
   "theorems": [
    "C85_safe",
    "C85_accepted",
    "C85_steps",
    "C85_step",
    "C85_relations"
   ],
   "note": "All representations of the standard arithmetic types, all units, systems, origins and worlds. The control flow around the library is a small while language."
  },
  {
   "property": "C86",
   "status": "proved",
   "theorems": [
    "C86_follows",
    "C86_no_division",
    "C86_ideal",
    "C86_units",
    "C86_even_refuted"
   ],
   "note": "Signed 64-bit numbers, one system of units whose symbols identify its dimensions; casts, remainders, v / q, relative() and ++/-- (whose step is the unit) are outside the comparison. The evenness condition is necessary: C86_even_refuted."
  },
  {
   "property": "C87",
   "status": "proved",
   "theorems": [
    "C87_bound",
    "C87_decision",
    "C87_casts",
    "C87_cast_of_sum",
    "C87_one_unit_refuted"
   ],
   "note": "Signed 64-bit numbers, one system of units whose symbols identify its dimensions; remainders and v / q have no rule. Casts of points need the frame to put the deduced origin where the old one is (the library drops the origin). C87_one_unit_refuted shows that the bound for sums of casts cannot be one unit."
  },
  {
   "property": "C88",
   "status": "proved",
   "theorems": [
    "C88_accuracy",
    "C88_decision",
    "C88_products",
    "C88_product_count",
    "C88_sum",
    "C88_cancellation_refuted"
   ],
   "note": "One floating-point format per expression (integer numbers and factors enter by conversion or as plain factors); one system of units whose symbols identify its dimensions; sums of opposite signs have no rule, and C88_cancellation_refuted shows why. Values stay away from the ends of the range; at most 2^22 roundings."
  },
  {
   "property": "C89",
   "status": "proved",
   "theorems": [
    "C89_same_size",
    "C89_conversion",
    "C89_comparison",
    "C89_reflexive",
    "C89_symmetric",
    "C89_transitive",
    "C89_points",
    "C89_kinds",
    "C89_point_kinds",
    "C89_origins",
    "C89_across_systems_refuted",
    "C89_transitive_across_refuted",
    "C89_converse_refuted"
   ],
   "note": "Within one system whose base units are powers of ten of their references (SI, CGS), units declared by a program or anonymous, derived dimensions whose coherent units are their own references. Across systems the claim is false (C89_across_systems_refuted, C89_transitive_across_refuted); equal size does not imply equivalence (C89_converse_refuted)."
  },
  {
   "property": "C90",
   "status": "proved",
   "theorems": [
    "C90_same_value",
    "C90_outcome",
    "C90_downcasting_off",
    "C90_equivalent",
    "C90_same_unit",
    "C90_comparison",
    "C90_equality",
    "C90_compiles_refuted",
    "C90_si_types",
    "C90_si",
    "C90_si_outcome"
   ],
   "note": "Base units powers of ten of their references and derived dimensions with coherent units that are their own references: the whole SI of the library (C90_si), the CGS without its area. Whether an expression compiles does depend on the declarations (C90_compiles_refuted)."
  },
  {
   "property": "C91",
   "status": "proved",
   "theorems": [
    "C91_discipline",
    "C91_defined",
    "C91_unique",
    "C91_rejected",
    "C91_no_mixing",
    "C91_one_kind",
    "C91_value"
   ],
   "note": "The written types must exist and be canonical in one system of units (of_system). A reading is complete: no other condition on kinds is needed for an expression to be defined. C91_value is for signed 64-bit numbers (as C83)."
  },
  {
   "property": "C92",
   "status": "proved",
   "theorems": [
    "C92_defined",
    "C92_exact",
    "C92_comparison",
    "C92_sums",
    "C92_products",
    "C92_quotients",
    "C92_remainders",
    "C92_conversions",
    "C92_same_type",
    "C92_casts",
    "C92_types_refuted"
   ],
   "note": "The range check is a set of rules of the specification, not code of the library; the library makes no such check. Worth has no rule for point casts (they forget the origin), and casts and divisions are worth their exact value only where they come out even (C87 bounds the error otherwise)."
  },
  {
   "property": "C93",
   "status": "proved",
   "theorems": [
    "C93_transparent",
    "C93_comparisons",
    "C93_results",
    "C93_casts",
    "C93_construction",
    "C93_in_place",
    "C93_zero_one",
    "C93_bounds_refuted"
   ],
   "note": "C93 covers wrappers whose common type is that of the numbers (the other user-defined representations are those of C77); the hypothesis names the wrapped types only and asks that the compiler can compute their sizes."
  },
  {
   "property": "C94",
   "status": "proved",
   "theorems": [
    "C94_error",
    "C94_decision",
    "C94_sum",
    "C94_scalar_product",
    "C94_neighbours"
   ],
   "note": "C94 asks only the magnitudes to stay away from the ends of the range: the values may be arbitrarily small or zero."
  },
  {
   "property": "C95",
   "status": "proved",
   "theorems": [
    "C95_gain",
    "C95_update",
    "C95_covariance",
    "C95_noise",
    "C95_filter",
    "C95_dimensions",
    "C95_turns",
    "C95_settles",
    "C95_points",
    "C95_average",
    "C95_confirmed",
    "C95_rates",
    "C95_extrapolation",
    "C95_extrapolation_3",
    "C95_between_refuted"
   ],
   "note": "C95 leaves out the constraints `isq::Time` and `are_derivatives` and the formatters of `kalman.h`; measurements are doubles or integers up to 2^53 in the unit of the state."
  },
  {
   "property": "C96",
   "status": "proved",
   "theorems": [
    "C96_same_outcome",
    "C96_equal",
    "C96_downcasting_off"
   ],
   "note": "C96 asks that the text compiles in both programs (C90 shows that this may fail in one of them) and is about the types of one decimal system."
  },
  {
   "property": "C97",
   "status": "proved",
   "theorems": [
    "C97_setup",
    "C97_task",
    "C97_estimate",
    "C97_outcomes",
    "C97_leg",
    "C97_past_finish",
    "C97_flat_ends",
    "C97_arrives",
    "C97_direct_refuted",
    "C97_backwards_refuted",
    "C97_endless_refuted"
   ],
   "note": "C97 takes the central angle of two positions and pow as functions that return doubles (the angle not negative); the texts of the table, the geographic coordinates' own types and the sample data of the example's main are not modelled. Three witnesses show what the example does not promise: a glider that could reach the finish directly makes the program read behind the last leg, one that nearly could circles downwards in negative time, and clouds no higher than the circling height make it loop forever."
  },
  {
   "property": "C98",
   "status": "proved",
   "theorems": [
    "C98_sound",
    "C98_complete",
    "C98_numbers",
    "C98_decided",
    "C98_rejected",
    "C98_comparison"
   ],
   "note": "C98, like C84, is about expressions whose numbers are of their types (`num_ok`); quantity points and the operators that change an object are not part of these expressions."
  },
  {
   "property": "C99",
   "status": "proved",
   "theorems": [
    "C99_safe",
    "C99_accepted",
    "C99_steps",
    "C99_one_kind",
    "C99_erased",
    "C99_compiles",
    "C99_declarations"
   ],
   "note": "C99 covers variables of quantity, quantity kind and quantity point kind types; `*=`, `/=` and `%=` of a kind with a dimensionless kind or quantity (quantity_kind.h:200-240) are modelled in `Kind` (C52) but are not statements of these programs. The program without the kinds drops the unary `+` of kinds, which unlike that of quantities does not promote (quantity_kind.h:140-144)."
  },
  {
   "property": "C100",
   "status": "proved",
   "theorems": [
    "C100_kinds",
    "C100_objects",
    "C100_expressions",
    "C100_programs"
   ],
   "note": "C100 counts the arithmetic operations, comparisons and conversions between different built-in types that remain when constants are folded; it does not model inlining, registers or the object layout of a C++ compiler."
  },
  {
   "property": "C101",
   "status": "proved",
   "theorems": [
    "C101_central",
    "C101_nonnegative",
    "C101_uncertainty",
    "C101_hypot",
    "C101_correlated_refuted",
    "C101_zero_refuted"
   ],
   "note": "C101 takes std::hypot as any function accurate to h roundings where the squares are in range (C101_hypot shows that the textbook formula is one with h = 2) and excludes central values of zero wherever the class forms a relative uncertainty (C101_zero_refuted) and dependent operands (C101_correlated_refuted)."
  },
  {
   "property": "C102",
   "status": "proved",
   "theorems": [
    "C102_pow",
    "C102_sqrt",
    "C102_root_of_square",
    "C102_energy"
   ],
   "note": "C102 takes std::pow as any function accurate to h roundings where the power is in range (C102_ex_libm gives one with h = 1) and std::sqrt as correctly rounded (IEEE 754). It asks for unit ratios that have exact roots (`rootable`) and for dimensions with integral exponents between -4 and 4."
  },
  {
   "property": "C103",
   "status": "proved",
   "theorems": [
    "C103_setup",
    "C103_plain",
    "C103_density",
    "C103_main",
    "C103_weight",
    "C103_level",
    "C103_spare",
    "C103_time_left",
    "C103_monotone"
   ],
   "note": "C103 takes the literals of main as arguments and leaves fmt out; the bounds are for sizes, densities, masses and times from 2^-60 to 2^60, and a mass of zero."
  },
  {
   "property": "C104",
   "status": "proved",
   "theorems": [
    "C104_multiplies",
    "C104_value",
    "C104_inverse",
    "C104_chain",
    "C104_whole",
    "C104_main"
   ],
   "note": "C104 passes the types of the arguments of conversion_factor and leaves fmt out; the whole factors exclude uint64_t and factors that do not fit the common type."
  },
  {
   "property": "C105",
   "status": "proved",
   "theorems": [
    "C105_setup",
    "C105_curve",
    "C105_overflow",
    "C105_shown",
    "C105_discharge",
    "C105_monotone"
   ],
   "note": "C105 leaves the streams out; `std::exp` is a parameter with a stated number of roundings (accuracy) or monotone (monotonicity), and the constants of the capacitor lie between 2^-60 and 2^60."
  },
  {
   "property": "C106",
   "status": "proved",
   "theorems": [
    "C106_setup",
    "C106_fixed_int",
    "C106_wraps",
    "C106_generic_int",
    "C106_double",
    "C106_double_of_int",
    "C106_accuracy",
    "C106_rejected",
    "C106_any_units",
    "C106_printed"
   ],
   "note": "C106 leaves the texts out of print_result; the accuracy is for lengths and durations between 2^-60 and 2^60."
  },
  {
   "property": "C107",
   "status": "proved",
   "theorems": [
    "C107_setup",
    "C107_double",
    "C107_int",
    "C107_accuracy"
   ],
   "note": "C107 takes the literals of the example as arguments and leaves the streams out."
  },
  {
   "property": "C108",
   "status": "proved",
   "theorems": [
    "C108_setup",
    "C108_print"
   ],
   "note": "C108 leaves the texts out, takes the members as doubles in the units they are declared in (not their initialisers) and is for members between 2^-60 and 2^60."
  }
 ]
}