{
 "claims": [
  {
   "property": "C01",
   "status": "proved",
   "theorems": [
    "C01_order",
    "C01_min_max",
    "C01_constants"
   ],
   "note": ""
  },
  {
   "property": "C02",
   "status": "proved",
   "theorems": [
    "C02_cadd",
    "C02_csub"
   ],
   "note": ""
  },
  {
   "property": "C03",
   "status": "proved",
   "theorems": [
    "C03_cmul",
    "C03_cmul_comm"
   ],
   "note": ""
  },
  {
   "property": "C04",
   "status": "proved",
   "theorems": [
    "C04_saturating_add",
    "C04_saturating_sub",
    "C04_saturating_mul",
    "C04_saturating_mul_comm"
   ],
   "note": ""
  },
  {
   "property": "C05",
   "status": "proved",
   "theorems": [
    "C05_rmul_directed"
   ],
   "note": ""
  },
  {
   "property": "C06",
   "status": "partial",
   "theorems": [
    "C06_rmul_nearest_partial",
    "C06_rmul_nearest_refuted"
   ],
   "note": "False as stated: i128 at precision 38 (witness in C06_rmul_nearest_refuted). Proved for every other layout and precision; C51 gives the exact behaviour there."
  },
  {
   "property": "C07",
   "status": "proved",
   "theorems": [
    "C07_rmul_comm",
    "C07_rmul_one",
    "C07_rmul_zero",
    "C07_rmul_neg"
   ],
   "note": ""
  },
  {
   "property": "C08",
   "status": "partial",
   "theorems": [
    "C08_saturating_rmul_partial",
    "C08_saturating_rmul_refuted"
   ],
   "note": "False as stated for Nearest on i128 at precision 38 (panic); proved for everything else."
  },
  {
   "property": "C09",
   "status": "proved",
   "theorems": [
    "C09_rdiv_directed"
   ],
   "note": ""
  },
  {
   "property": "C10",
   "status": "partial",
   "theorems": [
    "C10_rdiv_nearest_partial",
    "C10_rdiv_small_divisor_partial",
    "C10_rdiv_nearest_refuted"
   ],
   "note": "False as stated (witness refuted); proved whenever twice the remainder fits and the divisor is not MIN, in particular for all divisors up to half the range. C52 gives the exact behaviour elsewhere."
  },
  {
   "property": "C11",
   "status": "proved",
   "theorems": [
    "C11_rdiv_zero",
    "C11_int_rdiv_zero",
    "C11_rdiv_int_zero",
    "C11_recip_zero",
    "C11_int_rdiv_fp_zero",
    "C11_int_rdiv_fp_overflow"
   ],
   "note": ""
  },
  {
   "property": "C12",
   "status": "partial",
   "theorems": [
    "C12_rdiv_int_partial",
    "C12_int_rdiv_partial",
    "C12_rdiv_int_refuted",
    "C12_rdiv_int_nearest_refuted"
   ],
   "note": "False as stated: MIN / -1 panics, and Nearest overflows for large divisors. Proved under those guards; C53 gives the exact behaviour elsewhere."
  },
  {
   "property": "C13",
   "status": "partial",
   "theorems": [
    "C13_int_rdiv_fp_partial",
    "C13_int_rdiv_fp_refuted"
   ],
   "note": "False as stated: the integer is converted first. Proved for representable integers; C54 is the exact statement."
  },
  {
   "property": "C14",
   "status": "partial",
   "theorems": [
    "C14_recip_partial",
    "C14_recip_refuted"
   ],
   "note": "False as stated for Nearest with large x; proved under the guard of C10."
  },
  {
   "property": "C15",
   "status": "proved",
   "theorems": [
    "C15_cneg",
    "C15_cneg_error",
    "C15_cneg_involutive",
    "C15_abs",
    "C15_abs_error",
    "C15_signum"
   ],
   "note": ""
  },
  {
   "property": "C16",
   "status": "partial",
   "theorems": [
    "C16_half_sum_total",
    "C16_half_sum_partial",
    "C16_half_sum_refuted"
   ],
   "note": "Never fails: proved. Rounding: Floor and Ceil proved; Nearest proved except ties of two negative numbers, where it is false (C55)."
  },
  {
   "property": "C17",
   "status": "partial",
   "theorems": [
    "C17_integral_partial",
    "C17_integral_refuted"
   ],
   "note": "False as stated at MIN and for Nearest on i128 at precision 38; proved elsewhere, exact behaviour in C56."
  },
  {
   "property": "C18",
   "status": "partial",
   "theorems": [
    "C18_int_part_partial",
    "C18_floor_refuted"
   ],
   "note": "False as stated at MIN; proved elsewhere, exact behaviour in C56."
  },
  {
   "property": "C19",
   "status": "proved",
   "theorems": [
    "C19_round_towards_zero_by",
    "C19_round_by_zero"
   ],
   "note": ""
  },
  {
   "property": "C20",
   "status": "proved",
   "theorems": [
    "C20_next_power_of_ten_positive",
    "C20_next_power_of_ten_zero",
    "C20_next_power_of_ten_negative",
    "C20_next_power_of_ten_min"
   ],
   "note": ""
  },
  {
   "property": "C21",
   "status": "proved",
   "theorems": [
    "C21_rsqrt",
    "C21_rsqrt_domain",
    "C21_unique",
    "C21_rsqrt_exact",
    "C21_rsqrt_mono"
   ],
   "note": ""
  },
  {
   "property": "C22",
   "status": "partial",
   "theorems": [
    "C22_from_decimal_exponent",
    "C22_from_decimal_partial",
    "C22_from_decimal_refuted"
   ],
   "note": "False as stated when 10^(e+P) overflows; proved elsewhere, exact behaviour in C57."
  },
  {
   "property": "C23",
   "status": "proved",
   "theorems": [
    "C23_to_decimal",
    "C23_to_decimal_panic"
   ],
   "note": ""
  },
  {
   "property": "C24",
   "status": "proved",
   "theorems": [
    "C24_round_trip"
   ],
   "note": ""
  },
  {
   "property": "C25",
   "status": "proved",
   "theorems": [
    "C25_try_from_int"
   ],
   "note": ""
  },
  {
   "property": "C26",
   "status": "proved",
   "theorems": [
    "C26_from_str_exact",
    "C26_from_str_exact_total",
    "C26_spells_unique"
   ],
   "note": ""
  },
  {
   "property": "C27",
   "status": "partial",
   "theorems": [
    "C27_from_str_partial",
    "C27_from_str_total",
    "C27_from_str_refuted"
   ],
   "note": "False as stated at precision 0 (witness); proved for every other precision. C60 is the exact statement including precision 0."
  },
  {
   "property": "C28",
   "status": "proved",
   "theorems": [
    "C28_exact_refines"
   ],
   "note": ""
  },
  {
   "property": "C29",
   "status": "partial",
   "theorems": [
    "C29_to_string_partial",
    "C29_canonical_unique",
    "C29_to_string_refuted"
   ],
   "note": "Proved for every printable value, which leaves out MIN and very long negative numbers at precision 0 and large fractions of i128 at precision 38; false there (witness), see C61."
  },
  {
   "property": "C30",
   "status": "partial",
   "theorems": [
    "C30_round_trip_partial",
    "C30_round_trip0",
    "C30_round_trip_refuted",
    "C30_wrong_text_refuted"
   ],
   "note": "Proved for printable values at positive precision; at precision 0 every printed text is rejected (C30_round_trip0); without overflow checks i128 at precision 38 prints a wrong text (witness)."
  },
  {
   "property": "C31",
   "status": "partial",
   "theorems": [
    "C31_buffer_partial",
    "C31_buffer_refuted",
    "C31_buffer64_refuted"
   ],
   "note": "Proved for every printable value; false otherwise: out-of-bounds writes at precision 0 (witnesses), see C61."
  },
  {
   "property": "C32",
   "status": "proved",
   "theorems": [
    "C32_total",
    "C32_not_finite",
    "C32_zero",
    "C32_negate",
    "C32_negate_value",
    "C32_sign",
    "C32_never_min"
   ],
   "note": ""
  },
  {
   "property": "C33",
   "status": "proved",
   "theorems": [
    "C33_error",
    "C33_overflow"
   ],
   "note": ""
  },
  {
   "property": "C34",
   "status": "proved",
   "theorems": [
    "C34_integer"
   ],
   "note": ""
  },
  {
   "property": "C35",
   "status": "proved",
   "theorems": [
    "C35_error",
    "C35_sign",
    "C35_integer"
   ],
   "note": ""
  },
  {
   "property": "C36",
   "status": "partial",
   "theorems": [
    "C36_round_trip_partial",
    "C36_round_trip_refuted",
    "C36_min_refuted"
   ],
   "note": "False as stated: numbers of more than fifteen digits may come back one unit off, and MIN is rejected (both refuted). Proved for |raw| <= 10^15 (also C65)."
  },
  {
   "property": "C37",
   "status": "partial",
   "theorems": [
    "C37_round_trip_partial",
    "C37_round_trip_refuted",
    "C37_string",
    "C37_integer",
    "C37_float",
    "C37_char",
    "C37_map",
    "C37_rejected"
   ],
   "note": "False as stated at precision 0 (witness) and for values that formatting does not handle (C61). Round trip proved for everything else, and the meaning of every data-model token."
  },
  {
   "property": "C38",
   "status": "proved",
   "theorems": [
    "C38_binary",
    "C38_repr",
    "C38_deserialize",
    "C38_width"
   ],
   "note": ""
  },
  {
   "property": "C39",
   "status": "partial",
   "theorems": [
    "C39_repr_option",
    "C39_str_partial",
    "C39_str_option_partial",
    "C39_owned_refuted",
    "C39_float",
    "C39_float_none",
    "C39_float_deserialize"
   ],
   "note": "The str modules reject strings the format cannot lend (witness refuted), and inherit the exclusions of C30. Everything else proved; float modules are exactly to_f64/try_from_f64."
  },
  {
   "property": "C40",
   "status": "proved",
   "theorems": [
    "C40_encode",
    "C40_decode",
    "C40_twos_unique",
    "C40_round_trip",
    "C40_short",
    "C40_encode_as",
    "C40_decode_from"
   ],
   "note": ""
  },
  {
   "property": "C41",
   "status": "partial",
   "theorems": [
    "C41_sound_partial",
    "C41_places",
    "C41_complete_partial",
    "C41_literal_unique",
    "C41_truncated_refuted",
    "C41_places_refuted"
   ],
   "note": "False as stated: constants are computed in i64/i128 and truncated to the layout, and without overflow checks too many places can be accepted (both refuted). Proved for literals that fit the layout; C62 is the exact statement."
  },
  {
   "property": "C42",
   "status": "proved",
   "theorems": [
    "C42_promote",
    "C42_cadd",
    "C42_csub",
    "C42_cmul",
    "C42_saturating_add",
    "C42_saturating_sub",
    "C42_rmul",
    "C42_rmul_rounded",
    "C42_rdiv",
    "C42_add_types"
   ],
   "note": ""
  },
  {
   "property": "C43",
   "status": "partial",
   "theorems": [
    "C43_rmul_partial",
    "C43_rdiv_partial",
    "C43_rdiv_int_partial",
    "C43_half_sum",
    "C43_integral_partial",
    "C43_int_part_partial",
    "C43_from_decimal_partial",
    "C43_to_decimal",
    "C43_next_power_of_ten",
    "C43_rsqrt",
    "C43_try_from_int",
    "C43_parse",
    "C43_to_string_partial",
    "C43_to_f64",
    "C43_profiles_refuted",
    "C43_try_from_f64"
   ],
   "note": "False as stated: checked builds panic where release builds return a wrong value (witness refuted). Proved for every operation on the operands for which checked arithmetic does not panic, and outright for half_sum, to_decimal, next_power_of_ten, rsqrt, parsing, to_f64 and try_from_f64; C63 and C64 are the exact statements."
  },
  {
   "property": "C44",
   "status": "partial",
   "theorems": [
    "C44_rmul_directed",
    "C44_rmul_nearest_partial",
    "C44_rmul_refuted",
    "C44_rdiv_directed",
    "C44_rdiv_nearest_partial",
    "C44_rsqrt"
   ],
   "note": "Directed rounding and square roots proved; Nearest multiplication proved below precision 38 and false at 38 (witness); Nearest division proved under the guard of C10."
  },
  {
   "property": "C45",
   "status": "proved",
   "theorems": [
    "C45_sum_ok",
    "C45_sum_err",
    "C45_order_irrelevant",
    "C45_sum_exact"
   ],
   "note": ""
  },
  {
   "property": "C46",
   "status": "proved",
   "theorems": [
    "C46_default_saturating_add",
    "C46_default_saturating_sub",
    "C46_default_saturating_mul"
   ],
   "note": ""
  },
  {
   "property": "C47",
   "status": "partial",
   "theorems": [
    "C47_integer_operations",
    "C47_rmul",
    "C47_rdiv_partial",
    "C47_rdiv_refuted",
    "C47_half_sum",
    "C47_to_decimal",
    "C47_from_decimal_partial",
    "C47_rsqrt"
   ],
   "note": "Proved for the integer operations, rmul (all modes), rsqrt, half_sum, to_decimal, rdiv (directed modes in every build, Nearest with overflow checks), from_decimal with overflow checks. False for rdiv Nearest without overflow checks (witness)."
  },
  {
   "property": "C48",
   "status": "proved",
   "theorems": [
    "C48_monotone"
   ],
   "note": ""
  },
  {
   "property": "C49",
   "status": "proved",
   "theorems": [
    "C49_rmul_mono",
    "C49_rdiv_mono",
    "C49_rdiv_rmul"
   ],
   "note": ""
  },
  {
   "property": "C50",
   "status": "partial",
   "theorems": [
    "C50_rmul",
    "C50_rdiv",
    "C50_integral_partial",
    "C50_integral_refuted",
    "C50_rsqrt"
   ],
   "note": "rmul, rdiv and rsqrt proved in full; integral proved except for MIN, where it is false without overflow checks."
  },
  {
   "property": "C51",
   "status": "proved",
   "theorems": [
    "C51_rmul38_ok",
    "C51_rmul38_overflow",
    "C51_rmul38_panic",
    "C51_rmul38_release_pos",
    "C51_rmul38_release_neg"
   ],
   "note": ""
  },
  {
   "property": "C52",
   "status": "proved",
   "theorems": [
    "C52_rdiv_panic",
    "C52_rdiv_release",
    "C52_rdiv_release_min",
    "C52_rdiv_overflow"
   ],
   "note": ""
  },
  {
   "property": "C53",
   "status": "proved",
   "theorems": [
    "C53_int_rdiv_min",
    "C53_int_rdiv_panic",
    "C53_int_rdiv_release",
    "C53_int_rdiv_release_min"
   ],
   "note": ""
  },
  {
   "property": "C54",
   "status": "proved",
   "theorems": [
    "C54_int_rdiv_fp"
   ],
   "note": ""
  },
  {
   "property": "C55",
   "status": "proved",
   "theorems": [
    "C55_half_sum_tie"
   ],
   "note": ""
  },
  {
   "property": "C56",
   "status": "proved",
   "theorems": [
    "C56_integral_min",
    "C56_integral_min_release",
    "C56_int_part_min",
    "C56_int_part_min_release",
    "C56_integral38"
   ],
   "note": ""
  },
  {
   "property": "C57",
   "status": "proved",
   "theorems": [
    "C57_from_decimal_panic",
    "C57_from_decimal_release"
   ],
   "note": ""
  },
  {
   "property": "C58",
   "status": "partial",
   "theorems": [
    "C58_sqrt_partial",
    "C58_sqrt_i128_partial",
    "C58_sqrt_i128_cases",
    "C58_sqrt_refuted"
   ],
   "note": "Proved for every type but i128, and below 2^126 there; false near i128::MAX (witness), exact behaviour in C58_sqrt_i128_cases. Not reachable from rsqrt, which C21 covers in full."
  },
  {
   "property": "C59",
   "status": "proved",
   "theorems": [
    "C59_mul",
    "C59_div_mod",
    "C59_shift",
    "C59_sqrt",
    "C59_cmp",
    "C59_signed_of_i128",
    "C59_signed_add_sub",
    "C59_signed_mul",
    "C59_signed_div",
    "C59_signed_neg",
    "C59_signed_cmp",
    "C59_signed_sqrt"
   ],
   "note": ""
  },
  {
   "property": "C60",
   "status": "proved",
   "theorems": [
    "C60_from_str_zero",
    "C60_point_rejected"
   ],
   "note": ""
  },
  {
   "property": "C61",
   "status": "proved",
   "theorems": [
    "C61_min",
    "C61_overrun",
    "C61_precision_38",
    "C61_two_signs"
   ],
   "note": ""
  },
  {
   "property": "C62",
   "status": "proved",
   "theorems": [
    "C62_literals",
    "C62_fixnum",
    "C62_truncates",
    "C62_min",
    "C62_leading_zeros",
    "C62_total"
   ],
   "note": ""
  },
  {
   "property": "C63",
   "status": "proved",
   "theorems": [
    "C63_rmul",
    "C63_rdiv",
    "C63_int_rdiv",
    "C63_int_rdiv_fp",
    "C63_saturating_rmul",
    "C63_recip",
    "C63_half_sum",
    "C63_integral",
    "C63_int_part",
    "C63_from_decimal",
    "C63_to_decimal",
    "C63_next_power_of_ten",
    "C63_to_string",
    "C63_try_from_f64",
    "C63_fixnum_const",
    "C63_serialize",
    "C63_deserialize"
   ],
   "note": ""
  },
  {
   "property": "C64",
   "status": "proved",
   "theorems": [
    "C64_rmul",
    "C64_rdiv",
    "C64_int_rdiv",
    "C64_int_rdiv_fp",
    "C64_saturating_rmul",
    "C64_recip",
    "C64_integral",
    "C64_int_part",
    "C64_from_decimal",
    "C64_to_string",
    "C64_try_from_f64",
    "C64_fixnum_const",
    "C64_serialize",
    "C64_deserialize"
   ],
   "note": ""
  },
  {
   "property": "C65",
   "status": "proved",
   "theorems": [
    "C65_float_modules",
    "C65_round_trip"
   ],
   "note": ""
  },
  {
   "property": "C66",
   "status": "partial",
   "theorems": [
    "C66_threshold_partial",
    "C66_nearest_refuted"
   ],
   "note": "False as stated: 0.45 at precision 0 becomes 1 (refuted). Proved with the actual threshold of four ninths, up to a relative 2^-49."
  },
  {
   "property": "C67",
   "status": "proved",
   "theorems": [
    "C67_parse_cause",
    "C67_parse",
    "C67_core",
    "C67_words"
   ],
   "note": ""
  },
  {
   "property": "C68",
   "status": "proved",
   "theorems": [
    "C68_texts",
    "C68_from_decimal",
    "C68_exponent",
    "C68_try_from_int",
    "C68_not_finite",
    "C68_try_from_f64",
    "C68_decimal_text",
    "C68_integer_text",
    "C68_float_text",
    "C68_arith_words",
    "C68_forget"
   ],
   "note": ""
  },
  {
   "property": "C69",
   "status": "proved",
   "theorems": [
    "C69_from_u128",
    "C69_to_u128"
   ],
   "note": ""
  },
  {
   "property": "C70",
   "status": "proved",
   "theorems": [
    "C70_promote",
    "C70_cadd",
    "C70_csub",
    "C70_saturating_add",
    "C70_saturating_sub",
    "C70_cmul",
    "C70_rmul",
    "C70_rdiv"
   ],
   "note": ""
  },
  {
   "property": "C71",
   "status": "proved",
   "theorems": [
    "C71_str",
    "C71_str_total",
    "C71_str_rejects",
    "C71_str_option",
    "C71_float_int",
    "C71_float_small_int",
    "C71_float_rejects",
    "C71_repr_option",
    "C71_option_rejects"
   ],
   "note": ""
  },
  {
   "property": "C72",
   "status": "proved",
   "theorems": [
    "C72_chain"
   ],
   "note": ""
  },
  {
   "property": "C73",
   "status": "proved",
   "theorems": [
    "C73_split"
   ],
   "note": ""
  },
  {
   "property": "C74",
   "status": "proved",
   "theorems": [
    "C74_floor",
    "C74_distribute"
   ],
   "note": ""
  },
  {
   "property": "C75",
   "status": "proved",
   "theorems": [
    "C75_convert",
    "C75_convert_zero"
   ],
   "note": ""
  },
  {
   "property": "C76",
   "status": "proved",
   "theorems": [
    "C76_convert_text",
    "C76_convert_text_err"
   ],
   "note": ""
  },
  {
   "property": "C77",
   "status": "partial",
   "theorems": [
    "C77_one_partial",
    "C77_refuted"
   ],
   "note": "False as stated: FixedPoint<i16, U5>::ONE is -31072 (witness in C77_refuted). Proved for every precision with 10^P <= MAX; C78 gives the exact behaviour for all others."
  },
  {
   "property": "C78",
   "status": "proved",
   "theorems": [
    "C78_coefficient",
    "C78_right_iff_valid",
    "C78_one_wrong",
    "C78_zero",
    "C78_rmul_zero",
    "C78_negated"
   ],
   "note": ""
  },
  {
   "property": "C79",
   "status": "proved",
   "theorems": [
    "C79_monotone"
   ],
   "note": ""
  },
  {
   "property": "C80",
   "status": "partial",
   "theorems": [
    "C80_nearest_partial",
    "C80_nearest_refuted"
   ],
   "note": "False as stated: FixedPoint<i16, U2> 1.14 becomes 1.1400000000000001 (refuted). Proved for integers and for fractions of at most 22 places with magnitude up to 2^53 units; C81 is what holds with an integral part."
  },
  {
   "property": "C81",
   "status": "proved",
   "theorems": [
    "C81_faithful",
    "C81_sharp"
   ],
   "note": ""
  },
  {
   "property": "C82",
   "status": "proved",
   "theorems": [
    "C82_product",
    "C82_quotient",
    "C82_linear",
    "C82_inner",
    "C82_sound",
    "C82_total",
    "C82_defined"
   ],
   "note": ""
  },
  {
   "property": "C83",
   "status": "proved",
   "theorems": [
    "C83_mul",
    "C83_mul_types",
    "C83_rmul",
    "C83_rmul_same",
    "C83_fixed"
   ],
   "note": ""
  },
  {
   "property": "C84",
   "status": "proved",
   "theorems": [
    "C84_add_comm",
    "C84_add_assoc",
    "C84_add_sub",
    "C84_sub_neg",
    "C84_zero_sub",
    "C84_mul_succ",
    "C84_mul_distr",
    "C84_abs",
    "C84_sign_abs",
    "C84_rmul_whole",
    "C84_rdiv_whole",
    "C84_rdiv_min",
    "C84_rdiv_units",
    "C84_mul_div",
    "C84_next_power_of_ten"
   ],
   "note": ""
  },
  {
   "property": "C85",
   "status": "proved",
   "theorems": [
    "C85_comm",
    "C85_same",
    "C85_between",
    "C85_mono"
   ],
   "note": ""
  },
  {
   "property": "C86",
   "status": "proved",
   "theorems": [
    "C86_square_floor",
    "C86_square_ceil",
    "C86_between",
    "C86_root_of_square",
    "C86_root_of_square_up"
   ],
   "note": ""
  },
  {
   "property": "C87",
   "status": "proved",
   "theorems": [
    "C87_encode",
    "C87_decode",
    "C87_round_trip",
    "C87_canonical",
    "C87_negative"
   ],
   "note": "The byte forms belong to parity-scale-codec, whose source is not in the repository; they are modelled from its published format."
  },
  {
   "property": "C88",
   "status": "proved",
   "theorems": [
    "C88_close",
    "C88_nearest",
    "C88_text",
    "C88_sharp"
   ],
   "note": ""
  },
  {
   "property": "C89",
   "status": "proved",
   "theorems": [
    "C89_two_steps",
    "C89_unique"
   ],
   "note": ""
  },
  {
   "property": "C90",
   "status": "proved",
   "theorems": [
    "C90_same_number",
    "C90_same_number_exact",
    "C90_monotone",
    "C90_between",
    "C90_exact_order",
    "C90_print_injective"
   ],
   "note": ""
  },
  {
   "property": "C91",
   "status": "proved",
   "theorems": [
    "C91_fraction_text",
    "C91_fraction_overrun",
    "C91_min_text",
    "C91_min_overrun"
   ],
   "note": ""
  },
  {
   "property": "C92",
   "status": "proved",
   "theorems": [
    "C92_panics"
   ],
   "note": ""
  },
  {
   "property": "C93",
   "status": "proved",
   "theorems": [
    "C93_from",
    "C93_from_u128",
    "C93_to",
    "C93_shift",
    "C93_mul_machine",
    "C93_add_sub",
    "C93_bits"
   ],
   "note": ""
  },
  {
   "property": "C94",
   "status": "proved",
   "theorems": [
    "C94_neg",
    "C94_add_sub",
    "C94_mul",
    "C94_div",
    "C94_to_i128",
    "C94_sqrt_negative"
   ],
   "note": ""
  },
  {
   "property": "C95",
   "status": "proved",
   "theorems": [
    "C95_again",
    "C95_fixed",
    "C95_monotone",
    "C95_bracket",
    "C95_mirror",
    "C95_shift",
    "C95_multiples",
    "C95_multiples_monotone",
    "C95_multiples_odd",
    "C95_multiples_sign",
    "C95_multiples_one"
   ],
   "note": ""
  },
  {
   "property": "C96",
   "status": "proved",
   "theorems": [
    "C96_reflects",
    "C96_same_order",
    "C96_bound_needed"
   ],
   "note": ""
  },
  {
   "property": "C97",
   "status": "proved",
   "theorems": [
    "C97_dot",
    "C97_fails"
   ],
   "note": ""
  },
  {
   "property": "C98",
   "status": "proved",
   "theorems": [
    "C98_horner",
    "C98_small",
    "C98_fails"
   ],
   "note": ""
  },
  {
   "property": "C99",
   "status": "proved",
   "theorems": [
    "C99_rmul",
    "C99_saturating_rmul",
    "C99_rdiv",
    "C99_recip",
    "C99_rdiv_int",
    "C99_int_rdiv",
    "C99_int_rdiv_fp",
    "C99_integral",
    "C99_int_part",
    "C99_from_decimal",
    "C99_to_string"
   ],
   "note": ""
  },
  {
   "property": "C100",
   "status": "proved",
   "theorems": [
    "C100_rmul",
    "C100_rdiv",
    "C100_recip",
    "C100_rdiv_int",
    "C100_integral",
    "C100_half_sum"
   ],
   "note": ""
  },
  {
   "property": "C101",
   "status": "proved",
   "theorems": [
    "C101_rmul",
    "C101_rmul_overflow",
    "C101_rdiv",
    "C101_rdiv_overflow",
    "C101_rdiv_int",
    "C101_recip",
    "C101_saturating_rmul",
    "C101_unchecked"
   ],
   "note": ""
  },
  {
   "property": "C102",
   "status": "proved",
   "theorems": [
    "C102_checked",
    "C102_features",
    "C102_panics",
    "C102_everywhere",
    "C102_answers"
   ],
   "note": ""
  },
  {
   "property": "C103",
   "status": "proved",
   "theorems": [
    "C103_distributes",
    "C103_associates"
   ],
   "note": ""
  },
  {
   "property": "C104",
   "status": "proved",
   "theorems": [
    "C104_mul_div",
    "C104_mul_div_negative",
    "C104_div_mul",
    "C104_div_mul_negative",
    "C104_recip",
    "C104_mul_div_error",
    "C104_div_mul_error"
   ],
   "note": ""
  },
  {
   "property": "C105",
   "status": "proved",
   "theorems": [
    "C105_root_of_square",
    "C105_square_of_root"
   ],
   "note": ""
  },
  {
   "property": "C106",
   "status": "proved",
   "theorems": [
    "C106_close",
    "C106_odd",
    "C106_monotone",
    "C106_scale",
    "C106_fixed"
   ],
   "note": ""
  },
  {
   "property": "C107",
   "status": "proved",
   "theorems": [
    "C107_output",
    "C107_str",
    "C107_option",
    "C107_others",
    "C107_input"
   ],
   "note": ""
  },
  {
   "property": "C108",
   "status": "proved",
   "theorems": [
    "C108_ema",
    "C108_bounded"
   ],
   "note": ""
  },
  {
   "property": "C109",
   "status": "proved",
   "theorems": [
    "C109_mean"
   ],
   "note": ""
  },
  {
   "property": "C110",
   "status": "proved",
   "theorems": [
    "C110_rmul",
    "C110_rdiv",
    "C110_recip",
    "C110_rdiv_int",
    "C110_tight",
    "C110_unchecked"
   ],
   "note": ""
  },
  {
   "property": "C111",
   "status": "proved",
   "theorems": [
    "C111_form",
    "C111_apart",
    "C111_monotone",
    "C111_exact",
    "C111_one_way",
    "C111_order"
   ],
   "note": ""
  },
  {
   "property": "C112",
   "status": "proved",
   "theorems": [
    "C112_hash",
    "C112_writes",
    "C112_slice"
   ],
   "note": ""
  },
  {
   "property": "C113",
   "status": "proved",
   "theorems": [
    "C113_shortest",
    "C113_shortest_exact"
   ],
   "note": ""
  },
  {
   "property": "C114",
   "status": "proved",
   "theorems": [
    "C114_product",
    "C114_no_gain",
    "C114_fair",
    "C114_step"
   ],
   "note": ""
  },
  {
   "property": "C115",
   "status": "proved",
   "theorems": [
    "C115_between",
    "C115_ends",
    "C115_monotone"
   ],
   "note": ""
  },
  {
   "property": "C116",
   "status": "proved",
   "theorems": [
    "C116_floor",
    "C116_ceil",
    "C116_total",
    "C116_fits"
   ],
   "note": ""
  },
  {
   "property": "C117",
   "status": "proved",
   "theorems": [
    "C117_afford",
    "C117_cover",
    "C117_overflow",
    "C117_cheap",
    "C117_root_floor",
    "C117_root_ceil",
    "C117_whole_floor",
    "C117_whole_ceil"
   ],
   "note": ""
  },
  {
   "property": "C118",
   "status": "proved",
   "theorems": [
    "C118_rdiv",
    "C118_rdiv_int",
    "C118_whole",
    "C118_root"
   ],
   "note": ""
  },
  {
   "property": "C119",
   "status": "proved",
   "theorems": [
    "C119_schedule"
   ],
   "note": ""
  },
  {
   "property": "C120",
   "status": "proved",
   "theorems": [
    "C120_split",
    "C120_nearest",
    "C120_untax"
   ],
   "note": ""
  },
  {
   "property": "C121",
   "status": "proved",
   "theorems": [
    "C121_bisect",
    "C121_root",
    "C121_quotient"
   ],
   "note": ""
  },
  {
   "property": "C122",
   "status": "proved",
   "theorems": [
    "C122_means",
    "C122_min"
   ],
   "note": ""
  },
  {
   "property": "C123",
   "status": "proved",
   "theorems": [
    "C123_down",
    "C123_up",
    "C123_cycle",
    "C123_fails"
   ],
   "note": ""
  },
  {
   "property": "C124",
   "status": "proved",
   "theorems": [
    "C124_error",
    "C124_floor",
    "C124_ceil",
    "C124_simple",
    "C124_fails"
   ],
   "note": ""
  },
  {
   "property": "C125",
   "status": "proved",
   "theorems": [
    "C125_calc",
    "C125_total",
    "C125_unread",
    "C125_failed"
   ],
   "note": ""
  },
  {
   "property": "C126",
   "status": "proved",
   "theorems": [
    "C126_rmul",
    "C126_rdiv",
    "C126_recip",
    "C126_rsqrt",
    "C126_half_sum",
    "C126_cadd",
    "C126_csub",
    "C126_cmul",
    "C126_order",
    "C126_text",
    "C126_nearest"
   ],
   "note": ""
  }
 ]
}