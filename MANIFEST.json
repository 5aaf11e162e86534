{"claims": [
 {"property": "C01", "status": "proved", "theorems": ["C01_bits_round_trip", "C01_high_bits_ignored", "C01_bits_round_trip_x87", "C01_bits_x87_others", "C01_x87_refuted", "C01_high_bits_x87"], "note": "All interchange formats, and x87: canonical patterns round-trip, C01_bits_x87_others says what every other pattern becomes (and C01_x87_refuted shows that the unrestricted round trip fails there)."},
 {"property": "C02", "status": "proved", "theorems": ["C02_value_round_trip", "C02_value_round_trip_x87", "C02_bitwise_eq", "C02_bitwise_eq_x87"], "note": ""},
 {"property": "C03", "status": "proved", "theorems": ["C03_from_bits_denotes", "C03_from_bits_denotes_x87"], "note": ""},
 {"property": "C04", "status": "partial", "theorems": ["C04_add", "C04_add_partial", "C04_add_crate", "C04_add_refuted"], "note": "Full for every format with infinities (Half, Single, Double, Quad, BFloat, Float8E5M2, X87, and the crate's fallback formats). For the NaN-only format (Float8E4M3FN) the statement is false: a negative result that overflows in a directed mode goes to the wrong side (_refuted theorem with witness). _partial covers NaN-only formats when the exact result does not overflow negatively in a directed mode; _crate gives the rule the code follows in every case."},
 {"property": "C05", "status": "partial", "theorems": ["C05_sub", "C05_sub_partial", "C05_sub_crate", "C05_sub_refuted", "C05_sub_is_add_neg"], "note": "Full for every format with infinities (Half, Single, Double, Quad, BFloat, Float8E5M2, X87, and the crate's fallback formats). For the NaN-only format (Float8E4M3FN) the statement is false: a negative result that overflows in a directed mode goes to the wrong side (_refuted theorem with witness). _partial covers NaN-only formats when the exact result does not overflow negatively in a directed mode; _crate gives the rule the code follows in every case."},
 {"property": "C06", "status": "partial", "theorems": ["C06_mul", "C06_mul_partial", "C06_mul_crate", "C06_mul_refuted"], "note": "Full for every format with infinities (Half, Single, Double, Quad, BFloat, Float8E5M2, X87, and the crate's fallback formats). For the NaN-only format (Float8E4M3FN) the statement is false: a negative result that overflows in a directed mode goes to the wrong side (_refuted theorem with witness). _partial covers NaN-only formats when the exact result does not overflow negatively in a directed mode; _crate gives the rule the code follows in every case."},
 {"property": "C07", "status": "partial", "theorems": ["C07_div", "C07_div_partial", "C07_div_crate", "C07_div_refuted"], "note": "Full for every format with infinities (Half, Single, Double, Quad, BFloat, Float8E5M2, X87, and the crate's fallback formats). For the NaN-only format (Float8E4M3FN) the statement is false: a negative result that overflows in a directed mode goes to the wrong side (_refuted theorem with witness). _partial covers NaN-only formats when the exact result does not overflow negatively in a directed mode; _crate gives the rule the code follows in every case."},
 {"property": "C08", "status": "partial", "theorems": ["C08_mul_add_partial", "C08_mul_add_crate_partial", "C08_mul_add_any", "C08_mul_add_uncut", "C08_mul_add_cut", "C08_mul_add_above", "C08_mul_add_panics", "C08_mul_add_refuted", "C08_mul_add_panic_refuted"], "note": "The code mis-rounds, and in one case panics, when a subnormal addend and a product below the normal range cancel (C08_mul_add_refuted, C08_mul_add_panic_refuted). Correct rounding is proved under fma_safe, which excludes that situation; outside, the behaviour is determined completely: C08_mul_add_uncut and C08_mul_add_cut say which number is rounded for every finite operand triple, C08_mul_add_panics exactly when the code panics, C08_mul_add_any how far off the result can be; NaN and infinite operands are unconditional (C10, C11)."},
 {"property": "C09", "status": "partial", "theorems": ["C09_add_r_flags", "C09_sub_r_flags", "C09_mul_r_flags", "C09_div_r_flags", "C09_from_u128_r_flags", "C09_from_i128_r_flags", "C09_convert_r_flags", "C09_mul_add_r_flags_partial"], "note": "Add, sub, mul, div, integer and float conversions unconditional; mul_add under fma_safe. Overflow flags follow the crate's rule: OVERFLOW is raised when the result is an infinity, an overflow delivered as the largest finite value raises INEXACT only (documented in the crate)."},
 {"property": "C10", "status": "proved", "theorems": ["C10_add_r_infinite", "C10_sub_r_infinite", "C10_mul_r_infinite", "C10_div_r_special", "C10_c_fmod_special", "C10_ieee_rem_special", "C10_mul_add_r_infinite"], "note": ""},
 {"property": "C11", "status": "partial", "theorems": ["C11_add_r_nan", "C11_sub_r_nan", "C11_mul_r_nan", "C11_div_r_nan", "C11_c_fmod_nan", "C11_ieee_rem_nan", "C11_mul_add_r_nan", "C11_round_to_integral_special", "C11_next_up_nan", "C11_next_down_nan", "C11_quieted_wf", "C11_quiet_partial", "C11_quiet_refuted", "C11_quiet_exact"], "note": "Propagation is unconditional. The quieted result is not signaling except for x87 NaNs with a clear integer bit, where the property is false (C11_quiet_refuted); C11_quiet_exact shows that these are the only exceptions."},
 {"property": "C12", "status": "proved", "theorems": ["C12_add_zero_sign", "C12_sub_zero_sign"], "note": ""},
 {"property": "C13", "status": "proved", "theorems": ["C13_partial_cmp", "C13_lt", "C13_eq", "C13_reflexive", "C13_transitive", "C13_antisymmetric", "C13_gt", "C13_ge"], "note": ""},
 {"property": "C14", "status": "proved", "theorems": ["C14_next_up", "C14_next_down", "C14_next_down_next_up"], "note": ""},
 {"property": "C15", "status": "proved", "theorems": ["C15_from_u128", "C15_from_i128"], "note": ""},
 {"property": "C16", "status": "partial", "theorems": ["C16_to_u128", "C16_to_i128_partial", "C16_to_i128_refuted", "C16_is_exact_refuted", "C16_to_i128_width_1", "C16_to_u128_panics", "C16_to_i128_panics"], "note": "to_u128 full, a width of 0 or above 128 panics. to_i128 full except width 1 with a non-negative argument, where the code always panics (C16_to_i128_width_1, C16_to_i128_refuted), and is_exact of -0, which is true although the round trip loses the sign (C16_is_exact_refuted)."},
 {"property": "C17", "status": "proved", "theorems": ["C17_round_to_integral", "C17_round_to_integral_special", "C17_is_integer"], "note": ""},
 {"property": "C18", "status": "proved", "theorems": ["C18_c_fmod"], "note": ""},
 {"property": "C19", "status": "proved", "theorems": ["C19_ieee_rem", "C19_nearest_quotient"], "note": ""},
 {"property": "C20", "status": "partial", "theorems": ["C20_convert", "C20_convert_partial", "C20_convert_crate", "C20_convert_infinite", "C20_convert_nan", "C20_convert_refuted", "C20_convert_nan_only"], "note": "Full for every format with infinities (Half, Single, Double, Quad, BFloat, Float8E5M2, X87, and the crate's fallback formats). For the NaN-only format (Float8E4M3FN) the statement is false: a negative result that overflows in a directed mode goes to the wrong side (_refuted theorem with witness). _partial covers NaN-only formats when the exact result does not overflow negatively in a directed mode; _crate gives the rule the code follows in every case."},
 {"property": "C21", "status": "proved", "theorems": ["C21_loses_info", "C21_widening"], "note": ""},
 {"property": "C22", "status": "partial", "theorems": ["C22_scalbn", "C22_scalbn_partial", "C22_scalbn_crate", "C22_scalbn_special", "C22_scalbn_refuted"], "note": "Full for every format with infinities (Half, Single, Double, Quad, BFloat, Float8E5M2, X87, and the crate's fallback formats). For the NaN-only format (Float8E4M3FN) the statement is false: a negative result that overflows in a directed mode goes to the wrong side (_refuted theorem with witness). _partial covers NaN-only formats when the exact result does not overflow negatively in a directed mode; _crate gives the rule the code follows in every case."},
 {"property": "C23", "status": "proved", "theorems": ["C23_ilogb_normal", "C23_ilogb_special", "C23_frexp_r_normal", "C23_frexp_r_special"], "note": ""},
 {"property": "C24", "status": "proved", "theorems": ["C24_get_exact_inverse"], "note": ""},
 {"property": "C25", "status": "proved", "theorems": ["C25_neg", "C25_neg_involutive", "C25_abs", "C25_copy_sign", "C25_abs_value", "C25_neg_bits", "C25_sign_bits", "C25_sign_bits_x87"], "note": ""},
 {"property": "C26", "status": "proved", "theorems": ["C26_min", "C26_max", "C26_minimum", "C26_maximum"], "note": ""},
 {"property": "C27", "status": "proved", "theorems": ["C27_is_denormal", "C27_is_normal", "C27_is_smallest", "C27_is_smallest_normalized", "C27_is_largest", "C27_finite_magnitudes", "C27_partition", "C27_constants", "C27_predicates_bits", "C27_predicates_bits_x87"], "note": ""},
 {"property": "C28", "status": "partial", "theorems": ["C28_arithmetic", "C28_order", "C28_mul_add_partial", "C28_mul_add_outcome", "C28_mul_add_panics", "C28_mul_add_refuted", "C28_to_int_partial", "C28_to_i128_refuted", "C28_to_bits", "C28_from_bits", "C28_from_int"], "note": "All operations of the interface on all reachable values, except mul_add outside fma_safe and to_i128 of width 1, where the code does panic (refuted with reachable witnesses); C28_mul_add_panics says exactly when mul_add panics. String parsing and formatting are C33 and C34."},
 {"property": "C29", "status": "proved", "theorems": ["C29_reachable_canonical", "C29_arithmetic", "C29_mul_add", "C29_convert"], "note": ""},
 {"property": "C30", "status": "partial", "theorems": ["C30_add_r_comm", "C30_mul_r_comm", "C30_mul_add_r_comm", "C30_mul_r_neg_partial", "C30_div_r_neg_partial", "C30_add_r_neg_partial", "C30_sub_r_neg_partial", "C30_mul_add_r_neg_partial", "C30_convert_r_neg_partial", "C30_scalbn_r_neg_partial", "C30_from_i128_r_neg", "C30_round_to_integral_neg", "C30_c_fmod_neg", "C30_ieee_rem_neg", "C30_mul_r_neg_refuted", "C30_add_r_monotone", "C30_sub_r_monotone", "C30_mul_r_monotone", "C30_div_r_monotone", "C30_mul_add_r_monotone_partial", "C30_mul_add_r_monotone_refuted", "C30_mul_r_neg_special", "C30_div_r_neg_special", "C30_add_r_neg_special", "C30_sub_r_neg_special"], "note": "Commutativity, and monotonicity of add, sub, mul and div, unconditional for all formats; mul_add is monotone within fma_safe and not outside (C30_mul_add_r_monotone_refuted). Negation symmetry of add, sub, mul, div, mul_add (where it panics it also panics for the negated operands), convert, scalbn, from_i128, round_to_integral and both remainders: all formats and modes, except that for the NaN-only format the directed modes are missing in those that can overflow, where it is refuted; infinite operands and zero divisors of add, sub, mul, div in all formats and modes. A sum that is exactly zero is +0 in the nearest modes whatever the signs."},
 {"property": "C31", "status": "partial", "theorems": ["C31_hexadecimal_partial", "C31_long_refuted"], "note": "All formats of the crate, all modes, literals shorter than 2^29 - 2^20 bytes (511 MiB). False for 2^29 digits and more (C31_long_refuted): the saturating i32 arithmetic loses the scale."},
 {"property": "C32", "status": "partial", "theorems": ["C32_nearest_partial", "C32_backward", "C32_directed_partial", "C32_exact_partial", "C32_separated_partial", "C32_crate_formats", "C32_directed_refuted", "C32_spurious_inexact_refuted", "C32_missing_inexact_refuted", "C32_long_refuted", "C32_underflow_refuted"], "note": "Nearest modes: the value is the correctly rounded one for every decimal literal shorter than 2^25 bytes, every format with dec_ok (all formats of the crate), and the loop terminates. All modes: the result is correctly rounded for a number within 2^-124 (relative) of the written one. Every mode, value and status are exactly right when no number of the format (and no midpoint) lies within about 2^-123 (relative) of the written number (C32_separated_partial), and for literals of at most 38 digits and exponents -54..17, and false in general (C32_directed_refuted); the INEXACT flag is false in both directions (C32_spurious_inexact_refuted, C32_missing_inexact_refuted). 1 followed by 2^32 zeros is read as 1 (C32_long_refuted)."},
 {"property": "C33", "status": "partial", "theorems": ["C33_rejects", "C33_infinity", "C33_nan", "C33_accepts_partial", "C33_total_partial", "C33_long_refuted"], "note": "Every text outside the grammar is an error (no side conditions); every text of the grammar shorter than 2^25 bytes is accepted, without panic, with a well-formed result. The length bound is the only restriction: hexadecimal literals of 2^31 digits panic (C33_long_refuted)."},
 {"property": "C34", "status": "proved", "theorems": ["C34_normal", "C34_digits", "C34_digits_refuted", "C34_zero", "C34_infinity", "C34_nan", "C34_grammar", "C34_accepted", "C34_length", "C34_directed_refuted"], "note": "Every normal value, both nearest modes, every width and the alternate form, for every format with dec_ok (all formats of the crate): the parser returns the very value. Zeros and infinities come back with their sign, NaNs as a quiet NaN. The same for every explicit precision P with 2^PRECISION < 10^(P-1) (C34_digits); one digit less is not enough (C34_digits_refuted). Parsing in a directed mode does not give the value back (C34_directed_refuted)."},
 {"property": "C35", "status": "partial", "theorems": ["C35_text_partial", "C35_error_partial", "C35_zero", "C35_infinity", "C35_precision_0_refuted", "C35_precision_0", "C35_expansion_unique", "C35_too_precise", "C35_precision_huge_refuted", "C35_nearest_refuted"], "note": "All widths, both forms, precisions 1 to (2^64-59)/196: the text is one of the four layouts of SpecFmt.v for the number rounded to P digits, to nearest with ties away from zero, or, if its first digit is 5 or more, possibly truncated (which of these is in C64); so within a unit of the last place, and exact if the value has at most P digits. False for precision 0 (panic, or 1 printed as 1.0E+1: C35_precision_0_refuted) and for larger precisions (overflow panic); C35_precision_0 and C35_too_precise say exactly what happens there. The decimal is not always the nearest one (C35_nearest_refuted)."},
 {"property": "C36", "status": "proved", "theorems": ["C36_through_truncation", "C36_omsb", "C36_olsb", "C36_cmp", "C36_get_bit", "C36_set_bit", "C36_shift_left", "C36_shift_right", "C36_extract", "C36_from_limbs", "C36_each_chunk_div", "C36_increment", "C36_decrement", "C36_add", "C36_sub", "C36_widening_mul", "C36_mul", "C36_div", "C36_add_or_sub"], "note": ""},
 {"property": "C37", "status": "proved", "theorems": ["C37_bits", "C37_values", "C37_denotes", "C37_neg", "C37_neg_canonical", "C37_abs", "C37_copy_sign", "C37_bitwise_eq", "C37_zero", "C37_infinity", "C37_nan", "C37_is_signaling"], "note": ""},
 {"property": "C38", "status": "partial", "theorems": ["C38_add_partial", "C38_mul_partial", "C38_mul_sign_refuted", "C38_mul_zero_sign_refuted", "C38_mul_invalid_refuted", "C38_add_signaling_refuted", "C38_add_zero_sign_refuted"], "note": "Categories and returned operands are proved for all inputs (C38_add_partial, C38_mul_partial). The sign of special products, the flags of 0 * infinity and of signaling NaNs and the sign of -0 + +0 are not IEEE 754's; each is refuted with a witness."},
 {"property": "C39", "status": "partial", "theorems": ["C39_round_trip", "C39_round_trip_nan_partial", "C39_nan_refuted"], "note": "All finite values of all formats and infinities; NaNs of IEEE formats up to quieting. False for NaNs of the NaN-only format: loses_info is true on the way back (C39_nan_refuted)."},
 {"property": "C40", "status": "proved", "theorems": ["C40_i128_round_trip", "C40_u128_round_trip", "C40_float_int_float"], "note": ""},
 {"property": "C41", "status": "proved", "theorems": ["C41_sterbenz"], "note": ""},
 {"property": "C42", "status": "proved", "theorems": ["C42_sub_r_self", "C42_mul_r_one", "C42_div_r_one", "C42_div_r_self", "C42_add_r_zero", "C42_mul_add_r_zero"], "note": ""},
 {"property": "C43", "status": "proved", "theorems": ["C04_add", "C05_sub", "C06_mul", "C07_div", "C22_scalbn", "C20_convert"], "note": ""},
 {"property": "C44", "status": "proved", "theorems": ["C04_add_crate", "C05_sub_crate", "C06_mul_crate", "C07_div_crate", "C22_scalbn_crate", "C20_convert_crate"], "note": ""},
 {"property": "C45", "status": "proved", "theorems": ["C45_qnan", "C45_snan"], "note": ""},
 {"property": "C46", "status": "partial", "theorems": ["C46_split", "C46_read", "C46_div", "C46_div_special", "C46_div_nan", "C46_fmod", "C46_fmod_special", "C46_fmod_infinity", "C46_fmod_nan", "C46_rem", "C46_rem_special", "C46_rem_infinity", "C46_rem_nan", "C46_mul_add_partial", "C46_round_to_integral", "C46_round_to_integral_special", "C46_next_up", "C46_next_up_nan", "C46_to_u128", "C46_from_u128", "C46_inverse", "C46_next_down", "C46_next_down_nan", "C46_from_i128", "C46_to_i128", "C46_signaling", "C46_signaling_refuted", "C46_next_up_refuted", "C46_div_one_refuted", "C46_largest_refuted", "C46_div_one_inexact_refuted", "C46_to_u128_all", "C46_to_i128_all", "C46_mul_add_any", "C46_mul_add_infinite", "C46_mul_add_nan", "C46_signaling_second", "C46_signaling_rest", "C46_inverse_special"], "note": "All operations listed, for every base format satisfying pair_ok; mul_add for all canonical triples: correctly rounded, or the rounding of the product cut as in C08, or a panic (C46_mul_add_any), and for special operands. Conversions to integers of special values included. The panics the statement mentions do occur for ordinary arguments (C46_signaling_refuted, C46_next_up_refuted, C46_div_one_refuted), and rounding the operands to 106 bits loses information silently (C46_div_one_inexact_refuted)."},
 {"property": "C47", "status": "proved", "theorems": ["C47_le", "C47_gt", "C47_ge", "C47_partial_cmp", "C47_lt", "C47_eq", "C47_min", "C47_max", "C47_minimum", "C47_maximum", "C47_cmp_abs_partial", "C47_cmp_abs_refuted", "C47_noncanonical_refuted"], "note": "For canonical pairs and special values. The order by magnitude, which is not used by partial_cmp, is wrong (C47_cmp_abs_refuted), and the order of non-canonical pairs, which the constructors never return but from_bits does, is wrong (C47_noncanonical_refuted)."},
 {"property": "C48", "status": "proved", "theorems": ["C48_predicates", "C48_is_normal", "C48_is_normal_special", "C48_is_integer", "C48_is_integer_special", "C48_is_denormal", "C48_scalbn", "C48_scalbn_exact", "C48_ilogb", "C48_ilogb_special", "C48_frexp", "C48_smallest", "C48_smallest_normalized", "C48_largest", "C48_is_smallest", "C48_is_smallest_normalized", "C48_is_largest", "C48_scalbn_special", "C48_frexp_special"], "note": ""},
 {"property": "C49", "status": "partial", "theorems": ["C49_hex", "C49_dec", "C49_inf", "C49_rejects", "C49_accepts", "C49_parse_refuted", "C49_nan"], "note": "Hexadecimal texts below 511 MiB, decimal ones below 2^25; directed modes within the backward error of C32. Panics for values between the largest pair and the 106-bit overflow threshold (C49_parse_refuted) and for signaling NaN literals; a NaN payload loses its low 53 bits (C49_nan)."},
 {"property": "C50", "status": "partial", "theorems": ["C50_text_partial", "C50_precision_0", "C50_too_precise", "C50_zero", "C50_special", "C50_round_trip", "C50_round_trip_digits"], "note": "As C34 and C35 for the pair rounded to 106 bits; precisions 1 to (2^64-59)/196, and what happens outside (C50_precision_0, C50_too_precise). The round trip holds for pairs that are 106-bit numbers; wider pairs are rounded before they are printed."},
 {"property": "C51", "status": "proved", "theorems": ["C51_sum", "C51_difference", "C51_same_sign", "C51_exact", "C51_self", "C51_cancellation_refuted", "C51_commutes_refuted", "C51_top_refuted"], "note": "Both nearest modes. The operands' high halves add up to at most 2^(MAX_EXP-4); the directed modes are C63; the last 4 binades are C66; there a sum of finite pairs can be NaN (C51_top_refuted; exactly when: C66_sum_nan). The bound is relative to the operands; relative to the sum it is false under cancellation (C51_cancellation_refuted), and addition does not commute (C51_commutes_refuted)."},
 {"property": "C52", "status": "proved", "theorems": ["C52_product", "C52_relative", "C52_exact", "C52_underflow_refuted"], "note": "Both nearest modes, products between 2^(MIN_EXP+2p+1) and 2^(MAX_EXP-4). The directed modes are C63; larger products are C66, smaller ones C65, where the low half is lost (C52_underflow_refuted) and some products panic (C61_product_refuted)."},
 {"property": "C53", "status": "partial", "theorems": ["C53_add", "C53_sub", "C53_mul", "C53_div", "C53_rem", "C53_add_assign", "C53_sub_assign", "C53_mul_assign", "C53_div_assign", "C53_rem_assign", "C53_mul_add_partial", "C53_from_i128", "C53_from_u128", "C53_to_u128", "C53_to_i128_partial", "C53_scalbn", "C53_frexp", "C53_convert", "C53_default", "C53_from_str_hex_partial", "C53_from_str_dec_partial", "C53_from_str_err", "C53_unwrap_add", "C53_unwrap_mul", "C53_unwrap_from_i128", "C53_map_unwrap", "C53_map_map", "C53_map_from_u128", "C53_pair_mul_relative", "C53_pair_div", "C53_pair_rem", "C53_pair_default", "C53_pair_from_str_partial", "C53_pair_from_str_err", "C53_pair_mul_add_partial", "C53_pair_from_i128", "C53_pair_from_u128", "C53_pair_to_u128", "C53_pair_to_i128_partial", "C53_pair_scalbn", "C53_pair_frexp", "C53_pair_mul_assign_relative", "C53_pair_div_assign", "C53_pair_rem_assign", "C53_pair_add", "C53_pair_sub", "C53_pair_mul", "C53_pair_add_assign", "C53_pair_sub_assign", "C53_pair_mul_assign"], "note": "All finite operands of all formats for the operators. mul_add, to_i128 and FromStr inherit the limits of C08, C16, C31 and C32. Sums, differences and products of pairs hold for all canonical pairs (C53_pair_add, C53_pair_sub, C53_pair_mul)."},
 {"property": "C54", "status": "proved", "theorems": ["C54_debug", "C54_pair_debug"], "note": ""},
 {"property": "C55", "status": "proved", "theorems": ["C55_add", "C55_sub", "C55_mul", "C55_div", "C55_fmod", "C55_rem", "C55_formats", "C55_x87_refuted"], "note": ""},
 {"property": "C56", "status": "proved", "theorems": ["C56_order", "C56_order_x87", "C56_next_up", "C56_next_down", "C56_next_up_x87_refuted"], "note": "The seven interchange formats in full. x87: the order in full; the neighbours skip encodings (C56_next_up_x87_refuted), which the statement says."},
 {"property": "C57", "status": "proved", "theorems": ["C57_fast_two_sum", "C57_two_sum", "C57_two_product", "C57_quotient", "C57_fast_two_sum_order_refuted", "C57_two_product_underflow_refuted"], "note": "The operand order of Dekker's sequence and the lower bound on products are needed (C57_fast_two_sum_order_refuted, C57_two_product_underflow_refuted)."},
 {"property": "C58", "status": "proved", "theorems": ["C58_add", "C58_sub", "C58_mul", "C58_div", "C58_mul_add", "C58_from_i128", "C58_convert"], "note": "IEEE-style formats; mul_add under fma_safe."},
 {"property": "C59", "status": "partial", "theorems": ["C59_formats", "C59_onto", "C59_total", "C59_unique", "C59_injective", "C59_add", "C59_sub", "C59_mul", "C59_div", "C59_fma_partial", "C59_neg", "C59_abs", "C59_compare", "C59_scalbn", "C59_round_to_integral", "C59_next_up", "C59_next_down", "C59_frexp", "C59_from_u128", "C59_from_i128", "C59_convert"], "note": "The seven formats with infinities (Float8E4M3FN has none and is outside Flocq's type). mul_add only under fma_safe (C59_fma_partial; C08 has the panics outside). frexp for Normal values: of the others Flocq's exponent is a convention."},
 {"property": "C60", "status": "partial", "theorems": ["C60_add64", "C60_sub64", "C60_mul64", "C60_div64", "C60_compare64", "C60_fma64_partial", "C60_add32", "C60_sub32", "C60_mul32", "C60_div32", "C60_compare32", "C60_fma32_partial", "C60_signaling_refuted"], "note": "mul_add only under fma_safe and up to NaN payloads (C60_fma64_partial, C60_fma32_partial). For signaling operands Flocq does not set the quiet bit, so the patterns differ (C60_signaling_refuted)."},
 {"property": "C61", "status": "partial", "theorems": ["C61_reachable", "C61_sum", "C61_difference", "C61_product_partial", "C61_product_outcome", "C61_product_panics", "C61_product_refuted", "C61_wide", "C61_mul_add", "C61_inverse", "C61_unreadable", "C61_to_u128", "C61_halves", "C61_order", "C61_canonical_refuted"], "note": "Complete but for products of high halves below the smallest normal number: for some of them the code panics (C61_product_refuted, two canonical pairs near 2^-537), C61_product_panics says exactly which. Reachable pairs need not be canonical (C61_canonical_refuted)."},
 {"property": "C62", "status": "partial", "theorems": ["C62_sum_ok_partial", "C62_difference_ok_partial", "C62_product_ok_partial", "C62_sum_ok_refuted", "C62_product_ok_refuted", "C62_sum_inexact_refuted", "C62_product_inexact_refuted"], "note": "False in both directions: C62_sum_ok_refuted, C62_product_ok_refuted (no flag, inexact), C62_sum_inexact_refuted, C62_product_inexact_refuted (flag, exact). Proved for all canonical pairs: what an OK status implies."},
 {"property": "C63", "status": "proved", "theorems": ["C63_sum", "C63_difference", "C63_product", "C63_canonical", "C63_canonical_refuted", "C63_sum_upward_refuted", "C63_sum_truncated_refuted", "C63_product_upward_refuted", "C63_product_truncated_refuted"], "note": "The range conditions are part of the statement; smaller products are C65. C51 and C52 have sharper bounds for the nearest modes."},
 {"property": "C64", "status": "proved", "theorems": ["C64_text", "C64_total", "C64_unique", "C64_digits_unique", "C64_pair"], "note": "C64_text says that the text is the one described and no other; precision 0 and precisions too large are C35_precision_0, C35_too_precise and their C50 counterparts."},
 {"property": "C65", "status": "proved", "theorems": ["C65_product", "C65_tiny"], "note": "Which products panic is C61_product_panics and C61_product_refuted."},
 {"property": "C66", "status": "proved", "theorems": ["C66_sum", "C66_difference", "C66_sum_nan", "C66_difference_nan", "C66_product", "C66_sum_early_refuted", "C66_product_early_refuted", "C66_directed_refuted"], "note": "Nearest modes, no range for sums. Which sums are NaN is said exactly (lost_tie, C66_sum_nan, C66_difference_nan; C51_top_refuted is one). Results can be infinite although a pair represents them exactly (C66_sum_early_refuted, C66_product_early_refuted), so the two lower bounds for infinite results are part of the statement. In the directed modes an overflow leaves a pair with the largest number in both halves that calls itself finite and prints as +Inf (C66_directed_refuted)."},
 {"property": "C67", "status": "proved", "theorems": ["C67_division_by_multiplication", "C67_doubling", "C67_scalbn", "C67_minus_one", "C67_mul_add_one", "C67_compare_by_difference"], "note": "NaN operands are included except for multiplication and division by minus one: there neg flips the sign of a NaN and mul_r and div_r keep it."},
 {"property": "C68", "status": "proved", "theorems": ["C68_mul_comm", "C68_comm_special", "C68_mul_comm_refuted", "C68_add_neg", "C68_sub_neg", "C68_add_neg_refuted", "C68_mul_neg", "C68_mul_neg_refuted", "C68_sub_self", "C68_mul_one"], "note": "The restrictions are part of the statement and needed: products of zeros and infinities take the sign of one operand (C68_mul_comm_refuted, C68_mul_neg_refuted), and in the directed modes the status of a sum depends on the sign of an intermediate zero (C68_add_neg_refuted)."},
 {"property": "C69", "status": "proved", "theorems": ["C69_run", "C69_stops", "C69_total", "C69_onto", "C69_safe", "C69_payload_blind"], "note": "The machine is a client of the crate, not part of it; mul_add is left out because it can panic (C59_fma_partial), operands of two formats stop the machine as Rust's types forbid them."},
 {"property": "C70", "status": "proved", "theorems": ["C70_flags"], "note": "The evaluator is a client of the crate (Expr.v), not part of it."},
 {"property": "C71", "status": "proved", "theorems": ["C71_encloses", "C71_point"], "note": "The interval arithmetic is a client of the crate (Interval.v), not part of it. Formats with infinities; C71_point for all formats."},
 {"property": "C72", "status": "proved", "theorems": ["C72_sum", "C72_sum_reported"], "note": "The summation is a client of the crate (Sum.v). In directed modes the crate does not report an overflow that is delivered as the largest number, so the first bound is a priori."},
 {"property": "C73", "status": "proved", "theorems": ["C73_expression", "C73_dot", "C73_horner"], "note": "The evaluator is a client of the crate (Expr.v). C73_horner takes the bounds on intermediate results as a hypothesis (in_bounds); C73_dot derives them."},
 {"property": "C74", "status": "proved", "theorems": ["C74_expression", "C74_quotient", "C74_sum", "C74_dot"], "note": "The evaluator is a client of the crate (PairExpr.v). The range conditions are part of the statement: C66 and C65 say what happens beyond."},
 {"property": "C75", "status": "proved", "theorems": ["C75_gcd", "C75_units", "C75_walk", "C75_count"], "note": "The loops are clients of the crate (Loops.v) with a bound on the number of tests; that the bound suffices is the termination claim. The walk is stated for the formats of the crate, where encodings are defined."},
 {"property": "C76", "status": "proved", "theorems": ["C76_sum", "C76_dot", "C76_errors"], "note": "The algorithms are clients of the crate (Compensated.v). The range conditions are part of the statement; products must be zero or at least 2^(MIN_EXP+p), below which their errors are not representable (C57_two_product_underflow_refuted)."},
 {"property": "C77", "status": "proved", "theorems": ["C77_bisect", "C77_midpoint", "C77_upward_refuted"], "note": "The loop is a client of the crate (Bisect.v) with a bound on the number of rounds; that the bound suffices is the termination claim. C77_upward_refuted shows that the nearest modes are needed."},
 {"property": "C78", "status": "proved", "theorems": ["C78_sort", "C78_sort_nan_refuted", "C78_max", "C78_min", "C78_maximum", "C78_minimum"], "note": "The sort and the folds are clients of the crate (Sort.v). Without NaNs, as stated; C78_sort_nan_refuted shows what happens with one."},
 {"property": "C79", "status": "proved", "theorems": ["C79_compare", "C79_min_max", "C79_to_int", "C79_ilogb", "C79_sign", "C79_round_to_integral", "C79_constant", "C79_integer"], "note": "C79_constant needs infinities in the narrow format, where constants beyond its range go; C79_integer needs the integer to be exact in the format, as stated."},
 {"property": "C80", "status": "proved", "theorems": ["C80_arithmetic", "C80_division", "C80_exact", "C80_input", "C80_output", "C80_invalid_nan", "C80_nan_invalid", "C80_nan_only_refuted", "C80_pair_flags", "C80_pair_others"], "note": "No well-formedness of operands assumed. In the NaN-only format overflow delivers a NaN without INVALID_OP (C80_nan_only_refuted), hence the restriction to formats with infinities in C80_nan_invalid."},
 {"property": "C81", "status": "proved", "theorems": ["C81_constants", "C81_numbers", "C81_patterns", "C81_pair"], "note": "The literals are in format_table and pattern_table (Table.v); patterns of x87 are C03."},
 {"property": "C82", "status": "proved", "theorems": ["C82_floats", "C82_pairs", "C82_operators", "C82_pair_operators", "C82_arithmetic", "C82_mul_add", "C82_queries", "C82_to_int", "C82_to_bits", "C82_from_bits", "C82_from_int", "C82_from_str", "C82_fmt", "C82_pair_arithmetic", "C82_pair_from_int", "C82_pair_to_int", "C82_pair_bits", "C82_pair_from_str", "C82_pair_fmt", "C82_to_i128_width_1", "C82_to_u128_too_wide", "C82_precision_refuted"], "note": "The release build is modelled by Release.v and ReleaseTop.v, copies of the model with the primitives exchanged. The two differences are C82_to_i128_width_1 and C82_precision_refuted."},
 {"property": "C83", "status": "partial", "theorems": ["C83_outcome", "C83_partial", "C83_refuted", "C83_pair_outcome", "C83_pair_partial", "C83_pair_refuted"], "note": "C83_outcome says what is printed for every literal; the round trip itself fails for some literals rounded toward zero that begin with 5 to 9 (C83_refuted, C83_pair_refuted)."},
 {"property": "C84", "status": "proved", "theorems": ["C84_integers", "C84_sharp", "C84_pair_sum", "C84_pair_difference", "C84_pair_product", "C84_pair_integers", "C84_pair_refuted"], "note": "The evaluators are clients of the crate (IntExpr.v, PairInt.v). C84_pair_refuted shows that some bound is needed for pairs; that 2^(2p-4) is the largest is not claimed, and nothing is said about the statuses of pairs (C62)."},
 {"property": "C85", "status": "proved", "theorems": ["C85_next_up", "C85_next_down", "C85_up_down", "C85_down_up", "C85_climb", "C85_back_refuted"], "note": "Beyond the largest half next_up panics (C46_next_up_refuted); pairs of more than 2p bits are rounded first (C85_back_refuted)."},
 {"property": "C86", "status": "proved", "theorems": ["C86_split", "C86_dekker", "C86_directed_refuted", "C86_overflow_refuted"], "note": "The algorithms are clients of the crate (Dekker.v). C86_directed_refuted and C86_overflow_refuted show that the mode and the range are needed."},
 {"property": "C87", "status": "partial", "theorems": ["C87_read", "C87_read_hexadecimal", "C87_print_digits", "C87_print_default", "C87_pair", "C87_print_partial", "C87_print_refuted"], "note": "Reading and default-precision printing are fully ordered. With a given precision C87_print_partial leaves out exactly the numbers beginning with 5 to 9 between the same neighbouring decimals, for which the order can fail (C87_print_refuted)."},
 {"property": "C88", "status": "proved", "theorems": ["C88_fract", "C88_rem_euclid", "C88_rem_euclid_strict_refuted", "C88_div_euclid_integers", "C88_div_euclid_refuted", "C88_midpoint", "C88_clamp", "C88_clamp_panics"], "note": "The functions are clients of the crate (LibFun.v), written like those of Rust's core library. The midpoint asks for PRECISION + 5 <= MAX_EXP - MIN_EXP, which all formats of the crate meet. C88_rem_euclid_strict_refuted and C88_div_euclid_refuted show what does not hold."},
 {"property": "C89", "status": "proved", "theorems": ["C89_sqrt", "C89_product_above", "C89_product_below", "C89_subnormal_refuted"], "note": "The algorithm is a client of the crate (Sqrt.v). The restriction to normal numbers comes from the cut products of C08; C89_subnormal_refuted shows that it is needed."},
 {"property": "C90", "status": "proved", "theorems": ["C90_fraction", "C90_pattern", "C90_scale_bits", "C90_ilogb_bits", "C90_magic", "C90_magic_integral", "C90_magic_toward_zero_refuted", "C90_magic_away_refuted", "C90_magic_zero_sign_refuted", "C90_magic_range_refuted"], "note": "The programs are clients of the crate (BitTricks.v). The exponent of the largest numbers, MAX_EXP, is left out because it carries the NaN of Float8E4M3FN."},
 {"property": "C91", "status": "proved", "theorems": ["C91_expansion", "C91_sum_sign", "C91_dot_sign", "C91_orient", "C91_fsum", "C91_fdot", "C91_fsum_directed", "C91_fdot_directed", "C91_directed_refuted"], "note": "The programs are clients of the crate (Expansion.v, Fsum.v). C91_directed_refuted shows that the nearest modes are needed."},
 {"property": "C92", "status": "proved", "theorems": ["C92_flags_determine", "C92_operations", "C92_closed", "C92_queries", "C92_from_bits", "C92_accumulate", "C92_eq", "C92_cmp", "C92_cmp_dual", "C92_cmp_transitive", "C92_expected", "C92_pair_eq", "C92_pair_cmp"], "note": "What the bitflags macro generates is not in /repo; the definitions of Outcomes.v follow its documentation (version 2). The derived traits are those of the Rust language. StatusAnd is modelled for values of the two float types; the order of pairs is that of C47 (proper pairs), and C92_expected is about IeeeFloat."},
 {"property": "C93", "status": "proved", "theorems": ["C93_lerp_value", "C93_lerp", "C93_lerp_end", "C93_lerp_end_refuted", "C93_blend_ends", "C93_blend_monotone_refuted", "C93_blend_same_refuted"], "note": "The programs are clients of the crate (Lerp.v). The three refutations say what each formula does not guarantee."}
]}
