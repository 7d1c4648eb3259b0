{
 "claims": [
  {
   "property": "C01",
   "status": "proved",
   "theorems": [
    "C01_add_exact",
    "C01_add_overflow_exits",
    "C01_add_u32_exact",
    "C01_add_u32_overflow_exits",
    "C01_sub_exact",
    "C01_sub_negative_exits",
    "C01_sub_negative_refuted"
   ],
   "note": "exact sums/differences and overflow exits; the clause 'a negative difference always exits' is false when y has more units (C01_sub_negative_refuted)"
  },
  {
   "property": "C02",
   "status": "proved",
   "theorems": [
    "C02_mul_exact",
    "C02_mul_capacity_exits",
    "C02_mul_unit_exact"
   ],
   "note": "all capacities"
  },
  {
   "property": "C03",
   "status": "proved",
   "theorems": [
    "C03_div_exact",
    "C03_mod_exact",
    "C03_div_unit_exact",
    "C03_div_by_zero",
    "C03_div_full_width_le",
    "C03_div_full_width_exits",
    "C03_div_total_refuted"
   ],
   "note": "all x and all divisors; a 9-unit divisor below x makes the process exit (C03_div_total_refuted), everything else is exact"
  },
  {
   "property": "C04",
   "status": "proved",
   "theorems": [
    "C04_shl_exact",
    "C04_shl_overflow_exits",
    "C04_shl_zero",
    "C04_shr_exact"
   ],
   "note": ""
  },
  {
   "property": "C05",
   "status": "proved",
   "theorems": [
    "C05_compare_is_integer_order",
    "C05_operators",
    "C05_canonical",
    "C05_set64",
    "C05_set32"
   ],
   "note": ""
  },
  {
   "property": "C06",
   "status": "proved",
   "theorems": [
    "C06_print_decimal",
    "C06_print_hex",
    "C06_parse_decimal",
    "C06_parse_decimal_exits",
    "C06_parse_hex",
    "C06_parse_hex_exits",
    "C06_roundtrip_decimal",
    "C06_roundtrip_hex",
    "C06_roundtrip_decimal_large_refuted",
    "C06_rejects_garbage_refuted",
    "C06_read_token",
    "C06_read"
   ],
   "note": "canonical printing, parsing of all numerals, round trips with the exact capacity limit; refutations for large decimals and for rejection of malformed text"
  },
  {
   "property": "C07",
   "status": "proved",
   "theorems": [
    "C07_bitLen",
    "C07_bitLen_zero",
    "C07_bitLen_refuted",
    "C07_testBit",
    "C07_testBit_beyond_refuted"
   ],
   "note": "testBit in range; bitLen characterised exactly, with the refutation of the unrestricted claim (top unit starting with 54 ones) and of testBit beyond the length"
  },
  {
   "property": "C08",
   "status": "proved",
   "theorems": [
    "C08_addN",
    "C08_subN",
    "C08_add1",
    "C08_mul1",
    "C08_div1",
    "C08_mod1"
   ],
   "note": "Machine code of the six kernels, instruction by instruction; every n >= 1, aliasing allowed as stated; other memory and callee-saved registers unchanged. Trusted: the instruction semantics in X64.v and the transcription of the emitted instructions."
  },
  {
   "property": "C09",
   "status": "proved",
   "theorems": [
    "C09_isNegative",
    "C09_add",
    "C09_add_overflow_exits",
    "C09_sub",
    "C09_sub_overflow_exits",
    "C09_mul",
    "C09_mul_capacity_exits",
    "C09_neg",
    "C09_compare",
    "C09_shl",
    "C09_shr",
    "C09_shr_negative_exits"
   ],
   "note": ""
  },
  {
   "property": "C10",
   "status": "proved",
   "theorems": [
    "C10_div_floor",
    "C10_div_full_width_le",
    "C10_div_by_zero"
   ],
   "note": "divisors up to 8 units, and 9 units when |x| <= |y|; otherwise the process exits as in C03"
  },
  {
   "property": "C11",
   "status": "proved",
   "theorems": [
    "C11_read",
    "C11_text_canonical",
    "C11_negative_zero_refuted",
    "C11_roundtrip",
    "C11_parse_hex_refuted"
   ],
   "note": "canonical except for the negative zero, which is reachable (C11_negative_zero_refuted)"
  },
  {
   "property": "C12",
   "status": "proved",
   "theorems": [
    "C12_assign_unit",
    "C12_assign_units",
    "C12_assign_refuted",
    "C12_assign_i64",
    "C12_construct_int"
   ],
   "note": "the claim as stated is false: exact description of what is assigned, with C12_assign_refuted"
  },
  {
   "property": "C13",
   "status": "proved",
   "theorems": [
    "C13_add",
    "C13_sub",
    "C13_neg",
    "C13_mul",
    "C13_mul_capacity_exits",
    "C13_inv",
    "C13_inv_noncoprime_refuted",
    "C13_of_int",
    "C13_of_int_too_small_exits",
    "C13_of_int_unreduced_refuted"
   ],
   "note": "unbounded modulus within the buffer; behaviour outside coprimality and unreduced ints recorded as refutations"
  },
  {
   "property": "C14",
   "status": "proved",
   "theorems": [
    "C14_power_vuint",
    "C14_power_size",
    "C14_power_int"
   ],
   "note": "every monoid; negative int exponents characterised"
  },
  {
   "property": "C15",
   "status": "proved",
   "theorems": [
    "C15_from_int",
    "C15_from_integer",
    "C15_from_large_integer_exits",
    "C15_get_of_set",
    "C15_get",
    "C15_set_of_get",
    "C15_unique",
    "C15_onto",
    "C15_low_bits"
   ],
   "note": "all ints except INT_MIN (undefined negation), all integers up to 5 units; larger ones exit"
  },
  {
   "property": "C16",
   "status": "proved",
   "theorems": [
    "C16_add",
    "C16_sub",
    "C16_neg",
    "C16_code_add",
    "C16_code_sub",
    "C16_code_neg",
    "C16_code_addNC",
    "C16_code_subNC"
   ],
   "note": "residues and ranges for all reduced operands, and the machine code for every operand, aliasing and processor variant (C16_code_*)"
  },
  {
   "property": "C17",
   "status": "proved",
   "theorems": [
    "C17_mul",
    "C17_mul_unreduced",
    "C17_code_mul"
   ],
   "note": "all reduced operands and a range of unreduced ones; machine code with and without mulx (C17_code_mul)"
  },
  {
   "property": "C18",
   "status": "proved",
   "theorems": [
    "C18_mul_exact",
    "C18_mod",
    "C18_add",
    "C18_sub",
    "C18_addNC",
    "C18_subNC",
    "C18_neg",
    "C18_neg_range_refuted",
    "C18_code_mul",
    "C18_code_mod",
    "C18_code_add",
    "C18_code_sub",
    "C18_code_addNC",
    "C18_code_subNC",
    "C18_code_neg"
   ],
   "note": "integer level and machine code (C18_code_*); the range clause for neg is false at 0 (C18_neg_range_refuted)"
  },
  {
   "property": "C19",
   "status": "proved",
   "theorems": [
    "C19_inv",
    "C19_inv_product",
    "C19_inv_zero",
    "C19_code_preInv",
    "C19_code_preInv_zero",
    "C19_code_preInv_model"
   ],
   "note": "terminates, index in range, inverse of every residue, inv(0)=0"
  },
  {
   "property": "C20",
   "status": "proved",
   "theorems": [
    "C20_divBy2",
    "C20_divBy4",
    "C20_code_shr"
   ],
   "note": "divBy2 and divBy4; machine code of the shifts (C20_code_shr)"
  },
  {
   "property": "C21",
   "status": "proved",
   "theorems": [
    "C21_fast_modp_BNb",
    "C21_2z_add_3x_BNb",
    "C21_3z_add_2x_BNb",
    "C21_fast_modp_snark_refuted",
    "C21_2z_add_3x_snark_refuted"
   ],
   "note": "true for the default curve on [0,6p]; false for the SNARK curves (refuted, also on reachable values 2z+3x)"
  },
  {
   "property": "C22",
   "status": "proved",
   "theorems": [
    "C22_sqrt_sound",
    "C22_sqrt_complete"
   ],
   "note": "sound and complete"
  },
  {
   "property": "C23",
   "status": "proved",
   "theorems": [
    "C23_order_of_values_refuted",
    "C23_strict_total_order"
   ],
   "note": "the stated order is refuted: < compares Montgomery contents; it is still a strict total order"
  },
  {
   "property": "C24",
   "status": "proved",
   "theorems": [
    "C24_addC",
    "C24_addNC_C",
    "C24_subNC_C",
    "C24_subC_less",
    "C24_subC_refuted",
    "C24_mulC_refuted",
    "C24_dbl_addC",
    "C24_dbl_addNC_C",
    "C24_dbl_subC",
    "C24_dbl_subNC_C",
    "C24_dbl_mulC",
    "C24_dbl_modC",
    "C24_dbl_negC",
    "C24_dbl_neg_zero_refuted"
   ],
   "note": "agreement for every C function on its documented range, with refutations for Fp_subC (x>=y), Fp_mulC (never returns), FpDbl neg of 0"
  },
  {
   "property": "C25",
   "status": "proved",
   "theorems": [
    "C25_code_mul",
    "C25_code_square",
    "C25_code_mul_Fp_0",
    "C25_code_divBy2",
    "C25_code_mul_xi",
    "C25_code_dbl_mul",
    "C25_code_dbl_square",
    "C25_code_dbl_mul_xi",
    "C25_code_dbl_mod",
    "C25_code_mul_xi_alias_refuted",
    "C25_code_dbl_neg",
    "C25_field",
    "C25_onto",
    "C25_eq",
    "C25_add",
    "C25_sub",
    "C25_neg",
    "C25_mul",
    "C25_square",
    "C25_inverse",
    "C25_mul_xi",
    "C25_mul_Fp_0",
    "C25_mul_Fp_1",
    "C25_mul_x",
    "C25_divBy2",
    "C25_divBy4",
    "C25_dbl_mul",
    "C25_dbl_square",
    "C25_dbl_mul_xi",
    "C25_dbl_mod",
    "C25_squareC_refuted",
    "C25_mul_xi_alias_refuted"
   ],
   "note": "all reduced operands on all three curves; refutations for the portable squareC of the default build and for mul_xi with aliased output; the machine code of the multiplicative functions for every operand and processor variant (C25_code_*)"
  },
  {
   "property": "C26",
   "status": "proved",
   "theorems": [
    "C26_code_add",
    "C26_code_sub",
    "C26_code_mul",
    "C26_code_mul_value",
    "C26_code_dbl_mul",
    "C26_mul_in_range",
    "C26_in_range_iff",
    "C26_mul_small",
    "C26_field",
    "C26_onto",
    "C26_eq",
    "C26_add",
    "C26_sub",
    "C26_neg",
    "C26_square",
    "C26_inverse",
    "C26_mul",
    "C26_mul_snark_refuted",
    "C26_mul_value"
   ],
   "note": "default curve: all operands; SNARK curves: mul may return one component unreduced (refuted, residues still right), all other operations proved; mul right whenever the sum of six component products stays below p*2^256 (C26_mul_in_range), e.g. one operand with no component above 22/25 of p (C26_mul_small)"
  },
  {
   "property": "C27",
   "status": "proved",
   "theorems": [
    "C27_code_mul",
    "C27_code_mul_in_range",
    "C27_code_mul_snark_refuted",
    "C27_code_square",
    "C27_code_square_in_range",
    "C27_mul_small",
    "C27_mul_in_range",
    "C27_square_in_range",
    "C27_square_snark_refuted",
    "C27_field",
    "C27_onto",
    "C27_eq",
    "C27_add",
    "C27_sub",
    "C27_neg",
    "C27_mul",
    "C27_square",
    "C27_inverse",
    "C27_mul_snark_refuted"
   ],
   "note": "default curve: all operands; SNARK curves: mul returns a wrong residue for some reduced operands (refuted); add/sub/neg/== proved for all; mul and square right whenever the double-size products stay in range (C27_mul_in_range, C27_square_in_range), e.g. one operand with no component above 11/25 of p (C27_mul_small)"
  },
  {
   "property": "C28",
   "status": "proved",
   "theorems": [
    "C28_code_mul_024",
    "C28_mul_024",
    "C28_mul_024_024"
   ],
   "note": "all curves"
  },
  {
   "property": "C29",
   "status": "proved",
   "theorems": [
    "C29_frobenius",
    "C29_conj"
   ],
   "note": "all curves"
  },
  {
   "property": "C30",
   "status": "proved",
   "theorems": [
    "C30_sqru",
    "C30_mapToCyclo"
   ],
   "note": "all curves; reachability of the cyclotomic subgroup proved for the default curve"
  },
  {
   "property": "C31",
   "status": "proved",
   "theorems": [
    "C31_code_square_n",
    "C31_code_square_n_0_wraps",
    "C31_code_parts_decompress",
    "C31_decompress",
    "C31_square_n",
    "C31_square_nC",
    "C31_square_n_0_wraps",
    "C31_fixed_power"
   ],
   "note": "default curve, the identity included; n = 0 of the generated square_n wraps to 2^64 squarings (C31_square_n_0_wraps); decompression for all curves"
  },
  {
   "property": "C32",
   "status": "proved",
   "theorems": [
    "C32_pow_neg_t_in_range",
    "C32_final_exp_in_range",
    "C32_order_in_range",
    "C32_zero_snark",
    "C32_final_exp",
    "C32_exponent",
    "C32_order",
    "C32_zero"
   ],
   "note": "default curve: every non-zero input; SNARK curves: every non-zero input on which the double-size products stay in range (C32_final_exp_in_range), outside of which Fp12 mul is wrong for some operands (C27_mul_snark_refuted)"
  },
  {
   "property": "C33",
   "status": "proved",
   "theorems": [
    "C33_binary",
    "C33_naf",
    "C33_good_repl",
    "C33_one_bit_refuted",
    "C33_binary_refuted"
   ],
   "note": "value and digit set preserved; undefined cases recorded as refutations"
  },
  {
   "property": "C34",
   "status": "proved",
   "theorems": [
    "C34_objects1",
    "C34_objects2",
    "C34_double",
    "C34_add",
    "C34_neg",
    "C34_sub",
    "C34_operator_plus",
    "C34_operator_minus",
    "C34_group"
   ],
   "note": "Ec1 and Ec2, every representative and aliasing, group laws proved in EcGroup.v"
  },
  {
   "property": "C35",
   "status": "proved",
   "theorems": [
    "C35_isValid",
    "C35_closure",
    "C35_isOnECHom3",
    "C35_isOnECHom2",
    "C35_isOnTwistECHom3",
    "C35_isOnTwistECHom2"
   ],
   "note": "membership tests decide the curve equation; every history of calls keeps validity and refines the group operations"
  },
  {
   "property": "C36",
   "status": "proved",
   "theorems": [
    "C36_normalize",
    "C36_NormalizeJac",
    "C36_NormalizeHom",
    "C36_equal"
   ],
   "note": ""
  },
  {
   "property": "C37",
   "status": "proved",
   "theorems": [
    "C37_mul",
    "C37_mul_size_t",
    "C37_mul_int",
    "C37_laws",
    "C37_negative_int",
    "C37_negative_int_refuted",
    "C37_no_two_torsion"
   ],
   "note": "negative int scalars: refuted (C37_negative_int_refuted)"
  },
  {
   "property": "C38",
   "status": "proved",
   "theorems": [
    "C38_set3",
    "C38_set2",
    "C38_text_refuted"
   ],
   "note": "set with coordinates decides the curve equation and throws otherwise; the text clause is false: operator>> does not validate (C38_text_refuted)"
  },
  {
   "property": "C39",
   "status": "proved",
   "theorems": [
    "C39_fp",
    "C39_fp_canonical",
    "C39_fp2",
    "C39_fp2_set",
    "C39_fp6",
    "C39_fp12",
    "C39_ec1",
    "C39_ec2",
    "C39_fp_any_numeral",
    "C39_fp_at_end_refuted",
    "C39_failed_stream_reads_zero",
    "C39_malformed",
    "C39_truncated_refuted",
    "C39_separators",
    "C39_ec1_malformed",
    "C39_ec2_malformed"
   ],
   "note": "Fp, Fp2, Fp6, Fp12, Ec1, Ec2, all builds, decimal and hexadecimal, any following text; end-of-stream and truncated-text clauses are refuted"
  },
  {
   "property": "C40",
   "status": "proved",
   "theorems": [
    "C40_untwist",
    "C40_untwist_inj",
    "C40_frob1",
    "C40_frob2",
    "C40_frob8",
    "C40_endomorphism"
   ],
   "note": ""
  },
  {
   "property": "C41",
   "status": "proved",
   "theorems": [
    "C41_code_double",
    "C41_code_double_without_point",
    "C41_double",
    "C41_add",
    "C41_add_opposite",
    "C41_add_equal_refuted",
    "C41_fallback"
   ],
   "note": "Doubling, addition, opposite points, and the C++ fallback; all three parameter sets. Adding equal points gives the zero line (C41_add_equal_refuted); the Miller loop never does it on G2 (part of C47)."
  },
  {
   "property": "C42",
   "status": "proved",
   "theorems": [
    "C42_infinity",
    "C42_infinity_Jac",
    "C42_one"
   ],
   "note": "All builds, all representatives of infinity."
  },
  {
   "property": "C43",
   "status": "proved",
   "theorems": [
    "C43_order",
    "C43_order_points",
    "C43_order_in_range",
    "C43_ate_in_range"
   ],
   "note": "Default parameters: for any field coordinates the result is 0 or has order dividing r; on G2 x E(Fp) it is never 0. SNARK parameters: whenever the double-size products stay in range (C43_order_in_range, C43_ate_in_range)."
  },
  {
   "property": "C44",
   "status": "proved",
   "theorems": [
    "C44_negate"
   ],
   "note": "Default parameters; Q in G2, P any point of E(Fp)."
  },
  {
   "property": "C45",
   "status": "proved",
   "theorems": [
    "C45_precomputed",
    "C45_precomputed_affine",
    "C45_infinity_refuted",
    "C45_millerLoop2",
    "C45_precompute_wf",
    "C45_product",
    "C45_millerLoop2_in_range",
    "C45_product_in_range"
   ],
   "note": "Agreement for all finite Q (all builds), millerLoop2 as a product (default parameters). With Q at infinity the precomputed path returns 0 (C45_infinity_refuted).; SNARK curves: the value statements hold whenever the double-size products stay in range (C45_millerLoop2_in_range, C45_product_in_range)"
  },
  {
   "property": "C46",
   "status": "proved",
   "theorems": [
    "C46_representatives",
    "C46_affine",
    "C46_objects"
   ],
   "note": "All builds."
  },
  {
   "property": "C47",
   "status": "proved",
   "theorems": [
    "C47_one_or_injective",
    "C47_bilinear",
    "C47_api",
    "C47_G2_group",
    "C47_generator",
    "C47_bilinear_in_range",
    "C47_generator_snark"
   ],
   "note": "Default parameters: all points, all scalars, all representations including infinity. SNARK parameters (Fp12::mul can leave its range there, C27): the same whenever the products stay in range (C47_bilinear_in_range)."
  },
  {
   "property": "C48",
   "status": "proved",
   "theorems": [
    "C48_p_r_prime",
    "C48_setModulo_tables",
    "C48_setModulo_wrong_size_exits",
    "C48_params",
    "C48_tables",
    "C48_xi_nonsquare",
    "C48_xi_noncube"
   ],
   "note": "primality, BN polynomials, xi, Frobenius tables, setModulo tables"
  },
  {
   "property": "C49",
   "status": "proved",
   "theorems": [
    "C49_state",
    "C49_unsupported",
    "C49_supported",
    "C49_default_build",
    "C49_operations",
    "C49_snark1_then_snark2",
    "C49_snark2_then_snark1_refuted"
   ],
   "note": "State after any sequence of init calls proved (parameters and tables of the last, generated code of the first); default build and SNARK1 then SNARK2 proved equal to a single init of the last; SNARK2 then SNARK1 refuted: the generated doubling step keeps the b of the first call."
  },
  {
   "property": "C50",
   "status": "proved",
   "theorems": [
    "C50_equal_equal_refuted",
    "C50_equal_isValid_refuted",
    "C50_normalized",
    "C50_alone_equal",
    "C50_alone_isValid"
   ],
   "note": "the unrestricted claim is false (two schedules, C50_*_refuted); proved for any number of threads and calls when the shared objects are normalized first"
  },
  {
   "property": "C51",
   "status": "proved",
   "theorems": [
    "C51_generated",
    "C51_different",
    "C51_order",
    "C51_order_exact",
    "C51_mul_r",
    "C51_twist_refuted"
   ],
   "note": "G1: all valid points on all three curves; the G2 half is false (C51_twist_refuted)"
  },
  {
   "property": "C52",
   "status": "proved",
   "theorems": [
    "C52_power",
    "C52_power_negative_refuted",
    "C52_mul",
    "C52_mul_negative_refuted",
    "C52_fromMpz_toMpz",
    "C52_fromMpz_value_refuted",
    "C52_fromMpz_overflow_refuted"
   ],
   "note": "for k >= 0 and for toMpz/fromMpz round trips; negative scalars and exponents, fromMpz of other integers are false (C52_*_refuted)"
  },
  {
   "property": "C53",
   "status": "proved",
   "theorems": [
    "C53_programs",
    "C53_set_keeps_old_refuted",
    "C53_fp_power",
    "C53_fp2_power",
    "C53_fp12_power",
    "C53_power_negative_refuted",
    "C53_mod_negative_refuted",
    "C53_GetParamR",
    "C53_pairing"
   ],
   "note": "programs with valid set coordinates and scalars >= 0; negative scalars, set keeping the old value, mod are false (C53_*_refuted)"
  }
 ]
}
