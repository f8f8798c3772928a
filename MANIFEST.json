{
 "claims": [
  {
   "property": "C01",
   "status": "proved",
   "theorems": [
    "C01_is_valid_iff",
    "C01_is_valid_reports",
    "C01_is_valid_dec_iff",
    "C01_is_valid_dec_reports"
   ],
   "note": ""
  },
  {
   "property": "C02",
   "status": "proved",
   "theorems": [
    "C02_nums_to_interval",
    "C02_nums_to_interval_undefined",
    "C02_nums_to_decorated_interval",
    "C02_nums_to_decorated_interval_undefined",
    "C02_nums_dec",
    "C02_nums_dec_undefined",
    "C02_nums_dec_invalid_decoration",
    "C02_mixed",
    "C02_mixed_undefined",
    "C02_mixed_decorated",
    "C02_mixed_decorated_undefined",
    "C02_mixed_dec",
    "C02_mixed_dec_undefined",
    "C02_mixed_dec_invalid_decoration"
   ],
   "note": ""
  },
  {
   "property": "C03",
   "status": "proved",
   "theorems": [
    "C03_add_tightest",
    "C03_sub_tightest",
    "C03_neg_tightest",
    "C03_pos_tightest"
   ],
   "note": ""
  },
  {
   "property": "C04",
   "status": "proved",
   "theorems": [
    "C04_mul_tightest"
   ],
   "note": ""
  },
  {
   "property": "C05",
   "status": "proved",
   "theorems": [
    "C05_div_tightest",
    "C05_recip_tightest"
   ],
   "note": ""
  },
  {
   "property": "C06",
   "status": "proved",
   "theorems": [
    "C06_fma_tightest"
   ],
   "note": ""
  },
  {
   "property": "C07",
   "status": "proved",
   "theorems": [
    "C07_sqr_tightest",
    "C07_sqrt_tightest",
    "C07_abs_tightest",
    "C07_min_tightest",
    "C07_max_tightest"
   ],
   "note": ""
  },
  {
   "property": "C08",
   "status": "proved",
   "theorems": [
    "C08_pown_tightest"
   ],
   "note": ""
  },
  {
   "property": "C09",
   "status": "proved",
   "theorems": [
    "C09_pow_tightest"
   ],
   "note": ""
  },
  {
   "property": "C10",
   "status": "proved",
   "theorems": [
    "C10_exp_tightest",
    "C10_exp2_tightest",
    "C10_exp10_tightest",
    "C10_log_tightest",
    "C10_log2_tightest",
    "C10_log10_tightest"
   ],
   "note": ""
  },
  {
   "property": "C11",
   "status": "proved",
   "theorems": [
    "C11_sin_tightest",
    "C11_cos_tightest",
    "C11_sin_range",
    "C11_cos_range"
   ],
   "note": ""
  },
  {
   "property": "C12",
   "status": "partial",
   "theorems": [
    "C12_tan_binary32",
    "C12_tan_binary80",
    "C12_tan_partial",
    "C12_tan_binary64_refuted",
    "C12_tan_no_pole_partial",
    "C12_tan_no_pole_tightest",
    "C12_tan_off_pi_partial",
    "C12_tan_binary64_partial",
    "C12_tan_exact",
    "C12_tan_hidden_refuted",
    "C12_no_hidden",
    "C12_tan_tightest",
    "C12_tan_tightest_binary32_binary80"
   ],
   "note": "Proved for binary32 and x87 binary80 and every format in which pi lies more than about half an ulp above the number below it; in every format exactly the intervals with a hidden pole fail (C12_tan_exact: a pole inside, not wider than the number below pi, no two numbers of the format between the tangents of the bounds); binary64 has such intervals (C12_tan_binary64_refuted: the result lacks tan 0), all exactly as wide as the number below pi (C12_tan_binary64_partial). In binary32, binary64 and binary80 the result is the tightest one exactly when no pole is hidden (C12_tan_tightest)."
  },
  {
   "property": "C13",
   "status": "proved",
   "theorems": [
    "C13_asin_tightest",
    "C13_acos_tightest",
    "C13_atan_tightest",
    "C13_sinh_tightest",
    "C13_cosh_tightest",
    "C13_tanh_tightest",
    "C13_asinh_tightest",
    "C13_acosh_tightest",
    "C13_atanh_tightest"
   ],
   "note": ""
  },
  {
   "property": "C14",
   "status": "proved",
   "theorems": [
    "C14_atan2_tightest",
    "C14_atan2_empty",
    "C14_angle_exists_unique"
   ],
   "note": ""
  },
  {
   "property": "C15",
   "status": "proved",
   "theorems": [
    "C15_sign_tightest",
    "C15_ceil_tightest",
    "C15_floor_tightest",
    "C15_trunc_tightest",
    "C15_round_ties_to_even_tightest",
    "C15_round_ties_to_away_tightest"
   ],
   "note": ""
  },
  {
   "property": "C16",
   "status": "partial",
   "theorems": [
    "C16_neg",
    "C16_pos",
    "C16_recip",
    "C16_sqr",
    "C16_abs",
    "C16_sqrt",
    "C16_exp",
    "C16_exp2",
    "C16_exp10",
    "C16_log",
    "C16_log2",
    "C16_log10",
    "C16_sin",
    "C16_cos",
    "C16_asin",
    "C16_acos",
    "C16_atan",
    "C16_sinh",
    "C16_cosh",
    "C16_tanh",
    "C16_asinh",
    "C16_acosh",
    "C16_atanh",
    "C16_sign",
    "C16_ceil",
    "C16_floor",
    "C16_trunc",
    "C16_rte",
    "C16_rta",
    "C16_add",
    "C16_sub",
    "C16_mul",
    "C16_div",
    "C16_min",
    "C16_max",
    "C16_pow",
    "C16_atan2",
    "C16_pown",
    "C16_fma",
    "C16_tan_binary32",
    "C16_tan_binary80",
    "C16_tan_no_pole_partial",
    "C16_tan_off_pi_partial",
    "C16_tan_binary64_partial",
    "C16_tan_not_hidden_partial",
    "C16_tan_hidden_refuted",
    "C16_tan_binary64_refuted"
   ],
   "note": "Proved for all formats and all decorated forward functions except tan, which is proved for binary32 and binary80 and in every format for arguments without a hidden pole (C12); every argument with a hidden pole, unless decorated trv, gets a wrong decoration (C16_tan_hidden_refuted), and binary64 has some (C16_tan_binary64_refuted)."
  },
  {
   "property": "C17",
   "status": "proved",
   "theorems": [
    "C17_neg_dec",
    "C17_pos_dec",
    "C17_recip_dec",
    "C17_sqr_dec",
    "C17_sqrt_dec",
    "C17_abs_dec",
    "C17_exp_dec",
    "C17_exp2_dec",
    "C17_exp10_dec",
    "C17_log_dec",
    "C17_log2_dec",
    "C17_log10_dec",
    "C17_sin_dec",
    "C17_cos_dec",
    "C17_tan_dec",
    "C17_asin_dec",
    "C17_acos_dec",
    "C17_atan_dec",
    "C17_sinh_dec",
    "C17_cosh_dec",
    "C17_tanh_dec",
    "C17_asinh_dec",
    "C17_acosh_dec",
    "C17_atanh_dec",
    "C17_sign_dec",
    "C17_ceil_dec",
    "C17_floor_dec",
    "C17_trunc_dec",
    "C17_round_ties_to_even_dec",
    "C17_round_ties_to_away_dec",
    "C17_pown_dec",
    "C17_add_dec",
    "C17_sub_dec",
    "C17_mul_dec",
    "C17_div_dec",
    "C17_min_dec",
    "C17_max_dec",
    "C17_pow_dec",
    "C17_atan2_dec",
    "C17_intersection_dec",
    "C17_convex_hull_dec",
    "C17_cancel_minus_dec",
    "C17_fma_dec",
    "C17_neg_dec_mixed",
    "C17_pos_dec_mixed",
    "C17_recip_dec_mixed",
    "C17_sqr_dec_mixed",
    "C17_sqrt_dec_mixed",
    "C17_abs_dec_mixed",
    "C17_exp_dec_mixed",
    "C17_exp2_dec_mixed",
    "C17_exp10_dec_mixed",
    "C17_log_dec_mixed",
    "C17_log2_dec_mixed",
    "C17_log10_dec_mixed",
    "C17_sin_dec_mixed",
    "C17_cos_dec_mixed",
    "C17_tan_dec_mixed",
    "C17_asin_dec_mixed",
    "C17_acos_dec_mixed",
    "C17_atan_dec_mixed",
    "C17_sinh_dec_mixed",
    "C17_cosh_dec_mixed",
    "C17_tanh_dec_mixed",
    "C17_asinh_dec_mixed",
    "C17_acosh_dec_mixed",
    "C17_atanh_dec_mixed",
    "C17_sign_dec_mixed",
    "C17_ceil_dec_mixed",
    "C17_floor_dec_mixed",
    "C17_trunc_dec_mixed",
    "C17_round_ties_to_even_dec_mixed",
    "C17_round_ties_to_away_dec_mixed",
    "C17_pown_dec_mixed",
    "C17_add_dec_mixed",
    "C17_sub_dec_mixed",
    "C17_mul_dec_mixed",
    "C17_div_dec_mixed",
    "C17_min_dec_mixed",
    "C17_max_dec_mixed",
    "C17_pow_dec_mixed",
    "C17_atan2_dec_mixed",
    "C17_intersection_dec_mixed",
    "C17_convex_hull_dec_mixed",
    "C17_cancel_minus_dec_mixed",
    "C17_fma_dec_mixed",
    "C17_sqr_rev_dec",
    "C17_sqr_rev1_dec",
    "C17_sqr_rev_dec_mixed",
    "C17_abs_rev_dec",
    "C17_abs_rev1_dec",
    "C17_abs_rev_dec_mixed",
    "C17_cosh_rev_dec",
    "C17_cosh_rev1_dec",
    "C17_cosh_rev_dec_mixed",
    "C17_sin_rev_dec",
    "C17_sin_rev1_dec",
    "C17_sin_rev_dec_mixed",
    "C17_cos_rev_dec",
    "C17_cos_rev1_dec",
    "C17_cos_rev_dec_mixed",
    "C17_tan_rev_dec",
    "C17_tan_rev1_dec",
    "C17_tan_rev_dec_mixed",
    "C17_pown_rev_dec",
    "C17_pown_rev1_dec",
    "C17_pown_rev_dec_mixed",
    "C17_mul_rev_dec",
    "C17_mul_rev2_dec",
    "C17_mul_rev_dec_mixed",
    "C17_mul_rev_to_pair_dec",
    "C17_equal_dec",
    "C17_subset_dec",
    "C17_less_dec",
    "C17_precedes_dec",
    "C17_interior_dec",
    "C17_strictly_less_dec",
    "C17_strictly_precedes_dec",
    "C17_disjoint_dec",
    "C17_is_empty_dec",
    "C17_is_entire_dec",
    "C17_is_common_interval_dec",
    "C17_is_singleton_dec",
    "C17_is_member_dec",
    "C17_overlap_dec",
    "C17_n_inf_dec",
    "C17_n_inf_dec_mixed",
    "C17_n_sup_dec",
    "C17_n_sup_dec_mixed",
    "C17_n_mid_dec",
    "C17_n_mid_dec_mixed",
    "C17_n_rad_dec",
    "C17_n_rad_dec_mixed",
    "C17_n_wid_dec",
    "C17_n_wid_dec_mixed",
    "C17_n_mag_dec",
    "C17_n_mag_dec_mixed",
    "C17_n_mig_dec",
    "C17_n_mig_dec_mixed",
    "C17_n_mid_rad_dec",
    "C17_n_mid_rad_dec_mixed",
    "C17_convert_type_dec",
    "C17_copy_dec",
    "C17_cancel_plus_dec",
    "C17_cancel_plus_dec_mixed",
    "C17_mul_rev_to_pair_dec_mixed",
    "C17_is_nai",
    "C17_decoration_part",
    "C17_neg_produces",
    "C17_pos_produces",
    "C17_recip_produces",
    "C17_sqr_produces",
    "C17_sqrt_produces",
    "C17_abs_produces",
    "C17_exp_produces",
    "C17_exp2_produces",
    "C17_exp10_produces",
    "C17_log_produces",
    "C17_log2_produces",
    "C17_log10_produces",
    "C17_sin_produces",
    "C17_cos_produces",
    "C17_asin_produces",
    "C17_acos_produces",
    "C17_atan_produces",
    "C17_sinh_produces",
    "C17_cosh_produces",
    "C17_tanh_produces",
    "C17_asinh_produces",
    "C17_acosh_produces",
    "C17_atanh_produces",
    "C17_sign_produces",
    "C17_ceil_produces",
    "C17_floor_produces",
    "C17_trunc_produces",
    "C17_rte_produces",
    "C17_rta_produces",
    "C17_add_produces",
    "C17_sub_produces",
    "C17_mul_produces",
    "C17_div_produces",
    "C17_min_produces",
    "C17_max_produces",
    "C17_pow_produces",
    "C17_atan2_produces",
    "C17_pown_produces",
    "C17_fma_produces",
    "C17_tan_produces",
    "C17_intersection_produces",
    "C17_convex_hull_produces",
    "C17_neg_mixed_produces",
    "C17_pos_mixed_produces",
    "C17_recip_mixed_produces",
    "C17_sqr_mixed_produces",
    "C17_sqrt_mixed_produces",
    "C17_abs_mixed_produces",
    "C17_exp_mixed_produces",
    "C17_exp2_mixed_produces",
    "C17_exp10_mixed_produces",
    "C17_log_mixed_produces",
    "C17_log2_mixed_produces",
    "C17_log10_mixed_produces",
    "C17_sin_mixed_produces",
    "C17_cos_mixed_produces",
    "C17_asin_mixed_produces",
    "C17_acos_mixed_produces",
    "C17_atan_mixed_produces",
    "C17_sinh_mixed_produces",
    "C17_cosh_mixed_produces",
    "C17_tanh_mixed_produces",
    "C17_asinh_mixed_produces",
    "C17_acosh_mixed_produces",
    "C17_atanh_mixed_produces",
    "C17_sign_mixed_produces",
    "C17_ceil_mixed_produces",
    "C17_floor_mixed_produces",
    "C17_trunc_mixed_produces",
    "C17_rte_mixed_produces",
    "C17_rta_mixed_produces",
    "C17_add_mixed_produces",
    "C17_sub_mixed_produces",
    "C17_mul_mixed_produces",
    "C17_div_mixed_produces",
    "C17_min_mixed_produces",
    "C17_max_mixed_produces",
    "C17_pow_mixed_produces",
    "C17_atan2_mixed_produces",
    "C17_pown_mixed_produces",
    "C17_fma_mixed_produces",
    "C17_tan_mixed_produces",
    "C17_sqr_rev1_dec_mixed",
    "C17_abs_rev1_dec_mixed",
    "C17_cosh_rev1_dec_mixed",
    "C17_sin_rev1_dec_mixed",
    "C17_cos_rev1_dec_mixed",
    "C17_tan_rev1_dec_mixed",
    "C17_pown_rev1_dec_mixed",
    "C17_mul_rev2_dec_mixed"
   ],
   "note": ""
  },
  {
   "property": "C18",
   "status": "proved",
   "theorems": [
    "C18_formats_comparable",
    "C18_equal",
    "C18_equal_same_type",
    "C18_equal_decorated",
    "C18_subset",
    "C18_subset_same_type",
    "C18_subset_decorated",
    "C18_less",
    "C18_less_same_type",
    "C18_less_decorated",
    "C18_precedes",
    "C18_precedes_same_type",
    "C18_precedes_decorated",
    "C18_interior",
    "C18_interior_same_type",
    "C18_interior_decorated",
    "C18_strictly_less",
    "C18_strictly_less_same_type",
    "C18_strictly_less_decorated",
    "C18_strictly_precedes",
    "C18_strictly_precedes_same_type",
    "C18_strictly_precedes_decorated",
    "C18_disjoint",
    "C18_disjoint_same_type",
    "C18_disjoint_decorated",
    "C18_superset",
    "C18_greater",
    "C18_succeeds",
    "C18_contains_interior",
    "C18_strictly_greater",
    "C18_strictly_succeeds",
    "C18_op_ne",
    "C18_op_eq",
    "C18_superset_decorated",
    "C18_greater_decorated",
    "C18_succeeds_decorated",
    "C18_contains_interior_decorated",
    "C18_strictly_greater_decorated",
    "C18_strictly_succeeds_decorated",
    "C18_op_eq_decorated",
    "C18_op_ne_decorated",
    "C18_is_empty",
    "C18_is_empty_decorated",
    "C18_is_entire",
    "C18_is_entire_decorated",
    "C18_is_singleton",
    "C18_is_singleton_decorated",
    "C18_is_common_interval",
    "C18_is_common_interval_decorated",
    "C18_is_member",
    "C18_is_member_same_type",
    "C18_is_member_decorated"
   ],
   "note": ""
  },
  {
   "property": "C19",
   "status": "proved",
   "theorems": [
    "C19_overlap_correct",
    "C19_overlap_converse",
    "C19_overlap_decorated"
   ],
   "note": ""
  },
  {
   "property": "C20",
   "status": "proved",
   "theorems": [
    "C20_intersection_exact",
    "C20_hull_tightest",
    "C20_intersection_commutative",
    "C20_intersection_idempotent",
    "C20_intersection_associative",
    "C20_intersection_decorated_nai",
    "C20_intersection_decorated",
    "C20_hull_commutative",
    "C20_hull_idempotent",
    "C20_hull_associative",
    "C20_hull_decorated_nai",
    "C20_hull_decorated"
   ],
   "note": ""
  },
  {
   "property": "C21",
   "status": "proved",
   "theorems": [
    "C21_inf",
    "C21_sup",
    "C21_mid",
    "C21_wid",
    "C21_rad",
    "C21_mag",
    "C21_mig",
    "C21_empty",
    "C21_inf_mixed",
    "C21_sup_mixed",
    "C21_wid_mixed",
    "C21_mag_mixed",
    "C21_mig_mixed",
    "C21_mid_mixed",
    "C21_rad_mixed",
    "C21_mid_unbounded",
    "C21_empty_mixed",
    "C21_dec",
    "C21_dec_mixed"
   ],
   "note": ""
  },
  {
   "property": "C22",
   "status": "partial",
   "theorems": [
    "C22_mid_rad",
    "C22_mid_rad_mixed_partial",
    "C22_mid_rad_mixed_refuted",
    "C22_mid_rad_mixed_exact"
   ],
   "note": "Proved for the same type (C22_mid_rad) and, for every mixed result type, exactly when the midpoint does not overflow it (C22_mid_rad_mixed_exact); refuted for a narrower result type otherwise (C22_mid_rad_mixed_refuted): [2^130,2^131] of binary64 has midpoint +oo in binary32."
  },
  {
   "property": "C23",
   "status": "partial",
   "theorems": [
    "C23_cancel_minus",
    "C23_cancel_minus_no_solution_partial",
    "C23_solution_iff",
    "C23_no_solution_refuted",
    "C23_cancel_minus_no_solution_iff",
    "C23_cancel_plus_no_solution_iff",
    "C23_cancel_minus_mixed_no_solution_iff",
    "C23_cancel_plus",
    "C23_cancel_plus_no_solution_partial",
    "C23_plus_is_minus_neg",
    "C23_cancel_minus_mixed",
    "C23_cancel_minus_mixed_no_solution_partial",
    "C23_cancel_plus_mixed_partial",
    "C23_cancel_plus_mixed_refuted",
    "C23_cancel_minus_dec",
    "C23_cancel_plus_dec",
    "C23_cancel_minus_dec_mixed_nai",
    "C23_cancel_minus_dec_mixed"
   ],
   "note": "Proved for all valid operands: tightest whenever y+z=x has a solution, entire for unbounded and empty second operands, empty rules, decorated and mixed cancel_minus. Refuted: with a bound equal to the largest finite number a narrower x need not give entire (C23_no_solution_refuted); the operands for which this happens are characterised exactly (C23_cancel_minus_no_solution_iff and its plus and mixed forms); cancel_plus with a second operand wider than the result type loses the solution (C23_cancel_plus_mixed_refuted)."
  },
  {
   "property": "C24",
   "status": "partial",
   "theorems": [
    "C24_mul_rev_to_pair",
    "C24_mul_rev_to_pair_mixed",
    "C24_mul_rev_to_pair_dec",
    "C24_mul_rev_to_pair_dec_mixed",
    "C24_mul_rev_encloses",
    "C24_mul_rev_tightest_partial",
    "C24_mul_rev_tightest_refuted",
    "C24_mul_rev_exact",
    "C24_mul_rev_tightest_iff",
    "C24_mul_rev_mixed_exact",
    "C24_mul_rev_mixed_tightest_iff",
    "C24_mul_rev_dec_exact",
    "C24_mul_rev_dec_mixed_exact",
    "C24_mul_rev2",
    "C24_mul_rev_mixed_encloses",
    "C24_mul_rev_mixed_tightest_partial",
    "C24_mul_rev_dec_encloses",
    "C24_mul_rev_dec_tightest_partial",
    "C24_mul_rev2_dec",
    "C24_mul_rev_dec_mixed_encloses",
    "C24_mul_rev2_mixed",
    "C24_mul_rev2_dec_mixed"
   ],
   "note": "mul_rev_to_pair proved in full (bare, decorated, mixed). mul_rev: refuted as stated (C24_mul_rev_tightest_refuted: b=[-oo,-1], c=[-2,-1], x=[-1,0] gives [0,0] though there is no solution), but what it computes is proved exactly for all operands, bare, decorated and mixed (C24_mul_rev_exact): the tightest interval around the solutions in x together with zero, if b is unlimited and zero in x; C24_mul_rev_tightest_iff tells exactly when that is the tightest one of the solutions."
  },
  {
   "property": "C25",
   "status": "partial",
   "theorems": [
    "C25_sqr_rev",
    "C25_abs_rev",
    "C25_cosh_rev",
    "C25_pown_rev_partial",
    "C25_pown_rev_intmin_refuted",
    "C25_pown_rev_neg_exact",
    "C25_pown_rev_pos_exact",
    "C25_pown_rev_tight_refuted",
    "C25_sqr_rev1",
    "C25_abs_rev1",
    "C25_cosh_rev1",
    "C25_pown_rev1_partial",
    "C25_sqr_rev_mixed",
    "C25_abs_rev_mixed",
    "C25_cosh_rev_mixed",
    "C25_pown_rev_mixed_partial",
    "C25_pown_rev_mixed_neg_exact",
    "C25_pown_rev_mixed_pos_exact",
    "C25_sqr_rev_dec",
    "C25_abs_rev_dec",
    "C25_cosh_rev_dec",
    "C25_pown_rev_dec_partial",
    "C25_sqr_rev1_dec",
    "C25_abs_rev1_dec",
    "C25_cosh_rev1_dec",
    "C25_sqr_rev_dec_mixed",
    "C25_abs_rev_dec_mixed",
    "C25_cosh_rev_dec_mixed",
    "C25_pown_rev_dec_mixed_partial",
    "C25_pown_rev_dec_neg_exact",
    "C25_pown_rev_dec_pos_exact",
    "C25_pown_rev1_dec_partial",
    "C25_pown_rev_dec_mixed_neg_exact",
    "C25_pown_rev_dec_mixed_pos_exact",
    "C25_sqr_rev1_mixed",
    "C25_sqr_rev1_dec_mixed",
    "C25_abs_rev1_mixed",
    "C25_abs_rev1_dec_mixed",
    "C25_cosh_rev1_mixed",
    "C25_cosh_rev1_dec_mixed",
    "C25_pown_rev1_mixed_partial",
    "C25_pown_rev1_dec_mixed_partial"
   ],
   "note": "Proved for all valid operands: sqr_rev, abs_rev and cosh_rev tightest, pown_rev encloses and terminates for every exponent but INT_MIN, where the code negates INT_MIN, undefined behaviour (C25_pown_rev_intmin_refuted). Exactly what pown_rev computes is proved too: negative exponents give the tightest interval of the solutions in x and, if x contains it, zero as a limit of solutions; positive ones cut x with the tightest intervals of the solutions of either sign, which is not always the tightest result (C25_pown_rev_tight_refuted); without x the result is the tightest."
  },
  {
   "property": "C26",
   "status": "partial",
   "theorems": [
    "C26_sin_rev1",
    "C26_sin_rev_partial",
    "C26_sin_rev_dec_partial",
    "C26_sin_rev1_dec",
    "C26_sin_rev_mixed_partial",
    "C26_sin_rev_dec_mixed_partial",
    "C26_tan_rev1",
    "C26_tan_rev_partial",
    "C26_tan_rev_dec_partial",
    "C26_tan_rev1_dec",
    "C26_tan_rev_mixed_partial",
    "C26_tan_rev_dec_mixed_partial",
    "C26_sin_rev_near_partial",
    "C26_sin_rev_narrow_partial",
    "C26_sin_rev_dec_near_partial",
    "C26_sin_rev_mixed_near_partial",
    "C26_tan_rev_near_partial",
    "C26_tan_rev_narrow_partial",
    "C26_tan_rev_dec_near_partial",
    "C26_tan_rev_mixed_near_partial",
    "C26_sin_rev_any_refuted",
    "C26_tan_rev_any_refuted",
    "C26_sin_rev_refuted",
    "C26_tan_rev_refuted",
    "C26_sin_rev1_mixed",
    "C26_sin_rev1_dec_mixed",
    "C26_tan_rev1_mixed",
    "C26_tan_rev1_dec_mixed"
   ],
   "note": "Refuted as stated: with c not containing zero, sin_rev and tan_rev skip branches (sin_rev([-1,-1/2],[-1/4,19/2]) is empty although 3pi/2 is a solution). Proved: enclosure when x is entire; for 0 in c when the finite bounds of x are at most 2^min(prec,62); for any c when each finite end of x has a solution within 3/2 of it, in particular when x is bounded and at most 3/2 wide (finite bounds below 2^(prec-6)); bare, decorated and mixed."
  },
  {
   "property": "C27",
   "status": "partial",
   "theorems": [
    "C27_cos_rev1",
    "C27_cos_rev_partial",
    "C27_cos_rev_dec_partial",
    "C27_cos_rev1_dec",
    "C27_cos_rev_mixed_partial",
    "C27_cos_rev_dec_mixed_partial",
    "C27_cos_rev_any_refuted",
    "C27_cos_rev_refuted",
    "C27_cos_rev1_mixed",
    "C27_cos_rev1_dec_mixed"
   ],
   "note": "Enclosure proved for x whose finite bounds are at most 2^min(prec,62) in magnitude and for x entire; refuted for larger bounds (mpfr_remquo delivers only the low bits of the quotient): cos_rev([0,0],[2^100,2^101])."
  },
  {
   "property": "C28",
   "status": "partial",
   "theorems": [
    "C28_formats",
    "C28_pos",
    "C28_neg",
    "C28_recip",
    "C28_sqr",
    "C28_abs",
    "C28_sqrt",
    "C28_exp",
    "C28_exp2",
    "C28_exp10",
    "C28_log",
    "C28_log2",
    "C28_log10",
    "C28_sin",
    "C28_cos",
    "C28_asin",
    "C28_acos",
    "C28_atan",
    "C28_sinh",
    "C28_cosh",
    "C28_tanh",
    "C28_asinh",
    "C28_acosh",
    "C28_atanh",
    "C28_sign",
    "C28_ceil",
    "C28_floor",
    "C28_trunc",
    "C28_rte",
    "C28_rta",
    "C28_pown",
    "C28_add",
    "C28_sub",
    "C28_mul",
    "C28_div",
    "C28_min",
    "C28_max",
    "C28_pow",
    "C28_atan2",
    "C28_fma",
    "C28_intersection",
    "C28_hull",
    "C28_tan_partial",
    "C28_tan_binary80",
    "C28_tan_off_pi_partial",
    "C28_tan_dec_off_pi_partial",
    "C28_tan_binary64_partial",
    "C28_tan_dec_binary64_partial",
    "C28_tan_exact",
    "C28_tan_tightest",
    "C28_tan_dec_not_hidden_partial",
    "C28_tan_dec_hidden_refuted",
    "C28_pos_dec",
    "C28_neg_dec",
    "C28_recip_dec",
    "C28_sqr_dec",
    "C28_abs_dec",
    "C28_sqrt_dec",
    "C28_exp_dec",
    "C28_exp2_dec",
    "C28_exp10_dec",
    "C28_log_dec",
    "C28_log2_dec",
    "C28_log10_dec",
    "C28_sin_dec",
    "C28_cos_dec",
    "C28_asin_dec",
    "C28_acos_dec",
    "C28_tan_dec_partial",
    "C28_atan_dec",
    "C28_sinh_dec",
    "C28_cosh_dec",
    "C28_tanh_dec",
    "C28_asinh_dec",
    "C28_acosh_dec",
    "C28_atanh_dec",
    "C28_sign_dec",
    "C28_ceil_dec",
    "C28_floor_dec",
    "C28_trunc_dec",
    "C28_rte_dec",
    "C28_rta_dec",
    "C28_pown_dec",
    "C28_add_dec",
    "C28_sub_dec",
    "C28_mul_dec",
    "C28_div_dec",
    "C28_min_dec",
    "C28_max_dec",
    "C28_pow_dec",
    "C28_atan2_dec",
    "C28_fma_dec"
   ],
   "note": "Proved for all forward operations except tan, bare and decorated, and for intersection and convex hull; tan encloses, and in the three C++ types is tightest, exactly when no pole is hidden in the widest type (C28_tan_exact, C28_tan_tightest): always if that is binary32 or binary80, for binary64 whenever the width is not that of the number below pi (C12)."
  },
  {
   "property": "C29",
   "status": "proved",
   "theorems": [
    "C29_convert_type_tightest",
    "C29_convert_wider_exact",
    "C29_convert_decorated",
    "C29_convert_nai",
    "C29_convert_invalid",
    "C29_convert_decorated_invalid"
   ],
   "note": ""
  },
  {
   "property": "C30",
   "status": "proved",
   "theorems": [
    "C30_flags_sticky",
    "C30_throws_iff_enabled",
    "C30_throws_own_class",
    "C30_nothing_else_throws",
    "C30_mask_only_by_setter",
    "C30_signal_sets_one_flag"
   ],
   "note": ""
  },
  {
   "property": "C31",
   "status": "partial",
   "theorems": [
    "C31_state_private_refuted",
    "C31_mask_private_refuted",
    "C31_clear_private_refuted",
    "C31_state_private_partial"
   ],
   "note": "Refuted as stated (C31_..._refuted): the flags and the mask are plain static data, so another thread's operation changes them. C31_state_private_partial: holds for programs in which only one thread signals."
  },
  {
   "property": "C32",
   "status": "partial",
   "theorems": [
    "C32_neg",
    "C32_pos",
    "C32_recip",
    "C32_sqr",
    "C32_sqrt",
    "C32_abs",
    "C32_exp",
    "C32_exp2",
    "C32_exp10",
    "C32_log",
    "C32_log2",
    "C32_log10",
    "C32_sin",
    "C32_cos",
    "C32_tan",
    "C32_asin",
    "C32_acos",
    "C32_atan",
    "C32_sinh",
    "C32_cosh",
    "C32_tanh",
    "C32_asinh",
    "C32_acosh",
    "C32_atanh",
    "C32_sign",
    "C32_ceil",
    "C32_floor",
    "C32_trunc",
    "C32_round_ties_to_even",
    "C32_round_ties_to_away",
    "C32_pown",
    "C32_add",
    "C32_sub",
    "C32_mul",
    "C32_div",
    "C32_min",
    "C32_max",
    "C32_pow",
    "C32_atan2",
    "C32_intersection",
    "C32_convex_hull",
    "C32_fma",
    "C32_neg_dec",
    "C32_pos_dec",
    "C32_recip_dec",
    "C32_sqr_dec",
    "C32_sqrt_dec",
    "C32_abs_dec",
    "C32_exp_dec",
    "C32_exp2_dec",
    "C32_exp10_dec",
    "C32_log_dec",
    "C32_log2_dec",
    "C32_log10_dec",
    "C32_sin_dec",
    "C32_cos_dec",
    "C32_tan_dec",
    "C32_asin_dec",
    "C32_acos_dec",
    "C32_atan_dec",
    "C32_sinh_dec",
    "C32_cosh_dec",
    "C32_tanh_dec",
    "C32_asinh_dec",
    "C32_acosh_dec",
    "C32_atanh_dec",
    "C32_sign_dec",
    "C32_ceil_dec",
    "C32_floor_dec",
    "C32_trunc_dec",
    "C32_round_ties_to_even_dec",
    "C32_round_ties_to_away_dec",
    "C32_pown_dec",
    "C32_add_dec",
    "C32_sub_dec",
    "C32_mul_dec",
    "C32_div_dec",
    "C32_min_dec",
    "C32_max_dec",
    "C32_pow_dec",
    "C32_atan2_dec",
    "C32_intersection_dec",
    "C32_convex_hull_dec",
    "C32_cancel_minus_dec",
    "C32_fma_dec",
    "C32_neg_mixed",
    "C32_pos_mixed",
    "C32_recip_mixed",
    "C32_sqr_mixed",
    "C32_sqrt_mixed",
    "C32_abs_mixed",
    "C32_exp_mixed",
    "C32_exp2_mixed",
    "C32_exp10_mixed",
    "C32_log_mixed",
    "C32_log2_mixed",
    "C32_log10_mixed",
    "C32_sin_mixed",
    "C32_cos_mixed",
    "C32_tan_mixed",
    "C32_asin_mixed",
    "C32_acos_mixed",
    "C32_atan_mixed",
    "C32_sinh_mixed",
    "C32_cosh_mixed",
    "C32_tanh_mixed",
    "C32_asinh_mixed",
    "C32_acosh_mixed",
    "C32_atanh_mixed",
    "C32_sign_mixed",
    "C32_ceil_mixed",
    "C32_floor_mixed",
    "C32_trunc_mixed",
    "C32_round_ties_to_even_mixed",
    "C32_round_ties_to_away_mixed",
    "C32_pown_mixed",
    "C32_add_mixed",
    "C32_sub_mixed",
    "C32_mul_mixed",
    "C32_div_mixed",
    "C32_min_mixed",
    "C32_max_mixed",
    "C32_pow_mixed",
    "C32_atan2_mixed",
    "C32_intersection_mixed",
    "C32_convex_hull_mixed",
    "C32_cancel_minus_mixed",
    "C32_fma_mixed",
    "C32_neg_dec_mixed",
    "C32_pos_dec_mixed",
    "C32_recip_dec_mixed",
    "C32_sqr_dec_mixed",
    "C32_sqrt_dec_mixed",
    "C32_abs_dec_mixed",
    "C32_exp_dec_mixed",
    "C32_exp2_dec_mixed",
    "C32_exp10_dec_mixed",
    "C32_log_dec_mixed",
    "C32_log2_dec_mixed",
    "C32_log10_dec_mixed",
    "C32_sin_dec_mixed",
    "C32_cos_dec_mixed",
    "C32_tan_dec_mixed",
    "C32_asin_dec_mixed",
    "C32_acos_dec_mixed",
    "C32_atan_dec_mixed",
    "C32_sinh_dec_mixed",
    "C32_cosh_dec_mixed",
    "C32_tanh_dec_mixed",
    "C32_asinh_dec_mixed",
    "C32_acosh_dec_mixed",
    "C32_atanh_dec_mixed",
    "C32_sign_dec_mixed",
    "C32_ceil_dec_mixed",
    "C32_floor_dec_mixed",
    "C32_trunc_dec_mixed",
    "C32_round_ties_to_even_dec_mixed",
    "C32_round_ties_to_away_dec_mixed",
    "C32_pown_dec_mixed",
    "C32_add_dec_mixed",
    "C32_sub_dec_mixed",
    "C32_mul_dec_mixed",
    "C32_div_dec_mixed",
    "C32_min_dec_mixed",
    "C32_max_dec_mixed",
    "C32_pow_dec_mixed",
    "C32_atan2_dec_mixed",
    "C32_intersection_dec_mixed",
    "C32_convex_hull_dec_mixed",
    "C32_cancel_minus_dec_mixed",
    "C32_fma_dec_mixed",
    "C32_sqr_rev",
    "C32_sqr_rev1",
    "C32_sqr_rev_dec",
    "C32_sqr_rev1_dec",
    "C32_sqr_rev_mixed",
    "C32_sqr_rev_dec_mixed",
    "C32_abs_rev",
    "C32_abs_rev1",
    "C32_abs_rev_dec",
    "C32_abs_rev1_dec",
    "C32_abs_rev_mixed",
    "C32_abs_rev_dec_mixed",
    "C32_cosh_rev",
    "C32_cosh_rev1",
    "C32_cosh_rev_dec",
    "C32_cosh_rev1_dec",
    "C32_cosh_rev_mixed",
    "C32_cosh_rev_dec_mixed",
    "C32_sin_rev",
    "C32_sin_rev1",
    "C32_sin_rev_dec",
    "C32_sin_rev1_dec",
    "C32_sin_rev_mixed",
    "C32_sin_rev_dec_mixed",
    "C32_cos_rev",
    "C32_cos_rev1",
    "C32_cos_rev_dec",
    "C32_cos_rev1_dec",
    "C32_cos_rev_mixed",
    "C32_cos_rev_dec_mixed",
    "C32_tan_rev",
    "C32_tan_rev1",
    "C32_tan_rev_dec",
    "C32_tan_rev1_dec",
    "C32_tan_rev_mixed",
    "C32_tan_rev_dec_mixed",
    "C32_pown_rev",
    "C32_pown_rev1",
    "C32_pown_rev_dec",
    "C32_pown_rev1_dec",
    "C32_pown_rev_mixed",
    "C32_pown_rev_dec_mixed",
    "C32_mul_rev",
    "C32_mul_rev2",
    "C32_mul_rev_dec",
    "C32_mul_rev2_dec",
    "C32_mul_rev_mixed",
    "C32_mul_rev_dec_mixed",
    "C32_mul_rev_to_pair",
    "C32_mul_rev_to_pair_dec",
    "C32_equal",
    "C32_equal_mixed",
    "C32_equal_dec",
    "C32_subset",
    "C32_subset_mixed",
    "C32_subset_dec",
    "C32_less",
    "C32_less_mixed",
    "C32_less_dec",
    "C32_precedes",
    "C32_precedes_mixed",
    "C32_precedes_dec",
    "C32_interior",
    "C32_interior_mixed",
    "C32_interior_dec",
    "C32_strictly_less",
    "C32_strictly_less_mixed",
    "C32_strictly_less_dec",
    "C32_strictly_precedes",
    "C32_strictly_precedes_mixed",
    "C32_strictly_precedes_dec",
    "C32_disjoint",
    "C32_disjoint_mixed",
    "C32_disjoint_dec",
    "C32_superset_mixed",
    "C32_greater_mixed",
    "C32_succeeds_mixed",
    "C32_contains_interior_mixed",
    "C32_strictly_greater_mixed",
    "C32_strictly_succeeds_mixed",
    "C32_op_eq",
    "C32_is_empty",
    "C32_is_empty_dec",
    "C32_is_entire",
    "C32_is_entire_dec",
    "C32_is_common_interval",
    "C32_is_common_interval_dec",
    "C32_is_singleton",
    "C32_is_singleton_dec",
    "C32_is_nai",
    "C32_is_member",
    "C32_is_member_mixed",
    "C32_is_member_dec",
    "C32_overlap",
    "C32_overlap_dec",
    "C32_n_inf",
    "C32_n_inf_dec",
    "C32_n_inf_mixed",
    "C32_n_inf_dec_mixed",
    "C32_n_sup",
    "C32_n_sup_dec",
    "C32_n_sup_mixed",
    "C32_n_sup_dec_mixed",
    "C32_n_mid",
    "C32_n_mid_dec",
    "C32_n_mid_mixed",
    "C32_n_mid_dec_mixed",
    "C32_n_rad",
    "C32_n_rad_dec",
    "C32_n_rad_mixed",
    "C32_n_rad_dec_mixed",
    "C32_n_wid",
    "C32_n_wid_dec",
    "C32_n_wid_mixed",
    "C32_n_wid_dec_mixed",
    "C32_n_mag",
    "C32_n_mag_dec",
    "C32_n_mag_mixed",
    "C32_n_mag_dec_mixed",
    "C32_n_mig",
    "C32_n_mig_dec",
    "C32_n_mig_mixed",
    "C32_n_mig_dec_mixed",
    "C32_n_mid_rad",
    "C32_n_mid_rad_dec",
    "C32_n_mid_rad_mixed",
    "C32_n_mid_rad_dec_mixed",
    "C32_copy",
    "C32_copy_dec",
    "C32_convert_type",
    "C32_convert_type_dec",
    "C32_interval_part",
    "C32_interval_part_mixed",
    "C32_decoration_part",
    "C32_new_dec",
    "C32_new_dec_mixed",
    "C32_set_dec",
    "C32_set_dec_mixed",
    "C32_op_ne",
    "C32_mul_rev_to_pair_mixed",
    "C32_cancel_plus_dec",
    "C32_cancel_plus_dec_mixed",
    "C32_mul_rev_to_pair_dec_mixed_partial",
    "C32_mul_rev_to_pair_dec_mixed_refuted",
    "C32_cancel_minus_partial",
    "C32_cancel_minus_refuted",
    "C32_cancel_minus_value_refuted",
    "C32_cancel_plus_partial",
    "C32_cancel_plus_refuted",
    "C32_cancel_plus_mixed_partial",
    "C32_cancel_plus_mixed_refuted",
    "C32_decoration_byte_refuted",
    "C32_sqr_rev1_mixed",
    "C32_sqr_rev1_dec_mixed",
    "C32_abs_rev1_mixed",
    "C32_abs_rev1_dec_mixed",
    "C32_cosh_rev1_mixed",
    "C32_cosh_rev1_dec_mixed",
    "C32_sin_rev1_mixed",
    "C32_sin_rev1_dec_mixed",
    "C32_cos_rev1_mixed",
    "C32_cos_rev1_dec_mixed",
    "C32_tan_rev1_mixed",
    "C32_tan_rev1_dec_mixed",
    "C32_pown_rev1_mixed",
    "C32_pown_rev1_dec_mixed",
    "C32_mul_rev2_mixed",
    "C32_mul_rev2_dec_mixed"
   ],
   "note": "Proved for every operation except cancel_minus/cancel_plus and the decorated mixed mul_rev_to_pair. Refuted for those: cancel_minus/cancel_plus on bare intervals return without a report for an invalid second operand (C32_cancel_minus_refuted, C32_cancel_plus_refuted, C32_cancel_plus_mixed_refuted), the decorated mixed mul_rev_to_pair reports but lacks its return (C32_mul_rev_to_pair_dec_mixed_refuted), and no operation checks the decoration byte (C32_decoration_byte_refuted)."
  },
  {
   "property": "C33",
   "status": "partial",
   "theorems": [
    "C33_neg",
    "C33_pos",
    "C33_recip",
    "C33_sqr",
    "C33_sqrt",
    "C33_abs",
    "C33_exp",
    "C33_exp2",
    "C33_exp10",
    "C33_log",
    "C33_log2",
    "C33_log10",
    "C33_sin",
    "C33_cos",
    "C33_asin",
    "C33_acos",
    "C33_atan",
    "C33_sinh",
    "C33_cosh",
    "C33_tanh",
    "C33_asinh",
    "C33_acosh",
    "C33_atanh",
    "C33_sign",
    "C33_ceil",
    "C33_floor",
    "C33_trunc",
    "C33_rte",
    "C33_rta",
    "C33_add",
    "C33_sub",
    "C33_mul",
    "C33_div",
    "C33_min",
    "C33_max",
    "C33_pow",
    "C33_atan2",
    "C33_pown",
    "C33_fma",
    "C33_tan_binary32",
    "C33_tan_binary80",
    "C33_tan_partial",
    "C33_tan_binary64_refuted",
    "C33_neg_dec",
    "C33_pos_dec",
    "C33_recip_dec",
    "C33_sqr_dec",
    "C33_sqrt_dec",
    "C33_abs_dec",
    "C33_exp_dec",
    "C33_exp2_dec",
    "C33_exp10_dec",
    "C33_log_dec",
    "C33_log2_dec",
    "C33_log10_dec",
    "C33_sin_dec",
    "C33_cos_dec",
    "C33_asin_dec",
    "C33_acos_dec",
    "C33_atan_dec",
    "C33_sinh_dec",
    "C33_cosh_dec",
    "C33_tanh_dec",
    "C33_asinh_dec",
    "C33_acosh_dec",
    "C33_atanh_dec",
    "C33_sign_dec",
    "C33_ceil_dec",
    "C33_floor_dec",
    "C33_trunc_dec",
    "C33_rte_dec",
    "C33_rta_dec",
    "C33_add_dec",
    "C33_sub_dec",
    "C33_mul_dec",
    "C33_div_dec",
    "C33_min_dec",
    "C33_max_dec",
    "C33_pow_dec",
    "C33_atan2_dec",
    "C33_pown_dec",
    "C33_fma_dec",
    "C33_tan_dec_binary32",
    "C33_tan_dec_binary80",
    "C33_neg_mixed",
    "C33_neg_dec_mixed",
    "C33_pos_mixed",
    "C33_pos_dec_mixed",
    "C33_recip_mixed",
    "C33_recip_dec_mixed",
    "C33_sqr_mixed",
    "C33_sqr_dec_mixed",
    "C33_sqrt_mixed",
    "C33_sqrt_dec_mixed",
    "C33_abs_mixed",
    "C33_abs_dec_mixed",
    "C33_exp_mixed",
    "C33_exp_dec_mixed",
    "C33_exp2_mixed",
    "C33_exp2_dec_mixed",
    "C33_exp10_mixed",
    "C33_exp10_dec_mixed",
    "C33_log_mixed",
    "C33_log_dec_mixed",
    "C33_log2_mixed",
    "C33_log2_dec_mixed",
    "C33_log10_mixed",
    "C33_log10_dec_mixed",
    "C33_sin_mixed",
    "C33_sin_dec_mixed",
    "C33_cos_mixed",
    "C33_cos_dec_mixed",
    "C33_asin_mixed",
    "C33_asin_dec_mixed",
    "C33_acos_mixed",
    "C33_acos_dec_mixed",
    "C33_atan_mixed",
    "C33_atan_dec_mixed",
    "C33_sinh_mixed",
    "C33_sinh_dec_mixed",
    "C33_cosh_mixed",
    "C33_cosh_dec_mixed",
    "C33_tanh_mixed",
    "C33_tanh_dec_mixed",
    "C33_asinh_mixed",
    "C33_asinh_dec_mixed",
    "C33_acosh_mixed",
    "C33_acosh_dec_mixed",
    "C33_atanh_mixed",
    "C33_atanh_dec_mixed",
    "C33_sign_mixed",
    "C33_sign_dec_mixed",
    "C33_ceil_mixed",
    "C33_ceil_dec_mixed",
    "C33_floor_mixed",
    "C33_floor_dec_mixed",
    "C33_trunc_mixed",
    "C33_trunc_dec_mixed",
    "C33_rte_mixed",
    "C33_rte_dec_mixed",
    "C33_rta_mixed",
    "C33_rta_dec_mixed",
    "C33_add_mixed",
    "C33_add_dec_mixed",
    "C33_sub_mixed",
    "C33_sub_dec_mixed",
    "C33_mul_mixed",
    "C33_mul_dec_mixed",
    "C33_div_mixed",
    "C33_div_dec_mixed",
    "C33_min_mixed",
    "C33_min_dec_mixed",
    "C33_max_mixed",
    "C33_max_dec_mixed",
    "C33_pow_mixed",
    "C33_pow_dec_mixed",
    "C33_atan2_mixed",
    "C33_atan2_dec_mixed",
    "C33_pown_mixed",
    "C33_pown_dec_mixed",
    "C33_fma_mixed",
    "C33_fma_dec_mixed",
    "C33_tan_mixed_partial",
    "C33_tan_dec_mixed_partial",
    "C33_tan_mixed_binary80",
    "C33_tan_off_pi_partial",
    "C33_tan_dec_off_pi_partial",
    "C33_tan_mixed_off_pi_partial",
    "C33_tan_binary64_partial",
    "C33_tan_dec_binary64_partial",
    "C33_tan_mixed_binary64_partial",
    "C33_tan_dec_mixed_binary64_partial",
    "C33_tan_not_hidden_partial",
    "C33_tan_dec_not_hidden_partial",
    "C33_tan_mixed_not_hidden_partial",
    "C33_tan_dec_mixed_not_hidden_partial"
   ],
   "note": "Proved for every operation in every format (bare, decorated, mixed), and for tan (bare, decorated, mixed) when the larger argument has no hidden pole in the widest type (never one in binary32 and binary80; in binary64 only at the width of the number below pi, C12); refuted otherwise (C33_tan_binary64_refuted)."
  },
  {
   "property": "C34",
   "status": "partial",
   "theorems": [
    "C34_total_exists",
    "C34_sum",
    "C34_sum_abs",
    "C34_sum_sqr_partial",
    "C34_dot_partial",
    "C34_dot_short_undefined",
    "C34_dot_refuted",
    "C34_sum_sqr_overflow_refuted",
    "C34_sum_sqr_underflow_refuted",
    "C34_limited_total",
    "C34_sum_sqr_exact",
    "C34_dot_exact",
    "C34_sum_sqr_iff",
    "C34_sum_direction",
    "C34_sum_abs_direction",
    "C34_sum_sqr_direction",
    "C34_dot_direction",
    "C34_dot_near",
    "C34_sum_sqr_near"
   ],
   "note": "sum and sum_abs proved for all lists, directions and histories. sum_sqr and dot: proved exactly what they compute for all inputs (the exact sum, rounded once, of the products limited to the exponent range of the element type); right when every product of finite elements is zero or within that range, and for squares without underflow an iff (right exactly upward, to nearest, with a non-finite element, or without overflow). The statement is refuted otherwise, in every format: the wider variables are used without their setup, so products over- or underflow (NaN for a cancelling dot, infinity toward zero, zero upward)."
  },
  {
   "property": "C35",
   "status": "partial",
   "theorems": [
    "C35_read_partial",
    "C35_read_nai_partial",
    "C35_read_bare_partial",
    "C35_string_partial",
    "C35_string_nai_partial",
    "C35_string_bare_partial",
    "C35_read_decoration_partial",
    "C35_outcome_partial",
    "C35_outcome_bare_partial",
    "C35_string_outcome_partial",
    "C35_string_outcome_bare_partial",
    "C35_plus_refuted",
    "C35_exponent_refuted",
    "C35_overflow_refuted",
    "C35_decoration_refuted",
    "C35_ascii_refuted"
   ],
   "note": "Every literal without plus signs and with exponents an int can hold is read (from streams and strings, decorated and bare) as the tightest interval with the right decoration; any text with exponents up to 10^9 either fails as demanded or is such a literal, where decorations may also be numbers or follow white space. The full statement is refuted: plus signs are rejected, large exponents throw std::out_of_range or overflow, numeric decorations are accepted, and non-ASCII characters after a literal give undefined behaviour."
  },
  {
   "property": "C36",
   "status": "partial",
   "theorems": [
    "C36_hex_partial",
    "C36_decimal_wide_partial",
    "C36_scientific_wide_partial",
    "C36_decimal_overrun",
    "C36_scientific_overrun",
    "C36_hex_overrun",
    "C36_default_output_refuted",
    "C36_refuted"
   ],
   "note": "Refuted for every representation (C36_refuted): the conditional operator binds weaker than the sum, so the decimal and scientific buffers hold only 'precision' characters; writing any interval other than empty and entire with default manipulators overruns (C36_default_output_refuted). Proved to fit: hexadecimal up to the digits of the format, for all values, widths and directions, and the other forms for wide enough widths."
  },
  {
   "property": "C37",
   "status": "partial",
   "theorems": [
    "C37_order",
    "C37_constants",
    "C37_minimum",
    "C37_minimum_list",
    "C37_read",
    "C37_read_other",
    "C37_failed_unchanged",
    "C37_read_valid",
    "C37_failed_is_ill_refuted",
    "C37_roundtrip_alphabetic",
    "C37_roundtrip_numeric_partial",
    "C37_roundtrip_hex_refuted",
    "C37_roundtrip_fill_refuted"
   ],
   "note": "Order, minimum, reading (exactly the texts denoting a decoration, decimal base) and both round trips proved. Refuted: a failed read leaves the argument unchanged instead of the documented ill (C37_failed_is_ill_refuted), and dac written numerically with std::hex is not read back (C37_roundtrip_hex_refuted)."
  },
  {
   "property": "C38",
   "status": "proved",
   "theorems": [
    "C38_new_dec",
    "C38_new_dec_empty",
    "C38_set_dec",
    "C38_set_dec_empty",
    "C38_set_dec_ill",
    "C38_set_dec_invalid_decoration",
    "C38_new_dec_valid",
    "C38_set_dec_valid",
    "C38_new_dec_interval_part",
    "C38_set_dec_interval_part",
    "C38_interval_part",
    "C38_interval_part_nai",
    "C38_decoration_part",
    "C38_interval_part_mixed",
    "C38_interval_part_mixed_nai",
    "C38_new_dec_mixed",
    "C38_set_dec_mixed"
   ],
   "note": ""
  },
  {
   "property": "C39",
   "status": "proved",
   "theorems": [
    "C39_pipeline",
    "C39_history",
    "C39_independent",
    "C39_no_subnormalize",
    "C39_subnormalize_needed",
    "C39_mid",
    "C39_mid_mixed",
    "C39_add",
    "C39_sub",
    "C39_mul",
    "C39_div",
    "C39_fma",
    "C39_sqrt",
    "C39_function",
    "C39_half_sum",
    "C39_half_sum_mixed"
   ],
   "note": "For every real result, direction, format and history of calls. MPFR functions are modelled by their documented contract (correct rounding to the precision, mpfr_check_range, mpfr_subnormalize); signs of zeros are not represented in this model."
  },
  {
   "property": "C40",
   "status": "partial",
   "theorems": [
    "C40_never_wrong",
    "C40_exact_partial",
    "C40_overflow",
    "C40_exact_refuted",
    "C40_exact_refuted_32_80",
    "C40_exact_iff"
   ],
   "note": "Refuted as stated (C40_exact_refuted: DBL_MAX - 1.5 ulp has a finite sum but a NaN error term), with the exact set of failures (C40_exact_iff): the error of a finite sum is lost if and only if the first operand is plus or minus the largest number and the second is 2k+3/2 of its last places in the other direction. A non-NaN error term is always exact."
  },
  {
   "property": "C41",
   "status": "partial",
   "theorems": [
    "C41_interval_partial",
    "C41_interval_stream_partial",
    "C41_interval_hex_partial",
    "C41_decorated_partial",
    "C41_decorated_stream_partial",
    "C41_decorated_hex_partial",
    "C41_empty_bounds_refuted",
    "C41_width_refuted",
    "C41_punctuation_refuted",
    "C41_base_refuted"
   ],
   "note": "Proved for every valid interval, bare and decorated, every number form, precision and padding with white space whose text was written (C36 tells when), from strings and streams: the interval read contains the one written, decoration kept (com becomes dac on overflow of an outward rounded bound), and hexadecimal output without precision always succeeds and is lossless. Refuted: the empty set as bounds, setw with right adjustment for decorated intervals (read from a stream with a different decoration), no punctuation, numeric decorations in hexadecimal."
  },
  {
   "property": "C42",
   "status": "partial",
   "theorems": [
    "C42_refuted",
    "C42_decorated_refuted",
    "C42_encloses_partial",
    "C42_read_back_partial",
    "C42_decorated_read_back_partial",
    "C42_decimal_returns_partial",
    "C42_decimal_fails",
    "C42_none",
    "C42_scientific_refuted",
    "C42_precision_refuted",
    "C42_exponents_refuted"
   ],
   "note": "Refuted as it is: the conversion of every non-empty interval overruns the buffer of get_str (C42_refuted, all formats, forms, precisions). With the buffer assumed long enough, proved for all three forms, decimal and scientific: whatever is written is a literal whose set encloses the interval (decimal: correctly rounded centre, least number of units) and is read back as an enclosure, decorated too; the decimal form returns for bounds up to 18 digits and never from 20 digits on (std::stoll). Also refuted then: symmetric scientific form with precision 2 does not enclose, with precision 1 throws, and bounds of very different size throw. Missing: a full characterisation of when the scientific form returns."
  },
  {
   "property": "C43",
   "status": "partial",
   "theorems": [
    "C43_built_partial",
    "C43_dbuilt_partial",
    "C43_built_clear_partial",
    "C43_dbuilt_clear_partial",
    "C43_tame_clear",
    "C43_refuted",
    "C43_dec_refuted",
    "C43_cancel_minus_refuted",
    "C43_tame_same",
    "C43_one",
    "C43_two",
    "C43_three",
    "C43_pair",
    "C43_one_dec",
    "C43_two_dec",
    "C43_three_dec",
    "C43_pair_dec",
    "C43_cancel_partial",
    "C43_cancel_dec_partial",
    "C43_new_dec",
    "C43_set_dec",
    "C43_nums",
    "C43_nums_dec",
    "C43_text",
    "C43_text_dec",
    "C43_read",
    "C43_read_dec"
   ],
   "note": "Proved by induction over all programs, with the cancellative operations restricted to operands without a bound equal to the largest finite number (of their type, or of the result type after conversion), weakened in C43_built_clear_partial to operands for which the test of the widths is exact (not blind, C23). Refuted without that restriction (C43_refuted, C43_dec_refuted): cancel_minus of two bounded intervals of double returns a lower bound above its upper bound, because two_sum's intermediate overflows and the NaN error term makes the width test false."
  },
  {
   "property": "C44",
   "status": "partial",
   "theorems": [
    "C44_bisect_sound",
    "C44_bisect_stops_partial",
    "C44_bisect_stops_refuted",
    "C44_bisect_only_zeros_refuted",
    "C44_newton_sound",
    "C44_newton_stops_partial",
    "C44_newton_stops_bounded_partial",
    "C44_newton_stops_refuted",
    "C44_main15",
    "C44_main16"
   ],
   "note": "Soundness is proved for all depths, functions and tolerances. That the recursion always ends is refuted; it is proved for Newton when eps exceeds the spacing of the numbers in the start interval (sharp) and for the bisection when the range is narrow on parts without an interior number. The programs themselves are proved to stop with the two intervals."
  },
  {
   "property": "C45",
   "status": "partial",
   "theorems": [
    "C45_latest",
    "C45_defaults",
    "C45_other_unit",
    "C45_any_unit_refuted",
    "C45_restores",
    "C45_restores_bare",
    "C45_restores_refuted",
    "C45_defined_refuted",
    "C45_string_width",
    "C45_string_width_dec",
    "C45_string_width_refuted",
    "C45_blanks",
    "C45_blanks_dec",
    "C45_width",
    "C45_width_dec",
    "C45_special_width",
    "C45_text",
    "C45_text_dec",
    "C45_overlap_names",
    "C45_first_character_refuted",
    "C45_overlap_distinct",
    "C45_overlap_distinct_numeric",
    "C45_overlap_fill_refuted"
   ],
   "note": "Proved: the last manipulator of each group counts, defaults, output restores the settings (string_width below 2^31, also on throws), lengths, padding with blanks only, agreement with the texts of C36/C41/C42, names and distinctness of overlapping states. Refuted: string_width of 2^31 and more (changed by the output, ignored, or undefined behaviour in decorated output); manipulators across translation units (each has its own ids); upper_case capitalises all characters, not the first; numeric states padded with a digit."
  },
  {
   "property": "C46",
   "status": "partial",
   "theorems": [
    "C46_flavor",
    "C46_two_sum",
    "C46_get_str",
    "C46_copy_refuted",
    "C46_reduction_defined",
    "C46_reduction_partial",
    "C46_reduction_refuted",
    "C46_reductions_accumulate",
    "C46_reduction_throw_refuted",
    "C46_reduction_no_array"
   ],
   "note": "Proved for functions with automatic variables, two_sum and get_str (returning and throwing). Refuted for the reductions: exactly one mpfr_t per element is never deleted (C46_reduction_refuted, C46_reduction_partial gives the exact remainder), and an exception in the constructor also loses the array and digits (C46_reduction_throw_refuted). No use after release or double release in the reductions (C46_reduction_defined); copies of mpfr_var would be cleared twice (C46_copy_refuted)."
  },
  {
   "property": "C47",
   "status": "partial",
   "theorems": [
    "C47_bare_partial",
    "C47_decorated_partial",
    "C47_no_tan",
    "C47_tan_types",
    "C47_tan_binary64_refuted",
    "C47_nai",
    "C47_bare_isotonic_partial",
    "C47_decorated_isotonic_partial"
   ],
   "note": "Proved for every expression whose tangents are applied to intervals without a hidden pole (see C12: all expressions without tangent, all of binary32/binary80; in binary64 hidden poles occur only at the width of the number below pi). Refuted otherwise (C47_tan_binary64_refuted). Totality and NaI (C47_nai) hold without exception."
  },
  {
   "property": "C48",
   "status": "partial",
   "theorems": [
    "C48_sqr_rev_contracts",
    "C48_abs_rev_contracts",
    "C48_cosh_rev_contracts",
    "C48_mul_rev_contracts",
    "C48_pown_rev_contracts_partial",
    "C48_sin_rev_contracts_partial",
    "C48_cos_rev_contracts_partial",
    "C48_tan_rev_contracts_partial",
    "C48_sqr_rev_idempotent",
    "C48_abs_rev_idempotent",
    "C48_cosh_rev_idempotent",
    "C48_mul_rev_idempotent",
    "C48_pown_rev_idempotent_partial",
    "C48_sqr_rev_monotone",
    "C48_abs_rev_monotone",
    "C48_cosh_rev_monotone",
    "C48_mul_rev_monotone",
    "C48_pown_rev_monotone_partial",
    "C48_sin_rev_monotone_any_refuted",
    "C48_sin_rev_monotone_refuted",
    "C48_sqr_rev_recovers",
    "C48_abs_rev_recovers",
    "C48_cosh_rev_recovers",
    "C48_mul_rev_recovers",
    "C48_pown_rev_recovers_partial",
    "C48_cos_rev_recovers_partial",
    "C48_sin_rev_recovers_partial",
    "C48_tan_rev_recovers_partial",
    "C48_tan_rev_recovers_binary32_partial"
   ],
   "note": "Proved in full for sqr_rev, abs_rev, cosh_rev, mul_rev and for pown_rev with every exponent but INT_MIN (where the code is undefined, C25; with a negative exponent the box {0} has an empty image). For sin_rev, cos_rev and tan_rev: whatever they return is a part of the box, and the image as the constraint returns the box if its bounds are of modest size (tangent: and its image is enclosed, C12). Idempotence of these three is open; monotonicity of sin_rev is refuted (C48_sin_rev_monotone_refuted)."
  },
  {
   "property": "C49",
   "status": "proved",
   "theorems": [
    "C49_add_comm",
    "C49_mul_comm",
    "C49_min_comm",
    "C49_max_comm",
    "C49_fma_comm",
    "C49_neg_neg",
    "C49_sub_neg",
    "C49_neg_sub",
    "C49_neg_add",
    "C49_mul_neg",
    "C49_div_neg",
    "C49_recip_neg",
    "C49_min_max",
    "C49_abs_even",
    "C49_sqr_even",
    "C49_cos_even",
    "C49_cosh_even",
    "C49_sin_odd",
    "C49_asin_odd",
    "C49_atan_odd",
    "C49_sinh_odd",
    "C49_tanh_odd",
    "C49_asinh_odd",
    "C49_atanh_odd",
    "C49_sign_odd",
    "C49_floor_ceil",
    "C49_trunc_odd",
    "C49_rte_odd",
    "C49_rta_odd",
    "C49_sqr_pown",
    "C49_pown_1",
    "C49_pown_m1",
    "C49_recip_div",
    "C49_fma_mul",
    "C49_fma_add",
    "C49_add_0",
    "C49_mul_1",
    "C49_mul_0",
    "C49_div_1",
    "C49_exp2_pow",
    "C49_exp10_pow",
    "C49_sqrt_pow",
    "C49_sqr_mul",
    "C49_fma_two",
    "C49_div_recip",
    "C49_pown_add",
    "C49_add_sub",
    "C49_mul_div",
    "C49_abs_sqrt",
    "C49_exp_log",
    "C49_sinh_asinh",
    "C49_sin_cos",
    "C49_distr_exact_sum",
    "C49_add_not_assoc",
    "C49_no_distr"
   ],
   "note": ""
  },
  {
   "property": "C50",
   "status": "partial",
   "theorems": [
    "C50_objects_valid",
    "C50_objects_valid_no_cancel",
    "C50_objects_valid_refuted",
    "C50_copies",
    "C50_copies_refuted",
    "C50_copy_is_assignment",
    "C50_copy_is_assignment_refuted",
    "C50_frame",
    "C50_assign_atomic",
    "C50_extract_atomic",
    "C50_extract",
    "C50_deterministic",
    "C50_widen_back"
   ],
   "note": "Proved for programs whose cancellative operations get operands with exactly tested widths (careful, SpecClass.v; all programs without cancellation). Refuted without that restriction: cancel_minus can make an invalid object (C43), assignment keeps it while a copy replaces it by the empty set, so the result depends on the copies the compiler makes."
  },
  {
   "property": "C51",
   "status": "partial",
   "theorems": [
    "C51_way_path",
    "C51_way_unique",
    "C51_way_unique_dec",
    "C51_bare_exact",
    "C51_decorated_exact",
    "C51_bare_runs",
    "C51_decorated_runs",
    "C51_inline",
    "C51_bare_partial",
    "C51_decorated_partial",
    "C51_safe_way",
    "C51_bare_fine_partial",
    "C51_decorated_fine_partial",
    "C51_tan_binary64_refuted",
    "C51_bare_returns",
    "C51_decorated_returns"
   ],
   "note": "Proved for all programs whose tangents, if any, work in binary32 or binary80, and for all runs in which no tangent meets a hidden pole (C51_bare_fine_partial, C51_decorated_fine_partial); the equality with one expression per object and that assignments return hold without restriction. Refuted with a tangent of binary64 (C51_tan_binary64_refuted, see C12). The path is shown to be the one the conditions of the program select, step by step with the state of the flags (`bare_way`, `deco_way`), and to be the only one; conversely every selected path is an execution."
  },
  {
   "property": "C52",
   "status": "partial",
   "theorems": [
    "C52_one",
    "C52_two",
    "C52_three",
    "C52_pair",
    "C52_one_dec",
    "C52_two_dec",
    "C52_three_dec",
    "C52_pair_dec",
    "C52_trig_rev_partial",
    "C52_trig_rev_dec_partial",
    "C52_trig_rev_narrow_partial",
    "C52_trig_rev_narrow_dec_partial",
    "C52_sin_rev_reports_refuted",
    "C52_cos_rev_reports_refuted",
    "C52_tan_rev_reports_refuted",
    "C52_sin_rev_refuted",
    "C52_cos_rev_refuted",
    "C52_tan_rev_refuted",
    "C52_pown_rev_partial",
    "C52_cancel_returns",
    "C52_cancel_partial",
    "C52_cancel_dec_partial",
    "C52_cancel_dec_refuted",
    "C52_expression",
    "C52_program",
    "C52_program_ends"
   ],
   "note": "Proved for all functions other than three groups: the reverse sine, cosine and tangent with x (proved for bounds up to 2^62 and 2^precision, and for binary32 and binary64 for all bounds except nonzero multiples of 2^63 times pi rounded down), the reverse powers (proved for exponents other than INT_MIN), the cancellative operations (proved for operands whose widths are tested exactly; the bare ones return for all operands). Refuted beyond: at such a multiple the three functions report valid operands as invalid in every format (C52_sin_rev_reports_refuted, C52_cos_rev_reports_refuted, C52_tan_rev_reports_refuted); the branch number overflows the long for long double (C52_sin_rev_refuted, C52_cos_rev_refuted, C52_tan_rev_refuted), INT_MIN is negated (C25), cancel_minus of mixed types reports its own invalid intermediate result (C52_cancel_dec_refuted)."
  },
  {
   "property": "C53",
   "status": "proved",
   "theorems": [
    "C53_reflexive",
    "C53_two_operands",
    "C53_three_operands",
    "C53_set_operations",
    "C53_bounds",
    "C53_disjoint_mixed",
    "C53_states",
    "C53_states_decorated",
    "C53_monotone",
    "C53_inf_neg",
    "C53_numeric",
    "C53_empty_mid",
    "C53_by_bounds"
   ],
   "note": "Laws between the relations (mixed types), set operations, overlapping states (bare and decorated), numeric functions and interval functions; also proved in the direction that holds: precedes, interior and strictly_less from the states (they are no unions of states, C53_ex), one half of the distributive law."
  },
  {
   "property": "C54",
   "status": "proved",
   "theorems": [
    "C54_unary",
    "C54_binary",
    "C54_fma",
    "C54_unary_mixed",
    "C54_binary_mixed",
    "C54_fma_mixed",
    "C54_better_unary",
    "C54_better_binary",
    "C54_better_fma",
    "C54_better_unary_mixed",
    "C54_better_binary_mixed",
    "C54_better_fma_mixed",
    "C54_expressions",
    "C54_refine"
   ],
   "note": "All forward functions in all formats (tan: in binary32, binary64, binary80), mixed types, and whole expressions; for expressions with tangents the larger box must not hide a pole (C12), where the tangent itself is wrong."
  },
  {
   "property": "C55",
   "status": "partial",
   "theorems": [
    "C55_add",
    "C55_sub",
    "C55_mul",
    "C55_div",
    "C55_fma",
    "C55_sqrt",
    "C55_rounding",
    "C55_bare_partial",
    "C55_decorated_partial",
    "C55_no_tan",
    "C55_tan_types",
    "C55_finite",
    "C55_error_partial",
    "C55_program_bare_partial",
    "C55_program_decorated_partial",
    "C55_run_inline",
    "C55_guard_needed"
   ],
   "note": "Proved for every expression whose tangents are applied to intervals without a hidden pole (as C47: all expressions without tangent, C55_no_tan; all whose tangents work in binary32 or binary80, C55_tan_types). Missing: tangents of binary64 with a hidden pole, where the interval tangent itself is wrong (C12)."
  },
  {
   "property": "C56",
   "status": "proved",
   "theorems": [
    "C56_un",
    "C56_un_mixed",
    "C56_bin",
    "C56_bin_mixed",
    "C56_fma",
    "C56_fma_mixed",
    "C56_un_dec",
    "C56_un_dec_mixed",
    "C56_bin_dec",
    "C56_bin_dec_mixed",
    "C56_exact",
    "C56_exact_dec"
   ],
   "note": "All forward functions, bare and decorated, one type and mixed types; tangent in the three C++ formats (the restriction of C12_tan_tightest)."
  },
  {
   "property": "C57",
   "status": "partial",
   "theorems": [
    "C57_un",
    "C57_un_overload",
    "C57_un_mixed",
    "C57_un_dec",
    "C57_un_dec_overload",
    "C57_un_dec_mixed",
    "C57_tan_hidden_refuted",
    "C57_tan_refuted",
    "C57_bin",
    "C57_bin_overload",
    "C57_bin_mixed",
    "C57_bin_dec",
    "C57_bin_dec_overload",
    "C57_bin_dec_mixed",
    "C57_fma_overload",
    "C57_fma_mixed",
    "C57_fma_dec_overload",
    "C57_fma_dec_mixed",
    "C57_relations",
    "C57_intersection_overload",
    "C57_intersection_mixed",
    "C57_hull_overload",
    "C57_hull_mixed",
    "C57_inf_overload",
    "C57_inf_mixed",
    "C57_sup_overload",
    "C57_sup_mixed",
    "C57_wid_overload",
    "C57_wid_mixed",
    "C57_mag_overload",
    "C57_mag_mixed",
    "C57_mig_overload",
    "C57_mig_mixed",
    "C57_mid_overload",
    "C57_mid_mixed",
    "C57_rad_overload",
    "C57_rad_mixed",
    "C57_num_dec_overload",
    "C57_num_dec_mixed",
    "C57_sqr_rev_overload",
    "C57_sqr_rev_mixed",
    "C57_abs_rev_overload",
    "C57_abs_rev_mixed",
    "C57_cosh_rev_overload",
    "C57_cosh_rev_mixed",
    "C57_mul_rev_to_pair_overload",
    "C57_mul_rev_to_pair_mixed",
    "C57_mul_rev_overload",
    "C57_mul_rev_mixed",
    "C57_sqr_rev_dec_overload",
    "C57_sqr_rev_dec_mixed",
    "C57_abs_rev_dec_overload",
    "C57_abs_rev_dec_mixed",
    "C57_cosh_rev_dec_overload",
    "C57_cosh_rev_dec_mixed",
    "C57_mul_rev_dec_overload",
    "C57_pown_rev_refuted",
    "C57_expressions",
    "C57_expressions_dec"
   ],
   "note": "Refuted for the tangent of a binary64 operand with a hidden pole (C57_tan_hidden_refuted: for every such operand the overload with the operand stored in binary80 gives another result; C57_tan_refuted: one exists). Refuted for pown_rev, whose roots are rounded in the work type before they are cut (C57_pown_rev_refuted). Proved for everything else: all other forward functions, bare and decorated, tangents without hidden pole in the C++ formats, the relations, intersection and convex hull (bare), the numeric functions (bare and decorated), mul_rev, sqr_rev, abs_rev, cosh_rev (bare and decorated), mul_rev_to_pair (bare), and whole expressions."
  },
  {
   "property": "C58",
   "status": "partial",
   "theorems": [
    "C58_un",
    "C58_un_mixed",
    "C58_un_dec",
    "C58_un_dec_mixed",
    "C58_tan_hidden_refuted",
    "C58_tan_refuted",
    "C58_bin",
    "C58_bin_mixed",
    "C58_bin_dec_first",
    "C58_bin_dec_second",
    "C58_bin_dec_first_mixed",
    "C58_bin_dec_second_mixed",
    "C58_fma",
    "C58_fma_mixed",
    "C58_fma_dec",
    "C58_fma_dec_mixed",
    "C58_sqr_rev",
    "C58_sqr_rev_mixed",
    "C58_sqr_rev_dec",
    "C58_sqr_rev_dec_mixed",
    "C58_abs_rev",
    "C58_abs_rev_mixed",
    "C58_abs_rev_dec",
    "C58_abs_rev_dec_mixed",
    "C58_cosh_rev",
    "C58_cosh_rev_mixed",
    "C58_cosh_rev_dec",
    "C58_cosh_rev_dec_mixed",
    "C58_mul_rev",
    "C58_mul_rev_mixed",
    "C58_mul_rev_dec",
    "C58_mul_rev_dec_mixed",
    "C58_pown_rev",
    "C58_pown_rev_mixed",
    "C58_intersection",
    "C58_intersection_mixed",
    "C58_expressions",
    "C58_expressions_equal_refuted"
   ],
   "note": "Proved for all forward functions, bare (one operand, two operands, fma; boxes) and decorated (one operand, two operands with one of them cut, fma), and for the reverse functions of multiplication, square, absolute value and hyperbolic cosine (bare and decorated), the reverse power with its box cut, and the intersection, one type and mixed types, and enclosure and coverage for expressions. Refuted for the tangent with a hidden pole (C58_tan_refuted, C58_tan_hidden_refuted), which is the only exception. Equality for expressions with repeated variables is false, as expected (C58_expressions_equal_refuted)."
  },
  {
   "property": "C59",
   "status": "proved",
   "theorems": [
    "C59_unary",
    "C59_unary_mixed",
    "C59_unary_dec",
    "C59_unary_dec_mixed",
    "C59_tan",
    "C59_tan_mixed",
    "C59_tan_dec",
    "C59_tan_dec_mixed",
    "C59_binary",
    "C59_binary_dec",
    "C59_binary_mixed",
    "C59_binary_dec_mixed",
    "C59_fma",
    "C59_fma_dec",
    "C59_fma_mixed",
    "C59_fma_dec_mixed",
    "C59_odd",
    "C59_even",
    "C59_pown",
    "C59_floor_ceil",
    "C59_same",
    "C59_laws",
    "C59_nai",
    "C59_nai2",
    "C59_sqr_rev",
    "C59_abs_rev",
    "C59_cosh_rev",
    "C59_mul_rev",
    "C59_mul_rev_mixed",
    "C59_atan2_refuted",
    "C59_relations",
    "C59_relations_dec",
    "C59_overlap",
    "C59_overlap_dec",
    "C59_set_operations",
    "C59_set_operations_mixed",
    "C59_numeric",
    "C59_rad"
   ],
   "note": "Proved for all forward functions of one, two and three operands that are odd, even or symmetric in their operands, bare and decorated, one type and mixed types, with NaI, and for the reverse functions of square, absolute value, hyperbolic cosine and multiplication. C59_unary and its variants assume for the tangent that no pole is hidden; C59_tan and its variants remove that for binary32, binary64 and binary80. The two-argument arc tangent is not odd on the negative axis (C59_atan2_refuted), as its mathematical definition demands. The relations (bare, mixed types, decorated), overlapping states, set operations and numeric functions of negated operands follow the sets (C59_relations to C59_rad)."
  },
  {
   "property": "C60",
   "status": "partial",
   "theorems": [
    "C60_unary",
    "C60_binary",
    "C60_fma",
    "C60_reverse",
    "C60_mul_rev",
    "C60_set_operations",
    "C60_convert",
    "C60_unary_dec",
    "C60_binary_dec",
    "C60_fma_dec",
    "C60_unary_one",
    "C60_binary_one",
    "C60_unary_one_dec",
    "C60_binary_one_dec",
    "C60_unary_finer",
    "C60_binary_finer",
    "C60_fma_finer",
    "C60_unary_finer_dec",
    "C60_binary_finer_dec",
    "C60_fma_finer_dec",
    "C60_tan_same",
    "C60_tan_hidden_refuted",
    "C60_tan_refuted"
   ],
   "note": "Proved bare and decorated, for mixed types and for one type with a conversion afterwards, with one exception: the tangent of an operand with a hidden pole (C12), when one way computes in binary64 and the other in binary80 (C60_tan_hidden_refuted). If both ways compute the tangent in the same type it holds (C60_tan_same, bare)."
  },
  {
   "property": "C61",
   "status": "proved",
   "theorems": [
    "C61_sum_order",
    "C61_sum_abs_order",
    "C61_sum_sqr_order",
    "C61_dot_order",
    "C61_dot_swap",
    "C61_state",
    "C61_sum_abs_sum",
    "C61_dot_sum_sqr",
    "C61_sum_zero",
    "C61_sum_opposite",
    "C61_dot_opposite",
    "C61_sum_opposite_sign_refuted"
   ],
   "note": "Reductions return the same bits for every order and prior exponent range; also symmetric, dual and consistent with each other. That the sign of a zero is not reversed with the elements is shown separately (C61_sum_opposite_sign_refuted); the property claims no more."
  },
  {
   "property": "C62",
   "status": "proved",
   "theorems": [
    "C62_interval_sum",
    "C62_adds_enclose",
    "C62_within_adds",
    "C62_adds_tightest_refuted",
    "C62_sum_between",
    "C62_sum_abs_between",
    "C62_sum_sqr_between",
    "C62_dot_between",
    "C62_exact",
    "C62_exact_iff",
    "C62_single"
   ],
   "note": "Tightness of the sum of intervals by two reductions and order of the directions, for all lists. That a chain of interval additions can be wider is shown as C62_adds_tightest_refuted; the property does not claim otherwise."
  },
  {
   "property": "C63",
   "status": "proved",
   "theorems": [
    "C63_sum",
    "C63_sum_abs",
    "C63_sum_sqr",
    "C63_dot",
    "C63_sum_le_sum_abs",
    "C63_triangle"
   ],
   "note": "All lists, directions and prior exponent ranges; sums with infinities of both signs are NaN and excluded by the statement."
  }
 ]
}