{
 "claims": [
  {
   "property": "C01",
   "status": "proved",
   "theorems": [
    "reduce_array_correct"
   ],
   "note": ""
  },
  {
   "property": "C02",
   "status": "proved",
   "theorems": [
    "reduce_array_twice_correct",
    "reduce_array_twice_tight"
   ],
   "note": ""
  },
  {
   "property": "C03",
   "status": "proved",
   "theorems": [
    "correct_canonical",
    "reduce_twice_correct_canonical"
   ],
   "note": ""
  },
  {
   "property": "C04",
   "status": "proved",
   "theorems": [
    "normalize_canonical",
    "normalize_inv3_canonical"
   ],
   "note": ""
  },
  {
   "property": "C05",
   "status": "proved",
   "theorems": [
    "shift_array_centred"
   ],
   "note": ""
  },
  {
   "property": "C06",
   "status": "proved",
   "theorems": [
    "mul_reduce_array16_correct",
    "mul_reduce_array_correct",
    "scalar_mul_reduce_array_correct",
    "mul_reduce_lower_end_tight"
   ],
   "note": ""
  },
  {
   "property": "C07",
   "status": "proved",
   "theorems": [
    "mul_reduce_documented_upper_end_refuted",
    "mul_reduce_all_large_products_overflow"
   ],
   "note": "refutes the documented claim"
  },
  {
   "property": "C08",
   "status": "proved",
   "theorems": [
    "modq_exact",
    "mul_array16_exact",
    "mul_array_exact",
    "scalar_mul_array_exact"
   ],
   "note": ""
  },
  {
   "property": "C09",
   "status": "proved",
   "theorems": [
    "reciprocal_constants"
   ],
   "note": ""
  },
  {
   "property": "C10",
   "status": "proved",
   "theorems": [
    "add_mod_sub_mod_exact"
   ],
   "note": ""
  },
  {
   "property": "C11",
   "status": "proved",
   "theorems": [
    "ntt_ct_rev2std_correct",
    "ntt_ct_rev2std_v1_correct"
   ],
   "note": ""
  },
  {
   "property": "C12",
   "status": "proved",
   "theorems": [
    "ntt_ct_std2rev_correct"
   ],
   "note": ""
  },
  {
   "property": "C13",
   "status": "proved",
   "theorems": [
    "ntt_gs_rev2std_correct",
    "ntt_gs_std2rev_correct"
   ],
   "note": ""
  },
  {
   "property": "C14",
   "status": "proved",
   "theorems": [
    "mulntt_ct_rev2std_correct",
    "mulntt_ct_std2rev_correct",
    "nttmul_gs_rev2std_correct",
    "nttmul_gs_std2rev_correct"
   ],
   "note": ""
  },
  {
   "property": "C15",
   "status": "proved",
   "theorems": [
    "ntt_ct_rev2std_naive_correct",
    "ntt_ct_std2rev_naive_correct",
    "ntt_gs_rev2std_naive_correct",
    "ntt_gs_std2rev_naive_correct",
    "mulntt_ct_rev2std_naive_correct",
    "mulntt_ct_std2rev_naive_correct",
    "nttmul_gs_rev2std_naive_correct",
    "nttmul_gs_std2rev_naive_correct"
   ],
   "note": "the C functions take the modulus as an argument; proved for q = 12289, the only value the library passes"
  },
  {
   "property": "C16",
   "status": "proved",
   "theorems": [
    "ntt_red_ct_rev2std_correct",
    "ntt_red_ct_std2rev_correct",
    "ntt_red_gs_rev2std_correct",
    "ntt_red_gs_std2rev_correct",
    "mulntt_red_ct_rev2std_correct",
    "mulntt_red_ct_std2rev_correct",
    "nttmul_red_gs_rev2std_correct",
    "nttmul_red_gs_std2rev_correct"
   ],
   "note": ""
  },
  {
   "property": "C17",
   "status": "proved",
   "theorems": [
    "ntt_red_ct_rev2std_safe",
    "ntt_red_ct_std2rev_safe",
    "mulntt_red_ct_rev2std_safe",
    "mulntt_red_ct_std2rev_safe",
    "ntt_red_gs_rev2std_safe",
    "ntt_red_gs_std2rev_safe",
    "nttmul_red_gs_rev2std_safe",
    "nttmul_red_gs_std2rev_safe"
   ],
   "note": ""
  },
  {
   "property": "C18",
   "status": "proved",
   "theorems": [
    "ntt_red_gs_rev2std_2048_refuted",
    "ntt_red_gs_std2rev_2048_refuted",
    "nttmul_red_gs_rev2std_2048_refuted",
    "nttmul_red_gs_std2rev_2048_refuted"
   ],
   "note": "refutes the documented claim at n=2048"
  },
  {
   "property": "C19",
   "status": "proved",
   "theorems": [
    "ntt_round_trip",
    "naive_round_trip",
    "red_round_trip"
   ],
   "note": ""
  },
  {
   "property": "C20",
   "status": "proved",
   "theorems": [
    "shipped_sizes_accepted",
    "ntt_products_correct"
   ],
   "note": ""
  },
  {
   "property": "C21",
   "status": "proved",
   "theorems": [
    "shipped_sizes_accepted",
    "naive_products_correct"
   ],
   "note": ""
  },
  {
   "property": "C22",
   "status": "proved",
   "theorems": [
    "naive_products_canonical_refuted"
   ],
   "note": ""
  },
  {
   "property": "C23",
   "status": "proved",
   "theorems": [
    "shipped_sizes_accepted",
    "red_products_correct"
   ],
   "note": ""
  },
  {
   "property": "C24",
   "status": "proved",
   "theorems": [
    "products_interchangeable"
   ],
   "note": ""
  },
  {
   "property": "C25",
   "status": "proved",
   "theorems": [
    "ntt_products_correct",
    "naive_products_correct",
    "red_products_correct",
    "products_same_array_refuted"
   ],
   "note": ""
  },
  {
   "property": "C26",
   "status": "proved",
   "theorems": [
    "bitrev_shuffle_correct",
    "bitrev_shuffle_involutive"
   ],
   "note": ""
  },
  {
   "property": "C27",
   "status": "proved",
   "theorems": [
    "make_bitrev_table_accepts_iff",
    "bitrev_table_shuffle_agrees"
   ],
   "note": ""
  },
  {
   "property": "C28",
   "status": "proved",
   "theorems": [
    "make_tables_output"
   ],
   "note": ""
  },
  {
   "property": "C29",
   "status": "proved",
   "theorems": [
    "make_red_tables_output"
   ],
   "note": ""
  },
  {
   "property": "C30",
   "status": "proved",
   "theorems": [
    "is_primitive_root_correct",
    "make_tables_accepts_iff",
    "make_red_tables_accepts_iff",
    "make_tables_total",
    "make_red_tables_total",
    "accepted_size_divides"
   ],
   "note": ""
  },
  {
   "property": "C31",
   "status": "proved",
   "theorems": [
    "power_correct",
    "inverse_correct",
    "inverse_modulus_one_refuted",
    "logtwo_correct",
    "reverse_correct"
   ],
   "note": ""
  },
  {
   "property": "C32",
   "status": "proved",
   "theorems": [
    "verifier_red_exact",
    "verifier_red_unbounded"
   ],
   "note": ""
  },
  {
   "property": "C33",
   "status": "proved",
   "theorems": [
    "max_red_exact",
    "min_red_exact"
   ],
   "note": ""
  },
  {
   "property": "C34",
   "status": "proved",
   "theorems": [
    "max_red_mul_exact",
    "min_red_mul_exact"
   ],
   "note": ""
  },
  {
   "property": "C35",
   "status": "proved",
   "theorems": [
    "ct_bound_exact",
    "gs_bound_exact",
    "ct_bound_fixed_exact",
    "gs_bound_fixed_exact",
    "ntt_ct_bounds_sound",
    "ntt_gs_bounds_sound"
   ],
   "note": ""
  },
  {
   "property": "C36",
   "status": "proved",
   "theorems": [
    "max_red_mul_interval_exact",
    "min_red_mul_interval_exact",
    "red_mul_interval_asymmetric_refuted"
   ],
   "note": ""
  },
  {
   "property": "C37",
   "status": "proved",
   "theorems": [
    "interval_constructors",
    "interval_add_exact",
    "interval_sub_exact",
    "interval_neg_exact",
    "interval_red_exact",
    "interval_red_twice_sound",
    "interval_red_scale_exact",
    "interval_red_mul_exact",
    "interval_red_mul_refuted",
    "interval_normal_sound",
    "interval_normal_inv3_sound",
    "interval_shift_sound",
    "interval_correct_sound"
   ],
   "note": ""
  },
  {
   "property": "C38",
   "status": "proved",
   "theorems": [
    "show_intervals_exact",
    "abstract_ct_sound",
    "abstract_gs_sound",
    "no_warning_refuted",
    "abstract2_refuted"
   ],
   "note": ""
  },
  {
   "property": "C39",
   "status": "proved",
   "theorems": [
    "sort_sorts"
   ],
   "note": ""
  },
  {
   "property": "C40",
   "status": "proved",
   "theorems": [
    "committed_bitrev_tables",
    "committed_ntt32_tables"
   ],
   "note": ""
  },
  {
   "property": "C41",
   "status": "proved",
   "theorems": [
    "make_tables_memory_independent",
    "make_red_tables_memory_independent"
   ],
   "note": ""
  },
  {
   "property": "C42",
   "status": "proved",
   "theorems": [
    "red_mul_zero_constant_refuted"
   ],
   "note": ""
  },
  {
   "property": "C43",
   "status": "proved",
   "theorems": [
    "min_red_mul_interval_zero_refuted"
   ],
   "note": ""
  },
  {
   "property": "C44",
   "status": "proved",
   "theorems": [
    "abstract_arrays_sound",
    "abstract_products_sound",
    "abstract_mul_reduce_array_refuted"
   ],
   "note": ""
  },
  {
   "property": "C45",
   "status": "proved",
   "theorems": [
    "reduce_array_asm_correct",
    "reduce_array_twice_asm_correct",
    "correct_asm_canonical",
    "shift_array_asm_centred",
    "mul_reduce_array16_asm_correct",
    "mul_reduce_array_asm_correct",
    "scalar_mul_reduce_array_asm_correct",
    "asm_in_bounds"
   ],
   "note": ""
  },
  {
   "property": "C46",
   "status": "proved",
   "theorems": [
    "array_asm_equals_c",
    "mul_reduce_array_asm_equals_c",
    "correct_asm_differs_refuted"
   ],
   "note": ""
  },
  {
   "property": "C47",
   "status": "proved",
   "theorems": [
    "shift_array_asm_any_n_refuted"
   ],
   "note": ""
  },
  {
   "property": "C48",
   "status": "proved",
   "theorems": [
    "ntt_asm_equals_c",
    "mulntt_asm_equals_c",
    "mulntt_asm_in_bounds",
    "ntt_asm_in_bounds",
    "asm_in_bounds"
   ],
   "note": ""
  },
  {
   "property": "C49",
   "status": "proved",
   "theorems": [
    "ntt_red_ct_rev2std_asm_correct",
    "ntt_red_ct_std2rev_asm_correct",
    "ntt_red_gs_rev2std_asm_correct",
    "ntt_red_gs_std2rev_asm_correct",
    "mulntt_red_ct_rev2std_asm_correct",
    "mulntt_red_ct_std2rev_asm_correct",
    "nttmul_red_gs_rev2std_asm_correct",
    "nttmul_red_gs_std2rev_asm_correct"
   ],
   "note": ""
  },
  {
   "property": "C50",
   "status": "proved",
   "theorems": [
    "asm_products_correct",
    "asm_products_equal_c"
   ],
   "note": ""
  },
  {
   "property": "C51",
   "status": "proved",
   "theorems": [
    "asm1024_product1_correct"
   ],
   "note": ""
  },
  {
   "property": "C52",
   "status": "proved",
   "theorems": [
    "c_transforms_trace",
    "c_naive_trace",
    "c_arrays_trace",
    "c_scalars_trace"
   ],
   "note": ""
  },
  {
   "property": "C53",
   "status": "proved",
   "theorems": [
    "asm_trace_total",
    "asm_trace"
   ],
   "note": ""
  },
  {
   "property": "C54",
   "status": "proved",
   "theorems": [
    "c_products_trace",
    "asm_products_trace",
    "asm1024_product1_trace"
   ],
   "note": ""
  },
  {
   "property": "C55",
   "status": "proved",
   "theorems": [
    "branches_on_values_refuted"
   ],
   "note": ""
  },
  {
   "property": "C56",
   "status": "proved",
   "theorems": [
    "products_commute",
    "products_associate",
    "products_distribute",
    "products_by_monomial",
    "products_by_one"
   ],
   "note": ""
  },
  {
   "property": "C57",
   "status": "proved",
   "theorems": [
    "avx2_supported_correct",
    "avx2_supported_needs_osxsave"
   ],
   "note": ""
  },
  {
   "property": "C58",
   "status": "proved",
   "theorems": [
    "make_tables_files_read",
    "make_red_tables_files_read",
    "make_bitrev_files_read"
   ],
   "note": ""
  },
  {
   "property": "C59",
   "status": "proved",
   "theorems": [
    "committed_bitrev_files",
    "committed_ntt32_files"
   ],
   "note": ""
  },
  {
   "property": "C60",
   "status": "proved",
   "theorems": [
    "primitive_roots_files",
    "primitive_roots_accepted"
   ],
   "note": ""
  },
  {
   "property": "C61",
   "status": "proved",
   "theorems": [
    "notes_propositions",
    "notes_safe_range",
    "notes_updates",
    "notes_tighter_bounds"
   ],
   "note": ""
  },
  {
   "property": "C62",
   "status": "proved",
   "theorems": [
    "notes_coarse_sequences",
    "notes_exact_sequences",
    "notes_first_operands",
    "notes_ct_transforms",
    "notes_gs_transforms"
   ],
   "note": ""
  },
  {
   "property": "C63",
   "status": "proved",
   "theorems": [
    "ntt_header_std2rev",
    "ntt_header_rev2std",
    "naive_header_std2rev",
    "naive_header_rev2std",
    "red_header_std2rev",
    "red_header_rev2std",
    "asm_header_std2rev",
    "asm_header_rev2std",
    "asm_header_equal_c",
    "asm_round_trip"
   ],
   "note": ""
  },
  {
   "property": "C64",
   "status": "proved",
   "theorems": [
    "abstract_arrays_pointwise",
    "abstract_correct_exits",
    "abstract_products_pointwise",
    "abstract_transforms_finish",
    "abstract_ct_run",
    "abstract_gs_run"
   ],
   "note": ""
  },
  {
   "property": "C65",
   "status": "proved",
   "theorems": [
    "harnesses_verified",
    "table_harnesses_verified",
    "intrinsic_is_mul_red",
    "safe_assertion_refuted",
    "alternative_bounds_refuted"
   ],
   "note": ""
  },
  {
   "property": "C66",
   "status": "proved",
   "theorems": [
    "paper_tests_verified",
    "paper_interval_tests_refuted"
   ],
   "note": ""
  },
  {
   "property": "C67",
   "status": "proved",
   "theorems": [
    "test_ntt_red_main_refuted",
    "test_ntt_main_ok",
    "test_naive_ntt_main_ok",
    "test_ntt_red_asm_main_ok",
    "test_ntt_red_asm1024_main_ok",
    "test_ntt_red_tests_ok",
    "test_ntt_red16_main_refuted"
   ],
   "note": ""
  },
  {
   "property": "C68",
   "status": "proved",
   "theorems": [
    "main_certifies_transforms",
    "main_certifies_inverses",
    "main_certifies_products"
   ],
   "note": ""
  },
  {
   "property": "C69",
   "status": "proved",
   "theorems": [
    "approx_modq_exact",
    "approx_modq_45_exact",
    "approx_modq_first_failure",
    "test_all_approx_prints",
    "pmodq_exact",
    "approx_pmodq_exact",
    "approx_pmodq_overflow",
    "test_pmod_approx_fails_at",
    "approx_pmodq_first_overflow",
    "test_pmod_approx_refuted",
    "test_mod_main_refuted"
   ],
   "note": ""
  },
  {
   "property": "C70",
   "status": "proved",
   "theorems": [
    "test_overflow2_exact",
    "bounds_found",
    "bounds_safe_and_sharp",
    "ct_bound_safe",
    "gs_bound_safe",
    "ct_rounds_safe",
    "gs_rounds_safe",
    "test_red_prints"
   ],
   "note": ""
  },
  {
   "property": "C71",
   "status": "proved",
   "theorems": [
    "red_transforms_never_wrong",
    "red_products_never_wrong"
   ],
   "note": ""
  },
  {
   "property": "C72",
   "status": "proved",
   "theorems": [
    "ct_rev2std_exact",
    "repeated_calls_stop"
   ],
   "note": ""
  },
  {
   "property": "C73",
   "status": "proved",
   "theorems": [
    "red1024_products_repeat",
    "speed_mul1024_mains_ok"
   ],
   "note": ""
  },
  {
   "property": "C74",
   "status": "proved",
   "theorems": [
    "test_avx_defined_refuted"
   ],
   "note": ""
  },
  {
   "property": "C75",
   "status": "proved",
   "theorems": [
    "test_avx_reductions_pass",
    "test_avx_products_never_mismatch",
    "test_avx_products_pass",
    "cross_check_certifies"
   ],
   "note": ""
  },
  {
   "property": "C76",
   "status": "proved",
   "theorems": [
    "test_avx_scalar_filter_refuted",
    "test_avx_mul16_filter_refuted",
    "test_avx_speed_products_refuted",
    "test_avx_speed_tests_run"
   ],
   "note": ""
  },
  {
   "property": "C77",
   "status": "proved",
   "theorems": [
    "kat_mains_verdict"
   ],
   "note": ""
  },
  {
   "property": "C78",
   "status": "proved",
   "theorems": [
    "gs_interval_safe",
    "ntt_red_gs_rev2std_interval",
    "ntt_red_gs_std2rev_interval",
    "nttmul_red_gs_rev2std_interval",
    "nttmul_red_gs_std2rev_interval",
    "canonical_2048_safe"
   ],
   "note": "contradicts a sentence of section 4 of the paper"
  },
  {
   "property": "C79",
   "status": "proved",
   "theorems": [
    "basis_test_decides"
   ],
   "note": ""
  },
  {
   "property": "C80",
   "status": "proved",
   "theorems": [
    "test_bitrev_tables_right",
    "test_ntt_red_tables_right",
    "test_ntt_tables_right",
    "test_ntt_red_all_pass",
    "test_ntt_red_program_refuted"
   ],
   "note": "test_ntt_red.c overflows in its speed measurement"
  },
  {
   "property": "C81",
   "status": "proved",
   "theorems": [
    "ntt_functions_linear",
    "ntt_red_functions_linear"
   ],
   "note": ""
  },
  {
   "property": "C82",
   "status": "proved",
   "theorems": [
    "ntt_basis_test_decides",
    "cross_check_decides"
   ],
   "note": ""
  },
  {
   "property": "C83",
   "status": "proved",
   "theorems": [
    "test_ntt_functions_right",
    "test_ntt_main_returns"
   ],
   "note": ""
  },
  {
   "property": "C84",
   "status": "proved",
   "theorems": [
    "avx_comparisons_agree",
    "avx_cross_checks_pass",
    "avx_cross_check_certifies",
    "test_ntt_avx_never_reports",
    "test_ntt_avx_defined_refuted",
    "test_ntt_avx_outcomes"
   ],
   "note": "the claim that the program is free of undefined behaviour is refuted"
  },
  {
   "property": "C85",
   "status": "proved",
   "theorems": [
    "red_bounds_reductions",
    "red_bounds_iterations",
    "red_bounds_options",
    "red_bounds_tables",
    "red_bounds_checks_pass",
    "red_bounds_checks_decide"
   ],
   "note": ""
  },
  {
   "property": "C86",
   "status": "proved",
   "theorems": [
    "test_shift_masks"
   ],
   "note": ""
  },
  {
   "property": "C87",
   "status": "proved",
   "theorems": [
    "frame_table",
    "frame_naive",
    "frame_array",
    "frame_array_product",
    "frame_products",
    "asm_in_bounds"
   ],
   "note": ""
  },
  {
   "property": "C88",
   "status": "proved",
   "theorems": [
    "default_test_certifies",
    "naive_test_certifies",
    "red_test_certifies",
    "asm_test_certifies"
   ],
   "note": ""
  },
  {
   "property": "C89",
   "status": "proved",
   "theorems": [
    "default_stays_in_bounds",
    "naive_stays_in_bounds",
    "red_stays_in_bounds",
    "asm_products_stay_in_bounds",
    "shuffle_stays_in_bounds"
   ],
   "note": ""
  },
  {
   "property": "C90",
   "status": "proved",
   "theorems": [
    "ntt_forwards_agree",
    "ntt_accumulate",
    "naive_forwards_agree",
    "naive_accumulate",
    "red_forwards_agree",
    "red_accumulate",
    "red_asm_forwards_agree",
    "red_asm_accumulate"
   ],
   "note": ""
  },
  {
   "property": "C91",
   "status": "proved",
   "theorems": [
    "ntt_cyclic_correct",
    "naive_cyclic_correct"
   ],
   "note": ""
  },
  {
   "property": "C92",
   "status": "proved",
   "theorems": [
    "ntt_halves_inverse",
    "naive_halves_inverse",
    "red_halves_inverse",
    "red_asm_halves_inverse"
   ],
   "note": ""
  },
  {
   "property": "C93",
   "status": "proved",
   "theorems": [
    "ntt_units",
    "naive_units",
    "red_units",
    "red_asm_units",
    "ntt_divides",
    "naive_divides",
    "red_divides",
    "red_asm_divides"
   ],
   "note": ""
  },
  {
   "property": "C94",
   "status": "proved",
   "theorems": [
    "products_exact",
    "products_small",
    "products_ordinary",
    "naive_products_exact"
   ],
   "note": ""
  },
  {
   "property": "C95",
   "status": "proved",
   "theorems": [
    "kat_main_decides"
   ],
   "note": ""
  },
  {
   "property": "C96",
   "status": "proved",
   "theorems": [
    "red_cyclic_correct",
    "red_asm_cyclic_correct"
   ],
   "note": ""
  },
  {
   "property": "C97",
   "status": "proved",
   "theorems": [
    "red_bounds_txt_best",
    "red_bounds_txt_computed",
    "red_bounds_txt_transforms",
    "red_bounds_txt_printed"
   ],
   "note": ""
  }
 ]
}
