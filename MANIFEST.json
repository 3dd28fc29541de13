{
 "claims": [
  {
   "property": "C01",
   "status": "proved",
   "theorems": [
    "C01_horner",
    "C01_horner_stable",
    "C01_horner_domain"
   ],
   "note": "Folds over the list on Num; specification is an explicit power sum; induction on the list."
  },
  {
   "property": "C02",
   "status": "proved",
   "theorems": [
    "C02_horner_and_der",
    "C02_horner_and_der2",
    "C02_horner_and_der3",
    "C02_horner_and_der4",
    "C02_horner_stable_and_der",
    "C02_horner_stable_and_der2",
    "C02_horner_stable_and_der3",
    "C02_horner_stable_and_der4"
   ],
   "note": "Loop state invariant relating der_k to the k-th Taylor coefficient; derivatives are Coquelicot is_derive / is_derive_n."
  },
  {
   "property": "C03",
   "status": "proved",
   "theorems": [
    "C03_horner_backwards_ln_tau",
    "C03_horner_stable_ln_tau",
    "C03_ln_tau_at_or_above_critical",
    "C03_exp_horner_backwards",
    "C03_exp_horner_stable",
    "C03_exp_ln_tau",
    "C03_exp_horner_stable_value_agreement_refuted",
    "C03_exp_poly_ln_tau_coeffs2",
    "C03_exp_poly_ln_tau_coeffs3"
   ],
   "note": "Real models with exp/ln; chain rule with Coquelicot is_derive on top of C02."
  },
  {
   "property": "C04",
   "status": "proved",
   "theorems": [
    "C04_polyint",
    "C04_polyint_stable",
    "C04_polyint_over_x",
    "C04_polyder",
    "C04_polyint_over_x_stable",
    "C04_polyint_over_x_stable_degenerate"
   ],
   "note": "List models by index; specification via is_derive of the evaluated polynomial; induction."
  },
  {
   "property": "C05",
   "status": "proved",
   "theorems": [
    "C05_poly_add",
    "C05_poly_mul",
    "C05_stable_poly_to_unstable",
    "C05_stable_poly_to_unstable_degenerate",
    "C05_poly_convert"
   ],
   "note": "Loops modelled with in-place updates on lists; convolution lemma; induction on coefficient list."
  },
  {
   "property": "C06",
   "status": "proved",
   "theorems": [
    "C06_quadratic_from_points",
    "C06_quadratic_from_f_ders",
    "C06_deflate_cubic"
   ],
   "note": "Field identities over R including the error branch."
  },
  {
   "property": "C07",
   "status": "proved",
   "theorems": [
    "C07_transpose_entries",
    "C07_transpose_involutive",
    "C07_transpose_ragged",
    "C07_transpose_empty",
    "C07_ragged_first_row_empty_refuted"
   ],
   "note": "Polymorphic list model; induction on rows."
  },
  {
   "property": "C08",
   "status": "proved",
   "theorems": [
    "C08_matrix_multiply",
    "C08_matrix_multiply_rejects",
    "C08_matrix_multiply_assoc",
    "C08_eye",
    "C08_eye_rejects",
    "C08_eye_neutral",
    "C08_matrix_vector_dot",
    "C08_matrix_vector_dot_rejects",
    "C08_multiply_compatible_with_vector",
    "C08_dot_product",
    "C08_sum_matrix_rows",
    "C08_sum_matrix_cols",
    "C08_scalar_add_matrices",
    "C08_scalar_subtract_matrices",
    "C08_scalar_add_rejects",
    "C08_scalar_multiply_matrix",
    "C08_scalar_divide_matrix"
   ],
   "note": "Loop-nest list model; sums over indices; induction."
  },
  {
   "property": "C09",
   "status": "proved",
   "theorems": [
    "C09_det",
    "C09_det_zero_iff_singular",
    "C09_det_multiplicative",
    "C09_det_identity",
    "C09_det_1x1_refuted"
   ],
   "note": "Explicit formula vs recursive cofactor specification, by ring."
  },
  {
   "property": "C10",
   "status": "proved",
   "theorems": [
    "C10_inv",
    "C10_inv_singular",
    "C10_inv_involutive"
   ],
   "note": "Closed forms by field; LU path via C12."
  },
  {
   "property": "C11",
   "status": "proved",
   "theorems": [
    "C11_solve",
    "C11_solve_singular",
    "C11_solve_2_direct",
    "C11_solve_3_direct",
    "C11_solve_4_direct",
    "C11_solve_3_direct_complete_refuted"
   ],
   "note": "field over R, error branch kept."
  },
  {
   "property": "C12",
   "status": "proved",
   "theorems": [
    "C12_lu",
    "C12_lu_singular",
    "C12_solve_LU_decomposition",
    "C12_inv_lu",
    "C12_solve_LU_fails_only_if_singular"
   ],
   "note": "Gallina model of the Crout loop; invariant by induction on the column."
  },
  {
   "property": "C13",
   "status": "proved",
   "theorems": [
    "C13_solve_tridiagonal",
    "C13_solve_tridiagonal_dominant",
    "C13_bands_roundtrip",
    "C13_array_roundtrip"
   ],
   "note": "Two-pass Thomas model; invariant by induction over rows."
  },
  {
   "property": "C14",
   "status": "proved",
   "theorems": [
    "C14_argsort1d_permutation",
    "C14_argsort1d_sorted_stable",
    "C14_sort_paired_lists",
    "C14_sort_paired_lists_mismatch"
   ],
   "note": "Stable insertion-sort specification of Python's sorted; permutation and order proofs."
  },
  {
   "property": "C15",
   "status": "proved",
   "theorems": [
    "C15_binary_search",
    "C15_binary_search_terminates",
    "C15_binary_search_cases"
   ],
   "note": "Loop by well-founded recursion on the interval width; invariant."
  },
  {
   "property": "C16",
   "status": "proved",
   "theorems": [
    "C16_interp_inside",
    "C16_interp_outside",
    "C16_interp_extrapolate",
    "C16_interp_bounded",
    "C16_interp_monotone",
    "C16_interp2d_linear"
   ],
   "note": "Model over R on top of the C15 search; convexity lemma."
  },
  {
   "property": "C17",
   "status": "proved",
   "theorems": [
    "C17_linspace",
    "C17_linspace_no_endpoint",
    "C17_linspace_degenerate",
    "C17_cumulative_trapezoid",
    "C17_cumulative_trapezoid_dx",
    "C17_cumulative_trapezoid_affine",
    "C17_cumsum",
    "C17_diff_cumsum",
    "C17_diff",
    "C17_product"
   ],
   "note": "List models, induction."
  },
  {
   "property": "C18",
   "status": "proved",
   "theorems": [
    "C18_bisect_result",
    "C18_bisect_root_nearby",
    "C18_bisect_inside",
    "C18_bisect_errors",
    "C18_bisect_converges"
   ],
   "note": "Structural recursion on maxiter; invariant on bracket and sign; f-extensionality statement."
  },
  {
   "property": "C19",
   "status": "proved",
   "theorems": [
    "C19_brenth_result",
    "C19_brenth_inside",
    "C19_brenth_errors",
    "C19_brenth_converges",
    "C19_brenth_root_nearby",
    "C19_brenth_ytol_inside_refuted",
    "C19_ridder_result",
    "C19_ridder_inside",
    "C19_ridder_errors",
    "C19_ridder_wide_tolerance_refuted"
   ],
   "note": "Loop models; invariant of Brent's bracket; potential argument for the iteration bound; f-extensionality."
  },
  {
   "property": "C20",
   "status": "proved",
   "theorems": [
    "C20_secant_bounds",
    "C20_secant_bracketed",
    "C20_secant_value",
    "C20_secant_affine",
    "C20_secant_affine_bisection",
    "C20_secant_decreasing_refuted",
    "C20_secant_maxiter_refuted",
    "C20_secant_guesses_bounds_refuted",
    "C20_newton_bounds",
    "C20_newton_value",
    "C20_newton_errors",
    "C20_newton_convex",
    "C20_newton_affine",
    "C20_newton_guesses_bisection_refuted",
    "C20_newton_fprime2_refuted",
    "C20_newton_at_bound_refuted"
   ],
   "note": "Loop models generic in Num with all options; invariants by induction on the remaining iterations; computed counterexamples."
  },
  {
   "property": "C21",
   "status": "proved",
   "theorems": [
    "C21_fixed_point_result",
    "C21_fixed_point_errors",
    "C21_fixed_point_converges",
    "C21_residual_at_result_refuted",
    "C21_fixed_point_gives_up"
   ],
   "note": "Generic loop model; induction on maxiter; contraction estimate in the 1-norm."
  },
  {
   "property": "C22",
   "status": "proved",
   "theorems": [
    "C22_chebval",
    "C22_chebder",
    "C22_chebder_high_order_refuted",
    "C22_chebint",
    "C22_chebint_once",
    "C22_exp_cheb",
    "C22_chebval_ln_tau",
    "C22_exp_cheb_ln_tau",
    "C22_ln_tau_at_or_above_critical"
   ],
   "note": "Induction with a Clenshaw invariant; is_derive specification."
  },
  {
   "property": "C23",
   "status": "proved",
   "theorems": [
    "C23_normalize",
    "C23_mean",
    "C23_std",
    "C23_empty",
    "C23_detect_outlier_normal"
   ],
   "note": "List induction on R."
  },
  {
   "property": "C24",
   "status": "proved",
   "theorems": [
    "C24_image_strictly_inside",
    "C24_outof_then_into",
    "C24_into_then_outof",
    "C24_wrapped_function",
    "C24_wrapped_gradient",
    "C24_outof_then_into_all_refuted"
   ],
   "note": "Componentwise logistic maps on R."
  },
  {
   "property": "C25",
   "status": "proved",
   "theorems": [
    "C25_caching",
    "C25_info_after_plain_call_refuted"
   ],
   "note": "State machine over call traces; induction on the trace."
  },
  {
   "property": "C26",
   "status": "proved",
   "theorems": [
    "C26_oscillation_verdicts",
    "C26_progress_not_flagged",
    "C26_one_sided_not_flagged"
   ],
   "note": "State machine; induction on history."
  },
  {
   "property": "C27",
   "status": "proved",
   "theorems": [
    "C27_nelder_mead",
    "C27_nelder_mead_bounds_partial",
    "C27_nelder_mead_bounds_refuted"
   ],
   "note": "Loop model; simplex invariant fsim[i]=f(sim[i])."
  },
  {
   "property": "C28",
   "status": "proved",
   "theorems": [
    "C28_quad_evaluates_inside",
    "C28_default_points_inside",
    "C28_quad_total",
    "C28_quad_panels",
    "C28_quad_exact",
    "C28_quad_depth_zero",
    "C28_error_nonnegative_refuted",
    "C28_tolerance_met_refuted"
   ],
   "note": "Recursion on remaining depth; extensionality."
  },
  {
   "property": "C29",
   "status": "proved",
   "theorems": [
    "C29_clip",
    "C29_clip_low_none_refuted",
    "C29_damping",
    "C29_damping_strict",
    "C29_damp_initial",
    "C29_max_step"
   ],
   "note": "List models, induction."
  },
  {
   "property": "C30",
   "status": "proved",
   "theorems": [
    "C30_round_trip",
    "C30_zeros"
   ],
   "note": "Functional composition, list induction."
  },
  {
   "property": "C31",
   "status": "proved",
   "theorems": [
    "C31_table_geometry",
    "C31_table_order",
    "C31_inner_diameter",
    "C31_inner_diameter_error",
    "C31_outer_diameter",
    "C31_outer_diameter_error",
    "C31_nominal_size",
    "C31_unknown_schedule",
    "C31_numeric_schedule",
    "C31_monotone",
    "C31_round_trip",
    "C31_no_request_refuted",
    "C31_round_trip_binary64_refuted"
   ],
   "note": "The actual tables as rational lists; lookup functions; sortedness by vm_compute lifted with forallb_forall; minimality by induction."
  },
  {
   "property": "C32",
   "status": "proved",
   "theorems": [
    "C32_round_trip",
    "C32_metres",
    "C32_gauge_from_t",
    "C32_too_thick",
    "C32_too_thin_refuted",
    "C32_unknown",
    "C32_unknown_gauge"
   ],
   "note": "Tables as rational lists; exhaustive over entries, induction over the list for arbitrary t."
  },
  {
   "property": "C33",
   "status": "proved",
   "theorems": [
    "C33_motor_round_size",
    "C33_too_large",
    "C33_monotone_idempotent"
   ],
   "note": "Table scan model; sortedness."
  },
  {
   "property": "C34",
   "status": "proved",
   "theorems": [
    "C34_API520_round_size",
    "C34_too_large"
   ],
   "note": "Table scan model."
  },
  {
   "property": "C35",
   "status": "proved",
   "theorems": [
    "C35_efficiency_in_table_range",
    "C35_nondecreasing_in_power",
    "C35_tabulated",
    "C35_high_efficiency_at_least_minimum",
    "C35_high_efficiency_at_least_minimum_refuted",
    "C35_unsupported_poles_refuted"
   ],
   "note": "Tables and interpolation model; monotone interpolation and monotone rounding."
  },
  {
   "property": "C36",
   "status": "proved",
   "theorems": [
    "C36_VFD_in_range",
    "C36_VFD_nondecreasing_in_load",
    "C36_VFD_clamped",
    "C36_VFD_tabulated",
    "C36_VFD_nondecreasing_in_power_refuted",
    "C36_underloaded_range",
    "C36_underloaded_nondecreasing",
    "C36_underloaded_at_most_one_refuted",
    "C36_underloaded_monotone_refuted"
   ],
   "note": "Bilinear interpolation model; derivative of the quartic in Bernstein form on panels, checked on rationals."
  },
  {
   "property": "C37",
   "status": "proved",
   "theorems": [
    "C37_API520_N_low",
    "C37_API520_N_high",
    "C37_API520_N_increasing",
    "C37_API520_N_jump_refuted",
    "C37_API520_N_pole_refuted",
    "C37_API520_SH",
    "C37_API520_SH_nonincreasing",
    "C37_API520_SH_pressure_limit_refuted",
    "C37_API520_B",
    "C37_API520_B_nonincreasing",
    "C37_API520_B_overpressure",
    "C37_API520_B_atmospheric_set_refuted",
    "C37_API520_W",
    "C37_API520_W_nonincreasing",
    "C37_API520_W_above_table_refuted"
   ],
   "note": "Piecewise models on the actual tables; monotone interpolation on lines and surfaces."
  },
  {
   "property": "C38",
   "status": "proved",
   "theorems": [
    "C38_laminar",
    "C38_zero_Re",
    "C38_methods_unchecked",
    "C38_unknown_method",
    "C38_default_is_Clamond",
    "C38_Darcy",
    "C38_listed_methods_positive",
    "C38_default_listed",
    "C38_Rao_Kumar_smooth_refuted",
    "C38_Papaevangelo_negative_refuted",
    "C38_Papaevangelo_sign",
    "C38_Serghides_1_refuted"
   ],
   "note": "All 31 correlations translated mechanically into monadic real functions (every division, root, logarithm and power guarded as in Python); positivity by bounding each logarithm argument, constants by verified interval arithmetic. The Lambert function used by Colebrook is any function with w exp(w) = x. Serghides_2 is only covered by dispatch (its denominator may vanish in the same way as that of Serghides_1); Colebrook is covered while eD*Re is at most 1e13 (its overflow branch is not modelled)."
  },
  {
   "property": "C39",
   "status": "proved",
   "theorems": [
    "C39_documented_positive",
    "C39_unknown_method",
    "C39_unknown_Rec_method",
    "C39_default_by_regime",
    "C39_Darcy",
    "C39_laminar_above_straight",
    "C39_White_below_is_straight",
    "C39_no_jump",
    "C39_methods_listed",
    "C39_methods_unchecked"
   ],
   "note": "Mechanically translated models of the dispatcher, six critical Reynolds numbers and eleven correlations."
  },
  {
   "property": "C40",
   "status": "proved",
   "theorems": [
    "C40_total_positive",
    "C40_optimism_ordered",
    "C40_optimism_refuted",
    "C40_Farshad_lookup",
    "C40_Farshad_coeffs",
    "C40_Farshad_unknown_refuted"
   ],
   "note": "The tables generated as data; the fuzzy string search an oracle; recursion with fuel."
  },
  {
   "property": "C41",
   "status": "proved",
   "theorems": [
    "C41_K_f",
    "C41_K_L_equiv",
    "C41_K_L",
    "C41_head_P",
    "C41_head_dP_agree",
    "C41_pipe_dP",
    "C41_zero_denominators"
   ],
   "note": "Model generated from the source over R; field."
  },
  {
   "property": "C42",
   "status": "proved",
   "theorems": [
    "C42_convert_correct",
    "C42_paths_agree",
    "C42_round_trip",
    "C42_order_preserving"
   ],
   "note": "Affine maps against an independent meaning in kelvin; induction on paths."
  },
  {
   "property": "C43",
   "status": "proved",
   "theorems": [
    "C43_inverse",
    "C43_wrong_arguments",
    "C43_definition"
   ],
   "note": "Options for None; field."
  },
  {
   "property": "C44",
   "status": "proved",
   "theorems": [
    "C44_solves",
    "C44_arguments",
    "C44_work_is_enthalpy_rise",
    "C44_isothermal_least",
    "C44_isothermal_stages"
   ],
   "note": "Generated real model; logarithms for the inverse laws, convexity of exp for the inequality."
  },
  {
   "property": "C45",
   "status": "proved",
   "theorems": [
    "C45_isentropic_polytropic",
    "C45_exponent",
    "C45_arguments"
   ],
   "note": "Real powers; strict convexity of exp."
  },
  {
   "property": "C46",
   "status": "proved",
   "theorems": [
    "C46_stagnation_inverse",
    "C46_critical_is_sonic",
    "C46_is_critical_flow",
    "C46_stagnation_ge"
   ],
   "note": "Real powers."
  },
  {
   "property": "C47",
   "status": "proved",
   "theorems": [
    "C47_lambert_exists",
    "C47_critical_inverse",
    "C47_mass_flow",
    "C47_length",
    "C47_outlet_pressure",
    "C47_outlet_pressure_back",
    "C47_inlet_pressure_sound",
    "C47_diameter_sound",
    "C47_arguments"
   ],
   "note": "Real model by hand (try/except). lambertw on the lower branch is a parameter with its defining equation, shown to be satisfiable; secant and brenth are parameters returning exact roots, so the float tolerance of the iterative modes (inlet pressure, diameter) is outside."
  },
  {
   "property": "C48",
   "status": "proved",
   "theorems": [
    "C48_Panhandle_A_solves",
    "C48_Panhandle_A_answers",
    "C48_Panhandle_A_arguments",
    "C48_Panhandle_B_solves",
    "C48_Panhandle_B_answers",
    "C48_Panhandle_B_arguments",
    "C48_Weymouth_solves",
    "C48_Weymouth_answers",
    "C48_Weymouth_arguments",
    "C48_Fritzsche_solves",
    "C48_Fritzsche_answers",
    "C48_Fritzsche_arguments",
    "C48_Muller_solves",
    "C48_Muller_answers",
    "C48_Muller_arguments",
    "C48_IGT_solves",
    "C48_IGT_answers",
    "C48_IGT_arguments",
    "C48_Spitzglass_high_diameter",
    "C48_Spitzglass_low_diameter",
    "C48_Oliphant_diameter",
    "C48_Spitzglass_high_arguments",
    "C48_Spitzglass_low_arguments",
    "C48_Oliphant_arguments",
    "C48_Spitzglass_high_solves",
    "C48_Spitzglass_low_solves",
    "C48_Oliphant_solves",
    "C48_Spitzglass_high_unique",
    "C48_Spitzglass_low_unique",
    "C48_Oliphant_unique",
    "C48_Spitzglass_high_vacuum",
    "C48_Spitzglass_low_vacuum_refuted",
    "C48_Oliphant_efficiency_refuted"
   ],
   "note": "Generated real models against the published power laws; equalities of products of powers by logarithms. The secant search for D is a parameter. Two deviations are proved: Spitzglass_low answers an impossible outlet request with a negative absolute pressure, and Oliphant ignores E and Zavg."
  },
  {
   "property": "C49",
   "status": "proved",
   "theorems": [
    "C49_FF_range",
    "C49_liquid_boundary",
    "C49_liquid_refusal",
    "C49_liquid_inverse",
    "C49_gas_boundary",
    "C49_gas_inverse",
    "C49_arguments",
    "C49_choked_monotone",
    "C49_fittings_factor"
   ],
   "note": "Generated real model; field."
  },
  {
   "property": "C50",
   "status": "proved",
   "theorems": [
    "C50_convert",
    "C50_groupoid",
    "C50_unknown",
    "C50_K_inverse",
    "C50_Cv_via_Kv",
    "C50_Kv_K_decreasing"
   ],
   "note": "Generated real model; field."
  },
  {
   "property": "C51",
   "status": "proved",
   "theorems": [
    "C51_same_pressure_drop",
    "C51_groupoid",
    "C51_zero_diameter"
   ],
   "note": "Generated real model; field."
  },
  {
   "property": "C52",
   "status": "proved",
   "theorems": [
    "C52_Hooper",
    "C52_Hooper_monotone",
    "C52_Hooper_errors",
    "C52_Darby",
    "C52_Darby_monotone",
    "C52_Darby_errors",
    "C52_Darby_diameter",
    "C52_Darby_tabulated",
    "C52_Darby_small_bore_refuted"
   ],
   "note": "Real model with the tables transcribed; interpolation lemmas. Deviation proved: below about 4.5 mm the extrapolated nominal size is negative and Darby3K returns a complex number."
  },
  {
   "property": "C53",
   "status": "proved",
   "theorems": [
    "C53_sphere_volume",
    "C53_sphere_area",
    "C53_circle",
    "C53_vertical_conical",
    "C53_vertical_ellipsoidal",
    "C53_vertical_spherical",
    "C53_vertical_conical_concave",
    "C53_vertical_ellipsoidal_concave",
    "C53_vertical_spherical_concave",
    "C53_vertical_torispherical",
    "C53_torispherical_height",
    "C53_torispherical_smooth",
    "C53_vertical_monotone",
    "C53_vertical_full",
    "C53_empty",
    "C53_cylinder_wall",
    "C53_vertical_torispherical_concave",
    "C53_concave_torispherical_empty",
    "C53_torispherical_complement"
   ],
   "note": "Generated real model; Coquelicot integrals, fundamental theorem of calculus with explicit antiderivatives."
  },
  {
   "property": "C54",
   "status": "proved",
   "theorems": [
    "C54_any_two",
    "C54_consistent",
    "C54_needs_two",
    "C54_negative_refuted"
   ],
   "note": "Generated real model; trigonometry. Deviation proved: with a negative parallel pitch and the normal pitch the returned angle does not fit the returned pitches."
  },
  {
   "property": "C55",
   "status": "proved",
   "theorems": [
    "C55_coefficient_round_trip",
    "C55_loss_round_trip",
    "C55_loss_decreasing",
    "C55_permanent_loss_bounds",
    "C55_discharge",
    "C55_backflow",
    "C55_no_restriction",
    "C55_loss_is_K_velocity_heads",
    "C55_square_root_law",
    "C55_discharge_monotone",
    "C55_flow_coefficient"
   ],
   "note": "Generated real model of the six functions; square-root algebra."
  },
  {
   "property": "C56",
   "status": "proved",
   "theorems": [
    "C56_beta",
    "C56_discharge",
    "C56_unknown",
    "C56_aliases",
    "C56_override",
    "C56_unspecified",
    "C56_plate_loss",
    "C56_venturi_loss",
    "C56_cone_wedge_loss",
    "C56_cone_loss_refuted",
    "C56_all_meters_have_loss_refuted",
    "C56_loss_kinds"
   ],
   "note": "Generated real model of the dispatchers; the wedge area is related to the integral of the chord of the pipe. Deviations proved: a cone filling the pipe is reported to lose more than the measured difference; two advertised meters have no permanent loss."
  },
  {
   "property": "C57",
   "status": "proved",
   "theorems": [
    "C57_conversions_are_inverse",
    "C57_same_velocity",
    "C57_Manning_monotone",
    "C57_tables_ordered",
    "C57_full_weirs",
    "C57_full_Kindsvater_Carter",
    "C57_contracted_Kindsvater_Carter",
    "C57_V_notch",
    "C57_SIA_no_head_refuted",
    "C57_full_SIA_power_law_refuted"
   ],
   "note": "Generated real model; Rpower algebra and monotonicity, table check by computation. Deviations proved: Q_weir_rectangular_SIA discharges at zero head (head plus crest height is raised to 3/2); Q_weir_rectangular_full_SIA is not a 3/2-power law (term linear in the head)."
  },
  {
   "property": "C58",
   "status": "proved",
   "theorems": [
    "C58_listed_methods_work",
    "C58_unlisted_refused",
    "C58_default",
    "C58_Barati_creeping_flow_refuted",
    "C58_terminal_balance",
    "C58_terminal_creeping",
    "C58_terminal_exact",
    "C58_rising_sphere_refuted"
   ],
   "note": "Generated real model of the 21 correlations, hand-written table, v_terminal with the secant solver as a parameter under an explicit contract (only points with residual at most eps are returned); sign analysis, verified interval arithmetic for Barati_high and the size of the step. Deviations proved: Barati alone saturates for vanishing Re; a rising sphere always gets the creeping-flow velocity however large its Reynolds number."
  },
  {
   "property": "C59",
   "status": "proved",
   "theorems": [
    "C59_equation_of_motion",
    "C59_steps_compose",
    "C59_approach",
    "C59_time_to_terminal",
    "C59_time_not_sinking",
    "C59_time_at_terminal_refuted",
    "C59_long_times",
    "C59_long_times_rising_refuted",
    "C59_newton",
    "C59_terminal_is_steady",
    "C59_upward_drag_refuted"
   ],
   "note": "Hand-written model; exp refuses arguments above a limit (OverflowError branch modelled), odeint is a parameter; Coquelicot is_derive. Deviations proved: rising and neutral spheres raise ValueError in time_v_terminal_Stokes and, for long times, in integrate_drag_sphere; a start at the terminal velocity raises ValueError; upward motion is always given Stokes' drag."
  },
  {
   "property": "C60",
   "status": "proved",
   "theorems": [
    "C60_defined",
    "C60_centre",
    "C60_temperature",
    "C60_temperature_continuous",
    "C60_offset",
    "C60_hydrostatic",
    "C60_pressure_falls",
    "C60_ideal_gas",
    "C60_transport",
    "C60_pressure_integral",
    "C60_warm_air",
    "C60_airmass_zenith",
    "C60_airmass_angle"
   ],
   "note": "Hand-written model of the class; derivative of the layer formulas, interval arithmetic for the jumps of the tabulated base pressures (below 1e-13), induction over the layers for continuity, monotonicity and integrals."
  },
  {
   "property": "C61",
   "status": "proved",
   "theorems": [
    "C61_py_factorial",
    "C61_py_comb",
    "C61_py_hypot"
   ],
   "note": "Z model with the loop; Pascal's rule specification; real model of hypot."
  },
  {
   "property": "C62",
   "status": "proved",
   "theorems": [
    "C62_subset_matrix",
    "C62_subset_matrix_all"
   ],
   "note": "List model; induction over index list."
  },
  {
   "property": "C63",
   "status": "proved",
   "theorems": [
    "C63_kronrod_polynomials",
    "C63_quad_affine"
   ],
   "note": "Moments of the table checked in integer arithmetic over a common denominator, lifted to R by linearity."
  },
  {
   "property": "C64",
   "status": "proved",
   "theorems": [
    "C64_bracket",
    "C64_unbound_refuted",
    "C64_bracket_never_worse_refuted",
    "C64_bracket_found_if_sampled_refuted"
   ],
   "note": "Model of both branches; case analysis with minimum/maximum lemmas."
  },
  {
   "property": "C65",
   "status": "proved",
   "theorems": [
    "C65_fit_integral",
    "C65_fit_integral_over_T",
    "C65_evaluate_linear_fits"
   ],
   "note": "Coquelicot integrals piece by piece (Chasles)."
  },
  {
   "property": "C66",
   "status": "proved",
   "theorems": [
    "C66_max_errors",
    "C66_mean_errors",
    "C66_squared_rel_zero_refuted",
    "C66_min_max_ratios"
   ],
   "note": "Fold invariants."
  },
  {
   "property": "C67",
   "status": "proved",
   "theorems": [
    "C67_isclose",
    "C67_isclose_symmetric",
    "C67_is_monotonic",
    "C67_is_increasing"
   ],
   "note": "Induction on lists; case analysis."
  },
  {
   "property": "C68",
   "status": "proved",
   "theorems": [
    "C68_halley_bounds",
    "C68_halley_value",
    "C68_halley_flat_refuted",
    "C68_halley_bound_refuted",
    "C68_halley_denominator_refuted"
   ],
   "note": "Loop model with all options; invariant by induction; computed counterexamples."
  },
  {
   "property": "C69",
   "status": "proved",
   "theorems": [
    "C69_homotopy_result",
    "C69_homotopy_terminates",
    "C69_homotopy_gives_up",
    "C69_homotopy_predictor",
    "C69_homotopy_newton",
    "C69_newton_system_result",
    "C69_newton_system_errors",
    "C69_newton_system_affine",
    "C69_raising_function_refuted",
    "C69_raising_function_unbound_refuted",
    "C69_armijo_refuted",
    "C69_newton_minimize_result",
    "C69_homotopy_ends",
    "C69_homotopy_value",
    "C69_armijo",
    "C69_minimize_step",
    "C69_minimize_early_refuted"
   ],
   "note": "Loop models incl. line search; invariants by induction; computed counterexamples."
  },
  {
   "property": "C70",
   "status": "proved",
   "theorems": [
    "C70_broyden2_result",
    "C70_broyden_secant_scalar",
    "C70_broyden_secant_refuted",
    "C70_broyden2_unconverged_refuted",
    "C70_broyden_first_step"
   ],
   "note": "Loop model; induction on maxiter."
  },
  {
   "property": "C71",
   "status": "proved",
   "theorems": [
    "C71_aitken_result",
    "C71_gdem_result",
    "C71_dem_geometric",
    "C71_dem_alternating_refuted",
    "C71_aitken_geometric_refuted",
    "C71_frequency_refuted"
   ],
   "note": "Loop model parametric in the accelerator; algebra on geometric sequences."
  },
  {
   "property": "C72",
   "status": "proved",
   "theorems": [
    "C72_splev_is_bspline_combination",
    "C72_splev_within_coefficients",
    "C72_splev_outside",
    "C72_splev_constant_everywhere",
    "C72_splev_degree_one",
    "C72_bisplev_within_coefficients",
    "C72_linear_surface_is_bilinear",
    "C72_linear_surface_through_nodes"
   ],
   "note": "Model of the fpbspl array recurrence; weights non-negative with sum one by induction on the degree; equality with the Cox-de Boor recursion."
  },
  {
   "property": "C73",
   "status": "proved",
   "theorems": [
    "C73_lambert_exists",
    "C73_unique_solution",
    "C73_closed_form"
   ],
   "note": "Existence by the intermediate value theorem, uniqueness by monotonicity of the residual; the closed form is analysed with the decimal constants of the code and an abstract Lambert function; residual_stable turns residuals into errors."
  },
  {
   "property": "C74",
   "status": "proved",
   "theorems": [
    "C74_default_accuracy",
    "C74_relative_error",
    "C74_default_vs_Colebrook"
   ],
   "note": "Error analysis of the two fourth-order iterations (quart), starting error bounded uniformly."
  },
  {
   "property": "C75",
   "status": "proved",
   "theorems": [
    "C75_explicit_methods",
    "C75_exact_solution",
    "C75_default_up_to_error",
    "C75_Tsal_refuted"
   ],
   "note": "Monotonicity of each translated correlation; refutation with interval arithmetic."
  },
  {
   "property": "C76",
   "status": "proved",
   "theorems": [
    "C76_Reynolds_forms",
    "C76_diffusivity_forms",
    "C76_Prandtl_forms",
    "C76_transport_relations",
    "C76_Rayleigh",
    "C76_capillary_relations",
    "C76_heat_relations",
    "C76_Froude_squared",
    "C76_Confinement_Bond",
    "C76_missing_arguments",
    "C76_rho_mu_take_precedence"
   ],
   "note": "Model generated from the source over R; field and square root algebra."
  },
  {
   "property": "C77",
   "status": "proved",
   "theorems": [
    "C77_liquid_sized",
    "C77_liquid_monotone",
    "C77_diameters",
    "C77_liquid_fitted",
    "C77_impossible_flow_refuted",
    "C77_laminar",
    "C77_reported_FR_refuted",
    "C77_gas_sized",
    "C77_gas_fitted",
    "C77_gas_impossible_refuted",
    "C77_gas_choked_flag_refuted"
   ],
   "note": "Hand-written model of the two functions over generated coefficients; invariant of the iteration; a growth argument for termination. Deviations proved: a flow the reducers cannot pass raises NameError (liquid) or is answered with a too small Kv (gas); the reported FR and choked flag are not those of the returned Kv."
  },
  {
   "property": "C78",
   "status": "proved",
   "theorems": [
    "C78_Borda_Carnot",
    "C78_diffuser_sharp",
    "C78_contraction_sharp",
    "C78_contraction_round_zero",
    "C78_contraction_beveled_zero",
    "C78_contraction_round",
    "C78_contraction_angle_length",
    "C78_diffuser_angle_length",
    "C78_contraction_Crane_sharp",
    "C78_diffuser_Crane_length_refuted",
    "C78_bend_radius",
    "C78_bend_Crane_radius_refuted",
    "C78_bend_Crane_diameters",
    "C78_bend_miter",
    "C78_bend_miter_tables",
    "C78_unknown_method",
    "C78_Miller_clamped"
   ],
   "note": "Generated real model; polynomial inequalities, trigonometry, interpolation lemmas. Deviations proved: diffuser_conical_Crane with a length returns a negative loss for every proper expansion; bend_rounded with method Crane and a bend radius raises ValueError unless the radius is five diameters."
  },
  {
   "property": "C79",
   "status": "proved",
   "theorems": [
    "C79_fittings",
    "C79_line_size",
    "C79_reduced",
    "C79_friction_default",
    "C79_gate_zero_angle_refuted",
    "C79_lift_velocity",
    "C79_lift_velocity_refuted"
   ],
   "note": "Generated real model against a separately written table. Deviations proved: the gate valve jumps at zero reducer angle by a finite amount; v_lift_valve_Crane fails with UnboundLocalError when a needed diameter is left out."
  },
  {
   "property": "C80",
   "status": "proved",
   "theorems": [
    "C80_ellipsoidal",
    "C80_guppy",
    "C80_conical",
    "C80_spherical",
    "C80_whole",
    "C80_deep_spherical_refuted"
   ],
   "note": "Hand-written real model following the source line by line; Coquelicot integrals with explicit antiderivatives. Deviation proved: a spherical head deeper than the radius is given less volume than a hemisphere when horizontal."
  },
  {
   "property": "C81",
   "status": "proved",
   "theorems": [
    "C81_horizontal",
    "C81_below",
    "C81_horizontal_monotone",
    "C81_vertical",
    "C81_vertical_monotone",
    "C81_full",
    "C81_orientation",
    "C81_guppy_refuted",
    "C81_unknown",
    "C81_missing_factors",
    "C81_area",
    "C81_area_unknown_refuted"
   ],
   "note": "Hand-written real model following the source line by line; composition of the integrals of C53 and C80. Deviations proved: guppy heads of a vertical vessel hold nothing; SA_tank takes an unknown head name for a flat end."
  },
  {
   "property": "C82",
   "status": "proved",
   "theorems": [
    "C82_orifice",
    "C82_orifice_monotone",
    "C82_orifice_1989",
    "C82_cone",
    "C82_nozzle",
    "C82_nozzle_k1",
    "C82_nozzle_k1_limit",
    "C82_nozzle_k1_beta_refuted",
    "C82_nozzle_k1_no_drop_refuted",
    "C82_all_meters"
   ],
   "note": "Concavity of the power function; difference quotient limit with Coquelicot. Deviations proved: with k = 1 nozzle_expansibility ignores the diameter ratio it is given (wedge meters) and raises ZeroDivisionError without pressure drop."
  },
  {
   "property": "C83",
   "status": "proved",
   "theorems": [
    "C83_solves",
    "C83_flow_value",
    "C83_one_unknown",
    "C83_missing_k_refuted"
   ],
   "note": "Hand-written model of the solver over the generated correlations, with secant and brenth as parameters whose contract (an answer is a root) is a hypothesis. Deviation proved: without k and epsilon the error is a TypeError."
  },
  {
   "property": "C84",
   "status": "proved",
   "theorems": [
    "C84_published",
    "C84_positive",
    "C84_velocity",
    "C84_voidage",
    "C84_length",
    "C84_units",
    "C84_dispatch",
    "C84_unknown",
    "C84_guo_negative_refuted",
    "C84_offered",
    "C84_voidage_spheres",
    "C84_voidage_cylinders",
    "C84_voidage_general"
   ],
   "note": "Generated real model against a separately written table of dimensionless functions. Voidage monotonicity is not proved for Fahien & Schriver. Deviation proved: Guo & Sun gives a negative drop for fine particles in a wide bed."
  },
  {
   "property": "C85",
   "status": "proved",
   "theorems": [
    "C85_slip",
    "C85_fraction",
    "C85_rising",
    "C85_default",
    "C85_pure",
    "C85_pure_liquid_raises",
    "C85_density",
    "C85_graham",
    "C85_kopte",
    "C85_nonneg",
    "C85_domanski_negative_refuted",
    "C85_tandon_above_one_refuted",
    "C85_harms_above_one_refuted",
    "C85_offered",
    "C85_unknown"
   ],
   "note": "Generated real model; slip form 1/(1+s), drift flux lemma, real inequalities. Deviations proved: Domanski Didion goes negative at low quality; Tandon Varma Gupta and Harms (never negative) exceed 1; the slip-ratio methods raise ZeroDivisionError for pure liquid."
  },
  {
   "property": "C86",
   "status": "proved",
   "theorems": [
    "C86_pure",
    "C86_between",
    "C86_positive",
    "C86_beattie_above_liquid_refuted",
    "C86_fourar_above_liquid_refuted",
    "C86_dispatch"
   ],
   "note": "Generated real model; real inequalities. Deviation proved: Beattie Whalley and Fourar Bories exceed the viscosity of the liquid."
  },
  {
   "property": "C87",
   "status": "proved",
   "theorems": [
    "C87_conversion",
    "C87_mean",
    "C87_mean_bounds",
    "C87_mean_symmetric",
    "C87_mean_rises",
    "C87_units",
    "C87_surface",
    "C87_classes",
    "C87_sums",
    "C87_cumulative",
    "C87_cumulative_points_refuted",
    "C87_class_minus_one_raises"
   ],
   "note": "Hand-written model; sums by induction, ordering of the means from strict convexity (integral of e^(su)). Deviations proved: a cumulative curve with amounts at given sizes loses its first value; with size classes, means of index -1 raise ZeroDivisionError."
  },
  {
   "property": "C88",
   "status": "proved",
   "theorems": [
    "C88_cumulative",
    "C88_GGS_density",
    "C88_RR_density",
    "C88_lognormal_density",
    "C88_objects",
    "C88_quantile",
    "C88_discrete",
    "C88_discrete_nonneg",
    "C88_mean_bounds",
    "C88_GGS_other_basis",
    "C88_GGS_upper_limit_raises",
    "C88_GGS_lower_basis_raises",
    "C88_GGS_above_one_refuted",
    "C88_truncated_basis_negative_refuted",
    "C88_renard"
   ],
   "note": "Hand-written model; derivatives with Coquelicot. erf and the incomplete gamma function are parameters constrained by their derivatives (contracts shown satisfiable by constructing both from integrals, including the Gaussian integral bound). Deviations proved: PSDGatesGaudinSchuhman with an upper limit raises AttributeError, without a lower limit raises ZeroDivisionError for every lower basis; its curve in another basis exceeds 1 above the top size and, with a lower limit, starts below 0."
  },
  {
   "property": "C89",
   "status": "proved",
   "theorems": [
    "C89_comparisons",
    "C89_add_exact",
    "C89_mul_exact",
    "C89_add_error",
    "C89_add_same_sign",
    "C89_mul_error",
    "C89_div_error",
    "C89_div_by_zero",
    "C89_mul_normalised",
    "C89_intpow_error",
    "C89_intpow_zero",
    "C89_sqrt_imag_refuted",
    "C89_mul_imag_error",
    "C89_add_imag_error"
   ],
   "note": "Hand-written model over Flocq's rounding operator (round to nearest even, precision 53, gradual underflow, no overflow); error-free transformations TwoSum, Fast2Sum and Dekker's product from Flocq. Deviation proved: sqrt_imag_dd of a number with negative imaginary part is the root of its mirror image. Not covered: square roots, cube roots, exponential, logarithm."
  },
  {
   "property": "C90",
   "status": "proved",
   "theorems": [
    "C90_derivative_error",
    "C90_derivative_quadratic",
    "C90_derivative_errors",
    "C90_limits_respected",
    "C90_limits_inactive",
    "C90_limit_shift_refuted",
    "C90_jacobian_quotients",
    "C90_jacobian_affine",
    "C90_jacobian_error",
    "C90_hessian_quotients",
    "C90_hessian_quadratic"
   ],
   "note": "Hand-written real model with the table of weights as exact rationals; moments of the weights checked by computation in Q, then Taylor's theorem (Coquelicot) on both sides of the point. Deviation proved: with a limit nearer than half the span the returned value is the derivative at a shifted point (x^2 at 1 with upper limit 1, step 0.1 gives 1.8)."
  },
  {
   "property": "C91",
   "status": "proved",
   "theorems": [
    "C91_gas_choked",
    "C91_gas_subsonic",
    "C91_gas_jump_refuted",
    "C91_gas_k1_refuted",
    "C91_C_increasing",
    "C91_C_limit",
    "C91_gas_proportional",
    "C91_gas_choked_pressure",
    "C91_gas_subsonic_pressure",
    "C91_steam",
    "C91_steam_superheat",
    "C91_steam_too_hot",
    "C91_Kv_10E",
    "C91_Kv_7E",
    "C91_Kv_unknown",
    "C91_liquid",
    "C91_liquid_Kw",
    "C91_liquid_viscous",
    "C91_liquid_default_refuted",
    "C91_noise_graph",
    "C91_noise_graph_low",
    "C91_noise_scaling",
    "C91_noise_30m",
    "C91_noise_VDI"
   ],
   "note": "Hand-written real model on top of the modelled table lookups; nozzle equations as separate specification, interval arithmetic for the constants, derivatives with Coquelicot. Deviations proved: the area jumps at the critical pressure, a heat capacity ratio of exactly 1 raises ZeroDivisionError although the choked coefficient covers it, API520_A_l with its default Kv and mu raises TypeError."
  },
  {
   "property": "C92",
   "status": "proved",
   "theorems": [
    "C92_positive",
    "C92_Friedel_above",
    "C92_separated",
    "C92_separated_bound",
    "C92_Lockhart",
    "C92_Kim_Mudawar",
    "C92_interpolations",
    "C92_Theissing",
    "C92_all_liquid",
    "C92_all_gas",
    "C92_Tran_gas_refuted",
    "C92_Lockhart_liquid_refuted",
    "C92_negative_refuted",
    "C92_named",
    "C92_unknown",
    "C92_default",
    "C92_default_refused",
    "C92_inclination_refuted",
    "C92_acceleration_adds",
    "C92_acceleration_homogeneous",
    "C92_acceleration_dry_refuted",
    "C92_gravity",
    "C92_gravity_angles",
    "C92_Mandhane",
    "C92_Mandhane_order_refuted",
    "C92_Taitel_Dukler",
    "C92_Taitel_Dukler_parameters",
    "C92_Beggs_Brill_positive",
    "C92_Beggs_Brill_holdup_refuted"
   ],
   "note": "Generated real model over the modelled friction factor; each correlation evaluated once in terms of the single-phase gradients, then real inequalities. Theissing and Beggs-Brill are covered for answers that exist. Gronnerud is modelled without a theorem. Deviations proved: Chisholm and Muller-Steinhagen-Heck go negative for slow laminar flow of a very thin gas; Tran gives 4.3 times the gas drop at quality 1; Lockhart-Martinelli refuses pure liquid (ZeroDivisionError) as does the acceleration drop at full dryness; Beggs-Brill is offered when the inclination is left out but then refused with TypeError; Mandhane returns its superficial velocities in the opposite order from its documentation; the Beggs-Brill hold-up exceeds 1 in slow flow."
  },
  {
   "property": "C93",
   "status": "proved",
   "theorems": [
    "C93_quartic",
    "C93_complete",
    "C93_quadratic",
    "C93_linear",
    "C93_cubic_a2",
    "C93_cubic_a1",
    "C93_cubic",
    "C93_cubic_lower",
    "C93_cubic_a1_refuted",
    "C93_cubic_a2_refuted",
    "C93_quartic_refuted"
   ],
   "note": "Hand-written model over Coquelicot's complex numbers with principal square and cube roots; constants such as 1/3 and sqrt(3) are their exact values; Cardano's and Ferrari's identities by field arithmetic, sign of the discriminant by real algebra. Deviations proved: roots_cubic_a1 and roots_cubic_a2 raise ZeroDivisionError for a(x + b/3a)^3 + q with q/a not negative (x^3 + 1); roots_quartic raises it for every ax^4 + e, dividing by a value it does not use."
  },
  {
   "property": "C94",
   "status": "proved",
   "theorems": [
    "C94_nozzle",
    "C94_recovers",
    "C94_no_flow",
    "C94_pressures",
    "C94_ratio",
    "C94_ratio_refuted",
    "C94_balance",
    "C94_pump",
    "C94_discharge",
    "C94_unknowns",
    "C94_ancillary_unknowns",
    "C94_pressures_refuted"
   ],
   "note": "Hand-written real model; numerical solves are a parameter that returns only roots. Deviations proved: with a retracted nozzle the code uses (1 - Ks) where its documentation gives (1 + Ks); a negative suction pressure is returned as its absolute value."
  },
  {
   "property": "C95",
   "status": "proved",
   "theorems": [
    "C95_Rizk",
    "C95_Matsumoto_1974",
    "C95_Matsumoto_1975",
    "C95_Matsumoto_1977",
    "C95_Schade",
    "C95_Weber",
    "C95_Geldart_Ling",
    "C95_Geldart_Ling_join",
    "C95_rises"
   ],
   "note": "Generated real model; logarithms linearise the power laws, interval arithmetic for the join."
  },
  {
   "property": "C96",
   "status": "proved",
   "theorems": [
    "C96_round_grill",
    "C96_round_grill_refuted",
    "C96_round_grill_friction",
    "C96_square_grill",
    "C96_square_grill_falls",
    "C96_square_screen",
    "C96_round_screen",
    "C96_round_screen_falls",
    "C96_round_screen_refuted",
    "C96_open_mesh",
    "C96_open_mesh_falls"
   ],
   "note": "Generated real model over the modelled interp and splev; spline pieces evaluated exactly, interval arithmetic. Deviations proved: round_edge_grill returns negative loss coefficients for open fractions from 0.8 on (the spline is extrapolated although a comment promises constant ends); tilting a round edge screen from 45 to 46 degrees raises its loss."
  },
  {
   "property": "C97",
   "status": "proved",
   "theorems": [
    "C97_Watkins",
    "C97_Watkins_chart",
    "C97_Watkins_fits",
    "C97_Watkins_dry",
    "C97_York",
    "C97_York_monotone",
    "C97_Souders_Brown",
    "C97_Souders_Brown_light"
   ],
   "note": "Generated real model; splev proved total, interval arithmetic for the piecewise limits."
  },
  {
   "property": "C98",
   "status": "proved",
   "theorems": [
    "C98_homogeneity",
    "C98_agitator",
    "C98_agitator_default",
    "C98_agitator_power",
    "C98_agitator_target",
    "C98_ribbon",
    "C98_ribbon_power",
    "C98_static_mixer",
    "C98_static_mixer_loss",
    "C98_tee",
    "C98_tee_jets",
    "C98_tee_default",
    "C98_tee_length",
    "C98_tee_strength",
    "C98_tee_strength_refuted"
   ],
   "note": "Generated real model; power laws through logarithms. Deviation proved: for one jet size_tee uses the exponent 1/33 in place of 1.33, so that a stronger jet leaves more than twice the variation after five diameters."
  },
  {
   "property": "C99",
   "status": "proved",
   "theorems": [
    "C99_dry",
    "C99_dry_rises",
    "C99_wet",
    "C99_wet_dry",
    "C99_Robbins",
    "C99_separation",
    "C99_wet_mesh",
    "C99_voidage",
    "C99_mesh_area",
    "C99_dry_mesh",
    "C99_dry_mesh_refuted",
    "C99_wet_mesh_published",
    "C99_separation_published",
    "C99_Robbins_published"
   ],
   "note": "Generated and hand-written real model; secant solve as a parameter that returns only roots. Deviation proved: dP_demister_dry_Setekleiv_Svendsen returns a negative pressure drop at specific area times thickness 15. Stichlmair_flood is not modelled."
  },
  {
   "property": "C100",
   "status": "proved",
   "theorems": [
    "C100_Croll_formula",
    "C100_Ryans_Croll",
    "C100_Ryans_Croll_none",
    "C100_Seider_formula",
    "C100_Seider",
    "C100_Seider_refuted",
    "C100_HEI_formula",
    "C100_HEI",
    "C100_Worthington"
   ],
   "note": "Generated real model; interval arithmetic at the branch limits. Deviation proved: for a 10 m3 vessel at a vacuum of 0.001 torr vacuum_air_leakage_Seider returns a negative leakage."
  },
  {
   "property": "C101",
   "status": "proved",
   "theorems": [
    "C101_Martin",
    "C101_Martin_flat",
    "C101_Martin_falls",
    "C101_Martin_agree",
    "C101_Kumar",
    "C101_Kumar_falls",
    "C101_Muley_Manglik"
   ],
   "note": "Generated and hand-written real model; power laws through logarithms, interval arithmetic at the joins."
  },
  {
   "property": "C102",
   "status": "proved",
   "theorems": [
    "C102_pump",
    "C102_motor",
    "C102_affinity",
    "C102_current",
    "C102_erosion"
   ],
   "note": "Generated real model; logarithm bounds by interval arithmetic."
  },
  {
   "property": "C103",
   "status": "proved",
   "theorems": [
    "C103_drilled",
    "C103_drilled_order",
    "C103_segment_slope",
    "C103_segment",
    "C103_segment_unique",
    "C103_segment_refuted"
   ],
   "note": "Hand-written real model; induction over the holes; the segment area as a Riemann integral. Deviation proved: an area above half of the circle has no answer, because the search stops at the radius."
  },
  {
   "property": "C104",
   "status": "proved",
   "theorems": [
    "C104_degree_days",
    "C104_record"
   ],
   "note": "Hand-written real model; induction over the record."
  },
  {
   "property": "C105",
   "status": "proved",
   "theorems": [
    "C105_coil",
    "C105_same",
    "C105_collide",
    "C105_collide_refuted",
    "C105_length",
    "C105_inside"
   ],
   "note": "Hand-written real model of the constructor; Riemann integral of the helix' speed. Deviation proved: given turns and pitch, colliding turns are accepted although the same coil is refused when its height is given."
  },
  {
   "property": "C106",
   "status": "proved",
   "theorems": [
    "C106_factor",
    "C106_factor_rises",
    "C106_plates"
   ],
   "note": "Hand-written real model; ellipe is idealised as the elliptic integral itself; substitution and symmetry of the integrand."
  },
  {
   "property": "C107",
   "status": "proved",
   "theorems": [
    "C107_fins",
    "C107_blockage_refuted",
    "C107_strips",
    "C107_stack"
   ],
   "note": "Hand-written real model; field arithmetic; round(x, 0) as rounding half to even. Deviation proved: RectangularFinExchanger.blockage_ratio, documented as the blocked part, is the open part (0.81 where 19 % are blocked)."
  },
  {
   "property": "C108",
   "status": "proved",
   "theorems": [
    "C108_from_inlet",
    "C108_from_base",
    "C108_refused"
   ],
   "note": "Hand-written real model of the constructor and diameter; the supports, which are only stored, are left out."
  },
  {
   "property": "C109",
   "status": "proved",
   "theorems": [
    "C109_sizes",
    "C109_areas",
    "C109_flow",
    "C109_pitch_ratio_refuted",
    "C109_refused"
   ],
   "note": "Hand-written real model of the constructor without the tube side volumes and layout names. Deviation proved: pitch_ratio, documented to take the place of pitch, is refused alone and silently replaces a given pitch."
  },
  {
   "property": "C110",
   "status": "proved",
   "theorems": [
    "C110_sizes",
    "C110_heads",
    "C110_same",
    "C110_totals",
    "C110_full",
    "C110_volume",
    "C110_refused",
    "C110_level",
    "C110_thicker",
    "C110_thickness_refuted"
   ],
   "note": "Hand-written model of the constructor, set_misc, _solve_tank_for_V, V_from_h, h_from_V (brenth), add_thickness; the solver is a parameter with the contract that it returns roots. Uses C81 for the volumes. Not modelled: from_two_specs, Chebyshev approximations; SA_from_h is C113, A_cross_sectional C118. Deviation proved: add_thickness lengthens the wall and deepens the heads, so a standing tank grows by twice the thickness asked for, and a flat bottom gets a depth in which no volume is counted."
  },
  {
   "property": "C111",
   "status": "proved",
   "theorems": [
    "C111_positive",
    "C111_negative",
    "C111_not_positive",
    "C111_not_negative",
    "C111_positive_refuted"
   ],
   "note": "Real model with the root finder as parameter; the last zero before a negative point (completeness of the reals) and the intermediate value theorem."
  },
  {
   "property": "C112",
   "status": "proved",
   "theorems": [
    "C112_result",
    "C112_refused",
    "C112_local",
    "C112_affine"
   ],
   "note": "Loop model with quadratic and secant steps and the line search; invariant by induction on the iterations, two runs in lockstep for locality."
  },
  {
   "property": "C113",
   "status": "proved",
   "theorems": [
    "C113_conical_head",
    "C113_spherical_head",
    "C113_torispherical_head",
    "C113_ellipsoidal_head",
    "C113_vertical_tank",
    "C113_full_tank",
    "C113_guppy_refuted",
    "C113_horizontal_tank",
    "C113_full_horizontal"
   ],
   "note": "Generated head functions of Model_Geometry.v, SA_from_h by hand (Model_TankArea.v; the horizontal ellipsoidal, guppy, spherical and torispherical heads, numerical integrals in the source, are parameters); derivative of each profile, explicit antiderivative of the area element, fundamental theorem of calculus."
  },
  {
   "property": "C114",
   "status": "proved",
   "theorems": [
    "C114_month_average",
    "C114_incomplete",
    "C114_range",
    "C114_coldest",
    "C114_warmest"
   ],
   "note": "Hand-written model of the counting loops over parsed data; invariant of sums and counts by induction over days, months and years. Downloading and parsing are not modelled."
  },
  {
   "property": "C115",
   "status": "proved",
   "theorems": [
    "C115_nearest",
    "C115_found",
    "C115_match_max",
    "C115_globe_refuted"
   ],
   "note": "Recursion model with the k-d tree query as a parameter with the contract of scipy's; induction on the recursion."
  },
  {
   "property": "C116",
   "status": "proved",
   "theorems": [
    "C116_number",
    "C116_list",
    "C116_table_accepts",
    "C116_table_exact",
    "C116_table_refuted",
    "C116_negative_refuted"
   ],
   "note": "Hand-written model of the loops with their early return; numpy's assert_allclose by its documented test; induction over the lists."
  },
  {
   "property": "C117",
   "status": "proved",
   "theorems": [
    "C117_cacos",
    "C117_catanh",
    "C117_catan"
   ],
   "note": "Real model on pairs without signed zeros; csqrt and clog as parameters that are a principal root and a logarithm; the polar form of (1+z)(1-conj z) and the half angle formulas."
  },
  {
   "property": "C118",
   "status": "proved",
   "theorems": [
    "C118_mean_section",
    "C118_wall",
    "C118_lying_section",
    "C118_flat_ends_refuted"
   ],
   "note": "Model_TankSection.v on top of the models of TANK, V_from_h and derivative; C81 for the volumes, additivity of the integral. Horizontal torispherical heads are not covered; for the other horizontal heads the quadrature is assumed exact."
  }
 ]
}
