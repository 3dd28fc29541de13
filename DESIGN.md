# Formal model of `fluids` in Rocq: design

## What is modelled, and how

* **Language.** Rocq (Coq 8.16.1). Every model file is `rocq/theories/Model_*.v`; proofs are in `Proofs_*.v`;
  the theorems that count are in `Properties_*.v`, each followed by `Print Assumptions`, with the
  small specification vocabulary in `Spec_*.v` (or in the properties file itself) so that the statement can be read without the model.
* **Functions.** Each Python function is a total Gallina function of the same shape, one branch per `if`,
  one structural recursion per loop. A `for i in range(n)` loop is recursion on a `nat`; a loop over a list
  is recursion over that list. Nothing is bounded: lists, matrices and iteration counts are arbitrary.
* **Exceptions.** `result A := Ok a | Err e` with one constructor per Python exception class
  (`ValueError`, `ZeroDivisionError`, `TypeError`, `IndexError`, `KeyError`, `NameError`, `UnboundLocalError`,
  `AttributeError`, `OverflowError`, `NotImplementedError`, and the library's own solver exceptions).
  `x / y` on a divisor equal to zero is `Err ZeroDivisionError`; `sqrt`, `log`, `acos`, … outside the
  domain are `Err ValueError`; a list index out of range is `Err IndexError`. Nothing relies on Rocq's totalised division.
* **`None` arguments** are `option`.
* **Callables** (objective functions handed to solvers, damping functions, …) are universally quantified
  functions, possibly returning `Err`; a function handed to a solver may also be a stateful history where the property is about call order.
* **Numbers.** Two kinds of model:
  1. *generic*: over the record `Num A` (zero, one, `+ - * /`, comparison tests, literals). Theorems which need no algebra
     are proved for **every** instance, hence also for IEEE binary64 with NaN, infinities and rounding;
     the algebraic ones are proved for the instance `NumR` (Coq's real numbers); the instance `NumQ` is used to run the models (`vm_compute` examples).
  2. *real*: transcendental formula code, directly on `R`, with the domain errors above.
* **Floating point.** Theorems on `R` say what the algorithm computes in exact arithmetic. Rounding, overflow and NaN
  are *not* modelled in those (except where a property says so). This is the main gap to the running code.

## Trusted base

* The Coq 8.16.1 kernel (and its `vm_compute`), no plugin, no axiom of our own, no kernel check switched off.
* What `Print Assumptions` reports for the theorems: theorems over an arbitrary `Num`, over `Q`, `Z`, `nat`, lists and strings are
  "Closed under the global context"; theorems on `R` use the standard library's axioms for the real numbers:
  `ClassicalDedekindReals.sig_forall_dec`, `ClassicalDedekindReals.sig_not_dec`, `FunctionalExtensionality.functional_extensionality_dep`,
  and (where Coquelicot or classical real analysis is used) `Classical_Prop.classic`, plus, where Coquelicot's limits are used, standard-library choice axioms as printed.
* That the Gallina text transcribes the Python text cited in the comment above each definition. The seeded-bug log
  (`seeded/LOG.jsonl`) records the experiments showing that theorems fail when the model is changed as a bug would.
* Not modelled: numpy/numba/scipy variants (`fluids.numba`, `fluids.vectorized`), unit handling (`fluids.units`),
  NRLMSISE-00, SPA, design climate (network and file access), plotting.

## Per-property plan

Status `proved` means the theorem named is checked by the build; theorem names ending in `_refuted` prove the negation of a claim the code breaks, `_partial` a weaker statement.

* **C01 Polynomial evaluation returns the polynomial's value** (proved: `C01_horner`, `C01_horner_stable`, `C01_horner_domain`). Folds over the list on Num; specification is an explicit power sum; induction on the list.
* **C02 Derivative-returning Horner variants return the true derivatives** (proved: `C02_horner_and_der`, `C02_horner_and_der2`, `C02_horner_and_der3`, `C02_horner_and_der4`, `C02_horner_stable_and_der`, `C02_horner_stable_and_der2`, `C02_horner_stable_and_der3`, `C02_horner_stable_and_der4`). Loop state invariant relating der_k to the k-th Taylor coefficient; derivatives are Coquelicot is_derive / is_derive_n.
* **C03 Log-tau and exponential polynomial variants return true derivatives and vanish at the critical point** (proved: `C03_horner_backwards_ln_tau`, `C03_horner_stable_ln_tau`, `C03_ln_tau_at_or_above_critical`, `C03_exp_horner_backwards`, `C03_exp_horner_stable`, `C03_exp_ln_tau`, `C03_exp_horner_stable_value_agreement_refuted`, `C03_exp_poly_ln_tau_coeffs2`, `C03_exp_poly_ln_tau_coeffs3`). Real models with exp/ln; chain rule with Coquelicot is_derive on top of C02.
* **C04 Polynomial integration and differentiation are mutually inverse calculus operations** (proved: `C04_polyint`, `C04_polyint_stable`, `C04_polyint_over_x`, `C04_polyder`, `C04_polyint_over_x_stable`, `C04_polyint_over_x_stable_degenerate`). List models by index; specification via is_derive of the evaluated polynomial; induction.
* **C05 Polynomial sum and product are sum and product of the polynomial functions** (proved: `C05_poly_add`, `C05_poly_mul`, `C05_stable_poly_to_unstable`, `C05_stable_poly_to_unstable_degenerate`, `C05_poly_convert`). Loops modelled with in-place updates on lists; convolution lemma; induction on coefficient list.
* **C06 Interpolating quadratics interpolate** (proved: `C06_quadratic_from_points`, `C06_quadratic_from_f_ders`, `C06_deflate_cubic`). Field identities over R including the error branch.
* **C07 Matrix transpose is an involution and rejects ragged input** (proved: `C07_transpose_entries`, `C07_transpose_involutive`, `C07_transpose_ragged`, `C07_transpose_empty`, `C07_ragged_first_row_empty_refuted`). Polymorphic list model; induction on rows.
* **C08 Matrix products agree with the mathematical definition and are associative** (proved: `C08_matrix_multiply`, `C08_matrix_multiply_rejects`, `C08_matrix_multiply_assoc`, `C08_eye`, `C08_eye_rejects`, `C08_eye_neutral`, `C08_matrix_vector_dot`, `C08_matrix_vector_dot_rejects`, `C08_multiply_compatible_with_vector`, `C08_dot_product`, `C08_sum_matrix_rows`, `C08_sum_matrix_cols`, `C08_scalar_add_matrices`, `C08_scalar_subtract_matrices`, `C08_scalar_add_rejects`, `C08_scalar_multiply_matrix`, `C08_scalar_divide_matrix`). Loop-nest list model; sums over indices; induction.
* **C09 Explicit determinants equal the permutation expansion; 1x1 determinant** (proved: `C09_det`, `C09_det_zero_iff_singular`, `C09_det_multiplicative`, `C09_det_identity`, `C09_det_1x1_refuted`). Explicit formula vs recursive cofactor specification, by ring.
* **C10 inv returns a two-sided inverse** (proved: `C10_inv`, `C10_inv_singular`, `C10_inv_involutive`). Closed forms by field; LU path via C12.
* **C11 solve and the direct small solvers return a solution of the linear system** (proved: `C11_solve`, `C11_solve_singular`, `C11_solve_2_direct`, `C11_solve_3_direct`, `C11_solve_4_direct`, `C11_solve_3_direct_complete_refuted`). field over R, error branch kept.
* **C12 LU factorisation with pivoting solves every nonsingular system** (proved: `C12_lu`, `C12_lu_singular`, `C12_solve_LU_decomposition`, `C12_inv_lu`, `C12_solve_LU_fails_only_if_singular`). Gallina model of the Crout loop; invariant by induction on the column.
* **C13 Tridiagonal solver solves the tridiagonal system** (proved: `C13_solve_tridiagonal`, `C13_solve_tridiagonal_dominant`, `C13_bands_roundtrip`, `C13_array_roundtrip`). Two-pass Thomas model; invariant by induction over rows.
* **C14 argsort1d and sort_paired_lists sort stably without losing data** (proved: `C14_argsort1d_permutation`, `C14_argsort1d_sorted_stable`, `C14_sort_paired_lists`, `C14_sort_paired_lists_mismatch`). Stable insertion-sort specification of Python's sorted; permutation and order proofs.
* **C15 binary_search brackets the key** (proved: `C15_binary_search`, `C15_binary_search_terminates`, `C15_binary_search_cases`). Loop by well-founded recursion on the interval width; invariant.
* **C16 interp is bounded by the data, exact at the nodes and clamps outside** (proved: `C16_interp_inside`, `C16_interp_outside`, `C16_interp_extrapolate`, `C16_interp_bounded`, `C16_interp_monotone`, `C16_interp2d_linear`). Model over R on top of the C15 search; convexity lemma.
* **C17 linspace, cumsum, diff and cumulative_trapezoid agree with their definitions** (proved: `C17_linspace`, `C17_linspace_no_endpoint`, `C17_linspace_degenerate`, `C17_cumulative_trapezoid`, `C17_cumulative_trapezoid_dx`, `C17_cumulative_trapezoid_affine`, `C17_cumsum`, `C17_diff_cumsum`, `C17_diff`, `C17_product`). List models, induction.
* **C18 bisect returns a point in the bracket with a sign change within tolerance, or raises** (proved: `C18_bisect_result`, `C18_bisect_root_nearby`, `C18_bisect_inside`, `C18_bisect_errors`, `C18_bisect_converges`). Structural recursion on maxiter; invariant on bracket and sign; f-extensionality statement.
* **C19 brenth and ridder keep the bracket and converge** (proved: `C19_brenth_result`, `C19_brenth_inside`, `C19_brenth_errors`, `C19_brenth_converges`, `C19_brenth_root_nearby`, `C19_brenth_ytol_inside_refuted`, `C19_ridder_result`, `C19_ridder_inside`, `C19_ridder_errors`, `C19_ridder_wide_tolerance_refuted`). Loop models; invariant of Brent's bracket; potential argument for the iteration bound; f-extensionality.
* **C20 secant and newton respect their bounds and solve what they should** (proved: `C20_secant_bounds`, `C20_secant_bracketed`, `C20_secant_value`, `C20_secant_affine`, `C20_secant_affine_bisection`, `C20_secant_decreasing_refuted`, `C20_secant_maxiter_refuted`, `C20_secant_guesses_bounds_refuted`, `C20_newton_bounds`, `C20_newton_value`, `C20_newton_errors`, `C20_newton_convex`, `C20_newton_affine`, `C20_newton_guesses_bisection_refuted`, `C20_newton_fprime2_refuted`, `C20_newton_at_bound_refuted`). Loop models generic in Num with all options; invariants by induction on the remaining iterations; computed counterexamples.
* **C21 fixed_point reports convergence only when the tolerance was met** (proved: `C21_fixed_point_result`, `C21_fixed_point_errors`, `C21_fixed_point_converges`, `C21_residual_at_result_refuted`, `C21_fixed_point_gives_up`). Generic loop model; induction on maxiter; contraction estimate in the 1-norm.
* **C22 Chebyshev evaluation, derivative and integral** (proved: `C22_chebval`, `C22_chebder`, `C22_chebder_high_order_refuted`, `C22_chebint`, `C22_chebint_once`, `C22_exp_cheb`, `C22_chebval_ln_tau`, `C22_exp_cheb_ln_tau`, `C22_ln_tau_at_or_above_critical`). Induction with a Clenshaw invariant; is_derive specification.
* **C23 normalize, mean and std** (proved: `C23_normalize`, `C23_mean`, `C23_std`, `C23_empty`, `C23_detect_outlier_normal`). List induction on R.
* **C24 translate_bound_func maps into and back from the bounds** (proved: `C24_image_strictly_inside`, `C24_outof_then_into`, `C24_into_then_outof`, `C24_wrapped_function`, `C24_wrapped_gradient`, `C24_outof_then_into_all_refuted`). Componentwise logistic maps on R.
* **C25 caching_decorator returns what the function returned first for that key** (proved: `C25_caching`, `C25_info_after_plain_call_refuted`). State machine over call traces; induction on the trace.
* **C26 OscillationChecker detects only genuine oscillation** (proved: `C26_oscillation_verdicts`, `C26_progress_not_flagged`, `C26_one_sided_not_flagged`). State machine; induction on history.
* **C27 Nelder-Mead never returns a point worse than the start** (proved: `C27_nelder_mead`, `C27_nelder_mead_bounds_partial`, `C27_nelder_mead_bounds_refuted`). Loop model; simplex invariant fsim[i]=f(sim[i]).
* **C28 Adaptive quadrature is additive, linear and bounded in depth** (proved: `C28_quad_evaluates_inside`, `C28_default_points_inside`, `C28_quad_total`, `C28_quad_panels`, `C28_quad_exact`, `C28_quad_depth_zero`, `C28_error_nonnegative_refuted`, `C28_tolerance_met_refuted`). Recursion on remaining depth; extensionality.
* **C29 Bound clipping and damping maintain constraints** (proved: `C29_clip`, `C29_clip_low_none_refuted`, `C29_damping`, `C29_damping_strict`, `C29_damp_initial`, `C29_max_step`). List models, induction.
* **C30 fixed_point_to_residual and residual_to_fixed_point are inverse** (proved: `C30_round_trip`, `C30_zeros`). Functional composition, list induction.
* **C31 nearest_pipe returns the smallest adequate standard pipe** (proved: `C31_table_geometry`, `C31_table_order`, `C31_inner_diameter`, `C31_inner_diameter_error`, `C31_outer_diameter`, `C31_outer_diameter_error`, `C31_nominal_size`, `C31_unknown_schedule`, `C31_numeric_schedule`, `C31_monotone`, `C31_round_trip`, `C31_no_request_refuted`, `C31_round_trip_binary64_refuted`). The actual tables as rational lists; lookup functions; sortedness by vm_compute lifted with forallb_forall; minimality by induction.
* **C32 gauge_from_t and t_from_gauge round trip** (proved: `C32_round_trip`, `C32_metres`, `C32_gauge_from_t`, `C32_too_thick`, `C32_too_thin_refuted`, `C32_unknown`, `C32_unknown_gauge`). Tables as rational lists; exhaustive over entries, induction over the list for arbitrary t.
* **C33 motor_round_size returns the smallest NEMA size not below the request** (proved: `C33_motor_round_size`, `C33_too_large`, `C33_monotone_idempotent`). Table scan model; sortedness.
* **C34 API520_round_size returns the smallest standard orifice not below the request** (proved: `C34_API520_round_size`, `C34_too_large`). Table scan model.
* **C35 Motor efficiency lookup** (proved: `C35_efficiency_in_table_range`, `C35_nondecreasing_in_power`, `C35_tabulated`, `C35_high_efficiency_at_least_minimum`, `C35_high_efficiency_at_least_minimum_refuted`, `C35_unsupported_poles_refuted`). Tables and interpolation model; monotone interpolation and monotone rounding.
* **C36 VFD and underloaded motor efficiency** (proved: `C36_VFD_in_range`, `C36_VFD_nondecreasing_in_load`, `C36_VFD_clamped`, `C36_VFD_tabulated`, `C36_VFD_nondecreasing_in_power_refuted`, `C36_underloaded_range`, `C36_underloaded_nondecreasing`, `C36_underloaded_at_most_one_refuted`, `C36_underloaded_monotone_refuted`). Bilinear interpolation model; derivative of the quartic in Bernstein form on panels, checked on rationals.
* **C37 API520 correction factors** (proved: `C37_API520_N_low`, `C37_API520_N_high`, `C37_API520_N_increasing`, `C37_API520_N_jump_refuted`, `C37_API520_N_pole_refuted`, `C37_API520_SH`, `C37_API520_SH_nonincreasing`, `C37_API520_SH_pressure_limit_refuted`, `C37_API520_B`, `C37_API520_B_nonincreasing`, `C37_API520_B_overpressure`, `C37_API520_B_atmospheric_set_refuted`, `C37_API520_W`, `C37_API520_W_nonincreasing`, `C37_API520_W_above_table_refuted`). Piecewise models on the actual tables; monotone interpolation on lines and surfaces.
* **C38 friction_factor: dispatch, laminar limit and positivity of every correlation** (proved: `C38_laminar`, `C38_zero_Re`, `C38_methods_unchecked`, `C38_unknown_method`, `C38_default_is_Clamond`, `C38_Darcy`, `C38_listed_methods_positive`, `C38_default_listed`, `C38_Rao_Kumar_smooth_refuted`, `C38_Papaevangelo_negative_refuted`, `C38_Papaevangelo_sign`, `C38_Serghides_1_refuted`). All 31 correlations translated mechanically into monadic real functions (every division, root, logarithm and power guarded as in Python); positivity by bounding each logarithm argument, constants by verified interval arithmetic. The Lambert function used by Colebrook is any function with w exp(w) = x. Serghides_2 is only covered by dispatch (its denominator may vanish in the same way as that of Serghides_1); Colebrook is covered while eD*Re is at most 1e13 (its overflow branch is not modelled).
* **C39 friction_factor_curved: dispatch, positivity and laminar bounds** (proved: `C39_documented_positive`, `C39_unknown_method`, `C39_unknown_Rec_method`, `C39_default_by_regime`, `C39_Darcy`, `C39_laminar_above_straight`, `C39_White_below_is_straight`, `C39_no_jump`, `C39_methods_listed`, `C39_methods_unchecked`). Mechanically translated models of the dispatcher, six critical Reynolds numbers and eleven correlations.
* **C40 material_roughness and roughness_Farshad** (proved: `C40_total_positive`, `C40_optimism_ordered`, `C40_optimism_refuted`, `C40_Farshad_lookup`, `C40_Farshad_coeffs`, `C40_Farshad_unknown_refuted`). The tables generated as data; the fuzzy string search an oracle; recursion with fuel.
* **C41 Loss coefficient, head and pressure conversions are mutual inverses** (proved: `C41_K_f`, `C41_K_L_equiv`, `C41_K_L`, `C41_head_P`, `C41_head_dP_agree`, `C41_pipe_dP`, `C41_zero_denominators`). Model generated from the source over R; field.
* **C42 Temperature conversions form a groupoid** (proved: `C42_convert_correct`, `C42_paths_agree`, `C42_round_trip`, `C42_order_preserving`). Affine maps against an independent meaning in kelvin; induction on paths.
* **C43 nu_mu_converter** (proved: `C43_inverse`, `C43_wrong_arguments`, `C43_definition`). Options for None; field.
* **C44 Compression work: solve-for-missing branches agree, and thermodynamic relations** (proved: `C44_solves`, `C44_arguments`, `C44_work_is_enthalpy_rise`, `C44_isothermal_least`, `C44_isothermal_stages`). Generated real model; logarithms for the inverse laws, convexity of exp for the inequality.
* **C45 Isentropic and polytropic efficiency conversions are inverse** (proved: `C45_isentropic_polytropic`, `C45_exponent`, `C45_arguments`). Real powers; strict convexity of exp.
* **C46 Stagnation and critical-flow states are consistent** (proved: `C46_stagnation_inverse`, `C46_critical_is_sonic`, `C46_is_critical_flow`, `C46_stagnation_ge`). Real powers.
* **C47 isothermal_gas: all five unknowns are consistent, choking is reported** (proved: `C47_lambert_exists`, `C47_critical_inverse`, `C47_mass_flow`, `C47_length`, `C47_outlet_pressure`, `C47_outlet_pressure_back`, `C47_inlet_pressure_sound`, `C47_diameter_sound`, `C47_arguments`). Real model by hand (try/except). lambertw on the lower branch is a parameter with its defining equation, shown to be satisfiable; secant and brenth are parameters returning exact roots, so the float tolerance of the iterative modes (inlet pressure, diameter) is outside.
* **C48 Gas pipeline equations: five-way solve-for-missing** (proved: `C48_Panhandle_A_solves`, `C48_Panhandle_A_answers`, `C48_Panhandle_A_arguments`, `C48_Panhandle_B_solves`, `C48_Panhandle_B_answers`, `C48_Panhandle_B_arguments`, `C48_Weymouth_solves`, `C48_Weymouth_answers`, `C48_Weymouth_arguments`, `C48_Fritzsche_solves`, `C48_Fritzsche_answers`, `C48_Fritzsche_arguments`, `C48_Muller_solves`, `C48_Muller_answers`, `C48_Muller_arguments`, `C48_IGT_solves`, `C48_IGT_answers`, `C48_IGT_arguments`, `C48_Spitzglass_high_diameter`, `C48_Spitzglass_low_diameter`, `C48_Oliphant_diameter`, `C48_Spitzglass_high_arguments`, `C48_Spitzglass_low_arguments`, `C48_Oliphant_arguments`, `C48_Spitzglass_high_solves`, `C48_Spitzglass_low_solves`, `C48_Oliphant_solves`, `C48_Spitzglass_high_unique`, `C48_Spitzglass_low_unique`, `C48_Oliphant_unique`, `C48_Spitzglass_high_vacuum`, `C48_Spitzglass_low_vacuum_refuted`, `C48_Oliphant_efficiency_refuted`). Generated real models against the published power laws; equalities of products of powers by logarithms. The secant search for D is a parameter. Two deviations are proved: Spitzglass_low answers an impossible outlet request with a negative absolute pressure, and Oliphant ignores E and Zavg.
* **C49 Choke pressures bound choking exactly and invert** (proved: `C49_FF_range`, `C49_liquid_boundary`, `C49_liquid_refusal`, `C49_liquid_inverse`, `C49_gas_boundary`, `C49_gas_inverse`, `C49_arguments`, `C49_choked_monotone`, `C49_fittings_factor`). Generated real model; field.
* **C50 Flow coefficient conversions are a consistent groupoid** (proved: `C50_convert`, `C50_groupoid`, `C50_unknown`, `C50_K_inverse`, `C50_Cv_via_Kv`, `C50_Kv_K_decreasing`). Generated real model; field.
* **C51 Changing the diameter basis of a loss coefficient keeps the pressure drop** (proved: `C51_same_pressure_drop`, `C51_groupoid`, `C51_zero_diameter`). Generated real model; field.
* **C52 Two-K and three-K fittings** (proved: `C52_Hooper`, `C52_Hooper_monotone`, `C52_Hooper_errors`, `C52_Darby`, `C52_Darby_monotone`, `C52_Darby_errors`, `C52_Darby_diameter`, `C52_Darby_tabulated`, `C52_Darby_small_bore_refuted`). Real model with the tables transcribed; interpolation lemmas. Deviation proved: below about 4.5 mm the extrapolated nominal size is negative and Darby3K returns a complex number.
* **C53 Partly filled spheres and vertical vessels hold exactly the volume below the level** (proved: `C53_sphere_volume`, `C53_sphere_area`, `C53_circle`, `C53_vertical_conical`, `C53_vertical_ellipsoidal`, `C53_vertical_spherical`, `C53_vertical_conical_concave`, `C53_vertical_ellipsoidal_concave`, `C53_vertical_spherical_concave`, `C53_vertical_torispherical`, `C53_torispherical_height`, `C53_torispherical_smooth`, `C53_vertical_monotone`, `C53_vertical_full`, `C53_empty`, `C53_cylinder_wall`, `C53_vertical_torispherical_concave`, `C53_concave_torispherical_empty`, `C53_torispherical_complement`). Generated real model; Coquelicot integrals, fundamental theorem of calculus with explicit antiderivatives.
* **C54 Any two of angle, pitch, parallel and normal pitch give the others** (proved: `C54_any_two`, `C54_consistent`, `C54_needs_two`, `C54_negative_refuted`). Generated real model; trigonometry. Deviation proved: with a negative parallel pitch and the normal pitch the returned angle does not fit the returned pitches.
* **C55 Orifice plates: coefficient, loss and flow rate describe one device** (proved: `C55_coefficient_round_trip`, `C55_loss_round_trip`, `C55_loss_decreasing`, `C55_permanent_loss_bounds`, `C55_discharge`, `C55_backflow`, `C55_no_restriction`, `C55_loss_is_K_velocity_heads`, `C55_square_root_law`, `C55_discharge_monotone`, `C55_flow_coefficient`). Generated real model of the six functions; square-root algebra.
* **C56 Every meter name is dispatched, with the right area and loss** (proved: `C56_beta`, `C56_discharge`, `C56_unknown`, `C56_aliases`, `C56_override`, `C56_unspecified`, `C56_plate_loss`, `C56_venturi_loss`, `C56_cone_wedge_loss`, `C56_cone_loss_refuted`, `C56_all_meters_have_loss_refuted`, `C56_loss_kinds`). Generated real model of the dispatchers; the wedge area is related to the integral of the chord of the pipe. Deviations proved: a cone filling the pipe is reported to lose more than the measured difference; two advertised meters have no permanent loss.
* **C57 Open channels and weirs** (proved: `C57_conversions_are_inverse`, `C57_same_velocity`, `C57_Manning_monotone`, `C57_tables_ordered`, `C57_full_weirs`, `C57_full_Kindsvater_Carter`, `C57_contracted_Kindsvater_Carter`, `C57_V_notch`, `C57_SIA_no_head_refuted`, `C57_full_SIA_power_law_refuted`). Generated real model; Rpower algebra and monotonicity, table check by computation. Deviations proved: Q_weir_rectangular_SIA discharges at zero head (head plus crest height is raised to 3/2); Q_weir_rectangular_full_SIA is not a 3/2-power law (term linear in the head).
* **C58 Drag coefficient of a sphere and terminal velocity** (proved: `C58_listed_methods_work`, `C58_unlisted_refused`, `C58_default`, `C58_Barati_creeping_flow_refuted`, `C58_terminal_balance`, `C58_terminal_creeping`, `C58_terminal_exact`, `C58_rising_sphere_refuted`). Generated real model of the 21 correlations, hand-written table, v_terminal with the secant solver as a parameter under an explicit contract (only points with residual at most eps are returned); sign analysis, verified interval arithmetic for Barati_high and the size of the step. Deviations proved: Barati alone saturates for vanishing Re; a rising sphere always gets the creeping-flow velocity however large its Reynolds number.
* **C59 Trajectories of spheres** (proved: `C59_equation_of_motion`, `C59_steps_compose`, `C59_approach`, `C59_time_to_terminal`, `C59_time_not_sinking`, `C59_time_at_terminal_refuted`, `C59_long_times`, `C59_long_times_rising_refuted`, `C59_newton`, `C59_terminal_is_steady`, `C59_upward_drag_refuted`). Hand-written model; exp refuses arguments above a limit (OverflowError branch modelled), odeint is a parameter; Coquelicot is_derive. Deviations proved: rising and neutral spheres raise ValueError in time_v_terminal_Stokes and, for long times, in integrate_drag_sphere; a start at the terminal velocity raises ValueError; upward motion is always given Stokes' drag.
* **C60 Standard atmosphere** (proved: `C60_defined`, `C60_centre`, `C60_temperature`, `C60_temperature_continuous`, `C60_offset`, `C60_hydrostatic`, `C60_pressure_falls`, `C60_ideal_gas`, `C60_transport`, `C60_pressure_integral`, `C60_warm_air`, `C60_airmass_zenith`, `C60_airmass_angle`). Hand-written model of the class; derivative of the layer formulas, interval arithmetic for the jumps of the tabulated base pressures (below 1e-13), induction over the layers for continuity, monotonicity and integrals.
* **C61 Factorial, binomial coefficient and hypot fallbacks** (proved: `C61_py_factorial`, `C61_py_comb`, `C61_py_hypot`). Z model with the loop; Pascal's rule specification; real model of hypot.
* **C62 subset_matrix selects the requested rows and columns** (proved: `C62_subset_matrix`, `C62_subset_matrix_all`). List model; induction over index list.
* **C63 The built-in Gauss-Kronrod table integrates polynomials** (proved: `C63_kronrod_polynomials`, `C63_quad_affine`). Moments of the table checked in integer arithmetic over a common denominator, lifted to R by linearity.
* **C64 best_bounding_bounds returns a bracket made of sampled points** (proved: `C64_bracket`, `C64_unbound_refuted`, `C64_bracket_never_worse_refuted`, `C64_bracket_found_if_sampled_refuted`). Model of both branches; case analysis with minimum/maximum lemmas.
* **C65 Integrals and derivatives of fits with linear extrapolation** (proved: `C65_fit_integral`, `C65_fit_integral_over_T`, `C65_evaluate_linear_fits`). Coquelicot integrals piece by piece (Chasles).
* **C66 Error measures** (proved: `C66_max_errors`, `C66_mean_errors`, `C66_squared_rel_zero_refuted`, `C66_min_max_ratios`). Fold invariants.
* **C67 isclose, is_monotonic and is_increasing decide their definitions** (proved: `C67_isclose`, `C67_isclose_symmetric`, `C67_is_monotonic`, `C67_is_increasing`). Induction on lists; case analysis.
* **C68 halley respects its bounds** (proved: `C68_halley_bounds`, `C68_halley_value`, `C68_halley_flat_refuted`, `C68_halley_bound_refuted`, `C68_halley_denominator_refuted`). Loop model with all options; invariant by induction; computed counterexamples.
* **C69 newton_system, newton_minimize and homotopy continuation** (proved: `C69_homotopy_result`, `C69_homotopy_terminates`, `C69_homotopy_gives_up`, `C69_homotopy_predictor`, `C69_homotopy_newton`, `C69_newton_system_result`, `C69_newton_system_errors`, `C69_newton_system_affine`, `C69_raising_function_refuted`, `C69_raising_function_unbound_refuted`, `C69_armijo_refuted`, `C69_newton_minimize_result`, `C69_homotopy_ends`, `C69_homotopy_value`, `C69_armijo`, `C69_minimize_step`, `C69_minimize_early_refuted`). Loop models incl. line search; invariants by induction; computed counterexamples.
* **C70 broyden2 returns a solution or has used all iterations** (proved: `C70_broyden2_result`, `C70_broyden_secant_scalar`, `C70_broyden_secant_refuted`, `C70_broyden2_unconverged_refuted`, `C70_broyden_first_step`). Loop model; induction on maxiter.
* **C71 Accelerated fixed-point solvers** (proved: `C71_aitken_result`, `C71_gdem_result`, `C71_dem_geometric`, `C71_dem_alternating_refuted`, `C71_aitken_geometric_refuted`, `C71_frequency_refuted`). Loop model parametric in the accelerator; algebra on geometric sequences.
* **C72 Spline evaluation is the B-spline combination and stays within its coefficients** (proved: `C72_splev_is_bspline_combination`, `C72_splev_within_coefficients`, `C72_splev_outside`, `C72_splev_constant_everywhere`, `C72_splev_degree_one`, `C72_bisplev_within_coefficients`, `C72_linear_surface_is_bilinear`, `C72_linear_surface_through_nodes`). Model of the fpbspl array recurrence; weights non-negative with sum one by induction on the degree; equality with the Cox-de Boor recursion.
* **C73 Colebrook solves the Colebrook-White equation** (proved: `C73_lambert_exists`, `C73_unique_solution`, `C73_closed_form`). Existence by the intermediate value theorem, uniqueness by monotonicity of the residual; the closed form is analysed with the decimal constants of the code and an abstract Lambert function; residual_stable turns residuals into errors.
* **C74 The default friction factor agrees with Colebrook-White** (proved: `C74_default_accuracy`, `C74_relative_error`, `C74_default_vs_Colebrook`). Error analysis of the two fourth-order iterations (quart), starting error bounded uniformly.
* **C75 Friction factors rise with roughness and fall with Re** (proved: `C75_explicit_methods`, `C75_exact_solution`, `C75_default_up_to_error`, `C75_Tsal_refuted`). Monotonicity of each translated correlation; refutation with interval arithmetic.
* **C76 Dimensionless groups satisfy the relations between them** (proved: `C76_Reynolds_forms`, `C76_diffusivity_forms`, `C76_Prandtl_forms`, `C76_transport_relations`, `C76_Rayleigh`, `C76_capillary_relations`, `C76_heat_relations`, `C76_Froude_squared`, `C76_Confinement_Bond`, `C76_missing_arguments`, `C76_rho_mu_take_precedence`). Model generated from the source over R; field and square root algebra.
* **C77 Control valve sizing delivers the requested flow** (proved: `C77_liquid_sized`, `C77_liquid_monotone`, `C77_diameters`, `C77_liquid_fitted`, `C77_impossible_flow_refuted`, `C77_laminar`, `C77_reported_FR_refuted`, `C77_gas_sized`, `C77_gas_fitted`, `C77_gas_impossible_refuted`, `C77_gas_choked_flag_refuted`). Hand-written model of the two functions over generated coefficients; invariant of the iteration; a growth argument for termination. Deviations proved: a flow the reducers cannot pass raises NameError (liquid) or is answered with a too small Kv (gas); the reported FR and choked flag are not those of the returned Kv.
* **C78 Contractions, diffusers and bends** (proved: `C78_Borda_Carnot`, `C78_diffuser_sharp`, `C78_contraction_sharp`, `C78_contraction_round_zero`, `C78_contraction_beveled_zero`, `C78_contraction_round`, `C78_contraction_angle_length`, `C78_diffuser_angle_length`, `C78_contraction_Crane_sharp`, `C78_diffuser_Crane_length_refuted`, `C78_bend_radius`, `C78_bend_Crane_radius_refuted`, `C78_bend_Crane_diameters`, `C78_bend_miter`, `C78_bend_miter_tables`, `C78_unknown_method`, `C78_Miller_clamped`). Generated real model; polynomial inequalities, trigonometry, interpolation lemmas. Deviations proved: diffuser_conical_Crane with a length returns a negative loss for every proper expansion; bend_rounded with method Crane and a bend radius raises ValueError unless the radius is five diameters.
* **C79 Crane valves and fittings** (proved: `C79_fittings`, `C79_line_size`, `C79_reduced`, `C79_friction_default`, `C79_gate_zero_angle_refuted`, `C79_lift_velocity`, `C79_lift_velocity_refuted`). Generated real model against a separately written table. Deviations proved: the gate valve jumps at zero reducer angle by a finite amount; v_lift_valve_Crane fails with UnboundLocalError when a needed diameter is left out.
* **C80 Heads of a horizontal vessel hold exactly the volume below the level** (proved: `C80_ellipsoidal`, `C80_guppy`, `C80_conical`, `C80_spherical`, `C80_whole`, `C80_deep_spherical_refuted`). Hand-written real model following the source line by line; Coquelicot integrals with explicit antiderivatives. Deviation proved: a spherical head deeper than the radius is given less volume than a hemisphere when horizontal.
* **C81 Whole vessels: level to volume, totals and orientation** (proved: `C81_horizontal`, `C81_below`, `C81_horizontal_monotone`, `C81_vertical`, `C81_vertical_monotone`, `C81_full`, `C81_orientation`, `C81_guppy_refuted`, `C81_unknown`, `C81_missing_factors`, `C81_area`, `C81_area_unknown_refuted`). Hand-written real model following the source line by line; composition of the integrals of C53 and C80. Deviations proved: guppy heads of a vertical vessel hold nothing; SA_tank takes an unknown head name for a flat end.
* **C82 Expansibility factors** (proved: `C82_orifice`, `C82_orifice_monotone`, `C82_orifice_1989`, `C82_cone`, `C82_nozzle`, `C82_nozzle_k1`, `C82_nozzle_k1_limit`, `C82_nozzle_k1_beta_refuted`, `C82_nozzle_k1_no_drop_refuted`, `C82_all_meters`). Concavity of the power function; difference quotient limit with Coquelicot. Deviations proved: with k = 1 nozzle_expansibility ignores the diameter ratio it is given (wedge meters) and raises ZeroDivisionError without pressure drop.
* **C83 Solving a flow meter for its unknown** (proved: `C83_solves`, `C83_flow_value`, `C83_one_unknown`, `C83_missing_k_refuted`). Hand-written model of the solver over the generated correlations, with secant and brenth as parameters whose contract (an answer is a root) is a hypothesis. Deviation proved: without k and epsilon the error is a TypeError.
* **C84 Packed beds** (proved: `C84_published`, `C84_positive`, `C84_velocity`, `C84_voidage`, `C84_length`, `C84_units`, `C84_dispatch`, `C84_unknown`, `C84_guo_negative_refuted`, `C84_offered`, `C84_voidage_spheres`, `C84_voidage_cylinders`, `C84_voidage_general`). Generated real model against a separately written table of dimensionless functions. Voidage monotonicity is not proved for Fahien & Schriver. Deviation proved: Guo & Sun gives a negative drop for fine particles in a wide bed.
* **C85 Void fraction of gas-liquid mixtures** (proved: `C85_slip`, `C85_fraction`, `C85_rising`, `C85_default`, `C85_pure`, `C85_pure_liquid_raises`, `C85_density`, `C85_graham`, `C85_kopte`, `C85_nonneg`, `C85_domanski_negative_refuted`, `C85_tandon_above_one_refuted`, `C85_harms_above_one_refuted`, `C85_offered`, `C85_unknown`). Generated real model; slip form 1/(1+s), drift flux lemma, real inequalities. Deviations proved: Domanski Didion goes negative at low quality; Tandon Varma Gupta and Harms (never negative) exceed 1; the slip-ratio methods raise ZeroDivisionError for pure liquid.
* **C86 Viscosity of gas-liquid mixtures** (proved: `C86_pure`, `C86_between`, `C86_positive`, `C86_beattie_above_liquid_refuted`, `C86_fourar_above_liquid_refuted`, `C86_dispatch`). Generated real model; real inequalities. Deviation proved: Beattie Whalley and Fourar Bories exceed the viscosity of the liquid.
* **C87 Discrete particle size distributions** (proved: `C87_conversion`, `C87_mean`, `C87_mean_bounds`, `C87_mean_symmetric`, `C87_mean_rises`, `C87_units`, `C87_surface`, `C87_classes`, `C87_sums`, `C87_cumulative`, `C87_cumulative_points_refuted`, `C87_class_minus_one_raises`). Hand-written model; sums by induction, ordering of the means from strict convexity (integral of e^(su)). Deviations proved: a cumulative curve with amounts at given sizes loses its first value; with size classes, means of index -1 raise ZeroDivisionError.
* **C88 Continuous particle size distributions** (proved: `C88_cumulative`, `C88_GGS_density`, `C88_RR_density`, `C88_lognormal_density`, `C88_objects`, `C88_quantile`, `C88_discrete`, `C88_discrete_nonneg`, `C88_mean_bounds`, `C88_GGS_other_basis`, `C88_GGS_upper_limit_raises`, `C88_GGS_lower_basis_raises`, `C88_GGS_above_one_refuted`, `C88_truncated_basis_negative_refuted`, `C88_renard`). Hand-written model; derivatives with Coquelicot. erf and the incomplete gamma function are parameters constrained by their derivatives (contracts shown satisfiable by constructing both from integrals, including the Gaussian integral bound). Deviations proved: PSDGatesGaudinSchuhman with an upper limit raises AttributeError, without a lower limit raises ZeroDivisionError for every lower basis; its curve in another basis exceeds 1 above the top size and, with a lower limit, starts below 0.
* **C89 Double-double arithmetic** (proved: `C89_comparisons`, `C89_add_exact`, `C89_mul_exact`, `C89_add_error`, `C89_add_same_sign`, `C89_mul_error`, `C89_div_error`, `C89_div_by_zero`, `C89_mul_normalised`, `C89_intpow_error`, `C89_intpow_zero`, `C89_sqrt_imag_refuted`, `C89_mul_imag_error`, `C89_add_imag_error`). Hand-written model over Flocq's rounding operator (round to nearest even, precision 53, gradual underflow, no overflow); error-free transformations TwoSum, Fast2Sum and Dekker's product from Flocq. Deviation proved: sqrt_imag_dd of a number with negative imaginary part is the root of its mirror image. Not covered: square roots, cube roots, exponential, logarithm.
* **C90 Numerical derivatives, gradients and second derivatives** (proved: `C90_derivative_error`, `C90_derivative_quadratic`, `C90_derivative_errors`, `C90_limits_respected`, `C90_limits_inactive`, `C90_limit_shift_refuted`, `C90_jacobian_quotients`, `C90_jacobian_affine`, `C90_jacobian_error`, `C90_hessian_quotients`, `C90_hessian_quadratic`). Hand-written real model with the table of weights as exact rationals; moments of the weights checked by computation in Q, then Taylor's theorem (Coquelicot) on both sides of the point. Deviation proved: with a limit nearer than half the span the returned value is the derivative at a shifted point (x^2 at 1 with upper limit 1, step 0.1 gives 1.8).
* **C91 Relief valve sizing and flare noise** (proved: `C91_gas_choked`, `C91_gas_subsonic`, `C91_gas_jump_refuted`, `C91_gas_k1_refuted`, `C91_C_increasing`, `C91_C_limit`, `C91_gas_proportional`, `C91_gas_choked_pressure`, `C91_gas_subsonic_pressure`, `C91_steam`, `C91_steam_superheat`, `C91_steam_too_hot`, `C91_Kv_10E`, `C91_Kv_7E`, `C91_Kv_unknown`, `C91_liquid`, `C91_liquid_Kw`, `C91_liquid_viscous`, `C91_liquid_default_refuted`, `C91_noise_graph`, `C91_noise_graph_low`, `C91_noise_scaling`, `C91_noise_30m`, `C91_noise_VDI`). Hand-written real model on top of the modelled table lookups; nozzle equations as separate specification, interval arithmetic for the constants, derivatives with Coquelicot. Deviations proved: the area jumps at the critical pressure, a heat capacity ratio of exactly 1 raises ZeroDivisionError although the choked coefficient covers it, API520_A_l with its default Kv and mu raises TypeError.
* **C92 Two-phase pressure drop** (proved: `C92_positive`, `C92_Friedel_above`, `C92_separated`, `C92_separated_bound`, `C92_Lockhart`, `C92_Kim_Mudawar`, `C92_interpolations`, `C92_Theissing`, `C92_all_liquid`, `C92_all_gas`, `C92_Tran_gas_refuted`, `C92_Lockhart_liquid_refuted`, `C92_negative_refuted`, `C92_named`, `C92_unknown`, `C92_default`, `C92_default_refused`, `C92_inclination_refuted`, `C92_acceleration_adds`, `C92_acceleration_homogeneous`, `C92_acceleration_dry_refuted`, `C92_gravity`, `C92_gravity_angles`, `C92_Mandhane`, `C92_Mandhane_order_refuted`, `C92_Taitel_Dukler`, `C92_Taitel_Dukler_parameters`, `C92_Beggs_Brill_positive`, `C92_Beggs_Brill_holdup_refuted`). Generated real model over the modelled friction factor; each correlation evaluated once in terms of the single-phase gradients, then real inequalities. Theissing and Beggs-Brill are covered for answers that exist. Gronnerud is modelled without a theorem. Deviations proved: Chisholm and Muller-Steinhagen-Heck go negative for slow laminar flow of a very thin gas; Tran gives 4.3 times the gas drop at quality 1; Lockhart-Martinelli refuses pure liquid (ZeroDivisionError) as does the acceleration drop at full dryness; Beggs-Brill is offered when the inclination is left out but then refused with TypeError; Mandhane returns its superficial velocities in the opposite order from its documentation; the Beggs-Brill hold-up exceeds 1 in slow flow.
* **C93 Closed-form roots of quadratics, cubics and quartics** (proved: `C93_quartic`, `C93_complete`, `C93_quadratic`, `C93_linear`, `C93_cubic_a2`, `C93_cubic_a1`, `C93_cubic`, `C93_cubic_lower`, `C93_cubic_a1_refuted`, `C93_cubic_a2_refuted`, `C93_quartic_refuted`). Hand-written model over Coquelicot's complex numbers with principal square and cube roots; constants such as 1/3 and sqrt(3) are their exact values; Cardano's and Ferrari's identities by field arithmetic, sign of the discriminant by real algebra. Deviations proved: roots_cubic_a1 and roots_cubic_a2 raise ZeroDivisionError for a(x + b/3a)^3 + q with q/a not negative (x^3 + 1); roots_quartic raises it for every ax^4 + e, dividing by a value it does not use.
* **C94 Liquid jet pump** (proved: `C94_nozzle`, `C94_recovers`, `C94_no_flow`, `C94_pressures`, `C94_ratio`, `C94_ratio_refuted`, `C94_balance`, `C94_pump`, `C94_discharge`, `C94_unknowns`, `C94_ancillary_unknowns`, `C94_pressures_refuted`). Hand-written real model; numerical solves are a parameter that returns only roots. Deviations proved: with a retracted nozzle the code uses (1 - Ks) where its documentation gives (1 + Ks); a negative suction pressure is returned as its absolute value.
* **C95 Saltation velocity in pneumatic conveying** (proved: `C95_Rizk`, `C95_Matsumoto_1974`, `C95_Matsumoto_1975`, `C95_Matsumoto_1977`, `C95_Schade`, `C95_Weber`, `C95_Geldart_Ling`, `C95_Geldart_Ling_join`, `C95_rises`). Generated real model; logarithms linearise the power laws, interval arithmetic for the join.
* **C96 Loss coefficients of screens and grills** (proved: `C96_round_grill`, `C96_round_grill_refuted`, `C96_round_grill_friction`, `C96_square_grill`, `C96_square_grill_falls`, `C96_square_screen`, `C96_round_screen`, `C96_round_screen_falls`, `C96_round_screen_refuted`, `C96_open_mesh`, `C96_open_mesh_falls`). Generated real model over the modelled interp and splev; spline pieces evaluated exactly, interval arithmetic. Deviations proved: round_edge_grill returns negative loss coefficients for open fractions from 0.8 on (the spline is extrapolated although a comment promises constant ends); tilting a round edge screen from 45 to 46 degrees raises its loss.
* **C97 Gas-liquid separators and demisters** (proved: `C97_Watkins`, `C97_Watkins_chart`, `C97_Watkins_fits`, `C97_Watkins_dry`, `C97_York`, `C97_York_monotone`, `C97_Souders_Brown`, `C97_Souders_Brown_light`). Generated real model; splev proved total, interval arithmetic for the piecewise limits.
* **C98 Mixing times, tee and static mixers** (proved: `C98_homogeneity`, `C98_agitator`, `C98_agitator_default`, `C98_agitator_power`, `C98_agitator_target`, `C98_ribbon`, `C98_ribbon_power`, `C98_static_mixer`, `C98_static_mixer_loss`, `C98_tee`, `C98_tee_jets`, `C98_tee_default`, `C98_tee_length`, `C98_tee_strength`, `C98_tee_strength_refuted`). Generated real model; power laws through logarithms. Deviation proved: for one jet size_tee uses the exponent 1/33 in place of 1.33, so that a stronger jet leaves more than twice the variation after five diameters.
* **C99 Packed towers and demister pads** (proved: `C99_dry`, `C99_dry_rises`, `C99_wet`, `C99_wet_dry`, `C99_Robbins`, `C99_separation`, `C99_wet_mesh`, `C99_voidage`, `C99_mesh_area`, `C99_dry_mesh`, `C99_dry_mesh_refuted`, `C99_wet_mesh_published`, `C99_separation_published`, `C99_Robbins_published`). Generated and hand-written real model; secant solve as a parameter that returns only roots. Deviation proved: dP_demister_dry_Setekleiv_Svendsen returns a negative pressure drop at specific area times thickness 15. Stichlmair_flood is not modelled.
* **C100 Air leakage into vacuum equipment** (proved: `C100_Croll_formula`, `C100_Ryans_Croll`, `C100_Ryans_Croll_none`, `C100_Seider_formula`, `C100_Seider`, `C100_Seider_refuted`, `C100_HEI_formula`, `C100_HEI`, `C100_Worthington`). Generated real model; interval arithmetic at the branch limits. Deviation proved: for a 10 m3 vessel at a vacuum of 0.001 torr vacuum_air_leakage_Seider returns a negative leakage.
* **C101 Friction in chevron plate exchangers** (proved: `C101_Martin`, `C101_Martin_flat`, `C101_Martin_falls`, `C101_Martin_agree`, `C101_Kumar`, `C101_Kumar_falls`, `C101_Muley_Manglik`). Generated and hand-written real model; power laws through logarithms, interval arithmetic at the joins.
* **C102 Pump, motor and pipe-erosion estimates** (proved: `C102_pump`, `C102_motor`, `C102_affinity`, `C102_current`, `C102_erosion`). Generated real model; logarithm bounds by interval arithmetic.
* **C103 Drilled cylinders and circular segments** (proved: `C103_drilled`, `C103_drilled_order`, `C103_segment_slope`, `C103_segment`, `C103_segment_unique`, `C103_segment_refuted`). Hand-written real model; induction over the holes; the segment area as a Riemann integral. Deviation proved: an area above half of the circle has no answer, because the search stops at the radius.
* **C104 Degree days** (proved: `C104_degree_days`, `C104_record`). Hand-written real model; induction over the record.
* **C105 Helical coils** (proved: `C105_coil`, `C105_same`, `C105_collide`, `C105_collide_refuted`, `C105_length`, `C105_inside`). Hand-written real model of the constructor; Riemann integral of the helix' speed. Deviation proved: given turns and pitch, colliding turns are accepted although the same coil is refused when its height is given.
* **C106 Plate exchangers** (proved: `C106_factor`, `C106_factor_rises`, `C106_plates`). Hand-written real model; ellipe is idealised as the elliptic integral itself; substitution and symmetry of the integrand.
* **C107 Plate-fin exchangers** (proved: `C107_fins`, `C107_blockage_refuted`, `C107_strips`, `C107_stack`). Hand-written real model; field arithmetic; round(x, 0) as rounding half to even. Deviation proved: RectangularFinExchanger.blockage_ratio, documented as the blocked part, is the open part (0.81 where 19 % are blocked).
* **C108 Hyperbolic cooling towers** (proved: `C108_from_inlet`, `C108_from_base`, `C108_refused`). Hand-written real model of the constructor and diameter; the supports, which are only stored, are left out.
* **C109 Air coolers** (proved: `C109_sizes`, `C109_areas`, `C109_flow`, `C109_pitch_ratio_refuted`, `C109_refused`). Hand-written real model of the constructor without the tube side volumes and layout names. Deviation proved: pitch_ratio, documented to take the place of pitch, is refused alone and silently replaces a given pitch.
* **C110 Tanks as objects** (proved: `C110_sizes`, `C110_heads`, `C110_same`, `C110_totals`, `C110_full`, `C110_volume`, `C110_refused`, `C110_level`, `C110_thicker`, `C110_thickness_refuted`). Hand-written model of the constructor, set_misc, _solve_tank_for_V, V_from_h, h_from_V (brenth), add_thickness; the solver is a parameter with the contract that it returns roots. Uses C81 for the volumes. Not modelled: from_two_specs, Chebyshev approximations; SA_from_h is C113, A_cross_sectional C118. Deviation proved: add_thickness lengthens the wall and deepens the heads, so a standing tank grows by twice the thickness asked for, and a flat bottom gets a depth in which no volume is counted.
* **C111 is_poly_positive and is_poly_negative** (proved: `C111_positive`, `C111_negative`, `C111_not_positive`, `C111_not_negative`, `C111_positive_refuted`). Real model with the root finder as parameter; the last zero before a negative point (completeness of the reals) and the intermediate value theorem.
* **C112 one_sided_secant stays out of the flat region** (proved: `C112_result`, `C112_refused`, `C112_local`, `C112_affine`). Loop model with quadratic and secant steps and the line search; invariant by induction on the iterations, two runs in lockstep for locality.
* **C113 The wetted area of a tank is the area of its wetted surface** (proved: `C113_conical_head`, `C113_spherical_head`, `C113_torispherical_head`, `C113_ellipsoidal_head`, `C113_vertical_tank`, `C113_full_tank`, `C113_guppy_refuted`, `C113_horizontal_tank`, `C113_full_horizontal`). Generated head functions of Model_Geometry.v, SA_from_h by hand (Model_TankArea.v; the horizontal ellipsoidal, guppy, spherical and torispherical heads, numerical integrals in the source, are parameters); derivative of each profile, explicit antiderivative of the area element, fundamental theorem of calculus.
* **C114 Monthly averages of a weather station** (proved: `C114_month_average`, `C114_incomplete`, `C114_range`, `C114_coldest`, `C114_warmest`). Hand-written model of the counting loops over parsed data; invariant of sums and counts by induction over days, months and years. Downloading and parsing are not modelled.
* **C115 The weather station found for a place** (proved: `C115_nearest`, `C115_found`, `C115_match_max`, `C115_globe_refuted`). Recursion model with the k-d tree query as a parameter with the contract of scipy's; induction on the recursion.
* **C116 assert_close for numbers and nested lists** (proved: `C116_number`, `C116_list`, `C116_table_accepts`, `C116_table_exact`, `C116_table_refuted`, `C116_negative_refuted`). Hand-written model of the loops with their early return; numpy's assert_allclose by its documented test; induction over the lists.
* **C117 Inverse functions of complex numbers** (proved: `C117_cacos`, `C117_catanh`, `C117_catan`). Real model on pairs without signed zeros; csqrt and clog as parameters that are a principal root and a logarithm; the polar form of (1+z)(1-conj z) and the half angle formulas.
* **C118 The free surface of the liquid in a tank** (proved: `C118_mean_section`, `C118_wall`, `C118_lying_section`, `C118_flat_ends_refuted`). Model_TankSection.v on top of the models of TANK, V_from_h and derivative; C81 for the volumes, additivity of the integral. Horizontal torispherical heads are not covered; for the other horizontal heads the quadrature is assumed exact.

