{"id": "C01", "title": "Polynomial evaluation returns the polynomial's value", "statement": "horner(coeffs, x) returns sum of coeffs[i]*x**(n-1-i); horner_stable and horner_domain return the same polynomial evaluated at the affinely mapped argument, horner_domain mapping [xmin,xmax] onto [-1,1] and raising ZeroDivisionError when xmin = xmax.", "quantifier": "every coefficient list of every length (including empty), every real x, offset, scale, xmin, xmax", "why_tests_cant": "ranges over all coefficient lists of every length and every real point; unit tests evaluate a handful of fixed polynomials", "anchors": ["fluids/numerics/polynomial_evaluation.py:horner,horner_stable,horner_domain"]}
{"id": "C02", "title": "Derivative-returning Horner variants return the true derivatives", "statement": "horner_and_der, _der2, _der3, _der4 (and the horner_stable_* versions) return the value and the exact first to fourth derivatives of the polynomial at x with respect to x.", "quantifier": "every coefficient list, every real x, offset, scale", "why_tests_cant": "ranges over all coefficient lists of every length and every real point; unit tests evaluate a handful of fixed polynomials", "anchors": ["fluids/numerics/polynomial_evaluation.py:horner_and_der,horner_and_der2,horner_and_der3,horner_and_der4,horner_stable_and_der..4"]}
{"id": "C03", "title": "Log-tau and exponential polynomial variants return true derivatives and vanish at the critical point", "statement": "For T<Tc the *_ln_tau_and_der* functions return value and derivatives with respect to T of poly(log(1-T/Tc)) (or its exponential); for T>=Tc they return zeros; exp_horner_*_and_der* return the derivatives of exp(poly(x)).", "quantifier": "every coefficient list, every T, Tc>0, offset, scale", "why_tests_cant": "ranges over all coefficient lists of every length and every real point; unit tests evaluate a handful of fixed polynomials", "anchors": ["fluids/numerics/polynomial_evaluation.py:horner_backwards_ln_tau*,horner_stable_ln_tau*,exp_horner_*"]}
{"id": "C04", "title": "Polynomial integration and differentiation are mutually inverse calculus operations", "statement": "polyint returns coefficients whose polynomial has the input polynomial as derivative and vanishes at 0; polyint_stable does the same in the scaled variable; polyder(c, m) returns the m-th derivative's coefficients; polyint_over_x returns terms and a log coefficient such that terms(x)+log_coeff*ln x is an antiderivative of p(x)/x, and polyint_over_x_stable does so for a polynomial given in the scaled variable.", "quantifier": "every coefficient list, every m, every real x (x>0 for the log form), xmin<>xmax", "why_tests_cant": "ranges over all coefficient lists of every length and every real point; unit tests evaluate a handful of fixed polynomials", "anchors": ["fluids/numerics/polynomial_utils.py:polyint,polyint_stable,polyder,polyint_over_x,polyint_over_x_stable"]}
{"id": "C05", "title": "Polynomial sum and product are sum and product of the polynomial functions", "statement": "The low-order-first helper operations behind stable_poly_to_unstable satisfy eval(poly_add p q) = eval p + eval q and eval(poly_mul p q) = eval p * eval q, and stable_poly_to_unstable(coeffs, low, high) returns ordinary coefficients whose horner value at x equals the stable polynomial's value at the scaled argument; leading zeros are removed.", "quantifier": "all pairs of coefficient lists, all low<>high, all x", "why_tests_cant": "ranges over all coefficient lists of every length and every real point; unit tests evaluate a handful of fixed polynomials", "anchors": ["fluids/numerics/polynomial_utils.py:poly_add,poly_mul,stable_poly_to_unstable"]}
{"id": "C06", "title": "Interpolating quadratics interpolate", "statement": "quadratic_from_points returns the coefficients of a quadratic through all three given points whenever the abscissae are distinct, and raises ZeroDivisionError otherwise; quadratic_from_f_ders matches value and two derivatives at the point; deflate_cubic_real_roots returns the remaining two roots of a cubic with known root when they are real.", "quantifier": "all real abscissae and ordinates / all cubics with non-zero known root", "why_tests_cant": "identities over all reals; tests check a few triples", "anchors": ["fluids/numerics/polynomial_utils.py:quadratic_from_points,quadratic_from_f_ders,deflate_cubic_real_roots"]}
{"id": "C07", "title": "Matrix transpose is an involution and rejects ragged input", "statement": "transpose of a non-empty rectangular matrix has entry (j,i) equal to input entry (i,j), applying it twice returns the original, and a matrix whose first row is non-empty and which has a row of another length raises ValueError; the empty matrix maps to itself. (That every ragged matrix is rejected is refuted: when the first row is empty the other rows are silently dropped.)", "quantifier": "all lists of lists of any size and any element type", "why_tests_cant": "sizes unbounded", "anchors": ["fluids/numerics/arrays.py:transpose"]}
{"id": "C08", "title": "Matrix products agree with the mathematical definition and are associative", "statement": "matrix_multiply, matrix_vector_dot and dot_product compute the sums of products, multiplication by eye(n) is the identity, matrix_multiply is associative and compatible with matrix_vector_dot; row sums, column sums, elementwise addition, subtraction, scaling and division are the entrywise operations; dimension mismatches raise ValueError, division by zero ZeroDivisionError.", "quantifier": "all conforming and non-conforming matrices of any size over the reals", "why_tests_cant": "sizes unbounded", "anchors": ["fluids/numerics/arrays.py:matrix_multiply,matrix_vector_dot,dot_product,eye,sum_matrix_rows,sum_matrix_cols,scalar_add_matrices,scalar_subtract_matrices,scalar_multiply_matrix,scalar_divide_matrix"]}
{"id": "C09", "title": "Explicit determinants equal the permutation expansion; 1x1 determinant", "statement": "det of a 2x2 to 5x5 matrix equals the Leibniz/cofactor determinant, is multiplicative and zero exactly for singular matrices for sizes 2 and 3, and is 1 on the identity; det of a 1x1 matrix should be its entry (the code returns the row list instead, refuted).", "quantifier": "all real matrices of those sizes", "why_tests_cant": "universal polynomial identity", "anchors": ["fluids/numerics/arrays.py:det"]}
{"id": "C10", "title": "inv returns a two-sided inverse", "statement": "For every square matrix, inv returns X with A X = X A = I when A is regular (through the closed forms or LU, whichever the size and determinant select) and raises ValueError (ZeroDivisionError for 1x1) when A is singular; inv(inv(A)) = A.", "quantifier": "all square real matrices of every size", "why_tests_cant": "universal identity", "anchors": ["fluids/numerics/arrays.py:inv"]}
{"id": "C11", "title": "solve and the direct small solvers return a solution of the linear system", "statement": "solve(A,b) returns the unique x with A x = b for every regular A of any size and raises ValueError for every singular A; solve_2_direct, solve_3_direct, solve_4_direct return x with A x = b whenever they return (and may raise ZeroDivisionError on an invertible system: refuted completeness).", "quantifier": "all square real systems of every size; all 2x2, 3x3, 4x4 systems for the direct solvers", "why_tests_cant": "universal identity", "anchors": ["fluids/numerics/arrays.py:solve", "fluids/numerics/__init__.py:solve_2_direct,solve_3_direct,solve_4_direct"]}
{"id": "C12", "title": "LU factorisation with pivoting solves every nonsingular system", "statement": "lu returns P, L, U with P*A = L*U, L unit lower triangular, U upper triangular; solve_LU_decomposition(A,b) returns x with A x = b, and raises only when elimination meets a column with no nonzero pivot, in which case A is singular.", "quantifier": "all square real matrices of every size", "why_tests_cant": "unbounded size; loop invariants over three nested loops", "anchors": ["fluids/numerics/arrays.py:inplace_LU,solve_from_lu,solve_LU_decomposition,lu"]}
{"id": "C13", "title": "Tridiagonal solver solves the tridiagonal system", "statement": "solve_tridiagonal(a,b,c,d) returns x satisfying every row of the tridiagonal system whenever every leading principal minor is non-zero (in particular for every strictly diagonally dominant matrix), otherwise raises ZeroDivisionError; array_as_tridiagonals and tridiagonals_as_array are mutually inverse on tridiagonal matrices.", "quantifier": "all lengths and all real bands", "why_tests_cant": "unbounded size", "anchors": ["fluids/numerics/arrays.py:solve_tridiagonal,array_as_tridiagonals,tridiagonals_as_array"]}
{"id": "C14", "title": "argsort1d and sort_paired_lists sort stably without losing data", "statement": "argsort1d returns a permutation of the indices that puts the values in ascending order with ties in original order; sort_paired_lists applies the same permutation to the second list, so pairs are preserved.", "quantifier": "all lists of any length", "why_tests_cant": "unbounded", "anchors": ["fluids/numerics/arrays.py:argsort1d,sort_paired_lists"]}
{"id": "C15", "title": "binary_search brackets the key", "statement": "binary_search(key, arr) on a nondecreasing array returns an index j with arr[j] <= key < arr[j+1] when arr[0] <= key < arr[-1], len(arr)-1 for the last key, len(arr) above and -1 below, and always terminates.", "quantifier": "all nondecreasing arrays of any length and all keys", "why_tests_cant": "unbounded arrays; termination", "anchors": ["fluids/numerics/__init__.py:binary_search"]}
{"id": "C16", "title": "interp is bounded by the data, exact at the nodes and clamps outside", "statement": "interp(x, dx, dy) returns dy[i] at x = dx[i], a convex combination of the two neighbouring ordinates in between (hence within [min dy, max dy]), and the left/right value outside the table; it is nondecreasing if dy is.", "quantifier": "all strictly increasing abscissae lists of any length, all x", "why_tests_cant": "unbounded tables", "anchors": ["fluids/numerics/__init__.py:interp,interp2d_linear"]}
{"id": "C17", "title": "linspace, cumsum, diff and cumulative_trapezoid agree with their definitions", "statement": "linspace has num equally spaced points starting at start and (endpoint=True) ending at stop; diff(cumsum(x)) recovers x[1:], product/cumsum agree with folds; cumulative_trapezoid is exact for affine integrands.", "quantifier": "all lists and all num", "why_tests_cant": "unbounded sizes", "anchors": ["fluids/numerics/__init__.py:linspace,cumsum,diff,product,cumulative_trapezoid"]}
{"id": "C18", "title": "bisect returns a point in the bracket with a sign change within tolerance, or raises", "statement": "bisect(f,a,b) returns an exact zero or a point of the bracket next to a sign change of width d < xtol + rtol*d (with |f| within ytol when given); it never calls f outside the bracket; it raises ValueError exactly when f(a)f(b)>0 and otherwise only UnconvergedError, which cannot happen when |b-a| < 2^maxiter*xtol; for continuous f a root lies that close.", "quantifier": "all functions f (continuous or not), all brackets, tolerances, iteration limits", "why_tests_cant": "quantifies over functions and over all iterations", "anchors": ["fluids/numerics/__init__.py:bisect"]}
{"id": "C19", "title": "brenth and ridder keep the bracket and converge", "statement": "brenth without ytol, and ridder with an initial tolerance of at most twice the bracket width, evaluate f only inside the bracket and return a point there which is a zero or next to a sign change within the tolerance; the only errors are the not-bracketed error (same strict signs) and UnconvergedError; brenth converges within (3m+1)(2m+1) iterations for a bracket of width at most 2^m*xtol/2. Refuted: brenth with ytol, and ridder with a wider tolerance, can leave the bracket.", "quantifier": "all functions f, all brackets, tolerances and iteration limits", "why_tests_cant": "quantifies over functions and iteration histories", "anchors": ["fluids/numerics/__init__.py:brenth,ridder"]}
{"id": "C20", "title": "secant and newton respect their bounds and solve what they should", "statement": "With low/high given and a start inside, secant evaluates f only inside the bounds and returns a point inside (newton: the start or a point inside); with bisection and a sign change everything happens between the starting points; with require_eval and ytol the returned point meets ytol; affine functions are solved exactly; newton on a convex increasing function stays between the root and the start and raises only UnconvergedError. Refuted: maxiter=0 and additional_guesses (secant), additional_guesses with bisection, decreasing functions with bisection (every step is then a halving step), fprime2 and stopping at a bound (newton).", "quantifier": "all f, derivatives, starting points, bounds, damping factors, maxiter", "why_tests_cant": "quantifies over functions and iteration histories", "anchors": ["fluids/numerics/__init__.py:secant,newton"]}
{"id": "C21", "title": "fixed_point reports convergence only when the tolerance was met", "statement": "Whatever fixed_point returns is at most one step from a point at which the residual was evaluated and met every given tolerance; other outcomes are UnconvergedError, or ValueError when require_progress is set; if x - f(x) is a contraction with constant L it succeeds once L^(maxiter-1) times the first residual is below ytol, and then the residual at the returned point is below ytol; when it gives up, all maxiter steps were made and the residual at the last point misses a tolerance. Refuted: without contraction the residual at the returned point need not meet the tolerance.", "quantifier": "all maps f on vectors of any length, all tolerances, dampings, maxiter", "why_tests_cant": "quantifies over functions", "anchors": ["fluids/numerics/__init__.py:fixed_point"]}
{"id": "C22", "title": "Chebyshev evaluation, derivative and integral", "statement": "chebval(x,c) is the Clenshaw sum of c_k T_k(x); chebder returns the coefficients of the derivative; chebint those of an antiderivative that equals the lower-bound constant at lbnd.", "quantifier": "all coefficient lists, all x", "why_tests_cant": "unbounded degree", "anchors": ["fluids/numerics/__init__.py:chebval,chebder,chebint,chebval_ln_tau,exp_cheb,exp_cheb_ln_tau and their derivative variants"]}
{"id": "C23", "title": "normalize, mean and std", "statement": "normalize(values) sums to one and preserves ratios (raising ZeroDivisionError or dividing equally when the sum is zero as coded); mean lies between min and max; std is the population standard deviation, zero exactly for constant data; detect_outlier_normal returns exactly the indices further than cutoff standard deviations from the mean.", "quantifier": "all lists", "why_tests_cant": "unbounded sizes", "anchors": ["fluids/numerics/__init__.py:normalize,mean,std,detect_outlier_normal"]}
{"id": "C24", "title": "translate_bound_func maps into and back from the bounds", "statement": "The pair of translation functions made by translate_bound_func are mutually inverse between the open box and the unbounded space, the image always lies strictly inside the bounds, and the wrapped function receives exactly the translated point.", "quantifier": "all bound lists of any length, all points", "why_tests_cant": "continuum", "anchors": ["fluids/numerics/__init__.py:translate_bound_func,translate_bound_jac,translate_bound_f_jac"]}
{"id": "C25", "title": "caching_decorator returns what the function returned first for that key", "statement": "After any sequence of calls, each returned value equals f evaluated once at that x; f is not called twice for the same x; full result/flag switching is respected (refuted where a later call asks for information that was not cached).", "quantifier": "all call histories", "why_tests_cant": "histories", "anchors": ["fluids/numerics/__init__.py:caching_decorator"]}
{"id": "C26", "title": "OscillationChecker detects only genuine oscillation", "statement": "The checker flags a call exactly when residuals of both signs occurred at least twice and the last relative change on one side (or both) is below the minimum progress while the residuals are not yet good; one-signed histories and histories shrinking by the progress factor on each side are never flagged; no call fails.", "quantifier": "all histories of (x,y) observations", "why_tests_cant": "histories", "anchors": ["fluids/numerics/__init__.py:OscillationChecker"]}
{"id": "C27", "title": "Nelder-Mead never returns a point worse than the start", "statement": "nelder_mead returns (x, f) with f(x) equal to the reported value and not larger than f at the initial point within maxiter iterations, for every objective; with bounds the result stays inside when the initial simplex is inside (refuted in general: the perturbed initial simplex is not clipped).", "quantifier": "all objectives, dimensions, bounds, iteration limits", "why_tests_cant": "quantifies over functions and histories", "anchors": ["fluids/numerics/__init__.py:nelder_mead"]}
{"id": "C28", "title": "Adaptive quadrature is additive, linear and bounded in depth", "statement": "quad_adaptive evaluates f only inside [a,b], always returns, its area is the sum of rule values over panels exactly covering [a,b], and it is exact whenever the rule is exact for the integrand; refuted: the reported error may be negative, and an area of exactly zero is accepted whatever the error estimate.", "quantifier": "all integrands, all intervals", "why_tests_cant": "functions", "anchors": ["fluids/numerics/__init__.py:quad_adaptive,fixed_quad_Gauss_Kronrod"]}
{"id": "C29", "title": "Bound clipping and damping maintain constraints", "statement": "bounds_clip_naive returns a point within the given bounds, unchanged if already inside (refuted: low=None raises TypeError); damping_maintain_sign returns a point keeping every component's sign and takes the plain damped step when that already does; make_damp_initial and make_max_step_initial damp/limit exactly the first n calls.", "quantifier": "all vectors and bounds", "why_tests_cant": "unbounded dimension", "anchors": ["fluids/numerics/__init__.py:bounds_clip_naive,damping_maintain_sign,make_damp_initial,make_max_step_initial"]}
{"id": "C30", "title": "fixed_point_to_residual and residual_to_fixed_point are inverse", "statement": "Converting a fixed-point difference function to a residual and back gives the same function; the residual is thing - x and vanishes exactly at fixed points.", "quantifier": "all functions on vectors", "why_tests_cant": "functions", "anchors": ["fluids/numerics/__init__.py:fixed_point_to_residual,residual_to_fixed_point"]}
{"id": "C31", "title": "nearest_pipe returns the smallest adequate standard pipe", "statement": "nearest_pipe with an inner (or outer) diameter returns the row of the chosen schedule with the smallest such diameter not below the request, raises ValueError exactly if none is large enough or the schedule is unknown, and with NPS returns exactly that row; a larger request never gives a smaller pipe; every row's outer diameter is its inner diameter plus two walls and every row is found again from its own diameters (in exact arithmetic). Refuted: a call without any size fails on an unset variable; in binary64 a row's own returned diameter can give the next larger pipe.", "quantifier": "every real request and every schedule", "why_tests_cant": "continuum of requests times tables", "anchors": ["fluids/piping.py:nearest_pipe"]}
{"id": "C32", "title": "gauge_from_t and t_from_gauge round trip", "statement": "Every gauge of every schedule round-trips in inches and metres; for a thickness within the schedule the result is the thinnest gauge not thinner than it, or the next thinner one if it exceeds that by at most a tenth of the step; a thickness above all gauges raises ValueError (exactly then); unknown schedules and gauges raise ValueError. Refuted: below the smallest thickness the call returns that thickness, which is not a gauge.", "quantifier": "every thickness and schedule", "why_tests_cant": "continuum", "anchors": ["fluids/piping.py:gauge_from_t,t_from_gauge"]}
{"id": "C33", "title": "motor_round_size returns the smallest NEMA size not below the request", "statement": "The returned size is a NEMA size, at least P, and no smaller NEMA size is at least P; ValueError exactly when P exceeds the largest; idempotent and monotone.", "quantifier": "every real power", "why_tests_cant": "continuum", "anchors": ["fluids/pump.py:motor_round_size"]}
{"id": "C34", "title": "API520_round_size returns the smallest standard orifice not below the request", "statement": "The returned area is an API 526 orifice area, at least A, and no smaller one is at least A; ValueError exactly when A exceeds the largest.", "quantifier": "every real area", "why_tests_cant": "continuum", "anchors": ["fluids/safety_valve.py:API520_round_size"]}
{"id": "C35", "title": "Motor efficiency lookup", "statement": "For 2, 4, 6 poles (and 8 poles for standard efficiency) CSA_motor_efficiency returns an efficiency within [0.74, 0.962], nondecreasing in power, equal to the table at tabulated sizes; up to 200 hp the high-efficiency figure is at least the standard one. Refuted: above 200 hp it can be lower; all other pole numbers fail on an unset variable.", "quantifier": "all P, closed/open, poles, high_efficiency", "why_tests_cant": "combinatorial times continuum", "anchors": ["fluids/pump.py:CSA_motor_efficiency"]}
{"id": "C36", "title": "VFD and underloaded motor efficiency", "statement": "VFD_efficiency is within [0.31, 0.97] for every power and load, nondecreasing in load, clamped outside the table and equal to the table at its nodes; motor_efficiency_underloaded is within [0.0154, 1+4e-10] for every load from 0, is 1 for loads from 0.93 and never falls by more than 4e-7 (4e-10 up to 60 hp) as the load rises. Refuted: VFD efficiency nondecreasing in power; the underloaded fraction at most 1, exactly monotone.", "quantifier": "all P, load", "why_tests_cant": "continuum", "anchors": ["fluids/pump.py:VFD_efficiency,motor_efficiency_underloaded"]}
{"id": "C37", "title": "API520 correction factors", "statement": "API520_N is 1 up to 10339 kPa and within [0.995, 1.2] and increasing up to 22057 kPa; API520_SH exists exactly for the documented temperatures, editions and pressures, is within [0.62, 1], 1 for low temperature and nonincreasing in temperature; API520_B exists exactly for overpressures 0.1, 0.16, 0.21 and back pressure up to 50 %, is within [0.695, 1], nonincreasing in back pressure, nondecreasing in overpressure; API520_W is within [0.666, 1], 1 up to 15 %, nonincreasing. Refuted: API520_N drops below 1 just above its threshold and has an unguarded pole; the 10E pressure limit is not checked below 478.15 K; a set pressure equal to atmospheric divides by zero; API520_W accepts back pressures above its table.", "quantifier": "all pressures and temperatures", "why_tests_cant": "continuum", "anchors": ["fluids/safety_valve.py:API520_B,API520_N,API520_SH,API520_W"]}
{"id": "C38", "title": "friction_factor: dispatch, laminar limit and positivity of every correlation", "statement": "friction_factor returns 64/Re for every nonzero Re below 2040 whatever the roughness and method (ZeroDivisionError at 0); above, an unknown method raises ValueError, no method means Clamond, Darcy=False divides by four; every method offered by friction_factor_methods at (Re, eD) with eD up to 0.05 evaluates without error to a positive friction factor. Refuted for three offered methods: Rao_Kumar_2007 divides by zero in smooth pipe, Papaevangelo_2010 is positive up to Re=1.4e6 and negative from 1.41e6 on although offered up to 1e7, Serghides_1 divides by zero where its start value is the fixed point.", "quantifier": "all Re from 2040, all eD in [0, 0.05], all method names", "why_tests_cant": "continuum times all strings", "anchors": ["fluids/friction.py:friction_factor,friction_factor_methods"]}
{"id": "C39", "title": "friction_factor_curved: dispatch, positivity and laminar bounds", "statement": "Every documented method of friction_factor_curved evaluates to a positive value for every positive Re, tube and coil diameter, relative roughness up to 0.05 and every documented critical Reynolds number method; unknown names raise ValueError; without a method the turbulent method is used exactly from the critical Reynolds number on; Darcy=False divides by four; the three laminar correlations are never below the straight tube value and the piecewise ones do not jump; the methods listed are documented methods.", "quantifier": "all Re, geometry, methods", "why_tests_cant": "continuum times strings", "anchors": ["fluids/friction.py:friction_factor_curved,friction_factor_curved_methods,helical_Re_crit"]}
{"id": "C40", "title": "material_roughness and roughness_Farshad", "statement": "material_roughness returns a positive roughness for every name (known or not), diameter and optimism flag, provided the fuzzy search returns one of the names searched; for every tabulated material but one optimism=True gives at most the default and optimism=False at least it (refuted for the entry whose average lies below its minimum); roughness_Farshad returns the average, or Farshad's power law in inches. Refuted: an unknown identifier in roughness_Farshad fails on an unset variable.", "quantifier": "all names, diameters, optimism flags", "why_tests_cant": "all strings times a table", "anchors": ["fluids/friction.py:material_roughness,roughness_Farshad"]}
{"id": "C41", "title": "Loss coefficient, head and pressure conversions are mutual inverses", "statement": "Converting a Darcy friction factor, an equivalent length ratio or a pipe length to a loss coefficient and back, and a head to a pressure and back, returns the starting value in both directions; the pressure loss from K equals the pressure of the head loss from K; a vanishing denominator raises ZeroDivisionError.", "quantifier": "all real inputs with non-zero denominators", "why_tests_cant": "The inverse laws range over a continuum of inputs in several variables.", "anchors": ["fluids/core.py:K_from_f,f_from_K,K_from_L_equiv,L_equiv_from_K,L_from_K,head_from_K,head_from_P,P_from_head,dP_from_K"]}
{"id": "C42", "title": "Temperature conversions form a groupoid", "statement": "Every conversion between Celsius, Kelvin, Fahrenheit and Rankine preserves the thermodynamic temperature; any chain of conversions, of any length, equals the direct conversion; every conversion round-trips and preserves order.", "quantifier": "all real temperatures, all pairs of scales and all finite paths of conversions", "why_tests_cant": "Path lengths are unbounded and temperatures range over a continuum.", "anchors": ["fluids/core.py:C2K,K2C,F2C,C2F,F2K,K2F,C2R,K2R,F2R,R2C,R2K,R2F"]}
{"id": "C43", "title": "nu_mu_converter", "statement": "nu_mu_converter inverts itself, satisfies nu rho = mu, and raises ValueError when neither or both of mu and nu are given.", "quantifier": "all reals with rho non-zero", "why_tests_cant": "Continuum of inputs.", "anchors": ["fluids/core.py:nu_mu_converter"]}
{"id": "C44", "title": "Compression work: solve-for-missing branches agree, and thermodynamic relations", "statement": "Whichever of W, P1, P2, eta is omitted from isentropic_work_compression, the omitted value is returned; the work equals the enthalpy rise to the discharge temperature of isentropic_T_rise_compression; isothermal work is additive over stages and never exceeds the ideal adiabatic work; anything but exactly one omitted quantity raises ValueError.", "quantifier": "all positive temperatures, pressures, efficiencies and heat capacity ratios k <> 1", "why_tests_cant": "Continuum of inputs in seven variables and an inequality between two functions.", "anchors": ["fluids/compressible.py:isentropic_work_compression,isothermal_work_compression,isentropic_T_rise_compression"]}
{"id": "C45", "title": "Isentropic and polytropic efficiency conversions are inverse", "statement": "isentropic_efficiency and polytropic_exponent invert themselves in their two modes; in compression the isentropic efficiency is below the polytropic one and equal only at 1; bad argument combinations raise ValueError.", "quantifier": "all pressures 0 < P1 < P2, k > 1, efficiencies > 0", "why_tests_cant": "Continuum of inputs.", "anchors": ["fluids/compressible.py:isentropic_efficiency,polytropic_exponent"]}
{"id": "C46", "title": "Stagnation and critical-flow states are consistent", "statement": "P_stagnation and T_stagnation invert each other; the critical temperature and pressure are the isentropic state at the speed of sound; is_critical_flow compares the outlet pressure with P_critical_flow; stagnation values are never below static ones.", "quantifier": "all positive states, k > 1", "why_tests_cant": "Continuum of inputs.", "anchors": ["fluids/compressible.py:P_stagnation,T_stagnation,T_stagnation_ideal,T_critical_flow,P_critical_flow,is_critical_flow"]}
{"id": "C47", "title": "isothermal_gas: all five unknowns are consistent, choking is reported", "statement": "The mass flow is refused with ValueError outside [Pcritical, P1] and strictly decreasing in P2 inside; the length request inverts it; the outlet pressure request is answered in closed form with exactly the requested flow whenever it is at most the choked flow, and raises ValueError beyond; inlet pressure and diameter answers carry the requested flow; the two critical pressures invert each other; a wrong number of omitted quantities raises ValueError.", "quantifier": "all positive densities, friction factors, pressures, lengths, diameters and flows", "why_tests_cant": "Involves a transcendental equation over a continuum of inputs and the behaviour at its turning point.", "anchors": ["fluids/compressible.py:isothermal_gas,P_isothermal_critical_flow,P_upstream_isothermal_critical_flow"]}
{"id": "C48", "title": "Gas pipeline equations: five-way solve-for-missing", "statement": "For Panhandle A/B, Weymouth, Fritzsche, Muller and IGT: solving for any one of Q, D, P1, P2, L of the published equation returns it, every request with positive data is answered by a state with exactly that flow, and an outlet pressure is refused with ValueError exactly when even a vacuum would not give the flow. For Spitzglass high/low and Oliphant the explicit modes do the same, and an iterated diameter carries the requested flow and is the only one. Fewer or more unknowns raise ValueError.", "quantifier": "all positive inputs with 0 <= P2 < P1", "why_tests_cant": "Continuum of inputs in eleven variables; irrational exponents.", "anchors": ["fluids/compressible.py:Panhandle_A,Panhandle_B,Weymouth,Spitzglass_high,Spitzglass_low,Oliphant,Fritzsche,Muller,IGT"]}
{"id": "C49", "title": "Choke pressures bound choking exactly and invert", "statement": "The choke pressure from control_valve_choke_P_l/_g is the boundary of is_choked_turbulent_*: choked exactly when the outlet pressure is at or below it; solving for P1 and for P2 are inverse, with and without checking; with checking on, the inlet pressures refused are exactly those at which choking is impossible; both or neither pressure raises ValueError; FF lies in [0.68, 0.96]; choking is monotone in the drop.", "quantifier": "all saturation/critical pressures, recovery factors and pressures", "why_tests_cant": "A boundary between two functions over a continuum of inputs.", "anchors": ["fluids/control_valve.py:control_valve_choke_P_l,control_valve_choke_P_g,is_choked_turbulent_l,is_choked_turbulent_g,FF_critical_pressure_ratio_l"]}
{"id": "C50", "title": "Flow coefficient conversions are a consistent groupoid", "statement": "convert_flow_coefficient between Kv, Cv, Av is multiplication by a fixed unit ratio, so it round-trips and composes; any other scale name raises NotImplementedError; Kv_to_K/K_to_Kv, Cv_to_K/K_to_Cv, Cv_to_Kv/Kv_to_Cv are inverse pairs and a larger Kv is a smaller K.", "quantifier": "all reals, all strings as scale names", "why_tests_cant": "Continuum of values and all strings.", "anchors": ["fluids/control_valve.py:convert_flow_coefficient", "fluids/fittings.py:Kv_to_Cv,Cv_to_Kv,Kv_to_K,K_to_Kv,K_to_Cv,Cv_to_K"]}
{"id": "C51", "title": "Changing the diameter basis of a loss coefficient keeps the pressure drop", "statement": "change_K_basis(K1, D1, D2) gives the same pressure drop at every flow and density; it composes, inverts, is the identity at D1 = D2, and a zero D1 raises ZeroDivisionError.", "quantifier": "all positive diameters, all K, densities and flows", "why_tests_cant": "Quantifies over flows that are not inputs of the function.", "anchors": ["fluids/fittings.py:change_K_basis"]}
{"id": "C52", "title": "Two-K and three-K fittings", "statement": "Hooper2K and Darby3K give, for every fitting in their tables, a positive loss coefficient equal to the published formula with that fitting's constants, the same as when the constants are passed directly (a name takes precedence over constants); it decreases strictly with the Reynolds number and never grows with the size. Unknown names and incomplete constants raise ValueError, zero size or Reynolds number ZeroDivisionError. For Darby3K an inside diameter may replace the nominal size: it stands for exactly the tabulated nominal size at each schedule 40 diameter.", "quantifier": "all table entries, all names, all positive sizes and Reynolds numbers", "why_tests_cant": "Continuum of inputs and all strings as names.", "anchors": ["fluids/fittings.py:Darby3K,Hooper2K,Hooper,Darby"]}
{"id": "C53", "title": "Partly filled spheres and vertical vessels hold exactly the volume below the level", "statement": "V_partial_sphere, A_partial_circle, V_vertical_conical/_ellipsoidal/_spherical/_torispherical and the four concave versions return the integral of the horizontal cross section up to the liquid level (levels outside the shape are clamped or continued into the cylinder); they are 0 when empty, never decrease with the level, and reach the textbook full volumes; SA_partial_sphere is pi*D*h; a_torispherical is the height at which the torispherical section reaches the full vessel, and dish and knuckle meet there without a jump.", "quantifier": "all positive dimensions, all levels, dish and knuckle factors with 0 < k <= 1/2 <= f", "why_tests_cant": "An integral over a continuum of sections; no finite set of levels determines it.", "anchors": ["fluids/geometry.py:V_partial_sphere,SA_partial_sphere,A_partial_circle,V_vertical_conical,V_vertical_ellipsoidal,V_vertical_spherical,V_vertical_torispherical,V_vertical_conical_concave,V_vertical_ellipsoidal_concave,V_vertical_spherical_concave,V_vertical_torispherical_concave,a_torispherical,SA_partial_cylindrical_body"]}
{"id": "C54", "title": "Any two of angle, pitch, parallel and normal pitch give the others", "statement": "pitch_angle_solver: for every layout angle between 0 and 90 degrees and every positive pitch, each of the six pairs of quantities returns the same four values; every answer contains the given values and satisfies normal = pitch*sin(angle), parallel = pitch*cos(angle), pitch^2 = parallel^2 + normal^2; fewer than two quantities raise ValueError.", "quantifier": "all angles, all positive pitches; for the consistency part all reals", "why_tests_cant": "Continuum of triangles.", "anchors": ["fluids/geometry.py:pitch_angle_solver"]}
{"id": "C55", "title": "Orifice plates: coefficient, loss and flow rate describe one device", "statement": "discharge_coefficient_to_K and K_to_discharge_coefficient invert each other exactly; the permanent loss dP_orifice is a proper fraction of the measured difference and equals K velocity heads of the very flow rate flow_meter_discharge predicts; that flow rate is C eps times the ideal discharge, grows with the pressure difference and doubles when it quadruples; back-flow and a bore as wide as the pipe are refused.", "quantifier": "all bores smaller than the pipe, all positive discharge coefficients, all pressures with P2 <= P1", "why_tests_cant": "Equalities between independently written formulas over a continuum of sizes, coefficients and pressures.", "anchors": ["fluids/flow_meter.py:discharge_coefficient_to_K,K_to_discharge_coefficient,dP_orifice,flow_meter_discharge,velocity_of_approach_factor,flow_coefficient"]}
{"id": "C56", "title": "Every meter name is dispatched, with the right area and loss", "statement": "For each of the 28 names in all_meters the diameter ratio lies strictly between 0 and 1 and its square is the open fraction of the pipe area (round hole, ring around a cone, segment under a wedge); flow_meter_discharge is C eps times the ideal flow through that area; other names raise ValueError in all four functions; the short names mean the ISO meters; a C or epsilon given by the caller replaces the computed one and nothing else; permanent losses are proper fractions of the measured difference for plates, nozzles and venturi tubes, and for cones and wedges exactly when the diameter ratio is not small.", "quantifier": "all strings, all sizes 0 < D2 < D, all pressures", "why_tests_cant": "Quantifies over all strings and a continuum of sizes; areas are integrals.", "anchors": ["fluids/flow_meter.py:differential_pressure_meter_beta,differential_pressure_meter_C_epsilon,differential_pressure_meter_dP,diameter_ratio_cone_meter,diameter_ratio_wedge_meter,dP_venturi_tube,all_meters"]}
{"id": "C57", "title": "Open channels and weirs", "statement": "n_Manning_to_C_Chezy and C_Chezy_to_n_Manning invert each other; V_Manning = V_Chezy with the converted coefficient; steeper, larger, smoother channels are faster and every row of the roughness tables gives its three velocities in that order; the weir formulas give a discharge that is never negative, strictly increasing in the head, proportional to the channel width (full-width weirs).", "quantifier": "all non-zero coefficients, positive radii, slopes, heads and widths; every table row; every notch angle", "why_tests_cant": "continuum of inputs", "anchors": ["fluids/open_flow.py:V_Manning,V_Chezy,n_Manning_to_C_Chezy,C_Chezy_to_n_Manning,n_dicts,Q_weir_V_Shen,Q_weir_rectangular_Kindsvater_Carter,Q_weir_rectangular_SIA,Q_weir_rectangular_full_Ackers,Q_weir_rectangular_full_SIA,Q_weir_rectangular_full_Rehbock,Q_weir_rectangular_full_Kindsvater_Carter"]}
{"id": "C58", "title": "Drag coefficient of a sphere and terminal velocity", "statement": "Every method drag_sphere_methods lists for a Reynolds number is accepted there and gives a positive coefficient, unlisted names raise ValueError; without a method the coefficient is 24/Re below 0.01, Barati above 0.1, a blend between, continuous everywhere except for a step below 1e-8 at the switch to Barati_high; the velocity v_terminal returns for a sinking sphere balances drag against weight and buoyancy.", "quantifier": "all positive Reynolds numbers, all strings; all diameters, densities, viscosities", "why_tests_cant": "continuum; continuity", "anchors": ["fluids/drag.py:drag_sphere,drag_sphere_methods,v_terminal,_v_terminal_err"]}
{"id": "C59", "title": "Trajectories of spheres", "statement": "The closed-form branch of integrate_drag_sphere returns the solution of Newton's law with Stokes' drag, composes over consecutive time steps, approaches the terminal velocity without overshooting; time_v_terminal_Stokes returns the time at which that solution is within tol of the terminal velocity; beyond the range of exp the answer is exact to 1e-9; otherwise the integrator is given Newton's law with the coefficient of the current speed, with zero acceleration at v_terminal.", "quantifier": "all times, speeds, diameters, densities and viscosities", "why_tests_cant": "differential equation over a continuum", "anchors": ["fluids/drag.py:integrate_drag_sphere,time_v_terminal_Stokes"]}
{"id": "C60", "title": "Standard atmosphere", "statement": "For every altitude above the centre of the earth ATMOSPHERE_1976 has positive temperature, pressure, density, sound speed, viscosity, conductivity and gravity; the temperature is the published piecewise linear profile and continuous across all layer boundaries; the pressure obeys hydrostatic balance with the reported gravity and density between boundaries, and never rises with altitude beyond the rounding of the tables; a temperature correction shifts only the temperature and what follows from it; density obeys the ideal gas law; pressure_integral from a standard state is the difference of the standard pressures across any number of layers and smaller for warmer air; airmass at the zenith is the density integral and grows as the line of sight is lowered.", "quantifier": "all altitudes, corrections, pressures, angles, density profiles; all solvers that only return roots; exact quadrature", "why_tests_cant": "A differential equation and integrals across eight layers over a continuum of altitudes.", "anchors": ["fluids/atmosphere.py:ATMOSPHERE_1976,airmass,to_int_airmass"]}
{"id": "C61", "title": "Factorial, binomial coefficient and hypot fallbacks", "statement": "py_factorial(n) is n! for n>=0 and raises ValueError for n<0; py_comb(n,k) is the binomial coefficient (the integer division is always exact), 0 outside range; py_hypot(x,y) is sqrt(x^2+y^2) and never fails.", "quantifier": "all integers n, k; all reals x, y", "why_tests_cant": "unbounded integers, continuum", "anchors": ["fluids/numerics/special.py:py_factorial,py_comb,py_hypot"]}
{"id": "C62", "title": "subset_matrix selects the requested rows and columns", "statement": "subset_matrix(M, l) has entry (p,q) equal to M[l[p]][l[q]]; selecting all indices in order returns the matrix unchanged.", "quantifier": "all matrices and index lists (repeated and unordered indices included)", "why_tests_cant": "unbounded sizes", "anchors": ["fluids/numerics/arrays.py:subset_matrix"]}
{"id": "C63", "title": "The built-in Gauss-Kronrod table integrates polynomials", "statement": "fixed_quad_Gauss_Kronrod with the module's 21-point table integrates every polynomial of degree at most 31 over every interval to within |b-a|*1e-15 times the sum of its (scaled) coefficients; an exact rule makes quad_adaptive exact for affine integrands.", "quantifier": "all polynomials of degree <= 31, all intervals", "why_tests_cant": "a continuum of integrands and intervals; the tabulated constants", "anchors": ["fluids/numerics/__init__.py:fixed_quad_Gauss_Kronrod,quad_adaptive,kronrod_points,kronrod_weights"]}
{"id": "C64", "title": "best_bounding_bounds returns a bracket made of sampled points", "statement": "When best_bounding_bounds(low, high, f, history) returns, both reported values are f at the reported ends, the values have opposite signs (or one is zero), and each end is an original end or a sampled point. Refuted: it may use an unbound local name, may return a worse bracket than the given one, and may raise although the samples contain a sign change.", "quantifier": "all functions and all sample histories", "why_tests_cant": "histories", "anchors": ["fluids/numerics/__init__.py:best_bounding_bounds"]}
{"id": "C65", "title": "Integrals and derivatives of fits with linear extrapolation", "statement": "fit_integral_linear_extrapolation is the integral of the piecewise function (line below Tmin, polynomial inside, line above Tmax) between any two temperatures in either order, equal to the difference of poly_fit_integral_value; likewise for the integral over T; evaluate_linear_fits(_d,_d2) are value, slope and curvature of the piecewise function off the limits.", "quantifier": "all coefficient lists, limits, slopes and temperatures", "why_tests_cant": "unbounded degree, continuum of limits", "anchors": ["fluids/numerics/__init__.py:fit_integral_linear_extrapolation,poly_fit_integral_value,fit_integral_over_T_linear_extrapolation,poly_fit_integral_over_T_value,evaluate_linear_fits,evaluate_linear_fits_d,evaluate_linear_fits_d2"]}
{"id": "C66", "title": "Error measures", "statement": "max_abs_error, max_squared_error, max_abs_rel_error, mean_abs_error, mean_squared_error, mean_abs_rel_error are the maximum/average of the named deviations; min_max_ratios bounds all ratios and 1 and attains its bounds. Refuted: the squared relative measures raise ZeroDivisionError for a zero datum.", "quantifier": "all data lists of any length", "why_tests_cant": "unbounded sizes", "anchors": ["fluids/numerics/__init__.py:max_abs_error,max_abs_rel_error,max_squared_error,max_squared_rel_error,mean_abs_error,mean_abs_rel_error,mean_squared_error,mean_squared_rel_error,min_max_ratios"]}
{"id": "C67", "title": "isclose, is_monotonic and is_increasing decide their definitions", "statement": "isclose(a,b,rel_tol,abs_tol) is true exactly when |a-b| <= max(rel_tol*max(|a|,|b|), abs_tol), is symmetric, and raises ValueError for negative tolerances; is_monotonic and is_increasing are true exactly for monotone / strictly increasing lists.", "quantifier": "all reals, all lists", "why_tests_cant": "unbounded sizes", "anchors": ["fluids/numerics/__init__.py:isclose,is_monotonic,is_increasing"]}
{"id": "C68", "title": "halley respects its bounds", "statement": "halley evaluates the function only at the start and inside low/high and returns such a point; with require_eval and ytol the returned point meets ytol. Refuted: a flat non-root can be returned, hitting a bound can raise TypeError, and the denominator of the step can vanish (ZeroDivisionError).", "quantifier": "all functions with two derivatives, starts, bounds, options, maxiter", "why_tests_cant": "quantifies over functions and iteration histories", "anchors": ["fluids/numerics/__init__.py:halley"]}
{"id": "C69", "title": "newton_system, newton_minimize and homotopy continuation", "statement": "For a function that never raises, newton_system returns only a point whose own residual meets every tolerance, with require_progress never one worse than the start, uses at most maxiter iterations, and raises only UnconvergedError (or ValueError with require_progress); a system for which one Newton step is exact is solved; newton_minimize returns only points whose gradient meets the tolerances; the first iteration of newton_minimize is the damped Newton step; the Armijo test is the published sufficient decrease condition; homotopy_function joins F-F(x0) to F, homotopy_solver returns only points whose own residual meets the terminal tolerance up to 1e-15 of the initial residual, predicts the next point exactly when the system is affine, ends for every behaviour of the inner solver within a number of passes set by the step and then raises only UnconvergedError. Refuted: newton_minimize with both tolerances stops as soon as one holds and then fails; functions raising during the line search (stale residual, unbound variable), Armijo test accepts an increase.", "quantifier": "all functions, Jacobians, linear solvers, options, dimensions", "why_tests_cant": "quantifies over functions and iteration histories", "anchors": ["fluids/numerics/__init__.py:newton_system,newton_minimize,homotopy_function,homotopy_solver"]}
{"id": "C70", "title": "broyden2 returns a solution or has used all iterations", "statement": "broyden2 returns (x, niter) with niter <= maxiter and either the 1-norm of f(x) is at most xtol or niter = maxiter; in one dimension the updated inverse Jacobian satisfies the secant equation; the first step is the quasi-Newton step with the inverse Jacobian. Refuted: the secant equation fails from two dimensions on (all entries are scaled by one number), and exhausting maxiter is not reported.", "quantifier": "all functions, dimensions, tolerances, maxiter", "why_tests_cant": "quantifies over functions and iteration histories", "anchors": ["fluids/numerics/__init__.py:broyden2"]}
{"id": "C71", "title": "Accelerated fixed-point solvers", "statement": "fixed_point_aitken and fixed_point_gdem return only results at most one (accelerated) step from a point whose residual met every given tolerance; the dominant eigenvalue step is exact on vector sequences s + c*r^k with 0<r<1. Refuted: it moves away from the limit of alternating sequences; the Aitken step is added to the wrong point so that it misses the limit of geometric sequences; accelerating at every iteration raises IndexError.", "quantifier": "all functions, vectors of any length, options", "why_tests_cant": "quantifies over functions and iteration histories", "anchors": ["fluids/numerics/__init__.py:fixed_point_aitken,fixed_point_gdem,aitken_delta_squared_accelerate,dem,gdem"]}
{"id": "C72", "title": "Spline evaluation is the B-spline combination and stays within its coefficients", "statement": "splev(x, t, c, k) inside the knot range is the sum of the coefficients times the Cox-de Boor basis functions, lies between the smallest and largest coefficient that acts at x, and reproduces constants everywhere; outside it clamps, is zero, raises or extrapolates according to ext; with degree one it is the line through the neighbouring points. bisplev stays within its coefficients, and the linear surface from tck_interp2d_linear is the bilinear interpolant, exact at every node and clamped outside.", "quantifier": "all knot vectors, coefficient lists, degrees and points", "why_tests_cant": "unbounded sizes and degrees, continuum of points", "anchors": ["fluids/numerics/__init__.py:splev,bisplev,tck_interp2d_linear"]}
{"id": "C73", "title": "Colebrook solves the Colebrook-White equation", "statement": "For every Re from 2040 and relative roughness in [0, 0.05] exactly one positive friction factor satisfies the Colebrook-White equation, and the value returned by method Colebrook differs from it by at most 2e-13 (ln Re + eD Re) in 1/sqrt(f).", "quantifier": "all Re, eD with eD*Re up to 1e13", "why_tests_cant": "continuum; the reference is only defined implicitly", "anchors": ["fluids/friction.py:Colebrook,friction_factor"]}
{"id": "C74", "title": "The default friction factor agrees with Colebrook-White", "statement": "For every Re from 2040 and eD in [0, 0.05] the default method returns a value whose 1/sqrt(f) is within 1e-13 (3 + ln Re) of the exact Colebrook-White solution; for Re up to 1e300 its relative error has the same bound; it therefore agrees with method Colebrook.", "quantifier": "all Re >= 2040, eD in [0, 0.05]", "why_tests_cant": "continuum; the reference is only defined implicitly", "anchors": ["fluids/friction.py:Clamond,friction_factor"]}
{"id": "C75", "title": "Friction factors rise with roughness and fall with Re", "statement": "For eight explicit methods the friction factor is strictly smaller for the larger Re and the smaller roughness (either strictly), and so is the exact Colebrook-White solution; the default method is monotone up to twice its error bound. Refuted for Tsal_1989, which jumps upwards between its branches.", "quantifier": "all pairs of operating points with Re >= 2040, eD in [0, 0.05]", "why_tests_cant": "pairs of points of a continuum", "anchors": ["fluids/friction.py:friction_factor"]}
{"id": "C76", "title": "Dimensionless groups satisfy the relations between them", "statement": "The groups give the same value from every admissible set of arguments (rho, mu or nu; rho, Cp, k or alpha) and satisfy Pe = Re Pr, Pe_m = Re Sc, Gz = Pe D/x, Le = Sc/Pr, St = Nu/(Re Pr), We = Re Ca, Oh = sqrt(We)/Re, Su = 1/Oh^2, Co^2 Bo = 1 and Ra = Gr Pr; missing data raise ValueError.", "quantifier": "all positive properties and dimensions", "why_tests_cant": "The relations connect several functions over a continuum of inputs.", "anchors": ["fluids/core.py:Reynolds,Peclet_heat,Peclet_mass,Fourier_heat,Graetz_heat,Schmidt,Lewis,Weber,Prandtl,Rayleigh,Froude,Nusselt,Bond,Confinement,Stanton,Capillary,Ohnesorge,Suratman,thermal_diffusivity"]}
{"id": "C77", "title": "Control valve sizing delivers the requested flow", "statement": "size_control_valve_l/_g without diameters return the Kv that carries exactly the requested flow under the choking-limited drop, and never a larger one for a lower outlet pressure; with reducers the returned Kv carries between 99 % and 100 % of it with its own piping factors; the laminar correction always terminates and its Kv, derated by its own Reynolds factor, still exceeds the turbulent requirement; some but not all diameters raise ValueError.", "quantifier": "all positive fluid data, pressures, flows and diameters (reducers of non-negative total loss)", "why_tests_cant": "A fixed-point iteration, an unbounded recursion and an implicit equation over a continuum of inputs.", "anchors": ["fluids/control_valve.py:size_control_valve_l,size_control_valve_g,Reynolds_valve,Reynolds_factor,loss_coefficient_piping"]}
{"id": "C78", "title": "Contractions, diffusers and bends", "statement": "The sudden expansion loses exactly half the square of the velocity difference at every flow; the sudden contraction loses between 0 and 0.571 heads, nothing only without contraction, more for smaller outlets; zero rounding and zero bevel reproduce it and rounding up to one diameter never costs more; cone angle and cone length are interchangeable for every method of conical contractions and diffusers; bend radius and bend diameters are interchangeable; mitre bend losses grow with the angle; charts are clamped to non-negative values; unlisted methods raise ValueError.", "quantifier": "all positive diameters, angles, lengths, flows; all strings as method", "why_tests_cant": "Continuum of geometries; equalities between differently parameterised calls.", "anchors": ["fluids/fittings.py:diffuser_sharp,contraction_sharp,contraction_round,contraction_beveled,contraction_conical,diffuser_conical,contraction_conical_Crane,diffuser_conical_Crane,bend_rounded,bend_miter"]}
{"id": "C79", "title": "Crane valves and fittings", "statement": "Crane_loss_coefficient accepts exactly the listed fittings; at line size each has its published multiple of the friction factor whatever the angle; a valve smaller than the pipe never has less resistance than at line size; leaving out the friction factor uses that of the pipe.", "quantifier": "all fittings, all positive diameters and friction factors, reducer angles in (0, 180]", "why_tests_cant": "Continuum of diameters and angles over 28 fittings, and all strings as names.", "anchors": ["fluids/fittings.py:Crane_loss_coefficient,K_gate_valve_Crane,K_globe_valve_Crane,K_angle_valve_Crane,K_ball_valve_Crane,K_plug_valve_Crane,v_lift_valve_Crane"]}
{"id": "C80", "title": "Heads of a horizontal vessel hold exactly the volume below the level", "statement": "V_horiz_conical, V_horiz_ellipsoidal, V_horiz_guppy and V_horiz_spherical (cap depth up to the radius) with headonly=True return the double integral of the head's depth over the part of the end circle below the level, for every level (clamped to the vessel); without headonly they return two heads plus the length times A_partial_circle.", "quantifier": "all positive diameters, all depths and levels; for the spherical head any quadrature that is exact on continuous functions", "why_tests_cant": "A double integral over a continuum of points, at every level.", "anchors": ["fluids/geometry.py:V_horiz_conical,V_horiz_ellipsoidal,V_horiz_guppy,V_horiz_spherical,A_partial_circle"]}
{"id": "C81", "title": "Whole vessels: level to volume, totals and orientation", "statement": "V_from_h returns, for horizontal vessels with flat, conical, ellipsoidal, guppy or spherical ends, the volume below the level in both heads and the cylinder; for vertical vessels with flat, conical, ellipsoidal, spherical or torispherical ends, the integral of the vessel's cross section up to the level, the top head upside down. It never decreases with the level, and at the top or above equals the total of V_tank, for all heads. V_tank gives the same volumes standing and lying for conical, ellipsoidal and spherical ends. Unknown head names and torispherical heads without both factors raise ValueError, as does a negative level in a horizontal vessel. SA_tank adds the two ends and the wall.", "quantifier": "all dimensions, levels, pairs of heads, all strings as head names", "why_tests_cant": "Continuum of levels and shapes; all pairs of heads.", "anchors": ["fluids/geometry.py:V_from_h,V_tank,SA_tank,V_horiz_conical,V_vertical_conical"]}
{"id": "C82", "title": "Expansibility factors", "statement": "The orifice, nozzle and cone expansibility factors are at most 1, equal to 1 exactly when there is no pressure drop, positive (nozzles; orifices up to a diameter ratio of 0.75: above 0.47), falling with the outlet pressure (orifices); the special case k = 1 of the nozzle formula is the limit of the general one; for every meter name the computed expansibility obeys the same bounds.", "quantifier": "all positive pressures with P2 <= P1, all k > 1 (orifices: k > 0), all sizes 0 < D2 < D, all meter names", "why_tests_cant": "A removable singularity, a limit, and inequalities between powers over a continuum.", "anchors": ["fluids/flow_meter.py:orifice_expansibility,orifice_expansibility_1989,nozzle_expansibility,cone_meter_expansibility_Stewart,differential_pressure_meter_C_epsilon"]}
{"id": "C83", "title": "Solving a flow meter for its unknown", "statement": "Whichever of flow rate, throat size, upstream or downstream pressure is left out, the value returned by differential_pressure_meter_solver satisfies the meter equation (flow = discharge with the coefficients that belong to that flow) with the other three; with coefficient and expansibility given the flow is the discharge equation's value; not exactly one unknown raises ValueError.", "quantifier": "all meters, inputs and root finders that only return roots", "why_tests_cant": "Quantifies over root finder behaviour, all meters and all inputs.", "anchors": ["fluids/flow_meter.py:differential_pressure_meter_solver"]}
{"id": "C84", "title": "Packed beds", "statement": "For every method name dP_packed_bed returns mu*vs*L/dp^2 times that method's published dimensionless function of particle Reynolds number, voidage and diameter ratio; so the drop is positive, rises with velocity, is proportional to the bed length, falls with the voidage, and is independent of the system of units; sphericity scales the particle size; default method, offered methods and refusal of unknown names agree; voidage correlations fall with the bed diameter and stay proper fractions.", "quantifier": "all positive particle sizes, velocities, densities, viscosities, lengths and bed diameters, voidages in (0,1), all strings as method", "why_tests_cant": "Continuum of inputs for fourteen correlations with fractional powers.", "anchors": ["fluids/packed_bed.py:dP_packed_bed,Ergun,Tallmadge,Kuo_Nydegger,Jones_Krier,Carman,Hicks,Brauer,KTA,Erdim_Akgiray_Demir,Fahien_Schriver,Idelchik,Harrison_Brunner_Hecker,Montillet_Akkari_Comiti,Guo_Sun,dP_packed_bed_methods,voidage_Benyahia_Oneil"]}
{"id": "C85", "title": "Void fraction of gas-liquid mixtures", "statement": "For a gas flowing with a denser liquid, 24 of the 29 methods of liquid_gas_voidage give a proper fraction; 16 of them never report more gas than the two phases would have moving at one speed; ten rise strictly with the quality; Graham gives 0 up to its stated Froude rate of 0.01032 and a proper fraction from there on, Kopte_Newell_Chato is proper below a Froude rate of 2900; without a method the phases move at one speed, pure liquid gives 0 and pure gas 1; mixture density and void fraction determine each other; a method is refused with TypeError exactly when liquid_gas_voidage_methods does not offer it, unneeded arguments make no difference, unknown names raise ValueError.", "quantifier": "all qualities in (0,1), all densities rhog < rhol, positive viscosities, tensions, flows, diameters, pressures up to critical, any inclination; all strings as method", "why_tests_cant": "Continuum of nine inputs for 29 correlations.", "anchors": ["fluids/two_phase_voidage.py:liquid_gas_voidage,liquid_gas_voidage_methods,density_two_phase,two_phase_voidage_experimental,homogeneous,Zivi,Smith,Fauske,Chisholm_voidage,Nishino_Yamazaki,Guzhov,Steiner,Rouhani_1,Rouhani_2,Dix,Sun_Duffey_Peng,Xu_Fang_voidage,Woldesemayat_Ghajar,Graham,Kopte_Newell_Chato"]}
{"id": "C86", "title": "Viscosity of gas-liquid mixtures", "statement": "All six methods of gas_liquid_viscosity give the liquid viscosity at quality 0 and the gas viscosity at quality 1 and are positive between; McAdams, Cicchitti, Duckler and Lin Kwok stay strictly between the two viscosities; the default is McAdams; a method is refused with TypeError exactly when gas_liquid_viscosity_methods does not offer it; unknown names raise ValueError.", "quantifier": "all qualities in (0,1), positive viscosities and densities, all strings as method", "why_tests_cant": "Continuum of inputs and all strings.", "anchors": ["fluids/two_phase_voidage.py:gas_liquid_viscosity,gas_liquid_viscosity_methods,Beattie_Whalley,McAdams,Cicchitti,Lin_Kwok,Fourar_Bories,Duckler"]}
{"id": "C87", "title": "Discrete particle size distributions", "statement": "From amounts at given sizes counted in any basis, ParticleSizeDistribution computes the share of each size by number, length, area and volume; every set is non-negative and sums to 1 and the set of the given basis is the normalised input (also for amounts between consecutive sizes). Every mean diameter D[p,q] is the ratio of moments (weighted geometric mean for p = q), lies between smallest and largest size, is symmetric in p and q and never falls when an index is raised; it scales with the unit of length and ignores the unit of amount; the specific surface is 6/D[3,2]; class fractions may be given as a cumulative curve.", "quantifier": "all lists of positive sizes and non-negative amounts (not all zero) of any length, all real orders p, q and bases", "why_tests_cant": "Unbounded lists and a continuum of sizes, amounts and moment orders; an inequality between power means.", "anchors": ["fluids/particle_size_distribution.py:ParticleSizeDistribution,mean_size,mean_size_ISO,vssa,di_power"]}
{"id": "C88", "title": "Continuous particle size distributions", "statement": "The Gates-Gaudin-Schuhman, Rosin-Rammler and lognormal cumulative functions are total, lie in [0,1], start at 0 and never fall; every distribution object's curve keeps this with any size limits, is 0 up to the lower and 1 from the upper limit, and its slope is the density the object gives; the basis integrals are antiderivatives of size^n times density; a quantile returned by dn has the requested cumulative fraction, fractions outside [0,1] raise ValueError; discretised fractions add up to the curve and are non-negative; mean sizes between two positive limits lie between them; changing a Gates-Gaudin-Schuhman distribution to a higher basis raises its exponent; Renard sizes form a geometric series.", "quantifier": "all positive parameters, all sizes and limits, all real orders, all root finders that only return roots; lists of any length", "why_tests_cant": "Continuum of sizes and parameters; statements about derivatives and integrals.", "anchors": ["fluids/particle_size_distribution.py:pdf_lognormal,cdf_lognormal,pdf_lognormal_basis_integral,pdf_Gates_Gaudin_Schuhman,cdf_Gates_Gaudin_Schuhman,pdf_Gates_Gaudin_Schuhman_basis_integral,pdf_Rosin_Rammler,cdf_Rosin_Rammler,pdf_Rosin_Rammler_basis_integral,PSDLognormal,PSDGatesGaudinSchuhman,PSDRosinRammler,ParticleSizeDistributionContinuous,psd_spacing"]}
{"id": "C89", "title": "Double-double arithmetic", "statement": "For normalised pairs (high part the rounded sum) the comparisons decide the order of the values high + low; the sum and the product of two plain floats are returned exactly; sum, product, quotient and integer power of pairs are off by at most 10u^2(|x0|+|x1|), 20u^2|x0 x1|, 40u^2|x0/x1| and 44u^2 n|x|^n with u = 2^-53; adding numbers of one sign is relatively accurate; products are normalised again; each part of a complex product (sum) is off by at most 31u^2 (10u^2) times the sizes of the products (numbers) it is made of; division by zero raises and the power 0 is 1.", "quantifier": "all normalised pairs of binary64 numbers without overflow or underflow, all exponents n", "why_tests_cant": "Rounding errors over 2^256 operand pairs and unboundedly many multiplications.", "anchors": ["fluids/numerics/doubledouble.py:eq_dd,neq_dd,lt_dd,le_dd,gt_dd,ge_dd,add_dd,mul_noerrors_dd,mul_dd,div_dd,intpow_dd,mul_imag_dd,add_imag_dd,sqrt_imag_dd"]}
{"id": "C90", "title": "Numerical derivatives, gradients and second derivatives", "statement": "derivative(f, x0, dx, n, order) with stored weights is within M/3*dx^(order-n) of the n-th derivative (M bounds the derivative of that order over the evaluation span), plus 2e-16 of the Taylor terms for the rounded weights; the three point formulas are exact for quadratics; limits wide enough are never overstepped and change nothing when the span fits; too few or an even number of points raise ValueError, a zero step ZeroDivisionError. Every entry of jacobian is the difference quotient at the given point: exact for affine functions, within half a step times the second derivative bound otherwise; hessian is symmetric, its entries are second difference quotients, exact for quadratic functions.", "quantifier": "all smooth functions, points, steps, all 21 stored (n, order) pairs, any number of variables", "why_tests_cant": "All smooth functions and steps; dimensions unbounded.", "anchors": ["fluids/numerics/__init__.py:derivative,central_diff_weights,jacobian,hessian"]}
{"id": "C91", "title": "Relief valve sizing and flare noise", "statement": "The area API520_A_g returns passes the stated gas flow through an ideal nozzle (choked or subsonic) within API's rounding of constants; it is proportional to the flow, falls with the relieving pressure, rises with the back pressure in subsonic flow and ignores it in choked flow; the choked coefficient rises with the heat capacity ratio and its value at ratio 1 is the limit of the formula. API520_A_steam satisfies Napier's equation, needs more area for more superheat and raises ValueError above 922.15 K. API520_A_l satisfies Bernoulli's equation to 1 part in 10^4; with a viscosity it is the area divided by the API factor (in (0,1], rising with Reynolds number) at the Reynolds number of the uncorrected valve. The flare noise chart is total, never falls and has no jump; noise follows the inverse square law and rises 10 dB per tenfold mass flow.", "quantifier": "all positive flows, temperatures, molecular weights, heat capacity ratios above 1, pressures, coefficients; all Reynolds numbers and pressure ratios", "why_tests_cant": "Continuum of up to ten inputs; monotonicity and limits; agreement with the governing physical law at every point.", "anchors": ["fluids/safety_valve.py:API520_C,API520_F2,API520_A_g,API520_A_steam,API520_Kv,API520_A_l,API521_noise_graph,API521_noise,VDI_3732_noise_ground_flare,VDI_3732_noise_elevated_flare"]}
{"id": "C92", "title": "Two-phase pressure drop", "statement": "For a gas flowing with a denser, more viscous liquid: nineteen correlations answer with a positive pressure drop in proportion to the pipe length (the six that interpolate between all-liquid and all-gas flow, when the gas alone would lose at least as much); Friedel is never below the quality-weighted single-phase drops; Lockhart-Martinelli, Kim-Mudawar, Mishima-Hibiki, Hwang-Kim, Zhang-Hibiki-Mishima and the slow branch of Wang-Chiang-Lu are never below the liquid and gas each flowing alone, Lockhart-Martinelli with the published interaction constants; seven correlations give the liquid's single-phase drop at quality 0 and six the gas's at quality 1. two_phase_dP returns the named correlation's value exactly when the data it needs are given, refuses every other name with ValueError, and its default is the first applicable of the documented preferences. The acceleration drop adds up along a pipe and vanishes without change; the gravitational drop is the mean of the ends' column weights. The regime maps return one of the published regimes together with the superficial velocities (Mandhane) or the Martinelli and Froude parameters of the phases flowing alone (Taitel-Dukler). Beggs-Brill, uphill or level, loses more than the weight of the no-slip mixture.", "quantifier": "all mass flows, qualities, densities rhog < rhol, viscosities mug < mul, tensions, diameters, relative roughness up to 0.05, lengths; all strings as method", "why_tests_cant": "Continuum of ten inputs for twenty-two correlations; limits at pure phases; all strings.", "anchors": ["fluids/two_phase.py:two_phase_dP,two_phase_dP_methods,Beggs_Brill,Friedel,Chisholm,Baroczy_Chisholm,Muller_Steinhagen_Heck,Lombardi_Pedrocchi,Theissing,Jung_Radermacher,Tran,Chen_Friedel,Zhang_Webb,Bankoff,Xu_Fang,Yu_France,Wang_Chiang_Lu,Hwang_Kim,Zhang_Hibiki_Mishima,Mishima_Hibiki,Kim_Mudawar,Lockhart_Martinelli,two_phase_dP_acceleration,two_phase_dP_gravitational,two_phase_dP_dz_gravitational,Taitel_Dukler_regime,Mandhane_Gregory_Aziz_regime"]}
{"id": "C93", "title": "Closed-form roots of quadratics, cubics and quartics", "statement": "roots_quadratic answers for every quadratic; the two values are its complete factorisation over the complex numbers, both real exactly when the discriminant is not negative, otherwise a conjugate pair. roots_cubic answers for every real cubic; its three values are the complete factorisation (multiplicities included), all real exactly when the discriminant is not negative, otherwise one real root and a conjugate pair. roots_cubic_a1 and roots_cubic_a2 factorise completely every complex cubic without the degenerate relation b^2 = 3ac. Whatever roots_quartic answers is the complete factorisation of the quartic. With a zero leading coefficient roots_cubic returns the roots of the quadratic or linear polynomial, and raises ZeroDivisionError for a constant.", "quantifier": "all real coefficients (quadratic, cubic), all complex coefficients (monic cubic, general cubic, quartic)", "why_tests_cant": "Continuum of coefficients including every degenerate multiplicity pattern; completeness of a set of roots cannot be seen from residuals at sample inputs.", "anchors": ["fluids/numerics/polynomial_roots.py:roots_quadratic,roots_cubic,roots_cubic_a1,roots_cubic_a2,roots_quartic"]}
{"id": "C94", "title": "Liquid jet pump", "statement": "Whichever single one of its six quantities liquid_jet_pump_ancillary is asked for, a number it returns satisfies the nozzle equation (jet energy against suction energy with both inlet losses) with the five given ones; the flows and pressures of an operating point are recovered exactly; the secondary flow is nan exactly when no flow is possible. liquid_jet_pump keeps every given quantity, reports derived numbers (flow ratio, head ratio, efficiency) that agree with them, and its pressures and flows satisfy the pressure ratio and nozzle equation within 1e-5 (discharge pressure given) or exactly up to the sign of the two unknowns (discharge pressure unknown); with the nozzle inside the mixing tube the ratio is the documented fraction and expresses the momentum balance. Any other number of unknowns raises ValueError.", "quantifier": "all positive densities, flows, areas, loss coefficients, pressures; all choices of the unknown; all root finders that only return roots", "why_tests_cant": "Continuum of eleven inputs for each of seven unknowns; agreement of the answer with the governing equations.", "anchors": ["fluids/jet_pump.py:liquid_jet_pump,liquid_jet_pump_ancillary"]}
{"id": "C95", "title": "Saltation velocity in pneumatic conveying", "statement": "Each of Rizk, Matsumoto_1974, Matsumoto_1975, Matsumoto_1977, Schade and Weber_saltation returns the unique positive gas velocity at which the published relation between solids loading and Froude number holds (with the particle's branch of the relation); Geldart_Ling is its published power law, and its two branches differ by less than 0.6 % where they meet. All seven velocities rise strictly with the solids flow.", "quantifier": "all positive solids flows, diameters, densities and velocities", "why_tests_cant": "Continuum of inputs; uniqueness of an implicit solution and monotonicity.", "anchors": ["fluids/saltation.py:Rizk,Matsumoto_1974,Matsumoto_1975,Matsumoto_1977,Schade,Weber_saltation,Geldart_Ling"]}
{"id": "C96", "title": "Loss coefficients of screens and grills", "statement": "round_edge_grill falls from 2 to 0.2 between open fractions 0.3 and 0.7; the losses of square_edge_grill, square_edge_screen, round_edge_screen and round_edge_open_mesh are non-negative, never rise with the open fraction and vanish at 1. Both grills add wall friction exactly when the thickness exceeds 50 hydraulic diameters. round_edge_screen is the product of a factor of the Reynolds number (0.52 to 1.3, never rising), (1-a^2)/a^2 and a tilt factor (0.09 to 1, 1 when perpendicular, never rising up to 45 degrees and beyond 45 degrees). round_edge_open_mesh is the published quadratic of the named mesh times a tilt factor and refuses every other name with ValueError.", "quantifier": "all open fractions in (0,1), Reynolds numbers, angles, thicknesses", "why_tests_cant": "Continuum of inputs over interpolated tables and splines.", "anchors": ["fluids/filters.py:round_edge_screen,round_edge_open_mesh,square_edge_screen,square_edge_grill,round_edge_grill"]}
{"id": "C97", "title": "Gas-liquid separators and demisters", "statement": "K_separator_Watkins answers with a positive value for each of its three methods (1.25 times as much for a horizontal vessel), on the chart between 0.0062 and 0.142 m/s and with the two published fits within 10 % of each other, refuses every other method name and a stream without liquid with ValueError. K_separator_demister_York always lies between 0.056 and 0.107 m/s, rises up to 15 psi, never rises from there on and is constant below 1 and above 5500 psi. At the velocity v_Souders_Brown gives with K_Souders_Brown_theoretical, and at no other, the drag on a drop equals its weight less buoyancy; a liquid lighter than the gas raises ValueError.", "quantifier": "all qualities in (0,1), densities, pressures, drop sizes, drag coefficients, all strings as method", "why_tests_cant": "Continuum of inputs over a fitted spline; all strings.", "anchors": ["fluids/separator.py:K_separator_Watkins,K_separator_demister_York,v_Souders_Brown,K_Souders_Brown_theoretical"]}
{"id": "C98", "title": "Mixing times, tee and static mixers", "statement": "adjust_homogeneity is the exponential decay law normalised to 95 % and rises with the target. agitator_time_homogeneous is the published formula on each side of the regime limit, falls with the power (also across the limit), rises with the target, and takes half the tank diameter as default impeller. time_helical_ribbon_Grenville falls with the power number and in inverse proportion to the speed; Kp_helical_ribbon_Rieger is positive, falls with the wall clearance and is unchanged by scaling. COV_motionless_mixer starts at the root of the flow ratio and every added length leaves the same fraction; K_motionless_mixer is additive in length. size_tee is the published law for one to four jets, falls along the pipe, falls with the side flow for two to four jets, and refuses other numbers of jets with ValueError.", "quantifier": "all positive flows, diameters, speeds, viscosities, densities, lengths, homogeneities in (0,1), numbers of jets", "why_tests_cant": "Continuum of inputs with fractional exponents; monotonicity across regimes.", "anchors": ["fluids/mixing.py:adjust_homogeneity,agitator_time_homogeneous,Kp_helical_ribbon_Rieger,time_helical_ribbon_Grenville,size_tee,COV_motionless_mixer,K_motionless_mixer"]}
{"id": "C99", "title": "Packed towers and demister pads", "statement": "Stichlmair_dry is the published sphere-based drop: positive, rising with the gas velocity, proportional to height; any answer of Stichlmair_wet satisfies the published implicit equation, with liquid hold-up strictly between 0 and the voidage and a drop above the dry one, and without liquid it is the dry drop; Robbins is the published equation in its own units, rises with both flows and is proportional to height; both El-Dessouky correlations agree with their published forms in mm and mesh density to 1e-10; the separation efficiency of a demister lies in (0,1] and never falls with velocity or drop size; dP_demister_wet_ElDessouky is positive, rises with velocity and is proportional to the pad's thickness; voidage_experimental is the part of the bed volume not filled by solid; specific_area_mesh is the wire surface of a unit volume; dP_demister_dry_Setekleiv_Svendsen is positive for pads with specific area times thickness up to 13.9 or from 55.7 on.", "quantifier": "all positive densities, viscosities, velocities, packings, voidages in (0,1); all root finders that only return roots", "why_tests_cant": "Continuum of inputs; the answer of an iterative solve satisfies its equation at every input.", "anchors": ["fluids/packed_tower.py:Stichlmair_dry,Stichlmair_wet,Robbins,separation_demister_ElDessouky,dP_demister_wet_ElDessouky,dP_demister_dry_Setekleiv_Svendsen,voidage_experimental,specific_area_mesh"]}
{"id": "C100", "title": "Air leakage into vacuum equipment", "statement": "vacuum_air_leakage_Ryans_Croll is positive, strictly rises with the volume, never falls as the vacuum deepens (its branches meet upwards) and is 0 without vacuum; vacuum_air_leakage_Seider is above 5 lb/h and strictly rises with volume and vacuum from one torr of vacuum on; vacuum_air_leakage_HEI2633 is positive and never falls with volume or vacuum; the Worthington table never falls with the vacuum and its conservative values exceed the others.", "quantifier": "all volumes (HEI up to 1e12 m3), pressures and atmospheric pressures (Seider: 1 to 1e10 torr of vacuum)", "why_tests_cant": "Continuum of inputs; monotonicity across fitted branches.", "anchors": ["fluids/jet_pump.py:vacuum_air_leakage_Ryans_Croll,vacuum_air_leakage_Seider,vacuum_air_leakage_HEI2633,vacuum_air_leakage_Coker_Worthington"]}
{"id": "C101", "title": "Friction in chevron plate exchangers", "statement": "friction_plate_Martin_1999 and friction_plate_Martin_VDI are Martin's combination of straight-channel and wavy-channel friction: positive for every chevron angle below 90 degrees, equal to the straight-channel value at angle 0, falling with the Reynolds number on both sides of 2000, and never more than 0.6 % apart. friction_plate_Kumar is the published table of power laws; its ranges join within 0.3 %, the factor falls with the Reynolds number inside every range and nowhere rises by more than 0.7 %. friction_plate_Muley_Manglik is the published product, positive and falling with the Reynolds number for enlargement factors from 1 to 2.", "quantifier": "all positive Reynolds numbers, all angles in [0,90) (Kumar, Muley-Manglik: all angles), enlargement factors in [1,2]", "why_tests_cant": "Continuum of inputs; comparison of two correlations and monotonicity across branches.", "anchors": ["fluids/friction.py:friction_plate_Martin_1999,friction_plate_Martin_VDI,friction_plate_Kumar,friction_plate_Muley_Manglik"]}
{"id": "C102", "title": "Pump, motor and pipe-erosion estimates", "statement": "Corripio_pump_efficiency stays below 0.887, rises with the flow up to 22000 gpm and lies between 0.43 and 0.87 from 50 to 5000 gpm; Corripio_motor_efficiency stays below 0.94, rises with the power up to 6000 hp and is at least 0.8 from 1 hp to a million hp. specific_speed and specific_diameter are unchanged when a pump is run k times as fast (flow k, head k^2) or built k times as large (flow k^3, head k^2). current_ideal satisfies P = V I PF for one phase and sqrt(3) V I PF for three and refuses every other number of phases with ValueError. At the erosional_velocity the density in lb/ft3 times the squared velocity in ft/s is the squared constant.", "quantifier": "all positive flows, heads, powers, densities, scale factors; all voltages and power factors other than 0", "why_tests_cant": "Continuum of inputs; scaling laws relate infinitely many pairs of calls.", "anchors": ["fluids/pump.py:Corripio_pump_efficiency,Corripio_motor_efficiency,specific_speed,specific_diameter,current_ideal", "fluids/piping.py:erosional_velocity"]}
{"id": "C103", "title": "Drilled cylinders and circular segments", "statement": "V_multiple_hole_cylinder is the net section times the length and A_multiple_hole_cylinder twice the net section plus all walls, for any list of holes and in any order. The value and slope that circle_segment_h_from_A gives its solver are the area cut off at that height (as an integral of the chord) less the wanted area, and the chord; a height it returns cuts off exactly the wanted area and is the only height that does.", "quantifier": "all diameters and lengths, all lists of holes; all areas and diameters; all root finders that only return roots within their limits", "why_tests_cant": "Unbounded lists; equality with an integral over a continuum of inputs.", "anchors": ["fluids/geometry.py:A_multiple_hole_cylinder,V_multiple_hole_cylinder,circle_segment_h_from_A"]}
{"id": "C104", "title": "Degree days", "statement": "With truncation heating_degree_days and cooling_degree_days are exactly the excess of the temperature over the base and of the base over the temperature (the code's and its documentation's meaning of the two names), never negative and never both positive; without truncation they are opposite; over any record of days the truncated totals differ by the untruncated total and never shrink as days are added.", "quantifier": "all temperatures, bases, records of any length", "why_tests_cant": "Unbounded records; continuum of temperatures.", "anchors": ["fluids/design_climate.py:heating_degree_days,cooling_degree_days"]}
{"id": "C105", "title": "Helical coils", "statement": "Whatever two of turns, pitch and height (and whichever of the two diameters) HelicalCoil is given, the attributes belong to one coil: height = turns x pitch, total sizes exceed the centre-line sizes by the tube diameter, given values are kept, and all descriptions of one coil whose turns do not collide give the same object. tube_length is the length of the helix (the integral of its speed) and agrees with the helix angle, surface and volumes; the inner and wall volumes add up to the total. Turns that collide raise ValueError when the height is given.", "quantifier": "all positive tube and coil diameters, pitches, turns, all combinations of given arguments", "why_tests_cant": "Continuum of inputs and combinations of optional arguments; equality with an arc length.", "anchors": ["fluids/geometry.py:HelicalCoil"]}
{"id": "C106", "title": "Plate exchangers", "statement": "plate_enlargement_factor is the arc length of one sine wave of the plate over its wavelength, lies between 1 and sqrt(1 + (2 pi a / w)^2) and does not fall with the amplitude. PlateExchanger's hydraulic diameter is four times the flow area of a channel over its wetted perimeter and does not exceed the equivalent diameter; the exchange area counts the plates between channels; chevron and inclination angle add up to 90 degrees.", "quantifier": "all amplitudes, all wavelengths other than 0 (positive for the exchanger), widths, lengths, numbers of plates", "why_tests_cant": "Continuum of inputs; equality with an integral.", "anchors": ["fluids/geometry.py:plate_enlargement_factor,PlateExchanger"]}
{"id": "C107", "title": "Plate-fin exchangers", "statement": "RectangularFinExchanger: hydraulic diameter times perimeter is four times the channel area and lies between the two sides of the channel; RectangularOffsetStripFinExchanger: Kim's ratio is the blocked part of a cell, the surface includes front and back of the strip, and both special hydraulic diameters lie below Kays and London's, which is the plain channel's; the stack's fins are counted to the nearest whole number and its area, height and volume are those of its layers and plates.", "quantifier": "all fin thicknesses below height and spacing (half the spacing for strips), lengths, numbers of layers", "why_tests_cant": "Continuum of inputs.", "anchors": ["fluids/geometry.py:RectangularFinExchanger,RectangularOffsetStripFinExchanger"]}
{"id": "C108", "title": "Hyperbolic cooling towers", "statement": "Built from an inlet diameter or from a base diameter (throat given or estimated), the tower meets the named diameters at the ground, inlet, throat and outlet, narrows strictly up to the throat and widens strictly above it, and both parts are hyperbolas with the reported parameters; too few data raise ValueError.", "quantifier": "all heights 0 <= inlet < throat < outlet, all diameters above the throat's, all real heights", "why_tests_cant": "Continuum of inputs and heights; monotonicity.", "anchors": ["fluids/geometry.py:HyperbolicCoolingTower"]}
{"id": "C109", "title": "Air coolers", "statement": "AirCooledExchanger's numbers of tubes, fin sizes and pitches belong together and given ones are kept; the area of a tube is that of the tube between its fins plus faces and rims of the fins, every level (row, bundle, bay, all) has that area times its number of tubes, and fins always increase the area; the free area is the smaller of the two gaps and a positive part of the face; the tubes are shared among the passes. Missing fin data are refused.", "quantifier": "all tube counts, lengths, diameters, layouts, fin sizes, bays and bundles", "why_tests_cant": "Continuum of inputs and combinations of optional arguments.", "anchors": ["fluids/geometry.py:AirCooledExchanger,pitch_angle_solver"]}
{"id": "C110", "title": "Tanks as objects", "statement": "A TANK keeps whichever two of diameter, length and their ratio were given and has the third; its ends are the ones described (given depth, given ratio, a quarter of the diameter, or the dish of its factors, 1 and 0.06 by default); an end called same is the other one and both cannot be; volume and surface are wall plus ends and filling to h_max gives V_total; asked for by volume, it has that volume and keeps the one size given; contradictory or missing data are refused; a level found for a volume holds that volume and lies within the tank.", "quantifier": "all sizes, orientations, kinds and descriptions of ends, all solvers returning only roots", "why_tests_cant": "Continuum of inputs times the combinations of about ten optional arguments.", "anchors": ["fluids/geometry.py:TANK"]}
{"id": "C111", "title": "is_poly_positive and is_poly_negative", "statement": "When is_poly_positive (is_poly_negative) answers True, the polynomial is nowhere negative (positive) on the given domain, or without a domain at any argument up to 10^100 in size, provided the root finder reports all real zeros, 0 is not one of them and no two are closer than the relative perturbation; when the answer is False some real argument gives a value of the other sign. Refuted without the separation: (x-1)(x-1-1e-13) is called positive although it is negative between its zeros.", "quantifier": "all polynomials of every degree, all domains, sample counts of at least four, tolerances, perturbations", "why_tests_cant": "Nonnegativity on a continuum for every degree; sampling cannot show it.", "anchors": ["fluids/numerics/__init__.py:is_poly_positive,is_poly_negative"]}
{"id": "C112", "title": "one_sided_secant stays out of the flat region", "statement": "Whatever one_sided_secant returns is a point at which the function was evaluated, whose value differs from the flat value, meets ytol, and lies within xtol of another point outside the flat region; without tolerances nothing is returned; a start in the flat region or two starts of equal value raise ValueError. When the function is flat from some point on, the outcome does not depend on the function beyond the known flat point, so nothing raised there can surface; a function that is affine up to the flat point is solved in one step.", "quantifier": "all functions, starting points, flat points on either side, tolerances, dampings, iteration counts", "why_tests_cant": "Quantifies over functions and iteration histories.", "anchors": ["fluids/numerics/__init__.py:one_sided_secant"]}
{"id": "C113", "title": "The wetted area of a tank is the area of its wetted surface", "statement": "For vertical heads of every shape (cone, ellipsoid, spherical dish, torispherical dish) the partial area functions return the area of the surface of revolution below the level, levels outside the head being clamped. SA_from_h of a vertical tank is the wetted bottom head plus the wetted wall plus the part of the top head below the level, and of a full tank exactly the total SA_tank reports; the two are computed by independently written formulas. For a horizontal tank it is the sum of both ends and of SA_partial_cylindrical_body, a level below the bottom is refused, and a full tank with flat or conical ends has the area of SA_tank. A guppy head of a vertical tank is left out although SA_tank counts it.", "quantifier": "all positive diameters and head depths, all lengths >= 0, all levels, dish and knuckle factors with 0 < k <= 1/2 <= f, k < f", "why_tests_cant": "Areas of surfaces of revolution over a continuum of shapes and levels; tests compare a few values.", "anchors": ["fluids/geometry.py:SA_partial_vertical_conical_head,SA_partial_vertical_ellipsoidal_head,SA_partial_vertical_spherical_head,SA_partial_vertical_torispherical_head,SA_from_h,SA_tank,SA_ellipsoidal_head,SA_torispheroidal,SA_conical_head,SA_partial_cylindrical_body,A_partial_circle,SA_partial_horiz_conical_head"]}
{"id": "C114", "title": "Monthly averages of a weather station", "statement": "month_average_temperature and month_average_windspeed return for each month the mean, over the years asked for that have at least minimum_days readings of that month, of the mean of that year's readings; days missing from the record, readings missing from a day and years out of range do not count. If some month has no such year the call raises ZeroDivisionError. No average leaves the range of the readings. coldest_month and warmest_month name the first month of the smallest and largest average.", "quantifier": "all histories of any number of years and days with any values missing; minimum_days of at least 1", "why_tests_cant": "Unbounded histories with arbitrary gaps.", "anchors": ["fluids/design_climate.py:StationDataGSOD.month_average_temperature,StationDataGSOD.month_average_windspeed,StationDataGSOD.coldest_month,StationDataGSOD.warmest_month"]}
{"id": "C115", "title": "The weather station found for a place", "statement": "get_closest_station returns a station with data later than asked for such that no other such station is nearer in the plane of latitude and longitude, whatever match_max is; the widening search ends, finds a station whenever there is one, and raises ValueError exactly when there is none. Refuted as documented (nearest to the coordinates): across the date line a station at the very place is passed over for one a quarter turn away.", "quantifier": "all tables of stations, coordinates, dates, match_max of at least 1, all tree searches returning the k nearest in order", "why_tests_cant": "Every table of stations and every history of searches; the order of equal distances is free.", "anchors": ["fluids/design_climate.py:get_closest_station"]}
{"id": "C116", "title": "assert_close for numbers and nested lists", "statement": "assert_close and assert_close1d pass exactly when the arguments are equally long and every pair of entries lies within rtol of the first entry or within atol + rtol |second|; different lengths raise ValueError, any other disagreement AssertionError. assert_close2d, 3d and 4d never reject tables that agree, and with one of the tolerances 0 accept no others. Refuted in general: with both tolerances positive an entry that only passes the second test ends the whole comparison, so every later entry and row is accepted unseen; with a negative tolerance assert_close2d accepts any numbers.", "quantifier": "all finite numbers, lists and nested lists of any size, all tolerances >= 0", "why_tests_cant": "Nested lists of every size and content; the early return needs a special entry before the wrong one.", "anchors": ["fluids/numerics/__init__.py:assert_close,assert_close1d,assert_close2d,assert_close3d,assert_close4d"]}
{"id": "C117", "title": "Inverse functions of complex numbers", "statement": "cos(py_cacos(z)) = z with a real part from 0 to pi for every z; tan(py_catan(z)) = z for every z other than i and -i; tanh(py_catanh(z)) = z with an imaginary part from -pi/2 to pi/2 for every z other than 1 and -1 whose parts do not exceed the square root of a quarter of the largest double (beyond it the code switches to an asymptotic value, which is not covered).", "quantifier": "all complex numbers in the stated range, all principal square roots, all complex logarithms", "why_tests_cant": "A plane of inputs; identities on both sides of the branch cuts.", "anchors": ["fluids/numerics/special.py:py_cacos,py_catan,py_catanh"]}
{"id": "C118", "title": "The free surface of the liquid in a tank", "statement": "A_cross_sectional of a vertical tank with any supported heads is, for a level clear of the brim, the mean of the true sections of the vessel within one ten-millionth of the level, and beside the cylindrical wall exactly the area of the circle; of a horizontal tank it is the mean of the sections of both heads and of the rectangle between them. Refuted at the ends: for an empty or full tank with flat ends it is 0 although the section is the whole circle.", "quantifier": "all positive diameters, lengths >= 0, all pairs of heads with their depths, all levels h with 0 < h and (1 + 1e-7) h at most the height", "why_tests_cant": "A continuum of shapes and levels; a finite difference compared with an integral.", "anchors": ["fluids/geometry.py:TANK.A_cross_sectional,TANK.V_from_h", "fluids/numerics/__init__.py:derivative"]}
