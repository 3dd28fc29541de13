PE="fluids/numerics/polynomial_evaluation.py"; PU="fluids/numerics/polynomial_utils.py"
AR="fluids/numerics/arrays.py"; NI="fluids/numerics/__init__.py"
inf="ranges over all coefficient lists of every length and every real point; unit tests evaluate a handful of fixed polynomials"
P("C01","Polynomial evaluation returns the polynomial's value",
  "horner(coeffs, x) returns sum of coeffs[i]*x**(n-1-i); horner_stable and horner_domain return the same polynomial evaluated at the affinely mapped argument, horner_domain mapping [xmin,xmax] onto [-1,1] and raising ZeroDivisionError when xmin = xmax.",
  "every coefficient list of every length (including empty), every real x, offset, scale, xmin, xmax",
  inf,[PE+":horner,horner_stable,horner_domain"],
  "Folds over the list on Num; specification is an explicit power sum; induction on the list.")
P("C02","Derivative-returning Horner variants return the true derivatives",
  "horner_and_der, _der2, _der3, _der4 (and the horner_stable_* versions) return the value and the exact first to fourth derivatives of the polynomial at x with respect to x.",
  "every coefficient list, every real x, offset, scale",
  inf,[PE+":horner_and_der,horner_and_der2,horner_and_der3,horner_and_der4,horner_stable_and_der..4"],
  "Loop state invariant relating der_k to the k-th Taylor coefficient; derivatives are Coquelicot is_derive / is_derive_n.")
P("C03","Log-tau and exponential polynomial variants return true derivatives and vanish at the critical point",
  "For T<Tc the *_ln_tau_and_der* functions return value and derivatives with respect to T of poly(log(1-T/Tc)) (or its exponential); for T>=Tc they return zeros; exp_horner_*_and_der* return the derivatives of exp(poly(x)).",
  "every coefficient list, every T, Tc>0, offset, scale",
  inf,[PE+":horner_backwards_ln_tau*,horner_stable_ln_tau*,exp_horner_*"],
  "Real models with exp/ln; chain rule with Coquelicot is_derive on top of C02.")
P("C04","Polynomial integration and differentiation are mutually inverse calculus operations",
  "polyint returns coefficients whose polynomial has the input polynomial as derivative and vanishes at 0; polyint_stable does the same in the scaled variable; polyder(c, m) returns the m-th derivative's coefficients; polyint_over_x returns terms and a log coefficient such that terms(x)+log_coeff*ln x is an antiderivative of p(x)/x, and polyint_over_x_stable does so for a polynomial given in the scaled variable.",
  "every coefficient list, every m, every real x (x>0 for the log form), xmin<>xmax",
  inf,[PU+":polyint,polyint_stable,polyder,polyint_over_x,polyint_over_x_stable"],
  "List models by index; specification via is_derive of the evaluated polynomial; induction.")
P("C05","Polynomial sum and product are sum and product of the polynomial functions",
  "The low-order-first helper operations behind stable_poly_to_unstable satisfy eval(poly_add p q) = eval p + eval q and eval(poly_mul p q) = eval p * eval q, and stable_poly_to_unstable(coeffs, low, high) returns ordinary coefficients whose horner value at x equals the stable polynomial's value at the scaled argument; leading zeros are removed.",
  "all pairs of coefficient lists, all low<>high, all x",
  inf,[PU+":poly_add,poly_mul,stable_poly_to_unstable"],
  "Loops modelled with in-place updates on lists; convolution lemma; induction on coefficient list.")
P("C06","Interpolating quadratics interpolate",
  "quadratic_from_points returns the coefficients of a quadratic through all three given points whenever the abscissae are distinct, and raises ZeroDivisionError otherwise; quadratic_from_f_ders matches value and two derivatives at the point; deflate_cubic_real_roots returns the remaining two roots of a cubic with known root when they are real.",
  "all real abscissae and ordinates / all cubics with non-zero known root",
  "identities over all reals; tests check a few triples",[PU+":quadratic_from_points,quadratic_from_f_ders,deflate_cubic_real_roots"],
  "Field identities over R including the error branch.")
P("C07","Matrix transpose is an involution and rejects ragged input",
  "transpose of a non-empty rectangular matrix has entry (j,i) equal to input entry (i,j), applying it twice returns the original, and a matrix whose first row is non-empty and which has a row of another length raises ValueError; the empty matrix maps to itself. (That every ragged matrix is rejected is refuted: when the first row is empty the other rows are silently dropped.)",
  "all lists of lists of any size and any element type",
  "sizes unbounded",[AR+":transpose"],
  "Polymorphic list model; induction on rows.")
P("C08","Matrix products agree with the mathematical definition and are associative",
  "matrix_multiply, matrix_vector_dot and dot_product compute the sums of products, multiplication by eye(n) is the identity, matrix_multiply is associative and compatible with matrix_vector_dot; row sums, column sums, elementwise addition, subtraction, scaling and division are the entrywise operations; dimension mismatches raise ValueError, division by zero ZeroDivisionError.",
  "all conforming and non-conforming matrices of any size over the reals",
  "sizes unbounded",[AR+":matrix_multiply,matrix_vector_dot,dot_product,eye,sum_matrix_rows,sum_matrix_cols,scalar_add_matrices,scalar_subtract_matrices,scalar_multiply_matrix,scalar_divide_matrix"],
  "Loop-nest list model; sums over indices; induction.")
P("C09","Explicit determinants equal the permutation expansion; 1x1 determinant",
  "det of a 2x2 to 5x5 matrix equals the Leibniz/cofactor determinant, is multiplicative and zero exactly for singular matrices for sizes 2 and 3, and is 1 on the identity; det of a 1x1 matrix should be its entry (the code returns the row list instead, refuted).",
  "all real matrices of those sizes",
  "universal polynomial identity",[AR+":det"],
  "Explicit formula vs recursive cofactor specification, by ring.")
P("C10","inv returns a two-sided inverse",
  "For every square matrix, inv returns X with A X = X A = I when A is regular (through the closed forms or LU, whichever the size and determinant select) and raises ValueError (ZeroDivisionError for 1x1) when A is singular; inv(inv(A)) = A.",
  "all square real matrices of every size",
  "universal identity",[AR+":inv"],
  "Closed forms by field; LU path via C12.")
P("C11","solve and the direct small solvers return a solution of the linear system",
  "solve(A,b) returns the unique x with A x = b for every regular A of any size and raises ValueError for every singular A; solve_2_direct, solve_3_direct, solve_4_direct return x with A x = b whenever they return (and may raise ZeroDivisionError on an invertible system: refuted completeness).",
  "all square real systems of every size; all 2x2, 3x3, 4x4 systems for the direct solvers",
  "universal identity",[AR+":solve",NI+":solve_2_direct,solve_3_direct,solve_4_direct"],
  "field over R, error branch kept.")
P("C12","LU factorisation with pivoting solves every nonsingular system",
  "lu returns P, L, U with P*A = L*U, L unit lower triangular, U upper triangular; solve_LU_decomposition(A,b) returns x with A x = b, and raises only when elimination meets a column with no nonzero pivot, in which case A is singular.",
  "all square real matrices of every size",
  "unbounded size; loop invariants over three nested loops",[AR+":inplace_LU,solve_from_lu,solve_LU_decomposition,lu"],
  "Gallina model of the Crout loop; invariant by induction on the column.")
P("C13","Tridiagonal solver solves the tridiagonal system",
  "solve_tridiagonal(a,b,c,d) returns x satisfying every row of the tridiagonal system whenever every leading principal minor is non-zero (in particular for every strictly diagonally dominant matrix), otherwise raises ZeroDivisionError; array_as_tridiagonals and tridiagonals_as_array are mutually inverse on tridiagonal matrices.",
  "all lengths and all real bands",
  "unbounded size",[AR+":solve_tridiagonal,array_as_tridiagonals,tridiagonals_as_array"],
  "Two-pass Thomas model; invariant by induction over rows.")
P("C14","argsort1d and sort_paired_lists sort stably without losing data",
  "argsort1d returns a permutation of the indices that puts the values in ascending order with ties in original order; sort_paired_lists applies the same permutation to the second list, so pairs are preserved.",
  "all lists of any length",
  "unbounded",[AR+":argsort1d,sort_paired_lists"],
  "Stable insertion-sort specification of Python's sorted; permutation and order proofs.")
P("C15","binary_search brackets the key",
  "binary_search(key, arr) on a nondecreasing array returns an index j with arr[j] <= key < arr[j+1] when arr[0] <= key < arr[-1], len(arr)-1 for the last key, len(arr) above and -1 below, and always terminates.",
  "all nondecreasing arrays of any length and all keys",
  "unbounded arrays; termination",[NI+":binary_search"],
  "Loop by well-founded recursion on the interval width; invariant.")
P("C16","interp is bounded by the data, exact at the nodes and clamps outside",
  "interp(x, dx, dy) returns dy[i] at x = dx[i], a convex combination of the two neighbouring ordinates in between (hence within [min dy, max dy]), and the left/right value outside the table; it is nondecreasing if dy is.",
  "all strictly increasing abscissae lists of any length, all x",
  "unbounded tables",[NI+":interp,interp2d_linear"],
  "Model over R on top of the C15 search; convexity lemma.")
P("C17","linspace, cumsum, diff and cumulative_trapezoid agree with their definitions",
  "linspace has num equally spaced points starting at start and (endpoint=True) ending at stop; diff(cumsum(x)) recovers x[1:], product/cumsum agree with folds; cumulative_trapezoid is exact for affine integrands.",
  "all lists and all num",
  "unbounded sizes",[NI+":linspace,cumsum,diff,product,cumulative_trapezoid"],
  "List models, induction.")
P("C18","bisect returns a point in the bracket with a sign change within tolerance, or raises",
  "bisect(f,a,b) returns an exact zero or a point of the bracket next to a sign change of width d < xtol + rtol*d (with |f| within ytol when given); it never calls f outside the bracket; it raises ValueError exactly when f(a)f(b)>0 and otherwise only UnconvergedError, which cannot happen when |b-a| < 2^maxiter*xtol; for continuous f a root lies that close.",
  "all functions f (continuous or not), all brackets, tolerances, iteration limits",
  "quantifies over functions and over all iterations",[NI+":bisect"],
  "Structural recursion on maxiter; invariant on bracket and sign; f-extensionality statement.")
P("C19","brenth and ridder keep the bracket and converge",
  "brenth without ytol, and ridder with an initial tolerance of at most twice the bracket width, evaluate f only inside the bracket and return a point there which is a zero or next to a sign change within the tolerance; the only errors are the not-bracketed error (same strict signs) and UnconvergedError; brenth converges within (3m+1)(2m+1) iterations for a bracket of width at most 2^m*xtol/2. Refuted: brenth with ytol, and ridder with a wider tolerance, can leave the bracket.",
  "all functions f, all brackets, tolerances and iteration limits",
  "quantifies over functions and iteration histories",[NI+":brenth,ridder"],
  "Loop models; invariant of Brent's bracket; potential argument for the iteration bound; f-extensionality.")
P("C20","secant and newton respect their bounds and solve what they should",
  "With low/high given and a start inside, secant evaluates f only inside the bounds and returns a point inside (newton: the start or a point inside); with bisection and a sign change everything happens between the starting points; with require_eval and ytol the returned point meets ytol; affine functions are solved exactly; newton on a convex increasing function stays between the root and the start and raises only UnconvergedError. Refuted: maxiter=0 and additional_guesses (secant), additional_guesses with bisection, decreasing functions with bisection (every step is then a halving step), fprime2 and stopping at a bound (newton).",
  "all f, derivatives, starting points, bounds, damping factors, maxiter",
  "quantifies over functions and iteration histories",[NI+":secant,newton"],
  "Loop models generic in Num with all options; invariants by induction on the remaining iterations; computed counterexamples.")
P("C21","fixed_point reports convergence only when the tolerance was met",
  "Whatever fixed_point returns is at most one step from a point at which the residual was evaluated and met every given tolerance; other outcomes are UnconvergedError, or ValueError when require_progress is set; if x - f(x) is a contraction with constant L it succeeds once L^(maxiter-1) times the first residual is below ytol, and then the residual at the returned point is below ytol; when it gives up, all maxiter steps were made and the residual at the last point misses a tolerance. Refuted: without contraction the residual at the returned point need not meet the tolerance.",
  "all maps f on vectors of any length, all tolerances, dampings, maxiter",
  "quantifies over functions",[NI+":fixed_point"],
  "Generic loop model; induction on maxiter; contraction estimate in the 1-norm.")
P("C22","Chebyshev evaluation, derivative and integral",
  "chebval(x,c) is the Clenshaw sum of c_k T_k(x); chebder returns the coefficients of the derivative; chebint those of an antiderivative that equals the lower-bound constant at lbnd.",
  "all coefficient lists, all x",
  "unbounded degree",[NI+":chebval,chebder,chebint,chebval_ln_tau,exp_cheb,exp_cheb_ln_tau and their derivative variants"],
  "Induction with a Clenshaw invariant; is_derive specification.")
P("C23","normalize, mean and std",
  "normalize(values) sums to one and preserves ratios (raising ZeroDivisionError or dividing equally when the sum is zero as coded); mean lies between min and max; std is the population standard deviation, zero exactly for constant data; detect_outlier_normal returns exactly the indices further than cutoff standard deviations from the mean.",
  "all lists","unbounded sizes",[NI+":normalize,mean,std,detect_outlier_normal"],
  "List induction on R.")
P("C24","translate_bound_func maps into and back from the bounds",
  "The pair of translation functions made by translate_bound_func are mutually inverse between the open box and the unbounded space, the image always lies strictly inside the bounds, and the wrapped function receives exactly the translated point.",
  "all bound lists of any length, all points","continuum",[NI+":translate_bound_func,translate_bound_jac,translate_bound_f_jac"],
  "Componentwise logistic maps on R.")
P("C25","caching_decorator returns what the function returned first for that key",
  "After any sequence of calls, each returned value equals f evaluated once at that x; f is not called twice for the same x; full result/flag switching is respected (refuted where a later call asks for information that was not cached).",
  "all call histories","histories",[NI+":caching_decorator"],
  "State machine over call traces; induction on the trace.")
P("C26","OscillationChecker detects only genuine oscillation",
  "The checker flags a call exactly when residuals of both signs occurred at least twice and the last relative change on one side (or both) is below the minimum progress while the residuals are not yet good; one-signed histories and histories shrinking by the progress factor on each side are never flagged; no call fails.",
  "all histories of (x,y) observations","histories",[NI+":OscillationChecker"],
  "State machine; induction on history.")
P("C27","Nelder-Mead never returns a point worse than the start",
  "nelder_mead returns (x, f) with f(x) equal to the reported value and not larger than f at the initial point within maxiter iterations, for every objective; with bounds the result stays inside when the initial simplex is inside (refuted in general: the perturbed initial simplex is not clipped).",
  "all objectives, dimensions, bounds, iteration limits","quantifies over functions and histories",[NI+":nelder_mead"],
  "Loop model; simplex invariant fsim[i]=f(sim[i]).")
P("C28","Adaptive quadrature is additive, linear and bounded in depth",
  "quad_adaptive evaluates f only inside [a,b], always returns, its area is the sum of rule values over panels exactly covering [a,b], and it is exact whenever the rule is exact for the integrand; refuted: the reported error may be negative, and an area of exactly zero is accepted whatever the error estimate.",
  "all integrands, all intervals","functions",[NI+":quad_adaptive,fixed_quad_Gauss_Kronrod"],
  "Recursion on remaining depth; extensionality.")
P("C29","Bound clipping and damping maintain constraints",
  "bounds_clip_naive returns a point within the given bounds, unchanged if already inside (refuted: low=None raises TypeError); damping_maintain_sign returns a point keeping every component's sign and takes the plain damped step when that already does; make_damp_initial and make_max_step_initial damp/limit exactly the first n calls.",
  "all vectors and bounds","unbounded dimension",[NI+":bounds_clip_naive,damping_maintain_sign,make_damp_initial,make_max_step_initial"],
  "List models, induction.")
P("C30","fixed_point_to_residual and residual_to_fixed_point are inverse",
  "Converting a fixed-point difference function to a residual and back gives the same function; the residual is thing - x and vanishes exactly at fixed points.",
  "all functions on vectors","functions",[NI+":fixed_point_to_residual,residual_to_fixed_point"],
  "Functional composition, list induction.")
P("C61","Factorial, binomial coefficient and hypot fallbacks",
  "py_factorial(n) is n! for n>=0 and raises ValueError for n<0; py_comb(n,k) is the binomial coefficient (the integer division is always exact), 0 outside range; py_hypot(x,y) is sqrt(x^2+y^2) and never fails.",
  "all integers n, k; all reals x, y","unbounded integers, continuum",["fluids/numerics/special.py:py_factorial,py_comb,py_hypot"],
  "Z model with the loop; Pascal's rule specification; real model of hypot.")
P("C62","subset_matrix selects the requested rows and columns",
  "subset_matrix(M, l) has entry (p,q) equal to M[l[p]][l[q]]; selecting all indices in order returns the matrix unchanged.",
  "all matrices and index lists (repeated and unordered indices included)","unbounded sizes",[AR+":subset_matrix"],
  "List model; induction over index list.")

P("C63","The built-in Gauss-Kronrod table integrates polynomials",
  "fixed_quad_Gauss_Kronrod with the module's 21-point table integrates every polynomial of degree at most 31 over every interval to within |b-a|*1e-15 times the sum of its (scaled) coefficients; an exact rule makes quad_adaptive exact for affine integrands.",
  "all polynomials of degree <= 31, all intervals","a continuum of integrands and intervals; the tabulated constants",[NI+":fixed_quad_Gauss_Kronrod,quad_adaptive,kronrod_points,kronrod_weights"],
  "Moments of the table checked in integer arithmetic over a common denominator, lifted to R by linearity.")
P("C64","best_bounding_bounds returns a bracket made of sampled points",
  "When best_bounding_bounds(low, high, f, history) returns, both reported values are f at the reported ends, the values have opposite signs (or one is zero), and each end is an original end or a sampled point. Refuted: it may use an unbound local name, may return a worse bracket than the given one, and may raise although the samples contain a sign change.",
  "all functions and all sample histories","histories",[NI+":best_bounding_bounds"],
  "Model of both branches; case analysis with minimum/maximum lemmas.")
P("C65","Integrals and derivatives of fits with linear extrapolation",
  "fit_integral_linear_extrapolation is the integral of the piecewise function (line below Tmin, polynomial inside, line above Tmax) between any two temperatures in either order, equal to the difference of poly_fit_integral_value; likewise for the integral over T; evaluate_linear_fits(_d,_d2) are value, slope and curvature of the piecewise function off the limits.",
  "all coefficient lists, limits, slopes and temperatures","unbounded degree, continuum of limits",[NI+":fit_integral_linear_extrapolation,poly_fit_integral_value,fit_integral_over_T_linear_extrapolation,poly_fit_integral_over_T_value,evaluate_linear_fits,evaluate_linear_fits_d,evaluate_linear_fits_d2"],
  "Coquelicot integrals piece by piece (Chasles).")
P("C66","Error measures",
  "max_abs_error, max_squared_error, max_abs_rel_error, mean_abs_error, mean_squared_error, mean_abs_rel_error are the maximum/average of the named deviations; min_max_ratios bounds all ratios and 1 and attains its bounds. Refuted: the squared relative measures raise ZeroDivisionError for a zero datum.",
  "all data lists of any length","unbounded sizes",[NI+":max_abs_error,max_abs_rel_error,max_squared_error,max_squared_rel_error,mean_abs_error,mean_abs_rel_error,mean_squared_error,mean_squared_rel_error,min_max_ratios"],
  "Fold invariants.")
P("C67","isclose, is_monotonic and is_increasing decide their definitions",
  "isclose(a,b,rel_tol,abs_tol) is true exactly when |a-b| <= max(rel_tol*max(|a|,|b|), abs_tol), is symmetric, and raises ValueError for negative tolerances; is_monotonic and is_increasing are true exactly for monotone / strictly increasing lists.",
  "all reals, all lists","unbounded sizes",[NI+":isclose,is_monotonic,is_increasing"],
  "Induction on lists; case analysis.")
P("C68","halley respects its bounds",
  "halley evaluates the function only at the start and inside low/high and returns such a point; with require_eval and ytol the returned point meets ytol. Refuted: a flat non-root can be returned, hitting a bound can raise TypeError, and the denominator of the step can vanish (ZeroDivisionError).",
  "all functions with two derivatives, starts, bounds, options, maxiter","quantifies over functions and iteration histories",[NI+":halley"],
  "Loop model with all options; invariant by induction; computed counterexamples.")
P("C69","newton_system, newton_minimize and homotopy continuation",
  "For a function that never raises, newton_system returns only a point whose own residual meets every tolerance, with require_progress never one worse than the start, uses at most maxiter iterations, and raises only UnconvergedError (or ValueError with require_progress); a system for which one Newton step is exact is solved; newton_minimize returns only points whose gradient meets the tolerances; the first iteration of newton_minimize is the damped Newton step; the Armijo test is the published sufficient decrease condition; homotopy_function joins F-F(x0) to F, homotopy_solver returns only points whose own residual meets the terminal tolerance up to 1e-15 of the initial residual, predicts the next point exactly when the system is affine, ends for every behaviour of the inner solver within a number of passes set by the step and then raises only UnconvergedError. Refuted: newton_minimize with both tolerances stops as soon as one holds and then fails; functions raising during the line search (stale residual, unbound variable), Armijo test accepts an increase.",
  "all functions, Jacobians, linear solvers, options, dimensions","quantifies over functions and iteration histories",[NI+":newton_system,newton_minimize,homotopy_function,homotopy_solver"],
  "Loop models incl. line search; invariants by induction; computed counterexamples.")
P("C70","broyden2 returns a solution or has used all iterations",
  "broyden2 returns (x, niter) with niter <= maxiter and either the 1-norm of f(x) is at most xtol or niter = maxiter; in one dimension the updated inverse Jacobian satisfies the secant equation; the first step is the quasi-Newton step with the inverse Jacobian. Refuted: the secant equation fails from two dimensions on (all entries are scaled by one number), and exhausting maxiter is not reported.",
  "all functions, dimensions, tolerances, maxiter","quantifies over functions and iteration histories",[NI+":broyden2"],
  "Loop model; induction on maxiter.")
P("C71","Accelerated fixed-point solvers",
  "fixed_point_aitken and fixed_point_gdem return only results at most one (accelerated) step from a point whose residual met every given tolerance; the dominant eigenvalue step is exact on vector sequences s + c*r^k with 0<r<1. Refuted: it moves away from the limit of alternating sequences; the Aitken step is added to the wrong point so that it misses the limit of geometric sequences; accelerating at every iteration raises IndexError.",
  "all functions, vectors of any length, options","quantifies over functions and iteration histories",[NI+":fixed_point_aitken,fixed_point_gdem,aitken_delta_squared_accelerate,dem,gdem"],
  "Loop model parametric in the accelerator; algebra on geometric sequences.")
P("C72","Spline evaluation is the B-spline combination and stays within its coefficients",
  "splev(x, t, c, k) inside the knot range is the sum of the coefficients times the Cox-de Boor basis functions, lies between the smallest and largest coefficient that acts at x, and reproduces constants everywhere; outside it clamps, is zero, raises or extrapolates according to ext; with degree one it is the line through the neighbouring points. bisplev stays within its coefficients, and the linear surface from tck_interp2d_linear is the bilinear interpolant, exact at every node and clamped outside.",
  "all knot vectors, coefficient lists, degrees and points","unbounded sizes and degrees, continuum of points",[NI+":splev,bisplev,tck_interp2d_linear"],
  "Model of the fpbspl array recurrence; weights non-negative with sum one by induction on the degree; equality with the Cox-de Boor recursion.")
