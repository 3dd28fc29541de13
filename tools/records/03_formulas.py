CO="fluids/core.py"; CM="fluids/compressible.py"; CV="fluids/control_valve.py"; FI="fluids/fittings.py"; GE="fluids/geometry.py"; FM="fluids/flow_meter.py"; OF="fluids/open_flow.py"; DR="fluids/drag.py"
P("C41","Loss coefficient, head and pressure conversions are mutual inverses",
  "Converting a Darcy friction factor, an equivalent length ratio or a pipe length to a loss coefficient and back, and a head to a pressure and back, returns the starting value in both directions; the pressure loss from K equals the pressure of the head loss from K; a vanishing denominator raises ZeroDivisionError.",
  "all real inputs with non-zero denominators","The inverse laws range over a continuum of inputs in several variables.",[CO+":K_from_f,f_from_K,K_from_L_equiv,L_equiv_from_K,L_from_K,head_from_K,head_from_P,P_from_head,dP_from_K"],
  "Model generated from the source over R; field.")
P("C42","Temperature conversions form a groupoid",
  "Every conversion between Celsius, Kelvin, Fahrenheit and Rankine preserves the thermodynamic temperature; any chain of conversions, of any length, equals the direct conversion; every conversion round-trips and preserves order.",
  "all real temperatures, all pairs of scales and all finite paths of conversions","Path lengths are unbounded and temperatures range over a continuum.",[CO+":C2K,K2C,F2C,C2F,F2K,K2F,C2R,K2R,F2R,R2C,R2K,R2F"],"Affine maps against an independent meaning in kelvin; induction on paths.")
P("C43","nu_mu_converter",
  "nu_mu_converter inverts itself, satisfies nu rho = mu, and raises ValueError when neither or both of mu and nu are given.","all reals with rho non-zero","Continuum of inputs.",[CO+":nu_mu_converter"],"Options for None; field.")
P("C76","Dimensionless groups satisfy the relations between them",
  "The groups give the same value from every admissible set of arguments (rho, mu or nu; rho, Cp, k or alpha) and satisfy Pe = Re Pr, Pe_m = Re Sc, Gz = Pe D/x, Le = Sc/Pr, St = Nu/(Re Pr), We = Re Ca, Oh = sqrt(We)/Re, Su = 1/Oh^2, Co^2 Bo = 1 and Ra = Gr Pr; missing data raise ValueError.",
  "all positive properties and dimensions","The relations connect several functions over a continuum of inputs.",[CO+":Reynolds,Peclet_heat,Peclet_mass,Fourier_heat,Graetz_heat,Schmidt,Lewis,Weber,Prandtl,Rayleigh,Froude,Nusselt,Bond,Confinement,Stanton,Capillary,Ohnesorge,Suratman,thermal_diffusivity"],
  "Model generated from the source over R; field and square root algebra.")
P("C44","Compression work: solve-for-missing branches agree, and thermodynamic relations",
  "Whichever of W, P1, P2, eta is omitted from isentropic_work_compression, the omitted value is returned; the work equals the enthalpy rise to the discharge temperature of isentropic_T_rise_compression; isothermal work is additive over stages and never exceeds the ideal adiabatic work; anything but exactly one omitted quantity raises ValueError.",
  "all positive temperatures, pressures, efficiencies and heat capacity ratios k <> 1","Continuum of inputs in seven variables and an inequality between two functions.",[CM+":isentropic_work_compression,isothermal_work_compression,isentropic_T_rise_compression"],"Generated real model; logarithms for the inverse laws, convexity of exp for the inequality.")
P("C45","Isentropic and polytropic efficiency conversions are inverse",
  "isentropic_efficiency and polytropic_exponent invert themselves in their two modes; in compression the isentropic efficiency is below the polytropic one and equal only at 1; bad argument combinations raise ValueError.",
  "all pressures 0 < P1 < P2, k > 1, efficiencies > 0","Continuum of inputs.",[CM+":isentropic_efficiency,polytropic_exponent"],"Real powers; strict convexity of exp.")
P("C46","Stagnation and critical-flow states are consistent",
  "P_stagnation and T_stagnation invert each other; the critical temperature and pressure are the isentropic state at the speed of sound; is_critical_flow compares the outlet pressure with P_critical_flow; stagnation values are never below static ones.",
  "all positive states, k > 1","Continuum of inputs.",[CM+":P_stagnation,T_stagnation,T_stagnation_ideal,T_critical_flow,P_critical_flow,is_critical_flow"],"Real powers.")
P("C47","isothermal_gas: all five unknowns are consistent, choking is reported",
  "The mass flow is refused with ValueError outside [Pcritical, P1] and strictly decreasing in P2 inside; the length request inverts it; the outlet pressure request is answered in closed form with exactly the requested flow whenever it is at most the choked flow, and raises ValueError beyond; inlet pressure and diameter answers carry the requested flow; the two critical pressures invert each other; a wrong number of omitted quantities raises ValueError.",
  "all positive densities, friction factors, pressures, lengths, diameters and flows","Involves a transcendental equation over a continuum of inputs and the behaviour at its turning point.",[CM+":isothermal_gas,P_isothermal_critical_flow,P_upstream_isothermal_critical_flow"],"Real model by hand (try/except). lambertw on the lower branch is a parameter with its defining equation, shown to be satisfiable; secant and brenth are parameters returning exact roots, so the float tolerance of the iterative modes (inlet pressure, diameter) is outside.")
P("C48","Gas pipeline equations: five-way solve-for-missing",
  "For Panhandle A/B, Weymouth, Fritzsche, Muller and IGT: solving for any one of Q, D, P1, P2, L of the published equation returns it, every request with positive data is answered by a state with exactly that flow, and an outlet pressure is refused with ValueError exactly when even a vacuum would not give the flow. For Spitzglass high/low and Oliphant the explicit modes do the same, and an iterated diameter carries the requested flow and is the only one. Fewer or more unknowns raise ValueError.",
  "all positive inputs with 0 <= P2 < P1","Continuum of inputs in eleven variables; irrational exponents.",[CM+":Panhandle_A,Panhandle_B,Weymouth,Spitzglass_high,Spitzglass_low,Oliphant,Fritzsche,Muller,IGT"],
  "Generated real models against the published power laws; equalities of products of powers by logarithms. The secant search for D is a parameter. Two deviations are proved: Spitzglass_low answers an impossible outlet request with a negative absolute pressure, and Oliphant ignores E and Zavg.")
P("C49","Choke pressures bound choking exactly and invert",
  "The choke pressure from control_valve_choke_P_l/_g is the boundary of is_choked_turbulent_*: choked exactly when the outlet pressure is at or below it; solving for P1 and for P2 are inverse, with and without checking; with checking on, the inlet pressures refused are exactly those at which choking is impossible; both or neither pressure raises ValueError; FF lies in [0.68, 0.96]; choking is monotone in the drop.",
  "all saturation/critical pressures, recovery factors and pressures","A boundary between two functions over a continuum of inputs.",[CV+":control_valve_choke_P_l,control_valve_choke_P_g,is_choked_turbulent_l,is_choked_turbulent_g,FF_critical_pressure_ratio_l"],"Generated real model; field.")
P("C50","Flow coefficient conversions are a consistent groupoid",
  "convert_flow_coefficient between Kv, Cv, Av is multiplication by a fixed unit ratio, so it round-trips and composes; any other scale name raises NotImplementedError; Kv_to_K/K_to_Kv, Cv_to_K/K_to_Cv, Cv_to_Kv/Kv_to_Cv are inverse pairs and a larger Kv is a smaller K.",
  "all reals, all strings as scale names","Continuum of values and all strings.",[CV+":convert_flow_coefficient",FI+":Kv_to_Cv,Cv_to_Kv,Kv_to_K,K_to_Kv,K_to_Cv,Cv_to_K"],"Generated real model; field.")
P("C51","Changing the diameter basis of a loss coefficient keeps the pressure drop","change_K_basis(K1, D1, D2) gives the same pressure drop at every flow and density; it composes, inverts, is the identity at D1 = D2, and a zero D1 raises ZeroDivisionError.","all positive diameters, all K, densities and flows","Quantifies over flows that are not inputs of the function.",[FI+":change_K_basis"],"Generated real model; field.")
P("C52","Two-K and three-K fittings","Hooper2K and Darby3K give, for every fitting in their tables, a positive loss coefficient equal to the published formula with that fitting's constants, the same as when the constants are passed directly (a name takes precedence over constants); it decreases strictly with the Reynolds number and never grows with the size. Unknown names and incomplete constants raise ValueError, zero size or Reynolds number ZeroDivisionError. For Darby3K an inside diameter may replace the nominal size: it stands for exactly the tabulated nominal size at each schedule 40 diameter.","all table entries, all names, all positive sizes and Reynolds numbers","Continuum of inputs and all strings as names.",[FI+":Darby3K,Hooper2K,Hooper,Darby"],"Real model with the tables transcribed; interpolation lemmas. Deviation proved: below about 4.5 mm the extrapolated nominal size is negative and Darby3K returns a complex number.")
P("C53","Partly filled spheres and vertical vessels hold exactly the volume below the level",
  "V_partial_sphere, A_partial_circle, V_vertical_conical/_ellipsoidal/_spherical/_torispherical and the four concave versions return the integral of the horizontal cross section up to the liquid level (levels outside the shape are clamped or continued into the cylinder); they are 0 when empty, never decrease with the level, and reach the textbook full volumes; SA_partial_sphere is pi*D*h; a_torispherical is the height at which the torispherical section reaches the full vessel, and dish and knuckle meet there without a jump.",
  "all positive dimensions, all levels, dish and knuckle factors with 0 < k <= 1/2 <= f","An integral over a continuum of sections; no finite set of levels determines it.",[GE+":V_partial_sphere,SA_partial_sphere,A_partial_circle,V_vertical_conical,V_vertical_ellipsoidal,V_vertical_spherical,V_vertical_torispherical,V_vertical_conical_concave,V_vertical_ellipsoidal_concave,V_vertical_spherical_concave,V_vertical_torispherical_concave,a_torispherical,SA_partial_cylindrical_body"],
  "Generated real model; Coquelicot integrals, fundamental theorem of calculus with explicit antiderivatives.")
P("C54","Any two of angle, pitch, parallel and normal pitch give the others","pitch_angle_solver: for every layout angle between 0 and 90 degrees and every positive pitch, each of the six pairs of quantities returns the same four values; every answer contains the given values and satisfies normal = pitch*sin(angle), parallel = pitch*cos(angle), pitch^2 = parallel^2 + normal^2; fewer than two quantities raise ValueError.","all angles, all positive pitches; for the consistency part all reals","Continuum of triangles.",[GE+":pitch_angle_solver"],"Generated real model; trigonometry. Deviation proved: with a negative parallel pitch and the normal pitch the returned angle does not fit the returned pitches.")
P("C80","Heads of a horizontal vessel hold exactly the volume below the level",
  "V_horiz_conical, V_horiz_ellipsoidal, V_horiz_guppy and V_horiz_spherical (cap depth up to the radius) with headonly=True return the double integral of the head's depth over the part of the end circle below the level, for every level (clamped to the vessel); without headonly they return two heads plus the length times A_partial_circle.",
  "all positive diameters, all depths and levels; for the spherical head any quadrature that is exact on continuous functions","A double integral over a continuum of points, at every level.",[GE+":V_horiz_conical,V_horiz_ellipsoidal,V_horiz_guppy,V_horiz_spherical,A_partial_circle"],
  "Hand-written real model following the source line by line; Coquelicot integrals with explicit antiderivatives. Deviation proved: a spherical head deeper than the radius is given less volume than a hemisphere when horizontal.")
P("C81","Whole vessels: level to volume, totals and orientation",
  "V_from_h returns, for horizontal vessels with flat, conical, ellipsoidal, guppy or spherical ends, the volume below the level in both heads and the cylinder; for vertical vessels with flat, conical, ellipsoidal, spherical or torispherical ends, the integral of the vessel's cross section up to the level, the top head upside down. It never decreases with the level, and at the top or above equals the total of V_tank, for all heads. V_tank gives the same volumes standing and lying for conical, ellipsoidal and spherical ends. Unknown head names and torispherical heads without both factors raise ValueError, as does a negative level in a horizontal vessel. SA_tank adds the two ends and the wall.",
  "all dimensions, levels, pairs of heads, all strings as head names","Continuum of levels and shapes; all pairs of heads.",[GE+":V_from_h,V_tank,SA_tank,V_horiz_conical,V_vertical_conical"],
  "Hand-written real model following the source line by line; composition of the integrals of C53 and C80. Deviations proved: guppy heads of a vertical vessel hold nothing; SA_tank takes an unknown head name for a flat end.")
P("C55","Orifice plates: coefficient, loss and flow rate describe one device",
  "discharge_coefficient_to_K and K_to_discharge_coefficient invert each other exactly; the permanent loss dP_orifice is a proper fraction of the measured difference and equals K velocity heads of the very flow rate flow_meter_discharge predicts; that flow rate is C eps times the ideal discharge, grows with the pressure difference and doubles when it quadruples; back-flow and a bore as wide as the pipe are refused.",
  "all bores smaller than the pipe, all positive discharge coefficients, all pressures with P2 <= P1","Equalities between independently written formulas over a continuum of sizes, coefficients and pressures.",[FM+":discharge_coefficient_to_K,K_to_discharge_coefficient,dP_orifice,flow_meter_discharge,velocity_of_approach_factor,flow_coefficient"],
  "Generated real model of the six functions; square-root algebra.")
P("C56","Every meter name is dispatched, with the right area and loss",
  "For each of the 28 names in all_meters the diameter ratio lies strictly between 0 and 1 and its square is the open fraction of the pipe area (round hole, ring around a cone, segment under a wedge); flow_meter_discharge is C eps times the ideal flow through that area; other names raise ValueError in all four functions; the short names mean the ISO meters; a C or epsilon given by the caller replaces the computed one and nothing else; permanent losses are proper fractions of the measured difference for plates, nozzles and venturi tubes, and for cones and wedges exactly when the diameter ratio is not small.",
  "all strings, all sizes 0 < D2 < D, all pressures","Quantifies over all strings and a continuum of sizes; areas are integrals.",[FM+":differential_pressure_meter_beta,differential_pressure_meter_C_epsilon,differential_pressure_meter_dP,diameter_ratio_cone_meter,diameter_ratio_wedge_meter,dP_venturi_tube,all_meters"],
  "Generated real model of the dispatchers; the wedge area is related to the integral of the chord of the pipe. Deviations proved: a cone filling the pipe is reported to lose more than the measured difference; two advertised meters have no permanent loss.")
P("C57","Open channels and weirs",
  "n_Manning_to_C_Chezy and C_Chezy_to_n_Manning invert each other; V_Manning = V_Chezy with the converted coefficient; steeper, larger, smoother channels are faster and every row of the roughness tables gives its three velocities in that order; the weir formulas give a discharge that is never negative, strictly increasing in the head, proportional to the channel width (full-width weirs).",
  "all non-zero coefficients, positive radii, slopes, heads and widths; every table row; every notch angle","continuum of inputs",[OF+":V_Manning,V_Chezy,n_Manning_to_C_Chezy,C_Chezy_to_n_Manning,n_dicts,Q_weir_V_Shen,Q_weir_rectangular_Kindsvater_Carter,Q_weir_rectangular_SIA,Q_weir_rectangular_full_Ackers,Q_weir_rectangular_full_SIA,Q_weir_rectangular_full_Rehbock,Q_weir_rectangular_full_Kindsvater_Carter"],
  "Generated real model; Rpower algebra and monotonicity, table check by computation. Deviations proved: Q_weir_rectangular_SIA discharges at zero head (head plus crest height is raised to 3/2); Q_weir_rectangular_full_SIA is not a 3/2-power law (term linear in the head).")
P("C58","Drag coefficient of a sphere and terminal velocity",
  "Every method drag_sphere_methods lists for a Reynolds number is accepted there and gives a positive coefficient, unlisted names raise ValueError; without a method the coefficient is 24/Re below 0.01, Barati above 0.1, a blend between, continuous everywhere except for a step below 1e-8 at the switch to Barati_high; the velocity v_terminal returns for a sinking sphere balances drag against weight and buoyancy.",
  "all positive Reynolds numbers, all strings; all diameters, densities, viscosities","continuum; continuity",[DR+":drag_sphere,drag_sphere_methods,v_terminal,_v_terminal_err"],
  "Generated real model of the 21 correlations, hand-written table, v_terminal with the secant solver as a parameter under an explicit contract (only points with residual at most eps are returned); sign analysis, verified interval arithmetic for Barati_high and the size of the step. Deviations proved: Barati alone saturates for vanishing Re; a rising sphere always gets the creeping-flow velocity however large its Reynolds number.")
P("C59","Trajectories of spheres",
  "The closed-form branch of integrate_drag_sphere returns the solution of Newton's law with Stokes' drag, composes over consecutive time steps, approaches the terminal velocity without overshooting; time_v_terminal_Stokes returns the time at which that solution is within tol of the terminal velocity; beyond the range of exp the answer is exact to 1e-9; otherwise the integrator is given Newton's law with the coefficient of the current speed, with zero acceleration at v_terminal.",
  "all times, speeds, diameters, densities and viscosities","differential equation over a continuum",[DR+":integrate_drag_sphere,time_v_terminal_Stokes"],
  "Hand-written model; exp refuses arguments above a limit (OverflowError branch modelled), odeint is a parameter; Coquelicot is_derive. Deviations proved: rising and neutral spheres raise ValueError in time_v_terminal_Stokes and, for long times, in integrate_drag_sphere; a start at the terminal velocity raises ValueError; upward motion is always given Stokes' drag.")
P("C60","Standard atmosphere",
  "For every altitude above the centre of the earth ATMOSPHERE_1976 has positive temperature, pressure, density, sound speed, viscosity, conductivity and gravity; the temperature is the published piecewise linear profile and continuous across all layer boundaries; the pressure obeys hydrostatic balance with the reported gravity and density between boundaries, and never rises with altitude beyond the rounding of the tables; a temperature correction shifts only the temperature and what follows from it; density obeys the ideal gas law; pressure_integral from a standard state is the difference of the standard pressures across any number of layers and smaller for warmer air; airmass at the zenith is the density integral and grows as the line of sight is lowered.",
  "all altitudes, corrections, pressures, angles, density profiles; all solvers that only return roots; exact quadrature","A differential equation and integrals across eight layers over a continuum of altitudes.",["fluids/atmosphere.py:ATMOSPHERE_1976,airmass,to_int_airmass"],
  "Hand-written model of the class; derivative of the layer formulas, interval arithmetic for the jumps of the tabulated base pressures (below 1e-13), induction over the layers for continuity, monotonicity and integrals.")
P("C77","Control valve sizing delivers the requested flow",
  "size_control_valve_l/_g without diameters return the Kv that carries exactly the requested flow under the choking-limited drop, and never a larger one for a lower outlet pressure; with reducers the returned Kv carries between 99 % and 100 % of it with its own piping factors; the laminar correction always terminates and its Kv, derated by its own Reynolds factor, still exceeds the turbulent requirement; some but not all diameters raise ValueError.",
  "all positive fluid data, pressures, flows and diameters (reducers of non-negative total loss)","A fixed-point iteration, an unbounded recursion and an implicit equation over a continuum of inputs.",[CV+":size_control_valve_l,size_control_valve_g,Reynolds_valve,Reynolds_factor,loss_coefficient_piping"],
  "Hand-written model of the two functions over generated coefficients; invariant of the iteration; a growth argument for termination. Deviations proved: a flow the reducers cannot pass raises NameError (liquid) or is answered with a too small Kv (gas); the reported FR and choked flag are not those of the returned Kv.")
P("C78","Contractions, diffusers and bends",
  "The sudden expansion loses exactly half the square of the velocity difference at every flow; the sudden contraction loses between 0 and 0.571 heads, nothing only without contraction, more for smaller outlets; zero rounding and zero bevel reproduce it and rounding up to one diameter never costs more; cone angle and cone length are interchangeable for every method of conical contractions and diffusers; bend radius and bend diameters are interchangeable; mitre bend losses grow with the angle; charts are clamped to non-negative values; unlisted methods raise ValueError.",
  "all positive diameters, angles, lengths, flows; all strings as method","Continuum of geometries; equalities between differently parameterised calls.",[FI+":diffuser_sharp,contraction_sharp,contraction_round,contraction_beveled,contraction_conical,diffuser_conical,contraction_conical_Crane,diffuser_conical_Crane,bend_rounded,bend_miter"],
  "Generated real model; polynomial inequalities, trigonometry, interpolation lemmas. Deviations proved: diffuser_conical_Crane with a length returns a negative loss for every proper expansion; bend_rounded with method Crane and a bend radius raises ValueError unless the radius is five diameters.")
P("C79","Crane valves and fittings",
  "Crane_loss_coefficient accepts exactly the listed fittings; at line size each has its published multiple of the friction factor whatever the angle; a valve smaller than the pipe never has less resistance than at line size; leaving out the friction factor uses that of the pipe.",
  "all fittings, all positive diameters and friction factors, reducer angles in (0, 180]","Continuum of diameters and angles over 28 fittings, and all strings as names.",[FI+":Crane_loss_coefficient,K_gate_valve_Crane,K_globe_valve_Crane,K_angle_valve_Crane,K_ball_valve_Crane,K_plug_valve_Crane,v_lift_valve_Crane"],
  "Generated real model against a separately written table. Deviations proved: the gate valve jumps at zero reducer angle by a finite amount; v_lift_valve_Crane fails with UnboundLocalError when a needed diameter is left out.")

P("C82","Expansibility factors",
  "The orifice, nozzle and cone expansibility factors are at most 1, equal to 1 exactly when there is no pressure drop, positive (nozzles; orifices up to a diameter ratio of 0.75: above 0.47), falling with the outlet pressure (orifices); the special case k = 1 of the nozzle formula is the limit of the general one; for every meter name the computed expansibility obeys the same bounds.",
  "all positive pressures with P2 <= P1, all k > 1 (orifices: k > 0), all sizes 0 < D2 < D, all meter names","A removable singularity, a limit, and inequalities between powers over a continuum.",[FM+":orifice_expansibility,orifice_expansibility_1989,nozzle_expansibility,cone_meter_expansibility_Stewart,differential_pressure_meter_C_epsilon"],
  "Concavity of the power function; difference quotient limit with Coquelicot. Deviations proved: with k = 1 nozzle_expansibility ignores the diameter ratio it is given (wedge meters) and raises ZeroDivisionError without pressure drop.")
P("C83","Solving a flow meter for its unknown",
  "Whichever of flow rate, throat size, upstream or downstream pressure is left out, the value returned by differential_pressure_meter_solver satisfies the meter equation (flow = discharge with the coefficients that belong to that flow) with the other three; with coefficient and expansibility given the flow is the discharge equation's value; not exactly one unknown raises ValueError.",
  "all meters, inputs and root finders that only return roots","Quantifies over root finder behaviour, all meters and all inputs.",[FM+":differential_pressure_meter_solver"],
  "Hand-written model of the solver over the generated correlations, with secant and brenth as parameters whose contract (an answer is a root) is a hypothesis. Deviation proved: without k and epsilon the error is a TypeError.")
PB="fluids/packed_bed.py"
P("C84","Packed beds",
  "For every method name dP_packed_bed returns mu*vs*L/dp^2 times that method's published dimensionless function of particle Reynolds number, voidage and diameter ratio; so the drop is positive, rises with velocity, is proportional to the bed length, falls with the voidage, and is independent of the system of units; sphericity scales the particle size; default method, offered methods and refusal of unknown names agree; voidage correlations fall with the bed diameter and stay proper fractions.",
  "all positive particle sizes, velocities, densities, viscosities, lengths and bed diameters, voidages in (0,1), all strings as method","Continuum of inputs for fourteen correlations with fractional powers.",[PB+":dP_packed_bed,Ergun,Tallmadge,Kuo_Nydegger,Jones_Krier,Carman,Hicks,Brauer,KTA,Erdim_Akgiray_Demir,Fahien_Schriver,Idelchik,Harrison_Brunner_Hecker,Montillet_Akkari_Comiti,Guo_Sun,dP_packed_bed_methods,voidage_Benyahia_Oneil"],
  "Generated real model against a separately written table of dimensionless functions. Voidage monotonicity is not proved for Fahien & Schriver. Deviation proved: Guo & Sun gives a negative drop for fine particles in a wide bed.")
TP="fluids/two_phase_voidage.py"
P("C85","Void fraction of gas-liquid mixtures",
  "For a gas flowing with a denser liquid, 24 of the 29 methods of liquid_gas_voidage give a proper fraction; 16 of them never report more gas than the two phases would have moving at one speed; ten rise strictly with the quality; Graham gives 0 up to its stated Froude rate of 0.01032 and a proper fraction from there on, Kopte_Newell_Chato is proper below a Froude rate of 2900; without a method the phases move at one speed, pure liquid gives 0 and pure gas 1; mixture density and void fraction determine each other; a method is refused with TypeError exactly when liquid_gas_voidage_methods does not offer it, unneeded arguments make no difference, unknown names raise ValueError.",
  "all qualities in (0,1), all densities rhog < rhol, positive viscosities, tensions, flows, diameters, pressures up to critical, any inclination; all strings as method","Continuum of nine inputs for 29 correlations.",[TP+":liquid_gas_voidage,liquid_gas_voidage_methods,density_two_phase,two_phase_voidage_experimental,homogeneous,Zivi,Smith,Fauske,Chisholm_voidage,Nishino_Yamazaki,Guzhov,Steiner,Rouhani_1,Rouhani_2,Dix,Sun_Duffey_Peng,Xu_Fang_voidage,Woldesemayat_Ghajar,Graham,Kopte_Newell_Chato"],
  "Generated real model; slip form 1/(1+s), drift flux lemma, real inequalities. Deviations proved: Domanski Didion goes negative at low quality; Tandon Varma Gupta and Harms (never negative) exceed 1; the slip-ratio methods raise ZeroDivisionError for pure liquid.")
P("C86","Viscosity of gas-liquid mixtures",
  "All six methods of gas_liquid_viscosity give the liquid viscosity at quality 0 and the gas viscosity at quality 1 and are positive between; McAdams, Cicchitti, Duckler and Lin Kwok stay strictly between the two viscosities; the default is McAdams; a method is refused with TypeError exactly when gas_liquid_viscosity_methods does not offer it; unknown names raise ValueError.",
  "all qualities in (0,1), positive viscosities and densities, all strings as method","Continuum of inputs and all strings.",[TP+":gas_liquid_viscosity,gas_liquid_viscosity_methods,Beattie_Whalley,McAdams,Cicchitti,Lin_Kwok,Fourar_Bories,Duckler"],
  "Generated real model; real inequalities. Deviation proved: Beattie Whalley and Fourar Bories exceed the viscosity of the liquid.")
PD="fluids/particle_size_distribution.py"
P("C87","Discrete particle size distributions",
  "From amounts at given sizes counted in any basis, ParticleSizeDistribution computes the share of each size by number, length, area and volume; every set is non-negative and sums to 1 and the set of the given basis is the normalised input (also for amounts between consecutive sizes). Every mean diameter D[p,q] is the ratio of moments (weighted geometric mean for p = q), lies between smallest and largest size, is symmetric in p and q and never falls when an index is raised; it scales with the unit of length and ignores the unit of amount; the specific surface is 6/D[3,2]; class fractions may be given as a cumulative curve.",
  "all lists of positive sizes and non-negative amounts (not all zero) of any length, all real orders p, q and bases","Unbounded lists and a continuum of sizes, amounts and moment orders; an inequality between power means.",[PD+":ParticleSizeDistribution,mean_size,mean_size_ISO,vssa,di_power"],
  "Hand-written model; sums by induction, ordering of the means from strict convexity (integral of e^(su)). Deviations proved: a cumulative curve with amounts at given sizes loses its first value; with size classes, means of index -1 raise ZeroDivisionError.")
P("C88","Continuous particle size distributions",
  "The Gates-Gaudin-Schuhman, Rosin-Rammler and lognormal cumulative functions are total, lie in [0,1], start at 0 and never fall; every distribution object's curve keeps this with any size limits, is 0 up to the lower and 1 from the upper limit, and its slope is the density the object gives; the basis integrals are antiderivatives of size^n times density; a quantile returned by dn has the requested cumulative fraction, fractions outside [0,1] raise ValueError; discretised fractions add up to the curve and are non-negative; mean sizes between two positive limits lie between them; changing a Gates-Gaudin-Schuhman distribution to a higher basis raises its exponent; Renard sizes form a geometric series.",
  "all positive parameters, all sizes and limits, all real orders, all root finders that only return roots; lists of any length","Continuum of sizes and parameters; statements about derivatives and integrals.",[PD+":pdf_lognormal,cdf_lognormal,pdf_lognormal_basis_integral,pdf_Gates_Gaudin_Schuhman,cdf_Gates_Gaudin_Schuhman,pdf_Gates_Gaudin_Schuhman_basis_integral,pdf_Rosin_Rammler,cdf_Rosin_Rammler,pdf_Rosin_Rammler_basis_integral,PSDLognormal,PSDGatesGaudinSchuhman,PSDRosinRammler,ParticleSizeDistributionContinuous,psd_spacing"],
  "Hand-written model; derivatives with Coquelicot. erf and the incomplete gamma function are parameters constrained by their derivatives (contracts shown satisfiable by constructing both from integrals, including the Gaussian integral bound). Deviations proved: PSDGatesGaudinSchuhman with an upper limit raises AttributeError, without a lower limit raises ZeroDivisionError for every lower basis; its curve in another basis exceeds 1 above the top size and, with a lower limit, starts below 0.")
DD="fluids/numerics/doubledouble.py"
P("C89","Double-double arithmetic",
  "For normalised pairs (high part the rounded sum) the comparisons decide the order of the values high + low; the sum and the product of two plain floats are returned exactly; sum, product, quotient and integer power of pairs are off by at most 10u^2(|x0|+|x1|), 20u^2|x0 x1|, 40u^2|x0/x1| and 44u^2 n|x|^n with u = 2^-53; adding numbers of one sign is relatively accurate; products are normalised again; each part of a complex product (sum) is off by at most 31u^2 (10u^2) times the sizes of the products (numbers) it is made of; division by zero raises and the power 0 is 1.",
  "all normalised pairs of binary64 numbers without overflow or underflow, all exponents n","Rounding errors over 2^256 operand pairs and unboundedly many multiplications.",[DD+":eq_dd,neq_dd,lt_dd,le_dd,gt_dd,ge_dd,add_dd,mul_noerrors_dd,mul_dd,div_dd,intpow_dd,mul_imag_dd,add_imag_dd,sqrt_imag_dd"],
  "Hand-written model over Flocq's rounding operator (round to nearest even, precision 53, gradual underflow, no overflow); error-free transformations TwoSum, Fast2Sum and Dekker's product from Flocq. Deviation proved: sqrt_imag_dd of a number with negative imaginary part is the root of its mirror image. Not covered: square roots, cube roots, exponential, logarithm.")
P("C90","Numerical derivatives, gradients and second derivatives",
  "derivative(f, x0, dx, n, order) with stored weights is within M/3*dx^(order-n) of the n-th derivative (M bounds the derivative of that order over the evaluation span), plus 2e-16 of the Taylor terms for the rounded weights; the three point formulas are exact for quadratics; limits wide enough are never overstepped and change nothing when the span fits; too few or an even number of points raise ValueError, a zero step ZeroDivisionError. Every entry of jacobian is the difference quotient at the given point: exact for affine functions, within half a step times the second derivative bound otherwise; hessian is symmetric, its entries are second difference quotients, exact for quadratic functions.",
  "all smooth functions, points, steps, all 21 stored (n, order) pairs, any number of variables","All smooth functions and steps; dimensions unbounded.",["fluids/numerics/__init__.py:derivative,central_diff_weights,jacobian,hessian"],
  "Hand-written real model with the table of weights as exact rationals; moments of the weights checked by computation in Q, then Taylor's theorem (Coquelicot) on both sides of the point. Deviation proved: with a limit nearer than half the span the returned value is the derivative at a shifted point (x^2 at 1 with upper limit 1, step 0.1 gives 1.8).")
SV="fluids/safety_valve.py"
P("C91","Relief valve sizing and flare noise",
  "The area API520_A_g returns passes the stated gas flow through an ideal nozzle (choked or subsonic) within API's rounding of constants; it is proportional to the flow, falls with the relieving pressure, rises with the back pressure in subsonic flow and ignores it in choked flow; the choked coefficient rises with the heat capacity ratio and its value at ratio 1 is the limit of the formula. API520_A_steam satisfies Napier's equation, needs more area for more superheat and raises ValueError above 922.15 K. API520_A_l satisfies Bernoulli's equation to 1 part in 10^4; with a viscosity it is the area divided by the API factor (in (0,1], rising with Reynolds number) at the Reynolds number of the uncorrected valve. The flare noise chart is total, never falls and has no jump; noise follows the inverse square law and rises 10 dB per tenfold mass flow.",
  "all positive flows, temperatures, molecular weights, heat capacity ratios above 1, pressures, coefficients; all Reynolds numbers and pressure ratios","Continuum of up to ten inputs; monotonicity and limits; agreement with the governing physical law at every point.",[SV+":API520_C,API520_F2,API520_A_g,API520_A_steam,API520_Kv,API520_A_l,API521_noise_graph,API521_noise,VDI_3732_noise_ground_flare,VDI_3732_noise_elevated_flare"],
  "Hand-written real model on top of the modelled table lookups; nozzle equations as separate specification, interval arithmetic for the constants, derivatives with Coquelicot. Deviations proved: the area jumps at the critical pressure, a heat capacity ratio of exactly 1 raises ZeroDivisionError although the choked coefficient covers it, API520_A_l with its default Kv and mu raises TypeError.")
TD="fluids/two_phase.py"
P("C92","Two-phase pressure drop",
  "For a gas flowing with a denser, more viscous liquid: nineteen correlations answer with a positive pressure drop in proportion to the pipe length (the six that interpolate between all-liquid and all-gas flow, when the gas alone would lose at least as much); Friedel is never below the quality-weighted single-phase drops; Lockhart-Martinelli, Kim-Mudawar, Mishima-Hibiki, Hwang-Kim, Zhang-Hibiki-Mishima and the slow branch of Wang-Chiang-Lu are never below the liquid and gas each flowing alone, Lockhart-Martinelli with the published interaction constants; seven correlations give the liquid's single-phase drop at quality 0 and six the gas's at quality 1. two_phase_dP returns the named correlation's value exactly when the data it needs are given, refuses every other name with ValueError, and its default is the first applicable of the documented preferences. The acceleration drop adds up along a pipe and vanishes without change; the gravitational drop is the mean of the ends' column weights. The regime maps return one of the published regimes together with the superficial velocities (Mandhane) or the Martinelli and Froude parameters of the phases flowing alone (Taitel-Dukler). Beggs-Brill, uphill or level, loses more than the weight of the no-slip mixture.",
  "all mass flows, qualities, densities rhog < rhol, viscosities mug < mul, tensions, diameters, relative roughness up to 0.05, lengths; all strings as method","Continuum of ten inputs for twenty-two correlations; limits at pure phases; all strings.",[TD+":two_phase_dP,two_phase_dP_methods,Beggs_Brill,Friedel,Chisholm,Baroczy_Chisholm,Muller_Steinhagen_Heck,Lombardi_Pedrocchi,Theissing,Jung_Radermacher,Tran,Chen_Friedel,Zhang_Webb,Bankoff,Xu_Fang,Yu_France,Wang_Chiang_Lu,Hwang_Kim,Zhang_Hibiki_Mishima,Mishima_Hibiki,Kim_Mudawar,Lockhart_Martinelli,two_phase_dP_acceleration,two_phase_dP_gravitational,two_phase_dP_dz_gravitational,Taitel_Dukler_regime,Mandhane_Gregory_Aziz_regime"],
  "Generated real model over the modelled friction factor; each correlation evaluated once in terms of the single-phase gradients, then real inequalities. Theissing and Beggs-Brill are covered for answers that exist. Gronnerud is modelled without a theorem. Deviations proved: Chisholm and Muller-Steinhagen-Heck go negative for slow laminar flow of a very thin gas; Tran gives 4.3 times the gas drop at quality 1; Lockhart-Martinelli refuses pure liquid (ZeroDivisionError) as does the acceleration drop at full dryness; Beggs-Brill is offered when the inclination is left out but then refused with TypeError; Mandhane returns its superficial velocities in the opposite order from its documentation; the Beggs-Brill hold-up exceeds 1 in slow flow.")
RT="fluids/numerics/polynomial_roots.py"
P("C93","Closed-form roots of quadratics, cubics and quartics",
  "roots_quadratic answers for every quadratic; the two values are its complete factorisation over the complex numbers, both real exactly when the discriminant is not negative, otherwise a conjugate pair. roots_cubic answers for every real cubic; its three values are the complete factorisation (multiplicities included), all real exactly when the discriminant is not negative, otherwise one real root and a conjugate pair. roots_cubic_a1 and roots_cubic_a2 factorise completely every complex cubic without the degenerate relation b^2 = 3ac. Whatever roots_quartic answers is the complete factorisation of the quartic. With a zero leading coefficient roots_cubic returns the roots of the quadratic or linear polynomial, and raises ZeroDivisionError for a constant.",
  "all real coefficients (quadratic, cubic), all complex coefficients (monic cubic, general cubic, quartic)","Continuum of coefficients including every degenerate multiplicity pattern; completeness of a set of roots cannot be seen from residuals at sample inputs.",[RT+":roots_quadratic,roots_cubic,roots_cubic_a1,roots_cubic_a2,roots_quartic"],
  "Hand-written model over Coquelicot's complex numbers with principal square and cube roots; constants such as 1/3 and sqrt(3) are their exact values; Cardano's and Ferrari's identities by field arithmetic, sign of the discriminant by real algebra. Deviations proved: roots_cubic_a1 and roots_cubic_a2 raise ZeroDivisionError for a(x + b/3a)^3 + q with q/a not negative (x^3 + 1); roots_quartic raises it for every ax^4 + e, dividing by a value it does not use.")
JP="fluids/jet_pump.py"; SA="fluids/saltation.py"; FL="fluids/filters.py"; SE="fluids/separator.py"; MX="fluids/mixing.py"; PT="fluids/packed_tower.py"
P("C94","Liquid jet pump",
  "Whichever single one of its six quantities liquid_jet_pump_ancillary is asked for, a number it returns satisfies the nozzle equation (jet energy against suction energy with both inlet losses) with the five given ones; the flows and pressures of an operating point are recovered exactly; the secondary flow is nan exactly when no flow is possible. liquid_jet_pump keeps every given quantity, reports derived numbers (flow ratio, head ratio, efficiency) that agree with them, and its pressures and flows satisfy the pressure ratio and nozzle equation within 1e-5 (discharge pressure given) or exactly up to the sign of the two unknowns (discharge pressure unknown); with the nozzle inside the mixing tube the ratio is the documented fraction and expresses the momentum balance. Any other number of unknowns raises ValueError.",
  "all positive densities, flows, areas, loss coefficients, pressures; all choices of the unknown; all root finders that only return roots","Continuum of eleven inputs for each of seven unknowns; agreement of the answer with the governing equations.",[JP+":liquid_jet_pump,liquid_jet_pump_ancillary"],
  "Hand-written real model; numerical solves are a parameter that returns only roots. Deviations proved: with a retracted nozzle the code uses (1 - Ks) where its documentation gives (1 + Ks); a negative suction pressure is returned as its absolute value.")
P("C95","Saltation velocity in pneumatic conveying",
  "Each of Rizk, Matsumoto_1974, Matsumoto_1975, Matsumoto_1977, Schade and Weber_saltation returns the unique positive gas velocity at which the published relation between solids loading and Froude number holds (with the particle's branch of the relation); Geldart_Ling is its published power law, and its two branches differ by less than 0.6 % where they meet. All seven velocities rise strictly with the solids flow.",
  "all positive solids flows, diameters, densities and velocities","Continuum of inputs; uniqueness of an implicit solution and monotonicity.",[SA+":Rizk,Matsumoto_1974,Matsumoto_1975,Matsumoto_1977,Schade,Weber_saltation,Geldart_Ling"],
  "Generated real model; logarithms linearise the power laws, interval arithmetic for the join.")
P("C96","Loss coefficients of screens and grills",
  "round_edge_grill falls from 2 to 0.2 between open fractions 0.3 and 0.7; the losses of square_edge_grill, square_edge_screen, round_edge_screen and round_edge_open_mesh are non-negative, never rise with the open fraction and vanish at 1. Both grills add wall friction exactly when the thickness exceeds 50 hydraulic diameters. round_edge_screen is the product of a factor of the Reynolds number (0.52 to 1.3, never rising), (1-a^2)/a^2 and a tilt factor (0.09 to 1, 1 when perpendicular, never rising up to 45 degrees and beyond 45 degrees). round_edge_open_mesh is the published quadratic of the named mesh times a tilt factor and refuses every other name with ValueError.",
  "all open fractions in (0,1), Reynolds numbers, angles, thicknesses","Continuum of inputs over interpolated tables and splines.",[FL+":round_edge_screen,round_edge_open_mesh,square_edge_screen,square_edge_grill,round_edge_grill"],
  "Generated real model over the modelled interp and splev; spline pieces evaluated exactly, interval arithmetic. Deviations proved: round_edge_grill returns negative loss coefficients for open fractions from 0.8 on (the spline is extrapolated although a comment promises constant ends); tilting a round edge screen from 45 to 46 degrees raises its loss.")
P("C97","Gas-liquid separators and demisters",
  "K_separator_Watkins answers with a positive value for each of its three methods (1.25 times as much for a horizontal vessel), on the chart between 0.0062 and 0.142 m/s and with the two published fits within 10 % of each other, refuses every other method name and a stream without liquid with ValueError. K_separator_demister_York always lies between 0.056 and 0.107 m/s, rises up to 15 psi, never rises from there on and is constant below 1 and above 5500 psi. At the velocity v_Souders_Brown gives with K_Souders_Brown_theoretical, and at no other, the drag on a drop equals its weight less buoyancy; a liquid lighter than the gas raises ValueError.",
  "all qualities in (0,1), densities, pressures, drop sizes, drag coefficients, all strings as method","Continuum of inputs over a fitted spline; all strings.",[SE+":K_separator_Watkins,K_separator_demister_York,v_Souders_Brown,K_Souders_Brown_theoretical"],
  "Generated real model; splev proved total, interval arithmetic for the piecewise limits.")
P("C98","Mixing times, tee and static mixers",
  "adjust_homogeneity is the exponential decay law normalised to 95 % and rises with the target. agitator_time_homogeneous is the published formula on each side of the regime limit, falls with the power (also across the limit), rises with the target, and takes half the tank diameter as default impeller. time_helical_ribbon_Grenville falls with the power number and in inverse proportion to the speed; Kp_helical_ribbon_Rieger is positive, falls with the wall clearance and is unchanged by scaling. COV_motionless_mixer starts at the root of the flow ratio and every added length leaves the same fraction; K_motionless_mixer is additive in length. size_tee is the published law for one to four jets, falls along the pipe, falls with the side flow for two to four jets, and refuses other numbers of jets with ValueError.",
  "all positive flows, diameters, speeds, viscosities, densities, lengths, homogeneities in (0,1), numbers of jets","Continuum of inputs with fractional exponents; monotonicity across regimes.",[MX+":adjust_homogeneity,agitator_time_homogeneous,Kp_helical_ribbon_Rieger,time_helical_ribbon_Grenville,size_tee,COV_motionless_mixer,K_motionless_mixer"],
  "Generated real model; power laws through logarithms. Deviation proved: for one jet size_tee uses the exponent 1/33 in place of 1.33, so that a stronger jet leaves more than twice the variation after five diameters.")
P("C99","Packed towers and demister pads",
  "Stichlmair_dry is the published sphere-based drop: positive, rising with the gas velocity, proportional to height; any answer of Stichlmair_wet satisfies the published implicit equation, with liquid hold-up strictly between 0 and the voidage and a drop above the dry one, and without liquid it is the dry drop; Robbins is the published equation in its own units, rises with both flows and is proportional to height; both El-Dessouky correlations agree with their published forms in mm and mesh density to 1e-10; the separation efficiency of a demister lies in (0,1] and never falls with velocity or drop size; dP_demister_wet_ElDessouky is positive, rises with velocity and is proportional to the pad's thickness; voidage_experimental is the part of the bed volume not filled by solid; specific_area_mesh is the wire surface of a unit volume; dP_demister_dry_Setekleiv_Svendsen is positive for pads with specific area times thickness up to 13.9 or from 55.7 on.",
  "all positive densities, viscosities, velocities, packings, voidages in (0,1); all root finders that only return roots","Continuum of inputs; the answer of an iterative solve satisfies its equation at every input.",[PT+":Stichlmair_dry,Stichlmair_wet,Robbins,separation_demister_ElDessouky,dP_demister_wet_ElDessouky,dP_demister_dry_Setekleiv_Svendsen,voidage_experimental,specific_area_mesh"],
  "Generated and hand-written real model; secant solve as a parameter that returns only roots. Deviation proved: dP_demister_dry_Setekleiv_Svendsen returns a negative pressure drop at specific area times thickness 15. Stichlmair_flood is not modelled.")
P("C100","Air leakage into vacuum equipment",
  "vacuum_air_leakage_Ryans_Croll is positive, strictly rises with the volume, never falls as the vacuum deepens (its branches meet upwards) and is 0 without vacuum; vacuum_air_leakage_Seider is above 5 lb/h and strictly rises with volume and vacuum from one torr of vacuum on; vacuum_air_leakage_HEI2633 is positive and never falls with volume or vacuum; the Worthington table never falls with the vacuum and its conservative values exceed the others.",
  "all volumes (HEI up to 1e12 m3), pressures and atmospheric pressures (Seider: 1 to 1e10 torr of vacuum)","Continuum of inputs; monotonicity across fitted branches.",[JP+":vacuum_air_leakage_Ryans_Croll,vacuum_air_leakage_Seider,vacuum_air_leakage_HEI2633,vacuum_air_leakage_Coker_Worthington"],
  "Generated real model; interval arithmetic at the branch limits. Deviation proved: for a 10 m3 vessel at a vacuum of 0.001 torr vacuum_air_leakage_Seider returns a negative leakage.")
FR="fluids/friction.py"; PU="fluids/pump.py"; PI_="fluids/piping.py"; DC="fluids/design_climate.py"
P("C101","Friction in chevron plate exchangers",
  "friction_plate_Martin_1999 and friction_plate_Martin_VDI are Martin's combination of straight-channel and wavy-channel friction: positive for every chevron angle below 90 degrees, equal to the straight-channel value at angle 0, falling with the Reynolds number on both sides of 2000, and never more than 0.6 % apart. friction_plate_Kumar is the published table of power laws; its ranges join within 0.3 %, the factor falls with the Reynolds number inside every range and nowhere rises by more than 0.7 %. friction_plate_Muley_Manglik is the published product, positive and falling with the Reynolds number for enlargement factors from 1 to 2.",
  "all positive Reynolds numbers, all angles in [0,90) (Kumar, Muley-Manglik: all angles), enlargement factors in [1,2]","Continuum of inputs; comparison of two correlations and monotonicity across branches.",[FR+":friction_plate_Martin_1999,friction_plate_Martin_VDI,friction_plate_Kumar,friction_plate_Muley_Manglik"],
  "Generated and hand-written real model; power laws through logarithms, interval arithmetic at the joins.")
P("C102","Pump, motor and pipe-erosion estimates",
  "Corripio_pump_efficiency stays below 0.887, rises with the flow up to 22000 gpm and lies between 0.43 and 0.87 from 50 to 5000 gpm; Corripio_motor_efficiency stays below 0.94, rises with the power up to 6000 hp and is at least 0.8 from 1 hp to a million hp. specific_speed and specific_diameter are unchanged when a pump is run k times as fast (flow k, head k^2) or built k times as large (flow k^3, head k^2). current_ideal satisfies P = V I PF for one phase and sqrt(3) V I PF for three and refuses every other number of phases with ValueError. At the erosional_velocity the density in lb/ft3 times the squared velocity in ft/s is the squared constant.",
  "all positive flows, heads, powers, densities, scale factors; all voltages and power factors other than 0","Continuum of inputs; scaling laws relate infinitely many pairs of calls.",[PU+":Corripio_pump_efficiency,Corripio_motor_efficiency,specific_speed,specific_diameter,current_ideal",PI_+":erosional_velocity"],
  "Generated real model; logarithm bounds by interval arithmetic.")
P("C103","Drilled cylinders and circular segments",
  "V_multiple_hole_cylinder is the net section times the length and A_multiple_hole_cylinder twice the net section plus all walls, for any list of holes and in any order. The value and slope that circle_segment_h_from_A gives its solver are the area cut off at that height (as an integral of the chord) less the wanted area, and the chord; a height it returns cuts off exactly the wanted area and is the only height that does.",
  "all diameters and lengths, all lists of holes; all areas and diameters; all root finders that only return roots within their limits","Unbounded lists; equality with an integral over a continuum of inputs.",["fluids/geometry.py:A_multiple_hole_cylinder,V_multiple_hole_cylinder,circle_segment_h_from_A"],
  "Hand-written real model; induction over the holes; the segment area as a Riemann integral. Deviation proved: an area above half of the circle has no answer, because the search stops at the radius.")
P("C104","Degree days",
  "With truncation heating_degree_days and cooling_degree_days are exactly the excess of the temperature over the base and of the base over the temperature (the code's and its documentation's meaning of the two names), never negative and never both positive; without truncation they are opposite; over any record of days the truncated totals differ by the untruncated total and never shrink as days are added.",
  "all temperatures, bases, records of any length","Unbounded records; continuum of temperatures.",[DC+":heating_degree_days,cooling_degree_days"],
  "Hand-written real model; induction over the record.")
P("C105","Helical coils",
  "Whatever two of turns, pitch and height (and whichever of the two diameters) HelicalCoil is given, the attributes belong to one coil: height = turns x pitch, total sizes exceed the centre-line sizes by the tube diameter, given values are kept, and all descriptions of one coil whose turns do not collide give the same object. tube_length is the length of the helix (the integral of its speed) and agrees with the helix angle, surface and volumes; the inner and wall volumes add up to the total. Turns that collide raise ValueError when the height is given.",
  "all positive tube and coil diameters, pitches, turns, all combinations of given arguments","Continuum of inputs and combinations of optional arguments; equality with an arc length.",["fluids/geometry.py:HelicalCoil"],
  "Hand-written real model of the constructor; Riemann integral of the helix' speed. Deviation proved: given turns and pitch, colliding turns are accepted although the same coil is refused when its height is given.")
P("C106","Plate exchangers",
  "plate_enlargement_factor is the arc length of one sine wave of the plate over its wavelength, lies between 1 and sqrt(1 + (2 pi a / w)^2) and does not fall with the amplitude. PlateExchanger's hydraulic diameter is four times the flow area of a channel over its wetted perimeter and does not exceed the equivalent diameter; the exchange area counts the plates between channels; chevron and inclination angle add up to 90 degrees.",
  "all amplitudes, all wavelengths other than 0 (positive for the exchanger), widths, lengths, numbers of plates","Continuum of inputs; equality with an integral.",["fluids/geometry.py:plate_enlargement_factor,PlateExchanger"],
  "Hand-written real model; ellipe is idealised as the elliptic integral itself; substitution and symmetry of the integrand.")
P("C107","Plate-fin exchangers",
  "RectangularFinExchanger: hydraulic diameter times perimeter is four times the channel area and lies between the two sides of the channel; RectangularOffsetStripFinExchanger: Kim's ratio is the blocked part of a cell, the surface includes front and back of the strip, and both special hydraulic diameters lie below Kays and London's, which is the plain channel's; the stack's fins are counted to the nearest whole number and its area, height and volume are those of its layers and plates.",
  "all fin thicknesses below height and spacing (half the spacing for strips), lengths, numbers of layers","Continuum of inputs.",["fluids/geometry.py:RectangularFinExchanger,RectangularOffsetStripFinExchanger"],
  "Hand-written real model; field arithmetic; round(x, 0) as rounding half to even. Deviation proved: RectangularFinExchanger.blockage_ratio, documented as the blocked part, is the open part (0.81 where 19 % are blocked).")
P("C108","Hyperbolic cooling towers",
  "Built from an inlet diameter or from a base diameter (throat given or estimated), the tower meets the named diameters at the ground, inlet, throat and outlet, narrows strictly up to the throat and widens strictly above it, and both parts are hyperbolas with the reported parameters; too few data raise ValueError.",
  "all heights 0 <= inlet < throat < outlet, all diameters above the throat's, all real heights","Continuum of inputs and heights; monotonicity.",["fluids/geometry.py:HyperbolicCoolingTower"],
  "Hand-written real model of the constructor and diameter; the supports, which are only stored, are left out.")
P("C109","Air coolers",
  "AirCooledExchanger's numbers of tubes, fin sizes and pitches belong together and given ones are kept; the area of a tube is that of the tube between its fins plus faces and rims of the fins, every level (row, bundle, bay, all) has that area times its number of tubes, and fins always increase the area; the free area is the smaller of the two gaps and a positive part of the face; the tubes are shared among the passes. Missing fin data are refused.",
  "all tube counts, lengths, diameters, layouts, fin sizes, bays and bundles","Continuum of inputs and combinations of optional arguments.",["fluids/geometry.py:AirCooledExchanger,pitch_angle_solver"],
  "Hand-written real model of the constructor without the tube side volumes and layout names. Deviation proved: pitch_ratio, documented to take the place of pitch, is refused alone and silently replaces a given pitch.")
P("C110","Tanks as objects",
  "A TANK keeps whichever two of diameter, length and their ratio were given and has the third; its ends are the ones described (given depth, given ratio, a quarter of the diameter, or the dish of its factors, 1 and 0.06 by default); an end called same is the other one and both cannot be; volume and surface are wall plus ends and filling to h_max gives V_total; asked for by volume, it has that volume and keeps the one size given; contradictory or missing data are refused; a level found for a volume holds that volume and lies within the tank.",
  "all sizes, orientations, kinds and descriptions of ends, all solvers returning only roots","Continuum of inputs times the combinations of about ten optional arguments.",["fluids/geometry.py:TANK"],
  "Hand-written model of the constructor, set_misc, _solve_tank_for_V, V_from_h, h_from_V (brenth), add_thickness; the solver is a parameter with the contract that it returns roots. Uses C81 for the volumes. Not modelled: from_two_specs, Chebyshev approximations; SA_from_h is C113, A_cross_sectional C118. Deviation proved: add_thickness lengthens the wall and deepens the heads, so a standing tank grows by twice the thickness asked for, and a flat bottom gets a depth in which no volume is counted.")
P("C111","is_poly_positive and is_poly_negative",
  "When is_poly_positive (is_poly_negative) answers True, the polynomial is nowhere negative (positive) on the given domain, or without a domain at any argument up to 10^100 in size, provided the root finder reports all real zeros, 0 is not one of them and no two are closer than the relative perturbation; when the answer is False some real argument gives a value of the other sign. Refuted without the separation: (x-1)(x-1-1e-13) is called positive although it is negative between its zeros.",
  "all polynomials of every degree, all domains, sample counts of at least four, tolerances, perturbations","Nonnegativity on a continuum for every degree; sampling cannot show it.",["fluids/numerics/__init__.py:is_poly_positive,is_poly_negative"],
  "Real model with the root finder as parameter; the last zero before a negative point (completeness of the reals) and the intermediate value theorem.")
P("C112","one_sided_secant stays out of the flat region",
  "Whatever one_sided_secant returns is a point at which the function was evaluated, whose value differs from the flat value, meets ytol, and lies within xtol of another point outside the flat region; without tolerances nothing is returned; a start in the flat region or two starts of equal value raise ValueError. When the function is flat from some point on, the outcome does not depend on the function beyond the known flat point, so nothing raised there can surface; a function that is affine up to the flat point is solved in one step.",
  "all functions, starting points, flat points on either side, tolerances, dampings, iteration counts","Quantifies over functions and iteration histories.",["fluids/numerics/__init__.py:one_sided_secant"],
  "Loop model with quadratic and secant steps and the line search; invariant by induction on the iterations, two runs in lockstep for locality.")

P("C113","The wetted area of a tank is the area of its wetted surface",
  "For vertical heads of every shape (cone, ellipsoid, spherical dish, torispherical dish) the partial area functions return the area of the surface of revolution below the level, levels outside the head being clamped. SA_from_h of a vertical tank is the wetted bottom head plus the wetted wall plus the part of the top head below the level, and of a full tank exactly the total SA_tank reports; the two are computed by independently written formulas. For a horizontal tank it is the sum of both ends and of SA_partial_cylindrical_body, a level below the bottom is refused, and a full tank with flat or conical ends has the area of SA_tank. A guppy head of a vertical tank is left out although SA_tank counts it.",
  "all positive diameters and head depths, all lengths >= 0, all levels, dish and knuckle factors with 0 < k <= 1/2 <= f, k < f","Areas of surfaces of revolution over a continuum of shapes and levels; tests compare a few values.",[GE+":SA_partial_vertical_conical_head,SA_partial_vertical_ellipsoidal_head,SA_partial_vertical_spherical_head,SA_partial_vertical_torispherical_head,SA_from_h,SA_tank,SA_ellipsoidal_head,SA_torispheroidal,SA_conical_head,SA_partial_cylindrical_body,A_partial_circle,SA_partial_horiz_conical_head"],
  "Generated head functions of Model_Geometry.v, SA_from_h by hand (Model_TankArea.v; the horizontal ellipsoidal, guppy, spherical and torispherical heads, numerical integrals in the source, are parameters); derivative of each profile, explicit antiderivative of the area element, fundamental theorem of calculus.")
P("C114","Monthly averages of a weather station",
  "month_average_temperature and month_average_windspeed return for each month the mean, over the years asked for that have at least minimum_days readings of that month, of the mean of that year's readings; days missing from the record, readings missing from a day and years out of range do not count. If some month has no such year the call raises ZeroDivisionError. No average leaves the range of the readings. coldest_month and warmest_month name the first month of the smallest and largest average.",
  "all histories of any number of years and days with any values missing; minimum_days of at least 1","Unbounded histories with arbitrary gaps.",[DC+":StationDataGSOD.month_average_temperature,StationDataGSOD.month_average_windspeed,StationDataGSOD.coldest_month,StationDataGSOD.warmest_month"],
  "Hand-written model of the counting loops over parsed data; invariant of sums and counts by induction over days, months and years. Downloading and parsing are not modelled.")
P("C115","The weather station found for a place",
  "get_closest_station returns a station with data later than asked for such that no other such station is nearer in the plane of latitude and longitude, whatever match_max is; the widening search ends, finds a station whenever there is one, and raises ValueError exactly when there is none. Refuted as documented (nearest to the coordinates): across the date line a station at the very place is passed over for one a quarter turn away.",
  "all tables of stations, coordinates, dates, match_max of at least 1, all tree searches returning the k nearest in order","Every table of stations and every history of searches; the order of equal distances is free.",[DC+":get_closest_station"],
  "Recursion model with the k-d tree query as a parameter with the contract of scipy's; induction on the recursion.")
P("C116","assert_close for numbers and nested lists",
  "assert_close and assert_close1d pass exactly when the arguments are equally long and every pair of entries lies within rtol of the first entry or within atol + rtol |second|; different lengths raise ValueError, any other disagreement AssertionError. assert_close2d, 3d and 4d never reject tables that agree, and with one of the tolerances 0 accept no others. Refuted in general: with both tolerances positive an entry that only passes the second test ends the whole comparison, so every later entry and row is accepted unseen; with a negative tolerance assert_close2d accepts any numbers.",
  "all finite numbers, lists and nested lists of any size, all tolerances >= 0","Nested lists of every size and content; the early return needs a special entry before the wrong one.",["fluids/numerics/__init__.py:assert_close,assert_close1d,assert_close2d,assert_close3d,assert_close4d"],
  "Hand-written model of the loops with their early return; numpy's assert_allclose by its documented test; induction over the lists.")
P("C117","Inverse functions of complex numbers",
  "cos(py_cacos(z)) = z with a real part from 0 to pi for every z; tan(py_catan(z)) = z for every z other than i and -i; tanh(py_catanh(z)) = z with an imaginary part from -pi/2 to pi/2 for every z other than 1 and -1 whose parts do not exceed the square root of a quarter of the largest double (beyond it the code switches to an asymptotic value, which is not covered).",
  "all complex numbers in the stated range, all principal square roots, all complex logarithms","A plane of inputs; identities on both sides of the branch cuts.",["fluids/numerics/special.py:py_cacos,py_catan,py_catanh"],
  "Real model on pairs without signed zeros; csqrt and clog as parameters that are a principal root and a logarithm; the polar form of (1+z)(1-conj z) and the half angle formulas.")
P("C118","The free surface of the liquid in a tank",
  "A_cross_sectional of a vertical tank with any supported heads is, for a level clear of the brim, the mean of the true sections of the vessel within one ten-millionth of the level, and beside the cylindrical wall exactly the area of the circle; of a horizontal tank it is the mean of the sections of both heads and of the rectangle between them. Refuted at the ends: for an empty or full tank with flat ends it is 0 although the section is the whole circle.",
  "all positive diameters, lengths >= 0, all pairs of heads with their depths, all levels h with 0 < h and (1 + 1e-7) h at most the height","A continuum of shapes and levels; a finite difference compared with an integral.",[GE+":TANK.A_cross_sectional,TANK.V_from_h","fluids/numerics/__init__.py:derivative"],
  "Model_TankSection.v on top of the models of TANK, V_from_h and derivative; C81 for the volumes, additivity of the integral. Horizontal torispherical heads are not covered; for the other horizontal heads the quadrature is assumed exact.")
