PP="fluids/piping.py"; PM="fluids/pump.py"; SV="fluids/safety_valve.py"; FR="fluids/friction.py"
P("C31","nearest_pipe returns the smallest adequate standard pipe",
  "nearest_pipe with an inner (or outer) diameter returns the row of the chosen schedule with the smallest such diameter not below the request, raises ValueError exactly if none is large enough or the schedule is unknown, and with NPS returns exactly that row; a larger request never gives a smaller pipe; every row's outer diameter is its inner diameter plus two walls and every row is found again from its own diameters (in exact arithmetic). Refuted: a call without any size fails on an unset variable; in binary64 a row's own returned diameter can give the next larger pipe.",
  "every real request and every schedule","continuum of requests times tables",[PP+":nearest_pipe"],
  "The actual tables as rational lists; lookup functions; sortedness by vm_compute lifted with forallb_forall; minimality by induction.")
P("C32","gauge_from_t and t_from_gauge round trip",
  "Every gauge of every schedule round-trips in inches and metres; for a thickness within the schedule the result is the thinnest gauge not thinner than it, or the next thinner one if it exceeds that by at most a tenth of the step; a thickness above all gauges raises ValueError (exactly then); unknown schedules and gauges raise ValueError. Refuted: below the smallest thickness the call returns that thickness, which is not a gauge.",
  "every thickness and schedule","continuum",[PP+":gauge_from_t,t_from_gauge"],
  "Tables as rational lists; exhaustive over entries, induction over the list for arbitrary t.")
P("C33","motor_round_size returns the smallest NEMA size not below the request",
  "The returned size is a NEMA size, at least P, and no smaller NEMA size is at least P; ValueError exactly when P exceeds the largest; idempotent and monotone.",
  "every real power","continuum",[PM+":motor_round_size"],"Table scan model; sortedness.")
P("C34","API520_round_size returns the smallest standard orifice not below the request",
  "The returned area is an API 526 orifice area, at least A, and no smaller one is at least A; ValueError exactly when A exceeds the largest.",
  "every real area","continuum",[SV+":API520_round_size"],"Table scan model.")
P("C35","Motor efficiency lookup",
  "For 2, 4, 6 poles (and 8 poles for standard efficiency) CSA_motor_efficiency returns an efficiency within [0.74, 0.962], nondecreasing in power, equal to the table at tabulated sizes; up to 200 hp the high-efficiency figure is at least the standard one. Refuted: above 200 hp it can be lower; all other pole numbers fail on an unset variable.",
  "all P, closed/open, poles, high_efficiency","combinatorial times continuum",[PM+":CSA_motor_efficiency"],"Tables and interpolation model; monotone interpolation and monotone rounding.")
P("C36","VFD and underloaded motor efficiency",
  "VFD_efficiency is within [0.31, 0.97] for every power and load, nondecreasing in load, clamped outside the table and equal to the table at its nodes; motor_efficiency_underloaded is within [0.0154, 1+4e-10] for every load from 0, is 1 for loads from 0.93 and never falls by more than 4e-7 (4e-10 up to 60 hp) as the load rises. Refuted: VFD efficiency nondecreasing in power; the underloaded fraction at most 1, exactly monotone.",
  "all P, load","continuum",[PM+":VFD_efficiency,motor_efficiency_underloaded"],"Bilinear interpolation model; derivative of the quartic in Bernstein form on panels, checked on rationals.")
P("C37","API520 correction factors",
  "API520_N is 1 up to 10339 kPa and within [0.995, 1.2] and increasing up to 22057 kPa; API520_SH exists exactly for the documented temperatures, editions and pressures, is within [0.62, 1], 1 for low temperature and nonincreasing in temperature; API520_B exists exactly for overpressures 0.1, 0.16, 0.21 and back pressure up to 50 %, is within [0.695, 1], nonincreasing in back pressure, nondecreasing in overpressure; API520_W is within [0.666, 1], 1 up to 15 %, nonincreasing. Refuted: API520_N drops below 1 just above its threshold and has an unguarded pole; the 10E pressure limit is not checked below 478.15 K; a set pressure equal to atmospheric divides by zero; API520_W accepts back pressures above its table.",
  "all pressures and temperatures","continuum",[SV+":API520_B,API520_N,API520_SH,API520_W"],"Piecewise models on the actual tables; monotone interpolation on lines and surfaces.")
P("C38","friction_factor: dispatch, laminar limit and positivity of every correlation",
  "friction_factor returns 64/Re for every nonzero Re below 2040 whatever the roughness and method (ZeroDivisionError at 0); above, an unknown method raises ValueError, no method means Clamond, Darcy=False divides by four; every method offered by friction_factor_methods at (Re, eD) with eD up to 0.05 evaluates without error to a positive friction factor. Refuted for three offered methods: Rao_Kumar_2007 divides by zero in smooth pipe, Papaevangelo_2010 is positive up to Re=1.4e6 and negative from 1.41e6 on although offered up to 1e7, Serghides_1 divides by zero where its start value is the fixed point.",
  "all Re from 2040, all eD in [0, 0.05], all method names","continuum times all strings",[FR+":friction_factor,friction_factor_methods"],
  "All 31 correlations translated mechanically into monadic real functions (every division, root, logarithm and power guarded as in Python); positivity by bounding each logarithm argument, constants by verified interval arithmetic. The Lambert function used by Colebrook is any function with w exp(w) = x. Serghides_2 is only covered by dispatch (its denominator may vanish in the same way as that of Serghides_1); Colebrook is covered while eD*Re is at most 1e13 (its overflow branch is not modelled).")
P("C39","friction_factor_curved: dispatch, positivity and laminar bounds",
  "Every documented method of friction_factor_curved evaluates to a positive value for every positive Re, tube and coil diameter, relative roughness up to 0.05 and every documented critical Reynolds number method; unknown names raise ValueError; without a method the turbulent method is used exactly from the critical Reynolds number on; Darcy=False divides by four; the three laminar correlations are never below the straight tube value and the piecewise ones do not jump; the methods listed are documented methods.",
  "all Re, geometry, methods","continuum times strings",[FR+":friction_factor_curved,friction_factor_curved_methods,helical_Re_crit"],
  "Mechanically translated models of the dispatcher, six critical Reynolds numbers and eleven correlations.")
P("C40","material_roughness and roughness_Farshad",
  "material_roughness returns a positive roughness for every name (known or not), diameter and optimism flag, provided the fuzzy search returns one of the names searched; for every tabulated material but one optimism=True gives at most the default and optimism=False at least it (refuted for the entry whose average lies below its minimum); roughness_Farshad returns the average, or Farshad's power law in inches. Refuted: an unknown identifier in roughness_Farshad fails on an unset variable.",
  "all names, diameters, optimism flags","all strings times a table",[FR+":material_roughness,roughness_Farshad"],"The tables generated as data; the fuzzy string search an oracle; recursion with fuel.")
P("C73","Colebrook solves the Colebrook-White equation",
  "For every Re from 2040 and relative roughness in [0, 0.05] exactly one positive friction factor satisfies the Colebrook-White equation, and the value returned by method Colebrook differs from it by at most 2e-13 (ln Re + eD Re) in 1/sqrt(f).",
  "all Re, eD with eD*Re up to 1e13","continuum; the reference is only defined implicitly",[FR+":Colebrook,friction_factor"],
  "Existence by the intermediate value theorem, uniqueness by monotonicity of the residual; the closed form is analysed with the decimal constants of the code and an abstract Lambert function; residual_stable turns residuals into errors.")
P("C74","The default friction factor agrees with Colebrook-White",
  "For every Re from 2040 and eD in [0, 0.05] the default method returns a value whose 1/sqrt(f) is within 1e-13 (3 + ln Re) of the exact Colebrook-White solution; for Re up to 1e300 its relative error has the same bound; it therefore agrees with method Colebrook.",
  "all Re >= 2040, eD in [0, 0.05]","continuum; the reference is only defined implicitly",[FR+":Clamond,friction_factor"],
  "Error analysis of the two fourth-order iterations (quart), starting error bounded uniformly.")
P("C75","Friction factors rise with roughness and fall with Re",
  "For eight explicit methods the friction factor is strictly smaller for the larger Re and the smaller roughness (either strictly), and so is the exact Colebrook-White solution; the default method is monotone up to twice its error bound. Refuted for Tsal_1989, which jumps upwards between its branches.",
  "all pairs of operating points with Re >= 2040, eD in [0, 0.05]","pairs of points of a continuum",[FR+":friction_factor"],
  "Monotonicity of each translated correlation; refutation with interval arithmetic.")
