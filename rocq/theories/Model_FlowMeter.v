(** Differential pressure flow meters.
    Generated by tools/pytrans.py from /repo/fluids, function by function: floats are exact reals,
    a division, root, logarithm or power that Python refuses is an [Err]; float rounding and overflow
    are not represented.  Module constants are inlined with their exact rational value. *)
From Coq Require Import Reals String List Bool.
From Verif Require Import Base Model_Real.
From Coq Require Import QArith Qreals.
From Verif Require Import Model_Numerics Model_Poly Model_Splines Model_Core.
Import ListNotations.
Open Scope R_scope.

(** fluids/flow_meter.py:2390-2406 *)
Definition beta_simple_meters : list string := ["ISO 5167 orifice"%string; "ISO 15377 eccentric orifice"%string; "ISO 15377 conical orifice"%string; "ISO 15377 quarter-circle orifice"%string; "Miller orifice"%string; "Miller eccentric orifice"%string; "Miller segmental orifice"%string; "Miller conical orifice"%string; "Miller quarter circle orifice"%string; "orifice"%string; "eccentric orifice"%string; "conical orifice"%string; "segmental orifice"%string; "quarter circle orifice"%string; "unspecified meter"%string; "Hollingshead venturi sharp"%string; "Hollingshead venturi smooth"%string; "Hollingshead orifice"%string; "long radius nozzle"%string; "ISA 1932 nozzle"%string; "venturi nozzle"%string; "as cast convergent venturi tube"%string; "machined convergent venturi tube"%string; "rough welded convergent venturi tube"%string].

(** fluids/flow_meter.py:1750-1751 [diameter_ratio_cone_meter]. *)
Definition diameter_ratio_cone_meter (D_ : R) (Dc : R) : result R :=
  D_ratio <- pdiv Dc D_ ;;
  psqrt (1 - (D_ratio * D_ratio)).

(** fluids/flow_meter.py:1897-1903 [diameter_ratio_wedge_meter]. *)
Definition diameter_ratio_wedge_meter (D_ : R) (H : R) : result R :=
  H_D <- pdiv H D_ ;;
  let t0 := (1 - (2 * H_D)) in
  t1 <- pacos t0 ;;
  let t2 := (t0 + t0) in
  t3 <- psqrt (H_D - (H_D * H_D)) ;;
  let t4 := (t1 - (t2 * t3)) in
  psqrt ((/ PI) * t4).

(** fluids/flow_meter.py:2450-2458 [differential_pressure_meter_beta]. *)
Definition differential_pressure_meter_beta (D_ : R) (D2 : R) (meter_type : string) : result R :=
  beta <- (if ((String.eqb meter_type "ISO 5167 orifice"%string) || (String.eqb meter_type "ISO 15377 eccentric orifice"%string) || (String.eqb meter_type "ISO 15377 conical orifice"%string) || (String.eqb meter_type "ISO 15377 quarter-circle orifice"%string) || (String.eqb meter_type "Miller orifice"%string) || (String.eqb meter_type "Miller eccentric orifice"%string) || (String.eqb meter_type "Miller segmental orifice"%string) || (String.eqb meter_type "Miller conical orifice"%string) || (String.eqb meter_type "Miller quarter circle orifice"%string) || (String.eqb meter_type "orifice"%string) || (String.eqb meter_type "eccentric orifice"%string) || (String.eqb meter_type "conical orifice"%string) || (String.eqb meter_type "segmental orifice"%string) || (String.eqb meter_type "quarter circle orifice"%string) || (String.eqb meter_type "unspecified meter"%string) || (String.eqb meter_type "Hollingshead venturi sharp"%string) || (String.eqb meter_type "Hollingshead venturi smooth"%string) || (String.eqb meter_type "Hollingshead orifice"%string) || (String.eqb meter_type "long radius nozzle"%string) || (String.eqb meter_type "ISA 1932 nozzle"%string) || (String.eqb meter_type "venturi nozzle"%string) || (String.eqb meter_type "as cast convergent venturi tube"%string) || (String.eqb meter_type "machined convergent venturi tube"%string) || (String.eqb meter_type "rough welded convergent venturi tube"%string))%bool then pdiv D2 D_
  else if ((String.eqb meter_type "cone meter"%string) || (String.eqb meter_type "Hollingshead v cone"%string))%bool then diameter_ratio_cone_meter D_ D2
  else if ((String.eqb meter_type "wedge meter"%string) || (String.eqb meter_type "Hollingshead wedge"%string))%bool then diameter_ratio_wedge_meter D_ D2
  else Err ValueError) ;;
  Ok beta.

(** fluids/flow_meter.py:297-300 [flow_meter_discharge]. *)
Definition flow_meter_discharge (D_ : R) (Do : R) (P1 : R) (P2 : R) (rho : R) (C_ : R) (expansibility : R) (meter_type : string) : result R :=
  beta <- differential_pressure_meter_beta D_ Do meter_type ;;
  let beta2 := (beta * beta) in
  let D_beta := (D_ * beta) in
  t2 <- pdiv ((2 * rho) * (P1 - P2)) (1 - (beta2 * beta2)) ;;
  t3 <- psqrt t2 ;;
  Ok ((((((0.25 * PI) * D_beta) * D_beta) * C_) * expansibility) * t3).

(** fluids/flow_meter.py:355-359 [orifice_expansibility]. *)
Definition orifice_expansibility (D_ : R) (Do : R) (P1 : R) (P2 : R) (k : R) : result R :=
  beta <- pdiv Do D_ ;;
  let beta2 := (beta * beta) in
  let beta4 := (beta2 * beta2) in
  t2 <- pdiv P2 P1 ;;
  t3 <- pdiv 1 k ;;
  t4 <- ppow t2 t3 ;;
  Ok (1 - ((0.351 + (beta4 * ((0.93 * beta4) + 0.256))) * (1 - t4))).

(** fluids/flow_meter.py:423-426 [orifice_expansibility_1989]. *)
Definition orifice_expansibility_1989 (D_ : R) (Do : R) (P1 : R) (P2 : R) (k : R) : result R :=
  beta_ratio_4 <- pdiv Do D_ ;;
  let beta_ratio_4 := (beta_ratio_4 * beta_ratio_4) in
  let beta_ratio_4 := (beta_ratio_4 * beta_ratio_4) in
  t2 <- pdiv ((0.41 + (0.35 * beta_ratio_4)) * (P1 - P2)) (k * P1) ;;
  Ok (1 - t2).

(** fluids/flow_meter.py:545-608 [C_Reader_Harris_Gallagher]. *)
Definition C_Reader_Harris_Gallagher (D_ : R) (Do : R) (rho : R) (mu : R) (m : R) (taps : string) : result R :=
  let A_pipe := (((0.25 * PI) * D_) * D_) in
  v <- pdiv m (A_pipe * rho) ;;
  Re_D <- pdiv ((rho * v) * D_) mu ;;
  Re_D_inv <- pdiv 1 Re_D ;;
  beta <- pdiv Do D_ ;;
  '(L1, L2_prime) <- (if (String.eqb taps "corner"%string) then let L1 := 0 in
  let L2_prime := 0 in
  Ok (L1, L2_prime)
  else if (String.eqb taps "flange"%string) then L2_prime <- pdiv 0.0254 D_ ;;
  let L1 := L2_prime in
  Ok (L1, L2_prime)
  else if ((String.eqb taps "D"%string) || (String.eqb taps "D/2"%string) || (String.eqb taps "D and D/2"%string))%bool then let L1 := 1 in
  let L2_prime := 0.47 in
  Ok (L1, L2_prime)
  else Err ValueError) ;;
  let beta2 := (beta * beta) in
  let beta4 := (beta2 * beta2) in
  let beta8 := (beta4 * beta4) in
  t9 <- ppow (beta * Re_D_inv) 0.8 ;;
  let A := (2648.5177066967326 * t9) in
  M2_prime <- pdiv (2 * L2_prime) (1 - beta) ;;
  let expnL1 := (exp (- L1)) in
  let expnL2 := (expnL1 * expnL1) in
  let expnL3 := (expnL1 * expnL2) in
  delta_C_upstream <- pdiv (((0.043 + (((expnL3 * expnL2) * expnL2) * ((0.08 * expnL3) - 0.123))) * (1 - (0.11 * A))) * beta4) (1 - beta4) ;;
  t1 <- plog10 (3700 * Re_D_inv) ;;
  t1 <- (if (Rltb t1 0) then let t1 := 0 in
  Ok t1
  else Ok t1) ;;
  t13 <- ppow M2_prime 1.1 ;;
  t14 <- ppow beta 1.3 ;;
  let delta_C_downstream := ((((- 0.031) * (M2_prime - (0.8 * t13))) * t14) * (1 + (8 * t1))) in
  t15 <- ppow Re_D_inv 0.3 ;;
  let x1 := (63.095734448019314 * t15) in
  let x2 := (22.7 - (0.0047 * Re_D)) in
  let t2 := (Rmax x2 x1) in
  t16 <- ppow ((1000000 * beta) * Re_D_inv) 0.7 ;;
  t17 <- psqrt beta ;;
  let C_inf_C_s := ((((0.5961 + (0.0261 * beta2)) - (0.216 * beta8)) + (0.000521 * t16)) + (((((0.0188 + (0.0063 * A)) * beta2) * beta) * t17) * t2)) in
  let C_ := ((C_inf_C_s + delta_C_upstream) + delta_C_downstream) in
  if (Rltb D_ 0.07112) then let t3 := (2.8 - (D_ * (5000 / 127))) in
  let delta_C_diameter := ((0.011 * (0.75 - beta)) * t3) in
  let C_ := (C_ + delta_C_diameter) in
  Ok C_
  else Ok C_.

(** fluids/flow_meter.py:834-926 [C_Miller_1996]. *)
Definition C_Miller_1996 (D_ : R) (Do : R) (rho : R) (mu : R) (m : R) (subtype : string) (taps : option string) (tap_position : option string) : result R :=
  let A_pipe := (((0.25 * PI) * D_) * D_) in
  v <- pdiv m (A_pipe * rho) ;;
  Re <- pdiv ((rho * v) * D_) mu ;;
  let D_mm := (D_ * 1000) in
  beta <- pdiv Do D_ ;;
  let beta2 := (beta * beta) in
  let beta3 := (beta2 * beta) in
  let beta4 := (beta * beta3) in
  let beta8 := (beta4 * beta4) in
  beta21 <- ppow beta 2.1 ;;
  if ((String.eqb subtype "Miller orifice"%string) || (String.eqb subtype "orifice"%string))%bool then t5 <- psqrt beta ;;
  let b := ((91.706 * beta2) * t5) in
  let n := 0.75 in
  if (match taps with Some v => String.eqb v "corner"%string | None => false end) then let C_inf := ((0.5959 + (0.0312 * beta21)) - (0.184 * beta8)) in
  t6 <- ppow Re (- n) ;;
  let C_ := (C_inf + (b * t6)) in
  Ok C_
  else if (match taps with Some v => String.eqb v "flange"%string | None => false end) then if (Rleb 58.4 D_mm) then t7 <- pdiv (2.286 * beta4) (D_mm * (1 - beta4)) ;;
  t8 <- pdiv (0.856 * beta3) D_mm ;;
  let C_inf := ((((0.5959 + (0.0312 * beta21)) - (0.184 * beta8)) + t7) - t8) in
  t9 <- ppow Re (- n) ;;
  let C_ := (C_inf + (b * t9)) in
  Ok C_
  else t10 <- pdiv (0.039 * beta4) (1 - beta4) ;;
  t11 <- pdiv (0.856 * beta3) D_mm ;;
  let C_inf := ((((0.5959 + (0.0312 * beta21)) - (0.184 * beta8)) + t10) - t11) in
  t12 <- ppow Re (- n) ;;
  let C_ := (C_inf + (b * t12)) in
  Ok C_
  else if (match taps with Some v => String.eqb v "D and D/2"%string | None => false end) then t13 <- pdiv (0.039 * beta4) (1 - beta4) ;;
  let C_inf := ((((0.5959 + (0.0312 * beta21)) - (0.184 * beta8)) + t13) - 0.01584) in
  t14 <- ppow Re (- n) ;;
  let C_ := (C_inf + (b * t14)) in
  Ok C_
  else if (match taps with Some v => String.eqb v "pipe"%string | None => false end) then t15 <- pdiv (0.039 * beta4) (1 - beta4) ;;
  let C_inf := (((0.5959 + (0.461 * beta21)) + (0.48 * beta8)) + t15) in
  t16 <- ppow Re (- n) ;;
  let C_ := (C_inf + (b * t16)) in
  Ok C_
  else Err ValueError
  else if ((String.eqb subtype "Miller eccentric orifice"%string) || (String.eqb subtype "eccentric orifice"%string))%bool then if (negb ((match tap_position with Some v => String.eqb v "180 degree"%string | None => false end) || (match tap_position with Some v => String.eqb v "90 degree"%string | None => false end))%bool) then Err ValueError
  else let n := 0.75 in
  if (match taps with Some v => String.eqb v "flange"%string | None => false end) then if (match tap_position with Some v => String.eqb v "180 degree"%string | None => false end) then if (Rltb D_ 0.1) then let b := ((((7.3 - (15.7 * beta)) + (170.8 * beta2)) - (399.7 * beta3)) + (332.2 * beta4)) in
  t17 <- pdiv (0.1019 * beta4) (1 - beta4) ;;
  let C_inf := ((((0.5917 + (0.3061 * beta21)) + (0.3406 * beta8)) - t17) - (0.2715 * beta3)) in
  t18 <- ppow Re (- n) ;;
  let C_ := (C_inf + (b * t18)) in
  Ok C_
  else let b := (((((- 139.7) + (1328.8 * beta)) - (4228.2 * beta2)) + (5691.9 * beta3)) - (2710.4 * beta4)) in
  t19 <- pdiv (0.651 * beta4) (1 - beta4) ;;
  let C_inf := ((((0.6016 + (0.3312 * beta21)) - (1.5581 * beta8)) + t19) - (0.7308 * beta3)) in
  t20 <- ppow Re (- n) ;;
  let C_ := (C_inf + (b * t20)) in
  Ok C_
  else if (match tap_position with Some v => String.eqb v "90 degree"%string | None => false end) then if (Rltb D_ 0.1) then let b := ((((69.1 - (469.4 * beta)) + (1245.6 * beta2)) - (1287.5 * beta3)) + (486.2 * beta4)) in
  t21 <- pdiv (0.2273 * beta4) (1 - beta4) ;;
  let C_inf := ((((0.5866 + (0.3917 * beta21)) + (0.7586 * beta8)) - t21) - (0.3343 * beta3)) in
  t22 <- ppow Re (- n) ;;
  let C_ := (C_inf + (b * t22)) in
  Ok C_
  else let b := (((((- 103.2) + (898.3 * beta)) - (2557.3 * beta2)) + (2977 * beta3)) - (1131.3 * beta4)) in
  t23 <- pdiv (0.0244 * beta4) (1 - beta4) ;;
  let C_inf := ((((0.6037 + (0.1598 * beta21)) - (0.2918 * beta8)) + t23) - (0.079 * beta3)) in
  t24 <- ppow Re (- n) ;;
  let C_ := (C_inf + (b * t24)) in
  Ok C_
  else Err UnboundLocalError
  else if (match taps with Some v => String.eqb v "vena contracta"%string | None => false end) then if (match tap_position with Some v => String.eqb v "180 degree"%string | None => false end) then if (Rltb D_ 0.1) then let b := ((((23.3 - (207 * beta)) + (821.5 * beta2)) - (1388.6 * beta3)) + (900.3 * beta4)) in
  t28 <- pdiv (0.1046 * beta4) (1 - beta4) ;;
  let C_inf := ((((0.5925 + (0.338 * beta21)) + (0.4016 * beta8)) - t28) - (0.3212 * beta3)) in
  t29 <- ppow Re (- n) ;;
  let C_ := (C_inf + (b * t29)) in
  Ok C_
  else let b := ((((55.7 - (471.4 * beta)) + (1721.8 * beta2)) - (2722.6 * beta3)) + (1569.4 * beta4)) in
  t30 <- pdiv (0.0569 * beta4) (1 - beta4) ;;
  let C_inf := ((((0.5922 + (0.3932 * beta21)) + (0.3412 * beta8)) - t30) - (0.4628 * beta3)) in
  t31 <- ppow Re (- n) ;;
  let C_ := (C_inf + (b * t31)) in
  Ok C_
  else if (match tap_position with Some v => String.eqb v "90 degree"%string | None => false end) then if (Rltb D_ 0.1) then let b := (((((- 69.3) + (556.9 * beta)) - (1332.2 * beta2)) + (1303.7 * beta3)) - (394.8 * beta4)) in
  t32 <- pdiv (0.1963 * beta4) (1 - beta4) ;;
  let C_inf := ((((0.5875 + (0.3813 * beta21)) + (0.6898 * beta8)) - t32) - (0.3366 * beta3)) in
  t33 <- ppow Re (- n) ;;
  let C_ := (C_inf + (b * t33)) in
  Ok C_
  else let b := ((((52.8 - (434.2 * beta)) + (1571.2 * beta2)) - (2460.9 * beta3)) + (1420.2 * beta4)) in
  t34 <- pdiv (0.0955 * beta4) (1 - beta4) ;;
  let C_inf := ((((0.5949 + (0.4078 * beta21)) + (0.0547 * beta8)) + t34) - (0.5608 * beta3)) in
  t35 <- ppow Re (- n) ;;
  let C_ := (C_inf + (b * t35)) in
  Ok C_
  else Err UnboundLocalError
  else Err ValueError
  else if ((String.eqb subtype "Miller segmental orifice"%string) || (String.eqb subtype "segmental orifice"%string))%bool then let b := 0 in
  let n := b in
  if (match taps with Some v => String.eqb v "flange"%string | None => false end) then if (Rltb D_ 0.1) then t39 <- pdiv (0.2603 * beta4) (1 - beta4) ;;
  let C_inf := ((((0.6284 + (0.1462 * beta21)) - (0.8464 * beta8)) + t39) - (0.2886 * beta3)) in
  t40 <- ppow Re (- n) ;;
  let C_ := (C_inf + (b * t40)) in
  Ok C_
  else t41 <- pdiv (0.0934 * beta4) (1 - beta4) ;;
  let C_inf := ((((0.6276 + (0.0828 * beta21)) + (0.2739 * beta8)) - t41) - (0.1132 * beta3)) in
  t42 <- ppow Re (- n) ;;
  let C_ := (C_inf + (b * t42)) in
  Ok C_
  else if (match taps with Some v => String.eqb v "vena contracta"%string | None => false end) then if (Rltb D_ 0.1) then t43 <- pdiv (0.117 * beta4) (1 - beta4) ;;
  let C_inf := ((((0.6261 + (0.1851 * beta21)) - (0.2879 * beta8)) + t43) - (0.2845 * beta3)) in
  t44 <- ppow Re (- n) ;;
  let C_ := (C_inf + (b * t44)) in
  Ok C_
  else t45 <- pdiv (0.0934 * beta4) (1 - beta4) ;;
  let C_inf := ((((0.6276 + (0.0828 * beta21)) + (0.2739 * beta8)) - t45) - (0.1132 * beta3)) in
  t46 <- ppow Re (- n) ;;
  let C_ := (C_inf + (b * t46)) in
  Ok C_
  else Err ValueError
  else if ((String.eqb subtype "Miller conical orifice"%string) || (String.eqb subtype "conical orifice"%string))%bool then let b := 0 in
  let n := b in
  if ((Rleb (250 * beta) Re) && (Rleb Re (500 * beta)))%bool then let C_inf := 0.734 in
  t47 <- ppow Re (- n) ;;
  let C_ := (C_inf + (b * t47)) in
  Ok C_
  else let C_inf := 0.73 in
  t48 <- ppow Re (- n) ;;
  let C_ := (C_inf + (b * t48)) in
  Ok C_
  else if ((String.eqb subtype "Miller quarter circle orifice"%string) || (String.eqb subtype "quarter circle orifice"%string))%bool then let b := 0 in
  let n := b in
  t49 <- pdiv (0.0675 * beta4) (1 - beta4) ;;
  let C_inf := ((((0.7746 - (0.1334 * beta21)) + (1.4098 * beta8)) + t49) + (0.3865 * beta3)) in
  t50 <- ppow Re (- n) ;;
  let C_ := (C_inf + (b * t50)) in
  Ok C_
  else Err ValueError.

(** fluids/flow_meter.py:1045-1047 [C_eccentric_orifice_ISO_15377_1998]. *)
Definition C_eccentric_orifice_ISO_15377_1998 (D_ : R) (Do : R) : result R :=
  beta <- pdiv Do D_ ;;
  let C_ := ((beta * ((beta * (3.0428 - (1.7989 * beta))) - 1.6889)) + 0.9355) in
  Ok C_.

(** fluids/flow_meter.py:1106-1108 [C_quarter_circle_orifice_ISO_15377_1998]. *)
Definition C_quarter_circle_orifice_ISO_15377_1998 (D_ : R) (Do : R) : result R :=
  beta <- pdiv Do D_ ;;
  let C_ := ((beta * ((beta * ((1.5084 * beta) - 1.16158)) + 0.3309)) + 0.73823) in
  Ok C_.

(** fluids/flow_meter.py:1153-1157 [discharge_coefficient_to_K]. *)
Definition discharge_coefficient_to_K (D_ : R) (Do : R) (C_ : R) : result R :=
  beta <- pdiv Do D_ ;;
  let beta2 := (beta * beta) in
  let beta4 := (beta2 * beta2) in
  t2 <- psqrt (1 - (beta4 * (1 - (C_ * C_)))) ;;
  t3 <- pdiv t2 (C_ * beta2) ;;
  let root_K := (t3 - 1) in
  Ok (root_K * root_K).

(** fluids/flow_meter.py:1205-1209 [K_to_discharge_coefficient]. *)
Definition K_to_discharge_coefficient (D_ : R) (Do : R) (K : R) : result R :=
  beta <- pdiv Do D_ ;;
  let beta2 := (beta * beta) in
  let beta4 := (beta2 * beta2) in
  root_K <- psqrt K ;;
  t3 <- pdiv (1 - beta4) (((2 * root_K) + K) * beta4) ;;
  psqrt t3.

(** fluids/flow_meter.py:1263-1269 [dP_orifice]. *)
Definition dP_orifice (D_ : R) (Do : R) (P1 : R) (P2 : R) (C_ : R) : result R :=
  beta <- pdiv Do D_ ;;
  let beta2 := (beta * beta) in
  let beta4 := (beta2 * beta2) in
  let dP := (P1 - P2) in
  t2 <- psqrt (1 - (beta4 * (1 - (C_ * C_)))) ;;
  t3 <- psqrt (1 - (beta4 * (1 - (C_ * C_)))) ;;
  t4 <- pdiv (t2 - (C_ * beta2)) (t3 + (C_ * beta2)) ;;
  let delta_w := (t4 * dP) in
  Ok delta_w.

(** fluids/flow_meter.py:1304-1307 [velocity_of_approach_factor]. *)
Definition velocity_of_approach_factor (D_ : R) (Do : R) : result R :=
  beta_ratio_4 <- pdiv Do D_ ;;
  let beta_ratio_4 := (beta_ratio_4 * beta_ratio_4) in
  let beta_ratio_4 := (beta_ratio_4 * beta_ratio_4) in
  t2 <- psqrt (1 - beta_ratio_4) ;;
  pdiv 1 t2.

(** fluids/flow_meter.py:1352-1355 [flow_coefficient]. *)
Definition flow_coefficient (D_ : R) (Do : R) (C_ : R) : result R :=
  beta_ratio_4 <- pdiv Do D_ ;;
  let beta_ratio_4 := (beta_ratio_4 * beta_ratio_4) in
  let beta_ratio_4 := (beta_ratio_4 * beta_ratio_4) in
  t2 <- psqrt (1 - beta_ratio_4) ;;
  pdiv (C_ * 1) t2.

(** fluids/flow_meter.py:1426-1463 [nozzle_expansibility]. *)
Definition nozzle_expansibility (D_ : R) (Do : R) (P1 : R) (P2 : R) (k : R) (beta : option R) : result R :=
  beta <- match beta with Some v => Ok v | None => pdiv Do D_ end ;;
  let beta2 := (beta * beta) in
  let beta4 := (beta2 * beta2) in
  tau <- pdiv P2 P1 ;;
  if (Reqb k 1) then t3 <- pdiv P2 P1 ;;
  t4 <- plog t3 ;;
  limit_val <- pdiv (((P1 * (P2 ^ 2)) * ((- (D_ ^ 4)) + (Do ^ 4))) * t4) (((((D_ ^ 4) * (P1 ^ 3)) - (((D_ ^ 4) * (P1 ^ 2)) * P2)) - (((Do ^ 4) * P1) * (P2 ^ 2))) + ((Do ^ 4) * (P2 ^ 3))) ;;
  psqrt limit_val
  else t7 <- pdiv 2 k ;;
  t8 <- ppow tau t7 ;;
  term1 <- pdiv (k * t8) (k - 1) ;;
  t10 <- pdiv 2 k ;;
  t11 <- ppow tau t10 ;;
  term2 <- pdiv (1 - beta4) (1 - (beta4 * t11)) ;;
  if (Reqb tau 1) then term3 <- pdiv (k - 1) k ;;
  psqrt ((term1 * term2) * term3)
  else t15 <- pdiv (- 1) k ;;
  t16 <- ppow tau t15 ;;
  term3 <- pdiv (P1 - (P2 * t16)) (P1 - P2) ;;
  psqrt ((term1 * term2) * term3).

(** fluids/flow_meter.py:1509-1513 [C_long_radius_nozzle]. *)
Definition C_long_radius_nozzle (D_ : R) (Do : R) (rho : R) (mu : R) (m : R) : result R :=
  let A_pipe := (((0.25 * PI) * D_) * D_) in
  v <- pdiv m (A_pipe * rho) ;;
  Re_D <- pdiv ((rho * v) * D_) mu ;;
  beta <- pdiv Do D_ ;;
  t4 <- psqrt beta ;;
  t5 <- pdiv 1000000 Re_D ;;
  t6 <- psqrt t5 ;;
  Ok (0.9965 - ((0.00653 * t4) * t6)).

(** fluids/flow_meter.py:1560-1566 [C_ISA_1932_nozzle]. *)
Definition C_ISA_1932_nozzle (D_ : R) (Do : R) (rho : R) (mu : R) (m : R) : result R :=
  let A_pipe := (((0.25 * PI) * D_) * D_) in
  v <- pdiv m (A_pipe * rho) ;;
  Re_D <- pdiv ((rho * v) * D_) mu ;;
  beta <- pdiv Do D_ ;;
  t4 <- ppow beta 4.1 ;;
  t5 <- ppow beta 4.15 ;;
  t6 <- pdiv 1000000 Re_D ;;
  t7 <- ppow t6 1.15 ;;
  let C_ := ((0.99 - (0.2262 * t4)) - ((((0.00175 * beta) * beta) - (0.0033 * t5)) * t7)) in
  Ok C_.

(** fluids/flow_meter.py:1604-1607 [C_venturi_nozzle]. *)
Definition C_venturi_nozzle (D_ : R) (Do : R) : result R :=
  beta <- pdiv Do D_ ;;
  let beta_ratio_4 := (beta * beta) in
  let beta_ratio_4 := (beta_ratio_4 * beta_ratio_4) in
  t2 <- psqrt beta ;;
  Ok (0.9858 - ((0.196 * beta_ratio_4) * t2)).

(** fluids/flow_meter.py:1616-1623 *)
Definition venturi_tube_betas : list Q := ([0.29916; 0.29947; 0.31239; 0.31901; 0.32658; 0.33729; 0.34202; 0.34706; 0.35903; 0.36596; 0.37258; 0.38487; 0.38581; 0.40125; 0.40535; 0.41574; 0.42425; 0.43401; 0.44788; 0.45259; 0.47181; 0.47309; 0.49354; 0.49924; 0.51653; 0.5238; 0.53763; 0.54806; 0.55684; 0.57389; 0.58235; 0.59782; 0.60156; 0.62265; 0.62649; 0.64948; 0.65099; 0.6687; 0.67587; 0.68855; 0.69318; 0.70618; 0.71333; 0.72351; 0.74954; 0.74965])%Q.

(** fluids/flow_meter.py:1625-1634 *)
Definition venturi_tube_dP_high : list Q := ([0.164534; 0.164504; 0.163591; 0.163508; 0.163439; 0.162652; 0.162224; 0.161866; 0.161238; 0.160786; 0.160295; 0.15928; 0.159193; 0.157776; 0.157467; 0.156517; 0.155323; 0.153835; 0.151862; 0.151154; 0.14784; 0.147613; 0.144052; 0.14305; 0.140107; 0.138981; 0.136794; 0.134737; 0.132847; 0.129303; 0.127637; 0.124758; 0.124006; 0.119269; 0.118449; 0.113605; 0.113269; 0.108995; 0.107109; 0.103688; 0.102529; 0.099567; 0.097791; 0.095055; 0.087681; 0.087648])%Q.

(** fluids/flow_meter.py:1636-1645 *)
Definition venturi_tube_dP_low : list Q := ([0.089232; 0.089218; 0.088671; 0.088435; 0.088206; 0.087853; 0.087655; 0.087404; 0.086693; 0.086241; 0.085813; 0.085142; 0.085102; 0.084446; 0.084202; 0.083301; 0.08247; 0.08165; 0.080582; 0.080213; 0.078509; 0.078378; 0.075989; 0.075226; 0.0727; 0.071598; 0.069562; 0.068128; 0.066986; 0.064658; 0.063298; 0.060872; 0.060378; 0.057879; 0.057403; 0.054091; 0.053879; 0.051726; 0.050931; 0.049362; 0.048675; 0.046522; 0.045381; 0.04384; 0.039913; 0.039896])%Q.

(** fluids/flow_meter.py:1648-1648 *)
Definition D_bound_venturi_tube : list Q := ([0.065; 0.5])%Q.

(** fluids/flow_meter.py:1705-1709 [dP_venturi_tube]. *)
Definition dP_venturi_tube (D_ : R) (Do : R) (P1 : R) (P2 : R) : result R :=
  beta <- pdiv Do D_ ;;
  epsilon_D65 <- interp beta (map Q2R venturi_tube_betas) (map Q2R venturi_tube_dP_high) None None false ;;
  epsilon_D500 <- interp beta (map Q2R venturi_tube_betas) (map Q2R venturi_tube_dP_low) None None false ;;
  epsilon <- interp D_ (map Q2R D_bound_venturi_tube) [epsilon_D65; epsilon_D500] None None false ;;
  Ok (epsilon * (P1 - P2)).

(** fluids/flow_meter.py:1803-1807 [cone_meter_expansibility_Stewart]. *)
Definition cone_meter_expansibility_Stewart (D_ : R) (Dc : R) (P1 : R) (P2 : R) (k : R) : result R :=
  let dP := (P1 - P2) in
  beta <- diameter_ratio_cone_meter D_ Dc ;;
  let beta := (beta * beta) in
  let beta := (beta * beta) in
  t2 <- pdiv ((0.649 + (0.696 * beta)) * dP) (k * P1) ;;
  Ok (1 - t2).

(** fluids/flow_meter.py:1852-1854 [dP_cone_meter]. *)
Definition dP_cone_meter (D_ : R) (Dc : R) (P1 : R) (P2 : R) : result R :=
  let dP := (P1 - P2) in
  beta <- diameter_ratio_cone_meter D_ Dc ;;
  Ok ((1.09 - (0.813 * beta)) * dP).

(** fluids/flow_meter.py:1961-1971 [C_wedge_meter_Miller]. *)
Definition C_wedge_meter_Miller (D_ : R) (H : R) : result R :=
  beta <- diameter_ratio_wedge_meter D_ H ;;
  let beta := (beta * beta) in
  C_ <- (if (Rleb D_ (0.7 * 0.0254)) then let C_ := (0.7883 + (0.107 * (1 - beta))) in
  Ok C_
  else if (Rleb D_ (1.4 * 0.0254)) then let C_ := (0.6143 + (0.718 * (1 - beta))) in
  Ok C_
  else let C_ := (0.5433 + (0.2453 * (1 - beta))) in
  Ok C_) ;;
  Ok C_.

(** fluids/flow_meter.py:2023-2024 [C_wedge_meter_ISO_5167_6_2017]. *)
Definition C_wedge_meter_ISO_5167_6_2017 (D_ : R) (H : R) : result R :=
  beta <- diameter_ratio_wedge_meter D_ H ;;
  Ok (0.77 - (0.09 * beta)).

(** fluids/flow_meter.py:2070-2072 [dP_wedge_meter]. *)
Definition dP_wedge_meter (D_ : R) (H : R) (P1 : R) (P2 : R) : result R :=
  let dP := (P1 - P2) in
  beta <- diameter_ratio_wedge_meter D_ H ;;
  Ok ((1.09 - (0.79 * beta)) * dP).

(** fluids/flow_meter.py:2168-2184 [C_Reader_Harris_Gallagher_wet_venturi_tube]. *)
Definition C_Reader_Harris_Gallagher_wet_venturi_tube (mg : R) (ml : R) (rhog : R) (rhol : R) (D_ : R) (Do : R) (H : R) : result R :=
  V <- pdiv (4 * mg) (((rhog * PI) * D_) * D_) ;;
  Frg <- Froude_densimetric V D_ rhol rhog false 9.80665 ;;
  beta <- pdiv Do D_ ;;
  let beta2 := (beta * beta) in
  t5 <- psqrt beta ;;
  Fr_gas_th <- pdiv Frg (beta2 * t5) ;;
  t7 <- pdiv ((- 0.8) * Frg) H ;;
  let n := (Rmax ((0.583 - (0.18 * beta2)) - (0.578 * (exp t7))) (0.392 - (0.18 * beta2))) in
  t0 <- pdiv rhog rhol ;;
  t1 <- ppow t0 n ;;
  t10 <- pdiv 1 t1 ;;
  let C_Ch := (t1 + t10) in
  t11 <- pdiv ml mg ;;
  t12 <- psqrt t0 ;;
  let X := (t11 * t12) in
  t13 <- psqrt (X / 0.016) ;;
  let C_ := (1 - ((0.0463 * (exp ((- 0.05) * Fr_gas_th))) * (Rmin 1 t13))) in
  Ok C_.

(** fluids/flow_meter.py:2262-2274 [dP_Reader_Harris_Gallagher_wet_venturi_tube]. *)
Definition dP_Reader_Harris_Gallagher_wet_venturi_tube (D_ : R) (Do : R) (P1 : R) (P2 : R) (ml : R) (mg : R) (rhol : R) (rhog : R) (H : R) : result R :=
  let dP := (P1 - P2) in
  beta <- pdiv Do D_ ;;
  t2 <- pdiv ml mg ;;
  t3 <- pdiv rhog rhol ;;
  t4 <- psqrt t3 ;;
  let X := (t2 * t4) in
  V <- pdiv (4 * mg) (((rhog * PI) * D_) * D_) ;;
  Frg <- Froude_densimetric V D_ rhol rhog false 9.80665 ;;
  t7 <- ppow X 0.75 ;;
  t8 <- pdiv ((- 0.28) * Frg) H ;;
  let Y_ratio := (1 - (exp (((- 35) * t7) * (exp t8)))) in
  t9 <- pdiv ((- 11) * rhog) rhol ;;
  t10 <- pdiv (0.045 * Frg) H ;;
  let Y_max := (0.61 * (exp (t9 - t10))) in
  let Y := (Y_max * Y_ratio) in
  let rhs := ((- 0.0896) - (0.48 * (beta ^ 9))) in
  let dw := (dP * (Y - rhs)) in
  Ok dw.

(** fluids/flow_meter.py:955-955 *)
Definition orifice_std_Hollingshead_tck_tx : list Q := ([0.5; 0.5; 0.5; 0.5; 0.7; 0.7; 0.7; 0.7])%Q.

(** fluids/flow_meter.py:956-960 *)
Definition orifice_std_Hollingshead_tck_ty : list Q := ([0; 0; 0; 0; 2.302585092994046; 2.995732273553991; 3.4011973816621555; 3.6888794541139363; 4.0943445622221; 4.382026634673881; 4.605170185988092; 5.298317366548036; 5.703782474656201; 6.214608098422191; 6.907755278982137; 7.600902459542082; 8.006367567650246; 8.517193191416238; 9.210340371976184; 11.512925464970229; 13.815510557964274; 17.72753356339242; 17.72753356339242; 17.72753356339242; 17.72753356339242])%Q.

(** fluids/flow_meter.py:961-973 *)
Definition orifice_std_Hollingshead_tck_c : list Q := ([0.23300000000000026; 0.3040793845022822; 0.5397693379388018; 0.6509414325648643; 0.6761419937262648; 0.6901697401156808; 0.6972240707909276; 0.6996759572505151; 0.7040223363705952; 0.7008741587711967; 0.692665226515394; 0.6826387818678974; 0.6727930643166521; 0.6490542161859936; 0.6378780959698012; 0.6302027504736312; 0.6284904523610422; 0.616773266650063; 0.6144108030024114; 0.6137270770149181; 0.6140000000000004; 0.21722222222222212; 0.26754856063815036; 0.547178981607613; 0.6825835849471493; 0.6848255120880751; 0.712775784969247; 0.7066842545008245; 0.7020345744268808; 0.6931476737316041; 0.6710886785478944; 0.6501218695989138; 0.6257164975579488; 0.5888463567232898; 0.6237505336392806; 0.578149766754485; 0.5761890160080455; 0.5922303103985014; 0.5657790974864929; 0.6013376373672517; 0.5693593555949975; 0.5528888888888888; 0.206777777777778; 0.2644342350096853; 0.4630985572034346; 0.6306849522311501; 0.6899260188747366; 0.7092703879134302; 0.7331416654072416; 0.7403866219900521; 0.7531493636395633; 0.7685019053395048; 0.771007019842085; 0.7649533772965396; 0.7707020081746302; 0.6897832472092346; 0.6910618341373851; 0.6805763529796045; 0.6291884772151493; 0.6470904244660671; 0.5962879899497537; 0.6353096798316025; 0.6277777777777779; 0.19100000000000003; 0.23712276889270198; 0.44482842661392175; 0.6337225464930397; 0.6926462978136392; 0.7316874888663132; 0.7542057211530093; 0.77172737538752; 0.7876049778429112; 0.795143180926116; 0.7977570986094262; 0.7861445043222344; 0.777182818678971; 0.7057345800650827; 0.6626698628526632; 0.6600690433654985; 0.6323396431072075; 0.6212684034830293; 0.616281323630018; 0.603728515722033; 0.6040000000000001])%Q.

(** fluids/flow_meter.py:2296-2296 *)
Definition venturi_logRes_Hollingshead : list Q := ([0; 1.6094379124341003; 2.302585092994046; 2.995732273553991; 3.4011973816621555; 3.6888794541139363; 4.0943445622221; 4.382026634673881; 4.605170185988092; 5.298317366548036; 5.703782474656201; 6.214608098422191; 6.907755278982137; 7.600902459542082; 8.006367567650246; 8.517193191416238; 9.210340371976184; 10.308952660644293; 10.819778284410283; 11.225243392518447; 11.512925464970229; 13.815510557964274; 16.11809565095832; 17.72753356339242])%Q.

(** fluids/flow_meter.py:2297-2297 *)
Definition venturi_smooth_Cs_Hollingshead : list Q := ([0.163; 0.336; 0.432; 0.515; 0.586; 0.625; 0.679; 0.705; 0.727; 0.803; 0.841; 0.881; 0.921; 0.937; 0.944; 0.954; 0.961; 0.967; 0.967; 0.97; 0.971; 0.973; 0.974; 0.975])%Q.

(** fluids/flow_meter.py:2298-2298 *)
Definition venturi_sharp_Cs_Hollingshead : list Q := ([0.146; 0.3; 0.401; 0.498; 0.554; 0.596; 0.65; 0.688; 0.715; 0.801; 0.841; 0.884; 0.914; 0.94; 0.947; 0.944; 0.952; 0.959; 0.962; 0.963; 0.965; 0.967; 0.967; 0.967])%Q.

(** fluids/flow_meter.py:2340-2340 *)
Definition cone_Hollingshead_tck_tx : list Q := ([0.6611; 0.6611; 0.6611; 0.8203; 0.8203; 0.8203])%Q.

(** fluids/flow_meter.py:2341-2345 *)
Definition cone_Hollingshead_tck_ty : list Q := ([0; 0; 0; 0; 2.302585092994046; 2.995732273553991; 3.4011973816621555; 3.6888794541139363; 4.0943445622221; 4.382026634673881; 4.605170185988092; 5.0106352940962555; 5.298317366548036; 5.703782474656201; 6.214608098422191; 6.907755278982137; 7.600902459542082; 8.006367567650246; 8.294049640102028; 8.517193191416238; 8.922658299524402; 9.210340371976184; 9.903487552536127; 10.308952660644293; 11.512925464970229; 13.815510557964274; 17.72753356339242; 17.72753356339242; 17.72753356339242; 17.72753356339242])%Q.

(** fluids/flow_meter.py:2346-2358 *)
Definition cone_Hollingshead_tck_c : list Q := ([0.06600000000000003; 0.09181180887944293; 0.1406341453010674; 0.27319769866300025; 0.34177839953532274; 0.4025880076725502; 0.4563149328810349; 0.5035445307357295; 0.5458473693359689; 0.583175639128474; 0.628052124545805; 0.6647198135005781; 0.7091524396786245; 0.7254729823419331; 0.7487816963926843; 0.7588145502817809; 0.7628692532631826; 0.7660482147214834; 0.7644188319583379; 0.7782644144006241; 0.7721508139116487; 0.7994728794028244; 0.8076742194714519; 0.7986221420822799; 0.8086240532850298; 0.802; 0.07016232064017663; 0.1059162635703894; 0.1489681838592814; 0.28830815748629207; 0.35405213706957395; 0.40339795504063664; 0.4544570323055189; 0.5034637712201067; 0.5448190156693709; 0.5840164245031125; 0.6211559598098063; 0.6218648844980823; 0.6621745760710729; 0.7282379546292953; 0.7340030734801267; 0.7396324865779599; 0.7489736798953754; 0.7480726412914717; 0.7671564751169978; 0.756853660688892; 0.7787029642272745; 0.7742381131312691; 0.7887584162443445; 0.7857610450218329; 0.7697076645551957; 0.7718300910596032; 0.05700000000000002; 0.07612544859943549; 0.12401733415778271; 0.24037452209595875; 0.29662463502593156; 0.34859536586855205; 0.39480085719322505; 0.43661601622480606; 0.48091259102454764; 0.5240691286186233; 0.5590609288020619; 0.6144556048716696; 0.6471713640567137; 0.6904158809061184; 0.7032590252050219; 0.712177974557301; 0.7221845303680273; 0.721505707129694; 0.7249822376264551; 0.7218890085289907; 0.7221848475768714; 0.7371751354515526; 0.7252385062304629; 0.7278943803933404; 0.7496546607029086; 0.7340000000000001])%Q.

(** fluids/flow_meter.py:2374-2374 *)
Definition wedge_Hollingshead_tck_tx : list Q := ([0.5023; 0.5023; 0.611; 0.611])%Q.

(** fluids/flow_meter.py:2375-2378 *)
Definition wedge_Hollingshead_tck_ty : list Q := ([0; 0; 0; 0; 2.302585092994046; 2.995732273553991; 3.4011973816621555; 3.6888794541139363; 4.0943445622221; 4.382026634673881; 4.605170185988092; 5.298317366548036; 5.703782474656201; 5.991464547107982; 6.214608098422191; 8.517193191416238; 9.210340371976184; 11.512925464970229; 17.72753356339242; 17.72753356339242; 17.72753356339242; 17.72753356339242])%Q.

(** fluids/flow_meter.py:2379-2385 *)
Definition wedge_Hollingshead_tck_c : list Q := ([0.14500000000000005; 0.18231832425722; 0.3339917130006919; 0.5379467710226973; 0.6077700659940896; 0.6459542943925077; 0.6729757007770231; 0.6896405007576225; 0.7054863114589583; 0.7155740600632635; 0.7205446407610863; 0.7239576816068966; 0.7483627568160166; 0.7232963355919931; 0.7366325320490953; 0.7264222143567053; 0.7339605394126009; 0.7330000000000001; 0.1270000000000001; 0.16939873865132285; 0.2828494933525669; 0.4889107009077842; 0.5623120043524101; 0.6133092379676948; 0.6437092394687915; 0.6629923366662017; 0.6782934366011034; 0.687302374134782; 0.6927470053128909; 0.6993992364234898; 0.7221204483546849; 0.6947577293284015; 0.7063701306810815; 0.6781614534359871; 0.7185326811948407; 0.7050000000000001])%Q.

(** fluids/flow_meter.py:2553-2654 [differential_pressure_meter_C_epsilon]. *)
Definition differential_pressure_meter_C_epsilon (D_ : R) (D2 : R) (m : R) (P1 : R) (P2 : R) (rho : R) (mu : R) (k : R) (meter_type : string) (taps : option string) (tap_position : option string) (C_specified : option R) (epsilon_specified : option R) : result (R * R) :=
  meter_type <- (if (String.eqb meter_type "orifice"%string) then let meter_type := "ISO 5167 orifice"%string in
  Ok meter_type
  else if (String.eqb meter_type "eccentric orifice"%string) then let meter_type := "ISO 15377 eccentric orifice"%string in
  Ok meter_type
  else if (String.eqb meter_type "conical orifice"%string) then let meter_type := "ISO 15377 conical orifice"%string in
  Ok meter_type
  else if (String.eqb meter_type "quarter circle orifice"%string) then let meter_type := "ISO 15377 quarter-circle orifice"%string in
  Ok meter_type
  else if (String.eqb meter_type "segmental orifice"%string) then let meter_type := "Miller segmental orifice"%string in
  Ok meter_type
  else Ok meter_type) ;;
  if (String.eqb meter_type "ISO 5167 orifice"%string) then taps_val <- (match taps with
    | Some taps => Ok taps
    | None => Ok ("corner"%string)
  end) ;;
  C_ <- C_Reader_Harris_Gallagher D_ D2 rho mu m taps_val ;;
  epsilon <- orifice_expansibility D_ D2 P1 P2 k ;;
  match C_specified with
    | Some C_specified => let C_ := C_specified in
    match epsilon_specified with
      | Some epsilon_specified => let epsilon := epsilon_specified in
      Ok (C_, epsilon)
      | None => Ok (C_, epsilon)
    end
    | None => match epsilon_specified with
      | Some epsilon_specified => let epsilon := epsilon_specified in
      Ok (C_, epsilon)
      | None => Ok (C_, epsilon)
    end
  end
  else if (String.eqb meter_type "ISO 15377 eccentric orifice"%string) then C_ <- C_eccentric_orifice_ISO_15377_1998 D_ D2 ;;
  epsilon <- orifice_expansibility D_ D2 P1 P2 k ;;
  match C_specified with
    | Some C_specified => let C_ := C_specified in
    match epsilon_specified with
      | Some epsilon_specified => let epsilon := epsilon_specified in
      Ok (C_, epsilon)
      | None => Ok (C_, epsilon)
    end
    | None => match epsilon_specified with
      | Some epsilon_specified => let epsilon := epsilon_specified in
      Ok (C_, epsilon)
      | None => Ok (C_, epsilon)
    end
  end
  else if (String.eqb meter_type "ISO 15377 quarter-circle orifice"%string) then C_ <- C_quarter_circle_orifice_ISO_15377_1998 D_ D2 ;;
  epsilon <- orifice_expansibility D_ D2 P1 P2 k ;;
  match C_specified with
    | Some C_specified => let C_ := C_specified in
    match epsilon_specified with
      | Some epsilon_specified => let epsilon := epsilon_specified in
      Ok (C_, epsilon)
      | None => Ok (C_, epsilon)
    end
    | None => match epsilon_specified with
      | Some epsilon_specified => let epsilon := epsilon_specified in
      Ok (C_, epsilon)
      | None => Ok (C_, epsilon)
    end
  end
  else if (String.eqb meter_type "ISO 15377 conical orifice"%string) then let C_ := 0.734 in
  t8 <- orifice_expansibility D_ D2 P1 P2 k ;;
  t9 <- nozzle_expansibility D_ D2 P1 P2 k None ;;
  let epsilon := (0.5 * (t8 + t9)) in
  match C_specified with
    | Some C_specified => let C_ := C_specified in
    match epsilon_specified with
      | Some epsilon_specified => let epsilon := epsilon_specified in
      Ok (C_, epsilon)
      | None => Ok (C_, epsilon)
    end
    | None => match epsilon_specified with
      | Some epsilon_specified => let epsilon := epsilon_specified in
      Ok (C_, epsilon)
      | None => Ok (C_, epsilon)
    end
  end
  else if ((String.eqb meter_type "Miller orifice"%string) || (String.eqb meter_type "Miller eccentric orifice"%string) || (String.eqb meter_type "Miller segmental orifice"%string) || (String.eqb meter_type "Miller quarter circle orifice"%string))%bool then C_ <- C_Miller_1996 D_ D2 rho mu m meter_type taps tap_position ;;
  epsilon <- orifice_expansibility D_ D2 P1 P2 k ;;
  match C_specified with
    | Some C_specified => let C_ := C_specified in
    match epsilon_specified with
      | Some epsilon_specified => let epsilon := epsilon_specified in
      Ok (C_, epsilon)
      | None => Ok (C_, epsilon)
    end
    | None => match epsilon_specified with
      | Some epsilon_specified => let epsilon := epsilon_specified in
      Ok (C_, epsilon)
      | None => Ok (C_, epsilon)
    end
  end
  else if (String.eqb meter_type "Miller conical orifice"%string) then C_ <- C_Miller_1996 D_ D2 rho mu m meter_type taps tap_position ;;
  t13 <- orifice_expansibility D_ D2 P1 P2 k ;;
  t14 <- nozzle_expansibility D_ D2 P1 P2 k None ;;
  let epsilon := (0.5 * (t13 + t14)) in
  match C_specified with
    | Some C_specified => let C_ := C_specified in
    match epsilon_specified with
      | Some epsilon_specified => let epsilon := epsilon_specified in
      Ok (C_, epsilon)
      | None => Ok (C_, epsilon)
    end
    | None => match epsilon_specified with
      | Some epsilon_specified => let epsilon := epsilon_specified in
      Ok (C_, epsilon)
      | None => Ok (C_, epsilon)
    end
  end
  else if (String.eqb meter_type "long radius nozzle"%string) then epsilon <- nozzle_expansibility D_ D2 P1 P2 k None ;;
  C_ <- C_long_radius_nozzle D_ D2 rho mu m ;;
  match C_specified with
    | Some C_specified => let C_ := C_specified in
    match epsilon_specified with
      | Some epsilon_specified => let epsilon := epsilon_specified in
      Ok (C_, epsilon)
      | None => Ok (C_, epsilon)
    end
    | None => match epsilon_specified with
      | Some epsilon_specified => let epsilon := epsilon_specified in
      Ok (C_, epsilon)
      | None => Ok (C_, epsilon)
    end
  end
  else if (String.eqb meter_type "ISA 1932 nozzle"%string) then epsilon <- nozzle_expansibility D_ D2 P1 P2 k None ;;
  C_ <- C_ISA_1932_nozzle D_ D2 rho mu m ;;
  match C_specified with
    | Some C_specified => let C_ := C_specified in
    match epsilon_specified with
      | Some epsilon_specified => let epsilon := epsilon_specified in
      Ok (C_, epsilon)
      | None => Ok (C_, epsilon)
    end
    | None => match epsilon_specified with
      | Some epsilon_specified => let epsilon := epsilon_specified in
      Ok (C_, epsilon)
      | None => Ok (C_, epsilon)
    end
  end
  else if (String.eqb meter_type "venturi nozzle"%string) then epsilon <- nozzle_expansibility D_ D2 P1 P2 k None ;;
  C_ <- C_venturi_nozzle D_ D2 ;;
  match C_specified with
    | Some C_specified => let C_ := C_specified in
    match epsilon_specified with
      | Some epsilon_specified => let epsilon := epsilon_specified in
      Ok (C_, epsilon)
      | None => Ok (C_, epsilon)
    end
    | None => match epsilon_specified with
      | Some epsilon_specified => let epsilon := epsilon_specified in
      Ok (C_, epsilon)
      | None => Ok (C_, epsilon)
    end
  end
  else if (String.eqb meter_type "as cast convergent venturi tube"%string) then epsilon <- nozzle_expansibility D_ D2 P1 P2 k None ;;
  let C_ := 0.984 in
  match C_specified with
    | Some C_specified => let C_ := C_specified in
    match epsilon_specified with
      | Some epsilon_specified => let epsilon := epsilon_specified in
      Ok (C_, epsilon)
      | None => Ok (C_, epsilon)
    end
    | None => match epsilon_specified with
      | Some epsilon_specified => let epsilon := epsilon_specified in
      Ok (C_, epsilon)
      | None => Ok (C_, epsilon)
    end
  end
  else if (String.eqb meter_type "machined convergent venturi tube"%string) then epsilon <- nozzle_expansibility D_ D2 P1 P2 k None ;;
  let C_ := 0.995 in
  match C_specified with
    | Some C_specified => let C_ := C_specified in
    match epsilon_specified with
      | Some epsilon_specified => let epsilon := epsilon_specified in
      Ok (C_, epsilon)
      | None => Ok (C_, epsilon)
    end
    | None => match epsilon_specified with
      | Some epsilon_specified => let epsilon := epsilon_specified in
      Ok (C_, epsilon)
      | None => Ok (C_, epsilon)
    end
  end
  else if (String.eqb meter_type "rough welded convergent venturi tube"%string) then epsilon <- nozzle_expansibility D_ D2 P1 P2 k None ;;
  let C_ := 0.985 in
  match C_specified with
    | Some C_specified => let C_ := C_specified in
    match epsilon_specified with
      | Some epsilon_specified => let epsilon := epsilon_specified in
      Ok (C_, epsilon)
      | None => Ok (C_, epsilon)
    end
    | None => match epsilon_specified with
      | Some epsilon_specified => let epsilon := epsilon_specified in
      Ok (C_, epsilon)
      | None => Ok (C_, epsilon)
    end
  end
  else if (String.eqb meter_type "cone meter"%string) then epsilon <- cone_meter_expansibility_Stewart D_ D2 P1 P2 k ;;
  let C_ := 0.82 in
  match C_specified with
    | Some C_specified => let C_ := C_specified in
    match epsilon_specified with
      | Some epsilon_specified => let epsilon := epsilon_specified in
      Ok (C_, epsilon)
      | None => Ok (C_, epsilon)
    end
    | None => match epsilon_specified with
      | Some epsilon_specified => let epsilon := epsilon_specified in
      Ok (C_, epsilon)
      | None => Ok (C_, epsilon)
    end
  end
  else if (String.eqb meter_type "wedge meter"%string) then beta <- diameter_ratio_wedge_meter D_ D2 ;;
  epsilon <- nozzle_expansibility D_ D2 P1 P2 k (Some beta) ;;
  C_ <- C_wedge_meter_ISO_5167_6_2017 D_ D2 ;;
  match C_specified with
    | Some C_specified => let C_ := C_specified in
    match epsilon_specified with
      | Some epsilon_specified => let epsilon := epsilon_specified in
      Ok (C_, epsilon)
      | None => Ok (C_, epsilon)
    end
    | None => match epsilon_specified with
      | Some epsilon_specified => let epsilon := epsilon_specified in
      Ok (C_, epsilon)
      | None => Ok (C_, epsilon)
    end
  end
  else if (String.eqb meter_type "Hollingshead orifice"%string) then v <- pdiv m ((((0.25 * PI) * D_) * D_) * rho) ;;
  Re_D <- pdiv ((rho * v) * D_) mu ;;
  t30 <- pdiv D2 D_ ;;
  t31 <- plog Re_D ;;
  C_ <- bisplev (map Q2R orifice_std_Hollingshead_tck_tx) (map Q2R orifice_std_Hollingshead_tck_ty) (map Q2R orifice_std_Hollingshead_tck_c) 3 3 t30 t31 ;;
  epsilon <- orifice_expansibility D_ D2 P1 P2 k ;;
  match C_specified with
    | Some C_specified => let C_ := C_specified in
    match epsilon_specified with
      | Some epsilon_specified => let epsilon := epsilon_specified in
      Ok (C_, epsilon)
      | None => Ok (C_, epsilon)
    end
    | None => match epsilon_specified with
      | Some epsilon_specified => let epsilon := epsilon_specified in
      Ok (C_, epsilon)
      | None => Ok (C_, epsilon)
    end
  end
  else if (String.eqb meter_type "Hollingshead venturi smooth"%string) then v <- pdiv m ((((0.25 * PI) * D_) * D_) * rho) ;;
  Re_D <- pdiv ((rho * v) * D_) mu ;;
  t36 <- plog Re_D ;;
  C_ <- interp t36 (map Q2R venturi_logRes_Hollingshead) (map Q2R venturi_smooth_Cs_Hollingshead) None None true ;;
  epsilon <- nozzle_expansibility D_ D2 P1 P2 k None ;;
  match C_specified with
    | Some C_specified => let C_ := C_specified in
    match epsilon_specified with
      | Some epsilon_specified => let epsilon := epsilon_specified in
      Ok (C_, epsilon)
      | None => Ok (C_, epsilon)
    end
    | None => match epsilon_specified with
      | Some epsilon_specified => let epsilon := epsilon_specified in
      Ok (C_, epsilon)
      | None => Ok (C_, epsilon)
    end
  end
  else if (String.eqb meter_type "Hollingshead venturi sharp"%string) then v <- pdiv m ((((0.25 * PI) * D_) * D_) * rho) ;;
  Re_D <- pdiv ((rho * v) * D_) mu ;;
  t41 <- plog Re_D ;;
  C_ <- interp t41 (map Q2R venturi_logRes_Hollingshead) (map Q2R venturi_sharp_Cs_Hollingshead) None None true ;;
  epsilon <- nozzle_expansibility D_ D2 P1 P2 k None ;;
  match C_specified with
    | Some C_specified => let C_ := C_specified in
    match epsilon_specified with
      | Some epsilon_specified => let epsilon := epsilon_specified in
      Ok (C_, epsilon)
      | None => Ok (C_, epsilon)
    end
    | None => match epsilon_specified with
      | Some epsilon_specified => let epsilon := epsilon_specified in
      Ok (C_, epsilon)
      | None => Ok (C_, epsilon)
    end
  end
  else if (String.eqb meter_type "Hollingshead v cone"%string) then v <- pdiv m ((((0.25 * PI) * D_) * D_) * rho) ;;
  Re_D <- pdiv ((rho * v) * D_) mu ;;
  beta <- diameter_ratio_cone_meter D_ D2 ;;
  t47 <- plog Re_D ;;
  C_ <- bisplev (map Q2R cone_Hollingshead_tck_tx) (map Q2R cone_Hollingshead_tck_ty) (map Q2R cone_Hollingshead_tck_c) 2 3 beta t47 ;;
  epsilon <- cone_meter_expansibility_Stewart D_ D2 P1 P2 k ;;
  match C_specified with
    | Some C_specified => let C_ := C_specified in
    match epsilon_specified with
      | Some epsilon_specified => let epsilon := epsilon_specified in
      Ok (C_, epsilon)
      | None => Ok (C_, epsilon)
    end
    | None => match epsilon_specified with
      | Some epsilon_specified => let epsilon := epsilon_specified in
      Ok (C_, epsilon)
      | None => Ok (C_, epsilon)
    end
  end
  else if (String.eqb meter_type "Hollingshead wedge"%string) then v <- pdiv m ((((0.25 * PI) * D_) * D_) * rho) ;;
  Re_D <- pdiv ((rho * v) * D_) mu ;;
  beta <- diameter_ratio_wedge_meter D_ D2 ;;
  t53 <- plog Re_D ;;
  C_ <- bisplev (map Q2R wedge_Hollingshead_tck_tx) (map Q2R wedge_Hollingshead_tck_ty) (map Q2R wedge_Hollingshead_tck_c) 1 3 beta t53 ;;
  epsilon <- nozzle_expansibility D_ D2 P1 P2 k (Some beta) ;;
  match C_specified with
    | Some C_specified => let C_ := C_specified in
    match epsilon_specified with
      | Some epsilon_specified => let epsilon := epsilon_specified in
      Ok (C_, epsilon)
      | None => Ok (C_, epsilon)
    end
    | None => match epsilon_specified with
      | Some epsilon_specified => let epsilon := epsilon_specified in
      Ok (C_, epsilon)
      | None => Ok (C_, epsilon)
    end
  end
  else if (String.eqb meter_type "unspecified meter"%string) then epsilon <- orifice_expansibility D_ D2 P1 P2 k ;;
  match C_specified with
    | Some C_specified => let C_ := C_specified in
    match epsilon_specified with
      | Some epsilon_specified => let epsilon := epsilon_specified in
      Ok (C_, epsilon)
      | None => Ok (C_, epsilon)
    end
    | None => Err ValueError
  end
  else Err ValueError.

(** fluids/flow_meter.py:2658-2694: the residuals handed to the root finders; the four functions of the source
    differ only in which argument comes first. *)
Definition err_dp_meter_solver (D_ D2 m P1 P2 rho mu k : R) (meter_type : string) (taps tap_position : option string) (C_specified epsilon_specified : option R) : result R :=
  '(C, epsilon) <- differential_pressure_meter_C_epsilon D_ D2 m P1 P2 rho mu k meter_type taps tap_position C_specified epsilon_specified ;;
  m_calc <- flow_meter_discharge D_ D2 P1 P2 rho C epsilon meter_type ;;
  Ok (m - m_calc).

(** [try: a  except: b] *)
Definition or_else (a b : result R) : result R := match a with Ok x => Ok x | Err _ => b end.

(** fluids/flow_meter.py:2795-2836 [differential_pressure_meter_solver]. [secant f x0 low high] and [brenth f a b] stand
    for the root finders; their tolerances and iteration counts are not represented. The source passes [k = None] on
    to the correlations, all of which then raise TypeError (a bare except hides it until the last attempt): here at once. *)
Definition differential_pressure_meter_solver
    (secant : (R -> result R) -> R -> option R -> option R -> result R) (brenth : (R -> result R) -> R -> R -> result R)
    (D_ rho mu : R) (k D2 P1 P2 m : option R) (meter_type : string) (taps tap_position : option string) (C_specified epsilon_specified : option R) : result R :=
  let k := match k, epsilon_specified with None, Some _ => Some 1.4 | _, _ => k end in
  match m, D2, P1, P2 with
  | None, Some D2, Some P1, Some P2 =>
      let C_guess := 0.7 in
      let D4 := D_ * D_ in
      let D4 := D4 * D4 in
      let D24 := D2 * D2 in
      let D24 := D24 * D24 in
      q <- pdiv (D4 * rho * (P1 - P2)) (D4 - D24) ;;
      s <- psqrt q ;;
      let m_guess := sqrt 2 * PI * C_guess * D2 * D2 * s * 0.25 in
      m_D_guess <- pdiv m_guess D_ ;;
      match k with
      | None => Err TypeError
      | Some k =>
          x <- secant (fun m_D => err_dp_meter_solver D_ D2 (m_D * D_) P1 P2 rho mu k meter_type taps tap_position C_specified epsilon_specified) m_D_guess (Some 1e-40) None ;;
          Ok (x * D_)
      end
  | Some m, None, Some P1, Some P2 =>
      match k with
      | None => Err TypeError
      | Some k =>
          let f := fun D2 => err_dp_meter_solver D_ D2 m P1 P2 rho mu k meter_type taps tap_position C_specified epsilon_specified in
          or_else (or_else (secant f (D_ * 0.3) (Some (D_ * 1e-10)) (Some D_)) (secant f (D_ * 0.75) (Some (D_ * 1e-10)) (Some D_)))
                  (brenth f (D_ * (1 - 1e-9)) (D_ * 5e-3))
      end
  | Some m, Some D2, Some P1, None =>
      match k with
      | None => Err TypeError
      | Some k =>
          let f := fun P2 => err_dp_meter_solver D_ D2 m P1 P2 rho mu k meter_type taps tap_position C_specified epsilon_specified in
          or_else (or_else (secant f (P1 * 0.9) (Some (P1 * 0.5)) (Some P1)) (secant f (P1 * 0.9) (Some (P1 * 1e-10)) (Some P1)))
                  (brenth f (P1 * (1 - 1e-9)) (P1 * 0.5))
      end
  | Some m, Some D2, None, Some P2 =>
      match k with
      | None => Err TypeError
      | Some k =>
          let f := fun P1 => err_dp_meter_solver D_ D2 m P1 P2 rho mu k meter_type taps tap_position C_specified epsilon_specified in
          or_else (secant f (P2 * 1.5) (Some P2) None) (brenth f (P2 * (1 + 1e-9)) (P2 * 1.4))
      end
  | _, _, _, _ => Err ValueError
  end.


(** fluids/flow_meter.py:2839-2849 *)
Definition dP_orifice_set : list string := ["ISO 5167 orifice"%string; "ISO 15377 eccentric orifice"%string; "ISO 15377 conical orifice"%string; "ISO 15377 quarter-circle orifice"%string; "Miller orifice"%string; "Miller eccentric orifice"%string; "Miller segmental orifice"%string; "Miller conical orifice"%string; "Miller quarter circle orifice"%string; "Hollingshead orifice"%string; "orifice"%string; "eccentric orifice"%string; "conical orifice"%string; "segmental orifice"%string; "quarter circle orifice"%string].

(** fluids/flow_meter.py:2907-2931 [differential_pressure_meter_dP]. *)
Definition differential_pressure_meter_dP (D_ : R) (D2 : R) (P1 : R) (P2 : R) (C_ : option R) (meter_type : string) : result R :=
  dP <- (if ((String.eqb meter_type "ISO 5167 orifice"%string) || (String.eqb meter_type "ISO 15377 eccentric orifice"%string) || (String.eqb meter_type "ISO 15377 conical orifice"%string) || (String.eqb meter_type "ISO 15377 quarter-circle orifice"%string) || (String.eqb meter_type "Miller orifice"%string) || (String.eqb meter_type "Miller eccentric orifice"%string) || (String.eqb meter_type "Miller segmental orifice"%string) || (String.eqb meter_type "Miller conical orifice"%string) || (String.eqb meter_type "Miller quarter circle orifice"%string) || (String.eqb meter_type "Hollingshead orifice"%string) || (String.eqb meter_type "orifice"%string) || (String.eqb meter_type "eccentric orifice"%string) || (String.eqb meter_type "conical orifice"%string) || (String.eqb meter_type "segmental orifice"%string) || (String.eqb meter_type "quarter circle orifice"%string))%bool then match C_ with
    | Some C_ => dP_orifice D_ D2 P1 P2 C_
    | None => Err ValueError
  end
  else if (String.eqb meter_type "long radius nozzle"%string) then match C_ with
    | Some C_ => dP_orifice D_ D2 P1 P2 C_
    | None => Err ValueError
  end
  else if (String.eqb meter_type "ISA 1932 nozzle"%string) then match C_ with
    | Some C_ => dP_orifice D_ D2 P1 P2 C_
    | None => Err ValueError
  end
  else if (String.eqb meter_type "venturi nozzle"%string) then Err NotImplementedError
  else if ((String.eqb meter_type "as cast convergent venturi tube"%string) || (String.eqb meter_type "machined convergent venturi tube"%string) || (String.eqb meter_type "rough welded convergent venturi tube"%string) || (String.eqb meter_type "Hollingshead venturi smooth"%string) || (String.eqb meter_type "Hollingshead venturi sharp"%string))%bool then dP_venturi_tube D_ D2 P1 P2
  else if ((String.eqb meter_type "cone meter"%string) || (String.eqb meter_type "Hollingshead v cone"%string))%bool then dP_cone_meter D_ D2 P1 P2
  else if ((String.eqb meter_type "wedge meter"%string) || (String.eqb meter_type "Hollingshead wedge"%string))%bool then dP_wedge_meter D_ D2 P1 P2
  else Err ValueError) ;;
  Ok dP.
