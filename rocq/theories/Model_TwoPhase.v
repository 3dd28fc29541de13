(** Pressure drop and flow regimes of gas-liquid flow.
    Generated by tools/pytrans.py from /repo/fluids, function by function: floats are exact reals,
    a division, root, logarithm or power that Python refuses is an [Err]; float rounding and overflow
    are not represented.  Module constants are inlined with their exact rational value. *)
From Coq Require Import Reals String List Bool.
From Verif Require Import Base Model_Real.
From Coq Require Import QArith Qreals.
From Verif Require Import Model_Friction Model_Voidage Model_Core Model_Splines.
Import ListNotations.
Open Scope R_scope.

(** fluids/two_phase.py:118-150 [_Beggs_Brill_holdup]. *)
Definition _Beggs_Brill_holdup (regime : R) (lambda_L : R) (Fr : R) (angle : R) (LV : R) : result R :=
  if (Reqb regime 0) then let a := 0.98 in
  let b := 0.4846 in
  let c := 0.0868 in
  t1 <- ppow lambda_L b ;;
  t2 <- ppow Fr (- c) ;;
  let HL0 := ((a * t1) * t2) in
  HL0 <- (if (Rltb HL0 lambda_L) then let HL0 := lambda_L in
  Ok HL0
  else Ok HL0) ;;
  if (Rltb 0 angle) then if (Reqb regime 0) then let d := 0.011 in
  let e := (- 3.768) in
  let f := 3.539 in
  let h := (- 1.614) in
  t3 <- ppow lambda_L e ;;
  t4 <- ppow LV f ;;
  t5 <- ppow Fr h ;;
  t6 <- plog (((d * t3) * t4) * t5) ;;
  let C_ := ((1 - lambda_L) * t6) in
  C_ <- (if (Rltb C_ 0) then let C_ := 0 in
  Ok C_
  else Ok C_) ;;
  let x1 := (sin (1.8 * angle)) in
  let Psi := (1 + ((C_ * x1) * (1 - (((1 / 3) * x1) * x1)))) in
  if (((Rltb 0 angle) && (Reqb regime 3))%bool || (Reqb angle 0))%bool then let Psi := 1 in
  let Hl := (HL0 * Psi) in
  Ok Hl
  else let Hl := (HL0 * Psi) in
  Ok Hl
  else if (Reqb regime 2) then let d := 2.96 in
  let e := 0.305 in
  let f := (- 0.4473) in
  let h := 0.0978 in
  t7 <- ppow lambda_L e ;;
  t8 <- ppow LV f ;;
  t9 <- ppow Fr h ;;
  t10 <- plog (((d * t7) * t8) * t9) ;;
  let C_ := ((1 - lambda_L) * t10) in
  C_ <- (if (Rltb C_ 0) then let C_ := 0 in
  Ok C_
  else Ok C_) ;;
  let x1 := (sin (1.8 * angle)) in
  let Psi := (1 + ((C_ * x1) * (1 - (((1 / 3) * x1) * x1)))) in
  if (((Rltb 0 angle) && (Reqb regime 3))%bool || (Reqb angle 0))%bool then let Psi := 1 in
  let Hl := (HL0 * Psi) in
  Ok Hl
  else let Hl := (HL0 * Psi) in
  Ok Hl
  else if (Reqb regime 3) then let d := 2.96 in
  let e := 0.305 in
  let f := (- 0.4473) in
  let h := 0.0978 in
  t11 <- ppow lambda_L e ;;
  t12 <- ppow LV f ;;
  t13 <- ppow Fr h ;;
  t14 <- plog (((d * t11) * t12) * t13) ;;
  let C_ := ((1 - lambda_L) * t14) in
  C_ <- (if (Rltb C_ 0) then let C_ := 0 in
  Ok C_
  else Ok C_) ;;
  let x1 := (sin (1.8 * angle)) in
  let Psi := (1 + ((C_ * x1) * (1 - (((1 / 3) * x1) * x1)))) in
  if (((Rltb 0 angle) && (Reqb regime 3))%bool || (Reqb angle 0))%bool then let Psi := 1 in
  let Hl := (HL0 * Psi) in
  Ok Hl
  else let Hl := (HL0 * Psi) in
  Ok Hl
  else Err UnboundLocalError
  else if (Rleb angle 0) then let d := 4.7 in
  let e := (- 0.3692) in
  let f := 0.1244 in
  let h := (- 0.5056) in
  t23 <- ppow lambda_L e ;;
  t24 <- ppow LV f ;;
  t25 <- ppow Fr h ;;
  t26 <- plog (((d * t23) * t24) * t25) ;;
  let C_ := ((1 - lambda_L) * t26) in
  C_ <- (if (Rltb C_ 0) then let C_ := 0 in
  Ok C_
  else Ok C_) ;;
  let x1 := (sin (1.8 * angle)) in
  let Psi := (1 + ((C_ * x1) * (1 - (((1 / 3) * x1) * x1)))) in
  if (((Rltb 0 angle) && (Reqb regime 3))%bool || (Reqb angle 0))%bool then let Psi := 1 in
  let Hl := (HL0 * Psi) in
  Ok Hl
  else let Hl := (HL0 * Psi) in
  Ok Hl
  else Err UnboundLocalError
  else if (Reqb regime 2) then let a := 0.845 in
  let b := 0.5351 in
  let c := 0.0173 in
  t35 <- ppow lambda_L b ;;
  t36 <- ppow Fr (- c) ;;
  let HL0 := ((a * t35) * t36) in
  HL0 <- (if (Rltb HL0 lambda_L) then let HL0 := lambda_L in
  Ok HL0
  else Ok HL0) ;;
  if (Rltb 0 angle) then if (Reqb regime 0) then let d := 0.011 in
  let e := (- 3.768) in
  let f := 3.539 in
  let h := (- 1.614) in
  t37 <- ppow lambda_L e ;;
  t38 <- ppow LV f ;;
  t39 <- ppow Fr h ;;
  t40 <- plog (((d * t37) * t38) * t39) ;;
  let C_ := ((1 - lambda_L) * t40) in
  C_ <- (if (Rltb C_ 0) then let C_ := 0 in
  Ok C_
  else Ok C_) ;;
  let x1 := (sin (1.8 * angle)) in
  let Psi := (1 + ((C_ * x1) * (1 - (((1 / 3) * x1) * x1)))) in
  if (((Rltb 0 angle) && (Reqb regime 3))%bool || (Reqb angle 0))%bool then let Psi := 1 in
  let Hl := (HL0 * Psi) in
  Ok Hl
  else let Hl := (HL0 * Psi) in
  Ok Hl
  else if (Reqb regime 2) then let d := 2.96 in
  let e := 0.305 in
  let f := (- 0.4473) in
  let h := 0.0978 in
  t41 <- ppow lambda_L e ;;
  t42 <- ppow LV f ;;
  t43 <- ppow Fr h ;;
  t44 <- plog (((d * t41) * t42) * t43) ;;
  let C_ := ((1 - lambda_L) * t44) in
  C_ <- (if (Rltb C_ 0) then let C_ := 0 in
  Ok C_
  else Ok C_) ;;
  let x1 := (sin (1.8 * angle)) in
  let Psi := (1 + ((C_ * x1) * (1 - (((1 / 3) * x1) * x1)))) in
  if (((Rltb 0 angle) && (Reqb regime 3))%bool || (Reqb angle 0))%bool then let Psi := 1 in
  let Hl := (HL0 * Psi) in
  Ok Hl
  else let Hl := (HL0 * Psi) in
  Ok Hl
  else if (Reqb regime 3) then let d := 2.96 in
  let e := 0.305 in
  let f := (- 0.4473) in
  let h := 0.0978 in
  t45 <- ppow lambda_L e ;;
  t46 <- ppow LV f ;;
  t47 <- ppow Fr h ;;
  t48 <- plog (((d * t45) * t46) * t47) ;;
  let C_ := ((1 - lambda_L) * t48) in
  C_ <- (if (Rltb C_ 0) then let C_ := 0 in
  Ok C_
  else Ok C_) ;;
  let x1 := (sin (1.8 * angle)) in
  let Psi := (1 + ((C_ * x1) * (1 - (((1 / 3) * x1) * x1)))) in
  if (((Rltb 0 angle) && (Reqb regime 3))%bool || (Reqb angle 0))%bool then let Psi := 1 in
  let Hl := (HL0 * Psi) in
  Ok Hl
  else let Hl := (HL0 * Psi) in
  Ok Hl
  else Err UnboundLocalError
  else if (Rleb angle 0) then let d := 4.7 in
  let e := (- 0.3692) in
  let f := 0.1244 in
  let h := (- 0.5056) in
  t57 <- ppow lambda_L e ;;
  t58 <- ppow LV f ;;
  t59 <- ppow Fr h ;;
  t60 <- plog (((d * t57) * t58) * t59) ;;
  let C_ := ((1 - lambda_L) * t60) in
  C_ <- (if (Rltb C_ 0) then let C_ := 0 in
  Ok C_
  else Ok C_) ;;
  let x1 := (sin (1.8 * angle)) in
  let Psi := (1 + ((C_ * x1) * (1 - (((1 / 3) * x1) * x1)))) in
  if (((Rltb 0 angle) && (Reqb regime 3))%bool || (Reqb angle 0))%bool then let Psi := 1 in
  let Hl := (HL0 * Psi) in
  Ok Hl
  else let Hl := (HL0 * Psi) in
  Ok Hl
  else Err UnboundLocalError
  else if (Reqb regime 3) then let a := 1.065 in
  let b := 0.5824 in
  let c := 0.0609 in
  t69 <- ppow lambda_L b ;;
  t70 <- ppow Fr (- c) ;;
  let HL0 := ((a * t69) * t70) in
  HL0 <- (if (Rltb HL0 lambda_L) then let HL0 := lambda_L in
  Ok HL0
  else Ok HL0) ;;
  if (Rltb 0 angle) then if (Reqb regime 0) then let d := 0.011 in
  let e := (- 3.768) in
  let f := 3.539 in
  let h := (- 1.614) in
  t71 <- ppow lambda_L e ;;
  t72 <- ppow LV f ;;
  t73 <- ppow Fr h ;;
  t74 <- plog (((d * t71) * t72) * t73) ;;
  let C_ := ((1 - lambda_L) * t74) in
  C_ <- (if (Rltb C_ 0) then let C_ := 0 in
  Ok C_
  else Ok C_) ;;
  let x1 := (sin (1.8 * angle)) in
  let Psi := (1 + ((C_ * x1) * (1 - (((1 / 3) * x1) * x1)))) in
  if (((Rltb 0 angle) && (Reqb regime 3))%bool || (Reqb angle 0))%bool then let Psi := 1 in
  let Hl := (HL0 * Psi) in
  Ok Hl
  else let Hl := (HL0 * Psi) in
  Ok Hl
  else if (Reqb regime 2) then let d := 2.96 in
  let e := 0.305 in
  let f := (- 0.4473) in
  let h := 0.0978 in
  t75 <- ppow lambda_L e ;;
  t76 <- ppow LV f ;;
  t77 <- ppow Fr h ;;
  t78 <- plog (((d * t75) * t76) * t77) ;;
  let C_ := ((1 - lambda_L) * t78) in
  C_ <- (if (Rltb C_ 0) then let C_ := 0 in
  Ok C_
  else Ok C_) ;;
  let x1 := (sin (1.8 * angle)) in
  let Psi := (1 + ((C_ * x1) * (1 - (((1 / 3) * x1) * x1)))) in
  if (((Rltb 0 angle) && (Reqb regime 3))%bool || (Reqb angle 0))%bool then let Psi := 1 in
  let Hl := (HL0 * Psi) in
  Ok Hl
  else let Hl := (HL0 * Psi) in
  Ok Hl
  else if (Reqb regime 3) then let d := 2.96 in
  let e := 0.305 in
  let f := (- 0.4473) in
  let h := 0.0978 in
  t79 <- ppow lambda_L e ;;
  t80 <- ppow LV f ;;
  t81 <- ppow Fr h ;;
  t82 <- plog (((d * t79) * t80) * t81) ;;
  let C_ := ((1 - lambda_L) * t82) in
  C_ <- (if (Rltb C_ 0) then let C_ := 0 in
  Ok C_
  else Ok C_) ;;
  let x1 := (sin (1.8 * angle)) in
  let Psi := (1 + ((C_ * x1) * (1 - (((1 / 3) * x1) * x1)))) in
  if (((Rltb 0 angle) && (Reqb regime 3))%bool || (Reqb angle 0))%bool then let Psi := 1 in
  let Hl := (HL0 * Psi) in
  Ok Hl
  else let Hl := (HL0 * Psi) in
  Ok Hl
  else Err UnboundLocalError
  else if (Rleb angle 0) then let d := 4.7 in
  let e := (- 0.3692) in
  let f := 0.1244 in
  let h := (- 0.5056) in
  t91 <- ppow lambda_L e ;;
  t92 <- ppow LV f ;;
  t93 <- ppow Fr h ;;
  t94 <- plog (((d * t91) * t92) * t93) ;;
  let C_ := ((1 - lambda_L) * t94) in
  C_ <- (if (Rltb C_ 0) then let C_ := 0 in
  Ok C_
  else Ok C_) ;;
  let x1 := (sin (1.8 * angle)) in
  let Psi := (1 + ((C_ * x1) * (1 - (((1 / 3) * x1) * x1)))) in
  if (((Rltb 0 angle) && (Reqb regime 3))%bool || (Reqb angle 0))%bool then let Psi := 1 in
  let Hl := (HL0 * Psi) in
  Ok Hl
  else let Hl := (HL0 * Psi) in
  Ok Hl
  else Err UnboundLocalError
  else Err UnboundLocalError.

(** fluids/two_phase.py:220-284 [Beggs_Brill]. *)
Definition Beggs_Brill (W : R -> R) (m : R) (x : R) (rhol : R) (rhog : R) (mul : R) (mug : R) (sigma : R) (P_ : R) (D_ : R) (angle : R) (roughness : R) (L : R) (g : R) (acceleration : bool) : result R :=
  qg <- pdiv (x * m) rhog ;;
  ql <- pdiv ((1 - x) * m) rhol ;;
  let A := (((0.25 * PI) * D_) * D_) in
  Vsg <- pdiv qg A ;;
  Vsl <- pdiv ql A ;;
  let Vm := (Vsg + Vsl) in
  Fr <- pdiv (Vm * Vm) (g * D_) ;;
  lambda_L <- pdiv Vsl Vm ;;
  t7 <- ppow lambda_L 0.302 ;;
  let L1 := (316 * t7) in
  t8 <- ppow lambda_L (- 2.4684) ;;
  let L2 := (0.0009252 * t8) in
  t9 <- ppow lambda_L (- 1.4516) ;;
  let L3 := (0.1 * t9) in
  t10 <- ppow lambda_L (- 6.738) ;;
  let L4 := (0.5 * t10) in
  regime <- (if (((Rltb lambda_L 0.01) && (Rltb Fr L1))%bool || ((Rleb 0.01 lambda_L) && (Rltb Fr L2))%bool)%bool then let regime := 0 in
  Ok regime
  else if ((Rleb 0.01 lambda_L) && ((Rleb L2 Fr) && (Rleb Fr L3))%bool)%bool then let regime := 1 in
  Ok regime
  else if ((((Rleb 0.01 lambda_L) && (Rltb lambda_L 0.4))%bool && ((Rltb L3 Fr) && (Rleb Fr L1))%bool)%bool || ((Rleb 0.4 lambda_L) && ((Rltb L3 Fr) && (Rleb Fr L4))%bool)%bool)%bool then let regime := 2 in
  Ok regime
  else if (((Rltb lambda_L 0.4) && (Rleb L1 Fr))%bool || ((Rleb 0.4 lambda_L) && (Rltb L4 Fr))%bool)%bool then let regime := 3 in
  Ok regime
  else Err ValueError) ;;
  t11 <- pdiv rhol (g * sigma) ;;
  t12 <- psqrt t11 ;;
  t13 <- psqrt t12 ;;
  let LV := (Vsl * t13) in
  angle <- (Ok angle) ;;
  let angle := ((PI / 180) * angle) in
  Hl <- (if (negb (Reqb regime 1)) then _Beggs_Brill_holdup regime lambda_L Fr angle LV
  else A <- pdiv (L3 - Fr) (L3 - L2) ;;
  t16 <- _Beggs_Brill_holdup 0 lambda_L Fr angle LV ;;
  t17 <- _Beggs_Brill_holdup 2 lambda_L Fr angle LV ;;
  let Hl := ((A * t16) + ((1 - A) * t17)) in
  Ok Hl) ;;
  let rhos := ((rhol * Hl) + (rhog * (1 - Hl))) in
  let mum := ((mul * lambda_L) + (mug * (1 - lambda_L))) in
  let rhom := ((rhol * lambda_L) + (rhog * (1 - lambda_L))) in
  t18 <- pdiv (rhom * D_) mum ;;
  let Rem := (t18 * Vm) in
  t19 <- pdiv roughness D_ ;;
  fn <- friction_factor W Rem t19 (Some "Clamond"%string) true ;;
  x <- pdiv lambda_L (Hl * Hl) ;;
  S_ <- (if ((Rltb 1 x) && (Rltb x 1.2))%bool then plog ((2.2 * x) - 1.2)
  else logx <- plog x ;;
  pdiv logx ((logx * ((logx * (((0.01853 * logx) * logx) - 0.8725)) + 3.182)) - 0.0523)) ;;
  S_ <- (if (Rltb 7 S_) then let S_ := 7 in
  Ok S_
  else Ok S_) ;;
  let ftp := (fn * (exp S_)) in
  let dP_ele := (((g * (sin angle)) * rhos) * L) in
  t25 <- pdiv (ftp * L) D_ ;;
  let dP_fric := ((((t25 * 0.5) * rhom) * Vm) * Vm) in
  P_ <- (Ok P_) ;;
  if acceleration then Ek <- pdiv ((Vsg * Vm) * rhos) P_ ;;
  pdiv (dP_ele + dP_fric) (1 - Ek)
  else let dP := (dP_ele + dP_fric) in
  Ok dP.

(** fluids/two_phase.py:383-408 [Friedel]. *)
Definition Friedel (W : R -> R) (m : R) (x : R) (rhol : R) (rhog : R) (mul : R) (mug : R) (sigma : R) (D_ : R) (roughness : R) (L : R) : result R :=
  let A := (((0.25 * PI) * D_) * D_) in
  v_lo <- pdiv m (A * rhol) ;;
  Re_lo <- Reynolds v_lo D_ (Some rhol) (Some mul) None ;;
  t3 <- pdiv roughness D_ ;;
  fd_lo <- friction_factor W Re_lo t3 (Some "Clamond"%string) true ;;
  t5 <- pdiv (fd_lo * L) D_ ;;
  let dP_lo := (t5 * (((0.5 * rhol) * v_lo) * v_lo)) in
  v_go <- pdiv m (rhog * A) ;;
  Re_go <- Reynolds v_go D_ (Some rhog) (Some mug) None ;;
  t8 <- pdiv roughness D_ ;;
  fd_go <- friction_factor W Re_go t8 (Some "Clamond"%string) true ;;
  t10 <- ppow x 0.78 ;;
  t11 <- ppow (1 - x) 0.224 ;;
  let F := (t10 * t11) in
  t12 <- pdiv rhol rhog ;;
  t13 <- ppow t12 0.91 ;;
  t14 <- pdiv mug mul ;;
  t15 <- ppow t14 0.19 ;;
  t16 <- pdiv mug mul ;;
  t17 <- ppow (1 - t16) 0.7 ;;
  let H := ((t13 * t15) * t17) in
  t18 <- pdiv (rhol * fd_go) (rhog * fd_lo) ;;
  let E := (((1 - x) * (1 - x)) + ((x * x) * t18)) in
  voidage_h <- homogeneous x rhol rhog ;;
  let rho_h := ((rhol * (1 - voidage_h)) + (rhog * voidage_h)) in
  Q_h <- pdiv m rho_h ;;
  v_h <- pdiv Q_h A ;;
  Fr <- Froude v_h D_ 9.80665 true ;;
  We <- Weber v_h D_ rho_h sigma ;;
  t24 <- ppow Fr 0.0454 ;;
  t25 <- ppow We 0.035 ;;
  t26 <- pdiv ((3.24 * F) * H) (t24 * t25) ;;
  let phi_lo2 := (E + t26) in
  Ok (phi_lo2 * dP_lo).

(** fluids/two_phase.py:485-501 [Gronnerud]. *)
Definition Gronnerud (W : R -> R) (m : R) (x : R) (rhol : R) (rhog : R) (mul : R) (mug : R) (D_ : R) (roughness : R) (L : R) : result R :=
  G <- pdiv m (((0.25 * PI) * D_) * D_) ;;
  V <- pdiv G rhol ;;
  Frl <- Froude V D_ 9.80665 true ;;
  f_Fr <- (if (Rleb 1 Frl) then let f_Fr := 1 in
  Ok f_Fr
  else t4 <- pdiv 1 Frl ;;
  term <- plog t4 ;;
  t6 <- ppow Frl 0.3 ;;
  let f_Fr := (t6 + ((0.0055 * term) * term)) in
  Ok f_Fr) ;;
  t7 <- ppow x 1.8 ;;
  t8 <- psqrt f_Fr ;;
  let dP_dL_Fr := (f_Fr * (x + (4 * (t7 - ((x ^ 10) * t8))))) in
  t9 <- pdiv rhol rhog ;;
  t10 <- pdiv mul mug ;;
  t11 <- psqrt t10 ;;
  t12 <- psqrt t11 ;;
  t13 <- pdiv t9 t12 ;;
  let phi_gd := (1 + (dP_dL_Fr * (t13 - 1))) in
  v_lo <- pdiv m (rhol * (((0.25 * PI) * D_) * D_)) ;;
  Re_lo <- Reynolds v_lo D_ (Some rhol) (Some mul) None ;;
  t16 <- pdiv roughness D_ ;;
  fd_lo <- friction_factor W Re_lo t16 (Some "Clamond"%string) true ;;
  t18 <- pdiv (fd_lo * L) D_ ;;
  let dP_lo := (t18 * (((0.5 * rhol) * v_lo) * v_lo)) in
  Ok (phi_gd * dP_lo).

(** fluids/two_phase.py:612-650 [Chisholm]. *)
Definition Chisholm (W : R -> R) (m : R) (x : R) (rhol : R) (rhog : R) (mul : R) (mug : R) (D_ : R) (roughness : R) (L : R) (rough_correction : bool) : result R :=
  let A := (((0.25 * PI) * D_) * D_) in
  G_tp <- pdiv m A ;;
  let n := 0.25 in
  v_lo <- pdiv m (rhol * A) ;;
  Re_lo <- Reynolds v_lo D_ (Some rhol) (Some mul) None ;;
  t4 <- pdiv roughness D_ ;;
  fd_lo <- friction_factor W Re_lo t4 (Some "Clamond"%string) true ;;
  t6 <- pdiv (fd_lo * L) D_ ;;
  let dP_lo := (t6 * (((0.5 * rhol) * v_lo) * v_lo)) in
  v_go <- pdiv m (rhog * A) ;;
  Re_go <- Reynolds v_go D_ (Some rhog) (Some mug) None ;;
  t9 <- pdiv roughness D_ ;;
  fd_go <- friction_factor W Re_go t9 (Some "Clamond"%string) true ;;
  t11 <- pdiv (fd_go * L) D_ ;;
  let dP_go := (t11 * (((0.5 * rhog) * v_go) * v_go)) in
  t12 <- pdiv dP_go dP_lo ;;
  Gamma <- psqrt t12 ;;
  B <- (if (Rleb Gamma 9.5) then if (Rleb G_tp 500) then let B := 4.8 in
  Ok B
  else if (Rltb G_tp 1900) then pdiv 2400 G_tp
  else t15 <- psqrt G_tp ;;
  pdiv 55 t15
  else if (Rleb Gamma 28) then if (Rleb G_tp 600) then t17 <- psqrt G_tp ;;
  t18 <- pdiv 520 t17 ;;
  pdiv t18 Gamma
  else pdiv 21 Gamma
  else t21 <- psqrt G_tp ;;
  pdiv 15000 ((Gamma * Gamma) * t21)) ;;
  '(n, B) <- (if rough_correction then t23 <- pdiv fd_lo fd_go ;;
  t24 <- plog t23 ;;
  t25 <- pdiv Re_go Re_lo ;;
  t26 <- plog t25 ;;
  n <- pdiv t24 t26 ;;
  mu_ratio <- pdiv mug mul ;;
  t29 <- pdiv ((- 600) * roughness) D_ ;;
  t30 <- ppow 10 t29 ;;
  B_ratio <- ppow (0.5 * ((1 + (mu_ratio * mu_ratio)) + t30)) ((0.25 - n) * 4) ;;
  let B := (B * B_ratio) in
  Ok (n, B)
  else Ok (n, B)) ;;
  t32 <- ppow x ((2 - n) * 0.5) ;;
  t33 <- ppow (1 - x) ((2 - n) * 0.5) ;;
  t34 <- ppow x (2 - n) ;;
  let phi2_ch := (1 + (((Gamma * Gamma) - 1) * (((B * t32) * t33) + t34))) in
  Ok (phi2_ch * dP_lo).

(** fluids/two_phase.py:733-756 [Baroczy_Chisholm]. *)
Definition Baroczy_Chisholm (W : R -> R) (m : R) (x : R) (rhol : R) (rhog : R) (mul : R) (mug : R) (D_ : R) (roughness : R) (L : R) : result R :=
  let A := (((0.25 * PI) * D_) * D_) in
  G_tp <- pdiv m A ;;
  let n := 0.25 in
  v_lo <- pdiv m (A * rhol) ;;
  Re_lo <- Reynolds v_lo D_ (Some rhol) (Some mul) None ;;
  t4 <- pdiv roughness D_ ;;
  fd_lo <- friction_factor W Re_lo t4 (Some "Clamond"%string) true ;;
  t6 <- pdiv (fd_lo * L) D_ ;;
  let dP_lo := (t6 * (((0.5 * rhol) * v_lo) * v_lo)) in
  v_go <- pdiv m (A * rhog) ;;
  Re_go <- Reynolds v_go D_ (Some rhog) (Some mug) None ;;
  t9 <- pdiv roughness D_ ;;
  fd_go <- friction_factor W Re_go t9 (Some "Clamond"%string) true ;;
  t11 <- pdiv (fd_go * L) D_ ;;
  let dP_go := (t11 * (((0.5 * rhog) * v_go) * v_go)) in
  t12 <- pdiv dP_go dP_lo ;;
  Gamma <- psqrt t12 ;;
  B <- (if (Rleb Gamma 9.5) then t14 <- psqrt G_tp ;;
  pdiv 55 t14
  else if (Rleb Gamma 28) then t16 <- psqrt G_tp ;;
  pdiv 520 (t16 * Gamma)
  else t18 <- psqrt G_tp ;;
  pdiv 15000 (t18 * (Gamma * Gamma))) ;;
  t20 <- ppow x ((2 - n) * 0.5) ;;
  t21 <- ppow (1 - x) ((2 - n) * 0.5) ;;
  t22 <- ppow x (2 - n) ;;
  let phi2_ch := (1 + (((Gamma * Gamma) - 1) * (((B * t20) * t21) + t22))) in
  Ok (phi2_ch * dP_lo).

(** fluids/two_phase.py:819-833 [Muller_Steinhagen_Heck]. *)
Definition Muller_Steinhagen_Heck (W : R -> R) (m : R) (x : R) (rhol : R) (rhog : R) (mul : R) (mug : R) (D_ : R) (roughness : R) (L : R) : result R :=
  let A := (((0.25 * PI) * D_) * D_) in
  v_lo <- pdiv m (rhol * A) ;;
  Re_lo <- Reynolds v_lo D_ (Some rhol) (Some mul) None ;;
  t3 <- pdiv roughness D_ ;;
  fd_lo <- friction_factor W Re_lo t3 (Some "Clamond"%string) true ;;
  t5 <- pdiv (fd_lo * L) D_ ;;
  let dP_lo := (t5 * (((0.5 * rhol) * v_lo) * v_lo)) in
  v_go <- pdiv m (rhog * A) ;;
  Re_go <- Reynolds v_go D_ (Some rhog) (Some mug) None ;;
  t8 <- pdiv roughness D_ ;;
  fd_go <- friction_factor W Re_go t8 (Some "Clamond"%string) true ;;
  t10 <- pdiv (fd_go * L) D_ ;;
  let dP_go := (t10 * (((0.5 * rhog) * v_go) * v_go)) in
  let G_MSH := (dP_lo + ((2 * (dP_go - dP_lo)) * x)) in
  t11 <- pcbrt (1 - x) ;;
  Ok ((G_MSH * t11) + (((dP_go * x) * x) * x)).

(** fluids/two_phase.py:890-893 [Lombardi_Pedrocchi]. *)
Definition Lombardi_Pedrocchi (m : R) (x : R) (rhol : R) (rhog : R) (sigma : R) (D_ : R) (L : R) : result R :=
  voidage_h <- homogeneous x rhol rhog ;;
  let rho_h := ((rhol * (1 - voidage_h)) + (rhog * voidage_h)) in
  G_tp <- pdiv m (((0.25 * PI) * D_) * D_) ;;
  t3 <- ppow G_tp 1.4 ;;
  t4 <- ppow sigma 0.4 ;;
  t5 <- ppow D_ 1.2 ;;
  t6 <- ppow rho_h 0.866 ;;
  pdiv (((0.83 * t3) * t4) * L) (t5 * t6).

(** fluids/two_phase.py:975-1014 [Theissing]. *)
Definition Theissing (W : R -> R) (m : R) (x : R) (rhol : R) (rhog : R) (mul : R) (mug : R) (D_ : R) (roughness : R) (L : R) : result R :=
  let A := (((0.25 * PI) * D_) * D_) in
  v_lo <- pdiv m (rhol * A) ;;
  Re_lo <- Reynolds v_lo D_ (Some rhol) (Some mul) None ;;
  t3 <- pdiv roughness D_ ;;
  fd_lo <- friction_factor W Re_lo t3 (Some "Clamond"%string) true ;;
  t5 <- pdiv (fd_lo * L) D_ ;;
  let dP_lo := (t5 * (((0.5 * rhol) * v_lo) * v_lo)) in
  v_go <- pdiv m (rhog * A) ;;
  Re_go <- Reynolds v_go D_ (Some rhog) (Some mug) None ;;
  t8 <- pdiv roughness D_ ;;
  fd_go <- friction_factor W Re_go t8 (Some "Clamond"%string) true ;;
  t10 <- pdiv (fd_go * L) D_ ;;
  let dP_go := (t10 * (((0.5 * rhog) * v_go) * v_go)) in
  if (Reqb x 0) then Ok dP_lo
  else if (Reqb x 1) then Ok dP_go
  else v_l <- pdiv (m * (1 - x)) (rhol * A) ;;
  Re_l <- Reynolds v_l D_ (Some rhol) (Some mul) None ;;
  t13 <- pdiv roughness D_ ;;
  fd_l <- friction_factor W Re_l t13 (Some "Clamond"%string) true ;;
  t15 <- pdiv (fd_l * L) D_ ;;
  let dP_l := (t15 * (((0.5 * rhol) * v_l) * v_l)) in
  v_g <- pdiv (m * x) (rhog * A) ;;
  Re_g <- Reynolds v_g D_ (Some rhog) (Some mug) None ;;
  t18 <- pdiv roughness D_ ;;
  fd_g <- friction_factor W Re_g t18 (Some "Clamond"%string) true ;;
  t20 <- pdiv (fd_g * L) D_ ;;
  let dP_g := (t20 * (((0.5 * rhog) * v_g) * v_g)) in
  t21 <- pdiv dP_l dP_lo ;;
  t22 <- plog t21 ;;
  t23 <- plog (1 - x) ;;
  n1 <- pdiv t22 t23 ;;
  t25 <- pdiv dP_g dP_go ;;
  t26 <- plog t25 ;;
  t27 <- plog x ;;
  n2 <- pdiv t26 t27 ;;
  t29 <- pdiv dP_g dP_l ;;
  ratio <- ppow t29 0.1 ;;
  n <- pdiv (n1 + (n2 * ratio)) (1 + ratio) ;;
  t32 <- pdiv rhol rhog ;;
  t33 <- psqrt t32 ;;
  t34 <- pdiv rhol rhog ;;
  t35 <- pdiv (2 * t33) (1 + t34) ;;
  t36 <- pdiv 0.7 n ;;
  t37 <- ppow t35 t36 ;;
  let epsilon := (3 - (2 * t37)) in
  t38 <- pdiv 1 (n * epsilon) ;;
  t39 <- ppow dP_lo t38 ;;
  t40 <- pdiv 1 epsilon ;;
  t41 <- ppow (1 - x) t40 ;;
  t42 <- pdiv 1 (n * epsilon) ;;
  t43 <- ppow dP_go t42 ;;
  t44 <- pdiv 1 epsilon ;;
  t45 <- ppow x t44 ;;
  ppow ((t39 * t41) + (t43 * t45)) (n * epsilon).

(** fluids/two_phase.py:1080-1088 [Jung_Radermacher]. *)
Definition Jung_Radermacher (W : R -> R) (m : R) (x : R) (rhol : R) (rhog : R) (mul : R) (mug : R) (D_ : R) (roughness : R) (L : R) : result R :=
  let A := (((0.25 * PI) * D_) * D_) in
  v_lo <- pdiv m (rhol * A) ;;
  Re_lo <- Reynolds v_lo D_ (Some rhol) (Some mul) None ;;
  t3 <- pdiv roughness D_ ;;
  fd_lo <- friction_factor W Re_lo t3 (Some "Clamond"%string) true ;;
  t5 <- pdiv (fd_lo * L) D_ ;;
  let dP_lo := (t5 * (((0.5 * rhol) * v_lo) * v_lo)) in
  Xtt <- Lockhart_Martinelli_Xtt x rhol rhog mul mug 0.9 0.5 0.1 None ;;
  t7 <- ppow Xtt (- 1.47) ;;
  t8 <- ppow (1 - x) 1.8 ;;
  let phi_tp2 := ((12.82 * t7) * t8) in
  Ok (phi_tp2 * dP_lo).

(** fluids/two_phase.py:1162-1178 [Tran]. *)
Definition Tran (W : R -> R) (m : R) (x : R) (rhol : R) (rhog : R) (mul : R) (mug : R) (sigma : R) (D_ : R) (roughness : R) (L : R) : result R :=
  let A := (((0.25 * PI) * D_) * D_) in
  v_lo <- pdiv m (rhol * A) ;;
  Re_lo <- Reynolds v_lo D_ (Some rhol) (Some mul) None ;;
  t3 <- pdiv roughness D_ ;;
  fd_lo <- friction_factor W Re_lo t3 (Some "Clamond"%string) true ;;
  t5 <- pdiv (fd_lo * L) D_ ;;
  let dP_lo := (t5 * (((0.5 * rhol) * v_lo) * v_lo)) in
  v_go <- pdiv m (rhog * A) ;;
  Re_go <- Reynolds v_go D_ (Some rhog) (Some mug) None ;;
  t8 <- pdiv roughness D_ ;;
  fd_go <- friction_factor W Re_go t8 (Some "Clamond"%string) true ;;
  t10 <- pdiv (fd_go * L) D_ ;;
  let dP_go := (t10 * (((0.5 * rhog) * v_go) * v_go)) in
  Gamma2 <- pdiv dP_go dP_lo ;;
  Co <- Confinement D_ rhol rhog sigma 9.80665 ;;
  t13 <- ppow x 0.875 ;;
  t14 <- ppow (1 - x) 0.875 ;;
  t15 <- ppow x 1.75 ;;
  let phi_lo2 := (1 + (((4.3 * Gamma2) - 1) * (((Co * t13) * t14) + t15))) in
  Ok (dP_lo * phi_lo2).

(** fluids/two_phase.py:1263-1302 [Chen_Friedel]. *)
Definition Chen_Friedel (W : R -> R) (m : R) (x : R) (rhol : R) (rhog : R) (mul : R) (mug : R) (sigma : R) (D_ : R) (roughness : R) (L : R) : result R :=
  let A := (((0.25 * PI) * D_) * D_) in
  v_lo <- pdiv m (rhol * A) ;;
  Re_lo <- Reynolds v_lo D_ (Some rhol) (Some mul) None ;;
  t3 <- pdiv roughness D_ ;;
  fd_lo <- friction_factor W Re_lo t3 (Some "Clamond"%string) true ;;
  t5 <- pdiv (fd_lo * L) D_ ;;
  let dP_lo := (t5 * (((0.5 * rhol) * v_lo) * v_lo)) in
  v_go <- pdiv m (rhog * A) ;;
  Re_go <- Reynolds v_go D_ (Some rhog) (Some mug) None ;;
  t8 <- pdiv roughness D_ ;;
  fd_go <- friction_factor W Re_go t8 (Some "Clamond"%string) true ;;
  t10 <- ppow x 0.78 ;;
  t11 <- ppow (1 - x) 0.224 ;;
  let F := (t10 * t11) in
  t12 <- pdiv rhol rhog ;;
  t13 <- ppow t12 0.91 ;;
  t14 <- pdiv mug mul ;;
  t15 <- ppow t14 0.19 ;;
  t16 <- pdiv mug mul ;;
  t17 <- ppow (1 - t16) 0.7 ;;
  let H := ((t13 * t15) * t17) in
  t18 <- pdiv (rhol * fd_go) (rhog * fd_lo) ;;
  let E := (((1 - x) * (1 - x)) + ((x * x) * t18)) in
  t19 <- pdiv x rhog ;;
  t20 <- pdiv (1 - x) rhol ;;
  rho_h <- pdiv 1 (t19 + t20) ;;
  Q_h <- pdiv m rho_h ;;
  v_h <- pdiv Q_h A ;;
  Fr <- Froude v_h D_ 9.80665 true ;;
  We <- Weber v_h D_ rho_h sigma ;;
  t26 <- ppow Fr 0.0454 ;;
  t27 <- ppow We 0.035 ;;
  t28 <- pdiv ((3.24 * F) * H) (t26 * t27) ;;
  let phi_lo2 := (E + t28) in
  let dP := (phi_lo2 * dP_lo) in
  t29 <- Bond rhol rhog sigma D_ ;;
  let Bo := (t29 / 4) in
  if (Rltb Bo 2.5) then v_g <- pdiv (m * x) (rhog * A) ;;
  Re_g <- Reynolds v_g D_ (Some rhog) (Some mug) None ;;
  t32 <- ppow Re_lo 0.45 ;;
  t33 <- ppow Re_g 0.09 ;;
  Omega <- pdiv (0.0333 * t32) (t33 * (1 + (0.4 * (exp (- Bo))))) ;;
  Ok (dP * Omega)
  else t35 <- ppow We 0.2 ;;
  Omega <- pdiv t35 (2.5 + (0.06 * Bo)) ;;
  Ok (dP * Omega).

(** fluids/two_phase.py:1367-1374 [Zhang_Webb]. *)
Definition Zhang_Webb (W : R -> R) (m : R) (x : R) (rhol : R) (mul : R) (P_ : R) (Pc : R) (D_ : R) (roughness : R) (L : R) : result R :=
  let A := (((0.25 * PI) * D_) * D_) in
  v_lo <- pdiv m (rhol * A) ;;
  Re_lo <- Reynolds v_lo D_ (Some rhol) (Some mul) None ;;
  t3 <- pdiv roughness D_ ;;
  fd_lo <- friction_factor W Re_lo t3 (Some "Clamond"%string) true ;;
  t5 <- pdiv (fd_lo * L) D_ ;;
  let dP_lo := (t5 * (((0.5 * rhol) * v_lo) * v_lo)) in
  Pr <- (pdiv P_ Pc) ;;
  t8 <- pdiv ((2.87 * x) * x) Pr ;;
  t9 <- ppow x 0.8 ;;
  t10 <- psqrt (1 - x) ;;
  t11 <- psqrt t10 ;;
  t12 <- ppow Pr (- 1.64) ;;
  let phi_lo2 := ((((1 - x) * (1 - x)) + t8) + (((1.68 * t9) * t11) * t12)) in
  Ok (dP_lo * phi_lo2).

(** fluids/two_phase.py:1444-1453 [Bankoff]. *)
Definition Bankoff (W : R -> R) (m : R) (x : R) (rhol : R) (rhog : R) (mul : R) (mug : R) (D_ : R) (roughness : R) (L : R) : result R :=
  let A := (((0.25 * PI) * D_) * D_) in
  v_lo <- pdiv m (rhol * A) ;;
  Re_lo <- Reynolds v_lo D_ (Some rhol) (Some mul) None ;;
  t3 <- pdiv roughness D_ ;;
  fd_lo <- friction_factor W Re_lo t3 (Some "Clamond"%string) true ;;
  t5 <- pdiv (fd_lo * L) D_ ;;
  let dP_lo := (t5 * (((0.5 * rhol) * v_lo) * v_lo)) in
  t6 <- pdiv (2.35 * rhog) rhol ;;
  t7 <- pdiv (1 - x) x ;;
  t8 <- pdiv (t7 * rhog) rhol ;;
  gamma <- pdiv (0.71 + t6) (1 + t8) ;;
  t10 <- pdiv 1 (1 - x) ;;
  t11 <- pdiv rhog rhol ;;
  t12 <- ppow (1 - (gamma * (1 - t11))) (3 / 7) ;;
  t13 <- pdiv rhol rhog ;;
  let phi_Bf := ((t10 * t12) * (1 + (x * (t13 - 1)))) in
  t14 <- ppow phi_Bf (7 / 4) ;;
  Ok (dP_lo * t14).

(** fluids/two_phase.py:1524-1551 [Xu_Fang]. *)
Definition Xu_Fang (W : R -> R) (m : R) (x : R) (rhol : R) (rhog : R) (mul : R) (mug : R) (sigma : R) (D_ : R) (roughness : R) (L : R) : result R :=
  let A := (((0.25 * PI) * D_) * D_) in
  v_lo <- pdiv m (rhol * A) ;;
  Re_lo <- Reynolds v_lo D_ (Some rhol) (Some mul) None ;;
  t3 <- pdiv roughness D_ ;;
  fd_lo <- friction_factor W Re_lo t3 (Some "Clamond"%string) true ;;
  t5 <- pdiv (fd_lo * L) D_ ;;
  let dP_lo := (t5 * (((0.5 * rhol) * v_lo) * v_lo)) in
  v_go <- pdiv m (rhog * A) ;;
  Re_go <- Reynolds v_go D_ (Some rhog) (Some mug) None ;;
  t8 <- pdiv roughness D_ ;;
  fd_go <- friction_factor W Re_go t8 (Some "Clamond"%string) true ;;
  t10 <- pdiv (fd_go * L) D_ ;;
  let dP_go := (t10 * (((0.5 * rhog) * v_go) * v_go)) in
  voidage_h <- homogeneous x rhol rhog ;;
  let rho_h := ((rhol * (1 - voidage_h)) + (rhog * voidage_h)) in
  Q_h <- pdiv m rho_h ;;
  v_h <- pdiv Q_h A ;;
  Fr <- Froude v_h D_ 9.80665 true ;;
  We <- Weber v_h D_ rho_h sigma ;;
  Y2 <- pdiv dP_go dP_lo ;;
  t17 <- ppow x 2.59 ;;
  t18 <- ppow (1 - t17) 0.632 ;;
  t19 <- ppow x 1.17 ;;
  t20 <- ppow x (- 0.475) ;;
  t21 <- ppow Fr 0.535 ;;
  t22 <- ppow We 0.188 ;;
  let phi_lo2 := ((((Y2 * x) * x) * x) + (t18 * ((1 + ((2 * t19) * (Y2 - 1))) + (((0.00775 * t20) * t21) * t22)))) in
  Ok (phi_lo2 * dP_lo).

(** fluids/two_phase.py:1619-1632 [Yu_France]. *)
Definition Yu_France (W : R -> R) (m : R) (x : R) (rhol : R) (rhog : R) (mul : R) (mug : R) (D_ : R) (roughness : R) (L : R) : result R :=
  let A := (((0.25 * PI) * D_) * D_) in
  v_l <- pdiv (m * (1 - x)) (rhol * A) ;;
  Re_l <- Reynolds v_l D_ (Some rhol) (Some mul) None ;;
  t3 <- pdiv roughness D_ ;;
  fd_l <- friction_factor W Re_l t3 (Some "Clamond"%string) true ;;
  t5 <- pdiv (fd_l * L) D_ ;;
  let dP_l := (t5 * (((0.5 * rhol) * v_l) * v_l)) in
  v_g <- pdiv (m * x) (rhog * A) ;;
  Re_g <- Reynolds v_g D_ (Some rhog) (Some mug) None ;;
  t8 <- pdiv rhog rhol ;;
  t9 <- psqrt t8 ;;
  t10 <- pdiv ((18.65 * t9) * (1 - x)) x ;;
  t11 <- ppow Re_g 0.1 ;;
  t12 <- psqrt Re_l ;;
  X <- pdiv (t10 * t11) t12 ;;
  phi_l2 <- ppow X (- 1.9) ;;
  Ok (phi_l2 * dP_l).

(** fluids/two_phase.py:1706-1731 [Wang_Chiang_Lu]. *)
Definition Wang_Chiang_Lu (W : R -> R) (m : R) (x : R) (rhol : R) (rhog : R) (mul : R) (mug : R) (D_ : R) (roughness : R) (L : R) : result R :=
  let A := (((0.25 * PI) * D_) * D_) in
  G_tp <- pdiv m A ;;
  v_l <- pdiv (m * (1 - x)) (rhol * A) ;;
  Re_l <- Reynolds v_l D_ (Some rhol) (Some mul) None ;;
  t4 <- pdiv roughness D_ ;;
  fd_l <- friction_factor W Re_l t4 (Some "Clamond"%string) true ;;
  t6 <- pdiv (fd_l * L) D_ ;;
  let dP_l := (t6 * (((0.5 * rhol) * v_l) * v_l)) in
  v_g <- pdiv (m * x) (rhog * A) ;;
  Re_g <- Reynolds v_g D_ (Some rhog) (Some mug) None ;;
  t9 <- pdiv roughness D_ ;;
  fd_g <- friction_factor W Re_g t9 (Some "Clamond"%string) true ;;
  t11 <- pdiv (fd_g * L) D_ ;;
  let dP_g := (t11 * (((0.5 * rhog) * v_g) * v_g)) in
  t12 <- pdiv dP_l dP_g ;;
  X <- psqrt t12 ;;
  if (Rleb 200 G_tp) then t14 <- ppow X 0.62 ;;
  t15 <- ppow X 2.45 ;;
  let phi_g2 := ((1 + (9.397 * t14)) + (0.564 * t15)) in
  Ok (dP_g * phi_g2)
  else v_lo <- pdiv m (rhol * A) ;;
  Re_lo <- Reynolds v_lo D_ (Some rhol) (Some mul) None ;;
  t18 <- ppow X 0.128 ;;
  t19 <- ppow Re_lo 0.938 ;;
  t20 <- pdiv rhol rhog ;;
  t21 <- ppow t20 (- 2.15) ;;
  t22 <- pdiv mul mug ;;
  t23 <- ppow t22 5.1 ;;
  let C_ := ((((0.000004566 * t18) * t19) * t21) * t23) in
  let phi_g2 := ((1 + (C_ * X)) + (X * X)) in
  Ok (dP_g * phi_g2).

(** fluids/two_phase.py:1805-1827 [Hwang_Kim]. *)
Definition Hwang_Kim (W : R -> R) (m : R) (x : R) (rhol : R) (rhog : R) (mul : R) (mug : R) (sigma : R) (D_ : R) (roughness : R) (L : R) : result R :=
  let A := (((0.25 * PI) * D_) * D_) in
  v_lo <- pdiv m (rhol * A) ;;
  Re_lo <- Reynolds v_lo D_ (Some rhol) (Some mul) None ;;
  v_l <- pdiv (m * (1 - x)) (rhol * A) ;;
  Re_l <- Reynolds v_l D_ (Some rhol) (Some mul) None ;;
  t5 <- pdiv roughness D_ ;;
  fd_l <- friction_factor W Re_l t5 (Some "Clamond"%string) true ;;
  t7 <- pdiv (fd_l * L) D_ ;;
  let dP_l := (t7 * (((0.5 * rhol) * v_l) * v_l)) in
  v_g <- pdiv (m * x) (rhog * A) ;;
  Re_g <- Reynolds v_g D_ (Some rhog) (Some mug) None ;;
  t10 <- pdiv roughness D_ ;;
  fd_g <- friction_factor W Re_g t10 (Some "Clamond"%string) true ;;
  t12 <- pdiv (fd_g * L) D_ ;;
  let dP_g := (t12 * (((0.5 * rhog) * v_g) * v_g)) in
  t13 <- pdiv dP_l dP_g ;;
  X <- psqrt t13 ;;
  Co <- Confinement D_ rhol rhog sigma 9.80665 ;;
  t16 <- ppow Re_lo 0.452 ;;
  t17 <- ppow X (- 0.32) ;;
  t18 <- ppow Co (- 0.82) ;;
  let C_ := (((0.227 * t16) * t17) * t18) in
  t19 <- pdiv C_ X ;;
  t20 <- pdiv 1 (X * X) ;;
  let phi_l2 := ((1 + t19) + t20) in
  Ok (dP_l * phi_l2).

(** fluids/two_phase.py:1916-1943 [Zhang_Hibiki_Mishima]. *)
Definition Zhang_Hibiki_Mishima (W : R -> R) (m : R) (x : R) (rhol : R) (rhog : R) (mul : R) (mug : R) (sigma : R) (D_ : R) (roughness : R) (L : R) (flowtype : string) : result R :=
  let A := (((0.25 * PI) * D_) * D_) in
  v_l <- pdiv (m * (1 - x)) (rhol * A) ;;
  Re_l <- Reynolds v_l D_ (Some rhol) (Some mul) None ;;
  t3 <- pdiv roughness D_ ;;
  fd_l <- friction_factor W Re_l t3 (Some "Clamond"%string) true ;;
  t5 <- pdiv (fd_l * L) D_ ;;
  let dP_l := (t5 * (((0.5 * rhol) * v_l) * v_l)) in
  v_g <- pdiv (m * x) (rhog * A) ;;
  Re_g <- Reynolds v_g D_ (Some rhog) (Some mug) None ;;
  t8 <- pdiv roughness D_ ;;
  fd_g <- friction_factor W Re_g t8 (Some "Clamond"%string) true ;;
  t10 <- pdiv (fd_g * L) D_ ;;
  let dP_g := (t10 * (((0.5 * rhog) * v_g) * v_g)) in
  t11 <- pdiv dP_l dP_g ;;
  X <- psqrt t11 ;;
  Co <- Confinement D_ rhol rhog sigma 9.80665 ;;
  C_ <- (if (String.eqb flowtype "adiabatic vapor"%string) then t14 <- pdiv (- 0.142) Co ;;
  let C_ := (21 * (1 - (exp t14))) in
  Ok C_
  else if (String.eqb flowtype "adiabatic gas"%string) then t15 <- pdiv (- 0.674) Co ;;
  let C_ := (21 * (1 - (exp t15))) in
  Ok C_
  else if (String.eqb flowtype "flow boiling"%string) then t16 <- pdiv (- 0.358) Co ;;
  let C_ := (21 * (1 - (exp t16))) in
  Ok C_
  else Err ValueError) ;;
  t17 <- pdiv C_ X ;;
  t18 <- pdiv 1 (X * X) ;;
  let phi_l2 := ((1 + t17) + t18) in
  Ok (dP_l * phi_l2).

(** fluids/two_phase.py:2015-2032 [Mishima_Hibiki]. *)
Definition Mishima_Hibiki (W : R -> R) (m : R) (x : R) (rhol : R) (rhog : R) (mul : R) (mug : R) (sigma : R) (D_ : R) (roughness : R) (L : R) : result R :=
  let A := (((0.25 * PI) * D_) * D_) in
  v_l <- pdiv (m * (1 - x)) (rhol * A) ;;
  Re_l <- Reynolds v_l D_ (Some rhol) (Some mul) None ;;
  t3 <- pdiv roughness D_ ;;
  fd_l <- friction_factor W Re_l t3 (Some "Clamond"%string) true ;;
  t5 <- pdiv (fd_l * L) D_ ;;
  let dP_l := (t5 * (((0.5 * rhol) * v_l) * v_l)) in
  v_g <- pdiv (m * x) (rhog * A) ;;
  Re_g <- Reynolds v_g D_ (Some rhog) (Some mug) None ;;
  t8 <- pdiv roughness D_ ;;
  fd_g <- friction_factor W Re_g t8 (Some "Clamond"%string) true ;;
  t10 <- pdiv (fd_g * L) D_ ;;
  let dP_g := (t10 * (((0.5 * rhog) * v_g) * v_g)) in
  t11 <- pdiv dP_l dP_g ;;
  X <- psqrt t11 ;;
  let C_ := (21 * (1 - (exp ((- 319) * D_)))) in
  t13 <- pdiv C_ X ;;
  t14 <- pdiv 1 (X * X) ;;
  let phi_l2 := ((1 + t13) + t14) in
  Ok (dP_l * phi_l2).

(** fluids/two_phase.py:2035-2040 [friction_factor_Kim_Mudawar]. *)
Definition friction_factor_Kim_Mudawar (Re : R) : result R :=
  if (Rltb Re 2000) then pdiv 64 Re
  else if (Rltb Re 20000) then t2 <- psqrt Re ;;
  t3 <- psqrt t2 ;;
  pdiv 0.316 t3
  else t5 <- ppow Re (- 0.2) ;;
  Ok (0.184 * t5).

(** fluids/two_phase.py:2150-2181 [Kim_Mudawar]. *)
Definition Kim_Mudawar (m : R) (x : R) (rhol : R) (rhog : R) (mul : R) (mug : R) (sigma : R) (D_ : R) (L : R) : result R :=
  let A := (((0.25 * PI) * D_) * D_) in
  v_l <- pdiv (m * (1 - x)) (rhol * A) ;;
  Re_l <- Reynolds v_l D_ (Some rhol) (Some mul) None ;;
  fd_l <- friction_factor_Kim_Mudawar Re_l ;;
  t4 <- pdiv (fd_l * L) D_ ;;
  let dP_l := (t4 * (((0.5 * rhol) * v_l) * v_l)) in
  v_g <- pdiv (m * x) (rhog * A) ;;
  Re_g <- Reynolds v_g D_ (Some rhog) (Some mug) None ;;
  fd_g <- friction_factor_Kim_Mudawar Re_g ;;
  t8 <- pdiv (fd_g * L) D_ ;;
  let dP_g := (t8 * (((0.5 * rhog) * v_g) * v_g)) in
  v_lo <- pdiv m (rhol * A) ;;
  Re_lo <- Reynolds v_lo D_ (Some rhol) (Some mul) None ;;
  Su <- Suratman D_ rhog mug sigma ;;
  t12 <- pdiv dP_l dP_g ;;
  X <- psqrt t12 ;;
  let Re_c := 2000 in
  C_ <- (if ((Rltb Re_l Re_c) && (Rltb Re_g Re_c))%bool then t14 <- ppow Re_lo 0.44 ;;
  t15 <- psqrt Su ;;
  t16 <- pdiv rhol rhog ;;
  t17 <- ppow t16 0.48 ;;
  let C_ := (((0.000035 * t14) * t15) * t17) in
  Ok C_
  else if ((Rltb Re_l Re_c) && (Rleb Re_c Re_g))%bool then t18 <- ppow Re_lo 0.59 ;;
  t19 <- ppow Su 0.19 ;;
  t20 <- pdiv rhol rhog ;;
  t21 <- ppow t20 0.36 ;;
  let C_ := (((0.0015 * t18) * t19) * t21) in
  Ok C_
  else if ((Rleb Re_c Re_l) && (Rltb Re_g Re_c))%bool then t22 <- ppow Re_lo 0.17 ;;
  t23 <- psqrt Su ;;
  t24 <- pdiv rhol rhog ;;
  t25 <- ppow t24 0.14 ;;
  let C_ := (((0.00087 * t22) * t23) * t25) in
  Ok C_
  else t26 <- ppow Re_lo 0.03 ;;
  t27 <- ppow Su 0.1 ;;
  t28 <- pdiv rhol rhog ;;
  t29 <- ppow t28 0.35 ;;
  let C_ := (((0.39 * t26) * t27) * t29) in
  Ok C_) ;;
  t30 <- pdiv C_ X ;;
  t31 <- pdiv 1 (X * X) ;;
  let phi_l2 := ((1 + t30) + t31) in
  Ok (dP_l * phi_l2).

(** fluids/two_phase.py:2287-2319 [Lockhart_Martinelli]. *)
Definition Lockhart_Martinelli (m : R) (x : R) (rhol : R) (rhog : R) (mul : R) (mug : R) (D_ : R) (L : R) (Re_c : R) : result R :=
  let A := (((0.25 * PI) * D_) * D_) in
  v_l <- pdiv (m * (1 - x)) (rhol * A) ;;
  Re_l <- Reynolds v_l D_ (Some rhol) (Some mul) None ;;
  v_g <- pdiv (m * x) (rhog * A) ;;
  Re_g <- Reynolds v_g D_ (Some rhog) (Some mug) None ;;
  C_ <- (if ((Rltb Re_l Re_c) && (Rltb Re_g Re_c))%bool then let C_ := 5 in
  Ok C_
  else if ((Rltb Re_l Re_c) && (Rleb Re_c Re_g))%bool then let C_ := 12 in
  Ok C_
  else if ((Rleb Re_c Re_l) && (Rltb Re_g Re_c))%bool then let C_ := 10 in
  Ok C_
  else let C_ := 20 in
  Ok C_) ;;
  let x_only_liquid_tol := 0.000000000000000000000000000001 in
  let x_only_vapor_tol := 0.0000000000001 in
  fd_g <- (if (Rltb Re_g Re_c) then pdiv 64 Re_g
  else t7 <- ppow Re_g (- 0.2) ;;
  Ok (0.184 * t7)) ;;
  t8 <- pdiv (fd_g * L) D_ ;;
  let dP_g := (t8 * ((0.5 * rhog) * (v_g ^ 2))) in
  if (Rltb (1 - x_only_vapor_tol) x) then Ok dP_g
  else fd_l <- (if (Rltb Re_l Re_c) then pdiv 64 Re_l
  else t11 <- ppow Re_l (- 0.2) ;;
  Ok (0.184 * t11)) ;;
  t12 <- pdiv (fd_l * L) D_ ;;
  let dP_l := (t12 * (((0.5 * rhol) * v_l) * v_l)) in
  if (Rltb x x_only_liquid_tol) then Ok dP_l
  else t13 <- pdiv dP_l dP_g ;;
  X <- psqrt t13 ;;
  t15 <- pdiv C_ X ;;
  t16 <- pdiv 1 (X * X) ;;
  let phi_l2 := ((1 + t15) + t16) in
  Ok (dP_l * phi_l2).

(** fluids/two_phase.py:2531-2641 [two_phase_dP]. *)
Definition two_phase_dP (W : R -> R) (m : R) (x : R) (rhol : R) (D_ : R) (L : R) (rhog : option R) (mul : option R) (mug : option R) (sigma : option R) (P_ : option R) (Pc : option R) (roughness : R) (angle : option R) (Method : option string) : result R :=
  Method2 <- (match Method with
    | Some Method => let Method2 := Method in
    Ok Method2
    | None => match rhog with
      | Some rhog => match mul with
        | Some mul => match mug with
          | Some mug => match sigma with
            | Some sigma => let Method2 := "Kim_Mudawar"%string in
            Ok Method2
            | None => let Method2 := "Chisholm"%string in
            Ok Method2
          end
          | None => match P_ with
            | Some P_ => match Pc with
              | Some Pc => let Method2 := "Zhang_Webb"%string in
              Ok Method2
              | None => match sigma with
                | Some sigma => let Method2 := "Lombardi_Pedrocchi"%string in
                Ok Method2
                | None => Err ValueError
              end
            end
            | None => match sigma with
              | Some sigma => let Method2 := "Lombardi_Pedrocchi"%string in
              Ok Method2
              | None => Err ValueError
            end
          end
        end
        | None => match sigma with
          | Some sigma => let Method2 := "Lombardi_Pedrocchi"%string in
          Ok Method2
          | None => Err ValueError
        end
      end
      | None => match mul with
        | Some mul => match P_ with
          | Some P_ => match Pc with
            | Some Pc => let Method2 := "Zhang_Webb"%string in
            Ok Method2
            | None => Err ValueError
          end
          | None => Err ValueError
        end
        | None => Err ValueError
      end
    end
  end) ;;
  let rhog2 := 0 in
  let mul2 := 0 in
  let mug2 := 0 in
  let sigma2 := 0 in
  let P2 := 0 in
  let Pc2 := 0 in
  let angle2 := 0 in
  rhog2 <- (if ((String.eqb Method2 "Bankoff"%string) || (String.eqb Method2 "Baroczy_Chisholm"%string) || (String.eqb Method2 "Beggs-Brill"%string) || (String.eqb Method2 "Chen_Friedel"%string) || (String.eqb Method2 "Chisholm"%string) || (String.eqb Method2 "Chisholm rough"%string) || (String.eqb Method2 "Friedel"%string) || (String.eqb Method2 "Gronnerud"%string) || (String.eqb Method2 "Hwang_Kim"%string) || (String.eqb Method2 "Jung_Radermacher"%string) || (String.eqb Method2 "Kim_Mudawar"%string) || (String.eqb Method2 "Lockhart_Martinelli"%string) || (String.eqb Method2 "Lombardi_Pedrocchi"%string) || (String.eqb Method2 "Mishima_Hibiki"%string) || (String.eqb Method2 "Muller_Steinhagen_Heck"%string) || (String.eqb Method2 "Theissing"%string) || (String.eqb Method2 "Tran"%string) || (String.eqb Method2 "Wang_Chiang_Lu"%string) || (String.eqb Method2 "Xu_Fang"%string) || (String.eqb Method2 "Yu_France"%string) || (String.eqb Method2 "Zhang_Hibiki_Mishima"%string) || (String.eqb Method2 "Zhang_Hibiki_Mishima adiabatic gas"%string) || (String.eqb Method2 "Zhang_Hibiki_Mishima flow boiling"%string))%bool then match rhog with
    | Some rhog => let rhog2 := rhog in
    Ok rhog2
    | None => Err TypeError
  end
  else Ok rhog2) ;;
  mul2 <- (if ((String.eqb Method2 "Bankoff"%string) || (String.eqb Method2 "Baroczy_Chisholm"%string) || (String.eqb Method2 "Beggs-Brill"%string) || (String.eqb Method2 "Chen_Friedel"%string) || (String.eqb Method2 "Chisholm"%string) || (String.eqb Method2 "Chisholm rough"%string) || (String.eqb Method2 "Friedel"%string) || (String.eqb Method2 "Gronnerud"%string) || (String.eqb Method2 "Hwang_Kim"%string) || (String.eqb Method2 "Jung_Radermacher"%string) || (String.eqb Method2 "Kim_Mudawar"%string) || (String.eqb Method2 "Lockhart_Martinelli"%string) || (String.eqb Method2 "Mishima_Hibiki"%string) || (String.eqb Method2 "Muller_Steinhagen_Heck"%string) || (String.eqb Method2 "Theissing"%string) || (String.eqb Method2 "Tran"%string) || (String.eqb Method2 "Wang_Chiang_Lu"%string) || (String.eqb Method2 "Xu_Fang"%string) || (String.eqb Method2 "Yu_France"%string) || (String.eqb Method2 "Zhang_Hibiki_Mishima"%string) || (String.eqb Method2 "Zhang_Hibiki_Mishima adiabatic gas"%string) || (String.eqb Method2 "Zhang_Hibiki_Mishima flow boiling"%string) || (String.eqb Method2 "Zhang_Webb"%string))%bool then match mul with
    | Some mul => let mul2 := mul in
    Ok mul2
    | None => Err TypeError
  end
  else Ok mul2) ;;
  mug2 <- (if ((String.eqb Method2 "Bankoff"%string) || (String.eqb Method2 "Baroczy_Chisholm"%string) || (String.eqb Method2 "Beggs-Brill"%string) || (String.eqb Method2 "Chen_Friedel"%string) || (String.eqb Method2 "Chisholm"%string) || (String.eqb Method2 "Chisholm rough"%string) || (String.eqb Method2 "Friedel"%string) || (String.eqb Method2 "Gronnerud"%string) || (String.eqb Method2 "Hwang_Kim"%string) || (String.eqb Method2 "Jung_Radermacher"%string) || (String.eqb Method2 "Kim_Mudawar"%string) || (String.eqb Method2 "Lockhart_Martinelli"%string) || (String.eqb Method2 "Mishima_Hibiki"%string) || (String.eqb Method2 "Muller_Steinhagen_Heck"%string) || (String.eqb Method2 "Theissing"%string) || (String.eqb Method2 "Tran"%string) || (String.eqb Method2 "Wang_Chiang_Lu"%string) || (String.eqb Method2 "Xu_Fang"%string) || (String.eqb Method2 "Yu_France"%string) || (String.eqb Method2 "Zhang_Hibiki_Mishima"%string) || (String.eqb Method2 "Zhang_Hibiki_Mishima adiabatic gas"%string) || (String.eqb Method2 "Zhang_Hibiki_Mishima flow boiling"%string))%bool then match mug with
    | Some mug => let mug2 := mug in
    Ok mug2
    | None => Err TypeError
  end
  else Ok mug2) ;;
  sigma2 <- (if ((String.eqb Method2 "Beggs-Brill"%string) || (String.eqb Method2 "Chen_Friedel"%string) || (String.eqb Method2 "Friedel"%string) || (String.eqb Method2 "Hwang_Kim"%string) || (String.eqb Method2 "Kim_Mudawar"%string) || (String.eqb Method2 "Lombardi_Pedrocchi"%string) || (String.eqb Method2 "Mishima_Hibiki"%string) || (String.eqb Method2 "Tran"%string) || (String.eqb Method2 "Xu_Fang"%string) || (String.eqb Method2 "Zhang_Hibiki_Mishima"%string) || (String.eqb Method2 "Zhang_Hibiki_Mishima adiabatic gas"%string) || (String.eqb Method2 "Zhang_Hibiki_Mishima flow boiling"%string))%bool then match sigma with
    | Some sigma => let sigma2 := sigma in
    Ok sigma2
    | None => Err TypeError
  end
  else Ok sigma2) ;;
  P2 <- (if ((String.eqb Method2 "Beggs-Brill"%string) || (String.eqb Method2 "Zhang_Webb"%string))%bool then match P_ with
    | Some P_ => let P2 := P_ in
    Ok P2
    | None => Err TypeError
  end
  else Ok P2) ;;
  Pc2 <- (if (String.eqb Method2 "Zhang_Webb"%string) then match Pc with
    | Some Pc => let Pc2 := Pc in
    Ok Pc2
    | None => Err TypeError
  end
  else Ok Pc2) ;;
  angle2 <- (if (String.eqb Method2 "Beggs-Brill"%string) then match angle with
    | Some angle => let angle2 := angle in
    Ok angle2
    | None => Err TypeError
  end
  else Ok angle2) ;;
  if (String.eqb Method2 "Zhang_Webb"%string) then Zhang_Webb W m x rhol mul2 P2 Pc2 D_ roughness L
  else if (String.eqb Method2 "Lockhart_Martinelli"%string) then Lockhart_Martinelli m x rhol rhog2 mul2 mug2 D_ L 2000
  else if (String.eqb Method2 "Bankoff"%string) then Bankoff W m x rhol rhog2 mul2 mug2 D_ roughness L
  else if (String.eqb Method2 "Baroczy_Chisholm"%string) then Baroczy_Chisholm W m x rhol rhog2 mul2 mug2 D_ roughness L
  else if (String.eqb Method2 "Chisholm"%string) then Chisholm W m x rhol rhog2 mul2 mug2 D_ roughness L false
  else if (String.eqb Method2 "Gronnerud"%string) then Gronnerud W m x rhol rhog2 mul2 mug2 D_ roughness L
  else if (String.eqb Method2 "Jung_Radermacher"%string) then Jung_Radermacher W m x rhol rhog2 mul2 mug2 D_ roughness L
  else if (String.eqb Method2 "Muller_Steinhagen_Heck"%string) then Muller_Steinhagen_Heck W m x rhol rhog2 mul2 mug2 D_ roughness L
  else if (String.eqb Method2 "Theissing"%string) then Theissing W m x rhol rhog2 mul2 mug2 D_ roughness L
  else if (String.eqb Method2 "Wang_Chiang_Lu"%string) then Wang_Chiang_Lu W m x rhol rhog2 mul2 mug2 D_ roughness L
  else if (String.eqb Method2 "Yu_France"%string) then Yu_France W m x rhol rhog2 mul2 mug2 D_ roughness L
  else if (String.eqb Method2 "Kim_Mudawar"%string) then Kim_Mudawar m x rhol rhog2 mul2 mug2 sigma2 D_ L
  else if (String.eqb Method2 "Friedel"%string) then Friedel W m x rhol rhog2 mul2 mug2 sigma2 D_ roughness L
  else if (String.eqb Method2 "Hwang_Kim"%string) then Hwang_Kim W m x rhol rhog2 mul2 mug2 sigma2 D_ roughness L
  else if (String.eqb Method2 "Mishima_Hibiki"%string) then Mishima_Hibiki W m x rhol rhog2 mul2 mug2 sigma2 D_ roughness L
  else if (String.eqb Method2 "Tran"%string) then Tran W m x rhol rhog2 mul2 mug2 sigma2 D_ roughness L
  else if (String.eqb Method2 "Xu_Fang"%string) then Xu_Fang W m x rhol rhog2 mul2 mug2 sigma2 D_ roughness L
  else if (String.eqb Method2 "Zhang_Hibiki_Mishima"%string) then Zhang_Hibiki_Mishima W m x rhol rhog2 mul2 mug2 sigma2 D_ roughness L ("adiabatic vapor"%string)
  else if (String.eqb Method2 "Chen_Friedel"%string) then Chen_Friedel W m x rhol rhog2 mul2 mug2 sigma2 D_ roughness L
  else if (String.eqb Method2 "Lombardi_Pedrocchi"%string) then Lombardi_Pedrocchi m x rhol rhog2 sigma2 D_ L
  else if (String.eqb Method2 "Chisholm rough"%string) then Chisholm W m x rhol rhog2 mul2 mug2 D_ roughness L true
  else if (String.eqb Method2 "Zhang_Hibiki_Mishima adiabatic gas"%string) then Zhang_Hibiki_Mishima W m x rhol rhog2 mul2 mug2 sigma2 D_ roughness L ("adiabatic gas"%string)
  else if (String.eqb Method2 "Zhang_Hibiki_Mishima flow boiling"%string) then Zhang_Hibiki_Mishima W m x rhol rhog2 mul2 mug2 sigma2 D_ roughness L ("flow boiling"%string)
  else if (String.eqb Method2 "Beggs-Brill"%string) then Beggs_Brill W m x rhol rhog2 mul2 mug2 sigma2 P2 D_ angle2 roughness L 9.80665 false
  else Err ValueError.

(** fluids/two_phase.py:2719-2726 [two_phase_dP_acceleration]. *)
Definition two_phase_dP_acceleration (m : R) (D_ : R) (xi : R) (xo : R) (alpha_i : R) (alpha_o : R) (rho_li : R) (rho_gi : R) (rho_lo : option R) (rho_go : option R) : result R :=
  G <- pdiv (4 * m) ((PI * D_) * D_) ;;
  let rho_lo := match rho_lo with Some v => v | None => rho_li end in
  let rho_go := match rho_go with Some v => v | None => rho_gi end in
  t2 <- pdiv ((1 - xi) * (1 - xi)) (rho_li * (1 - alpha_i)) ;;
  t3 <- pdiv (xi * xi) (rho_gi * alpha_i) ;;
  let in_term := (t2 + t3) in
  t4 <- pdiv ((1 - xo) * (1 - xo)) (rho_lo * (1 - alpha_o)) ;;
  t5 <- pdiv (xo * xo) (rho_go * alpha_o) ;;
  let out_term := (t4 + t5) in
  Ok ((G * G) * (out_term - in_term)).

(** fluids/two_phase.py:2802-2808 [two_phase_dP_dz_acceleration]. *)
Definition two_phase_dP_dz_acceleration (m : R) (D_ : R) (x : R) (rhol : R) (rhog : R) (dv_dP_l : R) (dv_dP_g : R) (dx_dP : R) (dP_dL : R) (dA_dL : R) : result R :=
  let A := (((0.25 * PI) * D_) * D_) in
  G <- pdiv m A ;;
  t3 <- pdiv 1 rhog ;;
  t4 <- pdiv 1 rhol ;;
  let t1 := ((((t3 - t4) * dP_dL) * dx_dP) + (dP_dL * ((x * dv_dP_g) + ((1 - x) * dv_dP_l)))) in
  voidage_h <- homogeneous x rhol rhog ;;
  let rho_h := ((rhol * (1 - voidage_h)) + (rhog * voidage_h)) in
  t6 <- pdiv dA_dL (rho_h * A) ;;
  Ok (((- G) * G) * (t1 - t6)).

(** fluids/two_phase.py:2892-2901 [two_phase_dP_gravitational]. *)
Definition two_phase_dP_gravitational (angle : R) (z : R) (alpha_i : R) (rho_li : R) (rho_gi : R) (alpha_o : option R) (rho_lo : option R) (rho_go : option R) (g : R) : result R :=
  let rho_lo := match rho_lo with Some v => v | None => rho_li end in
  let rho_go := match rho_go with Some v => v | None => rho_gi end in
  let alpha_o := match alpha_o with Some v => v | None => alpha_i end in
  let angle := (radians angle) in
  let in_term := ((alpha_i * rho_gi) + ((1 - alpha_i) * rho_li)) in
  let out_term := ((alpha_o * rho_go) + ((1 - alpha_o) * rho_lo)) in
  Ok ((((g * z) * (sin angle)) * (out_term + in_term)) * 0.5).

(** fluids/two_phase.py:2951-2952 [two_phase_dP_dz_gravitational]. *)
Definition two_phase_dP_dz_gravitational (angle : R) (alpha : R) (rhol : R) (rhog : R) (g : R) : result R :=
  let angle := (radians angle) in
  Ok ((g * (sin angle)) * ((alpha * rhog) + ((1 - alpha) * rhol))).

(** fluids/two_phase.py:2954-2956 *)
Definition Dukler_XA_tck_t : list Q := ([(-2.4791105294648372); (-2.4791105294648372); (-2.4791105294648372); (-2.4791105294648372); 0.14360803483759585; 1.7199938263676038; 1.7199938263676038; 1.7199938263676038; 1.7199938263676038])%Q.

(** fluids/two_phase.py:2957-2958 *)
Definition Dukler_XA_tck_c : list Q := ([0.21299880246561081; 0.16299733301915248; (-0.042340970712679615); (-1.9967836909384598); (-2.9917366639619414); 0; 0; 0; 0])%Q.

(** fluids/two_phase.py:2966-2968 *)
Definition Dukler_XD_tck_t : list Q := ([0.2532652936901574; 0.2532652936901574; 0.2532652936901574; 0.2532652936901574; 3.5567847823070253; 3.5567847823070253; 3.5567847823070253; 3.5567847823070253])%Q.

(** fluids/two_phase.py:2969-2970 *)
Definition Dukler_XD_tck_c : list Q := ([0.09054274779541564; (-0.05102629221303253); (-0.23907463153703945); (-0.7757156285450911); 0; 0; 0; 0])%Q.

(** fluids/two_phase.py:2960-2962 *)
Definition Dukler_XC_tck_t : list Q := ([(-1.8323873272724698); (-1.8323873272724698); (-1.8323873272724698); (-1.8323873272724698); (-0.15428198203334137); 1.7031193462360779; 1.7031193462360779; 1.7031193462360779; 1.7031193462360779])%Q.

(** fluids/two_phase.py:2963-2964 *)
Definition Dukler_XC_tck_c : list Q := ([0.2827776229531682; 0.6207113329042158; 1.0609541626742232; 0.44917638072891825; 0.014664597632360495; 0; 0; 0; 0])%Q.

(** fluids/two_phase.py:3063-3107 [Taitel_Dukler_regime]. *)
Definition Taitel_Dukler_regime (W : R -> R) (m : R) (x : R) (rhol : R) (rhog : R) (mul : R) (mug : R) (D_ : R) (angle : R) (roughness : R) (g : R) : result (string * R * R * R * R) :=
  let angle := (radians angle) in
  let A := (((0.25 * PI) * D_) * D_) in
  v_ls <- pdiv (m * (1 - x)) (rhol * A) ;;
  Re_ls <- Reynolds v_ls D_ (Some rhol) (Some mul) None ;;
  t3 <- pdiv roughness D_ ;;
  fd_ls <- friction_factor W Re_ls t3 (Some "Clamond"%string) true ;;
  t5 <- pdiv fd_ls D_ ;;
  let dP_ls := (t5 * (((0.5 * rhol) * v_ls) * v_ls)) in
  v_gs <- pdiv (m * x) (rhog * A) ;;
  Re_gs <- Reynolds v_gs D_ (Some rhog) (Some mug) None ;;
  t8 <- pdiv roughness D_ ;;
  fd_gs <- friction_factor W Re_gs t8 (Some "Clamond"%string) true ;;
  t10 <- pdiv fd_gs D_ ;;
  let dP_gs := (t10 * (((0.5 * rhog) * v_gs) * v_gs)) in
  t11 <- pdiv dP_ls dP_gs ;;
  X <- psqrt t11 ;;
  t13 <- pdiv rhog (rhol - rhog) ;;
  t14 <- psqrt t13 ;;
  t15 <- psqrt ((D_ * g) * (cos angle)) ;;
  F <- pdiv (t14 * v_gs) t15 ;;
  nul <- pdiv mul rhol ;;
  t18 <- pdiv dP_ls (((rhol - rhog) * g) * (cos angle)) ;;
  T <- psqrt t18 ;;
  t20 <- pdiv (((rhog * v_gs) * v_gs) * v_ls) ((((rhol - rhog) * g) * nul) * (cos angle)) ;;
  K <- psqrt t20 ;;
  t22 <- plog10 X ;;
  t23 <- py_splev t22 (map Q2R Dukler_XA_tck_t) (map Q2R Dukler_XA_tck_c) 3 0 ;;
  F_A_at_X <- ppow 10 t23 ;;
  let X_B_transition := 1.7917 in
  regime <- (if ((Rleb F_A_at_X F) && (Rleb X X_B_transition))%bool then let regime := "annular"%string in
  Ok regime
  else if (Rleb F_A_at_X F) then t25 <- plog10 X ;;
  t26 <- py_splev t25 (map Q2R Dukler_XD_tck_t) (map Q2R Dukler_XD_tck_c) 3 0 ;;
  T_D_at_X <- ppow 10 t26 ;;
  if (Rleb T_D_at_X T) then let regime := "bubbly"%string in
  Ok regime
  else let regime := "intermittent"%string in
  Ok regime
  else t28 <- plog10 X ;;
  t29 <- py_splev t28 (map Q2R Dukler_XC_tck_t) (map Q2R Dukler_XC_tck_c) 3 0 ;;
  K_C_at_X <- ppow 10 t29 ;;
  if (Rleb K_C_at_X K) then let regime := "stratified wavy"%string in
  Ok regime
  else let regime := "stratified smooth"%string in
  Ok regime) ;;
  Ok (regime, X, T, F, K).

(** fluids/two_phase.py:3168-3223 [Mandhane_Gregory_Aziz_regime]. *)
Definition Mandhane_Gregory_Aziz_regime (m : R) (x : R) (rhol : R) (rhog : R) (mul : R) (mug : R) (sigma : R) (D_ : R) : result (string * R * R) :=
  let A := (((0.25 * PI) * D_) * D_) in
  Vsl <- pdiv (m * (1 - x)) (rhol * A) ;;
  Vsg <- pdiv (m * x) (rhog * A) ;;
  let Vsl_new := (Vsl / 0.3048) in
  let Vsg_new := (Vsg / 0.3048) in
  let Vsl := Vsl_new in
  let Vsg := Vsg_new in
  t3 <- ppow (rhog / 1.294292) 0.333 ;;
  t4 <- pdiv (rhol * 0.0724) (999.552 * sigma) ;;
  t5 <- psqrt t4 ;;
  t6 <- psqrt t5 ;;
  t7 <- ppow (mug * 180000) 0.2 ;;
  let X1 := ((t3 * t6) * t7) in
  t8 <- pdiv ((rhol * 0.0724) / 999.552) sigma ;;
  t9 <- psqrt t8 ;;
  t10 <- psqrt t9 ;;
  t11 <- ppow (mul * 1000) 0.2 ;;
  let Y1 := (t10 * t11) in
  regime <- (if (Rltb Vsl (14 * Y1)) then Y1345 <- (if (Rleb Vsl 0.1) then t12 <- ppow (Vsl / 0.1) (- 0.368) ;;
  let Y1345 := (14 * t12) in
  Ok Y1345
  else if (Rleb Vsl 0.2) then t13 <- ppow (Vsl / 0.1) (- 0.415) ;;
  let Y1345 := (14 * t13) in
  Ok Y1345
  else if (Rleb Vsl 1.15) then t14 <- ppow (Vsl / 0.2) (- 0.816) ;;
  let Y1345 := (10.5 * t14) in
  Ok Y1345
  else if (Rleb Vsl 4.8) then let Y1345 := 2.5 in
  Ok Y1345
  else t15 <- ppow (Vsl / 4.8) 0.248 ;;
  let Y1345 := (2.5 * t15) in
  Ok Y1345) ;;
  Y456 <- (if (Rleb Vsl 0.1) then t16 <- ppow (Vsl / 0.01) (- 0.0675) ;;
  let Y456 := (70 * t16) in
  Ok Y456
  else if (Rleb Vsl 0.3) then t17 <- ppow (Vsl / 0.1) (- 0.415) ;;
  let Y456 := (60 * t17) in
  Ok Y456
  else if (Rleb Vsl 0.56) then t18 <- ppow (Vsl / 0.3) 0.0813 ;;
  let Y456 := (38 * t18) in
  Ok Y456
  else if (Rleb Vsl 1) then t19 <- ppow (Vsl / 0.56) 0.385 ;;
  let Y456 := (40 * t19) in
  Ok Y456
  else if (Rleb Vsl 2.5) then t20 <- ppow (Vsl / 1) 0.756 ;;
  let Y456 := (50 * t20) in
  Ok Y456
  else t21 <- ppow (Vsl / 2.5) 0.463 ;;
  let Y456 := (100 * t21) in
  Ok Y456) ;;
  let Y45 := (0.3 * Y1) in
  Y31 <- pdiv 0.5 Y1 ;;
  let Y1345 := (Y1345 * X1) in
  let Y456 := (Y456 * X1) in
  if ((Rleb Vsg Y1345) && (Rleb Y31 Vsl))%bool then let regime := "elongated bubble"%string in
  Ok regime
  else if ((Rleb Vsg Y1345) && (Rleb Vsl Y31))%bool then let regime := "stratified"%string in
  Ok regime
  else if ((Rleb Y1345 Vsg) && (Rleb Vsg Y456) && (Rltb Y45 Vsl))%bool then let regime := "slug"%string in
  Ok regime
  else if ((Rleb Y1345 Vsg) && (Rleb Vsg Y456) && (Rleb Vsl Y45))%bool then let regime := "wave"%string in
  Ok regime
  else let regime := "annular mist"%string in
  Ok regime
  else t24 <- ppow (Vsl / 14) 0.206 ;;
  if (Rleb Vsg ((230 * t24) * X1)) then let regime := "dispersed bubble"%string in
  Ok regime
  else let regime := "annular mist"%string in
  Ok regime) ;;
  Ok (regime, Vsl, Vsg).

(** fluids/two_phase.py:2322-2354 [two_phase_correlations]: names with the index of their argument list *)
Definition two_phase_correlations : list (string * nat) :=
  [("Zhang_Webb", 0); ("Lockhart_Martinelli", 1); ("Bankoff", 2); ("Baroczy_Chisholm", 2); ("Chisholm", 2); ("Gronnerud", 2);
   ("Jung_Radermacher", 2); ("Muller_Steinhagen_Heck", 2); ("Theissing", 2); ("Wang_Chiang_Lu", 2); ("Yu_France", 2);
   ("Kim_Mudawar", 3); ("Friedel", 4); ("Hwang_Kim", 4); ("Mishima_Hibiki", 4); ("Tran", 4); ("Xu_Fang", 4);
   ("Zhang_Hibiki_Mishima", 4); ("Chen_Friedel", 4); ("Lombardi_Pedrocchi", 5); ("Chisholm rough", 101);
   ("Zhang_Hibiki_Mishima adiabatic gas", 102); ("Zhang_Hibiki_Mishima flow boiling", 103); ("Beggs-Brill", 104)]%string%nat.
(** fluids/two_phase.py:2406-2418 [two_phase_dP_methods]; each optional argument is represented by whether it is given *)
Definition two_phase_dP_methods (rhog mul mug sigma P_ Pc angle : option R) : list string :=
  let given (o : option R) := match o with Some _ => true | None => false end in
  let usable := ((if given rhog && given sigma then [5] else [])
    ++ (if given rhog && given sigma && given mul && given mug then [4; 3; 102; 103] else [])
    ++ (if given rhog && given mul && given mug then [1; 2; 101] else [])
    ++ (if given mul && given P_ && given Pc then [0] else [])
    ++ (if given rhog && given mul && given mug && given sigma && given P_ && given angle then [104] else []))%nat%bool in
  List.map fst (List.filter (fun e => existsb (Nat.eqb (snd e)) usable) two_phase_correlations).

