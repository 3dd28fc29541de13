(** Control valve coefficients and flow coefficient conversions.
    Generated by tools/pytrans.py from /repo/fluids, function by function: floats are exact reals,
    a division, root, logarithm or power that Python refuses is an [Err]; float rounding and overflow
    are not represented.  Module constants are inlined with their exact rational value. *)
From Coq Require Import Reals String List Bool.
From Verif Require Import Base Model_Real.
Import ListNotations.
Open Scope R_scope.

(** fluids/fittings.py:3496-3496 [Cv_to_Kv]. *)
Definition Cv_to_Kv (Cv : R) : result R :=
  Ok (Cv / 1.1560992283536566).

(** fluids/fittings.py:3454-3454 [Kv_to_Cv]. *)
Definition Kv_to_Cv (Kv : R) : result R :=
  Ok (1.1560992283536566 * Kv).

(** fluids/fittings.py:3547-3547 [Kv_to_K]. *)
Definition Kv_to_K (Kv : R) (D_ : R) : result R :=
  t1 <- pdiv 1 (Kv ^ 2) ;;
  Ok ((1600000000 * (D_ ^ 4)) * t1).

(** fluids/fittings.py:3597-3597 [K_to_Kv]. *)
Definition K_to_Kv (K : R) (D_ : R) : result R :=
  t1 <- pdiv 1600000000 K ;;
  t2 <- psqrt t1 ;;
  Ok ((D_ * D_) * t2).

(** fluids/fittings.py:3637-3637 [K_to_Cv]. *)
Definition K_to_Cv (K : R) (D_ : R) : result R :=
  t1 <- pdiv 1600000000 K ;;
  t2 <- psqrt t1 ;;
  Ok (((1.1560992283536566 * D_) * D_) * t2).

(** fluids/fittings.py:3674-3676 [Cv_to_K]. *)
Definition Cv_to_K (Cv : R) (D_ : R) : result R :=
  let D2 := (D_ * D_) in
  let term := (Cv * (1 / 1.1560992283536566)) in
  pdiv ((1600000000 * D2) * D2) (term * term).

(** fluids/fittings.py:259-261 [change_K_basis]. *)
Definition change_K_basis (K1 : R) (D1 : R) (D2 : R) : result R :=
  r <- pdiv D2 D1 ;;
  let r := (r * r) in
  Ok ((K1 * r) * r).

(** fluids/control_valve.py:158-158 [cavitation_index]. *)
Definition cavitation_index (P1 : R) (P2 : R) (Psat : R) : result R :=
  pdiv (P1 - Psat) (P1 - P2).

(** fluids/control_valve.py:191-191 [FF_critical_pressure_ratio_l]. *)
Definition FF_critical_pressure_ratio_l (Psat : R) (Pc : R) : result R :=
  t1 <- pdiv Psat Pc ;;
  t2 <- psqrt t1 ;;
  Ok (0.96 - (0.28 * t2)).

(** fluids/control_valve.py:242-257 [control_valve_choke_P_l]. *)
Definition control_valve_choke_P_l (Psat : R) (Pc : R) (FL : R) (P1 : option R) (P2 : option R) (check_choking : bool) : result R :=
  t1 <- pdiv Psat Pc ;;
  t2 <- psqrt t1 ;;
  let FF := (0.96 - (0.28 * t2)) in
  let Pmin_absolute := (FF * Psat) in
  '(ans, P2, P1) <- (match P2 with
    | Some P2 => match P1 with
      | Some P1 => Err ValueError
      | None => P1 <- pdiv ((((FF * FL) * FL) * Psat) - P2) ((FL * FL) - 1) ;;
      let ans := P1 in
      Ok (ans, P2, P1)
    end
    | None => match P1 with
      | Some P1 => let P2 := (((((FF * FL) * FL) * Psat) - ((FL * FL) * P1)) + P1) in
      let ans := P2 in
      Ok (ans, P2, P1)
      | None => Err ValueError
    end
  end) ;;
  if ((Rltb P1 P2) && check_choking)%bool then Err ValueError
  else Ok ans.

(** fluids/control_valve.py:302-310 [control_valve_choke_P_g]. *)
Definition control_valve_choke_P_g (xT : R) (gamma : R) (P1 : option R) (P2 : option R) : result R :=
  ans <- (match P2 with
    | Some P2 => match P1 with
      | Some P1 => Err ValueError
      | None => P1 <- pdiv ((- 7) * P2) (((5 * gamma) * xT) - 7) ;;
      let ans := P1 in
      Ok ans
    end
    | None => match P1 with
      | Some P1 => let P2 := ((P1 * ((((- 5) * gamma) * xT) + 7)) / 7) in
      let ans := P2 in
      Ok ans
      | None => Err ValueError
    end
  end) ;;
  Ok ans.

(** fluids/control_valve.py:359-364 [is_choked_turbulent_l]. *)
Definition is_choked_turbulent_l (dP : R) (P1 : R) (Psat : R) (FF : R) (FL : option R) (FLP : option R) (FP : option R) : result bool :=
  match FLP with
    | Some FLP => if Reqb FLP 0 then match FL with
      | Some FL => if Reqb FL 0 then Err ValueError else Ok (Rleb ((FL * FL) * (P1 - (FF * Psat))) dP)
      | None => Err ValueError
    end else match FP with
      | Some FP => if Reqb FP 0 then match FL with
        | Some FL => if Reqb FL 0 then Err ValueError else Ok (Rleb ((FL * FL) * (P1 - (FF * Psat))) dP)
        | None => Err ValueError
      end else t2 <- pdiv (FLP * FLP) (FP * FP) ;;
      Ok (Rleb (t2 * (P1 - (FF * Psat))) dP)
      | None => match FL with
        | Some FL => if Reqb FL 0 then Err ValueError else Ok (Rleb ((FL * FL) * (P1 - (FF * Psat))) dP)
        | None => Err ValueError
      end
    end
    | None => match FL with
      | Some FL => if Reqb FL 0 then Err ValueError else Ok (Rleb ((FL * FL) * (P1 - (FF * Psat))) dP)
      | None => Err ValueError
    end
  end.

(** fluids/control_valve.py:409-414 [is_choked_turbulent_g]. *)
Definition is_choked_turbulent_g (x : R) (Fgamma : R) (xT : option R) (xTP : option R) : result bool :=
  match xT with
    | Some xT => if Reqb xT 0 then match xTP with
      | Some xTP => if Reqb xTP 0 then Err ValueError else Ok (Rleb (Fgamma * xTP) x)
      | None => Err ValueError
    end else Ok (Rleb (Fgamma * xT) x)
    | None => match xTP with
      | Some xTP => if Reqb xTP 0 then Err ValueError else Ok (Rleb (Fgamma * xTP) x)
      | None => Err ValueError
    end
  end.

(** fluids/control_valve.py:457-457 [Reynolds_valve]. *)
Definition Reynolds_valve (nu : R) (Q_ : R) (D1 : R) (FL : R) (Fd : R) (C_ : R) : result R :=
  t1 <- pdiv ((0.0707 * Fd) * Q_) nu ;;
  t2 <- psqrt (C_ * FL) ;;
  t3 <- pdiv (t1 * 1) t2 ;;
  t4 <- pdiv 1 (D1 ^ 4) ;;
  t5 <- psqrt ((((((FL * FL) * C_) * C_) / 0.0016) * t4) + 1) ;;
  t6 <- psqrt t5 ;;
  Ok (t3 * t6).

(** fluids/control_valve.py:505-516 [loss_coefficient_piping]. *)
Definition loss_coefficient_piping (d : R) (D1 : option R) (D2 : option R) : result R :=
  let loss := 0 in
  loss <- (match D1 with
    | Some D1 => if Reqb D1 0 then Ok loss else dr <- pdiv d D1 ;;
    let dr2 := (dr * dr) in
    let loss := (loss + (1 - (dr2 * dr2))) in
    let loss := (loss + ((0.5 * (1 - dr2)) * (1 - dr2))) in
    Ok loss
    | None => Ok loss
  end) ;;
  match D2 with
    | Some D2 => if Reqb D2 0 then Ok loss else dr <- pdiv d D2 ;;
    let dr2 := (dr * dr) in
    let loss := (loss + ((1 * (1 - dr2)) * (1 - dr2))) in
    let loss := (loss - (1 - (dr2 * dr2))) in
    Ok loss
    | None => Ok loss
  end.

(** fluids/control_valve.py:589-605 [Reynolds_factor]. *)
Definition Reynolds_factor (FL : R) (C_ : R) (d : R) (Rev : R) (full_trim : bool) : result R :=
  FR <- (if full_trim then t1 <- pdiv C_ (d * d) ;;
  n1 <- pdiv 0.0016 ((Rmin t1 0.04) ^ 2) ;;
  t3 <- psqrt FL ;;
  t4 <- psqrt n1 ;;
  t5 <- psqrt t4 ;;
  t6 <- pdiv (0.33 * t3) t5 ;;
  t7 <- plog10 (Rev / 10000) ;;
  let FR_1a := (1 + (t6 * t7)) in
  t8 <- pdiv 0.026 FL ;;
  t9 <- psqrt (n1 * Rev) ;;
  let FR_2 := (t8 * t9) in
  if (Rltb Rev 10) then let FR := FR_2 in
  Ok FR
  else let FR := (Rmin FR_2 FR_1a) in
  Ok FR
  else t10 <- pdiv C_ (d ^ 2) ;;
  t11 <- ppow t10 (2 / 3) ;;
  let n2 := (1 + (140 * t11)) in
  t12 <- psqrt FL ;;
  t13 <- psqrt n2 ;;
  t14 <- psqrt t13 ;;
  t15 <- pdiv (0.33 * t12) t14 ;;
  t16 <- plog10 (Rev / 10000) ;;
  let FR_3a := (1 + (t15 * t16)) in
  t17 <- pdiv 0.026 FL ;;
  t18 <- psqrt (n2 * Rev) ;;
  let FR_4 := (Rmin (t17 * t18) 1) in
  if (Rltb Rev 10) then let FR := FR_4 in
  Ok FR
  else let FR := (Rmin FR_3a FR_4) in
  Ok FR) ;;
  Ok FR.

(** fluids/control_valve.py:1074-1093 [convert_flow_coefficient]. *)
Definition convert_flow_coefficient (flow_coefficient : R) (old_scale : string) (new_scale : string) : result R :=
  Kv <- (if (String.eqb old_scale "Cv"%string) then Cv_to_Kv flow_coefficient
  else if (String.eqb old_scale "Kv"%string) then let Kv := flow_coefficient in
  Ok Kv
  else if (String.eqb old_scale "Av"%string) then t2 <- psqrt (999.10329075702327 / (8896443230521 / 1290320000)) ;;
  Cv <- pdiv flow_coefficient ((t2 * 0.003785411784) / 60) ;;
  Cv_to_Kv Cv
  else Err NotImplementedError) ;;
  ans <- (if (String.eqb new_scale "Cv"%string) then Kv_to_Cv Kv
  else if (String.eqb new_scale "Kv"%string) then let ans := Kv in
  Ok ans
  else if (String.eqb new_scale "Av"%string) then Cv <- Kv_to_Cv Kv ;;
  t7 <- psqrt (999.10329075702327 / (8896443230521 / 1290320000)) ;;
  let ans := (Cv * ((t7 * 0.003785411784) / 60)) in
  Ok ans
  else Err NotImplementedError) ;;
  Ok ans.
