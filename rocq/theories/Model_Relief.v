(** Model of the relief valve sizing and noise functions of safety_valve.py (tables and their lookups are in Model_Tables). *)
From Coq Require Import Reals Lra List Bool QArith Qreals.
From Verif Require Import Base Model_Real Model_Numerics Model_Splines Model_Tables Model_Compressible.
Import ListNotations.
Open Scope R_scope.

(** safety_valve.py:183-187 [API520_C] *)
Definition API520_C (k : R) : result R :=
  if negb (Reqb k 1) then
    let kp1 := k + 1 in
    t1 <- pdiv 2 kp1 ;; t2 <- pdiv kp1 (k - 1) ;; t3 <- ppow t1 t2 ;; t4 <- psqrt (k * t3) ;; Ok (0.03948 * t4)
  else Ok 0.023945830445454768.
(** safety_valve.py:233-234 [API520_F2] *)
Definition API520_F2 (k P1 P2 : R) : result R :=
  r <- pdiv P2 P1 ;;
  t1 <- pdiv k (k - 1) ;; t2 <- pdiv 2 k ;; t3 <- ppow r t2 ;;
  t4 <- pdiv (k - 1) k ;; t5 <- ppow r t4 ;; t6 <- pdiv (1 - t5) (1 - r) ;; psqrt (t1 * t3 * t6).
(** safety_valve.py:663-671 [API520_A_g] *)
Definition API520_A_g (m T Z MW k P1 P2 Kd Kb Kc : R) : result R :=
  let P1 := P1 * 0.001 in let P2 := P2 * 0.001 in
  let m := m * 3600 in
  c <- is_critical_flow P1 P2 k ;;
  A <- (if (c : bool) then
          C <- API520_C k ;;
          t1 <- pdiv m (C * Kd * Kb * Kc * P1) ;; t2 <- pdiv (T * Z) MW ;; t3 <- psqrt t2 ;; Ok (t1 * t3)
        else
          F2 <- API520_F2 k P1 P2 ;;
          t1 <- pdiv (17.9 * m) (F2 * Kd * Kc) ;; t2 <- pdiv (T * Z) (MW * P1 * (P1 - P2)) ;; t3 <- psqrt t2 ;; Ok (t1 * t3)) ;;
  Ok (A * 0.000001).
(** safety_valve.py:732-737 [API520_A_steam] *)
Definition API520_A_steam (m T P1 Kd Kb Kc : R) (edition : edition_arg) : result R :=
  KN <- @API520_N R _ P1 ;;
  KSH <- @API520_SH R _ T P1 edition ;;
  let P1 := P1 * 0.001 in
  let m := m * 3600 in
  A <- pdiv (190.5 * m) (P1 * Kd * Kb * Kc * KN * KSH) ;;
  Ok (A * 0.000001).
(** safety_valve.py:827-835 [API520_Kv] *)
Definition API520_Kv (Re : R) (edition : edition_arg) : result R :=
  match edition with
  | E7 =>
      s <- psqrt Re ;; t1 <- pdiv 2.878 s ;; t2 <- pdiv 342.75 (Re * s) ;; f <- pdiv 1 (0.9935 + t1 + t2) ;;
      Ok (if Rltb 1 f then 1 else f)
  | E10 => t1 <- pdiv 170 Re ;; s <- psqrt (t1 + 1) ;; pdiv 1 s
  | EOther => Err ValueError
  end.
(** safety_valve.py:1087-1091: the last lines of [API520_A_l]; [Kv=None] cannot be multiplied *)
Definition A_l_end (Q G1 P1 P2 Kd Kw Kc : R) (Kv : option R) : result R :=
  let P1 := P1 * 0.001 in let P2 := P2 * 0.001 in
  t1 <- pdiv G1 (P1 - P2) ;; t2 <- psqrt t1 ;;
  match Kv with
  | None => Err TypeError
  | Some Kv => A <- pdiv (11.78 * Q * t2) (Kd * Kw * Kc * Kv) ;; Ok (A * 0.000001)
  end.
(** safety_valve.py:905, 1073-1091 [API520_A_l].  The recursive call at line 1082 passes Kw and Kv = 1 and so only repeats the
    last lines. *)
Definition rho0 : R := 999.0107539518483.
Definition API520_A_l (m rho P1 P2 overpressure Kd Kc : R) (Kw Kv : option R) (edition : edition_arg) (mu : option R) : result R :=
  G1 <- pdiv rho rho0 ;;
  Q <- pdiv m rho ;;
  let Q := Q * 60000 in
  g <- pdiv (P1 - 101325) (1 + overpressure) ;;
  let P_set := g + 101325 in
  Kw <- (match Kw with Some k => Ok k | None => @API520_W R _ P_set P2 end) ;;
  Kv <- (match Kv, mu with
         | None, Some mu =>
             A0 <- A_l_end Q G1 P1 P2 Kd Kw Kc (Some 1) ;;
             t1 <- pdiv (A0 * 4) PI ;; D <- psqrt t1 ;;
             q <- pdiv Q 60000 ;; v <- pdiv q A0 ;;
             Re <- pdiv (rho * v * D) mu ;;
             K <- API520_Kv Re edition ;; Ok (Some K)
         | _, _ => Ok Kv
         end) ;;
  A_l_end Q G1 P1 P2 Kd Kw Kc Kv.
(** safety_valve.py:1118-1131 [API521_noise_graph] *)
Definition API521_noise_graph (P_ratio : R) : result R :=
  let P_ratio := if Rltb P_ratio 1 then 1 else P_ratio in
  lgX <- plog10 P_ratio ;;
  let lower_value := 87.9084 * lgX + 12.7647 in
  let higher_value := 4.8239 * lgX + 51.6217 in
  if Rltb P_ratio 2.92 then Ok lower_value
  else if Rltb P_ratio 2.93 then @interp R _ P_ratio [2.92; 2.93] [lower_value; higher_value] None None false
  else Ok higher_value.
(** safety_valve.py:1179-1183 [API521_noise] *)
Definition API521_noise (m P1 P2 c r : R) : result R :=
  P_ratio <- pdiv P1 P2 ;;
  L <- API521_noise_graph P_ratio ;;
  t1 <- plog10 (0.5 * m * c * c) ;;
  let L30 := L + 10 * t1 in
  t2 <- pdiv 1 30 ;; t3 <- plog10 (r * t2) ;;
  Ok (L30 - 20 * t3).
(** safety_valve.py:1220-1221 [VDI_3732_noise_ground_flare], 1256-1257 [VDI_3732_noise_elevated_flare] *)
Definition VDI_3732_noise_ground_flare (m : R) : result R := t <- plog10 (m * 360) ;; Ok (100 + 15 * t).
Definition VDI_3732_noise_elevated_flare (m : R) : result R := t <- plog10 (m * 360) ;; Ok (112 + 17 * t).
