(** Control valve sizing (IEC 60534): size_control_valve_l and size_control_valve_g of fluids/control_valve.py,
    with the coefficients of Model_Valve.  Written by hand because both functions define recursive helper
    functions.  Reals instead of floats.  The recursion of the laminar correction has no bound of its own in the
    code; it gets a step count here ([fuel]), [RuntimeError] standing for Python's recursion limit when
    it runs out.  The dictionary built when [full_output] is set is the record [sized]; its entry FF is left out. *)
From Coq Require Import Reals String List Bool.
From Verif Require Import Base Model_Real Model_Valve.
Open Scope R_scope.

Record sized := Sized {
  s_Kv : R; s_choked : bool; s_Rev : option R; s_laminar : bool;
  s_FLP : option R; s_FP : option R; s_FR : option R; s_xTP : option R; s_warning : bool }.

(** fluids/control_valve.py:728-742, the body of iterate_piping_turbulent_l before the test: C, FLP and FP from Ci. *)
Definition piping_step_l (rho rho0 Psat P1 dP FF Q FL d D1 D2 Ci : R) : result (R * R * R) :=
  loss <- loss_coefficient_piping d (Some D1) (Some D2) ;;
  u <- pdiv Ci (d ^ 2) ;;
  s <- psqrt (1 + loss / 0.0016 * u ^ 2) ;;
  FP <- pdiv 1 s ;;
  loss_upstream <- (if Rltb D1 d then Ok 0 else loss_coefficient_piping d (Some D1) None) ;;
  s2 <- psqrt (1 + FL ^ 2 / 0.0016 * loss_upstream * u ^ 2) ;;
  FLP <- pdiv (FL * 1) s2 ;;
  choked <- is_choked_turbulent_l dP P1 Psat FF None (Some FLP) (Some FP) ;;
  C <- (if choked : bool then
          a <- pdiv (Q / 0.1) FLP ;; b <- pdiv (rho / rho0) (P1 - FF * Psat) ;; r <- psqrt b ;; Ok (a * r)
        else
          a <- pdiv (Q / 0.1) FP ;; b <- pdiv (rho / rho0) dP ;; r <- psqrt b ;; Ok (a * r)) ;;
  Ok (C, FLP, FP).

(** fluids/control_valve.py:743-750: the recursion of iterate_piping_turbulent_l.  [k] is MAX_ITER - iterations.
    Storing the warning when [ans] does not exist ([full] false) is the NameError of line 746. *)
Fixpoint iterate_turbulent_l (step : R -> result (R * R * R)) (full : bool) (Ci : R) (k : nat) : result (R * R * R * bool) :=
  '(C, FLP, FP) <- step Ci ;;
  t <- pdiv Ci C ;;
  '(C, w) <- (match k with
              | O => Ok (C, false)
              | S k' => if Rltb t 0.99 && Rltb Ci (10 ^ 40) then
                          '(C, _, _, w) <- iterate_turbulent_l step full C k' ;; Ok (C, w)
                        else Ok (C, false)
              end) ;;
  let hit := (match k with O => true | S _ => false end) || Rleb (10 ^ 40) Ci in
  if hit && negb full then Err NameError else Ok (C, FLP, FP, w || hit).

(** fluids/control_valve.py:755-768 [iterate_piping_laminar_l] and 973-985 [iterate_piping_laminar_g], the same code;
    returns Ci, Rev and FR.  0.016 N18 = 0.01384. *)
Fixpoint iterate_laminar (nu Q D1 FL Fd d : R) (fuel : nat) (C : R) : result (R * R * R) :=
  match fuel with
  | O => Err RuntimeError
  | S n =>
      let Ci := 1.3 * C in
      Rev <- Reynolds_valve nu Q D1 FL Fd Ci ;;
      q <- pdiv Ci (d * d) ;;
      FR <- Reynolds_factor FL Ci d Rev (negb (Rltb (0.016 * 0.865) q)) ;;
      t <- pdiv C FR ;;
      Ci <- (if Rleb Ci t then '(Ci, _, _) <- iterate_laminar nu Q D1 FL Fd d n Ci ;; Ok Ci else Ok Ci) ;;
      Ok (Ci, Rev, FR)
  end.

(** fluids/control_valve.py:105 [rho0]. *)
Definition rho0 : R := 999.10329075702327.

(** fluids/control_valve.py:695-779 [size_control_valve_l] with its dictionary (FF left out of it). *)
Definition valve_l (fuel : nat) (rho Psat Pc mu P1 P2 Q : R) (D1 D2 d : option R) (FL Fd : R)
    (allow_choked allow_laminar full : bool) : result sized :=
  let P1 := P1 / 1000 in let P2 := P2 / 1000 in let Psat := Psat / 1000 in let Pc := Pc / 1000 in
  let Q := Q * 3600 in
  nu <- pdiv mu rho ;;
  let dP := P1 - P2 in
  FF <- FF_critical_pressure_ratio_l Psat Pc ;;
  choked <- is_choked_turbulent_l dP P1 Psat FF (Some FL) None None ;;
  C <- (if choked && allow_choked then
          a <- pdiv (Q / 0.1) FL ;; b <- pdiv (rho / rho0) (P1 - FF * Psat) ;; r <- psqrt b ;; Ok (a * r)
        else
          b <- pdiv (rho / rho0) dP ;; r <- psqrt b ;; Ok (Q / 0.1 * r)) ;;
  match D1, D2, d with
  | None, None, None => Ok (Sized C choked (Some 100000) (Rleb 100000 10000) None None None None false)
  | Some D1, Some D2, Some d =>
      let D1 := D1 * 1000 in let D2 := D2 * 1000 in let d := d * 1000 in
      Rev <- Reynolds_valve nu Q D1 FL Fd C ;;
      if (Rltb 10000 Rev || negb allow_laminar) && (negb (Reqb D1 d) || negb (Reqb D2 d)) then
        '(C, FLP, FP, w) <- iterate_turbulent_l (piping_step_l rho rho0 Psat P1 dP FF Q FL d D1 D2) full C 20 ;;
        Ok (Sized C choked (Some Rev) (Rleb Rev 10000) (Some FLP) (Some FP) None None w)
      else if Rleb Rev 10000 && allow_laminar then
        '(C, Rev', FR) <- iterate_laminar nu Q D1 FL Fd d fuel C ;;
        Ok (Sized C choked (Some Rev') (Rleb Rev 10000) None None (Some FR) None false)
      else Ok (Sized C choked (Some Rev) (Rleb Rev 10000) None None None None false)
  | _, _, _ => Err ValueError
  end.

(** fluids/control_valve.py:780-782: without [full_output] the Kv value. *)
Definition size_control_valve_l (fuel : nat) (rho Psat Pc mu P1 P2 Q : R) (D1 D2 d : option R) (FL Fd : R)
    (allow_choked allow_laminar : bool) : result R :=
  o <- valve_l fuel rho Psat Pc mu P1 P2 Q D1 D2 d FL Fd allow_choked allow_laminar false ;; Ok (s_Kv o).

(** fluids/control_valve.py:929-939, the body of iterate_piping_coef_g before the test: C, FP and xTP from Ci. *)
Definition piping_step_g (MTZ P1 Y x Fgamma Q xT d D1 D2 Ci : R) : result (R * R * R) :=
  loss <- loss_coefficient_piping d (Some D1) (Some D2) ;;
  u <- pdiv Ci (d ^ 2) ;;
  s <- psqrt (1 + loss / 0.0016 * u ^ 2) ;;
  FP <- pdiv 1 s ;;
  loss_upstream <- loss_coefficient_piping d (Some D1) None ;;
  a <- pdiv xT (FP ^ 2) ;;
  xTP <- pdiv a (1 + xT * loss_upstream / 0.0018 * u ^ 2) ;;
  choked <- is_choked_turbulent_g x Fgamma None (Some xTP) ;;
  C <- (if choked : bool then
          a <- pdiv Q (24.6 * FP * P1 * Y) ;; b <- pdiv MTZ xTP ;; b <- pdiv b Fgamma ;; r <- psqrt b ;; Ok (a * r)
        else
          a <- pdiv Q (24.6 * FP * P1 * Y) ;; b <- pdiv MTZ x ;; r <- psqrt b ;; Ok (a * r)) ;;
  Ok (C, FP, xTP).

(** fluids/control_valve.py:940-948: the recursion of iterate_piping_coef_g; [k] is MAX_ITER - iterations. *)
Fixpoint iterate_turbulent_g (step : R -> result (R * R * R)) (Ci : R) (k : nat) : result (R * R * R * bool) :=
  '(C, FP, xTP) <- step Ci ;;
  t <- pdiv Ci C ;;
  '(C, w) <- (match k with
              | O => Ok (C, false)
              | S k' => if Rltb t 0.99 && Rltb Ci (10 ^ 40) then
                          '(C, _, _, w) <- iterate_turbulent_g step C k' ;; Ok (C, w)
                        else Ok (C, false)
              end) ;;
  let hit := (match k with O => true | S _ => false end) || Rleb (10 ^ 40) Ci in
  Ok (C, FP, xTP, w || hit).

(** fluids/control_valve.py:883-991 [size_control_valve_g] with its dictionary.  R is fluids.constants.R, 8.31446261815324. *)
Definition valve_g (fuel : nat) (T MW mu gamma Z P1 P2 Q : R) (D1 D2 d : option R) (FL Fd xT : R)
    (allow_choked allow_laminar : bool) : result sized :=
  let P1 := P1 * 0.001 in let P2 := P2 * 0.001 in
  let Q := Q * 3600 in
  Vm <- pdiv (Z * 8.31446261815324 * T) (P1 * 1000) ;;
  rho <- pdiv (MW * 0.001) Vm ;;
  nu <- pdiv mu rho ;;
  let dP := P1 - P2 in
  let Fgamma := gamma / 1.4 in
  x <- pdiv dP P1 ;;
  y <- pdiv x (3 * Fgamma * xT) ;;
  let Y := Rmax (1 - y) (2 / 3) in
  choked <- is_choked_turbulent_g x Fgamma (Some xT) None ;;
  C <- (if choked && allow_choked then
          a <- pdiv Q (24.6 * P1 * Y) ;; b <- pdiv (MW * T * Z) xT ;; b <- pdiv b Fgamma ;; r <- psqrt b ;; Ok (a * r)
        else
          a <- pdiv Q (24.6 * P1 * Y) ;; b <- pdiv (MW * T * Z) x ;; r <- psqrt b ;; Ok (a * r)) ;;
  match D1, D2, d with
  | None, None, None => Ok (Sized C choked None (Rleb 100000 10000) None None None None false)
  | Some D1, Some D2, Some d =>
      let D1 := D1 * 1000 in let D2 := D2 * 1000 in let d := d * 1000 in
      Rev <- Reynolds_valve nu Q D1 FL Fd C ;;
      if (Rltb 10000 Rev || negb allow_laminar) && (negb (Reqb D1 d) || negb (Reqb D2 d)) then
        '(C, FP, xTP, w) <- iterate_turbulent_g (piping_step_g (MW * T * Z) P1 Y x Fgamma Q xT d D1 D2) C 20 ;;
        Ok (Sized C choked (Some Rev) (Rleb Rev 10000) None (Some FP) None (Some xTP) w)
      else if Rleb Rev 10000 && allow_laminar then
        '(C, Rev', FR) <- iterate_laminar nu Q D1 FL Fd d fuel C ;;
        Ok (Sized C choked (Some Rev') (Rleb Rev 10000) None None (Some FR) None false)
      else Ok (Sized C choked (Some Rev) (Rleb Rev 10000) None None None None false)
  | _, _, _ => Err ValueError
  end.

Definition size_control_valve_g (fuel : nat) (T MW mu gamma Z P1 P2 Q : R) (D1 D2 d : option R) (FL Fd xT : R)
    (allow_choked allow_laminar : bool) : result R :=
  o <- valve_g fuel T MW mu gamma Z P1 P2 Q D1 D2 d FL Fd xT allow_choked allow_laminar ;; Ok (s_Kv o).
