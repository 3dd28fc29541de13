(** Isothermal gas flow in a pipe with friction, fluids/compressible.py.
    Floats are exact reals.  [W1] stands for the real part of [lambertw(x, -1)], [secant] and [brenth] for the
    numerical root finders of the same names; the theorems say what is assumed of them.  Float overflow (the
    [isinf] test of line 945 and the infinite or not-a-number values it guards against) is not represented. *)
From Coq Require Import Reals String List Bool.
From Verif Require Import Base Model_Real.
Import ListNotations.
Open Scope R_scope.

(** fluids/compressible.py:562-564 [P_isothermal_critical_flow]. *)
Definition P_isothermal_critical_flow (W1 : R -> R) (P fd D L : R) : result R :=
  t1 <- pdiv (- D - L * fd) D ;;
  let lambert_term := W1 (- exp t1) in
  t2 <- pdiv (D * (lambert_term + 1) + L * fd) (2 * D) ;;
  Ok (P * exp t2).

(** fluids/compressible.py:576-577 [P_upstream_isothermal_critical_flow]. *)
Definition P_upstream_isothermal_critical_flow (W1 : R -> R) (P fd D L : R) : result R :=
  t1 <- pdiv (- (fd * L + D)) D ;;
  let lambertw_term := W1 (- exp t1) in
  t2 <- pdiv (- 0.5 * (D * lambertw_term + fd * L + D)) D ;;
  Ok (exp t2 * P).

(** fluids/compressible.py:898-907, [isothermal_gas] with m omitted. *)
Definition isothermal_m (W1 : R -> R) (rho fd P1 P2 L D : R) : result R :=
  Pcf <- P_isothermal_critical_flow W1 P1 fd D L ;;
  if Rltb P2 Pcf then Err ValueError
  else if Rltb P1 P2 then Err ValueError
  else
    t1 <- pdiv (fd * L) D ;;
    t2 <- pdiv P1 P2 ;;
    t3 <- plog t2 ;;
    t4 <- pdiv (0.0625 * PI * PI * D ^ 4 * rho) (P1 * (t1 + 2 * t3)) ;;
    psqrt (t4 * (P1 * P1 - P2 * P2)).

(** fluids/compressible.py:908-909, L omitted. *)
Definition isothermal_L (rho fd P1 P2 D m : R) : result R :=
  t1 <- pdiv P1 P2 ;;
  t2 <- plog t1 ;;
  pdiv (D * (PI * PI * D ^ 4 * rho * (P1 * P1 - P2 * P2) - 32 * P1 * m * m * t2)) (16 * P1 * fd * m * m).

(** fluids/compressible.py:929-960, P2 omitted: the closed form, and [brenth] if anything in it raised.
    Residual: lines 781-782. *)
Definition isothermal_P2 (W1 : R -> R) (brenth : (R -> result R) -> R -> R -> result R) (rho fd P1 L D m : R) : result R :=
  let attempt :=
    Pcf <- P_isothermal_critical_flow W1 P1 fd D L ;;
    m_max <- isothermal_m W1 rho fd P1 Pcf L D ;;
    if negb (Rleb m m_max) then Err ValueError
    else
      C <- pdiv (fd * L) D ;;
      let B := (PI / 4 * D ^ 2) ^ 2 * rho in
      t1 <- pdiv (- B) (m ^ 2) ;;
      t2 <- pdiv (- (- C * m ^ 2 + B * P1)) (m ^ 2) ;;
      let arg := t1 * P1 * exp t2 in
      let lambert_ans := W1 arg in
      t3 <- pdiv (- C * m ^ 2 + lambert_ans * m ^ 2 + B * P1) (m ^ 2) ;;
      P2 <- pdiv P1 (exp (t3 / 2)) ;;
      if negb (Rltb P2 P1) then Err ValueError else Ok P2 in
  match attempt with
  | Ok P2 => Ok P2
  | Err _ =>
      Pcf <- P_isothermal_critical_flow W1 P1 fd D L ;;
      match brenth (fun x => t <- isothermal_m W1 rho fd P1 x L D ;; Ok (m - t)) Pcf P1 with
      | Ok x => Ok x
      | Err _ => m_max <- isothermal_m W1 rho fd P1 Pcf L D ;; Err ValueError
      end
  end.

(** fluids/compressible.py:910-928, P1 omitted; residuals: lines 784-785 and 778-779. *)
Definition isothermal_P1 (W1 : R -> R) (secant : (R -> result R) -> R -> result R) (brenth : (R -> result R) -> R -> R -> result R)
    (rho fd P2 L D m : R) : result R :=
  Pcf <- P_upstream_isothermal_critical_flow W1 P2 fd D L ;;
  let attempt :=
    P1 <- secant (fun x => t <- isothermal_P2 W1 brenth rho fd x L D m ;; Ok (Rabs (P2 - t))) ((P2 + Pcf) / 2) ;;
    if negb (Rleb P2 P1) then Err ValueError else Ok P1 in
  match attempt with
  | Ok P1 => Ok P1
  | Err _ =>
      match brenth (fun x => t <- isothermal_m W1 rho fd x P2 L D ;; Ok (m - t)) P2 Pcf with
      | Ok x => Ok x
      | Err _ => m_max <- isothermal_m W1 rho fd Pcf P2 L D ;; Err ValueError
      end
  end.

(** fluids/compressible.py:965-966, D omitted; residual: lines 787-788. *)
Definition isothermal_D (W1 : R -> R) (secant : (R -> result R) -> R -> result R) (rho fd P1 P2 L m : R) : result R :=
  secant (fun x => t <- isothermal_m W1 rho fd P1 P2 L x ;; Ok (m - t)) 0.1.

(** fluids/compressible.py:898-970 [isothermal_gas], the choice of the unknown. *)
Definition isothermal_gas (W1 : R -> R) (secant : (R -> result R) -> R -> result R) (brenth : (R -> result R) -> R -> R -> result R)
    (rho fd : R) (P1 P2 L D m : option R) : result R :=
  match P1, P2, L, D, m with
  | Some P1, Some P2, Some L, Some D, None => isothermal_m W1 rho fd P1 P2 L D
  | Some P1, Some P2, None, Some D, Some m => isothermal_L rho fd P1 P2 D m
  | None, Some P2, Some L, Some D, Some m => isothermal_P1 W1 secant brenth rho fd P2 L D m
  | Some P1, None, Some L, Some D, Some m => isothermal_P2 W1 brenth rho fd P1 L D m
  | Some P1, Some P2, Some L, None, Some m => isothermal_D W1 secant rho fd P1 P2 L m
  | _, _, _, _, _ => Err ValueError
  end.
