(** fluids/flow_meter.py:2658-2694: the residuals handed to the root finders; the four functions of the source
    differ only in which argument comes first. *)
Definition err_dp_meter_solver (D_ D2 m P1 P2 rho mu k : R) (meter_type : string) (taps tap_position : option string) (C_specified epsilon_specified : option R) : result R :=
  '(C, epsilon) <- differential_pressure_meter_C_epsilon D_ D2 m P1 P2 rho mu k meter_type taps tap_position C_specified epsilon_specified ;;
  m_calc <- flow_meter_discharge D_ D2 P1 P2 rho C epsilon meter_type ;;
  Ok (m - m_calc).

(** [try: a  except: b] *)
Definition or_else (a b : result R) : result R := match a with Ok x => Ok x | Err _ => b end.

(** fluids/flow_meter.py:2795-2836 [differential_pressure_meter_solver]. [secant f x0 low high] and [brenth f a b] stand
    for the root finders; their tolerances and iteration counts are not represented. The source passes [k = None] on
    to the correlations, all of which then raise TypeError (a bare except hides it until the last attempt): here at once. *)
Definition differential_pressure_meter_solver
    (secant : (R -> result R) -> R -> option R -> option R -> result R) (brenth : (R -> result R) -> R -> R -> result R)
    (D_ rho mu : R) (k D2 P1 P2 m : option R) (meter_type : string) (taps tap_position : option string) (C_specified epsilon_specified : option R) : result R :=
  let k := match k, epsilon_specified with None, Some _ => Some 1.4 | _, _ => k end in
  match m, D2, P1, P2 with
  | None, Some D2, Some P1, Some P2 =>
      let C_guess := 0.7 in
      let D4 := D_ * D_ in
      let D4 := D4 * D4 in
      let D24 := D2 * D2 in
      let D24 := D24 * D24 in
      q <- pdiv (D4 * rho * (P1 - P2)) (D4 - D24) ;;
      s <- psqrt q ;;
      let m_guess := sqrt 2 * PI * C_guess * D2 * D2 * s * 0.25 in
      m_D_guess <- pdiv m_guess D_ ;;
      match k with
      | None => Err TypeError
      | Some k =>
          x <- secant (fun m_D => err_dp_meter_solver D_ D2 (m_D * D_) P1 P2 rho mu k meter_type taps tap_position C_specified epsilon_specified) m_D_guess (Some 1e-40) None ;;
          Ok (x * D_)
      end
  | Some m, None, Some P1, Some P2 =>
      match k with
      | None => Err TypeError
      | Some k =>
          let f := fun D2 => err_dp_meter_solver D_ D2 m P1 P2 rho mu k meter_type taps tap_position C_specified epsilon_specified in
          or_else (or_else (secant f (D_ * 0.3) (Some (D_ * 1e-10)) (Some D_)) (secant f (D_ * 0.75) (Some (D_ * 1e-10)) (Some D_)))
                  (brenth f (D_ * (1 - 1e-9)) (D_ * 5e-3))
      end
  | Some m, Some D2, Some P1, None =>
      match k with
      | None => Err TypeError
      | Some k =>
          let f := fun P2 => err_dp_meter_solver D_ D2 m P1 P2 rho mu k meter_type taps tap_position C_specified epsilon_specified in
          or_else (or_else (secant f (P1 * 0.9) (Some (P1 * 0.5)) (Some P1)) (secant f (P1 * 0.9) (Some (P1 * 1e-10)) (Some P1)))
                  (brenth f (P1 * (1 - 1e-9)) (P1 * 0.5))
      end
  | Some m, Some D2, None, Some P2 =>
      match k with
      | None => Err TypeError
      | Some k =>
          let f := fun P1 => err_dp_meter_solver D_ D2 m P1 P2 rho mu k meter_type taps tap_position C_specified epsilon_specified in
          or_else (secant f (P2 * 1.5) (Some P2) None) (brenth f (P2 * (1 + 1e-9)) (P2 * 1.4))
      end
  | _, _, _, _ => Err ValueError
  end.
