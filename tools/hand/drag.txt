(** fluids/drag.py:1134-1156 [drag_sphere_correlations]: name, optional smallest and optional largest
    Reynolds number.  (The function stored in the table is not repeated: [drag_sphere] has its own dispatch.) *)
Definition drag_sphere_correlations : list (string * (option R * option R)) :=
  [("Stokes", (None, Some 0.3)); ("Barati", (None, Some 200000)); ("Barati_high", (None, Some 1000000));
   ("Rouse", (None, Some 200000)); ("Engelund_Hansen", (None, Some 200000)); ("Clift_Gauvin", (None, Some 200000));
   ("Morsi_Alexander", (None, Some 200000)); ("Graf", (None, Some 200000)); ("Flemmer_Banks", (None, Some 200000));
   ("Khan_Richardson", (None, Some 200000)); ("Swamee_Ojha", (None, Some 150000)); ("Yen", (None, Some 200000));
   ("Haider_Levenspiel", (None, Some 200000)); ("Cheng", (None, Some 200000)); ("Terfous", (Some 0.1, Some 50000));
   ("Mikhailov_Freire", (None, Some 118300)); ("Clift", (None, Some 1000000)); ("Ceylan", (Some 0.1, Some 1000000));
   ("Almedeij", (None, Some 1000000)); ("Morrison", (None, Some 1000000)); ("Song_Xu", (None, Some 1000))]%string.

(** fluids/drag.py:1187-1191 [drag_sphere_methods]. *)
Definition drag_sphere_methods (Re : R) (check_ranges : bool) : list string :=
  map fst (filter (fun row =>
    let '(_, (Re_min, Re_max)) := row in
    ((match Re_min with None => true | Some m => Rltb m Re end)
     && (match Re_max with None => true | Some m => Rltb Re m end))
    || negb check_ranges) drag_sphere_correlations)%bool.

(** fluids/drag.py:1292-1294 [_v_terminal_err]. *)
Definition v_terminal_err (Method : option string) (Re_almost main V : R) : result R :=
  Cd <- drag_sphere (Re_almost * V) Method ;;
  t1 <- pdiv main Cd ;;
  t2 <- psqrt t1 ;;
  Ok (V - t2).

(** fluids/drag.py:1363-1374 [v_terminal].  [sec f x0] stands for the call of [secant] (numerics, modelled
    in Model_Solvers.v) with residual [f] and starting point [x0]; its options are fixed in the code. *)
Definition v_terminal (sec : (R -> result R) -> R -> result R) (D_ rhop rho mu : R) (Method : option string) : result R :=
  v_lam <- pdiv (9.80665 * D_ * D_ * (rhop - rho)) (18 * mu) ;;
  Re_lam <- Reynolds v_lam D_ (Some rho) (Some mu) None ;;
  if (Rltb Re_lam 0.01 || match Method with Some m => String.eqb m "Stokes"%string | None => false end)%bool
  then Ok v_lam
  else
    Re_almost <- pdiv (rho * D_) mu ;;
    main <- pdiv (4 / 3 * 9.80665 * D_ * (rhop - rho)) rho ;;
    t1 <- pdiv 1000000 rho ;;
    t2 <- pdiv t1 D_ ;;
    let V_max := t2 * mu in
    sec (v_terminal_err Method Re_almost main) (V_max * 0.01).

(** fluids/drag.py:1437-1449 the loop of [time_v_terminal_Stokes]: [n] attempts are left; any exception
    inside the attempt doubles the tolerance, a tolerance above 0.01 is given up. *)
Fixpoint time_v_terminal_loop (n : nat) (term denominator v_term_base const mu V0 tol : R) : result R :=
  match n with
  | O => Err ValueError
  | S n =>
    let v_term := if Rltb v_term_base V0 then v_term_base * (1 + tol) else v_term_base * (1 - tol) in
    let numerator := term + 18 * mu * v_term in
    match (t1 <- pdiv numerator denominator ;; t2 <- plog t1 ;; Ok (t2 * const)) with
    | Ok t => Ok t
    | Err _ =>
      let tol := tol + tol in
      if Rltb 0.01 tol then Err ValueError
      else time_v_terminal_loop n term denominator v_term_base const mu V0 tol
    end
  end.

(** fluids/drag.py:1430-1449 [time_v_terminal_Stokes]. *)
Definition time_v_terminal_Stokes (D_ rhop rho mu V0 tol : R) : result R :=
  let tol := if Rltb tol (1 / 100000000000000000) then 2 / 100000000000000000 else tol in
  let term := D_ * D_ * 9.80665 * rho - D_ * D_ * 9.80665 * rhop in
  let denominator := term + 18 * mu * V0 in
  v_term_base <- pdiv (9.80665 * D_ * D_ * (rhop - rho)) (18 * mu) ;;
  t1 <- pdiv (D_ * D_ * rhop) mu ;;
  let const := t1 * -1 / 18 in
  time_v_terminal_loop 50 term denominator v_term_base const mu V0 tol.

(** [math.exp] refuses arguments above [big] (709.78... in floats) with an OverflowError. *)
Definition exp_lim (big x : R) : result R := if Rltb big x then Err OverflowError else Ok (exp x).

(** fluids/drag.py:1583-1591 [dv_dt]: the right hand side given to the integrator. *)
Definition dv_dt (D_ rhop rho mu : R) (Method : option string) (V : R) : result R :=
  Re_ish <- pdiv (rho * D_) mu ;;
  t1 <- pdiv (9.80665 * (rhop - rho)) rhop ;;
  let c1 := t1 in
  c2 <- pdiv (- 0.75 * rho) (D_ * rhop) ;;
  if Reqb V 0 then Ok (c1 + 0)
  else
    Cd <- drag_sphere (Re_ish * V) Method ;;
    Ok (c1 + c2 * V * V * Cd).

(** fluids/drag.py:1532-1608 [integrate_drag_sphere]; the pair (speed, distance) is always returned (the flag
    [distance] only drops the second component).  [sec] as in [v_terminal]; [ode f V t] stands for
    [odeint]/[cumulative_trapezoid] on the right hand side [f] and gives the final speed and the distance;
    [big] is the largest argument [exp] accepts.  The branch after an OverflowError calls the function again
    (line 1550): [fuel] bounds that recursion, running out is Python's recursion limit. *)
Fixpoint integrate_drag_sphere (fuel : nat) (sec : (R -> result R) -> R -> result R)
    (ode : (R -> result R) -> R -> R -> result (R * R)) (big : R)
    (D_ rhop rho mu t V : R) (Method : option string) : result (R * R) :=
  match fuel with
  | O => Err RuntimeError
  | S fuel =>
    Re_0 <- Reynolds V D_ (Some rho) (Some mu) None ;;
    let laminar_initial := Rltb Re_0 0.01 in
    v_laminar_end_assumed <- v_terminal sec D_ rhop rho mu Method ;;
    Re_1 <- Reynolds v_laminar_end_assumed D_ (Some rho) (Some mu) None ;;
    let laminar_end := Rltb Re_1 0.01 in
    if match Method with
       | Some m => String.eqb m "Stokes"%string
       | None => (laminar_initial && laminar_end)%bool
       end
    then
      match
        (t1 <- pdiv (18 * mu) (D_ * D_ * rhop) ;;
         t2 <- pdiv (9.80665 * (rhop - rho)) rhop ;;
         e1 <- exp_lim big (- t1 * t) ;;
         e2 <- exp_lim big (t1 * t) ;;
         V_end <- pdiv (e1 * (t1 * V + t2 * (e2 - 1))) t1 ;;
         x_end <- pdiv (e1 * (V * t1 * (e2 - 1) + t2 * e2 * (t1 * t - 1) + t2)) (t1 * t1) ;;
         Ok (V_end, x_end))
      with
      | Err OverflowError =>
        t_to_terminal <- time_v_terminal_Stokes D_ rhop rho mu V (1 / 1000000000) ;;
        if Rltb t t_to_terminal then Err ValueError
        else
          res <- integrate_drag_sphere fuel sec ode big D_ rhop rho mu t_to_terminal V (Some "Stokes"%string) ;;
          let '(V_end, x_end) := res in
          Ok (V_end, x_end + V_end * (t - t_to_terminal))
      | r => r
      end
    else
      (* 1579-1581: the constants are computed (and can fail) before the integrator runs *)
      _ <- pdiv (rho * D_) mu ;;
      _ <- pdiv (9.80665 * (rhop - rho)) rhop ;;
      _ <- pdiv (- 0.75 * rho) (D_ * rhop) ;;
      ode (dv_dt D_ rhop rho mu Method) V t
  end.
