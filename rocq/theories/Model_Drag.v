(** Drag on spheres.
    Generated by tools/pytrans.py from /repo/fluids, function by function: floats are exact reals,
    a division, root, logarithm or power that Python refuses is an [Err]; float rounding and overflow
    are not represented.  Module constants are inlined with their exact rational value. *)
From Coq Require Import Reals String List Bool.
From Verif Require Import Base Model_Real.
From Verif Require Import Model_Friction.
Import ListNotations.
Open Scope R_scope.

(** fluids/drag.py:131-131 [Stokes]. *)
Definition Stokes (Re : R) : result R :=
  pdiv 24 Re.

(** fluids/drag.py:173-177 [Barati]. *)
Definition Barati (Re : R) : result R :=
  Re_inv <- pdiv 1 Re ;;
  t2 <- pdiv 9.9851 (Re + 2.3384) ;;
  let Cd := ((((((5485600000 * (tanh (0.0000000043774 * Re_inv))) + (0.0709 * (tanh (700.6574 * Re_inv)))) + (0.3894 * (tanh (74.1539 * Re_inv)))) - (0.1198 * (tanh (7429.0843 * Re_inv)))) + (1.7174 * (tanh t2))) + 0.4744) in
  Ok Cd.

(** fluids/drag.py:224-240 [Barati_high]. *)
Definition Barati_high (Re : R) : result R :=
  Re <- (if (Rltb 1000000 Re) then let Re := 1000000 in
  Ok Re
  else Ok Re) ;;
  let Re2 := (Re * Re) in
  t0 <- pdiv 1 Re ;;
  let t1 := (Re * (1 / 6530)) in
  let t2 := (Re * (1 / 1620)) in
  t3 <- plog10 (Re2 + 10.7563) ;;
  t4 <- pdiv 1 (Re + Re2) ;;
  let t4 := (t4 * t4) in
  let t4 := (t4 * t4) in
  let tanhRe := (tanh Re) in
  t8 <- plog10 Re ;;
  t9 <- plog10 (tanh tanhRe) ;;
  let Cd := ((((((0.000008 * (((t1 * t1) + tanhRe) - (8 * t8))) - (0.4119 * (exp ((- 20800000000000000000000000000000000000000000) * t4)))) - (2.1344 * (exp ((- t0) * ((t3 * t3) + 9.9867))))) + (0.1357 * (exp ((- t0) * ((t2 * t2) + 10370))))) - ((0.0085 * t0) * ((2 * t9) - 2825.7162))) + 2.4795) in
  Ok Cd.

(** fluids/drag.py:280-280 [Rouse]. *)
Definition Rouse (Re : R) : result R :=
  t1 <- pdiv 24 Re ;;
  t2 <- psqrt Re ;;
  t3 <- pdiv 3 t2 ;;
  Ok ((t1 + t3) + 0.34).

(** fluids/drag.py:321-321 [Engelund_Hansen]. *)
Definition Engelund_Hansen (Re : R) : result R :=
  t1 <- pdiv 24 Re ;;
  Ok (t1 + 1.5).

(** fluids/drag.py:362-362 [Clift_Gauvin]. *)
Definition Clift_Gauvin (Re : R) : result R :=
  t1 <- pdiv 24 Re ;;
  t2 <- ppow Re 0.677 ;;
  t3 <- ppow Re (- 0.94) ;;
  t4 <- pdiv 0.417 (1 + (5070 * t3)) ;;
  Ok ((t1 * (1 + (0.152 * t2))) + t4).

(** fluids/drag.py:441-456 [Morsi_Alexander]. *)
Definition Morsi_Alexander (Re : R) : result R :=
  if (Rltb Re 0.1) then pdiv 24 Re
  else if (Rltb Re 1) then t2 <- pdiv 22.73 Re ;;
  t3 <- pdiv 0.0903 (Re ^ 2) ;;
  Ok ((t2 + t3) + 3.69)
  else if (Rltb Re 10) then t4 <- pdiv 29.1667 Re ;;
  t5 <- pdiv 3.8889 (Re ^ 2) ;;
  Ok ((t4 - t5) + 1.222)
  else if (Rltb Re 100) then t6 <- pdiv 46.5 Re ;;
  t7 <- pdiv 116.67 (Re ^ 2) ;;
  Ok ((t6 - t7) + 0.6167)
  else if (Rltb Re 1000) then t8 <- pdiv 98.33 Re ;;
  t9 <- pdiv 2778 (Re ^ 2) ;;
  Ok ((t8 - t9) + 0.3644)
  else if (Rltb Re 5000) then t10 <- pdiv 148.62 Re ;;
  t11 <- pdiv 47500 (Re ^ 2) ;;
  Ok ((t10 - t11) + 0.357)
  else if (Rltb Re 10000) then t12 <- pdiv (- 490.546) Re ;;
  t13 <- pdiv 578700 (Re ^ 2) ;;
  Ok ((t12 + t13) + 0.46)
  else t14 <- pdiv (- 1662.5) Re ;;
  t15 <- pdiv 5416700 (Re ^ 2) ;;
  Ok ((t14 + t15) + 0.5191).

(** fluids/drag.py:496-496 [Graf]. *)
Definition Graf (Re : R) : result R :=
  t1 <- pdiv 24 Re ;;
  t2 <- psqrt Re ;;
  t3 <- pdiv 7.3 (1 + t2) ;;
  Ok ((t1 + t3) + 0.25).

(** fluids/drag.py:540-541 [Flemmer_Banks]. *)
Definition Flemmer_Banks (Re : R) : result R :=
  t1 <- ppow Re 0.356 ;;
  t2 <- ppow Re 0.396 ;;
  t3 <- plog10 Re ;;
  t4 <- pdiv 0.143 (1 + (t3 ^ 2)) ;;
  let E := (((0.383 * t1) - (0.207 * t2)) - t4) in
  t5 <- pdiv 24 Re ;;
  t6 <- ppow 10 E ;;
  Ok (t5 * t6).

(** fluids/drag.py:582-582 [Khan_Richardson]. *)
Definition Khan_Richardson (Re : R) : result R :=
  t1 <- ppow Re (- 0.328) ;;
  t2 <- ppow Re 0.067 ;;
  ppow ((2.49 * t1) + (0.34 * t2)) 3.18.

(** fluids/drag.py:624-625 [Swamee_Ojha]. *)
Definition Swamee_Ojha (Re : R) : result R :=
  t1 <- pdiv 24 Re ;;
  t2 <- ppow t1 1.6 ;;
  t3 <- pdiv 130 Re ;;
  t4 <- ppow t3 0.72 ;;
  t5 <- ppow (t2 + t4) 2.5 ;;
  t6 <- pdiv 40000 Re ;;
  t7 <- psqrt ((t6 ^ 2) + 1) ;;
  t8 <- psqrt t7 ;;
  t9 <- pdiv 1 t8 ;;
  t10 <- psqrt ((16 * t5) + t9) ;;
  t11 <- psqrt t10 ;;
  let Cd := (0.5 * t11) in
  Ok Cd.

(** fluids/drag.py:666-666 [Yen]. *)
Definition Yen (Re : R) : result R :=
  t1 <- pdiv 24 Re ;;
  t2 <- psqrt Re ;;
  t3 <- psqrt Re ;;
  t4 <- pdiv (10000 * 1) t3 ;;
  t5 <- pdiv 0.208 (1 + t4) ;;
  Ok ((t1 * ((1 + (0.15 * t2)) + (0.017 * Re))) - t5).

(** fluids/drag.py:709-709 [Haider_Levenspiel]. *)
Definition Haider_Levenspiel (Re : R) : result R :=
  t1 <- pdiv 24 Re ;;
  t2 <- ppow Re 0.6459 ;;
  t3 <- pdiv 6880.95 Re ;;
  t4 <- pdiv 0.4251 (1 + t3) ;;
  Ok ((t1 * (1 + (0.1806 * t2))) + t4).

(** fluids/drag.py:750-750 [Cheng]. *)
Definition Cheng (Re : R) : result R :=
  t1 <- pdiv 24 Re ;;
  t2 <- ppow (1 + (0.27 * Re)) 0.43 ;;
  t3 <- ppow Re 0.38 ;;
  Ok ((t1 * t2) + (0.47 * (1 - (exp ((- 0.04) * t3))))).

(** fluids/drag.py:792-792 [Terfous]. *)
Definition Terfous (Re : R) : result R :=
  t1 <- pdiv 21.683 Re ;;
  t2 <- pdiv 0.131 (Re ^ 2) ;;
  t3 <- ppow Re 0.1 ;;
  t4 <- pdiv 10.616 t3 ;;
  t5 <- ppow Re 0.2 ;;
  t6 <- pdiv 12.216 t5 ;;
  Ok ((((2.689 + t1) + t2) - t4) + t6).

(** fluids/drag.py:834-836 [Mikhailov_Freire]. *)
Definition Mikhailov_Freire (Re : R) : result R :=
  pdiv (3808 * (((1617933 / 2030) + ((178861 / 1063) * Re)) + ((1219 / 1084) * (Re ^ 2)))) ((681 * Re) * (((77531 / 422) + ((13529 / 976) * Re)) - ((1 / 71154) * (Re ^ 2)))).

(** fluids/drag.py:918-935 [Clift]. *)
Definition Clift (Re : R) : result R :=
  if (Rltb Re 0.01) then t1 <- pdiv 24 Re ;;
  Ok (t1 + (3 / 16))
  else if (Rltb Re 20) then t2 <- pdiv 24 Re ;;
  t3 <- plog10 Re ;;
  t4 <- ppow Re (0.82 - (0.05 * t3)) ;;
  Ok (t2 * (1 + (0.1315 * t4)))
  else if (Rltb Re 260) then t5 <- pdiv 24 Re ;;
  t6 <- ppow Re 0.6305 ;;
  Ok (t5 * (1 + (0.1935 * t6)))
  else if (Rltb Re 1500) then t7 <- plog10 Re ;;
  t8 <- plog10 Re ;;
  ppow 10 ((1.6435 - (1.1242 * t7)) + (0.1558 * (t8 ^ 2)))
  else if (Rltb Re 12000) then t10 <- plog10 Re ;;
  t11 <- plog10 Re ;;
  t12 <- plog10 Re ;;
  ppow 10 ((((- 2.4571) + (2.5558 * t10)) - (0.9295 * (t11 ^ 2))) + (0.1049 * (t12 ^ 3)))
  else if (Rltb Re 44000) then t14 <- plog10 Re ;;
  t15 <- plog10 Re ;;
  ppow 10 (((- 1.9181) + (0.637 * t14)) - (0.0636 * (t15 ^ 2)))
  else if (Rltb Re 338000) then t17 <- plog10 Re ;;
  t18 <- plog10 Re ;;
  ppow 10 (((- 4.339) + (1.5809 * t17)) - (0.1546 * (t18 ^ 2)))
  else if (Rltb Re 400000) then t20 <- plog10 Re ;;
  Ok (29.78 - (5.3 * t20))
  else t21 <- plog10 Re ;;
  Ok ((0.19 * t21) - 0.49).

(** fluids/drag.py:981-984 [Ceylan]. *)
Definition Ceylan (Re : R) : result R :=
  t1 <- ppow Re ((- 2) / 3) ;;
  t2 <- psqrt Re ;;
  t3 <- psqrt t2 ;;
  t4 <- pdiv 0.952 t3 ;;
  t5 <- ppow Re ((- 4) / 3) ;;
  t6 <- psqrt Re ;;
  t7 <- pdiv 1.3 t6 ;;
  let Cd := (((((1 - (0.5 * (exp 0.182))) + ((10.11 * t1) * (exp t4))) - ((0.03859 * t5) * (exp t7))) + ((0.0000037 * Re) * (exp ((- 0.0000125) * Re)))) - ((0.0000000000116 * (Re ^ 2)) * (exp ((- 0.00000444) * Re)))) in
  Ok Cd.

(** fluids/drag.py:1038-1042 [Almedeij]. *)
Definition Almedeij (Re : R) : result R :=
  t1 <- ppow Re 2.63 ;;
  t2 <- pdiv 1 ((0.00000000000000006 * t1) ^ 10) ;;
  t3 <- pdiv 1 (0.2 ^ 10) ;;
  phi4 <- pdiv 1 ((t2 + t3) ^ 1) ;;
  t5 <- ppow Re (- 1.625) ;;
  let phi3 := ((157000000 * t5) ^ 10) in
  t6 <- ppow Re 0.11 ;;
  t7 <- pdiv 1 ((0.148 * t6) ^ 10) ;;
  t8 <- pdiv 1 (0.5 ^ 10) ;;
  phi2 <- pdiv 1 ((t7 + t8) ^ 1) ;;
  t10 <- pdiv 1 (Re ^ 1) ;;
  t11 <- ppow Re (- 0.67) ;;
  t12 <- ppow Re (- 0.33) ;;
  let phi1 := (((((24 * t10) ^ 10) + ((21 * t11) ^ 10)) + ((4 * t12) ^ 10)) + (0.4 ^ 10)) in
  t13 <- pdiv 1 ((phi1 + phi2) ^ 1) ;;
  t14 <- pdiv 1 (phi3 ^ 1) ;;
  t15 <- pdiv 1 (t13 + t14) ;;
  ppow (t15 + phi4) 0.1.

(** fluids/drag.py:1084-1086 [Morrison]. *)
Definition Morrison (Re : R) : result R :=
  t1 <- pdiv 24 Re ;;
  t2 <- ppow (Re / 5) 1.52 ;;
  t3 <- pdiv ((2.6 * Re) / 5) (1 + t2) ;;
  t4 <- ppow (Re / 263000) (- 7.94) ;;
  t5 <- pdiv 1 ((Re / 263000) ^ 8) ;;
  t6 <- pdiv (0.411 * t4) (1 + t5) ;;
  t7 <- ppow Re 0.8 ;;
  let Cd := (((t1 + t3) + t6) + (t7 / 461000)) in
  Ok Cd.

(** fluids/drag.py:1131-1131 [Song_Xu]. *)
Definition Song_Xu (Re : R) (sphericity : R) (S_ : R) : result R :=
  t1 <- ppow sphericity 0.65 ;;
  t2 <- ppow S_ 0.3 ;;
  t3 <- pdiv 24 ((Re * t1) * t2) ;;
  t4 <- ppow (1 + (0.35 * Re)) 0.44 ;;
  Ok (t3 * t4).

(** fluids/drag.py:1231-1289 [drag_sphere]. *)
Definition drag_sphere (Re : R) (Method : option string) : result R :=
  match Method with
    | Some Method => if (String.eqb Method "Stokes"%string) then Stokes Re
    else if (String.eqb Method "Barati"%string) then Barati Re
    else if (String.eqb Method "Barati_high"%string) then Barati_high Re
    else if (String.eqb Method "Rouse"%string) then Rouse Re
    else if (String.eqb Method "Engelund_Hansen"%string) then Engelund_Hansen Re
    else if (String.eqb Method "Clift_Gauvin"%string) then Clift_Gauvin Re
    else if (String.eqb Method "Morsi_Alexander"%string) then Morsi_Alexander Re
    else if (String.eqb Method "Graf"%string) then Graf Re
    else if (String.eqb Method "Flemmer_Banks"%string) then Flemmer_Banks Re
    else if (String.eqb Method "Khan_Richardson"%string) then Khan_Richardson Re
    else if (String.eqb Method "Swamee_Ojha"%string) then Swamee_Ojha Re
    else if (String.eqb Method "Yen"%string) then Yen Re
    else if (String.eqb Method "Haider_Levenspiel"%string) then Haider_Levenspiel Re
    else if (String.eqb Method "Cheng"%string) then Cheng Re
    else if (String.eqb Method "Terfous"%string) then Terfous Re
    else if (String.eqb Method "Mikhailov_Freire"%string) then Mikhailov_Freire Re
    else if (String.eqb Method "Clift"%string) then Clift Re
    else if (String.eqb Method "Ceylan"%string) then Ceylan Re
    else if (String.eqb Method "Almedeij"%string) then Almedeij Re
    else if (String.eqb Method "Morrison"%string) then Morrison Re
    else if (String.eqb Method "Song_Xu"%string) then Song_Xu Re 1 1
    else Err ValueError
    | None => if (Rltb 0.1 Re) then if (Rleb Re 212963.26847812787) then Barati Re
    else Barati_high Re
    else if (Rleb 0.01 Re) then let ratio := ((Re - 0.01) / (0.1 - 0.01)) in
    t24 <- Barati Re ;;
    t25 <- Stokes Re ;;
    Ok ((ratio * t24) + ((1 - ratio) * t25))
    else Stokes Re
  end.

(** fluids/drag.py:1134-1156 [drag_sphere_correlations]: name, optional smallest and optional largest
    Reynolds number.  (The function stored in the table is not repeated: [drag_sphere] has its own dispatch.) *)
Definition drag_sphere_correlations : list (string * (option R * option R)) :=
  [("Stokes", (None, Some 0.3)); ("Barati", (None, Some 200000)); ("Barati_high", (None, Some 1000000));
   ("Rouse", (None, Some 200000)); ("Engelund_Hansen", (None, Some 200000)); ("Clift_Gauvin", (None, Some 200000));
   ("Morsi_Alexander", (None, Some 200000)); ("Graf", (None, Some 200000)); ("Flemmer_Banks", (None, Some 200000));
   ("Khan_Richardson", (None, Some 200000)); ("Swamee_Ojha", (None, Some 150000)); ("Yen", (None, Some 200000));
   ("Haider_Levenspiel", (None, Some 200000)); ("Cheng", (None, Some 200000)); ("Terfous", (Some 0.1, Some 50000));
   ("Mikhailov_Freire", (None, Some 118300)); ("Clift", (None, Some 1000000)); ("Ceylan", (Some 0.1, Some 1000000));
   ("Almedeij", (None, Some 1000000)); ("Morrison", (None, Some 1000000)); ("Song_Xu", (None, Some 1000))]%string.

(** fluids/drag.py:1187-1191 [drag_sphere_methods]. *)
Definition drag_sphere_methods (Re : R) (check_ranges : bool) : list string :=
  map fst (filter (fun row =>
    let '(_, (Re_min, Re_max)) := row in
    ((match Re_min with None => true | Some m => Rltb m Re end)
     && (match Re_max with None => true | Some m => Rltb Re m end))
    || negb check_ranges) drag_sphere_correlations)%bool.

(** fluids/drag.py:1292-1294 [_v_terminal_err]. *)
Definition v_terminal_err (Method : option string) (Re_almost main V : R) : result R :=
  Cd <- drag_sphere (Re_almost * V) Method ;;
  t1 <- pdiv main Cd ;;
  t2 <- psqrt t1 ;;
  Ok (V - t2).

(** fluids/drag.py:1363-1374 [v_terminal].  [sec f x0] stands for the call of [secant] (numerics, modelled
    in Model_Solvers.v) with residual [f] and starting point [x0]; its options are fixed in the code. *)
Definition v_terminal (sec : (R -> result R) -> R -> result R) (D_ rhop rho mu : R) (Method : option string) : result R :=
  v_lam <- pdiv (9.80665 * D_ * D_ * (rhop - rho)) (18 * mu) ;;
  Re_lam <- Reynolds v_lam D_ (Some rho) (Some mu) None ;;
  if (Rltb Re_lam 0.01 || match Method with Some m => String.eqb m "Stokes"%string | None => false end)%bool
  then Ok v_lam
  else
    Re_almost <- pdiv (rho * D_) mu ;;
    main <- pdiv (4 / 3 * 9.80665 * D_ * (rhop - rho)) rho ;;
    t1 <- pdiv 1000000 rho ;;
    t2 <- pdiv t1 D_ ;;
    let V_max := t2 * mu in
    sec (v_terminal_err Method Re_almost main) (V_max * 0.01).

(** fluids/drag.py:1437-1449 the loop of [time_v_terminal_Stokes]: [n] attempts are left; any exception
    inside the attempt doubles the tolerance, a tolerance above 0.01 is given up. *)
Fixpoint time_v_terminal_loop (n : nat) (term denominator v_term_base const mu V0 tol : R) : result R :=
  match n with
  | O => Err ValueError
  | S n =>
    let v_term := if Rltb v_term_base V0 then v_term_base * (1 + tol) else v_term_base * (1 - tol) in
    let numerator := term + 18 * mu * v_term in
    match (t1 <- pdiv numerator denominator ;; t2 <- plog t1 ;; Ok (t2 * const)) with
    | Ok t => Ok t
    | Err _ =>
      let tol := tol + tol in
      if Rltb 0.01 tol then Err ValueError
      else time_v_terminal_loop n term denominator v_term_base const mu V0 tol
    end
  end.

(** fluids/drag.py:1430-1449 [time_v_terminal_Stokes]. *)
Definition time_v_terminal_Stokes (D_ rhop rho mu V0 tol : R) : result R :=
  let tol := if Rltb tol (1 / 100000000000000000) then 2 / 100000000000000000 else tol in
  let term := D_ * D_ * 9.80665 * rho - D_ * D_ * 9.80665 * rhop in
  let denominator := term + 18 * mu * V0 in
  v_term_base <- pdiv (9.80665 * D_ * D_ * (rhop - rho)) (18 * mu) ;;
  t1 <- pdiv (D_ * D_ * rhop) mu ;;
  let const := t1 * -1 / 18 in
  time_v_terminal_loop 50 term denominator v_term_base const mu V0 tol.

(** [math.exp] refuses arguments above [big] (709.78... in floats) with an OverflowError. *)
Definition exp_lim (big x : R) : result R := if Rltb big x then Err OverflowError else Ok (exp x).

(** fluids/drag.py:1583-1591 [dv_dt]: the right hand side given to the integrator. *)
Definition dv_dt (D_ rhop rho mu : R) (Method : option string) (V : R) : result R :=
  Re_ish <- pdiv (rho * D_) mu ;;
  t1 <- pdiv (9.80665 * (rhop - rho)) rhop ;;
  let c1 := t1 in
  c2 <- pdiv (- 0.75 * rho) (D_ * rhop) ;;
  if Reqb V 0 then Ok (c1 + 0)
  else
    Cd <- drag_sphere (Re_ish * V) Method ;;
    Ok (c1 + c2 * V * V * Cd).

(** fluids/drag.py:1532-1608 [integrate_drag_sphere]; the pair (speed, distance) is always returned (the flag
    [distance] only drops the second component).  [sec] as in [v_terminal]; [ode f V t] stands for
    [odeint]/[cumulative_trapezoid] on the right hand side [f] and gives the final speed and the distance;
    [big] is the largest argument [exp] accepts.  The branch after an OverflowError calls the function again
    (line 1550): [fuel] bounds that recursion, running out is Python's recursion limit. *)
Fixpoint integrate_drag_sphere (fuel : nat) (sec : (R -> result R) -> R -> result R)
    (ode : (R -> result R) -> R -> R -> result (R * R)) (big : R)
    (D_ rhop rho mu t V : R) (Method : option string) : result (R * R) :=
  match fuel with
  | O => Err RuntimeError
  | S fuel =>
    Re_0 <- Reynolds V D_ (Some rho) (Some mu) None ;;
    let laminar_initial := Rltb Re_0 0.01 in
    v_laminar_end_assumed <- v_terminal sec D_ rhop rho mu Method ;;
    Re_1 <- Reynolds v_laminar_end_assumed D_ (Some rho) (Some mu) None ;;
    let laminar_end := Rltb Re_1 0.01 in
    if match Method with
       | Some m => String.eqb m "Stokes"%string
       | None => (laminar_initial && laminar_end)%bool
       end
    then
      match
        (t1 <- pdiv (18 * mu) (D_ * D_ * rhop) ;;
         t2 <- pdiv (9.80665 * (rhop - rho)) rhop ;;
         e1 <- exp_lim big (- t1 * t) ;;
         e2 <- exp_lim big (t1 * t) ;;
         V_end <- pdiv (e1 * (t1 * V + t2 * (e2 - 1))) t1 ;;
         x_end <- pdiv (e1 * (V * t1 * (e2 - 1) + t2 * e2 * (t1 * t - 1) + t2)) (t1 * t1) ;;
         Ok (V_end, x_end))
      with
      | Err OverflowError =>
        t_to_terminal <- time_v_terminal_Stokes D_ rhop rho mu V (1 / 1000000000) ;;
        if Rltb t t_to_terminal then Err ValueError
        else
          res <- integrate_drag_sphere fuel sec ode big D_ rhop rho mu t_to_terminal V (Some "Stokes"%string) ;;
          let '(V_end, x_end) := res in
          Ok (V_end, x_end + V_end * (t - t_to_terminal))
      | r => r
      end
    else
      (* 1579-1581: the constants are computed (and can fail) before the integrator runs *)
      _ <- pdiv (rho * D_) mu ;;
      _ <- pdiv (9.80665 * (rhop - rho)) rhop ;;
      _ <- pdiv (- 0.75 * rho) (D_ * rhop) ;;
      ode (dv_dt D_ rhop rho mu Method) V t
  end.

