(** Liquid jet pumps.  Floats are exact reals; a division, root or power that Python refuses is an [Err]. *)
From Coq Require Import Reals List Bool.
From Verif Require Import Base Model_Real.
Import ListNotations.
Open Scope R_scope.

(** fluids/jet_pump.py:162-173 [liquid_jet_pump_ancillary], the answer for [P1] *)
Definition ancillary_P1 (rhop rhos Kp Ks d_nozzle d_mixing Qp Qs P2 : R) : result R :=
  C <- pdiv rhos rhop ;;
  M <- pdiv Qs Qp ;;
  let A_nozzle := PI / 4 * d_nozzle * d_nozzle in
  let A_mixing := PI / 4 * d_mixing * d_mixing in
  R_ <- pdiv A_nozzle A_mixing ;;
  v <- pdiv Qp A_nozzle ;;
  x <- pdiv (M * R_) (1 - R_) ;;
  Ok (rhop / 2 * v ^ 2 * ((1 + Kp) - C * (1 + Ks) * x ^ 2) + P2).

(** fluids/jet_pump.py:157-197 [liquid_jet_pump_ancillary].  [None] in the answer is nan (line 180).  [brenth f a b] and
    [secant f x0] stand for the calls of the root finders (modelled in Model_Solvers.v); the bare [except] of line 194 is the
    [Err _] case.  With exactly one unknown the names the conditions test are always bound. *)
Definition liquid_jet_pump_ancillary (brenth : (R -> result R) -> R -> R -> result R) (secant : (R -> result R) -> R -> result R)
  (rhop rhos Kp Ks : R) (d_nozzle d_mixing Qp Qs P1 P2 : option R) : result (option R) :=
  let some x := Ok (Some x) in
  match d_nozzle, d_mixing, Qp, Qs, P1, P2 with
  | Some dn, Some dm, Some Qp, Some Qs, None, Some P2 =>
      p <- ancillary_P1 rhop rhos Kp Ks dn dm Qp Qs P2 ;; some p
  | Some dn, Some dm, Some Qp, Some Qs, Some P1, None =>
      C <- pdiv rhos rhop ;;
      M <- pdiv Qs Qp ;;
      let A_nozzle := PI / 4 * dn * dn in
      let A_mixing := PI / 4 * dm * dm in
      R_ <- pdiv A_nozzle A_mixing ;;
      v <- pdiv Qp A_nozzle ;;
      x <- pdiv (M * R_) (1 - R_) ;;
      some (- rhop / 2 * v ^ 2 * ((1 + Kp) - C * (1 + Ks) * x ^ 2) + P1)
  | Some dn, Some dm, Some Qp, None, Some P1, Some P2 =>
      C <- pdiv rhos rhop ;;
      let A_nozzle := PI / 4 * dn * dn in
      let A_mixing := PI / 4 * dm * dm in
      R_ <- pdiv A_nozzle A_mixing ;;
      q <- pdiv (- 2 * A_nozzle ^ 2 * P1 + 2 * A_nozzle ^ 2 * P2 + Kp * Qp ^ 2 * rhop + Qp ^ 2 * rhop) (C * rhop * (Ks + 1)) ;;
      match psqrt q with
      | Ok s => r <- pdiv (s * (A_mixing - A_nozzle)) A_nozzle ;; some r
      | Err ValueError => Ok None
      | Err e => Err e
      end
  | Some dn, Some dm, None, Some Qs, Some P1, Some P2 =>
      C <- pdiv rhos rhop ;;
      let A_nozzle := PI / 4 * dn * dn in
      let A_mixing := PI / 4 * dm * dm in
      R_ <- pdiv A_nozzle A_mixing ;;
      q <- pdiv (2 * A_mixing ^ 2 * P1 - 2 * A_mixing ^ 2 * P2 - 4 * A_mixing * A_nozzle * P1 + 4 * A_mixing * A_nozzle * P2
                 + 2 * A_nozzle ^ 2 * P1 - 2 * A_nozzle ^ 2 * P2 + C * Ks * Qs ^ 2 * rhop + C * Qs ^ 2 * rhop) (rhop * (Kp + 1)) ;;
      s <- psqrt q ;;
      r <- pdiv (A_nozzle * s) (A_mixing - A_nozzle) ;;
      some r
  | None, Some dm, Some Qp, Some Qs, Some P1, Some P2 =>
      C <- pdiv rhos rhop ;;
      M <- pdiv Qs Qp ;;
      r <- brenth (fun dn => p <- ancillary_P1 rhop rhos Kp Ks dn dm Qp Qs P2 ;; Ok (P1 - p)) (1 / 1000000000) (dm * 20) ;;
      some r
  | Some dn, None, Some Qp, Some Qs, Some P1, Some P2 =>
      C <- pdiv rhos rhop ;;
      M <- pdiv Qs Qp ;;
      let err := fun dm => p <- ancillary_P1 rhop rhos Kp Ks dn dm Qp Qs P2 ;; Ok (P1 - p) in
      match brenth err (1 / 1000000000) (dn * 20) with
      | Ok r => some r
      | Err _ => r <- secant err (dn * 2) ;; some r
      end
  | _, _, _, _, _, _ => Err ValueError
  end.

(** fluids/jet_pump.py:206-224 [liquid_jet_pump_pressure_ratio], the ratio [N] *)
Definition jet_pressure_ratio (rhop rhos Km Kd Ks Kp d_nozzle d_mixing d_diffuser Qp Qs : R) (nozzle_retracted : bool) : result R :=
  C <- pdiv rhos rhop ;;
  let j := if nozzle_retracted then 0 else 1 in
  R_ <- pdiv (d_nozzle ^ 2) (d_mixing ^ 2) ;;
  alpha <- pdiv (d_mixing ^ 2) (d_diffuser ^ 2) ;;
  M <- pdiv Qs Qp ;;
  let M2 := M * M in let R2 := R_ * R_ in let alpha2 := alpha * alpha in
  t1 <- pdiv (2 * C * M2 * R2) (1 - R_) ;;
  let num := 2 * R_ + t1 in
  let num := num - R2 * (1 + C * M) * (1 + M) * (1 + Km + Kd + alpha2) in
  t2 <- pdiv (C * M2 * R2) ((1 - R_) ^ 2) ;;
  let num := num - t2 * (1 + Ks) in
  t3 <- pdiv (2 * C * M2 * R2) (1 - R_) ;;
  let den := (1 + Kp) - 2 * R_ - t3 in
  let den := den + R2 * (1 + C * M) * (1 + M) * (1 + Km + Kd + alpha2) in
  t4 <- pdiv (1 - R_) R_ ;;
  t5 <- pdiv (C * M2) (t4 ^ 2) ;;
  let den := den + (1 - j) * t5 * (1 - Ks) in
  pdiv num den.

(** fluids/jet_pump.py:225-248 [liquid_jet_pump_pressure_ratio]: the three pressures when one is missing, otherwise the residual *)
Definition jet_pressures (N : R) (P1 P2 P5 : option R) : result ((option R * option R * option R) + R) :=
  match P1, P2, P5 with
  | None, Some p2, Some p5 => r <- pdiv (- p2 + p5 * N + p5) N ;; Ok (inl (Some r, P2, P5))
  | None, _, _ => Err TypeError
  | Some p1, None, Some p5 => Ok (inl (P1, Some (- p1 * N + p5 * N + p5), P5))
  | Some _, None, None => Err TypeError
  | Some p1, Some p2, None => r <- pdiv (p1 * N + p2) (N + 1) ;; Ok (inl (P1, P2, Some r))
  | Some p1, Some p2, Some p5 => r <- pdiv (p5 - p2) (p1 - p5) ;; Ok (inr (N - r))
  end.

(** The seven variables of [liquid_jet_pump] (line 417), in the order of [solution_vars] *)
Inductive var := Dnozzle | Dmixing | VQp | VQs | VP1 | VP2 | VP5.
Definition solution_vars := [Dnozzle; Dmixing; VQp; VQs; VP1; VP2; VP5].
Definition var_eqb (a b : var) : bool :=
  match a, b with
  | Dnozzle, Dnozzle | Dmixing, Dmixing | VQp, VQp | VQs, VQs | VP1, VP1 | VP2, VP2 | VP5, VP5 => true
  | _, _ => false
  end.
Definition put (vals : var -> R) (v : var) (x : R) : var -> R := fun w => if var_eqb w v then x else vals w.

(** The dictionary returned: the variables, the diffuser diameter and the derived numbers *)
Record solution := { vals : var -> R; diffuser : R; sol_N : R; sol_M : R; sol_R : R; sol_alpha : R; efficiency : R }.

(** fluids/jet_pump.py:491-547 [obj_err]: the two errors, and the dictionary it leaves *)
Definition obj_err (rhop rhos Kp Ks Km Kd : R) (nozzle_retracted : bool) (d_diffuser : R) (given : var -> R) (u0 u1 : var) (x : R * R)
  : result (R * R * solution) :=
  let v := put (put given u0 (Rabs (fst x))) u1 (Rabs (snd x)) in
  C <- pdiv rhos rhop ;;
  let A_nozzle := PI / 4 * v Dnozzle ^ 2 in
  alpha <- pdiv (v Dmixing ^ 2) (d_diffuser ^ 2) ;;
  R_ <- pdiv (v Dnozzle ^ 2) (v Dmixing ^ 2) ;;
  M <- pdiv (v VQs) (v VQp) ;;
  N0 <- jet_pressure_ratio rhop rhos Km Kd Ks Kp (v Dnozzle) (v Dmixing) d_diffuser (v VQp) (v VQs) nozzle_retracted ;;
  q <- pdiv (v VP5 - v VP2) (v VP1 - v VP5) ;;
  let err1 := N0 - q in
  vel <- pdiv (v VQp) A_nozzle ;;
  y <- pdiv (M * R_) (1 - R_) ;;
  let rhs := rhop / 2 * vel ^ 2 * ((1 + Kp) - C * (1 + Ks) * y ^ 2) in
  let err2 := rhs - (v VP1 - v VP2) in
  N <- pdiv (v VP5 - v VP2) (v VP1 - v VP5) ;;
  let eff := M * N in
  let push e := if Rltb eff 0 then (if Rltb e 0 then e - Rabs eff else e + Rabs eff) else e in
  Ok (push err1, push err2, {| vals := v; diffuser := d_diffuser; sol_N := N; sol_M := M; sol_R := R_; sol_alpha := alpha; efficiency := eff |}).

(** fluids/jet_pump.py:569-579 [solve_with_newton]; [newton f x0] stands for the solver call (lines 570-571) *)
Definition solve_with_newton (newton : (R * R -> result (R * R)) -> R * R -> result (R * R)) (f : R * R -> result (R * R * solution)) (x0 : R * R) : result solution :=
  x <- newton (fun x => '(e1, e2, _) <- f x ;; Ok (e1, e2)) x0 ;;
  '(e1, e2, s) <- f x ;;
  if Rltb (1 / 100000) (Rabs e1 + Rabs e2) then Err ValueError else Ok s.

(** fluids/jet_pump.py:581-609: the first start, then the variations; any exception goes on to the next *)
Fixpoint try_starts (newton : (R * R -> result (R * R)) -> R * R -> result (R * R)) (f : R * R -> result (R * R * solution)) (starts : list (R * R)) : result solution :=
  match starts with
  | [] => Err ValueError
  | x0 :: rest => match solve_with_newton newton f x0 with Ok s => Ok s | Err _ => try_starts newton f rest end
  end.

(** fluids/jet_pump.py:416-609 [liquid_jet_pump].  The starting values (lines 431-472) and the random factors (lines 586-608) only
    decide where the solver starts; [starts] is any list of starting points.  Lines 481-487: diffuser diameter left out.  Simplified: a nan
    from the nozzle equation is returned at once ([None]), although with equal diameters line 217 would still raise. *)
Definition liquid_jet_pump (brenth : (R -> result R) -> R -> R -> result R) (secant : (R -> result R) -> R -> result R)
  (newton : (R * R -> result (R * R)) -> R * R -> result (R * R)) (starts : list (R * R))
  (rhop rhos Kp Ks Km Kd : R) (args : var -> option R) (d_diffuser : option R) (nozzle_retracted : bool) : result (option solution) :=
  let given := fun v => match args v with Some x => x | None => 0 end in
  match filter (fun v => match args v with None => true | Some _ => false end) solution_vars with
  | [u0; u1] =>
      C <- pdiv rhos rhop ;;
      let dd := match d_diffuser with
                | Some d => d
                | None => match args Dmixing with Some d => d * 1000 | None => match args Dnozzle with Some d => d * 1000 | None => 1000 end end
                end in
      let f := obj_err rhop rhos Kp Ks Km Kd nozzle_retracted dd given u0 u1 in
      if var_eqb u1 VP5 then
        a <- liquid_jet_pump_ancillary brenth secant rhop rhos Kp Ks (args Dnozzle) (args Dmixing) (args VQp) (args VQs) (args VP1) (args VP2) ;;
        match a with
        | None => Ok None
        | Some a =>
          let v := put given u0 a in
          N <- jet_pressure_ratio rhop rhos Km Kd Ks Kp (v Dnozzle) (v Dmixing) dd (v VQp) (v VQs) nozzle_retracted ;;
          p5 <- pdiv (v VP1 * N + v VP2) (N + 1) ;;
          '(_, _, s) <- f (a, p5) ;;
          Ok (Some s)
        end
      else s <- try_starts newton f starts ;; Ok (Some s)
  | _ => Err ValueError
  end.
