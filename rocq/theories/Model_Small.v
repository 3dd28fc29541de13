(** Plate exchangers, pump estimates, erosional velocity, degree days, drilled cylinders.
    Generated by tools/pytrans.py from /repo/fluids, function by function: floats are exact reals,
    a division, root, logarithm or power that Python refuses is an [Err]; float rounding and overflow
    are not represented.  Module constants are inlined with their exact rational value. *)
From Coq Require Import Reals String List Bool.
From Verif Require Import Base Model_Real.
Import ListNotations.
Open Scope R_scope.

(** fluids/friction.py:3483-3495 [friction_plate_Martin_1999]. *)
Definition friction_plate_Martin_1999 (Re : R) (chevron_angle : R) : result R :=
  let phi := (radians chevron_angle) in
  '(f0, f1) <- (if (Rltb Re 2000) then f0 <- pdiv 16 Re ;;
  t2 <- pdiv 149 Re ;;
  let f1 := (t2 + 0.9625) in
  Ok (f0, f1)
  else t3 <- plog Re ;;
  f0 <- pdiv 1 (((1.56 * t3) - 3) ^ 2) ;;
  t5 <- ppow Re (- 0.289) ;;
  let f1 := (9.75 * t5) in
  Ok (f0, f1)) ;;
  t6 <- pdiv f0 (cos phi) ;;
  t7 <- psqrt (((0.045 * (tan phi)) + (0.09 * (sin phi))) + t6) ;;
  rhs <- pdiv ((cos phi) * 1) t7 ;;
  t9 <- psqrt (3.8 * f1) ;;
  t10 <- pdiv ((1 - (cos phi)) * 1) t9 ;;
  let rhs := (rhs + t10) in
  ff <- pdiv 1 (rhs ^ 2) ;;
  Ok (ff * 4).

(** fluids/friction.py:3568-3581 [friction_plate_Martin_VDI]. *)
Definition friction_plate_Martin_VDI (Re : R) (chevron_angle : R) : result R :=
  let phi := (radians chevron_angle) in
  '(f0, f1) <- (if (Rltb Re 2000) then f0 <- pdiv 64 Re ;;
  t2 <- pdiv 597 Re ;;
  let f1 := (t2 + 3.85) in
  Ok (f0, f1)
  else t3 <- plog10 Re ;;
  f0 <- pdiv 1 (((1.8 * t3) - 1.5) ^ 2) ;;
  t5 <- ppow Re (- 0.289) ;;
  let f1 := (39 * t5) in
  Ok (f0, f1)) ;;
  let a := 3.8 in
  let b := 0.18 in
  let c := 0.36 in
  t6 <- pdiv f0 (cos phi) ;;
  t7 <- psqrt (((b * (tan phi)) + (c * (sin phi))) + t6) ;;
  rhs <- pdiv ((cos phi) * 1) t7 ;;
  t9 <- psqrt (a * f1) ;;
  t10 <- pdiv ((1 - (cos phi)) * 1) t9 ;;
  let rhs := (rhs + t10) in
  pdiv 1 (rhs ^ 2).

(** fluids/friction.py:3751-3758 [friction_plate_Muley_Manglik]. *)
Definition friction_plate_Muley_Manglik (Re : R) (chevron_angle : R) (plate_enlargement_factor : R) : result R :=
  let beta := chevron_angle in
  let phi := plate_enlargement_factor in
  let t1 := ((2.917 - (0.1277 * beta)) + (0.002016 * (beta ^ 2))) in
  let t2 := (((5.474 - (19.02 * phi)) + (18.93 * (phi ^ 2))) - (5.341 * (phi ^ 3))) in
  let t3 := (- (0.2 + (0.0577 * (sin (((PI * beta) / 45) + 2.1))))) in
  t4 <- ppow Re t3 ;;
  Ok (((4 * t1) * t2) * t4).

(** fluids/pump.py:144-146 [Corripio_pump_efficiency]. *)
Definition Corripio_pump_efficiency (Q_ : R) : result R :=
  let Q_ := (Q_ * 15850.323) in
  logQ <- plog Q_ ;;
  Ok (((- 0.316) + (0.24015 * logQ)) - ((0.01199 * logQ) * logQ)).

(** fluids/pump.py:184-186 [Corripio_motor_efficiency]. *)
Definition Corripio_motor_efficiency (P_ : R) : result R :=
  let P_ := (P_ / 745.69987) in
  logP <- plog P_ ;;
  Ok ((0.8 + (0.0319 * logP)) - ((0.00182 * logP) * logP)).

(** fluids/pump.py:535-535 [specific_speed]. *)
Definition specific_speed (Q_ : R) (H : R) (n : R) : result R :=
  t1 <- psqrt Q_ ;;
  t2 <- ppow H 0.75 ;;
  pdiv (n * t1) t2.

(** fluids/pump.py:573-573 [specific_diameter]. *)
Definition specific_diameter (Q_ : R) (H : R) (D_ : R) : result R :=
  t1 <- psqrt H ;;
  t2 <- pdiv t1 Q_ ;;
  t3 <- psqrt t2 ;;
  Ok (D_ * t3).

(** fluids/pump.py:661-666 [current_ideal]. *)
Definition current_ideal (P_ : R) (V : R) (phase : R) (PF : R) : result R :=
  if (negb ((Reqb phase 1) || (Reqb phase 3))%bool) then Err ValueError
  else if (Reqb phase 3) then t1 <- psqrt 3 ;;
  pdiv P_ ((V * t1) * PF)
  else pdiv P_ (V * PF).

(** fluids/piping.py:1109-1112 [erosional_velocity]. *)
Definition erosional_velocity (rho : R) (C_ : R) : result R :=
  let rho_lb_ft3 := (rho / (0.45359237 / (0.3048 ^ 3))) in
  t1 <- psqrt rho_lb_ft3 ;;
  v_ft_s <- pdiv C_ t1 ;;
  let v := (v_ft_s * 0.3048) in
  Ok v.

(** fluids/friction.py:3583-3604: the data of [friction_plate_Kumar] *)
Definition Kumar_beta_list : list R := [30; 45; 50; 60; 65].
Definition Kumar_fd_Res : list (list R) := [[10; 100]; [15; 300]; [20; 300]; [40; 400]; [50; 500]].
Definition Kumar_C2s : list (list R) := [[50; 19.4; 2.99]; [47; 18.29; 1.441]; [34; 11.25; 0.772]; [24; 3.24; 0.76]; [24; 2.8; 0.639]].
Definition Kumar_Ps : list (list R) := [[1; 0.589; 0.183]; [1; 0.652; 0.206]; [1; 0.631; 0.161]; [1; 0.457; 0.215]; [1; 0.451; 0.213]].

(** fluids/friction.py:3672-3679, 3681-3688: the loops look for the first limit not below [x]; past the last limit the entry [dflt]
    (index -1) is used *)
Fixpoint first_limit {A} (x : R) (limits : list R) (vals : list A) (dflt : A) : A :=
  match limits, vals with
  | l :: ls, v :: vs => if Rleb x l then v else first_limit x ls vs dflt
  | _, _ => dflt
  end.
(** fluids/friction.py:3672-3691 [friction_plate_Kumar] *)
Definition friction_plate_Kumar (Re chevron_angle : R) : result R :=
  let C2_options := first_limit chevron_angle Kumar_beta_list Kumar_C2s (last Kumar_C2s []) in
  let p_options := first_limit chevron_angle Kumar_beta_list Kumar_Ps (last Kumar_Ps []) in
  let Re_ranges := first_limit chevron_angle Kumar_beta_list Kumar_fd_Res (last Kumar_fd_Res []) in
  let C2 := first_limit Re Re_ranges C2_options (last C2_options 0) in
  let p := first_limit Re Re_ranges p_options (last p_options 0) in
  t <- ppow Re (- p) ;;
  Ok (4 * C2 * t).

(** fluids/design_climate.py:238-241 [heating_degree_days] *)
Definition heating_degree_days (T T_base : R) (truncate : bool) : R :=
  let dd := T - T_base in if truncate && Rltb dd 0 then 0 else dd.
(** fluids/design_climate.py:292-295 [cooling_degree_days] *)
Definition cooling_degree_days (T T_base : R) (truncate : bool) : R :=
  let dd := T_base - T in if truncate && Rltb dd 0 then 0 else dd.

(** fluids/geometry.py:5475-5482 [A_multiple_hole_cylinder]; holes are (diameter, number) *)
Definition A_multiple_hole_cylinder (Do L : R) (holes : list (R * nat)) : R :=
  let side_o := PI * Do * L in
  let cap_circle := PI * Do ^ 2 / 4 * 2 in
  fold_left (fun A '(Di, n) => let side_i := PI * Di * L in let cap_removed := PI * Di ^ 2 / 4 * 2 in A + side_i * INR n - cap_removed * INR n) holes (cap_circle + side_o).
(** fluids/geometry.py:5513-5516 [V_multiple_hole_cylinder] *)
Definition V_multiple_hole_cylinder (Do L : R) (holes : list (R * nat)) : R :=
  fold_left (fun V '(Di, n) => V - PI * Di * Di / 4 * L * INR n) holes (PI * Do ^ 2 / 4 * L).

(** fluids/geometry.py:1831-1839 [circle_segment_area_inner] *)
Definition circle_segment_area_inner (h R_ A_expect : R) : result (R * R) :=
  let x0 := R_ * R_ in
  let x1 := - h in
  let x2 := R_ + x1 in
  x3 <- psqrt (h * (2 * R_ + x1)) ;;
  let x4 := x2 * x2 in
  t1 <- pdiv x2 R_ ;;
  t2 <- pacos t1 ;;
  let A_err := x0 * t2 - x2 * x3 - A_expect in
  t3 <- pdiv x4 x0 ;;
  t4 <- psqrt (1 - t3) ;;
  t5 <- pdiv R_ t4 ;;
  t6 <- pdiv x4 x3 ;;
  Ok (A_err, t5 + x3 - t6).
(** fluids/geometry.py:1876-1880 [circle_segment_h_from_A]; [newton f x0 low high] stands for the call of the solver with derivative and
    bisection *)
Definition circle_segment_h_from_A (newton : (R -> result (R * R)) -> R -> R -> R -> result R) (A D : R) : result R :=
  if Reqb A 0 then Ok 0
  else let R_ := 0.5 * D in newton (fun h => circle_segment_area_inner h R_ A) (0.25 * R_) 0 R_.

