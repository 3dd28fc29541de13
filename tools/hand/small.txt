(** fluids/friction.py:3583-3604: the data of [friction_plate_Kumar] *)
Definition Kumar_beta_list : list R := [30; 45; 50; 60; 65].
Definition Kumar_fd_Res : list (list R) := [[10; 100]; [15; 300]; [20; 300]; [40; 400]; [50; 500]].
Definition Kumar_C2s : list (list R) := [[50; 19.4; 2.99]; [47; 18.29; 1.441]; [34; 11.25; 0.772]; [24; 3.24; 0.76]; [24; 2.8; 0.639]].
Definition Kumar_Ps : list (list R) := [[1; 0.589; 0.183]; [1; 0.652; 0.206]; [1; 0.631; 0.161]; [1; 0.457; 0.215]; [1; 0.451; 0.213]].

(** fluids/friction.py:3672-3679, 3681-3688: the loops look for the first limit not below [x]; past the last limit the entry [dflt]
    (index -1) is used *)
Fixpoint first_limit {A} (x : R) (limits : list R) (vals : list A) (dflt : A) : A :=
  match limits, vals with
  | l :: ls, v :: vs => if Rleb x l then v else first_limit x ls vs dflt
  | _, _ => dflt
  end.
(** fluids/friction.py:3672-3691 [friction_plate_Kumar] *)
Definition friction_plate_Kumar (Re chevron_angle : R) : result R :=
  let C2_options := first_limit chevron_angle Kumar_beta_list Kumar_C2s (last Kumar_C2s []) in
  let p_options := first_limit chevron_angle Kumar_beta_list Kumar_Ps (last Kumar_Ps []) in
  let Re_ranges := first_limit chevron_angle Kumar_beta_list Kumar_fd_Res (last Kumar_fd_Res []) in
  let C2 := first_limit Re Re_ranges C2_options (last C2_options 0) in
  let p := first_limit Re Re_ranges p_options (last p_options 0) in
  t <- ppow Re (- p) ;;
  Ok (4 * C2 * t).

(** fluids/design_climate.py:238-241 [heating_degree_days] *)
Definition heating_degree_days (T T_base : R) (truncate : bool) : R :=
  let dd := T - T_base in if truncate && Rltb dd 0 then 0 else dd.
(** fluids/design_climate.py:292-295 [cooling_degree_days] *)
Definition cooling_degree_days (T T_base : R) (truncate : bool) : R :=
  let dd := T_base - T in if truncate && Rltb dd 0 then 0 else dd.

(** fluids/geometry.py:5475-5482 [A_multiple_hole_cylinder]; holes are (diameter, number) *)
Definition A_multiple_hole_cylinder (Do L : R) (holes : list (R * nat)) : R :=
  let side_o := PI * Do * L in
  let cap_circle := PI * Do ^ 2 / 4 * 2 in
  fold_left (fun A '(Di, n) => let side_i := PI * Di * L in let cap_removed := PI * Di ^ 2 / 4 * 2 in A + side_i * INR n - cap_removed * INR n) holes (cap_circle + side_o).
(** fluids/geometry.py:5513-5516 [V_multiple_hole_cylinder] *)
Definition V_multiple_hole_cylinder (Do L : R) (holes : list (R * nat)) : R :=
  fold_left (fun V '(Di, n) => V - PI * Di * Di / 4 * L * INR n) holes (PI * Do ^ 2 / 4 * L).

(** fluids/geometry.py:1831-1839 [circle_segment_area_inner] *)
Definition circle_segment_area_inner (h R_ A_expect : R) : result (R * R) :=
  let x0 := R_ * R_ in
  let x1 := - h in
  let x2 := R_ + x1 in
  x3 <- psqrt (h * (2 * R_ + x1)) ;;
  let x4 := x2 * x2 in
  t1 <- pdiv x2 R_ ;;
  t2 <- pacos t1 ;;
  let A_err := x0 * t2 - x2 * x3 - A_expect in
  t3 <- pdiv x4 x0 ;;
  t4 <- psqrt (1 - t3) ;;
  t5 <- pdiv R_ t4 ;;
  t6 <- pdiv x4 x3 ;;
  Ok (A_err, t5 + x3 - t6).
(** fluids/geometry.py:1876-1880 [circle_segment_h_from_A]; [newton f x0 low high] stands for the call of the solver with derivative and
    bisection *)
Definition circle_segment_h_from_A (newton : (R -> result (R * R)) -> R -> R -> R -> result R) (A D : R) : result R :=
  if Reqb A 0 then Ok 0
  else let R_ := 0.5 * D in newton (fun h => circle_segment_area_inner h R_ A) (0.25 * R_) 0 R_.
