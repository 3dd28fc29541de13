(** The class TANK of fluids/geometry.py: constructor, solving for a volume, level from volume, added thickness. *)
From Coq Require Import Reals String List Bool.
From Verif Require Import Base Model_Real Model_Geometry.
Open Scope R_scope.

(** what describes one end: kind of head, its depth [a], depth over diameter, dish and knuckle factor *)
Record side := mk_side { s_kind : option string; s_a : option R; s_ratio : option R; s_f : option R; s_k : option R }.
Definition opt_default (o : option R) (d : R) : option R := match o with None => Some d | o => o end.
(** fluids/geometry.py:3385-3401 (side B: 3403-3419): the defaults of one end *)
Definition side_defaults (s : side) : side :=
  let a := match s_kind s, s_a s with None, None => Some 0 | _, a => a end in
  let ratio := match a, s_ratio s, s_kind s with None, None, Some kind => if String.eqb kind "torispherical" then None else Some 0.25 | _, r, _ => r end in
  let tori := match a with None => is_kind (s_kind s) "torispherical" | Some _ => false end in
  let f := if tori then opt_default (s_f s) 1 else s_f s in
  let k := if tori then opt_default (s_k s) 0.06 else s_k s in
  mk_side (s_kind s) a ratio f k.
(** fluids/geometry.py:3376-3383: an end may be the same as the other *)
Definition same_sides (A B : side) : result (side * side) :=
  match is_kind (s_kind A) "same", is_kind (s_kind B) "same" with
  | true, false => Ok (B, B)
  | false, true => Ok (A, A)
  | true, true => Err ValueError
  | false, false => Ok (A, B)
  end.
(** fluids/geometry.py:3464-3484: the depth of one end and its ratio once the diameter is known *)
Definition head_by_ratio (kind : option string) : bool := is_kind kind "conical" || is_kind kind "ellipsoidal" || is_kind kind "guppy" || is_kind kind "spherical".
Definition side_sized (D : R) (s : side) : result side :=
  a <- (match s_a s with
    | None => if head_by_ratio (s_kind s) then match s_ratio s with Some r => Ok (Some (D * r)) | None => Err TypeError end else Ok None
    | a => Ok a end) ;;
  a <- (if is_kind (s_kind s) "torispherical" then match s_f s, s_k s with Some f, Some k => a <- a_torispherical D f k ;; Ok (Some a) | _, _ => Ok a end else Ok a) ;;
  ratio <- (match a, s_ratio s with
    | Some a, None => r <- pdiv a D ;; Ok (Some r)
    | Some a, Some r => if negb (Reqb a (D * r)) then r <- pdiv a D ;; Ok (Some r) else Ok (Some r)
    | None, r => Ok r end) ;;
  Ok (mk_side (s_kind s) a ratio (s_f s) (s_k s)).
(** fluids/geometry.py:3449-3457: diameter, length and their ratio from two of them; too little ends in an arithmetic operation on None *)
Definition tank_sizes (D L L_over_D : option R) : result (R * R * R) :=
  match D, L, L_over_D with
  | Some D, Some L, _ => r <- pdiv L D ;; Ok (D, L, r)
  | Some D, None, Some r => Ok (D, D * r, r)
  | None, Some L, Some r => D <- pdiv L r ;; Ok (D, L, r)
  | _, _, _ => Err TypeError
  end.
(** the attributes of a tank *)
Record tank := mk_tank { t_D : R; t_L : R; t_L_over_D : R; t_horizontal : bool; t_A : side; t_B : side; t_h_max : R;
  t_V_total : R; t_V_sideA : R; t_V_sideB : R; t_V_lateral : R; t_area : R; t_A_sideA : R; t_A_sideB : R; t_A_lateral : R; t_A_sideA_extra : R; t_A_sideB_extra : R }.
Definition depth (s : side) : R := match s_a s with Some a => a | None => 0 end.
(** fluids/geometry.py:3435-3516 [TANK.set_misc]; a head of unknown kind has no depth, V_tank refuses it *)
Definition set_misc (quad : (R -> R) -> R -> R -> R) (D L L_over_D : option R) (horizontal : bool) (A B : side) : result tank :=
  '(D, L, r) <- tank_sizes D L L_over_D ;;
  A <- side_sized D A ;;
  B <- side_sized D B ;;
  let h_max := if horizontal then 0 + D else 0 + L + depth A + depth B in
  '(V, VA, VB, VL) <- V_tank quad D L horizontal (s_kind A) (s_kind B) (depth A) (depth B) (s_f A) (s_k A) (s_f B) (s_k B) ;;
  '(SA, SAA, SAB, SAL) <- SA_tank D L (s_kind A) (s_kind B) (depth A) (depth B) (s_f A) (s_k A) (s_f B) (s_k B) ;;
  let plate := 0.25 * PI * D * D in
  Ok (mk_tank D L r horizontal A B h_max V VA VB VL SA SAA SAB SAL (SAA - plate) (SAB - plate)).
(** a number is true in Python when given and not 0 *)
Definition truthy (o : option R) : bool := match o with Some x => negb (Reqb x 0) | None => false end.
(** fluids/geometry.py:3858-3874 [TANK._V_solver_error]: a tank is built without a volume *)
Definition V_solver_error (quad : (R -> R) -> R -> R -> R) (V D L : R) (horizontal : bool) (A B : side) : result R :=
  t <- set_misc quad (Some D) (Some L) None horizontal (side_defaults A) (side_defaults B) ;;
  Ok (V - t_V_total t).
(** fluids/geometry.py:3877-3917 [TANK._solve_tank_for_V]; [secant f x0] stands for the call of the solver; returns the diameter and length found *)
Definition solve_tank_for_V (quad : (R -> R) -> R -> R -> R) (secant : (R -> result R) -> R -> result R) (V : R) (D L L_over_D : option R) (horizontal : bool) (A B : side) : result (option R * option R) :=
  if truthy L && (truthy (s_a A) || truthy (s_a B)) then Err ValueError
  else if (truthy D && truthy L) || (truthy D && truthy L_over_D) || (truthy L && truthy L_over_D) then Err ValueError
  else
  let missing s := match s_kind s, s_ratio s, s_a s with Some kind, None, None => negb (String.eqb kind "torispherical") | _, _, _ => false end in
  if missing A || missing B then Err ValueError
  else
  if truthy D then
    match D with None => Err TypeError | Some D =>
    guess <- pdiv V (PI / 4 * D ^ 2) ;; L <- secant (fun L => V_solver_error quad V D L horizontal A B) guess ;; Ok (Some D, Some L) end
  else if truthy L then
    match L with None => Err TypeError | Some L =>
    t <- pdiv (4 * V / PI) L ;; guess <- psqrt t ;; D <- secant (fun D => V_solver_error quad V D L horizontal A B) guess ;; Ok (Some D, Some L) end
  else
    match L_over_D with None => Err TypeError | Some r =>
    guess <- ppow (4 * V * r ^ 2 / PI) (1 / 3) ;; L <- secant (fun L => D <- pdiv L r ;; V_solver_error quad V D L horizontal A B) guess ;; D <- pdiv L r ;; Ok (Some D, Some L) end.
(** fluids/geometry.py:3366-3433 [TANK.__init__] *)
Definition TANK (quad : (R -> R) -> R -> R -> R) (secant : (R -> result R) -> R -> result R) (D L : option R) (horizontal : bool) (A B : side) (L_over_D V : option R) : result tank :=
  '(A, B) <- same_sides A B ;;
  let A := side_defaults A in
  let B := side_defaults B in
  '(D, L) <- (if truthy V then match V with Some V => solve_tank_for_V quad secant V D L L_over_D horizontal A B | None => Ok (D, L) end else Ok (D, L)) ;;
  set_misc quad D L L_over_D horizontal A B.
(** fluids/geometry.py:3692-3717 [TANK.V_from_h], method "full" *)
Definition tank_V_from_h (quad : (R -> R) -> R -> R -> R) (t : tank) (h : R) : result R :=
  V_from_h quad h (t_D t) (t_L t) (t_horizontal t) (s_kind (t_A t)) (s_kind (t_B t)) (depth (t_A t)) (depth (t_B t)) (s_f (t_A t)) (s_k (t_A t)) (s_f (t_B t)) (s_k (t_B t)).
(** fluids/geometry.py:3757-3759 [TANK.h_from_V], method "brenth"; [solve f x0 low high] stands for the bounded solver *)
Definition tank_h_from_V (quad : (R -> R) -> R -> R -> R) (solve : (R -> result R) -> R -> R -> R -> result R) (t : tank) (V : R) : result R :=
  solve (fun h => v <- tank_V_from_h quad t h ;; Ok (v - V)) (0.5 * t_h_max t) 0 (t_h_max t).
(** fluids/geometry.py:3607-3663 [TANK.add_thickness]: the arguments of the new tank (ratios, volume and L_over_D are not handed over) *)
Definition thicker (t : tank) (thickness : R) (sideA sideB : option R) : R * R * side * side :=
  let tA := match sideA with Some x => x | None => thickness end in
  let tB := match sideB with Some x => x | None => thickness end in
  let grown s x := mk_side (s_kind s) (if is_kind (s_kind s) "torispherical" then None else match s_a s with Some a => Some (a + x) | None => None end) None (s_f s) (s_k s) in
  (t_D t + 2 * thickness, t_L t + (tA + tB), grown (t_A t) tA, grown (t_B t) tB).
Definition add_thickness (quad : (R -> R) -> R -> R -> R) (secant : (R -> result R) -> R -> result R) (t : tank) (thickness : R) (sideA sideB : option R) : result tank :=
  let '(D, L, A, B) := thicker t thickness sideA sideB in
  TANK quad secant (Some D) (Some L) (t_horizontal t) A B None None.
