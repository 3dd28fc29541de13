(** The U.S. Standard Atmosphere 1976 and the air mass integral (fluids/atmosphere.py), over the reals.
    Hand-written: the class is a record of the attributes its constructor sets.
    Not modelled: NRLMSISE-00, the sun position, radiation and wind functions of the same file. *)
From Coq Require Import Reals List ZArith Bool QArith Qreals.
From Verif Require Import Base Model_Real.
Import ListNotations.
Open Scope R_scope.

(** fluids/atmosphere.py:67-72 [H_std], [T_grad], [T_std], [P_std]. *)
Definition H_std : list R := [0; 11000; 20000; 32000; 47000; 51000; 71000; 84852].
Definition T_grad : list R := [- 0.0065; 0; 0.001; 0.0028; 0; - 0.0028; - 0.002; 0].
Definition T_std : list R := [288.15; 216.65; 216.65; 228.65; 270.65; 270.65; 214.65; 186.946].
Definition P_std : list R :=
  [101325; 22632.06397346291; 5474.8886696777745; 868.0186847552279; 110.90630555496608; 66.93887311868738;
   3.956420428040732; 0.3733835899762159].
(** fluids/atmosphere.py:74-77 [r0], [M0], [g0]; line 161 [R]. *)
Definition r0 : R := 6356766.
Definition M0 : R := 28.9644.
Definition g0 : R := 9.80665.
Definition R_gas : R := 8314.32.

(** fluids/atmosphere.py:185-188: the loop over [enumerate(H_std)] from index [ind] on; 7 after the last. *)
Fixpoint first_base (H : R) (l : list R) (ind : Z) : Z :=
  match l with
  | [] => 7
  | Hi :: t => if Rleb H Hi then (ind - 1)%Z else first_base H t (ind + 1)%Z
  end.
(** fluids/atmosphere.py:178-188 [_get_ind_from_H]. *)
Definition get_ind_from_H (H : R) : Z := if Rleb H 0 then 0%Z else first_base H H_std 0%Z.
(** list indexing with a Python integer: negative indices count from the end *)
Definition pyidx {A} (l : list A) (i : Z) : result A :=
  let n := Z.of_nat (List.length l) in
  if (i <? - n)%Z then Err IndexError
  else if (i <? 0)%Z then idx l (Z.to_nat (i + n)) else idx l (Z.to_nat i).

(** fluids/atmosphere.py:190-210 [thermal_conductivity]. *)
Definition thermal_conductivity (T : R) : result R :=
  s <- psqrt T ;;
  q <- pdiv (- 27.63102111592855) T ;;
  pdiv (0.00264638 * T * s) (T + 245.4 * exp q).
(** fluids/atmosphere.py:212-230 [viscosity]. *)
Definition viscosity (T : R) : result R :=
  s <- psqrt T ;;
  pdiv (0.000001458 * T * s) (T + 110.4).
(** fluids/atmosphere.py:232-254 [density]. *)
Definition density (T P : R) : result R := pdiv (P * 0.00348367635597379) T.
(** fluids/atmosphere.py:256-275 [sonic_velocity]. *)
Definition sonic_velocity (T : R) : result R := psqrt (401.87430086589046 * T).
(** fluids/atmosphere.py:277-297 [gravity]. *)
Definition gravity (Z : R) : result R := x0 <- pdiv r0 (r0 + Z) ;; Ok (g0 * x0 * x0).

(** The attributes of an [ATMOSPHERE_1976] object set by lines 147-175. *)
Record atmosphere := {
  a_Z : R; a_dT : R; a_H : R; a_T_layer : R; a_T_increase : R; a_P_layer : R; a_H_layer : R;
  a_H_above_layer : R; a_T : R; a_P : R; a_rho : R; a_v_sonic : R; a_mu : R; a_k : R; a_g : R }.

(** fluids/atmosphere.py:147-175 [ATMOSPHERE_1976.__init__].
    The exponential of line 163 is that of the reals (its argument is never positive for the layers in which
    the temperature is constant, so it cannot overflow). *)
Definition ATMOSPHERE_1976 (Z dT : R) : result atmosphere :=
  H <- pdiv (r0 * Z) (r0 + Z) ;;
  let i := get_ind_from_H H in
  T_layer <- pyidx T_std i ;;
  T_increase <- pyidx T_grad i ;;
  P_layer <- pyidx P_std i ;;
  H_layer <- pyidx H_std i ;;
  let H_above_layer := H - H_layer in
  let T := T_layer + T_increase * H_above_layer in
  P <- (if Reqb T_increase 0
        then (q <- pdiv (- g0 * M0 * H_above_layer) (R_gas * T_layer) ;; Ok (P_layer * exp q))
        else (b <- pdiv T_layer T ;; e <- pdiv (g0 * M0) (R_gas * T_increase) ;;
              w <- ppow b e ;; Ok (P_layer * w))) ;;
  let T := T + dT in
  rho <- density T P ;;
  v_sonic <- sonic_velocity T ;;
  mu <- viscosity T ;;
  k <- thermal_conductivity T ;;
  g <- gravity Z ;;
  Ok {| a_Z := Z; a_dT := dT; a_H := H; a_T_layer := T_layer; a_T_increase := T_increase; a_P_layer := P_layer;
        a_H_layer := H_layer; a_H_above_layer := H_above_layer; a_T := T; a_P := P; a_rho := rho;
        a_v_sonic := v_sonic; a_mu := mu; a_k := k; a_g := g |}.

(** fluids/atmosphere.py:80-81 [H_for_P_ATMOSPHERE_1976_err]. *)
Definition H_for_P_ATMOSPHERE_1976_err (P1 H : R) : result R := a <- ATMOSPHERE_1976 H 0 ;; Ok (a_P a - P1).
(** fluids/atmosphere.py:83-85 [to_int_dP_ATMOSPHERE_1976]. *)
Definition to_int_dP_ATMOSPHERE_1976 (dT Z : R) : result R := a <- ATMOSPHERE_1976 Z dT ;; Ok (a_g a * a_rho a).
(** fluids/atmosphere.py:299-331 [pressure_integral].  [sec f] stands for the call of [secant] with residual
    [f] (starting point, bounds and the bisection option are fixed in the code), [quad f a b] for the first
    component of the answer of scipy's [quad]; both may propagate an exception of [f]. *)
Definition pressure_integral (sec : (R -> result R) -> result R) (quad : (R -> result R) -> R -> R -> result R)
    (T1 P1 dH : R) : result R :=
  H_ref <- sec (H_for_P_ATMOSPHERE_1976_err P1) ;;
  a <- ATMOSPHERE_1976 H_ref 0 ;;
  let dT := T1 - a_T a in
  quad (to_int_dP_ATMOSPHERE_1976 dT) H_ref (H_ref + dH).

(** fluids/atmosphere.py:514-520 [to_int_airmass]. *)
Definition to_int_airmass (c1 c2 angle_term R_planet_inv : R) (func : R -> result R) (Z : R) : result R :=
  rho <- func Z ;;
  let t1 := c2 - rho * c1 in
  x0 <- pdiv angle_term (1 + Z * R_planet_inv) ;;
  let t2 := x0 * x0 in
  s <- psqrt (1 - t1 * t2) ;;
  t3 <- pdiv 1 s ;;
  Ok (rho * t3).
(** fluids/atmosphere.py:522-580 [airmass]; [func] may raise, [quad] as above. *)
Definition airmass (quad : (R -> result R) -> R -> R -> result R) (func : R -> result R)
    (angle H_max R_planet RI : R) : result R :=
  let delta0 := RI - 1 in
  f0 <- func 0 ;;
  rho0_inv <- pdiv 1 f0 ;;
  let angle_term := cos (radians angle) in
  R_planet_inv <- pdiv 1 R_planet ;;
  let c0 := delta0 + delta0 in
  let c1 := c0 * rho0_inv in
  let c2 := 1 + c0 in
  quad (to_int_airmass c1 c2 angle_term R_planet_inv func) 0 H_max.
