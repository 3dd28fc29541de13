(** Irrigated packing, fluids/packed_tower.py.  The root finder is a parameter. *)
From Coq Require Import Reals List Bool.
From Verif Require Import Base Model_Real Model_Equipment.
Open Scope R_scope.

(** fluids/packed_tower.py:565-575 [Stichlmair_wet]; [secant f x0] is numerics.secant. *)
Definition Stichlmair_wet (secant : (R -> result R) -> R -> result R) (Vg Vl rhog rhol mug voidage specific_area C1 C2 C3 H : R) : result R :=
  dp <- pdiv (6 * (1 - voidage)) specific_area ;;
  Re <- pdiv (Vg * rhog * dp) mug ;;
  t1 <- pdiv C1 Re ;;
  t2 <- psqrt Re ;;
  t3 <- pdiv C2 t2 ;;
  let f0 := t1 + t3 + C3 in
  t4 <- ppow voidage 4.65 ;;
  t5 <- pdiv (3 / 4 * f0 * (1 - voidage)) t4 ;;
  t6 <- pdiv (t5 * rhog * H) dp ;;
  let dP_dry := t6 * Vg * Vg in
  t7 <- pdiv (- C1) Re ;;
  t8 <- pdiv C2 (2 * t2) ;;
  c <- pdiv (t7 - t8) f0 ;;
  Frl <- pdiv (Vl ^ 2 * specific_area) (9.80665 * t4) ;;
  t9 <- ppow Frl (1 / 3) ;;
  let h0 := 0.555 * t9 in
  c1 <- pdiv 1 (H * rhol * 9.80665) ;;
  let c1 := c1 * c1 in
  secant (fun dP => _Stichlmair_wet_err dP h0 c1 dP_dry H voidage c) dP_dry.
