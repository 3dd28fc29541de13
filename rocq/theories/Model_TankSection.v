(** Free surface of the liquid in a tank: fluids/geometry.py [TANK.A_cross_sectional]. *)
From Coq Require Import Reals List Bool.
From Verif Require Import Base Model_Real Model_Geometry Model_Tank Model_Differences.
Open Scope R_scope.

(** fluids/geometry.py:3764-3789 [TANK.A_cross_sectional]; the argument [method] is not used by the code.  [extra] is the
    parameter of [derivative] for stencils that are not in its table; the one used here is. *)
Definition tank_A_cross_sectional (quad : (R -> R) -> R -> R -> R) (extra : nat -> nat -> result (list R)) (t : tank) (h : R) : result R :=
  if orb (Reqb h (t_h_max t)) (Reqb h 0) then Ok 0
  else derivative extra (fun h => tank_V_from_h quad t h) h (1e-7 * h) 1 3 None None.
