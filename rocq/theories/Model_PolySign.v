(** fluids/numerics/__init__.py: is_poly_positive and is_poly_negative, over the reals. *)
From Coq Require Import Reals List Bool ZArith.
From Verif Require Import Base Model_Poly Model_Numerics.
Import ListNotations.
Open Scope R_scope.

(** fluids/numerics/__init__.py:1427-1451 [is_poly_positive]; [roots] is np.roots, each root as (real part, imaginary part).
    For a root with real part 0 the quotient of line 1444 is nan or inf and the test false. *)
Definition is_poly_positive (roots : list R -> list (R * R)) (poly : list R) (domain : option (R * R)) (rand_pts : Z) (j_tol root_perturb : R) : result bool :=
  pts <- (match domain with
          | None => p <- logspace (-100) 100 (rand_pts / 2) true 10 ;; Ok (p ++ map Ropp p)
          | Some (a, b) => linspace a b rand_pts true
          end) ;;
  if existsb (fun p => Rltb (horner poly p) 0) pts then Ok false
  else Ok (negb (existsb (fun root =>
    let '(r, im) := root in
    negb (Reqb r 0) && Rltb (Rabs (im / r)) j_tol &&
    negb (match domain with Some (a, b) => Rltb r a || Rltb b r | None => false end) &&
    (Rltb (horner poly (r * (1 + root_perturb))) 0 || Rltb (horner poly (r * (1 - root_perturb))) 0)) (roots poly))).
(** fluids/numerics/__init__.py:1453-1456 [is_poly_negative] *)
Definition is_poly_negative (roots : list R -> list (R * R)) (poly : list R) (domain : option (R * R)) (rand_pts : Z) (j_tol root_perturb : R) : result bool :=
  is_poly_positive roots (map Ropp poly) domain rand_pts j_tol root_perturb.
