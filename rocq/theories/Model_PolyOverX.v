(** fluids/numerics/polynomial_utils.py: polyint_over_x_stable, over the reals. *)
From Coq Require Import Reals List Arith.
From Verif Require Import Base Model_Poly.
Import ListNotations.
Open Scope R_scope.

(** math.comb, imported by fluids/numerics/special.py:54 *)
Fixpoint comb (n k : nat) : nat :=
  match n, k with
  | _, O => 1
  | O, S _ => 0
  | S n', S k' => comb n' k' + comb n' (S k')
  end.
(** fluids/numerics/polynomial_utils.py:310-319 [polyint_over_x_stable_helper].  For j < i the source reads a power from the end
    of the list of powers (negative index) and multiplies it by comb(j, i) = 0; here the power is 1 then. *)
Definition polyint_over_x_stable_helper (coeffs : list R) (i n : nat) (scale offset : R) : R :=
  let inner := fold_left (fun acc j => acc + INR (comb j i) * nth j (rev coeffs) 0 * offset ^ (j - i)) (seq 0 n) 0 in
  scale ^ i * inner / INR i.
(** fluids/numerics/polynomial_utils.py:321-365 [polyint_over_x_stable]; the lists of powers are written as powers *)
Definition polyint_over_x_stable (coeffs : list R) (xmin xmax : R) : result (list R * R) :=
  '(offset, scale) <- polynomial_offset_scale xmin xmax ;;
  let n := length coeffs in
  let log_coeff := fold_left (fun acc i => acc + nth i (rev coeffs) 0 * offset ^ i) (seq 0 n) 0 in
  let terms := 0 :: map (fun i => polyint_over_x_stable_helper coeffs i n scale offset) (seq 1 (n - 1)) in
  Ok (rev terms, log_coeff).
