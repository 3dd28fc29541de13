(** fluids/numerics/__init__.py: one_sided_secant, over the reals. *)
From Coq Require Import Reals List Bool ZArith.
From Coquelicot Require Import Complex.
From Verif Require Import Base Model_Poly Model_Numerics Model_Solvers Model_Roots.
Import ListNotations.
Open Scope R_scope.

Section OneSided.
Variable f : R -> result R.
Variable flat_higher : bool.
Variable y_flat : R.
Variables xtol ytol : option R.
Variable damping : R.
Variables max_quadratic_iter low_prec_ls_iter : nat.

(** fluids/numerics/__init__.py:3043-3069, the quadratic step; None when it cannot be made (every exception is caught) *)
Definition os_quadratic (x0 x1 x2 y0 y1 y2 : R) : option R :=
  match ('(a, b, c) <- quadratic_from_points x0 x1 x2 y0 y1 y2 ;; roots_quadratic a b c) with
  | Ok (r, s) =>
      if Reqb (snd r) 0 then
        if Ceqb r s then Some (fst r - x1)
        else if Rltb (Rabs (fst r - x1)) (Rabs (fst s - x1)) then Some (fst r - x1) else Some (fst s - x1)
      else None
  | Err _ => None
  end.
(** lines 3040-3074: the step; [p2] is the third last point, None in the first iteration *)
Definition os_step (i : nat) (x0 y0 x1 y1 : R) (p2 : option (R * R)) : result R :=
  let secant_step := s <- pdiv (- y1 * (x1 - x0)) (y1 - y0) ;; Ok (s * damping) in
  match p2 with
  | Some (x2, y2) =>
      if Nat.ltb i max_quadratic_iter then
        match os_quadratic x0 x1 x2 y0 y1 y2 with Some s => Ok s | None => secant_step end
      else secant_step
  | None => secant_step
  end.
(** lines 3098-3105: the line search; the point found, if any, and the flat point known afterwards *)
Fixpoint os_search (factors : list R) (x0 step x_flat : R) : result (option (R * R) * R) :=
  match factors with
  | [] => Ok (None, x_flat)
  | c :: t =>
      let x := x0 + step * c in
      y <- f x ;;
      if Reqb y y_flat then os_search t x0 step x else Ok (Some (x, y), x_flat)
  end.
(** is [a] at or beyond [b], seen from the start towards the flat region *)
Definition os_reaches (a b : R) : bool := if flat_higher then Rleb b a else Rleb a b.
(** lines 3076-3108: the next point and the flat point known afterwards *)
Definition os_point (i : nat) (x0 x1 step x_flat : R) : result (R * R * R) :=
  '(found, x_flat) <- (if os_reaches (x1 + step) x_flat then Ok (None, x_flat)
                       else y <- f (x1 + step) ;;
                            if Reqb y y_flat then Ok (None, x1 + step) else Ok (Some (x1 + step, y), x_flat)) ;;
  match found with
  | Some (x, y) => Ok (x, y, x_flat)
  | None =>
      let step := if os_reaches (x0 + step) x_flat then x_flat - x0 else step in
      let factors := if Nat.ltb low_prec_ls_iter i then line_search_factors else skipn 3 line_search_factors in
      '(r, x_flat) <- os_search factors x0 step x_flat ;;
      match r with Some (x, y) => Ok (x, y, x_flat) | None => Err ValueError end
  end.
(** lines 3110-3119: the convergence test *)
Definition os_converged (x y x0 : R) : bool :=
  match xtol, ytol with
  | Some xt, Some yt => Rltb (Rabs y) yt && Rleb (Rabs (x - x0)) (Rabs (xt * x))
  | Some xt, None => Rleb (Rabs (x - x0)) (Rabs (xt * x))
  | None, Some yt => Rltb (Rabs y) yt
  | None, None => false
  end.
(** lines 3040-3124: the loop *)
Fixpoint os_loop (n i : nat) (x0 y0 x1 y1 : R) (p2 : option (R * R)) (x_flat : R) : result R :=
  match n with
  | O => Err UnconvergedError
  | S n =>
      step <- os_step i x0 y0 x1 y1 p2 ;;
      '(x, y, x_flat) <- os_point i x0 x1 step x_flat ;;
      if os_converged x y x0 then Ok x
      else os_loop n (S i) x y x0 y0 (Some (x1, y1)) x_flat
  end.
End OneSided.
(** fluids/numerics/__init__.py:3007-3124 [one_sided_secant] without y0 and y1; with maxiter 0 the final message refers to an unbound name *)
Definition one_sided_secant (f : R -> result R) (x0 x_flat : R) (maxiter : nat) (xtol ytol : option R) (damping : R)
    (x1 y_flat : option R) (max_quadratic_iter low_prec_ls_iter : nat) : result R :=
  let x1 := match x1 with Some x => x | None => if Rleb 0 x0 then x0 * 1.0001 + 1e-4 else x0 * 1.0001 - 1e-4 end in
  y0 <- f x0 ;;
  y1 <- f x1 ;;
  y_flat <- (match y_flat with Some y => Ok y | None => f x_flat end) ;;
  if Reqb y0 y_flat then Err ValueError
  else if Reqb y0 y1 then Err ValueError
  else if Reqb y1 y_flat then Err ValueError
  else match maxiter with
       | O => Err UnboundLocalError
       | _ => os_loop f (Rltb x0 x_flat) y_flat xtol ytol damping max_quadratic_iter low_prec_ls_iter maxiter 0 x0 y0 x1 y1 None x_flat
       end.
