(** fluids/numerics/__init__.py: homotopy_solver, over the reals. *)
From Coq Require Import Reals List Bool ZArith.
From Verif Require Import Base Model_Poly Model_Numerics Model_Arrays Model_Solvers Model_Systems.
Import ListNotations.
Open Scope R_scope.

Section Homotopy.
Variable f : list R -> result (list R).
Variable jac : list R -> result (list (list R)).
Variable solve_func : list (list R) -> list R -> result (list R).
(** the call of newton_system on line 3839 with with_point=True: function, start, xtol, ytol, maxiter; point, iterations, residual, Jacobian *)
Variable newton : (list R -> result (list R)) -> list R -> option R -> option R -> Z -> result (list R * Z * list R * list (list R)).
Variables xtol ytol terminal_xtol terminal_ytol : option R.
Variable terminal_lambd_criteria : R.
Variable f0 : list R.

(** lines 3826-3832: the predicted point; the lists are taken to have the length of [f0] *)
Definition predictor (x0 : list R) (lambd_previous lambd step : R) (Fx : list R) (J : list (list R)) : result (list R) :=
  let ks := seq 0 (length f0) in
  let H l i := nth i Fx 0 - (1 - l) * nth i f0 0 in
  c <- pdiv (- (1)) step ;;
  dx <- solve_func J (map (fun i => c * (H lambd i - H lambd_previous i)) ks) ;;
  Ok (map (fun i => nth i x0 0 + step * nth i dx 0) ks).
(** lines 3814-3858: the loop; [state] holds residual and Jacobian of the last converged step (None before the first one);
    [fuel] bounds the number of passes, see C69_homotopy_terminates *)
Fixpoint homotopy_loop (fuel : nat) (x0 : list R) (lambd lambd_previous step : R) (state : option (list R * list (list R))) (failed : nat) (remaining : Z) : result (list R * Z) :=
  match fuel with
  | O => Err Diverges
  | S fuel =>
    if negb (Rltb 1e-15 (Rabs (lambd - 1))) then Ok (x0, remaining)
    else
      let lambd := if Rltb 1 (lambd + step) then 1 else lambd + step in
      '(Fx, J) <- (match state with Some s => Ok s | None => J <- jac x0 ;; Ok (f0, J) end) ;;
      x1 <- predictor x0 lambd_previous lambd step Fx J ;;
      let '(xt, yt) := if Rltb lambd terminal_lambd_criteria then (xtol, ytol) else (terminal_xtol, terminal_ytol) in
      match newton (fun x => homotopy_function x lambd f0 f) x1 xt yt remaining with
      | Ok (x2, niter, Fx, J) => homotopy_loop fuel x2 lambd lambd step (Some (Fx, J)) failed (remaining - niter)
      | Err _ => if Nat.ltb 5 (S failed) then Err UnconvergedError
                 else homotopy_loop fuel x0 (lambd - step) lambd_previous (step * 0.5) state (S failed) remaining
      end
  end.
End Homotopy.
(** fluids/numerics/__init__.py:3800-3859 [homotopy_solver]; returns the point and the number of Newton iterations *)
Definition homotopy_solver (fuel : nat) f jac solve_func newton (xtol ytol txtol tytol : option R) (criteria lambd_step : R) (x0 : list R) (maxiter : Z) : result (list R * Z) :=
  f0 <- f x0 ;;
  '(x, remaining) <- homotopy_loop f jac solve_func newton xtol ytol txtol tytol criteria f0 fuel x0 0 0 lambd_step None 0 maxiter ;;
  Ok (x, (maxiter - remaining)%Z).
