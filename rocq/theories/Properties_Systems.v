(** Theorems about the solvers of systems (C21, C69-C71). *)
From Coq Require Import Reals Lra Lia List Bool QArith ZArith Arith.
From Verif Require Import Base Sums Spec_Mat Model_Poly Model_Numerics Model_Arrays Spec_Solvers Model_Solvers Spec_Systems Model_Systems Proofs_Systems.
Import ListNotations.
Local Open Scope R_scope.

(** ** C21 fixed_point *)

(** Whatever fixed_point returns comes from a point at which the residual was evaluated and met every given tolerance;
    the result is that point (only when nothing was iterated) or one (damped) step from it. *)
Theorem C21_fixed_point_result f x0 xtol ytol maxiter damping progress x it :
  fixed_point norm2 f x0 xtol ytol maxiter damping progress = Ok (x, it) ->
  exists y fy, f y = Ok fy /\ meets xtol ytol fy /\
    ((it = 0%nat /\ x = x0 /\ y = x0) \/ (y = x0 /\ x = moved_back x0 fy 1) \/ x = moved_back y fy damping).
Proof. apply fixed_point_result. Qed.
(** The only failures with a function that never raises. *)
Theorem C21_fixed_point_errors f x0 xtol ytol maxiter damping progress e : total f ->
  fixed_point norm2 f x0 xtol ytol maxiter damping progress = Err e ->
  e = UnconvergedError \/ (progress = true /\ e = ValueError).
Proof. apply fixed_point_errors. Qed.
(** When x - f x is a contraction with constant L the iteration succeeds as soon as L^(maxiter-1) times the initial
    residual is below ytol, and the residual *at the returned point* is below ytol. *)
Theorem C21_fixed_point_converges N f L x0 ytol maxiter :
  0 <= L < 1 -> contraction N f L -> length x0 = N -> 0 < ytol -> (2 <= maxiter)%nat ->
  L ^ (maxiter - 1) * norm_1 (f x0) < ytol ->
  exists x it, fixed_point norm2 (fun z => Ok (f z)) x0 None (Some ytol) maxiter 1 false = Ok (x, it) /\ norm_1 (f x) < ytol.
Proof. apply fixed_point_converges. Qed.
(** x - f x = x/2 + 1/2 componentwise *)
Example C21_ex_contraction : contraction 2 (map (fun v => v / 2 - 1 / 2)) (1 / 2).
Proof.
  split; [intros x H; now rewrite map_length|].
  intros [|a [|b [|]]] [|c [|d [|]]]; simpl; try discriminate. intros _ _. unfold norm_1, minus, moved_back, lsum. simpl.
  replace (a - (a / 2 - 1 / 2) * 1 - (c - (c / 2 - 1 / 2) * 1)) with ((a - c) * / 2) by lra.
  replace (b - (b / 2 - 1 / 2) * 1 - (d - (d / 2 - 1 / 2) * 1)) with ((b - d) * / 2) by lra.
  rewrite !Rabs_mult, (Rabs_pos_eq (/ 2)) by lra. lra.
Qed.
Example C21_ex_run :
  match fixed_point (fun _ : list Q => 0%Q) (fun x => Ok (map (fun v => v / 2 - 1 / 2)%Q x)) [5; 9]%Q None (Some (1 # 10)) 50 1%Q true with
  | Ok ([a; b], it) => Qle_bool (1 # 1) a && Qle_bool a (11 # 10) && Qle_bool b (11 # 10) && Nat.eqb it 7
  | _ => false end = true.
Proof. vm_compute. reflexivity. Qed.
(** Without a contraction nothing can be said about the returned point: the tolerances were met one step earlier.
    Here f 0 = 1/2 meets ytol = 1/2 exactly, the step goes to -1/2, where the residual is 100. *)
Theorem C21_residual_at_result_refuted :
  ~ (forall f x0 xtol ytol maxiter damping progress x it,
      fixed_point norm2 f x0 xtol ytol maxiter damping progress = Ok (x, it) -> exists fx, f x = Ok fx /\ meets xtol ytol fx).
Proof.
  intros H. set (f := fun x : list R => Ok (if Reqb (nth 0 x 0) 0 then [1 / 2] else [100])).
  destruct (H f [0] None (Some (1 / 2)) 1%nat 1 false [0 - 1 / 2 * 1] 1%nat) as [fx [E [_ M]]].
  - unfold fixed_point, f. cbn [nth bind]. cbv zeta. assert (Reqb 0 0 = true) as -> by now apply Reqb_true.
    cbn [tol_start]. rewrite sumabs_norm_1. unfold norm_1, lsum. simpl. rewrite (Rabs_pos_eq (1 / 2)) by lra. numR.
    assert (Rltb (1 / 2 + 0) (1 / 2) = false) as -> by (apply Rltb_false; lra). cbn [fp_loop Nat.sub bind]. unfold tol_final.
    rewrite sumabs_norm_1. unfold norm_1, lsum. simpl. rewrite (Rabs_pos_eq (1 / 2)) by lra. numR.
    assert (Rltb (1 / 2) (1 / 2 + 0) = false) as -> by (apply Rltb_false; lra). cbn [negb andb]. unfold step_sub. cbn [combine map fst snd]. numR. reflexivity.
  - unfold f in E. cbn [nth] in E. assert (Reqb (0 - 1 / 2 * 1) 0 = false) as K by (apply Reqb_false; lra). rewrite K in E.
    injection E as <-. specialize (M _ eq_refl). unfold norm_1, lsum in M. simpl in M. rewrite Rabs_pos_eq in M; lra.
Qed.

(** ** C71 accelerated fixed points *)
Theorem C71_aitken_result max_ratio f x0 xtol ytol maxiter damping progress freq ad x it :
  fixed_point_aitken norm2 max_ratio f x0 xtol ytol maxiter damping progress freq ad = Ok (x, it) ->
  exists y fy, f y = Ok fy /\ meets xtol ytol fy /\
    ((it = 0%nat /\ x = x0 /\ y = x0) \/ (y = x0 /\ x = moved_back x0 fy 1) \/ x = moved_back y fy damping \/ exists d, x = moved y d ad).
Proof. apply fixed_point_acc_result. Qed.
Theorem C71_gdem_result max_ratio f x0 xtol ytol maxiter damping progress freq ad x it :
  fixed_point_gdem norm2 max_ratio f x0 xtol ytol maxiter damping progress freq ad = Ok (x, it) ->
  exists y fy, f y = Ok fy /\ meets xtol ytol fy /\
    ((it = 0%nat /\ x = x0 /\ y = x0) \/ (y = x0 /\ x = moved_back x0 fy 1) \/ x = moved_back y fy damping \/ exists d, x = moved y d ad).
Proof. apply fixed_point_acc_result. Qed.
Example C71_ex_run :
  match fixed_point_gdem (fun _ : list Q => 0%Q) 100%Q (fun x => Ok (map (fun v => v / 2 - 1 / 2)%Q x)) [5; 9]%Q None (Some (1 # 10)) 50 1%Q true 5 1%Q with
  | Ok ([a; b], it) => Qle_bool a (11 # 10) && Qle_bool b (11 # 10) && Nat.eqb it 7
  | _ => false end = true.
Proof. vm_compute. reflexivity. Qed.
(** The dominant eigenvalue step lands exactly on the limit s of s + c r^k (newest k = 2) when 0 < r < 1 ... *)
Theorem C71_dem_geometric s c r : length s = length c -> norm_1 c <> 0 -> 0 < r < 1 ->
  exists d, dem (moved s c (r * r)) (moved s c r) (moved s c 1) = Ok d /\ moved (moved s c (r * r)) d 1 = s.
Proof. apply dem_geometric. Qed.
Example C71_ex_dem : dem [4; 7]%Q [5; 8]%Q [7; 10]%Q = Ok [-1; -1]%Q. (* s = [3; 6], r = 1/2 *)
Proof. vm_compute. reflexivity. Qed.
(** ... but moves away from it on alternating sequences: s = 0, c = 4, r = -1/2. *)
Theorem C71_dem_alternating_refuted :
  ~ (forall s c r d : Q, Qlt (-1) r -> Qlt r 1 -> dem [s + c * (r * r)]%Q [s + c * r]%Q [s + c]%Q = Ok [d] -> Qeq (s + c * (r * r) + d) s).
Proof. intros H. specialize (H 0 4 (-1#2) 1)%Q. assert (K : (0 + 4 * ((-1 # 2) * (-1 # 2)) + 1 == 0)%Q) by (apply H; vm_compute; reflexivity). revert K. vm_compute. discriminate. Qed.
(** Aitken's step, meant for the oldest of the three points, is added to the newest: on s + c r^k it misses the limit
    although the formula is exact for such sequences. Here s = 3, c = 4, r = 1/2: newest point 4, step -4 instead of -1. *)
Theorem C71_aitken_geometric_refuted :
  ~ (forall s c r d : Q, Qlt 0 r -> Qlt r 1 -> aitken [s + c * (r * r)]%Q [s + c * r]%Q [s + c]%Q 10%Q = Ok [d] -> Qeq (s + c * (r * r) + d) s).
Proof. intros H. specialize (H 3 4 (1#2) (-4))%Q. assert (K : (3 + 4 * ((1 # 2) * (1 # 2)) + -4 == 3)%Q) by (apply H; vm_compute; reflexivity). revert K. vm_compute. discriminate. Qed.
(** Accelerating at every iteration fails: the first step has only two points. *)
Theorem C71_frequency_refuted :
  ~ (forall (f : list R -> result (list R)) x0 ytol maxiter freq e, total f -> (1 <= freq)%nat ->
      fixed_point_aitken norm2 100 f x0 None (Some ytol) maxiter 1 false freq 1 = Err e -> e = UnconvergedError).
Proof.
  intros H. specialize (H (fun x => Ok [1]) [0] (1 / 2) 5%nat 1%nat IndexError).
  assert (IndexError = UnconvergedError); [|discriminate]. apply H; auto.
  - intros x; eauto.
  - unfold fixed_point_aitken, fixed_point_acc. cbn [bind]. cbv zeta. cbn [tol_start]. rewrite sumabs_norm_1. unfold norm_1, lsum. simpl.
    rewrite (Rabs_pos_eq 1) by lra. numR. assert (Rltb (1 + 0) (1 / 2) = false) as -> by (apply Rltb_false; lra). reflexivity.
Qed.

(** ** C69 newton_system, newton_minimize, homotopy_function *)

(** With a function that never raises, the residual at the returned point itself meets every tolerance; with
    require_progress the result is the start or has a strictly smaller residual. *)
Theorem C69_newton_system_result f jac solve o x0 xtol ytol maxiter x it : total f -> ns_factors o <> [] ->
  newton_system norm2 f x0 jac solve o xtol ytol maxiter = Ok (x, it) ->
  exists fx f0, f x = Ok fx /\ f x0 = Ok f0 /\ meets xtol ytol fx /\ (it <= Nat.max 1 maxiter)%nat /\
    (ns_progress o = true -> x = x0 \/ norm_1 fx < norm_1 f0).
Proof. apply newton_system_result. Qed.
Theorem C69_newton_system_errors f jac solve o x0 xtol ytol maxiter e :
  total f -> total jac -> (forall j b, exists v, solve j b = Ok v) -> ns_factors o <> [] -> ns_armijo o = None ->
  newton_system norm2 f x0 jac solve o xtol ytol maxiter = Err e ->
  e = UnconvergedError \/ (ns_progress o = true /\ e = ValueError).
Proof. apply newton_system_errors. Qed.
(** One full Newton step solves a system for which that step is exact (in particular every affine system). *)
Theorem C69_newton_system_affine (f : list R -> list R) J x0 jac solve o ytol maxiter d :
  (forall x, jac x = Ok J) -> solve J (map Ropp (f x0)) = Ok d -> f (moved x0 d 1) = map (fun _ => 0) (f x0) ->
  ns_damping o = 1 -> ns_damping_func o = None -> ns_armijo o = None -> (exists t, ns_factors o = 1 :: t) ->
  0 < ytol -> (2 <= maxiter)%nat -> norm_1 (f x0) <> 0 ->
  exists x it, newton_system norm2 (fun z => Ok (f z)) x0 jac solve o None (Some ytol) maxiter = Ok (x, it) /\ norm_1 (f x) < ytol.
Proof. apply newton_system_affine. Qed.
(** x + y = 3, x y = 2 from (1/2, 4) *)
Example C69_ex_run :
  match newton_system (fun _ : list Q => 0%Q) (fun v => match v with [x; y] => Ok [x + y - 3; x * y - 2]%Q | _ => Err TypeError end)
          [1 # 2; 4]%Q (fun v => match v with [x; y] => Ok [[1; 1]; [y; x]]%Q | _ => Err TypeError end)
          solve (mk_ns 1%Q None [1; 1 # 2; 1 # 4]%Q true true None) None (Some (1 # 100)) 10 with
  | Ok ([x; y], it) => Qle_bool (99 # 100) x && Qle_bool x (101 # 100) && Qle_bool (199 # 100) y && Qle_bool y (201 # 100)
  | _ => false end = true.
Proof. vm_compute. reflexivity. Qed.
(** A function that raises during the line search: the point reported is the last trial, the residual tested that of an
    earlier one.  f(0) = 1, f(-1) = -1, undefined elsewhere; ytol = 1; the result is -1/2 where f raises. *)
Theorem C69_raising_function_refuted :
  ~ (forall (f : list Q -> result (list Q)) jac solve o x0 ytol maxiter x it nrm, ns_factors o <> [] ->
      newton_system nrm f x0 jac solve o None (Some ytol) maxiter = Ok (x, it) ->
      exists fx, f x = Ok fx /\ Qle (sumabs fx) ytol).
Proof.
  intros H.
  set (f := fun x : list Q => match x with [v] => if Qeq_bool v 0 then Ok [1%Q] else if Qeq_bool v (-1) then Ok [(-1)%Q] else Err ValueError | _ => Err TypeError end).
  destruct (H f (fun _ => Ok [[1%Q]]) (fun _ b => Ok b) (mk_ns 1%Q None [1; 1 # 2]%Q true false None) [0%Q] 1%Q 2%nat [-1 # 2]%Q 2%nat (fun _ => 0%Q)) as [fx [E _]].
  - discriminate.
  - vm_compute. reflexivity.
  - vm_compute in E. discriminate.
Qed.
(** ... and when every trial of the first iteration raises, the solver fails with an unbound local variable. *)
Theorem C69_raising_function_unbound_refuted :
  ~ (forall (f : list Q -> result (list Q)) jac solve o x0 ytol maxiter nrm, ns_factors o <> [] -> ns_armijo o = None ->
      newton_system nrm f x0 jac solve o None (Some ytol) maxiter <> Err UnboundLocalError).
Proof.
  intros H.
  set (f := fun x : list Q => match x with [v] => if Qeq_bool v 0 then Ok [1%Q] else Err ValueError | _ => Err TypeError end).
  apply (H f (fun _ => Ok [[1%Q]]) (fun _ b => Ok b) (mk_ns 1%Q None [1; 1 # 2]%Q true false None) [0%Q] (1 # 2)%Q 2%nat (fun _ => 0%Q)); try discriminate; try reflexivity.
Qed.
(** The Armijo test is supposed to enforce a decrease of the sum of squares; it accepts an increase. *)
Theorem C69_armijo_refuted :
  ~ (forall (c1 factor : Q) j fcur fnew, Qlt 0 c1 -> Qlt c1 (1 # 2) -> Qlt 0 factor -> Qle factor 1 ->
      armijo_ok c1 factor j fcur fnew = true -> Qle (sumsq fnew) (sumsq fcur)).
Proof.
  intros H. specialize (H (1 # 10000) 1 [[100; 0]; [0; 100]] [3; 3] [5; 0])%Q.
  assert (K : (sumsq [5; 0] <= sumsq [3; 3])%Q) by (apply H; vm_compute; congruence). revert K. vm_compute. intros K. apply K. reflexivity.
Qed.
Theorem C69_newton_minimize_result x0 jac hess xtol ytol maxiter damping df x it :
  newton_minimize norm2 x0 jac hess xtol ytol maxiter damping df = Ok (x, it) ->
  exists g, jac x = Ok g /\ meets xtol ytol g /\ (it <= maxiter)%nat.
Proof. apply newton_minimize_result. Qed.
Example C69_ex_minimize :
  newton_minimize (fun _ : list Q => 0%Q) [0; 0]%Q (fun v => match v with [x; y] => Ok [2 * (x - 1); 4 * (y + 2)]%Q | _ => Err TypeError end)
    (fun _ => Ok [[2; 0]; [0; 4]]%Q) None (Some (1 # 10)) 10 1%Q None = Ok ([1; -2], 1%nat)%Q.
Proof. vm_compute. reflexivity. Qed.
(** The homotopy function joins F - F(x0) (lambda = 0) to F (lambda = 1). *)
Theorem C69_homotopy_ends objf x0 x F0 Fx : objf x0 = Ok F0 -> objf x = Ok Fx -> length Fx = length F0 ->
  homotopy_function x 1 F0 objf = Ok Fx /\ homotopy_function x0 0 F0 objf = Ok (map (fun _ => 0) F0).
Proof.
  intros E0 Ex Hl. rewrite (homotopy_value objf x Fx F0 1), (homotopy_value objf x0 F0 F0 0); auto. split; f_equal.
  - clear -Hl. revert F0 Hl. induction Fx; destruct F0; simpl; intros; try discriminate; auto. unfold moved_back in *. simpl. rewrite IHFx by congruence. f_equal. lra.
  - clear. induction F0; simpl; auto. unfold moved_back in *. simpl. rewrite IHF0. f_equal. lra.
Qed.
Theorem C69_homotopy_value objf x Fx F0 lam : objf x = Ok Fx -> length Fx = length F0 ->
  homotopy_function x lam F0 objf = Ok (moved_back Fx F0 (1 - lam)).
Proof. apply homotopy_value. Qed.
Example C69_ex_homotopy : homotopy_function [3]%Q (1 # 2) [4]%Q (fun x => Ok (map (fun v => v * v) x)%Q) = Ok [7]%Q.
Proof. vm_compute. reflexivity. Qed.

(** ** C70 broyden2 *)
(** The returned point has a residual within the tolerance unless all maxiter iterations were used. *)
Theorem C70_broyden2_result xs f jac xtol maxiter x it : broyden2 xs f jac xtol maxiter = Ok (x, it) ->
  exists fx, f x = Ok fx /\ (it <= maxiter)%nat /\ (norm_1 fx <= xtol \/ it = maxiter).
Proof. apply broyden2_result. Qed.
Example C70_ex_run :
  match broyden2 [3]%Q (fun v => match v with [x] => Ok [x * x - 4]%Q | _ => Err TypeError end) (Some (fun v => match v with [x] => Ok [[2 * x]]%Q | _ => Err TypeError end)) (1 # 100)%Q 20 with
  | Ok ([x], it) => Qle_bool (199 # 100) x && Qle_bool x (201 # 100) && Nat.eqb it 3
  | _ => false end = true.
Proof. vm_compute. reflexivity. Qed.
(** In one dimension the updated inverse Jacobian satisfies the secant equation J' (fnew - fold) = xnew - xold ... *)
Theorem C70_broyden_secant_scalar (j s z : R) J' : broyden_update [[j]] [s] [z] = Ok J' -> exists j', J' = [[j']] /\ j' * z = - s.
Proof. apply broyden_update_scalar. Qed.
Example C70_ex_update : broyden_update [[1 # 2]] [3]%Q [2]%Q = Ok [[-3 # 2]].
Proof. vm_compute. reflexivity. Qed.
(** ... in two dimensions it does not: every entry is scaled by the same number. *)
Theorem C70_broyden_secant_refuted :
  ~ (forall (J J' : list (list Q)) s z u, broyden_update J s z = Ok J' -> matrix_vector_dot J' z = Ok u -> Forall2 Qeq u (map Qopp s)).
Proof.
  intros H. specialize (H [[1; 0]; [0; 1]] [[5 # 4; 0]; [0; 5 # 4]] [-1; -2] [2; 1] [5 # 2; 5 # 4])%Q.
  assert (K : Forall2 Qeq [5 # 2; 5 # 4] [1; 2]%Q) by (apply H; vm_compute; reflexivity). inversion K. discriminate.
Qed.
(** Exhausting maxiter is not an error: the caller gets the last point as if it were a solution. *)
Theorem C70_broyden2_unconverged_refuted :
  ~ (forall xs (f : list Q -> result (list Q)) jac xtol maxiter x it fx, broyden2 xs f jac xtol maxiter = Ok (x, it) -> f x = Ok fx -> Qle (sumabs fx) xtol).
Proof.
  intros H. specialize (H [3%Q] (fun v => match v with [x] => Ok [x * x - 4]%Q | _ => Err TypeError end) (Some (fun _ => Ok [[6%Q]])) (1 # 100)%Q 0%nat [3%Q] 0%nat [5%Q]).
  assert (K : (sumabs [5] <= 1 # 100)%Q) by (apply H; vm_compute; reflexivity). revert K. vm_compute. intros K. apply K. reflexivity.
Qed.

Print Assumptions C21_fixed_point_result.
Print Assumptions C21_fixed_point_errors.
Print Assumptions C21_fixed_point_converges.
Print Assumptions C21_residual_at_result_refuted.
Print Assumptions C71_aitken_result.
Print Assumptions C71_gdem_result.
Print Assumptions C71_dem_geometric.
Print Assumptions C71_dem_alternating_refuted.
Print Assumptions C71_aitken_geometric_refuted.
Print Assumptions C71_frequency_refuted.
Print Assumptions C69_newton_system_result.
Print Assumptions C69_newton_system_errors.
Print Assumptions C69_newton_system_affine.
Print Assumptions C69_raising_function_refuted.
Print Assumptions C69_raising_function_unbound_refuted.
Print Assumptions C69_armijo_refuted.
Print Assumptions C69_newton_minimize_result.
Print Assumptions C69_homotopy_ends.
Print Assumptions C69_homotopy_value.
Print Assumptions C70_broyden2_result.
Print Assumptions C70_broyden_secant_scalar.
Print Assumptions C70_broyden_secant_refuted.
Print Assumptions C70_broyden2_unconverged_refuted.
