(** Further theorems about the solvers of systems: what a single iteration does and when the iteration is given up (C21, C69, C70). *)
From Coq Require Import Reals Lra Lia List Bool QArith ZArith Arith.
From Verif Require Import Base Sums Spec_Mat Model_Poly Model_Numerics Model_Arrays Spec_Solvers Model_Solvers Spec_Systems Model_Systems Proofs_Systems.
Import ListNotations.
Local Open Scope R_scope.

(** the point after n steps *)
Definition steps (g : list R -> list R) (d : R) (n : nat) (x : list R) : list R := Nat.iter n (fun z => moved_back z (g z) d) x.
Lemma steps_S g d n x : steps g d n (moved_back x (g x) d) = steps g d (S n) x.
Proof. induction n; [reflexivity|]. change (steps g d (S n) (moved_back x (g x) d)) with (let z := steps g d n (moved_back x (g x) d) in moved_back z (g z) d). rewrite IHn. reflexivity. Qed.
Lemma final_meets xtol ytol r : tol_final norm2 xtol ytol r = true <-> meets xtol ytol r.
Proof.
  split; [apply tol_final_meets|]. intros [H1 H2]. unfold tol_final. rewrite sumabs_norm_1. apply andb_true_intro; split.
  - destruct xtol as [t|]; [|reflexivity]. numR. specialize (H1 t eq_refl). rewrite <- norm2_norm_2 in H1. apply negb_true_iff, Rltb_false. exact H1.
  - destruct ytol as [t|]; [|reflexivity]. numR. specialize (H2 t eq_refl). apply negb_true_iff, Rltb_false. exact H2.
Qed.
Lemma break_final xtol ytol r : tol_break norm2 xtol ytol r (sumabs r) = true -> tol_final norm2 xtol ytol r = true.
Proof.
  unfold tol_break, tol_final. destruct xtol as [t|]; destruct ytol as [u|]; numR; intros H; try discriminate.
  - apply andb_prop in H. destruct H as [H1 H2]. apply Rltb_true in H1, H2. apply andb_true_intro; split; apply negb_true_iff, Rltb_false; lra.
  - apply Rltb_true in H. apply andb_true_intro; split; [apply negb_true_iff, Rltb_false; lra | reflexivity].
  - apply Rltb_true in H. apply andb_true_intro; split; [reflexivity | apply negb_true_iff, Rltb_false; lra].
Qed.
Lemma fp_loop_end g xtol ytol d : forall n x fc err it x' f' it', fp_loop norm2 (S n) (fun z => Ok (g z)) xtol ytol d false x fc err it = Ok (x', f', it') ->
  tol_final norm2 xtol ytol f' = true \/ f' = g (steps g d n x).
Proof.
  induction n; intros x fc err it x' f' it' E; cbn [fp_loop bind] in E; cbv zeta in E; rewrite andb_false_r in E.
  - destruct (tol_break norm2 xtol ytol (g x) (sumabs (g x))) eqn:T; injection E as <- <- <-; right; reflexivity.
  - destruct (tol_break norm2 xtol ytol (g x) (sumabs (g x))) eqn:T.
    + injection E as <- <- <-. left. now apply break_final.
    + change (fp_loop norm2 (S n) (fun z => Ok (g z)) xtol ytol d false (step_sub x (g x) d) (g x) (sumabs (g x)) (S it) = Ok (x', f', it')) in E.
      apply IHn in E. destruct E as [E|E]; [left; exact E|]. right. rewrite E, step_sub_moved, steps_S. reflexivity.
Qed.
(** Given up means that every step allowed was made and the last residual misses a tolerance. *)
Theorem C21_fixed_point_gives_up : forall g x0 xtol ytol maxiter d,
  fixed_point norm2 (fun z => Ok (g z)) x0 xtol ytol (S (S maxiter)) d false = Err UnconvergedError ->
  ~ meets xtol ytol (g (steps g d maxiter (moved_back x0 (g x0) 1))).
Proof.
  intros g x0 xtol ytol maxiter d E. unfold fixed_point in E. cbn [bind] in E. cbv zeta in E.
  destruct (tol_start xtol ytol (sumabs (g x0))); [discriminate|].
  replace (S (S maxiter) - 1)%nat with (S maxiter) in E by lia.
  destruct (fp_loop norm2 (S maxiter) (fun z => Ok (g z)) xtol ytol d false (step_sub x0 (g x0) n1) (g x0) (sumabs (g x0)) 1) as [[[x' f'] it']|e] eqn:L.
  - cbn [bind] in E. destruct (tol_final norm2 xtol ytol f') eqn:T; [discriminate|]. apply fp_loop_end in L. destruct L as [L|L]; [congruence|].
    rewrite <- final_meets. rewrite step_sub_moved in L. numR. rewrite <- L. congruence.
  - apply fp_loop_errors in L; [destruct L; discriminate | intros z; eauto].
Qed.
Example C21_gives_up_ex : match fixed_point (fun l : list Q => sumabs l) (fun x => Ok (map (fun v => v / 2)%Q x)) [16]%Q (Some (1 # 10)%Q) (Some (1 # 10)%Q) 4 1%Q false with
  Err UnconvergedError => true | _ => false end = true.
Proof. vm_compute. reflexivity. Qed.

Lemma fold_plus {B} (f : B -> R) l : forall a, fold_left (fun e v => e + f v) l a = a + lsum (map f l).
Proof. induction l as [|v l IH]; intros a; cbn [fold_left map]; [unfold lsum; simpl; lra|]. rewrite IH. unfold lsum; simpl. lra. Qed.
Lemma sum_to_lsum (f : nat -> R) n : sum_to f n = lsum (map f (seq 0 n)).
Proof. unfold sum_to. numR. rewrite fold_plus. lra. Qed.
(** the squares of J^T f summed *)
Definition gradient_sq (j : list (list R)) (f : list R) : R :=
  let ks := seq 0 (length f) in lsum (map (fun i => (lsum (map (fun k => nth k f 0 * nth i (nth k j []) 0) ks)) ^ 2) ks).
(** An Armijo step is accepted exactly when the sum of squares is at most the old one plus 4 c1 factor |J^T f|^2. *)
Theorem C69_armijo : forall c1 factor j fcur fnew,
  armijo_ok c1 factor j fcur fnew = true <->
  lsum (map (fun v => v * v) fnew) <= lsum (map (fun v => v * v) fcur) + c1 * factor * (4 * gradient_sq j fcur).
Proof.
  intros c1 factor j fcur fnew. unfold armijo_ok, gradient_sq, sumsq. cbv zeta. numR. rewrite !fold_plus, sum_to_lsum, Rleb_true.
  set (g := fun i : nat => lsum (map (fun k => nth k fcur 0 * nth i (nth k j []) 0) (seq 0 (length fcur)))).
  assert (G : forall a, sum_to (fun k => nth k fcur 0 * mat_at j k a) (length fcur) = g a) by (intros a; rewrite sum_to_lsum; unfold g, mat_at; numR; reflexivity).
  assert (Q : forall l, lsum (map (fun i => Q2R 4 * sum_to (fun k => nth k fcur 0 * mat_at j k i) (length fcur) * sum_to (fun k => nth k fcur 0 * mat_at j k i) (length fcur)) l)
    = 4 * lsum (map (fun i => g i ^ 2) l)).
  { intros l. rewrite (map_ext _ (fun i => 4 * g i ^ 2)) by (intros a; rewrite G; unfold Q2R; simpl; lra).
    induction l; unfold lsum in *; cbn [map fold_right]; [lra|]. rewrite IHl. ring. }
  rewrite Q. unfold g. split; intros H; lra.
Qed.
Example C69_armijo_ex : armijo_ok (1 # 10) 1%Q [[2]]%Q [3]%Q [4]%Q = true /\ armijo_ok (1 # 10) 1%Q [[2]]%Q [3]%Q [5]%Q = false.
Proof. vm_compute. auto. Qed.
(** The first iteration of newton_minimize moves by the damped Newton step. *)
Theorem C69_minimize_step : forall x0 jac hess xtol ytol damping x,
  newton_minimize norm2 x0 jac hess xtol ytol 1 damping None = Ok (x, 1%nat) ->
  exists g h d, jac x0 = Ok g /\ hess x0 = Ok h /\ solve h (map Ropp g) = Ok d /\ x = moved x0 d damping.
Proof.
  intros x0 jac hess xtol ytol damping x E. unfold newton_minimize in E. inv_bind E. inv_bind E. inv_bind E. destruct v1 as [[x' j'] it'].
  destruct (tol_final _ _ _ _); [|discriminate]. injection E as <- Eit. cbn [nm_loop] in E2. inv_bind E2. cbv zeta in E2. inv_bind E2. inv_bind E2.
  exists v, v0, v1. splits; auto. destruct (match xtol with Some _ => _ | None => _ end); [injection E2 as <- _ _; reflexivity|].
  destruct (match ytol with Some _ => _ | None => _ end); injection E2 as <- _ _; reflexivity.
Qed.
Example C69_minimize_ex : newton_minimize (fun l : list Q => sumabs l) [3]%Q (fun v => match v with [x] => Ok [2 * x]%Q | _ => Err TypeError end) (fun _ => Ok [[2]]%Q) None (Some 4%Q) 1 (1 # 2)%Q None = Ok ([3 # 2]%Q, 1%nat).
Proof. vm_compute. reflexivity. Qed.
(** With both tolerances newton_minimize stops as soon as one of them holds and then reports a failure because of the
    other, although it would converge: here after one step from 3 for the slope x^2 - 4. *)
Theorem C69_minimize_early_refuted : exists (jac : list Q -> result (list Q)) hess x0 xtol ytol x it,
  newton_minimize (fun l => sumabs l) x0 jac hess None (Some ytol) 20 1%Q None = Ok (x, it) /\ jac x <> Err TypeError /\
  newton_minimize (fun l => sumabs l) x0 jac hess (Some xtol) (Some ytol) 20 1%Q None = Err UnconvergedError.
Proof.
  exists (fun v => match v with [x] => Ok [x * x - 4]%Q | _ => Err TypeError end), (fun v => match v with [x] => Ok [[2 * x]]%Q | _ => Err TypeError end), [3%Q], 1%Q, (1 # 10)%Q.
  eexists _, _. splits; [vm_compute; reflexivity | vm_compute; discriminate | vm_compute; reflexivity].
Qed.
(** The first iteration of broyden2 moves by the inverse Jacobian times the residual. *)
Theorem C70_broyden_first_step : forall xs f jac xtol x, broyden2 xs f jac xtol 1 = Ok (x, 1%nat) ->
  exists r J s, f xs = Ok r /\ (forall jf, jac = Some jf -> exists j, jf xs = Ok j /\ inv j = Ok J) /\ (jac = None -> eye (Z.of_nat (length r)) = Ok J) /\
  matrix_vector_dot J r = Ok s /\ vsubi xs s = Ok x.
Proof.
  intros xs f jac xtol x E. unfold broyden2 in E. inv_bind E. inv_bind E. cbn [broyden_loop] in E. destruct (negb _); [discriminate|].
  inv_bind E. inv_bind E. inv_bind E. inv_bind E. inv_bind E. injection E as <-. exists v, v0, v1. splits; auto.
  - intros jf ->. inv_bind E1. eauto.
  - intros ->. exact E1.
Qed.
Example C70_first_step_ex : broyden2 [3]%Q (fun v => match v with [x] => Ok [x * x - 4]%Q | _ => Err TypeError end) (Some (fun v => match v with [x] => Ok [[2 * x]]%Q | _ => Err TypeError end)) (1 # 100)%Q 1 = Ok ([13 # 6]%Q, 1%nat).
Proof. vm_compute. reflexivity. Qed.

Print Assumptions C21_fixed_point_gives_up.
Print Assumptions C69_armijo.
Print Assumptions C69_minimize_step.
Print Assumptions C69_minimize_early_refuted.
Print Assumptions C70_broyden_first_step.
