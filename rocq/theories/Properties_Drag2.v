(** C59: trajectories of spheres.
    Claims about [integrate_drag_sphere] and [time_v_terminal_Stokes] of fluids/drag.py. *)
From Coq Require Import Reals Lra Lia List Bool String Psatz QArith Qreals.
From Coquelicot Require Import Coquelicot.
From Verif Require Import Base Model_Real Proofs_Real Model_Friction Model_Drag Proofs_Drag Properties_Drag.
Import ListNotations.
Open Scope R_scope.

Lemma g_pos : 0 < 9.80665. Proof. lits; lra. Qed.
(** Rate constant and terminal velocity of a sphere under Stokes' drag *)
Definition rate (D rhop mu : R) : R := 18 * mu / (D * D * rhop).
Definition v_stokes (D rhop rho mu : R) : R := 9.80665 * D * D * (rhop - rho) / (18 * mu).
(** the motion from speed [V0] at time zero *)
Definition speed (k v V0 t : R) : R := v + (V0 - v) * exp (- (k * t)).
Definition distance (k v V0 t : R) : R := v * t + (V0 - v) * (1 - exp (- (k * t))) / k.
Lemma rate_pos D rhop mu : 0 < D -> 0 < rhop -> 0 < mu -> 0 < rate D rhop mu. Proof. intros. unfold rate. posr. Qed.
Lemma speed_derive k v V0 t : is_derive (fun s => speed k v V0 s) t (- k * (speed k v V0 t - v)).
Proof. unfold speed. auto_derive; [exact I|]. unfold Rdiv. ring. Qed.
Lemma distance_derive k v V0 t : k <> 0 -> is_derive (fun s => distance k v V0 s) t (speed k v V0 t).
Proof. intros Hk. unfold distance, speed. auto_derive; [exact I|]. field. exact Hk. Qed.

Lemma terminal_Stokes sec D rhop rho mu : 0 < D -> 0 < rho -> 0 < mu -> v_terminal sec D rhop rho mu (Some "Stokes"%string) = Ok (v_stokes D rhop rho mu).
Proof. intros HD Hr Hm. unfold v_terminal. rewrite pdiv_ok by lra. cbn [bind]. rewrite Re_ok by lra. cbn [bind]. rewrite String.eqb_refl, orb_true_r. reflexivity. Qed.
Lemma terminal_creeping sec D rhop rho mu : 0 < D -> 0 < rho -> 0 < mu -> rho * v_stokes D rhop rho mu * D / mu < 0.01 ->
  v_terminal sec D rhop rho mu None = Ok (v_stokes D rhop rho mu).
Proof.
  intros HD Hr Hm HL. unfold v_terminal. rewrite pdiv_ok by lra. cbn [bind]. rewrite Re_ok by lra. cbn [bind]. fold (v_stokes D rhop rho mu).
  rewrite (proj2 (Rltb_true _ _) HL). reflexivity.
Qed.
(** the closed form of the code is this motion *)
Lemma closed_speed k v V0 t : 0 < k -> exp (- k * t) * (k * V0 + k * v * (exp (k * t) - 1)) / k = speed k v V0 t.
Proof.
  intros Hk. unfold speed. replace (- k * t) with (- (k * t)) by ring. rewrite exp_Ropp. pose proof (exp_pos (k * t)) as P. set (e := exp (k * t)) in *. clearbody e. field. splits; lra.
Qed.
Lemma closed_distance k v V0 t : 0 < k ->
  exp (- k * t) * (V0 * k * (exp (k * t) - 1) + k * v * exp (k * t) * (k * t - 1) + k * v) / (k * k) = distance k v V0 t.
Proof.
  intros Hk. unfold distance. replace (- k * t) with (- (k * t)) by ring. rewrite exp_Ropp. pose proof (exp_pos (k * t)) as P. set (e := exp (k * t)) in *. clearbody e. field. splits; lra.
Qed.
Lemma t2_eq D rhop rho mu : 0 < D -> 0 < rhop -> 0 < mu -> 9.80665 * (rhop - rho) / rhop = rate D rhop mu * v_stokes D rhop rho mu.
Proof. intros. unfold rate, v_stokes. field. lra. Qed.
Lemma closed_form n sec ode big D rhop rho mu t V0 m : 0 < D -> 0 < rhop -> 0 < rho -> 0 < mu ->
  (m = Some "Stokes"%string \/ (m = None /\ rho * V0 * D / mu < 0.01 /\ rho * v_stokes D rhop rho mu * D / mu < 0.01)) ->
  Rabs (rate D rhop mu * t) <= big ->
  integrate_drag_sphere (S n) sec ode big D rhop rho mu t V0 m = Ok (speed (rate D rhop mu) (v_stokes D rhop rho mu) V0 t, distance (rate D rhop mu) (v_stokes D rhop rho mu) V0 t).
Proof.
  intros HD Hp Hr Hm Hc Hb. cbn [integrate_drag_sphere]. rewrite Re_ok by lra. cbn [bind].
  assert (TV : v_terminal sec D rhop rho mu m = Ok (v_stokes D rhop rho mu)).
  { destruct Hc as [->|(-> & _ & L)]. apply terminal_Stokes; lra. apply terminal_creeping; lra. }
  rewrite TV. cbn [bind]. rewrite Re_ok by lra. cbn [bind].
  assert (B : match m with Some m => (m =? "Stokes")%string | None => (Rltb (rho * V0 * D / mu) 0.01 && Rltb (rho * v_stokes D rhop rho mu * D / mu) 0.01)%bool end = true).
  { destruct Hc as [->|(-> & L1 & L2)]. reflexivity. rewrite (proj2 (Rltb_true _ _) L1), (proj2 (Rltb_true _ _) L2). reflexivity. }
  rewrite B. assert (DD : 0 < D * D * rhop) by posr. rewrite pdiv_ok by lra. cbn [bind]. rewrite pdiv_ok by lra. cbn [bind]. fold (rate D rhop mu).
  pose proof (rate_pos D rhop mu HD Hp Hm) as K. rewrite (t2_eq D rhop rho mu HD Hp Hm). set (k := rate D rhop mu) in *. clearbody k. set (v := v_stokes D rhop rho mu) in *. clearbody v.
  assert (B1 : - k * t <= big /\ k * t <= big). { unfold Rabs in Hb. destruct (Rcase_abs (k * t)); lra. } destruct B1 as [B1 B2].
  unfold exp_lim. rewrite (proj2 (Rltb_false _ _) B1). cbn [bind]. rewrite (proj2 (Rltb_false _ _) B2). cbn [bind]. rewrite pdiv_ok by lra. cbn [bind]. rewrite pdiv_ok by nra. cbn [bind].
  rewrite closed_speed, closed_distance by exact K. reflexivity.
Qed.

(** ** C59: the closed form solves the equation of motion *)
(** Under Stokes' drag (asked for, or both start and end in creeping flow), as long as the exponentials do not overflow,
    the returned speed and distance are the solution of Newton's law: mass times acceleration is weight minus buoyancy
    minus the drag [3*pi*mu*D*V]; the distance is the integral of the speed; speed and distance start at [V0] and 0. *)
Theorem C59_equation_of_motion sec ode big D rhop rho mu V0 m n : 0 < D -> 0 < rhop -> 0 < rho -> 0 < mu ->
  (m = Some "Stokes"%string \/ (m = None /\ rho * V0 * D / mu < 0.01 /\ rho * v_stokes D rhop rho mu * D / mu < 0.01)) ->
  exists V x : R -> R,
    (forall t, Rabs (rate D rhop mu * t) <= big -> integrate_drag_sphere (S n) sec ode big D rhop rho mu t V0 m = Ok (V t, x t)) /\
    V 0 = V0 /\ x 0 = 0 /\
    (forall t, is_derive x t (V t)) /\
    (forall t, exists a, is_derive V t a /\ rhop * (PI / 6 * D ^ 3) * a = (rhop - rho) * 9.80665 * (PI / 6 * D ^ 3) - 3 * PI * mu * D * V t).
Proof.
  intros HD Hp Hr Hm Hc. set (k := rate D rhop mu). set (v := v_stokes D rhop rho mu). pose proof (rate_pos D rhop mu HD Hp Hm) as K. fold k in K.
  exists (speed k v V0), (distance k v V0). splits.
  - intros t Hb. apply closed_form; assumption.
  - unfold speed. replace (- (k * 0)) with 0 by ring. rewrite exp_0. ring.
  - unfold distance. replace (- (k * 0)) with 0 by ring. rewrite exp_0. field. lra.
  - intros t. apply distance_derive. lra.
  - intros t. exists (- k * (speed k v V0 t - v)). split. apply speed_derive. set (s := speed k v V0 t). clearbody s. unfold k, v, rate, v_stokes. field. lra.
Qed.
Example C59_equation_of_motion_ex : 0 < 0.001 /\ 0 < 2200 /\ 0 < 1.2 /\ 0 < 0.0000178 /\ Some "Stokes"%string = Some "Stokes"%string. Proof. lits; splits; lra || reflexivity. Qed.

(** Integrating in two steps gives what one step gives: the speeds agree and the distances add up. *)
Theorem C59_steps_compose sec ode big D rhop rho mu V0 n a b : 0 < D -> 0 < rhop -> 0 < rho -> 0 < mu ->
  Rabs (rate D rhop mu * a) <= big -> Rabs (rate D rhop mu * b) <= big -> Rabs (rate D rhop mu * (a + b)) <= big ->
  let go := fun t V => integrate_drag_sphere (S n) sec ode big D rhop rho mu t V (Some "Stokes"%string) in
  exists V1 x1 V2 x2, go a V0 = Ok (V1, x1) /\ go b V1 = Ok (V2, x2) /\ go (a + b) V0 = Ok (V2, x1 + x2).
Proof.
  intros HD Hp Hr Hm Ha Hb Hab go. unfold go. pose proof (rate_pos D rhop mu HD Hp Hm) as K.
  do 4 eexists. split; [apply closed_form; auto|]. split; [apply closed_form; auto|]. rewrite closed_form by auto.
  set (k := rate D rhop mu) in *. set (v := v_stokes D rhop rho mu). clearbody k v. f_equal. unfold speed, distance.
  replace (- (k * (a + b))) with (- (k * a) + - (k * b)) by ring. rewrite exp_plus. set (e := exp (- (k * a))). set (f := exp (- (k * b))). f_equal. ring. field. lra.
Qed.
Example C59_steps_compose_ex : Rabs (rate 0.001 2200 0.0000178 * 10) <= 709 /\ Rabs (rate 0.001 2200 0.0000178 * 20) <= 709 /\ Rabs (rate 0.001 2200 0.0000178 * (10 + 20)) <= 709.
Proof. unfold rate. rewrite !Rabs_pos_eq; lits; splits; lra. Qed.

(** The distance to the terminal velocity only shrinks, and its sign never changes. *)
Theorem C59_approach sec ode big D rhop rho mu V0 n t V x : 0 < D -> 0 < rhop -> 0 < rho -> 0 < mu -> 0 <= t -> rate D rhop mu * t <= big ->
  integrate_drag_sphere (S n) sec ode big D rhop rho mu t V0 (Some "Stokes"%string) = Ok (V, x) ->
  exists q, 0 < q <= 1 /\ V - v_stokes D rhop rho mu = q * (V0 - v_stokes D rhop rho mu).
Proof.
  intros HD Hp Hr Hm Ht Hb E. pose proof (rate_pos D rhop mu HD Hp Hm) as K.
  rewrite closed_form in E; auto. 2: { rewrite Rabs_pos_eq by nra. exact Hb. }
  apply Ok_inj in E. injection E as E _. subst V. exists (exp (- (rate D rhop mu * t))). split. split. apply exp_pos. apply exp_le_1. nra. unfold speed. ring.
Qed.
Example C59_approach_ex : 0 <= 10 /\ rate 0.001 2200 0.0000178 * 10 <= 709. Proof. unfold rate. lits; splits; lra. Qed.

(** ** C59: time to terminal velocity *)
Definition approach (v V0 tol : R) : R := if Rlt_dec v V0 then v * (1 + tol) else v * (1 - tol).
Lemma attempt v V0 tol D rhop rho mu : 0 < D -> 0 < rhop -> 0 < mu -> v = v_stokes D rhop rho mu ->
  (D * D * 9.80665 * rho - D * D * 9.80665 * rhop) + 18 * mu * (if Rltb v V0 then v * (1 + tol) else v * (1 - tol)) = 18 * mu * (approach v V0 tol - v).
Proof.
  intros HD Hp Hm Hv. assert (E : D * D * 9.80665 * rho - D * D * 9.80665 * rhop = - (18 * mu * v)) by (subst v; unfold v_stokes; field; lra).
  rewrite E. unfold approach. destruct (Rlt_dec v V0) as [L|L]. rewrite (proj2 (Rltb_true _ _) L). ring. rewrite (proj2 (Rltb_false _ _)) by lra. ring.
Qed.
Lemma loop_step n term den v c mu V0 tol : time_v_terminal_loop (S n) term den v c mu V0 tol =
  match (t1 <- pdiv (term + 18 * mu * (if Rltb v V0 then v * (1 + tol) else v * (1 - tol))) den ;; t2 <- plog t1 ;; Ok (t2 * c)) with
  | Ok t => Ok t
  | Err _ => if Rltb 0.01 (tol + tol) then Err ValueError else time_v_terminal_loop n term den v c mu V0 (tol + tol)
  end.
Proof. reflexivity. Qed.
(** For a sinking sphere that does not already move at its terminal velocity, the returned time is the one at which the
    speed is within the relative tolerance of it, from the side of the initial speed.  (Tolerances below 1e-17 are raised.) *)
Theorem C59_time_to_terminal sec ode big D rhop rho mu V0 tol n : 0 < D -> 0 < rho < rhop -> 0 < mu -> 1 / 100000000000000000 <= tol -> V0 <> v_stokes D rhop rho mu ->
  exists t, time_v_terminal_Stokes D rhop rho mu V0 tol = Ok t /\
    (Rabs (rate D rhop mu * t) <= big -> exists x, integrate_drag_sphere (S n) sec ode big D rhop rho mu t V0 (Some "Stokes"%string) = Ok (approach (v_stokes D rhop rho mu) V0 tol, x)) /\
    (0 <= t <-> Rabs (approach (v_stokes D rhop rho mu) V0 tol - v_stokes D rhop rho mu) <= Rabs (V0 - v_stokes D rhop rho mu)).
Proof.
  intros HD Hr Hm Ht HV. assert (Hp : 0 < rhop) by lra. pose proof (rate_pos D rhop mu HD Hp Hm) as K. pose proof g_pos as G.
  assert (V0p : 0 < v_stokes D rhop rho mu). { unfold v_stokes. assert (0 < rhop - rho) by lra. posr. }
  unfold time_v_terminal_Stokes. rewrite (proj2 (Rltb_false _ _) Ht). cbv zeta. rewrite pdiv_ok by lra. cbn [bind]. rewrite pdiv_ok by lra. cbn [bind].
  fold (v_stokes D rhop rho mu). change 50%nat with (S 49). rewrite loop_step. rewrite (attempt _ V0 tol D rhop rho mu) by auto.
  assert (T0 : 0 < tol) by lra.
  replace (D * D * 9.80665 * rho - D * D * 9.80665 * rhop + 18 * mu * V0) with (18 * mu * (V0 - v_stokes D rhop rho mu)) by (unfold v_stokes; field; lra).
  assert (EC : D * D * rhop / mu * -1 / 18 = - / rate D rhop mu) by (unfold rate; field; lra). rewrite EC.
  assert (CF : forall t, Rabs (rate D rhop mu * t) <= big -> integrate_drag_sphere (S n) sec ode big D rhop rho mu t V0 (Some "Stokes"%string) = Ok (speed (rate D rhop mu) (v_stokes D rhop rho mu) V0 t, distance (rate D rhop mu) (v_stokes D rhop rho mu) V0 t)) by (intros; apply closed_form; auto; lra).
  set (v := v_stokes D rhop rho mu) in *. clearbody v. set (k := rate D rhop mu) in *. clearbody k. clear EC.
  assert (A : approach v V0 tol - v = tol * (v / (V0 - v)) * (V0 - v) * (if Rlt_dec v V0 then 1 else -1)).
  { unfold approach. destruct (Rlt_dec v V0); field; lra. }
  assert (Q : 0 < (approach v V0 tol - v) / (V0 - v)).
  { unfold approach. destruct (Rlt_dec v V0) as [L|L]. apply Rdiv_lt_0_compat; nra. replace ((v * (1 - tol) - v) / (V0 - v)) with ((v * tol) / (v - V0)) by (field; lra). apply Rdiv_lt_0_compat; [nra|]. lra. }
  rewrite pdiv_ok by (apply Rmult_integral_contrapositive_currified; lra). cbn [bind].
  replace (18 * mu * (approach v V0 tol - v) / (18 * mu * (V0 - v))) with ((approach v V0 tol - v) / (V0 - v)) by (field; lra).
  rewrite plog_ok by exact Q. cbn [bind]. set (q := (approach v V0 tol - v) / (V0 - v)) in *. eexists. split; [reflexivity|].
  assert (KT : k * (ln q * - / k) = - ln q) by (field; lra). split.
  - intros Hb. rewrite CF by exact Hb. eexists. f_equal. f_equal. unfold speed. rewrite KT, Ropp_involutive, exp_ln by exact Q. unfold q. field. lra.
  - assert (I : 0 < / k) by (apply Rinv_0_lt_compat; exact K). assert (N : 0 < Rabs (V0 - v)) by (apply Rabs_pos_lt; lra).
    assert (EQ : Rabs (approach v V0 tol - v) = q * Rabs (V0 - v)). { replace (approach v V0 tol - v) with (q * (V0 - v)) by (unfold q; field; lra). rewrite Rabs_mult, (Rabs_pos_eq q) by lra. reflexivity. }
    rewrite EQ. clearbody q. split; intros H.
    + assert (ln q <= 0) by nra. assert (q <= 1). { destruct (Rle_or_lt q 1) as [L|L]; auto. apply ln_increasing in L; [|lra]. rewrite ln_1 in L. lra. } nra.
    + assert (q <= 1) by nra. assert (ln q <= 0). { rewrite <- ln_1. destruct H0 as [L| ->]; [left; apply ln_increasing; lra|lra]. } nra.
Qed.
Example C59_time_to_terminal_ex : 0 < 0.0000001 /\ 0 < 1.2 < 2200 /\ 0 < 0.0000178 /\ 1 / 100000000000000000 <= 0.00000000000001 /\ 0 <> v_stokes 0.0000001 2200 1.2 0.0000178.
Proof. unfold v_stokes. lits; splits; lra. Qed.

(** A sphere that does not sink ([rhop <= rho]) gets no answer: every attempt takes the logarithm of a number that is
    not positive (or divides by zero), for every initial speed and tolerance. *)
Lemma loop_fails n term den v c mu V0 tol : 0 < mu -> term = - (18 * mu * v) -> den = 18 * mu * (V0 - v) -> v <= 0 -> 0 < tol ->
  time_v_terminal_loop n term den v c mu V0 tol = Err ValueError.
Proof.
  intros Hm Et Ed Hv. revert tol. induction n as [|n IH]; intros tol Ht; [reflexivity|]. rewrite loop_step.
  assert (F : exists e, (t1 <- pdiv (term + 18 * mu * (if Rltb v V0 then v * (1 + tol) else v * (1 - tol))) den ;; t2 <- plog t1 ;; Ok (t2 * c)) = Err e).
  { destruct (Req_dec V0 v) as [->|N].
    - exists ZeroDivisionError. unfold pdiv. rewrite (proj2 (Reqb_true den 0)). reflexivity. rewrite Ed. ring.
    - assert (DN : den <> 0). { rewrite Ed. apply Rmult_integral_contrapositive_currified; lra. }
      rewrite pdiv_ok by exact DN. cbn [bind]. exists ValueError. unfold plog.
      rewrite (proj2 (Rleb_true _ 0)); [reflexivity|].
      assert (E : (term + 18 * mu * (if Rltb v V0 then v * (1 + tol) else v * (1 - tol))) / den = if Rltb v V0 then v * tol / (V0 - v) else v * tol / (v - V0)).
      { subst term den. destruct (Rltb v V0); field; lra. }
      rewrite E. assert (X : v * tol <= 0) by nra. assert (Y : forall a, 0 < a -> v * tol / a <= 0). { intros a Ha. unfold Rdiv. assert (0 < / a) by (apply Rinv_0_lt_compat; exact Ha). nra. }
      rcase; apply Y; lra. }
  destruct F as [e ->]. destruct (Rltb 0.01 (tol + tol)); [reflexivity|]. apply IH. lra.
Qed.
Theorem C59_time_not_sinking D rhop rho mu V0 tol : 0 < D -> 0 < rhop <= rho -> 0 < mu -> time_v_terminal_Stokes D rhop rho mu V0 tol = Err ValueError.
Proof.
  intros HD Hr Hm. unfold time_v_terminal_Stokes. cbv zeta. rewrite pdiv_ok by lra. cbn [bind]. rewrite pdiv_ok by lra. cbn [bind]. fold (v_stokes D rhop rho mu).
  apply loop_fails. exact Hm. unfold v_stokes; field; lra. unfold v_stokes; field; lra.
  { unfold v_stokes, Rdiv. assert (0 < / (18 * mu)) by (apply Rinv_0_lt_compat; lra). pose proof g_pos as G. assert (P : 0 < 9.80665 * D * D) by posr. assert (9.80665 * D * D * (rhop - rho) <= 0) by nra. nra. }
  { rcase; lra. }
Qed.
Example C59_time_not_sinking_ex : 0 < 0.001 /\ 0 < 1.2 <= 998 /\ 0 < 0.001. Proof. lits; splits; lra. Qed.

(** A start exactly at the terminal velocity needs no time at all, but is refused as well. *)
Theorem C59_time_at_terminal_refuted D rhop rho mu tol : 0 < D -> 0 < rho < rhop -> 0 < mu ->
  time_v_terminal_Stokes D rhop rho mu (v_stokes D rhop rho mu) tol = Err ValueError.
Proof.
  intros HD Hr Hm. unfold time_v_terminal_Stokes. cbv zeta. rewrite pdiv_ok by lra. cbn [bind]. rewrite pdiv_ok by lra. cbn [bind]. fold (v_stokes D rhop rho mu).
  assert (E : D * D * 9.80665 * rho - D * D * 9.80665 * rhop + 18 * mu * v_stokes D rhop rho mu = 0) by (unfold v_stokes; field; lra).
  rewrite E. generalize (if Rltb tol (1 / 100000000000000000) then 2 / 100000000000000000 else tol). generalize 50%nat.
  induction n as [|n IH]; intros t; [reflexivity|]. rewrite loop_step. unfold pdiv. rewrite (proj2 (Reqb_true 0 0) eq_refl). cbn [bind]. destruct (Rltb 0.01 (t + t)); [reflexivity|apply IH].
Qed.
Example C59_time_at_terminal_refuted_ex : 0 < 0.001 /\ 0 < 1.2 < 2600 /\ 0 < 0.001. Proof. lits; splits; lra. Qed.

(** ** C59: long times *)
Lemma overflow_branch n sec ode big D rhop rho mu t V0 : 0 < D -> 0 < rhop -> 0 < rho -> 0 < mu -> big < rate D rhop mu * t ->
  integrate_drag_sphere (S n) sec ode big D rhop rho mu t V0 (Some "Stokes"%string) =
    (tt <- time_v_terminal_Stokes D rhop rho mu V0 (1 / 1000000000) ;;
     if Rltb t tt then Err ValueError
     else res <- integrate_drag_sphere n sec ode big D rhop rho mu tt V0 (Some "Stokes"%string) ;;
          let '(V_end, x_end) := res in Ok (V_end, x_end + V_end * (t - tt))).
Proof.
  intros HD Hp Hr Hm Hb. cbn [integrate_drag_sphere]. rewrite Re_ok by lra. cbn [bind]. rewrite terminal_Stokes by lra. cbn [bind]. rewrite Re_ok by lra. cbn [bind].
  rewrite String.eqb_refl. assert (DD : 0 < D * D * rhop) by posr. rewrite pdiv_ok by lra. cbn [bind]. rewrite pdiv_ok by lra. cbn [bind]. fold (rate D rhop mu).
  assert (E : (e1 <- exp_lim big (- rate D rhop mu * t) ;; e2 <- exp_lim big (rate D rhop mu * t) ;;
     V_end <- pdiv (e1 * (rate D rhop mu * V0 + 9.80665 * (rhop - rho) / rhop * (e2 - 1))) (rate D rhop mu) ;;
     x_end <- pdiv (e1 * (V0 * rate D rhop mu * (e2 - 1) + 9.80665 * (rhop - rho) / rhop * e2 * (rate D rhop mu * t - 1) + 9.80665 * (rhop - rho) / rhop)) (rate D rhop mu * rate D rhop mu) ;;
     Ok (V_end, x_end)) = Err OverflowError).
  { unfold exp_lim at 1. destruct (Rltb big (- rate D rhop mu * t)); [reflexivity|]. cbn [bind]. unfold exp_lim. rewrite (proj2 (Rltb_true _ _) Hb). reflexivity. }
  rewrite E. reflexivity.
Qed.
(** Beyond the range of the exponential function the code stops at the time where the terminal velocity is reached to
    1e-9 and goes on at constant speed.  For a sinking sphere this is the exact motion to within 1e-9 of the terminal
    velocity in speed, and to within that speed error times the remaining time in distance. *)
Theorem C59_long_times sec ode big D rhop rho mu V0 n t : 0 < D -> 0 < rho < rhop -> 0 < mu -> 0 < big -> big < rate D rhop mu * t ->
  let v := v_stokes D rhop rho mu in let k := rate D rhop mu in
  V0 <> v -> v / 1000000000 * exp (- big) <= Rabs (V0 - v) <= v / 1000000000 * exp big ->
  exists V x tt, integrate_drag_sphere (S (S n)) sec ode big D rhop rho mu t V0 (Some "Stokes"%string) = Ok (V, x) /\ tt <= t /\
    Rabs (V - speed k v V0 t) <= v / 1000000000 /\ Rabs (x - distance k v V0 t) <= v / 1000000000 * (t - tt).
Proof.
  intros HD Hr Hm HB Hb v k HV HR. assert (Hp : 0 < rhop) by lra. pose proof (rate_pos D rhop mu HD Hp Hm) as K. fold k in K, Hb.
  assert (Vp : 0 < v). { unfold v, v_stokes. assert (0 < rhop - rho) by lra. pose proof g_pos as G. posr. }
  rewrite overflow_branch by (auto; lra).
  (* the time to terminal velocity *)
  set (tol := 1 / 1000000000).
  assert (Q : exists q, time_v_terminal_Stokes D rhop rho mu V0 tol = Ok (- ln q / k) /\ 0 < q /\ q * Rabs (V0 - v) = v * tol).
  { exists (v * tol / Rabs (V0 - v)). assert (N : 0 < Rabs (V0 - v)) by (apply Rabs_pos_lt; lra). splits.
    - unfold time_v_terminal_Stokes. rewrite (proj2 (Rltb_false _ _)) by (unfold tol; lra). cbv zeta. rewrite pdiv_ok by lra. cbn [bind]. rewrite pdiv_ok by lra. cbn [bind].
      fold (v_stokes D rhop rho mu). fold v. change 50%nat with (S 49). rewrite loop_step. rewrite (attempt v V0 tol D rhop rho mu) by auto.
      replace (D * D * 9.80665 * rho - D * D * 9.80665 * rhop + 18 * mu * V0) with (18 * mu * (V0 - v)) by (unfold v, v_stokes; field; lra).
      replace (D * D * rhop / mu * -1 / 18) with (- / k) by (unfold k, rate; field; lra).
      rewrite pdiv_ok by (apply Rmult_integral_contrapositive_currified; lra). cbn [bind].
      replace (18 * mu * (approach v V0 tol - v) / (18 * mu * (V0 - v))) with (v * tol / Rabs (V0 - v)).
      2: { clearbody v. unfold approach, Rabs. destruct (Rlt_dec v V0), (Rcase_abs (V0 - v)); try lra; field; lra. }
      rewrite plog_ok. cbn [bind]. f_equal. field. lra. apply Rdiv_lt_0_compat; [unfold tol; lra|exact N].
    - apply Rdiv_lt_0_compat; [unfold tol; lra|exact N].
    - field. lra. }
  destruct Q as (q & Eq & Q0 & Qv). rewrite Eq. cbn [bind]. set (tt := - ln q / k).
  assert (KT : k * tt = - ln q) by (unfold tt; field; lra).
  assert (N : 0 < Rabs (V0 - v)) by (apply Rabs_pos_lt; lra).
  assert (B : - big <= ln q <= big).
  { assert (VT : v / 1000000000 = v * tol) by (unfold tol; field). rewrite VT, <- Qv in HR. destruct HR as [HR1 HR2].
    assert (R1 : q * exp (- big) <= 1) by nra. assert (R2 : 1 <= q * exp big) by nra.
    split.
    - assert (L : 0 <= ln (q * exp big)). { rewrite <- ln_1. destruct R2 as [L| <-]; [left; apply ln_increasing; lra|lra]. } rewrite ln_mult, ln_exp in L by (auto; apply exp_pos). lra.
    - assert (L : ln (q * exp (- big)) <= 0). { rewrite <- ln_1. pose proof (exp_pos (- big)). destruct R1 as [L| ->]; [left; apply ln_increasing; [nra|lra]|lra]. } rewrite ln_mult, ln_exp in L by (auto; apply exp_pos). lra. }
  assert (TT : tt <= t). { apply Rmult_le_reg_l with k; [exact K|]. rewrite KT. lra. }
  rewrite (proj2 (Rltb_false _ _) TT).
  rewrite closed_form; auto; [|lra|fold k; rewrite KT; unfold Rabs; destruct (Rcase_abs (- ln q)); lra]. cbn [bind]. fold k v.
  do 3 eexists. split; [reflexivity|]. split; [exact TT|].
  assert (SP : speed k v V0 tt = v + (V0 - v) * q). { unfold speed. rewrite KT, Ropp_involutive, exp_ln by exact Q0. reflexivity. }
  set (s := exp (- (k * (t - tt)))). assert (S1 : 0 < s <= 1) by (split; [apply exp_pos|apply exp_le_1; nra]).
  assert (ST : exp (- (k * t)) = q * s). { unfold s. replace (- (k * t)) with (- (k * tt) + - (k * (t - tt))) by ring. rewrite exp_plus, KT, Ropp_involutive, exp_ln by exact Q0. reflexivity. }
  split.
  - rewrite SP. unfold speed. rewrite ST. replace (v + (V0 - v) * q - (v + (V0 - v) * (q * s))) with ((V0 - v) * (q * (1 - s))) by ring.
    rewrite Rabs_mult, (Rabs_pos_eq (q * (1 - s))) by nra. replace (Rabs (V0 - v) * (q * (1 - s))) with ((q * Rabs (V0 - v)) * (1 - s)) by ring. rewrite Qv. unfold tol. assert (0 < v / 1000000000) by lra. nra.
  - rewrite SP. unfold distance. rewrite ST, KT, Ropp_involutive, exp_ln by exact Q0.
    replace (v * tt + (V0 - v) * (1 - q) / k + (v + (V0 - v) * q) * (t - tt) - (v * t + (V0 - v) * (1 - q * s) / k)) with ((V0 - v) * (q * ((t - tt) - (1 - s) / k))) by (field; lra).
    assert (Z : 0 <= (t - tt) - (1 - s) / k <= t - tt).
    { assert (1 - s <= k * (t - tt)). { pose proof (exp_ineq1_le (- (k * (t - tt)))) as X. fold s in X. lra. }
      assert (0 <= (1 - s) / k). { apply Rmult_le_pos; [lra|]. left. apply Rinv_0_lt_compat; exact K. }
      assert ((1 - s) / k <= t - tt). { apply Rmult_le_reg_l with k; [exact K|]. replace (k * ((1 - s) / k)) with (1 - s) by (field; lra). exact H. } lra. }
    rewrite Rabs_mult, (Rabs_pos_eq (q * _)) by (apply Rmult_le_pos; lra). set (z := t - tt - (1 - s) / k) in *. clearbody z.
    replace (Rabs (V0 - v) * (q * z)) with ((q * Rabs (V0 - v)) * z) by ring. rewrite Qv. unfold tol. assert (0 < v / 1000000000) by lra. nra.
Qed.
Example C59_long_times_ex : 0 < 0.0000001 /\ 0 < 1.2 < 2200 /\ 0 < 0.0000178 /\ 0 < 709 /\ 709 < rate 0.0000001 2200 0.0000178 * 10 /\
  v_stokes 0.0000001 2200 1.2 0.0000178 / 1000000000 * exp (- 709) <= Rabs (0 - v_stokes 0.0000001 2200 1.2 0.0000178).
Proof.
  assert (V : 0 < v_stokes 0.0000001 2200 1.2 0.0000178) by (unfold v_stokes; lits; lra).
  splits; try (unfold rate; lits; lra). rewrite Rminus_0_l, Rabs_Ropp, Rabs_pos_eq by lra. pose proof (exp_le_1 (- 709) ltac:(lra)). pose proof (exp_pos (- 709)). nra.
Qed.
(** The motion of a rising sphere is just as regular (the same formulas hold for it), but beyond the range of the
    exponential function the code raises ValueError for every sphere that does not sink, and every initial speed. *)
Theorem C59_long_times_rising_refuted sec ode big D rhop rho mu V0 n t : 0 < D -> 0 < rhop <= rho -> 0 < mu -> big < rate D rhop mu * t ->
  integrate_drag_sphere (S n) sec ode big D rhop rho mu t V0 (Some "Stokes"%string) = Err ValueError.
Proof. intros HD Hr Hm Hb. rewrite overflow_branch by (auto; lra). rewrite C59_time_not_sinking by assumption. reflexivity. Qed.
Example C59_long_times_rising_refuted_ex : 0 < 0.0000001 /\ 0 < 1.2 <= 998 /\ 0 < 0.001 /\ 709 < rate 0.0000001 1.2 0.001 * 10. Proof. unfold rate. lits; splits; lra. Qed.

(** ** C59: the equation handed to the integrator *)
(** Outside creeping flow the integrator gets Newton's law with the drag coefficient of the current speed. *)
Theorem C59_newton D rhop rho mu m V a : 0 < D -> 0 < rhop -> 0 < rho -> 0 < mu -> V <> 0 -> dv_dt D rhop rho mu m V = Ok a ->
  exists Cd, drag_sphere (rho * V * D / mu) m = Ok Cd /\
    rhop * (PI / 6 * D ^ 3) * a = (rhop - rho) * 9.80665 * (PI / 6 * D ^ 3) - Cd * (PI / 4 * D ^ 2) * (rho * V ^ 2 / 2).
Proof.
  intros HD Hp Hr Hm HV E. unfold dv_dt in E. rewrite pdiv_ok in E by lra. cbn [bind] in E. rewrite pdiv_ok in E by lra. cbn [bind] in E. cbv zeta in E.
  rewrite pdiv_ok in E by (assert (0 < D * rhop) by posr; lra). cbn [bind] in E. rewrite (proj2 (Reqb_false V 0) HV) in E. inv_bind E. apply Ok_inj in E. subst a.
  exists v. replace (rho * V * D / mu) with (rho * D / mu * V) by (field; lra). split; [assumption|].
  replace (- 0.75) with (- (3 / 4)) by (lits; lra). field. lra.
Qed.
Example C59_newton_ex : 0 < 0.001 /\ 0 < 2200 /\ 0 < 1.2 /\ 0 < 0.0000178 /\ 30 <> 0. Proof. lits; splits; lra. Qed.
(** At the terminal velocity found with an exact root finder the acceleration is zero. *)
Theorem C59_terminal_is_steady sec D rhop rho mu V a : close_secant 0 sec -> 0 < D -> 0 < rho < rhop -> 0 < mu ->
  v_terminal sec D rhop rho mu None = Ok V -> 0 < V -> dv_dt D rhop rho mu None V = Ok a -> a = 0.
Proof.
  intros HS HD Hr Hm E HV Ea. destruct (C58_terminal_exact sec D rhop rho mu V HS HD Hr Hm E HV) as (Cd & E1 & B).
  destruct (C59_newton D rhop rho mu None V a) as (Cd' & E2 & N); auto; try lra. rewrite E1 in E2. apply Ok_inj in E2. subst Cd'. unfold balance in B. rewrite <- B in N.
  pose proof PI_RGT_0. assert (P : 0 < rhop * (PI / 6 * D ^ 3)) by (assert (0 < rhop) by lra; posr). nra.
Qed.
Example C59_terminal_is_steady_ex : 0 < 0.00007 /\ 0 < 1.2 < 2600 /\ 0 < 0.0000178. Proof. lits; splits; lra. Qed.
(** The drag does not depend on the direction of the motion.  For upward motion ([V < 0]) the Reynolds number handed over
    is negative and the automatic choice takes Stokes' law for it, however fast the sphere moves. *)
Theorem C59_upward_drag_refuted D rhop rho mu V : 0 < D -> 0 < rhop -> 0 < rho -> 0 < mu -> V < 0 ->
  exists a, dv_dt D rhop rho mu None V = Ok a /\ rhop * (PI / 6 * D ^ 3) * a = (rhop - rho) * 9.80665 * (PI / 6 * D ^ 3) - 3 * PI * mu * D * V.
Proof.
  intros HD Hp Hr Hm HV. unfold dv_dt. rewrite pdiv_ok by lra. cbn [bind]. rewrite pdiv_ok by lra. cbn [bind]. cbv zeta.
  rewrite pdiv_ok by (assert (0 < D * rhop) by posr; lra). cbn [bind]. rewrite (proj2 (Reqb_false V 0)) by lra.
  assert (R0 : rho * D / mu * V < 0). { assert (0 < rho * D / mu) by posr. nra. }
  unfold drag_sphere. rewrite (proj2 (Rltb_false _ _)) by (clear - R0; lits; lra). rewrite (proj2 (Rleb_false _ _)) by (clear - R0; lits; lra).
  unfold Stokes. rewrite pdiv_ok by lra. cbn [bind]. eexists. split; [reflexivity|]. replace (- 0.75) with (- (3 / 4)) by (lits; lra). field. splits; try lra.
Qed.
Example C59_upward_drag_refuted_ex : 0 < 0.1 /\ 0 < 2200 /\ 0 < 998 /\ 0 < 0.001 /\ - 100 < 0. Proof. lits; splits; lra. Qed.

Print Assumptions C59_equation_of_motion.
Print Assumptions C59_steps_compose.
Print Assumptions C59_approach.
Print Assumptions C59_time_to_terminal.
Print Assumptions C59_time_not_sinking.
Print Assumptions C59_time_at_terminal_refuted.
Print Assumptions C59_long_times.
Print Assumptions C59_long_times_rising_refuted.
Print Assumptions C59_newton.
Print Assumptions C59_terminal_is_steady.
Print Assumptions C59_upward_drag_refuted.
