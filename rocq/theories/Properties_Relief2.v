(** C91 continued: how the required area responds to its arguments; steam, liquids, noise. *)
From Coq Require Import Reals Lra Lia List Bool QArith Qreals.
From Coquelicot Require Import Coquelicot.
From Verif Require Import Base Model_Real Proofs_Real Proofs_Ln Interval Model_Numerics Proofs_Numerics Model_Tables Model_Compressible Model_Relief
  Properties_Compressible Properties_PSD2 Properties_FlowMeter3 Properties_Safety Properties_Relief.
Import ListNotations.
Open Scope R_scope.

(* -- the coefficient of choked flow -- *)
Definition lchoke (k : R) : R := ln k - (k + 1) * ((ln (k + 1) - ln 2) / (k - 1)).
Lemma choke_exp k : 0 < k -> k <> 1 -> choke k = exp (lchoke k).
Proof.
  intros H1 H2. unfold choke, lchoke, Rpower. unfold Rdiv at 2. rewrite ln_mult by (try apply Rinv_0_lt_compat; lra). rewrite ln_Rinv by lra.
  unfold Rminus at 2. rewrite exp_plus, exp_ln by lra. do 2 f_equal. field. lra.
Qed.
(** The coefficient rises with the heat capacity ratio. *)
Theorem C91_C_increasing : forall k k', 1 < k -> k < k' -> exists C C', API520_C k = Ok C /\ API520_C k' = Ok C' /\ 0 < C < C'.
Proof.
  intros k k' Hk Hkk. do 2 eexists. split; [apply C_eval; lra|]. split; [apply C_eval; lra|].
  assert (0 < 0.03948) by (lits; lra). pose proof (choke_pos k Hk) as Hc. pose proof (sqrt_lt_R0 _ Hc). split; [posr|]. apply Rmult_lt_compat_l; auto. apply sqrt_lt_1_alt. split; [lra|].
  rewrite !choke_exp by lra. apply exp_increasing.
  apply (lt_closed lchoke (fun k => 2 * (ln (k + 1) - ln 2) / ((k - 1) * (k - 1)) - 1 / (k * (k - 1)))); auto.
  - intros x Hx. unfold lchoke. auto_derive; [splits; lra|]. field. splits; lra.
  - intros x Hx. assert (L : 1 - 2 / (x + 1) <= ln (x + 1) - ln 2).
    { pose proof (ln_tangent 2 (x + 1) ltac:(lra) ltac:(lra)) as T. replace ((2 - (x + 1)) / (x + 1)) with (2 / (x + 1) - 1) in T by (field; lra). lra. }
    assert (E : 1 - 2 / (x + 1) = (x - 1) / (x + 1)) by (field; lra). rewrite E in L.
    apply Rlt_le_trans with (2 * ((x - 1) / (x + 1)) / ((x - 1) * (x - 1)) - 1 / (x * (x - 1))).
    + replace (2 * ((x - 1) / (x + 1)) / ((x - 1) * (x - 1)) - 1 / (x * (x - 1))) with (1 / ((x + 1) * x)) by (field; splits; lra). posr.
    + apply Rplus_le_compat_r. apply div_le_r; [nra|]. lra.
Qed.
(** The value used at k = 1 is the limit of the formula, to the last digit given. *)
Theorem C91_C_limit : exists (f : R -> R) (l v : R), (forall k, 1 < k -> API520_C k = Ok (f k)) /\ is_lim f 1 l /\ API520_C 1 = Ok v /\ Rabs (v - l) <= 1 / 100000000000000000.
Proof.
  exists (fun k => 0.03948 * sqrt (choke k)), (0.03948 * exp (- (1 / 2))), 0.023945830445454768. splits.
  - intros k Hk. now apply C_eval.
  - assert (L : is_lim lchoke 1 (- 1)).
    { unfold lchoke. assert (D : is_derive (fun k => ln (k + 1)) 1 (1 / 2)) by (auto_derive; lra). apply quotient_limit in D.
      replace (ln (1 + 1)) with (ln 2) in D by (f_equal; lra).
      replace (-1) with (ln 1 - (1 + 1) * (1 / 2)) by (rewrite ln_1; lra).
      apply (is_lim_minus' ln (fun k => (k + 1) * ((ln (k + 1) - ln 2) / (k - 1))) 1 (ln 1) ((1 + 1) * (1 / 2))).
      - apply is_lim_continuity. apply continuity_pt_filterlim. apply (ex_derive_continuous ln). auto_derive. lra.
      - refine (is_lim_mult (fun k => k + 1) (fun k => (ln (k + 1) - ln 2) / (k - 1)) 1 (1 + 1) (1 / 2) _ D I).
        apply (is_lim_continuity (fun k => k + 1)). apply continuity_pt_filterlim. apply (ex_derive_continuous (fun k => k + 1)). auto_derive. auto. }
    assert (L2 : is_lim (fun k => 0.03948 * exp (lchoke k / 2)) 1 (0.03948 * exp (- (1 / 2)))).
    { apply (filterlim_comp _ _ _ lchoke (fun y => 0.03948 * exp (y / 2)) _ (Rbar_locally (- 1))); [exact L|].
      replace (- (1 / 2)) with (- (1) / 2) by lra. apply (ex_derive_continuous (fun y => 0.03948 * exp (y / 2))). auto_derive. auto. }
    eapply is_lim_ext_loc; [|exact L2]. exists (mkposreal (1/2) ltac:(lra)). intros k Hk Hk1. change (Rabs (k - 1) < 1 / 2) in Hk. assert (1 / 2 < k < 3 / 2) by (apply Rabs_def2 in Hk; lra).
    f_equal. rewrite choke_exp by lra. symmetry. apply sqrt_is; [apply Rlt_le, exp_pos|]. rewrite <- exp_plus. f_equal. lra.
  - unfold API520_C. rewrite (proj2 (Reqb_true 1 1)) by auto. reflexivity.
  - apply Rabs_le. assert (0.023945830445454768 - 1 / 100000000000000000 <= 0.03948 * exp (-1 / 2)) by itv 0%nat. assert (0.03948 * exp (-1 / 2) <= 0.023945830445454768 + 1 / 100000000000000000) by itv 0%nat.
    replace (- (1 / 2)) with (-1 / 2) by lra. split; lra.
Qed.

(* -- monotonicity of the gas area -- *)
(** The area is proportional to the mass flow. *)
Theorem C91_gas_proportional : forall m c T Z MW k P1 P2 Kd Kb Kc, 0 < m -> 0 < c -> 0 < T -> 0 < Z -> 0 < MW -> 1 < k -> 0 < P2 < P1 -> 0 < Kd -> 0 < Kb -> 0 < Kc ->
  exists A, API520_A_g m T Z MW k P1 P2 Kd Kb Kc = Ok A /\ API520_A_g (c * m) T Z MW k P1 P2 Kd Kb Kc = Ok (c * A).
Proof.
  intros m c T Z MW k P1 P2 Kd Kb Kc Hm Hc HT HZ HM Hk HP HKd HKb HKc. assert (0 < c * m) by posr. destruct (Rlt_le_dec P2 (critical_pressure k P1)) as [H0|H0].
  - eexists. split; [apply A_choked; auto; lra|]. rewrite A_choked by (auto; lra). f_equal. unfold Rdiv. ring.
  - eexists. split; [apply A_subsonic; auto; lra|]. rewrite A_subsonic by (auto; lra). f_equal. unfold Rdiv. ring.
Qed.
(** Choked flow: a higher relieving pressure needs less area, and the back pressure does not matter. *)
Theorem C91_gas_choked_pressure : forall m T Z MW k P1 P1' P2 P2' Kd Kb Kc, 0 < m -> 0 < T -> 0 < Z -> 0 < MW -> 1 < k -> 0 < P1 -> P1 < P1' ->
  P2 < critical_pressure k P1 -> P2' < critical_pressure k P1 -> P2' < critical_pressure k P1' -> 0 < Kd -> 0 < Kb -> 0 < Kc ->
  exists A A', API520_A_g m T Z MW k P1 P2 Kd Kb Kc = Ok A /\ API520_A_g m T Z MW k P1 P2' Kd Kb Kc = Ok A /\ API520_A_g m T Z MW k P1' P2' Kd Kb Kc = Ok A' /\ A' < A.
Proof.
  intros m T Z MW k P1 P1' P2 P2' Kd Kb Kc Hm HT HZ HM Hk HP HPP H1 H2 H3 HKd HKb HKc. do 2 eexists. split; [now apply A_choked|]. split; [now apply A_choked|]. split; [apply A_choked; auto; lra|].
  pose proof milli. pose proof (choke_pos k Hk) as Hc. set (b := sqrt (choke k)). assert (Hb : 0 < b) by now apply sqrt_lt_R0. assert (0 < 0.03948) by (lits; lra).
  assert (0 < sqrt (T * Z / MW)) by (apply sqrt_lt_R0; posr). set (a := sqrt _) in *. assert (0 < 0.000001) by (lits; lra).
  apply Rmult_lt_compat_r; auto. apply Rmult_lt_compat_r; auto. apply div_lt_l; [posr|posr|]. apply Rmult_lt_compat_l; [posr|]. nra.
Qed.
(** the flux of subsonic flow rises with the relieving pressure and falls with the back pressure *)
Lemma flux_P1 k Z MW T P1 P1' P2 : 1 < k -> 0 < Z -> 0 < MW -> 0 < T -> 0 < P2 < P1 -> P1 < P1' -> flux_subsonic k Z MW T P1 P2 < flux_subsonic k Z MW T P1' P2.
Proof.
  intros Hk HZ HM HT HP HPP. assert (HRk : 0 < Rk) by (unfold Rk; lits; lra).
  assert (E : forall P, P2 < P -> flux_subsonic k Z MW T P P2 = sqrt (2 * (MW / (Z * Rk * T)) * (k / (k - 1)) * (Rpower P ((k - 1) / k) * Rpower P2 (2 / k) * (Rpower P ((k - 1) / k) - Rpower P2 ((k - 1) / k))))).
  { intros P HPb. unfold flux_subsonic. symmetry. apply sqrt_is.
    - apply Rmult_le_pos; [lra|apply sqrt_pos].
    - set (c := 2 * (MW / (Z * Rk * T)) * (k / (k - 1))). assert (0 < c) by (unfold c; posr).
      assert (Hr : 0 < P2 / P < 1) by (split; [posr|apply Rmult_lt_reg_r with P; [lra|]; unfold Rdiv; rewrite Rmult_assoc, Rinv_l; lra]).
      assert (LQ : ln (P2 / P) = ln P2 - ln P) by (unfold Rdiv; rewrite ln_mult, ln_Rinv by (try apply Rinv_0_lt_compat; lra); ring).
      assert (HD : 0 <= Rpower (P2 / P) (2 / k) - Rpower (P2 / P) ((k + 1) / k)).
      { assert (ln (P2 / P) < 0) by (rewrite <- ln_1; apply ln_increasing; lra). unfold Rpower. apply Rlt_le, Rlt_Rminus. apply exp_increasing.
        assert (2 / k < (k + 1) / k) by (apply div_lt_r; lra). nra. }
      set (d := Rpower (P2 / P) (2 / k) - Rpower (P2 / P) ((k + 1) / k)) in *. replace (P * sqrt (c * d) * (P * sqrt (c * d))) with (P * P * (sqrt (c * d) * sqrt (c * d))) by ring.
      rewrite sqrt_sqrt by (apply Rmult_le_pos; lra). transitivity (c * (P * P * d)); [ring|]. f_equal. unfold d. rewrite Rmult_minus_distr_l, (Rmult_minus_distr_l (Rpower P _ * Rpower P2 _)). f_equal; [|].
      + replace (P * P) with (exp (2 * ln P)) by (replace (2 * ln P) with (ln P + ln P) by ring; rewrite exp_plus, exp_ln by lra; reflexivity).
        unfold Rpower. rewrite LQ. rewrite <- !exp_plus. f_equal. field. lra.
      + replace (P * P) with (exp (2 * ln P)) by (replace (2 * ln P) with (ln P + ln P) by ring; rewrite exp_plus, exp_ln by lra; reflexivity).
        unfold Rpower. rewrite LQ. rewrite <- !exp_plus. f_equal. field. lra. }
  rewrite !E by lra. apply sqrt_lt_1_alt.
  set (p := (k - 1) / k). assert (Hp : 0 < p) by (unfold p; posr).
  pose proof (Rpower_lt_l P2 P1 p ltac:(lra) ltac:(lra) Hp). pose proof (Rpower_lt_l P1 P1' p ltac:(lra) ltac:(lra) Hp).
  pose proof (Rpower_pos P2 p). pose proof (Rpower_pos P2 (2 / k)). set (x := Rpower P1 p) in *. set (x' := Rpower P1' p) in *. set (y := Rpower P2 p) in *. set (w := Rpower P2 (2 / k)) in *.
  assert (0 < 2 * (MW / (Z * Rk * T)) * (k / (k - 1))) by posr. set (c := 2 * _ * _) in *.
  assert (0 < x * w * (x - y)) by (apply Rmult_lt_0_compat; [posr|lra]).
  assert (x * w * (x - y) < x' * w * (x' - y)).
  { apply Rlt_trans with (x' * w * (x - y)); [apply Rmult_lt_compat_r; [lra|]; apply Rmult_lt_compat_r; lra|apply Rmult_lt_compat_l; [posr|lra]]. }
  split; [apply Rlt_le; apply Rmult_lt_0_compat; auto|]. apply Rmult_lt_compat_l; auto.
Qed.
Lemma flux_P2 k Z MW T P1 P2 P2' : 1 < k -> 0 < Z -> 0 < MW -> 0 < T -> 0 < P2 -> P2 < P2' -> P2' < P1 -> critical_pressure k P1 <= P2 -> flux_subsonic k Z MW T P1 P2' < flux_subsonic k Z MW T P1 P2.
Proof.
  intros Hk HZ HM HT HP HPP HP1 HC. assert (HRk : 0 < Rk) by (unfold Rk; lits; lra). unfold flux_subsonic. apply Rmult_lt_compat_l; [lra|]. apply sqrt_lt_1_alt.
  assert (0 < 2 * (MW / (Z * Rk * T)) * (k / (k - 1))) by posr. set (c := 2 * _ * _) in *.
  set (h := fun r => Rpower r (2 / k) - Rpower r ((k + 1) / k)). fold (h (P2 / P1)). fold (h (P2' / P1)).
  assert (Hr : P2 / P1 < P2' / P1) by (apply div_lt_r; lra). assert (Hr' : P2' / P1 < 1) by (apply Rmult_lt_reg_r with P1; [lra|]; unfold Rdiv; rewrite Rmult_assoc, Rinv_l; lra).
  assert (H0 : 0 < P2 / P1) by posr.
  assert (Hc : Rpower (2 / (k + 1)) (k / (k - 1)) <= P2 / P1). { unfold critical_pressure in HC. apply Rmult_le_reg_r with P1; [lra|]. unfold Rdiv at 3. rewrite Rmult_assoc, Rinv_l, Rmult_1_r by lra. lra. }
  assert (Hpos : forall r, 0 < r < 1 -> 0 < h r).
  { intros r Hrr. unfold h, Rpower. assert (ln r < 0) by (rewrite <- ln_1; apply ln_increasing; lra). apply Rlt_Rminus, exp_increasing. assert (2 / k < (k + 1) / k) by (apply div_lt_r; lra). nra. }
  split; [apply Rlt_le, Rmult_lt_0_compat; auto; apply Hpos; lra|]. apply Rmult_lt_compat_l; auto.
  set (r0 := P2 / P1) in *. set (r1 := P2' / P1) in *. clearbody r0 r1.
  (* h decreases beyond the critical ratio *)
  assert (HD : forall r, 0 < r -> is_derive h r (2 / k * Rpower r (2 / k - 1) - (k + 1) / k * Rpower r ((k + 1) / k - 1))).
  { intros r Hrr. unfold h. apply (is_derive_minus (fun r => Rpower r (2 / k)) (fun r => Rpower r ((k + 1) / k))); now apply Rpower_derive. }
  assert (HN : forall r, r0 < r < r1 -> 2 / k * Rpower r (2 / k - 1) - (k + 1) / k * Rpower r ((k + 1) / k - 1) < 0).
  { intros r Hrr. assert (E : Rpower r ((k + 1) / k - 1) = Rpower r (2 / k - 1) * Rpower r ((k - 1) / k)) by (rewrite <- Rpower_plus; f_equal; field; lra). rewrite E.
    assert (G : 2 / (k + 1) < Rpower r ((k - 1) / k)).
    { apply Rle_lt_trans with (Rpower (Rpower (2 / (k + 1)) (k / (k - 1))) ((k - 1) / k)).
      - rewrite Rpower_mult. replace (k / (k - 1) * ((k - 1) / k)) with 1 by (field; lra). rewrite Rpower_1 by posr. lra.
      - apply Rpower_lt_l; [apply Rpower_pos|lra|posr]. }
    pose proof (Rpower_pos r (2 / k - 1)). set (x := Rpower r (2 / k - 1)) in *. set (y := Rpower r ((k - 1) / k)) in *.
    assert (2 / k < (k + 1) / k * y). { replace (2 / k) with ((k + 1) / k * (2 / (k + 1))) by (field; lra). apply Rmult_lt_compat_l; [posr|auto]. }
    nra. }
  destruct (MVT_gen h r0 r1 (fun r => 2 / k * Rpower r (2 / k - 1) - (k + 1) / k * Rpower r ((k + 1) / k - 1))) as (z & B & E).
  - rewrite Rmin_left, Rmax_right by lra. intros x Hx. apply HD. lra.
  - rewrite Rmin_left, Rmax_right by lra. intros x Hx. apply continuity_pt_filterlim, (@ex_derive_continuous R_AbsRing R_NormedModule). eexists. apply HD. lra.
  - rewrite Rmin_left, Rmax_right in B by lra.
    (* the derivative is negative also at the right end and non-positive at the left end; use the midpoint *)
    assert (HS : forall x y, r0 <= x -> x < y -> y <= r1 -> h y < h x).
    { intros x y Hx Hxy Hy.
      assert (HW : forall u v, r0 < u -> u < v -> v < r1 -> h v < h u).
      { intros u v Hu Huv Hv. pose proof (lt_closed (fun r => - h r) (fun r => - (2 / k * Rpower r (2 / k - 1) - (k + 1) / k * Rpower r ((k + 1) / k - 1))) u v Huv) as L.
        assert (- h u < - h v); [|lra]. apply L.
        - intros t Ht. apply (is_derive_opp h). apply HD. lra.
        - intros t Ht. specialize (HN t ltac:(lra)). lra. }
      assert (CO : forall t, r0 <= t <= r1 -> continuity_pt h t).
      { intros t Ht. apply continuity_pt_filterlim, (@ex_derive_continuous R_AbsRing R_NormedModule). eexists. apply HD. lra. }
      destruct (MVT_gen h x y (fun r => 2 / k * Rpower r (2 / k - 1) - (k + 1) / k * Rpower r ((k + 1) / k - 1))) as (t & Bt & Et).
      + rewrite Rmin_left, Rmax_right by lra. intros w Hw. apply HD. lra.
      + rewrite Rmin_left, Rmax_right by lra. intros w Hw. apply CO. lra.
      + rewrite Rmin_left, Rmax_right in Bt by lra. destruct (MVT_cor2 h (fun r => 2 / k * Rpower r (2 / k - 1) - (k + 1) / k * Rpower r ((k + 1) / k - 1)) x y Hxy) as (q & Eq & Hq).
        * intros w Hw. apply is_derive_Reals. apply HD. lra.
        * specialize (HN q ltac:(lra)). nra. }
    apply HS; lra.
Qed.
(** the closed form written with the flux *)
Lemma A_sub_flux m T Z MW k P1 P2 Kd Kb Kc : 0 < m -> 0 < T -> 0 < Z -> 0 < MW -> 1 < k -> 0 < P2 < P1 -> critical_pressure k P1 <= P2 -> 0 < Kd -> 0 < Kc ->
  API520_A_g m T Z MW k P1 P2 Kd Kb Kc = Ok (17.9 * 3.6 * sqrt (2 / Rk) * m / (Kd * Kc) / flux_subsonic k Z MW T P1 P2).
Proof.
  intros Hm HT HZ HM Hk HP HC HKd HKc. rewrite A_subsonic by auto. f_equal.
  pose proof milli. destruct (F2_eval k P1 P2 ltac:(auto) ltac:(auto)) as [_ HF]. set (F := k / (k - 1) * _ * _) in *.
  set (f := sqrt F). assert (Hf : 0 < f) by now apply sqrt_lt_R0. assert (HRk : 0 < Rk) by (unfold Rk; lits; lra).
  assert (0 < P1 * 0.001 - P2 * 0.001) by nra.
  set (a := sqrt (T * Z / (MW * (P1 * 0.001) * (P1 * 0.001 - P2 * 0.001)))).
  assert (Ha : 0 < a) by (apply sqrt_lt_R0; posr). assert (Ha2 : a * a = T * Z / (MW * (P1 * 0.001) * (P1 * 0.001 - P2 * 0.001))) by (apply sqrt_sqrt; apply Rlt_le; posr).
  set (h := sqrt (2 / Rk)). assert (Hh : 0 < h) by (apply sqrt_lt_R0; posr). assert (Hh2 : h * h = 2 / Rk) by (apply sqrt_sqrt; apply Rlt_le; posr).
  assert (EF : flux_subsonic k Z MW T P1 P2 = f * h / (a * 0.001)).
  { unfold flux_subsonic. assert (Hr : 0 < P2 / P1) by posr.
    replace (Rpower (P2 / P1) ((k + 1) / k)) with (Rpower (P2 / P1) (2 / k) * Rpower (P2 / P1) ((k - 1) / k)).
    2:{ rewrite <- Rpower_plus. f_equal. field. lra. }
    assert (EFF : f * f = F) by (apply sqrt_sqrt; lra).
    assert (Hpos : 0 < f * h / (a * 0.001)) by posr.
    transitivity (P1 * (f * h / (a * 0.001) / P1)); [|field; splits; lra]. f_equal. apply sqrt_is; [apply Rlt_le; posr|].
    replace (f * h / (a * 0.001) / P1 * (f * h / (a * 0.001) / P1)) with ((f * f) * (h * h) / ((a * a) * (0.001 * 0.001)) / (P1 * P1)) by (field; splits; lra).
    rewrite EFF, Hh2, Ha2. unfold F. set (x := Rpower (P2 / P1) (2 / k)). set (y := Rpower (P2 / P1) ((k - 1) / k)). lits. field. splits; lra. }
  rewrite EF. lits. field. splits; lra.
Qed.
(** Subsonic flow: a higher relieving pressure needs less area, a higher back pressure more. *)
Theorem C91_gas_subsonic_pressure : forall m T Z MW k P1 P1' P2 P2' Kd Kb Kc, 0 < m -> 0 < T -> 0 < Z -> 0 < MW -> 1 < k -> 0 < P2 -> P2 < P2' -> P2' < P1 -> P1 < P1' ->
  critical_pressure k P1' <= P2 -> 0 < Kd -> 0 < Kc ->
  exists A A' A'', API520_A_g m T Z MW k P1 P2 Kd Kb Kc = Ok A /\ API520_A_g m T Z MW k P1 P2' Kd Kb Kc = Ok A' /\ API520_A_g m T Z MW k P1' P2 Kd Kb Kc = Ok A'' /\ A'' < A < A'.
Proof.
  intros m T Z MW k P1 P1' P2 P2' Kd Kb Kc Hm HT HZ HM Hk H1 H2 H3 H4 HC HKd HKc.
  assert (HC1 : critical_pressure k P1 <= P2).
  { apply Rle_trans with (critical_pressure k P1'); auto. unfold critical_pressure. apply Rmult_le_compat_r; [apply Rlt_le, Rpower_pos|lra]. }
  do 3 eexists. split; [apply A_sub_flux; auto; lra|]. split; [apply A_sub_flux; auto; lra|]. split; [apply A_sub_flux; auto; lra|].
  assert (HRk : 0 < Rk) by (unfold Rk; lits; lra). assert (0 < sqrt (2 / Rk)) by (apply sqrt_lt_R0; posr). set (h := sqrt _) in *.
  pose proof (flux_P1 k Z MW T P1 P1' P2 Hk HZ HM HT ltac:(lra) H4). pose proof (flux_P2 k Z MW T P1 P2 P2' Hk HZ HM HT H1 H2 H3 HC1).
  pose proof (flux_subsonic_pos k Z MW T P1 P2 Hk HZ HM HT ltac:(lra)). pose proof (flux_subsonic_pos k Z MW T P1 P2' Hk HZ HM HT ltac:(lra)).
  assert (0 < 17.9 * 3.6 * h * m / (Kd * Kc)) by (lits; posr).
  split; apply div_lt_l; auto.
Qed.
Example C91_gas_subsonic_pressure_ex : critical_pressure 1.4 200001 <= 199000.
Proof. unfold critical_pressure. assert (Rpower (2 / (1.4 + 1)) (1.4 / (1.4 - 1)) < 0.53) by itv 0%nat. lits. lra. Qed.

Print Assumptions C91_C_increasing.
Print Assumptions C91_C_limit.
Print Assumptions C91_gas_proportional.
Print Assumptions C91_gas_choked_pressure.
Print Assumptions C91_gas_subsonic_pressure.
