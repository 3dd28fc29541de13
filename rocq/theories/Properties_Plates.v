(** Friction factors of plate heat exchangers. *)
From Coq Require Import Reals String List Bool Lra Lia Psatz.
From Verif Require Import Base Model_Real Proofs_Real Proofs_Ln Interval Model_Small.
Import ListNotations.
Open Scope R_scope.

(** *** Specification: Martin's combination of flow along the furrows and wavy longitudinal flow (Darcy friction factors g0 and g1) *)
Definition furrow (phi g0 : R) : R := 0.18 * tan phi + 0.36 * sin phi + g0 / cos phi.
Definition martin (phi g0 g1 : R) : R := 1 / (cos phi / sqrt (furrow phi g0) + (1 - cos phi) / sqrt (3.8 * g1)) ^ 2.
Definition straight_1999 (Re : R) : R := if Rlt_dec Re 2000 then 64 / Re else 1 / (0.78 * ln Re - 1.5) ^ 2.
Definition wavy_1999 (Re : R) : R := if Rlt_dec Re 2000 then 596 / Re + 3.85 else 39 * Rpower Re (-0.289).
Definition straight_VDI (Re : R) : R := if Rlt_dec Re 2000 then 64 / Re else 1 / (1.8 * log10 Re - 1.5) ^ 2.
Definition wavy_VDI (Re : R) : R := if Rlt_dec Re 2000 then 597 / Re + 3.85 else 39 * Rpower Re (-0.289).

Lemma angle_range a : 0 <= a < 90 -> 0 <= radians a < PI / 2. Proof. intros. pose proof PI_RGT_0. unfold radians. split; [apply Rmult_le_pos; lra|nra]. Qed.
Section Phi.
  Variable phi : R.
  Hypothesis Hphi : 0 <= phi < PI / 2.
  Lemma cos_01 : 0 < cos phi <= 1. Proof. pose proof PI_RGT_0. split; [apply cos_gt_0; lra|apply COS_bound]. Qed.
  Lemma sin_nn : 0 <= sin phi. Proof. pose proof PI_RGT_0. apply sin_ge_0; lra. Qed.
  Lemma tan_nn : 0 <= tan phi. Proof. unfold tan. pose proof cos_01. pose proof sin_nn. apply Rmult_le_pos; auto. left. apply Rinv_0_lt_compat. lra. Qed.
  Lemma furrow_pos g0 : 0 < g0 -> 0 < furrow phi g0.
  Proof. intros. pose proof cos_01. pose proof sin_nn. pose proof tan_nn. unfold furrow. assert (0 < g0 / cos phi) by (apply Rdiv_lt_0_compat; lra). lits. lra. Qed.
  Definition inverse_root (g0 g1 : R) : R := cos phi / sqrt (furrow phi g0) + (1 - cos phi) / sqrt (3.8 * g1).
  Lemma inverse_root_pos g0 g1 : 0 < g0 -> 0 < g1 -> 0 < inverse_root g0 g1.
  Proof.
    intros. pose proof cos_01. pose proof (furrow_pos g0 H). unfold inverse_root. assert (0 < 3.8 * g1) by (lits; lra). assert (0 < cos phi / sqrt (furrow phi g0)) by (apply Rdiv_lt_0_compat; [|apply sqrt_lt_R0]; lra).
    assert (0 <= (1 - cos phi) / sqrt (3.8 * g1)) by (apply Rmult_le_pos; [lra|left; apply Rinv_0_lt_compat, sqrt_lt_R0; auto]). lra.
  Qed.
  Lemma martin_pos g0 g1 : 0 < g0 -> 0 < g1 -> 0 < martin phi g0 g1.
  Proof. intros. pose proof (inverse_root_pos g0 g1 H H0). unfold martin. fold (inverse_root g0 g1). posr. Qed.
  Lemma square_anti x y : 0 < x -> x <= y -> 1 / y ^ 2 <= 1 / x ^ 2. Proof. intros. apply div_le_l; [lra|posr|nra]. Qed.
  Lemma square_anti_lt x y : 0 < x -> x < y -> 1 / y ^ 2 < 1 / x ^ 2. Proof. intros. apply div_lt_l; [lra|posr|nra]. Qed.
  Lemma martin_mono g0 g1 h0 h1 : 0 < g0 -> g0 <= h0 -> 0 < g1 -> g1 <= h1 -> martin phi g0 g1 <= martin phi h0 h1 /\ (g0 < h0 -> martin phi g0 g1 < martin phi h0 h1).
  Proof.
    intros. pose proof cos_01 as C. pose proof (furrow_pos g0 H). assert (F : furrow phi g0 <= furrow phi h0) by (unfold furrow; apply Rplus_le_compat_l; apply Rmult_le_compat_r; auto; left; apply Rinv_0_lt_compat; lra).
    assert (W : (1 - cos phi) / sqrt (3.8 * h1) <= (1 - cos phi) / sqrt (3.8 * g1)) by (apply div_le_l; [lra|apply sqrt_lt_R0; lits; lra|apply sqrt_le_1_alt; lits; lra]).
    unfold martin. split.
    - apply square_anti; [apply inverse_root_pos; lra|]. apply Rplus_le_compat; auto. apply div_le_l; [lra|apply sqrt_lt_R0; auto|apply sqrt_le_1_alt; auto].
    - intros L. apply square_anti_lt; [apply inverse_root_pos; lra|]. apply Rplus_lt_le_compat; auto. apply div_lt_l; [lra|apply sqrt_lt_R0; auto|apply sqrt_lt_1_alt]. split; [lra|]. unfold furrow. apply Rplus_lt_compat_l. apply Rmult_lt_compat_r; auto. apply Rinv_0_lt_compat. lra.
  Qed.
  Lemma martin_scale k g0 g1 : 1 <= k -> 0 < g0 -> 0 < g1 -> martin phi (k * g0) (k * g1) <= k * martin phi g0 g1.
  Proof.
    intros Hk H0 H1. pose proof cos_01 as C. pose proof (furrow_pos g0 H0) as F0. assert (F1 : 0 < furrow phi (k * g0)) by (apply furrow_pos; nra). assert (Hs : 0 < sqrt k) by (apply sqrt_lt_R0; lra). assert (Hq : sqrt k * sqrt k = k) by (apply sqrt_sqrt; lra).
    assert (F : furrow phi (k * g0) <= k * furrow phi g0). { unfold furrow. pose proof sin_nn. pose proof tan_nn. replace (k * g0 / cos phi) with (k * (g0 / cos phi)) by (field; lra). set (u := g0 / cos phi). clearbody u. lits. nra. }
    assert (E : inverse_root g0 g1 <= sqrt k * inverse_root (k * g0) (k * g1)).
    { unfold inverse_root. rewrite Rmult_plus_distr_l. apply Rplus_le_compat.
      - assert (S : sqrt (furrow phi (k * g0)) <= sqrt k * sqrt (furrow phi g0)) by (rewrite <- sqrt_mult by lra; apply sqrt_le_1_alt; auto). assert (0 < sqrt (furrow phi (k * g0))) by (apply sqrt_lt_R0; auto). assert (0 < sqrt (furrow phi g0)) by (apply sqrt_lt_R0; auto).
        set (a := sqrt (furrow phi (k * g0))) in *. set (b := sqrt (furrow phi g0)) in *. clearbody a b. replace (sqrt k * (cos phi / a)) with (cos phi / (a / sqrt k)) by (field; lra). apply div_le_l; [lra|posr|]. apply Rmult_le_reg_r with (sqrt k); auto. replace (a / sqrt k * sqrt k) with a by (field; lra). lra.
      - replace (3.8 * (k * g1)) with (k * (3.8 * g1)) by ring. rewrite (sqrt_mult k) by (lits; lra). assert (0 < sqrt (3.8 * g1)) by (apply sqrt_lt_R0; lits; lra). right. field. lra. }
    unfold martin. fold (inverse_root g0 g1) (inverse_root (k * g0) (k * g1)). assert (P0 : 0 < inverse_root g0 g1) by (apply inverse_root_pos; auto). assert (P1 : 0 < inverse_root (k * g0) (k * g1)) by (apply inverse_root_pos; nra).
    set (x := inverse_root g0 g1) in *. set (y := inverse_root (k * g0) (k * g1)) in *. clearbody x y. replace (k * (1 / x ^ 2)) with (k / x ^ 2) by (field; lra). apply Rmult_le_reg_r with (y ^ 2 * x ^ 2); [posr|]. replace (1 / y ^ 2 * (y ^ 2 * x ^ 2)) with (x ^ 2) by (field; lra). replace (k / x ^ 2 * (y ^ 2 * x ^ 2)) with (k * y ^ 2) by (field; lra). rewrite <- Hq. nra.
  Qed.
End Phi.

Lemma ln2000 : 7.6 < ln 2000. Proof. itv 0%nat. Qed.
Lemma ln_big Re : 2000 <= Re -> 7.6 < ln Re. Proof. intros [G|<-]; pose proof ln2000; auto. assert (ln 2000 < ln Re) by (apply ln_increasing; lra). lra. Qed.
Lemma log_big Re : 2000 <= Re -> 3 < log10 Re.
Proof.
  intros H. pose proof (ln_big Re H). unfold log10. assert (ln 10 < 2.31) by itv 0%nat. assert (0 < ln 10) by (rewrite <- ln_1; apply ln_increasing; lra). apply Rmult_lt_reg_r with (ln 10); auto. replace (ln Re / ln 10 * ln 10) with (ln Re) by (field; lra). lits. lra.
Qed.
Lemma straight_pos Re : 0 < Re -> 0 < straight_1999 Re /\ 0 < wavy_1999 Re /\ 0 < straight_VDI Re /\ 0 < wavy_VDI Re.
Proof.
  intros H. unfold straight_1999, wavy_1999, straight_VDI, wavy_VDI. destruct (Rlt_dec Re 2000) as [L|L].
  - assert (0 < 64 / Re /\ 0 < 596 / Re /\ 0 < 597 / Re) by (splits; apply Rdiv_lt_0_compat; lra). lits. lra.
  - pose proof (ln_big Re ltac:(lra)) as B. assert (LX : 1.8 * log10 Re > 1.8 * 3). { unfold log10. assert (ln 10 < 2.31) by itv 0%nat. assert (0 < ln 10) by (rewrite <- ln_1; apply ln_increasing; lra). assert (3 < ln Re / ln 10). { apply Rmult_lt_reg_r with (ln 10); auto. replace (ln Re / ln 10 * ln 10) with (ln Re) by (field; lra). lits. lra. } lits. lra. }
    assert (0 < 0.78 * ln Re - 1.5) by (lits; lra). assert (0 < 1.8 * log10 Re - 1.5) by (lits; lra). splits; posr.
Qed.
(** both functions are Martin's equation; the first in Fanning friction factors *)
Theorem C101_Martin Re angle : 0 < Re -> 0 <= angle < 90 ->
  friction_plate_Martin_1999 Re angle = Ok (martin (radians angle) (straight_1999 Re) (wavy_1999 Re)) /\ 0 < martin (radians angle) (straight_1999 Re) (wavy_1999 Re) /\
  friction_plate_Martin_VDI Re angle = Ok (martin (radians angle) (straight_VDI Re) (wavy_VDI Re)) /\ 0 < martin (radians angle) (straight_VDI Re) (wavy_VDI Re).
Proof.
  intros HR HA. pose proof (angle_range angle HA) as HP. unfold friction_plate_Martin_1999, friction_plate_Martin_VDI. cbv zeta. set (phi := radians angle) in *. clearbody phi. destruct (straight_pos Re HR) as (S1 & S2 & S3 & S4). pose proof (cos_01 phi HP) as C.
  assert (G : forall g0 g1, 0 < g0 -> 0 < g1 -> (t6 <- pdiv g0 (cos phi) ;; t7 <- psqrt (0.18 * tan phi + 0.36 * sin phi + t6) ;; rhs <- pdiv (cos phi * 1) t7 ;; t9 <- psqrt (3.8 * g1) ;; t10 <- pdiv ((1 - cos phi) * 1) t9 ;; pdiv 1 ((rhs + t10) ^ 2)) = Ok (martin phi g0 g1)).
  { intros g0 g1 H0 H1. pose proof (furrow_pos phi HP g0 H0) as F. pose proof (inverse_root_pos phi HP g0 g1 H0 H1) as I. assert (0 < 3.8 * g1) by (lits; lra). rewrite (pdiv_ok g0) by lra. cbn [bind]. fold (furrow phi g0). rewrite psqrt_ok by lra. cbn [bind]. assert (0 < sqrt (furrow phi g0)) by (apply sqrt_lt_R0; auto). rewrite pdiv_ok by lra. cbn [bind]. rewrite psqrt_ok by lra. cbn [bind]. assert (0 < sqrt (3.8 * g1)) by (apply sqrt_lt_R0; auto). rewrite pdiv_ok by lra. cbn [bind]. rewrite !Rmult_1_r. fold (inverse_root phi g0 g1). rewrite pdiv_ok by posr. reflexivity. }
  assert (G4 : forall g0 g1, 0 < g0 -> 0 < g1 -> (t6 <- pdiv g0 (cos phi) ;; t7 <- psqrt (0.045 * tan phi + 0.09 * sin phi + t6) ;; rhs <- pdiv (cos phi * 1) t7 ;; t9 <- psqrt (3.8 * g1) ;; t10 <- pdiv ((1 - cos phi) * 1) t9 ;; ff <- pdiv 1 ((rhs + t10) ^ 2) ;; Ok (ff * 4)) = Ok (martin phi (4 * g0) (4 * g1))).
  { intros g0 g1 H0 H1. assert (H4 : 0 < 4 * g0) by lra. assert (H5 : 0 < 4 * g1) by lra. pose proof (furrow_pos phi HP (4 * g0) H4) as F. pose proof (inverse_root_pos phi HP (4 * g0) (4 * g1) H4 H5) as I. assert (0 < 3.8 * g1) by (lits; lra). rewrite (pdiv_ok g0) by lra. cbn [bind].
    assert (EF : furrow phi (4 * g0) = 4 * (0.045 * tan phi + 0.09 * sin phi + g0 / cos phi)) by (unfold furrow; lits; field; lra). set (f := 0.045 * tan phi + 0.09 * sin phi + g0 / cos phi) in *. clearbody f. rewrite psqrt_ok by lra. cbn [bind]. assert (0 < sqrt f) by (apply sqrt_lt_R0; lra). rewrite pdiv_ok by lra. cbn [bind]. rewrite psqrt_ok by lra. cbn [bind]. assert (0 < sqrt (3.8 * g1)) by (apply sqrt_lt_R0; auto). rewrite pdiv_ok by lra. cbn [bind]. rewrite !Rmult_1_r.
    assert (S4' : sqrt 4 = 2) by (replace 4 with (2 * 2) by ring; apply sqrt_square; lra). assert (EI : inverse_root phi (4 * g0) (4 * g1) = (cos phi / sqrt f + (1 - cos phi) / sqrt (3.8 * g1)) / 2). { unfold inverse_root. rewrite EF. replace (3.8 * (4 * g1)) with (4 * (3.8 * g1)) by ring. rewrite !(sqrt_mult 4) by lra. rewrite S4'. field. lra. }
    unfold martin. fold (inverse_root phi (4 * g0) (4 * g1)). rewrite EI in *. set (z := cos phi / sqrt f + (1 - cos phi) / sqrt (3.8 * g1)) in *. clearbody z. rewrite pdiv_ok by (assert (0 < z) by lra; posr). cbn [bind]. f_equal. field. lra. }
  splits; try (apply martin_pos; auto).
  - unfold straight_1999, wavy_1999 in *. destruct (Rlt_dec Re 2000) as [L|L].
    + rewrite (proj2 (Rltb_true Re 2000)) by lra. rewrite (pdiv_ok 16), (pdiv_ok 149) by lra. cbn [bind]. rewrite G4; [|apply Rdiv_lt_0_compat; lra|assert (0 < 149 / Re) by (apply Rdiv_lt_0_compat; lra); lits; lra]. f_equal. f_equal; lits; field; lra.
    + rewrite (proj2 (Rltb_false Re 2000)) by lra. rewrite plog_ok by lra. cbn [bind]. pose proof (ln_big Re ltac:(lra)) as B. rewrite (pdiv_ok 1) by (assert (0 < 1.56 * ln Re - 3) by (lits; lra); posr). cbn [bind]. rewrite ppow_ok by lra. cbn [bind]. pose proof (Rpower_pos Re (-0.289)). rewrite G4; [|assert (0 < 1.56 * ln Re - 3) by (lits; lra); posr|lits; lra]. f_equal. f_equal; [|lits; lra]. replace (0.78 * ln Re - 1.5) with ((1.56 * ln Re - 3) / 2) by (lits; field). assert (0 < 1.56 * ln Re - 3) by (lits; lra). set (z := 1.56 * ln Re - 3) in *. clearbody z. field. lra.
  - unfold straight_VDI, wavy_VDI in *. destruct (Rlt_dec Re 2000) as [L|L].
    + rewrite (proj2 (Rltb_true Re 2000)) by lra. rewrite (pdiv_ok 64), (pdiv_ok 597) by lra. cbn [bind]. rewrite G by auto. reflexivity.
    + rewrite (proj2 (Rltb_false Re 2000)) by lra. rewrite plog10_ok by lra. cbn [bind]. rewrite (pdiv_ok 1). 2:{ intros Z. rewrite Z in S3. unfold Rdiv in S3. rewrite Rinv_0 in S3. lra. } cbn [bind]. rewrite ppow_ok by lra. cbn [bind]. rewrite G by auto. reflexivity.
Qed.
(** flat channels (chevron angle 0): the straight channel's friction factor, in slow flow the pipe law 64/Re *)
Theorem C101_Martin_flat Re : 0 < Re -> friction_plate_Martin_1999 Re 0 = Ok (straight_1999 Re) /\ friction_plate_Martin_VDI Re 0 = Ok (straight_VDI Re).
Proof.
  intros H. destruct (C101_Martin Re 0 H ltac:(lra)) as (-> & _ & -> & _). destruct (straight_pos Re H) as (S1 & S2 & S3 & S4). unfold radians. rewrite Rmult_0_l.
  assert (F : forall g0 g1, 0 < g0 -> 0 < g1 -> martin 0 g0 g1 = g0). { intros g0 g1 H0 H1. unfold martin, furrow. rewrite tan_0, sin_0, cos_0. replace (0.18 * 0 + 0.36 * 0 + g0 / 1) with g0 by field. replace ((1 - 1) / sqrt (3.8 * g1)) with 0 by (unfold Rdiv; ring). assert (0 < sqrt g0) by (apply sqrt_lt_R0; auto). rewrite Rplus_0_r. rewrite <- (sqrt_sqrt g0) at 2 by lra. field. lra. }
  rewrite !F by auto. auto.
Qed.
(** faster flow has less friction, on either side of the transition *)
Theorem C101_Martin_falls Re Re' angle : 0 < Re -> Re < Re' -> 0 <= angle < 90 -> Re' < 2000 \/ 2000 <= Re ->
  exists f f' g g', friction_plate_Martin_1999 Re angle = Ok f /\ friction_plate_Martin_1999 Re' angle = Ok f' /\ f' < f /\
  friction_plate_Martin_VDI Re angle = Ok g /\ friction_plate_Martin_VDI Re' angle = Ok g' /\ g' < g.
Proof.
  intros H HR HA HB. destruct (C101_Martin Re angle H HA) as (-> & _ & -> & _). destruct (C101_Martin Re' angle ltac:(lra) HA) as (-> & _ & -> & _). pose proof (angle_range angle HA) as HP. set (phi := radians angle) in *. clearbody phi.
  destruct (straight_pos Re' ltac:(lra)) as (S1 & S2 & S3 & S4). do 4 eexists. splits; try reflexivity.
  - apply martin_mono; auto; unfold straight_1999, wavy_1999 in *; destruct (Rlt_dec Re 2000), (Rlt_dec Re' 2000); try lra.
    all: try (left; apply div_lt_l; lra); try (apply div_lt_l; lra).
    all: try (pose proof (ln_big Re ltac:(lra)); assert (ln Re < ln Re') by (apply ln_increasing; lra)).
    all: try (left; apply square_anti_lt; lits; lra); try (apply square_anti_lt; lits; lra).
    + apply Rplus_le_compat_r. left. apply div_lt_l; lra.
    + left. apply Rmult_lt_compat_l; [lra|]. apply Rpower_anti_lt_l; lits; lra.
  - apply martin_mono; auto; unfold straight_VDI, wavy_VDI in *; destruct (Rlt_dec Re 2000), (Rlt_dec Re' 2000); try lra.
    all: try (left; apply div_lt_l; lra); try (apply div_lt_l; lra).
    all: try (assert (log10 Re < log10 Re') by (apply log10_lt; lra); pose proof (log_big Re ltac:(lra))).
    all: try (left; apply square_anti_lt; lits; lra); try (apply square_anti_lt; lits; lra).
    + apply Rplus_le_compat_r. left. apply div_lt_l; lra.
    + left. apply Rmult_lt_compat_l; [lra|]. apply Rpower_anti_lt_l; lits; lra.
Qed.
(** the article's and the handbook's version never differ by more than 0.6 % *)
Theorem C101_Martin_agree Re angle : 0 < Re -> 0 <= angle < 90 -> exists f g, friction_plate_Martin_1999 Re angle = Ok f /\ friction_plate_Martin_VDI Re angle = Ok g /\ Rabs (g / f - 1) <= 0.006.
Proof.
  intros H HA. destruct (C101_Martin Re angle H HA) as (E1 & P1 & E2 & P2). rewrite E1, E2. do 2 eexists. split; [reflexivity|]. split; [reflexivity|]. pose proof (angle_range angle HA) as HP. set (phi := radians angle) in *. clearbody phi. destruct (straight_pos Re H) as (S1 & S2 & S3 & S4).
  assert (B : straight_VDI Re <= straight_1999 Re <= 1.006 * straight_VDI Re /\ wavy_1999 Re <= wavy_VDI Re <= 1.006 * wavy_1999 Re).
  { unfold straight_1999, wavy_1999, straight_VDI, wavy_VDI in *. destruct (Rlt_dec Re 2000) as [L|L].
    - assert (0 < 64 / Re) by (apply Rdiv_lt_0_compat; lra). assert (0 < / Re) by (apply Rinv_0_lt_compat; lra). unfold Rdiv in *. lits. lra.
    - pose proof (ln_big Re ltac:(lra)) as B. pose proof (Rpower_pos Re (-0.289)). split; [|set (w := 39 * Rpower Re (-0.289)) in *; clearbody w; lits; lra]. unfold log10. set (x := ln Re) in *. assert (K : 0.7817 < 1.8 / ln 10 < 0.78174) by (split; itv 0%nat). replace (1.8 * (x / ln 10)) with (1.8 / ln 10 * x) by (field; apply Rgt_not_eq, ln10_pos). set (k := 1.8 / ln 10) in *. clearbody k x. clear - K B.
      assert (A1 : 0 < 0.78 * x - 1.5) by (lits; lra). assert (A2 : 0.78 * x - 1.5 <= k * x - 1.5) by (lits; nra). assert (A3 : k * x - 1.5 <= 1.00299 * (0.78 * x - 1.5)) by (lits; nra). set (a := 0.78 * x - 1.5) in *. set (b := k * x - 1.5) in *. clearbody a b. split; [apply square_anti; auto|].
      apply Rmult_le_reg_r with (a ^ 2 * b ^ 2); [assert (0 < b) by lra; posr|]. replace (1 / a ^ 2 * (a ^ 2 * b ^ 2)) with (b ^ 2) by (field; lra). replace (1.006 * (1 / b ^ 2) * (a ^ 2 * b ^ 2)) with (1.006 * a ^ 2) by (field; lra). lits. nra. }
  destruct B as [[B1 B2] [B3 B4]]. set (f0 := straight_1999 Re) in *. set (f1 := wavy_1999 Re) in *. set (g0 := straight_VDI Re) in *. set (g1 := wavy_VDI Re) in *. clearbody f0 f1 g0 g1.
  assert (K : 1 <= 1.006) by (lits; lra).
  assert (U : martin phi g0 g1 <= 1.006 * martin phi f0 f1). { apply Rle_trans with (martin phi (1.006 * f0) (1.006 * f1)); [apply martin_mono; auto; lits; lra|apply martin_scale; auto]. }
  assert (V : martin phi f0 f1 <= 1.006 * martin phi g0 g1). { apply Rle_trans with (martin phi (1.006 * g0) (1.006 * g1)); [apply martin_mono; auto; lits; lra|apply martin_scale; auto]. }
  set (p := martin phi f0 f1) in *. set (q := martin phi g0 g1) in *. clearbody p q. clear - P1 P2 U V. apply Rabs_le. assert (Q : q / p * p = q) by (field; lra). set (r := q / p) in *. clearbody r. lits. nra.
Qed.

(** *** Kumar: power laws in three ranges of the Reynolds number for five ranges of the angle; the ranges join within 0.3 % *)
Definition Kumar_row (angle : R) : R * R * (R * R) * (R * R) * (R * R) :=
  if Rle_dec angle 30 then (10, 100, (50, 1), (19.4, 0.589), (2.99, 0.183))
  else if Rle_dec angle 45 then (15, 300, (47, 1), (18.29, 0.652), (1.441, 0.206))
  else if Rle_dec angle 50 then (20, 300, (34, 1), (11.25, 0.631), (0.772, 0.161))
  else if Rle_dec angle 60 then (40, 400, (24, 1), (3.24, 0.457), (0.76, 0.215))
  else (50, 500, (24, 1), (2.8, 0.451), (0.639, 0.213)).
Definition law (cp : R * R) (Re : R) : R := 4 * fst cp * Rpower Re (- snd cp).
Theorem C101_Kumar Re angle : 0 < Re -> let '(r1, r2, c1, c2, c3) := Kumar_row angle in
  friction_plate_Kumar Re angle = Ok (if Rle_dec Re r1 then law c1 Re else if Rle_dec Re r2 then law c2 Re else law c3 Re) /\
  Rabs (law c1 r1 / law c2 r1 - 1) < 0.003 /\ Rabs (law c2 r2 / law c3 r2 - 1) < 0.003.
Proof.
  intros H. unfold Kumar_row, friction_plate_Kumar, Kumar_beta_list, Kumar_C2s, Kumar_Ps, Kumar_fd_Res, law. cbn [first_limit last].
  assert (F : forall x y, Rleb x y = if Rle_dec x y then true else false). { intros x y. destruct (Rle_dec x y); [apply Rleb_true|apply Rleb_false]; lra. }
  rewrite !F. destruct (Rle_dec angle 30); [|destruct (Rle_dec angle 45); [|destruct (Rle_dec angle 50); [|destruct (Rle_dec angle 60); [|destruct (Rle_dec angle 65)]]]]; cbn [first_limit last]; rewrite !F; (split; [match goal with |- context [if Rle_dec Re ?u then _ else if Rle_dec Re ?v then _ else _] => destruct (Rle_dec Re u); [|destruct (Rle_dec Re v)] end; rewrite ppow_ok by auto; cbn [bind fst snd]; reflexivity|]); cbn [fst snd]; split; apply Rabs_def1; itv 0%nat.
Qed.
(** friction falls with the Reynolds number within every range, and never rises by more than 0.7 % over all ranges *)
Lemma law_falls cp Re Re' : 0 < Re -> Re < Re' -> 0 < fst cp -> 0 < snd cp -> 0 < law cp Re' < law cp Re.
Proof. intros. unfold law. pose proof (Rpower_pos Re' (- snd cp)). split; [posr|]. apply Rmult_lt_compat_l; [lra|]. apply Rpower_anti_lt_l; lra. Qed.
Lemma join_up a b c : 0 < b -> Rabs (a / b - 1) < 0.003 -> a <= c -> b < 1.0031 * c.
Proof. intros Hb H Hc. apply Rabs_def2 in H. assert (a / b * b = a) by (field; lra). destruct H as [_ H]. assert (b * (- 0.003) < b * (a / b - 1)) by (apply Rmult_lt_compat_l; lits; lra). lits. lra. Qed.
Theorem C101_Kumar_falls Re Re' angle : 0 < Re -> Re < Re' -> exists f f', friction_plate_Kumar Re angle = Ok f /\ friction_plate_Kumar Re' angle = Ok f' /\ 0 < f' < 1.007 * f /\
  (let '(r1, r2, _, _, _) := Kumar_row angle in (Re' <= r1 \/ (r1 < Re /\ Re' <= r2) \/ r2 < Re) -> f' < f).
Proof.
  intros H HR. pose proof (C101_Kumar Re angle H) as K. pose proof (C101_Kumar Re' angle ltac:(lra)) as K'. destruct (Kumar_row angle) as [[[[r1 r2] c1] c2] c3] eqn:Row.
  assert (G : 0 < r1 < r2 /\ 0 < fst c1 /\ 0 < snd c1 /\ 0 < fst c2 /\ 0 < snd c2 /\ 0 < fst c3 /\ 0 < snd c3). { unfold Kumar_row in Row. repeat destruct (Rle_dec _ _) in Row; injection Row as <- <- <- <- <-; cbn [fst snd]; lits; splits; lra. }
  destruct G as (G & A1 & B1 & A2 & B2 & A3 & B3). destruct K as (E & J1 & J2), K' as (E' & _ & _). rewrite E, E'. do 2 eexists. split; [reflexivity|]. split; [reflexivity|].
  assert (P : forall cp x, 0 < fst cp -> 0 < law cp x) by (intros cp x F; unfold law; pose proof (Rpower_pos x (- snd cp)); posr). pose proof (P c2 r1 A2) as P2. pose proof (P c3 r2 A3) as P3.
  assert (F : forall cp x y, 0 < x -> x <= y -> 0 < fst cp -> 0 < snd cp -> law cp y <= law cp x) by (intros cp x y X [Y| ->] C D; [left; now apply law_falls|lra]).
  destruct (Rle_dec Re r1) as [a|a], (Rle_dec Re' r1) as [a'|a']; try lra.
  - pose proof (law_falls c1 Re Re' H HR A1 B1). lits. splits; intros; lra.
  - pose proof (F c1 Re r1 H a A1 B1) as S1. pose proof (join_up _ _ _ P2 J1 S1) as S2. pose proof (P c1 Re A1). destruct (Rle_dec Re' r2) as [b|b].
    + pose proof (F c2 r1 Re' ltac:(lra) ltac:(lra) A2 B2). pose proof (P c2 Re' A2). lits. splits; try lra; try (intros [U|[U|U]]; lra).
    + pose proof (F c2 r1 r2 ltac:(lra) ltac:(lra) A2 B2). pose proof (join_up _ _ (law c2 r2) P3 J2 (Rle_refl _)). pose proof (F c3 r2 Re' ltac:(lra) ltac:(lra) A3 B3). pose proof (P c3 Re' A3). lits. splits; try lra; try (intros [U|[U|U]]; lra).
  - destruct (Rle_dec Re r2) as [b|b], (Rle_dec Re' r2) as [b'|b']; try lra.
    + pose proof (law_falls c2 Re Re' H HR A2 B2). lits. splits; intros; lra.
    + pose proof (F c2 Re r2 H b A2 B2) as S1. pose proof (join_up _ _ _ P3 J2 S1). pose proof (F c3 r2 Re' ltac:(lra) ltac:(lra) A3 B3). pose proof (P c3 Re' A3). pose proof (P c2 Re A2). lits. splits; try lra; try (intros [U|[U|U]]; lra).
    + pose proof (law_falls c3 Re Re' H HR A3 B3). lits. splits; intros; lra.
Qed.

(** *** Muley and Manglik: positive and falling with the Reynolds number for enlargement factors between 1 and 2 *)
Theorem C101_Muley_Manglik Re Re' angle phi : 0 < Re -> Re < Re' -> 1 <= phi <= 2 ->
  exists f f', friction_plate_Muley_Manglik Re angle phi = Ok f /\ friction_plate_Muley_Manglik Re' angle phi = Ok f' /\ 0 < f' < f /\
  f = 4 * (2.917 - 0.1277 * angle + 2.016 / 1000 * angle ^ 2) * (5.474 - 19.02 * phi + 18.93 * phi ^ 2 - 5.341 * phi ^ 3) * Rpower Re (- (0.2 + 0.0577 * sin (PI * angle / 45 + 2.1))).
Proof.
  intros H HR Hp. unfold friction_plate_Muley_Manglik. cbv zeta. rewrite !ppow_ok by lra. cbn [bind]. do 2 eexists. split; [reflexivity|]. split; [reflexivity|].
  assert (T1 : 0 < 2.917 - 0.1277 * angle + 0.002016 * angle ^ 2). { assert (0 <= (angle - 0.1277 / 0.004032) ^ 2) by apply pow2_ge_0. lits. lra. }
  assert (T2 : 0 < 5.474 - 19.02 * phi + 18.93 * phi ^ 2 - 5.341 * phi ^ 3). { clear - Hp. assert (0 <= (phi - 1) * (2 - phi)) by nra. assert (0 <= (phi - 1) * ((phi - 1) * (2 - phi))) by nra. lits. nra. }
  pose proof (SIN_bound (PI * angle / 45 + 2.1)) as S. set (s := sin _) in *. clearbody s. set (t1 := 2.917 - 0.1277 * angle + 0.002016 * angle ^ 2) in *. set (t2 := 5.474 - _ + _ - _) in *.
  split. { pose proof (Rpower_pos Re' (- (0.2 + 0.0577 * s))). split; [posr|]. apply Rmult_lt_compat_l; [posr|]. apply Rpower_anti_lt_l; auto. lits. lra. }
  f_equal. f_equal. unfold t1. f_equal. lits. field.
Qed.
Example C101_case : exists f, friction_plate_Martin_VDI 20000 45 = Ok f /\ 0.5 < f < 1.5.
Proof.
  destruct (C101_Martin 20000 45 ltac:(lra) ltac:(lra)) as (_ & _ & E & _). rewrite E. eexists. split; [reflexivity|]. unfold martin, furrow, straight_VDI, wavy_VDI, log10. destruct (Rlt_dec 20000 2000); [lra|]. replace (radians 45) with (PI / 4) by (unfold radians; field). rewrite tan_PI4, sin_PI4, cos_PI4. split; itv 0%nat.
Qed.
Example C101_case_Kumar : friction_plate_Kumar 20000 30 = Ok (law (2.99, 0.183) 20000).
Proof.
  pose proof (C101_Kumar 20000 30 ltac:(lra)) as K. unfold Kumar_row in K. destruct (Rle_dec 30 30); [|lra]. destruct K as [K _]. rewrite K. destruct (Rle_dec 20000 10); [lra|]. destruct (Rle_dec 20000 100); [lra|]. reflexivity.
Qed.

Print Assumptions C101_Martin.
Print Assumptions C101_Martin_flat.
Print Assumptions C101_Martin_falls.
Print Assumptions C101_Martin_agree.
Print Assumptions C101_Kumar.
Print Assumptions C101_Kumar_falls.
Print Assumptions C101_Muley_Manglik.
