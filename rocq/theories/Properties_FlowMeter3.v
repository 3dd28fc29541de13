(** C82: expansibility factors; C83: solving a meter for its unknown.
    Claims about [orifice_expansibility], [orifice_expansibility_1989], [nozzle_expansibility], [cone_meter_expansibility_Stewart],
    [differential_pressure_meter_C_epsilon] and [differential_pressure_meter_solver] of fluids/flow_meter.py. *)
From Coq Require Import Reals Lra Lia List Bool String Psatz.
From Coquelicot Require Import Coquelicot.
From Verif Require Import Base Model_Real Proofs_Real Spec_Geometry Model_FlowMeter Properties_FlowMeter Properties_FlowMeter2.
Import ListNotations.
Open Scope R_scope.

(** ** Powers *)
Lemma pw_concave y s : 0 < y -> 0 <= s <= 1 -> Rpower y s <= 1 + s * (y - 1).
Proof.
  intros Hy Hs. unfold Rpower. set (a := ln y). replace y with (exp a) by (apply exp_ln; exact Hy). set (p := s * a).
  assert (T : forall z, exp p * (1 + (z - p)) <= exp z).
  { intros z. replace (exp z) with (exp p * exp (z - p)) by (rewrite <- exp_plus; f_equal; ring). apply Rmult_le_compat_l. left; apply exp_pos.
    destruct (Req_dec (z - p) 0) as [->|N]. rewrite exp_0. lra. left. apply exp_ineq1. exact N. }
  pose proof (T a) as Ta. pose proof (T 0) as T0. rewrite exp_0 in T0. pose proof (exp_pos p).
  assert (s * (exp p * (1 + (a - p))) <= s * exp a) by (apply Rmult_le_compat_l; lra).
  assert ((1 - s) * (exp p * (1 + (0 - p))) <= (1 - s) * 1) by (apply Rmult_le_compat_l; lra).
  assert (E : s * (exp p * (1 + (a - p))) + (1 - s) * (exp p * (1 + (0 - p))) = exp p) by (unfold p; ring). lra.
Qed.
(** A pressure ratio [t < 1] to a positive power is a proper fraction. *)
Lemma pw_frac t s : 0 < t < 1 -> 0 < s -> 0 < Rpower t s < 1.
Proof.
  intros Ht Hs. split. apply Rpower_pos. unfold Rpower. rewrite <- exp_0. apply exp_increasing. assert (ln t < 0) by (rewrite <- ln_1; apply ln_increasing; lra). nra.
Qed.
Lemma ratio01' P1 P2 : 0 < P2 < P1 -> 0 < P2 / P1 < 1.
Proof. intros H. apply (plate_beta P1 P2). split; lra. Qed.

(** ** Orifice plates *)
Definition orifice_slope (b : R) : R := 0.351 + 0.256 * b ^ 4 + 0.93 * b ^ 8.
Lemma orifice_eps D Do P1 P2 k : 0 < D -> 0 < P1 -> 0 < P2 -> 0 < k ->
  orifice_expansibility D Do P1 P2 k = Ok (1 - orifice_slope (Do / D) * (1 - Rpower (P2 / P1) (1 / k))).
Proof.
  intros HD H1 H2 Hk. unfold orifice_expansibility. rewrite pdiv_ok by lra. cbn [bind]. rewrite pdiv_ok by lra. cbn [bind]. rewrite pdiv_ok by lra. cbn [bind].
  rewrite ppow_ok by (apply Rdiv_lt_0_compat; lra). cbn [bind]. f_equal. unfold orifice_slope. ring.
Qed.
Lemma slope_bounds b : 0 < b < 1 -> 0.351 < orifice_slope b < 1.537.
Proof. intros H. unfold orifice_slope. destruct (beta4_lt1 b H) as [_ B]. replace (b ^ 8) with ((b * b * (b * b)) * (b * b * (b * b))) by ring. replace (b ^ 4) with (b * b * (b * b)) by ring. lits. nra. Qed.
(** The factor is 1 exactly when there is no pressure drop, below 1 otherwise, and falls as the outlet pressure falls. *)
Theorem C82_orifice : forall D Do P1 P2 k, plate D Do -> 0 < P2 <= P1 -> 0 < k ->
  exists e, orifice_expansibility D Do P1 P2 k = Ok e /\ e <= 1 /\ (e = 1 <-> P2 = P1) /\ (Do / D <= 0.75 -> 0.47 < e).
Proof.
  intros D Do P1 P2 k H HP Hk. destruct (plate_beta _ _ H) as [B0 B1]. pose proof (slope_bounds (Do / D) (conj B0 B1)) as S. eexists. split. apply orifice_eps; destruct H; lra.
  destruct (Rle_lt_or_eq_dec P2 P1 ltac:(lra)) as [L|E].
  - pose proof (pw_frac (P2 / P1) (1 / k) (ratio01' P1 P2 ltac:(lra)) ltac:(apply Rdiv_lt_0_compat; lra)) as F.
    set (s := orifice_slope (Do / D)) in *. set (f := Rpower (P2 / P1) (1 / k)) in *. assert (0 < s) by (clear - S; lits; lra). splits.
    + nra.
    + split; intros; nra.
    + intros Hb. assert (s <= 0.53). { unfold s, orifice_slope. set (b := Do / D) in *. assert (b * b <= 0.5625) by (lits; nra). assert (b ^ 4 <= 0.3164063) by (replace (b ^ 4) with (b * b * (b * b)) by ring; lits; nra).
        assert (b ^ 8 <= 0.1001130) by (replace (b ^ 8) with (b ^ 4 * b ^ 4) by ring; assert (0 <= b ^ 4) by (left; apply pow_lt; lra); clear - H2 H3; lits; nra). clear - H2 H3; lits; lra. }
      clear - F H0 H1. lits. nra.
  - subst P2. replace (P1 / P1) with 1 by (field; lra). unfold Rpower. rewrite ln_1, Rmult_0_r, exp_0. replace (1 - 1) with 0 by ring. rewrite Rmult_0_r. splits; try lra; lits; lra.
Qed.
Theorem C82_orifice_monotone : forall D Do P1 P2 P2' k e e', plate D Do -> 0 < P2 -> P2 < P2' -> P2' <= P1 -> 0 < k ->
  orifice_expansibility D Do P1 P2 k = Ok e -> orifice_expansibility D Do P1 P2' k = Ok e' -> e < e'.
Proof.
  intros D Do P1 P2 P2' k e e' H H2 L L' Hk E E'. rewrite orifice_eps in E, E' by (destruct H; lra). apply Ok_inj in E. apply Ok_inj in E'. subst e e'.
  pose proof (slope_bounds (Do / D) (plate_beta _ _ H)) as S. set (s := orifice_slope (Do / D)) in *. assert (0 < s) by (clear - S; lits; lra).
  assert (Rpower (P2 / P1) (1 / k) < Rpower (P2' / P1) (1 / k)).
  { apply Rpower_lt_l; [apply Rdiv_lt_0_compat; lra| |apply Rdiv_lt_0_compat; lra]. apply Rmult_lt_compat_r. apply Rinv_0_lt_compat; lra. lra. }
  nra.
Qed.
(** The 1989 edition: linear in the relative pressure drop. *)
Theorem C82_orifice_1989 : forall D Do P1 P2 k, plate D Do -> 0 < P2 <= P1 -> 0 < k ->
  exists e, orifice_expansibility_1989 D Do P1 P2 k = Ok e /\ e <= 1 /\ (e = 1 <-> P2 = P1).
Proof.
  intros D Do P1 P2 k H HP Hk. unfold orifice_expansibility_1989. rewrite pdiv_ok by (destruct H; lra). cbn [bind]. rewrite pdiv_ok by (apply Rgt_not_eq; apply Rmult_lt_0_compat; lra). cbn [bind].
  eexists. split. reflexivity. destruct (beta4_lt1 (Do / D) (plate_beta _ _ H)) as [_ B]. set (b4 := Do / D * (Do / D) * (Do / D * (Do / D))) in *.
  assert (Hs : 0 < 0.41 + 0.35 * b4) by (lits; lra). set (s := 0.41 + 0.35 * b4) in *. assert (Hk1 : 0 < k * P1) by (apply Rmult_lt_0_compat; lra).
  destruct (Rle_lt_or_eq_dec P2 P1 ltac:(lra)) as [L|E].
  - assert (0 < s * (P1 - P2) / (k * P1)) by (apply Rdiv_lt_0_compat; nra). splits; try lra. 
  - subst P2. replace (s * (P1 - P1) / (k * P1)) with 0 by (field; lra). splits; lra.
Qed.
Theorem C82_cone : forall D Dc P1 P2 k, 0 < Dc < D -> 0 < P2 <= P1 -> 0 < k ->
  exists e, cone_meter_expansibility_Stewart D Dc P1 P2 k = Ok e /\ e <= 1 /\ (e = 1 <-> P2 = P1).
Proof.
  intros D Dc P1 P2 k H HP Hk. unfold cone_meter_expansibility_Stewart. destruct (cone_beta D Dc H) as [b [E [B _]]]. rewrite E. cbn [bind].
  rewrite pdiv_ok by (apply Rgt_not_eq; apply Rmult_lt_0_compat; lra). cbn [bind].
  eexists. split. reflexivity. destruct (beta4_lt1 b B) as [_ B4]. set (b4 := b * b * (b * b)) in *.
  assert (Hs : 0 < 0.649 + 0.696 * b4) by (lits; lra). set (s := 0.649 + 0.696 * b4) in *. assert (Hk1 : 0 < k * P1) by (apply Rmult_lt_0_compat; lra).
  destruct (Rle_lt_or_eq_dec P2 P1 ltac:(lra)) as [L|E1].
  - assert (0 < s * (P1 - P2) / (k * P1)) by (apply Rdiv_lt_0_compat; nra). splits; try lra. 
  - subst P2. replace (s * (P1 - P1) / (k * P1)) with 0 by (field; lra). splits; lra.
Qed.

(** ** Nozzles and venturis *)
(** ISO 5167-3: the square of the factor as a function of pressure ratio [t], diameter ratio [b] and isentropic exponent [k]. *)
Definition nozzle_square (t b k : R) : R :=
  k * Rpower t (2 / k) / (k - 1) * ((1 - b ^ 4) / (1 - b ^ 4 * Rpower t (2 / k))) * ((1 - Rpower t ((k - 1) / k)) / (1 - t)).
Lemma frac_pow_sign t k : 0 < t < 1 -> 0 < k -> k <> 1 -> 0 < (1 - Rpower t ((k - 1) / k)) / (k - 1).
Proof.
  intros Ht Hk Hk1. assert (Hl : ln t < 0) by (rewrite <- ln_1; apply ln_increasing; lra). destruct (Rlt_or_le 1 k) as [L|L].
  - pose proof (pw_frac t ((k - 1) / k) Ht ltac:(apply Rdiv_lt_0_compat; lra)). apply Rdiv_lt_0_compat; lra.
  - assert (k < 1) by (destruct L; [assumption|contradiction]). assert (1 < Rpower t ((k - 1) / k)). { unfold Rpower. apply Rle_lt_trans with (exp 0); [rewrite exp_0; lra|]. apply exp_increasing. replace ((k - 1) / k * ln t) with ((1 - k) / k * - ln t) by (field; lra). apply Rmult_lt_0_compat. apply Rdiv_lt_0_compat; lra. lra. }
    replace ((1 - Rpower t ((k - 1) / k)) / (k - 1)) with ((Rpower t ((k - 1) / k) - 1) / (1 - k)) by (field; lra). apply Rdiv_lt_0_compat; lra.
Qed.
Lemma b4 b : 0 < b < 1 -> 0 < b ^ 4 < 1. Proof. intros H. destruct (beta4_lt1 b H) as [_ B]. replace (b ^ 4) with (b * b * (b * b)) by ring. exact B. Qed.
Lemma nozzle_square_pos t b k : 0 < t < 1 -> 0 < b < 1 -> 0 < k -> k <> 1 -> 0 < nozzle_square t b k.
Proof.
  intros Ht Hb Hk Hk1. unfold nozzle_square. pose proof (b4 b Hb) as B. pose proof (pw_frac t (2 / k) Ht ltac:(apply Rdiv_lt_0_compat; lra)) as U. pose proof (frac_pow_sign t k Ht Hk Hk1) as G.
  set (u := Rpower t (2 / k)) in *. set (v := Rpower t ((k - 1) / k)) in *.
  assert (B' : 0 < 1 - b ^ 4 * u) by nra. set (c := b ^ 4) in *.
  replace (k * u / (k - 1) * ((1 - c) / (1 - c * u)) * ((1 - v) / (1 - t))) with ((1 - v) / (k - 1) * (k * u * (1 - c) / ((1 - c * u) * (1 - t)))) by (field; splits; lra).
  apply Rmult_lt_0_compat. exact G. apply Rdiv_lt_0_compat; repeat apply Rmult_lt_0_compat; lra.
Qed.
Lemma nozzle_square_lt1 t b k : 0 < t < 1 -> 0 < b < 1 -> 1 < k -> nozzle_square t b k < 1.
Proof.
  intros Ht Hb Hk. unfold nozzle_square. pose proof (b4 b Hb) as B. pose proof (pw_frac t (1 / k) Ht ltac:(apply Rdiv_lt_0_compat; lra)) as U.
  assert (E2 : Rpower t (2 / k) = Rpower t (1 / k) * Rpower t (1 / k)) by (rewrite <- Rpower_plus; f_equal; field; lra).
  assert (Et : Rpower t (1 / k) * Rpower t ((k - 1) / k) = t). { rewrite <- Rpower_plus. replace (1 / k + (k - 1) / k) with 1 by (field; lra). apply Rpower_1. lra. }
  pose proof (pw_concave t (1 / k) ltac:(lra)) as Cv. assert (Hs : 0 <= 1 / k <= 1). { split. apply Rlt_le, Rdiv_lt_0_compat; lra. apply Rmult_le_reg_r with k. lra. replace (1 / k * k) with 1 by (field; lra). lra. }
  specialize (Cv Hs). rewrite E2. set (u := Rpower t (1 / k)) in *. set (v := Rpower t ((k - 1) / k)) in *. set (c := b ^ 4) in *.
  assert (Huu : 0 < u * u < 1) by nra. assert (B' : 0 < 1 - c * (u * u)) by nra.
  assert (Bern : k * u - (k - 1) <= t). { assert (k * u <= k * (1 + 1 / k * (t - 1))) by (apply Rmult_le_compat_l; lra). replace (k * (1 + 1 / k * (t - 1))) with (k + (t - 1)) in H by (field; lra). lra. }
  (* k u (1 - v) <= (k - 1)(1 - t) *)
  assert (M : k * u * (1 - v) <= (k - 1) * (1 - t)) by nra.
  assert (V : 0 < 1 - v). { pose proof (frac_pow_sign t k Ht ltac:(lra) ltac:(lra)) as G. fold v in G. apply Rmult_lt_reg_r with (/ (k - 1)). apply Rinv_0_lt_compat; lra. rewrite Rmult_0_l. exact G. }
  replace (k * (u * u) / (k - 1) * ((1 - c) / (1 - c * (u * u))) * ((1 - v) / (1 - t))) with ((k * u * (1 - v)) / ((k - 1) * (1 - t)) * (u * ((1 - c) / (1 - c * (u * u))))) by (field; splits; lra).
  assert (Q1 : 0 < (k * u * (1 - v)) / ((k - 1) * (1 - t)) <= 1).
  { assert (0 < (k - 1) * (1 - t)) by nra. split. apply Rdiv_lt_0_compat; [repeat apply Rmult_lt_0_compat; lra|assumption]. apply Rmult_le_reg_r with ((k - 1) * (1 - t)). assumption.
    replace (k * u * (1 - v) / ((k - 1) * (1 - t)) * ((k - 1) * (1 - t))) with (k * u * (1 - v)) by (field; lra). lra. }
  assert (Q2 : 0 < (1 - c) / (1 - c * (u * u)) < 1). { split. apply Rdiv_lt_0_compat; lra. apply Rmult_lt_reg_r with (1 - c * (u * u)). lra. replace ((1 - c) / (1 - c * (u * u)) * (1 - c * (u * u))) with (1 - c) by (field; lra). nra. }
  set (q1 := k * u * (1 - v) / ((k - 1) * (1 - t))) in *. set (q2 := (1 - c) / (1 - c * (u * u))) in *. assert (0 < u * q2 < 1) by nra. nra.
Qed.
Lemma nozzle_eps D Do P1 P2 k ob b : 0 < P2 < P1 -> 0 < k -> k <> 1 -> 0 < b < 1 -> match ob with Some x => Ok x | None => pdiv Do D end = Ok b ->
  nozzle_expansibility D Do P1 P2 k ob = Ok (sqrt (nozzle_square (P2 / P1) b k)).
Proof.
  intros HP Hk Hk1 Hb E. pose proof (ratio01' P1 P2 HP) as Ht. unfold nozzle_expansibility. rewrite E. cbn [bind]. rewrite (pdiv_ok P2 P1) by lra. cbn [bind].
  rewrite (proj2 (Reqb_false k 1)) by exact Hk1. rewrite (pdiv_ok 2 k) by lra. cbn [bind]. rewrite ppow_ok by lra. cbn [bind].
  rewrite (pdiv_ok _ (k - 1)) by lra. cbn [bind]. pose proof (b4 b Hb) as B. pose proof (pw_frac (P2 / P1) (2 / k) Ht ltac:(apply Rdiv_lt_0_compat; lra)) as U.
  replace (b * b * (b * b)) with (b ^ 4) by ring.
  rewrite (pdiv_ok (1 - b ^ 4)) by nra. cbn [bind]. rewrite (proj2 (Reqb_false (P2 / P1) 1)) by lra. rewrite (pdiv_ok (- 1) k) by lra. cbn [bind]. rewrite ppow_ok by lra. cbn [bind]. rewrite (pdiv_ok _ (P1 - P2)) by lra. cbn [bind].
  assert (Ev : (P1 - P2 * Rpower (P2 / P1) (- 1 / k)) / (P1 - P2) = (1 - Rpower (P2 / P1) ((k - 1) / k)) / (1 - P2 / P1)).
  { replace (Rpower (P2 / P1) ((k - 1) / k)) with (P2 / P1 * Rpower (P2 / P1) (- 1 / k)). field; lra.
    rewrite <- (Rpower_1 (P2 / P1)) at 1 by lra. rewrite <- Rpower_plus. f_equal. field. lra. }
  rewrite Ev. change (k * Rpower (P2 / P1) (2 / k) / (k - 1) * ((1 - b ^ 4) / (1 - b ^ 4 * Rpower (P2 / P1) (2 / k))) * ((1 - Rpower (P2 / P1) ((k - 1) / k)) / (1 - P2 / P1))) with (nozzle_square (P2 / P1) b k).
  apply psqrt_ok. left. apply nozzle_square_pos; assumption.
Qed.
(** With an isentropic exponent above one the factor is below 1, and exactly 1 without pressure drop (the removable singularity of the formula). *)
Theorem C82_nozzle : forall D Do P1 P2 k ob b, 0 < P2 <= P1 -> 1 < k -> 0 < b < 1 -> (ob = Some b \/ ob = None /\ plate D Do /\ b = Do / D) ->
  exists e, nozzle_expansibility D Do P1 P2 k ob = Ok e /\ 0 < e <= 1 /\ (e = 1 <-> P2 = P1).
Proof.
  intros D Do P1 P2 k ob b HP Hk Hb Hob.
  assert (E : match ob with Some x => Ok x | None => pdiv Do D end = Ok b). { destruct Hob as [->|[-> [H ->]]]. reflexivity. apply pdiv_ok. destruct H; lra. }
  destruct (Rle_lt_or_eq_dec P2 P1 ltac:(lra)) as [L|EP].
  - pose proof (ratio01' P1 P2 ltac:(lra)) as Ht. eexists. split. apply (nozzle_eps D Do P1 P2 k ob b); [lra|lra|apply Rgt_not_eq; lra|exact Hb|exact E].
    pose proof (nozzle_square_pos _ _ k Ht Hb ltac:(lra) ltac:(lra)) as N0. pose proof (nozzle_square_lt1 _ _ k Ht Hb Hk) as N1.
    set (n := nozzle_square (P2 / P1) b k) in *. assert (0 < sqrt n) by (apply sqrt_lt_R0; lra). assert (sqrt n * sqrt n = n) by (apply sqrt_sqrt; lra). assert (sqrt n < 1) by nra. splits; lra.
  - subst P2. exists 1. split. 2: splits; lra. pose proof (b4 b Hb) as B. unfold nozzle_expansibility. rewrite E. cbn [bind]. rewrite (pdiv_ok P1 P1) by lra. cbn [bind].
    rewrite (proj2 (Reqb_false k 1)) by lra. rewrite (pdiv_ok 2 k) by lra. cbn [bind]. replace (P1 / P1) with 1 by (field; lra). rewrite ppow_ok by lra. cbn [bind].
    assert (E1 : Rpower 1 (2 / k) = 1) by (unfold Rpower; rewrite ln_1, Rmult_0_r; apply exp_0). rewrite !E1.
    rewrite (pdiv_ok _ (k - 1)) by lra. cbn [bind]. replace (b * b * (b * b)) with (b ^ 4) by ring. rewrite (pdiv_ok (1 - b ^ 4)) by lra. cbn [bind]. rewrite (proj2 (Reqb_true 1 1)) by reflexivity.
    rewrite (pdiv_ok (k - 1) k) by lra. cbn [bind]. replace (k * 1 / (k - 1) * ((1 - b ^ 4) / (1 - b ^ 4 * 1)) * ((k - 1) / k)) with 1 by (field; lra). rewrite psqrt_ok by lra. rewrite sqrt_1. reflexivity.
Qed.
(** The special case k = 1. *)
Definition nozzle_square_1 (t b : R) : R := t ^ 2 * (1 - b ^ 4) * - ln t / ((1 - t) * (1 - b ^ 4 * t ^ 2)).
Lemma nozzle_square_1_pos t b : 0 < t < 1 -> 0 < b < 1 -> 0 < nozzle_square_1 t b.
Proof.
  intros Ht Hb. pose proof (b4 b Hb). assert (Hl : ln t < 0) by (rewrite <- ln_1; apply ln_increasing; lra). unfold nozzle_square_1.
  assert (0 < t ^ 2 < 1) by nra. apply Rdiv_lt_0_compat; repeat apply Rmult_lt_0_compat; nra.
Qed.
Lemma nozzle_1 D Do P1 P2 ob : 0 < P2 < P1 -> plate D Do -> nozzle_expansibility D Do P1 P2 1 ob = Ok (sqrt (nozzle_square_1 (P2 / P1) (Do / D))).
Proof.
  intros HP H. pose proof (ratio01' P1 P2 HP) as Ht. pose proof (plate_beta _ _ H) as Hb. pose proof (b4 _ Hb) as B. unfold nozzle_expansibility.
  assert (E : exists b, match ob with Some x => Ok x | None => pdiv Do D end = Ok b). { destruct ob as [x|]. exists x; reflexivity. exists (Do / D). apply pdiv_ok. destruct H; lra. }
  destruct E as [b E]. rewrite E. cbn [bind]. rewrite (pdiv_ok P2 P1) by lra. cbn [bind]. rewrite (proj2 (Reqb_true 1 1)) by reflexivity. rewrite plog_ok by lra. cbn [bind].
  assert (Ed : D ^ 4 * P1 ^ 3 - D ^ 4 * P1 ^ 2 * P2 - Do ^ 4 * P1 * P2 ^ 2 + Do ^ 4 * P2 ^ 3 = D ^ 4 * P1 ^ 3 * ((1 - P2 / P1) * (1 - (Do / D) ^ 4 * (P2 / P1) ^ 2))) by (field; destruct H; lra).
  assert (Hd : 0 < (1 - P2 / P1) * (1 - (Do / D) ^ 4 * (P2 / P1) ^ 2)). { assert (0 < (P2 / P1) ^ 2 < 1) by nra. apply Rmult_lt_0_compat; nra. }
  assert (HD : 0 < D ^ 4 * P1 ^ 3) by (destruct H; apply Rmult_lt_0_compat; apply pow_lt; lra).
  rewrite pdiv_ok. 2:{ rewrite Ed. apply Rgt_not_eq. apply Rmult_lt_0_compat; assumption. }
  cbn [bind]. assert (Ev : P1 * P2 ^ 2 * (- D ^ 4 + Do ^ 4) * ln (P2 / P1) / (D ^ 4 * P1 ^ 3 - D ^ 4 * P1 ^ 2 * P2 - Do ^ 4 * P1 * P2 ^ 2 + Do ^ 4 * P2 ^ 3) = nozzle_square_1 (P2 / P1) (Do / D)).
  { rewrite Ed. unfold nozzle_square_1. set (dd := (1 - P2 / P1) * (1 - (Do / D) ^ 4 * (P2 / P1) ^ 2)) in *. clearbody dd. set (l := ln (P2 / P1)). field. destruct H; splits; lra. }
  rewrite Ev. apply psqrt_ok. left. apply nozzle_square_1_pos; assumption.
Qed.
Theorem C82_nozzle_k1 : forall D Do P1 P2, 0 < P2 < P1 -> plate D Do -> exists e, nozzle_expansibility D Do P1 P2 1 None = Ok e /\ 0 < e < 1.
Proof.
  intros D Do P1 P2 HP H. eexists. split. apply nozzle_1; assumption. pose proof (ratio01' P1 P2 HP) as Ht. pose proof (plate_beta _ _ H) as Hb. pose proof (b4 _ Hb) as B.
  pose proof (nozzle_square_1_pos _ _ Ht Hb) as N0. set (t := P2 / P1) in *. set (b := Do / D) in *.
  assert (N1 : nozzle_square_1 t b < 1).
  { unfold nozzle_square_1. assert (Hl : ln t < 0) by (rewrite <- ln_1; apply ln_increasing; lra). assert (T : 0 < t ^ 2 < 1) by nra.
    assert (L : t * - ln t <= 1 - t). { pose proof (ln_tangent (/ t) 1). rewrite ln_1, ln_Rinv in H0 by lra. assert (0 < / t) by (apply Rinv_0_lt_compat; lra). specialize (H0 ltac:(lra) ltac:(lra)). replace (1 - t) with (t * (/ t - 1)) by (field; lra). apply Rmult_le_compat_l; lra. }
    assert (Hd : 0 < (1 - t) * (1 - b ^ 4 * t ^ 2)) by (apply Rmult_lt_0_compat; nra). apply Rmult_lt_reg_r with ((1 - t) * (1 - b ^ 4 * t ^ 2)). exact Hd.
    replace (t ^ 2 * (1 - b ^ 4) * - ln t / ((1 - t) * (1 - b ^ 4 * t ^ 2)) * ((1 - t) * (1 - b ^ 4 * t ^ 2))) with ((t * - ln t) * (t * (1 - b ^ 4))) by (set (dd := (1 - t) * (1 - b ^ 4 * t ^ 2)) in *; clearbody dd; field; lra).
    set (c := b ^ 4) in *. set (w := t * - ln t) in *. assert (0 <= w) by (unfold w; apply Rmult_le_pos; lra).
    apply Rle_lt_trans with ((1 - t) * (t * (1 - c))). apply Rmult_le_compat_r; [apply Rmult_le_pos; lra|exact L]. rewrite Rmult_1_l. apply Rmult_lt_compat_l; nra. }
  assert (0 < sqrt (nozzle_square_1 t b)) by (apply sqrt_lt_R0; lra). assert (sqrt (nozzle_square_1 t b) * sqrt (nozzle_square_1 t b) = nozzle_square_1 t b) by (apply sqrt_sqrt; lra). split; nra.
Qed.
(** The special case is the limit of the general formula. *)
Lemma add_sub (x y : R) : x + (y - x) = y. Proof. ring. Qed.
Lemma quotient_limit (f : R -> R) (x l : R) : is_derive f x l -> is_lim (fun y => (f y - f x) / (y - x)) x l.
Proof.
  intros H. apply is_derive_Reals in H. apply is_lim_spec. intros eps. destruct (H (pos eps) (cond_pos eps)) as [d Hd]. exists d. intros y Hy Hn.
  assert (y - x <> 0) by (intros E; apply Hn; lra). specialize (Hd (y - x) H0 Hy). rewrite (add_sub x y) in Hd. exact Hd.
Qed.
Theorem C82_nozzle_k1_limit : forall D Do P1 P2, 0 < P2 < P1 -> plate D Do ->
  exists f l, (forall k, 0 < k -> k <> 1 -> nozzle_expansibility D Do P1 P2 k None = Ok (f k)) /\ nozzle_expansibility D Do P1 P2 1 None = Ok l /\ is_lim f 1 l.
Proof.
  intros D Do P1 P2 HP H. pose proof (ratio01' P1 P2 HP) as Ht. pose proof (plate_beta _ _ H) as Hb. pose proof (b4 _ Hb) as B.
  exists (fun k => sqrt (nozzle_square (P2 / P1) (Do / D) k)). exists (sqrt (nozzle_square_1 (P2 / P1) (Do / D))). splits.
  - intros k Hk Hk1. apply nozzle_eps; try assumption. apply pdiv_ok. destruct H; lra.
  - apply nozzle_1; assumption.
  - set (t := P2 / P1) in *. set (b := Do / D) in *. clearbody t b. clear D Do P1 P2 HP H.
    assert (L : is_lim (fun k => nozzle_square t b k) 1 (nozzle_square_1 t b)).
    { assert (Dv : is_derive (fun k => - exp ((1 - 1 / k) * ln t)) 1 (- ln t)).
      { auto_derive. lra. replace (1 + - (1 * / 1)) with 0 by field. rewrite Rmult_0_l, exp_0. field. }
      apply quotient_limit in Dv. replace (1 - 1 / 1) with 0 in Dv by field. rewrite Rmult_0_l, exp_0 in Dv.
      assert (Ct : is_lim (fun k => k * exp (2 / k * ln t) * ((1 - b ^ 4) / (1 - b ^ 4 * exp (2 / k * ln t))) / (1 - t)) 1 (t ^ 2 * ((1 - b ^ 4) / (1 - b ^ 4 * t ^ 2)) / (1 - t))).
      { assert (E2 : exp (2 / 1 * ln t) = t ^ 2). { replace (2 / 1 * ln t) with (ln t + ln t) by field. rewrite exp_plus, exp_ln by lra. ring. }
        assert (T : 0 < t ^ 2 < 1) by nra.
        replace (t ^ 2 * ((1 - b ^ 4) / (1 - b ^ 4 * t ^ 2)) / (1 - t)) with (1 * exp (2 / 1 * ln t) * ((1 - b ^ 4) / (1 - b ^ 4 * exp (2 / 1 * ln t))) / (1 - t)) by (rewrite !E2, Rmult_1_l; reflexivity).
        apply (is_lim_continuity (fun k => k * exp (2 / k * ln t) * ((1 - b ^ 4) / (1 - b ^ 4 * exp (2 / k * ln t))) / (1 - t)) 1). apply continuity_pt_filterlim.
        apply (ex_derive_continuous (fun k => k * exp (2 / k * ln t) * ((1 - b ^ 4) / (1 - b ^ 4 * exp (2 / k * ln t))) / (1 - t))).
        auto_derive. replace (2 * / 1) with (2 / 1) by reflexivity. rewrite E2. set (c := b ^ 4) in *. splits; try lra. replace (1 + - (b * (b * (b * (b * 1))) * t ^ 2)) with (1 - c * t ^ 2) by (unfold c; ring). nra. }
      pose proof (is_lim_mult _ _ _ _ _ Dv Ct) as M. specialize (M I).
      replace (nozzle_square_1 t b) with (- ln t * (t ^ 2 * ((1 - b ^ 4) / (1 - b ^ 4 * t ^ 2)) / (1 - t))).
      2:{ unfold nozzle_square_1. assert (0 < t ^ 2 < 1) by nra. set (c := b ^ 4) in *. field. splits; nra. }
      eapply is_lim_ext_loc; [|exact M]. exists (mkposreal (1/2) ltac:(lra)). intros k Hk Hk1. change (Rabs (k - 1) < 1 / 2) in Hk. assert (1 / 2 < k < 3 / 2) by (apply Rabs_def2 in Hk; lra).
      unfold nozzle_square, Rpower. replace ((k - 1) / k) with (1 - 1 / k) by (field; lra).
      pose proof (pw_frac t (2 / k) Ht ltac:(apply Rdiv_lt_0_compat; lra)) as U. unfold Rpower in U. set (u := exp (2 / k * ln t)) in *. set (v := exp ((1 - 1 / k) * ln t)) in *. set (c := b ^ 4) in *. field. splits; nra. }
    apply (filterlim_comp _ _ _ (fun k => nozzle_square t b k) sqrt _ (Rbar_locally (nozzle_square_1 t b))). exact L. apply continuous_sqrt.
Qed.
(** Refuted: the special case ignores a diameter ratio given by the caller, and has no value without pressure drop. *)
Theorem C82_nozzle_k1_beta_refuted : forall D Do P1 P2 b, 0 < P2 < P1 -> plate D Do -> nozzle_expansibility D Do P1 P2 1 (Some b) = nozzle_expansibility D Do P1 P2 1 None.
Proof. intros D Do P1 P2 b HP H. rewrite !nozzle_1 by assumption. reflexivity. Qed.
Theorem C82_nozzle_k1_no_drop_refuted : forall D Do P ob, plate D Do -> 0 < P -> nozzle_expansibility D Do P P 1 ob = Err ZeroDivisionError.
Proof.
  intros D Do P ob H HP. unfold nozzle_expansibility.
  assert (E : exists b, match ob with Some x => Ok x | None => pdiv Do D end = Ok b). { destruct ob as [x|]. exists x; reflexivity. exists (Do / D). apply pdiv_ok. destruct H; lra. }
  destruct E as [b E]. rewrite E. cbn [bind]. rewrite (pdiv_ok P P) by lra. cbn [bind]. rewrite (proj2 (Reqb_true 1 1)) by reflexivity. rewrite plog_ok by (replace (P / P) with 1 by (field; lra); lra). cbn [bind].
  replace (D ^ 4 * P ^ 3 - D ^ 4 * P ^ 2 * P - Do ^ 4 * P * P ^ 2 + Do ^ 4 * P ^ 3) with 0 by ring. rewrite pdiv_0. reflexivity.
Qed.
(** Whatever the meter, the computed expansibility is at most 1, and 1 when nothing expands. *)
Theorem C82_all_meters : forall meter D D2 m P1 P2 rho mu k taps pos Cs C e, In meter all_meters -> 0 < D2 < D -> 0 < P2 <= P1 -> 1 < k ->
  differential_pressure_meter_C_epsilon D D2 m P1 P2 rho mu k meter taps pos Cs None = Ok (C, e) -> e <= 1 /\ (e = 1 <-> P2 = P1).
Proof.
  intros meter D D2 m P1 P2 rho mu k taps pos Cs C e H HD HP Hk E.
  assert (G1 : forall v, orifice_expansibility D D2 P1 P2 k = Ok v -> v <= 1 /\ (v = 1 <-> P2 = P1)).
  { intros v Ev. destruct (C82_orifice D D2 P1 P2 k ltac:(split; lra) HP ltac:(lra)) as [v' [E' [A [B _]]]]. rewrite E' in Ev. apply Ok_inj in Ev. subst v'. auto. }
  assert (G2 : forall v, nozzle_expansibility D D2 P1 P2 k None = Ok v -> v <= 1 /\ (v = 1 <-> P2 = P1)).
  { intros v Ev. destruct (C82_nozzle D D2 P1 P2 k None (D2 / D) HP Hk) as [v' [E' [A B]]]. apply plate_beta; split; lra. right. splits; [reflexivity|split; lra|reflexivity]. rewrite E' in Ev. apply Ok_inj in Ev. subst v'. split; [lra|exact B]. }
  assert (G3 : forall b v, diameter_ratio_wedge_meter D D2 = Ok b -> nozzle_expansibility D D2 P1 P2 k (Some b) = Ok v -> v <= 1 /\ (v = 1 <-> P2 = P1)).
  { intros b v Eb Ev. destruct (wedge_beta D D2 HD) as [b' [Eb' [Bb _]]]. rewrite Eb' in Eb. apply Ok_inj in Eb. subst b'.
    destruct (C82_nozzle D D2 P1 P2 k (Some b) b HP Hk Bb (or_introl eq_refl)) as [v' [E' [A B]]]. rewrite E' in Ev. apply Ok_inj in Ev. subst v'. split; [lra|exact B]. }
  assert (G4 : forall v, cone_meter_expansibility_Stewart D D2 P1 P2 k = Ok v -> v <= 1 /\ (v = 1 <-> P2 = P1)).
  { intros v Ev. destruct (C82_cone D D2 P1 P2 k HD HP ltac:(lra)) as [v' [E' [A B]]]. rewrite E' in Ev. apply Ok_inj in Ev. subst v'. auto. }
  assert (G5 : forall v w, orifice_expansibility D D2 P1 P2 k = Ok v -> nozzle_expansibility D D2 P1 P2 k None = Ok w -> 0.5 * (v + w) <= 1 /\ (0.5 * (v + w) = 1 <-> P2 = P1)).
  { intros v w Ev Ew. destruct (G1 v Ev) as [V1 V2]. destruct (G2 w Ew) as [W1 W2]. clear - V1 V2 W1 W2. lits. split; [lra|]. split.
    - intros. apply V2. lra.
    - intros Q. apply V2 in Q as Q1. apply W2 in Q as Q2. lra. }
  cbn [In app all_meters beta_simple_meters cone_names wedge_names] in H.
  repeat (destruct H as [<-|H]; [cbv [differential_pressure_meter_C_epsilon String.eqb Ascii.eqb Bool.eqb andb orb] in E; cbn [bind] in E; cbv zeta in E;
    destruct Cs; repeat inv_bind E; first [discriminate E | apply Ok_inj in E; apply pair_equal_spec in E; destruct E as [_ <-]; eauto]|]). destruct H.
Qed.

(** ** C83: solving for the unknown *)
(** A root finder that only returns roots. *)
Definition honest_secant (s : (R -> result R) -> R -> option R -> option R -> result R) : Prop := forall f x0 lo hi x, s f x0 lo hi = Ok x -> f x = Ok 0.
Definition honest_bracket (s : (R -> result R) -> R -> R -> result R) : Prop := forall f a b x, s f a b = Ok x -> f x = Ok 0.
(** The meter equation: the flow rate is the discharge for the coefficients that belong to this flow rate. *)
Definition meter_equation (D rho mu k D2 P1 P2 m : R) (meter : string) (taps pos : option string) (Cs es : option R) : Prop :=
  exists C e, differential_pressure_meter_C_epsilon D D2 m P1 P2 rho mu k meter taps pos Cs es = Ok (C, e) /\ flow_meter_discharge D D2 P1 P2 rho C e meter = Ok m.
Lemma residual_zero D D2 m P1 P2 rho mu k meter taps pos Cs es :
  err_dp_meter_solver D D2 m P1 P2 rho mu k meter taps pos Cs es = Ok 0 -> meter_equation D rho mu k D2 P1 P2 m meter taps pos Cs es.
Proof.
  unfold err_dp_meter_solver. intros E. inv_bind E. destruct v as [C e]. inv_bind E. apply Ok_inj in E. exists C, e. split. assumption. rewrite E1. f_equal. lra.
Qed.
(** Whichever of flow rate, size and pressures is left out, the answer satisfies the meter equation with the other three. *)
Theorem C83_solves : forall secant brenth D rho mu k meter taps pos Cs es, honest_secant secant -> honest_bracket brenth ->
  let solve := fun D2 P1 P2 m => differential_pressure_meter_solver secant brenth D rho mu (Some k) D2 P1 P2 m meter taps pos Cs es in
  let holds := fun D2 P1 P2 m => meter_equation D rho mu k D2 P1 P2 m meter taps pos Cs es in
  (forall D2 P1 P2 m, solve (Some D2) (Some P1) (Some P2) None = Ok m -> holds D2 P1 P2 m) /\
  (forall P1 P2 m D2, solve None (Some P1) (Some P2) (Some m) = Ok D2 -> holds D2 P1 P2 m) /\
  (forall D2 P1 m P2, solve (Some D2) (Some P1) None (Some m) = Ok P2 -> holds D2 P1 P2 m) /\
  (forall D2 P2 m P1, solve (Some D2) None (Some P2) (Some m) = Ok P1 -> holds D2 P1 P2 m).
Proof.
  intros secant brenth D rho mu k meter taps pos Cs es HS HB solve holds. unfold solve, holds, differential_pressure_meter_solver.
  assert (OE : forall a b x, or_else a b = Ok x -> a = Ok x \/ b = Ok x) by (intros a b x; unfold or_else; destruct a; auto).
  splits; intros; apply residual_zero.
  - cbv zeta in H. inv_bind H. inv_bind H. inv_bind H. inv_bind H. apply HS in E2. apply Ok_inj in H. rewrite <- H. exact E2.
  - cbv zeta in H. apply OE in H. destruct H as [H|H]; [apply OE in H; destruct H as [H|H]; apply HS in H|apply HB in H]; exact H.
  - cbv zeta in H. apply OE in H. destruct H as [H|H]; [apply OE in H; destruct H as [H|H]; apply HS in H|apply HB in H]; exact H.
  - cbv zeta in H. apply OE in H. destruct H as [H|H]; [apply HS in H|apply HB in H]; exact H.
Qed.
(** With coefficient and expansibility given, solving for the flow rate gives the discharge equation's value: the isentropic exponent is not needed. *)
Theorem C83_flow_value : forall secant brenth D rho mu D2 P1 P2 meter taps pos C e A m k, honest_secant secant -> honest_bracket brenth ->
  In meter all_meters -> 0 < D2 < D -> 0 <= rho -> P2 <= P1 -> opening meter D D2 A ->
  differential_pressure_meter_solver secant brenth D rho mu k (Some D2) (Some P1) (Some P2) None meter taps pos (Some C) (Some e) = Ok m ->
  m = C * e * A * sqrt (2 * rho * (P1 - P2) / (1 - (A / (PI / 4 * D ^ 2)) ^ 2)).
Proof.
  intros secant brenth D rho mu D2 P1 P2 meter taps pos C e A m k HS HB Hm HD Hr HP HA E.
  assert (E' : exists k', differential_pressure_meter_solver secant brenth D rho mu (Some k') (Some D2) (Some P1) (Some P2) None meter taps pos (Some C) (Some e) = Ok m).
  { destruct k as [k|]. exists k. exact E. exists 1.4. exact E. }
  destruct E' as [k' E']. destruct (C83_solves secant brenth D rho mu k' meter taps pos (Some C) (Some e) HS HB) as [S _]. apply S in E'. destruct E' as [C' [e' [E1 E2]]].
  assert (C' = C /\ e' = e) as [-> ->].
  { destruct (string_dec meter "unspecified meter") as [->|N].
    - cbv [differential_pressure_meter_C_epsilon] in E1. cbn -[orifice_expansibility] in E1. inv_bind E1. apply Ok_inj in E1. apply pair_equal_spec in E1. destruct E1 as [<- <-]. auto.
    - rewrite (C56_override meter Hm N) in E1. inv_bind E1. destruct v as [x y]. apply Ok_inj in E1. apply pair_equal_spec in E1. cbn [given] in E1. destruct E1 as [<- <-]. auto. }
  eapply C56_discharge; eassumption.
Qed.
(** Leaving out none, or two or more, of the four is refused. *)
Definition count_missing (l : list (option R)) : nat := List.length (filter (fun o => match o with None => true | Some _ => false end) l).
Theorem C83_one_unknown : forall secant brenth D rho mu k D2 P1 P2 m meter taps pos Cs es, count_missing [D2; P1; P2; m] <> 1%nat ->
  differential_pressure_meter_solver secant brenth D rho mu k D2 P1 P2 m meter taps pos Cs es = Err ValueError.
Proof. intros secant brenth D rho mu k D2 P1 P2 m meter taps pos Cs es H. unfold differential_pressure_meter_solver. destruct D2, P1, P2, m; try reflexivity; exfalso; apply H; reflexivity. Qed.
(** Without isentropic exponent and expansibility the call fails with TypeError rather than a documented error. *)
Theorem C83_missing_k_refuted : forall secant brenth D rho mu P1 P2 m meter taps pos Cs,
  differential_pressure_meter_solver secant brenth D rho mu None None (Some P1) (Some P2) (Some m) meter taps pos Cs None = Err TypeError.
Proof. reflexivity. Qed.

(** Witnesses. *)
Example C82_ex : 0 < 1 < 2 /\ 0 < 1 <= 2 /\ 1 < 1.4 /\ In "wedge meter"%string all_meters /\ exists e, nozzle_expansibility 2 1 3 3 1.4 None = Ok e /\ e = 1.
Proof.
  splits; try lra. cbn; tauto. destruct (C82_nozzle 2 1 3 3 1.4 None (1 / 2)) as [e [E [_ I]]]; try (lits; lra). right. splits; [reflexivity|split; lra|reflexivity].
  exists e. split. exact E. apply I. reflexivity.
Qed.
(** An honest root finder: try the guess, give up otherwise; for a plate with everything specified it can succeed. *)
Definition try_guess (f : R -> result R) (x0 : R) (lo hi : option R) : result R := match f x0 with Ok v => if Reqb v 0 then Ok x0 else Err UnconvergedError | Err e => Err e end.
Definition give_up (f : R -> result R) (a b : R) : result R := Err UnconvergedError.
Example C83_ex_honest : honest_secant try_guess /\ honest_bracket give_up.
Proof.
  split. intros f x0 lo hi x. unfold try_guess. destruct (f x0) as [v|] eqn:E; [|discriminate]. destruct (Reqb v 0) eqn:Z; [|discriminate]. intros Q. apply Ok_inj in Q. subst x. apply Reqb_true in Z. subst v. exact E.
  intros f a b x H. discriminate H.
Qed.
Example C83_ex_missing : count_missing [Some 1; None; Some 2; None] <> 1%nat /\ count_missing [Some 1; Some 3; Some 2; Some 4] <> 1%nat. Proof. split; discriminate. Qed.
(** The solver's first guess is the answer for [C = 0.7] and no expansion. *)
Example C83_ex_reachable : exists m, differential_pressure_meter_solver try_guess give_up 2 1 1 None (Some 1) (Some 2) (Some 1) None "unspecified meter" None None (Some 0.7) (Some 1) = Ok m.
Proof.
  unfold differential_pressure_meter_solver. cbv zeta. rewrite pdiv_ok by lra. cbn [bind]. set (q := 2 * 2 * (2 * 2) * 1 * (2 - 1) / (2 * 2 * (2 * 2) - 1 * 1 * (1 * 1))). assert (Hq : 0 <= q) by (unfold q; apply Rlt_le, Rdiv_lt_0_compat; lra).
  rewrite psqrt_ok by exact Hq. cbn [bind]. rewrite pdiv_ok by lra. cbn [bind]. set (g := sqrt 2 * PI * 0.7 * 1 * 1 * sqrt q * 0.25).
  assert (F : err_dp_meter_solver 2 1 (g / 2 * 2) 2 1 1 1 1.4 "unspecified meter" None None (Some 0.7) (Some 1) = Ok 0).
  { unfold err_dp_meter_solver. destruct (C82_orifice 2 1 2 1 1.4 ltac:(split; lra) ltac:(lra) ltac:(lits; lra)) as [e [Ee _]].
    rewrite (proj1 (C56_unspecified 2 1 (g / 2 * 2) 2 1 1 1 1.4 None None (Some 1) e Ee 0.7)). cbn [bind given].
    rewrite C55_discharge; [|split; lra|lra|lra|cbn; tauto]. cbn [bind]. f_equal. unfold ideal_discharge, g.
    replace (2 * 1 * (2 - 1) / (1 - (1 / 2) ^ 4)) with (2 * q) by (unfold q; field). rewrite sqrt_mult by lra. lits. field. }
  unfold try_guess. rewrite F. rewrite (proj2 (Reqb_true 0 0)) by reflexivity. eexists. reflexivity.
Qed.

Print Assumptions C82_orifice.
Print Assumptions C82_orifice_monotone.
Print Assumptions C82_orifice_1989.
Print Assumptions C82_cone.
Print Assumptions C82_nozzle.
Print Assumptions C82_nozzle_k1.
Print Assumptions C82_nozzle_k1_limit.
Print Assumptions C82_nozzle_k1_beta_refuted.
Print Assumptions C82_nozzle_k1_no_drop_refuted.
Print Assumptions C82_all_meters.
Print Assumptions C83_solves.
Print Assumptions C83_flow_value.
Print Assumptions C83_one_unknown.
Print Assumptions C83_missing_k_refuted.
