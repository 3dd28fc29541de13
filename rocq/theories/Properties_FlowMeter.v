(** C55: orifice plates - discharge coefficient, loss coefficient, permanent pressure loss and flow rate.
    Claims about [K_to_discharge_coefficient], [discharge_coefficient_to_K], [dP_orifice], [flow_meter_discharge],
    [velocity_of_approach_factor] and [flow_coefficient] of fluids/flow_meter.py. *)
From Coq Require Import Reals Lra Lia List Bool String Psatz.
From Verif Require Import Base Model_Real Proofs_Real Model_FlowMeter.
Import ListNotations.
Open Scope R_scope.

Lemma Ok_inj : forall A (a b : A), Ok a = Ok b -> a = b. Proof. congruence. Qed.

Lemma Rdiv_le_0_compat : forall a b, 0 <= a -> 0 < b -> 0 <= a / b.
Proof. intros a b Ha Hb. apply Rmult_le_pos. exact Ha. left. apply Rinv_0_lt_compat. exact Hb. Qed.

(** ** Specification vocabulary *)
(** A plate with bore [Do] in a pipe of inside diameter [D]. *)
Definition plate (D Do : R) : Prop := 0 < Do /\ Do < D.
(** Mean velocity in a pipe of diameter [D] carrying [m] kg/s of density [rho]. *)
Definition pipe_velocity (D rho m : R) : R := m / (rho * (PI / 4 * D ^ 2)).

(** ** The diameter ratio *)
Lemma plate_beta : forall D Do, plate D Do -> 0 < Do / D < 1.
Proof. intros D Do [H1 H2]. split. apply Rdiv_lt_0_compat; lra. apply Rmult_lt_reg_r with D. lra. replace (Do / D * D) with Do by (field; lra). lra. Qed.
Lemma beta4_lt1 : forall b, 0 < b < 1 -> 0 < b * b < 1 /\ 0 < (b * b) * (b * b) < 1.
Proof. intros b H. assert (0 < b * b < 1) by nra. split. exact H0. nra. Qed.
Lemma root_arg : forall b C, 0 < b < 1 -> 0 < C ->
  let a := sqrt (1 - (b * b) * (b * b) * (1 - C * C)) in
  0 <= 1 - (b * b) * (b * b) * (1 - C * C) /\ a * a = 1 - (b * b) * (b * b) * (1 - C * C) /\ C * (b * b) < a /\ 0 < a.
Proof.
  intros b C Hb HC a. destruct (beta4_lt1 b Hb) as [B2 B4].
  assert (H0 : 0 < 1 - (b * b) * (b * b) * (1 - C * C)).
  { assert (0 < (b * b) * (b * b) * (C * C)). apply Rmult_lt_0_compat; nra. lra. }
  assert (Haa : a * a = 1 - (b * b) * (b * b) * (1 - C * C)) by (apply sqrt_sqrt; lra).
  assert (Ha : 0 < a) by (apply sqrt_lt_R0; exact H0).
  assert (0 < C * (b * b)) by (apply Rmult_lt_0_compat; lra).
  splits; try assumption; try lra. apply Rsqr_incrst_0; unfold Rsqr; nra.
Qed.
Lemma plate_K : forall D Do C, plate D Do -> 0 < C ->
  let b := Do / D in let a := sqrt (1 - (b * b) * (b * b) * (1 - C * C)) in
  discharge_coefficient_to_K D Do C = Ok ((a / (C * (b * b)) - 1) * (a / (C * (b * b)) - 1)).
Proof.
  intros D Do C H HC b a. destruct (plate_beta _ _ H) as [B0 B1]. destruct (beta4_lt1 (Do / D) (conj B0 B1)) as [B2 B4].
  destruct (root_arg (Do / D) C (conj B0 B1) HC) as [G0 [G1 [G2 G3]]].
  unfold discharge_coefficient_to_K. rewrite pdiv_ok by (destruct H; lra). cbn [bind]. rewrite psqrt_ok by exact G0. cbn [bind].
  rewrite pdiv_ok by (apply Rgt_not_eq; apply Rmult_lt_0_compat; lra). reflexivity.
Qed.

(** The loss coefficient computed from a discharge coefficient gives that discharge coefficient back. *)
Theorem C55_coefficient_round_trip : forall D Do C, plate D Do -> 0 < C ->
  exists K, discharge_coefficient_to_K D Do C = Ok K /\ 0 < K /\ K_to_discharge_coefficient D Do K = Ok C.
Proof.
  intros D Do C H HC. eexists. split. apply plate_K; assumption.
  destruct (plate_beta _ _ H) as [B0 B1]. destruct (beta4_lt1 (Do / D) (conj B0 B1)) as [B2 B4].
  destruct (root_arg (Do / D) C (conj B0 B1) HC) as [G0 [G1 [G2 G3]]].
  set (b := Do / D) in *. set (a := sqrt (1 - (b * b) * (b * b) * (1 - C * C))) in *.
  assert (Hc : 0 < C * (b * b)) by (apply Rmult_lt_0_compat; lra).
  assert (Hs : 0 < a / (C * (b * b)) - 1).
  { assert (1 < a / (C * (b * b))). apply Rmult_lt_reg_r with (C * (b * b)). exact Hc. replace (a / (C * (b * b)) * (C * (b * b))) with a by (field; nra). lra. lra. }
  split. nra.
  unfold K_to_discharge_coefficient. rewrite pdiv_ok by (destruct H; lra). fold b. cbn [bind].
  rewrite psqrt_ok by nra. cbn [bind]. rewrite sqrt_square by lra.
  set (s := a / (C * (b * b)) - 1) in *.
  assert (Hden : (2 * s + s * s) * ((b * b) * (b * b)) = (1 - (b * b) * (b * b)) / (C * C)).
  { replace (2 * s + s * s) with ((a * a) / (C * (b * b) * (C * (b * b))) - 1) by (unfold s; field; nra). rewrite G1. field. split; nra. }
  rewrite pdiv_ok.
  - cbn [bind]. rewrite Hden. replace ((1 - b * b * (b * b)) / ((1 - b * b * (b * b)) / (C * C))) with (C * C) by (field; split; nra).
    rewrite psqrt_ok by nra. rewrite sqrt_square by lra. reflexivity.
  - rewrite Hden. apply Rgt_not_eq. apply Rdiv_lt_0_compat; nra.
Qed.

(** The discharge coefficient computed from a loss coefficient gives that loss coefficient back. *)
Theorem C55_loss_round_trip : forall D Do K, plate D Do -> 0 < K ->
  exists C, K_to_discharge_coefficient D Do K = Ok C /\ 0 < C /\ discharge_coefficient_to_K D Do C = Ok K.
Proof.
  intros D Do K H HK. destruct (plate_beta _ _ H) as [B0 B1]. destruct (beta4_lt1 (Do / D) (conj B0 B1)) as [B2 B4].
  set (b := Do / D) in *. set (s := sqrt K). assert (Hs : 0 < s) by (apply sqrt_lt_R0; exact HK). assert (Hss : s * s = K) by (apply sqrt_sqrt; lra).
  set (X := (1 - b * b * (b * b)) / ((2 * s + K) * (b * b * (b * b)))).
  assert (HX : 0 < X) by (apply Rdiv_lt_0_compat; nra).
  assert (HC : 0 < sqrt X) by (apply sqrt_lt_R0; exact HX). assert (HCC : sqrt X * sqrt X = X) by (apply sqrt_sqrt; lra).
  exists (sqrt X). splits.
  - unfold K_to_discharge_coefficient. rewrite pdiv_ok by (destruct H; lra). fold b. cbn [bind]. rewrite psqrt_ok by lra. cbn [bind]. fold s.
    rewrite pdiv_ok by (apply Rgt_not_eq; nra). cbn [bind]. fold X. rewrite psqrt_ok by lra. reflexivity.
  - exact HC.
  - rewrite plate_K by assumption. cbv zeta. fold b. f_equal. set (C := sqrt X) in *.
    assert (E : sqrt (1 - b * b * (b * b) * (1 - C * C)) = (1 + s) * (C * (b * b))).
    { apply sqrt_lem_1.
      - assert (0 < (b * b) * (b * b) * (C * C)). apply Rmult_lt_0_compat; nra. lra.
      - apply Rmult_le_pos; [lra|apply Rmult_le_pos; lra].
      - replace ((1 + s) * (C * (b * b)) * ((1 + s) * (C * (b * b)))) with ((1 + 2 * s + s * s) * (C * C) * (b * b * (b * b))) by ring.
        rewrite HCC, Hss. unfold X. field. split; nra. }
    rewrite E. replace ((1 + s) * (C * (b * b)) / (C * (b * b)) - 1) with s by (field; split; nra). exact Hss.
Qed.

(** A larger discharge coefficient means a smaller loss coefficient. *)
Theorem C55_loss_decreasing : forall D Do C C' K K', plate D Do -> 0 < C -> C < C' ->
  discharge_coefficient_to_K D Do C = Ok K -> discharge_coefficient_to_K D Do C' = Ok K' -> K' < K.
Proof.
  intros D Do C C' K K' H HC HCC E E'. rewrite plate_K in E, E' by (assumption || lra). apply Ok_inj in E. apply Ok_inj in E'. subst K K'.
  destruct (plate_beta _ _ H) as [B0 B1]. destruct (beta4_lt1 (Do / D) (conj B0 B1)) as [B2 B4]. set (b := Do / D) in *.
  destruct (root_arg b C (conj B0 B1) HC) as [_ [G1 [G2 G3]]].
  destruct (root_arg b C' (conj B0 B1) ltac:(lra)) as [_ [G1' [G2' G3']]].
  set (a := sqrt (1 - b * b * (b * b) * (1 - C * C))) in *. set (a' := sqrt (1 - b * b * (b * b) * (1 - C' * C'))) in *.
  assert (Hc : 0 < C * (b * b)) by (apply Rmult_lt_0_compat; lra). assert (Hc' : 0 < C' * (b * b)) by (apply Rmult_lt_0_compat; lra).
  assert (P : 1 < a' / (C' * (b * b))). { apply Rmult_lt_reg_r with (C' * (b * b)). exact Hc'. replace (a' / (C' * (b * b)) * (C' * (b * b))) with a' by (field; splits; apply Rgt_not_eq; lra). lra. }
  assert (Q : a' / (C' * (b * b)) < a / (C * (b * b))).
  { apply Rsqr_incrst_0.
    - unfold Rsqr. replace (a' / (C' * (b * b)) * (a' / (C' * (b * b)))) with (a' * a' / (C' * C' * (b * b * (b * b)))) by (field; splits; apply Rgt_not_eq; lra).
      replace (a / (C * (b * b)) * (a / (C * (b * b)))) with (a * a / (C * C * (b * b * (b * b)))) by (field; splits; apply Rgt_not_eq; lra). rewrite G1, G1'.
      replace ((1 - b * b * (b * b) * (1 - C' * C')) / (C' * C' * (b * b * (b * b)))) with (1 + (1 - b * b * (b * b)) / (b * b * (b * b)) * / (C' * C')) by (field; splits; apply Rgt_not_eq; lra).
      replace ((1 - b * b * (b * b) * (1 - C * C)) / (C * C * (b * b * (b * b)))) with (1 + (1 - b * b * (b * b)) / (b * b * (b * b)) * / (C * C)) by (field; splits; apply Rgt_not_eq; lra).
      apply Rplus_lt_compat_l. apply Rmult_lt_compat_l. apply Rdiv_lt_0_compat; lra. apply Rinv_lt_contravar; [repeat apply Rmult_lt_0_compat; lra|nra].
    - left. apply Rdiv_lt_0_compat; assumption.
    - left. apply Rdiv_lt_0_compat; assumption. }
  nra.
Qed.

(** ** Permanent pressure loss *)
(** The loss not recovered downstream is a proper fraction of the measured pressure difference. *)
Theorem C55_permanent_loss_bounds : forall D Do P1 P2 C, plate D Do -> 0 < C -> P2 <= P1 ->
  exists w, dP_orifice D Do P1 P2 C = Ok w /\ 0 <= w <= P1 - P2 /\ (P2 < P1 -> 0 < w < P1 - P2).
Proof.
  intros D Do P1 P2 C H HC HP. destruct (plate_beta _ _ H) as [B0 B1]. destruct (beta4_lt1 (Do / D) (conj B0 B1)) as [B2 B4].
  destruct (root_arg (Do / D) C (conj B0 B1) HC) as [G0 [G1 [G2 G3]]].
  unfold dP_orifice. rewrite pdiv_ok by (destruct H; lra). cbn [bind]. rewrite psqrt_ok by exact G0. cbn [bind].
  set (b := Do / D) in *. set (a := sqrt (1 - (b * b) * (b * b) * (1 - C * C))) in *.
  assert (Hc : 0 < C * (b * b)) by (apply Rmult_lt_0_compat; lra).
  rewrite pdiv_ok by lra. cbn [bind]. eexists. split. reflexivity.
  set (q := (a - C * (b * b)) / (a + C * (b * b))).
  assert (Hq : 0 < q < 1). { split. apply Rdiv_lt_0_compat; lra. apply Rmult_lt_reg_r with (a + C * (b * b)). lra. unfold q. replace ((a - C * (b * b)) / (a + C * (b * b)) * (a + C * (b * b))) with (a - C * (b * b)) by (field; lra). lra. }
  split. nra. intros. nra.
Qed.

(** ** Flow rate *)
Definition round_bore (meter : string) : Prop := In meter beta_simple_meters.
Ltac names H := repeat (destruct H as [<-|H]; [reflexivity|]); destruct H.
Lemma beta_round : forall D D2 meter, round_bore meter -> differential_pressure_meter_beta D D2 meter = pdiv D2 D.
Proof.
  intros D D2 meter H. assert (E : differential_pressure_meter_beta D D2 meter = (b <- pdiv D2 D ;; Ok b)).
  { unfold round_bore, beta_simple_meters in H. cbn [In] in H. names H. }
  rewrite E. destruct (pdiv D2 D); reflexivity.
Qed.
(** What the flow equation says: a fraction [C eps] of the ideal discharge through the bore. *)
Definition ideal_discharge (D Do rho dP : R) : R := PI / 4 * Do ^ 2 * sqrt (2 * rho * dP / (1 - (Do / D) ^ 4)).
Theorem C55_discharge : forall D Do P1 P2 rho C e meter, plate D Do -> 0 <= rho -> P2 <= P1 -> round_bore meter ->
  flow_meter_discharge D Do P1 P2 rho C e meter = Ok (C * e * ideal_discharge D Do rho (P1 - P2)).
Proof.
  intros D Do P1 P2 rho C e meter H Hr HP Hm. destruct (plate_beta _ _ H) as [B0 B1]. destruct (beta4_lt1 (Do / D) (conj B0 B1)) as [B2 B4].
  unfold flow_meter_discharge. rewrite beta_round by exact Hm. rewrite pdiv_ok by (destruct H; lra). cbn [bind]. rewrite pdiv_ok by lra. cbn [bind].
  rewrite psqrt_ok. 2:{ apply Rdiv_le_0_compat; [apply Rmult_le_pos; lra|lra]. }
  cbn [bind]. f_equal. unfold ideal_discharge. replace ((Do / D) ^ 4) with (Do / D * (Do / D) * (Do / D * (Do / D))) by ring.
  lits. field. destruct H; lra.
Qed.
(** Back-flow is refused, and so is a bore as wide as the pipe. *)
Theorem C55_backflow : forall D Do P1 P2 rho C e meter, plate D Do -> 0 < rho -> P1 < P2 -> round_bore meter ->
  flow_meter_discharge D Do P1 P2 rho C e meter = Err ValueError.
Proof.
  intros D Do P1 P2 rho C e meter H Hr HP Hm. destruct (plate_beta _ _ H) as [B0 B1]. destruct (beta4_lt1 (Do / D) (conj B0 B1)) as [B2 B4].
  unfold flow_meter_discharge. rewrite beta_round by exact Hm. rewrite pdiv_ok by (destruct H; lra). cbn [bind]. rewrite pdiv_ok by lra. cbn [bind].
  unfold psqrt. rewrite (proj2 (Rltb_true _ 0)). reflexivity.
  apply Rmult_lt_reg_r with (1 - Do / D * (Do / D) * (Do / D * (Do / D))). lra. rewrite Rmult_0_l.
  set (q := 1 - Do / D * (Do / D) * (Do / D * (Do / D))) in *. assert (0 < q) by (unfold q; lra). clearbody q.
  replace (2 * rho * (P1 - P2) / q * q) with (2 * rho * (P1 - P2)) by (field; lra).
  nra.
Qed.
Theorem C55_no_restriction : forall D P1 P2 rho C e meter, 0 < D -> round_bore meter ->
  flow_meter_discharge D D P1 P2 rho C e meter = Err ZeroDivisionError.
Proof.
  intros D P1 P2 rho C e meter H Hm. unfold flow_meter_discharge. rewrite beta_round by exact Hm. rewrite pdiv_ok by lra. cbn [bind].
  replace (1 - D / D * (D / D) * (D / D * (D / D))) with 0 by (field; lra). rewrite pdiv_0. reflexivity.
Qed.
(** The two descriptions of a plate agree: for the liquid flow rate that the discharge coefficient predicts, the permanent loss is the
    loss coefficient times the velocity head in the pipe. *)
Theorem C55_loss_is_K_velocity_heads : forall D Do P1 P2 rho C meter, plate D Do -> 0 < rho -> P2 <= P1 -> 0 < C -> round_bore meter ->
  exists m K, flow_meter_discharge D Do P1 P2 rho C 1 meter = Ok m /\ discharge_coefficient_to_K D Do C = Ok K /\
    dP_orifice D Do P1 P2 C = Ok (K * (rho * pipe_velocity D rho m ^ 2 / 2)).
Proof.
  intros D Do P1 P2 rho C meter H Hr HP HC Hm. eexists. eexists. split. apply C55_discharge; assumption || lra. split. apply plate_K; assumption.
  destruct (plate_beta _ _ H) as [B0 B1]. destruct (beta4_lt1 (Do / D) (conj B0 B1)) as [B2 B4].
  destruct (root_arg (Do / D) C (conj B0 B1) HC) as [G0 [G1 [G2 G3]]].
  unfold dP_orifice. rewrite pdiv_ok by (destruct H; lra). cbn [bind]. rewrite psqrt_ok by exact G0. cbn [bind].
  assert (Hc : 0 < C * (Do / D * (Do / D))) by (apply Rmult_lt_0_compat; lra).
  rewrite pdiv_ok by lra. cbn [bind]. f_equal.
  unfold pipe_velocity, ideal_discharge. pose proof PI_RGT_0 as HPI.
  set (y := 2 * rho * (P1 - P2) / (1 - (Do / D) ^ 4)).
  assert (Hy : 0 <= y). { apply Rdiv_le_0_compat. apply Rmult_le_pos; lra. replace ((Do / D) ^ 4) with (Do / D * (Do / D) * (Do / D * (Do / D))) by ring. lra. }
  assert (Hyy : sqrt y * sqrt y = y) by (apply sqrt_sqrt; exact Hy).
  assert (EV : (C * 1 * (PI / 4 * Do ^ 2 * sqrt y) / (rho * (PI / 4 * D ^ 2))) ^ 2 = C * C * (Do / D * (Do / D) * (Do / D * (Do / D))) * y / (rho * rho)).
  { replace ((C * 1 * (PI / 4 * Do ^ 2 * sqrt y) / (rho * (PI / 4 * D ^ 2))) ^ 2) with (C * C * (Do / D * (Do / D) * (Do / D * (Do / D))) * (sqrt y * sqrt y) / (rho * rho)) by (field; destruct H; lra).
    rewrite Hyy. reflexivity. }
  rewrite EV. unfold y. replace ((Do / D) ^ 4) with (Do / D * (Do / D) * (Do / D * (Do / D))) by ring. clear EV Hyy Hy y.
  set (b := Do / D) in *. set (a := sqrt (1 - (b * b) * (b * b) * (1 - C * C))) in *.
  set (c := C * (b * b)) in *.
  assert (Eac : a * a - c * c = 1 - b * b * (b * b)) by (rewrite G1; unfold c; ring).
  replace (C * C * (b * b * (b * b))) with (c * c) by (unfold c; ring). rewrite <- Eac.
  assert (0 < a * a - c * c) by nra. field. lra.
Qed.
(** Doubling the flow takes four times the pressure difference. *)
Theorem C55_square_root_law : forall D Do P1 P2 rho C e meter t m, plate D Do -> 0 <= rho -> P2 <= P1 -> 0 <= t -> round_bore meter ->
  flow_meter_discharge D Do P1 P2 rho C e meter = Ok m -> flow_meter_discharge D Do (P2 + t ^ 2 * (P1 - P2)) P2 rho C e meter = Ok (t * m).
Proof.
  intros D Do P1 P2 rho C e meter t m H Hr HP Ht Hm E. rewrite C55_discharge in E by assumption. apply Ok_inj in E. subst m.
  rewrite C55_discharge; try assumption. 2: nra. f_equal. unfold ideal_discharge.
  replace (P2 + t ^ 2 * (P1 - P2) - P2) with (t ^ 2 * (P1 - P2)) by ring.
  destruct (plate_beta _ _ H) as [B0 B1]. destruct (beta4_lt1 (Do / D) (conj B0 B1)) as [B2 B4].
  assert (0 < 1 - (Do / D) ^ 4) by (replace ((Do / D) ^ 4) with (Do / D * (Do / D) * (Do / D * (Do / D))) by ring; lra).
  set (q := 1 - (Do / D) ^ 4) in *. clearbody q.
  replace (2 * rho * (t ^ 2 * (P1 - P2)) / q) with (t ^ 2 * (2 * rho * (P1 - P2) / q)) by (field; lra).
  rewrite sqrt_mult; [|nra|apply Rdiv_le_0_compat; [apply Rmult_le_pos; lra|lra]]. rewrite sqrt_pow2 by exact Ht. ring.
Qed.
(** For positive coefficients the flow rate grows with the pressure difference and vanishes with it. *)
Theorem C55_discharge_monotone : forall D Do P1 P1' P2 rho C e meter m m', plate D Do -> 0 < rho -> P2 <= P1 -> P1 < P1' -> 0 < C -> 0 < e -> round_bore meter ->
  flow_meter_discharge D Do P1 P2 rho C e meter = Ok m -> flow_meter_discharge D Do P1' P2 rho C e meter = Ok m' -> 0 <= m < m'.
Proof.
  intros D Do P1 P1' P2 rho C e meter m m' H Hr HP HP' HC He Hm E E'. rewrite C55_discharge in E, E' by (assumption || lra). apply Ok_inj in E. apply Ok_inj in E'. subst m m'.
  destruct (plate_beta _ _ H) as [B0 B1]. destruct (beta4_lt1 (Do / D) (conj B0 B1)) as [B2 B4]. pose proof PI_RGT_0.
  assert (0 < 1 - (Do / D) ^ 4) by (replace ((Do / D) ^ 4) with (Do / D * (Do / D) * (Do / D * (Do / D))) by ring; lra).
  assert (0 < PI / 4 * Do ^ 2) by (destruct H; apply Rmult_lt_0_compat; [lra|nra]).
  assert (0 < C * e) by nra.
  split.
  - apply Rmult_le_pos. lra. apply Rmult_le_pos. lra. apply sqrt_pos.
  - apply Rmult_lt_compat_l. assumption. apply Rmult_lt_compat_l. assumption. apply sqrt_lt_1_alt. split.
    apply Rdiv_le_0_compat; [apply Rmult_le_pos; lra|lra]. apply Rmult_lt_compat_r. apply Rinv_0_lt_compat; assumption. nra.
Qed.
Theorem C55_flow_coefficient : forall D Do C, plate D Do ->
  exists E, velocity_of_approach_factor D Do = Ok E /\ 1 < E /\ E ^ 2 * (1 - (Do / D) ^ 4) = 1 /\ flow_coefficient D Do C = Ok (C * E).
Proof.
  intros D Do C H. destruct (plate_beta _ _ H) as [B0 B1]. destruct (beta4_lt1 (Do / D) (conj B0 B1)) as [B2 B4].
  unfold velocity_of_approach_factor, flow_coefficient. rewrite pdiv_ok by (destruct H; lra). cbn [bind]. rewrite psqrt_ok by lra. cbn [bind].
  set (b := Do / D) in *. assert (Hs : 0 < sqrt (1 - b * b * (b * b))) by (apply sqrt_lt_R0; lra).
  assert (Hs1 : sqrt (1 - b * b * (b * b)) < 1). { rewrite <- sqrt_1 at 2. apply sqrt_lt_1_alt. lra. }
  assert (Hss : sqrt (1 - b * b * (b * b)) * sqrt (1 - b * b * (b * b)) = 1 - b * b * (b * b)) by (apply sqrt_sqrt; lra).
  rewrite !pdiv_ok by lra. eexists. split. reflexivity. splits.
  - apply Rmult_lt_reg_r with (sqrt (1 - b * b * (b * b))). exact Hs. replace (1 / sqrt (1 - b * b * (b * b)) * sqrt (1 - b * b * (b * b))) with 1 by (field; lra). lra.
  - replace (b ^ 4) with (b * b * (b * b)) by ring. set (s := sqrt (1 - b * b * (b * b))) in *. rewrite <- Hss. field. lra.
  - f_equal. field. lra.
Qed.

Example C55_ex_plate : plate 0.2 0.1 /\ 0 < 0.61 /\ round_bore "ISO 5167 orifice".
Proof. unfold plate. splits; try (lits; lra). left. reflexivity. Qed.
Example C55_ex : exists K w, discharge_coefficient_to_K 2 1 1 = Ok K /\ dP_orifice 2 1 10 5 1 = Ok w /\ K = 9 /\ w = 3.
Proof.
  assert (P : plate 2 1) by (unfold plate; lra).
  assert (S : sqrt (1 - 1 / 2 * (1 / 2) * (1 / 2 * (1 / 2)) * (1 - 1 * 1)) = 1). { replace (1 - 1 / 2 * (1 / 2) * (1 / 2 * (1 / 2)) * (1 - 1 * 1)) with 1 by field. apply sqrt_1. }
  eexists. eexists. splits.
  - apply plate_K. exact P. lra.
  - unfold dP_orifice. rewrite (pdiv_ok 1 2) by lra. cbn [bind]. rewrite psqrt_ok by lra. cbn [bind]. rewrite S. rewrite pdiv_ok by lra. reflexivity.
  - rewrite S. field.
  - field.
Qed.

Print Assumptions C55_coefficient_round_trip.
Print Assumptions C55_loss_round_trip.
Print Assumptions C55_loss_decreasing.
Print Assumptions C55_permanent_loss_bounds.
Print Assumptions C55_discharge.
Print Assumptions C55_backflow.
Print Assumptions C55_no_restriction.
Print Assumptions C55_loss_is_K_velocity_heads.
Print Assumptions C55_square_root_law.
Print Assumptions C55_discharge_monotone.
Print Assumptions C55_flow_coefficient.
