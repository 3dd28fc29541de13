(** C91: sizing of relief valves and their noise (safety_valve.py) against nozzle theory. *)
From Coq Require Import Reals Lra Lia List Bool QArith Qreals.
From Coquelicot Require Import Coquelicot.
From Verif Require Import Base Model_Real Proofs_Real Proofs_Ln Interval Model_Numerics Proofs_Numerics Model_Tables Model_Compressible Model_Relief
  Properties_Compressible Properties_PSD2 Properties_FlowMeter3 Properties_Safety.
Import ListNotations.
Open Scope R_scope.

(* -- specification: isentropic flow of an ideal gas through a nozzle, per unit of area -- *)
(** the gas constant, J/(kmol K) *)
Definition Rk : R := 8314.4626.
Definition critical_pressure (k P1 : R) : R := P1 * Rpower (2 / (k + 1)) (k / (k - 1)).
Definition flux_choked (k Z MW T P1 : R) : R := P1 * sqrt (MW / (Z * Rk * T) * (k * Rpower (2 / (k + 1)) ((k + 1) / (k - 1)))).
Definition flux_subsonic (k Z MW T P1 P2 : R) : R :=
  P1 * sqrt (2 * (MW / (Z * Rk * T)) * (k / (k - 1)) * (Rpower (P2 / P1) (2 / k) - Rpower (P2 / P1) ((k + 1) / k))).

Lemma sqrt_is x y : 0 <= y -> y * y = x -> sqrt x = y.
Proof. intros H E. apply sqrt_lem_1; auto. rewrite <- E. apply Rle_0_sqr. Qed.
Lemma critical_test P1 P2 k : 0 < P1 -> 1 < k -> is_critical_flow P1 P2 k = Ok (Rltb P2 (critical_pressure k P1)).
Proof. intros HP Hk. unfold is_critical_flow, P_critical_flow. rewrite !pdiv_ok by lra. cbn [bind]. rewrite ppow_ok by posr. reflexivity. Qed.
Lemma critical_scale k P1 c : critical_pressure k (P1 * c) = critical_pressure k P1 * c.
Proof. unfold critical_pressure. ring. Qed.
Lemma Rltb_scale a b c : 0 < c -> Rltb (a * c) (b * c) = Rltb a b.
Proof.
  intros Hc. destruct (Rltb a b) eqn:E; [apply Rltb_true in E; apply Rltb_true; nra|apply Rltb_false in E; apply Rltb_false; nra].
Qed.
Lemma milli : 0 < 0.001. Proof. lits; lra. Qed.

(** the dimensionless group of choked flow *)
Definition choke (k : R) : R := k * Rpower (2 / (k + 1)) ((k + 1) / (k - 1)).
Lemma choke_pos k : 1 < k -> 0 < choke k.
Proof. intros H. unfold choke. posr. Qed.
Lemma C_eval k : 1 < k -> API520_C k = Ok (0.03948 * sqrt (choke k)).
Proof.
  intros H. unfold API520_C. rewrite (proj2 (Reqb_false k 1)) by lra. cbn [negb]. cbv zeta. rewrite !pdiv_ok by lra. cbn [bind]. rewrite ppow_ok by posr. cbn [bind].
  fold (choke k). pose proof (choke_pos k H). rewrite psqrt_ok by lra. reflexivity.
Qed.
Lemma A_choked m T Z MW k P1 P2 Kd Kb Kc : 0 < m -> 0 < T -> 0 < Z -> 0 < MW -> 1 < k -> 0 < P1 -> P2 < critical_pressure k P1 -> 0 < Kd -> 0 < Kb -> 0 < Kc ->
  API520_A_g m T Z MW k P1 P2 Kd Kb Kc = Ok (m * 3600 / (0.03948 * sqrt (choke k) * Kd * Kb * Kc * (P1 * 0.001)) * sqrt (T * Z / MW) * 0.000001).
Proof.
  intros. pose proof milli. pose proof (choke_pos k ltac:(auto)) as HC. assert (0 < sqrt (choke k)) by now apply sqrt_lt_R0.
  unfold API520_A_g. cbv zeta. rewrite critical_test by (auto; posr). rewrite critical_scale, Rltb_scale by auto. cbn [bind].
  rewrite (proj2 (Rltb_true _ _)) by auto. rewrite C_eval by auto. cbn [bind]. rewrite pdiv_ok by posr. cbn [bind]. rewrite pdiv_ok by posr. cbn [bind].
  rewrite psqrt_ok by (apply Rlt_le; posr). reflexivity.
Qed.

(** Choked flow: the area passes the wanted mass flow, by isentropic flow of an ideal gas and with the coefficients, within 0.01 %. *)
Theorem C91_gas_choked : forall m T Z MW k P1 P2 Kd Kb Kc, 0 < m -> 0 < T -> 0 < Z -> 0 < MW -> 1 < k -> 0 < P1 -> P2 < critical_pressure k P1 ->
  0 < Kd -> 0 < Kb -> 0 < Kc ->
  exists A, API520_A_g m T Z MW k P1 P2 Kd Kb Kc = Ok A /\ 0 < A /\ Rabs (Kd * Kb * Kc * A * flux_choked k Z MW T P1 - m) <= 0.0001 * m.
Proof.
  intros m T Z MW k P1 P2 Kd Kb Kc Hm HT HZ HM Hk HP HC HKd HKb HKc. eexists. split; [now apply A_choked|].
  pose proof milli. pose proof (choke_pos k Hk) as Hc. set (b := sqrt (choke k)). assert (Hb : 0 < b) by now apply sqrt_lt_R0.
  assert (HRk : 0 < Rk) by (unfold Rk; lits; lra).
  set (a := sqrt (T * Z / MW)). assert (Ha : 0 < a) by (apply sqrt_lt_R0; posr). assert (Ha2 : a * a = T * Z / MW) by (apply sqrt_sqrt; apply Rlt_le; posr).
  set (g := sqrt Rk). assert (Hg : 0 < g) by (now apply sqrt_lt_R0). assert (Hg2 : g * g = Rk) by (apply sqrt_sqrt; lra).
  split; [posr|].
  assert (EF : flux_choked k Z MW T P1 = P1 * (b / (a * g))).
  { unfold flux_choked. f_equal. apply sqrt_is; [apply Rlt_le; posr|]. fold (choke k).
    replace (b / (a * g) * (b / (a * g))) with (b * b / ((a * a) * (g * g))) by (field; lra).
    rewrite Ha2, Hg2. unfold b. rewrite sqrt_sqrt by lra. field. splits; lra. }
  rewrite EF. set (q := 3.6 / (0.03948 * g)).
  replace (Kd * Kb * Kc * (m * 3600 / (0.03948 * b * Kd * Kb * Kc * (P1 * 0.001)) * a * 0.000001) * (P1 * (b / (a * g))) - m) with (m * (q - 1)).
  2:{ unfold q. lits. field. splits; lra. }
  rewrite Rabs_mult, (Rabs_pos_eq m) by lra. rewrite (Rmult_comm 0.0001). apply Rmult_le_compat_l; [lra|].
  unfold q, g, Rk. apply Rabs_le. split; itv 0%nat.
Qed.

Lemma F2_eval k P1 P2 : 1 < k -> 0 < P2 < P1 -> API520_F2 k P1 P2 = Ok (sqrt (k / (k - 1) * Rpower (P2 / P1) (2 / k) * ((1 - Rpower (P2 / P1) ((k - 1) / k)) / (1 - P2 / P1)))) /\
  0 < k / (k - 1) * Rpower (P2 / P1) (2 / k) * ((1 - Rpower (P2 / P1) ((k - 1) / k)) / (1 - P2 / P1)).
Proof.
  intros Hk HP. assert (Hr : 0 < P2 / P1 < 1) by (split; [posr|apply Rmult_lt_reg_r with P1; [lra|]; unfold Rdiv; rewrite Rmult_assoc, Rinv_l; lra]).
  assert (Hf : Rpower (P2 / P1) ((k - 1) / k) < 1).
  { apply pw_frac; auto. posr. }
  assert (K : 0 < k / (k - 1) * Rpower (P2 / P1) (2 / k) * ((1 - Rpower (P2 / P1) ((k - 1) / k)) / (1 - P2 / P1))) by (set (x := Rpower _ ((k - 1) / k)) in *; posr).
  split; auto. unfold API520_F2. rewrite pdiv_ok by lra. cbn [bind]. rewrite !pdiv_ok by lra. cbn [bind]. rewrite ppow_ok by lra. cbn [bind]. rewrite ppow_ok by lra. cbn [bind].
  rewrite pdiv_ok by lra. cbn [bind]. apply psqrt_ok. lra.
Qed.
Lemma A_subsonic m T Z MW k P1 P2 Kd Kb Kc : 0 < m -> 0 < T -> 0 < Z -> 0 < MW -> 1 < k -> 0 < P2 < P1 -> critical_pressure k P1 <= P2 -> 0 < Kd -> 0 < Kc ->
  API520_A_g m T Z MW k P1 P2 Kd Kb Kc =
  Ok (17.9 * (m * 3600) / (sqrt (k / (k - 1) * Rpower (P2 / P1) (2 / k) * ((1 - Rpower (P2 / P1) ((k - 1) / k)) / (1 - P2 / P1))) * Kd * Kc) *
      sqrt (T * Z / (MW * (P1 * 0.001) * (P1 * 0.001 - P2 * 0.001))) * 0.000001).
Proof.
  intros. pose proof milli. destruct (F2_eval k P1 P2 ltac:(auto) ltac:(auto)) as [_ HF].
  unfold API520_A_g. cbv zeta. rewrite critical_test by (auto; posr). rewrite critical_scale, Rltb_scale by auto. cbn [bind].
  rewrite (proj2 (Rltb_false _ _)) by auto.
  destruct (F2_eval k (P1 * 0.001) (P2 * 0.001)) as [E _]; auto. { nra. }
  replace (P2 * 0.001 / (P1 * 0.001)) with (P2 / P1) in E by (field; split; lra). rewrite E. cbn [bind].
  assert (0 < sqrt (k / (k - 1) * Rpower (P2 / P1) (2 / k) * ((1 - Rpower (P2 / P1) ((k - 1) / k)) / (1 - P2 / P1)))) by (apply sqrt_lt_R0; auto).
  set (f := sqrt (k / (k - 1) * _ * _)) in *. assert (0 < P1 * 0.001 - P2 * 0.001) by nra.
  rewrite pdiv_ok by posr. cbn [bind]. rewrite pdiv_ok by posr. cbn [bind].
  rewrite psqrt_ok by (apply Rlt_le; posr). reflexivity.
Qed.
Lemma flux_subsonic_pos k Z MW T P1 P2 : 1 < k -> 0 < Z -> 0 < MW -> 0 < T -> 0 < P2 < P1 -> 0 < flux_subsonic k Z MW T P1 P2.
Proof.
  intros Hk HZ HM HT HP. assert (HRk : 0 < Rk) by (unfold Rk; lits; lra). assert (Hr : 0 < P2 / P1 < 1) by (split; [posr|apply Rmult_lt_reg_r with P1; [lra|]; unfold Rdiv; rewrite Rmult_assoc, Rinv_l; lra]).
  assert (0 < Rpower (P2 / P1) (2 / k) - Rpower (P2 / P1) ((k + 1) / k)).
  { assert (ln (P2 / P1) < 0) by (rewrite <- ln_1; apply ln_increasing; lra). unfold Rpower. apply Rlt_Rminus. apply exp_increasing.
    assert (2 / k < (k + 1) / k) by (apply div_lt_r; lra). nra. }
  unfold flux_subsonic. set (d := _ - _) in *. apply Rmult_lt_0_compat; [lra|]. apply sqrt_lt_R0. posr.
Qed.
(** Subsonic flow: the same within 0.06 %. *)
Theorem C91_gas_subsonic : forall m T Z MW k P1 P2 Kd Kb Kc, 0 < m -> 0 < T -> 0 < Z -> 0 < MW -> 1 < k -> 0 < P2 < P1 -> critical_pressure k P1 <= P2 ->
  0 < Kd -> 0 < Kc ->
  exists A, API520_A_g m T Z MW k P1 P2 Kd Kb Kc = Ok A /\ 0 < A /\ Rabs (Kd * Kc * A * flux_subsonic k Z MW T P1 P2 - m) <= 0.0006 * m.
Proof.
  intros m T Z MW k P1 P2 Kd Kb Kc Hm HT HZ HM Hk HP HC HKd HKc. eexists. split; [now apply A_subsonic|].
  pose proof milli. destruct (F2_eval k P1 P2 ltac:(auto) ltac:(auto)) as [_ HF]. set (F := k / (k - 1) * _ * _) in *.
  set (f := sqrt F). assert (Hf : 0 < f) by now apply sqrt_lt_R0. assert (HRk : 0 < Rk) by (unfold Rk; lits; lra).
  assert (0 < P1 * 0.001 - P2 * 0.001) by nra.
  set (a := sqrt (T * Z / (MW * (P1 * 0.001) * (P1 * 0.001 - P2 * 0.001)))).
  assert (Ha : 0 < a) by (apply sqrt_lt_R0; posr). assert (Ha2 : a * a = T * Z / (MW * (P1 * 0.001) * (P1 * 0.001 - P2 * 0.001))) by (apply sqrt_sqrt; apply Rlt_le; posr).
  set (h := sqrt (2 / Rk)). assert (Hh : 0 < h) by (apply sqrt_lt_R0; posr). assert (Hh2 : h * h = 2 / Rk) by (apply sqrt_sqrt; apply Rlt_le; posr).
  split; [posr|].
  assert (EF : flux_subsonic k Z MW T P1 P2 = f * h / (a * 0.001)).
  { unfold flux_subsonic. assert (Hr : 0 < P2 / P1) by posr.
    replace (Rpower (P2 / P1) ((k + 1) / k)) with (Rpower (P2 / P1) (2 / k) * Rpower (P2 / P1) ((k - 1) / k)).
    2:{ rewrite <- Rpower_plus. f_equal. field. lra. }
    assert (EFF : f * f = F) by (apply sqrt_sqrt; lra).
    assert (Hpos : 0 < f * h / (a * 0.001)) by posr.
    transitivity (P1 * (f * h / (a * 0.001) / P1)); [|field; splits; lra]. f_equal. apply sqrt_is; [apply Rlt_le; posr|].
    replace (f * h / (a * 0.001) / P1 * (f * h / (a * 0.001) / P1)) with ((f * f) * (h * h) / ((a * a) * (0.001 * 0.001)) / (P1 * P1)) by (field; splits; lra).
    rewrite EFF, Hh2, Ha2. unfold F. set (x := Rpower (P2 / P1) (2 / k)). set (y := Rpower (P2 / P1) ((k - 1) / k)). lits. field. splits; lra. }
  rewrite EF. set (q := 17.9 * 3.6 * h).
  replace (Kd * Kc * (17.9 * (m * 3600) / (f * Kd * Kc) * a * 0.000001) * (f * h / (a * 0.001)) - m) with (m * (q - 1)).
  2:{ unfold q. lits. field. splits; lra. }
  rewrite Rabs_mult, (Rabs_pos_eq m) by lra. rewrite (Rmult_comm 0.0006). apply Rmult_le_compat_l; [lra|].
  unfold q, h, Rk. apply Rabs_le. split; itv 0%nat.
Qed.
Example C91_gas_ex : exists A, API520_A_g 6.74 348 0.9 51 1.11 670000 0 0.975 1 1 = Ok A /\ 0 < A.
Proof.
  destruct (C91_gas_choked 6.74 348 0.9 51 1.11 670000 0 0.975 1 1) as (A & E & H & _); try (lits; lra); eauto. unfold critical_pressure. posr.
Qed.

(** the two flux formulas agree at the critical pressure *)
Lemma flux_agree k Z MW T P1 : 1 < k -> 0 < P1 -> flux_subsonic k Z MW T P1 (critical_pressure k P1) = flux_choked k Z MW T P1.
Proof.
  intros Hk HP. unfold flux_subsonic, flux_choked, critical_pressure. f_equal. f_equal. set (u := 2 / (k + 1)). assert (Hu : 0 < u) by (unfold u; posr).
  replace (P1 * Rpower u (k / (k - 1)) / P1) with (Rpower u (k / (k - 1))) by (field; lra). rewrite !Rpower_mult.
  replace (k / (k - 1) * (2 / k)) with (2 / (k - 1)) by (field; lra). replace (k / (k - 1) * ((k + 1) / k)) with (2 / (k - 1) + 1) by (field; lra).
  replace ((k + 1) / (k - 1)) with (2 / (k - 1) + 1) by (field; lra). rewrite Rpower_plus, Rpower_1 by auto. set (v := Rpower u (2 / (k - 1))).
  transitivity (MW / (Z * Rk * T) * (2 * (k / (k - 1)) * (1 - u) * v)); [ring|]. f_equal.
  unfold u. field. lra.
Qed.
(** Deviation: the constants of the two formulas differ by 0.06 %, so at the limit of choked flow the required area falls although
    the back pressure rises. *)
Theorem C91_gas_jump_refuted : forall m T Z MW k P1, 0 < m -> 0 < T -> 0 < Z -> 0 < MW -> 1 < k -> 0 < P1 ->
  exists P2 P2' A A', P2 < P2' /\ API520_A_g m T Z MW k P1 P2 1 1 1 = Ok A /\ API520_A_g m T Z MW k P1 P2' 1 1 1 = Ok A' /\ A' < A.
Proof.
  intros m T Z MW k P1 Hm HT HZ HM Hk HP.
  assert (Hc : 0 < critical_pressure k P1 < P1).
  { destruct (C46_critical_is_sonic P1 300 k 287) as (p & t & E1 & _ & H & _); try lra. unfold critical_pressure. unfold P_critical_flow in E1. rewrite !pdiv_ok in E1 by lra. cbn [bind] in E1. rewrite ppow_ok in E1 by posr. cbn [bind] in E1. injection E1 as E1. rewrite E1. lra. }
  set (Pc := critical_pressure k P1) in *.
  exists (Pc / 2), Pc. do 2 eexists. split; [lra|]. split; [apply A_choked; fold Pc; lra|]. split; [apply A_subsonic; fold Pc; lra|].
  pose proof (flux_agree k Z MW T P1 Hk HP) as EA. fold Pc in EA. pose proof (flux_subsonic_pos k Z MW T P1 Pc Hk HZ HM HT Hc) as HF.
  pose proof milli. pose proof (choke_pos k Hk) as HCk. set (b := sqrt (choke k)). assert (Hb : 0 < b) by now apply sqrt_lt_R0.
  destruct (F2_eval k P1 Pc Hk Hc) as [_ HFF]. set (F := k / (k - 1) * _ * _) in *.
  set (f := sqrt F). assert (Hf : 0 < f) by now apply sqrt_lt_R0.
  set (t := T * Z / MW). assert (Ht : 0 < t) by (unfold t; posr).
  assert (Hd : 0 < P1 * 0.001 * (P1 * 0.001 - Pc * 0.001)) by (apply Rmult_lt_0_compat; nra).
  replace (T * Z / (MW * (P1 * 0.001) * (P1 * 0.001 - Pc * 0.001))) with (t / (P1 * 0.001 * (P1 * 0.001 - Pc * 0.001))) by (unfold t; field; splits; nra).
  rewrite sqrt_div_alt by auto. set (s := sqrt t). assert (Hs : 0 < s) by now apply sqrt_lt_R0.
  set (w := sqrt (P1 * 0.001 * (P1 * 0.001 - Pc * 0.001))). assert (Hw : 0 < w) by now apply sqrt_lt_R0.
  (* f w sqrt 2 = b P1/1000 *)
  assert (K : sqrt 2 * (f * w) = b * (P1 * 0.001)).
  { transitivity (b * sqrt ((P1 * 0.001) ^ 2)); [|rewrite sqrt_pow2 by nra; reflexivity]. unfold f, w, b. rewrite <- !sqrt_mult_alt by lra. f_equal.
    assert (ES : 2 * (k / (k - 1)) * (Rpower (Pc / P1) (2 / k) - Rpower (Pc / P1) ((k + 1) / k)) = choke k).
    { unfold Pc, critical_pressure, choke. set (u := 2 / (k + 1)). assert (Hu : 0 < u) by (unfold u; posr).
      replace (P1 * Rpower u (k / (k - 1)) / P1) with (Rpower u (k / (k - 1))) by (field; lra). rewrite !Rpower_mult.
      replace (k / (k - 1) * (2 / k)) with (2 / (k - 1)) by (field; lra). replace (k / (k - 1) * ((k + 1) / k)) with (2 / (k - 1) + 1) by (field; lra).
      replace ((k + 1) / (k - 1)) with (2 / (k - 1) + 1) by (field; lra). rewrite Rpower_plus, Rpower_1 by auto. set (v := Rpower u (2 / (k - 1))).
      unfold u. field. lra. }
    rewrite <- ES. unfold F.
    replace (Rpower (Pc / P1) ((k + 1) / k)) with (Rpower (Pc / P1) (2 / k) * Rpower (Pc / P1) ((k - 1) / k)) by (rewrite <- Rpower_plus; f_equal; field; lra).
    set (x := Rpower (Pc / P1) (2 / k)). set (y := Rpower (Pc / P1) ((k - 1) / k)).
    field. splits; lra. }
  assert (Hs2 : 0 < sqrt 2) by (apply sqrt_lt_R0; lra).
  replace (17.9 * (m * 3600) / (f * 1 * 1) * (s / w) * 0.000001) with (m * 3600 * s * 0.000001 * (17.9 * sqrt 2 / (b * (P1 * 0.001)))) by (rewrite <- K; field; splits; lra).
  replace (m * 3600 / (0.03948 * b * 1 * 1 * 1 * (P1 * 0.001)) * s * 0.000001) with (m * 3600 * s * 0.000001 * (/ 0.03948 / (b * (P1 * 0.001)))) by (lits; field; splits; lra).
  apply Rmult_lt_compat_l; [lits; posr|]. apply div_lt_r; [posr|]. itv 0%nat.
Qed.
(** Deviation: for k = 1, which API520_C handles, the area raises ZeroDivisionError. *)
Theorem C91_gas_k1_refuted : forall m T Z MW P1 P2 Kd Kb Kc, API520_A_g m T Z MW 1 P1 P2 Kd Kb Kc = Err ZeroDivisionError /\ exists C, API520_C 1 = Ok C /\ 0 < C.
Proof.
  intros. split.
  - unfold API520_A_g, is_critical_flow, P_critical_flow. cbv zeta. rewrite pdiv_ok by lra. cbn [bind]. replace (1 - 1) with 0 by ring. rewrite pdiv_0. reflexivity.
  - unfold API520_C. rewrite (proj2 (Reqb_true 1 1)) by auto. cbn [negb]. eexists. split; [reflexivity|]. lits. lra.
Qed.

Print Assumptions C91_gas_choked.
Print Assumptions C91_gas_subsonic.
Print Assumptions C91_gas_jump_refuted.
Print Assumptions C91_gas_k1_refuted.
