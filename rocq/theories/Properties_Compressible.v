(** Final theorems: compression work, efficiencies and stagnation states (C44, C45, C46). *)
From Coq Require Import Reals Lra Lia QArith Qreals List String Bool.
From Coquelicot Require Import Rcomplements.
From Verif Require Import Base Model_Real Proofs_Real Proofs_Ln Model_Compressible.
Import ListNotations.
Open Scope R_scope.

(** the gas constant used by the library, J/(mol K) *)
Definition Rgas : R := 8.31446261815324.
Lemma Rgas_pos : 0 < Rgas. Proof. unfold Rgas; lits; lra. Qed.

(** ** C44 *)
(** work per mole of an adiabatic compression with isentropic efficiency [eta] *)
Definition isentropic_work (T1 k Z P1 P2 eta : R) : R := k / (k - 1) * Z * Rgas * T1 * (Rpower (P2 / P1) ((k - 1) / k) - 1) / eta.
Lemma Rpower_inj_ne1 x a : 0 < x -> x <> 1 -> a <> 0 -> Rpower x a <> 1.
Proof.
  intros Hx H1 Ha E. apply (f_equal ln) in E. rewrite ln_Rpower, ln_1 in E. apply Rmult_integral in E. destruct E; [contradiction|].
  apply H1. apply ln_inv; try lra. rewrite ln_1; auto.
Qed.
Ltac ne := repeat first [assumption | apply Rmult_integral_contrapositive_currified | apply Rinv_neq_0_compat | lra].
Theorem C44_solves : forall T1 k Z P1 P2 eta, 0 < T1 -> 0 < k -> k <> 1 -> 0 < Z -> 0 < P1 -> 0 < P2 -> P1 <> P2 -> 0 < eta ->
  let W := isentropic_work T1 k Z P1 P2 eta in
  isentropic_work_compression T1 k Z (Some P1) (Some P2) None (Some eta) = Ok W /\
  isentropic_work_compression T1 k Z None (Some P2) (Some W) (Some eta) = Ok P1 /\
  isentropic_work_compression T1 k Z (Some P1) None (Some W) (Some eta) = Ok P2 /\
  isentropic_work_compression T1 k Z (Some P1) (Some P2) (Some W) None = Ok eta.
Proof.
  intros T1 k Z P1 P2 eta HT Hk Hk1 HZ HP1 HP2 HP He W. pose proof Rgas_pos as HR.
  assert (Hk2 : k - 1 <> 0) by lra. set (X := Rpower (P2 / P1) ((k - 1) / k)). assert (HX : 0 < X) by apply exp_pos.
  assert (HX1 : X <> 1).
  { apply Rpower_inj_ne1. posr. intros E. apply HP. apply Rmult_eq_reg_r with (/ P1). rewrite Rinv_r; [|lra]. unfold Rdiv in E. lra. apply Rinv_neq_0_compat; lra. unfold Rdiv. ne. }
  assert (EW : W = k / (k - 1) * Z * Rgas * T1 * (X - 1) / eta) by reflexivity.
  assert (EX : 1 + W * eta / (Rgas * T1 * Z) - W * eta / (Rgas * T1 * Z * k) = X) by (rewrite EW; field; splits; lra).
  clearbody W. unfold isentropic_work_compression. fold Rgas. splits.
  - rewrite !pdiv_ok by ne. cbn [bind]. rewrite ppow_ok by posr. cbn [bind]. fold X. rewrite pdiv_ok by lra. rewrite EW. reflexivity.
  - rewrite !pdiv_ok by (first [posr | ne]). cbn [bind]. rewrite EX. rewrite ppow_ok by auto. cbn [bind]. f_equal. bylog. unfold X. lnpush. field. splits; lra.
  - rewrite !pdiv_ok by (first [posr | ne]). cbn [bind]. rewrite EX. rewrite ppow_ok by auto. cbn [bind]. f_equal. bylog. unfold X. lnpush. field. splits; lra.
  - rewrite !(pdiv_ok P2 P1), !(pdiv_ok (k - 1) k) by lra. cbn [bind]. rewrite ppow_ok by posr. cbn [bind]. fold X.
    assert (W <> 0) by (rewrite EW; unfold Rdiv; ne).
    rewrite pdiv_ok by ne. f_equal. apply Rmult_eq_reg_r with (W * (k - 1)); [|ne]. unfold Rdiv at 1. rewrite Rmult_assoc, Rinv_l, Rmult_1_r by ne.
    rewrite EW. field. splits; lra.
Qed.
Theorem C44_arguments : forall T1 k Z P1 P2 W eta,
  List.length (filter (fun o : option R => match o with None => true | _ => false end) [P1; P2; W; eta]) <> 1%nat ->
  isentropic_work_compression T1 k Z P1 P2 W eta = Err ValueError.
Proof. intros T1 k Z [P1|] [P2|] [W|] [eta|] H; try reflexivity; cbn in H; contradiction. Qed.
(** the work is the enthalpy rise of a gas with Cp = k R/(k-1) heated to the discharge temperature *)
Theorem C44_work_is_enthalpy_rise : forall T1 k P1 P2 eta, 0 < T1 -> 0 < k -> k <> 1 -> 0 < P1 -> 0 < P2 -> 0 < eta ->
  exists W T2, isentropic_work_compression T1 k 1 (Some P1) (Some P2) None (Some eta) = Ok W /\
  isentropic_T_rise_compression T1 P1 P2 k eta = Ok T2 /\ W = k / (k - 1) * Rgas * (T2 - T1).
Proof.
  intros T1 k P1 P2 eta. intros. assert (k - 1 <> 0) by lra. unfold isentropic_work_compression, isentropic_T_rise_compression. fold Rgas.
  rewrite !pdiv_ok by ne. cbn [bind]. rewrite ppow_ok by posr. cbn [bind]. rewrite !pdiv_ok by ne. cbn [bind].
  do 2 eexists. splits; try reflexivity. field. splits; lra.
Qed.
(** isothermal compression is the cheapest: it needs no more work than an ideal adiabatic one between the same pressures *)
Theorem C44_isothermal_least : forall T k P1 P2, 0 < T -> 1 < k -> 0 < P1 -> 0 < P2 ->
  exists Wi Ws, isothermal_work_compression P1 P2 T 1 = Ok Wi /\
  isentropic_work_compression T k 1 (Some P1) (Some P2) None (Some 1) = Ok Ws /\ Wi <= Ws /\ (P1 <> P2 -> Wi < Ws).
Proof.
  intros T k P1 P2 HT Hk HP1 HP2. pose proof Rgas_pos as HR. assert (k - 1 <> 0) by lra. unfold isentropic_work_compression, isothermal_work_compression. fold Rgas.
  rewrite !pdiv_ok by ne. cbn [bind]. rewrite plog_ok, ppow_ok by posr. cbn [bind]. rewrite !pdiv_ok by ne.
  do 2 eexists. splits; try reflexivity.
  - assert (E : ln (P2 / P1) <= k / (k - 1) * (Rpower (P2 / P1) ((k - 1) / k) - 1)).
    { unfold Rpower. set (l := ln (P2 / P1)). pose proof (exp_ineq1_le ((k - 1) / k * l)) as X.
      apply Rmult_le_reg_l with ((k - 1) / k); [posr|]. replace ((k - 1) / k * (k / (k - 1) * (exp ((k - 1) / k * l) - 1))) with (exp ((k - 1) / k * l) - 1) by (field; lra). lra. }
    apply Rmult_le_compat_l with (r := Rgas * T) in E; [|posr].
    replace (k / (k - 1) * 1 * Rgas * T * (Rpower (P2 / P1) ((k - 1) / k) - 1) / 1) with (Rgas * T * (k / (k - 1) * (Rpower (P2 / P1) ((k - 1) / k) - 1))) by (field; lra). lra.
  - intros NE. assert (NL : ln (P2 / P1) <> 0).
    { rewrite ln_quot by auto. intros E. apply NE. apply ln_inv; auto; lra. }
    assert (E : ln (P2 / P1) < k / (k - 1) * (Rpower (P2 / P1) ((k - 1) / k) - 1)).
    { unfold Rpower. set (l := ln (P2 / P1)) in *. assert (N : (k - 1) / k * l <> 0) by (unfold Rdiv; ne). pose proof (exp_ineq1 _ N) as X.
      apply Rmult_lt_reg_l with ((k - 1) / k); [posr|]. replace ((k - 1) / k * (k / (k - 1) * (exp ((k - 1) / k * l) - 1))) with (exp ((k - 1) / k * l) - 1) by (field; lra). lra. }
    apply Rmult_lt_compat_l with (r := Rgas * T) in E; [|posr].
    replace (k / (k - 1) * 1 * Rgas * T * (Rpower (P2 / P1) ((k - 1) / k) - 1) / 1) with (Rgas * T * (k / (k - 1) * (Rpower (P2 / P1) ((k - 1) / k) - 1))) by (field; lra). lra.
Qed.
(** isothermal work is additive over stages *)
Theorem C44_isothermal_stages : forall T Z P1 P2 P3, 0 < P1 -> 0 < P2 -> 0 < P3 ->
  exists a b, isothermal_work_compression P1 P2 T Z = Ok a /\ isothermal_work_compression P2 P3 T Z = Ok b /\
  isothermal_work_compression P1 P3 T Z = Ok (a + b).
Proof.
  intros T Z P1 P2 P3 H1 H2 H3. unfold isothermal_work_compression. rewrite !pdiv_ok by lra. cbn [bind]. rewrite !plog_ok by posr. cbn [bind].
  do 2 eexists. splits; try reflexivity. f_equal. rewrite !ln_quot by auto. ring.
Qed.
Example C44_ex : exists W, isentropic_work_compression 300 1.4 1 (Some 100000) (Some 1000000) None (Some 0.78) = Ok W /\
  isentropic_work_compression 300 1.4 1 (Some 100000) None (Some W) (Some 0.78) = Ok 1000000.
Proof. destruct (C44_solves 300 1.4 1 100000 1000000 0.78) as (A & _ & B & _); try (lits; lra). eexists; split; [exact A|exact B]. Qed.

(** ** C45 *)
Lemma exp_gt1 x : 0 < x -> 1 < exp x. Proof. intros H. pose proof (exp_ineq1 x). lra. Qed.
Lemma exp_lt1 x : x < 0 -> exp x < 1. Proof. intros H. rewrite <- exp_0. apply exp_increasing; auto. Qed.
Lemma exp_ge1 x : 0 <= x -> 1 <= exp x. Proof. intros H. pose proof (exp_ineq1_le x). lra. Qed.
Theorem C45_isentropic_polytropic : forall P1 P2 k eta_p, 0 < P1 -> P1 < P2 -> 1 < k -> 0 < eta_p ->
  exists eta_s, isentropic_efficiency P1 P2 k None (Some eta_p) = Ok eta_s /\ 0 < eta_s /\
  isentropic_efficiency P1 P2 k (Some eta_s) None = Ok eta_p /\ (eta_p < 1 -> eta_s < eta_p) /\ (eta_p = 1 -> eta_s = 1).
Proof.
  intros P1 P2 k e HP1 HP Hk He.
  set (x := Rpower (P2 / P1) ((k - 1) / k)). set (y := Rpower (P2 / P1) ((k - 1) / (k * e))).
  assert (HL : 0 < ln (P2 / P1)). { rewrite <- ln_1. apply ln_increasing; [lra|]. apply Rmult_lt_reg_r with P1; auto. unfold Rdiv. rewrite Rmult_assoc, Rinv_l; lra. }
  assert (A1 : 0 < (k - 1) / k) by posr. assert (A2 : 0 < (k - 1) / (k * e)) by posr.
  assert (Hx : 1 < x). { unfold x, Rpower. apply exp_gt1. posr. }
  assert (Hy : 1 < y). { unfold y, Rpower. apply exp_gt1. posr. }
  assert (Hk0 : 0 < k * e) by posr.
  assert (Hs : 0 < (x - 1) / (y - 1)) by posr.
  exists ((x - 1) / (y - 1)). unfold isentropic_efficiency. splits; auto.
  - rewrite !pdiv_ok by lra. cbn [bind]. rewrite !ppow_ok by posr. cbn [bind]. fold x y. rewrite pdiv_ok by lra. reflexivity.
  - rewrite !(pdiv_ok P2 P1), !(pdiv_ok (k - 1) k) by lra. cbn [bind]. rewrite plog_ok, ppow_ok by posr. cbn [bind]. fold x. rewrite pdiv_ok by lra. cbn [bind].
    replace (((x - 1) / (y - 1) + x - 1) / ((x - 1) / (y - 1))) with y by (field; lra).
    rewrite plog_ok by lra. cbn [bind]. unfold y. rewrite ln_Rpower. rewrite pdiv_ok. f_equal. field. splits; lra. posr.
  - intros E1. apply Rmult_lt_reg_r with (y - 1); [lra|]. unfold Rdiv. rewrite Rmult_assoc, Rinv_l by lra. rewrite Rmult_1_r.
    (* y = x^(1/e): strict convexity of exp *)
    set (l := ln x). assert (Hl : 0 < l) by (unfold l; rewrite <- ln_1; apply ln_increasing; lra).
    assert (Ey : y = exp (l / e)). { unfold y, l, x. rewrite ln_Rpower. unfold Rpower. f_equal. field. splits; lra. }
    assert (Ex : x = exp l) by (unfold l; rewrite exp_ln; lra). rewrite Ey, Ex.
    assert (L1 : l < l / e). { apply Rmult_lt_reg_r with e; auto. unfold Rdiv. rewrite Rmult_assoc, Rinv_l by lra. nra. }
    (* tangent at l: exp(l/e) > exp l (1 + l/e - l), exp 0 > exp l (1 - l) *)
    pose proof (exp_ineq1 (l / e - l) ltac:(lra)) as T1. pose proof (exp_ineq1 (- l) ltac:(lra)) as T2.
    assert (X1 : exp (l / e) = exp l * exp (l / e - l)) by (rewrite <- exp_plus; f_equal; ring).
    assert (X2 : 1 = exp l * exp (- l)) by (rewrite <- exp_plus, <- exp_0; f_equal; ring).
    pose proof (exp_pos l) as Pl.
    assert (M1 : exp l * (1 + (l / e - l)) < exp (l / e)) by (rewrite X1; apply Rmult_lt_compat_l; auto).
    assert (M2 : exp l * (1 + - l) < 1) by (rewrite X2 at 2; apply Rmult_lt_compat_l; auto).
    assert (M3 : e * (exp l * (1 + (l / e - l))) < e * exp (l / e)) by (apply Rmult_lt_compat_l; auto).
    replace (e * (exp l * (1 + (l / e - l)))) with (e * exp l + exp l * l - e * (exp l * l)) in M3 by (field; lra).
    nra.
  - intros ->. unfold x, y. rewrite Rmult_1_r. fold x. field. lra.
Qed.
Theorem C45_exponent : forall k n eta, 0 < k -> k <> 1 -> 0 < n -> n <> 1 -> 0 < eta -> 1 - k * (1 - eta) <> 0 ->
  (exists e, polytropic_exponent k (Some n) None = Ok e /\ (polytropic_exponent k None (Some e) = Ok n)) /\
  (exists m, polytropic_exponent k None (Some eta) = Ok m /\ polytropic_exponent k (Some m) None = Ok eta).
Proof.
  intros k n eta Hk Hk1 Hn Hn1 He Hd. assert (k - 1 <> 0) by lra. assert (n - 1 <> 0) by lra. split.
  - unfold polytropic_exponent. rewrite pdiv_ok by ne. eexists; split; [reflexivity|].
    assert (E : 1 - k * (1 - n * (k - 1) / (k * (n - 1))) = (k - 1) / (n - 1)) by (field; splits; lra).
    rewrite E. rewrite pdiv_ok by (unfold Rdiv; ne). f_equal. field. splits; lra.
  - unfold polytropic_exponent. rewrite pdiv_ok by auto. eexists; split; [reflexivity|].
    assert (E : k * eta / (1 - k * (1 - eta)) - 1 = (k - 1) / (1 - k * (1 - eta))) by (field; auto).
    rewrite E. rewrite pdiv_ok by (unfold Rdiv; ne). f_equal. field. splits; lra.
Qed.
Theorem C45_arguments : forall P1 P2 k a b n e,
  isentropic_efficiency P1 P2 k None None = Err ValueError /\ isentropic_efficiency P1 P2 k (Some a) (Some b) = Err ValueError /\
  polytropic_exponent k None None = Err ValueError /\ polytropic_exponent k (Some n) (Some e) = Err ValueError.
Proof. intros; splits; reflexivity. Qed.
Example C45_ex : exists s, isentropic_efficiency 100000 1000000 1.4 None (Some 0.78) = Ok s /\ s < 0.78 /\ isentropic_efficiency 100000 1000000 1.4 (Some s) None = Ok 0.78.
Proof. destruct (C45_isentropic_polytropic 100000 1000000 1.4 0.78) as (s & A & _ & B & Cc & _); try (lits; lra). exists s. splits; auto. apply Cc; lits; lra. Qed.

(** ** C46 *)
Theorem C46_stagnation_inverse : forall P T Tst Pst k, 0 < P -> 0 < T -> 0 < Tst -> 0 < Pst -> 0 < k -> k <> 1 ->
  (exists p, P_stagnation P T Tst k = Ok p /\ T_stagnation T P p k = Ok Tst) /\
  (exists t, T_stagnation T P Pst k = Ok t /\ P_stagnation P T t k = Ok Pst).
Proof.
  intros P T Tst Pst k HP HT Ht Hp Hk Hk1. assert (k - 1 <> 0) by lra. unfold P_stagnation, T_stagnation. split.
  - rewrite !pdiv_ok by lra. cbn [bind]. rewrite ppow_ok by posr. cbn [bind]. eexists; split; [reflexivity|].
    rewrite !pdiv_ok by lra. cbn [bind]. rewrite ppow_ok by posr. cbn [bind]. f_equal. bylog. field. splits; lra.
  - rewrite !pdiv_ok by lra. cbn [bind]. rewrite ppow_ok by posr. cbn [bind]. eexists; split; [reflexivity|].
    rewrite !pdiv_ok by lra. cbn [bind]. rewrite ppow_ok by posr. cbn [bind]. f_equal. bylog. field. splits; lra.
Qed.
(** the critical-flow state is the sonic state: expanding isentropically from (P, T) to the critical temperature gives the
    critical pressure, and at the speed of sound there, V^2 = k Rs Tc, the ideal stagnation temperature is T again *)
Theorem C46_critical_is_sonic : forall P T k Rs, 0 < P -> 0 < T -> 1 < k -> 0 < Rs ->
  exists Pc Tc, P_critical_flow P k = Ok Pc /\ T_critical_flow T k = Ok Tc /\ 0 < Pc < P /\ 0 < Tc < T /\
  P_stagnation Pc Tc T k = Ok P /\ T_stagnation_ideal Tc (sqrt (k * Rs * Tc)) (k * Rs / (k - 1)) = Ok T.
Proof.
  intros P T k Rs HP HT Hk HR. assert (0 < k - 1) by lra. unfold P_critical_flow, T_critical_flow, P_stagnation, T_stagnation_ideal.
  rewrite !pdiv_ok by lra. cbn [bind]. rewrite ppow_ok by posr. cbn [bind]. do 2 eexists. splits; try reflexivity; try posr.
  - assert (Rpower (2 / (k + 1)) (k / (k - 1)) < 1).
    { unfold Rpower. apply exp_lt1. assert (ln (2 / (k + 1)) < 0). { rewrite <- ln_1. apply ln_increasing; [posr|]. apply Rmult_lt_reg_r with (k + 1); [lra|]. unfold Rdiv. rewrite Rmult_assoc, Rinv_l; lra. }
      assert (0 < k / (k - 1)) by posr. nra. }
    pose proof (Rpower_pos (2 / (k + 1)) (k / (k - 1))). nra.
  - apply Rmult_lt_reg_r with (k + 1); [lra|]. unfold Rdiv. rewrite Rmult_assoc, Rinv_l; nra.
  - assert (0 < T * 2 / (k + 1)) by posr. rewrite !pdiv_ok by lra. cbn [bind]. rewrite ppow_ok by posr. cbn [bind]. f_equal. bylog. field. splits; lra.
  - assert (Q : 0 < k * Rs * (T * 2 / (k + 1))) by posr. rewrite pdiv_ok by posr. cbn [bind]. f_equal.
    rewrite (Rmult_assoc 0.5), sqrt_sqrt by lra. lits. field. splits; lra.
Qed.
(** the choking test is the comparison of the outlet pressure with the critical one *)
Theorem C46_is_critical_flow : forall P1 P2 k, 0 < P1 -> 1 < k ->
  exists Pc, P_critical_flow P1 k = Ok Pc /\ (is_critical_flow P1 P2 k = Ok true <-> P2 < Pc) /\ (is_critical_flow P1 P2 k = Ok false <-> Pc <= P2).
Proof.
  intros P1 P2 k HP Hk. unfold is_critical_flow. unfold P_critical_flow. rewrite !pdiv_ok by lra. cbn [bind]. rewrite ppow_ok by posr. cbn [bind].
  eexists. splits; [reflexivity| |].
  - rewrite <- Rltb_true. split; intros E; [injection E as ->; auto|rewrite E; auto].
  - rewrite <- Rltb_false. split; intros E; [injection E as ->; auto|rewrite E; auto].
Qed.
(** stagnation values are never below the static ones *)
Theorem C46_stagnation_ge : forall T V Cp P k, 0 < T -> 0 < Cp -> 0 < P -> 1 < k ->
  exists Tst Pst, T_stagnation_ideal T V Cp = Ok Tst /\ P_stagnation P T Tst k = Ok Pst /\ T <= Tst /\ P <= Pst.
Proof.
  intros T V Cp P k HT HC HP Hk. unfold T_stagnation_ideal, P_stagnation. rewrite !pdiv_ok by lra. cbn [bind].
  assert (N : 0 <= 0.5 * V * V / Cp). { apply Rdiv_le_0_compat; auto. lits. nra. }
  do 2 eexists. splits; [reflexivity| | |].
  - rewrite pdiv_ok by lra. cbn [bind]. rewrite ppow_ok by (apply Rdiv_lt_0_compat; lra). reflexivity.
  - lra.
  - assert (1 <= Rpower ((T + 0.5 * V * V / Cp) / T) (k / (k - 1))).
    { unfold Rpower. apply exp_ge1.
      assert (0 <= ln ((T + 0.5 * V * V / Cp) / T)). { rewrite <- ln_1. apply Interval.ln_le_compat; [lra|]. apply Rmult_le_reg_r with T; auto. set (u := 0.5 * V * V / Cp) in *. replace ((T + u) / T * T) with (T + u) by (field; lra). lra. }
      assert (0 < k / (k - 1)) by posr. apply Rmult_le_pos; lra. }
    nra.
Qed.
Example C46_ex : exists Pc, P_critical_flow 1000000 1.4 = Ok Pc /\ 0 < Pc < 1000000.
Proof. destruct (C46_critical_is_sonic 1000000 300 1.4 287) as (p & t & A & _ & B & _); try (lits; lra). eauto. Qed.

Print Assumptions C44_solves.
Print Assumptions C44_arguments.
Print Assumptions C44_work_is_enthalpy_rise.
Print Assumptions C44_isothermal_least.
Print Assumptions C44_isothermal_stages.
Print Assumptions C45_isentropic_polytropic.
Print Assumptions C45_exponent.
Print Assumptions C45_arguments.
Print Assumptions C46_stagnation_inverse.
Print Assumptions C46_critical_is_sonic.
Print Assumptions C46_is_critical_flow.
Print Assumptions C46_stagnation_ge.
