(** C91 continued: steam and liquid service, viscosity correction, flare noise. *)
From Coq Require Import Reals Lra Lia List Bool QArith Qreals.
From Verif Require Import Base Model_Real Proofs_Real Interval Model_Numerics Proofs_Numerics Model_Tables Properties_Safety Model_Relief Properties_Relief.
Import ListNotations.
Open Scope R_scope.

(* -- steam -- *)
(** Napier's equation: the valve of the returned area passes the stated flow. *)
Theorem C91_steam : forall m T P1 Kd Kb Kc e KN KSH, 0 < m -> 0 < P1 -> 0 < Kd -> 0 < Kb -> 0 < Kc ->
  @API520_N R _ P1 = Ok KN -> @API520_SH R _ T P1 e = Ok KSH -> 0 < KN ->
  exists A, API520_A_steam m T P1 Kd Kb Kc e = Ok A /\ 0 < A /\ A * (P1 * Kd * Kb * Kc * KN * KSH) = 685.8 * m.
Proof.
  intros m T P1 Kd Kb Kc e KN KSH Hm HP HKd HKb HKc EN ES HN. pose proof milli.
  destruct (proj1 (proj2 (C37_API520_SH T P1 e)) _ ES) as [[B _] _]. assert (0 < KSH) by (revert B; Proofs_Real.lits; lra).
  unfold API520_A_steam. rewrite EN, ES. cbn [bind]. cbv zeta. assert (0 < P1 * 0.001 * Kd * Kb * Kc * KN * KSH) by posr.
  rewrite pdiv_ok by lra. cbn [bind]. eexists. split; [reflexivity|]. split; [Proofs_Real.lits; posr|]. Proofs_Real.lits. field. splits; lra.
Qed.
(** Up to 10339 kPa and for a temperature the tables cover, the area exists; more superheat needs more area; above 922.15 K there is no answer. *)
Theorem C91_steam_superheat : forall m T T' P1 Kd Kb Kc e, 0 < m -> 0 < P1 <= 10339000 -> 0 < Kd -> 0 < Kb -> 0 < Kc -> (e = E7 \/ e = E10) -> T <= T' -> T' <= 922.15 ->
  exists A A', API520_A_steam m T P1 Kd Kb Kc e = Ok A /\ API520_A_steam m T' P1 Kd Kb Kc e = Ok A' /\ 0 < A <= A'.
Proof.
  intros m T T' P1 Kd Kb Kc e Hm HP HKd HKb HKc He HT HT'. 
  assert (HM : P1 <= sh_Pmax e). { destruct He as [-> | ->]; cbn [sh_Pmax]; Proofs_Real.lits; lra. }
  assert (EN : @API520_N R _ P1 = Ok 1) by (apply C37_API520_N_low; Proofs_Real.lits; lra).
  destruct (proj2 (proj1 (C37_API520_SH T P1 e))) as (k & Ek); [splits; auto; lra|].
  destruct (proj2 (proj1 (C37_API520_SH T' P1 e))) as (k' & Ek'); [splits; auto|].
  pose proof (C37_API520_SH_nonincreasing T T' P1 e k k' HT Ek Ek').
  destruct (C91_steam m T P1 Kd Kb Kc e 1 k Hm ltac:(lra) HKd HKb HKc EN Ek ltac:(lra)) as (A & E1 & E2 & E3).
  destruct (C91_steam m T' P1 Kd Kb Kc e 1 k' Hm ltac:(lra) HKd HKb HKc EN Ek' ltac:(lra)) as (A' & E1' & E2' & E3').
  exists A, A'. splits; auto. destruct (proj1 (proj2 (C37_API520_SH T' P1 e)) _ Ek') as [[B _] _]. assert (0 < k') by (revert B; Proofs_Real.lits; lra).
  assert (Hc : 0 < P1 * Kd * Kb * Kc * 1) by posr. set (c := P1 * Kd * Kb * Kc * 1) in *. apply Rmult_le_reg_r with (c * k'); [posr|]. rewrite E3', <- E3. apply Rmult_le_compat_l; [lra|]. apply Rmult_le_compat_l; lra.
Qed.
Theorem C91_steam_too_hot : forall m T P1 Kd Kb Kc e, P1 <= 10339000 -> 922.15 < T -> API520_A_steam m T P1 Kd Kb Kc e = Err ValueError.
Proof.
  intros m T P1 Kd Kb Kc e HP HT. unfold API520_A_steam. rewrite C37_API520_N_low by (Proofs_Real.lits; lra). cbn [bind].
  destruct (@API520_SH R _ T P1 e) as [k|x] eqn:E; cbn [bind].
  - destruct (proj1 (proj1 (C37_API520_SH T P1 e)) (ex_intro _ k E)) as (Q & _). lra.
  - now rewrite (proj2 (proj2 (C37_API520_SH T P1 e)) _ E).
Qed.
Example C91_steam_superheat_ex : exists A A', API520_A_steam 10 593 12236000 0.975 1 1 E7 = Ok A' /\ API520_A_steam 10 593 1000000 0.975 1 1 E7 = Ok A /\ 0 < A.
Proof.
  assert (0 < 0.975) by (Proofs_Real.lits; lra).
  destruct (C91_steam_superheat 10 593 593 1000000 0.975 1 1 E7) as (A & A2 & E & _ & H1); auto; try lra; try (Proofs_Real.lits; lra).
  destruct (C37_API520_N_high 12236000 ltac:(Proofs_Real.lits; lra)) as (KN & EN & BN).
  destruct (proj2 (proj1 (C37_API520_SH 593 12236000 E7))) as (k & Ek); [splits; auto; [Proofs_Real.lits; lra|left; cbn [sh_Pmax]; lra]|].
  destruct (C91_steam 10 593 12236000 0.975 1 1 E7 KN k) as (A' & E' & _); auto; try lra; try (revert BN; Proofs_Real.lits; lra).
  exists A, A'. splits; auto. lra.
Qed.

(* -- viscosity correction -- *)
(** Both editions: a factor in (0,1] that does not fall as the Reynolds number rises; the 10th edition's is strictly between 0 and 1 and strictly increasing. *)
Theorem C91_Kv_10E : forall Re Re', 0 < Re -> Re < Re' -> exists K K', API520_Kv Re E10 = Ok K /\ API520_Kv Re' E10 = Ok K' /\ 0 < K < K' /\ K' < 1.
Proof.
  assert (V : forall Re, 0 < Re -> API520_Kv Re E10 = Ok (1 / sqrt (170 / Re + 1)) /\ 1 < sqrt (170 / Re + 1)).
  { intros Re H. assert (0 < 170 / Re) by posr. assert (1 < sqrt (170 / Re + 1)) by (rewrite <- sqrt_1; apply sqrt_lt_1_alt; rewrite sqrt_1; lra). split; auto.
    unfold API520_Kv. rewrite pdiv_ok by lra. cbn [bind]. rewrite psqrt_ok by lra. cbn [bind]. now rewrite pdiv_ok by lra. }
  intros Re Re' H H'. destruct (V Re H) as [E1 B1]. destruct (V Re' ltac:(lra)) as [E2 B2]. do 2 eexists. splits; eauto; [posr| |].
  - apply div_lt_l; try lra. apply sqrt_lt_1_alt. assert (0 < 170 / Re') by posr. split; [lra|]. apply Rplus_lt_compat_r. apply div_lt_l; lra.
  - apply Rmult_lt_reg_r with (sqrt (170 / Re' + 1)); [lra|]. unfold Rdiv at 1. rewrite Rmult_assoc, Rinv_l; lra.
Qed.
Theorem C91_Kv_7E : forall Re Re', 0 < Re -> Re <= Re' -> exists K K', API520_Kv Re E7 = Ok K /\ API520_Kv Re' E7 = Ok K' /\ 0 < K <= K' /\ K' <= 1.
Proof.
  set (d := fun Re => 0.9935 + 2.878 / sqrt Re + 342.75 / (Re * sqrt Re)).
  assert (V : forall Re, 0 < Re -> 0 < sqrt Re /\ 0 < d Re /\ API520_Kv Re E7 = Ok (if Rltb 1 (1 / d Re) then 1 else 1 / d Re)).
  { intros Re H. assert (0 < sqrt Re) by (now apply sqrt_lt_R0). assert (0 < Re * sqrt Re) by posr. assert (0 < d Re) by (unfold d; assert (0 < 2.878 / sqrt Re) by (Proofs_Real.lits; posr); assert (0 < 342.75 / (Re * sqrt Re)) by (Proofs_Real.lits; posr); assert (0 < 0.9935) by (Proofs_Real.lits; lra); lra).
    splits; auto. unfold API520_Kv. rewrite psqrt_ok by lra. cbn [bind]. rewrite !pdiv_ok by lra. cbn [bind]. fold (d Re). now rewrite pdiv_ok by lra. }
  intros Re Re' H H'. destruct (V Re H) as (S1 & D1 & E1). destruct (V Re' ltac:(lra)) as (S2 & D2 & E2). do 2 eexists. split; [apply E1|]. split; [apply E2|].
  assert (L : 1 / d Re <= 1 / d Re').
  { apply div_le_l; try lra. unfold d. assert (sqrt Re <= sqrt Re') by (apply sqrt_le_1_alt; lra).
    assert (2.878 / sqrt Re' <= 2.878 / sqrt Re) by (apply div_le_l; Proofs_Real.lits; lra).
    assert (342.75 / (Re' * sqrt Re') <= 342.75 / (Re * sqrt Re)); [|lra]. apply div_le_l; [Proofs_Real.lits; lra|posr|]. apply Rmult_le_compat; lra. }
  assert (0 < 1 / d Re) by posr. assert (0 < 1 / d Re') by posr. rcase; rcase; lra.
Qed.
Theorem C91_Kv_unknown : forall Re, API520_Kv Re EOther = Err ValueError.
Proof. reflexivity. Qed.
Lemma Kv_range Re e K : 0 < Re -> API520_Kv Re e = Ok K -> 0 < K <= 1.
Proof.
  intros H E. destruct e; [| |discriminate].
  - destruct (C91_Kv_7E Re Re H ltac:(lra)) as (a & b & E1 & E2 & B1 & B2). rewrite E in E1, E2. injection E1 as <-. lra.
  - destruct (C91_Kv_10E Re (Re + 1) H ltac:(lra)) as (a & b & E1 & E2 & B1 & B2). rewrite E in E1. injection E1 as <-. lra.
Qed.

(* -- liquids -- *)
(** the back pressure factor that applies *)
Definition applied_Kw (P1 P2 overpressure : R) (Kw : option R) (k : R) : Prop :=
  Kw = Some k \/ (Kw = None /\ @API520_W R _ ((P1 - 101325) / (1 + overpressure) + 101325) P2 = Ok k).
Lemma A_end m rho P1 P2 Kd Kw Kc Kv : 0 < m -> 0 < rho -> P2 < P1 -> 0 < Kd -> 0 < Kw -> 0 < Kc -> 0 < Kv ->
  exists c, 0 < c /\ Rabs (c - 1) <= 0.0001 /\ A_l_end (m / rho * 60000) (rho / rho0) P1 P2 Kd Kw Kc (Some Kv) = Ok (c * (m / (Kd * Kw * Kc * Kv * sqrt (2 * rho * (P1 - P2))))).
Proof.
  intros Hm Hr HP H1 H2 H3 H4. pose proof milli. assert (HR : 0 < rho0) by (unfold rho0; Proofs_Real.lits; lra).
  exists (0.7068 * sqrt (2000 / rho0)). assert (B : 0.9999 <= 0.7068 * sqrt (2000 / rho0) <= 1.0001) by (unfold rho0; split; itv 0%nat). splits.
  - revert B. Proofs_Real.lits. lra.
  - apply Rabs_le. revert B. Proofs_Real.lits. lra.
  - unfold A_l_end. assert (0 < P1 * 0.001 - P2 * 0.001) by nra. rewrite pdiv_ok by lra. cbn [bind]. assert (0 < rho / rho0 / (P1 * 0.001 - P2 * 0.001)) by posr. rewrite psqrt_ok by lra. cbn [bind].
    assert (0 < Kd * Kw * Kc * Kv) by posr. rewrite pdiv_ok by lra. cbn [bind]. f_equal.
    assert (0 < 2 * rho * (P1 - P2)) by (apply Rmult_lt_0_compat; lra). set (s := sqrt (2 * rho * (P1 - P2))). assert (Hs : 0 < s) by now apply sqrt_lt_R0. assert (Hs2 : s * s = 2 * rho * (P1 - P2)) by (apply sqrt_sqrt; lra).
    set (w := sqrt (2000 / rho0)). assert (0 < 2000 / rho0) by posr. assert (Hw : 0 < w) by now apply sqrt_lt_R0. assert (Hw2 : w * w = 2000 / rho0) by (apply sqrt_sqrt; lra).
    replace (sqrt (rho / rho0 / (P1 * 0.001 - P2 * 0.001))) with (rho * w / s).
    2:{ symmetry. apply sqrt_is; [apply Rlt_le; posr|]. replace (rho * w / s * (rho * w / s)) with (rho * rho * (w * w) / (s * s)) by (field; lra). rewrite Hw2, Hs2. Proofs_Real.lits. field. splits; lra. }
    Proofs_Real.lits. field. splits; lra.
Qed.
Lemma A_l_eval m rho P1 P2 over Kd Kc Kw k Kv e mu : 0 < m -> 0 < rho -> 0 < 1 + over -> applied_Kw P1 P2 over Kw k ->
  API520_A_l m rho P1 P2 over Kd Kc Kw Kv e mu =
  (Kv <- (match Kv, mu with
         | None, Some mu =>
             A0 <- A_l_end (m / rho * 60000) (rho / rho0) P1 P2 Kd k Kc (Some 1) ;;
             t1 <- pdiv (A0 * 4) PI ;; D <- psqrt t1 ;;
             q <- pdiv (m / rho * 60000) 60000 ;; v <- pdiv q A0 ;;
             Re <- pdiv (rho * v * D) mu ;;
             K <- API520_Kv Re e ;; Ok (Some K)
         | _, _ => Ok Kv
         end) ;; A_l_end (m / rho * 60000) (rho / rho0) P1 P2 Kd k Kc Kv).
Proof.
  intros Hm Hr Ho HW. assert (HR : 0 < rho0) by (unfold rho0; Proofs_Real.lits; lra). unfold API520_A_l. rewrite (pdiv_ok rho rho0), (pdiv_ok m rho), (pdiv_ok (P1 - 101325) (1 + over)) by lra. cbn [bind]. cbv zeta.
  destruct HW as [-> | [-> HW]]; cbn [bind]; [reflexivity|]. rewrite HW. reflexivity.
Qed.
(** The valve of the returned area passes the stated flow by Bernoulli's equation, to one part in ten thousand (API's rounded constants). *)
Theorem C91_liquid : forall m rho P1 P2 over Kd Kc Kw k Kv e mu, 0 < m -> 0 < rho -> P2 < P1 -> 0 < 1 + over -> 0 < Kd -> 0 < Kc -> 0 < Kv -> 0 < k -> applied_Kw P1 P2 over Kw k ->
  exists A, API520_A_l m rho P1 P2 over Kd Kc Kw (Some Kv) e mu = Ok A /\ 0 < A /\ Rabs (A * (Kd * k * Kc * Kv) * sqrt (2 * rho * (P1 - P2)) - m) <= 0.0001 * m.
Proof.
  intros m rho P1 P2 over Kd Kc Kw k Kv e mu Hm Hr HP Ho HKd HKc HKv Hk HW. rewrite (A_l_eval _ _ _ _ _ _ _ _ k) by auto. cbn [bind].
  destruct (A_end m rho P1 P2 Kd k Kc Kv) as (c & C1 & C2 & E); auto. rewrite E. eexists. split; [reflexivity|].
  assert (0 < 2 * rho * (P1 - P2)) by (apply Rmult_lt_0_compat; lra). set (s := sqrt (2 * rho * (P1 - P2))). assert (Hs : 0 < s) by now apply sqrt_lt_R0.
  split; [posr|]. replace (c * (m / (Kd * k * Kc * Kv * s)) * (Kd * k * Kc * Kv) * s - m) with ((c - 1) * m) by (field; splits; lra). rewrite Rabs_mult, (Rabs_pos_eq m) by lra. apply Rmult_le_compat_r; lra.
Qed.
(** the pressure factor exists and lies between 0.666357 and 1 whenever the valve's set pressure is above atmospheric *)
Theorem C91_liquid_Kw : forall P1 P2 over, 101325 < P1 -> 0 < 1 + over -> exists k, applied_Kw P1 P2 over None k /\ 0 < k <= 1.
Proof.
  intros P1 P2 over HP Ho. assert (0 < (P1 - 101325) / (1 + over)) by posr. destruct (C37_API520_W ((P1 - 101325) / (1 + over) + 101325) P2 ltac:(lra)) as (k & E & B & _).
  exists k. split; [right; auto|]. revert B. Proofs_Real.lits. lra.
Qed.
(** With a viscosity the area is that of the factor [K] at the Reynolds number of the uncorrected valve: never less than without viscosity. *)
Theorem C91_liquid_viscous : forall m rho P1 P2 over Kd Kc Kw k e mu, 0 < m -> 0 < rho -> P2 < P1 -> 0 < 1 + over -> 0 < Kd -> 0 < Kc -> 0 < k -> 0 < mu -> (e = E7 \/ e = E10) -> applied_Kw P1 P2 over Kw k ->
  exists A0 Re K, let D := sqrt (4 * A0 / PI) in
    API520_A_l m rho P1 P2 over Kd Kc Kw (Some 1) e None = Ok A0 /\ 0 < A0 /\ Re = rho * (m / rho / A0) * D / mu /\
    API520_Kv Re e = Ok K /\ 0 < K <= 1 /\ API520_A_l m rho P1 P2 over Kd Kc Kw None e (Some mu) = Ok (A0 / K) /\ A0 <= A0 / K.
Proof.
  intros m rho P1 P2 over Kd Kc Kw k e mu Hm Hr HP Ho HKd HKc Hk Hmu He HW.
  assert (0 < 2 * rho * (P1 - P2)) by (apply Rmult_lt_0_compat; lra). set (s := sqrt (2 * rho * (P1 - P2))). assert (Hs : 0 < s) by now apply sqrt_lt_R0.
  set (c := 0.7068 * sqrt (2000 / rho0)).
  assert (AE : forall Kv, 0 < Kv -> A_l_end (m / rho * 60000) (rho / rho0) P1 P2 Kd k Kc (Some Kv) = (A <- A_l_end (m / rho * 60000) (rho / rho0) P1 P2 Kd k Kc (Some 1) ;; Ok (A / Kv))).
  { intros Kv HKv. unfold A_l_end. pose proof milli. assert (HR : 0 < rho0) by (unfold rho0; Proofs_Real.lits; lra). assert (0 < P1 * 0.001 - P2 * 0.001) by nra. rewrite pdiv_ok by lra. cbn [bind].
    assert (0 < rho / rho0 / (P1 * 0.001 - P2 * 0.001)) by posr. rewrite psqrt_ok by lra. cbn [bind]. assert (0 < Kd * k * Kc * Kv) by posr. assert (0 < Kd * k * Kc * 1) by posr. rewrite !pdiv_ok by lra. cbn [bind]. f_equal. field. splits; lra. }
  destruct (A_end m rho P1 P2 Kd k Kc 1) as (c' & C1 & C2 & E); auto; [lra|]. set (A0 := c' * _) in E. assert (HA0 : 0 < A0) by (unfold A0; fold s; posr).
  set (D := sqrt (4 * A0 / PI)). pose proof PI_RGT_0. assert (0 < 4 * A0 / PI) by posr. assert (HD : 0 < D) by now apply sqrt_lt_R0.
  set (Re := rho * (m / rho / A0) * D / mu). assert (HRe : 0 < Re) by (unfold Re; posr).
  assert (HK : exists K, API520_Kv Re e = Ok K). { destruct He as [-> | ->]; [destruct (C91_Kv_7E Re Re HRe ltac:(lra)) as (a & _ & E1 & _)|destruct (C91_Kv_10E Re (Re + 1) HRe ltac:(lra)) as (a & _ & E1 & _)]; eauto. }
  destruct HK as (K & EK). pose proof (Kv_range _ _ _ HRe EK) as BK. exists A0, Re, K. cbv zeta. splits; auto; try lra.
  - rewrite (A_l_eval _ _ _ _ _ _ _ _ k) by auto. cbn [bind]. exact E.
  - rewrite (A_l_eval _ _ _ _ _ _ _ _ k) by auto. rewrite E. cbn [bind]. rewrite pdiv_ok by lra. cbn [bind]. replace (A0 * 4 / PI) with (4 * A0 / PI) by (field; lra). rewrite psqrt_ok by lra. cbn [bind].
    rewrite pdiv_ok by lra. cbn [bind]. replace (m / rho * 60000 / 60000) with (m / rho) by (field; lra). rewrite pdiv_ok by lra. cbn [bind]. rewrite pdiv_ok by lra. cbn [bind]. fold D. fold Re. rewrite EK. cbn [bind]. rewrite AE by lra. rewrite E. reflexivity.
  - apply Rmult_le_reg_r with K; [lra|]. unfold Rdiv. rewrite Rmult_assoc, Rinv_l by lra. nra.
Qed.
(** Neither a viscosity nor a factor (the defaults): the call does not size the valve but fails. *)
Theorem C91_liquid_default_refuted : forall m rho P1 P2 over Kd Kc Kw k e, 0 < m -> 0 < rho -> P2 < P1 -> 0 < 1 + over -> applied_Kw P1 P2 over Kw k ->
  API520_A_l m rho P1 P2 over Kd Kc Kw None e None = Err TypeError.
Proof.
  intros m rho P1 P2 over Kd Kc Kw k e Hm Hr HP Ho HW. rewrite (A_l_eval _ _ _ _ _ _ _ _ k) by auto. cbn [bind]. unfold A_l_end. pose proof milli. assert (HR : 0 < rho0) by (unfold rho0; Proofs_Real.lits; lra). assert (0 < P1 * 0.001 - P2 * 0.001) by nra. rewrite pdiv_ok by lra. cbn [bind].
  assert (0 < rho / rho0 / (P1 * 0.001 - P2 * 0.001)) by posr. rewrite psqrt_ok by lra. reflexivity.
Qed.
Example C91_liquid_ex : exists k, applied_Kw 1825014 446062 0.1 None k /\ 0 < k <= 1.
Proof. apply C91_liquid_Kw; Proofs_Real.lits; lra. Qed.

(* -- noise -- *)
(** the two straight lines of the chart, in the logarithm of the pressure ratio *)
Definition lowL (x : R) : R := 87.9084 * log10 x + 12.7647.
Definition highL (x : R) : R := 4.8239 * log10 x + 51.6217.
Lemma log10_slope x y : 1 <= x -> x <= y -> 0 <= log10 y - log10 x <= (y - x) * 0.4345 / x.
Proof.
  intros Hx Hy. unfold log10. assert (L10 : 2.302 < ln 10) by itv 0%nat. assert (0 < ln 10) by (revert L10; Proofs_Real.lits; lra).
  assert (ln x <= ln y) by (destruct Hy as [Hy| ->]; [apply Rlt_le, ln_increasing; lra|lra]).
  pose proof (ln_tangent y x ltac:(lra) ltac:(lra)) as T.
  replace (ln y / ln 10 - ln x / ln 10) with ((ln y - ln x) / ln 10) by (field; lra). split.
  - apply Rmult_le_pos; [lra|apply Rlt_le, Rinv_0_lt_compat; lra].
  - apply Rmult_le_reg_r with (ln 10); [lra|]. unfold Rdiv at 1. rewrite Rmult_assoc, Rinv_l by lra.
    assert (0 <= (y - x) / x) by (apply Rmult_le_pos; [lra|apply Rlt_le, Rinv_0_lt_compat; lra]).
    replace ((y - x) * 0.4345 / x * ln 10) with ((y - x) / x * (0.4345 * ln 10)) by (field; lra).
    assert (1 <= 0.4345 * ln 10) by itv 0%nat. set (w := (y - x) / x) in *. set (u := 0.4345 * ln 10) in *. assert (w * 1 <= w * u) by (apply Rmult_le_compat_l; lra). assert (ln y - ln x <= w) by lra. lra.
Qed.
Definition chart (x : R) : R := if Rlt_dec x 2.92 then lowL x else if Rlt_dec x 2.93 then line 2.92 (lowL x) 2.93 (highL x) x else highL x.
Lemma graph_eval x : 1 <= x -> API521_noise_graph x = Ok (chart x).
Proof.
  intros Hx. unfold API521_noise_graph. rewrite (proj2 (Rltb_false x 1)) by lra. cbv zeta. rewrite plog10_ok by lra. cbn [bind]. fold (lowL x). fold (highL x). unfold chart, Rltb.
  destruct (Rlt_dec x 2.92); [reflexivity|]. destruct (Rlt_dec x 2.93); [|reflexivity].
  rewrite (interp_inside x [2.92; 2.93] [lowL x; highL x] None None false 0); [reflexivity| |reflexivity|cbn; lia|unfold at_; cbn [nth]; lra].
  intros i j Hij Hj. cbn in Hj. assert (i = 0%nat /\ j = 1%nat) as [-> ->] by lia. unfold at_. cbn [nth]. Proofs_Real.lits. lra.
Qed.
Lemma low_high : lowL 2.93 <= highL 2.93. Proof. unfold lowL, highL, log10. itv 0%nat. Qed.
Lemma low_slope x y : 1 <= x -> x <= y -> 0 <= lowL y - lowL x <= 39 * (y - x) / x.
Proof.
  intros Hx Hy. pose proof (log10_slope x y Hx Hy) as [L1 L2]. unfold lowL. assert (0 <= (y - x) / x) by (apply Rmult_le_pos; [lra|apply Rlt_le, Rinv_0_lt_compat; lra]).
  replace ((y - x) * 0.4345 / x) with (0.4345 * ((y - x) / x)) in L2 by (field; lra). replace (39 * (y - x) / x) with (39 * ((y - x) / x)) by (field; lra).
  set (w := (y - x) / x) in *. set (a := log10 x) in *. set (b := log10 y) in *. clearbody w a b. revert L1 L2. Proofs_Real.lits. lra.
Qed.
Lemma high_slope x y : 1 <= x -> x <= y -> 0 <= highL y - highL x <= 39 * (y - x) / x.
Proof.
  intros Hx Hy. pose proof (log10_slope x y Hx Hy) as [L1 L2]. unfold highL. assert (0 <= (y - x) / x) by (apply Rmult_le_pos; [lra|apply Rlt_le, Rinv_0_lt_compat; lra]).
  replace ((y - x) * 0.4345 / x) with (0.4345 * ((y - x) / x)) in L2 by (field; lra). replace (39 * (y - x) / x) with (39 * ((y - x) / x)) by (field; lra).
  set (w := (y - x) / x) in *. set (a := log10 x) in *. set (b := log10 y) in *. clearbody w a b. revert L1 L2. Proofs_Real.lits. lra.
Qed.
Lemma slope_le x y : 1 <= x -> x <= y -> 39 * (y - x) / x <= 40 * (y - x).
Proof. intros Hx Hy. apply Rmult_le_reg_r with x; [lra|]. unfold Rdiv. rewrite Rmult_assoc, Rinv_l by lra. nra. Qed.
Definition midL (x : R) : R := line 2.92 (lowL x) 2.93 (highL x) x.
Lemma mid_slope x y : 2.92 <= x -> x <= y -> y <= 2.93 -> 0 <= midL y - midL x <= 40 * (y - x).
Proof.
  intros H1 H2 H3. unfold midL, line. assert (Hx : 2.9 <= x) by (revert H1; Proofs_Real.lits; lra). assert (H29 : 1 <= 2.9) by (Proofs_Real.lits; lra).
  assert (Hy93 : 2.93 = 293 / 100) by (Proofs_Real.lits; lra). assert (Hy92 : 2.92 = 292 / 100) by (Proofs_Real.lits; lra).
  set (t := (x - 2.92) / (2.93 - 2.92)). set (u := (y - 2.92) / (2.93 - 2.92)).
  assert (Ht : t = 100 * x - 292) by (unfold t; rewrite Hy93, Hy92; field). assert (Hu : u = 100 * y - 292) by (unfold u; rewrite Hy93, Hy92; field). clearbody t u.
  pose proof (low_slope x y ltac:(lra) H2) as [A1 A2]. pose proof (high_slope x y ltac:(lra) H2) as [B1 B2].
  assert (W : 39 * (y - x) / x <= 14 * (y - x)). { apply Rmult_le_reg_r with x; [lra|]. unfold Rdiv. rewrite Rmult_assoc, Rinv_l by lra. assert (39 <= 14 * x) by (revert Hx; Proofs_Real.lits; lra). nra. }
  (* the gap between the lines at y *)
  pose proof (low_slope y 2.93 ltac:(lra) H3) as [C1 _]. pose proof (high_slope y 2.93 ltac:(lra) H3) as [D1 _]. pose proof low_high as LH.
  pose proof (low_slope 2.92 y ltac:(lra) ltac:(lra)) as [E1 _].
  assert (G1 : highL 2.93 - lowL 2.92 <= 0.21) by (unfold lowL, highL, log10; itv 0%nat).
  assert (G0 : 0 <= highL y - lowL y).
  { (* the gap falls with the ratio: the lower line is steeper *)
    pose proof (log10_slope y 2.93 ltac:(lra) H3) as [L1 _]. unfold lowL, highL in *. set (a := log10 y) in *. set (b := log10 2.93) in *. clearbody a b. revert LH L1. Proofs_Real.lits. lra. }
  assert (G2 : highL y - lowL y <= 0.21) by lra.
  set (lx := lowL x) in *. set (ly := lowL y) in *. set (hx := highL x) in *. set (hy := highL y) in *.
  assert (T : 0 <= t <= 1) by lra. assert (U : 0 <= u <= 1) by lra. assert (UT : u - t = 100 * (y - x)) by lra.
  replace (ly + (hy - ly) * u - (lx + (hx - lx) * t)) with ((1 - t) * (ly - lx) + t * (hy - hx) + (u - t) * (hy - ly)) by ring. rewrite UT.
  set (w := 39 * (y - x) / x) in *. clearbody w.
  assert (0 <= (1 - t) * (ly - lx) <= (1 - t) * (14 * (y - x))) by (split; [apply Rmult_le_pos; lra|apply Rmult_le_compat_l; lra]).
  assert (0 <= t * (hy - hx) <= t * (14 * (y - x))) by (split; [apply Rmult_le_pos; lra|apply Rmult_le_compat_l; lra]).
  assert (0 <= 100 * (y - x) * (hy - ly) <= 100 * (y - x) * 0.21) by (split; [apply Rmult_le_pos; lra|apply Rmult_le_compat_l; lra]).
  assert (Q21 : 0.21 = 21 / 100) by (Proofs_Real.lits; lra). rewrite Q21 in *. split; [lra|]. lra.
Qed.
Lemma chart_low x : 1 <= x -> x <= 2.92 -> chart x = lowL x.
Proof.
  intros H1 H2. unfold chart. destruct (Rlt_dec x 2.92); auto. assert (x = 2.92) as -> by lra. destruct (Rlt_dec 2.92 2.93) as [_|N].
  - unfold line. unfold Rminus at 2. rewrite Rplus_opp_r. unfold Rdiv. ring.
  - exfalso. apply N. Proofs_Real.lits. lra.
Qed.
Lemma chart_mid x : 2.92 <= x -> x <= 2.93 -> chart x = midL x.
Proof.
  intros H1 H2. unfold chart. destruct (Rlt_dec x 2.92); [lra|]. destruct (Rlt_dec x 2.93); auto. assert (x = 2.93) as -> by lra. unfold midL, line.
  assert (2.93 - 2.92 <> 0) by (apply Rgt_not_eq; Proofs_Real.lits; lra). field. auto.
Qed.
Lemma chart_high x : 2.93 <= x -> chart x = highL x.
Proof. intros H1. unfold chart. assert (2.92 < 2.93) by (Proofs_Real.lits; lra). destruct (Rlt_dec x 2.92); [lra|]. destruct (Rlt_dec x 2.93); [lra|auto]. Qed.
Lemma chart_slope x y : 1 <= x -> x <= y -> 0 <= chart y - chart x <= 40 * (y - x).
Proof.
  assert (Hn : 1 <= 2.92 < 2.93) by (Proofs_Real.lits; lra).
  assert (L : forall x y, 1 <= x -> x <= y -> y <= 2.92 -> 0 <= chart y - chart x <= 40 * (y - x)).
  { intros x0 y0 H1 H2 H3. rewrite !chart_low by lra. pose proof (low_slope x0 y0 H1 H2). pose proof (slope_le x0 y0 H1 H2). lra. }
  assert (M : forall x y, 2.92 <= x -> x <= y -> y <= 2.93 -> 0 <= chart y - chart x <= 40 * (y - x)).
  { intros x0 y0 H1 H2 H3. rewrite !chart_mid by lra. now apply mid_slope. }
  assert (H : forall x y, 2.93 <= x -> x <= y -> 0 <= chart y - chart x <= 40 * (y - x)).
  { intros x0 y0 H1 H2. rewrite !chart_high by lra. pose proof (high_slope x0 y0 ltac:(lra) H2). pose proof (slope_le x0 y0 ltac:(lra) H2). lra. }
  intros Hx Hy.
  destruct (Rle_lt_dec y 2.92) as [Y1|Y1]; [now apply L|].
  destruct (Rle_lt_dec x 2.92) as [X1|X1].
  - pose proof (L x 2.92 Hx X1 ltac:(lra)) as P1. destruct (Rle_lt_dec y 2.93) as [Y2|Y2].
    + pose proof (M 2.92 y ltac:(lra) ltac:(lra) Y2). lra.
    + pose proof (M 2.92 2.93 ltac:(lra) ltac:(lra) ltac:(lra)). pose proof (H 2.93 y ltac:(lra) ltac:(lra)). lra.
  - destruct (Rle_lt_dec y 2.93) as [Y2|Y2]; [apply M; lra|]. destruct (Rle_lt_dec x 2.93) as [X2|X2].
    + pose proof (M x 2.93 ltac:(lra) ltac:(lra) ltac:(lra)). pose proof (H 2.93 y ltac:(lra) ltac:(lra)). lra.
    + apply H; lra.
Qed.
(** The noise chart is read for every pressure ratio, never falls, and has no jump (it changes by at most 40 dB per unit of pressure ratio), although it is
    made of two lines that do not meet; ratios below 1 read as 1. *)
Theorem C91_noise_graph : forall x y, x <= y -> exists L L', API521_noise_graph x = Ok L /\ API521_noise_graph y = Ok L' /\ 0 <= L' - L <= 40 * (y - x).
Proof.
  assert (S1 : forall x, x < 1 -> API521_noise_graph x = API521_noise_graph 1).
  { intros x H. unfold API521_noise_graph. rewrite (proj2 (Rltb_true x 1)) by lra. rewrite (proj2 (Rltb_false 1 1)) by lra. reflexivity. }
  intros x y H. destruct (Rlt_le_dec x 1) as [Hx|Hx].
  - rewrite (S1 x Hx). destruct (Rlt_le_dec y 1) as [Hy|Hy].
    + rewrite (S1 y Hy). rewrite graph_eval by lra. do 2 eexists. splits; eauto; lra.
    + rewrite !graph_eval by lra. do 2 eexists. split; eauto. split; eauto. pose proof (chart_slope 1 y ltac:(lra) Hy). lra.
  - rewrite !graph_eval by lra. do 2 eexists. split; eauto. split; eauto. apply chart_slope; lra.
Qed.
Theorem C91_noise_graph_low : forall x, x <= 1 -> API521_noise_graph x = Ok 12.7647.
Proof.
  intros x H. transitivity (API521_noise_graph 1).
  - unfold API521_noise_graph. destruct (Rlt_le_dec x 1) as [Hx|Hx]; [|now replace x with 1 by lra]. rewrite (proj2 (Rltb_true x 1)) by lra. rewrite (proj2 (Rltb_false 1 1)) by lra. reflexivity.
  - rewrite graph_eval by lra. rewrite chart_low by (Proofs_Real.lits; lra). unfold lowL. rewrite log10_1. f_equal. ring.
Qed.
(** Flare noise falls by 20 dB for each tenfold distance, rises by 10 dB for each tenfold mass flow and by 20 dB for each tenfold sound speed, and at 30 m it is
    the chart reading plus ten times the logarithm of half m c^2. *)
Theorem C91_noise_scaling : forall m P1 P2 c r f, 0 < m -> 0 < P2 -> 0 < c -> 0 < r -> 0 < f ->
  exists L, API521_noise m P1 P2 c r = Ok L /\ API521_noise m P1 P2 c (f * r) = Ok (L - 20 * log10 f) /\
  API521_noise (f * m) P1 P2 c r = Ok (L + 10 * log10 f) /\ API521_noise m P1 P2 (f * c) r = Ok (L + 20 * log10 f).
Proof.
  intros m P1 P2 c r f Hm HP Hc Hr Hf. destruct (C91_noise_graph (P1 / P2) (P1 / P2) ltac:(lra)) as (g & _ & Eg & _). assert (0 < 0.5) by (Proofs_Real.lits; lra).
  assert (V : forall m c r, 0 < m -> 0 < c -> 0 < r -> API521_noise m P1 P2 c r = Ok (g + 10 * (log10 0.5 + log10 m + 2 * log10 c) - 20 * (log10 r + log10 (1 / 30)))).
  { intros m' c' r' H1 H2 H3. unfold API521_noise. rewrite pdiv_ok by lra. cbn [bind]. rewrite Eg. cbn [bind]. assert (0 < 0.5 * m' * c' * c') by posr. rewrite plog10_ok by lra. cbn [bind]. cbv zeta. rewrite pdiv_ok by lra. cbn [bind].
    assert (0 < r' * (1 / 30)) by posr. rewrite plog10_ok by lra. cbn [bind]. rewrite !log10_mult by (try posr; lra). f_equal. ring. }
  assert (0 < f * r) by posr. assert (0 < f * m) by posr. assert (0 < f * c) by posr.
  eexists. split; [now apply V|]. rewrite !V by auto. rewrite !log10_mult by auto. splits; f_equal; ring.
Qed.
Theorem C91_noise_30m : forall m P1 P2 c g, 0 < m -> 0 < P2 -> 0 < c -> API521_noise_graph (P1 / P2) = Ok g -> API521_noise m P1 P2 c 30 = Ok (g + 10 * log10 (1 / 2 * m * (c * c))).
Proof.
  intros m P1 P2 c g Hm HP Hc Eg. unfold API521_noise. rewrite pdiv_ok by lra. cbn [bind]. rewrite Eg. cbn [bind]. assert (0 < 0.5) by (Proofs_Real.lits; lra). assert (0 < 0.5 * m * c * c) by posr.
  rewrite plog10_ok by lra. cbn [bind]. cbv zeta. rewrite pdiv_ok by lra. cbn [bind]. replace (30 * (1 / 30)) with 1 by field. rewrite plog10_ok by lra. cbn [bind]. rewrite log10_1. f_equal.
  replace (0.5 * m * c * c) with (1 / 2 * m * (c * c)) by (Proofs_Real.lits; field). ring.
Qed.
(** VDI 3732: 15 and 17 dB for each tenfold flow; an elevated flare is the louder one for every flow above 10 mg an hour. *)
Theorem C91_noise_VDI : forall m, 0 < m -> exists g e, VDI_3732_noise_ground_flare m = Ok g /\ VDI_3732_noise_elevated_flare m = Ok e /\
  VDI_3732_noise_ground_flare (10 * m) = Ok (g + 15) /\ VDI_3732_noise_elevated_flare (10 * m) = Ok (e + 17) /\ (1 / 360000000 <= m -> g <= e).
Proof.
  intros m Hm. unfold VDI_3732_noise_ground_flare, VDI_3732_noise_elevated_flare. assert (0 < m * 360) by lra. assert (0 < 10 * m * 360) by lra. rewrite !plog10_ok by lra. cbn [bind].
  replace (10 * m * 360) with (10 * (m * 360)) by ring. rewrite (log10_mult 10 (m * 360)) by lra. assert (log10 10 = 1) as -> by (unfold log10; field; apply Rgt_not_eq, ln10_pos).
  do 2 eexists. splits; [reflexivity|reflexivity|f_equal; ring|f_equal; ring|]. intros H1. pose proof (log10_le (1 / 1000000) (m * 360) ltac:(lra) ltac:(lra)) as L.
  assert (E : log10 (1 / 1000000) = - 6). { replace (1 / 1000000) with (/ 10 ^ 6) by (simpl; field). rewrite log10_inv by (simpl; lra). unfold log10. rewrite ln_pow by lra. simpl INR. field. apply Rgt_not_eq, ln10_pos. }
  rewrite E in L. lra.
Qed.

Print Assumptions C91_steam.
Print Assumptions C91_steam_superheat.
Print Assumptions C91_steam_too_hot.
Print Assumptions C91_Kv_10E.
Print Assumptions C91_Kv_7E.
Print Assumptions C91_Kv_unknown.
Print Assumptions C91_liquid.
Print Assumptions C91_liquid_Kw.
Print Assumptions C91_liquid_viscous.
Print Assumptions C91_liquid_default_refuted.
Print Assumptions C91_noise_graph.
Print Assumptions C91_noise_graph_low.
Print Assumptions C91_noise_scaling.
Print Assumptions C91_noise_30m.
Print Assumptions C91_noise_VDI.
