(** Control valve choke pressures, flow coefficient conversions, loss coefficient bases. *)
From Coq Require Import Reals Lra String List Bool.
From Verif Require Import Base Model_Real Proofs_Real Interval Model_Valve Properties_Core.
From Coquelicot Require Import Rcomplements.
Import ListNotations.
Open Scope R_scope.

(** ** Specification: the IEC 60534 choking limits. *)

(** Liquid: the pressure drop beyond which flow no longer increases. *)
Definition choking_dP_l (Psat Pc FL P1 : R) : R := FL ^ 2 * (P1 - (0.96 - 0.28 * sqrt (Psat / Pc)) * Psat).
(** Gas: the same as a fraction of the inlet pressure. *)
Definition choking_x_g (xT gamma : R) : R := gamma / 1.4 * xT.

(** ** C49 *)

Lemma FF_ok : forall Psat Pc, 0 < Pc -> 0 <= Psat ->
  FF_critical_pressure_ratio_l Psat Pc = Ok (0.96 - 0.28 * sqrt (Psat / Pc)).
Proof.
  intros. unfold FF_critical_pressure_ratio_l. rewrite pdiv_ok by lra. cbn [bind].
  rewrite psqrt_ok by (apply Rdiv_le_0_compat; lra). reflexivity.
Qed.

(** The critical pressure ratio factor of a subcritical liquid lies between 0.68 and 0.96. *)
Theorem C49_FF_range : forall Psat Pc, 0 <= Psat <= Pc -> 0 < Pc ->
  exists FF, FF_critical_pressure_ratio_l Psat Pc = Ok FF /\ 0.68 <= FF <= 0.96.
Proof.
  intros Psat Pc H H0. rewrite FF_ok by lra. eexists; split; [reflexivity|].
  assert (0 <= Psat / Pc <= 1).
  { split. apply Rdiv_le_0_compat; lra. apply (Rmult_le_reg_r Pc); [lra|]. unfold Rdiv. rewrite Rmult_assoc, Rinv_l by lra. lra. }
  pose proof (sqrt_pos (Psat / Pc)). pose proof (sqrt_le_1_alt _ _ (proj2 H1)) as H3. rewrite sqrt_1 in H3. lits. lra.
Qed.

(** The choke pressure computed from the inlet pressure is the boundary of choking: flow is choked exactly when
    the outlet pressure is at or below it. *)
Theorem C49_liquid_boundary : forall Psat Pc FL P1 P2, 0 < Pc -> 0 <= Psat -> FL <> 0 ->
  exists FF Pch b, FF_critical_pressure_ratio_l Psat Pc = Ok FF /\
    control_valve_choke_P_l Psat Pc FL (Some P1) None false = Ok Pch /\
    is_choked_turbulent_l (P1 - P2) P1 Psat FF (Some FL) None None = Ok b /\
    (b = true <-> P2 <= Pch) /\ P1 - Pch = choking_dP_l Psat Pc FL P1.
Proof.
  intros Psat Pc FL P1 P2 H H0 H1. rewrite FF_ok by lra.
  unfold control_valve_choke_P_l, is_choked_turbulent_l, choking_dP_l.
  rewrite pdiv_ok by lra. cbn [bind]. rewrite psqrt_ok by (apply Rdiv_le_0_compat; lra). cbn [bind].
  rewrite andb_false_r. rewrite (proj2 (Reqb_false _ _) H1).
  do 3 eexists. split; [reflexivity|]. split; [reflexivity|]. split; [reflexivity|]. split; [|ring].
  rewrite Rleb_true. split; intros; lra.
Qed.

(** With checking on, an inlet pressure at which no choking is possible is refused, and only such a one. *)
Theorem C49_liquid_refusal : forall Psat Pc FL P1, 0 < Pc -> 0 <= Psat -> FL <> 0 ->
  let Pmin := (0.96 - 0.28 * sqrt (Psat / Pc)) * Psat in
  (P1 < Pmin -> control_valve_choke_P_l Psat Pc FL (Some P1) None true = Err ValueError) /\
  (Pmin <= P1 -> exists P2, control_valve_choke_P_l Psat Pc FL (Some P1) None true = Ok P2 /\ P2 <= P1).
Proof.
  intros Psat Pc FL P1 H H0 H1 Pmin. unfold control_valve_choke_P_l.
  rewrite pdiv_ok by lra. cbn [bind]. rewrite psqrt_ok by (apply Rdiv_le_0_compat; lra). cbn [bind]. fold Pmin.
  set (FF := 0.96 - 0.28 * sqrt (Psat / Pc)) in *. rewrite andb_true_r.
  assert (0 < FL * FL) by nra.
  replace (FF * FL * FL * Psat - FL * FL * P1 + P1) with (P1 + FL * FL * (Pmin - P1)) by (unfold Pmin; ring).
  split; intros.
  - rewrite (proj2 (Rltb_true _ _)); [reflexivity|]. nra.
  - rewrite (proj2 (Rltb_false _ _)) by nra. eexists; split; [reflexivity|]. nra.
Qed.

(** Solving for the outlet pressure and then for the inlet pressure gives the inlet pressure back, with and
    without checking; and the other way round. *)
Theorem C49_liquid_inverse : forall Psat Pc FL P1 P2 chk, 0 < Pc -> 0 <= Psat -> 0 < FL < 1 ->
  (control_valve_choke_P_l Psat Pc FL (Some P1) None chk = Ok P2 <->
   control_valve_choke_P_l Psat Pc FL None (Some P2) chk = Ok P1).
Proof.
  intros Psat Pc FL P1 P2 chk H H0 H1. unfold control_valve_choke_P_l.
  rewrite pdiv_ok by lra. cbn [bind]. rewrite psqrt_ok by (apply Rdiv_le_0_compat; lra). cbn [bind].
  set (FF := 0.96 - 0.28 * sqrt (Psat / Pc)) in *. assert (FL * FL - 1 < 0) by nra. assert (FL * FL < 1) by nra.
  rewrite (pdiv_ok _ (FL * FL - 1)) by lra. cbn [bind].
  split; intros E.
  - destruct (Rltb P1 (FF * FL * FL * Psat - FL * FL * P1 + P1) && chk)%bool eqn:B; [discriminate|].
    assert (E' : P2 = FF * FL * FL * Psat - FL * FL * P1 + P1) by congruence.
    assert (EP : (FF * FL * FL * Psat - P2) / (FL * FL - 1) = P1) by (rewrite E'; field; lra).
    rewrite EP, E', B. reflexivity.
  - destruct (Rltb ((FF * FL * FL * Psat - P2) / (FL * FL - 1)) P2 && chk)%bool eqn:B; [discriminate|].
    assert (E' : P1 = (FF * FL * FL * Psat - P2) / (FL * FL - 1)) by congruence.
    assert (EP : FF * FL * FL * Psat - FL * FL * P1 + P1 = P2) by (rewrite E'; field; lra).
    rewrite EP. rewrite E', B. reflexivity.
Qed.

Theorem C49_gas_boundary : forall xT gamma P1 P2, 0 < P1 -> xT <> 0 ->
  exists Pch b, control_valve_choke_P_g xT gamma (Some P1) None = Ok Pch /\
    is_choked_turbulent_g ((P1 - P2) / P1) (gamma / 1.4) (Some xT) None = Ok b /\
    (b = true <-> P2 <= Pch) /\ Pch = P1 * (1 - choking_x_g xT gamma).
Proof.
  intros xT gamma P1 P2 H H0. unfold control_valve_choke_P_g, is_choked_turbulent_g, choking_x_g.
  rewrite (proj2 (Reqb_false _ _) H0). cbn [bind]. do 2 eexists. split; [reflexivity|]. split; [reflexivity|].
  split; [|lits; field].
  rewrite Rleb_true. lits. split; intros A.
  - apply (Rmult_le_compat_r P1) in A; [|lra]. replace ((P1 - P2) / P1 * P1) with (P1 - P2) in A by (field; lra). lra.
  - apply (Rmult_le_reg_r P1); [lra|]. replace ((P1 - P2) / P1 * P1) with (P1 - P2) by (field; lra). lra.
Qed.

Theorem C49_gas_inverse : forall xT gamma P1 P2, choking_x_g xT gamma <> 1 ->
  (control_valve_choke_P_g xT gamma (Some P1) None = Ok P2 <-> control_valve_choke_P_g xT gamma None (Some P2) = Ok P1).
Proof.
  intros xT gamma P1 P2 H. unfold control_valve_choke_P_g, choking_x_g in *.
  assert (5 * gamma * xT - 7 <> 0) by (intro A; apply H; lits; lra).
  rewrite (pdiv_ok _ (5 * gamma * xT - 7)) by assumption. cbn [bind]. split; intros E.
  - assert (E' : P2 = P1 * (- 5 * gamma * xT + 7) / 7) by congruence. rewrite E'. f_equal. field. assumption.
  - assert (E' : P1 = - 7 * P2 / (5 * gamma * xT - 7)) by congruence. rewrite E'. f_equal. field. assumption.
Qed.

(** Both or neither of the pressures is a ValueError (subcritical pressures for the liquid). *)
Theorem C49_arguments : forall Psat Pc FL xT gamma P1 P2 chk, 0 < Pc -> 0 <= Psat ->

  control_valve_choke_P_l Psat Pc FL (Some P1) (Some P2) chk = Err ValueError /\
  control_valve_choke_P_l Psat Pc FL None None chk = Err ValueError /\
  control_valve_choke_P_g xT gamma (Some P1) (Some P2) = Err ValueError /\
  control_valve_choke_P_g xT gamma None None = Err ValueError.
Proof.
  intros. unfold control_valve_choke_P_l. rewrite pdiv_ok by lra. cbn [bind].
  rewrite psqrt_ok by (apply Rdiv_le_0_compat; lra). repeat split; reflexivity.
Qed.

(** Choking is monotone: a larger pressure drop at the same inlet state never un-chokes the valve, and the
    combined factor with fittings acts as FL = FLP / FP. *)
Theorem C49_choked_monotone : forall dP dP' P1 Psat FF FL b, dP <= dP' ->
  is_choked_turbulent_l dP P1 Psat FF (Some FL) None None = Ok b -> b = true ->
  is_choked_turbulent_l dP' P1 Psat FF (Some FL) None None = Ok true.
Proof.
  intros dP dP' P1 Psat FF FL b H E Eb. subst b. unfold is_choked_turbulent_l in *. destruct (Reqb FL 0); [discriminate|].
  assert (E' : Rleb (FL * FL * (P1 - FF * Psat)) dP = true) by congruence. apply Rleb_true in E'.
  rewrite (proj2 (Rleb_true _ _)); [reflexivity|lra].
Qed.

Theorem C49_fittings_factor : forall dP P1 Psat FF FLP FP, FLP <> 0 -> FP <> 0 ->
  is_choked_turbulent_l dP P1 Psat FF None (Some FLP) (Some FP) = is_choked_turbulent_l dP P1 Psat FF (Some (FLP / FP)) None None.
Proof.
  intros. unfold is_choked_turbulent_l. rewrite (proj2 (Reqb_false FLP 0)), (proj2 (Reqb_false FP 0)) by assumption.
  rewrite (proj2 (Reqb_false (FLP / FP) 0)).
  - rewrite pdiv_ok by (apply Rmult_integral_contrapositive; tauto). cbn [bind]. do 2 f_equal. field. assumption.
  - intro A. apply (f_equal (fun z => z * FP)) in A. unfold Rdiv in A. rewrite Rmult_assoc, Rinv_l in A by assumption. lra.
Qed.

Example C49_ex : exists P2, control_valve_choke_P_g 1 1.3 (Some 100000) None = Ok P2 /\ 7142 < P2 < 7143.
Proof. eexists. split; [reflexivity|]. lits. lra. Qed.
Example C49_ex_l : exists P2, control_valve_choke_P_l 69682.89 22064000 0.6 (Some 680000) None true = Ok P2 /\ 458886 < P2 < 458888.
Proof.
  unfold control_valve_choke_P_l. rewrite pdiv_ok by lra. cbn [bind]. rewrite psqrt_ok by lra. cbn [bind].
  rewrite (proj2 (Rltb_false _ _)).
  - cbn [andb]. eexists. split; [reflexivity|]. split; itv 40%nat.
  - pose proof (sqrt_pos (69682.89 / 22064000)). lits. lra.
Qed.

(** ** C50 *)

Definition scale (s : string) : Prop := s = "Cv"%string \/ s = "Kv"%string \/ s = "Av"%string.
(** One unit of each scale in Kv units; Av is the area-based metric coefficient m2. *)
Definition in_Kv (s : string) : R :=
  if String.eqb s "Cv" then / 1.1560992283536566
  else if String.eqb s "Kv" then 1
  else / (1.1560992283536566 * (sqrt (999.10329075702327 / (8896443230521 / 1290320000)) * 0.003785411784 / 60)).

Lemma av_pos : 0 < sqrt (999.10329075702327 / (8896443230521 / 1290320000)) * 0.003785411784 / 60.
Proof. assert (0 < sqrt (999.10329075702327 / (8896443230521 / 1290320000))) by (apply sqrt_lt_R0; lits; lra). lits. lra. Qed.

(** Every conversion is multiplication by the ratio of the units. *)
Theorem C50_convert : forall x s t, scale s -> scale t ->
  convert_flow_coefficient x s t = Ok (x * (in_Kv s / in_Kv t)).
Proof.
  intros x s t Hs Ht. pose proof av_pos as A.
  assert (B : 0 <= 999.10329075702327 / (8896443230521 / 1290320000)) by (lits; lra).
  set (a := sqrt (999.10329075702327 / (8896443230521 / 1290320000)) * 0.003785411784 / 60) in *.
  unfold convert_flow_coefficient, Cv_to_Kv, Kv_to_Cv, in_Kv. fold a.
  assert (psqrt (999.10329075702327 / (8896443230521 / 1290320000)) = Ok (sqrt (999.10329075702327 / (8896443230521 / 1290320000)))) as Hq
    by (apply psqrt_ok; exact B).
  destruct Hs as [->|[->| ->]]; destruct Ht as [->|[->| ->]]; cbn [String.eqb Ascii.eqb Bool.eqb bind]; rewrite ?Hq; cbn [bind]; fold a;
    rewrite ?(pdiv_ok x a) by lra; cbn [bind]; f_equal; lits; field; lra.
Qed.

(** Hence conversions compose, invert, and are the identity from a scale to itself. *)
Theorem C50_groupoid : forall x s t u, scale s -> scale t -> scale u ->
  (y <- convert_flow_coefficient x s t ;; convert_flow_coefficient y t u) = convert_flow_coefficient x s u /\
  (y <- convert_flow_coefficient x s t ;; convert_flow_coefficient y t s) = Ok x /\
  convert_flow_coefficient x s s = Ok x.
Proof.
  intros x s t u Hs Ht Hu. rewrite !C50_convert by assumption. cbn [bind]. rewrite !C50_convert by assumption.
  assert (P : forall v, scale v -> in_Kv v <> 0).
  { intros v [->|[->| ->]]; unfold in_Kv; cbn; pose proof av_pos; apply Rgt_not_eq, Rlt_gt; try apply Rinv_0_lt_compat; try (lits; lra).
    all: apply Rmult_lt_0_compat; [lits; lra|assumption]. }
  pose proof (P s Hs). pose proof (P t Ht). pose proof (P u Hu). repeat split; f_equal; field; auto.
Qed.

(** A name that is not one of the three scales, at either end, raises NotImplementedError. *)
Theorem C50_unknown : forall x s t, ~ (scale s /\ scale t) -> convert_flow_coefficient x s t = Err NotImplementedError.
Proof.
  intros x s t H. unfold convert_flow_coefficient, Cv_to_Kv, Kv_to_Cv.
  assert (B : 0 <= 999.10329075702327 / (8896443230521 / 1290320000)) by (lits; lra).
  assert (psqrt (999.10329075702327 / (8896443230521 / 1290320000)) = Ok (sqrt (999.10329075702327 / (8896443230521 / 1290320000)))) as Hq
    by (apply psqrt_ok; exact B). pose proof av_pos as A.
  assert (S : forall v, scale v \/ ((v =? "Cv")%string = false /\ (v =? "Kv")%string = false /\ (v =? "Av")%string = false)).
  { intros v. unfold scale. destruct (String.eqb_spec v "Cv"); [tauto|]. destruct (String.eqb_spec v "Kv"); [tauto|].
    destruct (String.eqb_spec v "Av"); tauto. }
  destruct (S s) as [Hs|(a1 & a2 & a3)].
  - destruct (S t) as [Ht|(b1 & b2 & b3)]; [tauto|]. rewrite b1, b2, b3.
    destruct Hs as [->|[->| ->]]; cbn [String.eqb Ascii.eqb Bool.eqb bind]; try reflexivity. rewrite Hq. cbn [bind].
    rewrite pdiv_ok by lra. reflexivity.
  - rewrite a1, a2, a3. reflexivity.
Qed.

(** K, Kv and Cv of a valve in a line of diameter D: inverse pairs for every positive value. *)
Theorem C50_K_inverse : forall x D, 0 < x -> 0 < D ->
  (k <- Kv_to_K x D ;; K_to_Kv k D) = Ok x /\ (k <- K_to_Kv x D ;; Kv_to_K k D) = Ok x /\
  (k <- Cv_to_K x D ;; K_to_Cv k D) = Ok x /\ (k <- K_to_Cv x D ;; Cv_to_K k D) = Ok x /\
  (k <- Kv_to_Cv x ;; Cv_to_Kv k) = Ok x /\ (k <- Cv_to_Kv x ;; Kv_to_Cv k) = Ok x.
Proof.
  intros x D H H0.
  assert (Q : forall a b, 0 <= b -> a = b * b -> psqrt a = Ok b).
  { intros a b Hb ->. rewrite psqrt_ok by nra. f_equal. apply sqrt_square. assumption. }
  assert (0 < D * D) by nra. assert (0 < x * x) by nra.
  assert (0 < (D * D) * (D * D)) by nra.
  assert (S : 0 < 1600000000 / x) by (apply Rdiv_lt_0_compat; lra).
  pose proof (sqrt_lt_R0 _ S) as S1. pose proof (sqrt_sqrt _ (Rlt_le _ _ S)) as S2.
  unfold Kv_to_K, K_to_Kv, Cv_to_K, K_to_Cv, Kv_to_Cv, Cv_to_Kv. splits.
  - rewrite pdiv_ok by (apply Rgt_not_eq, pow_lt; lra). cbn [bind].
    rewrite pdiv_ok. 2:{ apply Rgt_not_eq. apply Rmult_lt_0_compat. apply Rmult_lt_0_compat; [lra|apply pow_lt; lra]. apply Rdiv_lt_0_compat; [lra|apply pow_lt; lra]. }
    cbn [bind]. rewrite (Q _ (x / (D * D))); [cbn [bind]; f_equal; field; lra|apply Rdiv_le_0_compat; lra|field; splits; lra].
  - rewrite pdiv_ok by lra. cbn [bind]. rewrite psqrt_ok by lra. cbn [bind].
    rewrite pdiv_ok by (apply Rgt_not_eq, pow_lt, Rmult_lt_0_compat; lra). cbn [bind]. f_equal.
    transitivity (1600000000 / (sqrt (1600000000 / x) * sqrt (1600000000 / x))).
    + field. splits; lra.
    + rewrite S2. field. lra.
  - set (k := 1.1560992283536566) in *. assert (0 < k) by (unfold k; lits; lra). clearbody k.
    assert (0 < x * (1 / k)) by (apply Rmult_lt_0_compat; [lra|apply Rdiv_lt_0_compat; lra]).
    rewrite pdiv_ok by nra. cbn [bind]. rewrite pdiv_ok.
    2:{ apply Rgt_not_eq, Rdiv_lt_0_compat; nra. }
    cbn [bind]. rewrite (Q _ (x / k / (D * D))); [cbn [bind]; f_equal; field; lra| |field; splits; lra].
    apply Rdiv_le_0_compat; [apply Rlt_le, Rdiv_lt_0_compat; lra|lra].
  - set (k := 1.1560992283536566) in *. assert (0 < k) by (unfold k; lits; lra). clearbody k.
    rewrite pdiv_ok by lra. cbn [bind]. rewrite psqrt_ok by lra. cbn [bind].
    assert (0 < k * D * D * sqrt (1600000000 / x) * (1 / k)).
    { apply Rmult_lt_0_compat; [|apply Rdiv_lt_0_compat; lra]. apply Rmult_lt_0_compat; [|lra]. apply Rmult_lt_0_compat; nra. }
    rewrite pdiv_ok by nra. f_equal.
    transitivity (1600000000 / (sqrt (1600000000 / x) * sqrt (1600000000 / x))).
    + field. splits; lra.
    + rewrite S2. field. lra.
  - cbn [bind]. f_equal. lits. field.
  - cbn [bind]. f_equal. lits. field.
Qed.

(** The Cv functions are the Kv functions behind the Kv/Cv conversion. *)
Theorem C50_Cv_via_Kv : forall x D, 0 < x -> 0 < D ->
  Cv_to_K x D = (k <- Cv_to_Kv x ;; Kv_to_K k D) /\ K_to_Cv x D = (k <- K_to_Kv x D ;; Kv_to_Cv k).
Proof.
  intros x D H H0. unfold Kv_to_K, K_to_Kv, Cv_to_K, K_to_Cv, Kv_to_Cv, Cv_to_Kv. cbn [bind]. split.
  - set (k := 1.1560992283536566) in *. assert (0 < k) by (unfold k; lits; lra). clearbody k.
    assert (0 < x * (1 / k)) by (apply Rmult_lt_0_compat; [lra|apply Rdiv_lt_0_compat; lra]).
    assert (0 < x / k) by (apply Rdiv_lt_0_compat; lra).
    rewrite pdiv_ok by nra. rewrite pdiv_ok by (apply Rgt_not_eq, pow_lt; lra). cbn [bind]. f_equal. field. lra.
  - assert (S : 0 < 1600000000 / x) by (apply Rdiv_lt_0_compat; lra).
    rewrite pdiv_ok by lra. cbn [bind]. rewrite psqrt_ok by lra. cbn [bind]. f_equal. ring.
Qed.

(** A larger flow coefficient means a smaller loss coefficient. *)
Theorem C50_Kv_K_decreasing : forall Kv Kv' D, 0 < Kv < Kv' -> 0 < D ->
  exists K K', Kv_to_K Kv D = Ok K /\ Kv_to_K Kv' D = Ok K' /\ K' < K.
Proof.
  intros Kv Kv' D H H0. unfold Kv_to_K. rewrite !pdiv_ok by (apply Rgt_not_eq, pow_lt; lra). cbn [bind].
  do 2 eexists; splits; try reflexivity. apply Rmult_lt_compat_l; [apply Rmult_lt_0_compat; [lra|apply pow_lt; lra]|].
  unfold Rdiv. rewrite !Rmult_1_l. apply Rinv_lt_contravar; [apply Rmult_lt_0_compat; apply pow_lt; lra|]. simpl. nra.
Qed.

Example C50_ex : convert_flow_coefficient 10 "Kv" "Kv" = Ok 10 /\ convert_flow_coefficient 10 "Kv" "kv" = Err NotImplementedError.
Proof.
  split. apply (proj2 (proj2 (C50_groupoid 10 "Kv" "Kv" "Kv" (or_intror (or_introl eq_refl)) (or_intror (or_introl eq_refl)) (or_intror (or_introl eq_refl))))).
  apply C50_unknown. intros [_ [A|[A|A]]]; discriminate A.
Qed.

(** ** C51 *)

(** A loss coefficient stands for a pressure drop K rho V^2 / 2 with V = Q / area: changing the diameter basis
    keeps that pressure drop for every flow. *)
Definition fitting_dP (K rho Q D : R) : R := K * rho * (Q / (PI / 4 * D ^ 2)) ^ 2 / 2.

Theorem C51_same_pressure_drop : forall K1 D1 D2, 0 < D1 -> 0 < D2 ->
  exists K2, change_K_basis K1 D1 D2 = Ok K2 /\ forall rho Q, fitting_dP K2 rho Q D2 = fitting_dP K1 rho Q D1.
Proof.
  intros K1 D1 D2 H H0. unfold change_K_basis. rewrite pdiv_ok by lra. cbn [bind]. eexists; split; [reflexivity|].
  intros. unfold fitting_dP. pose proof PI_RGT_0. field. splits; lra.
Qed.

Theorem C51_groupoid : forall K D1 D2 D3, D1 <> 0 -> D2 <> 0 ->
  (k <- change_K_basis K D1 D2 ;; change_K_basis k D2 D3) = change_K_basis K D1 D3 /\
  (k <- change_K_basis K D1 D2 ;; change_K_basis k D2 D1) = Ok K /\
  change_K_basis K D1 D1 = Ok K.
Proof.
  intros. unfold change_K_basis. rewrite !(pdiv_ok _ D1) by assumption. cbn [bind].
  rewrite !(pdiv_ok _ D2) by assumption. cbn [bind]. repeat split; f_equal; field; auto.
Qed.

Theorem C51_zero_diameter : forall K D2, change_K_basis K 0 D2 = Err ZeroDivisionError.
Proof. intros. unfold change_K_basis. rewrite pdiv_0. reflexivity. Qed.

Example C51_ex : exists k, change_K_basis 32.68875692997804 0.01 0.02 = Ok k /\ 523.02 < k < 523.03.
Proof. unfold change_K_basis. rewrite pdiv_ok by lra. cbn [bind]. eexists; split; [reflexivity|]. lits. lra. Qed.

Print Assumptions C49_FF_range.
Print Assumptions C49_liquid_boundary.
Print Assumptions C49_liquid_refusal.
Print Assumptions C49_liquid_inverse.
Print Assumptions C49_gas_boundary.
Print Assumptions C49_gas_inverse.
Print Assumptions C49_arguments.
Print Assumptions C49_choked_monotone.
Print Assumptions C49_fittings_factor.
Print Assumptions C50_convert.
Print Assumptions C50_groupoid.
Print Assumptions C50_unknown.
Print Assumptions C50_K_inverse.
Print Assumptions C50_Cv_via_Kv.
Print Assumptions C50_Kv_K_decreasing.
Print Assumptions C51_same_pressure_drop.
Print Assumptions C51_groupoid.
Print Assumptions C51_zero_diameter.
