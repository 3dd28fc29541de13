(** Final theorems: isothermal gas flow (C47). *)
From Coq Require Import Reals Lra Lia QArith Qreals List String Bool.
From Coquelicot Require Import Rcomplements.
From Verif Require Import Base Model_Real Proofs_Real Proofs_Ln Model_Isothermal Proofs_Isothermal.
Import ListNotations.
Open Scope R_scope.

(** a function with the assumed property of the lower Lambert branch exists *)
Theorem C47_lambert_exists : exists W1, lambert_lower W1.
Proof.
  assert (S : forall x, { w | - exp (-1) <= x < 0 -> w <= -1 /\ w * exp w = x }).
  { intros x. destruct (Rlt_dec x 0) as [H|H]; [|exists 0; lra]. destruct (Rle_dec (- exp (-1)) x) as [H1|H1]; [|exists 0; lra].
    set (t := 2 / (- x) + 1). assert (T : 1 < t). { unfold t. assert (0 < 2 / (- x)) by (apply Rdiv_lt_0_compat; lra). lra. }
    assert (CC : continuity (fun w => x - w * exp w)).
    { apply continuity_minus. apply continuity_const. intros ? ?; auto. apply continuity_mult. apply derivable_continuous, derivable_id. apply derivable_continuous, derivable_exp. }
    destruct (IVT_cor (fun w => x - w * exp w) (- t) (-1) CC ltac:(lra)) as [z [Z1 Z2]].
    - (* x + t e^-t <= 0, x + e^-1 >= 0 *)
      assert (A : t * exp (- t) <= - x).
      { rewrite exp_Ropp. pose proof (exp_pos t). assert (E2 : (t / 2) * (t / 2) <= exp t).
        { replace (exp t) with (exp (t / 2) * exp (t / 2)) by (rewrite <- exp_plus; f_equal; field). pose proof (exp_ineq1_le (t / 2)). apply Rmult_le_compat; lra. }
        assert (E3 : t * t * t / 6 <= exp t \/ True) by auto. clear E3.
        (* exp t >= 1 + t + t^2/2 *)
        assert (E4 : t * t / 2 <= exp t).
        { pose proof (exp_ineq1_le (t / 2)) as E. assert (HH : (1 + t / 2) * (1 + t / 2) <= exp (t / 2) * exp (t / 2)) by (apply Rmult_le_compat; lra).
          replace (exp (t / 2) * exp (t / 2)) with (exp t) in HH by (rewrite <- exp_plus; f_equal; field).
          pose proof (exp_ineq1_le (t / 3)) as F. assert (G : (1 + t / 3) * (1 + t / 3) * (1 + t / 3) <= exp (t / 3) * exp (t / 3) * exp (t / 3)).
          { apply Rmult_le_compat; try lra. nra. apply Rmult_le_compat; lra. }
          replace (exp (t / 3) * exp (t / 3) * exp (t / 3)) with (exp t) in G by (rewrite <- !exp_plus; f_equal; field). nra. }
        apply Rmult_le_reg_r with (exp t); auto. rewrite Rmult_assoc, Rinv_l, Rmult_1_r by lra.
        assert (X2 : 2 <= - x * t). { unfold t. replace (- x * (2 / - x + 1)) with (2 + - x) by (field; lra). lra. }
        nra. }
      assert (B : 0 <= x - -1 * exp (-1)) by lra. assert (D : x - - t * exp (- t) <= 0) by lra. nra.
    - exists z. intros _. split; lra. }
  exists (fun x => proj1_sig (S x)). intros x Hx. exact (proj2_sig (S x) Hx).
Qed.

Lemma okinj {A} (a b : A) : Ok a = Ok b -> a = b. Proof. congruence. Qed.

Section C47.
Context (W1 : R -> R) (HW : lambert_lower W1).

(** the two critical pressures are inverse to each other, and the outlet one is below the inlet one *)
Theorem C47_critical_inverse : forall P fd D L, 0 < P -> 0 < fd -> 0 < L -> 0 < D ->
  exists Pc Pu, P_isothermal_critical_flow W1 P fd D L = Ok Pc /\ P_upstream_isothermal_critical_flow W1 P fd D L = Ok Pu /\
  0 < Pc < P /\ P < Pu /\ P_upstream_isothermal_critical_flow W1 Pc fd D L = Ok P /\ P_isothermal_critical_flow W1 Pu fd D L = Ok P.
Proof.
  intros P fd D L HP Hf HL HD. destruct (u_crit W1 HW fd L D Hf HL HD) as [U1 _]. set (u := - W1 (- exp (- 1 - fd * L / D))) in *.
  assert (S : 1 < sqrt u) by (rewrite <- sqrt_1; apply sqrt_lt_1; lra).
  do 2 eexists. rewrite (Pcf_ok W1 HW), (Pup_ok W1 HW) by auto. fold u. splits; try reflexivity.
  - posr.
  - apply Rmult_lt_reg_r with (sqrt u); [lra|]. rewrite Rmult_assoc, Rinv_l; nra.
  - nra.
  - rewrite (Pup_ok W1 HW) by auto. fold u. f_equal. field. lra.
  - rewrite (Pcf_ok W1 HW) by auto. fold u. f_equal. field. lra.
Qed.

(** the mass flow request: refused outside [Pc, P1], and strictly decreasing in P2 on that interval, down to 0 *)
Theorem C47_mass_flow : forall rho fd P1 L D, 0 < rho -> 0 < fd -> 0 < P1 -> 0 < L -> 0 < D ->
  exists Pc mmax, P_isothermal_critical_flow W1 P1 fd D L = Ok Pc /\ 0 < mmax /\
  isothermal_m W1 rho fd P1 Pc L D = Ok mmax /\ isothermal_m W1 rho fd P1 P1 L D = Ok 0 /\
  (forall P2, P2 < Pc \/ P1 < P2 -> isothermal_m W1 rho fd P1 P2 L D = Err ValueError) /\
  (forall P2, Pc <= P2 <= P1 -> exists m, isothermal_m W1 rho fd P1 P2 L D = Ok m /\ 0 <= m <= mmax) /\
  (forall P2 P2' m m', Pc <= P2 -> P2 < P2' -> P2' <= P1 ->
     isothermal_m W1 rho fd P1 P2 L D = Ok m -> isothermal_m W1 rho fd P1 P2' L D = Ok m' -> m' < m).
Proof.
  intros rho fd P1 L D Hr Hf HP HL HD. destruct (u_crit W1 HW fd L D Hf HL HD) as [U1 U2].
  set (u := - W1 (- exp (- 1 - fd * L / D))) in *. set (Cc := fd * L / D) in *. set (B := (PI / 4 * D ^ 2) ^ 2 * rho).
  assert (HB : 0 < B) by (apply B_pos; auto). assert (S : 1 < sqrt u) by (rewrite <- sqrt_1; apply sqrt_lt_1; lra).
  assert (PC : P1 * / sqrt u < P1). { apply Rmult_lt_reg_r with (sqrt u); [lra|]. rewrite Rmult_assoc, Rinv_l; nra. }
  exists (P1 * / sqrt u), (sqrt (B * P1 * hfun Cc ((P1 * / sqrt u / P1) ^ 2))).
  assert (HC : 0 < Cc) by (apply Cc_pos; auto).
  assert (EU : (P1 * / sqrt u / P1) ^ 2 = / u). { replace (P1 * / sqrt u / P1) with (/ sqrt u) by (field; splits; lra). rewrite pow_inv, pow2_sqrt by lra. reflexivity. }
  assert (DEC : forall P2 P2', P1 * / sqrt u <= P2 -> P2 < P2' -> P2' <= P1 -> sqrt (B * P1 * hfun Cc ((P2' / P1) ^ 2)) < sqrt (B * P1 * hfun Cc ((P2 / P1) ^ 2))).
  { intros P2 P2' A1 A2 A3. destruct (ratio_bounds W1 HW fd L D Hf HL HD P1 P2) as [[R1 R2] R3]; auto; try (fold Cc; fold u; lra).
    destruct (ratio_bounds W1 HW fd L D Hf HL HD P1 P2') as [[R4 R5] R6]; auto; try (fold Cc; fold u; lra). fold Cc in R1, R4. fold u in R1, R4.
    assert (U0 : 0 < / u) by (apply Rinv_0_lt_compat; lra).
    assert (LT : (P2 / P1) ^ 2 < (P2' / P1) ^ 2). { assert (P2 / P1 < P2' / P1) by (apply div_lt_r; auto). assert (0 < P2 / P1) by posr. cbn [pow]. rewrite !Rmult_1_r. apply Rmult_gt_0_lt_compat; lra. }
    apply sqrt_lt_1.
    - apply Rmult_le_pos; [posr|]. unfold Cc. apply h_nonneg; auto. lra.
    - apply Rmult_le_pos; [posr|]. unfold Cc. apply h_nonneg; auto. lra.
    - apply Rmult_lt_compat_l; [posr|]. apply (h_decr W1 HW fd L D Hf HL HD); auto. }
  assert (OKm : forall P2, P1 * / sqrt u <= P2 <= P1 -> isothermal_m W1 rho fd P1 P2 L D = Ok (sqrt (B * P1 * hfun Cc ((P2 / P1) ^ 2)))).
  { intros P2 H. apply (isothermal_m_ok W1 HW fd L D Hf HL HD rho Hr P1 P2 HP H). }
  splits.
  - apply (Pcf_ok W1 HW); auto.
  - rewrite EU. unfold Cc, u. rewrite h_crit by auto. fold Cc. fold u. posr.
  - apply OKm. lra.
  - rewrite OKm by lra. f_equal. replace (P1 / P1) with 1 by (field; lra). unfold hfun. replace (1 - 1 ^ 2) with 0 by ring. unfold Rdiv. rewrite Rmult_0_l, Rmult_0_r. apply sqrt_0.
  - intros P2 H. unfold isothermal_m. rewrite (Pcf_ok W1 HW) by auto. fold Cc. fold u. cbn [bind].
    destruct (Rltb P2 (P1 * / sqrt u)) eqn:E1; auto. apply Rltb_false in E1. destruct H as [H|H]; [lra|]. rewrite (proj2 (Rltb_true P1 P2)) by auto. reflexivity.
  - intros P2 H. eexists; split; [apply OKm; auto|]. split; [apply sqrt_pos|].
    destruct (Rle_lt_or_eq_dec _ _ (proj1 H)) as [N|N]; [left; apply DEC; lra|rewrite <- N; lra].
  - intros P2 P2' m m' A1 A2 A3 E1 E2. rewrite OKm in E1 by lra. rewrite OKm in E2 by lra. apply okinj in E1. apply okinj in E2. subst m m'. apply DEC; auto.
Qed.

(** the length request inverts the mass flow request *)
Theorem C47_length : forall rho fd P1 P2 L D m, 0 < rho -> 0 < fd -> 0 < P1 -> 0 < L -> 0 < D -> P2 < P1 ->
  isothermal_m W1 rho fd P1 P2 L D = Ok m -> isothermal_L rho fd P1 P2 D m = Ok L.
Proof.
  intros rho fd P1 P2 L D m Hr Hf HP HL HD H12 E. destruct (u_crit W1 HW fd L D Hf HL HD) as [U1 U2].
  set (u := - W1 (- exp (- 1 - fd * L / D))) in *. assert (S : 1 < sqrt u) by (rewrite <- sqrt_1; apply sqrt_lt_1; lra).
  assert (R : P1 * / sqrt u <= P2 <= P1).
  { unfold isothermal_m in E. rewrite (Pcf_ok W1 HW) in E by auto. fold u in E. cbn [bind] in E. destruct (Rltb P2 (P1 * / sqrt u)) eqn:E1; [discriminate|]. apply Rltb_false in E1. lra. }
  destruct (ratio_bounds W1 HW fd L D Hf HL HD P1 P2 HP R) as [[R1 R2] R3].
  rewrite (isothermal_m_ok W1 HW fd L D Hf HL HD rho Hr P1 P2 HP R) in E. apply okinj in E.
  set (B := (PI / 4 * D ^ 2) ^ 2 * rho) in *. assert (HB : 0 < B) by (apply B_pos; auto).
  assert (HC : 0 < fd * L / D) by posr. set (l := ln (P1 / P2)).
  assert (Hl : 0 < l). { unfold l. rewrite <- ln_1. apply ln_increasing; [lra|]. apply Rmult_lt_reg_r with P2; auto. replace (P1 / P2 * P2) with P1 by (field; lra). lra. }
  assert (Y : (P2 / P1) ^ 2 < 1). { assert (0 < P2 / P1) by posr. assert (P2 / P1 < 1). { apply Rmult_lt_reg_r with P1; auto. replace (P2 / P1 * P1) with P2 by (field; lra). lra. } cbn [pow]; rewrite Rmult_1_r. nra. }
  assert (M2 : m * m = B * P1 * (1 - (P2 / P1) ^ 2) / (fd * L / D + 2 * l)).
  { rewrite <- E. rewrite sqrt_sqrt. unfold hfun. rewrite sq_ratio by auto. fold l. assert (0 < l * D) by posr. assert (0 < fd * L) by posr. field. splits; lra.
    apply Rmult_le_pos; [posr|]. apply h_nonneg; auto. split; [apply pow_lt; posr|lra]. }
  assert (MP : 0 < m * m). { rewrite M2. assert (0 < 1 - (P2 / P1) ^ 2) by lra. posr. }
  unfold isothermal_L. rewrite pdiv_ok by lra. cbn [bind]. rewrite plog_ok by posr. cbn [bind]. fold l.
  replace (16 * P1 * fd * m * m) with (16 * P1 * fd * (m * m)) by ring. rewrite pdiv_ok by posr. f_equal.
  replace (32 * P1 * m * m * l) with (32 * P1 * (m * m) * l) by ring.
  assert (K : PI * PI * D ^ 4 * rho * (P1 * P1 - P2 * P2) = 16 * P1 * (m * m) * (fd * L / D + 2 * l)). { rewrite M2. unfold B. assert (0 < l * D) by posr. assert (0 < fd * L) by posr. field. splits; lra. }
  rewrite K. assert (m <> 0) by (intros ->; lra). field. splits; lra.
Qed.

(** assumed of the root finders: a returned point is a root, and the bracketing one needs a sign change *)
Definition exact_root (secant : (R -> result R) -> R -> result R) : Prop := forall f x0 x, secant f x0 = Ok x -> f x = Ok 0.
Definition bracketing (brenth : (R -> result R) -> R -> R -> result R) : Prop := forall f a b x, brenth f a b = Ok x ->
  f x = Ok 0 /\ exists fa fb, f a = Ok fa /\ f b = Ok fb /\ fa * fb <= 0.

(** the outlet pressure request: answered by the closed form, in [Pc, P1), whenever the flow is at most the choked one;
    the answer carries the requested flow; more than the choked flow is a ValueError *)
Theorem C47_outlet_pressure : forall brenth rho fd P1 L D m, bracketing brenth -> 0 < rho -> 0 < fd -> 0 < P1 -> 0 < L -> 0 < D -> 0 < m ->
  exists Pc mmax, P_isothermal_critical_flow W1 P1 fd D L = Ok Pc /\ isothermal_m W1 rho fd P1 Pc L D = Ok mmax /\
  (m <= mmax -> exists P2, isothermal_P2 W1 brenth rho fd P1 L D m = Ok P2 /\ Pc <= P2 < P1 /\ isothermal_m W1 rho fd P1 P2 L D = Ok m) /\
  (mmax < m -> isothermal_P2 W1 brenth rho fd P1 L D m = Err ValueError).
Proof.
  intros brenth rho fd P1 L D m HBr Hr Hf HP HL HD Hm. destruct (u_crit W1 HW fd L D Hf HL HD) as [U1 U2].
  set (Cc := fd * L / D) in *. set (u := - W1 (- exp (- 1 - Cc))) in *. set (B := (PI / 4 * D ^ 2) ^ 2 * rho).
  assert (HB : 0 < B) by (apply B_pos; auto). assert (S : 1 < sqrt u) by (rewrite <- sqrt_1; apply sqrt_lt_1; lra).
  assert (HC : 0 < Cc) by (apply Cc_pos; auto).
  assert (EPc : P_isothermal_critical_flow W1 P1 fd D L = Ok (P1 * / sqrt u)) by (apply (Pcf_ok W1 HW); auto).
  assert (PC : P1 * / sqrt u < P1). { apply Rmult_lt_reg_r with (sqrt u); [lra|]. rewrite Rmult_assoc, Rinv_l; nra. }
  assert (EU : (P1 * / sqrt u / P1) ^ 2 = / u). { replace (P1 * / sqrt u / P1) with (/ sqrt u) by (field; splits; lra). rewrite pow_inv, pow2_sqrt by lra. reflexivity. }
  assert (OKm : forall P2, P1 * / sqrt u <= P2 <= P1 -> isothermal_m W1 rho fd P1 P2 L D = Ok (sqrt (B * P1 * hfun Cc ((P2 / P1) ^ 2)))).
  { intros P2 H. apply (isothermal_m_ok W1 HW fd L D Hf HL HD rho Hr P1 P2 HP H). }
  assert (EMx : isothermal_m W1 rho fd P1 (P1 * / sqrt u) L D = Ok (sqrt (B * P1 * / u))).
  { rewrite OKm by lra. rewrite EU. unfold Cc, u. rewrite h_crit by auto. reflexivity. }
  exists (P1 * / sqrt u), (sqrt (B * P1 * / u)). splits; auto.
  - intros Hmax. set (a := B * P1 / (m * m)). assert (Hm2 : 0 < m * m) by nra.
    assert (Ha : u <= a).
    { assert (m * m <= B * P1 * / u). { rewrite <- (sqrt_sqrt (B * P1 * / u)) by (posr; lra). assert (0 < B * P1 * / u) by posr. apply Rmult_le_compat; lra. }
      unfold a. apply Rmult_le_reg_r with (m * m); auto. replace (B * P1 / (m * m) * (m * m)) with (B * P1) by (field; lra).
      apply Rmult_le_compat_l with (r := u) in H; [|lra]. replace (u * (B * P1 * / u)) with (B * P1) in H by (field; lra). lra. }
    set (x := - a * exp (Cc - a)).
    assert (EC : exp Cc = exp (u - 1) / u). { rewrite <- U2. unfold Rminus at 1. rewrite exp_plus, exp_Ropp, exp_ln by lra. reflexivity. }
    assert (EX : x = - (a / u) * exp (u - 1 - a)).
    { unfold x. unfold Rminus at 1. rewrite exp_plus, EC. unfold Rminus at 2. rewrite exp_plus. field. lra. }
    assert (HX : - exp (-1) <= x < 0).
    { split; [|unfold x; pose proof (exp_pos (Cc - a)); nra]. rewrite EX.
      (* (a/u) e^{-a/u} ... a/u <= exp(a/u - 1), and u - 1 - a + a/u - 1 <= -1 *)
      pose proof (exp_ineq1_le (a / u - 1)) as E1. assert (0 < a / u) by posr.
      assert (E2 : a / u * exp (u - 1 - a) <= exp (-1)).
      { apply Rle_trans with (exp (a / u - 1) * exp (u - 1 - a)). apply Rmult_le_compat_r; [left; apply exp_pos|lra].
        rewrite <- exp_plus. assert (Q : a / u - 1 + (u - 1 - a) <= -1).
        { assert (a / u = a * / u) by reflexivity. assert (IU : 0 < / u) by (apply Rinv_0_lt_compat; lra). assert (u * / u = 1) by (apply Rinv_r; lra). assert (/ u < 1) by nra.
          assert ((a - u) * (1 - / u) >= 0) by (apply Rle_ge, Rmult_le_pos; lra). nra. }
        destruct Q as [Q|Q]; [left; apply exp_increasing; auto|rewrite Q; lra]. }
      lra. }
    destruct (HW x HX) as [V1 V2]. set (w := W1 x) in *.
    assert (W2 : - a < w).
    { apply wexp_lt_inv; [lra|auto|]. rewrite V2. unfold x. assert (exp (- a) < exp (Cc - a)) by (apply exp_increasing; lra). nra. }
    assert (W3 : w <= - (a / u)).
    { assert (A1 : 1 <= a / u). { apply Rmult_le_reg_r with u; [lra|]. replace (a / u * u) with a by (field; lra). lra. }
      apply wexp_le_inv; auto; [lra|]. rewrite V2, EX. assert (Q : u - 1 - a <= - (a / u)).
      { assert (a / u = a * / u) by reflexivity. assert (IU : 0 < / u) by (apply Rinv_0_lt_compat; lra). assert (u * / u = 1) by (apply Rinv_r; lra). assert (/ u < 1) by nra.
        assert ((a - u) * (1 - / u) >= 0) by (apply Rle_ge, Rmult_le_pos; lra). nra. }
      assert (exp (u - 1 - a) <= exp (- (a / u))). { destruct Q as [Q|Q]; [left; apply exp_increasing; auto|rewrite Q; lra]. }
      nra. }
    (* y = -w/a *)
    set (y := - w / a). assert (A0 : 0 < a) by lra.
    assert (Hy : / u <= y < 1).
    { unfold y. split; apply Rmult_le_reg_r with a || apply Rmult_lt_reg_r with a; auto.
      - replace (- w / a * a) with (- w) by (field; lra). replace (/ u * a) with (a / u) by (field; lra). lra.
      - replace (- w / a * a) with (- w) by (field; lra). lra. }
    assert (U0 : 0 < / u) by (apply Rinv_0_lt_compat; lra).
    assert (LY : ln y = Cc - w - a).
    { unfold y. rewrite ln_quot by lra. assert (K : - w * exp w = a * exp (Cc - a)) by (unfold x in V2; lra). apply (f_equal ln) in K.
      rewrite !ln_mult, !ln_exp in K by (try apply exp_pos; lra). lra. }
    assert (EP : P1 / exp ((- Cc + w + a) / 2) = P1 * sqrt y).
    { unfold Rdiv at 1. f_equal. rewrite <- exp_Ropp. rewrite <- (exp_ln (sqrt y)) by (apply sqrt_lt_R0; lra). f_equal. rewrite ln_root by lra. rewrite LY. field. }
    assert (SY : / sqrt u <= sqrt y < 1).
    { rewrite <- sqrt_inv. split; [apply sqrt_le_1; lra|]. rewrite <- sqrt_1. apply sqrt_lt_1; lra. }
    assert (RP : P1 * / sqrt u <= P1 * sqrt y < P1) by (split; [apply Rmult_le_compat_l; lra|nra]).
    exists (P1 * sqrt y). splits; auto; try lra.
    + unfold isothermal_P2. rewrite EPc. cbn [bind]. rewrite EMx. cbn [bind]. rewrite (proj2 (Rleb_true m _)) by auto. cbn [negb].
      rewrite pdiv_ok by lra. cbn [bind]. fold Cc. cbv zeta. fold B. assert (M2 : m ^ 2 = m * m) by ring. rewrite M2.
      rewrite !pdiv_ok by lra. cbn [bind].
      replace (- B / (m * m) * P1 * exp (- (- Cc * (m * m) + B * P1) / (m * m))) with x.
      2: { unfold x. replace (- (- Cc * (m * m) + B * P1) / (m * m)) with (Cc - a) by (unfold a; field; lra). unfold a. field. lra. }
      fold w. rewrite pdiv_ok by lra. cbn [bind]. rewrite pdiv_ok by (apply Rgt_not_eq, exp_pos). cbn [bind].
      replace ((- Cc * (m * m) + w * (m * m) + B * P1) / (m * m)) with (- Cc + w + a) by (unfold a; field; lra).
      rewrite EP. rewrite (proj2 (Rltb_true (P1 * sqrt y) P1)) by lra. reflexivity.
    + rewrite OKm by lra. f_equal. replace (P1 * sqrt y / P1) with (sqrt y) by (field; lra). rewrite pow2_sqrt by lra.
      assert (EH : hfun Cc y = / a).
      { unfold hfun. rewrite LY. replace (Cc - (Cc - w - a)) with (a - - w) by ring. replace (- w) with (y * a) by (unfold y; field; lra). field. split; lra || nra. }
      rewrite EH. replace (B * P1 * / a) with (m * m). apply sqrt_square; lra. unfold a. field. splits; try lra.
  - intros Hmax. unfold isothermal_P2. rewrite EPc. cbn [bind]. rewrite EMx. cbn [bind]. rewrite (proj2 (Rleb_false m _)) by auto. cbn [negb].
    match goal with |- context [brenth ?f ?a ?b] => destruct (brenth f a b) as [z|e] eqn:EB end; [|reflexivity]. exfalso.
    destruct (HBr _ _ _ _ EB) as [_ (fa & fb & F1 & F2 & F3)]. cbv beta in F1, F2. rewrite EMx in F1. rewrite OKm in F2 by lra. cbn [bind] in F1, F2.
    apply okinj in F1. apply okinj in F2.
    replace (P1 / P1) with 1 in F2 by (field; lra). unfold hfun in F2. replace (1 - 1 ^ 2) with 0 in F2 by ring. unfold Rdiv in F2. rewrite Rmult_0_l, Rmult_0_r, sqrt_0 in F2. nra.
Qed.

(** conversely, an outlet pressure is recovered from its mass flow *)
Theorem C47_outlet_pressure_back : forall brenth rho fd P1 P2 L D m, bracketing brenth -> 0 < rho -> 0 < fd -> 0 < P1 -> 0 < L -> 0 < D -> P2 < P1 ->
  isothermal_m W1 rho fd P1 P2 L D = Ok m -> isothermal_P2 W1 brenth rho fd P1 L D m = Ok P2.
Proof.
  intros brenth rho fd P1 P2 L D m HBr Hr Hf HP HL HD H12 E.
  destruct (C47_mass_flow rho fd P1 L D Hr Hf HP HL HD) as (Pc & mm & A1 & A2 & A3 & A4 & A5 & A6 & A7).
  assert (R : Pc <= P2) by (apply Rnot_lt_le; intros N; rewrite A5 in E by auto; discriminate).
  destruct (A6 P2 ltac:(lra)) as (m' & E' & M). assert (m' = m) by congruence. subst m'.
  assert (Hm : 0 < m) by (apply (A7 P2 P1 m 0); auto; lra).
  destruct (C47_outlet_pressure brenth rho fd P1 L D m HBr Hr Hf HP HL HD Hm) as (Pc' & mm' & B1 & B2 & B3 & _).
  assert (Pc' = Pc) by congruence. subst Pc'. assert (mm' = mm) by congruence. subst mm'.
  destruct (B3 ltac:(lra)) as (Q & Q1 & Q2 & Q3). rewrite Q1. f_equal.
  destruct (Rtotal_order Q P2) as [LT|[LT|LT]]; auto; exfalso.
  - pose proof (A7 Q P2 m m ltac:(lra) LT ltac:(lra) Q3 E). lra.
  - pose proof (A7 P2 Q m m ltac:(lra) LT ltac:(lra) E Q3). lra.
Qed.

(** whichever quantity is solved for, the returned value carries the requested mass flow *)
Theorem C47_inlet_pressure_sound : forall secant brenth rho fd P1 P2 L D m, exact_root secant -> bracketing brenth ->
  0 < rho -> 0 < fd -> 0 < P2 -> 0 < L -> 0 < D -> 0 < m ->
  isothermal_P1 W1 secant brenth rho fd P2 L D m = Ok P1 -> isothermal_m W1 rho fd P1 P2 L D = Ok m.
Proof.
  intros secant brenth rho fd P1 P2 L D m HS HBr Hr Hf HP2 HL HD Hm E. unfold isothermal_P1 in E. rewrite (Pup_ok W1 HW) in E by auto. cbn [bind] in E.
  match type of E with context [secant ?f ?x] => destruct (secant f x) as [z|e] eqn:ES end.
  - cbn [bind] in E. destruct (Rleb P2 z) eqn:EL; cbn [negb] in E.
    + injection E as ->. apply HS in ES. apply Rleb_true in EL.
      destruct (isothermal_P2 W1 brenth rho fd P1 L D m) as [t|] eqn:ET; [|discriminate]. cbn [bind] in ES. apply okinj in ES.
      assert (t = P2). { destruct (Req_dec (P2 - t) 0) as [N|N]; [lra|]. apply Rabs_pos_lt in N. lra. } subst t.
      destruct (C47_outlet_pressure brenth rho fd P1 L D m HBr Hr Hf ltac:(lra) HL HD Hm) as (Pc & mm & _ & _ & B3 & B4).
      destruct (Rle_dec m mm) as [M|M]; [|rewrite B4 in ET by lra; discriminate]. destruct (B3 M) as (Q & Q1 & _ & Q3). congruence.
    + match type of E with context [brenth ?f ?a ?b] => destruct (brenth f a b) as [z'|e] eqn:EB end.
      * injection E as ->. destruct (HBr _ _ _ _ EB) as [F0 _]. cbv beta in F0. destruct (isothermal_m W1 rho fd P1 P2 L D) as [t|]; [|discriminate]. cbn [bind] in F0. apply okinj in F0. f_equal. lra.
      * exfalso. destruct (isothermal_m W1 rho fd _ P2 L D) in E; discriminate.
  - cbn [bind] in E. match type of E with context [brenth ?f ?a ?b] => destruct (brenth f a b) as [z'|e'] eqn:EB end.
    + injection E as ->. destruct (HBr _ _ _ _ EB) as [F0 _]. cbv beta in F0. destruct (isothermal_m W1 rho fd P1 P2 L D) as [t|]; [|discriminate]. cbn [bind] in F0. apply okinj in F0. f_equal. lra.
    + exfalso. destruct (isothermal_m W1 rho fd _ P2 L D) in E; discriminate.
Qed.
Theorem C47_diameter_sound : forall secant rho fd P1 P2 L D m, exact_root secant ->
  isothermal_D W1 secant rho fd P1 P2 L m = Ok D -> isothermal_m W1 rho fd P1 P2 L D = Ok m.
Proof.
  intros secant rho fd P1 P2 L D m HS E. apply HS in E. destruct (isothermal_m W1 rho fd P1 P2 L D) as [t|]; [|discriminate]. cbn [bind] in E. apply okinj in E. f_equal. lra.
Qed.
End C47.
Theorem C47_arguments : forall W1 secant brenth rho fd P1 P2 L D m,
  List.length (filter (fun o : option R => match o with None => true | _ => false end) [P1; P2; L; D; m]) <> 1%nat ->
  isothermal_gas W1 secant brenth rho fd P1 P2 L D m = Err ValueError.
Proof. intros W1 secant brenth rho fd [P1|] [P2|] [L|] [D|] [m|] H; try reflexivity; cbn in H; contradiction. Qed.
(** a choked and an unchoked request for one pipe *)
Example C47_ex : exists W1, lambert_lower W1 /\ exists Pc, P_isothermal_critical_flow W1 1000000 0.00185 0.5 1000 = Ok Pc /\ 0 < Pc < 1000000 /\
  isothermal_m W1 11.3 0.00185 1000000 (Pc / 2) 1000 0.5 = Err ValueError /\
  exists m, isothermal_m W1 11.3 0.00185 1000000 ((Pc + 1000000) / 2) 1000 0.5 = Ok m /\ isothermal_L 11.3 0.00185 1000000 ((Pc + 1000000) / 2) 0.5 m = Ok 1000.
Proof.
  destruct C47_lambert_exists as [W1 HW]. exists W1. split; auto.
  destruct (C47_mass_flow W1 HW 11.3 0.00185 1000000 1000 0.5) as (Pc & mm & A1 & A2 & A3 & A4 & A5 & A6 & A7); try (lits; lra).
  destruct (C47_critical_inverse W1 HW 1000000 0.00185 0.5 1000) as (Pc' & Pu & B1 & _ & B3 & _); try (lits; lra). assert (Pc' = Pc) by congruence. subst Pc'.
  exists Pc. splits; auto; try lra. apply A5; lra. destruct (A6 ((Pc + 1000000) / 2) ltac:(lra)) as (m & E & _). exists m. split; auto.
  eapply C47_length; eauto; lits; lra.
Qed.

Print Assumptions C47_lambert_exists.
Print Assumptions C47_critical_inverse.
Print Assumptions C47_mass_flow.
Print Assumptions C47_length.
Print Assumptions C47_outlet_pressure.
Print Assumptions C47_outlet_pressure_back.
Print Assumptions C47_inlet_pressure_sound.
Print Assumptions C47_diameter_sound.
Print Assumptions C47_arguments.
