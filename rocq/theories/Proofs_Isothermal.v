(** Isothermal pipe flow: the critical ratio, and the mass flow as a function of the pressure ratio. *)
From Coq Require Import Reals Lra Lia.
From Coquelicot Require Import Rcomplements.
From Verif Require Import Base Model_Real Proofs_Real Proofs_Ln Model_Isothermal.
Open Scope R_scope.

(** the lower real branch of the Lambert function *)
Definition lambert_lower (W1 : R -> R) : Prop := forall x, - exp (-1) <= x < 0 -> W1 x <= -1 /\ W1 x * exp (W1 x) = x.

Lemma wexp_decr a b : a < b -> b <= -1 -> b * exp b < a * exp a.
Proof.
  intros H Hb. replace (exp b) with (exp a * exp (b - a)) by (rewrite <- exp_plus; f_equal; ring).
  pose proof (exp_ineq1 (b - a) ltac:(lra)). pose proof (exp_pos a). set (e := exp (b - a)) in *. set (x := exp a) in *.
  assert (b * e < a) by nra. nra.
Qed.
Lemma wexp_lt_inv a b : a <= -1 -> b <= -1 -> b * exp b < a * exp a -> a < b.
Proof.
  intros Ha Hb H. destruct (Rtotal_order a b) as [L|[L|L]]; auto. subst; lra. pose proof (wexp_decr b a L Ha). lra.
Qed.
Lemma wexp_le_inv a b : a <= -1 -> b <= -1 -> b * exp b <= a * exp a -> a <= b.
Proof. intros Ha Hb H. apply Rnot_lt_le. intros L. pose proof (wexp_decr b a L Ha). lra. Qed.

(** the critical ratio: the square of inlet over outlet pressure at choking *)
Definition crit (Cc u : R) : Prop := 1 < u /\ u - 1 - ln u = Cc.
Lemma crit_of W1 Cc : lambert_lower W1 -> 0 < Cc -> crit Cc (- W1 (- exp (- 1 - Cc))).
Proof.
  intros HW HC. set (x := - exp (- 1 - Cc)).
  assert (X : - exp (-1) <= x < 0).
  { unfold x. pose proof (exp_pos (- 1 - Cc)). assert (exp (- 1 - Cc) < exp (-1)) by (apply exp_increasing; lra). lra. }
  destruct (HW x X) as [H1 H2]. set (w := W1 x) in *.
  assert (E : ln (- w) + w = - 1 - Cc).
  { assert (K : - w * exp w = exp (- 1 - Cc)) by (unfold x in H2; lra).
    apply (f_equal ln) in K. rewrite ln_mult, !ln_exp in K by (try apply exp_pos; lra). lra. }
  split; [|lra]. destruct H1 as [H1|H1]; [lra|]. exfalso. rewrite H1 in E. replace (- -1) with 1 in E by ring. rewrite ln_1 in E. lra.
Qed.
Lemma crit_unique Cc u v : crit Cc u -> crit Cc v -> u = v.
Proof.
  assert (M : forall a b, 1 < a -> a < b -> a - 1 - ln a < b - 1 - ln b).
  { intros a b Ha Hab. assert (P : 0 < b / a) by posr. assert (ln (b / a) < b / a - 1).
    { assert (N : ln (b / a) <> 0). { rewrite ln_quot by lra. pose proof (ln_increasing a b ltac:(lra) Hab). lra. }
      pose proof (exp_ineq1 _ N) as E. rewrite exp_ln in E by auto. lra. }
    rewrite ln_quot in H by lra. assert (b / a - 1 < b - a). { apply Rmult_lt_reg_r with a; [lra|]. replace ((b / a - 1) * a) with (b - a) by (field; lra). nra. } lra. }
  intros [H1 E1] [H2 E2]. destruct (Rtotal_order u v) as [L|[L|L]]; auto; [pose proof (M u v H1 L)|pose proof (M v u H2 L)]; lra.
Qed.

Section Fix.
Context (W1 : R -> R) (HW : lambert_lower W1) (fd L D : R) (Hf : 0 < fd) (HL : 0 < L) (HD : 0 < D).
Let Cc := fd * L / D.
Let u := - W1 (- exp (- 1 - Cc)).
Lemma Cc_pos : 0 < Cc. Proof. unfold Cc. posr. Qed.
Lemma u_crit : crit Cc u. Proof. apply crit_of; auto. apply Cc_pos. Qed.
Lemma Pcf_ok P : P_isothermal_critical_flow W1 P fd D L = Ok (P * / sqrt u).
Proof.
  destruct u_crit as [U1 U2]. unfold P_isothermal_critical_flow. rewrite pdiv_ok by lra. cbn [bind]. cbv zeta. rewrite pdiv_ok by lra. cbn [bind].
  replace ((- D - L * fd) / D) with (- 1 - Cc) by (unfold Cc; field; lra). replace (W1 (- exp (- 1 - Cc))) with (- u) by (unfold u; ring).
  f_equal. f_equal. assert (E : (D * (- u + 1) + L * fd) / (2 * D) = - (/ 2 * ln u)).
  { replace ((D * (- u + 1) + L * fd) / (2 * D)) with ((1 - u + Cc) / 2) by (unfold Cc; field; lra). rewrite <- U2. field. }
  rewrite E, exp_Ropp. f_equal. rewrite <- ln_root by lra. apply exp_ln. apply sqrt_lt_R0; lra.
Qed.
Lemma Pup_ok P : P_upstream_isothermal_critical_flow W1 P fd D L = Ok (P * sqrt u).
Proof.
  destruct u_crit as [U1 U2]. unfold P_upstream_isothermal_critical_flow. rewrite pdiv_ok by lra. cbn [bind]. cbv zeta. rewrite pdiv_ok by lra. cbn [bind].
  replace (- (fd * L + D) / D) with (- 1 - Cc) by (unfold Cc; field; lra). replace (W1 (- exp (- 1 - Cc))) with (- u) by (unfold u; ring).
  f_equal. rewrite Rmult_comm. f_equal. assert (E : - 0.5 * (D * - u + fd * L + D) / D = / 2 * ln u).
  { replace (- 0.5 * (D * - u + fd * L + D) / D) with (- (1 - u + Cc) / 2) by (unfold Cc; lits; field; lra). rewrite <- U2. field. }
  rewrite E. rewrite <- ln_root by lra. apply exp_ln. apply sqrt_lt_R0; lra.
Qed.

(** the squared mass flow is [B P1 h(y)], y the squared pressure ratio *)
Definition hfun (c y : R) : R := (1 - y) / (c - ln y).
Lemma ln_le0 y : 0 < y <= 1 -> ln y <= 0.
Proof. intros H. rewrite <- ln_1. apply Interval.ln_le_compat; lra. Qed.
Lemma h_decr y z : / u <= y -> y < z -> z <= 1 -> hfun Cc z < hfun Cc y.
Proof.
  intros Hy Hyz Hz. destruct u_crit as [U1 U2]. pose proof Cc_pos. assert (U0 : 0 < / u) by (apply Rinv_0_lt_compat; lra).
  assert (Y0 : 0 < y) by lra. assert (Z0 : 0 < z) by lra.
  pose proof (ln_le0 y ltac:(lra)). pose proof (ln_le0 z ltac:(lra)). unfold hfun.
  assert (LL : ln z - ln y < (z - y) / y).
  { rewrite <- ln_quot by auto. assert (P : 0 < z / y) by posr. replace ((z - y) / y) with (z / y - 1) by (field; lra).
    assert (N : ln (z / y) <> 0). { rewrite ln_quot by lra. pose proof (ln_increasing y z ltac:(lra) Hyz). lra. }
    pose proof (exp_ineq1 _ N) as E. rewrite exp_ln in E by auto. lra. }
  assert (KZ : (1 - z) / y <= Cc - ln z).
  { apply Rle_trans with ((1 - z) * u).
    - unfold Rdiv. apply Rmult_le_compat_l; [lra|]. rewrite <- (Rinv_inv u). apply Rinv_le_contravar; auto.
    - rewrite <- U2. assert (P : 0 < u * z) by (apply Rmult_lt_0_compat; lra). pose proof (exp_ineq1_le (ln (u * z))) as E. rewrite exp_ln in E by auto.
      rewrite ln_mult in E by lra. lra. }
  assert (K : (1 - z) * (Cc - ln y) < (1 - y) * (Cc - ln z)).
  { assert ((1 - z) * (ln z - ln y) <= (1 - z) * ((z - y) / y)) by (apply Rmult_le_compat_l; lra).
    assert ((1 - z) * ((z - y) / y) <= (z - y) * (Cc - ln z)). { replace ((1 - z) * ((z - y) / y)) with ((z - y) * ((1 - z) / y)) by (field; lra). apply Rmult_le_compat_l; lra. }
    destruct (Rle_lt_or_eq_dec z 1 Hz) as [Z1|Z1].
    - assert ((1 - z) * (ln z - ln y) < (1 - z) * ((z - y) / y)) by (apply Rmult_lt_compat_l; lra). nra.
    - subst z. rewrite ln_1 in *. nra. }
  apply Rmult_lt_reg_r with ((Cc - ln y) * (Cc - ln z)); [apply Rmult_lt_0_compat; lra|].
  replace ((1 - z) / (Cc - ln z) * ((Cc - ln y) * (Cc - ln z))) with ((1 - z) * (Cc - ln y)) by (field; lra).
  replace ((1 - y) / (Cc - ln y) * ((Cc - ln y) * (Cc - ln z))) with ((1 - y) * (Cc - ln z)) by (field; lra). auto.
Qed.
Lemma h_crit : hfun Cc (/ u) = / u.
Proof. destruct u_crit as [U1 U2]. unfold hfun. rewrite ln_Rinv by lra. rewrite <- U2. field. splits; lra. Qed.
Lemma h_nonneg y : 0 < y <= 1 -> 0 <= hfun Cc y.
Proof. intros H. pose proof (ln_le0 y H). pose proof Cc_pos. unfold hfun. apply Rdiv_le_0_compat; lra. Qed.

Context (rho : R) (Hr : 0 < rho).
Let B := (PI / 4 * D ^ 2) ^ 2 * rho.
Lemma B_pos : 0 < B. Proof. unfold B. posr. Qed.
Lemma sq_ratio P1 P2 : 0 < P1 -> 0 < P2 -> ln ((P2 / P1) ^ 2) = - (2 * ln (P1 / P2)).
Proof. intros. lnpush. cbn [INR]. ring. Qed.
Lemma isothermal_m_ok P1 P2 : 0 < P1 -> P1 * / sqrt u <= P2 <= P1 ->
  isothermal_m W1 rho fd P1 P2 L D = Ok (sqrt (B * P1 * hfun Cc ((P2 / P1) ^ 2))).
Proof.
  intros HP [H1 H2]. destruct u_crit as [U1 U2]. assert (S : 0 < sqrt u) by (apply sqrt_lt_R0; lra).
  assert (P0 : 0 < P2) by (eapply Rlt_le_trans; [|exact H1]; posr).
  unfold isothermal_m. rewrite Pcf_ok. cbn [bind].
  rewrite (proj2 (Rltb_false P2 (P1 * / sqrt u))) by lra. rewrite (proj2 (Rltb_false P1 P2)) by lra.
  rewrite !pdiv_ok by lra. cbn [bind]. fold Cc. rewrite plog_ok by posr. cbn [bind].
  assert (LN : 0 <= ln (P1 / P2)). { rewrite <- ln_1. apply Interval.ln_le_compat; [lra|]. apply Rmult_le_reg_r with P2; auto. replace (P1 / P2 * P2) with P1 by (field; lra). lra. }
  pose proof Cc_pos. assert (N : 0 < Cc + 2 * ln (P1 / P2)) by lra.
  rewrite pdiv_ok by posr. cbn [bind].
  assert (EQ : 0.0625 * PI * PI * D ^ 4 * rho / (P1 * (Cc + 2 * ln (P1 / P2))) * (P1 * P1 - P2 * P2) = B * P1 * hfun Cc ((P2 / P1) ^ 2)).
  { unfold hfun. rewrite sq_ratio by auto. unfold B. lits. field. splits; lra. }
  rewrite EQ. apply psqrt_ok. apply Rmult_le_pos; [left; pose proof B_pos; posr|]. apply h_nonneg. split; [posr|].
  assert (0 < P2 / P1) by posr. assert (P2 / P1 <= 1). { apply Rmult_le_reg_r with P1; auto. replace (P2 / P1 * P1) with P2 by (field; lra). lra. } cbn [pow]. rewrite Rmult_1_r. nra.
Qed.
Lemma ratio_bounds P1 P2 : 0 < P1 -> P1 * / sqrt u <= P2 <= P1 -> / u <= (P2 / P1) ^ 2 <= 1 /\ 0 < P2.
Proof.
  intros HP [H1 H2]. destruct u_crit as [U1 U2]. assert (S : 0 < sqrt u) by (apply sqrt_lt_R0; lra). assert (0 < / sqrt u) by (apply Rinv_0_lt_compat; auto).
  assert (A1 : / sqrt u <= P2 / P1). { apply Rmult_le_reg_r with P1; auto. replace (P2 / P1 * P1) with P2 by (field; lra). lra. }
  assert (A2 : P2 / P1 <= 1). { apply Rmult_le_reg_r with P1; auto. replace (P2 / P1 * P1) with P2 by (field; lra). lra. }
  assert (E : / u = / sqrt u * / sqrt u). { rewrite <- Rinv_mult. rewrite sqrt_sqrt; lra. }
  splits; [|cbn [pow]; rewrite Rmult_1_r; nra|]. rewrite E. cbn [pow]. rewrite Rmult_1_r. apply Rmult_le_compat; lra. nra.
Qed.
End Fix.
