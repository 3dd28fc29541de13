(** Monotonicity of the explicit correlations in the Reynolds number and the roughness. *)
From Coq Require Import Reals Lra Lia QArith Qreals List String.
From Coquelicot Require Import Coquelicot.
From Verif Require Import Base Model_Real Interval Proofs_Real Model_Friction Proofs_Friction.
Open Scope R_scope.

(** lower Reynolds number or rougher wall, at least one strictly *)
Definition worse (Re1 eD1 Re2 eD2 : R) : Prop :=
  2040 <= Re2 <= Re1 /\ 0 <= eD1 <= eD2 /\ eD2 <= 0.05 /\ (Re2 < Re1 \/ eD1 < eD2).
Definition strictly_increases (corr : R -> R -> result R) : Prop :=
  forall Re1 eD1 Re2 eD2, worse Re1 eD1 Re2 eD2 ->
  exists f1 f2, corr Re1 eD1 = Ok f1 /\ corr Re2 eD2 = Ok f2 /\ f1 < f2.

Lemma sq_lt c t1 t2 : 0 < c -> 0 < t2 < t1 -> c / (t1 * t1) < c / (t2 * t2).
Proof. intros Hc H. apply div_lt_l; auto; nra. Qed.
Lemma worse_over c Re1 eD1 Re2 eD2 : worse Re1 eD1 Re2 eD2 -> 0 < c ->
  0 < c / Re1 <= c / Re2 /\ c / Re2 <= c / 2040 /\ (Re2 < Re1 -> c / Re1 < c / Re2).
Proof.
  intros [H1 [H2 [H3 _]]] Hc. splits.
  - posr.
  - apply div_le_l; lra.
  - apply div_le_l; lra.
  - intros. apply div_lt_l; lra.
Qed.
(** the argument of the logarithm: increasing part in Re^-1 plus increasing part in eD *)
Lemma log_arg a1 b1 a2 b2 : 0 < a1 <= a2 -> 0 <= b1 <= b2 -> (a1 < a2 \/ b1 < b2) -> a2 + b2 < 1 ->
  log10 (a1 + b1) < log10 (a2 + b2) < 0.
Proof. intros. split; [apply log10_lt; lra|apply log10_neg; lra]. Qed.
Lemma mul_c eD1 eD2 c : 0 < c -> 0 <= eD1 <= eD2 -> eD2 <= 0.05 -> 0 <= eD1 * (1 / c) <= eD2 * (1 / c) /\ eD2 * (1 / c) <= 0.05 / c /\ (eD1 < eD2 -> eD1 * (1 / c) < eD2 * (1 / c)).
Proof.
  intros. assert (0 < 1 / c) by posr. splits; nra.
Qed.

Lemma Moody_mono : strictly_increases Moody.
Proof.
  intros Re1 eD1 Re2 eD2 H. destruct (worse_over 1000000 _ _ _ _ H ltac:(lra)) as [A [B C]]. destruct H as [H1 [H2 [H3 H4]]].
  unfold Moody. rewrite !pdiv_ok by lra. cbn [bind pcbrt]. unfold pcbrt. cbn [bind]. eexists; eexists. splits; [reflexivity|reflexivity|].
  assert (L : cbrt (20000 * eD1 + 1000000 / Re1) < cbrt (20000 * eD2 + 1000000 / Re2)).
  { unfold cbrt. rewrite !(proj2 (Rltb_true 0 _)) by lra. apply Rpower_lt_l; [lra| |lra].
    destruct H4 as [K|K]; [specialize (C K)|]; lra. }
  lits; lra.
Qed.
Lemma Alshul_mono : strictly_increases Alshul_1952.
Proof.
  intros Re1 eD1 Re2 eD2 H. destruct (worse_over 68 _ _ _ _ H ltac:(lra)) as [A [B C]]. destruct H as [H1 [H2 [H3 H4]]].
  unfold Alshul_1952. rewrite !pdiv_ok by lra. cbn [bind]. rewrite !psqrt_ok by lra. cbn [bind]. rewrite !psqrt_ok by apply sqrt_pos. cbn [bind].
  eexists; eexists. splits; [reflexivity|reflexivity|].
  assert (L : 68 / Re1 + eD1 < 68 / Re2 + eD2) by (destruct H4 as [K|K]; [specialize (C K)|]; lra).
  assert (sqrt (sqrt (68 / Re1 + eD1)) < sqrt (sqrt (68 / Re2 + eD2))) by (apply sqrt_lt_1_alt; split; [apply sqrt_pos|apply sqrt_lt_1_alt; lra]).
  lits; lra.
Qed.
Lemma pow_over c a Re1 eD1 Re2 eD2 : worse Re1 eD1 Re2 eD2 -> 0 < c -> 0 < a ->
  0 < Rpower (c / Re1) a <= Rpower (c / Re2) a /\ Rpower (c / Re2) a <= Rpower (c / 2040) a /\ (Re2 < Re1 -> Rpower (c / Re1) a < Rpower (c / Re2) a).
Proof.
  intros H Hc Ha. destruct (worse_over c _ _ _ _ H Hc) as [A [B C]]. splits.
  - apply exp_pos.
  - apply Rpower_le_l; lra.
  - apply Rpower_le_l; lra.
  - intros K. apply Rpower_lt_l; auto; lra.
Qed.
Lemma Churchill_1973_mono : strictly_increases Churchill_1973.
Proof.
  intros Re1 eD1 Re2 eD2 H. destruct (pow_over 7 0.9 _ _ _ _ H ltac:(lra) ltac:(lits; lra)) as [A [B C]].
  destruct (worse_over 7 _ _ _ _ H ltac:(lra)) as [A' _]. destruct H as [H1 [H2 [H3 H4]]].
  destruct (mul_c eD1 eD2 3.7 ltac:(lits; lra) H2 H3) as [M1 [M2 M3]].
  assert (B2 : Rpower (7 / 2040) 0.9 < 0.1) by itv 0%nat.
  destruct (log_arg (Rpower (7 / Re1) 0.9) (eD1 * (1 / 3.7)) (Rpower (7 / Re2) 0.9) (eD2 * (1 / 3.7))) as [L1 L2]; auto; try tauto.
  { lits; lra. }
  unfold Churchill_1973. rewrite !pdiv_ok by lra. cbn [bind]. rewrite !ppow_ok by lra. cbn [bind].
  rewrite !(Rplus_comm (_ * (1 / 3.7))). rewrite !plog10_ok by lra. cbn [bind]; cbv zeta.
  rewrite !pdiv_ok by nra. eexists; eexists. splits; [reflexivity|reflexivity|]. apply sq_lt; lra.
Qed.
Lemma Eck_mono : strictly_increases Eck_1973.
Proof.
  intros Re1 eD1 Re2 eD2 H. destruct (worse_over 15 _ _ _ _ H ltac:(lra)) as [A [B C]]. destruct H as [H1 [H2 [H3 H4]]].
  destruct (mul_c eD1 eD2 3.715 ltac:(lits; lra) H2 H3) as [M1 [M2 M3]].
  destruct (log_arg (15 / Re1) (eD1 * (1 / 3.715)) (15 / Re2) (eD2 * (1 / 3.715))) as [L1 L2]; auto; try tauto.
  { lits; lra. }
  unfold Eck_1973. rewrite !pdiv_ok by lra. cbn [bind].
  rewrite !(Rplus_comm (_ * (1 / 3.715))). rewrite !plog10_ok by lra. cbn [bind]; cbv zeta.
  rewrite !pdiv_ok by nra. eexists; eexists. splits; [reflexivity|reflexivity|]. apply sq_lt; lra.
Qed.
Lemma Jain_mono : strictly_increases Jain_1976.
Proof.
  intros Re1 eD1 Re2 eD2 H. destruct (pow_over 29.843 0.9 _ _ _ _ H ltac:(lits; lra) ltac:(lits; lra)) as [A [B C]].
  destruct (worse_over 29.843 _ _ _ _ H ltac:(lits; lra)) as [A' _]. destruct H as [H1 [H2 [H3 H4]]].
  assert (B2 : Rpower (29.843 / 2040) 0.9 < 0.1) by itv 0%nat.
  destruct (log_arg (Rpower (29.843 / Re1) 0.9) eD1 (Rpower (29.843 / Re2) 0.9) eD2) as [L1 L2]; auto; try tauto.
  { lits; lra. }
  unfold Jain_1976. rewrite !pdiv_ok by lra. cbn [bind]. rewrite !ppow_ok by lra. cbn [bind].
  rewrite !(Rplus_comm _ (Rpower _ _)). rewrite !plog10_ok by lra. cbn [bind]; cbv zeta.
  rewrite !pdiv_ok by (apply Rgt_not_eq, Rmult_lt_0_compat; lits; lra). eexists; eexists. splits; [reflexivity|reflexivity|]. apply sq_lt; lits; lra.
Qed.
Lemma Swamee_mono : strictly_increases Swamee_Jain_1976.
Proof.
  intros Re1 eD1 Re2 eD2 H. destruct (pow_over 6.97 0.9 _ _ _ _ H ltac:(lits; lra) ltac:(lits; lra)) as [A [B C]].
  destruct (worse_over 6.97 _ _ _ _ H ltac:(lits; lra)) as [A' _]. destruct H as [H1 [H2 [H3 H4]]].
  destruct (mul_c eD1 eD2 3.7 ltac:(lits; lra) H2 H3) as [M1 [M2 M3]].
  assert (B2 : Rpower (6.97 / 2040) 0.9 < 0.1) by itv 0%nat.
  destruct (log_arg (Rpower (6.97 / Re1) 0.9) (eD1 * (1 / 3.7)) (Rpower (6.97 / Re2) 0.9) (eD2 * (1 / 3.7))) as [L1 L2]; auto; try tauto.
  { lits; lra. }
  unfold Swamee_Jain_1976. rewrite !pdiv_ok by lra. cbn [bind]. rewrite !ppow_ok by lra. cbn [bind].
  rewrite !plog10_ok by lra. cbn [bind]; cbv zeta.
  rewrite !pdiv_ok by nra. eexists; eexists. splits; [reflexivity|reflexivity|]. apply sq_lt; lra.
Qed.
Lemma Haaland_mono : strictly_increases Haaland.
Proof.
  intros Re1 eD1 Re2 eD2 H. destruct (worse_over 6.9 _ _ _ _ H ltac:(lits; lra)) as [A [B C]]. destruct H as [H1 [H2 [H3 H4]]].
  destruct (mul_c eD1 eD2 3.7 ltac:(lits; lra) H2 H3) as [M1 [M2 M3]].
  assert (P : pw (eD2 * (1 / 3.7)) 1.11 <= 0.5).
  { eapply Rle_trans. apply (pw_le _ 0.05); [lra|lits; lra|lits; lra].
    unfold pw. rewrite (proj2 (Rltb_true _ _)) by (lits; lra). left. itv 0%nat. }
  pose proof (pw_nonneg (eD1 * (1 / 3.7)) 1.11) as P1.
  pose proof (pw_le (eD1 * (1 / 3.7)) (eD2 * (1 / 3.7)) 1.11 ltac:(lra) ltac:(lra) ltac:(lits; lra)) as P2.
  destruct (log_arg (6.9 / Re1) (pw (eD1 * (1 / 3.7)) 1.11) (6.9 / Re2) (pw (eD2 * (1 / 3.7)) 1.11)) as [L1 L2]; auto.
  { destruct H4 as [K|K]; [left; auto|right]. apply pw_lt; [lra|apply M3; auto|lits; lra]. }
  { lits; lra. }
  unfold Haaland. rewrite !pdiv_ok by lra. cbn [bind]. rewrite !ppow_pw by (lits; lra). cbn [bind].
  rewrite !plog10_ok by lra. cbn [bind]; cbv zeta.
  rewrite !pdiv_ok by (apply Rgt_not_eq; unfold Rgt; lits; nra). eexists; eexists. splits; [reflexivity|reflexivity|]. apply sq_lt; lits; lra.
Qed.
Lemma Round_mono : strictly_increases Round_1980.
Proof.
  intros Re1 eD1 Re2 eD2 H. destruct (worse_over 6.5 _ _ _ _ H ltac:(lits; lra)) as [A [B C]]. destruct H as [H1 [H2 [H3 H4]]].
  assert (V : forall Re eD, 0 < Re -> 0 <= eD -> 0.135 * Re * eD + 6.5 <> 0 /\ Re / (0.135 * Re * eD + 6.5) = / (0.135 * eD + 6.5 / Re)).
  { intros Re eD Hr He. assert (0 <= 0.135 * Re * eD) by posr. split; [lits; lra|]. field. split; [lra|]. lits; nra. }
  destruct (V Re1 eD1 ltac:(lra) ltac:(lra)) as [V1 V2]. destruct (V Re2 eD2 ltac:(lra) ltac:(lra)) as [V3 V4].
  destruct (log_arg (6.5 / Re1) (0.135 * eD1) (6.5 / Re2) (0.135 * eD2)) as [L1 L2]; auto; try (lits; lra).
  assert (Q1 : 0 < 0.135 * eD1 + 6.5 / Re1) by (lits; lra). assert (Q2 : 0 < 0.135 * eD2 + 6.5 / Re2) by (lits; lra).
  unfold Round_1980. rewrite !pdiv_ok by auto. cbn [bind]. rewrite V2, V4.
  rewrite !plog10_ok by (apply Rinv_0_lt_compat; auto). cbn [bind]; cbv zeta. rewrite !log10_inv by auto.
  rewrite (Rplus_comm _ (6.5 / Re1)), (Rplus_comm _ (6.5 / Re2)).
  rewrite !pdiv_ok by (apply Rgt_not_eq; unfold Rgt; lits; nra). eexists; eexists. splits; [reflexivity|reflexivity|].
  replace (-3.6 * - log10 (6.5 / Re1 + 0.135 * eD1) * (-3.6 * - log10 (6.5 / Re1 + 0.135 * eD1))) with ((-3.6 * log10 (6.5 / Re1 + 0.135 * eD1)) * (-3.6 * log10 (6.5 / Re1 + 0.135 * eD1))) by ring.
  replace (-3.6 * - log10 (6.5 / Re2 + 0.135 * eD2) * (-3.6 * - log10 (6.5 / Re2 + 0.135 * eD2))) with ((-3.6 * log10 (6.5 / Re2 + 0.135 * eD2)) * (-3.6 * log10 (6.5 / Re2 + 0.135 * eD2))) by ring.
  apply sq_lt; lits; lra.
Qed.
