(** The friction correlations return a positive number on the physical domain. *)
From Coq Require Import Reals Lra Lia QArith Qreals List String.
From Coquelicot Require Import Coquelicot.
From Verif Require Import Base Model_Real Interval Proofs_Real Model_Friction.
Open Scope R_scope.


Lemma Re_pos Re (HRe : 2040 <= Re) : 0 < Re. Proof. lra. Qed.
Lemma over_Re Re (HRe : 2040 <= Re) c : 0 < c -> 0 < c / Re <= c / 2040.
Proof. intros. split; [apply Rdiv_lt_0_compat; lra|]. apply div_le_l; lra. Qed.
Lemma eD_c eD (He : 0 <= eD <= 0.05) c : 0 < c -> 0 <= eD * (1 / c) <= 0.05 / c.
Proof.
  intros. assert (0 < / c) by (apply Rinv_0_lt_compat; auto). unfold Rdiv. rewrite Rmult_1_l.
  split; [apply Rmult_le_pos; lra|]. apply Rmult_le_compat_r; lra.
Qed.

Lemma Moody_pos Re eD (HRe : 2040 <= Re) (He : 0 <= eD <= 0.05) : gives_pos (Moody Re eD).
Proof.
  unfold Moody. mrun. apply gives_ok.
  assert (0 < cbrt (20000 * eD + 1000000 / Re)).
  { unfold cbrt. pose proof (over_Re Re HRe 1000000 ltac:(lra)). assert (0 <= 20000 * eD) by lra.
    rewrite (proj2 (Rltb_true _ _)) by lra. apply exp_pos. }
  lits; lra.
Qed.
Lemma Alshul_pos Re eD (HRe : 2040 <= Re) (He : 0 <= eD <= 0.05) : gives_pos (Alshul_1952 Re eD).
Proof. pose proof (over_Re Re HRe 68 ltac:(lra)). unfold Alshul_1952. mrun. apply gives_ok. posr. Qed.
Lemma Wood_pos Re eD (HRe : 2040 <= Re) (He : 0 <= eD <= 0.05) : 0 < eD -> gives_pos (Wood_1966 Re eD).
Proof. intros. unfold Wood_1966. mrun. apply gives_ok. posr. Qed.

Ltac neg_term H := apply gives_sq; [lits; lra|]; apply Rgt_not_eq; unfold Rgt; lits; lra.

Lemma Churchill_1973_pos Re eD (HRe : 2040 <= Re) (He : 0 <= eD <= 0.05) : gives_pos (Churchill_1973 Re eD).
Proof.
  pose proof (over_Re Re HRe 7 ltac:(lra)) as H7. pose proof (eD_c eD He 3.7 ltac:(lits; lra)) as H1.
  unfold Churchill_1973. mrun.
  assert (B : Rpower (7 / Re) 0.9 <= Rpower (7 / 2040) 0.9) by (apply Rpower_le_l; lits; lra).
  assert (B2 : Rpower (7 / 2040) 0.9 < 0.1) by itv 0%nat.
  pose proof (Rpower_pos (7 / Re) 0.9).
  assert (L : log10 (eD * (1 / 3.7) + Rpower (7 / Re) 0.9) < 0) by (apply log10_neg; lits; lra).
  apply gives_sq; lra.
Qed.
Lemma Eck_pos Re eD (HRe : 2040 <= Re) (He : 0 <= eD <= 0.05) : gives_pos (Eck_1973 Re eD).
Proof.
  pose proof (over_Re Re HRe 15 ltac:(lra)) as H7. pose proof (eD_c eD He 3.715 ltac:(lits; lra)) as H1.
  unfold Eck_1973. mrun.
  assert (L : log10 (eD * (1 / 3.715) + 15 / Re) < 0) by (apply log10_neg; lits; lra).
  apply gives_sq; lra.
Qed.
Lemma Jain_pos Re eD (HRe : 2040 <= Re) (He : 0 <= eD <= 0.05) : gives_pos (Jain_1976 Re eD).
Proof.
  pose proof (over_Re Re HRe 29.843 ltac:(lits; lra)) as H7.
  unfold Jain_1976. mrun.
  assert (B : Rpower (29.843 / Re) 0.9 <= Rpower (29.843 / 2040) 0.9) by (apply Rpower_le_l; lits; lra).
  assert (B2 : Rpower (29.843 / 2040) 0.9 < 0.1) by itv 0%nat.
  pose proof (Rpower_pos (29.843 / Re) 0.9).
  assert (L : log10 (eD + Rpower (29.843 / Re) 0.9) < 0) by (apply log10_neg; lits; lra).
  apply gives_sq; lits; lra.
Qed.
Lemma Swamee_pos Re eD (HRe : 2040 <= Re) (He : 0 <= eD <= 0.05) : gives_pos (Swamee_Jain_1976 Re eD).
Proof.
  pose proof (over_Re Re HRe 6.97 ltac:(lits; lra)) as H7. pose proof (eD_c eD He 3.7 ltac:(lits; lra)) as H1.
  unfold Swamee_Jain_1976. mrun.
  assert (B : Rpower (6.97 / Re) 0.9 <= Rpower (6.97 / 2040) 0.9) by (apply Rpower_le_l; lits; lra).
  assert (B2 : Rpower (6.97 / 2040) 0.9 < 0.1) by itv 0%nat.
  pose proof (Rpower_pos (6.97 / Re) 0.9).
  assert (L : log10 (Rpower (6.97 / Re) 0.9 + eD * (1 / 3.7)) < 0) by (apply log10_neg; lits; lra).
  apply gives_sq; lits; lra.
Qed.
Lemma Churchill_1977_pos Re eD (HRe : 2040 <= Re) (He : 0 <= eD <= 0.05) : gives_pos (Churchill_1977 Re eD).
Proof.
  pose proof (over_Re Re HRe 7 ltac:(lra)) as H7.
  assert (H0 : 0 <= 0.27 * eD) by (lits; lra).
  unfold Churchill_1977. cbv zeta. do 4 mstep posr. mstep posr.
  set (A2 := (2.457 * ln _) ^ 16).
  assert (0 <= A2).
  { unfold A2. replace 16%nat with (2 * 8)%nat by reflexivity. rewrite pow_mult. apply pow_le, pow2_ge_0. }
  assert (0 < (37530 / Re) ^ 16) by posr.
  mrun. apply gives_ok. posr.
Qed.
Lemma inv_log c x : 0 < c -> 0 < x -> - log10 (c / x) = log10 x - log10 c.
Proof. intros. unfold Rdiv. rewrite log10_mult by posr. rewrite log10_inv by auto. ring. Qed.
(** eD/a - b/Re log10(inner): inner between c/Re and 1 *)
Lemma nest Re eD (HRe : 2040 <= Re) (He : 0 <= eD <= 0.05) a b inner c : 1 < a -> 0 < b <= 5.1 -> 0 < c -> 1 <= c -> c / Re <= inner < 1 ->
  0 < eD * (1 / a) - b / Re * log10 inner < 0.06.
Proof.
  intros Ha Hb Hc Hc1 Hi. pose proof (over_Re Re HRe c Hc). pose proof (over_Re Re HRe b ltac:(lra)) as HB.
  assert (HI : 0 < inner) by lra.
  assert (N : log10 inner < 0) by (apply log10_neg; lra).
  assert (K : - log10 inner <= log10 Re).
  { assert (log10 (c / Re) <= log10 inner) by (apply log10_le; lra).
    pose proof (inv_log c Re Hc ltac:(lra)). assert (0 <= log10 c) by (rewrite <- log10_1; apply log10_le; lra). lra. }
  pose proof (log10_small Re HRe) as S. pose proof (eD_c eD He a ltac:(lra)) as E.
  assert (E2 : 0.05 / a <= 0.05) by (apply <- Rle_div_l; lits; lra).
  assert (P : 0 < b / Re * - log10 inner) by (apply Rmult_lt_0_compat; lra).
  assert (P2 : b / Re * - log10 inner <= b * 0.001623).
  { apply Rle_trans with (b / Re * (0.001623 * Re)).
    - apply Rmult_le_compat_l; lra.
    - right. field. lra. }
  assert (P3 : b * 0.001623 <= 5.1 * 0.001623) by (apply Rmult_le_compat_r; lits; lra).
  lits. lra.
Qed.
Lemma Chen_pos Re eD (HRe : 2040 <= Re) (He : 0 <= eD <= 0.05) : gives_pos (Chen_1979 Re eD).
Proof.
  pose proof (over_Re Re HRe 7.149 ltac:(lits; lra)) as H7.
  assert (B : Rpower (7.149 / Re) 0.8981 <= Rpower (7.149 / 2040) 0.8981) by (apply Rpower_le_l; lits; lra).
  assert (B2 : Rpower (7.149 / 2040) 0.8981 < 0.1) by itv 0%nat.
  assert (B3 : 7.149 / Re <= Rpower (7.149 / Re) 0.8981).
  { rewrite <- (Rpower_1 (7.149 / Re)) at 1 by lra. unfold Rpower.
    assert (ln (7.149 / Re) <= 0). { rewrite <- ln_1. apply ln_le_compat; lits; lra. }
    destruct (Rle_lt_or_eq_dec (1 * ln (7.149 / Re)) (0.8981 * ln (7.149 / Re))); [lits; lra|left; apply exp_increasing; auto|rewrite e; right; reflexivity]. }
  assert (P : 0 <= pw eD 1.1098 <= 0.05).
  { split; [apply pw_nonneg|]. eapply Rle_trans. apply (pw_le eD 0.05); [lra|lra|lits; lra].
    unfold pw. rewrite (proj2 (Rltb_true _ _)) by (lits; lra). left. itv 0%nat. }
  unfold Chen_1979. rewrite ppow_pw by (lits; lra). cbn [bind]. cbv zeta. do 2 mstep posr.
  set (A4 := pw eD 1.1098 * (1 / 2.8257) + Rpower (7.149 / Re) 0.8981).
  assert (HA : 7.149 / Re <= A4 < 1).
  { assert (0 <= pw eD 1.1098 * (1 / 2.8257) <= 0.02).
    { split. posr. lits. lra. }
    unfold A4. lits. lra. }
  clearbody A4.
  do 2 mstep posr.
  pose proof (nest Re eD HRe He 3.7065 5.0452 A4 7.149 ltac:(lits; lra) ltac:(lits; lra) ltac:(lits; lra) ltac:(lits; lra) HA) as N.
  mstep ltac:(idtac; lra).
  assert (L : log10 (eD * (1 / 3.7065) - 5.0452 / Re * log10 A4) < 0) by (apply log10_neg; lits; lra).
  apply gives_sq; lits; lra.
Qed.
Lemma Round_pos Re eD (HRe : 2040 <= Re) (He : 0 <= eD <= 0.05) : gives_pos (Round_1980 Re eD).
Proof.
  assert (D : 0 < 0.135 * Re * eD + 6.5 <= 0.01 * Re).
  { assert (0 <= 0.135 * Re * eD <= 0.00675 * Re).
    { split. apply Rmult_le_pos; lits; lra. replace (0.00675 * Re) with (0.135 * Re * 0.05) by (lits; field). apply Rmult_le_compat_l; lits; lra. }
    lits; lra. }
  unfold Round_1980. cbv zeta. mstep ltac:(idtac; lra).
  assert (Q : 100 <= Re / (0.135 * Re * eD + 6.5)). { apply -> Rle_div_r; [|lra]. lits; lra. }
  mstep ltac:(idtac; lra). assert (0 < log10 (Re / (0.135 * Re * eD + 6.5))) by (apply log10_pos; lra).
  apply gives_sq; lits; lra.
Qed.
Lemma inner_ok Re eD (HRe : 2040 <= Re) (He : 0 <= eD <= 0.05) c : 1 <= c <= 20 -> c / Re <= eD * (1 / 3.7) + c / Re < 1.
Proof.
  intros. pose proof (over_Re Re HRe c ltac:(lra)). pose proof (eD_c eD He 3.7 ltac:(lits; lra)).
  assert (c / 2040 <= 20 / 2040) by (apply div_le_r; lra). lits; lra.
Qed.
Lemma Shacham_pos Re eD (HRe : 2040 <= Re) (He : 0 <= eD <= 0.05) : gives_pos (Shacham_1980 Re eD).
Proof.
  pose proof (inner_ok Re eD HRe He 14.5 ltac:(lits; lra)) as HA. pose proof (over_Re Re HRe 14.5 ltac:(lits; lra)).
  pose proof (nest Re eD HRe He 3.7 5.02 _ 14.5 ltac:(lits; lra) ltac:(lits; lra) ltac:(lits; lra) ltac:(lits; lra) HA) as N.
  unfold Shacham_1980. cbv zeta. do 2 mstep posr. mstep ltac:(idtac; lra). mstep ltac:(idtac; lra).
  match goal with |- context [log10 (eD * (1 / 3.7) - ?u)] => assert (L : log10 (eD * (1 / 3.7) - u) < 0) by (apply log10_neg; lits; lra) end.
  apply gives_sq; lits; lra.
Qed.
Lemma Barr_pos Re eD (HRe : 2040 <= Re) (He : 0 <= eD <= 0.05) : gives_pos (Barr_1981 Re eD).
Proof.
  unfold Barr_1981. assert (0 < Re * (1 / 7)) by (apply Rmult_lt_0_compat; lits; lra). mstep ltac:(idtac; lra). mstep posr.
  rewrite ppow_pw by (lits; lra). cbn [bind]; cbv zeta.
  pose proof (pw_nonneg eD 0.7) as P. pose proof (Rpower_pos Re 0.52) as P2.
  set (u := Rpower Re 0.52 * (1 / 29) * pw eD 0.7). assert (U : 0 <= u) by (unfold u; posr). clearbody u.
  assert (D : 0 < Re * (1 + u)) by (apply Rmult_lt_0_compat; lra).
  assert (L1 : 0 < log10 (Re * (1 / 7)) <= 0.001623 * Re).
  { split; [apply log10_pos; lits; lra|]. eapply Rle_trans; [|apply log10_small; auto]. apply log10_le; lits; lra. }
  mstep ltac:(idtac; lra). set (q := 4.518 * log10 (Re * (1 / 7)) / (Re * (1 + u))).
  assert (Q : 0 < q <= 0.01).
  { split; [unfold q; apply Rdiv_lt_0_compat; [apply Rmult_lt_0_compat|]; lits; lra|].
    unfold q. apply <- Rle_div_l; auto. assert (Re <= Re * (1 + u)) by (rewrite <- (Rmult_1_r Re) at 1; apply Rmult_le_compat_l; lra).
    lits; lra. }
  clearbody q. pose proof (eD_c eD He 3.7 ltac:(lits; lra)). mstep ltac:(idtac; lra).
  assert (L : log10 (eD * (1 / 3.7) + q) < 0) by (apply log10_neg; lits; lra).
  apply gives_sq; lra.
Qed.
Lemma ZS1_pos Re eD (HRe : 2040 <= Re) (He : 0 <= eD <= 0.05) : gives_pos (Zigrang_Sylvester_1 Re eD).
Proof.
  pose proof (inner_ok Re eD HRe He 13 ltac:(lits; lra)) as HA. pose proof (over_Re Re HRe 13 ltac:(lits; lra)).
  pose proof (nest Re eD HRe He 3.7 5.02 _ 13 ltac:(lits; lra) ltac:(lits; lra) ltac:(lits; lra) ltac:(lits; lra) HA) as N.
  unfold Zigrang_Sylvester_1. cbv zeta. do 2 mstep posr. mstep ltac:(idtac; lra). mstep ltac:(idtac; lra).
  match goal with |- context [log10 (eD * (1 / 3.7) - ?u)] => assert (L : log10 (eD * (1 / 3.7) - u) < 0) by (apply log10_neg; lits; lra) end.
  apply gives_sq; lits; lra.
Qed.
Lemma ZS2_pos Re eD (HRe : 2040 <= Re) (He : 0 <= eD <= 0.05) : gives_pos (Zigrang_Sylvester_2 Re eD).
Proof.
  pose proof (inner_ok Re eD HRe He 13 ltac:(lits; lra)) as HA. pose proof (over_Re Re HRe 13 ltac:(lits; lra)) as H13.
  pose proof (nest Re eD HRe He 3.7 5.02 _ 13 ltac:(lits; lra) ltac:(lits; lra) ltac:(lits; lra) ltac:(lits; lra) HA) as N.
  unfold Zigrang_Sylvester_2. cbv zeta. do 2 mstep posr. mstep ltac:(idtac; lra).
  set (A6 := eD * (1 / 3.7) - 5.02 / Re * log10 (eD * (1 / 3.7) + 13 / Re)) in *.
  assert (HA6 : 1 / Re <= A6 < 1).
  { split; [|lits; lra]. pose proof (eD_c eD He 3.7 ltac:(lits; lra)). unfold A6.
    assert (log10 (eD * (1 / 3.7) + 13 / Re) <= -0.2).
    { apply Rle_trans with (log10 0.5).
      - apply log10_le; lits; lra.
      - left. unfold log10. itv 0%nat. }
    pose proof (over_Re Re HRe 5.02 ltac:(lits; lra)).
    assert (5.02 / Re * 0.2 <= 5.02 / Re * - log10 (eD * (1 / 3.7) + 13 / Re)) by (apply Rmult_le_compat_l; lits; lra).
    assert (1 / Re <= 5.02 / Re * 0.2).
    { replace (5.02 / Re * 0.2) with (5.02 * 0.2 / Re) by (field; lra). apply div_le_r; lits; lra. }
    lits; lra. }
  clearbody A6. mstep ltac:(idtac; lra).
  pose proof (nest Re eD HRe He 3.7 5.02 A6 1 ltac:(lits; lra) ltac:(lits; lra) ltac:(lits; lra) ltac:(lits; lra) HA6) as N2.
  mstep ltac:(idtac; lra).
  match goal with |- context [log10 (eD * (1 / 3.7) - ?u)] => assert (L : log10 (eD * (1 / 3.7) - u) < 0) by (apply log10_neg; lits; lra) end.
  apply gives_sq; lits; lra.
Qed.
Lemma Haaland_pos Re eD (HRe : 2040 <= Re) (He : 0 <= eD <= 0.05) : gives_pos (Haaland Re eD).
Proof.
  pose proof (eD_c eD He 3.7 ltac:(lits; lra)) as H1. pose proof (over_Re Re HRe 6.9 ltac:(lits; lra)) as H2.
  unfold Haaland. mstep posr. rewrite ppow_pw by (lits; lra). cbn [bind]; cbv zeta.
  assert (P : 0 <= pw (eD * (1 / 3.7)) 1.11 <= 0.5).
  { split; [apply pw_nonneg|]. eapply Rle_trans. apply (pw_le _ 0.05); [lra|lits; lra|lits; lra].
    unfold pw. rewrite (proj2 (Rltb_true _ _)) by (lits; lra). left. itv 0%nat. }
  mstep ltac:(idtac; lra).
  assert (L : log10 (6.9 / Re + pw (eD * (1 / 3.7)) 1.11) < 0) by (apply log10_neg; lits; lra).
  apply gives_sq; lits; lra.
Qed.
Lemma Tsal_pos Re eD (HRe : 2040 <= Re) (He : 0 <= eD <= 0.05) : gives_pos (Tsal_1989 Re eD).
Proof.
  pose proof (over_Re Re HRe 68 ltac:(lra)). unfold Tsal_1989. mrun.
  assert (0 < sqrt (sqrt (68 / Re + eD))) by (apply sqrt_lt_R0, sqrt_lt_R0; lra).
  destruct (Rleb _ _); apply gives_ok; lits; lra.
Qed.
Lemma Manadilli_pos Re eD (HRe : 2040 <= Re) (He : 0 <= eD <= 0.05) : 5245 <= Re -> gives_pos (Manadilli_1997 Re eD).
Proof.
  intros H. unfold Manadilli_1997. mstep posr. mstep posr.
  pose proof (eD_c eD He 3.7 ltac:(lits; lra)) as H1. pose proof (over_Re Re HRe 96.82 ltac:(lits; lra)) as H2.
  assert (K : Rpower Re (- 0.983) = Rpower Re 0.017 / Re).
  { unfold Rdiv. rewrite <- (Rpower_1 Re) at 3 by lra. rewrite <- Rpower_Ropp, <- Rpower_plus. f_equal. lits; field. }
  assert (L : Rpower 5245 0.017 <= Rpower Re 0.017) by (apply Rpower_le_l; lits; lra).
  assert (L2 : 1.1 < Rpower 5245 0.017) by itv 0%nat.
  assert (M : Rpower Re (- 0.983) <= Rpower 5245 (-0.983)).
  { apply Rpower_anti_l; lits; lra. }
  assert (M2 : Rpower 5245 (-0.983) < 0.001) by itv 0%nat.
  assert (P : 96.82 / Re < 95 * Rpower Re (- 0.983)).
  { rewrite K. replace (95 * (Rpower Re 0.017 / Re)) with (95 * Rpower Re 0.017 / Re) by (field; lra). apply div_lt_r; lits; lra. }
  mstep ltac:(idtac; lra).
  assert (LL : log10 (eD * (1 / 3.7) + 95 * Rpower Re (- 0.983) - 96.82 / Re) < 0) by (apply log10_neg; lits; lra).
  apply gives_sq; lits; lra.
Qed.
Lemma Romeo_pos Re eD (HRe : 2040 <= Re) (He : 0 <= eD <= 0.05) : gives_pos (Romeo_2002 Re eD).
Proof.
  unfold Romeo_2002. mstep posr. mstep posr.
  pose proof (eD_c eD He 7.7918 ltac:(lits; lra)) as H1. rewrite ppow_pw by (lits; lra). cbn [bind].
  mstep posr. assert (Q : 0 < 5.3326 / (208.815 + Re) <= 0.003).
  { split; [posr|]. apply <- Rle_div_l; lits; lra. }
  mstep posr.
  assert (P1 : 0 <= pw (eD * (1 / 7.7918)) 0.9924 <= 0.01).
  { split; [apply pw_nonneg|]. eapply Rle_trans. apply (pw_le _ 0.0065); [lra|lits; lra|lits; lra].
    unfold pw. rewrite (proj2 (Rltb_true _ _)) by (lits; lra). left. itv 0%nat. }
  assert (P2 : 5.3326 / (208.815 + Re) <= Rpower (5.3326 / (208.815 + Re)) 0.9345 <= 0.01).
  { split.
    - rewrite <- (Rpower_1 (5.3326 / (208.815 + Re))) at 1 by lra. unfold Rpower.
      assert (ln (5.3326 / (208.815 + Re)) <= 0). { rewrite <- ln_1. apply ln_le_compat; lits; lra. }
      destruct (Rle_lt_or_eq_dec (1 * ln (5.3326 / (208.815 + Re))) (0.9345 * ln (5.3326 / (208.815 + Re)))); [lits; lra|left; apply exp_increasing; auto|rewrite e; right; reflexivity].
    - eapply Rle_trans. apply (Rpower_le_l _ 0.003); lits; lra. left. itv 0%nat. }
  assert (P3 : 4 / Re <= 5.3326 / (208.815 + Re)).
  { apply <- Rle_div_l; [|lra]. replace (5.3326 / (208.815 + Re) * Re) with (5.3326 * Re / (208.815 + Re)) by (field; lits; lra).
    apply -> Rle_div_r; [|lits; lra]. lits; lra. }
  set (v := pw (eD * (1 / 7.7918)) 0.9924 + Rpower (5.3326 / (208.815 + Re)) 0.9345).
  assert (V : 4 / Re <= v < 0.5) by (unfold v; lits; lra). clearbody v.
  pose proof (over_Re Re HRe 4 ltac:(lra)). mstep ltac:(idtac; lra).
  pose proof (nest Re eD HRe He 3.827 4.567 v 4 ltac:(lits; lra) ltac:(lits; lra) ltac:(lits; lra) ltac:(lits; lra) ltac:(lits; lra)) as N.
  set (z := eD * (1 / 3.827) - 4.567 / Re * log10 v) in *.
  assert (Z : 1 / Re <= z < 1).
  { split; [|lits; lra]. pose proof (eD_c eD He 3.827 ltac:(lits; lra)). unfold z.
    assert (log10 v <= -0.3).
    { apply Rle_trans with (log10 0.5).
      - apply log10_le; lits; lra.
      - left. unfold log10. itv 0%nat. }
    pose proof (over_Re Re HRe 4.567 ltac:(lits; lra)).
    assert (4.567 / Re * 0.3 <= 4.567 / Re * - log10 v) by (apply Rmult_le_compat_l; lits; lra).
    assert (1 / Re <= 4.567 / Re * 0.3).
    { replace (4.567 / Re * 0.3) with (4.567 * 0.3 / Re) by (field; lra). apply div_le_r; lits; lra. }
    lits; lra. }
  clearbody z. mstep ltac:(idtac; lra).
  pose proof (nest Re eD HRe He 3.7065 5.0272 z 1 ltac:(lits; lra) ltac:(lits; lra) ltac:(lits; lra) ltac:(lits; lra) Z) as N2.
  mstep ltac:(idtac; lra).
  match goal with |- context [log10 (eD * (1 / 3.7065) - ?u)] => assert (L : log10 (eD * (1 / 3.7065) - u) < 0) by (apply log10_neg; lits; lra) end.
  apply gives_sq; lits; lra.
Qed.
Lemma Sonnad_pos Re eD (HRe : 2040 <= Re) (He : 0 <= eD <= 0.05) : gives_pos (Sonnad_Goudar_2006 Re eD).
Proof.
  unfold Sonnad_Goudar_2006. mstep posr. cbv zeta.
  assert (L : 6.8 <= ln (0.4587 * Re) <= 0.0037361 * Re).
  { split.
    - apply Rle_trans with (ln (0.4587 * 2040)); [left; itv 0%nat|]. apply ln_le_compat; lits; lra.
    - eapply Rle_trans; [|apply ln_small; auto]. apply ln_le_compat; lits; lra. }
  set (S_ := 0.124 * eD * Re + ln (0.4587 * Re)).
  assert (E : 0 <= 0.124 * eD * Re <= 0.0062 * Re).
  { split; [posr|]. apply Rmult_le_compat_r; lits; lra. }
  assert (HS : 6.8 <= S_ <= 0.01 * Re) by (unfold S_; lits; lra). clearbody S_.
  mstep ltac:(lits; lra). mstep ltac:(lits; lra).
  assert (P : Rpower S_ (S_ / (S_ + 1)) <= S_).
  { rewrite <- (Rpower_1 S_) at 4 by (lits; lra). apply Rle_Rpower; [lits; lra|]. apply <- Rle_div_l; lits; lra. }
  pose proof (Rpower_pos S_ (S_ / (S_ + 1))).
  mstep ltac:(idtac; lra). set (q := 0.4587 * Re / Rpower S_ (S_ / (S_ + 1))).
  assert (Q : 1 < q). { unfold q. apply -> Rlt_div_r; auto. lits; lra. }
  clearbody q.
  mstep ltac:(idtac; lra). assert (0 < ln q) by (rewrite <- ln_1; apply ln_increasing; lra).
  apply gives_sq; lits; lra.
Qed.
Lemma Rao_Kumar_pos Re eD (HRe : 2040 <= Re) (He : 0 <= eD <= 0.05) : 0 < eD -> gives_pos (Rao_Kumar_2007 Re eD).
Proof.
  intros Hp. unfold Rao_Kumar_2007. assert (0 < Re * (1 / 6.5)) by (apply Rmult_lt_0_compat; lits; lra). mstep ltac:(idtac; lra). 
  set (u := - 0.33 * ln (Re * (1 / 6.5)) * ln (Re * (1 / 6.5))).
  assert (U : u <= 0). { unfold u. pose proof (Rle_0_sqr (ln (Re * (1 / 6.5)))) as S. unfold Rsqr in S. lits; lra. }
  assert (E : 0 < exp u <= 1). { split; [apply exp_pos|]. rewrite <- exp_0. destruct U as [U|U]; [left; apply exp_increasing; auto|rewrite U; right; reflexivity]. }
  clearbody u. mstep posr. pose proof (over_Re Re HRe 0.444 ltac:(lits; lra)) as O.
  set (b := 1 - 0.55 * exp u). assert (B : 0.45 <= b <= 1) by (unfold b; lits; lra). clearbody b.
  assert (D : 0 < 2 * eD * b * (0.444 / Re + 0.135) < 0.5).
  { split. repeat apply Rmult_lt_0_compat; lits; lra.
    apply Rle_lt_trans with (2 * 0.05 * 1 * 1); [|lits; lra]. repeat apply Rmult_le_compat; try (lits; lra); posr. }
  mstep ltac:(idtac; lra). assert (G : 1 < 1 / (2 * eD * b * (0.444 / Re + 0.135))). { apply -> Rlt_div_r; lits; lra. }
  mstep ltac:(idtac; lra). pose proof (log10_pos _ G). apply gives_sq; lra.
Qed.
Lemma Buzzelli_pos Re eD (HRe : 2040 <= Re) (He : 0 <= eD <= 0.05) : gives_pos (Buzzelli_2008 Re eD).
Proof.
  unfold Buzzelli_2008. mstep posr. mstep ltac:(idtac; lra).
  pose proof (sqrt_pos eD) as S. pose proof (ln_small Re HRe) as L.
  assert (L2 : 7.62 < ln Re). { pose proof ln_2040. assert (ln 2040 <= ln Re) by (apply ln_le_compat; lra). lra. }
  mstep ltac:(lits; lra). set (B1 := (0.774 * ln Re - 1.41) / (1 + 1.32 * sqrt eD)). cbv zeta.
  assert (HB : 0 < B1 <= 0.0029 * Re).
  { split; [unfold B1; apply Rdiv_lt_0_compat; lits; lra|].
    unfold B1. apply <- Rle_div_l; [|lits; lra]. apply Rle_trans with (0.0029 * Re * 1); [lits; lra|].
    apply Rmult_le_compat_l; lits; lra. }
  clearbody B1. set (B2 := eD * (1 / 3.7) * Re + 2.51 * B1).
  pose proof (eD_c eD He 3.7 ltac:(lits; lra)) as E.
  assert (HB2 : 0 < B2 <= 0.5 * Re).
  { assert (0 <= eD * (1 / 3.7) * Re <= 0.05 / 3.7 * Re) by (split; [apply Rmult_le_pos; lra|apply Rmult_le_compat_r; lra]).
    unfold B2. lits. lra. }
  clearbody B2.
  mstep ltac:(idtac; lra). assert (Q : 0 < B2 / Re < 1). { split; [apply Rdiv_lt_0_compat; lra|]. apply <- Rlt_div_l; lra. }
  mstep ltac:(idtac; lra). mstep ltac:(idtac; lra). assert (T : 0 < 2.18 / B2) by (apply Rdiv_lt_0_compat; lits; lra).
  mstep ltac:(idtac; lra). pose proof (log10_neg _ Q) as LN.
  apply gives_sq; [lra|].
  replace (B1 - (B1 + 2 * log10 (B2 / Re)) / (1 + 2.18 / B2)) with ((2.18 / B2 * B1 - 2 * log10 (B2 / Re)) / (1 + 2.18 / B2)) by (field; split; lra).
  apply Rgt_not_eq. apply Rdiv_lt_0_compat; [|lra].
  assert (0 < 2.18 / B2 * B1) by (apply Rmult_lt_0_compat; lra). lra.
Qed.
Lemma Avci_pos Re eD (HRe : 2040 <= Re) (He : 0 <= eD <= 0.05) : gives_pos (Avci_Karagoz_2009 Re eD).
Proof.
  unfold Avci_Karagoz_2009. mstep posr. mstep ltac:(idtac; lra).
  assert (S : 0 <= sqrt eD <= 0.3).
  { split; [apply sqrt_pos|]. replace 0.3 with (sqrt (0.3 * 0.3)) by (apply sqrt_square; lits; lra). apply sqrt_le_1_alt. lits; lra. }
  assert (E : 0 <= 0.01 * Re * eD * (1 + 10 * sqrt eD) <= 0.01 * Re * 0.05 * 4).
  { split. posr. repeat apply Rmult_le_compat; try (lits; lra); posr. }
  mstep ltac:(idtac; lra).
  assert (L : ln (1 + 0.01 * Re * eD * (1 + 10 * sqrt eD)) < ln Re) by (apply ln_increasing; lits; lra).
  mstep ltac:(idtac; lra). apply gives_ok. posr.
Qed.
Lemma Brkic_beta Re (HRe : 2040 <= Re) : let beta := ln (Re / (1.816 * ln (1.1 * Re / ln (1 + 1.1 * Re)))) in
  0 < ln (1 + 1.1 * Re) /\ 1 < 1.1 * Re / ln (1 + 1.1 * Re) /\ 1 < Re / (1.816 * ln (1.1 * Re / ln (1 + 1.1 * Re))) /\ 0 < beta <= 0.0037361 * Re.
Proof.
  cbv zeta.
  assert (L0 : 1 < ln (1 + 1.1 * Re) <= 0.005 * Re).
  { split.
    - apply Rlt_le_trans with (ln 2040); [pose proof ln_2040; lits; lra|]. apply ln_le_compat; lits; lra.
    - eapply Rle_trans; [apply ln_small; lits; lra|]. lits; lra. }
  assert (Q : 2 < 1.1 * Re / ln (1 + 1.1 * Re) <= 1.1 * Re).
  { split; [apply -> Rlt_div_r; lits; lra|]. apply <- Rle_div_l; [|lra]. apply Rle_trans with (1.1 * Re * 1); [lits; lra|apply Rmult_le_compat_l; lits; lra]. }
  assert (L1 : 0.69 < ln (1.1 * Re / ln (1 + 1.1 * Re)) <= 0.005 * Re).
  { split.
    - apply Rlt_trans with (ln 2); [itv 0%nat|]. apply ln_increasing; lra.
    - eapply Rle_trans; [apply ln_le_compat; [|apply Q]; lra|]. eapply Rle_trans; [apply ln_small; lits; lra|]. lits; lra. }
  assert (Q2 : 1 < Re / (1.816 * ln (1.1 * Re / ln (1 + 1.1 * Re))) <= Re).
  { split; [apply -> Rlt_div_r; lits; lra|]. apply <- Rle_div_l; [|lits; lra]. apply Rle_trans with (Re * 1); [lra|apply Rmult_le_compat_l; lits; lra]. }
  split; [lra|]. split; [lra|]. split; [lra|]. split.
  - rewrite <- ln_1. apply ln_increasing; lra.
  - eapply Rle_trans; [apply ln_le_compat; [|apply Q2]; lra|]. apply ln_small; auto.
Qed.
Lemma Brkic_1_pos Re eD (HRe : 2040 <= Re) (He : 0 <= eD <= 0.05) : gives_pos (Brkic_2011_1 Re eD).
Proof.
  destruct (Brkic_beta Re HRe) as [H1 [H2 [H3 H4]]]. pose proof (eD_c eD He 3.71 ltac:(lits; lra)) as E.
  assert (H5 : 0 < ln (1.1 * Re / ln (1 + 1.1 * Re))) by (rewrite <- ln_1; apply ln_increasing; lra).
  unfold Brkic_2011_1. mstep posr. mstep posr. mstep ltac:(idtac; lra). mstep posr. mstep ltac:(idtac; lra). mstep ltac:(idtac; lra).
  set (beta := ln (Re / (1.816 * ln (1.1 * Re / ln (1 + 1.1 * Re))))) in *.
  (* beta is large enough for the power to stay below 0.9 *)
  assert (B : 3 < beta).
  { unfold beta. apply Rlt_le_trans with (ln 24); [itv 0%nat|]. apply ln_le_compat; [lra|].
    apply -> Rle_div_r; [|lits; lra].
    assert (L0 : ln (1.1 * Re / ln (1 + 1.1 * Re)) <= ln (1.1 * Re)).
    { apply ln_le_compat; [lra|]. apply <- Rle_div_l; [|lra]. apply Rle_trans with (1.1 * Re * 1); [lits; lra|].
      apply Rmult_le_compat_l; [lits; lra|]. 
      apply Rle_trans with (ln 2040); [pose proof ln_2040; lits; lra|]. apply ln_le_compat; lits; lra. }
    pose proof (ln_small (1.1 * Re) ltac:(lits; lra)). lits; lra. }
  clearbody beta. assert (P : Rpower 10 (- 0.4343 * beta) < 0.9).
  { apply Rlt_trans with (Rpower 10 (-0.4343 * 3)); [|itv 0%nat]. apply Rpower_lt; lits; lra. }
  pose proof (Rpower_pos 10 (- 0.4343 * beta)). mstep ltac:(idtac; lra).
  assert (L : log10 (Rpower 10 (- 0.4343 * beta) + eD * (1 / 3.71)) < 0) by (apply log10_neg; lits; lra).
  apply gives_sq; lits; lra.
Qed.
Lemma Brkic_2_pos Re eD (HRe : 2040 <= Re) (He : 0 <= eD <= 0.05) : gives_pos (Brkic_2011_2 Re eD).
Proof.
  destruct (Brkic_beta Re HRe) as [H1 [H2 [H3 H4]]]. pose proof (eD_c eD He 3.71 ltac:(lits; lra)) as E.
  assert (H5 : 0 < ln (1.1 * Re / ln (1 + 1.1 * Re))) by (rewrite <- ln_1; apply ln_increasing; lra).
  unfold Brkic_2011_2. mstep posr. mstep posr. mstep ltac:(idtac; lra). mstep posr. mstep ltac:(idtac; lra). mstep ltac:(idtac; lra).
  set (beta := ln (Re / (1.816 * ln (1.1 * Re / ln (1 + 1.1 * Re))))) in *.
  clearbody beta. assert (P : 0 < 2.18 * beta / Re <= 0.01).
  { split; [apply Rdiv_lt_0_compat; lits; lra|]. apply <- Rle_div_l; lits; lra. }
  mstep ltac:(idtac; lra).
  assert (L : log10 (2.18 * beta / Re + eD * (1 / 3.71)) < 0) by (apply log10_neg; lits; lra).
  apply gives_sq; lits; lra.
Qed.
Lemma Fang_pos Re eD (HRe : 2040 <= Re) (He : 0 <= eD <= 0.05) : 3000 <= Re -> gives_pos (Fang_2011 Re eD).
Proof.
  intros H. unfold Fang_2011. rewrite ppow_pw by (lits; lra). cbn [bind]. do 2 mstep posr.
  assert (P : 0 <= pw eD 1.1007 <= 0.05).
  { split; [apply pw_nonneg|]. eapply Rle_trans. apply (pw_le eD 0.05); [lra|lra|lits; lra].
    unfold pw. rewrite (proj2 (Rltb_true _ _)) by (lits; lra). left. itv 0%nat. }
  assert (K : Rpower Re (- 1.0712) = Rpower Re 0.0393 * Rpower Re (- 1.1105)).
  { rewrite <- Rpower_plus. f_equal. lits; field. }
  assert (L : 1.3 < Rpower Re 0.0393).
  { apply Rlt_le_trans with (Rpower 3000 0.0393); [itv 0%nat|]. apply Rpower_le_l; lits; lra. }
  pose proof (Rpower_pos Re (- 1.1105)) as P1.
  assert (U : Rpower Re (- 1.0712) <= Rpower 3000 (-1.0712)) by (apply Rpower_anti_l; lits; lra).
  assert (U2 : Rpower 3000 (-1.0712) < 0.001) by itv 0%nat.
  assert (D : 0 < 56.291 * Rpower Re (- 1.0712) - 60.525 * Rpower Re (- 1.1105)).
  { rewrite K. assert (1.3 * Rpower Re (- 1.1105) < Rpower Re 0.0393 * Rpower Re (- 1.1105)) by (apply Rmult_lt_compat_r; auto). lits; lra. }
  mstep ltac:(lits; lra).
  match goal with |- context [ln ?a] => assert (N : ln a < 0) by (rewrite <- ln_1; apply ln_increasing; lits; lra) end.
  apply gives_sq; lits; lra.
Qed.
