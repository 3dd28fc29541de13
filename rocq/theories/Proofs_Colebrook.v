(** The closed form of Colebrook's equation. *)
From Coq Require Import Reals Lra Lia QArith Qreals List String.
From Coquelicot Require Import Coquelicot.
From Verif Require Import Base Model_Real Interval Proofs_Real Model_Friction Proofs_Friction Proofs_Friction2.
Open Scope R_scope.

(** What is assumed of [scipy.special.lambertw] / [py_lambertw] on the positive axis. *)
Definition lambert_spec (W : R -> R) : Prop := forall x, 0 < x -> 0 < W x /\ W x * exp (W x) = x.
(** Colebrook's equation in the unknown [s] = 1/sqrt f, as a residual. *)
Definition colebrook_residual (Re eD s : R) : R := s + 2 * log10 (eD / 3.7 + 2.51 * s / Re).
(** [f] solves the Colebrook-White equation. *)
Definition colebrook_eq (Re eD f : R) : Prop := 0 < f /\ 1 / sqrt f = - 2 * log10 (eD / 3.7 + 2.51 / (Re * sqrt f)).

Definition k1 : R := 0.10767739851405189.
Definition k2 : R := 0.15872763924382155.
Definition k3 : R := 1.151292546497022950546806896454654633998870849609375.
Definition k4 : R := 2.30258509299404590109361379290930926799774169921875.
Definition k5 : R := 457.28006463294371997108100913465023040771484375.

Lemma log10_eq x : log10 x = ln x / ln 10. Proof. reflexivity. Qed.
Definition kc0 : R := ln k3 + ln k2 / 2.
Definition kkap : R := k1 * ln 10 / 2.
Definition kal : R := 2.51 * 18.574 / sqrt k5.
Definition kbe : R := 1 / 3.7 - 2.51 * k4 / sqrt k5.
Lemma kvals :
  -0.78 < kc0 < -0.77 /\ 0.1239 < kkap < 0.124 /\ 2 < kal < 3 /\
  Rabs kbe <= 1 / 10 ^ 16 /\ Rabs (kkap - k4 / 18.574) <= 1 / 10 ^ 13 /\
  Rabs (18.574 / sqrt k5 - 2 / ln 10) <= 1 / 10 ^ 13 /\ Rabs (k1 - k4 / sqrt k5) <= 1 / 10 ^ 16 /\
  Rabs (ln kal + kc0) <= 1 / 10 ^ 13.
Proof.
  unfold kc0, kkap, kal, kbe, k1, k2, k3, k4, k5. splits; itv 0%nat.
Qed.
Lemma k_pos : 0 < k2 /\ 0 < k3 /\ 0 < k4 /\ 0 < k5 /\ 0 < k1.
Proof. unfold k1, k2, k3, k4, k5; splits; lits; lra. Qed.

Lemma ln_sqrt x : 0 < x -> ln (sqrt x) = ln x / 2.
Proof.
  intros H. assert (S : 0 < sqrt x) by (apply sqrt_lt_R0; auto). rewrite <- (sqrt_sqrt x) at 2 by lra.
  rewrite ln_mult by auto. lra.
Qed.
Definition ke (Re eD : R) := eD * Re.
Definition karg (Re eD : R) : R := k3 * sqrt (k2 * Rpower 10 (k1 * (eD * Re)) * Re * Re).
Lemma karg_ln Re eD : 0 < Re -> 0 < karg Re eD /\ ln (karg Re eD) = kc0 + kkap * (eD * Re) + ln Re.
Proof.
  intros H. destruct k_pos as [P2 [P3 [P4 [P5 P1]]]]. unfold karg.
  assert (Q : 0 < k2 * Rpower 10 (k1 * (eD * Re))) by (apply Rmult_lt_0_compat; [auto|apply exp_pos]).
  rewrite Rmult_assoc. rewrite sqrt_mult by nra. rewrite sqrt_square by lra.
  assert (S : 0 < sqrt (k2 * Rpower 10 (k1 * (eD * Re)))) by (apply sqrt_lt_R0; auto).
  split; [apply Rmult_lt_0_compat; [auto|apply Rmult_lt_0_compat; auto]|].
  rewrite (ln_mult k3), (ln_mult (sqrt _) Re) by (auto; apply Rmult_lt_0_compat; auto).
  rewrite ln_sqrt by auto. rewrite (ln_mult k2) by (auto; apply exp_pos). unfold Rpower. rewrite ln_exp. unfold kc0, kkap. lra.
Qed.
Lemma lambert_ln W x : lambert_spec W -> 0 < x -> 0 < W x /\ W x + ln (W x) = ln x.
Proof.
  intros HW H. destruct (HW x H) as [P E]. split; auto. rewrite <- E at 3. rewrite ln_mult by (auto; apply exp_pos).
  rewrite ln_exp. lra.
Qed.
Lemma w_lower W Re eD : lambert_spec W -> 2040 <= Re -> 0 <= eD <= 0.05 -> eD * Re <= 10 ^ 13 ->
  k4 * (eD * Re) / 18.574 < W (karg Re eD).
Proof.
  intros HW HRe He HE. destruct (karg_ln Re eD ltac:(lra)) as [P L].
  destruct (lambert_ln W _ HW P) as [Pw Ew]. destruct kvals as [V1 [V2 [V3 [V4 [V5 _]]]]].
  destruct k_pos as [_ [_ [P4 _]]].
  destruct (Rlt_or_le (k4 * (eD * Re) / 18.574) (W (karg Re eD))) as [|N]; auto. exfalso.
  set (w := W (karg Re eD)) in *. set (e := eD * Re) in *.
  assert (e0 : 0 <= e) by (unfold e; posr).
  assert (He0 : 0 < e). { destruct e0 as [|Z]; auto. rewrite <- Z in N. lits. lra. }
  assert (HeD : 0 < eD) by (unfold e in He0; nra).
  set (t := k4 / 18.574) in *. assert (T : 0 < t < 0.124).
  { unfold t, k4. split; itv 0%nat. }
  replace (k4 * e / 18.574) with (t * e) in N by (unfold t; field; lits; lra).
  assert (Lw : ln w <= ln t + ln e) by (rewrite <- ln_mult by lra; apply ln_le_compat; auto).
  assert (Le : ln e = ln eD + ln Re) by (unfold e; apply ln_mult; lra).
  assert (LeD : ln eD <= ln 0.05) by (apply ln_le_compat; lra).
  assert (Lt : ln t <= ln 0.124) by (apply ln_le_compat; lits; lra).
  assert (A : ln 0.05 < -2.9) by itv 0%nat. assert (B : ln 0.124 < -2) by itv 0%nat.
  assert (C : (kkap - t) * e >= -1).
  { assert (Rabs (kkap - t) * e <= 1 / 10 ^ 13 * 10 ^ 13) by (apply Rmult_le_compat; try lra; apply Rabs_pos).
    pose proof (Rle_abs (- (kkap - t))) as RA. rewrite Rabs_Ropp in RA.
    nra. }
  lits; lra.
Qed.

Definition ks (W : R -> R) (Re eD : R) : R := (18.574 * W (karg Re eD) - k4 * (eD * Re)) / sqrt k5.
Lemma ks_pos W Re eD : lambert_spec W -> 2040 <= Re -> 0 <= eD <= 0.05 -> eD * Re <= 10 ^ 13 -> 0 < ks W Re eD.
Proof.
  intros HW HRe He HE. pose proof (w_lower W Re eD HW HRe He HE) as K. destruct k_pos as [_ [_ [_ [P5 _]]]].
  apply Rdiv_lt_0_compat; [|apply sqrt_lt_R0; auto]. apply Rlt_div_l in K; [|lits; lra]. lra.
Qed.
Lemma Colebrook_eq W Re eD : lambert_spec W -> 2040 <= Re -> 0 <= eD <= 0.05 -> eD * Re <= 10 ^ 13 ->
  exists f, Colebrook W Re eD None = Ok f /\ 0 < f /\ 1 / sqrt f = ks W Re eD.
Proof.
  intros HW HRe He HE. pose proof (ks_pos W Re eD HW HRe He HE) as K. destruct k_pos as [P2 [P3 [P4 [P5 P1]]]].
  assert (Hs : 0 < sqrt k5) by (apply sqrt_lt_R0; auto).
  exists (1 / (ks W Re eD * ks W Re eD)). splits.
  - unfold Colebrook. cbv zeta. fold k1 k2 k3 k4 k5. rewrite ppow_ok by lra. cbn [bind].
    rewrite psqrt_ok.
    2:{ apply Rmult_le_pos; [apply Rmult_le_pos; [apply Rmult_le_pos; [lra|left; apply exp_pos]|lra]|lra]. }
    cbn [bind]. fold (karg Re eD).
    replace (k4 * (eD * Re) - 18.574 * W (karg Re eD)) with (- (ks W Re eD * sqrt k5)) by (unfold ks; field; lra).
    set (z := ks W Re eD) in *. rewrite pdiv_ok.
    + f_equal. rewrite <- (sqrt_sqrt k5) at 1 by lra. field. split; lra.
    + apply Rgt_not_eq. replace (- (z * sqrt k5) * - (z * sqrt k5)) with (z * sqrt k5 * (z * sqrt k5)) by ring.
      apply Rmult_lt_0_compat; apply Rmult_lt_0_compat; auto.
  - apply Rdiv_lt_0_compat; [lra|apply Rmult_lt_0_compat; auto].
  - unfold Rdiv. rewrite !Rmult_1_l. rewrite sqrt_inv, sqrt_square by lra. field. lra.
Qed.
Lemma ln1p_abs z : Rabs z <= 1 / 2 -> Rabs (ln (1 + z)) <= 2 * Rabs z.
Proof.
  intros H. apply Rabs_le_between in H. assert (P : 0 < 1 + z) by lra.
  pose proof (ln_tangent (1 + z) 1 P ltac:(lra)) as U. rewrite ln_1 in U.
  pose proof (ln_tangent 1 (1 + z) ltac:(lra) P) as V. rewrite ln_1 in V.
  assert (L : ln (1 + z) >= z / (1 + z)). { replace (z / (1 + z)) with (- ((1 - (1 + z)) / (1 + z))) by (field; lra). lra. }
  unfold Rabs. destruct (Rcase_abs z); destruct (Rcase_abs (ln (1 + z))); try lra.
  - assert (2 * z <= z / (1 + z)). { apply -> Rle_div_r; nra. } lra.
  - assert (0 <= z / (1 + z)). { apply Rdiv_le_0_compat; lra. } lra.
Qed.
Lemma w_upper W Re eD : lambert_spec W -> 2040 <= Re -> 0 <= eD -> W (karg Re eD) <= ln Re + 0.124 * (eD * Re).
Proof.
  intros HW HRe He. destruct (karg_ln Re eD ltac:(lra)) as [P L]. destruct (lambert_ln W _ HW P) as [Pw Ew].
  destruct kvals as [V1 [V2 _]]. pose proof ln_2040 as L0. assert (ln 2040 <= ln Re) by (apply ln_le_compat; lra).
  assert (0 <= eD * Re) by posr.
  destruct (Rle_or_lt (W (karg Re eD)) 1); [lits; nra|].
  assert (0 < ln (W (karg Re eD))) by (rewrite <- ln_1; apply ln_increasing; lra). lits; nra.
Qed.
Lemma ks_residual W Re eD : lambert_spec W -> 2040 <= Re -> 0 <= eD <= 0.05 -> eD * Re <= 10 ^ 13 ->
  Rabs (colebrook_residual Re eD (ks W Re eD)) <= 2 / 10 ^ 13 * (ln Re + eD * Re).
Proof.
  intros HW HRe He HE. pose proof (ks_pos W Re eD HW HRe He HE) as K. destruct k_pos as [P2 [P3 [P4 [P5 P1]]]].
  destruct (karg_ln Re eD ltac:(lra)) as [P L]. destruct (lambert_ln W _ HW P) as [Pw Ew].
  pose proof (w_lower W Re eD HW HRe He HE) as Wl. pose proof (w_upper W Re eD HW HRe ltac:(lra)) as Wu.
  destruct kvals as [V1 [V2 [V3 [V4 [V5 [V6 [V7 V8]]]]]]].
  assert (Hs : 0 < sqrt k5) by (apply sqrt_lt_R0; auto). pose proof ln10_pos as L10.
  unfold colebrook_residual.
  set (e := eD * Re) in *. set (w := W (karg Re eD)) in *. assert (e0 : 0 <= e) by (unfold e; posr).
  assert (A : eD / 3.7 + 2.51 * ks W Re eD / Re = kal * w * (1 + kbe * e / (kal * w)) / Re).
  { unfold ks. fold e w. unfold kbe at 1. 
    replace (kal * w * (1 + (1 / 3.7 - 2.51 * k4 / sqrt k5) * e / (kal * w))) with (kal * w + (1 / 3.7 - 2.51 * k4 / sqrt k5) * e) by (field; split; [lits; lra|split; [lra|split; lits; lra]]).
    unfold kal, e. field. splits; lits; lra. }
  set (z := kbe * e / (kal * w)) in *.
  assert (Z : Rabs z <= 1 / 10 ^ 14).
  { unfold z. unfold Rdiv at 1. rewrite !Rabs_mult. rewrite Rabs_inv. rewrite (Rabs_right e), (Rabs_right (kal * w)) by (apply Rle_ge; try apply Rmult_le_pos; lra).
    apply frac_le. apply Rmult_lt_0_compat; lra.
    assert (Wl2 : 0.12 * e <= w).
    { assert (0.12 < k4 / 18.574) by (unfold k4; itv 0%nat). replace (k4 * e / 18.574) with (k4 / 18.574 * e) in Wl by (field; lits; lra). lits; nra. }
    apply Rle_trans with (1 / 10 ^ 16 * e). apply Rmult_le_compat_r; auto.
    apply Rle_trans with (1 / 10 ^ 14 * (2 * (0.12 * e))); [lits; lra|].
    apply Rmult_le_compat_l; [lra|]. apply Rmult_le_compat; lits; lra. }
  assert (Zb : Rabs (ln (1 + z)) <= 2 / 10 ^ 14). { pose proof (ln1p_abs z ltac:(lra)). lra. }
  assert (Zp : 0 < 1 + z). { apply Rabs_le_between in Z. lra. }
  assert (Pk : 0 < kal) by lra. assert (Pkw : 0 < kal * w) by (apply Rmult_lt_0_compat; auto).
  assert (Pkz : 0 < kal * w * (1 + z)) by (apply Rmult_lt_0_compat; auto).
  rewrite A. unfold log10. rewrite ln_div by lra. rewrite (ln_mult (kal * w)), (ln_mult kal) by auto.
  assert (Ew2 : ln w = kc0 + kkap * e + ln Re - w) by lra.
  rewrite Ew2. clearbody z. 
  replace (ks W Re eD + 2 * ((ln kal + (kc0 + kkap * e + ln Re - w) + ln (1 + z) - ln Re) / ln 10)) with
    ((18.574 / sqrt k5 - 2 / ln 10) * w + (k1 - k4 / sqrt k5) * e + 2 / ln 10 * ((ln kal + kc0) + ln (1 + z))).
  2:{ unfold ks. fold e w. unfold kkap. field. split; lra. }
  assert (T10 : 0 < 2 / ln 10 < 1). { split; itv 0%nat. }
  assert (lR : 7 <= ln Re). { pose proof ln_2040. assert (ln 2040 <= ln Re) by (apply ln_le_compat; lra). lits; lra. }
  eapply Rle_trans; [apply Rabs_triang|]. eapply Rle_trans; [apply Rplus_le_compat_r, Rabs_triang|].
  rewrite !Rabs_mult. rewrite (Rabs_right w), (Rabs_right e), (Rabs_right (2 / ln 10)) by lra.
  assert (B1 : Rabs (18.574 / sqrt k5 - 2 / ln 10) * w <= 1 / 10 ^ 13 * (ln Re + 0.124 * e)) by (apply Rmult_le_compat; try lra; apply Rabs_pos).
  assert (B2 : Rabs (k1 - k4 / sqrt k5) * e <= 1 / 10 ^ 16 * e) by (apply Rmult_le_compat_r; lra).
  assert (B3 : 2 / ln 10 * Rabs (ln kal + kc0 + ln (1 + z)) <= 1 * (2 / 10 ^ 13)).
  { apply Rmult_le_compat; try lra. apply Rabs_pos. eapply Rle_trans; [apply Rabs_triang|]. lra. }
  lits; lra.
Qed.

Lemma residual_mono Re eD s1 s2 : 0 < Re -> 0 <= eD -> 0 < s1 -> s1 <= s2 ->
  s2 - s1 <= colebrook_residual Re eD s2 - colebrook_residual Re eD s1.
Proof.
  intros HR He H1 H2. unfold colebrook_residual.
  assert (log10 (eD / 3.7 + 2.51 * s1 / Re) <= log10 (eD / 3.7 + 2.51 * s2 / Re)).
  { apply log10_le.
    - assert (0 <= eD / 3.7) by (apply Rdiv_le_0_compat; lits; lra). assert (0 < 2.51 * s1 / Re) by posr. lra.
    - apply Rplus_le_compat_l. apply div_le_r; auto. lits; lra. }
  lra.
Qed.
Lemma residual_stable Re eD s1 s2 : 0 < Re -> 0 <= eD -> 0 < s1 -> 0 < s2 ->
  Rabs (s1 - s2) <= Rabs (colebrook_residual Re eD s1 - colebrook_residual Re eD s2).
Proof.
  intros HR He H1 H2. destruct (Rle_or_lt s1 s2) as [K|K].
  - pose proof (residual_mono Re eD s1 s2 HR He H1 K). 
    rewrite !Rabs_left1 by lra. lra.
  - pose proof (residual_mono Re eD s2 s1 HR He H2 ltac:(lra)). rewrite !Rabs_right by lra. lra.
Qed.
Lemma colebrook_eq_residual Re eD f : 0 < Re -> 0 < f -> (colebrook_eq Re eD f <-> colebrook_residual Re eD (1 / sqrt f) = 0).
Proof.
  intros HR Hf. assert (S : 0 < sqrt f) by (apply sqrt_lt_R0; auto).
  unfold colebrook_eq, colebrook_residual. replace (2.51 * (1 / sqrt f) / Re) with (2.51 / (Re * sqrt f)) by (field; lra).
  split; [intros [_ H]; lra|intros H; split; [auto|lra]].
Qed.
Lemma colebrook_unique Re eD f1 f2 : 0 < Re -> 0 <= eD -> colebrook_eq Re eD f1 -> colebrook_eq Re eD f2 -> f1 = f2.
Proof.
  intros HR He H1 H2. assert (P1 := proj1 H1). assert (P2 := proj1 H2).
  assert (S1 : 0 < sqrt f1) by (apply sqrt_lt_R0; auto). assert (S2 : 0 < sqrt f2) by (apply sqrt_lt_R0; auto).
  apply colebrook_eq_residual in H1; auto. apply colebrook_eq_residual in H2; auto.
  assert (Q1 : 0 < 1 / sqrt f1) by posr. assert (Q2 : 0 < 1 / sqrt f2) by posr.
  pose proof (residual_stable Re eD _ _ HR He Q1 Q2) as K. rewrite H1, H2 in K. rewrite Rminus_0_r, Rabs_R0 in K.
  assert (Z : 1 / sqrt f1 - 1 / sqrt f2 = 0). { destruct (Req_dec (1 / sqrt f1 - 1 / sqrt f2) 0) as [|N]; auto. apply Rabs_pos_lt in N. lra. }
  assert (E : sqrt f1 = sqrt f2). { rewrite <- (Rinv_inv (sqrt f1)), <- (Rinv_inv (sqrt f2)). f_equal. unfold Rdiv in Z. lra. }
  apply sqrt_inj; lra.
Qed.
Lemma colebrook_exists Re eD : 2040 <= Re -> 0 <= eD <= 0.05 -> exists f, colebrook_eq Re eD f.
Proof.
  intros HR He.
  destruct (Ranalysis5.IVT_interv (colebrook_residual Re eD) 0.1 Re) as [s [Hs Es]].
  - intros s Hs. apply continuity_pt_filterlim. unfold colebrook_residual, log10.
    apply (ex_derive_continuous (fun s => s + 2 * (ln (eD / 3.7 + 2.51 * s / Re) / ln 10))).
    auto_derive. pose proof ln10_pos. 
    assert (0 <= eD * / 3.7) by (apply Rmult_le_pos; [lra|left; apply Rinv_0_lt_compat; lits; lra]).
    assert (0 < 2.51 * s * / Re) by (apply Rmult_lt_0_compat; [apply Rmult_lt_0_compat; lits; lra|apply Rinv_0_lt_compat; lra]).
    splits; auto; lra.
  - lits; lra.
  - unfold colebrook_residual. assert (A : 0 < eD / 3.7 + 2.51 * 0.1 / Re <= 0.1).
    { assert (0 <= eD / 3.7 <= 0.05 / 3.7) by (split; [apply Rdiv_le_0_compat; lits; lra|apply div_le_r; lits; lra]).
      assert (0 < 2.51 * 0.1 / Re <= 2.51 * 0.1 / 2040) by (split; [posr|apply div_le_l; lits; lra]). lits; lra. }
    assert (log10 (eD / 3.7 + 2.51 * 0.1 / Re) <= log10 0.1) by (apply log10_le; lra).
    assert (log10 0.1 < -0.9) by (unfold log10; itv 0%nat). lits; lra.
  - unfold colebrook_residual. assert (A : 1 < eD / 3.7 + 2.51 * Re / Re).
    { assert (0 <= eD / 3.7) by (apply Rdiv_le_0_compat; lits; lra). replace (2.51 * Re / Re) with 2.51 by (field; lra). lits; lra. }
    pose proof (log10_pos _ A). lra.
  - exists (1 / (s * s)). assert (Ps : 0 < s) by (lits; lra). assert (Pf : 0 < 1 / (s * s)) by posr.
    apply colebrook_eq_residual; [lra|auto|]. replace (1 / sqrt (1 / (s * s))) with s; auto.
    unfold Rdiv. rewrite !Rmult_1_l, sqrt_inv, sqrt_square by lra. field. lra.
Qed.
