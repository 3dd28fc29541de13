(** Accuracy of Clamond's two-step iteration. *)
From Coq Require Import Reals Lra Lia QArith Qreals List String.
From Coquelicot Require Import Coquelicot.
From Verif Require Import Base Model_Real Interval Proofs_Real Model_Friction Proofs_Friction Proofs_Friction2 Proofs_Colebrook.
Open Scope R_scope.

Definition h4 (y : R) := ln (1 - y) + y + y ^ 2 / 2 + y ^ 3 / 3.
Lemma mono_from_0 (f f' : R -> R) y : (forall t, -1/2 <= t <= 1/2 -> is_derive f t (f' t)) -> f 0 = 0 ->
  (forall t, 0 <= t <= 1/2 -> 0 <= f' t) -> (forall t, -1/2 <= t <= 0 -> f' t <= 0) -> -1/2 <= y <= 1/2 -> 0 <= f y.
Proof.
  intros D Z P N Hy. destruct (Rle_or_lt 0 y) as [K|K].
  - destruct (MVT_gen f 0 y f') as [c [Hc E]].
    + intros x Hx. rewrite Rmin_left, Rmax_right in Hx by lra. apply D. lra.
    + intros x Hx. rewrite Rmin_left, Rmax_right in Hx by lra. apply continuity_pt_filterlim. apply (ex_derive_continuous f x). eexists; apply D; lra.
    + rewrite Rmin_left, Rmax_right in Hc by lra. rewrite Z in E. specialize (P c ltac:(lra)). nra.
  - destruct (MVT_gen f y 0 f') as [c [Hc E]].
    + intros x Hx. rewrite Rmin_left, Rmax_right in Hx by lra. apply D. lra.
    + intros x Hx. rewrite Rmin_left, Rmax_right in Hx by lra. apply continuity_pt_filterlim. apply (ex_derive_continuous f x). eexists; apply D; lra.
    + rewrite Rmin_left, Rmax_right in Hc by lra. rewrite Z in E. specialize (N c ltac:(lra)). nra.
Qed.
Lemma h4_bounds y : -1/2 <= y <= 1/2 -> - (y ^ 4 / 2) <= h4 y <= 0.
Proof.
  intros Hy. split.
  - assert (0 <= h4 y + y ^ 4 / 2); [|lra].
    apply (mono_from_0 (fun y => h4 y + y ^ 4 / 2) (fun t => t ^ 3 * (2 - / (1 - t)))); auto.
    + intros t Ht. unfold h4. auto_derive. lra. field. lra.
    + unfold h4. rewrite Rminus_0_r, ln_1. field.
    + intros t Ht. apply Rmult_le_pos; [apply pow_le; lra|]. assert (/ (1 - t) <= 2); [|lra]. rewrite <- (Rinv_inv 2). apply Rinv_le_contravar; lra.
    + intros t Ht. assert (/ (1 - t) <= 2). { rewrite <- (Rinv_inv 2). apply Rinv_le_contravar; lra. }
      replace (t ^ 3 * (2 - / (1 - t))) with (- ((- t) ^ 3 * (2 - / (1 - t)))) by ring.
      assert (0 <= (- t) ^ 3 * (2 - / (1 - t))) by (apply Rmult_le_pos; [apply pow_le; lra|lra]). lra.
  - assert (0 <= - h4 y); [|lra].
    apply (mono_from_0 (fun y => - h4 y) (fun t => t ^ 3 * / (1 - t))); auto.
    + intros t Ht. unfold h4. auto_derive. lra. field. lra.
    + unfold h4. rewrite Rminus_0_r, ln_1. field.
    + intros t Ht. apply Rmult_le_pos; [apply pow_le; lra|]. left. apply Rinv_0_lt_compat; lra.
    + intros t Ht. assert (0 < / (1 - t)) by (apply Rinv_0_lt_compat; lra).
      replace (t ^ 3 * / (1 - t)) with (- ((- t) ^ 3 * / (1 - t))) by ring.
      assert (0 <= (- t) ^ 3 * / (1 - t)) by (apply Rmult_le_pos; [apply pow_le; lra|lra]). lra.
Qed.

(** one step is of fourth order *)
Lemma quart u E : 4 <= u -> -0.25 <= E <= 0.25 ->
  let d := (1 + u + 0.5 * E) * E * u / (1 + u + E * (1 + 1 / 3 * E)) in
  0 < 1 - d / u /\ Rabs (ln (1 - d / u) + E * (1 + u) - d) <= E ^ 4.
Proof.
  intros Hu HE. cbv zeta. set (d := (1 + u + 0.5 * E) * E * u / (1 + u + E * (1 + 1 / 3 * E))).
  set (D := 1 + u + E * (1 + 1 / 3 * E)) in (value of d). assert (HD : 4.7 <= D) by (unfold D; lits; nra).
  set (a := 1 / 2 + E / 3). assert (Ha : 0.4 <= a <= 0.6) by (unfold a; lits; lra).
  set (y := d / u). set (q := a / D).
  assert (Hq : 0 < q <= 0.13). { unfold q. split; [apply Rdiv_lt_0_compat; lits; lra|]. apply frac_le; lits; lra. }
  assert (Ey : y = E - E ^ 2 * q). { unfold y, d, q, a. replace (1 + u + 0.5 * E) with (D - E * (1 / 2 + E / 3)) by (unfold D; lits; field). clearbody D. field; split; lits; lra. }
  assert (Hy : -0.3 <= y <= 0.3). { rewrite Ey. lits; nra. }
  split; [lits; lra|].
  assert (EQ : ln (1 - y) + E * (1 + u) - d = h4 y + E ^ 4 * (q * (1 - E * q + (E * q) ^ 2 / 3) - q / 3 - q ^ 2 / 2)).
  { assert (d = u * y) by (unfold y; field; lra). unfold h4.
    assert (KD : q * D = a) by (unfold q; field; lits; lra). assert (Eu : u = D - E * (1 + 1 / 3 * E) - 1) by (unfold D; ring).
    assert (Q : E * (1 + u) - d = - y - y ^ 2 / 2 - y ^ 3 / 3 + y + y ^ 2 / 2 + y ^ 3 / 3 + (E * (1 + u) - u * y)) by lra.
    assert (R : E * (1 + u) - u * y = y + E ^ 2 * (a - q * (E * (1 + 1 / 3 * E)))).
    { rewrite <- KD. rewrite Eu. rewrite Ey. ring. }

    replace (ln (1 - y) + E * (1 + u) - d) with (ln (1 - y) + (E * (1 + u) - u * y)) by lra. rewrite R.
    replace a with (1 / 2 + E / 3) by reflexivity. rewrite Ey. field. }
  fold y. rewrite EQ. destruct (h4_bounds y ltac:(lits; lra)) as [L1 L2].
  assert (HEq : -0.04 <= E * q <= 0.04) by (lits; nra).
  assert (K : Rabs (q * (1 - E * q + (E * q) ^ 2 / 3) - q / 3 - q ^ 2 / 2) <= 0.2).
  { apply Rabs_le_between. assert (0 <= (E * q) ^ 2 <= 0.0016) by (split; [apply pow2_ge_0|lits; nra]). lits; nra. }
  assert (E4 : 0 <= E ^ 4) by (replace (E ^ 4) with ((E ^ 2) ^ 2) by ring; apply pow2_ge_0).
  assert (Y4 : y ^ 4 <= 1.2 * E ^ 4).
  { rewrite Ey. replace ((E - E ^ 2 * q) ^ 4) with (E ^ 4 * (1 - E * q) ^ 4) by ring. rewrite (Rmult_comm _ (E ^ 4)).
    apply Rmult_le_compat_l; auto.
    apply Rle_trans with (1.04 ^ 4); [apply pow_incr; lits; lra|lits; lra]. }
  eapply Rle_trans; [apply Rabs_triang|]. rewrite Rabs_mult, (Rabs_right (E ^ 4)) by lra.
  assert (Rabs (h4 y) <= 0.6 * E ^ 4). { rewrite Rabs_left1 by lra. lits; lra. }
  assert (E ^ 4 * Rabs (q * (1 - E * q + (E * q) ^ 2 / 3) - q / 3 - q ^ 2 / 2) <= E ^ 4 * 0.2) by (apply Rmult_le_compat_l; auto).
  lits; lra.
Qed.

Lemma ku0_ge Re eD : 2040 <= Re -> 0 <= eD <= 0.05 -> 6.6 <= ku0 Re eD.
Proof.
  intros HRe He. destruct cl_val as [C1 [C2 C3]]. pose proof ln_2040 as L0.
  assert (L1 : ln 2040 <= ln Re) by (apply ln_le_compat; lra).
  assert (X1 : 0 <= kX1 Re eD) by (unfold kX1; posr). unfold ku0, kX2. lits; lra.
Qed.
Lemma E0_small u : 6.6 <= u -> (ln u - 0.2) / (1 + u) <= 0.23.
Proof.
  intros H. apply frac_le; [lits; lra|]. pose proof (ln_tangent u 6.6 ltac:(lits; lra) ltac:(lits; lra)) as T.
  assert (L : ln 6.6 < 1.89) by itv 0%nat. replace ((u - 6.6) / 6.6) with (u / 6.6 - 1) in T by (field; lits; lra). lits; lra.
Qed.
Definition kF2 Re eD := kF1 Re eD - kn1 Re eD / kb1 Re eD.
Lemma kF2_facts Re eD : 2040 <= Re -> 0 <= eD <= 0.05 ->
  0 < kF2 Re eD /\ 1 < kX1 Re eD + kF2 Re eD /\ Rabs (ln (kX1 Re eD + kF2 Re eD) + kF2 Re eD - kX2 Re) <= 1 / 10 ^ 13.
Proof.
  intros HRe He. destruct (clamond_facts Re eD HRe He) as [A [B [C [D [E0e [_ [F [G [H [I [J K]]]]]]]]]]].
  pose proof (ku0_ge Re eD HRe He) as U. pose proof (E0_small _ U) as E0. fold (kE0 Re eD) in E0.
  destruct (quart (ku0 Re eD) (kE0 Re eD) ltac:(lra) ltac:(lits; lra)) as [Q1 Q2]. fold (kd0 Re eD) in Q1, Q2.
  assert (G1 : kg1 Re eD = ln (1 - kd0 Re eD / ku0 Re eD) + kE0 Re eD * (1 + ku0 Re eD) - kd0 Re eD).
  { rewrite E0e. unfold kg1. replace (ku1 Re eD) with (ku0 Re eD * (1 - kd0 Re eD / ku0 Re eD)).
    - rewrite ln_mult by lra. unfold kF1. ring.
    - unfold ku1, kF1, ku0. field. fold (ku0 Re eD). unfold ku0 in A. lra. }
  rewrite <- G1 in Q2.
  assert (Q3 : Rabs (kg1 Re eD) <= 0.0028).
  { eapply Rle_trans; [exact Q2|]. apply Rle_trans with (0.23 ^ 4); [apply pow_incr; lits; lra|lits; lra]. }
  assert (E1 : Rabs (kE1 Re eD) <= 0.00056).
  { unfold kE1. unfold Rdiv. rewrite Rabs_mult, Rabs_inv, (Rabs_right (1 + ku1 Re eD)) by lra. apply frac_le; [lra|]. lits; lra. }
  assert (E1' := proj1 (Rabs_le_between _ _) E1).
  destruct (quart (ku1 Re eD) (kE1 Re eD) ltac:(lra) ltac:(lits; lra)) as [R1 R2].
  fold (kb1 Re eD) in R1, R2. fold (kn1 Re eD) in R1, R2.
  assert (F2 : 0 < kF2 Re eD).
  { replace (kF2 Re eD) with ((kb1 Re eD * kF1 Re eD - kn1 Re eD) / kb1 Re eD) by (unfold kF2; field; lra). apply Rdiv_lt_0_compat; auto. }
  assert (U2 : kX1 Re eD + kF2 Re eD = ku1 Re eD * (1 - kn1 Re eD / kb1 Re eD / ku1 Re eD)).
  { unfold kF2. replace (ku1 Re eD * (1 - kn1 Re eD / kb1 Re eD / ku1 Re eD)) with (ku1 Re eD - kn1 Re eD / kb1 Re eD) by (field; split; lra). unfold ku1. ring. }
  assert (D1 : kn1 Re eD / kb1 Re eD <= 1).
  { apply frac_le; auto. unfold kn1, kb1. set (u := ku1 Re eD) in *. set (E := kE1 Re eD) in *.
    assert (EU : E * u <= 0.9).
    { replace (E * u) with (kg1 Re eD - E) by (unfold E, kE1, u; field; fold u; lra). apply Rabs_le_between in Q3. lits; lra. }
    destruct (Rle_or_lt 0 E) as [P|P].
    - replace ((1 + u + 0.5 * E) * E * u) with ((1 + u + 0.5 * E) * (E * u)) by ring.
      apply Rle_trans with ((1 + u + 0.5 * E) * 0.9); [apply Rmult_le_compat_l; lits; lra|]. lits; nra.
    - apply Rle_trans with 0. 
      + assert (0 <= (1 + u + 0.5 * E) * (- E) * u) by (apply Rmult_le_pos; [apply Rmult_le_pos|]; lits; lra). lra.
      + unfold kb1 in I. fold u E in I. lra. }
  splits; auto.
  - rewrite U2. replace (ku1 Re eD * (1 - kn1 Re eD / kb1 Re eD / ku1 Re eD)) with (ku1 Re eD - kn1 Re eD / kb1 Re eD) by (field; split; lra). lra.
  - rewrite U2, ln_mult by lra.
    replace (ln (ku1 Re eD) + ln (1 - kn1 Re eD / kb1 Re eD / ku1 Re eD) + kF2 Re eD - kX2 Re) with
      (ln (1 - kn1 Re eD / kb1 Re eD / ku1 Re eD) + kE1 Re eD * (1 + ku1 Re eD) - kn1 Re eD / kb1 Re eD).
    + eapply Rle_trans; [exact R2|]. replace (kE1 Re eD ^ 4) with (Rabs (kE1 Re eD) ^ 4).
      * apply Rle_trans with (0.00056 ^ 4); [apply pow_incr; split; [apply Rabs_pos|auto]|lits; lra].
      * replace (Rabs (kE1 Re eD) ^ 4) with ((Rabs (kE1 Re eD) ^ 2) ^ 2) by ring. rewrite pow2_abs. ring.
    + replace (kE1 Re eD * (1 + ku1 Re eD)) with (kg1 Re eD) by (unfold kE1; field; lra). unfold kg1, kF2. ring.
Qed.

Definition cm : R := 2.51 / sqrt cl3.
Lemma cm_vals : 0 < cm /\ 0.12 < cl1 /\ Rabs (1 / (3.7 * cm) - cl1) <= 1 / 10 ^ 15 /\ Rabs (1 / sqrt cl3 - 2 / ln 10) <= 1 / 10 ^ 13 /\
  Rabs (ln cm - cl2) <= 1 / 10 ^ 13.
Proof. unfold cm, cl1, cl2, cl3. splits; itv 0%nat. Qed.
Lemma clamond_residual Re eD : 2040 <= Re -> 0 <= eD <= 0.05 ->
  Rabs (colebrook_residual Re eD (kF2 Re eD / sqrt cl3)) <= 1 / 10 ^ 13 * (3 + ln Re).
Proof.
  intros HRe He. destruct (kF2_facts Re eD HRe He) as [P [U R2]]. destruct cm_vals as [M [C1 [C2 [C3 C4]]]].
  destruct cl_val as [V1 [V2 V3]].
  assert (Hs : 0 < sqrt cl3) by (apply sqrt_lt_R0; lits; lra). pose proof ln10_pos as L10.
  set (F := kF2 Re eD) in *. set (u := kX1 Re eD + F) in *. set (e := eD * Re). assert (e0 : 0 <= e) by (unfold e; posr).
  assert (Hu : u = cl1 * e + F) by (unfold u, kX1, e; ring).
  set (z := (1 / (3.7 * cm) - cl1) * e / u).
  assert (A : eD / 3.7 + 2.51 * (F / sqrt cl3) / Re = cm * u * (1 + z) / Re).
  { replace (cm * u * (1 + z)) with (cm * (u + (1 / (3.7 * cm) - cl1) * e)) by (unfold z; field; split; lits; lra).
    rewrite Hu. replace (2.51 * (F / sqrt cl3)) with (cm * F) by (unfold cm; field; lra). unfold e. field. splits; lits; lra. }
  assert (Z : Rabs z <= 1 / 10 ^ 14).
  { unfold z, Rdiv at 1. rewrite !Rabs_mult, Rabs_inv, (Rabs_right e), (Rabs_right u) by lra. apply frac_le; [lra|].
    apply Rle_trans with (1 / 10 ^ 15 * e); [apply Rmult_le_compat_r; auto|]. assert (0.12 * e <= u) by (rewrite Hu; lits; nra). lits; lra. }
  assert (Zb : Rabs (ln (1 + z)) <= 2 / 10 ^ 14). { pose proof (ln1p_abs z ltac:(lra)). lra. }
  assert (Zp : 0 < 1 + z). { apply Rabs_le_between in Z. lra. }
  assert (Pu : 0 < cm * u) by (apply Rmult_lt_0_compat; lra). assert (Pz : 0 < cm * u * (1 + z)) by (apply Rmult_lt_0_compat; auto).
  set (r2 := ln u + F - kX2 Re) in *. assert (Lu : ln u = r2 - F + (ln Re - cl2)) by (unfold r2, kX2; ring).
  assert (FR : F <= ln Re).
  { assert (0 < ln u) by (rewrite <- ln_1; apply ln_increasing; lra). apply Rabs_le_between in R2. lits; lra. }
  unfold colebrook_residual. rewrite A. unfold log10. rewrite ln_div by lra. rewrite (ln_mult (cm * u)), (ln_mult cm) by lra.
  rewrite Lu. clearbody r2 z.
  replace (F / sqrt cl3 + 2 * ((ln cm + (r2 - F + (ln Re - cl2)) + ln (1 + z) - ln Re) / ln 10)) with
    ((1 / sqrt cl3 - 2 / ln 10) * F + 2 / ln 10 * ((ln cm - cl2) + r2 + ln (1 + z))) by (field; lra).
  assert (T10 : 0 < 2 / ln 10 < 1). { split; itv 0%nat. }
  eapply Rle_trans; [apply Rabs_triang|]. rewrite !Rabs_mult, (Rabs_right F), (Rabs_right (2 / ln 10)) by lra.
  assert (B1 : Rabs (1 / sqrt cl3 - 2 / ln 10) * F <= 1 / 10 ^ 13 * ln Re) by (apply Rmult_le_compat; try lra; apply Rabs_pos).
  assert (B2 : 2 / ln 10 * Rabs (ln cm - cl2 + r2 + ln (1 + z)) <= 1 * (3 / 10 ^ 13)).
  { apply Rmult_le_compat; try lra. apply Rabs_pos. eapply Rle_trans; [apply Rabs_triang|].
    eapply Rle_trans; [apply Rplus_le_compat_r, Rabs_triang|]. lra. }
  lra.
Qed.
Lemma Clamond_sqrt Re eD : 2040 <= Re -> 0 <= eD <= 0.05 -> exists f, Clamond Re eD false = Ok f /\ 0 < f /\ 1 / sqrt f = kF2 Re eD / sqrt cl3.
Proof.
  intros HRe He. destruct (kF2_facts Re eD HRe He) as [P _].
  destruct (clamond_facts Re eD HRe He) as [A [B [C [D [_ [_ [F [G [H [I [J K]]]]]]]]]]]. destruct cl_val as [V1 [V2 V3]].
  rewrite Clamond_full_eq by auto. eexists. split; [reflexivity|].
  replace (kb1 Re eD / (kb1 Re eD * kF1 Re eD - kn1 Re eD)) with (/ kF2 Re eD).
  2:{ unfold kF2. set (b := kb1 Re eD) in *. set (n := kn1 Re eD) in *. set (f1 := kF1 Re eD) in *.
      replace (f1 - n / b) with ((b * f1 - n) / b) by (field; lra). field. split; lra. }
  set (F2 := kF2 Re eD) in *. clearbody F2. assert (0 < / F2) by (apply Rinv_0_lt_compat; auto).
  assert (Hs : 0 < sqrt cl3) by (apply sqrt_lt_R0; lits; lra).
  split; [apply Rmult_lt_0_compat; [lits; lra|apply Rmult_lt_0_compat; auto]|].
  rewrite sqrt_mult by (try apply Rmult_le_pos; lits; lra). rewrite sqrt_square by lra. field. lra.
Qed.
