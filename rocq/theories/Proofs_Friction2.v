(** Clamond's iteration and Colebrook's closed form. *)
From Coq Require Import Reals Lra Lia QArith Qreals List String.
From Coquelicot Require Import Coquelicot.
From Verif Require Import Base Model_Real Interval Proofs_Real Model_Friction Proofs_Friction.
Open Scope R_scope.

Lemma ln_third u : 0 < u -> ln u - 0.2 <= (1 + u) / 3.
Proof.
  intros H. pose proof (ln_tangent u 4 H ltac:(lra)) as T. assert (L : ln 4 < 1.39) by itv 0%nat.
  lits; lra.
Qed.
Lemma frac_le a b c : 0 < c -> a <= b * c -> a / c <= b.
Proof. intros. apply <- Rle_div_l; auto. Qed.

(** one stage: the correction of [u] with relative size below a third *)
Lemma stage u g : 4 <= u -> - 1 <= g -> g <= (1 + u) / 3 ->
  let E := g / (1 + u) in let b := 1 + u + E * (1 + 1 / 3 * E) in
  0 < b /\ -0.2 <= E <= 1 / 3 /\ (0 <= g -> 0 <= (1 + u + 0.5 * E) * E * u / b <= E * u) /\
  (g <= 0 -> (1 + u + 0.5 * E) * E * u <= 0).
Proof.
  intros Hu G1 G2. cbv zeta.
  assert (HE : -0.2 <= g / (1 + u) <= 1 / 3).
  { split; [|apply frac_le; lra]. apply -> Rle_div_r; lits; lra. }
  set (E := g / (1 + u)) in *.
  assert (HEg : E * (1 + u) = g) by (unfold E; field; lra).
  clearbody E. assert (HB : 0 < 1 + u + E * (1 + 1 / 3 * E)) by (lits; nra).
  split; auto. split; auto. split.
  - intros Hg. assert (0 <= E) by nra. split.
    + apply Rdiv_le_0_compat; auto. apply Rmult_le_pos; [apply Rmult_le_pos|]; lits; nra.
    + apply frac_le; auto. assert (1 + u + 0.5 * E <= 1 + u + E * (1 + 1 / 3 * E)) by (lits; nra).
      replace (E * u * (1 + u + E * (1 + 1 / 3 * E))) with ((1 + u + E * (1 + 1 / 3 * E)) * (E * u)) by ring.
      rewrite Rmult_assoc. apply Rmult_le_compat_r; auto. apply Rmult_le_pos; lra.
  - intros Hg. assert (E <= 0) by nra. assert (0 <= (1 + u + 0.5 * E) * (- E) * u).
    { apply Rmult_le_pos; [apply Rmult_le_pos|]; lits; lra. }
    lra.
Qed.

Definition cl1 : R := 0.1239681863354175460160858261654858382699.
Definition cl2 : R := 0.7793974884556819406441139701653776731705.
Definition cl3 : R := 1.325474527619599502640416597148504422899.
Lemma cl_val : 0.1239 < cl1 < 0.124 /\ 0.7793 < cl2 < 0.7794 /\ 1.3 < cl3 < 1.4.
Proof. unfold cl1, cl2, cl3. splits; itv 0%nat. Qed.

(** [clamond] with the intermediate quantities named *)
Section Clamond.
Context (Re eD : R).
Definition kX1 := eD * Re * cl1.
Definition kX2 := ln Re - cl2.
Definition ku0 := kX1 + (kX2 - 0.2).
Definition kE0 := (ln ku0 - 0.2) / (1 + ku0).
Definition kd0 := (1 + ku0 + 0.5 * kE0) * kE0 * ku0 / (1 + ku0 + kE0 * (1 + 1 / 3 * kE0)).
Definition kF1 := kX2 - 0.2 - kd0.
Definition ku1 := kX1 + kF1.
Definition kg1 := ln ku1 + kF1 - kX2.
Definition kE1 := kg1 / (1 + ku1).
Definition kb1 := 1 + ku1 + kE1 * (1 + 1 / 3 * kE1).
Definition kn1 := (1 + ku1 + 0.5 * kE1) * kE1 * ku1.
End Clamond.

Lemma clamond_facts Re eD : 2040 <= Re -> 0 <= eD <= 0.05 ->
  4 <= ku0 Re eD /\ 0 <= kE0 Re eD <= 1 / 3 /\ 0 < 1 + ku0 Re eD + kE0 Re eD * (1 + 1 / 3 * kE0 Re eD) /\
  0 <= kd0 Re eD <= kE0 Re eD * ku0 Re eD /\ kE0 Re eD * (1 + ku0 Re eD) = ln (ku0 Re eD) - 0.2 /\
  0 < kX2 Re - ln (ku0 Re eD) /\ 0 < kF1 Re eD /\ 4 <= ku1 Re eD <= ku0 Re eD /\
  -1 <= kg1 Re eD <= (1 + ku1 Re eD) / 3 /\ 0 < kb1 Re eD /\ -0.2 <= kE1 Re eD <= 1 / 3 /\ 
  0 < kb1 Re eD * kF1 Re eD - kn1 Re eD.
Proof.
  intros HRe He. destruct cl_val as [C1 [C2 C3]]. pose proof ln_2040 as L0.
  assert (L1 : ln 2040 <= ln Re) by (apply ln_le_compat; lra). pose proof (ln_small Re HRe) as L2.
  assert (X1 : 0 <= kX1 Re eD <= 0.0062 * Re).
  { unfold kX1. split; [posr|]. replace (eD * Re * cl1) with (eD * cl1 * Re) by ring. apply Rmult_le_compat_r; [lra|].
    apply Rle_trans with (0.05 * 0.124); [|lits; lra]. apply Rmult_le_compat; lits; lra. }
  assert (U : 6.6 <= ku0 Re eD <= 0.01 * Re) by (unfold ku0, kX2; lits; lra).
  assert (LU : 1.8 <= ln (ku0 Re eD)).
  { apply Rle_trans with (ln 6.6); [left; itv 0%nat|]. apply ln_le_compat; lits; lra. }
  pose proof (ln_third (ku0 Re eD) ltac:(lits; lra)) as T.
  destruct (stage (ku0 Re eD) (ln (ku0 Re eD) - 0.2) ltac:(lits; lra) ltac:(lits; lra) T) as [B [E [D _]]].
  fold (kE0 Re eD) in *. fold (kd0 Re eD) in *. specialize (D ltac:(lits; lra)).
  assert (E0 : 0 <= kE0 Re eD) by (unfold kE0; apply Rdiv_le_0_compat; lits; lra).
  assert (EE : kE0 Re eD * (1 + ku0 Re eD) = ln (ku0 Re eD) - 0.2) by (unfold kE0; field; lits; lra).
  assert (K : 0 < kX2 Re - ln (ku0 Re eD)).
  { unfold kX2. assert (ln (ku0 Re eD) < ln (Re * exp (-0.7794))).
    { apply ln_increasing; [lits; lra|]. assert (0.45 < exp (-0.7794)) by itv 0%nat.
      apply Rle_lt_trans with (0.01 * Re); [lits; lra|]. rewrite (Rmult_comm Re). apply Rmult_lt_compat_r; lits; lra. }
    rewrite ln_mult in H by (try apply exp_pos; lra). rewrite ln_exp in H. lits; lra. }
  assert (F : 0 < kF1 Re eD).
  { unfold kF1. lra. }
  assert (U1 : 2 / 3 * ku0 Re eD <= ku1 Re eD <= ku0 Re eD).
  { replace (ku1 Re eD) with (ku0 Re eD - kd0 Re eD) by (unfold ku1, ku0, kF1; ring). split; [|lra].
    assert (kE0 Re eD * ku0 Re eD <= 1 / 3 * ku0 Re eD) by (apply Rmult_le_compat_r; lits; lra). lra. }
  assert (G : ln (ku1 Re eD) - ln (ku0 Re eD) <= kg1 Re eD <= ln (ku1 Re eD) - 0.2).
  { unfold kg1, kF1. split; [|lra]. lra. }
  assert (LL : - 1 <= ln (ku1 Re eD) - ln (ku0 Re eD)).
  { assert (A : ln (2 / 3 * ku0 Re eD) <= ln (ku1 Re eD)) by (apply ln_le_compat; lits; lra).
    rewrite ln_mult in A by (lits; lra). assert (-1 < ln (2 / 3)) by itv 0%nat. lra. }
  assert (U2 : 4 <= ku1 Re eD) by (lits; lra).
  pose proof (ln_third (ku1 Re eD) ltac:(lits; lra)) as T1.
  destruct (stage (ku1 Re eD) (kg1 Re eD) U2 ltac:(lra) ltac:(lra)) as [B1 [E1 [D1 D2]]].
  fold (kE1 Re eD) in *. fold (kb1 Re eD) in *.
  assert (LM : ln (ku1 Re eD) <= ln (ku0 Re eD)) by (apply ln_le_compat; lits; lra).
  assert (EE1 : kE1 Re eD * (1 + ku1 Re eD) = kg1 Re eD) by (unfold kE1; field; lits; lra).
  splits; try lra.
  fold (kn1 Re eD) in *. destruct (Rle_or_lt 0 (kg1 Re eD)) as [P|P].
  - destruct (D1 P) as [_ D3]. assert (kn1 Re eD <= kE1 Re eD * ku1 Re eD * kb1 Re eD).
    { exact (proj1 (Rle_div_l _ _ _ B1) D3). }
    assert (Q : kE1 Re eD * ku1 Re eD < kF1 Re eD).
    { assert (0 <= kE1 Re eD) by (unfold kE1; apply Rdiv_le_0_compat; lra). unfold kg1 in EE1. lra. }
    assert (kE1 Re eD * ku1 Re eD * kb1 Re eD < kF1 Re eD * kb1 Re eD) by (apply Rmult_lt_compat_r; auto). lra.
  - specialize (D2 ltac:(lra)). fold (kn1 Re eD) in D2. assert (0 < kb1 Re eD * kF1 Re eD) by (apply Rmult_lt_0_compat; lra). lra.
Qed.

Lemma Clamond_fast_eq Re eD : 2040 <= Re -> 0 <= eD <= 0.05 ->
  Clamond Re eD true = Ok (cl3 / (kF1 Re eD * kF1 Re eD)).
Proof.
  intros HRe He. destruct (clamond_facts Re eD HRe He) as [A [B [C [D [_ [_ [F [G [H [I [J K]]]]]]]]]]].
  unfold Clamond. rewrite (plog_ok Re) by lra. cbn [bind]; cbv beta zeta.
  fold cl1 cl2 cl3. fold (kX1 Re eD) (kX2 Re). fold (ku0 Re eD). rewrite plog_ok by lra. cbn [bind].
  rewrite pdiv_ok by lra. cbn [bind]. fold (kE0 Re eD). rewrite pdiv_ok by (apply Rgt_not_eq; exact C). cbn [bind].
  fold (kd0 Re eD). fold (kF1 Re eD). rewrite pdiv_ok by (apply Rgt_not_eq; apply Rmult_lt_0_compat; auto). reflexivity.
Qed.
Lemma Clamond_full_eq Re eD : 2040 <= Re -> 0 <= eD <= 0.05 ->
  Clamond Re eD false = Ok (cl3 * (kb1 Re eD / (kb1 Re eD * kF1 Re eD - kn1 Re eD) * (kb1 Re eD / (kb1 Re eD * kF1 Re eD - kn1 Re eD)))).
Proof.
  intros HRe He. destruct (clamond_facts Re eD HRe He) as [A [B [C [D [_ [_ [F [G [H [I [J K]]]]]]]]]]].
  unfold Clamond. rewrite (plog_ok Re) by lra. cbn [bind]; cbv beta zeta.
  fold cl1 cl2 cl3. fold (kX1 Re eD) (kX2 Re). fold (ku0 Re eD). rewrite plog_ok by lra. cbn [bind].
  rewrite pdiv_ok by lra. cbn [bind]. fold (kE0 Re eD). rewrite pdiv_ok by (apply Rgt_not_eq; exact C). cbn [bind].
  fold (kd0 Re eD). fold (kF1 Re eD). fold (ku1 Re eD). rewrite plog_ok by lra. cbn [bind].
  fold (kg1 Re eD). rewrite pdiv_ok by lra. cbn [bind]. fold (kE1 Re eD). fold (kb1 Re eD). fold (kn1 Re eD).
  rewrite pdiv_ok by (apply Rgt_not_eq; exact K). reflexivity.
Qed.
Lemma Clamond_pos Re eD fast : 2040 <= Re -> 0 <= eD <= 0.05 -> gives_pos (Clamond Re eD fast).
Proof.
  intros HRe He. destruct (clamond_facts Re eD HRe He) as [A [B [C [D [_ [_ [F [G [H [I [J K]]]]]]]]]]].
  destruct cl_val as [_ [_ C3]]. destruct fast.
  - rewrite Clamond_fast_eq by auto. apply gives_ok. apply Rdiv_lt_0_compat; [lits; lra|]. apply Rmult_lt_0_compat; auto.
  - rewrite Clamond_full_eq by auto. apply gives_ok. apply Rmult_lt_0_compat; [lits; lra|].
    apply Rmult_lt_0_compat; apply Rdiv_lt_0_compat; auto.
Qed.
