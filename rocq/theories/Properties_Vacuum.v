(** Air leakage into vacuum equipment. *)
From Coq Require Import Reals String List Bool Lra Lia Psatz.
From Verif Require Import Base Model_Real Proofs_Real Proofs_Ln Interval Model_Equipment.
Open Scope R_scope.

(** *** Specification: depth of the vacuum in torr and in inches of mercury, volume in cubic feet *)
Definition torr (p : R) : R := p / (20265 / 152).
Definition ft3 (V : R) : R := V * (1953125000 / 55306341).
Lemma torr_form a b : a * (152 / 20265) - b * (152 / 20265) = torr (a - b). Proof. unfold torr. field. Qed.
Lemma torr_le a b : a <= b -> torr a <= torr b. Proof. unfold torr. lra. Qed.
Lemma ft3_pos V : 0 < V -> 0 < ft3 V. Proof. unfold ft3. lra. Qed.
Definition lb_h (m : R) : R := m * 0.45359237 / 3600.
Lemma lb_form x : x * 0.45359237 * (1 / 3600) = lb_h x. Proof. unfold lb_h. field. Qed.
Lemma lb_pos x : 0 < x -> 0 < lb_h x. Proof. unfold lb_h. lits. lra. Qed.
Lemma lb_lt x y : x < y -> lb_h x < lb_h y. Proof. unfold lb_h. lits. lra. Qed.
Lemma lb_le x y : x <= y -> lb_h x <= lb_h y. Proof. unfold lb_h. lits. lra. Qed.

(** *** Ryans and Croll *)
Definition croll (p : R) : R := if Rltb p 10 then 0.026 * Rpower p 0.34 else if Rltb p 100 then 0.032 * Rpower p 0.26 else 0.106.
(** the published correlation, in torr, cubic feet and pounds per hour *)
Theorem C100_Croll_formula V P P_atm : 0 < V -> P < P_atm -> vacuum_air_leakage_Ryans_Croll V P P_atm = Ok (lb_h (croll (torr (P_atm - P)) * Rpower (ft3 V) 0.6)).
Proof.
  intros HV HP. unfold vacuum_air_leakage_Ryans_Croll. cbv zeta. rewrite torr_form. fold (ft3 V). pose proof (ft3_pos V HV). assert (HT : 0 < torr (P_atm - P)) by (unfold torr; lra). set (p := torr _) in *. clearbody p. unfold croll.
  rcase; [|rcase]; rewrite ?(ppow_ok p) by lra; cbn [bind]; rewrite ppow_ok by auto; cbn [bind]; rewrite lb_form; reflexivity.
Qed.
Lemma croll_rises p q : 0 < p -> p <= q -> 0 < croll p <= croll q.
Proof.
  intros Hp Hq. assert (A : 0 < 0.026) by (lits; lra). assert (B : 0 < 0.032) by (lits; lra). assert (J1 : 0.026 * Rpower 10 0.34 < 0.032 * Rpower 10 0.26) by itv 0%nat. assert (J2 : 0.032 * Rpower 100 0.26 < 0.106) by itv 0%nat.
  assert (M1 : forall x y, 0 < x -> x <= y -> 0.026 * Rpower x 0.34 <= 0.026 * Rpower y 0.34) by (intros; apply Rmult_le_compat_l; [lra|apply Rpower_le_l; auto; lits; lra]).
  assert (M2 : forall x y, 0 < x -> x <= y -> 0.032 * Rpower x 0.26 <= 0.032 * Rpower y 0.26) by (intros; apply Rmult_le_compat_l; [lra|apply Rpower_le_l; auto; lits; lra]).
  unfold croll. split. { rcase; [posr|]. rcase; [posr|lits; lra]. }
  destruct (Rlt_le_dec p 10) as [P1|P1]; [rewrite (proj2 (Rltb_true p 10)) by auto|rewrite (proj2 (Rltb_false p 10)) by auto]; (destruct (Rlt_le_dec q 10) as [Q1|Q1]; [rewrite (proj2 (Rltb_true q 10)) by auto|rewrite (proj2 (Rltb_false q 10)) by auto]); try lra.
  - auto.
  - pose proof (M1 p 10 Hp ltac:(lra)). rcase; [pose proof (M2 10 q ltac:(lra) Q1)|pose proof (M2 10 100 ltac:(lra) ltac:(lra))]; lra.
  - destruct (Rlt_le_dec p 100); [rewrite (proj2 (Rltb_true p 100)) by auto|rewrite (proj2 (Rltb_false p 100)) by auto]; (rcase; try lra); [apply M2; lra|]. pose proof (M2 p 100 Hp ltac:(lra)). lra.
Qed.
(** more for a larger vessel and for a deeper vacuum *)
Theorem C100_Ryans_Croll V V' P P' P_atm : 0 < V -> V <= V' -> P' <= P -> P < P_atm ->
  exists m m', vacuum_air_leakage_Ryans_Croll V P P_atm = Ok m /\ vacuum_air_leakage_Ryans_Croll V' P' P_atm = Ok m' /\ 0 < m <= m' /\ (V < V' -> m < m').
Proof.
  intros HV HVV HP HPA. rewrite !C100_Croll_formula by lra. do 2 eexists. split; [reflexivity|]. split; [reflexivity|]. pose proof (ft3_pos V HV). assert (HT : 0 < torr (P_atm - P)) by (unfold torr; lra). destruct (croll_rises (torr (P_atm - P)) (torr (P_atm - P')) HT) as [C1 C2]; [apply torr_le; lra|].
  assert (F : Rpower (ft3 V) 0.6 <= Rpower (ft3 V') 0.6) by (apply Rpower_le_l; auto; [unfold ft3|lits]; lra). pose proof (Rpower_pos (ft3 V) 0.6). split; [split|].
  - apply lb_pos. apply Rmult_lt_0_compat; auto.
  - apply lb_le. apply Rmult_le_compat; lra.
  - intros L. apply lb_lt. apply Rlt_le_trans with (croll (torr (P_atm - P)) * Rpower (ft3 V') 0.6); [|apply Rmult_le_compat_r; lra]. apply Rmult_lt_compat_l; auto. apply Rpower_lt_l; auto; [unfold ft3|lits]; lra.
Qed.
(** no vacuum, no leakage *)
Theorem C100_Ryans_Croll_none V P : 0 < V -> vacuum_air_leakage_Ryans_Croll V P P = Ok 0.
Proof.
  intros HV. unfold vacuum_air_leakage_Ryans_Croll. cbv zeta. rewrite Rminus_diag_eq by auto. rewrite (proj2 (Rltb_true 0 10)) by lra. rewrite ppow_0 by (lits; lra). cbn [bind]. rewrite ppow_ok by (fold (ft3 V); now apply ft3_pos). cbn [bind]. f_equal. ring.
Qed.

(** *** Seider: from a vacuum of one torr on *)
Definition seider (p : R) : R := 0.0289 + 0.03088 * ln p - 0.0005733 * ln p * ln p.
(** the published correlation, in torr, cubic feet and pounds per hour *)
Theorem C100_Seider_formula V P P_atm : 0 < V -> P < P_atm -> vacuum_air_leakage_Seider V P P_atm = Ok (lb_h (5 + seider (torr (P_atm - P)) * Rpower (ft3 V) 0.66)).
Proof.
  intros HV HP. unfold vacuum_air_leakage_Seider. cbv zeta. rewrite torr_form. fold (ft3 V). pose proof (ft3_pos V HV). assert (HT : 0 < torr (P_atm - P)) by (unfold torr; lra). rewrite plog_ok by auto. cbn [bind]. rewrite ppow_ok by auto. cbn [bind]. rewrite lb_form. reflexivity.
Qed.
Theorem C100_Seider V V' P P' P_atm : 0 < V -> V <= V' -> P' <= P -> 1 <= torr (P_atm - P) -> torr (P_atm - P') <= 10000000000 ->
  exists m m', vacuum_air_leakage_Seider V P P_atm = Ok m /\ vacuum_air_leakage_Seider V' P' P_atm = Ok m' /\ lb_h 5 < m <= m' /\ (P' < P \/ V < V' -> m < m').
Proof.
  intros HV HVV HP H1 H2. assert (P < P_atm) by (unfold torr in H1; lra). rewrite !C100_Seider_formula by lra. do 2 eexists. split; [reflexivity|]. split; [reflexivity|]. pose proof (ft3_pos V HV).
  set (p := torr (P_atm - P)) in *. set (q := torr (P_atm - P')) in *. assert (Hpq : p <= q) by (apply torr_le; lra). assert (HpqS : P' < P -> p < q) by (unfold p, q, torr; lra). clearbody p q.
  assert (LB : ln 10000000000 < 23.1) by itv 0%nat. assert (L : forall x, 1 <= x <= 10000000000 -> 0 <= ln x <= 23.1). { intros x Hx. split; [rewrite <- ln_1; destruct Hx as [[G| <-] _]; [left; apply ln_increasing|]; lra|]. apply Rle_trans with (ln 10000000000); [|lra]. destruct Hx as [Hx1 [G| ->]]; [left; apply ln_increasing|]; lra. }
  assert (S : forall x y, 1 <= x -> x < y -> y <= 10000000000 -> seider x < seider y). { intros x y Hx Hxy Hy. pose proof (L x ltac:(lra)) as A1. pose proof (L y ltac:(lra)) as A2. assert (A3 : ln x < ln y) by (apply ln_increasing; lra). unfold seider. set (a := ln x) in *. set (b := ln y) in *. clearbody a b. clear - A1 A2 A3. lits. assert (0 < (b - a) * (3088 / 100000 - 5733 / 10000000 * (a + b))) by (apply Rmult_lt_0_compat; lra). lra. }
  assert (S0 : 0 < seider p). { pose proof (L p ltac:(lra)) as A. unfold seider. set (a := ln p) in *. clearbody a. clear - A. lits. assert (0 <= a * (3088 / 100000 - 5733 / 10000000 * a)) by (apply Rmult_le_pos; lra). lra. }
  assert (S1 : seider p <= seider q) by (destruct Hpq as [G| ->]; [left; apply S|]; lra). assert (F : Rpower (ft3 V) 0.66 <= Rpower (ft3 V') 0.66) by (apply Rpower_le_l; auto; [unfold ft3|lits]; lra). pose proof (Rpower_pos (ft3 V) 0.66). split; [split|].
  - apply lb_lt. assert (0 < seider p * Rpower (ft3 V) 0.66) by (apply Rmult_lt_0_compat; auto). lra.
  - apply lb_le. apply Rplus_le_compat_l. apply Rmult_le_compat; lra.
  - intros [G|G]; apply lb_lt; apply Rplus_lt_compat_l.
    + apply Rlt_le_trans with (seider q * Rpower (ft3 V) 0.66); [apply Rmult_lt_compat_r; auto; apply S; auto; lra|apply Rmult_le_compat_l; lra].
    + apply Rlt_le_trans with (seider p * Rpower (ft3 V') 0.66); [apply Rmult_lt_compat_l; auto; apply Rpower_lt_l; auto; [unfold ft3|lits]; lra|apply Rmult_le_compat_r; [left; apply Rpower_pos|auto]].
Qed.
(** in a weaker vacuum the formula turns negative: a 10 m3 vessel 0.13 Pa below the atmosphere is said to blow air out *)
Theorem C100_Seider_refuted : exists m, vacuum_air_leakage_Seider 10 (100000 - 20265 / 152 / 1000) 100000 = Ok m /\ m < 0.
Proof.
  rewrite C100_Seider_formula by lra. eexists. split; [reflexivity|]. replace (torr (100000 - (100000 - 20265 / 152 / 1000))) with (1 / 1000) by (unfold torr; field). unfold lb_h, seider, ft3. itv 0%nat.
Qed.

(** *** Heat Exchange Institute chart *)
Definition hei (p : R) : R * R :=
  if Rleb p 1 then (0.6667235169997174, - 3.71246576520232) else if Rleb p 3 then (0.664489357445796, - 3.0147277548691274) else if Rleb p 20 then (0.6656780453394583, - 2.34007321331419)
  else if Rleb p 90 then (0.663080000739313, - 1.9278288516732665) else (0.6658471905826482, - 1.6641585778506027).
(** the published correlation, in torr, cubic feet and pounds per hour *)
Theorem C100_HEI_formula V P P_atm : vacuum_air_leakage_HEI2633 V P P_atm = Ok (lb_h (exp (snd (hei (torr (P_atm - P))) + ln (Rmax 10 (ft3 V)) * fst (hei (torr (P_atm - P)))))).
Proof.
  unfold vacuum_air_leakage_HEI2633. cbv zeta. rewrite torr_form. fold (ft3 V). set (p := torr _). clearbody p.
  assert (E : (if Rltb (ft3 V) 10 then let V := 10 in Ok V else Ok (ft3 V)) = Ok (Rmax 10 (ft3 V))) by (rcase; [rewrite Rmax_left by lra|rewrite Rmax_right by lra]; reflexivity). cbv zeta in E. rewrite E. cbn [bind]. rewrite plog_ok by (pose proof (Rmax_l 10 (ft3 V)); lra). cbn [bind].
  unfold hei. rcase; [|rcase; [|rcase; [|rcase]]]; cbn [bind fst snd]; rewrite lb_form; reflexivity.
Qed.
Theorem C100_HEI V V' P P' P_atm : V <= V' -> V' <= 1000000000000 -> P' <= P ->
  exists m m', vacuum_air_leakage_HEI2633 V P P_atm = Ok m /\ vacuum_air_leakage_HEI2633 V' P' P_atm = Ok m' /\ 0 < m <= m'.
Proof.
  intros HV HV' HP. rewrite !C100_HEI_formula. do 2 eexists. split; [reflexivity|]. split; [reflexivity|]. split; [apply lb_pos, exp_pos|]. apply lb_le.
  set (p := torr (P_atm - P)). set (q := torr (P_atm - P')). assert (Hpq : p <= q) by (apply torr_le; lra). clearbody p q.
  assert (H1 : 10 <= Rmax 10 (ft3 V)) by apply Rmax_l. assert (H2 : Rmax 10 (ft3 V) <= Rmax 10 (ft3 V')) by (apply Rle_max_compat_l; unfold ft3; lra). assert (H3 : Rmax 10 (ft3 V') <= 100000000000000) by (apply Rmax_lub; unfold ft3; lra).
  set (x := Rmax 10 (ft3 V)) in *. set (y := Rmax 10 (ft3 V')) in *. clearbody x y.
  assert (LB : ln 100000000000000 < 33) by itv 0%nat. assert (LA : 2 < ln 10) by itv 0%nat.
  assert (L1 : ln 10 <= ln x) by (destruct H1 as [G|G]; [left; apply ln_increasing|rewrite <- G]; lra). assert (L2 : ln x <= ln y) by (destruct H2 as [G|G]; [left; apply ln_increasing|rewrite <- G]; lra). assert (L3 : ln y <= ln 100000000000000) by (destruct H3 as [G|G]; [left; apply ln_increasing|rewrite G]; lra).
  set (a := ln x) in *. set (b := ln y) in *. assert (A : 2 < a <= b /\ b < 33) by lra. clear - A Hpq. clearbody a b.
  assert (K : snd (hei p) + a * fst (hei p) <= snd (hei q) + b * fst (hei q)).
  { unfold hei. repeat match goal with |- context [Rleb ?u ?v] => destruct (Rleb u v) eqn:?E; cbn [fst snd] end; rewrite ?Rleb_true, ?Rleb_false in *; lits; lra. }
  destruct K as [K|K]; [left; now apply exp_increasing|rewrite K; lra].
Qed.

(** *** Worthington table *)
Theorem C100_Worthington P P' P_atm : P' <= P ->
  exists m m' n, vacuum_air_leakage_Coker_Worthington P P_atm true = Ok m /\ vacuum_air_leakage_Coker_Worthington P' P_atm true = Ok m' /\ vacuum_air_leakage_Coker_Worthington P P_atm false = Ok n /\
  lb_h 10 <= n < m /\ m <= m' <= lb_h 40.
Proof.
  intros HP. unfold vacuum_air_leakage_Coker_Worthington. cbv zeta. set (p := P_atm / _ - P / _). set (q := P_atm / _ - P' / _). assert (Hpq : p <= q) by (unfold p, q; lra). clearbody p q.
  assert (F : forall p h : R, exists x, (if Rltb 8 p then Ok 40 else if Rltb 5 p then Ok 30 else if Rltb 3 p then Ok 25 else Ok 20) = Ok x /\ (p <= 3 /\ x = 20 \/ 3 < p <= 5 /\ x = 25 \/ 5 < p <= 8 /\ x = 30 \/ 8 < p /\ x = 40)) by (intros; rcase; [|rcase; [|rcase]]; eexists; (split; [reflexivity|]); lra).
  assert (F' : forall p h : R, exists x, (if Rltb 8 p then Ok 30 else if Rltb 5 p then Ok 25 else if Rltb 3 p then Ok 20 else Ok 10) = Ok x /\ (p <= 3 /\ x = 10 \/ 3 < p <= 5 /\ x = 20 \/ 5 < p <= 8 /\ x = 25 \/ 8 < p /\ x = 30)) by (intros; rcase; [|rcase; [|rcase]]; eexists; (split; [reflexivity|]); lra).
  destruct (F p 0) as (x & E1 & X1). destruct (F q 0) as (y & E2 & X2). destruct (F' p 0) as (z & E3 & X3). rewrite E1, E2, E3. cbn [bind]. rewrite !lb_form. do 3 eexists. splits; try reflexivity; [apply lb_le|apply lb_lt|apply lb_le|apply lb_le]; lra.
Qed.
Example C100_case : 1 <= torr (101325 - 10000) /\ torr (101325 - 5000) <= 10000000000 /\ exists m, vacuum_air_leakage_Ryans_Croll 10 10000 101325 = Ok m /\ 0 < m.
Proof.
  splits; try (unfold torr; lra). destruct (C100_Ryans_Croll 10 10 10000 10000 101325) as (m & m2 & E & _ & B & _); try lra. exists m. split; auto. lra.
Qed.

Print Assumptions C100_Croll_formula.
Print Assumptions C100_Ryans_Croll.
Print Assumptions C100_Ryans_Croll_none.
Print Assumptions C100_Seider_formula.
Print Assumptions C100_Seider.
Print Assumptions C100_Seider_refuted.
Print Assumptions C100_HEI_formula.
Print Assumptions C100_HEI.
Print Assumptions C100_Worthington.
