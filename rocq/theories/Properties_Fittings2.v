(** Contractions, diffusers and bends. *)
From Coq Require Import Reals Lra Lia String List Bool QArith Qreals.
From Verif Require Import Base Model_Real Proofs_Real Interval Sums Model_Numerics Proofs_Numerics Proofs_Tables Proofs_Tables3 Model_Friction Model_Fittings Properties_Core.
From Coquelicot Require Import Rcomplements.
Import ListNotations.
Open Scope R_scope.
Open Scope string_scope.

(** ** Specification: mean velocity of a flow [Q] in a round pipe, and the energy lost per unit mass with loss
    coefficient [K] based on velocity [V] *)
Definition velocity (Q D : R) : R := Q / (PI / 4 * D ^ 2).
Definition head (K V : R) : R := K * (V ^ 2 / 2).

Lemma Ok_inj {A} (x y : A) : Ok x = Ok y -> x = y.
Proof. congruence. Qed.
Lemma ratio01 a b : 0 < a -> a <= b -> 0 < a / b <= 1.
Proof. intros. split. apply Rdiv_lt_0_compat; lra. apply Rle_div_l; lra. Qed.
Lemma div_lt_one a b : 0 < a -> a < b -> a / b < 1.
Proof. intros. apply Rmult_lt_reg_r with b; [lra|]. unfold Rdiv. rewrite Rmult_assoc, Rinv_l by lra. lra. Qed.

(** ** Sudden expansion *)

(** The loss of a sudden expansion is the Borda-Carnot loss: half the square of the velocity difference. *)
Theorem C78_Borda_Carnot : forall Q D1 D2 Re fd e, 0 < D1 -> 0 < D2 ->
  exists K, diffuser_sharp D1 D2 Re fd e "Rennels" = Ok K /\ head K (velocity Q D1) = (velocity Q D1 - velocity Q D2) ^ 2 / 2.
Proof.
  intros Q D1 D2 Re fd e H1 H2. unfold diffuser_sharp. rewrite pdiv_ok by lra. cbn [bind].
  change (String.eqb "Rennels" "Rennels") with true. cbv iota zeta. eexists; split; [reflexivity|].
  unfold head, velocity. pose proof PI_RGT_0. field. splits; lra.
Qed.
(** Over an expansion it lies in [0, 1), vanishes only without a change of diameter, and grows with the expansion. *)
Theorem C78_diffuser_sharp : forall D1 D2 Re fd e K, 0 < D1 <= D2 -> diffuser_sharp D1 D2 Re fd e "Rennels" = Ok K ->
  0 <= K < 1 /\ (K = 0 <-> D1 = D2) /\
  (forall D3 K', D2 < D3 -> diffuser_sharp D1 D3 Re fd e "Rennels" = Ok K' -> K < K').
Proof.
  intros D1 D2 Re fd e K H. unfold diffuser_sharp. rewrite pdiv_ok by lra. cbn [bind].
  change (String.eqb "Rennels" "Rennels") with true. cbv iota zeta. intros E. injection E as <-.
  pose proof (ratio01 D1 D2 ltac:(lra) ltac:(lra)) as B. set (b := D1 / D2) in *.
  assert (B2 : 0 < b * b <= 1) by nra. split; [set (c := b * b) in *; nra|]. split; [split|].
  - intros E. assert (b = 1). { apply Rmult_integral in E. assert (b * b = 1) by lra. nra. } unfold b in *. apply Rmult_eq_compat_r with (r := D2) in H0. unfold Rdiv in H0. rewrite Rmult_assoc, Rinv_l in H0 by lra. lra.
  - intros E. assert (b = 1) by (unfold b; rewrite E; field; lra). rewrite H0. ring.
  - intros D3 K' H3. rewrite pdiv_ok by lra. cbn [bind]. intros E. injection E as <-.
    pose proof (ratio01 D1 D3 ltac:(lra) ltac:(lra)) as B'.
    assert (L : D1 / D3 < b) by (unfold b, Rdiv; apply Rmult_lt_compat_l; [lra|apply Rinv_lt_contravar; [apply Rmult_lt_0_compat; lra|lra]]).
    set (b' := D1 / D3) in *. assert (b' * b' < b * b) by nra. assert (0 < b' * b') by nra. apply Rmult_le_0_lt_compat; lra.
Qed.
Example C78_ex_diffuser : diffuser_sharp 1 2 None None 0 "Rennels" = Ok 0.5625.
Proof. unfold diffuser_sharp. rewrite pdiv_ok by lra. cbn [bind]. change (String.eqb "Rennels" "Rennels") with true. cbv iota zeta. f_equal. lits. lra. Qed.

(** ** Sudden contraction *)
Definition Rennels (b lam c : R) : R := c * (1 - b ^ 5) * lam ^ 2 + (lam - 1) ^ 2.
Definition lam (k b : R) : R := 1 + 0.622 * k * (1 - 0.215 * b ^ 2 - 0.785 * b ^ 5).
Lemma pow_le1 b n : 0 <= b <= 1 -> 0 <= b ^ n <= 1.
Proof. intros H. induction n; simpl; [lra|]. nra. Qed.
Lemma contraction_sharp_eq D1 D2 fd Re e : D1 <> 0 -> contraction_sharp D1 D2 fd Re e "Rennels" = Ok (Rennels (D2 / D1) (lam 1 (D2 / D1)) 0.0696).
Proof.
  intros H. unfold contraction_sharp. change (String.eqb "Rennels" "Rennels") with true. cbv iota zeta.
  rewrite pdiv_ok by lra. cbn [bind]. f_equal. unfold Rennels, lam. ring.
Qed.
Lemma Rennels_mono b b' k k' c c' : 0 <= b <= b' -> b' <= 1 -> 0 <= k' <= k -> 0 <= c' <= c ->
  Rennels b' (lam k' b') c' <= Rennels b (lam k b) c /\ 0 <= Rennels b' (lam k' b') c'.
Proof.
  intros B B1 K C. unfold Rennels, lam.
  pose proof (pow_le1 b 2 ltac:(lra)). pose proof (pow_le1 b 5 ltac:(lra)). pose proof (pow_le1 b' 2 ltac:(lra)). pose proof (pow_le1 b' 5 ltac:(lra)).
  pose proof (pow_incr b b' 2 ltac:(lra)). pose proof (pow_incr b b' 5 ltac:(lra)).
  set (x2 := b ^ 2) in *. set (y2 := b' ^ 2) in *. set (x5 := b ^ 5) in *. set (y5 := b' ^ 5) in *.
  set (g := 1 - 0.215 * x2 - 0.785 * x5). set (g' := 1 - 0.215 * y2 - 0.785 * y5).
  assert (G : 0 <= g' <= g) by (unfold g, g'; lits; lra). clearbody g g'.
  assert (M : 0 <= k' * g' <= k * g). { split. apply Rmult_le_pos; lra. apply Rmult_le_compat; lra. }
  replace (0.622 * k * g) with (0.622 * (k * g)) by ring. replace (0.622 * k' * g') with (0.622 * (k' * g')) by ring.
  set (m := k * g) in *. set (m' := k' * g') in *. clearbody m m'.
  assert (L : 0 <= 0.622 * m' <= 0.622 * m) by (lits; lra). set (u := 0.622 * m) in *. set (u' := 0.622 * m') in *. clearbody u u'.
  assert (Q : (1 + u') ^ 2 <= (1 + u) ^ 2) by (apply pow_incr; lra). assert (Q0 : 0 <= (1 + u') ^ 2) by (apply pow2_ge_0).
  assert (Q1 : (1 + u' - 1) ^ 2 <= (1 + u - 1) ^ 2) by (apply pow_incr; lra). assert (Q2 : 0 <= (1 + u' - 1) ^ 2) by (apply pow2_ge_0).
  assert (P : 0 <= c' * (1 - y5) <= c * (1 - x5)). { split. apply Rmult_le_pos; lra. apply Rmult_le_compat; lra. }
  split.
  - apply Rplus_le_compat; auto. apply Rmult_le_compat; lra.
  - apply Rplus_le_le_0_compat; auto. apply Rmult_le_pos; lra.
Qed.
(** A sudden contraction loses between nothing and 0.571 velocity heads of the smaller pipe; nothing only without a
    change of diameter; and more the smaller the outlet is. *)
Theorem C78_contraction_sharp : forall D1 D2 fd Re e K, 0 < D2 <= D1 -> contraction_sharp D1 D2 fd Re e "Rennels" = Ok K ->
  0 <= K <= 0.571 /\ (K = 0 <-> D1 = D2) /\
  (forall D3 K', 0 < D3 <= D2 -> contraction_sharp D1 D3 fd Re e "Rennels" = Ok K' -> K <= K').
Proof.
  intros D1 D2 fd Re e K H. rewrite contraction_sharp_eq by lra. intros E. injection E as <-.
  pose proof (ratio01 D2 D1 ltac:(lra) ltac:(lra)) as B. splits.
  - apply (Rennels_mono (D2 / D1) (D2 / D1) 1 1 0.0696 0.0696); lits; lra.
  - eapply Rle_trans. apply (proj1 (Rennels_mono 0 (D2 / D1) 1 1 0.0696 0.0696 ltac:(lra) ltac:(lra) ltac:(lra) ltac:(lits; lra))).
    unfold Rennels, lam. lits. lra.
  - split; [|intros E; assert (Q : D2 / D1 = 1) by (rewrite E; field; lra); rewrite Q; unfold Rennels, lam; lits; lra].
    intros E. destruct (Rle_lt_or_eq_dec _ _ (proj2 H)) as [L|L]; [exfalso|lra].
    pose proof (div_lt_one D2 D1 ltac:(lra) L) as B1. set (b := D2 / D1) in *. unfold Rennels, lam in E.
    assert (b ^ 2 < 1) by nra. pose proof (pow_le1 b 5 ltac:(lra)).
    set (g := 1 - 0.215 * b ^ 2 - 0.785 * b ^ 5) in *. assert (0 < g) by (unfold g; lits; lra). clearbody g.
    assert (0 < (1 + 0.622 * 1 * g - 1) ^ 2) by (apply pow_lt; lits; lra).
    assert (0 <= 0.0696 * (1 - b ^ 5) * (1 + 0.622 * 1 * g) ^ 2) by (apply Rmult_le_pos; [apply Rmult_le_pos; lits; lra|apply pow2_ge_0]). lra.
  - intros D3 K' H3. rewrite contraction_sharp_eq by lra. intros E. injection E as <-.
    apply Rennels_mono; try (lits; lra). split. apply Rlt_le, Rdiv_lt_0_compat; lra.
    unfold Rdiv. apply Rmult_le_compat_r; [|lra]. apply Rlt_le, Rinv_0_lt_compat; lra.
Qed.

(** A rounded contraction without rounding, and a bevelled one without bevel, are the sudden contraction. *)
Theorem C78_contraction_round_zero : forall D1 D2 fd Re e, 0 < D1 -> 0 < D2 ->
  contraction_round D1 D2 0 "Rennels" = contraction_sharp D1 D2 fd Re e "Rennels".
Proof.
  intros D1 D2 fd Re e H1 H2. rewrite contraction_sharp_eq by lra. unfold contraction_round.
  rewrite !pdiv_ok by lra. cbn [bind]. change (String.eqb "Rennels" "Rennels") with true. cbv iota zeta. cbn [bind].
  replace (0 / D2) with 0 by (field; lra). rewrite !psqrt_ok by lra. cbn [bind]. rewrite sqrt_0. f_equal.
  unfold Rennels, lam. field. lra.
Qed.
Theorem C78_contraction_beveled_zero : forall D1 D2 angle fd Re e, 0 < D1 -> 0 < D2 -> D1 <> D2 -> 0 < angle ->
  contraction_beveled D1 D2 0 angle = contraction_sharp D1 D2 fd Re e "Rennels".
Proof.
  intros D1 D2 a fd Re e H1 H2 N A. rewrite contraction_sharp_eq by lra. unfold contraction_beveled. cbv zeta.
  assert (D2 / D1 <> 1). { intros E. apply N. apply Rmult_eq_compat_r with (r := D1) in E. unfold Rdiv in E. rewrite Rmult_assoc, Rinv_l in E by lra. lra. }
  rewrite !pdiv_ok by lra. cbn [bind]. rewrite pdiv_ok by lra. cbn [bind].
  rewrite ppow_ok by (unfold radians; pose proof PI_RGT_0; apply Rdiv_lt_0_compat; [apply Rmult_lt_0_compat; lra|lra]).
  cbn [bind]. f_equal. replace (0 / D2) with 0 by (field; lra).
  replace (0 * 2 * (D2 / D1) * tan (0.5 * radians a) / (1 - D2 / D1)) with 0 by (field; lra).
  unfold Rennels, lam. ring.
Qed.
(** Rounding the edge up to one outlet diameter never costs anything, and the loss stays non-negative. *)
Theorem C78_contraction_round : forall D1 D2 rc K Ks fd Re e, 0 < D2 <= D1 -> 0 <= rc <= D2 ->
  contraction_round D1 D2 rc "Rennels" = Ok K -> contraction_sharp D1 D2 fd Re e "Rennels" = Ok Ks -> 0 <= K <= Ks.
Proof.
  intros D1 D2 rc K Ks fd Re e H Hr. rewrite contraction_sharp_eq by lra. unfold contraction_round.
  rewrite !pdiv_ok by lra. cbn [bind]. change (String.eqb "Rennels" "Rennels") with true. cbv iota zeta. cbn [bind].
  pose proof (ratio01 D2 D1 ltac:(lra) ltac:(lra)) as B. set (b := D2 / D1) in *.
  replace (0.7 * rc / D2) with (0.7 * (rc / D2)) by (lits; field; lra). replace (0.569 * rc / D2) with (0.569 * (rc / D2)) by (lits; field; lra).
  assert (Rr : 0 <= rc / D2 <= 1) by (split; [apply Rdiv_le_0_compat; lra|apply Rle_div_l; lra]). set (r := rc / D2) in *.
  rewrite psqrt_ok by lra. cbn [bind].
  assert (S : 0 <= sqrt r <= 1). { split. apply sqrt_pos. rewrite <- sqrt_1. apply sqrt_le_1_alt. lra. }
  set (s := sqrt r) in *. intros E E'. apply Ok_inj in E. apply Ok_inj in E'. subst K Ks.
  set (c := 0.0696 * (1 - 0.569 * r) * (1 - s * b)). set (k := (1 - 0.3 * s - 0.7 * r) ^ 4).
  replace (c * (1 - b ^ 5) * (1 + 0.622 * k * (1 - 0.215 * b ^ 2 - 0.785 * b ^ 5)) * (1 + 0.622 * k * (1 - 0.215 * b ^ 2 - 0.785 * b ^ 5)) + (1 + 0.622 * k * (1 - 0.215 * b ^ 2 - 0.785 * b ^ 5) - 1) ^ 2)
    with (Rennels b (lam k b) c) by (unfold Rennels, lam; ring).
  assert (0 <= s * b <= 1) by (split; [apply Rmult_le_pos; lra|nra]).
  assert (C : 0 <= c <= 0.0696).
  { unfold c. assert (0 <= 1 - 0.569 * r <= 1) by (lits; lra). assert (0 <= 1 - s * b <= 1) by lra.
    assert (0 <= (1 - 0.569 * r) * (1 - s * b) <= 1) by (split; [apply Rmult_le_pos; lra|nra]). rewrite Rmult_assoc. lits. lra. }
  assert (Kb : 0 <= k <= 1) by (apply pow_le1; clear - Rr S; clearbody r s; lits; lra). clearbody c k.
  destruct (Rennels_mono b b 1 k 0.0696 c) as [X Y]; [lra|lra|lra|exact C|]. split; assumption.
Qed.
Example C78_ex_contraction : exists K, contraction_sharp 2 1 None None 0 "Rennels" = Ok K /\ 0.49 < K < 0.5.
Proof.
  rewrite contraction_sharp_eq by lra. eexists; split; [reflexivity|]. unfold Rennels, lam. lits. lra.
Qed.

(** ** Length and cone angle are interchangeable *)
Lemma half_angle a : 0 < a < 180 -> 0 < 0.5 * (a * (PI / 180)) < PI / 2.
Proof.
  intros H. pose proof PI_RGT_0. replace (0.5 * (a * (PI / 180))) with (a * PI / 360) by (lits; field). split.
  apply Rdiv_lt_0_compat; nra. nra.
Qed.
Lemma half_tan a : 0 < a < 180 -> 0 < tan (0.5 * (a * (PI / 180))).
Proof. intros H. pose proof (half_angle a H). apply tan_gt_0; lra. Qed.
Lemma half_atan a d : 0 < a < 180 -> d <> 0 -> 2 * atan (d / (2 * (d / (2 * tan (0.5 * (a * (PI / 180))))))) = a * (PI / 180).
Proof.
  intros H Hd. pose proof (half_tan a H) as T. pose proof (half_angle a H) as A. set (x := 0.5 * (a * (PI / 180))) in *.
  replace (d / (2 * (d / (2 * tan x)))) with (tan x) by (field; splits; lra).
  rewrite atan_tan by lra. unfold x. lits. field.
Qed.
Theorem C78_contraction_angle_length : forall D1 D2 fd angle Re e method, 0 < D2 < D1 -> 0 < angle < 180 ->
  contraction_conical D1 D2 fd None (Some angle) Re e method =
  contraction_conical D1 D2 fd (Some ((D1 - D2) / (2 * tan (angle * (PI / 180) / 2)))) None Re e method.
Proof.
  intros D1 D2 fd a Re e m H Ha. replace (a * (PI / 180) / 2) with (0.5 * (a * (PI / 180))) by (lits; field).
  pose proof (half_tan a Ha) as T. pose proof (half_atan a (D1 - D2) Ha ltac:(lra)) as A.
  unfold contraction_conical. rewrite (pdiv_ok D2 D1) by lra. cbn [bind].
  set (x := a * (PI / 180)) in *. set (t := tan (0.5 * x)) in *. rewrite (pdiv_ok (D1 - D2) (2 * t)) by lra. cbn [bind].
  set (l := (D1 - D2) / (2 * t)) in *. assert (L : 0 < l) by (apply Rdiv_lt_0_compat; lra).
  rewrite (proj2 (Reqb_false l 0)) by lra. cbn [negb]. rewrite (pdiv_ok (D1 - D2) (2 * l)) by lra. cbn [bind].
  rewrite A. reflexivity.
Qed.
Theorem C78_diffuser_angle_length : forall D1 D2 fd angle Re e method, 0 < D1 < D2 -> 0 < angle < 180 ->
  diffuser_conical D1 D2 None (Some angle) fd Re e method =
  diffuser_conical D1 D2 (Some ((D2 - D1) / (2 * tan (angle * (PI / 180) / 2)))) None fd Re e method.
Proof.
  intros D1 D2 fd a Re e m H Ha. replace (a * (PI / 180) / 2) with (0.5 * (a * (PI / 180))) by (lits; field).
  pose proof (half_tan a Ha) as T. pose proof (half_atan a (D2 - D1) Ha ltac:(lra)) as A.
  unfold diffuser_conical. rewrite (pdiv_ok D1 D2) by lra. cbn [bind].
  assert (X : a * (PI / 180) * (180 / PI) = a) by (pose proof PI_RGT_0; field; lra).
  set (x := a * (PI / 180)) in *. set (t := tan (0.5 * x)) in *. rewrite (pdiv_ok (D2 - D1) (2 * t)) by lra. cbn [bind].
  set (l := (D2 - D1) / (2 * t)) in *. assert (L : 0 < l) by (apply Rdiv_lt_0_compat; lra).
  rewrite (pdiv_ok (0.5 * (D2 - D1)) l) by lra. cbn [bind]. cbv zeta.
  replace (0.5 * (D2 - D1) / l) with ((D2 - D1) / (2 * l)) by (lits; field; lra). rewrite A, X. reflexivity.
Qed.
(** With Crane's method a zero length is the sudden contraction. *)
Theorem C78_contraction_Crane_sharp : forall D1 D2 fd Re e, 0 < D1 ->
  contraction_sharp D1 D2 fd Re e "Crane" = Ok (0.5 * (1 - (D2 / D1) ^ 2)) /\
  contraction_conical_Crane D1 D2 None (Some 180) = Ok (0.5 * (1 - (D2 / D1) ^ 2)).
Proof.
  intros D1 D2 fd Re e H. pose proof PI_RGT_0 as P.
  assert (S : sin (0.5 * PI) = 1) by (replace (0.5 * PI) with (PI / 2) by (lits; field); apply sin_PI2).
  assert (Q : forall b, psqrt (sin (0.5 * PI)) = Ok 1 /\ b * b = b ^ 2) by (intros b; rewrite S, psqrt_ok, sqrt_1 by lra; split; [reflexivity|ring]).
  split.
  - unfold contraction_sharp. change (String.eqb "Crane" "Rennels") with false. change (String.eqb "Crane" "Hooper") with false. change (String.eqb "Crane" "Crane") with true. cbv iota.
    unfold contraction_conical_Crane. rewrite (proj2 (Reqb_true 0 0)) by lra. cbn [bind]. rewrite pdiv_ok by lra. cbn [bind]. cbv zeta.
    rewrite (proj2 (Rltb_false PI (0.25 * PI))) by (lits; lra). rewrite (proj1 (Q 0)). cbn [bind]. f_equal. ring.
  - unfold contraction_conical_Crane. replace (PI / 180 * 180) with PI by field. cbn [bind]. rewrite pdiv_ok by lra. cbn [bind]. cbv zeta.
    rewrite (proj2 (Rltb_false PI (0.25 * PI))) by (lits; lra). rewrite (proj1 (Q 0)). cbn [bind]. f_equal. ring.
Qed.
(** The Crane diffuser called directly with a length returns a negative loss coefficient for every proper expansion
    (the half angle is computed with the wrong sign), while the general function with the same arguments does not. *)
Theorem C78_diffuser_Crane_length_refuted : forall D1 D2 l fd Re e, 0 < D1 < D2 -> 0 < l ->
  exists K K', diffuser_conical_Crane D1 D2 (Some l) None = Ok K /\ K < 0 /\ diffuser_conical D1 D2 (Some l) None fd Re e "Crane" = Ok K' /\ 0 < K'.
Proof.
  intros D1 D2 l fd Re e H Hl. pose proof PI_RGT_0 as P.
  pose proof (ratio01 D1 D2 ltac:(lra) ltac:(lra)) as B. pose proof (div_lt_one D1 D2 ltac:(lra) ltac:(lra)) as B1.
  assert (Q : 0 < (1 - D1 / D2 * (D1 / D2)) ^ 2) by (apply pow_lt; set (b := D1 / D2) in *; nra).
  assert (B4 : 0 < D1 / D2 * (D1 / D2)) by (apply Rmult_lt_0_compat; lra).
  assert (B5 : 0 < D1 / D2 * (D1 / D2) * (D1 / D2 * (D1 / D2))) by (apply Rmult_lt_0_compat; lra).
  assert (U : 0 < atan ((D2 - D1) / (2 * l)) < PI / 2).
  { split; [|apply atan_bound]. rewrite <- atan_0. apply atan_increasing. apply Rdiv_lt_0_compat; lra. }
  assert (V : atan ((D1 - D2) / (2 * l)) = - atan ((D2 - D1) / (2 * l))) by (rewrite <- atan_opp; f_equal; field; lra).
  assert (W : forall u, 0 < u < PI / 2 -> 0 < sin u) by (intros; apply sin_gt_0; lra).
  assert (Sc : forall k z, 0 < z -> k / z * z = k) by (intros; field; lra).
  assert (X : exists K, diffuser_conical_Crane D1 D2 (Some l) None = Ok K /\ K < 0).
  { unfold diffuser_conical_Crane. rewrite pdiv_ok by lra. cbn [bind]. cbv zeta. rewrite (proj2 (Reqb_false l 0)) by lra. cbn [negb].
    rewrite pdiv_ok by lra. cbn [bind]. rewrite V. unfold degrees. rewrite (proj2 (Rltb_true _ 45)).
    2: { assert (0 < atan ((D2 - D1) / (2 * l)) * 180 / PI) by (apply Rdiv_lt_0_compat; nra). replace (2 * - atan ((D2 - D1) / (2 * l)) * 180 / PI) with (- 2 * (atan ((D2 - D1) / (2 * l)) * 180 / PI)) by (field; lra). lra. }
    rewrite pdiv_ok by lra. cbn [bind]. eexists; split; [reflexivity|].
    replace (0.5 * (2 * - atan ((D2 - D1) / (2 * l)))) with (- atan ((D2 - D1) / (2 * l))) by (lits; field; lra). rewrite sin_neg.
    rewrite Rmult_assoc, Sc by lra. specialize (W _ U). assert (0 < 2.6 * sin (atan ((D2 - D1) / (2 * l)))) by (lits; lra). nra. }
  assert (Y : exists K, diffuser_conical D1 D2 (Some l) None fd Re e "Crane" = Ok K /\ 0 < K).
  { unfold diffuser_conical. rewrite !pdiv_ok by lra. cbn [bind]. cbv zeta. change (String.eqb "Crane" "Rennels") with false. change (String.eqb "Crane" "Crane") with true. cbv iota.
    unfold diffuser_conical_Crane. rewrite pdiv_ok by lra. cbn [bind]. cbv zeta.
    replace (0.5 * (D2 - D1) / l) with ((D2 - D1) / (2 * l)) by (lits; field; lra).
    rcase; cbn [bind]; rewrite !pdiv_ok by lra; cbn [bind]; eexists; (split; [reflexivity|]); rewrite Rmult_assoc, Sc by lra; auto.
    apply Rmult_lt_0_compat; [|exact Q]. unfold radians.
    match goal with |- 0 < 2.6 * sin ?z => replace z with (atan ((D2 - D1) / (2 * l))) by (lits; field; lra) end. specialize (W _ U). lits. lra. }
  destruct X as (K & X1 & X2), Y as (K' & Y1 & Y2). exists K, K'. splits; auto.
Qed.

(** ** Bends *)
(** Bend radius and bend diameters are interchangeable for every method except Crane's ... *)
Theorem C78_bend_radius : forall W D angle fd b Re e L method, 0 < D -> method <> "Crane" ->
  bend_rounded W D angle fd None (Some b) Re e L method = bend_rounded W D angle fd (Some (b * D)) None Re e L method \/
  (method = "Ito" /\ b = 0).
Proof.
  intros W D a fd b Re e L m HD Hm. unfold bend_rounded. cbn [bind]. rewrite (Rmult_comm b D).
  destruct (String.eqb_spec m "Rennels"); [left; reflexivity|].
  destruct (String.eqb_spec m "Miller"); [left; destruct Re; reflexivity|].
  destruct (String.eqb_spec m "Crane"); [contradiction|].
  destruct (String.eqb_spec m "Crane standard"); [left; reflexivity|].
  destruct (String.eqb_spec m "Ito"); [|left; reflexivity].
  destruct (Req_dec b 0) as [->|Hb]; [right; auto|left]. destruct Re; [|reflexivity]. unfold bend_rounded_Ito.
  rewrite (proj2 (Reqb_false (D * b) 0)) by (apply Rmult_integral_contrapositive; split; lra). reflexivity.
Qed.
(** ... where a radius alone raises ValueError unless it happens to be five diameters. *)
Theorem C78_bend_Crane_radius_refuted : forall W D angle fd b Re e L, 0 < D -> 0 < b -> Rabs (5 / b - 1) > 1e-12 ->
  bend_rounded W D angle fd (Some (b * D)) None Re e L "Crane" = Err ValueError.
Proof.
  intros W D a fd b Re e L HD Hb A. unfold bend_rounded. cbn [bind].
  change (String.eqb "Crane" "Rennels") with false. change (String.eqb "Crane" "Miller") with false. change (String.eqb "Crane" "Crane") with true. cbv iota.
  unfold bend_rounded_Crane. rewrite pdiv_ok by nra. cbn [bind]. replace (D * 5 / (b * D)) with (5 / b) by (field; lra).
  rewrite (proj2 (Rltb_true _ _)); [reflexivity|]. lits. lra.
Qed.
(** With bend diameters (or nothing) the same method works: no input makes it raise that error. *)
Theorem C78_bend_Crane_diameters : forall W D angle fd b Re e L f, 0 < D -> 0 < b -> ft_Crane D = Ok f ->
  exists K, bend_rounded W D angle fd None (Some b) Re e L "Crane" = Ok K.
Proof.
  intros W D a fd b Re e L f HD Hb Hf. unfold bend_rounded. cbn [bind]. cbv zeta.
  change (String.eqb "Crane" "Rennels") with false. change (String.eqb "Crane" "Miller") with false. change (String.eqb "Crane" "Crane") with true. cbv iota.
  unfold bend_rounded_Crane. rewrite pdiv_ok by nra. cbn [bind]. replace (D * b / (D * b)) with 1 by (field; nra).
  rewrite (proj2 (Rltb_false _ _)) by (rewrite Rminus_diag_eq, Rabs_R0 by lra; lits; lra). cbn [bind]. rewrite Hf. cbn [bind].
  rewrite pdiv_ok by lra. cbn [bind]. rcase; cbn [bind]; [eexists; reflexivity|]. rcase; eexists; reflexivity.
Qed.
(** The loss of a mitre bend vanishes at no turn and grows with the angle up to a full turn back. *)
Theorem C78_bend_miter : forall W Di Re e L a a' K K', 0 <= a < a' -> a' <= 180 ->
  bend_miter W a Di Re e L "Rennels" = Ok K -> bend_miter W a' Di Re e L "Rennels" = Ok K' -> 0 <= K < K' /\ (a = 0 -> K = 0).
Proof.
  intros W Di Re e L a a' K K' H H1. unfold bend_miter. cbn [bind]. change (String.eqb "Rennels" "Rennels") with true. cbv iota zeta.
  intros E E'. injection E as <-. injection E' as <-. pose proof PI_RGT_0 as P.
  assert (A : forall x, radians x * 0.5 = x * PI / 360) by (intros; unfold radians; lits; field). rewrite !A.
  assert (S : sin (a * PI / 360) < sin (a' * PI / 360)). { apply sin_increasing_1; nra. }
  assert (S0 : 0 <= sin (a * PI / 360)). { apply sin_ge_0; nra. }
  set (s := sin (a * PI / 360)) in *. set (s' := sin (a' * PI / 360)) in *. splits.
  - assert (0 <= s * s * s) by (apply Rmult_le_pos; [apply Rmult_le_pos; lra|lra]). lits. lra.
  - assert (s * s * s <= s' * s' * s'). { apply Rmult_le_compat; try nra. } lits. lra.
  - intros ->. assert (s = 0) by (unfold s; replace (0 * PI / 360) with 0 by field; apply sin_0). rewrite H0. ring.
Qed.
Theorem C78_bend_miter_tables : forall W Di Re e L a a' m K K', a <= a' -> 0 < Re -> (exists f, ft_Crane Di = Ok f /\ 0 < f) -> (m = "Crane" \/ m = "Blevins") ->
  bend_miter W a (Some Di) (Some Re) e L m = Ok K -> bend_miter W a' (Some Di) (Some Re) e L m = Ok K' -> 0 <= K <= K'.
Proof.
  intros W Di Re e L a a' m K K' H HR (f & Hf & F0) M.
  assert (T1 : increasing (map Q2R bend_miter_Crane_angles)) by (apply Qincr_ok; vm_compute; reflexivity).
  assert (T2 : increasing (map Q2R bend_miter_Blevins_angles)) by (apply Qincr_ok; vm_compute; reflexivity).
  assert (L1 : List.length (map Q2R bend_miter_Crane_angles) = List.length (map Q2R bend_miter_Crane_fds)) by reflexivity.
  assert (L2 : List.length (map Q2R bend_miter_Blevins_angles) = List.length (map Q2R bend_miter_Blevins_Ks)) by reflexivity.
  assert (N1 : nondecreasing (map Q2R bend_miter_Crane_fds)) by (apply Qnondecr_ok; vm_compute; reflexivity).
  assert (N2 : nondecreasing (map Q2R bend_miter_Blevins_Ks)) by (apply Qnondecr_ok; vm_compute; reflexivity).
  assert (B : forall l, nondecreasing l -> at_ l 0 = 0 \/ at_ l 0 = 2 -> forall i, (i < List.length l)%nat -> 0 <= at_ l i).
  { intros l N Z i Hi. assert (at_ l 0 <= at_ l i) by (apply N; lia). lra. }
  assert (P1 : forall x, exists v, interp x (map Q2R bend_miter_Crane_angles) (map Q2R bend_miter_Crane_fds) None None false = Ok v /\ 0 <= v).
  { intros x. destruct (interp_default_total x (map Q2R bend_miter_Crane_angles) (map Q2R bend_miter_Crane_fds)) as [v E]; auto; [discriminate|].
    exists v; split; auto. destruct (interp_range _ _ _ _ T1 L1 ltac:(discriminate) E) as (i & j & Hi & Hj & Bd).
    eapply Rle_trans; [|apply Bd]. apply B; auto. right. change (Q2R 2 = 2). lits. lra. }
  assert (P2 : forall x, exists v, interp x (map Q2R bend_miter_Blevins_angles) (map Q2R bend_miter_Blevins_Ks) None None false = Ok v /\ 0 <= v).
  { intros x. destruct (interp_default_total x (map Q2R bend_miter_Blevins_angles) (map Q2R bend_miter_Blevins_Ks)) as [v E]; auto; [discriminate|].
    exists v; split; auto. destruct (interp_range _ _ _ _ T2 L2 ltac:(discriminate) E) as (i & j & Hi & Hj & Bd).
    eapply Rle_trans; [|apply Bd]. apply B; auto. left. change (Q2R 0 = 0). lits. lra. }
  destruct M as [-> | ->]; unfold bend_miter; cbn [bind].
  - change (String.eqb "Crane" "Rennels") with false. change (String.eqb "Crane" "Crane") with true. cbv iota.
    destruct (P1 a) as (v & E1 & V), (P1 a') as (v' & E2 & V'). rewrite E1, E2, Hf. cbn [bind]. intros E E'. injection E as <-. injection E' as <-.
    pose proof (interp_mono _ _ _ _ _ _ T1 L1 ltac:(discriminate) N1 H E1 E2). nra.
  - change (String.eqb "Blevins" "Rennels") with false. change (String.eqb "Blevins" "Crane") with false. change (String.eqb "Blevins" "Miller") with false. change (String.eqb "Blevins" "Blevins") with true. cbv iota.
    destruct (P2 a) as (v & E1 & V), (P2 a') as (v' & E2 & V'). rewrite E1, E2. cbn [bind]. rewrite pdiv_ok by lra. cbn [bind].
    rewrite ppow_ok by (apply Rdiv_lt_0_compat; lra). cbn [bind]. intros E E'. injection E as <-. injection E' as <-.
    pose proof (interp_mono _ _ _ _ _ _ T2 L2 ltac:(discriminate) N2 H E1 E2). pose proof (Rpower_pos (200000 / Re) 0.2). nra.
Qed.
Example C78_ex_miter : forall W, bend_miter W 180 None None 0 None "Rennels" = Ok 2.98.
Proof.
  intros W. unfold bend_miter. cbn [bind]. change (String.eqb "Rennels" "Rennels") with true. cbv iota zeta.
  replace (radians 180 * 0.5) with (PI / 2) by (unfold radians; lits; field). rewrite sin_PI2. f_equal. lits. lra.
Qed.
Example C78_ex_bend_Crane : forall W, bend_rounded W 0.1 90 None (Some 0.3) None None 0 None "Crane" = Err ValueError.
Proof.
  intros W. replace 0.3 with (3 * 0.1) by (lits; lra). apply C78_bend_Crane_radius_refuted; try (lits; lra).
  rewrite Rabs_pos_eq; lits; lra.
Qed.

(** ** Method names *)
Ltac nomatch N := match goal with |- context[String.eqb ?m ?s] => destruct (String.eqb_spec m s); [exfalso; apply N; subst; tauto|] end.
(** Every dispatching function raises ValueError for a method it does not list, whatever the other arguments are as long as
    the diameters are positive and the shape is given. *)
Theorem C78_unknown_method : forall W D1 D2 fd Re e l a b rc L m, 0 < D1 -> 0 < D2 -> 0 < l ->
  (~ In m contraction_sharp_methods -> contraction_sharp D1 D2 fd Re e m = Err ValueError) /\
  (~ In m contraction_round_methods -> contraction_round D1 D2 rc m = Err ValueError) /\
  (~ In m contraction_conical_methods -> contraction_conical D1 D2 fd (Some l) None Re e m = Err ValueError) /\
  (~ In m diffuser_sharp_methods -> diffuser_sharp D1 D2 Re fd e m = Err ValueError) /\
  (~ In m diffuser_conical_methods -> diffuser_conical D1 D2 (Some l) None fd Re e m = Err ValueError) /\
  (~ In m bend_rounded_methods -> bend_rounded W D1 a fd (Some rc) (Some b) Re e L m = Err ValueError) /\
  (~ In m bend_miter_methods -> bend_miter W a (Some D1) Re e L m = Err ValueError).
Proof.
  intros W D1 D2 fd Re e l a b rc L m H1 H2 Hl.
  splits; intros N; cbn [In contraction_sharp_methods contraction_round_methods contraction_conical_methods diffuser_sharp_methods diffuser_conical_methods bend_rounded_methods bend_miter_methods] in N.
  - unfold contraction_sharp. repeat nomatch N. reflexivity.
  - unfold contraction_round. rewrite pdiv_ok by lra. cbn [bind]. repeat nomatch N. reflexivity.
  - unfold contraction_conical. rewrite (pdiv_ok D2 D1) by lra. cbn [bind]. rewrite (proj2 (Reqb_false l 0)) by lra. cbn [negb]. rewrite (pdiv_ok (D1 - D2) (2 * l)) by lra. cbn [bind].
    repeat nomatch N. reflexivity.
  - unfold diffuser_sharp. rewrite pdiv_ok by lra. cbn [bind]. repeat nomatch N. reflexivity.
  - unfold diffuser_conical. rewrite (pdiv_ok D1 D2) by lra. cbn [bind]. rewrite (pdiv_ok (0.5 * (D2 - D1)) l) by lra. cbn [bind].
    repeat nomatch N. reflexivity.
  - unfold bend_rounded. cbn [bind]. repeat nomatch N. reflexivity.
  - unfold bend_miter. cbn [bind]. repeat nomatch N. reflexivity.
Qed.
(** Miller's chart for conical contractions is only ever reported between 0 and one half; for diffusers and rounded
    contractions never below zero. *)
Theorem C78_Miller_clamped : forall D1 D2 fd l a Re e rc K,
  (contraction_conical D1 D2 fd l a Re e "Miller" = Ok K -> 0 <= K <= 0.5) /\
  (diffuser_conical D1 D2 l a fd Re e "Miller" = Ok K -> 0 <= K) /\
  (contraction_round D1 D2 rc "Miller" = Ok K -> 0 <= K).
Proof.
  intros D1 D2 fd l a Re e rc K. splits; intros E.
  - unfold contraction_conical in E. do 2 (inv_bind E). destruct v0 as [x y]. change (String.eqb "Miller" "Rennels") with false in E. change (String.eqb "Miller" "Crane") with false in E.
    change (String.eqb "Miller" "Swamee") with false in E. change (String.eqb "Miller" "Idelchik") with false in E. change (String.eqb "Miller" "Blevins") with false in E. change (String.eqb "Miller" "Miller") with true in E. cbv iota in E.
    repeat (inv_bind E). injection E as <-. split. apply Rmax_r. apply Rmax_lub; [apply Rmin_r|lits; lra].
  - unfold diffuser_conical in E. do 2 (inv_bind E). destruct v0 as [[x y] z]. cbn [bind] in E. change (String.eqb "Miller" "Rennels") with false in E. change (String.eqb "Miller" "Crane") with false in E.
    change (String.eqb "Miller" "Miller") with true in E. cbv iota in E.
    repeat (inv_bind E). injection E as <-. apply Rmax_r.
  - unfold contraction_round in E. inv_bind E. cbn [bind] in E. change (String.eqb "Miller" "Rennels") with false in E. change (String.eqb "Miller" "Miller") with true in E. cbv iota in E.
    unfold contraction_round_Miller in E. do 4 (inv_bind E). revert E. rcase; intros E; injection E as <-; lra.
Qed.

Print Assumptions C78_Borda_Carnot.
Print Assumptions C78_diffuser_sharp.
Print Assumptions C78_contraction_sharp.
Print Assumptions C78_contraction_round_zero.
Print Assumptions C78_contraction_beveled_zero.
Print Assumptions C78_contraction_round.
Print Assumptions C78_contraction_angle_length.
Print Assumptions C78_diffuser_angle_length.
Print Assumptions C78_contraction_Crane_sharp.
Print Assumptions C78_diffuser_Crane_length_refuted.
Print Assumptions C78_bend_radius.
Print Assumptions C78_bend_Crane_radius_refuted.
Print Assumptions C78_bend_Crane_diameters.
Print Assumptions C78_bend_miter.
Print Assumptions C78_bend_miter_tables.
Print Assumptions C78_unknown_method.
Print Assumptions C78_Miller_clamped.
