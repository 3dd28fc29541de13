(** Torispherical head pushed inwards (C53). *)
From Coq Require Import Reals Lra Psatz List Bool.
From Coquelicot Require Import Coquelicot.
From Verif Require Import Base Model_Real Model_Geometry Proofs_Real Spec_Geometry Proofs_Geometry Proofs_Geometry2 Proofs_Geometry3 Properties_Geometry Properties_Geometry2 Model_Tori.
Open Scope R_scope.

Section Tori.
Context (D f k : R) (HD : 0 < D) (Hk : 0 < k <= 1 / 2) (Hf : 1 / 2 <= f) (Hfk : k < f).
Let al := tori_alpha f k.
Let a1 := tori_a1 D f k.
Let a := tori_a D f k.
Let D1 := 2 * f * D * sin al.
(** volume of the head below y *)
Let T y := if Rle_dec y a1 then PI * (y * y) * (f * D - y / 3) else PI * (a1 * a1) * (f * D - a1 / 3) + (knuckle D f k (y - a1) - knuckle D f k 0).
Lemma tori_D1 : D1 * D1 = 4 * (a1 * (2 * (f * D) - a1)).
Proof.
  unfold D1. pose proof (tori_sc f k) as SC. fold al in SC. unfold a1, tori_a1. fold al.
  replace (2 * f * D * sin al * (2 * f * D * sin al)) with (4 * (f * D) * (f * D) * (1 - cos al * cos al)) by (rewrite <- SC; ring). ring.
Qed.
Lemma V1_value y : a1 <= y <= a -> tori_concave_V1 D f k al a1 D1 (k * D * sin al * (k * D * sin al)) (2 * (k * D * cos al)) y = Ok (T y).
Proof.
  intros Hy. pose proof (tori_al f k Hk Hf Hfk) as HA. pose proof (tori_cos f k Hk Hf Hfk) as HC. fold al in HA, HC.
  pose proof (tori_sc f k) as SC. pose proof (tori_sin_pos f k Hk Hf Hfk) as HSP. fold al in SC, HSP.
  assert (HkD : 0 < k * D) by (apply Rmult_lt_0_compat; lra). pose proof (knuckle_0 D f k HD Hk Hf Hfk) as K0. fold al in K0.
  assert (Ea : a = a1 + k * D * cos al) by reflexivity. assert (E1 : f * D * (1 - cos al) = a1) by reflexivity.
  assert (SS : k * D * sin al * (k * D * sin al) = k * D * (k * D) - k * D * cos al * (k * D * cos al)).
  { replace (k * D * sin al * (k * D * sin al)) with (k * D * (k * D) * (1 - cos al * cos al)) by (rewrite <- SC; ring). ring. }
  unfold tori_concave_V1. cbv zeta. rewrite E1. pose proof (COS_bound al) as CB.
  rewrite psqrt_ok by (rewrite SS; nra). cbn [bind]. rewrite psqrt_ok by nra. cbn [bind].
  rewrite (sqrt_square (k * D * sin al)) by (apply Rmult_le_pos; lra). rewrite pdiv_ok by nra. cbn [bind].
  replace ((2 * (k * D * cos al) - 2 * (y - a1)) / (2 * k * D)) with ((k * D * cos al - (y - a1)) / (k * D)) by (field; lra).
  assert (HV : - (k * D) <= k * D * cos al - (y - a1) <= k * D) by nra.
  rewrite pacos_ok by (apply ratio_range; auto). cbn [bind]. f_equal.
  assert (RHS : T y = PI * (a1 * a1) * (f * D - a1 / 3) + (knuckle D f k (y - a1) - knuckle D f k 0)).
  { unfold T. destruct (Rle_dec y a1); [|reflexivity]. assert (y = a1) as -> by lra. replace (a1 - a1) with 0 by ring. ring. }
  rewrite RHS. clear RHS. rewrite K0. unfold knuckle. fold al. cbv zeta.
  replace (k * D * sin al * (k * D * sin al) + 2 * (k * D * cos al) * (y - a1) - (y - a1) * (y - a1))
    with (k * D * (k * D) - (k * D * cos al - (y - a1)) * (k * D * cos al - (y - a1))) by (rewrite SS; ring).
  set (s := sqrt _). set (ac := acos _). clearbody s ac.
  replace (0.5 * a1 * D1 * D1) with (2 * a1 * (a1 * (2 * (f * D) - a1))) by (replace (0.5 * a1 * D1 * D1) with (a1 / 2 * (D1 * D1)) by (lits; field); rewrite tori_D1; field).
  lits. toR. field.
Qed.
Lemma V2_value y : 0 < y <= a1 -> tori_concave_V2 a1 D1 y = Ok (T y).
Proof.
  intros Hy. unfold tori_concave_V2. rewrite pdiv_ok by lra. cbn [bind]. f_equal. unfold T. destruct (Rle_dec y a1); [|lra]. rewrite tori_D1. lits. toR. field. lra.
Qed.
Lemma T_int y : 0 <= y <= a -> is_RInt (fun y => PI * tori_r2 D f k y) 0 y (T y).
Proof. exact (tori_int D f k HD Hk Hf Hfk y). Qed.
Lemma around_int h : 0 <= h <= a -> is_RInt (fun y => PI * (D / 2 * (D / 2) - tori_r2 D f k (a - y))) 0 h (PI * (D / 2 * (D / 2)) * h - T a + T (a - h)).
Proof.
  intros Hh. assert (A : is_RInt (fun y => PI * tori_r2 D f k y) a (a - h) (T (a - h) - T a)).
  { eapply is_RInt_val; [|apply (@is_RInt_Chasles R_NormedModule _ a 0 (a - h) (opp (T a)) (T (a - h))); [apply (@is_RInt_swap R_NormedModule), T_int; lra|apply T_int; lra]].
    unfold plus, opp; simpl. ring. }
  assert (B : is_RInt (fun y => scal (-1) (PI * tori_r2 D f k (-1 * y + a))) 0 h (T (a - h) - T a)).
  { apply (@is_RInt_comp_lin R_NormedModule (fun y => PI * tori_r2 D f k y) (-1) a 0 h). replace (-1 * 0 + a) with a by ring. replace (-1 * h + a) with (a - h) by ring. exact A. }
  pose proof (@is_RInt_plus R_NormedModule _ _ _ _ _ _ (RInt_const' 0 h (PI * (D / 2 * (D / 2)))) B) as C.
  eapply is_RInt_val; [|eapply is_RInt_ext; [|exact C]].
  - unfold plus; simpl. ring.
  - intros y _. unfold plus, scal; simpl; unfold mult; simpl. replace (-1 * y + a) with (a - y) by ring. ring.
Qed.
End Tori.

(** The volume is that of the cylinder outside the head, at every level. *)
Theorem C53_vertical_torispherical_concave : forall D f k h, 0 < D -> 0 < k <= 1 / 2 -> 1 / 2 <= f -> k < f -> 0 <= h ->
  exists V, V_vertical_torispherical_concave D f k h = Ok V /\ volume_below (around (D / 2) (tori_a D f k) (tori_r2 D f k)) h V.
Proof.
  intros D f k h HD Hk Hf Hfk Hh. unfold V_vertical_torispherical_concave.
  pose proof (tori_ratio f k Hk Hf Hfk) as HR. pose proof (tori_cos f k Hk Hf Hfk) as HC.
  pose proof (tori_a1_nonneg D f k HD Hf) as HA1. pose proof (tori_a_ge D f k HD Hk Hf Hfk) as HA2.
  assert (HkD : 0 < k * D) by (apply Rmult_lt_0_compat; lra).
  assert (Ha : 0 < tori_a D f k).
  { unfold tori_a. destruct (Req_dec (cos (tori_alpha f k)) 0) as [Z|Z].
    - unfold tori_a1. rewrite Z. assert (0 < f * D) by (apply Rmult_lt_0_compat; lra). lra.
    - assert (0 < k * D * cos (tori_alpha f k)) by (apply Rmult_lt_0_compat; lra). lra. }
  pose proof (around_below (D / 2) (tori_a D f k) (tori_r2 D f k) _ h Hh Ha (around_int D f k HD Hk Hf Hfk)) as I. cbv beta in I.
  destruct (Rleb h 0) eqn:E0; [apply Rleb_true in E0; assert (h = 0) as -> by lra; exists 0; split; [reflexivity|apply RInt_empty]|apply Rleb_false in E0].
  rewrite pdiv_ok by lra. cbn [bind].
  replace ((1 - 2 * k) / (2 * (f - k))) with ((1 / 2 - k) / (f - k)) by (field; lra).
  rewrite pasin_ok by lra. cbn [bind]. cbv zeta. fold (tori_alpha f k). change (f * D * (1 - cos (tori_alpha f k))) with (tori_a1 D f k).
  change (tori_a1 D f k + k * D * cos (tori_alpha f k)) with (tori_a D f k).
  assert (Ea : tori_a D f k = tori_a1 D f k + k * D * cos (tori_alpha f k)) by reflexivity.
  rewrite (proj2 (Rleb_true 0 h)) by lra. cbn [andb].
  rewrite (V1_value D f k HD Hk Hf Hfk (tori_a D f k)) by lra. cbn [bind].
  destruct (Rltb h (k * D * cos (tori_alpha f k))) eqn:E1; [apply Rltb_true in E1|apply Rltb_false in E1].
  - rewrite (V1_value D f k HD Hk Hf Hfk (tori_a D f k - h)) by lra. cbn [bind]. eexists; split; [reflexivity|]. eapply below_eq; [|exact I].
    destruct (Rlt_dec h (tori_a D f k)); [|lra]. lits. toR. field.
  - rewrite (proj2 (Rleb_true _ h)) by exact E1. cbn [andb].
    destruct (Rltb h (tori_a D f k)) eqn:E2; [apply Rltb_true in E2|apply Rltb_false in E2].
    + rewrite (V2_value D f k (tori_a D f k - h)) by lra. cbn [bind]. eexists; split; [reflexivity|]. eapply below_eq; [|exact I].
      destruct (Rlt_dec h (tori_a D f k)); [|lra]. lits. toR. field.
    + eexists; split; [reflexivity|]. eapply below_eq; [|exact I]. destruct (Rlt_dec h (tori_a D f k)); [lra|].
      replace (tori_a D f k - tori_a D f k) with 0 by ring. destruct (Rle_dec 0 (tori_a1 D f k)); [|lra]. lits. toR. field.
Qed.
Theorem C53_concave_torispherical_empty : forall D f k h, h <= 0 -> V_vertical_torispherical_concave D f k h = Ok 0.
Proof. intros. unfold V_vertical_torispherical_concave. now rewrite (proj2 (Rleb_true h 0)). Qed.
(** The two head functions together fill the cylinder over the height of the head. *)
Theorem C53_torispherical_complement : forall D f k, 0 < D -> 0 < k <= 1 / 2 -> 1 / 2 <= f -> k < f ->
  exists V W, V_vertical_torispherical D f k (tori_a D f k) = Ok V /\ V_vertical_torispherical_concave D f k (tori_a D f k) = Ok W /\
  V + W = PI * (D / 2) ^ 2 * tori_a D f k.
Proof.
  intros D f k HD Hk Hf Hfk. pose proof (C53_torispherical_height D f k HD Hk Hf Hfk) as [_ [_ Ha]].
  destruct (C53_vertical_torispherical D f k (tori_a D f k) HD Hk Hf Hfk Ha) as [V [E1 I1]].
  destruct (C53_vertical_torispherical_concave D f k (tori_a D f k) HD Hk Hf Hfk Ha) as [W [E2 I2]].
  exists V, W. splits; auto. unfold volume_below in *.
  pose proof (around_int D f k HD Hk Hf Hfk (tori_a D f k) ltac:(lra)) as J2. pose proof (tori_int D f k HD Hk Hf Hfk (tori_a D f k) ltac:(lra)) as J1.
  pose proof (fun (g : R -> R) (u v : R) (A : is_RInt g 0 (tori_a D f k) u) (B : is_RInt g 0 (tori_a D f k) v) => eq_trans (eq_sym (is_RInt_unique g 0 (tori_a D f k) u A)) (is_RInt_unique g 0 (tori_a D f k) v B)) as U.
  assert (K1 : is_RInt (with_cylinder (D / 2) (tori_a D f k) (tori_r2 D f k)) 0 (tori_a D f k) (if Rle_dec (tori_a D f k) (tori_a1 D f k) then PI * (tori_a D f k * tori_a D f k) * (f * D - tori_a D f k / 3) else PI * (tori_a1 D f k * tori_a1 D f k) * (f * D - tori_a1 D f k / 3) + (knuckle D f k (tori_a D f k - tori_a1 D f k) - knuckle D f k 0))).
  { eapply RInt_ext; [lra| |exact J1]. intros x Hx. cbv beta. unfold with_cylinder. destruct (Rlt_dec x (tori_a D f k)); [reflexivity|lra]. }
  pose proof (U _ _ _ I1 K1) as F1. clear K1 J1.
  assert (K2 : is_RInt (around (D / 2) (tori_a D f k) (tori_r2 D f k)) 0 (tori_a D f k) (PI * (D / 2 * (D / 2)) * tori_a D f k - V)).
  { eapply RInt_ext; [lra| |eapply is_RInt_val; [|exact J2]].
    - intros x Hx. cbv beta. unfold around. destruct (Rlt_dec x (tori_a D f k)); [reflexivity|lra].
    - replace (tori_a D f k - tori_a D f k) with 0 by ring. pose proof (tori_a1_nonneg D f k HD Hf). rewrite F1. destruct (Rle_dec (tori_a D f k) (tori_a1 D f k)); destruct (Rle_dec 0 (tori_a1 D f k)); try lra; toR; field. }
  pose proof (U _ _ _ I2 K2) as F2.
  rewrite F2. toR. field.
Qed.
Example C53_torispherical_concave_ex : 0 < 113 /\ 0 < 0.081 <= 1 / 2 /\ 1 / 2 <= 0.71 /\ 0.081 < 0.71 /\ 0 <= 15.
Proof. lits. lra. Qed.

Print Assumptions C53_vertical_torispherical_concave.
Print Assumptions C53_concave_torispherical_empty.
Print Assumptions C53_torispherical_complement.
