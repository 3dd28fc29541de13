(** C80: heads of a horizontal vessel; C54: tube pitch. *)
From Coq Require Import Reals Lra Psatz String List Bool.
From Coquelicot Require Import Coquelicot.
From Verif Require Import Base Model_Real Model_Geometry Proofs_Real Spec_Geometry Proofs_Geometry Proofs_Geometry2 Proofs_Geometry3 Properties_Geometry.
Import ListNotations.
Open Scope R_scope.

Lemma Ok_inj {A} (x y : A) : Ok x = Ok y -> x = y. Proof. congruence. Qed.
Lemma pacos_ok x : -1 <= x <= 1 -> pacos x = Ok (acos x).
Proof. intros. unfold pacos. rewrite (proj2 (Rltb_false x (-1))), (proj2 (Rltb_false 1 x)) by lra. reflexivity. Qed.
Lemma pasin_ok x : -1 <= x <= 1 -> pasin x = Ok (asin x).
Proof. intros. unfold pasin. rewrite (proj2 (Rltb_false x (-1))), (proj2 (Rltb_false 1 x)) by lra. reflexivity. Qed.

(** the part of the model after clamping *)
Ltac clamping D h :=
  let E0 := fresh "E0" in let E1 := fresh "E1" in
  destruct (Rleb h 0) eqn:E0; [apply Rleb_true in E0 | apply Rleb_false in E0;
    destruct (Rltb D h) eqn:E1; [apply Rltb_true in E1 | apply Rltb_false in E1]].

Lemma segment_code D t : 0 < D -> 0 <= t <= D ->
  pdiv (0.5 * D - t) (0.5 * D) = Ok ((D / 2 - t) / (D / 2)) /\ pacos ((D / 2 - t) / (D / 2)) = Ok (acos ((D / 2 - t) / (D / 2))) /\
  psqrt (2 * (0.5 * D) * t - t * t) = Ok (half_chord (D / 2) t).
Proof.
  intros HD Ht. rewrite half. splits.
  - apply pdiv_ok; lra.
  - apply pacos_ok, angle_range; lra.
  - replace (2 * (D / 2) * t - t * t) with (t * (2 * (D / 2) - t)) by ring. rewrite psqrt_ok by (apply Rmult_le_pos; lra). reflexivity.
Qed.

(** ** Ellipsoidal *)
Lemma horiz_ellipsoidal_code D L a h ho : 0 < D ->
  V_horiz_ellipsoidal D L a h ho = if Rleb h 0 then Ok 0 else
    let t := clamp 0 D h in let V := PI * a * t * t * (1 - t / (3 * (D / 2))) / 2 in
    Ok (if ho then V else 2 * V + L * segment (D / 2) t).
Proof.
  intros HD. unfold V_horiz_ellipsoidal.
  clamping D h; [reflexivity | rewrite clamp_high by lra | rewrite clamp_id by lra].
  - destruct (segment_code D D HD ltac:(lra)) as (-> & H1 & H2). cbn [bind]. rewrite H1. cbn [bind]. rewrite H2. cbn [bind].
    rewrite half. rewrite pdiv_ok by lra. cbn [bind]. destruct ho; f_equal; unfold segment; lits; field; lra.
  - destruct (segment_code D h HD ltac:(lra)) as (-> & H1 & H2). cbn [bind]. rewrite H1. cbn [bind]. rewrite H2. cbn [bind].
    rewrite half. rewrite pdiv_ok by lra. cbn [bind]. destruct ho; f_equal; unfold segment; lits; field; lra.
Qed.
Lemma clamp_nonpos D h : 0 < D -> h <= 0 -> clamp 0 D h = 0. Proof. intros; apply clamp_low; lra. Qed.
Lemma head_volume_0 depth r V : head_volume depth r 0 V -> V = 0.
Proof.
  intros (S & _ & I). unfold volume_below in I. pose proof (is_RInt_unique _ _ _ _ I) as E. rewrite RInt_point in E. unfold zero in E; simpl in E. congruence.
Qed.

(** Horizontal heads: the volume below the liquid level, whatever the level (levels outside the vessel are clamped). *)
Theorem C80_ellipsoidal : forall D L a h, 0 < D ->
  exists V, V_horiz_ellipsoidal D L a h true = Ok V /\ head_volume (ellipsoid_depth (D / 2) a) (D / 2) (clamp 0 D h) V.
Proof.
  intros D L a h HD. pose proof (clamp_in 0 D h ltac:(lra)). rewrite horiz_ellipsoidal_code by assumption.
  pose proof (ellipsoid_volume (D / 2) a (clamp 0 D h) ltac:(lra) ltac:(lra)) as V.
  destruct (Rleb h 0) eqn:E; [apply Rleb_true in E | apply Rleb_false in E].
  - exists 0. split; auto. rewrite clamp_nonpos in * by lra. rewrite <- (head_volume_0 _ _ _ V) at 2. exact V.
  - eexists; split; [reflexivity | exact V].
Qed.

(** ** Guppy *)
Lemma horiz_guppy_code D L a h ho : 0 < D ->
  V_horiz_guppy D L a h ho = if Rleb h 0 then Ok 0 else
    let t := clamp 0 D h in let V := guppy_vol (D / 2) a t in
    Ok (if ho then V else 2 * V + L * segment (D / 2) t).
Proof.
  intros HD. unfold V_horiz_guppy.
  assert (G : forall t, 0 <= t <= D -> 
    (x0 <- psqrt (2 * (0.5 * D) * t - t * t) ;; t2 <- pdiv (0.5 * D - t) (0.5 * D) ;; t3 <- pacos t2 ;;
     t4 <- pdiv t (0.5 * D) ;; t5 <- pacos (1 - t4) ;; t6 <- pdiv ((2 / 9) * a) (0.5 * D) ;;
     if ho then Ok ((2 / 3 * a * (0.5 * D) * (0.5 * D) * t5 + t6 * x0 * (2 * t - 3 * (0.5 * D)) * (t + 0.5 * D)) * 0.5)
     else Ok (2 / 3 * a * (0.5 * D) * (0.5 * D) * t5 + t6 * x0 * (2 * t - 3 * (0.5 * D)) * (t + 0.5 * D) + (0.5 * D * (0.5 * D) * t3 - (0.5 * D - t) * x0) * L))
    = Ok (if ho then guppy_vol (D / 2) a t else 2 * guppy_vol (D / 2) a t + L * segment (D / 2) t)).
  { intros t Ht. destruct (segment_code D t HD Ht) as (H0 & H1 & H2). rewrite H2. cbn [bind]. rewrite H0. cbn [bind]. rewrite H1. cbn [bind].
    rewrite half. rewrite pdiv_ok by lra. cbn [bind]. replace (1 - t / (D / 2)) with ((D / 2 - t) / (D / 2)) by (field; lra). rewrite H1. cbn [bind].
    rewrite pdiv_ok by lra. cbn [bind]. destruct ho; f_equal; unfold guppy_vol, segment; lits; field; lra. }
  clamping D h; [reflexivity | rewrite clamp_high by lra | rewrite clamp_id by lra]; cbv zeta; apply G; lra.
Qed.
Theorem C80_guppy : forall D L a h, 0 < D ->
  exists V, V_horiz_guppy D L a h true = Ok V /\ head_volume (guppy_depth (D / 2) a) (D / 2) (clamp 0 D h) V.
Proof.
  intros D L a h HD. pose proof (clamp_in 0 D h ltac:(lra)). rewrite horiz_guppy_code by assumption.
  pose proof (guppy_volume (D / 2) a (clamp 0 D h) ltac:(lra) ltac:(lra)) as V.
  destruct (Rleb h 0) eqn:E; [apply Rleb_true in E | apply Rleb_false in E].
  - exists 0. split; auto. rewrite clamp_nonpos in * by lra. rewrite <- (head_volume_0 _ _ _ V) at 2. exact V.
  - eexists; split; [reflexivity | exact V].
Qed.

(** ** Conical *)
Lemma cone_K r t : 0 < r -> 0 < t <= 2 * r -> t <> r ->
  let M := Rabs ((r - t) / r) in
  let K := acos M + M * M * M * ln (1 / M + sqrt (1 / M * (1 / M) - 1)) - 2 * M * sqrt (1 - M * M) in
  0 < M <= 1 /\ 1 <= 1 / M /\ forall a, cone_vol r a t = 1 / 2 * (2 * a * r * (r * (1 / 3)) * (if Rlt_dec t r then K else PI - K)).
Proof.
  intros Hr Ht N M K. pose proof (angle_range r t Hr ltac:(lra)) as HR.
  assert (Hw : r - t <> 0) by lra.
  assert (HM : 0 < M) by (apply Rabs_pos_lt; intros Z; apply Hw; replace (r - t) with ((r - t) / r * r) by (field; lra); rewrite Z; ring).
  assert (HM1 : M <= 1) by (unfold M; apply Rabs_le; lra).
  assert (H1 : 1 <= 1 / M). { apply Rmult_le_reg_r with M; [exact HM|]. replace (1 / M * M) with 1 by (field; lra). lra. }
  splits; auto. intros a.
  pose proof (half_chord_sq r t ltac:(lra)) as Ec. pose proof (half_chord_nonneg r t) as Pc.
  assert (MM : M * M = (r - t) / r * ((r - t) / r)). { unfold M. rewrite <- Rabs_mult. apply Rabs_right. apply Rle_ge. apply Rle_0_sqr. }
  assert (Mr : M * r = Rabs (r - t)).
  { unfold M, Rdiv. rewrite Rabs_mult, (Rabs_right (/ r)) by (apply Rle_ge, Rlt_le, Rinv_0_lt_compat, Hr). field; lra. }
  assert (S1 : sqrt (1 - M * M) = half_chord r t / r) by (rewrite MM; apply angle_sin; lra).
  assert (S2 : sqrt (1 / M * (1 / M) - 1) = half_chord r t / Rabs (r - t)).
  { rewrite <- Mr. apply sqrt_lem_1.
    - nra.
    - apply Rdiv_le_0_compat; [exact Pc | apply Rmult_lt_0_compat; assumption].
    - replace (half_chord r t / (M * r) * (half_chord r t / (M * r))) with (half_chord r t * half_chord r t / (r * r) / (M * M)) by (field; lra).
      replace (half_chord r t * half_chord r t / (r * r)) with (1 - M * M). 2:{ rewrite MM, Ec. field; lra. } field; lra. }
  assert (Pa : 0 < Rabs (r - t)) by (apply Rabs_pos_lt, Hw).
  assert (LN : ln (1 / M + sqrt (1 / M * (1 / M) - 1)) = ln (r + half_chord r t) - ln (Rabs (r - t))).
  { rewrite S2. replace (1 / M) with (r / Rabs (r - t)) by (rewrite <- Mr; field; lra).
    replace (r / Rabs (r - t) + half_chord r t / Rabs (r - t)) with ((r + half_chord r t) * / Rabs (r - t)) by (field; lra).
    rewrite ln_mult; [|lra | apply Rinv_0_lt_compat, Pa]. rewrite ln_Rinv by exact Pa. ring. }
  unfold K. rewrite LN, S1. unfold cone_vol.
  set (l1 := ln (r + half_chord r t)). set (l2 := ln (Rabs (r - t))).
  destruct (Rlt_dec t r) as [L|L].
  - assert (M = (r - t) / r) as -> by (unfold M; apply Rabs_right; apply Rle_ge, Rdiv_le_0_compat; lra). field; lra.
  - assert (M = - ((r - t) / r)) as ->.
    { unfold M. apply Rabs_left. apply Ropp_lt_cancel. rewrite Ropp_0. replace (- ((r - t) / r)) with ((t - r) / r) by (field; lra). apply Rdiv_lt_0_compat; lra. }
    rewrite acos_opp. field; lra.
Qed.
Lemma cone_vol_mid r a : 0 < r -> cone_vol r a r = 1 / 2 * (a * r * (r * (1 / 3)) * PI).
Proof.
  intros Hr. unfold cone_vol. replace (r - r) with 0 by ring. replace (0 / r) with 0 by (field; lra). rewrite acos_0. field.
Qed.
Lemma horiz_conical_code D L a h ho : 0 < D ->
  V_horiz_conical D L a h ho = if Rleb h 0 then Ok 0 else
    let t := clamp 0 D h in let V := cone_vol (D / 2) a t in
    Ok (if ho then V else 2 * V + L * segment (D / 2) t).
Proof.
  intros HD. unfold V_horiz_conical.
  assert (G : forall t, 0 < t <= D -> 
  (t0 <- pdiv (0.5 * D - t) (0.5 * D) ;; t2 <- pacos t0 ;; t3 <- psqrt (t * (0.5 * D + 0.5 * D - t)) ;;
   Vf <- (if (Reqb t (0.5 * D)) then Ok (a * (0.5 * D) * (0.5 * D * (1 / 3)) * PI)
     else t4 <- pacos (Rabs t0) ;; t5 <- pdiv 1 (Rabs t0) ;; t6 <- pacosh t5 ;; t7 <- psqrt (1 - (Rabs t0 * Rabs t0)) ;;
     if ((Rleb 0 t) && (Rltb t (0.5 * D)))%bool then Ok (2 * a * (0.5 * D) * (0.5 * D * (1 / 3)) * (t4 + Rabs t0 * Rabs t0 * Rabs t0 * t6 - 2 * Rabs t0 * t7))
     else Ok (2 * a * (0.5 * D) * (0.5 * D * (1 / 3)) * (PI - (t4 + Rabs t0 * Rabs t0 * Rabs t0 * t6 - 2 * Rabs t0 * t7)))) ;;
   if ho then Ok (0.5 * Vf) else Ok (Vf + (0.5 * D * (0.5 * D) * t2 - (0.5 * D - t) * t3) * L))
   = Ok (if ho then cone_vol (D / 2) a t else 2 * cone_vol (D / 2) a t + L * segment (D / 2) t)).
  { intros t Ht. destruct (segment_code D t HD ltac:(lra)) as (H0 & H1 & H2).
    replace (2 * (0.5 * D) * t - t * t) with (t * (0.5 * D + 0.5 * D - t)) in H2 by ring.
    rewrite H0. cbn [bind]. rewrite H1. cbn [bind]. rewrite H2. cbn [bind]. rewrite half. unfold segment.
    destruct (Reqb t (D / 2)) eqn:E; [apply Reqb_true in E | apply Reqb_false in E].
    - subst t. cbn [bind]. rewrite cone_vol_mid by lra. destruct ho; f_equal; lits; field; lra.
    - destruct (cone_K (D / 2) t ltac:(lra) ltac:(lra) E) as (HM & H1M & KV). set (M := Rabs ((D / 2 - t) / (D / 2))) in *.
      rewrite pacos_ok by lra. cbn [bind]. rewrite pdiv_ok by lra. cbn [bind]. unfold pacosh. rewrite (proj2 (Rltb_false (1 / M) 1)) by lra. cbn [bind].
      rewrite psqrt_ok by nra. cbn [bind]. rewrite (proj2 (Rleb_true 0 t)) by lra. cbn [andb]. rewrite KV.
      destruct (Rltb t (D / 2)) eqn:E2; [apply Rltb_true in E2 | apply Rltb_false in E2]; destruct (Rlt_dec t (D / 2)); try lra; cbn [bind];
      destruct ho; f_equal; lits; field; lra. }
  clamping D h; [reflexivity | rewrite clamp_high by lra | rewrite clamp_id by lra]; cbv zeta; apply G; lra.
Qed.
Theorem C80_conical : forall D L a h, 0 < D ->
  exists V, V_horiz_conical D L a h true = Ok V /\ head_volume (cone_depth (D / 2) a) (D / 2) (clamp 0 D h) V.
Proof.
  intros D L a h HD. pose proof (clamp_in 0 D h ltac:(lra)). rewrite horiz_conical_code by assumption.
  pose proof (cone_volume (D / 2) a (clamp 0 D h) ltac:(lra) ltac:(lra)) as V.
  destruct (Rleb h 0) eqn:E; [apply Rleb_true in E | apply Rleb_false in E].
  - exists 0. split; auto. rewrite clamp_nonpos in * by lra. rewrite <- (head_volume_0 _ _ _ V) at 2. exact V.
  - eexists; split; [reflexivity | exact V].
Qed.

(** ** Spherical *)
(** [quad] computes the integral of any continuous function exactly. *)
Definition exact_quad (quad : (R -> R) -> R -> R -> R) : Prop :=
  forall f a b, (forall x, continuous f x) -> is_RInt f a b (quad f a b).

Section sphere.
Context (D a : R) (HD : 0 < D) (Ha : 0 < a < D / 2).
Let r := D / 2.
Let rho := cap_radius D a.
Let z := (r * r - a * a) / (2 * a).
Lemma sp_r : 0 < r. Proof. unfold r; lra. Qed.
Lemma sp_ar : 0 < a < r. Proof. exact Ha. Qed.
Lemma sp_z : 0 < z. Proof. unfold z. pose proof sp_ar. apply Rdiv_lt_0_compat; nra. Qed.
Lemma sp_rho : 0 < rho. Proof. unfold rho, cap_radius. fold r. pose proof sp_r. pose proof sp_ar. apply Rdiv_lt_0_compat; nra. Qed.
Lemma sp_eq : rho * rho = r * r + z * z. Proof. unfold rho, cap_radius, z. fold r. pose proof sp_ar. field. lra. Qed.
Lemma sp_mid : cap_vol rho r z r = 1 / 2 * (PI / 6 * a * (3 * r * r + a * a)).
Proof.
  pose proof sp_r. pose proof sp_rho. pose proof sp_z. pose proof sp_ar. pose proof (rho_gt rho r z sp_r sp_z sp_rho sp_eq).
  unfold cap_vol, cap_q1, cap_q2. replace (r - r) with 0 by ring.
  replace ((r * r - rho * 0) / (r * (0 - rho))) with (- (r / rho)) by (field; lra).
  replace ((r * r + rho * 0) / (r * (0 + rho))) with (r / rho) by (field; lra). replace (0 / r) with 0 by (field; lra).
  rewrite acos_opp, acos_0.
  replace (1 / 3 * (rho * rho * rho) * (PI - acos (r / rho) + acos (r / rho) - z / rho * (2 + r / rho * (r / rho)) * (PI / 2)) -
    (0 * (rho * rho) - 0 * 0 * 0 / 3) * atan (half_chord r r / z) + 2 / 3 * z * (0 * half_chord r r))
    with (PI / 3 * (rho * rho * rho - z * (2 * (rho * rho) + r * r) / 2)) by (field; lra).
  unfold rho, cap_radius, z. fold r. field. lra.
Qed.
Lemma sp_full : cap_vol rho r z (2 * r) = PI / 6 * a * (3 * r * r + a * a).
Proof.
  pose proof sp_r. pose proof sp_rho. pose proof sp_z. pose proof sp_ar. pose proof (rho_gt rho r z sp_r sp_z sp_rho sp_eq).
  unfold cap_vol, cap_q1, cap_q2. replace (r - 2 * r) with (- r) by ring.
  replace ((r * r - rho * - r) / (r * (- r - rho))) with (- (1)) by (field; lra).
  replace ((r * r + rho * - r) / (r * (- r + rho))) with (- (1)) by (field; lra). replace (- r / r) with (- (1)) by (field; lra).
  rewrite acos_opp, acos_1. assert (half_chord r (2 * r) = 0) as ->.
  { unfold half_chord. replace (2 * r * (2 * r - 2 * r)) with 0 by ring. apply sqrt_0. }
  replace (0 / z) with 0 by (field; lra). rewrite atan_0.
  replace (1 / 3 * (rho * rho * rho) * (PI - 0 + (PI - 0) - z / rho * (2 + r / rho * (r / rho)) * (PI - 0)) -
    (- r * (rho * rho) - - r * - r * - r / 3) * 0 + 2 / 3 * z * (- r * 0))
    with (PI / 3 * (2 * (rho * rho * rho) - z * (2 * (rho * rho) + r * r))) by (field; lra).
  unfold rho, cap_radius, z. fold r. field. lra.
Qed.
(** the quadrature branch *)
Lemma sp_quad quad t : exact_quad quad -> 0 <= t <= 2 * r ->
  2 * quad (fun x => V_horiz_spherical_toint x (rho * rho) (r * r) (1 / (rho * rho - r * r))) (r - t) r - segment r t * z = 2 * cap_vol rho r z t.
Proof.
  intros HQ Ht. pose proof sp_r as Hr. pose proof sp_z as Hz. pose proof sp_rho as Hrho. pose proof sp_eq as Erho.
  assert (I1 := cap_volume_int rho r z Hr Hz Hrho Erho t Ht).
  assert (I2 := segment_area r t Hr Ht).
  assert (I3 : is_RInt (fun y => (rho * rho - (r - y) * (r - y)) * atan (half_chord r y / z)) 0 t (cap_vol rho r z t + z / 2 * segment r t)).
  { eapply RInt_ext; [lra | | apply RInt_plus'; [exact I1 | apply (RInt_scale _ 0 t (z / 2) _ I2)]]. intros x Hx. cbv beta. field. }
  set (f := fun x => V_horiz_spherical_toint x (rho * rho) (r * r) (1 / (rho * rho - r * r))).
  assert (CF : forall x, continuous f x).
  { intros x. unfold f, V_horiz_spherical_toint. apply cmult; [poly|].
    apply (continuous_comp (fun x => sqrt ((r * r - x * x) * (1 / (rho * rho - r * r)))) atan x).
    - apply sqrt_of_cont. poly.
    - apply of_derive. eexists; apply is_derive_atan. }
  assert (I4 := HQ f (r - t) r CF).
  (* reverse the variable *)
  assert (I5 : is_RInt (fun y => f (r - y)) 0 t (quad f (r - t) r)).
  { assert (J := is_RInt_comp_lin f (-1) r 0 t (opp (quad f (r - t) r))).
    replace (-1 * 0 + r) with r in J by ring. replace (-1 * t + r) with (r - t) in J by ring.
    specialize (J ltac:(apply (is_RInt_swap f), I4)).
    apply (is_RInt_opp (fun y => scal (-1) (f (-1 * y + r)))) in J.
    rewrite opp_opp in J. eapply RInt_ext; [lra | | exact J].
    intros x Hx. unfold scal, opp; simpl. unfold mult; simpl. replace (-1 * x + r) with (r - x) by ring. ring. }
  assert (E : quad f (r - t) r = cap_vol rho r z t + z / 2 * segment r t).
  { rewrite <- (is_RInt_unique _ _ _ _ I5). apply (is_RInt_unique (fun y => f (r - y))).
    eapply RInt_ext; [lra | | exact I3]. intros x Hx. unfold f, V_horiz_spherical_toint. f_equal. f_equal.
    replace ((r * r - (r - x) * (r - x)) * (1 / (rho * rho - r * r))) with ((x * (2 * r - x)) / (z * z)).
    2:{ replace (rho * rho - r * r) with (z * z) by lra. field; lra. }
    unfold half_chord. rewrite sqrt_div_alt by nra. rewrite sqrt_square by lra. reflexivity. }
  fold f. rewrite E. field.
Qed.
End sphere.

Theorem C80_spherical : forall quad D L a h, exact_quad quad -> 0 < D -> 0 < a <= D / 2 ->
  exists V, V_horiz_spherical quad D L a h true = Ok V /\ head_volume (cap_depth (cap_radius D a) (D / 2)) (D / 2) (clamp 0 D h) V.
Proof.
  intros quad D L a h HQ HD Ha. pose proof (clamp_in 0 D h ltac:(lra)) as Hc. unfold V_horiz_spherical.
  destruct (Rleb h 0) eqn:E; [apply Rleb_true in E | apply Rleb_false in E].
  { exists 0. split; auto. rewrite clamp_nonpos by lra. exists (fun y => 0). split; [|apply RInt_empty].
    intros y Hy. assert (y = 0) as -> by lra. unfold section_area, half_chord. replace (0 * (2 * (D / 2) - 0)) with 0 by ring.
    rewrite sqrt_0, Ropp_0. apply RInt_empty. }
  assert ((if Rltb D h then D else h) = clamp 0 D h) as ->.
  { destruct (Rltb D h) eqn:E1; [apply Rltb_true in E1; rewrite clamp_high by lra | apply Rltb_false in E1; rewrite clamp_id by lra]; reflexivity. }
  assert (Hc0 : 0 < clamp 0 D h). { unfold clamp. apply Rlt_le_trans with (Rmin D h); [apply Rmin_glb_lt; lra | apply Rmax_r]. }
  set (t := clamp 0 D h) in *. clearbody t. cbv zeta. rewrite half.
  rewrite (Rabs_right a) by lra. rewrite pdiv_ok by lra. cbn [bind].
  rewrite ?half. replace ((a * a + D / 2 * (D / 2)) / 2 / a) with (cap_radius D a) by (unfold cap_radius; field; lra).
  destruct (segment_code D t HD ltac:(lra)) as (H0 & H1 & H2). rewrite half in *. rewrite H2. cbn [bind].
  destruct (Req_dec a (D / 2)) as [Ea|Na].
  - (* hemisphere *)
    assert (Er : cap_radius D a = D / 2) by (unfold cap_radius; rewrite Ea; field; lra). rewrite Er.
    rewrite (proj2 (Reqb_true (D / 2) (D / 2))) by reflexivity. cbn [bind]. rewrite H0. cbn [bind]. rewrite H1. cbn [bind].
    rewrite (proj2 (Rleb_true a (D / 2))) by lra.
    assert (V : head_volume (cap_depth (D / 2) (D / 2)) (D / 2) t (PI * a * t * t * (1 - t / (3 * (D / 2))) / 2)).
    { destruct (ellipsoid_volume (D / 2) a t ltac:(lra) ltac:(lra)) as (S & HS & IS). exists S. split; [|exact IS].
      intros y Hy. specialize (HS y Hy). unfold section_area in *. pose proof (half_chord_nonneg (D / 2) y) as Pc.
      pose proof (half_chord_sq (D / 2) y ltac:(lra)) as Es.
      eapply RInt_ext; [lra | | exact HS]. intros x Hx. unfold ellipsoid_depth, cap_depth. rewrite Ea.
      replace (D / 2 * (D / 2) - D / 2 * (D / 2)) with 0 by ring. rewrite sqrt_0, Rminus_0_r.
      assert (Px : 0 <= D / 2 * (D / 2) - (x * x + (D / 2 - y) * (D / 2 - y))) by nra.
      replace (1 - (x * x + (D / 2 - y) * (D / 2 - y)) / (D / 2 * (D / 2))) with ((D / 2 * (D / 2) - (x * x + (D / 2 - y) * (D / 2 - y))) / (D / 2 * (D / 2))) by (field; lra).
      rewrite sqrt_div_alt by nra. rewrite (sqrt_square (D / 2)) by lra. field; lra. }
    destruct (Reqb t (D / 2)) eqn:T1; [apply Reqb_true in T1 | apply Reqb_false in T1]; cbn [andb].
    { eexists; split; [reflexivity|]. replace (0.5 * (PI / 6 * a * (3 * (D / 2) * (D / 2) + a * a))) with (PI * a * t * t * (1 - t / (3 * (D / 2))) / 2); [exact V|].
      rewrite T1, Ea. lits. field; lra. }
    destruct (Reqb t D) eqn:T2; [apply Reqb_true in T2 | apply Reqb_false in T2]; cbn [andb].
    { eexists; split; [reflexivity|]. replace (0.5 * (PI / 3 * a * (3 * (D / 2) * (D / 2) + a * a))) with (PI * a * t * t * (1 - t / (3 * (D / 2))) / 2); [exact V|].
      rewrite T2, Ea. lits. field; lra. }
    rewrite (proj2 (Reqb_true 0 0)) by reflexivity. rewrite orb_true_r. rewrite pdiv_ok by lra. cbn [bind].
    eexists; split; [reflexivity|]. replace (0.5 * (PI * a * t * t * (1 - t / (D / 2) * (1 / 3)))) with (PI * a * t * t * (1 - t / (3 * (D / 2))) / 2); [exact V|].
    lits. field; lra.
  - assert (Ha' : 0 < a < D / 2) by lra.
    pose proof (sp_r D HD) as Hr. pose proof (sp_z D a Ha') as Hz. pose proof (sp_rho D a HD Ha') as Hrho. pose proof (sp_eq D a Ha') as Erho.
    pose proof (rho_gt _ _ _ Hr Hz Hrho Erho) as Hgt.
    pose proof (sp_mid D a HD Ha') as Mid. pose proof (sp_full D a HD Ha') as Full.
    pose proof (fun t => sp_quad D a HD Ha' quad t HQ) as Qd.
    set (rho := cap_radius D a) in *. set (z := (D / 2 * (D / 2) - a * a) / (2 * a)) in *.
    assert (V := cap_volume rho (D / 2) z Hr Hz Hrho Erho t ltac:(lra)).
    rewrite (proj2 (Reqb_false rho (D / 2))) by lra.
    assert (Zeq : psqrt (rho * rho - D / 2 * (D / 2)) = Ok z).
    { replace (rho * rho - D / 2 * (D / 2)) with (z * z) by lra. rewrite psqrt_ok by nra. rewrite sqrt_square by lra. reflexivity. }
    rewrite Zeq. cbn [bind]. rewrite H0. cbn [bind]. rewrite H1. cbn [bind]. rewrite (proj2 (Rleb_true a (D / 2))) by lra.
    destruct (Reqb t (D / 2)) eqn:T1; [apply Reqb_true in T1 | apply Reqb_false in T1]; cbn [andb].
    { eexists; split; [reflexivity|]. rewrite T1 in *. replace (0.5 * (PI / 6 * a * (3 * (D / 2) * (D / 2) + a * a))) with (cap_vol rho (D / 2) z (D / 2)); [exact V|].
      rewrite Mid. lits. field. }
    destruct (Reqb t D) eqn:T2; [apply Reqb_true in T2 | apply Reqb_false in T2]; cbn [andb].
    { eexists; split; [reflexivity|]. rewrite T2 in *. replace (0.5 * (PI / 3 * a * (3 * (D / 2) * (D / 2) + a * a))) with (cap_vol rho (D / 2) z D); [exact V|].
      replace D with (2 * (D / 2)) at 2 by field. rewrite Full. lits. field. }
    rewrite (proj2 (Reqb_false t 0)) by lra. rewrite (proj2 (Reqb_false a 0)) by lra. rewrite (proj2 (Reqb_false a (D / 2))) by lra.
    rewrite (proj2 (Reqb_false a (- (D / 2)))) by lra. rewrite (proj2 (Reqb_false z 0)) by lra. cbn [orb].
    destruct (Rleb (0.01 * D) a) eqn:T3.
    + rewrite pdiv_ok by lra. cbn [bind]. rewrite pdiv_ok by lra. cbn [bind].
      rewrite pdiv_ok by (apply Rmult_integral_contrapositive_currified; lra). cbn [bind].
      pose proof (cap_q1_sq rho (D / 2) z Hr Hz Hrho Erho t ltac:(lra)) as Q1. pose proof (cap_q2_sq rho (D / 2) z Hr Hz Hrho Erho t ltac:(lra)) as Q2.
      fold (cap_q1 rho (D / 2) (D / 2 - t)). rewrite pacos_ok by (apply (sq_range _ _ Q1)). cbn [bind].
      rewrite pdiv_ok by (apply Rmult_integral_contrapositive_currified; lra). cbn [bind].
      fold (cap_q2 rho (D / 2) (D / 2 - t)). rewrite pacos_ok by (apply (sq_range _ _ Q2)). cbn [bind].
      rewrite pdiv_ok by lra. cbn [bind]. rewrite pdiv_ok by lra. cbn [bind].
      eexists; split; [reflexivity|].
      match goal with |- head_volume _ _ _ ?v => replace v with (cap_vol rho (D / 2) z t); [exact V|] end.
      unfold cap_vol. set (q1 := acos (cap_q1 _ _ _)). set (q2 := acos (cap_q2 _ _ _)). set (q3 := acos ((D / 2 - t) / (D / 2))). set (q4 := atan _).
      lits. field. lra.
    + rewrite pdiv_ok by nra. cbn [bind]. rewrite pdiv_ok by lra. cbn [bind].
      eexists; split; [reflexivity|].
      match goal with |- head_volume _ _ _ ?v => replace v with (cap_vol rho (D / 2) z t); [exact V|] end.
      specialize (Qd t ltac:(lra)). fold rho in Qd.
      change (D / 2 * (D / 2) * acos ((D / 2 - t) / (D / 2)) - (D / 2 - t) * half_chord (D / 2) t) with (segment (D / 2) t).
      rewrite Qd. replace (a / a) with 1 by (field; lra). lits. field.
Qed.

(** Without [headonly]: the cylinder of length [L] and two heads. *)
Lemma circle_segment D h : 0 < D -> A_partial_circle D h = Ok (segment (D / 2) (clamp 0 D h)).
Proof.
  intros HD. destruct (C53_circle D h HD) as (A & E & I). rewrite E. f_equal.
  rewrite <- (is_RInt_unique _ _ _ _ I). apply is_RInt_unique. apply segment_area; [lra|]. pose proof (clamp_in 0 D h ltac:(lra)). lra.
Qed.
Theorem C80_whole : forall quad D L a h, 0 < D -> exists A, A_partial_circle D h = Ok A /\
  (forall V, V_horiz_conical D L a h true = Ok V -> V_horiz_conical D L a h false = Ok (L * A + 2 * V)) /\
  (forall V, V_horiz_ellipsoidal D L a h true = Ok V -> V_horiz_ellipsoidal D L a h false = Ok (L * A + 2 * V)) /\
  (forall V, V_horiz_guppy D L a h true = Ok V -> V_horiz_guppy D L a h false = Ok (L * A + 2 * V)) /\
  (forall V, V_horiz_spherical quad D L a h true = Ok V -> V_horiz_spherical quad D L a h false = Ok (L * A + 2 * V)).
Proof.
  intros quad D L a h HD. exists (segment (D / 2) (clamp 0 D h)). split; [apply circle_segment, HD|].
  assert (Z : h <= 0 -> segment (D / 2) (clamp 0 D h) = 0) by (intros; rewrite clamp_nonpos by lra; apply segment_0; lra).
  splits; intros V E.
  - rewrite horiz_conical_code in * by assumption. destruct (Rleb h 0) eqn:H; [apply Rleb_true in H; apply Ok_inj in E; rewrite Z by lra; f_equal; lra|].
    cbv zeta in *. apply Ok_inj in E. f_equal. rewrite <- E. ring.
  - rewrite horiz_ellipsoidal_code in * by assumption. destruct (Rleb h 0) eqn:H; [apply Rleb_true in H; apply Ok_inj in E; rewrite Z by lra; f_equal; lra|].
    cbv zeta in *. apply Ok_inj in E. f_equal. rewrite <- E. ring.
  - rewrite horiz_guppy_code in * by assumption. destruct (Rleb h 0) eqn:H; [apply Rleb_true in H; apply Ok_inj in E; rewrite Z by lra; f_equal; lra|].
    cbv zeta in *. apply Ok_inj in E. f_equal. rewrite <- E. ring.
  - unfold V_horiz_spherical in *. destruct (Rleb h 0) eqn:H; [apply Rleb_true in H; apply Ok_inj in E; rewrite Z by lra; f_equal; lra|]. apply Rleb_false in H.
    assert (EC : (if Rltb D h then D else h) = clamp 0 D h).
    { destruct (Rltb D h) eqn:E1; [apply Rltb_true in E1; rewrite clamp_high by lra | apply Rltb_false in E1; rewrite clamp_id by lra]; reflexivity. }
    rewrite EC in *. pose proof (clamp_in 0 D h ltac:(lra)) as Hc. set (t := clamp 0 D h) in *. clearbody t. cbv zeta in *.
    destruct (segment_code D t HD ltac:(lra)) as (H0 & H1 & H2). rewrite H2, H0 in *. clear H2 H0.
    destruct (pdiv (0.5 * (a * a + 0.5 * D * (0.5 * D))) (Rabs a)) as [rho|]; [|discriminate]. cbn [bind] in *.
    destruct (if Reqb rho (0.5 * D) then _ else _) as [z|]; [|discriminate]. cbn [bind] in *.
    destruct (pacos ((D / 2 - t) / (D / 2))) as [c|] eqn:Ec; [|discriminate]. apply Ok_inj in H1. subst c. cbn [bind] in *.
    match type of E with bind ?m _ = _ => destruct m as [Vf|]; [|discriminate] end. cbn [bind] in *.
    apply Ok_inj in E. f_equal. rewrite <- E. unfold segment. lits. field.
Qed.

(** A head deeper than a hemisphere: the full head holds less than a hemisphere. *)
Lemma deep_full quad : V_horiz_spherical quad 2 0 2 2 true = Ok (13 * PI / 48).
Proof.
  unfold V_horiz_spherical. rewrite (proj2 (Rleb_false 2 0)) by lra. rewrite (proj2 (Rltb_false 2 2)) by lra. cbv zeta.
  rewrite (Rabs_right 2) by lra. replace (0.5 * 2) with 1 by (lits; field). rewrite pdiv_ok by lra. cbn [bind].
  replace (0.5 * (2 * 2 + 1 * 1) / 2) with (5 / 4) by (lits; field). rewrite psqrt_ok by lra. cbn [bind].
  rewrite (proj2 (Reqb_false (5 / 4) 1)) by lra.
  replace (5 / 4 * (5 / 4) - 1 * 1) with (3 / 4 * (3 / 4)) by field. rewrite psqrt_ok by lra. rewrite sqrt_square by lra. cbn [bind].
  rewrite pdiv_ok by lra. cbn [bind]. replace ((1 - 2) / 1) with (- (1)) by field. rewrite pacos_ok by lra. cbn [bind].
  rewrite acos_opp, acos_1. replace (2 * 1 * 2 - 2 * 2) with 0 by ring. rewrite sqrt_0.
  rewrite (proj2 (Reqb_false 2 1)) by lra. rewrite (proj2 (Rleb_false 2 1)) by lra. rewrite andb_false_r. cbn [andb].
  rewrite (proj2 (Reqb_false 2 0)) by lra. rewrite (proj2 (Reqb_false 2 (-(1)))) by lra. rewrite (proj2 (Reqb_false (3/4) 0)) by lra. cbn [orb].
  rewrite (proj2 (Rleb_true (0.01 * 2) 2)) by (lits; lra).
  rewrite pdiv_ok by lra. cbn [bind]. rewrite pdiv_ok by lra. cbn [bind]. rewrite pdiv_ok by lra. cbn [bind].
  replace ((1 * 1 - 5 / 4 * (1 - 2)) / (1 * (1 - 2 - 5 / 4))) with (- (1)) by field. rewrite pacos_ok by lra. rewrite acos_opp, acos_1. cbn [bind].
  rewrite pdiv_ok by lra. cbn [bind].
  replace ((1 * 1 + 5 / 4 * (1 - 2)) / (1 * (1 - 2 + 5 / 4))) with (- (1)) by field. rewrite pacos_ok by lra. rewrite acos_opp, acos_1. cbn [bind].
  rewrite pdiv_ok by lra. cbn [bind]. rewrite pdiv_ok by lra. cbn [bind].
  rewrite andb_false_r.  replace (0 / (3 / 4)) with 0 by field. rewrite atan_0. cbn [bind]. f_equal. lits. field.
Qed.
Theorem C80_deep_spherical_refuted : exists D a1 a2, 0 < a1 < a2 /\ forall quad, exists V1 V2,
  V_horiz_spherical quad D 0 a1 D true = Ok V1 /\ V_horiz_spherical quad D 0 a2 D true = Ok V2 /\ V2 < V1 /\
  exists V2', V_vertical_spherical D a2 a2 = Ok V2' /\ V1 < V2'.
Proof.
  exists 2, 1, 2. split; [lra|]. intros quad. exists (2 / 3 * PI), (13 * PI / 48). pose proof PI_RGT_0. splits.
  - unfold V_horiz_spherical. rewrite (proj2 (Rleb_false 2 0)) by lra. rewrite (proj2 (Rltb_false 2 2)) by lra. cbv zeta.
    rewrite (Rabs_right 1) by lra. replace (0.5 * 2) with 1 by (lits; field). rewrite pdiv_ok by lra. cbn [bind].
    replace (0.5 * (1 * 1 + 1 * 1) / 1) with 1 by (lits; field). rewrite psqrt_ok by lra. cbn [bind].
    rewrite (proj2 (Reqb_true 1 1)) by lra. cbn [bind].
    rewrite pdiv_ok by lra. cbn [bind]. replace ((1 - 2) / 1) with (- (1)) by field. rewrite pacos_ok by lra. cbn [bind].
    rewrite (proj2 (Reqb_false 2 1)) by lra. rewrite (proj2 (Rleb_true 1 1)) by lra. rewrite (proj2 (Reqb_true 2 2)) by lra. cbn [andb bind].
    f_equal. lits. field.
  - apply deep_full.
  - lra.
  - eexists. split.
    + unfold V_vertical_spherical. rewrite (proj2 (Rleb_false 2 0)) by lra. rewrite (proj2 (Rltb_false 2 2)) by lra. reflexivity.
    + lits. lra.
Qed.

Example C80_ex : exact_quad (fun f a b => RInt f a b) /\ 0 < 42 <= 108 / 2 /\ 0 < 36 < 108.
Proof.
  splits; try lra. intros f a b C. apply (@RInt_correct R_CompleteNormedModule). apply (@ex_RInt_continuous R_CompleteNormedModule). auto.
Qed.
Example C80_ex2 : V_horiz_ellipsoidal 2 3 1 1 true = Ok (PI / 3) /\ V_horiz_ellipsoidal 2 3 1 1 false = Ok (3 * (PI / 2) + 2 * (PI / 3)).
Proof.
  rewrite !horiz_ellipsoidal_code by lra. rewrite (proj2 (Rleb_false 1 0)) by lra. rewrite clamp_id by lra. cbv zeta. unfold segment, half_chord.
  replace ((2 / 2 - 1) / (2 / 2)) with 0 by field. rewrite acos_0. split; f_equal; field.
Qed.

(** ** C54: tube pitch *)
Section pitch.
Context (angle pitch : R) (Ha : 0 < angle < 90) (Hp : 0 < pitch).
Let t := radians angle.
Let pn := pitch * sin t.
Let pp := pitch * cos t.
Lemma pt_t : 0 < t < PI / 2. Proof. unfold t, radians. pose proof PI_RGT_0. split; nra. Qed.
Lemma pt_sin : 0 < sin t < 1.
Proof.
  pose proof pt_t. split; [apply sin_gt_0; lra|]. rewrite <- sin_PI2. apply sin_increasing_1; lra.
Qed.
Lemma pt_cos : 0 < cos t < 1.
Proof. pose proof pt_t. split; [apply cos_gt_0; lra|]. rewrite <- cos_0. apply cos_decreasing_1; lra. Qed.
Lemma pt_sq : sqrt (pn ^ 2 + pp ^ 2) = pitch.
Proof.
  replace (pn ^ 2 + pp ^ 2) with (pitch * pitch). apply sqrt_square; lra.
  pose proof (sin2_cos2 t) as E. unfold Rsqr in E. unfold pn, pp. transitivity (pitch * pitch * (sin t * sin t + cos t * cos t)); [rewrite E; ring | ring].
Qed.
Lemma pt_deg : degrees t = angle. Proof. unfold degrees, t, radians. pose proof PI_RGT_0. field. lra. Qed.
End pitch.

(** Any two of the four quantities of a triangular layout give the other two. *)
Theorem C54_any_two : forall angle pitch, 0 < angle < 90 -> 0 < pitch ->
  let pn := pitch * sin (radians angle) in let pp := pitch * cos (radians angle) in
  let all := Ok (angle, pitch, pp, pn) in
  pitch_angle_solver (Some angle) (Some pitch) None None = all /\
  pitch_angle_solver (Some angle) None (Some pp) None = all /\
  pitch_angle_solver (Some angle) None None (Some pn) = all /\
  pitch_angle_solver None (Some pitch) (Some pp) None = all /\
  pitch_angle_solver None (Some pitch) None (Some pn) = all /\
  pitch_angle_solver None None (Some pp) (Some pn) = all.
Proof.
  intros angle pitch Ha Hp pn pp all. pose proof (pt_t angle Ha). pose proof (pt_sin angle Ha). pose proof (pt_cos angle Ha).
  pose proof (pt_sq angle pitch Hp) as Sq. pose proof (pt_deg angle) as Dg. cbv zeta in *. fold pn pp in Sq.
  assert (Epn : pn / pitch = sin (radians angle)) by (unfold pn; field; lra).
  assert (Epp : pp / pitch = cos (radians angle)) by (unfold pp; field; lra).
  assert (Es : pn / sin (radians angle) = pitch) by (unfold pn; field; lra).
  assert (Ec : pp / cos (radians angle) = pitch) by (unfold pp; field; lra).
  assert (Aas : asin (sin (radians angle)) = radians angle) by (apply asin_sin; lra).
  assert (Aac : acos (cos (radians angle)) = radians angle) by (apply acos_cos; lra).
  unfold pitch_angle_solver, all. splits.
  - reflexivity.
  - rewrite pdiv_ok by lra. rewrite Ec. reflexivity.
  - rewrite pdiv_ok by lra. rewrite Es. reflexivity.
  - rewrite pdiv_ok by lra. rewrite Epp. cbn [bind]. rewrite pacos_ok by lra. rewrite Aac. cbn [bind]. cbv zeta. rewrite Dg. reflexivity.
  - rewrite pdiv_ok by lra. rewrite Epn. cbn [bind]. rewrite pasin_ok by lra. rewrite Aas. cbn [bind]. cbv zeta. rewrite Dg. reflexivity.
  - rewrite psqrt_ok by nra. rewrite Sq. cbn [bind]. rewrite pdiv_ok by lra. cbn [bind]. rewrite Epn. rewrite pasin_ok by lra. rewrite Aas. cbn [bind]. cbv zeta. rewrite Dg. reflexivity.
Qed.
(** Whatever two quantities are given, an answer is a right triangle containing them (the last pair needs [pitch_parallel >= 0]). *)
Definition right_triangle (angle pitch pp pn : R) : Prop := pn = pitch * sin (radians angle) /\ pp = pitch * cos (radians angle) /\ pitch * pitch = pp * pp + pn * pn.
Lemma triangle angle pitch pp pn : pn = pitch * sin (radians angle) -> pp = pitch * cos (radians angle) -> right_triangle angle pitch pp pn.
Proof.
  intros E1 E2. unfold right_triangle. splits; auto. pose proof (sin2_cos2 (radians angle)) as E. unfold Rsqr in E. subst.
  transitivity (pitch * pitch * (sin (radians angle) * sin (radians angle) + cos (radians angle) * cos (radians angle))); [rewrite E; ring | ring].
Qed.
Lemma rad_deg x : radians (degrees x) = x. Proof. unfold degrees, radians. pose proof PI_RGT_0. field. lra. Qed.
Lemma pacos_inv x c : pacos x = Ok c -> -1 <= x <= 1 /\ c = acos x.
Proof.
  unfold pacos. destruct (Rltb x (-1)) eqn:E1; [discriminate|]. destruct (Rltb 1 x) eqn:E2; [discriminate|]. cbn [orb]. intros E. apply Ok_inj in E.
  apply Rltb_false in E1, E2. split; [lra | congruence].
Qed.
Lemma pasin_inv x c : pasin x = Ok c -> -1 <= x <= 1 /\ c = asin x.
Proof.
  unfold pasin. destruct (Rltb x (-1)) eqn:E1; [discriminate|]. destruct (Rltb 1 x) eqn:E2; [discriminate|]. cbn [orb]. intros E. apply Ok_inj in E.
  apply Rltb_false in E1, E2. split; [lra | congruence].
Qed.
Lemma pdiv_inv a b c : pdiv a b = Ok c -> b <> 0 /\ c = a / b.
Proof.
  unfold pdiv. destruct (Reqb b 0) eqn:E; [discriminate|]. apply Reqb_false in E. intros H. apply Ok_inj in H. auto.
Qed.
Theorem C54_consistent : forall angle pitch pp pn r1 r2 r3 r4,
  (pitch_angle_solver (Some angle) (Some pitch) None None = Ok (r1, r2, r3, r4) -> r1 = angle /\ r2 = pitch /\ right_triangle r1 r2 r3 r4) /\
  (pitch_angle_solver (Some angle) None (Some pp) None = Ok (r1, r2, r3, r4) -> r1 = angle /\ r3 = pp /\ right_triangle r1 r2 r3 r4) /\
  (pitch_angle_solver (Some angle) None None (Some pn) = Ok (r1, r2, r3, r4) -> r1 = angle /\ r4 = pn /\ right_triangle r1 r2 r3 r4) /\
  (pitch_angle_solver None (Some pitch) (Some pp) None = Ok (r1, r2, r3, r4) -> r2 = pitch /\ r3 = pp /\ right_triangle r1 r2 r3 r4) /\
  (pitch_angle_solver None (Some pitch) None (Some pn) = Ok (r1, r2, r3, r4) -> r2 = pitch /\ r4 = pn /\ right_triangle r1 r2 r3 r4) /\
  (0 <= pp -> pitch_angle_solver None None (Some pp) (Some pn) = Ok (r1, r2, r3, r4) -> r3 = pp /\ r4 = pn /\ right_triangle r1 r2 r3 r4).
Proof.
  intros. unfold pitch_angle_solver. splits; intros E.
  - injection E as <- <- <- <-. splits; auto. apply triangle; reflexivity.
  - destruct (pdiv pp (cos (radians angle))) as [x|] eqn:H; [|discriminate]. apply pdiv_inv in H as [N H]. cbn [bind] in E. cbv zeta in E.
    injection E as <- <- <- <-. splits; auto. apply triangle; auto. subst x. field. auto.
  - destruct (pdiv pn (sin (radians angle))) as [x|] eqn:H; [|discriminate]. apply pdiv_inv in H as [N H]. cbn [bind] in E. cbv zeta in E.
    injection E as <- <- <- <-. splits; auto. apply triangle; auto. subst x. field. auto.
  - destruct (pdiv pp pitch) as [x|] eqn:H; [|discriminate]. apply pdiv_inv in H as [N H]. cbn [bind] in E.
    destruct (pacos x) as [c|] eqn:Hc; [|discriminate]. apply pacos_inv in Hc as [B Hc]. cbn [bind] in E. cbv zeta in E.
    injection E as <- <- <- <-. splits; auto. apply triangle; auto. rewrite rad_deg. subst c. rewrite cos_acos by lra. subst x. field. auto.
  - destruct (pdiv pn pitch) as [x|] eqn:H; [|discriminate]. apply pdiv_inv in H as [N H]. cbn [bind] in E.
    destruct (pasin x) as [c|] eqn:Hc; [|discriminate]. apply pasin_inv in Hc as [B Hc]. cbn [bind] in E. cbv zeta in E.
    injection E as <- <- <- <-. splits; auto. apply triangle; auto. rewrite rad_deg. subst c. rewrite sin_asin by lra. subst x. field. auto.
  - intros E'. rewrite psqrt_ok in E' by nra. cbn [bind] in E'.
    destruct (pdiv pn (sqrt (pn ^ 2 + pp ^ 2))) as [x|] eqn:H; [|discriminate]. apply pdiv_inv in H as [N H]. cbn [bind] in E'.
    destruct (pasin x) as [c|] eqn:Hc; [|discriminate]. apply pasin_inv in Hc as [B Hc]. cbn [bind] in E'. cbv zeta in E'.
    apply Ok_inj in E'. injection E' as <- <- <- <-. splits; auto. set (s := sqrt (pn ^ 2 + pp ^ 2)) in *.
    assert (Ps : 0 < s) by (pose proof (sqrt_pos (pn ^ 2 + pp ^ 2)); unfold s in *; lra).
    assert (Es : s * s = pn ^ 2 + pp ^ 2) by (apply sqrt_sqrt; nra).
    change (sqrt (pn * (pn * 1) + pp * (pp * 1))) with s. clearbody s.
    apply triangle; rewrite rad_deg; subst c.
    + rewrite sin_asin by lra. subst x. field. lra.
    + rewrite cos_asin by lra. subst x. unfold Rsqr. replace (1 - pn / s * (pn / s)) with ((pp / s) * (pp / s)).
      * rewrite sqrt_square; [field; lra|]. unfold Rdiv; apply Rmult_le_pos; [lra | left; apply Rinv_0_lt_compat; lra].
      * field_simplify_eq; [|lra]. rewrite <- (Rmult_1_r (s ^ 2)). nra.
Qed.
Theorem C54_needs_two : forall x,
  pitch_angle_solver None None None None = Err ValueError /\ pitch_angle_solver (Some x) None None None = Err ValueError /\
  pitch_angle_solver None (Some x) None None = Err ValueError /\ pitch_angle_solver None None (Some x) None = Err ValueError /\
  pitch_angle_solver None None None (Some x) = Err ValueError.
Proof. intros; splits; reflexivity. Qed.
(** With a negative parallel pitch the angle is that of the mirrored triangle. *)
Theorem C54_negative_refuted : exists r1 r2 r3 r4, pitch_angle_solver None None (Some (-3)) (Some 4) = Ok (r1, r2, r3, r4) /\ ~ right_triangle r1 r2 r3 r4.
Proof.
  unfold pitch_angle_solver. rewrite psqrt_ok by lra. cbn [bind]. replace (4 ^ 2 + (-3) ^ 2) with (5 * 5) by ring. rewrite sqrt_square by lra.
  rewrite pdiv_ok by lra. cbn [bind]. rewrite pasin_ok by lra. cbn [bind]. do 4 eexists. split; [reflexivity|].
  intros (_ & E & _). rewrite rad_deg in E. pose proof (asin_bound (4 / 5)). pose proof (cos_ge_0 (asin (4/5)) ltac:(lra) ltac:(lra)). lra.
Qed.
Example C54_ex : 0 < 30 < 90 /\ pitch_angle_solver None None (Some 4) (Some 3) = Ok (degrees (asin (3 / 5)), 5, 4, 3).
Proof.
  split; [lra|]. unfold pitch_angle_solver. rewrite psqrt_ok by lra. cbn [bind]. replace (3 ^ 2 + 4 ^ 2) with (5 * 5) by ring. rewrite sqrt_square by lra.
  rewrite pdiv_ok by lra. cbn [bind]. rewrite pasin_ok by lra. reflexivity.
Qed.

Print Assumptions C80_ellipsoidal.
Print Assumptions C80_guppy.
Print Assumptions C80_conical.
Print Assumptions C80_spherical.
Print Assumptions C80_whole.
Print Assumptions C80_deep_spherical_refuted.
Print Assumptions C54_any_two.
Print Assumptions C54_consistent.
Print Assumptions C54_needs_two.
Print Assumptions C54_negative_refuted.
