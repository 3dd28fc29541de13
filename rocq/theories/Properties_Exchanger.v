(** Helical coils, plate and fin exchangers, cooling towers and air coolers. *)
From Coq Require Import Reals String List Bool Arith ZArith QArith Lra Lia Psatz.
From Coquelicot Require Import Coquelicot.
From Flocq Require Import Core.
From Verif Require Import Base Model_Real Proofs_Real Interval Model_Geometry Model_Exchanger.
Open Scope R_scope. Local Close Scope Q_scope.

Lemma psqrt_val x y : psqrt x = Ok y -> 0 <= x /\ y = sqrt x.
Proof. unfold psqrt. destruct (Rltb x 0) eqn:E; [discriminate|]. rewrite Rltb_false in E. intros H. split; [lra|congruence]. Qed.
Lemma pdiv_val a b y : pdiv a b = Ok y -> b <> 0 /\ y = a / b.
Proof. unfold pdiv. destruct (Reqb b 0) eqn:E; [discriminate|]. rewrite Reqb_false in E. intros H. split; [auto|congruence]. Qed.

Lemma div_back a b : b <> 0 -> a / b * b = a. Proof. intros. field. auto. Qed.

(** *** Helical coils *)
(** the centre line: a helix of diameter Do that climbs [pitch] per turn *)
Definition helix_speed (Do pitch t : R) : R :=
  sqrt (Derive (fun t => Do / 2 * cos t) t ^ 2 + Derive (fun t => Do / 2 * sin t) t ^ 2 + Derive (fun t => pitch * t / (2 * PI)) t ^ 2).
Lemma helix_const Do pitch t : helix_speed Do pitch t = sqrt ((Do / 2) ^ 2 + (pitch / (2 * PI)) ^ 2).
Proof.
  unfold helix_speed. pose proof PI_RGT_0.
  assert (D1 : Derive (fun t => Do / 2 * cos t) t = - (Do / 2 * sin t)) by (apply is_derive_unique; auto_derive; auto; ring).
  assert (D2 : Derive (fun t => Do / 2 * sin t) t = Do / 2 * cos t) by (apply is_derive_unique; auto_derive; auto; ring).
  assert (D3 : Derive (fun t => pitch * t / (2 * PI)) t = pitch / (2 * PI)) by (apply is_derive_unique; auto_derive; auto; field; lra).
  rewrite D1, D2, D3. f_equal. pose proof (sin2_cos2 t) as S. unfold Rsqr in S. replace ((- (Do / 2 * sin t)) ^ 2 + (Do / 2 * cos t) ^ 2) with ((Do / 2) ^ 2 * (sin t * sin t + cos t * cos t)) by ring. rewrite S. ring.
Qed.
(** whatever is given, the attributes belong to one coil, and given values are kept *)
Theorem C105_coil Dt Do pitch H N H_total Do_total c : HelicalCoil Dt Do pitch H N H_total Do_total = Ok c ->
  c_Dt c = Dt /\ Dt <= c_Do c /\ c_H c = c_N c * c_pitch c /\ c_H_total c = c_H c + Dt /\ c_Do_total c = c_Do c + Dt /\
  (forall n, N = Some n -> c_N c = n) /\ (forall p, pitch = Some p -> c_pitch c = p) /\
  (forall x, Do_total = Some x -> c_Do_total c = x) /\ (forall x, Do_total = None -> Do = Some x -> c_Do c = x) /\
  (N = None \/ pitch = None -> (forall x, H_total = Some x -> c_H_total c = x) /\ (forall x, H_total = None -> H = Some x -> c_H c = x)).
Proof.
  unfold HelicalCoil. cbv zeta. intros E. inv_bind E. rename v into D. inv_bind E. destruct v as [[n p] h]. destruct (Rltb D Dt) eqn:L; [discriminate|]. rewrite Rltb_false in L. inv_bind E. inv_bind E. inv_bind E. inv_bind E. injection E as <-. cbn.
  assert (W : h = n * p /\ (forall x, N = Some x -> n = x) /\ (forall x, pitch = Some x -> p = x) /\ (N = None \/ pitch = None -> match H_total with Some x => h = x - Dt | None => forall x, H = Some x -> h = x end)).
  { clear - E1. unfold coil_winding in E1. destruct N as [n'|], pitch as [p'|].
    - injection E1 as <- <- <-. splits; auto; try congruence. intros [U|U]; discriminate.
    - destruct H_total as [ht|]; [|destruct H as [h'|]; [|discriminate]]; inv_bind E1; apply pdiv_val in E as [Z ->]; destruct (Rltb _ _) in E1; try discriminate; injection E1 as <- <- <-; (splits; try congruence; try (field; auto); try (intros; congruence)).
    - destruct H_total as [ht|]; [|destruct H as [h'|]; [|discriminate]]; inv_bind E1; apply pdiv_val in E as [Z ->]; destruct (Rltb _ _) in E1; try discriminate; injection E1 as <- <- <-; (splits; try congruence; try (field; auto); try (intros; congruence)).
    - destruct H_total; [|destruct H]; discriminate. }
  destruct W as (W1 & W2 & W3 & W4). splits; auto; try lra.
  - intros x ->. injection E0 as <-. lra.
  - intros x -> ->. injection E0 as <-. auto.
  - intros U. specialize (W4 U). split; intros x ->; [lra|auto].
Qed.
(** the three ways to describe a coil whose turns do not collide give the same coil *)
Theorem C105_same Dt Do pitch N : 0 < Dt -> Dt <= pitch -> Dt <= Do -> 0 < N -> exists c,
  HelicalCoil Dt (Some Do) (Some pitch) None (Some N) None None = Ok c /\
  HelicalCoil Dt (Some Do) (Some pitch) (Some (N * pitch)) None None None = Ok c /\
  HelicalCoil Dt (Some Do) None (Some (N * pitch)) (Some N) None None = Ok c /\
  HelicalCoil Dt None (Some pitch) None None (Some (N * pitch + Dt)) (Some (Do + Dt)) = Ok c /\
  HelicalCoil Dt None None None (Some N) (Some (N * pitch + Dt)) (Some (Do + Dt)) = Ok c.
Proof.
  intros H1 H2 H3 H4. pose proof PI_RGT_0. unfold HelicalCoil, coil_winding. cbv zeta. replace (N * pitch + Dt - Dt) with (N * pitch) by ring. replace (Do + Dt - Dt) with Do by ring. cbn [bind]. rewrite (pdiv_ok _ pitch) by lra. rewrite (pdiv_ok _ N) by lra. cbn [bind]. replace (N * pitch / pitch) with N by (field; lra). replace (N * pitch / N) with pitch by (field; lra). rewrite (proj2 (Rltb_false pitch Dt)) by lra. cbn [bind]. rewrite (proj2 (Rltb_false Do Dt)) by lra.
  rewrite psqrt_ok by (apply Rplus_le_le_0_compat; apply pow2_ge_0). cbn [bind]. rewrite pdiv_ok by nra. cbn [bind]. rewrite pdiv_ok by lra. cbn [bind]. assert (0 <= (tan (atan (pitch / (PI * Do)))) ^ 2) by apply pow2_ge_0. assert (0 <= PI ^ 2) by apply pow2_ge_0. rewrite pdiv_ok by nra. cbn [bind]. eexists. splits; reflexivity.
Qed.
(** colliding turns are refused, but only when the height is given *)
Theorem C105_collide Dt Do pitch N : 0 < Dt -> 0 < pitch < Dt -> Dt <= Do -> 0 < N ->
  HelicalCoil Dt (Some Do) (Some pitch) (Some (N * pitch)) None None None = Err ValueError /\ HelicalCoil Dt (Some Do) None (Some (N * pitch)) (Some N) None None = Err ValueError.
Proof.
  intros H1 H2 H3 H4. unfold HelicalCoil, coil_winding. cbv zeta. cbn [bind]. rewrite !pdiv_ok by lra. cbn [bind]. replace (N * pitch / N) with pitch by (field; lra). rewrite (proj2 (Rltb_true pitch Dt)) by lra. auto.
Qed.
Theorem C105_collide_refuted : exists c, HelicalCoil 1 (Some 2) (Some 0.5) None (Some 10) None None = Ok c /\ c_pitch c < c_Dt c /\ HelicalCoil 1 (Some 2) (Some 0.5) (Some (10 * 0.5)) None None None = Err ValueError.
Proof.
  assert (K : exists c, HelicalCoil 1 (Some 2) (Some 0.5) None (Some 10) None None = Ok c).
  { unfold HelicalCoil, coil_winding. cbv zeta. cbn [bind]. pose proof PI_RGT_0. rewrite (proj2 (Rltb_false 2 1)) by lra. rewrite psqrt_ok by (apply Rplus_le_le_0_compat; apply pow2_ge_0). cbn [bind]. rewrite pdiv_ok by lra. cbn [bind]. rewrite pdiv_ok by lra. cbn [bind]. assert (0 <= (tan (atan (0.5 / (PI * 2)))) ^ 2) by apply pow2_ge_0. assert (0 <= PI ^ 2) by apply pow2_ge_0. rewrite pdiv_ok by nra. eexists. reflexivity. }
  destruct K as [c K]. exists c. split; auto. destruct (C105_coil _ _ _ _ _ _ _ _ K) as (D & _ & _ & _ & _ & _ & P & _). rewrite D, (P 0.5 eq_refl). split; [lits; lra|]. apply (C105_collide 1 2 0.5 10); lits; lra.
Qed.
(** the tube is as long as the helix; its angle, surface and volumes follow *)
Theorem C105_length Dt Do pitch H N H_total Do_total c : HelicalCoil Dt Do pitch H N H_total Do_total = Ok c -> 0 < Dt -> 0 <= c_N c ->
  is_RInt (helix_speed (c_Do c) (c_pitch c)) 0 (2 * PI * c_N c) (c_tube_length c) /\
  c_tube_length c * cos (c_helix_angle c) = c_N c * (PI * c_Do c) /\ c_tube_length c * sin (c_helix_angle c) = c_H c /\ c_tube_length c = sqrt ((PI * c_Do c * c_N c) ^ 2 + c_H c ^ 2) /\
  c_surface_area c = PI * Dt * c_tube_length c /\ c_total_volume c = PI * (Dt / 2) ^ 2 * c_tube_length c /\
  c_curvature c = Dt / c_Do c / (1 + (2 * c_pitch c / c_Do c) ^ 2) /\ 0 < c_curvature c <= 1.
Proof.
  intros E HD HN. destruct (C105_coil _ _ _ _ _ _ _ _ E) as (C1 & C2 & C3 & _). pose proof PI_RGT_0 as HP. unfold HelicalCoil in E. cbv zeta in E. inv_bind E. rename v into D. inv_bind E. destruct v as [[n p] h]. destruct (Rltb D Dt) eqn:L; [discriminate|]. inv_bind E. rename v into l. inv_bind E. rename v into q. inv_bind E. rename v into s. inv_bind E. rename v into k. injection E as <-. cbn in *.
  apply psqrt_val in E2 as [_ E2]. apply pdiv_val in E3 as [N3 E3]. apply pdiv_val in E4 as [N4 E4]. apply pdiv_val in E5 as [_ E5]. rewrite tan_atan in E5. rename C2 into DD. assert (D0 : 0 < D) by lra.
  set (v := sqrt ((D / 2) ^ 2 + (p / (2 * PI)) ^ 2)). assert (Hl : l = 2 * PI * n * v).
  { subst l h. unfold v. rewrite <- (sqrt_pow2 (2 * PI * n)) at 1 by nra. rewrite <- sqrt_mult_alt by apply pow2_ge_0. f_equal. field. lra. }
  assert (V0 : 0 < v) by (apply sqrt_lt_R0; assert (0 < (D / 2) ^ 2) by (apply pow_lt; lra); pose proof (pow2_ge_0 (p / (2 * PI))); lra).
  assert (SQ : sqrt (1 + (p / (PI * D))²) = 2 * v / D). { unfold v. replace (1 + (p / (PI * D))²) with (((D / 2) ^ 2 + (p / (2 * PI)) ^ 2) * (2 / D) ^ 2) by (unfold Rsqr; field; lra). rewrite sqrt_mult_alt by (pose proof (pow2_ge_0 (D / 2)); pose proof (pow2_ge_0 (p / (2 * PI))); lra). rewrite sqrt_pow2 by (left; apply Rdiv_lt_0_compat; lra). field. lra. }
  splits.
  - apply (is_RInt_ext (fun _ => v)); [intros; symmetry; apply helix_const|]. assert (I := @is_RInt_const R_NormedModule 0 (2 * PI * n) v). replace (scal (2 * PI * n - 0) (v : R_NormedModule)) with l in I by (unfold scal; cbn; unfold mult; cbn; subst l; lra). exact I.
  - subst q. rewrite cos_atan, SQ, Hl. field. lra.
  - subst q. rewrite sin_atan, SQ, Hl. subst h. field. lra.
  - rewrite E2. reflexivity.
  - ring.
  - field.
  - subst k s q. unfold Rsqr. field. assert (0 <= p * p) by nra. split; [nra|]. assert (0 < D * D) by nra. nra.
  - subst k s. apply Rdiv_lt_0_compat; [apply Rdiv_lt_0_compat; lra|]. pose proof (pow2_ge_0 q). pose proof (pow2_ge_0 PI). nra.
  - subst k s. assert (0 < Dt / D <= 1). { split; [apply Rdiv_lt_0_compat; lra|]. apply Rmult_le_reg_r with D; auto. replace (Dt / D * D) with Dt by (field; lra). lra. } assert (1 <= 1 + 4 * PI ^ 2 * q ^ 2) by (pose proof (pow2_ge_0 q); pose proof (pow2_ge_0 PI); nra). replace (4 * (PI * (PI * 1)) * (q * (q * 1))) with (4 * PI ^ 2 * q ^ 2) by ring. set (z := 1 + 4 * PI ^ 2 * q ^ 2) in *. clearbody z. set (y := Dt / D) in *. clearbody y. apply Rmult_le_reg_r with z; [lra|]. replace (y / z * z) with y by (field; lra). lra.
Qed.
Theorem C105_inside Dt Do pitch H N H_total Do_total c Di : HelicalCoil Dt Do pitch H N H_total Do_total = Ok c -> let '(inner_surface, inlet, inner, annulus, wall) := coil_inside c Di in
  inner_surface = PI * Di * c_tube_length c /\ inlet = PI * (Di / 2) ^ 2 /\ annulus = PI / 4 * (Dt ^ 2 - Di ^ 2) /\ inner + wall = c_total_volume c /\ wall = annulus * c_tube_length c /\ inner = inlet * c_tube_length c.
Proof.
  intros E. unfold HelicalCoil in E. cbv zeta in E. inv_bind E. inv_bind E. destruct v0 as [[n p] h]. destruct (Rltb _ Dt); [discriminate|]. inv_bind E. inv_bind E. inv_bind E. inv_bind E. injection E as <-. cbn. splits; field.
Qed.
Example C105_case : exists c, HelicalCoil 0.12 (Some 30) None (Some 20) (Some 5) None None = Ok c /\ c_pitch c = 4 /\ 450 < c_tube_length c < 601.
Proof.
  destruct (C105_same 0.12 30 4 5 ltac:(lits; lra) ltac:(lits; lra) ltac:(lits; lra) ltac:(lra)) as (c & E & _ & E3 & _). replace (5 * 4) with 20 in E3 by ring. exists c. split; auto. destruct (C105_coil _ _ _ _ _ _ _ _ E) as (_ & _ & HH & _ & _ & HN & HP & _ & HD & _). split; [apply HP; auto|].
  destruct (C105_length _ _ _ _ _ _ _ _ E) as (_ & _ & _ & L & _); [lits; lra|rewrite (HN 5 eq_refl); lra|]. rewrite L, HH, (HN 5 eq_refl), (HP 4 eq_refl), (HD 30 eq_refl eq_refl). pose proof PI_4. assert (3 <= PI) by (pose proof PI2_3_2; lra). split; itv1 PI 3%Q 4%Q 0%nat.
Qed.

(** *** Plate exchangers *)
(** one wave of the plate: amplitude a, wavelength w *)
Definition profile (a w x : R) : R := a * sin (2 * PI / w * x).
Definition slope_factor (k t : R) : R := sqrt (1 + k ^ 2 * cos t ^ 2).
Lemma is_RInt_val (f : R -> R) a b (l l' : R) : is_RInt f a b l -> l = l' -> is_RInt f a b l'.
Proof. now intros ? <-. Qed.
Section arc.
  Variable k : R.
  Let E := ellipe (- k ^ 2).
  Let g := fun t => sqrt (1 - - k ^ 2 * sin t ^ 2).
  Lemma g_cont t : continuous g t.
  Proof. apply (continuous_comp (fun t => 1 - - k ^ 2 * sin t ^ 2) sqrt); [|apply continuous_sqrt]. apply (ex_derive_continuous (fun t => 1 - - k ^ 2 * sin t ^ 2)). auto_derive. auto. Qed.
  Lemma arc_quarter : is_RInt g 0 (PI / 2) E.
  Proof. apply (@RInt_correct R_CompleteNormedModule). apply ex_RInt_continuous. intros. apply g_cont. Qed.
  Lemma sf_g t : slope_factor k t = g (PI / 2 - t).
  Proof. unfold slope_factor, g. rewrite sin_shift. f_equal. ring. Qed.
  Lemma sf_g' t : slope_factor k t = g (1 * t + - (PI / 2)).
  Proof. unfold slope_factor, g. replace (1 * t + - (PI / 2)) with (- (PI / 2 - t)) by ring. rewrite sin_neg, sin_shift. f_equal. ring. Qed.
  Lemma arc_1 : is_RInt (slope_factor k) 0 (PI / 2) E.
  Proof.
    assert (I := is_RInt_comp_lin g (-1) (PI / 2) 0 (PI / 2) (opp E)). replace (-1 * 0 + PI / 2) with (PI / 2) in I by ring. replace (-1 * (PI / 2) + PI / 2) with 0 in I by ring. specialize (I (is_RInt_swap _ _ _ _ arc_quarter)). apply is_RInt_opp in I. rewrite opp_opp in I. eapply is_RInt_ext; [|exact I]. intros x _. cbn beta. unfold opp, scal; cbn; unfold mult; cbn. rewrite sf_g. replace (-1 * x + PI / 2) with (PI / 2 - x) by ring. ring.
  Qed.
  Lemma arc_2 : is_RInt (slope_factor k) (PI / 2) PI E.
  Proof.
    assert (I := is_RInt_comp_lin g 1 (- (PI / 2)) (PI / 2) PI E). replace (1 * (PI / 2) + - (PI / 2)) with 0 in I by ring. replace (1 * PI + - (PI / 2)) with (PI / 2) in I by field. specialize (I arc_quarter). eapply is_RInt_ext; [|exact I]. intros x _. cbn beta. unfold scal; cbn; unfold mult; cbn. rewrite sf_g'. ring.
  Qed.
  Lemma arc_half : is_RInt (slope_factor k) 0 PI (2 * E).
  Proof. eapply is_RInt_val; [eapply is_RInt_Chasles; [exact arc_1|exact arc_2]|]. unfold plus; cbn; ring. Qed.
  Lemma arc_full : is_RInt (slope_factor k) 0 (2 * PI) (4 * E).
  Proof.
    assert (P : is_RInt (slope_factor k) PI (2 * PI) (2 * E)); [|eapply is_RInt_val; [eapply is_RInt_Chasles; [exact arc_half|exact P]|unfold plus; cbn; ring]]. assert (I := is_RInt_comp_lin (slope_factor k) 1 (- PI) PI (2 * PI) (2 * E)). replace (1 * PI + - PI) with 0 in I by ring. replace (1 * (2 * PI) + - PI) with PI in I by ring. specialize (I arc_half). eapply is_RInt_ext; [|exact I]. intros x _. cbn beta. unfold scal; cbn; unfold mult; cbn. unfold slope_factor. replace (1 * x + - PI) with (- (PI - x)) by ring. rewrite cos_neg. replace (PI - x) with (- x + PI) by ring. rewrite neg_cos, cos_neg. rewrite Rmult_1_l. f_equal. ring.
  Qed.
  Lemma ellipe_bounds : PI / 2 <= E <= PI / 2 * sqrt (1 + k ^ 2).
  Proof.
    pose proof PI_RGT_0. assert (C : forall a : R, is_RInt (fun _ => a) 0 (PI / 2) (PI / 2 * a)). { intros a. assert (I := @is_RInt_const R_NormedModule 0 (PI / 2) a). replace (scal (PI / 2 - 0) (a : R_NormedModule)) with (PI / 2 * a) in I by (unfold scal; cbn; unfold mult; cbn; ring). exact I. }
    pose proof (pow2_ge_0 k). split.
    - replace (PI / 2) with (PI / 2 * 1) at 1 by ring. eapply (is_RInt_le (fun _ => 1) g 0 (PI / 2)); [lra|apply C|exact arc_quarter|]. intros x _. unfold g. pose proof (pow2_ge_0 (sin x)). rewrite <- sqrt_1 at 1. apply sqrt_le_1_alt. nra.
    - eapply (is_RInt_le g (fun _ => sqrt (1 + k ^ 2)) 0 (PI / 2)); [lra|exact arc_quarter|apply C|]. intros x _. unfold g. apply sqrt_le_1_alt. pose proof (SIN_bound x). assert (sin x ^ 2 <= 1) by nra. nra.
  Qed.
End arc.
Lemma ellipe_mono k k' : 0 <= k <= k' -> ellipe (- k ^ 2) <= ellipe (- k' ^ 2).
Proof. intros H. pose proof PI_RGT_0. eapply is_RInt_le; [|apply arc_quarter|apply arc_quarter|]; [lra|]. intros x _. cbn beta. apply sqrt_le_1_alt. pose proof (pow2_ge_0 (sin x)). assert (k ^ 2 <= k' ^ 2) by (apply pow_incr; lra). nra. Qed.
(** the factor is the length of a wave over its wavelength: at least 1, larger for deeper waves *)
Theorem C106_factor a w : w <> 0 -> exists phi, plate_enlargement_factor a w = Ok phi /\ is_RInt (fun x => sqrt (1 + Derive (profile a w) x ^ 2)) 0 w (w * phi) /\
  1 <= phi <= sqrt (1 + (2 * PI * a / w) ^ 2).
Proof.
  intros Hw. pose proof PI_RGT_0. unfold plate_enlargement_factor. cbv zeta. rewrite pdiv_ok by nra. cbn [bind]. set (k := 2 * PI * a / w). replace (- (2 * a) * (2 * a) * PI * PI / (w * w)) with (- k ^ 2) by (unfold k; field; auto). eexists. split; [reflexivity|]. split.
  - assert (I := is_RInt_comp_lin (slope_factor k) (2 * PI / w) 0 0 w (4 * ellipe (- k ^ 2))). replace (2 * PI / w * 0 + 0) with 0 in I by ring. replace (2 * PI / w * w + 0) with (2 * PI) in I by (field; auto). specialize (I (arc_full k)). apply (is_RInt_scal _ _ _ (w / (2 * PI))) in I. eapply is_RInt_val; [eapply is_RInt_ext; [|exact I]|unfold scal; cbn; unfold mult; cbn; field; lra]. intros x _. cbn beta. unfold scal; cbn; unfold mult; cbn. rewrite Rplus_0_r. unfold slope_factor.
    assert (D : Derive (profile a w) x = k * cos (2 * PI / w * x)) by (apply is_derive_unique; unfold profile; auto_derive; auto; unfold k; field; auto). rewrite D. set (z := sqrt _) at 1. replace (w / (2 * PI) * (2 * PI / w * z)) with z by (field; lra). unfold z. f_equal. ring.
  - destruct (ellipe_bounds k) as [B1 B2]. split.
    + apply Rmult_le_reg_r with PI; auto. replace (2 * ellipe (- k ^ 2) / PI * PI) with (2 * ellipe (- k ^ 2)) by (field; lra). lra.
    + apply Rmult_le_reg_r with PI; auto. replace (2 * ellipe (- k ^ 2) / PI * PI) with (2 * ellipe (- k ^ 2)) by (field; lra). lra.
Qed.
Theorem C106_factor_rises a a' w : 0 <= a <= a' -> 0 < w -> exists phi phi', plate_enlargement_factor a w = Ok phi /\ plate_enlargement_factor a' w = Ok phi' /\ phi <= phi'.
Proof.
  intros Ha Hw. pose proof PI_RGT_0. unfold plate_enlargement_factor. cbv zeta. rewrite !pdiv_ok by nra. cbn [bind]. do 2 eexists. split; [reflexivity|]. split; [reflexivity|]. replace (- (2 * a) * (2 * a) * PI * PI / (w * w)) with (- (2 * PI * a / w) ^ 2) by (field; lra). replace (- (2 * a') * (2 * a') * PI * PI / (w * w)) with (- (2 * PI * a' / w) ^ 2) by (field; lra).
  assert (K : 0 <= 2 * PI * a / w <= 2 * PI * a' / w) by (split; [apply Rmult_le_pos; [nra|left; apply Rinv_0_lt_compat; auto]|apply Rmult_le_compat_r; [left; apply Rinv_0_lt_compat; auto|nra]]). pose proof (ellipe_mono _ _ K). apply Rmult_le_compat_r; [left; apply Rinv_0_lt_compat; auto|lra].
Qed.
(** the hydraulic diameter is four times the flow area of a channel over its wetted perimeter; two plates are not used for exchange *)
Theorem C106_plates a w angle angles width length d_port n p : 0 < a -> 0 < w -> 0 < width -> PlateExchanger a w angle angles (Some width) (Some length) d_port (Some n) = Ok p ->
  exists area channels flow, p_A_heat_transfer p = Some area /\ p_channels p = Some channels /\ p_channels_per_fluid p = Some (channels / 2) /\ p_A_channel_flow p = Some flow /\
  p_D_hydraulic p = 4 * flow / (2 * width * p_factor p) /\ p_D_hydraulic p <= p_D_eq p /\ area = (channels - 1) * (length * width * p_factor p) /\ channels = n - 1 /\
  plate_enlargement_factor a w = Ok (p_factor p) /\ p_beta p + p_inclination p = 90 /\ p_beta p = (fst (p_angles p) + snd (p_angles p)) / 2 /\ p_gamma p * w = 2 * p_b p.
Proof.
  intros Ha Hw HW E. unfold PlateExchanger in E. destruct (C106_factor a w ltac:(lra)) as (phi & F & _ & B & _). rewrite F in E. cbv zeta in E. set (pr := match angles with Some (a1, a2) => _ | None => _ end) in E. assert (PR : fst pr = (fst (snd pr) + snd (snd pr)) / 2). { unfold pr. destruct angles as [[a1 a2]|]; cbn [fst snd]; lits; lra. } clearbody pr. destruct pr as [beta ang]. rewrite pdiv_ok in E by lra. cbn [bind] in E. rewrite pdiv_ok in E by lra. cbn [bind] in E. injection E as <-. cbn in PR |- *. do 3 eexists. split; [reflexivity|]. split; [reflexivity|]. split; [f_equal; lits; lra|]. split; [reflexivity|].
  splits; auto; try lra.
  - field. lra.
  - apply Rmult_le_reg_r with phi; [lra|]. replace (4 * a / phi * phi) with (4 * a) by (field; lra). nra.
  - field. lra.
Qed.
Example C106_case : exists phi, plate_enlargement_factor 0.0005 0.0037 = Ok phi /\ 1 <= phi < 1.48.
Proof. destruct (C106_factor 0.0005 0.0037 ltac:(lits; lra)) as (phi & E & _ & B1 & B2). exists phi. splits; auto. eapply Rle_lt_trans; [apply B2|]. pose proof PI_4. assert (3 <= PI) by (pose proof PI2_3_2; lra). itv1 PI 3%Q 4%Q 0%nat. Qed.

(** *** Fin exchangers *)
(** plain fins: what is called the blockage ratio is the open part of a cell (the documentation calls it the blocked part); the hydraulic diameter is
    four times the area of a channel over its perimeter *)
Theorem C107_fins h t s : 0 < t -> t < h -> t < s -> exists f, RectangularFinExchanger h t s = Ok f /\
  f_A_channel f = (s - t) * (h - t) /\ f_blockage_ratio f = f_A_channel f / (s * h) /\ 0 < f_blockage_ratio f < 1 /\
  f_P_channel f = 2 * f_channel_width f + 2 * f_channel_height f /\ f_Dh f * f_P_channel f = 4 * f_A_channel f /\ f_fin_count f * s = 1 /\
  Rmin (s - t) (h - t) <= f_Dh f <= Rmax (s - t) (h - t).
Proof.
  intros H1 H2 H3. unfold RectangularFinExchanger. rewrite pdiv_ok by lra. cbn [bind]. rewrite pdiv_ok by nra. cbn [bind]. cbv zeta. rewrite pdiv_ok by lra. cbn [bind]. eexists. split; [reflexivity|]. cbn. set (x := s - t) in *. set (y := h - t) in *. assert (X : 0 < x) by (unfold x; lra). assert (Y : 0 < y) by (unfold y; lra). replace s with (x + t) by (unfold x; ring). replace h with (y + t) by (unfold y; ring). clearbody x y.
  assert (O : ((x + t) * (y + t) - (x + t) * t - y * t) / ((x + t) * (y + t)) = x * y / ((x + t) * (y + t))) by (field; split; lra). assert (P : 0 < (x + t) * (y + t)) by (apply Rmult_lt_0_compat; lra). assert (Q : 0 < x * y) by (apply Rmult_lt_0_compat; lra). splits; auto.
  - rewrite O. apply Rdiv_lt_0_compat; auto.
  - rewrite O. apply Rmult_lt_reg_r with ((x + t) * (y + t)); auto. replace (x * y / ((x + t) * (y + t)) * ((x + t) * (y + t))) with (x * y) by (field; split; lra). nra.
  - field. lra.
  - field. lra.
  - apply Rmult_le_reg_r with (2 * x + 2 * y); [lra|]. replace (4 * (x * y) / (2 * x + 2 * y) * (2 * x + 2 * y)) with (4 * (x * y)) by (field; lra). unfold Rmin. destruct (Rle_dec x y); nra.
  - apply Rmult_le_reg_r with (2 * x + 2 * y); [lra|]. replace (4 * (x * y) / (2 * x + 2 * y) * (2 * x + 2 * y)) with (4 * (x * y)) by (field; lra). unfold Rmax. destruct (Rle_dec x y); nra.
Qed.
(** "the fraction of the layer which is blocked to flow" is 81 % for fins that fill a fifth of it *)
Theorem C107_blockage_refuted : exists f, RectangularFinExchanger 1 0.1 1 = Ok f /\ f_blockage_ratio f = 0.81 /\ 1 - f_A_channel f / (1 * 1) = 0.19.
Proof. unfold RectangularFinExchanger. rewrite pdiv_ok by lra. cbn [bind]. rewrite pdiv_ok by lra. cbn [bind]. cbv zeta. rewrite pdiv_ok by (lits; lra). cbn [bind]. eexists. split; [reflexivity|]. cbn. lits. lra. Qed.
(** offset strips: Kim's ratio is the blocked part; the surface of a strip includes its front and back, so that the hydraulic diameter is below that
    of the plain channel, which is Kays and London's *)
Theorem C107_strips l h t s : 0 < t -> t < h -> 2 * t < s -> 0 < l -> exists x f, RectangularOffsetStripFinExchanger l h t s = Ok x /\ RectangularFinExchanger h t s = Ok f /\
  s_blockage_Kim x = 1 - s_A_channel x / (s * h) /\ s_blockage_Kim x + f_blockage_ratio f = 1 /\ s_A_channel x = f_A_channel f /\ s_P_channel x = f_P_channel f /\
  s_Dh_Kays_London x = f_Dh f /\ s_Dh x * s_A x = 4 * (s_A_channel x * l) /\ s_A x = s_P_channel x * l + 2 * (t * (h - t)) + t * (s - 2 * t) /\
  0 < s_Dh x < s_Dh_Kays_London x /\ 0 < s_Dh_Joshi_Webb x < s_Dh_Kays_London x /\ s_alpha x = s / h /\ s_delta x = t / l /\ s_gamma x = t / s.
Proof.
  intros H1 H2 H3 H4. destruct (C107_fins h t s H1 H2 ltac:(lra)) as (f & E & F1 & F2 & F3 & F4 & F5 & F6 & _). assert (A1 : 0 < l * (h - t)) by (apply Rmult_lt_0_compat; lra). assert (A2 : 0 < l * (s - t)) by (apply Rmult_lt_0_compat; lra). assert (A3 : 0 < t * (h - t)) by (apply Rmult_lt_0_compat; lra). assert (A4 : 0 < t * (s - 2 * t)) by (apply Rmult_lt_0_compat; lra). assert (A5 : 0 < (h - t) * (s - t)) by (apply Rmult_lt_0_compat; lra). assert (A6 : 0 < (h - t) * (s - 2 * t)) by (apply Rmult_lt_0_compat; lra).
  unfold RectangularOffsetStripFinExchanger. rewrite !(pdiv_ok _ s), !(pdiv_ok _ h), !(pdiv_ok _ (h * s)), !(pdiv_ok _ l) by nra. cbn [bind]. cbv zeta. rewrite pdiv_ok by lra. cbn [bind]. rewrite pdiv_ok by lra. cbn [bind]. rewrite pdiv_ok by lra. cbn [bind]. do 2 eexists. split; [reflexivity|]. split; [exact E|]. cbn [s_blockage s_blockage_Kim s_alpha s_delta s_gamma s_A_channel s_A s_Dh s_P_channel s_Dh_Kays_London s_Dh_Joshi_Webb].
  assert (FW : f_channel_width f = s - t /\ f_channel_height f = h - t). { unfold RectangularFinExchanger in E. inv_bind E. inv_bind E. cbv zeta in E. inv_bind E. injection E as <-. auto. } destruct FW as [FW FH]. rewrite FW, FH in F4.
  assert (KL : 4 * ((h - t) * (s - t)) / (2 * (h - t) + 2 * (s - t)) = f_Dh f). { rewrite F4, F1 in F5. apply Rmult_eq_reg_r with (2 * (s - t) + 2 * (h - t)); [|lra]. rewrite F5. field. lra. }
  assert (HH : 0 < h * s) by (apply Rmult_lt_0_compat; lra).
  splits.
  - field. split; lra.
  - rewrite F2, F1. field. split; lra.
  - rewrite F1. ring.
  - rewrite F4. ring.
  - exact KL.
  - field. lra.
  - ring.
  - apply Rdiv_lt_0_compat; nra.
  - apply Rmult_lt_reg_r with (2 * (l * (h - t) + l * (s - t) + t * (h - t)) + t * (s - 2 * t)); [lra|]. match goal with |- ?a / ?b * ?b < _ => replace (a / b * b) with a by (field; lra) end. apply Rmult_lt_reg_r with (2 * (h - t) + 2 * (s - t)); [lra|]. match goal with |- _ < ?a / ?b * ?c * ?b => replace (a / b * c * b) with (a * c) by (field; lra) end. set (Ac := (h - t) * (s - t)) in *. clearbody Ac. nra.
  - apply Rdiv_lt_0_compat; nra.
  - apply Rmult_lt_reg_r with (l * (h - t) + l * (s - t) + t * (h - t)); [lra|]. match goal with |- ?a / ?b * ?b < _ => replace (a / b * b) with a by (field; lra) end. apply Rmult_lt_reg_r with (2 * (h - t) + 2 * (s - t)); [lra|]. match goal with |- _ < ?a / ?b * ?c * ?b => replace (a / b * c * b) with (a * c) by (field; lra) end. assert (B : (h - t) * (s - 2 * t) < (h - t) * (s - t)) by (apply Rmult_lt_compat_l; lra). set (p := l * (h - t) + l * (s - t)) in *. replace (2 * l * (h - t) * (s - 2 * t) * (2 * (h - t) + 2 * (s - t))) with (4 * ((h - t) * (s - 2 * t)) * p) by (unfold p; ring). assert (0 < p) by (unfold p; lra). set (u := (h - t) * (s - 2 * t)) in *. set (v := (h - t) * (s - t)) in *. clearbody p u v. assert (u * p < v * p) by (apply Rmult_lt_compat_r; lra). assert (0 < v * (t * (h - t))) by (apply Rmult_lt_0_compat; lra). lra.
  - reflexivity.
  - reflexivity.
  - reflexivity.
Qed.
(** the stack: fins counted to the nearest whole number, area and size of all layers *)
Theorem C107_stack h count P L W pt n : 0 < L -> 0 < W -> 0 < h -> 0 < pt -> exists k, overall_geometry h count P L W pt n = Ok k /\
  Rabs (k_layer_fin_count k - count * W) <= / 2 /\ (exists z, k_layer_fin_count k = IZR z) /\ k_A_HX k = INR n * (k_layer_fin_count k * (P * L)) /\
  k_height k = INR n * h + INR (S n) * pt /\ k_volume k = L * W * k_height k /\ k_A_specific_HX k * k_volume k = k_A_HX k.
Proof.
  intros HL HW Hh Hp. unfold overall_geometry. cbv zeta. pose proof (pos_INR n). assert (V : 0 < L * W * ((pt + h) * INR n + pt)) by (apply Rmult_lt_0_compat; [apply Rmult_lt_0_compat; auto|nra]). rewrite pdiv_ok by lra. cbn [bind]. eexists. split; [reflexivity|]. cbn [k_layer_fin_count k_A_HX k_height k_volume k_A_specific_HX]. splits.
  - rewrite Rabs_minus_sym. apply Znearest_half.
  - eexists. reflexivity.
  - ring.
  - rewrite S_INR. ring.
  - reflexivity.
  - set (v := L * W * _) in *. clearbody v. field. lra.
Qed.
Example C107_case : exists f, RectangularFinExchanger 0.03 0.001 0.012 = Ok f /\ f_A_channel f = 0.000319.
Proof. destruct (C107_fins 0.03 0.001 0.012 ltac:(lits; lra) ltac:(lits; lra) ltac:(lits; lra)) as (f & E & A & _). exists f. split; auto. rewrite A. lits. lra. Qed.

(** *** Hyperbolic cooling towers *)
(** the diameter at height x above or below the throat *)
Definition hyperbola (Dt b x : R) : R := Dt * sqrt (x * x + b * b) / b.
Lemma hyperbola_at Dt x0 D0 : 0 < Dt < D0 -> 0 < x0 -> let b := Dt * x0 / sqrt (D0 ^ 2 - Dt ^ 2) in 0 < b /\ hyperbola Dt b x0 = D0.
Proof.
  intros H Hx b. assert (Q : 0 < D0 ^ 2 - Dt ^ 2) by nra. assert (S : 0 < sqrt (D0 ^ 2 - Dt ^ 2)) by (apply sqrt_lt_R0; auto). assert (B : 0 < b) by (apply Rdiv_lt_0_compat; nra). split; auto. unfold hyperbola. assert (E : x0 * x0 + b * b = (D0 * b / Dt) ^ 2). { assert (K : b * sqrt (D0 ^ 2 - Dt ^ 2) = Dt * x0) by (unfold b; field; lra). assert (K2 : b * b * (D0 ^ 2 - Dt ^ 2) = Dt * x0 * (Dt * x0)) by (rewrite <- (sqrt_sqrt (D0 ^ 2 - Dt ^ 2)) by lra; rewrite <- K; ring). assert (K3 : b * b * D0 ^ 2 = Dt ^ 2 * (x0 * x0 + b * b)) by lra. replace ((D0 * b / Dt) ^ 2) with (b * b * D0 ^ 2 / Dt ^ 2) by (field; lra). rewrite K3. field. lra. }
  rewrite E. rewrite sqrt_pow2 by (left; apply Rdiv_lt_0_compat; nra). field. lra.
Qed.
Lemma hyperbola_mono Dt b x y : 0 < Dt -> 0 < b -> 0 <= x -> x < y -> hyperbola Dt b x < hyperbola Dt b y.
Proof. intros H1 H2 H3 H4. unfold hyperbola, Rdiv. apply Rmult_lt_compat_r; [apply Rinv_0_lt_compat; auto|]. apply Rmult_lt_compat_l; auto. apply sqrt_lt_1_alt. nra. Qed.
Lemma hyperbola_0 Dt b : 0 < b -> hyperbola Dt b 0 = Dt.
Proof. intros. unfold hyperbola. replace (0 * 0 + b * b) with (b * b) by ring. rewrite sqrt_square by lra. field. lra. Qed.
Lemma diameter_val t H : 0 < t_b_lower t -> 0 < t_b_upper t ->
  tower_diameter t H = Ok (if Rle_dec H (t_H_throat t) then hyperbola (t_D_throat t) (t_b_lower t) (t_H_throat t - H) else hyperbola (t_D_throat t) (t_b_upper t) (H - t_H_throat t)).
Proof.
  intros Hl Hu. unfold tower_diameter. destruct (Rle_dec H (t_H_throat t)) as [L|L].
  - rewrite (proj2 (Rleb_true _ _)) by auto. rewrite psqrt_ok by nra. cbn [bind]. rewrite pdiv_ok by lra. cbn [bind]. unfold hyperbola. f_equal. field. lra.
  - rewrite (proj2 (Rleb_false _ _)) by lra. rewrite psqrt_ok by nra. cbn [bind]. rewrite pdiv_ok by lra. cbn [bind]. unfold hyperbola. f_equal. field. lra.
Qed.
(** what the user expects of a tower: the named diameters are met at the named heights, it is narrowest at the throat, narrows below and widens above,
    and both parts are hyperbolas *)
Definition well_built (t : tower) (H_inlet D_outlet H_outlet : R) : Prop :=
  tower_diameter t 0 = Ok (t_D_base t) /\ tower_diameter t H_inlet = Ok (t_D_inlet t) /\ tower_diameter t (t_H_throat t) = Ok (t_D_throat t) /\ tower_diameter t H_outlet = Ok D_outlet /\
  (forall x y, x < y -> exists dx dy, tower_diameter t x = Ok dx /\ tower_diameter t y = Ok dy /\ (y <= t_H_throat t -> dy < dx) /\ (t_H_throat t <= x -> dx < dy) /\ t_D_throat t <= dx) /\
  (forall x d, tower_diameter t x = Ok d -> (d / t_D_throat t) ^ 2 - ((x - t_H_throat t) / (if Rle_dec x (t_H_throat t) then t_b_lower t else t_b_upper t)) ^ 2 = 1).
Lemma built t H_inlet D_outlet H_outlet : 0 < t_D_throat t < D_outlet -> 0 < t_b_lower t -> 0 <= H_inlet < t_H_throat t -> t_H_throat t < H_outlet ->
  t_b_upper t = t_D_throat t * (H_outlet - t_H_throat t) / sqrt (D_outlet ^ 2 - t_D_throat t ^ 2) ->
  hyperbola (t_D_throat t) (t_b_lower t) (t_H_throat t - 0) = t_D_base t -> hyperbola (t_D_throat t) (t_b_lower t) (t_H_throat t - H_inlet) = t_D_inlet t -> well_built t H_inlet D_outlet H_outlet.
Proof.
  intros HD Hb HI HO EU EB EI. destruct (hyperbola_at (t_D_throat t) (H_outlet - t_H_throat t) D_outlet HD ltac:(lra)) as [BU AU]. cbv zeta in AU, BU. rewrite <- EU in AU, BU. assert (V := diameter_val t). unfold well_built. splits.
  - rewrite V by auto. destruct (Rle_dec _ _); [|lra]. now rewrite EB.
  - rewrite V by auto. destruct (Rle_dec _ _); [|lra]. now rewrite EI.
  - rewrite V by auto. destruct (Rle_dec _ _); [|lra]. rewrite Rminus_diag_eq by auto. now rewrite hyperbola_0.
  - rewrite V by auto. destruct (Rle_dec _ _); [lra|]. now rewrite AU.
  - intros x y Hxy. rewrite !V by auto. do 2 eexists. split; [reflexivity|]. split; [reflexivity|]. assert (P : forall b z, 0 < b -> 0 <= z -> t_D_throat t <= hyperbola (t_D_throat t) b z). { intros b z B [Z|<-]; [|rewrite hyperbola_0 by auto; lra]. rewrite <- (hyperbola_0 (t_D_throat t) b) at 1 by auto. left. apply hyperbola_mono; lra. }
    splits.
    + intros U. destruct (Rle_dec x _); [|lra]. destruct (Rle_dec y _); [|lra]. apply hyperbola_mono; lra.
    + intros U. destruct (Rle_dec y _); [lra|]. destruct (Rle_dec x _); [|apply hyperbola_mono; lra]. replace (t_H_throat t - x) with 0 by lra. rewrite hyperbola_0 by auto. rewrite <- (hyperbola_0 (t_D_throat t) (t_b_upper t)) at 1 by auto. apply hyperbola_mono; lra.
    + destruct (Rle_dec x _); apply P; lra.
  - intros x d. rewrite V by auto. intros E. assert (K : forall b z, 0 < b -> (hyperbola (t_D_throat t) b z / t_D_throat t) ^ 2 - (z / b) ^ 2 = 1). { intros b z B. unfold hyperbola. replace ((t_D_throat t * sqrt (z * z + b * b) / b / t_D_throat t) ^ 2) with (sqrt (z * z + b * b) * sqrt (z * z + b * b) / (b * b)) by (field; lra). rewrite sqrt_sqrt by nra. field. lra. }
    destruct (Rle_dec _ _); injection E as <-; [|apply K; auto]. replace (((x - t_H_throat t) / t_b_lower t) ^ 2) with (((t_H_throat t - x) / t_b_lower t) ^ 2) by (field; lra). apply K; auto.
Qed.
(** from the inlet diameter; throat height and diameter as given or two thirds of the height and 63 % of the inlet *)
Theorem C108_from_inlet H_inlet D_outlet H_outlet Di D_throat H_throat :
  let Ht := match H_throat with Some x => x | None => 2 / 3 * H_outlet end in let Dt := match D_throat with Some x => x | None => 0.63 * Di end in
  0 <= H_inlet < Ht -> Ht < H_outlet -> 0 < Dt < Di -> Dt < D_outlet ->
  exists t, HyperbolicCoolingTower H_inlet D_outlet H_outlet (Some Di) None D_throat H_throat = Ok t /\ t_H_throat t = Ht /\ t_D_throat t = Dt /\ t_D_inlet t = Di /\ well_built t H_inlet D_outlet H_outlet.
Proof.
  intros Ht Dt HI HO HD HDo. unfold HyperbolicCoolingTower. fold Ht. cbv zeta. assert (E : (match D_throat with Some D => Ok D | None => Ok (0.63 * Di) end) = Ok Dt) by (unfold Dt; destruct D_throat; reflexivity). rewrite E. cbn [bind]. clearbody Ht Dt. clear E.
  assert (Q : 0 < Di ^ 2 - Dt ^ 2) by nra. assert (S : 0 < sqrt (Di ^ 2 - Dt ^ 2)) by (apply sqrt_lt_R0; auto). assert (Q' : 0 < D_outlet ^ 2 - Dt ^ 2) by nra. assert (S' : 0 < sqrt (D_outlet ^ 2 - Dt ^ 2)) by (apply sqrt_lt_R0; auto). destruct (hyperbola_at Dt (Ht - H_inlet) Di HD ltac:(lra)) as [B A]. cbv zeta in A, B.
  rewrite psqrt_ok by lra. cbn [bind]. rewrite pdiv_ok by lra. cbn [bind]. set (b := Dt * (Ht - H_inlet) / _) in *. rewrite psqrt_ok by (pose proof (pow2_ge_0 Ht); pose proof (pow2_ge_0 b); lra). cbn [bind]. rewrite pdiv_ok by lra. cbn [bind]. rewrite psqrt_ok by lra. cbn [bind]. rewrite pdiv_ok by lra. cbn [bind]. eexists. split; [reflexivity|]. cbn [t_H_throat t_D_throat t_D_inlet]. splits; auto. apply built; cbn [t_H_throat t_D_throat t_D_inlet t_D_base t_b_lower t_b_upper]; auto; try lra.
  unfold hyperbola. replace ((Ht - 0) * (Ht - 0) + b * b) with (Ht ^ 2 + b ^ 2) by ring. field. lra.
Qed.
(** from the diameter at the ground; a given inlet diameter is replaced *)
Theorem C108_from_base H_inlet D_outlet H_outlet D_inlet Db Dt H_throat :
  let Ht := match H_throat with Some x => x | None => 2 / 3 * H_outlet end in
  0 <= H_inlet < Ht -> Ht < H_outlet -> 0 < Dt < Db -> Dt < D_outlet ->
  exists t, HyperbolicCoolingTower H_inlet D_outlet H_outlet D_inlet (Some Db) (Some Dt) H_throat = Ok t /\ t_H_throat t = Ht /\ t_D_throat t = Dt /\ t_D_base t = Db /\ well_built t H_inlet D_outlet H_outlet.
Proof.
  intros Ht HI HO HD HDo. unfold HyperbolicCoolingTower. fold Ht. cbv zeta. cbn [bind]. clearbody Ht.
  assert (Q : 0 < Db ^ 2 - Dt ^ 2) by nra. assert (S : 0 < sqrt (Db ^ 2 - Dt ^ 2)) by (apply sqrt_lt_R0; auto). assert (Q' : 0 < D_outlet ^ 2 - Dt ^ 2) by nra. assert (S' : 0 < sqrt (D_outlet ^ 2 - Dt ^ 2)) by (apply sqrt_lt_R0; auto). destruct (hyperbola_at Dt Ht Db HD ltac:(lra)) as [B A]. cbv zeta in A, B.
  rewrite psqrt_ok by lra. cbn [bind]. rewrite pdiv_ok by lra. cbn [bind]. set (b := Dt * Ht / _) in *. rewrite psqrt_ok by (pose proof (pow2_ge_0 (Ht - H_inlet)); pose proof (pow2_ge_0 b); lra). cbn [bind]. rewrite pdiv_ok by lra. cbn [bind]. rewrite psqrt_ok by lra. cbn [bind]. rewrite pdiv_ok by lra. cbn [bind]. eexists. split; [reflexivity|]. cbn [t_H_throat t_D_throat t_D_base]. splits; auto. apply built; cbn [t_H_throat t_D_throat t_D_inlet t_D_base t_b_lower t_b_upper]; auto; try lra.
  - rewrite Rminus_0_r. exact A.
  - unfold hyperbola. replace ((Ht - H_inlet) * (Ht - H_inlet) + b * b) with ((Ht - H_inlet) ^ 2 + b ^ 2) by ring. field. lra.
Qed.
(** too little is refused *)
Theorem C108_refused H_inlet D_outlet H_outlet D_base D_throat H_throat :
  HyperbolicCoolingTower H_inlet D_outlet H_outlet None D_base None H_throat = Err ValueError /\ HyperbolicCoolingTower H_inlet D_outlet H_outlet None None D_throat H_throat = Err ValueError.
Proof. unfold HyperbolicCoolingTower. cbv zeta. split; [reflexivity|]. destruct D_throat; reflexivity. Qed.
Example C108_case : exists t, HyperbolicCoolingTower 14.5 89 200 (Some 136.18) None None None = Ok t /\ tower_diameter t 14.5 = Ok 136.18 /\ tower_diameter t 200 = Ok 89.
Proof. destruct (C108_from_inlet 14.5 89 200 136.18 None None) as (t & E & _ & _ & I & _ & W2 & _ & W4 & _); try (lits; lra). exists t. rewrite I in W2. auto. Qed.

(** *** Air coolers *)
Section air.
  Variables (rows passes tpr : nat) (L d th : R) (angle pitch pp pn ratio fd fh dens intv : option R) (bays bundles : nat) (corbels : bool) (c : cooler).
  Notation built_cooler := (AirCooledExchanger rows passes tpr L d th angle pitch pp pn ratio fd fh dens intv bays bundles corbels = Ok c).
  (** numbers of tubes and fin sizes belong together; given values are kept *)
  Theorem C109_sizes : built_cooler ->
    a_tubes c = INR (tpr * rows * bundles * bays) /\ a_tubes_per_bay c = INR (tpr * rows * bundles) /\ a_tubes_per_bundle c = INR (tpr * rows) /\
    a_fin_diameter c = d + 2 * a_fin_height c /\ a_fin_interval c * a_fin_density c = 1 /\ a_pitch_ratio c * d = a_pitch c /\
    a_pitch_diagonal c = sqrt (a_pitch_parallel c ^ 2 + (a_pitch_normal c / 2) ^ 2) /\
    (forall x, fd = Some x -> a_fin_diameter c = x) /\ (forall x, fd = None -> fh = Some x -> a_fin_height c = x) /\
    (forall x, dens = Some x -> a_fin_density c = x) /\ (forall x, dens = None -> intv = Some x -> a_fin_interval c = x) /\
    (ratio = None -> pitch_angle_solver angle pitch pp pn = Ok (a_angle c, a_pitch c, a_pitch_parallel c, a_pitch_normal c)).
  Proof.
    intros E. unfold AirCooledExchanger in E. inv_bind E. rename v into P. inv_bind E. destruct v as [[[an pi_] ppl] pnm]. inv_bind E. rename v into rt. inv_bind E. rename v into dg. inv_bind E. destruct v as [fh' fd']. inv_bind E. destruct v as [iv dn]. cbv zeta in E. inv_bind E. inv_bind E. inv_bind E. inv_bind E. injection E as <-. cbn [a_tubes a_tubes_per_bay a_tubes_per_bundle a_fin_diameter a_fin_height a_fin_interval a_fin_density a_pitch_ratio a_pitch a_pitch_diagonal a_pitch_parallel a_pitch_normal a_angle].
    apply pdiv_val in E2 as [N3 ->]. apply psqrt_val in E3 as [_ ->]. rewrite !mult_INR.
    assert (F : fd' = d + 2 * fh' /\ (forall x, fd = Some x -> fd' = x) /\ (forall x, fd = None -> fh = Some x -> fh' = x)). { destruct fd as [x|]; [|destruct fh as [x|]; [|discriminate]]; injection E4 as <- <-; splits; try congruence; lits; lra. }
    assert (G : iv * dn = 1 /\ (forall x, dens = Some x -> dn = x) /\ (forall x, dens = None -> intv = Some x -> iv = x)). { destruct dens as [x|]; [|destruct intv as [x|]; [|discriminate]]; inv_bind E5; apply pdiv_val in E as [Z ->]; injection E5 as <- <-; splits; try congruence; field; auto. }
    splits; try tauto; try ring.
    - field. auto.
    - f_equal. lits. field.
    - intros ->. assert (P = pitch) by (destruct pitch; congruence). congruence.
  Qed.
  (** area per tube: the tube between n fins, and both faces and the rim of each fin; every level has as many times as much as it has tubes *)
  Theorem C109_areas : built_cooler -> let n := a_fin_density c * L in
    per_tube (a_total c) = PI * d * (L - n * th) + n * (2 * (PI / 4 * (a_fin_diameter c ^ 2 - d ^ 2)) + PI * a_fin_diameter c * th) /\ per_tube (a_bare c) = PI * d * L /\
    (forall A, A = a_bare c \/ A = a_showing c \/ A = a_fin c \/ A = a_total c -> per_row A = per_tube A * INR tpr /\ per_bundle A = per_tube A * a_tubes_per_bundle c /\ per_bay A = per_tube A * a_tubes_per_bay c /\ overall A = per_tube A * a_tubes c) /\
    (0 < L -> 0 < d -> 0 < th -> 0 < a_fin_height c -> 0 < a_fin_interval c -> 0 < a_tubes c -> 1 < a_increase c).
  Proof.
    intros E n. destruct (C109_sizes E) as (_ & _ & _ & FD & FI & _). subst n. unfold AirCooledExchanger in E. inv_bind E. rename v into P. inv_bind E. destruct v as [[[an pi_] ppl] pnm]. inv_bind E. rename v into rt. inv_bind E. rename v into dg. inv_bind E. destruct v as [fh' fd']. inv_bind E. destruct v as [iv dn]. cbv zeta in E. inv_bind E. rename v into u. inv_bind E. rename v into inc. inv_bind E. inv_bind E. injection E as <-.
    cbn [a_tubes a_tubes_per_bay a_tubes_per_bundle a_fin_diameter a_fin_height a_fin_interval a_fin_density a_total a_bare a_showing a_fin a_increase levels_sum multiples overall per_tube per_row per_bundle per_bay] in *.
    apply pdiv_val in E6 as [N6 E6]. assert (U : u = dn * th) by (subst u; apply Rmult_eq_reg_r with iv; auto; replace (th / iv * iv) with (th * (iv * dn)) by (rewrite FI; field; auto); ring). clear E6.
    splits.
    - rewrite U. field.
    - reflexivity.
    - intros A [->|[->|[->| ->]]]; cbn; splits; ring.
    - intros HL Hd Ht Hf Hi Hn. apply pdiv_val in E7 as [N7 ->]. set (tubes := INR tpr * INR rows * INR bundles * INR bays) in *. assert (HP : 0 < PI) by apply PI_RGT_0. assert (Hdn : 0 < dn) by (apply Rmult_lt_reg_r with iv; auto; rewrite Rmult_0_l, Rmult_comm, FI; lra). assert (B : 0 < PI * d * L * tubes) by (apply Rmult_lt_0_compat; auto; apply Rmult_lt_0_compat; auto; apply Rmult_lt_0_compat; auto). apply Rmult_lt_reg_r with (PI * d * L * tubes); auto. rewrite div_back by exact N7. rewrite U.
      assert (S : 0 < dn * L * PI * (2 / 4 * (fd' ^ 2 - d ^ 2) + (fd' - d) * th)) by (subst fd'; apply Rmult_lt_0_compat; [apply Rmult_lt_0_compat; auto; apply Rmult_lt_0_compat; auto|]; assert (0 < fh' * th) by (apply Rmult_lt_0_compat; auto); assert (0 < d * fh') by (apply Rmult_lt_0_compat; auto); assert (0 < fh' ^ 2) by (apply pow_lt; auto); lra).
      assert (0 < dn * L * PI * (2 / 4 * (fd' ^ 2 - d ^ 2) + (fd' - d) * th) * tubes) by (apply Rmult_lt_0_compat; auto). lra.
  Qed.
  (** air side: the free area is the smaller of the two gaps, a positive part of the face when there are gaps; tube side: the tubes shared among the passes *)
  Theorem C109_flow : built_cooler ->
    a_min c = Rmin (a_diagonal c) (a_normal c) * INR (bundles * bays) /\ a_face c = a_face_bundle c * INR (bundles * bays) /\
    (0 < L -> 0 < a_pitch_normal c -> 0 < a_diagonal c -> 0 < a_normal c -> 0 < d -> 0 <= th -> 0 <= a_fin_height c -> 0 < a_fin_density c -> 0 < a_contraction c < 1) /\
    (forall k, passes <> 0%nat -> rows = (k * passes)%nat -> a_channels c * INR passes = a_tubes_per_bundle c) /\ (Nat.modulo rows passes <> 0%nat -> a_channels c = INR tpr).
  Proof.
    intros E. unfold AirCooledExchanger in E. inv_bind E. rename v into P. inv_bind E. destruct v as [[[an pi_] ppl] pnm]. inv_bind E. rename v into rt. inv_bind E. rename v into dg. inv_bind E. destruct v as [fh' fd']. inv_bind E. destruct v as [iv dn]. cbv zeta in E. inv_bind E. rename v into u. inv_bind E. rename v into inc. inv_bind E. rename v into con. inv_bind E. rename v into ch. injection E as <-.
    cbn [a_min a_diagonal a_normal a_face a_face_bundle a_pitch_normal a_fin_height a_fin_density a_contraction a_channels a_tubes_per_bundle]. rewrite !mult_INR. splits.
    - ring.
    - ring.
    - intros HL Hp Hdi Hno Hd Ht Hf Hdn. apply pdiv_val in E8 as [N8 ->]. set (row := INR tpr) in *. pose proof (pos_INR bundles). pose proof (pos_INR bays). assert (Hr : 0 <= row) by apply pos_INR. set (i := if corbels then 0.5 else 1) in *. assert (Hi : 0 < i) by (unfold i; destruct corbels; lits; lra). set (D := 2 * row * L * _ + 0) in *. set (M := row * L * _ + 0) in *. assert (HM : M <= pnm * L * row). { unfold M. assert (0 <= 2 * dn * fh' * th) by (apply Rmult_le_pos; auto; apply Rmult_le_pos; lra). assert (0 <= row * L) by (apply Rmult_le_pos; lra). assert (0 <= row * L * (d + 2 * dn * fh' * th)) by (apply Rmult_le_pos; lra). lra. }
      assert (HF : M < pnm * L * (row + i)) by (assert (0 < pnm * L * i) by (repeat apply Rmult_lt_0_compat; auto); lra). set (F := pnm * L * (row + i)) in *. assert (Hm : 0 < Rmin D M < F) by (unfold Rmin; destruct (Rle_dec D M); lra). set (m := Rmin D M) in *. clearbody m F. assert (B1 : INR bundles <> 0) by (intros Z; apply N8; rewrite Z; ring). assert (B2 : INR bays <> 0) by (intros Z; apply N8; rewrite Z; ring). replace (m * INR bundles * INR bays / (F * INR bundles * INR bays)) with (m / F) by (field; splits; auto; lra). split; [apply Rdiv_lt_0_compat; lra|]. apply Rmult_lt_reg_r with F; [lra|]. replace (m / F * F) with m by (field; lra). lra.
    - intros k HP HR. rewrite (proj2 (Nat.eqb_neq _ _) HP) in E9. rewrite HR in E9. rewrite Nat.mod_mul in E9 by auto. cbn [Nat.eqb] in E9. apply pdiv_val in E9 as [N9 ->]. rewrite <- HR. field. auto.
    - intros HM. destruct (Nat.eqb passes 0) eqn:Z; [discriminate|]. rewrite (proj2 (Nat.eqb_neq _ _) HM) in E9. congruence.
  Qed.
End air.
(** "pitch_ratio may take the place of pitch": given alone it is refused, given with a pitch it replaces it *)
Theorem C109_pitch_ratio_refuted rows passes tpr L d th angle pp pn r fd fh dens intv bays bundles corbels :
  AirCooledExchanger rows passes tpr L d th angle None pp pn (Some r) fd fh dens intv bays bundles corbels = Err ValueError /\
  (forall p p', AirCooledExchanger rows passes tpr L d th angle (Some p) pp pn (Some r) fd fh dens intv bays bundles corbels = AirCooledExchanger rows passes tpr L d th angle (Some p') pp pn (Some r) fd fh dens intv bays bundles corbels).
Proof. split; reflexivity. Qed.
(** what is missing is refused *)
Theorem C109_refused rows passes tpr L d th angle pitch pp pn ratio fd fh dens intv bays bundles corbels :
  (forall c, AirCooledExchanger rows passes tpr L d th angle pitch pp pn ratio None None dens intv bays bundles corbels <> Ok c) /\
  (forall c, AirCooledExchanger rows passes tpr L d th angle pitch pp pn ratio fd fh None None bays bundles corbels <> Ok c).
Proof. split; intros c E; unfold AirCooledExchanger in E; inv_bind E; inv_bind E; destruct v0 as [[[an pi_] ppl] pnm]; inv_bind E; inv_bind E; inv_bind E; [discriminate|]; destruct v2; inv_bind E; discriminate. Qed.
Example C109_case : exists c, AirCooledExchanger 4 4 56 10.9728 0.0254 0.000406 (Some 30) (Some 0.06) None None None None (Some 0.01586) (Some 433) None 1 2 true = Ok c /\ a_tubes c = INR (56 * 4 * 2).
Proof.
  assert (K : exists c, AirCooledExchanger 4 4 56 10.9728 0.0254 0.000406 (Some 30) (Some 0.06) None None None None (Some 0.01586) (Some 433) None 1 2 true = Ok c).
  { pose proof PI_RGT_0. unfold AirCooledExchanger, pitch_angle_solver. cbn [bind]. cbv zeta. cbn [bind]. rewrite pdiv_ok by (lits; lra). cbn [bind]. rewrite psqrt_ok by (apply Rplus_le_le_0_compat; apply pow2_ge_0). cbn [bind]. rewrite pdiv_ok by lra. cbn [bind]. rewrite pdiv_ok by (lits; lra). cbn [bind]. assert (S : sin (radians 30) = 1 / 2) by (unfold radians; replace (30 * (PI / 180)) with (PI / 6) by field; apply sin_PI6). rewrite S.
    assert (T : 0 < INR 56 * INR 4 * INR 2 * INR 1) by (cbn; lra).
    rewrite pdiv_ok. 2:{ cbn [overall multiples]. assert (0 < PI * 0.0254 * 10.9728) by (lits; lra). apply Rgt_not_eq. apply Rmult_lt_0_compat; auto. } cbn [bind]. rewrite pdiv_ok by (apply Rgt_not_eq; cbn; lits; lra). cbn [bind]. cbn [Nat.eqb Nat.modulo Nat.divmod fst snd Nat.sub]. rewrite pdiv_ok by (cbn; lra). cbn [bind]. eexists. reflexivity. }
  destruct K as [c K]. exists c. split; auto. destruct (C109_sizes _ _ _ _ _ _ _ _ _ _ _ _ _ _ _ _ _ _ _ K) as (T & _). rewrite T. f_equal.
Qed.

Print Assumptions C105_coil.
Print Assumptions C105_same.
Print Assumptions C105_collide.
Print Assumptions C105_collide_refuted.
Print Assumptions C105_length.
Print Assumptions C105_inside.
Print Assumptions C106_factor.
Print Assumptions C106_factor_rises.
Print Assumptions C106_plates.
Print Assumptions C107_fins.
Print Assumptions C107_blockage_refuted.
Print Assumptions C107_strips.
Print Assumptions C107_stack.
Print Assumptions C108_from_inlet.
Print Assumptions C108_from_base.
Print Assumptions C108_refused.
Print Assumptions C109_sizes.
Print Assumptions C109_areas.
Print Assumptions C109_flow.
Print Assumptions C109_pitch_ratio_refuted.
Print Assumptions C109_refused.
