(** Lemmas for the closed-form polynomial roots: complex square and cube roots, Vieta's formulas, Ferrari's resolvent. *)
From Coq Require Import Reals Lra Lia Bool ZArith Setoid Ring Field Qreals.
From Coquelicot Require Import Complex.
From Verif Require Import Base Model_Real Proofs_Real Model_Roots.
Open Scope C_scope.

(** ** Complex arithmetic with integer constants *)
Lemma Cmorph : ring_morph (RtoC 0) (RtoC 1) Cplus Cmult Cminus Copp eq 0%Z 1%Z Z.add Z.mul Z.sub Z.opp Zeq_bool (fun z => RtoC (IZR z)).
Proof.
  constructor; auto; intros.
  - now rewrite plus_IZR, RtoC_plus.
  - now rewrite minus_IZR, RtoC_minus.
  - now rewrite mult_IZR, RtoC_mult.
  - now rewrite opp_IZR, RtoC_opp.
  - apply Zeq_bool_eq in H. now subst.
Qed.
Ltac Ccst t := match t with RtoC (IZR ?z) => match isZcst z with true => z | _ => constr:(NotConstant) end | _ => constr:(NotConstant) end.
Add Field Cfield2 : C_field_theory (morphism Cmorph, constants [Ccst]).
Lemma RtoC_nz r : r <> 0%R -> RtoC r <> RtoC 0.
Proof. intros H E. apply H. now injection E. Qed.
Ltac cnz := repeat split; try (apply RtoC_nz; lra); auto.

Lemma C_eta (z : C) : z = (fst z, snd z). Proof. now destruct z. Qed.
Lemma C_ext (z w : C) : fst z = fst w -> snd z = snd w -> z = w. Proof. destruct z, w; cbn; intros; subst; auto. Qed.
Lemma Ceqb_true (z w : C) : Ceqb z w = true <-> z = w.
Proof. unfold Ceqb. rewrite andb_true_iff, !Reqb_true. split; [intros [A B]; now apply C_ext|intros ->; auto]. Qed.
Lemma Ceqb_false (z w : C) : Ceqb z w = false <-> z <> w.
Proof. split; intros H. - intros E. apply Ceqb_true in E. congruence. - destruct (Ceqb z w) eqn:E; auto. apply Ceqb_true in E. now elim H. Qed.
Lemma cdiv_ok (z w : C) : w <> 0 -> cdiv z w = Ok (z / w).
Proof. intros H. unfold cdiv. now rewrite (proj2 (Ceqb_false w 0) H). Qed.
Lemma cdiv_0 z : cdiv z 0 = Err ZeroDivisionError.
Proof. unfold cdiv. now rewrite (proj2 (Ceqb_true 0 0) eq_refl). Qed.
Lemma cdiv_inv (z w q : C) : cdiv z w = Ok q -> w <> 0 /\ q = z / w.
Proof. unfold cdiv. destruct (Ceqb w 0) eqn:E; [discriminate|]. apply Ceqb_false in E. intros H. injection H as <-. auto. Qed.

(** ** Square and cube roots *)
Lemma Cmod_sq z : (Cmod z * Cmod z = fst z * fst z + snd z * snd z)%R.
Proof. unfold Cmod. rewrite sqrt_sqrt; [ring|nra]. Qed.
Lemma Cmod_bounds z : (- Cmod z <= fst z <= Cmod z)%R.
Proof. pose proof (Cmod_sq z). pose proof (Cmod_ge_0 z). split; nra. Qed.
Lemma csqrt_sq z : csqrt z * csqrt z = z.
Proof.
  pose proof (Cmod_bounds z). pose proof (Cmod_sq z) as HS. unfold csqrt. set (r := Cmod z) in *.
  assert (A : (sqrt ((r + fst z) / 2) * sqrt ((r + fst z) / 2) = (r + fst z) / 2)%R) by (apply sqrt_sqrt; lra).
  assert (B : (sqrt ((r - fst z) / 2) * sqrt ((r - fst z) / 2) = (r - fst z) / 2)%R) by (apply sqrt_sqrt; lra).
  assert (P : (sqrt ((r + fst z) / 2) * sqrt ((r - fst z) / 2) = Rabs (snd z) / 2)%R).
  { rewrite <- sqrt_mult by lra. replace ((r + fst z) / 2 * ((r - fst z) / 2))%R with ((snd z / 2)²)%R by (unfold Rsqr; nra). rewrite sqrt_Rsqr_abs. unfold Rdiv. rewrite Rabs_mult, (Rabs_right (/ 2)); lra. }
  set (u := sqrt ((r + fst z) / 2)) in *. set (v := sqrt ((r - fst z) / 2)) in *. destruct (Rltb (snd z) 0) eqn:E.
  - apply Rltb_true in E. rewrite Rabs_left in P by lra. apply C_ext; cbn; nra.
  - apply Rltb_false in E. rewrite Rabs_right in P by lra. apply C_ext; cbn; nra.
Qed.
Lemma cos3 x : (cos (3 * x) = 4 * cos x * cos x * cos x - 3 * cos x)%R.
Proof. replace (3 * x)%R with (2 * x + x)%R by ring. rewrite cos_plus, cos_2a_cos, sin_2a. pose proof (sin2_cos2 x) as H. unfold Rsqr in H. replace (2 * sin x * cos x * sin x)%R with (2 * cos x * (sin x * sin x))%R by ring. replace (sin x * sin x)%R with (1 - cos x * cos x)%R by lra. ring. Qed.
Lemma sin3 x : (sin (3 * x) = 3 * sin x - 4 * sin x * sin x * sin x)%R.
Proof. replace (3 * x)%R with (2 * x + x)%R by ring. rewrite sin_plus, cos_2a_sin, sin_2a. pose proof (sin2_cos2 x) as H. unfold Rsqr in H. replace (2 * sin x * cos x * cos x)%R with (2 * sin x * (cos x * cos x))%R by ring. replace (cos x * cos x)%R with (1 - sin x * sin x)%R by lra. ring. Qed.
Lemma third_cube r : (0 < r)%R -> (Rpower r (1 / 3) * Rpower r (1 / 3) * Rpower r (1 / 3) = r)%R.
Proof. intros H. rewrite <- !Rpower_plus. replace (1 / 3 + 1 / 3 + 1 / 3)%R with 1%R by lra. now apply Rpower_1. Qed.
Lemma rpow_third_cube r : (0 <= r)%R -> (rpow_third r * rpow_third r * rpow_third r = r)%R.
Proof. intros H. unfold rpow_third. rcase; [subst; ring|]. apply third_cube. lra. Qed.
Lemma rpow_third_pos r : (0 < r)%R -> (0 < rpow_third r)%R.
Proof. intros H. unfold rpow_third. rcase; [lra|]. apply exp_pos. Qed.
Lemma rpow_third_nonneg r : (0 <= r)%R -> (0 <= rpow_third r)%R.
Proof. intros H. unfold rpow_third. rcase; [lra|]. left; apply exp_pos. Qed.
Lemma polar (z : C) : z <> 0 -> (Cmod z * cos (carg z) = fst z /\ Cmod z * sin (carg z) = snd z)%R.
Proof.
  intros Hz. pose proof (Cmod_gt_0 z) as G. apply G in Hz. pose proof (Cmod_bounds z). pose proof (Cmod_sq z) as HS. set (r := Cmod z) in *.
  assert (HB : (-1 <= fst z / r <= 1)%R). { split; apply Rmult_le_reg_r with r; auto; unfold Rdiv; rewrite Rmult_assoc, Rinv_l by lra; lra. }
  assert (HC : (r * sin (acos (fst z / r)) = Rabs (snd z))%R).
  { rewrite sin_acos by auto. rewrite <- (Rabs_right r) at 1 by lra. rewrite <- sqrt_Rsqr_abs, <- sqrt_mult by (unfold Rsqr; nra). rewrite <- sqrt_Rsqr_abs. f_equal. unfold Rsqr. field_simplify; [|lra]. nra. }
  unfold carg. fold r. destruct (Rltb (snd z) 0) eqn:E.
  - apply Rltb_true in E. rewrite cos_neg, sin_neg, cos_acos by auto. rewrite Rabs_left in HC by lra. split; [field; lra|lra].
  - apply Rltb_false in E. rewrite cos_acos by auto. rewrite Rabs_right in HC by lra. split; [field; lra|lra].
Qed.
Lemma pow_third_cube z : pow_third z * pow_third z * pow_third z = z.
Proof.
  unfold pow_third. destruct (Ceqb z 0) eqn:E; [apply Ceqb_true in E; subst; ring|]. apply Ceqb_false in E. destruct (polar z E) as [P1 P2].
  assert (HR : (0 < Cmod z)%R) by now apply Cmod_gt_0. set (m := Rpower _ _). assert (Hm : (m * m * m = Cmod z)%R) by now apply third_cube.
  set (t := (carg z * (1 / 3))%R). assert (T : carg z = (3 * t)%R) by (unfold t; lra). rewrite T, cos3 in P1. rewrite T, sin3 in P2. pose proof (sin2_cos2 t) as Q. unfold Rsqr in Q. rewrite <- Hm in *.
  apply C_ext; cbn.
  - rewrite <- P1. replace (m * cos t * (m * cos t) - m * sin t * (m * sin t))%R with (m * m * (1 - 2 * (sin t * sin t)))%R by (rewrite <- Q; ring).
    transitivity (m * m * m * (cos t - 2 * (sin t * sin t) * cos t - 2 * cos t * (sin t * sin t)))%R; [ring|]. replace (sin t * sin t)%R with (1 - cos t * cos t)%R by lra. ring.
  - rewrite <- P2. transitivity (m * m * m * (3 * (cos t * cos t) * sin t - sin t * sin t * sin t))%R; [ring|]. replace (cos t * cos t)%R with (1 - sin t * sin t)%R by lra. ring.
Qed.
Lemma pow_third_nz (z : C) : z <> 0 -> pow_third z <> 0.
Proof. intros H E. apply H. rewrite <- (pow_third_cube z), E. ring. Qed.
Lemma pow_third_0 : pow_third 0 = 0.
Proof. unfold pow_third. now rewrite (proj2 (Ceqb_true 0 0) eq_refl). Qed.
Lemma csqrt_real_pos r : (0 <= r)%R -> csqrt (RtoC r) = RtoC (sqrt r).
Proof.
  intros H. unfold csqrt. rewrite Cmod_R, Rabs_right by lra. cbn [fst snd RtoC]. rewrite (proj2 (Rltb_false 0 0)) by lra. apply C_ext; cbn.
  - f_equal. lra. - replace ((r - r) / 2)%R with 0%R by lra. apply sqrt_0.
Qed.
Lemma csqrt_real_neg r : (r <= 0)%R -> csqrt (RtoC r) = RtoC (sqrt (- r)) * Ci.
Proof.
  intros H. unfold csqrt. rewrite Cmod_R, Rabs_left1 by lra. cbn [fst snd RtoC]. rewrite (proj2 (Rltb_false 0 0)) by lra. apply C_ext; cbn.
  - replace ((- r + r) / 2)%R with 0%R by lra. rewrite sqrt_0. ring. - replace ((- r - r) / 2)%R with (- r)%R by lra. ring.
Qed.

(** ** Factorisations *)
Definition quadratic (a b c x : C) : C := a * x * x + b * x + c.
Definition cubic (a b c d x : C) : C := a * x * x * x + b * x * x + c * x + d.
Definition quartic (a b c d e x : C) : C := a * x * x * x * x + b * x * x * x + c * x * x + d * x + e.
Lemma vieta2 (a b c x1 x2 : C) : a * (x1 + x2) = - b -> a * x1 * x2 = c -> forall x, quadratic a b c x = a * (x - x1) * (x - x2).
Proof. intros H1 H2 x. unfold quadratic. rewrite <- H2. replace b with (- (a * (x1 + x2))) by (rewrite H1; ring). ring. Qed.
Lemma vieta3 (a b c d x1 x2 x3 : C) : a * (x1 + x2 + x3) = - b -> a * (x1 * x2 + x1 * x3 + x2 * x3) = c -> a * x1 * x2 * x3 = - d ->
  forall x, cubic a b c d x = a * (x - x1) * (x - x2) * (x - x3).
Proof. intros H1 H2 H3 x. unfold cubic. rewrite <- H2. replace b with (- (a * (x1 + x2 + x3))) by (rewrite H1; ring). replace d with (- (a * x1 * x2 * x3)) by (rewrite H3; ring). ring. Qed.

(** Cardano: [u^3 + F + v^3 = 0] and [3 u v = - X] make [u + v] a root of [y^3 + X y + F] *)
Lemma cardano (X F S u : C) : u <> 0 -> S * S = RtoC (1 / 4) * F * F + RtoC (1 / 27) * X * X * X -> u * u * u = - (RtoC (1 / 2) * F) + S ->
  let Y := u - X / (RtoC 3 * u) in Y * Y * Y + X * Y + F = 0.
Proof.
  intros Hu HS HU Y. assert (E : u * u * u * (Y * Y * Y + X * Y + F) = 0).
  { transitivity (u * u * u * (u * u * u) + F * (u * u * u) - X * X * X / RtoC 27). { unfold Y. field. cnz. }
    rewrite HU. transitivity (S * S - F * F / RtoC 4 - X * X * X / RtoC 27). { rewrite !RtoC_div by lra. field. cnz. } rewrite HS, !RtoC_div by lra. field. cnz. }
  destruct (Ceq_dec (Y * Y * Y + X * Y + F) 0) as [Z|Z]; auto. exfalso. revert E. apply Cmult_neq_0; auto. apply Cmult_neq_0; auto. apply Cmult_neq_0; auto.
Qed.
(** Ferrari: two quadratics whose product is the depressed quartic *)
Lemma ferrari (p q r Y s w1 w2 y : C) : s <> 0 -> s * s = RtoC 2 * Y - RtoC 2 / RtoC 3 * p ->
  w1 * w1 = (- (RtoC 4 / RtoC 3) * p - RtoC 2 * Y + RtoC 2 * q / s) / RtoC 4 -> w2 * w2 = (- (RtoC 4 / RtoC 3) * p - RtoC 2 * Y - RtoC 2 * q / s) / RtoC 4 ->
  RtoC 4 * (s * s) * ((Y + p / RtoC 6) * (Y + p / RtoC 6) - r) = q * q ->
  (y - (- s / RtoC 2 - w1)) * (y - (- s / RtoC 2 + w1)) * ((y - (s / RtoC 2 - w2)) * (y - (s / RtoC 2 + w2))) = y * y * y * y + p * y * y + q * y + r.
Proof.
  intros Hs HS H1 H2 HR.
  transitivity (((y + s / RtoC 2) * (y + s / RtoC 2) - w1 * w1) * ((y - s / RtoC 2) * (y - s / RtoC 2) - w2 * w2)). { field. cnz. }
  rewrite H1, H2. set (k := Y + p / RtoC 6) in *.
  transitivity ((y * y + k) * (y * y + k) - (s * y - q / (RtoC 2 * s)) * (s * y - q / (RtoC 2 * s))).
  { assert (EY : Y = (s * s) / RtoC 2 + p / RtoC 3). { rewrite HS. field. cnz. } unfold k. rewrite EY. field. cnz. }
  assert (EK : k * k = r + q * q / (RtoC 4 * (s * s))). { rewrite <- HR. field. cnz. }
  transitivity (y * y * y * y + (RtoC 2 * k - s * s) * y * y + q * y + (k * k - q * q / (RtoC 4 * (s * s)))). { field. cnz. }
  rewrite EK. replace (RtoC 2 * k - s * s) with p. 2:{ unfold k. rewrite HS. field. cnz. } field. cnz.
Qed.
Lemma resolvent (p q r X F Y s : C) : X = - r - p * p / RtoC 12 -> F = - (q * q / RtoC 8) + p * r / RtoC 3 - p * p * p / RtoC 108 -> Y * Y * Y + X * Y + F = 0 ->
  s * s = RtoC 2 * Y - RtoC 2 / RtoC 3 * p -> RtoC 4 * (s * s) * ((Y + p / RtoC 6) * (Y + p / RtoC 6) - r) = q * q.
Proof.
  intros HX HF HY HS. rewrite HS. assert (Hr : r = - X - p * p / RtoC 12) by (rewrite HX; field; cnz). assert (HQ : q * q = RtoC 8 * (p * r / RtoC 3 - p * p * p / RtoC 108 - F)) by (rewrite HF; field; cnz).
  assert (HFY : F = - (Y * Y * Y) - X * Y). { transitivity (Y * Y * Y + X * Y + F - Y * Y * Y - X * Y); [ring|]. rewrite HY. ring. }
  rewrite HQ, HFY, Hr. field. cnz.
Qed.

(** ** Cubics *)
Lemma three_roots (A B J k x : C) : J * J = - RtoC 3 ->
  (x - (A + B - k)) * (x - (- ((A + B) / RtoC 2) - k + J / RtoC 2 * (A - B))) * (x - (- ((A + B) / RtoC 2) - k - J / RtoC 2 * (A - B)))
  = (x + k) * (x + k) * (x + k) - RtoC 3 * A * B * (x + k) - (A * A * A + B * B * B).
Proof.
  intros HJ. set (y := x + k). transitivity ((y - (A + B)) * ((y + (A + B) / RtoC 2) * (y + (A + B) / RtoC 2) - J * J / RtoC 4 * (A - B) * (A - B))).
  { unfold y. field. cnz. } rewrite HJ. field. cnz.
Qed.
Lemma rcube_inj (x y : R) : (x * x * x = y * y * y)%R -> x = y.
Proof.
  intros H. destruct (Req_dec x y) as [E|N]; auto. exfalso. assert (HP : (0 < (x + y) * (x + y) + x * x + y * y)%R). { assert (0 < (y - x) * (y - x))%R by (apply Rsqr_pos_lt; lra). nra. }
  assert (Z : ((y - x) * ((x + y) * (x + y) + x * x + y * y) = 0)%R) by nra. apply Rmult_integral in Z. lra.
Qed.
Lemma J_sq : (RtoC root_three * Ci) * (RtoC root_three * Ci) = - RtoC 3.
Proof. unfold root_three. assert (sqrt 3 * sqrt 3 = 3)%R by (apply sqrt_sqrt; lra). apply C_ext; cbn; nra. Qed.
(** the two auxiliary numbers of [roots_cubic_a2]: [t] with [t^3 = w] *)
Lemma cubic_core (a b c d s t x J : C) : a <> 0 -> t <> 0 -> J * J = - RtoC 3 ->
  s * s = RtoC 3 * (- RtoC 18 * a * b * c * d + RtoC 4 * a * (c * c) * c + RtoC 4 * (b * b * b) * d - b * b * (c * c) + RtoC 27 * (a * a) * (d * d)) ->
  t * t * t = RtoC 36 * c * b * a + RtoC 12 * s * a - RtoC 108 * d * (a * a) - RtoC 8 * (b * b * b) ->
  let A := t / (RtoC 6 * a) in let B := - (RtoC 2 / RtoC 3) * (RtoC 3 * a * c - b * b) / (a * t) in let k := b / (RtoC 3 * a) in
  cubic a b c d x = a * (x - (A + B - k)) * (x - (- ((A + B) / RtoC 2) - k + J / RtoC 2 * (A - B))) * (x - (- ((A + B) / RtoC 2) - k - J / RtoC 2 * (A - B))).
Proof.
  intros Ha Ht HJ Hs HT A B k. rewrite <- !Cmult_assoc. rewrite (Cmult_assoc (x - _)), three_roots by auto.
  set (w := t * t * t) in *. set (m := RtoC 3 * a * c - b * b).
  assert (EW : w * w + (RtoC 16 * (b * b * b) - RtoC 72 * a * b * c + RtoC 216 * (a * a) * d) * w - RtoC 64 * (m * m * m) = 0).
  { set (g := RtoC 16 * (b * b * b) - RtoC 72 * a * b * c + RtoC 216 * (a * a) * d). assert (E : w + g / RtoC 2 = RtoC 12 * s * a) by (rewrite HT; unfold g; field; cnz).
    transitivity ((w + g / RtoC 2) * (w + g / RtoC 2) - g * g / RtoC 4 - RtoC 64 * (m * m * m)); [field; cnz|]. rewrite E. transitivity (RtoC 144 * a * a * (s * s) - g * g / RtoC 4 - RtoC 64 * (m * m * m)); [field; cnz|]. rewrite Hs. unfold g, m. field. cnz. }
  assert (Hw : w <> 0) by (unfold w; apply Cmult_neq_0; auto; apply Cmult_neq_0; auto).
  assert (EAB : A * A * A + B * B * B = - (RtoC 2 * (b * b * b) - RtoC 9 * a * b * c + RtoC 27 * (a * a) * d) / (RtoC 27 * a * a * a)).
  { transitivity ((w - RtoC 64 * (m * m * m) / w) / (RtoC 216 * a * a * a)). { unfold A, B, w. fold m. field. cnz. }
    replace (RtoC 64 * (m * m * m)) with (w * w + (RtoC 16 * (b * b * b) - RtoC 72 * a * b * c + RtoC 216 * (a * a) * d) * w).
    2:{ transitivity (w * w + (RtoC 16 * (b * b * b) - RtoC 72 * a * b * c + RtoC 216 * (a * a) * d) * w - RtoC 64 * (m * m * m) + RtoC 64 * (m * m * m)); [ring|]. rewrite EW. ring. }
    field. cnz. }
  rewrite EAB. unfold cubic, A, B, k. field. cnz.
Qed.
(** the argument of the cube root vanishes only when [3 a c = b^2] *)
Lemma cubic_core_nz (a b c d s : C) : a <> 0 -> RtoC 3 * a * c - b * b <> 0 ->
  s * s = RtoC 3 * (- RtoC 18 * a * b * c * d + RtoC 4 * a * (c * c) * c + RtoC 4 * (b * b * b) * d - b * b * (c * c) + RtoC 27 * (a * a) * (d * d)) ->
  RtoC 36 * c * b * a + RtoC 12 * s * a - RtoC 108 * d * (a * a) - RtoC 8 * (b * b * b) <> 0.
Proof.
  intros Ha Hm Hs E. set (m := RtoC 3 * a * c - b * b) in *. assert (Z : RtoC 64 * (m * m * m) = 0).
  { set (u := RtoC 36 * c * b * a - RtoC 108 * d * (a * a) - RtoC 8 * (b * b * b)). assert (E2 : RtoC 12 * s * a = - u). { transitivity (RtoC 36 * c * b * a + RtoC 12 * s * a - RtoC 108 * d * (a * a) - RtoC 8 * (b * b * b) - u); [unfold u; ring|]. rewrite E. ring. }
    transitivity (RtoC 12 * s * a * (RtoC 12 * s * a) - u * u). { transitivity (RtoC 144 * a * a * (s * s) - u * u); [|ring]. rewrite Hs. unfold u, m. ring. } rewrite E2. ring. }
  revert Z. apply Cmult_neq_0; [apply RtoC_nz; lra|]. apply Cmult_neq_0; auto. apply Cmult_neq_0; auto.
Qed.
(** real version: depressed cubic *)
Lemma real_cubic (a b c d f g k : R) (x1 x2 x3 : C) : a <> 0%R -> (3 * k = b / a)%R -> (f + 3 * k * k = c / a)%R -> (g + f * k + k * k * k = d / a)%R ->
  (forall y, (y - x1) * (y - x2) * (y - x3) = (y + RtoC k) * (y + RtoC k) * (y + RtoC k) + RtoC f * (y + RtoC k) + RtoC g) ->
  forall x, cubic a b c d x = RtoC a * (x - x1) * (x - x2) * (x - x3).
Proof.
  intros Ha H1 H2 H3 HF x. rewrite <- !Cmult_assoc. rewrite (Cmult_assoc (x - _)), HF. unfold cubic.
  assert (Eb : b = (3 * k * a)%R) by (rewrite H1; field; auto). assert (Ec : c = ((f + 3 * k * k) * a)%R) by (rewrite H2; field; auto). assert (Ed : d = ((g + f * k + k * k * k) * a)%R) by (rewrite H3; field; auto).
  rewrite Eb, Ec, Ed, !RtoC_mult, !RtoC_plus, !RtoC_mult. ring.
Qed.
