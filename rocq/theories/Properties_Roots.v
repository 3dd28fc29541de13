(** Closed-form roots of polynomials up to degree four: what is returned is the whole set of roots, with multiplicity. *)
From Coq Require Import Reals Lra Lia Bool ZArith Qreals.
From Coquelicot Require Import Complex.
From Verif Require Import Base Model_Real Proofs_Real Model_Roots Proofs_Roots.
Open Scope C_scope.

Lemma lit r n d : IZR d <> 0%R -> (r = IZR n / IZR d)%R -> RtoC r = RtoC (IZR n) / RtoC (IZR d).
Proof. intros Hd ->. now apply RtoC_div. Qed.
Ltac lit1 r n d := rewrite ?(lit r n d) by (lits; lra).
Ltac clits := unfold third, sixth, ninth, twelfth, two_thirds, four_thirds;
  lit1 0.25%R 1%Z 4%Z; lit1 0.375%R 3%Z 8%Z; lit1 0.5%R 1%Z 2%Z; lit1 0.125%R 1%Z 8%Z; lit1 0.0625%R 1%Z 16%Z; lit1 0.01171875%R 3%Z 256%Z;
  lit1 (1 / 3)%R 1%Z 3%Z; lit1 (1 / 6)%R 1%Z 6%Z; lit1 (1 / 9)%R 1%Z 9%Z; lit1 (1 / 12)%R 1%Z 12%Z; lit1 (2 / 3)%R 2%Z 3%Z; lit1 (4 / 3)%R 4%Z 3%Z; lit1 (1 / 27)%R 1%Z 27%Z; lit1 (1 / 4)%R 1%Z 4%Z; lit1 (1 / 2)%R 1%Z 2%Z.

(** *** Quartics: whenever an answer is returned it is the complete factorisation *)
Theorem C93_quartic (a b c d e r1 r2 r3 r4 : C) : roots_quartic a b c d e = Ok (r1, r2, r3, r4) ->
  a <> 0 /\ forall x, quartic a b c d e x = a * (x - r1) * (x - r2) * (x - r3) * (x - r4).
Proof.
  unfold roots_quartic. cbv zeta. intros H. apply bind_Ok_inv in H. destruct H as (x0 & E0 & H). apply cdiv_inv in E0. destruct E0 as [Ha ->].
  apply bind_Ok_inv in H. destruct H as (x23 & _ & H).
  set (x3 := c * (1 / a)) in *. set (x4 := b * b * (1 / a) * (1 / a)) in *. set (p := x3 - RtoC 0.375 * x4) in *. set (x8 := d * (1 / a)) in *. set (x1 := b * (1 / a)) in *.
  set (x9 := x1 * (- RtoC 0.5 * x3 + RtoC 0.125 * x4)) in *. set (x11 := e * (1 / a)) in *. set (x12 := x1 * (x1 * (- RtoC 0.0625 * x3 + RtoC 0.01171875 * x4) + RtoC 0.25 * x8)) in *.
  set (F := - RtoC 0.125 * ((x8 + x9) * (x8 + x9)) + p * (x11 - x12) * third - p * p * p / RtoC 108) in *. set (X := - x11 + x12 - twelfth * (p * p)) in *.
  set (S := csqrt (RtoC 0.25 * F * F + RtoC (1 / 27) * X * X * X)) in *. assert (HS := csqrt_sq (RtoC 0.25 * F * F + RtoC (1 / 27) * X * X * X)). fold S in HS. clearbody S.
  set (arg := RtoC 0.0625 * _ - _ + _ + S) in *. assert (HU := pow_third_cube arg). set (u := pow_third arg) in *. clearbody u.
  apply bind_Ok_inv in H. destruct H as (x29 & E29 & H). apply cdiv_inv in E29. destruct E29 as [Hu ->].
  set (z30 := RtoC 2 * u - _ + _) in *. assert (H30 := csqrt_sq z30). set (s := csqrt z30) in *. clearbody s.
  apply bind_Ok_inv in H. destruct H as (x34 & E34 & H). apply cdiv_inv in E34. destruct E34 as [Hs ->].
  set (z1 := _ + (RtoC 2 * x8 + RtoC 2 * x9) / s) in *. set (z2 := _ - (RtoC 2 * x8 + RtoC 2 * x9) / s) in *.
  assert (H1 := csqrt_sq z1). assert (H2 := csqrt_sq z2). set (w1 := csqrt z1) in *. set (w2 := csqrt z2) in *. clearbody w1 w2. injection H as <- <- <- <-.
  split; auto. intros x. set (q := x8 + x9) in *. set (r := x11 - x12) in *. set (Y := u - X / (RtoC 3 * u)).
  assert (HC : Y * Y * Y + X * Y + F = 0). { apply (cardano X F S u); auto. - rewrite HS. clits. field. cnz. - rewrite HU. unfold arg. clear - S. unfold F. fold q r. clearbody p q r. clits. field. cnz. }
  assert (HSS : s * s = RtoC 2 * Y - RtoC 2 / RtoC 3 * p). { rewrite H30. unfold z30, Y, p. clearbody X. clits. field. cnz. }
  assert (HQ : RtoC 4 * (s * s) * ((Y + p / RtoC 6) * (Y + p / RtoC 6) - r) = q * q). { apply (resolvent p q r X F Y s); auto. - unfold X, r. clits. field. cnz. - unfold F. fold r. clearbody p q r. clits. field. cnz. }
  assert (HW : forall t : C, - four_thirds * x3 + RtoC 0.5 * x4 - RtoC 2 * u + two_thirds * X / u + t = - (RtoC 4 / RtoC 3) * p - RtoC 2 * Y + t). { intros t. unfold Y, p. clearbody X. clits. field. cnz. }
  assert (HV : forall t : C, - four_thirds * x3 + RtoC 0.5 * x4 - RtoC 2 * u + two_thirds * X / u - t = - (RtoC 4 / RtoC 3) * p - RtoC 2 * Y - t). { intros t. unfold Y, p. clearbody X. clits. field. cnz. }
  transitivity (a * ((x + x1 / RtoC 4) * (x + x1 / RtoC 4) * (x + x1 / RtoC 4) * (x + x1 / RtoC 4) + p * (x + x1 / RtoC 4) * (x + x1 / RtoC 4) + q * (x + x1 / RtoC 4) + r)).
  { unfold quartic, r, q, p, x12, x11, x9, x8, x4, x3, x1. clits. field. cnz. }
  rewrite <- (ferrari p q r Y s (w1 * RtoC 0.5) (w2 * RtoC 0.5)); auto.
  - clits. field. cnz.
  - transitivity (w1 * w1 / RtoC 4); [clits; field; cnz|]. rewrite H1. unfold z1. rewrite HW. unfold q. f_equal. field. cnz.
  - transitivity (w2 * w2 / RtoC 4); [clits; field; cnz|]. rewrite H2. unfold z2. rewrite HV. unfold q. f_equal. field. cnz.
Qed.

(** a factorisation lists all roots *)
Theorem C93_complete (a b c d x1 x2 x3 : C) : a <> 0 -> (forall x, cubic a b c d x = a * (x - x1) * (x - x2) * (x - x3)) ->
  forall x, cubic a b c d x = 0 <-> x = x1 \/ x = x2 \/ x = x3.
Proof.
  intros Ha H x. rewrite H. split.
  - intros E. destruct (Ceq_dec x x1) as [|N1]; auto. destruct (Ceq_dec x x2) as [|N2]; auto. destruct (Ceq_dec x x3) as [|N3]; auto. exfalso. revert E.
    assert (forall u v : C, u <> v -> u - v <> 0). { intros u v N E. apply N. transitivity (u - v + v); [ring|]. rewrite E. ring. } repeat apply Cmult_neq_0; auto.
  - intros [->|[->| ->]]; ring.
Qed.

(** *** Quadratics *)
Definition real (z : C) : Prop := snd z = 0%R.
Ltac rc := rewrite ?RtoC_mult, ?RtoC_plus, ?RtoC_minus, ?RtoC_opp.
Lemma Ci_sq : Ci * Ci = - RtoC 1. Proof. apply C_ext; cbn; ring. Qed.
Lemma cv_re (u v k : R) : (RtoC u + RtoC v * Ci) * RtoC k = ((u * k)%R, (v * k)%R). Proof. apply C_ext; cbn; ring. Qed.
Lemma cv_im (u v k : R) : (RtoC u - RtoC v * Ci) * RtoC k = ((u * k)%R, (- (v * k))%R). Proof. apply C_ext; cbn; ring. Qed.
(** both branches of the quadratic formula *)
Lemma formula2 (a b c : R) : a <> 0%R -> let D := (b * b - 4 * a * c)%R in
  ((D < 0)%R -> let x1 := (RtoC (- b) + RtoC (sqrt (- D)) * Ci) * RtoC (0.5 / a) in let x2 := (RtoC (- b) - RtoC (sqrt (- D)) * Ci) * RtoC (0.5 / a) in
     (forall x, quadratic a b c x = RtoC a * (x - x1) * (x - x2)) /\ ~ real x1 /\ x2 = Cconj x1) /\
  ((0 <= D)%R -> let x1 := RtoC ((sqrt D - b) * (0.5 / a)) in let x2 := RtoC (- (b + sqrt D) * (0.5 / a)) in
     (forall x, quadratic a b c x = RtoC a * (x - x1) * (x - x2))).
Proof.
  intros Ha D. split.
  - intros HD x1 x2. assert (E1 : x1 = ((- b * (0.5 / a))%R, (sqrt (- D) * (0.5 / a))%R)) by apply cv_re. assert (E2 : x2 = ((- b * (0.5 / a))%R, (- (sqrt (- D) * (0.5 / a)))%R)) by apply cv_im. splits.
    + assert (HS : (sqrt (- D) * sqrt (- D) = - D)%R) by (apply sqrt_sqrt; lra). apply vieta2.
      * rewrite E1, E2. apply C_ext; cbn; lits; field; auto.
      * rewrite E1, E2. apply C_ext; cbn. 2:{ lits; field; auto. } transitivity ((b * b + sqrt (- D) * sqrt (- D)) / (4 * a))%R; [lits; field; auto|]. rewrite HS. unfold D. field. auto.
    + unfold real. rewrite E1. cbn. assert (0 < sqrt (- D))%R by (apply sqrt_lt_R0; lra). apply Rmult_integral_contrapositive_currified; [lra|]. unfold Rdiv. apply Rmult_integral_contrapositive_currified; [lits; lra|now apply Rinv_neq_0_compat].
    + rewrite E1, E2. reflexivity.
  - intros HD x1 x2. assert (HS : (sqrt D * sqrt D = D)%R) by now apply sqrt_sqrt. apply vieta2.
    + unfold x1, x2. rewrite <- RtoC_plus, <- RtoC_mult, <- RtoC_opp. f_equal. lits. field. auto.
    + unfold x1, x2. rewrite <- !RtoC_mult. f_equal. transitivity ((b * b - sqrt D * sqrt D) / (4 * a))%R; [lits; field; auto|]. rewrite HS. unfold D. field. auto.
Qed.
Theorem C93_quadratic (a b c : R) : a <> 0%R -> exists x1 x2, roots_quadratic a b c = Ok (x1, x2) /\ (forall x, quadratic a b c x = RtoC a * (x - x1) * (x - x2)) /\
  ((0 <= b * b - 4 * a * c)%R -> real x1 /\ real x2 /\ ((0 < a)%R -> (fst x2 <= fst x1)%R)) /\ ((b * b - 4 * a * c < 0)%R -> ~ real x1 /\ x2 = Cconj x1).
Proof.
  intros Ha. destruct (formula2 a b c Ha) as [F1 F2]. unfold roots_quadratic. rewrite (proj2 (Reqb_false a 0)) by auto. cbv zeta. rewrite pdiv_ok by auto. cbn [bind]. set (D := (b * b - 4 * a * c)%R) in *.
  destruct (Rltb D 0) eqn:E; [apply Rltb_true in E|apply Rltb_false in E].
  - rewrite psqrt_ok by lra. cbn [bind]. destruct (F1 E) as (G1 & G2 & G3). do 2 eexists. split; [reflexivity|]. splits; auto; lra.
  - rewrite psqrt_ok by lra. cbn [bind]. specialize (F2 E). do 2 eexists. split; [reflexivity|]. splits; auto; try lra. intros _. splits; try reflexivity. intros H. cbn.
    apply Rmult_le_compat_r. { left. apply Rdiv_lt_0_compat; lits; lra. } pose proof (sqrt_pos D). lra.
Qed.
Theorem C93_linear (b c : R) : (b <> 0%R -> exists x, roots_quadratic 0 b c = Ok (RtoC x, RtoC x) /\ (b * x + c = 0)%R) /\ roots_quadratic 0 0 c = Err ZeroDivisionError.
Proof.
  unfold roots_quadratic. rewrite (proj2 (Reqb_true 0 0)) by auto. split.
  - intros Hb. rewrite pdiv_ok by auto. cbn [bind]. eexists. split; [reflexivity|]. field. auto.
  - rewrite pdiv_0. reflexivity.
Qed.

(** *** Cubics with complex coefficients: complete factorisation; no answer only where [3 a c = b^2] *)
Theorem C93_cubic_a2 (a b c d : C) : a <> 0 ->
  (forall x1 x2 x3, roots_cubic_a2 a b c d = Ok (x1, x2, x3) -> forall x, cubic a b c d x = a * (x - x1) * (x - x2) * (x - x3)) /\
  (RtoC 3 * a * c <> b * b -> exists xs, roots_cubic_a2 a b c d = Ok xs).
Proof.
  intros Ha. unfold roots_cubic_a2. cbv zeta. set (ch := - RtoC 18 * a * b * c * d + _ + _ - _ + _). assert (HS := csqrt_sq ch). set (s := csqrt ch) in *. clearbody s.
  set (w := _ - RtoC 8 * _). assert (HT := pow_third_cube w). assert (H3 : RtoC root_three * RtoC root_three = RtoC 3) by (rewrite <- RtoC_mult; f_equal; apply sqrt_sqrt; lra).
  assert (HSS : RtoC root_three * s * (RtoC root_three * s) = RtoC 3 * ch). { transitivity (RtoC root_three * RtoC root_three * (s * s)); [ring|]. now rewrite H3, HS. }
  assert (EW : w = RtoC 36 * c * b * a + RtoC 12 * (RtoC root_three * s) * a - RtoC 108 * d * (a * a) - RtoC 8 * (b * b * b)) by (unfold w; ring).
  rewrite (cdiv_ok 1 a) by auto. cbn [bind]. split.
  - intros x1 x2 x3. set (t := pow_third w) in *. clearbody t. intros H. apply bind_Ok_inv in H. destruct H as (q & Eq & H). apply cdiv_inv in Eq. destruct Eq as [Ht ->]. rewrite cdiv_ok in H by auto. cbn [bind] in H. injection H as <- <- <-.
    intros x. rewrite (cubic_core a b c d (RtoC root_three * s) t x (RtoC root_three * Ci)); auto; [|apply J_sq|now rewrite HT]. clits. f_equal; [f_equal; [f_equal|]|]; field; cnz.
  - intros Hm. assert (Hw : w <> 0). { rewrite EW. apply cubic_core_nz; auto. intros E. apply Hm. transitivity (RtoC 3 * a * c - b * b + b * b); [ring|]. rewrite E. ring. }
    apply pow_third_nz in Hw. rewrite !cdiv_ok by auto. cbn [bind]. eauto.
Qed.
Theorem C93_cubic_a1 (b c d : C) :
  (forall x1 x2 x3, roots_cubic_a1 b c d = Ok (x1, x2, x3) -> forall x, cubic 1 b c d x = (x - x1) * (x - x2) * (x - x3)) /\
  (RtoC 3 * c <> b * b -> exists xs, roots_cubic_a1 b c d = Ok xs).
Proof.
  assert (Ha : RtoC 1 <> 0) by (apply RtoC_nz; lra). unfold roots_cubic_a1. cbv zeta. set (ch := _ + _ - _ - _ + RtoC 81 * _). assert (HS := csqrt_sq ch). set (s := csqrt ch) in *. clearbody s.
  set (w := _ + RtoC 12 * s). assert (HT := pow_third_cube w).
  assert (HSS : s * s = RtoC 3 * (- RtoC 18 * 1 * b * c * d + RtoC 4 * 1 * (c * c) * c + RtoC 4 * (b * b * b) * d - b * b * (c * c) + RtoC 27 * (1 * 1) * (d * d))). { rewrite HS. unfold ch. ring. }
  assert (EW : w = RtoC 36 * c * b * 1 + RtoC 12 * s * 1 - RtoC 108 * d * (1 * 1) - RtoC 8 * (b * b * b)) by (unfold w; ring). split.
  - intros x1 x2 x3. set (t := pow_third w) in *. clearbody t. intros H. apply bind_Ok_inv in H. destruct H as (q & Eq & H). apply cdiv_inv in Eq. destruct Eq as [Ht ->]. rewrite cdiv_ok in H by auto. cbn [bind] in H. injection H as <- <- <-.
    intros x. rewrite (cubic_core 1 b c d s t x (RtoC root_three * Ci)); auto; [|apply J_sq|now rewrite HT]. rewrite Cmult_1_l. clits. f_equal; [f_equal|]; field; cnz.
  - intros Hm. assert (Hw : w <> 0). { rewrite EW. apply cubic_core_nz; auto. intros E. apply Hm. transitivity (RtoC 3 * 1 * c - b * b + b * b); [ring|]. rewrite E. ring. }
    apply pow_third_nz in Hw. rewrite !cdiv_ok by auto. cbn [bind]. eauto.
Qed.

(** *** [roots_cubic]: real coefficients, every case *)
Definition discriminant (a b c d : R) : R := (18 * a * b * c * d - 4 * b * b * b * d + b * b * c * c - 4 * a * c * c * c - 27 * a * a * d * d)%R.
Definition scub (r : R) : R := (if Rleb 0 r then rpow_third r else - rpow_third (- r))%R.
Lemma scub_cube r : (scub r * scub r * scub r = r)%R.
Proof. unfold scub. rcase. - now apply rpow_third_cube. - pose proof (rpow_third_cube (- r)) as H. assert (0 <= - r)%R by lra. specialize (H H0). nra. Qed.
Lemma real_mul_conj (t : C) : t * Cconj t = RtoC (Cmod t * Cmod t).
Proof. rewrite Cmod_sq. apply C_ext; cbn; ring. Qed.
Lemma Cmod3 (t : C) : Cmod (t * t * t) = (Cmod t * Cmod t * Cmod t)%R. Proof. now rewrite !Cmod_mult. Qed.
Theorem C93_cubic (a b c d : R) : a <> 0%R -> exists x1 x2 x3, roots_cubic a b c d = Ok (x1, x2, x3) /\
  (forall x, cubic a b c d x = RtoC a * (x - x1) * (x - x2) * (x - x3)) /\
  ((0 <= discriminant a b c d)%R -> real x1 /\ real x2 /\ real x3) /\ ((discriminant a b c d < 0)%R -> real x1 /\ ~ real x2 /\ x3 = Cconj x2).
Proof.
  intros Ha. assert (HaC : RtoC a <> 0) by now apply RtoC_nz. unfold roots_cubic. rewrite (proj2 (Reqb_false a 0)) by auto. cbv zeta. rewrite pdiv_ok by auto. cbn [bind].
  set (f := (c * (1 / a) - b * (1 / a) * (b * (1 / a)) * (1 / 3))%R). set (g := ((2 * (b * b * b) * (1 / a * (1 / a)) * (1 / a) - 9 * b * c * (1 / a * (1 / a)) + 27 * d * (1 / a)) * (1 / 27))%R).
  set (h := (0.25 * (g * g) + f * f * f * (1 / 27))%R). set (k := (b / (3 * a))%R).
  assert (K1 : (3 * k = b / a)%R) by (unfold k; field; auto). assert (K2 : (f + 3 * k * k = c / a)%R) by (unfold f, k; field; auto). assert (K3 : (g + f * k + k * k * k = d / a)%R) by (unfold g, f, k; field; auto).
  assert (HD : (discriminant a b c d = - (108 * (a * a * a * a) * h))%R). { unfold discriminant, h, f, g. lits. field. auto. }
  assert (Ha4 : (0 < a * a * a * a)%R). { assert (0 < a * a)%R by (apply Rsqr_pos_lt; auto). nra. }
  destruct (Reqb h 0 && Reqb g 0 && Reqb f 0)%bool eqn:B0; [|destruct (Rltb 0 h) eqn:Bh].
  - apply andb_prop in B0. destruct B0 as [B0 Ef]. apply andb_prop in B0. destruct B0 as [Eh Eg]. apply Reqb_true in Ef, Eg, Eh. rewrite pdiv_ok by auto. cbn [bind].
    replace (d * (1 / a))%R with (d / a)%R by (field; auto). replace (- d * (1 / a))%R with (- (d / a))%R by (field; auto).
    set (x := if Rleb 0 (d / a) then _ else _). assert (Ex : x = (- k)%R).
    { apply rcube_inj. rewrite Eg, Ef in K3. replace (- k * - k * - k)%R with (- (d / a))%R by (rewrite <- K3; ring). unfold x. rcase.
      - pose proof (rpow_third_cube (d / a)). nra. - apply rpow_third_cube. lra. }
    do 3 eexists. split; [reflexivity|]. splits.
    + apply (real_cubic a b c d f g k); auto. intros y. rewrite Ex, Ef, Eg, RtoC_opp. ring.
    + intros _. splits; reflexivity.
    + intros H. rewrite HD, Eh in H. lra.
  - apply Rltb_true in Bh. rewrite psqrt_ok by lra. cbn [bind]. replace (- 0.5 * g)%R with (- (0.5 * g))%R by (lits; lra). set (Rr := (- (0.5 * g) + sqrt h)%R). set (T := (- (0.5 * g) - sqrt h)%R). fold (scub Rr) (scub T).
    pose proof (scub_cube Rr) as HS. pose proof (scub_cube T) as HU. set (S := scub Rr) in *. set (U := scub T) in *. assert (Hh : (sqrt h * sqrt h = h)%R) by (apply sqrt_sqrt; lra).
    assert (HSU : (S * U = - f / 3)%R). { apply rcube_inj. transitivity (S * S * S * (U * U * U))%R; [ring|]. rewrite HS, HU. unfold Rr, T. transitivity (0.5 * g * (0.5 * g) - sqrt h * sqrt h)%R; [ring|]. rewrite Hh. unfold h. lits. field. }
    assert (Hsum : (S * S * S + U * U * U = - g)%R) by (rewrite HS, HU; unfold Rr, T; lits; lra).
    do 3 eexists. split; [reflexivity|]. splits.
    + apply (real_cubic a b c d f g k); auto. intros y.
      replace (RtoC (S + U - b * (1 / 3 * (1 / a)))) with (RtoC S + RtoC U - RtoC k). 2:{ rewrite <- RtoC_plus, <- RtoC_minus. f_equal. unfold k. field. auto. }
      replace (RtoC (- 0.5 * (S + U) - b * (1 / 3 * (1 / a)))) with (- ((RtoC S + RtoC U) / RtoC 2) - RtoC k). 2:{ rewrite <- RtoC_plus, <- RtoC_div, <- RtoC_opp, <- RtoC_minus by lra. f_equal. unfold k. lits. field. auto. }
      replace ((RtoC S - RtoC U) * (RtoC (root_three / 2) * Ci)) with (RtoC root_three * Ci / RtoC 2 * (RtoC S - RtoC U)). 2:{ rewrite RtoC_div by lra. field. cnz. }
      rewrite three_roots by apply J_sq. replace (RtoC 3 * RtoC S * RtoC U) with (- RtoC f). 2:{ rewrite <- !RtoC_mult, <- RtoC_opp. f_equal. rewrite Rmult_assoc, HSU. field. }
      replace (RtoC S * RtoC S * RtoC S + RtoC U * RtoC U * RtoC U) with (- RtoC g). 2:{ rewrite <- !RtoC_mult, <- RtoC_plus, Hsum. symmetry. apply RtoC_opp. } ring.
    + intros H. nra.
    + intros _. assert (HN : (S - U <> 0)%R). { intros E. assert (ES : S = U) by lra. rewrite ES in HS. assert (0 < sqrt h)%R by (apply sqrt_lt_R0; auto). unfold Rr in HS. unfold T in HU. lra. }
      assert (H3 : (0 < root_three)%R) by (unfold root_three; apply sqrt_lt_R0; lra).
      assert (E : (RtoC S - RtoC U) * (RtoC (root_three / 2) * Ci) = (0, (S - U) * (root_three / 2))%R) by (apply C_ext; cbn; ring). rewrite E. unfold real. splits.
      * reflexivity. * cbn. rewrite Rplus_0_l. apply Rmult_integral_contrapositive_currified; lra. * apply C_ext; cbn; ring.
  - apply Rltb_false in Bh.
    assert (Hf : (f < 0)%R). { destruct (Rlt_le_dec f 0) as [|Hf]; auto. exfalso. unfold h in *. assert (0 <= f * f * f)%R by (apply Rmult_le_pos; [nra|auto]). assert (g * g = 0)%R by (lits; nra). assert (Eg : g = 0%R) by (apply Rsqr_0_uniq; auto). assert (f * f * f = 0)%R by (lits; nra).
      assert (Ef : f = 0%R) by (apply rcube_inj; lra). rewrite Eg, Ef in B0. rewrite !(proj2 (Reqb_true _ _)) in B0 by (lits; lra). discriminate. }
    assert (NR : forall P : Prop, (discriminant a b c d < 0)%R -> P) by (intros; nra).
    set (ch := (- 18 * a * b * c * d + 4 * a * (c * c) * c + 4 * (b * b * b) * d - b * b * (c * c) + 27 * (a * a) * (d * d))%R).
    assert (Ech : ch = (- discriminant a b c d)%R) by (unfold ch, discriminant; ring). assert (Hch : (ch <= 0)%R) by nra.
    destruct (_ || _)%bool eqn:Bc.
    + set (w := _ - RtoC (8 * (b * b * b))). assert (H3 : (root_three * root_three = 3)%R) by (apply sqrt_sqrt; lra).
      assert (Hr : (sqrt (- ch) * sqrt (- ch) = - ch)%R) by (apply sqrt_sqrt; lra).
      assert (Ew : w = ((36 * c * b * a - 108 * d * (a * a) - 8 * (b * b * b))%R, (12 * root_three * sqrt (- ch) * a)%R)). { unfold w. rewrite csqrt_real_neg by auto. apply C_ext; cbn; ring. }
      set (m := (b * b - 3 * a * c)%R). assert (Hm : (0 < m)%R). { replace m with (- (3 * (a * a) * f))%R by (unfold m, f; field; auto). assert (0 < a * a)%R by (apply Rsqr_pos_lt; auto). nra. }
      assert (HW : (Cmod w * Cmod w = 64 * (m * m * m))%R). { rewrite Cmod_sq, Ew. cbn [fst snd]. transitivity ((36 * c * b * a - 108 * d * (a * a) - 8 * (b * b * b)) * (36 * c * b * a - 108 * d * (a * a) - 8 * (b * b * b)) + 144 * (root_three * root_three) * (sqrt (- ch) * sqrt (- ch)) * (a * a))%R; [ring|]. rewrite H3, Hr. unfold ch, m. ring. }
      pose proof (pow_third_cube w) as HT. set (t := pow_third w) in *.
      assert (Ht2 : (Cmod t * Cmod t = 4 * m)%R). { apply rcube_inj. transitivity (Cmod t * Cmod t * Cmod t * (Cmod t * Cmod t * Cmod t))%R; [ring|]. rewrite <- Cmod3, HT, HW. ring. }
      assert (Ht : t <> 0). { intros E. rewrite E, Cmod_0 in Ht2. nra. } rewrite cdiv_ok by auto. cbn [bind]. clearbody t.
      assert (Et : RtoC (3 * a * c - b * b) / t = - (Cconj t / RtoC 4)). { pose proof (real_mul_conj t) as RM. rewrite Ht2 in RM. transitivity (- (t * Cconj t / (RtoC 4 * t))). 2:{ field. cnz. } rewrite RM. replace (3 * a * c - b * b)%R with (- m)%R by (unfold m; ring). rewrite RtoC_opp, RtoC_mult. field. cnz. }
      set (X1 := _ - _ - RtoC b * RtoC (1 / a) * third). set (X2 := - (t * RtoC (1 / a)) * twelfth + _ - _ + _). set (X3 := - (t * RtoC (1 / a)) * twelfth + _ - _ - _).
      assert (HM : RtoC (1 / a) / t * RtoC (3 * a * c - b * b) = - (RtoC (1 / a) * Cconj t / RtoC 4)). { transitivity (RtoC (1 / a) * (RtoC (3 * a * c - b * b) / t)); [field; cnz|]. rewrite Et. field. cnz. }
      assert (R1 : X1 = ((2 * fst t / (6 * a) - b / (3 * a))%R, 0%R)). { unfold X1. transitivity (t * RtoC (1 / a) * sixth - two_thirds * (RtoC (1 / a) / t * RtoC (3 * a * c - b * b)) - RtoC b * RtoC (1 / a) * third); [ring|]. rewrite HM, (RtoC_div 1 a) by auto. clits. transitivity ((t + Cconj t) * RtoC (1 / (6 * a)) - RtoC (b / (3 * a))). { rewrite !RtoC_div, !RtoC_mult by lra. field. cnz. } apply C_ext; cbn; field; auto. }
      assert (R2 : forall e : C, - (t * RtoC (1 / a)) * twelfth + RtoC (3 * a * c - b * b) * (RtoC (1 / a) / t) * third - RtoC b * RtoC (1 / a) * third + e = RtoC (- (fst t / (6 * a)) - b / (3 * a)) + e).
      { intros e. f_equal. transitivity (- (t * RtoC (1 / a)) * twelfth + RtoC (1 / a) / t * RtoC (3 * a * c - b * b) * third - RtoC b * RtoC (1 / a) * third); [ring|]. rewrite HM, (RtoC_div 1 a) by auto. clits. transitivity (- ((t + Cconj t) * RtoC (1 / (12 * a))) - RtoC (b / (3 * a))). { rewrite !RtoC_div, !RtoC_mult by lra. field. cnz. } apply C_ext; cbn; field; auto. }
      assert (R3 : RtoC 0.5 * Ci * RtoC root_three * (t * RtoC (1 / a) * sixth + two_thirds * (RtoC (3 * a * c - b * b) * (RtoC (1 / a) / t))) = RtoC (- (root_three * snd t / (6 * a)))).
      { replace (RtoC (3 * a * c - b * b) * (RtoC (1 / a) / t)) with (- (RtoC (1 / a) * Cconj t / RtoC 4)) by (rewrite <- HM; ring). rewrite (RtoC_div 1 a) by auto. clits. transitivity (RtoC (root_three / (12 * a)) * (Ci * (t - Cconj t))). { rewrite !RtoC_div, !RtoC_mult by lra. field. cnz. } apply C_ext; cbn; field; auto. }
      assert (E2 : X2 = RtoC (- (fst t / (6 * a)) - b / (3 * a)) + RtoC (- (root_three * snd t / (6 * a)))) by (unfold X2; now rewrite R2, R3).
      assert (E3 : X3 = RtoC (- (fst t / (6 * a)) - b / (3 * a)) - RtoC (- (root_three * snd t / (6 * a)))). { unfold X3. rewrite R3. unfold Cminus at 1. now rewrite R2. }
      assert (Q1 : RtoC (fst X1) = X1) by (rewrite R1; reflexivity). assert (Q2 : RtoC (fst X2) = X2) by (rewrite E2; apply C_ext; cbn; ring). assert (Q3 : RtoC (fst X3) = X3) by (rewrite E3; apply C_ext; cbn; ring).
      do 3 eexists. split; [reflexivity|]. splits.
      * intros x. rewrite Q1, Q2, Q3. rewrite (cubic_core (RtoC a) (RtoC b) (RtoC c) (RtoC d) (RtoC root_three * csqrt (RtoC ch)) t x (RtoC root_three * Ci)); auto; [|apply J_sq| |].
        -- unfold X1, X2, X3. rewrite RtoC_minus, !RtoC_mult, (RtoC_div 1 a) by auto. clits. f_equal; [f_equal; [f_equal|]|]; field; cnz.
        -- transitivity (RtoC (root_three * root_three) * (csqrt (RtoC ch) * csqrt (RtoC ch))). { rewrite RtoC_mult. ring. } rewrite csqrt_sq, H3. f_equal. unfold ch. rewrite !RtoC_plus, !RtoC_minus, !RtoC_plus, !RtoC_mult, ?RtoC_opp. ring.
        -- rewrite HT. unfold w. rewrite !RtoC_mult. ring.
      * intros _. unfold real. splits; reflexivity.
      * apply NR.
    + clear Bc. set (i2 := (g * g * 0.25 - h)%R). assert (Hi2 : i2 = (- (f * f * f) / 27)%R) by (unfold i2, h; lits; field). assert (Hf3 : (0 < - (f * f * f))%R) by (assert (0 < f * f)%R by nra; nra).
      rewrite psqrt_ok by (rewrite Hi2; lra). cbn [bind]. assert (Hi : (0 < sqrt i2)%R) by (apply sqrt_lt_R0; rewrite Hi2; lra). assert (Hii : (sqrt i2 * sqrt i2 = i2)%R) by (apply sqrt_sqrt; rewrite Hi2; lra). set (i := sqrt i2) in *. clearbody i.
      pose proof (rpow_third_cube i) as Hj. assert (Hi0 : (0 <= i)%R) by lra. specialize (Hj Hi0). set (j := rpow_third i) in *. clearbody j. assert (Hjj : (j * j = - f / 3)%R). { apply rcube_inj. transitivity (j * j * j * (j * j * j))%R; [ring|]. rewrite Hj, Hii, Hi2. field. }
      rewrite pdiv_ok by lra. cbn [bind]. set (q := (- 0.5 * g / i)%R). assert (Hq : (-1 <= q <= 1)%R).
      { assert ((0.5 * g) * (0.5 * g) <= i * i)%R by (rewrite Hii; unfold i2; lits; nra). assert (- i <= 0.5 * g <= i)%R by (split; nra). unfold q. split; apply Rmult_le_reg_r with i; auto; unfold Rdiv; rewrite Rmult_assoc, Rinv_l by lra; lra. }
      unfold pacos. rewrite (proj2 (Rltb_false q (-1))), (proj2 (Rltb_false 1 q)) by lra.
      cbn [bind]. set (k3 := (acos q * (1 / 3))%R). assert (HC : (cos (3 * k3) = q)%R) by (unfold k3; replace (3 * (acos q * (1 / 3)))%R with (acos q) by lra; apply cos_acos; lra). rewrite cos3 in HC.
      pose proof (sin2_cos2 k3) as HSC. unfold Rsqr in HSC. assert (H3 : (root_three * root_three = 3)%R) by (apply sqrt_sqrt; lra). set (M := cos k3) in *. set (s := sin k3) in *. clearbody M s.
      do 3 eexists. split; [reflexivity|]. splits.
      * apply (real_cubic a b c d f g k); auto. intros y. replace (- (b * (1 / a)) * (1 / 3))%R with (- k)%R by (unfold k; field; auto).
        assert (V1 : (j * j * (3 * (M * M) + root_three * root_three * (s * s)) = - f)%R) by (rewrite H3, Hjj; transitivity (- f * (s * s + M * M))%R; [field|rewrite HSC; ring]).
        assert (V2 : (2 * (j * j * j) * M * (M * M - root_three * root_three * (s * s)) = - g)%R). { rewrite H3, Hj. replace (s * s)%R with (1 - M * M)%R by lra. transitivity (2 * i * (4 * M * M * M - 3 * M))%R; [ring|]. rewrite HC. unfold q. lits. field. lra. }
        assert (EF : f = (- (j * j * (3 * (M * M) + root_three * root_three * (s * s))))%R) by lra. assert (EG : g = (- (2 * (j * j * j) * M * (M * M - root_three * root_three * (s * s))))%R) by lra. rewrite EF, EG.
        rewrite ?RtoC_plus, ?RtoC_minus, ?RtoC_opp, ?RtoC_mult, ?RtoC_plus, ?RtoC_minus, ?RtoC_opp, ?RtoC_mult, ?RtoC_plus, ?RtoC_mult. ring.
      * intros _. splits; reflexivity.
      * apply NR.
Qed.
(** leading coefficient zero: the quadratic's two roots (the first one twice), or the linear root three times *)
Theorem C93_cubic_lower (b c d : R) :
  (b <> 0%R -> exists x1 x2, roots_cubic 0 b c d = Ok (x1, x1, x2) /\ roots_quadratic b c d = Ok (x1, x2) /\ forall x, quadratic b c d x = RtoC b * (x - x1) * (x - x2)) /\
  (c <> 0%R -> exists x, roots_cubic 0 0 c d = Ok (RtoC x, RtoC x, RtoC x) /\ (c * x + d = 0)%R) /\ roots_cubic 0 0 0 d = Err ZeroDivisionError.
Proof.
  unfold roots_cubic. rewrite (proj2 (Reqb_true 0 0)) by auto. unfold roots_cubic_low. splits.
  - intros Hb. destruct (C93_quadratic b c d Hb) as (x1 & x2 & E & F & _). exists x1, x2. splits; auto. revert E. unfold roots_quadratic. rewrite (proj2 (Reqb_false b 0)) by auto. cbv zeta. rewrite pdiv_ok by auto. cbn [bind].
    destruct (Rltb _ _); destruct (psqrt _); cbn [bind]; intros E; try discriminate; injection E as <- <-; reflexivity.
  - intros Hc. rewrite (proj2 (Reqb_true 0 0)), pdiv_ok by auto. cbn [bind]. eexists. split; [reflexivity|]. field. auto.
  - rewrite (proj2 (Reqb_true 0 0)), pdiv_0 by auto. reflexivity.
Qed.

(** *** Where the closed forms raise although three or four roots exist *)
(** a monic cubic [(x + b/3)^3 + q] with [q >= 0] divides by zero, for example [x^3 + 1] *)
Theorem C93_cubic_a1_refuted (b d : R) : (b * b * b <= 27 * d)%R -> roots_cubic_a1 b (RtoC (b * b / 3)) d = Err ZeroDivisionError.
Proof.
  intros H. unfold roots_cubic_a1. cbv zeta. set (ch := _ + _ - _ - _ + RtoC 81 * _).
  assert (E : ch = RtoC ((9 * (d - b * b * b / 27)) * (9 * (d - b * b * b / 27)))). { unfold ch. apply C_ext; cbn; field. }
  rewrite E, csqrt_real_pos by (apply Rle_0_sqr). rewrite sqrt_square by lra. set (w := _ + RtoC 12 * _). assert (Ew : w = 0). { unfold w. apply C_ext; cbn; field. }
  rewrite Ew, pow_third_0. rewrite cdiv_0. reflexivity.
Qed.
Theorem C93_cubic_a2_refuted (a b d : R) : a <> 0%R -> (0 <= a * (27 * a * a * d - b * b * b))%R -> roots_cubic_a2 a b (RtoC (b * b / (3 * a))) d = Err ZeroDivisionError.
Proof.
  intros Ha H. unfold roots_cubic_a2. cbv zeta. set (ch := _ + _ + _ - _ + RtoC 27 * _ * _). set (v := ((27 * a * a * d - b * b * b) / a)%R).
  assert (Hv : (0 <= v)%R). { replace v with (a * (27 * a * a * d - b * b * b) * / (a * a))%R by (unfold v; field; auto). apply Rmult_le_pos; auto. left. apply Rinv_0_lt_compat. apply Rsqr_pos_lt; auto. }
  assert (E : ch = RtoC (v * v / 27)). { unfold ch, v. apply C_ext; cbn; field; auto. }
  assert (H27 : (root_three * sqrt (v * v / 27) = v / 3)%R). { unfold root_three. rewrite <- sqrt_mult by nra. replace (3 * (v * v / 27))%R with ((v / 3) * (v / 3))%R by field. apply sqrt_square. lra. }
  rewrite E, csqrt_real_pos by nra. set (w := _ - RtoC 8 * _). assert (Ew : w = 0).
  { unfold w. transitivity (RtoC (36 * (b * b / (3 * a)) * b * a + 12 * (root_three * sqrt (v * v / 27)) * a - 108 * d * (a * a) - 8 * (b * b * b))). { rewrite !RtoC_minus, RtoC_plus, !RtoC_mult. ring. } rewrite H27. f_equal. unfold v. field. auto. }
  rewrite Ew, pow_third_0, (cdiv_ok 1) by now apply RtoC_nz. cbn [bind]. rewrite cdiv_0. reflexivity.
Qed.
(** [a x^4 + e]: an intermediate result that is not needed is zero and divided by *)
Theorem C93_quartic_refuted (a e : C) : a <> 0 -> roots_quartic a 0 0 0 e = Err ZeroDivisionError.
Proof.
  intros Ha. unfold roots_quartic. cbv zeta. rewrite cdiv_ok by auto. cbn [bind].
  match goal with |- context [pow_third ?z] => replace z with (RtoC 0) by (clits; field; cnz) end. rewrite pow_third_0.
  match goal with |- context [csqrt ?z] => replace z with (RtoC 0) by (clits; field; cnz) end. rewrite csqrt_real_pos, sqrt_0 by lra. rewrite cdiv_0. reflexivity.
Qed.

(** *** The hypotheses are met *)
Lemma csqrt_nz (z : C) : z <> 0 -> csqrt z <> 0.
Proof. intros H E. apply H. rewrite <- (csqrt_sq z), E. ring. Qed.
Example C93_quadratic_case : roots_quadratic 1 (-3) 2 = Ok (RtoC 2, RtoC 1) /\ exists x, roots_quadratic 1 0 1 = Ok (x, Cconj x) /\ ~ real x.
Proof.
  split.
  - unfold roots_quadratic. rewrite (proj2 (Reqb_false 1 0)), pdiv_ok by lra. cbn [bind]. rewrite (proj2 (Rltb_false _ _)) by lra. rewrite psqrt_ok by lra. cbn [bind]. replace (-3 * -3 - 4 * 1 * 2)%R with 1%R by ring. rewrite sqrt_1. do 3 f_equal; lits; field.
  - destruct (C93_quadratic 1 0 1) as (x1 & x2 & E & _ & _ & K); [lra|]. destruct K as [K1 K2]; [lra|]. subst. eauto.
Qed.
Example C93_cubic_case : (0 <= discriminant 1 (-6) 11 (-6))%R /\ (discriminant 1 0 0 1 < 0)%R. Proof. unfold discriminant. lra. Qed.
Example C93_cubic_a1_case : exists xs, roots_cubic_a1 0 (-1) 0 = Ok xs.
Proof. apply C93_cubic_a1. intros E. assert (F : RtoC (3 * -1) = RtoC (0 * 0)) by (rewrite !RtoC_mult; exact E). injection F as F. lra. Qed.
(** [x^4 + d x] is answered *)
Example C93_quartic_case (d : R) : d <> 0%R -> exists xs, roots_quartic 1 0 0 d 0 = Ok xs.
Proof.
  intros Hd. assert (H1 : RtoC 1 <> 0) by (apply RtoC_nz; lra). assert (Hp : (0 < d * d)%R) by (apply Rsqr_pos_lt; auto).
  assert (N2 : forall z : C, z <> 0 -> RtoC 2 * z <> 0) by (intros; apply Cmult_neq_0; auto; apply RtoC_nz; lra). assert (NO : forall z : C, z <> 0 -> - z <> 0). { intros z Hz E. apply Hz. transitivity (- - z); [ring|]. rewrite E. ring. }
  unfold roots_quartic. cbv zeta. rewrite cdiv_ok by auto. cbn [bind].
  match goal with |- context [- (RtoC 2 * pow_third ?z)] => assert (EF : z = RtoC (- (d * d / 8))) end. { clits. rewrite RtoC_opp, RtoC_div, RtoC_mult by lra. field. cnz. }
  rewrite EF. match goal with |- context [cdiv _ (csqrt ?z)] => assert (E16 : z = - (RtoC 2 * pow_third (RtoC (- (d * d / 8))))) end. { clits. field. cnz. }
  rewrite E16. rewrite cdiv_ok by (apply csqrt_nz, NO, N2, pow_third_nz; apply RtoC_nz; lra). cbn [bind].
  match goal with |- context [pow_third (?u + csqrt ?v)] => assert (EV : v = RtoC (d * d / 16 * (d * d / 16))); [|assert (EU : u = RtoC (d * d / 16))] end.
  { clits. rewrite !RtoC_mult, RtoC_opp, !RtoC_div, !RtoC_mult by lra. field. cnz. } { clits. rewrite RtoC_div, !RtoC_mult by lra. field. cnz. }
  rewrite EV, EU, csqrt_real_pos, sqrt_square, <- RtoC_plus by nra. set (u := pow_third _). assert (Hu : u <> 0) by (apply pow_third_nz, RtoC_nz; lra).
  rewrite cdiv_ok by auto. cbn [bind]. rewrite cdiv_ok; [cbn [bind]; eauto|]. apply csqrt_nz. match goal with |- ?z <> _ => replace z with (RtoC 2 * u) by (clits; field; splits; auto; cnz) end. auto.
Qed.

Print Assumptions C93_quartic.
Print Assumptions C93_complete.
Print Assumptions C93_quadratic.
Print Assumptions C93_linear.
Print Assumptions C93_cubic_a2.
Print Assumptions C93_cubic_a1.
Print Assumptions C93_cubic.
Print Assumptions C93_cubic_lower.
Print Assumptions C93_cubic_a1_refuted.
Print Assumptions C93_cubic_a2_refuted.
Print Assumptions C93_quartic_refuted.
