(** Inverse functions of complex numbers undo the functions (C117). *)
From Coq Require Import Reals Lra Psatz Bool.
From Verif Require Import Base Model_Real Model_Poly Proofs_Poly3 Model_ComplexInverse.
Open Scope R_scope.

(** ** Complex functions by their parts *)
Definition cmul (a b : R * R) : R * R := (fst a * fst b - snd a * snd b, fst a * snd b + snd a * fst b).
Definition cexp (w : R * R) : R * R := (exp (fst w) * cos (snd w), exp (fst w) * sin (snd w)).
Definition ccos (w : R * R) : R * R := (cos (fst w) * cosh (snd w), - (sin (fst w) * sinh (snd w))).
Definition csin (w : R * R) : R * R := (sin (fst w) * cosh (snd w), cos (fst w) * sinh (snd w)).
Definition ccosh (w : R * R) : R * R := (cosh (fst w) * cos (snd w), sinh (fst w) * sin (snd w)).
Definition csinh (w : R * R) : R * R := (sinh (fst w) * cos (snd w), cosh (fst w) * sin (snd w)).

(** ** The angle of a point *)
Lemma root_scale x y : x <> 0 -> sqrt (x * x + y * y) = Rabs x * sqrt (1 + (y / x)²).
Proof.
  intros H. replace (x * x + y * y) with ((x * x) * (1 + (y / x)²)) by (unfold Rsqr; field; exact H). rewrite sqrt_mult; [|nra|pose proof (Rle_0_sqr (y / x)); lra]. f_equal. apply sqrt_Rsqr_abs.
Qed.
Lemma atan2_spec x y : (x <> 0 \/ y <> 0) -> sqrt (x * x + y * y) * cos (atan2 y x) = x /\ sqrt (x * x + y * y) * sin (atan2 y x) = y.
Proof.
  intros H. unfold atan2.
  assert (Q : forall t, 0 < sqrt (1 + t²)) by (intros t; apply sqrt_lt_R0; pose proof (Rle_0_sqr t); lra).
  destruct (Rltb 0 x) eqn:C1; [apply Rltb_true in C1|apply Rltb_false in C1].
  - rewrite root_scale by lra. rewrite cos_atan, sin_atan. rewrite Rabs_pos_eq by lra. pose proof (Q (y / x)). split; field; lra.
  - destruct (Rltb x 0) eqn:C2; [apply Rltb_true in C2|apply Rltb_false in C2].
    + assert (A : forall s, cos (atan (y / x) + s * PI) = cos (atan (y / x)) * cos (s * PI) - sin (atan (y / x)) * sin (s * PI)) by (intros; apply cos_plus). assert (Z : sqrt (x * x + y * y) * cos (atan (y / x)) = - x /\ sqrt (x * x + y * y) * sin (atan (y / x)) = - y).
      { rewrite root_scale by lra. rewrite cos_atan, sin_atan. rewrite Rabs_left by lra. pose proof (Q (y / x)). split; field; lra. }
      destruct (Rltb y 0).
      * rewrite cos_minus, sin_minus, cos_PI, sin_PI. lra.
      * rewrite neg_cos, neg_sin. lra.
    + assert (x = 0) by lra. subst x. replace (0 * 0 + y * y) with (Rsqr y) by (unfold Rsqr; ring). rewrite sqrt_Rsqr_abs.
      destruct (Rltb 0 y) eqn:C3; [apply Rltb_true in C3|apply Rltb_false in C3].
      * rewrite cos_PI2, sin_PI2, Rabs_pos_eq by lra. lra.
      * assert (y < 0) by lra. rewrite (proj2 (Rltb_true _ _)) by lra. rewrite cos_neg, sin_neg, cos_PI2, sin_PI2, Rabs_left by lra. lra.
Qed.
Lemma atan2_range x y : - PI <= atan2 y x <= PI.
Proof.
  unfold atan2. pose proof (atan_bound (y / x)) as B. pose proof PI_RGT_0.
  destruct (Rltb 0 x) eqn:C1; [lra|]. apply Rltb_false in C1. destruct (Rltb x 0) eqn:C2; [apply Rltb_true in C2|].
  - destruct (Rltb y 0) eqn:C3; [apply Rltb_true in C3|apply Rltb_false in C3].
    + assert (0 < y / x) by (unfold Rdiv; replace (y * / x) with ((- y) * / (- x)) by (field; lra); apply Rmult_lt_0_compat; [lra|apply Rinv_0_lt_compat; lra]). pose proof (atan_increasing 0 (y / x) ltac:(assumption)). rewrite atan_0 in *. lra.
    + assert (y / x <= 0). { unfold Rdiv. assert (/ x < 0) by (apply Rinv_lt_0_compat; exact C2). nra. } assert (atan (y / x) <= 0). { rewrite <- atan_0. destruct (Req_dec (y / x) 0) as [->|]; [lra|]. left. apply atan_increasing. lra. } lra.
  - destruct (Rltb 0 y); [lra|]. destruct (Rltb y 0); lra.
Qed.
Lemma atan2_quarter x y : 0 <= x -> 0 <= y -> 0 <= atan2 y x <= PI / 2.
Proof.
  intros Hx Hy. unfold atan2. pose proof PI_RGT_0. destruct (Rltb 0 x) eqn:C1; [apply Rltb_true in C1|apply Rltb_false in C1].
  - pose proof (atan_bound (y / x)). assert (0 <= y / x) by (apply Rmult_le_pos; [exact Hy|left; apply Rinv_0_lt_compat, C1]). assert (0 <= atan (y / x)). { rewrite <- atan_0. destruct (Req_dec (y / x) 0) as [->|]; [lra|]. left. apply atan_increasing. lra. } lra.
  - rewrite (proj2 (Rltb_false x 0)) by lra. destruct (Rltb 0 y); [lra|]. rewrite (proj2 (Rltb_false y 0)) by lra. lra.
Qed.
Lemma cosh_arcsinh_sq t : cosh (arcsinh t) = sqrt (1 + t * t).
Proof.
  symmetry. apply sqrt_lem_1.
  - nra.
  - unfold cosh. pose proof (exp_pos (arcsinh t)). pose proof (exp_pos (- arcsinh t)). lra.
  - assert (C : cosh (arcsinh t) * cosh (arcsinh t) - sinh (arcsinh t) * sinh (arcsinh t) = 1).
    { unfold cosh, sinh. assert (exp (arcsinh t) * exp (- arcsinh t) = 1) by (rewrite <- exp_plus, Rplus_opp_r, exp_0; reflexivity). nra. }
    rewrite (sinh_arcsinh t) in C. lra.
Qed.

(** ** Arc cosine *)
(** a principal square root *)
Definition square_root (f : R * R -> R * R) : Prop := forall z, cmul (f z) (f z) = z /\ 0 <= fst (f z).
Theorem C117_cacos : forall csqrt z, square_root csqrt -> ccos (py_cacos csqrt z) = z /\ 0 <= fst (py_cacos csqrt z) <= PI.
Proof.
  intros csqrt [x y] HS. unfold py_cacos. destruct (HS (1 - x, - y)) as [E1 P1]. destruct (HS (1 + x, y)) as [E2 P2].
  destruct (csqrt (1 - x, - y)) as [a b]. destruct (csqrt (1 + x, y)) as [c d]. unfold cmul in E1, E2. cbn [fst snd] in *.
  injection E1 as A1 A2. injection E2 as B1 B2. set (im := arcsinh (c * b - d * a)).
  assert (RG : 0 <= 2 * atan2 a c <= PI) by (pose proof (atan2_quarter c a P2 P1); lra).
  set (r2 := c * c + a * a). assert (R2 : 2 <= r2) by (unfold r2; nra).
  assert (NZ : c <> 0 \/ a <> 0). { destruct (Req_dec c 0); [|tauto]. destruct (Req_dec a 0); [|tauto]. exfalso. unfold r2 in R2. subst. lra. }
  destruct (atan2_spec c a NZ) as [K1 K2]. fold r2 in K1, K2. assert (SR : sqrt r2 * sqrt r2 = r2) by (apply sqrt_sqrt; lra). set (q := sqrt r2) in *.
  assert (AB : (2 * a * b) * (2 * a * b) = y * y) by nra. assert (CD : (2 * c * d) * (2 * c * d) = y * y) by nra.
  assert (EX : r2 * x = (c * c - a * a) * (r2 - 1)). { unfold r2. assert (4 * (a * a) * (b * b) = 4 * (c * c) * (d * d)) by nra. replace (b * b) with (a * a - 1 + x) in * by lra. replace (d * d) with (c * c - 1 - x) in * by lra. lra. }
  assert (SH : 1 + (c * b - d * a) * (c * b - d * a) = (r2 - 1) * (r2 - 1)).
  { assert (M1 : a * b = - y / 2) by lra. assert (M2 : c * d = y / 2) by lra.
    assert (M3 : (a * a) * (b * b) = y * y / 4) by (replace ((a * a) * (b * b)) with ((a * b) * (a * b)) by ring; rewrite M1; field).
    assert (M4 : (c * c) * (d * d) = y * y / 4) by (replace ((c * c) * (d * d)) with ((c * d) * (c * d)) by ring; rewrite M2; field).
    replace ((c * b - d * a) * (c * b - d * a)) with ((c * c) * (b * b) + (d * d) * (a * a) - 2 * ((a * b) * (c * d))) by ring. rewrite M1, M2.
    replace (b * b) with (a * a - 1 + x) in * by lra. replace (d * d) with (c * c - 1 - x) in * by lra. unfold r2. lra. }
  assert (CH : cosh im = r2 - 1). { unfold im. rewrite cosh_arcsinh_sq, SH. apply sqrt_square. lra. }
  assert (SI : sinh im = c * b - d * a) by apply sinh_arcsinh.
  assert (CO : r2 * cos (2 * atan2 a c) = c * c - a * a). { rewrite cos_2a. rewrite <- SR. replace (q * q * (cos (atan2 a c) * cos (atan2 a c) - sin (atan2 a c) * sin (atan2 a c))) with ((q * cos (atan2 a c)) * (q * cos (atan2 a c)) - (q * sin (atan2 a c)) * (q * sin (atan2 a c))) by ring. rewrite K1, K2. reflexivity. }
  assert (SO : r2 * sin (2 * atan2 a c) = 2 * (a * c)). { rewrite sin_2a. rewrite <- SR. replace (q * q * (2 * sin (atan2 a c) * cos (atan2 a c))) with (2 * ((q * sin (atan2 a c)) * (q * cos (atan2 a c)))) by ring. rewrite K1, K2. ring. }
  assert (RE : cos (2 * atan2 a c) * cosh im = x). { apply (Rmult_eq_reg_l r2); [|lra]. rewrite CH, EX, <- CO. ring. }
  assert (IM : - (sin (2 * atan2 a c) * sinh im) = y).
  { apply (Rmult_eq_reg_l r2); [|lra]. rewrite SI. replace (r2 * - (sin (2 * atan2 a c) * (c * b - d * a))) with (- ((r2 * sin (2 * atan2 a c)) * (c * b - d * a))) by ring. rewrite SO.
    assert (M1 : a * b = - y / 2) by lra. assert (M2 : c * d = y / 2) by lra.
    replace (- (2 * (a * c) * (c * b - d * a))) with (- 2 * (c * c) * (a * b) + 2 * (a * a) * (c * d)) by ring. rewrite M1, M2. unfold r2. field. }
  destruct (Reqb y 0 && Rltb 1 x && Rltb im 0)%bool eqn:F; cbn [fst]; (split; [|exact RG]); unfold ccos; cbn [fst snd].
  - apply andb_prop in F. destruct F as [F _]. apply andb_prop in F. destruct F as [F _]. apply Reqb_true in F.
    assert (CN : cosh (- im) = cosh im) by (unfold cosh; rewrite Ropp_involutive; field). assert (SN : sinh (- im) = - sinh im) by (unfold sinh; rewrite Ropp_involutive; field).
    rewrite CN, SN, RE. f_equal. lra.
  - rewrite RE, IM. reflexivity.
Qed.

(** ** Inverse tangents *)
(** from e^(2w) (1 - z) = 1 + z to sinh w = z cosh w *)
Lemma tanh_from_exp u v x y : exp u * exp u * ((cos (2 * v)) * (1 - x) + sin (2 * v) * y) = 1 + x -> exp u * exp u * (sin (2 * v) * (1 - x) - cos (2 * v) * y) = y ->
  csinh (u, v) = cmul (x, y) (ccosh (u, v)).
Proof.
  intros A B. unfold csinh, ccosh, cmul. cbn [fst snd]. unfold sinh, cosh. assert (EF : exp u * exp (- u) = 1) by (rewrite <- exp_plus, Rplus_opp_r, exp_0; reflexivity).
  pose proof (exp_pos u) as EP. set (E := exp u) in *. set (F := exp (- u)) in *. rewrite cos_2a, sin_2a in A, B. pose proof (sin2_cos2 v) as SC. unfold Rsqr in SC. set (C := cos v) in *. set (S := sin v) in *. clearbody E F C S.
  assert (G1 : E * E * (C * (1 - x) + y * S) = C * (1 + x) + S * y).
  { rewrite <- A. rewrite <- B at 3. assert (C * C = 1 - S * S) by lra. replace (C * (E * E * ((C * C - S * S) * (1 - x) + 2 * S * C * y)) + S * (E * E * (2 * S * C * (1 - x) - (C * C - S * S) * y))) with (E * E * ((C * C + S * S) * (C * (1 - x) + y * S))) by ring. replace (C * C + S * S) with 1 by lra. ring. }
  assert (G2 : E * E * (S * (1 - x) - y * C) = C * y - S * (1 + x)).
  { rewrite <- A. rewrite <- B at 2. replace (C * (E * E * (2 * S * C * (1 - x) - (C * C - S * S) * y)) - S * (E * E * ((C * C - S * S) * (1 - x) + 2 * S * C * y))) with (E * E * ((C * C + S * S) * (S * (1 - x) - y * C))) by ring. replace (C * C + S * S) with 1 by lra. ring. }
  f_equal; apply (Rmult_eq_reg_l E); try lra.
  - replace (E * ((E - F) / 2 * C)) with ((E * E - E * F) / 2 * C) by field. replace (E * (x * ((E + F) / 2 * C) - y * ((E - F) / 2 * S))) with (x * ((E * E + E * F) / 2 * C) - y * ((E * E - E * F) / 2 * S)) by field. rewrite EF. lra.
  - replace (E * ((E + F) / 2 * S)) with ((E * E + E * F) / 2 * S) by field. replace (E * (x * ((E - F) / 2 * S) + y * ((E + F) / 2 * C))) with (x * ((E * E - E * F) / 2 * S) + y * ((E * E + E * F) / 2 * C)) by field. rewrite EF. lra.
Qed.
(** the exponent and the angle determine it: |1 + z| / |1 - z| and the angle of (1 + z)(1 - conj z) *)
Lemma tanh_from_polar u v x y : 0 < (1 - x) * (1 - x) + y * y -> 0 < (1 + x) * (1 + x) + y * y ->
  exp u * exp u * (exp u * exp u) = ((1 + x) * (1 + x) + y * y) / ((1 - x) * (1 - x) + y * y) ->
  let P := 1 - x * x - y * y in let Q := 2 * y in let m := sqrt (P * P + Q * Q) in m * cos (2 * v) = P -> m * sin (2 * v) = Q ->
  csinh (u, v) = cmul (x, y) (ccosh (u, v)).
Proof.
  intros H1 H2 HE P Q m HC HS. set (n := (1 - x) * (1 - x) + y * y) in *. set (k := (1 + x) * (1 + x) + y * y) in *.
  assert (PQ : P * P + Q * Q = k * n) by (unfold P, Q, k, n; ring). assert (MM : m = exp u * exp u * n).
  { unfold m. rewrite PQ. apply sqrt_lem_1; [left; now apply Rmult_lt_0_compat| |].
    - pose proof (exp_pos u). apply Rmult_le_pos; [nra|lra].
    - replace (exp u * exp u * n * (exp u * exp u * n)) with (exp u * exp u * (exp u * exp u) * (n * n)) by ring. rewrite HE. field. lra. }
  rewrite MM in HC, HS. apply tanh_from_exp; apply (Rmult_eq_reg_l n); try lra.
  - replace (n * (exp u * exp u * (cos (2 * v) * (1 - x) + sin (2 * v) * y))) with ((exp u * exp u * n * cos (2 * v)) * (1 - x) + (exp u * exp u * n * sin (2 * v)) * y) by ring. rewrite HC, HS. unfold P, Q, n. ring.
  - replace (n * (exp u * exp u * (sin (2 * v) * (1 - x) - cos (2 * v) * y))) with ((exp u * exp u * n * sin (2 * v)) * (1 - x) - (exp u * exp u * n * cos (2 * v)) * y) by ring. rewrite HC, HS. unfold P, Q, n. ring.
Qed.
Lemma four_exp l : exp (l / 4) * exp (l / 4) * (exp (l / 4) * exp (l / 4)) = exp l.
Proof. rewrite <- !exp_plus. f_equal. field. Qed.
Lemma large_pos : 0 < CM_SQRT_DBL_MIN.
Proof. unfold CM_SQRT_DBL_MIN. apply sqrt_lt_R0, Rinv_0_lt_compat, IZR_lt. reflexivity. Qed.
Lemma right_ok x y : 0 <= x -> ~ (x = 1 /\ y = 0) -> x <= CM_SQRT_LARGE_DOUBLE -> Rabs y <= CM_SQRT_LARGE_DOUBLE ->
  exists w, catanh_right x y = Ok w /\ csinh w = cmul (x, y) (ccosh w) /\ - (PI / 2) <= snd w <= PI / 2.
Proof.
  intros Hx NP L1 L2. unfold catanh_right. cbv zeta. rewrite (proj2 (Rltb_false _ _)) by exact L1. rewrite (proj2 (Rltb_false _ _)) by exact L2. cbn [orb].
  assert (AA : Rabs y * Rabs y = y * y) by (rewrite <- Rabs_mult; apply Rabs_pos_eq; nra).
  assert (D : 0 < (1 - x) * (1 - x) + y * y). { destruct (Req_dec x 1) as [->|N]; [|nra]. assert (y <> 0) by tauto. nra. }
  assert (D2 : 0 < (1 + x) * (1 + x) + y * y) by nra.
  destruct (Reqb x 1 && Rltb (Rabs y) CM_SQRT_DBL_MIN)%bool eqn:C.
  - apply andb_prop in C. destruct C as [C1 _]. apply Reqb_true in C1. subst x. assert (Ny : y <> 0) by tauto. assert (AP : 0 < Rabs y) by (apply Rabs_pos_lt; exact Ny).
    rewrite (proj2 (Reqb_false _ _)) by lra. rewrite psqrt_ok by lra. cbn [bind]. rewrite py_hypot_ok. cbn [bind]. rewrite psqrt_ok by apply sqrt_pos. cbn [bind].
    set (h := sqrt (Rabs y * Rabs y + 2 * 2)). assert (HH : h * h = y * y + 4) by (unfold h; rewrite sqrt_sqrt; [rewrite AA; ring|nra]). assert (HP : 0 < h) by (apply sqrt_lt_R0; nra). assert (QP : 0 < sqrt h) by (apply sqrt_lt_R0, HP). assert (QA : 0 < sqrt (Rabs y)) by (apply sqrt_lt_R0, AP).
    rewrite pdiv_ok by lra. cbn [bind]. rewrite plog_ok by (apply Rdiv_lt_0_compat; assumption). cbn [bind]. eexists. split; [reflexivity|].
    set (g := sqrt (Rabs y) / sqrt h). assert (GP : 0 < g) by (apply Rdiv_lt_0_compat; assumption). assert (GG : g * g * h = Rabs y). { unfold g. replace (sqrt (Rabs y) / sqrt h * (sqrt (Rabs y) / sqrt h) * h) with ((sqrt (Rabs y) * sqrt (Rabs y)) * h / (sqrt h * sqrt h)) by (field; lra). rewrite !sqrt_sqrt by lra. field. lra. }
    assert (NZ : - Rabs y <> 0 \/ 2 <> 0) by (right; lra). destruct (atan2_spec (- Rabs y) 2 NZ) as [K1 K2]. assert (HQ : sqrt (- Rabs y * - Rabs y + 2 * 2) = h) by (unfold h; f_equal; ring). rewrite HQ in K1, K2.
    set (t := atan2 2 (- Rabs y)) in *. assert (TP : 0 <= t / 2 <= PI / 2).
    { unfold t, atan2. rewrite (proj2 (Rltb_false _ _)) by lra. rewrite (proj2 (Rltb_true _ _)) by lra. rewrite (proj2 (Rltb_false 2 0)) by lra.
      pose proof (atan_bound (2 / - Rabs y)). assert (atan (2 / - Rabs y) < 0). { rewrite <- atan_0. apply atan_increasing. assert (0 < 2 / Rabs y) by (apply Rdiv_lt_0_compat; lra). replace (2 / - Rabs y) with (- (2 / Rabs y)) by (field; lra). lra. } lra. }
    assert (CS : copysign (t / 2) y = if Rltb y 0 then - (t / 2) else t / 2) by (unfold copysign; rewrite Rabs_pos_eq by lra; reflexivity). rewrite CS.
    split; [|cbn [snd]; destruct (Rltb y 0); lra].
    apply tanh_from_polar; [lra|lra| |cbv zeta|cbv zeta].
    + rewrite exp_Ropp, exp_ln by exact GP. rewrite Rminus_diag_eq by reflexivity. replace ((1 + 1) * (1 + 1) + y * y) with (h * h) by lra. replace (0 * 0 + y * y) with (Rabs y * Rabs y) by lra. rewrite <- GG. field. lra.
    + assert (MQ : sqrt ((1 - 1 * 1 - y * y) * (1 - 1 * 1 - y * y) + 2 * y * (2 * y)) = Rabs y * h).
      { apply sqrt_lem_1; [nra|apply Rmult_le_pos; lra|]. replace (Rabs y * h * (Rabs y * h)) with ((Rabs y * Rabs y) * (h * h)) by ring. rewrite AA, HH. ring. }
      rewrite MQ. assert (CC : cos (2 * (if Rltb y 0 then - (t / 2) else t / 2)) = cos t). { destruct (Rltb y 0); [rewrite <- cos_neg|]; f_equal; field. } rewrite CC. rewrite Rmult_assoc, K1. lra.
    + assert (MQ : sqrt ((1 - 1 * 1 - y * y) * (1 - 1 * 1 - y * y) + 2 * y * (2 * y)) = Rabs y * h).
      { apply sqrt_lem_1; [nra|apply Rmult_le_pos; lra|]. replace (Rabs y * h * (Rabs y * h)) with ((Rabs y * Rabs y) * (h * h)) by ring. rewrite AA, HH. ring. }
      rewrite MQ. destruct (Rltb y 0) eqn:CY; [apply Rltb_true in CY|apply Rltb_false in CY].
      * replace (2 * - (t / 2)) with (- t) by field. rewrite sin_neg. replace (Rabs y * h * - sin t) with (- (Rabs y * (h * sin t))) by ring. rewrite K2, Rabs_left by lra. ring.
      * replace (2 * (t / 2)) with t by field. rewrite Rmult_assoc, K2, Rabs_pos_eq by lra. ring.
  - rewrite AA. rewrite pdiv_ok by lra. cbn [bind]. set (n := (1 - x) * (1 - x) + y * y) in *. assert (QP : 1 + 4 * x / n = ((1 + x) * (1 + x) + y * y) / n) by (unfold n; field; fold n; lra).
    unfold plog1p. rewrite plog_ok by (rewrite QP; apply Rdiv_lt_0_compat; lra). cbn [bind]. eexists. split; [reflexivity|]. cbn [snd]. set (t := atan2 (-2 * y) ((1 - x) * (1 + x) - y * y)).
    assert (TR : - PI <= t <= PI) by apply atan2_range. split; [|lra].
    apply tanh_from_polar; [exact D|exact D2| |cbv zeta|cbv zeta].
    + rewrite four_exp, exp_ln by (rewrite QP; apply Rdiv_lt_0_compat; lra). exact QP.
    + assert (NZ : (1 - x) * (1 + x) - y * y <> 0 \/ -2 * y <> 0). { destruct (Req_dec y 0) as [->|]; [left|right; lra]. intro Z. assert (x = 1) by nra. tauto. }
      destruct (atan2_spec _ _ NZ) as [K1 _]. fold t in K1. replace (2 * (- t / 2)) with (- t) by field. rewrite cos_neg. replace ((1 - x) * (1 + x) - y * y) with (1 - x * x - y * y) in K1 by ring. rewrite <- K1 at 3. f_equal. f_equal. ring.
    + assert (NZ : (1 - x) * (1 + x) - y * y <> 0 \/ -2 * y <> 0). { destruct (Req_dec y 0) as [->|]; [left|right; lra]. intro Z. assert (x = 1) by nra. tauto. }
      destruct (atan2_spec _ _ NZ) as [_ K2]. fold t in K2. replace (2 * (- t / 2)) with (- t) by field. rewrite sin_neg. replace ((1 - x) * (1 + x) - y * y) with (1 - x * x - y * y) in K2 by ring.
      replace (-2 * y * (-2 * y)) with (2 * y * (2 * y)) in K2 by ring. lra.
Qed.
(** tanh of the answer is the argument, and the answer is a principal value *)
Theorem C117_catanh : forall x y, ~ (Rabs x = 1 /\ y = 0) -> Rabs x <= CM_SQRT_LARGE_DOUBLE -> Rabs y <= CM_SQRT_LARGE_DOUBLE ->
  exists w, py_catanh (x, y) = Ok w /\ csinh w = cmul (x, y) (ccosh w) /\ - (PI / 2) <= snd w <= PI / 2.
Proof.
  intros x y NP L1 L2. unfold py_catanh. destruct (Rltb x 0) eqn:C; [apply Rltb_true in C|apply Rltb_false in C].
  - rewrite Rabs_left in NP, L1 by lra. destruct (right_ok (- x) y ltac:(lra) NP L1 L2) as ([u v] & -> & E & B). cbn [bind fst snd]. exists (- u, v). split; [reflexivity|]. split; [|exact B].
    unfold csinh, ccosh, cmul in *. cbn [fst snd] in *. injection E as E1 E2.
    assert (CN : cosh (- u) = cosh u) by (unfold cosh; rewrite Ropp_involutive; field). assert (SN : sinh (- u) = - sinh u) by (unfold sinh; rewrite Ropp_involutive; field). rewrite CN, SN. f_equal; lra.
  - rewrite Rabs_pos_eq in NP, L1 by lra. apply right_ok; assumption.
Qed.
(** tan of the answer is the argument, for every complex logarithm *)
Theorem C117_catan : forall clog x y, (forall z, z <> (0, 0) -> cexp (clog z) = z) -> ~ (x = 0 /\ Rabs y = 1) ->
  csin (py_catan clog (x, y)) = cmul (x, y) (ccos (py_catan clog (x, y))).
Proof.
  intros clog x y HL NP. unfold py_catan. assert (N1 : (1 - - y, 0 - x) <> (0, 0)). { intro Z. injection Z as Z1 Z2. apply NP. split; [lra|]. assert (y = -1) by lra. subst y. rewrite Rabs_left by lra. ring. }
  assert (N2 : (1 + - y, 0 + x) <> (0, 0)). { intro Z. injection Z as Z1 Z2. apply NP. split; [lra|]. assert (y = 1) by lra. subst y. apply Rabs_R1. }
  pose proof (HL _ N1) as E1. pose proof (HL _ N2) as E2. destruct (clog (1 - - y, 0 - x)) as [p1 p2]. destruct (clog (1 + - y, 0 + x)) as [q1 q2]. unfold cexp in E1, E2. cbn [fst snd] in *. injection E1 as A1 A2. injection E2 as B1 B2.
  set (u := - (0.5 * (p2 - q2))). set (v := 0.5 * (p1 - q1)).
  (* e^(2 i w) (1 - i z) = 1 + i z as hyperbolic functions of i w *)
  assert (H : csinh (- v, u) = cmul (- y, x) (ccosh (- v, u))).
  { assert (EV : exp (- v) * exp (- v) * exp p1 = exp q1) by (rewrite <- !exp_plus; f_equal; unfold v; lra). assert (UV : 2 * u = q2 - p2) by (unfold u; lra).
    apply tanh_from_exp; rewrite UV, cos_minus, sin_minus.
    - replace (1 - - y) with (exp p1 * cos p2) by lra. assert (X2 : x = - (exp p1 * sin p2)) by lra. rewrite X2 at 1.
      replace (exp (- v) * exp (- v) * ((cos q2 * cos p2 + sin q2 * sin p2) * (exp p1 * cos p2) + (sin q2 * cos p2 - cos q2 * sin p2) * - (exp p1 * sin p2))) with ((exp (- v) * exp (- v) * exp p1) * cos q2 * (sin p2 * sin p2 + cos p2 * cos p2)) by ring.
      pose proof (sin2_cos2 p2) as SC. unfold Rsqr in SC. rewrite SC, EV. lra.
    - replace (1 - - y) with (exp p1 * cos p2) by lra. assert (X2 : x = - (exp p1 * sin p2)) by lra. rewrite X2 at 1.
      replace (exp (- v) * exp (- v) * ((sin q2 * cos p2 - cos q2 * sin p2) * (exp p1 * cos p2) - (cos q2 * cos p2 + sin q2 * sin p2) * - (exp p1 * sin p2))) with ((exp (- v) * exp (- v) * exp p1) * sin q2 * (sin p2 * sin p2 + cos p2 * cos p2)) by ring.
      pose proof (sin2_cos2 p2) as SC. unfold Rsqr in SC. rewrite SC, EV. lra. }
  unfold csinh, ccosh, csin, ccos, cmul in *. cbn [fst snd] in *. injection H as H1 H2.
  assert (CN : cosh (- v) = cosh v) by (unfold cosh; rewrite Ropp_involutive; field). assert (SN : sinh (- v) = - sinh v) by (unfold sinh; rewrite Ropp_involutive; field). rewrite CN, SN in H1, H2. f_equal; lra.
Qed.
(** square roots and logarithms as assumed exist *)
Example C117_root_ex : square_root (fun '(x, y) => (sqrt ((sqrt (x * x + y * y) + x) / 2), if Rltb y 0 then - sqrt ((sqrt (x * x + y * y) - x) / 2) else sqrt ((sqrt (x * x + y * y) - x) / 2))).
Proof.
  intros [x y]. set (m := sqrt (x * x + y * y)). assert (MM : m * m = x * x + y * y) by (unfold m; apply sqrt_sqrt; nra). assert (MP : 0 <= m) by apply sqrt_pos.
  assert (B : - m <= x <= m). { assert (A : Rabs x <= m) by (apply Rsqr_incr_0_var; [rewrite <- Rsqr_abs; unfold Rsqr; nra|exact MP]). revert A. unfold Rabs. destruct (Rcase_abs x); lra. }
  assert (S1 := sqrt_sqrt ((m + x) / 2) ltac:(lra)). assert (S2 := sqrt_sqrt ((m - x) / 2) ltac:(lra)). cbn [fst]. split; [|apply sqrt_pos]. unfold cmul. cbn [fst snd].
  assert (PR : 2 * (sqrt ((m + x) / 2) * sqrt ((m - x) / 2)) = Rabs y).
  { rewrite <- sqrt_mult by lra. replace ((m + x) / 2 * ((m - x) / 2)) with ((y / 2)²) by (unfold Rsqr; nra). rewrite sqrt_Rsqr_abs. unfold Rdiv. rewrite Rabs_mult, (Rabs_pos_eq (/ 2)) by lra. field. }
  destruct (Rltb y 0) eqn:C; [apply Rltb_true in C; rewrite Rabs_left in PR by lra|apply Rltb_false in C; rewrite Rabs_pos_eq in PR by lra]; f_equal; lra.
Qed.
Example C117_log_ex : forall z, z <> (0, 0) -> cexp ((fun '(x, y) => (ln (sqrt (x * x + y * y)), atan2 y x)) z) = z.
Proof.
  intros [x y] H. assert (N : x <> 0 \/ y <> 0) by (destruct (Req_dec x 0); [|tauto]; destruct (Req_dec y 0); [|tauto]; exfalso; apply H; congruence).
  unfold cexp. cbn [fst snd]. rewrite exp_ln by (apply sqrt_lt_R0; destruct N; nra). destruct (atan2_spec x y N) as [-> ->]. reflexivity.
Qed.
Example C117_catanh_ex : py_catanh (0, 1) = Ok (0, PI / 4).
Proof.
  assert (L : 1 <= CM_SQRT_LARGE_DOUBLE). { unfold CM_SQRT_LARGE_DOUBLE, CM_LARGE_DOUBLE. rewrite <- sqrt_1. apply sqrt_le_1_alt. apply (Rmult_le_reg_r 4); [lra|]. unfold Rdiv. rewrite Rmult_assoc, Rinv_l by lra. rewrite !Rmult_1_r, Rmult_1_l. apply IZR_le. vm_compute. discriminate. }
  unfold py_catanh. rewrite (proj2 (Rltb_false _ _)) by lra. unfold catanh_right. cbv zeta. rewrite Rabs_R1. rewrite (proj2 (Rltb_false _ _)) by lra. rewrite (proj2 (Rltb_false _ _)) by exact L. rewrite (proj2 (Reqb_false 0 1)) by lra. cbn [orb andb].
  rewrite pdiv_ok by lra. cbn [bind]. unfold plog1p. rewrite plog_ok by lra. cbn [bind]. f_equal. f_equal.
  - replace (1 + 4 * 0 / ((1 - 0) * (1 - 0) + 1 * 1)) with 1 by field. rewrite ln_1. field.
  - unfold atan2. rewrite (proj2 (Rltb_false _ _)) by lra. rewrite (proj2 (Rltb_false _ _)) by lra. rewrite (proj2 (Rltb_false _ _)) by lra. rewrite (proj2 (Rltb_true _ _)) by lra. field.
Qed.

Print Assumptions C117_cacos.
Print Assumptions C117_catanh.
Print Assumptions C117_catan.
