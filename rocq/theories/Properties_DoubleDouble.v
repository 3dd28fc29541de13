(** C89: double-double arithmetic.  A pair (r, e) stands for the real number r + e; it is normalised when r is that
    number rounded to a float. *)
From Coq Require Import Reals ZArith Bool Lra Lia Psatz.
From Flocq Require Import Core Plus_error Relative.
From Verif Require Import Base Model_DoubleDouble Proofs_DoubleDouble.
Open Scope R_scope.

Definition normalised (r e : R) : Prop := F64 r /\ F64 e /\ rnd (r + e) = r.

Lemma normalised_small : forall r e, normalised r e -> Rabs e <= u64 * Rabs r.
Proof.
  intros r e (Hr & He & H).
  destruct (FLT_plus_error_N_round_ex radix2 (-1074) 53 (fun z => negb (Z.even z)) r e Hr He) as (d & Hd & E).
  change (r + e = rnd (r + e) * (1 + d)) in E. rewrite H in E. replace e with (r * d) by lra.
  rewrite Rabs_mult, Rmult_comm. apply Rmult_le_compat_r; [apply Rabs_pos|]. now rewrite <- u64_bpow.
Qed.

(** The six comparisons decide the order of the numbers the pairs stand for. *)
Theorem C89_comparisons : forall r0 e0 r1 e1, normalised r0 e0 -> normalised r1 e1 ->
  (lt_dd r0 e0 r1 e1 = true <-> r0 + e0 < r1 + e1) /\
  (le_dd r0 e0 r1 e1 = true <-> r0 + e0 <= r1 + e1) /\
  (gt_dd r0 e0 r1 e1 = true <-> r0 + e0 > r1 + e1) /\
  (ge_dd r0 e0 r1 e1 = true <-> r0 + e0 >= r1 + e1) /\
  (eq_dd r0 e0 r1 e1 = true <-> r0 + e0 = r1 + e1) /\
  (neq_dd r0 e0 r1 e1 = true <-> r0 + e0 <> r1 + e1).
Proof.
  intros r0 e0 r1 e1 (F0 & G0 & H0) (F1 & G1 & H1).
  assert (L : forall a b a' b', rnd (a + b) = a -> rnd (a' + b') = a' -> a < a' -> a + b < a' + b').
  { intros a b a' b' Ha Hb L. destruct (Rlt_or_le (a + b) (a' + b')) as [?|C]; [assumption|].
    apply rnd_le in C. lra. }
  pose proof (L _ _ _ _ H0 H1) as L1. pose proof (L _ _ _ _ H1 H0) as L2.
  unfold lt_dd, le_dd, gt_dd, ge_dd, eq_dd, neq_dd, Rltb, Rleb, Reqb.
  repeat match goal with |- context [if ?d then _ else _] => destruct d end; cbn;
    repeat split; intros; try discriminate; try reflexivity; try lra;
    try (exfalso; lra);
    try (assert (r0 < r1 \/ r1 < r0) as [?|?] by lra; exfalso; lra).
Qed.

(** Adding two floats loses nothing: the pair is the rounded sum and its exact rounding error. *)
Theorem C89_add_exact : forall x y, F64 x -> F64 y ->
  exists e, add_dd x 0 y 0 = (rnd (x + y), e) /\ rnd (x + y) + e = x + y /\ normalised (rnd (x + y)) e.
Proof.
  intros x y Hx Hy. exists (x + y - rnd (x + y)).
  pose proof (sum_err_F x y Hx Hy) as He. pose proof (two_sum x y Hx Hy) as E. cbv zeta in E.
  unfold add_dd. cbv zeta. rewrite E.
  assert (Z0 : fadd 0 0 = 0) by (unfold fadd; replace (0 + 0) with 0 by ring; apply rnd_0). rewrite Z0.
  change (fadd x y) with (rnd (x + y)).
  assert (E1 : fadd (x + y - rnd (x + y)) 0 = x + y - rnd (x + y)) by (unfold fadd; rewrite Rplus_0_r; now apply rnd_id).
  rewrite E1.
  assert (E2 : fadd (rnd (x + y)) (x + y - rnd (x + y)) = rnd (x + y)) by (unfold fadd; f_equal; ring). rewrite E2.
  assert (E3 : fsub (rnd (x + y)) (rnd (x + y)) = 0) by (unfold fsub; rewrite Rminus_diag_eq by reflexivity; apply rnd_0).
  rewrite E3.
  assert (E4 : fsub (x + y - rnd (x + y)) 0 = x + y - rnd (x + y)) by (unfold fsub; rewrite Rminus_0_r; now apply rnd_id).
  rewrite E4. split; [reflexivity|]. split; [ring|].
  split; [apply F_rnd|]. split; [exact He|]. f_equal. ring.
Qed.

(** The product of two floats, when it does not underflow, is returned exactly as a normalised pair. *)
Theorem C89_mul_exact : forall x y, F64 x -> F64 y -> no_underflow (x * y) ->
  exists e, mul_noerrors_dd x y = (rnd (x * y), e) /\ rnd (x * y) + e = x * y /\ rnd (rnd (x * y) + e) = rnd (x * y).
Proof.
  intros x y Hx Hy Hn. exists (x * y - rnd (x * y)). split; [|split; [ring|f_equal; ring]].
  rewrite (surjective_pairing (mul_noerrors_dd x y)). rewrite two_prod by assumption. reflexivity.
Qed.

Lemma mul_dd_shape : forall x0 y0 x1 y1, mul_dd x0 y0 x1 y1 =
  let r := fmul x0 x1 in
  let e := fadd (snd (mul_noerrors_dd x0 x1)) (fadd (fmul x0 y1) (fmul y0 x1)) in
  (fadd r e, fsub e (fsub (fadd r e) r)).
Proof. reflexivity. Qed.

(** The sum of two normalised pairs is right to about twice the working precision, measured by the operands. *)
Theorem C89_add_error : forall x0 y0 x1 y1 r e, normalised x0 y0 -> normalised x1 y1 -> add_dd x0 y0 x1 y1 = (r, e) ->
  Rabs ((r + e) - ((x0 + y0) + (x1 + y1))) <= 10 * (u64 * u64) * (Rabs x0 + Rabs x1).
Proof.
  intros x0 y0 x1 y1 r e N0 N1 E.
  pose proof (abs2 _ _ (normalised_small _ _ N0)) as S0. pose proof (abs2 _ _ (normalised_small _ _ N1)) as S1.
  destruct N0 as (F0 & G0 & _), N1 as (F1 & G1 & _).
  pose proof (abs2 x0 _ (Rle_refl _)) as A0. pose proof (abs2 x1 _ (Rle_refl _)) as A1.
  set (X := Rabs x0 + Rabs x1) in *.
  assert (Hx : - X <= x0 + x1 <= X) by (unfold X; lra).
  assert (Hy : - (u64 * X) <= y0 + y1 <= u64 * X) by (unfold X, u64 in *; lra).
  assert (HX : 0 <= X) by lra. clearbody X.
  pose proof (two_sum x0 x1 F0 F1) as T. cbv zeta in T.
  unfold add_dd in E. cbv zeta in E. rewrite T in E. clear T.
  pose proof (fadd_err x0 x1 X F0 F1 Hx) as E1.
  pose proof (sum_err_F x0 x1 F0 F1) as FE. change (rnd (x0 + x1)) with (fadd x0 x1) in FE.
  pose proof (fadd_err y0 y1 (u64 * X) G0 G1 Hy) as E2.
  set (w := fadd y0 y1) in *. assert (Fw : F64 w) by (unfold w; auto with f64).
  set (s := fadd x0 x1) in *. assert (Fs : F64 s) by (unfold s; auto with f64).
  pose proof (fadd_err (x0 + x1 - s) w (2 * (u64 * X) + u64 * (u64 * X)) FE Fw ltac:(lra)) as E3.
  set (v := fadd (x0 + x1 - s) w) in *. assert (Fv : F64 v) by (unfold v; auto with f64). clearbody w s v.
  pose proof (renorm_err s v (X + u64 * X) (2 * (u64 * X) + 4 * (u64 * (u64 * X))) Fs Fv) as E4.
  injection E as <- <-. apply abs2'.
  specialize (E4 ltac:(lra) ltac:(unfold u64 in *; lra)).
  set (a := fadd s v) in *. set (b := fsub v (fsub a s)) in *. clearbody a b. unfold u64 in *. lra.
Qed.

(** With operands of one sign that is a relative error bound on the result. *)
Theorem C89_add_same_sign : forall x0 y0 x1 y1 r e, normalised x0 y0 -> normalised x1 y1 -> 0 <= x0 * x1 ->
  add_dd x0 y0 x1 y1 = (r, e) ->
  Rabs ((r + e) - ((x0 + y0) + (x1 + y1))) <= 11 * (u64 * u64) * Rabs ((x0 + y0) + (x1 + y1)).
Proof.
  intros x0 y0 x1 y1 r e N0 N1 Hs E. eapply Rle_trans; [now apply (C89_add_error x0 y0 x1 y1)|].
  pose proof (abs2 _ _ (normalised_small _ _ N0)) as S0. pose proof (abs2 _ _ (normalised_small _ _ N1)) as S1.
  assert (H : Rabs x0 + Rabs x1 = Rabs (x0 + x1)).
  { assert (x0 < 0 -> x1 <= 0) by (intros; nra). assert (0 < x0 -> 0 <= x1) by (intros; nra).
    unfold Rabs. repeat destruct Rcase_abs; lra. }
  rewrite H in *.
  assert (K : Rabs (x0 + x1) <= Rabs (x0 + y0 + (x1 + y1)) + u64 * Rabs (x0 + x1)).
  { eapply Rle_trans with (Rabs (x0 + y0 + (x1 + y1)) + Rabs (- (y0 + y1))).
    - replace (x0 + x1) with ((x0 + y0 + (x1 + y1)) + - (y0 + y1)) at 1 by ring. apply Rabs_triang.
    - apply Rplus_le_compat_l. rewrite Rabs_Ropp. apply abs2'. rewrite <- H. lra. }
  set (a := Rabs (x0 + x1)) in *. set (b := Rabs (x0 + y0 + (x1 + y1))) in *. clearbody a b.
  unfold u64 in *. lra.
Qed.

(** The product of two normalised pairs: relative error of second order, unless the product underflows. *)
Theorem C89_mul_error : forall x0 y0 x1 y1 r e, normalised x0 y0 -> normalised x1 y1 -> no_underflow (x0 * x1) ->
  mul_dd x0 y0 x1 y1 = (r, e) ->
  Rabs ((r + e) - (x0 + y0) * (x1 + y1)) <= 20 * (u64 * u64) * Rabs (x0 * x1).
Proof.
  intros x0 y0 x1 y1 r e N0 N1 Hn E.
  pose proof (normalised_small _ _ N0) as S0. pose proof (normalised_small _ _ N1) as S1.
  destruct N0 as (F0 & G0 & _), N1 as (F1 & G1 & _).
  rewrite mul_dd_shape in E. cbv zeta in E. rewrite two_prod in E by assumption.
  assert (P1 : Rabs (x0 * y1) <= u64 * Rabs (x0 * x1)).
  { rewrite !Rabs_mult. pose proof (Rabs_pos x0). nra. }
  assert (P2 : Rabs (y0 * x1) <= u64 * Rabs (x0 * x1)).
  { rewrite !Rabs_mult. pose proof (Rabs_pos x1). nra. }
  assert (P3 : Rabs (y0 * y1) <= u64 * (u64 * Rabs (x0 * x1))).
  { rewrite !Rabs_mult. apply Rle_trans with ((u64 * Rabs x0) * (u64 * Rabs x1)); [|lra].
    apply Rmult_le_compat; try apply Rabs_pos; assumption. }
  apply abs2 in P1, P2, P3.
  destruct Hn as [Hz|Hn].
  - rewrite Hz in *. rewrite Rabs_R0 in *. rewrite !Rmult_0_r in *.
    assert (M1 : x0 * y1 = 0) by lra. assert (M2 : y0 * x1 = 0) by lra. assert (M3 : y0 * y1 = 0) by lra.
    assert (K : fmul x0 x1 = 0) by (unfold fmul; rewrite Hz; apply rnd_0).
    unfold fmul in E. rewrite Hz, M1, M2, rnd_0 in E. unfold fadd, fsub in E.
    replace (0 - 0) with 0 in E by ring.
    repeat (rewrite ?Rplus_0_r, ?Rminus_0_r, ?rnd_0 in E). injection E as <- <-. apply abs2'. lra.
  - assert (FE : F64 (x0 * x1 - rnd (x0 * x1))).
    { rewrite <- two_prod; [|assumption..|right; assumption]. unfold mul_noerrors_dd. cbv zeta. cbn [snd]. auto with f64. }
    pose proof (abs2 _ _ (Rle_refl (Rabs (x0 * x1)))) as P0.
    pose proof (eta64_u _ Hn) as He. pose proof eta64_pos as Hp.
    set (X := Rabs (x0 * x1)) in *. assert (HX : 0 <= X) by lra. clearbody X.
    pose proof (fmul_err x0 x1 X P0) as E0.
    change (rnd (x0 * x1)) with (fmul x0 x1) in *.
    pose proof (fmul_err x0 y1 (u64 * X) P1) as E1. pose proof (fmul_err y0 x1 (u64 * X) P2) as E2.
    set (p := fmul x0 x1) in *. assert (Fp : F64 p) by (unfold p; auto with f64).
    set (p1 := fmul x0 y1) in *. assert (Fp1 : F64 p1) by (unfold p1; auto with f64).
    set (p2 := fmul y0 x1) in *. assert (Fp2 : F64 p2) by (unfold p2; auto with f64).
    pose proof (fadd_err p1 p2 (2 * (u64 * X) + 4 * (u64 * (u64 * X))) Fp1 Fp2 ltac:(lra)) as E3.
    set (q := fadd p1 p2) in *. assert (Fq : F64 q) by (unfold q; auto with f64).
    pose proof (fadd_err (x0 * x1 - p) q (3 * (u64 * X) + 8 * (u64 * (u64 * X))) FE Fq) as E4.
    specialize (E4 ltac:(unfold u64 in *; lra)).
    set (v := fadd (x0 * x1 - p) q) in *. assert (Fv : F64 v) by (unfold v; auto with f64).
    clearbody p p1 p2 q v.
    pose proof (renorm_err p v (X + 2 * (u64 * X)) (3 * (u64 * X) + 12 * (u64 * (u64 * X))) Fp Fv) as E5.
    specialize (E5 ltac:(unfold u64 in *; lra) ltac:(unfold u64 in *; lra)).
    injection E as <- <-. apply abs2'.
    set (a := fadd p v) in *. set (b := fsub v (fsub a p)) in *. clearbody a b.
    replace ((x0 + y0) * (x1 + y1)) with (x0 * x1 + x0 * y1 + y0 * x1 + y0 * y1) by ring.
    set (z0 := x0 * x1) in *. set (z1 := x0 * y1) in *. set (z2 := y0 * x1) in *. set (z3 := y0 * y1) in *.
    clearbody z0 z1 z2 z3. unfold u64 in *. lra.
Qed.

Lemma div_dd_shape : forall x0 y0 x1 y1, x1 <> 0 -> div_dd x0 y0 x1 y1 =
  let r := rnd (x0 / x1) in
  let f := snd (mul_noerrors_dd r x1) in
  let d := fsub (fadd (fsub (fsub x0 (fmul r x1)) f) y0) (fmul r y1) in
  let e := rnd (d / x1) in
  Ok (fadd r e, fsub e (fsub (fadd r e) r)).
Proof.
  intros x0 y0 x1 y1 H. unfold div_dd, fdiv. rewrite pdiv_ok by assumption. cbn [bind]. cbv zeta.
  rewrite pdiv_ok by assumption. reflexivity.
Qed.
Lemma div_abs : forall a b m, b <> 0 -> Rabs a <= m -> Rabs (a / b) <= m / Rabs b.
Proof.
  intros a b m Hb H. unfold Rdiv. rewrite Rabs_mult, Rabs_inv. apply Rmult_le_compat_r; [|exact H].
  apply Rlt_le, Rinv_0_lt_compat, Rabs_pos_lt, Hb.
Qed.

(** Division of normalised pairs: relative error of second order, away from underflow. *)
Theorem C89_div_error : forall x0 y0 x1 y1, normalised x0 y0 -> normalised x1 y1 -> x1 <> 0 ->
  / IZR (2 ^ 968) <= Rabs x0 -> / IZR (2 ^ 969) <= Rabs (x0 / x1) ->
  exists r e, div_dd x0 y0 x1 y1 = Ok (r, e) /\
    Rabs ((r + e) - (x0 + y0) / (x1 + y1)) <= 40 * (u64 * u64) * Rabs (x0 / x1).
Proof.
  intros x0 y0 x1 y1 N0 N1 Hz H0 HQ.
  pose proof (abs2 _ _ (normalised_small _ _ N0)) as S0. pose proof (normalised_small _ _ N1) as S1.
  destruct N0 as (F0 & G0 & _), N1 as (F1 & G1 & _).
  rewrite div_dd_shape by assumption. cbv zeta. eexists _, _. split; [reflexivity|].
  assert (Hx1 : 0 < Rabs x1) by now apply Rabs_pos_lt.
  pose proof (rnd_err (x0 / x1)) as E0. pose proof (eta64_u _ HQ) as HeQ. pose proof eta64_pos as Hp.
  assert (HX : / IZR (2 ^ 969) <= Rabs x0).
  { eapply Rle_trans; [|exact H0]. apply Rinv_le_contravar; [apply IZR_lt; reflexivity|apply IZR_le]. vm_compute. discriminate. }
  pose proof (eta64_u _ HX) as HeX.
  assert (HQX : Rabs (x0 / x1) * Rabs x1 = Rabs x0).
  { rewrite <- Rabs_mult. f_equal. field. exact Hz. }
  set (r := rnd (x0 / x1)) in *. assert (Fr : F64 r) by (unfold r; auto with f64).
  (* r x1 = x0 up to one rounding *)
  assert (R1 : Rabs (r * x1 - x0) <= u64 * Rabs x0 + u64 * (u64 * Rabs x0)).
  { replace (r * x1 - x0) with ((r - x0 / x1) * x1) by (field; exact Hz). rewrite Rabs_mult.
    eapply Rle_trans; [apply Rmult_le_compat_r; [apply Rabs_pos|]|].
    - eapply Rle_trans; [exact E0|]. apply Rplus_le_compat_l. exact HeQ.
    - rewrite Rmult_plus_distr_r, !Rmult_assoc, HQX. lra. }
  pose proof (abs2 _ _ R1) as R2.
  pose proof (abs2 x0 _ (Rle_refl _)) as A0.
  assert (Hn : no_underflow (r * x1)).
  { right. apply Rle_trans with (Rabs x0 / 2).
    - apply Rle_trans with (/ IZR (2 ^ 968) / 2); [|lra].
      replace (IZR (2 ^ 969)) with (2 * IZR (2 ^ 968)) by (rewrite <- mult_IZR; f_equal; vm_compute; reflexivity).
      assert (0 < IZR (2 ^ 968)) by (apply IZR_lt; reflexivity). apply Req_le. field. lra.
    - pose proof (Rabs_triang (r * x1) (x0 - r * x1)) as T. replace (r * x1 + (x0 - r * x1)) with x0 in T by ring.
      rewrite (Rabs_minus_sym x0) in T. pose proof (Rabs_pos x0). unfold u64 in *. lra. }
  assert (FE : F64 (r * x1 - rnd (r * x1))).
  { rewrite <- two_prod; [|assumption..]. unfold mul_noerrors_dd. cbv zeta. cbn [snd]. auto with f64. }
  rewrite two_prod by assumption. change (rnd (r * x1)) with (fmul r x1) in *.
  set (X := Rabs x0) in *. assert (PX : 0 <= X) by (unfold X; apply Rabs_pos).
  assert (E1 := fmul_err r x1 (X + 2 * (u64 * X)) ltac:(unfold u64 in *; lra)).
  set (s := fmul r x1) in *. assert (Fs : F64 s) by (unfold s; auto with f64).
  (* r y1 *)
  assert (Y : Rabs (r * y1) <= u64 * (X + 2 * (u64 * X))).
  { rewrite Rabs_mult. apply Rle_trans with (Rabs r * (u64 * Rabs x1)); [apply Rmult_le_compat_l; [apply Rabs_pos|exact S1]|].
    replace (Rabs r * (u64 * Rabs x1)) with (u64 * Rabs (r * x1)) by (rewrite Rabs_mult; ring).
    apply Rmult_le_compat_l; [unfold u64; lra|]. apply abs2'. unfold u64 in *. lra. }
  apply abs2 in Y. assert (E2 := fmul_err r y1 _ Y).
  set (w := fmul r y1) in *. assert (Fw : F64 w) by (unfold w; auto with f64).
  assert (E3 := fsub_err x0 s (2 * (u64 * X) + 8 * (u64 * (u64 * X))) F0 Fs ltac:(unfold u64 in *; lra)).
  set (a := fsub x0 s) in *. assert (Fa : F64 a) by (unfold a; auto with f64).
  assert (E4 := fsub_err a (r * x1 - s) (3 * (u64 * X) + 20 * (u64 * (u64 * X))) Fa FE ltac:(unfold u64 in *; lra)).
  set (b := fsub a (r * x1 - s)) in *. assert (Fb : F64 b) by (unfold b; auto with f64).
  assert (E5 := fadd_err b y0 (2 * (u64 * X) + 20 * (u64 * (u64 * X))) Fb G0 ltac:(unfold u64 in *; lra)).
  set (c := fadd b y0) in *. assert (Fc : F64 c) by (unfold c; auto with f64).
  assert (E6 := fsub_err c w (3 * (u64 * X) + 30 * (u64 * (u64 * X))) Fc Fw ltac:(unfold u64 in *; lra)).
  set (d := fsub c w) in *.
  (* d against the exact remainder *)
  set (N := (x0 + y0) - r * (x1 + y1)).
  assert (DN : Rabs (d - N) <= 13 * (u64 * (u64 * X))).
  { apply abs2'. unfold N. replace (r * (x1 + y1)) with (r * x1 + r * y1) by ring.
    clearbody a b c d w s. set (z1 := r * x1) in *. set (z2 := r * y1) in *. clearbody z1 z2. unfold u64 in *. lra. }
  assert (BN : Rabs N <= 3 * (u64 * X) + 3 * (u64 * (u64 * X))).
  { apply abs2'. unfold N. replace (r * (x1 + y1)) with (r * x1 + r * y1) by ring.
    clearbody a b c d w s. set (z1 := r * x1) in *. set (z2 := r * y1) in *. clearbody z1 z2. unfold u64 in *. lra. }
  clear E1 E2 E3 E4 E5 E6 Y. clearbody d.
  set (Q := Rabs (x0 / x1)) in *.
  assert (XQ : X / Rabs x1 = Q) by (rewrite <- HQX; field; lra).
  assert (PQ : 0 <= Q) by (unfold Q; apply Rabs_pos).
  assert (D1 : Rabs (d / x1 - N / x1) <= 13 * (u64 * (u64 * Q))).
  { replace (d / x1 - N / x1) with ((d - N) / x1) by (field; exact Hz).
    eapply Rle_trans; [apply div_abs; [exact Hz|exact DN]|]. rewrite <- XQ. apply Req_le. field. lra. }
  assert (D2 : Rabs (N / x1) <= 3 * (u64 * Q) + 3 * (u64 * (u64 * Q))).
  { eapply Rle_trans; [apply div_abs; [exact Hz|exact BN]|]. rewrite <- XQ. apply Req_le. field. lra. }
  assert (B1 : (1 - u64) * Rabs x1 <= Rabs (x1 + y1)).
  { pose proof (Rabs_triang (x1 + y1) (- y1)) as T. rewrite Rabs_Ropp in T. replace (x1 + y1 + - y1) with x1 in T by ring. lra. }
  assert (Hz1 : x1 + y1 <> 0).
  { intros C. rewrite C, Rabs_R0 in B1. unfold u64 in B1. lra. }
  assert (D3 : Rabs (N / x1 - N / (x1 + y1)) <= 4 * (u64 * (u64 * Q))).
  { replace (N / x1 - N / (x1 + y1)) with (N / x1 * (y1 / (x1 + y1))) by (field; split; assumption).
    rewrite Rabs_mult. apply Rle_trans with ((3 * (u64 * Q) + 3 * (u64 * (u64 * Q))) * (u64 / (1 - u64))).
    - apply Rmult_le_compat; try apply Rabs_pos; [exact D2|].
      eapply Rle_trans; [apply div_abs; [exact Hz1|exact S1]|].
      apply Rle_trans with (u64 * Rabs x1 / ((1 - u64) * Rabs x1)).
      + unfold Rdiv. apply Rmult_le_compat_l; [unfold u64; lra|]. apply Rinv_le_contravar; [|exact B1].
        apply Rmult_lt_0_compat; [unfold u64; lra|exact Hx1].
      + apply Req_le. field. split; apply Rgt_not_eq; unfold u64; lra.
    - unfold u64. lra. }
  assert (TQ : (x0 + y0) / (x1 + y1) = r + N / (x1 + y1)) by (unfold N; field; exact Hz1).
  rewrite TQ.
  apply abs2 in D1, D2, D3.
  pose proof (rnd_err (d / x1)) as E7.
  assert (M7 : Rabs (d / x1) <= 3 * (u64 * Q) + 16 * (u64 * (u64 * Q))) by (apply abs2'; lra).
  assert (E8 : Rabs (rnd (d / x1) - d / x1) <= u64 * (3 * (u64 * Q) + 16 * (u64 * (u64 * Q))) + u64 * (u64 * Q)).
  { eapply Rle_trans; [exact E7|]. apply Rplus_le_compat; [|rewrite <- Rmult_assoc; exact HeQ].
    apply Rmult_le_compat_l; [unfold u64; lra|exact M7]. }
  apply abs2 in E8. apply abs2 in E0. pose proof (abs2 (x0 / x1) Q (Rle_refl _)) as AQ.
  set (e := rnd (d / x1)) in *. assert (Fe : F64 e) by (unfold e; auto with f64).
  assert (E9 := renorm_err r e (Q + 2 * (u64 * Q)) (3 * (u64 * Q) + 24 * (u64 * (u64 * Q))) Fr Fe).
  specialize (E9 ltac:(clearbody Q X r; unfold u64 in *; lra) ltac:(unfold u64 in *; lra)).
  apply abs2'.
  set (aa := fadd r e) in *. set (bb := fsub e (fsub aa r)) in *. set (n1 := N / x1) in *. set (n2 := N / (x1 + y1)) in *.
  set (dd := d / x1) in *. clearbody aa bb n1 n2 dd e. clear - E9 D1 D2 D3 E8 PQ. clearbody Q. unfold u64 in *. lra.
Qed.

Theorem C89_div_by_zero : forall x0 y0 y1, div_dd x0 y0 0 y1 = Err ZeroDivisionError.
Proof. intros. unfold div_dd, fdiv. rewrite pdiv_0. reflexivity. Qed.

(** Products and quotients are returned normalised, so that they can be compared and used again. *)
Lemma renorm_normalised : forall r e, F64 r -> F64 e -> Rabs e <= Rabs r ->
  normalised (fadd r e) (fsub e (fsub (fadd r e) r)).
Proof.
  intros r e Hr He H. split; [auto with f64|]. split; [auto with f64|].
  rewrite renorm_exact by assumption. reflexivity.
Qed.

Theorem C89_mul_normalised : forall x0 y0 x1 y1 r e, normalised x0 y0 -> normalised x1 y1 -> no_underflow (x0 * x1) ->
  mul_dd x0 y0 x1 y1 = (r, e) -> normalised r e.
Proof.
  intros x0 y0 x1 y1 r e N0 N1 Hn E.
  pose proof (normalised_small _ _ N0) as S0. pose proof (normalised_small _ _ N1) as S1.
  destruct N0 as (F0 & G0 & _), N1 as (F1 & G1 & _).
  rewrite mul_dd_shape in E. cbv zeta in E. rewrite two_prod in E by assumption.
  assert (P1 : Rabs (x0 * y1) <= u64 * Rabs (x0 * x1)).
  { rewrite !Rabs_mult. pose proof (Rabs_pos x0). nra. }
  assert (P2 : Rabs (y0 * x1) <= u64 * Rabs (x0 * x1)).
  { rewrite !Rabs_mult. pose proof (Rabs_pos x1). nra. }
  injection E as <- <-. apply renorm_normalised; [auto with f64..|].
  apply abs2 in P1, P2.
  destruct Hn as [Hz|Hn].
  - rewrite Hz in *. rewrite Rabs_R0 in *. rewrite !Rmult_0_r in *.
    assert (M1 : x0 * y1 = 0) by lra. assert (M2 : y0 * x1 = 0) by lra.
    unfold fmul. rewrite Hz, M1, M2, rnd_0. unfold fadd. rewrite Rminus_0_r, !Rplus_0_r, !rnd_0, Rplus_0_r, rnd_0. lra.
  - assert (FE : F64 (x0 * x1 - rnd (x0 * x1))).
    { rewrite <- two_prod; [|assumption..|right; assumption]. unfold mul_noerrors_dd. cbv zeta. cbn [snd]. auto with f64. }
    pose proof (abs2 _ _ (Rle_refl (Rabs (x0 * x1)))) as P0.
    pose proof (eta64_u _ Hn) as He. pose proof eta64_pos as Hp.
    set (X := Rabs (x0 * x1)) in *. assert (HX : 0 <= X) by lra.
    assert (AX : X = x0 * x1 \/ X = - (x0 * x1)).
    { unfold X, Rabs. destruct Rcase_abs; lra. } clearbody X.
    pose proof (fmul_err x0 x1 X P0) as E0.
    change (rnd (x0 * x1)) with (fmul x0 x1) in *.
    pose proof (fmul_err x0 y1 (u64 * X) P1) as E1. pose proof (fmul_err y0 x1 (u64 * X) P2) as E2.
    set (p := fmul x0 x1) in *. assert (Fp : F64 p) by (unfold p; auto with f64).
    set (p1 := fmul x0 y1) in *. assert (Fp1 : F64 p1) by (unfold p1; auto with f64).
    set (p2 := fmul y0 x1) in *. assert (Fp2 : F64 p2) by (unfold p2; auto with f64).
    pose proof (fadd_err p1 p2 (2 * (u64 * X) + 4 * (u64 * (u64 * X))) Fp1 Fp2 ltac:(lra)) as E3.
    set (q := fadd p1 p2) in *. assert (Fq : F64 q) by (unfold q; auto with f64).
    pose proof (fadd_err (x0 * x1 - p) q (3 * (u64 * X) + 8 * (u64 * (u64 * X))) FE Fq) as E4.
    specialize (E4 ltac:(unfold u64 in *; lra)).
    set (v := fadd (x0 * x1 - p) q) in *. clearbody p p1 p2 q v.
    apply Rle_trans with (X / 2).
    + apply abs2'. unfold u64 in *. lra.
    + destruct AX as [AX|AX].
      * apply Rle_trans with p; [unfold u64 in *; lra|apply Rle_abs].
      * apply Rle_trans with (- p); [unfold u64 in *; lra|]. rewrite <- Rabs_Ropp. apply Rle_abs.
Qed.

(** Integer powers: the error grows no faster than the exponent. *)
Definition close (k : nat) (v t : R) : Prop :=
  exists th, v = t * th /\ (1 - 22 * (u64 * u64)) ^ k <= th <= (1 + 22 * (u64 * u64)) ^ k.
Lemma cpos : 0 < 1 - 22 * (u64 * u64). Proof. unfold u64. lra. Qed.
Lemma close_mul : forall k1 k2 v1 v2 t1 t2 v, close k1 v1 t1 -> close k2 v2 t2 ->
  Rabs (v - v1 * v2) <= 22 * (u64 * u64) * Rabs (v1 * v2) -> close (S (k1 + k2)) v (t1 * t2).
Proof.
  intros k1 k2 v1 v2 t1 t2 v (a & Ha & La & Ua) (b & Hb & Lb & Ub) H.
  destruct (Req_dec (v1 * v2) 0) as [Z|Z].
  - rewrite Z, Rminus_0_r, Rabs_R0, Rmult_0_r in H. assert (v = 0) by (apply abs2 in H; lra). subst v.
    exists ((1 - 22 * (u64 * u64)) ^ (S (k1 + k2))).
    pose proof (pow_lt _ k1 cpos). pose proof (pow_lt _ k2 cpos).
    assert (t1 * t2 = 0). { subst v1 v2. assert (t1 * t2 * (a * b) = 0) by lra. apply Rmult_integral in H2. destruct H2; [assumption|]. nra. }
    rewrite H2. split; [ring|]. split; [lra|]. apply pow_incr. unfold u64. lra.
  - set (d := v / (v1 * v2)).
    assert (Hd : 1 - 22 * (u64 * u64) <= d <= 1 + 22 * (u64 * u64)).
    { assert (Rabs (d - 1) <= 22 * (u64 * u64)).
      { unfold d. replace (v / (v1 * v2) - 1) with ((v - v1 * v2) / (v1 * v2))
          by (field; split; intros C; apply Z; rewrite C; ring).
        eapply Rle_trans; [apply div_abs; [exact Z|exact H]|]. apply Req_le. field. apply Rabs_no_R0, Z. }
      apply abs2 in H0. lra. }
    exists (a * b * d). split.
    { unfold d. subst v1 v2. field. repeat split; intros C; apply Z; rewrite C; ring. }
    pose proof (pow_lt _ k1 cpos). pose proof (pow_lt _ k2 cpos). pose proof cpos.
    rewrite <- tech_pow_Rmult, pow_add, <- tech_pow_Rmult, pow_add.
    set (c1 := (1 - 22 * (u64 * u64)) ^ k1) in *. set (c2 := (1 - 22 * (u64 * u64)) ^ k2) in *.
    set (g1 := (1 + 22 * (u64 * u64)) ^ k1) in *. set (g2 := (1 + 22 * (u64 * u64)) ^ k2) in *.
    set (lo := 1 - 22 * (u64 * u64)) in *. set (hi := 1 + 22 * (u64 * u64)) in *.
    clearbody c1 c2 g1 g2 lo hi.
    split.
    + apply Rle_trans with (lo * (a * b)); [apply Rmult_le_compat_l; [lra|]; apply Rmult_le_compat; lra|].
      rewrite (Rmult_comm (a * b) d). apply Rmult_le_compat_r; [|lra]. apply Rmult_le_pos; lra.
    + apply Rle_trans with (d * (g1 * g2)); [rewrite (Rmult_comm (a * b) d); apply Rmult_le_compat_l; [lra|]; apply Rmult_le_compat; lra|].
      apply Rmult_le_compat_r; [|lra]. apply Rmult_le_pos; lra.
Qed.
Lemma mul_rel : forall x0 y0 x1 y1 r e, normalised x0 y0 -> normalised x1 y1 -> no_underflow (x0 * x1) ->
  mul_dd x0 y0 x1 y1 = (r, e) -> Rabs ((r + e) - (x0 + y0) * (x1 + y1)) <= 22 * (u64 * u64) * Rabs ((x0 + y0) * (x1 + y1)).
Proof.
  intros x0 y0 x1 y1 r e N0 N1 Hn E. eapply Rle_trans; [now apply (C89_mul_error x0 y0 x1 y1)|].
  pose proof (normalised_small _ _ N0) as S0. pose proof (normalised_small _ _ N1) as S1.
  assert (B : forall x y, Rabs y <= u64 * Rabs x -> (1 - u64) * Rabs x <= Rabs (x + y)).
  { intros x y H. pose proof (Rabs_triang (x + y) (- y)) as T. rewrite Rabs_Ropp in T. replace (x + y + - y) with x in T by ring. lra. }
  pose proof (B _ _ S0) as B0. pose proof (B _ _ S1) as B1.
  rewrite !Rabs_mult. pose proof (Rabs_pos x0). pose proof (Rabs_pos x1).
  apply Rle_trans with (22 * (u64 * u64) * (((1 - u64) * Rabs x0) * ((1 - u64) * Rabs x1))).
  - set (a := Rabs x0) in *. set (b := Rabs x1) in *. assert (0 <= a * b) by nra.
    replace (22 * (u64 * u64) * ((1 - u64) * a * ((1 - u64) * b))) with ((22 * (u64 * u64) * (1 - u64) * (1 - u64)) * (a * b)) by ring.
    rewrite !Rmult_assoc. set (m := a * b) in *. clearbody m. unfold u64. lra.
  - apply Rmult_le_compat_l; [unfold u64; lra|]. apply Rmult_le_compat; try assumption; unfold u64 in *; nra.
Qed.
Definition away (x : R) (N : nat) : Prop := forall m, (m <= N)%nat -> / IZR (2 ^ 900) <= Rabs x ^ m.
Lemma close_low : forall k v t, close k v t -> INR k * (22 * (u64 * u64)) <= 1 / 2 -> Rabs t / 2 <= Rabs v.
Proof.
  intros k v t (th & -> & L & _) H.
  assert (B : 1 - INR k * (22 * (u64 * u64)) <= (1 - 22 * (u64 * u64)) ^ k).
  { clear. induction k as [|k IH]; [simpl; lra|]. rewrite <- tech_pow_Rmult, S_INR. pose proof (pos_INR k).
    pose proof cpos. assert (0 < 22 * (u64 * u64)) by (unfold u64; lra).
    set (c := 22 * (u64 * u64)) in *. set (n := INR k) in *. clearbody c n.
    apply Rle_trans with ((1 - c) * (1 - n * c)); [nra|]. apply Rmult_le_compat_l; lra. }
  rewrite Rabs_mult. pose proof (Rabs_pos t). rewrite (Rabs_pos_eq th) by lra.
  assert (1 / 2 <= th) by lra. nra.
Qed.
Lemma head_low : forall r e, normalised r e -> Rabs (r + e) / 2 <= Rabs r.
Proof.
  intros r e N. pose proof (normalised_small _ _ N) as S0. pose proof (Rabs_triang r e). pose proof (Rabs_pos r).
  unfold u64 in S0. lra.
Qed.
Lemma no_underflow_close : forall x a b k1 k2 r0 e0 r1 e1 N, away x N -> (a + b <= N)%nat ->
  INR k1 * (22 * (u64 * u64)) <= 1 / 2 -> INR k2 * (22 * (u64 * u64)) <= 1 / 2 ->
  normalised r0 e0 -> normalised r1 e1 -> close k1 (r0 + e0) (x ^ a) -> close k2 (r1 + e1) (x ^ b) ->
  no_underflow (r0 * r1).
Proof.
  intros x a b k1 k2 r0 e0 r1 e1 N HA Hab K1 K2 N0 N1 C0 C1. right.
  pose proof (close_low _ _ _ C0 K1) as L0. pose proof (close_low _ _ _ C1 K2) as L1.
  pose proof (head_low _ _ N0) as M0. pose proof (head_low _ _ N1) as M1.
  rewrite <- RPow_abs in L0, L1. pose proof (HA _ Hab) as B. rewrite pow_add in B.
  pose proof (pow_le _ a (Rabs_pos x)) as P0. pose proof (pow_le _ b (Rabs_pos x)) as P1.
  rewrite Rabs_mult. apply Rle_trans with (Rabs x ^ a / 4 * (Rabs x ^ b / 4)).
  - apply Rle_trans with (/ IZR (2 ^ 900) / 16); [|lra].
    replace (/ IZR (2 ^ 900) / 16) with (/ IZR (2 ^ 900 * 16)).
    + apply Rinv_le_contravar; [apply IZR_lt; reflexivity|apply IZR_le]. vm_compute. discriminate.
    + rewrite mult_IZR. field. apply IZR_neq. vm_compute. discriminate.
  - apply Rmult_le_compat; lra.
Qed.
Lemma intpow_loop_close : forall x N, away x N -> INR N * (22 * (u64 * u64)) <= 1 / 2 ->
  forall i a b rr re br be, (1 <= b)%nat -> (a + b * Pos.to_nat i <= N)%nat ->
  normalised rr re -> normalised br be -> close a (rr + re) (x ^ a) -> close (b - 1) (br + be) (x ^ b) ->
  exists r e, intpow_loop i rr re br be = (r, e) /\ normalised r e /\
    close (a + b * Pos.to_nat i) (r + e) (x ^ (a + b * Pos.to_nat i)).
Proof.
  intros x N HA HN.
  assert (KK : forall k, (k <= N)%nat -> INR k * (22 * (u64 * u64)) <= 1 / 2).
  { intros k Hk. eapply Rle_trans; [|exact HN]. apply Rmult_le_compat_r; [unfold u64; lra|now apply le_INR]. }
  induction i as [i IH|i IH|]; intros a b rr re br be Hb Hle N0 N1 C0 C1; cbn [intpow_loop].
  - rewrite Pos2Nat.inj_xI in *.
    destruct (mul_dd rr re br be) as [r' e'] eqn:E1. destruct (mul_dd br be br be) as [b' f'] eqn:E2.
    assert (U1 : no_underflow (rr * br)) by (apply (no_underflow_close x a b a (b - 1) rr re br be N HA); try assumption; [nia|apply KK; nia..]).
    assert (U2 : no_underflow (br * br)) by (apply (no_underflow_close x b b (b - 1) (b - 1) br be br be N HA); try assumption; [nia|apply KK; nia..]).
    pose proof (close_mul _ _ _ _ _ _ _ C0 C1 (mul_rel _ _ _ _ _ _ N0 N1 U1 E1)) as D1.
    pose proof (close_mul _ _ _ _ _ _ _ C1 C1 (mul_rel _ _ _ _ _ _ N1 N1 U2 E2)) as D2.
    rewrite <- pow_add in D1, D2.
    destruct (IH (a + b)%nat (b + b)%nat r' e' b' f') as (r & e & H1 & H2 & H3); try nia.
    + now apply (C89_mul_normalised rr re br be).
    + now apply (C89_mul_normalised br be br be).
    + replace (a + b)%nat with (S (a + (b - 1))) at 1 by lia. exact D1.
    + replace (b + b - 1)%nat with (S (b - 1 + (b - 1))) by lia. exact D2.
    + exists r, e. replace (a + b * S (2 * Pos.to_nat i))%nat with (a + b + (b + b) * Pos.to_nat i)%nat by lia.
      split; [exact H1|]. split; assumption.
  - rewrite Pos2Nat.inj_xO in *.
    destruct (mul_dd br be br be) as [b' f'] eqn:E2. pose proof (Pos2Nat.is_pos i).
    assert (U2 : no_underflow (br * br)) by (apply (no_underflow_close x b b (b - 1) (b - 1) br be br be N HA); try assumption; [nia|apply KK; nia..]).
    pose proof (close_mul _ _ _ _ _ _ _ C1 C1 (mul_rel _ _ _ _ _ _ N1 N1 U2 E2)) as D2.
    rewrite <- pow_add in D2.
    destruct (IH a (b + b)%nat rr re b' f') as (r & e & H1 & H2 & H3); try nia; try assumption.
    + now apply (C89_mul_normalised br be br be).
    + replace (b + b - 1)%nat with (S (b - 1 + (b - 1))) by lia. exact D2.
    + exists r, e. replace (a + b * (2 * Pos.to_nat i))%nat with (a + (b + b) * Pos.to_nat i)%nat by lia.
      split; [exact H1|]. split; assumption.
  - change (Pos.to_nat 1) with 1%nat in *. rewrite Nat.mul_1_r in *.
    destruct (mul_dd rr re br be) as [r' e'] eqn:E1. exists r', e'.
    assert (U1 : no_underflow (rr * br)) by (apply (no_underflow_close x a b a (b - 1) rr re br be N HA); try assumption; [apply KK; nia..]).
    pose proof (close_mul _ _ _ _ _ _ _ C0 C1 (mul_rel _ _ _ _ _ _ N0 N1 U1 E1)) as D1.
    rewrite <- pow_add in D1. split; [reflexivity|]. split; [now apply (C89_mul_normalised rr re br be)|].
    replace (a + b)%nat with (S (a + (b - 1))) at 1 by lia. exact D1.
Qed.
Lemma pow_up : forall c k, 0 <= c -> INR k * c <= 1 / 2 -> (1 + c) ^ k <= 1 + 2 * (INR k * c).
Proof.
  intros c k Hc. induction k as [|k IH]; [simpl; lra|]. rewrite <- tech_pow_Rmult, S_INR. intros H.
  pose proof (pos_INR k). assert (B : INR k * c <= 1 / 2) by nra. specialize (IH B).
  set (n := INR k) in *. clearbody n. apply Rle_trans with ((1 + c) * (1 + 2 * (n * c))); [apply Rmult_le_compat_l; lra|]. nra.
Qed.

Theorem C89_intpow_error : forall r e (p : positive), normalised r e -> INR (Pos.to_nat p) * (22 * (u64 * u64)) <= 1 / 2 ->
  (forall m, (m <= Pos.to_nat p)%nat -> / IZR (2 ^ 900) <= Rabs (r + e) ^ m) ->
  exists r' e', intpow_dd r e (Zpos p) = Ok (r', e') /\ normalised r' e' /\
    Rabs ((r' + e') - (r + e) ^ Pos.to_nat p) <= 44 * (u64 * u64) * INR (Pos.to_nat p) * Rabs ((r + e) ^ Pos.to_nat p).
Proof.
  intros r e p Nr HN HA.
  assert (N1 : normalised 1 0).
  { assert (F64 1) by (apply (F_Z 1); vm_compute; discriminate). split; [assumption|]. split; [auto with f64|].
    rewrite Rplus_0_r. now apply rnd_id. }
  assert (K0 : close 0 (1 + 0) ((r + e) ^ 0)) by (exists 1; simpl; lra).
  assert (K1 : close (1 - 1) (r + e) ((r + e) ^ 1)) by (exists 1; simpl; lra).
  destruct (intpow_loop_close (r + e) (Pos.to_nat p) HA HN p 0 1 1 0 r e ltac:(lia) ltac:(lia) N1 Nr K0 K1)
    as (r' & e' & E & Nn & C).
  exists r', e'. unfold intpow_dd. cbn [Z.abs]. rewrite E. split; [reflexivity|]. split; [exact Nn|].
  rewrite Nat.add_0_l, Nat.mul_1_l in C.
  set (k := Pos.to_nat p) in *. destruct C as (th & -> & L & U).
  replace ((r + e) ^ k * th - (r + e) ^ k) with ((th - 1) * (r + e) ^ k) by ring. rewrite Rabs_mult.
  apply Rmult_le_compat_r; [apply Rabs_pos|]. apply abs2'.
  pose proof (pow_up (22 * (u64 * u64)) k ltac:(unfold u64; lra) HN) as P1.
  assert (P2 : 1 - INR k * (22 * (u64 * u64)) <= (1 - 22 * (u64 * u64)) ^ k).
  { clear. induction k as [|k IH]; [simpl; lra|]. rewrite <- tech_pow_Rmult, S_INR. pose proof (pos_INR k).
    pose proof cpos. assert (0 < 22 * (u64 * u64)) by (unfold u64; lra).
    set (c := 22 * (u64 * u64)) in *. set (n := INR k) in *. clearbody c n.
    apply Rle_trans with ((1 - c) * (1 - n * c)); [nra|]. apply Rmult_le_compat_l; lra. }
  pose proof (pos_INR k). assert (0 < u64 * u64) by (unfold u64; lra).
  set (c := u64 * u64) in *. assert (0 <= INR k * c) by (apply Rmult_le_pos; lra). lra.
Qed.
Theorem C89_intpow_zero : forall r e, intpow_dd r e 0 = Ok (1, 0).
Proof. reflexivity. Qed.

(** Complex square roots: a number below the real axis gets the root of its mirror image, so squaring the answer does
    not give the argument back. *)
Lemma sqrt_dd_square : forall a : Z, (0 < a)%Z -> (a * 134217729 <= 2 ^ 53)%Z -> sqrt_dd (IZR (a * a)) 0 = Ok (IZR a, 0).
Proof.
  intros a Ha Hb.
  assert (B : (Z.abs a <= 2 ^ 53 /\ Z.abs (a * a) <= 2 ^ 53 /\ Z.abs (a * 134217729) <= 2 ^ 53)%Z) by nia.
  destruct B as (B1 & B2 & B3).
  assert (P : 0 < IZR a) by now apply IZR_lt.
  assert (Q : 0 < IZR (a * a)) by (rewrite mult_IZR; nra).
  unfold sqrt_dd. rewrite (proj2 (Reqb_false _ _)) by lra. unfold fsqrt. rewrite psqrt_ok by lra. cbn [bind].
  replace (sqrt (IZR (a * a))) with (IZR a) by (rewrite mult_IZR, sqrt_square; lra).
  rewrite (rnd_Z a) by exact B1. cbv zeta. unfold splitter.
  rewrite (fmul_Z a 134217729) by exact B3.
  rewrite (fsub_Z (a * 134217729) a) by nia. rewrite (fsub_Z (a * 134217729)) by nia.
  replace (a * 134217729 - (a * 134217729 - a))%Z with a by ring.
  rewrite (fsub_Z a a) by nia. rewrite Z.sub_diag. rewrite (fmul_Z a a) by exact B2.
  rewrite (fsub_Z (a * a) (a * a)) by nia. rewrite Z.sub_diag.
  rewrite (fmul_Z 2 a) by nia. rewrite (fmul_Z (2 * a) 0) by nia. rewrite Z.mul_0_r.
  rewrite (fadd_Z 0 0) by nia. rewrite (fmul_Z 0 0) by nia. cbn [Z.add Z.mul].
  rewrite (fadd_Z 0 0) by nia. cbn [Z.add]. rewrite (fsub_Z 0 0) by nia. cbn [Z.sub Z.opp Z.add].
  rewrite (fadd_Z 0 0) by nia. cbn [Z.add].
  assert (H0 : fmul 0 (1 / 2) = 0) by (unfold fmul; rewrite Rmult_0_l; apply rnd_0). rewrite H0.
  unfold fdiv. rewrite pdiv_ok by lra. cbn [bind]. replace (0 / IZR a) with 0 by (field; lra). rewrite rnd_0.
  rewrite (fadd_Z a 0) by nia. rewrite Z.add_0_r. rewrite (fsub_Z a a) by nia. rewrite Z.sub_diag.
  rewrite (fsub_Z 0 0) by nia. reflexivity.
Qed.
Theorem C89_sqrt_imag_refuted : sqrt_imag_dd (-3) 0 (-4) 0 = Ok (1, 0, 2, 0) /\
  mul_imag_dd 1 0 2 0 1 0 2 0 = (-3, 0, 4, 0).
Proof.
  split.
  - assert (S1 : square_dd (-3) 0 = (9, 0)) by (unfold square_dd, splitter; fz; reflexivity).
    assert (S2 : square_dd (-4) 0 = (16, 0)) by (unfold square_dd, splitter; fz; reflexivity).
    assert (A1 : add_dd 9 0 16 0 = (25, 0)) by (unfold add_dd; fz; reflexivity).
    assert (A2 : add_dd 5 0 (-3) 0 = (2, 0)) by (unfold add_dd; fz; reflexivity).
    assert (A3 : add_dd 5 0 3 0 = (8, 0)) by (unfold add_dd; fz; reflexivity).
    assert (Q1 : sqrt_dd 25 0 = Ok (5, 0)) by (apply (sqrt_dd_square 5); lia).
    assert (Q2 : sqrt_dd 1 0 = Ok (1, 0)) by (apply (sqrt_dd_square 1); lia).
    assert (Q3 : sqrt_dd 4 0 = Ok (2, 0)) by (apply (sqrt_dd_square 2); lia).
    assert (M1 : fmul 2 (1 / 2) = 1) by (apply (fhalf_Z 1); lia).
    assert (M2 : fmul 8 (1 / 2) = 4) by (apply (fhalf_Z 4); lia).
    assert (M3 : fmul 0 (1 / 2) = 0) by (apply (fhalf_Z 0); lia).
    unfold sqrt_imag_dd. rewrite (proj2 (Reqb_false _ _)) by lra. rewrite S1, S2, A1, Q1. cbn [bind].
    rewrite A2, M1, M3, Q2. cbn [bind].
    replace (- -3) with 3 by lra. replace (- 0) with 0 by lra. rewrite A3, M2, M3, Q3. reflexivity.
  - unfold mul_imag_dd, mul_dd, splitter. fz. cbv iota beta. 
    replace (- (4)) with (IZR (-4)) by lra. replace (- 0) with (IZR 0) by lra. unfold add_dd. fz. reflexivity.
Qed.

(** Concrete non-trivial cases. *)
Lemma F_pow : forall k : Z, (-1074 <= k)%Z -> F64 (bpow radix2 k).
Proof. intros k H. apply generic_format_bpow. unfold FLT_exp. lia. Qed.
Lemma F_1 : F64 1. Proof. apply (F_Z 1). lia. Qed.
Lemma rnd_1_small : forall x, 0 <= x <= / 9007199254740992 / 2 -> rnd (1 + x) = 1.
Proof.
  intros x Hx. assert (E : Rabs (rnd (1 + x) - 1) <= Rabs (1 - (1 + x)) + Rabs (rnd (1 + x) - (1 + x))) .
  { replace (rnd (1 + x) - 1) with (- (1 - (1 + x)) + (rnd (1 + x) - (1 + x))) by ring.
    eapply Rle_trans; [apply Rabs_triang|]. rewrite Rabs_Ropp. lra. }
  unfold rnd. apply Rle_antisym.
  - (* 1 + x is below the midpoint between 1 and its successor *)
    apply (round_N_le_midp radix2 (FLT_exp (-1074) 53)); [exact F_1|].
    rewrite succ_eq_pos by lra. replace (ulp radix2 (FLT_exp (-1074) 53) 1) with (/ 4503599627370496); [lra|].
    change 1 with (bpow radix2 0). rewrite ulp_bpow. reflexivity.
  - rewrite <- (rnd_id 1 F_1) at 1. apply rnd_le. lra.
Qed.
Lemma normalised_ex : normalised 1 (/ 1152921504606846976).
Proof.
  split; [exact F_1|]. split; [change (/ 1152921504606846976) with (bpow radix2 (-60)); apply F_pow; lia|].
  apply rnd_1_small. lra.
Qed.
Example C89_comparisons_ex : lt_dd 1 0 1 (/ 1152921504606846976) = true /\ normalised 1 (/ 1152921504606846976).
Proof.
  split; [|exact normalised_ex]. unfold lt_dd. rewrite (proj2 (Rltb_false 1 1)) by lra. rewrite (proj2 (Reqb_true 1 1)) by lra. rewrite (proj2 (Rltb_true 0 _)) by lra. reflexivity.
Qed.
Example C89_add_exact_ex : rnd (1 + / 1152921504606846976) = 1 /\ F64 (/ 1152921504606846976).
Proof. destruct normalised_ex as (_ & H1 & H2). split; assumption. Qed.
Example C89_mul_exact_ex : F64 134217729 /\ no_underflow (134217729 * 134217729).
Proof.
  split; [apply F_Z; lia|]. right. rewrite Rabs_pos_eq by lra. apply Rle_trans with 1; [|lra].
  rewrite <- Rinv_1. apply Rinv_le_contravar; [lra|]. apply IZR_le. vm_compute. discriminate.
Qed.
Example C89_div_error_ex : normalised 1 (/ 1152921504606846976) /\ / IZR (2 ^ 968) <= Rabs 1 /\ / IZR (2 ^ 969) <= Rabs (1 / 1).
Proof.
  split; [exact normalised_ex|]. replace (1 / 1) with 1 by lra. rewrite Rabs_R1.
  split; rewrite <- Rinv_1; apply Rinv_le_contravar; try lra; apply IZR_le; vm_compute; discriminate.
Qed.
Example C89_intpow_error_ex : normalised 1 (/ 1152921504606846976) /\ INR (Pos.to_nat 10) * (22 * (u64 * u64)) <= 1 / 2 /\
  (forall m, (m <= Pos.to_nat 10)%nat -> / IZR (2 ^ 900) <= Rabs (1 + / 1152921504606846976) ^ m).
Proof.
  split; [exact normalised_ex|]. split.
  - change (Pos.to_nat 10) with 10%nat. unfold u64. simpl INR. lra.
  - intros m _. apply Rle_trans with 1.
    + rewrite <- Rinv_1. apply Rinv_le_contravar; [lra|]. apply IZR_le. vm_compute. discriminate.
    + apply pow_R1_Rle. rewrite Rabs_pos_eq by lra. lra.
Qed.

Print Assumptions C89_comparisons.
Print Assumptions C89_add_exact.
Print Assumptions C89_mul_exact.
Print Assumptions C89_add_error.
Print Assumptions C89_add_same_sign.
Print Assumptions C89_mul_error.
Print Assumptions C89_div_error.
Print Assumptions C89_div_by_zero.
Print Assumptions C89_mul_normalised.
Print Assumptions C89_intpow_error.
Print Assumptions C89_intpow_zero.
Print Assumptions C89_sqrt_imag_refuted.
