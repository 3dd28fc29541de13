(** Rounding lemmas for the double-double model: error of one operation, exact error-free transformations. *)
From Coq Require Import Reals ZArith Bool Lra Lia Psatz.
From Flocq Require Import Core Plus_error Mult_error Relative Pff2Flocq.
From Verif Require Import Base Model_DoubleDouble.
Open Scope R_scope.

Definition u64 : R := / 9007199254740992.
Definition eta64 : R := / IZR (2 ^ 1075).
#[global] Instance prec53 : Prec_gt_0 53. Proof. red; lia. Qed.

Lemma even_sym : forall x, (fun z => negb (Z.even z)) x = negb ((fun z => negb (Z.even z)) (- (x + 1))%Z).
Proof. intros x. cbv beta. rewrite Z.even_opp, Z.even_add. cbn [Z.even]. destruct (Z.even x); reflexivity. Qed.
Lemma rnd_opp : forall x, rnd (- x) = - rnd x.
Proof. intros x. unfold rnd. apply round_NE_opp. Qed.
Lemma rnd_0 : rnd 0 = 0.
Proof. apply round_0. typeclasses eauto. Qed.
Lemma rnd_id : forall x, F64 x -> rnd x = x.
Proof. intros x H. apply round_generic; [typeclasses eauto|exact H]. Qed.
Lemma F_rnd : forall x, F64 (rnd x).
Proof. intros x. apply generic_format_round; typeclasses eauto. Qed.
Lemma F_opp : forall x, F64 x -> F64 (- x).
Proof. intros x H. now apply generic_format_opp. Qed.
Lemma F_0 : F64 0.
Proof. apply generic_format_0. Qed.
Lemma rnd_le : forall x y, x <= y -> rnd x <= rnd y.
Proof. intros x y H. apply round_le; [typeclasses eauto..|exact H]. Qed.
Lemma F_Z : forall n : Z, (Z.abs n <= 2 ^ 53)%Z -> F64 (IZR n).
Proof.
  intros n Hn. destruct (Z.eq_dec (Z.abs n) (2 ^ 53)) as [E|E].
  - assert (H : F64 (IZR (2 ^ 53))).
    { unfold F64. change (IZR (2 ^ 53)) with (bpow radix2 53). apply generic_format_bpow. unfold FLT_exp. lia. }
    destruct (Z.abs_eq_or_opp n) as [A|A]; rewrite A in E.
    + rewrite E. exact H.
    + replace n with (- 2 ^ 53)%Z by lia. rewrite opp_IZR. now apply F_opp.
  - apply generic_format_FLT. exists (Float radix2 n 0).
    + unfold F2R; simpl. ring.
    + simpl Fnum. change (2 ^ 53)%Z with (radix2 ^ 53)%Z in *. lia.
    + simpl. lia.
Qed.
Lemma rnd_Z : forall n : Z, (Z.abs n <= 2 ^ 53)%Z -> rnd (IZR n) = IZR n.
Proof. intros. now apply rnd_id, F_Z. Qed.

(** Relative error of a sum of floats; absolute-plus-relative error in general. *)
Lemma u64_bpow : u_ro radix2 53 = u64.
Proof.
  unfold u_ro, u64. change (bpow radix2 (Z.opp 53 + 1)) with (/ 4503599627370496).
  lra.
Qed.
Lemma rnd_plus_err : forall x y, F64 x -> F64 y -> Rabs (rnd (x + y) - (x + y)) <= u64 * Rabs (x + y).
Proof.
  intros x y Hx Hy.
  destruct (FLT_plus_error_N_ex radix2 (-1074) 53 (fun z => negb (Z.even z)) x y Hx Hy) as (d & Hd & E).
  unfold rnd. rewrite E. replace ((x + y) * (1 + d) - (x + y)) with (d * (x + y)) by ring.
  rewrite Rabs_mult. apply Rmult_le_compat_r; [apply Rabs_pos|].
  rewrite <- u64_bpow. eapply Rle_trans; [exact Hd|]. apply u_rod1pu_ro_le_u_ro.
Qed.
Lemma rnd_err : forall x, Rabs (rnd x - x) <= u64 * Rabs x + eta64.
Proof.
  intros x.
  destruct (error_N_FLT radix2 (-1074) 53 ltac:(lia) (fun z => negb (Z.even z)) x) as (eps & eta & He & Ht & _ & E).
  unfold rnd. rewrite E. replace (x * (1 + eps) + eta - x) with (eps * x + eta) by ring.
  eapply Rle_trans; [apply Rabs_triang|]. rewrite Rabs_mult. apply Rplus_le_compat.
  - apply Rmult_le_compat_r; [apply Rabs_pos|]. rewrite <- u64_bpow. exact He.
  - eapply Rle_trans; [exact Ht|]. unfold eta64. change (bpow radix2 (-1074)) with (/ IZR (2 ^ 1074)).
    replace (IZR (2 ^ 1075)) with (2 * IZR (2 ^ 1074)) by (rewrite <- mult_IZR; f_equal; vm_compute; reflexivity).
    assert (0 < IZR (2 ^ 1074)) by (apply IZR_lt; reflexivity).
    apply Req_le. field. lra.
Qed.

(** Knuth's sum: the rounding error of a sum of two floats, computed exactly. *)
Lemma two_sum : forall x y, F64 x -> F64 y ->
  let r := fadd x y in let t := fsub r x in fadd (fsub x (fsub r t)) (fsub y t) = x + y - r.
Proof.
  intros x y Hx Hy r t.
  pose proof (TwoSum_correct (-1074) 53 (fun z => negb (Z.even z)) ltac:(lia) ltac:(lia) even_sym x y Hx Hy) as H.
  change (r + fadd (fsub x (fsub r t)) (fsub y t) = x + y) in H. lra.
Qed.
Lemma sum_err_F : forall x y, F64 x -> F64 y -> F64 (x + y - rnd (x + y)).
Proof.
  intros x y Hx Hy. replace (x + y - rnd (x + y)) with (- (rnd (x + y) - (x + y))) by ring.
  apply F_opp. apply plus_error; try typeclasses eauto; assumption.
Qed.
(** Dekker's product: the rounding error of a product, computed exactly unless it underflows. *)
Lemma splitter_pow : bpow radix2 27 + 1 = splitter.
Proof. unfold splitter. change (bpow radix2 27) with (IZR (2 ^ 27)). change (2 ^ 27)%Z with 134217728%Z. lra. Qed.
Lemma veltkamp_form : forall x, F64 x -> fsub (fmul x splitter) (fsub (fmul x splitter) x) =
  rnd (rnd (x - rnd (x * splitter)) + rnd (x * splitter)).
Proof.
  intros x Hx. unfold fsub, fmul. f_equal.
  replace (x - rnd (x * splitter)) with (- (rnd (x * splitter) - x)) by ring. rewrite rnd_opp. ring.
Qed.
Definition no_underflow (p : R) : Prop := p = 0 \/ / IZR (2 ^ 969) <= Rabs p.
Lemma two_prod : forall x y, F64 x -> F64 y -> no_underflow (x * y) ->
  snd (mul_noerrors_dd x y) = x * y - rnd (x * y).
Proof.
  intros x y Hx Hy Hn. unfold mul_noerrors_dd. cbv zeta. cbn [snd].
  rewrite (veltkamp_form x Hx), (veltkamp_form y Hy).
  pose proof (Dekker radix2 (-1074) 53 (fun z => negb (Z.even z)) ltac:(lia) ltac:(lia) x y Hx Hy (or_introl eq_refl)) as [H _].
  cbv zeta in H. change (53 - Z.div2 53)%Z with 27%Z in H. rewrite splitter_pow in H.
  change (-1074 + 2 * 53 - 1)%Z with (-969)%Z in H. specialize (H Hn).
  unfold fadd, fsub, fmul, rnd in *.
  match goal with |- ?g = _ => match type of H with _ = _ + ?t => replace g with t; [lra|] end end.
  repeat (f_equal; try ring).
Qed.

(** Bounds used by the error analysis: all of them linear in one magnitude. *)
Lemma abs2 : forall x m, Rabs x <= m -> - m <= x <= m.
Proof. intros x m H. now apply Rabs_le_inv. Qed.
Lemma abs2' : forall x m, - m <= x <= m -> Rabs x <= m.
Proof. intros x m H. now apply Rabs_le. Qed.
Lemma fadd_err : forall x y m, F64 x -> F64 y -> - m <= x + y <= m -> - (u64 * m) <= fadd x y - (x + y) <= u64 * m.
Proof.
  intros x y m Hx Hy H. apply abs2. eapply Rle_trans; [now apply rnd_plus_err|].
  apply Rmult_le_compat_l; [unfold u64; lra|now apply abs2'].
Qed.
Lemma fsub_err : forall x y m, F64 x -> F64 y -> - m <= x - y <= m -> - (u64 * m) <= fsub x y - (x - y) <= u64 * m.
Proof. intros x y m Hx Hy H. apply (fadd_err x (- y) m Hx (F_opp _ Hy)). exact H. Qed.
Lemma fmul_err : forall x y m, - m <= x * y <= m -> - (u64 * m + eta64) <= fmul x y - x * y <= u64 * m + eta64.
Proof.
  intros x y m H. apply abs2. eapply Rle_trans; [apply rnd_err|].
  apply Rplus_le_compat_r, Rmult_le_compat_l; [unfold u64; lra|now apply abs2'].
Qed.
Lemma F_fadd : forall x y, F64 (fadd x y). Proof. intros. apply F_rnd. Qed.
Lemma F_fsub : forall x y, F64 (fsub x y). Proof. intros. apply F_rnd. Qed.
Lemma F_fmul : forall x y, F64 (fmul x y). Proof. intros. apply F_rnd. Qed.
#[global] Hint Resolve F_fadd F_fsub F_fmul F_opp F_0 F_rnd : f64.
Lemma eta64_pos : 0 < eta64.
Proof. unfold eta64. apply Rinv_0_lt_compat, IZR_lt. reflexivity. Qed.
Lemma eta64_u : forall m, / IZR (2 ^ 969) <= m -> eta64 <= u64 * u64 * m.
Proof.
  intros m H. replace eta64 with (u64 * u64 * / IZR (2 ^ 969)).
  - apply Rmult_le_compat_l; [unfold u64; lra|exact H].
  - unfold u64, eta64. rewrite <- !Rinv_mult, <- !mult_IZR. f_equal.
Qed.
(** The closing step of every operation: the pair is renormalised with an error of second order. *)
Lemma renorm_err : forall r e A B, F64 r -> F64 e -> - A <= r <= A -> - B <= e <= B ->
  - (u64 * B + 3 * (u64 * u64 * A) + 5 * (u64 * u64 * B)) <= fadd r e + fsub e (fsub (fadd r e) r) - (r + e)
    <= u64 * B + 3 * (u64 * u64 * A) + 5 * (u64 * u64 * B).
Proof.
  intros r e A B Hr He HA HB.
  pose proof (fadd_err r e (A + B) Hr He ltac:(lra)) as E1.
  assert (HF : F64 (fadd r e)) by auto with f64.
  pose proof (fsub_err (fadd r e) r (B + u64 * (A + B)) HF Hr ltac:(lra)) as E2.
  assert (HG : F64 (fsub (fadd r e) r)) by auto with f64.
  pose proof (fsub_err e (fsub (fadd r e) r) (u64 * (A + B) + u64 * (B + u64 * (A + B))) He HG ltac:(lra)) as E3.
  set (a := fadd r e) in *. set (b := fsub a r) in *. set (c := fsub e b) in *. clearbody a b c. unfold u64 in *. lra.
Qed.
Lemma renorm_exact : forall r e, F64 r -> F64 e -> Rabs e <= Rabs r ->
  fadd r e + fsub e (fsub (fadd r e) r) = r + e.
Proof.
  intros r e Hr He H.
  pose proof (Fast2Sum_correct (-1074) 53 (fun z => negb (Z.even z)) ltac:(lia) ltac:(lia) even_sym r e Hr He H) as K.
  change (fadd r e + rnd (e + rnd (r - fadd r e)) = r + e) in K.
  rewrite <- K. f_equal. unfold fsub at 1. f_equal. unfold Rminus at 1. f_equal. unfold fsub. rewrite <- rnd_opp. f_equal. ring.
Qed.

(** Operations on small integers are exact. *)
Lemma fadd_Z : forall a b : Z, (Z.abs (a + b) <= 2 ^ 53)%Z -> fadd (IZR a) (IZR b) = IZR (a + b).
Proof. intros. unfold fadd. rewrite <- plus_IZR. now apply rnd_Z. Qed.
Lemma fsub_Z : forall a b : Z, (Z.abs (a - b) <= 2 ^ 53)%Z -> fsub (IZR a) (IZR b) = IZR (a - b).
Proof. intros. unfold fsub. rewrite <- minus_IZR. now apply rnd_Z. Qed.
Lemma fmul_Z : forall a b : Z, (Z.abs (a * b) <= 2 ^ 53)%Z -> fmul (IZR a) (IZR b) = IZR (a * b).
Proof. intros. unfold fmul. rewrite <- mult_IZR. now apply rnd_Z. Qed.
Lemma fhalf_Z : forall a : Z, (Z.abs a <= 2 ^ 53)%Z -> fmul (IZR (2 * a)) (1 / 2) = IZR a.
Proof. intros. unfold fmul. rewrite mult_IZR. replace (2 * IZR a * (1 / 2)) with (IZR a) by field. now apply rnd_Z. Qed.
Ltac fz := repeat (first [rewrite fadd_Z by (vm_compute; discriminate) | rewrite fsub_Z by (vm_compute; discriminate)
  | rewrite fmul_Z by (vm_compute; discriminate)]; cbn [Z.add Z.sub Z.mul Z.opp Pos.add Pos.mul Z.pos_sub Pos.sub Pos.succ Pos.pred_double Z.succ_double Z.pred_double Z.double Pos.sub_mask Pos.succ_double_mask Pos.double_mask Pos.double_pred_mask Pos.add_carry]).
