(** Lemmas on the sizing iterations. *)
From Coq Require Import Reals Lra Lia String List Bool.
From Verif Require Import Base Model_Real Proofs_Real Model_Valve Model_Sizing Properties_Core.
From Coquelicot Require Import Rcomplements.
Open Scope R_scope.

Lemma rho0_pos : 0 < rho0. Proof. unfold rho0. lits. lra. Qed.

Lemma sqrt_le_iff : forall a b, 0 <= a -> 0 <= b -> a <= b * b -> sqrt a <= b.
Proof. intros. rewrite <- (sqrt_square b) by assumption. apply sqrt_le_1_alt; lra. Qed.
Lemma sqrt_ge_iff : forall a b, 0 <= b -> b * b <= a -> b <= sqrt a.
Proof. intros. rewrite <- (sqrt_square b) at 1 by assumption. apply sqrt_le_1_alt; lra. Qed.

(** ** Piping step of the liquid *)

Definition loss_of (d D1 D2 : R) : R :=
  (1 - (d / D1) ^ 4) + 0.5 * (1 - (d / D1) ^ 2) ^ 2 + (1 - (d / D2) ^ 2) ^ 2 - (1 - (d / D2) ^ 4).
Definition loss_up_of (d D1 : R) : R := (1 - (d / D1) ^ 4) + 0.5 * (1 - (d / D1) ^ 2) ^ 2.

Lemma loss_ok : forall d D1 D2, 0 < D1 -> 0 < D2 ->
  loss_coefficient_piping d (Some D1) (Some D2) = Ok (loss_of d D1 D2).
Proof.
  intros. unfold loss_coefficient_piping. rewrite !(proj2 (Reqb_false _ _)) by lra. rewrite !pdiv_ok by lra. cbn [bind].
  f_equal. unfold loss_of. ring.
Qed.
Lemma loss_up_ok : forall d D1, 0 < D1 -> loss_coefficient_piping d (Some D1) None = Ok (loss_up_of d D1).
Proof.
  intros. unfold loss_coefficient_piping. rewrite !(proj2 (Reqb_false _ _)) by lra. rewrite !pdiv_ok by lra. cbn [bind].
  f_equal. unfold loss_up_of. ring.
Qed.
Lemma loss_up_nonneg : forall d D1, 0 < d -> d <= D1 -> 0 <= loss_up_of d D1.
Proof.
  intros. unfold loss_up_of. assert (0 < d / D1 <= 1).
  { split. apply Rdiv_lt_0_compat; lra. apply (Rmult_le_reg_r D1); [lra|]. unfold Rdiv. rewrite Rmult_assoc, Rinv_l by lra. lra. }
  assert (0 <= (d / D1) ^ 2 <= 1) by (simpl; nra).
  replace ((d / D1) ^ 4) with ((d / D1) ^ 2 * (d / D1) ^ 2) by ring. set (b := (d / D1) ^ 2) in *. lits. nra.
Qed.

Definition upstream (d D1 : R) : R := if Rltb D1 d then 0 else loss_up_of d D1.
Lemma upstream_nonneg : forall d D1, 0 < d -> 0 <= upstream d D1.
Proof.
  intros. unfold upstream. destruct (Rltb D1 d) eqn:B; [lra|]. apply Rltb_false in B. apply loss_up_nonneg; lra.
Qed.

(** Squared piping geometry factor and squared combined factor. *)
Definition FP2 (loss d C : R) : R := / (1 + loss / 0.0016 * (C / d ^ 2) ^ 2).
Definition FLP2 (FL lup d C : R) : R := FL ^ 2 / (1 + FL ^ 2 / 0.0016 * lup * (C / d ^ 2) ^ 2).

Lemma den_pos : forall l u, 0 <= l -> 0 < 1 + l / 0.0016 * u ^ 2.
Proof. intros. assert (0 <= l / 0.0016) by (lits; lra). pose proof (pow2_ge_0 u). nra. Qed.
Lemma den_pos2 : forall FL l u, 0 <= l -> 0 < 1 + FL ^ 2 / 0.0016 * l * u ^ 2.
Proof. intros. pose proof (pow2_ge_0 FL). assert (0 <= FL ^ 2 / 0.0016 * l) by (lits; nra). pose proof (pow2_ge_0 u). nra. Qed.

Lemma inv_sqrt_sq : forall a, 0 < a -> (1 / sqrt a) * (1 / sqrt a) = / a.
Proof. intros. pose proof (sqrt_lt_R0 _ H). pose proof (sqrt_sqrt a ltac:(lra)). rewrite <- H1 at 3. field. lra. Qed.

(** The sizing equation with a given driving term [m]: Q = 0.1 C sqrt (m rho0 / rho). *)
Definition Ceq (rho Q m : R) : R := Q / 0.1 * sqrt (rho / rho0 / m).

Lemma scale_sqrt : forall Q f g a, 0 < f -> 0 < g -> f * f = g -> forall m, 0 < m -> 0 <= a ->
  Q / 0.1 / f * sqrt (a / m) = Q / 0.1 * sqrt (a / (g * m)).
Proof.
  intros Q f g a Hf Hg E m Hm Ha.
  replace (a / (g * m)) with ((a / m) / (f * f)) by (rewrite <- E; field; splits; try lra).
  rewrite (sqrt_div_alt (a / m) (f * f)) by nra. rewrite sqrt_square by lra. lits. field. lra.
Qed.

Lemma step_l_ok : forall rho Psat P1 dP FF Q FL d D1 D2 Ci,
  0 < rho -> 0 < dP -> 0 < P1 - FF * Psat -> 0 < FL -> 0 < d -> 0 < D1 -> 0 < D2 -> 0 <= loss_of d D1 D2 ->
  exists FLP FP, piping_step_l rho rho0 Psat P1 dP FF Q FL d D1 D2 Ci =
    Ok (Ceq rho Q (Rmin (FP2 (loss_of d D1 D2) d Ci * dP) (FLP2 FL (upstream d D1) d Ci * (P1 - FF * Psat))), FLP, FP) /\
    0 < FP /\ FP * FP = FP2 (loss_of d D1 D2) d Ci /\ 0 < FLP /\ FLP * FLP = FLP2 FL (upstream d D1) d Ci.
Proof.
  intros rho Psat P1 dP FF Q FL d D1 D2 Ci Hr HdP HP HFL Hd HD1 HD2 HL.
  pose proof rho0_pos as R0. assert (0 < rho / rho0) by (apply Rdiv_lt_0_compat; lra).
  unfold piping_step_l. rewrite loss_ok by lra. cbn [bind]. rewrite pdiv_ok by (apply Rgt_not_eq, pow_lt; lra). cbn [bind].
  pose proof (den_pos (loss_of d D1 D2) (Ci / d ^ 2) HL) as A. rewrite psqrt_ok by lra. cbn [bind].
  pose proof (sqrt_lt_R0 _ A) as A1. rewrite pdiv_ok by lra. cbn [bind].
  assert ((if Rltb D1 d then Ok 0 else loss_coefficient_piping d (Some D1) None) = Ok (upstream d D1)) as ->.
  { unfold upstream. destruct (Rltb D1 d); [reflexivity|]. apply loss_up_ok; lra. }
  cbn [bind]. pose proof (den_pos2 FL _ (Ci / d ^ 2) (upstream_nonneg d D1 Hd)) as B. rewrite psqrt_ok by lra. cbn [bind].
  pose proof (sqrt_lt_R0 _ B) as B1. rewrite pdiv_ok by lra. cbn [bind].
  set (FP := 1 / sqrt (1 + loss_of d D1 D2 / 0.0016 * (Ci / d ^ 2) ^ 2)) in *.
  set (FLP := FL * 1 / sqrt (1 + FL ^ 2 / 0.0016 * upstream d D1 * (Ci / d ^ 2) ^ 2)) in *.
  assert (PFP : 0 < FP) by (apply Rdiv_lt_0_compat; lra). assert (PFLP : 0 < FLP) by (apply Rdiv_lt_0_compat; lra).
  assert (EFP : FP * FP = FP2 (loss_of d D1 D2) d Ci) by (apply inv_sqrt_sq; lra).
  assert (EFLP : FLP * FLP = FLP2 FL (upstream d D1) d Ci).
  { unfold FLP, FLP2. transitivity (FL ^ 2 * ((1 / sqrt (1 + FL ^ 2 / 0.0016 * upstream d D1 * (Ci / d ^ 2) ^ 2)) * (1 / sqrt (1 + FL ^ 2 / 0.0016 * upstream d D1 * (Ci / d ^ 2) ^ 2)))).
    field. lra. rewrite inv_sqrt_sq by lra. reflexivity. }
  exists FLP, FP. split; [|auto].
  unfold is_choked_turbulent_l. rewrite !(proj2 (Reqb_false _ _)) by lra. rewrite pdiv_ok by nra. cbn [bind].
  clearbody FP FLP. rewrite EFP, EFLP. set (p2 := FP2 _ _ _) in *. set (q2 := FLP2 _ _ _ _) in *.
  assert (0 < p2) by nra. assert (0 < q2) by nra. clearbody p2 q2.
  destruct (Rleb (q2 / p2 * (P1 - FF * Psat)) dP) eqn:CH.
  - apply Rleb_true in CH. apply (Rmult_le_compat_r p2) in CH; [|lra].
    replace (q2 / p2 * (P1 - FF * Psat) * p2) with (q2 * (P1 - FF * Psat)) in CH by (field; lra).
    rewrite Rmin_right by lra. rewrite !pdiv_ok by lra. cbn [bind]. rewrite psqrt_ok by (apply Rdiv_le_0_compat; lra). cbn [bind].
    rewrite (scale_sqrt Q FLP q2) by lra. reflexivity.
  - apply Rleb_false in CH. apply (Rmult_lt_compat_r p2) in CH; [|lra].
    replace (q2 / p2 * (P1 - FF * Psat) * p2) with (q2 * (P1 - FF * Psat)) in CH by (field; lra).
    rewrite Rmin_left by lra. rewrite !pdiv_ok by lra. cbn [bind]. rewrite psqrt_ok by (apply Rdiv_le_0_compat; lra). cbn [bind].
    rewrite (scale_sqrt Q FP p2) by lra. reflexivity.
Qed.

Lemma Ceq_pos : forall rho Q m, 0 < rho -> 0 < Q -> 0 < m -> 0 < Ceq rho Q m.
Proof.
  intros. unfold Ceq. pose proof rho0_pos. apply Rmult_lt_0_compat. lits; lra.
  apply sqrt_lt_R0. apply Rdiv_lt_0_compat; [apply Rdiv_lt_0_compat|]; lra.
Qed.
Lemma Ceq_le : forall rho Q m m', 0 < rho -> 0 <= Q -> 0 < m -> m <= m' -> Ceq rho Q m' <= Ceq rho Q m.
Proof.
  intros. unfold Ceq. pose proof rho0_pos. apply Rmult_le_compat_l. lits; lra. apply sqrt_le_1_alt.
  assert (0 < rho / rho0) by (apply Rdiv_lt_0_compat; lra). unfold Rdiv at 1 3. apply Rmult_le_compat_l; [lra|]. apply Rinv_le_contravar; lra.
Qed.
(** Ceq inverts the flow equation. *)
Lemma Ceq_flow : forall rho Q m, 0 < rho -> 0 < m -> 0.1 * Ceq rho Q m * sqrt (m / (rho / rho0)) = Q.
Proof.
  intros. unfold Ceq. pose proof rho0_pos. assert (0 < rho / rho0) by (apply Rdiv_lt_0_compat; lra).
  replace (0.1 * (Q / 0.1 * sqrt (rho / rho0 / m)) * sqrt (m / (rho / rho0))) with (Q * (sqrt (rho / rho0 / m) * sqrt (m / (rho / rho0)))) by (lits; field).
  rewrite <- sqrt_mult. 2, 3: apply Rdiv_le_0_compat; lra.
  replace (rho / rho0 / m * (m / (rho / rho0))) with 1 by (field; splits; lra). rewrite sqrt_1. ring.
Qed.

Lemma FP2_pos : forall loss d C, 0 <= loss -> 0 < FP2 loss d C.
Proof. intros. apply Rinv_0_lt_compat, den_pos. assumption. Qed.
Lemma FLP2_pos : forall FL lup d C, 0 < FL -> 0 <= lup -> 0 < FLP2 FL lup d C.
Proof. intros. apply Rdiv_lt_0_compat. apply pow_lt; lra. apply den_pos2. assumption. Qed.
Lemma sq_le : forall C C' d, 0 < d -> 0 <= C -> C <= C' -> (C / d ^ 2) ^ 2 <= (C' / d ^ 2) ^ 2.
Proof.
  intros. assert (0 < d ^ 2) by (apply pow_lt; lra). apply pow_incr. split. apply Rdiv_le_0_compat; lra.
  apply Rmult_le_compat_r; [apply Rlt_le, Rinv_0_lt_compat|]; lra.
Qed.
Lemma FP2_le : forall loss d C C', 0 <= loss -> 0 < d -> 0 <= C -> C <= C' -> FP2 loss d C' <= FP2 loss d C.
Proof.
  intros. unfold FP2. apply Rinv_le_contravar. apply den_pos; assumption.
  pose proof (sq_le C C' d H0 H1 H2). assert (0 <= loss / 0.0016) by (lits; lra). nra.
Qed.
Lemma FLP2_le : forall FL lup d C C', 0 < FL -> 0 <= lup -> 0 < d -> 0 <= C -> C <= C' -> FLP2 FL lup d C' <= FLP2 FL lup d C.
Proof.
  intros. unfold FLP2, Rdiv at 1 4. apply Rmult_le_compat_l. apply pow2_ge_0. apply Rinv_le_contravar. apply den_pos2; assumption.
  pose proof (sq_le C C' d H1 H2 H3). assert (0 <= FL ^ 2 / 0.0016 * lup) by (pose proof (pow2_ge_0 FL); lits; nra). nra.
Qed.
(** A one percent larger valve loses at most two percent of the squared factors. *)
Lemma inv_shrink : forall a u v, 0 <= a -> u <= v -> 0.9801 * v <= u -> 0 <= u -> 0.9801 * / (1 + a * u) <= / (1 + a * v).
Proof.
  intros a u v Ha H1 H2 H3. assert (0 < 1 + a * u) by nra. assert (0 <= v) by (lits; lra). assert (0 < 1 + a * v) by nra.
  apply (Rmult_le_reg_r ((1 + a * u) * (1 + a * v))). nra.
  replace (0.9801 * / (1 + a * u) * ((1 + a * u) * (1 + a * v))) with (0.9801 * (1 + a * v)) by (field; lra).
  replace (/ (1 + a * v) * ((1 + a * u) * (1 + a * v))) with (1 + a * u) by (field; lra).
  assert (a * (0.9801 * v) <= a * u) by (apply Rmult_le_compat_l; lra). lits. lra.
Qed.
Lemma sq_shrink : forall C C' d, 0 < d -> 0 <= C -> C <= C' -> 0.99 * C' <= C -> 0.9801 * (C' / d ^ 2) ^ 2 <= (C / d ^ 2) ^ 2.
Proof.
  intros. replace (0.9801 * (C' / d ^ 2) ^ 2) with ((0.99 * C' / d ^ 2) ^ 2).
  apply sq_le; try assumption. lits; lra. lits. field. lra.
Qed.
Lemma FP2_shrink : forall loss d C C', 0 <= loss -> 0 < d -> 0 <= C -> C <= C' -> 0.99 * C' <= C ->
  0.9801 * FP2 loss d C <= FP2 loss d C'.
Proof.
  intros. unfold FP2. apply inv_shrink. lits; lra. apply sq_le; assumption. apply sq_shrink; assumption. apply pow2_ge_0.
Qed.
Lemma FLP2_shrink : forall FL lup d C C', 0 < FL -> 0 <= lup -> 0 < d -> 0 <= C -> C <= C' -> 0.99 * C' <= C ->
  0.9801 * FLP2 FL lup d C <= FLP2 FL lup d C'.
Proof.
  intros. unfold FLP2, Rdiv at 1 4.
  assert (0.9801 * / (1 + FL ^ 2 / 0.0016 * lup * (C / d ^ 2) ^ 2) <= / (1 + FL ^ 2 / 0.0016 * lup * (C' / d ^ 2) ^ 2)).
  { apply inv_shrink. pose proof (pow2_ge_0 FL); lits; nra. apply sq_le; assumption. apply sq_shrink; assumption. apply pow2_ge_0. }
  pose proof (pow2_ge_0 FL). apply (Rmult_le_compat_l (FL ^ 2)) in H5; [|assumption]. lra.
Qed.

(** ** The recursion: what an answer says *)
Lemma iterate_l_inv : forall (I : R -> Prop) step full, (forall Cj C a b, I Cj -> step Cj = Ok (C, a, b) -> I C) ->
  forall k Ci C FLP FP w, I Ci -> iterate_turbulent_l step full Ci k = Ok (C, FLP, FP, w) ->
  exists Cj a b t, I Cj /\ step Cj = Ok (C, a, b) /\ pdiv Cj C = Ok t /\ (w = true \/ (0.99 <= t /\ Cj < 10 ^ 40)) /\ (full = false -> w = false).
Proof.
  intros I step full HI. induction k; intros Ci C FLP FP w HC E; cbn [iterate_turbulent_l] in E.
  - inv_bind E. destruct v as [[C1 a] b]. inv_bind E. cbn [bind] in E.
    destruct full; cbn [negb andb orb] in E; [|discriminate].
    assert (C1 = C /\ w = true) as [-> ->] by (split; congruence).
    exists Ci, a, b, v. splits; auto.
  - inv_bind E. destruct v as [[C1 a] b]. inv_bind E. rename v into t.
    destruct (Rltb t 0.99 && Rltb Ci (10 ^ 40))%bool eqn:B.
    + inv_bind E. inv_bind E2. destruct v0 as [[[C2 a2] b2] w2]. assert (v = (C2, w2)) as -> by congruence. clear E2.
      apply andb_prop in B. destruct B as [_ B]. apply Rltb_true in B.
      rewrite (proj2 (Rleb_false _ _)) in E by lra. cbn [orb andb] in E. rewrite orb_false_r in E.
      assert (C2 = C /\ w2 = w) as [-> ->] by (split; congruence). eapply IHk; [|exact E3]. eapply HI; eassumption.
    + cbn [bind orb] in E. destruct (Rleb (10 ^ 40) Ci) eqn:L.
      * destruct full; cbn [negb andb] in E; [|discriminate]. assert (C1 = C /\ w = true) as [-> ->] by (split; congruence).
        exists Ci, a, b, t. splits; auto.
      * cbn [andb orb] in E. assert (C1 = C /\ w = false) as [-> ->] by (split; congruence).
        exists Ci, a, b, t. apply Rleb_false in L. rewrite (proj2 (Rltb_true Ci (10 ^ 40))) in B by lra. rewrite andb_true_r in B.
        apply Rltb_false in B. splits; auto.
Qed.

Lemma iterate_l_nameerror : forall step T, (forall C, 0 < C -> exists a b, step C = Ok (T C, a, b)) -> (forall C, 0 < C -> C < 0.99 * T C) ->
  forall k Ci, 0 < Ci -> iterate_turbulent_l step false Ci k = Err NameError.
Proof.
  intros step T HT HG. induction k; intros Ci HC; cbn [iterate_turbulent_l]; destruct (HT Ci HC) as (a & b & ->); cbn [bind];
    pose proof (HG Ci HC) as G; assert (0 < T Ci) by (lits; lra); rewrite pdiv_ok by lra; cbn [bind].
  - reflexivity.
  - rewrite (proj2 (Rltb_true (Ci / T Ci) 0.99)).
    2:{ apply (Rmult_lt_reg_r (T Ci)); [lra|]. unfold Rdiv. rewrite Rmult_assoc, Rinv_l by lra. lra. }
    cbn [andb]. destruct (Rltb Ci (10 ^ 40)) eqn:L.
    + rewrite IHk by lra. reflexivity.
    + cbn [bind]. apply Rltb_false in L. rewrite (proj2 (Rleb_true _ _)) by lra. reflexivity.
Qed.

Lemma iterate_l_warned : forall step T, (forall C, 0 < C -> exists a b, step C = Ok (T C, a, b)) -> (forall C, 0 < C -> C < 0.99 * T C) ->
  forall k Ci, 0 < Ci -> exists C a b, iterate_turbulent_l step true Ci k = Ok (C, a, b, true).
Proof.
  intros step T HT HG. induction k; intros Ci HC; cbn [iterate_turbulent_l]; destruct (HT Ci HC) as (a & b & ->); cbn [bind];
    pose proof (HG Ci HC) as G; assert (0 < T Ci) by (lits; lra); rewrite pdiv_ok by lra; cbn [bind].
  - do 3 eexists. reflexivity.
  - rewrite (proj2 (Rltb_true (Ci / T Ci) 0.99)).
    2:{ apply (Rmult_lt_reg_r (T Ci)); [lra|]. unfold Rdiv. rewrite Rmult_assoc, Rinv_l by lra. lra. }
    cbn [andb]. destruct (Rltb Ci (10 ^ 40)) eqn:L.
    + destruct (IHk (T Ci) ltac:(lra)) as (C & a' & b' & ->). cbn [bind negb]. rewrite andb_false_r. do 3 eexists. rewrite orb_true_l. reflexivity.
    + cbn [bind negb]. apply Rltb_false in L. rewrite (proj2 (Rleb_true _ _)) by lra. do 3 eexists. reflexivity.
Qed.

(** ** The gas recursion *)
Lemma iterate_g_inv : forall (I : R -> Prop) step, (forall Cj C a b, I Cj -> step Cj = Ok (C, a, b) -> I C) ->
  forall k Ci C a0 b0 w, I Ci -> iterate_turbulent_g step Ci k = Ok (C, a0, b0, w) ->
  exists Cj a b t, I Cj /\ step Cj = Ok (C, a, b) /\ pdiv Cj C = Ok t /\ (w = true \/ (0.99 <= t /\ Cj < 10 ^ 40)).
Proof.
  intros I step HI. induction k; intros Ci C FLP FP w HC E; cbn [iterate_turbulent_g] in E.
  - inv_bind E. destruct v as [[C1 a] b]. inv_bind E. cbn [bind orb] in E.
    assert (C1 = C /\ w = true) as [-> ->] by (split; congruence). exists Ci, a, b, v. splits; auto.
  - inv_bind E. destruct v as [[C1 a] b]. inv_bind E. rename v into t.
    destruct (Rltb t 0.99 && Rltb Ci (10 ^ 40))%bool eqn:B.
    + inv_bind E. inv_bind E2. destruct v0 as [[[C2 a2] b2] w2]. assert (v = (C2, w2)) as -> by congruence. clear E2.
      apply andb_prop in B. destruct B as [_ B]. apply Rltb_true in B.
      rewrite (proj2 (Rleb_false _ _)) in E by lra. cbn [orb andb] in E. rewrite orb_false_r in E.
      assert (C2 = C /\ w2 = w) as [-> ->] by (split; congruence). eapply IHk; [|exact E3]. eapply HI; eassumption.
    + cbn [bind orb] in E. destruct (Rleb (10 ^ 40) Ci) eqn:L.
      * assert (C1 = C /\ w = true) as [-> ->] by (split; congruence). exists Ci, a, b, t. splits; auto.
      * assert (C1 = C /\ w = false) as [-> ->] by (split; congruence).
        exists Ci, a, b, t. apply Rleb_false in L. rewrite (proj2 (Rltb_true Ci (10 ^ 40))) in B by lra. rewrite andb_true_r in B.
        apply Rltb_false in B. splits; auto.
Qed.
Lemma iterate_g_ok : forall step T, (forall C, 0 < C -> exists a b, step C = Ok (T C, a, b)) -> (forall C, 0 < C -> 0 < T C) ->
  forall k Ci, 0 < Ci -> exists C a b w, iterate_turbulent_g step Ci k = Ok (C, a, b, w) /\ 0 < C.
Proof.
  intros step T HT HG. induction k; intros Ci HC; cbn [iterate_turbulent_g]; destruct (HT Ci HC) as (a & b & ->); cbn [bind];
    pose proof (HG Ci HC) as G; rewrite pdiv_ok by lra; cbn [bind].
  - do 4 eexists. split; [reflexivity|assumption].
  - destruct (Rltb (Ci / T Ci) 0.99 && Rltb Ci (10 ^ 40))%bool.
    + destruct (IHk (T Ci) G) as (C & a' & b' & w & -> & P). cbn [bind]. do 4 eexists. split; [reflexivity|assumption].
    + cbn [bind]. do 4 eexists. split; [reflexivity|assumption].
Qed.

(** ** The laminar correction *)

Section Laminar.
Context (nu Q D1 FL Fd d : R) (Hnu : 0 < nu) (HQ : 0 < Q) (HD1 : 0 < D1) (HFL : 0 < FL <= 1) (HFd : 0 < Fd) (Hd : 0 < d).

(** The valve Reynolds number and its lower bound over all coefficients. *)
Definition Rev_of (C : R) : R :=
  0.0707 * Fd * Q / nu * 1 / sqrt (C * FL) * sqrt (sqrt (FL * FL * C * C / 0.0016 * (1 / D1 ^ 4) + 1)).
Lemma Rev_ok : forall C, 0 < C -> Reynolds_valve nu Q D1 FL Fd C = Ok (Rev_of C).
Proof.
  intros C HC. unfold Reynolds_valve, Rev_of. rewrite pdiv_ok by lra. cbn [bind].
  assert (0 < C * FL) by nra. rewrite psqrt_ok by lra. cbn [bind]. pose proof (sqrt_lt_R0 _ H).
  rewrite pdiv_ok by lra. cbn [bind]. assert (0 < D1 ^ 4) by (apply pow_lt; lra). rewrite pdiv_ok by lra. cbn [bind].
  assert (0 <= FL * FL * C * C / 0.0016 * (1 / D1 ^ 4)).
  { assert (0 < 1 / D1 ^ 4) by (apply Rdiv_lt_0_compat; lra). assert (0 <= FL * FL * C * C) by nra. lits. nra. }
  rewrite psqrt_ok by lra. cbn [bind]. rewrite psqrt_ok by apply sqrt_pos. reflexivity.
Qed.
Definition Rev_min : R := 0.0707 * Fd * Q / nu / (0.2 * D1).
Lemma Rev_min_pos : 0 < Rev_min.
Proof. unfold Rev_min. apply Rdiv_lt_0_compat; [apply Rdiv_lt_0_compat; [|lra]|lits; lra]. assert (0 < Fd * Q) by nra. lits. lra. Qed.
Lemma Rev_ge : forall C, 0 < C -> Rev_min <= Rev_of C.
Proof.
  intros C HC. unfold Rev_min, Rev_of. set (A := 0.0707 * Fd * Q / nu).
  assert (0 < A). { unfold A. apply Rdiv_lt_0_compat; [|lra]. assert (0 < Fd * Q) by nra. lits. lra. }
  clearbody A. assert (H0 : 0 < C * FL) by nra. pose proof (sqrt_lt_R0 _ H0).
  replace (A / (0.2 * D1)) with (A * 1 / sqrt (C * FL) * (sqrt (C * FL) / (0.2 * D1))) by (lits; field; splits; lra).
  apply Rmult_le_compat_l. apply Rlt_le, Rdiv_lt_0_compat; lra.
  apply sqrt_ge_iff. apply Rdiv_le_0_compat; [lra|lits; lra].
  replace (sqrt (C * FL) / (0.2 * D1) * (sqrt (C * FL) / (0.2 * D1))) with (sqrt (C * FL) * sqrt (C * FL) / (0.04 * (D1 * D1))) by (lits; field; lra).
  rewrite sqrt_sqrt by lra. apply sqrt_ge_iff. apply Rdiv_le_0_compat; [lra|lits; nra].
  replace (C * FL / (0.04 * (D1 * D1)) * (C * FL / (0.04 * (D1 * D1)))) with (FL * FL * C * C / 0.0016 * (1 / D1 ^ 4)) by (lits; field; lra). lra.
Qed.

Lemma log10_lo : forall r, 10 <= r -> -3 <= log10 (r / 10000).
Proof.
  intros. unfold log10. pose proof ln10_pos. apply (Rmult_le_reg_r (ln 10)); [lra|].
  unfold Rdiv at 1. rewrite Rmult_assoc, Rinv_l by lra. rewrite Rmult_1_r.
  replace (-3 * ln 10) with (ln (/ 1000)). apply Interval.ln_le_compat; lra.
  rewrite ln_Rinv by lra. replace 1000 with (10 ^ 3) by ring. rewrite ln_pow by lra. simpl INR. lra.
Qed.

Definition trim (C : R) : bool := negb (Rltb (0.016 * 0.865) (C / (d * d))).

(** The correction used for a valve of coefficient C, and when it is good enough. *)
Lemma FR_ok : forall C, 0 < C -> exists FR, Reynolds_factor FL C d (Rev_of C) (trim C) = Ok FR /\ 0 < FR.
Proof.
  intros C HC. pose proof (Rev_ge C HC). pose proof Rev_min_pos. set (Re := Rev_of C) in *. clearbody Re.
  assert (Hdd : 0 < d * d) by nra. assert (Hq : 0 < C / (d * d)) by (apply Rdiv_lt_0_compat; lra).
  assert (HsF : 0 < sqrt FL <= 1). { split. apply sqrt_lt_R0; lra. rewrite <- sqrt_1. apply sqrt_le_1_alt; lra. }
  assert (LOG : plog10 (Re / 10000) = Ok (log10 (Re / 10000))) by (apply plog10_ok; lra).
  assert (SMALL : forall s, 1 <= s -> 10 <= Re -> 0 < 1 + 0.33 * sqrt FL / s * log10 (Re / 10000)).
  { intros s Hs HR. pose proof (log10_lo Re HR). assert (0 < 0.33 * sqrt FL / s <= 0.33).
    { split. apply Rdiv_lt_0_compat; lits; lra. apply (Rmult_le_reg_r s); [lra|].
      replace (0.33 * sqrt FL / s * s) with (0.33 * sqrt FL) by (field; lra). lits. nra. }
    set (e := 0.33 * sqrt FL / s) in *. lits. nra. }
  unfold Reynolds_factor. destruct (trim C) eqn:TR; unfold trim in TR.
  - apply negb_true_iff, Rltb_false in TR. rewrite pdiv_ok by lra. cbn [bind]. rewrite Rmin_left by (lits; lra).
    assert (0 < (C / (d * d)) ^ 2) by (apply pow_lt; lra). rewrite pdiv_ok by lra. cbn [bind]. rewrite psqrt_ok by lra. cbn [bind].
    set (n1 := 0.0016 / (C / (d * d)) ^ 2).
    assert (1 <= n1).
    { unfold n1. apply (Rmult_le_reg_r ((C / (d * d)) ^ 2)); [lra|]. replace (0.0016 / (C / (d * d)) ^ 2 * (C / (d * d)) ^ 2) with 0.0016 by (field; splits; lra).
      set (q := C / (d * d)) in *. assert (q * q <= 0.04 * 0.04) by (apply Rmult_le_compat; lits; lra). simpl. lits. lra. }
    clearbody n1. rewrite psqrt_ok by lra. cbn [bind]. assert (1 <= sqrt n1) by (apply sqrt_ge_iff; lra).
    rewrite psqrt_ok by lra. cbn [bind]. assert (1 <= sqrt (sqrt n1)) by (apply sqrt_ge_iff; lra).
    rewrite pdiv_ok by lra. cbn [bind]. rewrite LOG. cbn [bind]. rewrite pdiv_ok by lra. cbn [bind].
    assert (0 < n1 * Re) by nra. rewrite psqrt_ok by lra. cbn [bind].
    assert (0 < 0.026 / FL * sqrt (n1 * Re)).
    { apply Rmult_lt_0_compat. apply Rdiv_lt_0_compat; lits; lra. apply sqrt_lt_R0; lra. }
    destruct (Rltb Re 10) eqn:L; cbn [bind]; eexists; (split; [reflexivity|]). assumption.
    apply Rltb_false in L. apply Rmin_glb_lt; [assumption|]. apply SMALL; lra.
  - rewrite pdiv_ok by (apply Rgt_not_eq, pow_lt; lra). cbn [bind].
    assert (Hq' : 0 < C / d ^ 2) by (apply Rdiv_lt_0_compat; [lra|apply pow_lt; lra]).
    rewrite ppow_pw by lra. cbn [bind]. pose proof (pw_nonneg (C / d ^ 2) (2 / 3)).
    set (n2 := 1 + 140 * pw (C / d ^ 2) (2 / 3)). assert (1 <= n2) by (unfold n2; lra). clearbody n2.
    rewrite psqrt_ok by lra. cbn [bind]. rewrite psqrt_ok by lra. cbn [bind]. assert (1 <= sqrt n2) by (apply sqrt_ge_iff; lra).
    rewrite psqrt_ok by lra. cbn [bind]. assert (1 <= sqrt (sqrt n2)) by (apply sqrt_ge_iff; lra).
    rewrite pdiv_ok by lra. cbn [bind]. rewrite LOG. cbn [bind]. rewrite pdiv_ok by lra. cbn [bind].
    assert (0 < n2 * Re) by nra. rewrite psqrt_ok by lra. cbn [bind].
    assert (0 < Rmin (0.026 / FL * sqrt (n2 * Re)) 1).
    { apply Rmin_glb_lt; [|lra]. apply Rmult_lt_0_compat. apply Rdiv_lt_0_compat; lits; lra. apply sqrt_lt_R0; lra. }
    destruct (Rltb Re 10) eqn:L; cbn [bind]; eexists; (split; [reflexivity|]). assumption.
    apply Rltb_false in L. apply Rmin_glb_lt; [|assumption]. apply SMALL; lra.
Qed.

(** Beyond this size the correction is always close enough to 1. *)
Definition N_big : R := Rmax 400 ((FL / 0.026) ^ 2 / Rev_min).
Definition C_big : R := d ^ 2 * Rmax 1 (Rpower N_big (3 / 2)).
Lemma FR_big : forall C FR, C_big <= C -> Reynolds_factor FL C d (Rev_of C) (trim C) = Ok FR -> / 1.3 < FR.
Proof.
  intros C FR HB E. assert (Hd2 : 0 < d ^ 2) by (apply pow_lt; lra).
  assert (HM : 1 <= Rmax 1 (Rpower N_big (3 / 2))) by apply Rmax_l.
  assert (HC : 0 < C) by (unfold C_big in HB; nra).
  assert (Hq : Rmax 1 (Rpower N_big (3 / 2)) <= C / d ^ 2).
  { unfold C_big in HB. apply (Rmult_le_reg_r (d ^ 2)); [lra|]. replace (C / d ^ 2 * d ^ 2) with C by (field; lra). lra. }
  assert (Hdd : d * d = d ^ 2) by ring.
  assert (TR : trim C = false).
  { unfold trim. rewrite Hdd. rewrite (proj2 (Rltb_true _ _)); [reflexivity|]. lits. lra. }
  rewrite TR in E. pose proof (Rev_ge C HC). pose proof Rev_min_pos. set (Re := Rev_of C) in *. clearbody Re.
  assert (HsF : 0 < sqrt FL <= 1). { split. apply sqrt_lt_R0; lra. rewrite <- sqrt_1. apply sqrt_le_1_alt; lra. }
  unfold Reynolds_factor in E. rewrite pdiv_ok in E by lra. cbn [bind] in E.
  rewrite ppow_pw in E by lra. cbn [bind] in E.
  assert (HN : N_big <= pw (C / d ^ 2) (2 / 3)).
  { assert (1 <= C / d ^ 2) by lra. unfold pw. rewrite (proj2 (Rltb_true 0 (C / d ^ 2))) by lra.
    apply Rle_trans with (Rpower (Rpower N_big (3 / 2)) (2 / 3)).
    - rewrite Rpower_mult. replace (3 / 2 * (2 / 3)) with 1 by field. rewrite Rpower_1. lra. unfold N_big. apply Rlt_le_trans with 400; [lra|apply Rmax_l].
    - apply Rle_Rpower_l. lra. split. apply exp_pos. apply Rle_trans with (Rmax 1 (Rpower N_big (3 / 2))); [apply Rmax_r|lra]. }
  assert (400 <= N_big) by apply Rmax_l. assert ((FL / 0.026) ^ 2 / Rev_min <= N_big) by apply Rmax_r.
  set (n2 := 1 + 140 * pw (C / d ^ 2) (2 / 3)) in *.
  assert (N_big <= n2) by (unfold n2; lra). assert (400 <= n2) by lra. clearbody n2. clear HN.
  assert (20 <= sqrt n2) by (apply sqrt_ge_iff; lra). assert (4.4 <= sqrt (sqrt n2)) by (apply sqrt_ge_iff; lits; lra).
  rewrite psqrt_ok in E by lra. cbn [bind] in E. rewrite psqrt_ok in E by lra. cbn [bind] in E. rewrite psqrt_ok in E by lra. cbn [bind] in E.
  rewrite pdiv_ok in E by (lits; lra). cbn [bind] in E. rewrite plog10_ok in E by lra. cbn [bind] in E. rewrite pdiv_ok in E by lra. cbn [bind] in E.
  assert (0 < n2 * Re) by nra. rewrite psqrt_ok in E by lra. cbn [bind] in E.
  assert (ONE : 1 <= 0.026 / FL * sqrt (n2 * Re)).
  { apply Rle_trans with (0.026 / FL * (FL / 0.026)). right. lits. field. lra.
    apply Rmult_le_compat_l. apply Rlt_le, Rdiv_lt_0_compat; lits; lra.
    apply sqrt_ge_iff. apply Rlt_le, Rdiv_lt_0_compat; lits; lra.
    replace (FL / 0.026 * (FL / 0.026)) with ((FL / 0.026) ^ 2) by ring.
    apply Rle_trans with (N_big * Rev_min).
    - apply (Rmult_le_compat_r Rev_min) in H2; [|lra]. replace ((FL / 0.026) ^ 2 / Rev_min * Rev_min) with ((FL / 0.026) ^ 2) in H2 by (field; lra). lra.
    - apply Rmult_le_compat; lra. }
  rewrite (Rmin_right _ 1) in E by lra.
  destruct (Rltb Re 10) eqn:L; cbn [bind] in E.
  - assert (FR = 1) by congruence. subst. lits. lra.
  - apply Rltb_false in L. assert (FRE : FR = Rmin (1 + 0.33 * sqrt FL / sqrt (sqrt n2) * log10 (Re / 10000)) 1) by congruence. subst FR.
    pose proof (log10_lo Re L). apply Rmin_glb_lt; [|lits; lra].
    set (s := sqrt (sqrt n2)) in *. assert (0 < 0.33 * sqrt FL / s <= 0.075).
    { split. apply Rdiv_lt_0_compat; lits; lra. apply (Rmult_le_reg_r s); [lits; lra|].
      replace (0.33 * sqrt FL / s * s) with (0.33 * sqrt FL) by (field; lits; lra). lits. nra. }
    set (e := 0.33 * sqrt FL / s) in *. lits. nra.
Qed.

Lemma lam_step : forall n C, 0 < C -> exists FR, Reynolds_factor FL (1.3 * C) d (Rev_of (1.3 * C)) (trim (1.3 * C)) = Ok FR /\ 0 < FR /\
  iterate_laminar nu Q D1 FL Fd d (S n) C =
    if Rleb (1.3 * FR) 1 then '(Ci, _, _) <- iterate_laminar nu Q D1 FL Fd d n (1.3 * C) ;; Ok (Ci, Rev_of (1.3 * C), FR)
    else Ok (1.3 * C, Rev_of (1.3 * C), FR).
Proof.
  intros n C HC. assert (HC' : 0 < 1.3 * C) by (lits; lra). destruct (FR_ok _ HC') as (FR & E & P). exists FR. splits; auto.
  cbn [iterate_laminar]. rewrite Rev_ok by assumption. cbn [bind]. rewrite pdiv_ok by nra. cbn [bind].
  fold (trim (1.3 * C)). rewrite E. cbn [bind]. rewrite pdiv_ok by lra. cbn [bind].
  assert (B : Rleb (1.3 * C) (C / FR) = Rleb (1.3 * FR) 1).
  { destruct (Rleb (1.3 * FR) 1) eqn:L.
    - apply Rleb_true in L. apply Rleb_true. apply (Rmult_le_reg_r FR); [lra|]. replace (C / FR * FR) with C by (field; lra). nra.
    - apply Rleb_false in L. apply Rleb_false. apply (Rmult_lt_reg_r FR); [lra|]. replace (C / FR * FR) with C by (field; lra). nra. }
  rewrite B. destruct (Rleb (1.3 * FR) 1); [|reflexivity].
  destruct (iterate_laminar nu Q D1 FL Fd d n (1.3 * C)) as [[[a b] c]|]; reflexivity.
Qed.

(** The recursion ends after finitely many steps, whatever the data, and does not depend on the bound. *)
Lemma lam_terminates : forall n C, 0 < C -> C_big <= 1.3 ^ n * C ->
  exists v, forall m, (n <= m)%nat -> iterate_laminar nu Q D1 FL Fd d (S m) C = Ok v.
Proof.
  induction n; intros C HC HB.
  - destruct (lam_step 0 C HC) as (FR & E & P & _). eexists. intros m _. destruct (lam_step m C HC) as (FR' & E' & _ & ->).
    assert (FR' = FR) by congruence. subst FR'. pose proof (FR_big (1.3 * C) FR ltac:(lits; lra) E).
    rewrite (proj2 (Rleb_false _ _)). reflexivity. lits. lra.
  - destruct (IHn (1.3 * C)) as [[[a b] c] Hv]. lits; lra.
    { replace (1.3 ^ n * (1.3 * C)) with (1.3 ^ S n * C) by (simpl; ring). assumption. }
    destruct (lam_step 0 C HC) as (FR & E & P & _).
    exists (if Rleb (1.3 * FR) 1 then (a, Rev_of (1.3 * C), FR) else (1.3 * C, Rev_of (1.3 * C), FR)).
    intros m Hm. destruct (lam_step m C HC) as (FR' & E' & _ & ->). assert (FR' = FR) by congruence. subst FR'.
    destruct (Rleb (1.3 * FR) 1); [|reflexivity]. destruct m; [lia|]. rewrite (Hv m) by lia. reflexivity.
Qed.

(** What an answer says: the corrected capacity exceeds the turbulent requirement; what is reported with it. *)
Lemma lam_sound : forall n C Ci Rev FR, 0 < C -> iterate_laminar nu Q D1 FL Fd d n C = Ok (Ci, Rev, FR) ->
  Rev = Rev_of (1.3 * C) /\ Reynolds_factor FL (1.3 * C) d (Rev_of (1.3 * C)) (trim (1.3 * C)) = Ok FR /\
  1.3 * C <= Ci /\ exists FRc, Reynolds_factor FL Ci d (Rev_of Ci) (trim Ci) = Ok FRc /\ C < FRc * Ci /\ 1 < 1.3 * FRc.
Proof.
  induction n; intros C Ci Rev FR HC E; [discriminate|].
  destruct (lam_step n C HC) as (FR' & E' & P & EQ). rewrite EQ in E. destruct (Rleb (1.3 * FR') 1) eqn:L.
  - inv_bind E. destruct v as [[a b] c]. assert (a = Ci /\ Rev = Rev_of (1.3 * C) /\ FR = FR') as (-> & -> & ->) by (repeat split; congruence).
    destruct (IHn (1.3 * C) Ci b c ltac:(lits; lra) E0) as (_ & _ & A & FRc & B & D & D'). splits; auto. lits; lra. exists FRc. splits; auto. lits; lra.
  - assert (Ci = 1.3 * C /\ Rev = Rev_of (1.3 * C) /\ FR = FR') as (-> & -> & ->) by (repeat split; congruence).
    splits; auto. lra. apply Rleb_false in L. exists FR'. splits; auto. nra.
Qed.

Lemma lam_reaches : forall C, 0 < C -> exists n, C_big <= 1.3 ^ n * C.
Proof.
  intros C HC. destruct (Pow_x_infinity 1.3 ltac:(rewrite Rabs_pos_eq; lits; lra) (C_big / C)) as [n Hn].
  exists n. specialize (Hn n (le_n n)). rewrite Rabs_pos_eq in Hn by (apply pow_le; lits; lra).
  apply Rge_le in Hn. apply (Rmult_le_compat_r C) in Hn; [|lra]. replace (C_big / C * C) with C_big in Hn by (field; lra). lra.
Qed.
End Laminar.
