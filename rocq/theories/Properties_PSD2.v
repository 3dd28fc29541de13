(** C88: continuous particle size distributions (Gates-Gaudin-Schuhman, Rosin-Rammler, lognormal; fluids/particle_size_distribution.py). *)
From Coq Require Import Reals Lra Lia List Bool ZArith String.
From Coquelicot Require Import Coquelicot.
From Verif Require Import Base Sums Model_Numerics Model_Real Proofs_Real Proofs_Seq Model_PSD Proofs_PSD.
Import ListNotations.
Open Scope R_scope.

(** ** Vocabulary *)
(** [g] is a cumulative curve on the non-negative sizes: always returns a value in [0,1] and never falls *)
Definition curve (g : R -> result R) : Prop := exists F, (forall d, 0 <= d -> g d = Ok (F d)) /\ (forall d, 0 <= d -> 0 <= F d <= 1) /\ (forall d e, 0 <= d -> d <= e -> F d <= F e).
(** on the open interval (a,b), [g] returns the values of a function whose derivative [f] returns *)
Definition antiderivative (g f : R -> result R) (a b : R) : Prop := exists G D, (forall x, a < x < b -> g x = Ok (G x) /\ f x = Ok (D x)) /\ forall x, a < x < b -> is_derive G x (D x).
(** contracts of the special functions *)
Definition erf_contract (erf : R -> R) : Prop := (forall x, -1 < erf x < 1) /\ forall x, is_derive erf x (2 / sqrt PI * exp (- (x * x))).
Definition gamma_contract (Gam : R -> R -> R) : Prop := forall a x, 0 < x -> is_derive (Gam a) x (- (Rpower x (a - 1) * exp (- x))).
(** what a root finder may answer *)
Definition root_contract (brenth : (R -> result R) -> R -> R -> result R) : Prop := forall f a b x, brenth f a b = Ok x -> f x = Ok 0.

(** ** helpers *)
Lemma Rmax_pos x : 0 <= x -> Rmax x 0 = x. Proof. intros. now apply Rmax_left. Qed.
Lemma mono_derive F f a b : (forall x, a < x < b -> is_derive F x (f x)) -> (forall x, a < x < b -> 0 <= f x) -> forall x y, a < x -> x <= y -> y < b -> F x <= F y.
Proof.
  intros D P x y H1 H2 H3. destruct (MVT_gen F x y f) as (c & B & E).
  - rewrite Rmin_left, Rmax_right by auto. intros z Hz. apply D. lra.
  - rewrite Rmin_left, Rmax_right by auto. intros z Hz. apply continuity_pt_filterlim, (@ex_derive_continuous R_AbsRing R_NormedModule). eexists. apply D. lra.
  - rewrite Rmin_left, Rmax_right in B by auto. assert (0 <= f c * (y - x)) by (apply Rmult_le_pos; [apply P; lra|lra]). lra.
Qed.
Lemma Rpower_derive p x : 0 < x -> is_derive (fun x => Rpower x p) x (p * Rpower x (p - 1)).
Proof. intros H. apply is_derive_Reals. now apply derivable_pt_lim_power. Qed.

Lemma derive_mul_r (F : R -> R) x l c : is_derive F x l -> is_derive (fun x => F x * c) x (c * l).
Proof. intros H. apply (is_derive_ext (fun x => c * F x)); [intros; apply Rmult_comm|]. now apply (is_derive_scal F). Qed.
Lemma derive_div (F : R -> R) x l c : is_derive F x l -> is_derive (fun x => F x / c) x (/ c * l).
Proof. intros H. now apply (derive_mul_r F). Qed.

(** ** the three base distributions *)
Definition Fggs (dc m d : R) : R := if Rleb d dc then (if Rltb 0 d then Rpower (d / dc) m else 0) else 1.
Lemma cdf_GGS_eval dc m d : 0 < dc -> 0 < m -> 0 <= d -> cdf_GGS d dc m = Ok (Fggs dc m d).
Proof.
  intros H1 H2 H3. unfold cdf_GGS, Fggs. destruct (Rleb d dc); [|reflexivity]. rewrite pdiv_ok by lra. cbn [bind]. destruct (Rltb 0 d) eqn:E.
  - apply Rltb_true in E. apply ppow_ok. apply Rdiv_lt_0_compat; auto.
  - apply Rltb_false in E. assert (d = 0) by lra. subst. replace (0 / dc) with 0 by (field; lra). now apply ppow_0.
Qed.
Lemma Rpower_le1 x m : 0 < x -> x <= 1 -> 0 < m -> Rpower x m <= 1.
Proof. intros. replace 1 with (Rpower 1 m) by (unfold Rpower; rewrite ln_1, Rmult_0_r, exp_0; reflexivity). apply Rle_Rpower_l; lra. Qed.
Lemma div_01 d dc : 0 < d -> d <= dc -> 0 < d / dc <= 1.
Proof. intros H1 H2. split; [apply Rdiv_lt_0_compat; lra|]. apply Rmult_le_reg_r with dc; [lra|]. unfold Rdiv. rewrite Rmult_assoc, Rinv_l by lra. lra. Qed.
Lemma Fggs_curve dc m : 0 < dc -> 0 < m -> (forall d, 0 <= d -> 0 <= Fggs dc m d <= 1) /\ (forall d e, 0 <= d -> d <= e -> Fggs dc m d <= Fggs dc m e).
Proof.
  intros H1 H2. assert (B : forall d, 0 <= d -> 0 <= Fggs dc m d <= 1).
  { intros d H. unfold Fggs. destruct (Rleb d dc) eqn:E1; [|lra]. destruct (Rltb 0 d) eqn:E2; [|lra]. apply Rleb_true in E1. apply Rltb_true in E2. split; [left; apply exp_pos|]. destruct (div_01 d dc); auto. now apply Rpower_le1. }
  split; [exact B|]. intros d e Hd He. unfold Fggs at 2. destruct (Rleb e dc) eqn:E; [|now apply B]. apply Rleb_true in E. unfold Fggs.
  rewrite (proj2 (Rleb_true d dc)) by lra. destruct (Rltb 0 d) eqn:D.
  - apply Rltb_true in D. rewrite (proj2 (Rltb_true 0 e)) by lra. apply Rle_Rpower_l; [lra|]. destruct (div_01 d dc); [lra|lra|]. split; auto. apply Rmult_le_compat_r; [left; now apply Rinv_0_lt_compat|auto].
  - rcase; [left; apply exp_pos|lra].
Qed.
Definition Frr (k m d : R) : R := if Rltb 0 d then 1 - exp (- k * Rpower d m) else 0.
Lemma cdf_RR_eval k m d : 0 < k -> 0 < m -> 0 <= d -> cdf_RR d k m = Ok (Frr k m d).
Proof.
  intros H1 H2 H3. unfold cdf_RR, Frr. destruct (Rltb 0 d) eqn:E.
  - apply Rltb_true in E. rewrite ppow_ok by auto. reflexivity.
  - apply Rltb_false in E. assert (d = 0) by lra. subst. rewrite ppow_0 by auto. cbn [bind]. f_equal. rewrite Rmult_0_r, exp_0. ring.
Qed.
Lemma exp_le' a b : a <= b -> exp a <= exp b. Proof. intros [L| ->]; [left; now apply exp_increasing|lra]. Qed.
Lemma Frr_curve k m : 0 < k -> 0 < m -> (forall d, 0 <= d -> 0 <= Frr k m d <= 1) /\ (forall d e, 0 <= d -> d <= e -> Frr k m d <= Frr k m e).
Proof.
  intros H1 H2. assert (B : forall d, 0 <= d -> 0 <= Frr k m d <= 1).
  { intros d H. unfold Frr. rcase; [|lra]. pose proof (exp_pos (- k * Rpower d m)). assert (exp (- k * Rpower d m) <= exp 0); [|rewrite exp_0 in *; lra].
    apply exp_le'. assert (0 < Rpower d m) by apply exp_pos. nra. }
  split; [exact B|]. intros d e Hd He. unfold Frr at 1. destruct (Rltb 0 d) eqn:D; [|apply B; lra]. apply Rltb_true in D. unfold Frr. rewrite (proj2 (Rltb_true 0 e)) by lra.
  assert (exp (- k * Rpower e m) <= exp (- k * Rpower d m)); [|lra]. apply exp_le'. assert (Rpower d m <= Rpower e m) by (apply Rle_Rpower_l; lra). nra.
Qed.
Definition Fln (erf : R -> R) (dc s d : R) : R := if Rltb 0 d then 0.5 * (1 + erf (ln (d / dc) / (s * sqrt 2))) else 0.
Lemma sqrt2_pos : 0 < sqrt 2. Proof. apply sqrt_lt_R0. lra. Qed.
Lemma cdf_lognormal_eval erf dc s d : 0 < dc -> 0 < s -> 0 <= d -> cdf_lognormal erf d dc s = Ok (Fln erf dc s d).
Proof.
  intros H1 H2 H3. pose proof sqrt2_pos. unfold cdf_lognormal, Fln. rewrite pdiv_ok by lra. cbn [bind]. destruct (Rltb 0 d) eqn:E.
  - apply Rltb_true in E. rewrite plog_ok by (apply Rdiv_lt_0_compat; auto). cbn [bind]. rewrite pdiv_ok; [reflexivity|]. apply Rgt_not_eq. now apply Rmult_lt_0_compat.
  - apply Rltb_false in E. assert (d = 0) by lra. subst. replace (0 / dc) with 0 by (field; lra). unfold plog. rcase; [reflexivity|lra].
Qed.
Lemma erf_mono erf : erf_contract erf -> forall x y, x <= y -> erf x <= erf y.
Proof.
  intros [_ D] x y H. apply (mono_derive erf (fun x => 2 / sqrt PI * exp (- (x * x))) (x - 1) (y + 1)); try lra; intros z _.
  - apply D.
  - apply Rmult_le_pos; [|left; apply exp_pos]. left. apply Rdiv_lt_0_compat; [lra|]. apply sqrt_lt_R0. apply PI_RGT_0.
Qed.
Lemma Fln_curve erf dc s : erf_contract erf -> 0 < dc -> 0 < s -> (forall d, 0 <= d -> 0 <= Fln erf dc s d <= 1) /\ (forall d e, 0 <= d -> d <= e -> Fln erf dc s d <= Fln erf dc s e).
Proof.
  intros HE H1 H2. assert (B : forall d, 0 <= d -> 0 <= Fln erf dc s d <= 1).
  { intros d H. unfold Fln. rcase; [|lra]. pose proof (proj1 HE (ln (d / dc) / (s * sqrt 2))). lits. lra. }
  split; [exact B|]. intros d e Hd He. unfold Fln at 1. destruct (Rltb 0 d) eqn:D; [|apply B; lra]. apply Rltb_true in D. unfold Fln. rewrite (proj2 (Rltb_true 0 e)) by lra.
  pose proof sqrt2_pos. apply Rmult_le_compat_l; [lits; lra|]. apply Rplus_le_compat_l. apply erf_mono; auto. apply Rmult_le_compat_r; [left; apply Rinv_0_lt_compat, Rmult_lt_0_compat; auto|].
  assert (d / dc <= e / dc) as [L| ->] by (apply Rmult_le_compat_r; [left; now apply Rinv_0_lt_compat|auto]); [|lra]. left. apply ln_increasing; [apply Rdiv_lt_0_compat; auto|auto].
Qed.

(** ** C88 *)
(** *** the cumulative functions *)
Theorem C88_cumulative : (forall dc m, 0 < dc -> 0 < m -> curve (fun d => cdf_GGS d dc m) /\ cdf_GGS 0 dc m = Ok 0 /\ forall d, dc <= d -> cdf_GGS d dc m = Ok 1)
  /\ (forall k m, 0 < k -> 0 < m -> curve (fun d => cdf_RR d k m) /\ cdf_RR 0 k m = Ok 0)
  /\ (forall erf dc s, erf_contract erf -> 0 < dc -> 0 < s -> curve (fun d => cdf_lognormal erf d dc s) /\ cdf_lognormal erf 0 dc s = Ok 0).
Proof.
  splits.
  - intros dc m H1 H2. destruct (Fggs_curve dc m) as [A B]; auto. splits.
    + exists (Fggs dc m). splits; auto. intros. now apply cdf_GGS_eval.
    + rewrite cdf_GGS_eval by lra. unfold Fggs. rewrite (proj2 (Rleb_true 0 dc)), (proj2 (Rltb_false 0 0)) by lra. reflexivity.
    + intros d H. rewrite cdf_GGS_eval by lra. unfold Fggs. destruct (Rleb d dc) eqn:E1; [|reflexivity]. apply Rleb_true in E1. rewrite (proj2 (Rltb_true 0 d)) by lra. replace d with dc by lra. f_equal. replace (dc / dc) with 1 by (field; lra). unfold Rpower. rewrite ln_1, Rmult_0_r, exp_0. reflexivity.
  - intros k m H1 H2. destruct (Frr_curve k m) as [A B]; auto. split.
    + exists (Frr k m). splits; auto. intros. now apply cdf_RR_eval.
    + rewrite cdf_RR_eval by lra. unfold Frr. rcase; [lra|reflexivity].
  - intros erf dc s HE H1 H2. destruct (Fln_curve erf dc s) as [A B]; auto. split.
    + exists (Fln erf dc s). splits; auto. intros. now apply cdf_lognormal_eval.
    + rewrite cdf_lognormal_eval by lra. unfold Fln. rcase; [lra|reflexivity].
Qed.

(** *** the densities are the slopes of the cumulative functions, and the basis integrals those of size^n times density *)
Definition power_times (n : R) (f : R -> result R) (x : R) : result R := y <- f x ;; Ok (Rpower x n * y).
Theorem C88_GGS_density dc m n : 0 < dc -> 0 < m -> antiderivative (fun d => cdf_GGS d dc m) (fun d => pdf_GGS d dc m) 0 dc
  /\ (m + n <> 0 -> antiderivative (fun d => GGS_basis d dc m n) (power_times n (fun d => pdf_GGS d dc m)) 0 dc).
Proof.
  intros H1 H2. assert (PD : forall x, 0 < x < dc -> pdf_GGS x dc m = Ok (m / x * Rpower (x / dc) m)).
  { intros x Hx. unfold pdf_GGS. rewrite (proj2 (Rleb_true x dc)) by lra. rewrite !pdiv_ok by lra. cbn [bind]. rewrite ppow_ok by (apply Rdiv_lt_0_compat; lra). reflexivity. }
  assert (SC : forall x, 0 < x -> Rpower (x / dc) m = Rpower x m / Rpower dc m).
  { intros x Hx. unfold Rdiv at 1. rewrite <- Rpower_mult_distr by (auto using Rinv_0_lt_compat). unfold Rdiv. f_equal. unfold Rpower. rewrite ln_Rinv, <- exp_Ropp by auto. f_equal. ring. }
  assert (SP : forall x, 0 < x -> forall p, Rpower x (p - 1) = Rpower x p / x).
  { intros x Hx p. unfold Rminus. rewrite Rpower_plus, Rpower_Ropp, Rpower_1 by auto. reflexivity. }
  assert (P1 : 0 < Rpower dc m) by apply exp_pos. split.
  - exists (fun x => Rpower x m / Rpower dc m), (fun x => m / x * Rpower (x / dc) m). split.
    + intros x Hx. rewrite PD by auto. split; [|reflexivity]. rewrite cdf_GGS_eval by lra. unfold Fggs. rewrite (proj2 (Rleb_true x dc)), (proj2 (Rltb_true 0 x)) by lra. rewrite SC by lra. reflexivity.
    + intros x Hx. rewrite SC by lra. replace (m / x * (Rpower x m / Rpower dc m)) with (/ Rpower dc m * (m * Rpower x (m - 1))) by (rewrite SP by lra; field; lra).
      apply (is_derive_ext (fun x => / Rpower dc m * Rpower x m)); [intros; unfold Rdiv; apply Rmult_comm|]. apply (is_derive_scal (fun x => Rpower x m)). apply Rpower_derive. lra.
  - intros Hn. exists (fun x => m / (m + n) / Rpower dc m * Rpower x (n + m)), (fun x => Rpower x n * (m / x * Rpower (x / dc) m)). split.
    + intros x Hx. unfold power_times, GGS_basis. rewrite PD by auto. cbn [bind]. split; [|reflexivity]. rewrite !pdiv_ok by lra. cbn [bind]. rewrite !ppow_ok by (first [lra|apply Rdiv_lt_0_compat; lra]). cbn [bind].
      f_equal. rewrite SC by lra. rewrite Rpower_plus. field. lra.
    + intros x Hx. rewrite SC by lra. replace (Rpower x n * (m / x * (Rpower x m / Rpower dc m))) with (m / (m + n) / Rpower dc m * ((n + m) * Rpower x (n + m - 1))).
      2:{ rewrite SP by lra. rewrite Rpower_plus. field. lra. }
      apply (is_derive_scal (fun x => Rpower x (n + m))). apply Rpower_derive. lra.
Qed.
Theorem C88_RR_density Gam k m n b : gamma_contract Gam -> 0 < k -> 0 < m -> antiderivative (fun d => cdf_RR d k m) (fun d => pdf_RR d k m) 0 b
  /\ antiderivative (fun d => RR_basis Gam d k m n) (power_times n (fun d => pdf_RR d k m)) 0 b.
Proof.
  intros HG H1 H2. assert (PD : forall x, 0 < x -> pdf_RR x k m = Ok (Rpower x (m - 1) * k * m * exp (- Rpower x m * k))).
  { intros x Hx. unfold pdf_RR. rewrite !ppow_ok by lra. reflexivity. }
  split.
  - exists (fun x => 1 - exp (- k * Rpower x m)), (fun x => Rpower x (m - 1) * k * m * exp (- Rpower x m * k)). split.
    + intros x Hx. rewrite PD by lra. split; [|reflexivity]. rewrite cdf_RR_eval by lra. unfold Frr. rewrite (proj2 (Rltb_true 0 x)) by lra. reflexivity.
    + intros x Hx. pose proof (Rpower_derive m x (proj1 Hx)) as D. evar_last.
      * apply (is_derive_minus (fun _ => 1) (fun x => exp (- k * Rpower x m))); [apply is_derive_const|]. apply (is_derive_comp exp (fun x => - k * Rpower x m)); [apply is_derive_exp|]. apply (is_derive_scal (fun x => Rpower x m)). exact D.
      * unfold minus, plus, opp, zero, scal; cbn; unfold mult; cbn. replace (- Rpower x m * k) with (- k * Rpower x m) by ring. ring.
  - set (a := (m + n) / m). exists (fun x => - k * Rpower k (- a) * Gam a (Rpower x m * k)), (fun x => Rpower x n * (Rpower x (m - 1) * k * m * exp (- Rpower x m * k))). split.
    + intros x Hx. unfold power_times. rewrite PD by lra. split; [|reflexivity]. unfold RR_basis. rewrite pdiv_ok by lra. cbn [bind]. fold a. rewrite !ppow_ok by lra. cbn [bind].
      assert (0 < Rpower x m) by apply exp_pos. rewrite ppow_ok by (apply Rmult_lt_0_compat; auto). cbn [bind]. f_equal. rewrite <- Rpower_mult_distr by auto.
      rewrite Rpower_mult. replace (m * - a) with (- (m + n)) by (unfold a; field; lra). rewrite Rpower_Ropp. assert (0 < Rpower x (m + n)) by apply exp_pos. field. lra.
    + intros x Hx. assert (P : 0 < Rpower x m) by apply exp_pos. assert (PK : 0 < Rpower x m * k) by (apply Rmult_lt_0_compat; auto). pose proof (Rpower_derive m x (proj1 Hx)) as D. evar_last.
      * apply (is_derive_scal (fun x => Gam a (Rpower x m * k))). apply (is_derive_comp (Gam a) (fun x => Rpower x m * k)); [apply HG; exact PK|]. apply (derive_mul_r (fun x => Rpower x m)). exact D.
      * unfold scal; cbn; unfold mult; cbn. rewrite <- Rpower_mult_distr by auto. rewrite Rpower_mult. replace (m * (a - 1)) with n by (unfold a; field; lra).
        replace (- a) with (- (a - 1) + - (1)) by ring. rewrite Rpower_plus, !Rpower_Ropp, Rpower_1 by auto. replace (- (Rpower x m * k)) with (- Rpower x m * k) by ring.
        assert (0 < Rpower k (a - 1)) by apply exp_pos. field. lra.
Qed.
Theorem C88_lognormal_density erf retry dc s n b : erf_contract erf -> 0 < dc -> 0 < s -> antiderivative (fun d => cdf_lognormal erf d dc s) (fun d => pdf_lognormal d dc s) 0 b
  /\ antiderivative (fun d => pdf_lognormal_basis_integral erf retry d dc s n) (power_times n (fun d => pdf_lognormal d dc s)) 0 b.
Proof.
  intros HE H1 H2. pose proof sqrt2_pos as S2. pose proof PI_RGT_0 as HPI. assert (SP : 0 < sqrt PI) by (apply sqrt_lt_R0; auto). assert (S2P : sqrt (2 * PI) = sqrt 2 * sqrt PI) by (apply sqrt_mult; lra).
  assert (S2S : sqrt 2 * sqrt 2 = 2) by (apply sqrt_sqrt; lra).
  set (L := fun x => ln (x / dc)). set (f := fun x => 1 / (x * s * sqrt (2 * PI)) * exp (- 0.5 * (L x / s) * (L x / s))).
  assert (PD : forall x, 0 < x -> pdf_lognormal x dc s = Ok (f x)).
  { intros x Hx. unfold pdf_lognormal. rewrite pdiv_ok by lra. cbn [bind]. rewrite (proj2 (Rltb_true 0 (x / dc))) by (apply Rdiv_lt_0_compat; lra). rewrite pdiv_ok by lra. cbn [bind]. rewrite pdiv_ok; [reflexivity|].
    apply Rgt_not_eq. rewrite S2P. repeat apply Rmult_lt_0_compat; auto. }
  assert (DL : forall x, 0 < x -> is_derive L x (/ x)).
  { intros x Hx. unfold L. auto_derive; [apply Rdiv_lt_0_compat; lra|]. field. split; lra. }
  split.
  - exists (fun x => 0.5 * (1 + erf (L x / (s * sqrt 2)))), f. split.
    + intros x Hx. rewrite PD by lra. split; [|reflexivity]. rewrite cdf_lognormal_eval by lra. unfold Fln. rewrite (proj2 (Rltb_true 0 x)) by lra. reflexivity.
    + intros x Hx. evar_last.
      * apply (is_derive_scal (fun x => 1 + erf (L x / (s * sqrt 2)))). apply (is_derive_plus (fun _ => 1) (fun x => erf (L x / (s * sqrt 2)))); [apply is_derive_const|].
        apply (is_derive_comp erf (fun x => L x / (s * sqrt 2))); [apply HE|]. apply (derive_div L). apply DL. lra.
      * unfold plus, zero, scal; cbn; unfold mult; cbn. unfold f. rewrite S2P.
        replace (- (L x / (s * sqrt 2) * (L x / (s * sqrt 2)))) with (- 0.5 * (L x / s) * (L x / s)).
        2:{ replace (L x / (s * sqrt 2) * (L x / (s * sqrt 2))) with ((L x / s) * (L x / s) / (sqrt 2 * sqrt 2)) by (field; lra). rewrite S2S. lits. field. lra. }
        lits. field. splits; lra.
  - exists (fun x => - 0.5 * exp (s * s * n * n * 0.5) * Rpower dc n * erf ((s * s * n - L x) / (sqrt 2 * s))), (fun x => Rpower x n * f x). split.
    + intros x Hx. unfold power_times. rewrite PD by lra. split; [|reflexivity]. unfold pdf_lognormal_basis_integral. cbv zeta. rewrite pdiv_ok by lra. cbn [bind].
      assert (0 < x / dc) by (apply Rdiv_lt_0_compat; lra). rewrite pdiv_ok by lra. cbn [bind]. replace (x / (x / dc)) with dc by (field; lra). rewrite ppow_ok by auto. cbn [bind]. rewrite plog_ok by auto. cbn [bind].
      rewrite pdiv_ok by (apply Rgt_not_eq, Rmult_lt_0_compat; auto). cbn [bind]. reflexivity.
    + intros x Hx. evar_last.
      * apply (is_derive_scal (fun x => erf ((s * s * n - L x) / (sqrt 2 * s)))). apply (is_derive_comp erf (fun x => (s * s * n - L x) / (sqrt 2 * s))); [apply HE|].
        apply (derive_div (fun x => s * s * n - L x)). apply (is_derive_minus (fun _ => s * s * n) L); [apply is_derive_const|apply DL; lra].
      * unfold minus, plus, opp, zero, scal; cbn; unfold mult; cbn. unfold f. rewrite S2P.
        replace (- ((s * s * n - L x) / (sqrt 2 * s) * ((s * s * n - L x) / (sqrt 2 * s)))) with (- (s * s * n * n * 0.5) + (n * L x + - 0.5 * (L x / s) * (L x / s))).
        2:{ replace ((s * s * n - L x) / (sqrt 2 * s) * ((s * s * n - L x) / (sqrt 2 * s))) with ((s * s * n - L x) * (s * s * n - L x) / (s * s) / (sqrt 2 * sqrt 2)) by (field; lra). rewrite S2S. lits. field. lra. }
        rewrite !exp_plus, exp_Ropp. assert (EN : Rpower x n = Rpower dc n * exp (n * L x)).
        { unfold L, Rpower. rewrite <- exp_plus. f_equal. unfold Rdiv. rewrite ln_mult, ln_Rinv by (auto using Rinv_0_lt_compat; lra). ring. }
        rewrite EN. pose proof (exp_pos (s * s * n * n * 0.5)). set (e1 := exp (s * s * n * n * 0.5)) in *. set (e2 := exp (n * L x)). set (e3 := exp (- 0.5 * (L x / s) * (L x / s))). lits. field. splits; lra.
Qed.

(** *** distribution objects *)
Lemma Fggs_lt dc m d e : 0 < dc -> 0 < m -> 0 <= d -> d < e -> e <= dc -> Fggs dc m d < Fggs dc m e.
Proof.
  intros H1 H2 H3 H4 H5. unfold Fggs. rewrite (proj2 (Rleb_true d dc)), (proj2 (Rleb_true e dc)), (proj2 (Rltb_true 0 e)) by lra. destruct (Rltb 0 d) eqn:E; [|apply exp_pos].
  apply Rltb_true in E. apply Rlt_Rpower_l; [auto|]. split; [apply Rdiv_lt_0_compat; lra|]. apply Rmult_lt_compat_r; [now apply Rinv_0_lt_compat|auto].
Qed.
Lemma Frr_lt k m d e : 0 < k -> 0 < m -> 0 <= d -> d < e -> Frr k m d < Frr k m e.
Proof.
  intros H1 H2 H3 H4. unfold Frr. rewrite (proj2 (Rltb_true 0 e)) by lra. destruct (Rltb 0 d) eqn:E.
  - apply Rltb_true in E. assert (Rpower d m < Rpower e m) by (apply Rlt_Rpower_l; lra). assert (exp (- k * Rpower e m) < exp (- k * Rpower d m)); [|lra]. apply exp_increasing. nra.
  - assert (exp (- k * Rpower e m) < exp 0); [|rewrite exp_0 in *; lra]. apply exp_increasing. assert (0 < Rpower e m) by apply exp_pos. nra.
Qed.
Lemma lt_derive F f : (forall x, is_derive F x (f x)) -> (forall x, 0 < f x) -> forall x y, x < y -> F x < F y.
Proof.
  intros D P x y H. destruct (MVT_gen F x y f) as (c & B & E).
  - intros. apply D.
  - intros z _. apply continuity_pt_filterlim, (@ex_derive_continuous R_AbsRing R_NormedModule). eexists. apply D.
  - assert (0 < f c * (y - x)) by (apply Rmult_lt_0_compat; [apply P|lra]). lra.
Qed.
Lemma Fln_lt erf dc s d e : erf_contract erf -> 0 < dc -> 0 < s -> 0 <= d -> d < e -> Fln erf dc s d < Fln erf dc s e.
Proof.
  intros HE H1 H2 H3 H4. unfold Fln. rewrite (proj2 (Rltb_true 0 e)) by lra. destruct (Rltb 0 d) eqn:E.
  - apply Rltb_true in E. pose proof sqrt2_pos. apply Rmult_lt_compat_l; [lits; lra|]. apply Rplus_lt_compat_l. apply (lt_derive erf (fun x => 2 / sqrt PI * exp (- (x * x)))); [apply HE| |].
    + intros x. apply Rmult_lt_0_compat; [|apply exp_pos]. apply Rdiv_lt_0_compat; [lra|]. apply sqrt_lt_R0, PI_RGT_0.
    + apply Rmult_lt_compat_r; [apply Rinv_0_lt_compat, Rmult_lt_0_compat; auto|]. apply ln_increasing; [apply Rdiv_lt_0_compat; auto|]. apply Rmult_lt_compat_r; [now apply Rinv_0_lt_compat|auto].
  - pose proof (proj1 HE (ln (e / dc) / (s * sqrt 2))). lits. lra.
Qed.
(** the size limits given to a constructor *)
Definition limits (o : cont) (d_min d_max : option R) : Prop :=
  (forall v, d_min = Some v -> forall d, 0 <= d <= v -> cdf o d None = Ok 0) /\ (forall v, d_max = Some v -> forall d, v <= d -> cdf o d None = Ok 1).
Lemma object_trunc o c F dmin dmax exc t : (forall d, 0 <= d -> c d = Ok (F d)) -> (forall d, 0 <= d -> 0 <= F d <= 1) -> (forall d e, 0 <= d -> d <= e -> F d <= F e) ->
  c_cdf o = c -> c_trunc o = t -> truncate c exc dmin dmax = Ok t -> 0 <= or_zero dmin -> 0 <= exc ->
  (forall v, dmax = Some v -> v = exc) -> or_zero dmin < exc -> F (or_zero dmin) < F exc ->
  curve (fun d => cdf o d None) /\ limits o dmin dmax.
Proof.
  intros HC HB HM EC ET HT H0 H1 HV HL HF.
  assert (CASE : (dmin = None /\ dmax = None /\ t = None) \/ t = Some (or_zero dmin, exc, F exc, F (or_zero dmin))).
  { unfold truncate in HT. destruct dmin as [lo|], dmax as [hi|]; cbn [or_zero] in *; try (rewrite (HV hi eq_refl) in HT); rewrite ?HC in HT by lra; cbn [bind] in HT; [right; congruence|right; congruence|right; congruence|left; splits; congruence]. }
  destruct CASE as [(-> & -> & ->)|E].
  - split.
    + exists F. splits; auto. intros d Hd. unfold cdf. cbn [other_basis]. rewrite EC, ET, HC by auto. cbn [bind]. rewrite Rmax_pos by (now apply HB). reflexivity.
    + split; intros; discriminate.
  - clear HT. rewrite E in ET. set (lo := or_zero dmin) in *. set (S := F exc - F lo). assert (HS : 0 < S) by (unfold S; lra).
    set (G := fun d => if Rleb d lo then 0 else if Rleb exc d then 1 else (F d - F lo) / S).
    assert (EG : forall d, 0 <= d -> cdf o d None = Ok (G d)).
    { intros d Hd. unfold cdf, G. cbn [other_basis]. rewrite EC, ET, HC by auto. cbn [bind]. rewrite Rmax_pos by (now apply HB). destruct (Rleb d lo); [reflexivity|]. destruct (Rleb exc d); [reflexivity|].
      fold S. apply pdiv_ok. lra. }
    assert (BG : forall d, 0 <= d -> 0 <= G d <= 1).
    { intros d Hd. unfold G. destruct (Rleb d lo) eqn:A; [lra|]. destruct (Rleb exc d) eqn:B; [lra|]. apply Rleb_false in A. apply Rleb_false in B.
      assert (F lo <= F d) by (apply HM; lra). assert (F d <= F exc) by (apply HM; lra). split; [apply Rdiv_le_0_compat; lra|]. apply Rmult_le_reg_r with S; auto. unfold Rdiv. rewrite Rmult_assoc, Rinv_l by lra. unfold S. lra. }
    split.
    + exists G. splits; auto. intros d e Hd He. unfold G at 1. destruct (Rleb d lo) eqn:A; [apply BG; lra|]. unfold G. apply Rleb_false in A. rewrite (proj2 (Rleb_false e lo)) by lra.
      destruct (Rleb exc e) eqn:B.
      * pose proof (BG d Hd) as Q. unfold G in Q. rewrite (proj2 (Rleb_false d lo)) in Q by lra. lra.
      * apply Rleb_false in B. rewrite (proj2 (Rleb_false exc d)) by lra. apply Rmult_le_compat_r; [left; now apply Rinv_0_lt_compat|]. assert (F d <= F e) by (apply HM; lra). lra.
    + split.
      * intros v EV d Hd. rewrite EG by lra. unfold G. rewrite (proj2 (Rleb_true d lo)); [reflexivity|]. unfold lo. rewrite EV. cbn. lra.
      * intros v EV d Hd. specialize (HV v EV). subst v. rewrite EG by lra. unfold G. rewrite (proj2 (Rleb_false d lo)) by lra. rewrite (proj2 (Rleb_true exc d)) by lra. reflexivity.
Qed.
Lemma object_density o c f F dmin exc a b : (forall d, 0 <= d -> c d = Ok (F d)) -> (forall d, 0 <= d -> 0 <= F d <= 1) -> c_cdf o = c -> c_pdf o = f ->
  c_trunc o = None \/ c_trunc o = Some (dmin, exc, F exc, F dmin) -> (c_trunc o = None \/ dmin <= a /\ b <= exc /\ F dmin < F exc) -> 0 <= a -> antiderivative c f a b -> (forall x y, a < x < b -> f x = Ok y -> 0 <= y) ->
  antiderivative (fun d => cdf o d None) (fun d => pdf o d None) a b.
Proof.
  intros HC HB EC EF ET HT Ha (G & D & H1 & H2) HP.
  assert (GF : forall x, a < x < b -> G x = F x). { intros x Hx. destruct (H1 x Hx) as [Q _]. rewrite HC in Q by lra. congruence. }
  assert (DP : forall x, a < x < b -> 0 <= D x). { intros x Hx. apply (HP x); auto. now apply H1. }
  destruct ET as [ET|ET].
  - exists G, D. split; auto. intros x Hx. destruct (H1 x Hx) as [Q1 Q2]. unfold cdf, pdf. cbn [other_basis]. rewrite ET, EC, EF, Q1, Q2. cbn [bind].
    rewrite !Rmax_pos; auto. rewrite GF by auto. apply HB. lra.
  - destruct HT as [HT|(L1 & L2 & L3)]; [congruence|]. set (S := F exc - F dmin). assert (0 < S) by (unfold S; lra). exists (fun x => (G x - F dmin) / S), (fun x => D x / S). split.
    + intros x Hx. destruct (H1 x Hx) as [Q1 Q2]. unfold cdf, pdf. cbn [other_basis]. rewrite ET, EC, EF, Q1, Q2. cbn [bind].
      rewrite !Rmax_pos; auto. 2:{ rewrite GF by auto. apply HB. lra. }
      rewrite (proj2 (Rleb_false x dmin)), (proj2 (Rleb_false exc x)), (proj2 (Rltb_false x dmin)), (proj2 (Rltb_false exc x)) by lra. cbn [orb]. fold S. rewrite !pdiv_ok by lra. split; reflexivity.
    + intros x Hx. evar_last. { apply (derive_div (fun x => G x - F dmin)). apply (is_derive_minus G (fun _ => F dmin)); [now apply H2|apply is_derive_const]. }
      unfold minus, plus, opp, zero; cbn. field. lra.
Qed.
Lemma truncate_ok c F dmin dmax exc : (forall d, 0 <= d -> c d = Ok (F d)) -> 0 <= or_zero dmin -> 0 <= exc -> (forall v, dmax = Some v -> v = exc) ->
  exists t, truncate c exc dmin dmax = Ok t /\ (t = None \/ t = Some (or_zero dmin, exc, F exc, F (or_zero dmin))).
Proof.
  intros HC H0 H1 HV. unfold truncate. destruct dmin as [lo|], dmax as [hi|]; cbn [or_zero] in *; try (rewrite (HV hi eq_refl)); rewrite ?HC by lra; cbn [bind]; eexists; split; try reflexivity; auto.
Qed.

(** Every distribution object gives a cumulative curve that respects the size limits it was given, whose slope between the limits is the
    density it gives. *)
Theorem C88_objects : (forall Gam k m order d_min d_max, gamma_contract Gam -> 0 < k -> 0 < m -> 0 <= or_zero d_min < match d_max with Some v => v | None => 10 ^ 15 end ->
    exists o, PSDRosinRammler Gam k m order d_min d_max = Ok o /\ curve (fun d => cdf o d None) /\ limits o d_min d_max /\
      antiderivative (fun d => cdf o d None) (fun d => pdf o d None) (or_zero d_min) (match d_max with Some v => v | None => 10 ^ 15 end))
  /\ (forall erf retry dc s order d_min d_max, erf_contract erf -> 0 < dc -> 0 < s -> 0 <= or_zero d_min < match d_max with Some v => v | None => 10 ^ 15 * dc end ->
    exists o, PSDLognormal erf retry dc s order d_min d_max = Ok o /\ curve (fun d => cdf o d None) /\ limits o d_min d_max /\
      antiderivative (fun d => cdf o d None) (fun d => pdf o d None) (or_zero d_min) (match d_max with Some v => v | None => 10 ^ 15 * dc end))
  /\ (forall dc m order d_min, 0 < dc -> 0 < m -> 0 <= or_zero d_min < dc ->
    exists o, PSDGatesGaudinSchuhman dc m order d_min None = Ok o /\ curve (fun d => cdf o d None) /\ limits o d_min (Some dc) /\
      antiderivative (fun d => cdf o d None) (fun d => pdf o d None) (or_zero d_min) dc).
Proof.
  assert (SUB : forall g f a b a', 0 <= a' -> antiderivative g f 0 b -> a = a' -> antiderivative g f a b).
  { intros g f a b a' Ha (G & D & A & B) ->. exists G, D. split; intros x Hx; [apply A|apply B]; lra. }
  splits.
  - intros Gam k m order dmin dmax HG H1 H2 H3. set (exc := match dmax with Some v => v | None => 10 ^ 15 end) in *. destruct (Frr_curve k m H1 H2) as [HB HM].
    assert (HC : forall d, 0 <= d -> cdf_RR d k m = Ok (Frr k m d)) by (intros; now apply cdf_RR_eval).
    assert (HV : forall v, dmax = Some v -> v = exc) by (intros v ->; reflexivity).
    destruct (truncate_ok (fun d => cdf_RR d k m) (Frr k m) dmin dmax exc) as (t & ET & TC); auto; try lra. unfold PSDRosinRammler. cbv zeta. fold exc. rewrite ET. cbn [bind]. eexists. split; [reflexivity|].
    match goal with |- context [limits ?x] => set (o := x) end. assert (LT : Frr k m (or_zero dmin) < Frr k m exc) by (apply Frr_lt; lra).
    destruct (object_trunc o (fun d => cdf_RR d k m) (Frr k m) dmin dmax exc t) as [A B]; auto; try lra. splits; auto.
    apply (object_density o (fun d => cdf_RR d k m) (fun d => pdf_RR d k m) (Frr k m) (or_zero dmin) exc); auto; try lra.
    + apply (SUB _ _ _ _ (or_zero dmin)); [lra| |reflexivity]. now apply (C88_RR_density Gam k m 0).
    + intros x y Hx. unfold pdf_RR. rewrite !ppow_ok by lra. cbn [bind]. intros E. apply (f_equal (fun r => match r with Ok v => v | Err _ => 0 end)) in E. rewrite <- E.
      assert (0 < Rpower x (m - 1)) by apply exp_pos. pose proof (exp_pos (- Rpower x m * k)). left. repeat apply Rmult_lt_0_compat; auto.
  - intros erf retry dc s order dmin dmax HE H1 H2 H3. set (exc := match dmax with Some v => v | None => 10 ^ 15 * dc end) in *. destruct (Fln_curve erf dc s HE H1 H2) as [HB HM].
    assert (HC : forall d, 0 <= d -> cdf_lognormal erf d dc s = Ok (Fln erf dc s d)) by (intros; now apply cdf_lognormal_eval).
    assert (HV : forall v, dmax = Some v -> v = exc) by (intros v ->; reflexivity).
    destruct (truncate_ok (fun d => cdf_lognormal erf d dc s) (Fln erf dc s) dmin dmax exc) as (t & ET & TC); auto; try lra. unfold PSDLognormal. cbv zeta. fold exc. rewrite ET. cbn [bind]. eexists. split; [reflexivity|].
    match goal with |- context [limits ?x] => set (o := x) end. assert (LT : Fln erf dc s (or_zero dmin) < Fln erf dc s exc) by (apply Fln_lt; auto; lra).
    destruct (object_trunc o (fun d => cdf_lognormal erf d dc s) (Fln erf dc s) dmin dmax exc t) as [A B]; auto; try lra. splits; auto.
    apply (object_density o (fun d => cdf_lognormal erf d dc s) (fun d => pdf_lognormal d dc s) (Fln erf dc s) (or_zero dmin) exc); auto; try lra.
    + apply (SUB _ _ _ _ (or_zero dmin)); [lra| |reflexivity]. now apply (C88_lognormal_density erf (Err ValueError) dc s 0).
    + intros x y Hx. unfold pdf_lognormal. rewrite pdiv_ok by lra. cbn [bind]. assert (0 < sqrt (2 * PI)) by (apply sqrt_lt_R0; pose proof PI_RGT_0; lra). assert (0 < x * s * sqrt (2 * PI)) by (repeat apply Rmult_lt_0_compat; lra). destruct (Rltb 0 (x / dc)).
      * rewrite !pdiv_ok by lra. cbn [bind]. intros E. apply (f_equal (fun r => match r with Ok v => v | Err _ => 0 end)) in E. rewrite <- E. left. apply Rmult_lt_0_compat; [|apply exp_pos]. apply Rdiv_lt_0_compat; lra.
      * intros E. apply (f_equal (fun r => match r with Ok v => v | Err _ => 0 end)) in E. rewrite <- E. lra.
  - intros dc m order dmin H1 H2 H3. destruct (Fggs_curve dc m H1 H2) as [HB HM].
    assert (HC : forall d, 0 <= d -> cdf_GGS d dc m = Ok (Fggs dc m d)) by (intros; now apply cdf_GGS_eval).
    destruct (truncate_ok (fun d => cdf_GGS d dc m) (Fggs dc m) dmin None dc) as (t & ET & TC); auto; try lra; [intros; discriminate|]. unfold PSDGatesGaudinSchuhman. cbv zeta. rewrite ET. cbn [bind]. eexists. split; [reflexivity|].
    match goal with |- context [limits ?x] => set (o := x) end. assert (LT : Fggs dc m (or_zero dmin) < Fggs dc m dc) by (apply Fggs_lt; lra).
    destruct (object_trunc o (fun d => cdf_GGS d dc m) (Fggs dc m) dmin None dc t) as [A B]; auto; try lra; [intros; discriminate|].
    splits; auto.
    + split; [apply B|]. intros v EV d Hd. assert (v = dc) by congruence. subst v. assert (F1 : Fggs dc m d = 1) by (pose proof (proj1 C88_cumulative dc m H1 H2) as (_ & _ & Q); specialize (Q d Hd); rewrite HC in Q by lra; congruence).
      destruct TC as [E|E]; unfold cdf; cbn [other_basis]; change (c_trunc o) with t; change (c_cdf o d) with (cdf_GGS d dc m); rewrite E, HC by lra; cbn [bind].
      * rewrite F1, Rmax_pos by lra. reflexivity.
      * rewrite (proj2 (Rleb_false d (or_zero dmin))) by lra. rewrite (proj2 (Rleb_true dc d)) by lra. reflexivity.
    + apply (object_density o (fun d => cdf_GGS d dc m) (fun d => pdf_GGS d dc m) (Fggs dc m) (or_zero dmin) dc); auto; try lra.
      * apply (SUB _ _ _ _ (or_zero dmin)); [lra| |reflexivity]. now apply (C88_GGS_density dc m 0).
      * intros x y Hx. unfold pdf_GGS. rewrite (proj2 (Rleb_true x dc)) by lra. rewrite !pdiv_ok by lra. cbn [bind]. rewrite ppow_ok by (apply Rdiv_lt_0_compat; lra). cbn [bind]. intros E. apply (f_equal (fun r => match r with Ok v => v | Err _ => 0 end)) in E. rewrite <- E.
        left. apply Rmult_lt_0_compat; [apply Rdiv_lt_0_compat; lra|apply exp_pos].
Qed.
Example C88_objects_ex : 0 <= or_zero (Some 1) < 5 /\ 0 <= or_zero None < 10 ^ 15. Proof. cbn [or_zero]. split; [lra|]. split; [lra|apply pow_lt; lra]. Qed.

(** *** quantiles and discretisation, for every distribution object *)
Theorem C88_quantile brenth eps o n : root_contract brenth -> 0 < eps < 1 ->
  (forall f d, 0 < f < 1 -> dn brenth eps o f n = Ok d -> cdf o d n = Ok f) /\ (forall d, dn brenth eps o 1 n = Ok d -> cdf o d n = Ok (1 - eps)) /\
  (forall f, f < 0 \/ 1 < f -> dn brenth eps o f n = Err ValueError) /\
  dn brenth eps o 0 n = Ok (match c_trunc o with Some (d_min, _, _, _) => d_min | None => 0 end).
Proof.
  intros HR HE. assert (A : forall f d, 0 < f < 1 -> dn brenth eps o f n = Ok d -> cdf o d n = Ok f).
  { intros f d Hf. unfold dn. rewrite (proj2 (Reqb_false f 1)), (proj2 (Rltb_false f 0)), (proj2 (Reqb_false f 0)), (proj2 (Rltb_false 1 f)) by lra. intros E. apply HR in E.
    destruct (cdf o d n) as [c|]; [|discriminate]. cbn [bind] in E. apply (f_equal (fun r => match r with Ok v => v | Err _ => 0 end)) in E. f_equal. lra. }
  splits; auto.
  - intros d E. apply (A (1 - eps)); [lra|]. rewrite <- E. unfold dn. rewrite (proj2 (Reqb_true 1 1)) by reflexivity. rewrite (proj2 (Reqb_false (1 - eps) 1)) by lra. reflexivity.
  - intros f Hf. unfold dn. rewrite (proj2 (Reqb_false f 1)) by lra. destruct (Rltb f 0) eqn:E; [reflexivity|]. apply Rltb_false in E. rewrite (proj2 (Reqb_false f 0)), (proj2 (Rltb_true 1 f)) by lra. reflexivity.
  - unfold dn. rewrite (proj2 (Reqb_false 0 1)), (proj2 (Rltb_false 0 0)), (proj2 (Reqb_true 0 0)) by lra. destruct (c_trunc o) as [[[[? ?] ?] ?]|]; reflexivity.
Qed.
(** the fractions between given sizes add up to the cumulative curve, and are non-negative for sizes in order *)
Lemma diff1_cum x l : forall i, (i < S (List.length l))%nat -> Rsum (fun j => nth j (x :: diff1 (x :: l)) 0) (S i) = nth i (x :: l) 0.
Proof.
  revert x. induction l as [|y l IH]; intros x i Hi; [assert (i = O) by (cbn in Hi; lia); subst; cbn; ring|].
  destruct i as [|i]; [cbn; ring|]. rewrite Rsum_head. cbn [nth]. change (diff1 (x :: y :: l)) with ((y - x) :: diff1 (y :: l)). 
  specialize (IH y i ltac:(cbn [List.length] in Hi; lia)). rewrite Rsum_head in IH. rewrite Rsum_head. cbn [nth] in IH |- *. destruct i as [|i].
  - cbn in *. lra.
  - cbn [nth] in *. lra.
Qed.
Theorem C88_discrete o ds n F : ds <> [] -> (forall d, In d ds -> cdf o d n = Ok (F d)) ->
  exists fs, fractions_discrete o ds n = Ok fs /\ List.length fs = List.length ds /\ forall i, (i < List.length ds)%nat -> Rsum (fun j => nth j fs 0) (S i) = F (nth i ds 0).
Proof.
  intros Hd HF. unfold fractions_discrete, cdf_discrete. rewrite (mapM_ok _ F) by auto. cbn [bind]. destruct ds as [|d ds]; [congruence|]. cbn [map idx nth_error bind]. eexists. splits; [reflexivity| |].
  - cbn [List.length]. f_equal. destruct (diff1_spec (F d :: map F ds)) as [L _]. rewrite L. cbn [List.length]. rewrite map_length. lia.
  - intros i Hi. rewrite (diff1_cum (F d) (map F ds)) by (rewrite map_length; exact Hi). change (F d :: map F ds) with (map F (d :: ds)).
    rewrite (nth_indep _ 0 (F 0)) by (now rewrite map_length). apply map_nth.
Qed.
Theorem C88_discrete_nonneg o ds : curve (fun d => cdf o d None) -> ds <> [] -> (forall d, In d ds -> 0 <= d) -> (forall i, (S i < List.length ds)%nat -> nth i ds 0 <= nth (S i) ds 0) ->
  exists fs, fractions_discrete o ds None = Ok fs /\ (forall f, In f fs -> 0 <= f) /\ lsum fs <= 1.
Proof.
  intros (F & H1 & H2 & H3) Hn H0 HS. destruct (C88_discrete o ds None F Hn) as (fs & E & L & V); [intros; now apply H1, H0|]. exists fs. splits; auto.
  - intros f HI. apply (In_nth _ _ 0) in HI. destruct HI as (i & Li & <-). rewrite L in Li. destruct i as [|i].
    + specialize (V O Li). cbn [Rsum] in V. rewrite Rplus_0_l in V. rewrite V. apply H2. apply H0, nth_In. exact Li.
    + pose proof (V i ltac:(lia)) as V1. pose proof (V (S i) Li) as V2. change (Rsum (fun j => nth j fs 0) (S (S i))) with (Rsum (fun j => nth j fs 0) (S i) + nth (S i) fs 0) in V2.
      assert (F (nth i ds 0) <= F (nth (S i) ds 0)); [|lra]. apply H3; [apply H0, nth_In; lia|apply HS; lia].
  - rewrite (as_map fs), lsum_seq, L. destruct (List.length ds) as [|k] eqn:K; [destruct ds; [congruence|discriminate]|]. rewrite V by lia. apply H2. apply H0, nth_In. lia.
Qed.
Example C88_discrete_ex : (forall i, (S i < List.length [1; 2; 2])%nat -> nth i [1; 2; 2] 0 <= nth (S i) [1; 2; 2] 0) /\ (forall d, In d [1; 2; 2] -> 0 <= d).
Proof. split; [intros [|[|[|i]]] H; cbn in *; try lra; lia|cbn; intuition lra]. Qed.

(** *** mean sizes *)
Lemma mono_closed F f a b : a <= b -> (forall x, a <= x <= b -> is_derive F x (f x)) -> (forall x, a <= x <= b -> 0 <= f x) -> F a <= F b.
Proof.
  intros H D P. destruct (MVT_gen F a b f) as (c & B & E).
  - rewrite Rmin_left, Rmax_right by auto. intros z Hz. apply D. lra.
  - rewrite Rmin_left, Rmax_right by auto. intros z Hz. apply continuity_pt_filterlim, (@ex_derive_continuous R_AbsRing R_NormedModule). eexists. apply D. lra.
  - rewrite Rmin_left, Rmax_right in B by auto. assert (0 <= f c * (b - a)) by (apply Rmult_le_pos; [apply P; lra|lra]). lra.
Qed.
Lemma lt_closed F f a b : a < b -> (forall x, a <= x <= b -> is_derive F x (f x)) -> (forall x, a <= x <= b -> 0 < f x) -> F a < F b.
Proof.
  intros H D P. destruct (MVT_gen F a b f) as (c & B & E).
  - rewrite Rmin_left, Rmax_right by lra. intros z Hz. apply D. lra.
  - rewrite Rmin_left, Rmax_right by lra. intros z Hz. apply continuity_pt_filterlim, (@ex_derive_continuous R_AbsRing R_NormedModule). eexists. apply D. lra.
  - rewrite Rmin_left, Rmax_right in B by lra. assert (0 < f c * (b - a)) by (apply Rmult_lt_0_compat; [apply P; lra|lra]). lra.
Qed.
Lemma moment_ratio (Gp Gq w : R -> R) p q a b : 0 < a -> a < b -> q < p -> (forall x, a <= x <= b -> 0 < w x) ->
  (forall x, a <= x <= b -> is_derive Gp x (Rpower x p * w x)) -> (forall x, a <= x <= b -> is_derive Gq x (Rpower x q * w x)) ->
  0 < Gp b - Gp a /\ 0 < Gq b - Gq a /\ Rpower a (p - q) <= (Gp b - Gp a) / (Gq b - Gq a) <= Rpower b (p - q).
Proof.
  intros Ha Hab Hpq Hw Dp Dq.
  assert (P1 : Gp a < Gp b) by (apply (lt_closed Gp (fun x => Rpower x p * w x)); auto; intros; apply Rmult_lt_0_compat; [apply exp_pos|auto]).
  assert (P2 : Gq a < Gq b) by (apply (lt_closed Gq (fun x => Rpower x q * w x)); auto; intros; apply Rmult_lt_0_compat; [apply exp_pos|auto]).
  assert (SPL : forall x, Rpower x p = Rpower x (p - q) * Rpower x q) by (intros; rewrite <- Rpower_plus; f_equal; ring).
  assert (LO : Rpower a (p - q) * (Gq b - Gq a) <= Gp b - Gp a).
  { assert (Gp a - Rpower a (p - q) * Gq a <= Gp b - Rpower a (p - q) * Gq b); [|lra].
    apply (mono_closed (fun x => Gp x - Rpower a (p - q) * Gq x) (fun x => Rpower x p * w x - Rpower a (p - q) * (Rpower x q * w x))); [lra| |].
    - intros x Hx. apply (is_derive_minus Gp (fun x => Rpower a (p - q) * Gq x)); [now apply Dp|]. apply (is_derive_scal Gq). now apply Dq.
    - intros x Hx. rewrite SPL. assert (Rpower a (p - q) <= Rpower x (p - q)) by (apply Rle_Rpower_l; lra). assert (0 < Rpower x q * w x) by (apply Rmult_lt_0_compat; [apply exp_pos|auto]). nra. }
  assert (HI : Gp b - Gp a <= Rpower b (p - q) * (Gq b - Gq a)).
  { assert (Rpower b (p - q) * Gq a - Gp a <= Rpower b (p - q) * Gq b - Gp b); [|lra].
    apply (mono_closed (fun x => Rpower b (p - q) * Gq x - Gp x) (fun x => Rpower b (p - q) * (Rpower x q * w x) - Rpower x p * w x)); [lra| |].
    - intros x Hx. apply (is_derive_minus (fun x => Rpower b (p - q) * Gq x) Gp); [|now apply Dp]. apply (is_derive_scal Gq). now apply Dq.
    - intros x Hx. rewrite SPL. assert (Rpower x (p - q) <= Rpower b (p - q)) by (apply Rle_Rpower_l; lra). assert (0 < Rpower x q * w x) by (apply Rmult_lt_0_compat; [apply exp_pos|auto]). nra. }
  splits; try lra.
  - apply Rmult_le_reg_r with (Gq b - Gq a); [lra|]. unfold Rdiv. rewrite Rmult_assoc, Rinv_l by lra. lra.
  - apply Rmult_le_reg_r with (Gq b - Gq a); [lra|]. unfold Rdiv. rewrite Rmult_assoc, Rinv_l by lra. lra.
Qed.
Lemma root_between x a b r : 0 < r -> 0 < a -> a < b -> Rpower a r <= x <= Rpower b r -> a <= Rpower x (1 / r) <= b.
Proof.
  intros Hr Ha Hb [H1 H2]. assert (0 < Rpower a r) by apply exp_pos. assert (Q : forall c, 0 < c -> Rpower (Rpower c r) (1 / r) = c). { intros c Hc. rewrite Rpower_mult. replace (r * (1 / r)) with 1 by (field; lra). now apply Rpower_1. }
  assert (0 < 1 / r) by (apply Rdiv_lt_0_compat; lra). split.
  - rewrite <- (Q a) at 1 by auto. apply Rle_Rpower_l; [lra|lra].
  - rewrite <- (Q b) by lra. apply Rle_Rpower_l; lra.
Qed.
Lemma mean_between o (G : R -> R -> R) w p q : c_minimum o < c_excessive o -> 0 < c_minimum o -> p <> q ->
  (forall x, c_minimum o <= x <= c_excessive o -> 0 < w x) ->
  (forall n x, n = p - c_order o \/ n = q - c_order o -> c_minimum o <= x <= c_excessive o -> c_basis o x n = Ok (G n x) /\ is_derive (G n) x (Rpower x n * w x)) ->
  exists m, (denominator <- basis_definite o (c_minimum o) (c_excessive o) (q - c_order o) ;; numerator <- basis_definite o (c_minimum o) (c_excessive o) (p - c_order o) ;;
    r <- pdiv numerator denominator ;; e <- pdiv 1 (p - q) ;; ppow r e) = Ok m /\ c_minimum o <= m <= c_excessive o.
Proof.
  intros H1 H2 H3 H4 H5. set (a := c_minimum o) in *. set (b := c_excessive o) in *. set (c := c_order o) in *. unfold basis_definite.
  rewrite !(fun n x H K => proj1 (H5 n x H K)) by (first [now left|now right|lra]). cbn [bind].
  destruct (Rlt_le_dec q p) as [L|L].
  - destruct (moment_ratio (G (p - c)) (G (q - c)) w (p - c) (q - c) a b) as (P1 & P2 & B); auto; [lra|intros; apply H5; auto|intros; apply H5; auto|].
    rewrite !pdiv_ok by lra. cbn [bind]. rewrite ppow_ok by (apply Rdiv_lt_0_compat; auto). eexists. split; [reflexivity|]. apply root_between; auto; [lra|]. replace (p - q) with (p - c - (q - c)) by ring. exact B.
  - destruct (moment_ratio (G (q - c)) (G (p - c)) w (q - c) (p - c) a b) as (P1 & P2 & B); auto; [lra|intros; apply H5; auto|intros; apply H5; auto|].
    rewrite !pdiv_ok by lra. cbn [bind]. rewrite ppow_ok by (apply Rdiv_lt_0_compat; auto). eexists. split; [reflexivity|].
    replace (Rpower ((G (p - c) b - G (p - c) a) / (G (q - c) b - G (q - c) a)) (1 / (p - q))) with (Rpower ((G (q - c) b - G (q - c) a) / (G (p - c) b - G (p - c) a)) (1 / (q - p))).
    + apply root_between; auto; [lra|]. replace (q - p) with (q - c - (p - c)) by ring. exact B.
    + unfold Rpower. rewrite !ln_div by auto. f_equal. field. lra.
Qed.
Lemma cont_mean_between o (G : R -> R -> R) w p q : c_minimum o < c_excessive o -> 0 < c_minimum o ->
  (forall x, c_minimum o <= x <= c_excessive o -> 0 < w x) ->
  (forall n x, (p <> q -> n = p - c_order o \/ n = q - c_order o) -> c_minimum o <= x <= c_excessive o -> c_basis o x n = Ok (G n x) /\ is_derive (G n) x (Rpower x n * w x)) ->
  exists m, cont_mean_size o p q = Ok m /\ c_minimum o <= m <= c_excessive o.
Proof.
  intros H1 H2 H4 H5. unfold cont_mean_size. destruct (Reqb p q) eqn:E.
  - apply Reqb_true in E. apply (mean_between o G w); auto; [lra|]. intros n x _ Hx. apply H5; auto. intros; contradiction.
  - apply Reqb_false in E. apply (mean_between o G w); auto.
Qed.
(** The mean sizes D[p,q] of a distribution between two positive sizes lie between them.  (For Gates-Gaudin-Schuhman the upper
    limit is the characteristic size, and the indices must not hit the poles of its integrals.) *)
Theorem C88_mean_bounds lo p q : 0 < lo ->
  (forall Gam k m order hi o, gamma_contract Gam -> 0 < k -> 0 < m -> lo < hi -> PSDRosinRammler Gam k m order (Some lo) (Some hi) = Ok o -> exists D, cont_mean_size o p q = Ok D /\ lo <= D <= hi)
  /\ (forall erf retry dc s order hi o, erf_contract erf -> 0 < dc -> 0 < s -> lo < hi -> PSDLognormal erf retry dc s order (Some lo) (Some hi) = Ok o -> exists D, cont_mean_size o p q = Ok D /\ lo <= D <= hi)
  /\ (forall dc m order o, 0 < m -> lo < dc -> p <> q -> m + (p - order) <> 0 -> m + (q - order) <> 0 -> PSDGatesGaudinSchuhman dc m order (Some lo) None = Ok o -> exists D, cont_mean_size o p q = Ok D /\ lo <= D <= dc).
Proof.
  intros Hlo. splits.
  - intros Gam k m order hi o HG H1 H2 H3 E. unfold PSDRosinRammler in E. cbn [truncate or_zero] in E. rewrite !cdf_RR_eval in E by lra. cbn [bind] in E.
    apply (f_equal (fun r => match r with Ok v => v | Err _ => o end)) in E. subst o. set (o := {| c_order := _ |}).
    set (a := fun n => (m + n) / m).
    apply (cont_mean_between o (fun n x => - k * Rpower k (- a n) * Gam (a n) (Rpower x m * k)) (fun x => Rpower x (m - 1) * k * m * exp (- Rpower x m * k)) p q H3 Hlo).
    + intros x Hx. apply Rmult_lt_0_compat; [|apply exp_pos]. repeat apply Rmult_lt_0_compat; auto. apply exp_pos.
    + intros n x _ Hx. change (c_minimum o) with lo in Hx. change (c_excessive o) with hi in Hx. change (c_basis o x n) with (RR_basis Gam x k m n).
      destruct (proj2 (C88_RR_density Gam k m n (hi + 1) HG H1 H2)) as (G & D & A & B). destruct (A x ltac:(lra)) as [A1 A2]. unfold power_times, pdf_RR in A2. rewrite !ppow_ok in A2 by lra. cbn [bind] in A2.
      assert (EV : forall y, 0 < y < hi + 1 -> RR_basis Gam y k m n = Ok (- k * Rpower k (- a n) * Gam (a n) (Rpower y m * k))).
      { intros y Hy. unfold RR_basis. rewrite pdiv_ok by lra. cbn [bind]. fold (a n). rewrite !ppow_ok by lra. cbn [bind]. assert (0 < Rpower y m) by apply exp_pos. rewrite ppow_ok by (apply Rmult_lt_0_compat; auto). cbn [bind]. f_equal.
        rewrite <- Rpower_mult_distr by auto. rewrite Rpower_mult. replace (m * - a n) with (- (m + n)) by (unfold a; field; lra). rewrite Rpower_Ropp. assert (0 < Rpower y (m + n)) by apply exp_pos. field. lra. }
      split; [apply EV; lra|]. replace (Rpower x n * (Rpower x (m - 1) * k * m * exp (- Rpower x m * k))) with (D x) by congruence.
      apply (is_derive_ext_loc G); [|apply B; lra]. apply (locally_interval _ x 0 (hi + 1)); [cbn; lra|cbn; lra|]. cbn. intros y Hy1 Hy2. destruct (A y ltac:(lra)) as [A3 _]. rewrite EV in A3 by lra. congruence.
  - intros erf retry dc s order hi o HE H1 H2 H3 E. unfold PSDLognormal in E. cbn [truncate or_zero] in E. rewrite !cdf_lognormal_eval in E by lra. cbn [bind] in E.
    apply (f_equal (fun r => match r with Ok v => v | Err _ => o end)) in E. subst o. set (o := {| c_order := _ |}).
    set (val := fun r : result R => match r with Ok v => v | Err _ => 0 end).
    apply (cont_mean_between o (fun n x => val (pdf_lognormal_basis_integral erf (retry dc s n) x dc s n)) (fun x => val (pdf_lognormal x dc s)) p q H3 Hlo).
    + intros x Hx. change (c_minimum o) with lo in Hx. unfold pdf_lognormal. rewrite pdiv_ok by lra. cbn [bind]. rewrite (proj2 (Rltb_true 0 (x / dc))) by (apply Rdiv_lt_0_compat; lra). rewrite pdiv_ok by lra. cbn [bind].
      assert (0 < sqrt (2 * PI)) by (apply sqrt_lt_R0; pose proof PI_RGT_0; lra). assert (0 < x * s * sqrt (2 * PI)) by (repeat apply Rmult_lt_0_compat; lra). rewrite pdiv_ok by lra. cbn [bind val].
      apply Rmult_lt_0_compat; [apply Rdiv_lt_0_compat; lra|apply exp_pos].
    + intros n x _ Hx. change (c_minimum o) with lo in Hx. change (c_excessive o) with hi in Hx. change (c_basis o x n) with (pdf_lognormal_basis_integral erf (retry dc s n) x dc s n).
      destruct (proj2 (C88_lognormal_density erf (retry dc s n) dc s n (hi + 1) HE H1 H2)) as (G & D & A & B). destruct (A x ltac:(lra)) as [A1 A2]. split; [rewrite A1; reflexivity|].
      unfold power_times in A2. destruct (pdf_lognormal x dc s) as [v|]; [|discriminate]. cbn [bind val] in A2 |- *. replace (Rpower x n * v) with (D x) by congruence.
      apply (is_derive_ext_loc G); [|apply B; lra]. apply (locally_interval _ x 0 (hi + 1)); [cbn; lra|cbn; lra|]. cbn. intros y Hy1 Hy2. destruct (A y ltac:(lra)) as [A3 _]. rewrite A3. reflexivity.
  - intros dc m order o H2 H3 Hpq HP HQ E. unfold PSDGatesGaudinSchuhman in E. cbn [truncate or_zero] in E. rewrite !cdf_GGS_eval in E by lra. cbn [bind] in E.
    apply (f_equal (fun r => match r with Ok v => v | Err _ => o end)) in E. subst o. set (o := {| c_order := _ |}).
    apply (cont_mean_between o (fun n x => m / (m + n) / Rpower dc m * Rpower x (n + m)) (fun x => m / Rpower dc m * Rpower x (m - 1)) p q H3 Hlo).
    + intros x Hx. apply Rmult_lt_0_compat; [apply Rdiv_lt_0_compat; auto|]; apply exp_pos.
    + intros n x Hn Hx. change (c_minimum o) with lo in Hx. change (c_excessive o) with dc in Hx. change (c_order o) with order in Hn. change (c_basis o x n) with (GGS_basis x dc m n).
      assert (m + n <> 0) by (destruct (Hn Hpq) as [-> | ->]; auto). assert (0 < Rpower dc m) by apply exp_pos. split.
      * unfold GGS_basis. rewrite !pdiv_ok by lra. cbn [bind]. rewrite !ppow_ok by (first [lra|apply Rdiv_lt_0_compat; lra]). cbn [bind]. f_equal. 
        replace (Rpower (x / dc) m) with (Rpower x m * / Rpower dc m) by (unfold Rpower; rewrite ln_div, <- exp_Ropp, <- exp_plus by lra; f_equal; ring). rewrite Rpower_plus. field. lra.
      * replace (Rpower x n * (m / Rpower dc m * Rpower x (m - 1))) with (m / (m + n) / Rpower dc m * ((n + m) * Rpower x (n + m - 1))).
        { apply (is_derive_scal (fun x => Rpower x (n + m))). apply Rpower_derive. lra. }
        replace (n + m - 1) with (n + (m - 1)) by ring. rewrite Rpower_plus. field. lra.
Qed.

(** *** other bases *)
(** Changing to a higher basis, a Gates-Gaudin-Schuhman distribution without a lower limit becomes the one with a correspondingly larger exponent. *)
Lemma GGS_basis_0 dc m n : 0 < dc -> 0 < m -> 0 < n -> GGS_basis 0 dc m n = Ok 0.
Proof. intros. unfold GGS_basis. rewrite !pdiv_ok by lra. cbn [bind]. rewrite ppow_0 by auto. cbn [bind]. replace (0 / dc) with 0 by (field; lra). rewrite ppow_0 by auto. cbn [bind]. f_equal. ring. Qed.
Lemma GGS_basis_pos dc m n d : 0 < dc -> 0 < m -> 0 < n -> 0 < d -> GGS_basis d dc m n = Ok (m / (m + n) * Rpower dc n * Rpower (d / dc) (m + n)).
Proof.
  intros. assert (0 < d / dc) by (apply Rdiv_lt_0_compat; lra). unfold GGS_basis. rewrite !pdiv_ok by lra. cbn [bind]. rewrite !ppow_ok by auto. cbn [bind]. f_equal. rewrite Rpower_plus.
  replace d with (dc * (d / dc)) at 1 by (field; lra). rewrite <- Rpower_mult_distr by auto. ring.
Qed.
Theorem C88_GGS_other_basis dc m order n : 0 < dc -> 0 < m -> order < n ->
  exists o, PSDGatesGaudinSchuhman dc m order None None = Ok o /\ forall d, 0 <= d <= dc -> cdf o d (Some n) = cdf_GGS d dc (m + (n - order)) /\ (0 < d -> pdf o d (Some n) = pdf_GGS d dc (m + (n - order))).
Proof.
  intros H1 H2 H3. eexists. split; [reflexivity|]. intros d Hd. set (o := {| c_order := _ |}). set (k := n - order). assert (Hk : 0 < k) by (unfold k; lra).
  assert (OB : other_basis o (Some n) = Some k) by (unfold other_basis; change (c_order o) with order; rewrite (proj2 (Reqb_false n order)) by lra; reflexivity).
  assert (P1 : 0 < Rpower dc k) by apply exp_pos. assert (D1 : 0 < m / (m + k)) by (apply Rdiv_lt_0_compat; lra).
  assert (ONE : Rpower (dc / dc) (m + k) = 1) by (replace (dc / dc) with 1 by (field; lra); unfold Rpower; rewrite ln_1, Rmult_0_r, exp_0; reflexivity).
  assert (DEN : basis_definite o 0 (c_excessive o) k = Ok (m / (m + k) * Rpower dc k)).
  { unfold basis_definite. change (c_excessive o) with dc. change (c_basis o) with (fun d n => GGS_basis d dc m n). cbv beta. rewrite GGS_basis_pos, GGS_basis_0 by auto. cbn [bind]. f_equal. rewrite ONE. ring. }
  assert (PD : 0 < m / (m + k) * Rpower dc k) by (apply Rmult_lt_0_compat; auto). split.
  - unfold cdf. rewrite OB, DEN. change (c_trunc o) with (@None (R * R * R * R)). unfold basis_definite. change (c_basis o) with (fun d n => GGS_basis d dc m n). cbv beta. rewrite GGS_basis_0 by auto.
    rewrite cdf_GGS_eval by lra. unfold Fggs. rewrite (proj2 (Rleb_true d dc)) by lra. destruct (Rltb 0 d) eqn:E.
    + apply Rltb_true in E. rewrite GGS_basis_pos by auto. cbn [bind]. rewrite pdiv_ok by lra. cbn [bind]. f_equal. replace ((m / (m + k) * Rpower dc k * Rpower (d / dc) (m + k) - 0) / (m / (m + k) * Rpower dc k)) with (Rpower (d / dc) (m + k)) by (field; splits; lra).
      apply Rmax_pos. left. apply exp_pos.
    + apply Rltb_false in E. assert (d = 0) by lra. subst d. rewrite GGS_basis_0 by auto. cbn [bind]. rewrite pdiv_ok by lra. cbn [bind]. f_equal. replace ((0 - 0) / (m / (m + k) * Rpower dc k)) with 0 by (field; splits; lra). apply Rmax_pos. lra.
  - intros Hd0. assert (Q : 0 < d / dc) by (apply Rdiv_lt_0_compat; lra). unfold pdf. rewrite OB, DEN. change (c_trunc o) with (@None (R * R * R * R)). change (c_pdf o d) with (pdf_GGS d dc m). unfold pdf_GGS. rewrite (proj2 (Rleb_true d dc)) by lra.
    rewrite !pdiv_ok by lra. cbn [bind]. rewrite !ppow_ok by auto. cbn [bind]. rewrite pdiv_ok by lra. cbn [bind]. f_equal. rewrite Rmax_pos.
    + rewrite Rpower_plus. replace (Rpower d k) with (Rpower dc k * Rpower (d / dc) k) by (rewrite Rpower_mult_distr by auto; f_equal; field; lra). field. splits; lra.
    + apply Rdiv_le_0_compat; [|auto]. apply Rmult_le_pos; [left; apply exp_pos|]. apply Rmult_le_pos; [apply Rdiv_le_0_compat; lra|left; apply exp_pos].
Qed.
(** Deviations of the Gates-Gaudin-Schuhman class. *)
(** An upper limit cannot be given. *)
Theorem C88_GGS_upper_limit_raises dc m order d_min v : PSDGatesGaudinSchuhman dc m order d_min (Some v) = Err AttributeError.
Proof. reflexivity. Qed.
(** Without a lower limit no lower basis is available, in particular no Sauter mean of a volume distribution. *)
Theorem C88_GGS_lower_basis_raises dc m order o : 0 < dc -> 0 < m -> PSDGatesGaudinSchuhman dc m order None None = Ok o ->
  (forall n d, n < order -> 0 < d -> cdf o d (Some n) = Err ZeroDivisionError) /\ (forall p q, q < order -> p <> q -> cont_mean_size o p q = Err ZeroDivisionError).
Proof.
  intros H1 H2 E. cbn in E. apply (f_equal (fun r => match r with Ok v => v | Err _ => o end)) in E. subst o. set (o := {| c_order := _ |}).
  assert (Z : forall n x, n < 0 -> 0 < x -> basis_definite o 0 x n = Err ZeroDivisionError).
  { intros n x Hn Hx. unfold basis_definite. change (c_basis o) with (fun d n => GGS_basis d dc m n). cbv beta. unfold GGS_basis. destruct (Req_dec (m + n) 0) as [K|K]; [rewrite K, pdiv_0; reflexivity|].
    rewrite !pdiv_ok by lra. cbn [bind]. rewrite (ppow_ok x), (ppow_ok (x / dc)) by (first [assumption|apply Rdiv_lt_0_compat; auto]). cbn [bind].
    assert (Z0 : ppow 0 n = Err ZeroDivisionError) by (unfold ppow; rewrite (proj2 (Rltb_false 0 0)), (proj2 (Reqb_true 0 0)), (proj2 (Rltb_true n 0)) by lra; reflexivity). rewrite Z0. reflexivity. }
  split.
  - intros n d Hn Hd. unfold cdf, other_basis. change (c_order o) with order. rewrite (proj2 (Reqb_false n order)) by lra. rewrite Z by lra. reflexivity.
  - intros p q Hq Hpq. unfold cont_mean_size. rewrite (proj2 (Reqb_false p q)) by auto. change (c_minimum o) with 0. change (c_excessive o) with dc. change (c_order o) with order. rewrite Z by lra. reflexivity.
Qed.
(** Above its largest size the cumulative curve in another basis exceeds one. *)
Theorem C88_GGS_above_one_refuted : exists o, PSDGatesGaudinSchuhman 1 1 0 None None = Ok o /\ cdf o 2 (Some 1) = Ok 4.
Proof.
  eexists. split; [reflexivity|]. unfold cdf, other_basis, basis_definite. cbn [c_order c_excessive c_basis c_trunc]. rewrite (proj2 (Reqb_false 1 0)) by lra. replace (1 - 0) with 1 by ring.
  rewrite GGS_basis_0, !GGS_basis_pos by lra. cbn [bind]. rewrite pdiv_ok.
  - cbn [bind]. f_equal. assert (P : forall x, 0 < x -> Rpower x (1 + 1) = x * x) by (intros; rewrite Rpower_plus, Rpower_1 by auto; reflexivity). rewrite !P by lra. rewrite !Rpower_1 by lra. rewrite Rmax_pos; [field|]. lra.
  - assert (P : forall x, 0 < x -> Rpower x (1 + 1) = x * x) by (intros; rewrite Rpower_plus, Rpower_1 by auto; reflexivity). rewrite !P by lra. rewrite !Rpower_1 by lra. lra.
Qed.
(** With a lower limit the cumulative curve in another basis starts below zero, since the limits are those of the original basis. *)
Theorem C88_truncated_basis_negative_refuted : exists o, PSDGatesGaudinSchuhman 1 1 0 (Some (1 / 2)) None = Ok o /\ cdf o (3 / 5) (Some 1) = Ok (-7 / 25).
Proof.
  unfold PSDGatesGaudinSchuhman. cbn [truncate]. rewrite !cdf_GGS_eval by lra. cbn [bind]. eexists. split; [reflexivity|]. unfold cdf, other_basis, basis_definite. cbn [c_order c_excessive c_basis c_trunc]. rewrite (proj2 (Reqb_false 1 0)) by lra. replace (1 - 0) with 1 by ring.
  assert (P : forall x, 0 < x -> Rpower x (1 + 1) = x * x) by (intros; rewrite Rpower_plus, Rpower_1 by auto; reflexivity).
  rewrite GGS_basis_0, !GGS_basis_pos by lra. cbn [bind]. rewrite !P, !Rpower_1 by lra. rewrite pdiv_ok by lra. cbn [bind]. rewrite (proj2 (Rleb_false (3 / 5) (1 / 2))), (proj2 (Rleb_false 1 (3 / 5))) by lra.
  unfold Fggs. rewrite (proj2 (Rleb_true 1 1)), (proj2 (Rltb_true 0 1)), (proj2 (Rleb_true (1 / 2) 1)), (proj2 (Rltb_true 0 (1 / 2))) by lra. rewrite !Rpower_1 by lra.
  rewrite pdiv_ok by lra. f_equal. rewrite Rmax_pos by lra. field.
Qed.

(** *** Renard series of sizes *)
Theorem C88_renard pts number lo : (0 < pts)%nat -> 0 < number -> exists l r, spacing_renard (Some lo) None pts number = Ok l /\ List.length l = pts /\ nth 0 l 0 = lo /\
  (forall i, (S i < pts)%nat -> nth (S i) l 0 = r * nth i l 0) /\ Rpower r number = 10.
Proof.
  intros Hp Hn. unfold spacing_renard. rewrite pdiv_ok by lra. cbn [bind]. rewrite ppow_ok by lra. cbn [bind]. set (r := Rpower 10 (1 / number)).
  set (go := fix go (k : nat) (d : R) := match k with O => [d] | S k => d :: go k (d * r) end). exists (go (pts - 1)%nat lo), r. splits; auto.
  - assert (L : forall k d, List.length (go k d) = S k) by (induction k; intros; cbn; auto). rewrite L. lia.
  - destruct (pts - 1)%nat; reflexivity.
  - assert (Q : forall k d i, (i < k)%nat -> nth (S i) (go k d) 0 = r * nth i (go k d) 0).
    { induction k as [|k IH]; intros d i Hi; [lia|]. cbn [go]. destruct i as [|i].
      - cbn [nth]. destruct k; cbn; ring.
      - change (nth (S (S i)) (d :: go k (d * r)) 0) with (nth (S i) (go k (d * r)) 0). rewrite IH by lia. reflexivity. }
    intros i Hi. apply Q. lia.
  - unfold r. rewrite Rpower_mult. replace (1 / number * number) with 1 by (field; lra). apply Rpower_1. lra.
Qed.

(** *** the contracts can be met *)
(** half the error function's integral, and its companion with which the squares add up to pi / 4 *)
Definition gauss_int (x : R) : R := RInt (fun t => exp (- (t * t))) 0 x.
Definition gauss_rest (x : R) : R := RInt (fun t => exp (- (x * x * (1 + t * t))) / (1 + t * t)) 0 1.
Lemma cont_of_derive (f : R -> R) x : ex_derive f x -> continuous f x.
Proof. apply (@ex_derive_continuous R_AbsRing R_NormedModule). Qed.
Lemma gauss_derive x : is_derive gauss_int x (exp (- (x * x))).
Proof.
  apply (is_derive_RInt (fun t => exp (- (t * t))) gauss_int 0 x).
  - apply filter_forall. intros y. apply (@RInt_correct R_CompleteNormedModule). apply (@ex_RInt_continuous R_CompleteNormedModule). intros z _. apply cont_of_derive. auto_derive; auto.
  - apply cont_of_derive. auto_derive; auto.
Qed.
Lemma rest_derive x : is_derive gauss_rest x (RInt (fun t => - 2 * x * exp (- (x * x * (1 + t * t)))) 0 1).
Proof.
  assert (NZ : forall t, 1 + t * t <> 0) by (intros t; nra).
  assert (DV : forall t u, is_derive (fun x => exp (- (x * x * (1 + t * t))) / (1 + t * t)) u (- 2 * u * exp (- (u * u * (1 + t * t))))).
  { intros t u. auto_derive; [auto|]. field. apply NZ. }
  replace (RInt (fun t => - 2 * x * exp (- (x * x * (1 + t * t)))) 0 1) with (RInt (fun t => Derive (fun u => exp (- (u * u * (1 + t * t))) / (1 + t * t)) x) 0 1).
  2:{ apply RInt_ext. intros t _. apply is_derive_unique. apply DV. }
  apply (is_derive_RInt_param (fun x t => exp (- (x * x * (1 + t * t))) / (1 + t * t)) 0 1 x).
  - apply filter_forall. intros y t _. eexists. apply DV.
  - intros t _. apply (continuity_2d_pt_ext (fun u v => - 2 * u * exp (- (u * u * (1 + v * v))))).
    + intros u v. symmetry. apply is_derive_unique. apply DV.
    + apply continuity_2d_pt_mult; [apply continuity_2d_pt_mult; [apply continuity_2d_pt_const|apply continuity_2d_pt_id1]|].
      apply (continuity_1d_2d_pt_comp exp (fun u v => - (u * u * (1 + v * v)))); [apply derivable_continuous_pt, derivable_pt_exp|].
      apply continuity_2d_pt_opp, continuity_2d_pt_mult; [apply continuity_2d_pt_mult; apply continuity_2d_pt_id1|].
      apply continuity_2d_pt_plus; [apply continuity_2d_pt_const|apply continuity_2d_pt_mult; apply continuity_2d_pt_id2].
  - apply filter_forall. intros y. apply (@ex_RInt_continuous R_CompleteNormedModule). intros z _. apply cont_of_derive. auto_derive. apply NZ.
Qed.
Lemma rest_value x : RInt (fun t => - 2 * x * exp (- (x * x * (1 + t * t)))) 0 1 = - 2 * exp (- (x * x)) * gauss_int x.
Proof.
  assert (IS : is_RInt (fun t => - 2 * x * exp (- (x * x * (1 + t * t)))) 0 1 (- 2 * exp (- (x * x)) * gauss_int (x * 1) - - 2 * exp (- (x * x)) * gauss_int (x * 0))).
  { apply (is_RInt_derive (fun t => - 2 * exp (- (x * x)) * gauss_int (x * t))).
    - intros t _. evar_last.
      + apply (is_derive_scal (fun t => gauss_int (x * t))). apply (is_derive_comp gauss_int (fun t => x * t)); [apply gauss_derive|]. apply (is_derive_scal (fun t => t)). apply (@is_derive_id R_AbsRing).
      + unfold scal, one; cbn; unfold mult; cbn. replace (- (x * x * (1 + t * t))) with (- (x * x) + - (x * t * (x * t))) by ring. rewrite exp_plus. ring.
    - intros t _. apply cont_of_derive. auto_derive; auto. }
  apply (@is_RInt_unique R_CompleteNormedModule) in IS. rewrite IS. rewrite Rmult_0_r, Rmult_1_r. unfold gauss_int at 2. rewrite RInt_point. unfold zero; cbn. ring.
Qed.
Lemma gauss_identity x : gauss_int x * gauss_int x + gauss_rest x = PI / 4.
Proof.
  assert (Z : gauss_int 0 * gauss_int 0 + gauss_rest 0 = PI / 4).
  { unfold gauss_int. rewrite RInt_point. unfold zero; cbn. rewrite Rmult_0_l, Rplus_0_l. unfold gauss_rest.
    transitivity (RInt (fun t => / (1 + t ^ 2)) 0 1). { apply (@RInt_ext R_CompleteNormedModule). intros t _. match goal with |- context [exp ?u] => replace u with 0 by ring end. rewrite exp_0. change (@eq R (1 / (1 + t * t)) (/ (1 + t ^ 2))). field. nra. }
    assert (IS : is_RInt (fun t => / (1 + t ^ 2)) 0 1 (atan 1 - atan 0)).
    { apply (is_RInt_derive atan).
      - intros t _. apply is_derive_Reals. apply derivable_pt_lim_atan.
      - intros t _. apply cont_of_derive. auto_derive. nra. }
    apply (@is_RInt_unique R_CompleteNormedModule) in IS. rewrite IS, atan_0, atan_1. lra. }
  destruct (MVT_gen (fun x => gauss_int x * gauss_int x + gauss_rest x) 0 x (fun _ => 0)) as (c & _ & E).
  - intros y _. evar_last.
    + apply (is_derive_plus (fun x => gauss_int x * gauss_int x) gauss_rest); [|apply rest_derive]. apply (is_derive_mult gauss_int gauss_int); [apply gauss_derive|apply gauss_derive|intros; apply Rmult_comm].
    + rewrite rest_value. unfold plus; cbn; unfold mult; cbn. ring.
  - intros y _. apply continuity_pt_filterlim. apply (cont_of_derive (fun x => gauss_int x * gauss_int x + gauss_rest x)). eexists. apply (is_derive_plus (fun x => gauss_int x * gauss_int x) gauss_rest); [|apply rest_derive].
    apply (is_derive_mult gauss_int gauss_int); [apply gauss_derive|apply gauss_derive|intros; apply Rmult_comm].
  - lra.
Qed.
Lemma rest_pos x : 0 < gauss_rest x.
Proof.
  apply RInt_gt_0; [lra| |].
  - intros t _. apply Rdiv_lt_0_compat; [apply exp_pos|nra].
  - intros t _. apply cont_of_derive. auto_derive. nra.
Qed.
Example C88_erf_contract_ex : erf_contract (fun x => 2 / sqrt PI * gauss_int x).
Proof.
  pose proof PI_RGT_0 as HP. assert (SP : 0 < sqrt PI) by (now apply sqrt_lt_R0). assert (SS : sqrt PI * sqrt PI = PI) by (apply sqrt_sqrt; lra). split.
  - intros x. pose proof (gauss_identity x). pose proof (rest_pos x). set (g := gauss_int x) in *. assert (B : - (sqrt PI / 2) < g < sqrt PI / 2) by nra.
    replace (2 / sqrt PI * g) with (g / (sqrt PI / 2)) by (field; lra). assert (0 < / (sqrt PI / 2)) by (apply Rinv_0_lt_compat; lra). assert (sqrt PI / 2 * / (sqrt PI / 2) = 1) by (apply Rinv_r; lra).
    unfold Rdiv at 1 3. set (i := / (sqrt PI / 2)) in *. nra.
  - intros x. apply (is_derive_scal gauss_int). apply gauss_derive.
Qed.
Example C88_gamma_contract_ex : gamma_contract (fun a x => - RInt (fun t => Rpower t (a - 1) * exp (- t)) 1 x).
Proof.
  intros a x Hx. apply (is_derive_opp (fun x => RInt (fun t => Rpower t (a - 1) * exp (- t)) 1 x)).
  assert (C : forall z, 0 < z -> continuous (fun t => Rpower t (a - 1) * exp (- t)) z).
  { intros z Hz. apply cont_of_derive. unfold Rpower. auto_derive. auto. }
  apply (is_derive_RInt (fun t => Rpower t (a - 1) * exp (- t)) _ 1 x); [|now apply C].
  apply (locally_interval _ x 0 (x + 1)); [exact Hx|cbn; lra|]. cbn. intros y H1 _. apply (@RInt_correct R_CompleteNormedModule). apply (@ex_RInt_continuous R_CompleteNormedModule).
  intros z Hz. apply C. destruct (Rle_dec 1 y); [rewrite Rmin_left in Hz by lra; lra|rewrite Rmin_right in Hz by lra; lra].
Qed.
Example C88_root_contract_ex : exists brenth, root_contract brenth /\ brenth (fun x => Ok (x - 2)) 1 2 = Ok 2.
Proof.
  exists (fun f a b => match f b with Ok v => if Reqb v 0 then Ok b else Err ValueError | Err e => Err e end). split.
  - intros f a b x. destruct (f b) as [v|] eqn:E; [|discriminate]. destruct (Reqb v 0) eqn:Z; [|discriminate]. apply Reqb_true in Z. intros H.
    apply (f_equal (fun r => match r with Ok v => v | Err _ => b end)) in H. subst. exact E.
  - rewrite (proj2 (Reqb_true (2 - 2) 0)) by ring. reflexivity.
Qed.

Print Assumptions C88_cumulative.
Print Assumptions C88_GGS_density.
Print Assumptions C88_RR_density.
Print Assumptions C88_lognormal_density.
Print Assumptions C88_objects.
Print Assumptions C88_quantile.
Print Assumptions C88_discrete.
Print Assumptions C88_discrete_nonneg.
Print Assumptions C88_mean_bounds.
Print Assumptions C88_GGS_other_basis.
Print Assumptions C88_GGS_upper_limit_raises.
Print Assumptions C88_GGS_lower_basis_raises.
Print Assumptions C88_GGS_above_one_refuted.
Print Assumptions C88_truncated_basis_negative_refuted.
Print Assumptions C88_renard.
