(** C87: discrete particle size distributions ([ParticleSizeDistribution], fluids/particle_size_distribution.py). *)
From Coq Require Import Reals Lra Lia List Bool ZArith String.
From Coquelicot Require Import Coquelicot.
From Verif Require Import Base Sums Model_Numerics Model_Real Proofs_Real Proofs_Seq Model_PSD Proofs_PSD.
Import ListNotations.
Open Scope R_scope.

(** ** Vocabulary *)
(** sizes and amounts a sieve analysis can produce: positive sizes, non-negative amounts, not all zero *)
Definition sample (ds fr : list R) : Prop := List.Forall (fun d => 0 < d) ds /\ List.Forall (fun f => 0 <= f) fr /\ List.Exists (fun f => 0 < f) fr.
(** amounts at given sizes *)
Definition at_sizes (ds fr : list R) : Prop := sample ds fr /\ List.length ds = List.length fr.
(** amounts between consecutive sizes *)
Fixpoint increasing (l : list R) : Prop := match l with a :: ((b :: _) as t) => a < b /\ increasing t | _ => True end.
Definition between_sizes (ds fr : list R) : Prop := sample ds fr /\ List.length ds = S (List.length fr) /\ increasing ds.
(** the four fraction sets: by number, length, area, volume *)
Definition fraction_set (o : psd) (j : nat) : list R :=
  match j with O => p_number o | 1%nat => p_length o | 2%nat => p_area o | _ => p_fractions o end.
Definition cdf_set (o : psd) (j : nat) : list R :=
  match j with O => p_number_cdf o | 1%nat => p_length_cdf o | 2%nat => p_area_cdf o | _ => p_volume_cdf o end.
(** moments of the amounts [fr], which count the [order]-th power of the size: sum of amount times size^(p - order) *)
Definition moment (ds fr : list R) (order p : R) : R := Rsum (fun i => nth i fr 0 * Rpower (nth i ds 0) (p - order)) (List.length fr).

(** ** helpers *)
Section pts.
Context (ds fr : list R) (order : R) (HP : at_sizes ds fr).
Let N := List.length fr.
Lemma d_pos i : (i < N)%nat -> 0 < nth i ds 0.
Proof. destruct HP as [(A & B & C) L]. intros H. rewrite List.Forall_forall in A. apply A. apply nth_In. rewrite L. exact H. Qed.
Lemma f_nonneg i : (i < N)%nat -> 0 <= nth i fr 0.
Proof. destruct HP as [(A & B & C) L]. intros H. rewrite List.Forall_forall in B. apply B. apply nth_In. exact H. Qed.
Lemma f_some : exists i, (i < N)%nat /\ 0 < nth i fr 0.
Proof. destruct HP as [(A & B & C) L]. apply List.Exists_exists in C. destruct C as (x & HI & Hx). apply (In_nth _ _ 0) in HI. destruct HI as (i & Li & E). exists i. subst. auto. Qed.
Lemma fr_ne : fr <> []. Proof. destruct f_some as (i & L & _). unfold N in L. intros ->. cbn in L. lia. Qed.
Lemma ds_ne : ds <> []. Proof. destruct HP as [_ L]. intros E. apply fr_ne. rewrite E in L. destruct fr; [auto|cbn in L; lia]. Qed.
Lemma sc_false : Nat.eqb (List.length ds) (S N) = false. Proof. destruct HP as [_ L]. apply Nat.eqb_neq. unfold N. lia. Qed.
Lemma di_pt i p : (i < N)%nat -> di_power false ds i p = Ok (Rpower (nth i ds 0) p).
Proof. intros H. unfold di_power. rewrite idx_ok by (destruct HP as [_ L]; rewrite L; exact H). cbn [bind]. apply ppow_ok. now apply d_pos. Qed.
Lemma pt_D i p : (i < N)%nat -> In p [1; 2; 3; 3 - order] -> di_power (Nat.eqb (List.length ds) (S N)) ds i p = Ok (Rpower (nth i ds 0) p) /\ 0 < Rpower (nth i ds 0) p.
Proof. intros H _. rewrite sc_false. split; [now apply di_pt|apply exp_pos]. Qed.
Definition pts_result : psd := result_psd ds fr order (fun i p => Rpower (nth i ds 0) p).
Lemma pts_init : psd_init ds fr false order = Ok pts_result.
Proof. apply psd_init_eval; [exact ds_ne|exact fr_ne|exact pt_D|exact f_nonneg|exact f_some]. Qed.
Lemma moment_pos p : 0 < moment ds fr order p.
Proof.
  apply Rsum_pos.
  - intros i L. apply Rmult_le_pos; [now apply f_nonneg|left; apply exp_pos].
  - destruct f_some as (i & L & P). exists i. split; auto. apply Rmult_lt_0_compat; [auto|apply exp_pos].
Qed.
Lemma weight_eq i : (i < N)%nat -> vol_weight fr order (fun i p => Rpower (nth i ds 0) p) i = nth i fr 0 * Rpower (nth i ds 0) (3 - order).
Proof.
  intros L. unfold vol_weight. destruct (Reqb order 3) eqn:E; [|reflexivity]. apply Reqb_true in E. subst. replace (3 - 3) with 0 by ring.
  rewrite Rpower_O by (now apply d_pos). reflexivity.
Qed.
Lemma weight_over i p : (i < N)%nat -> vol_weight fr order (fun i p => Rpower (nth i ds 0) p) i / Rpower (nth i ds 0) p = nth i fr 0 * Rpower (nth i ds 0) (3 - p - order).
Proof.
  intros L. rewrite weight_eq by auto. replace (3 - p - order) with ((3 - order) + - p) by ring. rewrite Rpower_plus, Rpower_Ropp. unfold Rdiv. ring.
Qed.
Lemma set_nth j i : (j <= 3)%nat -> (i < N)%nat -> nth i (fraction_set pts_result j) 0 = nth i fr 0 * Rpower (nth i ds 0) (INR j - order) / moment ds fr order (INR j).
Proof.
  intros Hj L. unfold pts_result, result_psd.
  assert (G : forall p, p = 3 - INR j -> share (fun i => vol_weight fr order (fun i p => Rpower (nth i ds 0) p) i / Rpower (nth i ds 0) p) N i
    = nth i fr 0 * Rpower (nth i ds 0) (INR j - order) / moment ds fr order (INR j)).
  { intros p ->. rewrite (share_ext _ (fun i => nth i fr 0 * Rpower (nth i ds 0) (INR j - order)) N); [reflexivity| |auto].
    intros k Lk. rewrite weight_over by auto. do 2 f_equal. ring. }
  destruct j as [|[|[|[|j]]]]; [| | | |lia]; cbn [fraction_set p_number p_length p_area p_fractions]; rewrite nth_map_seq by auto.
  - apply G. cbn; ring.
  - apply G. cbn; ring.
  - apply G. cbn; ring.
  - rewrite (share_ext _ (fun i => nth i fr 0 * Rpower (nth i ds 0) (INR 3 - order)) N); [reflexivity| |auto].
    intros k Lk. rewrite weight_eq by auto. do 2 f_equal. cbn; ring.
Qed.
Lemma set_len j : List.length (fraction_set pts_result j) = N.
Proof. destruct j as [|[|[|j]]]; cbn [fraction_set pts_result result_psd p_number p_length p_area p_fractions]; now rewrite map_length, seq_length. Qed.
Lemma moment_of_eval p : moment_of pts_result p = Ok (moment ds fr order p / moment ds fr order 0).
Proof.
  unfold moment_of. change (p_N pts_result) with N. change (p_ds pts_result) with ds. change (p_classes pts_result) with (Nat.eqb (List.length ds) (S N)). rewrite sc_false.
  rewrite (mapM_seq _ (fun i => Rpower (nth i ds 0) p * nth i (p_number pts_result) 0)).
  - cbn [bind]. f_equal. rewrite psum_lsum, lsum_seq. unfold moment at 1. fold N. unfold Rdiv. rewrite <- Rsum_scal_r. apply Rsum_ext. intros i L.
    pose proof (set_nth 0 i ltac:(lia) L) as E. cbn [fraction_set INR] in E. rewrite E. replace (p - order) with (p + (0 - order)) by ring. rewrite Rpower_plus. unfold Rdiv. ring.
  - intros i L. rewrite di_pt by auto. cbn [bind]. rewrite idx_ok; [reflexivity|]. pose proof (set_len 0) as E. cbn [fraction_set] in E. rewrite E. exact L.
Qed.
End pts.

(** the mean diameter D[p,q], and D[p,p] as the weighted geometric mean *)
Definition mean (ds fr : list R) (order p q : R) : R :=
  if Reqb p q then exp (Rsum (fun i => nth i fr 0 * Rpower (nth i ds 0) (p - order) * ln (nth i ds 0)) (List.length fr) / moment ds fr order p)
  else Rpower (moment ds fr order p / moment ds fr order q) (1 / (p - q)).

(** ** C87 *)
(** From amounts at given sizes, counted in any basis, every distribution gets its four fraction sets: the share of each size in the
    moment of that basis. *)
Theorem C87_conversion ds fr order : at_sizes ds fr -> exists o, psd_init ds fr false order = Ok o /\
  forall j, (j <= 3)%nat -> List.length (fraction_set o j) = List.length fr /\
    forall i, (i < List.length fr)%nat -> nth i (fraction_set o j) 0 = nth i fr 0 * Rpower (nth i ds 0) (INR j - order) / moment ds fr order (INR j).
Proof.
  intros HP. exists (pts_result ds fr order). split; [now apply pts_init|]. intros j Hj. split; [apply set_len|]. intros i L. now apply set_nth.
Qed.
Example C87_conversion_ex : at_sizes [1; 2; 3] [5; 0; 7].
Proof. unfold at_sizes, sample. splits; [repeat constructor; lra|repeat constructor; lra|constructor; lra|reflexivity]. Qed.

(** [mean_size] is the ratio of moments, and the weighted geometric mean when both indices agree. *)
Theorem C87_mean ds fr order p q o : at_sizes ds fr -> psd_init ds fr false order = Ok o -> mean_size o p q = Ok (mean ds fr order p q).
Proof.
  intros HP E. rewrite pts_init in E by auto. assert (Eo : o = pts_result ds fr order) by congruence. subst o. clear E.
  pose proof (moment_pos ds fr order HP) as MP. pose proof (MP 0) as M0. pose proof (MP p) as M1. pose proof (MP q) as M2.
  unfold mean_size, mean. rewrite !moment_of_eval by auto. destruct (Reqb p q) eqn:B; cbn [negb].
  - apply Reqb_true in B. subst q. set (N := List.length fr).
    change (p_N (pts_result ds fr order)) with N. change (p_ds (pts_result ds fr order)) with ds. change (p_classes (pts_result ds fr order)) with (Nat.eqb (List.length ds) (S N)).
    unfold N. rewrite (sc_false ds fr HP). fold N.
    rewrite (mapM_seq _ (fun i => ln (nth i ds 0) * Rpower (nth i ds 0) p * nth i (p_number (pts_result ds fr order)) 0)).
    2:{ intros i L. rewrite (di_pt ds fr HP i 1 L). cbn [bind]. rewrite Rpower_1 by (now apply (d_pos ds fr)). rewrite plog_ok by (now apply (d_pos ds fr)). cbn [bind].
        rewrite (di_pt ds fr HP i p L). cbn [bind]. rewrite idx_ok; [reflexivity|]. pose proof (set_len ds fr order 0) as E. cbn [fraction_set] in E. rewrite E. exact L. }
    cbn [bind]. rewrite pdiv_ok by (apply Rgt_not_eq, Rdiv_lt_0_compat; auto). cbn [bind]. do 2 f_equal. rewrite psum_lsum, lsum_seq.
    rewrite (Rsum_ext _ (fun i => nth i fr 0 * Rpower (nth i ds 0) (p - order) * ln (nth i ds 0) * / moment ds fr order 0)).
    2:{ intros i L. pose proof (set_nth ds fr order HP 0 i ltac:(lia) L) as E. cbn [fraction_set INR] in E. rewrite E. replace (p - order) with (p + (0 - order)) by ring.
        rewrite Rpower_plus. unfold Rdiv. ring. }
    rewrite Rsum_scal_r. field. lra.
  - apply Reqb_false in B. cbn [bind]. rewrite pdiv_ok by (apply Rgt_not_eq, Rdiv_lt_0_compat; auto). cbn [bind]. rewrite pdiv_ok by lra. cbn [bind].
    rewrite ppow_ok by (apply Rdiv_lt_0_compat; apply Rdiv_lt_0_compat; auto). do 2 f_equal. field. lra.
Qed.

(** *** the means are ordered *)
(** the integral of e^(s u) from 0 to z *)
Definition hfun (s z : R) : R := if Reqb s 0 then z else (exp (s * z) - 1) / s.
Lemma hfun_derive s z : is_derive (hfun s) z (exp (s * z)).
Proof.
  unfold hfun. destruct (Reqb s 0) eqn:E.
  - apply Reqb_true in E. subst. rewrite Rmult_0_l, exp_0. auto_derive; auto.
  - apply Reqb_false in E. auto_derive; [auto|]. field. auto.
Qed.
Lemma hfun_lt s a b : a < b -> hfun s a < hfun s b.
Proof.
  intros H. destruct (MVT_gen (hfun s) a b (fun z => exp (s * z))) as (c & _ & E).
  - intros. apply hfun_derive.
  - intros x _. apply continuity_pt_filterlim. apply (@ex_derive_continuous R_AbsRing R_NormedModule). eexists. apply hfun_derive.
  - assert (0 < exp (s * c) * (b - a)) by (apply Rmult_lt_0_compat; [apply exp_pos|lra]). lra.
Qed.
Lemma hfun_mono s t z : t <= s -> hfun t z <= hfun s z.
Proof.
  intros H. destruct (MVT_gen (fun z => hfun s z - hfun t z) 0 z (fun z => exp (s * z) - exp (t * z))) as (c & B & E).
  - intros x _. apply (is_derive_minus (hfun s) (hfun t)); apply hfun_derive.
  - intros x _. apply continuity_pt_filterlim. apply (@ex_derive_continuous R_AbsRing R_NormedModule (fun z => hfun s z - hfun t z)). eexists. apply (is_derive_minus (hfun s) (hfun t)); apply hfun_derive.
  - assert (Z : forall r, hfun r 0 = 0). { intros r. unfold hfun. destruct (Reqb r 0) eqn:Q; [reflexivity|]. apply Reqb_false in Q. rewrite Rmult_0_r, exp_0. field. auto. }
    rewrite !Z in E. assert (EX : forall a b, a <= b -> exp a <= exp b). { intros a b [L| ->]; [left; now apply exp_increasing|lra]. }
    destruct (Rle_dec 0 z).
    + rewrite Rmin_left, Rmax_right in B by auto. assert (exp (t * c) <= exp (s * c)) by (apply EX; apply Rmult_le_compat_r; lra). nra.
    + rewrite Rmin_right, Rmax_left in B by lra. assert (exp (s * c) <= exp (t * c)) by (apply EX; nra). nra.
Qed.
Lemma hfun_zero s : hfun s 0 = 0.
Proof. unfold hfun. destruct (Reqb s 0) eqn:Q; [reflexivity|]. apply Reqb_false in Q. rewrite Rmult_0_r, exp_0. field. auto. Qed.
Lemma hfun_0 s z : z < 0 -> hfun s z < 0.
Proof. intros H. apply (hfun_lt s) in H. rewrite hfun_zero in H. exact H. Qed.
Lemma hfun_pos s z : 0 < z -> 0 < hfun s z.
Proof. intros H. apply (hfun_lt s) in H. rewrite hfun_zero in H. exact H. Qed.

Section order.
Context (ds fr : list R) (order : R) (HP : at_sizes ds fr).
Let N := List.length fr.
Let v (q : R) (i : nat) := nth i fr 0 * Rpower (nth i ds 0) (q - order).
Lemma v_nonneg q i : (i < N)%nat -> 0 <= v q i.
Proof. intros L. apply Rmult_le_pos; [now apply (f_nonneg ds fr)|left; apply exp_pos]. Qed.
Lemma v_some q : exists i, (i < N)%nat /\ 0 < v q i.
Proof. destruct (f_some ds fr HP) as (i & L & P). exists i. split; auto. apply Rmult_lt_0_compat; [auto|apply exp_pos]. Qed.
(** the mean balances the deviations of the logarithms *)
Lemma mean_balance p q : Rsum (fun i => v q i * hfun (p - q) (ln (nth i ds 0) - ln (mean ds fr order p q))) N = 0.
Proof.
  pose proof (moment_pos ds fr order HP p) as M1. pose proof (moment_pos ds fr order HP q) as M2. unfold mean, hfun.
  destruct (Reqb p q) eqn:E.
  - apply Reqb_true in E. subst. rewrite (proj2 (Reqb_true (q - q) 0)) by ring. rewrite ln_exp. set (m := _ / _).
    rewrite (Rsum_ext _ (fun i => v q i * ln (nth i ds 0) - v q i * m)) by (intros; ring). rewrite Rsum_minus, Rsum_scal_r. unfold m, moment, v. fold N.
    field. unfold moment in M2. fold N in M2. lra.
  - apply Reqb_false in E. rewrite (proj2 (Reqb_false (p - q) 0)) by lra. set (L := ln (Rpower _ _)).
    assert (EL : exp (- (p - q) * L) = moment ds fr order q / moment ds fr order p).
    { unfold L, Rpower. rewrite ln_exp. replace (- (p - q) * (1 / (p - q) * ln (moment ds fr order p / moment ds fr order q))) with (- ln (moment ds fr order p / moment ds fr order q)) by (field; lra).
      rewrite exp_Ropp, exp_ln by (apply Rdiv_lt_0_compat; auto). field. lra. }
    rewrite (Rsum_ext _ (fun i => (v p i * (moment ds fr order q / moment ds fr order p) - v q i) * / (p - q))).
    + rewrite Rsum_scal_r, Rsum_minus, Rsum_scal_r. change (Rsum (v p) N) with (moment ds fr order p). change (Rsum (v q) N) with (moment ds fr order q). field. lra.
    + intros i Li. rewrite <- EL. replace ((p - q) * (ln (nth i ds 0) - L)) with ((p - q) * ln (nth i ds 0) + - (p - q) * L) by ring. rewrite exp_plus.
      unfold v. replace (p - order) with ((q - order) + (p - q)) by ring. rewrite Rpower_plus. unfold Rpower at 3. field. lra.
Qed.
Lemma mean_positive p q : 0 < mean ds fr order p q.
Proof. unfold mean. destruct (Reqb p q); apply exp_pos. Qed.
Lemma sum_neg (f : nat -> R) q : (forall i, (i < N)%nat -> f i < 0) -> Rsum (fun i => v q i * f i) N < 0.
Proof.
  intros H. assert (0 < Rsum (fun i => v q i * - f i) N).
  { apply Rsum_pos; [intros i L; apply Rmult_le_pos; [now apply v_nonneg|specialize (H i L); lra]|].
    destruct (v_some q) as (i & L & P). exists i. split; auto. apply Rmult_lt_0_compat; [auto|specialize (H i L); lra]. }
  rewrite (Rsum_ext _ (fun i => - (v q i * f i))) in H0 by (intros; ring). rewrite Rsum_opp in H0. lra.
Qed.
Lemma mean_upper p q B : (forall i, (i < N)%nat -> nth i ds 0 <= B) -> mean ds fr order p q <= B.
Proof.
  intros H. apply Rnot_lt_le. intros K. pose proof (mean_balance p q) as E. pose proof (sum_neg (fun i => hfun (p - q) (ln (nth i ds 0) - ln (mean ds fr order p q))) q) as S.
  cbv beta in S. rewrite E in S. apply (Rlt_irrefl 0), S. intros i L. apply hfun_0. assert (ln (nth i ds 0) < ln (mean ds fr order p q)); [|lra].
  apply ln_increasing; [now apply (d_pos ds fr)|]. specialize (H i L). lra.
Qed.
Lemma mean_lower p q B : 0 < B -> (forall i, (i < N)%nat -> B <= nth i ds 0) -> B <= mean ds fr order p q.
Proof.
  intros HB H. apply Rnot_lt_le. intros K. pose proof (mean_balance p q) as E. pose proof (sum_neg (fun i => - hfun (p - q) (ln (nth i ds 0) - ln (mean ds fr order p q))) q) as S.
  cbv beta in S. rewrite (Rsum_ext _ (fun i => - (v q i * hfun (p - q) (ln (nth i ds 0) - ln (mean ds fr order p q))))) in S by (intros; ring). rewrite Rsum_opp, E in S. apply (Rlt_irrefl 0).
  rewrite <- Ropp_0 at 1. apply S. intros i L. apply Ropp_lt_gt_0_contravar, hfun_pos. assert (ln (mean ds fr order p q) < ln (nth i ds 0)); [|lra].
  apply ln_increasing; [apply mean_positive|]. specialize (H i L). lra.
Qed.
Lemma mean_rises p p' q : p <= p' -> mean ds fr order p q <= mean ds fr order p' q.
Proof.
  intros H. apply Rnot_lt_le. intros K. pose proof (mean_balance p q) as E. pose proof (mean_balance p' q) as E'.
  assert (LT : ln (mean ds fr order p' q) < ln (mean ds fr order p q)) by (apply ln_increasing; [apply mean_positive|auto]).
  assert (S : Rsum (fun i => v q i * (hfun (p' - q) (ln (nth i ds 0) - ln (mean ds fr order p q)) - hfun (p' - q) (ln (nth i ds 0) - ln (mean ds fr order p' q)))) N < 0).
  { apply sum_neg. intros i L. assert (hfun (p' - q) (ln (nth i ds 0) - ln (mean ds fr order p q)) < hfun (p' - q) (ln (nth i ds 0) - ln (mean ds fr order p' q))); [apply hfun_lt; lra|lra]. }
  rewrite (Rsum_ext _ (fun i => v q i * hfun (p' - q) (ln (nth i ds 0) - ln (mean ds fr order p q)) - v q i * hfun (p' - q) (ln (nth i ds 0) - ln (mean ds fr order p' q)))) in S by (intros; ring).
  rewrite Rsum_minus, E' in S.
  assert (G : Rsum (fun i => v q i * hfun (p - q) (ln (nth i ds 0) - ln (mean ds fr order p q))) N <= Rsum (fun i => v q i * hfun (p' - q) (ln (nth i ds 0) - ln (mean ds fr order p q))) N).
  { apply Rsum_le. intros i L. apply Rmult_le_compat_l; [now apply v_nonneg|]. apply hfun_mono. lra. }
  rewrite E in G. lra.
Qed.
End order.

(** Every mean diameter lies between the smallest and the largest size, does not depend on the order of its two indices, and does not
    fall when an index is raised (whether or not the indices agree). *)
Theorem C87_mean_bounds ds fr order p q o lo hi : at_sizes ds fr -> psd_init ds fr false order = Ok o ->
  0 < lo -> (forall d, In d ds -> lo <= d <= hi) -> exists m, mean_size o p q = Ok m /\ lo <= m <= hi.
Proof.
  intros HP E Hlo H. eexists. split; [now apply (C87_mean ds fr order)|]. assert (K : forall i, (i < List.length fr)%nat -> lo <= nth i ds 0 <= hi).
  { intros i L. apply H, nth_In. rewrite (proj2 HP). exact L. }
  split; [apply mean_lower; auto; intros; now apply K|apply mean_upper; auto; intros; now apply K].
Qed.
Lemma mean_sym ds fr order p q : at_sizes ds fr -> mean ds fr order p q = mean ds fr order q p.
Proof.
  intros HP. unfold mean. destruct (Reqb p q) eqn:E.
  - apply Reqb_true in E. subst. rewrite (proj2 (Reqb_true q q)) by reflexivity. reflexivity.
  - apply Reqb_false in E. rewrite (proj2 (Reqb_false q p)) by auto. pose proof (moment_pos ds fr order HP p). pose proof (moment_pos ds fr order HP q).
    unfold Rpower. rewrite !ln_div by auto. f_equal. field. lra.
Qed.
Theorem C87_mean_symmetric ds fr order p q o : at_sizes ds fr -> psd_init ds fr false order = Ok o -> mean_size o p q = mean_size o q p.
Proof. intros HP E. rewrite !(C87_mean ds fr order) by auto. f_equal. now apply mean_sym. Qed.
Theorem C87_mean_rises ds fr order p p' q q' o : at_sizes ds fr -> psd_init ds fr false order = Ok o -> p <= p' -> q <= q' ->
  exists m m', mean_size o p q = Ok m /\ mean_size o p' q' = Ok m' /\ m <= m'.
Proof.
  intros HP E Hp Hq. eexists _, _. splits; [now apply (C87_mean ds fr order)|now apply (C87_mean ds fr order)|].
  apply Rle_trans with (mean ds fr order p' q); [now apply mean_rises|]. rewrite (mean_sym ds fr order p' q), (mean_sym ds fr order p' q') by auto. now apply mean_rises.
Qed.
(** Sauter mean below volume mean, for instance. *)
Example C87_mean_rises_ex : 3 <= 4 /\ 2 <= 3 /\ (forall d, In d [1; 2; 3] -> 1 <= d <= 3). Proof. splits; try lra; cbn [In] in *; intuition lra. Qed.

(** Sizes in another unit of length give the mean in that unit; the amounts may be given in any unit. *)
Theorem C87_units ds fr order p q o o' c k : at_sizes ds fr -> 0 < c -> 0 < k -> psd_init ds fr false order = Ok o ->
  psd_init (map (Rmult c) ds) (map (Rmult k) fr) false order = Ok o' ->
  (exists m, mean_size o p q = Ok m /\ mean_size o' p q = Ok (c * m)) /\ (forall j, (j <= 3)%nat -> fraction_set o' j = fraction_set o j).
Proof.
  intros HP Hc Hk E E'. assert (HL : List.length (map (Rmult k) fr) = List.length fr) by apply map_length.
  assert (HP' : at_sizes (map (Rmult c) ds) (map (Rmult k) fr)).
  { destruct HP as [(A & B & C) L]. split; [unfold sample; splits|rewrite !map_length; auto].
    - apply List.Forall_map. eapply List.Forall_impl; [|exact A]. intros a Ha. cbn. apply Rmult_lt_0_compat; auto.
    - apply List.Forall_map. eapply List.Forall_impl; [|exact B]. intros a Ha. cbn. apply Rmult_le_pos; lra.
    - apply List.Exists_exists in C. destruct C as (x & HI & Hx). apply List.Exists_exists. exists (k * x). split; [now apply in_map|apply Rmult_lt_0_compat; auto]. }
  assert (NF : forall i, nth i (map (Rmult k) fr) 0 = k * nth i fr 0). { intros i. rewrite <- (Rmult_0_r k) at 1. apply map_nth. }
  assert (ND : forall i, nth i (map (Rmult c) ds) 0 = c * nth i ds 0). { intros i. rewrite <- (Rmult_0_r c) at 1. apply map_nth. }
  assert (MM : forall r, moment (map (Rmult c) ds) (map (Rmult k) fr) order r = k * Rpower c (r - order) * moment ds fr order r).
  { intros r. unfold moment. rewrite HL, <- Rsum_scal. apply Rsum_ext. intros i L. rewrite NF, ND. rewrite <- Rpower_mult_distr; [|auto|now apply (d_pos ds fr)]. ring. }
  pose proof (moment_pos ds fr order HP) as MP. split.
  - eexists. split; [now apply (C87_mean ds fr order)|]. rewrite (C87_mean (map (Rmult c) ds) (map (Rmult k) fr) order) by auto. f_equal. unfold mean. rewrite !MM, HL.
    destruct (Reqb p q) eqn:B.
    + apply Reqb_true in B. subst q.
      rewrite (Rsum_ext _ (fun i => k * Rpower c (p - order) * (nth i fr 0 * Rpower (nth i ds 0) (p - order) * ln (nth i ds 0)) + k * Rpower c (p - order) * ln c * (nth i fr 0 * Rpower (nth i ds 0) (p - order)))).
      2:{ intros i L. pose proof (d_pos ds fr HP i L). rewrite NF, ND, ln_mult, <- Rpower_mult_distr by auto. ring. }
      rewrite Rsum_plus, !Rsum_scal. fold (moment ds fr order p). match goal with |- _ = c * exp ?x => transitivity (exp (ln c + x)); [|rewrite exp_plus, exp_ln by auto; reflexivity] end. f_equal.
      pose proof (MP p). assert (0 < Rpower c (p - order)) by apply exp_pos. field. splits; lra.
    + apply Reqb_false in B. pose proof (MP p). pose proof (MP q). assert (0 < Rpower c (p - order)) by apply exp_pos. assert (0 < Rpower c (q - order)) by apply exp_pos.
      replace (k * Rpower c (p - order) * moment ds fr order p / (k * Rpower c (q - order) * moment ds fr order q)) with (Rpower c (p - q) * (moment ds fr order p / moment ds fr order q)).
      2:{ replace (p - q) with ((p - order) + - (q - order)) by ring. rewrite Rpower_plus, Rpower_Ropp. field. splits; lra. }
      rewrite <- Rpower_mult_distr by (first [apply exp_pos | apply Rdiv_lt_0_compat; auto]). f_equal. rewrite Rpower_mult. replace ((p - q) * (1 / (p - q))) with 1 by (field; lra). now apply Rpower_1.
  - intros j Hj. rewrite pts_init in E, E' by auto. assert (EO : o = pts_result ds fr order) by congruence. assert (EO' : o' = pts_result (map (Rmult c) ds) (map (Rmult k) fr) order) by congruence. subst o o'. clear E E'.
    apply (nth_ext _ _ 0 0); [now rewrite !set_len|]. intros i L. rewrite set_len, HL in L. rewrite !set_nth by (auto; rewrite HL; auto). rewrite MM, NF, ND.
    pose proof (d_pos ds fr HP i L). rewrite <- Rpower_mult_distr by auto. pose proof (MP (INR j)). assert (0 < Rpower c (INR j - order)) by apply exp_pos. field. splits; lra.
Qed.
Example C87_units_ex : at_sizes [1; 2; 3] [5; 0; 7] /\ 0 < 1000 /\ 0 < 1 / 12. Proof. split; [exact C87_conversion_ex|lra]. Qed.

(** The specific surface is six over the Sauter mean D[3,2]. *)
Theorem C87_surface ds fr order o : at_sizes ds fr -> psd_init ds fr false order = Ok o ->
  exists m, mean_size o 3 2 = Ok m /\ vssa o = Ok (6 / m).
Proof.
  intros HP E. eexists. split; [now apply (C87_mean ds fr order)|]. rewrite pts_init in E by auto. assert (EO : o = pts_result ds fr order) by congruence. subst o. clear E.
  set (N := List.length fr). unfold vssa, Dis. change (p_N (pts_result ds fr order)) with N. change (p_ds (pts_result ds fr order)) with ds. change (p_classes (pts_result ds fr order)) with (Nat.eqb (List.length ds) (S N)).
  unfold N. rewrite (sc_false ds fr HP). fold N. rewrite (mapM_seq _ (fun i => nth i ds 0)).
  2:{ intros i L. rewrite (di_pt ds fr HP i 1 L). rewrite Rpower_1 by (now apply (d_pos ds fr)). reflexivity. }
  cbn [bind]. assert (P : forall x, In x (map (fun i => nth i ds 0) (seq 0 N)) -> 0 < x).
  { intros x HI. apply in_map_iff in HI. destruct HI as (i & <- & HI). apply in_seq in HI. apply (d_pos ds fr); auto. unfold N in HI. lia. }
  rewrite (mapM_ok _ (fun d => PI / 6 * Rpower d 3)). 2:{ intros x HI. rewrite ppow_ok by (now apply P). reflexivity. }
  cbn [bind]. rewrite (mapM_ok _ (fun d => PI * Rpower d 2)). 2:{ intros x HI. rewrite ppow_ok by (now apply P). reflexivity. }
  cbn [bind]. rewrite !map_map, combine_map. pose proof PI_RGT_0 as HPI.
  rewrite (mapM_ok _ (fun sv : R * R => fst sv / snd sv)).
  2:{ intros x HI. apply in_map_iff in HI. destruct HI as (i & <- & HI). cbn [fst snd]. apply pdiv_ok. apply Rgt_not_eq. apply Rmult_lt_0_compat; [lra|apply exp_pos]. }
  cbn [bind]. rewrite map_map. cbn [fst snd]. rewrite (as_map (p_fractions (pts_result ds fr order))). pose proof (set_len ds fr order 3) as SL. cbn [fraction_set] in SL. rewrite SL. fold N. rewrite combine_map, map_map. cbn [fst snd].
  rewrite psum_lsum, lsum_seq. f_equal. unfold mean. rewrite (proj2 (Reqb_false 3 2)) by lra. pose proof (moment_pos ds fr order HP 3) as M3. pose proof (moment_pos ds fr order HP 2) as M2.
  replace (1 / (3 - 2)) with 1 by field. rewrite Rpower_1 by (apply Rdiv_lt_0_compat; auto). replace (6 / (moment ds fr order 3 / moment ds fr order 2)) with (moment ds fr order 2 * (6 / moment ds fr order 3)) by (field; lra).
  unfold moment at 1. fold N. rewrite <- Rsum_scal_r. apply Rsum_ext. intros i L. pose proof (set_nth ds fr order HP 3 i ltac:(lia) L) as EN. cbn [fraction_set] in EN. rewrite EN.
  replace (INR 3) with 3 by (cbn; ring). pose proof (d_pos ds fr HP i L) as DP. set (d := nth i ds 0) in *.
  assert (E3 : Rpower d (3 - order) = Rpower d (2 - order) * d) by (replace (3 - order) with ((2 - order) + 1) by ring; rewrite Rpower_plus, (Rpower_1 d) by auto; reflexivity).
  assert (E4 : Rpower d 3 = Rpower d 2 * d) by (replace 3 with (2 + 1) by ring; rewrite Rpower_plus, (Rpower_1 d) by auto; reflexivity).
  rewrite E3, E4. assert (0 < Rpower d 2) by apply exp_pos. field. splits; lra.
Qed.

(** *** amounts between consecutive sizes *)
(** the mean of x^p over the class from l to u *)
Definition class_avg (l u p : R) : R := (Rpower u (p + 1) - Rpower l (p + 1)) / ((u - l) * (p + 1)).
Lemma class_avg_mid l u p : 0 < l -> l < u -> p <> -1 -> exists c, l < c < u /\ class_avg l u p = Rpower c p.
Proof.
  intros Hl Hu Hp. destruct (MVT_cor2 (fun x => Rpower x (p + 1)) (fun x => (p + 1) * Rpower x (p + 1 - 1)) l u Hu) as (c & E & B).
  - intros c B. apply derivable_pt_lim_power. lra.
  - exists c. split; [lra|]. unfold class_avg. rewrite E. replace (p + 1 - 1) with p by ring. field. lra.
Qed.
Section classes.
Context (ds fr : list R) (order : R) (HP : between_sizes ds fr) (HO : order <> 4).
Let N := List.length fr.
Lemma inc_nth l i : increasing l -> (S i < List.length l)%nat -> nth i l 0 < nth (S i) l 0.
Proof.
  revert i. induction l as [|a l IH]; intros i H L; [cbn in L; lia|]. destruct l as [|b l]; [cbn in L; lia|]. destruct H as [H1 H2].
  destruct i as [|i]; [exact H1|]. cbn [nth]. apply (IH i); auto. cbn [List.length] in L |- *. lia.
Qed.
Lemma cd_pos i : (i <= N)%nat -> 0 < nth i ds 0.
Proof. destruct HP as [(A & B & C) [L _]]. intros H. rewrite List.Forall_forall in A. apply A. apply nth_In. rewrite L. unfold N in H. lia. Qed.
Lemma cd_lt i : (i < N)%nat -> nth i ds 0 < nth (S i) ds 0.
Proof. destruct HP as [_ [L I]]. intros H. apply inc_nth; auto. rewrite L. unfold N in H. lia. Qed.
Lemma cf_nonneg i : (i < N)%nat -> 0 <= nth i fr 0.
Proof. destruct HP as [(A & B & C) L]. intros H. rewrite List.Forall_forall in B. apply B. apply nth_In. exact H. Qed.
Lemma cf_some : exists i, (i < N)%nat /\ 0 < nth i fr 0.
Proof. destruct HP as [(A & B & C) L]. apply List.Exists_exists in C. destruct C as (x & HI & Hx). apply (In_nth _ _ 0) in HI. destruct HI as (i & Li & E). exists i. subst. auto. Qed.
Lemma cfr_ne : fr <> []. Proof. destruct cf_some as (i & L & _). unfold N in L. intros ->. cbn in L. lia. Qed.
Lemma cds_ne : ds <> []. Proof. destruct HP as [_ [L _]]. intros E. rewrite E in L. cbn in L. lia. Qed.
Lemma sc_true : Nat.eqb (List.length ds) (S N) = true. Proof. destruct HP as [_ [L _]]. apply Nat.eqb_eq. exact L. Qed.
Definition cD (i : nat) (p : R) : R := class_avg (nth i ds 0) (nth (S i) ds 0) p.
Lemma di_cl i p : (i < N)%nat -> p <> -1 -> di_power true ds i p = Ok (cD i p).
Proof.
  intros H Hp. assert (LD : List.length ds = S N) by (apply Nat.eqb_eq, sc_true). unfold di_power. rewrite !idx_ok by (rewrite LD; lia). cbn [bind].
  rewrite !ppow_ok by (apply cd_pos; lia). cbn [bind]. rewrite pdiv_ok; [reflexivity|]. pose proof (cd_lt i H). apply Rmult_integral_contrapositive_currified; lra.
Qed.
Lemma cD_pos i p : (i < N)%nat -> p <> -1 -> 0 < cD i p.
Proof.
  intros H Hp. destruct (class_avg_mid (nth i ds 0) (nth (S i) ds 0) p) as (c & B & E); [apply cd_pos; lia|now apply cd_lt|auto|].
  unfold cD. rewrite E. apply exp_pos.
Qed.
Lemma cl_D i p : (i < N)%nat -> In p [1; 2; 3; 3 - order] -> di_power (Nat.eqb (List.length ds) (S N)) ds i p = Ok (cD i p) /\ 0 < cD i p.
Proof.
  intros H HI. assert (p <> -1) by (cbn [In] in HI; intuition lra). rewrite sc_true. split; [now apply di_cl|now apply cD_pos].
Qed.
Definition cl_result : psd := result_psd ds fr order cD.
Lemma cl_init : psd_init ds fr false order = Ok cl_result.
Proof. apply psd_init_eval; [exact cds_ne|exact cfr_ne|exact cl_D|exact cf_nonneg|exact cf_some]. Qed.
(** weights of class [i] in the set of basis [j] *)
Definition cl_weight (j : nat) (i : nat) : R := vol_weight fr order cD i / (if Nat.eqb j 3 then 1 else cD i (3 - INR j)).
Lemma cl_weight_nonneg j i : (j <= 3)%nat -> (i < N)%nat -> 0 <= cl_weight j i.
Proof.
  intros Hj L. unfold cl_weight. apply Rdiv_le_0_compat.
  - unfold vol_weight. apply Rmult_le_pos; [now apply cf_nonneg|]. destruct (Reqb order 3); [lra|]. left. apply cD_pos; [auto|lra].
  - destruct (Nat.eqb_spec j 3); [lra|]. apply cD_pos; auto. pose proof (le_INR j 3 Hj). cbn in H. lra.
Qed.
Lemma cl_weight_some j : (j <= 3)%nat -> exists i, (i < N)%nat /\ 0 < cl_weight j i.
Proof.
  intros Hj. destruct cf_some as (i & L & P). exists i. split; auto. unfold cl_weight. apply Rdiv_lt_0_compat.
  - unfold vol_weight. apply Rmult_lt_0_compat; auto. destruct (Reqb order 3); [lra|]. apply cD_pos; [auto|lra].
  - destruct (Nat.eqb_spec j 3); [lra|]. apply cD_pos; auto. pose proof (le_INR j 3 Hj). cbn in H. lra.
Qed.
Lemma cl_set j : (j <= 3)%nat -> fraction_set cl_result j = map (share (cl_weight j) N) (seq 0 N).
Proof.
  intros Hj. destruct j as [|[|[|[|j]]]]; [| | | |lia]; cbn [fraction_set cl_result result_psd p_number p_length p_area p_fractions]; apply map_seq_ext; intros i L; apply share_ext; auto;
    intros k Lk; unfold cl_weight; cbn [Nat.eqb].
  - replace (3 - INR 0) with 3 by (cbn; ring). reflexivity.
  - replace (3 - INR 1) with 2 by (cbn; ring). reflexivity.
  - replace (3 - INR 2) with 1 by (cbn; ring). reflexivity.
  - unfold Rdiv. rewrite Rinv_1, Rmult_1_r. reflexivity.
Qed.
End classes.

(** Amounts between consecutive sizes: every set of fractions is non-negative and sums to one, and the set of the basis the amounts
    were counted in is just the amounts, normalised. *)
Theorem C87_classes ds fr order : between_sizes ds fr -> order <> 4 -> exists o, psd_init ds fr false order = Ok o /\
  forall j, (j <= 3)%nat -> List.length (fraction_set o j) = List.length fr /\ (forall f, In f (fraction_set o j) -> 0 <= f) /\ lsum (fraction_set o j) = 1 /\
    (order = INR j -> fraction_set o j = map (fun f => f / lsum fr) fr).
Proof.
  intros HP HO. exists (cl_result ds fr order). split; [now apply cl_init|]. intros j Hj. rewrite cl_set by auto.
  assert (T : 0 < Rsum (cl_weight ds fr order j) (List.length fr)).
  { apply Rsum_pos; [intros; now apply cl_weight_nonneg|now apply cl_weight_some]. }
  splits.
  - now rewrite map_length, seq_length.
  - intros f HI. apply in_map_iff in HI. destruct HI as (i & <- & HI). apply in_seq in HI. apply Rdiv_le_0_compat; [apply cl_weight_nonneg; auto; lia|exact T].
  - rewrite lsum_seq. apply share_sum. lra.
  - intros ->. assert (Q : map (fun f => f / lsum fr) fr = map (share (fun i => nth i fr 0) (List.length fr)) (seq 0 (List.length fr))).
    { unfold share. rewrite <- lsum_seq, <- as_map. generalize (lsum fr). intros t. rewrite (as_map fr) at 1. now rewrite map_map. }
    rewrite Q. apply map_seq_ext. intros i L. apply share_ext; auto. intros k Lk. unfold cl_weight, vol_weight.
    destruct (Nat.eqb_spec j 3) as [->|NE].
    + rewrite (proj2 (Reqb_true (INR 3) 3)) by (cbn; ring). field.
    + assert (INR j <> 3). { intros K. apply NE. apply INR_eq. rewrite K. cbn. ring. } rewrite (proj2 (Reqb_false (INR j) 3)) by auto.
      field. apply Rgt_not_eq. apply cD_pos with (fr := fr); auto. pose proof (le_INR j 3 Hj) as K. cbn in K. lra.
Qed.
Example C87_classes_ex : between_sizes [1; 2; 4] [3; 5] /\ 0 <> 4.
Proof. split; [|lra]. unfold between_sizes, sample. splits; cbn [increasing]; try lra; try reflexivity; [repeat constructor; lra|repeat constructor; lra|constructor; lra]. Qed.

(** Likewise for amounts at given sizes. *)
Theorem C87_sums ds fr order o : at_sizes ds fr -> psd_init ds fr false order = Ok o ->
  forall j, (j <= 3)%nat -> (forall f, In f (fraction_set o j) -> 0 <= f) /\ lsum (fraction_set o j) = 1 /\
    (order = INR j -> fraction_set o j = map (fun f => f / lsum fr) fr).
Proof.
  intros HP E j Hj. destruct (C87_conversion ds fr order HP) as (o' & E' & K). assert (o' = o) by congruence. subst o'. clear E'. destruct (K j Hj) as [L V]. clear K.
  pose proof (moment_pos ds fr order HP (INR j)) as MP. splits.
  - intros f HI. apply (In_nth _ _ 0) in HI. destruct HI as (i & Li & <-). rewrite L in Li. rewrite V by auto. apply Rdiv_le_0_compat; [|auto].
    apply Rmult_le_pos; [now apply (f_nonneg ds fr)|left; apply exp_pos].
  - rewrite (as_map (fraction_set o j)), lsum_seq, L. rewrite (Rsum_ext _ _ _ V). unfold Rdiv. rewrite Rsum_scal_r. fold (moment ds fr order (INR j)). now apply Rinv_r, Rgt_not_eq.
  - intros ->. apply (nth_ext _ _ 0 0); [now rewrite map_length|]. intros i Li. rewrite L in Li. rewrite V by auto.
    rewrite (nth_indep (map _ _) 0 (0 / lsum fr)) by (rewrite map_length; auto). rewrite (map_nth (fun f => f / lsum fr)).
    rewrite Rminus_diag_eq by reflexivity. rewrite Rpower_O by (now apply (d_pos ds fr)). rewrite Rmult_1_r. f_equal.
    unfold moment. rewrite (as_map fr) at 2. rewrite lsum_seq. apply Rsum_ext. intros k Lk. rewrite Rminus_diag_eq by reflexivity.
    rewrite Rpower_O by (now apply (d_pos ds fr)). ring.
Qed.

(** The class fractions may be given as a cumulative curve instead: the same object results. *)
Lemma psum_cumsum_first l : l <> [] -> forall r, cumsum l = Ok r -> exists f0, idx r 0 = Ok f0 /\ f0 :: diff1 r = l.
Proof.
  intros Hl r E. pose proof (diff_cumsum l r E) as D. destruct l as [|b t]; [congruence|]. cbn [cumsum] in E. injection E as <-. exists b. split; [reflexivity|].
  f_equal. change (Ok (diff1 (b :: cumsum_acc b t)) = Ok t) in D. now apply (f_equal (fun r => match r with Ok x => x | Err _ => [] end)) in D.
Qed.
Theorem C87_cumulative ds fr order r : between_sizes ds fr -> lsum fr = 1 -> cumsum fr = Ok r -> psd_init ds r true order = psd_init ds fr false order.
Proof.
  intros HP HS E. pose proof (cfr_ne ds fr HP) as NE. destruct (cumsum_spec fr NE) as (r' & E' & L & _). assert (r' = r) by congruence. subst r'. clear E'.
  destruct (psum_cumsum_first fr NE r E) as (f0 & F & D). unfold psd_init at 1. rewrite L, (sc_true ds fr HP). rewrite F. cbn [bind]. rewrite D.
  unfold psd_init. rewrite (sc_true ds fr HP). rewrite psum_lsum, HS. rewrite (proj2 (Reqb_true 1 1)) by reflexivity. reflexivity.
Qed.
Example C87_cumulative_ex : lsum [1 / 4; 3 / 4] = 1 /\ cumsum [1 / 4; 3 / 4] = Ok [1 / 4; 1 / 4 + 3 / 4]. Proof. split; [cbn; lra|reflexivity]. Qed.
(** With amounts at given sizes a cumulative curve is not understood that way: its first value is dropped, so the fractions need not sum
    to one. *)
Theorem C87_cumulative_points_refuted : exists ds fr r o, at_sizes ds fr /\ lsum fr = 1 /\ cumsum fr = Ok r /\ psd_init ds r true 3 = Ok o /\ lsum (p_fractions o) = 1 / 2.
Proof.
  exists [1; 2], [1 / 2; 1 / 2], [1 / 2; 1 / 2 + 1 / 2]. eexists. splits.
  - unfold at_sizes, sample. splits; [repeat constructor; lra|repeat constructor; lra|constructor; lra|reflexivity].
  - cbn; lra.
  - reflexivity.
  - unfold psd_init. cbn [List.length Nat.eqb bind diff1]. rewrite (proj2 (Reqb_true 3 3)) by reflexivity. cbn [negb bind].
    assert (PP : forall p, per_power false [1; 2] 2 [0; 1 / 2 + 1 / 2 - 1 / 2] p = Ok [0; 1]).
    { intros p. unfold per_power. cbn [seq mapM]. unfold di_power. cbn [idx nth_error bind]. rewrite !ppow_ok by lra. cbn [bind combine mapM fst snd].
      assert (0 < Rpower 1 p) by apply exp_pos. assert (0 < Rpower 2 p) by apply exp_pos. rewrite !pdiv_ok by lra. cbn [bind mapM]. unfold psum. cbn [fold_left].
      rewrite !pdiv_ok.
      - cbn [bind]. do 2 f_equal; [|f_equal]; field; lra.
      - apply Rgt_not_eq. replace (0 + 0 / Rpower 1 p + (1 / 2 + 1 / 2 - 1 / 2) / Rpower 2 p) with (/ (2 * Rpower 2 p)) by (field; lra). apply Rinv_0_lt_compat. lra.
      - apply Rgt_not_eq. replace (0 + 0 / Rpower 1 p + (1 / 2 + 1 / 2 - 1 / 2) / Rpower 2 p) with (/ (2 * Rpower 2 p)) by (field; lra). apply Rinv_0_lt_compat. lra. }
    rewrite !PP. cbn [bind cumsum]. reflexivity.
  - cbn [p_fractions lsum]. numR. lra.
Qed.
(** With size classes the means with index -1 cannot be computed: the class average of 1/d is taken with the power rule, which divides by zero. *)
Theorem C87_class_minus_one_raises ds fr order o q : between_sizes ds fr -> order <> 4 -> psd_init ds fr false order = Ok o -> q <> -1 -> mean_size o (-1) q = Err ZeroDivisionError.
Proof.
  intros HP HO E Hq. rewrite cl_init in E by auto. assert (EO : o = cl_result ds fr order) by congruence. subst o. unfold mean_size. rewrite (proj2 (Reqb_false (-1) q)) by lra. cbn [negb].
  unfold moment_of at 1. change (p_N (cl_result ds fr order)) with (List.length fr). change (p_ds (cl_result ds fr order)) with ds.
  change (p_classes (cl_result ds fr order)) with (Nat.eqb (List.length ds) (S (List.length fr))). rewrite (sc_true ds fr HP).
  pose proof (cfr_ne ds fr HP) as NE. assert (P0 : (0 < List.length fr)%nat) by (destruct fr; [congruence|cbn; lia]). pose proof (sc_true ds fr HP) as LD. apply Nat.eqb_eq in LD.
  assert (Z : di_power true ds 0 (-1) = Err ZeroDivisionError).
  { unfold di_power. rewrite !idx_ok by lia. cbn [bind]. rewrite !ppow_ok by (apply (cd_pos ds fr); auto; lia). cbn [bind]. match goal with |- pdiv _ ?d = _ => replace d with 0 by ring end. apply pdiv_0. }
  destruct (List.length fr) as [|n]; [lia|]. cbn [seq mapM]. rewrite Z. reflexivity.
Qed.

Print Assumptions C87_conversion.
Print Assumptions C87_mean.
Print Assumptions C87_mean_bounds.
Print Assumptions C87_mean_symmetric.
Print Assumptions C87_mean_rises.
Print Assumptions C87_units.
Print Assumptions C87_surface.
Print Assumptions C87_classes.
Print Assumptions C87_sums.
Print Assumptions C87_cumulative.
Print Assumptions C87_cumulative_points_refuted.
Print Assumptions C87_class_minus_one_raises.
