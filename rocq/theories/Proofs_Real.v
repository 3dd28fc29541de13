(** Tactics and lemmas to run the straight-line real models: discharge the "Python would raise" tests. *)
From Coq Require Import Reals Lra Lia QArith Qreals List String.
From Coquelicot Require Import Coquelicot.
From Verif Require Import Base Model_Real Interval.
Open Scope R_scope.

(** decimal literals become fractions lra understands *)
Ltac lits := unfold Q2R in *; cbn [Qnum Qden] in *.

Lemma Rpower_pos x y : 0 < Rpower x y. Proof. apply exp_pos. Qed.

Ltac posr := idtac;
  lazymatch goal with
  | |- ?e <> 0 => apply Rgt_not_eq; unfold Rgt; posr
  | |- ?a > ?b => unfold Rgt; posr
  | |- 0 < ?a * ?b => first [assumption | apply Rmult_lt_0_compat; posr | solve [lits; lra] | solve [lits; nra]]
  | |- 0 < ?a / ?b => first [assumption | apply Rdiv_lt_0_compat; posr]
  | |- 0 < / ?a => first [assumption | apply Rinv_0_lt_compat; posr]
  | |- 0 < ?a + ?b => first [assumption | solve [lits; lra] | apply Rplus_lt_0_compat; posr | apply Rplus_lt_le_0_compat; posr | apply Rplus_le_lt_0_compat; posr]
  | |- 0 < ?a ^ ?n => first [assumption | apply pow_lt; posr]
  | |- 0 < sqrt ?a => first [assumption | apply sqrt_lt_R0; posr]
  | |- 0 < Rpower ?a ?b => apply exp_pos
  | |- 0 < exp ?a => apply exp_pos
  | |- 0 < PI => exact PI_RGT_0
  | |- 0 < cbrt _ => first [assumption | lits; lra]
  | |- 0 < _ => first [assumption | solve [lits; lra] | solve [lits; nra]]
  | |- 0 <= ?a * ?b => first [assumption | apply Rmult_le_pos; posr | left; posr]
  | |- 0 <= ?a / ?b => first [assumption | apply Rdiv_le_0_compat; posr | left; posr]
  | |- 0 <= ?a + ?b => first [assumption | solve [lits; lra] | apply Rplus_le_le_0_compat; posr]
  | |- 0 <= ?a ^ 2 => apply pow2_ge_0
  | |- 0 <= ?a ^ ?n => first [assumption | apply pow_le; posr]
  | |- 0 <= sqrt ?a => apply sqrt_pos
  | |- 0 <= Rpower ?a ?b => left; apply exp_pos
  | |- 0 <= exp ?a => left; apply exp_pos
  | |- 0 <= PI => left; exact PI_RGT_0
  | |- 0 <= _ => first [assumption | solve [lits; lra] | solve [lits; nra]]
  | |- _ => first [assumption | solve [lits; lra]]
  end.

(** run one Python operation, the side condition by [tac] *)
Ltac mop tac m :=
  lazymatch m with
  | pdiv ?a ?b => rewrite (pdiv_ok a b) by tac
  | psqrt ?a => rewrite (psqrt_ok a) by tac
  | plog ?a => rewrite (plog_ok a) by tac
  | plog10 ?a => rewrite (plog10_ok a) by tac
  | ppow ?a ?b => rewrite (ppow_ok a b) by tac
  | pcbrt ?a => unfold pcbrt
  | context [bind ?m2 _] => mop tac m2
  end.
Ltac mstep tac :=
  lazymatch goal with
  | |- context [bind ?m _] => mop tac m
  | |- context [pdiv ?a ?b] => rewrite (pdiv_ok a b) by tac
  | |- context [psqrt ?a] => rewrite (psqrt_ok a) by tac
  | |- context [plog ?a] => rewrite (plog_ok a) by tac
  | |- context [plog10 ?a] => rewrite (plog10_ok a) by tac
  | |- context [ppow ?a ?b] => rewrite (ppow_ok a b) by tac
  end; cbn [bind]; cbv beta zeta.
Ltac mrun := cbv beta zeta; cbn [bind]; repeat mstep posr.

Lemma ppow_0 y : 0 < y -> ppow 0 y = Ok 0.
Proof.
  intros H. unfold ppow. destruct (Rltb 0 0) eqn:E; [apply Rltb_true in E; lra|].
  destruct (Reqb 0 0) eqn:E1; [|apply Reqb_false in E1; contradiction].
  destruct (Rltb y 0) eqn:E2; [apply Rltb_true in E2; lra|].
  destruct (Reqb y 0) eqn:E3; [apply Reqb_true in E3; lra|]; reflexivity.
Qed.
(** the power function with positive exponent, extended by [0 ** y = 0] *)
Definition pw (x y : R) : R := if Rltb 0 x then Rpower x y else 0.
Lemma pw_nonneg x y : 0 <= pw x y.
Proof. unfold pw; destruct (Rltb 0 x); [left; apply exp_pos|lra]. Qed.
Lemma pw_pos x y : 0 < x -> 0 < pw x y.
Proof. intros H; unfold pw. apply Rltb_true in H; rewrite H. apply exp_pos. Qed.
Lemma ppow_pw x y : 0 <= x -> 0 < y -> ppow x y = Ok (pw x y).
Proof.
  intros [H|<-] Hy.
  - rewrite ppow_ok by auto. unfold pw. apply Rltb_true in H; rewrite H; reflexivity.
  - rewrite ppow_0 by auto. unfold pw. destruct (Rltb 0 0) eqn:E; auto. apply Rltb_true in E; lra.
Qed.
Lemma Rpower_le_l x y a : 0 < x -> x <= y -> 0 <= a -> Rpower x a <= Rpower y a.
Proof. intros. apply Rle_Rpower_l; auto. Qed.
Lemma Rpower_lt_l x y a : 0 < x -> x < y -> 0 < a -> Rpower x a < Rpower y a.
Proof. intros. unfold Rpower. apply exp_increasing. apply Rmult_lt_compat_l; auto. apply ln_increasing; auto. Qed.
Lemma Rpower_anti_l x y a : 0 < x -> x <= y -> a <= 0 -> Rpower y a <= Rpower x a.
Proof.
  intros H H1 H2. replace a with (- - a) by ring. rewrite !(Rpower_Ropp _ (- a)).
  apply Rinv_le_contravar; [apply exp_pos|]. apply Rle_Rpower_l; lra.
Qed.
Lemma Rpower_anti_lt_l x y a : 0 < x -> x < y -> a < 0 -> Rpower y a < Rpower x a.
Proof.
  intros H H1 H2. unfold Rpower. apply exp_increasing. 
  assert (ln x < ln y) by (apply ln_increasing; auto). nra.
Qed.
Lemma pw_le x y a : 0 <= x -> x <= y -> 0 <= a -> pw x a <= pw y a.
Proof.
  intros [H|<-] H1 Ha.
  - unfold pw. rewrite (proj2 (Rltb_true 0 x) H), (proj2 (Rltb_true 0 y)) by lra. apply Rpower_le_l; auto.
  - replace (pw 0 a) with 0. apply pw_nonneg. unfold pw. destruct (Rltb 0 0) eqn:E; auto. apply Rltb_true in E; lra.
Qed.
Lemma pw_lt x y a : 0 <= x -> x < y -> 0 < a -> pw x a < pw y a.
Proof.
  intros [H|<-] H1 Ha.
  - unfold pw. rewrite (proj2 (Rltb_true 0 x) H), (proj2 (Rltb_true 0 y)) by lra. apply Rpower_lt_l; auto.
  - replace (pw 0 a) with 0. apply pw_pos; auto. unfold pw. destruct (Rltb 0 0) eqn:E; auto. apply Rltb_true in E; lra.
Qed.
Lemma div_le_l a x y : 0 <= a -> 0 < x -> x <= y -> a / y <= a / x.
Proof. intros. apply Rmult_le_compat_l; auto. apply Rinv_le_contravar; auto. Qed.
Lemma div_lt_l a x y : 0 < a -> 0 < x -> x < y -> a / y < a / x.
Proof. intros. apply Rmult_lt_compat_l; auto. apply Rinv_lt_contravar; auto. apply Rmult_lt_0_compat; lra. Qed.
Lemma div_le_r a b x : 0 < x -> a <= b -> a / x <= b / x.
Proof. intros. apply Rmult_le_compat_r; auto. left; apply Rinv_0_lt_compat; auto. Qed.
Lemma div_lt_r a b x : 0 < x -> a < b -> a / x < b / x.
Proof. intros. apply Rmult_lt_compat_r; auto. apply Rinv_0_lt_compat; auto. Qed.

Lemma ln_tangent x a : 0 < x -> 0 < a -> ln x <= ln a + (x - a) / a.
Proof.
  intros Hx Ha. assert (K : ln (x / a) <= x / a - 1).
  { assert (0 < x / a) by (apply Rdiv_lt_0_compat; auto).
    pose proof (exp_ineq1_le (ln (x / a))) as E. rewrite exp_ln in E by auto. lra. }
  rewrite ln_div in K by auto. replace ((x - a) / a) with (x / a - 1) by (field; lra). lra.
Qed.
Lemma log10_le x y : 0 < x -> x <= y -> log10 x <= log10 y.
Proof. intros. unfold log10. apply div_le_r; [apply ln10_pos|]. apply ln_le_compat; auto. Qed.
Lemma log10_lt x y : 0 < x -> x < y -> log10 x < log10 y.
Proof. intros. unfold log10. apply div_lt_r; [apply ln10_pos|]. apply ln_increasing; auto. Qed.
Lemma log10_1 : log10 1 = 0. Proof. unfold log10. rewrite ln_1. unfold Rdiv; ring. Qed.
Lemma log10_neg x : 0 < x < 1 -> log10 x < 0.
Proof. intros. rewrite <- log10_1. apply log10_lt; lra. Qed.
Lemma log10_pos x : 1 < x -> 0 < log10 x.
Proof. intros. rewrite <- log10_1. apply log10_lt; lra. Qed.
Lemma log10_inv x : 0 < x -> log10 (/ x) = - log10 x.
Proof. intros. unfold log10. rewrite ln_Rinv by auto. unfold Rdiv; ring. Qed.
Lemma log10_mult x y : 0 < x -> 0 < y -> log10 (x * y) = log10 x + log10 y.
Proof. intros. unfold log10. rewrite ln_mult by auto. unfold Rdiv; ring. Qed.

(** the common last line of the correlations *)
Lemma sq_div_ok c t : 0 < c -> t <> 0 -> exists f, pdiv c (t * t) = Ok f /\ 0 < f.
Proof.
  intros Hc Ht. assert (0 < t * t) by nra. rewrite pdiv_ok by lra. eexists; split; [reflexivity|]. apply Rdiv_lt_0_compat; auto.
Qed.
Definition gives_pos (r : result R) : Prop := exists f, r = Ok f /\ 0 < f.
Lemma gives_sq c t : 0 < c -> t <> 0 -> gives_pos (pdiv c (t * t)).
Proof. exact (sq_div_ok c t). Qed.
Lemma gives_ok f : 0 < f -> gives_pos (Ok f).
Proof. intros; exists f; auto. Qed.

(** slowly growing logarithm *)
Lemma ln_2040 : 7.62 < ln 2040 < 7.621.
Proof. split; itv 0%nat. Qed.
Lemma ln_small x : 2040 <= x -> ln x <= 0.0037361 * x.
Proof.
  intros H. pose proof (ln_tangent x 2040 ltac:(lra) ltac:(lra)) as K. pose proof ln_2040 as [_ L]. lits. lra.
Qed.
Lemma ln10_val : 2.302585 < ln 10 < 2.302586.
Proof. split; itv 0%nat. Qed.
Lemma log10_small x : 2040 <= x -> log10 x <= 0.001623 * x.
Proof.
  intros H. pose proof (ln_small x H) as K. pose proof ln10_val as [L _]. unfold log10.
  apply Rle_div_l; [lits; lra|]. eapply Rle_trans; [exact K|].
  assert (0.001623 * x * ln 10 >= 0.001623 * x * 2.302585) by (apply Rle_ge, Rmult_le_compat_l; lits; lra).
  lits; lra.
Qed.
