(** C85: void fraction of gas-liquid mixtures.
    Claims about [liquid_gas_voidage] and its correlations in fluids/two_phase_voidage.py. *)
From Coq Require Import Reals Lra Lia List Bool String Psatz QArith Qreals.
From Coquelicot Require Import Coquelicot.
From Verif Require Import Base Model_Real Proofs_Real Interval Model_Voidage.
Import ListNotations.
Open Scope R_scope.

(** ** Vocabulary *)
(** a gas lighter than the liquid it flows with, both present *)
Definition mixture (x rhol rhog : R) : Prop := 0 < x < 1 /\ 0 < rhog < rhol.
(** volume fraction of the gas when both phases move at one speed *)
Definition no_slip (x rhol rhog : R) : R := x / rhog / (x / rhog + (1 - x) / rhol).
(** a proper fraction, and one not above the no-slip value *)
Definition fraction (r : result R) : Prop := exists a, r = Ok a /\ 0 < a < 1.
Definition slips (x rhol rhog : R) (r : result R) : Prop := exists a, r = Ok a /\ 0 < a <= no_slip x rhol rhog.

Lemma slip_form s : 0 < s -> exists a, pdiv 1 (1 + s) = Ok a /\ a = 1 / (1 + s) /\ 0 < a < 1.
Proof.
  intros. rewrite pdiv_ok by lra. eexists; splits; [reflexivity|reflexivity|apply Rdiv_lt_0_compat; lra|].
  apply Rmult_lt_reg_r with (1 + s); [lra|]. unfold Rdiv. rewrite Rmult_assoc, Rinv_l by lra. lra.
Qed.
Lemma slip_fraction s : 0 < s -> fraction (pdiv 1 (1 + s)).
Proof. intros H. destruct (slip_form s H) as (a & E & _ & B). exists a; auto. Qed.
Lemma no_slip_form x rhol rhog : mixture x rhol rhog -> no_slip x rhol rhog = 1 / (1 + (1 - x) / x * (rhog / rhol)).
Proof.
  intros [Hx Hr]. unfold no_slip. field. assert (0 < x * rhol + (1 - x) * rhog) by nra. splits; try lra; nra.
Qed.
Lemma no_slip_01 x rhol rhog : mixture x rhol rhog -> 0 < no_slip x rhol rhog < 1.
Proof.
  intros H. rewrite no_slip_form by auto. destruct H as [Hx Hr].
  assert (0 < (1 - x) / x * (rhog / rhol)). { apply Rmult_lt_0_compat; apply Rdiv_lt_0_compat; lra. }
  destruct (slip_form _ H) as (a & E & -> & B). exact B.
Qed.
Lemma slips_fraction x rhol rhog r : mixture x rhol rhog -> slips x rhol rhog r -> fraction r.
Proof. intros H (a & E & B). exists a. split; auto. pose proof (no_slip_01 x rhol rhog H). lra. Qed.
(** more slip, less gas *)
Lemma slip_slips x rhol rhog s : mixture x rhol rhog -> (1 - x) / x * (rhog / rhol) <= s -> slips x rhol rhog (pdiv 1 (1 + s)).
Proof.
  intros H Hs. assert (0 < (1 - x) / x * (rhog / rhol)). { destruct H as [Hx Hr]. apply Rmult_lt_0_compat; apply Rdiv_lt_0_compat; lra. }
  destruct (slip_form s ltac:(lra)) as (a & E & Ea & B). exists a. split; auto. split; [lra|]. rewrite no_slip_form by auto. rewrite Ea.
  apply div_le_l; lra.
Qed.
Lemma homogeneous_eval x rhol rhog : mixture x rhol rhog -> homogeneous x rhol rhog = Ok (no_slip x rhol rhog).
Proof.
  intros H. rewrite no_slip_form by auto. destruct H as [Hx Hr]. unfold homogeneous.
  rewrite (proj2 (Reqb_false x 1)) by lra. rewrite (proj2 (Reqb_false x 0)) by lra.
  assert (0 < (1 - x) / x * (rhog / rhol)). { apply Rmult_lt_0_compat; apply Rdiv_lt_0_compat; lra. }
  rewrite !pdiv_ok by lra. cbn [bind]. rewrite pdiv_ok by lra. reflexivity.
Qed.

(** run the leading operations, leave the last one *)
Ltac bs := lazymatch goal with |- context [bind ?m _] => mop ltac:(first [lra | posr | apply sqrt_pos]) m end; cbn [bind]; cbv beta zeta.
Ltac bss := cbv beta zeta; cbn [bind]; repeat bs.

Lemma Ok_inj' (a b : R) : Ok a = Ok b -> a = b. Proof. congruence. Qed.

Section mix.
Context (x rhol rhog : R) (HM : mixture x rhol rhog).
Let r0 := (1 - x) / x.
Let q := rhog / rhol.
Lemma mx : 0 < x /\ x < 1 /\ 0 < 1 - x /\ 0 < rhol /\ 0 < rhog /\ 0 < rhol - rhog. Proof. destruct HM as [Hx Hr]. splits; lra. Qed.
Lemma r0_pos : 0 < (1 - x) / x. Proof. destruct mx as (?&?&?&_). posr. Qed.
Lemma q_01 : 0 < rhog / rhol < 1.
Proof. destruct mx as (?&?&?&?&?&?). split; [posr|]. apply Rmult_lt_reg_r with rhol; auto. unfold Rdiv. rewrite Rmult_assoc, Rinv_l by lra. lra. Qed.
Lemma q_pow n : 0 < n <= 1 -> rhog / rhol <= Rpower (rhog / rhol) n.
Proof.
  intros Hn. pose proof q_01. rewrite <- (Rpower_1 (rhog / rhol)) at 1 by lra. unfold Rpower.
  assert (L : ln (rhog / rhol) < 0) by (rewrite <- ln_1; apply ln_increasing; lra).
  destruct (Rle_lt_or_eq_dec (1 * ln (rhog / rhol)) (n * ln (rhog / rhol))) as [K|K]; [nra| |rewrite K; lra]. left. apply exp_increasing. exact K.
Qed.
Lemma mix_div : 1 < rhol / rhog.
Proof. destruct mx as (?&?&?&?&?&?). apply Rmult_lt_reg_r with rhog; auto. unfold Rdiv. rewrite Rmult_assoc, Rinv_l by lra. lra. Qed.

Lemma v_Zivi : slips x rhol rhog (Zivi x rhol rhog).
Proof.
  destruct mx as (?&?&?&?&?&?). pose proof r0_pos. pose proof q_01. pose proof (q_pow (2 / 3) ltac:(lra)) as K. unfold Zivi.
  bss.
  apply slip_slips; auto. apply Rmult_le_compat_l; lra.
Qed.
Lemma sqrt_ge_self y : 0 <= y <= 1 -> y <= sqrt y.
Proof. intros. rewrite <- (sqrt_square y) at 1 by lra. apply sqrt_le_1_alt. nra. Qed.
Lemma sqrt_ge_1 y : 1 <= y -> 1 <= sqrt y.
Proof. intros. rewrite <- sqrt_1. apply sqrt_le_1_alt. auto. Qed.
Lemma v_Fauske : slips x rhol rhog (Fauske x rhol rhog).
Proof.
  destruct mx as (?&?&?&?&?&?). pose proof r0_pos. pose proof q_01. pose proof (sqrt_ge_self (rhog / rhol) ltac:(lra)) as K. unfold Fauske.
  bss.
  apply slip_slips; auto. apply Rmult_le_compat_l; lra.
Qed.
Lemma v_Smith : slips x rhol rhog (Smith x rhol rhog).
Proof.
  destruct mx as (?&?&?&?&?&?). pose proof r0_pos as R0. pose proof q_01 as Q. pose proof mix_div as MD. unfold Smith.
  bs. bs.
  assert (D : 0 < 1 + 0.4 * ((1 - x) / x)) by (clear - R0; lits; lra). bs.
  assert (K1 : 1 <= (rhol / rhog + 0.4 * ((1 - x) / x)) / (1 + 0.4 * ((1 - x) / x))).
  { apply Rmult_le_reg_r with (1 + 0.4 * ((1 - x) / x)); auto. unfold Rdiv at 2. rewrite Rmult_assoc, Rinv_l by lra. lra. }
  bss.
  pose proof (sqrt_ge_1 _ K1) as K2. set (w := sqrt _) in *. clearbody w. apply slip_slips; auto.
  rewrite <- (Rmult_1_r ((1 - x) / x * (rhog / rhol))) at 1. apply Rmult_le_compat_l; [apply Rmult_le_pos; lra|]. lits; lra.
Qed.
Lemma v_Chisholm : slips x rhol rhog (Chisholm_voidage x rhol rhog).
Proof.
  destruct mx as (?&?&?&?&?&?). pose proof r0_pos as R0. pose proof q_01 as Q. pose proof mix_div as MD. unfold Chisholm_voidage.
  bs. assert (K1 : 1 <= 1 - x * (1 - rhol / rhog)) by nra.
  bss.
  pose proof (sqrt_ge_1 _ K1) as K2. set (w := sqrt _) in *. clearbody w. apply slip_slips; auto.
  replace ((1 - x) / x * rhog / rhol) with ((1 - x) / x * (rhog / rhol)) by (field; lra).
  rewrite <- (Rmult_1_r ((1 - x) / x * (rhog / rhol))) at 1. apply Rmult_le_compat_l; [apply Rmult_le_pos; lra|lra].
Qed.
Lemma v_homogeneous : slips x rhol rhog (homogeneous x rhol rhog).
Proof. rewrite homogeneous_eval by auto. eexists; split; [reflexivity|]. pose proof (no_slip_01 x rhol rhog HM). lra. Qed.
Lemma v_Armand : slips x rhol rhog (Armand x rhol rhog).
Proof. unfold Armand. rewrite homogeneous_eval by auto. cbn [bind]. eexists; split; [reflexivity|]. pose proof (no_slip_01 x rhol rhog HM). lits; lra. Qed.
Lemma v_Chisholm_Armand : slips x rhol rhog (Chisholm_Armand x rhol rhog).
Proof.
  unfold Chisholm_Armand. rewrite homogeneous_eval by auto. cbn [bind]. pose proof (no_slip_01 x rhol rhog HM) as N. unfold slips; set (a := no_slip _ _ _) in *.
  rewrite psqrt_ok by lra. cbn [bind]. pose proof (sqrt_ge_self (1 - a) ltac:(lra)) as K.
  rewrite pdiv_ok by lra. eexists; split; [reflexivity|]. split; [apply Rdiv_lt_0_compat; lra|].
  apply Rmult_le_reg_r with (a + sqrt (1 - a)); [lra|]. unfold Rdiv. rewrite Rmult_assoc, Rinv_l by lra. apply Rmult_le_compat_l; lra.
Qed.
Lemma Nishino_eval : Nishino_Yamazaki x rhol rhog = Ok (1 - sqrt (1 - no_slip x rhol rhog)).
Proof.
  destruct mx as (?&?&?&?&?&?). pose proof r0_pos as R0. pose proof q_01 as Q.
  unfold Nishino_Yamazaki. rewrite homogeneous_eval by auto. cbn [bind]. pose proof (no_slip_01 x rhol rhog HM) as N.
  assert (0 < x * rhol) by (apply Rmult_lt_0_compat; lra). rewrite pdiv_ok by lra. cbn [bind].
  assert (E : (1 - x) * rhog / (x * rhol) = (1 - x) / x * (rhog / rhol)) by (field; lra). rewrite E.
  assert (R1 : 0 < (1 - x) / x * (rhog / rhol)) by (apply Rmult_lt_0_compat; lra).
  bss. rewrite <- sqrt_mult_alt by lra.
  assert (E2 : (1 - x) / x * (rhog / rhol) * no_slip x rhol rhog = 1 - no_slip x rhol rhog).
  { rewrite no_slip_form by auto. field. splits; try lra. assert (0 < x * rhol + (1 - x) * rhog) by nra. lra. }
  rewrite E2. reflexivity.
Qed.
Lemma v_Nishino : slips x rhol rhog (Nishino_Yamazaki x rhol rhog).
Proof.
  rewrite Nishino_eval. pose proof (no_slip_01 x rhol rhog HM) as N. unfold slips. set (a := no_slip _ _ _) in *.
  eexists; split; [reflexivity|]. pose proof (sqrt_ge_self (1 - a) ltac:(lra)) as K.
  assert (sqrt (1 - a) < 1). { rewrite <- sqrt_1 at 2. apply sqrt_lt_1; lra. } lra.
Qed.
(** drift flux: distribution parameter at least one, drift velocity not negative *)
Lemma drift C0 v : 1 <= C0 -> 0 <= v -> slips x rhol rhog (pdiv x (rhog * ((C0 * (x / rhog + (1 - x) / rhol)) + v))).
Proof.
  intros HC Hv. destruct mx as (?&?&?&?&?&?).
  assert (A : 0 < x / rhog) by posr. assert (B : 0 < (1 - x) / rhol) by posr.
  assert (K : x / rhog + (1 - x) / rhol <= C0 * (x / rhog + (1 - x) / rhol) + v) by nra.
  unfold slips, no_slip. set (h := x / rhog + (1 - x) / rhol) in *. set (Y := C0 * h + v) in *. assert (0 < h) by (unfold h; lra). clearbody Y h.
  assert (0 < rhog * Y) by (apply Rmult_lt_0_compat; lra).
  rewrite pdiv_ok by lra. eexists; split; [reflexivity|].
  replace (x / (rhog * Y)) with (x / rhog / Y) by (field; lra).
  split; [apply Rdiv_lt_0_compat; lra|]. apply div_le_l; lra.
Qed.
Lemma v_Gregory : slips x rhol rhog (Gregory_Scott x rhol rhog).
Proof.
  destruct mx as (?&?&?&?&?&?). unfold Gregory_Scott. cbv zeta. 
  assert (A : 0 < x / rhog) by posr. assert (B : 0 < (1 - x) / rhol) by posr. bss.
  replace (1.19 * (x / rhog + (1 - x) / rhol)) with (1.19 * (x / rhog + (1 - x) / rhol) + 0) by ring. apply drift; lits; lra.
Qed.
Context (m D g : R) (Hm : 0 < m) (HD : 0 < D) (Hg : 0 < g).
Lemma G_pos : 0 < m / (0.25 * PI * D * D). Proof. pose proof PI_RGT_0. posr. Qed.
Lemma A_pos : 0 < 0.25 * PI * D * D. Proof. pose proof PI_RGT_0. posr. Qed.
Lemma v_Nicklin : slips x rhol rhog (Nicklin_Wilkes_Davidson x rhol rhog m D g).
Proof.
  destruct mx as (?&?&?&?&?&?). pose proof G_pos as HG. pose proof A_pos as HA. unfold Nicklin_Wilkes_Davidson.
  rewrite pdiv_ok by lra. cbn [bind]. cbv zeta. set (G := m / _) in *. clearbody G. bss. apply drift; [lits; lra|].
  pose proof (sqrt_pos (g * D)). apply Rdiv_le_0_compat; lits; lra.
Qed.
Lemma v_Xu_Fang : slips x rhol rhog (Xu_Fang_voidage x rhol rhog m D g).
Proof.
  destruct mx as (?&?&?&?&?&?). pose proof r0_pos as R0. pose proof q_01 as Q. pose proof G_pos as HG. pose proof A_pos as HA. unfold Xu_Fang_voidage.
  rewrite pdiv_ok by lra. cbn [bind]. set (G := m / _) in *. clearbody G. rewrite homogeneous_eval by auto. cbn [bind].
  pose proof (no_slip_01 x rhol rhog HM) as N. set (a := no_slip _ _ _) in *. bss.
  set (w1 := Rpower (_ / _) _). set (w2 := Rpower a _). assert (0 < w1) by apply exp_pos. assert (0 < w2) by apply exp_pos. clearbody w1 w2.
  apply slip_slips; auto. rewrite Rmult_assoc. rewrite <- (Rmult_1_l ((1 - x) / x * (rhog / rhol))) at 1. apply Rmult_le_compat_r; [apply Rmult_le_pos; lra|]. nra.
Qed.
Lemma v_Guzhov : slips x rhol rhog (Guzhov x rhol rhog m D).
Proof.
  destruct mx as (?&?&?&?&?&?). pose proof G_pos as HG. pose proof A_pos as HA. unfold Guzhov, Froude.
  assert (A : 0 < x / rhog) by posr. assert (B : 0 < (1 - x) / rhol) by posr.
  do 5 bs.
  set (V := _ / (1 / _)). assert (HV : 0 < V) by (unfold V; posr). clearbody V.
  assert (S : 0 < sqrt (D * 9.80665)) by (apply sqrt_lt_R0; posr).
  rewrite psqrt_ok by posr. cbn [bind]. rewrite pdiv_ok by lra. cbn [bind]. cbv zeta. rewrite homogeneous_eval by auto. cbn [bind].
  pose proof (no_slip_01 x rhol rhog HM) as N. unfold slips; set (a := no_slip _ _ _) in *.
  assert (F : 0 < V / sqrt (D * 9.80665)) by posr. set (F0 := V / _) in *. clearbody F0.
  rewrite psqrt_ok by nra. cbn [bind]. rewrite sqrt_square by lra. eexists; split; [reflexivity|].
  assert (K : 0 < exp (- 2.2 * F0) < 1). { split; [apply exp_pos|]. rewrite <- exp_0. apply exp_increasing. lits; lra. }
  set (w := exp _) in *. clearbody w. split; [apply Rmult_lt_0_compat; lits; lra|]. rewrite <- (Rmult_1_l a) at 2. apply Rmult_le_compat_r; lits; lra.
Qed.
Context (sigma : R) (Hsig : 0 < sigma).
Lemma v_Steiner : slips x rhol rhog (Steiner x rhol rhog sigma m D g).
Proof.
  destruct mx as (?&?&?&?&?&?). pose proof G_pos as HG. pose proof A_pos as HA. unfold Steiner. assert (S : 0 < sqrt rhol) by (apply sqrt_lt_R0; lra).
  rewrite pdiv_ok by lra. cbn [bind]. set (G := m / _) in *. clearbody G. cbv zeta. bss.
  apply drift; [lits; lra|]. posr.
Qed.
Lemma v_Rouhani_1 : slips x rhol rhog (Rouhani_1 x rhol rhog sigma m D g).
Proof.
  destruct mx as (?&?&?&?&?&?). pose proof G_pos as HG. pose proof A_pos as HA. unfold Rouhani_1. assert (S : 0 < sqrt rhol) by (apply sqrt_lt_R0; lra).
  rewrite pdiv_ok by lra. cbn [bind]. set (G := m / _) in *. clearbody G. cbv zeta. bss.
  apply drift; [lits; lra|]. posr.
Qed.
Lemma v_Rouhani_2 : slips x rhol rhog (Rouhani_2 x rhol rhog sigma m D g).
Proof.
  destruct mx as (?&?&?&?&?&?). pose proof G_pos as HG. pose proof A_pos as HA. unfold Rouhani_2. assert (S : 0 < sqrt rhol) by (apply sqrt_lt_R0; lra).
  rewrite pdiv_ok by lra. cbn [bind]. set (G := m / _) in *. clearbody G. cbv zeta. bss.
  apply drift; [|posr]. assert (0 <= 0.2 * (1 - x) * sqrt (sqrt (g * D)) * sqrt (rhol / G)) by posr. lra.
Qed.
Lemma v_Sun Pp Pc : 0 < Pp <= Pc -> slips x rhol rhog (Sun_Duffey_Peng x rhol rhog sigma m D Pp Pc g).
Proof.
  intros HP. destruct mx as (?&?&?&?&?&?). pose proof G_pos as HG. pose proof A_pos as HA. unfold Sun_Duffey_Peng.
  rewrite pdiv_ok by lra. cbn [bind]. set (G := m / _) in *. clearbody G. rewrite pdiv_ok by lra. cbn [bind].
  assert (Pr : 0 < Pp / Pc <= 1). { split; [apply Rdiv_lt_0_compat; lra|]. apply Rmult_le_reg_r with Pc; [lra|]. unfold Rdiv. rewrite Rmult_assoc, Rinv_l by lra. lra. }
  set (pr := Pp / Pc) in *. clearbody pr. assert (0 < 0.82 + 0.18 * pr) by (lits; lra). cbv zeta. bss.
  apply drift; [|posr]. replace 1 with (1 / 1) at 1 by field. apply div_le_l; lits; lra.
Qed.

(** the others: proper fractions *)
Context (mul mug : R) (Hmul : 0 < mul) (Hmug : 0 < mug).
Lemma v_Thom : fraction (Thom x rhol rhog mul mug).
Proof. destruct mx as (?&?&?&?&?&?). unfold Thom. bss. apply slip_fraction. posr. Qed.
Lemma v_Turner : fraction (Turner_Wallis x rhol rhog mul mug).
Proof. destruct mx as (?&?&?&?&?&?). unfold Turner_Wallis. bss. apply slip_fraction. posr. Qed.
Lemma Xtt_pos a b c : exists X, Lockhart_Martinelli_Xtt x rhol rhog mul mug a b c None = Ok X /\ 0 < X /\
  X = Rpower ((1 - x) / x) a * Rpower (rhog / rhol) b * Rpower (mul / mug) c.
Proof. destruct mx as (?&?&?&?&?&?). unfold Lockhart_Martinelli_Xtt. cbn [bind]. mrun. eexists; splits; [reflexivity|posr|reflexivity]. Qed.
Lemma v_Baroczy : fraction (Baroczy x rhol rhog mul mug).
Proof. unfold Baroczy. destruct (Xtt_pos 0.74 0.65 0.13) as (X & -> & HX & _). cbn [bind]. apply slip_fraction. auto. Qed.
Lemma neg_pow b n : 1 < b -> n < 0 -> fraction (ppow b n).
Proof.
  intros. rewrite ppow_ok by lra. eexists; split; [reflexivity|]. split; [apply exp_pos|]. rewrite <- exp_0. unfold Rpower. apply exp_increasing.
  assert (0 < ln b) by (rewrite <- ln_1; apply ln_increasing; lra). nra.
Qed.
Lemma v_Yashar : fraction (Yashar x rhol rhog mul mug m D g).
Proof.
  destruct mx as (?&?&?&?&?&?). pose proof G_pos as HG. pose proof A_pos as HA. unfold Yashar.
  rewrite pdiv_ok by lra. cbn [bind]. set (G := m / _) in *. clearbody G. rewrite pdiv_ok by posr. cbn [bind].
  set (F := _ / _). assert (HF : 0 < F) by (unfold F; posr). clearbody F. rewrite psqrt_ok by lra. cbn [bind].
  destruct (Xtt_pos 0.9 0.5 0.1) as (X & -> & HX & _). cbn [bind]. assert (0 < sqrt F) by (apply sqrt_lt_R0; auto). rewrite pdiv_ok by lra. cbn [bind].
  apply neg_pow; [assert (0 < 1 / sqrt F) by posr; lra|lits; lra].
Qed.
Lemma v_Huq : fraction (Huq_Loth x rhol rhog).
Proof.
  destruct mx as (?&?&?&?&?&?). pose proof mix_div as MD. unfold Huq_Loth. cbv zeta. rewrite pdiv_ok by lra. cbn [bind].
  assert (K : 1 < 1 + 2 * (2 * x * (1 - x)) * (rhol / rhog - 1)). { assert (0 < 2 * (2 * x * (1 - x)) * (rhol / rhog - 1)); [|lra]. repeat apply Rmult_lt_0_compat; lra. }
  rewrite psqrt_ok by lra. cbn [bind].
  assert (S : 1 < sqrt (1 + 2 * (2 * x * (1 - x)) * (rhol / rhog - 1))). { rewrite <- sqrt_1 at 1. apply sqrt_lt_1; lra. }
  set (s := sqrt _) in *. clearbody s. rewrite pdiv_ok by lra. cbn [bind]. eexists; split; [reflexivity|].
  assert (B : 0 < 2 * (1 - x) * (1 - x) / (1 - 2 * x + s) < 1).
  { split; [apply Rdiv_lt_0_compat; nra|]. apply Rmult_lt_reg_r with (1 - 2 * x + s); [lra|]. unfold Rdiv. rewrite Rmult_assoc, Rinv_l by lra. nra. }
  lra.
Qed.
Lemma v_Kawahara : fraction (Kawahara x rhol rhog D).
Proof.
  pose proof (no_slip_01 x rhol rhog HM) as N. unfold Kawahara. destruct (Rltb 0.00025 D); [apply (slips_fraction x rhol rhog); auto; apply v_Armand|].
  set (a := no_slip _ _ _) in *. assert (S : 0 < sqrt a < 1). { split; [apply sqrt_lt_R0; lra|]. rewrite <- sqrt_1. apply sqrt_lt_1; lra. }
  destruct (Rltb 0.000075 D); cbv zeta; rewrite homogeneous_eval by auto; fold a; cbn [bind]; bss;
  set (s := sqrt a) in *; clearbody s; rewrite pdiv_ok by (lits; lra); eexists; (split; [reflexivity|]);
  (split; [apply Rdiv_lt_0_compat; lits; lra|]).
  - apply Rmult_lt_reg_r with (1 - 0.97 * s); [lits; lra|]. unfold Rdiv. rewrite Rmult_assoc, Rinv_l by (lits; lra). lits; lra.
  - apply Rmult_lt_reg_r with (1 - 0.98 * s); [lits; lra|]. unfold Rdiv. rewrite Rmult_assoc, Rinv_l by (lits; lra). lits; lra.
Qed.
Lemma v_Dix : fraction (Dix x rhol rhog sigma m D g).
Proof.
  destruct mx as (?&?&?&?&?&?). pose proof A_pos as HA. unfold Dix. cbv zeta. set (A := 0.25 * PI * D * D) in *. clearbody A.
  mrun. set (b := Rpower (rhog / rhol) 0.1). set (w := Rpower _ b). assert (HW : 0 < w) by apply exp_pos. set (v := sqrt (sqrt _)).
  assert (HV : 0 <= v) by apply sqrt_pos. clearbody v w.
  set (S := x / rhog + (1 - x) / rhol). assert (HS : 0 < S) by (unfold S; posr).
  replace (m * x / (rhog * A) / (m * (1 - x) / (rhol * A) + m * x / (rhog * A)) * (1 + w) * S) with (x / rhog * (1 + w)).
  2:{ replace (m * (1 - x) / (rhol * A) + m * x / (rhog * A)) with (m / A * S) by (unfold S; field; lra). clearbody S. field. lra. }
  assert (HX : 0 < x / rhog) by posr. set (u := 2.9 * v / (m / A)). assert (HU : 0 <= u) by (unfold u; posr). clearbody u.
  eexists; split; [reflexivity|]. assert (HY : 0 < x / rhog * (1 + w) + u) by nra.
  replace (x / (rhog * (x / rhog * (1 + w) + u))) with (x / rhog / (x / rhog * (1 + w) + u)).
  2:{ set (Y := x / rhog * (1 + w) + u) in *. clearbody Y. field. lra. }
  set (y := x / rhog) in *. clearbody y. split; [apply Rdiv_lt_0_compat; nra|].
  apply Rmult_lt_reg_r with (y * (1 + w) + u); [nra|]. unfold Rdiv. rewrite Rmult_assoc, Rinv_l by nra. nra.
Qed.
Lemma v_Wold Pp angle : 0 < Pp -> fraction (Woldesemayat_Ghajar x rhol rhog sigma m D Pp angle g).
Proof.
  intros HP. destruct mx as (?&?&?&?&?&?). pose proof A_pos as HA. unfold Woldesemayat_Ghajar. cbv zeta. set (A := 0.25 * PI * D * D) in *. clearbody A.
  pose proof (COS_bound (radians angle)) as CB. pose proof (SIN_bound (radians angle)) as SB.
  assert (HC : 0 <= g * D * sigma * (1 + cos (radians angle)) * (rhol - rhog) / (rhol * rhol)).
  { apply Rdiv_le_0_compat; [|posr]. apply Rmult_le_pos; [|lra]. apply Rmult_le_pos; [posr|lra]. }
  do 6 (mstep posr). set (b := Rpower (rhog / rhol) 0.1). set (w := Rpower _ b). assert (HW : 0 < w) by apply exp_pos.
  rewrite pdiv_ok by posr. cbn [bind]. rewrite psqrt_ok by exact HC. cbn [bind]. rewrite psqrt_ok by apply sqrt_pos. cbn [bind]. rewrite pdiv_ok by lra. cbn [bind].
  rewrite ppow_pw by (first [lits; lra | posr]). cbn [bind]. pose proof (pw_nonneg (1.22 + 1.22 * sin (radians angle)) (101325 / Pp)) as HT.
  set (t := pw _ _) in *. set (v := sqrt (sqrt _)). assert (HV : 0 <= v) by apply sqrt_pos. clearbody v w t.
  assert (HG : 0 < m * x / (rhog * A)) by posr. set (vgs := m * x / (rhog * A)) in *. clearbody vgs.
  assert (0 <= 2.9 * v * t) by (apply Rmult_le_pos; [lits; lra|auto]). set (u := 2.9 * v * t) in *. clearbody u.
  assert (0 < vgs * w) by (apply Rmult_lt_0_compat; lra).
  rewrite pdiv_ok by nra. eexists; split; [reflexivity|]. split; [apply Rdiv_lt_0_compat; nra|].
  apply Rmult_lt_reg_r with (vgs * (1 + w) + u); [nra|]. unfold Rdiv. rewrite Rmult_assoc, Rinv_l by nra. nra.
Qed.
End mix.

(** ** C85 *)
(** the methods that never report more gas than moves without slip *)
Definition slipping : list string :=
  ["Zivi"; "Smith"; "Fauske"; "Chisholm_voidage"; "homogeneous"; "Chisholm Armand"; "Armand"; "Nishino Yamazaki"; "Guzhov"; "Steiner";
   "Rouhani 1"; "Rouhani 2"; "Nicklin Wilkes Davidson"; "Gregory_Scott"; "Sun Duffey Peng"; "Xu Fang voidage"]%string.
(** the further methods that always give a proper fraction *)
Definition bounded_methods : list string :=
  (slipping ++ ["Thom"; "Turner Wallis"; "Kawahara"; "Baroczy"; "Yashar"; "Huq_Loth"; "Dix"; "Woldesemayat Ghajar"])%list%string.

Ltac lgv := cbv [liquid_gas_voidage bind String.eqb Ascii.eqb Bool.eqb andb orb].
Ltac each H := repeat (destruct H as [<-|H]; [lgv|]); [..|destruct H].
(** For any flowing mixture of a gas and a denser liquid these methods give a gas volume fraction above 0 and not above the
    fraction the gas would occupy if both phases moved at the same speed. *)
Theorem C85_slip x rhol rhog D m mul mug sigma Pp Pc angle g meth : mixture x rhol rhog ->
  0 < D -> 0 < m -> 0 < mul -> 0 < mug -> 0 < sigma -> 0 < Pp <= Pc -> 0 < g -> In meth slipping ->
  slips x rhol rhog (liquid_gas_voidage x rhol rhog (Some D) (Some m) (Some mul) (Some mug) (Some sigma) (Some Pp) (Some Pc) angle g (Some meth)).
Proof.
  intros HM HD Hm Hl Hv Hs HP Hg HI. unfold slipping in HI. cbn [In] in HI. each HI.
  - apply v_Zivi; auto.
  - apply v_Smith; auto.
  - apply v_Fauske; auto.
  - apply v_Chisholm; auto.
  - apply v_homogeneous; auto.
  - apply v_Chisholm_Armand; auto.
  - apply v_Armand; auto.
  - apply v_Nishino; auto.
  - apply v_Guzhov; auto.
  - apply v_Steiner; auto.
  - apply v_Rouhani_1; auto.
  - apply v_Rouhani_2; auto.
  - apply v_Nicklin; auto.
  - apply v_Gregory; auto.
  - apply v_Sun; auto.
  - apply v_Xu_Fang; auto.
Qed.
(** These methods give a proper fraction, for every mixture, tube and flow rate (and any inclination). *)
Theorem C85_fraction x rhol rhog D m mul mug sigma Pp Pc angle g meth : mixture x rhol rhog ->
  0 < D -> 0 < m -> 0 < mul -> 0 < mug -> 0 < sigma -> 0 < Pp <= Pc -> 0 < g -> In meth bounded_methods ->
  fraction (liquid_gas_voidage x rhol rhog (Some D) (Some m) (Some mul) (Some mug) (Some sigma) (Some Pp) (Some Pc) angle g (Some meth)).
Proof.
  intros HM HD Hm Hl Hv Hs HP Hg HI. unfold bounded_methods in HI. apply in_app_or in HI. destruct HI as [HI|HI].
  { apply (slips_fraction x rhol rhog); auto. apply C85_slip; auto. }
  cbn [In] in HI. each HI.
  - apply v_Thom; auto.
  - apply v_Turner; auto.
  - apply v_Kawahara; auto.
  - apply v_Baroczy; auto.
  - apply v_Yashar; auto.
  - apply v_Huq; auto.
  - apply v_Dix; auto.
  - apply v_Wold; auto. lra.
Qed.
Example C85_fraction_ex : mixture 0.4 800 2.5 /\ In "Guzhov"%string slipping /\ In "Dix"%string bounded_methods.
Proof. splits; [split; lits; lra| |]; cbn; tauto. Qed.

(** More gas by mass, more gas by volume. *)
Definition rising : list string := ["Zivi"; "Fauske"; "Thom"; "Turner Wallis"; "Baroczy"; "homogeneous"; "Armand"; "Chisholm Armand"; "Nishino Yamazaki"; "Gregory_Scott"]%string.
Lemma ratio_lt x y : 0 < x < y -> y < 1 -> 0 < (1 - y) / y < (1 - x) / x.
Proof.
  intros. split; [apply Rdiv_lt_0_compat; lra|]. replace ((1 - y) / y) with (1 / y - 1) by (field; lra). replace ((1 - x) / x) with (1 / x - 1) by (field; lra).
  assert (1 / y < 1 / x) by (apply div_lt_l; lra). lra.
Qed.
Lemma no_slip_lt x y rhol rhog : 0 < x < y -> y < 1 -> 0 < rhog < rhol -> no_slip x rhol rhog < no_slip y rhol rhog.
Proof.
  intros Hx Hy Hr. rewrite !no_slip_form by (split; lra). pose proof (ratio_lt x y Hx Hy) as K.
  assert (Q : 0 < rhog / rhol) by (apply Rdiv_lt_0_compat; lra).
  assert ((1 - y) / y * (rhog / rhol) < (1 - x) / x * (rhog / rhol)) by (apply Rmult_lt_compat_r; lra).
  assert (0 < (1 - y) / y * (rhog / rhol)) by (apply Rmult_lt_0_compat; lra). apply div_lt_l; lra.
Qed.
Lemma over_rise s t : 0 < t < s -> exists a b, pdiv 1 (1 + s) = Ok a /\ pdiv 1 (1 + t) = Ok b /\ a < b.
Proof. intros. rewrite !pdiv_ok by lra. eexists _, _; splits; [reflexivity|reflexivity|]. apply div_lt_l; lra. Qed.
Theorem C85_rising x y rhol rhog D m mul mug sigma Pp Pc angle g meth : 0 < x < y -> y < 1 -> 0 < rhog < rhol ->
  0 < mul -> 0 < mug -> In meth rising ->
  exists a b, liquid_gas_voidage x rhol rhog D m (Some mul) (Some mug) sigma Pp Pc angle g (Some meth) = Ok a /\
    liquid_gas_voidage y rhol rhog D m (Some mul) (Some mug) sigma Pp Pc angle g (Some meth) = Ok b /\ a < b.
Proof.
  intros Hx Hy Hr Hl Hv HI. pose proof (ratio_lt x y Hx Hy) as K. pose proof (no_slip_lt x y rhol rhog Hx Hy Hr) as N.
  assert (MX : mixture x rhol rhog) by (split; lra). assert (MY : mixture y rhol rhog) by (split; lra).
  pose proof (no_slip_01 x rhol rhog MX) as NX. pose proof (no_slip_01 y rhol rhog MY) as NY.
  assert (X0 : 0 < x) by lra. assert (Y0 : 0 < y) by lra. assert (RX : 0 < 1 - x) by lra. assert (RY : 0 < 1 - y) by lra.
  assert (R1 : 0 < rhol) by lra. assert (R2 : 0 < rhog) by lra.
  cbn [In rising] in HI. each HI.
  - unfold Zivi. bss. apply over_rise. split; [posr|]. apply Rmult_lt_compat_r; [apply exp_pos|lra].
  - unfold Fauske. bss. apply over_rise. assert (0 < sqrt (rhog / rhol)) by (apply sqrt_lt_R0; posr). split; [apply Rmult_lt_0_compat; lra|]. apply Rmult_lt_compat_r; lra.
  - unfold Thom. bss. apply over_rise. split; [posr|]. repeat (apply Rmult_lt_compat_r; [apply exp_pos|]). lra.
  - unfold Turner_Wallis. bss. apply over_rise. split; [posr|]. repeat (apply Rmult_lt_compat_r; [apply exp_pos|]). apply Rpower_lt_l; lits; lra.
  - unfold Baroczy. destruct (Xtt_pos x rhol rhog MX mul mug Hl Hv 0.74 0.65 0.13) as (X & -> & HX & EX).
    destruct (Xtt_pos y rhol rhog MY mul mug Hl Hv 0.74 0.65 0.13) as (Y & -> & HY & EY). cbn [bind]. apply over_rise. split; auto.
    rewrite EX, EY. repeat (apply Rmult_lt_compat_r; [apply exp_pos|]). apply Rpower_lt_l; lits; lra.
  - rewrite !homogeneous_eval by auto. eexists _, _; splits; [reflexivity|reflexivity|]; auto.
  - unfold Armand. rewrite !homogeneous_eval by auto. cbn [bind]. eexists _, _; splits; [reflexivity|reflexivity|]. lits; lra.
  - unfold Chisholm_Armand. rewrite !homogeneous_eval by auto. cbn [bind]. set (a := no_slip x _ _) in *. set (b := no_slip y _ _) in *. clearbody a b.
    assert (SA : 0 < sqrt (1 - b) < sqrt (1 - a)). { split; [apply sqrt_lt_R0; lra|apply sqrt_lt_1; lra]. }
    bss. rewrite !pdiv_ok by lra. eexists _, _; splits; [reflexivity|reflexivity|].
    apply Rmult_lt_reg_r with ((a + sqrt (1 - a)) * (b + sqrt (1 - b))); [apply Rmult_lt_0_compat; lra|].
    replace (a / (a + sqrt (1 - a)) * ((a + sqrt (1 - a)) * (b + sqrt (1 - b)))) with (a * (b + sqrt (1 - b))) by (field; lra).
    replace (b / (b + sqrt (1 - b)) * ((a + sqrt (1 - a)) * (b + sqrt (1 - b)))) with (b * (a + sqrt (1 - a))) by (field; lra). nra.
  - pose proof (v_Nishino x rhol rhog MX) as (a & EA & _). pose proof (v_Nishino y rhol rhog MY) as (b & EB & _). rewrite EA, EB.
    eexists _, _; splits; [reflexivity|reflexivity|]. rewrite Nishino_eval in EA, EB by auto. apply Ok_inj' in EA, EB. subst a b.
    assert (sqrt (1 - no_slip y rhol rhog) < sqrt (1 - no_slip x rhol rhog)) by (apply sqrt_lt_1; lra). lra.
  - unfold Gregory_Scott. bss. assert (GX : 0 < x / rhog + (1 - x) / rhol) by posr. assert (GY : 0 < y / rhog + (1 - y) / rhol) by posr.
    rewrite !pdiv_ok by posr. eexists _, _; splits; [reflexivity|reflexivity|]. unfold no_slip in *.
    set (h := x / rhog + _) in *. set (k := y / rhog + _) in *. clearbody h k.
    replace (x / (rhog * (1.19 * h))) with (x / rhog / h / 1.19) by (field; lra). replace (y / (rhog * (1.19 * k))) with (y / rhog / k / 1.19) by (field; lra). lits; lra.
Qed.
Example C85_rising_ex : 0 < 0.1 < 0.4 /\ In "Thom"%string rising. Proof. split; [lits; lra|cbn; tauto]. Qed.

(** With no method named the two phases move at one speed: the density of the mixture then is that of the two volumes side by
    side, all-liquid gives 0 and all-gas gives 1. *)
Theorem C85_default x rhol rhog D m mul mug sigma Pp Pc angle g : mixture x rhol rhog ->
  liquid_gas_voidage x rhol rhog D m mul mug sigma Pp Pc angle g None = Ok (no_slip x rhol rhog) /\
  density_two_phase (no_slip x rhol rhog) rhol rhog = Ok (1 / (x / rhog + (1 - x) / rhol)).
Proof.
  intros HM. split; [lgv; apply homogeneous_eval; auto|]. unfold density_two_phase, no_slip. f_equal. destruct HM.
  assert (0 < x * rhol + (1 - x) * rhog) by nra. field. splits; try lra; nra.
Qed.
Theorem C85_pure rhol rhog D m mul mug sigma Pp Pc angle g :
  liquid_gas_voidage 0 rhol rhog D m mul mug sigma Pp Pc angle g None = Ok 0 /\
  liquid_gas_voidage 1 rhol rhog D m mul mug sigma Pp Pc angle g None = Ok 1.
Proof.
  split; lgv; unfold homogeneous.
  - rewrite (proj2 (Reqb_false 0 1)) by lra. rewrite (proj2 (Reqb_true 0 0)) by lra. reflexivity.
  - rewrite (proj2 (Reqb_true 1 1)) by lra. reflexivity.
Qed.
(** The slip-ratio correlations have no value for pure liquid: the call raises instead. *)
Theorem C85_pure_liquid_raises rhol rhog D m mul mug sigma Pp Pc angle g meth : 0 < rhog < rhol -> 0 < mul -> 0 < mug ->
  In meth ["Thom"; "Zivi"; "Smith"; "Fauske"; "Chisholm_voidage"; "Turner Wallis"; "Baroczy"; "Domanski Didion"]%string ->
  liquid_gas_voidage 0 rhol rhog D m (Some mul) (Some mug) sigma Pp Pc angle g (Some meth) = Err ZeroDivisionError.
Proof.
  intros Hr Hl Hv HI. cbn [In] in HI. each HI; unfold Thom, Zivi, Smith, Fauske, Chisholm_voidage, Turner_Wallis, Baroczy, Domanski_Didion, Lockhart_Martinelli_Xtt; cbv zeta; cbn [bind];
  rewrite ?pdiv_0 by lra; try reflexivity.
  rewrite !pdiv_ok by lra. cbn [bind]. rewrite psqrt_ok by (rewrite Rmult_0_l; lra). cbn [bind]. 
  reflexivity.
Qed.
Example C85_pure_liquid_ex : 0 < 2.5 < 800. Proof. lits; lra. Qed.

(** Measured density and void fraction determine each other. *)
Theorem C85_density alpha rho rhol rhog : rhog <> rhol ->
  (density_two_phase alpha rhol rhog = Ok rho <-> two_phase_voidage_experimental rho rhol rhog = Ok alpha).
Proof.
  intros H. assert (rhog - rhol <> 0) by lra. unfold density_two_phase, two_phase_voidage_experimental. rewrite pdiv_ok by auto. split; intros E; apply Ok_inj' in E; subst.
  - f_equal. field. auto.
  - f_equal. field. auto.
Qed.
Example C85_density_ex : density_two_phase 0.4 800 2.5 = Ok 481. Proof. unfold density_two_phase. f_equal. lits; lra. Qed.

(** [Graham] reports no gas at all for slow flow, by the Froude rate [Ft]; above that a proper fraction. *)
Theorem C85_graham x rhol rhog D m mul mug sigma Pp Pc angle g : mixture x rhol rhog -> 0 < D -> 0 < m -> 0 < g ->
  let Ft := sqrt ((m / (PI / 4 * D ^ 2)) ^ 2 * x ^ 3 / ((1 - x) * rhog ^ 2 * g * D)) in
  exists a, liquid_gas_voidage x rhol rhog (Some D) (Some m) (Some mul) (Some mug) sigma Pp Pc angle g (Some "Graham"%string) = Ok a /\
    (Ft < 0.01032 -> a = 0) /\ (0.01032 <= Ft -> 0 < a < 1).
Proof.
  intros HM HD Hm Hg Ft. pose proof (mx x rhol rhog HM) as (?&?&?&?&?&?). pose proof (A_pos D HD) as HA. lgv. unfold Graham. bs.
  assert (EF : Ft = sqrt (m / (0.25 * PI * D * D) * (m / (0.25 * PI * D * D)) * x * x * x / ((1 - x) * rhog * rhog * g * D))) by (unfold Ft; f_equal; pose proof PI_RGT_0; lits; field; splits; lra).
  pose proof (G_pos m D Hm HD) as HG. set (G := m / (0.25 * PI * D * D)) in *. rewrite pdiv_ok by posr. cbn [bind].
  set (T := G * G * x * x * x / _) in *. assert (HT : 0 < T) by (unfold T; posr). clearbody T. rewrite psqrt_ok by lra. cbn [bind]. rewrite <- EF. clearbody Ft.
  destruct (Rltb _ _) eqn:B; [apply Rltb_true in B; eexists; split; [reflexivity|split; intros; lra]|]. apply Rltb_false in B.
  assert (S : 0 < Ft) by (rewrite EF; apply sqrt_lt_R0; auto). rewrite plog_ok by auto. cbn [bind]. eexists; split; [reflexivity|]. split; [intros; lra|intros _].
  set (L := ln Ft). clearbody L. set (e := exp _). assert (0 < e) by apply exp_pos. assert (e < 1); [|lra].
  unfold e. rewrite <- exp_0. apply exp_increasing. clear. pose proof (Rle_0_sqr (L + 4.573)) as K. unfold Rsqr in K. lits. nra.
Qed.

(** [Kopte_Newell_Chato] gives a proper fraction as long as the Froude rate stays below 2900. *)
Theorem C85_kopte x rhol rhog D m mul mug sigma Pp Pc angle g : mixture x rhol rhog -> 0 < D -> 0 < m -> 0 < g ->
  (m / (PI / 4 * D ^ 2)) ^ 2 * x ^ 3 / ((1 - x) * rhog ^ 2 * g * D) <= 2900 ^ 2 ->
  fraction (liquid_gas_voidage x rhol rhog (Some D) (Some m) mul mug sigma Pp Pc angle g (Some "Kopte_Newell_Chato"%string)).
Proof.
  intros HM HD Hm Hg HF. pose proof (mx x rhol rhog HM) as (?&?&?&?&?&?). pose proof (A_pos D HD) as HA. lgv. unfold Kopte_Newell_Chato. bs.
  replace (PI / 4 * D ^ 2) with (0.25 * PI * D * D) in HF by (lits; field).
  pose proof (G_pos m D Hm HD) as HG. set (G := m / _) in *. clearbody G. rewrite pdiv_ok by posr. cbn [bind].
  replace (G ^ 2 * x ^ 3 / ((1 - x) * rhog ^ 2 * g * D)) with (G * G * x * x * x / ((1 - x) * rhog * rhog * g * D)) in HF by (field; lra).
  set (T := _ / _) in *. assert (HT : 0 < T) by (unfold T; posr). clearbody T. rewrite psqrt_ok by lra. cbn [bind].
  destruct (Rltb _ _) eqn:B; [apply (slips_fraction x rhol rhog); auto; apply v_homogeneous; auto|]. apply Rltb_false in B.
  assert (S : 0 < sqrt T <= 2900). { split; [apply sqrt_lt_R0; auto|]. rewrite <- (sqrt_pow2 2900) by lra. apply sqrt_le_1_alt. auto. }
  rewrite plog_ok by lra. cbn [bind]. eexists; split; [reflexivity|].
  set (L := ln (sqrt T)). assert (HL : - 3.13 <= L <= 8).
  { unfold L. split.
    - apply Rle_trans with (ln 0.044); [itv 30%nat|]. apply ln_le; [lits; lra|auto].
    - apply Rle_trans with (ln 2900); [apply ln_le; lra|itv 30%nat]. }
  clearbody L. set (e := exp _). assert (B1 : e < 1). { unfold e. rewrite <- exp_0. apply exp_increasing. clear - HL. lits. destruct (Rle_dec 0 L); nra. }
  assert (B2 : 0.045 < e). { apply Rlt_le_trans with (exp (-3)); [itv 30%nat|]. unfold e. apply Rlt_le, exp_increasing. clear - HL.
    pose proof (Rmult_le_pos _ _ (Rle_0_sqr (L - 6.1)) (ltac:(lits; lra) : 0 <= L + 7.71)) as K. unfold Rsqr in K. lits. nra. }
  lits; lra.
Qed.

Example C85_kopte_ex : mixture (1 / 2) 800 2 /\ (PI / (PI / 4 * 1 ^ 2)) ^ 2 * (1 / 2) ^ 3 / ((1 - 1 / 2) * 2 ^ 2 * 10 * 1) <= 2900 ^ 2.
Proof. split; [split; lra|]. pose proof PI_RGT_0. replace (PI / (PI / 4 * 1 ^ 2)) with 4 by (field; lra). lra. Qed.

(** [Tandon Varma Gupta] and [Harms] are never negative, but exceed 1 (for a viscous liquid); [Domanski Didion] becomes negative at
    low quality. *)
Theorem C85_nonneg x rhol rhog D m mul mug sigma Pp Pc angle g meth : mixture x rhol rhog -> 0 < D -> 0 < m -> 0 < mul -> 0 < mug ->
  In meth ["Tandon Varma Gupta"; "Harms"]%string ->
  exists a, liquid_gas_voidage x rhol rhog (Some D) (Some m) (Some mul) (Some mug) sigma Pp Pc angle g (Some meth) = Ok a /\ 0 <= a.
Proof.
  intros HM HD Hm Hl Hv HI. pose proof (mx x rhol rhog HM) as (?&?&?&?&?&?). pose proof (A_pos D HD) as HA. pose proof (G_pos m D Hm HD) as HG. cbn [In] in HI. each HI.
  - unfold Tandon_Varma_Gupta. bs. set (G := m / _) in *. clearbody G. bs. destruct (Xtt_pos x rhol rhog HM mul mug Hl Hv 0.9 0.5 0.1) as (X & -> & HX & EX). cbn [bind].
    assert (HR : 0 < G * D / mul) by posr. set (Re := G * D / mul) in *. clearbody Re. bs. bs.
    set (F := 0.15 * _). assert (HF : 0 < F) by (unfold F; posr). clearbody F. assert (HFF : 0 < F * F) by posr. destruct (Rltb _ _); bss; (eexists; split; [reflexivity|]).
    + set (t := Rpower Re (- 0.315)). replace (Rpower Re (- 0.63)) with (t * t) by (unfold t; rewrite <- Rpower_plus; f_equal; lits; lra).
      replace (1 - 1.928 * t / F + 0.9293 * (t * t) / (F * F)) with (1 - 1.928 * (t / F) + 0.9293 * ((t / F) * (t / F))) by (field; lra).
      set (z := t / F). clear. pose proof (Rle_0_sqr (z - 1.037)) as K. unfold Rsqr in K. lits. nra.
    + set (t := Rpower Re (- 0.088)). replace (Rpower Re (- 0.176)) with (t * t) by (unfold t; rewrite <- Rpower_plus; f_equal; lits; lra).
      replace (1 - 0.38 * t / F + 0.0361 * (t * t) / (F * F)) with (Rsqr (1 - 0.19 * (t / F))) by (unfold Rsqr; lits; field; lra). apply Rle_0_sqr.
  - unfold Harms. bs. set (G := m / _) in *. clearbody G. bs. destruct (Xtt_pos x rhol rhog HM mul mug Hl Hv 0.9 0.5 0.1) as (X & -> & HX & EX). cbn [bind].
    assert (HR : 0 < G * D * (1 - x) / mul) by posr. set (Re := G * D * (1 - x) / mul) in *. clearbody Re. bs. cbv zeta. bs. bs.
    assert (HQ : 0 < 1.376 + 7.242 * Rpower X (- 1.655)) by posr. bs. assert (HS : 0 < sqrt (1.376 + 7.242 * Rpower X (- 1.655))) by (apply sqrt_lt_R0; auto).
    bs. eexists; split; [reflexivity|]. apply pow2_ge_0.
Qed.
Lemma Xtt_ex : Lockhart_Martinelli_Xtt (1 / 10001) 4 1 1 1 0.9 0.5 0.1 None = Ok (Rpower 10000 0.9 / 2).
Proof.
  unfold Lockhart_Martinelli_Xtt. cbn [bind]. bss. f_equal.
  replace ((1 - 1 / 10001) / (1 / 10001)) with 10000 by field. replace (Rpower (1 / 4) 0.5) with (1 / 2).
  2:{ replace 0.5 with (/ 2) by (lits; lra). rewrite Rpower_sqrt by lra. replace (1 / 4) with ((1 / 2) * (1 / 2)) by field. rewrite sqrt_square; lra. }
  replace (1 / 1) with 1 by field. unfold Rpower at 2. rewrite ln_1, Rmult_0_r, exp_0. field.
Qed.
Lemma Xtt_big : 1000 < Rpower 10000 0.9 / 2.
Proof. assert (2000 < Rpower 10000 0.9); [|lra]. unfold Rpower. itv 30%nat. Qed.
Theorem C85_domanski_negative_refuted sigma Pp Pc D m angle g : exists a,
  liquid_gas_voidage (1 / 10001) 4 1 D m (Some 1) (Some 1) sigma Pp Pc angle g (Some "Domanski Didion"%string) = Ok a /\ a < 0.
Proof.
  lgv. unfold Domanski_Didion. rewrite Xtt_ex. cbn [bind]. pose proof Xtt_big as B. rewrite (proj2 (Rltb_false _ 10)) by lra. rewrite plog_ok by lra. cbn [bind].
  eexists; split; [reflexivity|]. assert (K : 6 < ln (Rpower 10000 0.9 / 2)). { apply Rlt_trans with (ln 1000); [itv 30%nat|apply ln_increasing; lra]. } lits; lra.
Qed.
Lemma pow1 n : Rpower 1 n = 1. Proof. unfold Rpower. rewrite ln_1, Rmult_0_r. apply exp_0. Qed.
Theorem C85_tandon_above_one_refuted sigma Pp Pc angle g : exists a,
  liquid_gas_voidage (1 / 10001) 4 1 (Some 1) (Some (PI / 4)) (Some 1) (Some 1) sigma Pp Pc angle g (Some "Tandon Varma Gupta"%string) = Ok a /\ 1 < a.
Proof.
  pose proof PI_RGT_0. lgv. unfold Tandon_Varma_Gupta. rewrite pdiv_ok by (lits; lra). cbn [bind].
  replace (PI / 4 / (0.25 * PI * 1 * 1)) with 1 by (lits; field; lra). rewrite pdiv_ok by lra. cbn [bind]. replace (1 * 1 / 1) with 1 by field.
  rewrite Xtt_ex. cbn [bind]. pose proof Xtt_big as B. set (X := Rpower 10000 0.9 / 2) in *. clearbody X. bs. bs.
  assert (P : 0 < Rpower X (- 0.476) < 1). { split; [apply exp_pos|]. rewrite <- (Rpower_O X) by lra. apply Rpower_lt; lits; lra. }
  assert (Q : 0 < 1 / X < 0.001). { split; [posr|]. replace 0.001 with (1 / 1000) by (lits; field). apply div_lt_l; lra. }
  set (F := 0.15 * _). assert (HF : 0 < F < 0.43) by (unfold F; lits; lra). clearbody F. rewrite (proj2 (Rltb_true 1 1125)) by lra.
  rewrite !ppow_ok by lra. cbn [bind]. rewrite !pow1. assert (0 < F * F) by nra. bss. eexists; split; [reflexivity|].
  replace (1 - 1.928 * 1 / F + 0.9293 * 1 / (F * F)) with (1 + (0.9293 - 1.928 * F) / (F * F)) by (field; lra).
  assert (0 < (0.9293 - 1.928 * F) / (F * F)); [|lra]. apply Rdiv_lt_0_compat; [lits; lra|lra].
Qed.
Theorem C85_harms_above_one_refuted sigma Pp Pc angle g : exists a,
  liquid_gas_voidage (1 / 2) 4 1 (Some 1) (Some (PI / 2)) (Some 1) (Some 1) sigma Pp Pc angle g (Some "Harms"%string) = Ok a /\ 1 < a.
Proof.
  pose proof PI_RGT_0. lgv. unfold Harms. rewrite pdiv_ok by (lits; lra). cbn [bind].
  replace (PI / 2 / (0.25 * PI * 1 * 1)) with 2 by (lits; field; lra). rewrite pdiv_ok by lra. cbn [bind]. replace (2 * 1 * (1 - 1 / 2) / 1) with 1 by field.
  assert (E : Lockhart_Martinelli_Xtt (1 / 2) 4 1 1 1 0.9 0.5 0.1 None = Ok (1 / 2)).
  { unfold Lockhart_Martinelli_Xtt. cbn [bind]. bss. f_equal. replace ((1 - 1 / 2) / (1 / 2)) with 1 by field. replace (1 / 1) with 1 by field. rewrite !pow1.
    replace 0.5 with (/ 2) by (lits; lra). rewrite Rpower_sqrt by lra. replace (1 / 4) with ((1 / 2) * (1 / 2)) by field. rewrite sqrt_square; lra. }
  rewrite E. cbn [bind]. rewrite psqrt_ok, sqrt_1 by lra. cbn [bind]. cbv zeta. rewrite !ppow_ok by lra. cbn [bind]. rewrite pow1.
  set (w := Rpower (1 / 2) _). assert (W : 0 < w < 4). { split; [apply exp_pos|]. unfold w, Rpower. itv 30%nat. }
  clearbody w. rewrite psqrt_ok by (lits; lra). cbn [bind].
  assert (S : 1 < sqrt (1.376 + 7.242 * w) < 6).
  { split; [rewrite <- sqrt_1 at 1; apply sqrt_lt_1; lits; lra|]. replace 6 with (sqrt (6 * 6)) by (apply sqrt_square; lra). apply sqrt_lt_1; lits; lra. }
  set (s := sqrt _) in *. clearbody s. rewrite pdiv_ok by lra. cbn [bind]. eexists; split; [reflexivity|].
  set (y := _ / s). assert (Y : 2 < y). { unfold y. apply Rmult_lt_reg_r with s; [lra|]. unfold Rdiv at 1. rewrite Rmult_assoc, Rinv_l by lra. lits; lra. }
  cbn [pow]. nra.
Qed.

(** A method is refused for want of an argument exactly when [liquid_gas_voidage_methods] does not offer it, and arguments a method
    does not need make no difference. *)
Definition names29 : list string := List.map fst two_phase_voidage_correlations.
Definition fill (o : option R) (d : R) : option R := match o with Some v => Some v | None => Some d end.
Lemma names29_nodup : NoDup names29.
Proof.
  assert (G : forall l : list string, (fix nd (l : list string) := match l with [] => true | a :: r => negb (existsb (String.eqb a) r) && nd r end) l = true -> NoDup l).
  { induction l as [|a r IH]; [constructor|]. intros E. apply andb_true_iff in E. destruct E as [E1 E2]. constructor; [|auto].
    intros HI. apply negb_true_iff in E1. enough (existsb (String.eqb a) r = true) by congruence. apply existsb_exists. exists a. split; auto. apply String.eqb_refl. }
  apply G. vm_compute. reflexivity.
Qed.
Lemma assoc_unique (l : list (string * list string)) n a b : NoDup (List.map fst l) -> In (n, a) l -> In (n, b) l -> a = b.
Proof.
  induction l as [|[k v] l IH]; cbn; intros N HA HB; [contradiction|]. inversion N as [|? ? N1 N2]; subst.
  destruct HA as [EA|HA], HB as [EB|HB]; [congruence| | |auto].
  - injection EA as <- <-. exfalso. apply N1. apply in_map_iff. exists (k, b). auto.
  - injection EB as <- <-. exfalso. apply N1. apply in_map_iff. exists (k, a). auto.
Qed.
Lemma offered_iff n l (vs : string -> bool) : In (n, l) two_phase_voidage_correlations ->
  In n (List.map fst (List.filter (fun e : string * list string => forallb vs (snd e)) two_phase_voidage_correlations)) <-> forallb vs l = true.
Proof.
  intros HI. rewrite in_map_iff. split.
  - intros ((n' & l') & E & F). cbn in E. subst n'. apply filter_In in F. destruct F as [F1 F2]. cbn in F2.
    rewrite (assoc_unique _ n l l' names29_nodup HI F1). exact F2.
  - intros F. exists (n, l). split; auto. apply filter_In. auto.
Qed.
Theorem C85_offered x rhol rhog D m mul mug sigma Pp Pc angle g meth : In meth names29 ->
  (~ In meth (liquid_gas_voidage_methods D m mul mug sigma Pp Pc) ->
     liquid_gas_voidage x rhol rhog D m mul mug sigma Pp Pc angle g (Some meth) = Err TypeError) /\
  (In meth (liquid_gas_voidage_methods D m mul mug sigma Pp Pc) -> forall d,
     liquid_gas_voidage x rhol rhog D m mul mug sigma Pp Pc angle g (Some meth) =
     liquid_gas_voidage x rhol rhog (fill D d) (fill m d) (fill mul d) (fill mug d) (fill sigma d) (fill Pp d) (fill Pc d) angle g (Some meth)).
Proof.
  intros HI. cbn [In names29 List.map fst two_phase_voidage_correlations] in HI. unfold liquid_gas_voidage_methods. each HI;
  (match goal with |- context [In ?n (List.map fst (List.filter (fun e => forallb ?vs (snd e)) _))] =>
     let l := eval vm_compute in (match find (fun e => String.eqb n (fst e)) two_phase_voidage_correlations with Some e => snd e | None => [] end) in
     pose proof (offered_iff n l vs ltac:(cbn; tauto)) as O end);
  rewrite O; clear O; cbv [forallb String.eqb Ascii.eqb Bool.eqb andb fill];
  repeat match goal with |- context [match ?o with Some _ => _ | None => _ end] => destruct o end; (split; [intros K; first [reflexivity | exfalso; apply K; reflexivity] | intros K dd; first [reflexivity | discriminate K]]).
Qed.
Theorem C85_unknown x rhol rhog D m mul mug sigma Pp Pc angle g meth : ~ In meth names29 ->
  liquid_gas_voidage x rhol rhog D m mul mug sigma Pp Pc angle g (Some meth) = Err ValueError.
Proof.
  intros H. unfold liquid_gas_voidage. cbn [bind].
  assert (K : forall n, existsb (String.eqb n) names29 = true -> String.eqb meth n = false).
  { intros n E. apply String.eqb_neq. intros ->. apply H. apply existsb_exists in E. destruct E as (y & HY & E). apply String.eqb_eq in E. subst. exact HY. }
  repeat match goal with |- context [String.eqb meth ?n] => rewrite !(K n) by reflexivity end. reflexivity.
Qed.
Example C85_offered_ex : In "Dix"%string names29 /\ ~ In "Dix"%string (liquid_gas_voidage_methods (Some 1) (Some 1) None None None None None) /\
  In "Zivi"%string (liquid_gas_voidage_methods None None None None None None None) /\ ~ In "Nusselt"%string names29.
Proof. splits; cbn; intuition discriminate. Qed.

Print Assumptions C85_slip.
Print Assumptions C85_fraction.
Print Assumptions C85_rising.
Print Assumptions C85_default.
Print Assumptions C85_pure.
Print Assumptions C85_pure_liquid_raises.
Print Assumptions C85_density.
Print Assumptions C85_graham.
Print Assumptions C85_kopte.
Print Assumptions C85_nonneg.
Print Assumptions C85_domanski_negative_refuted.
Print Assumptions C85_tandon_above_one_refuted.
Print Assumptions C85_harms_above_one_refuted.
Print Assumptions C85_offered.
Print Assumptions C85_unknown.
