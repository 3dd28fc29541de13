(** Closed forms of the two-phase pressure drop correlations. *)
From Coq Require Import Reals Lra Lia List Bool String.
From Verif Require Import Base Model_Real Proofs_Real Interval Model_Friction Model_Voidage Model_Core Model_TwoPhase Proofs_TwoPhase Properties_Voidage.
Import ListNotations.
Open Scope R_scope.

(** separated flow: each phase alone plus an interaction term *)
Definition separated (C l g : R) : R := l + C * sqrt (l * g) + g.
(** density of a mixture whose phases move together *)
Definition rho_mix (x rhol rhog : R) : R := 1 / (x / rhog + (1 - x) / rhol).

Lemma chisholm_form L l g C : 0 < L -> 0 < l -> 0 < g -> L * l * (1 + C / sqrt (l / g) + 1 / (sqrt (l / g) * sqrt (l / g))) = L * separated C l g.
Proof.
  intros HL Hl Hg. assert (0 < l / g) by posr. rewrite sqrt_sqrt by lra. unfold separated. replace (sqrt (l / g)) with (sqrt l / sqrt g) by (symmetry; apply sqrt_div_alt; auto).
  rewrite sqrt_mult by lra. assert (0 < sqrt l) by now apply sqrt_lt_R0. assert (0 < sqrt g) by now apply sqrt_lt_R0.
  transitivity (L * (l + C * (l / sqrt l) * sqrt g + g)); [field; splits; lra|]. do 3 f_equal. replace (l / sqrt l) with (sqrt l) by (rewrite <- (sqrt_sqrt l) at 2 by lra; field; lra). ring.
Qed.
Lemma chisholm_form' L l g C : 0 < L -> 0 < l -> 0 < g -> L * g * (1 + C * sqrt (l / g) + sqrt (l / g) * sqrt (l / g)) = L * separated C l g.
Proof.
  intros HL Hl Hg. assert (0 < l / g) by posr. rewrite sqrt_sqrt by lra. unfold separated. replace (sqrt (l / g)) with (sqrt l / sqrt g) by (symmetry; apply sqrt_div_alt; auto).
  rewrite sqrt_mult by lra. assert (0 < sqrt l) by now apply sqrt_lt_R0. assert (0 < sqrt g) by now apply sqrt_lt_R0.
  transitivity (L * (l + C * sqrt l * (g / sqrt g) + g)); [field; splits; lra|]. do 3 f_equal. replace (g / sqrt g) with (sqrt g) by (rewrite <- (sqrt_sqrt g) at 2 by lra; field; lra). ring.
Qed.
Lemma confinement_ok D rhol rhog sigma : 0 < D -> 0 < rhog < rhol -> 0 < sigma -> Confinement D rhol rhog sigma 9.80665 = Ok (sqrt (sigma / (9.80665 * (rhol - rhog))) / D) /\ 0 < sqrt (sigma / (9.80665 * (rhol - rhog))) / D.
Proof.
  intros HD Hr Hs. assert (0 < 9.80665 * (rhol - rhog)) by (apply Rmult_lt_0_compat; [lits|]; lra). assert (0 < sqrt (sigma / (9.80665 * (rhol - rhog)))) by posr.
  split; [|posr]. unfold Confinement. mrun. reflexivity.
Qed.
Lemma drop_code1 W M rho mu D rough L : fac W M rho mu D rough * L / D * (0.5 * rho * vel M rho D * vel M rho D) = L * drop W M rho mu D rough 1.
Proof. rewrite drop_code. unfold drop. unfold Rdiv. ring. Qed.
Lemma scaled a b L : 0 < L -> 0 < b -> L * a / (L * b) = a / b. Proof. intros. field. lra. Qed.
Lemma pw_1 y : pw 1 y = 1. Proof. unfold pw. rewrite (proj2 (Rltb_true 0 1)) by lra. unfold Rpower. rewrite ln_1, Rmult_0_r, exp_0. reflexivity. Qed.
Lemma pw_0 y : pw 0 y = 0. Proof. unfold pw. rewrite (proj2 (Rltb_false 0 0)) by lra. reflexivity. Qed.
Lemma pw_in x y : 0 < x -> pw x y = Rpower x y. Proof. intros. unfold pw. now rewrite (proj2 (Rltb_true 0 x)). Qed.
Lemma sqrt_nz x : 0 <= x -> psqrt x = Ok (sqrt x). Proof. apply psqrt_ok. Qed.
Lemma specific_pos x rhol rhog : 0 <= x <= 1 -> 0 < rhog < rhol -> 0 < x / rhog + (1 - x) / rhol.
Proof.
  intros Hx Hr. assert (0 < 1 / rhol <= 1 / rhog). { split; [posr; lra|]. apply div_le_l; lra. }
  replace (x / rhog + (1 - x) / rhol) with (x * (1 / rhog) + (1 - x) * (1 / rhol)) by (field; lra). nra.
Qed.
Lemma homogeneous_density x rhol rhog : 0 <= x <= 1 -> 0 < rhog < rhol -> exists a, homogeneous x rhol rhog = Ok a /\ rhol * (1 - a) + rhog * a = rho_mix x rhol rhog /\ 0 < rho_mix x rhol rhog.
Proof.
  intros Hx Hr. pose proof (specific_pos x rhol rhog Hx Hr) as Hp. assert (HP : 0 < rho_mix x rhol rhog) by (unfold rho_mix; posr).
  destruct (Req_dec x 1) as [->|H1]; [|destruct (Req_dec x 0) as [->|H0]].
  - exists 1. splits; auto. unfold homogeneous. now rewrite (proj2 (Reqb_true 1 1)). unfold rho_mix. field. lra.
  - exists 0. splits; auto. unfold homogeneous. rewrite (proj2 (Reqb_false 0 1)) by lra. now rewrite (proj2 (Reqb_true 0 0)). unfold rho_mix. field. lra.
  - exists (no_slip x rhol rhog). splits; auto. { apply homogeneous_eval. split; lra. } unfold rho_mix, no_slip. field. splits; try lra. assert (0 < x * rhol + (1 - x) * rhog) by nra. lra.
Qed.

Lemma rey_code M rho mu D : 0 < rho -> 0 < mu -> 0 < D -> Reynolds (vel M rho D) D (Some rho) (Some mu) None = Ok (rey M rho mu D).
Proof. intros. unfold Reynolds. rewrite pdiv_ok by lra. cbn [bind]. assert (0 < mu / rho) by posr. rewrite pdiv_ok by lra. unfold rey. f_equal. field. lra. Qed.

(** operating points with the phases not necessarily both present *)
Record stream (m x rhol rhog mul mug D rough : R) : Prop := mk_stream {
  s_m : 0 < m; s_x : 0 <= x <= 1; s_rho : 0 < rhog < rhol; s_mu : 0 < mug < mul; s_D : 0 < D; s_rough : 0 <= rough / D <= 0.05 }.

(** [drop _ _ _ _ _ _ 1] is the pressure gradient of one phase flowing alone *)
Definition grad (W : R -> R) (M rho mu D rough : R) : R := drop W M rho mu D rough 1.
Lemma drop_code2 W M rho mu D rough L : fac W M rho mu D rough * L / D * (0.5 * rho * vel M rho D * vel M rho D) = L * grad W M rho mu D rough.
Proof. apply drop_code1. Qed.

Section Whole.
Variable W : R -> R.
Variables m x rhol rhog mul mug sigma D rough : R.
Hypothesis F : stream m x rhol rhog mul mug D rough.
Hypothesis Hs : 0 < sigma.
Let lo := grad W m rhol mul D rough.
Let go := grad W m rhog mug D rough.
Lemma sfacts : (0 < lo /\ 0 < go) /\ (0 < vel m rhol D /\ 0 < vel m rhog D) /\ (0 < rey m rhol mul D /\ 0 < rey m rhog mug D) /\ (0 < fac W m rhol mul D rough /\ 0 < fac W m rhog mug D rough).
Proof. destruct F. splits; try (apply drop_pos; auto; lra); try (apply vel_pos; auto; lra); try (apply rey_pos; auto; lra); try (apply fac_pos; auto; lra). Qed.
Lemma ratio_code : rhol * fac W m rhog mug D rough / (rhog * fac W m rhol mul D rough) = go / lo.
Proof. destruct sfacts as (_ & _ & _ & F1 & F2). destruct F. unfold go, lo, grad, drop, vel. pose proof PI_RGT_0. field. splits; lra. Qed.
Ltac st := destruct sfacts as ((Q1 & Q2) & (V1 & V2) & (R1 & R2) & (F1 & F2)); pose proof F as F'; destruct F' as [Hm Hx Hrho Hmu HD Hr]; pose proof (area_pos _ HD) as HA.
Ltac go_on L := cbv zeta; rewrite ?(Rmult_comm (0.25 * PI * _ * _) _); repeat first [ rewrite phase by (auto; lra) | rewrite (pdiv_ok (_ * L) D) by lra; cbn [bind] | rewrite phase2 by (auto; lra) ]; rewrite ?drop_code2; fold lo go.

Lemma MSH_eval L : 0 < L -> Muller_Steinhagen_Heck W m x rhol rhog mul mug D rough L = Ok (L * ((lo + 2 * (go - lo) * x) * cbrt (1 - x) + go * x ^ 3)).
Proof. intros HL. st. unfold Muller_Steinhagen_Heck. go_on L. mrun. f_equal. ring. Qed.

Definition mix_v : R := m / rho_mix x rhol rhog / (0.25 * PI * D * D).
Definition mix_Fr : R := mix_v / sqrt (D * 9.80665) * (mix_v / sqrt (D * 9.80665)).
Definition mix_We : R := mix_v * mix_v * D * rho_mix x rhol rhog / sigma.
Definition Friedel_term : R := 3.24 * (pw x 0.78 * pw (1 - x) 0.224) * (Rpower (rhol / rhog) 0.91 * Rpower (mug / mul) 0.19 * Rpower (1 - mug / mul) 0.7) / (Rpower mix_Fr 0.0454 * Rpower mix_We 0.035).
Lemma Friedel_term_nonneg : 0 <= Friedel_term.
Proof. unfold Friedel_term. apply Rmult_le_pos; [|left; apply Rinv_0_lt_compat; posr]. apply Rmult_le_pos; [|left; posr]. apply Rmult_le_pos; [lits; lra|]. apply Rmult_le_pos; apply pw_nonneg. Qed.
Lemma Friedel_eval L : 0 < L -> Friedel W m x rhol rhog mul mug sigma D rough L = Ok (L * ((1 - x) ^ 2 * lo + x ^ 2 * go + Friedel_term * lo)).
Proof.
  intros HL. st. destruct (homogeneous_density x rhol rhog Hx Hrho) as (a & Ea & Eb & Hb). assert (0 < mug / mul < 1). { split; [posr; lra|]. apply Rmult_lt_reg_r with mul; [lra|]. field_simplify; lra. }
  unfold Friedel. rewrite Ea. go_on L. rewrite !ppow_pw by (lits; lra). cbn [bind]. rewrite Eb. assert (0 < D * 9.80665) by (apply Rmult_lt_0_compat; [|lits]; lra).
  unfold Froude, Weber. mrun. rewrite ratio_code. unfold Friedel_term, mix_We, mix_Fr. fold mix_v. f_equal. set (P := _ / (Rpower _ 0.0454 * _)). field. lra.
Qed.
Definition Chen_factor : R :=
  let Bo := 9.80665 * (rhol - rhog) * D * D / sigma / 4 in
  if Rltb Bo 2.5 then 0.0333 * Rpower (rey m rhol mul D) 0.45 / (Rpower (rey (m * x) rhog mug D) 0.09 * (1 + 0.4 * exp (- Bo)))
  else Rpower mix_We 0.2 / (2.5 + 0.06 * Bo).
Lemma Chen_eval L : 0 < L -> 0 < x -> Chen_Friedel W m x rhol rhog mul mug sigma D rough L = Ok (L * ((1 - x) ^ 2 * lo + x ^ 2 * go + Friedel_term * lo) * Chen_factor) /\ 0 < Chen_factor.
Proof.
  intros HL Hx0. st. assert (0 < m * x) by (apply Rmult_lt_0_compat; auto). pose proof (rey_pos (m * x) rhog mug D). pose proof (specific_pos x rhol rhog Hx Hrho) as Hp.
  assert (0 < mug / mul < 1). { split; [posr; lra|]. apply Rmult_lt_reg_r with mul; [lra|]. field_simplify; lra. } assert (0 < D * 9.80665) by (apply Rmult_lt_0_compat; [|lits]; lra).
  assert (HB : 0 < 9.80665 * (rhol - rhog) * D * D / sigma / 4) by (assert (0 < rhol - rhog) by lra; posr). assert (0 < rho_mix x rhol rhog) by (unfold rho_mix; posr).
  unfold Chen_Friedel. cbv zeta. rewrite ?(Rmult_comm (0.25 * PI * _ * _) _). rewrite phase by (auto; lra). rewrite (pdiv_ok (_ * L) D) by lra; cbn [bind]. rewrite phase by (auto; lra). rewrite ?drop_code2; fold lo go.
  rewrite !(ppow_pw x), !(ppow_pw (1 - x)) by (lits; lra). cbn [bind]. 
  unfold Froude, Weber, Bond. mrun. fold (rho_mix x rhol rhog). mrun. rewrite ratio_code. fold mix_v. 
  unfold Chen_factor. cbv zeta. set (Bo := 9.80665 * (rhol - rhog) * D * D / sigma / 4) in *. destruct (Rltb Bo 2.5).
  - fold (vel (m * x) rhog D). rewrite rey_code by lra. cbn [bind]. assert (0 < rey (m * x) rhog mug D) by (apply rey_pos; lra). mrun. split; [|posr]. f_equal. unfold Friedel_term, mix_We, mix_Fr. set (P := _ / (Rpower _ 0.0454 * _)). set (Q := 0.0333 * _ / _). field. lra.
  - assert (0 < mix_v) by (unfold mix_v; posr). mrun. split; [|posr]. f_equal. unfold Friedel_term, mix_We, mix_Fr. set (P := _ / (Rpower _ 0.0454 * _)). set (Q := Rpower _ 0.2 / _). field. lra.
Qed.
Lemma Tran_eval L : 0 < L -> Tran W m x rhol rhog mul mug sigma D rough L = Ok (L * (lo + (4.3 * go - lo) * (sqrt (sigma / (9.80665 * (rhol - rhog))) / D * pw x 0.875 * pw (1 - x) 0.875 + pw x 1.75))).
Proof.
  intros HL. st. destruct (confinement_ok D rhol rhog sigma) as [E HC]; auto. unfold Tran. rewrite E. go_on L. rewrite (pdiv_ok (L * go)) by posr. rewrite scaled by auto. cbn [bind]. rewrite !ppow_pw by (lits; lra). cbn [bind]. f_equal. field. splits; lra.
Qed.

Definition Chisholm_B (G Gam : R) : R :=
  if Rleb Gam 9.5 then if Rleb G 500 then 4.8 else if Rltb G 1900 then 2400 / G else 55 / sqrt G
  else if Rleb Gam 28 then if Rleb G 600 then 520 / sqrt G / Gam else 21 / Gam
  else 15000 / (Gam * Gam * sqrt G).
Definition Baroczy_B (G Gam : R) : R := if Rleb Gam 9.5 then 55 / sqrt G else if Rleb Gam 28 then 520 / (sqrt G * Gam) else 15000 / (sqrt G * (Gam * Gam)).
Lemma Chisholm_B_pos G Gam : 0 < G -> 0 < Gam -> 0 < Chisholm_B G Gam.
Proof. intros. unfold Chisholm_B. repeat match goal with |- context [if ?c then _ else _] => destruct c end; posr. Qed.
Lemma Baroczy_B_pos G Gam : 0 < G -> 0 < Gam -> 0 < Baroczy_B G Gam.
Proof. intros. unfold Baroczy_B. repeat match goal with |- context [if ?c then _ else _] => destruct c end; posr. Qed.
Definition mass_flux : R := m / (0.25 * PI * D * D).
Lemma flux_pos : 0 < mass_flux. Proof. st. unfold mass_flux. posr. Qed.
(** the Chisholm interpolation between the two single-phase gradients *)
Definition interpolation (B : R) : R := lo + (go - lo) * (B * (pw x 0.875 * pw (1 - x) 0.875) + pw x 1.75).
Lemma interpolation_code L B : 0 < L -> (1 + (sqrt (go / lo) * sqrt (go / lo) - 1) * (B * pw x ((2 - 0.25) * 0.5) * pw (1 - x) ((2 - 0.25) * 0.5) + pw x (2 - 0.25))) * (L * lo) = L * interpolation B.
Proof.
  intros HL. st. assert (0 < go / lo) by posr. rewrite sqrt_sqrt by lra. replace ((2 - 0.25) * 0.5) with 0.875 by (lits; lra). replace (2 - 0.25) with 1.75 by (lits; lra). unfold interpolation. field. lra.
Qed.
Lemma Chisholm_eval L : 0 < L -> Chisholm W m x rhol rhog mul mug D rough L false = Ok (L * interpolation (Chisholm_B mass_flux (sqrt (go / lo)))).
Proof.
  intros HL. st. pose proof flux_pos as HG. unfold mass_flux in HG. assert (0 < go / lo) by posr. assert (HS : 0 < sqrt (go / lo)) by posr. unfold Chisholm. cbv zeta. rewrite (pdiv_ok m) by lra. cbn [bind]. go_on L. rewrite (pdiv_ok (L * go)) by posr. rewrite scaled by auto. cbn [bind]. rewrite psqrt_ok by lra. cbn [bind].
  fold mass_flux in *. set (S := sqrt (go / lo)) in *.
  assert (E : (if Rleb S 9.5 then if Rleb mass_flux 500 then Ok 4.8 else if Rltb mass_flux 1900 then pdiv 2400 mass_flux else t15 <- psqrt mass_flux;; pdiv 55 t15
    else if Rleb S 28 then if Rleb mass_flux 600 then t17 <- psqrt mass_flux;; t18 <- pdiv 520 t17;; pdiv t18 S else pdiv 21 S else t21 <- psqrt mass_flux;; pdiv 15000 (S * S * t21)) = Ok (Chisholm_B mass_flux S)).
  { unfold Chisholm_B. repeat match goal with |- context [if ?c then _ else _] => destruct c end; mrun; reflexivity. }
  rewrite E. cbn [bind]. rewrite !ppow_pw by (lits; lra). cbn [bind]. unfold S. now rewrite interpolation_code.
Qed.
Lemma Baroczy_eval L : 0 < L -> Baroczy_Chisholm W m x rhol rhog mul mug D rough L = Ok (L * interpolation (Baroczy_B mass_flux (sqrt (go / lo)))).
Proof.
  intros HL. st. pose proof flux_pos as HG. unfold mass_flux in HG. assert (0 < go / lo) by posr. assert (HS : 0 < sqrt (go / lo)) by posr. unfold Baroczy_Chisholm. cbv zeta. rewrite (pdiv_ok m) by lra. cbn [bind]. go_on L. rewrite (pdiv_ok (L * go)) by posr. rewrite scaled by auto. cbn [bind]. rewrite psqrt_ok by lra. cbn [bind].
  fold mass_flux in *. set (S := sqrt (go / lo)) in *.
  assert (E : (if Rleb S 9.5 then t14 <- psqrt mass_flux;; pdiv 55 t14 else if Rleb S 28 then t16 <- psqrt mass_flux;; pdiv 520 (t16 * S) else t18 <- psqrt mass_flux;; pdiv 15000 (t18 * (S * S))) = Ok (Baroczy_B mass_flux S)).
  { unfold Baroczy_B. repeat match goal with |- context [if ?c then _ else _] => destruct c end; mrun; reflexivity. }
  rewrite E. cbn [bind]. rewrite !ppow_pw by (lits; lra). cbn [bind]. unfold S. now rewrite interpolation_code.
Qed.
Lemma Zhang_Webb_eval L P Pc : 0 < L -> 0 < P -> 0 < Pc -> Zhang_Webb W m x rhol mul P Pc D rough L = Ok (L * lo * ((1 - x) ^ 2 + 2.87 * x ^ 2 / (P / Pc) + 1.68 * pw x 0.8 * sqrt (sqrt (1 - x)) * Rpower (P / Pc) (- 1.64))).
Proof.
  intros HL HP HPc. st. assert (0 < P / Pc) by posr. unfold Zhang_Webb. go_on L. rewrite (ppow_pw x) by (lits; lra). rewrite (pdiv_ok P) by lra. cbn [bind]. rewrite (pdiv_ok (2.87 * x * x)) by lra. cbn [bind].
  rewrite (psqrt_ok (1 - x)) by lra. cbn [bind]. rewrite psqrt_ok by apply sqrt_pos. cbn [bind]. rewrite ppow_ok by lra. cbn [bind]. f_equal. unfold Rdiv. ring.
Qed.
Definition Xu_Fang_term : R := 0.00775 * Rpower x (- 0.475) * Rpower mix_Fr 0.535 * Rpower mix_We 0.188.
Lemma Xu_Fang_eval L : 0 < L -> 0 < x -> Xu_Fang W m x rhol rhog mul mug sigma D rough L = Ok (L * (go * x ^ 3 + pw (1 - Rpower x 2.59) 0.632 * (lo + 2 * Rpower x 1.17 * (go - lo) + Xu_Fang_term * lo))).
Proof.
  intros HL Hx0. st. destruct (homogeneous_density x rhol rhog Hx Hrho) as (a & Ea & Eb & Hb). assert (0 < D * 9.80665) by (apply Rmult_lt_0_compat; [|lits]; lra).
  assert (Rpower x 2.59 <= 1). { rewrite <- (Rpower_1 1) by lra. destruct (Req_dec x 1) as [->|]; [right; unfold Rpower; rewrite ln_1, !Rmult_0_r; reflexivity|]. left. rewrite Rpower_1 by lra. rewrite <- exp_0. unfold Rpower. apply exp_increasing. assert (ln x < 0) by (rewrite <- ln_1; apply ln_increasing; lra). lits. nra. }
  unfold Xu_Fang. rewrite Ea. go_on L. cbn [bind]. rewrite Eb. unfold Froude, Weber. mstep posr. mstep posr. mstep posr. mstep posr. mstep posr. rewrite (pdiv_ok (L * go)) by posr. rewrite scaled by auto. cbn [bind]. rewrite (ppow_ok x 2.59) by lra. cbn [bind]. rewrite (ppow_pw (1 - _)) by (lits; lra). mrun.
  unfold Xu_Fang_term, mix_We, mix_Fr. fold mix_v. f_equal. field. lra.
Qed.
End Whole.

(** the Darcy gradients with the smooth-tube friction laws two of the correlations bring along *)
Definition grad_of (f : R) (M rho D : R) : R := f / D * (rho * vel M rho D ^ 2 / 2).
Lemma grad_of_pos f M rho D : 0 < f -> 0 < M -> 0 < rho -> 0 < D -> 0 < grad_of f M rho D.
Proof. intros. pose proof (vel_pos M rho D). unfold grad_of. posr; auto. Qed.
Lemma grad_of_code f M rho D L : f * L / D * (0.5 * rho * vel M rho D * vel M rho D) = L * grad_of f M rho D.
Proof. unfold grad_of. lits. unfold Rdiv. ring_simplify. lra. Qed.
Lemma grad_of_code2 f M rho D L : f * L / D * (0.5 * rho * vel M rho D ^ 2) = L * grad_of f M rho D.
Proof. unfold grad_of. lits. unfold Rdiv. ring_simplify. lra. Qed.
Definition smooth_Kim (Re : R) : R := if Rltb Re 2000 then 64 / Re else if Rltb Re 20000 then 0.316 / sqrt (sqrt Re) else 0.184 * Rpower Re (- 0.2).
Definition smooth_Lockhart (Rec Re : R) : R := if Rltb Re Rec then 64 / Re else 0.184 * Rpower Re (- 0.2).
Lemma smooth_Kim_ok Re : 0 < Re -> friction_factor_Kim_Mudawar Re = Ok (smooth_Kim Re) /\ 0 < smooth_Kim Re.
Proof. intros. unfold friction_factor_Kim_Mudawar, smooth_Kim. destruct (Rltb Re 2000); [|destruct (Rltb Re 20000)]; mrun; (split; [reflexivity|posr]). Qed.
Lemma smooth_Lockhart_pos Rec Re : 0 < Re -> 0 < smooth_Lockhart Rec Re.
Proof. intros. unfold smooth_Lockhart. destruct (Rltb Re Rec); posr. Qed.

Section Both.
Variable W : R -> R.
Variables m x rhol rhog mul mug sigma D rough : R.
Hypothesis F : stream m x rhol rhog mul mug D rough.
Hypothesis Hx : 0 < x < 1.
Hypothesis Hs : 0 < sigma.
Let lo := grad W m rhol mul D rough.
Let go := grad W m rhog mug D rough.
Let li := grad W (m * (1 - x)) rhol mul D rough.
Let ga := grad W (m * x) rhog mug D rough.
Lemma bfacts : (0 < lo /\ 0 < go /\ 0 < li /\ 0 < ga) /\ (0 < vel m rhol D /\ 0 < vel m rhog D /\ 0 < vel (m * (1 - x)) rhol D /\ 0 < vel (m * x) rhog D) /\
  (0 < rey m rhol mul D /\ 0 < rey m rhog mug D /\ 0 < rey (m * (1 - x)) rhol mul D /\ 0 < rey (m * x) rhog mug D) /\ 0 < m * (1 - x) /\ 0 < m * x.
Proof.
  destruct F. assert (0 < m * (1 - x)) by (apply Rmult_lt_0_compat; lra). assert (0 < m * x) by (apply Rmult_lt_0_compat; lra).
  splits; auto; try (apply drop_pos; auto; lra); try (apply vel_pos; auto; lra); try (apply rey_pos; auto; lra).
Qed.
Ltac st := destruct bfacts as ((Q1 & Q2 & Q3 & Q4) & (V1 & V2 & V3 & V4) & (R1 & R2 & R3 & R4) & Hml & Hmg); pose proof F as F'; destruct F' as [Hm _ Hrho Hmu HD Hr]; pose proof (area_pos _ HD) as HA; assert (HX : 0 < 1 - x) by lra; assert (HX0 : 0 < x) by lra.
Ltac go_on L := cbv zeta; rewrite ?(Rmult_comm (0.25 * PI * _ * _) _); repeat first [ rewrite phase by (auto; lra) | rewrite (pdiv_ok (_ * L) D) by lra; cbn [bind] | rewrite phase2 by (auto; lra) ]; rewrite ?drop_code2; fold lo go li ga.
Ltac ratio L := rewrite (pdiv_ok (L * li)) by posr; rewrite scaled by auto; cbn [bind]; assert (HR : 0 < li / ga) by posr; assert (HS : 0 < sqrt (li / ga)) by posr; rewrite psqrt_ok by lra; cbn [bind].

Lemma Mishima_eval L : 0 < L -> Mishima_Hibiki W m x rhol rhog mul mug sigma D rough L = Ok (L * separated (21 * (1 - exp (- (319 * D)))) li ga).
Proof.
  intros HL. st. unfold Mishima_Hibiki. go_on L. ratio L. mrun. rewrite chisholm_form by auto. apply (f_equal (fun t => Ok (L * separated (21 * (1 - exp t)) li ga))). lits. lra.
Qed.
Lemma Zhang_eval L t c : 0 < L -> (t, c) = ("adiabatic vapor"%string, 0.142) \/ (t, c) = ("adiabatic gas"%string, 0.674) \/ (t, c) = ("flow boiling"%string, 0.358) ->
  Zhang_Hibiki_Mishima W m x rhol rhog mul mug sigma D rough L t = Ok (L * separated (21 * (1 - exp (- (c / (sqrt (sigma / (9.80665 * (rhol - rhog))) / D))))) li ga).
Proof.
  intros HL Ht. st. destruct (confinement_ok D rhol rhog sigma) as [E HC]; auto.
  unfold Zhang_Hibiki_Mishima. rewrite E. set (Co := sqrt _ / D) in *. go_on L. ratio L.
  destruct Ht as [Q|[Q|Q]]; injection Q as -> ->; cbn [String.eqb Ascii.eqb Bool.eqb]; mrun; rewrite chisholm_form by auto; apply (f_equal (fun t => Ok (L * separated (21 * (1 - exp t)) li ga)));
  lits; field; lra.
Qed.
Definition Hwang_C : R := 0.227 * Rpower (rey m rhol mul D) 0.452 * Rpower (sqrt (li / ga)) (- 0.32) * Rpower (sqrt (sigma / (9.80665 * (rhol - rhog))) / D) (- 0.82).
Lemma Hwang_C_pos : 0 < Hwang_C. Proof. unfold Hwang_C. posr. Qed.
Lemma Hwang_eval L : 0 < L -> Hwang_Kim W m x rhol rhog mul mug sigma D rough L = Ok (L * separated Hwang_C li ga).
Proof.
  intros HL. st. destruct (confinement_ok D rhol rhog sigma) as [E HC]; auto. unfold Hwang_Kim. rewrite E. set (Co := sqrt _ / D) in *. go_on L. ratio L. mrun. rewrite chisholm_form by auto. reflexivity.
Qed.
Lemma Jung_eval L : 0 < L -> Jung_Radermacher W m x rhol rhog mul mug D rough L = Ok (L * lo * (12.82 * Rpower (Rpower ((1 - x) / x) 0.9 * Rpower (rhog / rhol) 0.5 * Rpower (mul / mug) 0.1) (- 1.47) * Rpower (1 - x) 1.8)).
Proof.
  intros HL. st. unfold Jung_Radermacher. go_on L. unfold Lockhart_Martinelli_Xtt. mrun. f_equal. ring.
Qed.
Lemma Yu_eval L : 0 < L -> Yu_France W m x rhol rhog mul mug D rough L = Ok (L * li * Rpower (18.65 * sqrt (rhog / rhol) * (1 - x) / x * Rpower (rey (m * x) rhog mug D) 0.1 / sqrt (rey (m * (1 - x)) rhol mul D)) (- 1.9)).
Proof. intros HL. st. unfold Yu_France. go_on L. mrun. f_equal. ring. Qed.
Lemma Wang_high L : 0 < L -> 200 <= mass_flux m D -> Wang_Chiang_Lu W m x rhol rhog mul mug D rough L = Ok (L * ga * (1 + 9.397 * Rpower (sqrt (li / ga)) 0.62 + 0.564 * Rpower (sqrt (li / ga)) 2.45)).
Proof.
  intros HL HG. st. unfold Wang_Chiang_Lu. cbv zeta. rewrite (pdiv_ok m (0.25 * PI * D * D)) by lra. cbn [bind]. go_on L. fold (mass_flux m D). rewrite (proj2 (Rleb_true 200 _)) by auto. ratio L. mrun. reflexivity.
Qed.
Definition Wang_C : R := 0.000004566 * Rpower (sqrt (li / ga)) 0.128 * Rpower (rey m rhol mul D) 0.938 * Rpower (rhol / rhog) (- 2.15) * Rpower (mul / mug) 5.1.
Lemma Wang_C_pos : 0 < Wang_C. Proof. unfold Wang_C. posr. Qed.
Lemma Wang_low L : 0 < L -> mass_flux m D < 200 -> Wang_Chiang_Lu W m x rhol rhog mul mug D rough L = Ok (L * separated Wang_C li ga).
Proof.
  intros HL HG. st. unfold Wang_Chiang_Lu. cbv zeta. rewrite (pdiv_ok m (0.25 * PI * D * D)) by lra. cbn [bind]. go_on L. fold (mass_flux m D). rewrite (proj2 (Rleb_false 200 _)) by auto. ratio L. go_on L. mrun. f_equal. apply chisholm_form'; auto.
Qed.
Definition Kim_l : R := grad_of (smooth_Kim (rey (m * (1 - x)) rhol mul D)) (m * (1 - x)) rhol D.
Definition Kim_g : R := grad_of (smooth_Kim (rey (m * x) rhog mug D)) (m * x) rhog D.
Definition Kim_C : R :=
  let Re := rey m rhol mul D in let Su := rhog * sigma * D / (mug * mug) in let r := rhol / rhog in
  if Rltb (rey (m * (1 - x)) rhol mul D) 2000
  then if Rltb (rey (m * x) rhog mug D) 2000 then 0.000035 * Rpower Re 0.44 * sqrt Su * Rpower r 0.48 else 0.0015 * Rpower Re 0.59 * Rpower Su 0.19 * Rpower r 0.36
  else if Rltb (rey (m * x) rhog mug D) 2000 then 0.00087 * Rpower Re 0.17 * sqrt Su * Rpower r 0.14 else 0.39 * Rpower Re 0.03 * Rpower Su 0.1 * Rpower r 0.35.
Lemma Kim_facts : 0 < Kim_l /\ 0 < Kim_g /\ 0 < Kim_C.
Proof.
  st. splits. 1,2: apply grad_of_pos; try apply smooth_Kim_ok; auto; lra. unfold Kim_C. cbv zeta. assert (0 < rhog * sigma * D / (mug * mug)) by (assert (0 < rhog) by lra; assert (0 < mug) by lra; posr).
  repeat match goal with |- context [if ?c then _ else _] => destruct c end; posr.
Qed.
Lemma Kim_eval L : 0 < L -> Kim_Mudawar m x rhol rhog mul mug sigma D L = Ok (L * separated Kim_C Kim_l Kim_g).
Proof.
  intros HL. st. destruct Kim_facts as (K1 & K2 & K3). destruct (smooth_Kim_ok _ R3) as [E1 P1]. destruct (smooth_Kim_ok _ R4) as [E2 P2].
  assert (HSu : 0 < rhog * sigma * D / (mug * mug)) by (assert (0 < rhog) by lra; assert (0 < mug) by lra; posr).
  unfold Kim_Mudawar. cbv zeta. rewrite phase2 by (auto; lra). rewrite E1. cbn [bind]. rewrite (pdiv_ok (_ * L)) by lra. cbn [bind]. rewrite phase2 by (auto; lra). rewrite E2. cbn [bind]. rewrite (pdiv_ok (_ * L)) by lra. cbn [bind]. rewrite phase2 by (auto; lra).
  unfold Suratman. rewrite (pdiv_ok (rhog * sigma * D)) by (assert (0 < mug) by lra; posr). cbn [bind]. rewrite !grad_of_code. fold Kim_l Kim_g. rewrite (pdiv_ok (L * Kim_l)) by posr. rewrite scaled by auto. cbn [bind].
  assert (HR : 0 < Kim_l / Kim_g) by posr; assert (HS : 0 < sqrt (Kim_l / Kim_g)) by posr. rewrite psqrt_ok by lra. cbn [bind].
  match goal with |- bind ?c _ = _ => assert (E : c = Ok Kim_C) end.
  { unfold Kim_C. cbv zeta. set (Su := rhog * sigma * D / (mug * mug)) in *. set (a := rey (m * (1 - x)) rhol mul D) in *. set (b := rey (m * x) rhog mug D) in *.
    destruct (Rltb a 2000) eqn:A1; destruct (Rltb b 2000) eqn:A2; cbn [andb].
    - mrun; reflexivity.
    - apply Rltb_false in A2. rewrite (proj2 (Rleb_true 2000 b)) by lra. mrun. reflexivity.
    - apply Rltb_false in A1. rewrite (proj2 (Rleb_true 2000 a)) by lra. cbn [andb]. mrun. reflexivity.
    - apply Rltb_false in A1. rewrite (proj2 (Rleb_true 2000 a)) by lra. cbn [andb]. mrun. reflexivity. }
  rewrite E. cbn [bind]. mrun. now rewrite chisholm_form.
Qed.
Variable Rec : R.
Definition Lockhart_l : R := grad_of (smooth_Lockhart Rec (rey (m * (1 - x)) rhol mul D)) (m * (1 - x)) rhol D.
Definition Lockhart_g : R := grad_of (smooth_Lockhart Rec (rey (m * x) rhog mug D)) (m * x) rhog D.
Definition Lockhart_C : R :=
  if Rltb (rey (m * (1 - x)) rhol mul D) Rec then if Rltb (rey (m * x) rhog mug D) Rec then 5 else 12
  else if Rltb (rey (m * x) rhog mug D) Rec then 10 else 20.
Lemma Lockhart_facts : 0 < Lockhart_l /\ 0 < Lockhart_g /\ 0 < Lockhart_C.
Proof.
  st. splits. 1,2: apply grad_of_pos; try apply smooth_Lockhart_pos; auto; lra. unfold Lockhart_C. repeat match goal with |- context [if ?c then _ else _] => destruct c end; lra.
Qed.
Lemma Lockhart_eval L : 0 < L -> 0.000000000000000000000000000001 <= x <= 1 - 0.0000000000001 -> Lockhart_Martinelli m x rhol rhog mul mug D L Rec = Ok (L * separated Lockhart_C Lockhart_l Lockhart_g).
Proof.
  intros HL Hx1. st. destruct Lockhart_facts as (K1 & K2 & K3).
  unfold Lockhart_Martinelli. cbv zeta. rewrite phase2 by (auto; lra). rewrite phase2 by (auto; lra).
  rewrite (proj2 (Rltb_false x _)) by lra. rewrite (proj2 (Rltb_false _ x)) by lra.
  match goal with |- bind ?c _ = _ => assert (E : c = Ok Lockhart_C) end.
  { unfold Lockhart_C. set (a := rey (m * (1 - x)) rhol mul D) in *. set (b := rey (m * x) rhog mug D) in *.
    destruct (Rltb a Rec) eqn:A1; destruct (Rltb b Rec) eqn:A2; cbn [andb]; auto.
    - apply Rltb_false in A2. rewrite (proj2 (Rleb_true Rec b)) by lra. reflexivity.
    - apply Rltb_false in A1. rewrite (proj2 (Rleb_true Rec a)) by lra. reflexivity.
    - rewrite andb_false_r. reflexivity. }
  rewrite E. cbn [bind].
  assert (EG : forall a, 0 < a -> (if Rltb a Rec then pdiv 64 a else t7 <- ppow a (- 0.2) ;; Ok (0.184 * t7)) = Ok (smooth_Lockhart Rec a)).
  { intros a Ha. unfold smooth_Lockhart. destruct (Rltb a Rec); mrun; reflexivity. }
  rewrite !EG by auto. cbn [bind]. rewrite (pdiv_ok (_ * L)) by lra. cbn [bind]. rewrite (pdiv_ok (_ * L)) by lra. cbn [bind]. rewrite grad_of_code, grad_of_code2. fold Lockhart_l Lockhart_g. rewrite (pdiv_ok (L * Lockhart_l)) by posr. rewrite scaled by auto. cbn [bind].
  assert (HR : 0 < Lockhart_l / Lockhart_g) by posr; assert (HS : 0 < sqrt (Lockhart_l / Lockhart_g)) by posr. rewrite psqrt_ok by lra. cbn [bind]. mrun. now rewrite chisholm_form.
Qed.
Lemma Lombardi_eval L : 0 < L -> Lombardi_Pedrocchi m x rhol rhog sigma D L = Ok (L * (0.83 * Rpower (mass_flux m D) 1.4 * Rpower sigma 0.4 / (Rpower D 1.2 * Rpower (rho_mix x rhol rhog) 0.866))).
Proof.
  intros HL. st. destruct (homogeneous_density x rhol rhog ltac:(lra) Hrho) as (a & Ea & Eb & Hb). unfold Lombardi_Pedrocchi. rewrite Ea. cbn [bind]. cbv zeta. rewrite Eb. mrun. f_equal. unfold mass_flux. unfold Rdiv. ring.
Qed.
Definition Bankoff_gamma : R := (0.71 + 2.35 * rhog / rhol) / (1 + (1 - x) / x * rhog / rhol).
Lemma Bankoff_gamma_ok : 0 < Bankoff_gamma /\ 0 < 1 - Bankoff_gamma * (1 - rhog / rhol).
Proof.
  st. assert (H : 0 < rhog / rhol < 1). { split; [posr; lra|]. apply Rmult_lt_reg_r with rhol; [lra|]. field_simplify; lra. }
  unfold Bankoff_gamma. replace (2.35 * rhog / rhol) with (2.35 * (rhog / rhol)) by (unfold Rdiv; ring). replace ((1 - x) / x * rhog / rhol) with ((1 - x) / x * (rhog / rhol)) by (field; lra).
  set (r := rhog / rhol) in *. assert (H1 : 0 < (1 - x) / x * r) by posr. set (q := (1 - x) / x * r) in *. assert (H2 : 0 < 0.71 + 2.35 * r) by (lits; lra). split; [posr|].
  assert ((0.71 + 2.35 * r) * (1 - r) < 1) by (pose proof (pow2_ge_0 (r - 349 / 1000)); lits; nra). replace (1 - _) with ((1 + q - (0.71 + 2.35 * r) * (1 - r)) / (1 + q)) by (field; lra). apply Rdiv_lt_0_compat; lra.
Qed.
Lemma Bankoff_eval L : 0 < L -> Bankoff W m x rhol rhog mul mug D rough L = Ok (L * lo * Rpower (1 / (1 - x) * Rpower (1 - Bankoff_gamma * (1 - rhog / rhol)) (3 / 7) * (1 + x * (rhol / rhog - 1))) (7 / 4)).
Proof.
  intros HL. st. destruct Bankoff_gamma_ok as [B1 B2]. assert (0 < 1 + (1 - x) / x * rhog / rhol). { assert (0 < rhog) by lra. posr. }
  assert (1 < rhol / rhog). { apply Rmult_lt_reg_r with rhog; [lra|]. field_simplify; lra. } assert (0 < 1 + x * (rhol / rhog - 1)) by nra.
  unfold Bankoff. go_on L. repeat (mstep ltac:(first [lra|posr]); try fold Bankoff_gamma). reflexivity.
Qed.
Lemma ppow_ok_pos a b v : 0 < a -> ppow a b = Ok v -> 0 < v.
Proof. intros H E. rewrite ppow_ok in E by auto. injection E as <-. posr. Qed.
Lemma Theissing_pos L v : 0 < L -> Theissing W m x rhol rhog mul mug D rough L = Ok v -> 0 < v.
Proof.
  intros HL. st. assert (0 < L * lo) by posr. assert (0 < L * go) by posr. unfold Theissing. rewrite (proj2 (Reqb_false x 0)), (proj2 (Reqb_false x 1)) by lra. go_on L. intros H1.
  repeat match type of H1 with bind ?a _ = Ok _ => destruct a eqn:?; cbn [bind] in H1; [|discriminate] end.
  assert (0 < a16) by (eapply ppow_ok_pos; [|eassumption]; auto). assert (0 < a18) by (eapply ppow_ok_pos; [|eassumption]; auto). assert (0 < a19) by (eapply ppow_ok_pos; [|eassumption]; auto). assert (0 < a20) by (eapply ppow_ok_pos; [|eassumption]; auto).
  refine (ppow_ok_pos _ _ _ _ H1). posr.
Qed.
Lemma Rough_eval : exists n B, 0 < B /\ forall L, 0 < L -> Chisholm W m x rhol rhog mul mug D rough L true = Ok (L * (lo + (go - lo) * (B * (Rpower x ((2 - n) * 0.5) * Rpower (1 - x) ((2 - n) * 0.5)) + Rpower x (2 - n)))).
Proof.
  st. assert (F1 : 0 < fac W m rhol mul D rough) by (apply fac_pos; lra). assert (F2 : 0 < fac W m rhog mug D rough) by (apply fac_pos; lra).
  assert (HG : 0 < mass_flux m D) by (unfold mass_flux; posr). assert (H : 0 < go / lo) by posr. assert (HS : 0 < sqrt (go / lo)) by posr.
  assert (Q : 1 < rey m rhog mug D / rey m rhol mul D). { replace (rey m rhog mug D / rey m rhol mul D) with (mul / mug). { apply Rmult_lt_reg_r with mug; [lra|]. field_simplify; lra. } unfold rey, vel. field. pose proof PI_RGT_0. splits; try lra. }
  assert (Q' : 0 < ln (rey m rhog mug D / rey m rhol mul D)) by (rewrite <- ln_1; apply ln_increasing; lra).
  set (n := ln (fac W m rhol mul D rough / fac W m rhog mug D rough) / ln (rey m rhog mug D / rey m rhol mul D)).
  set (S := sqrt (go / lo)) in *.
  assert (HB : 0 < Chisholm_B (mass_flux m D) S) by (apply Chisholm_B_pos; auto).
  exists n, (Chisholm_B (mass_flux m D) S * Rpower (0.5 * (1 + mug / mul * (mug / mul) + Rpower 10 ((- 600) * rough / D))) ((0.25 - n) * 4)). split; [posr|].
  intros L HL. unfold Chisholm. cbv zeta. rewrite (pdiv_ok m) by lra. cbn [bind]. go_on L. rewrite (pdiv_ok (L * go)) by posr. rewrite scaled by auto. cbn [bind]. rewrite psqrt_ok by lra. cbn [bind].
  fold (mass_flux m D). fold S. 
  assert (E : (if Rleb S 9.5 then if Rleb (mass_flux m D) 500 then Ok 4.8 else if Rltb (mass_flux m D) 1900 then pdiv 2400 (mass_flux m D) else t15 <- psqrt (mass_flux m D);; pdiv 55 t15
    else if Rleb S 28 then if Rleb (mass_flux m D) 600 then t17 <- psqrt (mass_flux m D);; t18 <- pdiv 520 t17;; pdiv t18 S else pdiv 21 S else t21 <- psqrt (mass_flux m D);; pdiv 15000 (S * S * t21)) = Ok (Chisholm_B (mass_flux m D) S)).
  { unfold Chisholm_B. repeat match goal with |- context [if ?c then _ else _] => destruct c end; mrun; reflexivity. }
  rewrite E. cbn [bind]. assert (0 < mug / mul) by (posr; lra). repeat mstep ltac:(first [lra|posr]). fold n. f_equal. unfold S. rewrite sqrt_sqrt by lra. field. lra.
Qed.
End Both.
