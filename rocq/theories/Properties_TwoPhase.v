(** C92: pressure drop of gas-liquid flow in pipes.
    Claims about [two_phase_dP] and its correlations in fluids/two_phase.py. *)
From Coq Require Import Reals Lra Lia List Bool String Psatz.
From Verif Require Import Base Model_Real Proofs_Real Interval Model_Friction Model_Voidage Model_Core Model_TwoPhase Proofs_TwoPhase Proofs_TwoPhase2 Properties_Friction.
Import ListNotations.
Open Scope R_scope.

(** ** Vocabulary.
    [stream]: a liquid and a lighter, less viscous gas with mass quality [0 <= x <= 1] in a pipe of moderate roughness.
    [grad W M rho mu D rough]: Darcy pressure gradient of the mass flow [M] of one phase flowing alone ([drop] per unit length).
    [separated C l g = l + C sqrt (l g) + g]. *)
(** the answer is proportional to the pipe length, and positive *)
Definition per_length (f : R -> result R) : Prop := exists g, 0 < g /\ forall L, 0 < L -> f L = Ok (L * g).
(** as above, and never below the liquid and the gas each flowing alone *)
Definition above_phases (f : R -> result R) (l g : R) : Prop := exists C, 0 < C /\ forall L, 0 < L -> f L = Ok (L * separated C l g).

Lemma separated_ge C l g : 0 <= C -> 0 < l -> 0 < g -> l + g <= separated C l g.
Proof. intros. unfold separated. assert (0 <= C * sqrt (l * g)) by (apply Rmult_le_pos; auto; apply sqrt_pos). lra. Qed.
Lemma mul_pos_form L a b : L * a * b = L * (a * b). Proof. ring. Qed.
Lemma one_minus_exp t : t < 0 -> 0 < 1 - exp t.
Proof. intros H. assert (exp t < exp 0) by now apply exp_increasing. rewrite exp_0 in *. lra. Qed.

(** *** Every correlation without a free sign answers, positively and in proportion to the length *)
Theorem C92_positive W m x rhol rhog mul mug sigma D rough P Pc :
  stream m x rhol rhog mul mug D rough -> 0 < x < 1 -> 0 < sigma -> 0 < P -> 0 < Pc ->
  per_length (fun L => Friedel W m x rhol rhog mul mug sigma D rough L) /\
  per_length (fun L => Chen_Friedel W m x rhol rhog mul mug sigma D rough L) /\
  per_length (fun L => Jung_Radermacher W m x rhol rhog mul mug D rough L) /\
  per_length (fun L => Bankoff W m x rhol rhog mul mug D rough L) /\
  per_length (fun L => Yu_France W m x rhol rhog mul mug D rough L) /\
  per_length (fun L => Wang_Chiang_Lu W m x rhol rhog mul mug D rough L) /\
  per_length (fun L => Zhang_Webb W m x rhol mul P Pc D rough L) /\
  per_length (fun L => Lombardi_Pedrocchi m x rhol rhog sigma D L).
Proof.
  intros F Hx Hs HP HPc. destruct (bfacts W m x rhol rhog mul mug D rough F Hx) as ((Q1 & Q2 & Q3 & Q4) & _ & (R1 & R2 & R3 & R4) & _).
  pose proof (Friedel_term_nonneg m x rhol rhog mul mug sigma D) as FN.
  assert (FP : 0 < (1 - x) ^ 2 * grad W m rhol mul D rough + x ^ 2 * grad W m rhog mug D rough + Friedel_term m x rhol rhog mul mug sigma D * grad W m rhol mul D rough).
  { assert (0 < (1 - x) ^ 2 * grad W m rhol mul D rough) by (apply Rmult_lt_0_compat; auto; apply pow_lt; lra). assert (0 < x ^ 2 * grad W m rhog mug D rough) by (apply Rmult_lt_0_compat; auto; apply pow_lt; lra). assert (0 <= Friedel_term m x rhol rhog mul mug sigma D * grad W m rhol mul D rough) by (apply Rmult_le_pos; lra). lra. }
  splits.
  - eexists. split; [exact FP|]. intros L HL. apply Friedel_eval; auto.
  - destruct (Chen_eval W m x rhol rhog mul mug sigma D rough F Hs 1 ltac:(lra) ltac:(lra)) as [_ CP]. eexists. split; [exact (Rmult_lt_0_compat _ _ FP CP)|]. intros L HL. rewrite (proj1 (Chen_eval W m x rhol rhog mul mug sigma D rough F Hs L HL ltac:(lra))). f_equal. ring.
  - eexists. split; [|intros L HL; rewrite Jung_eval by auto; rewrite mul_pos_form; reflexivity]. posr.
  - eexists. split; [|intros L HL; rewrite Bankoff_eval by auto; rewrite mul_pos_form; reflexivity]. posr.
  - eexists. split; [|intros L HL; rewrite Yu_eval by auto; rewrite mul_pos_form; reflexivity]. posr.
  - destruct (Rle_lt_dec 200 (mass_flux m D)) as [H|H].
    + eexists. split; [|intros L HL; rewrite Wang_high by auto; rewrite mul_pos_form; reflexivity]. posr.
    + eexists. split; [|intros L HL; rewrite Wang_low by auto; reflexivity]. pose proof (separated_ge (Wang_C W m x rhol rhog mul mug D rough) (grad W (m * (1 - x)) rhol mul D rough) (grad W (m * x) rhog mug D rough)) as S. pose proof (Wang_C_pos W m x rhol rhog mul mug D rough). lra.
  - eexists. split; [|intros L HL; rewrite (Zhang_Webb_eval W m x rhol rhog mul mug D rough F L P Pc) by auto; rewrite mul_pos_form; reflexivity]. assert (0 < pw x 0.8) by (apply pw_pos; lra). assert (0 < 1 - x) by lra. destruct Hx. assert (0 < x ^ 2) by posr. posr.
  - eexists. split; [|intros L HL; rewrite (Lombardi_eval (fun y => y) m x rhol rhog mul mug sigma D rough F) by auto; reflexivity]. destruct F. assert (0 < rho_mix x rhol rhog) by (destruct (homogeneous_density x rhol rhog ltac:(lra) s_rho) as (? & _ & _ & ?); auto). posr.
Qed.

(** *** Friedel lies above the weighted single-phase gradients *)
Theorem C92_Friedel_above W m x rhol rhog mul mug sigma D rough L : stream m x rhol rhog mul mug D rough -> 0 < sigma -> 0 < L ->
  exists dP, Friedel W m x rhol rhog mul mug sigma D rough L = Ok dP /\ (1 - x) ^ 2 * drop W m rhol mul D rough L + x ^ 2 * drop W m rhog mug D rough L <= dP.
Proof.
  intros F Hs HL. eexists. split; [apply Friedel_eval; auto|]. pose proof (Friedel_term_nonneg m x rhol rhog mul mug sigma D) as FN. destruct (sfacts W m x rhol rhog mul mug D rough F) as ((Q1 & Q2) & _).
  assert (E : forall M rho mu, drop W M rho mu D rough L = L * grad W M rho mu D rough) by (intros; unfold grad, drop, Rdiv; ring). rewrite !E. set (f := Friedel_term _ _ _ _ _ _ _ _) in *. set (a := grad W m rhol mul D rough) in *. set (b := grad W m rhog mug D rough) in *.
  assert (0 <= L * (f * a)) by (apply Rmult_le_pos; [lra|]; apply Rmult_le_pos; lra). lra.
Qed.

(** *** The separated-flow correlations: each phase alone plus a positive interaction *)
Theorem C92_separated W m x rhol rhog mul mug sigma D rough : stream m x rhol rhog mul mug D rough -> 0 < x < 1 -> 0 < sigma ->
  let l := grad W (m * (1 - x)) rhol mul D rough in let g := grad W (m * x) rhog mug D rough in
  above_phases (fun L => Mishima_Hibiki W m x rhol rhog mul mug sigma D rough L) l g /\
  above_phases (fun L => Hwang_Kim W m x rhol rhog mul mug sigma D rough L) l g /\
  (forall t, In t ["adiabatic vapor"%string; "adiabatic gas"%string; "flow boiling"%string] -> above_phases (fun L => Zhang_Hibiki_Mishima W m x rhol rhog mul mug sigma D rough L t) l g) /\
  (m / (PI / 4 * D ^ 2) < 200 -> above_phases (fun L => Wang_Chiang_Lu W m x rhol rhog mul mug D rough L) l g).
Proof.
  intros F Hx Hs l g. pose proof F as [Hm _ Hrho Hmu HD Hr]. splits.
  - eexists. split; [|intros L HL; apply Mishima_eval; auto]. assert (0 < 1 - exp (- (319 * D))) by (apply one_minus_exp; lra). lra.
  - eexists. split; [|intros L HL; apply Hwang_eval; auto]. apply Hwang_C_pos.
  - destruct (confinement_ok D rhol rhog sigma HD Hrho Hs) as [_ HC].
    assert (K : forall t c, (t, c) = ("adiabatic vapor"%string, 0.142) \/ (t, c) = ("adiabatic gas"%string, 0.674) \/ (t, c) = ("flow boiling"%string, 0.358) -> 0 < c -> above_phases (fun L => Zhang_Hibiki_Mishima W m x rhol rhog mul mug sigma D rough L t) l g).
    { intros t c Ht Hc. eexists. split; [|intros L HL; apply (Zhang_eval W m x rhol rhog mul mug sigma D rough F Hx Hs L t c); auto]. set (Co := sqrt _ / D) in *. assert (0 < c / Co) by posr. assert (0 < 1 - exp (- (c / Co))) by (apply one_minus_exp; lra). lra. }
    intros t [<-|[<-|[<-|[]]]]; eapply K; eauto; lits; lra.
  - intros HG. eexists. split; [|intros L HL; apply Wang_low; auto]. apply Wang_C_pos. unfold mass_flux. replace (0.25 * PI * D * D) with (PI / 4 * D ^ 2) by (lits; field). auto.
Qed.
(** the interaction only adds: the two phases alone are a lower bound *)
Theorem C92_separated_bound f l g L : above_phases f l g -> 0 < l -> 0 < g -> 0 < L -> exists dP, f L = Ok dP /\ L * (l + g) <= dP.
Proof. intros (C & HC & E) Hl Hg HL. exists (L * separated C l g). split; auto. apply Rmult_le_compat_l; [lra|]. apply separated_ge; lra. Qed.

(** Lockhart and Martinelli: the interaction constant by which phases are turbulent.
    [smooth_Lockhart]: laminar [64 / Re] below the transition, [0.184 Re^-0.2] above *)
Theorem C92_Lockhart m x rhol rhog mul mug D rough Rec L : stream m x rhol rhog mul mug D rough -> 0 < L -> 1 / 10 ^ 30 <= x <= 1 - 1 / 10 ^ 13 ->
  let Rl := rey (m * (1 - x)) rhol mul D in let Rg := rey (m * x) rhog mug D in
  let l := grad_of (smooth_Lockhart Rec Rl) (m * (1 - x)) rhol D in let g := grad_of (smooth_Lockhart Rec Rg) (m * x) rhog D in
  let run := Lockhart_Martinelli m x rhol rhog mul mug D L Rec in
  0 < l /\ 0 < g /\
  (Rl < Rec -> Rg < Rec -> run = Ok (L * separated 5 l g)) /\ (Rl < Rec -> Rec <= Rg -> run = Ok (L * separated 12 l g)) /\
  (Rec <= Rl -> Rg < Rec -> run = Ok (L * separated 10 l g)) /\ (Rec <= Rl -> Rec <= Rg -> run = Ok (L * separated 20 l g)).
Proof.
  intros F HL Hx0 Rl Rg l g run. assert (Hx : 0 < x < 1). { assert (0 < 1 / 10 ^ 30) by (apply Rdiv_lt_0_compat; [lra|apply pow_lt; lra]). assert (0 < 1 / 10 ^ 13) by (apply Rdiv_lt_0_compat; [lra|apply pow_lt; lra]). lra. }
  destruct (Lockhart_facts (fun y => y) m x rhol rhog mul mug D rough F Hx Rec) as (K1 & K2 & _).
  assert (Hx1 : 0.000000000000000000000000000001 <= x <= 1 - 0.0000000000001). { replace 0.000000000000000000000000000001 with (1 / 10 ^ 30) by (lits; field). replace 0.0000000000001 with (1 / 10 ^ 13) by (lits; field). exact Hx0. }
  assert (E : run = Ok (L * separated (Lockhart_C m x rhol rhog mul mug D Rec) l g)) by (exact (Lockhart_eval (fun y => y) m x rhol rhog mul mug D rough F Hx Rec L HL Hx1)).
  unfold Lockhart_C in E. fold Rl Rg in E. splits; auto; intros A B.
  - rewrite (proj2 (Rltb_true Rl Rec)), (proj2 (Rltb_true Rg Rec)) in E by auto. exact E.
  - rewrite (proj2 (Rltb_true Rl Rec)), (proj2 (Rltb_false Rg Rec)) in E by auto. exact E.
  - rewrite (proj2 (Rltb_false Rl Rec)), (proj2 (Rltb_true Rg Rec)) in E by auto. exact E.
  - rewrite (proj2 (Rltb_false Rl Rec)), (proj2 (Rltb_false Rg Rec)) in E by auto. exact E.
Qed.
Theorem C92_Kim_Mudawar m x rhol rhog mul mug sigma D rough : stream m x rhol rhog mul mug D rough -> 0 < x < 1 -> 0 < sigma ->
  let l := grad_of (smooth_Kim (rey (m * (1 - x)) rhol mul D)) (m * (1 - x)) rhol D in let g := grad_of (smooth_Kim (rey (m * x) rhog mug D)) (m * x) rhog D in
  0 < l /\ 0 < g /\ above_phases (fun L => Kim_Mudawar m x rhol rhog mul mug sigma D L) l g.
Proof.
  intros F Hx Hs l g. destruct (Kim_facts (fun y => y) m x rhol rhog mul mug sigma D rough F Hx Hs) as (K1 & K2 & K3). splits; auto. exists (Kim_C m x rhol rhog mul mug sigma D). split; auto. intros L HL. apply (Kim_eval (fun y => y) m x rhol rhog mul mug sigma D rough F Hx Hs L HL).
Qed.

(** *** The correlations that interpolate between all-liquid and all-gas flow: positive when the gas alone would lose more pressure *)
Theorem C92_interpolations W m x rhol rhog mul mug sigma D rough : stream m x rhol rhog mul mug D rough -> 0 < x < 1 -> 0 < sigma ->
  grad W m rhol mul D rough <= grad W m rhog mug D rough ->
  forall f, In f [ (fun L => Chisholm W m x rhol rhog mul mug D rough L false); (fun L => Chisholm W m x rhol rhog mul mug D rough L true);
    (fun L => Baroczy_Chisholm W m x rhol rhog mul mug D rough L); (fun L => Muller_Steinhagen_Heck W m x rhol rhog mul mug D rough L);
    (fun L => Tran W m x rhol rhog mul mug sigma D rough L); (fun L => Xu_Fang W m x rhol rhog mul mug sigma D rough L) ] -> per_length f.
Proof.
  intros F Hx Hs H f Hf. destruct (bfacts W m x rhol rhog mul mug D rough F Hx) as ((Q1 & Q2 & Q3 & Q4) & _). pose proof F as [Hm _ Hrho Hmu HD Hr].
  set (a := grad W m rhol mul D rough) in *. set (b := grad W m rhog mug D rough) in *.
  assert (HS : 0 < sqrt (b / a)) by posr. pose proof (flux_pos W m x rhol rhog mul mug D rough F) as HG.
  assert (P1 : 0 < pw x 0.875) by (apply pw_pos; lra). assert (P2 : 0 < pw (1 - x) 0.875) by (apply pw_pos; lra). assert (P3 : 0 < pw x 1.75) by (apply pw_pos; lra).
  assert (I : forall u t, 0 < u -> 0 <= t -> 0 < u + (b - a) * t) by (intros u t U T; assert (0 <= (b - a) * t) by (apply Rmult_le_pos; lra); lra).
  destruct Hf as [<-|[<-|[<-|[<-|[<-|[<-|[]]]]]]].
  - eexists. split; [|intros L HL; apply Chisholm_eval; auto]. unfold interpolation. fold a b. apply I; auto. pose proof (Chisholm_B_pos (mass_flux m D) (sqrt (b / a)) HG HS). left. posr.
  - destruct (Rough_eval W m x rhol rhog mul mug D rough F Hx) as (n & B & HB & E). eexists. split; [|exact E]. fold a b. apply I; auto. left. posr.
  - eexists. split; [|intros L HL; apply Baroczy_eval; auto]. unfold interpolation. fold a b. apply I; auto. pose proof (Baroczy_B_pos (mass_flux m D) (sqrt (b / a)) HG HS). left. posr.
  - eexists. split; [|intros L HL; apply MSH_eval; auto]. fold a b. assert (0 < cbrt (1 - x)) by (unfold cbrt; rewrite (proj2 (Rltb_true 0 (1 - x))) by lra; posr). assert (0 <= 2 * (b - a) * x) by (apply Rmult_le_pos; lra). destruct Hx as [Hx0 Hx1]. assert (0 < a + 2 * (b - a) * x) by lra. posr.
  - eexists. split; [|intros L HL; apply (Tran_eval W m x rhol rhog mul mug sigma D rough F Hs L HL)]. fold a b. destruct (confinement_ok D rhol rhog sigma HD Hrho Hs) as [_ HC]. set (Co := sqrt _ / D) in *. assert (0 < 4.3 * b - a) by (lits; lra). posr.
  - eexists. split; [|intros L HL; apply (Xu_Fang_eval W m x rhol rhog mul mug sigma D rough F Hs L HL); lra]. fold a b. assert (0 < Xu_Fang_term m x rhol rhog sigma D) by (unfold Xu_Fang_term; posr). pose proof (pw_nonneg (1 - Rpower x 2.59) 0.632). destruct Hx as [Hx0 Hx1].
    apply Rplus_lt_le_0_compat; [posr|]. apply Rmult_le_pos; auto. assert (0 <= 2 * Rpower x 1.17 * (b - a)) by (apply Rmult_le_pos; [left; posr|lra]). assert (0 < Xu_Fang_term m x rhol rhog sigma D * a) by posr. lra.
Qed.

(** every answer of Theissing's correlation is positive *)
Theorem C92_Theissing W m x rhol rhog mul mug D rough L v : stream m x rhol rhog mul mug D rough -> 0 < L -> Theissing W m x rhol rhog mul mug D rough L = Ok v -> 0 < v.
Proof.
  intros F HL. pose proof F as [Hm Hx Hrho Hmu HD Hr]. destruct (sfacts W m x rhol rhog mul mug D rough F) as ((Q1 & Q2) & _).
  destruct (Req_dec x 0) as [->|H0]; [|destruct (Req_dec x 1) as [->|H1]]; [| |apply Theissing_pos; auto; lra].
  all: unfold Theissing; cbv zeta; rewrite phase by (auto; lra); rewrite (pdiv_ok (_ * L) D) by lra; cbn [bind]; rewrite phase by (auto; lra); rewrite (pdiv_ok (_ * L) D) by lra; cbn [bind]; rewrite !drop_code2.
  - rewrite (proj2 (Reqb_true 0 0)) by auto. intros E. injection E as <-. posr.
  - rewrite (proj2 (Reqb_false 1 0)), (proj2 (Reqb_true 1 1)) by lra. intros E. injection E as <-. posr.
Qed.

(** *** Only one phase present: the single-phase pressure drop comes back *)
Theorem C92_all_liquid W m rhol rhog mul mug sigma D rough P Pc L : stream m 0 rhol rhog mul mug D rough -> 0 < sigma -> 0 < P -> 0 < Pc -> 0 < L ->
  forall r, In r [ Friedel W m 0 rhol rhog mul mug sigma D rough L; Chisholm W m 0 rhol rhog mul mug D rough L false; Baroczy_Chisholm W m 0 rhol rhog mul mug D rough L;
    Muller_Steinhagen_Heck W m 0 rhol rhog mul mug D rough L; Theissing W m 0 rhol rhog mul mug D rough L; Tran W m 0 rhol rhog mul mug sigma D rough L; Zhang_Webb W m 0 rhol mul P Pc D rough L ] ->
  r = Ok (drop W m rhol mul D rough L).
Proof.
  intros F Hs HP HPc HL r Hr. pose proof F as [Hm Hx Hrho Hmu HD Hrough].
  assert (E : drop W m rhol mul D rough L = L * grad W m rhol mul D rough) by (intros; unfold grad, drop, Rdiv; ring). rewrite E.
  destruct Hr as [<-|[<-|[<-|[<-|[<-|[<-|[<-|[]]]]]]]].
  - rewrite Friedel_eval by auto. f_equal. unfold Friedel_term. rewrite pw_0. unfold Rdiv. ring.
  - rewrite Chisholm_eval by auto. f_equal. unfold interpolation. rewrite !pw_0. ring.
  - rewrite Baroczy_eval by auto. f_equal. unfold interpolation. rewrite !pw_0. ring.
  - rewrite MSH_eval by auto. f_equal. replace (cbrt (1 - 0)) with 1. ring. unfold cbrt. rewrite (proj2 (Rltb_true 0 (1 - 0))) by lra. rewrite Rminus_0_r. unfold Rpower. rewrite ln_1, Rmult_0_r, exp_0. reflexivity.
  - unfold Theissing; cbv zeta; rewrite phase by (auto; lra); rewrite (pdiv_ok (_ * L) D) by lra; cbn [bind]; rewrite phase by (auto; lra); rewrite (pdiv_ok (_ * L) D) by lra; cbn [bind]; rewrite !drop_code2. rewrite (proj2 (Reqb_true 0 0)) by auto. reflexivity.
  - rewrite Tran_eval by auto. f_equal. rewrite !pw_0. ring.
  - rewrite (Zhang_Webb_eval W m 0 rhol rhog mul mug D rough F L P Pc) by auto. f_equal. rewrite pw_0. unfold Rdiv. ring.
Qed.
Theorem C92_all_gas W m rhol rhog mul mug sigma D rough L : stream m 1 rhol rhog mul mug D rough -> 0 < sigma -> 0 < L ->
  forall r, In r [ Friedel W m 1 rhol rhog mul mug sigma D rough L; Chisholm W m 1 rhol rhog mul mug D rough L false; Baroczy_Chisholm W m 1 rhol rhog mul mug D rough L;
    Muller_Steinhagen_Heck W m 1 rhol rhog mul mug D rough L; Theissing W m 1 rhol rhog mul mug D rough L; Xu_Fang W m 1 rhol rhog mul mug sigma D rough L ] ->
  r = Ok (drop W m rhog mug D rough L).
Proof.
  intros F Hs HL r Hr. pose proof F as [Hm Hx Hrho Hmu HD Hrough].
  assert (E : drop W m rhog mug D rough L = L * grad W m rhog mug D rough) by (intros; unfold grad, drop, Rdiv; ring). rewrite E.
  assert (Z : 1 - 1 = 0) by ring.
  destruct Hr as [<-|[<-|[<-|[<-|[<-|[<-|[]]]]]]].
  - rewrite Friedel_eval by auto. f_equal. unfold Friedel_term. rewrite Z, pw_0. unfold Rdiv. ring.
  - rewrite Chisholm_eval by auto. f_equal. unfold interpolation. rewrite Z, pw_0, !pw_1. ring.
  - rewrite Baroczy_eval by auto. f_equal. unfold interpolation. rewrite Z, pw_0, !pw_1. ring.
  - rewrite MSH_eval by auto. f_equal. rewrite Z. replace (cbrt 0) with 0. ring. unfold cbrt. rewrite (proj2 (Rltb_false 0 0)) by lra. rewrite (proj2 (Reqb_true 0 0)) by lra. reflexivity.
  - unfold Theissing; cbv zeta; rewrite phase by (auto; lra); rewrite (pdiv_ok (_ * L) D) by lra; cbn [bind]; rewrite phase by (auto; lra); rewrite (pdiv_ok (_ * L) D) by lra; cbn [bind]; rewrite !drop_code2. rewrite (proj2 (Reqb_false 1 0)), (proj2 (Reqb_true 1 1)) by lra. reflexivity.
  - rewrite Xu_Fang_eval by (auto; lra). f_equal. replace (1 - Rpower 1 2.59) with 0. rewrite pw_0. ring. unfold Rpower. rewrite ln_1, Rmult_0_r, exp_0. ring.
Qed.
(** Tran's correlation does not have the gas limit: it returns 4.3 times the gas pressure drop *)
Theorem C92_Tran_gas_refuted W m rhol rhog mul mug sigma D rough L : stream m 1 rhol rhog mul mug D rough -> 0 < sigma -> 0 < L ->
  Tran W m 1 rhol rhog mul mug sigma D rough L = Ok (4.3 * drop W m rhog mug D rough L) /\ 4.3 * drop W m rhog mug D rough L <> drop W m rhog mug D rough L.
Proof.
  intros F Hs HL. pose proof F as [Hm Hx Hrho Hmu HD Hrough]. assert (0 < drop W m rhog mug D rough L) by (apply drop_pos; auto; lra). split; [|lits; lra].
  rewrite Tran_eval by auto. f_equal. assert (Z : 1 - 1 = 0) by ring. rewrite Z, pw_0, !pw_1. unfold grad, drop, Rdiv. ring.
Qed.
(** Lockhart and Martinelli promises the liquid limit, but an exactly liquid stream is refused *)
Theorem C92_Lockhart_liquid_refuted m rhol rhog mul mug D L : 0 < m -> 0 < rhog < rhol -> 0 < mug < mul -> 0 < D -> 0 < L -> Lockhart_Martinelli m 0 rhol rhog mul mug D L 2000 = Err ZeroDivisionError.
Proof.
  intros Hm Hrho Hmu HD HL. pose proof (area_pos D HD) as HA. unfold Lockhart_Martinelli. cbv zeta. rewrite phase2 by (try lra; rewrite Rminus_0_r; lra). rewrite (pdiv_ok (m * 0)) by posr. cbn [bind].
  unfold Reynolds. assert (0 < mug / rhog) by (posr; lra). rewrite !(pdiv_ok mug) by lra. cbn [bind]. rewrite pdiv_ok by lra. cbn [bind].
  replace (m * 0 / (rhog * (0.25 * PI * D * D)) * D / (mug / rhog)) with 0 by (field; pose proof PI_RGT_0; splits; lra).
  rewrite (proj2 (Rltb_true 0 2000)) by lra. rewrite andb_true_r. match goal with |- bind ?c _ = _ => assert (exists C, c = Ok C) as [C ->] end. { repeat match goal with |- context [if ?c then _ else _] => destruct c end; eauto. }
  cbn [bind]. rewrite pdiv_0. reflexivity.
Qed.

(** *** Two laminar phases: a light, very thin gas makes the interpolations negative *)
Lemma laminar_grad W M rho mu D : 0 < M -> 0 < rho -> 0 < mu -> 0 < D -> rey M rho mu D < 2040 -> grad W M rho mu D 0 = 128 * mu * M / (PI * rho * D ^ 4).
Proof.
  intros HM Hr Hmu HD HR. pose proof (rey_pos M rho mu D). unfold grad, drop, fac. replace (0 / D) with 0 by (field; lra).
  assert (E : friction_factor W (rey M rho mu D) 0 (Some "Clamond"%string) true = Ok (64 / rey M rho mu D)) by (apply C38_laminar; lra). rewrite E. clear E. unfold rey, vel. pose proof PI_RGT_0. lits. field. splits; lra.
Qed.
Definition thin_W : R -> R := fun y => y.
Lemma thin_stream x : 0 <= x <= 1 -> stream (1 / 10 ^ 6) x 2 1 1 (1 / 1000) 1 0.
Proof. intros. split; try lra.  Qed.
Lemma thin_grads : grad thin_W (1 / 10 ^ 6) 2 1 1 0 = 64 / 10 ^ 6 / PI /\ grad thin_W (1 / 10 ^ 6) 1 (1 / 1000) 1 0 = 128 / 10 ^ 9 / PI.
Proof.
  assert (HR : forall mu, 1 / 1000 <= mu -> forall rho, 1 <= rho -> rey (1 / 10 ^ 6) rho mu 1 < 2040).
  { intros mu Hm rho Hr. unfold rey, vel. pose proof PI_RGT_0. pose proof PI_4. assert (3 < PI) by (apply PI_gt_3 || (pose proof PI2_3_2; lra)). replace (_ / mu) with (1 / 10 ^ 6 * 4 / PI / mu) by (lits; field; splits; lra).
    apply Rle_lt_trans with (1 / 10 ^ 6 * 4 / 3 / (1 / 1000)); [|lra]. apply Rmult_le_compat; [left; posr|left; posr; lra| |apply Rinv_le_contravar; lra]. apply Rmult_le_compat_l; [lra|]. apply Rinv_le_contravar; lra. }
  split; rewrite laminar_grad; try lra; try (apply HR; lra); field; pose proof PI_RGT_0; lra.
Qed.
Theorem C92_negative_refuted : exists v w,
  Muller_Steinhagen_Heck thin_W (1 / 10 ^ 6) (9 / 10) 2 1 1 (1 / 1000) 1 0 1 = Ok v /\ v < 0 /\
  Chisholm thin_W (1 / 10 ^ 6) (1 / 2) 2 1 1 (1 / 1000) 1 0 1 false = Ok w /\ w < 0.
Proof.
  destruct thin_grads as [E1 E2]. pose proof PI_RGT_0. assert (HI : 0 < / PI) by now apply Rinv_0_lt_compat. do 2 eexists. splits.
  - apply MSH_eval; [apply thin_stream|]; lra.
  - rewrite E1, E2. unfold cbrt. rewrite (proj2 (Rltb_true 0 (1 - 9 / 10))) by lra. assert (HC : 2 / 5 < Rpower (1 - 9 / 10) (1 / 3)).
    { replace (2 / 5) with (Rpower (8 / 125) (1 / 3)). apply Rpower_lt_l; lra. replace (8 / 125) with (Rpower (2 / 5) 3). rewrite Rpower_mult. replace (3 * (1 / 3)) with 1 by lra. apply Rpower_1; lra. replace 3 with (INR 3) by (cbn; lra). rewrite Rpower_pow by lra. lra. }
    set (c := Rpower _ _) in *. change (64 / 10 ^ 6 / PI) with (64 / 10 ^ 6 * / PI). change (128 / 10 ^ 9 / PI) with (128 / 10 ^ 9 * / PI). set (i := / PI) in *. assert (0 < i * (c - 2 / 5)) by (apply Rmult_lt_0_compat; lra). lra.
  - apply Chisholm_eval; [apply thin_stream|]; lra.
  - unfold interpolation. rewrite E1, E2. replace (128 / 10 ^ 9 / PI / (64 / 10 ^ 6 / PI)) with (1 / 500) by (field; lra). unfold Chisholm_B, mass_flux.
    assert (sqrt (1 / 500) <= 1) by (rewrite <- sqrt_1 at 2; apply sqrt_le_1; lra). rewrite (proj2 (Rleb_true _ 9.5)) by (lits; lra). rewrite (proj2 (Rleb_true _ 500)).
    2:{ assert (3 < PI) by (apply PI_gt_3 || (pose proof PI2_3_2; lra)). apply Rmult_le_reg_r with (0.25 * PI * 1 * 1); [posr|]. unfold Rdiv at 1. rewrite Rmult_assoc, Rinv_l by (apply Rgt_not_eq; posr). lits. lra. }
    replace (1 - 1 / 2) with (1 / 2) by lra. rewrite !pw_in by lra. rewrite <- Rpower_plus. replace (0.875 + 0.875) with 1.75 by (lits; lra).
    assert (HC : 1 / 4 < Rpower (1 / 2) 1.75). { replace (1 / 4) with (Rpower (1 / 2) 2). unfold Rpower. apply exp_increasing. assert (ln (1 / 2) < 0) by (rewrite <- ln_1; apply ln_increasing; lra). lits. nra. replace 2 with (INR 2) at 2 by (cbn; lra). rewrite Rpower_pow by lra. lra. }
    set (c := Rpower _ _) in *. change (64 / 10 ^ 6 / PI) with (64 / 10 ^ 6 * / PI). change (128 / 10 ^ 9 / PI) with (128 / 10 ^ 9 * / PI). set (i := / PI) in *. assert (0 < i * (c - 1 / 4)) by (apply Rmult_lt_0_compat; lra). lits. lra.
Qed.

(** *** The hypotheses are met: the stream of the documentation's examples, and ones of a single phase *)
Example C92_stream_case : stream 0.6 0.1 915 2.67 0.00018 0.000014 0.05 0 /\ stream 0.6 0 915 2.67 0.00018 0.000014 0.05 0 /\ stream 0.6 1 915 2.67 0.00018 0.000014 0.05 0 /\ 1 / 10 ^ 30 <= 0.1 <= 1 - 1 / 10 ^ 13.
Proof. splits; try (constructor; rewrite ?(Rdiv_0_l 0.05); lits; lra). all: lits; lra. Qed.
(** slow flow of both phases: the gas twenty times lighter but only two times thinner, so the gas alone would lose more *)
Example C92_interpolations_case : stream (1 / 10 ^ 6) (1 / 2) 20 1 1 (1 / 2) 1 0 /\ grad thin_W (1 / 10 ^ 6) 20 1 1 0 <= grad thin_W (1 / 10 ^ 6) 1 (1 / 2) 1 0.
Proof.
  split; [constructor; lra|]. assert (HR : forall mu, 1 / 2 <= mu -> forall rho, 1 <= rho -> rey (1 / 10 ^ 6) rho mu 1 < 2040).
  { intros mu Hm rho Hr. unfold rey, vel. pose proof PI_RGT_0. assert (3 < PI) by (apply PI_gt_3 || (pose proof PI2_3_2; lra)). replace (_ / mu) with (1 / 10 ^ 6 * 4 / PI / mu) by (lits; field; splits; lra).
    apply Rle_lt_trans with (1 / 10 ^ 6 * 4 / 3 / (1 / 2)); [|lra]. apply Rmult_le_compat; [left; posr|left; posr; lra| |apply Rinv_le_contravar; lra]. apply Rmult_le_compat_l; [lra|]. apply Rinv_le_contravar; lra. }
  rewrite !laminar_grad; try lra; try (apply HR; lra). pose proof PI_RGT_0. assert (0 < / PI) by now apply Rinv_0_lt_compat.
  replace (128 * 1 * (1 / 10 ^ 6) / (PI * 20 * 1 ^ 4)) with (6.4 / 10 ^ 6 * / PI) by (lits; field; lra). replace (128 * (1 / 2) * (1 / 10 ^ 6) / (PI * 1 * 1 ^ 4)) with (64 / 10 ^ 6 * / PI) by (field; lra). apply Rmult_le_compat_r; [lra|]. lits; lra.
Qed.

Print Assumptions C92_positive.
Print Assumptions C92_Friedel_above.
Print Assumptions C92_separated.
Print Assumptions C92_separated_bound.
Print Assumptions C92_Lockhart.
Print Assumptions C92_Kim_Mudawar.
Print Assumptions C92_interpolations.
Print Assumptions C92_Theissing.
Print Assumptions C92_all_liquid.
Print Assumptions C92_all_gas.
Print Assumptions C92_Tran_gas_refuted.
Print Assumptions C92_Lockhart_liquid_refuted.
Print Assumptions C92_negative_refuted.
