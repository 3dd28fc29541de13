(** Final theorems: accuracy of the default friction factor (C74), monotonicity (C75), curved tubes (C39). *)
From Coq Require Import Reals Lra Lia QArith Qreals List String Bool.
From Coquelicot Require Import Coquelicot.
From Verif Require Import Base Model_Real Interval Proofs_Real Model_Friction Proofs_Friction Proofs_Friction2 Proofs_Colebrook Proofs_Clamond Proofs_FrictionMono Properties_Friction.
Import ListNotations.
Open Scope R_scope.
Open Scope string_scope.
Open Scope R_scope.

(** ** C74 *)
Theorem C74_default_accuracy : forall W Re eD f, 2040 <= Re -> 0 <= eD <= 0.05 -> colebrook_eq Re eD f ->
  exists f', friction_factor W Re eD None true = Ok f' /\ 0 < f' /\
    Rabs (1 / sqrt f' - 1 / sqrt f) <= 1 / 10 ^ 13 * (3 + ln Re).
Proof.
  intros W Re eD f HR He Hf. destruct (Clamond_sqrt Re eD HR He) as [f' [E [P S]]]. exists f'. splits; auto.
  - unfold friction_factor. rewrite (proj2 (Rltb_false _ 2040)) by lra. cbn [orb String.eqb Ascii.eqb Bool.eqb]. rewrite E. reflexivity.
  - assert (Pf := proj1 Hf). assert (0 < sqrt f) by (apply sqrt_lt_R0; auto). assert (0 < sqrt f') by (apply sqrt_lt_R0; auto).
    assert (0 < kF2 Re eD / sqrt cl3) by (rewrite <- S; posr). rewrite S.
    eapply Rle_trans; [apply (residual_stable Re eD); try lra; posr|].
    apply colebrook_eq_residual in Hf; [|lra|auto]. rewrite Hf, Rminus_0_r. apply clamond_residual; auto.
Qed.
Lemma colebrook_s_lb Re eD f : 2040 <= Re -> 0 <= eD <= 0.05 -> colebrook_eq Re eD f -> 3 < 1 / sqrt f.
Proof.
  intros HR He Hf. assert (P := proj1 Hf). assert (S : 0 < sqrt f) by (apply sqrt_lt_R0; auto).
  assert (Q : 0 < 1 / sqrt f) by posr. apply colebrook_eq_residual in Hf; [|lra|auto]. set (s := 1 / sqrt f) in *. clearbody s.
  destruct (Rlt_or_le 3 s) as [|G]; auto. exfalso.
  pose proof (residual_mono Re eD s 3 ltac:(lra) ltac:(lra) Q G) as M.
  assert (D : colebrook_residual Re eD 3 < 0); [|lra]. unfold colebrook_residual.
  assert (A : eD / 3.7 <= 0.05 / 3.7) by (apply div_le_r; lits; lra).
  assert (B : 2.51 * 3 / Re <= 2.51 * 3 / 2040) by (apply div_le_l; lits; lra).
  assert (B0 : 0 < 2.51 * 3 / Re) by posr. assert (A0 : 0 <= eD / 3.7) by (apply Rdiv_le_0_compat; lits; lra).
  assert (L : log10 (eD / 3.7 + 2.51 * 3 / Re) <= log10 (0.05 / 3.7 + 2.51 * 3 / 2040)) by (apply log10_le; lra).
  assert (N : log10 (0.05 / 3.7 + 2.51 * 3 / 2040) < - 1.6) by (unfold log10; itv 0%nat). lits; lra.
Qed.
(** in terms of the friction factor itself: the relative error has the same bound *)
Theorem C74_relative_error : forall W Re eD f, 2040 <= Re <= 10 ^ 300 -> 0 <= eD <= 0.05 -> colebrook_eq Re eD f ->
  exists f', friction_factor W Re eD None true = Ok f' /\ Rabs (f' - f) <= 1 / 10 ^ 13 * (3 + ln Re) * f.
Proof.
  intros W Re eD f HR He Hf. destruct (C74_default_accuracy W Re eD f ltac:(lra) He Hf) as [f' [E [P B]]].
  exists f'. split; auto. pose proof (colebrook_s_lb Re eD f ltac:(lra) He Hf) as L3. assert (Pf := proj1 Hf).
  assert (S : 0 < sqrt f) by (apply sqrt_lt_R0; auto). assert (S' : 0 < sqrt f') by (apply sqrt_lt_R0; auto).
  assert (LN : ln Re <= 700).
  { apply Rle_trans with (ln (10 ^ 300)); [apply ln_le_compat; lra|]. rewrite <- (Rpower_pow 300 10) by lra. unfold Rpower. rewrite ln_exp.
    left. replace (INR 300) with 300 by (rewrite INR_IZR_INZ; reflexivity). itv 0%nat. }
  set (e := 1 / 10 ^ 13 * (3 + ln Re)) in *. assert (He1 : e <= 0.001) by (unfold e; lits; lra).
  rewrite <- (sqrt_sqrt f), <- (sqrt_sqrt f') by lra.
  set (s := 1 / sqrt f) in *. set (s' := 1 / sqrt f') in *.
  replace (sqrt f) with (/ s) by (unfold s; field; lra). replace (sqrt f') with (/ s') by (unfold s'; field; lra).
  clearbody s s' e. assert (B' := B). apply Rabs_le_between in B'. assert (L2 : 2.9 < s') by (lits; lra).
  replace (/ s' * / s' - / s * / s) with ((s - s') * ((s + s') / (s' * s')) * (/ s * / s)) by (field; lits; lra).
  assert (I : 0 < / s) by (apply Rinv_0_lt_compat; lra).
  rewrite Rabs_mult, (Rabs_right (/ s * / s)) by (apply Rle_ge; left; apply Rmult_lt_0_compat; auto).
  apply Rmult_le_compat_r. left; apply Rmult_lt_0_compat; auto.
  assert (R1 : 0 <= (s + s') / (s' * s') <= 1).
  { split. apply Rdiv_le_0_compat; lits; nra. apply frac_le; lits; nra. }
  rewrite Rabs_mult, (Rabs_right ((s + s') / _)) by lra. rewrite Rabs_minus_sym.
  pose proof (Rabs_pos (s' - s)). nra.
Qed.
(** the default agrees with the closed form (method Colebrook) *)
Theorem C74_default_vs_Colebrook : forall W Re eD, lambert_spec W -> 2040 <= Re -> 0 <= eD <= 0.05 -> eD * Re <= 10 ^ 13 ->
  exists f f', friction_factor W Re eD None true = Ok f /\ friction_factor W Re eD (Some "Colebrook") true = Ok f' /\
    Rabs (1 / sqrt f - 1 / sqrt f') <= 3 / 10 ^ 13 * (1 + ln Re + eD * Re).
Proof.
  intros W Re eD HW HR He HE. destruct (C73_unique_solution Re eD HR He) as [g [Hg _]].
  destruct (C74_default_accuracy W Re eD g HR He Hg) as [f [E1 [P1 B1]]].
  destruct (C73_closed_form W Re eD g HW HR He HE Hg) as [f' [E2 [P2 B2]]].
  exists f, f'. splits; auto.
  replace (1 / sqrt f - 1 / sqrt f') with ((1 / sqrt f - 1 / sqrt g) - (1 / sqrt f' - 1 / sqrt g)) by ring.
  eapply Rle_trans; [apply Rabs_triang|]. rewrite Rabs_Ropp. 
  assert (0 <= eD * Re) by posr.
  assert (0 < ln Re) by (rewrite <- ln_1; apply ln_increasing; lra). lra.
Qed.
Example C74_ex : exists W f f', colebrook_eq 50000000 0.02 f /\ friction_factor W 50000000 0.02 None true = Ok f' /\
  Rabs (1 / sqrt f' - 1 / sqrt f) <= 1 / 10 ^ 11.
Proof.
  exists (fun x => x). destruct (C73_unique_solution 50000000 0.02 ltac:(lra) ltac:(lits; lra)) as [f [Hf _]].
  destruct (C74_default_accuracy (fun x => x) 50000000 0.02 f ltac:(lra) ltac:(lits; lra) Hf) as [f' [E [_ B]]].
  exists f, f'. splits; auto. eapply Rle_trans; [exact B|]. left. itv 0%nat.
Qed.

(** ** C75 *)
Definition monotone_methods : list string :=
  ["Moody"; "Alshul_1952"; "Churchill_1973"; "Eck_1973"; "Jain_1976"; "Swamee_Jain_1976"; "Haaland"; "Round_1980"].
Theorem C75_explicit_methods : forall W m, In m monotone_methods ->
  strictly_increases (fun Re eD => friction_factor W Re eD (Some m) true).
Proof.
  intros W m Hm Re1 eD1 Re2 eD2 H. assert (H' := H). destruct H' as [HR _].
  assert (K : forall corr, strictly_increases corr ->
    (forall Re eD, 2040 <= Re -> friction_factor W Re eD (Some m) true = bind (corr Re eD) (fun f => Ok f)) ->
    exists f1 f2, friction_factor W Re1 eD1 (Some m) true = Ok f1 /\ friction_factor W Re2 eD2 (Some m) true = Ok f2 /\ f1 < f2).
  { intros corr Hc E. destruct (Hc _ _ _ _ H) as [f1 [f2 [E1 [E2 L]]]]. exists f1, f2.
    rewrite !E by lra. rewrite E1, E2. auto. }
  assert (U : forall Re, 2040 <= Re -> Rltb Re 2040 = false) by (intros; apply Rltb_false; lra).
  unfold monotone_methods in Hm. cbn [In] in Hm.
  repeat (destruct Hm as [Hm|Hm]; [subst m|]); try contradiction;
    (eapply K; [|intros Re eD HRe; unfold friction_factor; rewrite (U Re HRe); cbn [orb String.eqb Ascii.eqb Bool.eqb]; reflexivity]).
  - apply Moody_mono.
  - apply Alshul_mono.
  - apply Churchill_1973_mono.
  - apply Eck_mono.
  - apply Jain_mono.
  - apply Swamee_mono.
  - apply Haaland_mono.
  - apply Round_mono.
Qed.
(** the exact solution of the Colebrook-White equation is monotone too *)
Theorem C75_exact_solution : forall Re1 eD1 Re2 eD2 f1 f2, worse Re1 eD1 Re2 eD2 ->
  colebrook_eq Re1 eD1 f1 -> colebrook_eq Re2 eD2 f2 -> f1 < f2.
Proof.
  intros Re1 eD1 Re2 eD2 f1 f2 [HR [He [H5 Hs]]] H1 H2.
  assert (P1 := proj1 H1). assert (P2 := proj1 H2).
  assert (S1 : 0 < sqrt f1) by (apply sqrt_lt_R0; auto). assert (S2 : 0 < sqrt f2) by (apply sqrt_lt_R0; auto).
  destruct (Rlt_or_le f1 f2) as [|G]; auto. exfalso.
  apply colebrook_eq_residual in H1; [|lra|auto]. apply colebrook_eq_residual in H2; [|lra|auto].
  assert (L : 1 / sqrt f1 <= 1 / sqrt f2) by (apply div_le_l; [lra|auto|apply sqrt_le_1_alt; lra]).
  assert (Q1 : 0 < 1 / sqrt f1) by posr. assert (Q2 : 0 < 1 / sqrt f2) by posr.
  set (s1 := 1 / sqrt f1) in *. set (s2 := 1 / sqrt f2) in *. clearbody s1 s2.
  pose proof (residual_mono Re2 eD2 s1 s2 ltac:(lra) ltac:(lra) Q1 L) as M.
  assert (D : colebrook_residual Re1 eD1 s1 < colebrook_residual Re2 eD2 s1); [|lra].
  unfold colebrook_residual. apply Rplus_lt_compat_l. apply Rmult_lt_compat_l; [lra|]. apply log10_lt.
  - assert (0 <= eD1 / 3.7) by (apply Rdiv_le_0_compat; lits; lra). assert (0 < 2.51 * s1 / Re1) by posr. lra.
  - assert (0 < 2.51 * s1) by posr.
    assert (E : eD1 / 3.7 <= eD2 / 3.7) by (apply div_le_r; lits; lra).
    assert (F : 2.51 * s1 / Re1 <= 2.51 * s1 / Re2) by (apply div_le_l; lra).
    destruct Hs as [K|K].
    + assert (2.51 * s1 / Re1 < 2.51 * s1 / Re2) by (apply div_lt_l; lra). lra.
    + assert (eD1 / 3.7 < eD2 / 3.7) by (apply div_lt_r; lits; lra). lra.
Qed.
(** the default method therefore is monotone up to twice its error bound *)
Theorem C75_default_up_to_error : forall W Re1 eD1 Re2 eD2, worse Re1 eD1 Re2 eD2 ->
  exists f1 f2, friction_factor W Re1 eD1 None true = Ok f1 /\ friction_factor W Re2 eD2 None true = Ok f2 /\
    1 / sqrt f2 <= 1 / sqrt f1 + 2 / 10 ^ 13 * (3 + ln Re1).
Proof.
  intros W Re1 eD1 Re2 eD2 H. assert (H' := H). destruct H' as [HR [He [H5 _]]].
  destruct (C73_unique_solution Re1 eD1 ltac:(lra) ltac:(lra)) as [g1 [G1 _]].
  destruct (C73_unique_solution Re2 eD2 ltac:(lra) ltac:(lra)) as [g2 [G2 _]].
  destruct (C74_default_accuracy W Re1 eD1 g1 ltac:(lra) ltac:(lra) G1) as [f1 [E1 [P1 B1]]].
  destruct (C74_default_accuracy W Re2 eD2 g2 ltac:(lra) ltac:(lra) G2) as [f2 [E2 [P2 B2]]].
  exists f1, f2. splits; auto. pose proof (C75_exact_solution _ _ _ _ _ _ H G1 G2) as L.
  assert (Q1 := proj1 G1). assert (Q2 := proj1 G2).
  assert (1 / sqrt g2 <= 1 / sqrt g1) by (apply div_le_l; [lra|apply sqrt_lt_R0; auto|apply sqrt_le_1_alt; lra]).
  assert (ln Re2 <= ln Re1) by (apply ln_le_compat; lra).
  apply Rabs_le_between in B1. apply Rabs_le_between in B2. lra.
Qed.
(** Tsal_1989 is not: it jumps upwards where its two branches meet *)
Theorem C75_Tsal_refuted : forall W, worse 96000 0 94000 0 /\
  exists f1 f2, friction_factor W 96000 0 (Some "Tsal_1989") true = Ok f1 /\
                friction_factor W 94000 0 (Some "Tsal_1989") true = Ok f2 /\ f2 < f1.
Proof.
  intros W. split. unfold worse; splits; lits; lra.
  unfold friction_factor. rewrite !(proj2 (Rltb_false _ 2040)) by lra. cbn [orb String.eqb Ascii.eqb Bool.eqb].
  assert (A1 : 0.11 * sqrt (sqrt (68 / 96000 + 0)) < 0.018) by itv 0%nat.
  assert (A2 : 0.018 < 0.11 * sqrt (sqrt (68 / 94000 + 0))) by itv 0%nat.
  exists (0.0028 + 0.85 * (0.11 * sqrt (sqrt (68 / 96000 + 0)))), (0.11 * sqrt (sqrt (68 / 94000 + 0))).
  unfold Tsal_1989. splits.
  - do 3 mstep posr. rewrite (proj2 (Rleb_false _ _)) by exact A1. reflexivity.
  - do 3 mstep posr. rewrite (proj2 (Rleb_true _ _)) by (left; exact A2). reflexivity.
  - itv 0%nat.
Qed.
Example C75_ex : forall W, worse 200000 0.0001 10000 0.0002 /\ In "Haaland" monotone_methods /\
  exists f1 f2, friction_factor W 200000 0.0001 (Some "Haaland") true = Ok f1 /\
                friction_factor W 10000 0.0002 (Some "Haaland") true = Ok f2 /\ f1 < f2.
Proof.
  intros W. assert (H : worse 200000 0.0001 10000 0.0002) by (unfold worse; splits; lits; lra).
  assert (I : In "Haaland" monotone_methods) by (cbn; tauto). splits; auto. apply (C75_explicit_methods W "Haaland" I _ _ _ _ H).
Qed.

Print Assumptions C74_default_accuracy.
Print Assumptions C74_relative_error.
Print Assumptions C74_default_vs_Colebrook.
Print Assumptions C75_explicit_methods.
Print Assumptions C75_exact_solution.
Print Assumptions C75_default_up_to_error.
Print Assumptions C75_Tsal_refuted.
