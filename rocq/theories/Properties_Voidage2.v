(** C86: viscosity of gas-liquid mixtures ([gas_liquid_viscosity] and its correlations, fluids/two_phase_voidage.py). *)
From Coq Require Import Reals Lra Lia List Bool String Psatz QArith Qreals.
From Coquelicot Require Import Coquelicot.
From Verif Require Import Base Model_Real Proofs_Real Interval Model_Voidage Properties_Voidage.
Import ListNotations.
Open Scope R_scope.

Definition six : list string := ["Beattie Whalley"; "Fourar Bories"; "Duckler"; "McAdams"; "Cicchitti"; "Lin Kwok"]%string.
Definition three : list string := ["Beattie Whalley"; "Fourar Bories"; "Duckler"]%string.
Ltac glv := cbv [gas_liquid_viscosity bind String.eqb Ascii.eqb Bool.eqb andb orb].
Ltac eachv H := repeat (destruct H as [<-|H]; [glv|]); [..|destruct H].

(** Pure liquid has the liquid's viscosity and pure gas the gas's, with every method. *)
Theorem C86_pure mul mug rhol rhog meth : 0 < mul -> 0 < mug -> 0 < rhol -> 0 < rhog -> In meth six ->
  gas_liquid_viscosity 0 mul mug (Some rhol) (Some rhog) (Some meth) = Ok mul /\
  gas_liquid_viscosity 1 mul mug (Some rhol) (Some rhog) (Some meth) = Ok mug.
Proof.
  intros Hl Hv Hr Hg HI. cbn [In six] in HI. eachv HI.
  - unfold Beattie_Whalley, homogeneous. rewrite (proj2 (Reqb_false 0 1)) by lra. rewrite (proj2 (Reqb_true 0 0)) by lra. rewrite (proj2 (Reqb_true 1 1)) by lra.
    cbn [bind]. split; f_equal; ring.
  - unfold Fourar_Bories. rewrite ?(pdiv_ok _ rhol), ?(pdiv_ok _ rhog) by lra. cbn [bind]. replace (0 / rhog + (1 - 0) / rhol) with (/ rhol) by (field; lra).
    replace (1 / rhog + (1 - 1) / rhol) with (/ rhog) by (field; lra). assert (0 < / rhol) by (apply Rinv_0_lt_compat; auto). assert (0 < / rhog) by (apply Rinv_0_lt_compat; auto).
    rewrite ?pdiv_ok by lra. cbn [bind]. rewrite ?(pdiv_ok _ rhol), ?(pdiv_ok _ rhog) by lra. cbn [bind].
    replace (1 - 0) with 1 by ring. replace (1 - 1) with 0 by ring. rewrite !Rmult_0_l, !Rmult_1_l. assert (0 < mul / rhol) by posr. assert (0 < mug / rhog) by posr.
    rewrite ?psqrt_ok by lra. cbn [bind]. rewrite ?psqrt_ok by lra. cbn [bind]. rewrite sqrt_0. cbv zeta. rewrite Rplus_0_l, Rplus_0_r, !Rmult_assoc.
    rewrite !sqrt_sqrt by lra. split; f_equal; field; lra.
  - unfold Duckler. rewrite ?(pdiv_ok _ rhol), ?(pdiv_ok _ rhog) by lra. cbn [bind]. rewrite ?(pdiv_ok _ rhol), ?(pdiv_ok _ rhog) by lra. cbn [bind].
    replace (0 / rhog + (1 - 0) / rhol) with (/ rhol) by (field; lra). replace (1 / rhog + (1 - 1) / rhol) with (/ rhog) by (field; lra).
    rewrite ?pdiv_ok by (apply Rinv_neq_0_compat; lra). split; f_equal; field; lra.
  - unfold McAdams. rewrite ?(pdiv_ok _ mul), ?(pdiv_ok _ mug) by lra. cbn [bind]. rewrite ?(pdiv_ok _ mul) by lra. cbn [bind].
    replace (0 / mug + (1 - 0) / mul) with (/ mul) by (field; lra). replace (1 / mug + (1 - 1) / mul) with (/ mug) by (field; lra).
    rewrite ?pdiv_ok by (apply Rinv_neq_0_compat; lra). split; f_equal; field; lra.
  - unfold Cicchitti. split; f_equal; ring.
  - unfold Lin_Kwok. assert (E0 : ppow 0 1.4 = Ok 0) by (rewrite ppow_pw by (lits; lra); unfold pw; rewrite (proj2 (Rltb_false 0 0)) by lra; reflexivity).
    rewrite E0. rewrite ppow_ok, pow1 by lra. cbn [bind]. rewrite ?pdiv_ok by lra. split; f_equal; field; lra.
Qed.
(** Four of the methods never leave the interval between the two viscosities. *)
Theorem C86_between x mul mug rhol rhog meth : 0 < x < 1 -> 0 < mug -> mug < mul -> 0 < rhol -> 0 < rhog ->
  In meth ["Duckler"; "McAdams"; "Cicchitti"; "Lin Kwok"]%string ->
  exists mu, gas_liquid_viscosity x mul mug (Some rhol) (Some rhog) (Some meth) = Ok mu /\ mug < mu < mul.
Proof.
  intros Hx Hv Hl Hr Hg HI. assert (X1 : 0 < x) by lra. assert (X2 : 0 < 1 - x) by lra. assert (M : 0 < mul) by lra. cbn [In] in HI. eachv HI.
  - unfold Duckler. bss. set (a := x / rhog). assert (A : 0 < a) by (unfold a; posr). set (b := (1 - x) / rhol). assert (B : 0 < b) by (unfold b; posr).
    rewrite pdiv_ok by lra. eexists; split; [reflexivity|]. replace (x * mug / rhog) with (a * mug) by (unfold a; field; lra). replace ((1 - x) * mul / rhol) with (b * mul) by (unfold b; field; lra).
    clearbody a b. split; (apply Rmult_lt_reg_r with (a + b); [lra|]; unfold Rdiv; rewrite Rmult_assoc, Rinv_l by lra; nra).
  - unfold McAdams. bss. assert (A : 0 < x / mug) by posr. assert (B : 0 < (1 - x) / mul) by posr. rewrite pdiv_ok by lra. eexists; split; [reflexivity|].
    assert (0 < x * mul + (1 - x) * mug) by nra. assert (0 < mul - mug) by lra. assert (0 < mug * ((1 - x) * (mul - mug))) by posr. assert (0 < mul * (x * (mul - mug))) by posr.
    replace (1 / (x / mug + (1 - x) / mul)) with (mul * mug / (x * mul + (1 - x) * mug)) by (field; splits; lra).
    split; (apply Rmult_lt_reg_r with (x * mul + (1 - x) * mug); [lra|]; unfold Rdiv; rewrite Rmult_assoc, Rinv_l by lra; nra).
  - unfold Cicchitti. eexists; split; [reflexivity|]. nra.
  - unfold Lin_Kwok. rewrite ppow_ok by lra. cbn [bind]. assert (P : 0 < Rpower x 1.4 < 1). { split; [apply exp_pos|]. unfold Rpower. rewrite <- exp_0. apply exp_increasing.
      assert (ln x < 0) by (rewrite <- ln_1; apply ln_increasing; lra). lits; nra. }
    set (y := Rpower x 1.4) in *. clearbody y. assert (0 < mug + y * (mul - mug)) by nra. rewrite pdiv_ok by lra. eexists; split; [reflexivity|].
    assert (0 < mul - mug) by lra. assert (0 < 1 - y) by lra. assert (0 < y) by lra. assert (0 < mug * ((1 - y) * (mul - mug))) by posr. assert (0 < mul * (y * (mul - mug))) by posr.
    split; (apply Rmult_lt_reg_r with (mug + y * (mul - mug)); [lra|]; unfold Rdiv; rewrite Rmult_assoc, Rinv_l by lra; nra).
Qed.
Example C86_between_ex : 0 < 0.4 < 1 /\ 0 < 0.00001 /\ 0.00001 < 0.001. Proof. splits; lits; lra. Qed.
(** The other two stay positive, but can exceed the viscosity of the liquid. *)
Theorem C86_positive x mul mug rhol rhog meth : 0 < x < 1 -> 0 < mug -> 0 < mul -> 0 < rhog < rhol -> In meth six ->
  exists mu, gas_liquid_viscosity x mul mug (Some rhol) (Some rhog) (Some meth) = Ok mu /\ 0 < mu.
Proof.
  intros Hx Hv Hl Hr HI. assert (X1 : 0 < x) by lra. assert (X2 : 0 < 1 - x) by lra. assert (R1 : 0 < rhol) by lra. assert (R2 : 0 < rhog) by lra. cbn [In six] in HI. eachv HI.
  - unfold Beattie_Whalley. rewrite homogeneous_eval by (split; lra). cbn [bind]. pose proof (no_slip_01 x rhol rhog ltac:(split; lra)) as N. set (a := no_slip _ _ _) in *. clearbody a.
    eexists; split; [reflexivity|]. assert (0 < mul * (1 - a) * (1 + 2.5 * a)) by (apply Rmult_lt_0_compat; [apply Rmult_lt_0_compat; lra|lits; lra]). nra.
  - unfold Fourar_Bories. bss. eexists; split; [reflexivity|].
    assert (0 < sqrt (x * (mug / rhog))) by (apply sqrt_lt_R0; posr). assert (0 < sqrt ((1 - x) * (mul / rhol))) by (apply sqrt_lt_R0; posr). posr.
  - unfold Duckler. bss. rewrite pdiv_ok by posr. eexists; split; [reflexivity|posr].
  - unfold McAdams. bss. rewrite pdiv_ok by posr. eexists; split; [reflexivity|posr].
  - unfold Cicchitti. eexists; split; [reflexivity|posr].
  - unfold Lin_Kwok. rewrite ppow_ok by lra. cbn [bind]. assert (P : 0 < Rpower x 1.4 < 1). { split; [apply exp_pos|]. unfold Rpower. rewrite <- exp_0. apply exp_increasing.
      assert (ln x < 0) by (rewrite <- ln_1; apply ln_increasing; lra). lits; nra. }
    set (y := Rpower x 1.4) in *. clearbody y. assert (0 < mug + y * (mul - mug)) by nra. rewrite pdiv_ok by lra. eexists; split; [reflexivity|]. posr.
Qed.
Example C86_positive_ex : 0 < 0.4 < 1 /\ 0 < 1.2 < 850 /\ In "Fourar Bories"%string six. Proof. splits; try (lits; lra). cbn; tauto. Qed.
Theorem C86_beattie_above_liquid_refuted : exists mu,
  gas_liquid_viscosity (1 / 10) 1 (1 / 100) (Some 3) (Some 1) (Some "Beattie Whalley"%string) = Ok mu /\ 1 < mu.
Proof.
  glv. unfold Beattie_Whalley. rewrite homogeneous_eval by (split; lra). cbn [bind]. eexists; split; [reflexivity|].
  replace (no_slip (1 / 10) 3 1) with (1 / 4) by (unfold no_slip; field). lits; lra.
Qed.
Theorem C86_fourar_above_liquid_refuted : exists mu,
  gas_liquid_viscosity (1 / 5) 1 (1 / 4) (Some 4) (Some 1) (Some "Fourar Bories"%string) = Ok mu /\ 1 < mu.
Proof.
  glv. unfold Fourar_Bories. rewrite ?pdiv_ok by lra. cbn [bind]. rewrite ?pdiv_ok by lra. cbn [bind]. rewrite ?pdiv_ok by lra. cbn [bind].
  rewrite ?psqrt_ok by lra. cbn [bind]. rewrite ?psqrt_ok by lra. cbn [bind]. cbv zeta. eexists; split; [reflexivity|].
  replace (1 / 5 * (1 / 4 / 1)) with (1 / 20) by field. replace ((1 - 1 / 5) * (1 / 4)) with (2 * 2 * (1 / 20)) by field.
  rewrite (sqrt_mult (2 * 2)) by lra. rewrite (sqrt_square 2) by lra. replace (1 / 5 / 1 + (1 - 1 / 5) / 4) with (2 / 5) by field.
  replace (1 / (2 / 5) * (sqrt (1 / 20) + 2 * sqrt (1 / 20)) * (sqrt (1 / 20) + 2 * sqrt (1 / 20))) with (45 / 2 * (sqrt (1 / 20) * sqrt (1 / 20))) by field.
  rewrite sqrt_sqrt by lra. lra.
Qed.

(** Without a method it is [McAdams]; three methods need both densities and refuse with [TypeError] without them, exactly when
    [gas_liquid_viscosity_methods] does not offer them; an unknown name is refused with [ValueError]. *)
Theorem C86_dispatch x mul mug rhol rhog meth :
  gas_liquid_viscosity x mul mug rhol rhog None = McAdams x mul mug /\
  (In meth (gas_liquid_viscosity_methods rhol rhog) -> forall d,
     gas_liquid_viscosity x mul mug rhol rhog (Some meth) = gas_liquid_viscosity x mul mug (fill rhol d) (fill rhog d) (Some meth)) /\
  (In meth six -> ~ In meth (gas_liquid_viscosity_methods rhol rhog) -> gas_liquid_viscosity x mul mug rhol rhog (Some meth) = Err TypeError) /\
  (~ In meth six -> gas_liquid_viscosity x mul mug rhol rhog (Some meth) = Err ValueError).
Proof.
  splits.
  - reflexivity.
  - intros HI d. destruct rhol as [rl|], rhog as [rg|]; cbn [In gas_liquid_viscosity_methods] in HI; cbn [fill]; eachv HI; reflexivity.
  - intros HI HN. cbn [In six] in HI. destruct rhol as [rl|], rhog as [rg|]; cbn [In gas_liquid_viscosity_methods] in HN; eachv HI; try reflexivity; exfalso; tauto.
  - intros H. unfold gas_liquid_viscosity.
    repeat match goal with |- context [String.eqb meth ?n] => destruct (String.eqb_spec meth n); [exfalso; apply H; subst; cbn; tauto|] end. reflexivity.
Qed.
Example C86_dispatch_ex : In "Duckler"%string six /\ ~ In "Duckler"%string (gas_liquid_viscosity_methods (Some 1) None). Proof. split; cbn; intuition discriminate. Qed.

Print Assumptions C86_pure.
Print Assumptions C86_between.
Print Assumptions C86_positive.
Print Assumptions C86_beattie_above_liquid_refuted.
Print Assumptions C86_fourar_above_liquid_refuted.
Print Assumptions C86_dispatch.
