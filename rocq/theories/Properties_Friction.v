(** Final theorems: pipe friction factors (C38) and Colebrook's equation (C73, C74). *)
From Coq Require Import Reals Lra Lia QArith Qreals List String Bool.
From Coquelicot Require Import Coquelicot.
From Verif Require Import Base Model_Real Interval Proofs_Real Model_Friction Proofs_Friction Proofs_Friction2 Proofs_Colebrook.
Import ListNotations.
Open Scope R_scope.
Open Scope string_scope.
Open Scope R_scope.

(** ** C38 *)
Theorem C38_laminar : forall W Re eD Method, Re < 2040 -> Re <> 0 ->
  friction_factor W Re eD Method true = Ok (64 / Re) /\ friction_factor W Re eD Method false = Ok (64 / Re / 4).
Proof.
  intros W Re eD M H H0. unfold friction_factor. rewrite (proj2 (Rltb_true Re 2040) H). cbn [orb].
  unfold friction_laminar. rewrite pdiv_ok by auto. cbn [bind]. split; [reflexivity|]. f_equal. lits. field. auto.
Qed.
Theorem C38_zero_Re : forall W eD Method Darcy, friction_factor W 0 eD Method Darcy = Err ZeroDivisionError.
Proof.
  intros. unfold friction_factor. rewrite (proj2 (Rltb_true 0 2040)) by lra. cbn [orb]. unfold friction_laminar. rewrite pdiv_0. reflexivity.
Qed.
(** The methods the docstring lists. *)
Definition documented_methods : list string :=
  ["Moody"; "Alshul_1952"; "Wood_1966"; "Churchill_1973"; "Eck_1973"; "Jain_1976"; "Swamee_Jain_1976";
   "Churchill_1977"; "Chen_1979"; "Round_1980"; "Shacham_1980"; "Barr_1981"; "Zigrang_Sylvester_1";
   "Zigrang_Sylvester_2"; "Haaland"; "Serghides_1"; "Serghides_2"; "Tsal_1989"; "Manadilli_1997"; "Romeo_2002";
   "Sonnad_Goudar_2006"; "Rao_Kumar_2007"; "Buzzelli_2008"; "Avci_Karagoz_2009"; "Papaevangelo_2010";
   "Brkic_2011_1"; "Brkic_2011_2"; "Fang_2011"; "Clamond"; "Colebrook"; "laminar"].
Theorem C38_methods_unchecked : forall Re eD, friction_factor_methods Re eD false = documented_methods.
Proof. reflexivity. Qed.
Theorem C38_unknown_method : forall W Re eD M Darcy, 2040 <= Re -> ~ In M documented_methods ->
  friction_factor W Re eD (Some M) Darcy = Err ValueError.
Proof.
  intros W Re eD M Darcy H N. unfold friction_factor.
  destruct (Rltb Re 2040) eqn:E; [apply Rltb_true in E; lra|]. cbn [orb].
  assert (K : forall s, In s documented_methods -> String.eqb M s = false).
  { intros s Hs. apply String.eqb_neq. intros ->. contradiction. }
  repeat (rewrite K by (cbn; tauto)). reflexivity.
Qed.
Theorem C38_default_is_Clamond : forall W Re eD Darcy, friction_factor W Re eD None Darcy = friction_factor W Re eD (Some "Clamond") Darcy.
Proof. reflexivity. Qed.
Theorem C38_Darcy : forall W Re eD M, friction_factor W Re eD M false =
  match friction_factor W Re eD M true with Ok f => Ok (f / 4) | Err e => Err e end.
Proof.
  intros. unfold friction_factor. set (m := match M with Some v => v | None => _ end). clearbody m.
  match goal with |- bind ?x _ = _ => destruct x as [f|e] end; cbn [bind]; auto. f_equal. lits. field.
Qed.

Ltac lim K := unfold in_limits in K; repeat match type of K with
  | (if Rltb ?a ?b then _ else _) = true => let E := fresh "E" in destruct (Rltb a b) eqn:E; [discriminate K | apply Rltb_false in E]
  | (if false then _ else _) = true => cbn [andb] in K; cbv beta iota in K
  end.
Lemma ff_eval W Re eD m r : 2040 <= Re -> gives_pos r -> friction_factor W Re eD (Some m) true = bind r (fun f => Ok f) ->
  exists f, friction_factor W Re eD (Some m) true = Ok f /\ 0 < f.
Proof. intros H [f [E P]] K. rewrite K, E. exists f; auto. Qed.
(** every method offered for (Re, eD) evaluates to a positive friction factor, except three correlations
    refuted below; Rao and Kumar's needs a rough pipe *)
Theorem C38_listed_methods_positive : forall W Re eD m, lambert_spec W ->
  2040 <= Re -> 0 <= eD <= 0.05 -> eD * Re <= 10 ^ 13 ->
  In m (friction_factor_methods Re eD true) ->
  ~ In m ["Papaevangelo_2010"; "Serghides_1"; "Serghides_2"] -> (m = "Rao_Kumar_2007" -> 0 < eD) ->
  exists f, friction_factor W Re eD (Some m) true = Ok f /\ 0 < f.
Proof.
  intros W Re eD m HW HRe He HE Hm Hx Hr.
  unfold friction_factor_methods in Hm. assert (L : Rltb Re 2040 = false) by (apply Rltb_false; lra).
  rewrite L in Hm. apply in_map_iff in Hm. destruct Hm as [[m' lim] [Em Hm]]. cbn [fst] in Em. subst m'.
  apply filter_In in Hm. destruct Hm as [Hm K]. cbn [snd] in K.
  assert (FE : forall r, friction_factor W Re eD (Some m) true = bind r (fun f => Ok f) -> gives_pos r ->
     exists f, friction_factor W Re eD (Some m) true = Ok f /\ 0 < f).
  { intros r E G. eapply ff_eval; eauto. }
  unfold friction_factor in FE at 1. rewrite L in FE. cbn [orb] in FE.
  unfold fmethods in Hm. cbn [In] in Hm.
  repeat (destruct Hm as [Hm|Hm]; [injection Hm as <- <-; cbn [String.eqb Ascii.eqb Bool.eqb] in FE; lim K|]); try contradiction.
  - eapply FE; [reflexivity|]. apply Moody_pos; auto.
  - eapply FE; [reflexivity|]. apply Alshul_pos; auto.
  - eapply FE; [reflexivity|]. apply Wood_pos; auto. lits; lra.
  - eapply FE; [reflexivity|]. apply Churchill_1973_pos; auto.
  - eapply FE; [reflexivity|]. apply Eck_pos; auto.
  - eapply FE; [reflexivity|]. apply Jain_pos; auto.
  - eapply FE; [reflexivity|]. apply Swamee_pos; auto.
  - eapply FE; [reflexivity|]. apply Churchill_1977_pos; auto.
  - eapply FE; [reflexivity|]. apply Chen_pos; auto.
  - eapply FE; [reflexivity|]. apply Round_pos; auto.
  - eapply FE; [reflexivity|]. apply Shacham_pos; auto.
  - eapply FE; [reflexivity|]. apply Barr_pos; auto.
  - eapply FE; [reflexivity|]. apply ZS1_pos; auto.
  - eapply FE; [reflexivity|]. apply ZS2_pos; auto.
  - eapply FE; [reflexivity|]. apply Haaland_pos; auto.
  - exfalso. apply Hx. cbn; tauto.
  - exfalso. apply Hx. cbn; tauto.
  - eapply FE; [reflexivity|]. apply Tsal_pos; auto.
  - eapply FE; [reflexivity|]. apply Manadilli_pos; auto.
  - eapply FE; [reflexivity|]. apply Romeo_pos; auto.
  - eapply FE; [reflexivity|]. apply Sonnad_pos; auto.
  - eapply FE; [reflexivity|]. apply Rao_Kumar_pos; auto.
  - eapply FE; [reflexivity|]. apply Buzzelli_pos; auto.
  - eapply FE; [reflexivity|]. apply Avci_pos; auto.
  - exfalso. apply Hx. cbn; tauto.
  - eapply FE; [reflexivity|]. apply Brkic_1_pos; auto.
  - eapply FE; [reflexivity|]. apply Brkic_2_pos; auto.
  - eapply FE; [reflexivity|]. apply Fang_pos; auto.
  - eapply FE; [reflexivity|]. apply Clamond_pos; auto.
  - destruct (Colebrook_eq W Re eD HW HRe He HE) as [fc [EC [PC _]]]. eapply FE; [reflexivity|]. exists fc; auto.
Qed.
(** the listed set is never empty: the default method is always in it *)
Theorem C38_default_listed : forall Re eD, 2040 <= Re -> 0 <= eD -> In "Clamond" (friction_factor_methods Re eD true).
Proof.
  intros Re eD H He. unfold friction_factor_methods. rewrite (proj2 (Rltb_false Re 2040)) by lra. apply in_map_iff.
  exists ("Clamond", (Some 0, None, Some 0, None)). split; [reflexivity|]. apply filter_In. split; [cbn; tauto|].
  unfold in_limits, snd. rewrite (proj2 (Rltb_false Re 0)), (proj2 (Rltb_false eD 0)) by lra. reflexivity.
Qed.
Lemma listed Re eD m lim : 2040 <= Re -> In (m, lim) fmethods -> in_limits Re eD lim = true -> In m (friction_factor_methods Re eD true).
Proof.
  intros H Hm L. unfold friction_factor_methods. rewrite (proj2 (Rltb_false Re 2040)) by lra. apply in_map_iff.
  exists (m, lim). split; auto. apply filter_In; auto.
Qed.
(** Rao_Kumar_2007 is offered for smooth pipe, where it divides by zero *)
Theorem C38_Rao_Kumar_smooth_refuted : forall W Re Darcy, 2040 <= Re ->
  In "Rao_Kumar_2007" (friction_factor_methods Re 0 true) /\
  friction_factor W Re 0 (Some "Rao_Kumar_2007") Darcy = Err ZeroDivisionError.
Proof.
  intros W Re Darcy H. split.
  - eapply (listed Re 0 _ (None, None, None, None)); [auto|cbn; tauto|reflexivity].
  - unfold friction_factor. rewrite (proj2 (Rltb_false Re 2040)) by lra. cbn [orb String.eqb Ascii.eqb Bool.eqb].
    unfold Rao_Kumar_2007. assert (0 < Re * (1 / 6.5)) by (apply Rmult_lt_0_compat; lits; lra). mstep posr. mstep posr.
    replace (2 * 0 * _ * _) with 0 by ring. rewrite pdiv_0. reflexivity.
Qed.
(** Papaevangelo_2010 is offered for 1e4 <= Re <= 1e7 but the formula is negative at the upper end (natural instead of decimal logarithm) *)
Theorem C38_Papaevangelo_negative_refuted : forall W,
  In "Papaevangelo_2010" (friction_factor_methods (10 ^ 7) 0.0001 true) /\
  exists f, friction_factor W (10 ^ 7) 0.0001 (Some "Papaevangelo_2010") true = Ok f /\ f < 0.
Proof.
  intros W. split.
  - eapply (listed _ _ _ (Some 10000, Some 10000000, Some 0.00001, Some 0.001)); [lra|cbn; tauto|].
    unfold in_limits. rewrite !(proj2 (Rltb_false _ _)) by (lits; lra). reflexivity.
  - unfold friction_factor. rewrite (proj2 (Rltb_false _ 2040)) by lra. cbn [orb String.eqb Ascii.eqb Bool.eqb].
    unfold Papaevangelo_2010. mstep posr. mstep posr. pose proof (Rpower_pos (10 ^ 7) (- 0.9142)). mstep posr.
    set (l := log10 _). assert (L : l < -1).
    { unfold l, log10. itv 0%nat. }
    assert (L2 : 0 < l * l) by nra. clearbody l. rewrite pdiv_ok by lra. eexists; split; [reflexivity|].
    assert (N : 0.2479 - 0.0000947 * (7 - ln (10 ^ 7)) * (7 - ln (10 ^ 7)) * (7 - ln (10 ^ 7)) * (7 - ln (10 ^ 7)) < 0) by itv 0%nat.
    unfold Rdiv. rewrite <- (Rmult_0_l (/ (l * l))). apply Rmult_lt_compat_r; auto. apply Rinv_0_lt_compat; auto.
Qed.
(** ... in its range the sign is decided by the Reynolds number alone: positive up to 1.4e6, negative from 1.41e6 on *)
Theorem C38_Papaevangelo_sign : forall W Re eD, 10000 <= Re -> 0.00001 <= eD <= 0.001 ->
  exists f, friction_factor W Re eD (Some "Papaevangelo_2010") true = Ok f /\
  (0 < f <-> (ln Re - 7) ^ 4 < 0.2479 / 0.0000947) /\ (Re <= 1400000 -> 0 < f) /\ (1410000 <= Re -> f < 0).
Proof.
  intros W Re eD HR He. unfold friction_factor. rewrite (proj2 (Rltb_false _ 2040)) by lra. cbn [orb String.eqb Ascii.eqb Bool.eqb].
  unfold Papaevangelo_2010. mstep posr. mstep posr. pose proof (Rpower_pos Re (- 0.9142)) as P.
  assert (U : Rpower Re (- 0.9142) <= Rpower 10000 (- 0.9142)) by (apply Rpower_anti_l; lits; lra).
  assert (U2 : Rpower 10000 (- 0.9142) < 0.01) by itv 0%nat. mstep posr.
  set (l := log10 _). assert (L : l < 0) by (unfold l; apply log10_neg; lits; lra). clearbody l.
  assert (L2 : 0 < l * l) by nra. rewrite pdiv_ok by lra. cbn [bind]. eexists; split; [reflexivity|].
  assert (B : 9 < ln Re) by (apply Rlt_le_trans with (ln 10000); [itv 0%nat|apply ln_le_compat; lra]).
  set (z := ln Re - 7). assert (Hz : 2 < z) by (unfold z; lra).
  replace (0.0000947 * (7 - ln Re) * (7 - ln Re) * (7 - ln Re) * (7 - ln Re)) with (0.0000947 * z ^ 4) by (unfold z; ring).
  assert (S : forall n, 0 < n / (l * l) <-> 0 < n).
  { intros n. split; intros H; [|apply Rdiv_lt_0_compat; auto]. replace n with (n / (l * l) * (l * l)) by (field; lra). apply Rmult_lt_0_compat; auto. }
  assert (M : forall a b, 0 <= a <= b -> a ^ 4 <= b ^ 4) by (intros a b H; apply pow_incr; exact H).
  splits.
  - rewrite S. lits. split; intros H.
    + apply Rmult_lt_reg_l with (947 / 10000000); [lra|]. field_simplify; lra.
    + apply (Rmult_lt_compat_l (947 / 10000000)) in H; [|lra]. field_simplify in H; lra.
  - intros H. apply S. assert (ln Re <= ln 1400000) by (apply ln_le_compat; lra). assert (ln 1400000 < 14.1521) by itv 0%nat.
    assert (z ^ 4 <= 7.1521 ^ 4) by (apply M; unfold z in *; lits; lra). lits. lra.
  - intros H. assert (ln 1410000 <= ln Re) by (apply ln_le_compat; lra). assert (14.159 < ln 1410000) by itv 0%nat.
    assert (7.159 ^ 4 <= z ^ 4) by (apply M; unfold z in *; lits; lra).
    assert (N : 0.2479 - 0.0000947 * z ^ 4 < 0) by (lits; lra).
    unfold Rdiv. rewrite <- (Rmult_0_l (/ (l * l))). apply Rmult_lt_compat_r; auto. apply Rinv_0_lt_compat; auto.
Qed.
(** Serghides_1 divides by zero where its starting value already is the fixed point *)
Theorem C38_Serghides_1_refuted : forall W, exists eD, 0 <= eD <= 0.05 /\
  In "Serghides_1" (friction_factor_methods 10000 eD true) /\
  friction_factor W 10000 eD (Some "Serghides_1") true = Err ZeroDivisionError.
Proof.
  intros W. set (p := Rpower 10 (- (6 / 2.51))). exists (3.7 * (p - 12 / 10000)).
  assert (Hp : 0.004 < p < 0.0042) by (unfold p; split; itv 0%nat).
  splits.
  - lits; lra.
  - lits; lra.
  - eapply (listed _ _ _ (None, None, None, None)); [lra|cbn; tauto|reflexivity].
  - unfold friction_factor. rewrite (proj2 (Rltb_false _ 2040)) by lra. cbn [orb String.eqb Ascii.eqb Bool.eqb].
    unfold Serghides_1. mstep posr.
    replace (3.7 * (p - 12 / 10000) * (1 / 3.7)) with (p - 12 / 10000) by (field; lits; lra).
    replace (p - 12 / 10000 + 12 / 10000) with p by ring.
    assert (Lp : log10 p = - (6 / 2.51)). { unfold log10, p, Rpower. rewrite ln_exp. pose proof ln10_pos. field. split; lits; lra. }
    mstep ltac:(lra). rewrite Lp. mstep posr.
    replace (2.51 * (-2 * - (6 / 2.51)) / 10000) with (12 / 10000) by (field; lits; lra).
    replace (p - 12 / 10000 + 12 / 10000) with p by ring. mstep ltac:(lra). rewrite Lp. mstep posr.
    replace (2.51 * (-2 * - (6 / 2.51)) / 10000) with (12 / 10000) by (field; lits; lra).
    replace (p - 12 / 10000 + 12 / 10000) with p by ring. mstep ltac:(lra). rewrite Lp.
    match goal with |- context [pdiv _ ?d] => replace d with 0 by (field; lits; lra) end. rewrite pdiv_0. reflexivity.
Qed.
Example C38_ex : forall W, lambert_spec W ->
  friction_factor W 1000 0.02 (Some "Moody") false = Ok (64 / 1000 / 4) /\
  (exists f, friction_factor W 100000 0.0001 (Some "Haaland") true = Ok f /\ 0 < f) /\
  friction_factor W 100000 0.0001 (Some "Nobody") true = Err ValueError.
Proof.
  intros W HW. splits.
  - apply C38_laminar; lra.
  - apply C38_listed_methods_positive; auto; try (lits; lra).
    + eapply (listed _ _ _ (Some 4000, Some 100000000, Some 0.000001, Some 0.05)); [lra|cbn; tauto|].
      unfold in_limits. rewrite !(proj2 (Rltb_false _ _)) by (lits; lra). reflexivity.
    + cbn; intuition discriminate.
  - apply C38_unknown_method; [lra|]. cbn; intuition discriminate.
Qed.

(** ** C73 *)
(** a Lambert function exists, so that the hypothesis on W is satisfiable *)
Theorem C73_lambert_exists : exists W, lambert_spec W.
Proof.
  assert (H : forall x, 0 < x -> exists w, 0 < w /\ w * exp w = x).
  { intros x Hx. destruct (IVT (fun t => t * exp t - x) 0 x) as [w [Hw Ew]].
    - intros t. apply continuity_pt_filterlim. apply (ex_derive_continuous (fun t => t * exp t - x)). auto_derive. auto.
    - auto.
    - rewrite Rmult_0_l. lra.
    - assert (1 < exp x) by (rewrite <- exp_0; apply exp_increasing; auto). nra.
    - exists w. split; [|lra]. destruct (proj1 Hw) as [|Z]; auto. rewrite <- Z, Rmult_0_l in Ew. lra. }
  exists (fun x => Lub_Rbar (fun t => t * exp t <= x /\ 0 < t)). intros x Hx. destruct (H x Hx) as [w [Pw Ew]].
  replace (real (Lub_Rbar (fun t => t * exp t <= x /\ 0 < t))) with w; auto.
  assert (M : forall a b, 0 < a -> a < b -> a * exp a < b * exp b).
  { intros a b Ha Hab. assert (exp a < exp b) by (apply exp_increasing; auto). pose proof (exp_pos a). pose proof (exp_pos b). nra. }
  rewrite (is_lub_Rbar_unique _ (Finite w)); auto. split.
  - intros t [Ht Pt]. simpl. destruct (Rle_or_lt t w) as [|r]; auto. pose proof (M w t Pw r). lra.
  - intros b Hb. apply Hb. split; lra.
Qed.
(** exactly one friction factor solves the Colebrook-White equation *)
Theorem C73_unique_solution : forall Re eD, 2040 <= Re -> 0 <= eD <= 0.05 ->
  exists f, colebrook_eq Re eD f /\ forall g, colebrook_eq Re eD g -> g = f.
Proof.
  intros Re eD HR He. destruct (colebrook_exists Re eD HR He) as [f Hf]. exists f. split; auto.
  intros g Hg. eapply colebrook_unique; eauto; lra.
Qed.
(** the closed form returned by Colebrook is that solution, up to the rounding of its decimal constants *)
Theorem C73_closed_form : forall W Re eD f, lambert_spec W -> 2040 <= Re -> 0 <= eD <= 0.05 -> eD * Re <= 10 ^ 13 ->
  colebrook_eq Re eD f ->
  exists f', friction_factor W Re eD (Some "Colebrook") true = Ok f' /\ 0 < f' /\
    Rabs (1 / sqrt f' - 1 / sqrt f) <= 2 / 10 ^ 13 * (ln Re + eD * Re).
Proof.
  intros W Re eD f HW HR He HE Hf. destruct (Colebrook_eq W Re eD HW HR He HE) as [f' [E [P S]]].
  exists f'. splits; auto.
  - unfold friction_factor. rewrite (proj2 (Rltb_false _ 2040)) by lra. cbn [orb String.eqb Ascii.eqb Bool.eqb]. rewrite E. reflexivity.
  - rewrite S. assert (Pf := proj1 Hf). assert (0 < sqrt f) by (apply sqrt_lt_R0; auto).
    eapply Rle_trans; [apply (residual_stable Re eD); try lra|].
    + apply ks_pos; auto.
    + posr.
    + apply colebrook_eq_residual in Hf; [|lra|auto]. rewrite Hf, Rminus_0_r. apply ks_residual; auto.
Qed.
Example C73_ex : exists W f f', lambert_spec W /\ colebrook_eq 100000 0.001 f /\
  friction_factor W 100000 0.001 (Some "Colebrook") true = Ok f' /\ Rabs (1 / sqrt f' - 1 / sqrt f) <= 1 / 10 ^ 10.
Proof.
  destruct C73_lambert_exists as [W HW]. destruct (C73_unique_solution 100000 0.001 ltac:(lra) ltac:(lits; lra)) as [f [Hf _]].
  destruct (C73_closed_form W 100000 0.001 f HW ltac:(lra) ltac:(lits; lra) ltac:(lits; lra) Hf) as [f' [E [_ B]]].
  exists W, f, f'. splits; auto. eapply Rle_trans; [exact B|]. left. itv 0%nat.
Qed.

Print Assumptions C38_laminar.
Print Assumptions C38_zero_Re.
Print Assumptions C38_methods_unchecked.
Print Assumptions C38_unknown_method.
Print Assumptions C38_default_is_Clamond.
Print Assumptions C38_Darcy.
Print Assumptions C38_listed_methods_positive.
Print Assumptions C38_default_listed.
Print Assumptions C38_Rao_Kumar_smooth_refuted.
Print Assumptions C38_Papaevangelo_negative_refuted.
Print Assumptions C38_Papaevangelo_sign.
Print Assumptions C38_Serghides_1_refuted.
Print Assumptions C73_lambert_exists.
Print Assumptions C73_unique_solution.
Print Assumptions C73_closed_form.
