(** Final theorems: friction in curved tubes (C39). *)
From Coq Require Import Reals Lra Lia QArith Qreals List String Bool.
From Coquelicot Require Import Coquelicot.
From Verif Require Import Base Model_Real Interval Proofs_Real Model_Friction Proofs_Friction Proofs_Friction2 Properties_Friction.
Import ListNotations.
Open Scope R_scope.
Open Scope string_scope.
Open Scope R_scope.

(** documented choices of the critical Reynolds number *)
Definition documented_Rec : list string :=
  ["Seth Stahel"; "Ito"; "Kubair Kuloor"; "Kutateladze Borishanskii"; "Schmidt"; "Srinivasan"].
Definition documented_curved : list string :=
  ["White"; "Mori Nakayama laminar"; "Schmidt laminar"; "Schmidt turbulent"; "Mori Nakayama turbulent"; "Prasad"; "Czop"; "Guo"; "Ju"; "Mandal Nigam"; "Srinivasan turbulent"].

Lemma ff_pos W Re eD : 0 < Re -> 0 <= eD <= 0.05 -> exists fd, friction_factor W Re eD (Some "Clamond") true = Ok fd /\ 0 < fd.
Proof.
  intros HR He. destruct (Rlt_or_le Re 2040) as [L|L].
  - exists (64 / Re). split; [apply C38_laminar; lra|posr].
  - apply (ff_eval W Re eD "Clamond" (Clamond Re eD false) L (Clamond_pos Re eD false L He)).
    unfold friction_factor. rewrite (proj2 (Rltb_false _ _)) by lra. reflexivity.
Qed.
Lemma Re_crit_ok Di Dc M : 0 < Di -> 0 < Dc -> In M documented_Rec -> exists r, helical_Re_crit Di Dc M = Ok r /\ 0 < r.
Proof.
  intros H1 H2 Hm. assert (P : 0 < Di / Dc) by posr. pose proof (sqrt_pos (Di / Dc)) as S.
  assert (PW : forall a, 0 < Rpower (Di / Dc) a) by (intros; apply Rpower_pos).
  unfold documented_Rec in Hm. cbn [In] in Hm.
  repeat (destruct Hm as [Hm|Hm]; [subst M|]); try contradiction;
    unfold helical_Re_crit; cbn [String.eqb Ascii.eqb Bool.eqb];
    unfold helical_transition_Re_Seth_Stahel, helical_transition_Re_Ito, helical_transition_Re_Kubair_Kuloor,
      helical_transition_Re_Kutateladze_Borishanskii, helical_transition_Re_Schmidt, helical_transition_Re_Srinivasan.
  all: do 2 mstep posr; eexists; split; [reflexivity|].
  all: try (pose proof (PW 0.32)); try (pose proof (PW 0.2)); try (pose proof (PW 0.3)); try (pose proof (PW 0.45)); lits; lra.
Qed.
Lemma Dean_ok Re Di Dc : 0 < Re -> 0 < Di -> 0 < Dc -> exists De, Dean Re Di Dc = Ok De /\ 0 < De /\ De = sqrt (Di / Dc) * Re.
Proof.
  intros. unfold Dean. assert (0 < Di / Dc) by posr. do 2 mstep posr. eexists; split; [reflexivity|]. split; auto.
  apply Rmult_lt_0_compat; auto. apply sqrt_lt_R0; auto.
Qed.
Lemma le_frac a b c : 0 < c -> a * c <= b -> a <= b / c.
Proof. intros Hc H. apply Rmult_le_reg_r with c; auto. replace (b / c * c) with b by (field; lra). auto. Qed.
Lemma pw_one a : pw 1 a = 1.
Proof. unfold pw. rewrite (proj2 (Rltb_true _ _)) by lra. unfold Rpower. rewrite ln_1, Rmult_0_r, exp_0. auto. Qed.
(** White: the denominator is a fraction of one, so that the result never drops below the straight tube *)
Lemma White_ge Re Di Dc : 0 < Re -> 0 < Di -> 0 < Dc -> exists f, helical_laminar_fd_White Re Di Dc = Ok f /\ 64 / Re <= f.
Proof.
  intros HR Hi Hc. destruct (Dean_ok Re Di Dc HR Hi Hc) as [De [E [P _]]]. unfold helical_laminar_fd_White. rewrite E. cbn [bind].
  unfold friction_laminar. rewrite pdiv_ok by lra. cbn [bind].
  destruct (Rltb De 11.6) eqn:L; [eexists; split; [reflexivity|lra]|]. apply Rltb_false in L.
  assert (Q : 0 < 11.6 / De <= 1) by (split; [posr|apply frac_le; lits; lra]). rewrite pdiv_ok by lra. cbn [bind].
  rewrite ppow_pw by (lits; lra). cbn [bind].
  assert (U : 0 < pw (11.6 / De) 0.45 <= 1).
  { split. apply pw_pos; lra. assert (K : pw (11.6 / De) 0.45 <= pw 1 0.45) by (apply pw_le; lits; lra). rewrite pw_one in K. auto. }
  set (u := pw _ _) in *. clearbody u. rewrite ppow_pw by (try (lits; lra); posr). cbn [bind].
  assert (V : 0 <= pw (1 - u) (1 / 0.45) < 1).
  { split. apply pw_nonneg. assert (K : pw (1 - u) (1 / 0.45) < pw 1 (1 / 0.45)) by (apply pw_lt; lits; lra). rewrite pw_one in K. auto. }
  set (v := pw _ _) in *. clearbody v. rewrite pdiv_ok by lra. eexists; split; [reflexivity|].
  assert (0 < 64 / Re) by posr. apply le_frac; nra.
Qed.
Lemma Mori_ge Re Di Dc : 0 < Re -> 0 < Di -> 0 < Dc -> exists f, helical_laminar_fd_Mori_Nakayama Re Di Dc = Ok f /\ 1.405296 * (64 / Re) <= f.
Proof.
  intros HR Hi Hc. destruct (Dean_ok Re Di Dc HR Hi Hc) as [De [E [P _]]]. unfold helical_laminar_fd_Mori_Nakayama. rewrite E. cbn [bind].
  unfold friction_laminar. rewrite pdiv_ok by lra. cbn [bind]. assert (Q : 0 < 64 / Re) by posr. set (q := 64 / Re) in *.
  destruct (Rltb De 42.328036) eqn:L; [eexists; split; [reflexivity|lits; lra]|]. apply Rltb_false in L.
  assert (S : 6.506 <= sqrt De). { rewrite <- (sqrt_square 6.506) by (lits; lra). apply sqrt_le_1_alt. lits; lra. }
  do 2 mstep posr. set (s := sqrt De) in *. clearbody s.
  assert (T : 0 < 3.253 / s <= 0.5) by (split; [posr|apply frac_le; lits; lra]).
  rewrite pdiv_ok by (lits; lra). eexists; split; [reflexivity|].
  apply le_frac; [lits; lra|].
  assert (1.405296 * (1 - 3.253 / s) <= 0.108 * s); [|nra].
  apply Rmult_le_reg_r with s; [lits; lra|]. replace (1.405296 * (1 - 3.253 / s) * s) with (1.405296 * (s - 3.253)) by (field; lits; lra).
  lits; nra.
Qed.
Lemma Schmidt_ge Re Di Dc : 0 < Re -> 0 < Di -> 0 < Dc -> exists f, helical_laminar_fd_Schmidt Re Di Dc = Ok f /\ 64 / Re < f.
Proof.
  intros HR Hi Hc. assert (P : 0 < Di / Dc) by posr. assert (Q : 0 < 64 / Re) by posr. unfold helical_laminar_fd_Schmidt, friction_laminar.
  mstep posr. do 4 mstep posr. eexists; split; [reflexivity|].
  set (x := Rpower (Di / Dc) 0.97). set (y := Rpower Re _). assert (0 < x) by apply Rpower_pos. assert (0 < y) by apply Rpower_pos.
  assert (0 < 0.14 * x * y) by posr. nra.
Qed.
Lemma turb_pos W Re Di Dc rough : 0 < Re -> 0 < Di -> 0 < Dc -> 0 <= rough / Di <= 0.05 ->
  gives_pos (helical_turbulent_fd_Schmidt W Re Di Dc rough) /\ gives_pos (helical_turbulent_fd_Prasad W Re Di Dc rough) /\
  gives_pos (helical_turbulent_fd_Ju W Re Di Dc rough) /\ gives_pos (helical_turbulent_fd_Mandal_Nigam W Re Di Dc rough) /\
  gives_pos (helical_turbulent_fd_Mori_Nakayama Re Di Dc) /\ gives_pos (helical_turbulent_fd_Czop Re Di Dc) /\
  gives_pos (helical_turbulent_fd_Guo Re Di Dc) /\ gives_pos (helical_turbulent_fd_Srinivasan Re Di Dc).
Proof.
  intros HR Hi Hc He. destruct (Dean_ok Re Di Dc HR Hi Hc) as [De [ED [PD _]]].
  destruct (ff_pos W Re (rough / Di) HR He) as [fd [EF PF]].
  assert (P : 0 < Di / Dc) by posr. assert (P' : 0 < Dc / Di) by posr. assert (Pd : 0 < Re * (Di / Dc) * (Di / Dc)) by posr.
  assert (RP : forall x a, 0 < Rpower x a) by (intros; apply Rpower_pos).
  assert (SQ : forall x, 0 <= sqrt x) by (intros; apply sqrt_pos).
  splits.
  - unfold helical_turbulent_fd_Schmidt. rewrite pdiv_ok by lra. cbn [bind]. rewrite EF. cbn [bind].
    destruct (Rltb Re 22000).
    + do 3 mstep posr. eexists; split; [reflexivity|]. specialize (RP (Di / Dc) 0.62). assert (0 < 28800 / Re) by posr. apply Rmult_lt_0_compat; auto. set (a := Rpower _ _) in *. clearbody a. nra.
    + do 4 mstep posr. eexists; split; [reflexivity|]. specialize (RP (Di / Dc) 0.53). specialize (SQ (sqrt Re)). apply Rmult_lt_0_compat; auto.
      set (a := Rpower _ _) in *. set (b := sqrt _) in *. assert (0 <= 0.0823 * (1 + Di / Dc) * a * b); [|lra]. apply Rmult_le_pos; auto. posr.
  - unfold helical_turbulent_fd_Prasad. rewrite pdiv_ok by lra. cbn [bind]. rewrite EF. cbn [bind].
    do 3 mstep posr. eexists; split; [reflexivity|]. specialize (SQ (sqrt (Re * (Di / Dc) * (Di / Dc)))). apply Rmult_lt_0_compat; auto. lits; lra.
  - unfold helical_turbulent_fd_Ju. rewrite pdiv_ok by lra. cbn [bind]. rewrite EF. cbn [bind].
    do 3 mstep posr. eexists; split; [reflexivity|]. apply Rmult_lt_0_compat; auto. assert (0 < 0.11 * Rpower Re 0.23 * Rpower (Di / Dc) 0.14); [|lra].
    apply Rmult_lt_0_compat; auto. apply Rmult_lt_0_compat; auto. lits; lra.
  - unfold helical_turbulent_fd_Mandal_Nigam. rewrite ED. cbn [bind]. rewrite pdiv_ok by lra. cbn [bind]. rewrite EF. cbn [bind].
    mstep posr. eexists; split; [reflexivity|]. apply Rmult_lt_0_compat; auto. specialize (RP De 0.27). lits; lra.
  - unfold helical_turbulent_fd_Mori_Nakayama. mstep posr. mstep posr. mstep posr. mstep posr.
    assert (0 < sqrt (Dc / Di)) by (apply sqrt_lt_R0; auto). rewrite pdiv_ok by lra. cbn [bind]. eexists; split; [reflexivity|].
    specialize (RP (Re * (Di / Dc) * (Di / Dc)) (- 0.2)). apply Rmult_lt_0_compat; [apply Rmult_lt_0_compat; auto; posr|lits; lra].
  - unfold helical_turbulent_fd_Czop. rewrite ED. cbn [bind]. mstep posr. eexists; split; [reflexivity|]. specialize (RP De (- 0.1517)). lits; lra.
  - unfold helical_turbulent_fd_Guo. do 3 mstep posr. eexists; split; [reflexivity|]. apply Rmult_lt_0_compat; auto. apply Rmult_lt_0_compat; auto. lits; lra.
  - unfold helical_turbulent_fd_Srinivasan. rewrite ED. cbn [bind]. mstep posr. eexists; split; [reflexivity|]. specialize (RP De (- 0.2)). lits; lra.
Qed.

(** ** C39 *)
(** every documented method is accepted and positive, for every documented critical Reynolds number method *)
Theorem C39_documented_positive : forall W Re Di Dc rough m rm lm tm, 0 < Re -> 0 < Di -> 0 < Dc -> 0 <= rough / Di <= 0.05 ->
  In m documented_curved -> In rm documented_Rec ->
  exists f, friction_factor_curved W Re Di Dc rough (Some m) rm lm tm true = Ok f /\ 0 < f.
Proof.
  intros W Re Di Dc rough m rm lm tm HR Hi Hc He Hm Hr.
  destruct (Re_crit_ok Di Dc rm Hi Hc Hr) as [rc [ER _]].
  destruct (turb_pos W Re Di Dc rough HR Hi Hc He) as [T1 [T2 [T3 [T4 [T5 [T6 [T7 T8]]]]]]].
  assert (Q : 0 < 64 / Re) by posr.
  assert (L1 : gives_pos (helical_laminar_fd_White Re Di Dc)) by (destruct (White_ge Re Di Dc HR Hi Hc) as [f [E K]]; exists f; split; auto; lra).
  assert (L2 : gives_pos (helical_laminar_fd_Mori_Nakayama Re Di Dc)) by (destruct (Mori_ge Re Di Dc HR Hi Hc) as [f [E K]]; exists f; split; auto; lits; lra).
  assert (L3 : gives_pos (helical_laminar_fd_Schmidt Re Di Dc)) by (destruct (Schmidt_ge Re Di Dc HR Hi Hc) as [f [E K]]; exists f; split; auto; lra).
  unfold friction_factor_curved. rewrite ER. cbn [bind].
  unfold documented_curved in Hm. cbn [In] in Hm.
  repeat (destruct Hm as [Hm|Hm]; [subst m|]); try contradiction; cbn [String.eqb Ascii.eqb Bool.eqb];
   match goal with H : gives_pos ?x |- context [?x] => destruct H as [f [E P]]; rewrite E; exists f; auto end.
Qed.
Theorem C39_unknown_method : forall W Re Di Dc rough m rm lm tm D, 0 < Di -> 0 < Dc -> In rm documented_Rec ->
  ~ In m documented_curved -> friction_factor_curved W Re Di Dc rough (Some m) rm lm tm D = Err ValueError.
Proof.
  intros W Re Di Dc rough m rm lm tm D Hi Hc Hr N. destruct (Re_crit_ok Di Dc rm Hi Hc Hr) as [rc [ER _]].
  unfold friction_factor_curved. rewrite ER. cbn [bind].
  assert (K : forall s, In s documented_curved -> String.eqb m s = false).
  { intros s Hs. apply String.eqb_neq. intros ->. contradiction. }
  repeat (rewrite K by (cbn; tauto)). reflexivity.
Qed.
Theorem C39_unknown_Rec_method : forall W Re Di Dc rough m rm lm tm D,
  ~ In rm documented_Rec -> friction_factor_curved W Re Di Dc rough m rm lm tm D = Err ValueError.
Proof.
  intros W Re Di Dc rough m rm lm tm D N. unfold friction_factor_curved, helical_Re_crit.
  assert (K : forall s, In s documented_Rec -> String.eqb rm s = false).
  { intros s Hs. apply String.eqb_neq. intros ->. contradiction. }
  repeat (rewrite K by (cbn; tauto)). reflexivity.
Qed.
(** without a method the regime decides: turbulent from the critical Reynolds number on *)
Theorem C39_default_by_regime : forall W Re Di Dc rough rm lm tm D rc, helical_Re_crit Di Dc rm = Ok rc ->
  friction_factor_curved W Re Di Dc rough None rm lm tm D =
  friction_factor_curved W Re Di Dc rough (Some (if Rle_dec rc Re then tm else lm)) rm lm tm D.
Proof.
  intros W Re Di Dc rough rm lm tm D rc E. unfold friction_factor_curved. rewrite E. cbn [bind].
  destruct (Rle_dec rc Re) as [L|L].
  - rewrite (proj2 (Rltb_false _ _)) by lra. reflexivity.
  - rewrite (proj2 (Rltb_true _ _)) by lra. reflexivity.
Qed.
Theorem C39_Darcy : forall W Re Di Dc rough m rm lm tm, friction_factor_curved W Re Di Dc rough m rm lm tm false =
  match friction_factor_curved W Re Di Dc rough m rm lm tm true with Ok f => Ok (f / 4) | Err e => Err e end.
Proof.
  intros. unfold friction_factor_curved. destruct (helical_Re_crit Di Dc rm); cbn [bind]; auto.
  match goal with |- bind ?x _ = _ => destruct x as [m2|e] end; cbn [bind]; auto.
  match goal with |- bind ?x _ = _ => destruct x as [f|e] end; cbn [bind]; auto. f_equal. lits. field.
Qed.
(** the laminar correlations never fall below the straight tube; Mori and Nakayama's exceeds it by 40 % *)
Theorem C39_laminar_above_straight : forall W Re Di Dc rough m rm lm tm, 0 < Re -> 0 < Di -> 0 < Dc ->
  In m ["White"; "Mori Nakayama laminar"; "Schmidt laminar"] -> In rm documented_Rec ->
  exists f, friction_factor_curved W Re Di Dc rough (Some m) rm lm tm true = Ok f /\ 64 / Re <= f.
Proof.
  intros W Re Di Dc rough m rm lm tm HR Hi Hc Hm Hr. destruct (Re_crit_ok Di Dc rm Hi Hc Hr) as [rc [ER _]].
  assert (Q : 0 < 64 / Re) by posr. unfold friction_factor_curved. rewrite ER. cbn [bind].
  cbn [In] in Hm. repeat (destruct Hm as [Hm|Hm]; [subst m|]); try contradiction; cbn [String.eqb Ascii.eqb Bool.eqb].
  - destruct (White_ge Re Di Dc HR Hi Hc) as [f [E K]]. rewrite E. exists f; auto.
  - destruct (Mori_ge Re Di Dc HR Hi Hc) as [f [E K]]. rewrite E. exists f; split; auto. lits; lra.
  - destruct (Schmidt_ge Re Di Dc HR Hi Hc) as [f [E K]]. rewrite E. exists f; split; auto. lra.
Qed.
(** the two laminar branches of White and of Mori and Nakayama meet: no jump in the Dean number *)
Theorem C39_White_below_is_straight : forall Re Di Dc, 0 < Re -> 0 < Di -> 0 < Dc -> sqrt (Di / Dc) * Re < 11.6 ->
  helical_laminar_fd_White Re Di Dc = Ok (64 / Re).
Proof.
  intros Re Di Dc HR Hi Hc L. destruct (Dean_ok Re Di Dc HR Hi Hc) as [De [E [P V]]]. unfold helical_laminar_fd_White, friction_laminar. rewrite E. cbn [bind].
  rewrite pdiv_ok by lra. cbn [bind]. rewrite (proj2 (Rltb_true _ _)) by lra. reflexivity.
Qed.
Theorem C39_no_jump : forall Re Di Dc, 0 < Re -> 0 < Di -> 0 < Dc ->
  (sqrt (Di / Dc) * Re = 11.6 -> helical_laminar_fd_White Re Di Dc = Ok (64 / Re)) /\
  (sqrt (Di / Dc) * Re = 42.328036 -> helical_laminar_fd_Mori_Nakayama Re Di Dc = Ok (64 / Re * 1.405296)).
Proof.
  intros Re Di Dc HR Hi Hc. destruct (Dean_ok Re Di Dc HR Hi Hc) as [De [E [P V]]]. split; intros K; rewrite <- V in K; subst De.
  - unfold helical_laminar_fd_White, friction_laminar. rewrite E. cbn [bind]. rewrite pdiv_ok by lra. cbn [bind].
    rewrite (proj2 (Rltb_false _ _)) by lra. rewrite pdiv_ok by lra. cbn [bind].
    replace (11.6 / (sqrt (Di / Dc) * Re)) with 1 by (rewrite K; field; lits; lra).
    rewrite ppow_pw by (lits; lra). cbn [bind]. rewrite pw_one. replace (1 - 1) with 0 by ring.
    rewrite ppow_pw by (try (lits; lra); posr). cbn [bind]. replace (pw 0 (1 / 0.45)) with 0.
    2:{ unfold pw. rewrite (proj2 (Rltb_false _ _)) by lra. auto. }
    rewrite pdiv_ok by lra. f_equal. field. lra.
  - unfold helical_laminar_fd_Mori_Nakayama, friction_laminar. rewrite E. cbn [bind]. rewrite pdiv_ok by lra. cbn [bind].
    rewrite (proj2 (Rltb_false _ _)) by lra. rewrite K.
    assert (S : sqrt 42.328036 = 6.506). { rewrite <- (sqrt_square 6.506) by (lits; lra). f_equal. lits; lra. }
    rewrite psqrt_ok by (lits; lra). cbn [bind]. rewrite S. rewrite pdiv_ok by (lits; lra). cbn [bind].
    rewrite pdiv_ok by (lits; lra). f_equal. lits. field. lra.
Qed.
(** the list of methods offered follows Schmidt's transition, whatever Rec_method is used later *)
Theorem C39_methods_listed : forall Re Di Dc, 0 < Di -> 0 < Dc ->
  exists l, friction_factor_curved_methods Re Di Dc true = Ok l /\
  forall m, In m l -> In m documented_curved.
Proof.
  intros Re Di Dc Hi Hc. unfold friction_factor_curved_methods. destruct (Re_crit_ok Di Dc "Schmidt" Hi Hc ltac:(cbn; tauto)) as [rc [E _]].
  rewrite E. cbn [bind]. destruct (negb (Rltb Re rc)); eexists; (split; [reflexivity|]); intros m; cbn; intuition.
Qed.
Theorem C39_methods_unchecked : forall Re Di Dc m, 0 < Di -> 0 < Dc ->
  exists l, friction_factor_curved_methods Re Di Dc false = Ok l /\ (In m l <-> In m documented_curved).
Proof.
  intros Re Di Dc m Hi Hc. unfold friction_factor_curved_methods. destruct (Re_crit_ok Di Dc "Schmidt" Hi Hc ltac:(cbn; tauto)) as [rc [E _]].
  rewrite E. cbn [bind]. eexists; (split; [reflexivity|]). cbn. split; intuition.
Qed.
Example C39_ex : forall W, exists f, friction_factor_curved W 250 0.02 0.1 0 None "Schmidt" "Schmidt laminar" "Schmidt turbulent" true = Ok f /\ 64 / 250 <= f.
Proof.
  intros W. assert (P : 0 < 0.02) by (lits; lra). assert (P' : 0 < 0.1) by (lits; lra).
  destruct (Re_crit_ok 0.02 0.1 "Schmidt" P P' ltac:(cbn; tauto)) as [rc [E _]]. rewrite (C39_default_by_regime _ _ _ _ _ _ _ _ _ _ E).
  destruct (Rle_dec rc 250) as [L|L].
  - exfalso. revert E. unfold helical_Re_crit. cbn [String.eqb Ascii.eqb Bool.eqb]. unfold helical_transition_Re_Schmidt.
    assert (0 < 0.02 / 0.1) by posr. do 2 mstep posr. intros E. injection E as E. pose proof (Rpower_pos (0.02 / 0.1) 0.45). lits; lra.
  - apply C39_laminar_above_straight; auto; cbn; try tauto; lra.
Qed.

Print Assumptions C39_documented_positive.
Print Assumptions C39_unknown_method.
Print Assumptions C39_unknown_Rec_method.
Print Assumptions C39_default_by_regime.
Print Assumptions C39_Darcy.
Print Assumptions C39_laminar_above_straight.
Print Assumptions C39_White_below_is_straight.
Print Assumptions C39_no_jump.
Print Assumptions C39_methods_listed.
Print Assumptions C39_methods_unchecked.
