(** C58: drag coefficients and terminal velocities; C59 (Properties_Drag2.v): trajectories.
    Claims about [drag_sphere], [drag_sphere_methods] and [v_terminal] of fluids/drag.py. *)
From Coq Require Import Reals Lra Lia List Bool String Psatz QArith Qreals.
From Coquelicot Require Import Coquelicot.
From Verif Require Import Base Model_Real Proofs_Real Interval Model_Friction Model_Drag Proofs_Drag.
Import ListNotations.
Open Scope R_scope.

Lemma Ok_inj {A} (x y : A) : Ok x = Ok y -> x = y. Proof. congruence. Qed.
Lemma pos_Stokes Re : 0 < Re -> gives_pos (Stokes Re).
Proof. intros H. unfold Stokes. mrun. eexists; split; [reflexivity|]. posr. Qed.
Lemma pos_Barati Re : 0 < Re -> gives_pos (Barati Re).
Proof. intros H. rewrite Barati_ok by exact H. eexists; split; [reflexivity|]. pose proof (barati_pos Re H). lits; lra. Qed.
Lemma pos_Barati_high Re : 0 < Re -> gives_pos (Barati_high Re).
Proof.
  intros H. rewrite Barati_high_ok by exact H. eexists; split; [reflexivity|].
  pose proof (barati_high_pos (Rmin Re 1000000)) as K. assert (0 < Rmin Re 1000000 <= 1000000) by (split; [apply Rmin_pos; lra|apply Rmin_r]). specialize (K H0). lits; lra.
Qed.
Lemma pos_Rouse Re : 0 < Re -> gives_pos (Rouse Re).
Proof. intros H. unfold Rouse. mrun. eexists; split; [reflexivity|]. posr. Qed.
Lemma pos_Engelund_Hansen Re : 0 < Re -> gives_pos (Engelund_Hansen Re).
Proof. intros H. unfold Engelund_Hansen. mrun. eexists; split; [reflexivity|]. posr. Qed.
Lemma pos_Clift_Gauvin Re : 0 < Re -> gives_pos (Clift_Gauvin Re).
Proof. intros H. unfold Clift_Gauvin. mrun. eexists; split; [reflexivity|]. posr. Qed.
Lemma quad_pos a b c i : 0 < a -> b * b < 4 * a * c -> 0 < a + b * i + c * i ^ 2.
Proof.
  intros Ha Hd. assert (E : a + b * i + c * i ^ 2 = ((2 * a + b * i) ^ 2 + (4 * a * c - b * b) * i ^ 2) / (4 * a)) by (field; lra).
  rewrite E. apply Rdiv_lt_0_compat; [|lra]. clear E. destruct (Req_dec i 0) as [->|N]. replace ((2 * a + b * 0) ^ 2 + (4 * a * c - b * b) * 0 ^ 2) with (4 * (a * a)) by ring. nra. assert (0 < i ^ 2) by nra. apply Rplus_le_lt_0_compat; [apply pow2_ge_0|apply Rmult_lt_0_compat; lra].
Qed.
Lemma pos_Morsi_Alexander Re : 0 < Re -> gives_pos (Morsi_Alexander Re).
Proof.
  intros H. unfold Morsi_Alexander. assert (P2 : 0 < Re ^ 2) by nra.
  repeat rcase; rewrite ?pdiv_ok by lra; cbn [bind]; rewrite ?pdiv_ok by lra; cbn [bind]; (eexists; split; [reflexivity|]).
  - posr.
  - posr.
  - assert (I : 0 < / Re <= 1). { split. apply Rinv_0_lt_compat; lra. rewrite <- Rinv_1. apply Rinv_le_contravar; lra. }
    replace (29.1667 / Re - 3.8889 / Re ^ 2 + 1.222) with (1.222 + / Re * (29.1667 - 3.8889 * / Re)) by (field; lra). set (i := / Re) in *. clearbody i. clear - I. lits; nra.
  - assert (I : 0 < / Re <= / 10). { split. apply Rinv_0_lt_compat; lra. apply Rinv_le_contravar; lra. }
    replace (46.5 / Re - 116.67 / Re ^ 2 + 0.6167) with (0.6167 + / Re * (46.5 - 116.67 * / Re)) by (field; lra). set (i := / Re) in *. clearbody i. clear - I. lits; nra.
  - assert (I : 0 < / Re <= / 100). { split. apply Rinv_0_lt_compat; lra. apply Rinv_le_contravar; lra. }
    replace (98.33 / Re - 2778 / Re ^ 2 + 0.3644) with (0.3644 + / Re * (98.33 - 2778 * / Re)) by (field; lra). set (i := / Re) in *. clearbody i. clear - I. lits; nra.
  - assert (I : 0 < / Re <= / 1000). { split. apply Rinv_0_lt_compat; lra. apply Rinv_le_contravar; lra. }
    replace (148.62 / Re - 47500 / Re ^ 2 + 0.357) with (0.357 + / Re * (148.62 - 47500 * / Re)) by (field; lra). set (i := / Re) in *. clearbody i. clear - I. lits; nra.
  - replace (- 490.546 / Re + 578700 / Re ^ 2 + 0.46) with (0.46 + (- 490.546) * (/ Re) + 578700 * (/ Re) ^ 2) by (field; lra). apply quad_pos; lits; lra.
  - replace (- 1662.5 / Re + 5416700 / Re ^ 2 + 0.5191) with (0.5191 + (- 1662.5) * (/ Re) + 5416700 * (/ Re) ^ 2) by (field; lra). apply quad_pos; lits; lra.
Qed.
Lemma pos_Graf Re : 0 < Re -> gives_pos (Graf Re).
Proof. intros H. unfold Graf. mrun. eexists; split; [reflexivity|]. posr. Qed.
Lemma pos_Flemmer_Banks Re : 0 < Re -> gives_pos (Flemmer_Banks Re).
Proof.
  intros H. unfold Flemmer_Banks. mrun. eexists; split; [reflexivity|]. posr.
Qed.
Lemma pos_Khan_Richardson Re : 0 < Re -> gives_pos (Khan_Richardson Re).
Proof. intros H. unfold Khan_Richardson. mrun. eexists; split; [reflexivity|]. posr. Qed.
Lemma pos_Swamee_Ojha Re : 0 < Re -> gives_pos (Swamee_Ojha Re).
Proof.
  intros H. unfold Swamee_Ojha. mrun. eexists; split; [reflexivity|]. posr.
Qed.
Lemma pos_Yen Re : 0 < Re -> gives_pos (Yen Re).
Proof.
  intros H. unfold Yen. mrun. eexists; split; [reflexivity|].
  pose proof (sqrt_lt_R0 Re H) as S. replace (24 / Re * (1 + 0.15 * sqrt Re + 0.017 * Re)) with (24 / Re * (1 + 0.15 * sqrt Re) + 0.408) by (lits; field; lra).
  assert (A : 0 < 24 / Re * (1 + 0.15 * sqrt Re)) by posr. assert (B : 0 < 10000 * 1 / sqrt Re) by posr.
  assert (C : 0.208 / (1 + 10000 * 1 / sqrt Re) < 0.208). { apply Rmult_lt_reg_r with (1 + 10000 * 1 / sqrt Re). lra. unfold Rdiv at 1. rewrite Rmult_assoc, Rinv_l by lra. set (z := 10000 * 1 / sqrt Re) in *. clearbody z. clear - B. lits; lra. }
  set (u := 24 / Re * (1 + 0.15 * sqrt Re)) in *. set (v := 0.208 / (1 + 10000 * 1 / sqrt Re)) in *. clearbody u v. clear - A C. lits; lra.
Qed.
Lemma pos_Haider_Levenspiel Re : 0 < Re -> gives_pos (Haider_Levenspiel Re).
Proof. intros H. unfold Haider_Levenspiel. mrun. eexists; split; [reflexivity|]. posr. Qed.
Lemma pos_Cheng Re : 0 < Re -> gives_pos (Cheng Re).
Proof.
  intros H. unfold Cheng. mrun. eexists; split; [reflexivity|].
  assert (A : 0 < 24 / Re * Rpower (1 + 0.27 * Re) 0.43) by posr. set (u := 24 / Re * Rpower (1 + 0.27 * Re) 0.43) in *. clearbody u.
  pose proof (Rpower_pos Re 0.38) as P. pose proof (exp_le_1 (- 0.04 * Rpower Re 0.38)) as B. set (p := Rpower Re 0.38) in *. clearbody p.
  assert (exp (- 0.04 * p) <= 1) by (apply B; clear - P; lits; lra). set (e := exp (- 0.04 * p)) in *. clearbody e. clear - A H0. lits; lra.
Qed.
Lemma pos_Terfous Re : 0 < Re -> gives_pos (Terfous Re).
Proof.
  intros H. unfold Terfous. mrun. eexists; split; [reflexivity|].
  assert (A : 0 < 21.683 / Re) by posr. assert (B : 0 < 0.131 / Re ^ 2) by posr.
  assert (E : Rpower Re 0.2 = Rpower Re 0.1 ^ 2). { simpl. rewrite Rmult_1_r, <- Rpower_plus. f_equal. lits; lra. }
  rewrite E. pose proof (Rpower_pos Re 0.1) as P. set (p := Rpower Re 0.1) in *. clearbody p.
  pose proof (quad_pos 2.689 (- 10.616) 12.216 (/ p) ltac:(lits; lra) ltac:(lits; lra)) as Q.
  replace (10.616 / p) with (10.616 * / p) by (unfold Rdiv; ring). replace (12.216 / p ^ 2) with (12.216 * (/ p) ^ 2) by (field; lra).
  set (i := / p) in *. clearbody i. set (u := 21.683 / Re) in *. set (v := 0.131 / Re ^ 2) in *. set (w := i ^ 2) in *. clearbody u v w. clear - A B Q. lits; lra.
Qed.
Lemma pos_Mikhailov_Freire Re : 0 < Re < 118300 -> gives_pos (Mikhailov_Freire Re).
Proof.
  intros H. unfold Mikhailov_Freire.
  assert (D : 0 < 77531 / 422 + 13529 / 976 * Re - 1 / 71154 * Re ^ 2) by nra.
  assert (D2 : 0 < 681 * Re * (77531 / 422 + 13529 / 976 * Re - 1 / 71154 * Re ^ 2)) by (apply Rmult_lt_0_compat; lra).
  rewrite pdiv_ok by lra. eexists; split; [reflexivity|]. apply Rdiv_lt_0_compat; [|lra]. assert (0 < Re ^ 2) by nra. nra.
Qed.
Lemma pos_Clift Re : 0 < Re -> gives_pos (Clift Re).
Proof.
  intros H. unfold Clift. repeat rcase; mrun; (eexists; split; [reflexivity|]); try posr.
  - pose proof (log10_lt Re 400000 ltac:(lra) ltac:(lra)) as L. assert (U : log10 400000 < 5.61) by (unfold log10; itv 0%nat). set (l := log10 Re) in *. clearbody l. set (m := log10 400000) in *. clearbody m. clear - L U. lits; lra.
  - pose proof (log10_le 400000 Re ltac:(lra) ltac:(lra)) as L. assert (U : 5.6 < log10 400000) by (unfold log10; itv 0%nat). set (l := log10 Re) in *. clearbody l. set (m := log10 400000) in *. clearbody m. clear - L U. lits; lra.
Qed.
Lemma pos_Almedeij Re : 0 < Re -> gives_pos (Almedeij Re).
Proof. intros H. unfold Almedeij. cbv zeta. mrun. eexists; split; [reflexivity|]. posr. Qed.
Lemma pos_Morrison Re : 0 < Re -> gives_pos (Morrison Re).
Proof. intros H. unfold Morrison. mrun. eexists; split; [reflexivity|]. posr. Qed.
Lemma pos_Song_Xu Re : 0 < Re -> gives_pos (Song_Xu Re 1 1).
Proof. intros H. unfold Song_Xu. mrun. eexists; split; [reflexivity|]. posr. Qed.
Lemma sq_exp_le y : 0 <= y -> y ^ 2 * exp (- y) <= 0.5414.
Proof.
  intros H. assert (T : y / 2 <= exp (y / 2 - 1)). { pose proof (exp_ineq1_le (y / 2 - 1)). lra. }
  assert (E : y ^ 2 * exp (- y) = 4 * exp (- 2) * ((y / 2) ^ 2 * exp (- (2 * (y / 2 - 1))))).
  { replace (- y) with (- 2 + - (2 * (y / 2 - 1))) by lra. rewrite exp_plus. field. }
  assert (K : (y / 2) ^ 2 * exp (- (2 * (y / 2 - 1))) <= 1).
  { set (z := y / 2 - 1) in *. rewrite exp_Ropp. replace (2 * z) with (z + z) by ring. rewrite exp_plus. pose proof (exp_pos z) as P. set (e := exp z) in *. clearbody e.
    apply Rmult_le_reg_r with (e * e). nra. rewrite Rmult_assoc, Rinv_l by nra. assert (0 <= y / 2) by lra. nra. }
  rewrite E. assert (B : 4 * exp (- 2) < 0.5414) by itv 0%nat. pose proof (exp_pos (- 2)). set (e := exp (- 2)) in *. clearbody e.
  set (k := (y / 2) ^ 2 * exp (- (2 * (y / 2 - 1)))) in *. clearbody k. apply Rle_trans with (4 * e * 1); [apply Rmult_le_compat_l; lra|lra].
Qed.
Lemma pos_Ceylan Re : 0.1 < Re -> gives_pos (Ceylan Re).
Proof.
  intros H. assert (P : 0 < Re) by (lits; lra). unfold Ceylan. mrun. eexists; split; [reflexivity|].
  replace (- 4 / 3) with (- 2 / 3 + - 2 / 3) by lra. rewrite Rpower_plus.
  assert (T1 : 0 < Rpower Re (- 2 / 3) < 4.65).
  { split. apply Rpower_pos. apply Rlt_trans with (Rpower 0.1 (- 2 / 3)). apply Rpower_anti_lt_l; lits; lra. itv 0%nat. }
  assert (V : 0 < / sqrt (sqrt Re) < 1.7784).
  { split. posr. apply Rlt_trans with (/ sqrt (sqrt 0.1)); [|itv 0%nat]. apply Rinv_lt_contravar. apply Rmult_lt_0_compat; posr. apply sqrt_lt_1_alt. split. apply sqrt_pos. apply sqrt_lt_1_alt. split; lits; lra. }
  assert (E3 : sqrt Re = sqrt (sqrt Re) * sqrt (sqrt Re)) by (rewrite sqrt_sqrt; [reflexivity|apply sqrt_pos]).
  assert (S : 0 < sqrt (sqrt Re)) by posr.
  replace (1.3 / sqrt Re) with (1.3 * (/ sqrt (sqrt Re) * / sqrt (sqrt Re))) by (rewrite E3; rewrite (sqrt_square (sqrt (sqrt Re))) by lra; field; lra).
  unfold Rdiv at 2. set (v := / sqrt (sqrt Re)) in *. clearbody v. set (t := Rpower Re (- 2 / 3)) in *. clearbody t.
  assert (B1 : 0 < 10.11 * t * exp (0.952 * v) - 0.03859 * (t * t) * exp (1.3 * (v * v))).
  { replace (1.3 * (v * v)) with (0.952 * v + (1.3 * (v * v) - 0.952 * v)) by ring. rewrite exp_plus.
    assert (X : exp (1.3 * (v * v) - 0.952 * v) < 11.5). { apply Rle_lt_trans with (exp 2.42); [|itv 0%nat]. apply exp_le. clear - V. lits; nra. }
    pose proof (exp_pos (1.3 * (v * v) - 0.952 * v)) as X0. pose proof (exp_pos (0.952 * v)) as Y.
    set (x := exp (1.3 * (v * v) - 0.952 * v)) in *. set (y := exp (0.952 * v)) in *. clearbody x y.
    replace (10.11 * t * y - 0.03859 * (t * t) * (y * x)) with (t * y * (10.11 - 0.03859 * (t * x))) by ring.
    apply Rmult_lt_0_compat; [nra|]. assert (t * x < 4.65 * 11.5) by (apply Rmult_gt_0_lt_compat; lits; lra). set (tx := t * x) in *. clearbody tx. clear - H0. lits; lra. }
  assert (B2 : 0 < 0.0000037 * Re * exp (- 0.0000125 * Re)) by posr.
  assert (B3 : 0.0000000000116 * Re ^ 2 * exp (- 0.00000444 * Re) <= 0.319).
  { pose proof (sq_exp_le (0.00000444 * Re) ltac:(lits; lra)) as K.
    replace (- 0.00000444 * Re) with (- (0.00000444 * Re)) by (lits; field). set (e := exp (- (0.00000444 * Re))) in *. clearbody e.
    replace (0.0000000000116 * Re ^ 2 * e) with (0.0000000000116 / (0.00000444 * 0.00000444) * ((0.00000444 * Re) ^ 2 * e)) by (lits; field).
    set (k := (0.00000444 * Re) ^ 2 * e) in *. clearbody k. clear - K. lits; lra. }
  assert (B4 : exp 0.182 < 1.2) by itv 0%nat.
  set (a := 10.11 * t * exp (0.952 * v)) in *. set (b := 0.03859 * (t * t) * exp (1.3 * (v * v))) in *. set (c := 0.0000037 * Re * exp (- 0.0000125 * Re)) in *. set (d := 0.0000000000116 * Re ^ 2 * exp (- 0.00000444 * Re)) in *. set (e := exp 0.182) in *.
  clearbody a b c d e. clear - B1 B2 B3 B4. lits; lra.
Qed.

(** ** C58: every listed correlation is accepted and gives a positive coefficient *)
(** Whatever [drag_sphere_methods] lists for a Reynolds number is accepted by [drag_sphere] at that Reynolds number and
    gives a positive drag coefficient. *)
Theorem C58_listed_methods_work Re m : 0 < Re -> In m (drag_sphere_methods Re true) -> exists Cd, drag_sphere Re (Some m) = Ok Cd /\ 0 < Cd.
Proof.
  intros H Hm. unfold drag_sphere_methods in Hm. apply in_map_iff in Hm. destruct Hm as [[n [lo hi]] [<- Hm]]. cbn [fst].
  apply filter_In in Hm. destruct Hm as [Hin Hr]. cbn [negb] in Hr. rewrite orb_false_r in Hr. apply andb_prop in Hr. destruct Hr as [Hl Hh].
  unfold drag_sphere_correlations in Hin. cbn [In] in Hin.
  repeat (destruct Hin as [Hin|Hin]; [injection Hin as <- <- <-; cbv [drag_sphere String.eqb Ascii.eqb Bool.eqb];
    repeat match goal with K : Rltb _ _ = true |- _ => apply Rltb_true in K end;
    first [apply pos_Stokes; lra|apply pos_Barati; lra|apply pos_Barati_high; lra|apply pos_Rouse; lra|apply pos_Engelund_Hansen; lra|apply pos_Clift_Gauvin; lra
          |apply pos_Morsi_Alexander; lra|apply pos_Graf; lra|apply pos_Flemmer_Banks; lra|apply pos_Khan_Richardson; lra|apply pos_Swamee_Ojha; lra|apply pos_Yen; lra
          |apply pos_Haider_Levenspiel; lra|apply pos_Cheng; lra|apply pos_Terfous; lra|apply pos_Mikhailov_Freire; lra|apply pos_Clift; lra|apply pos_Ceylan; lra
          |apply pos_Almedeij; lra|apply pos_Morrison; lra|apply pos_Song_Xu; lra]|]).
  destruct Hin.
Qed.
Example C58_listed_methods_work_ex : In "Terfous"%string (drag_sphere_methods 200 true).
Proof.
  unfold drag_sphere_methods. apply in_map_iff. exists ("Terfous"%string, (Some 0.1, Some 50000)). split; [reflexivity|].
  apply filter_In. split. unfold drag_sphere_correlations. cbn [In]. repeat (left; reflexivity) || (do 14 right; left; reflexivity).
  cbn [negb]. rewrite orb_false_r. apply andb_true_intro. split; apply Rltb_true; lits; lra.
Qed.
(** A name outside the table is refused with ValueError, whatever the Reynolds number; without range checks the list is the whole table. *)
Theorem C58_unlisted_refused Re m : ~ In m (drag_sphere_methods Re false) -> drag_sphere Re (Some m) = Err ValueError.
Proof.
  intros H. unfold drag_sphere.
  repeat match goal with
  | |- context [String.eqb m ?s] => destruct (String.eqb_spec m s) as [->|_];
       [exfalso; apply H; unfold drag_sphere_methods; apply in_map_iff; eexists (s, _); split; [reflexivity|]; apply filter_In; split;
        [unfold drag_sphere_correlations; cbn [In]; repeat (first [left; reflexivity|right])|cbn [negb]; apply orb_true_r]|]
  end. reflexivity.
Qed.
Example C58_unlisted_refused_ex : ~ In "Foo"%string (drag_sphere_methods 1 false).
Proof.
  unfold drag_sphere_methods. intros H. apply in_map_iff in H. destruct H as [[n r] [E H]]. cbn [fst] in E. subst n. apply filter_In in H. destruct H as [H _].
  unfold drag_sphere_correlations in H. cbn [In] in H. repeat (destruct H as [H|H]; [discriminate H|]). exact H.
Qed.

(** ** C58: the automatic choice *)
Definition switch : R := 212963.26847812787.
Definition default_cd (Re : R) : R :=
  if Rltb 0.1 Re then (if Rleb Re switch then barati Re else barati_high (Rmin Re 1000000))
  else if Rleb 0.01 Re then (Re - 0.01) / (0.1 - 0.01) * barati Re + (1 - (Re - 0.01) / (0.1 - 0.01)) * (24 / Re)
  else 24 / Re.
Lemma default_ok Re : 0 < Re -> drag_sphere Re None = Ok (default_cd Re).
Proof.
  intros H. unfold drag_sphere, default_cd, switch. destruct (Rltb 0.1 Re).
  - destruct (Rleb Re 212963.26847812787). apply Barati_ok; exact H. apply Barati_high_ok; exact H.
  - destruct (Rleb 0.01 Re); unfold Stokes. cbv zeta. rewrite Barati_ok by exact H. cbn [bind]. rewrite pdiv_ok by lra. reflexivity. apply pdiv_ok; lra.
Qed.

Lemma cont_local f g x d : 0 < d -> (forall y, Rabs (y - x) < d -> f y = g y) -> continuity_pt g x -> continuity_pt f x.
Proof.
  intros Hd E C. unfold continuity_pt, continue_in, limit1_in, limit_in, D_x, no_cond in *. intros eps He. destruct (C eps He) as [a [Ha K]].
  exists (Rmin a d). split. apply Rmin_pos; lra. intros y [Hy1 Hy2]. rewrite (E y), (E x). apply K. split; [exact Hy1|]. eapply Rlt_le_trans; [exact Hy2|apply Rmin_l].
  rewrite Rminus_eq_0, Rabs_R0; lra. simpl in Hy2. unfold R_dist in Hy2. eapply Rlt_le_trans; [exact Hy2|apply Rmin_r].
Qed.
(** two continuous pieces that agree where they meet *)
Lemma cont_glue f g h x d : 0 < d -> (forall y, Rabs (y - x) < d -> y <= x -> f y = g y) -> (forall y, Rabs (y - x) < d -> x <= y -> f y = h y) ->
  continuity_pt g x -> continuity_pt h x -> continuity_pt f x.
Proof.
  intros Hd E1 E2 C1 C2. unfold continuity_pt, continue_in, limit1_in, limit_in, D_x, no_cond in *. intros eps He.
  destruct (C1 eps He) as [a [Ha K1]]. destruct (C2 eps He) as [b [Hb K2]].
  assert (X0 : Rabs (x - x) < d) by (rewrite Rminus_eq_0, Rabs_R0; lra).
  exists (Rmin d (Rmin a b)). split. repeat apply Rmin_pos; lra. intros y [Hy1 Hy2]. simpl in Hy2. unfold R_dist in Hy2.
  assert (L1 : Rabs (y - x) < d) by (eapply Rlt_le_trans; [exact Hy2|apply Rmin_l]).
  assert (L2 : Rabs (y - x) < Rmin a b) by (eapply Rlt_le_trans; [exact Hy2|apply Rmin_r]).
  destruct (Rle_or_lt y x) as [L|L].
  - rewrite (E1 y L1 L), (E1 x X0 (Rle_refl x)). apply K1. split; [exact Hy1|]. simpl. unfold R_dist. eapply Rlt_le_trans; [exact L2|apply Rmin_l].
  - rewrite (E2 y L1 (Rlt_le _ _ L)), (E2 x X0 (Rle_refl x)). apply K2. split; [exact Hy1|]. simpl. unfold R_dist. eapply Rlt_le_trans; [exact L2|apply Rmin_r].
Qed.
Lemma tanh_cont x : continuity_pt tanh x. Proof. apply continuity_pt_filterlim. apply continuous_tanh. Qed.
Lemma cont_inv Re : Re <> 0 -> continuity_pt (fun r => 1 / r) Re.
Proof. intros H. apply continuity_pt_div; [apply continuity_pt_const; intros ? ?; reflexivity|apply continuity_pt_id|exact H]. Qed.
Lemma cont_const c x : continuity_pt (fun _ => c) x. Proof. apply continuity_pt_const. intros ? ?; reflexivity. Qed.
Lemma cont_tanh_of f x : continuity_pt f x -> continuity_pt (fun r => tanh (f r)) x.
Proof. intros H. apply (continuity_pt_comp f tanh); [exact H|apply tanh_cont]. Qed.
Lemma cont_exp_of f x : continuity_pt f x -> continuity_pt (fun r => exp (f r)) x.
Proof. intros H. apply (continuity_pt_comp f exp); [exact H|]. apply derivable_continuous_pt. apply derivable_pt_exp. Qed.
Lemma cont_log10_of f x : continuity_pt f x -> 0 < f x -> continuity_pt (fun r => log10 (f r)) x.
Proof.
  intros H P. unfold log10. apply (continuity_pt_div (fun r => ln (f r)) (fun _ => ln 10)).
  - apply (continuity_pt_comp f ln); [exact H|]. apply derivable_continuous_pt. exists (/ f x). apply derivable_pt_lim_ln; exact P.
  - apply cont_const.
  - assert (0 < ln 10) by (rewrite <- ln_1; apply ln_increasing; lra). lra.
Qed.
Lemma cont_plus_of f g x : continuity_pt f x -> continuity_pt g x -> continuity_pt (fun r => f r + g r) x. Proof. apply continuity_pt_plus. Qed.
Lemma cont_minus_of f g x : continuity_pt f x -> continuity_pt g x -> continuity_pt (fun r => f r - g r) x. Proof. apply continuity_pt_minus. Qed.
Lemma cont_mult_of f g x : continuity_pt f x -> continuity_pt g x -> continuity_pt (fun r => f r * g r) x. Proof. apply continuity_pt_mult. Qed.
Lemma cont_div_of f g x : continuity_pt f x -> continuity_pt g x -> g x <> 0 -> continuity_pt (fun r => f r / g r) x. Proof. apply continuity_pt_div. Qed.
Lemma cont_opp_of f x : continuity_pt f x -> continuity_pt (fun r => - f r) x. Proof. apply continuity_pt_opp. Qed.
Ltac cont := idtac; cbv beta; lazymatch goal with
  | |- continuity_pt (fun r => r) _ => apply continuity_pt_id
  | |- continuity_pt (fun _ => ?c) _ => apply cont_const
  | |- continuity_pt (fun r => @?a r + @?b r) _ => apply (cont_plus_of a b); cont
  | |- continuity_pt (fun r => @?a r - @?b r) _ => apply (cont_minus_of a b); cont
  | |- continuity_pt (fun r => @?a r * @?b r) _ => apply (cont_mult_of a b); cont
  | |- continuity_pt (fun r => @?a r / @?b r) _ => apply (cont_div_of a b); [cont|cont|]
  | |- continuity_pt (fun r => - (@?a r)) _ => apply (cont_opp_of a); cont
  | |- continuity_pt (fun r => tanh (@?a r)) _ => apply (cont_tanh_of a); cont
  | |- continuity_pt (fun r => exp (@?a r)) _ => apply (cont_exp_of a); cont
  | |- continuity_pt (fun r => log10 (@?a r)) _ => apply (cont_log10_of a); [cont|]
  end.
Lemma barati_cont Re : 0 < Re -> continuity_pt barati Re.
Proof. intros H. unfold barati. cont; lits; lra. Qed.
Lemma barati_high_cont Re : 0 < Re -> continuity_pt barati_high Re.
Proof.
  intros H. unfold barati_high. cont; try lra; try (clear - H; lits; nra). apply tanh_bounds. apply tanh_bounds. exact H.
Qed.
Lemma cont_min c x : continuity_pt (fun r => Rmin r c) x.
Proof.
  apply (cont_local _ (fun r => (r + c - Rabs (r - c)) / 2) x 1); [lra| |].
  - intros y _. unfold Rmin, Rabs. destruct (Rle_dec y c), (Rcase_abs (y - c)); lra.
  - apply cont_div_of; [|cont|lra]. apply cont_minus_of. cont. apply (continuity_pt_comp (fun r => r - c) Rabs). cont. apply Rcontinuity_abs.
Qed.
Lemma high_cont Re : 0 < Re -> continuity_pt (fun r => barati_high (Rmin r 1000000)) Re.
Proof. intros H. apply (continuity_pt_comp (fun r => Rmin r 1000000) barati_high). apply cont_min. apply barati_high_cont. apply Rmin_pos; lra. Qed.
Lemma stokes_cont Re : 0 < Re -> continuity_pt (fun r => 24 / r) Re.
Proof. intros H. cont. lra. Qed.
Definition blend (Re : R) : R := (Re - 0.01) / (0.1 - 0.01) * barati Re + (1 - (Re - 0.01) / (0.1 - 0.01)) * (24 / Re).
Lemma blend_cont Re : 0 < Re -> continuity_pt blend Re.
Proof.
  intros H. unfold blend. apply cont_plus_of; apply cont_mult_of; try (apply barati_cont; exact H); try (apply stokes_cont; exact H); cont; lits; lra.
Qed.

(** Without a method the coefficient is one function of the Reynolds number: positive everywhere; [24/Re] exactly below
    0.01; the Barati correlation between 0.1 and the switch; continuous everywhere except at the switch between the two
    Barati correlations, where the step is below [1e-8]; and between 0.01 and 0.1 never outside the range of the two
    correlations that are blended. *)
Theorem C58_default :
  exists f, (forall Re, 0 < Re -> drag_sphere Re None = Ok (f Re) /\ 0 < f Re) /\
    (forall Re, 0 < Re <= 0.01 -> f Re = 24 / Re) /\
    (forall Re, 0.1 <= Re <= switch -> Barati Re = Ok (f Re)) /\
    (forall Re, switch < Re -> Barati_high Re = Ok (f Re)) /\
    (forall Re, 0.01 <= Re <= 0.1 -> exists a, Barati Re = Ok a /\ Rmin a (24 / Re) <= f Re <= Rmax a (24 / Re)) /\
    (forall Re, 0 < Re -> Re <> switch -> continuity_pt f Re) /\
    (exists g h, continuity_pt g switch /\ continuity_pt h switch /\ (forall Re, 0.1 < Re <= switch -> f Re = g Re) /\ (forall Re, switch < Re -> f Re = h Re) /\
       Rabs (g switch - h switch) < 0.00000001).
Proof.
  assert (SW : 212963 < switch < 212964) by (unfold switch; lits; lra).
  assert (D1 : forall Re, 0 < Re <= 0.01 -> default_cd Re = 24 / Re).
  { intros Re H. unfold default_cd. assert (A : Re <= 0.1) by (clear - H; lits; lra). apply Rltb_false in A. rewrite A. rcase; [|reflexivity].
    replace Re with 0.01 by lra. replace ((0.01 - 0.01) / (0.1 - 0.01)) with 0 by (lits; field). ring. }
  assert (D2 : forall Re, 0.1 <= Re <= switch -> default_cd Re = barati Re).
  { intros Re H. unfold default_cd. rcase. rcase; [reflexivity|exfalso; lra].
    replace Re with 0.1 by lra. assert (A : 0.01 <= 0.1) by (lits; lra). apply Rleb_true in A. rewrite A. replace ((0.1 - 0.01) / (0.1 - 0.01)) with 1 by (lits; field). ring. }
  assert (D3 : forall Re, switch < Re -> default_cd Re = barati_high (Rmin Re 1000000)).
  { intros Re H. unfold default_cd. assert (A : 0.1 < Re) by (clear - H SW; lits; lra). apply Rltb_true in A. rewrite A. rcase; [exfalso; lra|reflexivity]. }
  assert (D4 : forall Re, 0.01 <= Re <= 0.1 -> default_cd Re = blend Re).
  { intros Re H. unfold default_cd. assert (A : Re <= 0.1) by lra. apply Rltb_false in A. rewrite A. assert (B : 0.01 <= Re) by lra. apply Rleb_true in B. rewrite B. reflexivity. }
  exists default_cd. splits.
  - intros Re H. split. apply default_ok; exact H.
    destruct (Rle_or_lt Re 0.01) as [A|A]. rewrite D1 by lra. posr.
    destruct (Rle_or_lt Re 0.1) as [B|B].
    + rewrite D4 by lra. unfold blend. pose proof (barati_pos Re H) as P. assert (Q : 0 < 24 / Re) by posr.
      assert (W : 0 < (Re - 0.01) / (0.1 - 0.01) <= 1). { clear - A B. split. apply Rdiv_lt_0_compat; lits; lra. lits; lra. }
      set (w := (Re - 0.01) / (0.1 - 0.01)) in *. clearbody w. set (b := barati Re) in *. clearbody b. set (q := 24 / Re) in *. clearbody q. clear - P Q W. lits. nra.
    + destruct (Rle_or_lt Re switch) as [C|C].
      rewrite D2 by lra. pose proof (barati_pos Re H) as P. clear - P. lits; lra.
      rewrite D3 by lra. assert (M : 0 < Rmin Re 1000000 <= 1000000) by (split; [apply Rmin_pos; lra|apply Rmin_r]). pose proof (barati_high_pos _ M) as P. clear - P. lits; lra.
  - exact D1.
  - intros Re H. rewrite D2 by exact H. apply Barati_ok. clear - H. lits; lra.
  - intros Re H. rewrite D3 by exact H. apply Barati_high_ok. clear - H SW. lits; lra.
  - intros Re H. assert (P : 0 < Re) by (clear - H; lits; lra). exists (barati Re). split. apply Barati_ok; exact P. rewrite D4 by exact H. unfold blend.
    assert (W : 0 <= (Re - 0.01) / (0.1 - 0.01) <= 1). { clear - H. lits; lra. }
    set (w := (Re - 0.01) / (0.1 - 0.01)) in *. clearbody w. set (b := barati Re) in *. clearbody b. set (q := 24 / Re) in *. clearbody q. clear - W.
    unfold Rmin, Rmax. destruct (Rle_dec b q); nra.
  - intros Re H N. destruct (Rtotal_order Re 0.01) as [A|[A|A]].
    + apply (cont_local _ (fun r => 24 / r) Re (Rmin Re (0.01 - Re))). apply Rmin_pos; lra.
      intros y Hy. apply D1. pose proof (Rmin_l Re (0.01 - Re)). pose proof (Rmin_r Re (0.01 - Re)). unfold Rabs in Hy. destruct (Rcase_abs (y - Re)); lra. apply stokes_cont; exact H.
    + subst Re. apply (cont_glue _ (fun r => 24 / r) blend 0.01 0.01). lits; lra.
      * intros y Hy L. apply D1. unfold Rabs in Hy. destruct (Rcase_abs (y - 0.01)); lra.
      * intros y Hy L. apply D4. unfold Rabs in Hy. split; [exact L|]. clear - Hy. destruct (Rcase_abs (y - 0.01)); lits; lra.
      * apply stokes_cont; exact H.
      * apply blend_cont; exact H.
    + destruct (Rtotal_order Re 0.1) as [B|[B|B]].
      * apply (cont_local _ blend Re (Rmin (Re - 0.01) (0.1 - Re))). apply Rmin_pos; lra.
        intros y Hy. apply D4. pose proof (Rmin_l (Re - 0.01) (0.1 - Re)). pose proof (Rmin_r (Re - 0.01) (0.1 - Re)). unfold Rabs in Hy. destruct (Rcase_abs (y - Re)); lra. apply blend_cont; exact H.
      * subst Re. apply (cont_glue _ blend barati 0.1 0.09). lits; lra.
        -- intros y Hy L. apply D4. unfold Rabs in Hy. split; [|exact L]. clear - Hy. destruct (Rcase_abs (y - 0.1)); lits; lra.
        -- intros y Hy L. apply D2. unfold Rabs in Hy. split; [exact L|]. clear - Hy SW. destruct (Rcase_abs (y - 0.1)); lits; lra.
        -- apply blend_cont; exact H.
        -- apply barati_cont; exact H.
      * destruct (Rtotal_order Re switch) as [C|[C|C]]; [|contradiction|].
        -- apply (cont_local _ barati Re (Rmin (Re - 0.1) (switch - Re))). apply Rmin_pos; lra.
           intros y Hy. apply D2. pose proof (Rmin_l (Re - 0.1) (switch - Re)). pose proof (Rmin_r (Re - 0.1) (switch - Re)). unfold Rabs in Hy. destruct (Rcase_abs (y - Re)); lra. apply barati_cont; exact H.
        -- apply (cont_local _ (fun r => barati_high (Rmin r 1000000)) Re (Re - switch)). lra.
           intros y Hy. apply D3. unfold Rabs in Hy. destruct (Rcase_abs (y - Re)); lra. apply high_cont; exact H.
  - exists barati, (fun r => barati_high (Rmin r 1000000)). splits.
    + apply barati_cont. lra.
    + apply high_cont. lra.
    + intros Re H. apply D2. lra.
    + intros Re H. apply D3. lra.
    + rewrite Rmin_left by lra. apply switch_jump.
Qed.

(** Stokes' law is the limit of the drag at vanishing Reynolds number.  The Barati correlation alone does not follow it:
    it never exceeds 5.5e9, so that [Re * Cd] tends to zero instead of 24 (the automatic choice therefore blends). *)
Theorem C58_Barati_creeping_flow_refuted : exists Re Cd, 0 < Re /\ Barati Re = Ok Cd /\ Re * Cd < 0.001.
Proof.
  exists 0.0000000000001, (barati 0.0000000000001). assert (P : 0 < 0.0000000000001) by (lits; lra). splits. exact P. apply Barati_ok; exact P.
  pose proof (barati_bounded _ P) as B. set (b := barati 0.0000000000001) in *. clearbody b. clear - B. lits; lra.
Qed.

(** ** C58: terminal velocity *)
(** The force balance of a sphere moving at [V]: drag (with the pressure [V2^2 * rho / 2] on its cross section) equals
    weight minus buoyancy. *)
Definition balance (D rhop rho Cd V2 : R) : Prop :=
  Cd * (PI / 4 * D ^ 2) * (rho * V2 ^ 2 / 2) = (rhop - rho) * 9.80665 * (PI / 6 * D ^ 3).
(** A root finder that returns only points where the residual is at most [eps]. *)
Definition close_secant (eps : R) (sec : (R -> result R) -> R -> result R) : Prop :=
  forall f x0 x, sec f x0 = Ok x -> exists r, f x = Ok r /\ Rabs r <= eps.
Lemma Re_ok V D rho mu : 0 < rho -> 0 < mu -> Reynolds V D (Some rho) (Some mu) None = Ok (rho * V * D / mu).
Proof. intros Hr Hm. unfold Reynolds. rewrite pdiv_ok by lra. cbn [bind]. rewrite pdiv_ok by posr. f_equal. field. lra. Qed.

(** Whatever [v_terminal] returns for a sinking sphere balances the forces: exactly, with Stokes' drag force, when Stokes'
    law is used; otherwise with the drag coefficient belonging to the returned velocity, up to the tolerance of the root
    finder. *)
Theorem C58_terminal_balance sec eps D rhop rho mu m V : close_secant eps sec -> 0 < D -> 0 < rho < rhop -> 0 < mu ->
  v_terminal sec D rhop rho mu m = Ok V ->
  (3 * PI * mu * D * V = (rhop - rho) * 9.80665 * (PI / 6 * D ^ 3) /\ 0 < V /\ (m = Some "Stokes"%string \/ rho * V * D / mu < 0.01)) \/
  (exists Cd V2, drag_sphere (rho * V * D / mu) m = Ok Cd /\ Rabs (V - V2) <= eps /\ balance D rhop rho Cd V2).
Proof.
  intros HS HD Hr Hm E. pose proof PI_RGT_0 as PI0. unfold v_terminal in E. rewrite pdiv_ok in E by lra. cbn [bind] in E. rewrite Re_ok in E by lra. cbn [bind] in E.
  assert (G : 0 < 9.80665) by (lits; lra).
  set (v := 9.80665 * D * D * (rhop - rho) / (18 * mu)) in *.
  assert (V0 : 0 < v) by (unfold v; assert (0 < rhop - rho) by lra; posr).
  destruct (Rltb (rho * v * D / mu) 0.01 || match m with Some m0 => (m0 =? "Stokes")%string | None => false end)%bool eqn:B.
  - apply Ok_inj in E. subst V. left. splits.
    + unfold v. field. lra.
    + exact V0.
    + apply orb_prop in B. destruct B as [B|B]. right. now apply Rltb_true in B. left. destruct m as [m|]; [|discriminate B]. apply String.eqb_eq in B. now subst m.
  - right. rewrite pdiv_ok in E by lra. cbn [bind] in E. rewrite pdiv_ok in E by lra. cbn [bind] in E. rewrite pdiv_ok in E by lra. cbn [bind] in E. rewrite pdiv_ok in E by lra. cbn [bind] in E.
    cbv zeta in E. apply HS in E. destruct E as [r [E R1]]. unfold v_terminal_err in E. inv_bind E. inv_bind E. inv_bind E. apply Ok_inj in E. subst r.
    exists v0, v2. replace (rho * V * D / mu) with (rho * D / mu * V) by (field; lra).
    match goal with K : drag_sphere _ _ = Ok v0 |- _ => split; [exact K|] end. split; [exact R1|].
    match goal with K : pdiv _ v0 = Ok v1 |- _ => unfold pdiv in K; destruct (Reqb v0 0) eqn:N; [discriminate K|]; apply Reqb_false in N; apply Ok_inj in K; subst v1 end.
    match goal with K : psqrt _ = Ok v2 |- _ => unfold psqrt in K; destruct (Rltb _ 0) eqn:N2 in K; [discriminate K|]; apply Rltb_false in N2; apply Ok_inj in K; subst v2 end.
    unfold balance. rewrite pow2_sqrt by exact N2. field. lra.
Qed.
(** the hypothesis on the root finder is met by one that checks its answer; the other hypotheses by sand in water *)
Example C58_terminal_balance_ex : close_secant 0 (fun f x0 => r <- f x0 ;; if Reqb r 0 then Ok x0 else Err UnconvergedError) /\ 0 < 0.00007 /\ 0 < 998 < 2600 /\ 0 < 0.001.
Proof.
  split. intros f x0 x E. inv_bind E. destruct (Reqb v 0) eqn:N in E; [|discriminate E]. apply Reqb_true in N. subst v. apply Ok_inj in E. subst x. eexists; split; [eassumption|]. rewrite Rabs_R0. lra.
  lits; splits; lra.
Qed.
(** In creeping flow the two readings agree: with the coefficient [drag_sphere] itself picks, the forces balance exactly. *)
Theorem C58_terminal_creeping sec D rhop rho mu : 0 < D -> 0 < rho < rhop -> 0 < mu -> rho * (rhop - rho) * 9.80665 * D ^ 3 / (18 * mu ^ 2) < 0.01 ->
  exists V Cd, v_terminal sec D rhop rho mu None = Ok V /\ drag_sphere (rho * V * D / mu) None = Ok Cd /\ balance D rhop rho Cd V.
Proof.
  intros HD Hr Hm HR. pose proof PI_RGT_0 as PI0. unfold v_terminal. rewrite pdiv_ok by lra. cbn [bind]. rewrite Re_ok by lra. cbn [bind].
  set (v := 9.80665 * D * D * (rhop - rho) / (18 * mu)) in *.
  assert (E : rho * v * D / mu = rho * (rhop - rho) * 9.80665 * D ^ 3 / (18 * mu ^ 2)) by (unfold v; field; lra).
  assert (V0 : 0 < v). { unfold v; assert (0 < rhop - rho) by lra; posr. }
  rewrite <- E in HR. rewrite (proj2 (Rltb_true _ _) HR). cbn [orb]. exists v. 
  assert (P : 0 < rho * v * D / mu) by (assert (0 < rho) by lra; posr).
  rewrite default_ok by exact P. eexists. split; [reflexivity|]. split; [reflexivity|].
  assert (K : default_cd (rho * v * D / mu) = 24 / (rho * v * D / mu)).
  { unfold default_cd. assert (A : rho * v * D / mu <= 0.1) by (clear - HR; lits; lra). apply Rltb_false in A. rewrite A. rcase; [exfalso; lra|reflexivity]. }
  rewrite K. unfold balance. replace (24 / (rho * v * D / mu) * (PI / 4 * D ^ 2) * (rho * v ^ 2 / 2)) with (3 * PI * mu * D * v) by (field; splits; lra). unfold v. field. lra.
Qed.
Example C58_terminal_creeping_ex : 0 < 0.00001 /\ 0 < 998 < 2600 /\ 0 < 0.001 /\ 998 * (2600 - 998) * 9.80665 * 0.00001 ^ 3 / (18 * 0.001 ^ 2) < 0.01.
Proof. lits; splits; lra. Qed.
(** With the exact root finder the two branches leave no gap: if the residual is zero the sphere is in balance. *)
Theorem C58_terminal_exact sec D rhop rho mu V : close_secant 0 sec -> 0 < D -> 0 < rho < rhop -> 0 < mu ->
  v_terminal sec D rhop rho mu None = Ok V -> 0 < V -> exists Cd, drag_sphere (rho * V * D / mu) None = Ok Cd /\ balance D rhop rho Cd V.
Proof.
  intros HS HD Hr Hm E V0. destruct (C58_terminal_balance sec 0 D rhop rho mu None V HS HD Hr Hm E) as [(F & _ & [K|K])|(Cd & V2 & E1 & E2 & B)].
  - discriminate K.
  - assert (P : 0 < rho * V * D / mu) by (assert (0 < rho) by lra; posr).
    assert (C : default_cd (rho * V * D / mu) = 24 / (rho * V * D / mu)).
    { unfold default_cd. assert (A : rho * V * D / mu <= 0.1) by (clear - K; lits; lra). apply Rltb_false in A. rewrite A. rcase; [exfalso; lra|reflexivity]. }
    exists (default_cd (rho * V * D / mu)). split. apply default_ok; exact P. rewrite C. unfold balance. rewrite <- F. field. pose proof PI_RGT_0. splits; lra.
  - exists Cd. split; [exact E1|]. assert (V = V2). { pose proof (Rabs_pos (V - V2)). assert (Z : Rabs (V - V2) = 0) by lra. unfold Rabs in Z. destruct (Rcase_abs (V - V2)); lra. } now subst V2.
Qed.
Example C58_terminal_exact_ex : 0 < 0.00007 /\ 0 < 1.2 < 2600 /\ 0 < 0.0000178. Proof. lits; splits; lra. Qed.

(** A rising sphere ([rhop < rho]) is never given to the correlation: the creeping-flow formula is returned however
    large the Reynolds number.  So the balance with the coefficient of the actual Reynolds number fails: for any bound
    there is a sphere whose returned velocity has a larger Reynolds number. *)
Theorem C58_rising_sphere_refuted sec rhop rho mu M m : 0 < rhop < rho -> 0 < mu -> 0 < M ->
  exists D V, 0 < D /\ v_terminal sec D rhop rho mu m = Ok V /\ 18 * mu * V = 9.80665 * D ^ 2 * (rhop - rho) /\ M < Rabs (rho * V * D / mu).
Proof.
  intros Hr Hm HM. assert (G : 9 < 9.80665) by (lits; lra).
  set (c := 9.80665 * (rho - rhop) * rho / (18 * mu ^ 2)). assert (C0 : 0 < c) by (unfold c; apply Rdiv_lt_0_compat; nra).
  set (D := 1 + M / c). assert (MC : 0 < M / c) by (apply Rdiv_lt_0_compat; lra). assert (D1 : 1 < D) by (unfold D; lra).
  exists D. unfold v_terminal. rewrite pdiv_ok by lra. cbn [bind]. rewrite Re_ok by lra. cbn [bind].
  set (v := 9.80665 * D * D * (rhop - rho) / (18 * mu)) in *.
  assert (E : rho * v * D / mu = - (c * (D * D * D))) by (unfold v, c; field; lra).
  assert (D3 : D < D * D * D) by nra. assert (L : M < c * (D * D * D)). { apply Rle_lt_trans with (c * (M / c)). right. field. lra. apply Rmult_lt_compat_l; [exact C0|]. unfold D in *. lra. }
  assert (K : rho * v * D / mu < 0.01) by (rewrite E; clear - L HM; lits; lra).
  rewrite (proj2 (Rltb_true _ _) K). cbn [orb]. exists v. splits. lra. reflexivity. unfold v. field. lra. rewrite E, Rabs_Ropp, Rabs_pos_eq by lra. exact L.
Qed.
Example C58_rising_sphere_refuted_ex : 0 < 1.2 < 998 /\ 0 < 0.001 /\ 0 < 1000000. Proof. lits; splits; lra. Qed.

Print Assumptions C58_listed_methods_work.
Print Assumptions C58_unlisted_refused.
Print Assumptions C58_default.
Print Assumptions C58_Barati_creeping_flow_refuted.
Print Assumptions C58_terminal_balance.
Print Assumptions C58_terminal_creeping.
Print Assumptions C58_terminal_exact.
Print Assumptions C58_rising_sphere_refuted.
