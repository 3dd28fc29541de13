(** Facts about the drag correlations of Model_Drag.v: values, signs, continuity.  The claims are in Properties_Drag.v. *)
From Coq Require Import Reals Lra Lia List Bool String Psatz QArith Qreals.
From Coquelicot Require Import Coquelicot.
From Verif Require Import Base Model_Real Proofs_Real Interval Model_Friction Model_Drag.
Import ListNotations.
Open Scope R_scope.

(** ** The hyperbolic tangent *)
Lemma cosh_pos x : 0 < cosh x. Proof. unfold cosh. pose proof (exp_pos x). pose proof (exp_pos (- x)). lra. Qed.
Lemma tanh_exp x : tanh x = (1 - exp (- (2 * x))) / (1 + exp (- (2 * x))).
Proof.
  unfold tanh, sinh, cosh. replace (- (2 * x)) with (- x + - x) by ring. rewrite exp_plus. rewrite exp_Ropp.
  pose proof (exp_pos x). set (e := exp x) in *. clearbody e. field. assert (0 < e * e) by nra. splits; lra.
Qed.
Lemma tanh_bounds x : 0 < x -> 0 < tanh x < 1.
Proof.
  intros H. rewrite tanh_exp. pose proof (exp_pos (- (2 * x))) as P.
  assert (L : exp (- (2 * x)) < 1) by (apply Rlt_le_trans with (exp 0); [apply exp_increasing; lra|rewrite exp_0; lra]).
  set (e := exp (- (2 * x))) in *. clearbody e. split. apply Rdiv_lt_0_compat; lra.
  apply Rmult_lt_reg_r with (1 + e); [lra|]. replace ((1 - e) / (1 + e) * (1 + e)) with (1 - e) by (field; lra). lra.
Qed.
Lemma tanh_def t : (exp t - exp (- t)) / (exp t + exp (- t)) = tanh t.
Proof. unfold tanh, sinh, cosh. pose proof (exp_pos t). pose proof (exp_pos (- t)). field. lra. Qed.
Lemma tanh_derive x : ex_derive tanh x.
Proof.
  apply ex_derive_ext with (fun x => (exp x - exp (- x)) / (exp x + exp (- x))).
  - exact tanh_def.
  - auto_derive. pose proof (exp_pos x). pose proof (exp_pos (- x)). lra.
Qed.
Lemma continuous_tanh x : continuous tanh x. Proof. apply (ex_derive_continuous (V := R_NormedModule)). apply tanh_derive. Qed.

(** ** Values of the correlations used without a method *)
Definition barati (Re : R) : R :=
  5485600000 * tanh (0.0000000043774 * (1 / Re)) + 0.0709 * tanh (700.6574 * (1 / Re)) + 0.3894 * tanh (74.1539 * (1 / Re))
  - 0.1198 * tanh (7429.0843 * (1 / Re)) + 1.7174 * tanh (9.9851 / (Re + 2.3384)) + 0.4744.
Lemma Barati_ok Re : 0 < Re -> Barati Re = Ok (barati Re).
Proof. intros H. unfold Barati. mrun. reflexivity. Qed.
Lemma barati_pos Re : 0 < Re -> 0.3546 < barati Re.
Proof.
  intros H. unfold barati. assert (I : 0 < 1 / Re) by (apply Rdiv_lt_0_compat; lra).
  assert (J : 0 < 9.9851 / (Re + 2.3384)) by (apply Rdiv_lt_0_compat; lits; lra).
  set (i := 1 / Re) in *. clearbody i. set (j := 9.9851 / (Re + 2.3384)) in *. clearbody j.
  pose proof (tanh_bounds (0.0000000043774 * i) ltac:(lits; lra)). pose proof (tanh_bounds (700.6574 * i) ltac:(lits; lra)).
  pose proof (tanh_bounds (74.1539 * i) ltac:(lits; lra)). pose proof (tanh_bounds (7429.0843 * i) ltac:(lits; lra)). pose proof (tanh_bounds j J).
  set (a := tanh (0.0000000043774 * i)) in *. set (b := tanh (700.6574 * i)) in *. set (c := tanh (74.1539 * i)) in *. set (d := tanh (7429.0843 * i)) in *. set (e := tanh j) in *.
  clearbody a b c d e. lits; lra.
Qed.
Lemma barati_bounded Re : 0 < Re -> barati Re < 5485600003.
Proof.
  intros H. unfold barati. assert (I : 0 < 1 / Re) by (apply Rdiv_lt_0_compat; lra).
  assert (J : 0 < 9.9851 / (Re + 2.3384)) by (apply Rdiv_lt_0_compat; lits; lra).
  set (i := 1 / Re) in *. clearbody i. set (j := 9.9851 / (Re + 2.3384)) in *. clearbody j.
  pose proof (tanh_bounds (0.0000000043774 * i) ltac:(lits; lra)). pose proof (tanh_bounds (700.6574 * i) ltac:(lits; lra)).
  pose proof (tanh_bounds (74.1539 * i) ltac:(lits; lra)). pose proof (tanh_bounds (7429.0843 * i) ltac:(lits; lra)). pose proof (tanh_bounds j J).
  set (a := tanh (0.0000000043774 * i)) in *. set (b := tanh (700.6574 * i)) in *. set (c := tanh (74.1539 * i)) in *. set (d := tanh (7429.0843 * i)) in *. set (e := tanh j) in *.
  clearbody a b c d e. lits; lra.
Qed.
Definition barati_high (Re : R) : R :=
  0.000008 * (Re * (1 / 6530) * (Re * (1 / 6530)) + tanh Re - 8 * log10 Re)
  - 0.4119 * exp (- 20800000000000000000000000000000000000000000 * (1 / (Re + Re * Re) * (1 / (Re + Re * Re)) * (1 / (Re + Re * Re) * (1 / (Re + Re * Re)))))
  - 2.1344 * exp (- (1 / Re) * (log10 (Re * Re + 10.7563) * log10 (Re * Re + 10.7563) + 9.9867))
  + 0.1357 * exp (- (1 / Re) * (Re * (1 / 1620) * (Re * (1 / 1620)) + 10370))
  - 0.0085 * (1 / Re) * (2 * log10 (tanh (tanh Re)) - 2825.7162) + 2.4795.
Lemma Barati_high_ok Re : 0 < Re -> Barati_high Re = Ok (barati_high (Rmin Re 1000000)).
Proof.
  intros H. unfold Barati_high. assert (P : 0 < Rmin Re 1000000) by (apply Rmin_pos; lra).
  assert (E : (if Rltb 1000000 Re then Ok 1000000 else Ok Re) = Ok (Rmin Re 1000000)).
  { unfold Rmin. destruct (Rle_dec Re 1000000) as [L|L]; rcase; try reflexivity; exfalso; lra. }
  cbv zeta. rewrite E. cbn [bind]. set (r := Rmin Re 1000000) in *. clearbody r. clear E H Re. cbv zeta.
  rewrite pdiv_ok by lra. cbn [bind]. rewrite plog10_ok by (lits; nra). cbn [bind]. rewrite pdiv_ok by nra. cbn [bind].
  rewrite plog10_ok by lra. cbn [bind]. rewrite plog10_ok by (apply tanh_bounds; apply tanh_bounds; exact P). cbn [bind].
  reflexivity.
Qed.

Lemma exp_le_1 x : x <= 0 -> exp x <= 1.
Proof. intros [H| ->]. left. apply Rlt_le_trans with (exp 0); [apply exp_increasing; exact H|rewrite exp_0; lra]. rewrite exp_0; lra. Qed.
Lemma exp_le x y : x <= y -> exp x <= exp y. Proof. intros [H| ->]; [left; now apply exp_increasing|lra]. Qed.
(** the part that decides the sign at high Reynolds numbers, with [x = Re / 100000] *)
Lemma high_core x : 1 <= x <= 10 ->
  0.01 < 0.3451 - 0.4119 * exp (- (2.0799 * / (x * x * (x * x) * (x * x * (x * x)))) * 1000) + 0.1357 * exp (- (x * 0.0382 + 0.1037 * / x)) + 0.001876 * (x * x) - 0.00039.
Proof. intros H. itv1 x 1%Q 10%Q 8%nat. Qed.
Lemma log10_le_5 : log10 100000 = 5.
Proof. unfold log10. replace 100000 with (10 ^ 5) by ring. rewrite <- Rpower_pow by lra. unfold Rpower. rewrite ln_exp. simpl INR. field. assert (0 < ln 10) by (rewrite <- ln_1; apply ln_increasing; lra). lra. Qed.
Lemma log10_le_6 : log10 1000000 = 6.
Proof. unfold log10. replace 1000000 with (10 ^ 6) by ring. rewrite <- Rpower_pow by lra. unfold Rpower. rewrite ln_exp. simpl INR. field. assert (0 < ln 10) by (rewrite <- ln_1; apply ln_increasing; lra). lra. Qed.
Lemma barati_high_pos Re : 0 < Re <= 1000000 -> 0.009 < barati_high Re.
Proof.
  intros H. unfold barati_high. destruct (tanh_bounds Re (proj1 H)) as [T0 T1]. destruct (tanh_bounds (tanh Re) T0) as [U0 U1].
  pose proof (log10_neg _ (conj U0 U1)) as L0. assert (I : 0 < 1 / Re) by (apply Rdiv_lt_0_compat; lra).
  assert (A1 : 0 < - (0.0085 * (1 / Re) * (2 * log10 (tanh (tanh Re)) - 2825.7162))).
  { set (l := log10 (tanh (tanh Re))) in *. clearbody l. set (i := 1 / Re) in *. clearbody i. clear - L0 I. lits. nra. }
  assert (A2 : exp (- (1 / Re) * (log10 (Re * Re + 10.7563) * log10 (Re * Re + 10.7563) + 9.9867)) <= 1).
  { apply exp_le_1. set (l := log10 (Re * Re + 10.7563)). clearbody l. set (i := 1 / Re) in *. clearbody i. clear - I. pose proof (Rle_0_sqr l) as P. unfold Rsqr in P. lits. nra. }
  pose proof (log10_le Re 1000000 ltac:(lra) ltac:(lra)) as L6. rewrite log10_le_6 in L6.
  set (a1 := 0.0085 * (1 / Re) * (2 * log10 (tanh (tanh Re)) - 2825.7162)) in *. clearbody a1.
  set (a2 := exp (- (1 / Re) * (log10 (Re * Re + 10.7563) * log10 (Re * Re + 10.7563) + 9.9867))) in *. clearbody a2.
  set (th := tanh Re) in *. clearbody th. set (lg := log10 Re) in *. clearbody lg.
  destruct (Rle_or_lt Re 100000) as [S|S].
  - assert (A3 : exp (- 20800000000000000000000000000000000000000000 * (1 / (Re + Re * Re) * (1 / (Re + Re * Re)) * (1 / (Re + Re * Re) * (1 / (Re + Re * Re))))) < 0.1).
    { apply Rle_lt_trans with (exp (- 1000)); [|itv 0%nat]. apply exp_le.
      assert (Q0 : 0 < Re + Re * Re) by nra. assert (Q1 : Re + Re * Re <= 10000100000) by nra.
      assert (Q2 : 0.00000000009999 <= 1 / (Re + Re * Re)). { apply Rmult_le_reg_r with (Re + Re * Re); [lra|]. replace (1 / (Re + Re * Re) * (Re + Re * Re)) with 1 by (field; lra). clear - Q1 Q0. lits. nra. }
      set (q := 1 / (Re + Re * Re)) in *. clearbody q. clear - Q2.
      assert (P2 : 0.00000000009999 * 0.00000000009999 <= q * q) by (apply Rmult_le_compat; lits; lra).
      assert (P4 : (0.00000000009999 * 0.00000000009999) * (0.00000000009999 * 0.00000000009999) <= q * q * (q * q)) by (apply Rmult_le_compat; lits; lra).
      set (z := q * q * (q * q)) in *. clearbody z. clear - P4. lits. lra. }
    set (a3 := exp (- 20800000000000000000000000000000000000000000 * _)) in *. clearbody a3.
    pose proof (exp_pos (- (1 / Re) * (Re * (1 / 1620) * (Re * (1 / 1620)) + 10370))) as A4. set (a4 := exp (- (1 / Re) * (Re * (1 / 1620) * (Re * (1 / 1620)) + 10370))) in *. clearbody a4.
    assert (A5 : 0 <= Re * (1 / 6530) * (Re * (1 / 6530))) by (clear - H; nra). set (a5 := Re * (1 / 6530) * (Re * (1 / 6530))) in *. clearbody a5.
    clear - A1 A2 A3 A4 A5 T0 L6. lits. lra.
  - set (x := Re / 100000). assert (X : 1 <= x <= 10) by (unfold x; split; lra). assert (E : Re = 100000 * x) by (unfold x; field).
    pose proof (high_core x X) as K.
    assert (A3 : exp (- 20800000000000000000000000000000000000000000 * (1 / (Re + Re * Re) * (1 / (Re + Re * Re)) * (1 / (Re + Re * Re) * (1 / (Re + Re * Re)))))
       <= exp (- (2.0799 * / (x * x * (x * x) * (x * x * (x * x)))) * 1000)).
    { apply exp_le. rewrite E. set (d := 100000 * x + 100000 * x * (100000 * x)).
      assert (D0 : 0 < x * x) by nra. assert (D : 0 < d <= 10000100000 * (x * x)) by (unfold d; split; nra).
      assert (D2 : 0.99999 * / (10000000000 * (x * x)) <= 1 / d).
      { apply Rmult_le_reg_r with d; [lra|]. replace (1 / d * d) with 1 by (field; lra).
        apply Rle_trans with (0.99999 * / (10000000000 * (x * x)) * (10000100000 * (x * x))).
        - apply Rmult_le_compat_l; [|lra]. apply Rmult_le_pos; [lits; lra|]. left. apply Rinv_0_lt_compat. lra.
        - replace (0.99999 * / (10000000000 * (x * x)) * (10000100000 * (x * x))) with (0.99999 * 1.00001) by (lits; field; lra). lits; lra. }
      set (y := / (10000000000 * (x * x))) in *. assert (Y0 : 0 < y) by (apply Rinv_0_lt_compat; lra).
      set (q := 1 / d) in *. clearbody q d.
      assert (P2 : (0.99999 * y) * (0.99999 * y) <= q * q) by (apply Rmult_le_compat; lits; lra).
      assert (P4 : (0.99999 * y) * (0.99999 * y) * ((0.99999 * y) * (0.99999 * y)) <= q * q * (q * q)) by (apply Rmult_le_compat; lits; nra).
      replace (/ (x * x * (x * x) * (x * x * (x * x)))) with (10000000000000000000000000000000000000000 * (y * y * (y * y))) by (unfold y; field; lra).
      replace ((0.99999 * y) * (0.99999 * y) * ((0.99999 * y) * (0.99999 * y))) with (0.99999 ^ 4 * (y * y * (y * y))) in P4 by ring.
      assert (Z : 0 < y * y * (y * y)) by (repeat apply Rmult_lt_0_compat; lra). set (z := y * y * (y * y)) in *. clearbody z. set (w := q * q * (q * q)) in *. clearbody w. clear - P4 Z. lits. lra. }
    set (a3 := exp (- 20800000000000000000000000000000000000000000 * _)) in *. clearbody a3.
    assert (A4 : exp (- (x * 0.0382 + 0.1037 * / x)) <= exp (- (1 / Re) * (Re * (1 / 1620) * (Re * (1 / 1620)) + 10370))).
    { apply exp_le. rewrite E. replace (- (1 / (100000 * x)) * (100000 * x * (1 / 1620) * (100000 * x * (1 / 1620)) + 10370)) with (- (x * (100000 / 2624400)) - 0.1037 * / x) by (lits; field; lra). lits. lra. }
    set (a4 := exp (- (1 / Re) * (Re * (1 / 1620) * (Re * (1 / 1620)) + 10370))) in *. clearbody a4.
    assert (A5 : Re * (1 / 6530) * (Re * (1 / 6530)) * 0.000008 >= 0.001876 * (x * x)). { rewrite E. assert (0 < x * x) by nra. replace (100000 * x * (1 / 6530) * (100000 * x * (1 / 6530))) with (10000000000 / 42640900 * (x * x)) by field. set (xx := x * x) in *. clearbody xx. lits. lra. }
    set (a5 := Re * (1 / 6530) * (Re * (1 / 6530))) in *. clearbody a5. set (e1 := exp (- (2.0799 * / (x * x * (x * x) * (x * x * (x * x)))) * 1000)) in *. set (e2 := exp (- (x * 0.0382 + 0.1037 * / x))) in *. clearbody e1 e2. set (xx := x * x) in *. clearbody xx.
    clear - A1 A2 A3 A4 A5 T0 L6 K. lits. lra.
Qed.
(** the two correlations meet at the switch *)
Lemma quot4 d : 0 < d -> - 20800000000000000000000000000000000000000000 * (1 / d * (1 / d) * (1 / d * (1 / d)))
  = - 2080 / (d / 10000000000 * (d / 10000000000) * (d / 10000000000 * (d / 10000000000))).
Proof. intros. field. lra. Qed.
Lemma switch_jump : Rabs (barati 212963.26847812787 - barati_high 212963.26847812787) < 0.00000001.
Proof.
  unfold barati, barati_high, log10. rewrite !tanh_exp. rewrite quot4 by (lits; lra). apply Rabs_def1; itv 0%nat.
Qed.
