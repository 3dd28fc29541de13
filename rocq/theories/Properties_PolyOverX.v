(** Integral over x of a polynomial in the scaled variable (C04). *)
From Coq Require Import Reals Lra Lia List Arith QArith.
From Coquelicot Require Import Coquelicot.
From Verif Require Import Base Sums Spec_Poly Model_Poly Proofs_Poly Proofs_Poly2 Proofs_Poly3 Model_PolyOverX.
Import ListNotations.
Local Open Scope R_scope.

Lemma comb_above : forall n k, (n < k)%nat -> comb n k = O.
Proof. induction n; intros [|k] H; simpl; try lia. rewrite !IHn by lia. reflexivity. Qed.
Lemma binomial_sum o y : forall j N, (j < N)%nat -> Rsum (fun i => INR (comb j i) * y ^ i * o ^ (j - i)) N = (o + y) ^ j.
Proof.
  induction j as [|j IH]; intros N HN.
  - rewrite (Rsum_single _ N 0%nat); [simpl; ring|lia|]. intros [|i] _ Hi; [lia|]. simpl. ring.
  - destruct N as [|M]; [lia|]. rewrite Rsum_head.
    transitivity (y * Rsum (fun i => INR (comb j i) * y ^ i * o ^ (j - i)) M + o * Rsum (fun i => INR (comb j i) * y ^ i * o ^ (j - i)) (S M)).
    2:{ rewrite !IH by lia. simpl. ring. }
    rewrite (Rsum_head _ M). rewrite <- Rsum_scal. rewrite Rmult_plus_distr_l, <- Rsum_scal.
    rewrite <- Rplus_assoc, (Rplus_comm (Rsum _ M)), Rplus_assoc, <- Rsum_plus.
    f_equal.
    + destruct j; simpl; ring.
    + apply Rsum_ext. intros i Hi. cbn [comb]. rewrite plus_INR. replace (S j - S i)%nat with (j - i)%nat by lia.
      destruct (le_lt_dec (S i) j).
      * replace (j - i)%nat with (S (j - S i)) by lia. simpl. ring.
      * rewrite (comb_above j (S i)) by lia. simpl. ring.
Qed.
Lemma fold_Rsum (g : nat -> R) n : fold_left (fun acc i => acc + g i) (seq 0 n) 0 = Rsum g n.
Proof.
  assert (G : forall m s a, fold_left (fun acc i => acc + g i) (seq s m) a = a + Rsum (fun i => g (s + i)%nat) m).
  { induction m; intros s a; cbn [seq fold_left]; [simpl; ring|]. rewrite IHm. rewrite (Rsum_head _ m). replace (s + 0)%nat with s by lia.
    rewrite Rplus_assoc. do 2 f_equal. apply Rsum_ext. intros i _. f_equal. lia. }
  rewrite G. simpl. rewrite Rplus_0_l. reflexivity.
Qed.
Lemma derive_Rsum (t : nat -> R) n x : is_derive (fun y => Rsum (fun i => t i * y ^ i) n) x (Rsum (fun i => t i * (INR i * x ^ (i - 1))) n).
Proof.
  induction n; [apply (is_derive_const 0)|]. simpl. apply (is_derive_plus (fun y => Rsum (fun i => t i * y ^ i) n) (fun y => t n * y ^ n)); auto.
  replace (n - 1)%nat with (pred n) by lia. auto_derive; auto. ring.
Qed.

(** The polynomial given in the scaled variable (2 x - xmin - xmax) / (xmax - xmin), divided by x, is the derivative of what the returned
    coefficients mean to horner_log. *)
Theorem C04_polyint_over_x_stable cs xmin xmax x : xmin <> xmax -> 0 < x ->
  exists t l, polyint_over_x_stable cs xmin xmax = Ok (t, l) /\
    (forall y, 0 < y -> horner_log t l y = Ok (heval t y + l * ln y)) /\
    is_derive (fun y => heval t y + l * ln y) x (heval cs ((2 * x - xmin - xmax) / (xmax - xmin)) / x).
Proof.
  intros Hm Hx. unfold polyint_over_x_stable, polynomial_offset_scale. numR. rewrite pydivR_ok by lra. cbn [bind]. cbv zeta. numR.
  set (o := (- xmax - xmin) * (1 / (xmax - xmin))). set (s := Q2R 2%Q * (1 / (xmax - xmin))).
  assert (Hos : o + s * x = (2 * x - xmin - xmax) / (xmax - xmin)) by (unfold o, s, Q2R; simpl; field; lra).
  set (n := length cs). eexists _, _. split; [reflexivity|].
  split; [intros y Hy; unfold horner_log; rewrite plog_ok by auto; cbn [bind]; now rewrite horner_correct|].
  set (T := 0 :: map (fun i => polyint_over_x_stable_helper cs i n s o) (seq 1 (n - 1))).
  rewrite fold_Rsum. set (r j := nth j (rev cs) 0).
  set (a i := Rsum (fun j => INR (comb j i) * r j * o ^ (j - i)) n).
  set (t i := match i with O => 0 | S _ => s ^ i * a i / INR i end).
  assert (LT : length T = S (n - 1)) by (unfold T; simpl; now rewrite map_length, seq_length).
  assert (NT : forall i, (i < S (n - 1))%nat -> nth i T 0 = t i).
  { intros [|i] Hi; [reflexivity|]. unfold T. cbn [nth]. rewrite nth_indep with (d' := polyint_over_x_stable_helper cs 0 n s o) by (rewrite map_length, seq_length; lia).
    rewrite (map_nth (fun i => polyint_over_x_stable_helper cs i n s o)), seq_nth by lia. unfold polyint_over_x_stable_helper. rewrite fold_Rsum. reflexivity. }
  assert (HT : forall y, heval (rev T) y = Rsum (fun i => t i * y ^ i) (S (n - 1))).
  { intros y. rewrite heval_rev. unfold leval. rewrite LT. apply Rsum_ext. intros i Hi. now rewrite NT. }
  assert (A0 : Rsum (fun i => r i * o ^ i) n = a 0%nat).
  { apply Rsum_ext. intros j _. rewrite Nat.sub_0_r. destruct j; simpl; ring. }
  change (fun i => nth i (rev cs) 0 * o ^ i) with (fun i => r i * o ^ i). rewrite A0.
  apply (is_derive_ext (fun y => Rsum (fun i => t i * y ^ i) (S (n - 1)) + a 0%nat * ln y)); [intros y; now rewrite HT|].
  assert (V : heval cs ((2 * x - xmin - xmax) / (xmax - xmin)) = Rsum (fun i => s ^ i * a i * x ^ i) (S (n - 1))).
  { rewrite <- Hos, <- (leval_rev cs). unfold leval. rewrite rev_length. fold n. 
    transitivity (Rsum (fun j => Rsum (fun i => r j * (INR (comb j i) * (s * x) ^ i * o ^ (j - i))) (S (n - 1))) n).
    - apply Rsum_ext. intros j Hj. rewrite Rsum_scal, binomial_sum by lia. reflexivity.
    - rewrite Rsum_swap. apply Rsum_ext. intros i _. unfold a. rewrite <- Rsum_scal, <- Rsum_scal_r. apply Rsum_ext. intros j _. rewrite Rpow_mult_distr. ring. }
  assert (L : is_derive (fun y => a 0%nat * ln y) x (a 0%nat * / x)) by (auto_derive; [auto|ring]).
  pose proof (is_derive_plus _ _ _ _ _ (derive_Rsum t (S (n - 1)) x) L) as P.
  replace (heval cs ((2 * x - xmin - xmax) / (xmax - xmin)) / x) with (plus (Rsum (fun i => t i * (INR i * x ^ (i - 1))) (S (n - 1))) (a 0%nat * / x)); [exact P|].
  unfold plus; simpl AbelianGroup.sort. cbn [plus AbelianGroup.plus]. rewrite V. change (Rsum (fun i => t i * (INR i * x ^ (i - 1))) (S (n - 1)) + a 0%nat * / x = Rsum (fun i => s ^ i * a i * x ^ i) (S (n - 1)) / x).
  rewrite (Rsum_head _ (n - 1)), (Rsum_head (fun i => s ^ i * a i * x ^ i) (n - 1)).
  assert (Q : Rsum (fun i => s ^ S i * a (S i) * x ^ S i) (n - 1) = x * Rsum (fun i => t (S i) * (INR (S i) * x ^ (S i - 1))) (n - 1)).
  { rewrite <- Rsum_scal. apply Rsum_ext. intros i _. unfold t. replace (S i - 1)%nat with i by lia. rewrite <- (tech_pow_Rmult x). field. apply not_0_INR; lia. }
  rewrite Q. unfold t at 1. simpl INR at 1. simpl (_ ^ 0). field. lra.
Qed.
Theorem C04_polyint_over_x_stable_degenerate cs xm : polyint_over_x_stable cs xm xm = Err ZeroDivisionError.
Proof. unfold polyint_over_x_stable, polynomial_offset_scale. numR. replace (xm - xm) with 0 by ring. rewrite pydivR_0. reflexivity. Qed.
(** 2 u + 1 with u = x - 2 on [1, 3]: the antiderivative of (2 x - 3) / x is 2 x - 3 ln x *)
Example C04_polyint_over_x_stable_ex : exists t l, polyint_over_x_stable [2; 1] 1 3 = Ok (t, l) /\ t = [2; 0] /\ l = -3.
Proof.
  unfold polyint_over_x_stable, polynomial_offset_scale. numR. rewrite pydivR_ok by lra. cbn [bind]. cbv zeta. eexists _, _. split; [reflexivity|].
  cbn -[Rmult Rplus Rdiv Rminus Ropp Q2R]. numR. split.
  - apply (f_equal (fun u => [u; 0])). unfold polyint_over_x_stable_helper. simpl. unfold Q2R; simpl; field.
  - simpl. unfold Q2R; simpl; field.
Qed.

Print Assumptions C04_polyint_over_x_stable.
Print Assumptions C04_polyint_over_x_stable_degenerate.
