(** Finite sums over an initial segment of the naturals, on R: specification vocabulary. *)
From Coq Require Import List Reals Lra Lia Arith.
Import ListNotations.
Local Open Scope R_scope.

(** [Rsum f n = f 0 + f 1 + ... + f (n-1)] *)
Fixpoint Rsum (f : nat -> R) (n : nat) : R :=
  match n with O => 0 | S m => Rsum f m + f m end.

Lemma Rsum_ext f g n : (forall i, (i < n)%nat -> f i = g i) -> Rsum f n = Rsum g n.
Proof. induction n; simpl; intros H; auto. rewrite IHn, H; auto. Qed.
Lemma Rsum_plus f g n : Rsum (fun i => f i + g i) n = Rsum f n + Rsum g n.
Proof. induction n; simpl; [lra | rewrite IHn; lra]. Qed.
Lemma Rsum_minus f g n : Rsum (fun i => f i - g i) n = Rsum f n - Rsum g n.
Proof. induction n; simpl; [lra | rewrite IHn; lra]. Qed.
Lemma Rsum_scal c f n : Rsum (fun i => c * f i) n = c * Rsum f n.
Proof. induction n; simpl; [lra | rewrite IHn; lra]. Qed.
Lemma Rsum_scal_r c f n : Rsum (fun i => f i * c) n = Rsum f n * c.
Proof. induction n; simpl; [lra | rewrite IHn; lra]. Qed.
Lemma Rsum_0 n : Rsum (fun _ => 0) n = 0.
Proof. induction n; simpl; [lra | rewrite IHn; lra]. Qed.
Lemma Rsum_const c n : Rsum (fun _ => c) n = INR n * c.
Proof. induction n; [simpl; lra|]. rewrite S_INR; simpl; rewrite IHn; lra. Qed.
Lemma Rsum_zero f n : (forall i, (i < n)%nat -> f i = 0) -> Rsum f n = 0.
Proof. intros H. rewrite (Rsum_ext f (fun _ => 0)); auto. apply Rsum_0. Qed.
Lemma Rsum_head f n : Rsum f (S n) = f O + Rsum (fun i => f (S i)) n.
Proof. induction n; simpl in *; [lra | rewrite IHn; lra]. Qed.
Lemma Rsum_app f n m : Rsum f (n + m) = Rsum f n + Rsum (fun i => f (n + i)%nat) m.
Proof.
  induction m; simpl; [rewrite Nat.add_0_r; lra|].
  rewrite Nat.add_succ_r; simpl; rewrite IHm; lra.
Qed.
Lemma Rsum_swap f n m :
  Rsum (fun i => Rsum (fun j => f i j) m) n = Rsum (fun j => Rsum (fun i => f i j) n) m.
Proof.
  induction n; simpl; [symmetry; apply Rsum_0|].
  rewrite IHn, <- Rsum_plus. reflexivity.
Qed.
Lemma Rsum_rev f n : Rsum f n = Rsum (fun i => f (n - 1 - i)%nat) n.
Proof.
  revert f; induction n; intros f; auto.
  rewrite (Rsum_head (fun i => f (S n - 1 - i)%nat)). simpl Rsum at 1.
  rewrite IHn, Rplus_comm. f_equal; [f_equal; lia|].
  apply Rsum_ext; intros; f_equal; lia.
Qed.
Lemma Rsum_single f n k : (k < n)%nat -> (forall i, (i < n)%nat -> i <> k -> f i = 0) -> Rsum f n = f k.
Proof.
  induction n; intros Hk H; [lia|]. simpl.
  destruct (Nat.eq_dec k n) as [->|Hne].
  - rewrite Rsum_zero; [lra|]. intros; apply H; lia.
  - rewrite IHn; [|lia|intros; apply H; lia]. rewrite (H n); [lra | lia | lia].
Qed.
Lemma Rsum_le f g n : (forall i, (i < n)%nat -> f i <= g i) -> Rsum f n <= Rsum g n.
Proof. induction n; simpl; intros H; [lra|]. specialize (IHn (fun i h => H i (Nat.lt_lt_succ_r _ _ h))). specialize (H n (Nat.lt_succ_diag_r n)). lra. Qed.
Lemma Rsum_nonneg f n : (forall i, (i < n)%nat -> 0 <= f i) -> 0 <= Rsum f n.
Proof. intros H. rewrite <- (Rsum_0 n). apply Rsum_le; auto. Qed.
Lemma Rsum_opp f n : Rsum (fun i => - f i) n = - Rsum f n.
Proof. induction n; simpl; [lra | rewrite IHn; lra]. Qed.
Lemma Rsum_if_lt f n m : (m <= n)%nat ->
  Rsum (fun i => if Nat.ltb i m then f i else 0) n = Rsum f m.
Proof.
  intros H. replace n with (m + (n - m))%nat by lia. rewrite Rsum_app.
  rewrite (Rsum_ext _ f m), (Rsum_zero _ (n - m)); [lra| |].
  - intros i Hi. destruct (Nat.ltb_spec (m + i) m); auto; lia.
  - intros i Hi. destruct (Nat.ltb_spec i m); auto; lia.
Qed.

(** Sum of a list. *)
Fixpoint lsum (l : list R) : R := match l with [] => 0 | a :: t => a + lsum t end.
Lemma lsum_Rsum l : lsum l = Rsum (fun i => nth i l 0) (length l).
Proof.
  induction l as [|a l IH]; auto. simpl length. rewrite Rsum_head; simpl; rewrite IH; reflexivity.
Qed.
Lemma lsum_app l1 l2 : lsum (l1 ++ l2) = lsum l1 + lsum l2.
Proof. induction l1; simpl; [lra | rewrite IHl1; lra]. Qed.
Lemma lsum_map_scal c l : lsum (map (fun x => c * x) l) = c * lsum l.
Proof. induction l; simpl; [lra | rewrite IHl; lra]. Qed.
Lemma lsum_map_div c l : lsum (map (fun x => x / c) l) = lsum l / c.
Proof. induction l; simpl; [unfold Rdiv; lra | rewrite IHl; unfold Rdiv; lra]. Qed.
Lemma fold_left_Rplus l a : fold_left Rplus l a = a + lsum l.
Proof. revert a; induction l; simpl; intros; [lra | rewrite IHl; lra]. Qed.
