(** The comparison helpers for nested lists (C116). *)
From Coq Require Import Reals Lra Lia List Bool Arith.
From Verif Require Import Base Model_Numerics Proofs_Seq Model_AssertClose.
Import ListNotations.
Open Scope R_scope.

(** two numbers agree: within the relative tolerance of the first, or within the sum of the tolerances of the second *)
Definition within (rtol atol a b : R) : Prop := Rabs (a - b) <= rtol * Rabs a \/ Rabs (a - b) <= atol + rtol * Rabs b.

Lemma Forall2_length {A B} (P : A -> B -> Prop) a b : Forall2 P a b -> length a = length b.
Proof. induction 1; simpl; congruence. Qed.
Lemma isclose_real a b rtol atol : 0 <= rtol -> 0 <= atol -> exists r, isclose a b rtol atol = Ok r /\
  (r = true <-> Rabs (a - b) <= Rmax (rtol * Rmax (Rabs a) (Rabs b)) atol).
Proof. intros. apply isclose_ok; assumption. Qed.
Lemma isclose_within a b rtol atol : 0 <= rtol -> 0 <= atol -> Rabs (a - b) <= Rmax (rtol * Rmax (Rabs a) (Rabs b)) atol -> within rtol atol a b.
Proof.
  intros H1 H2 H. pose proof (Rabs_pos b) as Pb. assert (0 <= rtol * Rabs b) by (apply Rmult_le_pos; assumption). unfold within.
  revert H. unfold Rmax. destruct (Rle_dec (Rabs a) (Rabs b)); destruct (Rle_dec _ atol); intros; [right|right|right|left]; lra.
Qed.
Lemma far_not_left a b rtol atol : ~ Rabs (a - b) <= Rmax (rtol * Rmax (Rabs a) (Rabs b)) atol -> 0 <= rtol -> rtol * Rabs a < Rabs (a - b) /\ rtol * Rabs b < Rabs (a - b) /\ atol < Rabs (a - b).
Proof.
  intros H Hr. apply Rnot_le_lt in H. pose proof (Rmax_l (rtol * Rmax (Rabs a) (Rabs b)) atol). pose proof (Rmax_r (rtol * Rmax (Rabs a) (Rabs b)) atol).
  pose proof (Rmult_le_compat_l rtol _ _ Hr (Rmax_l (Rabs a) (Rabs b))). pose proof (Rmult_le_compat_l rtol _ _ Hr (Rmax_r (Rabs a) (Rabs b))). lra.
Qed.

Theorem C116_number : forall a b rtol atol, 0 <= rtol -> 0 <= atol ->
  (within rtol atol a b -> assert_close a b rtol atol = Ok tt) /\ (~ within rtol atol a b -> assert_close a b rtol atol = Err AssertionError).
Proof.
  intros a b rtol atol H1 H2. unfold assert_close. destruct (isclose_real a b rtol atol H1 H2) as (r & -> & Hr). destruct r.
  - split; [reflexivity|]. intros N. exfalso. apply N, isclose_within; try assumption. now apply Hr.
  - assert (N : ~ Rabs (a - b) <= Rmax (rtol * Rmax (Rabs a) (Rabs b)) atol) by (intro X; apply Hr in X; discriminate).
    apply far_not_left in N; [|exact H1]. unfold assert_allclose. split; intros W.
    + destruct W as [W|W]; [lra|]. rewrite (proj2 (Rleb_true _ _)) by exact W. reflexivity.
    + assert (Z : ~ Rabs (a - b) <= atol + rtol * Rabs b) by (intro X; apply W; right; exact X). rewrite (proj2 (Rleb_false _ _)) by lra. reflexivity.
Qed.
Lemma within_dec rtol atol a b : within rtol atol a b \/ ~ within rtol atol a b.
Proof. unfold within. destruct (Rle_dec (Rabs (a - b)) (rtol * Rabs a)); [tauto|]. destruct (Rle_dec (Rabs (a - b)) (atol + rtol * Rabs b)); tauto. Qed.

(** lists: accepted exactly when they are equally long and agree entry by entry *)
Theorem C116_list : forall rtol atol a b, 0 <= rtol -> 0 <= atol ->
  (assert_close1d rtol atol a b = Ok tt <-> Forall2 (within rtol atol) a b) /\
  (length a <> length b -> assert_close1d rtol atol a b = Err ValueError) /\
  (length a = length b -> ~ Forall2 (within rtol atol) a b -> assert_close1d rtol atol a b = Err AssertionError).
Proof.
  intros rtol atol a b H1 H2.
  assert (G : length a = length b -> (close1d_loop rtol atol a b = Ok tt /\ Forall2 (within rtol atol) a b) \/ (close1d_loop rtol atol a b = Err AssertionError /\ ~ Forall2 (within rtol atol) a b)).
  { revert b. induction a as [|x a IH]; intros [|y b] L; try discriminate; cbn [close1d_loop]; [left; split; [reflexivity|constructor]|].
    destruct (C116_number x y rtol atol H1 H2) as [A B]. destruct (within_dec rtol atol x y) as [W|W].
    - rewrite (A W). cbn [bind]. destruct (IH b ltac:(simpl in L; lia)) as [[E F]|[E F]]; [left|right]; (split; [exact E|]); [constructor; assumption|]. intro X. inversion X; subst. contradiction.
    - right. rewrite (B W). split; [reflexivity|]. intro X. inversion X; subst. contradiction. }
  unfold assert_close1d. destruct (Nat.eqb_spec (length a) (length b)) as [L|L]; cbn [negb].
  - destruct (G L) as [[E F]|[E F]]; rewrite E; (split; [|split]); try (intros; congruence); try (split; intros; try assumption; try reflexivity; try congruence; contradiction); intros; contradiction.
  - split; [|split; [reflexivity|intros; contradiction]]. split; [discriminate|]. intros X. apply Forall2_length in X. contradiction.
Qed.

(** tables: agreement is never rejected *)
Lemma row_accepts rtol atol a b : 0 <= rtol -> 0 <= atol -> Forall2 (within rtol atol) a b -> exists r, close2d_row rtol atol a b = Ok r.
Proof.
  intros H1 H2 F. induction F as [|x y a b W F IH]; cbn [close2d_row]; [eexists; reflexivity|].
  destruct (isclose_real x y rtol atol H1 H2) as (r & -> & Hr). cbv zeta. destruct r; cbn [negb]; [exact IH|].
  assert (N : ~ Rabs (x - y) <= Rmax (rtol * Rmax (Rabs x) (Rabs y)) atol) by (intro X; apply Hr in X; discriminate). apply far_not_left in N; [|exact H1].
  destruct W as [W|W]; [lra|]. unfold assert_allclose. rewrite (proj2 (Rleb_true _ _)) by exact W. eexists. reflexivity.
Qed.
Lemma rows_accept rtol atol a b : 0 <= rtol -> 0 <= atol -> Forall2 (Forall2 (within rtol atol)) a b -> assert_close2d rtol atol a b = Ok tt.
Proof.
  intros H1 H2 F. unfold assert_close2d. rewrite (Forall2_length _ _ _ F), Nat.eqb_refl. cbn [negb]. induction F as [|x y a b W F IH]; cbn [close2d_loop]; [reflexivity|].
  rewrite (Forall2_length _ _ _ W), Nat.eqb_refl. cbn [negb]. destruct (row_accepts rtol atol x y H1 H2 W) as [[|] ->]; cbn [bind]; [reflexivity|exact IH].
Qed.
Theorem C116_table_accepts : forall rtol atol, 0 <= rtol -> 0 <= atol ->
  (forall a b, Forall2 (Forall2 (within rtol atol)) a b -> assert_close2d rtol atol a b = Ok tt) /\
  (forall a b, Forall2 (Forall2 (Forall2 (within rtol atol))) a b -> assert_close3d rtol atol a b = Ok tt) /\
  (forall a b, Forall2 (Forall2 (Forall2 (Forall2 (within rtol atol)))) a b -> assert_close4d rtol atol a b = Ok tt).
Proof.
  intros rtol atol H1 H2. assert (L3 : forall a b, Forall2 (Forall2 (Forall2 (within rtol atol))) a b -> close3d_loop rtol atol a b = Ok tt).
  { intros a b F. induction F as [|x y a b W F IH]; cbn [close3d_loop]; [reflexivity|]. rewrite rows_accept by assumption. exact IH. }
  split; [intros; now apply rows_accept|]. split; intros a b F.
  - unfold assert_close3d. rewrite (Forall2_length _ _ _ F), Nat.eqb_refl. apply L3, F.
  - unfold assert_close4d. rewrite (Forall2_length _ _ _ F), Nat.eqb_refl. cbn [negb]. induction F as [|x y a b W F IH]; cbn [close4d_loop]; [reflexivity|].
    rewrite (Forall2_length _ _ _ W), Nat.eqb_refl. cbn [negb]. rewrite (L3 _ _ W). exact IH.
Qed.
(** with one of the tolerances 0 the two tests are the same, and only agreement is accepted *)
Lemma row_exact rtol atol a b : 0 <= rtol -> 0 <= atol -> rtol = 0 \/ atol = 0 -> length a = length b ->
  forall r, close2d_row rtol atol a b = Ok r -> r = false /\ Forall2 (within rtol atol) a b.
Proof.
  intros H1 H2 Z. revert b. induction a as [|x a IH]; intros [|y b] L r; try discriminate; cbn [close2d_row]; [intros E; injection E as <-; split; [reflexivity|constructor]|].
  destruct (isclose_real x y rtol atol H1 H2) as (g & -> & Hg). cbv zeta. destruct g; cbn [negb]; intros E.
  - destruct (IH b ltac:(simpl in L; lia) r E) as [-> F]. split; [reflexivity|]. constructor; [|exact F]. apply isclose_within; try assumption. now apply Hg.
  - exfalso. assert (N : ~ Rabs (x - y) <= Rmax (rtol * Rmax (Rabs x) (Rabs y)) atol) by (intro X; apply Hg in X; discriminate). apply far_not_left in N; [|exact H1].
    unfold assert_allclose in E. rewrite (proj2 (Rleb_false _ _)) in E; [discriminate|]. destruct Z as [-> | ->]; lra.
Qed.
Lemma rows_exact rtol atol a b : 0 <= rtol -> 0 <= atol -> rtol = 0 \/ atol = 0 -> assert_close2d rtol atol a b = Ok tt -> Forall2 (Forall2 (within rtol atol)) a b.
Proof.
  intros H1 H2 Z. unfold assert_close2d. destruct (Nat.eqb_spec (length a) (length b)) as [L|L]; cbn [negb]; [|discriminate].
  revert b L. induction a as [|x a IH]; intros [|y b] L; try discriminate; cbn [close2d_loop]; [constructor|].
  destruct (Nat.eqb_spec (length x) (length y)) as [L2|L2]; cbn [negb]; [|discriminate]. intros E. inv_bind E. destruct (row_exact rtol atol x y H1 H2 Z L2 _ E0) as [-> F].
  constructor; [exact F|]. apply IH; [simpl in L; lia|exact E].
Qed.
Theorem C116_table_exact : forall rtol atol, 0 <= rtol -> 0 <= atol -> rtol = 0 \/ atol = 0 ->
  (forall a b, assert_close2d rtol atol a b = Ok tt -> Forall2 (Forall2 (within rtol atol)) a b) /\
  (forall a b, assert_close3d rtol atol a b = Ok tt -> Forall2 (Forall2 (Forall2 (within rtol atol))) a b) /\
  (forall a b, assert_close4d rtol atol a b = Ok tt -> Forall2 (Forall2 (Forall2 (Forall2 (within rtol atol)))) a b).
Proof.
  intros rtol atol H1 H2 Z. assert (L3 : forall a b, length a = length b -> close3d_loop rtol atol a b = Ok tt -> Forall2 (Forall2 (Forall2 (within rtol atol))) a b).
  { induction a as [|x a IH]; intros [|y b] L; try discriminate; cbn [close3d_loop]; [constructor|]. intros E. inv_bind E. destruct v. constructor; [now apply rows_exact|]. apply IH; [simpl in L; lia|exact E]. }
  split; [intros; now apply rows_exact|]. split; intros a b.
  - unfold assert_close3d. destruct (Nat.eqb_spec (length a) (length b)) as [L|L]; cbn [negb]; [|discriminate]. apply L3, L.
  - unfold assert_close4d. destruct (Nat.eqb_spec (length a) (length b)) as [L|L]; cbn [negb]; [|discriminate].
    revert b L. induction a as [|x a IH]; intros [|y b] L; try discriminate; cbn [close4d_loop]; [constructor|].
    destruct (Nat.eqb_spec (length x) (length y)) as [L2|L2]; cbn [negb]; [|discriminate]. intros E. inv_bind E. destruct v. constructor; [now apply L3|]. apply IH; [simpl in L; lia|exact E].
Qed.
(** Full claim: [assert_close2d rtol atol a b = Ok tt -> Forall2 (Forall2 (within rtol atol)) a b].  It fails when both tolerances are positive: an
    entry that passes numpy's looser test only ends the whole comparison, so later entries are never looked at, whatever they are. *)
Theorem C116_table_refuted : forall x y (a b : list (list R)), length a = length b ->
  assert_close2d (1 / 10) (1 / 10) ([23 / 20; x] :: a) ([1; y] :: b) = Ok tt.
Proof.
  intros x y a b L. unfold assert_close2d. cbn [length]. rewrite L, Nat.eqb_refl. cbn [negb close2d_loop length Nat.eqb close2d_row].
  destruct (isclose_real (23 / 20) 1 (1 / 10) (1 / 10) ltac:(lra) ltac:(lra)) as (r & -> & Hr). cbv zeta.
  assert (A : Rabs (23 / 20 - 1) = 3 / 20) by (rewrite Rabs_pos_eq; lra). assert (A1 : Rabs 1 = 1) by apply Rabs_R1. assert (A2 : Rabs (23 / 20) = 23 / 20) by (apply Rabs_pos_eq; lra).
  rewrite A, A1, A2 in Hr. rewrite (Rmax_left (23 / 20) 1) in Hr by lra. rewrite Rmax_left in Hr by lra. destruct r; [exfalso; destruct Hr as [Hr _]; specialize (Hr eq_refl); lra|]. cbn [negb].
  unfold assert_allclose. rewrite A, A1. rewrite (proj2 (Rleb_true _ _)) by lra. reflexivity.
Qed.
(** a negative tolerance makes the table version accept any numbers *)
Theorem C116_negative_refuted : forall rtol atol a b, rtol < 0 \/ atol < 0 -> Forall2 (fun x y : list R => length x = length y) a b -> assert_close2d rtol atol a b = Ok tt.
Proof.
  intros rtol atol a b N F. unfold assert_close2d. rewrite (Forall2_length _ _ _ F), Nat.eqb_refl. cbn [negb].
  assert (G : forall x y, close2d_row rtol atol x y = Ok false). { induction x as [|p x IH]; intros [|q y]; cbn [close2d_row]; try reflexivity. rewrite isclose_err by exact N. cbn [negb]. apply IH. }
  induction F as [|x y a b W F IH]; cbn [close2d_loop]; [reflexivity|]. rewrite W, Nat.eqb_refl. cbn [negb]. rewrite G. exact IH.
Qed.
Example C116_ex : assert_close1d (1 / 10) 0 [10; 20] [10; 21] = Ok tt /\ assert_close1d (1 / 10) 0 [10; 20] [10; 30] = Err AssertionError /\
  assert_close1d (1 / 10) 0 [10] [10; 30] = Err ValueError /\ assert_close2d (1 / 10) 0 [[10; 20]] [[10; 21]] = Ok tt.
Proof.
  assert (W : Forall2 (within (1 / 10) 0) [10; 20] [10; 21]).
  { constructor; [|constructor; [|constructor]]; right; [rewrite Rminus_diag_eq, Rabs_R0, Rabs_pos_eq by lra|rewrite Rabs_minus_sym, !Rabs_pos_eq by lra]; lra. }
  split; [|split; [|split]].
  - now apply (C116_list (1 / 10) 0 [10; 20] [10; 21] ltac:(lra) ltac:(lra)).
  - apply (C116_list (1 / 10) 0 [10; 20] [10; 30] ltac:(lra) ltac:(lra)); [reflexivity|]. intro F. inversion F; subst. inversion H4; subst. destruct H3 as [H|H]; rewrite Rabs_minus_sym, !Rabs_pos_eq in H by lra; lra.
  - reflexivity.
  - apply (C116_table_accepts (1 / 10) 0); [lra|lra|]. constructor; [exact W|constructor].
Qed.

Print Assumptions C116_number.
Print Assumptions C116_list.
Print Assumptions C116_table_accepts.
Print Assumptions C116_table_exact.
Print Assumptions C116_table_refuted.
Print Assumptions C116_negative_refuted.
