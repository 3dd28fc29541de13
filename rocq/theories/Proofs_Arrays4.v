(** Determinants, direct solvers, tridiagonal systems. *)
From Coq Require Import List Bool Reals Arith ZArith QArith Lra Lia.
From Verif Require Import Base Sums Spec_Mat Model_Arrays Proofs_LU Proofs_Arrays Proofs_Arrays2 Proofs_Arrays3.
Import ListNotations.
Local Open Scope R_scope.

Lemma is_mat_4 {A} (M : list (list A)) : is_mat 4 4 M ->
  exists a b c d e f g h i j k l m n o p, M = [[a; b; c; d]; [e; f; g; h]; [i; j; k; l]; [m; n; o; p]].
Proof.
  intros [L F]. destruct M as [|r1 [|r2 [|r3 [|r4 [|]]]]]; simpl in L; try lia.
  inversion F as [|? ? H1 F1]; subst. inversion F1 as [|? ? H2 F2]; subst. inversion F2 as [|? ? H3 F3]; subst.
  inversion F3 as [|? ? H4 F4]; subst.
  destruct r1 as [|? [|? [|? [|? [|]]]]]; simpl in H1; try lia.
  destruct r2 as [|? [|? [|? [|? [|]]]]]; simpl in H2; try lia.
  destruct r3 as [|? [|? [|? [|? [|]]]]]; simpl in H3; try lia.
  destruct r4 as [|? [|? [|? [|? [|]]]]]; simpl in H4; try lia.
  repeat eexists.
Qed.
Lemma is_mat_5 {A} (M : list (list A)) : is_mat 5 5 M ->
  exists a b c d e f g h i j k l m n o p q r s t u v w x y,
   M = [[a; b; c; d; e]; [f; g; h; i; j]; [k; l; m; n; o]; [p; q; r; s; t]; [u; v; w; x; y]].
Proof.
  intros [L F]. destruct M as [|r1 [|r2 [|r3 [|r4 [|r5 [|]]]]]]; simpl in L; try lia.
  inversion F as [|? ? H1 F1]; subst. inversion F1 as [|? ? H2 F2]; subst. inversion F2 as [|? ? H3 F3]; subst.
  inversion F3 as [|? ? H4 F4]; subst. inversion F4 as [|? ? H5 F5]; subst.
  destruct r1 as [|? [|? [|? [|? [|? [|]]]]]]; simpl in H1; try lia.
  destruct r2 as [|? [|? [|? [|? [|? [|]]]]]]; simpl in H2; try lia.
  destruct r3 as [|? [|? [|? [|? [|? [|]]]]]]; simpl in H3; try lia.
  destruct r4 as [|? [|? [|? [|? [|? [|]]]]]]; simpl in H4; try lia.
  destruct r5 as [|? [|? [|? [|? [|? [|]]]]]]; simpl in H5; try lia.
  repeat eexists.
Qed.

Lemma det_2 np M : is_mat 2 2 M -> det np M = Ok (DetNum (determinant 2 (ent M))).
Proof.
  intros H. destruct (is_mat_2 M H) as (a & b & c & d & ->). cbn [det]. do 2 f_equal.
  cbv [determinant Rsum minor ent nth Nat.ltb Nat.leb pow nadd nsub nmul NumR]. ring.
Qed.
Lemma det_3 np M : is_mat 3 3 M -> det np M = Ok (DetNum (determinant 3 (ent M))).
Proof.
  intros H. destruct (is_mat_3 M H) as (a & b & c & d & e & f & g & h & i & ->). cbn [det]. do 2 f_equal.
  cbv [determinant Rsum minor ent nth Nat.ltb Nat.leb pow nadd nsub nmul NumR]. ring.
Qed.
Lemma det_4 np M : is_mat 4 4 M -> det np M = Ok (DetNum (determinant 4 (ent M))).
Proof.
  intros H. destruct (is_mat_4 M H) as (a & b & c & d & e & f & g & h & i & j & k & l & m & n & o & p & ->).
  cbn [det]. do 2 f_equal. cbv [determinant Rsum minor ent nth Nat.ltb Nat.leb pow nadd nsub nmul NumR]. ring.
Qed.
Lemma det_5 np M : is_mat 5 5 M -> det np M = Ok (DetNum (determinant 5 (ent M))).
Proof.
  intros H. destruct (is_mat_5 M H) as (a & b & c & d & e & f & g & h & i & j & k & l & m & n & o & p & q & r & s & t & u & v & w & x & y & ->).
  cbn [det]. do 2 f_equal. cbv [determinant Rsum minor ent nth Nat.ltb Nat.leb pow nadd nsub nmul NumR]. ring.
Qed.

(** ** determinants and singularity *)
Definition prod2 (n : nat) (F G : nat -> nat -> R) : nat -> nat -> R :=
  fun i j => Rsum (fun k => F i k * G k j) n.
Lemma determinant_ext n F G : (forall i j, (i < n)%nat -> (j < n)%nat -> F i j = G i j) ->
  determinant n F = determinant n G.
Proof.
  revert F G. induction n; intros F G H; auto. cbn [determinant]. apply Rsum_ext. intros j Hj.
  rewrite H by lia. f_equal. apply IHn. intros i k Hi Hk. unfold minor. apply H; try lia.
  destruct (Nat.ltb k j); lia.
Qed.
Lemma det_mul_2 F G : determinant 2 (prod2 2 F G) = determinant 2 F * determinant 2 G.
Proof. cbv [determinant Rsum minor prod2 nth Nat.ltb Nat.leb pow]. ring. Qed.
Lemma det_mul_3 F G : determinant 3 (prod2 3 F G) = determinant 3 F * determinant 3 G.
Proof. cbv [determinant Rsum minor prod2 nth Nat.ltb Nat.leb pow]. ring. Qed.
Lemma det_delta n : determinant n delta = 1.
Proof.
  induction n; auto. cbn [determinant]. rewrite (Rsum_single _ (S n) 0); try lia.
  - rewrite (determinant_ext n (minor delta 0) delta).
    + rewrite IHn. unfold delta; simpl. ring.
    + intros i j _ _. unfold minor, delta. simpl. reflexivity.
  - intros j Hj Hn. unfold delta at 1. nb. ring.
Qed.

(** determinants vanish on singular matrices (2x2, 3x3) and only there *)
Lemma det_regular n M : (n = 2 \/ n = 3)%nat -> is_mat n n M -> ~ singular n M -> determinant n (ent M) <> 0.
Proof.
  intros Hn HM Hs. destruct (inv_total n M HM) as [[_ [X [_ (HX & R1 & _)]]]|[? _]]; [|contradiction].
  intros Z. assert (D : determinant n (prod2 n (ent M) (ent X)) = 1).
  { rewrite (determinant_ext n _ delta). apply det_delta. intros i j Hi Hj. apply R1; auto. }
  destruct Hn as [-> | ->]; [rewrite det_mul_2 in D | rewrite det_mul_3 in D]; rewrite Z in D; lra.
Qed.
Lemma det_singular n M : (n = 2 \/ n = 3)%nat -> is_mat n n M -> singular n M -> determinant n (ent M) = 0.
Proof.
  intros [-> | ->] HM [x [Lx [[k [Hk Nk]] Hz]]].
  - destruct (is_mat_2 M HM) as (a & b & c & d & ->).
    pose proof (Hz 0%nat ltac:(lia)) as Z0. pose proof (Hz 1%nat ltac:(lia)) as Z1.
    unfold ent in Z0, Z1; simpl in Z0, Z1. rewrite Rplus_0_l in Z0, Z1.
    set (D := determinant 2 _).
    assert (ED : D = a * d - b * c) by (unfold D; cbv [determinant Rsum minor ent nth Nat.ltb Nat.leb pow]; ring).
    assert (V0 : D * vent x 0 = 0).
    { transitivity (d * (a * vent x 0 + b * vent x 1) - b * (c * vent x 0 + d * vent x 1)); [rewrite ED; ring|].
      rewrite Z0, Z1. ring. }
    assert (V1 : D * vent x 1 = 0).
    { transitivity (a * (c * vent x 0 + d * vent x 1) - c * (a * vent x 0 + b * vent x 1)); [rewrite ED; ring|].
      rewrite Z0, Z1. ring. }
    apply Rmult_integral in V0, V1. lt_cases Hk k; tauto.
  - destruct (is_mat_3 M HM) as (a & b & c & d & e & f & g & h & i & ->).
    pose proof (Hz 0%nat ltac:(lia)) as Z0. pose proof (Hz 1%nat ltac:(lia)) as Z1.
    pose proof (Hz 2%nat ltac:(lia)) as Z2.
    unfold ent in Z0, Z1, Z2; simpl in Z0, Z1, Z2. rewrite Rplus_0_l in Z0, Z1, Z2.
    set (D := determinant 3 _).
    assert (ED : D = a * (e * i - f * h) - b * (d * i - f * g) + c * (d * h - e * g))
      by (unfold D; cbv [determinant Rsum minor ent nth Nat.ltb Nat.leb pow]; ring).
    assert (V0 : D * vent x 0 = 0).
    { transitivity ((e * i - f * h) * (a * vent x 0 + b * vent x 1 + c * vent x 2)
        - (b * i - c * h) * (d * vent x 0 + e * vent x 1 + f * vent x 2)
        + (b * f - c * e) * (g * vent x 0 + h * vent x 1 + i * vent x 2)); [rewrite ED; ring|].
      rewrite Z0, Z1, Z2. ring. }
    assert (V1 : D * vent x 1 = 0).
    { transitivity (- (d * i - f * g) * (a * vent x 0 + b * vent x 1 + c * vent x 2)
        + (a * i - c * g) * (d * vent x 0 + e * vent x 1 + f * vent x 2)
        - (a * f - c * d) * (g * vent x 0 + h * vent x 1 + i * vent x 2)); [rewrite ED; ring|].
      rewrite Z0, Z1, Z2. ring. }
    assert (V2 : D * vent x 2 = 0).
    { transitivity ((d * h - e * g) * (a * vent x 0 + b * vent x 1 + c * vent x 2)
        - (a * h - b * g) * (d * vent x 0 + e * vent x 1 + f * vent x 2)
        + (a * e - b * d) * (g * vent x 0 + h * vent x 1 + i * vent x 2)); [rewrite ED; ring|].
      rewrite Z0, Z1, Z2. ring. }
    apply Rmult_integral in V0, V1, V2. lt_cases Hk k; tauto.
Qed.

(** ** direct solvers *)
Lemma pydivR_inv (x y q : R) : pydiv x y = Ok q -> y <> 0 /\ q = x / y.
Proof.
  unfold pydiv. numR. rcase; [discriminate|]. intros [= <-]. split; auto.
Qed.
Lemma solve_2_direct_ok a b c d e f x : solve_2_direct a b c d e f = Ok x ->
  solves 2 2 [[a; b]; [c; d]] x [e; f].
Proof.
  unfold solve_2_direct. intros E. inv_bind E. apply pydivR_inv in E0. numR. destruct E0 as [N ->].
  injection E as <-. split; auto. intros i Hi. lt_cases Hi i; unfold ent, vent; simpl; field; auto.
Qed.
Lemma solve_2_direct_err a b c d e f er : solve_2_direct a b c d e f = Err er ->
  er = ZeroDivisionError /\ singular 2 [[a; b]; [c; d]].
Proof.
  unfold solve_2_direct. unfold pydiv. numR. rcase; simpl; [|discriminate]. intros [= <-]. split; auto.
  assert (HM : is_mat 2 2 [[a; b]; [c; d]]) by (split; auto).
  destruct (inv_lu_total 2 _ HM) as [[Hs _]|[? _]]; auto. exfalso.
  apply (det_regular 2 _ (or_introl eq_refl) HM Hs).
  transitivity (a * d - b * c); auto.
  cbv [determinant Rsum minor ent nth Nat.ltb Nat.leb pow]. ring.
Qed.
Lemma solve_3_direct_ok a b c d e f g h i j k l x : solve_3_direct a b c d e f g h i j k l = Ok x ->
  solves 3 3 [[a; b; c]; [d; e; f]; [g; h; i]] x [j; k; l].
Proof.
  unfold solve_3_direct. numR. cbv zeta. intros E. inv_bind E. inv_bind E. inv_bind E.
  apply pydivR_inv in E0, E1, E2. destruct E0 as [N0 ->], E1 as [N1 ->], E2 as [N2 ->].
  injection E as <-. split; auto.
  intros i' Hi. lt_cases Hi i'; unfold ent, vent; cbn [Rsum nth]; field; splits; auto.
Qed.
Lemma solve_4_direct_ok a b c d e f g h i j k l m n o p q r s t x :
  solve_4_direct a b c d e f g h i j k l m n o p q r s t = Ok x ->
  solves 4 4 [[a; b; c; d]; [e; f; g; h]; [i; j; k; l]; [m; n; o; p]] x [q; r; s; t].
Proof.
  unfold solve_4_direct. numR. cbv zeta. intros E. inv_bind E. inv_bind E. inv_bind E. inv_bind E.
  apply pydivR_inv in E0, E1, E2, E3. destruct E0 as [N0 ->], E1 as [N1 ->], E2 as [N2 ->], E3 as [N3 ->].
  injection E as <-. split; auto.
  intros i' Hi. 
  assert (H' : (i' = 0 \/ i' = 1 \/ i' = 2 \/ i' = 3)%nat) by lia; destruct H' as [-> | [-> | [-> | ->]]];
  unfold ent, vent; cbn [Rsum nth]; field; splits; auto.
Qed.
(** the permutation matrix below is its own inverse, yet the direct solver divides by zero *)
Lemma solve_3_direct_incomplete :
  two_sided 3 [[0; 1; 0]; [1; 0; 0]; [0; 0; 1]] [[0; 1; 0]; [1; 0; 0]; [0; 0; 1]] /\
  solve_3_direct 0 1 0 1 0 0 0 0 1 1 2 3 = Err ZeroDivisionError.
Proof.
  split.
  - split; [split; auto|]. split; intros i j Hi Hj; lt_cases Hi i; lt_cases Hj j; unfold ent, delta; simpl; ring.
  - unfold solve_3_direct. numR. cbv zeta.
    replace ((- (1) * 1 + 0 * 0) * (0 * 1 - 0 * 0) - (0 * 0 - 0 * 1) * (0 * 0 - 1 * 0)) with 0 by ring.
    now rewrite pydivR_0.
Qed.
