(** lu, closed forms, products, tridiagonal systems, sorting. *)
From Coq Require Import List Bool Reals Arith ZArith QArith Lra Lia Permutation Sorting.Sorted.
From Verif Require Import Base Sums Spec_Mat Model_Arrays Proofs_LU Proofs_Arrays.
Import ListNotations.
Local Open Scope R_scope.

Lemma perm_of_inj p j i i' : perm_of p j i = perm_of p j i' -> i = i'.
Proof.
  revert i i'. induction j; simpl; auto. intros i i' H. apply IHj in H.
  rewrite <- (sw_sw j (p j) i), H. apply sw_sw.
Qed.

Lemma lu_total n M : is_mat n n M ->
  (~ singular n M /\ exists P L U (s : nat -> nat),
     lu M = Ok (P, L, U) /\ is_mat n n P /\ is_mat n n L /\ is_mat n n U /\
     (forall i, (i < n)%nat -> (s i < n)%nat) /\
     (forall i i', (i < n)%nat -> (i' < n)%nat -> s i = s i' -> i = i') /\
     (forall i j, (i < n)%nat -> (j < n)%nat -> ent P i j = delta (s i) j) /\
     (forall i j, (i < n)%nat -> (j < n)%nat -> (i < j)%nat -> ent L i j = 0) /\
     (forall i, (i < n)%nat -> ent L i i = 1) /\
     (forall i j, (i < n)%nat -> (j < n)%nat -> (j < i)%nat -> ent U i j = 0) /\
     (forall i, (i < n)%nat -> ent U i i <> 0) /\
     (forall i j, (i < n)%nat -> (j < n)%nat ->
        Rsum (fun k => ent P i k * ent M k j) n = Rsum (fun k => ent L i k * ent U k j) n)) \/
  (singular n M /\ lu M = Err ValueError).
Proof.
  intros HM. unfold lu. destruct HM as [LM FM] eqn:EHM. rewrite LM.
  rewrite (short_row_false n) by auto.
  destruct (LU_total n M) as [[[M' piv] [E Hs]]|[E Hs]]; rewrite E; cbn [bind]; [left | right; auto].
  split; auto. apply inplace_LU_ok in E. pose proof E as [Ip Ih Il Id].
  rewrite !to_rows_mk.
  do 3 eexists. exists (perm_of piv n). split; [reflexivity|].
  rewrite n0R, n1R.
  splits; try apply mk_mat.
  - intros i Hi. apply perm_of_lt; auto.
  - intros i i' _ _. apply perm_of_inj.
  - intros i j Hi Hj. rewrite mk_ent by auto. apply lu_P_spec; auto.
  - intros i j Hi Hj Hij. rewrite mk_ent by auto. nb. auto.
  - intros i Hi. rewrite mk_ent by auto. nb. auto.
  - intros i j Hi Hj Hij. rewrite mk_ent by auto. nb. auto.
  - intros i Hi. rewrite mk_ent by auto. nb. apply Id; auto.
  - intros i j Hi Hj.
    rewrite (Rsum_ext (fun k => ent (mk n n _) i k * ent (mk n n _) k j) (fun k => Lf M' i k * Uf M' k j)).
    2:{ intros k Hk. rewrite !mk_ent by auto. reflexivity. }
    rewrite (LU_product n (of_rows M)) with (piv := piv) by auto.
    rewrite (Rsum_single _ n (perm_of piv n i)).
    + rewrite mk_ent by (auto; apply perm_of_lt; auto). rewrite lu_P_spec by auto.
      unfold delta. rewrite Nat.eqb_refl. unfold of_rows. rewrite mat_at_ent. ring.
    + apply perm_of_lt; auto.
    + intros k Hk Hn. rewrite mk_ent by auto. rewrite lu_P_spec by auto. unfold delta. nb. ring.
Qed.

(** ** inv, solve *)
Ltac row2 r H := destruct r as [|? [|? [|]]]; simpl in H; try lia.
Lemma is_mat_2 {A} (M : list (list A)) : is_mat 2 2 M -> exists a b c d, M = [[a; b]; [c; d]].
Proof.
  intros [L F]. destruct M as [|r1 [|r2 [|]]]; simpl in L; try lia.
  inversion F as [|? ? H1 F1]; subst. inversion F1 as [|? ? H2 F2]; subst.
  destruct r1 as [|? [|? [|]]]; simpl in H1; try lia. destruct r2 as [|? [|? [|]]]; simpl in H2; try lia.
  repeat eexists.
Qed.
Lemma is_mat_3 {A} (M : list (list A)) : is_mat 3 3 M ->
  exists a b c d e f g h i, M = [[a; b; c]; [d; e; f]; [g; h; i]].
Proof.
  intros [L F]. destruct M as [|r1 [|r2 [|r3 [|]]]]; simpl in L; try lia.
  inversion F as [|? ? H1 F1]; subst. inversion F1 as [|? ? H2 F2]; subst. inversion F2 as [|? ? H3 F3]; subst.
  destruct r1 as [|? [|? [|? [|]]]]; simpl in H1; try lia.
  destruct r2 as [|? [|? [|? [|]]]]; simpl in H2; try lia.
  destruct r3 as [|? [|? [|? [|]]]]; simpl in H3; try lia.
  repeat eexists.
Qed.
Lemma inv_tol_pos : 0 < @inv_tol R _.
Proof. unfold inv_tol; simpl. unfold Q2R; simpl. lra. Qed.
Lemma abs_le_tol x : Rabs x > @inv_tol R _ -> x <> 0.
Proof. intros H ->. rewrite Rabs_R0 in H. pose proof inv_tol_pos. lra. Qed.

Ltac small_ij n :=
  match goal with
  | H : (?i < _)%nat |- _ => is_var i; do n (destruct i as [|i]; [| try (exfalso; lia)])
  end.

Lemma is_mat_cons3 a b c d e f g h i : @is_mat R 3 3 [[a; b; c]; [d; e; f]; [g; h; i]].
Proof. split; auto. Qed.

Ltac lt_cases H i :=
  match type of H with
  | (i < 1)%nat => assert (i = 0)%nat by lia; subst i
  | (i < 2)%nat => let H' := fresh in assert (H' : (i = 0 \/ i = 1)%nat) by lia; destruct H' as [-> | ->]
  | (i < 3)%nat => let H' := fresh in assert (H' : (i = 0 \/ i = 1 \/ i = 2)%nat) by lia;
      destruct H' as [-> | [-> | ->]]
  end.

Lemma inv_total n M : is_mat n n M ->
  (~ singular n M /\ exists X, inv M = Ok X /\ two_sided n M X) \/
  (singular n M /\ inv M = Err (if Nat.eqb n 1 then ZeroDivisionError else ValueError)).
Proof.
  intros HM.
  assert (D : (n = 1 \/ n = 2 \/ n = 3 \/ (n <> 1 /\ n <> 2 /\ n <> 3))%nat) by lia.
  destruct D as [-> | [-> | [-> | (N1 & N2 & N3)]]].
  - destruct HM as [L F]. destruct M as [|r1 [|]]; simpl in L; try lia.
    inversion F as [|? ? H1 F1]; subst. destruct r1 as [|a [|]]; simpl in H1; try lia.
    cbn [inv]. destruct (Req_dec a 0) as [->|Ha].
    + right. rewrite pydivR_0. split; auto. exists [1]. split; auto. split.
      * exists 0%nat. split; auto. unfold vent; simpl; lra.
      * intros i Hi. lt_cases Hi i. unfold ent, vent; simpl. ring.
    + left. rewrite pydivR_ok by auto. cbn [bind].
      assert (T : two_sided 1 [[a]] [[@n1 R _ / a]]).
      { rewrite n1R. split; [split; auto|]. split; intros i j Hi Hj; lt_cases Hi i; lt_cases Hj j;
        unfold ent, delta; simpl; field; auto. }
      split; [eapply two_sided_regular; eauto | eauto].
  - destruct (is_mat_2 M HM) as (a & b & c & d & ->). cbn [inv]. numR.
    rcase; [apply inv_lu_total; auto|]. apply abs_le_tol in Hb. left.
    rewrite pydivR_ok by auto. cbn [bind].
    match goal with |- context [Ok ?X] => assert (T : two_sided 2 [[a; b]; [c; d]] X) end.
    { split; [split; auto|]. split; intros i j Hi Hj; lt_cases Hi i; lt_cases Hj j;
      unfold ent, delta; simpl; field; auto. }
    split; [eapply two_sided_regular; eauto | eauto].
  - destruct (is_mat_3 M HM) as (a & b & c & d & e & f & g & h & i & ->). cbn [inv]. numR.
    rcase; [apply inv_lu_total; auto|]. apply abs_le_tol in Hb. left.
    rewrite pydivR_ok by auto. cbn [bind].
    match goal with |- context [Ok ?X] => assert (T : two_sided 3 [[a; b; c]; [d; e; f]; [g; h; i]] X) end.
    { split; [split; auto|]. split; intros i' j' Hi Hj; lt_cases Hi i'; lt_cases Hj j';
      unfold ent, delta; simpl; field; auto. }
    split; [eapply two_sided_regular; eauto | eauto].
  - replace (inv M) with (inv_lu M).
    2:{ destruct HM as [L _]. destruct M as [|? [|? [|? [|? ?]]]]; simpl in L; try lia; reflexivity. }
    rewrite (proj2 (Nat.eqb_neq n 1) N1). apply inv_lu_total; auto.
Qed.

Lemma solve_total n M b : is_mat n n M -> length b = n ->
  (~ singular n M /\ exists x, solve M b = Ok x /\ solves n n M x b) \/
  (singular n M /\ solve M b = Err ValueError).
Proof.
  intros HM Lb.
  assert (D : (n = 2 \/ n = 3 \/ (n <> 2 /\ n <> 3))%nat) by lia.
  destruct D as [-> | [-> | (N2 & N3)]].
  - destruct (is_mat_2 M HM) as (a & b0 & c & d & ->).
    destruct b as [|e [|f [|]]]; simpl in Lb; try lia. cbn [solve]. numR.
    rcase; [apply solve_LU_total; auto|]. apply abs_le_tol in Hb. left.
    rewrite pydivR_ok by auto. cbn [bind].
    split.
    + intros [x [Lx [[k [Hk Nk]] Hz]]].
      pose proof (Hz 0%nat ltac:(lia)) as Z0. pose proof (Hz 1%nat ltac:(lia)) as Z1.
      unfold ent in Z0, Z1; simpl in Z0, Z1. rewrite Rplus_0_l in Z0, Z1.
      assert (V0 : (a * d - b0 * c) * vent x 0 = 0).
      { transitivity (d * (a * vent x 0 + b0 * vent x 1) - b0 * (c * vent x 0 + d * vent x 1)); [ring|].
        rewrite Z0, Z1. ring. }
      assert (V1 : (a * d - b0 * c) * vent x 1 = 0).
      { transitivity (a * (c * vent x 0 + d * vent x 1) - c * (a * vent x 0 + b0 * vent x 1)); [ring|].
        rewrite Z0, Z1. ring. }
      apply Rmult_integral in V0, V1. apply Nk. lt_cases Hk k; tauto.
    + eexists; split; [reflexivity|]. split; auto.
      intros i Hi. lt_cases Hi i; unfold ent, vent; simpl; field; auto.
  - destruct (is_mat_3 M HM) as (a & b0 & c & d & e & f & g & h & i & ->).
    destruct b as [|p [|q [|r [|]]]]; simpl in Lb; try lia. cbn [solve]. numR.
    rcase; [apply solve_LU_total; auto|]. apply abs_le_tol in Hb. left.
    rewrite pydivR_ok by auto. cbn [bind].
    split.
    + intros [x [Lx [[k [Hk Nk]] Hz]]].
      pose proof (Hz 0%nat ltac:(lia)) as Z0. pose proof (Hz 1%nat ltac:(lia)) as Z1.
      pose proof (Hz 2%nat ltac:(lia)) as Z2.
      unfold ent in Z0, Z1, Z2; simpl in Z0, Z1, Z2. rewrite Rplus_0_l in Z0, Z1, Z2.
      set (D := a * e * i - _ - _ + _ + _ - _) in Hb.
      assert (V0 : D * vent x 0 = 0).
      { transitivity ((e * i - f * h) * (a * vent x 0 + b0 * vent x 1 + c * vent x 2)
          - (b0 * i - c * h) * (d * vent x 0 + e * vent x 1 + f * vent x 2)
          + (b0 * f - c * e) * (g * vent x 0 + h * vent x 1 + i * vent x 2)); [unfold D; ring|].
        rewrite Z0, Z1, Z2. ring. }
      assert (V1 : D * vent x 1 = 0).
      { transitivity (- (d * i - f * g) * (a * vent x 0 + b0 * vent x 1 + c * vent x 2)
          + (a * i - c * g) * (d * vent x 0 + e * vent x 1 + f * vent x 2)
          - (a * f - c * d) * (g * vent x 0 + h * vent x 1 + i * vent x 2)); [unfold D; ring|].
        rewrite Z0, Z1, Z2. ring. }
      assert (V2 : D * vent x 2 = 0).
      { transitivity ((d * h - e * g) * (a * vent x 0 + b0 * vent x 1 + c * vent x 2)
          - (a * h - b0 * g) * (d * vent x 0 + e * vent x 1 + f * vent x 2)
          + (a * e - b0 * d) * (g * vent x 0 + h * vent x 1 + i * vent x 2)); [unfold D; ring|].
        rewrite Z0, Z1, Z2. ring. }
      apply Rmult_integral in V0, V1, V2. apply Nk. lt_cases Hk k; tauto.
    + eexists; split; [reflexivity|]. split; auto.
      intros j Hi. lt_cases Hi j; unfold ent, vent; simpl; field; auto.
  - replace (solve M b) with (solve_LU_decomposition M b).
    2:{ destruct HM as [L _]. destruct M as [|? [|? [|? [|? ?]]]]; simpl in L; try lia; reflexivity. }
    apply solve_LU_total; auto.
Qed.
