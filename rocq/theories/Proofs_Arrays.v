(** List-level facts about the matrix functions. *)
From Coq Require Import List Bool Reals Arith ZArith QArith Lra Lia Permutation Sorting.Sorted.
From Verif Require Import Base Sums Spec_Mat Model_Arrays Proofs_LU.
Import ListNotations.
Local Open Scope R_scope.

Lemma mat_at_ent M i j : @mat_at R _ M i j = ent M i j.
Proof. unfold mat_at, ent. now rewrite n0R. Qed.
Lemma to_rows_mk m n (M : nat -> nat -> R) : to_rows m n M = mk m n M.
Proof. reflexivity. Qed.
Lemma of_list_vent (b : list R) i : of_list b i = vent b i.
Proof. unfold of_list, vent. now rewrite n0R. Qed.
Lemma to_list_len n (b : nat -> R) : length (to_list n b) = n.
Proof. unfold to_list. now rewrite map_length, seq_length. Qed.
Lemma to_list_vent n (b : nat -> R) i : (i < n)%nat -> vent (to_list n b) i = b i.
Proof. intros; unfold to_list, vent. now rewrite nth_map_seq0. Qed.

Lemma same_len_forall {A} n (M : list (list A)) :
  forallb (same_len n) M = true <-> Forall (fun r => length r = n) M.
Proof.
  rewrite forallb_forall, Forall_forall. unfold same_len.
  split; intros H x Hx; apply H in Hx; now apply Nat.eqb_eq.
Qed.
Lemma short_row_false n (M : list (list R)) : is_mat n n M -> short_row n M = false.
Proof.
  intros [L F]. unfold short_row. rewrite Forall_forall in F.
  destruct (existsb _ M) eqn:E; auto. apply existsb_exists in E. destruct E as [r [Hr Hl]].
  apply F in Hr. apply Nat.ltb_lt in Hl. lia.
Qed.

Lemma Rsum_of_rows M N x i : Rsum (fun c => of_rows M i c * x c) N = Rsum (fun c => ent M i c * x c) N.
Proof. apply Rsum_ext. intros; unfold of_rows; now rewrite mat_at_ent. Qed.

(** ** LU at list level *)
Lemma LU_err_singular n M e : @inplace_LU R _ n (of_rows M) = Err e -> e = ValueError /\ singular n M.
Proof.
  intros E. apply inplace_LU_err in E. destruct E as [-> [x [[k [Hk Hx]] H]]]. split; auto.
  exists (to_list n x). split; [apply to_list_len|]. split.
  - exists k. split; auto. now rewrite to_list_vent.
  - intros i Hi. rewrite <- (H i Hi). rewrite Rsum_of_rows. apply Rsum_ext.
    intros c Hc. now rewrite to_list_vent.
Qed.
Lemma LU_ok_regular n M st : @inplace_LU R _ n (of_rows M) = Ok st -> ~ singular n M.
Proof.
  destruct st as [M' piv]. intros E [x [Lx [[k [Hk Nk]] H]]]. apply Nk.
  eapply (inplace_LU_injective n (of_rows M) M' piv (vent x)); eauto.
  intros i Hi. rewrite Rsum_of_rows. now apply H.
Qed.
Lemma LU_total n M : (exists st, @inplace_LU R _ n (of_rows M) = Ok st /\ ~ singular n M) \/
  (@inplace_LU R _ n (of_rows M) = Err ValueError /\ singular n M).
Proof.
  destruct (inplace_LU n (of_rows M)) as [st|e] eqn:E.
  - left. exists st. split; auto. eapply LU_ok_regular; eauto.
  - right. apply LU_err_singular in E. destruct E as [-> ?]; auto.
Qed.

Lemma solves_unique n M x x' b : ~ singular n M -> solves n n M x b -> solves n n M x' b -> x = x'.
Proof.
  intros Hs [L H] [L' H'].
  apply (vec_ext n); auto. intros i Hi.
  destruct (Req_dec (vent x i) (vent x' i)); auto. exfalso. apply Hs.
  exists (to_list n (fun k => vent x k - vent x' k)). split; [apply to_list_len|]. split.
  - exists i. split; auto. rewrite to_list_vent by auto. lra.
  - intros r Hr. rewrite (Rsum_ext _ (fun k => ent M r k * vent x k - ent M r k * vent x' k)).
    + rewrite Rsum_minus, H, H'; auto. ring.
    + intros k Hk. rewrite to_list_vent by auto. ring.
Qed.

Lemma solve_LU_total n M b : is_mat n n M -> length b = n ->
  (~ singular n M /\ exists x, solve_LU_decomposition M b = Ok x /\ solves n n M x b) \/
  (singular n M /\ solve_LU_decomposition M b = Err ValueError).
Proof.
  intros HM Lb. unfold solve_LU_decomposition. rewrite Lb.
  rewrite (short_row_false n) by auto. destruct HM as [LM FM]. rewrite LM, Nat.eqb_refl. cbn [negb orb].
  destruct (LU_total n M) as [[[M' piv] [E Hs]]|[E Hs]]; rewrite E; cbn [bind].
  - left. split; auto. apply inplace_LU_ok in E.
    destruct (solve_from_lu_spec n (of_rows M) M' piv (of_list b) E) as [x [Ex Hx]].
    rewrite Ex. cbn [bind]. eexists; split; [reflexivity|]. split; [apply to_list_len|].
    intros i Hi. specialize (Hx i Hi). rewrite Rsum_of_rows, of_list_vent in Hx. rewrite <- Hx.
    apply Rsum_ext. intros k Hk. now rewrite to_list_vent.
  - right; auto.
Qed.

Lemma inv_lu_loop M' piv n A0 : LUinv n A0 n M' piv -> forall m, (m <= n)%nat ->
  exists W, foldM (fun ainv j =>
      x <- @solve_from_lu R _ M' piv n (fun i => if Nat.eqb i j then n1 else n0) ;;
      Ok (fold_left (fun W i => mset W i j (x i)) (seq 0 n) ainv)) (seq 0 m) (fun _ _ => n0) = Ok W /\
    forall i j, (i < n)%nat -> (j < m)%nat -> Rsum (fun k => A0 i k * W k j) n = delta i j.
Proof.
  intros HI. induction m; intros Hm.
  - eexists; split; [reflexivity|]. intros; lia.
  - destruct IHm as [W [E HW]]; [lia|].
    destruct (solve_from_lu_spec n A0 M' piv (fun i => if Nat.eqb i m then n1 else n0) HI) as [x [Ex Hx]].
    exists (fold_left (fun W i => mset W i m (x i)) (seq 0 n) W).
    assert (FM : forall {S T} (f : S -> T -> result S) l1 l2 s, foldM f (l1 ++ l2) s = (s' <- foldM f l1 s ;; foldM f l2 s')).
    { clear. induction l1; intros; simpl; auto. destruct (f s a); simpl; auto. }
    rewrite seq_snoc, FM, E. cbn [bind foldM Nat.add]. rewrite Ex. cbn [bind].
    split; auto.
    assert (Col : forall q i j, fold_left (fun W i => mset W i m (x i)) (seq 0 q) W i j =
       if Nat.eqb j m && Nat.ltb i q then x i else W i j).
    { clear. induction q; intros i j.
      - simpl. nb; auto.
      - rewrite seq_snoc, fold_left_app. cbn [fold_left Nat.add]. unfold mset at 1. rewrite IHq. nb; auto. }
    intros i j Hi Hj. rewrite (Rsum_ext _ (fun k => A0 i k * (if Nat.eqb j m then x k else W k j))).
    2:{ intros k Hk. rewrite Col. nb; auto. }
    destruct (Nat.eqb_spec j m) as [->|].
    + rewrite Hx by auto. unfold delta. rewrite n1R, n0R. reflexivity.
    + apply HW; auto; lia.
Qed.

Lemma right_inverse_left n M X : is_mat n n M -> is_mat n n X -> ~ singular n M ->
  (forall i j, (i < n)%nat -> (j < n)%nat -> Rsum (fun k => ent M i k * ent X k j) n = delta i j) ->
  (forall i j, (i < n)%nat -> (j < n)%nat -> Rsum (fun k => ent X i k * ent M k j) n = delta i j).
Proof.
  intros HM HX Hs H i j Hi Hj.
  set (z := to_list n (fun k => Rsum (fun l => ent X k l * ent M l j) n)).
  set (e := to_list n (fun k => delta k j)).
  assert (Z : z = e).
  { apply (solves_unique n M _ _ (to_list n (fun r => ent M r j))); auto.
    - split; [apply to_list_len|]. intros r Hr. rewrite to_list_vent by auto.
      rewrite (Rsum_ext _ (fun k => Rsum (fun l => ent M r k * ent X k l * ent M l j) n)).
      2:{ intros k Hk. unfold z. rewrite to_list_vent by auto. rewrite <- Rsum_scal. apply Rsum_ext; intros; ring. }
      rewrite Rsum_swap.
      rewrite (Rsum_ext _ (fun l => delta r l * ent M l j)).
      2:{ intros l Hl. rewrite <- H by auto. rewrite <- Rsum_scal_r. reflexivity. }
      rewrite (Rsum_single _ n r) by (auto; intros l Hl Hn; unfold delta; nb; ring).
      unfold delta. rewrite Nat.eqb_refl. ring.
    - split; [apply to_list_len|]. intros r Hr. rewrite to_list_vent by auto.
      rewrite (Rsum_single _ n j); auto.
      + unfold e. rewrite to_list_vent by auto. unfold delta. rewrite Nat.eqb_refl. ring.
      + intros k Hk Hn. unfold e. rewrite to_list_vent by auto. unfold delta. nb. ring. }
  assert (Q : vent z i = vent e i) by congruence. unfold z, e in Q. rewrite !to_list_vent in Q by auto. exact Q.
Qed.

Definition two_sided (n : nat) (M X : list (list R)) : Prop :=
  is_mat n n X /\
  (forall i j, (i < n)%nat -> (j < n)%nat -> Rsum (fun k => ent M i k * ent X k j) n = delta i j) /\
  (forall i j, (i < n)%nat -> (j < n)%nat -> Rsum (fun k => ent X i k * ent M k j) n = delta i j).

Lemma inv_lu_total n M : is_mat n n M ->
  (~ singular n M /\ exists X, inv_lu M = Ok X /\ two_sided n M X) \/
  (singular n M /\ inv_lu M = Err ValueError).
Proof.
  intros HM. unfold inv_lu. destruct HM as [LM FM] eqn:EHM. rewrite LM.
  rewrite (short_row_false n) by auto.
  destruct (LU_total n M) as [[[M' piv] [E Hs]]|[E Hs]]; rewrite E; cbn [bind].
  - left. split; auto. apply inplace_LU_ok in E.
    destruct (inv_lu_loop M' piv n (of_rows M) E n (le_n _)) as [W [EW HW]].
    rewrite EW. cbn [bind]. eexists; split; [reflexivity|]. rewrite to_rows_mk.
    assert (R1 : forall i j, (i < n)%nat -> (j < n)%nat ->
       Rsum (fun k => ent M i k * ent (mk n n W) k j) n = delta i j).
    { intros i j Hi Hj. rewrite <- (HW i j Hi Hj). apply Rsum_ext. intros k Hk.
      rewrite mk_ent by auto. unfold of_rows. now rewrite mat_at_ent. }
    split; [apply mk_mat|]. split; auto.
    apply right_inverse_left; auto. apply mk_mat.
  - right; auto.
Qed.

Lemma two_sided_regular n M X : two_sided n M X -> ~ singular n M.
Proof.
  intros (HX & _ & H) [x [Lx [[k [Hk Nk]] Hz]]]. apply Nk.
  replace (vent x k) with (Rsum (fun j => delta k j * vent x j) n).
  - rewrite (Rsum_ext _ (fun j => Rsum (fun l => ent X k l * ent M l j * vent x j) n)).
    2:{ intros j Hj. rewrite <- (H k j) by auto. rewrite Rsum_scal_r. reflexivity. }
    rewrite Rsum_swap. apply Rsum_zero. intros l Hl.
    rewrite (Rsum_ext _ (fun j => ent X k l * (ent M l j * vent x j))) by (intros; ring).
    rewrite Rsum_scal, Hz by auto. ring.
  - rewrite (Rsum_single _ n k); auto.
    + unfold delta. rewrite Nat.eqb_refl; ring.
    + intros j Hj Hn. unfold delta. nb. ring.
Qed.

(** ** lu *)
Lemma lu_P_spec N piv i k : (forall k, (k < N)%nat -> (k <= piv k < N)%nat) ->
  @lu_P R _ N piv i k = delta (perm_of piv N i) k.
Proof.
  intros _. unfold lu_P. revert i.
  induction N; intros i.
  - simpl. unfold delta. rewrite n1R, n0R. rewrite Nat.eqb_sym. reflexivity.
  - rewrite seq_snoc, fold_left_app. cbn [fold_left Nat.add perm_of].
    destruct (Nat.eqb_spec (piv N) N) as [->|Hn].
    + rewrite sw_same. apply IHN.
    + rewrite <- IHN. unfold swap_entries, vset, sw. nb; auto.
Qed.
