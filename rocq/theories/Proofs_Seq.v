(** linspace, trapezoids, products, sums, differences, monotonicity, ratios, closeness. *)
From Coq Require Import List Bool QArith Reals ZArith Arith Lra Lia Psatz.
From Verif Require Import Base Sums Model_Poly Model_Numerics Proofs_Numerics.
Import ListNotations.
Local Open Scope R_scope.

Lemma lin_acc_length n (x s : R) : length (lin_acc n x s) = n.
Proof. revert x; induction n; simpl; intros; auto. Qed.
Lemma lin_acc_at n (x s : R) i : (i < n)%nat -> at_ (lin_acc n x s) i = x + INR (S i) * s.
Proof.
  revert x i; induction n; intros x i Hi; [lia|]. destruct i; simpl lin_acc; unfold at_; simpl nth.
  - numR. simpl INR. ring.
  - change (at_ (lin_acc n (x + s) s) i = x + INR (S (S i)) * s). rewrite IHn by lia. rewrite !S_INR. ring.
Qed.
Lemma at_app1 l1 l2 i : (i < length l1)%nat -> at_ (l1 ++ l2) i = at_ l1 i.
Proof. intros; unfold at_. now apply app_nth1. Qed.
Lemma at_app2 l1 l2 i : (length l1 <= i)%nat -> at_ (l1 ++ l2) i = at_ l2 (i - length l1).
Proof. intros; unfold at_. now apply app_nth2. Qed.
Lemma at_cons x l i : at_ (x :: l) (S i) = at_ l i.
Proof. reflexivity. Qed.

Lemma linspace_end start stop num : (2 <= num)%Z ->
  exists l, linspace start stop num true = Ok l /\ length l = Z.to_nat num /\
    forall i, (i < length l)%nat -> at_ l i = start + INR i * ((stop - start) / IZR (num - 1)).
Proof.
  intros H. unfold linspace. destruct (Z.leb_spec num 0); [lia|]. destruct (Z.eqb_spec num 1) as [|Hne]; [lia|].
  set (n := Z.to_nat num). assert (Hn : (2 <= n)%nat) by lia.
  assert (Hi : @nnat R _ (n - 1) = IZR (num - 1)).
  { rewrite nnatR, INR_IZR_INZ. f_equal. lia. }
  assert (0 < IZR (num - 1)) by (apply IZR_lt; lia).
  rewrite pydivR_ok by lra. cbn [bind]. rewrite Hi. numR.
  set (s := (stop - start) / IZR (num - 1)).
  eexists; split; [reflexivity|].
  assert (L : length ((start :: lin_acc (n - 2) start s) ++ [stop]) = n)
    by (rewrite app_length; simpl; rewrite lin_acc_length; lia).
  split; auto. rewrite L. intros i Hi'.
  destruct (Nat.eq_dec i (n - 1)) as [->|].
  - rewrite at_app2 by (simpl; rewrite lin_acc_length; lia). simpl length. rewrite lin_acc_length.
    replace (n - 1 - S (n - 2))%nat with O by lia. unfold at_; cbn [nth]. rewrite Hi. unfold s. field. lra.
  - rewrite at_app1 by (simpl; rewrite lin_acc_length; lia). destruct i.
    + unfold at_; simpl. ring.
    + rewrite at_cons. rewrite lin_acc_at by lia. reflexivity.
Qed.
Lemma linspace_noend start stop num : (1 <= num)%Z ->
  exists l, linspace start stop num false = Ok l /\ length l = Z.to_nat num /\
    forall i, (i < length l)%nat -> at_ l i = start + INR i * ((stop - start) / IZR num).
Proof.
  intros H. unfold linspace. destruct (Z.leb_spec num 0); [lia|].
  set (n := Z.to_nat num). assert (Hn : (1 <= n)%nat) by lia.
  assert (Hi : @nnat R _ n = IZR num).
  { rewrite nnatR, INR_IZR_INZ. f_equal. lia. }
  assert (0 < IZR num) by (apply IZR_lt; lia).
  rewrite pydivR_ok by lra. cbn [bind]. rewrite Hi. numR.
  set (s := (stop - start) / IZR num).
  eexists; split; [reflexivity|].
  assert (L : length (start :: lin_acc (n - 1) start s) = n)
    by (simpl; rewrite lin_acc_length; lia).
  split; auto. rewrite L. intros i Hi'. destruct i.
  + unfold at_; simpl. ring.
  + rewrite at_cons. rewrite lin_acc_at by lia. reflexivity.
Qed.
Lemma linspace_one start stop : @linspace R _ start stop 1 true = Ok [start].
Proof. reflexivity. Qed.
Lemma linspace_none start stop num e : (num <= 0)%Z -> @linspace R _ start stop num e = Ok [].
Proof. intros H. unfold linspace. destruct (Z.leb_spec num 0); [auto|lia]. Qed.

(** ** cumulative trapezoids *)
Lemma half : Q2R (QArith_base.Qmake 1 2) = / 2. Proof. unfold Q2R; simpl; lra. Qed.
Lemma trap_x_spec y : forall x acc, length x = length y ->
  length (trap_x y x acc) = (length y - 1)%nat /\
  forall i, (i < length y - 1)%nat -> at_ (trap_x y x acc) i =
    acc + Rsum (fun k => (at_ y k + at_ y (S k)) / 2 * (at_ x (S k) - at_ x k)) (S i).
Proof.
  induction y as [|y0 [|y1 t] IH]; intros x acc L.
  - destruct x; simpl; split; auto; intros; lia.
  - destruct x as [|? [|? ?]]; simpl; split; auto; intros; lia.
  - destruct x as [|x0 [|x1 xt]]; try discriminate.
    set (acc' := acc + (y0 + y1) * (x1 - x0) / 2).
    assert (E : trap_x (y0 :: y1 :: t) (x0 :: x1 :: xt) acc = acc' :: trap_x (y1 :: t) (x1 :: xt) acc').
    { cbn [trap_x]. numR. rewrite half. reflexivity. }
    rewrite E. destruct (IH (x1 :: xt) acc' ltac:(simpl in *; lia)) as [IL IV]. split.
    + cbn [length]. rewrite IL. simpl. lia.
    + intros i Hi. destruct i as [|i].
      * unfold at_ at 1; simpl nth. unfold acc'. simpl Rsum. unfold at_; simpl. lra.
      * rewrite at_cons, IV by (simpl in *; lia).
        rewrite (Rsum_head (fun k => (at_ (y0 :: y1 :: t) k + at_ (y0 :: y1 :: t) (S k)) / 2 *
               (at_ (x0 :: x1 :: xt) (S k) - at_ (x0 :: x1 :: xt) k))).
        unfold acc'. rewrite <- Rplus_assoc. f_equal. unfold at_; simpl. lra.
Qed.
Lemma trap_dx_spec y : forall dx acc,
  length (trap_dx y dx acc) = (length y - 1)%nat /\
  forall i, (i < length y - 1)%nat -> at_ (trap_dx y dx acc) i =
    acc + Rsum (fun k => (at_ y k + at_ y (S k)) / 2 * dx) (S i).
Proof.
  induction y as [|y0 [|y1 t] IH]; intros dx acc.
  - simpl; split; auto; intros; lia.
  - simpl; split; auto; intros; lia.
  - set (acc' := acc + (y0 + y1) * dx / 2).
    assert (E : trap_dx (y0 :: y1 :: t) dx acc = acc' :: trap_dx (y1 :: t) dx acc').
    { cbn [trap_dx]. numR. rewrite half. reflexivity. }
    rewrite E. destruct (IH dx acc') as [IL IV]. split.
    + cbn [length]. rewrite IL. simpl. lia.
    + intros i Hi. destruct i as [|i].
      * unfold at_ at 1; simpl nth. unfold acc'. simpl Rsum. unfold at_; simpl. lra.
      * rewrite at_cons, IV by (simpl in *; lia).
        rewrite (Rsum_head (fun k => (at_ (y0 :: y1 :: t) k + at_ (y0 :: y1 :: t) (S k)) / 2 * dx)).
        unfold acc'. rewrite <- Rplus_assoc. f_equal. unfold at_; simpl. lra.
Qed.
Lemma trapezoid_x_ok y x : (2 <= length y)%nat -> length x = length y ->
  exists r, cumulative_trapezoid y (Some x) None = Ok r /\ length r = (length y - 1)%nat /\
   forall i, (i < length r)%nat -> at_ r i =
     Rsum (fun k => (at_ y k + at_ y (S k)) / 2 * (at_ x (S k) - at_ x k)) (S i).
Proof.
  intros Hy L. unfold cumulative_trapezoid. rewrite (proj2 (Nat.ltb_ge _ _) Hy), L, Nat.eqb_refl. simpl negb. cbv iota.
  destruct (trap_x_spec y x n0 L) as [A B]. eexists; split; [reflexivity|]. split; auto.
  rewrite A. intros i Hi. rewrite B by auto. rewrite n0R. ring.
Qed.
Lemma trapezoid_dx_ok y dx : (2 <= length y)%nat ->
  exists r, cumulative_trapezoid y None (Some dx) = Ok r /\ length r = (length y - 1)%nat /\
   forall i, (i < length r)%nat -> at_ r i =
     Rsum (fun k => (at_ y k + at_ y (S k)) / 2 * dx) (S i).
Proof.
  intros Hy. unfold cumulative_trapezoid. rewrite (proj2 (Nat.ltb_ge _ _) Hy).
  destruct (trap_dx_spec y dx n0) as [A B]. eexists; split; [reflexivity|]. split; auto.
  rewrite A. intros i Hi. rewrite B by auto. rewrite n0R. ring.
Qed.
Lemma trapezoid_affine y x a b : (2 <= length y)%nat -> length x = length y ->
  (forall i, (i < length y)%nat -> at_ y i = a * at_ x i + b) ->
  exists r, cumulative_trapezoid y (Some x) None = Ok r /\ length r = (length y - 1)%nat /\
   forall i, (i < length r)%nat -> at_ r i =
     (a * at_ x (S i) ^ 2 / 2 + b * at_ x (S i)) - (a * at_ x 0 ^ 2 / 2 + b * at_ x 0).
Proof.
  intros Hy L Ha. destruct (trapezoid_x_ok y x Hy L) as (r & E & Lr & V). exists r. splits; auto.
  intros i Hi. rewrite V by auto. clear V. induction i as [|i IH].
  - cbn [Rsum]. rewrite (Ha 0%nat), (Ha 1%nat) by lia. field.
  - change (Rsum ?f (S (S i))) with (Rsum f (S i) + f (S i)). rewrite IH by lia.
    rewrite (Ha (S i)), (Ha (S (S i))) by lia. field.
Qed.

(** ** product, cumsum, diff *)
Fixpoint lprod (l : list R) : R := match l with [] => 1 | a :: t => a * lprod t end.
Lemma product_spec l : product l = lprod l.
Proof.
  unfold product. rewrite n1R. assert (G : forall a, fold_left nmul l a = a * lprod l).
  { induction l; intros; simpl; [ring|]. rewrite IHl. numR. ring. }
  rewrite G. ring.
Qed.
Lemma lprod_app l1 l2 : lprod (l1 ++ l2) = lprod l1 * lprod l2.
Proof. induction l1; simpl; [ring|rewrite IHl1; ring]. Qed.
Lemma cumsum_acc_spec l : forall b, length (cumsum_acc b l) = length l /\
  forall i, (i < length l)%nat -> at_ (cumsum_acc b l) i = b + Rsum (at_ l) (S i).
Proof.
  induction l as [|v t IH]; intros b; [simpl; split; auto; intros; lia|].
  destruct (IH (b + v)) as [A B]. cbn [cumsum_acc]. numR. split; [cbn [length]; now rewrite A|].
  intros [|i] Hi; [unfold at_; simpl; ring|].
  rewrite at_cons, B by (simpl in Hi; lia). rewrite (Rsum_head (at_ (v :: t))). unfold at_ at 2; simpl nth.
  rewrite <- Rplus_assoc. f_equal.
Qed.
Lemma cumsum_spec l : l <> [] -> exists r, cumsum l = Ok r /\ length r = length l /\
  forall i, (i < length l)%nat -> at_ r i = Rsum (at_ l) (S i).
Proof.
  destruct l as [|b t]; [contradiction|]. intros _. eexists; split; [reflexivity|].
  destruct (cumsum_acc_spec t b) as [A B]. split; [cbn [length]; now rewrite A|].
  intros [|i] Hi; [unfold at_; simpl; ring|].
  rewrite at_cons, B by (simpl in Hi; lia). rewrite (Rsum_head (at_ (b :: t))). unfold at_ at 2; simpl nth. reflexivity.
Qed.
Lemma diff1_spec l : length (diff1 l) = (length l - 1)%nat /\
  forall i, (i < length l - 1)%nat -> at_ (diff1 l) i = at_ l (S i) - at_ l i.
Proof.
  induction l as [|x [|y t] IH]; [simpl; split; auto; intros; lia|simpl; split; auto; intros; lia|].
  destruct IH as [A B].
  change (diff1 (x :: y :: t)) with ((y - x) :: diff1 (y :: t)). split.
  - cbn [length]. rewrite A. simpl. lia.
  - intros [|i] Hi; [reflexivity|]. rewrite at_cons, B by (simpl in *; lia). reflexivity.
Qed.
Lemma diff_iter_snoc n (l : list R) : diff_iter (S n) l = diff1 (diff_iter n l).
Proof. revert l; induction n; intros; [reflexivity|]. change (diff_iter (S (S n)) l) with (diff_iter (S n) (diff1 l)). rewrite IHn. reflexivity. Qed.
Lemma diff_iter_length n (l : list R) : length (diff_iter n l) = (length l - n)%nat.
Proof. induction n; [simpl; lia|]. rewrite diff_iter_snoc, (proj1 (diff1_spec _)), IHn. lia. Qed.
Lemma C_n_0 n : C n 0 = 1.
Proof. unfold C. simpl. rewrite Nat.sub_0_r. field. apply INR_fact_neq_0. Qed.
Lemma C_n_n n : C n n = 1.
Proof. unfold C. rewrite Nat.sub_diag. simpl. field. apply INR_fact_neq_0. Qed.
Lemma diff_iter_spec n (l : list R) i : (i + n < length l)%nat ->
  at_ (diff_iter n l) i = Rsum (fun k => (-1) ^ (n - k) * C n k * at_ l (i + k)) (S n).
Proof.
  revert i. induction n as [|n IH]; intros i Hi.
  - cbn [Rsum diff_iter]. rewrite C_n_0, Nat.add_0_r. simpl. ring.
  - rewrite diff_iter_snoc, (proj2 (diff1_spec _)) by (rewrite diff_iter_length; lia).
    rewrite !IH by lia.
    (* shift *)
    change (Rsum ?f (S (S n))) with (Rsum f (S n) + f (S n)).
    rewrite (Rsum_head (fun k => (-1) ^ (S n - k) * C (S n) k * at_ l (i + k))).
    rewrite (Rsum_head (fun k => (-1) ^ (n - k) * C n k * at_ l (i + k))).
    change (Rsum (fun k => (-1) ^ (n - k) * C n k * at_ l (S i + k)) (S n)) with
      (Rsum (fun k => (-1) ^ (n - k) * C n k * at_ l (S i + k)) n + (-1) ^ (n - n) * C n n * at_ l (S i + n)).
    rewrite !C_n_0, !C_n_n, !Nat.sub_0_r, !Nat.sub_diag, !Nat.add_0_r.
    replace (S i + n)%nat with (i + S n)%nat by lia.
    rewrite (Rsum_ext (fun i0 => (-1) ^ (S n - S i0) * C (S n) (S i0) * at_ l (i + S i0))
      (fun k => (-1) ^ (n - k) * C n k * at_ l (S i + k) - (-1) ^ (n - S k) * C n (S k) * at_ l (i + S k))).
    2:{ intros k Hk. rewrite <- pascal by lia. replace (S i + k)%nat with (i + S k)%nat by lia.
        replace (S n - S k)%nat with (n - k)%nat by lia.
        replace (n - k)%nat with (S (n - S k)) by lia. simpl pow. ring. }
    rewrite Rsum_minus. simpl pow. ring.
Qed.
Lemma diff_cumsum l r : cumsum l = Ok r -> diff r 1 = Ok (tl l).
Proof.
  intros E. unfold diff. simpl. f_equal.
  assert (Hn : l <> []) by (intros ->; discriminate).
  destruct (cumsum_spec l Hn) as (r' & E' & L & V). rewrite E in E'. injection E' as <-.
  destruct (diff1_spec r) as [A B].
  apply (nth_ext _ _ 0 0).
  - rewrite A, L. destruct l; simpl; lia.
  - intros i Hi. fold (at_ (diff1 r) i). rewrite A in Hi. rewrite B by lia. rewrite !V by lia.
    change (Rsum (at_ l) (S (S i))) with (Rsum (at_ l) (S i) + at_ l (S i)). destruct l; [contradiction|].
    rewrite at_cons. unfold at_. simpl tl. ring.
Qed.

(** ** is_monotonic, is_increasing *)
Lemma changes_spec l : forall inc dec,
  changes l inc dec =
   (inc || existsb (fun i => Rltb (at_ l i) (at_ l (S i))) (seq 0 (length l - 1)),
    dec || existsb (fun i => Rltb (at_ l (S i)) (at_ l i)) (seq 0 (length l - 1))).
Proof.
  induction l as [|p [|q t] IH]; intros inc dec; [simpl; now rewrite !orb_false_r|simpl; now rewrite !orb_false_r|].
  change (changes (p :: q :: t) inc dec) with (changes (q :: t) (inc || Rltb p q) (dec || Rltb q p)).
  rewrite IH. replace (length (p :: q :: t) - 1)%nat with (S (length (q :: t) - 1)) by (simpl; lia).
  cbn [seq existsb]. rewrite <- !seq_shift. 
  assert (G : forall (f : nat -> bool) l0, existsb f (map S l0) = existsb (fun i => f (S i)) l0).
  { intros f l0. induction l0; simpl; auto. now rewrite IHl0. }
  rewrite !G. rewrite !orb_assoc. reflexivity.
Qed.
Lemma is_monotonic_spec l : is_monotonic l = true <->
  (forall i, (S i < length l)%nat -> at_ l i <= at_ l (S i)) \/
  (forall i, (S i < length l)%nat -> at_ l (S i) <= at_ l i).
Proof.
  unfold is_monotonic. destruct (Nat.eqb_spec (length l) 1) as [E|E].
  { split; auto. intros _. left. intros; lia. }
  rewrite changes_spec. simpl orb. rewrite negb_true_iff, andb_false_iff.
  assert (G : forall f : nat -> bool, existsb f (seq 0 (length l - 1)) = false <-> forall i, (S i < length l)%nat -> f i = false).
  { intros f. rewrite <- not_true_iff_false, existsb_exists. split.
    - intros H i Hi. apply not_true_iff_false. intros Hf. apply H. exists i. rewrite in_seq. split; [lia|auto].
    - intros H (i & Hi & Hf). apply in_seq in Hi. rewrite H in Hf; [discriminate|lia]. }
  rewrite !G. split; intros [H|H].
  - right. intros i Hi. apply Rltb_false. auto.
  - left. intros i Hi. apply Rltb_false. auto.
  - right. intros i Hi. apply Rltb_false. auto.
  - left. intros i Hi. apply Rltb_false. auto.
Qed.
Lemma adjacent_nondecreasing l : (forall i, (S i < length l)%nat -> at_ l i <= at_ l (S i)) -> nondecreasing l.
Proof.
  intros H i j Hij Hj. induction j as [|j IH]; [replace i with O by lia; lra|].
  destruct (Nat.eq_dec i (S j)) as [->|]; [lra|]. apply Rle_trans with (at_ l j); [apply IH; lia | apply H; lia].
Qed.
Lemma adjacent_increasing l : (forall i, (S i < length l)%nat -> at_ l i < at_ l (S i)) -> increasing l.
Proof.
  intros H i j Hij Hj. induction j as [|j IH]; [lia|].
  destruct (Nat.eq_dec i j) as [->|]; [apply H; lia|]. apply Rlt_trans with (at_ l j); [apply IH; lia | apply H; lia].
Qed.
Lemma increasing_from_spec l p : increasing_from p l = true <->
  (forall i, (S i < length (p :: l))%nat -> at_ (p :: l) i < at_ (p :: l) (S i)).
Proof.
  revert p. induction l as [|q t IH]; intros p.
  - simpl. split; auto. intros; lia.
  - cbn [increasing_from]. numR. rcase.
    + split; [discriminate|]. intros H. specialize (H 0%nat ltac:(simpl; lia)). unfold at_ in H; simpl in H. lra.
    + rewrite IH. split; intros H.
      * intros [|i] Hi; [exact Hb|]. rewrite !(at_cons p). apply H. simpl in *; lia.
      * intros i Hi. specialize (H (S i) ltac:(simpl in *; lia)). exact H.
Qed.
Lemma is_increasing_spec l : is_increasing l = true <-> increasing l.
Proof.
  destruct l as [|p t].
  - simpl. split; auto. intros _ i j _ Hj. simpl in Hj. lia.
  - unfold is_increasing. rewrite increasing_from_spec. split.
    + apply adjacent_increasing.
    + intros H i Hi. apply H; lia.
Qed.

(** ** min_max_ratios *)
(** the ratio used for one pair *)
Definition ratio_of (a c : R) : R := if Req_EM_T a 0 then (if Req_EM_T c a then 1 else 10) else c / a.
Lemma ratios_spec actual : forall calc mn mx, length actual = length calc -> mn <= mx ->
  exists mn' mx', ratios actual calc mn mx = Ok (mn', mx') /\ mn' <= mn /\ mx <= mx' /\
   (forall i, (i < length actual)%nat -> mn' <= ratio_of (at_ actual i) (at_ calc i) <= mx') /\
   (mn' = mn \/ exists i, (i < length actual)%nat /\ mn' = ratio_of (at_ actual i) (at_ calc i)) /\
   (mx' = mx \/ exists i, (i < length actual)%nat /\ mx' = ratio_of (at_ actual i) (at_ calc i)).
Proof.
  induction actual as [|a ta IH]; intros calc mn mx L Hm.
  - exists mn, mx. simpl. splits; auto; try lra. intros; lia.
  - destruct calc as [|c tc]; [discriminate|]. injection L as L.
    cbn [ratios]. numR.
    assert (E : (if Reqb a 0 then Ok (if Reqb c a then 1 else Q2R 10%Q) else pydiv c a) = Ok (ratio_of a c)).
    { unfold ratio_of, Reqb. destruct (Req_EM_T a 0).
      - destruct (Req_EM_T c a); auto. f_equal. unfold Q2R; simpl; lra.
      - now apply pydivR_ok. }
    rewrite E. cbn [bind].
    rcase; [| rcase].
    + destruct (IH tc (ratio_of a c) mx L ltac:(lra)) as (p & q & -> & A1 & A2 & A3 & A4 & A5).
      exists p, q. splits; auto; try lra.
      * intros [|i] Hi; [unfold at_; simpl nth; lra | apply A3; simpl in Hi; lia].
      * destruct A4 as [->|(i & Hi & ->)]; right; [exists 0%nat | exists (S i)]; split; auto; simpl; lia.
      * destruct A5 as [->|(i & Hi & ->)]; [left; auto | right; exists (S i); split; auto; simpl; lia].
    + destruct (IH tc mn (ratio_of a c) L ltac:(lra)) as (p & q & -> & A1 & A2 & A3 & A4 & A5).
      exists p, q. splits; auto; try lra.
      * intros [|i] Hi; [unfold at_; simpl nth; lra | apply A3; simpl in Hi; lia].
      * destruct A4 as [->|(i & Hi & ->)]; [left; auto | right; exists (S i); split; auto; simpl; lia].
      * destruct A5 as [->|(i & Hi & ->)]; right; [exists 0%nat | exists (S i)]; split; auto; simpl; lia.
    + destruct (IH tc mn mx L ltac:(lra)) as (p & q & -> & A1 & A2 & A3 & A4 & A5).
      exists p, q. splits; auto; try lra.
      * intros [|i] Hi; [unfold at_; simpl nth; lra | apply A3; simpl in Hi; lia].
      * destruct A4 as [->|(i & Hi & ->)]; [left; auto | right; exists (S i); split; auto; simpl; lia].
      * destruct A5 as [->|(i & Hi & ->)]; [left; auto | right; exists (S i); split; auto; simpl; lia].
Qed.

(** ** isclose *)
Lemma isclose_ok a b rt at0 : 0 <= rt -> 0 <= at0 ->
  exists r, isclose a b rt at0 = Ok r /\ (r = true <-> Rabs (a - b) <= Rmax (rt * Rmax (Rabs a) (Rabs b)) at0).
Proof.
  intros Hr Ha. unfold isclose. numR. rcase; [lra|]. rcase; [lra|]. simpl orb. cbv iota.
  pose proof (Rabs_pos a). pose proof (Rabs_pos b).

  destruct (Reqb a b) eqn:Hq; [apply Reqb_true in Hq|].
  - eexists; split; [reflexivity|]. split; auto. intros _. subst b. replace (a - a) with 0 by ring. rewrite Rabs_R0.
    apply Rle_trans with at0; [lra | apply Rmax_r].
  - eexists; split; [reflexivity|]. rewrite !orb_true_iff, !Rleb_true.
    unfold Rmax. destruct (Rle_dec (Rabs a) (Rabs b)).
    + assert (rt * Rabs a <= rt * Rabs b) by (apply Rmult_le_compat_l; auto).
      destruct (Rle_dec (rt * Rabs b) at0); split; intros; [lra|auto|lra|lra].
    + assert (rt * Rabs b <= rt * Rabs a) by (apply Rmult_le_compat_l; lra).
      destruct (Rle_dec (rt * Rabs a) at0); split; intros; [lra|auto|lra|lra].
Qed.
Lemma isclose_err a b rt at0 : rt < 0 \/ at0 < 0 -> isclose a b rt at0 = Err ValueError.
Proof.
  intros H. unfold isclose. numR. rcase; [reflexivity|]. rcase; [reflexivity|]. lra.
Qed.
