(** Searching, interpolation, sequences, statistics. *)
From Coq Require Import List Bool Reals ZArith Arith Lra Lia Psatz.
From Verif Require Import Base Sums Model_Poly Model_Numerics.
Import ListNotations.
Local Open Scope R_scope.

(** ** Vocabulary *)
Definition at_ (l : list R) (i : nat) : R := nth i l 0.
Definition nondecreasing (l : list R) : Prop :=
  forall i j, (i <= j)%nat -> (j < length l)%nat -> at_ l i <= at_ l j.
Definition increasing (l : list R) : Prop :=
  forall i j, (i < j)%nat -> (j < length l)%nat -> at_ l i < at_ l j.

Lemma increasing_nondecreasing l : increasing l -> nondecreasing l.
Proof.
  intros H i j Hij Hj. destruct (Nat.eq_dec i j) as [->|]; [lra|]. apply Rlt_le, H; lia.
Qed.
Lemma idx_at l i : (i < length l)%nat -> idx l i = Ok (at_ l i).
Proof. intros H. unfold idx, at_. rewrite (nth_error_nth' l 0 H). reflexivity. Qed.
Lemma last_of_at l : (0 < length l)%nat -> last_of l = Ok (at_ l (length l - 1)).
Proof.
  intros H. unfold last_of. rewrite idx_at by now rewrite rev_length. unfold at_.
  rewrite rev_nth by auto. do 2 f_equal; lia.
Qed.
Lemma last2_of_at l : (1 < length l)%nat -> last2_of l = Ok (at_ l (length l - 2)).
Proof.
  intros H. unfold last2_of. rewrite idx_at by now rewrite rev_length. unfold at_.
  rewrite rev_nth by auto. do 2 f_equal; lia.
Qed.

(** ** binary_search *)
Lemma div2_lt n : (0 < n)%nat -> (Nat.div2 n < n)%nat.
Proof. intros H. apply Nat.lt_div2; auto. Qed.

Lemma bs_loop_total fuel key arr imin imax :
  (imax - imin < fuel)%nat -> (imax <= length arr)%nat ->
  exists j, bs_loop fuel key arr imin imax = Ok j.
Proof.
  revert imin imax. induction fuel; intros imin imax Hf Hm; [lia|]. simpl.
  destruct (Nat.ltb_spec imin imax) as [H|H]; [|eauto].
  pose proof (div2_lt (imax - imin)). rewrite idx_at by lia. cbn [bind]. numR.
  destruct (Rleb _ key); apply IHfuel; lia.
Qed.
Lemma bs_loop_spec fuel key arr : nondecreasing arr -> forall imin imax,
  (imax - imin < fuel)%nat -> (imin <= imax)%nat -> (imax <= length arr)%nat ->
  (forall i, (i < imin)%nat -> at_ arr i <= key) ->
  (forall i, (imax <= i)%nat -> (i < length arr)%nat -> key < at_ arr i) ->
  exists j, bs_loop fuel key arr imin imax = Ok j /\ (j <= length arr)%nat /\
    (forall i, (i < j)%nat -> at_ arr i <= key) /\
    (forall i, (j <= i)%nat -> (i < length arr)%nat -> key < at_ arr i).
Proof.
  intros Hs. induction fuel; intros imin imax Hf Hle Hm Hlo Hhi; [lia|]. simpl.
  destruct (Nat.ltb_spec imin imax) as [H|H].
  - pose proof (div2_lt (imax - imin)). set (mid := (imin + Nat.div2 (imax - imin))%nat) in *.
    rewrite idx_at by lia. cbn [bind]. numR. rcase.
    + apply IHfuel; try lia; auto. intros i Hi.
      apply Rle_trans with (at_ arr mid); auto. apply Hs; lia.
    + apply IHfuel; try lia; auto. intros i Hi Hil.
      apply Rlt_le_trans with (at_ arr mid); auto.
  - exists imin. splits; auto; try lia. intros i Hi Hil. apply Hhi; lia.
Qed.

Lemma binary_search_spec key arr : nondecreasing arr -> arr <> [] ->
  exists j, binary_search key arr = Ok j /\
   ((at_ arr (length arr - 1) < key /\ j = Z.of_nat (length arr)) \/
    (key <= at_ arr (length arr - 1) /\ (-1 <= j < Z.of_nat (length arr))%Z /\
     forall i, (i < length arr)%nat -> ((Z.of_nat i <= j)%Z <-> at_ arr i <= key))).
Proof.
  intros Hs Hn. assert (L : (0 < length arr)%nat) by (destruct arr; [contradiction | simpl; lia]).
  unfold binary_search. rewrite last_of_at by auto. cbn [bind]. numR. rcase.
  - exists (Z.of_nat (length arr)). split; auto.
  - destruct (bs_loop_spec (S (length arr)) key arr Hs 0 (length arr)) as (j & E & Hj & Hlo & Hhi); try lia.
    rewrite E. cbn [bind]. exists (Z.of_nat j - 1)%Z. split; auto. right. splits; auto; try lia.
    intros i Hi. split; intros H.
    + apply Hlo. lia.
    + destruct (Nat.lt_ge_cases i j); [lia|]. specialize (Hhi i H0 Hi). lra.
Qed.
Lemma binary_search_total key arr : arr <> [] -> exists j, @binary_search R _ key arr = Ok j.
Proof.
  intros Hn. assert (L : (0 < length arr)%nat) by (destruct arr; [contradiction | simpl; lia]).
  unfold binary_search. rewrite last_of_at by auto. cbn [bind]. numR. rcase; eauto.
  destruct (bs_loop_total (S (length arr)) key arr 0 (length arr)) as [j E]; try lia.
  rewrite E. cbn [bind]. eauto.
Qed.
(** the index of the segment *)
Lemma binary_search_segment key arr k : increasing arr -> (S k < length arr)%nat ->
  at_ arr k <= key -> key < at_ arr (S k) -> binary_search key arr = Ok (Z.of_nat k).
Proof.
  intros Hs Hk H1 H2. assert (Hn : arr <> []) by (intros ->; simpl in Hk; lia).
  destruct (binary_search_spec key arr (increasing_nondecreasing _ Hs) Hn) as (j & E & [[A _]|(A & B & C)]).
  - exfalso. pose proof (increasing_nondecreasing _ Hs (S k) (length arr - 1)%nat ltac:(lia) ltac:(lia)). lra.
  - rewrite E. f_equal. pose proof (proj2 (C k ltac:(lia)) H1).
    assert (~ (Z.of_nat (S k) <= j)%Z) by (intros X; apply C in X; [lra|lia]). lia.
Qed.
Lemma binary_search_last arr : increasing arr -> arr <> [] ->
  binary_search (at_ arr (length arr - 1)) arr = Ok (Z.of_nat (length arr) - 1)%Z.
Proof.
  intros Hs Hn. assert (L : (0 < length arr)%nat) by (destruct arr; [contradiction | simpl; lia]).
  destruct (binary_search_spec (at_ arr (length arr - 1)) arr (increasing_nondecreasing _ Hs) Hn)
    as (j & E & [[A _]|(A & B & C)]); [lra|].
  rewrite E. f_equal. pose proof (proj2 (C (length arr - 1)%nat ltac:(lia)) ltac:(lra)). lia.
Qed.
Lemma binary_search_below key arr : increasing arr -> arr <> [] -> key < at_ arr 0 ->
  binary_search key arr = Ok (-1)%Z.
Proof.
  intros Hs Hn H. assert (L : (0 < length arr)%nat) by (destruct arr; [contradiction | simpl; lia]).
  pose proof (increasing_nondecreasing _ Hs 0%nat (length arr - 1)%nat ltac:(lia) ltac:(lia)).
  destruct (binary_search_spec key arr (increasing_nondecreasing _ Hs) Hn) as (j & E & [[A _]|(A & B & C)]); [lra|].
  rewrite E. f_equal. assert (~ (Z.of_nat 0 <= j)%Z) by (intros X; apply C in X; [lra|lia]). lia.
Qed.
Lemma binary_search_above key arr : arr <> [] -> at_ arr (length arr - 1) < key ->
  binary_search key arr = Ok (Z.of_nat (length arr)).
Proof.
  intros Hn H. assert (L : (0 < length arr)%nat) by (destruct arr; [contradiction | simpl; lia]).
  unfold binary_search. rewrite last_of_at by auto. cbn [bind]. numR. rcase; auto; lra.
Qed.

(** ** interp *)
(** value at x of the line through (x0,y0) and (x1,y1) *)
Definition line (x0 y0 x1 y1 x : R) : R := y0 + (y1 - y0) * ((x - x0) / (x1 - x0)).

Lemma interp_between_line x dx dy k : increasing dx -> length dx = length dy -> (S k < length dx)%nat ->
  interp_between x dx dy k = Ok (line (at_ dx k) (at_ dy k) (at_ dx (S k)) (at_ dy (S k)) x).
Proof.
  intros Hs L Hk. unfold interp_between. rewrite Nat.add_1_r. rewrite !idx_at by lia. cbn [bind].
  pose proof (Hs k (S k) ltac:(lia) ltac:(lia)). numR. rewrite pydivR_ok by lra. cbn [bind]. f_equal.
  unfold line. field. lra.
Qed.
Lemma interp_inside x dx dy l r e k : increasing dx -> length dx = length dy -> (S k < length dx)%nat ->
  at_ dx k <= x <= at_ dx (S k) ->
  interp x dx dy l r e = Ok (line (at_ dx k) (at_ dy k) (at_ dx (S k)) (at_ dy (S k)) x).
Proof.
  intros Hs L Hk [H1 H2]. assert (Hn : dx <> []) by (intros ->; simpl in Hk; lia).
  pose proof (Hs k (S k) ltac:(lia) ltac:(lia)) as Hkk.
  destruct (Rle_lt_or_eq_dec _ _ H2) as [H2'|H2'].
  - unfold interp. rewrite (binary_search_segment x dx k) by auto. cbn [bind].
    destruct (Z.eqb_spec (Z.of_nat k) (-1)); [lia|]. destruct (Z.eqb_spec (Z.of_nat k) (Z.of_nat (length dx) - 1)); [lia|].
    destruct (Z.eqb_spec (Z.of_nat k) (Z.of_nat (length dx))); [lia|].
    rewrite Nat2Z.id. now apply interp_between_line.
  - assert (El : line (at_ dx k) (at_ dy k) (at_ dx (S k)) (at_ dy (S k)) x = at_ dy (S k))
      by (unfold line; rewrite H2'; field; lra).
    rewrite El. unfold interp.
    destruct (Nat.eq_dec (S k) (length dx - 1)) as [Ek|Ek].
    + rewrite H2', Ek, (binary_search_last dx) by auto. cbn [bind].
      destruct (Z.eqb_spec (Z.of_nat (length dx) - 1) (-1)); [lia|]. rewrite Z.eqb_refl.
      rewrite idx_at by lia. do 2 f_equal. lia.
    + rewrite (binary_search_segment x dx (S k)); auto; try lia; try lra.
      2:{ rewrite H2'. apply Hs; lia. }
      cbn [bind].
      destruct (Z.eqb_spec (Z.of_nat (S k)) (-1)); [lia|]. destruct (Z.eqb_spec (Z.of_nat (S k)) (Z.of_nat (length dx) - 1)); [lia|].
      destruct (Z.eqb_spec (Z.of_nat (S k)) (Z.of_nat (length dx))); [lia|].
      rewrite Nat2Z.id, interp_between_line by (auto; lia). f_equal. unfold line. rewrite H2'.
      pose proof (Hs (S k) (S (S k)) ltac:(lia) ltac:(lia)). field. lra.
Qed.
Lemma interp_below x dx dy l r e : increasing dx -> length dx = length dy -> dx <> [] -> x < at_ dx 0 ->
  interp x dx dy l r e =
    match l with
    | Some v => Ok v
    | None => if e then interp_between x dx dy 0 else Ok (at_ dy 0)
    end.
Proof.
  intros Hs L Hn H. assert (0 < length dx)%nat by (destruct dx; [contradiction | simpl; lia]).
  unfold interp. rewrite binary_search_below by auto. cbn [bind]. rewrite Z.eqb_refl.
  destruct l, e; auto. apply idx_at. lia.
Qed.
Lemma interp_above x dx dy l r e : length dx = length dy -> dx <> [] -> at_ dx (length dx - 1) < x ->
  interp x dx dy l r e =
    match r with
    | Some v => Ok v
    | None => if e then interp_last x dx dy else Ok (at_ dy (length dy - 1))
    end.
Proof.
  intros L Hn H. assert (0 < length dx)%nat by (destruct dx; [contradiction | simpl; lia]).
  unfold interp. rewrite binary_search_above by auto. cbn [bind].
  destruct (Z.eqb_spec (Z.of_nat (length dx)) (-1)); [lia|].
  destruct (Z.eqb_spec (Z.of_nat (length dx)) (Z.of_nat (length dx) - 1)); [lia|]. rewrite Z.eqb_refl.
  destruct r, e; auto. apply last_of_at. lia.
Qed.
Lemma interp_last_line x dx dy : increasing dx -> length dx = length dy -> (1 < length dx)%nat ->
  interp_last x dx dy =
   Ok (line (at_ dx (length dx - 2)) (at_ dy (length dx - 2)) (at_ dx (length dx - 1)) (at_ dy (length dx - 1)) x).
Proof.
  intros Hs L Hl. unfold interp_last. rewrite !last_of_at, !last2_of_at by lia. cbn [bind].
  rewrite <- L. pose proof (Hs (length dx - 2)%nat (length dx - 1)%nat ltac:(lia) ltac:(lia)). numR.
  rewrite pydivR_ok by lra. cbn [bind]. f_equal. unfold line. field. lra.
Qed.
Lemma find_segment l x : (1 < length l)%nat -> at_ l 0 <= x <= at_ l (length l - 1) ->
  exists k, (S k < length l)%nat /\ at_ l k <= x <= at_ l (S k).
Proof.
  intros L [H0 H1].
  assert (G : forall n, (n < length l)%nat -> (0 < n)%nat -> x <= at_ l n -> exists k, (S k <= n)%nat /\ at_ l k <= x <= at_ l (S k)).
  { induction n; intros Hn Hp Hx; [lia|]. destruct (Rle_lt_dec (at_ l n) x).
    - exists n. split; auto.
    - destruct (Nat.eq_dec n 0) as [->|]; [lra|]. destruct IHn as (k & Hk & HH); try lia; try lra. exists k. split; auto. }
  destruct (G (length l - 1)%nat) as (k & Hk & HH); try lia; auto. exists k. split; auto. lia.
Qed.
Lemma line_between x0 y0 x1 y1 x : x0 < x1 -> x0 <= x <= x1 ->
  Rmin y0 y1 <= line x0 y0 x1 y1 x <= Rmax y0 y1.
Proof.
  intros H [H0 H1]. unfold line. set (t := (x - x0) / (x1 - x0)).
  assert (T : 0 <= t <= 1).
  { unfold t. split.
    - apply Rmult_le_pos; [lra|]. left; apply Rinv_0_lt_compat; lra.
    - apply Rmult_le_reg_r with (x1 - x0); [lra|]. unfold Rdiv. rewrite Rmult_assoc, Rinv_l by lra. lra. }
  unfold Rmin, Rmax. destruct (Rle_dec y0 y1); split; nra.
Qed.
Lemma line_mono x0 y0 x1 y1 x x' : x0 < x1 -> y0 <= y1 -> x <= x' -> line x0 y0 x1 y1 x <= line x0 y0 x1 y1 x'.
Proof.
  intros H Hy Hx. unfold line.
  assert ((x - x0) / (x1 - x0) <= (x' - x0) / (x1 - x0)).
  { apply Rmult_le_compat_r; [|lra]. left. apply Rinv_0_lt_compat. lra. }
  nra.
Qed.
(** clamped interpolation as a function *)
Lemma interp_default_total x dx dy : increasing dx -> length dx = length dy -> dx <> [] ->
  exists v, interp x dx dy None None false = Ok v.
Proof.
  intros Hs L Hn. assert (L0 : (0 < length dx)%nat) by (destruct dx; [contradiction | simpl; lia]).
  destruct (Rlt_le_dec x (at_ dx 0)) as [H0|H0]; [rewrite interp_below by auto; eauto|].
  destruct (Rlt_le_dec (at_ dx (length dx - 1)) x) as [H1|H1]; [rewrite interp_above by auto; eauto|].
  destruct (Nat.eq_dec (length dx) 1) as [E1|E1].
  - exists (at_ dy 0). unfold interp. assert (x = at_ dx (length dx - 1)) as -> by (rewrite E1 in *; simpl in *; lra).
    rewrite (binary_search_last dx) by auto. cbn [bind].
    destruct (Z.eqb_spec (Z.of_nat (length dx) - 1) (-1)); [lia|]. rewrite Z.eqb_refl.
    rewrite E1. simpl. apply idx_at. lia.
  - destruct (find_segment dx x) as (k & Hk & HH); [lia | auto |].
    rewrite (interp_inside x dx dy None None false k) by auto. eauto.
Qed.
Lemma interp_range_aux x dx dy v : increasing dx -> length dx = length dy -> dx <> [] ->
  interp x dx dy None None false = Ok v ->
  exists i j, (i < length dy)%nat /\ (j < length dy)%nat /\ at_ dy i <= v <= at_ dy j /\
   ((x < at_ dx 0 /\ v = at_ dy 0) \/ (at_ dx (length dx - 1) < x /\ v = at_ dy (length dx - 1)) \/
    (at_ dx i <= x <= at_ dx i /\ i = j /\ v = at_ dy i) \/
    exists k, (S k < length dx)%nat /\ at_ dx k <= x <= at_ dx (S k) /\
      v = line (at_ dx k) (at_ dy k) (at_ dx (S k)) (at_ dy (S k)) x).
Proof.
  intros Hs L Hn E. assert (L0 : (0 < length dx)%nat) by (destruct dx; [contradiction | simpl; lia]).
  destruct (Rlt_le_dec x (at_ dx 0)) as [H0|H0].
  { rewrite interp_below in E by auto. injection E as <-. exists 0%nat, 0%nat. splits; try lia; try lra; try (left; auto). }
  destruct (Rlt_le_dec (at_ dx (length dx - 1)) x) as [H1|H1].
  { rewrite interp_above in E by auto. injection E as <-. rewrite <- L. exists (length dx - 1)%nat, (length dx - 1)%nat.
    splits; try lia; try lra; try (right; left; auto). }
  destruct (Nat.eq_dec (length dx) 1) as [E1|E1].
  - assert (Hx : x = at_ dx (length dx - 1)) by (rewrite E1 in *; simpl in *; lra).
    unfold interp in E. rewrite Hx, (binary_search_last dx) in E by auto. cbn [bind] in E.
    destruct (Z.eqb_spec (Z.of_nat (length dx) - 1) (-1)); [lia|]. rewrite Z.eqb_refl in E.
    rewrite idx_at in E by lia. injection E as <-. rewrite E1 in *. simpl in *. change (Z.to_nat 0) with 0%nat.
    exists 0%nat, 0%nat. splits; try lia; try lra; try (right; right; left; splits; auto; lra).
  - destruct (find_segment dx x) as (k & Hk & HH); [lia | auto |].
    rewrite (interp_inside x dx dy None None false k) in E by auto. injection E as <-.
    pose proof (line_between (at_ dx k) (at_ dy k) (at_ dx (S k)) (at_ dy (S k)) x ltac:(apply Hs; lia) HH) as B.
    unfold Rmin, Rmax in B. destruct (Rle_dec (at_ dy k) (at_ dy (S k))).
    + exists k, (S k). splits; try lia; try lra; try (right; right; right; eauto).
    + exists (S k), k. splits; try lia; try lra; try (right; right; right; eauto).
Qed.
Lemma interp_range x dx dy v : increasing dx -> length dx = length dy -> dx <> [] ->
  interp x dx dy None None false = Ok v ->
  exists i j, (i < length dy)%nat /\ (j < length dy)%nat /\ at_ dy i <= v <= at_ dy j.
Proof.
  intros Hs L Hn E. destruct (interp_range_aux x dx dy v Hs L Hn E) as (i & j & A & B & C & _). eauto.
Qed.
Lemma interp_mono x x' dx dy v v' : increasing dx -> length dx = length dy -> dx <> [] -> nondecreasing dy ->
  x <= x' -> interp x dx dy None None false = Ok v -> interp x' dx dy None None false = Ok v' -> v <= v'.
Proof.
  intros Hs L Hn Hy Hx E E'. assert (L0 : (0 < length dx)%nat) by (destruct dx; [contradiction | simpl; lia]).
  pose proof (interp_range x dx dy v Hs L Hn E) as (i & j & Hi & Hj & B).
  pose proof (interp_range x' dx dy v' Hs L Hn E') as (i' & j' & Hi' & Hj' & B').
  destruct (Rlt_le_dec x (at_ dx 0)) as [H0|H0].
  { rewrite interp_below in E by auto. injection E as <-. apply Rle_trans with (at_ dy i'); [apply Hy; lia | lra]. }
  destruct (Rlt_le_dec (at_ dx (length dx - 1)) x') as [H1|H1].
  { rewrite interp_above in E' by auto. injection E' as <-. apply Rle_trans with (at_ dy j); [lra | apply Hy; lia]. }
  destruct (Nat.eq_dec (length dx) 1) as [E1|E1].
  { rewrite E1 in *. simpl in *. assert (x = x') by lra. subst x'. rewrite E in E'. injection E' as <-. lra. }
  destruct (find_segment dx x) as (k & Hk & HH); [lia | lra |].
  destruct (find_segment dx x') as (k' & Hk' & HH'); [lia | lra |].
  rewrite (interp_inside x dx dy None None false k) in E by auto. injection E as <-.
  rewrite (interp_inside x' dx dy None None false k') in E' by auto. injection E' as <-.
  pose proof (Hs k (S k) ltac:(lia) ltac:(lia)) as Hkk. pose proof (Hs k' (S k') ltac:(lia) ltac:(lia)) as Hkk'.
  pose proof (line_between _ (at_ dy k) _ (at_ dy (S k)) x Hkk HH) as Bk.
  pose proof (line_between _ (at_ dy k') _ (at_ dy (S k')) x' Hkk' HH') as Bk'.
  pose proof (Hy k (S k) ltac:(lia) ltac:(lia)). pose proof (Hy k' (S k') ltac:(lia) ltac:(lia)).
  rewrite Rmin_left, Rmax_right in Bk by lra. rewrite Rmin_left, Rmax_right in Bk' by lra.
  destruct (Nat.lt_trichotomy k k') as [C|[C|C]].
  - pose proof (Hy (S k) k' ltac:(lia) ltac:(lia)). lra.
  - subst k'. apply line_mono; lra.
  - assert (at_ dx (S k') <= at_ dx k) by (apply increasing_nondecreasing; auto; lia).
    assert (x = at_ dx k) by lra. assert (x' = at_ dx (S k')) by lra.
    assert (at_ dx (S k') = at_ dx k) by lra.
    assert (S k' = k). { destruct (Nat.eq_dec (S k') k); auto. pose proof (Hs (S k') k ltac:(lia) ltac:(lia)). lra. }
    subst k. subst x x'. unfold line. replace (at_ dx (S k') - at_ dx (S k')) with 0 by ring.
    replace ((at_ dx (S k') - at_ dx k') / (at_ dx (S k') - at_ dx k')) with 1 by (field; lra). unfold Rdiv. lra.
Qed.

(** ** interp2d_linear *)
Lemma zidx_nat {B} (l : list B) n : zidx l (Z.of_nat n) = idx l n.
Proof. unfold zidx. rewrite (proj2 (Z.leb_le 0 (Z.of_nat n))) by lia. now rewrite Nat2Z.id. Qed.
Lemma zidx_last {B} (l : list B) d : (0 < length l)%nat -> zidx l (-1) = Ok (nth (length l - 1) l d).
Proof.
  intros H. unfold zidx. simpl. unfold idx.
  rewrite (nth_error_nth' (rev l) d) by (rewrite rev_length; auto).
  rewrite rev_nth by auto. do 2 f_equal; lia.
Qed.
Lemma zidx_last2 {B} (l : list B) d : (1 < length l)%nat -> zidx l (-2) = Ok (nth (length l - 2) l d).
Proof.
  intros H. unfold zidx. simpl. change (Pos.to_nat 1) with 1%nat. unfold idx.
  rewrite (nth_error_nth' (rev l) d) by (rewrite rev_length; auto).
  rewrite rev_nth by auto. reflexivity.
Qed.
Lemma idx_nth {B} (l : list B) d i : (i < length l)%nat -> idx l i = Ok (nth i l d).
Proof. intros H. unfold idx. now rewrite (nth_error_nth' l d H). Qed.
Lemma first_ge_spec ys y i0 : first_ge ys y i0 = None /\ (forall i, (i < length ys)%nat -> at_ ys i < y) \/
  exists k, first_ge ys y i0 = Some (i0 + Z.of_nat k)%Z /\ (k < length ys)%nat /\ y <= at_ ys k /\
    forall i, (i < k)%nat -> at_ ys i < y.
Proof.
  revert i0. induction ys as [|v t IH]; intros i0; simpl.
  - left. split; auto. intros; lia.
  - numR. rcase.
    + right. exists 0%nat. splits; auto; try lia; try (f_equal; lia); try (intros; lia).
    + destruct (IH (i0 + 1)%Z) as [[E A]|(k & E & Hk & H1 & H2)].
      * left. split; auto. intros [|i] Hi; [exact Hb | apply A; lia].
      * right. exists (S k). rewrite E. splits; auto; try lia; try (f_equal; lia).
        intros [|i] Hi; [exact Hb | apply H2; lia].
Qed.

Definition row (vals : list (list R)) (i : nat) : list R := nth i vals [].
(** value on row [i] of the table: the piecewise linear interpolant in x, extended linearly *)
Lemma interp2d_inside x y xs ys vals k r0 r1 : increasing ys -> length vals = length ys ->
  (S k < length ys)%nat -> at_ ys k <= y <= at_ ys (S k) ->
  (forall i, (i < length vals)%nat -> exists v, interp x xs (row vals i) None None true = Ok v) ->
  interp x xs (row vals k) None None true = Ok r0 ->
  interp x xs (row vals (S k)) None None true = Ok r1 ->
  interp2d_linear x y xs ys vals = Ok (line (at_ ys k) r0 (at_ ys (S k)) r1 y).
Proof.
  intros Hs L Hk [H0 H1] Tot Q0 Q1. assert (Hlen : (1 < length ys)%nat) by lia.
  pose proof (Hs k (S k) ltac:(lia) ltac:(lia)) as Hkk.
  pose proof (increasing_nondecreasing _ Hs) as Hn.
  unfold interp2d_linear, interp2d_rows. rewrite idx_at by lia. cbn [bind]. rewrite last_of_at by lia. cbn [bind].
  pose proof (Hn 0%nat k ltac:(lia) ltac:(lia)). pose proof (Hn (S k) (length ys - 1)%nat ltac:(lia) ltac:(lia)).
  numR. rcase; [lra|]. rcase; [lra|].
  destruct (first_ge_spec ys y 0) as [[_ A]|(j & -> & Hj & Hy & Hl)].
  { specialize (A (length ys - 1)%nat ltac:(lia)). lra. }
  cbn [bind]. rewrite Z.add_0_l.
  destruct (Nat.eq_dec j (S k)) as [->|Nj].
  - replace (Z.of_nat (S k) - 1)%Z with (Z.of_nat k) by lia. rewrite !zidx_nat, !idx_at by lia. cbn [bind].
    rewrite !(idx_nth vals []) by lia. cbn [bind]. fold (row vals k); fold (row vals (S k)). rewrite Q0, Q1. cbn [bind].
    rewrite pydivR_ok by lra. cbn [bind]. f_equal. unfold line. field. lra.
  - assert (j = k /\ y = at_ ys k) as [-> Hyk].
    { destruct (Nat.lt_trichotomy j k) as [C|[C|C]].
      - pose proof (Hs j k C ltac:(lia)). lra.
      - subst j. split; auto; lra.
      - specialize (Hl (S k) ltac:(lia)). lra. }
    assert (line (at_ ys k) r0 (at_ ys (S k)) r1 y = r0) as -> by (unfold line; rewrite Hyk; field; lra).
    destruct k as [|k].
    + replace (Z.of_nat 0 - 1)%Z with (-1)%Z by reflexivity.
      rewrite (zidx_last ys 0) by lia. fold (at_ ys (length ys - 1)). cbn [bind].
      rewrite zidx_nat, idx_at by lia. cbn [bind].
      rewrite (zidx_last vals []) by lia. cbn [bind]. fold (row vals (length vals - 1)).
      destruct (Tot (length vals - 1)%nat ltac:(lia)) as [v ->]. cbn [bind].
      rewrite zidx_nat, (idx_nth vals []) by lia. cbn [bind]. fold (row vals 0). rewrite Q0. cbn [bind].
      pose proof (Hs 0%nat (length ys - 1)%nat ltac:(lia) ltac:(lia)).
      rewrite pydivR_ok by lra. cbn [bind]. f_equal. rewrite Hyk. field. lra.
    + replace (Z.of_nat (S k) - 1)%Z with (Z.of_nat k) by lia. rewrite !zidx_nat, !idx_at by lia. cbn [bind].
      rewrite !(idx_nth vals []) by lia. cbn [bind]. fold (row vals k); fold (row vals (S k)).
      destruct (Tot k ltac:(lia)) as [v ->]. rewrite Q0. cbn [bind].
      pose proof (Hs k (S k) ltac:(lia) ltac:(lia)).
      rewrite pydivR_ok by lra. cbn [bind]. f_equal. rewrite Hyk. field. lra.
Qed.
Lemma interp_extra_total x dx dy : increasing dx -> length dx = length dy -> (1 < length dx)%nat ->
  exists v, interp x dx dy None None true = Ok v.
Proof.
  intros Hs L L1. assert (Hn : dx <> []) by (intros ->; simpl in L1; lia).
  destruct (Rlt_le_dec x (at_ dx 0)) as [H0|H0].
  { rewrite interp_below by auto. rewrite interp_between_line by (auto; lia). eauto. }
  destruct (Rlt_le_dec (at_ dx (length dx - 1)) x) as [H1|H1].
  { rewrite interp_above by auto. rewrite interp_last_line by auto. eauto. }
  destruct (find_segment dx x) as (k & Hk & HH); [lia | auto |].
  rewrite (interp_inside x dx dy None None true k) by auto. eauto.
Qed.
