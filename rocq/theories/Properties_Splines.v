(** C72: B-spline evaluation.  [at_ l i] is the i-th entry, [nondecreasing] refers to entries, [bspline t k i] is the
    Cox - de Boor recursion (Proofs_Splines.v). *)
From Coq Require Import List Bool Reals ZArith Arith Lra Lia QArith.
From Verif Require Import Base Sums Model_Numerics Proofs_Numerics Model_Splines Proofs_Splines.
Import ListNotations.
Local Open Scope R_scope.

(** the value is the B-spline combination of the coefficients *)
Theorem C72_splev_is_bspline_combination : forall (t c : list R) (k : nat) (x : R) (ext : Z),
  nondecreasing t -> (2 * k + 2 <= length t)%nat -> at_ t (length t - k - 2) < at_ t (length t - k - 1) ->
  (length t - k - 1 <= length c)%nat -> at_ t k <= x < at_ t (length t - k - 1) ->
  py_splev x t c k ext = Ok (Rsum (fun i => at_ c i * bspline t k i x) (length t - k - 1)).
Proof. intros t c k x ext Hn Hl Hlast Hc Hx. apply splev_bspline; auto. unfold good_knots; splits; auto. Qed.

(** between the smallest and the largest coefficient, right end included *)
Theorem C72_splev_within_coefficients : forall (t c : list R) (k : nat) (x m M : R) (ext : Z),
  nondecreasing t -> (2 * k + 2 <= length t)%nat -> at_ t (length t - k - 2) < at_ t (length t - k - 1) ->
  (length t - k - 1 <= length c)%nat -> at_ t k <= x <= at_ t (length t - k - 1) ->
  (forall j, (j < length t - k - 1)%nat -> m <= at_ c j <= M) ->
  exists v, py_splev x t c k ext = Ok v /\ m <= v <= M.
Proof. intros t c k x m M ext Hn Hl Hlast Hc Hx. apply splev_range; auto. unfold good_knots; splits; auto. Qed.

(** the four ways of treating a point outside *)
Theorem C72_splev_outside : forall (t c : list R) (k : nat) (x : R),
  nondecreasing t -> (2 * k + 2 <= length t)%nat -> x < at_ t k \/ at_ t (length t - k - 1) < x ->
  py_splev x t c k 1 = Ok 0 /\ py_splev x t c k 2 = Err ValueError /\
  py_splev x t c k 3 = py_splev (Rmax (at_ t k) (Rmin x (at_ t (length t - k - 1)))) t c k 3.
Proof.
  intros t c k x Hn Hl Hx. assert (at_ t k <= at_ t (length t - k - 1)) by (apply Hn; lia).
  splits; eapply splev_outside; eauto; lia.
Qed.
Theorem C72_splev_constant_everywhere : forall (t c : list R) (k : nat) (x m : R),
  nondecreasing t -> (2 * k + 2 <= length t)%nat -> at_ t (length t - k - 2) < at_ t (length t - k - 1) -> at_ t k < at_ t (S k) ->
  (length t - k - 1 <= length c)%nat -> (forall j, (j < length t - k - 1)%nat -> at_ c j = m) ->
  py_splev x t c k 0 = Ok m.
Proof. intros t c k x m Hn Hl Hlast Hk Hc. apply splev_constant; auto. unfold good_knots; splits; auto. Qed.
(** degree one interpolates linearly *)
Theorem C72_splev_degree_one : forall (t c : list R) (x : R) (ext : Z) (l : nat),
  nondecreasing t -> (4 <= length t)%nat -> at_ t (length t - 3) < at_ t (length t - 2) ->
  (length t - 2 <= length c)%nat -> (2 <= l <= length t - 2)%nat -> at_ t (l - 1) < at_ t l ->
  at_ t (l - 1) <= x < at_ t l \/ (at_ t (l - 1) <= x <= at_ t l /\ l = (length t - 2)%nat) ->
  py_splev x t c 1 ext = Ok (line (at_ t (l - 1)) (at_ c (l - 2)) (at_ t l) (at_ c (l - 1)) x).
Proof.
  intros t c x ext l Hn Hl Hlast. apply splev_1. unfold good_knots. replace (length t - 1 - 2)%nat with (length t - 3)%nat by lia.
  replace (length t - 1 - 1)%nat with (length t - 2)%nat by lia. splits; auto; lia.
Qed.
(** surfaces: clamped outside the domain, always between the smallest and the largest coefficient *)
Theorem C72_bisplev_within_coefficients : forall (tx ty c : list R) (kx ky : nat) (x y m M : R),
  nondecreasing tx -> (2 * kx + 2 <= length tx)%nat -> at_ tx (length tx - kx - 2) < at_ tx (length tx - kx - 1) ->
  nondecreasing ty -> (2 * ky + 2 <= length ty)%nat -> at_ ty (length ty - ky - 2) < at_ ty (length ty - ky - 1) ->
  ((length tx - kx - 1) * (length ty - ky - 1) <= length c)%nat ->
  (forall i, (i < length c)%nat -> m <= at_ c i <= M) ->
  exists v, bisplev tx ty c kx ky x y = Ok v /\ m <= v <= M.
Proof.
  intros tx ty c kx ky x y m M Hx Lx Ex Hy Ly Ey Hc. apply bisplev_range; auto.
  1-2: unfold good_knots; splits; auto.
  - apply Hx; lia.
  - apply Hy; lia.
Qed.
(** the linear surface through a grid: the bilinear interpolant of the cell containing the clamped point *)
Theorem C72_linear_surface_is_bilinear : forall (xs ys : list R) (z : list (list R)) (x y : R) (i j : nat),
  increasing xs -> increasing ys -> (i + 1 < length xs)%nat -> (j + 1 < length ys)%nat ->
  length z = length ys -> (forall r, In r z -> length r = length xs) ->
  let cx := Rmin (at_ xs (length xs - 1)) (Rmax (at_ xs 0) x) in
  let cy := Rmin (at_ ys (length ys - 1)) (Rmax (at_ ys 0) y) in
  at_ xs i <= cx <= at_ xs (i + 1) -> at_ ys j <= cy <= at_ ys (j + 1) ->
  exists tx ty c, tck_interp2d_linear xs ys z = Ok (tx, ty, c) /\
    bisplev tx ty c 1 1 x y = Ok (
      let h := (cx - at_ xs i) / (at_ xs (i + 1) - at_ xs i) in
      let v := (cy - at_ ys j) / (at_ ys (j + 1) - at_ ys j) in
      (1 - h) * (1 - v) * zget z j i + h * (1 - v) * zget z j (i + 1)
      + (1 - h) * v * zget z (j + 1) i + h * v * zget z (j + 1) (i + 1)).
Proof.
  intros xs ys z x y i j Hx Hy Hi Hj Hz Hr cx cy Hcx Hcy.
  destruct (bisplev_linear xs ys z x y i j) as (tx & ty & c & E1 & E2); auto.
  exists tx, ty, c. split; auto. rewrite E2. f_equal. unfold clamp. fold cx cy. unfold bilinear, line. cbv zeta. ring.
Qed.
(** in particular the surface passes through every node *)
Theorem C72_linear_surface_through_nodes : forall (xs ys : list R) (z : list (list R)) (i j : nat),
  increasing xs -> increasing ys -> (2 <= length xs)%nat -> (2 <= length ys)%nat -> (i < length xs)%nat -> (j < length ys)%nat ->
  length z = length ys -> (forall r, In r z -> length r = length xs) ->
  exists tx ty c, tck_interp2d_linear xs ys z = Ok (tx, ty, c) /\
    bisplev tx ty c 1 1 (at_ xs i) (at_ ys j) = Ok (zget z j i).
Proof.
  intros xs ys z i j Hx Hy Lx Ly Hi Hj Hz Hr.
  assert (P : forall (l : list R) k, increasing l -> (2 <= length l)%nat -> (k < length l)%nat ->
    Rmin (at_ l (length l - 1)) (Rmax (at_ l 0) (at_ l k)) = at_ l k /\
    exists k', (k' + 1 < length l)%nat /\ ((k' = k /\ at_ l k < at_ l (k + 1)) \/ (k = (k' + 1)%nat /\ at_ l k' < at_ l k))).
  { intros l k Hl L2 Hk. split.
    - assert (at_ l 0 <= at_ l k). { destruct k; [lra|]. apply Rlt_le, Hl; lia. }
      assert (at_ l k <= at_ l (length l - 1)). { destruct (Nat.eq_dec k (length l - 1)) as [->|]; [lra|]. apply Rlt_le, Hl; lia. }
      rewrite Rmax_right by auto. apply Rmin_right; auto.
    - destruct (Nat.eq_dec k (length l - 1)) as [->|].
      + exists (length l - 2)%nat. split; [lia|]. right. split; [lia|]. apply Hl; lia.
      + exists k. split; [lia|]. left. split; auto. apply Hl; lia. }
  destruct (P xs i Hx Lx Hi) as (Cx & i' & Hi' & Kx). destruct (P ys j Hy Ly Hj) as (Cy & j' & Hj' & Ky).
  destruct (C72_linear_surface_is_bilinear xs ys z (at_ xs i) (at_ ys j) i' j') as (tx & ty & c & E1 & E2); auto.
  { rewrite Cx. destruct Kx as [[-> K]|[-> K]]; lra. }
  { rewrite Cy. destruct Ky as [[-> K]|[-> K]]; lra. }
  exists tx, ty, c. split; auto. rewrite E2. rewrite Cx, Cy. cbv zeta. f_equal.
  destruct Kx as [[-> K]|[-> K]]; destruct Ky as [[-> K']|[-> K']]; field; lra.
Qed.
Example C72_example : py_splev 1.5%Q [0;0;1;2;3;3]%Q [10; 20; 30; 50]%Q 1 0 = Ok 25%Q
  /\ py_splev 9%Q [0;0;1;2;3;3]%Q [10; 20; 30; 50]%Q 1 3 = Ok 50%Q
  /\ py_splev 9%Q [0;0;1;2;3;3]%Q [10; 20; 30; 50]%Q 1 2 = Err ValueError
  /\ match py_splev (1#2)%Q [0;0;0;1;2;2;2]%Q [1; 2; 5; 8]%Q 2 0 with Ok v => Qeq_bool v (17#8) | _ => false end = true.
Proof. vm_compute. auto. Qed.
Example C72_example_surface :
  match tck_interp2d_linear [0; 1; 3]%Q [0; 2]%Q [[1; 2; 3]; [5; 7; 9]]%Q with
  | Ok (tx, ty, c) => match bisplev tx ty c 1 1 2%Q 1%Q with Ok v => Qeq_bool v (21#4) | _ => false end
  | _ => false end = true.
Proof. vm_compute. reflexivity. Qed.

Print Assumptions C72_splev_is_bspline_combination.
Print Assumptions C72_splev_within_coefficients.
Print Assumptions C72_splev_outside.
Print Assumptions C72_splev_constant_everywhere.
Print Assumptions C72_splev_degree_one.
Print Assumptions C72_bisplev_within_coefficients.
Print Assumptions C72_linear_surface_is_bilinear.
Print Assumptions C72_linear_surface_through_nodes.
