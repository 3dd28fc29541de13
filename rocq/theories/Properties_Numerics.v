(** Theorems C15-C17, C22-C30, C63-C68: searching, interpolation, sequences, Chebyshev series,
    statistics, bounded variables, caching, oscillation check, simplex search, quadrature, fits.
    [at_ l i] is the i-th entry (0-based) of l; [Rsum f n] is f 0 + ... + f (n-1). *)
From Coq Require Import List Bool QArith Qabs Reals ZArith Arith Lra Lia Psatz.
From Coquelicot Require Import Coquelicot.
From Verif Require Import Base Sums Spec_Poly Model_Poly Proofs_Poly2 Model_Numerics Proofs_Numerics Proofs_Seq Proofs_Cheb
  Proofs_Opt Proofs_Misc Proofs_Misc2 Proofs_Misc3 Proofs_Misc4 Proofs_GK.
Import ListNotations.
Local Open Scope R_scope.

(** ** C15 *)
Theorem C15_binary_search : forall key arr, nondecreasing arr -> arr <> [] ->
  exists j, binary_search key arr = Ok j /\
   ((at_ arr (length arr - 1) < key /\ j = Z.of_nat (length arr)) \/
    (key <= at_ arr (length arr - 1) /\ (-1 <= j < Z.of_nat (length arr))%Z /\
     forall i, (i < length arr)%nat -> ((Z.of_nat i <= j)%Z <-> at_ arr i <= key))).
Proof. exact binary_search_spec. Qed.
(** termination does not depend on the array being sorted *)
Theorem C15_binary_search_terminates : forall (key : R) arr, arr <> [] -> exists j, binary_search key arr = Ok j.
Proof. exact binary_search_total. Qed.
Theorem C15_binary_search_cases : forall key arr, increasing arr -> arr <> [] ->
  (forall k, (S k < length arr)%nat -> at_ arr k <= key < at_ arr (S k) -> binary_search key arr = Ok (Z.of_nat k)) /\
  (key = at_ arr (length arr - 1) -> binary_search key arr = Ok (Z.of_nat (length arr) - 1)%Z) /\
  (key < at_ arr 0 -> binary_search key arr = Ok (-1)%Z) /\
  (at_ arr (length arr - 1) < key -> binary_search key arr = Ok (Z.of_nat (length arr))).
Proof.
  intros key arr I N. splits.
  - intros k Hk [H1 H2]. now apply binary_search_segment.
  - intros ->. now apply binary_search_last.
  - now apply binary_search_below.
  - now apply binary_search_above.
Qed.
Example C15_ex : map (fun k => binary_search k [1; 3; 5; 7]%Q) [0; 1; 4; 7; 8]%Q = map Ok [-1; 0; 1; 3; 4]%Z.
Proof. vm_compute. reflexivity. Qed.
Example C15_ex_hyp : increasing [1; 3; 5; 7].
Proof. apply adjacent_increasing. intros [|[|[|i]]] H; unfold at_; simpl in *; try lra. lia. Qed.

(** ** C16 *)
(** between the nodes: the straight line through the two neighbours (also at the nodes), for
    every choice of the optional arguments *)
Theorem C16_interp_inside : forall x dx dy l r e k, increasing dx -> length dx = length dy -> (S k < length dx)%nat ->
  at_ dx k <= x <= at_ dx (S k) ->
  interp x dx dy l r e =
    Ok (at_ dy k + (at_ dy (S k) - at_ dy k) * ((x - at_ dx k) / (at_ dx (S k) - at_ dx k))).
Proof. exact interp_inside. Qed.
Theorem C16_interp_outside : forall x dx dy, increasing dx -> length dx = length dy -> dx <> [] ->
  (x < at_ dx 0 -> forall r e, interp x dx dy None r false = Ok (at_ dy 0) /\ forall v, interp x dx dy (Some v) r e = Ok v) /\
  (at_ dx (length dx - 1) < x -> forall l e, interp x dx dy l None false = Ok (at_ dy (length dy - 1)) /\
      forall v, interp x dx dy l (Some v) e = Ok v).
Proof.
  intros x dx dy I L N. split; intros H a e; (split; [|intros v]); rewrite ?interp_below, ?interp_above by auto; reflexivity.
Qed.
Theorem C16_interp_extrapolate : forall x dx dy, increasing dx -> length dx = length dy -> (1 < length dx)%nat ->
  let n := length dx in
  (x < at_ dx 0 -> interp x dx dy None None true = Ok (line (at_ dx 0) (at_ dy 0) (at_ dx 1) (at_ dy 1) x)) /\
  (at_ dx (n - 1) < x -> interp x dx dy None None true =
     Ok (line (at_ dx (n - 2)) (at_ dy (n - 2)) (at_ dx (n - 1)) (at_ dy (n - 1)) x)).
Proof.
  intros x dx dy I L N n. assert (dx <> []) by (intros ->; simpl in N; lia). split; intros H0.
  - rewrite interp_below by auto. apply interp_between_line; auto.
  - rewrite interp_above by auto. apply interp_last_line; auto.
Qed.
Theorem C16_interp_bounded : forall x dx dy, increasing dx -> length dx = length dy -> dx <> [] ->
  exists v, interp x dx dy None None false = Ok v /\
   exists i j, (i < length dy)%nat /\ (j < length dy)%nat /\ at_ dy i <= v <= at_ dy j.
Proof.
  intros x dx dy I L N. destruct (interp_default_total x dx dy I L N) as (v & E). exists v. split; auto.
  eapply interp_range; eauto.
Qed.
Theorem C16_interp_monotone : forall x x' dx dy v v', increasing dx -> length dx = length dy -> dx <> [] ->
  nondecreasing dy -> x <= x' -> interp x dx dy None None false = Ok v -> interp x' dx dy None None false = Ok v' -> v <= v'.
Proof. exact interp_mono. Qed.
(** bilinear interpolation: linear in y between the two rows, each row interpolated in x *)
Theorem C16_interp2d_linear : forall x y xs ys vals k, increasing xs -> increasing ys -> length vals = length ys ->
  (1 < length xs)%nat -> (forall i, (i < length vals)%nat -> length (row vals i) = length xs) ->
  (S k < length ys)%nat -> at_ ys k <= y <= at_ ys (S k) ->
  exists r0 r1, interp x xs (row vals k) None None true = Ok r0 /\
    interp x xs (row vals (S k)) None None true = Ok r1 /\
    interp2d_linear x y xs ys vals = Ok (line (at_ ys k) r0 (at_ ys (S k)) r1 y).
Proof.
  intros x y xs ys vals k Ix Iy L Nx R Hk Hy.
  assert (T : forall i, (i < length vals)%nat -> exists v, interp x xs (row vals i) None None true = Ok v).
  { intros i Hi. apply interp_extra_total; auto. symmetry. auto. }
  destruct (T k) as (r0 & E0); [lia|]. destruct (T (S k)) as (r1 & E1); [lia|]. exists r0, r1. splits; auto.
  apply interp2d_inside; auto.
Qed.
Example C16_ex : map (fun x => interp x [1; 3; 7]%Q [10; 20; 0]%Q None None false) [0; 1; 2; 5; 7; 9]%Q =
  map Ok [10; 10; 15; 10; 0; 0]%Q.
Proof. vm_compute. reflexivity. Qed.
Example C16_ex_2d : interp2d_linear 2%Q (1#2)%Q [1; 3]%Q [0; 1]%Q [[10; 20]; [30; 50]]%Q = Ok (55#2)%Q.
Proof. vm_compute. reflexivity. Qed.

(** ** C17 *)
Theorem C17_linspace : forall start stop num, (2 <= num)%Z ->
  exists l, linspace start stop num true = Ok l /\ length l = Z.to_nat num /\
    at_ l 0 = start /\ at_ l (length l - 1) = stop /\
    forall i, (S i < length l)%nat -> at_ l (S i) - at_ l i = (stop - start) / IZR (num - 1).
Proof.
  intros start stop num H. destruct (linspace_end start stop num H) as (l & E & Ll & Hl). exists l. splits; auto.
  - rewrite Hl by lia. simpl. ring.
  - rewrite Hl by lia. rewrite Ll. rewrite INR_IZR_INZ. replace (Z.of_nat (Z.to_nat num - 1)) with (num - 1)%Z by lia.
    field. apply IZR_neq. lia.
  - intros i Hi. rewrite !Hl by lia. rewrite S_INR. ring.
Qed.
Theorem C17_linspace_no_endpoint : forall start stop num, (1 <= num)%Z ->
  exists l, linspace start stop num false = Ok l /\ length l = Z.to_nat num /\
    forall i, (i < length l)%nat -> at_ l i = start + INR i * ((stop - start) / IZR num).
Proof. exact linspace_noend. Qed.
Theorem C17_linspace_degenerate : forall start stop : R,
  linspace start stop 1 true = Ok [start] /\ forall num e, (num <= 0)%Z -> linspace start stop num e = Ok [].
Proof. intros. split; [apply linspace_one | intros; now apply linspace_none]. Qed.
Theorem C17_cumulative_trapezoid : forall y x, (2 <= length y)%nat -> length x = length y ->
  exists r, cumulative_trapezoid y (Some x) None = Ok r /\ length r = (length y - 1)%nat /\
   forall i, (i < length r)%nat -> at_ r i =
     Rsum (fun k => (at_ y k + at_ y (S k)) / 2 * (at_ x (S k) - at_ x k)) (S i).
Proof. exact trapezoid_x_ok. Qed.
Theorem C17_cumulative_trapezoid_dx : forall y dx, (2 <= length y)%nat ->
  exists r, cumulative_trapezoid y None (Some dx) = Ok r /\ length r = (length y - 1)%nat /\
   forall i, (i < length r)%nat -> at_ r i = Rsum (fun k => (at_ y k + at_ y (S k)) / 2 * dx) (S i).
Proof. exact trapezoid_dx_ok. Qed.
Theorem C17_cumulative_trapezoid_affine : forall y x a b, (2 <= length y)%nat -> length x = length y ->
  (forall i, (i < length y)%nat -> at_ y i = a * at_ x i + b) ->
  exists r, cumulative_trapezoid y (Some x) None = Ok r /\
   forall i, (i < length y - 1)%nat -> is_RInt (fun t => a * t + b) (at_ x 0) (at_ x (S i)) (at_ r i).
Proof.
  intros y x a b H L A. destruct (trapezoid_affine y x a b H L A) as (r & E & Lr & Hr). exists r. split; auto.
  intros i Hi. rewrite Hr by lia. apply (is_RInt_derive (fun t => a * t ^ 2 / 2 + b * t)).
  - intros t _. auto_derive; auto. field.
  - intros t _. apply (ex_derive_continuous (fun t => a * t + b)). auto_derive; auto.
Qed.
Theorem C17_cumsum : forall l, l <> [] -> exists r, cumsum l = Ok r /\ length r = length l /\
  forall i, (i < length l)%nat -> at_ r i = Rsum (at_ l) (S i).
Proof. exact cumsum_spec. Qed.
Theorem C17_diff_cumsum : forall l r, cumsum l = Ok r -> diff r 1 = Ok (tl l).
Proof. exact diff_cumsum. Qed.
(** n-th differences: binomial formula *)
Theorem C17_diff : forall l n, (1 <= n)%Z -> exists r, diff l n = Ok r /\ length r = (length l - Z.to_nat n)%nat /\
  forall i, (i < length r)%nat ->
    at_ r i = Rsum (fun k => (-1) ^ (Z.to_nat n - k) * Binomial.C (Z.to_nat n) k * at_ l (i + k)) (S (Z.to_nat n)).
Proof.
  intros l n Hn. exists (diff_iter (Z.to_nat n) l). splits.
  - unfold diff. destruct (Z.eqb_spec n 0); [lia|]. destruct (Z.ltb_spec n 0); [lia | reflexivity].
  - apply diff_iter_length.
  - intros i Hi. rewrite diff_iter_length in Hi. apply diff_iter_spec. lia.
Qed.
Theorem C17_product : forall l1 l2 : list R, product (l1 ++ l2) = product l1 * product l2 /\ product [] = 1 /\
  forall x, product [x] = x.
Proof. intros. rewrite !product_spec, lprod_app. splits; auto. intros. rewrite product_spec. simpl. ring. Qed.
Example C17_ex : linspace 1%Q 3%Q 5 true = Ok [1; 3#2; 2; 5#2; 3]%Q /\ cumsum [1; 2; 4]%Q = Ok [1; 3; 7]%Q /\
  diff [1; 4; 9; 16]%Q 2 = Ok [2; 2]%Q /\ cumulative_trapezoid [1; 3; 5]%Q (Some [0; 1; 2]%Q) None = Ok [2; 6]%Q.
Proof. vm_compute. splits; reflexivity. Qed.

(** ** C22 *)
(** T_k is the Chebyshev polynomial: T_k(cos t) = cos(k t) *)
Theorem C22_chebval : forall x c offset scale, c <> [] ->
  chebval x c offset scale = Ok (Rsum (fun k => at_ c k * chebT k (offset + scale * x)) (length c)) /\
  forall k t, chebT k (cos t) = cos (INR k * t).
Proof. intros. split; [now apply chebval_series | exact chebT_cos]. Qed.
Theorem C22_chebder : forall c m o scl, (m < length c)%nat ->
  length (chebder c m scl) = (length c - m)%nat /\
  forall x, exists d, chebval x (chebder c m scl) o scl = Ok d /\
    is_derive_n (fun y => cheb_series c (o + scl * y)) m x d.
Proof.
  intros c m o scl H. destruct (chebder_spec c m o scl H) as (d & <- & L & D). split; auto.
  intros x. eexists. split; [apply chebval_series; intro N; rewrite N in L; simpl in L; lia | apply D].
Qed.
(** the derivative of order >= the number of coefficients should be the zero series; the code
    returns no coefficients, which chebval rejects *)
Theorem C22_chebder_high_order_refuted : exists (c : list R) m x, (length c <= m)%nat /\ c <> [] /\
  chebval x (chebder c m 1) 0 1 = Err IndexError.
Proof. exists [5], 1%nat, 0. splits; [simpl; lia | discriminate | reflexivity]. Qed.
Theorem C22_chebint : forall c m lbnd scl, c <> [] -> (0 <= m)%Z ->
  exists r, chebint c m lbnd scl = Ok r /\ integrated (Z.to_nat m) scl lbnd (cheb_series c) (cheb_series r).
Proof. exact chebint_spec. Qed.
Theorem C22_chebint_once : forall c lbnd scl, c <> [] ->
  exists r, chebint c 1 lbnd scl = Ok r /\
    forall u, is_RInt (fun t => scl * cheb_series c t) lbnd u (cheb_series r u).
Proof.
  intros c lbnd scl H. destruct (chebint_spec c 1 lbnd scl H ltac:(lia)) as (r & E & I). exists r. split; auto.
  change (Z.to_nat 1) with 1%nat in I. apply integrated_integral in I.
  - destruct I as (h & I0 & I1). simpl in I0. intros u. rewrite I0. apply I1.
  - intros u. apply (ex_derive_continuous (cheb_series c)). eexists. apply is_derive_series.
Qed.
(** exponential and log-tau variants, with the derivative coefficient lists produced by chebder *)
Theorem C22_exp_cheb : forall cs o s x, (3 < length cs)%nat ->
  let p := fun y => cheb_series cs (o + s * y) in p x <= exp_overflow ->
  let F := fun y => exp (p y) in
  exists d1 d2 d3, ders3 F x d1 d2 d3 /\
    exp_cheb x cs o s = Ok (F x) /\
    exp_cheb_and_der x cs (chebder cs 1 s) o s = Ok (F x, d1) /\
    exp_cheb_and_der2 x cs (chebder cs 1 s) (chebder cs 2 s) o s = Ok (F x, d1, d2) /\
    exp_cheb_and_der3 x cs (chebder cs 1 s) (chebder cs 2 s) (chebder cs 3 s) o s = Ok (F x, d1, d2, d3).
Proof.
  intros cs o s x L p Hp F. do 3 eexists. split;
   [apply (exp_ders3 (cv cs o s) (cv (chebder cs 1 s) o s) (cv (chebder cs 2 s) o s) (cv (chebder cs 3 s) o s));
     intros; [apply cd1 | apply cd2 | apply cd3]; lia|].
  rewrite exp_cheb_eq, exp_cheb1_eq, exp_cheb2_eq, exp_cheb3_eq by (auto; lia). auto.
Qed.
Theorem C22_chebval_ln_tau : forall cs o s T Tc, (3 < length cs)%nat -> 0 < Tc -> T < Tc ->
  let F := fun t => cheb_series cs (o + s * ln (1 - t / Tc)) in
  exists d1 d2 d3, ders3 F T d1 d2 d3 /\
    chebval_ln_tau T Tc cs o s = Ok (F T) /\
    chebval_ln_tau_and_der T Tc cs (chebder cs 1 s) o s = Ok (F T, d1) /\
    chebval_ln_tau_and_der2 T Tc cs (chebder cs 1 s) (chebder cs 2 s) o s = Ok (F T, d1, d2) /\
    chebval_ln_tau_and_der3 T Tc cs (chebder cs 1 s) (chebder cs 2 s) (chebder cs 3 s) o s = Ok (F T, d1, d2, d3).
Proof.
  intros cs o s T Tc L H1 H2 F. do 3 eexists. split;
   [apply (lt_ders3 (cv cs o s) (cv (chebder cs 1 s) o s) (cv (chebder cs 2 s) o s) (cv (chebder cs 3 s) o s)); auto;
     intros; [apply cd1 | apply cd2 | apply cd3]; lia|].
  rewrite clt, clt1, clt2, clt3 by (auto; lia). auto.
Qed.
Theorem C22_exp_cheb_ln_tau : forall cs o s T Tc, (2 < length cs)%nat -> 0 < Tc -> T < Tc ->
  let p := fun t => cheb_series cs (o + s * ln (1 - t / Tc)) in p T <= exp_overflow ->
  let F := fun t => exp (p t) in
  exists d1 d2, ders2 F T d1 d2 /\
    exp_cheb_ln_tau T Tc cs o s = Ok (F T) /\
    exp_cheb_ln_tau_and_der T Tc cs (chebder cs 1 s) o s = Ok (F T, d1) /\
    exp_cheb_ln_tau_and_der2 T Tc cs (chebder cs 1 s) (chebder cs 2 s) o s = Ok (F T, d1, d2).
Proof.
  intros cs o s T Tc L H1 H2 p Hp F. do 2 eexists. split;
   [apply (lt_ders2 (e0 (cv cs o s)) (e1 (cv cs o s) (cv (chebder cs 1 s) o s)) (e2 (cv cs o s) (cv (chebder cs 1 s) o s) (cv (chebder cs 2 s) o s))); auto|].
  - intros x. apply Proofs_Poly2.E1. intros; apply cd1; lia.
  - intros x. apply Proofs_Poly2.E2; intros; [apply cd1 | apply cd2]; lia.
  - rewrite eclt, eclt1, eclt2 by (auto; lia). auto.
Qed.
Theorem C22_ln_tau_at_or_above_critical : forall cs ds d2s d3s T Tc o s, Tc <= T ->
  chebval_ln_tau T Tc cs o s = Ok 0 /\ chebval_ln_tau_and_der T Tc cs ds o s = Ok (0, 0) /\
  chebval_ln_tau_and_der2 T Tc cs ds d2s o s = Ok (0, 0, 0) /\
  chebval_ln_tau_and_der3 T Tc cs ds d2s d3s o s = Ok (0, 0, 0, 0) /\
  exp_cheb_ln_tau T Tc cs o s = Ok 0 /\ exp_cheb_ln_tau_and_der T Tc cs ds o s = Ok (0, 0) /\
  exp_cheb_ln_tau_and_der2 T Tc cs ds d2s o s = Ok (0, 0, 0).
Proof.
  intros. unfold chebval_ln_tau, chebval_ln_tau_and_der, chebval_ln_tau_and_der2, chebval_ln_tau_and_der3,
    exp_cheb_ln_tau, exp_cheb_ln_tau_and_der, exp_cheb_ln_tau_and_der2.
  assert (E : Rleb Tc T = true) by (apply Rleb_true; lra). rewrite E. splits; reflexivity.
Qed.
Example C22_ex : chebval 2%Q [1; 2; 3; 4]%Q 0%Q 1%Q = Ok (1 + 2*2 + 3*7 + 4*26)%Q /\
  chebder [1; 2; 3; 4]%Q 1 1%Q = [14; 12; 24]%Q /\ chebint [3]%Q 1 1%Q 1%Q = Ok [-3; 3]%Q.
Proof. vm_compute. splits; reflexivity. Qed.

(** ** C23 *)
Theorem C23_normalize : forall l,
  (lsum l <> 0 -> exists r, normalize l = Ok r /\ lsum r = 1 /\ length r = length l /\
     forall i, at_ r i * lsum l = at_ l i) /\
  (lsum l = 0 -> normalize l = Err ZeroDivisionError).
Proof. intros l. split; [apply normalize_ok | apply normalize_err]. Qed.
Theorem C23_mean : forall l, l <> [] -> exists m, mean l = Ok m /\ m * INR (length l) = lsum l /\
  (forall a b, (forall x, In x l -> a <= x <= b) -> a <= m <= b) /\
  lsum (map (fun x => x - m) l) = 0.
Proof.
  intros l H. exists (lsum l / INR (length l)). assert (P : 0 < INR (length l)) by (apply lt_0_INR; destruct l; [contradiction | simpl; lia]).
  splits.
  - now apply mean_ok.
  - field. lra.
  - intros a b B. assert (S : INR (length l) * a <= lsum l <= INR (length l) * b).
    { clear - B. induction l as [|h t IH]; [simpl; lra|]. cbn [length lsum]. rewrite S_INR.
      specialize (IH ltac:(intros; apply B; right; auto)). specialize (B h ltac:(left; auto)). lra. }
    split; apply (Rmult_le_reg_r (INR (length l))); auto; field_simplify; lra.
  - rewrite lsum_dev. field. lra.
Qed.
Theorem C23_std : forall l, l <> [] -> exists s, std l = Ok s /\ 0 <= s /\
  s = sqrt (lsum (map (fun x => (x - lsum l / INR (length l)) ^ 2) l) / INR (length l)) /\
  (s = 0 <-> forall x y, In x l -> In y l -> x = y).
Proof.
  intros l H. exists (sqrt (sq_dev (lsum l / INR (length l)) l / INR (length l))).
  splits; [now apply std_ok | apply sqrt_pos | reflexivity | apply std_zero; auto; now apply std_ok].
Qed.
Theorem C23_empty : mean (@nil R) = Err ZeroDivisionError /\ std [] = Err ZeroDivisionError.
Proof. split; [apply mean_nil | apply std_nil]. Qed.
Theorem C23_detect_outlier_normal : forall l cut r, detect_outlier_normal l cut = Ok r -> 0 <= cut ->
  exists m s, mean l = Ok m /\ std l = Ok s /\
   forall i, In i r <-> (i < length l)%nat /\ cut * s < Rabs (at_ l i - m).
Proof. exact detect_outlier_spec. Qed.
Example C23_ex : normalize [1; 3; 4]%Q = Ok [1#8; 3#8; 1#2]%Q /\ mean [1; 2; 6]%Q = Ok 3%Q.
Proof. vm_compute. split; reflexivity. Qed.

(** ** C24 *)
Theorem C24_image_strictly_inside : forall low high x, length low = length x -> length high = length x ->
  (forall i, (i < length x)%nat -> at_ low i < at_ high i) ->
  exists y, translate_outof low high x = Ok y /\ length y = length x /\
   forall i, (i < length x)%nat -> at_ low i < at_ y i < at_ high i.
Proof. exact translate_inside. Qed.
(** to the bounded box and back; the overflow limit of exp (709.78...) bounds the domain *)
Theorem C24_outof_then_into : forall low high x, length low = length x -> length high = length x ->
  (forall i, (i < length x)%nat -> at_ low i < at_ high i /\ - exp_overflow <= at_ x i) ->
  exists y, translate_outof low high x = Ok y /\ translate_into low high y = Ok x /\
    forall i, (i < length x)%nat -> at_ low i < at_ y i < at_ high i.
Proof. exact round_trip_outer. Qed.
Theorem C24_into_then_outof : forall low high x, length low = length x -> length high = length x ->
  (forall i, (i < length x)%nat -> at_ low i < at_ x i < at_ high i) ->
  (forall i, (i < length x)%nat -> ln ((at_ high i - at_ x i) / (at_ x i - at_ low i)) <= exp_overflow) ->
  exists y, translate_into low high x = Ok y /\ translate_outof low high y = Ok x.
Proof. exact round_trip_inner. Qed.
(** the wrapped function receives the translated point *)
Theorem C24_wrapped_function : forall (Y : Type) (func : list R -> Y) low high x y,
  translate_into low high x = Ok y -> translate_outof low high y = Ok x -> bound_func func low high y = Ok (func x).
Proof. intros Y func low high x y _ E. unfold bound_func. rewrite E. reflexivity. Qed.
(** the wrapped gradient is the gradient of the wrapped function *)
Theorem C24_wrapped_gradient : forall (func : list R -> R) (jac : list R -> list R) low high x,
  length low = length x -> length high = length x ->
  (forall i, (i < length x)%nat -> - exp_overflow < at_ x i) ->
  (forall y, length y = length x -> length (jac y) = length x /\
     forall i, (i < length x)%nat -> is_derive (fun t => func (upd y i t)) (at_ y i) (at_ (jac y) i)) ->
  exists r, bound_jac jac low high x = Ok r /\ length r = length x /\
    forall i, (i < length x)%nat -> exists G, (forall t, bound_func func low high (upd x i t) = Ok (G t)) /\
      is_derive G (at_ x i) (at_ r i).
Proof. exact bound_jac_ok. Qed.
(** below minus the overflow limit the round trip fails: different points have the same image *)
Theorem C24_outof_then_into_all_refuted : exists x1 x2 y, x1 <> x2 /\
  translate_outof [0] [1] [x1] = Ok [y] /\ translate_outof [0] [1] [x2] = Ok [y].
Proof.
  exists (- exp_overflow - 1), (- exp_overflow - 2), (outof1 0 1 (- exp_overflow - 2)).
  assert (O : forall x, x < - exp_overflow -> trunc_exp (- x) = trunc_exp_default)
    by (intros; unfold trunc_exp, pexp; rcase; [reflexivity | lra]).
  splits; [lra | | reflexivity]. cbn [translate_outof bind]. unfold outof1. rewrite !O by lra. reflexivity.
Qed.
Example C24_ex : translate_outof [0] [2] [0] = Ok [1] /\ translate_into [0] [2] [1] = Ok [0].
Proof.
  assert (0 < exp_overflow) by (unfold exp_overflow, Q2R; simpl; lra). split.
  - cbn [translate_outof bind]. unfold outof1. rewrite trunc_exp_ok by lra. rewrite Ropp_0, exp_0. repeat f_equal. field.
  - cbn [translate_into]. unfold into1. rewrite pdiv_ok by lra. cbn [bind]. unfold trunc_log.
    replace ((2 - 1) / (1 - 0)) with 1 by field.
    destruct (Reqb 1 0) eqn:Z; rb Z; [lra|]. rewrite plog_ok by lra. cbn [bind]. rewrite ln_1, Ropp_0. reflexivity.
Qed.

(** ** C25 *)
(** f is given as a function of the point and of the info flag, returning value and info; the
    trace of points at which f was evaluated is [evals] *)
Theorem C25_caching : forall (X V I : Type) (eqb : X -> X -> bool) (f : X -> bool -> V * I) calls,
  (forall a b, eqb a b = true <-> a = b) -> 
  let '(st, rs) := run_cache eqb f cache_empty calls in
  NoDup (evals st) /\ (forall x, In x (evals st) <-> In x (map fst calls)) /\ length rs = length calls /\
  (forall n x b v i, nth_error calls n = Some (x, b) -> nth_error rs n = Some (Ok (v, i)) ->
      (exists b', v = fst (f x b')) /\ i = if b then Some (snd (f x true)) else None) /\
  ((forall x, In (x, true) calls -> In (x, false) calls -> False) -> forall r, In r rs -> exists v i, r = Ok (v, i)).
Proof.
  intros X V I eqb f calls H. 
  assert (K : cache_ok f (@cache_empty X V I)).
  { unfold cache_ok, cache_empty; simpl. splits; try tauto; try constructor. }
  pose proof (run_cache_ok eqb H f calls _ K) as P. pose proof (run_cache_noerr eqb H f calls _ K) as N.
  destruct (run_cache eqb f cache_empty calls) as [st rs]. destruct P as (P1 & P2 & P3 & P4). splits.
  - apply P1.
  - intros x. rewrite P3. simpl. tauto.
  - exact P2.
  - exact P4.
  - intros Hm r Hr. apply N; auto.
Qed.
(** a call without info followed by a call with info at the same point fails *)
Theorem C25_info_after_plain_call_refuted : exists (f : nat -> bool -> nat * nat) calls,
  In (Err KeyError) (snd (run_cache Nat.eqb f cache_empty calls)).
Proof. exists (fun x _ => (x, x)), [(3%nat, false); (3%nat, true)]. simpl. auto. Qed.
Example C25_ex : run_cache Nat.eqb (fun x _ => (x * x, x))%nat cache_empty [(3, false); (4, true); (3, false); (4, false)]%nat =
  (mk_cache [(4, 16); (3, 9)] [(4, 4)] [3; 4], [Ok (9, None); Ok (16, Some 4); Ok (9, None); Ok (16, None)])%nat.
Proof. vm_compute. reflexivity. Qed.

(** ** C26 *)
(** verdicts on a history: no call fails, and call number i is flagged exactly when its residual is
    non-zero, both signs occurred at least twice so far, and the relative change of the last two
    residuals on one side (both sides, if so configured) is below the minimum progress, and
    the last residuals are not good enough *)
Theorem C26_oscillation_verdicts : forall mp both ge h, exists bs,
  run_checker mp both ge checker_new h = map Ok bs /\ length bs = length h /\
  forall i, (i < length h)%nat ->
    (nth i bs false = true <-> snd (nth i h (0, 0)) <> 0 /\ flagged mp both ge (firstn (S i) h)).
Proof. intros. apply (run_checker_spec mp both ge h []). Qed.
(** a history in which the residuals of each sign shrink by the factor 1/(1+mp) is never flagged *)
Theorem C26_progress_not_flagged : forall mp both ge h, 0 <= mp ->
  (forall i, (S i < length (pos_part h))%nat -> (1 + mp) * Rabs (at_ (pos_part h) (S i)) <= Rabs (at_ (pos_part h) i)) ->
  (forall i, (S i < length (neg_part h))%nat -> (1 + mp) * Rabs (at_ (neg_part h) (S i)) <= Rabs (at_ (neg_part h) i)) ->
  ~ flagged mp both ge h.
Proof.
  intros mp both ge h Hm Hp Hn (F1 & F2 & F3 & _).
  pose proof (gain_ge (pos_part h) mp F1 Hm ltac:(pose proof (pos_part_pos h (length (pos_part h) - 1) ltac:(lia)); lra)) as Gp.
  pose proof (gain_ge (neg_part h) mp F2 Hm ltac:(pose proof (neg_part_neg h (length (neg_part h) - 1) ltac:(lia)); lra)) as Gn.
  specialize (Hp (length (pos_part h) - 2)%nat ltac:(lia)). specialize (Hn (length (neg_part h) - 2)%nat ltac:(lia)).
  replace (S (length (pos_part h) - 2)) with (length (pos_part h) - 1)%nat in Hp by lia.
  replace (S (length (neg_part h) - 2)) with (length (neg_part h) - 1)%nat in Hn by lia.
  specialize (Gp Hp). specialize (Gn Hn). destruct both; lra.
Qed.
(** one-signed histories are never flagged *)
Theorem C26_one_sided_not_flagged : forall mp both ge h,
  (forall x y, In (x, y) h -> 0 <= y) \/ (forall x y, In (x, y) h -> y <= 0) -> ~ flagged mp both ge h.
Proof.
  intros mp both ge h H (F1 & F2 & _). unfold pos_part, neg_part in *. rewrite map_length in *. destruct H as [H | H].
  - destruct (filter (fun '(_, y) => Rltb y 0) h) as [|[x y] t] eqn:E; [simpl in F2; lia|].
    assert (In (x, y) (filter (fun '(_, y) => Rltb y 0) h)) as I by (rewrite E; left; auto).
    apply filter_In in I. destruct I as [I1 I2]. rb I2. specialize (H x y I1). lra.
  - destruct (filter (fun '(_, y) => Rltb 0 y) h) as [|[x y] t] eqn:E; [simpl in F1; lia|].
    assert (In (x, y) (filter (fun '(_, y) => Rltb 0 y) h)) as I by (rewrite E; left; auto).
    apply filter_In in I. destruct I as [I1 I2]. rb I2. specialize (H x y I1). lra.
Qed.
Example C26_ex : run_checker (1#100)%Q true None checker_new
   [(1, 5); (2, -5); (3, 999#200); (4, -1); (5, 499#100); (6, -(1001#1000))]%Q =
   map Ok [false; false; false; false; false; true].
Proof. vm_compute. reflexivity. Qed.

(** ** C27 *)
Theorem C27_nelder_mead : forall func x0 xtol ftol maxiter adaptive p z low high x fval its,
  nelder_mead func x0 xtol ftol maxiter adaptive p z low high = Ok (x, fval, its) ->
  fval = func x /\ fval <= func x0 /\ (its <= maxiter)%nat.
Proof. intros. eapply nelder_mead_spec; eauto. Qed.
(** with bounds: the result is inside if the initial simplex is *)
Theorem C27_nelder_mead_bounds_partial : forall func low high x0 xtol ftol maxiter adaptive p z x fval its,
  ordered low high -> (forall pt, In pt (nm_initial x0 p z) -> within low high pt) ->
  nelder_mead func x0 xtol ftol maxiter adaptive p z (Some low) (Some high) = Ok (x, fval, its) -> within low high x.
Proof. intros. eapply nelder_mead_within; eauto. Qed.
(** the initial simplex is not clipped: start inside the bounds, result outside *)
Theorem C27_nelder_mead_bounds_refuted : exists (func : list Q -> Q) x0 low high x fval its,
  (low <= x0 <= high)%Q /\ (high < x)%Q /\
  nelder_mead func [x0] (1#10) (1#10) 50 false (1#20) (1#4000) (Some [low]) (Some [high]) = Ok ([x], fval, its).
Proof.
  exists (fun l => - nth 0 l 0)%Q, 1%Q, 0%Q, 1%Q, (21#20)%Q, (-21#20)%Q, O.
  splits; try discriminate; vm_compute; reflexivity.
Qed.
Example C27_ex : match nelder_mead (fun l => let d := (nth 0 l 0 - 3) in d * d)%Q [1]%Q (1#10) (1#10) 50 false (1#2) (1#4) None None
  with Ok ([x], fval, its) => Qle_bool 2 x && Qle_bool x 4 && Qeq_bool fval ((x - 3) * (x - 3))%Q && Nat.ltb 3 its | _ => false end = true.
Proof. vm_compute. reflexivity. Qed.

(** ** C28 *)
(** f is evaluated inside [a,b] only (points of the rule in [-1,1]) *)
Theorem C28_quad_evaluates_inside : forall depth f g a b kp kw lw er ea, a <= b ->
  (forall x, a <= x <= b -> f x = g x) -> (forall p, In p kp -> -1 <= p <= 1) ->
  quad_adaptive depth f a b kp kw lw er ea = quad_adaptive depth g a b kp kw lw er ea.
Proof. intros. now apply quad_ext. Qed.
Theorem C28_default_points_inside : forall p, In p KP -> -1 <= p <= 1.
Proof. exact gk_points_in. Qed.
(** the default rule never fails *)
Theorem C28_quad_total : forall depth f a b er ea, exists v e, quad_adaptive depth f a b KP KW LW er ea = Ok (v, e).
Proof.
  induction depth as [|n IH]; intros f a b er ea; cbn [quad_adaptive]; destruct (gk_total f a b) as (v & e & E); rewrite E; cbn [bind]; eauto.
  match goal with |- context [if ?c then _ else _] => destruct c end; eauto.
  match goal with |- context [quad_adaptive n f ?u ?m KP KW LW ?r ?s] => destruct (IH f u m r s) as (v1 & e1 & ->) end. cbn [bind].
  match goal with |- context [quad_adaptive n f ?u ?m KP KW LW ?r ?s] => destruct (IH f u m r s) as (v2 & e2 & ->) end. cbn [bind]. eauto.
Qed.
(** the area is a sum of rule values over panels that exactly cover [a,b] *)
Theorem C28_quad_panels : forall depth f a b kp kw lw er ea area err,
  quad_adaptive depth f a b kp kw lw er ea = Ok (area, err) -> panels f kp kw lw a b area.
Proof. intros. eapply quad_panels; eauto. Qed.
(** if the rule is exact for f on all intervals, so is the adaptive quadrature *)
Theorem C28_quad_exact : forall depth f (F : R -> R) a b kp kw lw er ea area err,
  (forall c d v e, fixed_quad_Gauss_Kronrod f c d kp kw lw = Ok (v, e) -> v = F d - F c) ->
  quad_adaptive depth f a b kp kw lw er ea = Ok (area, err) -> area = F b - F a.
Proof. intros. eapply quad_exact; eauto. Qed.
(** with zero depth left, or small error, it is the rule itself; the area 0 stops refinement *)
Theorem C28_quad_depth_zero : forall (f : R -> R) a b kp kw lw er ea,
  quad_adaptive 0 f a b kp kw lw er ea = fixed_quad_Gauss_Kronrod f a b kp kw lw.
Proof. intros. cbn [quad_adaptive]. destruct (fixed_quad_Gauss_Kronrod f a b kp kw lw) as [[v e]|]; reflexivity. Qed.
(** the reported error can be negative *)
Theorem C28_error_nonnegative_refuted : exists (f : Q -> Q) v e,
  quad_adaptive 7 f (-(1))%Q 1%Q kronrod_points_10 kronrod_weights_10 legendre_weights_10 (1#100) (1#1) = Ok (v, e) /\ (e < 0)%Q.
Proof.
  exists (fun x => if Qeq_bool x (nth 1 kronrod_points_10 0) then (1#1) else 0)%Q.
  eexists. eexists. split; [vm_compute; reflexivity | vm_compute; reflexivity].
Qed.
(** a zero area is accepted whatever the error estimate is *)
Theorem C28_tolerance_met_refuted : exists (f : Q -> Q) v e,
  quad_adaptive 7 f (-(1))%Q 1%Q kronrod_points_10 kronrod_weights_10 legendre_weights_10 (1#100000000) (1#100000000) = Ok (v, e) /\
  (v == 0)%Q /\ (100 < Qabs e)%Q.
Proof.
  exists (fun x => if Qeq_bool x (nth 0 kronrod_points_10 0) then - (nth 1 kronrod_weights_10 0) * 10^6
                   else if Qeq_bool x (nth 1 kronrod_points_10 0) then nth 0 kronrod_weights_10 0 * 10^6 else 0)%Q.
  eexists. eexists. split; [vm_compute; reflexivity | split; vm_compute; reflexivity].
Qed.

(** ** C29 *)
Theorem C29_clip : forall low high x, ordered low high -> length x = length low ->
  exists r, bounds_clip_naive x (Some low) (Some high) = Ok r /\ within low high r /\
   (within low high x -> r = x) /\
   forall i, (i < length x)%nat -> at_ r i = Rmin (Rmax (at_ x i) (at_ low i)) (at_ high i).
Proof.
  intros low high x O L. destruct (clip_within low high x O L) as (r & E & W). exists r. splits; auto.
  - intros Wx. rewrite (clip_id _ _ _ Wx) in E. now injection E.
  - destruct O as [O _]. destruct (clip_spec x low high) as (r' & E' & _ & H); [lia|lia|]. rewrite E in E'. injection E' as <-. exact H.
Qed.
(** the docstring allows low = None; the code needs it *)
Theorem C29_clip_low_none_refuted : forall (x : list R) high, bounds_clip_naive x None high = Err TypeError.
Proof. exact clip_none. Qed.
Theorem C29_damping : forall x step d f, 0 <= d <= 1 -> 0 <= f <= 1 -> length step = length x ->
  exists r, damping_maintain_sign_list x step d f = Ok r /\ length r = length x /\
   forall i, (i < length x)%nat -> at_ r i = damping_maintain_sign (at_ x i) (at_ step i) d f /\
    (0 <= at_ x i -> 0 <= at_ r i) /\ (at_ x i < 0 -> at_ r i <= 0) /\
    ((0 <= at_ x i /\ 0 <= at_ x i + at_ step i) \/ (at_ x i < 0 /\ at_ x i + at_ step i <= 0) ->
       at_ r i = at_ x i + at_ step i * d) /\
    ((0 <= at_ x i /\ at_ x i + at_ step i < 0) \/ (at_ x i < 0 /\ 0 < at_ x i + at_ step i) ->
       at_ r i = at_ x i * (1 - f * d)).
Proof.
  intros x step d f Hd Hf L. destruct (damping_list x step d f L) as (r & E & Lr & H). exists r. splits; auto.
  intros i Hi. rewrite (H i Hi). destruct (damping_sign (at_ x i) (at_ step i) d f Hd Hf). splits; auto. apply damping_plain.
  apply damping_cross.
Qed.
(** factor and damping below one: no component is ever brought to zero *)
Theorem C29_damping_strict : forall x step d f, 0 <= d < 1 -> 0 <= f <= 1 ->
  (0 < x -> 0 < damping_maintain_sign x step d f) /\ (x < 0 -> damping_maintain_sign x step d f < 0).
Proof. exact damping_strict. Qed.
(** stateful step limiters: the first n calls are damped / limited, the later ones not *)
Theorem C29_damp_initial : forall damping n calls, (0 <= n)%Z ->
  run_calls (damp_initial_call damping) n calls =
   map (fun '(i, (x, s)) => if (Z.of_nat i <? n)%Z then x + s * damping else x + s) (combine (seq 0 (length calls)) calls).
Proof. intros. now apply run_damp. Qed.
Theorem C29_max_step : forall m n calls, 0 <= m -> (0 <= n)%Z ->
  run_calls (max_step_call m) n calls =
   map (fun '(i, (x, s)) => if (Z.of_nat i <? n)%Z then x + Rmax (- m) (Rmin m s) else x + s) (combine (seq 0 (length calls)) calls).
Proof. intros. now apply run_max. Qed.
Example C29_ex : bounds_clip_naive [5; -5; 1]%Q (Some [0; 0; 0]%Q) (Some [2; 2; 2]%Q) = Ok [2; 0; 1]%Q /\
  damping_maintain_sign_list [1; 1; -2]%Q [1; -5; 5]%Q (1#2)%Q (3#10)%Q = Ok [3#2; 17#20; -17#10]%Q /\
  run_calls (max_step_call 2%Q) 2%Z [(0, 5); (0, -5); (0, 5)]%Q = [2; -2; 5]%Q.
Proof. vm_compute. splits; reflexivity. Qed.

(** ** C30 *)
Theorem C30_round_trip : forall (f : list R -> list R) x,
  residual_to_fixed_point (fixed_point_to_residual f) x = f x /\ fixed_point_to_residual (residual_to_fixed_point f) x = f x.
Proof.
  intros. unfold residual_to_fixed_point, fixed_point_to_residual. rewrite map_map. numR.
  assert (E : map (fun v => - - v) (f x) = f x) by (rewrite <- (map_id (f x)) at 2; apply map_ext; intros; ring).
  now split.
Qed.
(** f returns x - g(x) componentwise; the residual g(x) - x vanishes exactly at fixed points *)
Theorem C30_zeros : forall (f g : list R -> list R) x, length (f x) = length x -> length (g x) = length x ->
  (forall i, (i < length x)%nat -> at_ (f x) i = at_ x i - at_ (g x) i) ->
  (forall i, (i < length x)%nat -> at_ (fixed_point_to_residual f x) i = at_ (g x) i - at_ x i) /\
  ((forall r, In r (fixed_point_to_residual f x) -> r = 0) <-> g x = x).
Proof.
  intros f g x Lf Lg H.
  assert (A : forall i, (i < length x)%nat -> at_ (fixed_point_to_residual f x) i = at_ (g x) i - at_ x i).
  { intros i Hi. unfold fixed_point_to_residual, at_. numR. rewrite (nth_indep _ 0 (- 0)) by (rewrite map_length; lia).
    rewrite (map_nth Ropp). fold (at_ (f x) i). rewrite H by auto. unfold at_. ring. }
  assert (L : length (fixed_point_to_residual f x) = length x) by (unfold fixed_point_to_residual; rewrite map_length; lia).
  split; auto. split.
  - intros Z. apply at_ext_list; auto. intros i Hi. rewrite Lg in Hi. specialize (A i Hi). rewrite (Z _) in A; [lra|].
    apply nth_In. lia.
  - intros E r Hr. apply In_nth with (d := 0) in Hr. destruct Hr as (i & Hi & <-). rewrite L in Hi.
    change (at_ (fixed_point_to_residual f x) i = 0). rewrite A by auto. rewrite E. ring.
Qed.
Example C30_ex : fixed_point_to_residual (fun x => [nth 0 x 0 - 3; 1])%Q [5]%Q = [-2; -1]%Q.
Proof. vm_compute. reflexivity. Qed.

(** ** C63: accuracy of the default quadrature rule *)
Theorem C63_kronrod_polynomials : forall g a b, a <> b -> (length g <= 32)%nat ->
  let p := fun x => Rsum (fun k => at_ g k * ((2 * x - a - b) / (b - a)) ^ k) (length g) in
  exists v e I, fixed_quad_Gauss_Kronrod p a b KP KW LW = Ok (v, e) /\ is_RInt p a b I /\
   Rabs (v - I) <= Rabs (b - a) / 10 ^ 15 * Rsum (fun k => Rabs (at_ g k)) (length g).
Proof. exact gk_poly. Qed.
(** hence for the adaptive quadrature of an affine function with an exact rule *)
Theorem C63_quad_affine : forall depth a b kp kw lw er ea area err p q,
  Rsum (fun i => at_ kw i) (length kp) = 2 -> Rsum (fun i => at_ kw i * at_ kp i) (length kp) = 0 ->
  quad_adaptive depth (fun x => p * x + q) a b kp kw lw er ea = Ok (area, err) ->
  is_RInt (fun x => p * x + q) a b area.
Proof.
  intros depth a b kp kw lw er ea area err p q H0 H1 E. apply quad_affine in E; auto. subst area.
  apply (is_RInt_derive (fun x => p * x ^ 2 / 2 + q * x)).
  - intros x _. auto_derive; auto. field.
  - intros x _. apply (ex_derive_continuous (fun x => p * x + q)). auto_derive; auto.
Qed.
Example C63_ex : match quad_adaptive 7 (fun x => x * x)%Q 0%Q 3%Q [-(3#5); 0; 3#5]%Q [25#27; 4#27; 25#27]%Q [2]%Q (1#100) (1#100) with
  | Ok (v, _) => Qeq_bool v 9 | Err _ => false end = true.
Proof. vm_compute. reflexivity. Qed.

(** ** C64: best_bounding_bounds *)
Theorem C64_bracket : forall f low high xp yp xn yn l h a b, sampled f xp yp -> sampled f xn yn ->
  best_bounding_bounds low high (f low) (f high) xp yp xn yn = Ok (l, h, a, b) ->
  a = f l /\ b = f h /\ a * b <= 0 /\ (l = low \/ In l xp \/ In l xn) /\ (h = high \/ In h xp \/ In h xn).
Proof. intros. eapply best_bounds_ok; eauto. Qed.
(** only negative samples and f(low) > 0: an unbound local name is used *)
Theorem C64_unbound_refuted : forall low high fa fb x y : R, 0 <= fa ->
  best_bounding_bounds low high fa fb [] [] [x] [y] = Err UnboundLocalError.
Proof.
  intros. unfold best_bounding_bounds, list_max. cbn [bind fold_left index_of idx nth_error]. numR.
  destruct (Reqb y y) eqn:E; rb E; [|lra]. cbn [bind idx nth_error]. destruct (Rltb fa 0) eqn:E1; rb E1; [lra | reflexivity].
Qed.
(** a better negative sample replaces the good end of the bracket by a worse one *)
Theorem C64_bracket_never_worse_refuted : exists low high fa fb xp yp xn yn l h a b,
  best_bounding_bounds low high fa fb xp yp xn yn = Ok (l, h, a, b) /\
  (Qabs fb < Qabs b)%Q /\ (h - l == 9)%Q /\ (high - low == 1)%Q.
Proof.
  exists 0%Q, 1%Q, 1%Q, (-1)%Q, [5]%Q, [2]%Q, [9]%Q, [-100]%Q, 0%Q, 9%Q, 1%Q, (-100)%Q.
  splits; vm_compute; reflexivity.
Qed.
(** the samples contain a sign change, yet ValueError is raised *)
Theorem C64_bracket_found_if_sampled_refuted : exists low high fa fb xp yp xn yn,
  (forall y, In y yp -> 0 < y)%Q /\ (forall y, In y yn -> y < 0)%Q /\ yp <> [] /\ yn <> [] /\
  best_bounding_bounds low high fa fb xp yp xn yn = Err ValueError.
Proof.
  exists 0%Q, 1%Q, 5%Q, 7%Q, [3]%Q, [6]%Q, [4]%Q, [-1]%Q.
  splits; try discriminate; try (intros y [<- | []]); vm_compute; reflexivity.
Qed.
Example C64_ex : (best_bounding_bounds 0 10 (-5) 5 [7; 8] [2; 3] [1; 2] [-4; -3] = Ok (2, 7, -3, 2))%Q.
Proof. vm_compute. reflexivity. Qed.

(** ** C65: integrals and derivatives of fits with linear extrapolation *)
Theorem C65_fit_integral : forall cs lo hi vlo vhi slo shi F T1 T2, lo <= hi ->
  (forall x, x < lo -> F x = vlo + slo * (x - lo)) ->
  (forall x, lo <= x <= hi -> F x = heval cs x) ->
  (forall x, hi < x -> F x = vhi + shi * (x - hi)) ->
  is_RInt F T1 T2 (fit_integral_linear_extrapolation T1 T2 (polyint cs) lo hi vlo vhi slo shi) /\
  is_RInt F T1 T2 (poly_fit_integral_value T2 (polyint cs) lo hi vlo vhi slo shi
                   - poly_fit_integral_value T1 (polyint cs) lo hi vlo vhi slo shi).
Proof.
  intros cs lo hi vlo vhi slo shi F T1 T2 H H1 H2 H3.
  assert (Ft : fitted cs lo hi vlo vhi slo shi F) by (unfold fitted; splits; auto).
  split; [|rewrite <- fit_integral_diff by auto]; now apply fit_integral_ok.
Qed.
Theorem C65_fit_integral_over_T : forall cs lo hi vlo vhi slo shi F T1 T2, 0 < T1 -> 0 < T2 -> 0 < lo -> lo <= hi ->
  (forall x, x < lo -> F x = vlo + slo * (x - lo)) ->
  (forall x, lo <= x <= hi -> F x = heval cs x) ->
  (forall x, hi < x -> F x = vhi + shi * (x - hi)) ->
  let ic := fst (polyint_over_x cs) in let lc := snd (polyint_over_x cs) in
  exists v v1 v2,
   fit_integral_over_T_linear_extrapolation T1 T2 ic lc lo hi vlo vhi slo shi = Ok v /\
   poly_fit_integral_over_T_value T1 ic lc lo hi vlo vhi slo shi = Ok v1 /\
   poly_fit_integral_over_T_value T2 ic lc lo hi vlo vhi slo shi = Ok v2 /\
   v = v2 - v1 /\ is_RInt (fun T => F T / T) T1 T2 v.
Proof.
  intros cs lo hi vlo vhi slo shi F T1 T2 P1 P2 P3 H H1 H2 H3 ic lc.
  assert (Ft : fitted cs lo hi vlo vhi slo shi F) by (unfold fitted; splits; auto).
  destruct (fit_over_T_ok cs lo hi vlo vhi slo shi F T1 T2 P1 P2 P3 H Ft) as (v & E & I).
  destruct (fit_over_T_diff T1 T2 cs lo hi vlo vhi slo shi P1 P2 P3 H) as (v' & v1 & v2 & E' & E1 & E2 & D).
  rewrite E in E'. injection E' as <-. exists v, v1, v2. splits; auto.
Qed.
(** values, slopes and curvatures of a list of fits *)
Theorem C65_evaluate_linear_fits : forall data x i d, nth_error data i = Some d -> low_limit d <= high_limit d ->
  (forall y, is_derive (heval (coeffs d)) y (heval (dcoeffs d) y)) ->
  (forall y, is_derive (heval (dcoeffs d)) y (heval (d2coeffs d) y)) ->
  exists F v v1 v2, fitted (coeffs d) (low_limit d) (high_limit d) (low_value d) (high_value d) (low_slope d) (high_slope d) F /\
   nth_error (evaluate_linear_fits data x) i = Some v /\ nth_error (evaluate_linear_fits_d data x) i = Some v1 /\
   nth_error (evaluate_linear_fits_d2 data x) i = Some v2 /\
   v = F x /\ (x <> low_limit d -> x <> high_limit d -> is_derive F x v1 /\ is_derive_n F 2 x v2).
Proof.
  intros data x i d E H D1 D2. exists (eval_fit d), (eval_fit d x), (eval_fit_d d x), (eval_fit_d2 d x).
  unfold evaluate_linear_fits, evaluate_linear_fits_d, evaluate_linear_fits_d2.
  splits; try (rewrite nth_error_map, E; reflexivity); auto using eval_fit_fitted.
  intros N1 N2. split; [now apply eval_fit_derive|].
  change (is_derive (Derive (eval_fit d)) x (eval_fit_d2 d x)).
  apply (is_derive_ext_loc (eval_fit_d d)); [|now apply eval_fit_derive2].
  assert (O : open (fun y => y <> low_limit d /\ y <> high_limit d)).
  { apply open_and; apply open_neq. }
  specialize (O x (conj N1 N2)). destruct O as (eps & He). exists eps. intros y Hy. specialize (He y Hy).
  symmetry. apply is_derive_unique. apply eval_fit_derive; tauto.
Qed.
Example C65_ex : (fit_integral_linear_extrapolation 0 4 (polyint [1; 0]) 1 3 1 3 1 1 = 8)%Q.
Proof. vm_compute. reflexivity. Qed.

(** ** C66: error measures *)
Theorem C66_max_errors : forall data calc, (length data <= length calc)%nat ->
  (exists r, max_abs_error data calc = Ok r /\ is_max r (fun i => Rabs (at_ data i - at_ calc i)) (length data)) /\
  (exists r, max_squared_error data calc = Ok r /\ is_max r (fun i => (at_ data i - at_ calc i) ^ 2) (length data)) /\
  (forall cap, exists r, max_abs_rel_error data calc cap = Ok r /\
     is_max r (fun i => rel_dev cap (at_ data i) (at_ calc i)) (length data)) /\
  ((forall i, (i < length data)%nat -> at_ data i <> 0) -> exists r, max_squared_rel_error data calc = Ok r /\
     is_max r (fun i => ((at_ data i - at_ calc i) / at_ data i) ^ 2) (length data)).
Proof. intros. splits; intros; auto using max_abs_error_ok, max_squared_error_ok, max_abs_rel_error_ok, max_squared_rel_error_ok. Qed.
Theorem C66_mean_errors : forall data calc, (length data <= length calc)%nat -> data <> [] ->
  let avg := fun g => Rsum g (length data) / INR (length data) in
  mean_abs_error data calc = Ok (avg (fun i => Rabs (at_ data i - at_ calc i))) /\
  mean_squared_error data calc = Ok (avg (fun i => (at_ data i - at_ calc i) ^ 2)) /\
  mean_abs_rel_error data calc = Ok (avg (fun i => rel_dev1 (at_ data i) (at_ calc i))) /\
  ((forall i, (i < length data)%nat -> at_ data i <> 0) ->
     mean_squared_rel_error data calc = Ok (avg (fun i => ((at_ data i - at_ calc i) / at_ data i) ^ 2))).
Proof.
  intros. unfold avg. splits; intros; [apply mean_abs_error_ok | apply mean_squared_error_ok | apply mean_abs_rel_error_ok | apply mean_squared_rel_error_ok]; auto.
Qed.
(** the squared relative measures do not have the zero guard of the absolute ones *)
Theorem C66_squared_rel_zero_refuted : forall c : R,
  max_squared_rel_error [0] [c] = Err ZeroDivisionError /\ mean_squared_rel_error [0] [c] = Err ZeroDivisionError.
Proof.
  intros c. unfold max_squared_rel_error, mean_squared_rel_error. cbn [fold2 length]. numR.
  rewrite !pydivR_0. split; reflexivity.
Qed.
Theorem C66_min_max_ratios : forall actual calc, length actual = length calc ->
  exists mn mx, min_max_ratios actual calc = Ok (mn, mx) /\ mn <= 1 <= mx /\
   (forall i, (i < length actual)%nat -> mn <= ratio_of (at_ actual i) (at_ calc i) <= mx) /\
   (mn = 1 \/ exists i, (i < length actual)%nat /\ mn = ratio_of (at_ actual i) (at_ calc i)) /\
   (mx = 1 \/ exists i, (i < length actual)%nat /\ mx = ratio_of (at_ actual i) (at_ calc i)).
Proof.
  intros actual calc L. destruct (ratios_spec actual calc 1 1 L ltac:(lra)) as (mn & mx & E & A & B & C & D & F).
  exists mn, mx. splits; auto. unfold min_max_ratios. now rewrite n1R.
Qed.
Example C66_ex : max_abs_error [1; 2; 3]%Q [1; 4; 2]%Q = Ok 2%Q /\ mean_squared_error [1; 2; 3]%Q [1; 4; 2]%Q = Ok (5#3)%Q /\
  min_max_ratios [1; 2; 4]%Q [1; 4; 2]%Q = Ok (1#2, 2)%Q /\ max_abs_rel_error [0; 2]%Q [0; 3]%Q 100%Q = Ok (1#2)%Q.
Proof. vm_compute. splits; reflexivity. Qed.

(** ** C67: comparison and monotonicity predicates *)
Theorem C67_isclose : forall a b rel_tol abs_tol,
  (0 <= rel_tol -> 0 <= abs_tol -> exists r, isclose a b rel_tol abs_tol = Ok r /\
     (r = true <-> Rabs (a - b) <= Rmax (rel_tol * Rmax (Rabs a) (Rabs b)) abs_tol)) /\
  (rel_tol < 0 \/ abs_tol < 0 -> isclose a b rel_tol abs_tol = Err ValueError).
Proof. intros. split; [apply isclose_ok | apply isclose_err]. Qed.
Theorem C67_isclose_symmetric : forall a b rel_tol abs_tol : R, isclose a b rel_tol abs_tol = isclose b a rel_tol abs_tol.
Proof.
  intros a b rt at0. destruct (Rlt_le_dec rt 0); [rewrite !isclose_err by auto; reflexivity|].
  destruct (Rlt_le_dec at0 0); [rewrite !isclose_err by auto; reflexivity|].
  destruct (isclose_ok a b rt at0) as (r1 & -> & H1); auto. destruct (isclose_ok b a rt at0) as (r2 & -> & H2); auto.
  rewrite (Rabs_minus_sym b a), (Rmax_comm (Rabs b)) in H2. rewrite <- H1 in H2. f_equal. destruct r1, r2; intuition congruence.
Qed.
Theorem C67_is_monotonic : forall l, is_monotonic l = true <->
  (forall i, (S i < length l)%nat -> at_ l i <= at_ l (S i)) \/ (forall i, (S i < length l)%nat -> at_ l (S i) <= at_ l i).
Proof. exact is_monotonic_spec. Qed.
Theorem C67_is_increasing : forall l, is_increasing l = true <->
  forall i j, (i < j)%nat -> (j < length l)%nat -> at_ l i < at_ l j.
Proof. exact is_increasing_spec. Qed.
Example C67_ex : isclose 100%Q (1001#10)%Q (1#1000)%Q 0%Q = Ok true /\ isclose 100%Q (1002#10)%Q (1#1000)%Q 0%Q = Ok false /\
  is_monotonic [3; 2; 2; 1]%Q = true /\ is_monotonic [1; 3; 2]%Q = false /\ is_increasing [1; 2; 2]%Q = false.
Proof. vm_compute. splits; reflexivity. Qed.

Print Assumptions C15_binary_search.
Print Assumptions C15_binary_search_terminates.
Print Assumptions C15_binary_search_cases.
Print Assumptions C16_interp_inside.
Print Assumptions C16_interp_outside.
Print Assumptions C16_interp_extrapolate.
Print Assumptions C16_interp_bounded.
Print Assumptions C16_interp_monotone.
Print Assumptions C16_interp2d_linear.
Print Assumptions C17_linspace.
Print Assumptions C17_linspace_no_endpoint.
Print Assumptions C17_linspace_degenerate.
Print Assumptions C17_cumulative_trapezoid.
Print Assumptions C17_cumulative_trapezoid_dx.
Print Assumptions C17_cumulative_trapezoid_affine.
Print Assumptions C17_cumsum.
Print Assumptions C17_diff_cumsum.
Print Assumptions C17_diff.
Print Assumptions C17_product.
Print Assumptions C22_chebval.
Print Assumptions C22_chebder.
Print Assumptions C22_chebder_high_order_refuted.
Print Assumptions C22_chebint.
Print Assumptions C22_chebint_once.
Print Assumptions C22_exp_cheb.
Print Assumptions C22_chebval_ln_tau.
Print Assumptions C22_exp_cheb_ln_tau.
Print Assumptions C22_ln_tau_at_or_above_critical.
Print Assumptions C23_normalize.
Print Assumptions C23_mean.
Print Assumptions C23_std.
Print Assumptions C23_empty.
Print Assumptions C23_detect_outlier_normal.
Print Assumptions C24_image_strictly_inside.
Print Assumptions C24_outof_then_into.
Print Assumptions C24_into_then_outof.
Print Assumptions C24_wrapped_function.
Print Assumptions C24_wrapped_gradient.
Print Assumptions C24_outof_then_into_all_refuted.
Print Assumptions C25_caching.
Print Assumptions C25_info_after_plain_call_refuted.
Print Assumptions C26_oscillation_verdicts.
Print Assumptions C26_progress_not_flagged.
Print Assumptions C26_one_sided_not_flagged.
Print Assumptions C27_nelder_mead.
Print Assumptions C27_nelder_mead_bounds_partial.
Print Assumptions C27_nelder_mead_bounds_refuted.
Print Assumptions C28_quad_evaluates_inside.
Print Assumptions C28_default_points_inside.
Print Assumptions C28_quad_total.
Print Assumptions C28_quad_panels.
Print Assumptions C28_quad_exact.
Print Assumptions C28_quad_depth_zero.
Print Assumptions C28_error_nonnegative_refuted.
Print Assumptions C28_tolerance_met_refuted.
Print Assumptions C29_clip.
Print Assumptions C29_clip_low_none_refuted.
Print Assumptions C29_damping.
Print Assumptions C29_damping_strict.
Print Assumptions C29_damp_initial.
Print Assumptions C29_max_step.
Print Assumptions C30_round_trip.
Print Assumptions C30_zeros.
Print Assumptions C63_kronrod_polynomials.
Print Assumptions C63_quad_affine.
Print Assumptions C64_bracket.
Print Assumptions C64_unbound_refuted.
Print Assumptions C64_bracket_never_worse_refuted.
Print Assumptions C64_bracket_found_if_sampled_refuted.
Print Assumptions C65_fit_integral.
Print Assumptions C65_fit_integral_over_T.
Print Assumptions C65_evaluate_linear_fits.
Print Assumptions C66_max_errors.
Print Assumptions C66_mean_errors.
Print Assumptions C66_squared_rel_zero_refuted.
Print Assumptions C66_min_max_ratios.
Print Assumptions C67_isclose.
Print Assumptions C67_isclose_symmetric.
Print Assumptions C67_is_monotonic.
Print Assumptions C67_is_increasing.
