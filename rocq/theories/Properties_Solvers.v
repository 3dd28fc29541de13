(** One-dimensional solvers: final theorems (C18, C19, C20, C68). *)
From Coq Require Import Reals Lra Lia List Bool QArith ZArith.
From Verif Require Import Base Model_Poly Model_Numerics Spec_Solvers Model_Solvers Proofs_Solvers Proofs_Solvers2 Proofs_Solvers3.
Import ListNotations.
Local Open Scope R_scope.

(** a continuous function with opposite signs at x and y has a zero between them *)
Lemma zero_between (g : R -> R) x y : continuity g -> opposite (fun u => Ok (g u)) x y -> exists z, hull x y z /\ g z = 0.
Proof.
  intros Hc [v [w [[= <-] [[= <-] Hs]]]].
  destruct (Rle_dec x y) as [H|H].
  - destruct (IVT_cor g x y Hc H) as [z [Hz1 Hz2]]; [lra|]. exists z; split; auto. left; auto.
  - destruct (IVT_cor g y x Hc) as [z [Hz1 Hz2]]; [lra|lra|]. exists z; split; auto. right; auto.
Qed.
Lemma hull_dist x y z : hull x y z -> Rabs (z - x) <= Rabs (y - x).
Proof. unfold hull, Rabs. intros. destruct (Rcase_abs (z - x)), (Rcase_abs (y - x)); lra. Qed.

(** *** C18 bisect *)
(** A returned x is in the bracket; it is an exact zero, or f changes sign between x and another point y of the
    bracket with |y - x| < xtol + rtol |y - x|, and |f x| < ytol when ytol is given.  f may be any function, even
    a discontinuous or partly undefined one. *)
Theorem C18_bisect_result f a b xtol rtol n ytol x : bisect f a b xtol rtol n ytol = Ok x ->
  hull a b x /\
  (f x = Ok 0 \/
   exists y, hull a b y /\ opposite f x y /\ Rabs (y - x) < xtol + rtol * Rabs (y - x) /\
     exists v, f x = Ok v /\ within ytol v).
Proof. apply bisect_result. Qed.
(** For continuous functions: an exact root lies within d of the result where d < xtol + rtol d. *)
Theorem C18_bisect_root_nearby g a b xtol rtol n ytol x : continuity g ->
  bisect (fun u => Ok (g u)) a b xtol rtol n ytol = Ok x ->
  exists z, hull a b z /\ g z = 0 /\ (z = x \/ exists d, Rabs (z - x) <= d /\ d < xtol + rtol * d).
Proof.
  intros Hc E. apply C18_bisect_result in E as [Hx [[= Hz]|[y [Hy [Ho [Hd _]]]]]].
  - exists x; auto.
  - destruct (zero_between g x y Hc Ho) as [z [Hz Hg]]. exists z. splits; auto.
    + apply (convex_hull a b x y); auto.
    + right. exists (Rabs (y - x)). split; auto. now apply hull_dist.
Qed.
(** f is only ever used inside the bracket. *)
Theorem C18_bisect_inside f g a b xtol rtol n ytol : agree_on (hull a b) f g ->
  bisect f a b xtol rtol n ytol = bisect g a b xtol rtol n ytol.
Proof. apply bisect_agree. Qed.
(** The only errors of bisect itself: ValueError exactly when f(a) f(b) > 0, and UnconvergedError. *)
Theorem C18_bisect_errors f a b xtol rtol n ytol va vb e : total f -> f a = Ok va -> f b = Ok vb ->
  bisect f a b xtol rtol n ytol = Err e ->
  (0 < va * vb /\ e = ValueError) \/ (va * vb <= 0 /\ e = UnconvergedError).
Proof.
  intros T Ea Eb. unfold bisect. rewrite Ea, Eb. cbn [bind]. numR. intros E.
  rcase_in E; [left; split; congruence|right; split; auto].
  repeat rcase_in E; try discriminate. eapply bisect_loop_errors; eauto.
Qed.
(** Enough halvings always succeed. *)
Theorem C18_bisect_converges f a b xtol rtol n va vb : total f -> f a = Ok va -> f b = Ok vb -> va * vb <= 0 ->
  0 <= rtol -> (1 <= n)%nat -> Rabs (b - a) < 2 ^ n * xtol ->
  exists x, bisect f a b xtol rtol n None = Ok x.
Proof.
  intros T Ea Eb Hs Hr Hn Hd. unfold bisect. rewrite Ea, Eb. cbn [bind]. numR.
  assert (Rltb 0 (va * vb) = false) as -> by (apply Rltb_false; lra).
  destruct (Reqb va 0); eauto. destruct (Reqb vb 0); eauto.
  apply bisect_loop_total; auto.
Qed.
Example C18_ex_sqrt2 :
  (match bisect (fun x : Q => Ok (x * x - 2)%Q) 1 2 (1#1000) 0 100 None with
   | Ok x => Qle_bool (1413#1000) x && Qle_bool x (1416#1000) | _ => false end)%Q = true.
Proof. vm_compute. reflexivity. Qed.
Example C18_ex_jump :
  (match bisect (fun x : Q => Ok (if Qle_bool x (1#3) then -1 else 1)%Q) 0 1 (1#1000) 0 100 None with
   | Ok x => Qle_bool (332#1000) x && Qle_bool x (335#1000) | _ => false end)%Q = true.
Proof. vm_compute. reflexivity. Qed.
Example C18_ex_errors :
  bisect (fun x : Q => Ok (x * x + 1)%Q) 1%Q 2%Q (1#1000)%Q 0%Q 100 None = Err ValueError /\
  bisect (fun x : Q => Ok (x * x - 2)%Q) 1%Q 2%Q (1#1000)%Q 0%Q 3 None = Err UnconvergedError.
Proof. split; vm_compute; reflexivity. Qed.
Example C18_ex_hyps : total (fun x : R => Ok (x * x - 2)) /\ continuity (fun x => x * x - 2) /\
  (1 * 1 - 2) * (2 * 2 - 2) <= 0 /\ Rabs (2 - 1) < 2 ^ 10 * (1 / 1000).
Proof.
  splits; try lra. intros x; eauto. unfold continuity; intros; reg.
  rewrite Rabs_right by lra. simpl; lra.
Qed.

(** *** C19 brenth and ridder *)
(** Whatever is returned is an exact zero or sits next to a strict sign change closer than xtol + rtol |x|. *)
Theorem C19_brenth_result f xa xb xtol rtol n ytol q fa fb x :
  (forall v, fa = Some v -> f xa = Ok v) -> (forall v, fb = Some v -> f xb = Ok v) ->
  brenth f xa xb xtol rtol n ytol q fa fb = Ok x ->
  f x = Ok 0 \/ exists y, opposite f x y /\ Rabs (y - x) < xtol + rtol * Rabs x /\ exists v, f x = Ok v /\ within ytol v.
Proof. apply brenth_tol. Qed.
(** Without ytol: f is used only inside the bracket and the result lies there. *)
Theorem C19_brenth_inside f g xa xb xtol rtol n q fa fb : 0 <= xtol -> 0 <= rtol ->
  (forall v, fa = Some v -> f xa = Ok v) -> (forall v, fb = Some v -> f xb = Ok v) -> agree_on (hull xa xb) f g ->
  brenth f xa xb xtol rtol n None q fa fb = brenth g xa xb xtol rtol n None q fa fb /\
  (forall x, brenth f xa xb xtol rtol n None q fa fb = Ok x -> hull xa xb x).
Proof. intros Hx Hr Ha Hb Hag. destruct (brenth_inside f g xa xb xtol rtol n q fa fb) as [K1 [K2 _]]; auto. Qed.
(** Without ytol brenth itself only raises NotBoundedError (same strict signs) or UnconvergedError: no division by zero. *)
Theorem C19_brenth_errors f xa xb xtol rtol n q e : 0 <= xtol -> 0 <= rtol -> total f ->
  brenth f xa xb xtol rtol n None q None None = Err e ->
  e = UnconvergedError \/ (e = NotBoundedError /\ exists v w, f xa = Ok v /\ f xb = Ok w /\ 0 < v * w).
Proof.
  intros Hx Hr T. destruct (brenth_inside f f xa xb xtol rtol n q None None) as [_ [_ K]]; auto; try discriminate.
  intros ? ?; auto.
Qed.
(** Brent's method needs at most (3m+1)(2m+1) iterations when the bracket is at most 2^m xtol/2 wide. *)
Theorem C19_brenth_converges f xa xb xtol rtol n q m v w : 0 < xtol -> 0 <= rtol -> total f ->
  f xa = Ok v -> f xb = Ok w -> v * w <= 0 ->
  Rabs (xb - xa) <= 2 ^ m * (xtol / 2) -> ((3 * m + 1) * (2 * m + 1) <= n)%nat ->
  exists x, brenth f xa xb xtol rtol n None q None None = Ok x.
Proof. intros Hx Hr T Ev Ew Hs. apply brenth_converges; eauto. Qed.
Theorem C19_brenth_root_nearby g xa xb xtol rtol n ytol q x : continuity g ->
  brenth (fun u => Ok (g u)) xa xb xtol rtol n ytol q None None = Ok x ->
  exists z, g z = 0 /\ (z = x \/ Rabs (z - x) < xtol + rtol * Rabs x).
Proof.
  intros Hc E. apply C19_brenth_result in E as [[= Hz]|[y [Ho [Hd _]]]]; try discriminate.
  - exists x; auto.
  - destruct (zero_between g x y Hc Ho) as [z [Hz Hg]]. exists z. split; auto. right.
    pose proof (hull_dist _ _ _ Hz). lra.
Qed.
(** With ytol the bracket can be left: the minimal step delta may exceed the bracket. *)
Theorem C19_brenth_ytol_inside_refuted :
  ~ (forall (f : Q -> result Q) xa xb xtol rtol n ytol q x, (xa <= xb)%Q -> (0 <= xtol)%Q -> (0 <= rtol)%Q ->
       brenth f xa xb xtol rtol n ytol q None None = Ok x -> (xa <= x <= xb)%Q).
Proof.
  intros H.
  specialize (H (fun x => Ok (if Qeq_bool x (3#2) then 0 else x - (1#3))%Q) 0%Q 1%Q 3%Q 0%Q 100%nat (Some (1#100)%Q) false).
  assert (E : exists x, brenth (fun x => Ok (if Qeq_bool x (3#2) then 0 else x - (1#3))%Q) 0%Q 1%Q 3%Q 0%Q 100%nat (Some (1#100)%Q) false None None = Ok x
              /\ Qle_bool x 1 = false) by (eexists; split; vm_compute; reflexivity).
  destruct E as [x [E1 E2]]. apply H in E1 as [_ E1]; try (unfold Qle; simpl; lia).
  apply Qle_bool_iff in E1. congruence.
Qed.
Example C19_ex_brenth :
  (match brenth (fun x : Q => Ok (x * x - 2)%Q) 1 2 (1#1000) 0 100 None false None None with
   | Ok x => Qle_bool (1413#1000) x && Qle_bool x (1416#1000) | _ => false end)%Q = true /\
  (match brenth (fun x : Q => Ok (x * x - 2)%Q) 1 2 (1#1000) 0 100 (Some (1#1000)) true None None with
   | Ok x => Qle_bool (1413#1000) x && Qle_bool x (1416#1000) | _ => false end)%Q = true /\
  brenth (fun x : Q => Ok (x * x + 1)%Q) 1%Q 2%Q (1#1000)%Q 0%Q 100 None false None None = Err NotBoundedError.
Proof. splits; vm_compute; reflexivity. Qed.
Example C19_ex_hyps : Rabs (2 - 1) <= 2 ^ 11 * (1 / 1000 / 2) /\ total (fun x : R => Ok (x * x - 2)).
Proof. splits. rewrite Rabs_right by lra; simpl; lra. intros x; eauto. Qed.

Theorem C19_ridder_result f a b xtol rtol n x : ridder f a b xtol rtol n = Ok x ->
  f x = Ok 0 \/ exists y, opposite f x y /\ Rabs (y - x) < xtol + rtol * x.
Proof. apply ridder_tol. Qed.
(** The bracket is kept when the initial tolerance is at most twice its width. *)
Theorem C19_ridder_inside f g a b xtol rtol n :
  xtol + rtol * Rmin (Rabs a) (Rabs b) <= 2 * Rabs (b - a) -> agree_on (hull a b) f g ->
  ridder f a b xtol rtol n = ridder g a b xtol rtol n /\ (forall x, ridder f a b xtol rtol n = Ok x -> hull a b x).
Proof. intros Ht Hag. destruct (ridder_inside f g a b xtol rtol n) as [K1 [K2 _]]; auto. Qed.
Theorem C19_ridder_errors f a b xtol rtol n e : total f -> xtol + rtol * Rmin (Rabs a) (Rabs b) <= 2 * Rabs (b - a) ->
  ridder f a b xtol rtol n = Err e ->
  e = UnconvergedError \/ (e = ValueError /\ exists v w, f a = Ok v /\ f b = Ok w /\ 0 < v * w).
Proof. intros T Ht. destruct (ridder_inside f f a b xtol rtol n) as [_ [_ K]]; auto. intros ? ?; auto. Qed.
(** With a wider tolerance it can leave the bracket and return a point outside. *)
Theorem C19_ridder_wide_tolerance_refuted :
  ~ (forall f a b xtol rtol n x, a <= b -> 0 <= xtol -> 0 <= rtol -> ridder f a b xtol rtol n = Ok x -> hull a b x).
Proof.
  intros H.
  set (f := fun x => Ok (if Reqb x (-4) then 0 else x - / 2)).
  assert (E : ridder f 0 1 10 0 1 = Ok (-4)).
  { unfold ridder, f. cbn [bind].
    assert (Reqb 0 (-4) = false) as -> by (apply Reqb_false; lra).
    assert (Reqb 1 (-4) = false) as -> by (apply Reqb_false; lra).
    assert (Rltb 0 ((0 - / 2) * (1 - / 2)) = false) as -> by (apply Rltb_false; lra).
    assert (Reqb (0 - / 2) 0 = false) as -> by (apply Reqb_false; lra).
    assert (Reqb (1 - / 2) 0 = false) as -> by (apply Reqb_false; lra).
    cbn [ridder_loop]. cbv zeta.
    assert (Reqb (0 + / 2 * (1 - 0)) (-4) = false) as -> by (apply Reqb_false; lra). cbn [bind].
    rewrite psqrt_ok by lra. cbn [bind].
    assert (Hs : sqrt ((0 + / 2 * (1 - 0) - / 2) * (0 + / 2 * (1 - 0) - / 2) - (0 - / 2) * (1 - / 2)) = / 2).
    { replace (_ - _) with (/ 2 * / 2) by field. apply sqrt_square; lra. }
    rewrite Hs, pdiv_ok by lra. cbn [bind].
    match goal with |- context [copysign (nmin _ _) ?d] => assert (Hd : d = 0) by ring; rewrite Hd end.
    assert (Hx : 0 + / 2 * (1 - 0) - copysign (nmin (Rabs (/ 2 * (1 - 0)) - / 2 * (10 + 0 * nmin (Rabs 1) (Rabs 0))) (Rabs 0)) 0 = -4).
    { rewrite !nminR, !Rabs_R0. replace (/ 2 * (1 - 0)) with (/ 2) by lra. rewrite (Rabs_right (/ 2)) by lra.
      unfold copysign. assert (Rltb 0 0 = false) as -> by (apply Rltb_false; lra).
      rewrite (Rmin_left (/ 2 - _) 0) by lra. rewrite Rmult_0_l. rewrite Rabs_left by lra. lra. }
    rewrite Hx. assert (Reqb (-4) (-4) = true) as -> by now apply Reqb_true. cbn [bind].
    repeat match goal with |- context [if Rltb ?u ?w then _ else _] => destruct (Rltb u w) end;
    assert (Reqb 0 0 = true) as -> by (now apply Reqb_true); reflexivity. }
  apply H in E; unfold hull in E; lra.
Qed.
(** hypotheses of C19_ridder_inside with the default tolerances on [1, 2] *)
Example C19_ex_ridder_hyps : 1 / 10 ^ 12 + 1 / 10 ^ 12 * Rmin (Rabs 1) (Rabs 2) <= 2 * Rabs (2 - 1).
Proof. rewrite !Rabs_right by lra. rewrite Rmin_left by lra. simpl. lra. Qed.
Example C19_ex_ridder_root : ridder (fun x => Ok x) 0 1 (1/10) 0 100 = Ok 0.
Proof.
  unfold ridder. cbn [bind]. assert (Rltb 0 (0 * 1) = false) as -> by (apply Rltb_false; lra).
  assert (Reqb 0 0 = true) as -> by (now apply Reqb_true). reflexivity.
Qed.

(** *** C20 secant and newton *)
(** Starting inside the bounds and without additional guesses, secant uses func only within [low, high] and returns a
    point there. *)
Theorem C20_secant_bounds f g x0 n o xtol ytol x1 f0 f1 :
  s_guesses o = false -> in_bounds (s_low o) (s_high o) x0 -> (forall v, x1 = Some v -> in_bounds (s_low o) (s_high o) v) ->
  agree_on (in_bounds (s_low o) (s_high o)) f g ->
  secant f x0 n o xtol ytol x1 f0 f1 = secant g x0 n o xtol ytol x1 f0 f1 /\
  (forall x, secant f x0 n o xtol ytol x1 f0 f1 = Ok x -> in_bounds (s_low o) (s_high o) x).
Proof. apply secant_inside. Qed.
(** With bisection and a sign change between the starting points (any bounds, any options), everything happens between
    them and the only error is UnconvergedError. *)
Theorem C20_secant_bracketed f g x0 x1 n o xtol ytol :
  s_bisection o = true -> opposite f x0 x1 -> agree_on (hull x0 x1) f g ->
  secant f x0 n o xtol ytol (Some x1) None None = secant g x0 n o xtol ytol (Some x1) None None /\
  (forall x, secant f x0 n o xtol ytol (Some x1) None None = Ok x -> hull x0 x1 x) /\
  (total f -> (1 <= n)%nat -> forall e, secant f x0 n o xtol ytol (Some x1) None None = Err e -> e = UnconvergedError).
Proof. apply secant_bracketed. Qed.
(** require_eval: the function value at the returned point meets ytol. *)
Theorem C20_secant_value f x0 n o xtol y x1 x : s_require_eval o = true -> s_same_tol o = 1 ->
  secant f x0 n o xtol (Some y) x1 None None = Ok x -> exists v, f x = Ok v /\ (v = 0 \/ Rabs v < y).
Proof. apply secant_value. Qed.
Theorem C20_secant_affine m c x0 x1 n o : m <> 0 -> x0 <> x1 -> s_low o = None -> s_high o = None -> s_damping o = 1 ->
  s_bisection o = false -> (1 <= n)%nat ->
  exists x, secant (fun x => Ok (m * x + c)) x0 n o None None (Some x1) None None = Ok x /\ m * x + c = 0.
Proof. apply secant_affine. Qed.
Theorem C20_secant_affine_bisection m c x0 x1 n o : 0 < m -> (m * x0 + c) * (m * x1 + c) < 0 -> s_low o = None -> s_high o = None -> s_damping o = 1 ->
  s_bisection o = true -> (1 <= n)%nat ->
  exists x, secant (fun x => Ok (m * x + c)) x0 n o None None (Some x1) None None = Ok x /\ m * x + c = 0.
Proof. apply secant_affine_bisection. Qed.
(** The same is not true of decreasing functions: because of operator precedence in the test for leaving the bracket every secant
    step is replaced by a bisection step there, and 1/3 - x started from 0 and 1 is not solved in forty iterations. *)
Theorem C20_secant_decreasing_refuted :
  ~ (forall (m c x0 x1 : Q) o, (m < 0)%Q -> ((m * x0 + c) * (m * x1 + c) < 0)%Q -> s_low o = None -> s_high o = None -> s_damping o = 1%Q ->
       s_bisection o = true ->
       exists x, secant (fun x => Ok (m * x + c)%Q) x0 40 o None None (Some x1) None None = Ok x).
Proof.
  intros H. destruct (H (-1)%Q (1#3)%Q 0%Q 1%Q (mk_secant None None 1%Q false true 1%Q true false 1%Q secant_bisection_factors)) as [x E];
    try reflexivity. vm_compute in E. discriminate.
Qed.
(** maxiter = 0 does not raise UnconvergedError but UnboundLocalError (the message names the loop variable). *)
Theorem C20_secant_maxiter_refuted :
  ~ (forall (f : Q -> result Q) x0 n o xtol ytol e, secant f x0 n o xtol ytol None None None = Err e ->
       e = UnconvergedError \/ e = SamePointError).
Proof.
  intros H.
  assert (E : secant (fun x : Q => Ok (x + 1)%Q) 1%Q 0
     (mk_secant None None 1%Q false false 1%Q true false 1%Q secant_bisection_factors) (Some (1#100)%Q) None None None None = Err UnboundLocalError)
    by (vm_compute; reflexivity).
  apply H in E as [|]; discriminate.
Qed.
(** With additional guesses the bounds are not respected: the last guess is used even when it was out of bounds. *)
Theorem C20_secant_guesses_bounds_refuted :
  ~ (forall (f : Q -> result Q) x0 n o xtol ytol x l h, s_low o = Some l -> s_high o = Some h -> (l <= x0 <= h)%Q ->
       s_factors o = secant_bisection_factors -> s_scale o = 1%Q ->
       secant f x0 n o xtol ytol None None None = Ok x -> (l <= x <= h)%Q).
Proof.
  intros H.
  set (o := mk_secant (Some (1#2)%Q) (Some 2%Q) 1%Q false false 1%Q true true 1%Q secant_bisection_factors).
  set (f := fun x => Ok (if Qeq_bool x (19#55) then 0 else 1)%Q).
  assert (E : exists x, secant f 1%Q 100 o (Some (1#100000000)%Q) None None None None = Ok x /\ Qle_bool (1#2) x = false)
    by (eexists; split; vm_compute; reflexivity).
  destruct E as [x [E1 E2]]. eapply H in E1; try reflexivity.
  - destruct E1 as [E1 _]. apply Qle_bool_iff in E1. congruence.
  - split; unfold Qle; simpl; lia.
Qed.
Example C20_ex_secant :
  (match secant (fun x : Q => Ok (x * x - 2)%Q) 1 20 (mk_secant (Some 0) (Some 2) 1 true false 1 true false 1 secant_bisection_factors)
           (Some (1#1000)) (Some (1#1000)) None None None with
   | Ok x => Qle_bool (14140#10000) x && Qle_bool x (14145#10000) | _ => false end)%Q = true /\
  (match secant (fun x : Q => Ok (x * x * x - 2)%Q) 0 20 (mk_secant None None 1 true true 1 true false 1 secant_bisection_factors)
           (Some (1#100)) (Some (1#100)) (Some 2) None None with
   | Ok x => Qle_bool (1250#1000) x && Qle_bool x (1270#1000) | _ => false end)%Q = true.
Proof. split; vm_compute; reflexivity. Qed.
Example C20_ex_secant_hyps : in_bounds (Some 0) (Some 2) 1 /\ opposite (fun x => Ok (x * x * x - 2)) 0 2.
Proof.
  split.
  - split; intros ? [= <-]; lra.
  - exists (0 * 0 * 0 - 2), (2 * 2 * 2 - 2). splits; auto; lra.
Qed.

(** newton: every point after x0 at which the functions are used lies within the bounds, and so does the result; no
    assumption on damping, damping_func, bisection or additional guesses. *)
Theorem C20_newton_bounds func gunc x0 n o xtol ytol : (forall l h, n_low o = Some l -> n_high o = Some h -> l <= h) ->
  agree_on (fun x => x = x0 \/ in_bounds (n_low o) (n_high o) x) func gunc ->
  newton func x0 n o xtol ytol = newton gunc x0 n o xtol ytol /\
  (forall x, newton func x0 n o xtol ytol = Ok x -> x = x0 \/ in_bounds (n_low o) (n_high o) x).
Proof. intros Hc Hag. destruct (newton_inside func o gunc x0 n xtol ytol Hc Hag) as [K1 [K2 _]]; auto. Qed.
(** require_eval: the function value at the returned point meets ytol. *)
Theorem C20_newton_value func x0 n o xtol y x : (forall l h, n_low o = Some l -> n_high o = Some h -> l <= h) ->
  n_require_eval o = true -> newton func x0 n o xtol (Some y) = Ok x ->
  exists v d c, func x = Ok (v, d, c) /\ (v = 0 \/ Rabs v <= y).
Proof. intros Hc Hr E. destruct (newton_inside func o func x0 n xtol (Some y) Hc) as [_ [_ K]]; eauto. intros ? ?; auto. Qed.
(** newton without fprime2 and additional guesses raises only UnconvergedError; in particular it terminates and never
    divides by zero. *)
Theorem C20_newton_errors func x0 n o xtol ytol e : total func -> n_second o = false -> n_guesses o = false -> (1 <= n)%nat ->
  newton func x0 n o xtol ytol = Err e -> e = UnconvergedError.
Proof. apply newton_errors. Qed.
(** On a convex increasing function started right of the root the result lies between the root and x0 (undamped or
    damped); convexity is stated as the tangent inequality. *)
Theorem C20_newton_convex f df r x0 n o xtol ytol x :
  (forall u v, f u + df u * (v - u) <= f v) -> (forall u, 0 < df u) -> f r = 0 -> r <= x0 ->
  n_low o = None -> n_high o = None -> n_bisection o = false -> n_second o = false -> n_guesses o = false ->
  n_damping_func o = None -> 0 <= n_damping o <= 1 ->
  newton (fun p => Ok (f p, df p, 0)) x0 n o xtol ytol = Ok x -> r <= x <= x0.
Proof. apply newton_convex. Qed.
Theorem C20_newton_affine m c x0 n o : m <> 0 -> n_low o = None -> n_high o = None -> n_damping o = 1 -> n_damping_func o = None ->
  n_bisection o = false -> n_second o = false -> (2 <= n)%nat ->
  exists x, newton (fun p => Ok (m * p + c, m, 0)) x0 n o None None = Ok x /\ m * x + c = 0.
Proof. apply newton_affine. Qed.
(** additional_guesses together with bisection can raise TypeError: fval*fval1 with fval1 None. *)
Theorem C20_newton_guesses_bisection_refuted :
  ~ (forall (func : Q -> result (Q * Q * Q)) x0 n o xtol ytol e, (forall x, exists v, func x = Ok v) -> (1 <= n)%nat -> n_second o = false ->
       newton func x0 n o xtol ytol = Err e -> e = UnconvergedError).
Proof.
  intros H.
  set (o := mk_newton None None 1%Q false true None true true 4 false secant_bisection_factors line_search_factors).
  set (f := fun x : Q => Ok (1, if Qeq_bool x 1 then 1 else 0, 0)%Q).
  assert (E : newton f 1%Q 100 o (Some (1#100000000)%Q) None = Err TypeError) by (vm_compute; reflexivity).
  apply H in E; try discriminate; try reflexivity; try lia. intros x; eexists; reflexivity.
Qed.
(** With fprime2 the Halley denominator may vanish: ZeroDivisionError. *)
Theorem C20_newton_fprime2_refuted :
  ~ (forall (func : Q -> result (Q * Q * Q)) x0 n o xtol ytol e, (forall x, exists v, func x = Ok v) -> (1 <= n)%nat -> n_guesses o = false ->
       newton func x0 n o xtol ytol = Err e -> e = UnconvergedError).
Proof.
  intros H.
  set (o := mk_newton None None 1%Q false true None false false 4 true secant_bisection_factors line_search_factors).
  assert (E : newton (fun x : Q => Ok (x * x + 3, 2 * x, 2)%Q) 1%Q 100 o (Some (1#100000000)%Q) None = Err ZeroDivisionError) by (vm_compute; reflexivity).
  apply H in E; try discriminate; try reflexivity; try lia. intros x; eexists; reflexivity.
Qed.
(** With xtol only (the default) a bound can be returned as the root although f is far from zero there. *)
Theorem C20_newton_at_bound_refuted :
  ~ (forall (func : Q -> result (Q * Q * Q)) x0 n o xtol x l, n_low o = Some l -> (0 < xtol)%Q ->
       newton func x0 n o (Some xtol) None = Ok x -> x == l -> exists v d c, func x = Ok (v, d, c) /\ v == 0)%Q.
Proof.
  intros H.
  set (o := mk_newton (Some 1%Q) None 1%Q false true None false false 4 false secant_bisection_factors line_search_factors).
  assert (E : newton (fun x : Q => Ok (x, 1, 0)%Q) 2%Q 100 o (Some (1#100000000)%Q) None = Ok 1%Q) by (vm_compute; reflexivity).
  eapply H in E; try reflexivity. destruct E as [v [d [c [[= <- <- <-] E]]]]. discriminate E.
Qed.
Example C20_ex_newton :
  (match newton (fun x : Q => Ok (x * x - 2, 2 * x, 2)%Q) 1 20
       (mk_newton (Some 0) (Some 2) 1 true true None false false 4 false secant_bisection_factors line_search_factors) (Some (1#1000)) (Some (1#1000)) with
   | Ok x => Qle_bool (14140#10000) x && Qle_bool x (14145#10000) | _ => false end)%Q = true /\
  (match newton (fun x : Q => Ok (x * x - 2, 2 * x, 2)%Q) 1 20
       (mk_newton (Some 0) (Some 2) 1 true true None true true 4 true secant_bisection_factors line_search_factors) (Some (1#1000)) (Some (1#1000)) with
   | Ok x => Qle_bool (14140#10000) x && Qle_bool x (14145#10000) | _ => false end)%Q = true.
Proof. split; vm_compute; reflexivity. Qed.
(** hypotheses of C20_newton_convex: exp x - 1, root 0, started at 3 *)
Example C20_ex_convex_hyps : (forall u v, (exp u - 1) + exp u * (v - u) <= exp v - 1) /\ (forall u, 0 < exp u) /\ exp 0 - 1 = 0.
Proof.
  splits.
  - intros u v. pose proof (exp_ineq1_le (v - u)) as H. pose proof (exp_pos u).
    replace (exp v) with (exp u * exp (v - u)) by (rewrite <- exp_plus; f_equal; lra). nra.
  - apply exp_pos.
  - rewrite exp_0; lra.
Qed.

(** *** C68 halley *)
Theorem C68_halley_bounds func gunc x0 n o xtol ytol : (forall l h, h_low o = Some l -> h_high o = Some h -> l <= h) ->
  agree_on (fun x => x = x0 \/ in_bounds (h_low o) (h_high o) x) func gunc ->
  halley func x0 n o xtol ytol = halley gunc x0 n o xtol ytol /\
  (forall x, halley func x0 n o xtol ytol = Ok x -> x = x0 \/ in_bounds (h_low o) (h_high o) x).
Proof. intros Hc Hag. destruct (halley_inside func gunc o x0 n xtol ytol Hc Hag) as [K1 [K2 _]]; auto. Qed.
Theorem C68_halley_value func x0 n o xtol y x : (forall l h, h_low o = Some l -> h_high o = Some h -> l <= h) ->
  h_require_eval o = true -> halley func x0 n o xtol (Some y) = Ok x ->
  exists v d c, func x = Ok (v, d, c) /\ (v = 0 \/ Rabs v < y).
Proof. intros Hc Hr E. destruct (halley_inside func func o x0 n xtol (Some y) Hc) as [_ [_ K]]; eauto. intros ? ?; auto. Qed.
(** Without ytol a point with zero derivative is returned as a root although the function is not zero there. *)
Theorem C68_halley_flat_refuted :
  ~ (forall (func : Q -> result (Q * Q * Q)) x0 n o xtol x, halley func x0 n o (Some xtol) None = Ok x -> h_require_eval o = true ->
       exists v d c, func x = Ok (v, d, c) /\ (Qabs.Qabs v <= 1#10)%Q).
Proof.
  intros H.
  set (o := mk_halley None None 1%Q true None false 4 (Some (3#2)%Q)).
  assert (E : halley (fun x : Q => Ok (x * x + 1, 2 * x, 2)%Q) 0%Q 100 o (Some (1#100000000)%Q) None = Ok 0%Q) by (vm_compute; reflexivity).
  apply H in E; auto. destruct E as [v [d [c [[= <- <- <-] E]]]]. unfold Qle in E. simpl in E. lia.
Qed.
(** Without ytol, hammering a bound raises TypeError (abs(fval) < None) instead of UnconvergedError. *)
Theorem C68_halley_bound_refuted :
  ~ (forall (func : Q -> result (Q * Q * Q)) x0 n o xtol e, halley func x0 n o (Some xtol) None = Err e -> h_max_hits o = 4%nat -> (1 <= n)%nat ->
       e = UnconvergedError).
Proof.
  intros H.
  set (o := mk_halley (Some 0%Q) None 1%Q true None false 4 (Some (3#2)%Q)).
  assert (E : halley (fun x : Q => Ok (x + 1, 1, 0)%Q) 1%Q 100 o (Some (1#100000000)%Q) None = Err TypeError) by (vm_compute; reflexivity).
  apply H in E; auto; [discriminate|lia].
Qed.
(** The Halley denominator can vanish. *)
Theorem C68_halley_denominator_refuted :
  ~ (forall (func : Q -> result (Q * Q * Q)) x0 n o xtol ytol e, halley func x0 n o xtol ytol = Err e -> (1 <= n)%nat -> e = UnconvergedError).
Proof.
  intros H.
  set (o := mk_halley None None 1%Q true None false 4 (Some (3#2)%Q)).
  assert (E : halley (fun x : Q => Ok (x * x + 3, 2 * x, 2)%Q) 1%Q 100 o (Some (1#100000000)%Q) (Some (1#100)%Q) = Err ZeroDivisionError) by (vm_compute; reflexivity).
  apply H in E; [discriminate|lia].
Qed.
Example C68_ex_halley :
  (match halley (fun x : Q => Ok (x * x - 2, 2 * x, 2)%Q) 1 20 (mk_halley (Some 0) (Some 2) 1 true None true 4 (Some (3#2))) (Some (1#1000)) (Some (1#1000)) with
   | Ok x => Qle_bool (14140#10000) x && Qle_bool x (14145#10000) | _ => false end)%Q = true.
Proof. vm_compute; reflexivity. Qed.

Print Assumptions C18_bisect_result.
Print Assumptions C18_bisect_root_nearby.
Print Assumptions C18_bisect_inside.
Print Assumptions C18_bisect_errors.
Print Assumptions C18_bisect_converges.
Print Assumptions C19_brenth_result.
Print Assumptions C19_brenth_inside.
Print Assumptions C19_brenth_errors.
Print Assumptions C19_brenth_converges.
Print Assumptions C19_brenth_root_nearby.
Print Assumptions C19_brenth_ytol_inside_refuted.
Print Assumptions C19_ridder_result.
Print Assumptions C19_ridder_inside.
Print Assumptions C19_ridder_errors.
Print Assumptions C19_ridder_wide_tolerance_refuted.
Print Assumptions C20_secant_bounds.
Print Assumptions C20_secant_bracketed.
Print Assumptions C20_secant_value.
Print Assumptions C20_secant_affine.
Print Assumptions C20_secant_affine_bisection.
Print Assumptions C20_secant_decreasing_refuted.
Print Assumptions C20_secant_maxiter_refuted.
Print Assumptions C20_secant_guesses_bounds_refuted.
Print Assumptions C20_newton_bounds.
Print Assumptions C20_newton_value.
Print Assumptions C20_newton_errors.
Print Assumptions C20_newton_convex.
Print Assumptions C20_newton_affine.
Print Assumptions C20_newton_guesses_bisection_refuted.
Print Assumptions C20_newton_fprime2_refuted.
Print Assumptions C20_newton_at_bound_refuted.
Print Assumptions C68_halley_bounds.
Print Assumptions C68_halley_value.
Print Assumptions C68_halley_flat_refuted.
Print Assumptions C68_halley_bound_refuted.
Print Assumptions C68_halley_denominator_refuted.
