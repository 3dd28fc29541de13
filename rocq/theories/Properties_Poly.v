(** Theorems C01-C06 and C61: polynomials.  [heval]/[leval] (Spec_Poly) are the values of the
    polynomial with the listed coefficients, highest / lowest power first;
    [dersN F x v1 .. vN] says that v1..vN are the first N derivatives of F at x. *)
From Coq Require Import List Bool QArith Reals ZArith Lra Lia Factorial.
From Coquelicot Require Import Coquelicot.
From Verif Require Import Base Sums Spec_Poly Model_Poly Proofs_Poly Proofs_Poly2 Proofs_Poly3.
Import ListNotations.
Local Open Scope R_scope.

(** ** C01 *)
Theorem C01_horner : forall cs x, horner cs x = heval cs x.
Proof. exact horner_correct. Qed.
Theorem C01_horner_stable : forall x cs offset scale,
  horner_stable x cs offset scale = heval cs (offset + scale * x).
Proof. exact horner_stable_correct. Qed.
(** maps [xmin,xmax] onto [-1,1]: at xmin the argument is -1, at xmax it is 1 *)
Theorem C01_horner_domain : forall x cs xmin xmax,
  (xmin <> xmax -> horner_domain x cs xmin xmax = Ok (heval cs ((2 * x - xmin - xmax) / (xmax - xmin)))) /\
  (xmin = xmax -> horner_domain x cs xmin xmax = Err ZeroDivisionError).
Proof. intros; split; [apply horner_domain_ok | intros ->; apply horner_domain_err]. Qed.
Example C01_ex : horner [2; -3; 5] 4 = 25.
Proof. rewrite C01_horner. unfold heval; simpl; lra. Qed.
Example C01_ex_domain : horner_domain 3 [2; -3; 5] 1 4 = Ok (2 * (1/3)^2 - 3 * (1/3) + 5).
Proof. rewrite (proj1 (C01_horner_domain _ _ _ _)) by lra. f_equal. unfold heval; simpl; field. Qed.

(** ** C02 *)
Theorem C02_horner_and_der : forall cs x, exists d1,
  horner_and_der cs x = (heval cs x, d1) /\ ders1 (heval cs) x d1.
Proof. intros; eexists; split; [apply horner_and_der_eq | apply poly_ders1]. Qed.
Theorem C02_horner_and_der2 : forall cs x, exists d1 d2,
  horner_and_der2 cs x = (heval cs x, d1, d2) /\ ders2 (heval cs) x d1 d2.
Proof. intros; do 2 eexists; split; [apply horner_and_der2_eq | apply poly_ders2]. Qed.
Theorem C02_horner_and_der3 : forall cs x, exists d1 d2 d3,
  horner_and_der3 cs x = (heval cs x, d1, d2, d3) /\ ders3 (heval cs) x d1 d2 d3.
Proof. intros; do 3 eexists; split; [apply horner_and_der3_eq | apply poly_ders3]. Qed.
Theorem C02_horner_and_der4 : forall cs x, exists d1 d2 d3 d4,
  horner_and_der4 cs x = (heval cs x, d1, d2, d3, d4) /\ ders4 (heval cs) x d1 d2 d3 d4.
Proof. intros; do 4 eexists; split; [apply horner_and_der4_eq | apply poly_ders4]. Qed.
Theorem C02_horner_stable_and_der : forall cs x o s, exists d1,
  horner_stable_and_der x cs o s = (heval cs (o + s * x), d1) /\ ders1 (fun y => heval cs (o + s * y)) x d1.
Proof. intros; eexists; split; [apply horner_stable_and_der_eq | apply st_ders1]. Qed.
Theorem C02_horner_stable_and_der2 : forall cs x o s, exists d1 d2,
  horner_stable_and_der2 x cs o s = (heval cs (o + s * x), d1, d2) /\ ders2 (fun y => heval cs (o + s * y)) x d1 d2.
Proof. intros; do 2 eexists; split; [apply horner_stable_and_der2_eq | apply st_ders2]. Qed.
Theorem C02_horner_stable_and_der3 : forall cs x o s, exists d1 d2 d3,
  horner_stable_and_der3 x cs o s = (heval cs (o + s * x), d1, d2, d3) /\
  ders3 (fun y => heval cs (o + s * y)) x d1 d2 d3.
Proof. intros; do 3 eexists; split; [apply horner_stable_and_der3_eq | apply st_ders3]. Qed.
Theorem C02_horner_stable_and_der4 : forall cs x o s, exists d1 d2 d3 d4,
  horner_stable_and_der4 x cs o s = (heval cs (o + s * x), d1, d2, d3, d4) /\
  ders4 (fun y => heval cs (o + s * y)) x d1 d2 d3 d4.
Proof. intros; do 4 eexists; split; [apply horner_stable_and_der4_eq | apply st_ders4]. Qed.
(** x^3 at 2: 8, 12, 12, 6 *)
Example C02_ex : horner_and_der3 [1%Q; 0; 0; 0]%Q 2%Q = (8, 12, 12, 6)%Q.
Proof. vm_compute. reflexivity. Qed.

(** ** C03 *)
(** Below the critical temperature: value and derivatives with respect to T of
    poly(ln(1 - T/Tc)); at and above it: zeros. *)
Theorem C03_horner_backwards_ln_tau : forall cs T Tc, 0 < Tc -> T < Tc ->
  let F := fun t => heval cs (ln (1 - t / Tc)) in
  exists d1 d2 d3, ders3 F T d1 d2 d3 /\
    horner_backwards_ln_tau T Tc cs = Ok (F T) /\
    horner_backwards_ln_tau_and_der T Tc cs = Ok (F T, d1) /\
    horner_backwards_ln_tau_and_der2 T Tc cs = Ok (F T, d1, d2) /\
    horner_backwards_ln_tau_and_der3 T Tc cs = Ok (F T, d1, d2, d3).
Proof.
  intros cs T Tc H1 H2 F. do 3 eexists. split;
   [apply (lt_ders3 (heval cs) (hd1 cs) (hd2 cs) (hd3 cs)); auto using heval_d1, heval_d2, heval_d3|].
  rewrite hb_lt, hb_lt1, hb_lt2, hb_lt3; auto.
Qed.
Theorem C03_horner_stable_ln_tau : forall cs T Tc o s, 0 < Tc -> T < Tc ->
  let F := fun t => heval cs (o + s * ln (1 - t / Tc)) in
  exists d1 d2 d3, ders3 F T d1 d2 d3 /\
    horner_stable_ln_tau T Tc cs o s = Ok (F T) /\
    horner_stable_ln_tau_and_der T Tc cs o s = Ok (F T, d1) /\
    horner_stable_ln_tau_and_der2 T Tc cs o s = Ok (F T, d1, d2) /\
    horner_stable_ln_tau_and_der3 T Tc cs o s = Ok (F T, d1, d2, d3).
Proof.
  intros cs T Tc o s H1 H2 F. do 3 eexists. split;
   [apply (lt_ders3 (sv cs o s) (sd1 cs o s) (sd2 cs o s) (sd3 cs o s)); auto using sv_d, sd1_d, sd2_d|].
  rewrite hs_lt, hs_lt1, hs_lt2, hs_lt3; auto.
Qed.
Theorem C03_ln_tau_at_or_above_critical : forall cs T Tc o s, Tc <= T ->
  horner_backwards_ln_tau T Tc cs = Ok 0 /\
  horner_backwards_ln_tau_and_der T Tc cs = Ok (0, 0) /\
  horner_backwards_ln_tau_and_der2 T Tc cs = Ok (0, 0, 0) /\
  horner_backwards_ln_tau_and_der3 T Tc cs = Ok (0, 0, 0, 0) /\
  horner_stable_ln_tau T Tc cs o s = Ok 0 /\
  horner_stable_ln_tau_and_der T Tc cs o s = Ok (0, 0) /\
  horner_stable_ln_tau_and_der2 T Tc cs o s = Ok (0, 0, 0) /\
  horner_stable_ln_tau_and_der3 T Tc cs o s = Ok (0, 0, 0, 0) /\
  exp_horner_backwards_ln_tau T Tc cs = Ok 0 /\
  exp_horner_backwards_ln_tau_and_der T Tc cs = Ok (0, 0) /\
  exp_horner_backwards_ln_tau_and_der2 T Tc cs = Ok (0, 0, 0) /\
  exp_horner_stable_ln_tau T Tc cs o s = Ok 0 /\
  exp_horner_stable_ln_tau_and_der T Tc cs o s = Ok (0, 0) /\
  exp_horner_stable_ln_tau_and_der2 T Tc cs o s = Ok (0, 0, 0).
Proof.
  intros. unfold horner_backwards_ln_tau, horner_backwards_ln_tau_and_der, horner_backwards_ln_tau_and_der2,
   horner_backwards_ln_tau_and_der3, horner_stable_ln_tau, horner_stable_ln_tau_and_der, horner_stable_ln_tau_and_der2,
   horner_stable_ln_tau_and_der3, exp_horner_backwards_ln_tau, exp_horner_backwards_ln_tau_and_der,
   exp_horner_backwards_ln_tau_and_der2, exp_horner_stable_ln_tau, exp_horner_stable_ln_tau_and_der,
   exp_horner_stable_ln_tau_and_der2.
  splits; now apply lt_zero.
Qed.
(** exp(poly(x)): [exp_overflow] = 709.78... is the largest argument math.exp accepts *)
Theorem C03_exp_horner_backwards : forall cs x, heval cs x <= exp_overflow ->
  let F := fun y => exp (heval cs y) in
  exists d1 d2 d3, ders3 F x d1 d2 d3 /\
    exp_horner_backwards x cs = Ok (F x) /\
    exp_horner_backwards_and_der x cs = Ok (F x, d1) /\
    exp_horner_backwards_and_der2 x cs = Ok (F x, d1, d2) /\
    exp_horner_backwards_and_der3 x cs = Ok (F x, d1, d2, d3).
Proof.
  intros cs x H F. do 3 eexists. split;
   [apply (exp_ders3 (heval cs) (hd1 cs) (hd2 cs) (hd3 cs)); auto using heval_d1, heval_d2, heval_d3|].
  rewrite ehb, ehb1, ehb2, ehb3; auto.
Qed.
Theorem C03_exp_horner_stable : forall cs x o s, heval cs (o + s * x) <= exp_overflow ->
  let F := fun y => exp (heval cs (o + s * y)) in
  exists d1 d2 d3, ders3 F x d1 d2 d3 /\
    exp_horner_stable x cs o s = F x /\
    exp_horner_stable_and_der x cs o s = Ok (F x, d1) /\
    exp_horner_stable_and_der2 x cs o s = Ok (F x, d1, d2) /\
    exp_horner_stable_and_der3 x cs o s = Ok (F x, d1, d2, d3).
Proof.
  intros cs x o s H F. do 3 eexists. split;
   [apply (exp_ders3 (sv cs o s) (sd1 cs o s) (sd2 cs o s) (sd3 cs o s)); auto using sv_d, sd1_d, sd2_d|].
  rewrite ehs, ehs1, ehs2, ehs3; auto.
Qed.
Theorem C03_exp_ln_tau : forall cs T Tc o s, 0 < Tc -> T < Tc ->
  (heval cs (ln (1 - T / Tc)) <= exp_overflow ->
   let F := fun t => exp (heval cs (ln (1 - t / Tc))) in
   exists d1 d2, ders2 F T d1 d2 /\
    exp_horner_backwards_ln_tau T Tc cs = Ok (F T) /\
    exp_horner_backwards_ln_tau_and_der T Tc cs = Ok (F T, d1) /\
    exp_horner_backwards_ln_tau_and_der2 T Tc cs = Ok (F T, d1, d2)) /\
  (heval cs (o + s * ln (1 - T / Tc)) <= exp_overflow ->
   let F := fun t => exp (heval cs (o + s * ln (1 - t / Tc))) in
   exists d1 d2, ders2 F T d1 d2 /\
    exp_horner_stable_ln_tau T Tc cs o s = Ok (F T) /\
    exp_horner_stable_ln_tau_and_der T Tc cs o s = Ok (F T, d1) /\
    exp_horner_stable_ln_tau_and_der2 T Tc cs o s = Ok (F T, d1, d2)).
Proof.
  intros cs T Tc o s H1 H2. split; intros HO F.
  - do 2 eexists. split.
    + apply (lt_ders2 (e0 (heval cs)) (e1 (heval cs) (hd1 cs)) (e2 (heval cs) (hd1 cs) (hd2 cs))); auto.
      * intros; apply E1; apply heval_d1.
      * intros; apply E2; [apply heval_d1 | apply heval_d2].
    + rewrite eblt, eblt1, eblt2; auto.
  - do 2 eexists. split.
    + apply (lt_ders2 (e0 (sv cs o s)) (e1 (sv cs o s) (sd1 cs o s)) (e2 (sv cs o s) (sd1 cs o s) (sd2 cs o s))); auto.
      * intros; apply E1; apply sv_d.
      * intros; apply E2; [apply sv_d | apply sd1_d].
    + rewrite eslt, eslt1, eslt2; auto.
Qed.
(** The value returned with derivatives is NOT always the value returned alone: above the overflow
    threshold exp_horner_stable saturates while exp_horner_stable_and_der raises OverflowError. *)
Theorem C03_exp_horner_stable_value_agreement_refuted :
  ~ (forall x cs o s, exists d, exp_horner_stable_and_der x cs o s = Ok (exp_horner_stable x cs o s, d)).
Proof.
  intros H. destruct (H 710 [1; 0] 0 1) as [d E]. revert E.
  unfold exp_horner_stable_and_der. rewrite horner_stable_and_der_eq, heval2.
  unfold pexp. rcase; [discriminate|].
  exfalso. revert Hb. unfold exp_overflow, Q2R. cbn [Qnum Qden]. lra.
Qed.
(** Fitting: the two- and three-coefficient exponential log-tau polynomials reproduce the requested
    value and derivatives when evaluated by the library's own evaluation functions. *)
Theorem C03_exp_poly_ln_tau_coeffs2 : forall T Tc val der, 0 < Tc -> T < Tc -> 0 < val -> ln val <= exp_overflow ->
  exists c0 c1, exp_poly_ln_tau_coeffs2 T Tc val der = Ok (c0, c1) /\
    exp_horner_backwards_ln_tau_and_der T Tc [c0; c1] = Ok (val, der).
Proof.
  intros T Tc val der H1 H2 Hv Ho. destruct (lncoef2 T Tc val der H1 H2 Hv) as (c0 & c1 & E & V & D).
  exists c0, c1. split; auto. rewrite eblt1; auto; [now rewrite V, D|].
  replace (heval [c0; c1] (L Tc T)) with (ln val); auto.
  rewrite <- V. unfold t0, e0. now rewrite ln_exp.
Qed.
Theorem C03_exp_poly_ln_tau_coeffs3 : forall T Tc val der der2, 0 < Tc -> T < Tc -> 0 < val -> ln val <= exp_overflow ->
  exists a b c, exp_poly_ln_tau_coeffs3 T Tc val der der2 = Ok (a, b, c) /\
    exp_horner_backwards_ln_tau_and_der2 T Tc [a; b; c] = Ok (val, der, der2).
Proof.
  intros T Tc val der der2 H1 H2 Hv Ho. destruct (lncoef3 T Tc val der der2 H1 H2 Hv) as (a & b & c & E & V & D & D2).
  exists a, b, c. split; auto. rewrite eblt2; auto; [now rewrite V, D, D2|].
  replace (heval [a; b; c] (L Tc T)) with (ln val); auto.
  rewrite <- V. unfold t0, e0. now rewrite ln_exp.
Qed.
Example C03_ex_hyp : 0 < 647 /\ 300 < 647 /\ 0 < 1 /\ ln 1 <= exp_overflow.
Proof. rewrite ln_1. unfold exp_overflow, Q2R; cbn [Qnum Qden]. lra. Qed.
Example C03_ex_hyp2 : heval [1; 2] (ln (1 - 300 / 647)) <= exp_overflow.
Proof.
  rewrite heval2. assert (ln (1 - 300/647) < ln 1) by (apply ln_increasing; lra). rewrite ln_1 in H.
  unfold exp_overflow, Q2R; cbn [Qnum Qden]. lra.
Qed.

(** ** C04 *)
Theorem C04_polyint : forall cs x, is_derive (heval (polyint cs)) x (heval cs x) /\ heval (polyint cs) 0 = 0.
Proof. intros; split; [apply polyint_derive | apply polyint_at0]. Qed.
Theorem C04_polyint_stable : forall cs xmin xmax,
  (xmin <> xmax -> exists out, polyint_stable cs xmin xmax = Ok out /\ length out = S (length cs) /\
     forall x, let o := (- xmax - xmin) / (xmax - xmin) in let s := 2 / (xmax - xmin) in
       is_derive (fun y => horner_stable y out o s) x (horner_stable x cs o s)) /\
  (xmin = xmax -> polyint_stable cs xmin xmax = Err ZeroDivisionError).
Proof.
  intros; split; [|intros ->; apply polyint_stable_err].
  intros H. destruct (polyint_stable_ok cs xmin xmax H) as (out & E & Ln & D).
  exists out. splits; auto. intros x o s. rewrite horner_stable_correct.
  apply (is_derive_ext (fun y => heval out (o + s * y))); [intros; now rewrite horner_stable_correct | apply D].
Qed.
Theorem C04_polyint_over_x : forall cs x, 0 < x ->
  is_derive (fun y => heval (fst (polyint_over_x cs)) y + snd (polyint_over_x cs) * ln y) x (heval cs x / x).
Proof. exact polyint_over_x_derive. Qed.
Theorem C04_polyder : forall c m x, is_derive_n (leval c) m x (leval (polyder c m) x).
Proof. exact polyder_correct. Qed.
Example C04_ex : polyint [3; 2; 1]%Q = [1; 1; 1; 0]%Q. Proof. vm_compute. reflexivity. Qed.
Example C04_ex_der : polyder [5; 4; 3; 2]%Q 2 = [6; 12]%Q. Proof. vm_compute. reflexivity. Qed.

(** ** C05 *)
Theorem C05_poly_add : forall p q x, leval (poly_add p q) x = leval p x + leval q x.
Proof. exact leval_poly_add. Qed.
Theorem C05_poly_mul : forall p q x, leval (poly_mul p q) x = leval p x * leval q x.
Proof. exact leval_poly_mul. Qed.
(** stable coefficients on [low,high] to ordinary ones: same function as horner_domain, and the first
    coefficient is nonzero unless the polynomial is identically zero *)
Theorem C05_stable_poly_to_unstable : forall coeffs low high, low <> high ->
  exists out, stable_poly_to_unstable coeffs low high = Ok out /\
    (forall x, Ok (horner out x) = horner_domain x coeffs low high) /\
    ((exists c t, out = c :: t /\ c <> 0) \/ (forall x, horner out x = 0)).
Proof.
  intros coeffs low high H. destruct (stable_to_unstable_ok coeffs low high H) as (out & E & V & Z).
  exists out. splits; auto.
  - intros x. rewrite horner_domain_ok, horner_correct, V; auto.
  - destruct Z as [Z|Z]; auto. right. intros. now rewrite horner_correct.
Qed.
(** with low = high the polynomial is left untransformed *)
Theorem C05_stable_poly_to_unstable_degenerate : forall coeffs lim,
  exists out, stable_poly_to_unstable coeffs lim lim = Ok out /\ forall x, horner out x = horner coeffs x.
Proof.
  intros. destruct (stable_to_unstable_same coeffs lim) as (out & E & V).
  exists out; split; auto. intros. now rewrite !horner_correct.
Qed.
(** poly_convert re-expresses a polynomial in T in the variable u in [-1,1] with T = mid + half*u *)
Theorem C05_poly_convert : forall cs Tmin Tmax u,
  leval (poly_convert cs Tmin Tmax) u = leval cs ((Tmin + Tmax) / 2 + (Tmax - Tmin) / 2 * u).
Proof. exact leval_poly_convert. Qed.
Example C05_ex : stable_poly_to_unstable [2; 3]%Q 1%Q 3%Q = Ok [2; -1]%Q.
Proof. vm_compute. reflexivity. Qed.

(** ** C06 *)
Theorem C06_quadratic_from_points : forall x0 x1 x2 f0 f1 f2,
  (x0 <> x1 -> x1 <> x2 -> x0 <> x2 ->
   exists a b c, quadratic_from_points x0 x1 x2 f0 f1 f2 = Ok (a, b, c) /\
     a*x0^2 + b*x0 + c = f0 /\ a*x1^2 + b*x1 + c = f1 /\ a*x2^2 + b*x2 + c = f2) /\
  (x0 = x1 \/ x1 = x2 \/ x0 = x2 -> quadratic_from_points x0 x1 x2 f0 f1 f2 = Err ZeroDivisionError).
Proof. intros; split; [apply quadratic_from_points_ok | apply quadratic_from_points_err]. Qed.
Theorem C06_quadratic_from_f_ders : forall x v d1 d2,
  let '(a, b, c) := quadratic_from_f_ders x v d1 d2 in
  a*x^2 + b*x + c = v /\ 2*a*x + b = d1 /\ 2*a = d2.
Proof. exact quadratic_from_f_ders_ok. Qed.
(** if x0 is a root of x^3+bx^2+cx+d and the quotient has real roots, those are returned *)
Theorem C06_deflate_cubic : forall b c d x0,
  (x0 <> 0 -> x0^3 + b*x0^2 + c*x0 + d = 0 -> 0 <= (b + x0)^2 - 4 * (x0^2 + b*x0 + c) ->
   exists x1 x2, deflate_cubic_real_roots b c d x0 = Ok (x1, x2) /\
    forall x, x^3 + b*x^2 + c*x + d = (x - x0)*(x - x1)*(x - x2)) /\
  (x0 = 0 -> deflate_cubic_real_roots b c d x0 = Err ZeroDivisionError).
Proof. intros; split; [apply deflate_ok | intros ->; apply deflate_err]. Qed.
Example C06_ex : quadratic_from_points 0%Q 1%Q 2%Q 1%Q 2%Q 5%Q = Ok (1, 0, 1)%Q.
Proof. vm_compute. reflexivity. Qed.
Example C06_ex_cubic : 2 <> 0 /\ 2^3 + -6*2^2 + 11*2 + -6 = 0 /\ 0 <= (-6 + 2)^2 - 4*(2^2 + -6*2 + 11).
Proof. lra. Qed.

(** ** C61 *)
Theorem C61_py_factorial : forall n,
  (0 <= n -> py_factorial n = Ok (Z.of_nat (fact (Z.to_nat n))))%Z /\
  (n < 0 -> py_factorial n = Err ValueError)%Z.
Proof. intros; split; [apply py_factorial_ok | apply py_factorial_err]. Qed.
(** the factorial quotient always divides exactly and is Pascal's binomial coefficient *)
Theorem C61_py_comb : forall n k, py_comb (Z.of_nat n) (Z.of_nat k) = Ok (Z.of_nat (binom n k)).
Proof. exact py_comb_ok. Qed.
Theorem C61_py_hypot : forall x y, py_hypot x y = Ok (sqrt (x * x + y * y)).
Proof. exact py_hypot_ok. Qed.
Example C61_ex : py_comb 10 3 = Ok 120%Z. Proof. vm_compute. reflexivity. Qed.

Print Assumptions C01_horner.
Print Assumptions C01_horner_stable.
Print Assumptions C01_horner_domain.
Print Assumptions C02_horner_and_der.
Print Assumptions C02_horner_and_der2.
Print Assumptions C02_horner_and_der3.
Print Assumptions C02_horner_and_der4.
Print Assumptions C02_horner_stable_and_der.
Print Assumptions C02_horner_stable_and_der2.
Print Assumptions C02_horner_stable_and_der3.
Print Assumptions C02_horner_stable_and_der4.
Print Assumptions C03_horner_backwards_ln_tau.
Print Assumptions C03_horner_stable_ln_tau.
Print Assumptions C03_ln_tau_at_or_above_critical.
Print Assumptions C03_exp_horner_backwards.
Print Assumptions C03_exp_horner_stable.
Print Assumptions C03_exp_ln_tau.
Print Assumptions C03_exp_horner_stable_value_agreement_refuted.
Print Assumptions C03_exp_poly_ln_tau_coeffs2.
Print Assumptions C03_exp_poly_ln_tau_coeffs3.
Print Assumptions C04_polyint.
Print Assumptions C04_polyint_stable.
Print Assumptions C04_polyint_over_x.
Print Assumptions C04_polyder.
Print Assumptions C05_poly_add.
Print Assumptions C05_poly_mul.
Print Assumptions C05_stable_poly_to_unstable.
Print Assumptions C05_stable_poly_to_unstable_degenerate.
Print Assumptions C05_poly_convert.
Print Assumptions C06_quadratic_from_points.
Print Assumptions C06_quadratic_from_f_ders.
Print Assumptions C06_deflate_cubic.
Print Assumptions C61_py_factorial.
Print Assumptions C61_py_comb.
Print Assumptions C61_py_hypot.
