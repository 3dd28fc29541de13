(** C89: complex double-double sums and products.  A quadruple (rr, re, cr, ce) stands for (rr + re) + (cr + ce) i. *)
From Coq Require Import Reals ZArith Bool Lra Lia Psatz.
From Flocq Require Import Core.
From Verif Require Import Base Model_DoubleDouble Proofs_DoubleDouble Properties_DoubleDouble.
Open Scope R_scope.

Lemma normalised_opp r e : normalised r e -> normalised (- r) (- e).
Proof.
  intros (H1 & H2 & H3). split; [apply generic_format_opp, H1|]. split; [apply generic_format_opp, H2|].
  replace (- r + - e) with (- (r + e)) by ring. rewrite rnd_opp, H3. reflexivity.
Qed.
(** the leading part of a product is hardly larger than the product of the leading parts *)
Lemma mul_head x0 y0 x1 y1 r e : normalised x0 y0 -> normalised x1 y1 -> no_underflow (x0 * x1) -> mul_dd x0 y0 x1 y1 = (r, e) ->
  Rabs r <= 101 / 100 * Rabs (x0 * x1).
Proof.
  intros N0 N1 Hn E. pose proof (C89_mul_error _ _ _ _ _ _ N0 N1 Hn E) as HE. pose proof (normalised_small _ _ (C89_mul_normalised _ _ _ _ _ _ N0 N1 Hn E)) as HS.
  pose proof (normalised_small _ _ N0) as S0. pose proof (normalised_small _ _ N1) as S1.
  pose proof (Rabs_triang (r + e) (- e)) as T1. replace (r + e + - e) with r in T1 by ring. rewrite Rabs_Ropp in T1.
  pose proof (Rabs_triang (r + e - (x0 + y0) * (x1 + y1)) ((x0 + y0) * (x1 + y1))) as T2.
  replace (r + e - (x0 + y0) * (x1 + y1) + (x0 + y0) * (x1 + y1)) with (r + e) in T2 by ring. rewrite (Rabs_mult (x0 + y0)) in T2.
  assert (T3 : Rabs (x0 + y0) * Rabs (x1 + y1) <= ((1 + u64) * Rabs x0) * ((1 + u64) * Rabs x1)).
  { apply Rmult_le_compat; try apply Rabs_pos; (eapply Rle_trans; [apply Rabs_triang|lra]). }
  rewrite Rabs_mult in HE |- *. replace ((1 + u64) * Rabs x0 * ((1 + u64) * Rabs x1)) with ((1 + u64) * (1 + u64) * (Rabs x0 * Rabs x1)) in T3 by ring.
  assert (P : 0 <= Rabs x0 * Rabs x1) by (apply Rmult_le_pos; apply Rabs_pos).
  set (m := Rabs x0 * Rabs x1) in *. clearbody m. unfold u64 in *. pose proof (Rabs_pos r). lra.
Qed.
(** a product of two numbers added to another: the error against the exact value *)
Lemma mul_mul_add a0 a1 b0 b1 c0 c1 d0 d1 r e r1 e1 r2 e2 (s : R) : normalised a0 a1 -> normalised b0 b1 -> normalised c0 c1 -> normalised d0 d1 ->
  no_underflow (a0 * b0) -> no_underflow (c0 * d0) -> mul_dd a0 a1 b0 b1 = (r1, e1) -> mul_dd c0 c1 d0 d1 = (r2, e2) -> (s = 1 \/ s = -1) ->
  add_dd r1 e1 (s * r2) (s * e2) = (r, e) ->
  Rabs ((r + e) - ((a0 + a1) * (b0 + b1) + s * ((c0 + c1) * (d0 + d1)))) <= 31 * (u64 * u64) * (Rabs (a0 * b0) + Rabs (c0 * d0)).
Proof.
  intros NA NB NC ND H1 H2 E1 E2 Hs E.
  pose proof (C89_mul_error _ _ _ _ _ _ NA NB H1 E1) as M1. pose proof (C89_mul_error _ _ _ _ _ _ NC ND H2 E2) as M2.
  pose proof (mul_head _ _ _ _ _ _ NA NB H1 E1) as T1. pose proof (mul_head _ _ _ _ _ _ NC ND H2 E2) as T2.
  pose proof (C89_mul_normalised _ _ _ _ _ _ NA NB H1 E1) as P1. pose proof (C89_mul_normalised _ _ _ _ _ _ NC ND H2 E2) as P2.
  assert (PS : normalised (s * r2) (s * e2)). { destruct Hs as [-> | ->]; [now rewrite !Rmult_1_l|]. replace (-1 * r2) with (- r2) by ring. replace (-1 * e2) with (- e2) by ring. now apply normalised_opp. }
  assert (AS : Rabs (s * r2) = Rabs r2). { destruct Hs as [-> | ->]; [now rewrite Rmult_1_l|]. replace (-1 * r2) with (- r2) by ring. apply Rabs_Ropp. }
  pose proof (C89_add_error _ _ _ _ _ _ P1 PS E) as A. rewrite AS in A.
  apply abs2 in A. apply abs2 in M1. apply abs2 in M2. set (X := (a0 + a1) * (b0 + b1)) in *. set (Y := (c0 + c1) * (d0 + d1)) in *. clearbody X Y.
  assert (U : 0 <= u64 * u64 <= 1) by (unfold u64; lra). set (w := u64 * u64) in *. clearbody w.
  set (p := Rabs (a0 * b0)) in *. set (q := Rabs (c0 * d0)) in *. assert (0 <= p) by apply Rabs_pos. assert (0 <= q) by apply Rabs_pos. clearbody p q.
  assert (B1 : w * Rabs r1 <= w * (101 / 100 * p)) by (apply Rmult_le_compat_l; lra). assert (B2 : w * Rabs r2 <= w * (101 / 100 * q)) by (apply Rmult_le_compat_l; lra).
  assert (0 <= w * p) by (apply Rmult_le_pos; lra). assert (0 <= w * q) by (apply Rmult_le_pos; lra).
  apply Rabs_le. destruct Hs as [-> | ->]; lra.
Qed.

(** complex products: each part is right up to 31 u^2 times the sizes of the two products it is made of *)
Theorem C89_mul_imag_error : forall a0 a1 b0 b1 c0 c1 d0 d1 zr ze wr we, normalised a0 a1 -> normalised b0 b1 -> normalised c0 c1 -> normalised d0 d1 ->
  no_underflow (a0 * c0) -> no_underflow (b0 * d0) -> no_underflow (a0 * d0) -> no_underflow (b0 * c0) ->
  mul_imag_dd a0 a1 b0 b1 c0 c1 d0 d1 = (zr, ze, wr, we) ->
  Rabs ((zr + ze) - ((a0 + a1) * (c0 + c1) - (b0 + b1) * (d0 + d1))) <= 31 * (u64 * u64) * (Rabs (a0 * c0) + Rabs (b0 * d0)) /\
  Rabs ((wr + we) - ((a0 + a1) * (d0 + d1) + (b0 + b1) * (c0 + c1))) <= 31 * (u64 * u64) * (Rabs (a0 * d0) + Rabs (b0 * c0)).
Proof.
  intros a0 a1 b0 b1 c0 c1 d0 d1 zr ze wr we NA NB NC ND H1 H2 H3 H4 H. unfold mul_imag_dd in H.
  destruct (mul_dd a0 a1 c0 c1) as [r1 e1] eqn:E1. destruct (mul_dd b0 b1 d0 d1) as [r2 e2] eqn:E2. destruct (add_dd r1 e1 (- r2) (- e2)) as [r3 e3] eqn:E3.
  destruct (mul_dd a0 a1 d0 d1) as [r4 e4] eqn:E4. destruct (mul_dd b0 b1 c0 c1) as [r5 e5] eqn:E5. destruct (add_dd r4 e4 r5 e5) as [r6 e6] eqn:E6. injection H as <- <- <- <-. split.
  - replace ((a0 + a1) * (c0 + c1) - (b0 + b1) * (d0 + d1)) with ((a0 + a1) * (c0 + c1) + -1 * ((b0 + b1) * (d0 + d1))) by ring.
    apply (mul_mul_add a0 a1 c0 c1 b0 b1 d0 d1 r3 e3 r1 e1 r2 e2 (-1)); try assumption; [right; reflexivity|]. replace (-1 * r2) with (- r2) by ring. replace (-1 * e2) with (- e2) by ring. exact E3.
  - replace ((a0 + a1) * (d0 + d1) + (b0 + b1) * (c0 + c1)) with ((a0 + a1) * (d0 + d1) + 1 * ((b0 + b1) * (c0 + c1))) by ring.
    apply (mul_mul_add a0 a1 d0 d1 b0 b1 c0 c1 r6 e6 r4 e4 r5 e5 1); try assumption; [left; reflexivity|]. rewrite !Rmult_1_l. exact E6.
Qed.
(** complex sums *)
Theorem C89_add_imag_error : forall a0 a1 b0 b1 c0 c1 d0 d1 zr ze wr we, normalised a0 a1 -> normalised b0 b1 -> normalised c0 c1 -> normalised d0 d1 ->
  add_imag_dd a0 a1 b0 b1 c0 c1 d0 d1 = (zr, ze, wr, we) ->
  Rabs ((zr + ze) - ((a0 + a1) + (c0 + c1))) <= 10 * (u64 * u64) * (Rabs a0 + Rabs c0) /\
  Rabs ((wr + we) - ((b0 + b1) + (d0 + d1))) <= 10 * (u64 * u64) * (Rabs b0 + Rabs d0).
Proof.
  intros a0 a1 b0 b1 c0 c1 d0 d1 zr ze wr we NA NB NC ND H. unfold add_imag_dd in H.
  destruct (add_dd a0 a1 c0 c1) as [r1 e1] eqn:E1. destruct (add_dd b0 b1 d0 d1) as [r2 e2] eqn:E2. injection H as <- <- <- <-.
  split; [exact (C89_add_error _ _ _ _ _ _ NA NC E1)|exact (C89_add_error _ _ _ _ _ _ NB ND E2)].
Qed.
Lemma one_big : no_underflow (1 * 1).
Proof. right. rewrite Rmult_1_l, Rabs_R1, <- Rinv_1. apply Rinv_le_contravar; [lra|]. apply IZR_le. vm_compute. discriminate. Qed.
(** (1 + 2^-60)(1 + i) squared meets the hypotheses *)
Example C89_mul_imag_ex : exists z, mul_imag_dd 1 (/ 1152921504606846976) 1 (/ 1152921504606846976) 1 (/ 1152921504606846976) 1 (/ 1152921504606846976) = z /\
  let '(zr, ze, wr, we) := z in Rabs (zr + ze) <= 62 * (u64 * u64) /\ Rabs (wr + we - 2 * (1 + / 1152921504606846976) ^ 2) <= 62 * (u64 * u64).
Proof.
  eexists. split; [reflexivity|]. destruct (mul_imag_dd _ _ _ _ _ _ _ _) as [[[zr ze] wr] we] eqn:E.
  pose proof normalised_ex as N. destruct (C89_mul_imag_error _ _ _ _ _ _ _ _ _ _ _ _ N N N N one_big one_big one_big one_big E) as [A B].
  rewrite Rmult_1_l, Rabs_R1 in A, B. set (d := / 1152921504606846976) in *. clearbody d. replace ((1 + d) * (1 + d) - (1 + d) * (1 + d)) with 0 in A by ring. replace (2 * (1 + d) ^ 2) with ((1 + d) * (1 + d) + (1 + d) * (1 + d)) by ring.
  rewrite Rminus_0_r in A. split; lra.
Qed.

Print Assumptions C89_mul_imag_error.
Print Assumptions C89_add_imag_error.
