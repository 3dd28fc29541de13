(** Pump and motor estimates, drilled cylinders and circular segments, degree days. *)
From Coq Require Import Reals String List Bool Lra Lia Psatz Permutation.
From Coquelicot Require Import Coquelicot.
From Verif Require Import Base Model_Real Proofs_Real Proofs_Ln Interval Spec_Geometry Proofs_Geometry Model_Small.
Import ListNotations.
Open Scope R_scope.

(** *** Corripio's estimates *)
Definition gpm (Q : R) : R := Q * 15850.323.
Definition hp (P : R) : R := P / 745.69987.
(** pumps: never above 0.887, rising up to 22000 gallons per minute, between 0.43 and 0.87 in the stated range *)
Theorem C102_pump Q Q' : 0 < Q -> Q < Q' -> exists e e', Corripio_pump_efficiency Q = Ok e /\ Corripio_pump_efficiency Q' = Ok e' /\ e < 0.887 /\
  (gpm Q' <= 22000 -> e < e') /\ (50 <= gpm Q <= 5000 -> 0.43 < e < 0.87) /\ e = -0.316 + 0.24015 * ln (gpm Q) - 0.01199 * (ln (gpm Q)) ^ 2.
Proof.
  intros H HQ. unfold Corripio_pump_efficiency. cbv zeta. fold (gpm Q) (gpm Q'). assert (H1 : 0 < gpm Q) by (unfold gpm; lits; lra). assert (H2 : gpm Q < gpm Q') by (unfold gpm; lits; lra). rewrite !plog_ok by lra. cbn [bind]. do 2 eexists. split; [reflexivity|]. split; [reflexivity|].
  assert (L : ln (gpm Q) < ln (gpm Q')) by (apply ln_increasing; auto). assert (A : ln 22000 < 10) by itv 0%nat. assert (B : 3.91 < ln 50) by itv 0%nat. assert (C : ln 5000 < 8.52) by itv 0%nat.
  assert (M : forall x y, 0 < x -> x <= y -> ln x <= ln y) by (intros x y X [G| ->]; [left; now apply ln_increasing|lra]). splits.
  - set (x := ln (gpm Q)). clearbody x. assert (0 <= (x - 0.24015 / 0.02398) ^ 2) by apply pow2_ge_0. lits. lra.
  - intros U. pose proof (M (gpm Q') 22000 ltac:(lra) U). set (x := ln (gpm Q)) in *. set (y := ln (gpm Q')) in *. clearbody x y. assert (0 < (y - x) * (0.24015 - 0.01199 * (x + y))) by (apply Rmult_lt_0_compat; lits; lra). lits. lra.
  - intros U. pose proof (M (gpm Q) 5000 ltac:(lra) ltac:(lra)). pose proof (M 50 (gpm Q) ltac:(lra) ltac:(lra)). set (x := ln (gpm Q)) in *. clearbody x. assert (0 <= (x - 3.91) * (8.52 - x)) by (apply Rmult_le_pos; lra). assert (0 <= (8.52 - x) * (10 - x)) by (apply Rmult_le_pos; lits; lra). lits. lra.
  - ring.
Qed.
(** motors: never above 0.94, at least 0.8 from one horsepower to a million, rising up to 6000 *)
Theorem C102_motor P P' : 0 < P -> P < P' -> exists e e', Corripio_motor_efficiency P = Ok e /\ Corripio_motor_efficiency P' = Ok e' /\ e < 0.94 /\
  (hp P' <= 6000 -> e < e') /\ (1 <= hp P <= 1000000 -> 0.8 <= e) /\ e = 0.8 + 0.0319 * ln (hp P) - 0.00182 * (ln (hp P)) ^ 2.
Proof.
  intros H HQ. unfold Corripio_motor_efficiency. cbv zeta. fold (hp P) (hp P'). assert (H1 : 0 < hp P) by (unfold hp; lits; lra). assert (H2 : hp P < hp P') by (unfold hp; lits; lra). rewrite !plog_ok by lra. cbn [bind]. do 2 eexists. split; [reflexivity|]. split; [reflexivity|].
  assert (L : ln (hp P) < ln (hp P')) by (apply ln_increasing; auto). assert (A : ln 6000 < 8.7) by itv 0%nat. assert (B : ln 1000000 < 14) by itv 0%nat.
  assert (M : forall x y, 0 < x -> x <= y -> ln x <= ln y) by (intros x y X [G| ->]; [left; now apply ln_increasing|lra]). splits.
  - set (x := ln (hp P)). clearbody x. assert (0 <= (x - 0.0319 / 0.00364) ^ 2) by apply pow2_ge_0. lits. lra.
  - intros U. pose proof (M (hp P') 6000 ltac:(lra) U). set (x := ln (hp P)) in *. set (y := ln (hp P')) in *. clearbody x y. assert (0 < (y - x) * (0.0319 - 0.00182 * (x + y))) by (apply Rmult_lt_0_compat; lits; lra). lits. lra.
  - intros [U1 U2]. pose proof (M 1 (hp P) ltac:(lra) U1). pose proof (M (hp P) 1000000 H1 U2). rewrite ln_1 in *. set (x := ln (hp P)) in *. clearbody x. assert (0 <= x * (0.0319 - 0.00182 * x)) by (apply Rmult_le_pos; lits; lra). lits. lra.
  - ring.
Qed.
(** similarity: specific speed and diameter do not change when a pump is run k times as fast (flow k, head k^2) or built k times as large
    (flow k^3, head k^2) *)
Theorem C102_affinity Q H n D k : 0 < Q -> 0 < H -> 0 < k ->
  specific_speed (k * Q) (k ^ 2 * H) (k * n) = specific_speed Q H n /\ specific_speed (k ^ 3 * Q) (k ^ 2 * H) n = specific_speed Q H n /\
  specific_diameter (k ^ 3 * Q) (k ^ 2 * H) (k * D) = specific_diameter Q H D /\ specific_diameter (k * Q) (k ^ 2 * H) D = specific_diameter Q H D /\
  exists s, specific_speed Q H n = Ok s /\ s ^ 4 * H ^ 3 = n ^ 4 * Q ^ 2.
Proof.
  intros HQ HH Hk. assert (F : forall q h m, 0 < q -> 0 < h -> specific_speed q h m = Ok (m * sqrt q / Rpower h 0.75)). { intros q h m A B. unfold specific_speed. rewrite psqrt_ok by lra. cbn [bind]. rewrite ppow_ok by auto. cbn [bind]. apply pdiv_ok. apply Rgt_not_eq, Rpower_pos. }
  assert (G : forall q h d, 0 < q -> 0 < h -> specific_diameter q h d = Ok (d * sqrt (sqrt h / q))). { intros q h d A B. unfold specific_diameter. rewrite psqrt_ok by lra. cbn [bind]. rewrite pdiv_ok by lra. cbn [bind]. assert (0 < sqrt h) by (apply sqrt_lt_R0; auto). rewrite psqrt_ok by (left; posr). reflexivity. }
  assert (K2 : 0 < k ^ 2) by posr. assert (K3 : 0 < k ^ 3) by posr. assert (HS : forall x, 0 < x -> sqrt (k ^ 2 * x) = k * sqrt x) by (intros; rewrite sqrt_mult by lra; f_equal; replace (k ^ 2) with (k * k) by ring; apply sqrt_square; lra).
  assert (HS3 : forall x, 0 < x -> sqrt (k ^ 3 * x) = k * sqrt (k * x)) by (intros; replace (k ^ 3 * x) with (k ^ 2 * (k * x)) by ring; apply HS; posr).
  assert (HP : Rpower (k ^ 2 * H) 0.75 = k * sqrt k * Rpower H 0.75). { rewrite <- Rpower_mult_distr by auto. f_equal. assert (0 < sqrt k) by (apply sqrt_lt_R0; auto). apply ln_inv; try apply Rpower_pos; [posr|]. unfold Rpower at 1. rewrite ln_exp. rewrite ln_mult by auto. rewrite Proofs_Ln.ln_npow by auto. rewrite <- Rpower_sqrt by auto. unfold Rpower. rewrite ln_exp. cbn [INR]. lits. field. }
  assert (0 < Rpower H 0.75) by apply Rpower_pos. assert (0 < sqrt k) by (apply sqrt_lt_R0; auto). assert (Hq : sqrt k * sqrt k = k) by (apply sqrt_sqrt; lra).
  rewrite !F, !G by posr. rewrite HP. rewrite !HS by auto. rewrite !HS3 by auto. rewrite !(sqrt_mult k Q) by lra. splits.
  - f_equal. field. lra.
  - f_equal. field. lra.
  - f_equal. replace (k * sqrt H / (k ^ 3 * Q)) with (sqrt H / Q / (k ^ 2)) by (field; lra). assert (0 < sqrt H) by (apply sqrt_lt_R0; auto). rewrite sqrt_div by (try lra; left; posr). rewrite sqrt_pow2 by lra. field. lra.
  - f_equal. f_equal. f_equal. field. lra.
  - eexists. split; [reflexivity|]. assert (E : Rpower H 0.75 ^ 4 = H ^ 3). { rewrite <- Rpower_pow by apply Rpower_pos. rewrite Rpower_mult. rewrite <- (Rpower_pow 3) by auto. f_equal. cbn [INR]. lits. lra. }
    assert (S : sqrt Q ^ 4 = Q ^ 2) by (replace (sqrt Q ^ 4) with ((sqrt Q * sqrt Q) * (sqrt Q * sqrt Q)) by ring; rewrite sqrt_sqrt by lra; ring). replace ((n * sqrt Q / Rpower H 0.75) ^ 4) with (n ^ 4 * sqrt Q ^ 4 / Rpower H 0.75 ^ 4) by (field; lra). rewrite E, S. field. lra.
Qed.
(** the power drawn by one or three phases *)
Theorem C102_current P V PF : V <> 0 -> PF <> 0 ->
  (exists i, current_ideal P V 1 PF = Ok i /\ V * i * PF = P) /\ (exists i, current_ideal P V 3 PF = Ok i /\ sqrt 3 * V * i * PF = P) /\
  (forall phase, phase <> 1 -> phase <> 3 -> current_ideal P V phase PF = Err ValueError).
Proof.
  intros HV HF. assert (0 < sqrt 3) by (apply sqrt_lt_R0; lra). unfold current_ideal. splits.
  - rewrite (proj2 (Reqb_true 1 1)) by auto. rewrite (proj2 (Reqb_false 1 3)) by lra. cbn [orb negb]. rewrite pdiv_ok by (apply Rmult_integral_contrapositive_currified; auto). eexists. split; [reflexivity|]. field. auto.
  - rewrite (proj2 (Reqb_true 3 3)) by auto. rewrite orb_true_r. cbn [negb]. rewrite psqrt_ok by lra. cbn [bind]. rewrite pdiv_ok by (apply Rmult_integral_contrapositive_currified; auto; apply Rmult_integral_contrapositive_currified; auto; lra). eexists. split; [reflexivity|]. field. splits; auto. lra.
  - intros ph A B. rewrite (proj2 (Reqb_false ph 1)), (proj2 (Reqb_false ph 3)) by auto. reflexivity.
Qed.
(** erosional velocity: the momentum flux in lb/(ft s2) is the square of the constant *)
Theorem C102_erosion rho C : 0 < rho -> 0 <= C -> exists v, erosional_velocity rho C = Ok v /\ 0 <= v /\ (rho * 0.3048 ^ 3 / 0.45359237) * (v / 0.3048) ^ 2 = C ^ 2.
Proof.
  intros Hr HC. unfold erosional_velocity. cbv zeta. assert (E : rho / (0.45359237 / 0.3048 ^ 3) = rho * 0.3048 ^ 3 / 0.45359237) by (lits; field). rewrite E. assert (0 < rho * 0.3048 ^ 3 / 0.45359237) by (lits; lra). set (x := rho * _ / _) in *. clearbody x. rewrite psqrt_ok by lra. cbn [bind]. assert (0 < sqrt x) by (apply sqrt_lt_R0; auto). rewrite pdiv_ok by lra. cbn [bind]. eexists. split; [reflexivity|]. assert (0 <= C / sqrt x) by (apply Rmult_le_pos; [lra|left; apply Rinv_0_lt_compat; auto]). split; [apply Rmult_le_pos; lits; lra|].
  replace (C / sqrt x * 0.3048 / 0.3048) with (C / sqrt x) by (field; lits; lra). rewrite <- (sqrt_sqrt x) at 1 by lra. field. lra.
Qed.
Example C102_case : exists e, Corripio_pump_efficiency (461 / 15850.323) = Ok e /\ 0.7058 < e < 0.7059.
Proof.
  destruct (C102_pump (461 / 15850.323) 1 ltac:(lits; lra) ltac:(lits; lra)) as (e & e' & E & _ & _ & _ & _ & F). exists e. split; auto. rewrite F. replace (gpm (461 / 15850.323)) with 461 by (unfold gpm; field; lits; lra). split; itv 0%nat.
Qed.

(** *** Cylinders with holes: net section times length, net ends plus all walls, whatever the order of the holes *)
Definition total (f : R -> R) (holes : list (R * nat)) : R := fold_right (fun h s => INR (snd h) * f (fst h) + s) 0 holes.
Definition net_section (Do : R) (holes : list (R * nat)) : R := PI / 4 * (Do ^ 2 - total (fun d => d ^ 2) holes).
Theorem C103_drilled Do L holes :
  V_multiple_hole_cylinder Do L holes = net_section Do holes * L /\
  A_multiple_hole_cylinder Do L holes = 2 * net_section Do holes + PI * L * (Do + total (fun d => d) holes).
Proof.
  unfold V_multiple_hole_cylinder, A_multiple_hole_cylinder. cbv zeta.
  assert (V : forall hs x, fold_left (fun V '(Di, n) => V - PI * Di * Di / 4 * L * INR n) hs x = x - PI / 4 * L * total (fun d => d ^ 2) hs).
  { induction hs as [|[d n] hs IH]; intros x; cbn [fold_left total fold_right fst snd]; [ring|]. rewrite IH. unfold total. field. }
  assert (A : forall hs x, fold_left (fun A '(Di, n) => A + PI * Di * L * INR n - PI * Di ^ 2 / 4 * 2 * INR n) hs x = x - PI / 2 * total (fun d => d ^ 2) hs + PI * L * total (fun d => d) hs).
  { induction hs as [|[d n] hs IH]; intros x; cbn [fold_left total fold_right fst snd]; [ring|]. rewrite IH. unfold total. field. }
  rewrite V, A. unfold net_section. split; field.
Qed.
Theorem C103_drilled_order Do L hs hs' : Permutation hs hs' -> V_multiple_hole_cylinder Do L hs = V_multiple_hole_cylinder Do L hs' /\ A_multiple_hole_cylinder Do L hs = A_multiple_hole_cylinder Do L hs'.
Proof.
  intros P. assert (T : forall f, total f hs = total f hs'). { intros f. induction P; cbn [total fold_right] in *; auto. - unfold total in *. cbn [fold_right]. rewrite IHP. auto. - unfold total. cbn [fold_right]. ring. - congruence. }
  destruct (C103_drilled Do L hs) as [-> ->]. destruct (C103_drilled Do L hs') as [-> ->]. unfold net_section. rewrite !T. auto.
Qed.
Example C103_case : V_multiple_hole_cylinder 2 3 [(1 / 2, 2%nat); (1, 1%nat)] = PI / 4 * 3 * (5 / 2).
Proof. destruct (C103_drilled 2 3 [(1 / 2, 2%nat); (1, 1%nat)]) as [-> _]. unfold net_section, total. cbn [fold_right fst snd INR]. field. Qed.

(** *** Circular segments *)
(** the function handed to the solver: area of the segment less the wanted area, and its slope *)
Theorem C103_segment_slope r h A : 0 < r -> 0 < h < 2 * r ->
  exists e s, circle_segment_area_inner h r A = Ok (e, s) /\ is_RInt (fun y => 2 * half_chord r y) 0 h (e + A) /\ s = 2 * half_chord r h.
Proof.
  intros Hr Hh. unfold circle_segment_area_inner. cbv zeta. pose proof (half_chord_pos r h Hh) as HP. assert (HQ : half_chord r h * half_chord r h = h * (2 * r - h)) by (unfold half_chord; apply sqrt_sqrt; nra). rewrite psqrt_ok by nra. cbn [bind]. replace (h * (2 * r + - h)) with (h * (2 * r - h)) by ring. fold (half_chord r h). rewrite (pdiv_ok _ r) by lra. cbn [bind]. replace (r + - h) with (r - h) by ring.
  assert (U : -1 <= (r - h) / r <= 1). { split; apply Rmult_le_reg_r with r; auto; replace ((r - h) / r * r) with (r - h) by (field; lra); lra. }
  assert (EA : pacos ((r - h) / r) = Ok (acos ((r - h) / r))). { unfold pacos. rewrite (proj2 (Rltb_false _ _)) by lra. rewrite (proj2 (Rltb_false _ _)) by lra. reflexivity. } rewrite EA. cbn [bind]. rewrite (pdiv_ok _ (r * r)) by nra. cbn [bind].
  assert (E : 1 - (r - h) * (r - h) / (r * r) = (half_chord r h / r) * (half_chord r h / r)) by (replace (half_chord r h / r * (half_chord r h / r)) with (half_chord r h * half_chord r h / (r * r)) by (field; lra); rewrite HQ; field; lra). rewrite E. assert (0 < half_chord r h / r) by (apply Rdiv_lt_0_compat; auto). rewrite psqrt_ok by nra. cbn [bind]. rewrite sqrt_square by lra. rewrite (pdiv_ok r) by lra. cbn [bind]. rewrite pdiv_ok by lra. cbn [bind]. do 2 eexists. split; [reflexivity|]. split.
  - match goal with |- is_RInt _ _ _ ?x => replace x with (segment r h) by (unfold segment; ring) end. apply segment_area; lra.
  - apply Rmult_eq_reg_r with (half_chord r h); [|lra]. replace ((r / (half_chord r h / r) + half_chord r h - (r - h) * (r - h) / half_chord r h) * half_chord r h) with (r * r + half_chord r h * half_chord r h - (r - h) * (r - h)) by (field; lra). rewrite Rmult_assoc, HQ. ring.
Qed.
Lemma is_RInt_zero a b : is_RInt (fun _ : R => 0) a b 0.
Proof. assert (H := @is_RInt_const R_NormedModule a b 0). replace (scal (b - a) (0 : R_NormedModule)) with 0 in H by (unfold scal; cbn; unfold mult; cbn; ring). exact H. Qed.
(** the height returned cuts off the wanted area (at most half of the circle) *)
Theorem C103_segment newton A D h : (forall f x lo hi r, newton f x lo hi = Ok r -> lo <= r <= hi /\ exists s, f r = Ok (0, s)) -> 0 < D ->
  circle_segment_h_from_A newton A D = Ok h -> is_RInt (fun y => 2 * half_chord (D / 2) y) 0 h A /\ 0 <= h <= D / 2 /\ 0 <= A <= PI * (D / 2) ^ 2 / 2.
Proof.
  intros HN HD E. unfold circle_segment_h_from_A in E. assert (HR : 0.5 * D = D / 2) by (lits; lra). rewrite HR in E.
  assert (K : forall u, 0 <= u <= D / 2 -> is_RInt (fun y => 2 * half_chord (D / 2) y) 0 u (segment (D / 2) u) /\ 0 <= segment (D / 2) u <= PI * (D / 2) ^ 2 / 2).
  { intros u Hu. split; [apply segment_area; lra|]. assert (I0 := segment_area (D / 2) u ltac:(lra) ltac:(lra)). assert (I1 := segment_area (D / 2) (D / 2) ltac:(lra) ltac:(lra)).
    assert (S1 : segment (D / 2) (D / 2) = PI * (D / 2) ^ 2 / 2). { unfold segment. replace ((D / 2 - D / 2) / (D / 2)) with 0 by (field; lra). rewrite acos_0. field. }
    assert (NN : forall y, 0 <= 2 * half_chord (D / 2) y) by (intros; unfold half_chord; pose proof (sqrt_pos (y * (2 * (D / 2) - y))); lra). split.
    - eapply (is_RInt_le (fun _ => 0) (fun y => 2 * half_chord (D / 2) y) 0 u 0 _); [lra| |exact I0|intros; apply NN]. apply is_RInt_zero.
    - rewrite <- S1. assert (I2 := is_RInt_Chasles _ _ _ _ _ _ (is_RInt_swap _ _ _ _ I0) I1). assert (0 <= plus (opp (segment (D / 2) u)) (segment (D / 2) (D / 2))). { eapply (is_RInt_le (fun _ => 0) (fun y => 2 * half_chord (D / 2) y) u (D / 2) 0 _); [lra| |exact I2|intros; apply NN]. apply is_RInt_zero. } unfold plus, opp in H. cbn in H. lra. }
  destruct (Reqb A 0) eqn:Z.
  - rewrite Reqb_true in Z. assert (h = 0) by congruence. subst. destruct (K 0 ltac:(lra)) as [K1 K2]. rewrite segment_0 in * by lra. splits; auto; lra.
  - apply HN in E. destruct E as [B [s F]]. assert (SA : segment (D / 2) h = A). 
    { unfold circle_segment_area_inner in F. inv_bind F. inv_bind F. inv_bind F. inv_bind F. inv_bind F. inv_bind F. inv_bind F. 
      unfold psqrt in E. destruct (Rltb _ 0) eqn:?; [discriminate|]. rewrite pdiv_ok in E0 by lra. unfold pacos in E1. repeat (destruct (Rltb _ _) in E1; try discriminate; cbn [orb] in E1). assert (v = half_chord (D / 2) h) by (unfold half_chord; replace (h * (2 * (D / 2) - h)) with (h * (2 * (D / 2) + - h)) by ring; congruence). unfold segment. assert (v0 = (D / 2 - h) / (D / 2)) by (replace (D / 2 - h) with (D / 2 + - h) by ring; congruence). subst. assert (v1 = acos ((D / 2 - h) / (D / 2))) by congruence. subst. injection F as F1 F2. lra. }
    destruct (K h ltac:(lra)) as [K1 K2]. rewrite SA in *. auto.
Qed.
(** and no other height does *)
Theorem C103_segment_unique D A h h' : 0 < D -> 0 <= h <= D -> 0 <= h' <= D -> is_RInt (fun y => 2 * half_chord (D / 2) y) 0 h A -> is_RInt (fun y => 2 * half_chord (D / 2) y) 0 h' A -> h = h'.
Proof.
  intros HD Hh Hh' I I'. assert (S : forall u, 0 <= u <= D -> is_RInt (fun y => 2 * half_chord (D / 2) y) 0 u A -> segment (D / 2) u = A). { intros u Hu J. rewrite <- (is_RInt_unique _ _ _ _ J). symmetry. apply is_RInt_unique, segment_area; lra. }
  pose proof (S h Hh I) as E. pose proof (S h' Hh' I') as E'.
  assert (M : forall u v, 0 <= u -> u < v -> v <= D -> segment (D / 2) u < segment (D / 2) v).
  { intros u v A1 A2 A3. destruct (MVT_gen (segment (D / 2)) u v (fun y => 2 * half_chord (D / 2) y)) as (c & Hc & F).
    - intros y Hy. rewrite Rmin_left, Rmax_right in Hy by lra. apply segment_derive; lra.
    - intros y Hy. rewrite Rmin_left, Rmax_right in Hy by lra. apply continuity_pt_filterlim. apply segment_cont; lra.
    - rewrite Rmin_left, Rmax_right in Hc by lra. assert (G0 : segment (D / 2) u <= segment (D / 2) v) by (pose proof (half_chord_nonneg (D / 2) c); nra). destruct (Rle_lt_or_eq_dec _ _ G0) as [G|G]; auto. exfalso.
      (* equal ends would make the slope vanish all the way *)
      assert (forall w, u < w < v -> segment (D / 2) w = segment (D / 2) u) as K.
      { intros w Hw. assert (Le : forall p q, 0 <= p -> p < q -> q <= D -> segment (D / 2) p <= segment (D / 2) q). { intros p q B1 B2 B3. destruct (MVT_gen (segment (D / 2)) p q (fun y => 2 * half_chord (D / 2) y)) as (c' & _ & F').
          - intros y Hy. rewrite Rmin_left, Rmax_right in Hy by lra. apply segment_derive; lra.
          - intros y Hy. rewrite Rmin_left, Rmax_right in Hy by lra. apply continuity_pt_filterlim. apply segment_cont; lra.
          - pose proof (half_chord_nonneg (D / 2) c'). nra. }
        pose proof (Le u w ltac:(lra) ltac:(lra) ltac:(lra)). pose proof (Le w v ltac:(lra) ltac:(lra) ltac:(lra)). lra. }
      set (p := u + (v - u) / 3). set (q := u + (v - u) * (2 / 3)). assert (Hpq : u < p /\ p < q /\ q < v) by (unfold p, q; lra). clearbody p q. destruct (MVT_gen (segment (D / 2)) p q (fun y => 2 * half_chord (D / 2) y)) as (c' & Hc' & F').
      + intros y Hy. rewrite Rmin_left, Rmax_right in Hy by lra. apply segment_derive; lra.
      + intros y Hy. rewrite Rmin_left, Rmax_right in Hy by lra. apply continuity_pt_filterlim. apply segment_cont; lra.
      + rewrite Rmin_left, Rmax_right in Hc' by lra. rewrite (K p), (K q) in F' by lra. pose proof (half_chord_pos (D / 2) c' ltac:(lra)). nra. }
  destruct (Rtotal_order h h') as [L|[L|L]]; auto; exfalso; [pose proof (M h h')|pose proof (M h' h)]; lra.
Qed.
(** so an area above half of the circle has no answer, although such segments exist *)
Theorem C103_segment_refuted newton A D : (forall f x lo hi r, newton f x lo hi = Ok r -> lo <= r <= hi /\ exists s, f r = Ok (0, s)) -> 0 < D ->
  PI * (D / 2) ^ 2 / 2 < A -> (forall h, circle_segment_h_from_A newton A D <> Ok h) /\ (A = PI * (D / 2) ^ 2 -> is_RInt (fun y => 2 * half_chord (D / 2) y) 0 D A).
Proof.
  intros HN HD HA. split; [intros h E; destruct (C103_segment newton A D h HN HD E) as (_ & _ & ?); lra|]. intros ->. replace (PI * (D / 2) ^ 2) with (segment (D / 2) D); [apply segment_area; lra|]. unfold segment, half_chord. replace ((D / 2 - D) / (D / 2)) with (- (1)) by (field; lra). rewrite acos_opp, acos_1. replace (D * (2 * (D / 2) - D)) with 0 by field. rewrite sqrt_0. field.
Qed.
(** half of a circle of diameter 2 is cut off at height 1 *)
Example C103_case_segment : is_RInt (fun y => 2 * half_chord 1 y) 0 1 (PI / 2) /\ circle_segment_area_inner 1 1 (PI / 2) = Ok (0, 2).
Proof.
  split.
  - replace (PI / 2) with (segment 1 1); [apply segment_area; lra|]. unfold segment. replace ((1 - 1) / 1) with 0 by field. rewrite acos_0. field.
  - unfold circle_segment_area_inner. cbv zeta. replace (1 * (2 * 1 + - (1))) with 1 by ring. rewrite psqrt_ok by lra. rewrite sqrt_1. cbn [bind]. rewrite pdiv_ok by lra. cbn [bind]. replace ((1 + - (1)) / 1) with 0 by field. unfold pacos. rewrite !(proj2 (Rltb_false _ _)) by lra. cbn [orb bind]. rewrite acos_0. rewrite pdiv_ok by lra. cbn [bind]. replace (1 - (1 + - (1)) * (1 + - (1)) / (1 * 1)) with 1 by field. rewrite psqrt_ok by lra. cbn [bind]. rewrite sqrt_1. rewrite !pdiv_ok by lra. cbn [bind]. rewrite ?pdiv_ok by lra. cbn [bind]. f_equal. f_equal; field.
Qed.

(** *** Degree days: with truncation exactly the excess over (shortfall under) the base, never negative and never both at once; without, opposite *)
Theorem C104_degree_days T b :
  heating_degree_days T b true = Rmax (T - b) 0 /\ cooling_degree_days T b true = Rmax (b - T) 0 /\
  heating_degree_days T b false + cooling_degree_days T b false = 0 /\
  heating_degree_days T b true - cooling_degree_days T b true = T - b /\ heating_degree_days T b true + cooling_degree_days T b true = Rabs (T - b).
Proof.
  assert (H : heating_degree_days T b true = Rmax (T - b) 0). { unfold heating_degree_days. cbv zeta. cbn [andb]. unfold Rmax. rcase; destruct (Rle_dec _ _); lra. }
  assert (C : cooling_degree_days T b true = Rmax (b - T) 0). { unfold cooling_degree_days. cbv zeta. cbn [andb]. unfold Rmax. rcase; destruct (Rle_dec _ _); lra. }
  rewrite H, C. splits; auto.
  - unfold heating_degree_days, cooling_degree_days. cbn [andb]. ring.
  - unfold Rmax. repeat destruct (Rle_dec _ _); lra.
  - unfold Rmax, Rabs. repeat destruct (Rle_dec _ _); destruct (Rcase_abs _); lra.
Qed.
(** over a whole record of temperatures the truncated totals differ by the untruncated total, and the total never shrinks as days are added *)
Definition total_days (dd : R -> R) (Ts : list R) : R := fold_right (fun T s => dd T + s) 0 Ts.
Theorem C104_record b Ts Ts' :
  total_days (fun T => heating_degree_days T b true) Ts - total_days (fun T => cooling_degree_days T b true) Ts = total_days (fun T => heating_degree_days T b false) Ts /\
  total_days (fun T => heating_degree_days T b true) Ts <= total_days (fun T => heating_degree_days T b true) (Ts ++ Ts') /\
  total_days (fun T => cooling_degree_days T b true) Ts <= total_days (fun T => cooling_degree_days T b true) (Ts ++ Ts').
Proof.
  assert (P : forall T, 0 <= heating_degree_days T b true /\ 0 <= cooling_degree_days T b true) by (intros T; destruct (C104_degree_days T b) as (-> & -> & _); split; apply Rmax_r).
  induction Ts as [|T Ts (I1 & I2 & I3)]; cbn [total_days fold_right app] in *.
  - splits; [ring| |]; (induction Ts' as [|T Ts' I]; cbn [total_days fold_right]; [lra|]; specialize (P T); unfold total_days in I; lra).
  - destruct (C104_degree_days T b) as (_ & _ & _ & D & _). unfold heating_degree_days at 3. cbn [andb]. unfold total_days in *. splits; try lra.
Qed.
Example C104_case : heating_degree_days 303.8 273.15 true = 30.65 /\ cooling_degree_days 303.8 273.15 true = 0.
Proof. destruct (C104_degree_days 303.8 273.15) as (-> & -> & _). unfold Rmax. destruct (Rle_dec _ _) as [q|q]; destruct (Rle_dec (273.15 - 303.8) 0) as [q'|q']; lits; split; lra. Qed.

Print Assumptions C102_pump.
Print Assumptions C102_motor.
Print Assumptions C102_affinity.
Print Assumptions C102_current.
Print Assumptions C102_erosion.
Print Assumptions C103_drilled.
Print Assumptions C103_drilled_order.
Print Assumptions C103_segment_slope.
Print Assumptions C103_segment.
Print Assumptions C103_segment_unique.
Print Assumptions C103_segment_refuted.
Print Assumptions C104_degree_days.
Print Assumptions C104_record.
