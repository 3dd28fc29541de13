(** Liquid jet pumps: every answer satisfies the nozzle equation and the pressure ratio. *)
From Coq Require Import Reals List Bool Lra Lia Psatz.
From Verif Require Import Base Model_Real Proofs_Real Model_JetPump.
Import ListNotations.
Open Scope R_scope.

(** *** Specification *)
Definition area (d : R) : R := PI / 4 * d * d.
(** energy of the primary fluid through the nozzle against that of the secondary fluid through the annulus around it *)
Definition nozzle_equation (rhop rhos Kp Ks dn dm Qp Qs P1 P2 : R) : Prop :=
  P1 - P2 = (1 + Kp) * (rhop * (Qp / area dn) ^ 2 / 2) - (1 + Ks) * (rhos * (Qs / (area dm - area dn)) ^ 2 / 2).

Lemma area_pos d : d <> 0 -> 0 < area d.
Proof. intros H. unfold area. assert (0 < d * d) by (apply Rsqr_pos_lt; auto). pose proof PI_RGT_0. nra. Qed.
Lemma area_inj a b : 0 < a -> 0 < b -> area a = area b -> a = b.
Proof. unfold area. intros Ha Hb H. pose proof PI_RGT_0. assert (a * a = b * b) by nra. nra. Qed.
Lemma area_lt a b : 0 < a -> a < b -> area a < area b.
Proof. intros Ha Hb. unfold area. pose proof PI_RGT_0. assert (a * a < b * b) by nra. nra. Qed.
Lemma area_0 d : area d = 0 -> d = 0.
Proof. intros H. destruct (Req_dec d 0); auto. pose proof (area_pos d). lra. Qed.

Lemma P1_inv rhop rhos Kp Ks dn dm Qp Qs P2 p : ancillary_P1 rhop rhos Kp Ks dn dm Qp Qs P2 = Ok p -> rhop <> 0 /\ Qp <> 0 /\ area dn <> 0 /\ area dm <> 0 /\ area dm <> area dn /\ nozzle_equation rhop rhos Kp Ks dn dm Qp Qs p P2.
Proof.
  unfold ancillary_P1. fold (area dn) (area dm). intros H. unfold pdiv in H. repeat (match type of H with context [Reqb ?x 0] => destruct (Reqb x 0) eqn:?E; cbn [bind] in H; [discriminate|] end).
  rewrite Reqb_false in *. injection H as <-. assert (D : area dm - area dn <> 0). { intros D. apply E3. replace (area dm) with (area dn) by lra. field. auto. }
  splits; auto. { lra. } unfold nozzle_equation. field. splits; auto.
Qed.
Lemma ratio_1 a b : b <> 0 -> b <> a -> 1 - a / b <> 0.
Proof. intros Hb Hab E. apply Hab. assert (H : a / b = 1) by lra. apply (f_equal (fun x => x * b)) in H. field_simplify in H; auto. Qed.
Lemma P1_ok rhop rhos Kp Ks dn dm Qp Qs P2 : rhop <> 0 -> Qp <> 0 -> area dn <> 0 -> area dm <> 0 -> area dm <> area dn -> exists p, ancillary_P1 rhop rhos Kp Ks dn dm Qp Qs P2 = Ok p.
Proof.
  intros. unfold ancillary_P1. fold (area dn) (area dm). rewrite (pdiv_ok rhos) by auto. cbn [bind]. rewrite (pdiv_ok Qs) by auto. cbn [bind].
  rewrite (pdiv_ok (area dn)) by auto. cbn [bind]. rewrite (pdiv_ok Qp) by auto. cbn [bind]. rewrite pdiv_ok by (apply ratio_1; auto). cbn [bind]. eauto.
Qed.

Lemma psqrt_inv q s : psqrt q = Ok s -> 0 <= q /\ 0 <= s /\ s * s = q.
Proof. unfold psqrt. destruct (Rltb q 0) eqn:L; [discriminate|]. rewrite Rltb_false in L. intros E. assert (F : sqrt q = s) by congruence. subst. splits; auto; [apply sqrt_pos|now apply sqrt_sqrt]. Qed.

(** *** The nozzle equation *)
(** whichever single quantity is asked for, a number that is returned satisfies the nozzle equation with the five given ones *)
Theorem C94_nozzle brenth secant rhop rhos Kp Ks dn dm Qp Qs P1 P2 x :
  (forall f a b r, brenth f a b = Ok r -> f r = Ok 0) -> (forall f a r, secant f a = Ok r -> f r = Ok 0) ->
  0 < rhop -> 0 < rhos -> -1 < Kp -> -1 < Ks ->
  let anc := liquid_jet_pump_ancillary brenth secant rhop rhos Kp Ks in
  let eqn := nozzle_equation rhop rhos Kp Ks in
  (anc (Some dn) (Some dm) (Some Qp) (Some Qs) None (Some P2) = Ok (Some x) -> eqn dn dm Qp Qs x P2) /\
  (anc (Some dn) (Some dm) (Some Qp) (Some Qs) (Some P1) None = Ok (Some x) -> eqn dn dm Qp Qs P1 x) /\
  (area dm <> area dn -> anc (Some dn) (Some dm) (Some Qp) None (Some P1) (Some P2) = Ok (Some x) -> eqn dn dm Qp x P1 P2) /\
  (dn <> 0 -> anc (Some dn) (Some dm) None (Some Qs) (Some P1) (Some P2) = Ok (Some x) -> eqn dn dm x Qs P1 P2) /\
  (anc None (Some dm) (Some Qp) (Some Qs) (Some P1) (Some P2) = Ok (Some x) -> eqn x dm Qp Qs P1 P2) /\
  (anc (Some dn) None (Some Qp) (Some Qs) (Some P1) (Some P2) = Ok (Some x) -> eqn dn x Qp Qs P1 P2).
Proof.
  intros Hb Hs Hp Hr HKp HKs anc eqn. unfold anc, eqn, liquid_jet_pump_ancillary. fold (area dn) (area dm). splits.
  - intros H. inv_bind H. injection H as <-. apply P1_inv in E. tauto.
  - intros H. unfold pdiv in H. repeat (match type of H with context [Reqb ?x 0] => destruct (Reqb x 0) eqn:?E; cbn [bind] in H; [discriminate|] end).
    rewrite Reqb_false in *. injection H as <-. assert (D : area dm - area dn <> 0). { intros D. apply E3. replace (area dm) with (area dn) by lra. field. auto. }
    unfold nozzle_equation. field. splits; auto.
  - intros D H. unfold pdiv in H. repeat (match type of H with context [Reqb ?x 0] => destruct (Reqb x 0) eqn:?E; cbn [bind] in H; [discriminate|] end).
    rewrite Reqb_false in *. destruct (psqrt _) as [s|[]] eqn:S; try discriminate. destruct (Reqb (area dn) 0) eqn:E2; [discriminate|]. rewrite Reqb_false in *. injection H as <-.
    apply psqrt_inv in S. destruct S as (_ & _ & Q).
    unfold nozzle_equation. replace (s * (area dm - area dn) / area dn / (area dm - area dn)) with (s / area dn) by (field; split; auto; lra).
    replace ((s / area dn) ^ 2) with (s * s / (area dn * area dn)) by (field; auto). rewrite Q. field. splits; auto; lra.
  - intros Hdn H. unfold pdiv in H. repeat (match type of H with context [Reqb ?x 0] => destruct (Reqb x 0) eqn:?E; cbn [bind] in H; [discriminate|] end). inv_bind H.
    destruct (Reqb (area dm - area dn) 0) eqn:?D; [discriminate|]. rewrite Reqb_false in *. cbn [bind] in H. injection H as <-.
    match goal with K : psqrt _ = Ok _ |- _ => rename K into S end. apply psqrt_inv in S. destruct S as (_ & _ & Q). assert (N : area dn <> 0) by (intros N; apply area_0 in N; auto).
    unfold nozzle_equation. replace ((area dn * v / (area dm - area dn) / area dn) ^ 2) with (v * v / ((area dm - area dn) * (area dm - area dn))) by (field; auto). rewrite Q. field. splits; auto; lra.
  - intros H. inv_bind H. inv_bind H. inv_bind H. injection H as <-. apply Hb in E1. inv_bind E1. apply P1_inv in E2. destruct E2 as (_ & _ & _ & _ & _ & E2). injection E1 as E1. unfold nozzle_equation in *. lra.
  - intros H. inv_bind H. inv_bind H. destruct (brenth _ _ _) eqn:B.
    + injection H as <-. apply Hb in B. inv_bind B. apply P1_inv in E1. destruct E1 as (_ & _ & _ & _ & _ & E1). injection B as B. unfold nozzle_equation in *. lra.
    + inv_bind H. injection H as <-. apply Hs in E1. inv_bind E1. apply P1_inv in E2. destruct E2 as (_ & _ & _ & _ & _ & E2). injection E1 as E1. unfold nozzle_equation in *. lra.
Qed.

(** an operating point that satisfies the nozzle equation is found again from any five of its six quantities that have a closed form *)
Theorem C94_recovers brenth secant rhop rhos Kp Ks dn dm Qp Qs P1 P2 :
  0 < rhop -> 0 < rhos -> -1 < Kp -> -1 < Ks -> 0 < dn -> dn < dm -> 0 < Qp -> 0 <= Qs -> nozzle_equation rhop rhos Kp Ks dn dm Qp Qs P1 P2 ->
  let anc := liquid_jet_pump_ancillary brenth secant rhop rhos Kp Ks in
  anc (Some dn) (Some dm) (Some Qp) (Some Qs) None (Some P2) = Ok (Some P1) /\
  anc (Some dn) (Some dm) (Some Qp) (Some Qs) (Some P1) None = Ok (Some P2) /\
  anc (Some dn) (Some dm) (Some Qp) None (Some P1) (Some P2) = Ok (Some Qs) /\
  anc (Some dn) (Some dm) None (Some Qs) (Some P1) (Some P2) = Ok (Some Qp).
Proof.
  intros Hp Hs HKp HKs Hn Hm HQ HQs H anc. assert (An := area_pos dn ltac:(lra)). assert (Am := area_lt dn dm Hn Hm). assert (D : area dm - area dn <> 0) by lra. assert (HR := ratio_1 (area dn) (area dm) ltac:(lra) ltac:(lra)).
  unfold anc, liquid_jet_pump_ancillary. fold (area dn) (area dm). unfold nozzle_equation in H. splits.
  - destruct (P1_ok rhop rhos Kp Ks dn dm Qp Qs P2) as [p E]; try lra. rewrite E. cbn [bind]. apply P1_inv in E. destruct E as (_ & _ & _ & _ & _ & E). unfold nozzle_equation in E. do 2 f_equal. lra.
  - rewrite (pdiv_ok rhos), (pdiv_ok Qs), (pdiv_ok (area dn)) by lra. cbn [bind]. rewrite (pdiv_ok Qp) by lra. cbn [bind]. rewrite pdiv_ok by auto. cbn [bind]. do 2 f_equal.
    transitivity (P1 - (P1 - P2)); [rewrite H; field; splits; lra|ring].
  - rewrite (pdiv_ok rhos), (pdiv_ok (area dn)) by lra. cbn [bind]. rewrite pdiv_ok. 2:{ replace (rhos / rhop * rhop * (Ks + 1)) with (rhos * (Ks + 1)) by (field; lra). nra. } cbn [bind].
    match goal with |- context [psqrt ?q] => assert (E : q = (Qs * area dn / (area dm - area dn)) * (Qs * area dn / (area dm - area dn))) end.
    { replace (-2 * area dn ^ 2 * P1 + 2 * area dn ^ 2 * P2 + Kp * Qp ^ 2 * rhop + Qp ^ 2 * rhop) with (-2 * area dn ^ 2 * (P1 - P2) + (Kp + 1) * Qp ^ 2 * rhop) by ring. rewrite H. field. splits; lra. }
    rewrite E, psqrt_ok by apply Rle_0_sqr. rewrite sqrt_square. 2:{ apply Rle_mult_inv_pos; nra. } rewrite pdiv_ok by lra. cbn [bind]. do 2 f_equal. field. splits; lra.
  - rewrite (pdiv_ok rhos), (pdiv_ok (area dn)) by lra. cbn [bind]. rewrite pdiv_ok by nra. cbn [bind].
    match goal with |- context [psqrt ?q] => assert (E : q = (Qp * (area dm - area dn) / area dn) * (Qp * (area dm - area dn) / area dn)) end.
    { match goal with |- (?a / _ = _)%R => replace a with (2 * (area dm - area dn) ^ 2 * (P1 - P2) + rhos * (1 + Ks) * Qs ^ 2) by (field; lra) end. rewrite H. field. splits; lra. }
    rewrite E, psqrt_ok by apply Rle_0_sqr. rewrite sqrt_square. 2:{ apply Rle_mult_inv_pos; nra. } cbn [bind]. rewrite pdiv_ok by lra. cbn [bind]. do 2 f_equal. field. splits; lra.
Qed.

(** the secondary flow is nan exactly when no flow is possible; the primary flow then raises *)
Theorem C94_no_flow brenth secant rhop rhos Kp Ks dn dm Qp P1 P2 :
  0 < rhop -> 0 < rhos -> -1 < Kp -> -1 < Ks -> 0 < dn -> dn < dm ->
  liquid_jet_pump_ancillary brenth secant rhop rhos Kp Ks (Some dn) (Some dm) (Some Qp) None (Some P1) (Some P2) = Ok None <->
  ~ exists Qs, nozzle_equation rhop rhos Kp Ks dn dm Qp Qs P1 P2.
Proof.
  intros Hp Hs HKp HKs Hn Hm. assert (An := area_pos dn ltac:(lra)). assert (Am := area_lt dn dm Hn Hm).
  unfold liquid_jet_pump_ancillary. fold (area dn) (area dm). rewrite (pdiv_ok rhos), (pdiv_ok (area dn)) by lra. cbn [bind]. rewrite pdiv_ok. 2:{ replace (rhos / rhop * rhop * (Ks + 1)) with (rhos * (Ks + 1)) by (field; lra). nra. } cbn [bind].
  set (q := _ / (rhos / rhop * rhop * (Ks + 1))). assert (E : q = (2 * area dn ^ 2 * (P2 - P1) + (Kp + 1) * Qp ^ 2 * rhop) / (rhos * (Ks + 1))) by (unfold q; field; lra).
  unfold psqrt. destruct (Rltb q 0) eqn:L; [rewrite Rltb_true in L|rewrite Rltb_false in L].
  - split; [|auto]. intros _ [Qs H]. unfold nozzle_equation in H. assert (q = (Qs * area dn / (area dm - area dn)) * (Qs * area dn / (area dm - area dn))). { rewrite E. replace (P2 - P1) with (- (P1 - P2)) by ring. rewrite H. field. splits; lra. }
    pose proof (Rle_0_sqr (Qs * area dn / (area dm - area dn))). unfold Rsqr in *. lra.
  - rewrite pdiv_ok by lra. cbn [bind]. split; [discriminate|]. intros N. exfalso. apply N. exists (sqrt q * (area dm - area dn) / area dn). unfold nozzle_equation.
    replace ((sqrt q * (area dm - area dn) / area dn / (area dm - area dn)) ^ 2) with (sqrt q * sqrt q / (area dn * area dn)) by (field; lra). rewrite sqrt_sqrt, E by lra. field. splits; lra.
Qed.

(** *** The pressure ratio *)
(** a missing pressure is chosen so that N (P1 - P5) = P5 - P2; with all three given the residual vanishes exactly then *)
Theorem C94_pressures N p1 p2 p5 :
  (forall r, jet_pressures N None (Some p2) (Some p5) = Ok (inl r) -> exists x, r = (Some x, Some p2, Some p5) /\ N * (x - p5) = p5 - p2) /\
  (forall r, jet_pressures N (Some p1) None (Some p5) = Ok (inl r) -> exists x, r = (Some p1, Some x, Some p5) /\ N * (p1 - p5) = p5 - x) /\
  (forall r, jet_pressures N (Some p1) (Some p2) None = Ok (inl r) -> exists x, r = (Some p1, Some p2, Some x) /\ N * (p1 - x) = x - p2) /\
  (p1 <> p5 -> exists e, jet_pressures N (Some p1) (Some p2) (Some p5) = Ok (inr e) /\ (e = 0 <-> N * (p1 - p5) = p5 - p2)).
Proof.
  unfold jet_pressures, pdiv. splits.
  - destruct (Reqb N 0) eqn:E; cbn [bind]; intros r H; [discriminate|]. rewrite Reqb_false in E. assert (G : r = (Some ((- p2 + p5 * N + p5) / N), Some p2, Some p5)) by congruence. eexists. split; [exact G|]. field. auto.
  - intros r H. assert (G : r = (Some p1, Some (- p1 * N + p5 * N + p5), Some p5)) by congruence. eexists. split; [exact G|]. ring.
  - destruct (Reqb (N + 1) 0) eqn:E; cbn [bind]; intros r H; [discriminate|]. rewrite Reqb_false in E. assert (G : r = (Some p1, Some p2, Some ((p1 * N + p2) / (N + 1)))) by congruence. eexists. split; [exact G|]. field. auto.
  - intros H. rewrite (proj2 (Reqb_false _ _)) by lra. cbn [bind]. eexists. split; [reflexivity|]. assert (p1 - p5 <> 0) by lra. split; intros G.
    + replace N with ((p5 - p2) / (p1 - p5)) by lra. field. auto.
    + replace (p5 - p2) with (N * (p1 - p5)) by lra. field. auto.
Qed.

(** the documented fraction: density ratio C, flow ratio M, area ratios R (nozzle to mixing tube) and alpha (mixing tube to diffuser),
    j = 0 for a retracted nozzle and 1 otherwise *)
Definition numerator (C M R_ alpha Km Kd Ks : R) : R :=
  2 * R_ + 2 * C * M ^ 2 * R_ ^ 2 / (1 - R_) - R_ ^ 2 * (1 + C * M) * (1 + M) * (1 + Km + Kd + alpha ^ 2) - C * M ^ 2 * R_ ^ 2 / (1 - R_) ^ 2 * (1 + Ks).
Definition denominator (j C M R_ alpha Km Kd Ks Kp : R) : R :=
  (1 + Kp) - 2 * R_ - 2 * C * M ^ 2 * R_ ^ 2 / (1 - R_) + R_ ^ 2 * (1 + C * M) * (1 + M) * (1 + Km + Kd + alpha ^ 2) + (1 - j) * (C * M ^ 2 * R_ ^ 2 / (1 - R_) ^ 2) * (1 + Ks).
Definition ratio2 (a b : R) : R := (a / b) ^ 2.

Lemma div_mul n d : d <> 0 -> n / d * d = n. Proof. intros. field. auto. Qed.
Lemma ratio_inv rhop rhos Km Kd Ks Kp dn dm dd Qp Qs b N : jet_pressure_ratio rhop rhos Km Kd Ks Kp dn dm dd Qp Qs b = Ok N ->
  let j := if b then 0 else 1 in let C := rhos / rhop in let M := Qs / Qp in let R_ := ratio2 dn dm in let al := ratio2 dm dd in
  rhop <> 0 /\ Qp <> 0 /\ dm <> 0 /\ dd <> 0 /\ R_ <> 1 /\ R_ <> 0 /\
  let den := denominator j C M R_ al Km Kd Ks Kp - (1 - j) * (C * M ^ 2 * R_ ^ 2 / (1 - R_) ^ 2) * (2 * Ks) in den <> 0 /\ N * den = numerator C M R_ al Km Kd Ks.
Proof.
  unfold jet_pressure_ratio. intros H. unfold pdiv in H. repeat (match type of H with context [Reqb ?x 0] => destruct (Reqb x 0) eqn:?E; cbn [bind] in H; [discriminate|] end).
  rewrite Reqb_false in *. assert (F : forall x y : R, @Ok R x = Ok y -> x = y) by congruence. apply F in H. clear F. cbv zeta.
  assert (Hdm : dm <> 0) by (intros ->; apply E0; ring). assert (Hdd : dd <> 0) by (intros ->; apply E1; ring). assert (ER : dn ^ 2 / dm ^ 2 = ratio2 dn dm) by (unfold ratio2; field; auto). assert (EA : dm ^ 2 / dd ^ 2 = ratio2 dm dd) by (unfold ratio2; field; auto).
  rewrite ER, EA in *. set (R_ := ratio2 dn dm) in *. assert (HR : 1 - R_ <> 0) by auto. splits; auto.
  - lra.
  - match type of H with ?n / ?d = N => assert (ED : d <> 0) by auto end. intros Z. apply ED. refine (eq_trans _ Z). unfold denominator. destruct b; field; splits; auto.
  - match type of H with ?n / ?d = N => assert (ED : d <> 0) by auto; assert (EN : N * d = n) by (rewrite <- H; apply div_mul, ED) end.
    transitivity (N * (1 + Kp - 2 * R_ - 2 * (rhos / rhop) * (Qs / Qp * (Qs / Qp)) * (R_ * R_) / (1 - R_) + R_ * R_ * (1 + rhos / rhop * (Qs / Qp)) * (1 + Qs / Qp) * (1 + Km + Kd + ratio2 dm dd * ratio2 dm dd) + (1 - (if b then 0 else 1)) * (rhos / rhop * (Qs / Qp * (Qs / Qp)) / ((1 - R_) / R_) ^ 2) * (1 - Ks))).
    { f_equal. unfold denominator. destruct b; field; splits; auto. } rewrite EN. unfold numerator. field. splits; auto.
Qed.

(** with the nozzle inside the mixing tube, or without secondary inlet loss, the ratio is the documented fraction *)
Theorem C94_ratio rhop rhos Km Kd Ks Kp dn dm dd Qp Qs b N : jet_pressure_ratio rhop rhos Km Kd Ks Kp dn dm dd Qp Qs b = Ok N -> b = false \/ Ks = 0 ->
  let den := denominator (if b then 0 else 1) (rhos / rhop) (Qs / Qp) (ratio2 dn dm) (ratio2 dm dd) Km Kd Ks Kp in
  den <> 0 /\ N = numerator (rhos / rhop) (Qs / Qp) (ratio2 dn dm) (ratio2 dm dd) Km Kd Ks / den.
Proof.
  intros H K. apply ratio_inv in H. cbv zeta in *. destruct H as (_ & _ & _ & _ & _ & _ & D & H).
  assert (Z : (1 - (if b then 0 else 1)) * (rhos / rhop * (Qs / Qp) ^ 2 * ratio2 dn dm ^ 2 / (1 - ratio2 dn dm) ^ 2) * (2 * Ks) = 0) by (destruct K as [-> | ->]; ring).
  rewrite Z, Rminus_0_r in *. split; auto. rewrite <- H. field. auto.
Qed.
(** a retracted nozzle: the code subtracts the secondary inlet loss in the denominator where the documentation adds it *)
Theorem C94_ratio_refuted rhop rhos Km Kd Ks Kp dn dm dd Qp Qs N : jet_pressure_ratio rhop rhos Km Kd Ks Kp dn dm dd Qp Qs true = Ok N -> rhos <> 0 -> Qs <> 0 -> Ks <> 0 ->
  numerator (rhos / rhop) (Qs / Qp) (ratio2 dn dm) (ratio2 dm dd) Km Kd Ks <> 0 ->
  N <> numerator (rhos / rhop) (Qs / Qp) (ratio2 dn dm) (ratio2 dm dd) Km Kd Ks / denominator 0 (rhos / rhop) (Qs / Qp) (ratio2 dn dm) (ratio2 dm dd) Km Kd Ks Kp.
Proof.
  intros H Hr HQ HK Hn E. apply ratio_inv in H. cbv zeta in H. destruct H as (Hp & HQp & _ & _ & HR1 & HR0 & D & H). set (n := numerator _ _ _ _ _ _ _) in *. set (d := denominator _ _ _ _ _ _ _ _ _) in *.
  set (x := rhos / rhop * (Qs / Qp) ^ 2 * ratio2 dn dm ^ 2 / (1 - ratio2 dn dm) ^ 2) in *.
  assert (X : x <> 0). { intros X. assert (F : x * (rhop * Qp ^ 2 * (1 - ratio2 dn dm) ^ 2) = rhos * Qs ^ 2 * ratio2 dn dm ^ 2) by (unfold x; field; splits; auto; lra). rewrite X, Rmult_0_l in F. symmetry in F. revert F.
    apply Rmult_integral_contrapositive_currified; [apply Rmult_integral_contrapositive_currified; [auto|]|]; apply pow_nonzero; auto. }
  destruct (Req_dec d 0) as [Z|Z]. { rewrite Z in E. unfold Rdiv in E. rewrite Rinv_0, Rmult_0_r in E. rewrite E in H. apply Hn. rewrite <- H. ring. }
  assert (K : n * d = n * (d - (1 - 0) * x * (2 * Ks))). { rewrite <- H at 1. rewrite E at 1. field. auto. } assert (F : n * (x * Ks) = 0) by lra. revert F. apply Rmult_integral_contrapositive_currified; [|apply Rmult_integral_contrapositive_currified]; auto.
Qed.
(** with the nozzle inside the mixing tube the discharge pressure follows from the momentum balance: dynamic pressure of the jet times the numerator *)
Theorem C94_balance rhop rhos Km Kd Ks Kp dn dm dd Qp Qs N P1 P2 P5 : jet_pressure_ratio rhop rhos Km Kd Ks Kp dn dm dd Qp Qs false = Ok N ->
  nozzle_equation rhop rhos Kp Ks dn dm Qp Qs P1 P2 -> N * (P1 - P5) = P5 - P2 -> P1 <> P2 ->
  P5 - P2 = rhop * (Qp / area dn) ^ 2 / 2 * numerator (rhos / rhop) (Qs / Qp) (ratio2 dn dm) (ratio2 dm dd) Km Kd Ks.
Proof.
  intros H HZ HN HP. apply ratio_inv in H. cbv zeta in H. destruct H as (Hp & HQp & Hdm & _ & HR1 & HR0 & D & H). set (n := numerator _ _ _ _ _ _ _) in *. set (d := denominator _ _ _ _ _ _ _ _ _) in *.
  assert (Hdn : dn <> 0). { intros ->. apply HR0. unfold ratio2. field. auto. } assert (An := area_pos dn Hdn). assert (Am := area_pos dm Hdm). set (Z := rhop * (Qp / area dn) ^ 2 / 2) in *.
  assert (R_a : ratio2 dn dm = area dn / area dm). { unfold ratio2, area. pose proof PI_RGT_0. field. split; auto; lra. }
  assert (Dm : area dm - area dn <> 0). { intros Q. apply HR1. rewrite R_a. replace (area dn) with (area dm) by lra. field. lra. }
  assert (S : P1 - P2 = Z * (n + d)). { rewrite HZ. unfold Z, n, d, numerator, denominator. rewrite R_a. field. splits; auto; lra. }
  replace ((1 - 1) * _ * _) with 0 in * by ring. rewrite Rminus_0_r in *. assert (NZ : n + d <> 0). { intros Q. apply HP. rewrite Q, Rmult_0_r in S. lra. }
  assert (Q : (n + d) * (P5 - P2) = (n + d) * (Z * n)). { replace (P1 - P5) with ((P1 - P2) - (P5 - P2)) in HN by ring. rewrite S in HN. apply (f_equal (fun t => t * d)) in HN.
    replace (N * (Z * (n + d) - (P5 - P2)) * d) with ((N * d) * (Z * (n + d) - (P5 - P2))) in HN by ring. rewrite H in HN. lra. }
  apply Rmult_eq_reg_l in Q; auto.
Qed.

(** *** The whole pump *)
(** the residuals of an operating point *)
Definition nozzle_error (rhop rhos Kp Ks : R) (v : var -> R) : R :=
  (1 + Kp) * (rhop * (v VQp / area (v Dnozzle)) ^ 2 / 2) - (1 + Ks) * (rhos * (v VQs / (area (v Dmixing) - area (v Dnozzle))) ^ 2 / 2) - (v VP1 - v VP2).
(** the derived entries of a returned dictionary agree with its variables *)
Definition consistent (s : solution) : Prop :=
  let v := vals s in sol_N s = (v VP5 - v VP2) / (v VP1 - v VP5) /\ sol_M s = v VQs / v VQp /\ sol_R s = area (v Dnozzle) / area (v Dmixing) /\ sol_alpha s = area (v Dmixing) / area (diffuser s) /\
  efficiency s = (v VQs * (v VP5 - v VP2)) / (v VQp * (v VP1 - v VP5)).

Lemma push_le e eff : Rabs e <= Rabs (if Rltb eff 0 then (if Rltb e 0 then e - Rabs eff else e + Rabs eff) else e).
Proof. pose proof (Rabs_pos eff). rcase; try lra. rcase; unfold Rabs at 1 2; repeat destruct (Rcase_abs _); lra. Qed.

Lemma pdiv_inv a b c : pdiv a b = Ok c -> b <> 0 /\ c = a / b.
Proof. unfold pdiv. destruct (Reqb b 0) eqn:E; [discriminate|]. rewrite Reqb_false in E. intros H. split; auto. congruence. Qed.
Lemma pdiv_ok_iff a b c : pdiv a b = Ok c <-> b <> 0 /\ c = a / b.
Proof. split; [apply pdiv_inv|]. intros [H ->]. now apply pdiv_ok. Qed.
Lemma area_sq d : area d = PI / 4 * d ^ 2. Proof. unfold area. ring. Qed.

Lemma obj_inv rhop rhos Kp Ks Km Kd b dd given u0 u1 x e1 e2 s : obj_err rhop rhos Kp Ks Km Kd b dd given u0 u1 x = Ok (e1, e2, s) ->
  let v := vals s in v = put (put given u0 (Rabs (fst x))) u1 (Rabs (snd x)) /\ diffuser s = dd /\ consistent s /\
  exists N, jet_pressure_ratio rhop rhos Km Kd Ks Kp (v Dnozzle) (v Dmixing) dd (v VQp) (v VQs) b = Ok N /\ Rabs (N - sol_N s) <= Rabs e1 /\ Rabs (nozzle_error rhop rhos Kp Ks v) <= Rabs e2.
Proof.
  unfold obj_err. cbv zeta. set (v := put _ u1 _). intros H.
  apply bind_Ok_inv in H. destruct H as (C & E1 & H). apply bind_Ok_inv in H. destruct H as (al & E2 & H). apply bind_Ok_inv in H. destruct H as (R_ & E3 & H). apply bind_Ok_inv in H. destruct H as (M & E4 & H).
  apply bind_Ok_inv in H. destruct H as (N & EN & H). apply bind_Ok_inv in H. destruct H as (q & E5 & H). apply bind_Ok_inv in H. destruct H as (vel & E6 & H). apply bind_Ok_inv in H. destruct H as (y & E7 & H).
  rewrite E5 in H. cbn [bind] in H. apply pdiv_inv in E1, E2, E3, E4, E5, E6, E7.
  assert (F : forall (a b a' b' : R) (c c' : solution), @Ok (R * R * solution) (a, b, c) = Ok (a', b', c') -> a = a' /\ b = b' /\ c = c') by (intros; splits; congruence).
  apply F in H. clear F. destruct H as (H1 & H2 & <-). cbn [vals diffuser sol_N]. destruct E1 as [N1 ->], E2 as [N2 ->], E3 as [N3 ->], E4 as [N4 ->], E5 as [N5 ->], E6 as [N6 ->], E7 as [N7 ->].
  assert (Hdm : v Dmixing <> 0) by (intros Z; apply N3; rewrite Z; ring). assert (Hdd : dd <> 0) by (intros Z; apply N2; rewrite Z; ring). pose proof PI_RGT_0 as HPI.
  assert (Hdn : v Dnozzle <> 0) by (intros Z; apply N6; rewrite Z; ring). splits; auto.
  - unfold consistent. cbn [vals diffuser sol_N sol_M sol_R sol_alpha efficiency]. rewrite !area_sq. splits; auto; field; splits; auto; lra.
  - exists N. splits; auto.
    + rewrite <- H1. apply push_le.
    + rewrite <- H2. refine (Rle_trans _ _ _ _ (push_le _ _)). right. f_equal. unfold nozzle_error. rewrite !area_sq. field. splits; auto; try lra.
      all: intros Z; apply N7; replace (v Dnozzle ^ 2) with (v Dmixing ^ 2) by nra; field; auto.
Qed.

(** whatever the root finders and starting values: a returned pump keeps every given quantity, its derived numbers agree, and both equations hold within 1e-5 (discharge pressure given) *)
Theorem C94_pump brenth secant newton starts rhop rhos Kp Ks Km Kd args dd b s p5 :
  liquid_jet_pump brenth secant newton starts rhop rhos Kp Ks Km Kd args dd b = Ok (Some s) -> args VP5 = Some p5 ->
  let v := vals s in (forall w x, args w = Some x -> v w = x) /\ (forall d, dd = Some d -> diffuser s = d) /\ consistent s /\
  exists N, jet_pressure_ratio rhop rhos Km Kd Ks Kp (v Dnozzle) (v Dmixing) (diffuser s) (v VQp) (v VQs) b = Ok N /\
    Rabs (N - (v VP5 - v VP2) / (v VP1 - v VP5)) + Rabs (nozzle_error rhop rhos Kp Ks v) <= 1 / 100000.
Proof.
  unfold liquid_jet_pump. intros H H5. set (unk := fun v => match args v with None => true | Some _ => false end) in *. destruct (filter unk solution_vars) as [|u0 [|u1 [|]]] eqn:FU; try discriminate.
  assert (U : forall w, w = u0 \/ w = u1 -> args w = None). { intros w Hw. assert (I : In w (filter unk solution_vars)) by (rewrite FU; destruct Hw as [-> | ->]; cbn; auto). apply filter_In in I. destruct I as [_ I]. unfold unk in I. destruct (args w); auto. discriminate. }
  inv_bind H. destruct (var_eqb u1 VP5) eqn:E5. { destruct u1; try discriminate. rewrite (U VP5) in H5 by auto. discriminate. }
  inv_bind H. assert (G : v0 = s) by congruence. subst v0. clear H. set (f := obj_err _ _ _ _ _ _ _ _ _ _ _) in *.
  assert (T : exists x e1 e2, f x = Ok (e1, e2, s) /\ Rabs e1 + Rabs e2 <= 1 / 100000).
  { revert E0. induction starts as [|x0 r IH]; cbn; [discriminate|]. destruct (solve_with_newton newton f x0) as [s'|] eqn:S; [|exact IH]. intros G. assert (s' = s) by congruence. subst s'. unfold solve_with_newton in S. inv_bind S. inv_bind S. destruct v1 as [[e1 e2] s1].
    destruct (Rltb _ _) eqn:L in S; [discriminate|]. rewrite Rltb_false in L. assert (s1 = s) by congruence. subst. eauto 6. }
  destruct T as (x & e1 & e2 & T & L). apply obj_inv in T. cbv zeta in *. destruct T as (Hv & Hd & HC & N & EN & L1 & L2). splits; auto.
  - intros w y Hw. rewrite Hv. unfold put. assert (W : forall a b, var_eqb a b = true -> a = b) by (intros [] []; cbn; congruence).
    destruct (var_eqb w u1) eqn:W1. { apply W in W1. rewrite (U w) in Hw by auto. discriminate. } destruct (var_eqb w u0) eqn:W0. { apply W in W0. rewrite (U w) in Hw by auto. discriminate. } now rewrite Hw.
  - intros d ->. auto.
  - exists N. rewrite Hd. split; auto. destruct HC as (<- & _). lra.
Qed.

(** discharge pressure unknown: both equations hold exactly at the computed values; the two values returned for the unknowns are their absolute values *)
Theorem C94_discharge brenth secant newton starts rhop rhos Kp Ks Km Kd args dd b s :
  (forall f a b r, brenth f a b = Ok r -> f r = Ok 0) -> (forall f a r, secant f a = Ok r -> f r = Ok 0) -> 0 < rhop -> 0 < rhos -> -1 < Kp -> -1 < Ks ->
  liquid_jet_pump brenth secant newton starts rhop rhos Kp Ks Km Kd args dd b = Ok (Some s) -> args VP5 = None ->
  consistent s /\ exists v : var -> R, (forall w x, args w = Some x -> v w = x /\ vals s w = x) /\ (forall w, args w = None -> vals s w = Rabs (v w)) /\
  nozzle_equation rhop rhos Kp Ks (v Dnozzle) (v Dmixing) (v VQp) (v VQs) (v VP1) (v VP2) /\
  exists N, jet_pressure_ratio rhop rhos Km Kd Ks Kp (v Dnozzle) (v Dmixing) (diffuser s) (v VQp) (v VQs) b = Ok N /\ N * (v VP1 - v VP5) = v VP5 - v VP2.
Proof.
  intros HB HS Hp Hr HKp HKs H H5. unfold liquid_jet_pump in H. set (unk := fun v => match args v with None => true | Some _ => false end) in *. destruct (filter unk solution_vars) as [|u0 [|u1 [|]]] eqn:FU; try discriminate.
  inv_bind H. destruct (var_eqb u1 VP5) eqn:E5.
  2:{ exfalso. assert (I : In VP5 (filter unk solution_vars)) by (apply filter_In; split; [cbn; auto 10|unfold unk; now rewrite H5]). cbn [filter solution_vars] in FU. unfold unk in FU. rewrite H5 in FU.
      destruct (args Dnozzle), (args Dmixing), (args VQp), (args VQs), (args VP1), (args VP2); cbn in FU; try discriminate; assert (u1 = VP5) by congruence; subst; discriminate. }
  inv_bind H. destruct v0 as [a|]; [|discriminate]. inv_bind H. inv_bind H. inv_bind H. destruct v2 as [[e1 e2] s']. assert (s' = s) by congruence. subst s'. clear H.
  set (given := fun v => match args v with Some x => x | None => 0 end) in *. set (d := match dd with Some d => d | None => _ end) in *.
  apply obj_inv in E3. cbv zeta in E3. destruct E3 as (Hv & Hd & HC & _). split; auto. exists (put (put given u0 a) VP5 v1). assert (u1 = VP5) by (destruct u1; discriminate || auto). subst u1.
  assert (A : forall w x, args w = Some x -> given w = x) by (intros w x K; unfold given; now rewrite K).
  rewrite pdiv_ok_iff in E2. destruct E2 as [ND ->]. rewrite Hd, Hv.
  assert (NN : forall v, v VP1 = put given u0 a VP1 -> v VP2 = put given u0 a VP2 -> v VP5 = (put given u0 a VP1 * v0 + put given u0 a VP2) / (v0 + 1) -> v0 * (v VP1 - v VP5) = v VP5 - v VP2).
  { intros v' -> -> ->. field. auto. }
  destruct (C94_nozzle brenth secant rhop rhos Kp Ks (given Dnozzle) (given Dmixing) (given VQp) (given VQs) (given VP1) (given VP2) a HB HS Hp Hr HKp HKs) as (T1 & T2 & T3 & T4 & T5 & T6).
  clear Hv. cbn [filter solution_vars] in FU. unfold unk in FU. rewrite H5 in FU.
  destruct (args Dnozzle) eqn:A1, (args Dmixing) eqn:A2, (args VQp) eqn:A3, (args VQs) eqn:A4, (args VP1) eqn:A5, (args VP2) eqn:A6; try discriminate FU; assert (U : u0 = match u0 with Dnozzle => u0 | w => w end) by (destruct u0; auto); clear U;
  (match type of FU with [?w; _] = _ => assert (u0 = w) by congruence end); subst u0; rewrite ?A1, ?A2, ?A3, ?A4, ?A5, ?A6 in E0;
  repeat match goal with K : args ?w = Some ?x |- _ => lazymatch goal with _ : given w = x |- _ => fail | _ => assert (given w = x) by (apply A, K) end end.
  all: (split; [intros w x K; destruct w; cbn; split; try (apply A; exact K); congruence|]).
  all: (split; [intros w K; destruct w; cbn; auto; congruence|]).
  all: (split; [|exists v0; split; [exact E1|apply NN; reflexivity]]).
  all: (pose proof (ratio_inv _ _ _ _ _ _ _ _ _ _ _ _ _ E1) as (_ & _ & _ & _ & RI1 & RI0 & _); unfold put in RI1, RI0; cbn [var_eqb] in RI1, RI0; unfold put; cbn [var_eqb]).
  all: repeat match goal with K : ?f ?w = ?x |- _ => match type of w with var => match type of x with R => rewrite K in *; clear K end end end.
  - apply T2, E0.
  - apply T1, E0.
  - apply T3; [|exact E0]. intros Z. apply RI1. unfold ratio2, area in *. pose proof PI_RGT_0. assert (Q : r0 <> 0). { intros ->. apply RI0. unfold ratio2, Rdiv. rewrite Rinv_0. ring. } replace ((r / r0) ^ 2) with (r * r / (r0 * r0)) by (field; auto). replace (r * r) with (r0 * r0) by nra. field. auto.
  - apply T4; [|exact E0]. intros ->. apply RI0. unfold ratio2, Rdiv. ring.
  - apply T6, E0.
  - apply T5, E0.
Qed.

(** wrong number of unknowns *)
Theorem C94_unknowns brenth secant newton starts rhop rhos Kp Ks Km Kd args dd b :
  length (filter (fun v => match args v with None => true | Some _ => false end) solution_vars) <> 2%nat ->
  liquid_jet_pump brenth secant newton starts rhop rhos Kp Ks Km Kd args dd b = Err ValueError.
Proof. unfold liquid_jet_pump. destruct (filter _ _) as [|? [|? [|]]]; cbn; intros H; auto. now elim H. Qed.
Definition missing6 (l : list (option R)) : nat := length (filter (fun o => match o with None => true | Some _ => false end) l).
Theorem C94_ancillary_unknowns brenth secant rhop rhos Kp Ks dn dm Qp Qs P1 P2 : missing6 [dn; dm; Qp; Qs; P1; P2] <> 1%nat ->
  liquid_jet_pump_ancillary brenth secant rhop rhos Kp Ks dn dm Qp Qs P1 P2 = Err ValueError.
Proof. unfold missing6. destruct dn, dm, Qp, Qs, P1, P2; cbn; intros H; auto; now elim H. Qed.

(** *** The hypotheses are met; an impossible suction pressure is returned with its sign dropped *)
Definition case_args : var -> option R := fun v => match v with Dnozzle => Some 1 | Dmixing => Some 2 | VQp => Some (PI / 4) | VQs => Some 0 | VP1 => Some (1 / 2) | VP2 => None | VP5 => None end.
Lemma case_ratio : jet_pressure_ratio 2 2 0 0 0 0 1 2 2 (PI / 4) 0 false = Ok (3 / 5).
Proof.
  pose proof PI_RGT_0. unfold jet_pressure_ratio. cbv zeta. rewrite (pdiv_ok 2 2), (pdiv_ok (1 ^ 2)), (pdiv_ok (2 ^ 2)), (pdiv_ok 0) by lra. cbn [bind].
  replace (1 ^ 2 / 2 ^ 2) with (1 / 4) by field. replace (2 ^ 2 / 2 ^ 2) with 1 by field. replace (0 / (PI / 4)) with 0 by (field; lra). replace (2 / 2) with 1 by field.
  rewrite (pdiv_ok _ (1 - 1 / 4)) by lra. cbn [bind]. rewrite (pdiv_ok _ ((1 - 1 / 4) ^ 2)) by lra. cbn [bind]. rewrite (pdiv_ok (1 - 1 / 4)) by lra. cbn [bind]. rewrite (pdiv_ok (1 * (0 * 0))) by lra. cbn [bind]. rewrite pdiv_ok by lra. f_equal. field.
Qed.
Theorem C94_pressures_refuted brenth secant newton starts :
  exists s, liquid_jet_pump brenth secant newton starts 2 2 0 0 0 0 case_args (Some 2) false = Ok (Some s) /\ vals s VP1 = 1 / 2 /\ vals s VP2 = 1 / 2 /\
    ~ nozzle_equation 2 2 0 0 (vals s Dnozzle) (vals s Dmixing) (vals s VQp) (vals s VQs) (vals s VP1) (vals s VP2).
Proof.
  pose proof PI_RGT_0. assert (area 1 = PI / 4) by (unfold area; ring). assert (area 2 = PI) by (unfold area; field).
  assert (E : nozzle_equation 2 2 0 0 1 2 (PI / 4) 0 (1 / 2) (- (1 / 2))). { unfold nozzle_equation. rewrite H0, H1. field. lra. }
  unfold liquid_jet_pump. cbn [filter solution_vars case_args var_eqb]. rewrite (pdiv_ok 2 2) by lra. cbn [bind].
  destruct (C94_recovers brenth secant 2 2 0 0 1 2 (PI / 4) 0 (1 / 2) (- (1 / 2))) as (_ & R2 & _); try lra; auto. rewrite R2. cbn [bind].
  unfold put at 1 2 3 4. cbn [var_eqb case_args]. rewrite case_ratio. cbn [bind]. rewrite pdiv_ok by lra. cbn [bind]. unfold put. cbn [var_eqb case_args]. set (p5 := (_ / (3 / 5 + 1))). assert (E5 : p5 = - (1 / 8)) by (unfold p5; field).
  unfold obj_err. cbn [fst snd]. unfold put. cbn [var_eqb case_args]. replace (Rabs p5) with (1 / 8) by (rewrite E5, Rabs_Ropp, Rabs_pos_eq; lra). replace (Rabs (- (1 / 2))) with (1 / 2) by (rewrite Rabs_Ropp, Rabs_pos_eq; lra).
  rewrite (pdiv_ok 2 2), (pdiv_ok (1 ^ 2)), (pdiv_ok (2 ^ 2)), (pdiv_ok 0), case_ratio, (pdiv_ok (1 / 8 - 1 / 2)) by lra. cbn [bind]. rewrite (pdiv_ok (PI / 4)) by lra. cbn [bind]. rewrite pdiv_ok by (replace (1 ^ 2 / 2 ^ 2) with (1 / 4) by field; lra). cbn [bind].
  eexists. split; [reflexivity|]. cbn [vals]. split; [reflexivity|]. split; [reflexivity|].
  unfold nozzle_equation. cbn [var_eqb case_args]. cbv beta iota. rewrite H0, H1.
  intros F. replace (0 / (PI - PI / 4)) with 0 in F by (field; lra). replace (PI / 4 / (PI / 4)) with 1 in F by (field; lra). lra.
Qed.
(** a point meeting the assumptions of the theorems above *)
Example C94_case : nozzle_equation 2 2 0 0 1 2 (PI / 4) 0 (1 / 2) (- (1 / 2)) /\ numerator 1 1 (1 / 4) 0 0 0 (1 / 10) <> 0.
Proof. pose proof PI_RGT_0. split; [unfold nozzle_equation, area; field; lra|unfold numerator; lra]. Qed.

Print Assumptions C94_nozzle.
Print Assumptions C94_recovers.
Print Assumptions C94_no_flow.
Print Assumptions C94_pressures.
Print Assumptions C94_ratio.
Print Assumptions C94_ratio_refuted.
Print Assumptions C94_balance.
Print Assumptions C94_pump.
Print Assumptions C94_discharge.
Print Assumptions C94_unknowns.
Print Assumptions C94_ancillary_unknowns.
Print Assumptions C94_pressures_refuted.
