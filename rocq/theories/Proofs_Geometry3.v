(** Spherical caps on a horizontal vessel; knuckles of a torispherical head. *)
From Coq Require Import Reals Lra Psatz.
From Coquelicot Require Import Coquelicot.
From Verif Require Import Base Model_Real Proofs_Real Spec_Geometry Proofs_Geometry Proofs_Geometry2.
Open Scope R_scope.

Lemma asin_atan_cz c z : 0 <= c -> 0 < z -> asin (c / sqrt (c * c + z * z)) = atan (c / z).
Proof.
  intros Hc Hz. assert (P : 0 < c * c + z * z) by nra. pose proof (sqrt_lt_R0 _ P) as Ps. pose proof (sqrt_sqrt _ (Rlt_le _ _ P)) as E.
  assert (L : c < sqrt (c * c + z * z)).
  { rewrite <- (sqrt_square c) at 1 by assumption. apply sqrt_lt_1; nra. }
  rewrite asin_atan. 2:{ apply ratio_range_lt; lra. }
  f_equal. set (s := sqrt (c * c + z * z)) in *.
  replace (1 - (c / s)²) with (z * z / (s * s)).
  2:{ unfold Rsqr. apply Rmult_eq_reg_r with (s * s); [|nra]. replace (z * z / (s * s) * (s * s)) with (z * z) by (field; lra).
      replace ((1 - c / s * (c / s)) * (s * s)) with (s * s - c * c) by (field; lra). lra. }
  rewrite sqrt_div_alt by nra. rewrite !sqrt_square by lra. field; lra.
Qed.

(** area of the section of a cap: sphere radius [rho], [z] the distance of its centre behind the end circle *)
Lemma cap_section rho r z y : 0 < r -> 0 < z -> 0 < rho -> rho * rho = r * r + z * z -> 0 <= y <= 2 * r ->
  section_area (cap_depth rho r) r y ((rho * rho - (r - y) * (r - y)) * atan (half_chord r y / z) - half_chord r y * z).
Proof.
  intros Hr Hz Hrho Erho Hy. unfold section_area, cap_depth. pose proof (half_chord_sq r y Hy) as E. pose proof (half_chord_nonneg r y) as P.
  set (c := half_chord r y) in *. clearbody c.
  assert (Z : sqrt (rho * rho - r * r) = z) by (replace (rho * rho - r * r) with (z * z) by lra; apply sqrt_square; lra).
  rewrite Z. set (q := sqrt (c * c + z * z)).
  assert (Pq : 0 < c * c + z * z) by nra. pose proof (sqrt_lt_R0 _ Pq) as Hq. pose proof (sqrt_sqrt _ (Rlt_le _ _ Pq)) as Eq. fold q in Hq, Eq.
  assert (Lq : c <= q) by (unfold q; rewrite <- (sqrt_square c) at 1 by assumption; apply sqrt_le_1_alt; nra).
  pose proof (disc_strip q c Hq (conj P Lq)) as I.
  eapply is_RInt_val; [|apply RInt_minus'; [|apply (RInt_const' _ _ z)]].
  2:{ apply (RInt_ext (fun x => sqrt (q * q - x * x))); [lra | | exact I]. intros x Hx. f_equal. nra. }
  unfold q. rewrite asin_atan_cz by assumption. fold q. rewrite Eq.
  replace (c * c + z * z - c * c) with (z * z) by ring. rewrite sqrt_square by lra.
  replace (rho * rho - (r - y) * (r - y)) with (c * c + z * z) by nra. ring.
Qed.

Definition cap_q1 rho r w := (r * r - rho * w) / (r * (w - rho)).
Definition cap_q2 rho r w := (r * r + rho * w) / (r * (w + rho)).
(** the closed form used by the source, per head *)
Definition cap_vol (rho r z y : R) : R :=
  1 / 3 * (rho * rho * rho) * (acos (cap_q1 rho r (r - y)) + acos (cap_q2 rho r (r - y)) - z / rho * (2 + r / rho * (r / rho)) * acos ((r - y) / r))
  - ((r - y) * (rho * rho) - (r - y) * (r - y) * (r - y) / 3) * atan (half_chord r y / z)
  + 2 / 3 * z * ((r - y) * half_chord r y).

Section cap.
Context (rho r z : R) (Hr : 0 < r) (Hz : 0 < z) (Hrho : 0 < rho) (Erho : rho * rho = r * r + z * z).
Lemma rho_gt : r < rho.
Proof. apply Rsqr_incrst_0; unfold Rsqr; nra. Qed.
Lemma cap_q1_sq y : 0 <= y <= 2 * r ->
  1 - cap_q1 rho r (r - y) * cap_q1 rho r (r - y) = (half_chord r y * z / (r * (rho - (r - y)))) * (half_chord r y * z / (r * (rho - (r - y)))).
Proof.
  intros Hy. pose proof rho_gt. pose proof (half_chord_sq r y Hy) as E. unfold cap_q1. set (c := half_chord r y) in *. clearbody c.
  set (w := r - y) in *. assert (Hw : w - rho < 0) by (unfold w; lra). assert (Ec : c * c = r * r - w * w) by (unfold w; lra). clearbody w.
  apply Rmult_eq_reg_r with (r * r * ((w - rho) * (w - rho))); [|apply Rmult_integral_contrapositive_currified; nra].
  replace (c * z / (r * (rho - w)) * (c * z / (r * (rho - w))) * (r * r * ((w - rho) * (w - rho)))) with (c * c * (z * z)) by (field; lra).
  replace ((1 - (r * r - rho * w) / (r * (w - rho)) * ((r * r - rho * w) / (r * (w - rho)))) * (r * r * ((w - rho) * (w - rho))))
    with (r * r * ((w - rho) * (w - rho)) - (r * r - rho * w) * (r * r - rho * w)) by (field; lra).
  rewrite Ec. replace (z * z) with (rho * rho - r * r) by lra. ring.
Qed.
Lemma cap_q2_sq y : 0 <= y <= 2 * r ->
  1 - cap_q2 rho r (r - y) * cap_q2 rho r (r - y) = (half_chord r y * z / (r * (rho + (r - y)))) * (half_chord r y * z / (r * (rho + (r - y)))).
Proof.
  intros Hy. pose proof rho_gt. pose proof (half_chord_sq r y Hy) as E. unfold cap_q2. set (c := half_chord r y) in *. clearbody c.
  set (w := r - y) in *. assert (Hw : 0 < w + rho) by (unfold w; lra). assert (Ec : c * c = r * r - w * w) by (unfold w; lra). clearbody w.
  apply Rmult_eq_reg_r with (r * r * ((w + rho) * (w + rho))); [|apply Rmult_integral_contrapositive_currified; nra].
  replace (c * z / (r * (rho + w)) * (c * z / (r * (rho + w))) * (r * r * ((w + rho) * (w + rho)))) with (c * c * (z * z)) by (field; lra).
  replace ((1 - (r * r + rho * w) / (r * (w + rho)) * ((r * r + rho * w) / (r * (w + rho)))) * (r * r * ((w + rho) * (w + rho))))
    with (r * r * ((w + rho) * (w + rho)) - (r * r + rho * w) * (r * r + rho * w)) by (field; lra).
  rewrite Ec. replace (z * z) with (rho * rho - r * r) by lra. ring.
Qed.
Lemma sq_range q s : 1 - q * q = s * s -> -1 <= q <= 1.
Proof. intros. split; nra. Qed.
Lemma sq_range_lt q s : 0 < s -> 1 - q * q = s * s -> -1 < q < 1.
Proof. intros. split; nra. Qed.
Lemma cap_s1_pos y : 0 < y < 2 * r -> 0 < half_chord r y * z / (r * (rho - (r - y))).
Proof. intros Hy. pose proof rho_gt. pose proof (half_chord_pos r y Hy). apply Rdiv_lt_0_compat; apply Rmult_lt_0_compat; lra. Qed.
Lemma cap_s2_pos y : 0 < y < 2 * r -> 0 < half_chord r y * z / (r * (rho + (r - y))).
Proof. intros Hy. pose proof rho_gt. pose proof (half_chord_pos r y Hy). apply Rdiv_lt_0_compat; apply Rmult_lt_0_compat; lra. Qed.

Lemma cap_q1_derive y : 0 < y < 2 * r -> is_derive (fun y => acos (cap_q1 rho r (r - y))) y (z / (half_chord r y * (rho - (r - y)))).
Proof.
  intros Hy. pose proof rho_gt. pose proof (half_chord_pos r y Hy). pose proof (cap_s1_pos y Hy) as S. pose proof (cap_q1_sq y ltac:(lra)) as Q.
  eapply der_eq; [|apply (dacos (fun y => cap_q1 rho r (r - y)) y (- (z * z) / (r * ((rho - (r - y)) * (rho - (r - y))))));
    [apply (sq_range_lt _ _ S Q)|]].
  - rewrite Q, sqrt_square by lra. field; lra.
  - unfold cap_q1. auto_derive; [apply Rmult_integral_contrapositive_currified; lra|].
    replace (z * z) with (rho * rho - r * r) by lra. field. lra.
Qed.
Lemma cap_q2_derive y : 0 < y < 2 * r -> is_derive (fun y => acos (cap_q2 rho r (r - y))) y (z / (half_chord r y * (rho + (r - y)))).
Proof.
  intros Hy. pose proof rho_gt. pose proof (half_chord_pos r y Hy). pose proof (cap_s2_pos y Hy) as S. pose proof (cap_q2_sq y ltac:(lra)) as Q.
  eapply der_eq; [|apply (dacos (fun y => cap_q2 rho r (r - y)) y (- (z * z) / (r * ((rho + (r - y)) * (rho + (r - y))))));
    [apply (sq_range_lt _ _ S Q)|]].
  - rewrite Q, sqrt_square by lra. field; lra.
  - unfold cap_q2. auto_derive; [apply Rmult_integral_contrapositive_currified; lra|].
    replace (z * z) with (rho * rho - r * r) by lra. field. lra.
Qed.
Lemma cap_vol_cont y : 0 <= y <= 2 * r -> continuous (cap_vol rho r z) y.
Proof.
  intros Hy. pose proof rho_gt. unfold cap_vol. apply cplus; [apply cminus|].
  - apply cmult; [apply cconst|]. apply cminus; [apply cplus|].
    + apply cacos; [apply (sq_range _ _ (cap_q1_sq y Hy))|]. unfold cap_q1. poly. apply Rmult_integral_contrapositive_currified; lra.
    + apply cacos; [apply (sq_range _ _ (cap_q2_sq y Hy))|]. unfold cap_q2. poly. apply Rmult_integral_contrapositive_currified; lra.
    + apply cmult; [apply cconst | apply angle_cont; assumption].
  - apply cmult; [poly|]. apply (continuous_comp (fun y => half_chord r y / z) atan y).
    + apply cmult; [apply half_chord_cont | apply cconst].
    + apply of_derive. eexists; apply is_derive_atan.
  - apply cmult; [apply cconst|]. apply cmult; [poly | apply half_chord_cont].
Qed.
Lemma cap_vol_derive y : 0 < y < 2 * r ->
  is_derive (cap_vol rho r z) y ((rho * rho - (r - y) * (r - y)) * atan (half_chord r y / z) - half_chord r y * z).
Proof.
  intros Hy. pose proof rho_gt. unfold cap_vol. pose proof (half_chord_pos r y Hy) as P. pose proof (half_chord_sq r y ltac:(lra)) as E.
  assert (Dw : is_derive (fun y => r - y) y (-1)) by (auto_derive; [auto|ring]).
  assert (Dc := half_chord_derive r y Hy).
  assert (Dp : is_derive (fun y => (r - y) * (rho * rho) - (r - y) * (r - y) * (r - y) / 3) y (- (rho * rho) + (r - y) * (r - y))) by (auto_derive; [auto|field]).
  assert (Da : is_derive (fun y => atan (half_chord r y / z)) y ((r - y) / half_chord r y / z / (1 + half_chord r y / z * (half_chord r y / z)))).
  { apply (datan (fun y => half_chord r y / z)).
    eapply der_eq; [|eapply (dmult (half_chord r) (fun _ => / z) y _ 0); [exact Dc | apply (is_derive_const (/ z) y)]]. field; lra. }
  eapply der_eq; [|apply dplus; [apply dminus; [apply dscal, dminus; [apply dplus; [apply cap_q1_derive, Hy | apply cap_q2_derive, Hy] | apply dscal, angle_derive; assumption]
     | eapply (dmult (fun y => (r - y) * (rho * rho) - (r - y) * (r - y) * (r - y) / 3)); [exact Dp | exact Da]]
     | apply dscal; eapply (dmult (fun y => r - y) (half_chord r)); [exact Dw | exact Dc]]].
  cbv beta. set (c := half_chord r y) in *. clearbody c. set (t := atan (c / z)). clearbody t.
  set (w := r - y) in *. assert (Hw : - r < w < r) by (unfold w; lra). assert (Ec : c * c = r * r - w * w) by (unfold w; nra). clearbody w.
  replace (w / c / z / (1 + c / z * (c / z))) with (w * z / (c * (rho * rho - w * w))).
  2:{ replace (rho * rho - w * w) with (c * c + z * z) by lra. field. splits; try lra; nra. }
  assert (Hd : 0 < rho * rho - w * w) by nra.
  replace (z / (c * (rho - w)) + z / (c * (rho + w)) - z / rho * (2 + r / rho * (r / rho)) * (1 / c))
    with (z / c * (2 * rho / (rho * rho - w * w) - (2 * (rho * rho) + r * r) / (rho * rho * rho))).
  2:{ field. splits; try lra; nra. }
  apply Rmult_eq_reg_r with (3 * c * (rho * rho - w * w)); [|apply Rmult_integral_contrapositive_currified; nra].
  match goal with |- ?L = ?Rr => replace L with
    (z * (2 * (rho * rho) * (rho * rho) - (2 * (rho * rho) + r * r) * (rho * rho - w * w))
     + 3 * t * c * (rho * rho - w * w) * (rho * rho - w * w)
     - (3 * (w * (rho * rho)) - w * w * w) * (w * z) + 2 * z * (- (c * c) + w * w) * (rho * rho - w * w)) end.
  2:{ field. splits; try lra; nra. }
  replace (((rho * rho - w * w) * t - c * z) * (3 * c * (rho * rho - w * w)))
    with (3 * t * c * (rho * rho - w * w) * (rho * rho - w * w) - 3 * (c * c) * z * (rho * rho - w * w)) by ring.
  rewrite Ec. ring.
Qed.
Lemma cap_vol_0 : cap_vol rho r z 0 = 0.
Proof.
  pose proof rho_gt. unfold cap_vol, cap_q1, cap_q2, half_chord. rewrite Rminus_0_r.
  replace ((r * r - rho * r) / (r * (r - rho))) with 1 by (field; lra).
  replace ((r * r + rho * r) / (r * (r + rho))) with 1 by (field; lra).
  replace (r / r) with 1 by (field; lra). replace (0 * (2 * r - 0)) with 0 by ring. rewrite sqrt_0, acos_1.
  replace (0 / z) with 0 by (field; lra). rewrite atan_0. field. lra.
Qed.
Lemma cap_volume_int h : 0 <= h <= 2 * r ->
  is_RInt (fun y => (rho * rho - (r - y) * (r - y)) * atan (half_chord r y / z) - half_chord r y * z) 0 h (cap_vol rho r z h).
Proof.
  intros Hh. eapply is_RInt_val; [|apply (FTC (cap_vol rho r z))]; try lra.
  - rewrite cap_vol_0; ring.
  - intros; apply cap_vol_cont; lra.
  - intros y. apply cminus.
    + apply cmult; [poly|]. apply (continuous_comp (fun y => half_chord r y / z) atan y).
      * apply cmult; [apply half_chord_cont | apply cconst].
      * apply of_derive. eexists; apply is_derive_atan.
    + apply cmult; [apply half_chord_cont | apply cconst].
  - intros; apply cap_vol_derive; lra.
Qed.
Lemma cap_volume h : 0 <= h <= 2 * r -> head_volume (cap_depth rho r) r h (cap_vol rho r z h).
Proof.
  intros Hh. eexists; split; [|apply cap_volume_int, Hh]. intros y Hy. apply cap_section; auto; lra.
Qed.
End cap.
