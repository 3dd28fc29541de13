(** Volumes of heads on a horizontal vessel as iterated integrals. *)
From Coq Require Import Reals Lra Psatz.
From Coquelicot Require Import Coquelicot.
From Verif Require Import Base Model_Real Proofs_Real Spec_Geometry Proofs_Geometry.
Open Scope R_scope.

Lemma ratio_range c rho : 0 < rho -> - rho <= c <= rho -> -1 <= c / rho <= 1.
Proof.
  intros H1 H2. split; apply Rmult_le_reg_r with rho; try assumption; replace (c / rho * rho) with c by (field; lra); lra.
Qed.
Lemma ratio_range_lt c rho : 0 < rho -> - rho < c < rho -> -1 < c / rho < 1.
Proof.
  intros H1 H2. split; apply Rmult_lt_reg_r with rho; try assumption; replace (c / rho * rho) with c by (field; lra); lra.
Qed.
Lemma ratio_sin c rho : 0 < rho -> - rho <= c <= rho -> sqrt (1 - c / rho * (c / rho)) = sqrt (rho * rho - c * c) / rho.
Proof.
  intros H1 H2. assert (0 <= rho * rho - c * c) by nra. pose proof (sqrt_pos (rho * rho - c * c)).
  apply sqrt_lem_1.
  - replace (1 - c / rho * (c / rho)) with ((rho * rho - c * c) / (rho * rho)) by (field; lra). apply Rdiv_le_0_compat; nra.
  - apply Rdiv_le_0_compat; lra.
  - replace (sqrt (rho * rho - c * c) / rho * (sqrt (rho * rho - c * c) / rho))
      with (sqrt (rho * rho - c * c) * sqrt (rho * rho - c * c) / (rho * rho)) by (field; lra).
    rewrite sqrt_sqrt by assumption. field; lra.
Qed.

(** a strip of a disc *)
Lemma disc_strip rho c : 0 < rho -> 0 <= c <= rho ->
  is_RInt (fun x => sqrt (rho * rho - x * x)) (- c) c (c * sqrt (rho * rho - c * c) + rho * rho * asin (c / rho)).
Proof.
  intros Hr Hc.
  set (F x := / 2 * (x * sqrt (rho * rho - x * x) + rho * rho * asin (x / rho))).
  eapply is_RInt_val; [|apply (FTC F)]; try lra.
  - unfold F. replace (- c / rho) with (- (c / rho)) by (field; lra). rewrite asin_opp.
    replace (- c * - c) with (c * c) by ring. field.
  - intros x Hx. unfold F. apply cmult; [apply cconst|]. apply cplus; apply cmult.
    + poly. + apply sqrt_of_cont; poly. + apply cconst. + apply casin; [apply ratio_range; lra | poly; lra].
  - intros x. apply sqrt_of_cont; poly.
  - intros x Hx. unfold F. assert (Hq : 0 < rho * rho - x * x) by nra. pose proof (sqrt_lt_R0 _ Hq) as Hs.
    pose proof (sqrt_sqrt _ (Rlt_le _ _ Hq)) as E.
    eapply der_eq; [|apply dscal, dplus;
      [apply (dmult (fun x => x) _ x 1); [auto_derive; auto | apply (dsqrt (fun x => rho * rho - x * x) x (- 2 * x)); [exact Hq | auto_derive; [auto|ring]]]
      | apply dscal, (dasin (fun x => x / rho) x (/ rho)); [apply ratio_range_lt; lra | auto_derive; [auto | field; lra]]]].
    rewrite ratio_sin by lra. set (s := sqrt (rho * rho - x * x)) in *. clearbody s.
    replace (rho * rho) with (s * s + x * x) by lra.
    replace (/ rho / (s / rho)) with (/ s) by (field; lra). field; lra.
Qed.

(** a strip under the graph of the distance from a point *)
Lemma sq_ln_cont : continuous (fun w => w * w * ln (Rabs w)) 0.
Proof.
  apply continuity_pt_filterlim. intros eps He. exists (Rmin eps 1).
  split; [apply Rmin_glb_lt; lra|]. intros w [_ Hw]. unfold dist in *; simpl in *. unfold R_dist in *.
  rewrite Rabs_R0. replace (0 * 0 * ln 0) with 0 by ring. rewrite Rminus_0_r in *.
  assert (H1 : Rabs w < eps) by (eapply Rlt_le_trans; [exact Hw | apply Rmin_l]).
  assert (H2 : Rabs w < 1) by (eapply Rlt_le_trans; [exact Hw | apply Rmin_r]).
  destruct (Req_dec w 0) as [->|N]. { replace (0 * 0 * ln (Rabs 0)) with 0 by ring. rewrite Rabs_R0; lra. }
  pose proof (Rabs_pos_lt w N) as Hp.
  replace (w * w) with (Rabs w * Rabs w) by (rewrite <- Rabs_mult, Rabs_right; [ring | nra]).
  set (t := Rabs w) in *.
  assert (L0 : ln t < 0) by (rewrite <- ln_1; apply ln_increasing; lra).
  assert (L1 : - ln t <= / t).
  { rewrite <- ln_Rinv by assumption. pose proof (exp_ineq1 (/ t) ltac:(apply Rinv_neq_0_compat; lra)) as E.
    pose proof (Rinv_0_lt_compat _ Hp).
    apply Rlt_le. rewrite <- (ln_exp (/ t)) at 2. apply ln_increasing; lra. }
  assert (T2 : 0 < t * t) by nra. rewrite Rabs_left by nra.
  assert (t * t * - ln t <= t * t * / t) by (apply Rmult_le_compat_l; nra).
  replace (t * t * / t) with t in H by (field; lra). nra.
Qed.
Lemma sq_ln_cont_all x : continuous (fun w => w * w * ln (Rabs w)) x.
Proof.
  destruct (Req_dec x 0) as [->|N]; [apply sq_ln_cont|].
  apply cmult; [poly|]. apply (continuous_comp Rabs ln x).
  - apply continuous_Rabs.
  - apply of_derive. eexists. apply is_derive_Reals, derivable_pt_lim_ln, Rabs_pos_lt, N.
Qed.
Lemma ln_abs_derive w : w <> 0 -> is_derive (fun w => ln (Rabs w)) w (/ w).
Proof.
  intros N. destruct (Rlt_dec 0 w) as [H|H].
  - apply (is_derive_ext_loc ln).
    + exists (mkposreal w H). intros y Hy. unfold ball in Hy; simpl in Hy. unfold AbsRing_ball, abs, minus, plus, opp in Hy; simpl in Hy.
      apply Rabs_def2 in Hy. rewrite Rabs_right by lra. reflexivity.
    + apply is_derive_Reals, derivable_pt_lim_ln, H.
  - assert (H' : 0 < - w) by lra. apply (is_derive_ext_loc (fun w => ln (- w))).
    + exists (mkposreal (- w) H'). intros y Hy. unfold ball in Hy; simpl in Hy. unfold AbsRing_ball, abs, minus, plus, opp in Hy; simpl in Hy.
      apply Rabs_def2 in Hy. rewrite Rabs_left by lra. reflexivity.
    + auto_derive; [lra | field; lra].
Qed.

Lemma hyp_strip w c : 0 <= c -> is_RInt (fun x => sqrt (x * x + w * w)) (- c) c
  (c * sqrt (c * c + w * w) + (w * w * ln (c + sqrt (c * c + w * w)) - w * w * ln (Rabs w))).
Proof.
  intros Hc. destruct (Req_dec w 0) as [->|N].
  - replace (c * c + 0 * 0) with (c * c) by ring. rewrite sqrt_square by assumption.
    replace (c * c + _) with (c * c / 2 + c * c / 2) by (rewrite Rabs_R0; field).
    apply RInt_join with 0.
    + apply (RInt_ext (fun x => - x)); [lra | |].
      { intros x Hx. replace (x * x + 0 * 0) with (- x * - x) by ring. rewrite sqrt_square by lra. reflexivity. }
      eapply is_RInt_val; [|apply (FTC (fun x => - x * x / 2))]; try lra.
      * intros; poly. * intros; poly. * intros; auto_derive; [auto|field].
    + apply (RInt_ext (fun x => x)); [lra | |].
      { intros x Hx. replace (x * x + 0 * 0) with (x * x) by ring. rewrite sqrt_square by lra. reflexivity. }
      eapply is_RInt_val; [|apply (FTC (fun x => x * x / 2))]; try lra.
      * intros; poly. * intros; poly. * intros; auto_derive; [auto|field].
  - assert (Hw : 0 < w * w) by nra.
    assert (P : forall x, 0 < x * x + w * w) by (intros; nra).
    assert (Q : forall x, 0 < x + sqrt (x * x + w * w)).
    { intros x. pose proof (sqrt_lt_1 (x * x) (x * x + w * w) ltac:(nra) ltac:(nra) ltac:(nra)) as H.
      rewrite <- (Rabs_right (x * x)) in H at 1 by nra. rewrite Rabs_mult, sqrt_square in H by apply Rabs_pos.
      pose proof (Rle_abs (- x)). rewrite Rabs_Ropp in H0. lra. }
    set (F x := / 2 * (x * sqrt (x * x + w * w) + w * w * ln (x + sqrt (x * x + w * w)))).
    assert (D : forall x, is_derive F x (sqrt (x * x + w * w))).
    { intros x. unfold F. specialize (P x); specialize (Q x). pose proof (sqrt_lt_R0 _ P).
      pose proof (sqrt_sqrt _ (Rlt_le _ _ P)) as E.
      assert (DS : is_derive (fun x => sqrt (x * x + w * w)) x (x / sqrt (x * x + w * w))).
      { eapply der_eq; [|apply (dsqrt (fun x => x * x + w * w) x (2 * x)); [exact P | auto_derive; [auto|ring]]]. field; lra. }
      eapply der_eq; [|apply dscal, dplus;
        [apply (dmult (fun x => x) _ x 1); [auto_derive; auto | exact DS]
        | apply dscal, (dln (fun x => x + sqrt (x * x + w * w)) x (1 + x / sqrt (x * x + w * w)));
          [exact Q | apply (dplus (fun x => x) _ x 1); [auto_derive; auto | exact DS]]]].
      set (s := sqrt (x * x + w * w)) in *. clearbody s.
      replace ((1 + x / s) / (x + s)) with (/ s) by (field; lra).
      apply Rmult_eq_reg_r with s; [|lra]. replace (/ 2 * (1 * s + x * (x / s) + w * w * / s) * s) with (/ 2 * (s * s + x * x + w * w)) by (field; lra). lra. }
    eapply is_RInt_val; [|apply (FTC F)]; try lra.
    + unfold F. replace (- c * - c) with (c * c) by ring.
      pose proof (Q c) as Qc. pose proof (Q (- c)) as Qm. replace (- c * - c) with (c * c) in Qm by ring.
      pose proof (sqrt_sqrt _ (Rlt_le _ _ (P c))) as E.
      set (s := sqrt (c * c + w * w)) in *. clearbody s.
      assert (L : ln (- c + s) = ln (Rabs w) + ln (Rabs w) - ln (c + s)).
      { pose proof (Rabs_pos_lt w N). rewrite <- ln_mult by assumption.
        replace (Rabs w * Rabs w) with (w * w) by (rewrite <- Rabs_mult, Rabs_right; [ring | nra]).
        replace (w * w) with ((- c + s) * (c + s)) by nra. rewrite ln_mult by assumption. ring. }
      rewrite L. field.
    + intros x _. apply of_derive. eexists; apply D.
    + intros x. apply sqrt_of_cont; poly.
    + intros x _. apply D.
Qed.

(** ** Ellipsoidal head *)
Lemma chord_le r y : 0 < r -> 0 <= y <= 2 * r -> half_chord r y <= r.
Proof.
  intros Hr Hy. pose proof (half_chord_sq r y Hy). pose proof (half_chord_nonneg r y).
  apply Rsqr_incr_0_var; [|lra]. pose proof (Rle_0_sqr (r - y)). unfold Rsqr in *. lra.
Qed.
Lemma ellipsoid_section r a y : 0 < r -> 0 <= y <= 2 * r ->
  section_area (ellipsoid_depth r a) r y (PI * a / (2 * r) * (y * (2 * r - y))).
Proof.
  intros Hr Hy. unfold section_area, ellipsoid_depth. pose proof (half_chord_sq r y Hy) as E. pose proof (half_chord_nonneg r y) as P.
  set (c := half_chord r y) in *. clearbody c. rewrite <- E.
  destruct (Req_dec c 0) as [->|N].
  { replace (PI * a / (2 * r) * (0 * 0)) with 0 by ring. replace (- 0) with 0 by ring. apply RInt_empty. }
  assert (Pc : 0 < c) by lra.
  apply (RInt_ext (fun x => a / r * sqrt (c * c - x * x))); [lra | |].
  - intros x Hx. replace (1 - (x * x + (r - y) * (r - y)) / (r * r)) with ((c * c - x * x) / (r * r)) by (rewrite E; field; lra).
    rewrite sqrt_div_alt by nra. rewrite sqrt_square by lra. field; lra.
  - eapply is_RInt_val; [|apply RInt_scale, (disc_strip c c); lra].
    replace (c * c - c * c) with 0 by ring. rewrite sqrt_0. replace (c / c) with 1 by (field; lra). rewrite asin_1. field; lra.
Qed.
Lemma ellipsoid_volume r a h : 0 < r -> 0 <= h <= 2 * r ->
  head_volume (ellipsoid_depth r a) r h (PI * a * h * h * (1 - h / (3 * r)) / 2).
Proof.
  intros Hr Hh. exists (fun y => PI * a / (2 * r) * (y * (2 * r - y))). split.
  - intros y Hy. apply ellipsoid_section; lra.
  - unfold volume_below. eapply is_RInt_val; [|apply (FTC (fun h => PI * a * h * h * (1 - h / (3 * r)) / 2))]; try lra.
    + intros; poly; lra.
    + intros; poly; lra.
    + intros; auto_derive; [lra | field; lra].
Qed.

(** ** Conical head *)
Lemma cone_section r a y : 0 < r -> 0 <= y <= 2 * r ->
  section_area (cone_depth r a) r y
    (a * (half_chord r y - ((r - y) * (r - y) * ln (r + half_chord r y) - (r - y) * (r - y) * ln (Rabs (r - y))) / r)).
Proof.
  intros Hr Hy. unfold section_area, cone_depth. pose proof (half_chord_sq r y Hy) as E. pose proof (half_chord_nonneg r y) as P.
  set (c := half_chord r y) in *. clearbody c.
  pose proof (hyp_strip (r - y) c P) as I.
  assert (Er : sqrt (c * c + (r - y) * (r - y)) = r) by (rewrite E; replace (y * (2 * r - y) + (r - y) * (r - y)) with (r * r) by ring; apply sqrt_square; lra).
  rewrite Er in I.
  eapply is_RInt_val; [|apply RInt_scale, RInt_minus'; [apply RInt_const' | ]].
  2:{ apply (RInt_ext (fun x => / r * sqrt (x * x + (r - y) * (r - y)))); [lra | intros; field; lra|]. apply RInt_scale, I. }
  rewrite (Rplus_comm c r). field; lra.
Qed.

Definition cone_vol (r a y : R) : R :=
  a / 3 * (r * r * acos ((r - y) / r) - 2 * ((r - y) * half_chord r y)
           + (r - y) / r * ((r - y) * (r - y) * ln (r + half_chord r y) - (r - y) * (r - y) * ln (Rabs (r - y)))).
Lemma cone_log_cont r y : 0 < r -> continuous (fun y => (r - y) * (r - y) * ln (r + half_chord r y) - (r - y) * (r - y) * ln (Rabs (r - y))) y.
Proof.
  intros Hr. apply cminus.
  - apply cmult; [poly|]. apply (continuous_comp (fun y => r + half_chord r y) ln y).
    + apply cplus; [apply cconst | apply half_chord_cont].
    + apply of_derive. eexists. apply is_derive_Reals, derivable_pt_lim_ln. pose proof (half_chord_nonneg r y); lra.
  - apply (continuous_comp (fun y => r - y) (fun w => w * w * ln (Rabs w)) y); [poly | apply sq_ln_cont_all].
Qed.
Lemma cone_vol_cont r a y : 0 < r -> 0 <= y <= 2 * r -> continuous (cone_vol r a) y.
Proof.
  intros Hr Hy. unfold cone_vol. apply cmult; [apply cconst|]. apply cplus; [apply cminus|].
  - apply cmult; [apply cconst | apply angle_cont; assumption].
  - apply cmult; [apply cconst|]. apply cmult; [poly | apply half_chord_cont].
  - apply cmult; [poly; lra | apply cone_log_cont, Hr].
Qed.
Lemma cone_vol_derive r a y : 0 < r -> 0 < y < 2 * r -> y <> r -> is_derive (cone_vol r a) y
  (a * (half_chord r y - ((r - y) * (r - y) * ln (r + half_chord r y) - (r - y) * (r - y) * ln (Rabs (r - y))) / r)).
Proof.
  intros Hr Hy N. unfold cone_vol. pose proof (half_chord_pos r y Hy) as P. pose proof (half_chord_sq r y ltac:(lra)) as E.
  assert (Dw : is_derive (fun y => r - y) y (-1)) by (auto_derive; [auto|ring]).
  assert (Dc := half_chord_derive r y Hy).
  assert (D2 : is_derive (fun y => (r - y) * (r - y)) y (- 2 * (r - y))) by (auto_derive; [auto|ring]).
  assert (D3 : is_derive (fun y => (r - y) / r) y (- 1 / r)) by (auto_derive; [auto|field; lra]).
  assert (Dl : is_derive (fun y => ln (r + half_chord r y)) y ((r - y) / half_chord r y / (r + half_chord r y))).
  { apply (dln (fun y => r + half_chord r y)); [lra|].
    eapply der_eq; [|eapply (dplus (fun _ => r) (half_chord r) y 0); [apply (is_derive_const r y) | exact Dc]]. ring. }
  assert (Da : is_derive (fun y => ln (Rabs (r - y))) y (- / (r - y))).
  { eapply der_eq; [|apply (is_derive_comp (fun w => ln (Rabs w)) (fun y => r - y) y (/ (r - y)) (-1)); [apply ln_abs_derive; lra | exact Dw]].
    unfold scal; simpl; unfold mult; simpl. ring. }
  eapply der_eq; [|apply dscal, dplus; [apply dminus; [apply dscal, angle_derive; assumption | apply dscal, (dmult (fun y => r - y) (half_chord r) y _ _ Dw Dc)]
     | eapply (dmult (fun y => (r - y) / r)); [exact D3 | apply dminus; [eapply (dmult (fun y => (r - y) * (r - y))); [exact D2 | exact Dl] | eapply (dmult (fun y => (r - y) * (r - y))); [exact D2 | exact Da]]]]].
  cbv beta. set (c := half_chord r y) in *. clearbody c. set (l1 := ln (r + c)). set (l2 := ln (Rabs (r - y))). clearbody l1 l2.
  assert (Hrc : r * r = c * c + (r - y) * (r - y)) by nra.
  set (w := r - y) in *. assert (w <> 0) by (unfold w; lra). clearbody w.
  replace (w * w * (w / c / (r + c))) with (w * w * w / (c * (r + c))) by (field; lra).
  apply Rmult_eq_reg_r with (3 * r * c * (r + c)); [|repeat apply Rmult_integral_contrapositive_currified; lra].
  field_simplify; [|lra|lra].
  assert (Hw2 : w ^ 2 = r ^ 2 - c ^ 2) by (simpl; nra).
  assert (Hw4 : w ^ 4 = (r ^ 2 - c ^ 2) ^ 2) by (rewrite <- Hw2; ring).
  rewrite ?Hw4, ?Hw2. ring.
Qed.
Lemma cone_vol_0 r a : 0 < r -> cone_vol r a 0 = 0.
Proof.
  intros Hr. unfold cone_vol, half_chord. replace ((r - 0) / r) with 1 by (field; lra). rewrite acos_1.
  replace (0 * (2 * r - 0)) with 0 by ring. rewrite sqrt_0, Rabs_right by lra. rewrite Rplus_0_r, Rminus_0_r. field.
Qed.
Lemma cone_volume r a h : 0 < r -> 0 <= h <= 2 * r -> head_volume (cone_depth r a) r h (cone_vol r a h).
Proof.
  intros Hr Hh. eexists; split; [intros y Hy; apply cone_section; lra|]. unfold volume_below.
  set (S y := a * (half_chord r y - ((r - y) * (r - y) * ln (r + half_chord r y) - (r - y) * (r - y) * ln (Rabs (r - y))) / r)).
  change (is_RInt S 0 h (cone_vol r a h)).
  assert (CS : forall y, continuous S y).
  { intros y. unfold S. apply cmult; [apply cconst|]. apply cminus; [apply half_chord_cont|].
    apply cmult; [apply cone_log_cont, Hr | apply cconst]. }
  assert (I : forall c d, 0 <= c <= d -> d <= 2 * r -> (d <= r \/ r <= c) -> is_RInt S c d (cone_vol r a d - cone_vol r a c)).
  { intros c d Hc Hd Hs. apply (FTC (cone_vol r a)); [lra | | apply CS |].
    - intros; apply cone_vol_cont; lra.
    - intros x Hx. apply cone_vol_derive; lra. }
  pose proof (cone_vol_0 r a Hr).
  destruct (Rle_dec h r) as [H1|H1].
  - eapply is_RInt_val; [|apply (I 0 h); lra]. lra.
  - eapply is_RInt_val; [|apply (RInt_join S 0 r h _ _ (I 0 r ltac:(lra) ltac:(lra) ltac:(lra)) (I r h ltac:(lra) ltac:(lra) ltac:(lra)))]. lra.
Qed.

(** ** Guppy head *)
Lemma guppy_section r a y : 0 < r -> 0 <= y <= 2 * r ->
  section_area (guppy_depth r a) r y (2 * a / (3 * r) * (y * half_chord r y)).
Proof.
  intros Hr Hy. unfold section_area, guppy_depth. pose proof (half_chord_sq r y Hy) as E. pose proof (half_chord_nonneg r y) as P.
  destruct (Req_dec y (2 * r)) as [->|N].
  { assert (half_chord r (2 * r) = 0) as ->.
    { unfold half_chord. replace (2 * r * (2 * r - 2 * r)) with 0 by ring. apply sqrt_0. }
    replace (2 * a / (3 * r) * (2 * r * 0)) with 0 by ring. replace (- 0) with 0 by ring. apply RInt_empty. }
  set (c := half_chord r y) in *. clearbody c.
  set (u := 2 * r - y). assert (Hu : 0 < u) by (unfold u; lra).
  eapply is_RInt_val; [|apply (FTC (fun x => a * (x - (x * x * x / 3 + x * (u * u)) / (2 * r * u))))]; try lra.
  - fold u in E. assert (Hy' : y = 2 * r - u) by (unfold u; ring). clearbody u. rewrite Hy' in *. clear Hy'.
    apply Rmult_eq_reg_r with (3 * r * u); [|apply Rmult_integral_contrapositive_currified; lra].
    field_simplify; [|lra|lra]. replace (c ^ 3) with (c * (c * c)) by ring.
    rewrite E. field.
  - intros; poly; lra.
  - intros; poly; lra.
  - intros; auto_derive; [lra | field; lra].
Qed.
Definition guppy_vol (r a y : R) : R :=
  a * (r * r) / 3 * acos ((r - y) / r) + a / (9 * r) * (half_chord r y * ((2 * y - 3 * r) * (y + r))).
Lemma guppy_volume r a h : 0 < r -> 0 <= h <= 2 * r -> head_volume (guppy_depth r a) r h (guppy_vol r a h).
Proof.
  intros Hr Hh. eexists; split; [intros y Hy; apply guppy_section; lra|]. unfold volume_below.
  eapply is_RInt_val; [|apply (FTC (guppy_vol r a))]; try lra.
  - unfold guppy_vol, half_chord at 2. replace ((r - 0) / r) with 1 by (field; lra). rewrite acos_1.
    replace (0 * (2 * r - 0)) with 0 by ring. rewrite sqrt_0. ring.
  - intros y Hy. unfold guppy_vol. apply cplus; (apply cmult; [apply cconst|]); [apply angle_cont; lra | apply cmult; [apply half_chord_cont | poly]].
  - intros y. apply cmult; [apply cconst|]. apply cmult; [poly | apply half_chord_cont].
  - intros y Hy. assert (Hy' : 0 < y < 2 * r) by lra. unfold guppy_vol.
    pose proof (half_chord_pos r y Hy') as P. pose proof (half_chord_sq r y ltac:(lra)) as E.
    eapply der_eq; [|apply dplus; [apply dscal, angle_derive; assumption | apply dscal;
      apply (dmult (half_chord r) (fun y => (2 * y - 3 * r) * (y + r)) y ((r - y) / half_chord r y) (4 * y - r)); [apply half_chord_derive, Hy' | auto_derive; [auto|ring]]]].
    cbv beta. set (c := half_chord r y) in *. clearbody c.
    apply Rmult_eq_reg_r with (9 * r * c); [|apply Rmult_integral_contrapositive_currified; lra].
    field_simplify; [|lra|lra]. replace (c ^ 2) with (y * (2 * r - y)) by (rewrite <- E; ring). 
    field.
Qed.
