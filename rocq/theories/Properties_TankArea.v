(** Wetted areas of vertical heads and of a whole tank (C113). *)
From Coq Require Import Reals Lra Psatz List Bool String.
From Coquelicot Require Import Coquelicot.
From Verif Require Import Base Model_Real Model_Geometry Proofs_Real Spec_Geometry Proofs_Geometry Proofs_Geometry2 Proofs_Geometry3 Properties_Geometry Properties_Geometry2 Model_TankArea.
Open Scope R_scope.

(** [A] is the area, up to height [h], of the surface swept by the curve with radius [r y] at height [y] about the vertical axis;
    the curve may have finitely many corners. *)
Definition swept_area (r : R -> R) (h A : R) : Prop :=
  exists (corners : list R) (r' : R -> R), (forall y, 0 < y < h -> ~ In y corners -> is_derive r y (r' y)) /\
    is_RInt (fun y => 2 * PI * (r y * sqrt (1 + r' y * r' y))) 0 h A.

Lemma swept_by (r r' e : R -> R) h A : 0 <= h -> (forall y, 0 < y < h -> is_derive r y (r' y)) ->
  (forall y, 0 < y < h -> r y * sqrt (1 + r' y * r' y) = e y) -> is_RInt (fun y => 2 * PI * e y) 0 h A -> swept_area r h A.
Proof. intros Hh Hd He HI. exists nil, r'. split; [auto|]. apply (RInt_ext (fun y => 2 * PI * e y)); [exact Hh| |exact HI]. intros y Hy. rewrite (He y Hy). reflexivity. Qed.

(** the wetted part of a cone *)
Lemma cone_swept R_ a h : 0 < R_ -> 0 < a -> 0 <= h -> swept_area (fun y => R_ * y / a) h (PI * R_ * h * h * sqrt (a * a + R_ * R_) / (a * a)).
Proof.
  intros HR Ha Hh. set (s := sqrt (a * a + R_ * R_)).
  apply (swept_by _ (fun _ => R_ / a) (fun y => R_ * s / (a * a) * y)); [exact Hh| | |].
  - intros y _. auto_derive; [lra|field; lra].
  - intros y _. replace (1 + R_ / a * (R_ / a)) with ((a * a + R_ * R_) / (a * a)) by (field; lra).
    rewrite sqrt_div_alt by nra. rewrite sqrt_square by lra. fold s. field. lra.
  - eapply is_RInt_val; [|apply (FTC (fun y => PI * R_ * s / (a * a) * (y * y)))]; try lra.
    + intros; poly.
    + intros; poly.
    + intros. auto_derive; [lra|field; lra].
Qed.
(** the wetted part of a sphere *)
Lemma sphere_swept rho h : 0 < rho -> 0 <= h <= 2 * rho -> swept_area (fun y => sqrt (y * (2 * rho - y))) h (2 * PI * rho * h).
Proof.
  intros Hr Hh. apply (swept_by _ (fun y => (rho - y) / half_chord rho y) (fun _ => rho)); [lra| | |].
  - intros y Hy. apply half_chord_derive. lra.
  - intros y Hy. pose proof (half_chord_pos rho y ltac:(lra)) as HP. pose proof (half_chord_sq rho y ltac:(lra)) as HS. fold (half_chord rho y).
    replace (1 + (rho - y) / half_chord rho y * ((rho - y) / half_chord rho y)) with (rho * rho / (half_chord rho y * half_chord rho y)).
    + rewrite sqrt_div_alt by nra. rewrite !sqrt_square by lra. field. lra.
    + replace (rho * rho) with (half_chord rho y * half_chord rho y + (rho - y) * (rho - y)) by (rewrite HS; ring). field. lra.
  - eapply is_RInt_val; [|apply RInt_const']. ring.
Qed.

Ltac headcase a h := rewrite (proj2 (Reqb_false a 0)) by lra; let E := fresh "EL" in destruct (Rleb h 0) eqn:E; [apply Rleb_true in E | apply Rleb_false in E].

Theorem C113_conical_head : forall D a h, 0 < D -> 0 < a -> 
  exists A, SA_partial_vertical_conical_head D a h = Ok A /\ swept_area (fun y => D / 2 * y / a) (clamp 0 a h) A.
Proof.
  intros D a h HD Ha. unfold SA_partial_vertical_conical_head, clamp. headcase a h.
  - eexists; split; [reflexivity|]. rewrite Rmin_right, Rmax_left by lra. pose proof (cone_swept (D / 2) a 0 ltac:(lra) Ha ltac:(lra)) as C. replace 0 with (PI * (D / 2) * 0 * 0 * sqrt (a * a + D / 2 * (D / 2)) / (a * a)) at 2 by (field; lra). exact C.
  - assert (E : 0.5 * D = D / 2) by (lits; field). rcase; rewrite psqrt_ok by (rewrite E; nra); cbn [bind]; rewrite pdiv_ok by nra; eexists; (split; [reflexivity|]); rewrite E.
    + rewrite Rmin_left, Rmax_right by lra. apply cone_swept; lra.
    + rewrite Rmin_right, Rmax_right by lra. apply cone_swept; lra.
Qed.
Theorem C113_spherical_head : forall D a h, 0 < D -> 0 < a -> let rho := (a * a + D / 2 * (D / 2)) / (2 * a) in
  exists A, SA_partial_vertical_spherical_head D a h = Ok A /\ swept_area (fun y => sqrt (y * (2 * rho - y))) (clamp 0 a h) A.
Proof.
  intros D a h HD Ha rho. unfold SA_partial_vertical_spherical_head, clamp.
  assert (E : 0.5 * D = D / 2) by (lits; field). assert (Hrho : 0 < rho) by (unfold rho; apply Rdiv_lt_0_compat; nra).
  assert (Hle : a <= 2 * rho). { apply (Rmult_le_reg_r a); [lra|]. unfold rho. replace (2 * ((a * a + D / 2 * (D / 2)) / (2 * a)) * a) with (a * a + D / 2 * (D / 2)) by (field; lra). nra. }
  headcase a h.
  - eexists; split; [reflexivity|]. rewrite Rmin_right, Rmax_left by lra. pose proof (sphere_swept rho 0 Hrho ltac:(lra)) as C. replace 0 with (2 * PI * rho * 0) at 2 by ring. exact C.
  - rcase; rewrite pdiv_ok by lra; cbn [bind]; eexists; (split; [reflexivity|]); rewrite E.
    + rewrite Rmin_left, Rmax_right by lra. replace (PI * a * ((a * a + D / 2 * (D / 2)) / a)) with (2 * PI * rho * a) by (unfold rho; field; lra). apply sphere_swept; lra.
    + rewrite Rmin_right, Rmax_right by lra. replace (PI * h * ((a * a + D / 2 * (D / 2)) / a)) with (2 * PI * rho * h) by (unfold rho; field; lra). apply sphere_swept; lra.
Qed.

Section Tori.
Context (D f k : R) (HD : 0 < D) (Hk : 0 < k <= 1 / 2) (Hf : 1 / 2 <= f) (Hfk : k < f).
Let al := tori_alpha f k.
Let a1 := tori_a1 D f k.
Let a := tori_a D f k.
Let q := k * D.
Let c := D * (1 / 2 - k).
Definition tori_r (y : R) : R := if Rlt_dec y (tori_a1 D f k) then half_chord (f * D) y else D * (1 / 2 - k) + sqrt (k * D * (k * D) - (tori_a D f k - y) * (tori_a D f k - y)).
Let s y := sqrt (q * q - (a - y) * (a - y)).
Let r' y := if Rlt_dec y a1 then (f * D - y) / half_chord (f * D) y else (a - y) / s y.
Lemma qpos : 0 < q. Proof. unfold q. apply Rmult_lt_0_compat; lra. Qed.
Lemma a_gap : a - a1 = q * cos al. Proof. unfold a, tori_a, q. fold a1 al. ring. Qed.
Lemma gap_le : a - a1 <= q. Proof. rewrite a_gap. pose proof (COS_bound al). pose proof qpos. nra. Qed.
Lemma a1_le : a1 <= f * D. Proof. unfold a1, tori_a1. fold al. pose proof (tori_cos f k Hk Hf Hfk) as H. fold al in H. assert (0 < f * D) by (apply Rmult_lt_0_compat; lra). nra. Qed.
Lemma s_pos y : a1 < y <= a -> 0 < s y.
Proof. intros Hy. pose proof gap_le. pose proof qpos. unfold s. apply sqrt_lt_R0. nra. Qed.
Lemma s_sq y : a1 <= y <= a -> s y * s y = q * q - (a - y) * (a - y).
Proof. intros Hy. pose proof gap_le. pose proof qpos. unfold s. apply sqrt_sqrt. nra. Qed.
Lemma r_derive y : 0 < y < a -> y <> a1 -> is_derive tori_r y (r' y).
Proof.
  intros Hy N. pose proof a1_le. assert (0 < f * D) by (apply Rmult_lt_0_compat; lra). unfold r'. destruct (Rlt_dec y a1) as [L|L].
  - apply (is_derive_ext_loc (half_chord (f * D))); [|apply half_chord_derive; lra].
    exists (mkposreal (a1 - y) ltac:(lra)). intros z Hz. unfold ball, AbsRing_ball, abs, minus, plus, opp in Hz; simpl in Hz; unfold AbsRing_ball, abs, minus, plus, opp in Hz; simpl in Hz. apply Rabs_def2 in Hz. unfold tori_r. fold a1. destruct (Rlt_dec z a1); [reflexivity|lra].
  - apply (is_derive_ext_loc (fun y => c + s y)).
    + exists (mkposreal (y - a1) ltac:(lra)). intros z Hz. unfold ball, AbsRing_ball, abs, minus, plus, opp in Hz; simpl in Hz; unfold AbsRing_ball, abs, minus, plus, opp in Hz; simpl in Hz. apply Rabs_def2 in Hz. unfold tori_r. fold a1. destruct (Rlt_dec z a1); [lra|]. fold a c q. reflexivity.
    + pose proof (s_pos y ltac:(lra)) as SP. assert (0 < q * q - (a - y) * (a - y)) by (rewrite <- s_sq by lra; nra).
      eapply der_eq; [|apply (dplus (fun _ => c) s y 0); [auto_derive; [auto|ring]|apply (dsqrt (fun y => q * q - (a - y) * (a - y)) y (2 * (a - y))); [assumption|auto_derive; [auto|ring]]]].
      fold (s y). field. lra.
Qed.
Lemma dish_el y : 0 < y < a1 -> tori_r y * sqrt (1 + r' y * r' y) = f * D.
Proof.
  intros Hy. pose proof a1_le. assert (Hp : 0 < f * D) by (apply Rmult_lt_0_compat; lra). unfold tori_r, r'. fold a1. destruct (Rlt_dec y a1); [|lra].
  pose proof (half_chord_pos (f * D) y ltac:(lra)) as HP. pose proof (half_chord_sq (f * D) y ltac:(lra)) as HS. set (rho := f * D) in *.
  replace (1 + (rho - y) / half_chord rho y * ((rho - y) / half_chord rho y)) with (rho * rho / (half_chord rho y * half_chord rho y)).
  - rewrite sqrt_div_alt by nra. rewrite !sqrt_square by lra. field. lra.
  - replace (rho * rho) with (half_chord rho y * half_chord rho y + (rho - y) * (rho - y)) by (rewrite HS; ring). field. lra.
Qed.
Lemma knuckle_el y : a1 < y <= a -> tori_r y * sqrt (1 + r' y * r' y) = q * (c * / s y + 1).
Proof.
  intros Hy. pose proof (s_pos y Hy) as SP. pose proof (s_sq y ltac:(lra)) as SS. pose proof qpos. unfold tori_r, r'. fold a1 a c q. fold (s y). destruct (Rlt_dec y a1); [lra|].
  replace (1 + (a - y) / s y * ((a - y) / s y)) with (q * q / (s y * s y)).
  - rewrite sqrt_div_alt by nra. rewrite !sqrt_square by lra. field. lra.
  - replace (q * q) with (s y * s y + (a - y) * (a - y)) by (rewrite SS; ring). field. lra.
Qed.
Let F y := q * (y - c * asin ((a - y) / q)).
Lemma knuckle_area h : a1 <= h <= a -> is_RInt (fun y => q * (c * / s y + 1)) a1 h (F h - F a1).
Proof.
  intros Hh. pose proof qpos as Hq. destruct (Req_dec c 0) as [C0|C0].
  - eapply is_RInt_val; [|apply (RInt_ext (fun _ => q)); [lra| |apply RInt_const']].
    + unfold F. rewrite C0. ring.
    + intros y _. rewrite C0. ring.
  - assert (G : a - a1 < q).
    { rewrite a_gap. pose proof (tori_sin f k Hk Hf Hfk) as HS. pose proof (tori_sin_pos f k Hk Hf Hfk) as SP. pose proof (tori_sc f k) as SC. pose proof (COS_bound al) as CB. fold al in HS, SP, SC.
      assert (sin al <> 0) by (intro Z; apply C0; unfold c; rewrite Z in HS; rewrite <- HS; ring). assert (0 < sin al * sin al) by nra. assert (cos al < 1) by nra. nra. }
    assert (SP : forall y, a1 <= y <= a -> 0 < s y) by (intros y Hy; unfold s; apply sqrt_lt_R0; nra).
    apply (@is_RInt_derive R_CompleteNormedModule F).
    + intros y Hy. rewrite Rmin_left, Rmax_right in Hy by lra. pose proof (SP y ltac:(lra)) as S1.
      assert (HR : -1 < (a - y) / q < 1) by (apply ratio_range_lt; lra).
      unfold F. eapply der_eq; [|apply dscal, dminus; [apply (is_derive_id y)|apply dscal, (dasin (fun y => (a - y) / q) y (- / q)); [exact HR|auto_derive; [lra|field; lra]]]].
      rewrite ratio_sin by lra. fold (s y). unfold one; simpl. field. lra.
    + intros y Hy. rewrite Rmin_left, Rmax_right in Hy by lra. pose proof (SP y ltac:(lra)) as S1.
      apply cmult; [apply cconst|]. apply cplus; [|apply cconst]. apply cmult; [apply cconst|].
      apply (continuous_comp s Rinv); [unfold s; apply sqrt_of_cont; poly|]. apply of_derive. auto_derive. lra.
Qed.
Lemma tori_swept h : 0 <= h <= a -> swept_area tori_r h (if Rlt_dec h a1 then 2 * PI * (f * D) * h else 2 * PI * (f * D) * a1 + 2 * PI * (F h - F a1)).
Proof.
  intros Hh. pose proof (tori_a1_nonneg D f k HD Hf) as A0. fold a1 in A0. exists (a1 :: nil)%list, r'. split.
  - intros y Hy N. apply r_derive; [lra|]. intro E. apply N. left. congruence.
  - assert (Dish : forall t, 0 <= t <= a1 -> is_RInt (fun y => 2 * PI * (tori_r y * sqrt (1 + r' y * r' y))) 0 t (2 * PI * (f * D) * t)).
    { intros t Ht. apply (RInt_ext (fun _ => 2 * PI * (f * D))); [lra| |].
      - intros y Hy. rewrite dish_el by lra. reflexivity.
      - eapply is_RInt_val; [|apply RInt_const']. ring. }
    destruct (Rlt_dec h a1); [apply Dish; lra|]. apply RInt_join with a1; [apply Dish; lra|].
    apply (RInt_ext (fun y => 2 * PI * (q * (c * / s y + 1)))); [lra| |].
    + intros y Hy. rewrite knuckle_el by lra. reflexivity.
    + apply RInt_scale, knuckle_area. lra.
Qed.
End Tori.

Theorem C113_torispherical_head : forall D f k h, 0 < D -> 0 < k <= 1 / 2 -> 1 / 2 <= f -> k < f ->
  exists A, SA_partial_vertical_torispherical_head D f k h = Ok A /\ swept_area (tori_r D f k) (clamp 0 (tori_a D f k) h) A.
Proof.
  intros D f k h HD Hk Hf Hfk. unfold SA_partial_vertical_torispherical_head, clamp.
  pose proof (tori_ratio f k Hk Hf Hfk) as HR. pose proof (tori_a1_nonneg D f k HD Hf) as HA1. pose proof (tori_a_ge D f k HD Hk Hf Hfk) as HA2.
  pose proof (gap_le D f k HD Hk) as G. pose proof (qpos D k HD Hk) as Q. pose proof (tori_swept D f k HD Hk Hf Hfk) as T. cbv zeta in G, Q.
  destruct (Rleb h 0) eqn:EL; [apply Rleb_true in EL | apply Rleb_false in EL].
  - eexists; split; [reflexivity|]. rewrite Rmin_right, Rmax_left by lra. specialize (T 0 ltac:(lra)).
    destruct (Rlt_dec 0 (tori_a1 D f k)); [replace 0 with (2 * PI * (f * D) * 0) at 2 by ring; exact T|]. assert (E0 : tori_a1 D f k = 0) by lra. rewrite E0 in T.
    replace 0 with (2 * PI * (f * D) * 0 + 2 * PI * (k * D * (0 - D * (1 / 2 - k) * asin ((tori_a D f k - 0) / (k * D))) - k * D * (0 - D * (1 / 2 - k) * asin ((tori_a D f k - 0) / (k * D))))) at 2 by ring. exact T.
  - rewrite pdiv_ok by lra. cbn [bind]. replace ((1 - 2 * k) / (2 * (f - k))) with ((1 / 2 - k) / (f - k)) by (field; lra).
    rewrite pasin_ok by lra. cbn [bind]. cbv zeta. fold (tori_alpha f k). fold (tori_a1 D f k). fold (tori_a D f k).
    assert (C : exists h', (if Rltb (tori_a D f k) h then Ok (tori_a D f k) else Ok h) = Ok h' /\ h' = Rmax 0 (Rmin (tori_a D f k) h)).
    { destruct (Rltb (tori_a D f k) h) eqn:E; [apply Rltb_true in E | apply Rltb_false in E]; eexists; (split; [reflexivity|]).
      - rewrite Rmin_left, Rmax_right by lra. reflexivity.
      - rewrite Rmin_right, Rmax_right by lra. reflexivity. }
    destruct C as [h' [-> EH]]. cbn [bind]. rewrite <- EH.
    assert (Hh : 0 <= h' <= tori_a D f k) by (rewrite EH; split; [apply Rmax_l|apply Rmax_lub; [lra|apply Rmin_l]]).
    specialize (T h' Hh). destruct (Rlt_dec h' (tori_a1 D f k)) as [L|L].
    + rewrite (proj2 (Rltb_true _ _) L). eexists; split; [reflexivity|]. replace (2 * PI * f * D * h') with (2 * PI * (f * D) * h') by ring. exact T.
    + rewrite (proj2 (Rltb_false _ _)) by lra. rewrite (proj2 (Rleb_true (tori_a1 D f k) h')) by lra. rewrite (proj2 (Rleb_true h' (tori_a D f k))) by lra. cbn [andb].
      rewrite pdiv_ok by lra. cbn [bind].
      assert (E1 : k * D * cos (tori_alpha f k) = tori_a D f k - tori_a1 D f k) by (unfold tori_a; ring). rewrite E1.
      assert (E2 : forall x, x * (1 / (k * D)) = x / (k * D)) by (intros; field; nra). rewrite !E2.
      rewrite pasin_ok by (apply ratio_range; lra). cbn [bind]. rewrite pasin_ok by (apply ratio_range; lra). cbn [bind].
      eexists; split; [reflexivity|]. match goal with |- swept_area _ _ ?A => match type of T with swept_area _ _ ?B => replace A with B; [exact T|] end end.
      lits. toR. field.
Qed.

(** the wetted part of an ellipsoid of revolution *)
Section Ellipsoid.
Context (R_ a : R) (HR : 0 < R_) (Ha : 0 < a).
Definition ell_r (y : R) : R := R_ * sqrt (1 - (a - y) * (a - y) / (a * a)).
Let g y := sqrt (a * a * (a * a) - (a - y) * (a - y) * (a * a - R_ * R_)).
Lemma g_arg y : 0 <= y <= a -> 0 < a * a * (a * a) - (a - y) * (a - y) * (a * a - R_ * R_).
Proof.
  intros Hy. assert (U : 0 <= (a - y) * (a - y) <= a * a) by nra. assert (0 < R_ * R_) by nra. assert (0 < a * a) by nra. assert (0 < a * a * (R_ * R_)) by (apply Rmult_lt_0_compat; assumption).
  set (u := (a - y) * (a - y)) in *. clearbody u. set (A := a * a) in *. set (B := R_ * R_) in *. clearbody A B.
  destruct (Rle_dec (A - B) 0); [assert (u * (A - B) <= 0) by nra; nra|]. assert (u * (A - B) <= A * (A - B)) by nra. nra.
Qed.
Lemma g_pos y : 0 <= y <= a -> 0 < g y. Proof. intros. apply sqrt_lt_R0, g_arg. assumption. Qed.
Lemma g_sq y : 0 <= y <= a -> g y * g y = a * a * (a * a) - (a - y) * (a - y) * (a * a - R_ * R_).
Proof. intros. apply sqrt_sqrt. left. apply g_arg. assumption. Qed.
Lemma g_cont y : continuous g y. Proof. unfold g. apply sqrt_of_cont. poly. Qed.
Lemma g_derive y : 0 <= y <= a -> is_derive g y ((a - y) * (a * a - R_ * R_) / g y).
Proof.
  intros Hy. pose proof (g_pos y Hy) as G. eapply der_eq; [|apply (dsqrt (fun y => a * a * (a * a) - (a - y) * (a - y) * (a * a - R_ * R_)) y (2 * (a - y) * (a * a - R_ * R_))); [apply g_arg; assumption|auto_derive; [auto|ring]]].
  fold (g y). field. lra.
Qed.
Lemma g_0 : g 0 = a * R_.
Proof. unfold g. replace (a * a * (a * a) - (a - 0) * (a - 0) * (a * a - R_ * R_)) with (a * R_ * (a * R_)) by ring. apply sqrt_square. nra. Qed.
(** the common part of the antiderivatives *)
Let P y := PI * R_ * R_ - PI * (a - y) * R_ * g y / (a * a).
Lemma P_derive y : 0 <= y <= a -> is_derive P y (PI * R_ / (a * a) * (g y - (a - y) * (a - y) * (a * a - R_ * R_) / g y)).
Proof.
  intros Hy. pose proof (g_pos y Hy) as G. unfold P.
  eapply der_eq; [|apply (dminus (fun _ => PI * R_ * R_) (fun y => PI * (a - y) * R_ * g y / (a * a)) y 0); [auto_derive; [auto|ring]|]].
  2:{ assert (X : forall t, PI * R_ / (a * a) * ((a - t) * g t) = PI * (a - t) * R_ * g t / (a * a)) by (intros; field; lra). apply (is_derive_ext (fun y => PI * R_ / (a * a) * ((a - y) * g y)) _ _ _ X). apply dscal, (dmult (fun y => a - y) g y (-1)); [auto_derive; [auto|ring]|apply g_derive, Hy]. }
  field. lra.
Qed.
Lemma P_0 : P 0 = 0. Proof. unfold P. rewrite g_0. field. lra. Qed.
Lemma ell_swept h A (Q : R -> R) : 0 <= h <= a -> Q 0 = 0 -> (forall y, 0 <= y <= a -> is_derive Q y (PI * (a * a) * R_ / g y)) -> A = P h + Q h -> swept_area ell_r h A.
Proof.
  intros Hh Q0 HQ ->. apply (swept_by _ (fun y => R_ * (a - y) / (a * a) / sqrt (1 - (a - y) * (a - y) / (a * a))) (fun y => R_ / (a * a) * g y)); [lra| | |].
  - intros y Hy. assert (W : 0 < 1 - (a - y) * (a - y) / (a * a)).
    { replace (1 - (a - y) * (a - y) / (a * a)) with (y * (2 * a - y) / (a * a)) by (field; lra). apply Rdiv_lt_0_compat; nra. }
    pose proof (sqrt_lt_R0 _ W). unfold ell_r. eapply der_eq; [|apply dscal, (dsqrt (fun y => 1 - (a - y) * (a - y) / (a * a)) y (2 * (a - y) / (a * a))); [exact W|auto_derive; [nra|field; lra]]]. field. lra.
  - intros y Hy. assert (W : 0 < 1 - (a - y) * (a - y) / (a * a)).
    { replace (1 - (a - y) * (a - y) / (a * a)) with (y * (2 * a - y) / (a * a)) by (field; lra). apply Rdiv_lt_0_compat; nra. }
    pose proof (sqrt_lt_R0 _ W) as W1. pose proof (sqrt_sqrt _ (Rlt_le _ _ W)) as W2. unfold ell_r. set (w := sqrt (1 - (a - y) * (a - y) / (a * a))) in *.
    pose proof (g_pos y ltac:(lra)) as G. pose proof (g_sq y ltac:(lra)) as G2.
    replace (1 + R_ * (a - y) / (a * a) / w * (R_ * (a - y) / (a * a) / w)) with (g y * g y / (a * a * w * (a * a * w))).
    + rewrite sqrt_div_alt by (assert (0 < a * a * w) by (apply Rmult_lt_0_compat; nra); nra). rewrite !sqrt_square by (try apply Rmult_le_pos; nra). field. lra.
    + rewrite G2. replace (a * a * (a * a) - (a - y) * (a - y) * (a * a - R_ * R_)) with (a * a * (a * a) * (w * w) + (a - y) * (a - y) * (R_ * R_)) by (rewrite W2; field; lra). field. lra.
  - eapply is_RInt_val; [|apply (FTC (fun y => P y + Q y))]; try lra.
    + rewrite P_0, Q0. ring.
    + intros y Hy. apply cplus; apply of_derive; eexists; [apply P_derive; lra|apply HQ; lra].
    + intros y. apply cmult; [apply cconst|]. apply cmult; [apply cconst|apply g_cont].
    + intros y Hy. pose proof (g_pos y ltac:(lra)) as G. pose proof (g_sq y ltac:(lra)) as G2. eapply der_eq; [|apply dplus; [apply P_derive; lra|apply HQ; lra]].
      apply (Rmult_eq_reg_r (g y * (a * a))); [|assert (0 < g y * (a * a)) by (apply Rmult_lt_0_compat; nra); lra]. transitivity (PI * R_ * (g y * g y + (a * a * (a * a) - (a - y) * (a - y) * (a * a - R_ * R_)))); [field; lra|]. rewrite <- G2. field. lra.
Qed.
Lemma ell_tall h : R_ < a -> 0 <= h <= a -> let c := sqrt (a * a - R_ * R_) in
  swept_area ell_r h (P h + PI * (a * a) * R_ / c * (acos (R_ / a) - asin ((a - h) * c / (a * a)))).
Proof.
  intros HT Hh c. assert (C0 : 0 < a * a - R_ * R_) by nra. assert (C1 : 0 < c) by (apply sqrt_lt_R0; exact C0). assert (C2 : c * c = a * a - R_ * R_) by (apply sqrt_sqrt; lra).
  assert (C3 : c < a) by nra.
  apply (ell_swept h _ (fun y => PI * (a * a) * R_ / c * (acos (R_ / a) - asin ((a - y) * c / (a * a))))); [exact Hh| | |reflexivity].
  - assert (HX : -1 <= R_ / a <= 1) by (apply ratio_range; lra). assert (HX0 : 0 <= R_ / a) by (apply Rlt_le, Rdiv_lt_0_compat; lra).
    replace ((a - 0) * c / (a * a)) with (sin (acos (R_ / a))).
    + rewrite asin_sin; [ring|]. pose proof (acos_bound (R_ / a)). split; [lra|]. destruct (Rle_dec (acos (R_ / a)) (PI / 2)); [assumption|]. exfalso.
      assert (cos (acos (R_ / a)) < 0) by (apply cos_lt_0; pose proof PI_RGT_0; lra). rewrite cos_acos in H0 by exact HX. lra.
    + rewrite sin_acos by exact HX. unfold Rsqr. rewrite ratio_sin by lra. fold c. field. lra.
  - intros y Hy. pose proof (g_pos y Hy) as G. assert (RG : -1 < (a - y) * c / (a * a) < 1) by (apply ratio_range_lt; nra).
    eapply der_eq; [|apply dscal, (dminus (fun _ => acos (R_ / a)) _ y 0); [auto_derive; [auto|ring]|apply (dasin (fun y => (a - y) * c / (a * a)) y (- c / (a * a))); [exact RG|auto_derive; [nra|field; lra]]]].
    rewrite ratio_sin by nra. replace (a * a * (a * a) - (a - y) * c * ((a - y) * c)) with (a * a * (a * a) - (a - y) * (a - y) * (a * a - R_ * R_)) by (rewrite <- C2; ring). fold (g y). field. lra.
Qed.
Lemma ell_flat h : a < R_ -> 0 <= h <= a -> let x := sqrt (R_ * R_ - a * a) in
  swept_area ell_r h (P h + PI * (a * a) * R_ / x * ln (a * (x + R_) / ((a - h) * x + g h))).
Proof.
  intros HT Hh x. assert (C0 : 0 < R_ * R_ - a * a) by nra. assert (C1 : 0 < x) by (apply sqrt_lt_R0; exact C0). assert (C2 : x * x = R_ * R_ - a * a) by (apply sqrt_sqrt; lra).
  apply (ell_swept h _ (fun y => PI * (a * a) * R_ / x * ln (a * (x + R_) / ((a - y) * x + g y)))); [exact Hh| | |reflexivity].
  - rewrite g_0. assert (0 < a * (x + R_)) by (apply Rmult_lt_0_compat; lra). replace (a * (x + R_) / ((a - 0) * x + a * R_)) with 1 by (replace ((a - 0) * x + a * R_) with (a * (x + R_)) by ring; field; lra). rewrite ln_1. ring.
  - intros y Hy. pose proof (g_pos y Hy) as G. assert (DP : 0 < (a - y) * x + g y) by nra.
    assert (NP : 0 < a * (x + R_)) by nra.
    apply (is_derive_ext_loc (fun y => PI * (a * a) * R_ / x * (ln (a * (x + R_)) - ln ((a - y) * x + g y)))).
    + assert (HC : continuous (fun y => (a - y) * x + g y) y) by (apply cplus; [poly|apply g_cont]).
      pose proof (HC (fun v => 0 < v) (open_gt 0 _ DP)) as L. unfold filtermap in L. eapply filter_imp; [|exact L]. intros z Hz. cbv beta in Hz. rewrite ln_div by assumption. reflexivity.
    + eapply der_eq; [|apply dscal, (dminus (fun _ => ln (a * (x + R_))) _ y 0); [auto_derive; [auto|ring]|apply (dln (fun y => (a - y) * x + g y) y (- x + (a - y) * (a * a - R_ * R_) / g y)); [exact DP|apply dplus; [auto_derive; [auto|ring]|apply g_derive, Hy]]]].
      replace (a * a - R_ * R_) with (- (x * x)) by (rewrite C2; ring). field. repeat split; lra.
Qed.
Lemma ell_round h : a = R_ -> 0 <= h <= a -> swept_area ell_r h (2 * PI * R_ * h).
Proof.
  intros E Hh. assert (G : forall y, g y = a * a) by (intros y; unfold g; rewrite E, Rminus_eq_0, Rmult_0_r, Rminus_0_r; apply sqrt_square; nra).
  apply (ell_swept h _ (fun y => PI * R_ * y)); [exact Hh|ring| |].
  - intros y Hy. rewrite G. auto_derive; [auto|field; lra].
  - unfold P. rewrite G, E. field. lra.
Qed.
End Ellipsoid.

Lemma ell_tail D_ a h : 0 < D_ -> 0 < a -> 0 < h <= a -> exists A, (let R_ := (0.5 * D_) in
  let SA := ((PI * R_) * R_) in
  let a2 := (a * a) in
  a_inv <- pdiv 1 a ;;
  let R2 := (R_ * R_) in
  t14 <- psqrt ((a2 * a2) - (((a - h) * (a - h)) * (a2 - R2))) ;;
  let SA := (SA - (((((PI * (a - h)) * R_) * t14) * a_inv) * a_inv)) in
  if (Rltb R_ a) then t15 <- psqrt (a2 - R2) ;;
  t16 <- pdiv ((PI * a2) * R_) t15 ;;
  t17 <- pacos (R_ * a_inv) ;;
  t18 <- psqrt (a2 - R2) ;;
  t19 <- pasin ((((a - h) * t18) * a_inv) * a_inv) ;;
  let SA := (SA + (t16 * (t17 - t19))) in
  Ok SA
  else if (Reqb a R_) then Ok ((PI * D_) * h)
  else x1 <- psqrt (R2 - a2) ;;
  let num := (a * (x1 + R_)) in
  t21 <- psqrt ((a2 * a2) + (((a - h) * (a - h)) * (R2 - a2))) ;;
  let den := (((a - h) * x1) + t21) in
  t22 <- pdiv ((PI * a2) * R_) x1 ;;
  t23 <- pdiv num den ;;
  t24 <- plog t23 ;;
  let SA := (SA + (t22 * t24)) in
  Ok SA) = Ok A /\ swept_area (ell_r (D_ / 2) a) h A.
Proof.
  intros HD Ha Hh. assert (E : 0.5 * D_ = D_ / 2) by (lits; field). cbv zeta. rewrite E. set (R_ := D_ / 2). assert (HR : 0 < R_) by (unfold R_; lra).
  pose proof (g_arg R_ a HR Ha h ltac:(lra)) as GA. cbv zeta in GA.
  rewrite pdiv_ok by lra. cbn [bind]. rewrite psqrt_ok by lra. cbn [bind].
  assert (I : forall x, x * (1 / a) = x / a) by (intros; field; lra). rewrite !I.
  assert (I2 : forall x, x / a / a = x / (a * a)) by (intros; field; lra). rewrite !I2.
  destruct (Rltb R_ a) eqn:E1; [apply Rltb_true in E1|apply Rltb_false in E1].
  - assert (C0 : 0 < a * a - R_ * R_) by nra. rewrite psqrt_ok by lra. cbn [bind]. assert (C1 : 0 < sqrt (a * a - R_ * R_)) by (apply sqrt_lt_R0; exact C0). assert (C2 : sqrt (a * a - R_ * R_) * sqrt (a * a - R_ * R_) = a * a - R_ * R_) by (apply sqrt_sqrt; lra).
    rewrite pdiv_ok by lra. cbn [bind]. rewrite pacos_ok by (apply ratio_range; lra). cbn [bind].
    rewrite !I, I2. rewrite pasin_ok by (apply ratio_range; nra). cbn [bind]. eexists; split; [reflexivity|]. exact (ell_tall R_ a HR Ha h E1 ltac:(lra)).
  - destruct (Reqb a R_) eqn:E2; [apply Reqb_true in E2|apply Reqb_false in E2].
    + eexists; split; [reflexivity|]. replace (PI * D_ * h) with (2 * PI * R_ * h) by (unfold R_; field). apply ell_round; lra.
    + assert (HL : a < R_) by lra. assert (C0 : 0 < R_ * R_ - a * a) by nra. rewrite psqrt_ok by lra. cbn [bind]. assert (C1 : 0 < sqrt (R_ * R_ - a * a)) by (apply sqrt_lt_R0; exact C0).
      replace (a * a * (a * a) + (a - h) * (a - h) * (R_ * R_ - a * a)) with (a * a * (a * a) - (a - h) * (a - h) * (a * a - R_ * R_)) by ring.
      rewrite psqrt_ok by lra. cbn [bind]. rewrite pdiv_ok by lra. cbn [bind]. pose proof (sqrt_lt_R0 _ GA) as G.
      assert (DP : 0 < (a - h) * sqrt (R_ * R_ - a * a) + sqrt (a * a * (a * a) - (a - h) * (a - h) * (a * a - R_ * R_))) by nra.
      rewrite pdiv_ok by lra. cbn [bind]. rewrite plog_ok by (apply Rdiv_lt_0_compat; nra). cbn [bind]. eexists; split; [reflexivity|]. exact (ell_flat R_ a HR Ha h HL ltac:(lra)).
Qed.
Theorem C113_ellipsoidal_head : forall D a h, 0 < D -> 0 < a ->
  exists A, SA_partial_vertical_ellipsoidal_head D a h = Ok A /\ swept_area (fun y => D / 2 * sqrt (1 - (a - y) * (a - y) / (a * a))) (clamp 0 a h) A.
Proof.
  intros D a h HD Ha. unfold SA_partial_vertical_ellipsoidal_head, clamp. headcase a h.
  - eexists; split; [reflexivity|]. rewrite Rmin_right, Rmax_left by lra. exists nil, (fun _ => 0). split; [intros; lra|apply RInt_empty].
  - destruct (Rltb a h) eqn:E; [apply Rltb_true in E|apply Rltb_false in E].
    + rewrite Rmin_left, Rmax_right by lra. apply (ell_tail D a a); lra.
    + rewrite Rmin_right, Rmax_right by lra. apply (ell_tail D a h); lra.
Qed.

(** ** Whole tanks *)
(** a head: flat, or one of the four shapes with its depth *)
Definition head_ok (D : R) (side : option string) (a : R) (f k : option R) : Prop :=
  match side with
  | None => a = 0
  | Some s => 0 < a /\ (s = "conical" \/ s = "ellipsoidal" \/ s = "spherical" \/
      s = "torispherical" /\ exists f' k', f = Some f' /\ k = Some k' /\ 0 < k' <= 1 / 2 /\ 1 / 2 <= f' /\ k' < f' /\ a = tori_a D f' k')%string
  end.
(** the radius of a head at height [y] above its tip *)
Definition profile (D : R) (side : option string) (a : R) (f k : option R) (y : R) : R :=
  match side, f, k with
  | Some "conical"%string, _, _ => D / 2 * y / a
  | Some "ellipsoidal"%string, _, _ => D / 2 * sqrt (1 - (a - y) * (a - y) / (a * a))
  | Some "spherical"%string, _, _ => sqrt (y * (2 * ((a * a + D / 2 * (D / 2)) / (2 * a)) - y))
  | Some "torispherical"%string, Some f, Some k => tori_r D f k y
  | _, _, _ => 0
  end.
Lemma vertical_head D s a f k h : 0 < D -> head_ok D (Some s) a f k ->
  exists A, SA_vertical_head D (Some s) a f k h = Ok A /\ swept_area (profile D (Some s) a f k) (clamp 0 a h) A.
Proof.
  intros HD [Ha [->|[->|[->|[-> (f' & k' & -> & -> & Hk & Hf & Hfk & ->)]]]]]; unfold SA_vertical_head; cbn [is_kind String.eqb Ascii.eqb Bool.eqb].
  - apply C113_conical_head; assumption.
  - apply C113_ellipsoidal_head; assumption.
  - apply C113_spherical_head; assumption.
  - apply C113_torispherical_head; assumption.
Qed.
Lemma head_ok_known D s a f k : head_ok D s a f k -> head_known s = true.
Proof. destruct s as [s|]; [|reflexivity]. intros [_ [->|[->|[->|[-> _]]]]]; reflexivity. Qed.
Lemma head_ok_depth D s a f k : head_ok D s a f k -> 0 <= a.
Proof. destruct s; simpl; intros; lra. Qed.
Lemma profile_nonneg D s a f k y : 0 < D -> head_ok D (Some s) a f k -> 0 <= y -> 0 <= profile D (Some s) a f k y.
Proof.
  intros HD [Ha [->|[->|[->|[-> (f' & k' & -> & -> & Hk & Hf & Hfk & ->)]]]]] Hy; cbn [profile].
  - apply Rmult_le_pos; [apply Rmult_le_pos; lra|apply Rlt_le, Rinv_0_lt_compat, Ha].
  - apply Rmult_le_pos; [lra|apply sqrt_pos].
  - apply sqrt_pos.
  - unfold tori_r. destruct (Rlt_dec y _); [apply half_chord_nonneg|]. apply Rplus_le_le_0_compat; [apply Rmult_le_pos; lra|apply sqrt_pos].
Qed.

Theorem C113_vertical_tank : forall ell gup sph tor D L sA sB aA aB fA kA fB kB h, 0 < D -> 0 <= L -> head_ok D sA aA fA kA -> head_ok D sB aB fB kB ->
  exists bottom full dry, let level := Rmin (L + aA + aB) h in
    SA_from_h ell gup sph tor h D L false sA sB aA aB fA kA fB kB =
      Ok (bottom + PI * D * clamp 0 L (level - aA) + (if Rle_dec (aA + L) level then full - dry else 0)) /\
    (if sA then swept_area (profile D sA aA fA kA) (clamp 0 aA level) bottom else bottom = PI * (D / 2) ^ 2) /\
    (if sB then swept_area (profile D sB aB fB kB) aB full /\ swept_area (profile D sB aB fB kB) (clamp 0 aB (L + aA + aB - level)) dry else full = PI * (D / 2) ^ 2 /\ dry = 0).
Proof.
  intros ell gup sph tor D L sA sB aA aB fA kA fB kB h HD HL OA OB.
  pose proof (head_ok_depth _ _ _ _ _ OA) as dA. pose proof (head_ok_depth _ _ _ _ _ OB) as dB.
  unfold SA_from_h. rewrite (head_ok_known _ _ _ _ _ OA), (head_ok_known _ _ _ _ _ OB). cbn [negb]. cbv zeta.
  assert (EL : (if Rltb (L + aA + aB) h then L + aA + aB else h) = Rmin (L + aA + aB) h).
  { destruct (Rltb (L + aA + aB) h) eqn:E; [apply Rltb_true in E; rewrite Rmin_left by lra | apply Rltb_false in E; rewrite Rmin_right by lra]; reflexivity. }
  rewrite EL. set (lv := Rmin (L + aA + aB) h). assert (HV : lv <= L + aA + aB) by apply Rmin_l. clearbody lv. clear EL h.
  assert (Flat : 0.25 * PI * D * D = PI * (D / 2) ^ 2) by (lits; field).
  assert (B : exists bottom, SA_bottom D sA aA fA kA lv = Ok bottom /\ (if sA then swept_area (profile D sA aA fA kA) (clamp 0 aA lv) bottom else bottom = PI * (D / 2) ^ 2)).
  { unfold SA_bottom. destruct sA as [s|]; [|eexists; split; [reflexivity|exact Flat]].
    assert (NG : String.eqb s "guppy" = false) by (destruct OA as [_ [->|[->|[->|[-> _]]]]]; reflexivity). rewrite NG.
    destruct (vertical_head D s aA fA kA (Rmin aA lv) HD OA) as [A [EA SA]]. exists A. split; [exact EA|].
    replace (clamp 0 aA lv) with (clamp 0 aA (Rmin aA lv)); [exact SA|]. unfold clamp. f_equal. destruct (Rle_dec aA lv); [rewrite (Rmin_left aA lv) by lra; apply Rmin_left; lra | rewrite (Rmin_right aA lv) by lra; apply Rmin_right; lra]. }
  destruct B as [bottom [EB SB]]. rewrite EB. cbn [bind].
  assert (T : exists full dry, (aA + L <= lv -> SA_top D sB aB fB kB (aB - (lv - aA - L)) (Reqb lv (aA + L)) = Ok (full - dry)) /\
     (if sB then swept_area (profile D sB aB fB kB) aB full /\ swept_area (profile D sB aB fB kB) (clamp 0 aB (L + aA + aB - lv)) dry else full = PI * (D / 2) ^ 2 /\ dry = 0)).
  { unfold SA_top. destruct sB as [s|].
    - assert (NG : String.eqb s "guppy" = false) by (destruct OB as [_ [->|[->|[->|[-> _]]]]]; reflexivity). rewrite NG.
      assert (PB : 0 < aB) by (destruct OB; assumption). rewrite (proj2 (Reqb_false aB 0)) by lra.
      destruct (vertical_head D s aB fB kB aB HD OB) as [A [EA SA]]. destruct (vertical_head D s aB fB kB (aB - (lv - aA - L)) HD OB) as [A2 [EA2 SA2]].
      exists A, A2. split.
      + intros Hl. rewrite EA. cbn [bind]. rewrite EA2. cbn [bind]. do 2 f_equal. destruct (String.eqb s "torispherical"); [|reflexivity]. apply Rmax_right.
        destruct SA2 as (l & r' & _ & I). assert (H0 : 0 <= clamp 0 aB (aB - (lv - aA - L))) by (apply Rmax_l).
        eapply (is_RInt_le (fun _ => 0)); [exact H0| |exact I|].
        * eapply is_RInt_val; [|apply RInt_const']. ring.
        * intros y Hy. apply Rmult_le_pos; [pose proof PI_RGT_0; lra|]. apply Rmult_le_pos; [|apply sqrt_pos].
          apply profile_nonneg; [exact HD|exact OB|lra].
      + split; [replace aB with (clamp 0 aB aB) at 2 by (unfold clamp; rewrite Rmin_left, Rmax_right by lra; reflexivity); exact SA|].
        replace (L + aA + aB - lv) with (aB - (lv - aA - L)) by ring. exact SA2.
    - simpl in OB. exists (PI * (D / 2) ^ 2), 0. split; [|split; reflexivity]. intros Hl. rewrite (proj2 (Reqb_true _ _)) by lra. rewrite Flat. f_equal. ring. }
  destruct T as (full & dry & ET & ST). exists bottom, full, dry. split; [|split; assumption].
  destruct (Rle_dec (aA + L) lv) as [G|G].
  - rewrite (proj2 (Rleb_true _ _) G). rewrite (ET G). cbn [bind]. do 3 f_equal. unfold clamp. rewrite Rmin_left, Rmax_right by lra. reflexivity.
  - rewrite (proj2 (Rleb_false _ _)) by lra. destruct (Rltb aA lv) eqn:E; [apply Rltb_true in E | apply Rltb_false in E]; f_equal; unfold clamp.
    + rewrite Rmin_right, Rmax_right by lra. ring.
    + rewrite Rmin_right, Rmax_left by lra. ring.
Qed.

(** ** A full tank *)
Ltac htop a := rewrite (proj2 (Reqb_false a 0)) by lra; rewrite (proj2 (Rleb_false a 0)) by lra; rewrite (proj2 (Rltb_false a a)) by lra.
Lemma cone_full D a : 0 < D -> 0 < a -> SA_partial_vertical_conical_head D a a = SA_conical_head D a.
Proof.
  intros HD Ha. unfold SA_partial_vertical_conical_head, SA_conical_head. htop a. assert (E : a * a + 0.5 * D * (0.5 * D) = a * a + 0.25 * D * D) by (lits; field). cbv zeta. rewrite E.
  assert (0 < a * a + 0.25 * D * D) by (lits; nra). rewrite psqrt_ok by lra. cbn [bind]. rewrite pdiv_ok by nra. f_equal. lits. toR. field. lra.
Qed.
Lemma sphere_full D a : 0 < D -> 0 < a -> SA_partial_vertical_spherical_head D a a = Ok (PI * (a * a + 0.25 * D * D)).
Proof. intros HD Ha. unfold SA_partial_vertical_spherical_head. htop a. rewrite pdiv_ok by lra. cbn [bind]. f_equal. lits. toR. field. lra. Qed.
Lemma ellipsoid_full D a : 0 < D -> 0 < a -> SA_partial_vertical_ellipsoidal_head D a a = SA_ellipsoidal_head D a.
Proof.
  intros HD Ha. assert (E : 0.5 * D = D / 2) by (lits; field). unfold SA_partial_vertical_ellipsoidal_head, SA_ellipsoidal_head. htop a. cbv zeta. rewrite E. set (R_ := D / 2). assert (HR : 0 < R_) by (unfold R_; lra).
  replace (a - a) with 0 by ring. rewrite pdiv_ok by lra. cbn [bind].
  rewrite psqrt_ok by nra. cbn [bind]. replace (a * a * (a * a) - 0 * 0 * (a * a - R_ * R_)) with (a * a * (a * a)) by ring. rewrite sqrt_square by nra.
  destruct (Rltb R_ a) eqn:E1; [apply Rltb_true in E1|apply Rltb_false in E1].
  - rewrite (proj2 (Reqb_false D (a * 2))) by (unfold R_ in E1; lra). rewrite (proj2 (Rltb_false a R_)) by lra. rewrite psqrt_ok by nra. cbn [bind].
    assert (C1 : 0 < sqrt (a * a - R_ * R_)) by (apply sqrt_lt_R0; nra). rewrite !pdiv_ok by lra. cbn [bind].
    rewrite Rabs_pos_eq by lra. rewrite pdiv_ok by lra. cbn [bind]. replace (R_ * (1 / a)) with (R_ / a) by (field; lra). rewrite pacos_ok by (apply ratio_range; lra). cbn [bind].
    replace (0 * sqrt (a * a - R_ * R_) * (1 / a) * (1 / a)) with 0 by ring. rewrite pasin_ok by lra. cbn [bind]. rewrite asin_0. f_equal. field. lra.
  - destruct (Reqb a R_) eqn:E2; [apply Reqb_true in E2|apply Reqb_false in E2].
    + rewrite (proj2 (Reqb_true D (a * 2))) by (rewrite E2; unfold R_; field). f_equal. rewrite E2. unfold R_. lits. toR. field.
    + assert (HL : a < R_) by lra. rewrite (proj2 (Reqb_false D (a * 2))) by (unfold R_ in HL; lra). rewrite (proj2 (Rltb_true a R_)) by lra. rewrite (Rmin_right R_ a) by lra. rewrite (Rmax_left R_ a) by lra.
      assert (C0 : 0 < R_ * R_ - a * a) by nra. rewrite psqrt_ok by lra. cbn [bind]. set (x := sqrt (R_ * R_ - a * a)). assert (C1 : 0 < x) by (apply sqrt_lt_R0; exact C0). assert (C2 : x * x = R_ * R_ - a * a) by (apply sqrt_sqrt; lra). assert (C3 : x < R_) by nra.
      replace (a * a * (a * a) + 0 * 0 * (R_ * R_ - a * a)) with (a * a * (a * a)) by ring. rewrite psqrt_ok by nra. rewrite sqrt_square by nra. cbn [bind]. rewrite (pdiv_ok _ x) by lra. cbn [bind]. rewrite pdiv_ok by nra. cbn [bind].
      replace (0 * x + a * a) with (a * a) by ring. rewrite plog_ok by (apply Rdiv_lt_0_compat; nra). cbn [bind].
      rewrite (pdiv_ok _ (R_ * R_)) by nra. cbn [bind]. assert (E3 : 1 - a * a / (R_ * R_) = x / R_ * (x / R_)) by (replace (x / R_ * (x / R_)) with (x * x / (R_ * R_)) by (field; lra); rewrite C2; field; lra).
      rewrite E3. rewrite psqrt_ok by nra. rewrite sqrt_square by (apply Rlt_le, Rdiv_lt_0_compat; lra). cbn [bind]. assert (X1 : 0 < x / R_ < 1) by (split; [apply Rdiv_lt_0_compat; lra|apply (Rmult_lt_reg_r R_); [lra|]; unfold Rdiv; rewrite Rmult_assoc, Rinv_l by lra; lra]).
      rewrite (proj2 (Reqb_false (x / R_) 1)) by lra. cbn [negb]. unfold plog1p. rewrite !plog_ok by lra. cbn [bind]. rewrite pdiv_ok by lra. cbn [bind]. f_equal.
      assert (E4 : ln (1 + x / R_) - ln (1 + - (x / R_)) = 2 * ln (a * (x + R_) / (a * a))).
      { rewrite <- ln_div by lra. replace (2 * ln (a * (x + R_) / (a * a))) with (ln (a * (x + R_) / (a * a) * (a * (x + R_) / (a * a)))) by (rewrite ln_mult by (apply Rdiv_lt_0_compat; nra); ring).
        f_equal. replace (a * (x + R_) / (a * a) * (a * (x + R_) / (a * a))) with ((x + R_) * (x + R_) / (a * a)) by (field; lra). replace (a * a) with (R_ * R_ - x * x) by (rewrite C2; ring). field. repeat split; nra. }
      rewrite E4. lits. toR. field. repeat split; lra.
Qed.
Lemma tori_full D f k : 0 < D -> 0 < k <= 1 / 2 -> 1 / 2 <= f -> k < f -> 0 < tori_a D f k -> SA_partial_vertical_torispherical_head D f k (tori_a D f k) = SA_torispheroidal D f k.
Proof.
  intros HD Hk Hf Hfk Ha. unfold SA_partial_vertical_torispherical_head, SA_torispheroidal. rewrite (proj2 (Rleb_false _ 0)) by exact Ha.
  pose proof (tori_ratio f k Hk Hf Hfk) as HR. pose proof (tori_a1_nonneg D f k HD Hf) as HA1. pose proof (tori_a_ge D f k HD Hk Hf Hfk) as HA2.
  pose proof (gap_le D f k HD Hk) as G. pose proof (qpos D k HD Hk) as Q. cbv zeta in G, Q. pose proof (tori_cos f k Hk Hf Hfk) as HC. pose proof (tori_sin f k Hk Hf Hfk) as HS. pose proof (tori_sc f k) as SC.
  rewrite pdiv_ok by lra. cbn [bind]. replace ((1 - 2 * k) / (2 * (f - k))) with ((1 / 2 - k) / (f - k)) by (field; lra).
  rewrite pasin_ok by lra. cbn [bind]. cbv zeta. fold (tori_alpha f k). fold (tori_a1 D f k). fold (tori_a D f k).
  rewrite (proj2 (Rltb_false _ _)) by lra. cbn [bind]. rewrite (proj2 (Rltb_false _ _)) by lra. rewrite (proj2 (Rleb_true _ _)) by lra. rewrite (proj2 (Rleb_true _ _)) by lra. cbn [andb].
  rewrite pdiv_ok by lra. cbn [bind]. assert (E1 : k * D * cos (tori_alpha f k) * (1 / (k * D)) = cos (tori_alpha f k)) by (field; lra). rewrite E1. pose proof (COS_bound (tori_alpha f k)) as CB.
  rewrite pasin_ok by lra. cbn [bind]. replace ((tori_a D f k - tori_a D f k) * (1 / (k * D))) with 0 by ring. rewrite pasin_ok by lra. cbn [bind].
  rewrite pdiv_ok by lra. cbn [bind]. rewrite pdiv_ok by lra. cbn [bind]. assert (E2 : (0.5 - k) / (f - k) = sin (tori_alpha f k)).
  { unfold tori_alpha. rewrite sin_asin by lra. lits. toR. field. lra. }
  rewrite E2. replace (1 - sin (tori_alpha f k) * sin (tori_alpha f k)) with (cos (tori_alpha f k) * cos (tori_alpha f k)) by lra. rewrite psqrt_ok by nra. rewrite sqrt_square by exact HC. cbn [bind].
  assert (E3 : f * f - 2 * f * k + k - 0.25 = (f - k) * cos (tori_alpha f k) * ((f - k) * cos (tori_alpha f k))).
  { replace ((f - k) * cos (tori_alpha f k) * ((f - k) * cos (tori_alpha f k))) with ((f - k) * (f - k) * (1 - sin (tori_alpha f k) * sin (tori_alpha f k))) by (rewrite <- SC; ring).
    replace ((f - k) * (f - k) * (1 - sin (tori_alpha f k) * sin (tori_alpha f k))) with ((f - k) * (f - k) - (f - k) * sin (tori_alpha f k) * ((f - k) * sin (tori_alpha f k))) by ring. rewrite HS. lits. toR. field. }
  rewrite E3. rewrite psqrt_ok by nra. rewrite sqrt_square by (apply Rmult_le_pos; lra). cbn [bind]. rewrite !Rminus_eq_0, !Rmult_0_l. rewrite pasin_ok by lra. cbn [bind].
  replace ((f * (1 - cos (tori_alpha f k)) - (f - (f - k) * cos (tori_alpha f k))) * (1 / k)) with (- cos (tori_alpha f k)) by (field; lra).
  rewrite pasin_ok by lra. cbn [bind]. rewrite asin_opp, asin_0. f_equal. unfold tori_a, tori_a1. lits. toR. field.
Qed.
Lemma head_full D s a f k : 0 < D -> head_ok D (Some s) a f k -> SA_vertical_head D (Some s) a f k a = SA_tank_side D (Some s) a f k.
Proof.
  intros HD [Ha [->|[->|[->|[-> (f' & k' & -> & -> & Hk & Hf & Hfk & ->)]]]]]; unfold SA_vertical_head, SA_tank_side; cbn [is_kind String.eqb Ascii.eqb Bool.eqb].
  - apply cone_full; assumption.
  - apply ellipsoid_full; assumption.
  - apply sphere_full; assumption.
  - apply tori_full; assumption.
Qed.
Lemma head_empty D s a f k : head_ok D (Some s) a f k -> SA_vertical_head D (Some s) a f k 0 = Ok 0.
Proof.
  intros [Ha [->|[->|[->|[-> (f' & k' & -> & -> & Hk & Hf & Hfk & ->)]]]]]; unfold SA_vertical_head, SA_partial_vertical_conical_head, SA_partial_vertical_ellipsoidal_head, SA_partial_vertical_spherical_head, SA_partial_vertical_torispherical_head; cbn [is_kind String.eqb Ascii.eqb Bool.eqb];
  try rewrite (proj2 (Reqb_false a 0)) by lra; rewrite (proj2 (Rleb_true 0 0)) by lra; reflexivity.
Qed.
Theorem C113_full_tank : forall ell gup sph tor D L sA sB aA aB fA kA fB kB h, 0 < D -> 0 <= L -> head_ok D sA aA fA kA -> head_ok D sB aB fB kB -> L + aA + aB <= h ->
  exists S SA SB SL, SA_from_h ell gup sph tor h D L false sA sB aA aB fA kA fB kB = Ok S /\ SA_tank D L sA sB aA aB fA kA fB kB = Ok (S, SA, SB, SL).
Proof.
  intros ell gup sph tor D L sA sB aA aB fA kA fB kB h HD HL OA OB Hh.
  pose proof (head_ok_depth _ _ _ _ _ OA) as dA. pose proof (head_ok_depth _ _ _ _ _ OB) as dB.
  unfold SA_from_h. rewrite (head_ok_known _ _ _ _ _ OA), (head_ok_known _ _ _ _ _ OB). cbn [negb]. cbv zeta.
  assert (EL : (if Rltb (L + aA + aB) h then L + aA + aB else h) = L + aA + aB).
  { destruct (Rltb (L + aA + aB) h) eqn:E; [reflexivity|apply Rltb_false in E; lra]. }
  rewrite EL.
  assert (B : exists A, SA_bottom D sA aA fA kA (L + aA + aB) = Ok A /\ SA_tank_side D sA aA fA kA = Ok A).
  { unfold SA_bottom. destruct sA as [s|]; [|eexists; split; reflexivity].
    assert (NG : String.eqb s "guppy" = false) by (destruct OA as [_ [->|[->|[->|[-> _]]]]]; reflexivity). rewrite NG. rewrite Rmin_left by lra.
    destruct (vertical_head D s aA fA kA aA HD OA) as [A [EA _]]. exists A. rewrite <- (head_full D s aA fA kA HD OA). auto. }
  destruct B as [A [E1 E2]]. rewrite E1. cbn [bind]. rewrite (proj2 (Rleb_true (aA + L) (L + aA + aB))) by lra.
  assert (T : exists B, SA_top D sB aB fB kB (aB - (L + aA + aB - aA - L)) (Reqb (L + aA + aB) (aA + L)) = Ok B /\ SA_tank_side D sB aB fB kB = Ok B).
  { unfold SA_top. destruct sB as [s|].
    - assert (NG : String.eqb s "guppy" = false) by (destruct OB as [_ [->|[->|[->|[-> _]]]]]; reflexivity). rewrite NG.
      assert (PB : 0 < aB) by (destruct OB; assumption). rewrite (proj2 (Reqb_false aB 0)) by lra. replace (aB - (L + aA + aB - aA - L)) with 0 by ring. rewrite (head_empty D s aB fB kB OB).
      destruct (vertical_head D s aB fB kB aB HD OB) as [B [EB _]]. exists B. rewrite <- (head_full D s aB fB kB HD OB). rewrite EB. cbn [bind]. split; [|reflexivity]. f_equal. rewrite Rmax_left by lra. destruct (String.eqb s "torispherical"); ring.
    - simpl in OB. rewrite (proj2 (Reqb_true _ _)) by lra. eexists; split; reflexivity. }
  destruct T as [B [E3 E4]]. rewrite E3. cbn [bind]. unfold SA_tank. rewrite E2, E4. cbn [bind]. eexists _, _, _, _. split; [reflexivity|]. do 4 f_equal. ring.
Qed.

(** as written a guppy head of a vertical tank has no area, although SA_tank counts it *)
Theorem C113_guppy_refuted : exists D L a S S' SA SB SL, 0 < D /\ 0 < L /\ 0 < a /\
  (forall ell gup sph tor, SA_from_h ell gup sph tor (L + a + a) D L false (Some "guppy"%string) (Some "guppy"%string) a a None None None None = Ok S) /\
  SA_tank D L (Some "guppy"%string) (Some "guppy"%string) a a None None None None = Ok (S', SA, SB, SL) /\ S < S'.
Proof.
  exists 2, 3, 1, (PI * 2 * 3). eexists _, _, _, _. splits; try lra.
  - intros. unfold SA_from_h. cbn [head_known existsb String.eqb Ascii.eqb Bool.eqb orb negb]. cbv zeta. rewrite (proj2 (Rltb_false (3 + 1 + 1) (3 + 1 + 1))) by lra.
    unfold SA_bottom, SA_top. cbn [String.eqb Ascii.eqb Bool.eqb bind]. rewrite (proj2 (Rleb_true (1 + 3) (3 + 1 + 1))) by lra. cbn [bind]. f_equal. ring.
  - unfold SA_tank, SA_tank_side, SA_guppy_head. cbn [is_kind String.eqb Ascii.eqb Bool.eqb]. rewrite psqrt_ok by lra. cbn [bind]. reflexivity.
  - pose proof PI_RGT_0. pose proof (sqrt_pos (1 * 1 + 2 * 2)). lits. assert (0 <= PI * sqrt (1 * 1 + 2 * 2)) by (apply Rmult_le_pos; lra). lra.
Qed.

(** ** Horizontal tanks: both ends and the wall *)
Theorem C113_horizontal_tank : forall ell gup sph tor D L sA sB aA aB fA kA fB kB h S, 0 < D -> 0 <= L ->
  SA_from_h ell gup sph tor h D L true sA sB aA aB fA kA fB kB = Ok S ->
  0 <= h /\ exists A B W, SA_partial_cylindrical_body L D h = Ok W /\ S = A + B + W /\
    SA_horiz_head ell gup sph tor D sA aA fA kA (Rmin D h) = Ok A /\ SA_horiz_head ell gup sph tor D sB aB fB kB (Rmin D h) = Ok B.
Proof.
  intros ell gup sph tor D L sA sB aA aB fA kA fB kB h S HD HL H. unfold SA_from_h in H.
  destruct (head_known sA); [|discriminate]. destruct (head_known sB); [|discriminate]. cbn [negb] in H. cbv zeta in H.
  assert (EL : (if Rltb D h then D else h) = Rmin D h).
  { destruct (Rltb D h) eqn:E; [apply Rltb_true in E; rewrite Rmin_left by lra | apply Rltb_false in E; rewrite Rmin_right by lra]; reflexivity. }
  rewrite EL in H. inv_bind H. inv_bind H. inv_bind H. inv_bind H. injection H as <-.
  match goal with E : pdiv _ D = Ok ?t |- _ => rewrite pdiv_ok in E by lra; injection E as <- end.
  assert (HH : 0 <= h).
  { destruct (Rle_dec 0 h); [assumption|exfalso]. match goal with E : pacos _ = Ok _ |- _ => unfold pacos in E; revert E end. rewrite Rmin_right by lra.
    assert (1 < (D - h - h) / D) by (apply (Rmult_lt_reg_r D); [lra|]; unfold Rdiv; rewrite Rmult_assoc, Rinv_l by lra; lra).
    repeat rcase; simpl; intros; try discriminate; try lra. }
  split; [exact HH|]. eexists _, _, _. split; [|split; [|split; eassumption]].
  - unfold SA_partial_cylindrical_body. rewrite (proj2 (Rltb_false h 0)) by lra.
    destruct (Rltb D h) eqn:EDh; [apply Rltb_true in EDh; rewrite Rmin_left in * by lra | apply Rltb_false in EDh; rewrite Rmin_right in * by lra]; rewrite pdiv_ok by lra; cbn [bind];
    match goal with E : pacos _ = Ok _ |- _ => rewrite E end; cbn [bind]; reflexivity.
  - ring.
Qed.

(** a horizontal tank filled to the top with flat or conical ends has the area SA_tank reports; below the bottom the level is refused *)
Lemma acos_m1 : acos (-1) = PI.
Proof. replace (-1) with (- (1)) by lra. rewrite acos_opp, acos_1. ring. Qed.
Lemma horiz_side_full ell gup sph tor D side a f k : 0 < D -> 0 <= a -> side = None \/ side = Some "conical"%string ->
  exists A, SA_horiz_head ell gup sph tor D side a f k D = Ok A /\ SA_tank_side D side a f k = Ok A.
Proof.
  intros HD Ha [-> | ->]; unfold SA_horiz_head, SA_tank_side; cbn [is_kind String.eqb Ascii.eqb Bool.eqb].
  - unfold A_partial_circle. rewrite (proj2 (Rltb_false D D)) by lra. rewrite (proj2 (Rltb_false D 0)) by lra. assert (E : 0.5 * D = D / 2) by (lits; field). cbv zeta. rewrite E.
    rewrite pdiv_ok by lra. cbn [bind]. replace ((D / 2 - D) / (D / 2)) with (-1) by (field; lra). rewrite pacos_ok by lra. cbn [bind]. rewrite acos_m1.
    replace (2 * (D / 2) * D - D * D) with 0 by field. rewrite psqrt_ok by lra. rewrite sqrt_0. cbn [bind].
    assert (EV : D / 2 * (D / 2) * PI - (D / 2 - D) * 0 = 0.25 * PI * D * D) by (lits; field). rewrite EV.
    assert (0 <= 0.25 * PI * D * D) by (rewrite <- EV; pose proof PI_RGT_0; assert (0 <= D / 2 * (D / 2) * PI) by (apply Rmult_le_pos; nra); lra).
    rewrite (proj2 (Rltb_false _ 0)) by lra. eexists; split; reflexivity.
  - unfold SA_partial_horiz_conical_head, SA_conical_head. rewrite (proj2 (Rltb_false D D)) by lra. rewrite (proj2 (Rltb_false D 0)) by lra. assert (E : 0.5 * D = D / 2) by (lits; field). cbv zeta. rewrite E.
    rewrite pdiv_ok by lra. cbn [bind]. replace (a * a + 0.25 * D * D) with (a * a + D / 2 * (D / 2)) by (lits; field). rewrite psqrt_ok by nra. cbn [bind].
    replace ((D / 2 - D) * (1 / (D / 2))) with (-1) by (field; lra). rewrite pacos_ok by lra. cbn [bind]. rewrite acos_m1.
    replace (2 * (D / 2) * D - D * D) with 0 by field. rewrite psqrt_ok by lra. rewrite sqrt_0. cbn [bind]. eexists; split; [reflexivity|]. f_equal. lits. toR. field. lra.
Qed.
Theorem C113_full_horizontal : forall ell gup sph tor D L sA sB aA aB fA kA fB kB h, 0 < D -> 0 <= aA -> 0 <= aB ->
  sA = None \/ sA = Some "conical"%string -> sB = None \/ sB = Some "conical"%string -> D <= h ->
  exists S SA SB SL, SA_from_h ell gup sph tor h D L true sA sB aA aB fA kA fB kB = Ok S /\ SA_tank D L sA sB aA aB fA kA fB kB = Ok (S, SA, SB, SL).
Proof.
  intros ell gup sph tor D L sA sB aA aB fA kA fB kB h HD HA HB KA KB Hh.
  destruct (horiz_side_full ell gup sph tor D sA aA fA kA HD HA KA) as [A [E1 E2]]. destruct (horiz_side_full ell gup sph tor D sB aB fB kB HD HB KB) as [B [E3 E4]].
  unfold SA_from_h. assert (K1 : head_known sA = true) by (destruct KA as [-> | ->]; reflexivity). assert (K2 : head_known sB = true) by (destruct KB as [-> | ->]; reflexivity). rewrite K1, K2. cbn [negb]. cbv zeta.
  assert (EL : (if Rltb D h then D else h) = D) by (destruct (Rltb D h) eqn:E; [reflexivity|apply Rltb_false in E; lra]). rewrite EL, E1. cbn [bind]. rewrite E3. cbn [bind]. rewrite pdiv_ok by lra. cbn [bind].
  replace ((D - D - D) / D) with (-1) by (field; lra). rewrite pacos_ok by lra. cbn [bind]. rewrite acos_m1.
  unfold SA_tank. rewrite E2, E4. cbn [bind]. eexists _, _, _, _. split; [reflexivity|]. do 4 f_equal. ring.
Qed.

(** a conical bottom, a flat top, and a dished head meeting the hypotheses *)
Example C113_ex : head_ok 2 (Some "conical"%string) 1 None None /\ head_ok 2 None 0 None None /\
  head_ok 2 (Some "torispherical"%string) (tori_a 2 1 (6 / 100)) (Some 1) (Some (6 / 100)) /\
  (forall ell gup sph tor, SA_from_h ell gup sph tor 4 2 3 false (Some "conical"%string) None 1 0 None None None None = Ok (PI * sqrt 2 + PI * 7)) /\
  (forall ell gup sph tor, SA_from_h ell gup sph tor 2 2 3 false None None 0 0 None None None None = Ok (PI * 5)).
Proof.
  assert (K1 : head_ok 2 (Some "conical"%string) 1 None None) by (split; [lra|auto]). assert (K2 : head_ok 2 None 0 None None) by reflexivity. splits; auto.
  - split.
    + unfold tori_a, tori_a1. pose proof (COS_bound (tori_alpha 1 (6 / 100))). lra.
    + right; right; right. split; [reflexivity|]. exists 1, (6 / 100). splits; try reflexivity; lra.
  - intros. destruct (C113_full_tank ell gup sph tor 2 3 _ _ _ _ _ _ _ _ 4 ltac:(lra) ltac:(lra) K1 K2 ltac:(lra)) as (S & SA & SB & SL & E1 & E2). rewrite E1. f_equal.
    unfold SA_tank, SA_tank_side, SA_conical_head in E2. cbn [is_kind String.eqb Ascii.eqb Bool.eqb] in E2. rewrite psqrt_ok in E2 by (lits; lra). cbn [bind] in E2. injection E2 as E2 _ _ _. rewrite <- E2.
    replace (1 * 1 + 0.25 * 2 * 2) with 2 by (lits; field). lits. toR. field.
  - intros. unfold SA_from_h, SA_bottom. cbn [head_known negb bind]. cbv zeta. rewrite (proj2 (Rltb_false (3 + 0 + 0) 2)) by lra. rewrite (proj2 (Rleb_false (0 + 3) 2)) by lra. rewrite (proj2 (Rltb_true 0 2)) by lra. f_equal. lits. toR. field.
Qed.

Print Assumptions C113_conical_head.
Print Assumptions C113_spherical_head.
Print Assumptions C113_torispherical_head.
Print Assumptions C113_ellipsoidal_head.
Print Assumptions C113_vertical_tank.
Print Assumptions C113_full_tank.
Print Assumptions C113_guppy_refuted.
Print Assumptions C113_horizontal_tank.
Print Assumptions C113_full_horizontal.
