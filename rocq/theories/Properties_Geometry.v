(** C53: partially filled shapes: every volume is the integral of the horizontal section. *)
From Coq Require Import Reals Lra Psatz String List Bool.
From Coquelicot Require Import Coquelicot.
From Verif Require Import Base Model_Real Model_Geometry Proofs_Real Spec_Geometry Proofs_Geometry Proofs_Geometry2 Proofs_Geometry3.
Import ListNotations.
Open Scope R_scope.

Lemma half D_ : 0.5 * D_ = D_ / 2. Proof. lits. field. Qed.
Lemma half' D_ : D_ * 0.5 = D_ / 2. Proof. lits. field. Qed.

Lemma clamp_in lo hi h : lo <= hi -> lo <= clamp lo hi h <= hi.
Proof. intros. unfold clamp. split; [apply Rmax_l|]. apply Rmax_lub; [assumption | apply Rmin_l]. Qed.
Lemma clamp_id lo hi h : lo <= h <= hi -> clamp lo hi h = h.
Proof. intros. unfold clamp. rewrite Rmin_right, Rmax_right by lra. reflexivity. Qed.
Lemma clamp_low lo hi h : lo <= hi -> h <= lo -> clamp lo hi h = lo.
Proof. intros. unfold clamp. rewrite Rmin_right, Rmax_left by lra. reflexivity. Qed.
Lemma clamp_high lo hi h : lo <= hi -> hi <= h -> clamp lo hi h = hi.
Proof. intros. unfold clamp. rewrite Rmin_left, Rmax_right by lra. reflexivity. Qed.

(** Monotone integrals. *)
Lemma volume_monotone area h1 h2 V1 V2 :
  0 <= h1 <= h2 -> (forall y, 0 <= y <= h2 -> 0 <= area y) -> volume_below area h1 V1 -> volume_below area h2 V2 -> 0 <= V1 <= V2.
Proof.
  intros Hh Ha I1 I2. unfold volume_below in *.
  assert (forall a b V, 0 <= a <= b -> b <= h2 -> is_RInt area a b V -> 0 <= V).
  { intros a b V Hab Hb I. eapply (is_RInt_le (fun _ => 0) area a b 0 V); [lra | | exact I |].
    - eapply is_RInt_val; [|apply RInt_const']. ring.
    - intros x Hx. apply Ha; lra. }
  split; [apply (H 0 h1 V1); auto; lra|].
  assert (I3 : is_RInt area h1 h2 (V2 - V1)).
  { eapply is_RInt_val; [|apply (RInt_join area h1 0 h2 (opp V1) V2); [apply (is_RInt_swap area), I1 | exact I2]].
    unfold opp; simpl. ring. }
  pose proof (H h1 h2 _ ltac:(lra) ltac:(lra) I3). lra.
Qed.

Lemma cylinder_below r a g G h : 0 <= h -> 0 < a ->
  (forall h, 0 <= h <= a -> is_RInt (fun y => PI * g y) 0 h (G h)) ->
  volume_below (with_cylinder r a g) h (if Rlt_dec h a then G h else G a + PI * (r * r) * (h - a)).
Proof.
  intros Hh Ha I. unfold volume_below, with_cylinder.
  assert (L : forall h, 0 <= h <= a -> is_RInt (fun y => PI * (if Rlt_dec y a then g y else r * r)) 0 h (G h)).
  { intros t Ht. apply (RInt_ext (fun y => PI * g y)); [lra | | apply I, Ht].
    intros x Hx. destruct (Rlt_dec x a); [reflexivity | lra]. }
  destruct (Rlt_dec h a) as [H|H]; [apply L; lra|].
  apply RInt_join with a; [apply L; lra|].
  apply (RInt_ext (fun y => PI * (r * r))); [lra | | apply RInt_const'].
  intros x Hx. destruct (Rlt_dec x a); [lra | reflexivity].
Qed.
Lemma around_below r a g G h : 0 <= h -> 0 < a ->
  (forall h, 0 <= h <= a -> is_RInt (fun y => PI * (r * r - g (a - y))) 0 h (G h)) ->
  volume_below (around r a g) h (if Rlt_dec h a then G h else G a + PI * (r * r) * (h - a)).
Proof.
  intros Hh Ha I. unfold volume_below, around.
  assert (L : forall h, 0 <= h <= a -> is_RInt (fun y => PI * (if Rlt_dec y a then r * r - g (a - y) else r * r)) 0 h (G h)).
  { intros t Ht. apply (RInt_ext (fun y => PI * (r * r - g (a - y)))); [lra | | apply I, Ht].
    intros x Hx. destruct (Rlt_dec x a); [reflexivity | lra]. }
  destruct (Rlt_dec h a) as [H|H]; [apply L; lra|].
  apply RInt_join with a; [apply L; lra|].
  apply (RInt_ext (fun y => PI * (r * r))); [lra | | apply RInt_const'].
  intros x Hx. destruct (Rlt_dec x a); [lra | reflexivity].
Qed.

Ltac byFTC F := eapply is_RInt_val; [|apply (FTC F)]; [ | lra | intros; poly; try lra; try nra | intros; poly; try lra; try nra | ].

(** ** Sphere *)
Theorem C53_sphere_volume : forall D h, 0 < D ->
  exists V, V_partial_sphere D h = Ok V /\
    volume_below (fun y => PI * (half_chord (D / 2) y * half_chord (D / 2) y)) (clamp 0 D h) V.
Proof.
  intros D h HD. unfold V_partial_sphere.
  assert (I : forall h, 0 <= h <= D -> volume_below (fun y => PI * (half_chord (D / 2) y * half_chord (D / 2) y)) h (PI * (D / 2 * (h * h) - h * h * h / 3))).
  { intros t Ht. unfold volume_below. apply (RInt_ext (fun y => PI * (y * (D - y)))); [lra | |].
    - intros x Hx. rewrite half_chord_sq by lra. f_equal. field.
    - byFTC (fun h => PI * (D / 2 * (h * h) - h * h * h / 3)); [field | intros; auto_derive; [auto | field]]. }
  destruct (Rleb h 0) eqn:E; [apply Rleb_true in E | apply Rleb_false in E].
  - exists 0; split; auto. rewrite clamp_low by lra. eapply is_RInt_val; [|apply (I 0); lra]. field.
  - assert (exists h', (if Rltb D h then Ok D else Ok h) = Ok h' /\ 0 < h' <= D /\ clamp 0 D h = h') as (h' & E1 & Hh & E2).
    { destruct (Rltb D h) eqn:E1; [apply Rltb_true in E1 | apply Rltb_false in E1].
      - exists D; splits; auto; try lra. apply clamp_high; lra. - exists h; splits; auto; try lra. apply clamp_id; lra. }
    cbv zeta. rewrite E1, E2. cbn [bind].
    assert (P : 0 <= h' * (2 * (0.5 * D) - h')) by (rewrite half; apply Rmult_le_pos; lra).
    rewrite psqrt_ok by exact P. cbn [bind]. eexists; split; [reflexivity|].
    eapply is_RInt_val; [|apply (I h'); lra].
    rewrite (Rmult_assoc 3), sqrt_sqrt by exact P. rewrite half. field.
Qed.

Theorem C53_sphere_area : forall D h, 0 < D -> SA_partial_sphere D h = Ok (PI * D * clamp 0 D h).
Proof.
  intros D h HD. unfold SA_partial_sphere. cbv zeta.
  assert ((if Rltb D h then Ok D else if Rltb h 0 then Ok 0 else Ok h) = Ok (clamp 0 D h)) as ->.
  { destruct (Rltb D h) eqn:E1; [apply Rltb_true in E1 | apply Rltb_false in E1].
    - rewrite clamp_high by lra; reflexivity.
    - destruct (Rltb h 0) eqn:E; [apply Rltb_true in E | apply Rltb_false in E].
      + rewrite clamp_low by lra; reflexivity. + rewrite clamp_id by lra; reflexivity. }
  cbn [bind]. cbv zeta. pose proof (clamp_in 0 D h ltac:(lra)).
  assert (P : 0 <= clamp 0 D h * (2 * (D * 0.5) - clamp 0 D h)) by (rewrite half'; apply Rmult_le_pos; lra).
  rewrite psqrt_ok by exact P. cbn [bind]. f_equal. rewrite sqrt_sqrt by exact P. rewrite half'. field.
Qed.

(** ** Circle *)
Theorem C53_circle : forall D h, 0 < D ->
  exists A, A_partial_circle D h = Ok A /\ is_RInt (fun y => 2 * half_chord (D / 2) y) 0 (clamp 0 D h) A.
Proof.
  intros D h HD.
  assert (Q : forall h, 0 <= h <= D -> 0 <= segment (D / 2) h).
  { intros t Ht. eapply (is_RInt_le (fun _ => 0) (fun y => 2 * half_chord (D / 2) y) 0 t 0 _); [lra | | apply segment_area; lra |].
    - eapply is_RInt_val; [|apply RInt_const']. ring.
    - intros. pose proof (half_chord_nonneg (D / 2) x). lra. }
  assert (B : forall h, 0 <= h <= D ->
    (t1 <- pdiv (0.5 * D - h) (0.5 * D) ;; t2 <- pacos t1 ;; t3 <- psqrt (2 * (0.5 * D) * h - h * h) ;;
     let SA := 0.5 * D * (0.5 * D) * t2 - (0.5 * D - h) * t3 in if Rltb SA 0 then let SA := 0 in Ok SA else Ok SA) = Ok (segment (D / 2) h)).
  { intros t Ht. rewrite half. rewrite pdiv_ok by lra. cbn [bind]. unfold pacos.
    pose proof (angle_range (D / 2) t ltac:(lra) ltac:(lra)).
    replace (Rltb ((D / 2 - t) / (D / 2)) (-1)) with false by (symmetry; apply Rltb_false; lra).
    replace (Rltb 1 ((D / 2 - t) / (D / 2))) with false by (symmetry; apply Rltb_false; lra). cbn [orb bind].
    replace (2 * (D / 2) * t - t * t) with (t * (2 * (D / 2) - t)) by ring.
    rewrite psqrt_ok by (apply Rmult_le_pos; lra). cbn [bind]. cbv zeta.
    fold (half_chord (D / 2) t). fold (segment (D / 2) t).
    rewrite (proj2 (Rltb_false _ _)) by (apply Q; lra). reflexivity. }
  unfold A_partial_circle. cbv zeta.
  destruct (Rltb D h) eqn:E1; [apply Rltb_true in E1 | apply Rltb_false in E1].
  - exists (segment (D / 2) D). split; [apply (B D); lra|]. rewrite clamp_high by lra. apply segment_area; lra.
  - destruct (Rltb h 0) eqn:E; [apply Rltb_true in E | apply Rltb_false in E].
    + exists 0; split; auto. rewrite clamp_low by lra. apply RInt_empty.
    + exists (segment (D / 2) h). split; [apply (B h); lra|]. rewrite clamp_id by lra. apply segment_area; lra.
Qed.

(** ** Heads under a vertical vessel *)
Lemma cone_below r a h : 0 < a -> 0 <= h -> is_RInt (fun y => PI * cone_r2 r a y) 0 h (PI * (r * r) * (h * h * h) / (3 * (a * a))).
Proof.
  intros Ha Hh. unfold cone_r2. byFTC (fun h => PI * (r * r) * (h * h * h) / (3 * (a * a))); [field; lra|].
  intros; auto_derive; [nra | field; lra].
Qed.
Lemma ellipsoid_below r a h : 0 < a -> 0 <= h -> is_RInt (fun y => PI * ellipsoid_r2 r a y) 0 h (PI * (r * r) * (h * h) * (a - h / 3) / (a * a)).
Proof.
  intros Ha Hh. unfold ellipsoid_r2. byFTC (fun h => PI * (r * r) * (h * h) * (a - h / 3) / (a * a)); [field; lra|].
  intros; auto_derive; [nra | field; lra].
Qed.
Lemma cap_below rho h : 0 <= h -> is_RInt (fun y => PI * cap_r2 rho y) 0 h (PI * (h * h) * (rho - h / 3)).
Proof.
  intros Hh. unfold cap_r2. byFTC (fun h => PI * (h * h) * (rho - h / 3)); [field|]. intros; auto_derive; [auto | field].
Qed.

Ltac toR := match goal with |- ?l = ?m => change (@eq R l m) end.
Lemma below_eq (area : R -> R) (h V W : R) : V = W -> volume_below area h V -> volume_below area h W.
Proof. intros ->; auto. Qed.
Ltac lowcase h := destruct (Rleb h 0) eqn:?H0; [apply Rleb_true in H0; assert (h = 0) as -> by lra; eexists; split; [reflexivity|]
  | apply Rleb_false in H0].

Theorem C53_vertical_conical : forall D a h, 0 < D -> 0 < a -> 0 <= h ->
  exists V, V_vertical_conical D a h = Ok V /\ volume_below (with_cylinder (D / 2) a (cone_r2 (D / 2) a)) h V.
Proof.
  intros D a h HD Ha Hh. unfold V_vertical_conical.
  pose proof (cylinder_below (D / 2) a (cone_r2 (D / 2) a) _ h Hh Ha (fun h Hh => cone_below (D / 2) a h Ha (proj1 Hh))) as I.
  lowcase h. { apply RInt_empty. }
  destruct (Rltb h a) eqn:E; [apply Rltb_true in E | apply Rltb_false in E]; destruct (Rlt_dec h a); try lra.
  - rewrite pdiv_ok by lra. cbn [bind]. eexists; split; [reflexivity|]. eapply below_eq; [|exact I]. lits. toR. field. lra.
  - eexists; split; [reflexivity|]. eapply below_eq; [|exact I]. lits. toR. field. lra.
Qed.
Theorem C53_vertical_ellipsoidal : forall D a h, 0 < D -> 0 < a -> 0 <= h ->
  exists V, V_vertical_ellipsoidal D a h = Ok V /\ volume_below (with_cylinder (D / 2) a (ellipsoid_r2 (D / 2) a)) h V.
Proof.
  intros D a h HD Ha Hh. unfold V_vertical_ellipsoidal.
  pose proof (cylinder_below (D / 2) a (ellipsoid_r2 (D / 2) a) _ h Hh Ha (fun h Hh => ellipsoid_below (D / 2) a h Ha (proj1 Hh))) as I.
  lowcase h. { apply RInt_empty. }
  destruct (Rltb h a) eqn:E; [apply Rltb_true in E | apply Rltb_false in E]; destruct (Rlt_dec h a); try lra.
  - rewrite pdiv_ok by lra. cbn [bind]. eexists; split; [reflexivity|]. eapply below_eq; [|exact I]. lits. toR. field. lra.
  - eexists; split; [reflexivity|]. eapply below_eq; [|exact I]. lits. toR. field. lra.
Qed.
(** The sphere through the rim and the bottom of a cap of height [a] in a vessel of diameter [D]. *)
Definition cap_radius (D a : R) : R := (a * a + D / 2 * (D / 2)) / (2 * a).
Theorem C53_vertical_spherical : forall D a h, 0 < D -> 0 < a -> 0 <= h ->
  exists V, V_vertical_spherical D a h = Ok V /\ volume_below (with_cylinder (D / 2) a (cap_r2 (cap_radius D a))) h V.
Proof.
  intros D a h HD Ha Hh. unfold V_vertical_spherical.
  pose proof (cylinder_below (D / 2) a (cap_r2 (cap_radius D a)) _ h Hh Ha (fun h Hh => cap_below (cap_radius D a) h (proj1 Hh))) as I.
  lowcase h. { apply RInt_empty. }
  destruct (Rltb h a) eqn:E; [apply Rltb_true in E | apply Rltb_false in E]; destruct (Rlt_dec h a); try lra.
  - rewrite pdiv_ok by lra. cbn [bind]. eexists; split; [reflexivity|]. eapply below_eq; [|exact I]. unfold cap_radius. lits. toR. field. lra.
  - eexists; split; [reflexivity|]. eapply below_eq; [|exact I]. unfold cap_radius. lits. toR. field. lra.
Qed.

(** heads pushed inwards; the height [a] is passed as a negative number *)
Ltac around_tac h a I :=
  lowcase h; [apply RInt_empty|]; rewrite (Rabs_left (- a)) by lra; replace (- - a) with a by ring;
  (let E := fresh in destruct (Rltb h a) eqn:E; [apply Rltb_true in E | apply Rltb_false in E]); destruct (Rlt_dec h a); try lra.
Theorem C53_vertical_conical_concave : forall D a h, 0 < D -> 0 < a -> 0 <= h ->
  exists V, V_vertical_conical_concave D (- a) h = Ok V /\ volume_below (around (D / 2) a (cone_r2 (D / 2) a)) h V.
Proof.
  intros D a h HD Ha Hh. unfold V_vertical_conical_concave.
  assert (I := around_below (D / 2) a (cone_r2 (D / 2) a) (fun h => PI * (D / 2 * (D / 2)) * (h - (a * a * a - (a - h) * (a - h) * (a - h)) / (3 * (a * a)))) h Hh Ha).
  assert (I' := I ltac:(intros t Ht; unfold cone_r2;
    byFTC (fun h => PI * (D / 2 * (D / 2)) * (h - (a * a * a - (a - h) * (a - h) * (a - h)) / (3 * (a * a)))); [field; lra | intros; auto_derive; [nra | field; lra]])). clear I.
  around_tac h a I.
  - rewrite pdiv_ok by nra. cbn [bind]. eexists; split; [reflexivity|]. eapply below_eq; [|exact I']. cbv beta. field. lra.
  - eexists; split; [reflexivity|]. eapply below_eq; [|exact I']. cbv beta. field. lra.
Qed.
Theorem C53_vertical_ellipsoidal_concave : forall D a h, 0 < D -> 0 < a -> 0 <= h ->
  exists V, V_vertical_ellipsoidal_concave D (- a) h = Ok V /\ volume_below (around (D / 2) a (ellipsoid_r2 (D / 2) a)) h V.
Proof.
  intros D a h HD Ha Hh. unfold V_vertical_ellipsoidal_concave.
  assert (I := around_below (D / 2) a (ellipsoid_r2 (D / 2) a) (fun h => PI * (D / 2 * (D / 2)) * (h * h * h / (3 * (a * a)))) h Hh Ha).
  assert (I' := I ltac:(intros t Ht; unfold ellipsoid_r2;
    byFTC (fun h => PI * (D / 2 * (D / 2)) * (h * h * h / (3 * (a * a)))); [field; lra | intros; auto_derive; [nra | field; lra]])). clear I.
  around_tac h a I.
  - rewrite pdiv_ok by nra. cbn [bind]. eexists; split; [reflexivity|]. eapply below_eq; [|exact I']. cbv beta. field. lra.
  - eexists; split; [reflexivity|]. eapply below_eq; [|exact I']. cbv beta. field. lra.
Qed.
Theorem C53_vertical_spherical_concave : forall D a h, 0 < D -> 0 < a -> 0 <= h ->
  exists V, V_vertical_spherical_concave D (- a) h = Ok V /\ volume_below (around (D / 2) a (cap_r2 (cap_radius D a))) h V.
Proof.
  intros D a h HD Ha Hh. unfold V_vertical_spherical_concave. cbv zeta. unfold cap_radius.
  set (F h := PI * (D / 2 * (D / 2) * h - (a * a * ((a * a + D / 2 * (D / 2)) / (2 * a) - a / 3) - (a - h) * (a - h) * ((a * a + D / 2 * (D / 2)) / (2 * a) - (a - h) / 3)))).
  assert (I := around_below (D / 2) a (cap_r2 ((a * a + D / 2 * (D / 2)) / (2 * a))) F h Hh Ha).
  assert (I' := I ltac:(intros t Ht; unfold cap_r2, F;
    byFTC (fun h => PI * (D / 2 * (D / 2) * h - (a * a * ((a * a + D / 2 * (D / 2)) / (2 * a) - a / 3) - (a - h) * (a - h) * ((a * a + D / 2 * (D / 2)) / (2 * a) - (a - h) / 3)))); [field; lra | intros; auto_derive; [nra | field; lra]])). clear I.
  around_tac h a I.
  - rewrite pdiv_ok. 2:{ apply Rmult_integral_contrapositive_currified; lra. }
    cbn [bind]. eexists; split; [reflexivity|]. eapply below_eq; [|exact I']. unfold F. field. lra.
  - eexists; split; [reflexivity|]. eapply below_eq; [|exact I']. unfold F. field. lra.
Qed.

(** ** Torispherical head *)
Section tori.
Context (D f k : R) (HD : 0 < D) (Hk : 0 < k <= 1 / 2) (Hf : 1 / 2 <= f) (Hfk : k < f).
Let al := tori_alpha f k.
Lemma tori_ratio : 0 <= (1 / 2 - k) / (f - k) <= 1.
Proof.
  split; [apply Rdiv_le_0_compat; lra|]. apply Rmult_le_reg_r with (f - k); [lra|].
  replace ((1 / 2 - k) / (f - k) * (f - k)) with (1 / 2 - k) by (field; lra). lra.
Qed.
Lemma tori_al : 0 <= al <= PI / 2.
Proof.
  unfold al, tori_alpha. pose proof tori_ratio. pose proof (asin_bound ((1 / 2 - k) / (f - k))). split; [|lra].
  destruct (Req_dec ((1 / 2 - k) / (f - k)) 0) as [->|N]; [rewrite asin_0; lra|].
  destruct (Rle_dec 0 (asin ((1 / 2 - k) / (f - k)))) as [|N2]; [assumption|]. exfalso.
  assert (sin (asin ((1 / 2 - k) / (f - k))) <= sin 0) by (apply sin_incr_1; lra).
  rewrite sin_asin, sin_0 in H1 by lra. lra.
Qed.
Lemma tori_cos : 0 <= cos al. Proof. pose proof tori_al. apply cos_ge_0; lra. Qed.
Lemma tori_sin : (f - k) * sin al = 1 / 2 - k.
Proof. unfold al, tori_alpha. pose proof tori_ratio. rewrite sin_asin by lra. field; lra. Qed.
Lemma tori_sc : sin al * sin al + cos al * cos al = 1.
Proof. pose proof (sin2_cos2 al). unfold Rsqr in *. lra. Qed.
Lemma tori_sin_pos : 0 <= sin al.
Proof. pose proof tori_al. pose proof PI_RGT_0. apply sin_ge_0; lra. Qed.

Let a1 := tori_a1 D f k.
Let a := tori_a D f k.
Lemma tori_a1_nonneg : 0 <= a1.
Proof. unfold a1, tori_a1. fold al. pose proof (COS_bound al). apply Rmult_le_pos; [|lra]. apply Rmult_le_pos; lra. Qed.
Lemma tori_a_ge : a1 <= a.
Proof. unfold a, tori_a. fold al. fold a1. pose proof tori_cos. assert (0 <= k * D) by (apply Rmult_le_pos; lra). nra. Qed.
Lemma a_eq : a = a1 + k * D * cos al. Proof. reflexivity. Qed.

(** volume inside the knuckle *)
Definition knuckle (u : R) : R :=
  let v := k * D * cos al - u in
  PI * (u * ((D * (1 / 2 - k)) * (D * (1 / 2 - k)) + k * D * sin al * (k * D * sin al)) + u * u * (k * D * cos al - u / 3)
  + 2 * (D * (1 / 2 - k)) * (/ 2 * (k * D * (k * D)) * acos (v / (k * D)) - / 2 * (v * sqrt (k * D * (k * D) - v * v)))).
Lemma knuckle_int h : a1 <= h <= a ->
  is_RInt (fun y => PI * ((D * (1 / 2 - k) + sqrt (k * D * (k * D) - (a - y) * (a - y))) * (D * (1 / 2 - k) + sqrt (k * D * (k * D) - (a - y) * (a - y))))) a1 h
    (knuckle (h - a1) - knuckle 0).
Proof.
  intros Hh. rewrite a_eq in *. pose proof tori_cos. pose proof tori_sc as SC. pose proof tori_sin_pos.
  assert (HkD : 0 < k * D) by (apply Rmult_lt_0_compat; lra). set (q := k * D) in *. set (x2 := D * (1 / 2 - k)).
  assert (C1 : cos al <= 1) by (pose proof (COS_bound al); lra).
  eapply is_RInt_val; [|apply (FTC (fun y => knuckle (y - a1)))]; [| lra | | |].
  - cbv beta. replace (a1 - a1) with 0 by ring. reflexivity.
  - intros y Hy. unfold knuckle. fold q. fold x2. cbv zeta.
    apply cmult; [apply cconst|]. apply cplus; [poly|]. apply cmult; [apply cconst|]. apply cminus; (apply cmult; [apply cconst|]).
    + apply cacos; [apply ratio_range; nra | poly; lra].
    + apply cmult; [poly | apply sqrt_of_cont; poly].
  - intros y. apply cmult; [apply cconst|]. apply cmult; apply cplus; try apply cconst; apply sqrt_of_cont; poly.
  - intros y Hy. unfold knuckle. fold q. fold x2. cbv zeta.
    assert (Hv : 0 < q * cos al - (y - a1) < q) by nra.
    assert (Hq2 : 0 < q * q - (q * cos al - (y - a1)) * (q * cos al - (y - a1))) by nra.
    pose proof (sqrt_lt_R0 _ Hq2) as Ps. pose proof (sqrt_sqrt _ (Rlt_le _ _ Hq2)) as Es.
    assert (DP : is_derive (fun y => (y - a1) * (x2 * x2 + q * sin al * (q * sin al)) + (y - a1) * (y - a1) * (q * cos al - (y - a1) / 3)) y
      (x2 * x2 + q * sin al * (q * sin al) + 2 * (y - a1) * (q * cos al) - (y - a1) * (y - a1))) by (auto_derive; [auto | toR; field]).
    eapply der_eq; [|apply dscal, dplus; [|apply dscal, dminus; apply dscal;
      [apply (dacos (fun y => (q * cos al - (y - a1)) / q) y (- 1 / q)); [apply ratio_range_lt; lra | auto_derive; [auto | toR; field; lra]]
      |eapply (dmult (fun y => q * cos al - (y - a1)) _ y (-1)); [auto_derive; [auto|ring]|
       apply (dsqrt (fun y => q * q - (q * cos al - (y - a1)) * (q * cos al - (y - a1))) y (2 * (q * cos al - (y - a1)))); [exact Hq2 | auto_derive; [auto|ring]]]]]].
    2:{ exact DP. }
    cbv beta. rewrite ratio_sin by lra.
    replace (a1 + q * cos al - y) with (q * cos al - (y - a1)) by ring.
    set (v := q * cos al - (y - a1)) in *. set (s := sqrt (q * q - v * v)) in *.
    assert (Ep : q * sin al * (q * sin al) + 2 * (y - a1) * (q * cos al) - (y - a1) * (y - a1) = s * s).
    { rewrite Es. unfold v. replace (q * sin al * (q * sin al)) with (q * q * (1 - cos al * cos al)) by (rewrite <- SC; ring). ring. }
    replace (x2 * x2 + q * sin al * (q * sin al) + 2 * (y - a1) * (q * cos al) - (y - a1) * (y - a1)) with (x2 * x2 + s * s) by lra.
    clear Ep. clearbody v. clearbody s. f_equal.
    replace (- (-1 / q) / (s / q)) with (/ s) by (field; lra).
    replace (-1 * s + v * (2 * v / (2 * s))) with ((v * v - s * s) / s) by (field; lra).
    replace (/ 2 * (q * q) * / s - / 2 * ((v * v - s * s) / s)) with s; [ring|].
    replace (q * q) with (s * s + v * v) by lra. field; lra.
Qed.
Lemma knuckle_0 : knuckle 0 = PI * (2 * (D * (1 / 2 - k)) * (/ 2 * (k * D * (k * D)) * al - / 2 * (k * D * cos al * (k * D * sin al)))).
Proof.
  assert (HkD : 0 < k * D) by (apply Rmult_lt_0_compat; lra). pose proof tori_sin_pos. pose proof tori_sc as SC. pose proof tori_al. pose proof PI_RGT_0.
  unfold knuckle. cbv zeta. rewrite Rminus_0_r. replace (k * D * cos al / (k * D)) with (cos al) by (field; lra).
  rewrite acos_cos by lra.
  replace (k * D * (k * D) - k * D * cos al * (k * D * cos al)) with (k * D * sin al * (k * D * sin al)).
  2:{ replace (k * D * sin al * (k * D * sin al)) with (k * D * (k * D) * (sin al * sin al)) by ring. replace (sin al * sin al) with (1 - cos al * cos al) by lra. ring. }
  rewrite sqrt_square by (apply Rmult_le_pos; lra). ring.
Qed.
Lemma tori_int h : 0 <= h <= a -> is_RInt (fun y => PI * tori_r2 D f k y) 0 h
  (if Rle_dec h a1 then PI * (h * h) * (f * D - h / 3) else PI * (a1 * a1) * (f * D - a1 / 3) + (knuckle (h - a1) - knuckle 0)).
Proof.
  intros Hh. pose proof tori_a1_nonneg.
  assert (L : forall t, 0 <= t <= a1 -> is_RInt (fun y => PI * tori_r2 D f k y) 0 t (PI * (t * t) * (f * D - t / 3))).
  { intros t Ht. apply (RInt_ext (fun y => PI * cap_r2 (f * D) y)); [lra | | apply cap_below; lra].
    intros x Hx. unfold tori_r2. fold a1. destruct (Rlt_dec x a1); [reflexivity|lra]. }
  destruct (Rle_dec h a1) as [H1|H1]; [apply L; lra|].
  apply RInt_join with a1; [apply L; lra|].
  eapply RInt_ext; [lra | | apply knuckle_int; lra].
  intros x Hx. cbv beta. unfold tori_r2. fold a1. fold a. destruct (Rlt_dec x a1); [lra | reflexivity].
Qed.
End tori.

Theorem C53_vertical_torispherical : forall D f k h, 0 < D -> 0 < k <= 1 / 2 -> 1 / 2 <= f -> k < f -> 0 <= h ->
  exists V, V_vertical_torispherical D f k h = Ok V /\ volume_below (with_cylinder (D / 2) (tori_a D f k) (tori_r2 D f k)) h V.
Proof.
  intros D f k h HD Hk Hf Hfk Hh. unfold V_vertical_torispherical.
  pose proof (tori_ratio f k Hk Hf Hfk) as HR. pose proof (tori_al f k Hk Hf Hfk) as HA. pose proof (tori_cos f k Hk Hf Hfk) as HC.
  pose proof (tori_sin f k Hk Hf Hfk) as HS. pose proof (tori_sc f k) as SC. pose proof (tori_sin_pos f k Hk Hf Hfk) as HSP.
  pose proof (tori_a1_nonneg D f k HD Hf) as HA1. pose proof (tori_a_ge D f k HD Hk Hf Hfk) as HA2.
  assert (HkD : 0 < k * D) by (apply Rmult_lt_0_compat; lra).
  pose proof (knuckle_0 D f k HD Hk Hf Hfk) as K0.
  assert (Ha : 0 < tori_a D f k).
  { unfold tori_a. destruct (Req_dec (cos (tori_alpha f k)) 0) as [Z|Z].
    - unfold tori_a1. rewrite Z. assert (0 < f * D) by (apply Rmult_lt_0_compat; lra). lra.
    - assert (0 < k * D * cos (tori_alpha f k)) by (apply Rmult_lt_0_compat; lra). lra. }
  pose proof (cylinder_below (D / 2) (tori_a D f k) (tori_r2 D f k) _ h Hh Ha (tori_int D f k HD Hk Hf Hfk)) as I. cbv beta in I.
  lowcase h. { apply RInt_empty. }
  replace ((1 - 2 * k) / (2 * (f - k))) with ((1 / 2 - k) / (f - k)) by (field; lra).
  rewrite pdiv_ok by lra. cbn [bind].
  replace ((1 - 2 * k) / (2 * (f - k))) with ((1 / 2 - k) / (f - k)) by (field; lra).
  unfold pasin at 1. rewrite (proj2 (Rltb_false ((1 / 2 - k) / (f - k)) (-1))) by lra. rewrite (proj2 (Rltb_false 1 ((1 / 2 - k) / (f - k)))) by lra.
  cbn [orb bind]. cbv zeta. fold (tori_alpha f k). change (f * D * (1 - cos (tori_alpha f k))) with (tori_a1 D f k).
  change (tori_a1 D f k + k * D * cos (tori_alpha f k)) with (tori_a D f k) in *.
  rewrite (proj2 (Rleb_true 0 h)) by lra. cbn [andb].
  assert (Ea : tori_a D f k = tori_a1 D f k + k * D * cos (tori_alpha f k)) by reflexivity.
  assert (E1 : tori_a1 D f k = f * D * (1 - cos (tori_alpha f k))) by reflexivity.
  set (al := tori_alpha f k) in *. set (a1 := tori_a1 D f k) in *. set (a := tori_a D f k) in *.
  assert (SS : k * D * sin al * (k * D * sin al) = k * D * (k * D) - k * D * cos al * (k * D * cos al)).
  { replace (k * D * sin al * (k * D * sin al)) with (k * D * (k * D) * (1 - cos al * cos al)) by (rewrite <- SC; ring). ring. }
  assert (Cap : (2 * f * D * sin al) * (2 * f * D * sin al) = 4 * (a1 * (2 * (f * D) - a1))).
  { rewrite E1. replace (2 * f * D * sin al * (2 * f * D * sin al)) with (4 * (f * D) * (f * D) * (1 - cos al * cos al)) by (rewrite <- SC; ring). ring. }
  destruct (Rleb h a1) eqn:E; [apply Rleb_true in E | apply Rleb_false in E].
  - rewrite pdiv_ok by lra. cbn [bind]. eexists; split; [reflexivity|]. eapply below_eq; [|exact I].
    destruct (Rle_dec h a1); [|lra]. destruct (Rle_dec a a1).
    + assert (a = a1) by lra. destruct (Rlt_dec h a) as [|N]; [|assert (h = a1) as -> by lra].
      * replace (0.5 * (2 * f * D * sin al) * (2 * f * D * sin al)) with (2 * (a1 * (2 * (f * D) - a1))) by (lits; lra). lits.  toR. field. lra.
      * rewrite H. replace (0.5 * (2 * f * D * sin al) * (2 * f * D * sin al)) with (2 * (a1 * (2 * (f * D) - a1))) by (lits; lra). lits. toR. field. lra.
    + destruct (Rlt_dec h a) as [|N]; [|lra].
      replace (0.5 * (2 * f * D * sin al) * (2 * f * D * sin al)) with (2 * (a1 * (2 * (f * D) - a1))) by (lits; lra). lits. toR. field. lra.
  - rewrite (proj2 (Rltb_true a1 h)) by lra. cbn [andb].
    assert (Sq : sqrt (k * D * sin al * (k * D * sin al)) = k * D * sin al) by (apply sqrt_square, Rmult_le_pos; lra).
    destruct (Rleb h a) eqn:E2; [apply Rleb_true in E2 | apply Rleb_false in E2].
    + rewrite psqrt_ok. 2:{ rewrite SS. nra. }
      cbn [bind]. rewrite psqrt_ok by nra. cbn [bind]. rewrite Sq. rewrite pdiv_ok by nra. cbn [bind].
      replace ((k * D * cos al + k * D * cos al - 2 * (h - a1)) / (2 * k * D)) with ((k * D * cos al - (h - a1)) / (k * D)) by (field; lra).
      assert (HV : - (k * D) <= k * D * cos al - (h - a1) <= k * D) by (pose proof (COS_bound al); nra).
      pose proof (ratio_range _ _ HkD HV) as RR.
      unfold pacos. rewrite (proj2 (Rltb_false ((k * D * cos al - (h - a1)) / (k * D)) (-1))) by lra.
      rewrite (proj2 (Rltb_false 1 ((k * D * cos al - (h - a1)) / (k * D)))) by lra. cbn [orb bind].
      eexists; split; [reflexivity|]. eapply below_eq; [|exact I].
      assert (RHS : (if Rlt_dec h a then if Rle_dec h a1 then PI * (h * h) * (f * D - h / 3) else PI * (a1 * a1) * (f * D - a1 / 3) + (knuckle D f k (h - a1) - knuckle D f k 0)
         else (if Rle_dec a a1 then PI * (a * a) * (f * D - a / 3) else PI * (a1 * a1) * (f * D - a1 / 3) + (knuckle D f k (a - a1) - knuckle D f k 0)) + PI * (D / 2 * (D / 2)) * (h - a))
         = PI * (a1 * a1) * (f * D - a1 / 3) + (knuckle D f k (h - a1) - knuckle D f k 0)).
      { destruct (Rle_dec h a1); [lra|]. destruct (Rle_dec a a1); [lra|]. destruct (Rlt_dec h a); [reflexivity|]. assert (h = a) as -> by lra. ring. }
      refine (eq_trans RHS _). rewrite K0. unfold knuckle. fold al. cbv zeta.
      replace (k * D * sin al * (k * D * sin al) + (k * D * cos al + k * D * cos al) * (h - a1) - (h - a1) * (h - a1))
        with (k * D * (k * D) - (k * D * cos al - (h - a1)) * (k * D * cos al - (h - a1))) by (rewrite SS; ring).
      set (s := sqrt _). set (ac := acos _). clearbody s ac.
      replace (0.5 * (2 * f * D * sin al) * (2 * f * D * sin al)) with (2 * (a1 * (2 * (f * D) - a1))) by (lits; lra).
      lits. toR. field.
    + cbn [bind]. rewrite psqrt_ok by nra. cbn [bind]. rewrite Sq.
      unfold pasin. pose proof (COS_bound al) as CB. rewrite (proj2 (Rltb_false (cos al) (-1))) by lra. rewrite (proj2 (Rltb_false 1 (cos al))) by lra. cbn [orb bind].
      replace (asin (cos al)) with (PI / 2 - al) by (rewrite asin_acos by lra; rewrite acos_cos by lra; reflexivity).
      eexists; split; [reflexivity|]. eapply below_eq; [|exact I].
      destruct (Rlt_dec h a); [lra|]. 
      assert (RHS : (if Rle_dec a a1 then PI * (a * a) * (f * D - a / 3) else PI * (a1 * a1) * (f * D - a1 / 3) + (knuckle D f k (a - a1) - knuckle D f k 0))
         = PI * (a1 * a1) * (f * D - a1 / 3) + (knuckle D f k (a - a1) - knuckle D f k 0)).
      { destruct (Rle_dec a a1); [|reflexivity]. assert (a = a1) as -> by lra. replace (a1 - a1) with 0 by ring. ring. }
      refine (eq_trans (f_equal (fun t => t + PI * (D / 2 * (D / 2)) * (h - a)) RHS) _). cbv beta.
      rewrite K0. unfold knuckle. fold al. cbv zeta. rewrite Ea.
      replace (a1 + k * D * cos al - a1) with (k * D * cos al) by ring. replace (k * D * cos al - k * D * cos al) with 0 by ring.
      replace (0 / (k * D)) with 0 by (field; lra). rewrite acos_0.
      replace (0.5 * a1 * (2 * f * D * sin al) * (2 * f * D * sin al)) with (2 * a1 * (a1 * (2 * (f * D) - a1))) by (lits; replace (2 * a1 * (a1 * (2 * (f * D) - a1))) with (a1 / 2 * (4 * (a1 * (2 * (f * D) - a1)))) by field; rewrite <- Cap; field).
      rewrite SS. lits. toR. field.
Qed.

(** the head height the source reports is where the profile meets the shell *)
Theorem C53_torispherical_height : forall D f k, 0 < D -> 0 < k <= 1 / 2 -> 1 / 2 <= f -> k < f ->
  a_torispherical D f k = Ok (tori_a D f k) /\ tori_r2 D f k (tori_a D f k) = D / 2 * (D / 2) /\ 0 <= tori_a D f k.
Proof.
  intros D f k HD Hk Hf Hfk.
  pose proof (tori_ratio f k Hk Hf Hfk) as HR. pose proof (tori_a1_nonneg D f k HD Hf) as HA1. pose proof (tori_a_ge D f k HD Hk Hf Hfk) as HA2.
  assert (0 <= k * D) by (apply Rmult_le_pos; lra).
  split; [|split; [|lra]].
  - unfold a_torispherical. rewrite pdiv_ok by lra. cbn [bind].
    replace ((1 - 2 * k) / (2 * (f - k))) with ((1 / 2 - k) / (f - k)) by (field; lra).
    unfold pasin. rewrite (proj2 (Rltb_false ((1 / 2 - k) / (f - k)) (-1))) by lra. rewrite (proj2 (Rltb_false 1 ((1 / 2 - k) / (f - k)))) by lra.
    cbn [orb bind]. reflexivity.
  - unfold tori_r2. destruct (Rlt_dec (tori_a D f k) (tori_a1 D f k)); [lra|]. cbv zeta.
    replace (k * D * (k * D) - (tori_a D f k - tori_a D f k) * (tori_a D f k - tori_a D f k)) with (k * D * (k * D)) by ring.
    rewrite sqrt_square by lra. field.
Qed.
(** dish and knuckle meet without a step *)
Theorem C53_torispherical_smooth : forall D f k, 0 < D -> 0 < k <= 1 / 2 -> 1 / 2 <= f -> k < f ->
  tori_r2 D f k (tori_a1 D f k) = cap_r2 (f * D) (tori_a1 D f k).
Proof.
  intros D f k HD Hk Hf Hfk. unfold tori_r2. destruct (Rlt_dec (tori_a1 D f k) (tori_a1 D f k)); [lra|]. cbv zeta.
  pose proof (tori_sin f k Hk Hf Hfk) as HS. pose proof (tori_sc f k) as SC. pose proof (tori_sin_pos f k Hk Hf Hfk) as HSP.
  replace (tori_a D f k - tori_a1 D f k) with (k * D * cos (tori_alpha f k)) by (unfold tori_a; ring).
  set (al := tori_alpha f k) in *.
  replace (k * D * (k * D) - k * D * cos al * (k * D * cos al)) with (k * D * sin al * (k * D * sin al)).
  2:{ replace (k * D * sin al * (k * D * sin al)) with (k * D * (k * D) * (1 - cos al * cos al)) by (rewrite <- SC; ring). ring. }
  rewrite sqrt_square by (apply Rmult_le_pos; [apply Rmult_le_pos|]; lra).
  replace (D * (1 / 2 - k) + k * D * sin al) with (f * D * sin al) by (rewrite <- HS; ring).
  unfold cap_r2, tori_a1. fold al.
  replace (f * D * sin al * (f * D * sin al)) with (f * D * (f * D) * (1 - cos al * cos al)) by (rewrite <- SC; ring). ring.
Qed.

(** ** Consequences: never negative, never decreasing, full value at the top *)
Definition vertical_volume (kind : string) (D a h : R) : result R :=
  if String.eqb kind "conical" then V_vertical_conical D a h
  else if String.eqb kind "ellipsoidal" then V_vertical_ellipsoidal D a h
  else V_vertical_spherical D a h.
Definition vertical_r2 (kind : string) (D a : R) : R -> R :=
  if String.eqb kind "conical" then cone_r2 (D / 2) a
  else if String.eqb kind "ellipsoidal" then ellipsoid_r2 (D / 2) a
  else cap_r2 (cap_radius D a).
Lemma vertical_int kind D a h : 0 < D -> 0 < a -> 0 <= h ->
  exists V, vertical_volume kind D a h = Ok V /\ volume_below (with_cylinder (D / 2) a (vertical_r2 kind D a)) h V.
Proof.
  intros. unfold vertical_volume, vertical_r2. destruct (String.eqb kind "conical"); [apply C53_vertical_conical; assumption|].
  destruct (String.eqb kind "ellipsoidal"); [apply C53_vertical_ellipsoidal | apply C53_vertical_spherical]; assumption.
Qed.
Lemma vertical_r2_nonneg kind D a y : 0 < D -> 0 < a -> 0 <= y <= a -> 0 <= vertical_r2 kind D a y.
Proof.
  intros HD Ha Hy. unfold vertical_r2.
  destruct (String.eqb kind "conical"); [unfold cone_r2; nra|].
  destruct (String.eqb kind "ellipsoidal").
  - unfold ellipsoid_r2. apply Rmult_le_pos; [nra|].
    replace (1 - (a - y) * (a - y) / (a * a)) with ((y * (2 * a - y)) / (a * a)) by (field; lra).
    apply Rdiv_le_0_compat; [apply Rmult_le_pos; lra | nra].
  - unfold cap_r2, cap_radius. apply Rmult_le_pos; [lra|].
    replace (2 * ((a * a + D / 2 * (D / 2)) / (2 * a)) - y) with ((a * a + D / 2 * (D / 2) - a * y) / a) by (field; lra).
    apply Rdiv_le_0_compat; [nra | lra].
Qed.
Lemma with_cylinder_nonneg r a g y : (forall y, 0 <= y <= a -> 0 <= g y) -> 0 <= y -> 0 <= with_cylinder r a g y.
Proof.
  intros Hg Hy. unfold with_cylinder. pose proof PI_RGT_0. apply Rmult_le_pos; [lra|].
  destruct (Rlt_dec y a); [apply Hg; lra | nra].
Qed.
Theorem C53_vertical_monotone : forall kind D a h1 h2, 0 < D -> 0 < a -> 0 <= h1 <= h2 ->
  exists V1 V2, vertical_volume kind D a h1 = Ok V1 /\ vertical_volume kind D a h2 = Ok V2 /\ 0 <= V1 <= V2.
Proof.
  intros kind D a h1 h2 HD Ha Hh.
  destruct (vertical_int kind D a h1 HD Ha ltac:(lra)) as (V1 & E1 & I1). destruct (vertical_int kind D a h2 HD Ha ltac:(lra)) as (V2 & E2 & I2).
  exists V1, V2. splits; auto; apply (volume_monotone _ h1 h2 V1 V2 ltac:(lra)) with (2 := I1) (3 := I2);
  intros; apply with_cylinder_nonneg; try lra; intros; apply vertical_r2_nonneg; assumption.
Qed.
Theorem C53_vertical_full : forall D a, 0 < D -> 0 < a ->
  V_vertical_conical D a a = Ok (PI * (D / 2 * (D / 2)) * a / 3) /\
  V_vertical_ellipsoidal D a a = Ok (2 / 3 * PI * (D / 2 * (D / 2)) * a) /\
  V_vertical_spherical D a a = Ok (PI * a / 6 * (3 * (D / 2 * (D / 2)) + a * a)).
Proof.
  intros D a HD Ha. unfold V_vertical_conical, V_vertical_ellipsoidal, V_vertical_spherical.
  rewrite !(proj2 (Rleb_false a 0)) by lra. rewrite !(proj2 (Rltb_false a a)) by lra.
  splits; f_equal; lits; field.
Qed.
Theorem C53_empty : forall D a f k h, h <= 0 ->
  V_vertical_conical D a h = Ok 0 /\ V_vertical_ellipsoidal D a h = Ok 0 /\ V_vertical_spherical D a h = Ok 0 /\
  V_vertical_torispherical D f k h = Ok 0 /\ V_vertical_conical_concave D a h = Ok 0 /\ V_vertical_ellipsoidal_concave D a h = Ok 0 /\
  V_vertical_spherical_concave D a h = Ok 0 /\ V_partial_sphere D h = Ok 0.
Proof.
  intros. unfold V_vertical_conical, V_vertical_ellipsoidal, V_vertical_spherical, V_vertical_torispherical, V_vertical_conical_concave,
    V_vertical_ellipsoidal_concave, V_vertical_spherical_concave, V_partial_sphere.
  rewrite !(proj2 (Rleb_true h 0)) by assumption. splits; reflexivity.
Qed.

(** wetted wall of a horizontal cylinder: nothing when empty, the whole wall when full, never less for more liquid *)
Theorem C53_cylinder_wall : forall L D h, 0 < D -> 0 <= L ->
  exists A, SA_partial_cylindrical_body L D h = Ok A /\ 0 <= A <= PI * D * L /\ (h <= 0 -> A = 0) /\ (D <= h -> A = PI * D * L) /\
  (0 <= h <= D -> cos (A / (D * L)) * (D / 2) = D / 2 - h \/ L = 0).
Proof.
  intros L D h HD HL.
  assert (B : forall t, 0 <= t <= D -> (t1 <- pdiv (D - t - t) D ;; t2 <- pacos t1 ;; Ok (D * t2 * L)) = Ok (D * acos ((D - t - t) / D) * L)
     /\ -1 <= (D - t - t) / D <= 1).
  { intros t Ht. assert (R1 : -1 <= (D - t - t) / D <= 1) by (apply ratio_range; lra). split; auto.
    rewrite pdiv_ok by lra. cbn [bind]. unfold pacos.
    rewrite (proj2 (Rltb_false ((D - t - t) / D) (-1))) by lra. rewrite (proj2 (Rltb_false 1 ((D - t - t) / D))) by lra. reflexivity. }
  assert (Bd : forall x, 0 <= D * acos x * L <= PI * D * L).
  { intros x. pose proof (acos_bound x). pose proof PI_RGT_0. split.
    - apply Rmult_le_pos; [apply Rmult_le_pos|]; lra.
    - apply Rmult_le_compat_r; [lra|]. rewrite (Rmult_comm PI). apply Rmult_le_compat_l; lra. }
  unfold SA_partial_cylindrical_body. cbv zeta.
  assert (P0 : 0 <= 0 <= PI * D * L) by (specialize (Bd 1); lra).
  destruct (Rltb h 0) eqn:E0; [apply Rltb_true in E0 | apply Rltb_false in E0].
  { exists 0. splits; auto; try lra. }
  destruct (Rltb D h) eqn:E1; [apply Rltb_true in E1 | apply Rltb_false in E1].
  - destruct (B D ltac:(lra)) as [-> R1]. eexists. split; [reflexivity|]. split; [apply Bd|].
    replace ((D - D - D) / D) with (- (1)) by (field; lra). rewrite acos_opp, acos_1. splits; try lra.
  - destruct (B h ltac:(lra)) as [-> R1]. eexists. split; [reflexivity|]. split; [apply Bd|]. splits.
    + intros. assert (h = 0) as -> by lra. replace ((D - 0 - 0) / D) with 1 by (field; lra). rewrite acos_1. ring.
    + intros. assert (h = D) as -> by lra. replace ((D - D - D) / D) with (- (1)) by (field; lra). rewrite acos_opp, acos_1. ring.
    + intros _. destruct (Req_dec L 0) as [|N]; [right; assumption|left].
      replace (D * acos ((D - h - h) / D) * L / (D * L)) with (acos ((D - h - h) / D)) by (field; lra).
      rewrite cos_acos by exact R1. field; lra.
Qed.

Example C53_ex1 : (V_vertical_conical 132 33 24 = Ok (PI * (66 * 66) * (24 * 24 * 24) / (3 * (33 * 33)))) /\ 0 < 132.
Proof.
  split; [|lra]. unfold V_vertical_conical. rewrite (proj2 (Rleb_false 24 0)) by lra. rewrite (proj2 (Rltb_true 24 33)) by lra.
  rewrite pdiv_ok by lra. cbn [bind]. f_equal. lits. field.
Qed.
Example C53_ex2 : 0 < 6/100 <= 1 / 2 /\ 1 / 2 <= 1 /\ 6/100 < 1 /\ A_partial_circle 2 1 = Ok (PI / 2).
Proof.
  splits; try lra. unfold A_partial_circle. rewrite (proj2 (Rltb_false 2 1)) by lra. rewrite (proj2 (Rltb_false 1 0)) by lra. cbv zeta.
  rewrite half. rewrite pdiv_ok by lra. cbn [bind]. replace ((2 / 2 - 1) / (2 / 2)) with 0 by field. unfold pacos.
  rewrite (proj2 (Rltb_false 0 (-1))) by lra. rewrite (proj2 (Rltb_false 1 0)) by lra. cbn [orb bind].
  rewrite psqrt_ok by lra. cbn [bind]. rewrite acos_0. replace (2 * (2 / 2) * 1 - 1 * 1) with 1 by field. rewrite sqrt_1.
  pose proof PI_RGT_0. rewrite (proj2 (Rltb_false _ _)) by lra. f_equal. field.
Qed.

Print Assumptions C53_sphere_volume.
Print Assumptions C53_sphere_area.
Print Assumptions C53_circle.
Print Assumptions C53_vertical_conical.
Print Assumptions C53_vertical_ellipsoidal.
Print Assumptions C53_vertical_spherical.
Print Assumptions C53_vertical_conical_concave.
Print Assumptions C53_vertical_ellipsoidal_concave.
Print Assumptions C53_vertical_spherical_concave.
Print Assumptions C53_vertical_torispherical.
Print Assumptions C53_torispherical_height.
Print Assumptions C53_torispherical_smooth.
Print Assumptions C53_vertical_monotone.
Print Assumptions C53_vertical_full.
Print Assumptions C53_empty.
Print Assumptions C53_cylinder_wall.
