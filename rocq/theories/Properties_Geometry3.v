(** C81: whole vessels. *)
From Coq Require Import Reals Lra Psatz String List Bool.
From Coquelicot Require Import Coquelicot.
From Verif Require Import Base Model_Real Model_Geometry Proofs_Real Spec_Geometry Proofs_Geometry Proofs_Geometry2 Proofs_Geometry3 Properties_Geometry Properties_Geometry2.
Import ListNotations.
Open Scope R_scope.
Open Scope string_scope.

(** The heads. *)
Inductive head := Flat | Conical | Ellipsoidal | Guppy | Spherical | Torispherical.
Definition head_name (k : head) : option string :=
  match k with
  | Flat => None | Conical => Some "conical" | Ellipsoidal => Some "ellipsoidal" | Guppy => Some "guppy"
  | Spherical => Some "spherical" | Torispherical => Some "torispherical"
  end.
(** Depth of a head of a horizontal vessel over a point of the end circle. *)
Definition head_depth (k : head) (D a : R) : R -> R -> R :=
  match k with
  | Conical => cone_depth (D / 2) a
  | Ellipsoidal => ellipsoid_depth (D / 2) a
  | Guppy => guppy_depth (D / 2) a
  | Spherical => cap_depth (cap_radius D a) (D / 2)
  | _ => fun _ _ => 0
  end.
(** The heads for which the horizontal theorem holds. *)
Definition horizontal_head (k : head) (D a : R) : Prop :=
  match k with Torispherical => False | Spherical => 0 < a <= D / 2 | _ => True end.

Lemma flat_volume r h : head_volume (fun _ _ => 0) r h 0.
Proof.
  exists (fun _ => 0). split.
  - intros y _. unfold section_area. eapply is_RInt_val; [|apply RInt_const']. ring.
  - unfold volume_below. eapply is_RInt_val; [|apply RInt_const']. ring.
Qed.
Lemma circle_Af_ok D h : 0 < D -> 0 <= h <= D -> circle_Af (0.5 * D) h = Ok (segment (D / 2) h).
Proof.
  intros HD Hh. unfold circle_Af. destruct (segment_code D h HD Hh) as (-> & H1 & H2). cbn [bind]. rewrite H1. cbn [bind]. rewrite H2. cbn [bind].
  rewrite half. reflexivity.
Qed.

(** Volume of one end at level [h] in the horizontal vessel. *)
Definition end_code (quad : (R -> R) -> R -> R -> R) (k : head) (D L a f kk h : R) : result R :=
  match k with
  | Flat => Ok 0
  | Conical => V_horiz_conical D L a h true
  | Ellipsoidal => V_horiz_ellipsoidal D L a h true
  | Guppy => V_horiz_guppy D L a h true
  | Spherical => V_horiz_spherical quad D L a h true
  | Torispherical => V_horiz_torispherical quad D L (Some f) (Some kk) h true
  end.
Lemma end_volume quad k D L a f kk h : exact_quad quad -> 0 < D -> horizontal_head k D a ->
  exists V, end_code quad k D L a f kk h = Ok V /\ head_volume (head_depth k D a) (D / 2) (clamp 0 D h) V.
Proof.
  intros HQ HD HH. destruct k; simpl in *.
  - exists 0. split; auto. apply flat_volume.
  - apply C80_conical, HD. - apply C80_ellipsoidal, HD. - apply C80_guppy, HD. - apply C80_spherical; auto. - contradiction.
Qed.
Definition fk (k : head) (f kk : R) : option R * option R := match k with Torispherical => (Some f, Some kk) | _ => (None, None) end.

(** The level is first clamped from above. *)
Lemma horizontal_code quad D L kA kB aA aB fA ffA fB ffB h vA vB : 0 < D -> 0 <= h ->
  end_code quad kA D L aA fA ffA (Rmin D h) = Ok vA -> end_code quad kB D L aB fB ffB (Rmin D h) = Ok vB ->
  V_from_h quad h D L true (head_name kA) (head_name kB) aA aB (fst (fk kA fA ffA)) (snd (fk kA fA ffA)) (fst (fk kB fB ffB)) (snd (fk kB fB ffB)) = Ok (vA + vB + L * segment (D / 2) (Rmin D h)).
Proof.
  intros HD Hh EA EB. unfold V_from_h.
  assert ((if Rltb D h then D else h) = Rmin D h) as E1.
  { destruct (Rltb D h) eqn:E; [apply Rltb_true in E; rewrite Rmin_left by lra | apply Rltb_false in E; rewrite Rmin_right by lra]; reflexivity. }
  assert (C := circle_Af_ok D (Rmin D h) HD ltac:(split; [apply Rmin_glb; lra | apply Rmin_l])).
  destruct kA, kB; cbn -[Rmin V_horiz_conical V_horiz_ellipsoidal V_horiz_guppy V_horiz_spherical V_horiz_torispherical circle_Af Rltb] in *;
  rewrite ?E1, ?EA, ?EB, ?C; cbn [bind]; rewrite ?EA, ?EB, ?C; cbn [bind];
  try (apply Ok_inj in EA; subst vA); try (apply Ok_inj in EB; subst vB); rewrite ?C; cbn [bind]; f_equal; ring.
Qed.

Lemma clamp_min D h : 0 < D -> 0 <= h -> clamp 0 D h = Rmin D h.
Proof. intros. unfold clamp. apply Rmax_right. apply Rmin_glb; lra. Qed.
Lemma clamp_min2 D h : 0 < D -> 0 <= h -> clamp 0 D (Rmin D h) = clamp 0 D h.
Proof. intros. rewrite (clamp_min D h) by assumption. apply clamp_id. split; [apply Rmin_glb; lra | apply Rmin_l]. Qed.

(** A horizontal vessel holds what is in its two heads and in its cylinder. *)
Theorem C81_horizontal : forall quad D L kA kB aA aB h, exact_quad quad -> 0 < D -> 0 <= h ->
  horizontal_head kA D aA -> horizontal_head kB D aB ->
  exists V VA VB A, V_from_h quad h D L true (head_name kA) (head_name kB) aA aB None None None None = Ok V /\ V = VA + VB + L * A /\
    head_volume (head_depth kA D aA) (D / 2) (clamp 0 D h) VA /\ head_volume (head_depth kB D aB) (D / 2) (clamp 0 D h) VB /\
    is_RInt (fun y => 2 * half_chord (D / 2) y) 0 (clamp 0 D h) A.
Proof.
  intros quad D L kA kB aA aB h HQ HD Hh HA HB.
  destruct (end_volume quad kA D L aA 0 0 (Rmin D h) HQ HD HA) as (vA & EA & IA).
  destruct (end_volume quad kB D L aB 0 0 (Rmin D h) HQ HD HB) as (vB & EB & IB).
  rewrite clamp_min2 in IA, IB by assumption.
  assert (E := horizontal_code quad D L kA kB aA aB 0 0 0 0 h vA vB HD Hh EA EB).
  destruct kA, kB; try contradiction; cbn [fk fst snd] in E;
  (eexists; exists vA, vB, (segment (D / 2) (clamp 0 D h)); splits; [exact E | rewrite clamp_min by assumption; reflexivity | exact IA | exact IB |
    apply segment_area; [lra | pose proof (clamp_in 0 D h ltac:(lra)); lra]]).
Qed.

(** A level below the vessel is an error. *)
Theorem C81_below : forall quad D L kA kB aA aB h, 0 < D -> h < 0 -> kA <> Torispherical -> kB <> Torispherical ->
  V_from_h quad h D L true (head_name kA) (head_name kB) aA aB None None None None = Err ValueError.
Proof.
  intros quad D L kA kB aA aB h HD Hh HA HB. unfold V_from_h.
  assert (C : circle_Af (0.5 * D) h = Err ValueError).
  { unfold circle_Af. rewrite half. rewrite pdiv_ok by lra. cbn [bind]. unfold pacos.
    assert (1 < (D / 2 - h) / (D / 2)). { apply Rmult_lt_reg_r with (D / 2); [lra|]. replace ((D / 2 - h) / (D / 2) * (D / 2)) with (D / 2 - h) by (field; lra). lra. }
    rewrite (proj2 (Rltb_true 1 ((D / 2 - h) / (D / 2)))) by lra. destruct (Rltb ((D / 2 - h) / (D / 2)) (-1)); reflexivity. }
  assert (Rltb D h = false) as E by (apply Rltb_false; lra).
  assert (F : forall quad, V_horiz_conical D L aA h true = Ok 0 /\ V_horiz_conical D L aB h true = Ok 0 /\ V_horiz_ellipsoidal D L aA h true = Ok 0 /\ V_horiz_ellipsoidal D L aB h true = Ok 0 /\
     V_horiz_guppy D L aA h true = Ok 0 /\ V_horiz_guppy D L aB h true = Ok 0 /\ V_horiz_spherical quad D L aA h true = Ok 0 /\ V_horiz_spherical quad D L aB h true = Ok 0).
  { intros q. unfold V_horiz_conical, V_horiz_ellipsoidal, V_horiz_guppy, V_horiz_spherical. rewrite (proj2 (Rleb_true h 0)) by lra. splits; reflexivity. }
  destruct (F quad) as (F1 & F2 & F3 & F4 & F5 & F6 & F7 & F8).
  destruct kA, kB; try congruence; cbn -[Rmin V_horiz_conical V_horiz_ellipsoidal V_horiz_guppy V_horiz_spherical V_horiz_torispherical circle_Af Rltb];
  rewrite E, ?F1, ?F2, ?F3, ?F4, ?F5, ?F6, ?F7, ?F8; cbn [bind]; rewrite ?F1, ?F2, ?F3, ?F4, ?F5, ?F6, ?F7, ?F8; cbn [bind]; rewrite C; reflexivity.
Qed.

(** Monotone: more level, more volume. *)
Lemma depth_nonneg k D a x y : 0 < D -> 0 <= a -> horizontal_head k D a -> 0 <= y < D -> - half_chord (D / 2) y < x < half_chord (D / 2) y -> 0 <= head_depth k D a x y.
Proof.
  intros HD Ha HH Hy Hx. pose proof (half_chord_nonneg (D / 2) y) as Pc. pose proof (half_chord_sq (D / 2) y ltac:(lra)) as Es.
  assert (Q : x * x + (D / 2 - y) * (D / 2 - y) <= D / 2 * (D / 2)) by nra.
  destruct k; simpl; try lra; try contradiction.
  - unfold cone_depth. apply Rmult_le_pos; [lra|].
    assert (sqrt (x * x + (D / 2 - y) * (D / 2 - y)) <= D / 2). { apply Rle_trans with (sqrt (D / 2 * (D / 2))); [apply sqrt_le_1_alt; lra | rewrite sqrt_square; lra]. }
    assert (sqrt (x * x + (D / 2 - y) * (D / 2 - y)) / (D / 2) <= 1); [|lra]. apply Rmult_le_reg_r with (D / 2); [lra|]. unfold Rdiv at 1. rewrite Rmult_assoc, Rinv_l by lra. lra.
  - unfold ellipsoid_depth. apply Rmult_le_pos; [lra | apply sqrt_pos].
  - unfold guppy_depth. apply Rmult_le_pos; [lra|].
    assert (0 < 2 * (D / 2) * (2 * (D / 2) - y)) by (apply Rmult_lt_0_compat; lra).
    assert ((x * x + (2 * (D / 2) - y) * (2 * (D / 2) - y)) / (2 * (D / 2) * (2 * (D / 2) - y)) <= 1); [|lra].
    apply Rmult_le_reg_r with (2 * (D / 2) * (2 * (D / 2) - y)); [lra|]. unfold Rdiv at 1. rewrite Rmult_assoc, Rinv_l by lra. nra.
  - unfold cap_depth. assert (sqrt (cap_radius D a * cap_radius D a - D / 2 * (D / 2)) <= sqrt (cap_radius D a * cap_radius D a - (x * x + (D / 2 - y) * (D / 2 - y)))); [|lra].
    apply sqrt_le_1_alt. lra.
Qed.
Lemma head_monotone k D a h1 h2 V1 V2 : 0 < D -> 0 <= a -> horizontal_head k D a -> 0 <= h1 <= h2 -> h2 <= D ->
  head_volume (head_depth k D a) (D / 2) h1 V1 -> head_volume (head_depth k D a) (D / 2) h2 V2 -> 0 <= V1 <= V2.
Proof.
  intros HD Ha HH Hh Hh2 (S1 & A1 & I1) (S2 & A2 & I2).
  assert (I1' : volume_below S2 h1 V1).
  { unfold volume_below in *. eapply RInt_ext; [lra | | exact I1]. intros x Hx.
    rewrite <- (is_RInt_unique _ _ _ _ (A1 x ltac:(lra))). apply (is_RInt_unique (fun z => head_depth k D a z x)), (A2 x). lra. }
  apply (volume_monotone S2 h1 h2 V1 V2); auto. intros y Hy.
  specialize (A2 y ltac:(lra)). unfold section_area in A2. pose proof (half_chord_nonneg (D / 2) y).
  apply (is_RInt_le (fun _ => 0) (fun x => head_depth k D a x y) (- half_chord (D / 2) y) (half_chord (D / 2) y) 0 _); [lra | | exact A2 |].
  - eapply is_RInt_val; [|apply RInt_const']. ring.
  - intros x Hx. destruct (Req_dec y D) as [->|Ny].
    + exfalso. unfold half_chord in Hx. replace (D * (2 * (D / 2) - D)) with 0 in Hx by field. rewrite sqrt_0 in Hx. lra.
    + apply depth_nonneg; auto. lra.
Qed.
Theorem C81_horizontal_monotone : forall quad D L kA kB aA aB h1 h2, exact_quad quad -> 0 < D -> 0 <= L -> 0 <= aA -> 0 <= aB -> 0 <= h1 <= h2 ->
  horizontal_head kA D aA -> horizontal_head kB D aB ->
  exists V1 V2, V_from_h quad h1 D L true (head_name kA) (head_name kB) aA aB None None None None = Ok V1 /\
    V_from_h quad h2 D L true (head_name kA) (head_name kB) aA aB None None None None = Ok V2 /\ 0 <= V1 <= V2.
Proof.
  intros quad D L kA kB aA aB h1 h2 HQ HD HL HaA HaB Hh HA HB.
  destruct (C81_horizontal quad D L kA kB aA aB h1 HQ HD ltac:(lra) HA HB) as (V1 & A1 & B1 & S1 & E1 & Q1 & IA1 & IB1 & IS1).
  destruct (C81_horizontal quad D L kA kB aA aB h2 HQ HD ltac:(lra) HA HB) as (V2 & A2 & B2 & S2 & E2 & Q2 & IA2 & IB2 & IS2).
  exists V1, V2. split; [exact E1|]. split; [exact E2|].
  assert (Hc : 0 <= clamp 0 D h1 <= clamp 0 D h2). { split; [apply clamp_in; lra|]. unfold clamp. apply Rle_max_compat_l. apply Rle_min_compat_l. lra. }
  assert (Hc2 : clamp 0 D h2 <= D) by (apply clamp_in; lra).
  assert (MA := head_monotone kA D aA _ _ _ _ HD HaA HA Hc Hc2 IA1 IA2).
  assert (MB := head_monotone kB D aB _ _ _ _ HD HaB HB Hc Hc2 IB1 IB2).
  assert (MS : 0 <= S1 <= S2). { apply (volume_monotone (fun y => 2 * half_chord (D / 2) y) (clamp 0 D h1) (clamp 0 D h2)); auto. intros. pose proof (half_chord_nonneg (D / 2) y). lra. }
  assert (0 <= L * S1 <= L * S2) by (split; [apply Rmult_le_pos; lra | apply Rmult_le_compat_l; lra]). lra.
Qed.

(** Full: V_from_h at or above the top gives the total of V_tank, whatever the heads. *)
Lemma names_known s : head_known s = true -> exists k, s = head_name k.
Proof.
  destruct s as [s|]; [|exists Flat; reflexivity]. unfold head_known, existsb. intros H.
  destruct (String.eqb_spec s "conical"); [subst; exists Conical; reflexivity|].
  destruct (String.eqb_spec s "ellipsoidal"); [subst; exists Ellipsoidal; reflexivity|].
  destruct (String.eqb_spec s "torispherical"); [subst; exists Torispherical; reflexivity|].
  destruct (String.eqb_spec s "spherical"); [subst; exists Spherical; reflexivity|].
  destruct (String.eqb_spec s "guppy"); [subst; exists Guppy; reflexivity|]. discriminate.
Qed.

(** ** Vertical vessels *)
Definition vend (k : head) (D a f kk h : R) : result R :=
  match k with
  | Conical => V_vertical_conical D a h
  | Ellipsoidal => V_vertical_ellipsoidal D a h
  | Spherical => V_vertical_spherical D a h
  | Torispherical => V_vertical_torispherical D f kk h
  | _ => Ok 0
  end.
Definition head_r2 (k : head) (D a f kk : R) : R -> R :=
  match k with
  | Conical => cone_r2 (D / 2) a
  | Ellipsoidal => ellipsoid_r2 (D / 2) a
  | Spherical => cap_r2 (cap_radius D a)
  | Torispherical => tori_r2 D f kk
  | _ => fun _ => 0
  end.
Definition vertical_head (k : head) (D a f kk : R) : Prop :=
  match k with
  | Flat => a = 0
  | Guppy => False
  | Torispherical => 0 < kk <= 1 / 2 /\ 1 / 2 <= f /\ kk < f /\ a = tori_a D f kk
  | _ => 0 < a
  end.
(** Squared radius of the whole vessel at height [y]: bottom head, cylinder, top head upside down. *)
Definition vessel_r2 (gA gB : R -> R) (r aA L aB y : R) : R :=
  if Rlt_dec y aA then gA y else if Rle_dec y (aA + L) then r * r else gB (aA + L + aB - y).

Lemma vend_low k D a f kk h : h <= 0 -> vend k D a f kk h = Ok 0.
Proof. intros H. destruct (C53_empty D a f kk h H) as (H1 & H2 & H3 & H4 & _). destruct k; simpl; auto. Qed.
Lemma vend_int k D a f kk h : 0 < D -> vertical_head k D a f kk -> 0 <= h <= a ->
  exists V, vend k D a f kk h = Ok V /\ is_RInt (fun y => PI * head_r2 k D a f kk y) 0 h V.
Proof.
  intros HD HV Hh.
  assert (X : forall g V, volume_below (with_cylinder (D / 2) a g) h V -> is_RInt (fun y => PI * g y) 0 h V).
  { intros g V I. unfold volume_below, with_cylinder in I. eapply RInt_ext; [lra | | exact I]. intros x Hx. cbv beta. destruct (Rlt_dec x a); [reflexivity | lra]. }
  destruct k; simpl in *.
  - exists 0. split; auto. assert (h = 0) as -> by lra. apply RInt_empty.
  - destruct (C53_vertical_conical D a h HD HV ltac:(lra)) as (V & E & I). exists V. split; auto.
  - destruct (C53_vertical_ellipsoidal D a h HD HV ltac:(lra)) as (V & E & I). exists V. split; auto.
  - contradiction.
  - destruct (C53_vertical_spherical D a h HD HV ltac:(lra)) as (V & E & I). exists V. split; auto.
  - destruct HV as (H1 & H2 & H3 & ->). destruct (C53_vertical_torispherical D f kk h HD H1 H2 H3 ltac:(lra)) as (V & E & I). exists V. split; auto.
Qed.
Lemma vhead_a k D a f kk : 0 < D -> vertical_head k D a f kk -> 0 <= a.
Proof.
  intros HD HV. destruct k; simpl in HV; try lra; try contradiction. destruct HV as (H1 & H2 & H3 & ->). apply (C53_torispherical_height D f kk HD H1 H2 H3).
Qed.
Lemma r2_nonneg k D a f kk y : 0 < D -> vertical_head k D a f kk -> 0 <= y <= a -> 0 <= head_r2 k D a f kk y.
Proof.
  intros HD HV Hy. destruct k; simpl in *; try lra; try contradiction.
  - unfold cone_r2. apply Rle_0_sqr.
  - unfold ellipsoid_r2. apply Rmult_le_pos; [nra|]. assert ((a - y) * (a - y) / (a * a) <= 1); [|lra].
    apply Rmult_le_reg_r with (a * a); [nra|]. unfold Rdiv. rewrite Rmult_assoc, Rinv_l by nra. nra.
  - unfold cap_r2. apply Rmult_le_pos; [lra|]. unfold cap_radius. replace (2 * ((a * a + D / 2 * (D / 2)) / (2 * a))) with (a + D / 2 * (D / 2) / a) by (field; lra).
    assert (0 < D / 2 * (D / 2) / a); [|lra]. apply Rdiv_lt_0_compat; nra.
  - destruct HV as (H1 & H2 & H3 & ->). unfold tori_r2. destruct (Rlt_dec y (tori_a1 D f kk)).
    + unfold cap_r2. apply Rmult_le_pos; [lra|]. pose proof (tori_cos f kk H1 H2 H3). unfold tori_a1 in *. assert (0 <= f * D) by (apply Rmult_le_pos; lra). assert (0 <= f * D * cos (tori_alpha f kk)) by (apply Rmult_le_pos; lra). lra.
    + cbv zeta. apply Rle_0_sqr.
Qed.
Lemma vend_nonneg k D a f kk h V : 0 < D -> vertical_head k D a f kk -> 0 <= h <= a -> vend k D a f kk h = Ok V -> 0 <= V.
Proof.
  intros HD HV Hh E. destruct (vend_int k D a f kk h HD HV Hh) as (V' & E' & I). assert (V' = V) as -> by congruence.
  eapply (is_RInt_le (fun _ => 0) _ 0 h 0 V); [lra | | exact I |].
  - eapply is_RInt_val; [|apply RInt_const']. ring.
  - intros x Hx. pose proof PI_RGT_0. pose proof (r2_nonneg k D a f kk x HD HV ltac:(lra)). apply Rmult_le_pos; lra.
Qed.

Lemma vertical_code quad D L kA kB aA aB fA ffA fB ffB h b t1 t2 :
  let m := Rmin (L + aA + aB) h in let h2 := aB - (m - aA - L) in
  vend kA D aA fA ffA (Rmin aA m) = Ok b ->
  (aA + L < m -> vend kB D aB fB ffB aB = Ok t1 /\ vend kB D aB fB ffB h2 = Ok t2 /\ 0 <= t2) ->
  V_from_h quad h D L false (head_name kA) (head_name kB) aA aB (fst (fk kA fA ffA)) (snd (fk kA fA ffA)) (fst (fk kB fB ffB)) (snd (fk kB fB ffB))
  = Ok (b + PI * (D / 2 * (D / 2)) * (if Rleb (aA + L) m then L else if Rltb aA m then m - aA else 0) + (if Rltb (aA + L) m then t1 - t2 else 0)).
Proof.
  intros m h2 EA EB. unfold V_from_h.
  assert ((if Rltb (L + aA + aB) h then L + aA + aB else h) = m) as E1.
  { unfold m. destruct (Rltb (L + aA + aB) h) eqn:E; [apply Rltb_true in E; rewrite Rmin_left by lra | apply Rltb_false in E; rewrite Rmin_right by lra]; reflexivity. }
  assert (B : (V <- add_if (head_name kA) "conical" (V_vertical_conical D aA (Rmin aA m)) 0 ;;
     V <- add_if (head_name kA) "ellipsoidal" (V_vertical_ellipsoidal D aA (Rmin aA m)) V ;;
     V <- add_if (head_name kA) "spherical" (V_vertical_spherical D aA (Rmin aA m)) V ;;
     add_if (head_name kA) "torispherical" (V_vertical_torispherical D fA ffA (Rmin aA m)) V) = Ok b).
  { destruct kA; cbn -[V_vertical_conical V_vertical_ellipsoidal V_vertical_spherical V_vertical_torispherical Rmin] in *; rewrite ?EA; cbn [bind]; try exact EA; f_equal; ring. }
  assert (T : forall V, aA + L < m -> (V <- add_top (head_name kB) "conical" (V_vertical_conical D aB) (fun v => v) aB h2 V ;;
      V <- add_top (head_name kB) "ellipsoidal" (V_vertical_ellipsoidal D aB) (fun v => v) aB h2 V ;;
      V <- add_top (head_name kB) "spherical" (V_vertical_spherical D aB) (fun v => v) aB h2 V ;;
      add_top (head_name kB) "torispherical" (V_vertical_torispherical D fB ffB) (Rmax 0) aB h2 V) = Ok (V + (t1 - t2))).
  { intros V Hm. destruct (EB Hm) as (E2 & E3 & P). destruct kB; cbn -[V_vertical_conical V_vertical_ellipsoidal V_vertical_spherical V_vertical_torispherical Rmax] in *;
    rewrite ?E2; cbn [bind]; rewrite ?E3; cbn [bind]; rewrite ?(Rmax_right 0 t2) by exact P;
    try (apply Ok_inj in E2; apply Ok_inj in E3; subst); f_equal; ring. }
  clearbody m. clear EA EB.
  assert (K : forall s f ff, head_known (head_name s) = true /\ exists p, head_fk (head_name s) (fst (fk s f ff)) (snd (fk s f ff)) = Ok p /\ (s = Torispherical -> p = (f, ff))).
  { intros s f ff. destruct s; split; try reflexivity; eexists; split; try reflexivity; try discriminate. }
  destruct (K kA fA ffA) as (-> & (pA1, pA2) & -> & PA). destruct (K kB fB ffB) as (-> & (pB1, pB2) & -> & PB). cbn [negb bind]. cbv zeta. rewrite E1.
  assert (B' : forall X (F : R -> result X), (V <- add_if (head_name kA) "conical" (V_vertical_conical D aA (Rmin aA m)) 0 ;;
     V <- add_if (head_name kA) "ellipsoidal" (V_vertical_ellipsoidal D aA (Rmin aA m)) V ;;
     V <- add_if (head_name kA) "spherical" (V_vertical_spherical D aA (Rmin aA m)) V ;;
     V <- add_if (head_name kA) "torispherical" (V_vertical_torispherical D pA1 pA2 (Rmin aA m)) V ;; F V) = F b).
  { intros X F.
    assert (forall V, add_if (head_name kA) "torispherical" (V_vertical_torispherical D pA1 pA2 (Rmin aA m)) V = add_if (head_name kA) "torispherical" (V_vertical_torispherical D fA ffA (Rmin aA m)) V) as Q.
    { intros V. destruct kA; try reflexivity. specialize (PA eq_refl). injection PA as -> ->. reflexivity. }
    destruct (add_if (head_name kA) "conical" (V_vertical_conical D aA (Rmin aA m)) 0) as [x|]; cbn [bind] in *; [|discriminate].
    destruct (add_if (head_name kA) "ellipsoidal" (V_vertical_ellipsoidal D aA (Rmin aA m)) x) as [x1|]; cbn [bind] in *; [|discriminate].
    destruct (add_if (head_name kA) "spherical" (V_vertical_spherical D aA (Rmin aA m)) x1) as [x2|]; cbn [bind] in *; [|discriminate].
    rewrite Q, B. reflexivity. }
  rewrite B'. rewrite half || idtac.
  assert (QB : forall V, add_top (head_name kB) "torispherical" (V_vertical_torispherical D pB1 pB2) (Rmax 0) aB h2 V = add_top (head_name kB) "torispherical" (V_vertical_torispherical D fB ffB) (Rmax 0) aB h2 V).
  { intros V. destruct kB; try reflexivity. specialize (PB eq_refl). injection PB as -> ->. reflexivity. }
  set (W := if Rleb (aA + L) m then b + 0.25 * PI * D * D * L else if Rltb aA m then b + 0.25 * PI * D * D * (m - aA) else b).
  assert (EW : W = b + PI * (D / 2 * (D / 2)) * (if Rleb (aA + L) m then L else if Rltb aA m then m - aA else 0)).
  { unfold W. destruct (Rleb (aA + L) m); [|destruct (Rltb aA m)]; lits; field. }
  rewrite <- EW. clearbody W. destruct (Rltb (aA + L) m) eqn:Et; [apply Rltb_true in Et | f_equal; ring].
  fold h2. specialize (T W Et).
  destruct (add_top (head_name kB) "conical" (V_vertical_conical D aB) (fun v => v) aB h2 W) as [x|]; cbn [bind] in *; [|discriminate].
  destruct (add_top (head_name kB) "ellipsoidal" (V_vertical_ellipsoidal D aB) (fun v => v) aB h2 x) as [x1|]; cbn [bind] in *; [|discriminate].
  destruct (add_top (head_name kB) "spherical" (V_vertical_spherical D aB) (fun v => v) aB h2 x1) as [x2|]; cbn [bind] in *; [|discriminate].
  rewrite QB. exact T.
Qed.

Lemma RInt_reflect (f : R -> R) (a b c I : R) : is_RInt f a b I -> is_RInt (fun y => f (c - y)) (c - b) (c - a) I.
Proof.
  intros H. assert (J := is_RInt_comp_lin f (-1) c (c - b) (c - a) (opp I)).
  replace (-1 * (c - b) + c) with b in J by ring. replace (-1 * (c - a) + c) with a in J by ring.
  specialize (J ltac:(apply (is_RInt_swap f), H)).
  apply (is_RInt_opp (fun y => scal (-1) (f (-1 * y + c)))) in J. rewrite opp_opp in J.
  eapply is_RInt_ext; [|exact J]. intros x Hx. unfold scal, opp; simpl. unfold mult; simpl. replace (-1 * x + c) with (c - x) by ring. ring.
Qed.

Theorem C81_vertical : forall quad D L kA kB aA aB fA ffA fB ffB h, 0 < D -> 0 <= L ->
  vertical_head kA D aA fA ffA -> vertical_head kB D aB fB ffB ->
  exists V, V_from_h quad h D L false (head_name kA) (head_name kB) aA aB (fst (fk kA fA ffA)) (snd (fk kA fA ffA)) (fst (fk kB fB ffB)) (snd (fk kB fB ffB)) = Ok V /\
  volume_below (fun y => PI * vessel_r2 (head_r2 kA D aA fA ffA) (head_r2 kB D aB fB ffB) (D / 2) aA L aB y) (clamp 0 (aA + L + aB) h) V.
Proof.
  intros quad D L kA kB aA aB fA ffA fB ffB h HD HL HA HB.
  pose proof (vhead_a _ _ _ _ _ HD HA) as PA. pose proof (vhead_a _ _ _ _ _ HD HB) as PB.
  set (m := Rmin (L + aA + aB) h). set (h2 := aB - (m - aA - L)).
  set (gA := head_r2 kA D aA fA ffA). set (gB := head_r2 kB D aB fB ffB).
  assert (Mx : m <= L + aA + aB) by apply Rmin_l.
  destruct (Rle_lt_dec h 0) as [H0|H0].
  { assert (m = h) as Em by (apply Rmin_right; lra).
    rewrite clamp_low by lra. exists 0. split; [|apply RInt_empty].
    rewrite (vertical_code quad D L kA kB aA aB fA ffA fB ffB h 0 0 0).
    - fold m. rewrite Em. f_equal.
      rewrite (proj2 (Rltb_false (aA + L) h)) by lra. rewrite (proj2 (Rltb_false aA h)) by lra.
      destruct (Rleb (aA + L) h) eqn:E; [apply Rleb_true in E; assert (L = 0) by lra; subst L; ring | ring].
    - fold m. rewrite Em. apply vend_low. apply Rle_trans with h; [apply Rmin_r | lra].
    - fold m. rewrite Em. lra. }
  assert (Hm : 0 <= m) by (apply Rmin_glb; lra).
  assert (clamp 0 (aA + L + aB) h = m) as ->. { unfold clamp, m. rewrite (Rplus_comm aA L). apply Rmax_right. exact Hm. }
  destruct (vend_int kA D aA fA ffA (Rmin aA m) HD HA ltac:(split; [apply Rmin_glb; lra | apply Rmin_l])) as (b & Eb & Ib). fold gA in Ib.
  assert (SA : forall t, 0 <= t <= aA -> forall V, is_RInt (fun y => PI * gA y) 0 t V -> is_RInt (fun y => PI * vessel_r2 gA gB (D / 2) aA L aB y) 0 t V).
  { intros t Ht V I. eapply RInt_ext; [lra | | exact I]. intros x Hx. cbv beta. unfold vessel_r2. destruct (Rlt_dec x aA); [reflexivity | lra]. }
  assert (SC : forall t, aA <= t <= aA + L -> is_RInt (fun y => PI * vessel_r2 gA gB (D / 2) aA L aB y) aA t (PI * (D / 2 * (D / 2)) * (t - aA))).
  { intros t Ht. apply (RInt_ext (fun y => PI * (D / 2 * (D / 2)))); [lra | | apply RInt_const']. intros x Hx. cbv beta. unfold vessel_r2.
    destruct (Rlt_dec x aA); [lra|]. destruct (Rle_dec x (aA + L)); [reflexivity | lra]. }
  destruct (Rle_lt_dec m (aA + L)) as [Hc|Hc].
  - (* below the top head *)
    eexists. split.
    { apply (vertical_code quad D L kA kB aA aB fA ffA fB ffB h b 0 0); fold m; [exact Eb | lra]. }
    cbv zeta. fold m. rewrite (proj2 (Rltb_false (aA + L) m)) by lra. unfold volume_below.
    destruct (Rle_lt_dec m aA) as [Hd|Hd].
    + rewrite Rmin_right in Ib by lra. assert (I := SA m ltac:(lra) b Ib). eapply is_RInt_val; [|exact I].
      rewrite (proj2 (Rltb_false aA m)) by lra. destruct (Rleb (aA + L) m) eqn:E; [apply Rleb_true in E; assert (L = 0) by lra; subst L; ring | ring].
    + rewrite Rmin_left in Ib by lra. eapply is_RInt_val; [|apply (RInt_join _ 0 aA m b (PI * (D / 2 * (D / 2)) * (m - aA))); [apply SA; [lra | exact Ib] | apply SC; lra]].
      rewrite (proj2 (Rltb_true aA m)) by lra. destruct (Rleb (aA + L) m) eqn:E; [apply Rleb_true in E; replace (m - aA) with L by lra; ring | ring].
  - rewrite Rmin_left in Ib by lra.
    destruct (vend_int kB D aB fB ffB aB HD HB ltac:(lra)) as (t1 & E1 & I1). fold gB in I1.
    destruct (vend_int kB D aB fB ffB h2 HD HB ltac:(unfold h2; lra)) as (t2 & E2 & I2). fold gB in I2.
    assert (P2 := vend_nonneg kB D aB fB ffB h2 t2 HD HB ltac:(unfold h2; lra) E2).
    eexists. split.
    { apply (vertical_code quad D L kA kB aA aB fA ffA fB ffB h b t1 t2); fold m; [exact Eb |]. intros _. fold h2. auto. }
    cbv zeta. fold m. rewrite (proj2 (Rltb_true (aA + L) m)) by lra. rewrite (proj2 (Rleb_true (aA + L) m)) by lra. unfold volume_below.
    assert (I3 : is_RInt (fun y => PI * gB y) h2 aB (t1 - t2)).
    { eapply is_RInt_val; [|apply (RInt_join _ h2 0 aB (opp t2) t1); [apply (is_RInt_swap (fun y => PI * gB y)), I2 | exact I1]]. unfold opp; simpl. ring. }
    assert (I4 := RInt_reflect _ _ _ (aA + L + aB) _ I3).
    replace (aA + L + aB - aB) with (aA + L) in I4 by ring. replace (aA + L + aB - h2) with m in I4 by (unfold h2; ring).
    apply (RInt_join _ 0 (aA + L) m).
    + eapply is_RInt_val; [|apply (RInt_join _ 0 aA (aA + L) b (PI * (D / 2 * (D / 2)) * (aA + L - aA))); [apply SA; [lra | exact Ib] | apply SC; lra]]. ring.
    + eapply RInt_ext; [lra | | exact I4]. intros x Hx. cbv beta. unfold vessel_r2. destruct (Rlt_dec x aA); [lra|]. destruct (Rle_dec x (aA + L)); [lra | reflexivity].
Qed.

Theorem C81_vertical_monotone : forall quad D L kA kB aA aB fA ffA fB ffB h1 h2, 0 < D -> 0 <= L ->
  vertical_head kA D aA fA ffA -> vertical_head kB D aB fB ffB -> h1 <= h2 ->
  let vol h := V_from_h quad h D L false (head_name kA) (head_name kB) aA aB (fst (fk kA fA ffA)) (snd (fk kA fA ffA)) (fst (fk kB fB ffB)) (snd (fk kB fB ffB)) in
  exists V1 V2, vol h1 = Ok V1 /\ vol h2 = Ok V2 /\ 0 <= V1 <= V2.
Proof.
  intros quad D L kA kB aA aB fA ffA fB ffB h1 h2 HD HL HA HB Hh vol.
  pose proof (vhead_a _ _ _ _ _ HD HA) as PA. pose proof (vhead_a _ _ _ _ _ HD HB) as PB.
  destruct (C81_vertical quad D L kA kB aA aB fA ffA fB ffB h1 HD HL HA HB) as (V1 & E1 & I1).
  destruct (C81_vertical quad D L kA kB aA aB fA ffA fB ffB h2 HD HL HA HB) as (V2 & E2 & I2).
  exists V1, V2. split; [exact E1|]. split; [exact E2|].
  eapply volume_monotone; [ | | exact I1 | exact I2].
  - split; [apply clamp_in; lra|]. unfold clamp. apply Rle_max_compat_l. apply Rle_min_compat_l. lra.
  - intros y Hy. pose proof (clamp_in 0 (aA + L + aB) h2 ltac:(lra)). pose proof PI_RGT_0. apply Rmult_le_pos; [lra|].
    unfold vessel_r2. destruct (Rlt_dec y aA); [apply (r2_nonneg kA); auto; lra|]. destruct (Rle_dec y (aA + L)); [nra|]. apply (r2_nonneg kB); auto; lra.
Qed.

(** ** Totals *)
Ltac shut := cbn -[Rmin Rmax V_horiz_conical V_horiz_ellipsoidal V_horiz_guppy V_horiz_spherical V_horiz_torispherical circle_Af Rltb V_vertical_conical V_vertical_ellipsoidal V_vertical_spherical V_vertical_torispherical] in *.
Lemma tank_horizontal quad D L kA kB aA aB fA ffA fB ffB r : 0 < D ->
  V_tank quad D L true (head_name kA) (head_name kB) aA aB (fst (fk kA fA ffA)) (snd (fk kA fA ffA)) (fst (fk kB fB ffB)) (snd (fk kB fB ffB)) = Ok r <->
  exists vA vB, end_code quad kA D L aA fA ffA D = Ok vA /\ end_code quad kB D L aB fB ffB D = Ok vB /\
    r = (L * segment (D / 2) D + vA + vB, vA, vB, L * segment (D / 2) D).
Proof.
  intros HD. assert (C := circle_Af_ok D D HD ltac:(lra)). unfold V_tank.
  assert (T : forall t u v w : R, Ok (t, u, v, w) = Ok r <-> r = (t, u, v, w)) by (intros; split; [intros E; apply Ok_inj in E; auto | intros ->; reflexivity]).
  destruct (end_code quad kA D L aA fA ffA D) as [vA|eA] eqn:EA, (end_code quad kB D L aB fB ffB D) as [vB|eB] eqn:EB;
  destruct kA, kB; try discriminate; shut; rewrite ?EA, ?EB, ?C; cbn [bind]; rewrite ?EA, ?EB, ?C; cbn [bind]; rewrite ?C; cbn [bind];
  (split; [ try discriminate; intros E; exists vA, vB; splits; auto; apply Ok_inj in E; rewrite <- E; repeat f_equal;
            try (apply Ok_inj in EA; subst vA); try (apply Ok_inj in EB; subst vB); lra
          | intros (xA & xB & XA & XB & ->); try discriminate; try (apply Ok_inj in XA; subst xA); try (apply Ok_inj in XB; subst xB);
            try (apply Ok_inj in EA; subst vA); try (apply Ok_inj in EB; subst vB); repeat f_equal; lra ]).
Qed.
Lemma tank_vertical quad D L kA kB aA aB fA ffA fB ffB r :
  V_tank quad D L false (head_name kA) (head_name kB) aA aB (fst (fk kA fA ffA)) (snd (fk kA fA ffA)) (fst (fk kB fB ffB)) (snd (fk kB fB ffB)) = Ok r <->
  exists vA vB, vend kA D aA fA ffA aA = Ok vA /\ vend kB D aB fB ffB aB = Ok vB /\
    r = (PI * (D / 2 * (D / 2)) * L + vA + vB, vA, vB, PI * (D / 2 * (D / 2)) * L).
Proof.
  unfold V_tank. replace (0.25 * PI * D * D * L) with (PI * (D / 2 * (D / 2)) * L) by (lits; field). set (lat := PI * (D / 2 * (D / 2)) * L). clearbody lat.
  destruct (vend kA D aA fA ffA aA) as [vA|eA] eqn:EA, (vend kB D aB fB ffB aB) as [vB|eB] eqn:EB;
  destruct kA, kB; try discriminate; shut; rewrite ?EA, ?EB; cbn [bind]; rewrite ?EA, ?EB; cbn [bind];
  (split; [ try discriminate; intros E; exists vA, vB; splits; auto; apply Ok_inj in E; rewrite <- E; repeat f_equal;
            try (apply Ok_inj in EA; subst vA); try (apply Ok_inj in EB; subst vB); lra
          | intros (xA & xB & XA & XB & ->); try discriminate; try (apply Ok_inj in XA; subst xA); try (apply Ok_inj in XB; subst xB);
            try (apply Ok_inj in EA; subst vA); try (apply Ok_inj in EB; subst vB); repeat f_equal; lra ]).
Qed.

(** At the top and above, V_from_h is the total of V_tank, for all heads. *)
Theorem C81_full : forall quad D L (horizontal : bool) kA kB aA aB fA ffA fB ffB h total vA vB lateral, 0 < D -> 0 <= L -> 0 <= aA -> 0 <= aB ->
  (if horizontal then D else L + aA + aB) <= h ->
  let arg := (fst (fk kA fA ffA), snd (fk kA fA ffA), fst (fk kB fB ffB), snd (fk kB fB ffB)) in let '(a1, a2, a3, a4) := arg in
  V_tank quad D L horizontal (head_name kA) (head_name kB) aA aB a1 a2 a3 a4 = Ok (total, vA, vB, lateral) ->
  total = lateral + vA + vB /\ lateral = PI * (D / 2 * (D / 2)) * L /\
  V_from_h quad h D L horizontal (head_name kA) (head_name kB) aA aB a1 a2 a3 a4 = Ok total.
Proof.
  intros quad D L horizontal kA kB aA aB fA ffA fB ffB h total vA vB lateral HD HL HaA HaB Hh arg. unfold arg. intros E. destruct horizontal.
  - apply tank_horizontal in E; [|exact HD]. destruct E as (xA & xB & EA & EB & E). injection E as -> -> -> ->.
    assert (S : segment (D / 2) D = PI * (D / 2 * (D / 2))).
    { unfold segment, half_chord. replace ((D / 2 - D) / (D / 2)) with (- (1)) by (field; lra). rewrite acos_opp, acos_1.
      replace (D * (2 * (D / 2) - D)) with 0 by field. rewrite sqrt_0. ring. }
    splits; [ring | rewrite S; ring |].
    rewrite (horizontal_code quad D L kA kB aA aB fA ffA fB ffB h xA xB HD ltac:(lra)).
    + rewrite Rmin_left by lra. f_equal. ring.
    + rewrite Rmin_left by lra. exact EA.
    + rewrite Rmin_left by lra. exact EB.
  - apply tank_vertical in E. destruct E as (xA & xB & EA & EB & E). injection E as -> -> -> ->.
    splits; [ring | ring |].
    rewrite (vertical_code quad D L kA kB aA aB fA ffA fB ffB h xA xB 0).
    + rewrite Rmin_left by lra. f_equal. rewrite (proj2 (Rleb_true (aA + L) (L + aA + aB))) by lra.
      destruct (Rltb (aA + L) (L + aA + aB)) eqn:T; [ring|]. apply Rltb_false in T. assert (aB = 0) by lra. subst aB.
      rewrite vend_low in EB by lra. apply Ok_inj in EB. subst xB. ring.
    + rewrite (Rmin_left (L + aA + aB)) by lra. rewrite Rmin_left by lra. exact EA.
    + intros T. splits; [exact EB | | lra]. apply vend_low. rewrite Rmin_left by lra. lra.
Qed.

(** Laying the vessel down does not change how much it holds. *)
Definition either_way (k : head) (D a : R) : Prop :=
  match k with Flat => True | Conical | Ellipsoidal => 0 < a | Spherical => 0 < a <= D / 2 | _ => False end.
Lemma full_head quad k D L a f kk : 0 < D -> either_way k D a -> exists V, end_code quad k D L a f kk D = Ok V /\ vend k D a f kk a = Ok V.
Proof.
  intros HD He.
  assert (Z : half_chord (D / 2) D = 0). { unfold half_chord. replace (D * (2 * (D / 2) - D)) with 0 by field. apply sqrt_0. }
  assert (Z2 : acos ((D / 2 - D) / (D / 2)) = PI). { replace ((D / 2 - D) / (D / 2)) with (- (1)) by (field; lra). rewrite acos_opp, acos_1. ring. }
  destruct k; simpl in He; try contradiction; cbn [end_code vend].
  - exists 0; auto.
  - destruct (C53_vertical_full D a HD He) as (-> & _). rewrite horiz_conical_code by assumption. rewrite (proj2 (Rleb_false D 0)) by lra. cbv zeta. rewrite clamp_id by lra.
    eexists; split; [|reflexivity]. f_equal. unfold cone_vol. rewrite Z, Z2. rewrite (Rabs_left (D / 2 - D)) by lra. replace (- (D / 2 - D)) with (D / 2 + 0) by field. field. lra.
  - destruct (C53_vertical_full D a HD He) as (_ & -> & _). rewrite horiz_ellipsoidal_code by assumption. rewrite (proj2 (Rleb_false D 0)) by lra. cbv zeta. rewrite clamp_id by lra.
    eexists; split; [|reflexivity]. f_equal. field. lra.
  - destruct (C53_vertical_full D a HD (proj1 He)) as (_ & _ & ->). eexists; split; [|reflexivity].
    unfold V_horiz_spherical. rewrite (proj2 (Rleb_false D 0)) by lra. rewrite (proj2 (Rltb_false D D)) by lra. cbv zeta.
    destruct (segment_code D D HD ltac:(lra)) as (H0 & H1 & H2). rewrite H2, H0. cbn [bind].
    rewrite (Rabs_right a) by lra. rewrite pdiv_ok by lra. cbn [bind].
    assert (exists z, (if Reqb (0.5 * (a * a + 0.5 * D * (0.5 * D)) / a) (0.5 * D) then Ok 0
        else psqrt (0.5 * (a * a + 0.5 * D * (0.5 * D)) / a * (0.5 * (a * a + 0.5 * D * (0.5 * D)) / a) - 0.5 * D * (0.5 * D))) = Ok z) as (z & ->).
    { destruct (Reqb _ _); [eexists; reflexivity|]. rewrite psqrt_ok; [eexists; reflexivity|].
      replace (0.5 * (a * a + 0.5 * D * (0.5 * D)) / a * (0.5 * (a * a + 0.5 * D * (0.5 * D)) / a) - 0.5 * D * (0.5 * D))
        with ((D / 2 * (D / 2) - a * a) / (2 * a) * ((D / 2 * (D / 2) - a * a) / (2 * a))) by (lits; field; lra). apply Rle_0_sqr. }
    cbn [bind]. rewrite H1. cbn [bind]. rewrite half. rewrite (proj2 (Reqb_false D (D / 2))) by lra. rewrite (proj2 (Reqb_true D D)) by reflexivity.
    rewrite (proj2 (Rleb_true a (D / 2))) by lra. cbn [andb bind]. f_equal. lits. field.
Qed.
Theorem C81_orientation : forall quad D L kA kB aA aB, 0 < D -> either_way kA D aA -> either_way kB D aB ->
  exists total vA vB lateral, let r := (total, vA, vB, lateral) in
  V_tank quad D L true (head_name kA) (head_name kB) aA aB None None None None = Ok r /\
  V_tank quad D L false (head_name kA) (head_name kB) aA aB None None None None = Ok r.
Proof.
  intros quad D L kA kB aA aB HD HA HB.
  destruct (full_head quad kA D L aA 0 0 HD HA) as (vA & EA & FA). destruct (full_head quad kB D L aB 0 0 HD HB) as (vB & EB & FB).
  assert (S : segment (D / 2) D = PI * (D / 2 * (D / 2))).
  { unfold segment, half_chord. replace ((D / 2 - D) / (D / 2)) with (- (1)) by (field; lra). rewrite acos_opp, acos_1.
    replace (D * (2 * (D / 2) - D)) with 0 by field. rewrite sqrt_0. ring. }
  exists (PI * (D / 2 * (D / 2)) * L + vA + vB), vA, vB, (PI * (D / 2 * (D / 2)) * L). cbv zeta.
  assert (H := proj2 (tank_horizontal quad D L kA kB aA aB 0 0 0 0 _ HD) (ex_intro _ vA (ex_intro _ vB (conj EA (conj EB eq_refl))))).
  assert (V := proj2 (tank_vertical quad D L kA kB aA aB 0 0 0 0 _) (ex_intro _ vA (ex_intro _ vB (conj FA (conj FB eq_refl))))).
  rewrite S in H. replace (L * (PI * (D / 2 * (D / 2)))) with (PI * (D / 2 * (D / 2)) * L) in H by ring.
  destruct kA, kB; try contradiction; split; [exact H | exact V | exact H | exact V | exact H | exact V | exact H | exact V | exact H | exact V | exact H | exact V | exact H | exact V | exact H | exact V
    | exact H | exact V | exact H | exact V | exact H | exact V | exact H | exact V | exact H | exact V | exact H | exact V | exact H | exact V | exact H | exact V].
Qed.
(** Guppy heads vanish when the vessel is stood up. *)
Theorem C81_guppy_refuted : forall quad, exists D L a tH vH lH tV lV, 0 < D /\ 0 < a /\
  V_tank quad D L true (Some "guppy") None a 0 None None None None = Ok (tH, vH, 0, lH) /\ 0 < vH /\
  V_tank quad D L false (Some "guppy") None a 0 None None None None = Ok (tV, 0, 0, lV) /\ tV < tH.
Proof.
  intros quad. exists 2, 3, 1. assert (EA : end_code quad Guppy 2 3 1 0 0 2 = Ok (PI / 3)).
  { cbn [end_code]. rewrite horiz_guppy_code by lra. rewrite (proj2 (Rleb_false 2 0)) by lra. cbv zeta. rewrite clamp_id by lra. f_equal. unfold guppy_vol, half_chord.
    replace ((2 / 2 - 2) / (2 / 2)) with (- (1)) by field. rewrite acos_opp, acos_1. replace (2 * (2 * (2 / 2) - 2)) with 0 by field. rewrite sqrt_0. field. }
  assert (H := proj2 (tank_horizontal quad 2 3 Guppy Flat 1 0 0 0 0 0 _ ltac:(lra)) (ex_intro _ _ (ex_intro _ 0 (conj EA (conj eq_refl eq_refl))))).
  assert (V := proj2 (tank_vertical quad 2 3 Guppy Flat 1 0 0 0 0 0 _) (ex_intro _ 0 (ex_intro _ 0 (conj eq_refl (conj eq_refl eq_refl))))).
  do 5 eexists. pose proof PI_RGT_0. splits; [lra | lra | exact H | lra | exact V |].
  unfold segment, half_chord. replace ((2 / 2 - 2) / (2 / 2)) with (- (1)) by field. rewrite acos_opp, acos_1. replace (2 * (2 * (2 / 2) - 2)) with 0 by field. rewrite sqrt_0. lra.
Qed.

(** Errors: unknown names, torispherical heads without factors. *)
Theorem C81_unknown : forall quad h D L horizontal sA sB aA aB fA kA fB kB,
  (forall k, sA <> head_name k) \/ (forall k, sB <> head_name k) ->
  V_from_h quad h D L horizontal sA sB aA aB fA kA fB kB = Err ValueError /\ V_tank quad D L horizontal sA sB aA aB fA kA fB kB = Err ValueError.
Proof.
  intros. unfold V_from_h, V_tank. destruct (head_known sA) eqn:KA; [|split; reflexivity]. destruct (head_known sB) eqn:KB; [|split; reflexivity].
  destruct H as [H|H]; [destruct (names_known _ KA) as (k & ->) | destruct (names_known _ KB) as (k & ->)]; destruct (H k eq_refl).
Qed.
Theorem C81_missing_factors : forall quad h D L horizontal s a b x,
  V_from_h quad h D L horizontal (Some "torispherical") (head_name s) a b None None None None = Err ValueError /\
  V_from_h quad h D L horizontal (Some "torispherical") (head_name s) a b (Some x) None None None = Err ValueError /\
  V_from_h quad h D L horizontal (Some "torispherical") (head_name s) a b None (Some x) None None = Err ValueError /\
  V_tank quad D L horizontal (Some "torispherical") (head_name s) a b None None None None = Err ValueError /\
  V_from_h quad h D L horizontal (head_name s) (Some "torispherical") a b None None None None = Err ValueError.
Proof. intros. splits; destruct s; reflexivity. Qed.

(** Surface area: ends and wall add up; the area of each end does not depend on the rest of the vessel. *)
Theorem C81_area : forall D L sA sB aA aB fA kA fB kB SA SB,
  SA_tank_side D sA aA fA kA = Ok SA -> SA_tank_side D sB aB fB kB = Ok SB ->
  SA_tank D L sA sB aA aB fA kA fB kB = Ok (SA + SB + PI * D * L, SA, SB, PI * D * L).
Proof. intros. unfold SA_tank. rewrite H. cbn [bind]. rewrite H0. reflexivity. Qed.
(** An unknown name is silently a flat end. *)
Theorem C81_area_unknown_refuted : exists s, (forall k, Some s <> head_name k) /\
  SA_tank 2 3 (Some s) None 1 0 None None None None = SA_tank 2 3 None None 0 0 None None None None /\
  exists SA, SA_tank 2 3 (Some s) None 1 0 None None None None = Ok SA.
Proof. exists "elliptical". splits; [intros []; discriminate | reflexivity | eexists; reflexivity]. Qed.

Example C81_ex1 : horizontal_head Spherical 2 1 /\ horizontal_head Guppy 2 (1/2) /\ exact_quad (fun f a b => RInt f a b) /\
  vertical_head Conical 2 1 0 0 /\ vertical_head Torispherical 2 (tori_a 2 1 (6/100)) 1 (6/100) /\ either_way Ellipsoidal 2 1.
Proof. splits; simpl; try lra; auto. apply C80_ex. Qed.
Example C81_ex2 : forall quad, V_from_h quad 1 2 3 true (Some "ellipsoidal") None 1 0 None None None None = Ok (PI / 3 + 0 + 3 * (PI / 2)).
Proof.
  intros. assert (E : end_code quad Ellipsoidal 2 3 1 0 0 (Rmin 2 1) = Ok (PI / 3)).
  { cbn [end_code]. rewrite Rmin_right by lra. apply C80_ex2. }
  assert (H := horizontal_code quad 2 3 Ellipsoidal Flat 1 0 0 0 0 0 1 (PI / 3) 0 ltac:(lra) ltac:(lra) E eq_refl). cbn [fk fst snd head_name] in H. rewrite H.
  rewrite Rmin_right by lra. unfold segment. replace ((2 / 2 - 1) / (2 / 2)) with 0 by field. rewrite acos_0. f_equal. field.
Qed.

Print Assumptions C81_horizontal.
Print Assumptions C81_below.
Print Assumptions C81_horizontal_monotone.
Print Assumptions C81_vertical.
Print Assumptions C81_vertical_monotone.
Print Assumptions C81_full.
Print Assumptions C81_orientation.
Print Assumptions C81_guppy_refuted.
Print Assumptions C81_unknown.
Print Assumptions C81_missing_factors.
Print Assumptions C81_area.
Print Assumptions C81_area_unknown_refuted.
