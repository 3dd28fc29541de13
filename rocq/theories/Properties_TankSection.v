(** C118: the free surface of the liquid in a tank. *)
From Coq Require Import Reals Lra Lia Psatz String List Bool QArith Qreals.
From Coquelicot Require Import Coquelicot.
From Verif Require Import Base Sums Model_Real Model_Geometry Model_Tank Model_Differences Model_TankSection Proofs_Real Spec_Geometry Proofs_Geometry Properties_Geometry2 Properties_Geometry3 Properties_Differences.
Import ListNotations.
Open Scope R_scope.

(** A standing tank with the given heads. *)
Definition standing (t : tank) (D L : R) (kA kB : head) (aA aB fA ffA fB ffB : R) : Prop :=
  t_D t = D /\ t_L t = L /\ t_horizontal t = false /\ t_h_max t = aA + L + aB /\
  s_kind (t_A t) = head_name kA /\ depth (t_A t) = aA /\ s_f (t_A t) = fst (fk kA fA ffA) /\ s_k (t_A t) = snd (fk kA fA ffA) /\
  s_kind (t_B t) = head_name kB /\ depth (t_B t) = aB /\ s_f (t_B t) = fst (fk kB fB ffB) /\ s_k (t_B t) = snd (fk kB fB ffB).

Lemma central extra f x dx a b c : dx <> 0 -> f (x - dx) = Ok a -> f x = Ok b -> f (x + dx) = Ok c ->
  derivative extra f x dx 1 3 None None = Ok ((c - a) / (2 * dx)).
Proof.
  intros Hd Ha Hb Hc.
  set (g := fun y => match f y with Ok v => v | Err _ => 0 end).
  assert (Ga : g (x - dx) = a) by (unfold g; now rewrite Ha). assert (Gb : g x = b) by (unfold g; now rewrite Hb).
  assert (Gc : g (x + dx) = c) by (unfold g; now rewrite Hc).
  assert (P0 : x + (INR 0 - INR (Nat.div2 3)) * dx = x - dx) by (simpl; ring).
  assert (P1 : x + (INR 1 - INR (Nat.div2 3)) * dx = x) by (simpl; ring).
  assert (P2 : x + (INR 2 - INR (Nat.div2 3)) * dx = x + dx) by (simpl; ring).
  rewrite (derivative_plain extra f g x dx 1 3 _ eq_refl Hd).
  - f_equal. cbn [Rsum].
    rewrite ?P0, ?P1, ?P2, ?Ga, ?Gb, ?Gc. cbn [map nth]. unfold Q2R. simpl. field. exact Hd.
  - intros k Hk. destruct k as [|[|[|k]]]; [rewrite P0, Ga; exact Ha | rewrite P1, Gb; exact Hb | rewrite P2, Gc; exact Hc | lia].
Qed.

(** Away from the brim the reported surface is the mean of the true sections within one ten-millionth of the level. *)
Theorem C118_mean_section : forall quad extra t D L kA kB aA aB fA ffA fB ffB h, 0 < D -> 0 <= L ->
  vertical_head kA D aA fA ffA -> vertical_head kB D aB fB ffB -> standing t D L kA kB aA aB fA ffA fB ffB ->
  0 < h -> h + 1e-7 * h <= aA + L + aB ->
  exists A, tank_A_cross_sectional quad extra t h = Ok A /\
  is_RInt (fun y => PI * vessel_r2 (head_r2 kA D aA fA ffA) (head_r2 kB D aB fB ffB) (D / 2) aA L aB y) (h - 1e-7 * h) (h + 1e-7 * h) (2 * (1e-7 * h) * A).
Proof.
  intros quad extra t D L kA kB aA aB fA ffA fB ffB h HD HL HA HB (E1 & E2 & E3 & E4 & E5 & E6 & E7 & E8 & E9 & E10 & E11 & E12) Hh Hm.
  set (S := fun y => PI * vessel_r2 (head_r2 kA D aA fA ffA) (head_r2 kB D aB fB ffB) (D / 2) aA L aB y).
  set (dx := 1e-7 * h) in *.
  assert (Pd : 0 < dx < h) by (unfold dx; lra).
  assert (X : forall y, 0 <= y <= aA + L + aB -> exists V, tank_V_from_h quad t y = Ok V /\ is_RInt S 0 y V).
  { intros y Hy. destruct (C81_vertical quad D L kA kB aA aB fA ffA fB ffB y HD HL HA HB) as (V & EV & IV). exists V. split.
    - unfold tank_V_from_h. rewrite E1, E2, E3, E5, E6, E7, E8, E9, E10, E11, E12. exact EV.
    - unfold volume_below in IV. replace (clamp 0 (aA + L + aB) y) with y in IV; [exact IV|].
      unfold clamp. rewrite Rmin_right, Rmax_right by lra. reflexivity. }
  destruct (X (h - dx) ltac:(lra)) as (Va & Ea & Ia). destruct (X h ltac:(lra)) as (Vb & Eb & _). destruct (X (h + dx) ltac:(lra)) as (Vc & Ec & Ic).
  exists ((Vc - Va) / (2 * dx)). split.
  - unfold tank_A_cross_sectional. rewrite E4.
    rewrite (proj2 (Reqb_false h (aA + L + aB))) by lra. rewrite (proj2 (Reqb_false h 0)) by lra. cbn [orb].
    fold dx. apply (central extra _ h dx Va Vb Vc); auto. lra.
  - replace (2 * dx * ((Vc - Va) / (2 * dx))) with (- Va + Vc) by (field; lra).
    apply (@is_RInt_Chasles R_NormedModule S (h - dx) 0 (h + dx) (- Va) Vc); [apply (@is_RInt_swap R_NormedModule) in Ia; exact Ia | exact Ic].
Qed.

(** Beside the cylindrical wall it is exactly the circle. *)
Theorem C118_wall : forall quad extra t D L kA kB aA aB fA ffA fB ffB h, 0 < D -> 0 <= L ->
  vertical_head kA D aA fA ffA -> vertical_head kB D aB fB ffB -> standing t D L kA kB aA aB fA ffA fB ffB ->
  0 < h -> aA <= h - 1e-7 * h -> h + 1e-7 * h <= aA + L ->
  tank_A_cross_sectional quad extra t h = Ok (PI * (D / 2) ^ 2).
Proof.
  intros quad extra t D L kA kB aA aB fA ffA fB ffB h HD HL HA HB HS Hh Hlo Hhi.
  pose proof (vhead_a _ _ _ _ _ HD HB) as PB.
  destruct (C118_mean_section quad extra t D L kA kB aA aB fA ffA fB ffB h HD HL HA HB HS Hh ltac:(lra)) as (A & EA & IA).
  rewrite EA. f_equal.
  assert (J : is_RInt (fun y => PI * vessel_r2 (head_r2 kA D aA fA ffA) (head_r2 kB D aB fB ffB) (D / 2) aA L aB y) (h - 1e-7 * h) (h + 1e-7 * h) (PI * (D / 2 * (D / 2)) * (2 * (1e-7 * h)))).
  { apply (is_RInt_ext (fun _ => PI * (D / 2 * (D / 2)))).
    - intros x Hx. rewrite Rmin_left, Rmax_right in Hx by lra. unfold vessel_r2.
      destruct (Rlt_dec x aA); [lra|]. destruct (Rle_dec x (aA + L)); [reflexivity | lra].
    - replace (PI * (D / 2 * (D / 2)) * (2 * (1e-7 * h))) with ((h + 1e-7 * h - (h - 1e-7 * h)) * (PI * (D / 2 * (D / 2)))) by ring.
      apply (@is_RInt_const R_NormedModule). }
  pose proof (is_RInt_unique _ _ _ _ IA) as U1. pose proof (is_RInt_unique _ _ _ _ J) as U2. rewrite U1 in U2.
  assert (0 < 2 * (1e-7 * h)) by lra. apply (Rmult_eq_reg_l (2 * (1e-7 * h))); [|lra]. rewrite U2. ring.
Qed.

(** A lying tank; the torispherical head is numerically integrated and not covered. *)
Definition lying (t : tank) (D L : R) (kA kB : head) (aA aB : R) : Prop :=
  t_D t = D /\ t_L t = L /\ t_horizontal t = true /\ t_h_max t = D /\
  s_kind (t_A t) = head_name kA /\ depth (t_A t) = aA /\ s_f (t_A t) = None /\ s_k (t_A t) = None /\
  s_kind (t_B t) = head_name kB /\ depth (t_B t) = aB /\ s_f (t_B t) = None /\ s_k (t_B t) = None.

Lemma slab k r h1 h2 V1 V2 : 0 <= h1 <= h2 -> head_volume k r h1 V1 -> head_volume k r h2 V2 ->
  exists S, (forall y, h1 <= y <= h2 -> section_area k r y (S y)) /\ is_RInt S h1 h2 (V2 - V1).
Proof.
  intros Hh (S1 & A1 & I1) (S2 & A2 & I2). exists S2. split; [intros y Hy; apply A2; lra|].
  unfold volume_below in *.
  assert (I1' : is_RInt S2 0 h1 V1).
  { eapply RInt_ext; [lra | | exact I1]. intros x Hx.
    rewrite <- (is_RInt_unique _ _ _ _ (A1 x ltac:(lra))). apply (is_RInt_unique (fun z => k z x)), (A2 x). lra. }
  replace (V2 - V1) with (- V1 + V2) by ring.
  apply (@is_RInt_Chasles R_NormedModule S2 h1 0 h2 (- V1) V2); [apply (@is_RInt_swap R_NormedModule) in I1'; exact I1' | exact I2].
Qed.

(** In a lying tank the sections are those of both heads and the rectangle between them. *)
Theorem C118_lying_section : forall quad extra t D L kA kB aA aB h, exact_quad quad -> 0 < D ->
  horizontal_head kA D aA -> horizontal_head kB D aB -> lying t D L kA kB aA aB -> 0 < h -> h + 1e-7 * h <= D ->
  exists A SA SB, tank_A_cross_sectional quad extra t h = Ok A /\
  (forall y, h - 1e-7 * h <= y <= h + 1e-7 * h -> section_area (head_depth kA D aA) (D / 2) y (SA y) /\ section_area (head_depth kB D aB) (D / 2) y (SB y)) /\
  is_RInt (fun y => SA y + SB y + L * (2 * half_chord (D / 2) y)) (h - 1e-7 * h) (h + 1e-7 * h) (2 * (1e-7 * h) * A).
Proof.
  intros quad extra t D L kA kB aA aB h HQ HD HA HB (E1 & E2 & E3 & E4 & E5 & E6 & E7 & E8 & E9 & E10 & E11 & E12) Hh Hm.
  set (dx := 1e-7 * h) in *. assert (Pd : 0 < dx < h) by (unfold dx; lra).
  assert (X : forall y, 0 <= y <= D -> exists V VA VB A, tank_V_from_h quad t y = Ok V /\ V = VA + VB + L * A /\
    head_volume (head_depth kA D aA) (D / 2) y VA /\ head_volume (head_depth kB D aB) (D / 2) y VB /\ is_RInt (fun y => 2 * half_chord (D / 2) y) 0 y A).
  { intros y Hy. pose proof (C81_horizontal quad D L kA kB aA aB y HQ HD ltac:(lra) HA HB) as HV.
    replace (clamp 0 D y) with y in HV by (unfold clamp; rewrite Rmin_right, Rmax_right by lra; reflexivity).
    unfold tank_V_from_h. rewrite E1, E2, E3, E5, E6, E7, E8, E9, E10, E11, E12. exact HV. }
  destruct (X (h - dx) ltac:(lra)) as (V1 & VA1 & VB1 & A1 & Ea & Q1 & IA1 & IB1 & IS1).
  destruct (X h ltac:(lra)) as (V0 & _ & _ & _ & Eb & _).
  destruct (X (h + dx) ltac:(lra)) as (V2 & VA2 & VB2 & A2 & Ec & Q2 & IA2 & IB2 & IS2).
  destruct (slab _ _ (h - dx) (h + dx) _ _ ltac:(lra) IA1 IA2) as (SA & HSA & JA).
  destruct (slab _ _ (h - dx) (h + dx) _ _ ltac:(lra) IB1 IB2) as (SB & HSB & JB).
  exists ((V2 - V1) / (2 * dx)), SA, SB. split; [|split].
  - unfold tank_A_cross_sectional. rewrite E4.
    rewrite (proj2 (Reqb_false h D)) by lra. rewrite (proj2 (Reqb_false h 0)) by lra. cbn [orb].
    fold dx. apply (central extra _ h dx V1 V0 V2); auto. lra.
  - intros y Hy. split; [apply HSA | apply HSB]; exact Hy.
  - assert (JC : is_RInt (fun y => 2 * half_chord (D / 2) y) (h - dx) (h + dx) (- A1 + A2)).
    { apply (@is_RInt_Chasles R_NormedModule _ (h - dx) 0 (h + dx) (- A1) A2); [apply (@is_RInt_swap R_NormedModule) in IS1; exact IS1 | exact IS2]. }
    replace (2 * dx * ((V2 - V1) / (2 * dx))) with ((VA2 - VA1) + (VB2 - VB1) + L * (- A1 + A2)) by (rewrite Q1, Q2; field; lra).
    apply (@is_RInt_plus R_NormedModule (fun y => SA y + SB y) (fun y => L * (2 * half_chord (D / 2) y))).
    + apply (@is_RInt_plus R_NormedModule SA SB); assumption.
    + apply (@is_RInt_scal R_NormedModule _ _ _ L _ JC).
Qed.

Example C118_lying_ex : let s := mk_side None None None None None in
  let t := mk_tank 2 3 (3 / 2) true s s 2 0 0 0 0 0 0 0 0 0 0 in
  lying t 2 3 Flat Flat 0 0 /\ horizontal_head Flat 2 0 /\ 0 < 1 /\ 1 + 1e-7 * 1 <= 2.
Proof. intros s t. repeat split; lra. Qed.

(** Empty and full tanks are reported without free surface, whatever their ends. *)
Theorem C118_flat_ends_refuted : ~ (forall quad extra t D L h, 0 < D -> 0 < L ->
  standing t D L Flat Flat 0 0 0 0 0 0 -> 0 <= h <= L -> tank_A_cross_sectional quad extra t h = Ok (PI * (D / 2) ^ 2)).
Proof.
  intros H.
  set (s := mk_side None None None None None).
  set (t := mk_tank 2 3 (3 / 2) false s s (0 + 3 + 0) 0 0 0 0 0 0 0 0 0 0).
  specialize (H (fun _ _ _ => 0) (fun _ _ => Err ValueError) t 2 3 0 ltac:(lra) ltac:(lra) ltac:(repeat split) ltac:(lra)).
  unfold tank_A_cross_sectional in H. rewrite (proj2 (Reqb_true 0 0) eq_refl) in H. rewrite orb_true_r in H.
  injection H as H. pose proof PI_RGT_0. lra.
Qed.

Example C118_ex : let s := mk_side (Some "conical"%string) (Some 1) None None None in
  let t := mk_tank 2 3 (3 / 2) false s (mk_side None None None None None) (1 + 3 + 0) 0 0 0 0 0 0 0 0 0 0 in
  standing t 2 3 Conical Flat 1 0 0 0 0 0 /\ vertical_head Conical 2 1 0 0 /\ vertical_head Flat 2 0 0 0 /\
  tank_A_cross_sectional (fun _ _ _ => 0) (fun _ _ => Err ValueError) t 2 = Ok (PI * (2 / 2) ^ 2).
Proof.
  intros s t. assert (standing t 2 3 Conical Flat 1 0 0 0 0 0) as HS by (repeat split).
  split; [exact HS|]. split; [simpl; lra|]. split; [simpl; lra|].
  apply (C118_wall _ _ t 2 3 Conical Flat 1 0 0 0 0 0); simpl; auto; lra.
Qed.

Print Assumptions C118_mean_section.
Print Assumptions C118_wall.
Print Assumptions C118_lying_section.
Print Assumptions C118_flat_ends_refuted.
