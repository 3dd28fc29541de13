(** C56: differential pressure meters by name - diameter ratio, coefficients and permanent loss.
    Claims about [differential_pressure_meter_beta], [differential_pressure_meter_C_epsilon], [flow_meter_discharge] and
    [differential_pressure_meter_dP] of fluids/flow_meter.py. *)
From Coq Require Import Reals Lra Lia List Bool String Psatz QArith Qreals.
From Coquelicot Require Import Coquelicot.
From Verif Require Import Base Model_Real Proofs_Real Model_Numerics Proofs_Numerics Proofs_Tables Proofs_Tables3 Model_Geometry Spec_Geometry Proofs_Geometry Properties_Geometry2 Model_FlowMeter Properties_FlowMeter.
Import ListNotations.
Open Scope R_scope.

(** ** Specification vocabulary *)
(** The advertised names: flow_meter.py:2408 [all_meters]. *)
Definition cone_names : list string := ["cone meter"; "Hollingshead v cone"]%string.
Definition wedge_names : list string := ["wedge meter"; "Hollingshead wedge"]%string.
Definition all_meters : list string := beta_simple_meters ++ cone_names ++ wedge_names.
(** [area] is the area left open by an obstruction of size [D2] in a pipe of diameter [D]: a round hole; the ring around a
    cone of diameter [D2]; the circular segment of height [D2] below a wedge ([half_chord r y] is half the width of a circle of radius [r] at height [y]). *)
Definition opening (meter : string) (D D2 area : R) : Prop :=
  (In meter beta_simple_meters -> area = PI / 4 * D2 ^ 2) /\
  (In meter cone_names -> area = PI / 4 * D ^ 2 - PI / 4 * D2 ^ 2) /\
  (In meter wedge_names -> is_RInt (fun y => 2 * half_chord (D / 2) y) 0 D2 area).

(** ** Diameter ratios *)
Lemma cone_beta : forall D Dc, 0 < Dc < D -> exists b, diameter_ratio_cone_meter D Dc = Ok b /\ 0 < b < 1 /\ b * b = 1 - (Dc / D) * (Dc / D).
Proof.
  intros D Dc H. pose proof (plate_beta D Dc ltac:(split; lra)) as B. unfold diameter_ratio_cone_meter. rewrite pdiv_ok by lra. cbn [bind].
  rewrite psqrt_ok by nra. eexists. split. reflexivity. set (x := 1 - Dc / D * (Dc / D)). assert (Hx : 0 < x < 1) by (unfold x; nra).
  assert (0 < sqrt x) by (apply sqrt_lt_R0; lra). assert (sqrt x * sqrt x = x) by (apply sqrt_sqrt; lra). splits; nra.
Qed.
Lemma segment_full r : 0 < r -> segment r (2 * r) = PI * r ^ 2.
Proof.
  intros. unfold segment. replace ((r - 2 * r) / r) with (- (1)) by (field; lra). rewrite acos_opp, acos_1. unfold half_chord.
  replace (2 * r * (2 * r - 2 * r)) with 0 by ring. rewrite sqrt_0. ring.
Qed.

Lemma segment_lt r x y : 0 < r -> 0 <= x -> x < y -> y <= 2 * r -> segment r x < segment r y.
Proof.
  intros Hr Hx Hxy Hy. assert (0 < RInt (fun y => 2 * half_chord r y) x y).
  { apply RInt_gt_0; [exact Hxy| |].
    - intros z Hz. pose proof (half_chord_pos r z ltac:(lra)). lra.
    - intros z Hz. apply (continuous_mult (fun _ => 2) (half_chord r)). apply continuous_const. apply half_chord_cont. }
  assert (E : is_RInt (fun y => 2 * half_chord r y) x y (segment r y - segment r x)).
  { apply FTC. lra.
    - intros; apply segment_cont; lra.
    - intros; apply cmult; [apply cconst | apply half_chord_cont].
    - intros; apply segment_derive; lra. }
  rewrite (is_RInt_unique _ _ _ _ E) in H. lra.
Qed.
Lemma wedge_beta : forall D H, 0 < H < D -> exists b, diameter_ratio_wedge_meter D H = Ok b /\ 0 < b < 1 /\ b * b * (PI / 4 * D ^ 2) = segment (D / 2) H.
Proof.
  intros D H HH. pose proof (plate_beta D H ltac:(split; lra)) as B. pose proof PI_RGT_0 as HPI. unfold diameter_ratio_wedge_meter. rewrite pdiv_ok by lra. cbn [bind]. cbv zeta.
  rewrite pacos_ok by lra. cbn [bind]. rewrite psqrt_ok by nra. cbn [bind].
  assert (E : / PI * (acos (1 - 2 * (H / D)) - (1 - 2 * (H / D) + (1 - 2 * (H / D))) * sqrt (H / D - H / D * (H / D))) * (PI / 4 * D ^ 2) = segment (D / 2) H).
  { unfold segment, half_chord. replace ((D / 2 - H) / (D / 2)) with (1 - 2 * (H / D)) by (field; lra).
    replace (sqrt (H * (2 * (D / 2) - H))) with (D * sqrt (H / D - H / D * (H / D))). field; lra.
    replace (H * (2 * (D / 2) - H)) with (D * D * (H / D - H / D * (H / D))) by (field; lra).
    rewrite sqrt_mult by nra. rewrite sqrt_square by lra. reflexivity. }
  set (x := / PI * (acos (1 - 2 * (H / D)) - (1 - 2 * (H / D) + (1 - 2 * (H / D))) * sqrt (H / D - H / D * (H / D)))) in *.
  pose proof (segment_lt (D / 2) 0 H ltac:(lra) ltac:(lra) ltac:(lra) ltac:(lra)) as S0. rewrite segment_0 in S0 by lra.
  pose proof (segment_lt (D / 2) H (2 * (D / 2)) ltac:(lra) ltac:(lra) ltac:(lra) ltac:(lra)) as S1. rewrite segment_full in S1 by lra.
  assert (HA : 0 < PI / 4 * D ^ 2) by (apply Rmult_lt_0_compat; nra).
  assert (Hx : 0 < x < 1). { split; apply Rmult_lt_reg_r with (PI / 4 * D ^ 2); try exact HA; rewrite E; try lra. }
  rewrite psqrt_ok by lra. eexists. split. reflexivity. assert (0 < sqrt x) by (apply sqrt_lt_R0; lra). assert (Q : sqrt x * sqrt x = x) by (apply sqrt_sqrt; lra).
  splits; try nra.
Qed.
Lemma beta_cone D D2 meter : In meter cone_names -> differential_pressure_meter_beta D D2 meter = diameter_ratio_cone_meter D D2.
Proof.
  intros H. assert (E : differential_pressure_meter_beta D D2 meter = (b <- diameter_ratio_cone_meter D D2 ;; Ok b)) by (cbn [In cone_names] in H; names H).
  rewrite E. destruct (diameter_ratio_cone_meter D D2); reflexivity.
Qed.
Lemma beta_wedge D D2 meter : In meter wedge_names -> differential_pressure_meter_beta D D2 meter = diameter_ratio_wedge_meter D D2.
Proof.
  intros H. assert (E : differential_pressure_meter_beta D D2 meter = (b <- diameter_ratio_wedge_meter D D2 ;; Ok b)) by (cbn [In wedge_names] in H; names H).
  rewrite E. destruct (diameter_ratio_wedge_meter D D2); reflexivity.
Qed.
(** names of different kinds differ *)
Definition disjoint (a b : list string) : bool := forallb (fun x => negb (existsb (String.eqb x) b)) a.
Lemma disjoint_ok a b x : disjoint a b = true -> In x a -> In x b -> False.
Proof.
  intros H Ha Hb. unfold disjoint in H. rewrite forallb_forall in H. specialize (H x Ha). apply negb_true_iff in H.
  assert (existsb (String.eqb x) b = true) by (apply existsb_exists; exists x; split; [exact Hb|apply String.eqb_refl]). congruence.
Qed.
(** For every advertised meter the diameter ratio lies strictly between 0 and 1 and its square is the open fraction of the pipe's area. *)
Theorem C56_beta : forall meter D D2, In meter all_meters -> 0 < D2 < D ->
  exists b, differential_pressure_meter_beta D D2 meter = Ok b /\ 0 < b < 1 /\ opening meter D D2 (b ^ 2 * (PI / 4 * D ^ 2)).
Proof.
  intros meter D D2 H HD. unfold all_meters in H. rewrite !in_app_iff in H. unfold opening. destruct H as [H|[H|H]].
  - rewrite beta_round by exact H. rewrite pdiv_ok by lra. eexists. split. reflexivity. split. apply plate_beta. split; lra. splits; intros H'.
    + field. lra.
    + exfalso. eapply (disjoint_ok beta_simple_meters cone_names); [reflexivity|exact H|exact H'].
    + exfalso. eapply (disjoint_ok beta_simple_meters wedge_names); [reflexivity|exact H|exact H'].
  - rewrite beta_cone by exact H. destruct (cone_beta D D2 HD) as [b [E [B Q]]]. exists b. split. exact E. split. exact B. splits; intros H'.
    + exfalso. eapply (disjoint_ok beta_simple_meters cone_names); [reflexivity|exact H'|exact H].
    + replace (b ^ 2) with (b * b) by ring. rewrite Q. field. lra.
    + exfalso. eapply (disjoint_ok cone_names wedge_names); [reflexivity|exact H|exact H'].
  - rewrite beta_wedge by exact H. destruct (wedge_beta D D2 HD) as [b [E [B Q]]]. exists b. split. exact E. split. exact B. splits; intros H'.
    + exfalso. eapply (disjoint_ok beta_simple_meters wedge_names); [reflexivity|exact H'|exact H].
    + exfalso. eapply (disjoint_ok cone_names wedge_names); [reflexivity|exact H'|exact H].
    + replace (b ^ 2) with (b * b) by ring. rewrite Q. apply segment_area; lra.
Qed.
(** The flow through any advertised meter: [C eps] times the ideal discharge through the open area. *)
Theorem C56_discharge : forall meter D D2 P1 P2 rho C e A m, In meter all_meters -> 0 < D2 < D -> 0 <= rho -> P2 <= P1 -> opening meter D D2 A ->
  flow_meter_discharge D D2 P1 P2 rho C e meter = Ok m -> m = C * e * A * sqrt (2 * rho * (P1 - P2) / (1 - (A / (PI / 4 * D ^ 2)) ^ 2)).
Proof.
  intros meter D D2 P1 P2 rho C e A m H HD Hr HP HA E. destruct (C56_beta meter D D2 H HD) as [b [Eb [B O]]].
  assert (EA : A = b ^ 2 * (PI / 4 * D ^ 2)).
  { destruct HA as [A1 [A2 A3]]. destruct O as [O1 [O2 O3]]. unfold all_meters in H. rewrite !in_app_iff in H. destruct H as [H|[H|H]].
    - rewrite A1, O1 by exact H. reflexivity.
    - rewrite A2, O2 by exact H. reflexivity.
    - specialize (A3 H). specialize (O3 H). rewrite <- (is_RInt_unique _ _ _ _ A3), <- (is_RInt_unique _ _ _ _ O3). reflexivity. }
  pose proof PI_RGT_0 as HPI. destruct (beta4_lt1 b B) as [B2 B4]. unfold flow_meter_discharge in E. rewrite Eb in E. cbn [bind] in E. rewrite pdiv_ok in E by lra. cbn [bind] in E.
  rewrite psqrt_ok in E. 2:{ apply Properties_FlowMeter.Rdiv_le_0_compat; [apply Rmult_le_pos; lra|lra]. }
  cbn [bind] in E. apply Ok_inj in E. subst m A. replace (b ^ 2 * (PI / 4 * D ^ 2) / (PI / 4 * D ^ 2)) with (b ^ 2) by (field; lra).
  replace ((b ^ 2) ^ 2) with (b * b * (b * b)) by ring. lits. field.
Qed.

(** ** Names *)
Ltac noname N := repeat match goal with |- context[String.eqb ?m ?s] => destruct (String.eqb_spec m s) as [E|_]; [exfalso; apply N; rewrite E; cbn [In app all_meters beta_simple_meters cone_names wedge_names]; tauto|] end.
(** Any other name is refused by all four functions. *)
Theorem C56_unknown : forall meter, ~ In meter all_meters -> forall D D2 m P1 P2 rho mu k C e taps pos Cs es,
  differential_pressure_meter_beta D D2 meter = Err ValueError /\
  flow_meter_discharge D D2 P1 P2 rho C e meter = Err ValueError /\
  differential_pressure_meter_C_epsilon D D2 m P1 P2 rho mu k meter taps pos Cs es = Err ValueError /\
  differential_pressure_meter_dP D D2 P1 P2 Cs meter = Err ValueError.
Proof.
  intros meter N D D2 m P1 P2 rho mu k C e taps pos Cs es.
  assert (B : differential_pressure_meter_beta D D2 meter = Err ValueError). { unfold differential_pressure_meter_beta. noname N. reflexivity. }
  splits.
  - exact B.
  - unfold flow_meter_discharge. rewrite B. reflexivity.
  - unfold differential_pressure_meter_C_epsilon. noname N. cbn [bind]. noname N. reflexivity.
  - unfold differential_pressure_meter_dP. noname N. reflexivity.
Qed.
(** The short names stand for the ISO meters, "segmental orifice" for Miller's. *)
Theorem C56_aliases : forall D D2 m P1 P2 rho mu k taps pos Cs es,
  let call meter := differential_pressure_meter_C_epsilon D D2 m P1 P2 rho mu k meter taps pos Cs es in
  call "orifice"%string = call "ISO 5167 orifice"%string /\
  call "eccentric orifice"%string = call "ISO 15377 eccentric orifice"%string /\
  call "conical orifice"%string = call "ISO 15377 conical orifice"%string /\
  call "quarter circle orifice"%string = call "ISO 15377 quarter-circle orifice"%string /\
  call "segmental orifice"%string = call "Miller segmental orifice"%string.
Proof. intros. unfold call. splits; reflexivity. Qed.
(** A coefficient or an expansibility given by the caller replaces the computed one and leaves the other unchanged. *)
Definition given (o : option R) (default : R) : R := match o with Some x => x | None => default end.
Theorem C56_override : forall meter, In meter all_meters -> meter <> "unspecified meter"%string -> forall D D2 m P1 P2 rho mu k taps pos Cs es,
  differential_pressure_meter_C_epsilon D D2 m P1 P2 rho mu k meter taps pos Cs es =
  ('(C, e) <- differential_pressure_meter_C_epsilon D D2 m P1 P2 rho mu k meter taps pos None None ;; Ok (given Cs C, given es e)).
Proof.
  intros meter H Hu D D2 m P1 P2 rho mu k taps pos Cs es.
  assert (T : forall (A : Type) (x : result A) (f g : A -> result (R * R)) h, (forall a, f a = bind (g a) h) -> bind x f = bind (bind x g) h).
  { intros A x f g h Hf. destruct x; simpl; auto. }
  cbn [In app all_meters beta_simple_meters cone_names wedge_names] in H.
  repeat (destruct H as [<-|H]; [cbv [differential_pressure_meter_C_epsilon String.eqb Ascii.eqb Bool.eqb andb orb];
    try (exfalso; apply Hu; reflexivity); cbn [bind]; repeat (apply T; intros); destruct Cs, es; reflexivity|]). destruct H.
Qed.
Theorem C56_unspecified : forall D D2 m P1 P2 rho mu k taps pos es,
  (forall e, orifice_expansibility D D2 P1 P2 k = Ok e -> forall C,
     differential_pressure_meter_C_epsilon D D2 m P1 P2 rho mu k "unspecified meter" taps pos (Some C) es = Ok (C, given es e) /\
     differential_pressure_meter_C_epsilon D D2 m P1 P2 rho mu k "unspecified meter" taps pos None es = Err ValueError).
Proof. intros D D2 m P1 P2 rho mu k taps pos es e E C. split; cbv [differential_pressure_meter_C_epsilon]; cbn -[orifice_expansibility]; rewrite E; destruct es; reflexivity. Qed.

(** ** Permanent pressure loss by name *)
Definition plate_names : list string := dP_orifice_set ++ ["long radius nozzle"; "ISA 1932 nozzle"]%string.
Definition venturi_names : list string := ["as cast convergent venturi tube"; "machined convergent venturi tube"; "rough welded convergent venturi tube";
  "Hollingshead venturi smooth"; "Hollingshead venturi sharp"]%string.
Lemma bind_ok A (x : result A) : (v <- x ;; Ok v) = x. Proof. destruct x; reflexivity. Qed.
Lemma dP_plate D D2 P1 P2 C meter : In meter plate_names -> differential_pressure_meter_dP D D2 P1 P2 C meter = match C with Some C => dP_orifice D D2 P1 P2 C | None => Err ValueError end.
Proof.
  intros H. transitivity (v <- match C with Some C => dP_orifice D D2 P1 P2 C | None => Err ValueError end ;; Ok v). 2: apply bind_ok.
  cbn [In app plate_names dP_orifice_set] in H. names H.
Qed.
Lemma dP_venturi D D2 P1 P2 C meter : In meter venturi_names -> differential_pressure_meter_dP D D2 P1 P2 C meter = dP_venturi_tube D D2 P1 P2.
Proof. intros H. transitivity (v <- dP_venturi_tube D D2 P1 P2 ;; Ok v). 2: apply bind_ok. cbn [In venturi_names] in H. names H. Qed.
Lemma dP_cone D D2 P1 P2 C meter : In meter cone_names -> differential_pressure_meter_dP D D2 P1 P2 C meter = dP_cone_meter D D2 P1 P2.
Proof. intros H. transitivity (v <- dP_cone_meter D D2 P1 P2 ;; Ok v). 2: apply bind_ok. cbn [In cone_names] in H. names H. Qed.
Lemma dP_wedge D D2 P1 P2 C meter : In meter wedge_names -> differential_pressure_meter_dP D D2 P1 P2 C meter = dP_wedge_meter D D2 P1 P2.
Proof. intros H. transitivity (v <- dP_wedge_meter D D2 P1 P2 ;; Ok v). 2: apply bind_ok. cbn [In wedge_names] in H. names H. Qed.
(** Plates and nozzles: a proper fraction of the measured difference, and the discharge coefficient is required. *)
Theorem C56_plate_loss : forall meter D D2 P1 P2, In meter plate_names -> 0 < D2 < D -> P2 <= P1 ->
  (forall C, 0 < C -> exists w, differential_pressure_meter_dP D D2 P1 P2 (Some C) meter = Ok w /\ 0 <= w <= P1 - P2) /\
  differential_pressure_meter_dP D D2 P1 P2 None meter = Err ValueError.
Proof.
  intros meter D D2 P1 P2 H HD HP. rewrite (dP_plate _ _ _ _ None) by exact H. split; [|reflexivity]. intros C HC. rewrite dP_plate by exact H.
  destruct (C55_permanent_loss_bounds D D2 P1 P2 C ltac:(split; lra) HC HP) as [w [E [B _]]]. exists w. auto.
Qed.
Lemma venturi_tables : Qincr venturi_tube_betas && Qbetween 0.087648 0.164534 venturi_tube_dP_high && Qbetween 0.039896 0.089232 venturi_tube_dP_low &&
  Nat.eqb (List.length venturi_tube_betas) (List.length venturi_tube_dP_high) && Nat.eqb (List.length venturi_tube_betas) (List.length venturi_tube_dP_low) &&
  Nat.leb 2 (List.length venturi_tube_betas) && Qincr D_bound_venturi_tube = true.
Proof. vm_compute. reflexivity. Qed.
(** Venturi tubes lose between 4 and 16.5 per cent, whatever the sizes. *)
Theorem C56_venturi_loss : forall meter D D2 P1 P2 C, In meter venturi_names -> D <> 0 -> P2 <= P1 ->
  exists w, differential_pressure_meter_dP D D2 P1 P2 C meter = Ok w /\ 0.039896 * (P1 - P2) <= w <= 0.164534 * (P1 - P2).
Proof.
  intros meter D D2 P1 P2 C H HD HP. rewrite dP_venturi by exact H. unfold dP_venturi_tube. rewrite pdiv_ok by exact HD. cbn [bind].
  pose proof venturi_tables as K. rewrite !andb_true_iff in K. destruct K as ((((((K1 & K2) & K3) & K4) & K5) & K6) & K7). apply Nat.eqb_eq in K4. apply Nat.eqb_eq in K5. apply Nat.leb_le in K6.
  destruct (interp_bounds (D2 / D) (map Q2R venturi_tube_betas) (map Q2R venturi_tube_dP_high) 0.087648 0.164534) as [e1 [E1 B1]].
  { now apply Qincr_ok. } { rewrite !map_length. exact K4. } { rewrite map_length. exact K6. } { now apply Qbetween_ok. }
  destruct (interp_bounds (D2 / D) (map Q2R venturi_tube_betas) (map Q2R venturi_tube_dP_low) 0.039896 0.089232) as [e2 [E2 B2]].
  { now apply Qincr_ok. } { rewrite !map_length. exact K5. } { rewrite map_length. exact K6. } { now apply Qbetween_ok. }
  rewrite E1. cbn [bind]. rewrite E2. cbn [bind].
  destruct (interp_bounds D (map Q2R D_bound_venturi_tube) [e1; e2] 0.039896 0.164534) as [e [E B]].
  { now apply Qincr_ok. } { reflexivity. } { cbn. lia. } { intros i Hi. cbn [List.length] in Hi. destruct i as [|[|i]]; [| |lia]; unfold at_; cbn [nth]; clear - B1 B2; lits; lra. }
  rewrite E. cbn [bind]. eexists. split. reflexivity. nra.
Qed.
(** Cones and wedges: the correlation is linear in the diameter ratio and stays a proper fraction only for ratios that are not small. *)
Theorem C56_cone_wedge_loss : forall D D2 P1 P2 C, 0 < D2 < D -> P2 < P1 ->
  (forall meter, In meter cone_names -> exists b w, differential_pressure_meter_beta D D2 meter = Ok b /\ differential_pressure_meter_dP D D2 P1 P2 C meter = Ok w /\
     0 < w /\ (w <= P1 - P2 <-> 0.09 / 0.813 <= b)) /\
  (forall meter, In meter wedge_names -> exists b w, differential_pressure_meter_beta D D2 meter = Ok b /\ differential_pressure_meter_dP D D2 P1 P2 C meter = Ok w /\
     0 < w /\ (w <= P1 - P2 <-> 0.09 / 0.79 <= b)).
Proof.
  intros D D2 P1 P2 C HD HP. split; intros meter H.
  - rewrite beta_cone, dP_cone by exact H. unfold dP_cone_meter. destruct (cone_beta D D2 HD) as [b [E [B _]]]. rewrite E. cbn [bind]. eexists. eexists. split. reflexivity. split. reflexivity.
    lits. split. apply Rmult_lt_0_compat; lra. split; intros; nra.
  - rewrite beta_wedge, dP_wedge by exact H. unfold dP_wedge_meter. destruct (wedge_beta D D2 HD) as [b [E [B _]]]. rewrite E. cbn [bind]. eexists. eexists. split. reflexivity. split. reflexivity.
    lits. split. apply Rmult_lt_0_compat; lra. split; intros; nra.
Qed.
(** A cone filling nearly the whole pipe: the reported permanent loss exceeds the measured difference. *)
Theorem C56_cone_loss_refuted : exists w, differential_pressure_meter_dP 1 0.999 2 1 None "cone meter" = Ok w /\ 2 - 1 < w.
Proof.
  assert (H : 0 < 0.999 < 1) by (lits; lra). destruct (proj1 (C56_cone_wedge_loss 1 0.999 2 1 None H ltac:(lra)) "cone meter"%string ltac:(left; reflexivity)) as [b [w [E [Ew [_ I]]]]].
  exists w. split. exact Ew. apply Rnot_le_lt. intros Hw. apply I in Hw. rewrite beta_cone in E by (left; reflexivity).
  destruct (cone_beta 1 0.999 H) as [b' [E' [B Q]]]. rewrite E in E'. apply Ok_inj in E'. subst b'. clear - Hw Q B; lits; nra.
Qed.
(** Two advertised meters have no permanent loss at all: one is not implemented, the other not recognised. *)
Theorem C56_all_meters_have_loss_refuted : In "venturi nozzle"%string all_meters /\ In "unspecified meter"%string all_meters /\ forall D D2 P1 P2 C,
  differential_pressure_meter_dP D D2 P1 P2 C "venturi nozzle" = Err NotImplementedError /\
  differential_pressure_meter_dP D D2 P1 P2 C "unspecified meter" = Err ValueError.
Proof. splits. cbn; tauto. cbn; tauto. intros. split; reflexivity. Qed.
(** Every other advertised meter is one of the four kinds above. *)
Theorem C56_loss_kinds : forall meter, In meter all_meters ->
  In meter plate_names \/ In meter venturi_names \/ In meter cone_names \/ In meter wedge_names \/ meter = "venturi nozzle"%string \/ meter = "unspecified meter"%string.
Proof. intros meter H. cbn [In app all_meters beta_simple_meters cone_names wedge_names plate_names dP_orifice_set venturi_names] in *.
  repeat (destruct H as [H|H]; [first [left; rewrite H; tauto | right; left; rewrite H; tauto | right; right; rewrite <- H; tauto]|]). destruct H. Qed.

Example C56_ex_names : In "Hollingshead wedge"%string all_meters /\ ~ In "rotameter"%string all_meters /\ List.length all_meters = 28%nat.
Proof. splits. cbn; tauto. cbn. intuition discriminate. reflexivity. Qed.
Example C56_ex_cone : exists b, differential_pressure_meter_beta 5 3 "cone meter" = Ok b /\ b = 0.8.
Proof.
  unfold differential_pressure_meter_beta. cbn -[diameter_ratio_cone_meter]. unfold diameter_ratio_cone_meter. rewrite pdiv_ok by lra. cbn [bind]. rewrite psqrt_ok by lra. eexists. split. reflexivity.
  replace (1 - 3 / 5 * (3 / 5)) with ((4 / 5) * (4 / 5)) by field. rewrite sqrt_square by lra. lits. field.
Qed.

Print Assumptions C56_beta.
Print Assumptions C56_discharge.
Print Assumptions C56_unknown.
Print Assumptions C56_aliases.
Print Assumptions C56_override.
Print Assumptions C56_unspecified.
Print Assumptions C56_plate_loss.
Print Assumptions C56_venturi_loss.
Print Assumptions C56_cone_wedge_loss.
Print Assumptions C56_cone_loss_refuted.
Print Assumptions C56_all_meters_have_loss_refuted.
Print Assumptions C56_loss_kinds.
