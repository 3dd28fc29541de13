(** Crane valves. *)
From Coq Require Import Reals Lra Lia String List Bool.
From Verif Require Import Base Model_Real Proofs_Real Model_Friction Model_Fittings Properties_Core.
From Coquelicot Require Import Rcomplements.
Import ListNotations.
Open Scope R_scope.
Open Scope string_scope.

(** ** Specification: resistance of each fitting at line size, in multiples of the turbulent friction factor of the pipe
    (Crane TP 410); three coefficients where it depends on the size of the valve, up to 9 and up to 15 inches *)
Definition by_size (a b c : R) (D : R) : R := if Rleb D 0.2286 then a else if Rleb D 0.381 then b else c.
Definition by_size' (a b c : R) (D : R) : R := if Rltb D 0.2286 then a else if Rltb D 0.381 then b else c.
Definition line_size : list (string * (R -> R)) :=
  [("CRANE_GATE_VALVE", fun _ => 8); ("CRANE_GLOBE_VALVE", fun _ => 340); ("CRANE_ANGLE_VALVE_0", fun _ => 55); ("CRANE_ANGLE_VALVE_1", fun _ => 150);
   ("CRANE_ANGLE_VALVE_2", fun _ => 55); ("CRANE_SWING_CHECK_VALVE", fun _ => 50); ("CRANE_SWING_CHECK_VALVE_ANGLED", fun _ => 100);
   ("CRANE_LIFT_CHECK_VALVE", fun _ => 600); ("CRANE_LIFT_CHECK_VALVE_ANGLED", fun _ => 55);
   ("CRANE_TILTING_CHECK_VALVE_5DEG", by_size 40 30 20); ("CRANE_TILTING_CHECK_VALVE_15DEG", by_size' 120 90 60);
   ("CRANE_GLOBE_STOP_CHECK_VALVE_0", fun _ => 400); ("CRANE_GLOBE_STOP_CHECK_VALVE_1", fun _ => 300); ("CRANE_GLOBE_STOP_CHECK_VALVE_2", fun _ => 55);
   ("CRANE_ANGLE_STOP_CHECK_VALVE_0", fun _ => 200); ("CRANE_ANGLE_STOP_CHECK_VALVE_1", fun _ => 350); ("CRANE_ANGLE_STOP_CHECK_VALVE_2", fun _ => 55);
   ("CRANE_BALL_VALVE", fun _ => 3); ("CRANE_DIAPHRAGM_VALVE_WEIR", fun _ => 149); ("CRANE_DIAPHRAGM_VALVE_STRAIGHT_THROUGH_WEIR", fun _ => 39);
   ("CRANE_FOOT_VALVE_POPPET_DISK", fun _ => 420); ("CRANE_FOOT_VALVE_HINGED_DISK", fun _ => 75);
   ("CRANE_BUTTERFLY_VALVE_CENTRIC", by_size 45 35 25); ("CRANE_BUTTERFLY_VALVE_DOUBLE_OFFSET", by_size 74 52 43); ("CRANE_BUTTERFLY_VALVE_TRIPLE_OFFSET", by_size 218 96 55);
   ("CRANE_PLUG_VALVE_STRAIGHT_THROUGH", fun _ => 18); ("CRANE_PLUG_VALVE_3_WAY_STRAIGHT_THROUGH", fun _ => 30); ("CRANE_PLUG_VALVE_3_WAY_90_DEG", fun _ => 90)].

Ltac by_entry H := cbn [In line_size] in H; repeat (destruct H as [H|H]; [apply pair_equal_spec in H as [<- <-]|]); [..|contradiction].
Ltac eqs := repeat match goal with |- context[Reqb ?a ?b] => first
  [ rewrite (proj2 (Reqb_true a b)) by lra | rewrite (proj2 (Reqb_false a b)) by lra ] end.
Ltac pick := unfold Crane_loss_coefficient; cbv [String.eqb Ascii.eqb Bool.eqb]; cbv iota.

(** ** C79 *)
(** The table covers exactly the fittings accepted; any other name raises ValueError. *)
Theorem C79_fittings : map fst line_size = CRANE_VALVES /\
  (forall D1 D2 angle fd n, ~ In n CRANE_VALVES -> Crane_loss_coefficient D1 D2 angle n fd = Err ValueError).
Proof.
  split; [reflexivity|]. intros D1 D2 a fd n N. cbn [In CRANE_VALVES] in N. unfold Crane_loss_coefficient.
  repeat match goal with |- context[String.eqb ?m ?s] => destruct (String.eqb_spec m s); [exfalso; apply N; subst; tauto|] end. reflexivity.
Qed.
(** A valve of the size of the pipe has its coefficient times the friction factor, whatever angle is passed. *)
Theorem C79_line_size : forall n c D angle fd, In (n, c) line_size -> 0 < D -> Crane_loss_coefficient D D angle n (Some fd) = Ok (c D * fd).
Proof.
  intros n c D a fd H HD. assert (B : pdiv D D = Ok 1) by (rewrite pdiv_ok by lra; f_equal; field; lra).
  by_entry H; pick;
  unfold K_gate_valve_Crane, K_globe_valve_Crane, K_angle_valve_Crane, K_swing_check_valve_Crane, K_lift_check_valve_Crane, K_tilting_disk_check_valve_Crane,
    K_globe_stop_check_valve_Crane, K_angle_stop_check_valve_Crane, K_ball_valve_Crane, K_diaphragm_valve_Crane, K_foot_valve_Crane, K_butterfly_valve_Crane, K_plug_valve_Crane,
    by_size, by_size'; try rewrite B; cbn [bind]; cbv zeta; eqs; cbn [orb negb bind]; eqs; cbn [orb negb bind]; try reflexivity.
  all: try (rewrite (proj2 (Rltb_true 5 10)) by lra); try (rewrite (proj2 (Rltb_false 15 10)) by lra); repeat (rcase; try lra); reflexivity.
Qed.
Lemma reduced K b x : 0 < b <= 1 -> 0 < K -> 0 <= x -> K <= (K + x) / b ^ 4 /\ b ^ 4 <> 0.
Proof.
  intros B HK Hx. assert (P : 0 < b ^ 4 <= 1). { split. apply pow_lt; lra. replace 1 with (1 ^ 4) by ring. apply pow_incr; lra. }
  split; [|lra]. apply Rmult_le_reg_r with (b ^ 4); [lra|]. unfold Rdiv. rewrite Rmult_assoc, Rinv_l by lra. nra.
Qed.
(** A valve smaller than the pipe (with its reducers) never has less resistance than the line-size valve. *)
Theorem C79_reduced : forall n c D1 D2 angle fd, In (n, c) line_size -> 0 < D1 <= D2 -> 0 < angle <= 180 -> 0 < fd ->
  exists K, Crane_loss_coefficient D1 D2 angle n (Some fd) = Ok K /\ 0 < c D2 * fd <= K.
Proof.
  intros n c D1 D2 a fd H HD Ha Hf. assert (B : pdiv D1 D2 = Ok (D1 / D2)) by (rewrite pdiv_ok by lra; reflexivity).
  assert (b01 : 0 < D1 / D2 <= 1) by (split; [apply Rdiv_lt_0_compat; lra|apply Rle_div_l; lra]). set (b := D1 / D2) in *. clearbody b.
  pose proof PI_RGT_0 as P. assert (A : 0 < radians a <= PI) by (unfold radians; assert (0 < a * PI <= 180 * PI) by (split; [apply Rmult_lt_0_compat; lra|apply Rmult_le_compat_r; lra]); replace (a * (PI / 180)) with (a * PI / 180) by field; lra).
  assert (S5 : 0 <= sin (0.5 * radians a)) by (apply sin_ge_0; lits; lra).
  assert (S2 : 0 <= sin (radians a / 2)) by (apply sin_ge_0; lra).
  assert (Q5 : psqrt (sin (0.5 * radians a)) = Ok (sqrt (sin (0.5 * radians a)))) by (apply psqrt_ok; lra).
  assert (Q2 : psqrt (sin (radians a / 2)) = Ok (sqrt (sin (radians a / 2)))) by (apply psqrt_ok; lra).
  pose proof (sqrt_pos (sin (0.5 * radians a))) as R5. pose proof (sqrt_pos (sin (radians a / 2))) as R2.
  assert (bb : 0 <= b ^ 2 <= 1) by nra. assert (b4 : b * b * (b * b) = b ^ 4) by ring.
  by_entry H; pick;
  unfold K_gate_valve_Crane, K_globe_valve_Crane, K_angle_valve_Crane, K_swing_check_valve_Crane, K_lift_check_valve_Crane, K_tilting_disk_check_valve_Crane,
    K_globe_stop_check_valve_Crane, K_angle_stop_check_valve_Crane, K_ball_valve_Crane, K_diaphragm_valve_Crane, K_foot_valve_Crane, K_butterfly_valve_Crane, K_plug_valve_Crane,
    by_size, by_size'; try rewrite B; cbn [bind]; cbv zeta; eqs; cbn [orb negb bind];
    try (eexists; split; [reflexivity|split; lra]).
  all: try (rewrite (proj2 (Rltb_true 5 10)) by lra); try (rewrite (proj2 (Rltb_false 15 10)) by lra).
  all: try (solve [repeat (rcase; try lra); eexists; (split; [reflexivity|split; lra])]).
  all: rewrite ?B; cbn [bind]; eqs; cbn [orb negb bind].
  all: destruct (Req_dec b 1) as [b1|b1]; [rewrite (proj2 (Reqb_true b 1)) by lra; cbn [orb]; eexists; split; [reflexivity|split; lra]|
    rewrite (proj2 (Reqb_false b 1)) by lra; cbn [orb]].
  all: try (rcase).
  all: rewrite ?Q5, ?Q2; cbn [bind]; rewrite ?b4, ?Rplus_assoc.
  all: match goal with |- exists K, pdiv (?K0 + ?x) _ = Ok K /\ _ => assert (X : 0 <= x); [|destruct (reduced K0 b x ltac:(lra) ltac:(lra) X) as [X1 X2]; rewrite pdiv_ok by exact X2; eexists; split; [reflexivity|split; [lra|exact X1]]] end.
  all: assert (0 <= 1 - b * b <= 1) by nra; assert (0 <= 1 - b ^ 2 <= 1) by lra; assert (0 <= 1 - b <= 1) by lra; clear X || idtac.
  all: set (u := 1 - b * b) in *; set (v := 1 - b ^ 2) in *; set (w := 1 - b) in *; clearbody u v w.
  all: repeat first [apply Rplus_le_le_0_compat | apply Rmult_le_pos | apply pow2_ge_0 | apply pow_le]; try (lits; lra); try nra.
Qed.
(** Without a friction factor the one of the pipe is used. *)
Theorem C79_friction_default : forall D1 D2 angle n f, 0 < D2 -> ft_Crane D2 = Ok f ->
  Crane_loss_coefficient D1 D2 angle n None = Crane_loss_coefficient D1 D2 angle n (Some f).
Proof.
  intros D1 D2 a n f HD Hf. unfold Crane_loss_coefficient.
  repeat match goal with |- context[String.eqb ?m ?s] => destruct (String.eqb_spec m s) as [->|]; [clear - Hf;
    unfold K_gate_valve_Crane, K_globe_valve_Crane, K_angle_valve_Crane, K_swing_check_valve_Crane, K_lift_check_valve_Crane, K_tilting_disk_check_valve_Crane,
    K_globe_stop_check_valve_Crane, K_angle_stop_check_valve_Crane, K_ball_valve_Crane, K_diaphragm_valve_Crane, K_foot_valve_Crane, K_butterfly_valve_Crane, K_plug_valve_Crane; rewrite Hf; reflexivity|] end.
  reflexivity.
Qed.
(** With reducers of zero angle a gate valve reports its line-size resistance, a finite amount below the value at every
    positive angle however small; a ball valve does not jump. *)
Theorem C79_gate_zero_angle_refuted : forall D1 D2 fd, 0 < D1 < D2 -> 0 < fd -> exists K0 gap,
  K_gate_valve_Crane D1 D2 0 (Some fd) = Ok K0 /\ 0 < gap /\
  (forall angle K, 0 < angle <= 180 -> K_gate_valve_Crane D1 D2 angle (Some fd) = Ok K -> K0 + gap <= K) /\
  K_ball_valve_Crane D1 D2 0 (Some fd) = Ok (3 * fd / (D1 / D2) ^ 4).
Proof.
  intros D1 D2 fd H Hf. assert (B : forall x, pdiv x D2 = Ok (x / D2)) by (intros; rewrite pdiv_ok by lra; reflexivity).
  assert (b01 : 0 < D1 / D2 < 1). { split. apply Rdiv_lt_0_compat; lra. apply Rmult_lt_reg_r with D2; [lra|]. unfold Rdiv. rewrite Rmult_assoc, Rinv_l; lra. }
  unfold K_gate_valve_Crane, K_ball_valve_Crane. rewrite B. cbn [bind]. cbv zeta. set (b := D1 / D2) in *. clearbody b.
  assert (b4 : b * b * (b * b) = b ^ 4) by ring. assert (P4 : 0 < b ^ 4 < 1). { split. apply pow_lt; lra. rewrite <- b4. assert (0 < b * b < 1) by nra. nra. }
  rewrite (proj2 (Reqb_false b 1)) by lra. assert (R0 : radians 0 = 0) by (unfold radians; field). rewrite R0. rewrite (proj2 (Reqb_true 0 0)) by lra. cbn [orb].
  exists (8 * fd), (8 * fd * (1 / b ^ 4 - 1)). splits; try reflexivity.
  - apply Rmult_lt_0_compat; [lra|]. assert (1 < 1 / b ^ 4); [|lra]. apply Rmult_lt_reg_r with (b ^ 4); [lra|]. unfold Rdiv. rewrite Rmult_assoc, Rinv_l; lra.
  - intros a K Ha. pose proof PI_RGT_0 as P. assert (A : 0 < radians a <= PI) by (unfold radians; assert (0 < a * PI <= 180 * PI) by (split; [apply Rmult_lt_0_compat; lra|apply Rmult_le_compat_r; lra]); replace (a * (PI / 180)) with (a * PI / 180) by field; lra).
    rewrite (proj2 (Reqb_false _ 0)) by lra. cbn [orb].
    assert (S5 : 0 <= sin (0.5 * radians a)) by (apply sin_ge_0; lits; lra). pose proof (sqrt_pos (sin (0.5 * radians a))) as R5.
    replace (8 * fd + 8 * fd * (1 / b ^ 4 - 1)) with (8 * fd / b ^ 4) by (field; lra).
    assert (b2 : 0 <= 1 - b * b) by nra.
    assert (G : forall x, 0 <= x -> 8 * fd / b ^ 4 <= (8 * fd + x) / b ^ 4).
    { intros x Hx. unfold Rdiv. apply Rmult_le_compat_r; [|lra]. apply Rlt_le, Rinv_0_lt_compat; lra. }
    rewrite ?psqrt_ok by lra. rewrite b4. cbn [bind]. rcase; rewrite pdiv_ok by lra; intros E; apply (f_equal (fun r => match r with Ok v => v | _ => 0 end)) in E; cbn beta iota in E; rewrite <- E; apply G.
    + apply Rmult_le_pos; [lra|]. apply Rmult_le_pos; lits; nra.
    + apply Rmult_le_pos; [lra|]. lits; nra.
  - rewrite (proj2 (Rleb_true 0 (PI / 4))) by (pose proof PI_RGT_0; lra). replace (0 / 2) with 0 by field. rewrite sin_0. rewrite pdiv_ok by lra. f_equal. field. lra.
Qed.
Example C79_ex_globe : Crane_loss_coefficient 0.1 0.1 0 "CRANE_GLOBE_VALVE" (Some 0.02) = Ok 6.8.
Proof.
  rewrite (C79_line_size "CRANE_GLOBE_VALVE" (fun _ => 340)); [f_equal; lits; lra|cbn; tauto|lits; lra].
Qed.
Example C79_ex_reduced : exists K, Crane_loss_coefficient 0.05 0.1 45 "CRANE_BALL_VALVE" (Some 0.02) = Ok K /\ 0 < 3 * 0.02 <= K.
Proof. apply (C79_reduced "CRANE_BALL_VALVE" (fun _ => 3)); [cbn; tauto|lits; lra..]. Qed.

(** Minimum velocity to lift a check valve's disc fully: proportional to the inverse root of the density; but for the
    styles that depend on the diameter ratio, leaving out a diameter is not reported as a bad argument: it fails with
    UnboundLocalError. *)
Definition ratio_styles : list string :=
  ["lift check straight"; "lift check angled"; "stop check globe 1"; "stop check angle 1"; "stop check globe 2"; "stop check angle 2"; "stop check globe 3"; "stop check angle 3"].
Definition plain_styles : list (string * R) :=
  [("swing check angled", 45); ("swing check straight", 75); ("swing check UL", 120); ("tilting check 5°", 100); ("tilting check 15°", 40); ("foot valve poppet disc", 20); ("foot valve hinged disc", 45)].
Theorem C79_lift_velocity : forall s k rho D1 D2, In (s, k) plain_styles -> 0 < rho -> D2 <> Some 0 -> v_lift_valve_Crane rho D1 D2 s = Ok (k * sqrt (1 / rho)).
Proof.
  intros s k rho D1 D2 H Hr HD. assert (0 < 1 / rho) by (apply Rdiv_lt_0_compat; lra).
  cbn [In plain_styles] in H; repeat (destruct H as [H|H]; [apply pair_equal_spec in H as [<- <-]|]); [..|contradiction];
  unfold v_lift_valve_Crane; rewrite pdiv_ok by lra; cbn [bind]; (destruct D1 as [d1|]; [destruct D2 as [d2|]; [rewrite pdiv_ok by (intros E; apply HD; congruence); cbn [bind]|]|]);
  cbv [String.eqb Ascii.eqb Bool.eqb]; cbv iota zeta; rewrite psqrt_ok by lra; reflexivity.
Qed.
Theorem C79_lift_velocity_refuted : forall s rho D1 D2, In s ratio_styles -> 0 < rho -> D1 = None \/ D2 = None ->
  v_lift_valve_Crane rho D1 D2 s = Err UnboundLocalError.
Proof.
  intros s rho D1 D2 H Hr HD. cbn [In ratio_styles] in H.
  repeat (destruct H as [<-|H]); [..|contradiction]; unfold v_lift_valve_Crane; rewrite pdiv_ok by lra; cbn [bind];
  destruct D1 as [d1|]; destruct D2 as [d2|]; try (destruct HD; discriminate); reflexivity.
Qed.

Print Assumptions C79_fittings.
Print Assumptions C79_line_size.
Print Assumptions C79_reduced.
Print Assumptions C79_friction_default.
Print Assumptions C79_gate_zero_angle_refuted.
Print Assumptions C79_lift_velocity.
Print Assumptions C79_lift_velocity_refuted.
