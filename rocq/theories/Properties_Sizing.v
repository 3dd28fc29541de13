(** C77: control valve sizing delivers the requested flow. *)
From Coq Require Import Reals Lra Lia String List Bool.
From Verif Require Import Base Model_Real Proofs_Real Interval Model_Valve Model_Sizing Properties_Core Properties_Valve Proofs_Sizing.
From Coquelicot Require Import Rcomplements.
Open Scope R_scope.

(** ** Specification (IEC 60534-2-1), SI units *)

(** Flow (m3/s) of a liquid through a valve of coefficient Kv under an effective pressure drop (Pa); the reference
    density is that of water at 288.15 K. *)
Definition capacity_l (rho drop Kv : R) : R := Kv / 36000 * sqrt (drop / 1000 / (rho / 999.10329075702327)).
(** Effective drop without fittings: the actual one, limited by choking. *)
Definition drop_l (Psat Pc FL P1 P2 : R) : R := Rmin (P1 - P2) (choking_dP_l Psat Pc FL P1).

(** Loss coefficients of the reducers on both sides, and of the inlet one alone (taken as 0 for an inlet pipe
    narrower than the valve). *)
Definition reducers (d D1 D2 : R) : R :=
  (1 - (d / D1) ^ 4) + 0.5 * (1 - (d / D1) ^ 2) ^ 2 + (1 - (d / D2) ^ 2) ^ 2 - (1 - (d / D2) ^ 4).
Definition inlet_reducer (d D1 : R) : R := if Rltb D1 d then 0 else (1 - (d / D1) ^ 4) + 0.5 * (1 - (d / D1) ^ 2) ^ 2.
(** Squared piping geometry factor FP^2 and squared combined factor FLP^2 of a valve of coefficient Kv and bore d (m). *)
Definition FP_squared (d D1 D2 Kv : R) : R := / (1 + reducers d D1 D2 / 0.0016 * (Kv / (d * 1000) ^ 2) ^ 2).
Definition FLP_squared (FL d D1 Kv : R) : R := FL ^ 2 / (1 + FL ^ 2 / 0.0016 * inlet_reducer d D1 * (Kv / (d * 1000) ^ 2) ^ 2).
(** Effective drop with fittings. *)
Definition drop_fitted (Psat Pc FL P1 P2 d D1 D2 Kv : R) : R :=
  Rmin (FP_squared d D1 D2 Kv * (P1 - P2)) (FLP_squared FL d D1 Kv * (P1 - (0.96 - 0.28 * sqrt (Psat / Pc)) * Psat)).

(** A liquid request: positive data, a real pressure drop, inlet above the vena contracta vapour pressure. *)
Definition liquid (rho Psat Pc mu P1 P2 Q FL : R) : Prop :=
  0 < rho /\ 0 <= Psat /\ 0 < Pc /\ 0 < mu /\ P2 < P1 /\ (0.96 - 0.28 * sqrt (Psat / Pc)) * Psat < P1 /\ 0 < Q /\ 0 < FL <= 1.

(** ** Plumbing *)

Lemma C_l : forall rho Q FL dP PF (ac : bool), 0 < rho -> 0 < FL -> 0 < dP -> 0 < PF ->
  (if Rleb (FL * FL * PF) dP && ac then
     a <- pdiv (Q / 0.1) FL ;; b <- pdiv (rho / rho0) PF ;; r <- psqrt b ;; Ok (a * r)
   else b <- pdiv (rho / rho0) dP ;; r <- psqrt b ;; Ok (Q / 0.1 * r)) =
  Ok (Ceq rho Q (if ac then Rmin dP (FL * FL * PF) else dP)).
Proof.
  intros rho Q FL dP PF ac Hr HF HdP HPF. pose proof rho0_pos. assert (0 < rho / rho0) by (apply Rdiv_lt_0_compat; lra).
  assert (P1 : 0 <= rho / rho0 / dP) by (apply Rdiv_le_0_compat; lra). assert (P2 : 0 <= rho / rho0 / PF) by (apply Rdiv_le_0_compat; lra).
  destruct (Rleb (FL * FL * PF) dP) eqn:B; destruct ac; cbn [andb]; rewrite !pdiv_ok by lra; cbn [bind]; rewrite psqrt_ok by assumption; cbn [bind].
  - apply Rleb_true in B. rewrite Rmin_right by lra. rewrite (scale_sqrt Q FL (FL * FL)) by nra. reflexivity.
  - reflexivity.
  - apply Rleb_false in B. rewrite Rmin_left by lra. reflexivity.
  - reflexivity.
Qed.

Lemma kPa_ratio : forall a b, 0 < b -> a / 1000 / (b / 1000) = a / b.
Proof. intros. field. lra. Qed.

(** The common first part of a sizing request, in kPa and m3/h. *)
Definition FFv (Psat Pc : R) : R := 0.96 - 0.28 * sqrt (Psat / Pc).
Definition Cfirst (rho Psat Pc P1 P2 Q FL : R) (ac : bool) : R :=
  Ceq rho (Q * 3600) (if ac then Rmin (P1 / 1000 - P2 / 1000) (FL * FL * (P1 / 1000 - FFv Psat Pc * (Psat / 1000))) else P1 / 1000 - P2 / 1000).

Lemma valve_l_open : forall fuel rho Psat Pc mu P1 P2 Q D1 D2 d FL Fd ac al full,
  liquid rho Psat Pc mu P1 P2 Q FL ->
  exists choked, valve_l fuel rho Psat Pc mu P1 P2 Q D1 D2 d FL Fd ac al full =
  let C := Cfirst rho Psat Pc P1 P2 Q FL ac in
  let P1 := P1 / 1000 in let P2 := P2 / 1000 in let Psat' := Psat / 1000 in let Q := Q * 3600 in let nu := mu / rho in
  let FF := FFv Psat Pc in
  match D1, D2, d with
  | None, None, None => Ok (Sized C choked (Some 100000) (Rleb 100000 10000) None None None None false)
  | Some D1, Some D2, Some d =>
      let D1 := D1 * 1000 in let D2 := D2 * 1000 in let d := d * 1000 in
      Rev <- Reynolds_valve nu Q D1 FL Fd C ;;
      if (Rltb 10000 Rev || negb al) && (negb (Reqb D1 d) || negb (Reqb D2 d)) then
        '(C, FLP, FP, w) <- iterate_turbulent_l (piping_step_l rho rho0 Psat' P1 (P1 - P2) FF Q FL d D1 D2) full C 20 ;;
        Ok (Sized C choked (Some Rev) (Rleb Rev 10000) (Some FLP) (Some FP) None None w)
      else if Rleb Rev 10000 && al then
        '(C, Rev', FR) <- iterate_laminar nu Q D1 FL Fd d fuel C ;;
        Ok (Sized C choked (Some Rev') (Rleb Rev 10000) None None (Some FR) None false)
      else Ok (Sized C choked (Some Rev) (Rleb Rev 10000) None None None None false)
  | _, _, _ => Err ValueError
  end.
Proof.
  intros fuel rho Psat Pc mu P1 P2 Q D1 D2 d FL Fd ac al full (Hr & Hs & Hc & Hm & HP & HF & HQ & HL).
  exists (Rleb (FL * FL * (P1 / 1000 - FFv Psat Pc * (Psat / 1000))) (P1 / 1000 - P2 / 1000)).
  unfold valve_l. rewrite pdiv_ok by lra. cbn [bind]. rewrite FF_ok by lra. rewrite kPa_ratio by lra. cbn [bind]. fold (FFv Psat Pc) in *.
  unfold is_choked_turbulent_l at 1. rewrite (proj2 (Reqb_false FL 0)) by lra. cbn [bind].
  rewrite C_l by lra. cbn [bind]. reflexivity.
Qed.

Lemma capacity_Ceq : forall rho Q m, 0 < rho -> 0 < m -> capacity_l rho (m * 1000) (Ceq rho (Q * 3600) m) = Q.
Proof.
  intros. unfold capacity_l. replace (m * 1000 / 1000) with m by field. change 999.10329075702327 with rho0.
  pose proof (Ceq_flow rho (Q * 3600) m H H0) as E.
  replace (Ceq rho (Q * 3600) m / 36000 * sqrt (m / (rho / rho0))) with (0.1 * Ceq rho (Q * 3600) m * sqrt (m / (rho / rho0)) / 3600) by (lits; field).
  rewrite E. field.
Qed.
Lemma min_scale : forall k a b, 0 <= k -> Rmin (k * a) (k * b) = k * Rmin a b.
Proof. intros. unfold Rmin. destruct (Rle_dec a b), (Rle_dec (k * a) (k * b)); try reflexivity; nra. Qed.

Lemma drop_kPa : forall Psat Pc FL P1 P2,
  Rmin (P1 / 1000 - P2 / 1000) (FL * FL * (P1 / 1000 - FFv Psat Pc * (Psat / 1000))) * 1000 = drop_l Psat Pc FL P1 P2.
Proof.
  intros. rewrite Rmult_comm, <- min_scale by lra. unfold drop_l, choking_dP_l, FFv. f_equal; lits; field.
Qed.
Lemma drop_pos : forall Psat Pc FL P1 P2, P2 < P1 -> FFv Psat Pc * Psat < P1 -> 0 < FL ->
  0 < Rmin (P1 / 1000 - P2 / 1000) (FL * FL * (P1 / 1000 - FFv Psat Pc * (Psat / 1000))).
Proof. intros. apply Rmin_glb_lt; [lra|]. apply Rmult_lt_0_compat; nra. Qed.

(** ** Liquid, no fittings *)

(** The returned coefficient carries exactly the requested flow, choked or not; with choking ignored it carries it
    under the full pressure drop. *)
Theorem C77_liquid_sized : forall fuel rho Psat Pc mu P1 P2 Q FL Fd al, liquid rho Psat Pc mu P1 P2 Q FL ->
  (exists Kv, size_control_valve_l fuel rho Psat Pc mu P1 P2 Q None None None FL Fd true al = Ok Kv /\ 0 < Kv /\
     capacity_l rho (drop_l Psat Pc FL P1 P2) Kv = Q) /\
  (exists Kv, size_control_valve_l fuel rho Psat Pc mu P1 P2 Q None None None FL Fd false al = Ok Kv /\ 0 < Kv /\
     capacity_l rho (P1 - P2) Kv = Q).
Proof.
  intros fuel rho Psat Pc mu P1 P2 Q FL Fd al HL. pose proof HL as (Hr & Hs & Hc & Hm & HP & HF & HQ & HFL).
  unfold size_control_valve_l. split.
  - destruct (valve_l_open fuel rho Psat Pc mu P1 P2 Q None None None FL Fd true al false HL) as [ch ->]. cbn [bind s_Kv].
    pose proof (drop_pos Psat Pc FL P1 P2 HP HF ltac:(lra)). eexists. split; [reflexivity|]. unfold Cfirst. split. apply Ceq_pos; lra.
    rewrite <- drop_kPa. apply capacity_Ceq; assumption.
  - destruct (valve_l_open fuel rho Psat Pc mu P1 P2 Q None None None FL Fd false al false HL) as [ch ->]. cbn [bind s_Kv].
    eexists. split; [reflexivity|]. unfold Cfirst. split. apply Ceq_pos; lra.
    replace (P1 - P2) with ((P1 / 1000 - P2 / 1000) * 1000) by field. apply capacity_Ceq; lra.
Qed.

(** Lowering the outlet pressure never asks for a larger valve. *)
Theorem C77_liquid_monotone : forall fuel rho Psat Pc mu P1 P2 P2' Q FL Fd al,
  liquid rho Psat Pc mu P1 P2 Q FL -> P2' <= P2 ->
  exists Kv Kv', size_control_valve_l fuel rho Psat Pc mu P1 P2 Q None None None FL Fd true al = Ok Kv /\
    size_control_valve_l fuel rho Psat Pc mu P1 P2' Q None None None FL Fd true al = Ok Kv' /\ Kv' <= Kv.
Proof.
  intros fuel rho Psat Pc mu P1 P2 P2' Q FL Fd al HL H. pose proof HL as (Hr & Hs & Hc & Hm & HP & HF & HQ & HFL).
  assert (HL' : liquid rho Psat Pc mu P1 P2' Q FL) by (unfold liquid; splits; lra).
  unfold size_control_valve_l.
  destruct (valve_l_open fuel rho Psat Pc mu P1 P2 Q None None None FL Fd true al false HL) as [ch ->].
  destruct (valve_l_open fuel rho Psat Pc mu P1 P2' Q None None None FL Fd true al false HL') as [ch' ->]. cbn [bind s_Kv].
  do 2 eexists. splits; try reflexivity. unfold Cfirst. fold (FFv Psat Pc) in HF. apply Ceq_le; try lra. apply drop_pos; lra.
  apply Rmin_glb; [eapply Rle_trans; [apply Rmin_l|lra]|apply Rmin_r].
Qed.

(** Some but not all of the three diameters is a ValueError. *)
Theorem C77_diameters : forall fuel rho Psat Pc mu P1 P2 Q D1 D2 d FL Fd ac al, liquid rho Psat Pc mu P1 P2 Q FL ->
  ~ (D1 = None /\ D2 = None /\ d = None) -> (D1 = None \/ D2 = None \/ d = None) ->
  size_control_valve_l fuel rho Psat Pc mu P1 P2 Q D1 D2 d FL Fd ac al = Err ValueError.
Proof.
  intros fuel rho Psat Pc mu P1 P2 Q D1 D2 d FL Fd ac al HL N S. unfold size_control_valve_l.
  destruct (valve_l_open fuel rho Psat Pc mu P1 P2 Q D1 D2 d FL Fd ac al false HL) as [ch ->].
  destruct D1, D2, d; try reflexivity; exfalso; [destruct S as [?|[?|?]]; discriminate|apply N; auto].
Qed.

(** ** Liquid with reducers *)

Lemma loss_mm : forall d D1 D2, 0 < D1 -> 0 < D2 -> loss_of (d * 1000) (D1 * 1000) (D2 * 1000) = reducers d D1 D2.
Proof.
  intros. unfold loss_of, reducers. replace (d * 1000 / (D1 * 1000)) with (d / D1) by (field; lra).
  replace (d * 1000 / (D2 * 1000)) with (d / D2) by (field; lra). reflexivity.
Qed.
Lemma upstream_mm : forall d D1, 0 < D1 -> upstream (d * 1000) (D1 * 1000) = inlet_reducer d D1.
Proof.
  intros. unfold upstream, inlet_reducer, loss_up_of. replace (d * 1000 / (D1 * 1000)) with (d / D1) by (field; lra).
  destruct (Rltb D1 d) eqn:B.
  - apply Rltb_true in B. rewrite (proj2 (Rltb_true _ _)) by lra. reflexivity.
  - apply Rltb_false in B. rewrite (proj2 (Rltb_false _ _)) by lra. reflexivity.
Qed.

(** The driving term (kPa) seen by a valve of coefficient C with fittings. *)
Definition mfit (Psat Pc FL P1 P2 d D1 D2 C : R) : R :=
  Rmin (FP_squared d D1 D2 C * (P1 / 1000 - P2 / 1000)) (FLP_squared FL d D1 C * (P1 / 1000 - FFv Psat Pc * (Psat / 1000))).
Lemma mfit_kPa : forall Psat Pc FL P1 P2 d D1 D2 C, mfit Psat Pc FL P1 P2 d D1 D2 C * 1000 = drop_fitted Psat Pc FL P1 P2 d D1 D2 C.
Proof. intros. unfold mfit, drop_fitted, FFv. rewrite Rmult_comm, <- min_scale by lra. f_equal; lits; field. Qed.

Lemma step_mm : forall rho Psat Pc mu P1 P2 Q FL d D1 D2 C,
  liquid rho Psat Pc mu P1 P2 Q FL -> 0 < d -> 0 < D1 -> 0 < D2 -> 0 <= reducers d D1 D2 ->
  exists a b, piping_step_l rho rho0 (Psat / 1000) (P1 / 1000) (P1 / 1000 - P2 / 1000) (FFv Psat Pc) (Q * 3600) FL (d * 1000) (D1 * 1000) (D2 * 1000) C =
    Ok (Ceq rho (Q * 3600) (mfit Psat Pc FL P1 P2 d D1 D2 C), a, b) /\ b * b = FP_squared d D1 D2 C /\ a * a = FLP_squared FL d D1 C.
Proof.
  intros rho Psat Pc mu P1 P2 Q FL d D1 D2 C (Hr & Hs & Hc & Hm & HP & HF & HQ & HFL) Hd H1 H2 HR.
  fold (FFv Psat Pc) in HF.
  destruct (step_l_ok rho (Psat / 1000) (P1 / 1000) (P1 / 1000 - P2 / 1000) (FFv Psat Pc) (Q * 3600) FL (d * 1000) (D1 * 1000) (D2 * 1000) C)
    as (a & b & E & _ & E1 & _ & E2); try lra. rewrite loss_mm by lra; assumption.
  exists a, b. rewrite E. rewrite loss_mm, upstream_mm in * by lra. unfold mfit, FP_squared, FLP_squared.
  unfold FP2, FLP2 in *. splits; auto.
Qed.

Lemma factors_pos : forall FL d D1 D2 C, 0 < FL -> 0 < d -> 0 < D1 -> 0 <= reducers d D1 D2 -> 0 < FP_squared d D1 D2 C /\ 0 < FLP_squared FL d D1 C.
Proof.
  intros. rewrite <- upstream_mm || unfold FLP_squared. split. apply FP2_pos; assumption.
  apply FLP2_pos; [assumption|]. rewrite <- upstream_mm by lra. apply upstream_nonneg. lra.
Qed.
Lemma inlet_nonneg : forall d D1, 0 < d -> 0 < D1 -> 0 <= inlet_reducer d D1.
Proof. intros. rewrite <- upstream_mm by lra. apply upstream_nonneg. lra. Qed.

Lemma mfit_pos : forall Psat Pc FL P1 P2 d D1 D2 C, P2 < P1 -> FFv Psat Pc * Psat < P1 -> 0 < FL -> 0 < d -> 0 < D1 -> 0 <= reducers d D1 D2 ->
  0 < mfit Psat Pc FL P1 P2 d D1 D2 C.
Proof.
  intros. destruct (factors_pos FL d D1 D2 C) as [A B]; try assumption. apply Rmin_glb_lt; apply Rmult_lt_0_compat; lra.
Qed.
Lemma mfit_le : forall Psat Pc FL P1 P2 d D1 D2 C C', P2 < P1 -> FFv Psat Pc * Psat < P1 -> 0 < FL -> 0 < d -> 0 < D1 -> 0 <= reducers d D1 D2 ->
  0 <= C -> C <= C' -> mfit Psat Pc FL P1 P2 d D1 D2 C' <= mfit Psat Pc FL P1 P2 d D1 D2 C.
Proof.
  intros. unfold mfit.
  pose proof (FP2_le (reducers d D1 D2) (d * 1000) C C' H4 ltac:(lra) H5 H6) as A.
  pose proof (FLP2_le FL (inlet_reducer d D1) (d * 1000) C C' H1 (inlet_nonneg d D1 H2 H3) ltac:(lra) H5 H6) as B.
  apply Rmin_glb; [eapply Rle_trans; [apply Rmin_l|]|eapply Rle_trans; [apply Rmin_r|]]; apply Rmult_le_compat_r; try lra; assumption.
Qed.
Lemma mfit_shrink : forall Psat Pc FL P1 P2 d D1 D2 C C', P2 < P1 -> FFv Psat Pc * Psat < P1 -> 0 < FL -> 0 < d -> 0 < D1 -> 0 <= reducers d D1 D2 ->
  0 <= C -> C <= C' -> 0.99 * C' <= C -> 0.9801 * mfit Psat Pc FL P1 P2 d D1 D2 C <= mfit Psat Pc FL P1 P2 d D1 D2 C'.
Proof.
  intros. unfold mfit. rewrite <- min_scale by (lits; lra).
  pose proof (FP2_shrink (reducers d D1 D2) (d * 1000) C C' H4 ltac:(lra) H5 H6 H7) as A.
  pose proof (FLP2_shrink FL (inlet_reducer d D1) (d * 1000) C C' H1 (inlet_nonneg d D1 H2 H3) ltac:(lra) H5 H6 H7) as B.
  apply Rmin_glb; [eapply Rle_trans; [apply Rmin_l|]|eapply Rle_trans; [apply Rmin_r|]]; rewrite <- Rmult_assoc; apply Rmult_le_compat_r; try lra; assumption.
Qed.
Lemma mfit_0 : forall Psat Pc FL P1 P2 d D1 D2, 0 < d -> mfit Psat Pc FL P1 P2 d D1 D2 0 =
  Rmin (P1 / 1000 - P2 / 1000) (FL * FL * (P1 / 1000 - FFv Psat Pc * (Psat / 1000))).
Proof. intros. unfold mfit, FP_squared, FLP_squared. replace (0 / (d * 1000) ^ 2) with 0 by (field; lra). f_equal; lits; field. Qed.

Lemma capacity_le : forall rho m m' K, 0 < rho -> 0 <= K -> 0 <= m -> m <= m' -> capacity_l rho m K <= capacity_l rho m' K.
Proof.
  intros. unfold capacity_l. apply Rmult_le_compat_l. lra. apply sqrt_le_1_alt. assert (0 < rho / 999.10329075702327) by (lits; lra).
  unfold Rdiv at 1 3. apply Rmult_le_compat_r. apply Rlt_le, Rinv_0_lt_compat; lra. lra.
Qed.
Lemma capacity_scale : forall rho m K k, 0 < rho -> 0 <= m -> 0 <= k -> capacity_l rho (k * k * m) K = k * capacity_l rho m K.
Proof.
  intros. unfold capacity_l. assert (0 < rho / 999.10329075702327) by (lits; lra).
  replace (k * k * m / 1000 / (rho / 999.10329075702327)) with ((k * k) * (m / 1000 / (rho / 999.10329075702327))) by (field; splits; lits; lra).
  rewrite sqrt_mult. rewrite sqrt_square by lra. ring. nra. apply Rdiv_le_0_compat; lra.
Qed.

(** Sizing with reducers whose total loss is not negative: if a coefficient comes back, the flow it really carries with
    its own piping factors is between 99 % and 100 % of the one requested, and it is at least the coefficient
    without fittings. *)
Theorem C77_liquid_fitted : forall fuel rho Psat Pc mu P1 P2 Q D1 D2 d FL Fd Kv,
  liquid rho Psat Pc mu P1 P2 Q FL -> 0 < d -> 0 < D1 -> 0 < D2 -> D1 <> d \/ D2 <> d -> 0 <= reducers d D1 D2 ->
  size_control_valve_l fuel rho Psat Pc mu P1 P2 Q (Some D1) (Some D2) (Some d) FL Fd true false = Ok Kv ->
  0.99 * Q <= capacity_l rho (drop_fitted Psat Pc FL P1 P2 d D1 D2 Kv) Kv <= Q /\
  exists Kv0, size_control_valve_l fuel rho Psat Pc mu P1 P2 Q None None None FL Fd true false = Ok Kv0 /\ Kv0 <= Kv.
Proof.
  intros fuel rho Psat Pc mu P1 P2 Q D1 D2 d FL Fd Kv HL Hd H1 H2 HN HR E. pose proof HL as (Hr & Hs & Hc & Hm & HP & HF & HQ & HFL).
  fold (FFv Psat Pc) in HF.
  unfold size_control_valve_l in E. destruct (valve_l_open fuel rho Psat Pc mu P1 P2 Q (Some D1) (Some D2) (Some d) FL Fd true false false HL) as [ch EO].
  rewrite EO in E. clear EO. cbv zeta in E. cbn [negb] in E.
  inv_bind E. inv_bind E0. rewrite orb_true_r in E0.
  assert (B : (negb (Reqb (D1 * 1000) (d * 1000)) || negb (Reqb (D2 * 1000) (d * 1000)))%bool = true).
  { destruct HN as [N|N].
    - rewrite (proj2 (Reqb_false (D1 * 1000) (d * 1000))) by lra. reflexivity.
    - rewrite (proj2 (Reqb_false (D2 * 1000) (d * 1000))) by lra. apply orb_true_r. }
  rewrite B in E0. cbn [andb] in E0. inv_bind E0. destruct v1 as [[[C FLP] FP] w].
  assert (EK : C = Kv). { assert (v = Sized C ch (Some v0) (Rleb v0 10000) (Some FLP) (Some FP) None None w) as -> by congruence. cbn in E. congruence. }
  subst C. clear E E0 E1.
  set (C0 := Cfirst rho Psat Pc P1 P2 Q FL true) in *.
  assert (HC0 : 0 < C0) by (unfold C0, Cfirst; apply Ceq_pos; try lra; apply drop_pos; lra).
  (* invariant: at least C0, and not above its image *)
  set (T := fun c => Ceq rho (Q * 3600) (mfit Psat Pc FL P1 P2 d D1 D2 c)).
  assert (TM : forall c c', 0 <= c -> c <= c' -> T c <= T c').
  { intros. apply Ceq_le; try lra. apply mfit_pos; lra. apply mfit_le; lra. }
  assert (T0 : T 0 = C0) by (unfold T, C0, Cfirst; rewrite mfit_0 by lra; reflexivity).
  assert (INV : exists Cj a b t, (C0 <= Cj /\ Cj <= T Cj) /\
     piping_step_l rho rho0 (Psat / 1000) (P1 / 1000) (P1 / 1000 - P2 / 1000) (FFv Psat Pc) (Q * 3600) FL (d * 1000) (D1 * 1000) (D2 * 1000) Cj = Ok (Kv, a, b) /\
     pdiv Cj Kv = Ok t /\ (w = true \/ 0.99 <= t /\ Cj < 10 ^ 40) /\ (false = false -> w = false)).
  { refine (iterate_l_inv (fun c => C0 <= c /\ c <= T c) _ false _ 20%nat C0 Kv FLP FP w _ E2).
  - intros Cj C a b (I1 & I2) S. destruct (step_mm rho Psat Pc mu P1 P2 Q FL d D1 D2 Cj HL Hd H1 H2 HR) as (a' & b' & S' & _).
    assert (C = T Cj) as -> by (unfold T; congruence). split; [lra|]. apply TM; lra.
  - split; [lra|]. rewrite <- T0 at 1. apply TM; lra. }
  destruct INV as (Cj & a & b & t & (I1 & I2) & S1 & S2 & S3 & S4).
    destruct (step_mm rho Psat Pc mu P1 P2 Q FL d D1 D2 Cj HL Hd H1 H2 HR) as (a' & b' & S' & _).
    assert (KT : Kv = T Cj) by (unfold T; congruence). clear S' S1. specialize (S4 eq_refl). destruct S3 as [S3|[S3 _]]; [congruence|].
    assert (0 < Kv) by lra. rewrite pdiv_ok in S2 by lra. assert (t = Cj / Kv) as -> by congruence.
    assert (J : 0.99 * Kv <= Cj).
    { apply (Rmult_le_compat_r Kv) in S3; [|lra]. replace (Cj / Kv * Kv) with Cj in S3 by (field; lra). lra. }
    assert (JK : Cj <= Kv) by lra. pose proof (mfit_pos Psat Pc FL P1 P2 d D1 D2 Cj HP HF ltac:(lra) Hd H1 HR) as M1.
    pose proof (mfit_le Psat Pc FL P1 P2 d D1 D2 Cj Kv HP HF ltac:(lra) Hd H1 HR ltac:(lra) JK) as M2.
    pose proof (mfit_shrink Psat Pc FL P1 P2 d D1 D2 Cj Kv HP HF ltac:(lra) Hd H1 HR ltac:(lra) JK J) as M3.
    pose proof (mfit_pos Psat Pc FL P1 P2 d D1 D2 Kv HP HF ltac:(lra) Hd H1 HR) as M4.
    rewrite <- mfit_kPa.
    assert (Q0 : capacity_l rho (mfit Psat Pc FL P1 P2 d D1 D2 Cj * 1000) Kv = Q) by (rewrite KT; apply capacity_Ceq; assumption).
    split; [split|].
    + rewrite <- Q0 at 1. rewrite <- capacity_scale by (lits; lra). apply capacity_le; try (lits; lra).
    + rewrite <- Q0. apply capacity_le; lra.
    + unfold size_control_valve_l. destruct (valve_l_open fuel rho Psat Pc mu P1 P2 Q None None None FL Fd true false false HL) as [ch' ->]. cbn [bind s_Kv].
      eexists. split; [reflexivity|]. fold C0. lra.
Qed.

(** What the reducers alone could pass, the limit for an infinitely large valve. *)
Definition reducer_limit (rho P1 P2 d D1 D2 : R) : R :=
  (d * 1000) ^ 2 / 36000 * sqrt (0.0016 / reducers d D1 D2) * sqrt ((P1 - P2) / 1000 / (rho / 999.10329075702327)).

Lemma T_grows : forall rho Psat Pc P1 P2 Q FL d D1 D2 C, 0 < rho -> P2 < P1 -> FFv Psat Pc * Psat < P1 -> 0 < Q -> 0 < FL -> 0 < d -> 0 < D1 ->
  0 < reducers d D1 D2 -> 1.02 * reducer_limit rho P1 P2 d D1 D2 <= Q -> 0 < C ->
  1.02 * C <= Ceq rho (Q * 3600) (mfit Psat Pc FL P1 P2 d D1 D2 C).
Proof.
  intros rho Psat Pc P1 P2 Q FL d D1 D2 C Hr HP HF HQ HFL Hd H1 HR HL HC.
  set (dP := P1 / 1000 - P2 / 1000). assert (0 < dP) by (unfold dP; lra).
  pose proof rho0_pos. set (G := rho / rho0). assert (0 < G) by (apply Rdiv_lt_0_compat; lra).
  assert (A : Ceq rho (Q * 3600) (FP_squared d D1 D2 C * dP) <= Ceq rho (Q * 3600) (mfit Psat Pc FL P1 P2 d D1 D2 C)).
  { apply Ceq_le; try lra. apply mfit_pos; lra. apply Rmin_l. }
  eapply Rle_trans; [|exact A]. clear A. unfold Ceq. fold G.
  assert (FPP : 0 < FP_squared d D1 D2 C) by (apply FP2_pos; lra).
  set (D := (d * 1000) ^ 2) in *. assert (0 < D) by (apply pow_lt; lra).
  set (red := reducers d D1 D2) in *.
  (* square of the limit *)
  unfold reducer_limit in HL. fold D red in HL. change 999.10329075702327 with rho0 in HL. fold G in HL.
  assert (S1 : 0 < 0.0016 / red) by (apply Rdiv_lt_0_compat; lits; lra).
  assert (S2 : 0 < (P1 - P2) / 1000 / G) by (apply Rdiv_lt_0_compat; lra).
  assert (SQ : 1.0404 * (D ^ 2 / 36000 ^ 2 * (0.0016 / red) * (dP / G)) <= Q * Q).
  { replace (dP / G) with ((P1 - P2) / 1000 / G) by (unfold dP; field; lra).
    set (s1 := sqrt (0.0016 / red)) in *. set (s2 := sqrt ((P1 - P2) / 1000 / G)) in *.
    assert (E1 : s1 * s1 = 0.0016 / red) by (apply sqrt_sqrt; lra). assert (E2 : s2 * s2 = (P1 - P2) / 1000 / G) by (apply sqrt_sqrt; lra).
    rewrite <- E1, <- E2. assert (0 < s1) by (apply sqrt_lt_R0; lra). assert (0 < s2) by (apply sqrt_lt_R0; lra).
    replace (1.0404 * (D ^ 2 / 36000 ^ 2 * (s1 * s1) * (s2 * s2))) with ((1.02 * (D / 36000 * s1 * s2)) * (1.02 * (D / 36000 * s1 * s2))) by (lits; field).
    assert (0 < D / 36000 * s1 * s2). { apply Rmult_lt_0_compat; [|lra]. apply Rmult_lt_0_compat; lra. }
    apply Rmult_le_compat; try lra; lits; lra. }
  apply Rle_trans with (Q * 3600 / 0.1 * (1.02 * C / (Q * 36000))). right. lits. field. lra.
  apply Rmult_le_compat_l. lits; lra. apply sqrt_ge_iff. apply Rdiv_le_0_compat; lits; lra.
  assert (X : C ^ 2 * (red / 0.0016 / D ^ 2) * (G / dP) <= G / (FP_squared d D1 D2 C * dP)).
  { unfold FP_squared. fold red D. replace (G / (/ (1 + red / 0.0016 * (C / D) ^ 2) * dP)) with ((1 + red / 0.0016 * (C / D) ^ 2) * (G / dP)).
    2:{ field. splits; try lra. pose proof (den_pos red (C / D) ltac:(lra)). apply Rgt_not_eq. 
        replace (D ^ 2 * (1 + red / 0.0016 * (C / D) ^ 2)) with (D ^ 2 * (1 + red / 0.0016 * (C / D) ^ 2)) by reflexivity. try lra. 
        replace (0.0016 * D ^ 2 + red * C ^ 2) with (0.0016 * D ^ 2 * (1 + red / 0.0016 * (C / D) ^ 2)) by (lits; field; lra).
        apply Rmult_lt_0_compat; [|assumption]. assert (0 < D ^ 2) by (apply pow_lt; lra). lits; lra. }
    apply Rmult_le_compat_r. apply Rlt_le, Rdiv_lt_0_compat; lra. replace (C ^ 2 * (red / 0.0016 / D ^ 2)) with (red / 0.0016 * (C / D) ^ 2) by (lits; field; lra). lra. }
  eapply Rle_trans; [|exact X].
  replace (1.02 * C / (Q * 36000) * (1.02 * C / (Q * 36000))) with (C ^ 2 * (1.0404 / 36000 ^ 2 / (Q * Q))) by (lits; field; lra).
  rewrite Rmult_assoc. apply Rmult_le_compat_l. apply pow2_ge_0.
  apply (Rmult_le_reg_r (Q * Q)); [nra|]. replace (1.0404 / 36000 ^ 2 / (Q * Q) * (Q * Q)) with (1.0404 / 36000 ^ 2) by (lits; field; lra).
  apply Rle_trans with (red / 0.0016 / D ^ 2 * (G / dP) * (1.0404 * (D ^ 2 / 36000 ^ 2 * (0.0016 / red) * (dP / G)))).
  right. lits. field. splits; lra. apply Rmult_le_compat_l; [|exact SQ].
  apply Rmult_le_pos; [|apply Rlt_le, Rdiv_lt_0_compat; lra]. apply Rdiv_le_0_compat; [lits; lra|apply pow_lt; lra].
Qed.

(** A flow the fittings cannot pass is not refused with ValueError: the plain request dies with NameError, and only
    the full output carries a warning. *)
Theorem C77_impossible_flow_refuted : forall fuel rho Psat Pc mu P1 P2 Q D1 D2 d FL Fd,
  liquid rho Psat Pc mu P1 P2 Q FL -> 0 < d -> 0 < D1 -> 0 < D2 -> 0 < Fd -> D1 <> d \/ D2 <> d -> 0 < reducers d D1 D2 ->
  1.02 * reducer_limit rho P1 P2 d D1 D2 <= Q ->
  size_control_valve_l fuel rho Psat Pc mu P1 P2 Q (Some D1) (Some D2) (Some d) FL Fd true false = Err NameError /\
  exists o, valve_l fuel rho Psat Pc mu P1 P2 Q (Some D1) (Some D2) (Some d) FL Fd true false true = Ok o /\ s_warning o = true.
Proof.
  intros fuel rho Psat Pc mu P1 P2 Q D1 D2 d FL Fd HL Hd H1 H2 HFd HN HR HQL. pose proof HL as (Hr & Hs & Hc & Hm & HP & HF & HQ & HFL).
  fold (FFv Psat Pc) in HF.
  assert (B : (negb (Reqb (D1 * 1000) (d * 1000)) || negb (Reqb (D2 * 1000) (d * 1000)))%bool = true).
  { destruct HN as [N|N].
    - rewrite (proj2 (Reqb_false (D1 * 1000) (d * 1000))) by lra. reflexivity.
    - rewrite (proj2 (Reqb_false (D2 * 1000) (d * 1000))) by lra. apply orb_true_r. }
  set (T := fun c => Ceq rho (Q * 3600) (mfit Psat Pc FL P1 P2 d D1 D2 c)).
  assert (HC0 : 0 < Cfirst rho Psat Pc P1 P2 Q FL true) by (unfold Cfirst; apply Ceq_pos; try lra; apply drop_pos; lra).
  assert (ST : forall C, 0 < C -> exists a b, piping_step_l rho rho0 (Psat / 1000) (P1 / 1000) (P1 / 1000 - P2 / 1000) (FFv Psat Pc) (Q * 3600) FL (d * 1000) (D1 * 1000) (D2 * 1000) C = Ok (T C, a, b)).
  { intros C _. destruct (step_mm rho Psat Pc mu P1 P2 Q FL d D1 D2 C HL Hd H1 H2 ltac:(lra)) as (a & b & E & _). eauto. }
  assert (GR : forall C, 0 < C -> C < 0.99 * T C).
  { intros C HC. pose proof (T_grows rho Psat Pc P1 P2 Q FL d D1 D2 C Hr HP HF HQ ltac:(lra) Hd H1 HR HQL HC) as G. fold (T C) in G. lits. lra. }
  assert (RV : exists r, Reynolds_valve (mu / rho) (Q * 3600) (D1 * 1000) FL Fd (Cfirst rho Psat Pc P1 P2 Q FL true) = Ok r).
  { eexists. apply Rev_ok; try lra. apply Rdiv_lt_0_compat; lra. }
  destruct RV as [r RV].
  split.
  - unfold size_control_valve_l. destruct (valve_l_open fuel rho Psat Pc mu P1 P2 Q (Some D1) (Some D2) (Some d) FL Fd true false false HL) as [ch ->].
    cbv zeta. rewrite RV. cbn [bind]. rewrite B. cbn [negb]. rewrite orb_true_r. cbn [andb].
    rewrite (iterate_l_nameerror _ T ST GR) by assumption. reflexivity.
  - destruct (valve_l_open fuel rho Psat Pc mu P1 P2 Q (Some D1) (Some D2) (Some d) FL Fd true false true HL) as [ch ->].
    cbv zeta. rewrite RV. cbn [bind]. rewrite B. cbn [negb]. rewrite orb_true_r. cbn [andb].
    destruct (iterate_l_warned _ T ST GR 20 _ HC0) as (C & a & b & ->). cbn [bind]. eexists. split; reflexivity.
Qed.

(** Such a request: water at one bar drop asked to send 100 l/s through a 10 mm valve in a 100 mm line. *)
Example C77_ex_impossible : forall fuel,
  size_control_valve_l fuel 999.10329075702327 0 22064000 0.001 200000 100000 0.1 (Some 0.1) (Some 0.1) (Some 0.01) 0.9 1 true false = Err NameError.
Proof.
  intros. apply C77_impossible_flow_refuted; try (lits; lra).
  - unfold liquid. splits; lits; try lra.
  - unfold reducers. lits. lra.
  - unfold reducer_limit. 
    assert (A : sqrt (0.0016 / reducers 0.01 0.1 0.1) <= 1) by (rewrite <- sqrt_1; apply sqrt_le_1_alt; unfold reducers; lits; lra).
    assert (B : sqrt ((200000 - 100000) / 1000 / (999.10329075702327 / 999.10329075702327)) <= 10) by (apply sqrt_le_iff; lits; lra).
    pose proof (sqrt_pos (0.0016 / reducers 0.01 0.1 0.1)). pose proof (sqrt_pos ((200000 - 100000) / 1000 / (999.10329075702327 / 999.10329075702327))).
    set (a := sqrt (0.0016 / reducers 0.01 0.1 0.1)) in *. set (b := sqrt _) in *. lits.
    apply Rle_trans with (102 / 100 * ((1 / 100 * 1000) ^ 2 / 36000 * 1 * 10)); [|lra].
    apply Rmult_le_compat_l; [lra|]. apply Rmult_le_compat; try lra.
Qed.

(** ** Laminar flow *)

(** The laminar correction terminates for all positive data, and its answer, derated by the Reynolds number factor of
    that very coefficient, still exceeds the turbulent requirement. *)
Theorem C77_laminar : forall rho Psat Pc mu P1 P2 Q D1 D2 d FL Fd Kv0 Rev,
  liquid rho Psat Pc mu P1 P2 Q FL -> 0 < d -> 0 < D1 -> 0 < D2 -> 0 < Fd ->
  size_control_valve_l 0 rho Psat Pc mu P1 P2 Q None None None FL Fd true true = Ok Kv0 ->
  Reynolds_valve (mu / rho) (Q * 3600) (D1 * 1000) FL Fd Kv0 = Ok Rev -> Rev <= 10000 ->
  exists Kv n0, (forall fuel, (n0 <= fuel)%nat ->
      size_control_valve_l fuel rho Psat Pc mu P1 P2 Q (Some D1) (Some D2) (Some d) FL Fd true true = Ok Kv) /\
    exists Rev' FR, Reynolds_valve (mu / rho) (Q * 3600) (D1 * 1000) FL Fd Kv = Ok Rev' /\
      Reynolds_factor FL Kv (d * 1000) Rev' (Rleb (Kv / (d * 1000) ^ 2) 0.01384) = Ok FR /\ Kv0 < FR * Kv.
Proof.
  intros rho Psat Pc mu P1 P2 Q D1 D2 d FL Fd Kv0 Rev HL Hd H1 H2 HFd E0 E1 HRv. pose proof HL as (Hr & Hs & Hc & Hm & HP & HF & HQ & HFL).
  fold (FFv Psat Pc) in HF. unfold size_control_valve_l in *.
  destruct (valve_l_open 0 rho Psat Pc mu P1 P2 Q None None None FL Fd true true false HL) as [ch0 E]. rewrite E in E0. cbn [bind s_Kv] in E0.
  assert (K0 : Kv0 = Cfirst rho Psat Pc P1 P2 Q FL true) by congruence. clear E E0.
  assert (HC0 : 0 < Kv0) by (rewrite K0; unfold Cfirst; apply Ceq_pos; try lra; apply drop_pos; lra).
  assert (Hnu : 0 < mu / rho) by (apply Rdiv_lt_0_compat; lra).
  assert (Q1 : 0 < Q * 3600) by lra. assert (D1' : 0 < D1 * 1000) by lra. assert (d' : 0 < d * 1000) by lra.
  destruct (lam_reaches (mu / rho) (Q * 3600) (D1 * 1000) FL Fd (d * 1000) Kv0 HC0) as [n0 Hn].
  destruct (lam_terminates (mu / rho) (Q * 3600) (D1 * 1000) FL Fd (d * 1000) Hnu Q1 D1' HFL HFd d' n0 Kv0 HC0 Hn) as [[[Kv r] f] HV].
  exists Kv, (S n0). split.
  - intros fuel Hf. destruct (valve_l_open fuel rho Psat Pc mu P1 P2 Q (Some D1) (Some D2) (Some d) FL Fd true true false HL) as [ch ->].
    cbv zeta. rewrite <- K0, E1. cbn [bind]. rewrite (proj2 (Rltb_false _ _)) by lra. cbn [negb orb andb].
    rewrite (proj2 (Rleb_true _ _)) by lra. cbn [andb]. destruct fuel as [|m]; [lia|]. rewrite (HV m) by lia. reflexivity.
  - specialize (HV n0 (le_n _)).
    destruct (lam_sound (mu / rho) (Q * 3600) (D1 * 1000) FL Fd (d * 1000) Hnu Q1 D1' HFL HFd d' _ _ _ _ _ HC0 HV) as (_ & _ & A & FR & B & C & _).
    assert (0 < Kv) by (lits; lra). exists (Rev_of (mu / rho) (Q * 3600) (D1 * 1000) FL Fd Kv), FR. splits; [|rewrite <- B|assumption].
    + apply Rev_ok; lra.
    + f_equal. unfold trim. replace (d * 1000 * (d * 1000)) with ((d * 1000) ^ 2) by ring. set (q := Kv / (d * 1000) ^ 2).
      destruct (Rltb (0.016 * 0.865) q) eqn:L; cbn [negb].
      * apply Rltb_true in L. apply Rleb_false. lits. lra.
      * apply Rltb_false in L. apply Rleb_true. lits. lra.
Qed.

(** The factor reported with the full output is not the one of the returned coefficient when more than one step
    was needed: a very viscous liquid. *)
Theorem C77_reported_FR_refuted : exists rho Psat Pc mu P1 P2 Q D d fuel o FR,
  liquid rho Psat Pc mu P1 P2 Q 1 /\
  valve_l fuel rho Psat Pc mu P1 P2 Q (Some D) (Some D) (Some d) 1 1 true true true = Ok o /\
  Reynolds_factor 1 (s_Kv o) (d * 1000) (Rev_of (mu / rho) (Q * 3600) (D * 1000) 1 1 (s_Kv o)) (trim (d * 1000) (s_Kv o)) = Ok FR /\
  exists r, s_FR o = Some r /\ r < 0.5 /\ 0.75 < FR.
Proof.
  set (rho := 999.10329075702327). set (mu := rho * 100).
  assert (HL : liquid rho 0 22064000 mu 200000 100000 (/ 3600) 1).
  { unfold liquid, mu, rho. splits; lits; try lra. }
  assert (HC : Cfirst rho 0 22064000 200000 100000 (/ 3600) 1 true = 1).
  { unfold Cfirst, Ceq, FFv. change rho with rho0. pose proof rho0_pos. replace (rho0 / rho0) with 1 by (field; lra).
    rewrite Rmin_left by (lits; lra). replace (1 / (200000 / 1000 - 100000 / 1000)) with (/ 10 * / 10) by field.
    rewrite sqrt_square by lra. lits. field. }
  assert (Hnu : mu / rho = 100) by (unfold mu, rho; lits; field).
  assert (HFL : 0 < 1 <= 1) by lra. assert (P01 : 0 < 1) by lra. assert (P100 : 0 < 100) by lra. assert (Pq : 0 < / 3600 * 3600) by lra.
  assert (PD : 0 < 0.1 * 1000) by (lits; lra).
  destruct (lam_reaches 100 (/ 3600 * 3600) (0.1 * 1000) 1 1 (0.1 * 1000) 1 P01) as [n0 Hn].
  destruct (lam_terminates 100 (/ 3600 * 3600) (0.1 * 1000) 1 1 (0.1 * 1000) P100 Pq PD HFL P01 PD n0 1 P01 Hn) as [[[Kv r] f] HV].
  specialize (HV n0 (le_n _)).
  destruct (lam_sound 100 (/ 3600 * 3600) (0.1 * 1000) 1 1 (0.1 * 1000) P100 Pq PD HFL P01 PD _ _ _ _ _ P01 HV) as (Er & Ef & A & FR & B & C & D).
  assert (RB : Rev_of 100 (/ 3600 * 3600) (0.1 * 1000) 1 1 (1.3 * 1) <= 0.001).
  { unfold Rev_of. itv 40%nat. }
  assert (R1 : Rev_of 100 (/ 3600 * 3600) (0.1 * 1000) 1 1 1 <= 0.001).
  { unfold Rev_of. itv 40%nat. }
  exists rho, 0, 22064000, mu, 200000, 100000, (/ 3600), 0.1, 0.1, (S n0).
  destruct (valve_l_open (S n0) rho 0 22064000 mu 200000 100000 (/ 3600) (Some 0.1) (Some 0.1) (Some 0.1) 1 1 true true true HL) as [ch E].
  cbv zeta in E. rewrite HC, Hnu in E. rewrite Rev_ok in E by (try lra; lits; lra). cbn [bind] in E.
  rewrite (proj2 (Rltb_false 10000 _)) in E by (lits; lra). cbn [negb orb andb] in E. rewrite (proj2 (Rleb_true _ 10000)) in E by (lits; lra). cbn [andb] in E.
  rewrite HV in E. cbn [bind] in E. eexists. exists FR. rewrite E, Hnu. cbn [s_Kv s_FR]. split; [exact HL|]. split; [reflexivity|]. split; [exact B|].
  exists f. splits; [reflexivity| |lits; lra].
  clear - Ef RB. pose proof (Rev_ge 100 (/ 3600 * 3600) (0.1 * 1000) 1 1 ltac:(lra) ltac:(lra) ltac:(lits; lra) ltac:(lra) ltac:(lra) (1.3 * 1) ltac:(lits; lra)) as RL.
  pose proof (Rev_min_pos 100 (/ 3600 * 3600) (0.1 * 1000) 1 ltac:(lra) ltac:(lra) ltac:(lits; lra) ltac:(lra)) as RP.
  set (Re := Rev_of 100 (/ 3600 * 3600) (0.1 * 1000) 1 1 (1.3 * 1)) in *. clearbody Re.
  assert (0 < Re) by lra. unfold trim in Ef. rewrite (proj2 (Rltb_false _ _)) in Ef by (lits; lra). cbn [negb] in Ef.
  unfold Reynolds_factor in Ef. rewrite pdiv_ok in Ef by (lits; lra). cbn [bind] in Ef. rewrite Rmin_left in Ef by (lits; lra).
  rewrite pdiv_ok in Ef by (lits; lra). cbn [bind] in Ef. rewrite (psqrt_ok 1) in Ef by lra. cbn [bind] in Ef.
  set (n1 := 0.0016 / (1.3 * 1 / (0.1 * 1000 * (0.1 * 1000))) ^ 2) in *. assert (N1 : 1 <= n1 <= 100000) by (unfold n1; lits; lra). clearbody n1.
  assert (1 <= sqrt n1) by (apply sqrt_ge_iff; lra). assert (1 <= sqrt (sqrt n1)) by (apply sqrt_ge_iff; lra).
  rewrite psqrt_ok in Ef by lra. cbn [bind] in Ef. rewrite psqrt_ok in Ef by lra. cbn [bind] in Ef. rewrite pdiv_ok in Ef by lra. cbn [bind] in Ef.
  rewrite plog10_ok in Ef by lra. cbn [bind] in Ef. rewrite pdiv_ok in Ef by lra. cbn [bind] in Ef. rewrite psqrt_ok in Ef by nra. cbn [bind] in Ef.
  rewrite (proj2 (Rltb_true _ _)) in Ef by (lits; lra). cbn [bind] in Ef.
  assert (f = 0.026 / 1 * sqrt (n1 * Re)) as -> by congruence.
  assert (sqrt (n1 * Re) <= 10). { apply sqrt_le_iff. nra. lra. lits. nra. } lits. lra.
Qed.

Print Assumptions C77_liquid_sized.
Print Assumptions C77_liquid_monotone.
Print Assumptions C77_diameters.
Print Assumptions C77_liquid_fitted.
Print Assumptions C77_impossible_flow_refuted.
Print Assumptions C77_laminar.
Print Assumptions C77_reported_FR_refuted.
