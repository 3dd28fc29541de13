(** C77 for gases. *)
From Coq Require Import Reals Lra Lia String List Bool.
From Verif Require Import Base Model_Real Proofs_Real Interval Model_Valve Model_Sizing Properties_Core Properties_Valve Proofs_Sizing Properties_Sizing.
From Coquelicot Require Import Rcomplements.
Open Scope R_scope.

(** ** Specification (IEC 60534-2-1), SI units *)

(** Normal volumetric flow (m3/s) of a gas through a valve of coefficient Kv; [MTZ] is molecular weight (g/mol) times
    temperature times compressibility, [Y] the expansion factor, [xs] the effective pressure drop ratio. *)
Definition capacity_g (MTZ P1 Y xs Kv : R) : R := 24.6 * Kv * (P1 / 1000) * Y * sqrt (xs / MTZ) / 3600.
(** Effective drop ratio without fittings and the expansion factor belonging to it. *)
Definition x_sizing (gamma xT P1 P2 : R) : R := Rmin ((P1 - P2) / P1) (choking_x_g xT gamma).
Definition expansion (gamma xT P1 P2 : R) : R := 1 - x_sizing gamma xT P1 P2 / (3 * choking_x_g xT gamma).
(** Effective drop ratio with fittings (times FP^2): the actual one or the choking one at the fitted xTP. *)
Definition x_fitted (gamma xT P1 P2 d D1 D2 Kv : R) : R :=
  Rmin (FP_squared d D1 D2 Kv * ((P1 - P2) / P1))
       (choking_x_g xT gamma / (1 + xT * inlet_reducer d D1 / 0.0018 * (Kv / (d * 1000) ^ 2) ^ 2)).

Definition gas (T MW mu gamma Z P1 P2 Q xT : R) : Prop :=
  0 < T /\ 0 < MW /\ 0 < mu /\ 0 < gamma /\ 0 < Z /\ 0 < P1 /\ P2 < P1 /\ 0 < Q /\ 0 < xT.

(** ** Plumbing *)
Definition Ceqg (MTZ P1 Y Q m : R) : R := Q / (24.6 * P1 * Y) * sqrt (MTZ / m).

Lemma Ceqg_pos : forall MTZ P1 Y Q m, 0 < MTZ -> 0 < P1 -> 0 < Y -> 0 < Q -> 0 < m -> 0 < Ceqg MTZ P1 Y Q m.
Proof.
  intros. unfold Ceqg. apply Rmult_lt_0_compat. apply Rdiv_lt_0_compat; [lra|]. apply Rmult_lt_0_compat; [lits; lra|lra].
  apply sqrt_lt_R0, Rdiv_lt_0_compat; lra.
Qed.
Lemma Ceqg_le : forall MTZ P1 Y Q m m', 0 < MTZ -> 0 < P1 -> 0 < Y -> 0 < Q -> 0 < m -> m <= m' -> Ceqg MTZ P1 Y Q m' <= Ceqg MTZ P1 Y Q m.
Proof.
  intros. unfold Ceqg. apply Rmult_le_compat_l. apply Rlt_le, Rdiv_lt_0_compat; [lra|]. apply Rmult_lt_0_compat; [lits; lra|lra].
  apply sqrt_le_1_alt. apply Rmult_le_compat_l; [lra|]. apply Rinv_le_contravar; lra.
Qed.
Lemma capacity_Ceqg : forall MTZ P1 Y Q m, 0 < MTZ -> 0 < P1 -> 0 < Y -> 0 < m -> capacity_g MTZ P1 Y m (Ceqg MTZ (P1 * 0.001) Y (Q * 3600) m) = Q.
Proof.
  intros. unfold capacity_g, Ceqg.
  replace (24.6 * (Q * 3600 / (24.6 * (P1 * 0.001) * Y) * sqrt (MTZ / m)) * (P1 / 1000) * Y * sqrt (m / MTZ) / 3600)
    with (Q * (sqrt (MTZ / m) * sqrt (m / MTZ))) by (lits; field; splits; lra).
  rewrite <- sqrt_mult. 2, 3: apply Rdiv_le_0_compat; lra. replace (MTZ / m * (m / MTZ)) with 1 by (field; splits; lra). rewrite sqrt_1. ring.
Qed.
(** The flow a coefficient really carries, as a fraction of the request. *)
Lemma capacity_ratio : forall MTZ P1 Y Q m K, 0 < MTZ -> 0 < P1 -> 0 < Y -> 0 < Q -> 0 < m ->
  capacity_g MTZ P1 Y m K * Ceqg MTZ (P1 * 0.001) Y (Q * 3600) m = Q * K.
Proof.
  intros. rewrite <- (capacity_Ceqg MTZ P1 Y Q m) at 2 by assumption. unfold capacity_g. field.
Qed.

Definition Yof (gamma xT x : R) : R := Rmax (1 - x / (3 * (gamma / 1.4) * xT)) (2 / 3).
Definition Cfirst_g (T MW gamma Z P1 P2 Q xT : R) (ac : bool) : R :=
  let x := (P1 - P2) / P1 in
  Ceqg (MW * T * Z) (P1 * 0.001) (Yof gamma xT x) (Q * 3600) (if ac then Rmin x (gamma / 1.4 * xT) else x).

Lemma Yof_pos : forall gamma xT x, 0 < Yof gamma xT x.
Proof. intros. unfold Yof. eapply Rlt_le_trans; [|apply Rmax_r]. lra. Qed.

Lemma valve_g_open : forall fuel T MW mu gamma Z P1 P2 Q D1 D2 d FL Fd xT ac al,
  gas T MW mu gamma Z P1 P2 Q xT ->
  exists nu, 0 < nu /\ valve_g fuel T MW mu gamma Z P1 P2 Q D1 D2 d FL Fd xT ac al =
  let x := (P1 - P2) / P1 in let Fgamma := gamma / 1.4 in
  let choked := Rleb (Fgamma * xT) x in
  let C := Cfirst_g T MW gamma Z P1 P2 Q xT ac in
  let Q := Q * 3600 in let P1 := P1 * 0.001 in let Y := Yof gamma xT x in
  match D1, D2, d with
  | None, None, None => Ok (Sized C choked None (Rleb 100000 10000) None None None None false)
  | Some D1, Some D2, Some d =>
      let D1 := D1 * 1000 in let D2 := D2 * 1000 in let d := d * 1000 in
      Rev <- Reynolds_valve nu Q D1 FL Fd C ;;
      if (Rltb 10000 Rev || negb al) && (negb (Reqb D1 d) || negb (Reqb D2 d)) then
        '(C, FP, xTP, w) <- iterate_turbulent_g (piping_step_g (MW * T * Z) P1 Y x Fgamma Q xT d D1 D2) C 20 ;;
        Ok (Sized C choked (Some Rev) (Rleb Rev 10000) None (Some FP) None (Some xTP) w)
      else if Rleb Rev 10000 && al then
        '(C, Rev', FR) <- iterate_laminar nu Q D1 FL Fd d fuel C ;;
        Ok (Sized C choked (Some Rev') (Rleb Rev 10000) None None (Some FR) None false)
      else Ok (Sized C choked (Some Rev) (Rleb Rev 10000) None None None None false)
  | _, _, _ => Err ValueError
  end.
Proof.
  intros fuel T MW mu gamma Z P1 P2 Q D1 D2 d FL Fd xT ac al (HT & HM & Hm & Hg & HZ & HP & HP2 & HQ & Hx).
  unfold valve_g.
  assert (HV : 0 < Z * 8.31446261815324 * T / (P1 * 0.001 * 1000)).
  { apply Rdiv_lt_0_compat; [|lits; lra]. apply Rmult_lt_0_compat; [lits; lra|lra]. }
  rewrite pdiv_ok by (lits; lra). cbn [bind]. rewrite pdiv_ok by lra. cbn [bind].
  assert (HR : 0 < MW * 0.001 / (Z * 8.31446261815324 * T / (P1 * 0.001 * 1000))) by (apply Rdiv_lt_0_compat; [lits; lra|exact HV]).
  rewrite pdiv_ok by lra. cbn [bind].
  exists (mu / (MW * 0.001 / (Z * 8.31446261815324 * T / (P1 * 0.001 * 1000)))). split; [apply Rdiv_lt_0_compat; lra|].
  set (nu := mu / _). clearbody nu.
  rewrite pdiv_ok by (lits; lra). cbn [bind]. replace ((P1 * 0.001 - P2 * 0.001) / (P1 * 0.001)) with ((P1 - P2) / P1) by (lits; field; lra).
  assert (Hg' : 0 < gamma / 1.4) by (apply Rdiv_lt_0_compat; lits; lra).
  assert (Hgx : 0 < gamma / 1.4 * xT) by (apply Rmult_lt_0_compat; lra).
  rewrite pdiv_ok by nra. cbn [bind].
  fold (Yof gamma xT ((P1 - P2) / P1)). set (x := (P1 - P2) / P1) in *. assert (Hxx : 0 < x) by (apply Rdiv_lt_0_compat; lra).
  unfold is_choked_turbulent_g at 1. rewrite (proj2 (Reqb_false xT 0)) by lra. cbn [bind].
  pose proof (Yof_pos gamma xT x) as HY.
  assert (HMT : 0 < MW * T * Z) by (apply Rmult_lt_0_compat; nra).
  assert (HD : 0 < 24.6 * (P1 * 0.001) * Yof gamma xT x) by (apply Rmult_lt_0_compat; [lits; lra|lra]).
  assert (EC : (if Rleb (gamma / 1.4 * xT) x && ac then
          a <- pdiv (Q * 3600) (24.6 * (P1 * 0.001) * Yof gamma xT x) ;; b <- pdiv (MW * T * Z) xT ;; b <- pdiv b (gamma / 1.4) ;; r <- psqrt b ;; Ok (a * r)
        else
          a <- pdiv (Q * 3600) (24.6 * (P1 * 0.001) * Yof gamma xT x) ;; b <- pdiv (MW * T * Z) x ;; r <- psqrt b ;; Ok (a * r)) =
     Ok (Cfirst_g T MW gamma Z P1 P2 Q xT ac)).
  { unfold Cfirst_g. fold x. cbv zeta. unfold Ceqg.
    assert (N1 : 0 <= MW * T * Z / xT / (gamma / 1.4)). { apply Rdiv_le_0_compat; [|lra]. apply Rlt_le, Rdiv_lt_0_compat; lra. }
    assert (N2 : 0 <= MW * T * Z / x) by (apply Rdiv_le_0_compat; lra).
    destruct (Rleb (gamma / 1.4 * xT) x) eqn:B; destruct ac; cbn [andb]; rewrite !pdiv_ok by lra; cbn [bind]; rewrite ?pdiv_ok by lra; cbn [bind]; rewrite psqrt_ok by assumption; cbn [bind]; f_equal.
    - apply Rleb_true in B. rewrite Rmin_right by lra. do 2 f_equal. field. splits; try lra. 
    - apply Rleb_false in B. rewrite Rmin_left by lra. reflexivity. }
  rewrite EC. cbn [bind]. reflexivity.
Qed.

Lemma Y_is_expansion : forall gamma xT P1 P2, 0 < gamma -> 0 < xT -> Yof gamma xT ((P1 - P2) / P1) = expansion gamma xT P1 P2.
Proof.
  intros. unfold Yof, expansion, x_sizing, choking_x_g. set (x := (P1 - P2) / P1).
  assert (0 < gamma / 1.4) by (apply Rdiv_lt_0_compat; lits; lra). set (g := gamma / 1.4) in *. assert (G : 0 < g * xT) by nra.
  replace (3 * g * xT) with (3 * (g * xT)) by ring. set (k := g * xT) in *.
  destruct (Rle_dec x k).
  - rewrite Rmin_left by lra. apply Rmax_left. assert (x / (3 * k) <= k / (3 * k)) by (apply Rmult_le_compat_r; [apply Rlt_le, Rinv_0_lt_compat; lra|lra]).
    replace (k / (3 * k)) with (1 / 3) in H2 by (field; lra). lra.
  - rewrite Rmin_right by lra. replace (k / (3 * k)) with (1 / 3) by (field; lra). rewrite Rmax_right. lra.
    assert (k / (3 * k) <= x / (3 * k)) by (apply Rmult_le_compat_r; [apply Rlt_le, Rinv_0_lt_compat; lra|lra]).
    replace (k / (3 * k)) with (1 / 3) in H2 by (field; lra). lra.
Qed.

(** ** Without fittings *)

(** The returned coefficient carries exactly the requested flow; the choked flag says whether the drop is at or
    beyond the choking limit. *)
Theorem C77_gas_sized : forall fuel T MW mu gamma Z P1 P2 Q FL Fd xT al, gas T MW mu gamma Z P1 P2 Q xT ->
  exists o, valve_g fuel T MW mu gamma Z P1 P2 Q None None None FL Fd xT true al = Ok o /\ 0 < s_Kv o /\
    capacity_g (MW * T * Z) P1 (expansion gamma xT P1 P2) (x_sizing gamma xT P1 P2) (s_Kv o) = Q /\
    (s_choked o = true <-> choking_x_g xT gamma <= (P1 - P2) / P1).
Proof.
  intros fuel T MW mu gamma Z P1 P2 Q FL Fd xT al HG. destruct (valve_g_open fuel T MW mu gamma Z P1 P2 Q None None None FL Fd xT true al HG) as (nu & _ & ->).
  destruct HG as (HT & HM & Hm & Hg & HZ & HP & HP2 & HQ & Hx). cbv zeta. eexists. split; [reflexivity|]. cbn [s_Kv s_choked].
  assert (HMT : 0 < MW * T * Z) by (apply Rmult_lt_0_compat; nra). pose proof (Yof_pos gamma xT ((P1 - P2) / P1)).
  assert (0 < (P1 - P2) / P1) by (apply Rdiv_lt_0_compat; lra). assert (0 < gamma / 1.4) by (apply Rdiv_lt_0_compat; lits; lra).
  assert (0 < Rmin ((P1 - P2) / P1) (gamma / 1.4 * xT)) by (apply Rmin_glb_lt; nra).
  splits.
  - unfold Cfirst_g. apply Ceqg_pos; try assumption; lits; lra.
  - unfold Cfirst_g. rewrite <- Y_is_expansion by lra. unfold x_sizing, choking_x_g. apply capacity_Ceqg; assumption.
  - unfold choking_x_g. apply Rleb_true.
Qed.

(** ** With reducers *)
Definition mfit_g (gamma xT P1 P2 d D1 D2 C : R) : R := x_fitted gamma xT P1 P2 d D1 D2 C.

Lemma step_g_ok : forall T MW mu gamma Z P1 P2 Q xT d D1 D2 C, gas T MW mu gamma Z P1 P2 Q xT ->
  0 < d -> d <= D1 -> 0 < D2 -> 0 <= reducers d D1 D2 ->
  exists FP xTP, piping_step_g (MW * T * Z) (P1 * 0.001) (Yof gamma xT ((P1 - P2) / P1)) ((P1 - P2) / P1) (gamma / 1.4) (Q * 3600) xT (d * 1000) (D1 * 1000) (D2 * 1000) C =
    Ok (Ceqg (MW * T * Z) (P1 * 0.001) (Yof gamma xT ((P1 - P2) / P1)) (Q * 3600) (x_fitted gamma xT P1 P2 d D1 D2 C), FP, xTP).
Proof.
  intros T MW mu gamma Z P1 P2 Q xT d D1 D2 C (HT & HM & Hm & Hg & HZ & HP & HP2 & HQ & Hx) Hd H1 H2 HR.
  assert (HMT : 0 < MW * T * Z) by (apply Rmult_lt_0_compat; nra). pose proof (Yof_pos gamma xT ((P1 - P2) / P1)) as HY.
  set (Y := Yof gamma xT ((P1 - P2) / P1)) in *. clearbody Y.
  set (M := MW * T * Z) in *. clearbody M.
  assert (Hxx : 0 < (P1 - P2) / P1) by (apply Rdiv_lt_0_compat; lra).
  assert (Hg' : 0 < gamma / 1.4) by (apply Rdiv_lt_0_compat; lits; lra).
  unfold piping_step_g. rewrite loss_ok by lra. rewrite loss_mm by lra. cbn [bind].
  rewrite pdiv_ok by (apply Rgt_not_eq, pow_lt; lra). cbn [bind].
  pose proof (den_pos (reducers d D1 D2) (C / (d * 1000) ^ 2) HR) as A. rewrite psqrt_ok by lra. cbn [bind].
  pose proof (sqrt_lt_R0 _ A) as A1. rewrite pdiv_ok by lra. cbn [bind].
  rewrite loss_up_ok by lra. cbn [bind].
  assert (EL : loss_up_of (d * 1000) (D1 * 1000) = inlet_reducer d D1).
  { rewrite <- upstream_mm by lra. unfold upstream. rewrite (proj2 (Rltb_false _ _)) by lra. reflexivity. }
  rewrite EL. pose proof (inlet_nonneg d D1 Hd ltac:(lra)) as HI.
  set (FP := 1 / sqrt (1 + reducers d D1 D2 / 0.0016 * (C / (d * 1000) ^ 2) ^ 2)) in *.
  assert (PFP : 0 < FP) by (apply Rdiv_lt_0_compat; lra).
  assert (EFP : FP ^ 2 = FP_squared d D1 D2 C). { replace (FP ^ 2) with (FP * FP) by ring. apply inv_sqrt_sq; lra. }
  set (e := 1 + xT * inlet_reducer d D1 / 0.0018 * (C / (d * 1000) ^ 2) ^ 2) in *.
  assert (He : 0 < e). { unfold e. assert (0 <= xT * inlet_reducer d D1 / 0.0018) by (lits; nra). pose proof (pow2_ge_0 (C / (d * 1000) ^ 2)). nra. }
  assert (P2' : 0 < FP ^ 2) by (apply pow_lt; lra).
  rewrite (pdiv_ok xT) by lra. cbn [bind]. rewrite pdiv_ok by lra. cbn [bind].
  set (xTP := xT / FP ^ 2 / e) in *. assert (PX : 0 < xTP) by (unfold xTP; apply Rdiv_lt_0_compat; [apply Rdiv_lt_0_compat|]; lra).
  assert (EX : xTP * FP ^ 2 = xT / e) by (unfold xTP; field; splits; lra).
  exists FP, xTP. unfold is_choked_turbulent_g. rewrite (proj2 (Reqb_false xTP 0)) by lra. cbn [bind].
  assert (XF : x_fitted gamma xT P1 P2 d D1 D2 C = FP ^ 2 * Rmin ((P1 - P2) / P1) (gamma / 1.4 * xTP)).
  { rewrite <- min_scale by lra. unfold x_fitted. rewrite <- EFP. f_equal. fold e. unfold choking_x_g.
    transitivity (gamma / 1.4 * (xT / e)); [field; split; [lra|lits; lra]|]. rewrite <- EX. ring. }
  rewrite XF. clearbody xTP. clear XF EX.
  assert (SC : forall m, 0 < m -> Q * 3600 / (24.6 * FP * (P1 * 0.001) * Y) * sqrt (M / m) = Q * 3600 / (24.6 * (P1 * 0.001) * Y) * sqrt (M / (FP ^ 2 * m))).
  { intros m Hm'. replace (M / (FP ^ 2 * m)) with ((M / m) / (FP * FP)) by (field; splits; lra).
    rewrite (sqrt_div_alt (M / m) (FP * FP)) by nra. rewrite sqrt_square by lra. lits. field. splits; lra. }
  assert (HD : 0 < 24.6 * FP * (P1 * 0.001) * Y). { apply Rmult_lt_0_compat; [|lra]. apply Rmult_lt_0_compat; lits; lra. }
  unfold Ceqg. clearbody FP. set (x := (P1 - P2) / P1) in *. set (g := gamma / 1.4) in *.
  destruct (Rleb (g * xTP) x) eqn:B.
  - apply Rleb_true in B. rewrite Rmin_right by lra. rewrite pdiv_ok by lra. cbn [bind]. rewrite pdiv_ok by lra. cbn [bind]. rewrite pdiv_ok by lra. cbn [bind].
    assert (0 < g * xTP) by nra.
    rewrite psqrt_ok. 2:{ apply Rdiv_le_0_compat; [apply Rlt_le, Rdiv_lt_0_compat; lra|lra]. } cbn [bind]. do 3 f_equal.
    rewrite <- SC by assumption. do 2 f_equal. field. splits; lra.
  - apply Rleb_false in B. rewrite Rmin_left by lra. rewrite pdiv_ok by lra. cbn [bind]. rewrite pdiv_ok by lra. cbn [bind].
    rewrite psqrt_ok by (apply Rdiv_le_0_compat; lra). cbn [bind]. do 3 f_equal. apply SC; assumption.
Qed.

Section Fit.
Context (gamma xT P1 P2 d D1 D2 : R) (Hg : 0 < gamma) (Hx : 0 < xT) (HP : 0 < P1) (HP2 : P2 < P1) (Hd : 0 < d) (HD : d <= D1) (HR : 0 <= reducers d D1 D2).
Let m := x_fitted gamma xT P1 P2 d D1 D2.
Let B0 : 0 < (P1 - P2) / P1. Proof. apply Rdiv_lt_0_compat; lra. Qed.
Let B1 : 0 < choking_x_g xT gamma. Proof. unfold choking_x_g. apply Rmult_lt_0_compat; [apply Rdiv_lt_0_compat; lits; lra|lra]. Qed.
Let B2 : 0 <= xT * inlet_reducer d D1 / 0.0018. Proof. pose proof (inlet_nonneg d D1 Hd ltac:(lra)). lits. nra. Qed.
Let B3 : forall u, 0 < 1 + xT * inlet_reducer d D1 / 0.0018 * u ^ 2. Proof. intros. pose proof (pow2_ge_0 u). nra. Qed.

Lemma x_fitted_pos : forall C, 0 < m C.
Proof.
  intros. unfold m, x_fitted. apply Rmin_glb_lt. apply Rmult_lt_0_compat; [apply FP2_pos; assumption|assumption]. apply Rdiv_lt_0_compat; auto.
Qed.
Lemma x_fitted_le : forall C C', 0 <= C -> C <= C' -> m C' <= m C.
Proof.
  intros C C' H0 H1. unfold m, x_fitted.
  pose proof (FP2_le (reducers d D1 D2) (d * 1000) C C' HR ltac:(lra) H0 H1) as A.
  apply Rmin_glb; [eapply Rle_trans; [apply Rmin_l|]|eapply Rle_trans; [apply Rmin_r|]].
  - apply Rmult_le_compat_r; [lra|exact A].
  - apply Rmult_le_compat_l; [lra|]. apply Rinv_le_contravar; [apply B3|]. pose proof (sq_le C C' (d * 1000) ltac:(lra) H0 H1). nra.
Qed.
Lemma x_fitted_shrink : forall C C', 0 <= C -> C <= C' -> 0.99 * C' <= C -> 0.9801 * m C <= m C'.
Proof.
  intros C C' H0 H1 H2. unfold m, x_fitted. rewrite <- min_scale by (lits; lra).
  pose proof (FP2_shrink (reducers d D1 D2) (d * 1000) C C' HR ltac:(lra) H0 H1 H2) as A.
  apply Rmin_glb; [eapply Rle_trans; [apply Rmin_l|]|eapply Rle_trans; [apply Rmin_r|]].
  - rewrite <- Rmult_assoc. apply Rmult_le_compat_r; [lra|exact A].
  - pose proof (inv_shrink (xT * inlet_reducer d D1 / 0.0018) ((C / (d * 1000) ^ 2) ^ 2) ((C' / (d * 1000) ^ 2) ^ 2) B2
      (sq_le C C' (d * 1000) ltac:(lra) H0 H1) (sq_shrink C C' (d * 1000) ltac:(lra) H0 H1 H2) (pow2_ge_0 _)) as S.
    unfold Rdiv at 1 4. apply (Rmult_le_compat_l (choking_x_g xT gamma)) in S; [|lra]. lra.
Qed.
Lemma x_fitted_0 : m 0 = Rmin ((P1 - P2) / P1) (gamma / 1.4 * xT).
Proof. unfold m, x_fitted, FP_squared, choking_x_g. replace (0 / (d * 1000) ^ 2) with 0 by (field; lra). f_equal; lits; field; lra. Qed.
End Fit.

Lemma capacity_g_le : forall M P1 Y m m' K, 0 < M -> 0 < P1 -> 0 < Y -> 0 <= K -> 0 <= m -> m <= m' -> capacity_g M P1 Y m K <= capacity_g M P1 Y m' K.
Proof.
  intros. unfold capacity_g. apply Rmult_le_compat_r; [lra|]. apply Rmult_le_compat_l.
  - apply Rmult_le_pos; [|lra]. apply Rmult_le_pos; lits; lra.
  - apply sqrt_le_1_alt. apply Rmult_le_compat_r; [apply Rlt_le, Rinv_0_lt_compat; lra|lra].
Qed.
Lemma capacity_g_scale : forall M P1 Y m K k, 0 < M -> 0 <= m -> 0 <= k -> capacity_g M P1 Y (k * k * m) K = k * capacity_g M P1 Y m K.
Proof.
  intros. unfold capacity_g. replace (k * k * m / M) with ((k * k) * (m / M)) by (field; lra).
  rewrite sqrt_mult. rewrite sqrt_square by lra. field. nra. apply Rdiv_le_0_compat; lra.
Qed.

(** With reducers and no warning: the coefficient carries between 99 % and 100 % of the requested flow with its own
    piping factors (at the expansion factor of the bare valve, which the code keeps). *)
Theorem C77_gas_fitted : forall fuel T MW mu gamma Z P1 P2 Q D1 D2 d FL Fd xT o,
  gas T MW mu gamma Z P1 P2 Q xT -> 0 < d -> d <= D1 -> 0 < D2 -> D1 <> d \/ D2 <> d -> 0 <= reducers d D1 D2 ->
  valve_g fuel T MW mu gamma Z P1 P2 Q (Some D1) (Some D2) (Some d) FL Fd xT true false = Ok o -> s_warning o = false ->
  0.99 * Q <= capacity_g (MW * T * Z) P1 (expansion gamma xT P1 P2) (x_fitted gamma xT P1 P2 d D1 D2 (s_Kv o)) (s_Kv o) <= Q.
Proof.
  intros fuel T MW mu gamma Z P1 P2 Q D1 D2 d FL Fd xT o HG Hd H1 H2 HN HR E HW.
  pose proof HG as (HT & HM & Hm & Hg & HZ & HP & HP2 & HQ & Hx).
  destruct (valve_g_open fuel T MW mu gamma Z P1 P2 Q (Some D1) (Some D2) (Some d) FL Fd xT true false HG) as (nu & _ & EO).
  rewrite EO in E. clear EO. cbv zeta in E. cbn [negb] in E. inv_bind E. rewrite orb_true_r in E.
  assert (B : (negb (Reqb (D1 * 1000) (d * 1000)) || negb (Reqb (D2 * 1000) (d * 1000)))%bool = true).
  { destruct HN as [N|N].
    - rewrite (proj2 (Reqb_false (D1 * 1000) (d * 1000))) by lra. reflexivity.
    - rewrite (proj2 (Reqb_false (D2 * 1000) (d * 1000))) by lra. apply orb_true_r. }
  rewrite B in E. cbn [andb] in E. inv_bind E. destruct v0 as [[[Kv FP] xTP] w].
  assert (o = Sized Kv (Rleb (gamma / 1.4 * xT) ((P1 - P2) / P1)) (Some v) (Rleb v 10000) None (Some FP) None (Some xTP) w) by congruence.
  subst o. cbn [s_Kv s_warning] in *. subst w. clear E E0.
  rewrite <- Y_is_expansion by lra. set (Y := Yof gamma xT ((P1 - P2) / P1)) in *. assert (HY : 0 < Y) by apply Yof_pos.
  assert (HMT : 0 < MW * T * Z) by (apply Rmult_lt_0_compat; nra). assert (HD1 : 0 < D1) by lra.
  set (m := x_fitted gamma xT P1 P2 d D1 D2).
  assert (MP : forall c, 0 < m c) by (intros; apply x_fitted_pos; lra).
  assert (ML : forall c c', 0 <= c -> c <= c' -> m c' <= m c) by (intros; apply x_fitted_le; lra).
  assert (HP1k : 0 < P1 * 0.001) by (lits; lra). assert (HQ3 : 0 < Q * 3600) by lra.
  set (TT := fun c => Ceqg (MW * T * Z) (P1 * 0.001) Y (Q * 3600) (m c)).
  assert (TM : forall c c', 0 <= c -> c <= c' -> TT c <= TT c') by (intros; apply Ceqg_le; auto).
  set (C0 := Cfirst_g T MW gamma Z P1 P2 Q xT true) in *.
  assert (T0 : TT 0 = C0) by (unfold TT, C0, Cfirst_g, m; rewrite x_fitted_0 by lra; reflexivity).
  assert (HC0 : 0 < C0) by (rewrite <- T0; apply Ceqg_pos; auto).
  assert (INV : exists Cj a b t, (C0 <= Cj /\ Cj <= TT Cj) /\
     piping_step_g (MW * T * Z) (P1 * 0.001) Y ((P1 - P2) / P1) (gamma / 1.4) (Q * 3600) xT (d * 1000) (D1 * 1000) (D2 * 1000) Cj = Ok (Kv, a, b) /\
     pdiv Cj Kv = Ok t /\ (false = true \/ 0.99 <= t /\ Cj < 10 ^ 40)).
  { refine (iterate_g_inv (fun c => C0 <= c /\ c <= TT c) _ _ 20%nat C0 Kv FP xTP false _ E1).
    - intros Cj C a b (I1 & I2) S. destruct (step_g_ok T MW mu gamma Z P1 P2 Q xT d D1 D2 Cj HG Hd H1 H2 HR) as (a' & b' & S').
      fold Y in S'. assert (C = TT Cj) as -> by (unfold TT, m; congruence). split; [lra|]. apply TM; lra.
    - split; [lra|]. rewrite <- T0 at 1. apply TM; lra. }
  destruct INV as (Cj & a & b & t & (I1 & I2) & S1 & S2 & S3). destruct S3 as [S3|[S3 _]]; [discriminate|].
  destruct (step_g_ok T MW mu gamma Z P1 P2 Q xT d D1 D2 Cj HG Hd H1 H2 HR) as (a' & b' & S'). fold Y in S'.
  assert (KT : Kv = TT Cj) by (unfold TT, m; congruence). clear S' S1.
  assert (0 < Kv) by lra. rewrite pdiv_ok in S2 by lra. assert (t = Cj / Kv) as -> by congruence.
  assert (J : 0.99 * Kv <= Cj).
  { apply (Rmult_le_compat_r Kv) in S3; [|lra]. replace (Cj / Kv * Kv) with Cj in S3 by (field; lra). lra. }
  assert (JK : Cj <= Kv) by lra. pose proof (ML Cj Kv ltac:(lra) JK) as M2.
  pose proof (x_fitted_shrink gamma xT P1 P2 d D1 D2 Hg Hx HP HP2 Hd H1 HR Cj Kv ltac:(lra) JK J) as M3. fold (m Cj) (m Kv) in M3.
  pose proof (MP Cj). pose proof (MP Kv).
  assert (Q0 : capacity_g (MW * T * Z) P1 Y (m Cj) Kv = Q) by (rewrite KT; apply capacity_Ceqg; auto).
  split.
  - rewrite <- Q0 at 1. rewrite <- capacity_g_scale by (lits; lra). apply capacity_g_le; try lra; lits; lra.
  - rewrite <- Q0. apply capacity_g_le; lra.
Qed.

(** What the reducers alone could pass, the limit for an infinitely large valve. *)
Definition reducer_limit_g (MTZ gamma xT P1 P2 d D1 D2 : R) : R :=
  24.6 * ((d * 1000) ^ 2 * sqrt (0.0016 / reducers d D1 D2)) * (P1 / 1000) * expansion gamma xT P1 P2 * sqrt ((P1 - P2) / P1 / MTZ) / 3600.

(** No coefficient carries more than that limit... *)
Lemma C77_gas_limit : forall MTZ gamma xT P1 P2 d D1 D2 Kv, 0 < MTZ -> 0 < gamma -> 0 < xT -> 0 < P1 -> P2 < P1 -> 0 < d -> d <= D1 -> 0 < reducers d D1 D2 -> 0 <= Kv ->
  capacity_g MTZ P1 (expansion gamma xT P1 P2) (x_fitted gamma xT P1 P2 d D1 D2 Kv) Kv <= reducer_limit_g MTZ gamma xT P1 P2 d D1 D2.
Proof.
  intros MTZ gamma xT P1 P2 d D1 D2 Kv HM Hg Hx HP HP2 Hd HD HR HK.
  rewrite <- Y_is_expansion by assumption. unfold reducer_limit_g. rewrite <- Y_is_expansion by assumption.
  pose proof (Yof_pos gamma xT ((P1 - P2) / P1)) as HY. set (Y := Yof gamma xT ((P1 - P2) / P1)) in *.
  assert (Hxx : 0 < (P1 - P2) / P1) by (apply Rdiv_lt_0_compat; lra). set (x := (P1 - P2) / P1) in *.
  assert (FPP : 0 < FP_squared d D1 D2 Kv) by (apply FP2_pos; lra).
  eapply Rle_trans. apply (capacity_g_le MTZ P1 Y _ (FP_squared d D1 D2 Kv * x)); try lra.
  apply Rlt_le, x_fitted_pos; lra. apply Rmin_l.
  unfold capacity_g. apply Rmult_le_compat_r; [lra|].
  replace (FP_squared d D1 D2 Kv * x / MTZ) with (FP_squared d D1 D2 Kv * (x / MTZ)) by (field; lra).
  assert (0 <= x / MTZ) by (apply Rdiv_le_0_compat; lra). rewrite (sqrt_mult (FP_squared d D1 D2 Kv) (x / MTZ)) by lra.
  set (f := sqrt (FP_squared d D1 D2 Kv)). set (s := sqrt (x / MTZ)). assert (0 <= s) by apply sqrt_pos.
  replace (24.6 * Kv * (P1 / 1000) * Y * (f * s)) with (24.6 * (P1 / 1000) * Y * s * (Kv * f)) by ring.
  replace (24.6 * ((d * 1000) ^ 2 * sqrt (0.0016 / reducers d D1 D2)) * (P1 / 1000) * Y * s) with (24.6 * (P1 / 1000) * Y * s * ((d * 1000) ^ 2 * sqrt (0.0016 / reducers d D1 D2))) by ring.
  apply Rmult_le_compat_l. apply Rmult_le_pos; [|lra]. apply Rmult_le_pos; lits; lra.
  set (D := (d * 1000) ^ 2). assert (0 < D) by (apply pow_lt; lra). set (red := reducers d D1 D2) in *.
  assert (0 < 0.0016 / red) by (apply Rdiv_lt_0_compat; lits; lra).
  rewrite <- (sqrt_square D) by lra. rewrite <- (sqrt_square Kv) by lra. unfold f. rewrite <- (sqrt_mult (D * D)) by nra. rewrite <- (sqrt_mult (Kv * Kv)) by nra.
  apply sqrt_le_1_alt. unfold FP_squared. fold D red.
  apply (Rmult_le_reg_r (1 + red / 0.0016 * (Kv / D) ^ 2)). apply den_pos; lra.
  pose proof (den_pos red (Kv / D) ltac:(lra)).
  replace (Kv * Kv * / (1 + red / 0.0016 * (Kv / D) ^ 2) * (1 + red / 0.0016 * (Kv / D) ^ 2)) with (Kv * Kv) by (rewrite Rmult_assoc, Rinv_l by lra; ring).
  replace (D * D * (0.0016 / red) * (1 + red / 0.0016 * (Kv / D) ^ 2)) with (D * D * (0.0016 / red) + Kv * Kv) by (lits; field; splits; lra).
  assert (0 < D * D * (0.0016 / red)) by (apply Rmult_lt_0_compat; nra). lra.
Qed.

Lemma gas_reynolds : forall fuel T MW mu gamma Z P1 P2 Q D1 D2 d FL Fd xT,
  gas T MW mu gamma Z P1 P2 Q xT -> 0 < d -> d <= D1 -> 0 < D2 -> 0 < FL <= 1 -> 0 < Fd -> D1 <> d \/ D2 <> d -> 0 <= reducers d D1 D2 ->
  exists Kv a b w Rev, valve_g fuel T MW mu gamma Z P1 P2 Q (Some D1) (Some D2) (Some d) FL Fd xT true false =
     Ok (Sized Kv (Rleb (gamma / 1.4 * xT) ((P1 - P2) / P1)) (Some Rev) (Rleb Rev 10000) None (Some a) None (Some b) w) /\ 0 < Kv /\
   iterate_turbulent_g (piping_step_g (MW * T * Z) (P1 * 0.001) (Yof gamma xT ((P1 - P2) / P1)) ((P1 - P2) / P1) (gamma / 1.4) (Q * 3600) xT (d * 1000) (D1 * 1000) (D2 * 1000))
     (Cfirst_g T MW gamma Z P1 P2 Q xT true) 20 = Ok (Kv, a, b, w) /\ 0 < Cfirst_g T MW gamma Z P1 P2 Q xT true.
Proof.
  intros fuel T MW mu gamma Z P1 P2 Q D1 D2 d FL Fd xT HG Hd H1 H2 HFL HFd HN HR. pose proof HG as (HT & HM & Hm & Hg & HZ & HP & HP2 & HQ & Hx).
  destruct (valve_g_open fuel T MW mu gamma Z P1 P2 Q (Some D1) (Some D2) (Some d) FL Fd xT true false HG) as (nu & Hnu & ->). cbv zeta.
  assert (HMT : 0 < MW * T * Z) by (apply Rmult_lt_0_compat; nra). pose proof (Yof_pos gamma xT ((P1 - P2) / P1)) as HY.
  assert (HC0 : 0 < Cfirst_g T MW gamma Z P1 P2 Q xT true).
  { unfold Cfirst_g. apply Ceqg_pos; try assumption; try (lits; lra). apply Rmin_glb_lt. apply Rdiv_lt_0_compat; lra.
    apply Rmult_lt_0_compat; [apply Rdiv_lt_0_compat; lits; lra|lra]. }
  rewrite Rev_ok by (try assumption; lra). cbn [bind negb]. rewrite orb_true_r.
  assert (B : (negb (Reqb (D1 * 1000) (d * 1000)) || negb (Reqb (D2 * 1000) (d * 1000)))%bool = true).
  { destruct HN as [N|N].
    - rewrite (proj2 (Reqb_false (D1 * 1000) (d * 1000))) by lra. reflexivity.
    - rewrite (proj2 (Reqb_false (D2 * 1000) (d * 1000))) by lra. apply orb_true_r. }
  rewrite B. cbn [andb].
  destruct (iterate_g_ok (piping_step_g (MW * T * Z) (P1 * 0.001) (Yof gamma xT ((P1 - P2) / P1)) ((P1 - P2) / P1) (gamma / 1.4) (Q * 3600) xT (d * 1000) (D1 * 1000) (D2 * 1000))
    (fun C => Ceqg (MW * T * Z) (P1 * 0.001) (Yof gamma xT ((P1 - P2) / P1)) (Q * 3600) (x_fitted gamma xT P1 P2 d D1 D2 C))) with (k := 20%nat) (Ci := Cfirst_g T MW gamma Z P1 P2 Q xT true) as (Kv & a & b & w & E & P).
  - intros C _. apply (step_g_ok T MW mu); assumption.
  - intros C _. apply Ceqg_pos; try assumption; try (lits; lra). apply x_fitted_pos; assumption.
  - assumption.
  - rewrite E. cbn [bind]. exists Kv, a, b, w. eexists. splits; [reflexivity|assumption|reflexivity|assumption].
Qed.

(** ... yet a request beyond the limit is answered without any error: the plain result carries less than requested. *)
Theorem C77_gas_impossible_refuted : forall fuel T MW mu gamma Z P1 P2 Q D1 D2 d FL Fd xT,
  gas T MW mu gamma Z P1 P2 Q xT -> 0 < d -> d <= D1 -> 0 < D2 -> 0 < FL <= 1 -> 0 < Fd -> D1 <> d \/ D2 <> d -> 0 < reducers d D1 D2 ->
  reducer_limit_g (MW * T * Z) gamma xT P1 P2 d D1 D2 < Q ->
  exists Kv, size_control_valve_g fuel T MW mu gamma Z P1 P2 Q (Some D1) (Some D2) (Some d) FL Fd xT true false = Ok Kv /\ 0 < Kv /\
    capacity_g (MW * T * Z) P1 (expansion gamma xT P1 P2) (x_fitted gamma xT P1 P2 d D1 D2 Kv) Kv < Q.
Proof.
  intros fuel T MW mu gamma Z P1 P2 Q D1 D2 d FL Fd xT HG Hd H1 H2 HFL HFd HN HR HQL. pose proof HG as (HT & HM & Hm & Hg & HZ & HP & HP2 & HQ & Hx).
  destruct (gas_reynolds fuel T MW mu gamma Z P1 P2 Q D1 D2 d FL Fd xT) as (Kv & a & b & w & Rev & E & P & _); try assumption; try lra.
  exists Kv. unfold size_control_valve_g. rewrite E. cbn [bind s_Kv]. splits; [reflexivity|assumption|].
  eapply Rle_lt_trans; [apply C77_gas_limit|exact HQL]; try assumption; try lra. apply Rmult_lt_0_compat; nra.
Qed.

Lemma iterate_g_first : forall step k Ci C a b w, iterate_turbulent_g step Ci k = Ok (C, a, b, w) -> exists C', step Ci = Ok (C', a, b).
Proof.
  intros step k Ci C a b w E. destruct k; cbn [iterate_turbulent_g] in E; inv_bind E; destruct v as [[C1 a1] b1]; inv_bind E; inv_bind E; destruct v0 as [C2 w2];
    exists C1; congruence.
Qed.

(** The choked flag of the full output is that of the bare valve, not that of the fitted one that was sized: a
    request flagged as choked although the drop ratio stays below the reported choking limit. *)
Theorem C77_gas_choked_flag_refuted : forall fuel T MW mu Z Q, gas T MW mu 1.4 Z 1000000 300000 Q 0.7 ->
  exists o xTP, valve_g fuel T MW mu 1.4 Z 1000000 300000 Q (Some 0.1) (Some 0.05) (Some 0.05) 0.9 1 0.7 true false = Ok o /\
    s_choked o = true /\ s_xTP o = Some xTP /\ (1000000 - 300000) / 1000000 < 1.4 / 1.4 * xTP.
Proof.
  intros fuel T MW mu Z Q HG.
  assert (HR : reducers 0.05 0.1 0.05 = 1.21875) by (unfold reducers; lits; field).
  destruct (gas_reynolds fuel T MW mu 1.4 Z 1000000 300000 Q 0.1 0.05 0.05 0.9 1 0.7) as (Kv & a & b & w & Rev & E & P & EI & HC0); try assumption; try (lits; lra).
  apply iterate_g_first in EI. destruct EI as [C' EI]. set (C0 := Cfirst_g T MW 1.4 Z 1000000 300000 Q 0.7 true) in *. clearbody C0.
  eexists. exists b. split; [exact E|]. cbn [s_choked s_xTP]. splits; [apply Rleb_true; lits; lra|reflexivity|].
  unfold piping_step_g in EI. rewrite loss_ok in EI by (lits; lra). rewrite loss_mm in EI by (lits; lra). cbn [bind] in EI.
  rewrite HR in EI. rewrite pdiv_ok in EI by (apply Rgt_not_eq, pow_lt; lits; lra). cbn [bind] in EI.
  set (u := C0 / (0.05 * 1000) ^ 2) in *. assert (U : 0 < u ^ 2) by (apply pow_lt; unfold u; apply Rdiv_lt_0_compat; [lra|apply pow_lt; lits; lra]).
  assert (A : 0 < 1 + 1.21875 / 0.0016 * u ^ 2) by (lits; lra). pose proof (sqrt_lt_R0 _ A) as A1. pose proof (inv_sqrt_sq _ A) as A2.
  rewrite psqrt_ok in EI by lra. cbn [bind] in EI. rewrite pdiv_ok in EI by lra. cbn [bind] in EI.
  rewrite loss_up_ok in EI by (lits; lra). cbn [bind] in EI.
  assert (EL : loss_up_of (0.05 * 1000) (0.1 * 1000) = 1.21875) by (unfold loss_up_of; lits; field). rewrite EL in EI.
  set (FP := 1 / sqrt (1 + 1.21875 / 0.0016 * u ^ 2)) in *. assert (0 < FP) by (apply Rdiv_lt_0_compat; lra).
  assert (EFP : FP ^ 2 = / (1 + 1.21875 / 0.0016 * u ^ 2)) by (rewrite <- A2; ring).
  assert (0 < FP ^ 2) by (apply pow_lt; lra). rewrite (pdiv_ok 0.7) in EI by lra. cbn [bind] in EI.
  rewrite pdiv_ok in EI by (lits; lra). cbn [bind] in EI. inv_bind EI. inv_bind EI.
  assert (b = 0.7 / FP ^ 2 / (1 + 0.7 * 1.21875 / 0.0018 * u ^ 2)) by congruence. subst b. rewrite EFP.
  replace (0.7 / / (1 + 1.21875 / 0.0016 * u ^ 2)) with (0.7 * (1 + 1.21875 / 0.0016 * u ^ 2)) by (lits; field; lits; lra).
  set (e := 1 + 0.7 * 1.21875 / 0.0018 * u ^ 2). assert (0 < e) by (unfold e; lits; lra).
  apply (Rmult_lt_reg_r e); [lra|]. replace (1.4 / 1.4 * (0.7 * (1 + 1.21875 / 0.0016 * u ^ 2) / e) * e) with (0.7 * (1 + 1.21875 / 0.0016 * u ^ 2)) by (lits; field; lra).
  unfold e. lits. lra.
Qed.

Example C77_ex_gas : gas 433 44.01 1.4665e-5 1.4 0.988 1000000 300000 0.5 0.7.
Proof. unfold gas. splits; lits; lra. Qed.
Example C77_ex_liquid : liquid 965.4 70100 22120000 3.1472e-4 680000 220000 0.1 0.9.
Proof. unfold liquid. pose proof (sqrt_pos (70100 / 22120000)). splits; lits; try lra. Qed.

Print Assumptions C77_gas_sized.
Print Assumptions C77_gas_fitted.
Print Assumptions C77_gas_impossible_refuted.
Print Assumptions C77_gas_choked_flag_refuted.
