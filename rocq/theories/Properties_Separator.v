(** Gas-liquid separators: Souders-Brown factors and velocities. *)
From Coq Require Import Reals String List Bool Lra Lia Psatz QArith Qreals.
From Verif Require Import Base Model_Real Proofs_Real Proofs_Ln Model_Numerics Proofs_Numerics Proofs_Tables Proofs_Tables3 Model_Splines Proofs_Splines Interval Model_Equipment.
Import ListNotations.
Open Scope R_scope.

(** extrapolating splines answer everywhere *)
Lemma splev_total t c k x : good_knots t k -> at_ t k < at_ t (S k) -> (List.length t - k - 1 <= List.length c)%nat -> exists v, py_splev x t c k 0 = Ok v.
Proof.
  intros Hg Hk Hc. pose proof Hg as (Hn & Hlen & Hlast).
  assert (exists l, func_40_splev (S (List.length t)) t x (S k) (List.length t - k - 1) = Ok l /\ (S k <= l <= List.length t - k - 1)%nat /\ located t k l) as (l & E & K1 & K2).
  { destruct (Rlt_dec x (at_ t k)) as [Hx|Hx].
    - exists (S k). split; [apply splev_search_low; [lia|lra]|split; [lia|]].
      unfold located; splits; auto; try lia. now replace (S k - 1)%nat with k by lia.
    - destruct (Rle_dec x (at_ t (List.length t - k - 1))) as [Hx2|Hx2].
      + destruct (search_located t k x Hg) as (l & E & K1 & K2 & _); [lra|]. exists l. splits; auto; lia.
      + destruct (splev_search t x (List.length t - k - 1) (S (List.length t)) (S k)) as (l & E & K1 & K2 & K3); try lia.
        { replace (S k - 1)%nat with k by lia. lra. }
        exists l. splits; auto; try lia. destruct K3 as [K3| ->].
        { assert (at_ t l <= at_ t (List.length t - k - 1)) by (apply Hn; lia). lra. }
        unfold located; splits; auto; try lia. now replace (List.length t - k - 1 - 1)%nat with (List.length t - k - 2)%nat by lia. }
  destruct (fpbspl_ok t l x k k) as (w & Ew & W1 & W2 & W3); auto.
  unfold py_splev. replace (List.length t - S k)%nat with (List.length t - k - 1)%nat by lia. rewrite !idx_at by lia. cbn [bind]. cbv zeta.
  cbn [Z.eqb orb negb]. rewrite !andb_false_r. rewrite E. cbn [bind]. rewrite Ew. cbn [bind]. rewrite dot_from_ok by lia. eauto.
Qed.
Lemma Watkins_knots : good_knots (map Q2R tck_Watkins_t) 3.
Proof. unfold good_knots. splits; [apply Qnondecr_ok; reflexivity|cbn; lia|cbn; lits; lra]. Qed.

Lemma ln_le x y : 0 < x -> x <= y -> ln x <= ln y.
Proof. intros Hx [H| ->]; [left; now apply ln_increasing|lra]. Qed.

(** *** Specification: the Lockhart-Martinelli-like abscissa of the Watkins chart *)
Definition flow_parameter (x rhol rhog : R) : R := (1 - x) / x * sqrt (rhog / rhol).
Definition Watkins_methods : list string := ["spline"; "blackwell"; "branan"]%string.

Theorem C97_Watkins x rhol rhog m : 0 < x -> x < 1 -> 0 < rhol -> 0 < rhog ->
  (In m Watkins_methods -> exists K, 0 < K /\ K_separator_Watkins x rhol rhog false m = Ok K /\ K_separator_Watkins x rhol rhog true m = Ok (1.25 * K)) /\
  (~ In m Watkins_methods -> forall h, K_separator_Watkins x rhol rhog h m = Err ValueError).
Proof.
  intros Hx Hx1 Hl Hg. unfold K_separator_Watkins. rewrite !(pdiv_ok (1 - x)), !(pdiv_ok rhog) by lra. cbn [bind]. rewrite !psqrt_ok by (apply Rlt_le; posr). cbn [bind]. cbv zeta.
  set (f := _ * sqrt _). assert (Hf : 0 < f) by (unfold f; assert (0 < 1 - x) by lra; posr). rewrite !plog_ok by auto. cbn [bind].
  destruct (splev_total (map Q2R tck_Watkins_t) (map Q2R tck_Watkins_c) 3 (ln f)) as [v E]; [apply Watkins_knots|cbn; lits; lra|cbn; lia|]. rewrite E. cbn [bind]. split.
  - intros [<-|[<-|[<-|[]]]]; cbn [String.eqb Ascii.eqb Bool.eqb bind]; (eexists; splits; [|reflexivity|f_equal; ring]); apply Rmult_lt_0_compat; try apply exp_pos; lits; lra.
  - intros N h. unfold Watkins_methods in N. repeat match goal with |- context [String.eqb m ?s] => destruct (String.eqb_spec m s); [exfalso; apply N; subst; cbn; auto|] end. reflexivity.
Qed.
(** on the chart the spline stays between 0.0062 and 0.142 m/s *)
Theorem C97_Watkins_chart x rhol rhog : 0 < x -> x < 1 -> 0 < rhol -> 0 < rhog -> 0.0061 <= flow_parameter x rhol rhog <= 5.43 ->
  exists K, K_separator_Watkins x rhol rhog false "spline" = Ok K /\ 0.0062 <= K <= 0.142.
Proof.
  intros Hx Hx1 Hl Hg HF. unfold K_separator_Watkins. rewrite !(pdiv_ok (1 - x)), !(pdiv_ok rhog) by lra. cbn [bind]. rewrite !psqrt_ok by (apply Rlt_le; posr). cbn [bind]. cbv zeta.
  fold (flow_parameter x rhol rhog). set (f := flow_parameter _ _ _) in *. clearbody f. assert (Hf : 0 < f) by (lits; lra). cbn [String.eqb Ascii.eqb Bool.eqb]. rewrite plog_ok by auto. cbn [bind].
  assert (L1 : ln 0.0061 <= ln f) by (apply ln_le; lits; lra). assert (L2 : ln f <= ln 5.43) by (apply ln_le; lits; lra). assert (B1 : -5.1159958 < ln 0.0061) by itv 0%nat. assert (B2 : ln 5.43 < 1.69259) by itv 0%nat.
  destruct (splev_range (map Q2R tck_Watkins_t) (map Q2R tck_Watkins_c) 3 (ln f) 0 (-3.878) (-0.766)) as [v [E B]]; [apply Watkins_knots|cbn; lia|cbn; lits; lra| |].
  { intros j Hj. cbn in Hj. do 9 (destruct j as [|j]; [cbn; lits; lra|]). lia. }
  rewrite E. cbn [bind]. eexists. split; [reflexivity|]. assert (exp (-3.878) <= exp v) by (destruct B as [[B|B] _]; [left; now apply exp_increasing|rewrite B; lra]). assert (exp v <= exp (-0.766)) by (destruct B as [_ [B|B]]; [left; now apply exp_increasing|rewrite B; lra]).
  assert (0.0206 < exp (-3.878)) by itv 0%nat. assert (exp (-0.766) < 0.4649) by itv 0%nat. lits. split; lra.
Qed.
(** on the chart both published fits stay in the range of the spline and within 10 % of each other *)
Theorem C97_Watkins_fits x rhol rhog : 0 < x -> x < 1 -> 0 < rhol -> 0 < rhog -> 0.0061 <= flow_parameter x rhol rhog <= 5.43 ->
  exists K1 K2, K_separator_Watkins x rhol rhog false "blackwell" = Ok K1 /\ K_separator_Watkins x rhol rhog false "branan" = Ok K2 /\
  0.006 <= K1 <= 0.142 /\ 0.006 <= K2 <= 0.142 /\ 0.96 * K2 <= K1 <= 1.1 * K2.
Proof.
  intros Hx Hx1 Hl Hg HF. unfold K_separator_Watkins. rewrite !(pdiv_ok (1 - x)), !(pdiv_ok rhog) by lra. cbn [bind]. rewrite !psqrt_ok by (apply Rlt_le; posr). cbn [bind]. cbv zeta.
  fold (flow_parameter x rhol rhog). set (f := flow_parameter _ _ _) in *. clearbody f. assert (Hf : 0 < f) by (lits; lra). cbn [String.eqb Ascii.eqb Bool.eqb]. rewrite plog_ok by auto. cbn [bind].
  assert (L1 : ln 0.0061 <= ln f) by (apply ln_le; lits; lra). assert (L2 : ln f <= ln 5.43) by (apply ln_le; lits; lra). assert (B1 : -5.1 < ln 0.0061) by itv 0%nat. assert (B2 : ln 5.43 < 1.692) by itv 0%nat.
  set (X := ln f) in *. assert (HX : -5.1 <= X <= 1.692) by lra. clearbody X. clear L1 L2 B1 B2. eexists _, _. split; [reflexivity|]. split; [reflexivity|].
  set (P := -1.877478097 + _). set (Q := -1.942936 + _).
  assert (HP : -3.9 < P < -0.77) by (unfold P; split; itv1 X (-5.1)%Q (1.692)%Q 12%nat).
  assert (HQ : -3.9 < Q < -0.77) by (unfold Q; split; itv1 X (-5.1)%Q (1.692)%Q 12%nat).
  assert (HD : -0.035 < P - Q < 0.09).
  { replace (P - Q) with (0.065458 - 0.000000097 + X * (0.814894 - 0.81145804597 + X * (0.17939 - 0.1870744085 + X * (0.012379 - 0.0145228667 + X * (- 0.00101148518 - 0.000386235 - 0.00025955 * X))))) by (unfold P, Q; clear; lits; field).
    split; itv1 X (-5.1)%Q (1.692)%Q 12%nat. }
  clearbody P Q. assert (E1 : exp P = exp Q * exp (P - Q)) by (rewrite <- exp_plus; f_equal; ring).
  assert (exp (-3.9) < exp P < exp (-0.77)) by (split; apply exp_increasing; lra). assert (exp (-3.9) < exp Q < exp (-0.77)) by (split; apply exp_increasing; lra).
  assert (exp (-0.035) < exp (P - Q) < exp 0.09) by (split; apply exp_increasing; lra).
  assert (0.02 < exp (-3.9)) by itv 0%nat. assert (exp (-0.77) < 0.464) by itv 0%nat. assert (0.965 < exp (-0.035)) by itv 0%nat. assert (exp 0.09 < 1.095) by itv 0%nat.
  assert (0 < exp Q) by apply exp_pos. rewrite E1 in *. lits. splits; try lra.
  - nra.
  - nra.
Qed.
(** a stream without liquid is off the chart *)
Theorem C97_Watkins_dry rhol rhog m h : 0 < rhol -> 0 < rhog -> K_separator_Watkins 1 rhol rhog h m = Err ValueError.
Proof.
  intros Hl Hg. unfold K_separator_Watkins. rewrite (pdiv_ok (1 - 1)), (pdiv_ok rhog) by lra. cbn [bind]. rewrite psqrt_ok by (apply Rlt_le; posr). cbn [bind]. cbv zeta. replace ((1 - 1) / 1 * _) with 0 by field.
  assert (E : plog 0 = Err ValueError) by (unfold plog; rewrite (proj2 (Rleb_true _ _)) by lra; reflexivity). rewrite E. cbn [bind]. repeat match goal with |- context [String.eqb m ?s] => destruct (String.eqb m s); [reflexivity|] end. reflexivity.
Qed.

(** York mesh pads: the design factor rises up to 15 psi, never rises from there on, is constant below 1 and above 5500 psi, and always lies between 0.056 and 0.107 m/s *)
Definition psi : R := 8896443230521 / 1290320000.
Lemma York_form P h : exists k, K_separator_demister_York P h = Ok (k * 0.3048 * (if h then 1.25 else 1)) /\
  let p := P / psi in (p < 15 /\ k = 0.1821 + 0.0029 * Rmax 1 p + 0.046 * ln (Rmax 1 p) \/ 15 <= p < 40 /\ k = 0.35 \/ 40 <= p /\ k = 0.43 - 0.023 * ln (Rmin 5500 p)).
Proof.
  unfold K_separator_demister_York. cbv zeta. fold psi. set (p := P / psi). clearbody p.
  assert (F : forall k : R, (let K := k * 0.3048 in if h then let K := K * 1.25 in Ok K else Ok K) = Ok (k * 0.3048 * (if h then 1.25 else 1))) by (intros; cbv zeta; destruct h; f_equal; ring). cbv zeta in F.
  rcase; [|rcase].
  - exists (0.1821 + 0.0029 * Rmax 1 p + 0.046 * ln (Rmax 1 p)). split; [|auto]. rcase; cbn [bind]; [rewrite Rmax_left by lra|rewrite Rmax_right by lra]; rewrite plog_ok by lra; cbn [bind]; apply F.
  - exists 0.35. split; [apply F|auto 6].
  - exists (0.43 - 0.023 * ln (Rmin 5500 p)). split; [|auto 6]. rcase; cbn [bind]; [rewrite Rmin_left by lra|rewrite Rmin_right by lra]; rewrite plog_ok by lra; cbn [bind]; apply F.
Qed.
Lemma ln_1_15 p : p < 15 -> 1 <= Rmax 1 p <= 15 /\ 0 <= ln (Rmax 1 p) < 2.71.
Proof.
  intros H. assert (1 <= Rmax 1 p <= 15) by (unfold Rmax; destruct (Rle_dec 1 p); lra). split; auto. assert (B : ln 15 < 2.71) by itv 0%nat. pose proof (ln_le 1 (Rmax 1 p) ltac:(lra) ltac:(lra)). pose proof (ln_le (Rmax 1 p) 15 ltac:(lra) ltac:(lra)). rewrite ln_1 in *. lra.
Qed.
Lemma ln_40_5500 p : 40 <= p -> 40 <= Rmin 5500 p <= 5500 /\ 3.68 < ln (Rmin 5500 p) < 8.62.
Proof.
  intros H. assert (40 <= Rmin 5500 p <= 5500) by (unfold Rmin; destruct (Rle_dec 5500 p); lra). split; auto. assert (B : ln 5500 < 8.62) by itv 0%nat. assert (B' : 3.68 < ln 40) by itv 0%nat. pose proof (ln_le 40 (Rmin 5500 p) ltac:(lra) ltac:(lra)). pose proof (ln_le (Rmin 5500 p) 5500 ltac:(lra) ltac:(lra)). lra.
Qed.
Theorem C97_York P h : exists K, K_separator_demister_York P h = Ok K /\ 0.056 * (if h then 1.25 else 1) <= K <= 0.107 * (if h then 1.25 else 1).
Proof.
  destruct (York_form P h) as (k & E & V). rewrite E. eexists. split; [reflexivity|]. cbv zeta in V. set (p := P / psi) in *. clearbody p.
  assert (B : 0.184 <= k <= 0.351). { destruct V as [[H ->]|[[H ->]|[H ->]]]; [pose proof (ln_1_15 p H)| |pose proof (ln_40_5500 p H)]; lits; try lra. }
  destruct h; lits; lra.
Qed.
Theorem C97_York_monotone P P' h K K' : P <= P' -> K_separator_demister_York P h = Ok K -> K_separator_demister_York P' h = Ok K' ->
  (P' < 15 * psi -> K <= K') /\ (15 * psi <= P -> K' <= K) /\ (P' <= psi \/ 5500 * psi <= P -> K = K').
Proof.
  assert (Hpsi : 0 < psi) by (unfold psi; lra). intros H E E'. destruct (York_form P h) as (k & F & V). destruct (York_form P' h) as (k' & F' & V'). rewrite E in F. rewrite E' in F'. assert (K = k * 0.3048 * (if h then 1.25 else 1)) by congruence. assert (K' = k' * 0.3048 * (if h then 1.25 else 1)) by congruence. subst K K'. clear E E' F F'. cbv zeta in *.
  assert (A : P / psi <= P' / psi) by (apply div_le_r; auto). assert (T : forall c x, c * psi <= x <-> c <= x / psi). { intros c x. split; intros G. - replace c with (c * psi / psi) by (field; lra). now apply div_le_r. - apply (Rmult_le_compat_r psi) in G; [|lra]. replace (x / psi * psi) with x in G by (field; lra). auto. }
  assert (T' : forall c x, x < c * psi <-> x / psi < c). { intros c x. split; intros G. - apply Rnot_le_lt. intros N. apply T in N. lra. - apply Rnot_le_lt. intros N. apply T in N. lra. }
  rewrite T', T. assert (S : 0 < 0.3048 * (if h then 1.25 else 1)) by (destruct h; lits; lra).
  assert (U : P' <= psi -> P' / psi <= 1). { intros G. replace 1 with (psi / psi) by (field; lra). now apply div_le_r. }
  assert (W : 5500 * psi <= P -> 5500 <= P / psi) by apply T. clear T T'. set (p := P / psi) in *. set (p' := P' / psi) in *. clearbody p p'.
  splits.
  - intros G. rewrite !Rmult_assoc. apply Rmult_le_compat_r; [lra|]. destruct V as [[B ->]|[[B ->]|[B ->]]]; try lra. destruct V' as [[B' ->]|[[B' ->]|[B' ->]]]; try lra.
    assert (M : Rmax 1 p <= Rmax 1 p') by (apply Rle_max_compat_l; auto). pose proof (ln_1_15 p B) as [Q _]. pose proof (ln_le (Rmax 1 p) (Rmax 1 p') ltac:(lra) M). lits. lra.
  - intros G. rewrite !Rmult_assoc. apply Rmult_le_compat_r; [lra|]. destruct V as [[B ->]|[[B ->]|[B ->]]]; try lra; destruct V' as [[B' ->]|[[B' ->]|[B' ->]]]; try lra.
    + pose proof (ln_40_5500 p' B'). lits. lra.
    + assert (M : Rmin 5500 p <= Rmin 5500 p') by (apply Rle_min_compat_l; auto). pose proof (ln_40_5500 p B) as [Q _]. pose proof (ln_le (Rmin 5500 p) (Rmin 5500 p') ltac:(lra) M). lits. lra.
  - intros [G|G]; [apply U in G|apply W in G]; destruct V as [[B ->]|[[B ->]|[B ->]]]; try lra; destruct V' as [[B' ->]|[[B' ->]|[B' ->]]]; try lra; [rewrite !Rmax_left by lra|rewrite !Rmin_left by lra]; reflexivity.
Qed.

(** the theoretical factor: at the Souders-Brown velocity, and at no other, the drag on a droplet of diameter D equals its weight less buoyancy *)
Definition drag_force (Cd D rhog v : R) : R := Cd * (PI / 4 * D ^ 2) * (rhog * v ^ 2 / 2).
Definition net_weight (D rhol rhog g : R) : R := PI / 6 * D ^ 3 * (rhol - rhog) * g.
Theorem C97_Souders_Brown D Cd g rhol rhog : 0 < D -> 0 < Cd -> 0 < g -> 0 < rhog -> rhog <= rhol ->
  exists K v, K_Souders_Brown_theoretical D Cd g = Ok K /\ v_Souders_Brown K rhol rhog = Ok v /\ 0 <= v /\
  forall w, 0 <= w -> (drag_force Cd D rhog w = net_weight D rhol rhog g <-> w = v).
Proof.
  intros HD HC Hg Hr Hl. pose proof PI_RGT_0. unfold K_Souders_Brown_theoretical, v_Souders_Brown. rewrite !pdiv_ok by lra. cbn [bind]. rewrite psqrt_ok by (apply Rlt_le; posr). do 2 eexists. split; [reflexivity|]. cbn [bind].
  assert (0 <= (rhol - rhog) / rhog) by (apply Rmult_le_pos; [lra|apply Rlt_le, Rinv_0_lt_compat; auto]). rewrite psqrt_ok by auto. cbn [bind]. split; [reflexivity|].
  set (v := sqrt _ * sqrt _). assert (V : v * v = 4 / 3 * g * D / Cd * ((rhol - rhog) / rhog)). { unfold v. rewrite <- sqrt_mult by (auto; apply Rlt_le; posr). apply sqrt_sqrt. apply Rmult_le_pos; auto. apply Rlt_le. posr. }
  assert (0 <= v) by (apply Rmult_le_pos; apply sqrt_pos). clearbody v. split; auto. intros w Hw.
  assert (F : forall u, drag_force Cd D rhog u - net_weight D rhol rhog g = PI / 8 * Cd * D ^ 2 * rhog * (u * u - v * v)). { intros u. rewrite V. unfold drag_force, net_weight. field. lra. }
  assert (C : 0 < PI / 8 * Cd * D ^ 2 * rhog) by posr. pose proof (F w) as G. split.
  - intros E. rewrite E in G. assert (w * w = v * v) by nra. nra.
  - intros ->. replace (v * v - v * v) with 0 in G by ring. lra.
Qed.
(** a liquid lighter than the gas is refused *)
Theorem C97_Souders_Brown_light K rhol rhog : 0 < rhog -> rhol < rhog -> v_Souders_Brown K rhol rhog = Err ValueError.
Proof.
  intros Hr Hl. unfold v_Souders_Brown. rewrite pdiv_ok by lra. cbn [bind]. unfold psqrt. rewrite (proj2 (Rltb_true _ _)); auto. unfold Rdiv. assert (0 < / rhog) by (apply Rinv_0_lt_compat; auto). nra.
Qed.
Example C97_case : In "branan"%string Watkins_methods /\ ~ In "Branan"%string Watkins_methods /\ (0 < 0.5 < 1) /\ 0.0061 <= flow_parameter 0.5 985.4 1.3 <= 5.43.
Proof. splits; [cbn; auto|cbn; intros [E|[E|[E|[]]]]; discriminate|lits; lra|lits; lra|unfold flow_parameter; itv 0%nat|unfold flow_parameter; itv 0%nat]. Qed.

Print Assumptions C97_Watkins.
Print Assumptions C97_Watkins_chart.
Print Assumptions C97_Watkins_fits.
Print Assumptions C97_Watkins_dry.
Print Assumptions C97_York.
Print Assumptions C97_York_monotone.
Print Assumptions C97_Souders_Brown.
Print Assumptions C97_Souders_Brown_light.
