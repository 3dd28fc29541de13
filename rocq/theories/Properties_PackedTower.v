(** Packed towers and mesh pads. *)
From Coq Require Import Reals String List Bool Lra Lia Psatz.
From Verif Require Import Base Model_Real Proofs_Real Proofs_Ln Interval Model_Equipment Model_PackedTower.
Open Scope R_scope.

(** *** Specification: dry packing as spheres of the same specific area *)
Definition sphere (voidage a : R) : R := 6 * (1 - voidage) / a.
Definition Re_gas (Vg rhog mug voidage a : R) : R := Vg * rhog * sphere voidage a / mug.
Definition friction0 (C1 C2 C3 Re : R) : R := C1 / Re + C2 / sqrt Re + C3.
Definition dry_drop (Vg rhog mug voidage a C1 C2 C3 H : R) : R :=
  3 / 4 * friction0 C1 C2 C3 (Re_gas Vg rhog mug voidage a) * ((1 - voidage) / Rpower voidage 4.65) * rhog * (H / sphere voidage a) * Vg ^ 2.

Lemma sphere_pos e a : e < 1 -> 0 < a -> 0 < sphere e a.
Proof. intros. unfold sphere. apply Rdiv_lt_0_compat; lra. Qed.
Theorem C99_dry Vg rhog mug e a C1 C2 C3 H : 0 < Vg -> 0 < rhog -> 0 < mug -> 0 < e -> e < 1 -> 0 < a -> 0 <= C1 -> 0 <= C2 -> 0 < C3 -> 0 < H ->
  Stichlmair_dry Vg rhog mug e a C1 C2 C3 H = Ok (dry_drop Vg rhog mug e a C1 C2 C3 H) /\ 0 < dry_drop Vg rhog mug e a C1 C2 C3 H.
Proof.
  intros HV Hr Hm He He1 Ha H1 H2 H3 HH. pose proof (sphere_pos e a He1 Ha) as HS. unfold Stichlmair_dry. rewrite (pdiv_ok (6 * _)) by lra. cbn [bind]. fold (sphere e a). rewrite (pdiv_ok _ mug) by lra. cbn [bind]. fold (Re_gas Vg rhog mug e a). assert (HR : 0 < Re_gas Vg rhog mug e a) by (unfold Re_gas; posr).
  rewrite (pdiv_ok C1) by lra. cbn [bind]. rewrite psqrt_ok by lra. cbn [bind]. rewrite (pdiv_ok C2) by posr. cbn [bind]. cbv zeta. fold (friction0 C1 C2 C3 (Re_gas Vg rhog mug e a)).
  assert (HF : 0 < friction0 C1 C2 C3 (Re_gas Vg rhog mug e a)). { unfold friction0. assert (0 <= C1 / Re_gas Vg rhog mug e a) by (apply Rmult_le_pos; [lra|apply Rlt_le, Rinv_0_lt_compat; lra]). assert (0 < sqrt (Re_gas Vg rhog mug e a)) by posr. assert (0 <= C2 / sqrt (Re_gas Vg rhog mug e a)) by (apply Rmult_le_pos; [lra|apply Rlt_le, Rinv_0_lt_compat; lra]). lra. }
  rewrite ppow_ok by auto. cbn [bind]. rewrite (pdiv_ok _ (Rpower e 4.65)) by posr. cbn [bind]. rewrite pdiv_ok by lra. cbn [bind]. split.
  - f_equal. unfold dry_drop. field. split; first [lra|apply Rgt_not_eq; apply Rpower_pos].
  - unfold dry_drop. assert (0 < 1 - e) by lra. posr.
Qed.
(** faster gas loses more; the loss is proportional to the height *)
Theorem C99_dry_rises Vg Vg' rhog mug e a C1 C2 C3 H : 0 < Vg -> Vg < Vg' -> 0 < rhog -> 0 < mug -> 0 < e -> e < 1 -> 0 < a -> 0 <= C1 -> 0 <= C2 -> 0 < C3 -> 0 < H ->
  dry_drop Vg rhog mug e a C1 C2 C3 H < dry_drop Vg' rhog mug e a C1 C2 C3 H /\ forall k, dry_drop Vg rhog mug e a C1 C2 C3 (k * H) = k * dry_drop Vg rhog mug e a C1 C2 C3 H.
Proof.
  intros HV HVV Hr Hm He He1 Ha H1 H2 H3 HH. pose proof (sphere_pos e a He1 Ha) as HS. split; [|intros; unfold dry_drop; field; split; first [lra|apply Rgt_not_eq; apply Rpower_pos]].
  set (q := rhog * sphere e a / mug). assert (Hq : 0 < q) by (unfold q; posr). assert (Hs : 0 < sqrt q) by posr.
  assert (F : forall V, 0 < V -> friction0 C1 C2 C3 (Re_gas V rhog mug e a) * V ^ 2 = C1 / q * V + C2 / sqrt q * (V * sqrt V) + C3 * V ^ 2).
  { intros V HV'. unfold friction0. replace (Re_gas V rhog mug e a) with (V * q) by (unfold Re_gas, q; field; lra). rewrite sqrt_mult by lra. assert (0 < sqrt V) by posr. assert (S : sqrt V * sqrt V = V) by (apply sqrt_sqrt; lra). rewrite <- S. rewrite sqrt_square by lra. field. splits; lra. }
  unfold dry_drop. set (K := (1 - e) / Rpower e 4.65). assert (HK : 0 < K) by (unfold K; assert (0 < 1 - e) by lra; posr).
  assert (G : forall V, 0 < V -> 3 / 4 * friction0 C1 C2 C3 (Re_gas V rhog mug e a) * K * rhog * (H / sphere e a) * V ^ 2 = 3 / 4 * K * rhog * (H / sphere e a) * (C1 / q * V + C2 / sqrt q * (V * sqrt V) + C3 * V ^ 2)) by (intros V HV'; rewrite <- F by auto; ring).
  rewrite !G by lra. apply Rmult_lt_compat_l; [posr|]. assert (0 <= C1 / q) by (apply Rmult_le_pos; [lra|apply Rlt_le, Rinv_0_lt_compat; lra]). assert (0 <= C2 / sqrt q) by (apply Rmult_le_pos; [lra|apply Rlt_le, Rinv_0_lt_compat; lra]).
  assert (sqrt Vg < sqrt Vg') by (apply sqrt_lt_1_alt; lra). assert (0 < sqrt Vg) by posr. assert (Vg * sqrt Vg < Vg' * sqrt Vg') by nra. assert (C3 * Vg ^ 2 < C3 * Vg' ^ 2) by (apply Rmult_lt_compat_l; nra). nra.
Qed.

(** *** Irrigated packing: the published implicit equation *)
Definition holdup (h0 dP H rhol : R) : R := h0 * (1 + 20 * (dP / (H * rhol * 9.80665)) ^ 2).
Definition exponent_c (C1 C2 C3 Re : R) : R := (- C1 / Re - C2 / (2 * sqrt Re)) / friction0 C1 C2 C3 Re.
Definition Fr_liquid (Vl e a : R) : R := Vl ^ 2 * a / (9.80665 * Rpower e 4.65).
Definition wet_equation (dry e h c dP : R) : Prop := dP = dry * Rpower ((1 - e + h) / (1 - e)) ((2 + c) / 3) * Rpower (e / (e - h)) 4.65.

(** whatever the solver answers satisfies it, with less liquid than void space, and exceeds the dry drop *)
Theorem C99_wet secant Vg Vl rhog rhol mug e a C1 C2 C3 H dP : (forall f x r, secant f x = Ok r -> f r = Ok 0) ->
  0 < Vg -> 0 < Vl -> 0 < rhog -> 0 < rhol -> 0 < mug -> 0 < e -> e < 1 -> 0 < a -> 0 <= C1 -> 0 <= C2 -> 0 < C3 -> 0 < H ->
  Stichlmair_wet secant Vg Vl rhog rhol mug e a C1 C2 C3 H = Ok dP ->
  let dry := dry_drop Vg rhog mug e a C1 C2 C3 H in let h := holdup (0.555 * Rpower (Fr_liquid Vl e a) (1 / 3)) dP H rhol in
  wet_equation dry e h (exponent_c C1 C2 C3 (Re_gas Vg rhog mug e a)) dP /\ 0 < h < e /\ dry < dP.
Proof.
  intros HSec HV HVl Hr Hrl Hm He He1 Ha H1 H2 H3 HH. pose proof (sphere_pos e a He1 Ha) as HS. assert (G0 : 0 < 9.80665) by (lits; lra). assert (G5 : 0 < 0.555) by (lits; lra).
  destruct (C99_dry Vg rhog mug e a C1 C2 C3 H) as [_ HD]; auto.
  unfold Stichlmair_wet. rewrite (pdiv_ok (6 * _)) by lra. cbn [bind]. fold (sphere e a). rewrite (pdiv_ok _ mug) by lra. cbn [bind]. fold (Re_gas Vg rhog mug e a). set (Re := Re_gas Vg rhog mug e a) in *. assert (HR : 0 < Re) by (unfold Re, Re_gas; posr). assert (HsR : 0 < sqrt Re) by posr.
  rewrite (pdiv_ok C1) by lra. cbn [bind]. rewrite psqrt_ok by lra. cbn [bind]. rewrite (pdiv_ok C2 (sqrt Re)) by lra. cbn [bind]. cbv zeta. fold (friction0 C1 C2 C3 Re).
  assert (A1 : 0 <= C1 / Re) by (apply Rmult_le_pos; [lra|apply Rlt_le, Rinv_0_lt_compat; lra]). assert (A2 : 0 <= C2 / sqrt Re) by (apply Rmult_le_pos; [lra|apply Rlt_le, Rinv_0_lt_compat; lra]). assert (HF : 0 < friction0 C1 C2 C3 Re) by (unfold friction0; lra).
  rewrite ppow_ok by auto. cbn [bind]. assert (HP : 0 < Rpower e 4.65) by apply Rpower_pos. rewrite (pdiv_ok _ (Rpower e 4.65)) by lra. cbn [bind]. rewrite (pdiv_ok _ (sphere e a)) by lra. cbn [bind]. rewrite (pdiv_ok (- C1)) by lra. cbn [bind]. rewrite (pdiv_ok C2) by lra. cbn [bind]. rewrite (pdiv_ok _ (friction0 _ _ _ _)) by lra. cbn [bind]. fold (exponent_c C1 C2 C3 Re).
  rewrite (pdiv_ok (Vl ^ 2 * a)) by posr. cbn [bind]. fold (Fr_liquid Vl e a). assert (HFr : 0 < Fr_liquid Vl e a) by (unfold Fr_liquid; posr). rewrite ppow_ok by auto. cbn [bind]. rewrite (pdiv_ok 1) by posr. cbn [bind].
  match goal with |- context [_Stichlmair_wet_err _ _ _ ?d H e _] => replace d with (dry_drop Vg rhog mug e a C1 C2 C3 H) by (unfold dry_drop, Re; field; splits; lra) end.
  set (dry := dry_drop Vg rhog mug e a C1 C2 C3 H) in *. set (c := exponent_c C1 C2 C3 Re). set (h0 := 0.555 * _). assert (Hh0 : 0 < h0) by (unfold h0; posr). intros E. apply HSec in E. unfold _Stichlmair_wet_err in E. cbv zeta in E.
  replace (h0 * (1 + 20 * dP * dP * (1 / (H * rhol * 9.80665) * (1 / (H * rhol * 9.80665))))) with (holdup h0 dP H rhol) in E by (unfold holdup; field; splits; lra).
  set (h := holdup h0 dP H rhol) in *. assert (Hh : 0 < h). { unfold h, holdup. apply Rmult_lt_0_compat; auto. pose proof (pow2_ge_0 (dP / (H * rhol * 9.80665))). lra. }
  rewrite (pdiv_ok dry) in E by lra. cbn [bind] in E. rewrite (pdiv_ok (1 - e + h)) in E by lra. cbn [bind] in E. assert (Hq : 1 < (1 - e + h) / (1 - e)). { replace 1 with ((1 - e) / (1 - e)) at 1 by (field; lra). apply div_lt_r; lra. }
  rewrite (ppow_ok ((1 - e + h) / (1 - e))) in E by lra. cbn [bind] in E. unfold pdiv in E at 1. destruct (Reqb (e - h) 0) eqn:Z; cbn [bind] in E; [discriminate|]. rewrite Reqb_false in Z.
  assert (Hv : h < e). { apply Rnot_le_lt. intros N. assert (Neg : e / (e - h) < 0). { assert (/ (e - h) < 0) by (apply Rinv_lt_0_compat; lra). unfold Rdiv. nra. } assert (X : exists x, ppow (e / (e - h)) 4.65 = Err x). { unfold ppow. rewrite (proj2 (Rltb_false _ _)) by lra. rewrite (proj2 (Reqb_false _ _)) by lra. eauto. } destruct X as [x X]. rewrite X in E. discriminate. }
  assert (Hw : 1 < e / (e - h)). { replace 1 with (e / e) by (field; lra). apply div_lt_l; lra. }
  rewrite (ppow_ok (e / (e - h))) in E by lra. cbn [bind] in E. rewrite pdiv_ok in E by lra. cbn [bind] in E.
  assert (Q : dry / H * Rpower ((1 - e + h) / (1 - e)) ((2 + c) / 3) * Rpower (e / (e - h)) 4.65 - dP / H = 0) by congruence. clear E.
  assert (W : dP = dry * Rpower ((1 - e + h) / (1 - e)) ((2 + c) / 3) * Rpower (e / (e - h)) 4.65). { apply (f_equal (fun t => t * H)) in Q. rewrite Rmult_0_l in Q. assert (Q2 : dry * Rpower ((1 - e + h) / (1 - e)) ((2 + c) / 3) * Rpower (e / (e - h)) 4.65 - dP = 0) by (rewrite <- Q; field; lra). lra. }
  splits; auto.
  assert (P1 : forall x y, 1 < x -> 0 < y -> 1 < Rpower x y). { intros x y Hx Hy. rewrite <- (Rpower_O x) by lra. apply Rpower_lt; lra. }
  assert (Hc : -1 <= c). { unfold c, exponent_c. assert (T : (C1 / Re + C2 / sqrt Re / 2) / friction0 C1 C2 C3 Re <= 1). { apply (Rmult_le_reg_r (friction0 C1 C2 C3 Re)); auto. replace ((C1 / Re + C2 / sqrt Re / 2) / friction0 C1 C2 C3 Re * friction0 C1 C2 C3 Re) with (C1 / Re + C2 / sqrt Re / 2) by (symmetry; unfold Rdiv at 1; rewrite Rmult_assoc, Rinv_l by lra; ring). unfold friction0. lra. }
    replace ((- C1 / Re - C2 / (2 * sqrt Re)) / friction0 C1 C2 C3 Re) with (- ((C1 / Re + C2 / sqrt Re / 2) / friction0 C1 C2 C3 Re)); [lra|]. generalize (friction0 C1 C2 C3 Re) HF. intros f Hf. field. splits; lra. }
  pose proof (P1 _ ((2 + c) / 3) Hq ltac:(lra)) as B1. pose proof (P1 _ 4.65 Hw ltac:(lits; lra)) as B2. rewrite W. set (x := Rpower _ ((2 + c) / 3)) in *. set (y := Rpower (e / (e - h)) 4.65) in *. clearbody x y. assert (1 < x * y) by nra. rewrite Rmult_assoc. assert (dry * 1 < dry * (x * y)) by (apply Rmult_lt_compat_l; auto). lra.
Qed.
Lemma wet_without_liquid secant Vg rhog rhol mug e a C1 C2 C3 H :
  0 < Vg -> 0 < rhog -> 0 < rhol -> 0 < mug -> 0 < e -> e < 1 -> 0 < a -> 0 <= C1 -> 0 <= C2 -> 0 < C3 -> 0 < H ->
  exists F, (forall x, F x = Ok ((dry_drop Vg rhog mug e a C1 C2 C3 H - x) / H)) /\ Stichlmair_wet secant Vg 0 rhog rhol mug e a C1 C2 C3 H = secant F (dry_drop Vg rhog mug e a C1 C2 C3 H).
Proof.
  intros HV Hr Hrl Hm He He1 Ha H1 H2 H3 HH. pose proof (sphere_pos e a He1 Ha) as HS. assert (G0 : 0 < 9.80665) by (lits; lra).
  unfold Stichlmair_wet. rewrite (pdiv_ok (6 * _)) by lra. cbn [bind]. fold (sphere e a). rewrite (pdiv_ok _ mug) by lra. cbn [bind]. fold (Re_gas Vg rhog mug e a). set (Re := Re_gas Vg rhog mug e a) in *. assert (HR : 0 < Re) by (unfold Re, Re_gas; posr). assert (HsR : 0 < sqrt Re) by posr.
  rewrite (pdiv_ok C1) by lra. cbn [bind]. rewrite psqrt_ok by lra. cbn [bind]. rewrite (pdiv_ok C2 (sqrt Re)) by lra. cbn [bind]. cbv zeta. fold (friction0 C1 C2 C3 Re).
  assert (A1 : 0 <= C1 / Re) by (apply Rmult_le_pos; [lra|apply Rlt_le, Rinv_0_lt_compat; lra]). assert (A2 : 0 <= C2 / sqrt Re) by (apply Rmult_le_pos; [lra|apply Rlt_le, Rinv_0_lt_compat; lra]). assert (HF : 0 < friction0 C1 C2 C3 Re) by (unfold friction0; lra).
  rewrite ppow_ok by auto. cbn [bind]. assert (HP : 0 < Rpower e 4.65) by apply Rpower_pos. rewrite (pdiv_ok _ (Rpower e 4.65)) by lra. cbn [bind]. rewrite (pdiv_ok _ (sphere e a)) by lra. cbn [bind]. rewrite (pdiv_ok (- C1)) by lra. cbn [bind]. rewrite (pdiv_ok C2) by lra. cbn [bind]. rewrite (pdiv_ok _ (friction0 _ _ _ _)) by lra. cbn [bind]. set (c := _ / friction0 _ _ _ _).
  rewrite (pdiv_ok (0 ^ 2 * a)) by posr. cbn [bind]. replace (0 ^ 2 * a / (9.80665 * Rpower e 4.65)) with 0 by (field; lra). rewrite ppow_0 by lra. cbn [bind]. rewrite (pdiv_ok 1) by posr. cbn [bind].
  match goal with |- context [_Stichlmair_wet_err _ _ _ ?d H e _] => replace d with (dry_drop Vg rhog mug e a C1 C2 C3 H) by (unfold dry_drop, Re; field; splits; lra) end.
  eexists. split; [|reflexivity]. intros dP. set (dry := dry_drop Vg rhog mug e a C1 C2 C3 H) in *. unfold _Stichlmair_wet_err. cbv zeta. rewrite Rmult_0_r, Rmult_0_l, Rplus_0_r, Rminus_0_r. rewrite (pdiv_ok dry), (pdiv_ok (1 - e)), (pdiv_ok e), (pdiv_ok dP) by lra. cbn [bind].
  replace ((1 - e) / (1 - e)) with 1 by (field; lra). replace (e / e) with 1 by (field; lra). rewrite !ppow_ok by lra. cbn [bind]. unfold Rpower. rewrite ln_1, !Rmult_0_r, exp_0. f_equal. field. lra.
Qed.
(** without liquid the dry drop is returned *)
Theorem C99_wet_dry secant Vg rhog rhol mug e a C1 C2 C3 H dP : (forall f x r, secant f x = Ok r -> f r = Ok 0) ->
  0 < Vg -> 0 < rhog -> 0 < rhol -> 0 < mug -> 0 < e -> e < 1 -> 0 < a -> 0 <= C1 -> 0 <= C2 -> 0 < C3 -> 0 < H ->
  Stichlmair_wet secant Vg 0 rhog rhol mug e a C1 C2 C3 H = Ok dP -> dP = dry_drop Vg rhog mug e a C1 C2 C3 H.
Proof.
  intros HSec HV Hr Hrl Hm He He1 Ha H1 H2 H3 HH E. destruct (wet_without_liquid secant Vg rhog rhol mug e a C1 C2 C3 H) as (F & HF & G); auto. rewrite G in E. apply HSec in E. rewrite HF in E. set (dry := dry_drop _ _ _ _ _ _ _ _ _) in *.
  assert (Q : (dry - dP) / H = 0) by congruence. apply (f_equal (fun t => t * H)) in Q. rewrite Rmult_0_l in Q. assert (Q2 : dry - dP = 0) by (rewrite <- Q; field; lra). lra.
Qed.

(** *** Robbins: rises with both flows, proportional to the height *)
Definition robbins_Lf (L rhol mul Fpd : R) : R := L * 737.33812 * (62.4 / (rhol * 0.062427961)) * sqrt (0.05 * Fpd) * Rpower (mul * 1000) 0.1.
Definition robbins_Gf (G rhog Fpd : R) : R := G * 737.33812 * sqrt (0.075 / (rhog * 0.062427961)) * sqrt (0.05 * Fpd).
Definition robbins (Lf Gf : R) : R := let x := 0.000000074 * Gf ^ 2 * Rpower 10 (0.000027 * Lf) in x + 0.4 * Rpower (0.00005 * Lf) 0.1 * x ^ 4.
Lemma Robbins_form L G rhol rhog mul H Fpd : 0 < L -> 0 < rhol -> 0 < rhog -> 0 < mul -> 0 < Fpd -> Robbins L G rhol rhog mul H Fpd = Ok (robbins (robbins_Lf L rhol mul Fpd) (robbins_Gf G rhog Fpd) * 817.22083 * H).
Proof.
  intros HL Hl Hg Hm HF. assert (0 < 0.05) by (lits; lra). assert (0 < 62.4) by (lits; lra). assert (0 < 0.062427961) by (lits; lra). assert (0 < 0.075) by (lits; lra). assert (0 < 737.33812) by (lits; lra). assert (0 < 0.00005) by (lits; lra).
  unfold Robbins. cbv zeta. rewrite psqrt_ok by (apply Rlt_le; posr). cbn [bind]. rewrite (pdiv_ok 62.4) by posr. cbn [bind]. rewrite (ppow_ok (mul * 1000)) by posr. cbn [bind]. rewrite (pdiv_ok 0.075) by posr. cbn [bind]. rewrite psqrt_ok by (apply Rlt_le; posr). cbn [bind]. fold (robbins_Lf L rhol mul Fpd) (robbins_Gf G rhog Fpd).
  assert (0 < robbins_Lf L rhol mul Fpd) by (unfold robbins_Lf; posr). set (Lf := robbins_Lf _ _ _ _) in *. set (Gf := robbins_Gf _ _ _). clearbody Lf Gf. rewrite (ppow_ok 10) by lra. cbn [bind]. rewrite ppow_ok by posr. cbn [bind]. f_equal. unfold robbins. ring.
Qed.

Lemma Rpower10_lt a b : a < b -> Rpower 10 a < Rpower 10 b. Proof. intros. apply Rpower_lt; lra. Qed.
Theorem C99_Robbins L L' G G' rhol rhog mul H Fpd : 0 < L -> L <= L' -> 0 < G -> G <= G' -> L < L' \/ G < G' -> 0 < rhol -> 0 < rhog -> 0 < mul -> 0 < Fpd -> 0 < H ->
  exists p p', Robbins L G rhol rhog mul H Fpd = Ok p /\ Robbins L' G' rhol rhog mul H Fpd = Ok p' /\ 0 < p < p' /\ forall k, Robbins L G rhol rhog mul (k * H) Fpd = Ok (k * p).
Proof.
  intros HL HLL HG HGG HS Hl Hg Hm HF HH. rewrite !Robbins_form by lra. do 2 eexists. split; [reflexivity|]. split; [reflexivity|].
  assert (0 < 0.05) by (lits; lra). assert (0 < 62.4) by (lits; lra). assert (0 < 0.062427961) by (lits; lra). assert (0 < 0.075) by (lits; lra). assert (0 < 737.33812) by (lits; lra). assert (0 < 817.22083) by (lits; lra).
  assert (LL : forall l, robbins_Lf l rhol mul Fpd = l * robbins_Lf 1 rhol mul Fpd) by (intros; unfold robbins_Lf; ring). assert (GG : forall l, robbins_Gf l rhog Fpd = l * robbins_Gf 1 rhog Fpd) by (intros; unfold robbins_Gf; ring).
  rewrite (LL L), (LL L'), (GG G), (GG G'). assert (0 < robbins_Lf 1 rhol mul Fpd) by (unfold robbins_Lf; posr). assert (0 < robbins_Gf 1 rhog Fpd) by (unfold robbins_Gf; posr). set (p := robbins_Lf 1 rhol mul Fpd) in *. set (q := robbins_Gf 1 rhog Fpd) in *. clearbody p q.
  assert (M : forall x x' y y', 0 < x -> x <= x' -> 0 < y -> y <= y' -> x < x' \/ y < y' -> 0 < robbins x y < robbins x' y').
  { clear. intros x x' y y' Hx Hxx Hy Hyy HS. unfold robbins. set (u := 0.000000074 * y ^ 2 * Rpower 10 (0.000027 * x)). set (u' := 0.000000074 * y' ^ 2 * Rpower 10 (0.000027 * x')). assert (A : 0 < 0.000000074) by (lits; lra). assert (B : 0 < 0.000027) by (lits; lra). assert (C : 0 < 0.00005) by (lits; lra). assert (D : 0 < 0.4) by (lits; lra).
    assert (U : 0 < u) by (unfold u; posr). assert (UU : u < u'). { unfold u, u'. assert (0 < Rpower 10 (0.000027 * x)) by posr. destruct HS as [HS|HS].
      - assert (Rpower 10 (0.000027 * x) < Rpower 10 (0.000027 * x')) by (apply Rpower10_lt, Rmult_lt_compat_l; auto). assert (y ^ 2 <= y' ^ 2) by nra. assert (0 < y ^ 2) by posr. apply Rle_lt_trans with (0.000000074 * y' ^ 2 * Rpower 10 (0.000027 * x)); [apply Rmult_le_compat_r; [lra|apply Rmult_le_compat_l; lra]|apply Rmult_lt_compat_l; auto; assert (0 < y' ^ 2) by lra; posr].
      - assert (Rpower 10 (0.000027 * x) <= Rpower 10 (0.000027 * x')) by (destruct Hxx as [G| ->]; [left; apply Rpower10_lt, Rmult_lt_compat_l; auto|lra]). assert (y ^ 2 < y' ^ 2) by nra. apply Rlt_le_trans with (0.000000074 * y' ^ 2 * Rpower 10 (0.000027 * x)); [apply Rmult_lt_compat_r; [lra|apply Rmult_lt_compat_l; lra]|apply Rmult_le_compat_l; auto; apply Rlt_le; assert (0 < y') by lra; posr]. }
    assert (V : 0 < Rpower (0.00005 * x) 0.1) by apply Rpower_pos. assert (VV : Rpower (0.00005 * x) 0.1 <= Rpower (0.00005 * x') 0.1) by (apply Rpower_le_l; [posr|apply Rmult_le_compat_l; lra|lits; lra]). clearbody u u'. set (v := Rpower (0.00005 * x) 0.1) in *. set (v' := Rpower (0.00005 * x') 0.1) in *. clearbody v v'.
    assert (W : u ^ 4 < u' ^ 4) by (assert (u ^ 2 < u' ^ 2) by nra; replace (u ^ 4) with (u ^ 2 * u ^ 2) by ring; replace (u' ^ 4) with (u' ^ 2 * u' ^ 2) by ring; assert (0 < u ^ 2) by posr; nra).
    assert (0 < u ^ 4) by posr. assert (0.4 * v * u ^ 4 <= 0.4 * v' * u' ^ 4). { apply Rmult_le_compat; try lra; try (apply Rlt_le; posr); apply Rmult_le_compat_l; lra. } assert (0 < 0.4 * v * u ^ 4) by posr. split; lra. }
  destruct (M (L * p) (L' * p) (G * q) (G' * q)) as [M1 M2]; try (apply Rmult_lt_0_compat; auto); try (apply Rmult_le_compat_r; lra). { destruct HS; [left|right]; apply Rmult_lt_compat_r; auto. }
  split; [split; [posr|]|].
  - do 2 (apply Rmult_lt_compat_r; auto).
  - intros k. rewrite Robbins_form by lra. rewrite (LL L), (GG G). f_equal. ring.
Qed.

(** *** Mesh pads *)
Theorem C99_separation vs e d_wire d_drop : 0 < vs -> 0 < d_wire -> 0 < d_drop -> 0 < e -> e < 1 ->
  exists s, separation_demister_ElDessouky vs e d_wire d_drop = Ok s /\ 0 < s <= 1 /\
  (forall vs' d_drop', vs <= vs' -> d_drop <= d_drop' -> exists s', separation_demister_ElDessouky vs' e d_wire d_drop' = Ok s' /\ s <= s').
Proof.
  intros Hv Hw Hd He He1. assert (0 < 0.858352355761947) by (lits; lra). assert (0 < 1 - e) by lra.
  assert (F : forall v d, 0 < v -> 0 < d -> separation_demister_ElDessouky v e d_wire d = Ok (Rmin (0.858352355761947 * Rpower d_wire (- 0.28264) * Rpower (1 - e) 0.099625 * Rpower v 0.106878 * Rpower d 0.383197) 1)) by (intros; unfold separation_demister_ElDessouky; mrun; reflexivity).
  rewrite F by auto. eexists. split; [reflexivity|]. split.
  - split; [apply Rmin_pos; [posr|lra]|apply Rmin_r].
  - intros v' d' Hv' Hd'. rewrite F by lra. eexists. split; [reflexivity|]. apply Rle_min_compat_r. apply Rmult_le_compat; try (apply Rlt_le; posr); [apply Rmult_le_compat_l; [apply Rlt_le; posr|]|]; apply Rpower_le_l; auto; lits; lra.
Qed.
Theorem C99_wet_mesh vs e d_wire L : 0 < vs -> e < 1 -> 0 < d_wire -> 0 < L -> exists p, dP_demister_wet_ElDessouky vs e d_wire L = Ok p /\ 0 < p /\ (forall k, dP_demister_wet_ElDessouky vs e d_wire (k * L) = Ok (k * p)) /\
  (forall vs', vs < vs' -> exists p', dP_demister_wet_ElDessouky vs' e d_wire L = Ok p' /\ p < p').
Proof.
  intros Hv He Hw HL. assert (0 < 0.002356999643727531) by (lits; lra). assert (0 < 1 - e) by lra. unfold dP_demister_wet_ElDessouky. rewrite !ppow_ok by auto. cbn [bind]. eexists. split; [reflexivity|]. splits; [posr|intros; f_equal; ring|].
  intros v' Hv'. rewrite ppow_ok by lra. cbn [bind]. eexists. split; [reflexivity|]. apply Rmult_lt_compat_r; [posr|]. apply Rmult_lt_compat_l; [posr|]. apply Rpower_lt_l; auto; lits; lra.
Qed.
(** the measured voidage is the part of the bed volume not filled by solid *)
Theorem C99_voidage m rho D H : 0 < rho -> 0 < D -> 0 < H -> 0 <= m ->
  let bed := PI * (D / 2) ^ 2 * H in let solid := m / rho in exists e, voidage_experimental m rho D H = Ok e /\ e * bed = bed - solid /\ (0 <= e <= 1 <-> solid <= bed).
Proof.
  intros Hr HD HH Hm bed solid. pose proof PI_RGT_0. unfold voidage_experimental. rewrite (pdiv_ok m) by posr. cbn [bind]. rewrite pdiv_ok by lra. cbn [bind]. assert (HB : 0 < bed) by (unfold bed; posr). replace (m / (PI / 4 * D ^ 2 * H) / rho) with (solid / bed) by (unfold solid, bed; field; lra). assert (0 <= solid) by (apply Rmult_le_pos; [lra|apply Rlt_le, Rinv_0_lt_compat; auto]). clearbody bed solid.
  eexists. split; [reflexivity|]. split; [field; lra|]. assert (Q : solid / bed * bed = solid) by (field; lra). assert (0 <= solid / bed) by (apply Rmult_le_pos; [lra|apply Rlt_le, Rinv_0_lt_compat; auto]). split; intros; nra.
Qed.
(** wires of diameter d filling the solid fraction of a unit volume: their length times their circumference *)
Theorem C99_mesh_area e d len : 0 < d -> len * (PI * (d / 2) ^ 2) = 1 - e -> specific_area_mesh e d = Ok (len * (PI * d)).
Proof. intros Hd HL. pose proof PI_RGT_0. unfold specific_area_mesh. rewrite pdiv_ok by lra. f_equal. rewrite <- HL. field. lra. Qed.

(** dry mesh pads: a positive drop for thin and for thick pads, but a negative one in between *)
Theorem C99_dry_mesh S e vs rho mu L : 0 < S -> 0 < L -> 0 < e -> 0 < vs -> 0 < rho -> 0 < mu -> S * L <= 13.9 \/ 55.7 <= S * L ->
  exists p, dP_demister_dry_Setekleiv_Svendsen S e vs rho mu L = Ok p /\ 9 * rho * vs ^ 2 / e ^ 2 < p.
Proof.
  intros HS HL He Hv Hr Hm HSL. unfold dP_demister_dry_Setekleiv_Svendsen. replace (69.6 * S * L) with (69.6 * (S * L)) by ring. replace (4.85 * S * L) with (4.85 * (S * L)) by ring. set (x := S * L) in *. assert (Hx : 0 < x) by (unfold x; posr). assert (0 < 45.33) by (lits; lra).
  assert (D1 : 69.6 * x - x ^ 2 - 779 < 0) by (clear - HSL Hx; clearbody x; lits; destruct HSL; nra). rewrite (pdiv_ok 565) by lra. cbn [bind].
  assert (N1 : 0 < - (565 / (69.6 * x - x ^ 2 - 779))). { replace (- (565 / (69.6 * x - x ^ 2 - 779))) with (565 / (- (69.6 * x - x ^ 2 - 779))) by (field; lra). apply Rdiv_lt_0_compat; lra. }
  assert (D2 : 160.9 - 4.85 * x < 0 \/ 93 < 160.9 - 4.85 * x) by (clear - HSL; clearbody x; lits; destruct HSL; [right|left]; lra). rewrite (pdiv_ok 74.9) by lra. cbn [bind].
  assert (N2 : 74.9 / (160.9 - 4.85 * x) < 0.82). { destruct D2 as [D2|D2]. - assert (0 < 74.9 / (- (160.9 - 4.85 * x))) by (apply Rdiv_lt_0_compat; [lits|]; lra). replace (74.9 / (160.9 - 4.85 * x)) with (- (74.9 / (- (160.9 - 4.85 * x)))) by (field; lra). lits. lra. - apply Rlt_trans with (74.9 / 93); [apply div_lt_l; auto; lits; lra|lits; lra]. }
  cbv zeta. rewrite (pdiv_ok _ rho) by lra. cbn [bind]. rewrite (pdiv_ok _ vs) by lra. cbn [bind]. rewrite ppow_ok by posr. cbn [bind]. rewrite pdiv_ok by posr. eexists. split; [reflexivity|]. apply div_lt_r; [posr|]. apply Rmult_lt_compat_r; [posr|]. apply Rmult_lt_compat_r; auto. set (z := Rpower _ 0.75). assert (0 < z) by apply Rpower_pos. assert (0 < 45.33 * z) by posr. set (w := 45.33 * z) in *. lits. lra.
Qed.
Theorem C99_dry_mesh_refuted : exists p, dP_demister_dry_Setekleiv_Svendsen 150 0.97 3 1 0.00001 0.1 = Ok p /\ p < 0.
Proof.
  unfold dP_demister_dry_Setekleiv_Svendsen. rewrite (pdiv_ok 565), (pdiv_ok 74.9) by (lits; lra). cbn [bind]. cbv zeta. rewrite (pdiv_ok _ 1) by lra. cbn [bind]. rewrite (pdiv_ok _ 3) by lra. cbn [bind]. rewrite ppow_ok by (lits; lra). cbn [bind]. rewrite pdiv_ok by (lits; lra). eexists. split; [reflexivity|]. itv 0%nat.
Qed.

(** the documented columns meet the hypotheses *)
Example C99_case : 0 < 0.68 < 1 /\ 0 < dry_drop 0.4 5 0.00005 0.68 260 32 7 1 1.
Proof. splits; try (lits; lra). apply C99_dry; lits; lra. Qed.
(** the contract of the solver can be met: one that answers only where the guess itself is a root, reached without liquid *)
Example C99_case_solver : exists secant, (forall f x r, secant f x = Ok r -> f r = Ok 0) /\ Stichlmair_wet secant 0.4 0 5 1200 0.00005 0.68 260 32 7 1 1 = Ok (dry_drop 0.4 5 0.00005 0.68 260 32 7 1 1).
Proof.
  exists (fun f x => v <- f x ;; if Reqb v 0 then Ok x else Err RuntimeError). split.
  - intros f x r E. inv_bind E. destruct (Reqb v 0) eqn:Z; [|discriminate]. rewrite Reqb_true in Z. assert (x = r) by congruence. subst. auto.
  - destruct (wet_without_liquid (fun f x => v <- f x ;; if Reqb v 0 then Ok x else Err RuntimeError) 0.4 5 1200 0.00005 0.68 260 32 7 1 1) as (F & HF & G); try (lits; lra). rewrite G, HF. cbn [bind]. rewrite (proj2 (Reqb_true _ _)); auto. unfold Rdiv. rewrite Rminus_diag_eq by auto. ring.
Qed.

(** *** The correlations as first published *)
(** El-Dessouky: wire and drop diameters in mm, packing density in kg/m3 for steel of 7999 kg/m3, separation in percent *)
Definition mesh_drop_published (rho_mesh V dw_mm : R) : R := 3.88178 * Rpower rho_mesh 0.375798 * Rpower V 0.81317 * Rpower dw_mm (-1.56114147).
Definition separation_published (rho_mesh V dw_mm dp_mm : R) : R := 17.5047 * Rpower dw_mm (-0.28264) * Rpower rho_mesh 0.099625 * Rpower V 0.106878 * Rpower dp_mm 0.383197.
Lemma Rpower_scale k x e : 0 < k -> 0 < x -> Rpower (k * x) e = Rpower k e * Rpower x e. Proof. intros. now rewrite Rpower_mult_distr. Qed.
Theorem C99_wet_mesh_published vs e d_wire L : 0 < vs -> e < 1 -> 0 < d_wire -> 0 < L -> exists p, dP_demister_wet_ElDessouky vs e d_wire L = Ok p /\
  let q := L * mesh_drop_published (7999 * (1 - e)) vs (1000 * d_wire) in 0 < q /\ Rabs (p / q - 1) <= 1 / 10 ^ 10.
Proof.
  intros Hv He Hw HL. assert (0 < 1 - e) by lra. unfold dP_demister_wet_ElDessouky. rewrite !ppow_ok by auto. cbn [bind]. eexists. split; [reflexivity|]. cbv zeta. unfold mesh_drop_published. rewrite (Rpower_scale 7999), (Rpower_scale 1000) by lra.
  assert (0 < 3.88178) by (lits; lra). split; [posr|].
  replace (L * 0.002356999643727531 * Rpower (1 - e) 0.375798 * Rpower vs 0.81317 * Rpower d_wire (- 1.56114147) / (L * (3.88178 * (Rpower 7999 0.375798 * Rpower (1 - e) 0.375798) * Rpower vs 0.81317 * (Rpower 1000 (- 1.56114147) * Rpower d_wire (- 1.56114147)))))
    with (0.002356999643727531 / (3.88178 * Rpower 7999 0.375798 * Rpower 1000 (- 1.56114147))).
  2:{ field. splits; try (apply Rgt_not_eq, Rlt_gt; apply Rpower_pos); lra. }
  apply Rabs_le. split; itv 0%nat.
Qed.
Theorem C99_separation_published vs e d_wire d_drop : 0 < vs -> 0 < d_wire -> 0 < d_drop -> e < 1 -> exists s, separation_demister_ElDessouky vs e d_wire d_drop = Ok s /\
  let q := separation_published (7999 * (1 - e)) vs (1000 * d_wire) (1000 * d_drop) / 100 in Rabs (s - Rmin q 1) <= 1 / 10 ^ 10.
Proof.
  intros Hv Hw Hd He. assert (0 < 1 - e) by lra. unfold separation_demister_ElDessouky. rewrite !ppow_ok by auto. cbn [bind]. eexists. split; [reflexivity|]. cbv zeta. unfold separation_published. rewrite (Rpower_scale 7999), !(Rpower_scale 1000) by lra.
  set (c := 17.5047 * Rpower 1000 (- 0.28264) * Rpower 7999 0.099625 * Rpower 1000 0.383197 / 100). set (x := Rpower d_wire (- 0.28264) * Rpower (1 - e) 0.099625 * Rpower vs 0.106878 * Rpower d_drop 0.383197).
  replace (0.858352355761947 * Rpower d_wire (- 0.28264) * Rpower (1 - e) 0.099625 * Rpower vs 0.106878 * Rpower d_drop 0.383197) with (0.858352355761947 * x) by (unfold x; ring).
  match goal with |- Rabs (_ - Rmin ?q 1) <= _ => replace q with (c * x) by (unfold c, x; field) end.
  assert (Hx : 0 < x) by (unfold x; pose proof (Rpower_pos d_wire (- 0.28264)); pose proof (Rpower_pos (1 - e) 0.099625); pose proof (Rpower_pos vs 0.106878); pose proof (Rpower_pos d_drop 0.383197); repeat apply Rmult_lt_0_compat; auto).
  assert (HC : 0.858352355761947 * (1 - 1 / 10 ^ 11) <= c <= 0.858352355761947 * (1 + 1 / 10 ^ 11)) by (unfold c; split; itv 0%nat). clearbody c x. assert (H0 : 0.8 < 0.858352355761947) by (lits; lra). set (k := 0.858352355761947) in *. assert (H1 : k < 0.9) by (unfold k; lits; lra). clearbody k. lits.
  unfold Rmin. assert (B : c * x <= k * x * (1 + 1 / 10 ^ 11)) by nra. assert (B' : k * x * (1 - 1 / 10 ^ 11) <= c * x) by nra. set (u := k * x) in *. set (w := c * x) in *. assert (0 < u) by (unfold u; nra). clearbody u w. apply Rabs_le. destruct (Rle_dec u 1), (Rle_dec w 1); lra.
Qed.
(** Robbins: flows in lb/(h ft2), densities in lb/ft3, viscosity in cP, result in inches of water (249.08891 Pa) per foot; the conversion factors are exact to eight digits *)
Theorem C99_Robbins_published L G rhol rhog mul H Fpd : 0 < L -> 0 < rhol -> 0 < rhog -> 0 < mul -> 0 < Fpd ->
  exists flux dens drop,
  (let Lf := L * flux * (62.4 / (rhol * dens)) * sqrt (Fpd / 20) * Rpower (mul * 1000) 0.1 in
   let Gf := G * flux * sqrt (0.075 / (rhog * dens)) * sqrt (Fpd / 20) in
   let x := 7.4 / 10 ^ 8 * Gf ^ 2 * Rpower 10 (2.7 / 10 ^ 5 * Lf) in
   Robbins L G rhol rhog mul H Fpd = Ok ((x + 0.4 * Rpower (Lf / 20000) 0.1 * x ^ 4) * drop * H)) /\
  Rabs (flux / (3600 * 0.3048 ^ 2 / 0.45359237) - 1) <= 1 / 10 ^ 8 /\ Rabs (dens / (0.3048 ^ 3 / 0.45359237) - 1) <= 1 / 10 ^ 8 /\ Rabs (drop / (249.08891 / 0.3048) - 1) <= 1 / 10 ^ 8.
Proof.
  intros HL Hl Hg Hm HF. exists 737.33812, 0.062427961, 817.22083. split; [|splits; apply Rabs_le; lits; lra]. cbv zeta. rewrite Robbins_form by auto. unfold robbins, robbins_Lf, robbins_Gf.
  replace (0.05 * Fpd) with (Fpd / 20) by (lits; field). set (Lf := L * _ * _ * _ * _). set (Gf := G * _ * _ * _). replace (0.00005 * Lf) with (Lf / 20000) by (lits; field). replace (7.4 / 10 ^ 8) with 0.000000074 by (lits; field). replace (2.7 / 10 ^ 5) with 0.000027 by (lits; field). reflexivity.
Qed.

Print Assumptions C99_dry.
Print Assumptions C99_dry_rises.
Print Assumptions C99_wet.
Print Assumptions C99_wet_dry.
Print Assumptions C99_Robbins.
Print Assumptions C99_separation.
Print Assumptions C99_wet_mesh.
Print Assumptions C99_voidage.
Print Assumptions C99_mesh_area.
Print Assumptions C99_dry_mesh.
Print Assumptions C99_dry_mesh_refuted.
Print Assumptions C99_wet_mesh_published.
Print Assumptions C99_separation_published.
Print Assumptions C99_Robbins_published.
