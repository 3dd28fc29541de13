(** C60: the standard atmosphere.
    Claims about [ATMOSPHERE_1976], its [pressure_integral] and [airmass] of fluids/atmosphere.py. *)
From Coq Require Import Reals Lra Lia List Bool ZArith Psatz QArith Qreals.
From Coquelicot Require Import Coquelicot.
From Verif Require Import Base Model_Real Proofs_Real Interval Model_Atmosphere Proofs_Atmosphere.
Import ListNotations.
Open Scope R_scope.

(** ** Vocabulary: the published piecewise profile of the 1976 standard *)
(** base altitude (geopotential, m), base temperature (K), lapse rate (K/m) *)
Definition published : list (R * (R * R)) :=
  [(0, (288.15, - 0.0065)); (11000, (216.65, 0)); (20000, (216.65, 0.001)); (32000, (228.65, 0.0028));
   (47000, (270.65, 0)); (51000, (270.65, - 0.0028)); (71000, (214.65, - 0.002)); (84852, (186.946, 0))].
(** temperature at geopotential altitude [H]: by the highest layer whose base is below [H], the lowest one
    also below sea level *)
Fixpoint profile (l : list (R * (R * R))) (H last : R) : R :=
  match l with
  | [] => last
  | (b, (T, a)) :: t => if Rltb b H then profile t H (T + a * (H - b)) else last
  end.
Definition standard_temperature (H : R) : R := profile published H (288.15 - 0.0065 * H).

Lemma profile_layer i H : in_layer i H -> standard_temperature H = T_in i H.
Proof.
  intros (Hi & Li & Ui). unfold standard_temperature, profile, published, T_in.
  eight i Hi; try specialize (Li ltac:(lia)); try specialize (Ui ltac:(lia)); tabs;
    repeat match goal with
      | |- context [Rltb ?b H] => let E := fresh in destruct (Rltb b H) eqn:E; [apply Rltb_true in E|apply Rltb_false in E]
    end; try (exfalso; lra); lits; lra.
Qed.
Lemma geo_layer Z : exists i, in_layer i (geopotential Z).
Proof. apply layer_exists. Qed.
Lemma T_min i H : in_layer i H -> 186.946 <= T_in i H.
Proof.
  intros (Hi & Li & Ui). unfold T_in.
  eight i Hi; try specialize (Li ltac:(lia)); try specialize (Ui ltac:(lia)); tabs; lits; lra.
Qed.

(** Every altitude above the centre of the earth has an atmosphere, with positive properties, as long as the
    temperature correction leaves the temperature positive; at the centre there is a ZeroDivisionError. *)
Theorem C60_defined : forall Z dT, - 6356766 < Z -> - 186.946 < dT ->
  exists a, ATMOSPHERE_1976 Z dT = Ok a /\ 0 < a_T a /\ 0 < a_P a /\ 0 < a_rho a /\ 0 < a_v_sonic a /\ 0 < a_mu a /\
    0 < a_k a /\ 0 < a_g a.
Proof.
  intros Z dT HZ HdT. destruct (geo_layer Z) as [i Hi]. pose proof (T_min i _ Hi) as HT.
  assert (HT' : 0 < T_in i (geopotential Z) + dT) by (lits; lra).
  eexists. split; [apply (eval i Z dT HZ Hi HT')|]. cbn [a_T a_P a_rho a_v_sonic a_mu a_k a_g].
  assert (HP : 0 < P_in i (geopotential Z)) by (apply P_in_pos; apply Hi).
  assert (Hr : 0 < r0 / (r0 + Z)) by (apply Rdiv_lt_0_compat; unfold r0; lra).
  set (T := T_in i (geopotential Z) + dT) in *. clearbody T.
  unfold rho_of, mu_of, k_of, g_of. splits; auto; try (unfold g0); posr.
Qed.
Theorem C60_centre : forall dT, ATMOSPHERE_1976 (- 6356766) dT = Err ZeroDivisionError.
Proof.
  intros dT. unfold ATMOSPHERE_1976, pdiv, r0. destruct (Reqb (6356766 + - 6356766) 0) eqn:E; auto.
  apply Reqb_false in E. lra.
Qed.

(** The temperature is the published profile at the geopotential altitude plus the correction; it is
    continuous at every altitude, never below 186.946 K, and at most 288.15 K from sea level on. *)
Theorem C60_temperature : forall Z dT a, - 6356766 < Z -> - 186.946 < dT -> ATMOSPHERE_1976 Z dT = Ok a ->
  a_H a = 6356766 * Z / (6356766 + Z) /\ a_T a = standard_temperature (a_H a) + dT /\
  186.946 <= standard_temperature (a_H a) /\ (0 <= Z -> standard_temperature (a_H a) <= 288.15).
Proof.
  intros Z dT a HZ HdT E. destruct (geo_layer Z) as [i Hi]. pose proof (T_min i _ Hi) as HT.
  rewrite (eval i Z dT HZ Hi) in E by (lits; lra). apply Ok_inj in E. subst a. cbn [a_H a_T].
  rewrite (profile_layer i _ Hi). splits; auto. intros HZ0.
  assert (H0 : 0 <= geopotential Z). { unfold geopotential. apply Rdiv_le_0_compat; unfold r0; lra. }
  revert H0 Hi. generalize (geopotential Z). clear. intros H H0 (Hi & Li & Ui). unfold T_in.
  eight i Hi; try specialize (Li ltac:(lia)); try specialize (Ui ltac:(lia)); tabs; lits; lra.
Qed.
(** closeness: a piecewise linear profile with slopes at most 0.0065 K/m that agrees at the bases *)
Lemma T_in_lip i h1 h2 : (i <= 7)%nat -> Rabs (T_in i h1 - T_in i h2) <= 0.0065 * Rabs (h1 - h2).
Proof.
  intros Hi. unfold T_in. replace (T_ i + a_ i * (h1 - H_ i) - (T_ i + a_ i * (h2 - H_ i))) with (a_ i * (h1 - h2)) by ring.
  rewrite Rabs_mult. apply Rmult_le_compat_r; [apply Rabs_pos|].
  eight i Hi; tabs; apply Rabs_le; lits; lra.
Qed.
Lemma lip_chain i j h1 h2 : in_layer i h1 -> in_layer j h2 -> h1 <= h2 ->
  Rabs (T_in i h1 - T_in j h2) <= 0.0065 * (h2 - h1).
Proof.
  intros Hi Hj HH. assert (Hij := layer_mono _ _ _ _ Hi Hj HH).
  remember (j - i)%nat as n eqn:En. revert j h2 Hj HH Hij En. induction n as [|n IH]; intros j h2 Hj HH Hij En.
  - assert (i = j) by lia. subst j. pose proof (T_in_lip i h1 h2 (proj1 Hi)) as L.
    replace (h2 - h1) with (Rabs (h1 - h2)); auto. rewrite Rabs_minus_sym. apply Rabs_right; lra.
  - destruct j as [|j]; [lia|]. destruct Hj as (Hj & Lj & Uj). specialize (Lj ltac:(lia)).
    assert (Hm : in_layer j (H_ (S j))).
    { unfold in_layer; splits; [lia|intros; apply H_lt; lia|intros; lra]. }
    assert (Hh : h1 <= H_ (S j)).
    { destruct Hi as (Hi & Li & Ui). specialize (Ui ltac:(lia)). pose proof (H_le (S i) (S j) ltac:(lia) Hj). lra. }
    specialize (IH j (H_ (S j)) Hm Hh ltac:(lia) ltac:(lia)).
    rewrite T_join in IH by lia. pose proof (T_in_lip (S j) (H_ (S j)) h2 Hj) as L.
    rewrite (Rabs_minus_sym (H_ (S j)) h2), (Rabs_right (h2 - H_ (S j))) in L by lra.
    replace (T_in i h1 - T_in (S j) h2) with ((T_in i h1 - T_in (S j) (H_ (S j))) + (T_in (S j) (H_ (S j)) - T_in (S j) h2)) by ring.
    eapply Rle_trans; [apply Rabs_triang|]. lra.
Qed.
Lemma standard_lip h1 h2 : Rabs (standard_temperature h1 - standard_temperature h2) <= 0.0065 * Rabs (h1 - h2).
Proof.
  destruct (layer_exists h1) as [i Hi], (layer_exists h2) as [j Hj].
  rewrite (profile_layer i _ Hi), (profile_layer j _ Hj).
  destruct (Rle_dec h1 h2) as [H|H].
  - rewrite (Rabs_minus_sym h1 h2), (Rabs_right (h2 - h1)) by lra. apply lip_chain; auto.
  - rewrite Rabs_minus_sym. rewrite (Rabs_right (h1 - h2)) by lra. apply lip_chain; auto; lra.
Qed.
(** ... so two altitudes at most [d] geopotential metres apart differ by at most 0.0065 K per metre, across
    any layer boundaries. *)
Theorem C60_temperature_continuous : forall Z1 Z2 dT a1 a2, - 6356766 < Z1 -> - 6356766 < Z2 -> - 186.946 < dT ->
  ATMOSPHERE_1976 Z1 dT = Ok a1 -> ATMOSPHERE_1976 Z2 dT = Ok a2 ->
  Rabs (a_T a1 - a_T a2) <= 0.0065 * Rabs (a_H a1 - a_H a2).
Proof.
  intros Z1 Z2 dT a1 a2 H1 H2 HdT E1 E2.
  destruct (C60_temperature Z1 dT a1 H1 HdT E1) as (A & B & _). destruct (C60_temperature Z2 dT a2 H2 HdT E2) as (A' & B' & _).
  rewrite B, B'. replace (standard_temperature (a_H a1) + dT - (standard_temperature (a_H a2) + dT)) with
    (standard_temperature (a_H a1) - standard_temperature (a_H a2)) by ring. apply standard_lip.
Qed.

(** The correction [dT] shifts the temperature and leaves pressure, gravity and geopotential altitude alone. *)
Theorem C60_offset : forall Z dT a b, - 6356766 < Z -> - 186.946 < dT ->
  ATMOSPHERE_1976 Z 0 = Ok a -> ATMOSPHERE_1976 Z dT = Ok b ->
  a_T b = a_T a + dT /\ a_P b = a_P a /\ a_g b = a_g a /\ a_H b = a_H a /\ a_rho b * a_T b = a_rho a * a_T a.
Proof.
  intros Z dT a b HZ HdT E1 E2. destruct (geo_layer Z) as [i Hi]. pose proof (T_min i _ Hi) as HT.
  rewrite (eval i Z _ HZ Hi) in E1 by (lits; lra). rewrite (eval i Z _ HZ Hi) in E2 by (lits; lra).
  apply Ok_inj in E1, E2. subst a b. cbn [a_T a_P a_g a_H a_rho]. splits; auto; try ring.
  unfold rho_of. field. split; lits; lra.
Qed.

(** pressure as a function of altitude *)
Definition pressure_at (Z : R) : R := match ATMOSPHERE_1976 Z 0 with Ok a => a_P a | Err _ => 0 end.
Definition density_at (Z : R) : R := match ATMOSPHERE_1976 Z 0 with Ok a => a_rho a | Err _ => 0 end.
Definition gravity_at (Z : R) : R := match ATMOSPHERE_1976 Z 0 with Ok a => a_g a | Err _ => 0 end.
Lemma at_layer i Z : - r0 < Z -> in_layer i (geopotential Z) ->
  pressure_at Z = P_in i (geopotential Z) /\ density_at Z = rho_of (T_in i (geopotential Z)) (P_in i (geopotential Z)) /\
  gravity_at Z = g_of Z.
Proof.
  intros HZ Hi. unfold pressure_at, density_at, gravity_at. pose proof (T_in_pos i _ Hi).
  rewrite (eval i Z 0 HZ Hi) by lra. cbn [a_P a_rho a_g]. rewrite Rplus_0_r. auto.
Qed.
(** the layer bases as geometric altitudes *)
Definition boundary (Z : R) : Prop := exists H, In H [11000; 20000; 32000; 47000; 51000; 71000; 84852] /\ 6356766 * Z = H * (6356766 + Z).
Definition open_layer (i : nat) (H : R) : Prop := (i <= 7)%nat /\ (i <> 0%nat -> H_ i < H) /\ (i <> 7%nat -> H < H_ (S i)).
Lemma open_in i H : open_layer i H -> in_layer i H.
Proof. intros (A & B & C). unfold in_layer; splits; auto. intros HH. specialize (C HH). lra. Qed.
Lemma interior Z : - r0 < Z -> ~ boundary Z -> exists i, open_layer i (geopotential Z).
Proof.
  intros HZ Hb. destruct (geo_layer Z) as (i & Hi & Li & Ui). exists i. unfold open_layer; splits; auto. intros Hn. specialize (Ui Hn).
  destruct Ui as [|Ui]; auto. exfalso. apply Hb. exists (H_ (S i)). split.
  - clear - Hi Hn. eight i Hi; tabs; cbn [In]; auto 10; congruence.
  - rewrite <- Ui. unfold geopotential, r0 in *. field. lra.
Qed.
Lemma open_locally i Z : - r0 < Z -> open_layer i (geopotential Z) ->
  locally Z (fun z => - r0 < z /\ open_layer i (geopotential z)).
Proof.
  intros HZ (Hi & Li & Ui).
  assert (C : continuous geopotential Z) by (apply (@ex_derive_continuous R_AbsRing R_NormedModule); eexists; apply geo_derive; auto).
  assert (A1 : locally Z (fun z => - r0 < z)) by (apply (open_gt (- r0)); auto).
  assert (A2 : locally Z (fun z => i <> 0%nat -> H_ i < geopotential z)).
  { destruct (Nat.eq_dec i 0) as [->|Hn]; [apply filter_forall; intros ? []; reflexivity|].
    apply (filter_imp (fun z => H_ i < geopotential z)); auto. apply (C (fun h => H_ i < h)). apply (open_gt (H_ i)). auto. }
  assert (A3 : locally Z (fun z => i <> 7%nat -> geopotential z < H_ (S i))).
  { destruct (Nat.eq_dec i 7) as [->|Hn]; [apply filter_forall; intros ? []; reflexivity|].
    apply (filter_imp (fun z => geopotential z < H_ (S i))); auto. apply (C (fun h => h < H_ (S i))). apply (open_lt (H_ (S i))). auto. }
  generalize (filter_and _ _ A1 (filter_and _ _ A2 A3)). apply filter_imp. intros z (B1 & B2 & B3). repeat split; auto.
Qed.

(** Hydrostatic balance: between layer boundaries the pressure falls with altitude at the rate gravity times
    density (the gas constant is written into the density with 15 digits: factor within 1e-15 of one). *)
Definition c_gas : R := M0 / R_gas / 0.00348367635597379.
Lemma c_gas_1 : Rabs (c_gas - 1) <= 1 / 10 ^ 15.
Proof. unfold c_gas, M0, R_gas. apply Rabs_le. lits. lra. Qed.
Lemma layer_hydro i Z : - r0 < Z -> 0 < T_in i (geopotential Z) -> (i <= 7)%nat ->
  is_derive (fun z => P_in i (geopotential z)) Z (- (c_gas * (g_of Z * rho_of (T_in i (geopotential Z)) (P_in i (geopotential Z))))).
Proof.
  intros HZ HT Hi.
  assert (D := is_derive_comp (P_in i) geopotential Z _ _ (P_in_derive i _ Hi HT) (geo_derive Z HZ)).
  match type of D with is_derive _ _ ?d => replace (- (c_gas * (g_of Z * rho_of (T_in i (geopotential Z)) (P_in i (geopotential Z))))) with d; [exact D|] end.
  cbn. unfold scal; cbn. unfold mult; cbn. unfold c_gas, g_of, rho_of, kappa.
  assert (R_gas <> 0) by (unfold R_gas; lits; lra). field. splits; try lra.
Qed.
Theorem C60_hydrostatic : exists c, Rabs (c - 1) <= 1 / 10 ^ 15 /\ forall Z, - 6356766 < Z -> ~ boundary Z ->
  is_derive pressure_at Z (- (c * (gravity_at Z * density_at Z))).
Proof.
  exists c_gas. split; [apply c_gas_1|]. intros Z HZ Hb. destruct (interior Z HZ Hb) as [i Hi].
  destruct (at_layer i Z HZ (open_in _ _ Hi)) as (_ & -> & ->).
  apply (is_derive_ext_loc (fun z => P_in i (geopotential z))).
  - generalize (open_locally i Z HZ Hi). apply filter_imp. intros z [Hz Hl]. symmetry. apply at_layer; auto. apply open_in; auto.
  - apply layer_hydro; auto. pose proof (T_in_pos i _ (open_in _ _ Hi)); lra. apply Hi.
Qed.

(** Pressure falls with altitude: strictly between altitudes of one layer, and up to one part in 1e12 (the
    rounding of the tabulated base pressures) across layers. *)
Lemma P_in_le i h1 h2 : (i <= 7)%nat -> 0 < T_in i h1 -> 0 < T_in i h2 -> h1 <= h2 -> P_in i h2 <= P_in i h1.
Proof. intros Hi H1 H2 [H|<-]; [|lra]. left. apply P_in_lt; auto. Qed.
Lemma P_chain i j h1 h2 : in_layer i h1 -> in_layer j h2 -> h1 <= h2 -> P_in j h2 <= (1 + 1 / 10 ^ 13) ^ (j - i) * P_in i h1.
Proof.
  intros Hi Hj HH. assert (Hij := layer_mono _ _ _ _ Hi Hj HH).
  remember (j - i)%nat as n eqn:En. revert j h2 Hj HH Hij En. induction n as [|n IH]; intros j h2 Hj HH Hij En.
  - assert (i = j) by lia. subst j. rewrite pow_O, Rmult_1_l. pose proof (T_in_pos i h1 Hi). pose proof (T_in_pos i h2 Hj).
    apply P_in_le; try lra. apply Hi.
  - destruct j as [|j]; [lia|]. destruct Hj as (Hj & Lj & Uj). specialize (Lj ltac:(lia)).
    assert (Hm : in_layer j (H_ (S j))).
    { unfold in_layer; splits; [lia|intros; apply H_lt; lia|intros; lra]. }
    assert (Hh : h1 <= H_ (S j)).
    { destruct Hi as (Hi & Li & Ui). specialize (Ui ltac:(lia)). pose proof (H_le (S i) (S j) ltac:(lia) Hj). lra. }
    specialize (IH j (H_ (S j)) Hm Hh ltac:(lia) ltac:(lia)).
    destruct (P_join j ltac:(lia)) as [_ J].
    pose proof (T_pos (S j) Hj). pose proof (T_in_pos (S j) h2 (conj Hj (conj (fun _ => Lj) Uj))) as HT2.
    assert (L : P_in (S j) h2 <= P_in (S j) (H_ (S j))). { apply P_in_le; auto; [rewrite T_base|..]; lra. }
    eapply Rle_trans; [exact L|]. eapply Rle_trans; [exact J|].
    set (e := 1 + 1 / 10 ^ 13) in *. rewrite <- (tech_pow_Rmult e n), Rmult_assoc. unfold e at 1. apply Rmult_le_compat_l; [|exact IH]. apply Rplus_le_le_0_compat; [lra|].
    apply Rdiv_le_0_compat; [lra|]. apply pow_lt; lra.
Qed.
Lemma seven_jumps n : (n <= 7)%nat -> (1 + 1 / 10 ^ 13) ^ n <= 1 + 1 / 10 ^ 12.
Proof.
  intros Hn. apply Rle_trans with ((1 + 1 / 10 ^ 13) ^ 7).
  - apply Rle_pow; auto. assert (0 < 1 / 10 ^ 13); [|lra]. apply Rdiv_lt_0_compat; [lra|apply pow_lt; lra].
  - lra.
Qed.
Theorem C60_pressure_falls : forall Z1 Z2 a1 a2, - 6356766 < Z1 -> Z1 < Z2 ->
  ATMOSPHERE_1976 Z1 0 = Ok a1 -> ATMOSPHERE_1976 Z2 0 = Ok a2 ->
  a_H a1 < a_H a2 /\ a_P a2 <= (1 + 1 / 10 ^ 12) * a_P a1 /\ (a_H_layer a1 = a_H_layer a2 -> a_P a2 < a_P a1).
Proof.
  intros Z1 Z2 a1 a2 H1 H12 E1 E2. assert (HZ1 : - r0 < Z1) by (unfold r0; lra). assert (HZ2 : - r0 < Z2) by lra.
  destruct (geo_layer Z1) as [i Hi], (geo_layer Z2) as [j Hj].
  pose proof (T_in_pos i _ Hi) as Ti. pose proof (T_in_pos j _ Hj) as Tj.
  rewrite (eval i Z1 _ HZ1 Hi) in E1 by lra. rewrite (eval j Z2 _ HZ2 Hj) in E2 by lra.
  apply Ok_inj in E1, E2. subst a1 a2. cbn [a_P a_H a_H_layer]. pose proof (geo_lt Z1 Z2 HZ1 H12) as G. splits; auto.
  - eapply Rle_trans; [apply (P_chain i j _ _ Hi Hj); lra|]. apply Rmult_le_compat_r.
    + left; apply P_in_pos; apply Hi.
    + apply seven_jumps. destruct Hj; lia.
  - intros E. assert (i = j).
    { destruct (lt_eq_lt_dec i j) as [[L|]|L]; auto; exfalso; [pose proof (H_lt i j L (proj1 Hj))|pose proof (H_lt j i L (proj1 Hi))]; lra. }
    subst j. apply P_in_lt; try lra. apply Hi.
Qed.

(** ideal gas law, and sound speed, viscosity and conductivity rising with temperature *)
Theorem C60_ideal_gas : forall Z dT a, - 6356766 < Z -> - 186.946 < dT -> ATMOSPHERE_1976 Z dT = Ok a ->
  Rabs (a_rho a * (8314.32 * a_T a) / (a_P a * 28.9644) - 1) <= 1 / 10 ^ 15.
Proof.
  intros Z dT a HZ HdT E. destruct (geo_layer Z) as [i Hi]. pose proof (T_min i _ Hi) as HT.
  assert (HT' : 0 < T_in i (geopotential Z) + dT) by (lits; lra).
  rewrite (eval i Z dT HZ Hi HT') in E. apply Ok_inj in E. subst a. cbn [a_rho a_T a_P].
  assert (HP : 0 < P_in i (geopotential Z)) by (apply P_in_pos; apply Hi).
  set (T := T_in i (geopotential Z) + dT) in *. set (P := P_in i (geopotential Z)) in *. clearbody T P.
  replace (rho_of T P * (8314.32 * T) / (P * 28.9644)) with (0.00348367635597379 * 8314.32 / 28.9644).
  - apply Rabs_le. lits; lra.
  - unfold rho_of. field. splits; try lra; lits; lra.
Qed.
Theorem C60_transport : forall Z1 Z2 dT1 dT2 a1 a2, - 6356766 < Z1 -> - 6356766 < Z2 -> - 186.946 < dT1 -> - 186.946 < dT2 ->
  ATMOSPHERE_1976 Z1 dT1 = Ok a1 -> ATMOSPHERE_1976 Z2 dT2 = Ok a2 -> a_T a1 < a_T a2 ->
  a_v_sonic a1 < a_v_sonic a2 /\ a_mu a1 < a_mu a2.
Proof.
  intros Z1 Z2 dT1 dT2 a1 a2 H1 H2 HdT1 HdT2 E1 E2.
  destruct (geo_layer Z1) as [i Hi], (geo_layer Z2) as [j Hj]. pose proof (T_min i _ Hi) as HT1. pose proof (T_min j _ Hj) as HT2.
  assert (HT1' : 0 < T_in i (geopotential Z1) + dT1) by (lits; lra).
  assert (HT2' : 0 < T_in j (geopotential Z2) + dT2) by (lits; lra).
  rewrite (eval i Z1 _ H1 Hi HT1') in E1. rewrite (eval j Z2 _ H2 Hj HT2') in E2.
  apply Ok_inj in E1, E2. subst a1 a2. cbn [a_T a_v_sonic a_mu].
  set (T := T_in i _ + dT1) in *. set (T' := T_in j _ + dT2) in *. clearbody T T'. clear - HT1' HT2'. intros HT.
  split.
  - apply sqrt_lt_1; [posr|posr|]. apply Rmult_lt_compat_l; auto. lits; lra.
  - unfold mu_of. assert (S : sqrt T < sqrt T') by (apply sqrt_lt_1; lra). pose proof (sqrt_lt_R0 T HT1').
    assert (F : T / (T + 110.4) < T' / (T' + 110.4)).
    { apply (Rmult_lt_reg_r ((T + 110.4) * (T' + 110.4))); [posr|].
      replace (T / (T + 110.4) * ((T + 110.4) * (T' + 110.4))) with (T * (T' + 110.4)) by (field; lits; lra).
      replace (T' / (T' + 110.4) * ((T + 110.4) * (T' + 110.4))) with (T' * (T + 110.4)) by (field; lits; lra).
      lits; lra. }
    replace (0.000001458 * T * sqrt T / (T + 110.4)) with (0.000001458 * (T / (T + 110.4) * sqrt T)) by (field; lits; lra).
    replace (0.000001458 * T' * sqrt T' / (T' + 110.4)) with (0.000001458 * (T' / (T' + 110.4) * sqrt T')) by (field; lits; lra).
    apply Rmult_lt_compat_l; [lits; lra|]. assert (0 < T / (T + 110.4)) by posr.
    apply Rmult_le_0_lt_compat; lra.
Qed.

(** ** The pressure integral *)
(** the solver answers only with roots; the quadrature rule integrates whatever is Riemann integrable *)
Definition only_roots (sec : (R -> result R) -> result R) : Prop := forall f x, sec f = Ok x -> f x = Ok 0.
Definition exact_quadrature (quad : (R -> result R) -> R -> R -> result R) : Prop :=
  forall f F a b I, a <= b -> (forall x, a <= x <= b -> f x = Ok (F x)) -> is_RInt F a b I -> quad f a b = Ok I.

(** weight of the air between two altitudes, exact up to the rounded constants *)
Lemma geo_cont_in i a b : - r0 < a -> a <= b -> (i <= 7)%nat -> (forall z, a <= z <= b -> 0 < T_in i (geopotential z)) ->
  is_RInt (fun z => g_of z * rho_of (T_in i (geopotential z)) (P_in i (geopotential z))) a b
    ((P_in i (geopotential a) - P_in i (geopotential b)) / c_gas).
Proof.
  intros Ha Hab Hi HT. assert (Hc : c_gas <> 0). { unfold c_gas, M0, R_gas. lits; lra. }
  assert (D : is_RInt (fun z => g_of z * rho_of (T_in i (geopotential z)) (P_in i (geopotential z))) a b
    (minus (- (P_in i (geopotential b) / c_gas)) (- (P_in i (geopotential a) / c_gas)))).
  2:{ replace ((P_in i (geopotential a) - P_in i (geopotential b)) / c_gas) with
      (minus (- (P_in i (geopotential b) / c_gas)) (- (P_in i (geopotential a) / c_gas))); [exact D|].
      unfold minus, plus, opp; cbn. field. exact Hc. }
  apply (is_RInt_derive (fun z => - (P_in i (geopotential z) / c_gas))).
  - intros z Hz. rewrite Rmin_left, Rmax_right in Hz by lra.
    assert (L := layer_hydro i z ltac:(lra) (HT z Hz) Hi).
    assert (L2 := is_derive_scal _ z (- / c_gas) _ L).
    eapply is_derive_ext; [|match type of L2 with is_derive _ _ ?d => replace (g_of z * rho_of (T_in i (geopotential z)) (P_in i (geopotential z))) with d; [exact L2|] end].
    + intros t. cbn. unfold Rdiv. ring.
    + cbn. set (G := g_of z * _). field. exact Hc.
  - intros z Hz. rewrite Rmin_left, Rmax_right in Hz by lra. specialize (HT z Hz).
    assert (Hz' : - r0 < z) by lra.
    apply (continuous_mult g_of).
    + apply (@ex_derive_continuous R_AbsRing R_NormedModule). unfold g_of. auto_derive. lra.
    + unfold rho_of, Rdiv. apply (continuous_mult (fun z => P_in i (geopotential z) * 0.00348367635597379)).
      * apply (continuous_mult (fun z => P_in i (geopotential z)) (fun _ => 0.00348367635597379)); [|apply continuous_const].
        apply (@ex_derive_continuous R_AbsRing R_NormedModule). eexists. apply layer_hydro; auto.
      * apply (@ex_derive_continuous R_AbsRing R_NormedModule). unfold T_in, geopotential in *. auto_derive. split; lra.
Qed.

(** one layer, possibly starting at its base *)
Lemma seg_in j z : (j <= 7)%nat -> (j <> 0%nat -> H_ j <= geopotential z) -> (j <> 7%nat -> geopotential z <= H_ (S j)) ->
  186 < T_in j (geopotential z).
Proof.
  intros Hj L U. destruct (Nat.eq_dec j 0) as [->|Hn].
  - apply T_in_pos. unfold in_layer. splits; auto. intros []; reflexivity.
  - specialize (L Hn). destruct L as [L|L].
    + apply T_in_pos. unfold in_layer. splits; auto.
    + rewrite <- L, T_base. apply T_pos; auto.
Qed.
Definition weight_at (dT z : R) : R := match to_int_dP_ATMOSPHERE_1976 dT z with Ok v => v | Err _ => 0 end.
Lemma weight_layer i dT z : - r0 < z -> -186 <= dT -> in_layer i (geopotential z) ->
  to_int_dP_ATMOSPHERE_1976 dT z = Ok (g_of z * rho_of (T_in i (geopotential z) + dT) (P_in i (geopotential z))).
Proof.
  intros Hz HdT Hi. unfold to_int_dP_ATMOSPHERE_1976. pose proof (T_in_pos i _ Hi).
  rewrite (eval i z dT Hz Hi) by lra. reflexivity.
Qed.
Lemma seg_ext j dT a b : - r0 < a -> a <= b -> -186 <= dT -> in_layer j (geopotential b) ->
  (j <> 0%nat -> H_ j <= geopotential a) ->
  forall z, Rmin a b < z < Rmax a b -> g_of z * rho_of (T_in j (geopotential z) + dT) (P_in j (geopotential z)) = weight_at dT z.
Proof.
  intros Ha Hab HdT (Hj & Lj & Uj) L z Hz. rewrite Rmin_left, Rmax_right in Hz by lra.
  pose proof (geo_lt a z Ha ltac:(lra)). pose proof (geo_lt z b ltac:(lra) ltac:(lra)).
  unfold weight_at. rewrite (weight_layer j dT z); auto; try lra.
  unfold in_layer. splits; auto; intros Hn; [specialize (L Hn)|specialize (Uj Hn)]; lra.
Qed.
Lemma seg_int j a b : - r0 < a -> a <= b -> in_layer j (geopotential b) -> (j <> 0%nat -> H_ j <= geopotential a) ->
  is_RInt (weight_at 0) a b ((P_in j (geopotential a) - P_in j (geopotential b)) / c_gas).
Proof.
  intros Ha Hab Hj L.
  eapply is_RInt_ext; [apply (seg_ext j 0 a b); auto; lra|].
  eapply is_RInt_ext; [|apply (geo_cont_in j a b Ha Hab (proj1 Hj))].
  - intros z _. cbv beta. rewrite Rplus_0_r. reflexivity.
  - intros z Hz. pose proof (geo_le a z Ha ltac:(lra)). pose proof (geo_le z b ltac:(lra) ltac:(lra)).
    destruct Hj as (Hj & Lj & Uj).
    assert (186 < T_in j (geopotential z)); [|lra]. apply seg_in; auto; intros Hn; [specialize (L Hn)|specialize (Uj Hn)]; lra.
Qed.
Lemma seg_ex j dT a b : - r0 < a -> a <= b -> -186 <= dT -> in_layer j (geopotential b) -> (j <> 0%nat -> H_ j <= geopotential a) ->
  ex_RInt (weight_at dT) a b.
Proof.
  intros Ha Hab HdT Hj L.
  eapply ex_RInt_ext; [apply (seg_ext j dT a b); auto; lra|].
  apply (@ex_RInt_continuous R_CompleteNormedModule). intros z Hz. rewrite Rmin_left, Rmax_right in Hz by lra.
  pose proof (geo_le a z Ha ltac:(lra)). pose proof (geo_le z b ltac:(lra) ltac:(lra)).
  destruct Hj as (Hj & Lj & Uj).
  assert (HT : 186 < T_in j (geopotential z)). { apply seg_in; auto; intros Hn; [specialize (L Hn)|specialize (Uj Hn)]; lra. }
  apply (continuous_mult g_of).
  + apply (@ex_derive_continuous R_AbsRing R_NormedModule). unfold g_of. auto_derive. lra.
  + unfold rho_of, Rdiv. apply (continuous_mult (fun z => P_in j (geopotential z) * 0.00348367635597379)).
    * apply (continuous_mult (fun z => P_in j (geopotential z)) (fun _ => 0.00348367635597379)); [|apply continuous_const].
      apply (@ex_derive_continuous R_AbsRing R_NormedModule). eexists. apply layer_hydro; auto; lra.
    * apply (@ex_derive_continuous R_AbsRing R_NormedModule). unfold T_in, geopotential in *. auto_derive. split; lra.
Qed.
(** the geometric altitude of a layer base splits the way from a lower layer *)
Lemma split_at i j a b : - r0 < a -> a <= b -> in_layer i (geopotential a) -> in_layer (S j) (geopotential b) -> (i <= j)%nat ->
  exists m, a <= m < b /\ geopotential m = H_ (S j) /\ in_layer j (geopotential m).
Proof.
  intros Ha Hab (Hi & Li & Ui) (Hj & Lj & Uj) Hij. specialize (Lj ltac:(lia)). specialize (Ui ltac:(lia)).
  destruct (geo_inv (H_ (S j)) (H_below _ Hj)) as [Hm Em]. exists (geometric (H_ (S j))). splits; auto.
  - apply Rnot_lt_le. intros Hlt. pose proof (geo_lt _ _ Hm Hlt) as G. rewrite Em in G.
      pose proof (H_le (S i) (S j) ltac:(lia) Hj). lra.
  - apply Rnot_le_lt. intros Hle. assert (Hb : - r0 < b) by lra. pose proof (geo_le _ _ Hb Hle) as G. rewrite Em in G. lra.
  - rewrite Em. unfold in_layer. splits; [lia|intros; apply H_lt; lia|intros; lra].
Qed.
Lemma ex_chain dT i j a b : - r0 < a -> a <= b -> -186 <= dT -> in_layer i (geopotential a) -> in_layer j (geopotential b) ->
  ex_RInt (weight_at dT) a b.
Proof.
  intros Ha Hab HdT Hi Hj. assert (Hij := layer_mono _ _ _ _ Hi Hj (geo_le _ _ Ha Hab)).
  remember (j - i)%nat as n eqn:En. revert j b Hj Hab Hij En. induction n as [|n IH]; intros j b Hj Hab Hij En.
  - assert (i = j) by lia. subst j. apply (seg_ex i); auto. intros Hn. destruct Hi as (_ & Li & _). specialize (Li Hn). lra.
  - destruct j as [|j]; [lia|]. destruct (split_at i j a b Ha Hab Hi Hj ltac:(lia)) as (m & Hm & Em & Lm).
    apply (ex_RInt_Chasles _ a m b).
    + apply (IH j); auto; try lia; lra.
    + apply (seg_ex (S j)); auto; try lra.
Qed.
Lemma jump_small j : (j < 7)%nat -> Rabs (P_in (S j) (H_ (S j)) - P_in j (H_ (S j))) <= 1 / 10 ^ 8.
Proof.
  intros Hj. destruct (P_join j Hj) as [J1 J2]. rewrite P_base in * by lia.
  assert (B : P_ (S j) <= 22633). { clear - Hj. destruct j as [|[|[|[|[|[|[|j]]]]]]]; [..|lia]; tabs; lits; lra. }
  apply Rabs_le. lra.
Qed.
Lemma int_chain i j a b : - r0 < a -> a <= b -> in_layer i (geopotential a) -> in_layer j (geopotential b) ->
  exists I, is_RInt (weight_at 0) a b I /\
    Rabs (c_gas * I - (P_in i (geopotential a) - P_in j (geopotential b))) <= INR (j - i) * (1 / 10 ^ 8).
Proof.
  intros Ha Hab Hi Hj. assert (Hij := layer_mono _ _ _ _ Hi Hj (geo_le _ _ Ha Hab)).
  assert (Hc : c_gas <> 0). { unfold c_gas, M0, R_gas. lits; lra. }
  remember (j - i)%nat as n eqn:En. revert j b Hj Hab Hij En. induction n as [|n IH]; intros j b Hj Hab Hij En.
  - assert (i = j) by lia. subst j. eexists. split; [apply (seg_int i); auto|].
    { intros Hn. destruct Hi as (_ & Li & _). specialize (Li Hn). lra. }
    replace (c_gas * ((P_in i (geopotential a) - P_in i (geopotential b)) / c_gas) - (P_in i (geopotential a) - P_in i (geopotential b))) with 0
      by (field; exact Hc). rewrite Rabs_R0. rewrite Rmult_0_l. lra.
  - destruct j as [|j]; [lia|]. destruct (split_at i j a b Ha Hab Hi Hj ltac:(lia)) as (m & Hm & Em & Lm).
    destruct (IH j m Lm ltac:(lra) ltac:(lia) ltac:(lia)) as (I1 & A1 & B1).
    assert (A2 := seg_int (S j) m b ltac:(lra) ltac:(lra) Hj ltac:(intros; lra)).
    exists (I1 + (P_in (S j) (geopotential m) - P_in (S j) (geopotential b)) / c_gas). split.
    + exact (is_RInt_Chasles _ _ _ _ _ _ A1 A2).
    + pose proof (jump_small j ltac:(destruct Hj; lia)) as J. rewrite <- Em in J.
      replace (c_gas * (I1 + (P_in (S j) (geopotential m) - P_in (S j) (geopotential b)) / c_gas) -
        (P_in i (geopotential a) - P_in (S j) (geopotential b))) with
        ((c_gas * I1 - (P_in i (geopotential a) - P_in j (geopotential m))) + (P_in (S j) (geopotential m) - P_in j (geopotential m)))
        by (field; exact Hc).
      rewrite S_INR. eapply Rle_trans; [apply Rabs_triang|]. lra.
Qed.

(** With the standard temperature at the pressure [P1], the integral is the difference of the standard
    pressures at the two ends, across any number of layers, within 1e-7 Pa and one part in 1e14. *)
Theorem C60_pressure_integral : forall sec quad P1 dH Z1 a1 a2, only_roots sec -> exact_quadrature quad -> 0 <= dH ->
  sec (H_for_P_ATMOSPHERE_1976_err P1) = Ok Z1 -> - 6356766 < Z1 ->
  ATMOSPHERE_1976 Z1 0 = Ok a1 -> ATMOSPHERE_1976 (Z1 + dH) 0 = Ok a2 ->
  a_P a1 = P1 /\ exists I, pressure_integral sec quad (a_T a1) P1 dH = Ok I /\
  Rabs (I - (P1 - a_P a2)) <= 1 / 10 ^ 7 + P1 / 10 ^ 14.
Proof.
  intros sec quad P1 dH Z1 a1 a2 Hs Hq HdH ES HZ E1 E2.
  assert (HZ1 : - r0 < Z1) by (unfold r0; lra). assert (HZ2 : - r0 < Z1 + dH) by lra.
  destruct (geo_layer Z1) as [i Hi], (geo_layer (Z1 + dH)) as [j Hj].
  pose proof (T_in_pos i _ Hi) as Ti. pose proof (T_in_pos j _ Hj) as Tj.
  assert (HP : a_P a1 = P1). { apply Hs in ES. unfold H_for_P_ATMOSPHERE_1976_err in ES. rewrite E1 in ES. cbn in ES. apply Ok_inj in ES. lra. }
  split; auto.
  unfold pressure_integral. rewrite ES. cbn [bind]. rewrite E1. cbn [bind]. cbv zeta.
  replace (a_T a1 - a_T a1) with 0 by ring.
  rewrite (eval i Z1 _ HZ1 Hi) in E1 by lra. rewrite (eval j _ _ HZ2 Hj) in E2 by lra.
  apply Ok_inj in E1, E2. subst a1 a2. cbn [a_P a_T] in *.
  destruct (int_chain i j Z1 (Z1 + dH) HZ1 ltac:(lra) Hi Hj) as (I & AI & BI). exists I. split.
  - apply (Hq _ (weight_at 0)); auto; [lra|]. intros x Hx. destruct (geo_layer x) as [k Hk]. unfold weight_at.
    rewrite (weight_layer k 0 x) by (auto; lra). reflexivity.
  - rewrite HP in BI. pose proof (P_in_pos i (geopotential Z1) (proj1 Hi)) as PP. rewrite HP in PP.
    pose proof (P_in_pos j (geopotential (Z1 + dH)) (proj1 Hj)) as PP2.
    assert (PM : P_in j (geopotential (Z1 + dH)) <= (1 + 1 / 10 ^ 12) * P1).
    { rewrite <- HP. eapply Rle_trans; [apply (P_chain i j _ _ Hi Hj); apply geo_le; lra|]. apply Rmult_le_compat_r.
      + left; apply P_in_pos; apply Hi.
      + apply seven_jumps. destruct Hj; lia. }
    assert (NJ : INR (j - i) <= 7). { replace 7 with (INR 7) by (cbn; ring). apply le_INR. destruct Hj; lia. }
    set (p2 := P_in j (geopotential (Z1 + dH))) in *. clearbody p2. revert BI NJ. clear - PP PP2 PM.
    generalize (INR (j - i)). intros N BI NJ.
    assert (B2 : Rabs (c_gas * I - (P1 - p2)) <= 7 * (1 / 10 ^ 8)) by (eapply Rle_trans; [exact BI|]; lra).
    assert (CGa : 1 - 1 / 10 ^ 15 <= c_gas <= 1 + 1 / 10 ^ 15).
    { unfold c_gas, M0, R_gas. split; lits; lra. }
    set (c := c_gas) in *. clearbody c. clear BI NJ N.
    assert (B3 : - (7 * (1 / 10 ^ 8)) <= c * I - (P1 - p2) <= 7 * (1 / 10 ^ 8)).
    { revert B2. unfold Rabs. destruct (Rcase_abs _); lra. }
    assert (PD : - (P1 / 10 ^ 12) <= P1 - p2 <= P1) by lra.
    set (D := P1 - p2) in *. clearbody D.
    apply Rabs_le. 
    assert (HI : - (P1 / 10 ^ 11) - 1 <= I <= 2 * P1 + 1) by (split; nra).
    assert (HI' : Rabs ((c - 1) * I) <= 1 / 10 ^ 15 * (2 * P1 + 1)).
    { rewrite Rabs_mult. apply Rmult_le_compat; try apply Rabs_pos; apply Rabs_le; lra. }
    assert (B4 : - (1 / 10 ^ 15 * (2 * P1 + 1)) <= (c - 1) * I <= 1 / 10 ^ 15 * (2 * P1 + 1)).
    { revert HI'. unfold Rabs. destruct (Rcase_abs _); lra. }
    split; lra.
Qed.

(** Warmer air is lighter: the integral exists for any temperature down to 186 K below standard, is
    non-negative, and never larger for a higher temperature. *)
Theorem C60_warm_air : forall sec quad P1 dH Z1 a1 T T', only_roots sec -> exact_quadrature quad -> 0 <= dH ->
  sec (H_for_P_ATMOSPHERE_1976_err P1) = Ok Z1 -> - 6356766 < Z1 -> ATMOSPHERE_1976 Z1 0 = Ok a1 ->
  a_T a1 - 186 <= T -> T <= T' ->
  exists I I', pressure_integral sec quad T P1 dH = Ok I /\ pressure_integral sec quad T' P1 dH = Ok I' /\ 0 <= I' <= I.
Proof.
  intros sec quad P1 dH Z1 a1 T T' Hs Hq HdH ES HZ E1 HT HTT.
  assert (HZ1 : - r0 < Z1) by (unfold r0; lra).
  destruct (geo_layer Z1) as [i Hi], (geo_layer (Z1 + dH)) as [j Hj].
  assert (Ex : forall dT, -186 <= dT -> exists I, is_RInt (weight_at dT) Z1 (Z1 + dH) I /\ quad (to_int_dP_ATMOSPHERE_1976 dT) Z1 (Z1 + dH) = Ok I).
  { intros dT HdT. destruct (ex_chain dT i j Z1 (Z1 + dH) HZ1 ltac:(lra) HdT Hi Hj) as [I HI]. exists I. split; auto.
    apply (Hq _ (weight_at dT)); auto; [lra|]. intros x Hx. destruct (geo_layer x) as [k Hk]. unfold weight_at.
    rewrite (weight_layer k dT x) by (auto; lra). reflexivity. }
  unfold pressure_integral. rewrite ES. cbn [bind]. rewrite E1. cbn [bind]. cbv zeta.
  destruct (Ex (T - a_T a1) ltac:(lra)) as (I & AI & QI). destruct (Ex (T' - a_T a1) ltac:(lra)) as (I' & AI' & QI').
  exists I, I'. split; [auto|]. split; [auto|].
  assert (W : forall dT x, -186 <= dT -> Z1 <= x -> exists k, in_layer k (geopotential x) /\ 186 < T_in k (geopotential x) /\
     0 < g_of x * P_in k (geopotential x) * 0.00348367635597379 /\
     weight_at dT x = g_of x * P_in k (geopotential x) * 0.00348367635597379 / (T_in k (geopotential x) + dT)).
  { intros dT x HdT Hx. destruct (geo_layer x) as [k Hk]. exists k. splits; auto.
    - apply T_in_pos; auto.
    - assert (0 < P_in k (geopotential x)) by (apply P_in_pos; apply Hk).
      assert (0 < r0 / (r0 + x)) by (apply Rdiv_lt_0_compat; unfold r0 in *; lra). unfold g_of, g0. posr.
    - unfold weight_at. rewrite (weight_layer k dT x) by (auto; lra). pose proof (T_in_pos k _ Hk). unfold rho_of. field. lra. }
  split.
  - rewrite <- (is_RInt_unique _ _ _ _ AI'). rewrite <- (Rmult_0_r (Z1 + dH - Z1)).
    replace ((Z1 + dH - Z1) * 0) with (RInt (fun _ : R => 0) Z1 (Z1 + dH)) by (rewrite RInt_const; reflexivity).
    apply RInt_le; [lra|apply ex_RInt_const|eexists; exact AI'|].
    intros x Hx. destruct (W (T' - a_T a1) x ltac:(lra) ltac:(lra)) as (k & Lk & Tk & Pk & ->). left. apply Rdiv_lt_0_compat; lra.
  - rewrite <- (is_RInt_unique _ _ _ _ AI'), <- (is_RInt_unique _ _ _ _ AI).
    apply RInt_le; [lra|eexists; exact AI'|eexists; exact AI|].
    intros x Hx. destruct (W (T' - a_T a1) x ltac:(lra) ltac:(lra)) as (k & Lk & Tk & Pk & ->).
    destruct (W (T - a_T a1) x ltac:(lra) ltac:(lra)) as (k' & Lk' & Tk' & Pk' & ->).
    rewrite (layer_unique k' k _ Lk' Lk). apply div_le_l; lra.
Qed.

(** ** Air mass *)
Section airmass_sec.
Context (quad : (R -> result R) -> R -> R -> result R) (Hq : exact_quadrature quad).
Context (func : R -> result R) (rho : R -> R) (H_max Rp RI : R).
Context (HH : 0 <= H_max) (HR : 0 < Rp) (HRI : 1 <= RI).
Context (Hf : forall z, 0 <= z <= H_max -> func z = Ok (rho z)).
Context (Hc : forall z, 0 <= z <= H_max -> continuous rho z) (H0 : 0 < rho 0) (Hb : forall z, 0 <= z <= H_max -> 0 <= rho z <= rho 0).
(** path length per unit of altitude *)
Definition slant (ct z : R) : R :=
  1 / sqrt (1 - (1 + 2 * (RI - 1) * (1 - rho z / rho 0)) * (ct / (1 + z / Rp) * (ct / (1 + z / Rp)))).
Lemma under_root ct z : 0 <= z <= H_max -> (1 + 2 * (RI - 1)) * (ct * ct) < 1 ->
  0 < 1 - (1 + 2 * (RI - 1) * (1 - rho z / rho 0)) * (ct / (1 + z / Rp) * (ct / (1 + z / Rp))) <= 1.
Proof.
  intros Hz Hct. destruct (Hb z Hz) as [B1 B2].
  assert (Q : 0 <= rho z / rho 0 <= 1).
  { split; [apply Rdiv_le_0_compat; lra|]. apply Rmult_le_reg_r with (rho 0); auto. unfold Rdiv. rewrite Rmult_assoc, Rinv_l by lra. lra. }
  assert (Zp : 0 <= z / Rp) by (apply Rdiv_le_0_compat; lra).
  assert (K : 0 <= ct / (1 + z / Rp) * (ct / (1 + z / Rp)) <= ct * ct).
  { split; [apply Rle_0_sqr|]. replace (ct / (1 + z / Rp) * (ct / (1 + z / Rp))) with (ct * ct / ((1 + z / Rp) * (1 + z / Rp))) by (field; lra).
    rewrite <- (Rdiv_1 (ct * ct)) at 2. apply div_le_l; try lra; nra. }
  set (q := rho z / rho 0) in *. set (x := ct / (1 + z / Rp) * (ct / (1 + z / Rp))) in *.
  assert (M1 : 1 <= 1 + 2 * (RI - 1) * (1 - q) <= 1 + 2 * (RI - 1)) by (split; nra). 
  set (m := 1 + 2 * (RI - 1) * (1 - q)) in *. split; nra.
Qed.
Lemma airmass_eval ct angle : cos (radians angle) = ct -> (1 + 2 * (RI - 1)) * (ct * ct) < 1 ->
  exists I, airmass quad func angle H_max Rp RI = Ok I /\ is_RInt (fun z => rho z * slant ct z) 0 H_max I.
Proof.
  intros Ea Hct.
  assert (Cs : forall z, 0 <= z <= H_max -> continuous (fun z => rho z * slant ct z) z).
  { intros z Hz. apply (continuous_mult rho); [auto|]. unfold slant, Rdiv at 1.
    apply (continuous_mult (fun _ => 1)); [apply continuous_const|].
    pose proof (under_root ct z Hz Hct) as U.
    apply (continuous_comp (fun z => sqrt (1 - (1 + 2 * (RI - 1) * (1 - rho z / rho 0)) * (ct / (1 + z / Rp) * (ct / (1 + z / Rp))))) Rinv).
    2:{ apply continuous_Rinv. apply Rgt_not_eq. apply sqrt_lt_R0. lra. }
    apply (continuous_comp (fun z => 1 - (1 + 2 * (RI - 1) * (1 - rho z / rho 0)) * (ct / (1 + z / Rp) * (ct / (1 + z / Rp)))) sqrt).
    2:{ apply (@ex_derive_continuous R_AbsRing R_NormedModule). auto_derive. lra. }
    assert (Zp : 0 <= z / Rp) by (apply Rdiv_le_0_compat; lra).
    assert (CX : continuous (fun z => ct / (1 + z / Rp)) z).
    { apply (@ex_derive_continuous R_AbsRing R_NormedModule). auto_derive. lra. }
    apply (continuous_minus (fun _ => 1)); [apply continuous_const|].
    apply (continuous_mult (fun z => 1 + 2 * (RI - 1) * (1 - rho z / rho 0))).
    - apply (continuous_plus (fun _ => 1)); [apply continuous_const|].
      apply (continuous_mult (fun _ => 2 * (RI - 1))); [apply continuous_const|].
      apply (continuous_minus (fun _ => 1)); [apply continuous_const|].
      unfold Rdiv. apply (continuous_mult rho); [auto|apply continuous_const].
    - apply (continuous_mult (fun z => ct / (1 + z / Rp))); exact CX. }
  assert (Ex : ex_RInt (fun z => rho z * slant ct z) 0 H_max).
  { apply (@ex_RInt_continuous R_CompleteNormedModule). intros z Hz. rewrite Rmin_left, Rmax_right in Hz by lra. auto. }
  destruct Ex as [I HI]. exists I. split; auto. unfold airmass. rewrite (Hf 0) by lra. cbn [bind].
  rewrite !pdiv_ok by lra. cbn [bind]. rewrite Ea.
  apply (Hq _ (fun z => rho z * slant ct z)); auto.
  intros z Hz. unfold to_int_airmass. rewrite (Hf z Hz). cbn [bind]. cbv zeta.
  assert (Zp : 0 <= z / Rp) by (apply Rdiv_le_0_compat; lra).
  replace (1 + z * (1 / Rp)) with (1 + z / Rp) by (field; lra). rewrite pdiv_ok by lra. cbn [bind].
  replace (1 + (RI - 1 + (RI - 1)) - rho z * ((RI - 1 + (RI - 1)) * (1 / rho 0))) with (1 + 2 * (RI - 1) * (1 - rho z / rho 0)) by (field; lra).
  pose proof (under_root ct z Hz Hct) as U. rewrite psqrt_ok by lra. cbn [bind].
  rewrite pdiv_ok by (apply Rgt_not_eq; apply sqrt_lt_R0; lra). reflexivity.
Qed.
Lemma slant_le c1 c2 z : 0 <= z <= H_max -> (1 + 2 * (RI - 1)) * (c1 * c1) < 1 -> 0 <= c2 <= c1 -> slant c2 z <= slant c1 z.
Proof.
  intros Hz H1 H12. pose proof (under_root c1 z Hz H1) as U1. unfold slant.
  assert (Zp : 0 <= z / Rp) by (apply Rdiv_le_0_compat; lra).
  assert (X : 0 <= c2 / (1 + z / Rp) <= c1 / (1 + z / Rp)).
  { split; [apply Rdiv_le_0_compat; lra|apply div_le_r; lra]. }
  destruct (Hb z Hz) as [B1 B2].
  assert (Q : 0 <= rho z / rho 0 <= 1).
  { split; [apply Rdiv_le_0_compat; lra|]. apply Rmult_le_reg_r with (rho 0); auto. unfold Rdiv. rewrite Rmult_assoc, Rinv_l by lra. lra. }
  set (x1 := c1 / (1 + z / Rp)) in *. set (x2 := c2 / (1 + z / Rp)) in *. set (q := rho z / rho 0) in *.
  assert (M1 : 1 <= 1 + 2 * (RI - 1) * (1 - q)) by nra. set (m := 1 + 2 * (RI - 1) * (1 - q)) in *.
  apply div_le_l; [lra|apply sqrt_lt_R0; lra|]. apply sqrt_le_1_alt.
  assert (X2 : x2 * x2 <= x1 * x1) by (apply Rmult_le_compat; lra).
  assert (m * (x2 * x2) <= m * (x1 * x1)) by (apply Rmult_le_compat_l; lra). lra.
Qed.
End airmass_sec.

Lemma cos_90 : cos (radians 90) = 0.
Proof. unfold radians. replace (90 * (PI / 180)) with (PI / 2) by field. apply cos_PI2. Qed.
(** Looking straight up, the air mass is the integral of the density. *)
Theorem C60_airmass_zenith : forall quad func rho H_max Rp RI, exact_quadrature quad -> 0 <= H_max -> 0 < Rp -> 1 <= RI ->
  (forall z, 0 <= z <= H_max -> func z = Ok (rho z) /\ continuous rho z /\ 0 <= rho z <= rho 0) -> 0 < rho 0 ->
  exists I, airmass quad func 90 H_max Rp RI = Ok I /\ is_RInt rho 0 H_max I.
Proof.
  intros quad func rho H_max Rp RI Hq HH HR HRI Hf H0.
  destruct (airmass_eval quad Hq func rho H_max Rp RI HH HR HRI) with (ct := 0) (angle := 90) as (I & E & HI); auto.
  - intros z Hz. apply Hf; auto.
  - intros z Hz. apply Hf; auto.
  - intros z Hz. apply Hf; auto.
  - apply cos_90.
  - lra.
  - exists I. split; auto. eapply is_RInt_ext; [|exact HI]. intros z Hz. rewrite Rmin_left, Rmax_right in Hz by lra.
    assert (Zp : 0 <= z / Rp) by (apply Rdiv_le_0_compat; lra). unfold slant.
    replace (1 - (1 + 2 * (RI - 1) * (1 - rho z / rho 0)) * (0 / (1 + z / Rp) * (0 / (1 + z / Rp)))) with 1 by (field; lra).
    rewrite sqrt_1. cbn. field.
Qed.
(** The lower the line of sight, the more air it crosses (as long as it is not bent back to the ground:
    refraction times squared cosine below one). *)
Theorem C60_airmass_angle : forall quad func rho H_max Rp RI angle angle', exact_quadrature quad ->
  0 <= H_max -> 0 < Rp -> 1 <= RI ->
  (forall z, 0 <= z <= H_max -> func z = Ok (rho z) /\ continuous rho z /\ 0 <= rho z <= rho 0) -> 0 < rho 0 ->
  0 <= angle <= angle' -> angle' <= 90 -> (1 + 2 * (RI - 1)) * (cos (radians angle) * cos (radians angle)) < 1 ->
  exists m m', airmass quad func angle H_max Rp RI = Ok m /\ airmass quad func angle' H_max Rp RI = Ok m' /\ 0 <= m' <= m.
Proof.
  intros quad func rho H_max Rp RI al al' Hq HH HR HRI Hf H0 Hal Hal' Hct.
  assert (F1 : forall z, 0 <= z <= H_max -> func z = Ok (rho z)) by (intros; apply Hf; auto).
  assert (F2 : forall z, 0 <= z <= H_max -> continuous rho z) by (intros; apply Hf; auto).
  assert (F3 : forall z, 0 <= z <= H_max -> 0 <= rho z <= rho 0) by (intros; apply Hf; auto).
  pose proof PI_RGT_0 as HPI.
  assert (C : 0 <= cos (radians al') <= cos (radians al)).
  { unfold radians. split; [apply cos_ge_0; nra|]. apply cos_decr_1; nra. }
  set (c1 := cos (radians al)) in *. set (c2 := cos (radians al')) in *.
  assert (Hct2 : (1 + 2 * (RI - 1)) * (c2 * c2) < 1). { eapply Rle_lt_trans; [|exact Hct]. apply Rmult_le_compat_l; nra. }
  destruct (airmass_eval quad Hq func rho H_max Rp RI HH HR HRI F1 F2 H0 F3 c1 al eq_refl Hct) as (I1 & E1 & A1).
  destruct (airmass_eval quad Hq func rho H_max Rp RI HH HR HRI F1 F2 H0 F3 c2 al' eq_refl Hct2) as (I2 & E2 & A2).
  exists I1, I2. split; auto. split; auto.
  rewrite <- (is_RInt_unique _ _ _ _ A1), <- (is_RInt_unique _ _ _ _ A2). split.
  - replace 0 with (RInt (fun _ : R => 0) 0 H_max) at 1 by (rewrite RInt_const; cbn; unfold scal; cbn; unfold mult; cbn; ring).
    apply RInt_le; [lra|apply ex_RInt_const|eexists; exact A2|]. intros z Hz. apply Rmult_le_pos; [apply F3; lra|].
    unfold slant. apply Rdiv_le_0_compat; [lra|]. apply sqrt_lt_R0.
    apply (under_root rho H_max Rp RI HR HRI H0 F3 c2 z); auto; lra.
  - apply RInt_le; [lra|eexists; exact A2|eexists; exact A1|]. intros z Hz.
    apply Rmult_le_compat_l; [apply F3; lra|]. apply (slant_le rho H_max Rp RI HR HRI H0 F3); auto; lra.
Qed.

(** ** Examples *)
Example C60_ex_ground : forall a, ATMOSPHERE_1976 0 0 = Ok a -> a_T a = 288.15 /\ a_P a = 101325.
Proof.
  intros a E. assert (L : in_layer 0 (geopotential 0)).
  { unfold in_layer, geopotential, r0. splits; [lia|intros []; reflexivity|]. intros _. tabs. lra. }
  assert (G : geopotential 0 = H_ 0). { unfold geopotential, r0. tabs. lra. }
  rewrite (eval 0 0 0) in E; [|unfold r0; lra|auto|rewrite G, T_base; tabs; lits; lra].
  apply Ok_inj in E. subst a. cbn [a_T a_P]. rewrite G, T_base, (P_base 0) by lia. tabs. lits. lra.
Qed.
Example C60_ex_defined : exists a, ATMOSPHERE_1976 5000 10 = Ok a /\ 0 < a_rho a.
Proof. destruct (C60_defined 5000 10) as (a & E & _ & _ & H & _); [lra|lits; lra|]. exists a; auto. Qed.
(** the stratosphere base is a boundary (11019.07 m), 5000 m is not *)
Example C60_ex_boundary : ~ boundary 5000 /\ boundary (11000 * 6356766 / 6345766).
Proof.
  split.
  - intros (H & HI & E). cbn [In] in HI. repeat (destruct HI as [<-|HI]; [lra|]). contradiction.
  - exists 11000. split; [cbn; auto|]. field.
Qed.
(** hypotheses of the pressure integral: at ground pressure, with a solver that finds the ground *)
Example C60_ex_sec : exists sec, only_roots sec /\ sec (H_for_P_ATMOSPHERE_1976_err 101325) = Ok 0.
Proof.
  assert (E0 : H_for_P_ATMOSPHERE_1976_err 101325 0 = Ok 0).
  { unfold H_for_P_ATMOSPHERE_1976_err. destruct (C60_defined 0 0) as (a & E & _); [lra|lits; lra|].
    rewrite E. cbn [bind]. destruct (C60_ex_ground a E) as [_ ->]. f_equal. lra. }
  exists (fun f => match f 0 with Ok v => if Reqb v 0 then Ok 0 else Err UnconvergedError | Err e => Err e end). split.
  - intros f x. destruct (f 0) eqn:E; [|discriminate]. destruct (Reqb _ 0) eqn:E2; [|discriminate].
    intros H. apply Ok_inj in H. subst x. apply Reqb_true in E2. subst. exact E.
  - rewrite E0. destruct (Reqb 0 0) eqn:E; auto. apply Reqb_false in E. contradiction.
Qed.
Example C60_ex_airmass : (1 + 2 * (1.000276 - 1)) * (cos (radians 60) * cos (radians 60)) < 1.
Proof.
  unfold radians. replace (60 * (PI / 180)) with (PI / 3) by field. rewrite cos_PI3. lits; lra.
Qed.

Print Assumptions C60_defined.
Print Assumptions C60_centre.
Print Assumptions C60_temperature.
Print Assumptions C60_temperature_continuous.
Print Assumptions C60_offset.
Print Assumptions C60_hydrostatic.
Print Assumptions C60_pressure_falls.
Print Assumptions C60_ideal_gas.
Print Assumptions C60_transport.
Print Assumptions C60_pressure_integral.
Print Assumptions C60_warm_air.
Print Assumptions C60_airmass_zenith.
Print Assumptions C60_airmass_angle.
