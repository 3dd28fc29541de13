(** Layers of the standard atmosphere: total evaluation, derivatives, jumps at the layer bases. *)
From Coq Require Import Reals Lra Lia List Bool ZArith Psatz QArith Qreals.
From Coquelicot Require Import Coquelicot.
From Verif Require Import Base Model_Real Proofs_Real Interval Model_Atmosphere.
Import ListNotations.
Open Scope R_scope.

Lemma Ok_inj {A} (x y : A) : Ok x = Ok y -> x = y. Proof. congruence. Qed.
(** ** The layers, read off the tables *)
Definition H_ (i : nat) : R := nth i H_std 0.
Definition T_ (i : nat) : R := nth i T_std 0.
Definition a_ (i : nat) : R := nth i T_grad 0.
Definition P_ (i : nat) : R := nth i P_std 0.
(** [H] lies above the base of layer [i] and not above the base of the next one; the lowest layer has no
    lower end, the highest no upper end. *)
Definition in_layer (i : nat) (H : R) : Prop :=
  (i <= 7)%nat /\ (i <> 0%nat -> H_ i < H) /\ (i <> 7%nat -> H <= H_ (S i)).
(** temperature and pressure by the formulas of layer [i] *)
Definition T_in (i : nat) (H : R) : R := T_ i + a_ i * (H - H_ i).
Definition kappa : R := g0 * M0 / R_gas.
Definition P_in (i : nat) (H : R) : R :=
  if Reqb (a_ i) 0 then P_ i * exp (- kappa * (H - H_ i) / T_ i)
  else P_ i * Rpower (T_ i / T_in i H) (kappa / a_ i).
(** geopotential altitude *)
Definition geopotential (Z : R) : R := r0 * Z / (r0 + Z).

Lemma kappa_pos : 0 < kappa. Proof. unfold kappa, g0, M0, R_gas. lits; lra. Qed.
Ltac eight i Hi := destruct i as [|[|[|[|[|[|[|[|i]]]]]]]]; [..|exfalso; clear - Hi; lia].
Ltac tabs := unfold H_, T_, a_, P_ in *; cbn [nth H_std T_std T_grad P_std] in *.

Lemma T_pos i : (i <= 7)%nat -> 186 < T_ i.
Proof. intros Hi. eight i Hi; tabs; lits; lra. Qed.
Lemma P_pos i : (i <= 7)%nat -> 0 < P_ i.
Proof. intros Hi. eight i Hi; tabs; lits; lra. Qed.
Lemma a_0 i : (i <= 7)%nat -> Reqb (a_ i) 0 = true \/ Reqb (a_ i) 0 = false /\ a_ i <> 0.
Proof. intros Hi. destruct (Reqb (a_ i) 0) eqn:E; auto. right. apply Reqb_false in E. auto. Qed.

Lemma layer_exists H : exists i, in_layer i H.
Proof.
  unfold in_layer.
  destruct (Rle_lt_dec H (H_ 1)); [exists 0%nat; splits; [lia|intros []; reflexivity|auto]|].
  destruct (Rle_lt_dec H (H_ 2)); [exists 1%nat; splits; auto; lia|].
  destruct (Rle_lt_dec H (H_ 3)); [exists 2%nat; splits; auto; lia|].
  destruct (Rle_lt_dec H (H_ 4)); [exists 3%nat; splits; auto; lia|].
  destruct (Rle_lt_dec H (H_ 5)); [exists 4%nat; splits; auto; lia|].
  destruct (Rle_lt_dec H (H_ 6)); [exists 5%nat; splits; auto; lia|].
  destruct (Rle_lt_dec H (H_ 7)); [exists 6%nat; splits; auto; lia|].
  exists 7%nat; splits; auto; try lia.
Qed.
Lemma H_lt i j : (i < j)%nat -> (j <= 7)%nat -> H_ i < H_ j.
Proof.
  intros Hij Hj. assert (Hi : (i <= 7)%nat) by lia.
  eight j Hj; try lia; eight i Hi; try lia; tabs; lra.
Qed.
Lemma H_le i j : (i <= j)%nat -> (j <= 7)%nat -> H_ i <= H_ j.
Proof. intros Hij Hj. destruct (Nat.eq_dec i j) as [->|Hn]; [lra|]. left; apply H_lt; lia. Qed.
Lemma layer_mono i j H1 H2 : in_layer i H1 -> in_layer j H2 -> H1 <= H2 -> (i <= j)%nat.
Proof.
  intros (Hi & Li & Ui) (Hj & Lj & Uj) HH. destruct (le_lt_dec i j) as [|Hlt]; auto. exfalso.
  specialize (Li ltac:(lia)). specialize (Uj ltac:(lia)). pose proof (H_le (S j) i ltac:(lia) Hi). lra.
Qed.
Lemma layer_unique i j H : in_layer i H -> in_layer j H -> i = j.
Proof. intros Hi Hj. apply Nat.le_antisymm; eapply layer_mono; eauto; lra. Qed.

Lemma get_ind i H : in_layer i H -> get_ind_from_H H = Z.of_nat i.
Proof.
  intros (Hi & Li & Ui). unfold get_ind_from_H.
  destruct (Rleb H 0) eqn:E0.
  { apply Rleb_true in E0. destruct i as [|i]; auto. specialize (Li ltac:(lia)). pose proof (H_le 0 (S i) ltac:(lia) Hi).
    tabs. lra. }
  apply Rleb_false in E0. unfold first_base, H_std.
  eight i Hi; try specialize (Li ltac:(lia)); try specialize (Ui ltac:(lia)); tabs;
    repeat match goal with
      | |- context [Rleb H ?b] => let E := fresh in destruct (Rleb H b) eqn:E; [apply Rleb_true in E|apply Rleb_false in E]
    end; try reflexivity; exfalso; lra.
Qed.

Lemma T_in_pos i H : in_layer i H -> 186 < T_in i H.
Proof.
  intros (Hi & Li & Ui). unfold T_in.
  eight i Hi; try specialize (Li ltac:(lia)); try specialize (Ui ltac:(lia)); tabs; lits; lra.
Qed.
Lemma P_in_pos i H : (i <= 7)%nat -> 0 < P_in i H.
Proof. intros Hi. pose proof (P_pos i Hi). unfold P_in. destruct (Reqb _ _); posr. Qed.

Lemma geo_alt Z : - r0 < Z -> geopotential Z = r0 - r0 * r0 / (r0 + Z).
Proof. intros. unfold geopotential. field. lra. Qed.
Lemma geo_lt Z1 Z2 : - r0 < Z1 -> Z1 < Z2 -> geopotential Z1 < geopotential Z2.
Proof.
  intros H1 H12. rewrite !geo_alt by lra.
  assert (r0 * r0 / (r0 + Z2) < r0 * r0 / (r0 + Z1)). { apply div_lt_l; try lra. unfold r0; lra. } lra.
Qed.
Lemma geo_le Z1 Z2 : - r0 < Z1 -> Z1 <= Z2 -> geopotential Z1 <= geopotential Z2.
Proof. intros H1 [H|<-]; [left; apply geo_lt|]; lra. Qed.
Lemma geo_below Z : - r0 < Z -> geopotential Z < r0.
Proof. intros H. rewrite geo_alt by lra. assert (0 < r0 * r0 / (r0 + Z)); [|lra]. apply Rdiv_lt_0_compat; [unfold r0; lra|lra]. Qed.
Lemma geo_derive Z : - r0 < Z -> is_derive geopotential Z (r0 / (r0 + Z) * (r0 / (r0 + Z))).
Proof. intros H. unfold geopotential. auto_derive; [lra|]. field. lra. Qed.
(** geometric altitude of a geopotential one *)
Definition geometric (H : R) : R := r0 * H / (r0 - H).
Lemma geo_inv H : H < r0 -> - r0 < geometric H /\ geopotential (geometric H) = H.
Proof.
  intros HH. assert (E : r0 + geometric H = r0 * r0 / (r0 - H)) by (unfold geometric; field; lra).
  assert (0 < r0) by (unfold r0; lra).
  assert (0 < r0 * r0 / (r0 - H)) by (apply Rdiv_lt_0_compat; nra). split; [lra|].
  unfold geopotential. rewrite E. unfold geometric. field. lra.
Qed.
Lemma H_below i : (i <= 7)%nat -> H_ i < r0.
Proof. intros Hi. unfold r0. eight i Hi; tabs; lra. Qed.

(** ** Evaluation *)
Definition rho_of (T P : R) : R := P * 0.00348367635597379 / T.
Definition mu_of (T : R) : R := 0.000001458 * T * sqrt T / (T + 110.4).
Definition k_of (T : R) : R := 0.00264638 * T * sqrt T / (T + 245.4 * exp (- 27.63102111592855 / T)).
Definition g_of (Z : R) : R := g0 * (r0 / (r0 + Z)) * (r0 / (r0 + Z)).

Lemma eval i Z dT : - r0 < Z -> in_layer i (geopotential Z) -> 0 < T_in i (geopotential Z) + dT ->
  let H := geopotential Z in let T := T_in i H + dT in let P := P_in i H in
  ATMOSPHERE_1976 Z dT = Ok {| a_Z := Z; a_dT := dT; a_H := H; a_T_layer := T_ i; a_T_increase := a_ i;
     a_P_layer := P_ i; a_H_layer := H_ i; a_H_above_layer := H - H_ i; a_T := T; a_P := P; a_rho := rho_of T P;
     a_v_sonic := sqrt (401.87430086589046 * T); a_mu := mu_of T; a_k := k_of T; a_g := g_of Z |}.
Proof.
  intros HZ Hi HT H T P. unfold ATMOSPHERE_1976.
  rewrite pdiv_ok by lra. cbn [bind]. fold (geopotential Z). fold H. cbv zeta.
  rewrite (get_ind i H Hi).
  assert (Hi7 : (i <= 7)%nat) by apply Hi.
  assert (I : forall l : list R, List.length l = 8%nat -> pyidx l (Z.of_nat i) = Ok (nth i l 0)).
  { intros l Hl. unfold pyidx, idx. rewrite Hl.
    destruct (Z.ltb_spec (Z.of_nat i) (- Z.of_nat 8)); [lia|]. destruct (Z.ltb_spec (Z.of_nat i) 0); [lia|].
    rewrite Nat2Z.id. rewrite (nth_error_nth' l 0) by lia. reflexivity. }
  rewrite !I by reflexivity. cbn [bind]. cbv zeta. fold (T_ i) (a_ i) (P_ i) (H_ i) (T_in i H).
  pose proof (T_pos i Hi7) as HTi. pose proof (T_in_pos i H Hi) as HTin.
  assert (EP : (if Reqb (a_ i) 0
        then (q <- pdiv (- g0 * M0 * (H - H_ i)) (R_gas * T_ i) ;; Ok (P_ i * exp q))
        else (b <- pdiv (T_ i) (T_in i H) ;; e <- pdiv (g0 * M0) (R_gas * a_ i) ;;
              w <- ppow b e ;; Ok (P_ i * w))) = Ok P).
  { assert (HR : R_gas <> 0) by (unfold R_gas; lits; lra). unfold P, P_in. destruct (Reqb (a_ i) 0) eqn:E.
    - rewrite pdiv_ok by (apply Rmult_integral_contrapositive; lra). cbn [bind]. do 3 f_equal. unfold kappa. field. lra.
    - apply Reqb_false in E. rewrite pdiv_ok by lra. cbn [bind].
      rewrite pdiv_ok by (apply Rmult_integral_contrapositive; lra). cbn [bind].
      rewrite ppow_ok by (apply Rdiv_lt_0_compat; lra). cbn [bind]. do 3 f_equal. unfold kappa. field. lra. }
  rewrite EP. cbn [bind]. fold T. unfold density, sonic_velocity, viscosity, thermal_conductivity, gravity.
  assert (HT' : 0 < T) by exact HT.
  rewrite (pdiv_ok _ T) by lra. cbn [bind]. rewrite psqrt_ok by (apply Rmult_le_pos; lits; lra). cbn [bind].
  rewrite psqrt_ok by lra. cbn [bind]. rewrite pdiv_ok by (lits; lra). cbn [bind]. rewrite pdiv_ok by lra. cbn [bind].
  assert (0 < 245.4 * exp (- 27.63102111592855 / T)) by posr.
  rewrite pdiv_ok by lra. cbn [bind]. rewrite pdiv_ok by lra. cbn [bind]. reflexivity.
Qed.

(** ** Derivatives *)
Lemma lapse_derive Pb Tb a c h0 h : a <> 0 -> 0 < Tb -> 0 < Tb + a * (h - h0) ->
  is_derive (fun h => Pb * Rpower (Tb / (Tb + a * (h - h0))) (c / a)) h
    (- c * (Pb * Rpower (Tb / (Tb + a * (h - h0))) (c / a)) / (Tb + a * (h - h0))).
Proof.
  intros Ha HT Hh. unfold Rpower. auto_derive.
  - splits; try lra. apply Rdiv_lt_0_compat; lra.
  - unfold Rminus, Rdiv in *. set (E := exp _). field. splits; try lra.
Qed.
Lemma flat_derive Pb Tb c h0 h : Tb <> 0 ->
  is_derive (fun h => Pb * exp (- c * (h - h0) / Tb)) h (- c * (Pb * exp (- c * (h - h0) / Tb)) / Tb).
Proof. intros HT. auto_derive; [exact I|]. unfold Rdiv, Rminus. set (E := exp _). field. auto. Qed.
Lemma P_in_derive i H : (i <= 7)%nat -> 0 < T_in i H -> is_derive (P_in i) H (- kappa * P_in i H / T_in i H).
Proof.
  intros Hi HT. pose proof (T_pos i Hi). destruct (a_0 i Hi) as [E|[E E']].
  - apply (is_derive_ext (fun h => P_ i * exp (- kappa * (h - H_ i) / T_ i))).
    { intros t. unfold P_in. rewrite E. reflexivity. }
    unfold P_in. rewrite E. apply Reqb_true in E. unfold T_in. rewrite E.
    replace (T_ i + 0 * (H - H_ i)) with (T_ i) by ring. apply flat_derive. lra.
  - apply (is_derive_ext (fun h => P_ i * Rpower (T_ i / T_in i h) (kappa / a_ i))).
    { intros t. unfold P_in. rewrite E. reflexivity. }
    unfold P_in. rewrite E. unfold T_in in *. apply lapse_derive; auto; lra.
Qed.
(** strictly falling while the temperature is positive *)
Lemma P_in_lt i h1 h2 : (i <= 7)%nat -> 0 < T_in i h1 -> 0 < T_in i h2 -> h1 < h2 -> P_in i h2 < P_in i h1.
Proof.
  intros Hi H1 H2 H12. pose proof (T_pos i Hi). pose proof (P_pos i Hi). pose proof kappa_pos.
  unfold P_in. destruct (a_0 i Hi) as [E|[E E']]; rewrite E; (apply Rmult_lt_compat_l; [auto|]).
  - apply exp_increasing. apply div_lt_r; [lra|]. nra.
  - unfold T_in in *. destruct (Rtotal_order (a_ i) 0) as [Ha|[Ha|Ha]]; [|contradiction|].
    + apply Rpower_anti_lt_l; [apply Rdiv_lt_0_compat; lra| |].
      * apply div_lt_l; try lra. nra.
      * unfold Rdiv. assert (/ a_ i < 0) by (apply Rinv_lt_0_compat; auto). nra.
    + apply Rpower_lt_l; [apply Rdiv_lt_0_compat; lra| |apply Rdiv_lt_0_compat; lra].
      apply div_lt_l; try lra. nra.
Qed.

(** ** Layer bases *)
Lemma T_join i : (i < 7)%nat -> T_in i (H_ (S i)) = T_in (S i) (H_ (S i)).
Proof. intros Hi. unfold T_in. destruct i as [|[|[|[|[|[|[|i]]]]]]]; [..|lia]; tabs; lits; lra. Qed.
Lemma T_base i : T_in i (H_ i) = T_ i. Proof. unfold T_in. ring. Qed.
Lemma P_base i : (i <= 7)%nat -> P_in i (H_ i) = P_ i.
Proof.
  intros Hi. pose proof (T_pos i Hi). unfold P_in. rewrite T_base. destruct (Reqb (a_ i) 0).
  - replace (- kappa * (H_ i - H_ i) / T_ i) with 0 by (field; lra). rewrite exp_0. ring.
  - replace (T_ i / T_ i) with 1 by (field; lra). unfold Rpower. rewrite ln_1, Rmult_0_r, exp_0. ring.
Qed.
Lemma jump_lemma P P' w lo hi : 0 < P -> P' / P <= hi * w -> lo * w <= P' / P -> lo * (P * w) <= P' <= hi * (P * w).
Proof.
  intros HP H1 H2. replace P' with (P * (P' / P)) by (field; lra). split.
  - replace (lo * (P * w)) with (P * (lo * w)) by ring. apply Rmult_le_compat_l; lra.
  - replace (hi * (P * w)) with (P * (hi * w)) by ring. apply Rmult_le_compat_l; lra.
Qed.
Lemma P_join i : (i < 7)%nat ->
  (1 - 1 / 10 ^ 13) * P_in i (H_ (S i)) <= P_in (S i) (H_ (S i)) <= (1 + 1 / 10 ^ 13) * P_in i (H_ (S i)).
Proof.
  intros Hi. rewrite P_base by lia. unfold P_in.
  destruct (a_0 i ltac:(lia)) as [E|[E E']]; rewrite E;
  (apply jump_lemma; [apply P_pos; lia|..]);
  [apply Reqb_true in E..|clear E|clear E]; unfold T_in, kappa, g0, M0, R_gas;
  (destruct i as [|[|[|[|[|[|[|i]]]]]]]; [..|lia]; tabs; try (exfalso; clear - E; lits; lra); try (exfalso; apply E'; reflexivity); clear).
  all: itv 0%nat.
Qed.
