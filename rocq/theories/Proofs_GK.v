(** The default Gauss-Kronrod table. *)
From Coq Require Import List Bool QArith Qabs Reals ZArith Arith Lra Lia Psatz.
From Coq Require Import Qreals.
From Coquelicot Require Import Coquelicot.
From Verif Require Import Base Sums Model_Poly Model_Numerics Proofs_Numerics Proofs_Seq Proofs_Opt Proofs_Misc2 Proofs_Misc3.
Import ListNotations.
Local Open Scope R_scope.

Definition tabR (l : list Q) : list R := map Q2R l.
(** integral of u^k over [-1,1] *)
Definition mu (k : nat) : R := if Nat.even k then 2 / INR (S k) else 0.

(** moments with common denominators: points over 10^31, weights over 10^18 *)
Definition DP : Z := (10 ^ 31)%Z.
Definition DW : Z := (10 ^ 18)%Z.
Definition over (D : Z) (q : Q) : Z := (Qnum q * D / Z.pos (Qden q))%Z.
Definition exact (D : Z) (q : Q) : bool := (over D q * Z.pos (Qden q) =? Qnum q * D)%Z.
Fixpoint zsum (l : list Z) : Z := match l with [] => 0%Z | x :: t => (x + zsum t)%Z end.
Fixpoint zmul2 (l m : list Z) : list Z :=
  match l, m with x :: t, y :: u => (x * y)%Z :: zmul2 t u | _, _ => [] end.
Definition mom_ok (k S D : Z) : bool :=
  let target := if Z.even k then (2 * D)%Z else 0%Z in
  (Z.abs ((k + 1) * S - target) * 10 ^ 15 <=? 2 * (k + 1) * D)%Z.
Fixpoint moms_ok (n : nat) (k : Z) (V P : list Z) (D : Z) : bool :=
  match n with
  | O => true
  | S n' => mom_ok k (zsum V) D && moms_ok n' (k + 1)%Z (zmul2 V P) P (D * DP)%Z
  end.
Lemma over_R D q : (0 < D)%Z -> exact D q = true -> Q2R q = IZR (over D q) / IZR D.
Proof.
  unfold exact. intros HD H. apply Z.eqb_eq in H. apply (f_equal IZR) in H. rewrite !mult_IZR in H.
  apply IZR_lt in HD. assert (0 < IZR (Z.pos (Qden q))) by (apply IZR_lt; lia).
  unfold Q2R. apply (Rmult_eq_reg_r (IZR D * IZR (Z.pos (Qden q)))); [|nra]. field_simplify; [|lra|lra]. lra.
Qed.
Lemma zsum_R V : IZR (zsum V) = Rsum (fun i => IZR (nth i V 0%Z)) (length V).
Proof. induction V as [|v V IH]; [reflexivity|]. cbn [zsum length]. rewrite plus_IZR, Rsum_head, IH. reflexivity. Qed.
Lemma zmul2_length V : forall P, length V = length P -> length (zmul2 V P) = length V.
Proof. induction V; intros [|p P] H; try discriminate; simpl; [reflexivity|]. rewrite IHV; auto. Qed.
Lemma zmul2_nth V : forall P i, length V = length P -> nth i (zmul2 V P) 0%Z = (nth i V 0 * nth i P 0)%Z.
Proof.
  induction V as [|v V IH]; intros [|p P] i H; try discriminate; [destruct i; reflexivity|].
  destruct i; simpl; auto.
Qed.
Lemma INR_Z k : INR (S k) = IZR (Z.of_nat k + 1).
Proof. rewrite INR_IZR_INZ. f_equal. lia. Qed.
Lemma mom_ok_R k S D : (0 < D)%Z -> mom_ok (Z.of_nat k) S D = true -> Rabs (IZR S / IZR D - mu k) <= 2 / 10 ^ 15.
Proof.
  unfold mom_ok. intros HD H. apply Z.leb_le in H. apply IZR_le in H.
  assert (E : Z.even (Z.of_nat k) = Nat.even k).
  { destruct (Nat.even k) eqn:E; [apply Nat.even_spec in E; destruct E as (j & ->); rewrite Nat2Z.inj_mul; apply Z.even_mul|].
    assert (O : Nat.odd k = true) by (unfold Nat.odd; now rewrite E). apply Nat.odd_spec in O. destruct O as (j & ->).
    rewrite Nat2Z.inj_add, Nat2Z.inj_mul. change (Z.of_nat 2) with 2%Z. change (Z.of_nat 1) with 1%Z. rewrite Z.even_add, Z.even_mul. reflexivity. }
  rewrite E in H. cbv zeta in H. rewrite !mult_IZR, abs_IZR, minus_IZR, mult_IZR, <- INR_Z in H.
  unfold mu. set (c := INR (Datatypes.S k)) in *. assert (Hc : 0 < c) by (apply lt_0_INR; lia).
  apply IZR_lt in HD.
  assert (T : IZR (if Nat.even k then (2 * D)%Z else 0%Z) = (if Nat.even k then 2 / c else 0) * (c * IZR D)).
  { destruct (Nat.even k); [rewrite mult_IZR; field; lra | ring]. }
  rewrite T in H. set (m := if Nat.even k then 2 / c else 0) in *.
  replace (c * IZR S - m * (c * IZR D)) with ((IZR S / IZR D - m) * (c * IZR D)) in H by (field; lra).
  rewrite Rabs_mult, (Rabs_pos_eq (c * IZR D)) in H by nra.
  replace (IZR (10 ^ 15)) with (10 ^ 15) in H by (simpl; lra).
  assert (P : 0 < c * IZR D) by nra.
  apply (Rmult_le_reg_r (10 ^ 15 * (c * IZR D))); [simpl; nra|].
  replace (2 / 10 ^ 15 * (10 ^ 15 * (c * IZR D))) with (2 * c * IZR D) by (field; lra). nra.
Qed.
Lemma moms_ok_R (w p : list R) P : length P = length p -> length w = length p -> 
  (forall i, (i < length p)%nat -> at_ p i = IZR (nth i P 0%Z) / IZR DP) ->
  forall n k V D, length V = length p -> (0 < D)%Z ->
  (forall i, (i < length p)%nat -> IZR (nth i V 0%Z) = at_ w i * at_ p i ^ k * IZR D) ->
  moms_ok n (Z.of_nat k) V P D = true ->
  forall j, (k <= j < k + n)%nat -> Rabs (Rsum (fun i => at_ w i * at_ p i ^ j) (length p) - mu j) <= 2 / 10 ^ 15.
Proof.
  intros LP Lw HP. induction n as [|n IH]; intros k V D LV HD HV H j Hj; [lia|].
  cbn [moms_ok] in H. apply andb_true_iff in H. destruct H as [H1 H2].
  destruct (Nat.eq_dec j k) as [->|N].
  - apply mom_ok_R in H1; auto. rewrite zsum_R, LV in H1. rewrite (Rsum_ext _ (fun i => at_ w i * at_ p i ^ k * IZR D)) in H1 by (intros; auto).
    rewrite Rsum_scal_r in H1. apply IZR_lt in HD.
    replace (Rsum (fun i => at_ w i * at_ p i ^ k) (length p) * IZR D / IZR D) with (Rsum (fun i => at_ w i * at_ p i ^ k) (length p)) in H1 by (field; lra).
    exact H1.
  - replace (Z.of_nat k + 1)%Z with (Z.of_nat (S k)) in H2 by lia.
    apply (IH (S k) (zmul2 V P) (D * DP)%Z); auto; [rewrite zmul2_length by congruence; auto | unfold DP; lia | | lia].
    intros i Hi. rewrite zmul2_nth by congruence. rewrite !mult_IZR, HV, HP by auto. simpl pow. 
    assert (IZR DP <> 0) by (unfold DP; apply IZR_neq; lia). field. auto.
Qed.
Lemma gk_check : moms_ok 32 0 (map (over DW) kronrod_weights_10) (map (over DP) kronrod_points_10) DW = true.
Proof. vm_compute. reflexivity. Qed.
Lemma gk_exact : forallb (exact DP) kronrod_points_10 && forallb (exact DW) kronrod_weights_10 = true.
Proof. vm_compute. reflexivity. Qed.
Lemma tab_over D l i : (0 < D)%Z -> forallb (exact D) l = true -> (i < length l)%nat ->
  at_ (tabR l) i = IZR (nth i (map (over D) l) 0%Z) / IZR D.
Proof.
  intros HD H Hi. rewrite forallb_forall in H. unfold at_, tabR.
  rewrite (nth_indep _ 0 (Q2R 0%Q)) by (rewrite map_length; auto). rewrite map_nth.
  rewrite (nth_indep _ 0%Z (over D 0%Q)) by (rewrite map_length; auto). rewrite map_nth.
  apply over_R; auto. apply H. now apply nth_In.
Qed.
Definition KP := tabR kronrod_points_10.
Definition KW := tabR kronrod_weights_10.
Definition LW := tabR legendre_weights_10.
Lemma gk_moments k : (k < 32)%nat ->
  Rabs (Rsum (fun i => at_ KW i * at_ KP i ^ k) 21 - mu k) <= 2 / 10 ^ 15.
Proof.
  intros H. pose proof gk_exact as X. apply andb_true_iff in X. destruct X as [XP XW].
  apply (moms_ok_R KW KP (map (over DP) kronrod_points_10) eq_refl eq_refl) with (n := 32%nat) (k := 0%nat) (V := map (over DW) kronrod_weights_10) (D := DW);
    [| reflexivity | reflexivity | | exact gk_check | lia].
  - intros i Hi. apply tab_over; auto. reflexivity.
  - intros i Hi. unfold KW. rewrite (tab_over DW) by (auto; reflexivity). rewrite pow_O, Rmult_1_r.
    assert (IZR DW <> 0) by (unfold DW; apply IZR_neq; lia). field. auto.
Qed.
Lemma gk_points_in p : In p KP -> -1 <= p <= 1.
Proof.
  unfold KP, tabR. rewrite in_map_iff. intros (q & <- & Hq).
  assert (G : forallb (fun q => Qle_bool (-1) q && Qle_bool q 1) kronrod_points_10 = true) by (vm_compute; reflexivity).
  rewrite forallb_forall in G. specialize (G q Hq). apply andb_true_iff in G. destruct G as [G1 G2].
  apply Qle_bool_iff, Qle_Rle in G1. apply Qle_bool_iff, Qle_Rle in G2.
  replace (-1) with (Q2R (-1)) by (unfold Q2R; simpl; lra). replace 1 with (Q2R 1) by (unfold Q2R; simpl; lra). auto.
Qed.
(** polynomial of degree at most 31 in the variable that maps [a,b] to [-1,1] *)
Definition scaled_poly (g : list R) (a b x : R) : R := Rsum (fun k => at_ g k * ((2 * x - a - b) / (b - a)) ^ k) (length g).
Lemma gk_total f a b : exists v e, fixed_quad_Gauss_Kronrod f a b KP KW LW = Ok (v, e).
Proof. unfold fixed_quad_Gauss_Kronrod. eexists; eexists. unfold KP, KW, LW, tabR, kronrod_points_10, kronrod_weights_10, legendre_weights_10. cbn [map gk_loop negb bind]. reflexivity. Qed.
Lemma is_RInt_pow a b k : a <> b -> is_RInt (fun x => ((2 * x - a - b) / (b - a)) ^ k) a b ((b - a) / 2 * mu k).
Proof.
  intros N. set (G := fun x => (b - a) / 2 * (((2 * x - a - b) / (b - a)) ^ (S k) / INR (S k))).
  assert (Pk : INR (S k) <> 0) by (apply not_0_INR; lia).
  replace ((b - a) / 2 * mu k) with (minus (G b) (G a)).
  - apply (is_RInt_derive G).
    + intros x _. unfold G. set (c := INR (S k)) in *. auto_derive; auto.
      replace (match k with 0%nat => 1 | S _ => INR k + 1 end) with c by (unfold c; destruct k; reflexivity).
      simpl pred. unfold Rminus, Rdiv. set (z := ((2 * x + - a + - b) * / (b + - a)) ^ k). field. split; auto; lra.
    + intros x _. apply (ex_derive_continuous (fun x => ((2 * x - a - b) / (b - a)) ^ k)). auto_derive. auto.
  - unfold minus, plus, opp, G; simpl. 
    replace ((2 * b - a - b) / (b - a)) with 1 by (field; lra).
    replace ((2 * a - a - b) / (b - a)) with (-1) by (field; lra).
    unfold mu. change (1 * 1 ^ k) with (1 ^ S k). change (-1 * (-1) ^ k) with ((-1) ^ S k). rewrite pow1.
    destruct (Nat.even k) eqn:E.
    + apply Nat.even_spec in E. destruct E as (j & ->). rewrite pow_1_odd. change (match (2*j)%nat with 0%nat => 1 | S _ => INR (2*j) + 1 end) with (INR (S (2 * j))). field. auto.
    + assert (O : Nat.odd k = true) by (unfold Nat.odd; now rewrite E). apply Nat.odd_spec in O. destruct O as (j & ->).
      replace (S (2 * j + 1)) with (2 * S j)%nat by lia. rewrite pow_1_even. ring.
Qed.
Lemma is_RInt_Rsum (f : nat -> R -> R) (v : nat -> R) a b n : (forall k, (k < n)%nat -> is_RInt (f k) a b (v k)) ->
  is_RInt (fun x => Rsum (fun k => f k x) n) a b (Rsum v n).
Proof.
  induction n; intros H; simpl.
  - evar_last; [apply (is_RInt_const (V := R_NormedModule))|]. unfold scal; simpl; unfold mult; simpl; ring.
  - apply (is_RInt_plus (V := R_NormedModule)); auto.
Qed.
Lemma Rsum_abs_le f n : Rabs (Rsum f n) <= Rsum (fun k => Rabs (f k)) n.
Proof. induction n; simpl; [rewrite Rabs_R0; lra|]. eapply Rle_trans; [apply Rabs_triang|]. lra. Qed.
Lemma gk_poly g a b : a <> b -> (length g <= 32)%nat ->
  exists v e I, fixed_quad_Gauss_Kronrod (scaled_poly g a b) a b KP KW LW = Ok (v, e) /\
   is_RInt (scaled_poly g a b) a b I /\
   Rabs (v - I) <= Rabs (b - a) / 10 ^ 15 * Rsum (fun k => Rabs (at_ g k)) (length g).
Proof.
  intros N L. destruct (gk_total (scaled_poly g a b) a b) as (v & e & E).
  exists v, e, ((b - a) / 2 * Rsum (fun k => at_ g k * mu k) (length g)). splits; auto.
  - unfold scaled_poly. rewrite <- Rsum_scal.
    apply is_RInt_Rsum. intros k Hk. replace ((b - a) / 2 * (at_ g k * mu k)) with (scal (at_ g k) ((b - a) / 2 * mu k))
      by (unfold scal; simpl; unfold mult; simpl; ring).
    apply (is_RInt_scal (V := R_NormedModule)). apply is_RInt_pow; auto.
  - apply fixed_quad_value in E. change (length KP) with 21%nat in E.
    assert (V : v = (b - a) / 2 * Rsum (fun k => at_ g k * Rsum (fun i => at_ KW i * at_ KP i ^ k) 21) (length g)).
    { rewrite E. f_equal. unfold scaled_poly.
      rewrite (Rsum_ext _ (fun i => Rsum (fun k => at_ g k * (at_ KW i * at_ KP i ^ k)) (length g))).
      - rewrite Rsum_swap. apply Rsum_ext. intros k _. rewrite <- Rsum_scal. reflexivity.
      - intros i _. rewrite <- Rsum_scal. apply Rsum_ext. intros k _.
        replace ((2 * (a * ((1 - at_ KP i) / 2) + b * ((1 + at_ KP i) / 2)) - a - b) / (b - a)) with (at_ KP i) by (field; lra). ring. }
    rewrite V. rewrite <- Rmult_minus_distr_l, <- Rsum_minus, Rabs_mult.
    replace (Rabs (b - a) / 10 ^ 15 * Rsum (fun k => Rabs (at_ g k)) (length g)) with
      (Rabs (b - a) / 2 * (Rsum (fun k => Rabs (at_ g k)) (length g) * (2 / 10 ^ 15))) by field.
    replace (Rabs ((b - a) / 2)) with (Rabs (b - a) / 2) by (unfold Rdiv; rewrite Rabs_mult, (Rabs_pos_eq (/ 2)) by lra; reflexivity).
    apply Rmult_le_compat_l. { pose proof (Rabs_pos (b - a)). lra. }
    eapply Rle_trans; [apply Rsum_abs_le|]. rewrite <- Rsum_scal_r. apply Rsum_le. intros k Hk.
    rewrite <- Rmult_minus_distr_l, Rabs_mult. apply Rmult_le_compat_l; [apply Rabs_pos|]. apply gk_moments. lia.
Qed.
