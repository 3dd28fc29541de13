(** Lemmas about finite difference weights and Taylor remainders. *)
From Coq Require Import Reals Lra Lia List Bool ZArith QArith Qreals Qabs.
From Coquelicot Require Import Coquelicot.
From Verif Require Import Base Sums Proofs_PSD Model_Differences.
Import ListNotations.
Open Scope R_scope.

Lemma Rsum_sum_f f n : Rsum f (S n) = sum_f_R0 f n.
Proof. induction n; cbn [Rsum sum_f_R0]; [lra|]. rewrite <- IHn. reflexivity. Qed.
Lemma Rsum_Rabs f n : Rabs (Rsum f n) <= Rsum (fun i => Rabs (f i)) n.
Proof. induction n; cbn [Rsum]; [rewrite Rabs_R0; lra|]. eapply Rle_trans; [apply Rabs_triang|]. lra. Qed.

(* -- Taylor's theorem with a remainder bound, on both sides of the point -- *)
Lemma taylor_right f m x h M : 0 < h -> (forall t, x <= t <= x + h -> forall k, (k <= S m)%nat -> ex_derive_n f k t) ->
  (forall t, x <= t <= x + h -> Rabs (Derive_n f (S m) t) <= M) ->
  Rabs (f (x + h) - Rsum (fun j => h ^ j / INR (fact j) * Derive_n f j x) (S m)) <= M * h ^ S m / INR (fact (S m)).
Proof.
  intros Hh Hd HM. destruct (Taylor_Lagrange f m x (x + h)) as (z & Hz & E); [lra|intros; apply Hd; auto; lra|].
  replace (x + h - x) with h in E by lra. rewrite E, Rsum_sum_f.
  match goal with |- Rabs (?a + ?b - ?a) <= _ => replace (a + b - a) with b by lra end.
  rewrite Rabs_mult. assert (0 < h ^ S m) by now apply pow_lt. pose proof (INR_fact_lt_0 (S m)).
  rewrite Rabs_pos_eq by (apply Rlt_le; now apply Rdiv_lt_0_compat).
  replace (M * h ^ S m / INR (fact (S m))) with (h ^ S m / INR (fact (S m)) * M) by (unfold Rdiv; ring).
  apply Rmult_le_compat_l; [apply Rlt_le; now apply Rdiv_lt_0_compat|]. apply HM. lra.
Qed.
Lemma taylor_both f m x a b h M : a < x < b -> a < x + h < b ->
  (forall t, a < t < b -> forall k, (k <= S m)%nat -> ex_derive_n f k t) ->
  (forall t, Rabs (t - x) <= Rabs h -> a < t < b -> Rabs (Derive_n f (S m) t) <= M) ->
  Rabs (f (x + h) - Rsum (fun j => h ^ j / INR (fact j) * Derive_n f j x) (S m)) <= M * Rabs h ^ S m / INR (fact (S m)).
Proof.
  intros Hx Hh Hd HM. destruct (Rtotal_order h 0) as [H|[H|H]].
  - assert (Hl : forall t, a < - t < b -> locally (- t) (fun y : R_UniformSpace => forall k, (k <= S m)%nat -> ex_derive_n f k y)).
    { intros t Ht. assert (Hp : 0 < Rmin (- t - a) (b - - t)) by (apply Rmin_pos; lra).
      exists (mkposreal _ Hp). intros y Hy. apply Hd. unfold ball in Hy; cbn in Hy; unfold AbsRing_ball, abs, minus, plus, opp in Hy; cbn in Hy.
      pose proof (Rmin_l (- t - a) (b - - t)). pose proof (Rmin_r (- t - a) (b - - t)).
      apply Rabs_def2 in Hy. lra. }
    assert (Hk : forall t k, a < - t < b -> (k <= S m)%nat -> Derive_n (fun y => f (- y)) k t = (-1) ^ k * Derive_n f k (- t)).
    { intros t k Ht Hk. apply Derive_n_comp_opp. destruct (Hl t Ht) as (e & He). exists e. intros y Hy j Hj. apply He; auto. lia. }
    pose proof (taylor_right (fun y => f (- y)) m (- x) (- h) M) as T. cbv beta in T.
    assert (T1 : 0 < - h) by lra. specialize (T T1).
    replace (- (- x + - h)) with (x + h) in T by ring.
    rewrite (Rabs_left h) by lra.
    rewrite (Rsum_ext _ (fun j => h ^ j / INR (fact j) * Derive_n f j x)) in T.
    2:{ intros j Hj. rewrite Hk by (rewrite ?Ropp_involutive; auto; lia). rewrite Ropp_involutive.
        replace (h ^ j) with ((- h) ^ j * (-1) ^ j) by (rewrite <- Rpow_mult_distr; f_equal; ring). unfold Rdiv. ring. }
    apply T.
    + intros t Ht k Hkk. apply ex_derive_n_comp_opp. assert (Hta : a < - t < b) by lra.
      destruct (Hl t Hta) as (e & He). exists e. intros y Hy j Hj. apply He; auto. lia.
    + intros t Ht. rewrite Hk by (lra || lia). rewrite Rabs_mult. rewrite <- RPow_abs.
      replace (Rabs (-1)) with 1 by (rewrite Rabs_left; lra). rewrite pow1, Rmult_1_l. apply HM; [|lra].
      rewrite (Rabs_left h) by lra. apply Rabs_le. lra.
  - subst h. rewrite Rplus_0_r, Rabs_R0. rewrite (Rsum_single _ _ 0); [|lia|].
    2:{ intros j Hj Hj0. rewrite pow_i by lia. unfold Rdiv; ring. }
    cbn [pow fact Derive_n INR]. replace (f x - 1 / 1 * f x) with 0 by field. rewrite Rabs_R0.
    rewrite Rmult_0_l, Rmult_0_r. unfold Rdiv. lra.
  - rewrite (Rabs_pos_eq h) by lra. apply taylor_right; auto.
    + intros t Ht. apply Hd. lra.
    + intros t Ht. apply HM; [|lra]. rewrite (Rabs_pos_eq h) by lra. apply Rabs_le. lra.
Qed.

(* -- the table of weights -- *)
Fixpoint qmom (ws : list Q) (t : Z) (j : nat) : Q :=
  match ws with [] => 0%Q | w :: r => (w * inject_Z (t ^ Z.of_nat j) + qmom r (t + 1) j)%Q end.
Fixpoint qabs_mom (ws : list Q) (t : Z) (j : nat) : Q :=
  match ws with [] => 0%Q | w :: r => (Qabs w * inject_Z (Z.abs t ^ Z.of_nat j) + qabs_mom r (t + 1) j)%Q end.
Lemma Q2R_inject z : Q2R (inject_Z z) = IZR z.
Proof. unfold Q2R, inject_Z; cbn. field. Qed.
Lemma Q2R_abs q : Q2R (Qabs q) = Rabs (Q2R q).
Proof.
  unfold Q2R, Qabs. destruct q as [n d]; cbn. rewrite abs_IZR, Rabs_mult. f_equal.
  rewrite Rabs_pos_eq; auto. apply Rlt_le, Rinv_0_lt_compat. now apply IZR_lt.
Qed.
Lemma qmom_R ws t j : Q2R (qmom ws t j) = Rsum (fun k => nth k (map Q2R ws) 0 * (IZR t + INR k) ^ j) (List.length ws).
Proof.
  revert t; induction ws as [|w ws IH]; intros t; [cbn; unfold Q2R; cbn; lra|].
  cbn [qmom List.length map]. rewrite Rsum_head. cbn [nth]. change (INR 0) with 0. rewrite Q2R_plus, Q2R_mult, Q2R_inject, IH, <- pow_IZR, Rplus_0_r.
  f_equal. apply Rsum_ext. intros k _. rewrite S_INR, plus_IZR. f_equal. f_equal. lra.
Qed.
Lemma qabs_mom_R ws t j : Q2R (qabs_mom ws t j) = Rsum (fun k => Rabs (nth k (map Q2R ws) 0) * Rabs (IZR t + INR k) ^ j) (List.length ws).
Proof.
  revert t; induction ws as [|w ws IH]; intros t; [cbn; unfold Q2R; cbn; lra|].
  cbn [qabs_mom List.length map]. rewrite Rsum_head. cbn [nth]. change (INR 0) with 0. rewrite Q2R_plus, Q2R_mult, Q2R_inject, IH, <- pow_IZR, Rplus_0_r, Q2R_abs, abs_IZR.
  f_equal. apply Rsum_ext. intros k _. rewrite S_INR, plus_IZR. f_equal. f_equal. f_equal. lra.
Qed.

Definition zfact n := fold_left Z.mul (map Z.of_nat (seq 1 n)) 1%Z.
Lemma zfact_S n : zfact (S n) = (zfact n * Z.of_nat (S n))%Z.
Proof. unfold zfact. rewrite seq_S, map_app, fold_left_app. reflexivity. Qed.
Lemma zfact_ok n : zfact n = Z.of_nat (fact n).
Proof. induction n; [reflexivity|]. rewrite zfact_S, IHn. cbn [fact]. lia. Qed.
Definition entry_ok (e : nat * nat * list Q) : bool :=
  let '(n, o, ws) := e in
  let ho := Nat.div2 o in
  (Nat.eqb (List.length ws) o && Nat.odd o && Nat.ltb n o &&
   forallb (fun j => Qle_bool (Qabs (qmom ws (- Z.of_nat ho) j - inject_Z (if Nat.eqb j n then zfact n else 0)))
                              ((2 # 10000000000000000) * inject_Z (Z.of_nat ho ^ Z.of_nat j))) (seq 0 o) &&
   Qle_bool (3 * qabs_mom ws (- Z.of_nat ho) o) (inject_Z (zfact o)))%bool.
Lemma table_ok : forallb entry_ok weights_table = true.
Proof. vm_compute. reflexivity. Qed.
Lemma weights_of_In n o l ws : weights_of n o l = Some ws -> In (n, o, ws) l.
Proof.
  induction l as [|[[n' o'] w] l IH]; [discriminate|]. cbn [weights_of]. destruct (Nat.eqb_spec n n'), (Nat.eqb_spec o o'); cbn [andb]; intros E; try (right; now apply IH).
  left. congruence.
Qed.
Record good (n o : nat) (W : list R) : Prop := {
  g_len : List.length W = o;
  g_odd : Nat.odd o = true;
  g_lt : (n < o)%nat;
  g_mom : forall j, (j < o)%nat -> Rabs (Rsum (fun k => nth k W 0 * (INR k - INR (Nat.div2 o)) ^ j) o - (if Nat.eqb j n then INR (fact n) else 0)) <= 2 / 10 ^ 16 * INR (Nat.div2 o) ^ j;
  g_abs : 3 * Rsum (fun k => Rabs (nth k W 0) * Rabs (INR k - INR (Nat.div2 o)) ^ o) o <= INR (fact o) }.
Lemma table_good n o ws : weights_of n o weights_table = Some ws -> good n o (map Q2R ws).
Proof.
  intros HI%weights_of_In. pose proof table_ok as HT. rewrite forallb_forall in HT. specialize (HT _ HI). unfold entry_ok in HT. cbv beta iota zeta in HT.
  apply andb_prop in HT as [HT H5]. apply andb_prop in HT as [HT H4]. apply andb_prop in HT as [HT H3]. apply andb_prop in HT as [H1 H2].
  apply Nat.eqb_eq in H1. apply Nat.ltb_lt in H3. rewrite forallb_forall in H4.
  set (ho := Nat.div2 o) in *.
  assert (E : forall k, IZR (- Z.of_nat ho) + INR k = INR k - INR ho) by (intros; rewrite opp_IZR, <- INR_IZR_INZ; lra).
  constructor; auto.
  - now rewrite map_length.
  - intros j Hj. specialize (H4 j ltac:(apply in_seq; lia)). apply Qle_bool_iff, Qle_Rle in H4.
    rewrite Q2R_abs, Q2R_minus, qmom_R, Q2R_mult, !Q2R_inject, H1, zfact_ok in H4. fold ho.
    rewrite (Rsum_ext _ (fun k => nth k (map Q2R ws) 0 * (INR k - INR ho) ^ j)) in H4 by (intros; now rewrite E).
    replace (IZR (if Nat.eqb j n then Z.of_nat (fact n) else 0)) with (if Nat.eqb j n then INR (fact n) else 0) in H4
      by (destruct (Nat.eqb j n); auto; now rewrite INR_IZR_INZ).
    rewrite <- pow_IZR, <- INR_IZR_INZ in H4. eapply Rle_trans; [exact H4|]. apply Req_le. f_equal. unfold Q2R; cbn [Qnum Qden]. lra.
  - apply Qle_bool_iff, Qle_Rle in H5. rewrite Q2R_mult, qabs_mom_R, Q2R_inject, H1, zfact_ok, <- INR_IZR_INZ in H5. fold ho.
    rewrite (Rsum_ext _ (fun k => Rabs (nth k (map Q2R ws) 0) * Rabs (INR k - INR ho) ^ o)) in H5 by (intros; now rewrite E).
    replace (Q2R 3) with 3 in H5 by (unfold Q2R; cbn; lra). exact H5.
Qed.

(* -- the weighted sum applied to Taylor's polynomial -- *)
Lemma weighted_error n o W g x dx a b M : good n o W -> 0 < dx -> 0 <= M ->
  a < x - INR (Nat.div2 o) * dx -> x + INR (Nat.div2 o) * dx < b ->
  (forall t, a < t < b -> forall k, (k <= o)%nat -> ex_derive_n g k t) ->
  (forall t, Rabs (t - x) <= INR (Nat.div2 o) * dx -> Rabs (Derive_n g o t) <= M) ->
  Rabs (Rsum (fun k => nth k W 0 * g (x + (INR k - INR (Nat.div2 o)) * dx)) o - dx ^ n * Derive_n g n x) <=
    M / 3 * dx ^ o + 2 / 10 ^ 16 * Rsum (fun j => (INR (Nat.div2 o) * dx) ^ j / INR (fact j) * Rabs (Derive_n g j x)) o.
Proof.
  intros G Hdx HM Ha Hb Hd HB. destruct G as [_ Go Gn Gm Ga]. set (ho := Nat.div2 o) in *.
  assert (Hho : 0 <= INR ho) by apply pos_INR.
  assert (H0 : 0 <= INR ho * dx) by (apply Rmult_le_pos; lra).
  assert (Hoo : o = S (2 * ho)).
  { unfold ho. apply Nat.odd_spec in Go. destruct Go as [m ->]. rewrite Nat.add_1_r. rewrite Nat.div2_succ_double. reflexivity. }
  set (T := fun h => Rsum (fun j => h ^ j / INR (fact j) * Derive_n g j x) o).
  set (s := fun k => INR k - INR ho).
  assert (Hs : forall k, (k < o)%nat -> Rabs (s k) <= INR ho).
  { intros k Hk. unfold s. apply Rabs_le. assert (INR k <= INR (2 * ho)) by (apply le_INR; lia). rewrite mult_INR in H. cbn [INR] in H. pose proof (pos_INR k). lra. }
  assert (HR : forall k, (k < o)%nat -> Rabs (g (x + s k * dx) - T (s k * dx)) <= M * Rabs (s k * dx) ^ o / INR (fact o)).
  { intros k Hk. specialize (Hs k Hk). assert (Hsd : Rabs (s k * dx) <= INR ho * dx) by (rewrite Rabs_mult, (Rabs_pos_eq dx) by lra; apply Rmult_le_compat_r; lra).
    unfold T. rewrite Hoo. apply taylor_both with a b.
    - lra.
    - apply Rabs_le_between in Hsd. lra.
    - rewrite <- Hoo. auto.
    - intros t Ht _. rewrite <- Hoo. apply HB. lra. }
  assert (E1 : Rsum (fun k => nth k W 0 * g (x + s k * dx)) o =
               Rsum (fun k => nth k W 0 * T (s k * dx)) o + Rsum (fun k => nth k W 0 * (g (x + s k * dx) - T (s k * dx))) o).
  { rewrite <- Rsum_plus. apply Rsum_ext. intros; ring. }
  set (c := fun j => dx ^ j / INR (fact j) * Derive_n g j x).
  set (e := fun j => Rsum (fun k => nth k W 0 * s k ^ j) o - (if Nat.eqb j n then INR (fact n) else 0)).
  assert (E2 : Rsum (fun k => nth k W 0 * T (s k * dx)) o = dx ^ n * Derive_n g n x + Rsum (fun j => c j * e j) o).
  { unfold T. rewrite (Rsum_ext _ (fun k => Rsum (fun j => c j * (nth k W 0 * s k ^ j)) o)).
    2:{ intros k Hk. rewrite <- Rsum_scal. apply Rsum_ext. intros j Hj. unfold c. rewrite Rpow_mult_distr. unfold Rdiv. ring. }
    rewrite Rsum_swap. rewrite (Rsum_ext _ (fun j => c j * (if Nat.eqb j n then INR (fact n) else 0) + c j * e j)).
    2:{ intros j Hj. rewrite Rsum_scal. unfold e. ring. }
    rewrite Rsum_plus. f_equal. rewrite (Rsum_single _ _ n); auto.
    - rewrite Nat.eqb_refl. unfold c. field. apply INR_fact_neq_0.
    - intros i Hi Hin. rewrite (proj2 (Nat.eqb_neq _ _) Hin). ring. }
  change (fun k => nth k W 0 * g (x + (INR k - INR ho) * dx)) with (fun k => nth k W 0 * g (x + s k * dx)).
  rewrite E1, E2.
  match goal with |- Rabs (?p + ?q + ?r - ?p) <= _ => replace (p + q + r - p) with (r + q) by ring end.
  eapply Rle_trans; [apply Rabs_triang|]. apply Rplus_le_compat.
  - eapply Rle_trans; [apply Rsum_Rabs|].
    apply Rle_trans with (Rsum (fun k => M * dx ^ o / INR (fact o) * (Rabs (nth k W 0) * Rabs (s k) ^ o)) o).
    + apply Rsum_le. intros k Hk. rewrite Rabs_mult.
      apply Rle_trans with (Rabs (nth k W 0) * (M * Rabs (s k * dx) ^ o / INR (fact o))).
      * apply Rmult_le_compat_l; [apply Rabs_pos|auto].
      * rewrite Rabs_mult, (Rabs_pos_eq dx) by lra. rewrite Rpow_mult_distr. unfold Rdiv. apply Req_le. ring.
    + rewrite Rsum_scal. unfold s. set (S := Rsum _ _) in *.
      assert (HF : 0 < INR (fact o)) by apply INR_fact_lt_0. assert (0 < dx ^ o) by (apply pow_lt; lra).
      replace (M * dx ^ o / INR (fact o) * S) with (M * dx ^ o * (S / INR (fact o))) by (unfold Rdiv; ring).
      replace (M / 3 * dx ^ o) with (M * dx ^ o * (1 / 3)) by field.
      apply Rmult_le_compat_l; [apply Rmult_le_pos; lra|]. apply Rmult_le_reg_r with (INR (fact o)); auto.
      replace (S / INR (fact o) * INR (fact o)) with S by (field; lra). lra.
  - eapply Rle_trans; [apply Rsum_Rabs|]. rewrite <- Rsum_scal. apply Rsum_le. intros j Hj. rewrite Rabs_mult. unfold c.
    rewrite Rabs_mult. assert (0 < dx ^ j / INR (fact j)) by (apply Rdiv_lt_0_compat; [apply pow_lt; lra|apply INR_fact_lt_0]).
    rewrite (Rabs_pos_eq (dx ^ j / INR (fact j))) by lra.
    apply Rle_trans with (dx ^ j / INR (fact j) * Rabs (Derive_n g j x) * (2 / 10 ^ 16 * INR ho ^ j)).
    + apply Rmult_le_compat_l; [apply Rmult_le_pos; [lra|apply Rabs_pos]|]. apply Gm; auto.
    + rewrite Rpow_mult_distr. unfold Rdiv. apply Req_le. ring.
Qed.
