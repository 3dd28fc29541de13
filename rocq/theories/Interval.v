(** A small verified interval arithmetic on fixed-point numbers (integers scaled by [2^64]),
    used to prove concrete numerical inequalities about [exp], [ln], [sqrt] and [Rpower]
    by computation.  Nothing here models repository code. *)
From Verif Require Import Base.
From Coq Require Import Reals Lra Lia ZArith QArith Qreals List.
From Coquelicot Require Import Coquelicot.
Import ListNotations.
Open Scope R_scope.

Definition SC : Z := 18446744073709551616%Z.   (* 2^64 *)
Lemma SC_pos : 0 < IZR SC. Proof. apply IZR_lt; reflexivity. Qed.
Lemma SC_posZ : (0 < SC)%Z. Proof. reflexivity. Qed.
Definition toR (z : Z) : R := IZR z / IZR SC.

Definition itv := option (Z * Z).
Definition inside (i : itv) (x : R) : Prop :=
  match i with None => True | Some (a, b) => toR a <= x <= toR b end.

Definition fdiv (a b : Z) : Z := (a / b)%Z.
Definition cdiv (a b : Z) : Z := (- ((- a) / b))%Z.

Lemma fdiv_le a b : (0 < b)%Z -> IZR (fdiv a b) <= IZR a / IZR b.
Proof.
  intros H. unfold fdiv. apply Rmult_le_reg_r with (IZR b). apply IZR_lt; auto.
  unfold Rdiv. rewrite Rmult_assoc, Rinv_l by (apply not_0_IZR; lia). rewrite Rmult_1_r, <- mult_IZR.
  apply IZR_le. pose proof (Z.mul_div_le a b H). lia.
Qed.
Lemma cdiv_ge a b : (0 < b)%Z -> IZR a / IZR b <= IZR (cdiv a b).
Proof.
  intros H. unfold cdiv. rewrite opp_IZR. pose proof (fdiv_le (- a) b H) as K. unfold fdiv in K.
  rewrite opp_IZR in K. unfold Rdiv in *. lra.
Qed.

Definition fsc (a : Z) : Z := Z.shiftr a 64.
Definition csc (a : Z) : Z := (- Z.shiftr (- a) 64)%Z.
Lemma fsc_eq a : fsc a = fdiv a SC. Proof. unfold fsc, fdiv. rewrite Z.shiftr_div_pow2 by lia. reflexivity. Qed.
Lemma csc_eq a : csc a = cdiv a SC. Proof. unfold csc, cdiv. rewrite Z.shiftr_div_pow2 by lia. reflexivity. Qed.

Definition iadd (i j : itv) : itv :=
  match i, j with Some (a, b), Some (c, d) => Some ((a + c)%Z, (b + d)%Z) | _, _ => None end.
Definition iopp (i : itv) : itv :=
  match i with Some (a, b) => Some ((- b)%Z, (- a)%Z) | None => None end.
Definition min4 a b c d := Z.min (Z.min a b) (Z.min c d).
Definition max4 a b c d := Z.max (Z.max a b) (Z.max c d).
Definition imul (i j : itv) : itv :=
  match i, j with
  | Some (a, b), Some (c, d) =>
      let p := (a*c)%Z in let q := (a*d)%Z in let r := (b*c)%Z in let s := (b*d)%Z in
      Some (fsc (min4 p q r s), csc (max4 p q r s))
  | _, _ => None
  end.
Definition iinv (i : itv) : itv :=
  match i with
  | Some (a, b) =>
      if (0 <? a)%Z then Some (fdiv (SC * SC) b, cdiv (SC * SC) a)
      else if (b <? 0)%Z then Some ((- cdiv (SC * SC) (- b))%Z, (- fdiv (SC * SC) (- a))%Z)
      else None
  | None => None
  end.
Definition icst (q : Q) : itv := Some (fdiv (Qnum q * SC) (Zpos (Qden q)), cdiv (Qnum q * SC) (Zpos (Qden q))).
Definition isqrt (i : itv) : itv :=
  match i with
  | Some (a, b) => if (0 <=? a)%Z then Some (Z.sqrt (a * SC), (Z.sqrt (b * SC) + 1)%Z) else None
  | None => None
  end.
Definition ijoin (i j : itv) : itv :=
  match i, j with Some (a, b), Some (c, d) => Some (Z.min a c, Z.max b d) | _, _ => None end.

Lemma toR_add a b : toR (a + b) = toR a + toR b.
Proof. unfold toR. rewrite plus_IZR. unfold Rdiv; ring. Qed.
Lemma toR_opp a : toR (- a) = - toR a.
Proof. unfold toR. rewrite opp_IZR. unfold Rdiv; ring. Qed.
Lemma toR_le a b : (a <= b)%Z -> toR a <= toR b.
Proof. intros H. unfold toR, Rdiv. apply Rmult_le_compat_r. left; apply Rinv_0_lt_compat, SC_pos. apply IZR_le; auto. Qed.
Lemma toR_lt a b : (a < b)%Z -> toR a < toR b.
Proof. intros H. unfold toR, Rdiv. apply Rmult_lt_compat_r. apply Rinv_0_lt_compat, SC_pos. apply IZR_lt; auto. Qed.
Lemma toR_0 : toR 0 = 0. Proof. unfold toR, Rdiv; ring. Qed.
Lemma toR_SC z : toR (z * SC) = IZR z.
Proof. unfold toR. rewrite mult_IZR. field. apply Rgt_not_eq, SC_pos. Qed.

Lemma iadd_ok i j x y : inside i x -> inside j y -> inside (iadd i j) (x + y).
Proof. destruct i as [[a b]|], j as [[c d]|]; simpl; auto. rewrite !toR_add. lra. Qed.
Lemma iopp_ok i x : inside i x -> inside (iopp i) (- x).
Proof. destruct i as [[a b]|]; simpl; auto. rewrite !toR_opp. lra. Qed.

Lemma mul_corners (a b c d x y : R) : a <= x <= b -> c <= y <= d ->
  Rmin (Rmin (a*c) (a*d)) (Rmin (b*c) (b*d)) <= x * y <= Rmax (Rmax (a*c) (a*d)) (Rmax (b*c) (b*d)).
Proof.
  intros Hx Hy.
  assert (H1 : Rmin (a * y) (b * y) <= x * y <= Rmax (a * y) (b * y)).
  { destruct (Rle_dec 0 y).
    - split; [eapply Rle_trans; [apply Rmin_l|]; nra | eapply Rle_trans; [|apply Rmax_r]; nra].
    - split; [eapply Rle_trans; [apply Rmin_r|]; nra | eapply Rle_trans; [|apply Rmax_l]; nra]. }
  assert (H2 : forall z, Rmin (z * c) (z * d) <= z * y <= Rmax (z * c) (z * d)).
  { intros z. destruct (Rle_dec 0 z).
    - split; [eapply Rle_trans; [apply Rmin_l|]; nra | eapply Rle_trans; [|apply Rmax_r]; nra].
    - split; [eapply Rle_trans; [apply Rmin_r|]; nra | eapply Rle_trans; [|apply Rmax_l]; nra]. }
  pose proof (H2 a) as Ha. pose proof (H2 b) as Hb.
  split.
  - eapply Rle_trans; [|apply H1]. apply Rmin_glb.
    + eapply Rle_trans; [apply Rmin_l|apply Ha].
    + eapply Rle_trans; [apply Rmin_r|apply Hb].
  - eapply Rle_trans; [apply H1|]. apply Rmax_lub.
    + eapply Rle_trans; [apply Ha|apply Rmax_l].
    + eapply Rle_trans; [apply Hb|apply Rmax_r].
Qed.
Lemma Zmin_IZR a b : IZR (Z.min a b) = Rmin (IZR a) (IZR b).
Proof. destruct (Z.min_spec a b) as [[H E]|[H E]]; rewrite E; symmetry;
  [apply Rmin_left, IZR_le; lia | apply Rmin_right, IZR_le; lia]. Qed.
Lemma Zmax_IZR a b : IZR (Z.max a b) = Rmax (IZR a) (IZR b).
Proof. destruct (Z.max_spec a b) as [[H E]|[H E]]; rewrite E; symmetry;
  [apply Rmax_right, IZR_le; lia | apply Rmax_left, IZR_le; lia]. Qed.

Lemma imul_ok i j x y : inside i x -> inside j y -> inside (imul i j) (x * y).
Proof.
  destruct i as [[a b]|], j as [[c d]|]; cbv [imul inside]; auto. intros Hx Hy.
  rewrite fsc_eq, csc_eq.
  pose proof SC_pos as HS. set (s := IZR SC) in *.
  assert (E : forall z, toR z * s = IZR z) by (intros z; unfold toR; fold s; field; lra).
  assert (Hx' : IZR a <= x * s <= IZR b) by (rewrite <- !E; split; apply Rmult_le_compat_r; lra).
  assert (Hy' : IZR c <= y * s <= IZR d) by (rewrite <- !E; split; apply Rmult_le_compat_r; lra).
  pose proof (mul_corners _ _ _ _ _ _ Hx' Hy') as [K1 K2].
  assert (M1 : IZR (min4 (a*c) (a*d) (b*c) (b*d)) <= x * s * (y * s)).
  { unfold min4. rewrite !Zmin_IZR, !mult_IZR. exact K1. }
  assert (M2 : x * s * (y * s) <= IZR (max4 (a*c) (a*d) (b*c) (b*d))).
  { unfold max4. rewrite !Zmax_IZR, !mult_IZR. exact K2. }
  pose proof (fdiv_le (min4 (a*c) (a*d) (b*c) (b*d)) SC SC_posZ) as F.
  pose proof (cdiv_ge (max4 (a*c) (a*d) (b*c) (b*d)) SC SC_posZ) as G. fold s in F, G.
  unfold toR; fold s. split.
  - apply <- Rle_div_l; auto. eapply Rle_trans; [exact F|]. apply <- Rle_div_l; auto. lra.
  - apply -> Rle_div_r; auto. eapply Rle_trans; [|exact G]. apply -> Rle_div_r; auto. lra.
Qed.

Lemma inv_bounds (a b : Z) x : (0 < a)%Z -> toR a <= x <= toR b ->
  toR (fdiv (SC * SC) b) <= / x <= toR (cdiv (SC * SC) a).
Proof.
  intros Ha [H1 H2]. pose proof SC_pos as HS.
  assert (Pa : 0 < toR a). { rewrite <- toR_0. apply toR_lt; auto. }
  assert (Pb : (0 < b)%Z).
  { apply lt_IZR. assert (0 < toR b) by lra. unfold toR in H. apply Rmult_lt_reg_r with (/ IZR SC). apply Rinv_0_lt_compat; auto.
    rewrite Rmult_0_l. exact H. }
  assert (IA : 0 < IZR a) by (apply IZR_lt; auto). assert (IB : 0 < IZR b) by (apply IZR_lt; auto).
  split.
  - pose proof (fdiv_le (SC * SC) b Pb) as F. rewrite mult_IZR in F.
    apply Rle_trans with (/ toR b); [|apply Rinv_le_contravar; lra].
    unfold toR. apply <- Rle_div_l; auto. eapply Rle_trans; [exact F|]. right. field. lra.
  - pose proof (cdiv_ge (SC * SC) a Ha) as F. rewrite mult_IZR in F.
    apply Rle_trans with (/ toR a); [apply Rinv_le_contravar; lra|].
    unfold toR. apply -> Rle_div_r; auto. eapply Rle_trans; [|exact F]. right. field. lra.
Qed.

Lemma iinv_ok i x : inside i x -> inside (iinv i) (/ x).
Proof.
  destruct i as [[a b]|]; simpl; auto. intros H.
  destruct (0 <? a)%Z eqn:E.
  - apply Z.ltb_lt in E. apply inv_bounds; auto.
  - destruct (b <? 0)%Z eqn:E2; simpl; auto. apply Z.ltb_lt in E2.
    assert (Hn : x <> 0).
    { assert (toR b < 0) by (rewrite <- toR_0; apply toR_lt; auto). lra. }
    pose proof (inv_bounds (- b) (- a) (- x)) as K. rewrite (toR_opp a), (toR_opp b) in K.
    rewrite (toR_opp (cdiv _ _)), (toR_opp (fdiv _ _)). replace (/ - x) with (- / x) in K by (field; auto). 
    assert (B1 : (0 < - b)%Z) by lia. assert (B2 : - toR b <= - x <= - toR a) by (split; lra).
    specialize (K B1 B2). change 340282366920938463463374607431768211456%Z with (SC * SC)%Z. split; lra.
Qed.

Lemma icst_ok q : inside (icst q) (Q2R q).
Proof.
  unfold icst; simpl. unfold toR, Q2R. pose proof SC_pos as HS.
  pose proof (fdiv_le (Qnum q * SC) (Zpos (Qden q)) eq_refl) as F.
  pose proof (cdiv_ge (Qnum q * SC) (Zpos (Qden q)) eq_refl) as G. rewrite mult_IZR in F, G.
  assert (HD : 0 < IZR (Zpos (Qden q))) by (apply IZR_lt; reflexivity).
  split.
  - apply <- Rle_div_l; auto. eapply Rle_trans; [exact F|]. right; field; lra.
  - apply -> Rle_div_r; auto. eapply Rle_trans; [|exact G]. right; field; lra.
Qed.

Lemma isqrt_ok i x : inside i x -> inside (isqrt i) (sqrt x).
Proof.
  destruct i as [[a b]|]; simpl; auto. intros [H1 H2].
  destruct (0 <=? a)%Z eqn:E; simpl; auto. apply Z.leb_le in E.
  pose proof SC_pos as HS. pose proof SC_posZ as HZ.
  assert (Pa : 0 <= toR a) by (rewrite <- toR_0; apply toR_le; auto).
  assert (Pb : (0 <= b)%Z).
  { apply le_IZR. assert (0 <= toR b) by lra. unfold toR in H. apply Rmult_le_reg_r with (/ IZR SC). apply Rinv_0_lt_compat; auto.
    rewrite Rmult_0_l. exact H. }
  assert (SQ : forall z, toR z * toR z = IZR (z * z) / IZR SC / IZR SC) by (intros; unfold toR; rewrite mult_IZR; field; lra).
  split.
  - apply Rle_trans with (sqrt (toR a)); [|apply sqrt_le_1_alt; auto].
    pose proof (Z.sqrt_spec (a * SC) ltac:(nia)) as K. cbv zeta in K. destruct K as [K1 K2].
    rewrite <- (sqrt_square (toR (Z.sqrt (a * SC)))).
    2: { rewrite <- toR_0; apply toR_le. apply Z.sqrt_nonneg. }
    apply sqrt_le_1_alt. rewrite SQ. unfold toR. 
    apply IZR_le in K1. rewrite mult_IZR in K1.
    rewrite mult_IZR in *. unfold Rdiv. apply Rmult_le_compat_r; [left; apply Rinv_0_lt_compat; auto|].
    apply <- Rle_div_l; auto.
  - apply Rle_trans with (sqrt (toR b)); [apply sqrt_le_1_alt; auto|].
    pose proof (Z.sqrt_spec (b * SC) ltac:(nia)) as K. cbv zeta in K. destruct K as [K1 K2].
    set (r := (Z.sqrt (b * SC) + 1)%Z) in *.
    rewrite <- (sqrt_square (toR r)).
    2: { rewrite <- toR_0; apply toR_le. unfold r. pose proof (Z.sqrt_nonneg (b * SC)). lia. }
    apply sqrt_le_1_alt. rewrite SQ. unfold toR.
    replace (Z.succ (Z.sqrt (b * SC)) * Z.succ (Z.sqrt (b * SC)))%Z with (r * r)%Z in K2 by (unfold r; ring).
    apply IZR_lt in K2. rewrite mult_IZR in K2.
    unfold Rdiv. apply Rmult_le_compat_r; [left; apply Rinv_0_lt_compat; auto|].
    apply -> Rle_div_r; auto. lra.
Qed.

Lemma ijoin_ok i j x : inside i x \/ inside j x -> inside (ijoin i j) x.
Proof.
  destruct i as [[a b]|], j as [[c d]|]; simpl; auto.
  intros [[H1 H2]|[H1 H2]]; split.
  - eapply Rle_trans; [apply toR_le, Z.le_min_l|auto].
  - eapply Rle_trans; [eauto|apply toR_le, Z.le_max_l].
  - eapply Rle_trans; [apply toR_le, Z.le_min_r|auto].
  - eapply Rle_trans; [eauto|apply toR_le, Z.le_max_r].
Qed.

(** ** exp: Taylor polynomials below and above. *)
Fixpoint taylor (n : nat) (k : R) (x : R) : R :=   (* 1 + x/k (1 + x/(k+1) (...)) *)
  match n with O => 1 | S m => 1 + x / k * taylor m (k + 1) x end.

Fixpoint psum (n : nat) (x : R) : R :=
  match n with O => 1 | S m => psum m x + x ^ (S m) / INR (fact (S m)) end.

Lemma psum_deriv n x : is_derive (psum (S n)) x (psum n x).
Proof.
  induction n.
  - simpl. auto_derive; auto. simpl; field.
  - change (psum (S (S n))) with (fun x => psum (S n) x + x ^ (S (S n)) / INR (fact (S (S n)))).
    change (psum (S n) x) with (psum n x + x ^ (S n) / INR (fact (S n))).
    apply (is_derive_plus (V:=R_NormedModule) (psum (S n)) (fun x => x ^ (S (S n)) / INR (fact (S (S n))))).
    apply IHn.
    apply (is_derive_ext (fun x => / INR (fact (S (S n))) * x ^ (S (S n)))). { intros t; unfold Rdiv. apply Rmult_comm. }
    replace (x ^ S n / INR (fact (S n))) with (/ INR (fact (S (S n))) * (INR (S (S n)) * 1 * x ^ (S n))).
    + apply is_derive_scal. apply (is_derive_pow (fun x => x) (S (S n)) x 1). apply (@is_derive_id R_AbsRing).
    + rewrite (fact_simpl (S n)), mult_INR.
      assert (INR (fact (S n)) <> 0) by apply INR_fact_neq_0.
      assert (INR (S (S n)) <> 0) by (apply not_0_INR; lia).
      field; auto.
Qed.
Lemma psum_0 n : psum n 0 = 1.
Proof. induction n; simpl; auto. rewrite IHn. unfold Rdiv; ring. Qed.

(** For nonpositive arguments the sums alternate around exp. *)
Lemma mono_from_deriv (f df : R -> R) a b : a <= b ->
  (forall x, is_derive f x (df x)) -> (forall x, a <= x <= b -> 0 <= df x) -> f a <= f b.
Proof.
  intros Hab Hd Hp.
  destruct (MVT_gen f a b df) as [c [Hc E]].
  - intros; apply Hd.
  - intros; apply continuity_pt_filterlim. apply (ex_derive_continuous (V:=R_NormedModule)). eexists; apply Hd.
  - rewrite Rmin_left, Rmax_right in Hc by lra. specialize (Hp c Hc).
    assert (0 <= df c * (b - a)) by (apply Rmult_le_pos; lra). lra.
Qed.
Lemma psum_exp n : forall x, x <= 0 ->
  (Nat.Even n -> exp x <= psum n x) /\ (Nat.Odd n -> psum n x <= exp x).
Proof.
  induction n; intros x Hx.
  - split; intros H. simpl. rewrite <- exp_0. destruct Hx; [left; apply exp_increasing; auto|subst; right; reflexivity].
    destruct H; lia.
  - assert (D : forall t, is_derive (fun t => psum (S n) t - exp t) t (psum n t - exp t)).
    { intros t. apply (is_derive_minus (V:=R_NormedModule) (psum (S n)) exp). apply psum_deriv. apply is_derive_exp. }
    split; intros H.
    + assert (O : Nat.Odd n). { destruct H as [k Hk]. exists (k - 1)%nat. lia. }
      assert (K : (fun t => - (psum (S n) t - exp t)) x <= (fun t => - (psum (S n) t - exp t)) 0).
      { apply (mono_from_deriv (fun t => - (psum (S n) t - exp t)) (fun t => - (psum n t - exp t)) x 0 Hx).
        - intros t. apply (is_derive_opp (V:=R_NormedModule) (fun t => psum (S n) t - exp t)). apply D.
        - intros t Ht. destruct (IHn t) as [_ Q]; [lra|]. specialize (Q O). lra. }
      cbv beta in K. rewrite psum_0, exp_0 in K. lra.
    + assert (O : Nat.Even n). { destruct H as [k Hk]. exists k. lia. }
      assert (K : (fun t => (psum (S n) t - exp t)) x <= (fun t => (psum (S n) t - exp t)) 0).
      { apply (mono_from_deriv (fun t => psum (S n) t - exp t) (fun t => (psum n t - exp t)) x 0 Hx); [exact D|].
        intros t Ht. destruct (IHn t) as [Q _]; [lra|]. specialize (Q O). lra. }
      cbv beta in K. rewrite psum_0, exp_0 in K. lra.
Qed.

(** interval Horner form of psum: 1 + x/1 (1 + x/2 (1 + ...)) *)
Fixpoint horner (n : nat) (k : Z) (x : R) : R :=
  match n with O => 1 | S m => 1 + x * horner m (k + 1) x / IZR k end.
Definition idivk (i : itv) (k : Z) : itv :=
  match i with Some (a, b) => Some (fdiv a k, cdiv b k) | None => None end.
Lemma idivk_ok i k x : (0 < k)%Z -> inside i x -> inside (idivk i k) (x / IZR k).
Proof.
  intros Hk. assert (HK : 0 < IZR k) by (apply IZR_lt; auto).
  destruct i as [[a b]|]; cbv [idivk inside]; auto. intros [H1 H2]. unfold toR in *. pose proof SC_pos.
  pose proof (fdiv_le a k Hk) as F. pose proof (cdiv_ge b k Hk) as G.
  assert (E : forall u, u / IZR k / IZR SC = u / IZR SC / IZR k) by (intros; field; lra).
  assert (M : forall u v w, 0 < w -> u <= v -> u / w <= v / w) by (intros; apply Rmult_le_compat_r; auto; left; apply Rinv_0_lt_compat; auto).
  split.
  - eapply Rle_trans; [apply (M (IZR (fdiv a k)) (IZR a / IZR k) (IZR SC)); [auto|exact F]|]. rewrite E. apply M; auto.
  - eapply Rle_trans; [|apply (M (IZR b / IZR k) (IZR (cdiv b k)) (IZR SC)); [auto|exact G]]. rewrite E. apply M; auto.
Qed.
Fixpoint ihorner (n : nat) (k : Z) (i : itv) : itv :=
  match n with
  | O => Some (SC, SC)
  | S m => iadd (Some (SC, SC)) (idivk (imul i (ihorner m (k + 1) i)) k)
  end.
Lemma one_in : inside (Some (SC, SC)) 1.
Proof. simpl. unfold toR. pose proof SC_pos. replace (IZR SC / IZR SC) with 1 by (field; lra). lra. Qed.
Lemma ihorner_ok n : forall k i x, (0 < k)%Z -> inside i x -> inside (ihorner n k i) (horner n k x).
Proof.
  induction n; intros k i x Hk H.
  - apply one_in.
  - change (inside (iadd (Some (SC, SC)) (idivk (imul i (ihorner n (k + 1) i)) k))
      (1 + x * horner n (k + 1) x / IZR k)).
    apply iadd_ok; [apply one_in|]. apply idivk_ok; auto. apply imul_ok; auto. apply IHn; auto; lia.
Qed.
Lemma horner_psum_gen n : forall k x, 
  x ^ k / INR (fact k) * horner n (Z.of_nat (S k)) x = psum (k + n) x - psum k x + x ^ k / INR (fact k).
Proof.
  induction n; intros k x.
  - rewrite Nat.add_0_r. simpl horner. ring.
  - change (horner (S n) (Z.of_nat (S k)) x) with (1 + x * horner n (Z.of_nat (S k) + 1) x / IZR (Z.of_nat (S k))).
    replace (Z.of_nat (S k) + 1)%Z with (Z.of_nat (S (S k))) by lia.
    specialize (IHn (S k) x). replace (k + S n)%nat with (S k + n)%nat by lia.
    assert (E : x ^ S k / INR (fact (S k)) = x ^ k / INR (fact k) * (x * / IZR (Z.of_nat (S k)))).
    { rewrite fact_simpl, mult_INR, <- INR_IZR_INZ. simpl pow. field. split; [apply not_0_INR; lia|apply INR_fact_neq_0]. }
    rewrite E in IHn.
    change (psum (S k) x) with (psum k x + x ^ (S k) / INR (fact (S k))) in IHn. rewrite E in IHn.
    unfold Rdiv at 2. unfold Rdiv in *. lra.
Qed.
Lemma horner_psum n x : horner n 1 x = psum n x.
Proof. pose proof (horner_psum_gen n 0 x) as H. simpl in H. replace (psum n x) with (psum (0 + n) x) by reflexivity. simpl. lra. Qed.

Fixpoint isquares (n : nat) (i : itv) : itv :=
  match n with O => i | S m => isquares m (imul i i) end.
Lemma isquares_ok n : forall i x, inside i (exp x) -> inside (isquares n i) (exp (2 ^ n * x)).
Proof.
  induction n; intros i x H; simpl.
  - rewrite Rmult_1_l; auto.
  - replace (2 * 2 ^ n * x) with (2 ^ n * (x + x)) by ring. apply IHn. rewrite exp_plus. apply imul_ok; auto.
Qed.

(** exp of a nonpositive fixed-point number [- z]: halve until below 1/4, sum, square back. *)
Definition exp_neg (inv : bool) (z : Z) : itv :=      (* z >= 0: interval for exp (- toR z), or of its inverse *)
  let n := Z.to_nat (Z.max 0 (Z.log2 z - 64 + 6)) in
  let p := (2 ^ Z.of_nat n)%Z in
  let lo := (- cdiv z p)%Z in let hi := (- fdiv z p)%Z in
  match ihorner 11 1 (Some (lo, lo)), ihorner 10 1 (Some (hi, hi)) with
  | Some (a, _), Some (_, b) =>
      let i := Some (Z.max 0 a, b) in isquares n (if inv then iinv i else i)
  | _, _ => None
  end.
Lemma exp_neg_ok inv z : (0 <= z)%Z -> inside (exp_neg inv z) (exp (if inv then toR z else - toR z)).
Proof.
  intros Hz. unfold exp_neg.
  set (n := Z.to_nat _). set (p := (2 ^ Z.of_nat n)%Z).
  set (lo := (- cdiv z p)%Z). set (hi := (- fdiv z p)%Z). cbv zeta.
  assert (Hp : (0 < p)%Z) by (unfold p; apply Z.pow_pos_nonneg; lia).
  assert (HP : 0 < IZR p) by (apply IZR_lt; auto).
  pose proof SC_pos as HS.
  assert (Hc : toR lo <= - toR z / IZR p).
  { unfold lo. rewrite toR_opp. unfold toR. pose proof (cdiv_ge z p Hp) as G.
    assert (IZR z / IZR SC / IZR p <= IZR (cdiv z p) / IZR SC).
    { unfold Rdiv in *. rewrite Rmult_assoc, (Rmult_comm (/ IZR SC)), <- Rmult_assoc. apply Rmult_le_compat_r; auto. left; apply Rinv_0_lt_compat; auto. }
    unfold Rdiv in *. lra. }
  assert (Hf : - toR z / IZR p <= toR hi).
  { unfold hi. rewrite toR_opp. unfold toR. pose proof (fdiv_le z p Hp) as G.
    assert (IZR (fdiv z p) / IZR SC <= IZR z / IZR SC / IZR p).
    { unfold Rdiv in *. rewrite (Rmult_assoc (IZR z)), (Rmult_comm (/ IZR SC)), <- Rmult_assoc. apply Rmult_le_compat_r; auto. left; apply Rinv_0_lt_compat; auto. }
    unfold Rdiv in *. lra. }
  assert (Hhi0 : toR hi <= 0).
  { unfold hi. rewrite toR_opp, <- Ropp_0. apply Ropp_le_contravar. rewrite <- toR_0. apply toR_le. unfold fdiv. apply Z.div_pos; lia. }
  assert (Hlo0 : toR lo <= 0) by lra.
  pose proof (ihorner_ok 11 1 (Some (lo, lo)) (toR lo) eq_refl ltac:(simpl; lra)) as K1.
  pose proof (ihorner_ok 10 1 (Some (hi, hi)) (toR hi) eq_refl ltac:(simpl; lra)) as K2.
  destruct (ihorner 11 1 (Some (lo, lo))) as [[a a']|]; [|exact I].
  destruct (ihorner 10 1 (Some (hi, hi))) as [[b' b]|]; [|exact I].
  assert (EP : IZR p = 2 ^ n) by (unfold p; rewrite <- pow_IZR; reflexivity).
  assert (NP : 2 ^ n <> 0) by (apply pow_nonzero; lra).
  assert (B : inside (Some (Z.max 0 a, b)) (exp (- toR z / IZR p))).
  { cbv [inside] in K1, K2 |- *.
    rewrite horner_psum in K1, K2.
    destruct (psum_exp 11 (toR lo) Hlo0) as [_ P1]. specialize (P1 ltac:(exists 5%nat; lia)).
    destruct (psum_exp 10 (toR hi) Hhi0) as [P2 _]. specialize (P2 ltac:(exists 5%nat; lia)).
    assert (M : forall u v, u <= v -> exp u <= exp v).
    { intros u v [H|H]; [left; apply exp_increasing; auto|subst; right; reflexivity]. }
    pose proof (M _ _ Hc). pose proof (M _ _ Hf). split; [|lra].
    destruct (Z.max_spec 0 a) as [[_ E]|[_ E]]; rewrite E. lra. rewrite toR_0. left; apply exp_pos. }
  destruct inv.
  - replace (toR z) with (2 ^ n * (toR z / IZR p)) by (rewrite EP; field; auto).
    apply isquares_ok. replace (toR z / IZR p) with (- (- toR z / IZR p)) by (rewrite EP; field; auto).
    rewrite exp_Ropp. apply iinv_ok; auto.
  - replace (- toR z) with (2 ^ n * (- toR z / IZR p)) by (rewrite EP; field; auto).
    apply isquares_ok. auto.
Qed.
Definition exp_pt (z : Z) : itv := if (0 <=? z)%Z then exp_neg true z else exp_neg false (- z).
Lemma exp_pt_ok z : inside (exp_pt z) (exp (toR z)).
Proof.
  unfold exp_pt. destruct (0 <=? z)%Z eqn:E.
  - apply Z.leb_le in E. apply (exp_neg_ok true); auto.
  - apply Z.leb_gt in E. replace (toR z) with (- toR (- z)). apply (exp_neg_ok false); lia. rewrite toR_opp; ring.
Qed.
Definition iexp (i : itv) : itv :=
  match i with
  | Some (a, b) => match exp_pt a, exp_pt b with Some (c, _), Some (_, d) => Some (c, d) | _, _ => None end
  | None => None
  end.
Lemma iexp_ok i x : inside i x -> inside (iexp i) (exp x).
Proof.
  destruct i as [[a b]|]; simpl; auto. intros [H1 H2].
  pose proof (exp_pt_ok a) as K1. pose proof (exp_pt_ok b) as K2.
  destruct (exp_pt a) as [[c c']|]; [|exact I]. destruct (exp_pt b) as [[d' d]|]; [|exact I].
  assert (M : forall u v, u <= v -> exp u <= exp v).
  { intros u v [H|H]; [left; apply exp_increasing; auto|subst; right; reflexivity]. }
  simpl in *. pose proof (M _ _ H1). pose proof (M _ _ H2). lra.
Qed.

(** ln: an unverified guess [2 atanh ((m-1)/(m+1)) + k ln 2] with [x = m 2^k], then a check by exp. *)
Fixpoint atanh_sum (n : nat) (k : Z) (w t : Z) : Z :=   (* t/k + t w/(k+2) + ... *)
  match n with O => 0%Z | S m => (t / k + atanh_sum m (k + 2) w (fsc (t * w)))%Z end.
Definition ln_guess (x : Z) : Z :=
  let k := (Z.log2 x - 64)%Z in
  let m := Z.shiftl x (- k) in
  let z := ((m - SC) * SC / (m + SC))%Z in
  (2 * atanh_sum 21 1 (fsc (z * z)) z + k * 12786308645202655660)%Z.
Definition SLACK : Z := 16384%Z.
Definition ln_lo (x y : Z) : option Z :=
  match exp_pt y with Some (_, b) => if (b <=? x)%Z then Some y else None | None => None end.
Definition ln_hi (x y : Z) : option Z :=
  match exp_pt y with Some (a, _) => if (x <=? a)%Z then Some y else None | None => None end.
Lemma ln_le_compat u v : 0 < u -> u <= v -> ln u <= ln v.
Proof. intros H [K|K]; [left; apply ln_increasing; auto|subst; right; reflexivity]. Qed.
Lemma ln_lo_ok x y l : ln_lo x y = Some l -> toR l <= ln (toR x).
Proof.
  unfold ln_lo. intros L. pose proof (exp_pt_ok y) as K.
  destruct (exp_pt y) as [[c d]|]; [|discriminate].
  destruct (d <=? x)%Z eqn:D; [|discriminate]. apply Z.leb_le, toR_le in D.
  assert (E : y = l) by congruence. subst l. cbv [inside] in K.
  rewrite <- (ln_exp (toR y)). apply ln_le_compat; [apply exp_pos|lra].
Qed.
Lemma ln_hi_ok x y l : 0 < toR x -> ln_hi x y = Some l -> ln (toR x) <= toR l.
Proof.
  unfold ln_hi. intros P L. pose proof (exp_pt_ok y) as K.
  destruct (exp_pt y) as [[c d]|]; [|discriminate].
  destruct (x <=? c)%Z eqn:D; [|discriminate]. apply Z.leb_le, toR_le in D.
  assert (E : y = l) by congruence. subst l. cbv [inside] in K.
  rewrite <- (ln_exp (toR y)). apply ln_le_compat; lra.
Qed.
(** the slack grows with the absolute value of the logarithm *)
Definition slack (y : Z) : Z := (SLACK + Z.shiftr (Z.abs y) 48 + Z.shiftl SLACK (Z.shiftr (- y * 3) 65))%Z.
Definition iln (i : itv) : itv :=
  match i with
  | Some (a, b) =>
      if (0 <? a)%Z then
        let ya := ln_guess a in let yb := ln_guess b in
        match ln_lo a (ya - slack ya), ln_hi b (yb + slack yb) with Some l, Some h => Some (l, h) | _, _ => None end
      else None
  | None => None
  end.
Lemma iln_ok i x : inside i x -> inside (iln i) (ln x).
Proof.
  destruct i as [[a b]|]; cbv [iln inside]; auto. intros [H1 H2].
  destruct (0 <? a)%Z eqn:E; [|exact I]. apply Z.ltb_lt in E.
  assert (Pa : 0 < toR a) by (rewrite <- toR_0; apply toR_lt; auto).
  set (ya := (ln_guess a - slack (ln_guess a))%Z). set (yb := (ln_guess b + slack (ln_guess b))%Z).
  clearbody ya yb.
  destruct (ln_lo a ya) as [l|] eqn:L; [|exact I]. destruct (ln_hi b yb) as [h|] eqn:Hh; [|exact I].
  apply ln_lo_ok in L. apply ln_hi_ok in Hh; [|lra].
  pose proof (ln_le_compat (toR a) x Pa H1). pose proof (ln_le_compat x (toR b) ltac:(lra) H2). lra.
Qed.

(** ** Expressions *)
Inductive expr :=
| EVar (n : nat) | ECst (q : Q) | EAdd (a b : expr) | ESub (a b : expr) | EMul (a b : expr)
| EDiv (a b : expr) | EOpp (a : expr) | EInv (a : expr) | ESqrt (a : expr) | EExp (a : expr)
| ELn (a : expr) | EPow (a : expr) (n : nat) | EAbs (a : expr).

Fixpoint eval (env : list R) (e : expr) : R :=
  match e with
  | EVar n => nth n env 0
  | ECst q => Q2R q
  | EAdd a b => eval env a + eval env b
  | ESub a b => eval env a - eval env b
  | EMul a b => eval env a * eval env b
  | EDiv a b => eval env a / eval env b
  | EOpp a => - eval env a
  | EInv a => / eval env a
  | ESqrt a => sqrt (eval env a)
  | EExp a => exp (eval env a)
  | ELn a => ln (eval env a)
  | EPow a n => eval env a ^ n
  | EAbs a => Rabs (eval env a)
  end.
Definition iabs (i : itv) : itv :=
  match i with
  | Some (a, b) => if (0 <=? a)%Z then i else if (b <=? 0)%Z then iopp i else Some (0%Z, Z.max (- a) b)
  | None => None
  end.
Lemma iabs_ok i x : inside i x -> inside (iabs i) (Rabs x).
Proof.
  destruct i as [[a b]|]; cbv [iabs]; auto. intros H.
  destruct (0 <=? a)%Z eqn:E.
  { apply Z.leb_le, toR_le in E. rewrite toR_0 in E. rewrite Rabs_right; auto. simpl in H. lra. }
  destruct (b <=? 0)%Z eqn:E2.
  { apply Z.leb_le, toR_le in E2. rewrite toR_0 in E2. rewrite Rabs_left1. apply iopp_ok; auto. simpl in H; lra. }
  simpl in *. rewrite toR_0. split; [apply Rabs_pos|].
  pose proof (toR_le _ _ (Z.le_max_l (- a) b)) as M1. pose proof (toR_le _ _ (Z.le_max_r (- a) b)) as M2. rewrite toR_opp in M1.
  apply Rabs_le. lra.
Qed.
Fixpoint ipow (i : itv) (n : nat) : itv :=
  match n with O => Some (SC, SC) | S m => imul i (ipow i m) end.
Lemma ipow_ok n : forall i x, inside i x -> inside (ipow i n) (x ^ n).
Proof. induction n; intros; simpl pow; [apply one_in|]. apply imul_ok; auto. Qed.
(** even powers of an interval around 0 *)
Definition ipow' (i : itv) (n : nat) : itv := if Nat.even n then ipow (iabs i) n else ipow i n.
Lemma ipow'_ok n i x : inside i x -> inside (ipow' i n) (x ^ n).
Proof.
  intros H. unfold ipow'. destruct (Nat.even n) eqn:E.
  - apply Nat.even_spec in E. destruct E as [k ->]. replace (x ^ (2 * k)) with (Rabs x ^ (2 * k)).
    apply ipow_ok, iabs_ok; auto. rewrite !pow_mult. f_equal. rewrite pow2_abs; auto.
  - apply ipow_ok; auto.
Qed.

Fixpoint ieval (env : list itv) (e : expr) : itv :=
  match e with
  | EVar n => nth n env None
  | ECst q => icst q
  | EAdd a b => iadd (ieval env a) (ieval env b)
  | ESub a b => iadd (ieval env a) (iopp (ieval env b))
  | EMul a b => imul (ieval env a) (ieval env b)
  | EDiv a b => imul (ieval env a) (iinv (ieval env b))
  | EOpp a => iopp (ieval env a)
  | EInv a => iinv (ieval env a)
  | ESqrt a => isqrt (ieval env a)
  | EExp a => iexp (ieval env a)
  | ELn a => iln (ieval env a)
  | EPow a n => ipow' (ieval env a) n
  | EAbs a => iabs (ieval env a)
  end.
Definition box := list itv.
Definition in_box (b : box) (env : list R) : Prop := Forall2 inside b env.
Lemma in_box_nth b env n : in_box b env -> inside (nth n b None) (nth n env 0).
Proof. intros H; revert n; induction H; intros [|n]; simpl; auto; exact I. Qed.
Theorem ieval_ok b env e : in_box b env -> inside (ieval b e) (eval env e).
Proof.
  intros H; induction e; simpl eval; simpl ieval.
  - apply in_box_nth; auto.
  - apply icst_ok.
  - apply iadd_ok; auto.
  - unfold Rminus. apply iadd_ok; auto. apply iopp_ok; auto.
  - apply imul_ok; auto.
  - unfold Rdiv. apply imul_ok; auto. apply iinv_ok; auto.
  - apply iopp_ok; auto.
  - apply iinv_ok; auto.
  - apply isqrt_ok; auto.
  - apply iexp_ok; auto.
  - apply iln_ok; auto.
  - apply ipow'_ok; auto.
  - apply iabs_ok; auto.
Qed.

(** [e] is positive on the box, by bisection of the widest... the variables in turn, [depth] times. *)
Definition ipos (i : itv) : bool := match i with Some (a, _) => (0 <? a)%Z | None => false end.
Definition inonneg (i : itv) : bool := match i with Some (a, _) => (0 <=? a)%Z | None => false end.
Definition split_at (b : box) (k : nat) : option (box * box) :=
  match nth k b None with
  | Some (lo, hi) => let m := ((lo + hi) / 2)%Z in Some (upd b k (Some (lo, m)), upd b k (Some (m, hi)))
  | None => None
  end.
Fixpoint check (test : itv -> bool) (e : expr) (depth : nat) (k : nat) (b : box) : bool :=
  if test (ieval b e) then true else
  match depth with
  | O => false
  | S d =>
      match split_at b k with
      | Some (b1, b2) => let k' := if Nat.ltb (S k) (length b) then S k else O in
                         if check test e d k' b1 then check test e d k' b2 else false
      | None => false
      end
  end.
Lemma split_ok b k env b1 b2 : in_box b env -> split_at b k = Some (b1, b2) -> in_box b1 env \/ in_box b2 env.
Proof.
  unfold split_at. intros H. destruct (nth k b None) as [[lo hi]|] eqn:E; [|discriminate].
  set (m := ((lo + hi) / 2)%Z). cbv zeta. intros K. injection K as <- <-.
  pose proof (in_box_nth b env k H) as Hk. rewrite E in Hk. simpl in Hk.
  assert (U : forall i, inside i (nth k env 0) -> in_box (upd b k i) env).
  { clear Hk E m. revert k. induction H; intros k i Hi; destruct k; simpl; try constructor; auto.
    apply IHForall2; auto. }
  destruct (Rle_dec (nth k env 0) (toR m)); [left|right]; apply U; simpl; lra.
Qed.
Theorem check_ok test (P : R -> Prop) e :
  (forall i x, inside i x -> test i = true -> P x) ->
  forall depth k b env, check test e depth k b = true -> in_box b env -> P (eval env e).
Proof.
  intros HT. induction depth; intros k b env H Hb; simpl in H.
  - destruct (test (ieval b e)) eqn:E; [|discriminate]. eapply HT; eauto. apply ieval_ok; auto.
  - destruct (test (ieval b e)) eqn:E; [eapply HT; eauto; apply ieval_ok; auto|].
    destruct (split_at b k) as [[b1 b2]|] eqn:S; [|discriminate].
    match type of H with (if ?c then _ else _) = _ => destruct c eqn:C1; [|discriminate] end.
    destruct (split_ok _ _ _ _ _ Hb S) as [B|B]; [exact (IHdepth _ _ _ C1 B)|exact (IHdepth _ _ _ H B)].
Qed.
Lemma ipos_P i x : inside i x -> ipos i = true -> 0 < x.
Proof. destruct i as [[a b]|]; simpl; [|discriminate]. intros H E. apply Z.ltb_lt, toR_lt in E. rewrite toR_0 in E. lra. Qed.
Lemma inonneg_P i x : inside i x -> inonneg i = true -> 0 <= x.
Proof. destruct i as [[a b]|]; simpl; [|discriminate]. intros H E. apply Z.leb_le, toR_le in E. rewrite toR_0 in E. lra. Qed.

Definition mkbox (l : list (Q * Q)) : box :=
  map (fun p => match icst (fst p), icst (snd p) with Some (a, _), Some (_, b) => Some (a, b) | _, _ => None end) l.
Lemma mkbox_ok l env : Forall2 (fun p x => Q2R (fst p) <= x <= Q2R (snd p)) l env -> in_box (mkbox l) env.
Proof.
  induction 1; simpl; constructor; auto.
  pose proof (icst_ok (fst x)) as H1. pose proof (icst_ok (snd x)) as H2. simpl in *. lra.
Qed.
Theorem check_pos l env e depth : Forall2 (fun p x => Q2R (fst p) <= x <= Q2R (snd p)) l env ->
  check ipos e depth 0 (mkbox l) = true -> 0 < eval env e.
Proof. intros H C. eapply (check_ok ipos (fun x => 0 < x)); eauto using ipos_P, mkbox_ok. Qed.
Theorem check_nonneg l env e depth : Forall2 (fun p x => Q2R (fst p) <= x <= Q2R (snd p)) l env ->
  check inonneg e depth 0 (mkbox l) = true -> 0 <= eval env e.
Proof. intros H C. eapply (check_ok inonneg (fun x => 0 <= x)); eauto using inonneg_P, mkbox_ok. Qed.

(** ** Reification: [itv d] proves a closed inequality, [itv_on (x, lo, hi) d] one with the
    variable [x] known (by lra) to lie between the rationals [lo] and [hi]; [d] bisections. *)
Ltac env_find x env :=
  lazymatch env with
  | (?y :: ?t)%list => lazymatch x with y => constr:(O) | _ => let n := env_find x t in constr:(S n) end
  end.
Ltac reify env e :=
  lazymatch e with
  | (?a + ?b)%R => let x := reify env a in let y := reify env b in constr:(EAdd x y)
  | (?a - ?b)%R => let x := reify env a in let y := reify env b in constr:(ESub x y)
  | (?a * ?b)%R => let x := reify env a in let y := reify env b in constr:(EMul x y)
  | (?a / ?b)%R => let x := reify env a in let y := reify env b in constr:(EDiv x y)
  | (- ?a)%R => let x := reify env a in constr:(EOpp x)
  | (/ ?a)%R => let x := reify env a in constr:(EInv x)
  | sqrt ?a => let x := reify env a in constr:(ESqrt x)
  | exp ?a => let x := reify env a in constr:(EExp x)
  | ln ?a => let x := reify env a in constr:(ELn x)
  | Rabs ?a => let x := reify env a in constr:(EAbs x)
  | Rpower ?a ?b => let x := reify env a in let y := reify env b in constr:(EExp (EMul y (ELn x)))
  | (?a ^ ?n)%R => let x := reify env a in constr:(EPow x n)
  | Q2R ?q => constr:(ECst q)
  | IZR ?z => constr:(ECst (inject_Z z))
  | R0 => constr:(ECst (inject_Z 0))
  | R1 => constr:(ECst (inject_Z 1))
  | ?x => let n := env_find x env in constr:(EVar n)
  end.
Lemma sub_lt a b : (0 < b - a)%R -> (a < b)%R. Proof. lra. Qed.
Lemma sub_le a b : (0 <= b - a)%R -> (a <= b)%R. Proof. lra. Qed.
Ltac itv_core env bx d :=
  lazymatch goal with
  | |- (?a < ?b)%R => apply sub_lt
  | |- (?a <= ?b)%R => apply sub_le
  | |- (?a > ?b)%R => apply sub_lt
  | |- (?a >= ?b)%R => apply Rle_ge, sub_le
  end;
  lazymatch goal with
  | |- (0 < ?e)%R => let r := reify env e in
       let H := fresh in
       assert (H : (0 < eval env r)%R);
       [apply (check_pos bx env r d); [|vm_compute; reflexivity]
       |cbn [eval nth] in H; unfold Rpower; rewrite ?Q2R_Z in H; exact H]
  | |- (0 <= ?e)%R => let r := reify env e in
       let H := fresh in
       assert (H : (0 <= eval env r)%R);
       [apply (check_nonneg bx env r d); [|vm_compute; reflexivity]
       |cbn [eval nth] in H; unfold Rpower; rewrite ?Q2R_Z in H; exact H]
  end.
Ltac itv_side := repeat (apply Forall2_cons || apply Forall2_nil); cbn [fst snd]; try (unfold Q2R; simpl; lra).
Ltac itv d := itv_core (@nil R) (@nil (Q * Q)) d; itv_side.
Ltac itv1 x lo hi d := itv_core (cons x nil) (cons (lo, hi) nil) d; itv_side.
Ltac itv2 x lo hi y lo2 hi2 d := itv_core (cons x (cons y nil)) (cons (lo, hi) (cons (lo2, hi2) nil)) d; itv_side.

Example itv_test_1 : (14.16 < ln 10000000)%R. Proof. itv 0%nat. Qed.
Example itv_test_2 : (Rpower 2 0.5 < 1.4142136)%R. Proof. itv 0%nat. Qed.
Example itv_test_3 x : (1 <= x <= 10)%R -> (ln x < x)%R. Proof. intros. itv1 x 1%Q 10%Q 6%nat. Qed.
