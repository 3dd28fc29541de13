(** Final theorems: the pipeline equations whose diameter is found by iteration (C48). *)
From Coq Require Import Reals Lra Lia QArith Qreals List String Bool.
From Coquelicot Require Import Rcomplements.
From Verif Require Import Base Model_Real Proofs_Real Proofs_Ln Model_Compressible Properties_Pipeline.
Import ListNotations.
Open Scope R_scope.

(** all modes but the diameter *)
Definition solves_explicit (F : five) (L D P1 P2 Q : R) : Prop :=
  F (Some L) (Some D) (Some P1) (Some P2) None = Ok Q /\
  F (Some L) (Some D) None (Some P2) (Some Q) = Ok P1 /\
  F (Some L) (Some D) (Some P1) None (Some Q) = Ok P2 /\
  F None (Some D) (Some P1) (Some P2) (Some Q) = Ok L.
(** what is asked of the root finder: a returned point has a residual of at most [tol] *)
Definition finds_roots (secant : (R -> result R) -> R -> result R) (tol : R) : Prop :=
  forall f x0 x, secant f x0 = Ok x -> exists y, f x = Ok y /\ Rabs y <= tol.
(** a diameter returned for a flow gives that flow back, up to the tolerance of the root finder *)
Definition diameter_sound (F : five) (tol : R) : Prop := forall L P1 P2 Q D,
  F (Some L) None (Some P1) (Some P2) (Some Q) = Ok D ->
  exists Q', F (Some L) (Some D) (Some P1) (Some P2) None = Ok Q' /\ Rabs (Q - Q') <= tol.
(** and with exact roots it is the one diameter having that flow *)
Definition diameter_unique (F : five) : Prop := forall L P1 P2 D D' Q, 0 < L -> 0 <= P2 < P1 -> 0 < D ->
  F (Some L) (Some D) (Some P1) (Some P2) None = Ok Q ->
  F (Some L) None (Some P1) (Some P2) (Some Q) = Ok D' -> D' = D.

(** the published equations *)
Definition spitzglass_high_flow SG Tavg Ts Ps Zavg E L D P1 P2 : R :=
  125.106 * E * (Ts / Ps) * Rpower D 2.5 * sqrt ((P1 ^ 2 - P2 ^ 2) / (L * SG * Tavg * Zavg * (1 + 0.09144 / D + 1.181102362204724409448818897637795275591 * D))).
Definition spitzglass_low_flow SG Tavg Ts Ps Zavg E L D P1 P2 : R :=
  125.106 * E * (Ts / Ps) * Rpower D 2.5 * sqrt (2 * (P1 - P2) * (Ps + 1210) / (L * SG * Tavg * Zavg * (1 + 0.09144 / D + 1.181102362204724409448818897637795275591 * D))).
Definition oliphant_flow SG Tavg Ts Ps L D P1 P2 : R :=
  84.587176139918568651410168968141078948974609375 * (Ts / Ps) * (Rpower D 2.5 + 0.2091519350460528670065940559652517549694 * D ^ 3) * sqrt ((P1 ^ 2 - P2 ^ 2) / (L * SG * Tavg)).

Lemma pow25_sq D : 0 < D -> Rpower D 2.5 ^ 2 = D ^ 5.
Proof. intros H. rewrite <- !Rpower_pow by (auto; apply exp_pos). rewrite Rpower_mult. f_equal. cbn [INR]. lits. lra. Qed.

(** the squared flow is a rational function of the diameter *)
Definition gfun (c3 c4 D : R) : R := D ^ 6 / (D ^ 2 * c3 + D + c4).
Lemma gfun_lt c3 c4 D D' : 0 < c3 -> 0 < c4 -> 0 < D -> D < D' -> gfun c3 c4 D < gfun c3 c4 D'.
Proof.
  intros H3 H4 HD HL. unfold gfun.
  replace (D ^ 6 / (D ^ 2 * c3 + D + c4)) with (/ (c3 / D ^ 4 + 1 / D ^ 5 + c4 / D ^ 6)) by (field; assert (0 < c3 * D ^ 2 + D + c4) by posr; splits; try lra).
  replace (D' ^ 6 / (D' ^ 2 * c3 + D' + c4)) with (/ (c3 / D' ^ 4 + 1 / D' ^ 5 + c4 / D' ^ 6)) by (field; assert (0 < c3 * D' ^ 2 + D' + c4) by posr; splits; try lra).
  assert (P : forall n, (0 < n)%nat -> D ^ n < D' ^ n).
  { induction n as [|n IH]; [lia|]. intros _. destruct n. cbn; lra. cbn [pow] in *. specialize (IH ltac:(lia)).
    apply Rmult_gt_0_lt_compat; try lra. apply Rlt_gt, Rmult_lt_0_compat; [lra|apply pow_lt; lra]. }
  assert (0 < D') by lra.
  apply Rinv_lt_contravar. posr.
  apply Rplus_lt_compat; [apply Rplus_lt_compat|]; apply div_lt_l; try lra; try (apply pow_lt; lra); apply P; lia.
Qed.
Lemma flow_sq_inj a b : 0 <= a -> 0 <= b -> a ^ 2 = b ^ 2 -> a = b.
Proof. intros. rewrite <- (sqrt_pow2 a), <- (sqrt_pow2 b) by auto. congruence. Qed.
Lemma sh_sq K X Y c3 c4 D : 0 < D -> 0 < c3 -> 0 < c4 -> 0 <= X -> 0 < Y ->
  (K * Rpower D 2.5 * sqrt (X / (Y * (1 + c4 / D + c3 * D)))) ^ 2 = K ^ 2 * X / Y * gfun c3 c4 D.
Proof.
  intros HD H3 H4 HX HY. assert (0 < c4 / D) by posr. assert (0 < c3 * D) by posr.
  rewrite Rpow_mult_distr, Rpow_mult_distr, pow2_sqrt, pow25_sq by (auto; apply Rdiv_le_0_compat; auto; apply Rmult_lt_0_compat; lra).
  unfold gfun. field. assert (0 < D ^ 2 * c3) by posr. splits; try lra.
Qed.

Lemma high_sq SG Tavg Ts Ps Zavg E L D P1 P2 : 0 < SG -> 0 < Tavg -> 0 < Ts -> 0 < Ps -> 0 < Zavg -> 0 < E -> 0 < L -> 0 < D -> 0 <= P2 < P1 ->
  spitzglass_high_flow SG Tavg Ts Ps Zavg E L D P1 P2 ^ 2
  = (125.106 * E * (Ts / Ps)) ^ 2 * (P1 ^ 2 - P2 ^ 2) / (L * SG * Tavg * Zavg) * gfun 1.181102362204724409448818897637795275591 0.09144 D.
Proof. intros. unfold spitzglass_high_flow. apply sh_sq; try posr. Qed.
Lemma low_sq SG Tavg Ts Ps Zavg E L D P1 P2 : 0 < SG -> 0 < Tavg -> 0 < Ts -> 0 < Ps -> 0 < Zavg -> 0 < E -> 0 < L -> 0 < D -> P2 < P1 ->
  spitzglass_low_flow SG Tavg Ts Ps Zavg E L D P1 P2 ^ 2
  = (125.106 * E * (Ts / Ps)) ^ 2 * (2 * (P1 - P2) * (Ps + 1210)) / (L * SG * Tavg * Zavg) * gfun 1.181102362204724409448818897637795275591 0.09144 D.
Proof. intros. unfold spitzglass_low_flow. apply sh_sq; posr. Qed.

Theorem C48_Spitzglass_high_diameter : forall secant tol SG Tavg Ts Ps Zavg E, finds_roots secant tol ->
  diameter_sound (fun L D P1 P2 Q => Spitzglass_high secant SG Tavg L D P1 P2 Q Ts Ps Zavg E) tol.
Proof.
  intros secant tol SG Tavg Ts Ps Zavg E HC L P1 P2 Q D H. destruct (HC _ _ _ H) as (y & E1 & E2).
  unfold _to_solve_Spitzglass_high in E1.
  match type of E1 with bind ?m _ = _ => destruct m as [a|] eqn:E0; [|discriminate] end.
  exists a. split; [exact E0|]. injection E1 as <-. exact E2.
Qed.
Theorem C48_Spitzglass_low_diameter : forall secant tol SG Tavg Ts Ps Zavg E, finds_roots secant tol ->
  diameter_sound (fun L D P1 P2 Q => Spitzglass_low secant SG Tavg L D P1 P2 Q Ts Ps Zavg E) tol.
Proof.
  intros secant tol SG Tavg Ts Ps Zavg E HC L P1 P2 Q D H. destruct (HC _ _ _ H) as (y & E1 & E2).
  unfold _to_solve_Spitzglass_low in E1.
  match type of E1 with bind ?m _ = _ => destruct m as [a|] eqn:E0; [|discriminate] end.
  exists a. split; [exact E0|]. injection E1 as <-. exact E2.
Qed.
Theorem C48_Oliphant_diameter : forall secant tol SG Tavg Ts Ps Zavg E, finds_roots secant tol ->
  diameter_sound (fun L D P1 P2 Q => Oliphant secant SG Tavg L D P1 P2 Q Ts Ps Zavg E) tol.
Proof.
  intros secant tol SG Tavg Ts Ps Zavg E HC L P1 P2 Q D H. destruct (HC _ _ _ H) as (y & E1 & E2).
  unfold _to_solve_Oliphant in E1.
  match type of E1 with bind ?m _ = _ => destruct m as [a|] eqn:E0; [|discriminate] end.
  exists a. split; [exact E0|]. injection E1 as <-. exact E2.
Qed.
Theorem C48_Spitzglass_high_arguments : forall secant SG Tavg Ts Ps Zavg E,
  checks_arguments (fun L D P1 P2 Q => Spitzglass_high secant SG Tavg L D P1 P2 Q Ts Ps Zavg E).
Proof. intros secant SG Tavg Ts Ps Zavg E [L|] [D|] [P1|] [P2|] [Q|] H; try reflexivity; cbn in H; contradiction. Qed.
Theorem C48_Spitzglass_low_arguments : forall secant SG Tavg Ts Ps Zavg E,
  checks_arguments (fun L D P1 P2 Q => Spitzglass_low secant SG Tavg L D P1 P2 Q Ts Ps Zavg E).
Proof. intros secant SG Tavg Ts Ps Zavg E [L|] [D|] [P1|] [P2|] [Q|] H; try reflexivity; cbn in H; contradiction. Qed.
Theorem C48_Oliphant_arguments : forall secant SG Tavg Ts Ps Zavg E,
  checks_arguments (fun L D P1 P2 Q => Oliphant secant SG Tavg L D P1 P2 Q Ts Ps Zavg E).
Proof. intros secant SG Tavg Ts Ps Zavg E [L|] [D|] [P1|] [P2|] [Q|] H; try reflexivity; cbn in H; contradiction. Qed.

(** ** The explicit modes *)
Lemma psqrt_sq x p : 0 <= p -> x = p ^ 2 -> psqrt x = Ok p.
Proof. intros H ->. rewrite psqrt_ok by apply pow2_ge_0. f_equal. apply sqrt_pow2; auto. Qed.
Theorem C48_Spitzglass_high_solves : forall secant SG Tavg Ts Ps Zavg E L D P1 P2,
  0 < SG -> 0 < Tavg -> 0 < Ts -> 0 < Ps -> 0 < Zavg -> 0 < E -> 0 < L -> 0 < D -> 0 <= P2 < P1 ->
  solves_explicit (fun L D P1 P2 Q => Spitzglass_high secant SG Tavg L D P1 P2 Q Ts Ps Zavg E) L D P1 P2
    (spitzglass_high_flow SG Tavg Ts Ps Zavg E L D P1 P2).
Proof.
  intros. assert (K := dsq P1 P2 ltac:(lra) ltac:(lra)).
  assert (G := high_sq SG Tavg Ts Ps Zavg E L D P1 P2 ltac:(auto) ltac:(auto) ltac:(auto) ltac:(auto) ltac:(auto) ltac:(auto) ltac:(auto) ltac:(auto) ltac:(auto)).
  assert (HQ : 0 < spitzglass_high_flow SG Tavg Ts Ps Zavg E L D P1 P2) by (unfold spitzglass_high_flow; posr).
  unfold solves_explicit, Spitzglass_high. splits.
  - mrun. f_equal. unfold spitzglass_high_flow.
    replace (L * SG * Zavg * Tavg) with (L * SG * Tavg * Zavg) by ring. lits. field. lra.
  - remember (spitzglass_high_flow SG Tavg Ts Ps Zavg E L D P1 P2) as Q. mb. apply psqrt_sq; [lra|]. rewrite G. unfold gfun. lits.
    field. assert (0 < D ^ 2) by posr. splits; lra.
  - remember (spitzglass_high_flow SG Tavg Ts Ps Zavg E L D P1 P2) as Q. mb. apply psqrt_sq; [lra|]. rewrite G. unfold gfun. lits.
    field. assert (0 < D ^ 2) by posr. splits; lra.
  - remember (spitzglass_high_flow SG Tavg Ts Ps Zavg E L D P1 P2) as Q. mrun. f_equal. rewrite G. unfold gfun. lits.
    field. assert (0 < D ^ 2) by posr. splits; lra.
Qed.
Theorem C48_Spitzglass_low_solves : forall secant SG Tavg Ts Ps Zavg E L D P1 P2,
  0 < SG -> 0 < Tavg -> 0 < Ts -> 0 < Ps -> 0 < Zavg -> 0 < E -> 0 < L -> 0 < D -> P2 < P1 ->
  solves_explicit (fun L D P1 P2 Q => Spitzglass_low secant SG Tavg L D P1 P2 Q Ts Ps Zavg E) L D P1 P2
    (spitzglass_low_flow SG Tavg Ts Ps Zavg E L D P1 P2).
Proof.
  intros. assert (K : 0 < P1 - P2) by lra.
  assert (G := low_sq SG Tavg Ts Ps Zavg E L D P1 P2 ltac:(auto) ltac:(auto) ltac:(auto) ltac:(auto) ltac:(auto) ltac:(auto) ltac:(auto) ltac:(auto) ltac:(auto)).
  assert (HQ : 0 < spitzglass_low_flow SG Tavg Ts Ps Zavg E L D P1 P2) by (unfold spitzglass_low_flow; posr).
  unfold solves_explicit, Spitzglass_low. splits.
  - mrun. f_equal. unfold spitzglass_low_flow.
    replace ((P1 - P2) * 2 * (Ps + 1210)) with (2 * (P1 - P2) * (Ps + 1210)) by ring. lits. field. lra.
  - remember (spitzglass_low_flow SG Tavg Ts Ps Zavg E L D P1 P2) as Q. mrun. f_equal. rewrite G. unfold gfun. lits.
    field. assert (0 < D ^ 2) by posr. splits; lra.
  - remember (spitzglass_low_flow SG Tavg Ts Ps Zavg E L D P1 P2) as Q. mrun. f_equal. rewrite G. unfold gfun. lits.
    field. assert (0 < D ^ 2) by posr. splits; lra.
  - remember (spitzglass_low_flow SG Tavg Ts Ps Zavg E L D P1 P2) as Q. mrun. f_equal. rewrite G. unfold gfun. lits.
    field. assert (0 < D ^ 2) by posr. splits; lra.
Qed.
Theorem C48_Oliphant_solves : forall secant SG Tavg Ts Ps Zavg E L D P1 P2,
  0 < SG -> 0 < Tavg -> 0 < Ts -> 0 < Ps -> 0 < L -> 0 < D -> 0 <= P2 < P1 ->
  solves_explicit (fun L D P1 P2 Q => Oliphant secant SG Tavg L D P1 P2 Q Ts Ps Zavg E) L D P1 P2
    (oliphant_flow SG Tavg Ts Ps L D P1 P2).
Proof.
  intros. assert (K := dsq P1 P2 ltac:(lra) ltac:(lra)).
  assert (HQ : 0 < oliphant_flow SG Tavg Ts Ps L D P1 P2) by (unfold oliphant_flow; posr).
  assert (G : oliphant_flow SG Tavg Ts Ps L D P1 P2 ^ 2 = (84.587176139918568651410168968141078948974609375 * (Ts / Ps) * (Rpower D 2.5 + 0.2091519350460528670065940559652517549694 * D ^ 3)) ^ 2
     * (P1 ^ 2 - P2 ^ 2) / (L * SG * Tavg)).
  { unfold oliphant_flow. rewrite Rpow_mult_distr, pow2_sqrt by posr. field. splits; lra. }
  assert (0 < Rpower D 2.5) by apply exp_pos. assert (0 < D ^ 3) by posr.
  unfold solves_explicit, Oliphant. splits.
  - mrun. f_equal. unfold oliphant_flow. field. lra.
  - remember (oliphant_flow SG Tavg Ts Ps L D P1 P2) as Q. mb. apply psqrt_sq; [lra|]. rewrite G. set (p := Rpower D 2.5) in *. lits. field. splits; lra.
  - remember (oliphant_flow SG Tavg Ts Ps L D P1 P2) as Q. mb. apply psqrt_sq; [lra|]. rewrite G. set (p := Rpower D 2.5) in *. lits. field. splits; lra.
  - remember (oliphant_flow SG Tavg Ts Ps L D P1 P2) as Q. mrun. f_equal. rewrite G. set (p := Rpower D 2.5) in *. lits. field. splits; lra.
Qed.

(** ** The diameter is determined by the flow *)
Lemma gfun_inj c3 c4 D D' : 0 < c3 -> 0 < c4 -> 0 < D -> 0 < D' -> gfun c3 c4 D = gfun c3 c4 D' -> D = D'.
Proof.
  intros. destruct (Rtotal_order D D') as [L|[L|L]]; auto.
  - pose proof (gfun_lt c3 c4 D D'); lra.
  - pose proof (gfun_lt c3 c4 D' D); lra.
Qed.
Lemma ppow_pos_arg x y v : y <> 0 -> ppow x y = Ok v -> 0 <= x.
Proof.
  intros Hy H. unfold ppow in H. destruct (Rltb 0 x) eqn:E; [apply Rltb_true in E; lra|].
  destruct (Reqb x 0) eqn:E1; [apply Reqb_true in E1; lra|discriminate].
Qed.
Lemma pdiv_ok_inv x y v : pdiv x y = Ok v -> y <> 0.
Proof. intros H ->. rewrite pdiv_0 in H. discriminate. Qed.
Lemma abs0 a b : Rabs (a - b) <= 0 -> b = a.
Proof. intros H. destruct (Req_dec (a - b) 0) as [E|E]; [lra|]. apply Rabs_pos_lt in E. lra. Qed.
Lemma cancel_l k a b : 0 < k -> k * a = k * b -> a = b.
Proof. intros. apply Rmult_eq_reg_l with k; lra. Qed.

Theorem C48_Spitzglass_high_unique : forall secant SG Tavg Ts Ps Zavg E, finds_roots secant 0 ->
  0 < SG -> 0 < Tavg -> 0 < Ts -> 0 < Ps -> 0 < Zavg -> 0 < E ->
  diameter_unique (fun L D P1 P2 Q => Spitzglass_high secant SG Tavg L D P1 P2 Q Ts Ps Zavg E).
Proof.
  intros secant SG Tavg Ts Ps Zavg E HC H1 H2 H3 H4 H5 H6 L P1 P2 D D' Q HL HP HD EQ ED.
  destruct (C48_Spitzglass_high_diameter _ _ SG Tavg Ts Ps Zavg E HC _ _ _ _ _ ED) as (Q' & EQ' & A). apply abs0 in A. subst Q'.
  assert (HD' : 0 < D').
  { unfold Spitzglass_high in EQ'. cbv zeta in EQ'. inv_bind EQ'. inv_bind EQ'. inv_bind EQ'. apply pdiv_ok_inv in E2. apply ppow_pos_arg in E1; [lra|]. lits; lra. }
  assert (K := dsq P1 P2 ltac:(lra) ltac:(lra)).
  destruct (C48_Spitzglass_high_solves secant SG Tavg Ts Ps Zavg E L D P1 P2) as [S1 _]; auto.
  destruct (C48_Spitzglass_high_solves secant SG Tavg Ts Ps Zavg E L D' P1 P2) as [S2 _]; auto.
  rewrite EQ in S1. rewrite EQ' in S2. assert (F : spitzglass_high_flow SG Tavg Ts Ps Zavg E L D' P1 P2 = spitzglass_high_flow SG Tavg Ts Ps Zavg E L D P1 P2) by congruence.
  apply (f_equal (fun x => x ^ 2)) in F. rewrite !high_sq in F by auto. apply cancel_l in F; [|posr]. eapply gfun_inj; [| | | |exact F]; auto; lits; lra.
Qed.
Theorem C48_Spitzglass_low_unique : forall secant SG Tavg Ts Ps Zavg E, finds_roots secant 0 ->
  0 < SG -> 0 < Tavg -> 0 < Ts -> 0 < Ps -> 0 < Zavg -> 0 < E ->
  diameter_unique (fun L D P1 P2 Q => Spitzglass_low secant SG Tavg L D P1 P2 Q Ts Ps Zavg E).
Proof.
  intros secant SG Tavg Ts Ps Zavg E HC H1 H2 H3 H4 H5 H6 L P1 P2 D D' Q HL HP HD EQ ED.
  destruct (C48_Spitzglass_low_diameter _ _ SG Tavg Ts Ps Zavg E HC _ _ _ _ _ ED) as (Q' & EQ' & A). apply abs0 in A. subst Q'.
  assert (HD' : 0 < D').
  { unfold Spitzglass_low in EQ'. cbv zeta in EQ'. inv_bind EQ'. inv_bind EQ'. inv_bind EQ'. apply pdiv_ok_inv in E2. apply ppow_pos_arg in E1; [lra|]. lits; lra. }
  assert (K : 0 < P1 - P2) by lra.
  destruct (C48_Spitzglass_low_solves secant SG Tavg Ts Ps Zavg E L D P1 P2) as [S1 _]; auto; try lra.
  destruct (C48_Spitzglass_low_solves secant SG Tavg Ts Ps Zavg E L D' P1 P2) as [S2 _]; auto; try lra.
  rewrite EQ in S1. rewrite EQ' in S2. assert (F : spitzglass_low_flow SG Tavg Ts Ps Zavg E L D' P1 P2 = spitzglass_low_flow SG Tavg Ts Ps Zavg E L D P1 P2) by congruence.
  apply (f_equal (fun x => x ^ 2)) in F. rewrite !low_sq in F by (auto; lra). apply cancel_l in F; [|posr]. eapply gfun_inj; [| | | |exact F]; auto; lits; lra.
Qed.
Theorem C48_Oliphant_unique : forall secant SG Tavg Ts Ps Zavg E, finds_roots secant 0 ->
  0 < SG -> 0 < Tavg -> 0 < Ts -> 0 < Ps ->
  diameter_unique (fun L D P1 P2 Q => Oliphant secant SG Tavg L D P1 P2 Q Ts Ps Zavg E).
Proof.
  intros secant SG Tavg Ts Ps Zavg E HC H1 H2 H3 H4 L P1 P2 D D' Q HL HP HD EQ ED.
  destruct (C48_Oliphant_diameter _ _ SG Tavg Ts Ps Zavg E HC _ _ _ _ _ ED) as (Q' & EQ' & A). apply abs0 in A. subst Q'.
  assert (K := dsq P1 P2 ltac:(lra) ltac:(lra)).
  destruct (C48_Oliphant_solves secant SG Tavg Ts Ps Zavg E L D P1 P2) as [S1 _]; auto.
  rewrite EQ in S1. assert (EF : Q = oliphant_flow SG Tavg Ts Ps L D P1 P2) by congruence.
  assert (S : 0 < sqrt ((P1 ^ 2 - P2 ^ 2) / (L * SG * Tavg))) by posr.
  assert (HD' : 0 < D').
  { unfold Oliphant in EQ'. cbv zeta in EQ'. inv_bind EQ'. assert (N : 0 <= D') by (eapply ppow_pos_arg; [|exact E0]; lits; lra). destruct N as [N|N]; auto. subst D'. exfalso.
    rewrite ppow_0 in E0 by (lits; lra). injection E0 as <-. rewrite pdiv_ok in EQ' by lra. cbn [bind] in EQ'.
    rewrite pdiv_ok in EQ' by posr. cbn [bind] in EQ'. rewrite psqrt_ok in EQ' by posr. cbn [bind] in EQ'. injection EQ' as EQ'.
    assert (0 < Q) by (rewrite EF; unfold oliphant_flow; posr).
    rewrite <- EQ' in H. replace (0 + _) with 0 in H by (lits; ring). lits. unfold Rdiv in H. rewrite Rmult_0_r, !Rmult_0_l in H. lra. }
  destruct (C48_Oliphant_solves secant SG Tavg Ts Ps Zavg E L D' P1 P2) as [S2 _]; auto.
  rewrite EQ' in S2. assert (F : oliphant_flow SG Tavg Ts Ps L D' P1 P2 = oliphant_flow SG Tavg Ts Ps L D P1 P2) by congruence.
  unfold oliphant_flow in F. apply Rmult_eq_reg_r in F; [|lra]. apply cancel_l in F; [|posr].
  assert (MM : forall a b, 0 < a -> a < b -> Rpower a 2.5 + 0.2091519350460528670065940559652517549694 * a ^ 3 < Rpower b 2.5 + 0.2091519350460528670065940559652517549694 * b ^ 3).
  { intros a b Ha Hab. apply Rplus_lt_compat. apply Rpower_lt_l; auto; lits; lra. apply Rmult_lt_compat_l; [lits; lra|].
    assert (a * a < b * b) by (apply Rmult_gt_0_lt_compat; lra). cbn [pow]. rewrite !Rmult_1_r. apply Rmult_gt_0_lt_compat; try lra. apply Rlt_gt, Rmult_lt_0_compat; lra. }
  destruct (Rtotal_order D' D) as [LT|[LT|LT]]; auto; [pose proof (MM D' D HD' LT)|pose proof (MM D D' HD LT)]; lra.
Qed.

(** ** Requests beyond the flow into a vacuum *)
Theorem C48_Spitzglass_high_vacuum : forall secant SG Tavg Ts Ps Zavg E L D P1 Q,
  0 < SG -> 0 < Tavg -> 0 < Ts -> 0 < Ps -> 0 < Zavg -> 0 < E -> 0 < L -> 0 < D -> 0 < P1 ->
  spitzglass_high_flow SG Tavg Ts Ps Zavg E L D P1 0 < Q ->
  Spitzglass_high secant SG Tavg (Some L) (Some D) (Some P1) None (Some Q) Ts Ps Zavg E = Err ValueError.
Proof.
  intros secant SG Tavg Ts Ps Zavg E L D P1 Q. intros. assert (K := dsq P1 0 ltac:(lra) ltac:(lra)).
  assert (HF : 0 < spitzglass_high_flow SG Tavg Ts Ps Zavg E L D P1 0) by (unfold spitzglass_high_flow; posr).
  assert (G := high_sq SG Tavg Ts Ps Zavg E L D P1 0 ltac:(auto) ltac:(auto) ltac:(auto) ltac:(auto) ltac:(auto) ltac:(auto) ltac:(auto) ltac:(auto) ltac:(lra)).
  assert (S : spitzglass_high_flow SG Tavg Ts Ps Zavg E L D P1 0 ^ 2 < Q ^ 2) by (cbn [pow]; rewrite !Rmult_1_r; apply Rmult_gt_0_lt_compat; lra).
  rewrite G in S. unfold Spitzglass_high. mb. unfold psqrt.
  match goal with |- (if Rltb ?x 0 then _ else _) = _ => assert (N : x < 0); [|apply Rltb_true in N; rewrite N; reflexivity] end.
  set (U := (125.106 * E * (Ts / Ps)) ^ 2 / (L * SG * Tavg * Zavg) * gfun 1.181102362204724409448818897637795275591 0.09144 D).
  assert (HU : 0 < U) by (unfold U, gfun; posr).
  assert (EX : forall q, (D ^ 6 * E ^ 2 * P1 ^ 2 * Ts ^ 2 * 125.106 ^ 2 - D ^ 2 * L * Ps ^ 2 * q * SG * Tavg * Zavg * 1.181102362204724409448818897637795275591 -
     D * L * Ps ^ 2 * q * SG * Tavg * Zavg - L * Ps ^ 2 * q * SG * Tavg * Zavg * 0.09144) / (D ^ 6 * E ^ 2 * Ts ^ 2 * 125.106 ^ 2) = P1 ^ 2 - q / U).
  { intros q. unfold U, gfun. lits. field. assert (0 < D ^ 2) by posr. splits; lra. }
  rewrite EX.
  assert (P1 ^ 2 * U < Q ^ 2). { eapply Rle_lt_trans; [|exact S]. right. unfold U. field. splits; lra. }
  assert (P1 ^ 2 < Q ^ 2 / U); [|lra]. apply Rmult_lt_reg_r with U; auto. unfold Rdiv. rewrite Rmult_assoc, Rinv_l, Rmult_1_r by lra. auto.
Qed.
(** the low-pressure equation has no root in that mode: it answers with a negative absolute pressure instead *)
Theorem C48_Spitzglass_low_vacuum_refuted : forall secant SG Tavg Ts Ps Zavg E L D P1,
  0 < SG -> 0 < Tavg -> 0 < Ts -> 0 < Ps -> 0 < Zavg -> 0 < E -> 0 < L -> 0 < D -> 0 < P1 ->
  exists Q, spitzglass_low_flow SG Tavg Ts Ps Zavg E L D P1 0 < Q /\
  Spitzglass_low secant SG Tavg (Some L) (Some D) (Some P1) None (Some Q) Ts Ps Zavg E = Ok (- P1).
Proof.
  intros secant SG Tavg Ts Ps Zavg E L D P1. intros. exists (spitzglass_low_flow SG Tavg Ts Ps Zavg E L D P1 (- P1)). split.
  - unfold spitzglass_low_flow. apply Rmult_lt_compat_l; [posr|]. apply sqrt_lt_1; [posr|posr|]. apply div_lt_r; [posr|].
    apply Rmult_lt_compat_r; lra.
  - apply C48_Spitzglass_low_solves; auto; lra.
Qed.
(** the efficiency and compressibility arguments of Oliphant are ignored, in every mode *)
Theorem C48_Oliphant_efficiency_refuted : forall secant SG Tavg L D P1 P2 Q Ts Ps Zavg E Zavg' E',

  Oliphant secant SG Tavg L D P1 P2 Q Ts Ps Zavg E = Oliphant secant SG Tavg L D P1 P2 Q Ts Ps Zavg' E'.
Proof.
  intros secant SG Tavg L D P1 P2 Q Ts Ps Zavg E Zavg' E'. unfold Oliphant. destruct L, D, P1, P2, Q; try reflexivity.
Qed.

(** ** Concrete cases *)
Example C48_ex : let F := fun L D P1 P2 Q => Weymouth 0.693 277.15 L D P1 P2 Q 288.7 101325 1 0.92 in
  answers F /\ F None None (Some 9000000) (Some 2000000) (Some 50) = Err ValueError /\
  exists Q, solves F 160000 0.34 9000000 2000000 Q.
Proof.
  intros F. splits.
  - apply C48_Weymouth_answers; lits; lra.
  - reflexivity.
  - eexists. apply C48_Weymouth_solves; lits; lra.
Qed.
(** a root finder that returns its starting point when that is a root, and fails otherwise *)
Definition lucky (f : R -> result R) (x0 : R) : result R := match f x0 with Ok y => if Reqb y 0 then Ok x0 else Err UnconvergedError | Err e => Err e end.
Example C48_ex_lucky : finds_roots lucky 0 /\
  forall SG Tavg Ts Ps Zavg E L P1 P2 Q, Spitzglass_high lucky SG Tavg (Some L) (Some 0.5) (Some P1) (Some P2) None Ts Ps Zavg E = Ok Q ->
    Spitzglass_high lucky SG Tavg (Some L) None (Some P1) (Some P2) (Some Q) Ts Ps Zavg E = Ok 0.5.
Proof.
  split.
  - intros f x0 x H. unfold lucky in H. destruct (f x0) as [y|] eqn:E1; [|discriminate]. destruct (Reqb y 0) eqn:E2; [|discriminate].
    apply Reqb_true in E2. injection H as <-. exists y. split; auto. subst y. rewrite Rabs_R0. lra.
  - intros SG Tavg Ts Ps Zavg E L P1 P2 Q H. unfold Spitzglass_high. cbv zeta. unfold lucky, _to_solve_Spitzglass_high, Spitzglass_high_explicit. cbv zeta.
    unfold Spitzglass_high in H. cbv zeta in H. rewrite H. cbn [bind]. rewrite (proj2 (Reqb_true (Q - Q) 0)) by lra. reflexivity.
Qed.

Print Assumptions C48_Spitzglass_high_diameter.
Print Assumptions C48_Spitzglass_low_diameter.
Print Assumptions C48_Oliphant_diameter.
Print Assumptions C48_Spitzglass_high_arguments.
Print Assumptions C48_Spitzglass_low_arguments.
Print Assumptions C48_Oliphant_arguments.
Print Assumptions C48_Spitzglass_high_solves.
Print Assumptions C48_Spitzglass_low_solves.
Print Assumptions C48_Oliphant_solves.
Print Assumptions C48_Spitzglass_high_unique.
Print Assumptions C48_Spitzglass_low_unique.
Print Assumptions C48_Oliphant_unique.
Print Assumptions C48_Spitzglass_high_vacuum.
Print Assumptions C48_Spitzglass_low_vacuum_refuted.
Print Assumptions C48_Oliphant_efficiency_refuted.
