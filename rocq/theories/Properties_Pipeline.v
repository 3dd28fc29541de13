(** Final theorems: the gas pipeline equations (C48). *)
From Coq Require Import Reals Lra Lia QArith Qreals List String Bool.
From Verif Require Import Base Model_Real Proofs_Real Proofs_Ln Model_Compressible.
Import ListNotations.
Open Scope R_scope.

(** ** What "solves for any one" means *)
(** a five-way function, in the order of its optional arguments L, D, P1, P2, Q *)
Definition five := option R -> option R -> option R -> option R -> option R -> result R.
(** whichever of the five quantities is left out, it is returned *)
Definition solves (F : five) (L D P1 P2 Q : R) : Prop :=
  F (Some L) (Some D) (Some P1) (Some P2) None = Ok Q /\
  F (Some L) None (Some P1) (Some P2) (Some Q) = Ok D /\
  F (Some L) (Some D) None (Some P2) (Some Q) = Ok P1 /\
  F (Some L) (Some D) (Some P1) None (Some Q) = Ok P2 /\
  F None (Some D) (Some P1) (Some P2) (Some Q) = Ok L.
(** every request with positive data is answered by a state having exactly the requested flow; the outlet
    pressure request is refused with ValueError exactly when even a vacuum at the outlet would not give that flow *)
Definition answers (F : five) : Prop := forall Q, 0 < Q ->
  (forall L P1 P2, 0 < L -> 0 <= P2 < P1 -> exists D, 0 < D /\
     F (Some L) None (Some P1) (Some P2) (Some Q) = Ok D /\ F (Some L) (Some D) (Some P1) (Some P2) None = Ok Q) /\
  (forall L D P2, 0 < L -> 0 < D -> 0 <= P2 -> exists P1, P2 < P1 /\
     F (Some L) (Some D) None (Some P2) (Some Q) = Ok P1 /\ F (Some L) (Some D) (Some P1) (Some P2) None = Ok Q) /\
  (forall D P1 P2, 0 < D -> 0 <= P2 < P1 -> exists L, 0 < L /\
     F None (Some D) (Some P1) (Some P2) (Some Q) = Ok L /\ F (Some L) (Some D) (Some P1) (Some P2) None = Ok Q) /\
  (forall L D P1, 0 < L -> 0 < D -> 0 < P1 -> exists Qmax, F (Some L) (Some D) (Some P1) (Some 0) None = Ok Qmax /\
     (Q <= Qmax -> exists P2, 0 <= P2 < P1 /\
        F (Some L) (Some D) (Some P1) None (Some Q) = Ok P2 /\ F (Some L) (Some D) (Some P1) (Some P2) None = Ok Q) /\
     (Qmax < Q -> F (Some L) (Some D) (Some P1) None (Some Q) = Err ValueError)).
(** anything but exactly one omitted quantity is a ValueError *)
Definition missing (l : list (option R)) : nat := List.length (filter (fun o => match o with None => true | _ => false end) l).
Definition checks_arguments (F : five) : Prop := forall L D P1 P2 Q, missing [L; D; P1; P2; Q] <> 1%nat -> F L D P1 P2 Q = Err ValueError.

(** ** The published equations, powers as real powers *)
Definition panhandle_a_flow SG Tavg Ts Ps Zavg E L D P1 P2 : R :=
  158.0205328706957220332831680508433862787 * E * Rpower (Ts / Ps) 1.0788
  * Rpower ((P1 ^ 2 - P2 ^ 2) / (L * Rpower SG 0.8539 * Tavg * Zavg)) 0.5394 * Rpower D 2.6182.
Definition panhandle_b_flow SG Tavg Ts Ps Zavg E L D P1 P2 : R :=
  152.881163429805545862438598586662441906 * E * Rpower (Ts / Ps) 1.02
  * Rpower ((P1 ^ 2 - P2 ^ 2) / (L * Rpower SG 0.961 * Tavg * Zavg)) 0.51 * Rpower D 2.53.
Definition weymouth_flow SG Tavg Ts Ps Zavg E L D P1 P2 : R :=
  137.3295809942512546732179684618143090992 * E * (Ts / Ps)
  * Rpower ((P1 ^ 2 - P2 ^ 2) / (L * SG * Tavg * Zavg)) 0.5 * Rpower D 2.667.
Definition fritzsche_flow SG Tavg Ts Ps Zavg E L D P1 P2 : R :=
  93.50009798751128188757518688244137811221 * E * (Ts / Ps)
  * Rpower ((P1 ^ 2 - P2 ^ 2) / (L * Rpower SG 0.8587 * Tavg * Zavg)) 0.538 * Rpower D 2.69.
Definition muller_flow SG Tavg mu Ts Ps Zavg E L D P1 P2 : R :=
  15.77439908642077352939746374951659525108 * E * (Ts / Ps)
  * Rpower ((P1 ^ 2 - P2 ^ 2) / (L * Tavg * Zavg)) 0.575 * Rpower D 2.725 / (Rpower SG 0.425 * Rpower mu 0.15).
Definition igt_flow SG Tavg mu Ts Ps Zavg E L D P1 P2 : R :=
  24.6241245146140705487530170944393035055 * E * (Ts / Ps)
  * Rpower ((P1 ^ 2 - P2 ^ 2) / (L * Tavg * Zavg)) (5 / 9) * Rpower D (8 / 3) / (Rpower SG (4 / 9) * Rpower mu (1 / 9)).

Lemma dsq P1 P2 : 0 <= P2 -> P2 < P1 -> 0 < P1 ^ 2 - P2 ^ 2.
Proof. intros. assert (0 < (P1 - P2) * (P1 + P2)) by (apply Rmult_lt_0_compat; lra). lra. Qed.
Lemma p1_back P1 P2 x : 0 <= P2 < P1 -> x = P1 ^ 2 - P2 ^ 2 -> psqrt (x + P2 ^ 2) = Ok P1.
Proof.
  intros H ->. replace (P1 ^ 2 - P2 ^ 2 + P2 ^ 2) with (P1 ^ 2) by ring. rewrite psqrt_ok by apply pow2_ge_0.
  f_equal. apply sqrt_pow2; lra.
Qed.
Lemma p2_back P1 P2 x y : 0 <= P2 < P1 -> y = - x -> x = P1 ^ 2 - P2 ^ 2 -> psqrt (y + P1 ^ 2) = Ok P2.
Proof.
  intros H -> ->. replace (- (P1 ^ 2 - P2 ^ 2) + P1 ^ 2) with (P2 ^ 2) by ring. rewrite psqrt_ok by apply pow2_ge_0.
  f_equal. apply sqrt_pow2; lra.
Qed.
Lemma p2_fail P1 x y : y = - x -> P1 ^ 2 < x -> psqrt (y + P1 ^ 2) = Err ValueError.
Proof.
  intros -> H. unfold psqrt. destruct (Rltb (- x + P1 ^ 2) 0) eqn:K; auto. apply Rltb_false in K. lra.
Qed.

(** run all operations but the last *)
Ltac mb := cbv beta zeta; cbn [bind]; repeat (lazymatch goal with |- context [bind ?m _] => mop posr m end; cbn [bind]; cbv beta zeta).
(** common proofs: [flow] the published equation, unfolded by [unf] *)
Ltac finish LQ unf := bylog; rewrite LQ; unf; lnpush; first [reflexivity | lits; field].
Ltac five_ways F flow unf :=
  let Q := fresh "Q" in let HQ := fresh "HQ" in let LQ := fresh "LQ" in
  remember flow as Q eqn:LQ; assert (HQ : 0 < Q) by (rewrite LQ; unf; posr);
  unfold solves, F; splits;
  [ mrun; f_equal; finish LQ unf
  | mrun; f_equal; finish LQ unf
  | mb; apply p1_back; [lra|]; finish LQ unf
  | mb; eapply p2_back; [lra | rewrite !Ropp_mult_distr_l_reverse; reflexivity |]; finish LQ unf
  | mrun; f_equal; finish LQ unf ].

(** the common shape of the six power laws *)
Definition law (A B c3 c4 L D P1 P2 : R) : R := A * Rpower ((P1 ^ 2 - P2 ^ 2) / (L * B)) c3 * Rpower D c4.
Lemma law_answers F A B c3 c4 : 0 < A -> 0 < B -> 0 < c3 -> 0 < c4 ->
  (forall L D P1 P2, 0 < L -> 0 < D -> 0 <= P2 < P1 -> solves F L D P1 P2 (law A B c3 c4 L D P1 P2)) ->
  (forall L D P1 Q, 0 < L -> 0 < D -> 0 < P1 -> law A B c3 c4 L D P1 0 < Q -> F (Some L) (Some D) (Some P1) None (Some Q) = Err ValueError) ->
  answers F.
Proof.
  intros HA HB H3 H4 HS HF Q HQ. splits.
  - intros L P1 P2 HL HP. assert (K := dsq P1 P2 ltac:(lra) ltac:(lra)).
    set (X := Rpower ((P1 ^ 2 - P2 ^ 2) / (L * B)) c3). assert (0 < X) by apply exp_pos.
    exists (Rpower (Q / (A * X)) (1 / c4)). split; [apply exp_pos|].
    set (D := Rpower (Q / (A * X)) (1 / c4)). assert (HD : 0 < D) by apply exp_pos.
    assert (E : Q = law A B c3 c4 L D P1 P2).
    { unfold law. fold X. bylog. unfold D. lnpush. field. lra. }
    destruct (HS L D P1 P2 HL HD HP) as (S1 & S2 & _). rewrite <- E in S1, S2. auto.
  - intros L D P2 HL HD HP2. set (Y := L * B * Rpower (Q / (A * Rpower D c4)) (1 / c3)).
    assert (HY : 0 < Y) by (unfold Y; posr). assert (N := pow2_ge_0 P2).
    assert (E1 : sqrt (P2 ^ 2 + Y) ^ 2 - P2 ^ 2 = Y) by (rewrite pow2_sqrt by lra; ring).
    assert (HP : 0 <= P2 < sqrt (P2 ^ 2 + Y)).
    { split; auto. rewrite <- (sqrt_pow2 P2) at 1 by auto. apply sqrt_lt_1; lra. }
    exists (sqrt (P2 ^ 2 + Y)). split; [lra|].
    assert (E : Q = law A B c3 c4 L D (sqrt (P2 ^ 2 + Y)) P2).
    { unfold law. rewrite E1. bylog. unfold Y. lnpush. field. lra. }
    destruct (HS L D _ P2 HL HD HP) as (S1 & _ & S3 & _). rewrite <- E in S1, S3. auto.
  - intros D P1 P2 HD HP. assert (K := dsq P1 P2 ltac:(lra) ltac:(lra)).
    set (L := (P1 ^ 2 - P2 ^ 2) / B / Rpower (Q / (A * Rpower D c4)) (1 / c3)).
    assert (HL : 0 < L) by (unfold L; posr). exists L. split; auto.
    assert (E : Q = law A B c3 c4 L D P1 P2).
    { unfold law. bylog. unfold L. lnpush. field. lra. }
    destruct (HS L D P1 P2 HL HD HP) as (S1 & _ & _ & _ & S5). rewrite <- E in S1, S5. auto.
  - intros L D P1 HL HD HP1. exists (law A B c3 c4 L D P1 0). destruct (HS L D P1 0 HL HD ltac:(lra)) as (S0 & _). split; auto. split; [|auto].
    intros HM. set (Y := L * B * Rpower (Q / (A * Rpower D c4)) (1 / c3)). assert (HY : 0 < Y) by (unfold Y; posr).
    assert (EY : Q = A * Rpower (Y / (L * B)) c3 * Rpower D c4) by (bylog; unfold Y; lnpush; field; lra).
    assert (LY : Y <= P1 ^ 2).
    { apply Rnot_lt_le. intros LT.
      assert (law A B c3 c4 L D P1 0 < Q); [|lra]. rewrite EY. unfold law. apply Rmult_lt_compat_r; [apply exp_pos|]. apply Rmult_lt_compat_l; auto.
      apply Rpower_lt_l; auto; [|apply div_lt_r; [posr|]; lra]. apply Rdiv_lt_0_compat; [|posr]. assert (0 < P1 ^ 2) by (apply pow_lt; auto). lra. }
    assert (E1 : P1 ^ 2 - sqrt (P1 ^ 2 - Y) ^ 2 = Y) by (rewrite pow2_sqrt by lra; ring).
    assert (HP : 0 <= sqrt (P1 ^ 2 - Y) < P1).
    { split; [apply sqrt_pos|]. rewrite <- (sqrt_pow2 P1) at 2 by lra. apply sqrt_lt_1; try lra. }
    exists (sqrt (P1 ^ 2 - Y)). split; auto.
    assert (E : Q = law A B c3 c4 L D P1 (sqrt (P1 ^ 2 - Y))) by (unfold law; rewrite E1; exact EY).
    destruct (HS L D P1 _ HL HD HP) as (S1 & _ & _ & S4 & _). rewrite <- E in S1, S4. auto.
Qed.
(** ** Panhandle_A *)
Theorem C48_Panhandle_A_solves : forall SG Tavg Ts Ps Zavg E L D P1 P2, 0 < SG -> 0 < Tavg -> 0 < Ts -> 0 < Ps -> 0 < Zavg -> 0 < E ->
  0 < L -> 0 < D -> 0 <= P2 < P1 ->
  solves (fun L D P1 P2 Q => Panhandle_A SG Tavg L D P1 P2 Q Ts Ps Zavg E) L D P1 P2 (panhandle_a_flow SG Tavg Ts Ps Zavg E L D P1 P2).
Proof.
  intros. assert (K := dsq P1 P2 ltac:(lra) ltac:(lra)).
  five_ways Panhandle_A (panhandle_a_flow SG Tavg Ts Ps Zavg E L D P1 P2) ltac:(unfold panhandle_a_flow).
Qed.
Theorem C48_Panhandle_A_answers : forall SG Tavg Ts Ps Zavg E, 0 < SG -> 0 < Tavg -> 0 < Ts -> 0 < Ps -> 0 < Zavg -> 0 < E ->
  answers (fun L D P1 P2 Q => Panhandle_A SG Tavg L D P1 P2 Q Ts Ps Zavg E).
Proof.
  intros.
  assert (LW : forall L D P1 P2, 0 < L -> 0 < D -> 0 <= P2 < P1 -> panhandle_a_flow SG Tavg Ts Ps Zavg E L D P1 P2
    = law (158.0205328706957220332831680508433862787 * (E * Rpower (Ts / Ps) 1.0788)) (Rpower SG 0.8539 * Tavg * Zavg) 0.5394 2.6182 L D P1 P2).
  { intros. assert (K := dsq P1 P2 ltac:(lra) ltac:(lra)). unfold panhandle_a_flow, law. bylog. lits; field. }
  eapply (law_answers _ (158.0205328706957220332831680508433862787 * (E * Rpower (Ts / Ps) 1.0788)) (Rpower SG 0.8539 * Tavg * Zavg) 0.5394 2.6182); try posr.
  - intros. rewrite <- LW by auto. apply C48_Panhandle_A_solves; auto.
  - intros L D P1 Q HL HD HP HQ. rewrite <- LW in HQ by lra. assert (0 < P1 ^ 2 - 0 ^ 2) by (apply dsq; lra).
    assert (QP : 0 < Q) by (eapply Rlt_trans; [|exact HQ]; unfold panhandle_a_flow; posr).
    unfold Panhandle_A. mb. eapply p2_fail; [rewrite !Ropp_mult_distr_l_reverse; reflexivity|].
    apply ln_increasing in HQ; [|unfold panhandle_a_flow; posr]. revert HQ. unfold panhandle_a_flow. replace (P1 ^ 2 - 0 ^ 2) with (P1 ^ 2) by ring.
    assert (0 < P1 ^ 2) by posr. lnpush. intros HQ. apply ln_lt_inv; [posr|posr|]. lnpush. lits.
    apply Rlt_Rminus in HQ. apply Rminus_gt_0_lt. unfold Rgt.
    match type of HQ with 0 < ?h => match goal with |- 0 < ?g => replace g with (h / (5394 * / 10000)) by field end end.
    apply Rdiv_lt_0_compat; [exact HQ|lra].
Qed.
Theorem C48_Panhandle_A_arguments : forall SG Tavg Ts Ps Zavg E,
  checks_arguments (fun L D P1 P2 Q => Panhandle_A SG Tavg L D P1 P2 Q Ts Ps Zavg E).
Proof. intros SG Tavg Ts Ps Zavg E [L|] [D|] [P1|] [P2|] [Q|] H; try reflexivity; cbn in H; contradiction. Qed.
(** ** Panhandle_B *)
Theorem C48_Panhandle_B_solves : forall SG Tavg Ts Ps Zavg E L D P1 P2, 0 < SG -> 0 < Tavg -> 0 < Ts -> 0 < Ps -> 0 < Zavg -> 0 < E ->
  0 < L -> 0 < D -> 0 <= P2 < P1 ->
  solves (fun L D P1 P2 Q => Panhandle_B SG Tavg L D P1 P2 Q Ts Ps Zavg E) L D P1 P2 (panhandle_b_flow SG Tavg Ts Ps Zavg E L D P1 P2).
Proof.
  intros. assert (K := dsq P1 P2 ltac:(lra) ltac:(lra)).
  five_ways Panhandle_B (panhandle_b_flow SG Tavg Ts Ps Zavg E L D P1 P2) ltac:(unfold panhandle_b_flow).
Qed.
Theorem C48_Panhandle_B_answers : forall SG Tavg Ts Ps Zavg E, 0 < SG -> 0 < Tavg -> 0 < Ts -> 0 < Ps -> 0 < Zavg -> 0 < E ->
  answers (fun L D P1 P2 Q => Panhandle_B SG Tavg L D P1 P2 Q Ts Ps Zavg E).
Proof.
  intros.
  assert (LW : forall L D P1 P2, 0 < L -> 0 < D -> 0 <= P2 < P1 -> panhandle_b_flow SG Tavg Ts Ps Zavg E L D P1 P2
    = law (152.881163429805545862438598586662441906 * (E * Rpower (Ts / Ps) 1.02)) (Rpower SG 0.961 * Tavg * Zavg) 0.51 2.53 L D P1 P2).
  { intros. assert (K := dsq P1 P2 ltac:(lra) ltac:(lra)). unfold panhandle_b_flow, law. bylog. lits; field. }
  eapply (law_answers _ (152.881163429805545862438598586662441906 * (E * Rpower (Ts / Ps) 1.02)) (Rpower SG 0.961 * Tavg * Zavg) 0.51 2.53); try posr.
  - intros. rewrite <- LW by auto. apply C48_Panhandle_B_solves; auto.
  - intros L D P1 Q HL HD HP HQ. rewrite <- LW in HQ by lra. assert (0 < P1 ^ 2 - 0 ^ 2) by (apply dsq; lra).
    assert (QP : 0 < Q) by (eapply Rlt_trans; [|exact HQ]; unfold panhandle_b_flow; posr).
    unfold Panhandle_B. mb. eapply p2_fail; [rewrite !Ropp_mult_distr_l_reverse; reflexivity|].
    apply ln_increasing in HQ; [|unfold panhandle_b_flow; posr]. revert HQ. unfold panhandle_b_flow. replace (P1 ^ 2 - 0 ^ 2) with (P1 ^ 2) by ring.
    assert (0 < P1 ^ 2) by posr. lnpush. intros HQ. apply ln_lt_inv; [posr|posr|]. lnpush. lits.
    apply Rlt_Rminus in HQ. apply Rminus_gt_0_lt. unfold Rgt.
    match type of HQ with 0 < ?h => match goal with |- 0 < ?g => replace g with (h / (51 * / 100)) by field end end.
    apply Rdiv_lt_0_compat; [exact HQ|lra].
Qed.
Theorem C48_Panhandle_B_arguments : forall SG Tavg Ts Ps Zavg E,
  checks_arguments (fun L D P1 P2 Q => Panhandle_B SG Tavg L D P1 P2 Q Ts Ps Zavg E).
Proof. intros SG Tavg Ts Ps Zavg E [L|] [D|] [P1|] [P2|] [Q|] H; try reflexivity; cbn in H; contradiction. Qed.
(** ** Weymouth *)
Theorem C48_Weymouth_solves : forall SG Tavg Ts Ps Zavg E L D P1 P2, 0 < SG -> 0 < Tavg -> 0 < Ts -> 0 < Ps -> 0 < Zavg -> 0 < E ->
  0 < L -> 0 < D -> 0 <= P2 < P1 ->
  solves (fun L D P1 P2 Q => Weymouth SG Tavg L D P1 P2 Q Ts Ps Zavg E) L D P1 P2 (weymouth_flow SG Tavg Ts Ps Zavg E L D P1 P2).
Proof.
  intros. assert (K := dsq P1 P2 ltac:(lra) ltac:(lra)).
  five_ways Weymouth (weymouth_flow SG Tavg Ts Ps Zavg E L D P1 P2) ltac:(unfold weymouth_flow).
Qed.
Theorem C48_Weymouth_answers : forall SG Tavg Ts Ps Zavg E, 0 < SG -> 0 < Tavg -> 0 < Ts -> 0 < Ps -> 0 < Zavg -> 0 < E ->
  answers (fun L D P1 P2 Q => Weymouth SG Tavg L D P1 P2 Q Ts Ps Zavg E).
Proof.
  intros.
  assert (LW : forall L D P1 P2, 0 < L -> 0 < D -> 0 <= P2 < P1 -> weymouth_flow SG Tavg Ts Ps Zavg E L D P1 P2
    = law (137.3295809942512546732179684618143090992 * (E * (Ts / Ps))) (SG * Tavg * Zavg) 0.5 2.667 L D P1 P2).
  { intros. assert (K := dsq P1 P2 ltac:(lra) ltac:(lra)). unfold weymouth_flow, law. bylog. lits; field. }
  eapply (law_answers _ (137.3295809942512546732179684618143090992 * (E * (Ts / Ps))) (SG * Tavg * Zavg) 0.5 2.667); try posr.
  - intros. rewrite <- LW by auto. apply C48_Weymouth_solves; auto.
  - intros L D P1 Q HL HD HP HQ. rewrite <- LW in HQ by lra. assert (0 < P1 ^ 2 - 0 ^ 2) by (apply dsq; lra).
    assert (QP : 0 < Q) by (eapply Rlt_trans; [|exact HQ]; unfold weymouth_flow; posr).
    unfold Weymouth. mb. eapply p2_fail; [rewrite !Ropp_mult_distr_l_reverse; reflexivity|].
    apply ln_increasing in HQ; [|unfold weymouth_flow; posr]. revert HQ. unfold weymouth_flow. replace (P1 ^ 2 - 0 ^ 2) with (P1 ^ 2) by ring.
    assert (0 < P1 ^ 2) by posr. lnpush. intros HQ. apply ln_lt_inv; [posr|posr|]. lnpush. lits.
    apply Rlt_Rminus in HQ. apply Rminus_gt_0_lt. unfold Rgt.
    match type of HQ with 0 < ?h => match goal with |- 0 < ?g => replace g with (h / (5 * / 10)) by field end end.
    apply Rdiv_lt_0_compat; [exact HQ|lra].
Qed.
Theorem C48_Weymouth_arguments : forall SG Tavg Ts Ps Zavg E,
  checks_arguments (fun L D P1 P2 Q => Weymouth SG Tavg L D P1 P2 Q Ts Ps Zavg E).
Proof. intros SG Tavg Ts Ps Zavg E [L|] [D|] [P1|] [P2|] [Q|] H; try reflexivity; cbn in H; contradiction. Qed.
(** ** Fritzsche *)
Theorem C48_Fritzsche_solves : forall SG Tavg Ts Ps Zavg E L D P1 P2, 0 < SG -> 0 < Tavg -> 0 < Ts -> 0 < Ps -> 0 < Zavg -> 0 < E ->
  0 < L -> 0 < D -> 0 <= P2 < P1 ->
  solves (fun L D P1 P2 Q => Fritzsche SG Tavg L D P1 P2 Q Ts Ps Zavg E) L D P1 P2 (fritzsche_flow SG Tavg Ts Ps Zavg E L D P1 P2).
Proof.
  intros. assert (K := dsq P1 P2 ltac:(lra) ltac:(lra)).
  five_ways Fritzsche (fritzsche_flow SG Tavg Ts Ps Zavg E L D P1 P2) ltac:(unfold fritzsche_flow).
Qed.
Theorem C48_Fritzsche_answers : forall SG Tavg Ts Ps Zavg E, 0 < SG -> 0 < Tavg -> 0 < Ts -> 0 < Ps -> 0 < Zavg -> 0 < E ->
  answers (fun L D P1 P2 Q => Fritzsche SG Tavg L D P1 P2 Q Ts Ps Zavg E).
Proof.
  intros.
  assert (LW : forall L D P1 P2, 0 < L -> 0 < D -> 0 <= P2 < P1 -> fritzsche_flow SG Tavg Ts Ps Zavg E L D P1 P2
    = law (93.50009798751128188757518688244137811221 * (E * (Ts / Ps))) (Rpower SG 0.8587 * Tavg * Zavg) 0.538 2.69 L D P1 P2).
  { intros. assert (K := dsq P1 P2 ltac:(lra) ltac:(lra)). unfold fritzsche_flow, law. bylog. lits; field. }
  eapply (law_answers _ (93.50009798751128188757518688244137811221 * (E * (Ts / Ps))) (Rpower SG 0.8587 * Tavg * Zavg) 0.538 2.69); try posr.
  - intros. rewrite <- LW by auto. apply C48_Fritzsche_solves; auto.
  - intros L D P1 Q HL HD HP HQ. rewrite <- LW in HQ by lra. assert (0 < P1 ^ 2 - 0 ^ 2) by (apply dsq; lra).
    assert (QP : 0 < Q) by (eapply Rlt_trans; [|exact HQ]; unfold fritzsche_flow; posr).
    unfold Fritzsche. mb. eapply p2_fail; [rewrite !Ropp_mult_distr_l_reverse; reflexivity|].
    apply ln_increasing in HQ; [|unfold fritzsche_flow; posr]. revert HQ. unfold fritzsche_flow. replace (P1 ^ 2 - 0 ^ 2) with (P1 ^ 2) by ring.
    assert (0 < P1 ^ 2) by posr. lnpush. intros HQ. apply ln_lt_inv; [posr|posr|]. lnpush. lits.
    apply Rlt_Rminus in HQ. apply Rminus_gt_0_lt. unfold Rgt.
    match type of HQ with 0 < ?h => match goal with |- 0 < ?g => replace g with (h / (538 * / 1000)) by field end end.
    apply Rdiv_lt_0_compat; [exact HQ|lra].
Qed.
Theorem C48_Fritzsche_arguments : forall SG Tavg Ts Ps Zavg E,
  checks_arguments (fun L D P1 P2 Q => Fritzsche SG Tavg L D P1 P2 Q Ts Ps Zavg E).
Proof. intros SG Tavg Ts Ps Zavg E [L|] [D|] [P1|] [P2|] [Q|] H; try reflexivity; cbn in H; contradiction. Qed.
(** ** Muller *)
Theorem C48_Muller_solves : forall SG Tavg mu Ts Ps Zavg E L D P1 P2, 0 < SG -> 0 < Tavg -> 0 < mu -> 0 < Ts -> 0 < Ps -> 0 < Zavg -> 0 < E ->
  0 < L -> 0 < D -> 0 <= P2 < P1 ->
  solves (fun L D P1 P2 Q => Muller SG Tavg mu L D P1 P2 Q Ts Ps Zavg E) L D P1 P2 (muller_flow SG Tavg mu Ts Ps Zavg E L D P1 P2).
Proof.
  intros. assert (K := dsq P1 P2 ltac:(lra) ltac:(lra)).
  five_ways Muller (muller_flow SG Tavg mu Ts Ps Zavg E L D P1 P2) ltac:(unfold muller_flow).
Qed.
Theorem C48_Muller_answers : forall SG Tavg mu Ts Ps Zavg E, 0 < SG -> 0 < Tavg -> 0 < mu -> 0 < Ts -> 0 < Ps -> 0 < Zavg -> 0 < E ->
  answers (fun L D P1 P2 Q => Muller SG Tavg mu L D P1 P2 Q Ts Ps Zavg E).
Proof.
  intros.
  assert (LW : forall L D P1 P2, 0 < L -> 0 < D -> 0 <= P2 < P1 -> muller_flow SG Tavg mu Ts Ps Zavg E L D P1 P2
    = law (15.77439908642077352939746374951659525108 * (E * (Ts / Ps) / (Rpower SG 0.425 * Rpower mu 0.15))) (Tavg * Zavg) 0.575 2.725 L D P1 P2).
  { intros. assert (K := dsq P1 P2 ltac:(lra) ltac:(lra)). unfold muller_flow, law. bylog. lits; field. }
  eapply (law_answers _ (15.77439908642077352939746374951659525108 * (E * (Ts / Ps) / (Rpower SG 0.425 * Rpower mu 0.15))) (Tavg * Zavg) 0.575 2.725); try posr.
  - intros. rewrite <- LW by auto. apply C48_Muller_solves; auto.
  - intros L D P1 Q HL HD HP HQ. rewrite <- LW in HQ by lra. assert (0 < P1 ^ 2 - 0 ^ 2) by (apply dsq; lra).
    assert (QP : 0 < Q) by (eapply Rlt_trans; [|exact HQ]; unfold muller_flow; posr).
    unfold Muller. mb. eapply p2_fail; [rewrite !Ropp_mult_distr_l_reverse; reflexivity|].
    apply ln_increasing in HQ; [|unfold muller_flow; posr]. revert HQ. unfold muller_flow. replace (P1 ^ 2 - 0 ^ 2) with (P1 ^ 2) by ring.
    assert (0 < P1 ^ 2) by posr. lnpush. intros HQ. apply ln_lt_inv; [posr|posr|]. lnpush. lits.
    apply Rlt_Rminus in HQ. apply Rminus_gt_0_lt. unfold Rgt.
    match type of HQ with 0 < ?h => match goal with |- 0 < ?g => replace g with (h / (575 * / 1000)) by field end end.
    apply Rdiv_lt_0_compat; [exact HQ|lra].
Qed.
Theorem C48_Muller_arguments : forall SG Tavg mu Ts Ps Zavg E,
  checks_arguments (fun L D P1 P2 Q => Muller SG Tavg mu L D P1 P2 Q Ts Ps Zavg E).
Proof. intros SG Tavg mu Ts Ps Zavg E [L|] [D|] [P1|] [P2|] [Q|] H; try reflexivity; cbn in H; contradiction. Qed.
(** ** IGT *)
Theorem C48_IGT_solves : forall SG Tavg mu Ts Ps Zavg E L D P1 P2, 0 < SG -> 0 < Tavg -> 0 < mu -> 0 < Ts -> 0 < Ps -> 0 < Zavg -> 0 < E ->
  0 < L -> 0 < D -> 0 <= P2 < P1 ->
  solves (fun L D P1 P2 Q => IGT SG Tavg mu L D P1 P2 Q Ts Ps Zavg E) L D P1 P2 (igt_flow SG Tavg mu Ts Ps Zavg E L D P1 P2).
Proof.
  intros. assert (K := dsq P1 P2 ltac:(lra) ltac:(lra)).
  five_ways IGT (igt_flow SG Tavg mu Ts Ps Zavg E L D P1 P2) ltac:(unfold igt_flow).
Qed.
Theorem C48_IGT_answers : forall SG Tavg mu Ts Ps Zavg E, 0 < SG -> 0 < Tavg -> 0 < mu -> 0 < Ts -> 0 < Ps -> 0 < Zavg -> 0 < E ->
  answers (fun L D P1 P2 Q => IGT SG Tavg mu L D P1 P2 Q Ts Ps Zavg E).
Proof.
  intros.
  assert (LW : forall L D P1 P2, 0 < L -> 0 < D -> 0 <= P2 < P1 -> igt_flow SG Tavg mu Ts Ps Zavg E L D P1 P2
    = law (24.6241245146140705487530170944393035055 * (E * (Ts / Ps) / (Rpower SG (4 / 9) * Rpower mu (1 / 9)))) (Tavg * Zavg) (5 / 9) (8 / 3) L D P1 P2).
  { intros. assert (K := dsq P1 P2 ltac:(lra) ltac:(lra)). unfold igt_flow, law. bylog. lits; field. }
  eapply (law_answers _ (24.6241245146140705487530170944393035055 * (E * (Ts / Ps) / (Rpower SG (4 / 9) * Rpower mu (1 / 9)))) (Tavg * Zavg) (5 / 9) (8 / 3)); try posr.
  - intros. rewrite <- LW by auto. apply C48_IGT_solves; auto.
  - intros L D P1 Q HL HD HP HQ. rewrite <- LW in HQ by lra. assert (0 < P1 ^ 2 - 0 ^ 2) by (apply dsq; lra).
    assert (QP : 0 < Q) by (eapply Rlt_trans; [|exact HQ]; unfold igt_flow; posr).
    unfold IGT. mb. eapply p2_fail; [rewrite !Ropp_mult_distr_l_reverse; reflexivity|].
    apply ln_increasing in HQ; [|unfold igt_flow; posr]. revert HQ. unfold igt_flow. replace (P1 ^ 2 - 0 ^ 2) with (P1 ^ 2) by ring.
    assert (0 < P1 ^ 2) by posr. lnpush. intros HQ. apply ln_lt_inv; [posr|posr|]. lnpush. lits.
    apply Rlt_Rminus in HQ. apply Rminus_gt_0_lt. unfold Rgt.
    match type of HQ with 0 < ?h => match goal with |- 0 < ?g => replace g with (h / (5 / 9)) by field end end.
    apply Rdiv_lt_0_compat; [exact HQ|lra].
Qed.
Theorem C48_IGT_arguments : forall SG Tavg mu Ts Ps Zavg E,
  checks_arguments (fun L D P1 P2 Q => IGT SG Tavg mu L D P1 P2 Q Ts Ps Zavg E).
Proof. intros SG Tavg mu Ts Ps Zavg E [L|] [D|] [P1|] [P2|] [Q|] H; try reflexivity; cbn in H; contradiction. Qed.

Print Assumptions C48_Panhandle_A_solves.
Print Assumptions C48_Panhandle_A_answers.
Print Assumptions C48_Panhandle_A_arguments.
Print Assumptions C48_Panhandle_B_solves.
Print Assumptions C48_Panhandle_B_answers.
Print Assumptions C48_Panhandle_B_arguments.
Print Assumptions C48_Weymouth_solves.
Print Assumptions C48_Weymouth_answers.
Print Assumptions C48_Weymouth_arguments.
Print Assumptions C48_Fritzsche_solves.
Print Assumptions C48_Fritzsche_answers.
Print Assumptions C48_Fritzsche_arguments.
Print Assumptions C48_Muller_solves.
Print Assumptions C48_Muller_answers.
Print Assumptions C48_Muller_arguments.
Print Assumptions C48_IGT_solves.
Print Assumptions C48_IGT_answers.
Print Assumptions C48_IGT_arguments.
