(** Evaluation of the two-phase pressure drop correlations. *)
From Coq Require Import Reals Lra Lia List Bool String.
From Verif Require Import Base Model_Real Proofs_Real Interval Model_Friction Proofs_Friction Proofs_Friction2 Properties_Friction Model_Voidage Model_Core Model_TwoPhase.
Import ListNotations.
Open Scope R_scope.

(** velocity, Reynolds number, Darcy factor and pressure drop of the mass flow [M] alone in the pipe *)
Definition vel (M rho D : R) : R := M / (rho * (0.25 * PI * D * D)).
Definition rey (M rho mu D : R) : R := rho * vel M rho D * D / mu.
Definition fac (W : R -> R) (M rho mu D rough : R) : R :=
  match friction_factor W (rey M rho mu D) (rough / D) (Some "Clamond"%string) true with Ok f => f | Err _ => 0 end.
Definition drop (W : R -> R) (M rho mu D rough L : R) : R := fac W M rho mu D rough * L / D * (rho * vel M rho D ^ 2 / 2).

Lemma friction_ok W Re eD : 0 < Re -> 0 <= eD <= 0.05 -> exists f, friction_factor W Re eD (Some "Clamond"%string) true = Ok f /\ 0 < f.
Proof.
  intros HR He. destruct (Rlt_le_dec Re 2040) as [H|H].
  - exists (64 / Re). split; [apply C38_laminar; lra|posr].
  - destruct (Clamond_pos Re eD false H He) as (f & E & Hf). exists f. split; auto. unfold friction_factor. rewrite (proj2 (Rltb_false Re 2040)) by lra.
    cbn [orb String.eqb]. change (String.eqb "Clamond" "laminar") with false. change (String.eqb "Clamond" "Clamond") with true. cbv iota. rewrite E. reflexivity.
Qed.
Lemma area_pos D : 0 < D -> 0 < 0.25 * PI * D * D. Proof. intros. posr. Qed.
Lemma vel_pos M rho D : 0 < M -> 0 < rho -> 0 < D -> 0 < vel M rho D.
Proof. intros. pose proof (area_pos D). unfold vel. apply Rdiv_lt_0_compat; auto. apply Rmult_lt_0_compat; auto. Qed.
Lemma rey_pos M rho mu D : 0 < M -> 0 < rho -> 0 < mu -> 0 < D -> 0 < rey M rho mu D.
Proof. intros. pose proof (vel_pos M rho D). unfold rey. posr; auto. Qed.
Lemma fac_pos W M rho mu D rough : 0 < M -> 0 < rho -> 0 < mu -> 0 < D -> 0 <= rough / D <= 0.05 ->
  friction_factor W (rey M rho mu D) (rough / D) (Some "Clamond"%string) true = Ok (fac W M rho mu D rough) /\ 0 < fac W M rho mu D rough.
Proof. intros. destruct (friction_ok W (rey M rho mu D) (rough / D)) as (f & E & Hf); [now apply rey_pos|auto|]. unfold fac. rewrite E. auto. Qed.
Lemma drop_pos W M rho mu D rough L : 0 < M -> 0 < rho -> 0 < mu -> 0 < D -> 0 <= rough / D <= 0.05 -> 0 < L -> 0 < drop W M rho mu D rough L.
Proof. intros. destruct (fac_pos W M rho mu D rough) as [_ F]; auto. pose proof (vel_pos M rho D). unfold drop. posr; auto. Qed.

(** the four steps every correlation performs for a phase *)
Lemma phase {B} W M rho mu D rough (k : R -> R -> R -> result B) : 0 < M -> 0 < rho -> 0 < mu -> 0 < D -> 0 <= rough / D <= 0.05 ->
  (v <- pdiv M (rho * (0.25 * PI * D * D)) ;; Re <- Reynolds v D (Some rho) (Some mu) None ;; t <- pdiv rough D ;; f <- friction_factor W Re t (Some "Clamond"%string) true ;; k v Re f)
  = k (vel M rho D) (rey M rho mu D) (fac W M rho mu D rough).
Proof.
  intros H1 H2 H3 H4 H5. pose proof (area_pos D H4). rewrite pdiv_ok by (apply Rgt_not_eq, Rmult_lt_0_compat; auto). cbn [bind]. fold (vel M rho D).
  assert (E : Reynolds (vel M rho D) D (Some rho) (Some mu) None = Ok (rey M rho mu D)).
  { unfold Reynolds. rewrite pdiv_ok by lra. cbn [bind]. assert (0 < mu / rho) by posr. rewrite pdiv_ok by lra. unfold rey. f_equal. field. lra. }
  rewrite E. cbn [bind]. rewrite pdiv_ok by lra. cbn [bind]. destruct (fac_pos W M rho mu D rough) as [F _]; auto. rewrite F. reflexivity.
Qed.
Lemma phase2 {B} M rho mu D (k : R -> R -> result B) : 0 < M -> 0 < rho -> 0 < mu -> 0 < D ->
  (v <- pdiv M (rho * (0.25 * PI * D * D)) ;; Re <- Reynolds v D (Some rho) (Some mu) None ;; k v Re) = k (vel M rho D) (rey M rho mu D).
Proof.
  intros H1 H2 H3 H4. pose proof (area_pos D H4). rewrite pdiv_ok by (apply Rgt_not_eq, Rmult_lt_0_compat; auto). cbn [bind]. fold (vel M rho D).
  unfold Reynolds. rewrite pdiv_ok by lra. cbn [bind]. assert (0 < mu / rho) by posr. rewrite pdiv_ok by lra. cbn [bind]. unfold rey. f_equal. field. lra.
Qed.
Lemma drop_code W M rho mu D rough L : fac W M rho mu D rough * L / D * (0.5 * rho * vel M rho D * vel M rho D) = drop W M rho mu D rough L.
Proof. unfold drop. f_equal. lits. field. Qed.

(** the operating points of the theorems: a gas and a denser, more viscous liquid flowing together through a pipe of moderate roughness *)
Record flow (m x rhol rhog mul mug D rough L : R) : Prop := mk_flow {
  f_m : 0 < m; f_x : 0 < x < 1; f_rho : 0 < rhog < rhol; f_mu : 0 < mug < mul; f_D : 0 < D; f_rough : 0 <= rough / D <= 0.05; f_L : 0 < L }.

Section Methods.
Variable W : R -> R.
Variables m x rhol rhog mul mug sigma D rough L : R.
Hypothesis F : flow m x rhol rhog mul mug D rough L.
Hypothesis Hs : 0 < sigma.
Let lo := drop W m rhol mul D rough L.
Let go := drop W m rhog mug D rough L.
Let li := drop W (m * (1 - x)) rhol mul D rough L.
Let ga := drop W (m * x) rhog mug D rough L.
Lemma facts : (0 < lo /\ 0 < go /\ 0 < li /\ 0 < ga) /\ (0 < vel m rhol D /\ 0 < vel m rhog D /\ 0 < vel (m * (1 - x)) rhol D /\ 0 < vel (m * x) rhog D) /\
  (0 < rey m rhol mul D /\ 0 < rey m rhog mug D /\ 0 < rey (m * (1 - x)) rhol mul D /\ 0 < rey (m * x) rhog mug D) /\
  (0 < fac W m rhol mul D rough /\ 0 < fac W m rhog mug D rough /\ 0 < fac W (m * (1 - x)) rhol mul D rough /\ 0 < fac W (m * x) rhog mug D rough).
Proof.
  destruct F. assert (0 < m * (1 - x)) by (apply Rmult_lt_0_compat; lra). assert (0 < m * x) by (apply Rmult_lt_0_compat; lra).
  splits; try (apply drop_pos; auto; lra); try (apply vel_pos; auto; lra); try (apply rey_pos; auto; lra); try (apply fac_pos; auto; lra).
Qed.
End Methods.

Ltac start H Hs :=
  destruct H as [Hm Hx Hrho Hmu HD Hr HL]; pose proof (area_pos _ HD) as HA;
  match type of Hm with 0 < ?m => match type of Hx with 0 < ?x < 1 =>
    assert (HX : 0 < 1 - x) by lra; assert (HX1 : 0 < x) by lra;
    assert (Hml : 0 < m * (1 - x)) by (apply Rmult_lt_0_compat; lra); assert (Hmg : 0 < m * x) by (apply Rmult_lt_0_compat; lra) end end.
Ltac ph := rewrite ?(Rmult_comm (0.25 * PI * _ * _) _); repeat (rewrite phase by (auto; lra)); repeat (rewrite phase2 by (auto; lra)).
