(** Equalities between positive products of powers, by taking logarithms. *)
From Coq Require Import Reals Lra.
From Verif Require Import Base Model_Real Proofs_Real.
Open Scope R_scope.

Lemma ln_Rpower a b : ln (Rpower a b) = b * ln a.
Proof. unfold Rpower. apply ln_exp. Qed.
Lemma ln_npow a n : 0 < a -> ln (a ^ n) = INR n * ln a.
Proof. intros H. rewrite <- Rpower_pow by auto. apply ln_Rpower. Qed.
Lemma ln_quot a b : 0 < a -> 0 < b -> ln (a / b) = ln a - ln b.
Proof. intros. unfold Rdiv. rewrite ln_mult, ln_Rinv; auto. apply Rinv_0_lt_compat; auto. Qed.
Lemma ln_root a : 0 < a -> ln (sqrt a) = / 2 * ln a.
Proof. intros. rewrite <- Rpower_sqrt by auto. apply ln_Rpower. Qed.

(** push [ln] to the atoms; positivity of the factors by [posr] *)
Ltac lnpush :=
  repeat match goal with
  | |- context [ln (?a * ?b)] => rewrite (ln_mult a b) by posr
  | |- context [ln (?a / ?b)] => rewrite (ln_quot a b) by posr
  | |- context [ln (/ ?a)] => rewrite (ln_Rinv a) by posr
  | |- context [ln (Rpower ?a ?b)] => rewrite (ln_Rpower a b)
  | |- context [ln (?a ^ ?n)] => rewrite (ln_npow a n) by posr
  | |- context [ln (sqrt ?a)] => rewrite (ln_root a) by posr
  | |- context [ln (exp ?a)] => rewrite (ln_exp a)
  end.
Ltac bylog := apply ln_inv; [posr|posr|lnpush].
