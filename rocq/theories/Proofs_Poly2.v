(** Proofs about the log-tau and exponential polynomial variants (C03). *)
From Coq Require Import List Bool QArith Reals ZArith Lra Lia Arith.
From Coquelicot Require Import Coquelicot.
From Verif Require Import Base Sums Spec_Poly Model_Poly Proofs_Poly.
Import ListNotations.
Local Open Scope R_scope.

(** Local versions of the derivative-chain lemmas. *)
Lemma is_derive_n_from_loc (U : R -> Prop) f f1 n x l :
  (forall x, U x -> locally x U) -> (forall x, U x -> is_derive f x (f1 x)) ->
  U x -> is_derive_n f1 n x l -> is_derive_n f (S n) x l.
Proof.
  intros HU H Ux Hn. destruct n.
  - simpl in *. subst l. apply (is_derive_ext f); [reflexivity | now apply H].
  - assert (HD : forall t, U t -> Derive_n f (S n) t = Derive_n f1 n t).
    { intros t Ut. rewrite <- (Nat.add_1_r n), <- Derive_n_comp. apply Derive_n_ext_loc.
      destruct (HU t Ut) as [eps He]. exists eps. intros y Hy. simpl.
      apply is_derive_unique, H, He, Hy. }
    change (is_derive (Derive_n f (S n)) x l).
    apply (is_derive_ext_loc (Derive_n f1 n)); [|exact Hn].
    destruct (HU x Ux) as [eps He]. exists eps. intros y Hy. symmetry. apply HD, He, Hy.
Qed.

Section Chain.
Variable (U : R -> Prop) (f f1 f2 f3 f4 : R -> R) (x : R).
Hypothesis HU : forall x, U x -> locally x U.
Hypothesis Ux : U x.
Hypothesis H1 : forall x, U x -> is_derive f x (f1 x).
Lemma lchain1 : ders1 f x (f1 x). Proof. red; auto. Qed.
Hypothesis H2 : forall x, U x -> is_derive f1 x (f2 x).
Lemma is_derive_n1 (g : R -> R) y l : is_derive g y l -> is_derive_n g 1 y l.
Proof. intros. apply (is_derive_ext g); [reflexivity | auto]. Qed.
Lemma lchain2 : ders2 f x (f1 x) (f2 x).
Proof. split; auto. apply (is_derive_n_from_loc U f f1); auto. apply is_derive_n1; auto. Qed.
Hypothesis H3 : forall x, U x -> is_derive f2 x (f3 x).
Lemma lchain3 : ders3 f x (f1 x) (f2 x) (f3 x).
Proof.
  destruct lchain2. split; auto. split; auto.
  apply (is_derive_n_from_loc U f f1); auto. apply (is_derive_n_from_loc U f1 f2); auto.
  apply is_derive_n1; auto.
Qed.
Hypothesis H4 : forall x, U x -> is_derive f3 x (f4 x).
Lemma lchain4 : ders4 f x (f1 x) (f2 x) (f3 x) (f4 x).
Proof.
  destruct lchain3 as (?&?&?). split; auto. split; auto. split; auto.
  apply (is_derive_n_from_loc U f f1); auto. apply (is_derive_n_from_loc U f1 f2); auto.
  apply (is_derive_n_from_loc U f2 f3); auto. apply is_derive_n1; auto.
Qed.
End Chain.

Definition Uall (x : R) : Prop := True.
Lemma Uall_open x : Uall x -> locally x Uall.
Proof. intros _. exists (mkposreal 1 Rlt_0_1). intros; exact I. Qed.

(** ** exp of a smooth function *)
Section Exp.
Variables (g g1 g2 g3 : R -> R).
Hypothesis G1 : forall x, is_derive g x (g1 x).
Hypothesis G2 : forall x, is_derive g1 x (g2 x).
Hypothesis G3 : forall x, is_derive g2 x (g3 x).
Definition e0 x := exp (g x).
Definition e1 x := g1 x * exp (g x).
Definition e2 x := (g1 x * g1 x + g2 x) * exp (g x).
Definition e3 x := (g1 x * g1 x * g1 x + 3 * g1 x * g2 x + g3 x) * exp (g x).
Lemma ex_derive_of (f : R -> R) x l : is_derive f x l -> ex_derive f x.
Proof. intros; exists l; auto. Qed.
Lemma Derive_eq (f f' : R -> R) x : is_derive f x (f' x) -> Derive (fun y => f y) x = f' x.
Proof. intros. now apply is_derive_unique. Qed.
Ltac exd := lazymatch goal with
  | |- ex_derive (fun y => g y) ?x => exact (ex_derive_of g x _ (G1 x))
  | |- ex_derive (fun y => g1 y) ?x => exact (ex_derive_of g1 x _ (G2 x))
  | |- ex_derive (fun y => g2 y) ?x => exact (ex_derive_of g2 x _ (G3 x))
  | |- True => exact I
  end.
Lemma E1 x : is_derive e0 x (e1 x).
Proof.
  unfold e0, e1. auto_derive; [splits; auto; eexists; apply G1|].
  rewrite (Derive_eq g g1) by auto. ring.
Qed.
Lemma E2 x : is_derive e1 x (e2 x).
Proof.
  unfold e1, e2. auto_derive; [splits; exd|].
  rewrite (Derive_eq g g1), (Derive_eq g1 g2) by auto. ring.
Qed.
Lemma E3 x : is_derive e2 x (e3 x).
Proof.
  unfold e2, e3. auto_derive; [splits; exd|].
  rewrite (Derive_eq g g1), (Derive_eq g1 g2), (Derive_eq g2 g3) by auto. ring.
Qed.
End Exp.

(** ** composition with ln(1 - T/Tc) *)
Section LnTau.
Variables (g g1 g2 g3 : R -> R) (Tc : R).
Hypothesis HTc : 0 < Tc.
Hypothesis G1 : forall x, is_derive g x (g1 x).
Hypothesis G2 : forall x, is_derive g1 x (g2 x).
Hypothesis G3 : forall x, is_derive g2 x (g3 x).
Definition L (T : R) := ln (1 - T / Tc).
Definition t0 T := g (L T).
Definition t1 T := - g1 (L T) / (Tc - T).
Definition t2 T := (- g1 (L T) + g2 (L T)) / (Tc - T) ^ 2.
Definition t3 T := - (2 * g1 (L T) - 3 * g2 (L T) + g3 (L T)) / (Tc - T) ^ 3.
Definition Ult (T : R) := T < Tc.
Lemma Ult_open x : Ult x -> locally x Ult.
Proof. intros H. apply (open_lt Tc x H). Qed.
Lemma tau_pos T : T < Tc -> 0 < 1 - T / Tc.
Proof.
  intros H. replace (1 - T / Tc) with ((Tc - T) / Tc) by (field; lra).
  apply Rdiv_lt_0_compat; lra.
Qed.
Lemma L_d T : T < Tc -> is_derive L T (- 1 / (Tc - T)).
Proof.
  intros H. pose proof (tau_pos T H). unfold L. auto_derive.
  - replace (1 + - (T * / Tc)) with (1 - T / Tc) by (unfold Rdiv; ring). auto.
  - field; lra.
Qed.
Lemma comp_L (h h1 : R -> R) T : (forall x, is_derive h x (h1 x)) -> T < Tc ->
  is_derive (fun T => h (L T)) T (- h1 (L T) / (Tc - T)).
Proof.
  intros Hh HT. replace (- h1 (L T) / (Tc - T)) with ((- 1 / (Tc - T)) * h1 (L T)) by (field; lra).
  apply (is_derive_comp h L T (h1 (L T)) (-1/(Tc-T))); auto. apply L_d; auto.
Qed.
Lemma T1 T : Ult T -> is_derive t0 T (t1 T).
Proof. intros; apply comp_L; auto. Qed.
Lemma quot1 (a : R -> R) a' T : T < Tc -> is_derive a T a' ->
  is_derive (fun T => - a T / (Tc - T)) T ((- a' * (Tc - T) - a T) / (Tc - T) ^ 2).
Proof.
  intros H D. auto_derive.
  - splits; auto; [eexists; exact D | lra].
  - replace (Derive (fun x : R => a x) T) with a' by (symmetry; apply is_derive_unique; exact D). field. lra.
Qed.
Lemma quot2 (a : R -> R) a' T : T < Tc -> is_derive a T a' ->
  is_derive (fun T => a T / (Tc - T) ^ 2) T ((a' * (Tc - T) + 2 * a T) / (Tc - T) ^ 3).
Proof.
  intros H D. auto_derive.
  - splits; auto; [eexists; exact D |].
    apply Rmult_integral_contrapositive_currified; [lra|].
    apply Rmult_integral_contrapositive_currified; lra.
  - replace (Derive (fun x : R => a x) T) with a' by (symmetry; apply is_derive_unique; exact D). field. lra.
Qed.
Lemma T2 T : Ult T -> is_derive t1 T (t2 T).
Proof.
  intros H; red in H. pose proof (quot1 (fun T => g1 (L T)) _ T H (comp_L g1 g2 T G2 H)) as D.
  unfold t1, t2. replace ((- g1 (L T) + g2 (L T)) / (Tc - T) ^ 2) with
   ((- (- g2 (L T) / (Tc - T)) * (Tc - T) - g1 (L T)) / (Tc - T) ^ 2); [exact D | field; lra].
Qed.
Lemma T3 T : Ult T -> is_derive t2 T (t3 T).
Proof.
  intros H; red in H.
  assert (S : is_derive (fun T => - g1 (L T) + g2 (L T)) T ((g2 (L T) - g3 (L T)) / (Tc - T))).
  { pose proof (comp_L g1 g2 T G2 H) as D1. pose proof (comp_L g2 g3 T G3 H) as D2.
    replace ((g2 (L T) - g3 (L T)) / (Tc - T)) with
      (plus (opp (- g2 (L T) / (Tc - T))) (- g3 (L T) / (Tc - T)))
      by (unfold plus, opp; simpl; field; lra).
    apply @is_derive_plus; [apply @is_derive_opp|]; auto. }
  pose proof (quot2 _ _ T H S) as D. unfold t2, t3.
  replace (- (2 * g1 (L T) - 3 * g2 (L T) + g3 (L T)) / (Tc - T) ^ 3) with
   (((g2 (L T) - g3 (L T)) / (Tc - T) * (Tc - T) + 2 * (- g1 (L T) + g2 (L T))) / (Tc - T) ^ 3); [exact D | field; lra].
Qed.
End LnTau.

(** ** The models compute these derivatives *)
Lemma pexp_ok x : x <= exp_overflow -> pexp x = Ok (exp x).
Proof. intros H; unfold pexp. rcase; auto; lra. Qed.
Lemma trunc_exp_ok x : x <= exp_overflow -> trunc_exp x = exp x.
Proof. intros H; unfold trunc_exp. rewrite pexp_ok; auto. Qed.

Lemma poly_ders1 cs x : ders1 (heval cs) x (hd1 cs x).
Proof. apply heval_d1. Qed.
Lemma poly_ders2 cs x : ders2 (heval cs) x (hd1 cs x) (hd2 cs x).
Proof. apply (lchain2 Uall); auto using Uall_open, heval_d1, heval_d2. exact I. Qed.
Lemma poly_ders3 cs x : ders3 (heval cs) x (hd1 cs x) (hd2 cs x) (hd3 cs x).
Proof. apply (lchain3 Uall); auto using Uall_open, heval_d1, heval_d2, heval_d3. exact I. Qed.
Lemma poly_ders4 cs x : ders4 (heval cs) x (hd1 cs x) (hd2 cs x) (hd3 cs x) (hd4 cs x).
Proof. apply (lchain4 Uall); auto using Uall_open, heval_d1, heval_d2, heval_d3, heval_d4. exact I. Qed.

Section Stable.
Variables (cs : list R) (o s : R).
Lemma st_ders1 x : ders1 (sv cs o s) x (sd1 cs o s x). Proof. apply sv_d. Qed.
Lemma st_ders2 x : ders2 (sv cs o s) x (sd1 cs o s x) (sd2 cs o s x).
Proof. apply (lchain2 Uall); auto using Uall_open, sv_d, sd1_d. exact I. Qed.
Lemma st_ders3 x : ders3 (sv cs o s) x (sd1 cs o s x) (sd2 cs o s x) (sd3 cs o s x).
Proof. apply (lchain3 Uall); auto using Uall_open, sv_d, sd1_d, sd2_d. exact I. Qed.
Lemma st_ders4 x : ders4 (sv cs o s) x (sd1 cs o s x) (sd2 cs o s x) (sd3 cs o s x) (sd4 cs o s x).
Proof. apply (lchain4 Uall); auto using Uall_open, sv_d, sd1_d, sd2_d, sd3_d. exact I. Qed.
End Stable.

(** Generic facts for exp and ln-tau of any smooth function with derivative chain. *)
Lemma exp_ders1 g g1 x : (forall x, is_derive g x (g1 x)) -> ders1 (e0 g) x (e1 g g1 x).
Proof. intros; apply E1; auto. Qed.
Lemma exp_ders2 g g1 g2 x : (forall x, is_derive g x (g1 x)) -> (forall x, is_derive g1 x (g2 x)) ->
  ders2 (e0 g) x (e1 g g1 x) (e2 g g1 g2 x).
Proof. intros; apply (lchain2 Uall); auto using Uall_open, E1, E2. exact I. Qed.
Lemma exp_ders3 g g1 g2 g3 x : (forall x, is_derive g x (g1 x)) -> (forall x, is_derive g1 x (g2 x)) ->
  (forall x, is_derive g2 x (g3 x)) ->
  ders3 (e0 g) x (e1 g g1 x) (e2 g g1 g2 x) (e3 g g1 g2 g3 x).
Proof. intros; apply (lchain3 Uall); auto using Uall_open, E1, E2, E3. exact I. Qed.

Section LT.
Variables (g g1 g2 g3 : R -> R) (Tc T : R).
Hypothesis HTc : 0 < Tc.
Hypothesis HT : T < Tc.
Hypothesis G1 : forall x, is_derive g x (g1 x).
Lemma lt_ders1 : ders1 (t0 g Tc) T (t1 g1 Tc T).
Proof. apply T1; auto. Qed.
Hypothesis G2 : forall x, is_derive g1 x (g2 x).
Lemma lt_ders2 : ders2 (t0 g Tc) T (t1 g1 Tc T) (t2 g1 g2 Tc T).
Proof. apply (lchain2 (Ult Tc)); auto using Ult_open, T1, T2. Qed.
Hypothesis G3 : forall x, is_derive g2 x (g3 x).
Lemma lt_ders3 : ders3 (t0 g Tc) T (t1 g1 Tc T) (t2 g1 g2 Tc T) (t3 g1 g2 g3 Tc T).
Proof. apply (lchain3 (Ult Tc)); auto using Ult_open, T1, T2, T3. Qed.
End LT.

(** Evaluation of the common prefix of the ln-tau functions. *)
Lemma lt_prefix {B} T Tc (z : B) (k : R -> R -> result B) : 0 < Tc -> T < Tc ->
  (if Rleb Tc T then Ok z else q <- pdiv T Tc ;; lntau <- plog (1 - q) ;; k q lntau)
  = k (T / Tc) (L Tc T).
Proof.
  intros H1 H2. rcase; [lra|]. rewrite pdiv_ok by lra. cbn [bind].
  rewrite plog_ok by now apply tau_pos. reflexivity.
Qed.
Lemma lt_zero {B} T Tc (z : B) (k : result B) : Tc <= T -> (if Rleb Tc T then Ok z else k) = Ok z.
Proof. intros; rcase; auto; lra. Qed.

Ltac lnt :=
  match goal with
  | HTc : 0 < ?Tc, HT : ?T < ?Tc |- _ =>
    rewrite lt_prefix by assumption; cbv zeta;
    rewrite ?horner_and_der_eq, ?horner_and_der2_eq, ?horner_and_der3_eq,
            ?horner_stable_and_der_eq, ?horner_stable_and_der2_eq, ?horner_stable_and_der3_eq;
    let P := fresh in pose proof (tau_pos Tc HTc T HT) as P;
    assert (1 - T / Tc <> 0) by lra;
    assert (- T / Tc + 1 <> 0) by (replace (- T / Tc + 1) with (1 - T / Tc) by (field; lra); lra);
    assert (T / Tc - 1 <> 0) by lra;
    repeat first
      [ rewrite pexp_ok by assumption
      | rewrite trunc_exp_ok by assumption
      | rewrite pdiv_ok by
          (repeat first [assumption | apply Rmult_integral_contrapositive_currified | apply pow_nonzero | lra])
      | progress cbn [bind] ]
  end.

Lemma hb_lt T Tc cs : 0 < Tc -> T < Tc ->
  horner_backwards_ln_tau T Tc cs = Ok (t0 (heval cs) Tc T).
Proof. intros HTc HT. unfold horner_backwards_ln_tau. lnt. now rewrite horner_correct. Qed.
Lemma hb_lt1 T Tc cs : 0 < Tc -> T < Tc ->
  horner_backwards_ln_tau_and_der T Tc cs = Ok (t0 (heval cs) Tc T, t1 (hd1 cs) Tc T).
Proof. intros HTc HT. unfold horner_backwards_ln_tau_and_der. lnt. f_equal. pair_eq. unfold t1. field; lra. Qed.
Lemma hb_lt2 T Tc cs : 0 < Tc -> T < Tc ->
  horner_backwards_ln_tau_and_der2 T Tc cs = Ok (t0 (heval cs) Tc T, t1 (hd1 cs) Tc T, t2 (hd1 cs) (hd2 cs) Tc T).
Proof. intros HTc HT. unfold horner_backwards_ln_tau_and_der2. lnt. f_equal. pair_eq; unfold t1, t2; field; lra. Qed.
Lemma hb_lt3 T Tc cs : 0 < Tc -> T < Tc ->
  horner_backwards_ln_tau_and_der3 T Tc cs
  = Ok (t0 (heval cs) Tc T, t1 (hd1 cs) Tc T, t2 (hd1 cs) (hd2 cs) Tc T, t3 (hd1 cs) (hd2 cs) (hd3 cs) Tc T).
Proof. intros HTc HT. unfold horner_backwards_ln_tau_and_der3. lnt. f_equal. pair_eq; unfold t1, t2, t3; field; lra. Qed.

Lemma hs_lt T Tc cs o s : 0 < Tc -> T < Tc ->
  horner_stable_ln_tau T Tc cs o s = Ok (t0 (sv cs o s) Tc T).
Proof. intros HTc HT. unfold horner_stable_ln_tau. lnt. now rewrite horner_stable_correct. Qed.
Lemma hs_lt1 T Tc cs o s : 0 < Tc -> T < Tc ->
  horner_stable_ln_tau_and_der T Tc cs o s = Ok (t0 (sv cs o s) Tc T, t1 (sd1 cs o s) Tc T).
Proof. intros HTc HT. unfold horner_stable_ln_tau_and_der. lnt. f_equal. pair_eq. unfold t1, sd1. field; lra. Qed.
Lemma hs_lt2 T Tc cs o s : 0 < Tc -> T < Tc ->
  horner_stable_ln_tau_and_der2 T Tc cs o s
  = Ok (t0 (sv cs o s) Tc T, t1 (sd1 cs o s) Tc T, t2 (sd1 cs o s) (sd2 cs o s) Tc T).
Proof. intros HTc HT. unfold horner_stable_ln_tau_and_der2. lnt. f_equal. pair_eq; unfold t1, t2, sd1, sd2; field; lra. Qed.
Lemma hs_lt3 T Tc cs o s : 0 < Tc -> T < Tc ->
  horner_stable_ln_tau_and_der3 T Tc cs o s
  = Ok (t0 (sv cs o s) Tc T, t1 (sd1 cs o s) Tc T, t2 (sd1 cs o s) (sd2 cs o s) Tc T,
        t3 (sd1 cs o s) (sd2 cs o s) (sd3 cs o s) Tc T).
Proof. intros HTc HT. unfold horner_stable_ln_tau_and_der3. lnt. f_equal. pair_eq; unfold t1, t2, t3, sd1, sd2, sd3; field; lra. Qed.

Lemma ehb cs x : heval cs x <= exp_overflow -> exp_horner_backwards x cs = Ok (e0 (heval cs) x).
Proof. intros H. unfold exp_horner_backwards. rewrite horner_correct, pexp_ok; auto. Qed.
Lemma ehb1 cs x : heval cs x <= exp_overflow ->
  exp_horner_backwards_and_der x cs = Ok (e0 (heval cs) x, e1 (heval cs) (hd1 cs) x).
Proof. intros H. unfold exp_horner_backwards_and_der. rewrite horner_and_der_eq, pexp_ok; auto. Qed.
Lemma ehb2 cs x : heval cs x <= exp_overflow ->
  exp_horner_backwards_and_der2 x cs = Ok (e0 (heval cs) x, e1 (heval cs) (hd1 cs) x, e2 (heval cs) (hd1 cs) (hd2 cs) x).
Proof. intros H. unfold exp_horner_backwards_and_der2. rewrite horner_and_der2_eq, pexp_ok; auto. Qed.
Lemma ehb3 cs x : heval cs x <= exp_overflow ->
  exp_horner_backwards_and_der3 x cs
  = Ok (e0 (heval cs) x, e1 (heval cs) (hd1 cs) x, e2 (heval cs) (hd1 cs) (hd2 cs) x,
        e3 (heval cs) (hd1 cs) (hd2 cs) (hd3 cs) x).
Proof. intros H. unfold exp_horner_backwards_and_der3. rewrite horner_and_der3_eq, pexp_ok; auto. Qed.

Lemma ehs cs o s x : sv cs o s x <= exp_overflow -> exp_horner_stable x cs o s = e0 (sv cs o s) x.
Proof. intros H. unfold exp_horner_stable. rewrite horner_stable_correct, trunc_exp_ok; auto. Qed.
Lemma ehs1 cs o s x : sv cs o s x <= exp_overflow ->
  exp_horner_stable_and_der x cs o s = Ok (e0 (sv cs o s) x, e1 (sv cs o s) (sd1 cs o s) x).
Proof. intros H. unfold exp_horner_stable_and_der. rewrite horner_stable_and_der_eq, pexp_ok; auto. Qed.
Lemma ehs2 cs o s x : sv cs o s x <= exp_overflow ->
  exp_horner_stable_and_der2 x cs o s
  = Ok (e0 (sv cs o s) x, e1 (sv cs o s) (sd1 cs o s) x, e2 (sv cs o s) (sd1 cs o s) (sd2 cs o s) x).
Proof. intros H. unfold exp_horner_stable_and_der2. rewrite horner_stable_and_der2_eq, pexp_ok; auto. Qed.
Lemma ehs3 cs o s x : sv cs o s x <= exp_overflow ->
  exp_horner_stable_and_der3 x cs o s
  = Ok (e0 (sv cs o s) x, e1 (sv cs o s) (sd1 cs o s) x, e2 (sv cs o s) (sd1 cs o s) (sd2 cs o s) x,
        e3 (sv cs o s) (sd1 cs o s) (sd2 cs o s) (sd3 cs o s) x).
Proof. intros H. unfold exp_horner_stable_and_der3. rewrite horner_stable_and_der3_eq, pexp_ok; auto. Qed.

Lemma eblt T Tc cs : 0 < Tc -> T < Tc -> heval cs (L Tc T) <= exp_overflow ->
  exp_horner_backwards_ln_tau T Tc cs = Ok (t0 (e0 (heval cs)) Tc T).
Proof. intros HTc HT HO. unfold exp_horner_backwards_ln_tau. lnt. rewrite horner_correct. apply pexp_ok; auto. Qed.
Lemma eblt1 T Tc cs : 0 < Tc -> T < Tc -> heval cs (L Tc T) <= exp_overflow ->
  exp_horner_backwards_ln_tau_and_der T Tc cs
  = Ok (t0 (e0 (heval cs)) Tc T, t1 (e1 (heval cs) (hd1 cs)) Tc T).
Proof. intros HTc HT HO. unfold exp_horner_backwards_ln_tau_and_der. lnt. f_equal. pair_eq. unfold t1, e1. field; lra. Qed.
Lemma eblt2 T Tc cs : 0 < Tc -> T < Tc -> heval cs (L Tc T) <= exp_overflow ->
  exp_horner_backwards_ln_tau_and_der2 T Tc cs
  = Ok (t0 (e0 (heval cs)) Tc T, t1 (e1 (heval cs) (hd1 cs)) Tc T,
        t2 (e1 (heval cs) (hd1 cs)) (e2 (heval cs) (hd1 cs) (hd2 cs)) Tc T).
Proof. intros HTc HT HO. unfold exp_horner_backwards_ln_tau_and_der2. lnt. f_equal. pair_eq; unfold t1, t2, e1, e2; field; lra. Qed.
Lemma eslt T Tc cs o s : 0 < Tc -> T < Tc -> sv cs o s (L Tc T) <= exp_overflow ->
  exp_horner_stable_ln_tau T Tc cs o s = Ok (t0 (e0 (sv cs o s)) Tc T).
Proof. intros HTc HT HO. unfold exp_horner_stable_ln_tau. lnt. rewrite horner_stable_correct, trunc_exp_ok; auto. Qed.
Lemma eslt1 T Tc cs o s : 0 < Tc -> T < Tc -> sv cs o s (L Tc T) <= exp_overflow ->
  exp_horner_stable_ln_tau_and_der T Tc cs o s
  = Ok (t0 (e0 (sv cs o s)) Tc T, t1 (e1 (sv cs o s) (sd1 cs o s)) Tc T).
Proof. intros HTc HT HO. unfold sv in HO. unfold exp_horner_stable_ln_tau_and_der. lnt. f_equal. pair_eq. unfold t1, e1, sv, sd1. field; lra. Qed.
Lemma eslt2 T Tc cs o s : 0 < Tc -> T < Tc -> sv cs o s (L Tc T) <= exp_overflow ->
  exp_horner_stable_ln_tau_and_der2 T Tc cs o s
  = Ok (t0 (e0 (sv cs o s)) Tc T, t1 (e1 (sv cs o s) (sd1 cs o s)) Tc T,
        t2 (e1 (sv cs o s) (sd1 cs o s)) (e2 (sv cs o s) (sd1 cs o s) (sd2 cs o s)) Tc T).
Proof. intros HTc HT HO. unfold sv in HO. unfold exp_horner_stable_ln_tau_and_der2. lnt. f_equal. pair_eq; unfold t1, t2, e1, e2, sv, sd1, sd2; field; lra. Qed.

(** exp_poly_ln_tau_coeffs2/3: the exponential polynomial matches value and derivatives. *)
Lemma heval2 a b x : heval [a; b] x = a * x + b.
Proof. unfold heval; simpl; ring. Qed.
Lemma heval3 a b c x : heval [a; b; c] x = a * x ^ 2 + b * x + c.
Proof. unfold heval; simpl; ring. Qed.
Lemma hd1_2 a b x : hd1 [a; b] x = a. Proof. unfold hd1, hst; simpl; ring. Qed.
Lemma hd1_3 a b c x : hd1 [a; b; c] x = 2 * a * x + b. Proof. unfold hd1, hst; simpl; ring. Qed.
Lemma hd2_3 a b c x : hd2 [a; b; c] x = 2 * a. Proof. unfold hd2, hst; simpl; ring. Qed.

Lemma lncoef2 T Tc val der : 0 < Tc -> T < Tc -> 0 < val ->
  exists c0 c1, exp_poly_ln_tau_coeffs2 T Tc val der = Ok (c0, c1) /\
    t0 (e0 (heval [c0; c1])) Tc T = val /\
    t1 (e1 (heval [c0; c1]) (hd1 [c0; c1])) Tc T = der.
Proof.
  intros HTc HT Hv. unfold exp_poly_ln_tau_coeffs2.
  rewrite pdiv_ok by lra; cbn [bind]. rewrite pdiv_ok by lra; cbn [bind].
  assert (E : - (T - Tc) / Tc = 1 - T / Tc) by (field; lra).
  rewrite E, plog_ok by now apply tau_pos. cbn [bind]. rewrite plog_ok by auto. cbn [bind].
  do 2 eexists. split; [reflexivity|].
  unfold t0, t1, e0, e1. rewrite heval2, hd1_2. fold (L Tc T).
  match goal with |- exp ?A = _ /\ _ => assert (X : A = ln val) by (field; lra) end.
  rewrite X, exp_ln by auto. split; [reflexivity|]. field; lra.
Qed.
Lemma lncoef3 T Tc val der der2 : 0 < Tc -> T < Tc -> 0 < val ->
  exists a b c, exp_poly_ln_tau_coeffs3 T Tc val der der2 = Ok (a, b, c) /\
    let p := heval [a; b; c] in
    t0 (e0 p) Tc T = val /\
    t1 (e1 p (hd1 [a; b; c])) Tc T = der /\
    t2 (e1 p (hd1 [a; b; c])) (e2 p (hd1 [a; b; c]) (hd2 [a; b; c])) Tc T = der2.
Proof.
  intros HTc HT Hv. unfold exp_poly_ln_tau_coeffs3. cbv zeta.
  assert (val * val <> 0) by (apply Rmult_integral_contrapositive_currified; lra).
  rewrite pdiv_ok by auto; cbn [bind]. rewrite pdiv_ok by lra; cbn [bind].
  assert (E : - (T - Tc) / Tc = 1 - T / Tc) by (field; lra).
  rewrite E, plog_ok by now apply tau_pos. cbn [bind]. rewrite plog_ok by auto. cbn [bind].
  do 3 eexists. split; [reflexivity|].
  unfold t0, t1, t2, e0, e1, e2. rewrite heval3, hd1_3, hd2_3. fold (L Tc T).
  match goal with |- exp ?A = _ /\ _ => assert (X : A = ln val) by (field; lra) end.
  rewrite X, exp_ln by auto. split; [reflexivity|]. split; field; lra.
Qed.
