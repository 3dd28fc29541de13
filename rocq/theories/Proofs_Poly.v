(** Proofs about Model_Poly. *)
From Coq Require Import List Bool QArith Reals ZArith Lra Lia Arith.
From Coquelicot Require Import Coquelicot.
From Verif Require Import Base Sums Spec_Poly Model_Poly.
Import ListNotations.
Local Open Scope R_scope.

Lemma heval_nil x : heval [] x = 0. Proof. reflexivity. Qed.
Lemma leval_nil x : leval [] x = 0. Proof. reflexivity. Qed.
Lemma heval_snoc cs c x : heval (cs ++ [c]) x = heval cs x * x + c.
Proof.
  unfold heval. rewrite app_length; simpl. rewrite Nat.add_1_r. simpl Rsum.
  rewrite app_nth2, Nat.sub_diag by lia. simpl nth.
  replace (length cs - 0 - length cs)%nat with 0%nat by lia. simpl pow.
  rewrite Rmult_1_r, <- Rsum_scal_r. f_equal.
  apply Rsum_ext; intros i Hi. rewrite app_nth1 by lia.
  replace (length cs - 0 - i)%nat with (S (length cs - 1 - i)) by lia. simpl; ring.
Qed.
Lemma leval_cons c cs x : leval (c :: cs) x = c + x * leval cs x.
Proof.
  unfold leval. simpl length. rewrite Rsum_head. simpl nth. rewrite pow_O, <- Rsum_scal.
  rewrite Rmult_1_r. f_equal. apply Rsum_ext; intros; simpl; ring.
Qed.
Lemma leval_app l1 l2 x : leval (l1 ++ l2) x = leval l1 x + x ^ length l1 * leval l2 x.
Proof. induction l1; simpl app; [unfold leval at 2; simpl; lra|]. rewrite !leval_cons, IHl1. simpl; ring. Qed.
Lemma leval_rev cs x : leval (rev cs) x = heval cs x.
Proof.
  unfold leval, heval. rewrite rev_length, Rsum_rev. apply Rsum_ext; intros i Hi.
  rewrite rev_nth by lia. f_equal. f_equal. lia.
Qed.
Lemma heval_rev cs x : heval (rev cs) x = leval cs x.
Proof. rewrite <- leval_rev, rev_involutive. reflexivity. Qed.
Lemma heval_cons c cs x : heval (c :: cs) x = c * x ^ length cs + heval cs x.
Proof. rewrite <- !leval_rev. simpl rev. rewrite leval_app, rev_length, leval_cons, leval_nil. ring. Qed.

(** ** C01 *)
Lemma fold_horner cs x : fold_left (fun tot c => tot * x + c) cs 0 = heval cs x.
Proof.
  induction cs as [|c cs IH] using rev_ind; [reflexivity|].
  rewrite fold_left_app, heval_snoc, IH. reflexivity.
Qed.
Lemma horner_correct cs x : horner cs x = heval cs x.
Proof. unfold horner; numR. apply fold_horner. Qed.
Lemma horner_stable_correct x cs off scl : horner_stable x cs off scl = heval cs (off + scl * x).
Proof. unfold horner_stable; numR. apply fold_horner. Qed.
Lemma Q2R_2 : Q2R 2 = 2. Proof. unfold Q2R; simpl; lra. Qed.
Lemma Q2R_6 : Q2R 6 = 6. Proof. unfold Q2R; simpl; lra. Qed.
Lemma Q2R_24 : Q2R 24 = 24. Proof. unfold Q2R; simpl; lra. Qed.
Lemma horner_domain_ok x cs xmin xmax : xmin <> xmax ->
  horner_domain x cs xmin xmax = Ok (heval cs ((2 * x - xmin - xmax) / (xmax - xmin))).
Proof.
  intros H. unfold horner_domain. rewrite pydivR_ok by (numR; lra). cbn [bind].
  numR. f_equal. rewrite fold_horner. f_equal. rewrite Q2R_2. field. lra.
Qed.
Lemma horner_domain_err x cs xm : horner_domain x cs xm xm = Err ZeroDivisionError.
Proof. unfold horner_domain. numR. replace (xm - xm) with 0 by lra. rewrite pydivR_0. reflexivity. Qed.

(** ** C02 *)
(** The full fold state. *)
Definition hst (cs : list R) (x : R) :=
  fold_left (fun '(f, der, der2, der3, der4) a =>
    (x * f + a, x * der + f, x * der2 + der, x * der3 + der2, x * der4 + der3))
    cs (0, 0, 0, 0, 0).
Definition s0 (s : R*R*R*R*R) := let '(a,b,c,d,e) := s in a.
Definition s1 (s : R*R*R*R*R) := let '(a,b,c,d,e) := s in b.
Definition s2 (s : R*R*R*R*R) := let '(a,b,c,d,e) := s in c.
Definition s3 (s : R*R*R*R*R) := let '(a,b,c,d,e) := s in d.
Definition s4 (s : R*R*R*R*R) := let '(a,b,c,d,e) := s in e.

Lemma hst_snoc cs a x :
  hst (cs ++ [a]) x =
  (x * s0 (hst cs x) + a, x * s1 (hst cs x) + s0 (hst cs x), x * s2 (hst cs x) + s1 (hst cs x),
   x * s3 (hst cs x) + s2 (hst cs x), x * s4 (hst cs x) + s3 (hst cs x)).
Proof. unfold hst at 1. rewrite fold_left_app. fold (hst cs x). destruct (hst cs x) as [[[[? ?] ?] ?] ?]. reflexivity. Qed.

Lemma hst_derive cs : forall x,
  s0 (hst cs x) = heval cs x /\
  is_derive (fun y => s0 (hst cs y)) x (s1 (hst cs x)) /\
  is_derive (fun y => s1 (hst cs y)) x (2 * s2 (hst cs x)) /\
  is_derive (fun y => s2 (hst cs y)) x (3 * s3 (hst cs x)) /\
  is_derive (fun y => s3 (hst cs y)) x (4 * s4 (hst cs x)).
Proof.
  induction cs as [|a cs IH] using rev_ind; intros x.
  - unfold hst; simpl. splits; try reflexivity; auto_derive; auto; ring.
  - destruct (IH x) as (H0 & H1 & H2 & H3 & H4).
    assert (E0 : forall y, s0 (hst (cs ++ [a]) y) = y * s0 (hst cs y) + a) by (intros; now rewrite hst_snoc).
    assert (E1 : forall y, s1 (hst (cs ++ [a]) y) = y * s1 (hst cs y) + s0 (hst cs y)) by (intros; now rewrite hst_snoc).
    assert (E2 : forall y, s2 (hst (cs ++ [a]) y) = y * s2 (hst cs y) + s1 (hst cs y)) by (intros; now rewrite hst_snoc).
    assert (E3 : forall y, s3 (hst (cs ++ [a]) y) = y * s3 (hst cs y) + s2 (hst cs y)) by (intros; now rewrite hst_snoc).
    assert (E4 : forall y, s4 (hst (cs ++ [a]) y) = y * s4 (hst cs y) + s3 (hst cs y)) by (intros; now rewrite hst_snoc).
    rewrite E0, E1, E2, E3, E4, heval_snoc, H0.
    splits.
    + ring.
    + apply (is_derive_ext (fun y => y * s0 (hst cs y) + a)); [intros; now rewrite E0|].
      replace (x * s1 (hst cs x) + heval cs x) with (plus (plus (mult one (s0 (hst cs x))) (mult x (s1 (hst cs x)))) zero)
        by (rewrite H0; unfold plus, mult, one, zero; simpl; ring).
      apply @is_derive_plus; [|apply @is_derive_const].
      apply @is_derive_mult; auto; [apply @is_derive_id | intros; apply Rmult_comm].
    + apply (is_derive_ext (fun y => y * s1 (hst cs y) + s0 (hst cs y))); [intros; now rewrite E1|].
      replace (2 * (x * s2 (hst cs x) + s1 (hst cs x)))
        with (plus (plus (mult one (s1 (hst cs x))) (mult x (2 * s2 (hst cs x)))) (s1 (hst cs x)))
        by (unfold plus, mult, one, zero; simpl; ring).
      apply @is_derive_plus; auto.
      apply @is_derive_mult; auto; [apply @is_derive_id | intros; apply Rmult_comm].
    + apply (is_derive_ext (fun y => y * s2 (hst cs y) + s1 (hst cs y))); [intros; now rewrite E2|].
      replace (3 * (x * s3 (hst cs x) + s2 (hst cs x)))
        with (plus (plus (mult one (s2 (hst cs x))) (mult x (3 * s3 (hst cs x)))) (2 * s2 (hst cs x)))
        by (unfold plus, mult, one, zero; simpl; ring).
      apply @is_derive_plus; auto.
      apply @is_derive_mult; auto; [apply @is_derive_id | intros; apply Rmult_comm].
    + apply (is_derive_ext (fun y => y * s3 (hst cs y) + s2 (hst cs y))); [intros; now rewrite E3|].
      replace (4 * (x * s4 (hst cs x) + s3 (hst cs x)))
        with (plus (plus (mult one (s3 (hst cs x))) (mult x (4 * s4 (hst cs x)))) (3 * s3 (hst cs x)))
        by (unfold plus, mult, one, zero; simpl; ring).
      apply @is_derive_plus; auto.
      apply @is_derive_mult; auto; [apply @is_derive_id | intros; apply Rmult_comm].
Qed.

(** First four derivatives of heval, as functions. *)
Definition hd1 cs x := s1 (hst cs x).
Definition hd2 cs x := 2 * s2 (hst cs x).
Definition hd3 cs x := 6 * s3 (hst cs x).
Definition hd4 cs x := 24 * s4 (hst cs x).

Lemma heval_d1 cs x : is_derive (heval cs) x (hd1 cs x).
Proof. apply (is_derive_ext (fun y => s0 (hst cs y))); [intros; apply hst_derive | apply hst_derive]. Qed.
Lemma heval_d2 cs x : is_derive (hd1 cs) x (hd2 cs x).
Proof. apply hst_derive. Qed.
Lemma heval_d3 cs x : is_derive (hd2 cs) x (hd3 cs x).
Proof.
  unfold hd2, hd3. replace (6 * s3 (hst cs x)) with (2 * (3 * s3 (hst cs x))) by ring.
  apply (is_derive_scal (fun y => s2 (hst cs y)) x 2). apply hst_derive.
Qed.
Lemma heval_d4 cs x : is_derive (hd3 cs) x (hd4 cs x).
Proof.
  unfold hd3, hd4. replace (24 * s4 (hst cs x)) with (6 * (4 * s4 (hst cs x))) by ring.
  apply (is_derive_scal (fun y => s3 (hst cs y)) x 6). apply hst_derive.
Qed.

Lemma Derive_n_from f f1 n : (forall x, is_derive f x (f1 x)) ->
  forall x, Derive_n f (S n) x = Derive_n f1 n x.
Proof.
  intros H x. rewrite <- (Nat.add_1_r n), <- Derive_n_comp. apply Derive_n_ext.
  intros t; simpl. apply is_derive_unique, H.
Qed.
Lemma is_derive_n_from f f1 n x l : (forall x, is_derive f x (f1 x)) ->
  is_derive_n f1 n x l -> is_derive_n f (S n) x l.
Proof.
  intros H Hn. destruct n.
  - simpl in *. subst l. apply (is_derive_ext f); [reflexivity | apply H].
  - simpl in Hn |- *. apply (is_derive_ext (Derive_n f1 n)); auto.
    intros t. symmetry. apply (Derive_n_from f f1 n H t).
Qed.

Lemma heval_dn1 cs x : is_derive_n (heval cs) 1 x (hd1 cs x).
Proof. simpl. apply (is_derive_ext (heval cs)); [reflexivity|apply heval_d1]. Qed.
Lemma heval_dn2 cs x : is_derive_n (heval cs) 2 x (hd2 cs x).
Proof. apply (is_derive_n_from _ (hd1 cs)); [apply heval_d1|]. simpl. apply (is_derive_ext (hd1 cs)); [reflexivity|apply heval_d2]. Qed.
Lemma heval_dn3 cs x : is_derive_n (heval cs) 3 x (hd3 cs x).
Proof. apply (is_derive_n_from _ (hd1 cs)); [apply heval_d1|]. apply (is_derive_n_from _ (hd2 cs)); [apply heval_d2|]. simpl. apply (is_derive_ext (hd2 cs)); [reflexivity|apply heval_d3]. Qed.
Lemma heval_dn4 cs x : is_derive_n (heval cs) 4 x (hd4 cs x).
Proof. apply (is_derive_n_from _ (hd1 cs)); [apply heval_d1|]. apply (is_derive_n_from _ (hd2 cs)); [apply heval_d2|].
 apply (is_derive_n_from _ (hd3 cs)); [apply heval_d3|]. simpl. apply (is_derive_ext (hd3 cs)); [reflexivity|apply heval_d4]. Qed.

(** The shorter folds are prefixes of the long one. *)
Lemma fold1_eq cs x :
  fold_left (fun '(f, der) a => (x * f + a, x * der + f)) cs (0, 0) = (s0 (hst cs x), s1 (hst cs x)).
Proof. induction cs as [|a cs IH] using rev_ind; [reflexivity|]. rewrite fold_left_app, IH, hst_snoc. reflexivity. Qed.
Lemma fold2_eq cs x :
  fold_left (fun '(f, der, der2) a => (x * f + a, x * der + f, x * der2 + der)) cs (0, 0, 0)
  = (s0 (hst cs x), s1 (hst cs x), s2 (hst cs x)).
Proof. induction cs as [|a cs IH] using rev_ind; [reflexivity|]. rewrite fold_left_app, IH, hst_snoc. reflexivity. Qed.
Lemma fold3_eq cs x :
  fold_left (fun '(f, der, der2, der3) a => (x * f + a, x * der + f, x * der2 + der, x * der3 + der2)) cs (0, 0, 0, 0)
  = (s0 (hst cs x), s1 (hst cs x), s2 (hst cs x), s3 (hst cs x)).
Proof. induction cs as [|a cs IH] using rev_ind; [reflexivity|]. rewrite fold_left_app, IH, hst_snoc. reflexivity. Qed.
Lemma fold4_eq cs x : hst cs x = (s0 (hst cs x), s1 (hst cs x), s2 (hst cs x), s3 (hst cs x), s4 (hst cs x)).
Proof. destruct (hst cs x) as [[[[? ?] ?] ?] ?]; reflexivity. Qed.

Lemma hst_s0 cs x : s0 (hst cs x) = heval cs x. Proof. apply hst_derive. Qed.

Lemma horner_and_der_eq cs x : horner_and_der cs x = (heval cs x, hd1 cs x).
Proof. unfold horner_and_der; numR. rewrite fold1_eq, hst_s0. reflexivity. Qed.
Lemma horner_and_der2_eq cs x : horner_and_der2 cs x = (heval cs x, hd1 cs x, hd2 cs x).
Proof. unfold horner_and_der2; numR. rewrite fold2_eq, hst_s0. unfold hd1, hd2. pair_eq; ring. Qed.
Lemma horner_and_der3_eq cs x : horner_and_der3 cs x = (heval cs x, hd1 cs x, hd2 cs x, hd3 cs x).
Proof. unfold horner_and_der3; numR. rewrite fold3_eq, hst_s0, Q2R_6. unfold hd1, hd2, hd3. pair_eq; ring. Qed.
Lemma horner_and_der4_eq cs x : horner_and_der4 cs x = (heval cs x, hd1 cs x, hd2 cs x, hd3 cs x, hd4 cs x).
Proof. unfold horner_and_der4; numR. fold (hst cs x). rewrite fold4_eq, hst_s0, Q2R_6, Q2R_24. unfold hd1, hd2, hd3, hd4. pair_eq; ring. Qed.

Lemma horner_stable_and_der_eq x cs o s :
  horner_stable_and_der x cs o s = (heval cs (o + s * x), s * hd1 cs (o + s * x)).
Proof. unfold horner_stable_and_der; numR. rewrite fold1_eq, hst_s0. unfold hd1. pair_eq; ring. Qed.
Lemma horner_stable_and_der2_eq x cs o s :
  horner_stable_and_der2 x cs o s = (heval cs (o + s * x), s * hd1 cs (o + s * x), s * s * hd2 cs (o + s * x)).
Proof. unfold horner_stable_and_der2; numR. rewrite fold2_eq, hst_s0. unfold hd1, hd2. pair_eq; ring. Qed.
Lemma horner_stable_and_der3_eq x cs o s :
  horner_stable_and_der3 x cs o s =
  (heval cs (o + s * x), s * hd1 cs (o + s * x), s * s * hd2 cs (o + s * x), s * s * s * hd3 cs (o + s * x)).
Proof. unfold horner_stable_and_der3; numR. rewrite fold3_eq, hst_s0, Q2R_6. unfold hd1, hd2, hd3. pair_eq; ring. Qed.
Lemma horner_stable_and_der4_eq x cs o s :
  horner_stable_and_der4 x cs o s =
  (heval cs (o + s * x), s * hd1 cs (o + s * x), s * s * hd2 cs (o + s * x), s * s * s * hd3 cs (o + s * x),
   s * s * s * s * hd4 cs (o + s * x)).
Proof. unfold horner_stable_and_der4; numR. fold (hst cs (o + s * x)). rewrite fold4_eq, hst_s0, Q2R_6, Q2R_24. unfold hd1, hd2, hd3, hd4. pair_eq; ring. Qed.

(** Scaled derivatives. *)
Lemma is_derive_comp_aff (f : R -> R) (l o s x : R) :
  is_derive f (o + s * x) l -> is_derive (fun y => f (o + s * y)) x (s * l).
Proof.
  intros H. apply (is_derive_comp f (fun y => o + s * y) x l s); auto.
  auto_derive; auto; ring.
Qed.
Lemma is_derive_scal' (f : R -> R) k x l : is_derive f x l -> is_derive (fun y => k * f y) x (k * l).
Proof. intros H. apply (is_derive_scal f x k l H). Qed.

Section Scaled.
Variables (cs : list R) (o s : R).
Definition sv x := heval cs (o + s * x).
Definition sd1 x := s * hd1 cs (o + s * x).
Definition sd2 x := s * s * hd2 cs (o + s * x).
Definition sd3 x := s * s * s * hd3 cs (o + s * x).
Definition sd4 x := s * s * s * s * hd4 cs (o + s * x).
Lemma sv_d x : is_derive sv x (sd1 x).
Proof. apply is_derive_comp_aff, heval_d1. Qed.
Lemma sd1_d x : is_derive sd1 x (sd2 x).
Proof. unfold sd1, sd2. rewrite Rmult_assoc. apply is_derive_scal'. apply (is_derive_comp_aff (hd1 cs)), heval_d2. Qed.
Lemma sd2_d x : is_derive sd2 x (sd3 x).
Proof. unfold sd2, sd3. rewrite (Rmult_assoc (s*s)). apply is_derive_scal'. apply (is_derive_comp_aff (hd2 cs)), heval_d3. Qed.
Lemma sd3_d x : is_derive sd3 x (sd4 x).
Proof. unfold sd3, sd4. rewrite (Rmult_assoc (s*s*s)). apply is_derive_scal'. apply (is_derive_comp_aff (hd3 cs)), heval_d4. Qed.
End Scaled.

(** From a chain of first derivatives to n-th derivatives. *)
Lemma chain1 f f1 x : (forall x, is_derive f x (f1 x)) -> is_derive_n f 1 x (f1 x).
Proof. intros H. apply (is_derive_ext f); [reflexivity | apply H]. Qed.
Lemma chain2 f f1 f2 x : (forall x, is_derive f x (f1 x)) -> (forall x, is_derive f1 x (f2 x)) -> is_derive_n f 2 x (f2 x).
Proof. intros. apply (is_derive_n_from f f1); auto. now apply chain1. Qed.
Lemma chain3 f f1 f2 f3 x : (forall x, is_derive f x (f1 x)) -> (forall x, is_derive f1 x (f2 x)) ->
  (forall x, is_derive f2 x (f3 x)) -> is_derive_n f 3 x (f3 x).
Proof. intros. apply (is_derive_n_from f f1); auto. now apply (chain2 f1 f2). Qed.
Lemma chain4 f f1 f2 f3 f4 x : (forall x, is_derive f x (f1 x)) -> (forall x, is_derive f1 x (f2 x)) ->
  (forall x, is_derive f2 x (f3 x)) -> (forall x, is_derive f3 x (f4 x)) -> is_derive_n f 4 x (f4 x).
Proof. intros. apply (is_derive_n_from f f1); auto. now apply (chain3 f1 f2 f3). Qed.
