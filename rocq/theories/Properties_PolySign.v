(** Sign tests for polynomials (C111). *)
From Coq Require Import Reals Lra Lia List Bool ZArith.
From Coquelicot Require Import Coquelicot.
From Verif Require Import Base Sums Spec_Poly Model_Poly Model_Numerics Proofs_Poly Proofs_Seq Model_PolySign Model_Real Proofs_Real.
Import ListNotations.
Local Open Scope R_scope.

(** [roots] reports every real zero of p, with imaginary part 0 *)
Definition finds_zeros (roots : list R -> list (R * R)) (p : list R) : Prop := forall z, heval p z = 0 -> In (z, 0) (roots p).
(** no zero of p lies within relative distance e above another one *)
Definition zeros_apart (p : list R) (e : R) : Prop := forall z y, heval p z = 0 -> z < y <= z + Rabs z * e -> heval p y <> 0.
Definition in_domain (d : option (R * R)) (x : R) : Prop := match d with Some (a, b) => a <= x <= b | None => Rabs x <= 10 ^ 100 end.

Lemma heval_continuous p x : continuity_pt (heval p) x.
Proof. apply derivable_continuous_pt. exists (hd1 p x). apply is_derive_Reals, heval_d1. Qed.
Lemma near_sign (g : R -> R) x : continuity_pt g x -> g x <> 0 -> exists d, 0 < d /\ forall y, Rabs (y - x) < d -> 0 < g x * g y.
Proof.
  intros Hc Hx. destruct (Hc (Rabs (g x)) (Rabs_pos_lt _ Hx)) as [d [Hd H]]. exists d. split; auto. intros y Hy.
  destruct (Req_dec x y) as [<-|Hne]; [nra|]. assert (K : Rabs (g y - g x) < Rabs (g x)) by (apply (H y); repeat split; auto).
  unfold Rabs in K. destruct (Rcase_abs (g y - g x)), (Rcase_abs (g x)); nra.
Qed.
Lemma last_zero (g : R -> R) a c : (forall x, continuity_pt g x) -> a < c -> 0 <= g a -> g c < 0 ->
  exists z, a <= z < c /\ g z = 0 /\ forall y, z < y <= c -> g y < 0.
Proof.
  intros Hg Hac Ha Hc. set (E := fun x => a <= x <= c /\ 0 <= g x).
  destruct (completeness E) as [z [Hu Hl]]; [exists c; intros x [Hx _]; lra|exists a; split; [lra|auto]|].
  assert (Ez : a <= z <= c). { split; [apply Hu; split; [lra|auto]|apply Hl; intros x [Hx _]; lra]. }
  assert (Hn : forall y, z < y <= c -> g y < 0). { intros y Hy. destruct (Rlt_dec (g y) 0); auto. exfalso. assert (y <= z) by (apply Hu; split; lra). lra. }
  assert (Hz1 : 0 <= g z).
  { destruct (Rle_dec 0 (g z)) as [|N]; auto. exfalso. destruct (near_sign g z (Hg z)) as [d [Hd H]]; [lra|].
    assert (z <= z - d); [|lra]. apply Hl. intros x [Hx Hgx]. destruct (Rle_dec x (z - d)); auto. exfalso.
    assert (x <= z) by (apply Hu; split; auto). assert (0 < g z * g x) by (apply H; rewrite Rabs_minus_sym, Rabs_pos_eq; lra). nra. }
  assert (Hzc : z < c) by (destruct (Req_dec z c) as [->|]; lra).
  exists z. splits; auto; [lra|]. apply Rle_antisym; auto. destruct (Rle_dec (g z) 0) as [|N]; auto. exfalso.
  destruct (near_sign g z (Hg z)) as [d [Hd H]]; [lra|]. set (y := z + Rmin (d / 2) (c - z)).
  assert (Hy : z < y <= c /\ Rabs (y - z) < d). { unfold y. assert (A := Rmin_l (d / 2) (c - z)). assert (B := Rmin_r (d / 2) (c - z)). assert (0 < Rmin (d / 2) (c - z)) by (apply Rmin_glb_lt; lra). split; [lra|]. rewrite Rabs_pos_eq; lra. }
  specialize (Hn y (proj1 Hy)). specialize (H y (proj2 Hy)). nra.
Qed.
Lemma zero_between (g : R -> R) u v : (forall x, continuity_pt g x) -> u <= v -> g u < 0 -> 0 <= g v -> exists y, u <= y <= v /\ g y = 0.
Proof.
  intros Hg Huv Hu Hv. destruct (Req_dec (g v) 0) as [Z|Z]; [exists v; split; [lra|auto]|].
  destruct (Req_dec u v) as [->|]; [lra|]. destruct (IVT g u v) as [y [Hy E]]; auto; try lra. eauto.
Qed.

Lemma pts_first d n l : (4 <= n)%Z -> (match d with
          | None => p <- logspace (-100) 100 (n / 2) true 10 ;; Ok (p ++ map Ropp p)
          | Some (a, b) => linspace a b n true
          end) = Ok l -> exists a, In a l /\ forall x, in_domain d x -> a <= x.
Proof.
  intros Hn. destruct d as [[a b]|].
  - intros E. unfold linspace in E. destruct (Z.leb_spec n 0); [lia|]. destruct (Z.eqb_spec n 1); [lia|]. apply bind_Ok_inv in E as [st [_ E]]. injection E as <-.
    exists a. split; [left; auto|]. intros x [Hx _]. auto.
  - intros E. apply bind_Ok_inv in E as [p [E1 E]]. injection E as <-. unfold logspace in E1. apply bind_Ok_inv in E1 as [y [E1 E2]].
    assert (M : (2 <= n / 2)%Z) by (apply Z.div_le_lower_bound; lia).
    unfold linspace in E1. destruct (Z.leb_spec (n / 2) 0); [lia|]. destruct (Z.eqb_spec (n / 2) 1); [lia|]. apply bind_Ok_inv in E1 as [st [_ E1]]. injection E1 as <-.
    assert (G : forall l p, mapM (ppow 10) (l ++ [100]) = Ok p -> In (10 ^ 100) p).
    { clear. induction l as [|u l IH]; intros p E; cbn [app mapM] in E.
      - rewrite ppow_ok in E by lra. cbn [bind mapM] in E. injection E as <-. left. change 100 with (INR 100%nat) at 1 || idtac. replace 100 with (INR 100) by (rewrite INR_IZR_INZ; reflexivity). apply Rpower_pow; lra.
      - apply bind_Ok_inv in E as [v [_ E]]. apply bind_Ok_inv in E as [w [E1 E]]. injection E as <-. right. now apply IH. }
    apply (G (-100 :: lin_acc (Z.to_nat (n / 2) - 2) (-100) st)) in E2. exists (- 10 ^ 100). split; [apply in_or_app; right; now apply in_map|]. intros x Hx. simpl in Hx. assert (Q := Rle_abs (- x)). rewrite Rabs_Ropp in Q. unfold in_domain in Hx. lra.
Qed.

(** A positive answer is right on the whole domain (without a domain: up to 10^100 in size), for polynomials of every degree, if
    the zeros are reported, none is 0, and no two are closer than the perturbation. *)
Theorem C111_positive roots p d n jt e : (4 <= n)%Z -> 0 < jt -> 0 < e ->
  finds_zeros roots p -> zeros_apart p e -> heval p 0 <> 0 ->
  is_poly_positive roots p d n jt e = Ok true -> forall x, in_domain d x -> 0 <= heval p x.
Proof.
  intros Hn Hj He Hr Ha H0 H x Hx. unfold is_poly_positive in H. apply bind_Ok_inv in H as [pts [Ep H]].
  destruct (pts_first d n pts Hn Ep) as [a [Hin Hlow]].
  destruct (existsb _ pts) eqn:E1; [discriminate|]. injection H as H. apply negb_true_iff in H.
  assert (Pa : 0 <= heval p a).
  { apply Rnot_lt_le. intros L. assert (K : existsb (fun q => Rltb (horner p q) 0) pts = true); [|congruence].
    apply existsb_exists. exists a. split; auto. apply Rltb_true. now rewrite horner_correct. }
  apply Rnot_lt_le. intros Lx. assert (Hax : a < x). { specialize (Hlow x Hx). destruct (Req_dec a x) as [->|]; lra. }
  destruct (last_zero (heval p) a x) as [z [Hz [Ez Hneg]]]; auto; [apply heval_continuous|].
  assert (Z0 : z <> 0) by (intros ->; auto). assert (Za := Rabs_pos_lt z Z0).
  assert (Hin' := Hr z Ez).
  assert (Hge : 0 <= heval p (z + Rabs z * e)).
  { apply Rnot_lt_le. intros L. assert (K : existsb (fun root => let '(r, im) := root in
      negb (Reqb r 0) && Rltb (Rabs (im / r)) jt && negb (match d with Some (a, b) => Rltb r a || Rltb b r | None => false end) &&
      (Rltb (horner p (r * (1 + e))) 0 || Rltb (horner p (r * (1 - e))) 0)) (roots p) = true); [|congruence].
    apply existsb_exists. exists (z, 0). split; auto. rewrite !andb_true_iff. splits.
    - apply negb_true_iff, Reqb_false; auto.
    - apply Rltb_true. unfold Rdiv. rewrite Rmult_0_l, Rabs_R0. auto.
    - destruct d as [[u v]|]; auto. apply negb_true_iff, orb_false_iff. cbn in Hx. split; apply Rltb_false; [|lra].
      unfold linspace in Ep. destruct (Z.leb_spec n 0); [lia|]. destruct (Z.eqb_spec n 1); [lia|]. apply bind_Ok_inv in Ep as [st [_ Ep]].
      assert (Iu : In u pts) by (injection Ep as <-; left; auto). 
      (* the zero is above the first sample u by the choice of a *)
      specialize (Hlow u). destruct (Rle_dec u z); auto. exfalso. assert (a <= u) by (apply Hlow; cbn; lra).
      assert (Pu : heval p u < 0) by (apply Hneg; lra).
      assert (K : existsb (fun q => Rltb (horner p q) 0) pts = true); [|congruence]. apply existsb_exists. exists u. split; auto. apply Rltb_true. now rewrite horner_correct.
    - rewrite !horner_correct. apply orb_true_iff. destruct (Rle_dec 0 z).
      + left. apply Rltb_true. rewrite Rabs_pos_eq in L by auto. replace (z * (1 + e)) with (z + z * e) by ring. auto.
      + right. apply Rltb_true. rewrite Rabs_left in L by lra. replace (z * (1 - e)) with (z + - z * e) by ring. auto. }
  assert (P : 0 < Rabs z * e) by (apply Rmult_lt_0_compat; auto).
  set (w := Rmin x (z + Rabs z * e)). assert (W1 := Rmin_l x (z + Rabs z * e)). assert (W2 := Rmin_r x (z + Rabs z * e)).
  assert (W3 : z < w) by (apply Rmin_glb_lt; lra). fold w in W1, W2.
  clearbody w. destruct (zero_between (heval p) w (z + Rabs z * e) (heval_continuous p) W2 (Hneg w (conj W3 W1)) Hge) as [y [Hy Ey]].
  apply (Ha z y Ez); auto. lra.
Qed.
Lemma heval_opp : forall p x, heval (map Ropp p) x = - heval p x.
Proof. induction p as [|c p IH]; intros x; [cbn; ring|]. cbn [map]. rewrite !heval_cons, IH, map_length. ring. Qed.
Theorem C111_negative roots p d n jt e : (4 <= n)%Z -> 0 < jt -> 0 < e ->
  finds_zeros roots (map Ropp p) -> zeros_apart p e -> heval p 0 <> 0 ->
  is_poly_negative roots p d n jt e = Ok true -> forall x, in_domain d x -> heval p x <= 0.
Proof.
  intros Hn Hj He Hr Ha H0 H x Hx. assert (0 <= heval (map Ropp p) x); [|rewrite heval_opp in *; lra].
  eapply (C111_positive roots (map Ropp p) d n jt e); eauto; [|rewrite heval_opp; lra].
  intros z y Hz Hy. rewrite heval_opp in *. assert (heval p y <> 0) by (apply (Ha z); auto; lra). lra.
Qed.
(** A negative answer always has a witness. *)
Theorem C111_not_positive roots p d n jt e : is_poly_positive roots p d n jt e = Ok false -> exists x, heval p x < 0.
Proof.
  intros H. unfold is_poly_positive in H. apply bind_Ok_inv in H as [pts [Ep H]]. destruct (existsb _ pts) eqn:E1.
  - apply existsb_exists in E1 as [x [_ E1]]. apply Rltb_true in E1. rewrite horner_correct in E1. eauto.
  - injection H as H. apply negb_false_iff, existsb_exists in H as [[r im] [_ H]]. apply andb_true_iff in H as [_ H]. apply orb_true_iff in H as [H|H].
    all: apply Rltb_true in H; rewrite horner_correct in H; eauto.
Qed.
Theorem C111_not_negative roots p d n jt e : is_poly_negative roots p d n jt e = Ok false -> exists x, 0 < heval p x.
Proof. intros H. apply C111_not_positive in H as [x H]. rewrite heval_opp in H. exists x. lra. Qed.

Lemma quadratic_value a b c x : heval [a; b; c] x = a * x ^ 2 + b * x + c.
Proof. rewrite !heval_cons. cbn. ring. Qed.
Lemma samples4 a b : linspace a b 4 true = Ok [a; a + (b - a) / 3; a + (b - a) / 3 + (b - a) / 3; b].
Proof.
  unfold linspace. cbn [Z.leb Z.eqb Z.compare Pos.compare Pos.compare_cont Pos.eqb]. assert (N : @nnat R _ (Z.to_nat 4 - 1) = 3) by (rewrite nnatR, INR_IZR_INZ; reflexivity). rewrite N.
  rewrite pydivR_ok by lra. reflexivity.
Qed.
(** x^2 - 3 x + 2 has the zeros 1 and 2 and is refused on [0, 5]; x^2 + 1 is accepted and meets the conditions. *)
Example C111_ex : is_poly_positive (fun _ => [(1, 0); (2, 0)]) [1; -3; 2] (Some (0, 5)) 4 1e-12 1e-12 = Ok false /\
  is_poly_positive (fun _ => [(0, 1); (0, -1)]) [1; 0; 1] (Some (0, 3)) 4 1e-12 1e-12 = Ok true /\
  finds_zeros (fun _ => [(0, 1); (0, -1)]) [1; 0; 1] /\ zeros_apart [1; 0; 1] 1e-12 /\ heval [1; 0; 1] 0 <> 0.
Proof.
  splits.
  - unfold is_poly_positive. rewrite samples4. cbn [bind existsb]. rewrite !horner_correct, !quadratic_value.
    assert (E : Rltb (1 * (0 + (5 - 0) / 3) ^ 2 + -3 * (0 + (5 - 0) / 3) + 2) 0 = true) by (apply Rltb_true; lra). rewrite E. now rewrite orb_true_r.
  - unfold is_poly_positive. rewrite samples4. cbn [bind existsb]. rewrite !horner_correct, !quadratic_value.
    repeat match goal with |- context [Rltb (1 * ?u ^ 2 + ?v + 1) 0] => let E := fresh in assert (E : Rltb (1 * u ^ 2 + v + 1) 0 = false) by (apply Rltb_false; nra); rewrite E; clear E end.
    cbn [orb]. assert (E : Reqb 0 0 = true) by (apply Reqb_true; auto). rewrite E. reflexivity.
  - intros z Hz. rewrite quadratic_value in Hz. exfalso. nra.
  - intros z y Hz. rewrite quadratic_value in Hz. exfalso. nra.
  - rewrite quadratic_value. lra.
Qed.
(** The separation is needed: (x - 1) (x - 1 - 1e-13) is called positive on [0, 4] although it is negative between its zeros. *)
Theorem C111_positive_refuted : let p := [1; - (2 + 1e-13); 1 + 1e-13] in
  is_poly_positive (fun _ => [(1, 0); (1 + 1e-13, 0)]) p (Some (0, 4)) 4 1e-12 1e-12 = Ok true /\
  finds_zeros (fun _ => [(1, 0); (1 + 1e-13, 0)]) p /\ heval p (1 + 5e-14) < 0.
Proof.
  cbv zeta. splits.
  - unfold is_poly_positive. rewrite samples4. cbn [bind existsb]. rewrite !horner_correct, !quadratic_value.
    repeat match goal with |- context [Rltb (1 * ?u ^ 2 + ?v + ?w) 0] => let E := fresh in assert (E : Rltb (1 * u ^ 2 + v + w) 0 = false) by (apply Rltb_false; lits; lra); rewrite E; clear E end.
    cbn [orb]. now rewrite !andb_false_r.
  - intros z Hz. rewrite quadratic_value in Hz. assert (F : (z - 1) * (z - (1 + 1e-13)) = 0) by (rewrite <- Hz; ring).
    apply Rmult_integral in F as [F|F]; [left; f_equal; lra|right; left; f_equal; lra].
  - rewrite quadratic_value. lits. lra.
Qed.

Print Assumptions C111_positive.
Print Assumptions C111_negative.
Print Assumptions C111_not_positive.
Print Assumptions C111_not_negative.
Print Assumptions C111_positive_refuted.
