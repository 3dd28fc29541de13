(** one_sided_secant (C112). *)
From Coq Require Import Reals Lra Lia List Bool ZArith QArith.
From Verif Require Import Base Model_Poly Model_Numerics Model_Solvers Model_Roots Model_OneSided Model_Real Proofs_Real.
Import ListNotations.
Local Open Scope R_scope.

(** [b] lies further towards the flat region than [a], for a search that starts at [x0] and knows the flat point [xf] *)
Definition farther (x0 xf a b : R) : Prop := if Rltb x0 xf then a < b else b < a.

Section Loop.
Variables (f : R -> result R) (fh : bool) (yf : R) (xtol ytol : option R) (damping : R) (mq lp : nat).
Lemma search_found fs x0 step xf x y xf' : os_search f yf fs x0 step xf = Ok (Some (x, y), xf') -> f x = Ok y /\ y <> yf.
Proof.
  revert xf. induction fs as [|c t IH]; intros xf H; [discriminate|]. cbn [os_search] in H. apply bind_Ok_inv in H as [v [E H]].
  destruct (Reqb v yf) eqn:Q; [eapply IH; eauto|]. injection H as <- <- <-. apply Reqb_false in Q. auto.
Qed.
Lemma point_found i x0 x1 step xf x y xf' : os_point f fh yf lp i x0 x1 step xf = Ok (x, y, xf') -> f x = Ok y /\ y <> yf.
Proof.
  intros H. unfold os_point in H. apply bind_Ok_inv in H as [[found xf1] [E H]]. destruct found as [[x' y']|].
  - injection H as <- <- <-. destruct (os_reaches fh (x1 + step) xf); [discriminate|]. apply bind_Ok_inv in E as [v [E1 E]].
    destruct (Reqb v yf) eqn:Q; [discriminate|]. injection E as <- <- <-. apply Reqb_false in Q. auto.
  - cbv zeta in H. apply bind_Ok_inv in H as [[[[x' y']|] xf2] [E1 H]]; [|discriminate]. injection H as <- <- <-. eapply search_found; eauto.
Qed.
Lemma loop_found n : forall i x0 y0 x1 y1 p2 xf x, os_loop f fh yf xtol ytol damping mq lp n i x0 y0 x1 y1 p2 xf = Ok x ->
  exists y xp, f x = Ok y /\ y <> yf /\ (forall t, ytol = Some t -> Rabs y < t) /\ (forall t, xtol = Some t -> Rabs (x - xp) <= Rabs (t * x)) /\
    (xtol <> None \/ ytol <> None) /\ (xp = x0 \/ exists yp, f xp = Ok yp /\ yp <> yf).
Proof.
  induction n as [|n IH]; intros i x0 y0 x1 y1 p2 xf x H; [discriminate|]. cbn [os_loop] in H.
  apply bind_Ok_inv in H as [step [_ H]]. apply bind_Ok_inv in H as [[[x' y'] xf'] [E H]].
  assert (P := point_found _ _ _ _ _ _ _ _ E). destruct (os_converged xtol ytol x' y' x0) eqn:C.
  - injection H as <-. exists y', x0. unfold os_converged in C. destruct xtol as [xt|], ytol as [yt|]; try discriminate.
    + apply andb_true_iff in C as [C1 C2]. apply Rltb_true in C1. apply Rleb_true in C2. splits; try tauto; try (intros t [= <-]; auto). left; discriminate.
    + apply Rleb_true in C. splits; try tauto; try (intros t [= <-]; auto); try discriminate. left; discriminate.
    + apply Rltb_true in C. splits; try tauto; try (intros t [= <-]; auto); try discriminate. right; discriminate.
  - apply IH in H as [y [xp [H1 [H2 [H3 [H4 [H5 H6]]]]]]]. exists y, xp. splits; auto. right. destruct H6 as [->|H6]; auto. exists y'. exact P.
Qed.
End Loop.

(** An answer is a point at which the function was evaluated, outside the flat region, and it meets every tolerance given: in y, and in
    x against another point outside the flat region. Without any tolerance there is no answer. *)
Theorem C112_result f x0 xf maxiter xtol ytol damping x1 yfl mq lp x :
  one_sided_secant f x0 xf maxiter xtol ytol damping x1 yfl mq lp = Ok x ->
  exists y yf xp yp, f x = Ok y /\ (match yfl with Some v => yf = v | None => f xf = Ok yf end) /\ y <> yf /\
    f xp = Ok yp /\ yp <> yf /\
    (forall t, ytol = Some t -> Rabs y < t) /\ (forall t, xtol = Some t -> Rabs (x - xp) <= Rabs (t * x)) /\ (xtol <> None \/ ytol <> None).
Proof.
  intros H. unfold one_sided_secant in H. cbv zeta in H. apply bind_Ok_inv in H as [y0 [E0 H]]. apply bind_Ok_inv in H as [y1 [E1 H]]. apply bind_Ok_inv in H as [yf [Ef H]].
  destruct (Reqb y0 yf) eqn:Q0; [discriminate|]. apply Reqb_false in Q0. destruct (Reqb y0 y1); [discriminate|]. destruct (Reqb y1 yf); [discriminate|]. destruct maxiter; [discriminate|].
  apply loop_found in H as [y [xp [H1 [H2 [H3 [H4 [H5 H6]]]]]]].
  assert (P : exists yp, f xp = Ok yp /\ yp <> yf) by (destruct H6 as [->|H6]; [exists y0|]; auto). destruct P as [yp [P1 P2]].
  exists y, yf, xp, yp. splits; auto. destruct yfl as [v|]; [injection Ef as <-; auto|auto].
Qed.
(** A start in the flat region, or two starting points of equal value, are refused. *)
Theorem C112_refused f x0 x1 xf maxiter xtol ytol damping y0 y1 yf mq lp : f x0 = Ok y0 -> f x1 = Ok y1 -> y0 = yf \/ y1 = yf \/ y0 = y1 ->
  one_sided_secant f x0 xf maxiter xtol ytol damping (Some x1) (Some yf) mq lp = Err ValueError.
Proof.
  intros E0 E1 H. unfold one_sided_secant. cbv zeta. rewrite E0, E1. cbn [bind].
  destruct (Reqb y0 yf) eqn:Q0; auto. destruct (Reqb y0 y1) eqn:Q1; auto. destruct (Reqb y1 yf) eqn:Q2; auto.
  apply Reqb_false in Q0, Q1, Q2. exfalso. tauto.
Qed.

(** ** No evaluation beyond the flat point *)
Lemma factors_range n : Forall (fun c => 0 < c < 1) (skipn n (@line_search_factors R _)).
Proof.
  assert (A : Forall (fun c => 0 < c < 1) (@line_search_factors R _)).
  { unfold line_search_factors. rewrite Forall_map. cbn [seq map app]. repeat constructor; numR; unfold Q2R; cbn; lra. }
  revert n A. generalize (@line_search_factors R _). intros l n. revert l. induction n; intros l A; [exact A|]. destruct l; [constructor|]. inversion A; subst. simpl. auto.
Qed.
Section Local.
Variables (f g : R -> result R) (fh : bool) (yf : R) (xtol ytol : option R) (damping : R) (mq lp : nat) (xf0 : R).
Let past a b := if fh then a < b else b < a.
Hypothesis Hfg : forall x, ~ past xf0 x -> f x = g x.
Hypothesis Hup : forall x z, past x z -> ~ past xf0 z -> f x = Ok yf -> f z = Ok yf.
Let flat x := f x = Ok yf /\ ~ past xf0 x.
Lemma search_local fs x0 step : Forall (fun c => 0 < c < 1) fs -> ~ past xf0 x0 -> ~ past xf0 (x0 + step) -> forall xf, flat xf ->
  os_search f yf fs x0 step xf = os_search g yf fs x0 step xf /\ (forall r xf', os_search f yf fs x0 step xf = Ok (r, xf') -> flat xf' /\ forall x y, r = Some (x, y) -> ~ past xf0 x).
Proof.
  intros HF H0 H1. induction fs as [|c t IH]; intros xf Hx.
  - cbn. split; auto. intros r xf' [= <- <-]. split; auto. discriminate.
  - inversion HF; subst. assert (Hc : ~ past xf0 (x0 + step * c)).
    { unfold past in *. destruct fh; nra. }
    cbn [os_search]. rewrite <- (Hfg _ Hc). destruct (f (x0 + step * c)) as [v|e] eqn:E; cbn [bind]; [|split; [auto|discriminate]].
    destruct (Reqb v yf) eqn:Q.
    + apply Reqb_true in Q. subst v. apply IH; auto. split; auto.
    + split; auto. intros r xf' [= <- <-]. split; auto. intros x y [= <- <-]. exact Hc.
Qed.
Lemma point_local i x0 x1 step xf y0 : f x0 = Ok y0 -> y0 <> yf -> ~ past xf0 x0 -> flat xf ->
  os_point f fh yf lp i x0 x1 step xf = os_point g fh yf lp i x0 x1 step xf /\
  forall x y xf', os_point f fh yf lp i x0 x1 step xf = Ok (x, y, xf') -> flat xf' /\ ~ past xf0 x.
Proof.
  intros E0 N0 P0 Hx. unfold os_point.
  assert (B : forall z, flat z -> past x0 z).
  { intros z [Hz Pz]. unfold past in *. destruct (Req_dec x0 z) as [->|Hne]; [congruence|].
    destruct fh; (destruct (Rlt_dec x0 z) as [L|L]; auto; try lra); exfalso.
    - assert (f x0 = Ok yf) by (apply (Hup z x0); auto; lra). congruence.
    - assert (f x0 = Ok yf) by (apply (Hup z x0); auto; lra). congruence. }
  assert (S : forall z, flat z -> let st := if os_reaches fh (x0 + step) z then z - x0 else step in ~ past xf0 (x0 + st)).
  { intros z [Hz Pz]. cbv zeta. destruct (os_reaches fh (x0 + step) z) eqn:Q.
    - replace (x0 + (z - x0)) with z by ring. auto.
    - unfold os_reaches in Q. unfold past in *. destruct fh; apply Rleb_false in Q; lra. }
  assert (G : forall z, flat z -> 
    ('(r, x_flat) <- os_search f yf (if Nat.ltb lp i then line_search_factors else skipn 3 line_search_factors) x0 (if os_reaches fh (x0 + step) z then z - x0 else step) z ;;
      match r with Some (x, y) => Ok (x, y, x_flat) | None => Err ValueError end) =
    ('(r, x_flat) <- os_search g yf (if Nat.ltb lp i then line_search_factors else skipn 3 line_search_factors) x0 (if os_reaches fh (x0 + step) z then z - x0 else step) z ;;
      match r with Some (x, y) => Ok (x, y, x_flat) | None => Err ValueError end) /\
    forall x y xf', ('(r, x_flat) <- os_search f yf (if Nat.ltb lp i then line_search_factors else skipn 3 line_search_factors) x0 (if os_reaches fh (x0 + step) z then z - x0 else step) z ;;
      match r with Some (x, y) => Ok (x, y, x_flat) | None => Err ValueError end) = Ok (x, y, xf') -> flat xf' /\ ~ past xf0 x).
  { intros z Hz. assert (FF : Forall (fun c => 0 < c < 1) (if Nat.ltb lp i then @line_search_factors R _ else skipn 3 line_search_factors)) by (destruct (Nat.ltb lp i); [apply (factors_range 0)|apply factors_range]).
    destruct (search_local _ x0 _ FF P0 (S z Hz) z Hz) as [L1 L2]. rewrite <- L1. split; auto.
    intros x y xf' H. apply bind_Ok_inv in H as [[[[x' y']|] xf2] [E H]]; [|discriminate]. injection H as <- <- <-. apply L2 in E as [A1 A2]. split; auto. eapply A2; eauto. }
  destruct (os_reaches fh (x1 + step) xf) eqn:Q; cbn [bind]; [apply G; auto|].
  assert (P1 : ~ past xf0 (x1 + step)). { destruct Hx as [_ Px]. unfold os_reaches in Q. unfold past in *. destruct fh; apply Rleb_false in Q; lra. }
  rewrite <- (Hfg _ P1). destruct (f (x1 + step)) as [v|e] eqn:E; cbn [bind]; [|split; [auto|discriminate]].
  destruct (Reqb v yf) eqn:Q2; cbn [bind].
  - apply Reqb_true in Q2. subst v. apply G. split; auto.
  - split; auto. intros x y xf' [= <- <- <-]. auto.
Qed.
Lemma loop_local n : forall i x0 y0 x1 y1 p2 xf, f x0 = Ok y0 -> y0 <> yf -> ~ past xf0 x0 -> flat xf ->
  os_loop f fh yf xtol ytol damping mq lp n i x0 y0 x1 y1 p2 xf = os_loop g fh yf xtol ytol damping mq lp n i x0 y0 x1 y1 p2 xf.
Proof.
  induction n as [|n IH]; intros i x0 y0 x1 y1 p2 xf E0 N0 P0 Hx; [reflexivity|]. cbn [os_loop].
  destruct (os_step damping mq i x0 y0 x1 y1 p2) as [step|]; cbn [bind]; [|reflexivity].
  destruct (point_local i x0 x1 step xf y0 E0 N0 P0 Hx) as [L1 L2]. rewrite <- L1.
  destruct (os_point f fh yf lp i x0 x1 step xf) as [[[x y] xf']|e] eqn:E; cbn [bind]; [|reflexivity].
  destruct (L2 _ _ _ eq_refl) as [A1 A2]. destruct (point_found f fh yf lp _ _ _ _ _ _ _ _ E) as [A3 A4].
  destruct (os_converged xtol ytol x y x0); auto.
Qed.
End Local.

(** The search never looks beyond the flat point: two functions that agree up to there, flat from some point on, give the same answer
    (or the same exception), whatever they do or raise beyond. *)
Theorem C112_local f g x0 x1 xf yf maxiter xtol ytol damping mq lp : x0 <> xf ->
  (forall x, ~ farther x0 xf xf x -> f x = g x) -> f xf = Ok yf ->
  (forall x z, farther x0 xf x z -> ~ farther x0 xf xf z -> f x = Ok yf -> f z = Ok yf) ->
  ~ farther x0 xf xf x1 ->
  one_sided_secant f x0 xf maxiter xtol ytol damping (Some x1) None mq lp = one_sided_secant g x0 xf maxiter xtol ytol damping (Some x1) None mq lp.
Proof.
  intros Hne Hfg Ef Hup P1. unfold one_sided_secant. cbv zeta.
  assert (P0 : ~ farther x0 xf xf x0) by (unfold farther; destruct (Rltb x0 xf) eqn:Q; [apply Rltb_true in Q|apply Rltb_false in Q]; lra).
  assert (Pf : ~ farther x0 xf xf xf) by (unfold farther; destruct (Rltb x0 xf); lra).
  rewrite <- (Hfg x0 P0), <- (Hfg x1 P1), <- (Hfg xf Pf), Ef.
  destruct (f x0) as [y0|] eqn:E0; cbn [bind]; [|reflexivity]. destruct (f x1) as [y1|] eqn:E1; cbn [bind]; [|reflexivity].
  destruct (Reqb y0 yf) eqn:Q0; [reflexivity|]. apply Reqb_false in Q0. destruct (Reqb y0 y1); [reflexivity|]. destruct (Reqb y1 yf); [reflexivity|]. destruct maxiter; [reflexivity|].
  apply (loop_local f g (Rltb x0 xf) yf xtol ytol damping mq lp xf); auto.
Qed.
(** 1 - x up to 3 and constant from there on, with the flat point 4: the conditions hold, and beyond 4 anything may happen *)
Example C112_ex : let f x := Ok (if Rltb x 3 then 1 - x else -2) in let g x := if Rltb 4 x then Err AssertionError else f x in
  0 <> 4 /\ (forall x, ~ farther 0 4 4 x -> f x = g x) /\ f 4 = Ok (-2) /\
  (forall x z, farther 0 4 x z -> ~ farther 0 4 4 z -> f x = Ok (-2) -> f z = Ok (-2)) /\ ~ farther 0 4 4 (1 / 2).
Proof.
  cbv zeta. assert (E : Rltb 0 4 = true) by (apply Rltb_true; lra). unfold farther. rewrite E. splits; try lra.
  - intros x Hx. assert (Q : Rltb 4 x = false) by (apply Rltb_false; lra). now rewrite Q.
  - assert (Q : Rltb 4 3 = false) by (apply Rltb_false; lra). now rewrite Q.
  - intros x z Hxz Hz H. destruct (Rltb x 3) eqn:Q; [apply Rltb_true in Q; injection H as H; lra|]. apply Rltb_false in Q.
    assert (Q' : Rltb z 3 = false) by (apply Rltb_false; lra). now rewrite Q'.
Qed.
(** A function that is affine up to the flat point is solved in one step. *)
Theorem C112_affine f m r x0 x1 xf yf n t mq lp : m <> 0 -> x0 <> x1 -> x0 <> xf -> 0 < t ->
  (forall x, farther x0 xf x xf -> f x = Ok (m * (x - r))) -> f xf = Ok yf ->
  farther x0 xf x1 xf -> farther x0 xf r xf -> yf <> 0 -> yf <> m * (x0 - r) -> yf <> m * (x1 - r) ->
  one_sided_secant f x0 xf (S n) None (Some t) 1 (Some x1) None mq lp = Ok r.
Proof.
  intros Hm H01 Hne Ht Hf Ef P1 Pr N N0 N1. unfold one_sided_secant. cbv zeta.
  assert (P0 : farther x0 xf x0 xf) by (unfold farther; destruct (Rltb x0 xf) eqn:Q; [apply Rltb_true in Q|apply Rltb_false in Q]; lra).
  rewrite (Hf x0 P0), (Hf x1 P1), Ef. cbn [bind].
  rewrite (proj2 (Reqb_false (m * (x0 - r)) yf)) by auto. rewrite (proj2 (Reqb_false (m * (x0 - r)) (m * (x1 - r)))).
  2:{ intros E. assert (m * (x0 - x1) = 0) by lra. apply Rmult_integral in H as [|]; lra. }
  rewrite (proj2 (Reqb_false (m * (x1 - r)) yf)) by auto. cbn [os_loop os_step].
  assert (D : m * (x1 - r) - m * (x0 - r) <> 0) by (intros E; assert (m * (x1 - x0) = 0) by lra; apply Rmult_integral in H as [|]; lra).
  rewrite pdiv_ok by exact D. cbn [bind].
  assert (X : x1 + - (m * (x1 - r)) * (x1 - x0) / (m * (x1 - r) - m * (x0 - r)) * 1 = r) by (field; split; [lra|split; auto; lra] || (field; lra)).
  unfold os_point. rewrite X. assert (Q : os_reaches (Rltb x0 xf) r xf = false).
  { unfold os_reaches, farther in *. destruct (Rltb x0 xf); apply Rleb_false; auto. }
  rewrite Q, (Hf r Pr). cbn [bind]. replace (m * (r - r)) with 0 by ring. rewrite (proj2 (Reqb_false 0 yf)) by auto. cbn [bind].
  unfold os_converged. rewrite Rabs_R0. now rewrite (proj2 (Rltb_true 0 t)).
Qed.
Example C112_affine_ex : one_sided_secant (fun x => Ok (if Rltb x 3 then 1 - x else -2)) 0 3 5 None (Some 1e-3) 1 (Some (1 / 2)) None 7 3 = Ok 1.
Proof.
  assert (E : Rltb 0 3 = true) by (apply Rltb_true; lra).
  apply (C112_affine _ (-1) 1 0 (1 / 2) 3 (-2)); unfold farther; rewrite ?E; try lra; try (lits; lra).
  - intros x Hx. rewrite (proj2 (Rltb_true x 3)) by auto. f_equal. ring.
  - now rewrite (proj2 (Rltb_false 3 3)) by lra.
Qed.

Print Assumptions C112_result.
Print Assumptions C112_refused.
Print Assumptions C112_local.
Print Assumptions C112_affine.
