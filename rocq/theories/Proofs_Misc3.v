(** Piecewise fits, bounded variables, bracketing history, error measures. *)
From Coq Require Import List Bool QArith Reals ZArith Arith Lra Lia Psatz.
From Coquelicot Require Import Coquelicot.
From Verif Require Import Base Sums Spec_Poly Model_Poly Proofs_Poly Proofs_Poly2 Proofs_Poly3 Model_Numerics Proofs_Numerics
  Proofs_Seq Proofs_Opt Proofs_Misc2.
Import ListNotations.
Local Open Scope R_scope.

Ltac rb H := first [apply Rltb_true in H | apply Rltb_false in H | apply Rleb_true in H | apply Rleb_false in H
  | apply Reqb_true in H | apply Reqb_false in H].
(** ** Integrals of a polynomial fit with linear extrapolation *)
Lemma piece (F g G : R -> R) a b : a <= b -> (forall x, a < x < b -> F x = g x) ->
  (forall x, a <= x <= b -> is_derive G x (g x)) -> (forall x, a <= x <= b -> continuous g x) ->
  is_RInt F a b (G b - G a).
Proof.
  intros H E D C. apply (is_RInt_ext g).
  - intros x. rewrite Rmin_left, Rmax_right by auto. intros; symmetry; auto.
  - apply (is_RInt_derive G g); rewrite Rmin_left, Rmax_right by auto; auto.
Qed.
Lemma chasles (F : R -> R) a b c u v w : is_RInt F a b u -> is_RInt F b c v -> w = u + v -> is_RInt F a c w.
Proof. intros H K ->. exact (is_RInt_Chasles F a b c u v H K). Qed.

Section Fit.
Context (F L M H gL gM gH : R -> R) (lo hi dom : R).
Context (Hlh : lo <= hi) (Hdom : dom <= lo).
Context (FL : forall x, dom <= x -> x < lo -> F x = gL x) (FM : forall x, lo <= x <= hi -> F x = gM x) (FH : forall x, hi < x -> F x = gH x).
Context (dL : forall x, dom <= x -> is_derive L x (gL x)) (dM : forall x, dom <= x -> is_derive M x (gM x)) (dH : forall x, dom <= x -> is_derive H x (gH x)).
Context (cL : forall x, dom <= x -> continuous gL x) (cM : forall x, dom <= x -> continuous gM x) (cH : forall x, dom <= x -> continuous gH x).
Lemma seg_low a b : dom <= a -> a <= b -> b <= lo -> is_RInt F a b (L b - L a).
Proof. intros. apply piece with gL; auto; intros; [apply FL | apply dL | apply cL]; lra. Qed.
Lemma seg_mid a b : lo <= a -> a <= b -> b <= hi -> is_RInt F a b (M b - M a).
Proof. intros. apply piece with gM; auto; intros; [apply FM | apply dM | apply cM]; lra. Qed.
Lemma seg_high a b : hi <= a -> a <= b -> is_RInt F a b (H b - H a).
Proof. intros. apply piece with gH; auto; intros; [apply FH | apply dH | apply cH]; lra. Qed.
Definition fit_total (a b : R) : R :=
  (if Rltb a lo then L (nmin lo b) - L a else 0) +
  (if (Rleb lo a && Rleb a hi) || (Rleb lo b && Rleb b hi) || (Rleb a lo && Rleb hi b) then M (nmin hi b) - M (nmax lo a) else 0) +
  (if Rltb hi b then H b - H (nmax hi a) else 0).
Lemma fit_total_int a b : dom <= a -> a <= b -> is_RInt F a b (fit_total a b).
Proof.
  intros Da Hab. unfold fit_total, nmin, nmax. numR.
  destruct (Rltb a lo) eqn:E1; rb E1.
  - destruct (Rltb b lo) eqn:E2; rb E2.
    + (* both below *)
      replace (Rleb lo a) with false by (symmetry; rcase; auto; lra).
      replace (Rleb lo b) with false by (symmetry; rcase; auto; lra).
      replace (Rleb hi b) with false by (symmetry; rcase; auto; lra).
      replace (Rltb hi b) with false by (symmetry; rcase; auto; lra).
      rewrite !andb_false_r; cbn [andb orb]. rewrite !Rplus_0_r. apply seg_low; lra.
    + replace (Rleb lo a) with false by (symmetry; rcase; auto; lra).
      replace (Rleb lo b) with true by (symmetry; rcase; auto; lra).
      replace (Rleb a lo) with true by (symmetry; rcase; auto; lra).
      replace (Rltb lo a) with false by (symmetry; rcase; auto; lra).
      replace (Rltb hi a) with false by (symmetry; rcase; auto; lra).
      cbn [andb orb].
      destruct (Rltb b hi) eqn:E3; rb E3.
      * replace (Rleb b hi) with true by (symmetry; rcase; auto; lra).
        replace (Rltb hi b) with false by (symmetry; rcase; auto; lra).
        cbn [orb]. eapply chasles; [apply (seg_low a lo); lra | apply (seg_mid lo b); lra | ring].
      * replace (Rleb b hi || Rleb hi b)%bool with true by (symmetry; apply orb_true_iff; right; apply Rleb_true; lra).
        destruct (Rltb hi b) eqn:E4; rb E4.
        -- eapply chasles; [apply (seg_low a lo); lra | | rewrite Rplus_assoc; reflexivity].
           eapply chasles; [apply (seg_mid lo hi); lra | apply (seg_high hi b); lra | ring].
        -- assert (b = hi) by lra. subst b. eapply chasles; [apply (seg_low a lo); lra | apply (seg_mid lo hi); lra | ring].
  - replace (Rleb lo a) with true by (symmetry; rcase; auto; lra).
    replace (Rleb lo b) with true by (symmetry; rcase; auto; lra).
    cbn [andb].
    destruct (Rltb a hi) eqn:E3; rb E3.
    + replace (Rleb a hi) with true by (symmetry; rcase; auto; lra). cbn [orb].
      replace (if Rltb lo a then a else lo) with a by (rcase; lra).
      replace (Rltb hi a) with false by (symmetry; rcase; auto; lra).
      destruct (Rltb hi b) eqn:E4; rb E4.
      * replace (Rltb b hi) with false by (symmetry; rcase; auto; lra).
        eapply chasles; [apply (seg_mid a hi); lra | apply (seg_high hi b); lra | ring].
      * replace (if Rltb b hi then b else hi) with b by (rcase; lra).
        replace (0 + (M b - M a) + 0) with (M b - M a) by ring. apply seg_mid; lra.
    + destruct (Req_dec a hi) as [->|N].
      * replace (Rleb hi hi) with true by (symmetry; rcase; auto; lra). cbn [orb].
        replace (if Rltb lo hi then hi else lo) with hi by (rcase; lra).
        replace (if Rltb b hi then b else hi) with hi by (rcase; lra).
        replace (if Rltb hi hi then hi else hi) with hi by (rcase; lra).
        destruct (Rltb hi b) eqn:E4; rb E4.
        -- replace (0 + (M hi - M hi) + (H b - H hi)) with (H b - H hi) by ring. apply seg_high; lra.
        -- assert (b = hi) by lra. subst b. replace (0 + (M hi - M hi) + 0) with (M hi - M hi) by ring. apply seg_mid; lra.
      * replace (Rleb a hi) with false by (symmetry; rcase; auto; lra).
        replace (Rleb b hi) with false by (symmetry; rcase; auto; lra).
        destruct (Rleb a lo) eqn:E5; rb E5; [exfalso; lra|]. cbn [andb orb].
        replace (Rltb hi b) with true by (symmetry; rcase; auto; lra).
        replace (Rltb hi a) with true by (symmetry; rcase; auto; lra).
        replace (0 + 0 + (H b - H a)) with (H b - H a) by ring. apply seg_high; lra.
Qed.
End Fit.

Definition lin_anti (slope value x0 : R) (x : R) : R := x * (/ 2 * slope * x + (value - slope * x0)).
Lemma lin_anti_d s v x0 x : is_derive (lin_anti s v x0) x (v + s * (x - x0)).
Proof. unfold lin_anti. auto_derive; auto. field. Qed.
Lemma lin_cont s v x0 x : continuous (fun x => v + s * (x - x0)) x.
Proof. apply (ex_derive_continuous (fun x => v + s * (x - x0))). auto_derive. auto. Qed.
Lemma heval_cont cs x : continuous (heval cs) x.
Proof. apply (ex_derive_continuous (heval cs)). eexists. apply heval_d1. Qed.

Lemma fit_integral_total T1 T2 ic lo hi vlo vhi slo shi : T1 <= T2 ->
  fit_integral_linear_extrapolation T1 T2 ic lo hi vlo vhi slo shi =
  fit_total (lin_anti slo vlo lo) (heval ic) (lin_anti shi vhi hi) lo hi T1 T2.
Proof.
  intros H. unfold fit_integral_linear_extrapolation, fit_total. numR. rewrite half'.
  replace (Rltb T2 T1) with false by (symmetry; rcase; auto; lra). cbv beta iota zeta.
  rewrite !horner_correct. unfold lin_anti.
  repeat match goal with |- context [if ?b then _ else _] => destruct b end; ring.
Qed.
Lemma fit_flip T1 T2 ic lo hi vlo vhi slo shi : T1 < T2 ->
  fit_integral_linear_extrapolation T2 T1 ic lo hi vlo vhi slo shi =
  - fit_integral_linear_extrapolation T1 T2 ic lo hi vlo vhi slo shi.
Proof.
  intros N. unfold fit_integral_linear_extrapolation. numR.
  replace (Rltb T1 T2) with true by (symmetry; rcase; auto; lra).
  replace (Rltb T2 T1) with false by (symmetry; rcase; auto; lra). reflexivity.
Qed.
Lemma heval_polyint_d cs x : is_derive (heval (polyint cs)) x (heval cs x).
Proof. apply polyint_derive. Qed.
(** the fitted function: polynomial on [lo,hi], straight lines outside *)
Definition fitted (cs : list R) (lo hi vlo vhi slo shi : R) (F : R -> R) : Prop :=
  (forall x, x < lo -> F x = vlo + slo * (x - lo)) /\
  (forall x, lo <= x <= hi -> F x = heval cs x) /\
  (forall x, hi < x -> F x = vhi + shi * (x - hi)).
Lemma fit_integral_ok cs lo hi vlo vhi slo shi F T1 T2 : lo <= hi -> fitted cs lo hi vlo vhi slo shi F ->
  is_RInt F T1 T2 (fit_integral_linear_extrapolation T1 T2 (polyint cs) lo hi vlo vhi slo shi).
Proof.
  intros Hlh (FL & FM & FH).
  assert (G : forall a b, a <= b -> is_RInt F a b (fit_integral_linear_extrapolation a b (polyint cs) lo hi vlo vhi slo shi)).
  { intros a b Hab. rewrite fit_integral_total by auto.
    apply (fit_total_int F _ _ _ (fun x => vlo + slo * (x - lo)) (heval cs) (fun x => vhi + shi * (x - hi)) lo hi (Rmin a lo));
      auto using Rmin_r, Rmin_l, lin_anti_d, heval_polyint_d, lin_cont, heval_cont. }
  destruct (Rle_lt_dec T1 T2) as [K|K]; auto.
  rewrite fit_flip by auto. exact (is_RInt_swap F T1 T2 _ (G T2 T1 (Rlt_le _ _ K))).
Qed.
Definition fit_anti (L M H : R -> R) (lo hi T : R) : R :=
  if Rltb T lo then L T
  else if Rleb T hi then L lo + (M T - M lo)
  else L lo + (M hi - M lo) + (H T - H hi).
Lemma fit_total_diff L M H lo hi a b : lo <= hi -> a <= b ->
  fit_total L M H lo hi a b = fit_anti L M H lo hi b - fit_anti L M H lo hi a.
Proof.
  intros Hlh Hab. unfold fit_total, fit_anti, nmin, nmax. numR.
  destruct (Req_dec a lo), (Req_dec b hi), (Req_dec a hi), (Req_dec b lo), (Req_dec lo hi); subst;
  try (exfalso; lra);
    repeat match goal with
    | |- context [Rltb ?x ?y] => let E := fresh "E" in destruct (Rltb x y) eqn:E; rb E; try (exfalso; lra)
    | |- context [Rleb ?x ?y] => let E := fresh "E" in destruct (Rleb x y) eqn:E; rb E; try (exfalso; lra)
    end; cbn [andb orb]; try lra.
Qed.
Lemma fit_integral_diff T1 T2 ic lo hi vlo vhi slo shi : lo <= hi ->
  fit_integral_linear_extrapolation T1 T2 ic lo hi vlo vhi slo shi =
  poly_fit_integral_value T2 ic lo hi vlo vhi slo shi - poly_fit_integral_value T1 ic lo hi vlo vhi slo shi.
Proof.
  intros Hlh.
  assert (V : forall T, poly_fit_integral_value T ic lo hi vlo vhi slo shi =
     fit_anti (lin_anti slo vlo lo) (heval ic) (lin_anti shi vhi hi) lo hi T).
  { intros T. unfold poly_fit_integral_value, fit_anti, lin_anti. numR. rewrite half'. cbv zeta. rewrite !horner_correct.
    destruct (Rltb T lo) eqn:E1; [ring|]. rb E1. replace (Rleb lo T) with true by (symmetry; rcase; auto; lra). cbn [andb].
    destruct (Rleb T hi); ring. }
  rewrite !V. destruct (Rle_lt_dec T1 T2) as [K|K].
  - rewrite fit_integral_total by auto. apply fit_total_diff; auto.
  - rewrite fit_flip, fit_integral_total, fit_total_diff by lra. ring.
Qed.

(** *** integral of the fit divided by T *)
Definition log_anti (slope value x0 : R) (x : R) : R := slope * x + (value - slope * x0) * ln x.
Lemma log_anti_d s v x0 x : 0 < x -> is_derive (log_anti s v x0) x ((v + s * (x - x0)) / x).
Proof. intros. unfold log_anti. auto_derive; auto. field. lra. Qed.
Lemma quot_cont g x : 0 < x -> continuous g x -> continuous (fun x => g x / x) x.
Proof.
  intros Hx C. apply (continuous_mult g (fun y => / y)); auto.
  apply (ex_derive_continuous (fun y => / y)). auto_derive. lra.
Qed.
Definition pox (cs : list R) (x : R) : R := heval (fst (polyint_over_x cs)) x + snd (polyint_over_x cs) * ln x.
Lemma horner_log_ok cs lc x : 0 < x -> horner_log cs lc x = Ok (heval cs x + lc * ln x).
Proof. intros. unfold horner_log. rewrite plog_ok by auto. cbn [bind]. now rewrite horner_correct. Qed.
Lemma fit_over_T_total T1 T2 cs lo hi vlo vhi slo shi : 0 < T1 -> T1 <= T2 -> 0 < lo -> lo <= hi ->
  fit_integral_over_T_linear_extrapolation T1 T2 (fst (polyint_over_x cs)) (snd (polyint_over_x cs)) lo hi vlo vhi slo shi =
  Ok (fit_total (log_anti slo vlo lo) (pox cs) (log_anti shi vhi hi) lo hi T1 T2).
Proof.
  intros H1 H2 H3 H4. unfold fit_integral_over_T_linear_extrapolation, fit_total.
  replace (Rltb T2 T1) with false by (symmetry; rcase; auto; lra). cbv beta iota zeta.
  assert (P1 : 0 < nmin lo T2) by (unfold nmin; numR; rcase; lra).
  assert (P2 : 0 < nmin hi T2) by (unfold nmin; numR; rcase; lra).
  assert (P3 : 0 < nmax lo T1) by (unfold nmax; numR; rcase; lra).
  assert (P4 : 0 < nmax hi T1) by (unfold nmax; numR; rcase; lra).
  rewrite !horner_log_ok, !plog_ok by lra. cbn [bind]. unfold log_anti, pox.
  set (b1 := Rltb T1 lo). set (b2 := ((_ || _) || _)%bool). set (b3 := Rltb hi T2).
  destruct b1, b2, b3; cbn [bind]; f_equal; ring.
Qed.
Lemma fit_over_T_ok cs lo hi vlo vhi slo shi F T1 T2 : 0 < T1 -> 0 < T2 -> 0 < lo -> lo <= hi ->
  fitted cs lo hi vlo vhi slo shi F ->
  exists v, fit_integral_over_T_linear_extrapolation T1 T2 (fst (polyint_over_x cs)) (snd (polyint_over_x cs)) lo hi vlo vhi slo shi = Ok v
   /\ is_RInt (fun T => F T / T) T1 T2 v.
Proof.
  intros P1 P2 Plo Hlh (FL & FM & FH).
  assert (G : forall a b, 0 < a -> a <= b -> is_RInt (fun T => F T / T) a b
     (fit_total (log_anti slo vlo lo) (pox cs) (log_anti shi vhi hi) lo hi a b)).
  { intros a b Pa Hab. assert (Pm : 0 < Rmin a lo) by (apply Rmin_pos; auto).
    apply (fit_total_int (fun T => F T / T) _ _ _ (fun x => (vlo + slo * (x - lo)) / x) (fun x => heval cs x / x)
             (fun x => (vhi + shi * (x - hi)) / x) lo hi (Rmin a lo)); auto using Rmin_r, Rmin_l.
    - intros. now rewrite FL. - intros. now rewrite FM. - intros. now rewrite FH.
    - intros. apply log_anti_d. lra.
    - intros. apply polyint_over_x_derive. lra.
    - intros. apply log_anti_d. lra.
    - intros. apply (quot_cont (fun x => vlo + slo * (x - lo))); [lra | apply lin_cont].
    - intros. apply quot_cont; [lra | apply heval_cont].
    - intros. apply (quot_cont (fun x => vhi + shi * (x - hi))); [lra | apply lin_cont]. }
  destruct (Rle_lt_dec T1 T2) as [K|K].
  - eexists; split; [apply fit_over_T_total; auto | auto].
  - exists (- fit_total (log_anti slo vlo lo) (pox cs) (log_anti shi vhi hi) lo hi T2 T1). split.
    + pose proof (fit_over_T_total T2 T1 cs lo hi vlo vhi slo shi P2 (Rlt_le _ _ K) Plo Hlh) as E.
      unfold fit_integral_over_T_linear_extrapolation in *.
      replace (Rltb T1 T2) with false in E by (symmetry; rcase; auto; lra).
      replace (Rltb T2 T1) with true by (symmetry; rcase; auto; lra).
      cbv beta iota zeta in *. revert E.
      match goal with |- bind ?m ?f = _ -> _ => destruct m as [t0|]; cbn [bind]; [|discriminate] end.
      match goal with |- bind ?m ?f = _ -> _ => destruct m as [t1|]; cbn [bind]; [|discriminate] end.
      match goal with |- bind ?m ?f = _ -> _ => destruct m as [t2|]; cbn [bind]; [|discriminate] end.
      now intros [= ->].
    + exact (is_RInt_swap (fun T => F T / T) T1 T2 _ (G T2 T1 P2 (Rlt_le _ _ K))).
Qed.
Lemma fit_over_T_diff T1 T2 cs lo hi vlo vhi slo shi : 0 < T1 -> 0 < T2 -> 0 < lo -> lo <= hi ->
  exists v v1 v2,
   fit_integral_over_T_linear_extrapolation T1 T2 (fst (polyint_over_x cs)) (snd (polyint_over_x cs)) lo hi vlo vhi slo shi = Ok v /\
   poly_fit_integral_over_T_value T1 (fst (polyint_over_x cs)) (snd (polyint_over_x cs)) lo hi vlo vhi slo shi = Ok v1 /\
   poly_fit_integral_over_T_value T2 (fst (polyint_over_x cs)) (snd (polyint_over_x cs)) lo hi vlo vhi slo shi = Ok v2 /\
   v = v2 - v1.
Proof.
  intros P1 P2 Plo Hlh.
  set (G := fit_anti (log_anti slo vlo lo) (pox cs) (log_anti shi vhi hi) lo hi).
  assert (V : forall T, 0 < T -> poly_fit_integral_over_T_value T (fst (polyint_over_x cs)) (snd (polyint_over_x cs)) lo hi vlo vhi slo shi = Ok (G T)).
  { intros T PT. unfold poly_fit_integral_over_T_value, G, fit_anti, log_anti, pox. rewrite !horner_log_ok, !plog_ok by lra. cbn [bind].
    destruct (Rltb T lo) eqn:E1; [reflexivity|]. rb E1. replace (Rleb lo T) with true by (symmetry; rcase; auto; lra). cbn [andb].
    destruct (Rleb T hi); f_equal; ring. }
  assert (Q : forall a b, a <= b -> fit_total (log_anti slo vlo lo) (pox cs) (log_anti shi vhi hi) lo hi a b = G b - G a).
  { intros a b Hab. apply fit_total_diff; auto. }
  destruct (fit_over_T_ok cs lo hi vlo vhi slo shi (fun x => if Rltb x lo then vlo + slo * (x - lo) else if Rltb hi x then vhi + shi * (x - hi) else heval cs x) T1 T2 P1 P2 Plo Hlh) as (v & E & _).
  { unfold fitted; splits; intros x Hx; repeat rcase; auto; lra. }
  exists v, (G T1), (G T2). splits; auto.
  destruct (Rle_lt_dec T1 T2) as [K|K].
  - rewrite fit_over_T_total in E by auto. injection E as <-. auto.
  - pose proof (fit_over_T_total T2 T1 cs lo hi vlo vhi slo shi P2 (Rlt_le _ _ K) Plo Hlh) as E'.
    rewrite Q in E' by lra.
    unfold fit_integral_over_T_linear_extrapolation in *.
    replace (Rltb T1 T2) with false in E' by (symmetry; rcase; auto; lra).
    replace (Rltb T2 T1) with true in E by (symmetry; rcase; auto; lra).
    cbv beta iota zeta in *. revert E E'.
    match goal with |- bind ?m ?f = _ -> _ => destruct m as [t0|]; cbn [bind]; [|discriminate] end.
    match goal with |- bind ?m ?f = _ -> _ => destruct m as [t1|]; cbn [bind]; [|discriminate] end.
    match goal with |- bind ?m ?f = _ -> _ => destruct m as [t2|]; cbn [bind]; [|discriminate] end.
    intros [= <-] [= ->]. lra.
Qed.

(** ** evaluation of fits and their derivatives *)
Lemma fold_horner (cs : list R) x : fold_left (fun v c => v * x + c) cs 0 = heval cs x.
Proof. rewrite <- horner_correct. unfold horner. rewrite n0R. reflexivity. Qed.
Lemma eval_fit_fitted d : low_limit d <= high_limit d ->
  fitted (coeffs d) (low_limit d) (high_limit d) (low_value d) (high_value d) (low_slope d) (high_slope d) (eval_fit d).
Proof.
  intros H. unfold fitted, eval_fit. splits; intros x Hx; numR; repeat rcase; try lra.
  apply fold_horner.
Qed.
Lemma is_derive_near (f g : R -> R) x v lo hi : lo < x < hi -> (forall y, lo < y < hi -> f y = g y) ->
  is_derive g x v -> is_derive f x v.
Proof.
  intros H E D. apply (is_derive_ext_loc g); auto.
  exists (mkposreal (Rmin (x - lo) (hi - x)) ltac:(apply Rmin_pos; lra)). intros y Hy. simpl in Hy.
  unfold ball in Hy; simpl in Hy. unfold AbsRing_ball, abs, minus, plus, opp in Hy; simpl in Hy.
  symmetry. apply E. pose proof (Rmin_l (x - lo) (hi - x)). pose proof (Rmin_r (x - lo) (hi - x)).
  apply Rabs_def2 in Hy. lra.
Qed.
Lemma lin_d v s x0 x : is_derive (fun x => (x - x0) * s + v) x s.
Proof. auto_derive; auto. ring. Qed.
Lemma eval_fit_derive d x : x <> low_limit d -> x <> high_limit d -> low_limit d <= high_limit d ->
  (forall y, is_derive (heval (coeffs d)) y (heval (dcoeffs d) y)) ->
  is_derive (eval_fit d) x (eval_fit_d d x).
Proof.
  intros N1 N2 H D. unfold eval_fit_d. numR.
  destruct (Rltb x (low_limit d)) eqn:E1; rb E1.
  - apply (is_derive_near _ (fun x => (x - low_limit d) * low_slope d + low_value d) x _ (x - 1) (low_limit d)); [lra| |apply lin_d].
    intros y Hy. unfold eval_fit. numR. rcase; lra.
  - destruct (Rltb (high_limit d) x) eqn:E2; rb E2.
    + apply (is_derive_near _ (fun x => (x - high_limit d) * high_slope d + high_value d) x _ (high_limit d) (x + 1)); [lra| |apply lin_d].
      intros y Hy. unfold eval_fit. numR. repeat rcase; lra.
    + rewrite fold_horner.
      apply (is_derive_near _ (heval (coeffs d)) x _ (low_limit d) (high_limit d)); auto; [lra|].
      intros y Hy. unfold eval_fit. numR. repeat rcase; try lra. apply fold_horner.
Qed.
Lemma eval_fit_derive2 d x : x <> low_limit d -> x <> high_limit d -> low_limit d <= high_limit d ->
  (forall y, is_derive (heval (dcoeffs d)) y (heval (d2coeffs d) y)) ->
  is_derive (eval_fit_d d) x (eval_fit_d2 d x).
Proof.
  intros N1 N2 H D. unfold eval_fit_d2. numR.
  destruct (Rltb (low_limit d) x) eqn:E1; rb E1; cbn [andb].
  - destruct (Rltb x (high_limit d)) eqn:E2; rb E2.
    + rewrite fold_horner.
      apply (is_derive_near _ (heval (dcoeffs d)) x _ (low_limit d) (high_limit d)); auto.
      intros y Hy. unfold eval_fit_d. numR. repeat rcase; try lra. apply fold_horner.
    + apply (is_derive_near _ (fun _ => high_slope d) x _ (high_limit d) (x + 1)); [lra| |apply is_derive_Reals, derivable_pt_lim_const].
      intros y Hy. unfold eval_fit_d. numR. repeat rcase; lra.
  - apply (is_derive_near _ (fun _ => low_slope d) x _ (x - 1) (low_limit d)); [lra| |apply is_derive_Reals, derivable_pt_lim_const].
    intros y Hy. unfold eval_fit_d. numR. repeat rcase; lra.
Qed.
(** continuity of the extrapolation *)
Lemma eval_fit_at_limits d : low_limit d <= high_limit d ->
  eval_fit d (low_limit d) = heval (coeffs d) (low_limit d) /\ eval_fit d (high_limit d) = heval (coeffs d) (high_limit d).
Proof. intros H. destruct (eval_fit_fitted d H) as (_ & M & _). split; apply M; lra. Qed.
