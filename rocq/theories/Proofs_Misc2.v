(** Adaptive quadrature, best bounds, statistics, error measures. *)
From Coq Require Import List Bool QArith Reals ZArith Arith Lra Lia Psatz.
From Verif Require Import Base Sums Model_Poly Model_Numerics Proofs_Numerics Proofs_Seq Proofs_Opt.
Import ListNotations.
Local Open Scope R_scope.

(** ** Gauss-Kronrod and adaptive quadrature *)
Lemma half' : Q2R (1#2)%Q = / 2. Proof. unfold Q2R; simpl; lra. Qed.
Lemma gk_point_in a b p : a <= b -> -1 <= p <= 1 ->
  a <= a * (/2 * (1 - p)) + b * (/2 * (1 + p)) <= b.
Proof. intros H [H0 H1]. split; nra. Qed.
Lemma gk_loop_ext f g a b fact : a <= b -> (forall x, a <= x <= b -> f x = g x) ->
  forall pts, (forall p, In p pts -> -1 <= p <= 1) -> forall odd ws ls vk vl,
  gk_loop f a b fact odd pts ws ls vk vl = gk_loop g a b fact odd pts ws ls vk vl.
Proof.
  intros Hab E. induction pts as [|p tp IH]; intros Hp odd ws ls vk vl; [reflexivity|].
  assert (Hp' : forall q, In q tp -> -1 <= q <= 1) by (intros; apply Hp; right; auto).
  cbn [gk_loop]. numR. rewrite half'.
  rewrite (E (a * (/2 * (1 - p)) + b * (/2 * (1 + p)))) by (apply gk_point_in; auto; apply Hp; left; auto).
  destruct ws; auto. destruct odd; [destruct ls; auto|]; apply IH; auto.
Qed.
Lemma quad_ext rem : forall f g a b kp kw lw er ea, a <= b -> (forall x, a <= x <= b -> f x = g x) ->
  (forall p, In p kp -> -1 <= p <= 1) ->
  quad_adaptive rem f a b kp kw lw er ea = quad_adaptive rem g a b kp kw lw er ea.
Proof.
  induction rem as [|rem IH]; intros f g a b kp kw lw er ea Hab E Hp.
  - cbn [quad_adaptive]. unfold fixed_quad_Gauss_Kronrod. rewrite (gk_loop_ext f g) by auto. reflexivity.
  - cbn [quad_adaptive]. unfold fixed_quad_Gauss_Kronrod. rewrite (gk_loop_ext f g) by auto.
    set (mid := nadd a _). assert (Hm : a <= mid <= b) by (unfold mid; numR; rewrite half'; lra).
    destruct (bind (gk_loop g a b _ false kp kw lw n0 n0) _) as [[area err]|]; auto. cbn [bind].
    match goal with |- (if ?b then _ else _) = _ => destruct b end; auto.
    rewrite (IH f g a mid) by (auto; try lra; intros; apply E; lra).
    rewrite (IH f g mid b) by (auto; try lra; intros; apply E; lra). reflexivity.
Qed.
(** if the rule is exact for f on every interval, so is the adaptive scheme *)
Lemma quad_exact rem : forall f (F : R -> R) a b kp kw lw er ea area err,
  (forall c d v e, fixed_quad_Gauss_Kronrod f c d kp kw lw = Ok (v, e) -> v = F d - F c) ->
  quad_adaptive rem f a b kp kw lw er ea = Ok (area, err) -> area = F b - F a.
Proof.
  induction rem as [|rem IH]; intros f F a b kp kw lw er ea area err H E; cbn [quad_adaptive] in E.
  - inv_bind E. destruct v as [v e]. injection E as <- _. eapply H; eauto.
  - inv_bind E. destruct v as [v e]. cbv zeta in E.
    match type of E with (if ?b then _ else _) = _ => destruct b end.
    + injection E as <- _. eapply H; eauto.
    + inv_bind E. destruct v0 as [vA eA]. inv_bind E. destruct v0 as [vB eB]. injection E as <- _.
      apply IH with (F := F) in E1; auto. apply IH with (F := F) in E2; auto. numR. lra.
Qed.
(** the pieces: consecutive panels from a to b; the area is the sum of the rule on the panels *)
Inductive panels (f : R -> R) (kp kw lw : list R) : R -> R -> R -> Prop :=
| panel_one a b v e : fixed_quad_Gauss_Kronrod f a b kp kw lw = Ok (v, e) -> panels f kp kw lw a b v
| panel_two a m b v w : panels f kp kw lw a m v -> panels f kp kw lw m b w -> panels f kp kw lw a b (v + w).
Lemma quad_panels rem : forall f a b kp kw lw er ea area err,
  quad_adaptive rem f a b kp kw lw er ea = Ok (area, err) -> panels f kp kw lw a b area.
Proof.
  induction rem as [|rem IH]; intros f a b kp kw lw er ea area err E; cbn [quad_adaptive] in E.
  - inv_bind E. destruct v as [v e]. injection E as <- _. econstructor; eauto.
  - inv_bind E. destruct v as [v e]. cbv zeta in E.
    match type of E with (if ?b then _ else _) = _ => destruct b end.
    + injection E as <- _. econstructor; eauto.
    + inv_bind E. destruct v0 as [vA eA]. inv_bind E. destruct v0 as [vB eB]. injection E as <- _.
      econstructor 2; eauto.
Qed.
(** the Kronrod sum with explicit nodes *)
Lemma gk_value f a b fact : forall pts odd ws ls vk vl rk rl, gk_loop f a b fact odd pts ws ls vk vl = Ok (rk, rl) ->
  rk = vk + fact * Rsum (fun i => at_ ws i * f (a * ((1 - at_ pts i) / 2) + b * ((1 + at_ pts i) / 2))) (length pts).
Proof.
  induction pts as [|p tp IH]; intros odd ws ls vk vl rk rl E; cbn [gk_loop] in E.
  - injection E as <- _. simpl. ring.
  - destruct ws as [|w tw]; [discriminate|]. cbn [length]. rewrite Rsum_head.
    assert (Ex : a * (/ 2 * (1 - p)) + b * (/ 2 * (1 + p)) = a * ((1 - p) / 2) + b * ((1 + p) / 2)) by field.
    destruct odd; [destruct ls as [|l tl]; [discriminate|]|]; apply IH in E; rewrite E; numR; rewrite half', Ex;
      unfold at_; simpl; ring.
Qed.
Lemma fixed_quad_value f a b kp kw lw v e : fixed_quad_Gauss_Kronrod f a b kp kw lw = Ok (v, e) ->
  v = (b - a) / 2 * Rsum (fun i => at_ kw i * f (a * ((1 - at_ kp i) / 2) + b * ((1 + at_ kp i) / 2))) (length kp).
Proof.
  intros E. unfold fixed_quad_Gauss_Kronrod in E. inv_bind E. destruct v0 as [vk vl]. injection E as <- _.
  apply gk_value in E0. rewrite E0. numR. rewrite half'. field.
Qed.
Lemma quad_affine rem a b kp kw lw er ea area err p q :
  Rsum (fun i => at_ kw i) (length kp) = 2 -> Rsum (fun i => at_ kw i * at_ kp i) (length kp) = 0 ->
  quad_adaptive rem (fun x => p * x + q) a b kp kw lw er ea = Ok (area, err) ->
  area = (p * b ^ 2 / 2 + q * b) - (p * a ^ 2 / 2 + q * a).
Proof.
  intros W0 W1 E. apply (quad_exact rem _ (fun x => p * x ^ 2 / 2 + q * x)) in E; auto.
  intros c d v e H. apply fixed_quad_value in H. rewrite H.
  rewrite (Rsum_ext _ (fun i => at_ kw i * (p * ((c + d) / 2) + q) + (at_ kw i * at_ kp i) * (p * (d - c) / 2))).
  2:{ intros i _. field. }
  rewrite Rsum_plus, (Rsum_scal_r (p * ((c + d) / 2) + q) (fun i => at_ kw i)), (Rsum_scal_r (p * (d - c) / 2) (fun i => at_ kw i * at_ kp i)), W0, W1. field.
Qed.

(** ** statistics *)
Lemma fold_left_lsum (l : list R) a : fold_left nadd l a = a + lsum l.
Proof. revert a; induction l; intros; simpl; [ring|]. rewrite IHl. numR. ring. Qed.
Lemma nsum_lsum l : nsum l = lsum l.
Proof. unfold nsum. rewrite fold_left_lsum, n0R. ring. Qed.
Lemma mean_ok l : l <> [] -> mean l = Ok (lsum l / INR (length l)).
Proof.
  intros H. unfold mean. rewrite nsum_lsum. numR. apply pydivR_ok. apply not_0_INR. destruct l; [contradiction | simpl; lia].
Qed.
Lemma mean_nil : @mean R _ [] = Err ZeroDivisionError.
Proof. unfold mean. rewrite nnatR. simpl. apply pydivR_0. Qed.
Lemma lsum_dev l c : lsum (map (fun x => x - c) l) = lsum l - INR (length l) * c.
Proof. induction l; [simpl; ring|]. cbn [map lsum length]. rewrite IHl, S_INR. ring. Qed.
Definition sq_dev (c : R) (l : list R) : R := lsum (map (fun x => (x - c) ^ 2) l).
Lemma sq_dev_nonneg c l : 0 <= sq_dev c l.
Proof. unfold sq_dev. induction l; cbn [map lsum]; [lra|]. pose proof (pow2_ge_0 (a - c)). lra. Qed.
Lemma std_ok l : l <> [] ->
  std l = Ok (sqrt (sq_dev (lsum l / INR (length l)) l / INR (length l))).
Proof.
  intros H. assert (0 < INR (length l)) by (apply lt_0_INR; destruct l; [contradiction | simpl; lia]).
  unfold std. rewrite fold_left_Rplus, Rplus_0_l. rewrite pdiv_ok by lra. cbn [bind].
  set (m := lsum l / INR (length l)).
  assert (G : forall l a, fold_left (fun t d => t + (d - m) * (d - m)) l a = a + sq_dev m l).
  { unfold sq_dev. induction l0; intros; cbn [fold_left map lsum]; [ring|]. rewrite IHl0; cbv zeta. ring. }
  rewrite G, Rplus_0_l. rewrite pdiv_ok by lra. cbn [bind]. apply psqrt_ok.
  apply Rmult_le_pos; [apply sq_dev_nonneg|]. left. now apply Rinv_0_lt_compat.
Qed.
Lemma std_nil : std [] = Err ZeroDivisionError.
Proof. unfold std. simpl. now rewrite pdiv_0. Qed.
Lemma sq_dev_zero c l : sq_dev c l = 0 -> forall x, In x l -> x = c.
Proof.
  unfold sq_dev. induction l as [|a t IH]; cbn [map lsum]; [intros _ x []|]. intros H x Hx.
  pose proof (pow2_ge_0 (a - c)) as P. pose proof (sq_dev_nonneg c t) as Q. unfold sq_dev in Q.
  assert (Z : (a - c) ^ 2 = 0) by lra. assert (a - c = 0) by nra.
  destruct Hx as [<-|Hx]; [lra|]. apply IH; auto; lra.
Qed.
Lemma std_zero l v : l <> [] -> std l = Ok v -> (v = 0 <-> forall x y, In x l -> In y l -> x = y).
Proof.
  intros H E. rewrite std_ok in E by auto. injection E as <-.
  assert (P : 0 < INR (length l)) by (apply lt_0_INR; destruct l; [contradiction | simpl; lia]).
  set (m := lsum l / INR (length l)). pose proof (sq_dev_nonneg m l) as Q.
  assert (D : 0 <= sq_dev m l / INR (length l)) by (apply Rmult_le_pos; auto; left; now apply Rinv_0_lt_compat).
  split.
  - intros E. apply sqrt_eq_0 in E; auto. assert (Z : sq_dev m l = 0).
    { apply Rmult_integral in E. destruct E as [E|E]; auto. exfalso. pose proof (Rinv_0_lt_compat _ P). lra. }
    intros x y Hx Hy. rewrite (sq_dev_zero m l Z x Hx), (sq_dev_zero m l Z y Hy). reflexivity.
  - intros A. destruct l as [|a t]; [contradiction|].
    assert (C : forall x, In x (a :: t) -> x = a) by (intros; apply A; auto; left; auto).
    assert (S : lsum (a :: t) = INR (length (a :: t)) * a).
    { clear - C. revert C. generalize (a :: t). induction l as [|b t' IH]; intros C; [simpl; ring|].
      cbn [lsum length]. rewrite IH by (intros; apply C; right; auto). rewrite (C b) by (left; auto). rewrite S_INR. ring. }
    assert (M : m = a) by (unfold m; rewrite S; field; lra).
    assert (Z : sq_dev m (a :: t) = 0).
    { rewrite M. clear - C. unfold sq_dev. revert C. generalize (a :: t). induction l as [|b t' IH]; intros C; [reflexivity|].
      cbn [map lsum]. rewrite IH by (intros; apply C; right; auto). rewrite (C b) by (left; auto). ring. }
    rewrite Z. unfold Rdiv. rewrite Rmult_0_l. apply sqrt_0.
Qed.
Lemma detect_outlier_spec l cut r : detect_outlier_normal l cut = Ok r -> 0 <= cut ->
  exists m s, mean l = Ok m /\ std l = Ok s /\
   forall i, In i r <-> (i < length l)%nat /\ cut * s < Rabs (at_ l i - m).
Proof.
  intros E Hc. unfold detect_outlier_normal in E. inv_bind E. rename v into s. inv_bind E. rename v into m. cbv zeta in E.
  exists m, s. splits; auto.
  assert (Hs : 0 <= s).
  { destruct l as [|a t]; [rewrite std_nil in E0; discriminate|]. rewrite std_ok in E0 by discriminate. injection E0 as <-. apply sqrt_pos. }
  injection E as <-. intros i. rewrite in_map_iff. split.
  - intros ((j & p) & <- & Hj). apply filter_In in Hj. destruct Hj as [Hj Hp]. simpl.
    pose proof (in_combine_l _ _ _ _ Hj) as Hs'. apply in_seq in Hs'. split; [lia|].
    assert (p = at_ l j).
    { destruct (In_nth _ _ (0%nat, 0) Hj) as (k & Hk & En). rewrite combine_length, seq_length, Nat.min_id in Hk.
      rewrite combine_nth in En by (rewrite seq_length; auto). injection En as E2 E3. rewrite seq_nth in E2 by auto. simpl in E2. subst. reflexivity. }
    subst p. apply orb_true_iff in Hp. rewrite !Rltb_true in Hp. assert (0 <= cut * s) by nra.
    unfold Rabs. destruct (Rcase_abs _); nra.
  - intros [Hi H]. exists (i, at_ l i). split; auto. apply filter_In. split.
    + replace (i, at_ l i) with (nth i (combine (seq 0 (length l)) l) (0%nat, 0)).
      * apply nth_In. rewrite combine_length, seq_length. lia.
      * rewrite combine_nth by (rewrite seq_length; auto). rewrite seq_nth by auto. reflexivity.
    + apply orb_true_iff. rewrite !Rltb_true. revert H. unfold Rabs. destruct (Rcase_abs _); intros; [left|right]; nra.
Qed.
Lemma normalize_ok l : lsum l <> 0 -> exists r, normalize l = Ok r /\ lsum r = 1 /\ length r = length l /\
  forall i, at_ r i * lsum l = at_ l i.
Proof.
  intros H. unfold normalize. rewrite nsum_lsum, pydivR_ok by auto. cbn [bind]. rewrite n1R.
  eexists; split; [reflexivity|]. splits.
  - replace (map (fun i : R => (i * (1 / lsum l))%num) l) with (map (fun i => i / lsum l) l).
    + rewrite lsum_map_div. field. auto.
    + apply map_ext. intros. numR. field. auto.
  - apply map_length.
  - intros i. unfold at_. replace 0 with ((0 * (1 / lsum l))) at 1 by ring.
    change (nth i (map (fun i : R => i * (1 / lsum l)) l) (0 * (1 / lsum l)) * lsum l = nth i l 0).
    rewrite (map_nth (fun i : R => i * (1 / lsum l))). field. auto.
Qed.
Lemma normalize_err l : lsum l = 0 -> @normalize R _ l = Err ZeroDivisionError.
Proof. intros H. unfold normalize. rewrite nsum_lsum, H. now rewrite pydivR_0. Qed.

(** ** error measures *)
Lemma fold2_max (g : R -> R -> R) (G : R -> R -> R -> result R) data : 
  (forall e d c, G e d c = Ok (if Rltb e (g d c) then g d c else e)) ->
  forall calc e, (length data <= length calc)%nat ->
  exists r, fold2 G data calc e = Ok r /\ e <= r /\
   (forall i, (i < length data)%nat -> g (at_ data i) (at_ calc i) <= r) /\
   (r = e \/ exists i, (i < length data)%nat /\ r = g (at_ data i) (at_ calc i)).
Proof.
  intros HG. induction data as [|d td IH]; intros calc e L.
  - exists e. simpl. splits; auto; try lra. intros; lia.
  - destruct calc as [|c tc]; [simpl in L; lia|]. cbn [fold2]. rewrite HG. cbn [bind].
    destruct (IH tc (if Rltb e (g d c) then g d c else e) ltac:(simpl in L; lia)) as (r & -> & A & B & D).
    exists r. splits; auto.
    + revert A. rcase; lra.
    + intros [|i] Hi; [unfold at_; simpl; revert A; rcase; lra|]. rewrite !at_cons. apply B. simpl in Hi; lia.
    + destruct D as [->|(i & Hi & ->)].
      * rcase; [right; exists 0%nat; split; [simpl; lia | reflexivity] | left; auto].
      * right. exists (S i). split; [simpl; lia | reflexivity].
Qed.
Lemma fold2_sum (g : R -> R -> R) (G : R -> R -> R -> result R) (P : R -> R -> Prop) data :
  (forall e d c, P d c -> G e d c = Ok (e + g d c)) ->
  forall calc e, (length data <= length calc)%nat -> (forall i, (i < length data)%nat -> P (at_ data i) (at_ calc i)) ->
  fold2 G data calc e = Ok (e + Rsum (fun i => g (at_ data i) (at_ calc i)) (length data)).
Proof.
  intros HG. induction data as [|d td IH]; intros calc e L HP.
  - simpl. f_equal. ring.
  - destruct calc as [|c tc]; [simpl in L; lia|]. cbn [fold2]. rewrite HG by (apply (HP 0%nat); simpl; lia). cbn [bind].
    rewrite IH by (simpl in L; try lia; intros i Hi; apply (HP (S i)); simpl; lia).
    f_equal. cbn [length]. rewrite Rsum_head. change (at_ (d :: td) 0) with d. change (at_ (c :: tc) 0) with c.
    rewrite Rplus_assoc. reflexivity.
Qed.

(** ** best_bounding_bounds *)
Lemma index_of_spec (v : R) l : In v l -> exists i, index_of v l = Ok i /\ (i < length l)%nat /\ at_ l i = v.
Proof.
  induction l as [|h t IH]; intros H; [destruct H|]. cbn [index_of]. numR. rcase.
  - exists 0%nat. splits; auto. simpl; lia.
  - destruct H as [->|H]; [contradiction|]. destruct (IH H) as (i & -> & Hi & V). exists (S i). cbn [bind]. splits; auto. simpl; lia.
Qed.
