(** Bounded variables, bracketing history, error measures. *)
From Coq Require Import List Bool QArith Reals ZArith Arith Lra Lia Psatz.
From Coquelicot Require Import Coquelicot.
From Verif Require Import Base Sums Spec_Poly Model_Poly Proofs_Poly Proofs_Poly2 Model_Numerics Proofs_Numerics
  Proofs_Seq Proofs_Opt Proofs_Misc2 Proofs_Misc3.
Import ListNotations.
Local Open Scope R_scope.

(** ** translate_bound_func *)
Lemma trunc_exp_pos x : 0 < trunc_exp x.
Proof.
  unfold trunc_exp, pexp. destruct (Rltb exp_overflow x).
  - unfold trunc_exp_default. apply Rmult_lt_0_compat; [lra | apply pow_lt; lra].
  - apply exp_pos.
Qed.
Lemma trunc_exp_ok x : x <= exp_overflow -> trunc_exp x = exp x.
Proof. intros. unfold trunc_exp, pexp. rcase; [lra | reflexivity]. Qed.
Lemma outof1_inside l h x : l < h -> l < outof1 l h x < h.
Proof.
  intros H. unfold outof1. pose proof (trunc_exp_pos (- x)) as P. set (e := trunc_exp (- x)) in *.
  assert (0 < / (1 + e) < 1). { split; [apply Rinv_0_lt_compat; lra|]. rewrite <- Rinv_1. apply Rinv_lt_contravar; lra. }
  unfold Rdiv. split; nra.
Qed.
Lemma into_outof l h x : l < h -> - exp_overflow <= x -> into1 l h (outof1 l h x) = Ok x.
Proof.
  intros H Hx. pose proof (outof1_inside l h x H) as [I1 I2]. unfold into1.
  rewrite pdiv_ok by lra. cbn [bind].
  assert (E : (h - outof1 l h x) / (outof1 l h x - l) = exp (- x)).
  { unfold outof1 in *. rewrite trunc_exp_ok by lra. pose proof (exp_pos (- x)). field. lra. }
  rewrite E. unfold trunc_log. pose proof (exp_pos (- x)). destruct (Reqb (exp (- x)) 0) eqn:Z; rb Z; [lra|].
  rewrite plog_ok by auto. cbn [bind]. rewrite ln_exp. f_equal. ring.
Qed.
Lemma outof_into l h x : l < x < h -> ln ((h - x) / (x - l)) <= exp_overflow ->
  exists y, into1 l h x = Ok y /\ outof1 l h y = x.
Proof.
  intros [H1 H2] O. unfold into1. rewrite pdiv_ok by lra. cbn [bind].
  assert (P : 0 < (h - x) / (x - l)) by (apply Rdiv_lt_0_compat; lra).
  unfold trunc_log. destruct (Reqb _ 0) eqn:Z; rb Z; [lra|]. rewrite plog_ok by auto. cbn [bind].
  eexists; split; [reflexivity|]. unfold outof1. rewrite Ropp_involutive, trunc_exp_ok, exp_ln by auto. field.
  split; [lra|]. intro. assert (h = l) by lra. lra.
Qed.
Lemma outof1_derive l h x : - exp_overflow < x ->
  is_derive (outof1 l h) x ((h - l) * trunc_exp (- x) / (1 + trunc_exp (- x)) ^ 2).
Proof.
  intros Hx. rewrite trunc_exp_ok by lra.
  apply (is_derive_near _ (fun x => l + (h - l) / (1 + exp (- x))) x _ (- exp_overflow) (x + 1)); [lra | |].
  - intros y Hy. unfold outof1. rewrite trunc_exp_ok by lra. reflexivity.
  - pose proof (exp_pos (- x)). auto_derive; [lra|]. field. lra.
Qed.
Lemma outof1_increasing l h x y : l < h -> - exp_overflow <= x -> x < y -> outof1 l h x < outof1 l h y.
Proof.
  intros H Hx Hxy. unfold outof1. rewrite !trunc_exp_ok by lra.
  assert (exp (- y) < exp (- x)) by (apply exp_increasing; lra). pose proof (exp_pos (- y)). pose proof (exp_pos (- x)).
  assert (/ (1 + exp (- x)) < / (1 + exp (- y))) by (apply Rinv_lt_contravar; nra). unfold Rdiv. nra.
Qed.
Lemma translate_outof_spec : forall x low high, length low = length x -> length high = length x ->
  exists y, translate_outof low high x = Ok y /\ length y = length x /\
    forall i, (i < length x)%nat -> at_ y i = outof1 (at_ low i) (at_ high i) (at_ x i).
Proof.
  induction x as [|v t IH]; intros [|l tl] [|h th] L1 L2; try discriminate; cbn [translate_outof].
  - exists []. splits; auto. simpl; intros; lia.
  - injection L1 as L1. injection L2 as L2. destruct (IH tl th L1 L2) as (y & -> & Ly & Hy). cbn [bind].
    eexists; splits; [reflexivity | simpl; auto |]. intros [|i] Hi; [reflexivity|]. rewrite !at_cons. apply Hy. simpl in Hi; lia.
Qed.
Lemma translate_into_spec : forall x low high, length low = length x -> length high = length x ->
  (forall i, (i < length x)%nat -> at_ low i < at_ x i < at_ high i) ->
  exists y, translate_into low high x = Ok y /\ length y = length x /\
    forall i, (i < length x)%nat -> into1 (at_ low i) (at_ high i) (at_ x i) = Ok (at_ y i).
Proof.
  induction x as [|v t IH]; intros [|l tl] [|h th] L1 L2 B; try discriminate; cbn [translate_into].
  - exists []. splits; auto. simpl; intros; lia.
  - injection L1 as L1. injection L2 as L2.
    destruct (IH tl th L1 L2) as (y & -> & Ly & Hy). { intros i Hi. apply (B (S i)). simpl; lia. }
    assert (E : exists z, into1 l h v = Ok z).
    { pose proof (B 0%nat ltac:(simpl; lia)) as [B1 B2]. unfold at_ in B1, B2; simpl in B1, B2. unfold into1.
      rewrite pdiv_ok by lra. cbn [bind]. unfold trunc_log.
      assert (P : 0 < (h - v) / (v - l)) by (apply Rdiv_lt_0_compat; lra).
      destruct (Reqb _ 0); [eexists; reflexivity|]. rewrite plog_ok by auto. eexists; reflexivity. }
    destruct E as (z & E). rewrite E. cbn [bind]. eexists; splits; [reflexivity | simpl; auto |].
    intros [|i] Hi; [exact E|]. rewrite !at_cons. apply Hy. simpl in Hi; lia.
Qed.
Lemma translate_into_length : forall x low high y, translate_into low high x = Ok y -> length y = length x.
Proof.
  induction x as [|v t IH]; intros [|l tl] [|h th] y E; cbn [translate_into] in E; try discriminate; try (injection E as <-; reflexivity).
  inv_bind E. inv_bind E. injection E as <-. simpl. f_equal. eauto.
Qed.
Lemma at_ext_list (l1 l2 : list R) : length l1 = length l2 -> (forall i, (i < length l1)%nat -> at_ l1 i = at_ l2 i) -> l1 = l2.
Proof. intros L H. apply (nth_ext l1 l2 0 0); auto. Qed.
Lemma round_trip_inner low high x : length low = length x -> length high = length x ->
  (forall i, (i < length x)%nat -> at_ low i < at_ x i < at_ high i) ->
  (forall i, (i < length x)%nat -> ln ((at_ high i - at_ x i) / (at_ x i - at_ low i)) <= exp_overflow) ->
  exists y, translate_into low high x = Ok y /\ translate_outof low high y = Ok x.
Proof.
  intros L1 L2 B O. destruct (translate_into_spec x low high L1 L2 B) as (y & E & Ly & Hy). exists y. split; auto.
  destruct (translate_outof_spec y low high) as (z & Ez & Lz & Hz); try congruence. rewrite Ez. f_equal.
  apply at_ext_list; [congruence|]. intros i Hi. rewrite Hz by congruence.
  destruct (outof_into (at_ low i) (at_ high i) (at_ x i)) as (w & E1 & E2); [apply B; congruence | apply O; congruence|].
  rewrite Hy in E1 by congruence. injection E1 as ->. exact E2.
Qed.
Lemma round_trip_outer low high x : length low = length x -> length high = length x ->
  (forall i, (i < length x)%nat -> at_ low i < at_ high i /\ - exp_overflow <= at_ x i) ->
  exists y, translate_outof low high x = Ok y /\ translate_into low high y = Ok x /\
    forall i, (i < length x)%nat -> at_ low i < at_ y i < at_ high i.
Proof.
  intros L1 L2 B. destruct (translate_outof_spec x low high L1 L2) as (y & E & Ly & Hy). exists y. split; auto.
  assert (I : forall i, (i < length x)%nat -> at_ low i < at_ y i < at_ high i).
  { intros i Hi. rewrite Hy by auto. apply outof1_inside. apply B; auto. }
  split; auto. destruct (translate_into_spec y low high) as (z & Ez & Lz & Hz); try congruence.
  { intros; apply I; congruence. }
  rewrite Ez. f_equal. apply at_ext_list; [congruence|]. intros i Hi.
  assert (Hi' : (i < length x)%nat) by congruence.
  specialize (Hz i ltac:(congruence)). rewrite Hy, into_outof in Hz by (auto; apply B; auto). now injection Hz.
Qed.
(** any x at all lands strictly inside *)
Lemma translate_inside low high x : length low = length x -> length high = length x ->
  (forall i, (i < length x)%nat -> at_ low i < at_ high i) ->
  exists y, translate_outof low high x = Ok y /\ length y = length x /\
   forall i, (i < length x)%nat -> at_ low i < at_ y i < at_ high i.
Proof.
  intros L1 L2 B. destruct (translate_outof_spec x low high L1 L2) as (y & E & Ly & Hy). exists y. splits; auto.
  intros i Hi. rewrite Hy by auto. apply outof1_inside. apply B; auto.
Qed.
Lemma scale_jac_spec : forall x low high jac, length low = length x -> length high = length x -> length jac = length x ->
  exists r, scale_jac low high x jac = Ok r /\ length r = length x /\ forall i, (i < length x)%nat ->
   at_ r i = at_ jac i * ((at_ high i - at_ low i) * trunc_exp (- at_ x i) / (1 + trunc_exp (- at_ x i)) ^ 2).
Proof.
  induction x as [|v t IH]; intros [|l tl] [|h th] [|j tj] L1 L2 L3; try discriminate; cbn [scale_jac].
  - exists []. splits; auto. simpl; intros; lia.
  - injection L1 as L1. injection L2 as L2. injection L3 as L3. destruct (IH tl th tj L1 L2 L3) as (r & -> & Lr & Hr). cbn [bind].
    eexists; splits; [reflexivity | simpl; auto |]. intros [|i] Hi.
    + unfold at_; cbn [nth]. pose proof (trunc_exp_pos (- v)). field. lra.
    + rewrite !at_cons. apply Hr. simpl in Hi; lia.
Qed.
Lemma at_upd (l : list R) i v j : (i < length l)%nat -> at_ (upd l i v) j = if Nat.eqb i j then v else at_ l j.
Proof.
  intros H. unfold at_. destruct (Nat.eqb_spec i j) as [<-|N]; [now apply upd_nth_eq | now apply upd_nth_neq].
Qed.
Lemma bound_jac_ok (func : list R -> R) (jac : list R -> list R) low high x :
  length low = length x -> length high = length x ->
  (forall i, (i < length x)%nat -> - exp_overflow < at_ x i) ->
  (forall y, length y = length x -> length (jac y) = length x /\
     forall i, (i < length x)%nat -> is_derive (fun t => func (upd y i t)) (at_ y i) (at_ (jac y) i)) ->
  exists r, bound_jac jac low high x = Ok r /\ length r = length x /\
    forall i, (i < length x)%nat -> exists G, (forall t, bound_func func low high (upd x i t) = Ok (G t)) /\
      is_derive G (at_ x i) (at_ r i).
Proof.
  intros L1 L2 B J. destruct (translate_outof_spec x low high L1 L2) as (y & E & Ly & Hy).
  destruct (J y Ly) as (Lj & Dj).
  destruct (scale_jac_spec x low high (jac y) L1 L2 Lj) as (r & Er & Lr & Hr).
  exists r. split; [unfold bound_jac; rewrite E; exact Er|]. split; auto. intros i Hi.
  exists (fun t => func (upd y i (outof1 (at_ low i) (at_ high i) t))). split.
  - intros t. unfold bound_func.
    destruct (translate_outof_spec (upd x i t) low high) as (z & Ez & Lz & Hz); rewrite ?upd_length; auto.
    rewrite upd_length in Lz, Hz. rewrite Ez. cbn [bind]. do 2 f_equal.
    apply at_ext_list; [rewrite upd_length; congruence|]. intros j Hj. rewrite Hz by congruence.
    rewrite !at_upd by congruence. destruct (Nat.eqb_spec i j) as [<-|]; auto. symmetry. apply Hy. congruence.
  - rewrite Hr by auto.
    apply (is_derive_ext (fun t => (fun u => func (upd y i u)) (outof1 (at_ low i) (at_ high i) t))); [reflexivity|].
    evar_last.
    + apply (is_derive_comp (fun u => func (upd y i u)) (outof1 (at_ low i) (at_ high i))).
      * rewrite <- Hy by auto. apply Dj; auto.
      * apply outof1_derive. auto.
    + unfold scal; simpl. unfold mult; simpl. ring.
Qed.

(** ** best_bounding_bounds *)
Definition sampled (f : R -> R) (xs ys : list R) : Prop := length xs = length ys /\ forall i, (i < length ys)%nat -> at_ ys i = f (at_ xs i).
Lemma best_bounds_ok f low high xp yp xn yn l h a b :
  sampled f xp yp -> sampled f xn yn ->
  best_bounding_bounds low high (f low) (f high) xp yp xn yn = Ok (l, h, a, b) ->
  a = f l /\ b = f h /\ a * b <= 0 /\
  (l = low \/ In l xp \/ In l xn) /\ (h = high \/ In h xp \/ In h xn).
Proof.
  intros [Lp Sp] [Ln Sn] E. unfold best_bounding_bounds in E.
  assert (PP : forall l0 h0 a0 b0 m,
    match yp with
     | [] => Ok (low, high, f low, f high, None)
     | h :: t =>
        let y_min_pos := list_min h t in
        i <- index_of y_min_pos yp ;;
        x_min_pos <- idx xp i ;;
        if (n0 <? f low)%num then
          if (y_min_pos <? f low)%num then Ok (x_min_pos, high, y_min_pos, f high, Some y_min_pos)
          else Ok (low, high, f low, f high, Some y_min_pos)
        else
          if (y_min_pos <? f high)%num then Ok (low, x_min_pos, f low, y_min_pos, Some y_min_pos)
          else Ok (low, high, f low, f high, Some y_min_pos)
     end = Ok (l0, h0, a0, b0, m) ->
    a0 = f l0 /\ b0 = f h0 /\ (l0 = low \/ In l0 xp) /\ (h0 = high \/ In h0 xp)).
  { intros l0 h0 a0 b0 m E0. destruct yp as [|hy ty]; [injection E0 as <- <- <- <- _; auto|]. cbv zeta in E0.
    destruct (index_of_spec (list_min hy ty) (hy :: ty)) as (i & Ei & Hi & Vi); [apply list_min_in|].
    rewrite Ei in E0. cbn [bind] in E0. rewrite idx_at in E0 by lia. cbn [bind] in E0.
    assert (V : list_min hy ty = f (at_ xp i)) by (rewrite <- Vi; auto).
    assert (I : In (at_ xp i) xp) by (apply nth_In; lia).
    repeat match type of E0 with (if ?c then _ else _) = _ => destruct c end; injection E0 as <- <- <- <- _; auto. }
  inv_bind E. destruct v as [[[[l0 h0] a0] b0] m]. apply PP in E0. clear PP. destruct E0 as (Ea & Eb & Il & Ih).
  inv_bind E. destruct v as [[[l1 h1] a1] b1].
  assert (PN : a1 = f l1 /\ b1 = f h1 /\ (l1 = low \/ In l1 xp \/ In l1 xn) /\ (h1 = high \/ In h1 xp \/ In h1 xn)).
  { destruct yn as [|hy ty]; [injection E0 as <- <- <- <-; splits; tauto|]. cbv zeta in E0.
    destruct (index_of_spec (list_max hy ty) (hy :: ty)) as (i & Ei & Hi & Vi); [apply list_max_in|].
    rewrite Ei in E0. cbn [bind] in E0. rewrite idx_at in E0 by lia. cbn [bind] in E0.
    assert (V : list_max hy ty = f (at_ xn i)) by (rewrite <- Vi; auto).
    assert (I : In (at_ xn i) xn) by (apply nth_In; lia).
    destruct (a0 <? n0)%num; [destruct (a0 <? list_max hy ty)%num|destruct m as [mm|]; [destruct (b0 <? mm)%num|discriminate]];
     injection E0 as <- <- <- <-; splits; tauto. }
  destruct PN as (A & B & C & D). numR. destruct (Rltb 0 (a1 * b1)) eqn:Z; rb Z; [discriminate|].
  injection E as <- <- <- <-. splits; auto.
Qed.

(** ** error measures *)
Lemma abs_sq x : Rabs x * Rabs x = x ^ 2.
Proof. unfold Rabs. destruct (Rcase_abs x); ring. Qed.
(** r is the largest of 0 and the n values g 0 .. g (n-1) *)
Definition is_max (r : R) (g : nat -> R) (n : nat) : Prop :=
  0 <= r /\ (forall i, (i < n)%nat -> g i <= r) /\ (r = 0 \/ exists i, (i < n)%nat /\ r = g i).
Lemma max_abs_error_ok data calc : (length data <= length calc)%nat ->
  exists r, max_abs_error data calc = Ok r /\ is_max r (fun i => Rabs (at_ data i - at_ calc i)) (length data).
Proof.
  intros L. unfold max_abs_error. rewrite n0R.
  match goal with |- context [fold2 ?G _ _ _] => destruct (fold2_max (fun d c => Rabs (d - c)) G data) with (calc := calc) (e := 0) as (r & E & P1 & P2 & P3); auto end.
  exists r. split; [exact E|]. unfold is_max; auto.
Qed.
Lemma max_squared_error_ok data calc : (length data <= length calc)%nat ->
  exists r, max_squared_error data calc = Ok r /\ is_max r (fun i => (at_ data i - at_ calc i) ^ 2) (length data).
Proof.
  intros L. unfold max_squared_error. rewrite n0R.
  match goal with |- context [fold2 ?G _ _ _] => destruct (fold2_max (fun d c => (d - c) ^ 2) G data) with (calc := calc) (e := 0) as (r & E & P1 & P2 & P3); auto end.
  { intros. cbv zeta. numR. rewrite abs_sq. reflexivity. }
  exists r. split; [exact E|]. unfold is_max; auto.
Qed.
Lemma fold2_max' (g : R -> R -> R) (P : R -> R -> Prop) (G : R -> R -> R -> result R) data : 
  (forall e d c, P d c -> G e d c = Ok (if Rltb e (g d c) then g d c else e)) ->
  forall calc e, (length data <= length calc)%nat -> (forall i, (i < length data)%nat -> P (at_ data i) (at_ calc i)) ->
  exists r, fold2 G data calc e = Ok r /\ e <= r /\
   (forall i, (i < length data)%nat -> g (at_ data i) (at_ calc i) <= r) /\
   (r = e \/ exists i, (i < length data)%nat /\ r = g (at_ data i) (at_ calc i)).
Proof.
  intros HG. induction data as [|d td IH]; intros calc e L HP.
  - exists e. simpl. splits; auto; try lra. intros; lia.
  - destruct calc as [|c tc]; [simpl in L; lia|]. cbn [fold2]. rewrite HG by (apply (HP 0%nat); simpl; lia). cbn [bind].
    destruct (IH tc (if Rltb e (g d c) then g d c else e) ltac:(simpl in L; lia)) as (r & -> & A & B & D).
    { intros i Hi. apply (HP (S i)). simpl; lia. }
    exists r. splits; auto.
    + revert A. rcase; lra.
    + intros [|i] Hi; [unfold at_; simpl; revert A; rcase; lra|]. rewrite !at_cons. apply B. simpl in Hi; lia.
    + destruct D as [->|(i & Hi & ->)].
      * rcase; [right; exists 0%nat; split; [simpl; lia | reflexivity] | left; auto].
      * right. exists (S i). split; [simpl; lia | reflexivity].
Qed.
Lemma max_squared_rel_error_ok data calc : (length data <= length calc)%nat ->
  (forall i, (i < length data)%nat -> at_ data i <> 0) ->
  exists r, max_squared_rel_error data calc = Ok r /\ is_max r (fun i => ((at_ data i - at_ calc i) / at_ data i) ^ 2) (length data).
Proof.
  intros L NZ. unfold max_squared_rel_error. rewrite n0R.
  match goal with |- context [fold2 ?G _ _ _] => destruct (fold2_max' (fun d c => ((d - c) / d) ^ 2) (fun d _ => d <> 0) G data) with (calc := calc) (e := 0) as (r & E & P1 & P2 & P3); auto end.
  { intros e d c Hd. rewrite pydivR_ok by auto. cbn [bind]. numR. rewrite abs_sq. reflexivity. }
  exists r. split; [exact E|]. unfold is_max; auto.
Qed.
(** capped relative deviation; a zero reference counts as the cap unless the value is zero too *)
Definition rel_dev (cap d c : R) : R :=
  if Req_EM_T d 0 then (if Req_EM_T c 0 then 0 else cap) else Rmin cap (Rabs ((d - c) / d)).
Lemma max_abs_rel_error_ok data calc cap : (length data <= length calc)%nat ->
  exists r, max_abs_rel_error data calc cap = Ok r /\ is_max r (fun i => rel_dev cap (at_ data i) (at_ calc i)) (length data).
Proof.
  intros L. unfold max_abs_rel_error. rewrite n0R.
  match goal with |- context [fold2 ?G _ _ _] => destruct (fold2_max (rel_dev cap) G data) with (calc := calc) (e := 0) as (r & E & P1 & P2 & P3); auto end.
  { intros e d c. unfold rel_dev. numR.
    destruct (Req_EM_T d 0) as [->|N].
    - replace (Reqb 0 0) with true by (symmetry; now apply Reqb_true). 
      destruct (Req_EM_T c 0) as [->|N']; [replace (Reqb 0 0) with true by (symmetry; now apply Reqb_true) | replace (Reqb c 0) with false by (symmetry; now apply Reqb_false)]; reflexivity.
    - replace (Reqb d 0) with false by (symmetry; now apply Reqb_false). rewrite pydivR_ok by auto. cbn [bind].
      replace (if Rltb cap (Rabs ((d - c) / d)) then cap else Rabs ((d - c) / d)) with (Rmin cap (Rabs ((d - c) / d))); auto.
      unfold Rmin. destruct (Rle_dec _ _); rcase; lra. }
  exists r. split; [exact E|]. unfold is_max; auto.
Qed.
Definition average (g : nat -> R) (n : nat) : R := Rsum g n / INR n.
Lemma len_pos (l : list R) : l <> [] -> INR (length l) <> 0.
Proof. intros H. apply not_0_INR. destruct l; [contradiction | simpl; lia]. Qed.
Lemma mean_abs_error_ok data calc : (length data <= length calc)%nat -> data <> [] ->
  mean_abs_error data calc = Ok (average (fun i => Rabs (at_ data i - at_ calc i)) (length data)).
Proof.
  intros L N. unfold mean_abs_error, average. rewrite n0R.
  rewrite (fold2_sum (fun d c => Rabs (d - c)) _ (fun _ _ => True)); auto. cbn [bind].
  rewrite nnatR, pydivR_ok by now apply len_pos. now rewrite Rplus_0_l.
Qed.
Lemma mean_squared_error_ok data calc : (length data <= length calc)%nat -> data <> [] ->
  mean_squared_error data calc = Ok (average (fun i => (at_ data i - at_ calc i) ^ 2) (length data)).
Proof.
  intros L N. unfold mean_squared_error, average. rewrite n0R.
  rewrite (fold2_sum (fun d c => (d - c) ^ 2) _ (fun _ _ => True)); auto.
  2:{ intros. cbv zeta. numR. rewrite abs_sq. reflexivity. }
  cbn [bind]. rewrite nnatR, pydivR_ok by now apply len_pos. now rewrite Rplus_0_l.
Qed.
Lemma mean_squared_rel_error_ok data calc : (length data <= length calc)%nat -> data <> [] ->
  (forall i, (i < length data)%nat -> at_ data i <> 0) ->
  mean_squared_rel_error data calc = Ok (average (fun i => ((at_ data i - at_ calc i) / at_ data i) ^ 2) (length data)).
Proof.
  intros L N NZ. unfold mean_squared_rel_error, average. rewrite n0R.
  rewrite (fold2_sum (fun d c => ((d - c) / d) ^ 2) _ (fun d _ => d <> 0)); auto.
  2:{ intros e d c Hd. rewrite pydivR_ok by auto. cbn [bind]. numR. rewrite abs_sq. reflexivity. }
  cbn [bind]. rewrite nnatR, pydivR_ok by now apply len_pos. now rewrite Rplus_0_l.
Qed.
Definition rel_dev1 (d c : R) : R :=
  if Req_EM_T d 0 then (if Req_EM_T c 0 then 0 else 1) else Rabs ((d - c) / d).
Lemma mean_abs_rel_error_ok data calc : (length data <= length calc)%nat -> data <> [] ->
  mean_abs_rel_error data calc = Ok (average (fun i => rel_dev1 (at_ data i) (at_ calc i)) (length data)).
Proof.
  intros L N. unfold mean_abs_rel_error, average. rewrite n0R.
  rewrite (fold2_sum rel_dev1 _ (fun _ _ => True)); auto.
  2:{ intros e d c _. unfold rel_dev1. numR. destruct (Req_EM_T d 0) as [->|N0].
    - replace (Reqb 0 0) with true by (symmetry; now apply Reqb_true).
      destruct (Req_EM_T c 0) as [->|N']; [replace (Reqb 0 0) with true by (symmetry; now apply Reqb_true); f_equal; ring | replace (Reqb c 0) with false by (symmetry; now apply Reqb_false); f_equal; ring].
    - replace (Reqb d 0) with false by (symmetry; now apply Reqb_false). rewrite pydivR_ok by auto. reflexivity. }
  cbn [bind]. rewrite nnatR, pydivR_ok by now apply len_pos. now rewrite Rplus_0_l.
Qed.
