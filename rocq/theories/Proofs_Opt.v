(** Clipping, Nelder-Mead, damping, oscillation checking, caching, adaptive quadrature. *)
From Coq Require Import List Bool QArith Reals ZArith Arith Lra Lia Psatz Permutation Sorted.
From Verif Require Import Base Sums Model_Poly Model_Numerics Proofs_Numerics Proofs_Seq.
Import ListNotations.
Local Open Scope R_scope.

(** ** bounds_clip_naive *)
Lemma clip_low_spec low : forall x, (length low <= length x)%nat ->
  exists r, clip_low x low = Ok r /\ length r = length x /\
   forall i, at_ r i = if Nat.ltb i (length low) then Rmax (at_ x i) (at_ low i) else at_ x i.
Proof.
  induction low as [|l tl IH]; intros x L.
  - exists x. split; [destruct x; reflexivity|]. split; [reflexivity|]. intros [|i]; reflexivity.
  - destruct x as [|h t]; [simpl in L; lia|]. cbn [clip_low].
    destruct (IH t ltac:(simpl in L; lia)) as (r & -> & Lr & V). cbn [bind]. numR.
    eexists; split; [reflexivity|]. split; [simpl; lia|]. intros [|i].
    + unfold at_; simpl. unfold Rmax. rcase; destruct (Rle_dec h l); lra.
    + rewrite !at_cons. rewrite V. reflexivity.
Qed.
Lemma clip_high_spec n : forall x high, (n <= length x)%nat -> (n <= length high)%nat ->
  exists r, clip_high n x high = Ok r /\ length r = length x /\
   forall i, at_ r i = if Nat.ltb i n then Rmin (at_ x i) (at_ high i) else at_ x i.
Proof.
  induction n as [|n IH]; intros x high L1 L2.
  - exists x. split; [destruct x; reflexivity|]. split; [reflexivity|]. intros [|i]; reflexivity.
  - destruct x as [|h t]; [simpl in L1; lia|]. destruct high as [|u tu]; [simpl in L2; lia|]. cbn [clip_high].
    destruct (IH t tu ltac:(simpl in L1; lia) ltac:(simpl in L2; lia)) as (r & -> & Lr & V). cbn [bind]. numR.
    eexists; split; [reflexivity|]. split; [simpl; lia|]. intros [|i].
    + unfold at_; simpl. unfold Rmin. rcase; destruct (Rle_dec h u); lra.
    + rewrite !at_cons. rewrite V. reflexivity.
Qed.
Lemma clip_spec x low high : length low = length x -> length high = length x ->
  exists r, bounds_clip_naive x (Some low) (Some high) = Ok r /\ length r = length x /\
    forall i, (i < length x)%nat -> at_ r i = Rmin (Rmax (at_ x i) (at_ low i)) (at_ high i).
Proof.
  intros L1 L2. unfold bounds_clip_naive. destruct (clip_low_spec low x ltac:(lia)) as (r & -> & Lr & V). cbn [bind].
  destruct (clip_high_spec (length low) r high ltac:(lia) ltac:(lia)) as (r' & -> & Lr' & V').
  exists r'. splits; auto; try lia. intros i Hi. rewrite V', V, (proj2 (Nat.ltb_lt i (length low))) by lia. reflexivity.
Qed.
Lemma clip_none x high : @bounds_clip_naive R _ x None high = Err TypeError.
Proof. reflexivity. Qed.
Definition within (low high x : list R) : Prop :=
  length x = length low /\ length x = length high /\
  forall i, (i < length x)%nat -> at_ low i <= at_ x i <= at_ high i.
Definition ordered (low high : list R) : Prop :=
  length low = length high /\ forall i, (i < length low)%nat -> at_ low i <= at_ high i.
Lemma clip_within low high x : ordered low high -> length x = length low ->
  exists r, bounds_clip_naive x (Some low) (Some high) = Ok r /\ within low high r.
Proof.
  intros [Lo O] L. destruct (clip_spec x low high) as (r & E & Lr & V); try lia. exists r. split; auto.
  split; [lia|]. split; [lia|]. intros i Hi. rewrite V by lia. specialize (O i ltac:(lia)).
  split; [apply Rmin_glb; auto; apply Rmax_r | apply Rmin_r].
Qed.
Lemma clip_id low high x : within low high x -> bounds_clip_naive x (Some low) (Some high) = Ok x.
Proof.
  intros (L1 & L2 & B). destruct (clip_spec x low high) as (r & E & Lr & V); try lia. rewrite E. f_equal.
  apply (nth_ext _ _ 0 0); auto. intros i Hi. change (at_ r i = at_ x i). rewrite V by lia. specialize (B i ltac:(lia)).
  rewrite Rmax_left, Rmin_left by lra. reflexivity.
Qed.

(** ** Nelder-Mead *)
Definition fle (p q : R * list R) : Prop := fst p <= fst q.
Lemma pair_lt_true p q : pair_lt p q = true -> fle p q.
Proof. unfold pair_lt, fle. numR. destruct (Reqb (fst p) (fst q)) eqn:E; [apply Reqb_true in E; intros; lra|]. intros H. apply Rltb_true in H. lra. Qed.
Lemma pair_lt_false p q : pair_lt p q = false -> fle q p.
Proof. unfold pair_lt, fle. numR. destruct (Reqb (fst p) (fst q)) eqn:E; [apply Reqb_true in E; intros; lra|]. intros H. apply Rltb_false in H. lra. Qed.
Lemma ins_pair_perm p (l : list (R * list R)) : Permutation (ins_pair p l) (p :: l).
Proof.
  induction l as [|q t IH]; simpl; auto. destruct (pair_lt q p); auto.
  rewrite IH. apply perm_swap.
Qed.
Lemma sort_points_perm (l : list (R * list R)) : Permutation (sort_points l) l.
Proof. induction l; simpl; auto. rewrite ins_pair_perm. now constructor. Qed.
Lemma ins_pair_sorted p l : StronglySorted fle l -> StronglySorted fle (ins_pair p l).
Proof.
  induction l as [|q t IH]; intros S; simpl.
  - repeat constructor.
  - inversion S as [|? ? S' F]; subst. destruct (pair_lt q p) eqn:E.
    + constructor; auto. apply (Permutation_Forall (Permutation_sym (ins_pair_perm p t))).
      constructor; auto. now apply pair_lt_true.
    + constructor; auto. apply pair_lt_false in E. constructor; auto.
      eapply Forall_impl; [|exact F]. intros a Ha. unfold fle in *. lra.
Qed.
Lemma sort_points_sorted l : StronglySorted fle (sort_points l).
Proof. induction l; simpl; [constructor | now apply ins_pair_sorted]. Qed.
Lemma sorted_head p l : StronglySorted fle (p :: l) -> forall q, In q (p :: l) -> fst p <= fst q.
Proof.
  intros S q [<-|Hq]; [lra|]. inversion S as [|? ? _ F]; subst. rewrite Forall_forall in F. apply F; auto.
Qed.
Lemma list_min_le (h : R) t : forall v, In v (h :: t) -> list_min h t <= v.
Proof.
  unfold list_min. revert h. induction t as [|w t IH]; intros h v; cbn [fold_left].
  - intros [<-|[]]; lra.
  - numR. intros [<-|[<-|Hv]].
    + rcase; [apply Rle_trans with w; [apply IH; left; auto | lra] | apply IH; left; auto].
    + rcase; [apply IH; left; auto | apply Rle_trans with h; [apply IH; left; auto | lra]].
    + rcase; apply IH; right; auto.
Qed.
Lemma list_min_in (h : R) t : In (list_min h t) (h :: t).
Proof.
  unfold list_min. revert h. induction t as [|w t IH]; intros h; cbn [fold_left]; [left; auto|]. numR. rcase.
  - right. apply IH.
  - destruct (IH h) as [E|E]; [left; auto | right; right; auto].
Qed.
Lemma list_max_ge (h : R) t : forall v, In v (h :: t) -> v <= list_max h t.
Proof.
  unfold list_max. revert h. induction t as [|w t IH]; intros h v; cbn [fold_left].
  - intros [<-|[]]; lra.
  - numR. intros [<-|[<-|Hv]].
    + rcase; [apply Rle_trans with w; [lra | apply IH; left; auto] | apply IH; left; auto].
    + rcase; [apply IH; left; auto | apply Rle_trans with h; [lra | apply IH; left; auto]].
    + rcase; apply IH; right; auto.
Qed.
Lemma list_max_in (h : R) t : In (list_max h t) (h :: t).
Proof.
  unfold list_max. revert h. induction t as [|w t IH]; intros h; cbn [fold_left]; [left; auto|]. numR. rcase.
  - right. apply IH.
  - destruct (IH h) as [E|E]; [left; auto | right; right; auto].
Qed.

Section NM.
Context (func : list R -> R).
Definition good (sim : list (R * list R)) (best : R) : Prop :=
  (2 <= length sim)%nat /\ StronglySorted fle sim /\ (forall q, In q sim -> fst q = func (snd q)) /\
  exists q, In q sim /\ fst q <= best.
Lemma in_removelast {B} (l : list B) x : In x (removelast l) -> In x l.
Proof. induction l as [|a [|b t] IH]; simpl; auto; try tauto. Qed.
Lemma length_removelast {B} (l : list B) : length (removelast l) = (length l - 1)%nat.
Proof. induction l as [|a [|b t] IH]; simpl in *; auto. rewrite IH. lia. Qed.
Lemma replace_last_good sim best v : good sim best -> fst v = func (snd v) ->
  good (sort_points (replace_last sim v)) best.
Proof.
  intros (L & S & F & (q & Hq & Hb)) Hv. unfold good.
  assert (P := sort_points_perm (replace_last sim v)).
  splits.
  - rewrite (Permutation_length P). unfold replace_last. rewrite app_length, length_removelast. simpl. lia.
  - apply sort_points_sorted.
  - intros r Hr. apply (Permutation_in _ P) in Hr. unfold replace_last in Hr. apply in_app_or in Hr.
    destruct Hr as [Hr|[<-|[]]]; auto. apply F. now apply in_removelast.
  - destruct sim as [|p0 [|p1 t]]; simpl in L; try lia. exists p0. split.
    + apply (Permutation_in _ (Permutation_sym P)). unfold replace_last. apply in_or_app. left. simpl. auto.
    + apply Rle_trans with (fst q); auto. apply (sorted_head p0 _ S). exact Hq.
Qed.
Lemma nm_step_good P low high N one_N sim sim' best : good sim best ->
  nm_step func P low high N one_N sim = Ok sim' -> good sim' best.
Proof.
  intros G E. unfold nm_step in E. inv_bind E. destruct v as [fl sl]. inv_bind E. destruct v as [fl2 s2].
  inv_bind E. destruct v as [fb sb]. inv_bind E.
  destruct (func v <? fb)%num.
  { inv_bind E. destruct (func v0 <? func v)%num; injection E as <-; apply replace_last_good; auto. }
  destruct (func v <? fl2)%num.
  { injection E as <-; apply replace_last_good; auto. }
  destruct (func v <? fl)%num; inv_bind E; injection E as <-; apply replace_last_good; auto.
Qed.
Lemma nm_loop_good it : forall done P low high N one_N xtol ftol sim sim' d best, good sim best ->
  nm_loop it done func P low high N one_N xtol ftol sim = Ok (sim', d) -> good sim' best /\ (d <= done + it)%nat.
Proof.
  induction it as [|it IH]; intros done P low high N one_N xtol ftol sim sim' d best G E; cbn [nm_loop] in E.
  - injection E as <- <-. split; auto. lia.
  - destruct (nm_converged sim xtol ftol).
    + injection E as <- <-. split; auto. lia.
    + inv_bind E. apply IH with (best := best) in E; [|eapply nm_step_good; eauto]. destruct E. split; auto. lia.
Qed.
Lemma nm_initial_length (x0 : list R) p z : length (nm_initial x0 p z) = S (length x0).
Proof. unfold nm_initial. cbn [length]. now rewrite map_length, seq_length. Qed.
Lemma nelder_mead_spec x0 xtol ftol maxiter adaptive p z low high x fval its :
  nelder_mead func x0 xtol ftol maxiter adaptive p z low high = Ok (x, fval, its) ->
  fval = func x /\ fval <= func x0 /\ (its <= maxiter)%nat.
Proof.
  intros E. unfold nelder_mead in E. inv_bind E. inv_bind E. rename v0 into one_N.
  assert (HN : (1 <= length x0)%nat).
  { destruct x0; [|simpl; lia]. exfalso. clear - E1. unfold pydiv in E1. numR. simpl in E1.
    revert E1. rcase; [discriminate|]. simpl in Hb; lra. }
  inv_bind E. destruct v0 as [sim d].
  apply nm_loop_good with (best := func x0) in E2.
  - destruct E2 as ((L & S & F & (q & Hq & Hb)) & D). destruct sim as [|[f0 s0] t]; [simpl in L; lia|].
    cbn in E. injection E as <- <- <-. splits; auto.
    + pose proof (F (f0, s0) (or_introl eq_refl)) as F0. simpl in F0. rewrite <- F0.
      apply Rle_antisym.
      * apply list_min_le. left; auto.
      * pose proof (list_min_in f0 (map fst t)) as I. change (f0 :: map fst t) with (map fst ((f0, s0) :: t)) in I.
        apply in_map_iff in I. destruct I as (r & Er & Hr). pose proof (sorted_head _ _ S r Hr) as H. simpl in H. rewrite Er in H. exact H.
    + apply Rle_trans with (fst q); auto. apply list_min_le.
      change (f0 :: map fst t) with (map fst ((f0, s0) :: t)). now apply in_map.
  - set (pts := map _ (nm_initial x0 p z)). assert (P := sort_points_perm pts). unfold good. splits.
    + rewrite (Permutation_length P). unfold pts. rewrite map_length, nm_initial_length. lia.
    + apply sort_points_sorted.
    + intros q Hq. apply (Permutation_in _ P) in Hq. unfold pts in Hq. apply in_map_iff in Hq.
      destruct Hq as (r & <- & _). reflexivity.
    + exists (func x0, x0). split; [|simpl; lra]. apply (Permutation_in _ (Permutation_sym P)). unfold pts, nm_initial. left. reflexivity.
Qed.

(** points stay within the bounds when the initial simplex is *)
Context (low high : list R) (Ho : ordered low high).
Definition allin (sim : list (R * list R)) : Prop := forall q, In q sim -> within low high (snd q).
Lemma replace_last_allin sim v : allin sim -> within low high (snd v) -> allin (sort_points (replace_last sim v)).
Proof.
  intros A V q Hq. apply (Permutation_in _ (sort_points_perm _)) in Hq. unfold replace_last in Hq.
  apply in_app_or in Hq. destruct Hq as [Hq|[<-|[]]]; auto. apply A. now apply in_removelast.
Qed.
Lemma combine_len {B C} (a : list B) (b : list C) n : length a = n -> length b = n -> length (combine a b) = n.
Proof. intros. rewrite combine_length. lia. Qed.
Lemma nm_xbar_length N sims (c : R) : (forall p, In p sims -> length p = N) -> length (nm_xbar N sims c) = N.
Proof.
  intros H. unfold nm_xbar. rewrite map_length.
  assert (G : forall l acc, (forall p, In p l -> length p = N) -> length acc = N ->
     length (fold_left (fun acc p => map (fun '(u, v) => (u + v)%num) (combine acc p)) l acc) = N).
  { induction l as [|p t IH]; intros acc Hl Ha; simpl; auto. apply IH; [intros; apply Hl; right; auto|].
    rewrite map_length. apply combine_len; auto. apply Hl; left; auto. }
  apply G; [|apply repeat_length]. intros p Hp. apply H. 
  rewrite <- (firstn_skipn N sims). apply in_or_app. now left.
Qed.
Lemma clip_in p : length p = length low -> forall r, nm_clip (Some low) (Some high) p = Ok r -> within low high r.
Proof.
  intros L r E. unfold nm_clip in E. destruct (clip_within low high p Ho L) as (r' & E' & W). rewrite E in E'. injection E' as <-. auto.
Qed.
Lemma idx_In {B} (l : list B) i v : idx l i = Ok v -> In v l.
Proof. unfold idx. destruct (nth_error l i) eqn:E; [|discriminate]. intros H; injection H as <-. eapply nth_error_In; eauto. Qed.
Lemma nm_step_allin P one_N sim sim' : allin sim ->
  nm_step func P (Some low) (Some high) (length low) one_N sim = Ok sim' -> allin sim'.
Proof.
  intros G E. unfold nm_step in E. inv_bind E. destruct v as [fl sl].
  assert (Lsl : length sl = length low).
  { unfold last_of in E0. apply idx_In in E0. apply in_rev in E0. exact (proj1 (G (fl, sl) E0)). }
  inv_bind E. destruct v as [fl2 s2]. inv_bind E. destruct v as [fb sb].
  set (xb := nm_xbar (length low) (map snd sim) one_N) in *.
  assert (Lxb : length xb = length low).
  { apply nm_xbar_length. intros p Hp. apply in_map_iff in Hp. destruct Hp as (q & <- & Hq). exact (proj1 (G q Hq)). }
  assert (L2 : forall a b, length (lin2m a b xb sl) = length low) by (intros; unfold lin2m; rewrite map_length; apply combine_len; auto).
  assert (L2' : forall a b, length (lin2 a b xb sl) = length low) by (intros; unfold lin2; rewrite map_length; apply combine_len; auto).
  inv_bind E. apply clip_in in E3; [|apply L2].
  destruct (func v <? fb)%num.
  { inv_bind E. apply clip_in in E4; [|apply L2]. destruct (func v0 <? func v)%num; injection E as <-; apply replace_last_allin; auto. }
  destruct (func v <? fl2)%num.
  { injection E as <-; apply replace_last_allin; auto. }
  destruct (func v <? fl)%num; inv_bind E; (apply clip_in in E4; [|auto]); injection E as <-; apply replace_last_allin; auto.
Qed.
Lemma nm_loop_allin it : forall done P one_N xtol ftol sim sim' d, allin sim ->
  nm_loop it done func P (Some low) (Some high) (length low) one_N xtol ftol sim = Ok (sim', d) -> allin sim'.
Proof.
  induction it as [|it IH]; intros done P one_N xtol ftol sim sim' d G E; cbn [nm_loop] in E.
  - injection E as <- <-. auto.
  - destruct (nm_converged sim xtol ftol); [injection E as <- <-; auto|]. inv_bind E.
    eapply IH; [|exact E]. eapply nm_step_allin; eauto.
Qed.
Lemma nelder_mead_within x0 xtol ftol maxiter adaptive p z x fval its :
  (forall pt, In pt (nm_initial x0 p z) -> within low high pt) ->
  nelder_mead func x0 xtol ftol maxiter adaptive p z (Some low) (Some high) = Ok (x, fval, its) ->
  within low high x.
Proof.
  intros Hin E. unfold nelder_mead in E. inv_bind E. inv_bind E. inv_bind E. destruct v1 as [sim d].
  assert (Hx0 : length x0 = length low) by (apply (Hin x0); left; auto). rewrite Hx0 in E2.
  apply nm_loop_allin in E2.
  - inv_bind E. destruct v1 as [fb xx]. injection E as <- _ _. apply idx_In in E3. exact (E2 _ E3).
  - intros q Hq. apply (Permutation_in _ (sort_points_perm _)) in Hq. apply in_map_iff in Hq. destruct Hq as (r & <- & Hr). apply Hin. auto.
Qed.
End NM.
