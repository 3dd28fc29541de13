(** Chebyshev series: evaluation, differentiation, integration. *)
From Coq Require Import List Bool QArith Reals ZArith Arith Lra Lia Psatz.
From Coquelicot Require Import Coquelicot.
From Verif Require Import Base Sums Model_Poly Model_Numerics Proofs_Numerics Proofs_Seq.
Import ListNotations.
Local Open Scope R_scope.

(** ** Chebyshev polynomials of the first and second kind *)
Fixpoint chebT (k : nat) (x : R) : R :=
  match k with
  | O => 1
  | S k' => match k' with O => x | S k'' => 2 * x * chebT k' x - chebT k'' x end
  end.
Fixpoint chebU (k : nat) (x : R) : R :=
  match k with
  | O => 1
  | S k' => match k' with O => 2 * x | S k'' => 2 * x * chebU k' x - chebU k'' x end
  end.
Definition dT (k : nat) (x : R) : R := match k with O => 0 | S k' => INR k * chebU k' x end.
Lemma chebT_SS k x : chebT (S (S k)) x = 2 * x * chebT (S k) x - chebT k x. Proof. reflexivity. Qed.
Lemma chebU_SS k x : chebU (S (S k)) x = 2 * x * chebU (S k) x - chebU k x. Proof. reflexivity. Qed.
Lemma pair_ind (P : nat -> Prop) : P 0%nat -> P 1%nat -> (forall k, P k -> P (S k) -> P (S (S k))) -> forall k, P k.
Proof. intros H0 H1 H k. assert (P k /\ P (S k)) by (induction k; [auto | destruct IHk; auto]). tauto. Qed.
Lemma chebT_cos k t : chebT k (cos t) = cos (INR k * t).
Proof.
  revert k. apply pair_ind.
  - simpl. now rewrite Rmult_0_l, cos_0.
  - simpl. now rewrite Rmult_1_l.
  - intros k H0 H1. rewrite chebT_SS, H0, H1.
    replace (INR (S (S k)) * t) with (INR (S k) * t + t) by (rewrite !S_INR; ring).
    replace (INR k * t) with (INR (S k) * t - t) by (rewrite !S_INR; ring).
    rewrite cos_plus, cos_minus. ring.
Qed.
Lemma chebU_T x k : chebU (S (S k)) x - chebU k x = 2 * chebT (S (S k)) x.
Proof.
  revert k. apply pair_ind.
  - simpl. ring.
  - simpl. ring.
  - intros k H0 H1. rewrite (chebU_SS (S (S k))), (chebT_SS (S (S k))). 
    replace (chebU (S (S k)) x) with (2 * x * chebU (S k) x - chebU k x) at 2 by reflexivity.
    rewrite <- ?H0 in *. replace (2 * (2 * x * chebT (S (S (S k))) x - chebT (S (S k)) x)) with
      (2 * x * (2 * chebT (S (S (S k))) x) - 2 * chebT (S (S k)) x) by ring.
    rewrite <- H1, <- H0. ring.
Qed.
Lemma is_derive_chebT k x : is_derive (chebT k) x (dT k x).
Proof.
  revert k. apply pair_ind.
  - unfold dT. simpl. apply is_derive_ext with (fun _ => 1); [reflexivity|]. apply @is_derive_const.
  - unfold dT. simpl. apply is_derive_ext with (fun y => y); [reflexivity|]. rewrite Rmult_1_l. apply @is_derive_id.
  - intros k H0 H1. apply is_derive_ext with (fun y => 2 * y * chebT (S k) y - chebT k y); [reflexivity|].
    replace (dT (S (S k)) x) with (2 * chebT (S k) x + 2 * x * dT (S k) x - dT k x).
    + apply @is_derive_minus; auto.
      replace (2 * chebT (S k) x + 2 * x * dT (S k) x) with (2 * chebT (S k) x + (2 * x) * dT (S k) x) by ring.
      apply (is_derive_mult (fun y => 2 * y) (chebT (S k))); auto.
      * auto_derive; auto. ring.
      * intros; apply Rmult_comm.
    + unfold dT. destruct k as [|k]; [simpl; ring|].
      pose proof (chebU_T x k) as A. rewrite (chebU_SS k) in *.
      rewrite <- A. rewrite !S_INR. ring.
Qed.
Lemma dT_0 x : dT 0 x = 0. Proof. reflexivity. Qed.
Lemma dT_1 x : dT 1 x = 1. Proof. unfold dT; simpl; ring. Qed.
Lemma dT_2 x : dT 2 x = 4 * chebT 1 x. Proof. unfold dT; simpl; ring. Qed.
Lemma dT_rec j x : (3 <= j)%nat -> dT j x = 2 * INR j * chebT (j - 1) x + INR j / (INR j - 2) * dT (j - 2) x.
Proof.
  intros H. destruct j as [|[|[|j]]]; try lia. clear H.
  replace (S (S (S j)) - 1)%nat with (S (S j)) by lia. replace (S (S (S j)) - 2)%nat with (S j) by lia.
  unfold dT. pose proof (chebU_T x j). rewrite !S_INR. pose proof (pos_INR j).
  replace (2 * (INR j + 1 + 1 + 1) * chebT (S (S j)) x) with ((INR j + 1 + 1 + 1) * (2 * chebT (S (S j)) x)) by ring.
  rewrite <- H. field. lra.
Qed.

(** the series *)
Definition cheb_series (c : list R) (u : R) : R := Rsum (fun k => at_ c k * chebT k u) (length c).
Definition dcheb_series (c : list R) (u : R) : R := Rsum (fun k => at_ c k * dT k u) (length c).
Lemma Rsum_is_derive (f f' : nat -> R -> R) n x :
  (forall k, (k < n)%nat -> is_derive (f k) x (f' k x)) ->
  is_derive (fun y => Rsum (fun k => f k y) n) x (Rsum (fun k => f' k x) n).
Proof.
  induction n; intros H; simpl.
  - apply @is_derive_const.
  - apply @is_derive_plus; [apply IHn; auto | apply H; lia].
Qed.
Lemma is_derive_series c u : is_derive (cheb_series c) u (dcheb_series c u).
Proof.
  unfold cheb_series, dcheb_series. apply (Rsum_is_derive (fun k y => at_ c k * chebT k y) (fun k y => at_ c k * dT k y)).
  intros k _. apply is_derive_scal. apply is_derive_chebT.
Qed.

(** ** Clenshaw *)
Lemma clenshaw_fold (l : list R) x c0 c1 :
  let '(d0, d1) := fold_left (clenshaw_step (2 * x)) (rev l) (c0, c1) in
  d0 + d1 * x = Rsum (fun k => at_ l k * chebT k x) (length l) + c0 * chebT (length l) x + c1 * chebT (S (length l)) x.
Proof.
  revert c0 c1. induction l as [|a l IH] using rev_ind; intros c0 c1.
  - simpl. ring.
  - rewrite rev_app_distr. cbn [rev app fold_left]. unfold clenshaw_step at 2. numR.
    specialize (IH (a - c1) (c0 + c1 * (2 * x))).
    destruct (fold_left _ (rev l) _) as [d0 d1]. rewrite IH.
    rewrite app_length. cbn [length]. rewrite Nat.add_1_r. cbn [Rsum].
    rewrite (Rsum_ext (fun k => at_ (l ++ [a]) k * chebT k x) (fun k => at_ l k * chebT k x)).
    2:{ intros k Hk. now rewrite at_app1. }
    rewrite at_app2, Nat.sub_diag by lia. change (at_ [a] 0) with a. rewrite chebT_SS. ring.
Qed.
Lemma chebval_series x c offset scale : c <> [] ->
  chebval x c offset scale = Ok (cheb_series c (offset + scale * x)).
Proof.
  intros Hc. unfold chebval. numR. set (u := offset + scale * x).
  destruct (rev c) as [|c1 r] eqn:E.
  { apply (f_equal (@rev R)) in E. rewrite rev_involutive in E. contradiction. }
  destruct r as [|c0 r].
  { apply (f_equal (@rev R)) in E. rewrite rev_involutive in E. subst c. simpl. unfold cheb_series; simpl. f_equal. unfold at_; simpl. ring. }
  assert (Ec : c = rev r ++ [c0] ++ [c1]).
  { apply (f_equal (@rev R)) in E. rewrite rev_involutive in E. subst c. simpl. rewrite <- app_assoc. reflexivity. }
  assert (V : let '(d0, d1) := fold_left (clenshaw_step (2 * u)) r (c0, c1) in d0 + d1 * u = cheb_series c u).
  { pose proof (clenshaw_fold (rev r) u c0 c1) as C. rewrite rev_involutive in C.
    destruct (fold_left _ r _) as [d0 d1]. rewrite C. subst c. unfold cheb_series.
    rewrite !app_length. cbn [length]. replace (length (rev r) + (1 + 1))%nat with (S (S (length (rev r)))) by lia.
    cbn [Rsum].
    rewrite (Rsum_ext (fun k => at_ (rev r ++ [c0] ++ [c1]) k * chebT k u) (fun k => at_ (rev r) k * chebT k u)).
    2:{ intros k Hk. now rewrite at_app1. }
    rewrite (at_app2 (rev r) _ (length (rev r))), (at_app2 (rev r) _ (S (length (rev r)))) by lia.
    replace (S (length (rev r)) - length (rev r))%nat with 1%nat by lia. rewrite Nat.sub_diag.
    change (at_ ([c0] ++ [c1]) 0) with c0. change (at_ ([c0] ++ [c1]) 1) with c1. ring. }
  change (Q2R 2%Q) with (Q2R 2%Q). replace (Q2R 2%Q) with 2 by (unfold Q2R; simpl; lra).
  destruct r as [|c2 r].
  - simpl in V. now rewrite V.
  - destruct (fold_left _ (c2 :: r) _) as [d0 d1]. now rewrite V.
Qed.
Lemma chebval_nil x offset scale : @chebval R _ x [] offset scale = Err IndexError.
Proof. reflexivity. Qed.

(** ** chebder *)
(** sums over live entries of a buffer *)
Definition S_T (c : list R) (a b : nat) (u : R) : R := Rsum (fun k => at_ c (a + k) * chebT (a + k) u) (b - a).
Lemma at_upd_eq l i v : (i < length l)%nat -> at_ (upd l i v) i = v.
Proof. unfold at_. intros. now apply upd_nth_eq. Qed.
Lemma at_upd_neq l i j v : i <> j -> at_ (upd l i v) j = at_ l j.
Proof. unfold at_. intros. now apply upd_nth_neq. Qed.

Lemma scale_fold c scl n : (n <= length c)%nat ->
  let r := fold_left (fun c j => upd c j (nth j c n0 * scl)%num) (seq 0 n) c in
  length r = length c /\ (forall i, (i < n)%nat -> at_ r i = at_ c i * scl) /\ (forall i, (n <= i)%nat -> at_ r i = at_ c i).
Proof.
  induction n; intros Hn; cbv zeta.
  - simpl. splits; auto. intros; lia.
  - rewrite seq_S, fold_left_app. cbv zeta in IHn. destruct (IHn ltac:(lia)) as (A & B & D).
    set (r := fold_left _ (seq 0 n) c) in *. cbn [fold_left Nat.add]. rewrite upd_length. splits; auto.
    + intros i Hi. destruct (Nat.eq_dec i n) as [->|].
      * rewrite at_upd_eq by lia. numR. rewrite <- (D n) by lia. reflexivity.
      * rewrite at_upd_neq by auto. apply B. lia.
    + intros i Hi. rewrite at_upd_neq by lia. apply D. lia.
Qed.
Lemma Q2R_2 : Q2R 2%Q = 2. Proof. unfold Q2R; simpl; lra. Qed.
Lemma Q2R_4 : Q2R 4%Q = 4. Proof. unfold Q2R; simpl; lra. Qed.
Lemma Q2R_q : Q2R (1#4)%Q = / 4. Proof. unfold Q2R; simpl; lra. Qed.

(** invariant of the descending loop, after treating n, n-1, ..., p+1 *)
Definition tot (c der : list R) (p n : nat) (u : R) : R :=
  Rsum (fun k => at_ c k * dT k u) (S p) + Rsum (fun k => at_ der (p + k) * chebT (p + k) u) (n - p).
Lemma chebder_inner_spec n : forall q c der, (2 + q <= n)%nat -> (n < length c)%nat -> (n <= length der)%nat ->
  exists c' der', fold_left chebder_inner (rev (seq 3 q)) (c, der) = (c', der') /\
    length c' = length c /\ length der' = length der /\
    forall u, tot c' der' 2 n u = tot c der (2 + q) n u.
Proof.
  induction q as [|q IH]; intros c der Hq Hc Hd.
  - exists c, der. simpl. splits; auto.
  - rewrite seq_S, rev_app_distr. cbn [rev app fold_left].
    set (j := (3 + q)%nat).
    set (der1 := upd der (j - 1) (nnat (j + j) * nth j c n0)%num).
    set (c1 := upd c (j - 2) (nth (j - 2) c n0 + ndiv (nnat j * nth j c n0) (nnat j - nQ 2))%num).
    change (chebder_inner (c, der) j) with (c1, der1).
    assert (Lc : length c1 = length c) by apply upd_length.
    assert (Ld : length der1 = length der) by apply upd_length.
    destruct (IH c1 der1) as (c' & der' & E & L1 & L2 & V); try lia.
    exists c', der'. rewrite E. splits; auto; try congruence.
    intros u. rewrite V. unfold tot.
    replace (n - (2 + q))%nat with (S (n - j)) by lia.
    rewrite (Rsum_head (fun k => at_ der1 (2 + q + k) * chebT (2 + q + k) u)).
    replace (2 + S q)%nat with j by lia.
    rewrite (Rsum_ext (fun k => at_ der1 (2 + q + S k) * chebT (2 + q + S k) u) (fun k => at_ der (j + k) * chebT (j + k) u)).
    2:{ intros k Hk. replace (2 + q + S k)%nat with (j + k)%nat by lia. unfold der1. rewrite at_upd_neq by lia. reflexivity. }
    rewrite <- Rplus_assoc. f_equal.
    rewrite Nat.add_0_r. unfold der1. replace (2 + q)%nat with (j - 1)%nat by lia.
    rewrite at_upd_eq by lia. replace (S (j - 1)) with j by lia.
    change (Rsum (fun k => at_ c k * dT k u) (S j)) with (Rsum (fun k => at_ c k * dT k u) j + at_ c j * dT j u).
    (* only entry j-2 of c changed *)
    assert (G : Rsum (fun k => at_ c1 k * dT k u) j =
                Rsum (fun k => at_ c k * dT k u) j + INR j * at_ c j / (INR j - 2) * dT (j - 2) u).
    { replace (Rsum (fun k => at_ c1 k * dT k u) j) with
        (Rsum (fun k => at_ c k * dT k u) j + Rsum (fun k => at_ c1 k * dT k u - at_ c k * dT k u) j)
        by (rewrite Rsum_minus; ring). f_equal.
      rewrite (Rsum_single _ j (j - 2)); [| lia |].
      - unfold c1. rewrite at_upd_eq by lia. numR. rewrite Q2R_2. unfold at_. ring.
      - intros i Hi Hne. unfold c1. rewrite at_upd_neq by lia. ring. }
    rewrite G. rewrite (dT_rec j) by lia. numR. rewrite plus_INR. unfold at_.
    assert (INR j - 2 <> 0).
    { unfold j. rewrite plus_INR. simpl (INR 3). pose proof (pos_INR q). lra. }
    field. auto.
Qed.
Lemma chebder_pass_spec scl c der n : (1 <= n)%nat -> (n < length c)%nat -> (n <= length der)%nat ->
  exists c' der', chebder_pass scl c der n = (c', der') /\ length c' = length c /\ length der' = length der /\
    forall u, Rsum (fun k => at_ der' k * chebT k u) n = scl * Rsum (fun k => at_ c k * dT k u) (S n).
Proof.
  intros Hn Hc Hd. unfold chebder_pass.
  set (c0 := if negb (scl =? n1)%num then _ else c).
  assert (L0 : length c0 = length c /\ forall i, (i <= n)%nat -> at_ c0 i = at_ c i * scl).
  { unfold c0. numR. destruct (Reqb scl 1) eqn:Es; simpl negb; cbv iota.
    - apply Reqb_true in Es. subst scl. split; auto. intros; ring.
    - destruct (scale_fold c scl (n + 1) ltac:(lia)) as (A & B & D). cbv zeta in *. numR. split; [exact A|]. intros i Hi. apply B. lia. }
  destruct L0 as [L0 V0]. clearbody c0.
  assert (Sc : forall u, Rsum (fun k => at_ c0 k * dT k u) (S n) = scl * Rsum (fun k => at_ c k * dT k u) (S n)).
  { intros u. rewrite <- Rsum_scal. apply Rsum_ext. intros i Hi. rewrite V0 by lia. ring. }
  destruct (Nat.eq_dec n 1) as [->|Hn1].
  - change (rev (seq 3 (1 - 2))) with (@nil nat). cbn [fold_left]. change (Nat.ltb 1 1) with false. cbv iota.
    eexists; eexists; split; [reflexivity|]. rewrite !upd_length. splits; auto.
    intros u. rewrite <- Sc. cbn [Rsum]. unfold at_ at 1. rewrite upd_nth_eq by lia. numR. unfold dT, at_. simpl. ring.
  - destruct (chebder_inner_spec n (n - 2) c0 der ltac:(lia) ltac:(lia) ltac:(lia)) as (c' & der' & E & L1 & L2 & V).
    rewrite E. rewrite (proj2 (Nat.ltb_lt 1 n)) by lia.
    eexists; eexists; split; [reflexivity|]. rewrite !upd_length. splits; try lia.
    intros u. rewrite <- Sc. specialize (V u). replace (2 + (n - 2))%nat with n in V by lia.
    unfold tot in V. rewrite Nat.sub_diag in V. cbn [Rsum] in V. rewrite Rplus_0_r in V.
    change (Rsum (fun k => at_ c0 k * dT k u) (S n)) with (Rsum (fun k => at_ c0 k * dT k u) n + at_ c0 n * dT n u).
    rewrite <- V. rewrite dT_0, dT_1, dT_2.
    destruct n as [|[|n]]; try lia. rewrite !Rsum_head.
    rewrite at_upd_eq by (rewrite upd_length; lia).
    rewrite at_upd_neq by lia. rewrite at_upd_eq by lia.
    replace (S (S n) - 2)%nat with n by lia.
    rewrite (Rsum_ext (fun i => at_ (upd (upd der' 1 (nQ 4 * nth 2 c' n0)%num) 0 (nth 1 c' n0)) (S (S i)) * chebT (S (S i)) u)
               (fun k => at_ der' (2 + k) * chebT (2 + k) u)).
    2:{ intros k Hk. rewrite !at_upd_neq by lia. reflexivity. }
    numR. rewrite Q2R_4. unfold at_. simpl chebT. ring.
Qed.

Definition live (c : list R) (n : nat) (u : R) : R := Rsum (fun k => at_ c k * chebT k u) n.
Lemma is_derive_live c n u : is_derive (live c n) u (Rsum (fun k => at_ c k * dT k u) n).
Proof.
  unfold live. apply (Rsum_is_derive (fun k y => at_ c k * chebT k y) (fun k y => at_ c k * dT k y)).
  intros k _. apply is_derive_scal. apply is_derive_chebT.
Qed.
Lemma is_derive_affine (f : R -> R) (f' o s x : R) : is_derive f (o + s * x) f' -> is_derive (fun y => f (o + s * y)) x (s * f').
Proof.
  intros H. apply (is_derive_comp f (fun y => o + s * y)); auto.
  auto_derive; auto. ring.
Qed.
Lemma is_derive_n_chain (f f1 : R -> R) m (g : R -> R) :
  (forall x, is_derive f x (f1 x)) -> (forall x, is_derive_n f1 m x (g x)) -> forall x, is_derive_n f (S m) x (g x).
Proof.
  intros H1 H2 x.
  assert (D : forall k y, Derive_n f (S k) y = Derive_n f1 k y).
  { induction k; intros y; [simpl; apply is_derive_unique; auto|].
    change (Derive (Derive_n f (S k)) y = Derive (Derive_n f1 k) y). apply Derive_ext. auto. }
  specialize (H2 x). destruct m as [|k]; [simpl in H2; subst; apply H1 || (rewrite <- H2; apply H1)|].
  change (is_derive (Derive_n f (S k)) x (g x)). apply is_derive_ext with (Derive_n f1 k); auto.
Qed.
Lemma chebder_loop_spec o scl m : forall c der n, (m < n)%nat -> (n <= length c)%nat -> (n <= S (length der))%nat ->
  exists c' , chebder_loop m scl c der n = (c', (n - m)%nat) /\ (n - m <= length c')%nat /\
    forall x, is_derive_n (fun y => live c n (o + scl * y)) m x (live c' (n - m) (o + scl * x)).
Proof.
  induction m as [|m IH]; intros c der n Hm Hc Hd.
  - exists c. rewrite Nat.sub_0_r. simpl. splits; auto.
  - cbn [chebder_loop]. destruct (chebder_pass_spec scl c der (n - 1) ltac:(lia) ltac:(lia) ltac:(lia)) as (c1 & d1 & E & L1 & L2 & V).
    rewrite E. destruct (IH d1 c1 (n - 1)%nat ltac:(lia) ltac:(lia) ltac:(lia)) as (c' & E' & L' & D').
    exists c'. replace (n - S m)%nat with (n - 1 - m)%nat by lia. splits; auto.
    apply is_derive_n_chain with (fun x => live d1 (n - 1) (o + scl * x)); auto.
    intros x. unfold live at 2. rewrite V. replace (S (n - 1)) with n by lia.
    apply (is_derive_affine (live c n)). apply is_derive_live.
Qed.
Lemma at_firstn (l : list R) n i : (i < n)%nat -> at_ (firstn n l) i = at_ l i.
Proof.
  unfold at_. revert l i; induction n; intros l i Hi; [lia|]. destruct l; [reflexivity|]. destruct i; simpl; auto.
  apply IHn. lia.
Qed.
Lemma live_series c : live c (length c) = cheb_series c. Proof. reflexivity. Qed.
Lemma chebder_spec c m o scl : (m < length c)%nat ->
  exists d, chebder c m scl = d /\ length d = (length c - m)%nat /\
   forall x, is_derive_n (fun y => cheb_series c (o + scl * y)) m x (cheb_series d (o + scl * x)).
Proof.
  intros Hm. destruct m as [|m].
  - exists c. simpl. splits; auto. lia.
  - unfold chebder. rewrite (proj2 (Nat.leb_gt _ _) Hm).
    destruct (chebder_loop_spec o scl (S m) c (repeat n0 (length c - 1)) (length c) Hm ltac:(lia)) as (c' & E & L & D).
    { rewrite repeat_length. lia. }
    rewrite E. eexists; split; [reflexivity|]. split; [rewrite firstn_length; lia|].
    intros x. replace (cheb_series (firstn (length c - S m) c') (o + scl * x)) with (live c' (length c - S m) (o + scl * x)).
    + apply D.
    + unfold cheb_series. rewrite firstn_length, Nat.min_l by lia. apply Rsum_ext. intros i Hi. now rewrite at_firstn.
Qed.

(** ** chebint *)
Lemma Rsum_extend f n m : (n <= m)%nat -> (forall i, (n <= i)%nat -> (i < m)%nat -> f i = 0) -> Rsum f m = Rsum f n.
Proof.
  intros H Z. induction m; [now replace n with O by lia|]. destruct (Nat.eq_dec n (S m)) as [->|]; auto.
  cbn [Rsum]. rewrite IHm, Z by (try lia; intros; apply Z; lia). ring.
Qed.
(** derivative contributed by the entries of tmp *)
Definition dlive (t : list R) (n : nat) (u : R) : R := Rsum (fun k => at_ t k * dT k u) n.
(** invariant of the ascending loop: entries 1..j of tmp hold an antiderivative of the first j terms *)
Lemma int_term j u : (2 <= j)%nat -> dT (j + 1) u / (2 * INR (j + 1)) - dT (j - 1) u / (2 * INR (j - 1)) = chebT j u.
Proof.
  intros H. destruct j as [|[|j]]; try lia. replace (S (S j) + 1)%nat with (S (S (S j))) by lia.
  replace (S (S j) - 1)%nat with (S j) by lia. unfold dT.
  pose proof (chebU_T u j). rewrite !S_INR. pose proof (pos_INR j). field_simplify; [|lra]. 
  apply Rmult_eq_reg_l with 2; [|lra]. rewrite <- H0. field.
Qed.
Lemma chebint_inner_fold c0 tmp u : forall q n, n = (2 + q)%nat -> (n < length tmp)%nat ->
  dlive tmp 3 u = at_ c0 0 * chebT 0 u + at_ c0 1 * chebT 1 u ->
  let r := fold_left (chebint_inner c0) (seq 2 q) tmp in
  length r = length tmp /\ (forall i, (n < i)%nat -> at_ r i = at_ tmp i) /\ at_ r 0 = at_ tmp 0 /\
  dlive r (S n) u = live c0 n u.
Proof.
  induction q as [|q IH]; intros n -> Hl H0; cbv zeta.
  - simpl fold_left. splits; auto. rewrite Nat.add_0_r. rewrite H0. unfold live; simpl. ring.
  - rewrite seq_S, fold_left_app. cbv zeta in IH. destruct (IH (2 + q)%nat eq_refl ltac:(lia) H0) as (A & B & Z & V).
    set (r := fold_left _ (seq 2 q) tmp) in *. cbn [fold_left]. unfold chebint_inner. set (j := (2 + q)%nat) in *.
    replace (2 + S q)%nat with (S j) in * by lia.
    set (r1 := upd r (j + 1) _). set (r2 := upd r1 (j - 1) _).
    assert (Lr1 : length r1 = length r) by apply upd_length.
    splits.
    + unfold r2. rewrite upd_length. lia.
    + intros i Hi. unfold r2. rewrite at_upd_neq by lia. unfold r1. rewrite at_upd_neq by lia. apply B. lia.
    + unfold r2. rewrite at_upd_neq by lia. unfold r1. rewrite at_upd_neq by lia. auto.
    + unfold dlive, live in *. cbn [Rsum].
      change (Rsum (fun k => at_ r2 k * dT k u) j + at_ r2 j * dT j u) with (Rsum (fun k => at_ r2 k * dT k u) (S j)).
      replace (Rsum (fun k => at_ r2 k * dT k u) (S j)) with
        (Rsum (fun k => at_ r k * dT k u) (S j) + Rsum (fun k => at_ r2 k * dT k u - at_ r k * dT k u) (S j))
        by (rewrite Rsum_minus; ring).
      rewrite V. rewrite (Rsum_single _ (S j) (j - 1)); [| lia |].
      2:{ intros i Hi Hne. unfold r2, r1. rewrite !at_upd_neq by lia. ring. }
      assert (E1 : at_ r2 (j - 1) = at_ r (j - 1) - at_ c0 j / (2 * INR (j - 1))).
      { unfold r2. rewrite at_upd_eq by lia. numR. rewrite Q2R_2. unfold r1.
        fold (at_ (upd r (j + 1) (at_ c0 j / (2 * INR (j + 1)))) (j - 1)). rewrite ?Q2R_2.
        change (nth (j-1) (upd r (j + 1) ?v) 0) with (at_ (upd r (j+1) v) (j - 1)). rewrite at_upd_neq by lia. reflexivity. }
      assert (E2 : at_ r2 (S j) = at_ c0 j / (2 * INR (j + 1))).
      { unfold r2. rewrite at_upd_neq by lia. unfold r1. replace (S j) with (j + 1)%nat by lia. rewrite at_upd_eq by lia.
        numR. rewrite Q2R_2. reflexivity. }
      rewrite E1, E2. pose proof (int_term j u ltac:(lia)) as I. replace (S j) with (j + 1)%nat by lia. rewrite <- I. unfold Rdiv. ring.
Qed.
Lemma chebint_pass_spec lbnd c0 tmp n : (1 <= n)%nat -> (n < length tmp)%nat -> 
  (forall i, (n < i)%nat -> at_ tmp i = 0) ->
  exists r, chebint_pass lbnd c0 tmp n = Ok r /\ length r = length tmp /\
   (forall i, (n < i)%nat -> at_ r i = 0) /\
   (forall u, is_derive (cheb_series r) u (live c0 n u)) /\ cheb_series r lbnd = 0.
Proof.
  intros Hn Hl Hz. unfold chebint_pass.
  set (t1 := upd tmp 1 (nth 0 c0 n0)). set (t2 := if Nat.ltb 1 n then _ else t1).
  set (t3 := fold_left (chebint_inner c0) (seq 2 (n - 2)) t2).
  assert (G : length t3 = length tmp /\ (forall i, (n < i)%nat -> at_ t3 i = 0) /\ forall u, dlive t3 (S n) u = live c0 n u).
  { assert (L1 : length t1 = length tmp) by apply upd_length.
    destruct (Nat.eq_dec n 1) as [->|Hn1].
    - subst t2 t3. change (Nat.ltb 1 1) with false. simpl fold_left. splits; auto.
      + intros i Hi. unfold t1. rewrite at_upd_neq by lia. auto.
      + intros u. unfold dlive, live; cbn [Rsum]. unfold t1. rewrite at_upd_eq by lia. rewrite dT_0, dT_1, n0R. unfold at_. simpl chebT. ring.
    - assert (E2 : t2 = upd t1 2 (nQ (1#4) * nth 1 c0 n0)%num) by (unfold t2; now rewrite (proj2 (Nat.ltb_lt 1 n)) by lia).
      assert (L2 : length t2 = length tmp) by (rewrite E2, upd_length; auto).
      assert (H0 : forall u, dlive t2 3 u = at_ c0 0 * chebT 0 u + at_ c0 1 * chebT 1 u).
      { intros u. unfold dlive; cbn [Rsum]. rewrite E2, at_upd_eq by lia. rewrite !(at_upd_neq _ 2) by lia.
        unfold t1. rewrite at_upd_eq by lia. rewrite dT_0, dT_1, dT_2. numR. rewrite Q2R_q. unfold at_. simpl chebT. field. }
      pose proof (fun u => chebint_inner_fold c0 t2 u (n - 2) n ltac:(lia) ltac:(lia) (H0 u)) as P. cbv zeta in P. fold t3 in P.
      destruct (P 0) as (A & B & _ & _). splits; [lia| |intros u; apply P].
      intros i Hi. rewrite B by lia. rewrite E2. rewrite at_upd_neq by lia. unfold t1. rewrite at_upd_neq by lia. auto. }
  destruct G as (L3 & Z3 & D3).
  assert (N3 : t3 <> []) by (intros E; rewrite E in L3; simpl in L3; lia).
  rewrite chebval_series by auto. cbn [bind].
  set (v := cheb_series t3 (n0 + n1 * lbnd)). eexists; split; [reflexivity|]. rewrite upd_length. splits; auto.
  - intros i Hi. rewrite at_upd_neq by lia. auto.
  - intros u. rewrite <- D3.
    replace (dlive t3 (S n) u) with (dcheb_series (upd t3 0 (nth 0 t3 n0 - v)%num) u); [apply is_derive_series|].
    unfold dcheb_series, dlive. rewrite upd_length, (Rsum_extend _ (S n)).
    + apply Rsum_ext. intros [|i] Hi; [rewrite dT_0; ring | now rewrite at_upd_neq by lia].
    + lia.
    + intros i Hi _. rewrite at_upd_neq by lia. rewrite Z3 by lia. ring.
  - unfold cheb_series at 1. rewrite upd_length.
    replace (Rsum (fun k => at_ (upd t3 0 (nth 0 t3 n0 - v)%num) k * chebT k lbnd) (length t3)) with
     (cheb_series t3 lbnd + Rsum (fun k => at_ (upd t3 0 (nth 0 t3 n0 - v)%num) k * chebT k lbnd - at_ t3 k * chebT k lbnd) (length t3))
     by (unfold cheb_series; rewrite Rsum_minus; ring).
    rewrite (Rsum_single _ (length t3) 0); [| lia |].
    + rewrite at_upd_eq by lia. unfold v. numR. rewrite Rplus_0_l, Rmult_1_l. unfold at_. simpl chebT. ring.
    + intros i Hi Hne. rewrite at_upd_neq by lia. ring.
Qed.

(** [g] is obtained from [f] by [m] successive integrations: each step multiplies by [scl], and
    chooses the antiderivative that vanishes at [lbnd]. *)
Fixpoint integrated (m : nat) (scl lbnd : R) (f g : R -> R) : Prop :=
  match m with
  | O => forall u, g u = f u
  | S m' => exists h, (forall u, is_derive h u (scl * f u)) /\ h lbnd = 0 /\ integrated m' scl lbnd h g
  end.
Lemma integrated_ext m scl lb f f' g : (forall u, f u = f' u) -> integrated m scl lb f g -> integrated m scl lb f' g.
Proof.
  destruct m; simpl; intros E H.
  - intros u. now rewrite H, E.
  - destruct H as (h & A & B & D). exists h. splits; auto. intros u. rewrite <- E. auto.
Qed.
Lemma integrated_zero m scl lb : integrated m scl lb (fun _ => 0) (fun _ => 0).
Proof.
  induction m; simpl; auto. exists (fun _ => 0). splits; auto. intros u. rewrite Rmult_0_r. apply @is_derive_const.
Qed.
Lemma live_all c n : (n <= length c)%nat -> (forall i, (n <= i)%nat -> at_ c i = 0) -> forall u, cheb_series c u = live c n u.
Proof. intros Hn Hz u. unfold cheb_series, live. apply Rsum_extend; auto. intros i Hi _. rewrite Hz by lia. ring. Qed.
Lemma chebint_loop_spec lbnd scl m : forall c0 tmp n, (1 <= n)%nat -> (n + m <= length c0)%nat -> length tmp = length c0 ->
  (forall i, (n <= i)%nat -> at_ c0 i = 0) -> (forall i, (n < i)%nat -> at_ tmp i = 0) ->
  exists r, chebint_loop m lbnd scl c0 tmp n = Ok r /\ integrated m scl lbnd (live c0 n) (cheb_series r).
Proof.
  induction m as [|m IH]; intros c0 tmp n Hn Hc Ht Zc Zt.
  - exists c0. simpl. split; auto. apply live_all; auto; lia.
  - cbn [chebint_loop].
    set (c1 := if negb (scl =? n1)%num then _ else c0).
    assert (G : length c1 = length c0 /\ (forall i, (n <= i)%nat -> at_ c1 i = 0) /\ forall u, live c1 n u = scl * live c0 n u).
    { unfold c1. numR. destruct (Reqb scl 1) eqn:Es; simpl negb; cbv iota.
      - apply Reqb_true in Es. subst scl. splits; auto. intros; ring.
      - destruct (scale_fold c0 scl n ltac:(lia)) as (A & B & D). cbv zeta in *. numR. splits; [exact A | |].
        + intros i Hi. rewrite D by lia. auto.
        + intros u. unfold live. rewrite <- Rsum_scal. apply Rsum_ext. intros i Hi. rewrite B by lia. ring. }
    destruct G as (L1 & Z1 & V1). clearbody c1.
    destruct (Nat.eqb n 1 && (nth 0 c1 n0 =? n0)%num) eqn:Eb.
    + apply andb_true_iff in Eb. destruct Eb as [En E0]. apply Nat.eqb_eq in En. subst n. numR. apply Reqb_true in E0.
      assert (V : forall u, live c1 1 u = 0) by (intros u; unfold live; cbn [Rsum]; unfold at_; rewrite E0; ring).
      destruct (IH c1 tmp 1%nat) as (r & Er & Ir); auto; try lia.
      exists r. split; auto. cbn [integrated]. exists (live c1 1). splits; auto.
      * intros u. rewrite <- V1, V. apply is_derive_ext with (fun _ => 0); [intros; now rewrite V|]. apply @is_derive_const.
    + destruct (chebint_pass_spec lbnd c1 tmp n Hn ltac:(lia) Zt) as (t & Et & Lt & Zt' & Dt & Vt).
      rewrite Et. cbn [bind]. destruct (IH t c1 (S n)) as (r & Er & Ir); auto; try lia.
      { intros i Hi. apply Z1. lia. }
      exists r. split; auto. cbn [integrated]. exists (cheb_series t). splits; auto.
      * intros u. rewrite <- V1. apply Dt.
      * apply integrated_ext with (live t (S n)); auto. intros u. symmetry. apply live_all; auto; lia.
Qed.
Lemma chebint_spec c m lbnd scl : c <> [] -> (0 <= m)%Z ->
  exists r, chebint c m lbnd scl = Ok r /\ integrated (Z.to_nat m) scl lbnd (cheb_series c) (cheb_series r).
Proof.
  intros Hc Hm. assert (Lc : (1 <= length c)%nat) by (destruct c; [contradiction|simpl; lia]).
  unfold chebint. destruct (Z.ltb_spec m 0); [lia|]. destruct (Nat.eqb_spec (Z.to_nat m) 0) as [E0|E0].
  { exists c. rewrite E0. simpl. auto. }
  destruct (Nat.eqb (length c) 1 && (nth 0 c n0 =? n0)%num) eqn:Eb.
  - apply andb_true_iff in Eb. destruct Eb as [En Ez]. apply Nat.eqb_eq in En. numR. apply Reqb_true in Ez.
    exists c. split; auto.
    assert (V : forall u, cheb_series c u = 0) by (intros u; unfold cheb_series; rewrite En; cbn [Rsum]; unfold at_; rewrite Ez; ring).
    apply integrated_ext with (fun _ => 0); [intros; now rewrite V|].
    assert (X : forall k, integrated k scl lbnd (fun _ => 0) (cheb_series c)).
    { induction k; simpl; [intros; apply V|]. exists (fun _ => 0). splits; auto. intros u. rewrite Rmult_0_r. apply @is_derive_const. }
    apply X.
  - destruct (Nat.eqb_spec (length c + Z.to_nat m) 1) as [E1|E1]; [lia|].
    destruct (chebint_loop_spec lbnd scl (Z.to_nat m) (c ++ repeat n0 (Z.to_nat m)) (repeat n0 (length c + Z.to_nat m)) (length c)) as (r & Er & Ir); auto.
    + rewrite app_length, repeat_length. lia.
    + rewrite app_length, !repeat_length. lia.
    + intros i Hi. rewrite at_app2 by lia. unfold at_. rewrite n0R.
      destruct (Nat.lt_ge_cases (i - length c) (Z.to_nat m)); [apply nth_repeat | apply nth_overflow; rewrite repeat_length; lia].
    + intros i Hi. unfold at_. rewrite n0R. apply nth_repeat.
    + exists r. split; auto. apply integrated_ext with (2 := Ir). intros u. unfold live, cheb_series.
      apply Rsum_ext. intros i Hi. now rewrite at_app1.
Qed.
Lemma integrated_integral m scl lb f g : integrated (S m) scl lb f g -> (forall u, continuous f u) ->
  exists h, integrated m scl lb h g /\ forall u, is_RInt (fun t => scl * f t) lb u (h u).
Proof.
  intros (h & A & B & D) Cf. exists h. split; auto. intros u.
  replace (h u) with (minus (h u) (h lb)).
  - apply (is_RInt_derive h (fun t => scl * f t)); auto. intros x _. apply (continuous_scal_r scl f). apply Cf.
  - rewrite B. unfold minus, plus, opp; simpl. ring.
Qed.

(** ** functions of a Chebyshev series *)
From Verif Require Import Spec_Poly Proofs_Poly Proofs_Poly2.
Definition cv (c : list R) (o s x : R) : R := cheb_series c (o + s * x).
Section CD.
Context (cs : list R) (o s : R).
Let d1 := chebder cs 1 s.
Let d2 := chebder cs 2 s.
Let d3 := chebder cs 3 s.
Lemma cd1 : (1 < length cs)%nat -> forall x, is_derive (cv cs o s) x (cv d1 o s x).
Proof.
  intros H x. destruct (chebder_spec cs 1 o s H) as (d & <- & _ & D). specialize (D x). simpl in D.
  apply is_derive_ext with (2 := D). reflexivity.
Qed.
Lemma cd2 : (2 < length cs)%nat -> forall x, is_derive (cv d1 o s) x (cv d2 o s x).
Proof.
  intros H x. destruct (chebder_spec cs 2 o s H) as (d & <- & _ & D). specialize (D x).
  apply is_derive_ext with (2 := D). intros y. simpl. apply is_derive_unique. apply cd1. lia.
Qed.
Lemma cd3 : (3 < length cs)%nat -> forall x, is_derive (cv d2 o s) x (cv d3 o s x).
Proof.
  intros H x. destruct (chebder_spec cs 3 o s H) as (d & <- & _ & D). specialize (D x).
  apply is_derive_ext with (2 := D). intros y. apply is_derive_unique.
  apply is_derive_ext with (cv d1 o s); [|apply cd2; lia].
  intros z. symmetry. apply is_derive_unique. apply cd1. lia.
Qed.
Lemma cv_ok x c : c <> [] -> chebval x c o s = Ok (cv c o s x).
Proof. intros. now apply chebval_series. Qed.
Lemma chebder_nonnil m : (m < length cs)%nat -> chebder cs m s <> [].
Proof. intros H. destruct (chebder_spec cs m o s H) as (d & <- & L & _). intros E. rewrite E in L. simpl in L. lia. Qed.
Ltac cvs := match goal with H : (?k < length cs)%nat |- _ =>
  pose proof (chebder_nonnil 0 ltac:(lia)) as N0; try pose proof (chebder_nonnil 1 ltac:(lia)) as N1;
  try pose proof (chebder_nonnil 2 ltac:(lia)) as N2; try pose proof (chebder_nonnil 3 ltac:(lia)) as N3 end;
  change (chebder cs 0 s) with cs in *.
Lemma exp_cheb_eq x : (0 < length cs)%nat -> cv cs o s x <= exp_overflow -> exp_cheb x cs o s = Ok (e0 (cv cs o s) x).
Proof. intros H B. cvs. unfold exp_cheb. rewrite cv_ok by auto. cbn [bind]. now rewrite trunc_exp_ok. Qed.
Lemma exp_cheb1_eq x : (1 < length cs)%nat -> cv cs o s x <= exp_overflow ->
  exp_cheb_and_der x cs d1 o s = Ok (e0 (cv cs o s) x, e1 (cv cs o s) (cv d1 o s) x).
Proof. intros H B. cvs. unfold exp_cheb_and_der. rewrite !cv_ok by auto. cbn [bind]. now rewrite pexp_ok. Qed.
Lemma exp_cheb2_eq x : (2 < length cs)%nat -> cv cs o s x <= exp_overflow ->
  exp_cheb_and_der2 x cs d1 d2 o s = Ok (e0 (cv cs o s) x, e1 (cv cs o s) (cv d1 o s) x, e2 (cv cs o s) (cv d1 o s) (cv d2 o s) x).
Proof. intros H B. cvs. unfold exp_cheb_and_der2. rewrite !cv_ok by auto. cbn [bind]. now rewrite pexp_ok. Qed.
Lemma exp_cheb3_eq x : (3 < length cs)%nat -> cv cs o s x <= exp_overflow ->
  exp_cheb_and_der3 x cs d1 d2 d3 o s = Ok (e0 (cv cs o s) x, e1 (cv cs o s) (cv d1 o s) x,
    e2 (cv cs o s) (cv d1 o s) (cv d2 o s) x, e3 (cv cs o s) (cv d1 o s) (cv d2 o s) (cv d3 o s) x).
Proof. intros H B. cvs. unfold exp_cheb_and_der3. rewrite !cv_ok by auto. cbn [bind]. now rewrite pexp_ok. Qed.

Ltac lnc :=
  match goal with
  | HTc : 0 < ?Tc, HT : ?T < ?Tc |- _ =>
    rewrite lt_prefix by assumption; cbv zeta;
    rewrite !cv_ok by auto;
    let P := fresh in pose proof (tau_pos Tc HTc T HT) as P;
    assert (1 - T / Tc <> 0) by lra;
    assert (- T / Tc + 1 <> 0) by (replace (- T / Tc + 1) with (1 - T / Tc) by (field; lra); lra);
    assert (T / Tc - 1 <> 0) by lra;
    repeat first
      [ rewrite pexp_ok by assumption
      | rewrite trunc_exp_ok by assumption
      | rewrite pdiv_ok by
          (repeat first [assumption | apply Rmult_integral_contrapositive_currified | apply pow_nonzero | lra])
      | progress cbn [bind] ]
  end.
Context (T Tc : R) (HTc : 0 < Tc) (HT : T < Tc).
Lemma clt : (0 < length cs)%nat -> chebval_ln_tau T Tc cs o s = Ok (t0 (cv cs o s) Tc T).
Proof. intros H. cvs. unfold chebval_ln_tau. lnc. reflexivity. Qed.
Lemma clt1 : (1 < length cs)%nat -> chebval_ln_tau_and_der T Tc cs d1 o s = Ok (t0 (cv cs o s) Tc T, t1 (cv d1 o s) Tc T).
Proof. intros H. cvs. unfold chebval_ln_tau_and_der. lnc. f_equal. pair_eq. unfold t1. field; lra. Qed.
Lemma clt2 : (2 < length cs)%nat -> chebval_ln_tau_and_der2 T Tc cs d1 d2 o s =
  Ok (t0 (cv cs o s) Tc T, t1 (cv d1 o s) Tc T, t2 (cv d1 o s) (cv d2 o s) Tc T).
Proof. intros H. cvs. unfold chebval_ln_tau_and_der2. lnc. f_equal. pair_eq; unfold t1, t2; field; lra. Qed.
Lemma clt3 : (3 < length cs)%nat -> chebval_ln_tau_and_der3 T Tc cs d1 d2 d3 o s =
  Ok (t0 (cv cs o s) Tc T, t1 (cv d1 o s) Tc T, t2 (cv d1 o s) (cv d2 o s) Tc T, t3 (cv d1 o s) (cv d2 o s) (cv d3 o s) Tc T).
Proof. intros H. cvs. unfold chebval_ln_tau_and_der3. lnc. f_equal. pair_eq; unfold t1, t2, t3; field; lra. Qed.
Lemma eclt : (0 < length cs)%nat -> cv cs o s (L Tc T) <= exp_overflow ->
  exp_cheb_ln_tau T Tc cs o s = Ok (t0 (e0 (cv cs o s)) Tc T).
Proof. intros H HO. cvs. unfold exp_cheb_ln_tau. lnc. reflexivity. Qed.
Lemma eclt1 : (1 < length cs)%nat -> cv cs o s (L Tc T) <= exp_overflow ->
  exp_cheb_ln_tau_and_der T Tc cs d1 o s = Ok (t0 (e0 (cv cs o s)) Tc T, t1 (e1 (cv cs o s) (cv d1 o s)) Tc T).
Proof. intros H HO. cvs. unfold exp_cheb_ln_tau_and_der. lnc. f_equal. pair_eq. unfold t1, e1. field; lra. Qed.
Lemma eclt2 : (2 < length cs)%nat -> cv cs o s (L Tc T) <= exp_overflow ->
  exp_cheb_ln_tau_and_der2 T Tc cs d1 d2 o s = Ok (t0 (e0 (cv cs o s)) Tc T, t1 (e1 (cv cs o s) (cv d1 o s)) Tc T,
     t2 (e1 (cv cs o s) (cv d1 o s)) (e2 (cv cs o s) (cv d1 o s) (cv d2 o s)) Tc T).
Proof. intros H HO. cvs. unfold exp_cheb_ln_tau_and_der2. lnc. f_equal. pair_eq; unfold t1, t2, e1, e2; field; lra. Qed.
End CD.
