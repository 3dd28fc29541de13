(** Proofs about polynomial utilities (C04, C05, C06) and small special functions. *)
From Coq Require Import List Bool QArith Reals ZArith Lra Lia Arith Factorial.
From Coquelicot Require Import Coquelicot.
From Verif Require Import Base Sums Spec_Poly Model_Poly Proofs_Poly.
Import ListNotations.
Local Open Scope R_scope.

Lemma is_derive_Rsum (f : nat -> R -> R) (f' : nat -> R) n x :
  (forall i, (i < n)%nat -> is_derive (f i) x (f' i)) ->
  is_derive (fun y => Rsum (fun i => f i y) n) x (Rsum f' n).
Proof.
  induction n; intros H; simpl.
  - apply @is_derive_const.
  - apply @is_derive_plus; [apply IHn; intros; apply H; lia | apply H; lia].
Qed.
Lemma nth_map_seq {B} (g : nat -> B) n i d : (i < n)%nat -> nth i (map g (seq 0 n)) d = g i.
Proof.
  intros H. rewrite (nth_indep _ d (g 0%nat)) by (rewrite map_length, seq_length; auto).
  rewrite map_nth. rewrite seq_nth; auto.
Qed.

(** ** C04 *)
Lemma heval_map_snoc (g : nat -> R) n x :
  heval (map g (seq 0 n) ++ [0]) x = Rsum (fun i => g i * x ^ (n - i)) n.
Proof.
  unfold heval. rewrite app_length, map_length, seq_length. simpl length. rewrite Nat.add_1_r.
  simpl Rsum. rewrite app_nth2 by (rewrite map_length, seq_length; lia).
  rewrite map_length, seq_length, Nat.sub_diag. simpl nth. rewrite Rmult_0_l, Rplus_0_r.
  apply Rsum_ext; intros i Hi. rewrite app_nth1 by (rewrite map_length, seq_length; lia).
  rewrite nth_map_seq by lia. do 2 f_equal. lia.
Qed.
Lemma polyintR cs : polyint cs =
  map (fun i => nth i cs 0 / INR (length cs - i)) (seq 0 (length cs)) ++ [0].
Proof.
  unfold polyint; numR. f_equal. apply map_ext; intros. rewrite nnatR. reflexivity.
Qed.
Lemma heval_polyint cs x :
  heval (polyint cs) x = Rsum (fun i => nth i cs 0 / INR (length cs - i) * x ^ (length cs - i)) (length cs).
Proof. rewrite polyintR, heval_map_snoc. reflexivity. Qed.
Lemma pow_deriv c n x : (0 < n)%nat -> is_derive (fun y => c / INR n * y ^ n) x (c * x ^ (n - 1)).
Proof.
  intros Hn. assert (INR n <> 0) by (apply not_0_INR; lia).
  auto_derive; auto. replace (Init.Nat.pred n) with (n - 1)%nat by lia. field; auto.
Qed.
Lemma polyint_derive cs x : is_derive (heval (polyint cs)) x (heval cs x).
Proof.
  apply (is_derive_ext (fun y => Rsum (fun i => nth i cs 0 / INR (length cs - i) * y ^ (length cs - i)) (length cs))).
  { intros; now rewrite heval_polyint. }
  apply is_derive_Rsum. intros i Hi.
  replace (length cs - 1 - i)%nat with (length cs - i - 1)%nat by lia.
  apply (pow_deriv (nth i cs 0)); lia.
Qed.
Lemma polyint_at0 cs : heval (polyint cs) 0 = 0.
Proof. rewrite heval_polyint. apply Rsum_zero; intros i Hi. rewrite pow_i by lia. ring. Qed.

Lemma polyint_stable_ok cs xmin xmax : xmin <> xmax ->
  exists out, polyint_stable cs xmin xmax = Ok out /\ length out = S (length cs) /\
   forall x, let o := (- xmax - xmin) / (xmax - xmin) in let s := 2 / (xmax - xmin) in
   is_derive (fun y => heval out (o + s * y)) x (heval cs (o + s * x)).
Proof.
  intros H. unfold polyint_stable, polynomial_offset_scale.
  rewrite pydivR_ok by (numR; lra). cbn [bind]. numR. rewrite Q2R_2.
  assert (Hd : xmax - xmin <> 0) by lra.
  rewrite pydivR_ok by (apply Rmult_integral_contrapositive_currified; [lra|unfold Rdiv; apply Rmult_integral_contrapositive_currified; [lra| now apply Rinv_neq_0_compat]]).
  cbn [bind]. eexists; split; [reflexivity|]. split.
  { rewrite app_length, map_length, seq_length; simpl; lia. }
  intros x. set (o := (- xmax - xmin) / (xmax - xmin)). set (s := 2 / (xmax - xmin)).
  set (k := 1 / (2 * (1 / (xmax - xmin)))).
  assert (Hks : s * k = 1) by (unfold s, k; field; auto).
  set (F := fun y => k * heval (polyint cs) y).
  apply (is_derive_ext (fun y => F (o + s * y))).
  { intros t. unfold F. rewrite heval_polyint, heval_map_snoc, <- Rsum_scal.
    apply Rsum_ext; intros i Hi. rewrite nnatR. field. apply not_0_INR; lia. }
  replace (heval cs (o + s * x)) with (s * (k * heval cs (o + s * x))).
  2: { rewrite <- Rmult_assoc, Hks; ring. }
  apply (is_derive_comp_aff F). unfold F. apply is_derive_scal'. apply polyint_derive.
Qed.
Lemma polyint_stable_err cs xm : polyint_stable cs xm xm = Err ZeroDivisionError.
Proof. unfold polyint_stable, polynomial_offset_scale. numR. replace (xm - xm) with 0 by lra. now rewrite pydivR_0. Qed.

Lemma last_nth {B} (l : list B) d : last l d = nth (length l - 1) l d.
Proof. induction l as [|a l IH]; auto. destruct l; auto. simpl in *. rewrite IH. rewrite Nat.sub_0_r. reflexivity. Qed.
Lemma polyint_over_x_derive cs x : 0 < x ->
  is_derive (fun y => heval (fst (polyint_over_x cs)) y + snd (polyint_over_x cs) * ln y) x (heval cs x / x).
Proof.
  intros Hx. unfold polyint_over_x. destruct (length cs) as [|n] eqn:E.
  - destruct cs; [|discriminate]. cbn [fst snd]. rewrite n0R.
    apply (is_derive_ext (fun _ => 0)); [intros t; change (0 = heval [] t + 0 * ln t); rewrite heval_nil; ring|].
    rewrite heval_nil. unfold Rdiv; rewrite Rmult_0_l. apply @is_derive_const.
  - cbn [fst snd]. numR. simpl (S n - 1)%nat. rewrite Nat.sub_0_r.
    rewrite last_nth, E. simpl (S n - 1)%nat. rewrite Nat.sub_0_r.
    apply (is_derive_ext (fun y => Rsum (fun i => nth i cs 0 / INR (n - i) * y ^ (n - i)) n + nth n cs 0 * ln y)).
    { intros; rewrite heval_map_snoc. f_equal. apply Rsum_ext; intros. rewrite nnatR; auto. }
    replace (heval cs x / x) with (plus (Rsum (fun i => nth i cs 0 * x ^ (n - i - 1)) n) (nth n cs 0 / x)).
    + apply @is_derive_plus.
      * apply is_derive_Rsum; intros i Hi. apply pow_deriv; lia.
      * auto_derive; auto. field; lra.
    + unfold plus; simpl. unfold heval. rewrite E. simpl Rsum. unfold Rdiv.
      rewrite Rmult_plus_distr_r, <- Rsum_scal_r. rewrite Nat.sub_0_r, Nat.sub_diag. simpl pow. f_equal; [|ring].
      apply Rsum_ext; intros i Hi. replace (n - i)%nat with (S (n - i - 1)) at 2 by lia.
      simpl pow. field; lra.
Qed.

(** polyder *)
Lemma iter_succ_r {B} (f : B -> B) n x : Nat.iter (S n) f x = Nat.iter n f (f x).
Proof. induction n; auto. change (f (Nat.iter (S n) f x) = f (Nat.iter n f (f x))). now rewrite IHn. Qed.
Definition dl (c : list R) : list R := map (fun j => INR (S j) * nth (S j) c 0) (seq 0 (length c - 1)).
Lemma dl_length c : length (dl c) = (length c - 1)%nat.
Proof. unfold dl. now rewrite map_length, seq_length. Qed.
Lemma fold_upd_length (c : list R) js der :
  length (fold_left (fun d j => upd d (j - 1) (INR j * nth j c 0)) js der) = length der.
Proof. revert der; induction js; simpl; intros; auto. rewrite IHjs. apply upd_length. Qed.
Lemma fold_left_ext_loc {B C} (f g : B -> C -> B) l b : (forall b c, f b c = g b c) -> fold_left f l b = fold_left g l b.
Proof. intros H; revert b; induction l; simpl; intros; auto. rewrite H; auto. Qed.
Lemma polyder_passR c der n :
  polyder_pass c der n = fold_left (fun d j => upd d (j - 1) (INR j * nth j c 0)) (rev (seq 1 n)) der.
Proof. unfold polyder_pass; numR. apply fold_left_ext_loc; intros. now rewrite nnatR. Qed.
Lemma polyder_pass_nth c n : forall der k, (n <= length der)%nat -> (k < n)%nat ->
  nth k (polyder_pass c der n) 0 = INR (S k) * nth (S k) c 0.
Proof.
  intros der k. rewrite polyder_passR. revert der.
  induction n; intros der Hn Hk; [lia|].
  rewrite seq_S, rev_app_distr. cbn [rev app fold_left].
  destruct (Nat.eq_dec k n) as [->|Hne].
  - assert (G : forall js d, (forall j, In j js -> (1 <= j <= n)%nat) ->
       nth n (fold_left (fun d j => upd d (j - 1) (INR j * nth j c 0)) js d) 0 = nth n d 0).
    { induction js; simpl; intros d Hjs; auto. rewrite IHjs by auto.
      apply upd_nth_neq. specialize (Hjs a (or_introl eq_refl)). lia. }
    rewrite G.
    + replace (1 + n - 1)%nat with n by lia. rewrite upd_nth_eq by lia. reflexivity.
    + intros j Hj. apply in_rev in Hj. apply in_seq in Hj. lia.
  - apply IHn; [rewrite upd_length; lia | lia].
Qed.
Lemma polyder_pass_length c der n : length (polyder_pass c der n) = length der.
Proof. rewrite polyder_passR. apply fold_upd_length. Qed.
Lemma polyder_pass_firstn c der : (length c - 1 <= length der)%nat ->
  firstn (length c - 1) (polyder_pass c der (length c - 1)) = dl c.
Proof.
  intros H. apply (nth_ext _ _ 0 0).
  - rewrite firstn_length, polyder_pass_length, dl_length. lia.
  - intros k Hk. rewrite firstn_length, polyder_pass_length in Hk.
    assert (G : forall (l : list R) n k, (k < n)%nat -> nth k (firstn n l) 0 = nth k l 0).
    { clear. induction l; destruct n, k; simpl; intros; auto; try lia. apply IHl; lia. }
    rewrite G by lia. rewrite polyder_pass_nth by lia. unfold dl. rewrite nth_map_seq by lia. reflexivity.
Qed.
Lemma polyder_loop_dl m : forall c der, (length c <= length der)%nat ->
  polyder_loop m c der (length c) = Nat.iter m dl c.
Proof.
  induction m; intros c der H; auto.
  cbn [polyder_loop]. rewrite polyder_pass_firstn by lia.
  rewrite <- dl_length. rewrite IHm.
  - rewrite iter_succ_r. reflexivity.
  - rewrite polyder_pass_length, dl_length. lia.
Qed.
Lemma iter_dl_nil m : forall c, (length c <= m)%nat -> Nat.iter m dl c = [].
Proof.
  induction m; intros c H.
  - destruct c; auto; simpl in H; lia.
  - rewrite iter_succ_r. apply IHm. rewrite dl_length; lia.
Qed.
Lemma polyder_iter c m : polyder c m = Nat.iter m dl c.
Proof.
  unfold polyder. destruct m; auto. destruct (Nat.leb_spec (length c) (S m)).
  - symmetry; now apply iter_dl_nil.
  - numR. apply polyder_loop_dl. rewrite repeat_length; auto.
Qed.
Lemma leval_dl c x : is_derive (leval c) x (leval (dl c) x).
Proof.
  unfold leval at 2. rewrite dl_length. destruct c as [|c0 c].
  - simpl. apply (is_derive_ext (fun _ => 0)); [reflexivity | apply @is_derive_const].
  - replace (length (c0 :: c) - 1)%nat with (length c) by (simpl; lia).
    apply (is_derive_ext (fun y => c0 + Rsum (fun i => nth i c 0 * y ^ S i) (length c))).
    { intros t. unfold leval. simpl length. rewrite Rsum_head. simpl. rewrite Rmult_1_r. reflexivity. }
    replace (Rsum (fun i => nth i (dl (c0 :: c)) 0 * x ^ i) (length c))
      with (plus zero (Rsum (fun i => nth i c 0 * (INR (S i) * x ^ i)) (length c))).
    + apply @is_derive_plus; [apply @is_derive_const|].
      apply is_derive_Rsum. intros i Hi. auto_derive; auto. simpl Init.Nat.pred. destruct i; simpl; ring.
    + unfold plus, zero; simpl. rewrite Rplus_0_l. apply Rsum_ext; intros i Hi.
      unfold dl. rewrite nth_map_seq by (simpl; lia). cbn [nth]. simpl INR. ring.
Qed.
Lemma leval_iter_dl m : forall c x, is_derive_n (leval c) m x (leval (Nat.iter m dl c) x).
Proof.
  induction m; intros; [reflexivity|].
  rewrite iter_succ_r. apply (is_derive_n_from (leval c) (leval (dl c))); [apply leval_dl | apply IHm].
Qed.
Lemma polyder_correct c m x : is_derive_n (leval c) m x (leval (polyder c m) x).
Proof. rewrite polyder_iter. apply leval_iter_dl. Qed.

(** ** C05 *)
Lemma leval_poly_add p q x : leval (poly_add p q) x = leval p x + leval q x.
Proof.
  unfold leval at 1. unfold poly_add. rewrite map_length, seq_length.
  rewrite (Rsum_ext _ (fun i => (if Nat.ltb i (length p) then nth i p 0 * x ^ i else 0)
                        + (if Nat.ltb i (length q) then nth i q 0 * x ^ i else 0))).
  - rewrite Rsum_plus, !Rsum_if_lt by lia. reflexivity.
  - intros i Hi. rewrite nth_map_seq by lia. numR.
    destruct (Nat.ltb i (length p)), (Nat.ltb i (length q)); ring.
Qed.
Lemma poly_add_length p q : length (poly_add p q) = Nat.max (length p) (length q).
Proof. unfold poly_add. now rewrite map_length, seq_length. Qed.
Lemma leval_addat (l : list R) k v x : (k < length l)%nat -> leval (addat l k v) x = leval l x + v * x ^ k.
Proof.
  unfold addat; numR. revert k; induction l; destruct k; simpl; intros H; try lia.
  - rewrite !leval_cons. ring.
  - rewrite !leval_cons, IHl by lia. ring.
Qed.
Lemma addat_length (l : list R) k v : length (addat l k v) = length l.
Proof. apply upd_length. Qed.
Lemma fold_addat_inner p1 p2 i x n : forall res, (i + n <= length res)%nat ->
  let r := fold_left (fun res j => addat res (i + j)%nat (nth i p1 n0 * nth j p2 n0)%num) (seq 0 n) res in
  length r = length res /\
  leval r x = leval res x + Rsum (fun j => nth i p1 0 * nth j p2 0 * x ^ (i + j)) n.
Proof.
  induction n; intros res H; cbv zeta.
  - simpl. split; auto; lra.
  - rewrite seq_S, fold_left_app. cbn [fold_left]. simpl (0 + n)%nat.
    destruct (IHn res) as [L1 L2]; [lia|]. cbv zeta in L1, L2.
    rewrite addat_length, leval_addat by (rewrite L1; lia). rewrite L1, L2. split; auto. numR. simpl Rsum. ring.
Qed.
Lemma fold_addat_outer p1 p2 x n : forall res, (n + length p2 <= S (length res))%nat -> (p2 <> [])%nat ->
  let r := fold_left (fun res i => fold_left (fun res j => addat res (i + j)%nat (nth i p1 n0 * nth j p2 n0)%num)
              (seq 0 (length p2)) res) (seq 0 n) res in
  length r = length res /\
  leval r x = leval res x + Rsum (fun i => Rsum (fun j => nth i p1 0 * nth j p2 0 * x ^ (i + j)) (length p2)) n.
Proof.
  induction n; intros res H Hne; cbv zeta.
  - simpl. split; auto; lra.
  - rewrite seq_S, fold_left_app. cbn [fold_left]. destruct (IHn res) as [L1 L2]; [lia|auto|].
    cbv zeta in L1, L2. simpl (0 + n)%nat.
    edestruct (fold_addat_inner p1 p2 n x (length p2)) as [K1 K2].
    2: { rewrite K1, K2, L1, L2. split; auto. simpl Rsum. ring. }
    rewrite L1. lia.
Qed.
Lemma leval_repeat0 n x : leval (repeat 0 n) x = 0.
Proof. induction n; simpl; [reflexivity|]. rewrite leval_cons, IHn. ring. Qed.
Lemma leval_poly_mul p q x : leval (poly_mul p q) x = leval p x * leval q x.
Proof.
  unfold poly_mul. destruct (list_eq_dec Req_EM_T q []) as [->|Hq].
  - rewrite leval_nil, Rmult_0_r. simpl length. simpl seq at 1. cbn [fold_left].
    assert (G : forall l (r : list R), fold_left (fun (res : list R) (_ : nat) => res) l r = r) by (induction l; simpl; auto).
    rewrite G. numR. apply leval_repeat0.
  - destruct (fold_addat_outer p q x (length p) (repeat n0 (length p + length q - 1))) as [_ K]; auto.
    { rewrite repeat_length. lia. }
    rewrite K. numR. rewrite leval_repeat0, Rplus_0_l. unfold leval.
    rewrite <- Rsum_scal_r. apply Rsum_ext; intros i Hi.
    rewrite <- Rsum_scal. apply Rsum_ext; intros j Hj. rewrite pow_add. ring.
Qed.
Lemma poly_mul_length p q : q <> [] -> length (poly_mul p q) = (length p + length q - 1)%nat.
Proof.
  intros Hq. unfold poly_mul.
  destruct (fold_addat_outer p q 0 (length p) (repeat n0 (length p + length q - 1))) as [K _]; auto.
  { rewrite repeat_length. lia. }
  rewrite K. apply repeat_length.
Qed.

Lemma first_nonzero_spec (l : list R) :
  match first_nonzero l with
  | Some r => exists c t, r = c :: t /\ c <> 0 /\ forall x, heval l x = heval r x
  | None => forall i, nth i l 0 = 0
  end.
Proof.
  induction l as [|c t IH]; simpl.
  - destruct i; auto.
  - numR. rcase.
    + destruct (first_nonzero t) as [r|].
      * destruct IH as (c' & t' & -> & Hc & He). exists c', t'. splits; auto.
        intros x. rewrite heval_cons, Hb, (He x). ring.
      * intros [|i]; simpl; auto.
    + exists c, t. auto.
Qed.
Lemma heval_all0 l x : (forall i, nth i l 0 = 0) -> heval l x = 0.
Proof. intros H. apply Rsum_zero; intros. rewrite H; ring. Qed.
Lemma heval_strip (l : list R) x : heval (strip_leading l) x = heval l x.
Proof.
  unfold strip_leading. pose proof (first_nonzero_spec l) as H.
  destruct (first_nonzero l); auto. destruct H as (?&?&?&?&H). now rewrite H.
Qed.
Lemma strip_leading_head (l : list R) :
  (exists c t, strip_leading l = c :: t /\ c <> 0) \/ (forall x, heval (strip_leading l) x = 0).
Proof.
  unfold strip_leading. pose proof (first_nonzero_spec l) as H.
  destruct (first_nonzero l).
  - left. destruct H as (c & t & -> & ? & ?). eauto.
  - right. intros. now apply heval_all0.
Qed.
Lemma stable_fold a b rest acc x :
  leval (fold_left (fun r c => poly_add (poly_mul r [b; a]) [c]) rest acc) x
  = fold_left (fun t c => t * (b + a * x) + c) rest (leval acc x).
Proof.
  revert acc; induction rest; simpl; intros; auto.
  rewrite IHrest. f_equal. rewrite leval_poly_add, leval_poly_mul.
  replace (leval [b; a] x) with (b + a * x) by (unfold leval; simpl; ring).
  f_equal. unfold leval; simpl; ring.
Qed.
Lemma stable_to_unstable_ok coeffs low high : low <> high ->
  exists out, stable_poly_to_unstable coeffs low high = Ok out /\
    (forall x, heval out x = heval coeffs ((2 * x - low - high) / (high - low))) /\
    ((exists c t, out = c :: t /\ c <> 0) \/ (forall x, heval out x = 0)).
Proof.
  intros H. unfold stable_poly_to_unstable. destruct coeffs as [|c0 rest].
  - exists []. splits; auto.
  - numR. rcase; [congruence|]. rewrite pydivR_ok by lra. cbn [bind].
    rewrite pydivR_ok by lra. cbn [bind]. rewrite Q2R_2.
    eexists; split; [reflexivity|]. split; [|apply strip_leading_head].
    intros x. rewrite heval_strip, heval_rev, stable_fold.
    replace (leval [c0] x) with (0 * (- (high + low) / (high - low) + 2 / (high - low) * x) + c0)
      by (unfold leval; simpl; ring).
    change (fold_left (fun t c : R => t * (- (high + low) / (high - low) + 2 / (high - low) * x) + c) (c0 :: rest) 0
     = heval (c0 :: rest) ((2 * x - low - high) / (high - low))).
    rewrite fold_horner. f_equal. field; lra.
Qed.
Lemma stable_to_unstable_same coeffs lim :
  exists out, stable_poly_to_unstable coeffs lim lim = Ok out /\ forall x, heval out x = heval coeffs x.
Proof.
  unfold stable_poly_to_unstable. destruct coeffs as [|c0 rest]; [eauto|].
  numR. rcase; [|congruence]. eexists; split; [reflexivity|]. intros; apply heval_strip.
Qed.

(** poly_convert *)
Lemma fpowR x n : fpow x n = x ^ n.
Proof. induction n; simpl; [exact Q2R_1|]. rewrite IHn. simpl; numR. ring. Qed.
Fixpoint binomR (i k : nat) : R :=
  match k with O => 1 | S k' => binomR i k' * (INR (i - k') / (INR k' + 1)) end.
Lemma binomR_C i k : (k <= i)%nat -> binomR i k = Binomial.C i k.
Proof.
  induction k; intros H; simpl.
  - unfold Binomial.C. rewrite Nat.sub_0_r. simpl. field. apply INR_fact_neq_0.
  - rewrite IHk by lia. unfold Binomial.C.
    replace (i - k)%nat with (S (i - S k)) by lia. rewrite !fact_simpl, !mult_INR, !S_INR.
    field. pose proof (pos_INR (i - S k)). pose proof (pos_INR k).
    splits; try apply INR_fact_neq_0; lra.
Qed.
Lemma convert_inner ci off scl i x n : forall Q k, (k + n <= length Q)%nat -> (k + n <= S i)%nat ->
  let r := poly_convert_inner Q ci off scl (binomR i k) i k n in
  length r = length Q /\
  leval r x = leval Q x + Rsum (fun j => ci * binomR i (k + j) * off ^ (i - (k + j)) * scl ^ (k + j) * x ^ (k + j)) n.
Proof.
  induction n; intros Q k HQ Hi; cbv zeta; cbn [poly_convert_inner].
  - simpl; split; auto; lra.
  - replace (binomR i k * ndiv (nnat (i - k)) (nnat k + n1))%num with (binomR i (S k))
      by (simpl; numR; reflexivity).
    edestruct (IHn (addat Q k (ci * binomR i k * fpow off (i - k) * fpow scl k)%num) (S k)) as [K1 K2].
    { rewrite addat_length; lia. } { lia. }
    rewrite K1, addat_length. split; auto.
    rewrite K2, leval_addat by lia. rewrite Rsum_head, Nat.add_0_r. rewrite !fpowR. numR.
    rewrite Rplus_assoc. f_equal. apply f_equal2; [ring|]. apply Rsum_ext; intros j Hj.
    replace (k + S j)%nat with (S k + j)%nat by lia. reflexivity.
Qed.
Lemma Rsum_sum_f f n : Rsum f (S n) = sum_f_R0 f n.
Proof. induction n; [simpl; ring|]. change (Rsum f (S n) + f (S n) = sum_f_R0 f (S n)). rewrite IHn. reflexivity. Qed.
Lemma convert_outer cs off scl x n : forall Q, (n <= length Q)%nat ->
  let r := fold_left (fun Q i => poly_convert_inner Q (nth i cs n0) off scl n1 i 0 (S i)) (seq 0 n) Q in
  length r = length Q /\
  leval r x = leval Q x + Rsum (fun i => nth i cs 0 * (off + scl * x) ^ i) n.
Proof.
  induction n; intros Q HQ; cbv zeta.
  - simpl; split; auto; lra.
  - rewrite seq_S, fold_left_app. cbn [fold_left]. destruct (IHn Q) as [L1 L2]; [lia|].
    cbv zeta in L1, L2. simpl (0 + n)%nat.
    match goal with |- context [poly_convert_inner ?q _ _ _ _ _ _ _] => set (Q1 := q) in * end.
    destruct (convert_inner (nth n cs n0) off scl n x (S n) Q1 0) as [K1 K2]; [rewrite L1; lia | lia |].
    change (binomR n 0) with 1 in K1, K2. rewrite n1R.
    rewrite K1, K2, L1, L2. split; auto. simpl (Rsum _ (S n)) at 2. rewrite Rplus_assoc. f_equal. f_equal.
    rewrite n0R, (Rplus_comm off), binomial, <- Rsum_sum_f, <- Rsum_scal.
    apply Rsum_ext; intros j Hj. simpl Nat.add. rewrite binomR_C by lia.
    rewrite Rpow_mult_distr. ring.
Qed.
Lemma leval_poly_convert cs Tmin Tmax u :
  leval (poly_convert cs Tmin Tmax) u = leval cs ((Tmin + Tmax) / 2 + (Tmax - Tmin) / 2 * u).
Proof.
  unfold poly_convert. cbv zeta.
  match goal with |- context [poly_convert_inner _ _ ?o ?s _ _ _ _] => set (off := o); set (scl := s) end.
  destruct (convert_outer cs off scl u (length cs) (repeat n0 (length cs))) as [_ K].
  { rewrite repeat_length; auto. }
  rewrite K. numR. rewrite leval_repeat0, Rplus_0_l. unfold leval at 1.
  replace off with ((Tmin + Tmax) / 2) by (unfold off, Q2R; simpl; field).
  replace scl with ((Tmax - Tmin) / 2) by (unfold scl, Q2R; simpl; field).
  reflexivity.
Qed.

(** ** C06 *)
Lemma quad_den (x0 x1 x2 : R) :
  x2*x2*x0 + x0*x0*x1 + x1*x1*x2 - (x2*x2*x1 + x0*x0*x2 + x1*x1*x0) = (x0 - x1) * (x1 - x2) * (x0 - x2).
Proof. ring. Qed.
Lemma quadratic_from_points_ok x0 x1 x2 f0 f1 f2 : x0 <> x1 -> x1 <> x2 -> x0 <> x2 ->
  exists a b c, quadratic_from_points x0 x1 x2 f0 f1 f2 = Ok (a, b, c) /\ a*x0^2 + b*x0 + c = f0 /\ a*x1^2 + b*x1 + c = f1 /\ a*x2^2 + b*x2 + c = f2.
Proof.
  intros H1 H2 H3. unfold quadratic_from_points. cbv zeta. numR. rewrite quad_den.
  assert (D : (x0 - x1) * (x1 - x2) * (x0 - x2) <> 0)
    by (repeat apply Rmult_integral_contrapositive_currified; lra).
  rewrite pydivR_ok by auto. cbn [bind].
  do 3 eexists. split; [reflexivity|]. splits; field; splits; lra.
Qed.
Lemma quadratic_from_points_err x0 x1 x2 f0 f1 f2 : x0 = x1 \/ x1 = x2 \/ x0 = x2 ->
  quadratic_from_points x0 x1 x2 f0 f1 f2 = Err ZeroDivisionError.
Proof.
  intros H. unfold quadratic_from_points. cbv zeta. numR. rewrite quad_den.
  replace ((x0 - x1) * (x1 - x2) * (x0 - x2)) with 0. { now rewrite pydivR_0. }
  destruct H as [->|[->| ->]]; ring.
Qed.
Lemma quadratic_from_f_ders_ok x v d1 d2 :
  let '(a, b, c) := quadratic_from_f_ders x v d1 d2 in
  a*x^2 + b*x + c = v /\ 2*a*x + b = d1 /\ 2*a = d2.
Proof. unfold quadratic_from_f_ders; numR. unfold Q2R; simpl. splits; field. Qed.
Lemma deflate_ok b c d x0 : x0 <> 0 -> x0^3 + b*x0^2 + c*x0 + d = 0 ->
  0 <= (b + x0)^2 - 4 * (x0^2 + b*x0 + c) ->
  exists x1 x2, deflate_cubic_real_roots b c d x0 = Ok (x1, x2) /\
   forall x, x^3 + b*x^2 + c*x + d = (x - x0)*(x - x1)*(x - x2).
Proof.
  intros H0 Hr HD. unfold deflate_cubic_real_roots. rewrite pdiv_ok by auto. cbn [bind].
  assert (G : - d / x0 = x0^2 + b*x0 + c).
  { apply (Rmult_eq_reg_r x0); auto. replace (- d / x0 * x0) with (- d) by (field; auto). nra. }
  rewrite G. rcase; [nra|]. rewrite psqrt_ok by lra. cbn [bind].
  do 2 eexists; split; [reflexivity|]. intros x.
  set (F := b + x0) in *. set (D := F * F - 4 * (x0^2 + b*x0 + c)) in *.
  pose proof (sqrt_sqrt D Hb) as S. set (r := sqrt D) in *.
  replace ((x - x0) * (x - 1/2 * (r - F)) * (x - 1/2 * (- F - r)))
    with ((x - x0) * (x*x + F*x + 1/4 * (F*F - r*r))) by field.
  rewrite S. unfold D, F.
  replace d with (- x0^3 - b*x0^2 - c*x0) by lra. field.
Qed.
Lemma deflate_err b c d : deflate_cubic_real_roots b c d 0 = Err ZeroDivisionError.
Proof. unfold deflate_cubic_real_roots. now rewrite pdiv_0. Qed.

(** ** special.py *)
Lemma fold_fact n : fold_left (fun acc i => (acc * Z.of_nat i)%Z) (seq 2 (n - 1)) 1%Z = Z.of_nat (fact n).
Proof.
  destruct n as [|n]; auto. simpl Nat.sub. rewrite Nat.sub_0_r.
  induction n; auto. rewrite seq_S, fold_left_app, IHn. cbn [fold_left].
  rewrite <- Nat2Z.inj_mul. f_equal. rewrite (fact_simpl (S n)). lia.
Qed.
Lemma py_factorial_ok n : (0 <= n)%Z -> py_factorial n = Ok (Z.of_nat (fact (Z.to_nat n))).
Proof.
  intros H. unfold py_factorial. destruct (Z.ltb_spec n 0); [lia|]. now rewrite fold_fact.
Qed.
Lemma py_factorial_err n : (n < 0)%Z -> py_factorial n = Err ValueError.
Proof. intros H. unfold py_factorial. destruct (Z.ltb_spec n 0); auto; lia. Qed.

Lemma py_hypot_ok x y : py_hypot x y = Ok (sqrt (x * x + y * y)).
Proof.
  assert (K : forall a b, 0 <= b <= a -> (if Reqb a 0 then Ok 0 else yx <- pdiv b a ;; s <- psqrt (1 + yx * yx) ;; Ok (a * s))
     = Ok (sqrt (a * a + b * b))).
  { intros a b H. rcase.
    - subst. replace b with 0 by lra. f_equal. rewrite Rmult_0_l, Rplus_0_r. now rewrite sqrt_0.
    - rewrite pdiv_ok by auto. cbn [bind]. pose proof (Rle_0_sqr (b / a)) as Q. unfold Rsqr in Q.
      rewrite psqrt_ok by lra. cbn [bind]. f_equal.
      rewrite <- (sqrt_square a) at 1 by lra. rewrite <- sqrt_mult by nra. f_equal. field; auto. }
  unfold py_hypot. pose proof (Rabs_pos x). pose proof (Rabs_pos y).
  assert (X : x * x = Rabs x * Rabs x) by (rewrite <- Rabs_mult, Rabs_pos_eq; nra).
  assert (Y : y * y = Rabs y * Rabs y) by (rewrite <- Rabs_mult, Rabs_pos_eq; nra).
  rewrite X, Y. rcase.
  - rewrite K by lra. do 2 f_equal. ring.
  - rewrite K by lra. reflexivity.
Qed.

Lemma binom_fact n : forall k, (k <= n)%nat -> (binom n k * (fact k * fact (n - k)) = fact n)%nat.
Proof.
  induction n; intros [|k] H; try lia.
  - reflexivity.
  - change (1 * (1 * fact (S n - 0)) = fact (S n))%nat. rewrite Nat.sub_0_r. lia.
  - change (binom (S n) (S k)) with (binom n k + binom n (S k))%nat.
    replace (S n - S k)%nat with (n - k)%nat by lia.
    rewrite Nat.mul_add_distr_r.
    replace (fact (S n)) with (fact n * (S k) + fact n * (n - k))%nat
      by (rewrite fact_simpl; rewrite <- Nat.mul_add_distr_l; rewrite Nat.mul_comm; f_equal; lia).
    f_equal.
    + rewrite <- (IHn k) by lia. rewrite (fact_simpl k). ring.
    + destruct (Nat.eq_dec k n) as [->|Hne].
      * rewrite Nat.sub_diag, Nat.mul_0_r.
        assert (Z : forall m, binom m (S m) = 0%nat).
        { assert (Z' : forall m k, (m < k)%nat -> binom m k = 0%nat).
          { induction m; destruct k; simpl; intros; try lia. rewrite !IHm by lia. reflexivity. }
          intros; apply Z'; lia. }
        rewrite Z. reflexivity.
      * rewrite <- (IHn (S k)) by lia. replace (n - k)%nat with (S (n - S k)) at 1 2 by lia.
        rewrite (fact_simpl (n - S k)). ring_simplify. ring.
Qed.
Lemma py_comb_ok n k : py_comb (Z.of_nat n) (Z.of_nat k) = Ok (Z.of_nat (binom n k)).
Proof.
  unfold py_comb. destruct (Z.ltb_spec (Z.of_nat k) 0); [lia|].
  destruct (Z.ltb_spec (Z.of_nat n) (Z.of_nat k)); cbn [orb].
  - assert (Z' : forall m k, (m < k)%nat -> binom m k = 0%nat).
    { clear. induction m; destruct k; simpl; intros; try lia. rewrite !IHm by lia. reflexivity. }
    rewrite Z' by lia. reflexivity.
  - rewrite !py_factorial_ok by lia. cbn [bind]. f_equal.
    rewrite <- Nat2Z.inj_sub by lia. rewrite !Nat2Z.id.
    rewrite <- Nat2Z.inj_mul, <- (binom_fact n k) by lia. rewrite (Nat2Z.inj_mul (binom n k)).
    apply Z.div_mul. pose proof (lt_O_fact k). pose proof (lt_O_fact (n - k)). nia.
Qed.
