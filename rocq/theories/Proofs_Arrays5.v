(** Tridiagonal systems, sorting, submatrices. *)
From Coq Require Import List Bool Reals Arith ZArith QArith Lra Lia Permutation Sorting.Sorted.
From Verif Require Import Base Sums Spec_Mat Model_Arrays Proofs_LU Proofs_Arrays Proofs_Arrays3.
Import ListNotations.
Local Open Scope R_scope.

(** ** Tridiagonal solver *)
(** leading principal minors of the tridiagonal matrix with bands a, b, c *)
Fixpoint cont2 (a b c : nat -> R) (k : nat) : R * R :=   (* (D_k, D_{k+1}) *)
  match k with
  | O => (1, b O)
  | S k' => let '(p, q) := cont2 a b c k' in (q, b k * q - a k' * c k' * p)
  end.
Definition tri_minor a b c k := fst (cont2 a b c k).
Lemma tri_minor_SS a b c k :
  tri_minor a b c (S (S k)) = b (S k) * tri_minor a b c (S k) - a k * c k * tri_minor a b c k.
Proof.
  unfold tri_minor. cbn [cont2]. destruct (cont2 a b c k) as [p q]. reflexivity.
Qed.
Lemma tri_minor_0 a b c : tri_minor a b c 0 = 1. Proof. reflexivity. Qed.
Lemma tri_minor_1 a b c : tri_minor a b c 1 = b O. Proof. reflexivity. Qed.

Record tri_st (a b0 c d0 : nat -> R) (n : nat) (b d : nat -> R) : Prop := {
  ts_b0 : b O = b0 O;
  ts_d0 : d O = d0 O;
  ts_nz : forall i, (i < n)%nat -> b i <> 0;
  ts_b : forall i, (i < n)%nat -> b (S i) = b0 (S i) - a i / b i * c i;
  ts_d : forall i, (i < n)%nat -> d (S i) = d0 (S i) - a i / b i * d i;
  ts_bh : forall i, (n < i)%nat -> b i = b0 i;
  ts_dh : forall i, (n < i)%nat -> d i = d0 i;
  ts_minor : forall i, (i <= n)%nat -> tri_minor a b0 c (S i) = b i * tri_minor a b0 c i
}.
Definition tri_stp (a c : nat -> R) := (fun '(b, d) i =>
           m <- pydiv (a i) (b i) ;;
           Ok (vset b (S i) (nsub (b (S i)) (nmul m (c i))), vset d (S i) (nsub (d (S i)) (nmul m (d i))))).
Lemma tri_stp_ok a b0 c d0 n b d b' d' : tri_st a b0 c d0 n b d ->
  tri_stp a c (b, d) n = Ok (b', d') -> tri_st a b0 c d0 (S n) b' d'.
Proof.
  intros [B0 D0 NZ SB SD BH DH MI] E. unfold tri_stp in E. inv_bind E.
  unfold pydiv in E0. numR. rcase_in E0; [discriminate|]. injection E0 as <-. injection E as <- <-.
  constructor.
  - unfold vset; nb; auto.
  - unfold vset; nb; auto.
  - intros i Hi. unfold vset; nb. destruct (Nat.eq_dec i n) as [->|]; auto. apply NZ; lia.
  - intros i Hi. unfold vset. destruct (Nat.eq_dec i n) as [->|].
    + nb. rewrite BH by lia. reflexivity.
    + nb. apply SB; lia.
  - intros i Hi. unfold vset. destruct (Nat.eq_dec i n) as [->|].
    + nb. rewrite DH by lia. reflexivity.
    + nb. apply SD; lia.
  - intros i Hi. unfold vset. nb. apply BH; lia.
  - intros i Hi. unfold vset. nb. apply DH; lia.
  - intros i Hi. unfold vset. nb.
    + rewrite tri_minor_SS. rewrite BH by lia. rewrite (MI n) by lia. field; auto.
    + apply MI; lia.
Qed.
Lemma tri_st_0 a b0 c d0 : tri_st a b0 c d0 0 b0 d0.
Proof.
  constructor; intros; try lia; auto. assert (i = 0)%nat by lia; subst. rewrite tri_minor_1, tri_minor_0. ring.
Qed.
Lemma tri_minor_nz a b0 c d0 n b d : tri_st a b0 c d0 n b d -> forall i, (i <= n)%nat -> tri_minor a b0 c i <> 0.
Proof.
  intros H. induction i; intros Hi. { rewrite tri_minor_0; lra. }
  rewrite (ts_minor _ _ _ _ _ _ _ H) by lia.
  apply Rmult_integral_contrapositive_currified; [apply (ts_nz _ _ _ _ _ _ _ H); lia | apply IHi; lia].
Qed.

Lemma tri_backward_ok c N b d : (0 < N)%nat -> (forall i, (i < N)%nat -> b i <> 0) ->
  exists x, @tri_backward R _ c N b d = Ok x /\
    x (N - 1)%nat * b (N - 1)%nat = d (N - 1)%nat /\
    forall i, (S i < N)%nat -> b i * x i + c i * x (S i) = d i.
Proof.
  intros HN NZ. unfold tri_backward. rewrite pydivR_ok by (apply NZ; lia). cbn [bind]. numR.
  assert (G : forall n y, (n <= N - 1)%nat ->
     (forall k, (k < n)%nat -> y k = b k) ->
     (forall k, (n <= k)%nat -> (S k < N)%nat -> b k * y k + c k * y (S k) = d k) ->
     exists x, foldM (fun b i => q <- pydiv (nsub (d i) (nmul (c i) (b (S i)))) (b i) ;; Ok (vset b i q))
        (rev (seq 0 n)) y = Ok x /\ (forall k, (n <= k)%nat -> x k = y k) /\
      forall i, (S i < N)%nat -> b i * x i + c i * x (S i) = d i).
  { induction n; intros y Hn Hlo Hhi.
    - simpl. exists y. splits; auto. intros; apply Hhi; lia.
    - rewrite seq_snoc, rev_app_distr. cbn [rev app Nat.add foldM].
      rewrite (Hlo n) by lia. rewrite pydivR_ok by (apply NZ; lia). cbn [bind]. numR.
      destruct (IHn (vset y n ((d n - c n * y (S n)) / b n))) as (x & E & Hx & HE); try lia.
      + intros k Hk. unfold vset. nb. apply Hlo; lia.
      + intros k Hk Hk2. destruct (Nat.eq_dec k n) as [->|].
        * unfold vset. nb. field. apply NZ; lia.
        * unfold vset. nb. apply Hhi; lia.
      + exists x. splits; auto. intros k Hk. rewrite Hx by lia. unfold vset. nb. auto. }
  destruct (G (N - 1)%nat (vset b (N - 1) (d (N - 1)%nat / b (N - 1)%nat))) as (x & E & Hx & HE); try lia.
  - intros k Hk. unfold vset. nb. auto.
  - exists x. split; [exact E|]. split; auto. rewrite Hx by lia. unfold vset. nb. field. apply NZ; lia.
Qed.

(** row i of the tridiagonal system *)
Definition tri_row (N : nat) (a b c x : nat -> R) (i : nat) : R :=
  (if Nat.ltb 0 i then a (i - 1)%nat * x (i - 1)%nat else 0) + b i * x i +
  (if Nat.ltb (S i) N then c i * x (S i) else 0).

Lemma tri_solution a b0 c d0 N b d x : (0 < N)%nat -> tri_st a b0 c d0 (N - 1) b d -> b (N - 1)%nat <> 0 ->
  x (N - 1)%nat * b (N - 1)%nat = d (N - 1)%nat ->
  (forall i, (S i < N)%nat -> b i * x i + c i * x (S i) = d i) ->
  forall i, (i < N)%nat -> tri_row N a b0 c x i = d0 i.
Proof.
  intros HN [B0 D0 NZ SB SD BH DH MI] NL HL HE i Hi. unfold tri_row.
  assert (U : forall i, (i < N)%nat -> b i * x i + (if Nat.ltb (S i) N then c i * x (S i) else 0) = d i).
  { intros k Hk. destruct (Nat.ltb_spec (S k) N); [apply HE; auto|].
    replace k with (N - 1)%nat by lia. lra. }
  destruct i as [|i].
  - rewrite <- D0, <- (U 0%nat) by lia. rewrite B0. rewrite Nat.ltb_irrefl. ring.
  - nb.
    + replace (S i - 1)%nat with i by lia.
      specialize (U (S i) Hi). rewrite (proj2 (Nat.ltb_lt (S (S i)) N)) in U by lia.
      rewrite SB in U by lia. rewrite (SD i) in U by lia.
      pose proof (HE i ltac:(lia)) as Ei. pose proof (NZ i ltac:(lia)) as Nb.
      assert (K : a i * x i = a i / b i * (d i - c i * x (S i))) by (rewrite <- Ei; field; auto).
      rewrite K. lra.
    + replace (S i - 1)%nat with i by lia.
      specialize (U (S i) Hi). rewrite (proj2 (Nat.ltb_ge (S (S i)) N)) in U by lia.
      rewrite SB in U by lia. rewrite (SD i) in U by lia.
      pose proof (HE i ltac:(lia)) as Ei. pose proof (NZ i ltac:(lia)) as Nb.
      assert (K : a i * x i = a i / b i * (d i - c i * x (S i))) by (rewrite <- Ei; field; auto).
      rewrite K. lra.
Qed.

Lemma solve_tridiagonal_total a b c d N : (0 < N)%nat -> length d = N -> length b = N ->
  S (length a) = N -> S (length c) = N ->
  let mn := tri_minor (vent a) (vent b) (vent c) in
  ((forall k, (k <= N)%nat -> mn k <> 0) /\
   exists x, solve_tridiagonal a b c d = Ok x /\ length x = N /\
     forall i, (i < N)%nat -> tri_row N (vent a) (vent b) (vent c) (vent x) i = vent d i) \/
  ((exists k, (k <= N)%nat /\ mn k = 0) /\ solve_tridiagonal a b c d = Err ZeroDivisionError).
Proof.
  intros HN Ld Lb La Lc mn. unfold solve_tridiagonal. rewrite Ld, Lb.
  assert (G1 : (S (length a) =? N)%nat = true) by (apply Nat.eqb_eq; auto).
  assert (G2 : (S (length c) =? N)%nat = true) by (apply Nat.eqb_eq; auto).
  rewrite G1, G2, Nat.eqb_refl. destruct (Nat.eqb_spec N 0); [lia|]. cbn [negb andb].
  assert (EL : forall l : list R, of_list l = vent l).
  { intros l. unfold of_list, vent. rewrite n0R. reflexivity. }
  rewrite !EL. unfold tri_forward.
  change (fun '(b1, d1) i => _) with (tri_stp (vent a) (vent c)).
  set (P := fun n (st : (nat -> R) * (nat -> R)) => tri_st (vent a) (vent b) (vent c) (vent d) n (fst st) (snd st)).
  assert (St : forall j s s', (j < N - 1)%nat -> P j s -> tri_stp (vent a) (vent c) s j = Ok s' -> P (S j) s').
  { intros j [b1 d1] [b2 d2] Hj HP E. eapply tri_stp_ok; eauto. }
  destruct (foldM (tri_stp (vent a) (vent c)) (seq 0 (N - 1)) (vent b, vent d)) as [[b' d']|e] eqn:E.
  - match goal with |- context [bind ?m _] => replace m with (@Ok ((nat -> R) * (nat -> R)) (b', d')) by (symmetry; exact E) end.
    pose proof (foldM_seq_inv _ P (N - 1) (vent b, vent d) (tri_st_0 _ _ _ _) St _ E) as HP. unfold P in HP; simpl in HP.
    cbn [bind].
    destruct (Req_dec (b' (N - 1)%nat) 0) as [Z|NZ].
    + right. split.
      * exists N. split; auto. unfold mn. replace N with (S (N - 1)) at 1 by lia.
        rewrite (ts_minor _ _ _ _ _ _ _ HP) by lia. rewrite Z. ring.
      * unfold tri_backward. rewrite Z, pydivR_0. reflexivity.
    + left.
      assert (NZ' : forall i, (i < N)%nat -> b' i <> 0).
      { intros i Hi. destruct (Nat.eq_dec i (N - 1)) as [->|]; auto. apply (ts_nz _ _ _ _ _ _ _ HP); lia. }
      split.
      * intros k Hk. destruct k as [|k]. { unfold mn. rewrite tri_minor_0. lra. }
        unfold mn. rewrite (ts_minor _ _ _ _ _ _ _ HP) by lia.
        apply Rmult_integral_contrapositive_currified; [apply NZ'; lia | apply (tri_minor_nz _ _ _ _ _ _ _ HP); lia].
      * destruct (tri_backward_ok (vent c) N b' d' HN NZ') as (x & Ex & X1 & X2).
        rewrite Ex. cbn [bind]. eexists; split; [reflexivity|]. split; [apply to_list_len|].
        intros i Hi. rewrite <- (tri_solution _ _ _ _ N b' d' x HN HP NZ X1 X2 i Hi).
        unfold tri_row.
        destruct (Nat.ltb_spec 0 i), (Nat.ltb_spec (S i) N); rewrite ?to_list_vent by lia; reflexivity.
  - match goal with |- context [bind ?m _] => replace m with (@Err ((nat -> R) * (nat -> R)) e) by (symmetry; exact E) end.
    right.
    destruct (foldM_seq_err _ P (N - 1) (vent b, vent d) e (tri_st_0 _ _ _ _) St E) as (j & [b1 d1] & Hj & HP & Ee).
    unfold P in HP; simpl in HP. unfold tri_stp, pydiv in Ee. numR.
    destruct (Reqb (b1 j) 0) eqn:Eb; cbn [bind] in Ee; [|discriminate]. apply Reqb_true in Eb.
    split.
    + exists (S j). split; [lia|]. unfold mn. rewrite (ts_minor _ _ _ _ _ _ _ HP) by lia. rewrite Eb. ring.
    + cbn [bind]. congruence.
Qed.

(** strict diagonal dominance by rows is enough *)
Lemma tri_dominant a b c N : (0 < N)%nat ->
  (forall i, (i < N)%nat ->
     (if Nat.ltb 0 i then Rabs (a (i - 1)%nat) else 0) + (if Nat.ltb (S i) N then Rabs (c i) else 0) < Rabs (b i)) ->
  forall k, (k <= N)%nat -> tri_minor a b c k <> 0.
Proof.
  intros HN H.
  (* |D_{k+1}| > |c_k| |D_k|, hence nonzero *)
  assert (G : forall k, (S k < N)%nat -> Rabs (c k) * Rabs (tri_minor a b c k) < Rabs (tri_minor a b c (S k)) /\
                        tri_minor a b c k <> 0).
  { induction k; intros Hk.
    - rewrite tri_minor_0, tri_minor_1. specialize (H 0%nat HN). rewrite Nat.ltb_irrefl in H.
      rewrite (proj2 (Nat.ltb_lt 1 N)) in H by lia. rewrite Rabs_R1. split; lra.
    - destruct (IHk ltac:(lia)) as [I1 I2].
      assert (N1 : tri_minor a b c (S k) <> 0).
      { intros Z. rewrite Z, Rabs_R0 in I1. pose proof (Rabs_pos (c k)). pose proof (Rabs_pos (tri_minor a b c k)).
        pose proof (Rmult_le_pos _ _ H0 H1). lra. }
      split; auto. rewrite (tri_minor_SS a b c k).
      specialize (H (S k) ltac:(lia)). rewrite (proj2 (Nat.ltb_lt 0 (S k))) in H by lia.
      rewrite (proj2 (Nat.ltb_lt (S (S k)) N)) in H by lia. replace (S k - 1)%nat with k in H by lia.
      set (D1 := tri_minor a b c (S k)) in *. set (D0 := tri_minor a b c k) in *.
      pose proof (Rabs_triang_inv (b (S k) * D1) (a k * c k * D0)) as T.
      rewrite !Rabs_mult in T. rewrite Rmult_assoc in T.
      pose proof (Rabs_pos_lt _ N1) as P1. pose proof (Rabs_pos (a k)) as Pa.
      assert (U : Rabs (a k) * (Rabs (c k) * Rabs D0) <= Rabs (a k) * Rabs D1) by (apply Rmult_le_compat_l; lra).
      assert (V : (Rabs (a k) + Rabs (c (S k))) * Rabs D1 < Rabs (b (S k)) * Rabs D1)
        by (apply Rmult_lt_compat_r; lra).
      lra. }
  intros k Hk. destruct (Nat.eq_dec k N) as [->|].
  - destruct N as [|[|N]]; [lia| |].
    + rewrite tri_minor_1. specialize (H 0%nat ltac:(lia)). simpl in H. intros Z. rewrite Z, Rabs_R0 in H. lra.
    + destruct (G N ltac:(lia)) as [I1 I2].
      assert (N1 : tri_minor a b c (S N) <> 0).
      { intros Z. rewrite Z, Rabs_R0 in I1. pose proof (Rabs_pos (c N)). pose proof (Rabs_pos (tri_minor a b c N)).
        pose proof (Rmult_le_pos _ _ H0 H1). lra. }
      rewrite tri_minor_SS. specialize (H (S N) ltac:(lia)).
      rewrite (proj2 (Nat.ltb_lt 0 (S N))) in H by lia. replace (S N - 1)%nat with N in H by lia.
      rewrite (proj2 (Nat.ltb_ge (S (S N)) (S (S N)))) in H by lia.
      set (D1 := tri_minor a b c (S N)) in *. set (D0 := tri_minor a b c N) in *.
      pose proof (Rabs_triang_inv (b (S N) * D1) (a N * c N * D0)) as T.
      rewrite !Rabs_mult in T. rewrite Rmult_assoc in T.
      pose proof (Rabs_pos_lt _ N1) as P1. pose proof (Rabs_pos (a N)) as Pa.
      assert (U : Rabs (a N) * (Rabs (c N) * Rabs D0) <= Rabs (a N) * Rabs D1) by (apply Rmult_le_compat_l; lra).
      assert (V : Rabs (a N) * Rabs D1 < Rabs (b (S N)) * Rabs D1) by (apply Rmult_lt_compat_r; lra).
      intros Z. rewrite Z, Rabs_R0 in T. lra.
  - destruct (Nat.eq_dec (S k) N); [|apply G; lia].
    destruct k as [|k]; [rewrite tri_minor_0; lra|].
    destruct (G k ltac:(lia)) as [I1 I2]. intros Z. rewrite Z, Rabs_R0 in I1.
    pose proof (Rabs_pos (c k)). pose proof (Rabs_pos (tri_minor a b c k)).
    pose proof (Rmult_le_pos _ _ H0 H1). lra.
Qed.

(** ** bands <-> array *)
Lemma idx_ok {A} (l : list A) i d : (i < length l)%nat -> idx l i = Ok (nth i l d).
Proof. intros H. unfold idx. rewrite (nth_error_nth' l d H). reflexivity. Qed.
Lemma entry_idx2 {A} (M : list (list A)) i j x : idx2 M i j = Ok x <-> entry M i j = Some x.
Proof.
  unfold idx2, entry, idx. destruct (nth_error M i) as [r|]; simpl; [|split; discriminate].
  destruct (nth_error r j); split; congruence.
Qed.
Lemma mapM_ok_nth {A B} (f : A -> result B) l ys : mapM f l = Ok ys ->
  length ys = length l /\ forall i x, nth_error l i = Some x -> exists y, f x = Ok y /\ nth_error ys i = Some y.
Proof.
  revert ys. induction l as [|a l IH]; simpl; intros ys E.
  - injection E as <-. split; auto. intros [|i] x H; discriminate.
  - inv_bind E. inv_bind E. injection E as <-. destruct (IH _ E1) as [L H]. split; [simpl; lia|].
    intros [|i] x Hx; simpl in Hx.
    + injection Hx as <-. eauto.
    + apply H in Hx. exact Hx.
Qed.

Section Bands.
Context {A : Type}.
Implicit Types (M : list (list A)).

Lemma mapM_idx2_ok (M : list (list A)) n (p q : nat -> nat) l :
  is_mat n n M -> (forall i, In i l -> (p i < n)%nat /\ (q i < n)%nat) ->
  exists ys, mapM (fun i => idx2 M (p i) (q i)) l = Ok ys /\ length ys = length l /\
    forall d k, (k < length l)%nat -> entry M (p (nth k l d)) (q (nth k l d)) = nth_error ys k.
Proof.
  intros HM. induction l as [|a l IH]; intros H.
  - exists []. splits; auto. simpl; intros; lia.
  - destruct IH as (ys & E & L & N). { intros; apply H; simpl; auto. }
    destruct (H a (or_introl eq_refl)) as [Hp Hq].
    assert (X : exists x, entry M (p a) (q a) = Some x).
    { unfold entry. destruct HM as [L0 F0]. destruct (nth_error M (p a)) as [r|] eqn:Er.
      - pose proof (nth_error_In _ _ Er) as In_r. rewrite Forall_forall in F0. apply F0 in In_r.
        destruct (nth_error r (q a)) eqn:Eq; eauto. apply nth_error_None in Eq. lia.
      - apply nth_error_None in Er. lia. }
    destruct X as [x Ex]. pose proof Ex as Ex'. apply entry_idx2 in Ex.
    cbn [mapM]. rewrite Ex. cbn [bind]. rewrite E. cbn [bind].
    exists (x :: ys). splits; auto. { simpl; lia. }
    intros d [|k] Hk; simpl; auto. apply N. simpl in Hk; lia.
Qed.

Lemma array_as_tridiagonals_ok (M : list (list A)) n : is_mat n n M -> (0 < n)%nat ->
  exists a b c, array_as_tridiagonals M = Ok (a, b, c) /\
    length b = n /\ S (length a) = n /\ S (length c) = n /\
    (forall i, (i < n)%nat -> nth_error b i = entry M i i) /\
    (forall i, (S i < n)%nat -> nth_error a i = entry M (S i) i) /\
    (forall i, (S i < n)%nat -> nth_error c i = entry M i (S i)).
Proof.
  intros HM Hn. unfold array_as_tridiagonals.
  pose proof (is_mat_row _ _ _ 0 HM Hn) as R0. destruct HM as [L F] eqn:HMe.
  destruct M as [|r0 M']; [simpl in L; lia|]. cbn [idx nth_error bind nth] in *.
  change (idx (r0 :: M') 0) with (Ok r0). cbn [bind].
  destruct r0 as [|x0 r0]; [simpl in R0; lia|]. change (idx (x0 :: r0) 0) with (Ok x0). cbn [bind].
  rewrite R0. set (M := (x0 :: r0) :: M') in *.
  assert (HM' : is_mat n n M) by (split; auto).
  destruct (mapM_idx2_ok M n (fun i => i) (fun i => i) (seq 1 (n - 1)) HM') as (b & Eb & Lb & Nb).
  { intros i Hi. apply in_seq in Hi. lia. }
  destruct (mapM_idx2_ok M n (fun i => i - 1)%nat (fun i => i) (seq 1 (n - 1)) HM') as (c & Ec & Lc & Nc).
  { intros i Hi. apply in_seq in Hi. lia. }
  destruct (mapM_idx2_ok M n (fun i => i) (fun i => i - 1)%nat (seq 1 (n - 1)) HM') as (a & Ea & La & Na).
  { intros i Hi. apply in_seq in Hi. lia. }
  rewrite Eb, Ec, Ea. cbn [bind]. rewrite seq_length in *.
  do 3 eexists; split; [reflexivity|]. splits; try (simpl; lia).
  - intros [|i] Hi; [reflexivity|]. simpl nth_error. rewrite <- (Nb 0%nat i) by lia.
    rewrite seq_nth by lia. reflexivity.
  - intros i Hi. rewrite <- (Na 0%nat i) by lia. rewrite seq_nth by lia.
    replace (1 + i - 1)%nat with i by lia. reflexivity.
  - intros i Hi. rewrite <- (Nc 0%nat i) by lia. rewrite seq_nth by lia.
    replace (1 + i - 1)%nat with i by lia. reflexivity.
Qed.

Lemma tridiagonals_as_array_ok (a b c : list A) z n : length b = n -> (0 < n)%nat ->
  S (length a) = n -> S (length c) = n ->
  exists M, tridiagonals_as_array a b c z = Ok M /\ is_mat n n M /\
    forall i j, (i < n)%nat -> (j < n)%nat ->
      entry M i j = if Nat.eqb i j then nth_error b i
                    else if Nat.eqb i (S j) then nth_error a j
                    else if Nat.eqb j (S i) then nth_error c i
                    else Some z.
Proof.
  intros Lb Hn La Lc. unfold tridiagonals_as_array. rewrite Lb.
  destruct (Nat.eqb_spec n 0); [lia|].
  rewrite !(proj2 (Nat.ltb_ge _ _)) by lia. cbn [orb].
  eexists; split; [reflexivity|]. split.
  - split. { now rewrite map_length, seq_length. } apply Forall_forall. intros r Hr.
    apply in_map_iff in Hr. destruct Hr as [i [<- _]]. now rewrite map_length, seq_length.
  - intros i j Hi Hj. unfold entry. rewrite nth_error_map.
    rewrite (nth_error_nth' (seq 0 n) 0%nat) by (rewrite seq_length; auto). rewrite seq_nth by auto. cbn [option_map Nat.add].
    rewrite nth_error_map.
    rewrite (nth_error_nth' (seq 0 n) 0%nat) by (rewrite seq_length; auto). rewrite seq_nth by auto. cbn [option_map Nat.add].
    rewrite (Nat.eqb_sym i j), (Nat.eqb_sym i (S j)).
    destruct (Nat.eqb_spec j i) as [->|]. { symmetry. apply nth_error_nth'. lia. }
    destruct (Nat.eqb_spec (S j) i) as [<-|]. { symmetry. apply nth_error_nth'. lia. }
    destruct (Nat.eqb_spec j (S i)) as [->|]. { symmetry. apply nth_error_nth'. lia. }
    reflexivity.
Qed.

(** bands -> array -> bands *)
Lemma bands_roundtrip (a b c : list A) z n : length b = n -> (0 < n)%nat ->
  S (length a) = n -> S (length c) = n ->
  (M <- tridiagonals_as_array a b c z ;; array_as_tridiagonals M) = Ok (a, b, c).
Proof.
  intros Lb Hn La Lc. destruct (tridiagonals_as_array_ok a b c z n) as (M & E & HM & EM); auto.
  rewrite E. cbn [bind]. destruct (array_as_tridiagonals_ok M n HM Hn) as (a' & b' & c' & E' & Lb' & La' & Lc' & Hb & Ha & Hc).
  rewrite E'. f_equal. f_equal; [f_equal|].
  - apply nth_error_ext. intros i. destruct (Nat.lt_ge_cases (S i) n).
    + rewrite Ha, EM by lia. nb. reflexivity.
    + rewrite !(proj2 (nth_error_None _ _)); auto; lia.
  - apply nth_error_ext. intros i. destruct (Nat.lt_ge_cases i n).
    + rewrite Hb, EM by lia. nb. reflexivity.
    + rewrite !(proj2 (nth_error_None _ _)); auto; lia.
  - apply nth_error_ext. intros i. destruct (Nat.lt_ge_cases (S i) n).
    + rewrite Hc, EM by lia. nb. reflexivity.
    + rewrite !(proj2 (nth_error_None _ _)); auto; lia.
Qed.
(** array -> bands -> array, for matrices that are zero off the three bands *)
Lemma array_roundtrip (M : list (list A)) z n : is_mat n n M -> (0 < n)%nat ->
  (forall i j, (i < n)%nat -> (j < n)%nat -> (S i < j \/ S j < i)%nat -> entry M i j = Some z) ->
  (' (a, b, c) <- array_as_tridiagonals M ;; tridiagonals_as_array a b c z) = Ok M.
Proof.
  intros HM Hn Hz. destruct (array_as_tridiagonals_ok M n HM Hn) as (a & b & c & E & Lb & La & Lc & Hb & Ha & Hc).
  rewrite E. cbn [bind]. destruct (tridiagonals_as_array_ok a b c z n) as (M' & E' & HM' & EM); auto.
  rewrite E'. f_equal. apply (entry_ext n n); auto. intros i j.
  destruct (Nat.lt_ge_cases i n) as [Hi|Hi].
  - destruct (Nat.lt_ge_cases j n) as [Hj|Hj].
    + rewrite EM by auto. destruct (Nat.eqb_spec i j) as [->|]; [apply Hb; auto|].
      destruct (Nat.eqb_spec i (S j)) as [->|]; [apply Ha; auto|].
      destruct (Nat.eqb_spec j (S i)) as [->|]; [apply Hc; auto|].
      symmetry. apply Hz; auto; lia.
    + assert (G : forall M0, is_mat n n M0 -> entry M0 i j = None).
      { intros M0 [L0 F0]. unfold entry. destruct (nth_error M0 i) as [r|] eqn:Er; auto.
        apply nth_error_In in Er. rewrite Forall_forall in F0. apply F0 in Er. apply nth_error_None. lia. }
      now rewrite !G.
  - assert (G : forall M0, is_mat n n M0 -> entry M0 i j = None).
    { intros M0 [L0 F0]. unfold entry. rewrite (proj2 (nth_error_None M0 i)); auto. lia. }
    now rewrite !G.
Qed.

(** ** subset_matrix *)
Lemma mapM_idx_ok (r : list A) l : (forall i, In i l -> (i < length r)%nat) ->
  exists ys, mapM (idx r) l = Ok ys /\ length ys = length l /\
    forall k i, nth_error l k = Some i -> nth_error ys k = nth_error r i.
Proof.
  induction l as [|a l IH]; intros H.
  - exists []. splits; auto. intros [|k] i; discriminate.
  - destruct IH as (ys & E & L & N). { intros; apply H; simpl; auto. }
    assert (Ha : (a < length r)%nat) by (apply H; simpl; auto).
    destruct (nth_error r a) as [x|] eqn:Ex; [|apply nth_error_None in Ex; lia].
    cbn [mapM]. unfold idx at 1. rewrite Ex. cbn [bind]. rewrite E. cbn [bind].
    exists (x :: ys). splits; auto. { simpl; lia. }
    intros [|k] i Hi; simpl in *. { injection Hi as <-. auto. } apply N; auto.
Qed.
Lemma subset_matrix_ok (M : list (list A)) m n l : is_mat m n M ->
  (forall i, In i l -> (i < m)%nat /\ (i < n)%nat) ->
  exists S, subset_matrix M l = Ok S /\ is_mat (length l) (length l) S /\
    forall p q i j, nth_error l p = Some i -> nth_error l q = Some j -> entry S p q = entry M i j.
Proof.
  intros [L F] H. unfold subset_matrix.
  assert (G : forall l', (forall i, In i l' -> (i < m)%nat) ->
    exists S, mapM (fun i => whole_i <- idx M i ;; mapM (idx whole_i) l) l' = Ok S /\
      is_mat (length l') (length l) S /\
      forall p q i j, nth_error l' p = Some i -> nth_error l q = Some j -> entry S p q = entry M i j).
  { induction l' as [|a l' IH]; intros H'.
    - exists []. splits; auto. split; auto. intros [|p] q i j; discriminate.
    - destruct IH as (S & E & [LS FS] & N). { intros; apply H'; simpl; auto. }
      assert (Ha : (a < m)%nat) by (apply H'; simpl; auto).
      destruct (nth_error M a) as [r|] eqn:Er; [|apply nth_error_None in Er; lia].
      pose proof (nth_error_In _ _ Er) as Inr. pose proof F as F'. rewrite Forall_forall in F'. apply F' in Inr.
      destruct (mapM_idx_ok r l) as (ys & Ey & Ly & Ny). { intros i Hi. rewrite Inr. apply H; auto. }
      cbn [mapM]. unfold idx at 1. rewrite Er. cbn [bind]. rewrite Ey. cbn [bind]. rewrite E. cbn [bind].
      exists (ys :: S). splits; auto.
      + split; [simpl; lia|]. constructor; auto.
      + intros [|p] q i j Hp Hq; simpl in Hp.
        * injection Hp as <-. unfold entry. simpl. rewrite Er. apply Ny; auto.
        * unfold entry. simpl. apply (N p q i j Hp Hq). }
  apply G. intros; apply H; auto.
Qed.
End Bands.

(** ** sorting *)
Section Sort.
Context {A : Type} (leb : A -> A -> bool).
Context (leb_total : forall x y, leb x y = true \/ leb y x = true).
Context (leb_trans : forall x y z, leb x y = true -> leb y z = true -> leb x z = true).

(** [(i,x)] may stand before [(j,y)]: x <= y, and x < y unless i came first *)
Definition before (p q : nat * A) : Prop :=
  leb (snd p) (snd q) = true /\ (leb (snd q) (snd p) = true -> (fst p < fst q)%nat).

Lemma ins_perm x l : Permutation (x :: l) (ins leb x l).
Proof.
  induction l as [|y t IH]; simpl; auto. destruct (leb (snd x) (snd y)); auto.
  rewrite perm_swap. constructor. exact IH.
Qed.
Lemma sorted_perm l : Permutation l (sorted_by_value leb l).
Proof.
  induction l as [|x l IH]; simpl; auto. rewrite <- ins_perm. constructor. exact IH.
Qed.
Lemma before_trans p q r : before p q -> before q r -> before p r.
Proof.
  intros [H1 H2] [H3 H4]. split; eauto. intros H5.
  assert (leb (snd q) (snd p) = true) by eauto. assert (leb (snd r) (snd q) = true) by eauto.
  specialize (H2 H). specialize (H4 H0). lia.
Qed.
Lemma ins_sorted x l : (forall y, In y l -> (fst x < fst y)%nat) ->
  StronglySorted before l -> StronglySorted before (ins leb x l).
Proof.
  intros Hx S. induction S as [|y t S IH F]; simpl.
  - constructor; constructor.
  - destruct (leb (snd x) (snd y)) eqn:E.
    + assert (B : before x y) by (split; [auto | intros _; apply Hx; simpl; auto]).
      constructor; [constructor; auto|]. constructor; auto.
      rewrite Forall_forall in *. intros z Hz. eapply before_trans; eauto.
    + constructor. { apply IH. intros; apply Hx; simpl; auto. }
      rewrite Forall_forall in *. intros z Hz.
      apply (Permutation_in _ (Permutation_sym (ins_perm x t))) in Hz. destruct Hz as [<-|Hz]; auto.
      destruct (leb_total (snd x) (snd y)) as [H|H]; [congruence|].
      split; auto. congruence.
Qed.
Lemma sorted_sorted l : StronglySorted (fun p q => (fst p < fst q)%nat) l ->
  StronglySorted before (sorted_by_value leb l).
Proof.
  induction 1 as [|x l S IH F]; simpl; [constructor|].
  apply ins_sorted; auto. intros y Hy. apply (Permutation_in _ (Permutation_sym (sorted_perm l))) in Hy.
  rewrite Forall_forall in F. auto.
Qed.
Lemma combine_seq_sorted (arr : list A) s : StronglySorted (fun p q => (fst p < fst q)%nat) (combine (seq s (length arr)) arr).
Proof.
  revert s. induction arr as [|x arr IH]; intros s; simpl; [constructor|]. constructor; auto.
  apply Forall_forall. intros [i y] H. apply in_combine_l in H. apply in_seq in H. simpl. lia.
Qed.
Lemma combine_fst {B} (l1 : list nat) (l2 : list B) : length l1 = length l2 -> map fst (combine l1 l2) = l1.
Proof.
  revert l2; induction l1; intros [|y l2]; simpl; intros H; try lia; auto. f_equal; auto.
Qed.
Lemma argsort_perm arr : Permutation (seq 0 (length arr)) (argsort1d leb arr).
Proof.
  unfold argsort1d. rewrite <- (combine_fst (seq 0 (length arr)) arr) at 1 by apply seq_length.
  apply Permutation_map, sorted_perm.
Qed.
Lemma in_combine_seq (arr : list A) s i x : In (i, x) (combine (seq s (length arr)) arr) -> (s <= i)%nat /\ nth_error arr (i - s) = Some x.
Proof.
  revert s. induction arr as [|y arr IH]; intros s H; [destruct H|].
  destruct H as [H|H].
  - injection H as <- <-. split; auto. now rewrite Nat.sub_diag.
  - apply IH in H. destruct H. split; [lia|]. replace (i - s)%nat with (S (i - S s)) by lia. auto.
Qed.
(** sorted, and stable *)
Lemma argsort_sorted arr p q i j x y : (p < q)%nat ->
  nth_error (argsort1d leb arr) p = Some i -> nth_error (argsort1d leb arr) q = Some j ->
  nth_error arr i = Some x -> nth_error arr j = Some y ->
  leb x y = true /\ (leb y x = true -> (i < j)%nat).
Proof.
  intros Hpq Hp Hq Hi Hj. unfold argsort1d in *.
  pose proof (sorted_sorted _ (combine_seq_sorted arr 0)) as S.
  set (l := sorted_by_value leb (combine (seq 0 (length arr)) arr)) in *.
  rewrite nth_error_map in Hp, Hq.
  destruct (nth_error l p) as [[i' x']|] eqn:Ep; [|discriminate]. injection Hp as ->.
  destruct (nth_error l q) as [[j' y']|] eqn:Eq; [|discriminate]. injection Hq as ->.
  assert (X : nth_error arr i = Some x' /\ nth_error arr j = Some y').
  { apply nth_error_In in Ep, Eq.
    apply (Permutation_in _ (Permutation_sym (sorted_perm _))) in Ep, Eq.
    apply in_combine_seq in Ep, Eq. rewrite !Nat.sub_0_r in *. tauto. }
  destruct X as [X Y]. rewrite Hi in X. rewrite Hj in Y. injection X as <-. injection Y as <-.
  assert (G : forall l p q a b, StronglySorted before l -> (p < q)%nat -> nth_error l p = Some a ->
     nth_error l q = Some b -> before a b).
  { clear. intros l p q a b S. revert p q. induction S as [|z t S IH F]; intros p q H Ha Hb.
    - destruct p; discriminate.
    - destruct q as [|q]; [lia|]. simpl in Hb. destruct p as [|p]; simpl in Ha.
      + injection Ha as <-. rewrite Forall_forall in F. apply F. eapply nth_error_In; eauto.
      + eapply IH; [| exact Ha | exact Hb]. lia. }
  exact (G l p q (i, x) (j, y) S Hpq Ep Eq).
Qed.

Lemma sort_paired_ok {B} (l1 : list A) (l2 : list B) : length l1 = length l2 ->
  exists s1 s2, sort_paired_lists leb l1 l2 = Ok (s1, s2) /\ length s1 = length l1 /\ length s2 = length l1 /\
    forall p i, nth_error (argsort1d leb l1) p = Some i ->
      nth_error s1 p = nth_error l1 i /\ nth_error s2 p = nth_error l2 i.
Proof.
  intros H. unfold sort_paired_lists. rewrite H, Nat.eqb_refl. cbn [negb].
  destruct (Nat.eqb_spec (length l2) 0) as [Z|].
  - destruct l2; [|discriminate]. destruct l1; [|discriminate]. exists [], []. splits; auto.
    intros [|p] i; discriminate.
  - assert (In_lt : forall i, In i (argsort1d leb l1) -> (i < length l1)%nat).
    { intros i Hi. apply (Permutation_in _ (Permutation_sym (argsort_perm l1))) in Hi. apply in_seq in Hi. lia. }
    assert (LA : length (argsort1d leb l1) = length l1).
    { rewrite <- (Permutation_length (argsort_perm l1)). apply seq_length. }
    destruct (mapM_idx_ok l1 (argsort1d leb l1)) as (s1 & E1 & L1 & N1); auto.
    destruct (mapM_idx_ok l2 (argsort1d leb l1)) as (s2 & E2 & L2 & N2). { intros; rewrite <- H; auto. }
    rewrite E1, E2. cbn [bind]. exists s1, s2. splits; auto; try lia.
Qed.
Lemma nth_error_seq0 n k : nth_error (seq 0 n) k = if Nat.ltb k n then Some k else None.
Proof.
  destruct (Nat.ltb_spec k n).
  - rewrite (nth_error_nth' _ 0%nat) by (rewrite seq_length; auto). now rewrite seq_nth.
  - apply nth_error_None. rewrite seq_length. lia.
Qed.
Lemma perm_pairs {B} (l1 : list A) (l2 : list B) s1 s2 (idxs : list nat) : length l1 = length l2 ->
  Permutation (seq 0 (length l1)) idxs -> length s1 = length l1 -> length s2 = length l1 ->
  (forall p i, nth_error idxs p = Some i -> nth_error s1 p = nth_error l1 i /\ nth_error s2 p = nth_error l2 i) ->
  Permutation (combine l1 l2) (combine s1 s2).
Proof.
  intros HL HP L1 L2 N.
  assert (LI : length idxs = length l1) by (rewrite <- (Permutation_length HP); apply seq_length).
  set (f := fun i => nth_error (combine l1 l2) i).
  assert (NC : forall {X Y} (u : list X) (v : list Y) k, nth_error (combine u v) k =
     match nth_error u k, nth_error v k with Some a, Some b => Some (a, b) | _, _ => None end).
  { clear. intros X Y u. induction u as [|a u IH]; intros v k; destruct k, v; simpl; auto.
    - destruct (nth_error u k); auto. }
  assert (E1 : map f (seq 0 (length l1)) = map Some (combine l1 l2)).
  { apply nth_error_ext. intros k. rewrite !nth_error_map, nth_error_seq0.
    destruct (Nat.ltb_spec k (length l1)); simpl.
    - unfold f. destruct (nth_error (combine l1 l2) k) eqn:E; auto.
      apply nth_error_None in E. rewrite combine_length in E. lia.
    - rewrite (proj2 (nth_error_None (combine l1 l2) k)); auto. rewrite combine_length. lia. }
  assert (E2 : map f idxs = map Some (combine s1 s2)).
  { apply nth_error_ext. intros k. rewrite !nth_error_map.
    destruct (nth_error idxs k) as [i|] eqn:Ei; simpl.
    - destruct (N k i Ei) as [A1 A2]. unfold f. rewrite !NC, A1, A2.
      assert (Hi : (i < length l1)%nat).
      { apply nth_error_In in Ei. apply (Permutation_in _ (Permutation_sym HP)) in Ei. apply in_seq in Ei. lia. }
      destruct (nth_error l1 i) eqn:X1; [|apply nth_error_None in X1; lia].
      destruct (nth_error l2 i) eqn:X2; [|apply nth_error_None in X2; lia]. reflexivity.
    - apply nth_error_None in Ei. rewrite (proj2 (nth_error_None (combine s1 s2) k)); auto.
      rewrite combine_length. lia. }
  assert (P : Permutation (map (@Some (A * B)) (combine l1 l2)) (map Some (combine s1 s2))).
  { rewrite <- E1, <- E2. now apply Permutation_map. }
  clear - P.
  assert (G : forall l l' : list (A * B), Permutation (map Some l) (map Some l') -> Permutation l l').
  { intros l l' H. apply (Permutation_map (fun o => match o with Some x => [x] | None => [] end)) in H.
    rewrite !map_map in H.
    assert (C : forall u v : list (list (A * B)), Permutation u v -> Permutation (concat u) (concat v)).
    { induction 1; simpl; auto. now apply Permutation_app_head. rewrite !app_assoc. apply Permutation_app_tail, Permutation_app_comm. etransitivity; eauto. }
    apply C in H. assert (I : forall u : list (A * B), concat (map (fun x => [x]) u) = u).
    { induction u; simpl; auto. now rewrite IHu. }
    now rewrite !I in H. }
  now apply G.
Qed.
End Sort.
