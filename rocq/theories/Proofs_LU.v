(** Correctness of the LU routines for matrices of every size. *)
From Coq Require Import List Bool Reals Arith Lra Lia.
From Verif Require Import Base Sums Spec_Mat Model_Arrays.
Import ListNotations.
Local Open Scope R_scope.

Ltac nb :=
  repeat (match goal with
  | |- context [Nat.eqb ?a ?b] => destruct (Nat.eqb_spec a b); try lia; subst
  | |- context [Nat.ltb ?a ?b] => destruct (Nat.ltb_spec a b); try lia
  | |- context [Nat.leb ?a ?b] => destruct (Nat.leb_spec a b); try lia
  end; cbn [andb orb negb]; rewrite ?andb_false_r); cbn [andb orb negb].

Lemma seq_snoc s n : seq s (S n) = seq s n ++ [(s + n)%nat].
Proof. apply seq_S. Qed.

Lemma sub_dot_R f s n t : @sub_dot R _ f (seq s n) t = t - Rsum (fun k => f (s + k)%nat) n.
Proof.
  unfold sub_dot. induction n.
  - simpl; ring.
  - rewrite seq_snoc, fold_left_app, IHn. simpl. ring.
Qed.
Lemma sub_dot_R0 f n t : @sub_dot R _ f (seq 0 n) t = t - Rsum f n.
Proof. rewrite sub_dot_R. reflexivity. Qed.
Lemma sum_to_R f n : @sum_to R _ f n = Rsum f n.
Proof.
  unfold sum_to. induction n.
  - simpl. apply n0R.
  - rewrite seq_snoc, fold_left_app, IHn. reflexivity.
Qed.

(** ** The four inner loops *)
Lemma lu_upper_spec j M :
  let M' := @lu_upper R _ j M in
  (forall i c, (c <> j \/ j <= i)%nat -> M' i c = M i c) /\
  (forall i, (i < j)%nat -> M' i j = M i j - Rsum (fun k => M i k * M' k j) i).
Proof.
  cbv zeta. unfold lu_upper.
  match goal with |- context [fold_left ?f (seq 0 j) M] => set (stp := f) end.
  assert (G : forall n, (n <= j)%nat ->
    let M' := fold_left stp (seq 0 n) M in
    (forall i c, (c <> j \/ n <= i)%nat -> M' i c = M i c) /\
    (forall i, (i < n)%nat -> M' i j = M i j - Rsum (fun k => M i k * M' k j) i)).
  { induction n; intros Hn; cbv zeta.
    - simpl. split; intros; [reflexivity | lia].
    - rewrite seq_snoc, fold_left_app. destruct IHn as [I1 I2]; [lia|]. cbv zeta in I1, I2.
      set (M1 := fold_left stp (seq 0 n) M) in *. cbn [fold_left Nat.add].
      unfold stp. rewrite sub_dot_R0. unfold mset. cbn [nmul NumR].
      split.
      + intros i c H. nb; auto; apply I1; lia.
      + intros i Hi. nb.
        * rewrite (I1 n j) by lia. f_equal. apply Rsum_ext. intros k Hk. nb.
          rewrite (I1 n k) by lia. reflexivity.
        * rewrite I2 by lia. f_equal. apply Rsum_ext. intros k Hk. nb. reflexivity. }
  destruct (G j (le_n _)) as [G1 G2]. split; auto.
Qed.

Lemma lu_lower_spec N j M : (j <= N)%nat ->
  let '(M', ap, ip) := @lu_lower R _ N j M in
  (forall i c, (c <> j \/ i < j \/ N <= i)%nat -> M' i c = M i c) /\
  (forall i, (j <= i < N)%nat -> M' i j = M i j - Rsum (fun k => M i k * M k j) j) /\
  (forall i, (j <= i < N)%nat -> Rabs (M' i j) <= ap) /\
  ((ap = 0 /\ ip = j) \/ (0 < ap /\ (j <= ip < N)%nat /\ ap = Rabs (M' ip j))).
Proof.
  intros HN. unfold lu_lower.
  match goal with |- context [fold_left ?f (seq j (N - j)) _] => set (stp := f) end.
  assert (G : forall n, (j + n <= N)%nat ->
    let '(M', ap, ip) := fold_left stp (seq j n) (M, n0, j) in
    (forall i c, (c <> j \/ i < j \/ j + n <= i)%nat -> M' i c = M i c) /\
    (forall i, (j <= i < j + n)%nat -> M' i j = M i j - Rsum (fun k => M i k * M k j) j) /\
    (forall i, (j <= i < j + n)%nat -> Rabs (M' i j) <= ap) /\
    ((ap = 0 /\ ip = j) \/ (0 < ap /\ (j <= ip < j + n)%nat /\ ap = Rabs (M' ip j)))).
  { induction n; intros Hn.
    - cbn [seq fold_left]. rewrite n0R. splits; intros; auto; try lia.
    - rewrite seq_snoc, fold_left_app.
      specialize (IHn ltac:(lia)).
      destruct (fold_left stp (seq j n) (M, n0, j)) as [[M1 ap] ip].
      destruct IHn as (I1 & I2 & I3 & I4).
      cbn [fold_left]. unfold stp. rewrite sub_dot_R0. numR.
      set (tot := M1 (j + n)%nat j - _).
      assert (Ht : tot = M (j + n)%nat j - Rsum (fun k => M (j + n)%nat k * M k j) j).
      { unfold tot. rewrite I1 by lia. f_equal. apply Rsum_ext. intros k Hk.
        rewrite !I1 by lia. reflexivity. }
      assert (Hd : mset M1 (j + n) j tot (j + n)%nat j = tot).
      { unfold mset. nb. reflexivity. }
      rewrite Hd.
      assert (K1 : forall i c, (c <> j \/ i < j \/ j + S n <= i)%nat -> mset M1 (j + n) j tot i c = M i c).
      { intros i c H. unfold mset. nb; apply I1; lia. }
      assert (K2 : forall i, (j <= i < j + S n)%nat ->
                mset M1 (j + n) j tot i j = M i j - Rsum (fun k => M i k * M k j) j).
      { intros i H. unfold mset. nb; auto. apply I2; lia. }
      rcase.
      + splits; auto.
        * intros i H. unfold mset. nb. lra. specialize (I3 i ltac:(lia)). lra.
        * right. splits; try lia; auto.
          { destruct I4 as [[-> _] | [? _]]; lra. }
          { now rewrite Hd. }
      + splits; auto.
        * intros i H. unfold mset. nb. lra. apply I3; lia.
        * destruct I4 as [? | (P1 & P2 & P3)]; [left; auto | right].
          splits; auto; try lia. unfold mset. nb; auto. }
  specialize (G (N - j)%nat ltac:(lia)).
  destruct (fold_left stp (seq j (N - j)) (M, n0, j)) as [[M1 ap] ip].
  replace (j + (N - j))%nat with N in G by lia. exact G.
Qed.

Definition sw (a b i : nat) : nat := if Nat.eqb i a then b else if Nat.eqb i b then a else i.
Lemma sw_lt a b i N : (a < N)%nat -> (b < N)%nat -> (i < N)%nat -> (sw a b i < N)%nat.
Proof. unfold sw; intros; nb; auto. Qed.
Lemma sw_sw a b i : sw a b (sw a b i) = i.
Proof.
  unfold sw. destruct (Nat.eqb_spec i a) as [->|].
  - rewrite Nat.eqb_refl. destruct (Nat.eqb_spec b a); auto.
  - destruct (Nat.eqb_spec i b) as [->|].
    + now rewrite Nat.eqb_refl.
    + rewrite (proj2 (Nat.eqb_neq i a)), (proj2 (Nat.eqb_neq i b)); auto.
Qed.
Lemma sw_same a i : sw a a i = i.
Proof. unfold sw; nb; auto. Qed.
Lemma sw_ge a b i : (a <= b)%nat -> (i < a)%nat -> sw a b i = i.
Proof. unfold sw; intros; nb; auto. Qed.
Lemma sw_ge2 a b i : (a <= b)%nat -> (a <= i)%nat -> (a <= sw a b i)%nat.
Proof. unfold sw; intros; nb; auto. Qed.

Lemma swap_rows_spec N p j (M : nat -> nat -> R) i k : p <> j -> 
  swap_rows N p j M i k = if Nat.ltb k N then M (sw j p i) k else M i k.
Proof.
  intros Hp. unfold swap_rows. revert i k.
  induction N; intros i k.
  - simpl. reflexivity.
  - rewrite seq_snoc, fold_left_app. cbn [fold_left Nat.add].
    set (M1 := fold_left _ (seq 0 N) M) in *. unfold mset.
    assert (E : forall i, M1 i N = M i N) by (intros; rewrite IHN; nb; auto).
    rewrite !E. destruct (Nat.eqb_spec k N) as [->|Hk].
    + rewrite !andb_true_r. unfold sw. nb; auto; try congruence.
    + rewrite !andb_false_r. rewrite IHN. nb; auto.
Qed.

Lemma lu_scale_spec N j v (M : nat -> nat -> R) i c :
  @lu_scale R _ N j v M i c =
  if Nat.eqb c j && (Nat.ltb j i && Nat.ltb i N) then M i j * v else M i c.
Proof.
  unfold lu_scale.
  assert (G : forall n i c, fold_left (fun M i => mset M i j (nmul (M i j) v)) (seq (j + 1) n) M i c =
     if Nat.eqb c j && (Nat.ltb j i && Nat.ltb i (j + 1 + n)) then M i j * v else M i c).
  { induction n; intros i' c'.
    - simpl fold_left. nb; auto.
    - rewrite seq_snoc, fold_left_app. cbn [fold_left]. unfold mset at 1. rewrite !IHn. numR.
      nb; auto. }
  rewrite G. nb; auto.
Qed.

(** ** The column invariant *)
Fixpoint perm_of (piv : nat -> nat) (j : nat) : nat -> nat :=
  match j with
  | O => fun i => i
  | S j' => fun i => perm_of piv j' (sw j' (piv j') i)
  end.
Lemma perm_of_ext p q j i : (forall k, (k < j)%nat -> p k = q k) -> perm_of p j i = perm_of q j i.
Proof.
  revert i. induction j; intros i H; simpl; auto. rewrite H by lia. apply IHj. intros; apply H; lia.
Qed.
Lemma perm_of_lt p j N i : (forall k, (k < j)%nat -> (k <= p k < N)%nat) -> (j <= N)%nat -> (i < N)%nat ->
  (perm_of p j i < N)%nat.
Proof.
  revert i. induction j; intros i H Hj Hi; simpl; auto.
  apply IHj; try lia. { intros; apply H; lia. }
  specialize (H j ltac:(lia)). apply sw_lt; lia.
Qed.
Lemma perm_of_surj p j N r : (forall k, (k < j)%nat -> (k <= p k < N)%nat) -> (j <= N)%nat -> (r < N)%nat ->
  exists i, (i < N)%nat /\ perm_of p j i = r.
Proof.
  revert r. induction j; intros r H Hj Hr; simpl.
  - eauto.
  - destruct (IHj r) as [i [Hi E]]; try lia; auto.
    exists (sw j (p j) i). split.
    + specialize (H j ltac:(lia)). apply sw_lt; lia.
    + now rewrite sw_sw.
Qed.
(** later exchanges do not touch earlier positions *)
Lemma perm_of_stable p j N k : (forall k, (k < N)%nat -> (k <= p k < N)%nat) -> (k < j)%nat -> (j <= N)%nat ->
  perm_of p j k = perm_of p (S k) k.
Proof.
  intros H Hk Hj. induction j; [lia|].
  destruct (Nat.eq_dec k j) as [->|]; auto.
  simpl perm_of at 1. rewrite sw_ge by (try apply H; lia). apply IHj; lia.
Qed.

Record LUinv (N : nat) (A0 : nat -> nat -> R) (j : nat) (M : nat -> nat -> R) (piv : nat -> nat) : Prop := {
  inv_piv : forall k, (k < j)%nat -> (k <= piv k < N)%nat;
  inv_hi : forall i c, (i < N)%nat -> (j <= c < N)%nat -> M i c = A0 (perm_of piv j i) c;
  inv_lo : forall i c, (i < N)%nat -> (c < j)%nat ->
    A0 (perm_of piv j i) c =
    Rsum (fun k => M i k * M k c) (min i c) + (if Nat.leb i c then M i c else M i c * M c c);
  inv_diag : forall c, (c < j)%nat -> M c c <> 0
}.

Lemma lu_column_ok N A0 j M piv M' piv' : (j < N)%nat -> LUinv N A0 j M piv ->
  @lu_column R _ N (M, piv) j = Ok (M', piv') -> LUinv N A0 (S j) M' piv'.
Proof.
  intros Hj [Ip Ih Il Id] E. unfold lu_column in E.
  destruct (lu_upper_spec j M) as [U1 U2]. set (Mu := lu_upper j M) in *.
  pose proof (lu_lower_spec N j Mu ltac:(lia)) as HL.
  destruct (lu_lower N j Mu) as [[Ml ap] ip]. destruct HL as (L1 & L2 & L3 & L4).
  numR. rcase_in E; [discriminate|].
  destruct L4 as [[? _]|(Pap & Pip & Eap)]; [contradiction|].
  set (Ms := if Nat.eqb ip j then Ml else swap_rows N ip j Ml) in *.
  assert (HMs : forall i k, (k < N)%nat -> Ms i k = Ml (sw j ip i) k).
  { intros i k Hk. unfold Ms. destruct (Nat.eqb_spec ip j) as [->|Hn].
    - now rewrite sw_same.
    - rewrite swap_rows_spec by auto. nb; auto. }
  assert (Hpiv : Ms j j <> 0).
  { rewrite HMs by lia. unfold sw. rewrite Nat.eqb_refl. intros Hz. rewrite Hz, Rabs_R0 in Eap. lra. }
  inv_bind E. rewrite pydivR_ok in E0 by auto. injection E0 as <-. injection E as <- <-.
  assert (HM : forall i c, (c < N)%nat -> lu_scale N j (1 / Ms j j) Ms i c =
      if Nat.eqb c j && (Nat.ltb j i && Nat.ltb i N) then Ml (sw j ip i) j / Ms j j else Ml (sw j ip i) c).
  { intros i c Hc. rewrite lu_scale_spec. rewrite !HMs by lia. nb; auto. field; auto. rewrite HMs in Hpiv by lia; auto. }
  set (M' := lu_scale N j (1 / Ms j j) Ms) in *.
  assert (Ep : forall i, perm_of (vset piv j ip) (S j) i = perm_of piv j (sw j ip i)).
  { intros i. simpl. unfold vset at 2. rewrite Nat.eqb_refl.
    apply perm_of_ext. intros k Hk. unfold vset. nb; auto. }
  (* columns below j *)
  assert (Mlow : forall i c, (c < j)%nat -> Ml i c = M i c).
  { intros i c Hc. rewrite L1, U1 by lia. reflexivity. }
  (* rows above j of column j, and the part on and below the diagonal *)
  assert (Mcol1 : forall k, (k < j)%nat -> Ml k j = Mu k j) by (intros; apply L1; lia).
  constructor.
  - intros k Hk. unfold vset. nb. apply Ip; lia.
  - intros i c Hi Hc. rewrite Ep. rewrite HM by lia. nb; rewrite ?andb_false_r.
    rewrite L1 by lia. rewrite U1 by lia. apply Ih; try lia. apply sw_lt; lia.
  - intros i c Hi Hc. rewrite Ep.
    destruct (Nat.eq_dec c j) as [->|Hcj].
    + (* the new column *)
      destruct (Nat.ltb_spec i j) as [Hij|Hij].
      * rewrite sw_ge by lia. rewrite Nat.min_l by lia. nb.
        rewrite HM by lia. nb; rewrite ?andb_false_r. rewrite sw_ge by lia.
        rewrite Mcol1 by lia. rewrite U2 by lia. rewrite Ih by lia.
        rewrite (Rsum_ext (fun k => M' i k * M' k j) (fun k => M i k * Mu k j)).
        { ring. }
        intros k Hk. rewrite !HM by lia. nb; rewrite ?andb_false_r. rewrite !sw_ge by lia.
        rewrite Mlow, Mcol1 by lia. reflexivity.
      * rewrite Nat.min_r by lia.
        assert (Hs : (j <= sw j ip i < N)%nat) by (split; [apply sw_ge2; lia | apply sw_lt; lia]).
        rewrite <- Ih by lia.
        rewrite (Rsum_ext (fun k => M' i k * M' k j) (fun k => M (sw j ip i) k * Mu k j)).
        2:{ intros k Hk. rewrite !HM by lia. nb; rewrite ?andb_false_r. rewrite (sw_ge j ip k) by lia.
            rewrite Mlow, Mcol1 by lia. reflexivity. }
        specialize (L2 (sw j ip i) Hs). rewrite (U1 (sw j ip i) j) in L2 by lia.
        rewrite (Rsum_ext (fun k => Mu (sw j ip i) k * Mu k j) (fun k => M (sw j ip i) k * Mu k j)) in L2
          by (intros k Hk; rewrite (U1 (sw j ip i) k) by lia; reflexivity).
        assert (Mjj : M' j j = Ms j j).
        { rewrite HM by lia. rewrite HMs by lia. nb; rewrite ?andb_false_r; reflexivity. }
        destruct (Nat.leb_spec i j).
        -- assert (i = j) by lia; subst i. rewrite Mjj, HMs by lia. lra.
        -- rewrite Mjj. rewrite HM by lia. nb. 
           replace (Ml (sw j ip i) j / Ms j j * Ms j j) with (Ml (sw j ip i) j) by (field; auto). lra.
    + (* an earlier column *)
      assert (Hc' : (c < j)%nat) by lia.
      assert (E1 : forall i, (i < N)%nat -> M' i c = M (sw j ip i) c).
      { intros i' Hi'. rewrite HM by lia. nb; rewrite ?andb_false_r. apply Mlow; auto. }
      assert (E2 : forall k, (k < j)%nat -> M' i k = M (sw j ip i) k).
      { intros k Hk. rewrite HM by lia. nb; rewrite ?andb_false_r. apply Mlow; auto. }
      rewrite Il by (try apply sw_lt; lia).
      assert (Emin : min (sw j ip i) c = min i c).
      { destruct (Nat.lt_ge_cases i j). now rewrite sw_ge by lia.
        pose proof (sw_ge2 j ip i ltac:(lia) ltac:(lia)). lia. }
      rewrite Emin. f_equal.
      * apply Rsum_ext. intros k Hk. rewrite E2 by lia. rewrite (E1 k) by lia.
        rewrite (sw_ge j ip k) by lia. reflexivity.
      * rewrite (E1 i), (E1 c) by lia. rewrite (sw_ge j ip c) by lia.
        destruct (Nat.lt_ge_cases i j).
        { now rewrite sw_ge by lia. }
        { pose proof (sw_ge2 j ip i ltac:(lia) ltac:(lia)). nb. reflexivity. }
  - intros c Hc. rewrite HM by lia. destruct (Nat.eq_dec c j) as [->|].
    + rewrite HMs in Hpiv by lia. nb; rewrite ?andb_false_r; auto.
    + nb; rewrite ?andb_false_r. rewrite sw_ge by lia. rewrite Mlow by lia. apply Id; lia.
Qed.

Lemma lu_column_err N A0 j M piv e : (j < N)%nat -> LUinv N A0 j M piv ->
  @lu_column R _ N (M, piv) j = Err e ->
  e = ValueError /\ exists y, forall i, (i < N)%nat ->
    A0 (perm_of piv j i) j = Rsum (fun k => M i k * y k) (min i j) + (if Nat.ltb i j then y i else 0).
Proof.
  intros Hj [Ip Ih Il Id] E. unfold lu_column in E.
  destruct (lu_upper_spec j M) as [U1 U2]. set (Mu := lu_upper j M) in *.
  pose proof (lu_lower_spec N j Mu ltac:(lia)) as HL.
  destruct (lu_lower N j Mu) as [[Ml ap] ip]. destruct HL as (L1 & L2 & L3 & L4).
  numR. rcase_in E.
  - injection E as <-. split; auto. exists (fun k => Mu k j). intros i Hi. subst ap.
    destruct (Nat.ltb_spec i j).
    + rewrite Nat.min_l by lia. rewrite U2 by auto. rewrite Ih by lia. ring.
    + rewrite Nat.min_r by lia.
      assert (Z : Ml i j = 0).
      { specialize (L3 i ltac:(lia)). pose proof (Rabs_pos (Ml i j)).
        destruct (Req_dec (Ml i j) 0); auto. pose proof (Rabs_pos_lt _ H1). lra. }
      specialize (L2 i ltac:(lia)). rewrite Z in L2. rewrite (U1 i j) in L2 by lia.
      rewrite <- Ih by lia.
      rewrite (Rsum_ext (fun k => M i k * Mu k j) (fun k => Mu i k * Mu k j)). lra.
      intros k Hk. rewrite (U1 i k) by lia. reflexivity.
  - exfalso.
    destruct L4 as [[? _]|(Pap & Pip & Eap)]; [contradiction|].
    set (Ms := if Nat.eqb ip j then Ml else swap_rows N ip j Ml) in *.
    assert (Hpiv : Ms j j <> 0).
    { unfold Ms. destruct (Nat.eqb_spec ip j) as [->|Hn].
      - intros Hz. rewrite Hz, Rabs_R0 in Eap. lra.
      - rewrite swap_rows_spec by auto. nb. unfold sw; rewrite Nat.eqb_refl.
        intros Hz. rewrite Hz, Rabs_R0 in Eap. lra. }
    rewrite pydivR_ok in E by auto. discriminate.
Qed.

(** ** Whole factorisation *)
Lemma foldM_seq_inv {S} (f : S -> nat -> result S) (P : nat -> S -> Prop) n s0 :
  P O s0 ->
  (forall j s s', (j < n)%nat -> P j s -> f s j = Ok s' -> P (Datatypes.S j) s') ->
  forall s, foldM f (seq 0 n) s0 = Ok s -> P n s.
Proof.
  intros H0 Hs.
  assert (G : forall m j s0, (j + m = n)%nat -> P j s0 -> forall s, foldM f (seq j m) s0 = Ok s -> P n s).
  { induction m; intros j t Hj HP s E; simpl in E.
    - injection E as <-. replace n with j by lia. auto.
    - inv_bind E. eapply IHm; [| |exact E]; [lia|]. eapply Hs; [|exact HP|exact E0]. lia. }
  intros s. apply G; auto.
Qed.
Lemma foldM_seq_err {S} (f : S -> nat -> result S) (P : nat -> S -> Prop) n s0 e :
  P O s0 ->
  (forall j s s', (j < n)%nat -> P j s -> f s j = Ok s' -> P (Datatypes.S j) s') ->
  foldM f (seq 0 n) s0 = Err e -> exists j s, (j < n)%nat /\ P j s /\ f s j = Err e.
Proof.
  intros H0 Hs.
  assert (G : forall m j s0, (j + m = n)%nat -> P j s0 -> foldM f (seq j m) s0 = Err e ->
     exists j s, (j < n)%nat /\ P j s /\ f s j = Err e).
  { induction m; intros j t Hj HP E; simpl in E; [discriminate|].
    destruct (f t j) as [t'|e'] eqn:Et; simpl in E.
    - eapply IHm; [| |exact E]; [lia|]. eapply Hs; [|exact HP|exact Et]. lia.
    - exists j, t. splits; auto; [lia|congruence]. }
  apply G; auto.
Qed.

Lemma LUinv_0 N A0 : LUinv N A0 0 A0 (fun _ => O).
Proof. constructor; simpl; intros; try lia; auto. Qed.

Lemma inplace_LU_ok N A0 M piv : @inplace_LU R _ N A0 = Ok (M, piv) -> LUinv N A0 N M piv.
Proof.
  intros E. unfold inplace_LU in E.
  apply (foldM_seq_inv _ (fun j st => LUinv N A0 j (fst st) (snd st)) N) in E; auto.
  - apply LUinv_0.
  - intros j [M1 p1] [M2 p2] Hj HP Ec. eapply lu_column_ok; eauto.
Qed.

(** lower (unit) and upper factor held in one memory *)
Definition Lf (M : nat -> nat -> R) (i k : nat) : R :=
  if Nat.ltb k i then M i k else if Nat.eqb i k then 1 else 0.
Definition Uf (M : nat -> nat -> R) (k c : nat) : R := if Nat.ltb c k then 0 else M k c.

Lemma Rsum_trunc f n m : (m <= n)%nat -> (forall k, (m <= k < n)%nat -> f k = 0) -> Rsum f n = Rsum f m.
Proof.
  intros H Hz. replace n with (m + (n - m))%nat by lia. rewrite Rsum_app.
  rewrite (Rsum_zero (fun i => f (m + i)%nat)). ring. intros i Hi. apply Hz; lia.
Qed.

Lemma LU_product_upto N A0 j M piv i c n : LUinv N A0 j M piv -> (i < N)%nat -> (c < j)%nat -> (c < n)%nat ->
  Rsum (fun k => Lf M i k * Uf M k c) n = A0 (perm_of piv j i) c.
Proof.
  intros [Ip Ih Il Id] Hi Hc Hn. rewrite Il by auto.
  destruct (Nat.leb_spec i c).
  - rewrite Nat.min_l by lia.
    rewrite (Rsum_trunc _ n (S i)) by (try lia; intros k Hk; unfold Lf; nb; ring).
    simpl. f_equal.
    + apply Rsum_ext. intros k Hk. unfold Lf, Uf. nb; auto.
    + unfold Lf, Uf. nb. ring.
  - rewrite Nat.min_r by lia.
    rewrite (Rsum_trunc _ n (S c)) by (try lia; intros k Hk; unfold Uf; nb; ring).
    simpl. f_equal.
    + apply Rsum_ext. intros k Hk. unfold Lf, Uf. nb; auto.
    + unfold Lf, Uf. nb. ring.
Qed.

Lemma LU_product N A0 M piv i c : LUinv N A0 N M piv -> (i < N)%nat -> (c < N)%nat ->
  Rsum (fun k => Lf M i k * Uf M k c) N = A0 (perm_of piv N i) c.
Proof. intros H Hi Hc. eapply LU_product_upto; eauto. Qed.

(** upper triangular systems are solvable and have a trivial kernel *)
Lemma upper_solvable M j y : (forall c, (c < j)%nat -> M c c <> 0) ->
  exists x : nat -> R, forall k, (k < j)%nat -> Rsum (fun c => Uf M k c * x c) j = y k.
Proof.
  revert y. induction j; intros y H.
  - exists (fun _ => 0). intros; lia.
  - destruct (IHj (fun k => y k - M k j * (y j / M j j))) as [x Hx]. { intros; apply H; lia. }
    exists (fun c => if Nat.eqb c j then y j / M j j else x c). intros k Hk.
    simpl. rewrite Nat.eqb_refl.
    rewrite (Rsum_ext _ (fun c => Uf M k c * x c)) by (intros c Hc; nb; auto).
    destruct (Nat.eq_dec k j) as [->|].
    + rewrite Rsum_zero by (intros c Hc; unfold Uf; nb; ring).
      unfold Uf. nb. field. apply H; lia.
    + rewrite Hx by lia. unfold Uf. nb. ring.
Qed.
Lemma upper_kernel M j x : (forall c, (c < j)%nat -> M c c <> 0) ->
  (forall k, (k < j)%nat -> Rsum (fun c => Uf M k c * x c) j = 0) -> forall k, (k < j)%nat -> x k = 0.
Proof.
  intros Hd. revert x. induction j; intros x H k Hk; [lia|].
  assert (Xj : x j = 0).
  { specialize (H j ltac:(lia)). simpl in H.
    rewrite Rsum_zero in H by (intros c Hc; unfold Uf; nb; ring).
    unfold Uf in H. rewrite Nat.ltb_irrefl in H. rewrite Rplus_0_l in H.
    apply Rmult_integral in H. destruct H; auto. exfalso. apply (Hd j); auto; lia. }
  destruct (Nat.eq_dec k j) as [->|]; auto.
  apply IHj; auto; try lia.
  intros k' Hk'. specialize (H k' ltac:(lia)). simpl in H. rewrite Xj in H. lra.
Qed.
Lemma lower_kernel M N z : (forall i, (i < N)%nat -> Rsum (fun k => Lf M i k * z k) N = 0) ->
  forall k, (k < N)%nat -> z k = 0.
Proof.
  intros H k. induction k as [k IH] using (well_founded_induction lt_wf). intros Hk.
  specialize (H k Hk). rewrite (Rsum_trunc _ N (S k)) in H by (try lia; intros c Hc; unfold Lf; nb; ring).
  simpl in H. rewrite Rsum_zero in H by (intros c Hc; rewrite IH by lia; ring).
  unfold Lf in H. rewrite Nat.ltb_irrefl, Nat.eqb_refl in H. lra.
Qed.

Lemma Rsum_LUx M N x i :
  Rsum (fun c => Rsum (fun k => Lf M i k * Uf M k c) N * x c) N =
  Rsum (fun k => Lf M i k * Rsum (fun c => Uf M k c * x c) N) N.
Proof.
  rewrite (Rsum_ext _ (fun c => Rsum (fun k => Lf M i k * Uf M k c * x c) N))
    by (intros; rewrite Rsum_scal_r; auto).
  rewrite Rsum_swap. apply Rsum_ext. intros k Hk. rewrite <- Rsum_scal.
  apply Rsum_ext. intros; ring.
Qed.

(** success means trivial kernel *)
Lemma inplace_LU_injective N A0 M piv x : @inplace_LU R _ N A0 = Ok (M, piv) ->
  (forall i, (i < N)%nat -> Rsum (fun c => A0 i c * x c) N = 0) -> forall k, (k < N)%nat -> x k = 0.
Proof.
  intros E Hx. apply inplace_LU_ok in E. pose proof E as [Ip Ih Il Id].
  apply (upper_kernel M N); auto. apply (lower_kernel M N).
  intros i Hi. rewrite <- Rsum_LUx.
  rewrite (Rsum_ext _ (fun c => A0 (perm_of piv N i) c * x c))
    by (intros c Hc; rewrite (LU_product N A0) with (piv := piv); auto).
  apply Hx. apply perm_of_lt; auto.
Qed.

(** failure means non-trivial kernel *)
Lemma inplace_LU_err N A0 e : @inplace_LU R _ N A0 = Err e ->
  e = ValueError /\ exists x, (exists k, (k < N)%nat /\ x k <> 0) /\
    forall i, (i < N)%nat -> Rsum (fun c => A0 i c * x c) N = 0.
Proof.
  intros E. unfold inplace_LU in E.
  apply (foldM_seq_err _ (fun j st => LUinv N A0 j (fst st) (snd st)) N) in E.
  - destruct E as (j & [M piv] & Hj & HI & Ec). simpl in HI.
    destruct (lu_column_err N A0 j M piv e Hj HI Ec) as [-> [y Hy]]. split; auto.
    pose proof HI as [Ip Ih Il Id].
    destruct (upper_solvable M j y) as [x Hx]; auto.
    exists (fun c => if Nat.ltb c j then x c else if Nat.eqb c j then -1 else 0).
    split. { exists j. split; auto. nb. lra. }
    intros r Hr. destruct (perm_of_surj piv j N r Ip ltac:(lia) Hr) as [i [Hi <-]].
    rewrite (Rsum_trunc _ N (S j)) by (try lia; intros k Hk; nb; ring).
    simpl. nb.
    rewrite (Rsum_ext _ (fun c => Rsum (fun k => Lf M i k * Uf M k c) j * x c))
      by (intros c Hc; nb; rewrite (LU_product_upto N A0 j) with (piv := piv); auto).
    rewrite Hy by auto.
    rewrite (Rsum_ext _ (fun c => Rsum (fun k => Lf M i k * Uf M k c * x c) j))
      by (intros; rewrite Rsum_scal_r; auto).
    rewrite Rsum_swap.
    rewrite (Rsum_ext _ (fun k => Lf M i k * y k)).
    2:{ intros k Hk. rewrite <- (Hx k) by auto. rewrite <- Rsum_scal. apply Rsum_ext; intros; ring. }
    destruct (Nat.ltb_spec i j).
    + rewrite Nat.min_l by lia.
      rewrite (Rsum_trunc _ j (S i)) by (try lia; intros k Hk; unfold Lf; nb; ring).
      simpl. rewrite (Rsum_ext _ (fun k => M i k * y k)) by (intros k Hk; unfold Lf; nb; auto).
      unfold Lf; nb. ring.
    + rewrite Nat.min_r by lia.
      rewrite (Rsum_ext _ (fun k => M i k * y k)) by (intros k Hk; unfold Lf; nb; auto). ring.
  - apply LUinv_0.
  - intros j' [M1 p1] [M2 p2] Hj' HP Ec'. eapply lu_column_ok; eauto.
Qed.

(** ** Substitution *)
Lemma lu_forward_spec M piv N b0 : (forall k, (k < N)%nat -> (k <= piv k < N)%nat) ->
  let y := @lu_forward R _ M piv N b0 in
  forall i, (i < N)%nat -> y i = b0 (perm_of piv N i) - Rsum (fun k => M i k * y k) i.
Proof.
  intros Hp. unfold lu_forward.
  match goal with |- context [fold_left ?f (seq 0 N) _] => set (stp := f) end.
  assert (G : forall n, (n <= N)%nat ->
    let y := fold_left stp (seq 0 n) b0 in
    (forall i, (i < n)%nat -> y i = b0 (perm_of piv N i) - Rsum (fun k => M i k * y k) i) /\
    (forall i, (n <= i < N)%nat -> y i = b0 (perm_of piv n i))).
  { induction n; intros Hn; cbv zeta.
    - simpl. split; intros; [lia|auto].
    - rewrite seq_snoc, fold_left_app. destruct IHn as [I1 I2]; [lia|]. cbv zeta in I1, I2.
      set (y := fold_left stp (seq 0 n) b0) in *. cbn [fold_left Nat.add].
      pose proof (Hp n ltac:(lia)) as Hpn.
      unfold stp. rewrite sub_dot_R0. cbn [nmul NumR].
      set (y1 := vset y (piv n) (y n)).
      assert (Hy1 : forall k, (k < n)%nat -> y1 k = y k).
      { intros k Hk. unfold y1, vset. nb; auto. }
      set (v := y (piv n) - _).
      assert (Hv : v = b0 (perm_of piv N n) - Rsum (fun k => M n k * y k) n).
      { unfold v. f_equal.
        - rewrite I2 by lia. f_equal. rewrite (perm_of_stable piv N N n) by (auto; lia).
          simpl. unfold sw. rewrite Nat.eqb_refl. reflexivity.
        - apply Rsum_ext. intros k Hk. now rewrite Hy1. }
      split.
      + intros i Hi. unfold vset at 1. destruct (Nat.eqb_spec i n) as [->|].
        * rewrite Hv. f_equal. apply Rsum_ext. intros k Hk. unfold vset. nb. now rewrite Hy1.
        * rewrite Hy1, I1 by lia. f_equal. apply Rsum_ext. intros k Hk. unfold vset. nb.
          rewrite Hy1 by lia. auto.
      + intros i Hi. unfold vset. nb. unfold y1, vset, sw. simpl.
        destruct (Nat.eqb_spec i (piv n)) as [->|].
        * rewrite I2 by lia. f_equal. unfold sw. nb; auto; congruence.
        * rewrite I2 by lia. f_equal. unfold sw. nb; auto. }
  destruct (G N (le_n _)) as [G1 _]. exact G1.
Qed.

Lemma lu_backward_spec M N b0 : (forall c, (c < N)%nat -> M c c <> 0) ->
  exists x, @lu_backward R _ M N b0 = Ok x /\
    forall k, (k < N)%nat -> Rsum (fun c => Uf M k c * x c) N = b0 k.
Proof.
  intros Hd. unfold lu_backward.
  assert (G : forall n b, (n <= N)%nat -> 
     (forall k, (k < n)%nat -> b k = b0 k) ->
     (forall k, (n <= k < N)%nat -> Rsum (fun c => Uf M k c * b c) N = b0 k) ->
     exists x, foldM (fun b i =>
           q <- pydiv (sub_dot (fun j => nmul (M i j) (b j)) (seq (i + 1) (N - (i + 1))) (b i)) (M i i) ;;
           Ok (vset b i q)) (rev (seq 0 n)) b = Ok x /\
       forall k, (k < N)%nat -> Rsum (fun c => Uf M k c * x c) N = b0 k).
  { induction n; intros b Hn Hlo Hhi.
    - simpl. exists b. split; auto. intros; apply Hhi; lia.
    - rewrite seq_snoc, rev_app_distr. cbn [rev app Nat.add foldM].
      rewrite pydivR_ok by (apply Hd; lia). cbn [bind].
      rewrite sub_dot_R. numR.
      set (q := (b n - _) / M n n).
      apply IHn; try lia.
      + intros k Hk. unfold vset. nb. apply Hlo; lia.
      + intros k Hk. destruct (Nat.eq_dec k n) as [->|].
        * replace N with (n + (1 + (N - (n + 1))))%nat at 1 by lia.
          rewrite Rsum_app. rewrite (Rsum_zero (fun c => _ * _)) by (intros c Hc; unfold Uf; nb; ring).
          rewrite Rsum_app. simpl Rsum at 1.
          rewrite (Rsum_ext (fun i => Uf M n (n + (1 + i)) * _) (fun i => M n (n + 1 + i)%nat * b (n + 1 + i)%nat)).
          2:{ intros i Hi. unfold Uf, vset. nb. replace (n + (1 + i))%nat with (n + 1 + i)%nat by lia. auto. }
          unfold Uf, vset. nb. replace (n + 0)%nat with n by lia. unfold q. rewrite Hlo by lia.
          field. apply Hd; lia.
        * rewrite <- (Hhi k) by lia. apply Rsum_ext. intros c Hc.
          unfold Uf, vset. nb; auto; ring. }
  apply G; auto. intros; lia.
Qed.

Lemma solve_from_lu_spec N A0 M piv b0 : LUinv N A0 N M piv ->
  exists x, @solve_from_lu R _ M piv N b0 = Ok x /\
    forall i, (i < N)%nat -> Rsum (fun c => A0 i c * x c) N = b0 i.
Proof.
  intros HI. pose proof HI as [Ip Ih Il Id]. unfold solve_from_lu.
  destruct (lu_backward_spec M N (lu_forward M piv N b0) Id) as [x [E Hx]].
  exists x. split; auto. intros r Hr.
  destruct (perm_of_surj piv N N r Ip ltac:(lia) Hr) as [i [Hi <-]].
  rewrite (Rsum_ext _ (fun c => Rsum (fun k => Lf M i k * Uf M k c) N * x c))
    by (intros c Hc; rewrite (LU_product N A0) with (piv := piv); auto).
  rewrite Rsum_LUx.
  rewrite (Rsum_ext _ (fun k => Lf M i k * lu_forward M piv N b0 k)) by (intros k Hk; rewrite Hx; auto).
  rewrite (Rsum_trunc _ N (S i)) by (try lia; intros k Hk; unfold Lf; nb; ring).
  simpl. rewrite (Rsum_ext _ (fun k => M i k * lu_forward M piv N b0 k)) by (intros k Hk; unfold Lf; nb; auto).
  unfold Lf; nb. pose proof (lu_forward_spec M piv N b0 Ip i Hi) as F; cbv zeta in F. lra.
Qed.
