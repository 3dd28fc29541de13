(** transpose, products, elementwise operations. *)
From Coq Require Import List Bool Reals Arith ZArith QArith Lra Lia.
From Verif Require Import Base Sums Spec_Mat Model_Arrays Proofs_LU Proofs_Arrays.
Import ListNotations.
Local Open Scope R_scope.

(** ** transpose (any element type) *)
Lemma heads_len {A} (rows : list (list A)) n : Forall (fun r => length r = S n) rows ->
  length (heads rows) = length rows.
Proof.
  induction 1 as [|r l H F IH]; auto. destruct r as [|x r]; simpl in *; [discriminate|]. now rewrite IH.
Qed.
Lemma heads_nth {A} (rows : list (list A)) n i : Forall (fun r => length r = S n) rows ->
  nth_error (heads rows) i = entry rows i 0.
Proof.
  intros F. revert i. induction F as [|r l H F IH]; intros i.
  - unfold entry. now destruct i.
  - destruct r as [|x r]; simpl in H; [discriminate|]. unfold heads. simpl. destruct i; simpl; auto. apply IH.
Qed.
Lemma tails_forall {A} (rows : list (list A)) n : Forall (fun r => length r = S n) rows ->
  Forall (fun r => length r = n) (map (@tl A) rows).
Proof.
  induction 1 as [|r l H F IH]; simpl; constructor; auto. destruct r; simpl in *; lia.
Qed.
Lemma entry_tails {A} (rows : list (list A)) n i j : Forall (fun r => length r = S n) rows ->
  entry (map (@tl A) rows) i j = entry rows i (S j).
Proof.
  intros F. unfold entry. rewrite nth_error_map. destruct (nth_error rows i) as [r|] eqn:E; simpl; auto.
  rewrite Forall_forall in F. apply nth_error_In in E. apply F in E. destruct r; simpl in *; [lia|auto].
Qed.
Lemma zip_star_spec {A} n (rows : list (list A)) : Forall (fun r => length r = n) rows ->
  is_mat n (length rows) (zip_star n rows) /\
  forall i j, entry (zip_star n rows) j i = entry rows i j.
Proof.
  revert rows. induction n; intros rows F.
  - simpl. split; [split; auto|]. intros i j. unfold entry.
    rewrite (proj2 (nth_error_None [] j)) by (simpl; lia).
    destruct (nth_error rows i) as [r|] eqn:E; auto. apply nth_error_In in E.
    rewrite Forall_forall in F. apply F in E. destruct r; simpl in *; [now destruct j | lia].
  - cbn [zip_star]. destruct (IHn (map (@tl A) rows) (tails_forall _ _ F)) as [[L F'] E].
    rewrite map_length in F'. split.
    + split. { simpl. now rewrite L. } constructor; auto. now apply (heads_len _ n).
    + intros i [|j].
      * unfold entry at 1. simpl. now apply (heads_nth _ n).
      * transitivity (entry (map (@tl A) rows) i j).
        { rewrite <- E. reflexivity. }
        now apply (entry_tails _ n).
Qed.

Lemma nth_error_ext {A} (l l' : list A) : (forall i, nth_error l i = nth_error l' i) -> l = l'.
Proof.
  revert l'. induction l as [|x l IH]; intros [|y l'] H; auto.
  - specialize (H 0%nat); discriminate.
  - specialize (H 0%nat); discriminate.
  - f_equal. { specialize (H 0%nat). now injection H. } apply IH. intros i. exact (H (S i)).
Qed.
Lemma entry_ext {A} m n (M M' : list (list A)) : is_mat m n M -> is_mat m n M' ->
  (forall i j, entry M i j = entry M' i j) -> M = M'.
Proof.
  revert M M'. induction m; intros M M' [L F] [L' F'] E.
  - destruct M, M'; simpl in *; try lia; auto.
  - destruct M as [|r M]; [simpl in L; lia|]. destruct M' as [|r' M']; [simpl in L'; lia|].
    inversion F; subst. inversion F'; subst. f_equal.
    + apply nth_error_ext. intros j. apply (E 0%nat j).
    + apply IHm; try split; auto. intros i j. apply (E (S i) j).
Qed.

Lemma transpose_rect {A} m n (M : list (list A)) : is_mat m n M -> (0 < m)%nat -> (0 < n)%nat ->
  exists T, transpose M = Ok T /\ is_mat n m T /\ (forall i j, entry T j i = entry M i j).
Proof.
  intros [L F] Hm Hn. destruct M as [|r M]; [simpl in L; lia|].
  pose proof F as F0. inversion F as [|? ? Hr F1]; subst. destruct r as [|x r]; [simpl in Hn; lia|].
  unfold transpose. rewrite (proj2 (same_len_forall _ _)) by exact F0. cbn [negb].
  destruct (zip_star_spec (length (x :: r)) ((x :: r) :: M) F0) as [H1 H2].
  eexists; split; [reflexivity|]. split; auto.
Qed.
Lemma transpose_involutive {A} m n (M : list (list A)) : is_mat m n M -> (0 < m)%nat -> (0 < n)%nat ->
  (T <- transpose M ;; transpose T) = Ok M.
Proof.
  intros H Hm Hn. destruct (transpose_rect m n M H Hm Hn) as (T & E & HT & EE). rewrite E. cbn [bind].
  destruct (transpose_rect n m T HT Hn Hm) as (T' & E' & HT' & EE'). rewrite E'. f_equal.
  apply (entry_ext m n); auto. intros i j. rewrite EE'. apply EE.
Qed.
Lemma transpose_ragged {A} (x : A) r M : ~ Forall (fun row => length row = length (x :: r)) M ->
  transpose ((x :: r) :: M) = Err ValueError.
Proof.
  intros H. unfold transpose. destruct (forallb _ _) eqn:E; auto. exfalso. apply H.
  apply same_len_forall in E. inversion E; auto.
Qed.

(** ** products *)
Lemma nth_forall_len {A} (M : list (list A)) n : (forall i, (i < length M)%nat -> length (nth i M []) = n) ->
  Forall (fun r => length r = n) M.
Proof.
  intros H. apply Forall_forall. intros r Hr. apply (In_nth _ _ []) in Hr. destruct Hr as [i [Hi <-]]. auto.
Qed.

Lemma matrix_multiply_ok m p n MA MB : is_mat m p MA -> is_mat p n MB ->
  (0 < m)%nat -> (0 < p)%nat -> (0 < n)%nat ->
  exists MC, matrix_multiply MA MB = Ok MC /\ is_product m p n MA MB MC.
Proof.
  intros HA HB Hm Hp Hn. unfold matrix_multiply.
  pose proof (is_mat_row _ _ _ 0 HA Hm) as RA. pose proof (is_mat_row _ _ _ 0 HB Hp) as RB.
  destruct HA as [LA FA]. destruct HB as [LB FB].
  assert (NA : no_entries MA = false).
  { destruct MA as [|[|] ]; simpl in *; auto; lia. }
  assert (NB : no_entries MB = false).
  { destruct MB as [|[|] ]; simpl in *; auto; lia. }
  rewrite NA, NB. cbn [orb]. rewrite RA, RB, LA, LB.
  rewrite !(proj2 (same_len_forall _ _)) by auto. rewrite Nat.eqb_refl. cbn [negb].
  eexists; split; [reflexivity|].
  match goal with |- is_product _ _ _ _ _ ?X => change X with (mk m n (fun i j => sum_to (fun k => nmul (mat_at MA i k) (mat_at MB k j)) p)) end.
  split; [apply mk_mat|]. intros i j Hi Hj. rewrite mk_ent by auto. rewrite sum_to_R.
  apply Rsum_ext. intros k Hk. now rewrite !mat_at_ent.
Qed.

Lemma matrix_multiply_err MA MB :
  ~ (exists m p n, (0 < m)%nat /\ (0 < p)%nat /\ (0 < n)%nat /\ is_mat m p MA /\ is_mat p n MB) ->
  @matrix_multiply R _ MA MB = Err ValueError.
Proof.
  intros H. unfold matrix_multiply.
  destruct (no_entries MA) eqn:NA; auto. destruct (no_entries MB) eqn:NB; auto. cbn [orb].
  destruct (forallb (same_len (length (nth 0 MA []))) MA) eqn:EA; auto. cbn [negb].
  destruct (Nat.eqb_spec (length MB) (length (nth 0 MA []))) as [EL|]; auto. cbn [negb].
  destruct (forallb (same_len (length (nth 0 MB []))) MB) eqn:EB; auto. cbn [negb].
  exfalso. apply H. exists (length MA), (length (nth 0 MA [])), (length (nth 0 MB [])).
  apply same_len_forall in EA, EB.
  destruct MA as [|[|] ]; simpl in NA; try discriminate. destruct MB as [|[|] ]; simpl in NB; try discriminate.
  splits; try (simpl; lia); try (split; auto).
Qed.

Lemma is_product_unique m p n MA MB C C' : is_product m p n MA MB C -> is_product m p n MA MB C' -> C = C'.
Proof.
  intros [H E] [H' E']. apply (mat_ext m n); auto. intros i j Hi Hj. now rewrite E, E'.
Qed.
Lemma is_product_assoc m p q n MA MB MC AB BC X Y :
  is_product m p q MA MB AB -> is_product m q n AB MC X ->
  is_product p q n MB MC BC -> is_product m p n MA BC Y -> X = Y.
Proof.
  intros [HAB EAB] [HX EX] [HBC EBC] [HY EY]. apply (mat_ext m n); auto. intros i j Hi Hj.
  rewrite EX, EY by auto.
  rewrite (Rsum_ext _ (fun k => Rsum (fun l => ent MA i l * ent MB l k * ent MC k j) p)).
  2:{ intros k Hk. rewrite EAB by auto. rewrite Rsum_scal_r. reflexivity. }
  rewrite Rsum_swap. apply Rsum_ext. intros l Hl. rewrite EBC by auto. rewrite <- Rsum_scal.
  apply Rsum_ext. intros; ring.
Qed.

Lemma eye_ok n : (0 < n)%nat -> exists I, @eye R _ (Z.of_nat n) = Ok I /\ is_identity n I.
Proof.
  intros Hn. unfold eye. destruct (Z.leb_spec (Z.of_nat n) 0); [lia|].
  rewrite Nat2Z.id. eexists; split; [reflexivity|].
  assert (G : forall i, (i < n)%nat -> length (upd (repeat (@n0 R _) n) i n1) = n)
    by (intros; rewrite upd_length, repeat_length; auto).
  split.
  - split. { now rewrite map_length, seq_length. } apply Forall_forall. intros r Hr.
    apply in_map_iff in Hr. destruct Hr as [i [<- Hi]]. apply in_seq in Hi. apply G; lia.
  - intros i j Hi Hj. unfold ent. rewrite nth_map_seq0 by auto. unfold delta.
    destruct (Nat.eqb_spec i j) as [->|Hn'].
    + rewrite upd_nth_eq by (rewrite repeat_length; auto). apply n1R.
    + rewrite upd_nth_neq by auto. rewrite (nth_indep _ 0 (@n0 R _)) by (rewrite repeat_length; auto).
      rewrite nth_repeat. apply n0R.
Qed.
Lemma identity_left m n I M : is_identity m I -> is_mat m n M -> is_product m m n I M M.
Proof.
  intros [HI EI] HM. split; auto. intros i j Hi Hj.
  rewrite (Rsum_single _ m i); auto.
  - rewrite EI by auto. unfold delta. rewrite Nat.eqb_refl. ring.
  - intros k Hk Hn. rewrite EI by auto. unfold delta. nb. ring.
Qed.
Lemma identity_right m n I M : is_identity n I -> is_mat m n M -> is_product m n n M I M.
Proof.
  intros [HI EI] HM. split; auto. intros i j Hi Hj.
  rewrite (Rsum_single _ n j); auto.
  - rewrite EI by auto. unfold delta. rewrite Nat.eqb_refl. ring.
  - intros k Hk Hn. rewrite EI by auto. unfold delta. nb. ring.
Qed.

Lemma matrix_vector_dot_ok m n M x : is_mat m n M -> length x = n ->
  exists y, matrix_vector_dot M x = Ok y /\ length y = m /\
    forall i, (i < m)%nat -> vent y i = Rsum (fun k => ent M i k * vent x k) n.
Proof.
  intros [L F] Lx. unfold matrix_vector_dot. rewrite Lx.
  rewrite (proj2 (same_len_forall _ _)) by auto. cbn [negb].
  eexists; split; [reflexivity|]. split. { now rewrite map_length. }
  intros i Hi. unfold vent at 1.
  rewrite (nth_indep _ 0 ((fun row => sum_to (fun i0 => nmul (nth i0 row n0) (nth i0 x n0)) n) []))
    by (rewrite map_length; lia).
  rewrite (map_nth (fun row => sum_to (fun i0 => nmul (nth i0 row n0) (nth i0 x n0)) n)).
  rewrite sum_to_R. apply Rsum_ext. intros k Hk. unfold ent, vent. rewrite n0R. reflexivity.
Qed.
Lemma matrix_vector_dot_err (M : list (list R)) x : ~ Forall (fun r => length r = length x) M ->
  matrix_vector_dot M x = Err ValueError.
Proof.
  intros H. unfold matrix_vector_dot. destruct (forallb _ _) eqn:E; auto.
  apply same_len_forall in E. contradiction.
Qed.
Lemma dot_product_ok (a b : list R) : 
  (length a = length b -> dot_product a b = Ok (Rsum (fun i => vent a i * vent b i) (length a))) /\
  (length a <> length b -> dot_product a b = Err ValueError).
Proof.
  unfold dot_product. split; intros H.
  - rewrite (proj2 (Nat.eqb_eq _ _) H). cbn [negb]. f_equal. rewrite sum_to_R.
    apply Rsum_ext. intros; unfold vent; rewrite n0R; reflexivity.
  - rewrite (proj2 (Nat.eqb_neq _ _) H). reflexivity.
Qed.
(** (A B) x = A (B x) *)
Lemma multiply_vector_compat m p n MA MB MC x y z w :
  is_product m p n MA MB MC ->
  length y = p -> (forall i, (i < p)%nat -> vent y i = Rsum (fun k => ent MB i k * vent x k) n) ->
  length z = m -> (forall i, (i < m)%nat -> vent z i = Rsum (fun k => ent MA i k * vent y k) p) ->
  length w = m -> (forall i, (i < m)%nat -> vent w i = Rsum (fun k => ent MC i k * vent x k) n) ->
  z = w.
Proof.
  intros [HC EC] Ly Hy Lz Hz Lw Hw. apply (vec_ext m); auto. intros i Hi. rewrite Hz, Hw by auto.
  symmetry.
  rewrite (Rsum_ext _ (fun k => Rsum (fun l => ent MA i l * ent MB l k * vent x k) p)).
  2:{ intros k Hk. rewrite EC by auto. rewrite Rsum_scal_r. reflexivity. }
  rewrite Rsum_swap. apply Rsum_ext. intros l Hl. rewrite Hy by auto. rewrite <- Rsum_scal.
  apply Rsum_ext. intros; ring.
Qed.

(** ** row and column sums, elementwise operations *)
Lemma sum_matrix_rows_ok m n M : is_mat m n M -> (0 < m)%nat -> (0 < n)%nat ->
  exists y, sum_matrix_rows M = Ok y /\ length y = m /\
    forall i, (i < m)%nat -> vent y i = Rsum (fun k => ent M i k) n.
Proof.
  intros HM Hm Hn. pose proof (is_mat_row _ _ _ 0 HM Hm) as RA. pose proof HM as [L F].
  unfold sum_matrix_rows.
  assert (NA : no_entries M = false) by (destruct M as [|[|] ]; simpl in *; auto; lia).
  rewrite NA, RA, (proj2 (same_len_forall _ _)) by auto. cbn [negb].
  eexists; split; [reflexivity|]. split. { now rewrite map_length. }
  intros i Hi. unfold vent. rewrite (nth_indep _ 0 ((fun row => fold_left nadd row (@n0 R _)) []))
    by (rewrite map_length; lia).
  rewrite (map_nth (fun row => fold_left nadd row (@n0 R _))). rewrite n0R.
  change (@nadd R _) with Rplus. rewrite fold_left_Rplus, lsum_Rsum, Rplus_0_l.
  rewrite (is_mat_row m n) by auto. reflexivity.
Qed.
Lemma combine_add_len (l1 l2 : list R) : length l1 = length l2 ->
  length (map (fun '(r, v) => nadd r v) (combine l1 l2)) = length l1.
Proof. intros; rewrite map_length, combine_length; lia. Qed.
Lemma combine_op_nth (op : R -> R -> R) (l1 l2 : list R) i : length l1 = length l2 -> (i < length l1)%nat ->
  nth i (map (fun '(r, v) => op r v) (combine l1 l2)) 0 = op (nth i l1 0) (nth i l2 0).
Proof.
  intros H Hi. set (f := fun '(r, v) => op r v).
  rewrite (nth_indep _ 0 (f (0, 0))) by (rewrite map_length, combine_length; lia).
  rewrite (map_nth f). rewrite combine_nth by auto. reflexivity.
Qed.
Lemma sum_cols_fold n M acc : Forall (fun r => length r = n) M -> length acc = n ->
  let y := fold_left (fun res row => map (fun '(r, v) => nadd r v) (combine res row)) M acc in
  length y = n /\ forall j, (j < n)%nat -> vent y j = vent acc j + Rsum (fun i => ent M i j) (length M).
Proof.
  revert acc. induction M as [|r M IH]; intros acc F La; cbv zeta.
  - simpl. split; auto. intros; ring.
  - inversion F as [|? ? Hr F1]; subst. cbn [fold_left].
    destruct (IH (map (fun '(r, v) => nadd r v) (combine acc r)) F1) as [I1 I2].
    { rewrite combine_add_len; lia. }
    cbv zeta in I1, I2. split; auto. intros j Hj. rewrite I2 by auto. cbn [length].
    rewrite Rsum_head. unfold vent at 1. rewrite (combine_op_nth nadd) by lia. 
    change (ent (r :: M) 0 j) with (nth j r 0).
    change (fun i => ent (r :: M) (S i) j) with (fun i => ent M i j). unfold vent.
    change (@nadd R _) with Rplus. ring.
Qed.
Lemma sum_matrix_cols_ok m n M : is_mat m n M -> (0 < m)%nat -> (0 < n)%nat ->
  exists y, sum_matrix_cols M = Ok y /\ length y = n /\
    forall j, (j < n)%nat -> vent y j = Rsum (fun i => ent M i j) m.
Proof.
  intros HM Hm Hn. pose proof (is_mat_row _ _ _ 0 HM Hm) as RA. pose proof HM as [L F].
  unfold sum_matrix_cols.
  assert (NA : no_entries M = false) by (destruct M as [|[|] ]; simpl in *; auto; lia).
  rewrite NA, RA, (proj2 (same_len_forall _ _)) by auto. cbn [negb].
  destruct (sum_cols_fold n M (repeat n0 n) F (repeat_length _ _)) as [H1 H2].
  eexists; split; [reflexivity|]. split; auto. intros j Hj. rewrite H2 by auto.
  unfold vent. rewrite (nth_indep _ 0 (@n0 R _)) by (rewrite repeat_length; auto).
  rewrite nth_repeat, n0R, L. ring.
Qed.

Lemma zip_rows_ok op n MA MB : length MA = length MB ->
  Forall (fun r => length r = n) MA -> Forall (fun r => length r = n) MB ->
  exists C, @zip_rows R op MA MB = Ok C /\ is_mat (length MA) n C /\
    forall i j, (i < length MA)%nat -> (j < n)%nat -> ent C i j = op (ent MA i j) (ent MB i j).
Proof.
  revert MB. induction MA as [|ra MA IH]; intros [|rb MB] L FA FB; simpl in L; try lia.
  - exists []. split; auto. split; [split; auto|]. simpl. intros; lia.
  - inversion FA as [|? ? HA FA0]. inversion FB as [|? ? HB FB0].  subst x l x0 l0.
    destruct (IH MB ltac:(lia) FA0 FB0) as (C & E & HC & EC).
    cbn [zip_rows]. rewrite HA, HB, Nat.eqb_refl. cbn [negb]. rewrite E. cbn [bind].
    eexists; split; [reflexivity|]. split.
    + destruct HC as [LC FC]. split; [simpl; lia|]. constructor; auto.
      rewrite map_length, combine_length. lia.
    + intros [|i] j Hi Hj.
      * unfold ent. cbn [nth]. apply combine_op_nth; lia.
      * unfold ent. cbn [nth]. apply EC; simpl in *; lia.
Qed.
Lemma zip_rows_ok_inv op MA MB C : @zip_rows R op MA MB = Ok C -> length MA = length MB ->
  forall i, (i < length MA)%nat -> length (nth i MA []) = length (nth i MB []).
Proof.
  revert MB C. induction MA as [|ra MA IH]; intros [|rb MB] C E L; simpl in L; try lia.
  - cbn [zip_rows] in E. destruct (Nat.eqb_spec (length ra) (length rb)); [|discriminate]. cbn [negb] in E.
    inv_bind E. intros [|i] Hi; simpl; auto. eapply IH; eauto. simpl in Hi; lia.
Qed.
Lemma elementwise_ok op m n MA MB : is_mat m n MA -> is_mat m n MB -> (0 < m)%nat -> (0 < n)%nat ->
  exists C, @elementwise R op MA MB = Ok C /\ is_mat m n C /\
    forall i j, (i < m)%nat -> (j < n)%nat -> ent C i j = op (ent MA i j) (ent MB i j).
Proof.
  intros [LA FA] [LB FB] Hm Hn. unfold elementwise.
  destruct (zip_rows_ok op n MA MB ltac:(lia) FA FB) as (C & E & HC & EC).
  exists C. rewrite <- LA. split; [|split; auto].
  destruct MA as [|ra MA]; [simpl in LA; lia|]. destruct MB as [|rb MB]; [simpl in LB; lia|].
  inversion FA as [|? ? HA FA']. inversion FB as [|? ? HB FB'].
  rewrite LA, LB, HA, HB, !Nat.eqb_refl. cbn [negb orb].
  destruct (Nat.eqb_spec n 0); [lia|]. exact E.
Qed.
(** the result exists only when the shapes agree row by row *)
Lemma elementwise_shape op MA MB C : @elementwise R op MA MB = Ok C ->
  length MA = length MB /\ MA <> [] /\
  forall i, (i < length MA)%nat -> length (nth i MA []) = length (nth i MB []).
Proof.
  unfold elementwise. destruct MA as [|ra MA]; [discriminate|]. destruct MB as [|rb MB]; [discriminate|].
  destruct (Nat.eqb_spec (length (ra :: MA)) (length (rb :: MB))) as [EL|]; [|discriminate]. cbn [negb orb].
  destruct (Nat.eqb_spec (length ra) (length rb)); [|discriminate]. cbn [negb orb].
  destruct (Nat.eqb_spec (length ra) 0); [discriminate|]. intros E.
  splits; auto; try discriminate. intros i Hi. eapply zip_rows_ok_inv; eauto.
Qed.
Lemma zip_rows_err op MA MB e : @zip_rows R op MA MB = Err e -> e = ValueError.
Proof.
  revert MB e; induction MA as [|ra MA IH]; intros [|rb MB] e; cbn [zip_rows]; try discriminate.
  destruct (Nat.eqb (length ra) (length rb)); cbn [negb]; [|congruence].
  destruct (zip_rows op MA MB) eqn:E; cbn [bind]; [discriminate|]. intros [= <-]. eauto.
Qed.
Lemma elementwise_err op MA MB e : @elementwise R op MA MB = Err e -> e = ValueError.
Proof.
  unfold elementwise. destruct MA; [congruence|]. destruct MB; [congruence|].
  destruct (_ || _); [congruence|]. apply zip_rows_err.
Qed.

Lemma mapM_map {A B} (f : A -> result B) g l : (forall x, In x l -> f x = Ok (g x)) -> mapM f l = Ok (map g l).
Proof.
  induction l; simpl; intros H; auto. rewrite H by auto. simpl. rewrite IHl by auto. reflexivity.
Qed.
Lemma map_map_mat m n (M : list (list R)) f : is_mat m n M ->
  is_mat m n (map (map f) M) /\ forall i j, (i < m)%nat -> (j < n)%nat -> ent (map (map f) M) i j = f (ent M i j).
Proof.
  intros HM. pose proof HM as [L F]. split.
  - split. { now rewrite map_length. } apply Forall_forall. intros r Hr. apply in_map_iff in Hr.
    destruct Hr as [r0 [<- Hr]]. rewrite Forall_forall in F. rewrite map_length. auto.
  - intros i j Hi Hj. unfold ent. change (@nil R) with (map f []) at 1. rewrite map_nth.
    rewrite (nth_indep _ 0 (f 0)). { apply map_nth. }
    rewrite map_length, (is_mat_row m n); auto.
Qed.
Lemma scalar_multiply_ok m n s M : is_mat m n M -> (0 < m)%nat -> (0 < n)%nat ->
  exists C, scalar_multiply_matrix s M = Ok C /\ is_mat m n C /\
    forall i j, (i < m)%nat -> (j < n)%nat -> ent C i j = s * ent M i j.
Proof.
  intros HM Hm Hn. pose proof (is_mat_row _ _ _ 0 HM Hm) as RA. unfold scalar_multiply_matrix.
  assert (NA : no_entries M = false) by (destruct HM; destruct M as [|[|] ]; simpl in *; auto; lia).
  rewrite NA. eexists; split; [reflexivity|]. apply (map_map_mat m n M (fun v => s * v)); auto.
Qed.
Lemma scalar_divide_ok m n s M : is_mat m n M -> (0 < m)%nat -> (0 < n)%nat -> s <> 0 ->
  exists C, scalar_divide_matrix s M = Ok C /\ is_mat m n C /\
    forall i j, (i < m)%nat -> (j < n)%nat -> ent C i j = ent M i j / s.
Proof.
  intros HM Hm Hn Hs. pose proof (is_mat_row _ _ _ 0 HM Hm) as RA. unfold scalar_divide_matrix.
  assert (NA : no_entries M = false) by (destruct HM; destruct M as [|[|] ]; simpl in *; auto; lia).
  numR. destruct (Reqb s 0) eqn:E; [apply Reqb_true in E; contradiction|]. rewrite NA.
  rewrite (mapM_map _ (map (fun v => v / s))).
  - eexists; split; [reflexivity|]. apply (map_map_mat m n M (fun v => v / s)); auto.
  - intros r Hr. apply (mapM_map _ (fun v => v / s)). intros v Hv. apply pydivR_ok; auto.
Qed.
