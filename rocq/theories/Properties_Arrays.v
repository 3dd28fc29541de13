(** Theorems C07-C14: matrices, linear systems, sorting.  Vocabulary in Spec_Mat:
    [is_mat m n M]: m rows of n entries; [ent M i j]: entry; [solves m n A x b]: A x = b;
    [is_product m p n A B C]: C = A B entrywise; [is_identity n I]; [delta i j]: Kronecker;
    [singular n A]: A sends a non-zero vector to 0; [determinant n]: cofactor expansion;
    [two_sided n A X]: A X = I and X A = I. *)
From Coq Require Import List Bool Reals Arith ZArith QArith Lra Lia Permutation.
From Verif Require Import Base Sums Spec_Mat Model_Arrays Proofs_LU Proofs_Arrays Proofs_Arrays2
  Proofs_Arrays3 Proofs_Arrays4 Proofs_Arrays5.
Import ListNotations.
Local Open Scope R_scope.

(** ** C07 *)
Theorem C07_transpose_entries : forall (A : Type) m n (M : list (list A)),
  is_mat m n M -> (0 < m)%nat -> (0 < n)%nat ->
  exists T, transpose M = Ok T /\ is_mat n m T /\ forall i j, entry T j i = entry M i j.
Proof. exact @transpose_rect. Qed.
Theorem C07_transpose_involutive : forall (A : Type) m n (M : list (list A)),
  is_mat m n M -> (0 < m)%nat -> (0 < n)%nat -> (T <- transpose M ;; transpose T) = Ok M.
Proof. exact @transpose_involutive. Qed.
Theorem C07_transpose_ragged : forall (A : Type) (x : A) r M,
  (exists row, In row M /\ length row <> length (x :: r)) -> transpose ((x :: r) :: M) = Err ValueError.
Proof.
  intros A x r M [row [Hin Hl]]. apply transpose_ragged. intros F. rewrite Forall_forall in F. auto.
Qed.
Theorem C07_transpose_empty : forall A : Type, @transpose A [] = Ok [].
Proof. reflexivity. Qed.
(** "a ragged matrix raises ValueError" is false when the first row is the empty one:
    every later row is silently dropped *)
Theorem C07_ragged_first_row_empty_refuted : forall (A : Type) (x : A),
  transpose [[]; [x]] = Ok [] /\ exists row, In row [[]; [x]] /\ length row <> length (@nil A).
Proof. intros; split; [reflexivity|]. exists [x]. simpl; split; auto. Qed.
Example C07_ex : transpose [[1;2;3];[4;5;6]]%nat = Ok [[1;4];[2;5];[3;6]]%nat /\ is_mat 2 3 [[1;2;3];[4;5;6]]%nat.
Proof. split; [reflexivity | split; auto]. Qed.
Example C07_ex_ragged : transpose [[1;2;3];[4;5]]%nat = Err ValueError.
Proof. reflexivity. Qed.

(** ** C08 *)
Theorem C08_matrix_multiply : forall m p n MA MB,
  is_mat m p MA -> is_mat p n MB -> (0 < m)%nat -> (0 < p)%nat -> (0 < n)%nat ->
  exists MC, matrix_multiply MA MB = Ok MC /\ is_product m p n MA MB MC.
Proof. exact matrix_multiply_ok. Qed.
Theorem C08_matrix_multiply_rejects : forall MA MB : list (list R),
  ~ (exists m p n, (0 < m)%nat /\ (0 < p)%nat /\ (0 < n)%nat /\ is_mat m p MA /\ is_mat p n MB) ->
  matrix_multiply MA MB = Err ValueError.
Proof. exact matrix_multiply_err. Qed.
Theorem C08_matrix_multiply_assoc : forall m p q n MA MB MC,
  is_mat m p MA -> is_mat p q MB -> is_mat q n MC ->
  (0 < m)%nat -> (0 < p)%nat -> (0 < q)%nat -> (0 < n)%nat ->
  exists X, (AB <- matrix_multiply MA MB ;; matrix_multiply AB MC) = Ok X /\
            (BC <- matrix_multiply MB MC ;; matrix_multiply MA BC) = Ok X.
Proof.
  intros m p q n MA MB MC HA HB HC Hm Hp Hq Hn.
  destruct (matrix_multiply_ok m p q MA MB) as (AB & E1 & P1); auto.
  destruct (matrix_multiply_ok m q n AB MC) as (X & E2 & P2); auto. { exact (proj1 P1). }
  destruct (matrix_multiply_ok p q n MB MC) as (BC & E3 & P3); auto.
  destruct (matrix_multiply_ok m p n MA BC) as (Y & E4 & P4); auto. { exact (proj1 P3). }
  exists X. rewrite E1, E3. cbn [bind]. split; auto. rewrite E4. f_equal.
  symmetry. exact (is_product_assoc m p q n MA MB MC AB BC X Y P1 P2 P3 P4).
Qed.
Theorem C08_eye : forall n, (0 < n)%nat -> exists I, eye (Z.of_nat n) = Ok I /\ is_identity n I.
Proof. exact eye_ok. Qed.
Theorem C08_eye_rejects : forall N, (N <= 0)%Z -> @eye R _ N = Err ValueError.
Proof. intros N H. unfold eye. destruct (Z.leb_spec N 0); auto; lia. Qed.
Theorem C08_eye_neutral : forall m n M, is_mat m n M -> (0 < m)%nat -> (0 < n)%nat ->
  (I <- eye (Z.of_nat m) ;; matrix_multiply I M) = Ok M /\
  (I <- eye (Z.of_nat n) ;; matrix_multiply M I) = Ok M.
Proof.
  intros m n M HM Hm Hn. split.
  - destruct (eye_ok m Hm) as (I & E & HI). rewrite E. cbn [bind].
    destruct (matrix_multiply_ok m m n I M) as (X & E1 & P1); auto. { exact (proj1 HI). }
    rewrite E1. f_equal. eapply is_product_unique; eauto. now apply identity_left.
  - destruct (eye_ok n Hn) as (I & E & HI). rewrite E. cbn [bind].
    destruct (matrix_multiply_ok m n n M I) as (X & E1 & P1); auto. { exact (proj1 HI). }
    rewrite E1. f_equal. eapply is_product_unique; eauto. now apply identity_right.
Qed.
Theorem C08_matrix_vector_dot : forall m n M x, is_mat m n M -> length x = n ->
  exists y, matrix_vector_dot M x = Ok y /\ length y = m /\
    forall i, (i < m)%nat -> vent y i = Rsum (fun k => ent M i k * vent x k) n.
Proof. exact matrix_vector_dot_ok. Qed.
Theorem C08_matrix_vector_dot_rejects : forall (M : list (list R)) x,
  (exists row, In row M /\ length row <> length x) -> matrix_vector_dot M x = Err ValueError.
Proof.
  intros M x [row [Hin Hl]]. apply matrix_vector_dot_err. intros F. rewrite Forall_forall in F. auto.
Qed.
Theorem C08_multiply_compatible_with_vector : forall m p n MA MB x,
  is_mat m p MA -> is_mat p n MB -> length x = n -> (0 < m)%nat -> (0 < p)%nat -> (0 < n)%nat ->
  exists z, (AB <- matrix_multiply MA MB ;; matrix_vector_dot AB x) = Ok z /\
            (y <- matrix_vector_dot MB x ;; matrix_vector_dot MA y) = Ok z.
Proof.
  intros m p n MA MB x HA HB Lx Hm Hp Hn.
  destruct (matrix_multiply_ok m p n MA MB) as (AB & E1 & P1); auto.
  destruct (matrix_vector_dot_ok m n AB x (proj1 P1) Lx) as (w & E2 & L2 & H2).
  destruct (matrix_vector_dot_ok p n MB x HB Lx) as (y & E3 & L3 & H3).
  destruct (matrix_vector_dot_ok m p MA y HA L3) as (z & E4 & L4 & H4).
  exists w. rewrite E1, E3. cbn [bind]. rewrite E2, E4. split; auto. f_equal.
  eapply multiply_vector_compat; eauto.
Qed.
Theorem C08_dot_product : forall a b : list R,
  (length a = length b -> dot_product a b = Ok (Rsum (fun i => vent a i * vent b i) (length a))) /\
  (length a <> length b -> dot_product a b = Err ValueError).
Proof. exact dot_product_ok. Qed.
Theorem C08_sum_matrix_rows : forall m n M, is_mat m n M -> (0 < m)%nat -> (0 < n)%nat ->
  exists y, sum_matrix_rows M = Ok y /\ length y = m /\
    forall i, (i < m)%nat -> vent y i = Rsum (fun k => ent M i k) n.
Proof. exact sum_matrix_rows_ok. Qed.
Theorem C08_sum_matrix_cols : forall m n M, is_mat m n M -> (0 < m)%nat -> (0 < n)%nat ->
  exists y, sum_matrix_cols M = Ok y /\ length y = n /\
    forall j, (j < n)%nat -> vent y j = Rsum (fun i => ent M i j) m.
Proof. exact sum_matrix_cols_ok. Qed.
Theorem C08_scalar_add_matrices : forall m n MA MB, is_mat m n MA -> is_mat m n MB -> (0 < m)%nat -> (0 < n)%nat ->
  exists C, scalar_add_matrices MA MB = Ok C /\ is_mat m n C /\
    forall i j, (i < m)%nat -> (j < n)%nat -> ent C i j = ent MA i j + ent MB i j.
Proof. exact (elementwise_ok Rplus). Qed.
Theorem C08_scalar_subtract_matrices : forall m n MA MB, is_mat m n MA -> is_mat m n MB -> (0 < m)%nat -> (0 < n)%nat ->
  exists C, scalar_subtract_matrices MA MB = Ok C /\ is_mat m n C /\
    forall i j, (i < m)%nat -> (j < n)%nat -> ent C i j = ent MA i j - ent MB i j.
Proof. exact (elementwise_ok Rminus). Qed.
(** shapes that differ in any row are rejected with ValueError, never truncated *)
Theorem C08_scalar_add_rejects : forall MA MB : list (list R),
  (length MA <> length MB \/ MA = [] \/
   exists i, (i < length MA)%nat /\ length (nth i MA []) <> length (nth i MB [])) ->
  scalar_add_matrices MA MB = Err ValueError /\ scalar_subtract_matrices MA MB = Err ValueError.
Proof.
  intros MA MB H. unfold scalar_add_matrices, scalar_subtract_matrices.
  assert (G : forall op, @elementwise R op MA MB = Err ValueError).
  { intros op. destruct (elementwise op MA MB) as [C|e] eqn:E.
    - apply elementwise_shape in E. destruct E as (E1 & E2 & E3).
      destruct H as [H|[H|[i [Hi H]]]]; [contradiction|contradiction|]. exfalso; apply H; auto.
    - now rewrite (elementwise_err _ _ _ _ E). }
  split; apply G.
Qed.
Theorem C08_scalar_multiply_matrix : forall m n s M, is_mat m n M -> (0 < m)%nat -> (0 < n)%nat ->
  exists C, scalar_multiply_matrix s M = Ok C /\ is_mat m n C /\
    forall i j, (i < m)%nat -> (j < n)%nat -> ent C i j = s * ent M i j.
Proof. exact scalar_multiply_ok. Qed.
Theorem C08_scalar_divide_matrix : forall m n s M, is_mat m n M -> (0 < m)%nat -> (0 < n)%nat ->
  (s <> 0 -> exists C, scalar_divide_matrix s M = Ok C /\ is_mat m n C /\
    forall i j, (i < m)%nat -> (j < n)%nat -> ent C i j = ent M i j / s) /\
  (s = 0 -> scalar_divide_matrix s M = Err ZeroDivisionError).
Proof.
  intros m n s M HM Hm Hn. split; [now apply scalar_divide_ok|]. intros ->.
  unfold scalar_divide_matrix. numR. destruct (Reqb 0 0) eqn:E; auto. apply Reqb_false in E; contradiction.
Qed.
Example C08_ex : matrix_multiply [[1;2];[3;4];[5;6]]%Q [[1;0;2];[0;1;3]]%Q = Ok [[1;2;8];[3;4;18];[5;6;28]]%Q
  /\ matrix_multiply [[1;2]]%Q [[1;2]]%Q = Err ValueError.
Proof. split; vm_compute; reflexivity. Qed.

(** ** C09 *)
Theorem C09_det : forall n np_det M, (2 <= n <= 5)%nat -> is_mat n n M ->
  det np_det M = Ok (DetNum (determinant n (ent M))).
Proof.
  intros n np M Hn HM. assert (D : (n = 2 \/ n = 3 \/ n = 4 \/ n = 5)%nat) by lia.
  destruct D as [-> | [-> | [-> | ->]]]; [now apply det_2 | now apply det_3 | now apply det_4 | now apply det_5].
Qed.
Theorem C09_det_zero_iff_singular : forall n np_det M d, (n = 2 \/ n = 3)%nat -> is_mat n n M ->
  det np_det M = Ok (DetNum d) -> (d = 0 <-> singular n M).
Proof.
  intros n np M d Hn HM E. rewrite (C09_det n np M) in E by (auto; lia). injection E as <-.
  split.
  - intros Z. destruct (inv_total n M HM) as [[Hs _]|[? _]]; auto.
    exfalso. exact (det_regular n M Hn HM Hs Z).
  - now apply det_singular.
Qed.
Theorem C09_det_multiplicative : forall n np_det MA MB MC a b c, (n = 2 \/ n = 3)%nat ->
  is_mat n n MA -> is_mat n n MB -> matrix_multiply MA MB = Ok MC ->
  det np_det MA = Ok (DetNum a) -> det np_det MB = Ok (DetNum b) -> det np_det MC = Ok (DetNum c) ->
  c = a * b.
Proof.
  intros n np MA MB MC a b c Hn HA HB E Ea Eb Ec.
  destruct (matrix_multiply_ok n n n MA MB HA HB) as (X & EX & HX & PX); try lia.
  rewrite EX in E. injection E as ->.
  rewrite (C09_det n) in Ea, Eb, Ec by (auto; lia).
  injection Ea as <-. injection Eb as <-. injection Ec as <-.
  rewrite (determinant_ext n (ent MC) (prod2 n (ent MA) (ent MB))) by (intros; apply PX; auto).
  destruct Hn as [-> | ->]; [apply det_mul_2 | apply det_mul_3].
Qed.
Theorem C09_det_identity : forall n np_det I, (2 <= n <= 5)%nat -> eye (Z.of_nat n) = Ok I ->
  det np_det I = Ok (DetNum 1).
Proof.
  intros n np I Hn E. destruct (eye_ok n) as (I' & E' & HI & EI); [lia|]. rewrite E' in E. injection E as ->.
  rewrite (C09_det n) by auto. do 2 f_equal. rewrite <- (det_delta n). apply determinant_ext. auto.
Qed.
(** the determinant of [[x]] is not returned: the code returns the row [x] *)
Theorem C09_det_1x1_refuted : forall np_det x,
  det np_det [[x]] = Ok (DetRow [x]) /\ det np_det [[x]] <> Ok (DetNum (determinant 1 (ent [[x]]))).
Proof. intros; split; [reflexivity | discriminate]. Qed.
Example C09_ex : det (fun _ => Err ValueError) [[2;0;1];[1;3;2];[1;1;1]]%Q = Ok (DetNum 0)%Q
  /\ det (fun _ => Err ValueError) [[2;0;1;0;0];[1;3;2;0;1];[1;1;4;0;0];[0;0;1;1;2];[0;1;0;0;1]]%Q = Ok (DetNum 11)%Q.
Proof. split; vm_compute; reflexivity. Qed.

(** ** C10 *)
Theorem C10_inv : forall n M, is_mat n n M -> ~ singular n M ->
  exists X, inv M = Ok X /\ is_mat n n X /\
    (forall i j, (i < n)%nat -> (j < n)%nat -> Rsum (fun k => ent M i k * ent X k j) n = delta i j) /\
    (forall i j, (i < n)%nat -> (j < n)%nat -> Rsum (fun k => ent X i k * ent M k j) n = delta i j).
Proof. intros n M HM Hs. destruct (inv_total n M HM) as [[_ H]|[H _]]; [exact H | contradiction]. Qed.
Theorem C10_inv_singular : forall n M, is_mat n n M -> singular n M ->
  inv M = Err (if Nat.eqb n 1 then ZeroDivisionError else ValueError).
Proof. intros n M HM Hs. destruct (inv_total n M HM) as [[H _]|[_ H]]; [contradiction | exact H]. Qed.
Theorem C10_inv_involutive : forall n M X, is_mat n n M -> inv M = Ok X -> inv X = Ok M.
Proof.
  intros n M X HM E. destruct (inv_total n M HM) as [[Hs [X' [E' T]]]|[_ E']]; [|congruence].
  rewrite E in E'. injection E' as <-. destruct T as (HX & R1 & R2).
  assert (T2 : two_sided n X M) by (split; auto).
  destruct (inv_total n X HX) as [[Hs' [Y [EY (HY & Y1 & Y2)]]]|[Hs' _]].
  - rewrite EY. f_equal. apply (mat_ext n n); auto. intros i j Hi Hj.
    (* Y = (M X) Y = M (X Y) = M *)
    transitivity (Rsum (fun k => delta i k * ent Y k j) n).
    + rewrite (Rsum_single _ n i); auto. unfold delta; rewrite Nat.eqb_refl; ring.
      intros k Hk Hn. unfold delta. nb. ring.
    + rewrite (Rsum_ext _ (fun k => Rsum (fun l => ent M i l * ent X l k * ent Y k j) n)).
      2:{ intros k Hk. rewrite <- R1 by auto. now rewrite Rsum_scal_r. }
      rewrite Rsum_swap.
      rewrite (Rsum_ext _ (fun l => ent M i l * delta l j)).
      2:{ intros l Hl. rewrite <- Y1 by auto. rewrite <- Rsum_scal. apply Rsum_ext; intros; ring. }
      rewrite (Rsum_single _ n j); auto. unfold delta; rewrite Nat.eqb_refl; ring.
      intros k Hk Hn. unfold delta. nb. ring.
  - exfalso. eapply (two_sided_regular n X M); eauto.
Qed.
Example C10_ex : inv [[2;1];[1;1]]%Q = Ok [[1;-1];[-1;2]]%Q /\
  inv [[0;0;0;1];[0;0;1;0];[0;2;0;0];[4;0;0;0]]%Q = Ok [[0;0;0;1#4];[0;0;1#2;0];[0;1;0;0];[1;0;0;0]]%Q /\
  inv [[1;2;3;4];[2;4;6;8];[0;0;1;0];[0;0;0;1]]%Q = Err ValueError.
Proof. splits; vm_compute; reflexivity. Qed.
Example C10_ex_hyp : is_mat 2 2 [[2;1];[1;1]] /\ ~ singular 2 [[2;1];[1;1]] /\ singular 2 [[1;2];[2;4]].
Proof.
  splits.
  - split; auto.
  - apply (two_sided_regular 2 _ [[1;-1];[-1;2]]). split; [split; auto|].
    split; intros i j Hi Hj; lt_cases Hi i; lt_cases Hj j; unfold ent, delta; simpl; ring.
  - exists [2; -1]. splits; auto.
    + exists 0%nat. split; auto. unfold vent; simpl; lra.
    + intros i Hi. lt_cases Hi i; unfold ent, vent; simpl; ring.
Qed.

(** ** C11 *)
Theorem C11_solve : forall n M b, is_mat n n M -> length b = n -> ~ singular n M ->
  exists x, solve M b = Ok x /\ solves n n M x b /\ forall x', solves n n M x' b -> x' = x.
Proof.
  intros n M b HM Lb Hs. destruct (solve_total n M b HM Lb) as [[_ [x [E S]]]|[H _]]; [|contradiction].
  exists x. splits; auto. intros x' S'. eapply solves_unique; eauto.
Qed.
Theorem C11_solve_singular : forall n M b, is_mat n n M -> length b = n -> singular n M ->
  solve M b = Err ValueError.
Proof. intros n M b HM Lb Hs. destruct (solve_total n M b HM Lb) as [[H _]|[_ H]]; [contradiction | exact H]. Qed.
Theorem C11_solve_2_direct : forall a b c d e f,
  (forall x, solve_2_direct a b c d e f = Ok x -> solves 2 2 [[a; b]; [c; d]] x [e; f]) /\
  (forall er, solve_2_direct a b c d e f = Err er -> er = ZeroDivisionError /\ singular 2 [[a; b]; [c; d]]).
Proof. intros; split; intros; [now apply solve_2_direct_ok | eapply solve_2_direct_err; eauto]. Qed.
Theorem C11_solve_3_direct : forall a b c d e f g h i j k l x, solve_3_direct a b c d e f g h i j k l = Ok x ->
  solves 3 3 [[a; b; c]; [d; e; f]; [g; h; i]] x [j; k; l].
Proof. exact solve_3_direct_ok. Qed.
Theorem C11_solve_4_direct : forall a b c d e f g h i j k l m n o p q r s t x,
  solve_4_direct a b c d e f g h i j k l m n o p q r s t = Ok x ->
  solves 4 4 [[a; b; c; d]; [e; f; g; h]; [i; j; k; l]; [m; n; o; p]] x [q; r; s; t].
Proof. exact solve_4_direct_ok. Qed.
(** the 3x3 direct solver does not solve every regular system: it divides by leading minors *)
Theorem C11_solve_3_direct_complete_refuted : exists a b c d e f g h i j k l,
  ~ singular 3 [[a; b; c]; [d; e; f]; [g; h; i]] /\
  solve_3_direct a b c d e f g h i j k l = Err ZeroDivisionError /\
  exists x, solve [[a; b; c]; [d; e; f]; [g; h; i]] [j; k; l] = Ok x.
Proof.
  exists 0, 1, 0, 1, 0, 0, 0, 0, 1, 1, 2, 3. destruct solve_3_direct_incomplete as [T E].
  assert (Hs : ~ singular 3 [[0; 1; 0]; [1; 0; 0]; [0; 0; 1]]) by (eapply two_sided_regular; eauto).
  splits; auto. destruct (C11_solve 3 [[0; 1; 0]; [1; 0; 0]; [0; 0; 1]] [1; 2; 3]) as [x [Ex _]]; eauto.
  split; auto.
Qed.
Example C11_ex : solve [[2;1;0;1];[0;1;0;0];[1;0;3;0];[0;0;1;1]]%Q [4;1;4;2]%Q = Ok [1;1;1;1]%Q /\
  (solve_3_direct 2 1 0 1 3 0 0 1 4 3 4 5 = Ok [1;1;1])%Q.
Proof. split; vm_compute; reflexivity. Qed.

(** ** C12 *)
Theorem C12_lu : forall n M, is_mat n n M -> ~ singular n M ->
  exists P L U (s : nat -> nat),
     lu M = Ok (P, L, U) /\ is_mat n n P /\ is_mat n n L /\ is_mat n n U /\
     (* P is a permutation matrix *)
     (forall i, (i < n)%nat -> (s i < n)%nat) /\
     (forall i i', (i < n)%nat -> (i' < n)%nat -> s i = s i' -> i = i') /\
     (forall i j, (i < n)%nat -> (j < n)%nat -> ent P i j = delta (s i) j) /\
     (* L is unit lower triangular, U is upper triangular *)
     (forall i j, (i < n)%nat -> (j < n)%nat -> (i < j)%nat -> ent L i j = 0) /\
     (forall i, (i < n)%nat -> ent L i i = 1) /\
     (forall i j, (i < n)%nat -> (j < n)%nat -> (j < i)%nat -> ent U i j = 0) /\
     (forall i, (i < n)%nat -> ent U i i <> 0) /\
     (* P A = L U *)
     (forall i j, (i < n)%nat -> (j < n)%nat ->
        Rsum (fun k => ent P i k * ent M k j) n = Rsum (fun k => ent L i k * ent U k j) n).
Proof. intros n M HM Hs. destruct (lu_total n M HM) as [[_ H]|[H _]]; [exact H | contradiction]. Qed.
Theorem C12_lu_singular : forall n M, is_mat n n M -> singular n M -> lu M = Err ValueError.
Proof. intros n M HM Hs. destruct (lu_total n M HM) as [[H _]|[_ H]]; [contradiction | exact H]. Qed.
Theorem C12_solve_LU_decomposition : forall n M b, is_mat n n M -> length b = n ->
  (~ singular n M -> exists x, solve_LU_decomposition M b = Ok x /\ solves n n M x b /\
                     forall x', solves n n M x' b -> x' = x) /\
  (singular n M -> solve_LU_decomposition M b = Err ValueError).
Proof.
  intros n M b HM Lb. destruct (solve_LU_total n M b HM Lb) as [[Hs [x [E S]]]|[Hs E]]; split; intros; try contradiction; auto.
  exists x. splits; auto. intros x' S'. eapply solves_unique; eauto.
Qed.
Theorem C12_inv_lu : forall n M, is_mat n n M ->
  (~ singular n M -> exists X, inv_lu M = Ok X /\ two_sided n M X) /\
  (singular n M -> inv_lu M = Err ValueError).
Proof.
  intros n M HM. destruct (inv_lu_total n M HM) as [[Hs [X H]]|[Hs E]]; split; intros; try contradiction; auto.
  exists X; exact H.
Qed.
(** every square matrix is one or the other, so the routine never fails in a third way *)
Theorem C12_solve_LU_fails_only_if_singular : forall n M b e, is_mat n n M -> length b = n ->
  solve_LU_decomposition M b = Err e -> e = ValueError /\ singular n M.
Proof.
  intros n M b e HM Lb E. destruct (solve_LU_total n M b HM Lb) as [[Hs [x [E' _]]]|[Hs E']].
  - congruence.
  - split; [congruence | auto].
Qed.
Example C12_ex : lu [[0;2;1];[1;1;0];[2;0;1]]%Q =
  Ok ([[0;0;1];[1;0;0];[0;1;0]], [[1;0;0];[0;1;0];[1#2;1#2;1]], [[2;0;1];[0;2;1];[0;0;-1]])%Q.
Proof. vm_compute. reflexivity. Qed.
Example C12_ex_solve : solve_LU_decomposition [[0;2;1];[1;1;0];[2;0;1]]%Q [3;2;3]%Q = Ok [1;1;1]%Q.
Proof. vm_compute. reflexivity. Qed.

(** ** C13 *)
(** [tri_row N a b c x i] is row i of the tridiagonal matrix (sub-diagonal a, diagonal b,
    super-diagonal c) applied to x; [tri_minor] are its leading principal minors. *)
Theorem C13_solve_tridiagonal : forall a b c d N, (0 < N)%nat -> length d = N -> length b = N ->
  S (length a) = N -> S (length c) = N ->
  ((forall k, (k <= N)%nat -> tri_minor (vent a) (vent b) (vent c) k <> 0) ->
   exists x, solve_tridiagonal a b c d = Ok x /\ length x = N /\
     forall i, (i < N)%nat -> tri_row N (vent a) (vent b) (vent c) (vent x) i = vent d i) /\
  ((exists k, (k <= N)%nat /\ tri_minor (vent a) (vent b) (vent c) k = 0) ->
   solve_tridiagonal a b c d = Err ZeroDivisionError).
Proof.
  intros a b c d N HN Ld Lb La Lc.
  destruct (solve_tridiagonal_total a b c d N HN Ld Lb La Lc) as [[Hm H]|[[k [Hk Hz]] H]]; split; auto.
  - intros [k [Hk Hz]]. exfalso. exact (Hm k Hk Hz).
  - intros Hm. exfalso. exact (Hm k Hk Hz).
Qed.
Theorem C13_solve_tridiagonal_dominant : forall a b c d N, (0 < N)%nat -> length d = N -> length b = N ->
  S (length a) = N -> S (length c) = N ->
  (forall i, (i < N)%nat ->
     (if Nat.ltb 0 i then Rabs (vent a (i - 1)) else 0) +
     (if Nat.ltb (S i) N then Rabs (vent c i) else 0) < Rabs (vent b i)) ->
  exists x, solve_tridiagonal a b c d = Ok x /\ length x = N /\
    forall i, (i < N)%nat -> tri_row N (vent a) (vent b) (vent c) (vent x) i = vent d i.
Proof.
  intros a b c d N HN Ld Lb La Lc H. apply C13_solve_tridiagonal; auto. now apply tri_dominant.
Qed.
Theorem C13_bands_roundtrip : forall (A : Type) (a b c : list A) z n, length b = n -> (0 < n)%nat ->
  S (length a) = n -> S (length c) = n ->
  (M <- tridiagonals_as_array a b c z ;; array_as_tridiagonals M) = Ok (a, b, c).
Proof. exact @bands_roundtrip. Qed.
Theorem C13_array_roundtrip : forall (A : Type) (M : list (list A)) z n, is_mat n n M -> (0 < n)%nat ->
  (forall i j, (i < n)%nat -> (j < n)%nat -> (S i < j \/ S j < i)%nat -> entry M i j = Some z) ->
  (' (a, b, c) <- array_as_tridiagonals M ;; tridiagonals_as_array a b c z) = Ok M.
Proof. exact @array_roundtrip. Qed.
Example C13_ex : solve_tridiagonal [1;1]%Q [2;3;4]%Q [1;1]%Q [3;5;5]%Q = Ok [1;1;1]%Q /\
  solve_tridiagonal [1;1]%Q [0;3;4]%Q [1;1]%Q [3;5;5]%Q = Err ZeroDivisionError.
Proof. split; vm_compute; reflexivity. Qed.
Example C13_ex_bands : tridiagonals_as_array [1;2]%nat [3;4;5]%nat [6;7]%nat 0%nat = Ok [[3;6;0];[1;4;7];[0;2;5]]%nat.
Proof. reflexivity. Qed.

(** ** C14 *)
(** [leb] is the comparison of the values (any total preorder). *)
Theorem C14_argsort1d_permutation : forall (A : Type) (leb : A -> A -> bool) arr,
  Permutation (seq 0 (length arr)) (argsort1d leb arr).
Proof. exact @argsort_perm. Qed.
Theorem C14_argsort1d_sorted_stable : forall (A : Type) (leb : A -> A -> bool),
  (forall x y, leb x y = true \/ leb y x = true) ->
  (forall x y z, leb x y = true -> leb y z = true -> leb x z = true) ->
  forall arr p q i j x y, (p < q)%nat ->
  nth_error (argsort1d leb arr) p = Some i -> nth_error (argsort1d leb arr) q = Some j ->
  nth_error arr i = Some x -> nth_error arr j = Some y ->
  leb x y = true /\ (leb y x = true -> (i < j)%nat).
Proof. exact @argsort_sorted. Qed.
Theorem C14_sort_paired_lists : forall (A B : Type) (leb : A -> A -> bool) (l1 : list A) (l2 : list B),
  (forall x y, leb x y = true \/ leb y x = true) ->
  (forall x y z, leb x y = true -> leb y z = true -> leb x z = true) ->
  length l1 = length l2 ->
  exists s1 s2, sort_paired_lists leb l1 l2 = Ok (s1, s2) /\
    Permutation (combine l1 l2) (combine s1 s2) /\ length s1 = length l1 /\ length s2 = length l1 /\
    forall p q x y, (p < q)%nat -> nth_error s1 p = Some x -> nth_error s1 q = Some y -> leb x y = true.
Proof.
  intros A B leb l1 l2 Ht Htr HL.
  destruct (sort_paired_ok leb l1 l2 HL) as (s1 & s2 & E & L1 & L2 & N).
  exists s1, s2. splits; auto.
  - apply (perm_pairs l1 l2 s1 s2 (argsort1d leb l1)); auto. apply argsort_perm.
  - intros p q x y Hpq Hx Hy.
    assert (LA : length (argsort1d leb l1) = length l1).
    { rewrite <- (Permutation_length (argsort_perm leb l1)). apply seq_length. }
    destruct (nth_error (argsort1d leb l1) p) as [i|] eqn:Ei.
    2:{ apply nth_error_None in Ei. assert (nth_error s1 p = None) by (apply nth_error_None; lia). congruence. }
    destruct (nth_error (argsort1d leb l1) q) as [j|] eqn:Ej.
    2:{ apply nth_error_None in Ej. assert (nth_error s1 q = None) by (apply nth_error_None; lia). congruence. }
    destruct (N p i Ei) as [N1 _]. destruct (N q j Ej) as [N2 _].
    eapply (argsort_sorted leb Ht Htr l1 p q i j x y); eauto; congruence.
Qed.
Theorem C14_sort_paired_lists_mismatch : forall (A B : Type) (leb : A -> A -> bool) (l1 : list A) (l2 : list B),
  length l1 <> length l2 -> sort_paired_lists leb l1 l2 = Err ValueError.
Proof. intros A B leb l1 l2 H. unfold sort_paired_lists. now rewrite (proj2 (Nat.eqb_neq _ _) H). Qed.
Example C14_ex : argsort1d Nat.leb [3;1;2;1]%nat = [1;3;2;0]%nat /\
  sort_paired_lists Nat.leb [3;1;2;1]%nat [true;false;true;true] = Ok ([1;1;2;3]%nat, [false;true;true;true]).
Proof. split; reflexivity. Qed.
Example C14_ex_hyp : (forall x y, Nat.leb x y = true \/ Nat.leb y x = true) /\
  (forall x y z, Nat.leb x y = true -> Nat.leb y z = true -> Nat.leb x z = true).
Proof.
  split; intros.
  - destruct (Nat.leb_spec x y); auto. right. apply Nat.leb_le. lia.
  - rewrite Nat.leb_le in *. lia.
Qed.

(** ** C62 *)
Theorem C62_subset_matrix : forall (A : Type) (M : list (list A)) m n l, is_mat m n M ->
  (forall i, In i l -> (i < m)%nat /\ (i < n)%nat) ->
  exists S, subset_matrix M l = Ok S /\ is_mat (length l) (length l) S /\
    forall p q i j, nth_error l p = Some i -> nth_error l q = Some j -> entry S p q = entry M i j.
Proof. exact @subset_matrix_ok. Qed.
Theorem C62_subset_matrix_all : forall (A : Type) (M : list (list A)) n, is_mat n n M ->
  subset_matrix M (seq 0 n) = Ok M.
Proof.
  intros A M n HM. destruct (subset_matrix_ok M n n (seq 0 n) HM) as (S & E & HS & N).
  { intros i Hi. apply in_seq in Hi. lia. }
  rewrite seq_length in HS. rewrite E. f_equal. apply (entry_ext n n); auto. intros i j.
  destruct (Nat.lt_ge_cases i n) as [Hi|Hi].
  - destruct (Nat.lt_ge_cases j n) as [Hj|Hj].
    + apply N; rewrite nth_error_seq0; [rewrite (proj2 (Nat.ltb_lt i n) Hi) | rewrite (proj2 (Nat.ltb_lt j n) Hj)]; auto.
    + assert (G : forall M0 : list (list A), is_mat n n M0 -> entry M0 i j = None).
      { intros M0 [L0 F0]. unfold entry. destruct (nth_error M0 i) as [r|] eqn:Er; auto.
        apply nth_error_In in Er. rewrite Forall_forall in F0. apply F0 in Er. apply nth_error_None. lia. }
      now rewrite !G.
  - assert (G : forall M0 : list (list A), is_mat n n M0 -> entry M0 i j = None).
    { intros M0 [L0 F0]. unfold entry. rewrite (proj2 (nth_error_None M0 i)); auto. lia. }
    now rewrite !G.
Qed.
Example C62_ex : subset_matrix [[1;2;3];[4;5;6];[7;8;9]]%nat [2;0]%nat = Ok [[9;7];[3;1]]%nat.
Proof. reflexivity. Qed.

Print Assumptions C07_transpose_entries.
Print Assumptions C07_transpose_involutive.
Print Assumptions C07_transpose_ragged.
Print Assumptions C07_transpose_empty.
Print Assumptions C07_ragged_first_row_empty_refuted.
Print Assumptions C08_matrix_multiply.
Print Assumptions C08_matrix_multiply_rejects.
Print Assumptions C08_matrix_multiply_assoc.
Print Assumptions C08_eye.
Print Assumptions C08_eye_rejects.
Print Assumptions C08_eye_neutral.
Print Assumptions C08_matrix_vector_dot.
Print Assumptions C08_matrix_vector_dot_rejects.
Print Assumptions C08_multiply_compatible_with_vector.
Print Assumptions C08_dot_product.
Print Assumptions C08_sum_matrix_rows.
Print Assumptions C08_sum_matrix_cols.
Print Assumptions C08_scalar_add_matrices.
Print Assumptions C08_scalar_subtract_matrices.
Print Assumptions C08_scalar_add_rejects.
Print Assumptions C08_scalar_multiply_matrix.
Print Assumptions C08_scalar_divide_matrix.
Print Assumptions C09_det.
Print Assumptions C09_det_zero_iff_singular.
Print Assumptions C09_det_multiplicative.
Print Assumptions C09_det_identity.
Print Assumptions C09_det_1x1_refuted.
Print Assumptions C10_inv.
Print Assumptions C10_inv_singular.
Print Assumptions C10_inv_involutive.
Print Assumptions C11_solve.
Print Assumptions C11_solve_singular.
Print Assumptions C11_solve_2_direct.
Print Assumptions C11_solve_3_direct.
Print Assumptions C11_solve_4_direct.
Print Assumptions C11_solve_3_direct_complete_refuted.
Print Assumptions C12_lu.
Print Assumptions C12_lu_singular.
Print Assumptions C12_solve_LU_decomposition.
Print Assumptions C12_inv_lu.
Print Assumptions C12_solve_LU_fails_only_if_singular.
Print Assumptions C13_solve_tridiagonal.
Print Assumptions C13_solve_tridiagonal_dominant.
Print Assumptions C13_bands_roundtrip.
Print Assumptions C13_array_roundtrip.
Print Assumptions C14_argsort1d_permutation.
Print Assumptions C14_argsort1d_sorted_stable.
Print Assumptions C14_sort_paired_lists.
Print Assumptions C14_sort_paired_lists_mismatch.
Print Assumptions C62_subset_matrix.
Print Assumptions C62_subset_matrix_all.
