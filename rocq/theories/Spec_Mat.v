(** Matrices as mathematics: the vocabulary in which the matrix theorems are stated. *)
From Coq Require Import List Reals Arith Lra Lia.
From Verif Require Import Base Sums.
Import ListNotations.
Local Open Scope R_scope.

(** [M] has [m] rows of [n] entries each. *)
Definition is_mat {A} (m n : nat) (M : list (list A)) : Prop :=
  length M = m /\ Forall (fun r => length r = n) M.
(** Entry (i,j) of a real matrix, entry i of a real vector. *)
Definition ent (M : list (list R)) (i j : nat) : R := nth j (nth i M []) 0.
Definition vent (x : list R) (i : nat) : R := nth i x 0.
(** Entry (i,j) of a matrix over any type. *)
Definition entry {A} (M : list (list A)) (i j : nat) : option A :=
  match nth_error M i with Some r => nth_error r j | None => None end.

Definition delta (i j : nat) : R := if Nat.eqb i j then 1 else 0.
(** [A x = b] for an m x n matrix. *)
Definition solves (m n : nat) (M : list (list R)) (x b : list R) : Prop :=
  length x = n /\
  forall i, (i < m)%nat -> Rsum (fun k => ent M i k * vent x k) n = vent b i.
(** [A B = C] entrywise, for m x p times p x n. *)
Definition is_product (m p n : nat) (MA MB MC : list (list R)) : Prop :=
  is_mat m n MC /\
  forall i j, (i < m)%nat -> (j < n)%nat ->
    ent MC i j = Rsum (fun k => ent MA i k * ent MB k j) p.
Definition is_identity (n : nat) (M : list (list R)) : Prop :=
  is_mat n n M /\ forall i j, (i < n)%nat -> (j < n)%nat -> ent M i j = delta i j.
(** A square matrix is singular when it sends some non-zero vector to zero. *)
Definition singular (n : nat) (M : list (list R)) : Prop :=
  exists x, length x = n /\ (exists i, (i < n)%nat /\ vent x i <> 0) /\
    forall i, (i < n)%nat -> Rsum (fun k => ent M i k * vent x k) n = 0.

(** Determinant by expansion along the first row. *)
Definition minor (M : nat -> nat -> R) (j : nat) : nat -> nat -> R :=
  fun r c => M (S r) (if Nat.ltb c j then c else S c).
Fixpoint determinant (n : nat) (M : nat -> nat -> R) : R :=
  match n with
  | O => 1
  | S n' => Rsum (fun j => (-1) ^ j * M O j * determinant n' (minor M j)) (S n')
  end.

Lemma is_mat_row {A} m n (M : list (list A)) i : is_mat m n M -> (i < m)%nat ->
  length (nth i M []) = n.
Proof.
  intros [L F] H. rewrite Forall_forall in F. apply F. apply nth_In. lia.
Qed.

Lemma nth_ext_d {A} (l l' : list A) d : length l = length l' ->
  (forall i, (i < length l)%nat -> nth i l d = nth i l' d) -> l = l'.
Proof. intros H H1. apply (nth_ext l l' d d); auto. Qed.

Lemma mat_ext m n M M' : is_mat m n M -> is_mat m n M' ->
  (forall i j, (i < m)%nat -> (j < n)%nat -> ent M i j = ent M' i j) -> M = M'.
Proof.
  intros H H' E. apply (nth_ext_d _ _ []). { destruct H, H'; congruence. }
  intros i Hi. destruct H as [L F] eqn:HH. rewrite L in Hi.
  apply (nth_ext_d _ _ 0).
  - rewrite !(is_mat_row m n); auto.
  - intros j Hj. rewrite (is_mat_row m n) in Hj by auto. apply E; auto.
Qed.

Definition mk (m n : nat) (f : nat -> nat -> R) : list (list R) :=
  map (fun i => map (f i) (seq 0 n)) (seq 0 m).
Lemma nth_map_seq0 {B} (f : nat -> B) n i d : (i < n)%nat -> nth i (map f (seq 0 n)) d = f i.
Proof.
  intros H. rewrite (nth_indep _ d (f O)) by (rewrite map_length, seq_length; auto).
  rewrite (map_nth f). rewrite seq_nth; auto.
Qed.
Lemma mk_mat m n f : is_mat m n (mk m n f).
Proof.
  split. { unfold mk; now rewrite map_length, seq_length. }
  apply Forall_forall. intros r Hr. unfold mk in Hr. apply in_map_iff in Hr.
  destruct Hr as [i [<- _]]. now rewrite map_length, seq_length.
Qed.
Lemma mk_ent m n f i j : (i < m)%nat -> (j < n)%nat -> ent (mk m n f) i j = f i j.
Proof. intros. unfold ent, mk. rewrite nth_map_seq0 by auto. now rewrite nth_map_seq0. Qed.
Lemma vec_ext n x y : length x = n -> length y = n ->
  (forall i, (i < n)%nat -> vent x i = vent y i) -> x = y.
Proof. intros H H' E. apply (nth_ext_d _ _ 0). congruence. rewrite H. apply E. Qed.
