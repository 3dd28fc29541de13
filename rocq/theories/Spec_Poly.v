(** Specification vocabulary for polynomials: nothing here refers to the models. *)
From Coq Require Import List Reals Lra Lia.
From Verif Require Import Sums.
Local Open Scope R_scope.

(** Value of the polynomial whose coefficients are listed highest power first:
    c_0 x^(n-1) + c_1 x^(n-2) + ... + c_(n-1). *)
Definition heval (cs : list R) (x : R) : R :=
  Rsum (fun i => nth i cs 0 * x ^ (length cs - 1 - i)) (length cs).

(** Value of the polynomial whose coefficients are listed lowest power first:
    c_0 + c_1 x + c_2 x^2 + ... *)
Definition leval (cs : list R) (x : R) : R :=
  Rsum (fun i => nth i cs 0 * x ^ i) (length cs).

(** "v1, v2, ... are the first, second, ... derivatives of F at x". *)
From Coquelicot Require Import Coquelicot.
Definition ders1 (F : R -> R) (x v1 : R) : Prop := is_derive F x v1.
Definition ders2 (F : R -> R) (x v1 v2 : R) : Prop :=
  is_derive F x v1 /\ is_derive_n F 2 x v2.
Definition ders3 (F : R -> R) (x v1 v2 v3 : R) : Prop :=
  is_derive F x v1 /\ is_derive_n F 2 x v2 /\ is_derive_n F 3 x v3.
Definition ders4 (F : R -> R) (x v1 v2 v3 v4 : R) : Prop :=
  is_derive F x v1 /\ is_derive_n F 2 x v2 /\ is_derive_n F 3 x v3 /\ is_derive_n F 4 x v4.

(** Binomial coefficients by Pascal's rule. *)
Fixpoint binom (n k : nat) : nat :=
  match n, k with
  | _, O => 1
  | O, S _ => 0
  | S n', S k' => binom n' k' + binom n' (S k')
  end.
