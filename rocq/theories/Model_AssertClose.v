(** fluids/numerics/__init__.py: assert_close and its versions for nested lists. *)
From Coq Require Import Reals List Bool Arith.
From Verif Require Import Base Model_Numerics.
Import ListNotations.
Open Scope R_scope.

(** numpy.testing.assert_allclose of two finite numbers: the documented test |actual - desired| <= atol + rtol |desired| *)
Definition assert_allclose (a b rtol atol : R) : result unit :=
  if Rleb (Rabs (a - b)) (atol + rtol * Rabs b) then Ok tt else Err AssertionError.
(** fluids/numerics/__init__.py:1897-1914 [assert_close], finite numbers that are different objects, assertions switched on; cmath's isclose
    gives the same answer as isclose for real arguments, so trying it a second time changes nothing *)
Definition assert_close (a b rtol atol : R) : result unit :=
  match isclose a b rtol atol with Ok true => Ok tt | _ => assert_allclose a b rtol atol end.
(** fluids/numerics/__init__.py:1916-1921 [assert_close1d] *)
Fixpoint close1d_loop (rtol atol : R) (a b : list R) : result unit :=
  match a, b with x :: a, y :: b => _ <- assert_close x y rtol atol ;; close1d_loop rtol atol a b | _, _ => Ok tt end.
Definition assert_close1d (rtol atol : R) (a b : list R) : result unit :=
  if negb (Nat.eqb (length a) (length b)) then Err ValueError else close1d_loop rtol atol a b.
(** fluids/numerics/__init__.py:1941-1958: one row; [Ok true] when the whole function has returned *)
Fixpoint close2d_row (rtol atol : R) (a b : list R) : result bool :=
  match a, b with
  | x :: a, y :: b =>
    let good := match isclose x y rtol atol with Ok g => g | Err _ => true end in
    if negb good then _ <- assert_allclose x y rtol atol ;; Ok true else close2d_row rtol atol a b
  | _, _ => Ok false
  end.
(** fluids/numerics/__init__.py:1936-1958 *)
Fixpoint close2d_loop (rtol atol : R) (a b : list (list R)) : result unit :=
  match a, b with
  | a0 :: a, b0 :: b =>
    if negb (Nat.eqb (length a0) (length b0)) then Err ValueError
    else returned <- close2d_row rtol atol a0 b0 ;; if (returned : bool) then Ok tt else close2d_loop rtol atol a b
  | _, _ => Ok tt
  end.
(** fluids/numerics/__init__.py:1923-1958 [assert_close2d] *)
Definition assert_close2d (rtol atol : R) (a b : list (list R)) : result unit :=
  if negb (Nat.eqb (length a) (length b)) then Err ValueError else close2d_loop rtol atol a b.
(** fluids/numerics/__init__.py:1965-1970 [assert_close3d] *)
Fixpoint close3d_loop (rtol atol : R) (a b : list (list (list R))) : result unit :=
  match a, b with x :: a, y :: b => _ <- assert_close2d rtol atol x y ;; close3d_loop rtol atol a b | _, _ => Ok tt end.
Definition assert_close3d (rtol atol : R) (a b : list (list (list R))) : result unit :=
  if negb (Nat.eqb (length a) (length b)) then Err ValueError else close3d_loop rtol atol a b.
(** fluids/numerics/__init__.py:1972-1984 [assert_close4d]; its inner loop is the text of [assert_close3d] *)
Fixpoint close4d_loop (rtol atol : R) (a b : list (list (list (list R)))) : result unit :=
  match a, b with
  | a0 :: a, b0 :: b =>
    if negb (Nat.eqb (length a0) (length b0)) then Err ValueError
    else _ <- close3d_loop rtol atol a0 b0 ;; close4d_loop rtol atol a b
  | _, _ => Ok tt
  end.
Definition assert_close4d (rtol atol : R) (a b : list (list (list (list R)))) : result unit :=
  if negb (Nat.eqb (length a) (length b)) then Err ValueError else close4d_loop rtol atol a b.
