(** Vocabulary for the solvers of systems. *)
From Coq Require Import Reals List.
From Verif Require Import Base Sums.
Import ListNotations.
Local Open Scope R_scope.

Definition norm_1 (l : list R) : R := lsum (map Rabs l).
Definition norm_2 (l : list R) : R := sqrt (lsum (map (fun v => v * v) l)).
(** x + c*d and x - c*d, componentwise *)
Definition moved (x d : list R) (c : R) : list R := map (fun p => fst p + snd p * c) (combine x d).
Definition moved_back (x d : list R) (c : R) : list R := map (fun p => fst p - snd p * c) (combine x d).
(** a residual meets the requested tolerances *)
Definition meets (xtol ytol : option R) (r : list R) : Prop :=
  (forall t, xtol = Some t -> norm_2 r <= t) /\ (forall t, ytol = Some t -> norm_1 r <= t).
Definition minus (x y : list R) : list R := map (fun p => fst p - snd p) (combine x y).
