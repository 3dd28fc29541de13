(** What users of the root finders care about, stated without reference to the algorithms. *)
From Coq Require Import Reals List.
From Verif Require Import Base.
Import ListNotations.
Local Open Scope R_scope.

(** x lies on the closed segment with ends a and b, in either order *)
Definition hull (a b x : R) : Prop := a <= x <= b \/ b <= x <= a.
(** x respects the optional limits *)
Definition in_bounds (low high : option R) (x : R) : Prop :=
  (forall l, low = Some l -> l <= x) /\ (forall h, high = Some h -> x <= h).
(** two user functions that cannot be told apart by evaluating them at points satisfying P.  A solver
    that gives the same outcome for all such f and g never uses a value of f outside P. *)
Definition agree_on {B} (P : R -> Prop) (f g : R -> B) : Prop := forall x, P x -> f x = g x.
(** f is defined at x and y and has strictly opposite signs there *)
Definition opposite (f : R -> result R) (x y : R) : Prop :=
  exists v w, f x = Ok v /\ f y = Ok w /\ v * w < 0.
(** f never raises *)
Definition total {A B} (f : A -> result B) : Prop := forall x, exists v, f x = Ok v.
(** an optional tolerance is met *)
Definition within (tol : option R) (v : R) : Prop := forall t, tol = Some t -> Rabs v < t.
