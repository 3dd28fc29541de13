(** Further Python float operations on [R] that can fail, for the formula models
    (see Base.v for division, square root, logarithm and power). *)
From Coq Require Import Reals Lra.
From Verif Require Import Base.
Open Scope R_scope.

Definition log10 (x : R) : R := ln x / ln 10.
Definition plog10 (x : R) : result R := if Rleb x 0 then Err ValueError else Ok (log10 x).
Definition plog1p (x : R) : result R := plog (1 + x).
Definition pacos (x : R) : result R :=
  if Rltb x (-1) then Err ValueError else if Rltb 1 x then Err ValueError else Ok (acos x).
Definition pasin (x : R) : result R :=
  if Rltb x (-1) then Err ValueError else if Rltb 1 x then Err ValueError else Ok (asin x).
(** [math.cbrt] (and its fallback [x**(1/3)] for the nonnegative arguments it is used with). *)
Definition cbrt (x : R) : R :=
  if Rltb 0 x then Rpower x (1 / 3) else if Reqb x 0 then 0 else - Rpower (- x) (1 / 3).
Definition pcbrt (x : R) : result R := Ok (cbrt x).
Definition radians (x : R) : R := x * (PI / 180).
Definition degrees (x : R) : R := x * (180 / PI).
Definition pacosh (x : R) : result R := if Rltb x 1 then Err ValueError else Ok (ln (x + sqrt (x * x - 1))).

Lemma plog10_ok x : 0 < x -> plog10 x = Ok (log10 x).
Proof. intros H; unfold plog10. destruct (Rleb x 0) eqn:E; auto. apply Rleb_true in E; lra. Qed.
Lemma ln10_pos : 0 < ln 10.
Proof. rewrite <- ln_1. apply ln_increasing; lra. Qed.
