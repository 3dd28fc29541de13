(** B-splines of /repo/fluids/numerics/__init__.py.  Knot vectors, coefficients: lists.  Python's recursion limit
    (func_40_splev recurses once per knot) is not modelled. *)
From Coq Require Import List Bool QArith Reals ZArith Arith.
From Verif Require Import Base Model_Numerics.
Import ListNotations.

Section Generic.
Context {A : Type} `{NA : Num A}.
Local Open Scope num_scope.

(** __init__.py:5096-5104 [fpbspl]: one step j.  The array h is built left to right: [carry] is the value h[i] left by
    the previous i (0 at first), [hh] the remaining old values. li - j is never negative (l > k >= j). *)
Fixpoint fpbspl_row (t : list A) (x : A) (l j i : nat) (carry : A) (hh : list A) : result (list A) :=
  match hh with
  | [] => Ok [carry]
  | v :: rest =>
      tr <- idx t (l + i) ;; tl <- idx t (l + i - j) ;;
      f <- pydiv v (tr - tl) ;;
      w <- fpbspl_row t x l j (S i) (f * (x - tl)) rest ;;
      Ok ((carry + f * (tr - x)) :: w)
  end.
Fixpoint fpbspl (t : list A) (k : nat) (x : A) (l : nat) : result (list A) :=
  match k with
  | O => Ok [n1]
  | S k' => h <- fpbspl t k' x l ;; fpbspl_row t x l k 0 n0 h
  end.

(** __init__.py:4970-4976 [func_40_splev]: l only (l1 = l + 1); [fuel] steps.  func_35_splev (4958-4968) always enters it at
    once since l1 == k2 on entry. *)
Fixpoint func_40_splev (fuel : nat) (t : list A) (arg : A) (l nk1 : nat) : result nat :=
  match fuel with
  | O => Err Diverges
  | S fuel' =>
      tv <- idx t l ;;
      if (arg <? tv) || Nat.eqb l nk1 then Ok l else func_40_splev fuel' t arg (S l) nk1
  end.
(** __init__.py:4978-5060 [py_splev], k < len(t) - k assumed by indexing (IndexError otherwise); other values of ext leave
    [l] at its start *)
Fixpoint dot_from (c : list A) (i : nat) (h : list A) (sp : A) : result A :=
  match h with [] => Ok sp | v :: rest => cv <- idx c i ;; dot_from c (S i) rest (sp + cv * v) end.
Definition py_splev (x : A) (t c : list A) (k : nat) (ext : Z) : result A :=
  let n := length t in
  let k1 := S k in
  let nk1 := (n - k1)%nat in
  tb <- idx t k ;; te <- idx t nk1 ;;
  let outside := (x <? tb) || (te <? x) in
  if outside && (ext =? 1)%Z then Ok n0
  else if outside && (ext =? 2)%Z then Err ValueError
  else
    let arg := if outside && (ext =? 3)%Z then (if x <? tb then tb else te) else x in
    l <- (if outside && negb ((ext =? 0)%Z || (ext =? 3)%Z) then Ok k1 else func_40_splev (S n) t arg k1 nk1) ;;
    h <- fpbspl t k arg l ;;
    dot_from c (l - k1) h n0.

(** __init__.py:5107-5128 [init_w] *)
Fixpoint init_w_loop (fuel : nat) (t : list A) (arg : A) (l1 stop : nat) : result nat :=
  match fuel with
  | O => Err Diverges
  | S fuel' =>
      tv <- idx t l1 ;;
      if (arg <? tv) || Nat.eqb l1 stop then Ok l1 else init_w_loop fuel' t arg (S l1) stop
  end.
Definition init_w (t : list A) (k : nat) (x : A) : result (nat * list A) :=
  tb <- idx t k ;;
  let n := length t in
  te <- idx t (n - k - 1) ;;
  let arg := if x <? tb then tb else x in
  let arg := if te <? arg then te else arg in
  l1 <- init_w_loop (S n) t arg (S k) (n - k - 1) ;;
  h <- fpbspl t k arg l1 ;;
  Ok ((l1 - k - 1)%nat, h).
(** __init__.py:5130-5145 [bispev_inner] with its compensated summation; [py_bisplev] (5063-5087) unpacks tck *)
Fixpoint bispev_row (c : list A) (wxi : A) (l2 : nat) (wy : list A) (sp err : A) : result (A * A) :=
  match wy with
  | [] => Ok (sp, err)
  | w :: rest =>
      cv <- idx c l2 ;;
      let a := cv * wxi * w - err in
      let tmp := sp + a in
      bispev_row c wxi (S l2) rest tmp ((tmp - sp) - a)
  end.
Fixpoint bispev_rows (c : list A) (nky1 : nat) (wx : list A) (l2 : nat) (wy : list A) (sp err : A) : result A :=
  match wx with
  | [] => Ok sp
  | w :: rest => ' (sp, err) <- bispev_row c w l2 wy sp err ;; bispev_rows c nky1 rest (l2 + nky1) wy sp err
  end.
Definition bisplev (tx ty c : list A) (kx ky : nat) (x y : A) : result A :=
  let nky1 := (length ty - S ky)%nat in
  ' (lx, wx) <- init_w tx kx x ;;
  ' (ly, wy) <- init_w ty ky y ;;
  bispev_rows c nky1 wx (lx * nky1 + ly) wy n0 n0.

(** __init__.py:2127-2143 [tck_interp2d_linear] with kx = ky = 1 (implementation_optimize_tck only changes the container):
    the knots in x and y, the coefficients *)
Definition pad_ends (x : list A) : result (list A) := a <- idx x 0 ;; b <- last_of x ;; Ok ((a :: x) ++ [b]).
Definition tck_interp2d_linear (x y : list A) (z : list (list A)) : result (list A * list A * list A) :=
  tx <- pad_ends x ;; ty <- pad_ends y ;;
  z0 <- idx z 0 ;;
  rows <- mapM (fun i => mapM (fun r => idx r i) z) (seq 0 (length z0)) ;;
  Ok (tx, ty, concat rows).
End Generic.
