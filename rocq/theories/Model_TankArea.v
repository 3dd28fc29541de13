(** fluids/geometry.py: wetted area of a tank, over the reals. *)
From Coq Require Import Reals List String Bool.
From Verif Require Import Base Model_Real Model_Geometry.
Open Scope R_scope.

(** One vertical head, filled up to level [h]: the four names with a formula. *)
Definition SA_vertical_head (D_ : R) (side : option string) (a : R) (f k : option R) (h : R) : result R :=
  if is_kind side "conical" then SA_partial_vertical_conical_head D_ a h
  else if is_kind side "ellipsoidal" then SA_partial_vertical_ellipsoidal_head D_ a h
  else if is_kind side "spherical" then SA_partial_vertical_spherical_head D_ a h
  else match f, k with
  | Some f, Some k => SA_partial_vertical_torispherical_head D_ f k h
  | _, _ => Err ValueError
  end.

(** fluids/geometry.py:3074-3088, bottom head of a vertical tank; a guppy head adds nothing, as written. *)
Definition SA_bottom (D_ : R) (side : option string) (a : R) (f k : option R) (h : R) : result R :=
  match side with
  | None => Ok (0.25 * PI * D_ * D_)
  | Some s => if String.eqb s "guppy" then Ok 0 else SA_vertical_head D_ side a f k (Rmin a h)
  end.

(** fluids/geometry.py:3094-3127, top head of a vertical tank; [h2] is the height still dry, [at_top] tells [h == sideA_a + L].
    The missing [f] or [k] of a torispherical head is only looked at when its depth is not 0, as written. *)
Definition SA_top (D_ : R) (side : option string) (a : R) (f k : option R) (h2 : R) (at_top : bool) : result R :=
  match side with
  | None => Ok (if at_top then 0.25 * PI * D_ * D_ else 0)
  | Some s =>
    if String.eqb s "guppy" then Ok 0
    else if Reqb a 0 then Ok (0.25 * PI * D_ * D_)
    else
      full <- SA_vertical_head D_ side a f k a ;;
      dry <- SA_vertical_head D_ side a f k h2 ;;
      Ok (full - (if String.eqb s "torispherical" then Rmax 0 dry else dry))
  end.

(** fluids/geometry.py:3024-3128 [SA_from_h].  The horizontal ellipsoidal, guppy, spherical and torispherical heads are numerical
    integrals: here they are parameters (diameter, depth or dish and knuckle factors, level). *)
Definition SA_horiz_head (ell gup sph : R -> R -> R -> result R) (tor : R -> R -> R -> R -> result R) (D_ : R) (side : option string) (a : R) (f k : option R) (h : R) : result R :=
  match side with
  | None => A_partial_circle D_ h
  | Some s =>
    if String.eqb s "conical" then SA_partial_horiz_conical_head D_ a h
    else if String.eqb s "ellipsoidal" then ell D_ a h
    else if String.eqb s "guppy" then gup D_ a h
    else if String.eqb s "spherical" then sph D_ a h
    else match f, k with Some f, Some k => tor D_ f k h | _, _ => Err ValueError end
  end.
Definition SA_from_h (ell gup sph : R -> R -> R -> result R) (tor : R -> R -> R -> R -> result R) (h D_ L : R) (horizontal : bool)
    (sideA sideB : option string) (sideA_a sideB_a : R) (sideA_f sideA_k sideB_f sideB_k : option R) : result R :=
  if negb (head_known sideA) then Err ValueError
  else if negb (head_known sideB) then Err ValueError
  else if horizontal then
    let h := if Rltb D_ h then D_ else h in
    sA <- SA_horiz_head ell gup sph tor D_ sideA sideA_a sideA_f sideA_k h ;;
    sB <- SA_horiz_head ell gup sph tor D_ sideB sideB_a sideB_f sideB_k h ;;
    t <- pdiv (D_ - h - h) D_ ;; c <- pacos t ;;
    Ok (sA + sB + L * D_ * c)
  else
    let max_h := L + sideA_a + sideB_a in
    let h := if Rltb max_h h then max_h else h in
    sA <- SA_bottom D_ sideA sideA_a sideA_f sideA_k h ;;
    let SA := if Rleb (sideA_a + L) h then sA + PI * D_ * L
              else if Rltb sideA_a h then sA + PI * D_ * (h - sideA_a)
              else sA in
    if Rleb (sideA_a + L) h then
      sB <- SA_top D_ sideB sideB_a sideB_f sideB_k (sideB_a - (h - sideA_a - L)) (Reqb h (sideA_a + L)) ;;
      Ok (SA + sB)
    else Ok SA.
