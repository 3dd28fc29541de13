(** [s == kind] for an optional head name. *)
Definition is_kind (s : option string) (kind : string) : bool := match s with Some s => String.eqb s kind | None => false end.

(** fluids/geometry.py:1628-1631, 2855-2858: the head names accepted. *)
Definition head_known (s : option string) : bool :=
  match s with
  | None => true
  | Some s => existsb (String.eqb s) ["conical"; "ellipsoidal"; "torispherical"; "spherical"; "guppy"]%string
  end.

(** fluids/geometry.py:1634-1648, 2861-2875: a torispherical head needs both [f] and [k]; the others ignore them. *)
Definition head_fk (s : option string) (f k : option R) : result (R * R) :=
  if is_kind s "torispherical" then
    match f, k with Some f, Some k => Ok (f, k) | _, _ => Err ValueError end
  else Ok (0, 0).

(** fluids/geometry.py:1528-1541, one end of [SA_tank]; any other name counts as a flat end, as written. *)
Definition SA_tank_side (D_ : R) (side : option string) (a : R) (f k : option R) : result R :=
  if is_kind side "conical" then SA_conical_head D_ a
  else if is_kind side "ellipsoidal" then SA_ellipsoidal_head D_ a
  else if is_kind side "guppy" then SA_guppy_head D_ a
  else if is_kind side "spherical" then Ok (PI * (a * a + 0.25 * D_ * D_))
  else if is_kind side "torispherical" then
    match f, k with Some f, Some k => SA_torispheroidal D_ f k | _, _ => Err ValueError end
  else Ok (0.25 * PI * D_ * D_).

(** fluids/geometry.py:1527-1566 [SA_tank]. The source reuses the area of side A when both ends have equal
    parameters: the same value. *)
Definition SA_tank (D_ L : R) (sideA sideB : option string) (sideA_a sideB_a : R) (sideA_f sideA_k sideB_f sideB_k : option R) : result (R * R * R * R) :=
  sideA_SA <- SA_tank_side D_ sideA sideA_a sideA_f sideA_k ;;
  sideB_SA <- SA_tank_side D_ sideB sideB_a sideB_f sideB_k ;;
  let lateral_SA := PI * D_ * L in
  Ok (sideA_SA + sideB_SA + lateral_SA, sideA_SA, sideB_SA, lateral_SA).

(** One statement [if side == kind: V += volume]. *)
Definition add_if (side : option string) (kind : string) (volume : result R) (V : R) : result R :=
  if is_kind side kind then v <- volume ;; Ok (V + v) else Ok V.

(** fluids/geometry.py:1694, 2924: the wetted part of the circular cross section. *)
Definition circle_Af (R_ h : R) : result R :=
  t <- pdiv (R_ - h) R_ ;; c <- pacos t ;; s <- psqrt (2 * R_ * h - h * h) ;;
  Ok (R_ * R_ * c - (R_ - h) * s).

(** fluids/geometry.py:1628-1732 [V_tank]. The source computes one head and uses it twice when both ends have equal
    parameters: the same value. *)
Definition V_tank (quad : (R -> R) -> R -> R -> R) (D_ L : R) (horizontal : bool) (sideA sideB : option string) (sideA_a sideB_a : R) (sideA_f sideA_k sideB_f sideB_k : option R) : result (R * R * R * R) :=
  if negb (head_known sideA) then Err ValueError
  else if negb (head_known sideB) then Err ValueError
  else
  '(fA, kA) <- head_fk sideA sideA_f sideA_k ;;
  '(fB, kB) <- head_fk sideB sideB_f sideB_k ;;
  let R_ := 0.5 * D_ in
  if horizontal then
    vA <- add_if sideA "conical" (V_horiz_conical D_ L sideA_a D_ true) 0 ;;
    vB <- add_if sideB "conical" (V_horiz_conical D_ L sideB_a D_ true) 0 ;;
    vA <- add_if sideA "ellipsoidal" (V_horiz_ellipsoidal D_ L sideA_a D_ true) vA ;;
    vB <- add_if sideB "ellipsoidal" (V_horiz_ellipsoidal D_ L sideB_a D_ true) vB ;;
    vA <- add_if sideA "guppy" (V_horiz_guppy D_ L sideA_a D_ true) vA ;;
    vB <- add_if sideB "guppy" (V_horiz_guppy D_ L sideB_a D_ true) vB ;;
    vA <- add_if sideA "spherical" (V_horiz_spherical quad D_ L sideA_a D_ true) vA ;;
    vB <- add_if sideB "spherical" (V_horiz_spherical quad D_ L sideB_a D_ true) vB ;;
    vA <- add_if sideA "torispherical" (V_horiz_torispherical quad D_ L (Some fA) (Some kA) D_ true) vA ;;
    vB <- add_if sideB "torispherical" (V_horiz_torispherical quad D_ L (Some fB) (Some kB) D_ true) vB ;;
    Af <- circle_Af R_ D_ ;;
    let lateral_V := L * Af in
    Ok (lateral_V + vA + vB, vA, vB, lateral_V)
  else
    vA <- add_if sideA "conical" (V_vertical_conical D_ sideA_a sideA_a) 0 ;;
    vB <- add_if sideB "conical" (V_vertical_conical D_ sideB_a sideB_a) 0 ;;
    vA <- add_if sideA "ellipsoidal" (V_vertical_ellipsoidal D_ sideA_a sideA_a) vA ;;
    vB <- add_if sideB "ellipsoidal" (V_vertical_ellipsoidal D_ sideB_a sideB_a) vB ;;
    vA <- add_if sideA "spherical" (V_vertical_spherical D_ sideA_a sideA_a) vA ;;
    vB <- add_if sideB "spherical" (V_vertical_spherical D_ sideB_a sideB_a) vB ;;
    vA <- add_if sideA "torispherical" (V_vertical_torispherical D_ fA kA sideA_a) vA ;;
    vB <- add_if sideB "torispherical" (V_vertical_torispherical D_ fB kB sideB_a) vB ;;
    let lateral_V := 0.25 * PI * D_ * D_ * L in
    Ok (lateral_V + vA + vB, vA, vB, lateral_V).

(** One statement pair [V += volume at sideB_a; V -= volume at h2] of the top head. *)
Definition add_top (side : option string) (kind : string) (volume : R -> result R) (clip : R -> R) (a h2 V : R) : result R :=
  if is_kind side kind then v <- volume a ;; v2 <- volume h2 ;; Ok (V + v - clip v2) else Ok V.

(** fluids/geometry.py:2855-2960 [V_from_h]. The source computes one head and doubles it when both ends have equal
    parameters: the same value. *)
Definition V_from_h (quad : (R -> R) -> R -> R -> R) (h D_ L : R) (horizontal : bool) (sideA sideB : option string) (sideA_a sideB_a : R) (sideA_f sideA_k sideB_f sideB_k : option R) : result R :=
  if negb (head_known sideA) then Err ValueError
  else if negb (head_known sideB) then Err ValueError
  else
  '(fA, kA) <- head_fk sideA sideA_f sideA_k ;;
  '(fB, kB) <- head_fk sideB sideB_f sideB_k ;;
  let R_ := 0.5 * D_ in
  if horizontal then
    let h := if Rltb D_ h then D_ else h in
    V <- add_if sideA "conical" (V_horiz_conical D_ L sideA_a h true) 0 ;;
    V <- add_if sideB "conical" (V_horiz_conical D_ L sideB_a h true) V ;;
    V <- add_if sideA "ellipsoidal" (V_horiz_ellipsoidal D_ L sideA_a h true) V ;;
    V <- add_if sideB "ellipsoidal" (V_horiz_ellipsoidal D_ L sideB_a h true) V ;;
    V <- add_if sideA "guppy" (V_horiz_guppy D_ L sideA_a h true) V ;;
    V <- add_if sideB "guppy" (V_horiz_guppy D_ L sideB_a h true) V ;;
    V <- add_if sideA "spherical" (V_horiz_spherical quad D_ L sideA_a h true) V ;;
    V <- add_if sideB "spherical" (V_horiz_spherical quad D_ L sideB_a h true) V ;;
    V <- add_if sideA "torispherical" (V_horiz_torispherical quad D_ L (Some fA) (Some kA) h true) V ;;
    V <- add_if sideB "torispherical" (V_horiz_torispherical quad D_ L (Some fB) (Some kB) h true) V ;;
    Af <- circle_Af R_ h ;;
    Ok (V + L * Af)
  else
    let max_h := L + sideA_a + sideB_a in
    let h := if Rltb max_h h then max_h else h in
    V <- add_if sideA "conical" (V_vertical_conical D_ sideA_a (Rmin sideA_a h)) 0 ;;
    V <- add_if sideA "ellipsoidal" (V_vertical_ellipsoidal D_ sideA_a (Rmin sideA_a h)) V ;;
    V <- add_if sideA "spherical" (V_vertical_spherical D_ sideA_a (Rmin sideA_a h)) V ;;
    V <- add_if sideA "torispherical" (V_vertical_torispherical D_ fA kA (Rmin sideA_a h)) V ;;
    let V := if Rleb (sideA_a + L) h then V + 0.25 * PI * D_ * D_ * L
             else if Rltb sideA_a h then V + 0.25 * PI * D_ * D_ * (h - sideA_a)
             else V in
    if Rltb (sideA_a + L) h then
      let h2 := sideB_a - (h - sideA_a - L) in
      V <- add_top sideB "conical" (V_vertical_conical D_ sideB_a) (fun v => v) sideB_a h2 V ;;
      V <- add_top sideB "ellipsoidal" (V_vertical_ellipsoidal D_ sideB_a) (fun v => v) sideB_a h2 V ;;
      V <- add_top sideB "spherical" (V_vertical_spherical D_ sideB_a) (fun v => v) sideB_a h2 V ;;
      add_top sideB "torispherical" (V_vertical_torispherical D_ fB kB) (Rmax 0) sideB_a h2 V
    else Ok V.
