(** fluids/numerics/special.py: inverse functions of complex numbers.  A complex number is the pair of its parts; there is no signed zero. *)
From Coq Require Import Reals Bool.
From Verif Require Import Base Model_Real Model_Poly.
Open Scope R_scope.

(** math.atan2 by its definition *)
Definition atan2 (y x : R) : R :=
  if Rltb 0 x then atan (y / x)
  else if Rltb x 0 then (if Rltb y 0 then atan (y / x) - PI else atan (y / x) + PI)
  else if Rltb 0 y then PI / 2 else if Rltb y 0 then - (PI / 2) else 0.
Definition copysign (x y : R) : R := if Rltb y 0 then - Rabs x else Rabs x.
(** fluids/numerics/special.py:74-78 *)
Definition CM_LARGE_DOUBLE : R := IZR (2 ^ 1024 - 2 ^ 971) / 4.
Definition CM_SQRT_LARGE_DOUBLE : R := sqrt CM_LARGE_DOUBLE.
Definition CM_SQRT_DBL_MIN : R := sqrt (/ IZR (2 ^ 1022)).
(** fluids/numerics/special.py:90-101 [py_cacos]; [csqrt] is cmath.sqrt *)
Definition py_cacos (csqrt : R * R -> R * R) (z : R * R) : R * R :=
  let '(zr, zi) := z in
  let s1 := csqrt (1 - zr, - zi) in
  let s2 := csqrt (1 + zr, zi) in
  let re := 2 * atan2 (fst s1) (fst s2) in
  let im := arcsinh (fst s2 * snd s1 - snd s2 * fst s1) in
  if (Reqb zi 0 && Rltb 1 zr && Rltb im 0)%bool then (re, - im) else (re, im).
(** fluids/numerics/special.py:103-105 [py_catan]; [clog] is cmath.log; 1j*x is (- imag, real) *)
Definition py_catan (clog : R * R -> R * R) (x : R * R) : R * R :=
  let '(xr, xi) := x in
  let p := clog (1 - - xi, 0 - xr) in
  let q := clog (1 + - xi, 0 + xr) in
  let d := (fst p - fst q, snd p - snd q) in
  (- (0.5 * snd d), 0.5 * fst d).
(** fluids/numerics/special.py:111-128: the part of [py_catanh] for a real part that is not negative; infinity, which is no real number, is [Err Diverges] *)
Definition catanh_right (zr zi : R) : result (R * R) :=
  let ay := Rabs zi in
  if (Rltb CM_SQRT_LARGE_DOUBLE zr || Rltb CM_SQRT_LARGE_DOUBLE ay)%bool then
    h <- py_hypot (zr / 2) (zi / 2) ;;
    a <- pdiv (zr / 4) h ;; real <- pdiv a h ;;
    Ok (real, - copysign (PI / 2) (- zi))
  else if (Reqb zr 1 && Rltb ay CM_SQRT_DBL_MIN)%bool then
    if Reqb ay 0 then Err Diverges
    else
      s <- psqrt ay ;; h <- py_hypot ay 2 ;; t <- psqrt h ;; q <- pdiv s t ;; l <- plog q ;;
      Ok (- l, copysign (atan2 2 (- ay) / 2) zi)
  else
    q <- pdiv (4 * zr) ((1 - zr) * (1 - zr) + ay * ay) ;;
    l <- plog1p q ;;
    Ok (l / 4, - atan2 (-2 * zi) ((1 - zr) * (1 + zr) - ay * ay) / 2).
(** fluids/numerics/special.py:107-128 [py_catanh] *)
Definition py_catanh (z : R * R) : result (R * R) :=
  let '(zr, zi) := z in
  if Rltb zr 0 then res <- catanh_right (- zr) zi ;; Ok (- fst res, snd res) else catanh_right zr zi.
