(** fluids/geometry.py: V_vertical_torispherical_concave, over the reals. *)
From Coq Require Import Reals Bool.
From Verif Require Import Base Model_Real.
Open Scope R_scope.

(** fluids/geometry.py:1246-1253, the inner function V1 of [V_vertical_torispherical_concave] *)
Definition tori_concave_V1 (D_ f k alpha a1 D1 s t h : R) : result R :=
  let u := h - f * D_ * (1 - cos alpha) in
  let ratio := 0.5 * D_ - k * D_ in
  let v1 := 0.25 * PI * ((2 / 3) * a1 * a1 * a1 + 0.5 * a1 * D1 * D1) + PI * u * (ratio * ratio + s) in
  let v1 := v1 + u * u * (0.5 * PI * t - PI * (1 / 3) * u) in
  t4 <- psqrt (s + t * u - u * u) ;;
  t5 <- psqrt s ;;
  t6 <- pdiv (t - 2 * u) (2 * k * D_) ;;
  t7 <- pacos t6 ;;
  Ok (v1 + PI * D_ * (1 - 2 * k) * ((2 * u - t) * 0.25 * t4 + 0.25 * t * t5 + k * k * D_ * D_ * 0.5 * (t7 - alpha))).
(** fluids/geometry.py:1254-1256, the inner function V2 *)
Definition tori_concave_V2 (a1 D1 h : R) : result R :=
  t <- pdiv (D1 * D1) (2 * a1) ;; Ok (0.25 * PI * h * h * (2 * a1 + t - 4 / 3 * h)).
(** fluids/geometry.py:1235-1263 [V_vertical_torispherical_concave] *)
Definition V_vertical_torispherical_concave (D_ f k h : R) : result R :=
  if Rleb h 0 then Ok 0
  else
    t1 <- pdiv (1 - 2 * k) (2 * (f - k)) ;;
    alpha <- pasin t1 ;;
    let a1 := f * D_ * (1 - cos alpha) in
    let a2 := k * D_ * cos alpha in
    let D1 := 2 * f * D_ * sin alpha in
    let s := k * D_ * sin alpha in
    let s := s * s in
    let t := 2 * a2 in
    let V1 := tori_concave_V1 D_ f k alpha a1 D1 s t in
    if Rleb 0 h && Rltb h a2 then
      x <- V1 (a1 + a2) ;; y <- V1 (a1 + a2 - h) ;; Ok (0.25 * PI * D_ * D_ * h - x + y)
    else if Rleb a2 h && Rltb h (a1 + a2) then
      x <- V1 (a1 + a2) ;; y <- tori_concave_V2 a1 D1 (a1 + a2 - h) ;; Ok (0.25 * PI * D_ * D_ * h - x + y)
    else x <- V1 (a1 + a2) ;; Ok (0.25 * PI * D_ * D_ * h - x).
