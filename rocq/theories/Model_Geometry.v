(** Tank, vessel and particle geometry.
    Generated by tools/pytrans.py from /repo/fluids, function by function: floats are exact reals,
    a division, root, logarithm or power that Python refuses is an [Err]; float rounding and overflow
    are not represented.  Module constants are inlined with their exact rational value. *)
From Coq Require Import Reals String List Bool.
From Verif Require Import Base Model_Real.
Import ListNotations.
Open Scope R_scope.

(** fluids/geometry.py:232-238 [SA_partial_sphere]. *)
Definition SA_partial_sphere (D_ : R) (h : R) : result R :=
  h <- (if (Rltb D_ h) then let h := D_ in
  Ok h
  else if (Rltb h 0) then let h := 0 in
  Ok h
  else Ok h) ;;
  let r := (D_ * 0.5) in
  a <- psqrt (h * ((2 * r) - h)) ;;
  Ok (PI * ((a * a) + (h * h))).

(** fluids/geometry.py:275-281 [V_partial_sphere]. *)
Definition V_partial_sphere (D_ : R) (h : R) : result R :=
  if (Rleb h 0) then Ok 0
  else h <- (if (Rltb D_ h) then let h := D_ in
  Ok h
  else Ok h) ;;
  let r := (0.5 * D_) in
  a <- psqrt (h * ((2 * r) - h)) ;;
  Ok ((((1 / 6) * PI) * h) * (((3 * a) * a) + (h * h))).

(** fluids/geometry.py:337-359 [V_horiz_conical]. *)
Definition V_horiz_conical (D_ : R) (L : R) (a : R) (h : R) (headonly : bool) : result R :=
  if (Rleb h 0) then Ok 0
  else if (Rltb D_ h) then let h := D_ in
  let R_ := (0.5 * D_) in
  let R_third := (R_ * (1 / 3)) in
  t0 <- pdiv (R_ - h) R_ ;;
  t2 <- pacos t0 ;;
  t3 <- psqrt (h * ((R_ + R_) - h)) ;;
  let Af := (((R_ * R_) * t2) - ((R_ - h) * t3)) in
  let M := (Rabs t0) in
  Vf <- (if (Reqb h R_) then let Vf := (((a * R_) * R_third) * PI) in
  Ok Vf
  else t4 <- pacos M ;;
  t5 <- pdiv 1 M ;;
  t6 <- pacosh t5 ;;
  t7 <- psqrt (1 - (M * M)) ;;
  let K := ((t4 + (((M * M) * M) * t6)) - ((2 * M) * t7)) in
  if ((Rleb 0 h) && (Rltb h R_))%bool then let Vf := ((((2 * a) * R_) * R_third) * K) in
  Ok Vf
  else let Vf := ((((2 * a) * R_) * R_third) * (PI - K)) in
  Ok Vf) ;;
  if headonly then let Vf := (0.5 * Vf) in
  Ok Vf
  else let Vf := (Vf + (Af * L)) in
  Ok Vf
  else let R_ := (0.5 * D_) in
  let R_third := (R_ * (1 / 3)) in
  t0 <- pdiv (R_ - h) R_ ;;
  t9 <- pacos t0 ;;
  t10 <- psqrt (h * ((R_ + R_) - h)) ;;
  let Af := (((R_ * R_) * t9) - ((R_ - h) * t10)) in
  let M := (Rabs t0) in
  Vf <- (if (Reqb h R_) then let Vf := (((a * R_) * R_third) * PI) in
  Ok Vf
  else t11 <- pacos M ;;
  t12 <- pdiv 1 M ;;
  t13 <- pacosh t12 ;;
  t14 <- psqrt (1 - (M * M)) ;;
  let K := ((t11 + (((M * M) * M) * t13)) - ((2 * M) * t14)) in
  if ((Rleb 0 h) && (Rltb h R_))%bool then let Vf := ((((2 * a) * R_) * R_third) * K) in
  Ok Vf
  else let Vf := ((((2 * a) * R_) * R_third) * (PI - K)) in
  Ok Vf) ;;
  if headonly then let Vf := (0.5 * Vf) in
  Ok Vf
  else let Vf := (Vf + (Af * L)) in
  Ok Vf.

(** fluids/geometry.py:401-412 [V_horiz_ellipsoidal]. *)
Definition V_horiz_ellipsoidal (D_ : R) (L : R) (a : R) (h : R) (headonly : bool) : result R :=
  if (Rleb h 0) then Ok 0
  else if (Rltb D_ h) then let h := D_ in
  let R_ := (0.5 * D_) in
  t1 <- pdiv (R_ - h) R_ ;;
  t2 <- pacos t1 ;;
  t3 <- psqrt (((2 * R_) * h) - (h * h)) ;;
  let Af := (((R_ * R_) * t2) - ((R_ - h) * t3)) in
  t4 <- pdiv h (3 * R_) ;;
  let Vf := ((((PI * a) * h) * h) * (1 - t4)) in
  if headonly then let Vf := (0.5 * Vf) in
  Ok Vf
  else let Vf := (Vf + (Af * L)) in
  Ok Vf
  else let R_ := (0.5 * D_) in
  t5 <- pdiv (R_ - h) R_ ;;
  t6 <- pacos t5 ;;
  t7 <- psqrt (((2 * R_) * h) - (h * h)) ;;
  let Af := (((R_ * R_) * t6) - ((R_ - h) * t7)) in
  t8 <- pdiv h (3 * R_) ;;
  let Vf := ((((PI * a) * h) * h) * (1 - t8)) in
  if headonly then let Vf := (0.5 * Vf) in
  Ok Vf
  else let Vf := (Vf + (Af * L)) in
  Ok Vf.

(** fluids/geometry.py:455-467 [V_horiz_guppy]. *)
Definition V_horiz_guppy (D_ : R) (L : R) (a : R) (h : R) (headonly : bool) : result R :=
  if (Rleb h 0) then Ok 0
  else if (Rltb D_ h) then let h := D_ in
  let R_ := (0.5 * D_) in
  x0 <- psqrt (((2 * R_) * h) - (h * h)) ;;
  t2 <- pdiv (R_ - h) R_ ;;
  t3 <- pacos t2 ;;
  let Af := (((R_ * R_) * t3) - ((R_ - h) * x0)) in
  t4 <- pdiv h R_ ;;
  t5 <- pacos (1 - t4) ;;
  t6 <- pdiv ((2 / 9) * a) R_ ;;
  let Vf := ((((((2 / 3) * a) * R_) * R_) * t5) + (((t6 * x0) * ((2 * h) - (3 * R_))) * (h + R_))) in
  if headonly then let Vf := (Vf * 0.5) in
  Ok Vf
  else let Vf := (Vf + (Af * L)) in
  Ok Vf
  else let R_ := (0.5 * D_) in
  x0 <- psqrt (((2 * R_) * h) - (h * h)) ;;
  t8 <- pdiv (R_ - h) R_ ;;
  t9 <- pacos t8 ;;
  let Af := (((R_ * R_) * t9) - ((R_ - h) * x0)) in
  t10 <- pdiv h R_ ;;
  t11 <- pacos (1 - t10) ;;
  t12 <- pdiv ((2 / 9) * a) R_ ;;
  let Vf := ((((((2 / 3) * a) * R_) * R_) * t11) + (((t12 * x0) * ((2 * h) - (3 * R_))) * (h + R_))) in
  if headonly then let Vf := (Vf * 0.5) in
  Ok Vf
  else let Vf := (Vf + (Af * L)) in
  Ok Vf.

(** fluids/geometry.py:798-806 [V_vertical_conical]. *)
Definition V_vertical_conical (D_ : R) (a : R) (h : R) : result R :=
  if (Rleb h 0) then Ok 0
  else if (Rltb h a) then ratio <- pdiv (D_ * h) a ;;
  let Vf := (((((0.25 * PI) * ratio) * ratio) * (1 / 3)) * h) in
  Ok Vf
  else let Vf := ((((0.25 * PI) * D_) * D_) * (h - (a * (2 / 3)))) in
  Ok Vf.

(** fluids/geometry.py:845-852 [V_vertical_ellipsoidal]. *)
Definition V_vertical_ellipsoidal (D_ : R) (a : R) (h : R) : result R :=
  if (Rleb h 0) then Ok 0
  else if (Rltb h a) then ratio <- pdiv (D_ * h) a ;;
  let Vf := ((((0.25 * PI) * ratio) * ratio) * (a - (h * (1 / 3)))) in
  Ok Vf
  else let Vf := ((((0.25 * PI) * D_) * D_) * (h - (a * (1 / 3)))) in
  Ok Vf.

(** fluids/geometry.py:891-897 [V_vertical_spherical]. *)
Definition V_vertical_spherical (D_ : R) (a : R) (h : R) : result R :=
  if (Rleb h 0) then Ok 0
  else if (Rltb h a) then t1 <- pdiv ((0.5 * D_) * D_) a ;;
  let Vf := ((((0.25 * PI) * h) * h) * (((2 * a) + t1) - ((4 / 3) * h))) in
  Ok Vf
  else let Vf := ((0.25 * PI) * ((((((2 / 3) * a) * a) * a) - (((0.5 * a) * D_) * D_)) + ((h * D_) * D_))) in
  Ok Vf.

(** fluids/geometry.py:976-1006 [V_vertical_torispherical]. *)
Definition V_vertical_torispherical (D_ : R) (f : R) (k : R) (h : R) : result R :=
  if (Rleb h 0) then Ok 0
  else t1 <- pdiv (1 - (2 * k)) (2 * (f - k)) ;;
  alpha <- pasin t1 ;;
  let sin_alpha := (sin alpha) in
  let cos_alpha := (cos alpha) in
  let a1 := ((f * D_) * (1 - cos_alpha)) in
  let a2 := ((k * D_) * cos_alpha) in
  let D1 := (((2 * f) * D_) * sin_alpha) in
  let x1 := ((k * D_) * sin_alpha) in
  let s := (x1 * x1) in
  let t := (a2 + a2) in
  let u := (h - ((f * D_) * (1 - cos_alpha))) in
  let h2 := (h * h) in
  Vf <- (if ((Rleb 0 h) && (Rleb h a1))%bool then t3 <- pdiv ((0.5 * D1) * D1) a1 ;;
  let Vf := (((0.25 * PI) * h2) * (((a1 + a1) + t3) - ((4 / 3) * h))) in
  Ok Vf
  else if ((Rltb a1 h) && (Rleb h (a1 + a2)))%bool then let x2 := ((0.5 * D_) - (k * D_)) in
  let u2 := (u * u) in
  t4 <- psqrt ((s + (t * u)) - u2) ;;
  t5 <- psqrt s ;;
  t6 <- pdiv (t - (2 * u)) ((2 * k) * D_) ;;
  t7 <- pacos t6 ;;
  let Vf := ((((((0.25 * PI) * a1) * ((((2 / 3) * a1) * a1) + ((0.5 * D1) * D1))) + ((PI * u) * ((x2 * x2) + s))) + ((PI * u2) * ((0.5 * t) - (u * (1 / 3))))) + (((PI * D_) * (1 - (2 * k))) * ((((0.25 * ((2 * u) - t)) * t4) + ((0.25 * t) * t5)) + (((((0.5 * k) * k) * D_) * D_) * (t7 - alpha))))) in
  Ok Vf
  else let ratio := ((0.5 * D_) - (k * D_)) in
  t8 <- psqrt s ;;
  t9 <- pasin (cos alpha) ;;
  let Vf := ((((((0.25 * PI) * (((((2 / 3) * a1) * a1) * a1) + (((0.5 * a1) * D1) * D1))) + (((0.5 * PI) * t) * ((ratio * ratio) + s))) + ((((PI * t) * t) * t) * (1 / 12))) + (((PI * D_) * (1 - (2 * k))) * (((0.25 * t) * t8) + (((((k * k) * D_) * D_) * (1 / 2)) * t9)))) + ((((0.25 * PI) * D_) * D_) * (h - (a1 + a2)))) in
  Ok Vf) ;;
  Ok Vf.

(** fluids/geometry.py:1049-1056 [V_vertical_conical_concave]. *)
Definition V_vertical_conical_concave (D_ : R) (a : R) (h : R) : result R :=
  if (Rleb h 0) then Ok 0
  else if (Rltb h (Rabs a)) then let a_plus_h := (a + h) in
  t1 <- pdiv ((a_plus_h * a_plus_h) * a_plus_h) (a * a) ;;
  let Vf := ((((PI * D_) * D_) * (1 / 12)) * (((3 * h) + a) - t1)) in
  Ok Vf
  else let Vf := ((((PI * D_) * D_) * (1 / 12)) * ((3 * h) + a)) in
  Ok Vf.

(** fluids/geometry.py:1097-1104 [V_vertical_ellipsoidal_concave]. *)
Definition V_vertical_ellipsoidal_concave (D_ : R) (a : R) (h : R) : result R :=
  if (Rleb h 0) then Ok 0
  else if (Rltb h (Rabs a)) then let a_plus_h := (a + h) in
  t1 <- pdiv ((a_plus_h * a_plus_h) * ((2 * a) - h)) (a * a) ;;
  let Vf := ((((PI * D_) * D_) * (1 / 12)) * (((3 * h) + (2 * a)) - t1)) in
  Ok Vf
  else let Vf := ((((PI * D_) * D_) * (1 / 12)) * ((3 * h) + (2 * a))) in
  Ok Vf.

(** fluids/geometry.py:1146-1155 [V_vertical_spherical_concave]. *)
Definition V_vertical_spherical_concave (D_ : R) (a : R) (h : R) : result R :=
  if (Rleb h 0) then Ok 0
  else let D2 := (D_ * D_) in
  let a2 := (a * a) in
  if (Rltb h (Rabs a)) then let a_plus_h := (a + h) in
  t1 <- pdiv ((3 * D2) + (12 * a2)) ((2 * a) * a_plus_h) ;;
  let Vf := ((PI * (1 / 12)) * ((((3 * D2) * h) + ((a * (1 / 2)) * ((3 * D2) + (4 * a2)))) + (((a_plus_h * a_plus_h) * a_plus_h) * (4 - t1)))) in
  Ok Vf
  else let Vf := ((PI * (1 / 12)) * (((3 * D2) * h) + ((a * (1 / 2)) * ((3 * D2) + (4 * a2))))) in
  Ok Vf.

(** fluids/geometry.py:1361-1361 [SA_conical_head]. *)
Definition SA_conical_head (D_ : R) (a : R) : result R :=
  t1 <- psqrt ((a * a) + ((0.25 * D_) * D_)) ;;
  Ok (((0.5 * PI) * D_) * t1).

(** fluids/geometry.py:1394-1394 [SA_guppy_head]. *)
Definition SA_guppy_head (D_ : R) (a : R) : result R :=
  t1 <- psqrt ((a * a) + (D_ * D_)) ;;
  Ok ((((0.25 * PI) * D_) * t1) + (((0.5 * PI) * D_) * a)).

(** fluids/geometry.py:1453-1464 [SA_torispheroidal]. *)
Definition SA_torispheroidal (D_ : R) (f : R) (k : R) : result R :=
  let D2 := (D_ * D_) in
  let x1 := ((2 * PI) * D2) in
  k_inv <- pdiv 1 k ;;
  x2 <- pdiv (0.5 - k) (f - k) ;;
  t3 <- psqrt (1 - (x2 * x2)) ;;
  let alpha_1 := (f * (1 - t3)) in
  t4 <- psqrt ((((f * f) - ((2 * f) * k)) + k) - 0.25) ;;
  let alpha_2 := (f - t4) in
  let alpha := alpha_1 in
  let S1 := ((x1 * f) * alpha_1) in
  let alpha := alpha_2 in
  t5 <- pasin ((alpha - alpha_2) * k_inv) ;;
  t6 <- pasin ((alpha_1 - alpha_2) * k_inv) ;;
  let S2_sub := (t5 - t6) in
  let S2 := ((x1 * k) * ((alpha - alpha_1) + ((0.5 - k) * S2_sub))) in
  Ok (S1 + S2).

(** fluids/geometry.py:1314-1331 [SA_ellipsoidal_head]; [log1p e - log1p (-e)] as written. *)
Definition SA_ellipsoidal_head (D_ a : R) : result R :=
  if Reqb D_ (a * 2) then Ok (0.5 * PI * D_ * D_)
  else
  let R_ := 0.5 * D_ in
  if Rltb a R_ then
    let '(R_, a) := (Rmin R_ a, Rmax R_ a) in
    t <- pdiv (R_ * R_) (a * a) ;;
    e1 <- psqrt (1 - t) ;;
    log_term <- (if negb (Reqb e1 1) then x <- plog1p e1 ;; y <- plog1p (- e1) ;; Ok (x - y) else Ok 0) ;;
    u <- pdiv (PI * R_ * R_) e1 ;;
    Ok ((2 * PI * a * a + u * log_term) * 0.5)
  else
    s <- psqrt (a * a - R_ * R_) ;;
    u <- pdiv (PI * a * a * R_ * 1) s ;;
    c <- pdiv R_ (Rabs a) ;;
    w <- pacos c ;;
    Ok (PI * R_ * R_ + u * w).

(** fluids/geometry.py:469-472 [_V_horiz_spherical_toint], as a total function of the reals. *)
Definition V_horiz_spherical_toint (x r2 R2 den_inv : R) : R := (r2 - x * x) * atan (sqrt ((R2 - x * x) * den_inv)).

(** fluids/geometry.py:545-582 [V_horiz_spherical]. [quad f a b] stands for the numerical quadrature; the tolerance
    [isclose(r, R, rel_tol=2e-15)] is idealised to equality. *)
Definition V_horiz_spherical (quad : (R -> R) -> R -> R -> R) (D_ L a h : R) (headonly : bool) : result R :=
  if Rleb h 0 then Ok 0
  else
  let h := if Rltb D_ h then D_ else h in
  let R_ := 0.5 * D_ in
  r <- pdiv (0.5 * (a * a + R_ * R_)) (Rabs a) ;;
  let w := R_ - h in
  y <- psqrt (2 * R_ * h - h * h) ;;
  z <- (if Reqb r R_ then Ok 0 else psqrt (r * r - R_ * R_)) ;;
  t <- pdiv (R_ - h) R_ ;;
  c <- pacos t ;;
  let Af := R_ * R_ * c - (R_ - h) * y in
  Vf <- (if (Reqb h R_ && Rleb (Rabs a) R_)%bool then Ok (PI / 6 * a * (3 * R_ * R_ + a * a))
         else if (Reqb h D_ && Rleb (Rabs a) R_)%bool then Ok (PI / 3 * a * (3 * R_ * R_ + a * a))
         else if (Reqb h 0 || (Reqb a 0 || Reqb a R_ || Reqb a (- R_)) || Reqb z 0)%bool then
           q <- pdiv h R_ ;; Ok (PI * a * h * h * (1 - q * (1 / 3)))
         else if Rleb (0.01 * D_) (Rabs a) then
           R_r <- pdiv R_ r ;;
           sg <- pdiv a (Rabs a) ;;
           u1 <- pdiv (R_ * R_ - r * w) (R_ * (w - r)) ;; c1 <- pacos u1 ;;
           u2 <- pdiv (R_ * R_ + r * w) (R_ * (w + r)) ;; c2 <- pacos u2 ;;
           zr <- pdiv z r ;; wr <- pdiv w R_ ;; c3 <- pacos wr ;; yz <- pdiv y z ;;
           Ok (sg * (2 / 3 * r * r * r * (c1 + c2 - zr * (2 + R_r * R_r) * c3) - 2 * (w * r * r - w * w * w * (1 / 3)) * atan yz + 4 / 3 * w * y * z))
         else
           den_inv <- pdiv 1 (r * r - R_ * R_) ;;
           sg <- pdiv a (Rabs a) ;;
           Ok (sg * (2 * quad (fun x => V_horiz_spherical_toint x (r * r) (R_ * R_) den_inv) w R_ - Af * z))) ;;
  Ok (if headonly then 0.5 * Vf else Vf + Af * L).

(** fluids/geometry.py:585-604, the integrands of [V_horiz_torispherical] (V_horiz_torispherical_toint_1, _2, _3), as total functions of the reals. *)
Definition tori_int_1 (x w c10 c11 : R) : R :=
  let n := c11 + sqrt (c10 - x * x) in let t := sqrt (n * n - w * w) in n * n * asin (t / n) - w * t.
Definition tori_int_2 (x w c10 c11 g g2 : R) : R :=
  let n := c11 + sqrt (c10 - x * x) in let n2 := n * n in
  n2 * (acos (w * (1 / n)) - acos (g * (1 / n))) - w * sqrt (n2 - w * w) + g * sqrt (n2 - g2).
Definition tori_int_3 (x r2 g2 z_inv : R) : R := (r2 - x * x) * atan (sqrt (g2 - x * x) * z_inv).

(** fluids/geometry.py:699-758 [V_horiz_torispherical]; quadrature as above, [isclose] idealised to equality. *)
Definition V_horiz_torispherical (quad : (R -> R) -> R -> R -> R) (D_ L : R) (f k : option R) (h : R) (headonly : bool) : result R :=
  if Rleb h 0 then Ok 0
  else
  let h := if Rltb D_ h then D_ else h in
  match f, k with
  | Some f, Some k =>
      let R_ := 0.5 * D_ in
      let R2 := R_ * R_ in
      let hh := h * h in
      t <- pdiv (R_ - h) R_ ;; c <- pacos t ;; y <- psqrt (2 * R_ * h - hh) ;;
      let Af := R2 * c - (R_ - h) * y in
      let r := f * D_ in
      u <- pdiv (1 - 2 * k) (2 * (f - k)) ;;
      alpha <- pasin u ;;
      let a1 := r * (1 - cos alpha) in
      let g := r * sin alpha in
      let z := r * cos alpha in
      let h1 := k * D_ * (1 - sin alpha) in
      let h2 := D_ - h1 in
      let c10 := k * k * D_ * D_ in
      let c11 := R_ - k * D_ in
      let int1 (w : R) (top : R) := quad (fun x => tori_int_1 x w c10 c11) 0 top in
      let int2 (w : R) := quad (fun x => tori_int_2 x w c10 c11 g (g * g)) 0 (k * D_ * cos alpha) in
      Vf <- (if (Rleb 0 h && Rleb h h1)%bool then
               s <- psqrt (2 * k * D_ * h - hh) ;; Ok (2 * int1 (R_ - h) s)
             else if (Rltb h1 h && Rltb h h2)%bool then
               let w := R_ - h in
               s <- psqrt (2 * k * D_ * h1 - h1 * h1) ;;
               let V1max := int1 (R_ - h1) s in
               let V2 := int2 w in
               zi <- pdiv 1 z ;; wg <- pdiv w g ;; cw <- pacos wg ;;
               s2 <- psqrt (2 * g * (h - h1) - (h - h1) * (h - h1)) ;;
               let V3 := quad (fun x => tori_int_3 x (r * r) (g * g) zi) w g - 0.5 * z * (g * g * cw - w * s2) in
               Ok (2 * (V1max + V2 + V3))
             else
               up1 <- psqrt (2 * k * D_ * h1 - h1 * h1) ;;
               up2 <- psqrt (2 * k * D_ * (D_ - h) - (D_ - h) * (D_ - h)) ;;
               let V1max := int1 (R_ - h1) up1 in
               let V1weird := if negb (Reqb up2 0) then int1 (R_ - (D_ - h)) up2 else 0 in
               let V2max := int2 (R_ - h2) in
               let V3max := PI / 6 * a1 * (3 * g * g + a1 * a1) in
               Ok (2 * (2 * V1max - V1weird + V2max + V3max))) ;;
      Ok (if headonly then 0.5 * Vf else Vf + Af * L)
  | _, _ => Err ValueError
  end.


(** fluids/geometry.py:1774-1779 [SA_partial_cylindrical_body]. *)
Definition SA_partial_cylindrical_body (L : R) (D_ : R) (h : R) : result R :=
  if (Rltb h 0) then Ok 0
  else if (Rltb D_ h) then let h := D_ in
  t1 <- pdiv ((D_ - h) - h) D_ ;;
  t2 <- pacos t1 ;;
  let C_ := (D_ * t2) in
  Ok (C_ * L)
  else t3 <- pdiv ((D_ - h) - h) D_ ;;
  t4 <- pacos t3 ;;
  let C_ := (D_ * t4) in
  Ok (C_ * L).

(** fluids/geometry.py:1820-1828 [A_partial_circle]. *)
Definition A_partial_circle (D_ : R) (h : R) : result R :=
  if (Rltb D_ h) then let h := D_ in
  let R_ := (0.5 * D_) in
  t1 <- pdiv (R_ - h) R_ ;;
  t2 <- pacos t1 ;;
  t3 <- psqrt (((2 * R_) * h) - (h * h)) ;;
  let SA := (((R_ * R_) * t2) - ((R_ - h) * t3)) in
  if (Rltb SA 0) then let SA := 0 in
  Ok SA
  else Ok SA
  else if (Rltb h 0) then Ok 0
  else let R_ := (0.5 * D_) in
  t4 <- pdiv (R_ - h) R_ ;;
  t5 <- pacos t4 ;;
  t6 <- psqrt (((2 * R_) * h) - (h * h)) ;;
  let SA := (((R_ * R_) * t5) - ((R_ - h) * t6)) in
  if (Rltb SA 0) then let SA := 0 in
  Ok SA
  else Ok SA.

(** fluids/geometry.py:1923-1929 [SA_partial_horiz_conical_head]. *)
Definition SA_partial_horiz_conical_head (D_ : R) (a : R) (h : R) : result R :=
  if (Rltb D_ h) then let h := D_ in
  let R_ := (0.5 * D_) in
  R_inv <- pdiv 1 R_ ;;
  t2 <- psqrt ((a * a) + (R_ * R_)) ;;
  t3 <- pacos ((R_ - h) * R_inv) ;;
  t4 <- psqrt (((2 * R_) * h) - (h * h)) ;;
  Ok ((t2 * R_inv) * (((R_ * R_) * t3) - ((R_ - h) * t4)))
  else if (Rltb h 0) then Ok 0
  else let R_ := (0.5 * D_) in
  R_inv <- pdiv 1 R_ ;;
  t6 <- psqrt ((a * a) + (R_ * R_)) ;;
  t7 <- pacos ((R_ - h) * R_inv) ;;
  t8 <- psqrt (((2 * R_) * h) - (h * h)) ;;
  Ok ((t6 * R_inv) * (((R_ * R_) * t7) - ((R_ - h) * t8))).

(** fluids/geometry.py:2511-2519 [SA_partial_vertical_conical_head]. *)
Definition SA_partial_vertical_conical_head (D_ : R) (a : R) (h : R) : result R :=
  if (Reqb a 0) then Ok (((0.25 * PI) * D_) * D_)
  else if (Rleb h 0) then Ok 0
  else if (Rltb a h) then let h := a in
  let R_ := (0.5 * D_) in
  t1 <- psqrt ((a * a) + (R_ * R_)) ;;
  pdiv ((((PI * R_) * h) * h) * t1) (a * a)
  else let R_ := (0.5 * D_) in
  t3 <- psqrt ((a * a) + (R_ * R_)) ;;
  pdiv ((((PI * R_) * h) * h) * t3) (a * a).

(** fluids/geometry.py:2576-2600 [SA_partial_vertical_ellipsoidal_head]. *)
Definition SA_partial_vertical_ellipsoidal_head (D_ : R) (a : R) (h : R) : result R :=
  if (Reqb a 0) then Ok (((0.25 * PI) * D_) * D_)
  else if (Rleb h 0) then Ok 0
  else if (Rltb a h) then let h := a in
  let R_ := (0.5 * D_) in
  let SA := ((PI * R_) * R_) in
  let a2 := (a * a) in
  a_inv <- pdiv 1 a ;;
  let R2 := (R_ * R_) in
  t2 <- psqrt ((a2 * a2) - (((a - h) * (a - h)) * (a2 - R2))) ;;
  let SA := (SA - (((((PI * (a - h)) * R_) * t2) * a_inv) * a_inv)) in
  if (Rltb R_ a) then t3 <- psqrt (a2 - R2) ;;
  t4 <- pdiv ((PI * a2) * R_) t3 ;;
  t5 <- pacos (R_ * a_inv) ;;
  t6 <- psqrt (a2 - R2) ;;
  t7 <- pasin ((((a - h) * t6) * a_inv) * a_inv) ;;
  let SA := (SA + (t4 * (t5 - t7))) in
  Ok SA
  else if (Reqb a R_) then Ok ((PI * D_) * h)
  else x1 <- psqrt (R2 - a2) ;;
  let num := (a * (x1 + R_)) in
  t9 <- psqrt ((a2 * a2) + (((a - h) * (a - h)) * (R2 - a2))) ;;
  let den := (((a - h) * x1) + t9) in
  t10 <- pdiv ((PI * a2) * R_) x1 ;;
  t11 <- pdiv num den ;;
  t12 <- plog t11 ;;
  let SA := (SA + (t10 * t12)) in
  Ok SA
  else let R_ := (0.5 * D_) in
  let SA := ((PI * R_) * R_) in
  let a2 := (a * a) in
  a_inv <- pdiv 1 a ;;
  let R2 := (R_ * R_) in
  t14 <- psqrt ((a2 * a2) - (((a - h) * (a - h)) * (a2 - R2))) ;;
  let SA := (SA - (((((PI * (a - h)) * R_) * t14) * a_inv) * a_inv)) in
  if (Rltb R_ a) then t15 <- psqrt (a2 - R2) ;;
  t16 <- pdiv ((PI * a2) * R_) t15 ;;
  t17 <- pacos (R_ * a_inv) ;;
  t18 <- psqrt (a2 - R2) ;;
  t19 <- pasin ((((a - h) * t18) * a_inv) * a_inv) ;;
  let SA := (SA + (t16 * (t17 - t19))) in
  Ok SA
  else if (Reqb a R_) then Ok ((PI * D_) * h)
  else x1 <- psqrt (R2 - a2) ;;
  let num := (a * (x1 + R_)) in
  t21 <- psqrt ((a2 * a2) + (((a - h) * (a - h)) * (R2 - a2))) ;;
  let den := (((a - h) * x1) + t21) in
  t22 <- pdiv ((PI * a2) * R_) x1 ;;
  t23 <- pdiv num den ;;
  t24 <- plog t23 ;;
  let SA := (SA + (t22 * t24)) in
  Ok SA.

(** fluids/geometry.py:2642-2650 [SA_partial_vertical_spherical_head]. *)
Definition SA_partial_vertical_spherical_head (D_ : R) (a : R) (h : R) : result R :=
  if (Reqb a 0) then Ok (((0.25 * PI) * D_) * D_)
  else if (Rleb h 0) then Ok 0
  else if (Rltb a h) then let h := a in
  let R_ := (0.5 * D_) in
  t1 <- pdiv ((a * a) + (R_ * R_)) a ;;
  let SA := ((PI * h) * t1) in
  Ok SA
  else let R_ := (0.5 * D_) in
  t2 <- pdiv ((a * a) + (R_ * R_)) a ;;
  let SA := ((PI * h) * t2) in
  Ok SA.

(** fluids/geometry.py:2717-2736 [SA_partial_vertical_torispherical_head]. *)
Definition SA_partial_vertical_torispherical_head (D_ : R) (f : R) (k : R) (h : R) : result R :=
  if (Rleb h 0) then Ok 0
  else let R_ := (0.5 * D_) in
  t1 <- pdiv (1 - (2 * k)) (2 * (f - k)) ;;
  alpha <- pasin t1 ;;
  let cos_alpha := (cos alpha) in
  let a1 := ((f * D_) * (1 - cos_alpha)) in
  let a2 := ((k * D_) * cos_alpha) in
  let a := (a1 + a2) in
  h <- (if (Rltb a h) then let h := a in
  Ok h
  else Ok h) ;;
  if (Rltb h a1) then let SA := ((((2 * PI) * f) * D_) * h) in
  Ok SA
  else if ((Rleb a1 h) && (Rleb h a))%bool then let SA := ((((2 * PI) * f) * D_) * a1) in
  kD_inv <- pdiv 1 (k * D_) ;;
  t4 <- pasin (a2 * kD_inv) ;;
  t5 <- pasin ((a - h) * kD_inv) ;;
  let SA := (SA + ((((2 * PI) * k) * D_) * ((h - a1) + ((R_ - (k * D_)) * (t4 - t5))))) in
  Ok SA
  else Ok 0.

(** fluids/geometry.py:2784-2788 [a_torispherical]. *)
Definition a_torispherical (D_ : R) (f : R) (k : R) : result R :=
  t1 <- pdiv (1 - (2 * k)) (2 * (f - k)) ;;
  alpha <- pasin t1 ;;
  let cos_alpha := (cos alpha) in
  let a1 := ((f * D_) * (1 - cos_alpha)) in
  let a2 := ((k * D_) * cos_alpha) in
  Ok (a1 + a2).

(** [s == kind] for an optional head name. *)
Definition is_kind (s : option string) (kind : string) : bool := match s with Some s => String.eqb s kind | None => false end.

(** fluids/geometry.py:1628-1631, 2855-2858: the head names accepted. *)
Definition head_known (s : option string) : bool :=
  match s with
  | None => true
  | Some s => existsb (String.eqb s) ["conical"; "ellipsoidal"; "torispherical"; "spherical"; "guppy"]%string
  end.

(** fluids/geometry.py:1634-1648, 2861-2875: a torispherical head needs both [f] and [k]; the others ignore them. *)
Definition head_fk (s : option string) (f k : option R) : result (R * R) :=
  if is_kind s "torispherical" then
    match f, k with Some f, Some k => Ok (f, k) | _, _ => Err ValueError end
  else Ok (0, 0).

(** fluids/geometry.py:1528-1541, one end of [SA_tank]; any other name counts as a flat end, as written. *)
Definition SA_tank_side (D_ : R) (side : option string) (a : R) (f k : option R) : result R :=
  if is_kind side "conical" then SA_conical_head D_ a
  else if is_kind side "ellipsoidal" then SA_ellipsoidal_head D_ a
  else if is_kind side "guppy" then SA_guppy_head D_ a
  else if is_kind side "spherical" then Ok (PI * (a * a + 0.25 * D_ * D_))
  else if is_kind side "torispherical" then
    match f, k with Some f, Some k => SA_torispheroidal D_ f k | _, _ => Err ValueError end
  else Ok (0.25 * PI * D_ * D_).

(** fluids/geometry.py:1527-1566 [SA_tank]. The source reuses the area of side A when both ends have equal
    parameters: the same value. *)
Definition SA_tank (D_ L : R) (sideA sideB : option string) (sideA_a sideB_a : R) (sideA_f sideA_k sideB_f sideB_k : option R) : result (R * R * R * R) :=
  sideA_SA <- SA_tank_side D_ sideA sideA_a sideA_f sideA_k ;;
  sideB_SA <- SA_tank_side D_ sideB sideB_a sideB_f sideB_k ;;
  let lateral_SA := PI * D_ * L in
  Ok (sideA_SA + sideB_SA + lateral_SA, sideA_SA, sideB_SA, lateral_SA).

(** One statement [if side == kind: V += volume]. *)
Definition add_if (side : option string) (kind : string) (volume : result R) (V : R) : result R :=
  if is_kind side kind then v <- volume ;; Ok (V + v) else Ok V.

(** fluids/geometry.py:1694, 2924: the wetted part of the circular cross section. *)
Definition circle_Af (R_ h : R) : result R :=
  t <- pdiv (R_ - h) R_ ;; c <- pacos t ;; s <- psqrt (2 * R_ * h - h * h) ;;
  Ok (R_ * R_ * c - (R_ - h) * s).

(** fluids/geometry.py:1628-1732 [V_tank]. The source computes one head and uses it twice when both ends have equal
    parameters: the same value. *)
Definition V_tank (quad : (R -> R) -> R -> R -> R) (D_ L : R) (horizontal : bool) (sideA sideB : option string) (sideA_a sideB_a : R) (sideA_f sideA_k sideB_f sideB_k : option R) : result (R * R * R * R) :=
  if negb (head_known sideA) then Err ValueError
  else if negb (head_known sideB) then Err ValueError
  else
  '(fA, kA) <- head_fk sideA sideA_f sideA_k ;;
  '(fB, kB) <- head_fk sideB sideB_f sideB_k ;;
  let R_ := 0.5 * D_ in
  if horizontal then
    vA <- add_if sideA "conical" (V_horiz_conical D_ L sideA_a D_ true) 0 ;;
    vB <- add_if sideB "conical" (V_horiz_conical D_ L sideB_a D_ true) 0 ;;
    vA <- add_if sideA "ellipsoidal" (V_horiz_ellipsoidal D_ L sideA_a D_ true) vA ;;
    vB <- add_if sideB "ellipsoidal" (V_horiz_ellipsoidal D_ L sideB_a D_ true) vB ;;
    vA <- add_if sideA "guppy" (V_horiz_guppy D_ L sideA_a D_ true) vA ;;
    vB <- add_if sideB "guppy" (V_horiz_guppy D_ L sideB_a D_ true) vB ;;
    vA <- add_if sideA "spherical" (V_horiz_spherical quad D_ L sideA_a D_ true) vA ;;
    vB <- add_if sideB "spherical" (V_horiz_spherical quad D_ L sideB_a D_ true) vB ;;
    vA <- add_if sideA "torispherical" (V_horiz_torispherical quad D_ L (Some fA) (Some kA) D_ true) vA ;;
    vB <- add_if sideB "torispherical" (V_horiz_torispherical quad D_ L (Some fB) (Some kB) D_ true) vB ;;
    Af <- circle_Af R_ D_ ;;
    let lateral_V := L * Af in
    Ok (lateral_V + vA + vB, vA, vB, lateral_V)
  else
    vA <- add_if sideA "conical" (V_vertical_conical D_ sideA_a sideA_a) 0 ;;
    vB <- add_if sideB "conical" (V_vertical_conical D_ sideB_a sideB_a) 0 ;;
    vA <- add_if sideA "ellipsoidal" (V_vertical_ellipsoidal D_ sideA_a sideA_a) vA ;;
    vB <- add_if sideB "ellipsoidal" (V_vertical_ellipsoidal D_ sideB_a sideB_a) vB ;;
    vA <- add_if sideA "spherical" (V_vertical_spherical D_ sideA_a sideA_a) vA ;;
    vB <- add_if sideB "spherical" (V_vertical_spherical D_ sideB_a sideB_a) vB ;;
    vA <- add_if sideA "torispherical" (V_vertical_torispherical D_ fA kA sideA_a) vA ;;
    vB <- add_if sideB "torispherical" (V_vertical_torispherical D_ fB kB sideB_a) vB ;;
    let lateral_V := 0.25 * PI * D_ * D_ * L in
    Ok (lateral_V + vA + vB, vA, vB, lateral_V).

(** One statement pair [V += volume at sideB_a; V -= volume at h2] of the top head. *)
Definition add_top (side : option string) (kind : string) (volume : R -> result R) (clip : R -> R) (a h2 V : R) : result R :=
  if is_kind side kind then v <- volume a ;; v2 <- volume h2 ;; Ok (V + v - clip v2) else Ok V.

(** fluids/geometry.py:2855-2960 [V_from_h]. The source computes one head and doubles it when both ends have equal
    parameters: the same value. *)
Definition V_from_h (quad : (R -> R) -> R -> R -> R) (h D_ L : R) (horizontal : bool) (sideA sideB : option string) (sideA_a sideB_a : R) (sideA_f sideA_k sideB_f sideB_k : option R) : result R :=
  if negb (head_known sideA) then Err ValueError
  else if negb (head_known sideB) then Err ValueError
  else
  '(fA, kA) <- head_fk sideA sideA_f sideA_k ;;
  '(fB, kB) <- head_fk sideB sideB_f sideB_k ;;
  let R_ := 0.5 * D_ in
  if horizontal then
    let h := if Rltb D_ h then D_ else h in
    V <- add_if sideA "conical" (V_horiz_conical D_ L sideA_a h true) 0 ;;
    V <- add_if sideB "conical" (V_horiz_conical D_ L sideB_a h true) V ;;
    V <- add_if sideA "ellipsoidal" (V_horiz_ellipsoidal D_ L sideA_a h true) V ;;
    V <- add_if sideB "ellipsoidal" (V_horiz_ellipsoidal D_ L sideB_a h true) V ;;
    V <- add_if sideA "guppy" (V_horiz_guppy D_ L sideA_a h true) V ;;
    V <- add_if sideB "guppy" (V_horiz_guppy D_ L sideB_a h true) V ;;
    V <- add_if sideA "spherical" (V_horiz_spherical quad D_ L sideA_a h true) V ;;
    V <- add_if sideB "spherical" (V_horiz_spherical quad D_ L sideB_a h true) V ;;
    V <- add_if sideA "torispherical" (V_horiz_torispherical quad D_ L (Some fA) (Some kA) h true) V ;;
    V <- add_if sideB "torispherical" (V_horiz_torispherical quad D_ L (Some fB) (Some kB) h true) V ;;
    Af <- circle_Af R_ h ;;
    Ok (V + L * Af)
  else
    let max_h := L + sideA_a + sideB_a in
    let h := if Rltb max_h h then max_h else h in
    V <- add_if sideA "conical" (V_vertical_conical D_ sideA_a (Rmin sideA_a h)) 0 ;;
    V <- add_if sideA "ellipsoidal" (V_vertical_ellipsoidal D_ sideA_a (Rmin sideA_a h)) V ;;
    V <- add_if sideA "spherical" (V_vertical_spherical D_ sideA_a (Rmin sideA_a h)) V ;;
    V <- add_if sideA "torispherical" (V_vertical_torispherical D_ fA kA (Rmin sideA_a h)) V ;;
    let V := if Rleb (sideA_a + L) h then V + 0.25 * PI * D_ * D_ * L
             else if Rltb sideA_a h then V + 0.25 * PI * D_ * D_ * (h - sideA_a)
             else V in
    if Rltb (sideA_a + L) h then
      let h2 := sideB_a - (h - sideA_a - L) in
      V <- add_top sideB "conical" (V_vertical_conical D_ sideB_a) (fun v => v) sideB_a h2 V ;;
      V <- add_top sideB "ellipsoidal" (V_vertical_ellipsoidal D_ sideB_a) (fun v => v) sideB_a h2 V ;;
      V <- add_top sideB "spherical" (V_vertical_spherical D_ sideB_a) (fun v => v) sideB_a h2 V ;;
      add_top sideB "torispherical" (V_vertical_torispherical D_ fB kB) (Rmax 0) sideB_a h2 V
    else Ok V.


(** fluids/geometry.py:5191-5211 [pitch_angle_solver]. *)
Definition pitch_angle_solver (angle : option R) (pitch : option R) (pitch_parallel : option R) (pitch_normal : option R) : result (R * R * R * R) :=
  '(pitch_normal, pitch_parallel, pitch, angle) <- (match angle with
    | Some angle => match pitch with
      | Some pitch => let pitch_normal := (pitch * (sin (radians angle))) in
      let pitch_parallel := (pitch * (cos (radians angle))) in
      Ok (pitch_normal, pitch_parallel, pitch, angle)
      | None => match pitch_normal with
        | Some pitch_normal => pitch <- pdiv pitch_normal (sin (radians angle)) ;;
        let pitch_parallel := (pitch * (cos (radians angle))) in
        Ok (pitch_normal, pitch_parallel, pitch, angle)
        | None => match pitch_parallel with
          | Some pitch_parallel => pitch <- pdiv pitch_parallel (cos (radians angle)) ;;
          let pitch_normal := (pitch * (sin (radians angle))) in
          Ok (pitch_normal, pitch_parallel, pitch, angle)
          | None => Err ValueError
        end
      end
    end
    | None => match pitch_normal with
      | Some pitch_normal => match pitch with
        | Some pitch => t3 <- pdiv pitch_normal pitch ;;
        t4 <- pasin t3 ;;
        let angle := (degrees t4) in
        let pitch_parallel := (pitch * (cos (radians angle))) in
        Ok (pitch_normal, pitch_parallel, pitch, angle)
        | None => match pitch_parallel with
          | Some pitch_parallel => t5 <- psqrt ((pitch_normal ^ 2) + (pitch_parallel ^ 2)) ;;
          t6 <- pdiv pitch_normal t5 ;;
          t7 <- pasin t6 ;;
          let angle := (degrees t7) in
          pitch <- psqrt ((pitch_normal ^ 2) + (pitch_parallel ^ 2)) ;;
          Ok (pitch_normal, pitch_parallel, pitch, angle)
          | None => Err ValueError
        end
      end
      | None => match pitch_parallel with
        | Some pitch_parallel => match pitch with
          | Some pitch => t9 <- pdiv pitch_parallel pitch ;;
          t10 <- pacos t9 ;;
          let angle := (degrees t10) in
          let pitch_normal := (pitch * (sin (radians angle))) in
          Ok (pitch_normal, pitch_parallel, pitch, angle)
          | None => Err ValueError
        end
        | None => Err ValueError
      end
    end
  end) ;;
  Ok (angle, pitch, pitch_parallel, pitch_normal).

(** fluids/geometry.py:5259-5259 [sphericity]. *)
Definition sphericity (A : R) (V : R) : result R :=
  t1 <- ppow PI (1 / 3) ;;
  t2 <- ppow (6 * V) (2 / 3) ;;
  pdiv (t1 * t2) A.

(** fluids/geometry.py:5286-5286 [aspect_ratio]. *)
Definition aspect_ratio (Dmin : R) (Dmax : R) : result R :=
  pdiv Dmin Dmax.

(** fluids/geometry.py:5326-5326 [circularity]. *)
Definition circularity (A : R) (P_ : R) : result R :=
  pdiv ((4 * PI) * A) (P_ ^ 2).

(** fluids/geometry.py:5352-5354 [A_cylinder]. *)
Definition A_cylinder (D_ : R) (L : R) : result R :=
  let cap := (((PI * (D_ ^ 2)) / 4) * 2) in
  let side := ((PI * D_) * L) in
  Ok (cap + side).

(** fluids/geometry.py:5380-5380 [V_cylinder]. *)
Definition V_cylinder (D_ : R) (L : R) : result R :=
  Ok (((PI * (D_ ^ 2)) / 4) * L).

(** fluids/geometry.py:5409-5413 [A_hollow_cylinder]. *)
Definition A_hollow_cylinder (Di : R) (Do : R) (L : R) : result R :=
  let side_o := ((PI * Do) * L) in
  let side_i := ((PI * Di) * L) in
  let cap_circle := (((PI * (Do ^ 2)) / 4) * 2) in
  let cap_removed := (((PI * (Di ^ 2)) / 4) * 2) in
  Ok (((side_o + side_i) + cap_circle) - cap_removed).

(** fluids/geometry.py:5441-5441 [V_hollow_cylinder]. *)
Definition V_hollow_cylinder (Di : R) (Do : R) (L : R) : result R :=
  Ok ((((PI * (Do ^ 2)) / 4) * L) - (((PI * (Di ^ 2)) / 4) * L)).
