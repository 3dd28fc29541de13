(** fluids/geometry.py:1314-1331 [SA_ellipsoidal_head]; [log1p e - log1p (-e)] as written. *)
Definition SA_ellipsoidal_head (D_ a : R) : result R :=
  if Reqb D_ (a * 2) then Ok (0.5 * PI * D_ * D_)
  else
  let R_ := 0.5 * D_ in
  if Rltb a R_ then
    let '(R_, a) := (Rmin R_ a, Rmax R_ a) in
    t <- pdiv (R_ * R_) (a * a) ;;
    e1 <- psqrt (1 - t) ;;
    log_term <- (if negb (Reqb e1 1) then x <- plog1p e1 ;; y <- plog1p (- e1) ;; Ok (x - y) else Ok 0) ;;
    u <- pdiv (PI * R_ * R_) e1 ;;
    Ok ((2 * PI * a * a + u * log_term) * 0.5)
  else
    s <- psqrt (a * a - R_ * R_) ;;
    u <- pdiv (PI * a * a * R_ * 1) s ;;
    c <- pdiv R_ (Rabs a) ;;
    w <- pacos c ;;
    Ok (PI * R_ * R_ + u * w).

(** fluids/geometry.py:469-472 [_V_horiz_spherical_toint], as a total function of the reals. *)
Definition V_horiz_spherical_toint (x r2 R2 den_inv : R) : R := (r2 - x * x) * atan (sqrt ((R2 - x * x) * den_inv)).

(** fluids/geometry.py:545-582 [V_horiz_spherical]. [quad f a b] stands for the numerical quadrature; the tolerance
    [isclose(r, R, rel_tol=2e-15)] is idealised to equality. *)
Definition V_horiz_spherical (quad : (R -> R) -> R -> R -> R) (D_ L a h : R) (headonly : bool) : result R :=
  if Rleb h 0 then Ok 0
  else
  let h := if Rltb D_ h then D_ else h in
  let R_ := 0.5 * D_ in
  r <- pdiv (0.5 * (a * a + R_ * R_)) (Rabs a) ;;
  let w := R_ - h in
  y <- psqrt (2 * R_ * h - h * h) ;;
  z <- (if Reqb r R_ then Ok 0 else psqrt (r * r - R_ * R_)) ;;
  t <- pdiv (R_ - h) R_ ;;
  c <- pacos t ;;
  let Af := R_ * R_ * c - (R_ - h) * y in
  Vf <- (if (Reqb h R_ && Rleb (Rabs a) R_)%bool then Ok (PI / 6 * a * (3 * R_ * R_ + a * a))
         else if (Reqb h D_ && Rleb (Rabs a) R_)%bool then Ok (PI / 3 * a * (3 * R_ * R_ + a * a))
         else if (Reqb h 0 || (Reqb a 0 || Reqb a R_ || Reqb a (- R_)) || Reqb z 0)%bool then
           q <- pdiv h R_ ;; Ok (PI * a * h * h * (1 - q * (1 / 3)))
         else if Rleb (0.01 * D_) (Rabs a) then
           R_r <- pdiv R_ r ;;
           sg <- pdiv a (Rabs a) ;;
           u1 <- pdiv (R_ * R_ - r * w) (R_ * (w - r)) ;; c1 <- pacos u1 ;;
           u2 <- pdiv (R_ * R_ + r * w) (R_ * (w + r)) ;; c2 <- pacos u2 ;;
           zr <- pdiv z r ;; wr <- pdiv w R_ ;; c3 <- pacos wr ;; yz <- pdiv y z ;;
           Ok (sg * (2 / 3 * r * r * r * (c1 + c2 - zr * (2 + R_r * R_r) * c3) - 2 * (w * r * r - w * w * w * (1 / 3)) * atan yz + 4 / 3 * w * y * z))
         else
           den_inv <- pdiv 1 (r * r - R_ * R_) ;;
           sg <- pdiv a (Rabs a) ;;
           Ok (sg * (2 * quad (fun x => V_horiz_spherical_toint x (r * r) (R_ * R_) den_inv) w R_ - Af * z))) ;;
  Ok (if headonly then 0.5 * Vf else Vf + Af * L).

(** fluids/geometry.py:585-604, the integrands of [V_horiz_torispherical] (V_horiz_torispherical_toint_1, _2, _3), as total functions of the reals. *)
Definition tori_int_1 (x w c10 c11 : R) : R :=
  let n := c11 + sqrt (c10 - x * x) in let t := sqrt (n * n - w * w) in n * n * asin (t / n) - w * t.
Definition tori_int_2 (x w c10 c11 g g2 : R) : R :=
  let n := c11 + sqrt (c10 - x * x) in let n2 := n * n in
  n2 * (acos (w * (1 / n)) - acos (g * (1 / n))) - w * sqrt (n2 - w * w) + g * sqrt (n2 - g2).
Definition tori_int_3 (x r2 g2 z_inv : R) : R := (r2 - x * x) * atan (sqrt (g2 - x * x) * z_inv).

(** fluids/geometry.py:699-758 [V_horiz_torispherical]; quadrature as above, [isclose] idealised to equality. *)
Definition V_horiz_torispherical (quad : (R -> R) -> R -> R -> R) (D_ L : R) (f k : option R) (h : R) (headonly : bool) : result R :=
  if Rleb h 0 then Ok 0
  else
  let h := if Rltb D_ h then D_ else h in
  match f, k with
  | Some f, Some k =>
      let R_ := 0.5 * D_ in
      let R2 := R_ * R_ in
      let hh := h * h in
      t <- pdiv (R_ - h) R_ ;; c <- pacos t ;; y <- psqrt (2 * R_ * h - hh) ;;
      let Af := R2 * c - (R_ - h) * y in
      let r := f * D_ in
      u <- pdiv (1 - 2 * k) (2 * (f - k)) ;;
      alpha <- pasin u ;;
      let a1 := r * (1 - cos alpha) in
      let g := r * sin alpha in
      let z := r * cos alpha in
      let h1 := k * D_ * (1 - sin alpha) in
      let h2 := D_ - h1 in
      let c10 := k * k * D_ * D_ in
      let c11 := R_ - k * D_ in
      let int1 (w : R) (top : R) := quad (fun x => tori_int_1 x w c10 c11) 0 top in
      let int2 (w : R) := quad (fun x => tori_int_2 x w c10 c11 g (g * g)) 0 (k * D_ * cos alpha) in
      Vf <- (if (Rleb 0 h && Rleb h h1)%bool then
               s <- psqrt (2 * k * D_ * h - hh) ;; Ok (2 * int1 (R_ - h) s)
             else if (Rltb h1 h && Rltb h h2)%bool then
               let w := R_ - h in
               s <- psqrt (2 * k * D_ * h1 - h1 * h1) ;;
               let V1max := int1 (R_ - h1) s in
               let V2 := int2 w in
               zi <- pdiv 1 z ;; wg <- pdiv w g ;; cw <- pacos wg ;;
               s2 <- psqrt (2 * g * (h - h1) - (h - h1) * (h - h1)) ;;
               let V3 := quad (fun x => tori_int_3 x (r * r) (g * g) zi) w g - 0.5 * z * (g * g * cw - w * s2) in
               Ok (2 * (V1max + V2 + V3))
             else
               up1 <- psqrt (2 * k * D_ * h1 - h1 * h1) ;;
               up2 <- psqrt (2 * k * D_ * (D_ - h) - (D_ - h) * (D_ - h)) ;;
               let V1max := int1 (R_ - h1) up1 in
               let V1weird := if negb (Reqb up2 0) then int1 (R_ - (D_ - h)) up2 else 0 in
               let V2max := int2 (R_ - h2) in
               let V3max := PI / 6 * a1 * (3 * g * g + a1 * a1) in
               Ok (2 * (2 * V1max - V1weird + V2max + V3max))) ;;
      Ok (if headonly then 0.5 * Vf else Vf + Af * L)
  | _, _ => Err ValueError
  end.
