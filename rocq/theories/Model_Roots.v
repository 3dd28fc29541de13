(** Model of numerics/polynomial_roots.py.  Floats are real numbers and complex numbers pairs of reals; a float result is the
    complex number with zero imaginary part.  Idealised constants: [third] is 1/3 (likewise sixth, ninth, ...), [root_three] is
    the square root of 3 and [complex_factor] half of it times i. *)
From Coq Require Import Reals Lra Bool.
From Coquelicot Require Import Complex.
From Verif Require Import Base Model_Real.
Open Scope C_scope.

Definition Ceqb (z w : C) : bool := Reqb (fst z) (fst w) && Reqb (snd z) (snd w).
(** complex division; ZeroDivisionError like Python's *)
Definition cdiv (z w : C) : result C := if Ceqb w 0 then Err ZeroDivisionError else Ok (z / w).
(** [cmath.sqrt]: the root with non-negative real part (non-negative imaginary part on the negative axis) *)
Definition csqrt (z : C) : C :=
  let r := Cmod z in
  (sqrt ((r + fst z) / 2), if Rltb (snd z) 0 then - sqrt ((r - fst z) / 2) else sqrt ((r - fst z) / 2))%R.
(** the phase in [-pi, pi], and [z**third]: modulus to the third, phase divided by three; zero for zero *)
Definition carg (z : C) : R := (if Rltb (snd z) 0 then - acos (fst z / Cmod z) else acos (fst z / Cmod z))%R.
Definition pow_third (z : C) : C :=
  if Ceqb z 0 then 0 else (Rpower (Cmod z) (1 / 3) * cos (carg z * (1 / 3)), Rpower (Cmod z) (1 / 3) * sin (carg z * (1 / 3)))%R.
Definition third : C := RtoC (1 / 3). Definition sixth : C := RtoC (1 / 6). Definition ninth : C := RtoC (1 / 9). Definition twelfth : C := RtoC (1 / 12).
Definition two_thirds : C := RtoC (2 / 3). Definition four_thirds : C := RtoC (4 / 3). Definition root_three : R := sqrt 3.
(** a positive float to the power [third] *)
Definition rpow_third (x : R) : R := if Reqb x 0 then 0%R else Rpower x (1 / 3).

(** numerics/polynomial_roots.py:45-59 [roots_quadratic] *)
Definition roots_quadratic (a b c : R) : result (C * C) :=
  (if Reqb a 0 then root <- pdiv (- c) b ;; Ok (RtoC root, RtoC root)
   else
     let D := b * b - 4 * a * c in
     a_inv_2 <- pdiv 0.5 a ;;
     if Rltb D 0 then
       D <- psqrt (- D) ;;
       Ok ((RtoC (- b) + RtoC D * Ci) * RtoC a_inv_2, (RtoC (- b) - RtoC D * Ci) * RtoC a_inv_2)%C
     else
       D <- psqrt D ;;
       Ok (RtoC ((D - b) * a_inv_2), RtoC (- (b + D) * a_inv_2)))%R.

(** numerics/polynomial_roots.py:61-105 [roots_quartic].  Lines 80-89 and 102 compute quantities that are not returned but can
    raise. *)
Definition roots_quartic (a b c d e : C) : result (C * C * C * C) :=
  x0 <- cdiv 1 a ;;
  let x1 := b * x0 in
  let x2 := - x1 * RtoC 0.25 in
  let x3 := c * x0 in
  let x4 := b * b * x0 * x0 in
  let x5 := - two_thirds * x3 + RtoC 0.25 * x4 in
  let x6 := x3 - RtoC 0.375 * x4 in
  let x6_2 := x6 * x6 in
  let x7 := x6_2 * x6 in
  let x8 := d * x0 in
  let x9 := x1 * (- RtoC 0.5 * x3 + RtoC 0.125 * x4) in
  let x10 := (x8 + x9) * (x8 + x9) in
  let x11 := e * x0 in
  let x12 := x1 * (x1 * (- RtoC 0.0625 * x3 + RtoC 0.01171875 * x4) + RtoC 0.25 * x8) in
  let x13 := x6 * (x11 - x12) in
  let x14 := - RtoC 0.125 * x10 + x13 * third - x7 / RtoC 108 in
  let x15 := RtoC 2 * pow_third x14 in
  let x16 := csqrt (- x15 + x5) in
  let x19 := - four_thirds * x3 in
  let x20 := RtoC 0.5 * x4 in
  let x22 := RtoC 2 * x8 + RtoC 2 * x9 in
  x23 <- cdiv x22 x16 ;;
  let x25 := - x11 + x12 - twelfth * x6_2 in
  let x27 := pow_third (RtoC 0.0625 * x10 - x13 * sixth + x7 / RtoC 216 + csqrt (RtoC 0.25 * x14 * x14 + RtoC (1 / 27) * x25 * x25 * x25)) in
  let x28 := RtoC 2 * x27 in
  x29 <- cdiv (two_thirds * x25) x27 ;;
  let x30 := csqrt (x28 - x29 + x5) in
  let x31 := RtoC 0.5 * x30 in
  let x32 := x2 - x31 in
  let x33 := x19 + x20 - x28 + x29 in
  x34 <- cdiv x22 x30 ;;
  let x35 := csqrt (x33 + x34) * RtoC 0.5 in
  let x38 := x2 + x31 in
  let x39 := csqrt (x33 - x34) * RtoC 0.5 in
  Ok (x32 - x35, x32 + x35, x38 - x39, x38 + x39).

(** numerics/polynomial_roots.py:107-124 [roots_cubic_a1] *)
Definition roots_cubic_a1 (b c d : C) : result (C * C * C) :=
  let t1 := b * b in
  let t2 := t1 * b in
  let t4 := c * b in
  let t9 := c * c in
  let t16 := d * d in
  let t19 := csqrt (RtoC 12 * t9 * c + RtoC 12 * t2 * d - RtoC 54 * t4 * d - RtoC 3 * t1 * t9 + RtoC 81 * t16) in
  let t22 := pow_third (- RtoC 8 * t2 + RtoC 36 * t4 - RtoC 108 * d + RtoC 12 * t19) in
  q <- cdiv (RtoC 6 * (c * third - t1 * ninth)) t22 ;;
  let root1 := t22 * sixth - q - b * third in
  t28 <- cdiv (c * third - t1 * ninth) t22 ;;
  let t101 := - t22 * twelfth + RtoC 3 * t28 - b * third in
  let t102 := RtoC root_three * (t22 * sixth + RtoC 6 * t28) in
  Ok (root1, t101 + RtoC 0.5 * Ci * t102, t101 - RtoC 0.5 * Ci * t102).

(** numerics/polynomial_roots.py:126-144 [roots_cubic_a2] *)
Definition roots_cubic_a2 (a b c d : C) : result (C * C * C) :=
  let t2 := a * a in
  let t3 := d * d in
  let t10 := c * c in
  let t14 := b * b in
  let t15 := t14 * b in
  let t20 := csqrt (- RtoC 18 * a * b * c * d + RtoC 4 * a * t10 * c + RtoC 4 * t15 * d - t14 * t10 + RtoC 27 * t2 * t3) in
  let t31 := pow_third (RtoC 36 * c * b * a + RtoC 12 * RtoC root_three * t20 * a - RtoC 108 * d * t2 - RtoC 8 * t15) in
  t32 <- cdiv 1 a ;;
  q <- cdiv (two_thirds * (RtoC 3 * a * c - t14) * t32) t31 ;;
  let root1 := t31 * t32 * sixth - q - b * t32 * third in
  let t33 := t31 * t32 in
  t40 <- cdiv ((RtoC 3 * a * c - t14) * t32) t31 ;;
  let t50 := - t33 * twelfth + t40 * third - b * t32 * third in
  let t51 := RtoC 0.5 * Ci * RtoC root_three * (t33 * sixth + two_thirds * t40) in
  Ok (root1, t50 + t51, t50 - t51).

(** numerics/polynomial_roots.py:204-217: the cubic coefficient is zero *)
Definition roots_cubic_low (b c d : R) : result (C * C * C) :=
  (if Reqb b 0 then root <- pdiv (- d) c ;; Ok (RtoC root, RtoC root, RtoC root)
   else
     let D := c * c - 4 * b * d in
     b_inv_2 <- pdiv 0.5 b ;;
     if Rltb D 0 then
       D <- psqrt (- D) ;;
       let x1 := ((RtoC (- c) + RtoC D * Ci) * RtoC b_inv_2)%C in
       Ok (x1, x1, (RtoC (- c) - RtoC D * Ci) * RtoC b_inv_2)%C
     else
       D <- psqrt D ;;
       Ok (RtoC ((D - c) * b_inv_2), RtoC ((D - c) * b_inv_2), RtoC (- (c + D) * b_inv_2)))%R.
(** numerics/polynomial_roots.py:204-324 [roots_cubic]; [.real] is [fst] *)
Definition roots_cubic (a b c d : R) : result (C * C * C) :=
  (if Reqb a 0 then roots_cubic_low b c d
   else
     a_inv <- pdiv 1 a ;;
     let a_inv2 := a_inv * a_inv in
     let bb := b * b in
     let b_a := b * a_inv in
     let b_a2 := b_a * b_a in
     let f := c * a_inv - b_a2 * (1 / 3) in
     let g := (2 * (bb * b) * a_inv2 * a_inv - 9 * b * c * a_inv2 + 27 * d * a_inv) * (1 / 27) in
     let h := 0.25 * (g * g) + f * f * f * (1 / 27) in
     if Reqb h 0 && Reqb g 0 && Reqb f 0 then
       q <- pdiv d a ;;
       let x := if Rleb 0 q then - rpow_third (d * a_inv) else rpow_third (- d * a_inv) in
       Ok (RtoC x, RtoC x, RtoC x)
     else if Rltb 0 h then
       root_h <- psqrt h ;;
       let R_ := - 0.5 * g + root_h in
       let S_ := if Rleb 0 R_ then rpow_third R_ else - rpow_third (- R_) in
       let T := - (0.5 * g) - root_h in
       let U := if Rleb 0 T then rpow_third T else - rpow_third (- T) in
       let SU := S_ + U in
       let b_3a := b * (1 / 3 * a_inv) in
       let t1 := - 0.5 * SU - b_3a in
       let t2 := ((RtoC S_ - RtoC U) * (RtoC (root_three / 2) * Ci))%C in
       Ok (RtoC (SU - b_3a), RtoC t1 + t2, RtoC t1 - t2)%C
     else
       let choice_term := - 18 * a * b * c * d + 4 * a * (c * c) * c + 4 * (b * b * b) * d - b * b * (c * c) + 27 * (a * a) * (d * d) in
       if Rltb 0.000000000001 (Rabs choice_term) || Rltb (Rabs (b + 1)) 0.0000001 then
         t32 <- pdiv 1 a ;;
         (let t32 := RtoC t32 in
          let t20 := csqrt (RtoC choice_term) in
          let t31 := pow_third (RtoC (36 * c * b * a) + RtoC (12 * root_three) * t20 * RtoC a - RtoC (108 * d * (a * a)) - RtoC (8 * (b * b * b))) in
          let t33 := t31 * t32 in
          t32_t31 <- cdiv t32 t31 ;;
          let x1 := t33 * sixth - two_thirds * RtoC (3 * a * c - b * b) * t32_t31 - RtoC b * t32 * third in
          let t40 := RtoC (3 * a * c - b * b) * t32_t31 in
          let t50 := - t33 * twelfth + t40 * third - RtoC b * t32 * third in
          let t51 := RtoC 0.5 * Ci * RtoC root_three * (t33 * sixth + two_thirds * t40) in
          Ok (RtoC (fst x1), RtoC (fst (t50 + t51)), RtoC (fst (t50 - t51))))%C
       else
         i <- psqrt (g * g * 0.25 - h) ;;
         let j := rpow_third i in
         q <- pdiv (- 0.5 * g) i ;;
         k <- pacos q ;;
         let k_third := k * (1 / 3) in
         let M := cos k_third in
         let N := root_three * sin k_third in
         let P := - b_a * (1 / 3) in
         Ok (RtoC (2 * j * M + P), RtoC (P - j * (M + N)), RtoC (P - j * (M - N))))%R.
