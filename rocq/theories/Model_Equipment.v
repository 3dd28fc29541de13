(** Screens, separators, mixers, pneumatic conveying, packed towers, vacuum leakage.
    Generated by tools/pytrans.py from /repo/fluids, function by function: floats are exact reals,
    a division, root, logarithm or power that Python refuses is an [Err]; float rounding and overflow
    are not represented.  Module constants are inlined with their exact rational value. *)
From Coq Require Import Reals String List Bool.
From Verif Require Import Base Model_Real.
From Coq Require Import QArith Qreals.
From Verif Require Import Model_Numerics Model_Poly Model_Splines.
Import ListNotations.
Open Scope R_scope.

(** fluids/filters.py:57-57 *)
Definition round_Res : list Q := ([20; 30; 40; 60; 80; 100; 200; 400])%Q.

(** fluids/filters.py:58-58 *)
Definition round_betas : list Q := ([1.3; 1.1; 0.95; 0.83; 0.75; 0.7; 0.6; 0.52])%Q.

(** fluids/filters.py:63-63 *)
Definition round_thetas : list Q := ([0; 10; 20; 30; 40; 50; 60; 70; 80; 85])%Q.

(** fluids/filters.py:64-64 *)
Definition round_gammas : list Q := ([1; 0.97; 0.88; 0.75; 0.59; 0.45; 0.3; 0.23; 0.15; 0.09])%Q.

(** fluids/filters.py:127-136 [round_edge_screen]. *)
Definition round_edge_screen (alpha : R) (Re : R) (angle : R) : result R :=
  beta <- interp Re (map Q2R round_Res) (map Q2R round_betas) None None false ;;
  let alpha2 := (alpha * alpha) in
  K <- pdiv (beta * (1 - alpha2)) alpha2 ;;
  K <- (if (Rleb angle 45) then let v := (cos (radians angle)) in
  let K := (K * (v * v)) in
  Ok K
  else t3 <- interp angle (map Q2R round_thetas) (map Q2R round_gammas) None None false ;;
  let K := (K * t3) in
  Ok K) ;;
  Ok K.

(** fluids/filters.py:197-214 [round_edge_open_mesh]. *)
Definition round_edge_open_mesh (alpha : R) (subtype : string) (angle : R) : result R :=
  let one_m_alpha := (1 - alpha) in
  K <- (if (String.eqb subtype "round bar screen"%string) then let K := (0.95 + (0.2 * one_m_alpha)) in
  Ok K
  else if (String.eqb subtype "diamond pattern wire"%string) then let K := (0.67 + (1.3 * one_m_alpha)) in
  Ok K
  else if (String.eqb subtype "knotted net"%string) then let K := (0.7 + (4.9 * one_m_alpha)) in
  Ok K
  else if (String.eqb subtype "knotless net"%string) then let K := (0.72 + (2.1 * one_m_alpha)) in
  Ok K
  else Err ValueError) ;;
  let K := (K * one_m_alpha) in
  K <- (if (Rltb angle 45) then let K := (K * ((cos (radians angle)) ^ 2)) in
  Ok K
  else t1 <- interp angle (map Q2R round_thetas) (map Q2R round_gammas) None None false ;;
  let K := (K * t1) in
  Ok K) ;;
  Ok K.

(** fluids/filters.py:71-71 *)
Definition square_alphas : list Q := ([0.0015625; 0.003125; 0.00625; 0.0125; 0.025; 0.05; 0.1; 0.15; 0.2; 0.25; 0.3; 0.35; 0.4; 0.45; 0.5; 0.55; 0.6; 0.65; 0.7; 0.75; 0.8; 0.85; 0.9; 1])%Q.

(** fluids/filters.py:72-72 *)
Definition square_Ks : list Q := ([1024000; 256000; 64000; 16000; 4000; 1000; 250; 85; 52; 30; 17; 11; 7.7; 5.5; 3.8; 2.8; 2; 1.5; 1.1; 0.78; 0.53; 0.35; 0.08; 0])%Q.

(** fluids/filters.py:247-247 [square_edge_screen]. *)
Definition square_edge_screen (alpha : R) : result R :=
  interp alpha (map Q2R square_alphas) (map Q2R square_Ks) None None false.

(** fluids/filters.py:303-308 [square_edge_grill]. *)
Definition square_edge_grill (alpha : R) (l : option R) (Dh : option R) (fd : option R) : result R :=
  let x0 := (0.5 * (1 - alpha)) in
  let alpha2 := (alpha * alpha) in
  let x0 := (x0 + (1 - alpha2)) in
  match Dh with
    | Some Dh => match l with
      | Some l => match fd with
        | Some fd => if (Rltb (50 * Dh) l) then t1 <- pdiv (fd * l) Dh ;;
        let x0 := (x0 + t1) in
        pdiv x0 alpha2
        else pdiv x0 alpha2
        | None => pdiv x0 alpha2
      end
      | None => pdiv x0 alpha2
    end
    | None => pdiv x0 alpha2
  end.

(** fluids/filters.py:79-79 *)
Definition grills_rounded_tck_t : list Q := ([0.3; 0.3; 0.3; 0.45; 0.55; 0.7; 0.7; 0.7])%Q.

(** fluids/filters.py:80-81 *)
Definition grills_rounded_tck_c : list Q := ([2; 1.0014285714285716; 0.5799999999999998; 0.3585714285714287; 0.2; 0; 0; 0])%Q.

(** fluids/filters.py:365-370 [round_edge_grill]. *)
Definition round_edge_grill (alpha : R) (l : option R) (Dh : option R) (fd : option R) : result R :=
  t1 <- py_splev alpha (map Q2R grills_rounded_tck_t) (map Q2R grills_rounded_tck_c) 2 0 ;;
  match Dh with
    | Some Dh => if Reqb Dh 0 then Ok t1 else match l with
      | Some l => if Reqb l 0 then Ok t1 else match fd with
        | Some fd => if Reqb fd 0 then Ok t1 else if (Rltb (50 * Dh) l) then let alpha2 := (alpha * alpha) in
        t3 <- pdiv (fd * l) (alpha2 * Dh) ;;
        Ok (t1 + t3)
        else Ok t1
        | None => Ok t1
      end
      | None => Ok t1
    end
    | None => Ok t1
  end.

(** fluids/separator.py:61-65 *)
Definition tck_Watkins_t : list Q := ([(-5.115995809754082); (-5.115995809754082); (-5.115995809754082); (-5.115995809754082); (-4.160106231099973); (-3.209113630523477); (-1.2175106961204154); 0.4587657198189318; 1.1197669427405068; 1.6925908552310418; 1.6925908552310418; 1.6925908552310418; 1.6925908552310418])%Q.

(** fluids/separator.py:66-69 *)
Definition tck_Watkins_c : list Q := ([(-1.4404286048266364); (-1.2375168139385286); (-0.9072614905522024); (-0.7662335745829165); (-0.944537665617708); (-1.957339717378027); (-3.002614318094637); (-3.5936804378352956); (-3.8779153181940553); 0; 0; 0; 0])%Q.

(** fluids/separator.py:149-174 [K_separator_Watkins]. *)
Definition K_separator_Watkins (x : R) (rhol : R) (rhog : R) (horizontal : bool) (method : string) : result R :=
  t1 <- pdiv (1 - x) x ;;
  t2 <- pdiv rhog rhol ;;
  t3 <- psqrt t2 ;;
  let factor := (t1 * t3) in
  K <- (if (String.eqb method "spline"%string) then t4 <- plog factor ;;
  t5 <- py_splev t4 (map Q2R tck_Watkins_t) (map Q2R tck_Watkins_c) 3 0 ;;
  let K := (exp t5) in
  Ok K
  else if (String.eqb method "blackwell"%string) then X <- plog factor ;;
  let A := (- 1.877478097) in
  let B := (- 0.81145804597) in
  let C_ := (- 0.1870744085) in
  let D_ := (- 0.0145228667) in
  let E := (- 0.00101148518) in
  let K := (exp (A + (X * (B + (X * (C_ + (X * (D_ + (E * X))))))))) in
  Ok K
  else if (String.eqb method "branan"%string) then X <- plog factor ;;
  let A := (- 1.942936) in
  let B := (- 0.814894) in
  let C_ := (- 0.17939) in
  let D_ := (- 0.012379) in
  let E := 0.000386235 in
  let F := 0.00025955 in
  let K := (exp (A + (X * (B + (X * (C_ + (X * (D_ + (X * (E + (F * X))))))))))) in
  Ok K
  else Err ValueError) ;;
  let K := (K * 0.3048) in
  if horizontal then let K := (K * 1.25) in
  Ok K
  else Ok K.

(** fluids/separator.py:232-251 [K_separator_demister_York]. *)
Definition K_separator_demister_York (P_ : R) (horizontal : bool) : result R :=
  let P_ := (P_ / (8896443230521 / 1290320000)) in
  K <- (if (Rltb P_ 15) then P_ <- (if (Rltb P_ 1) then let P_ := 1 in
  Ok P_
  else Ok P_) ;;
  t1 <- plog P_ ;;
  let K := ((0.1821 + (0.0029 * P_)) + (0.046 * t1)) in
  Ok K
  else if (Rltb P_ 40) then let K := 0.35 in
  Ok K
  else P_ <- (if (Rltb 5500 P_) then let P_ := 5500 in
  Ok P_
  else Ok P_) ;;
  t2 <- plog P_ ;;
  let K := (0.43 - (0.023 * t2)) in
  Ok K) ;;
  let K := (K * 0.3048) in
  if horizontal then let K := (K * 1.25) in
  Ok K
  else Ok K.

(** fluids/separator.py:311-311 [v_Souders_Brown]. *)
Definition v_Souders_Brown (K : R) (rhol : R) (rhog : R) : result R :=
  t1 <- pdiv (rhol - rhog) rhog ;;
  t2 <- psqrt t1 ;;
  Ok (K * t2).

(** fluids/separator.py:385-385 [K_Souders_Brown_theoretical]. *)
Definition K_Souders_Brown_theoretical (D_ : R) (Cd : R) (g : R) : result R :=
  t1 <- pdiv (((4 / 3) * g) * D_) Cd ;;
  psqrt t1.

(** fluids/mixing.py:61-62 [adjust_homogeneity]. *)
Definition adjust_homogeneity (fraction : R) : result R :=
  t1 <- plog (1 - fraction) ;;
  t2 <- plog 0.05 ;;
  pdiv t1 t2.

(** fluids/mixing.py:132-143 [agitator_time_homogeneous]. *)
Definition agitator_time_homogeneous (N_ : R) (P_ : R) (T : R) (H : R) (mu : R) (rho : R) (D_ : option R) (homogeneity : R) : result R :=
  D_ <- (match D_ with
    | Some D_ => if Reqb D_ 0 then let D_ := (T * 0.5) in
    Ok D_ else Ok D_
    | None => let D_ := (T * 0.5) in
    Ok D_
  end) ;;
  t1 <- pdiv (P_ * 9.80665) rho ;;
  t2 <- pdiv t1 (N_ ^ 3) ;;
  Np <- pdiv t2 (D_ ^ 5) ;;
  t4 <- pdiv rho mu ;;
  let Re_imp := ((t4 * (D_ ^ 2)) * N_) in
  t5 <- ppow Np (1 / 3) ;;
  let regime_constant := (t5 * Re_imp) in
  Fo <- (if (Rleb 6370 regime_constant) then pdiv 5.2 regime_constant
  else t7 <- pdiv 183 regime_constant ;;
  let Fo := (t7 ^ 2) in
  Ok Fo) ;;
  t8 <- ppow T 1.5 ;;
  t9 <- psqrt H ;;
  t10 <- pdiv ((rho * t8) * t9) mu ;;
  let time := (t10 * Fo) in
  multiplier <- adjust_homogeneity homogeneity ;;
  Ok (time * multiplier).

(** fluids/mixing.py:194-195 [Kp_helical_ribbon_Rieger]. *)
Definition Kp_helical_ribbon_Rieger (D_ : R) (h : R) (nb : R) (pitch : R) (width : R) (T : R) : result R :=
  let c := (0.5 * (T - D_)) in
  t1 <- pdiv (82.8 * h) D_ ;;
  t2 <- pdiv c D_ ;;
  t3 <- ppow t2 (- 0.38) ;;
  t4 <- pdiv pitch D_ ;;
  t5 <- ppow t4 (- 0.35) ;;
  t6 <- pdiv width D_ ;;
  t7 <- ppow t6 0.2 ;;
  t8 <- ppow nb 0.78 ;;
  Ok ((((t1 * t3) * t5) * t7) * t8).

(** fluids/mixing.py:237-237 [time_helical_ribbon_Grenville]. *)
Definition time_helical_ribbon_Grenville (Kp : R) (N_ : R) : result R :=
  t1 <- ppow Kp (- 1.69) ;;
  pdiv (896000 * t1) N_.

(** fluids/mixing.py:290-320 [size_tee]. *)
Definition size_tee (Q1 : R) (Q2 : R) (D_ : R) (D2 : option R) (n : R) (pipe_diameters : R) : result R :=
  V1 <- pdiv Q1 ((PI / 4) * (D_ ^ 2)) ;;
  D2 <- match D2 with Some v => Ok v | None => t2 <- pdiv Q2 Q1 ;;
  t3 <- ppow t2 (2 / 3) ;;
  Ok (t3 * D_) end ;;
  V2 <- pdiv Q2 ((PI / 4) * (D2 ^ 2)) ;;
  t5 <- pdiv D2 D_ ;;
  t6 <- pdiv V2 V1 ;;
  let B := (((n ^ 2) * (t5 ^ 2)) * (t6 ^ 2)) in
  if ((negb (Reqb n 1)) && (negb (Reqb n 2)) && (negb (Reqb n 3)) && (negb (Reqb n 4)))%bool then Err ValueError
  else E <- (if (Reqb n 1) then if (Rltb B 0.7) then let E := 1.33 in
  Ok E
  else t7 <- plog (B / 0.7) ;;
  let E := ((1 / 33) + (0.95 * t7)) in
  Ok E
  else if (Reqb n 2) then if (Rltb B 0.8) then let E := 1.44 in
  Ok E
  else t8 <- plog (B / 0.8) ;;
  t9 <- ppow t8 1.5 ;;
  let E := (1.44 + (0.95 * t9)) in
  Ok E
  else if (Reqb n 3) then if (Rltb B 0.8) then let E := 1.75 in
  Ok E
  else t10 <- plog (B / 0.8) ;;
  t11 <- ppow t10 1.8 ;;
  let E := (1.75 + (0.95 * t11)) in
  Ok E
  else if (Rltb B 2) then let E := 1.97 in
  Ok E
  else t12 <- plog (B / 2) ;;
  let E := (1.97 + (0.95 * (t12 ^ 2))) in
  Ok E) ;;
  t13 <- ppow B 0.86 ;;
  t14 <- pdiv 0.32 t13 ;;
  t15 <- ppow pipe_diameters (- E) ;;
  psqrt (t14 * t15).

(** fluids/mixing.py:375-379 [COV_motionless_mixer]. *)
Definition COV_motionless_mixer (Ki : R) (Q1 : R) (Q2 : R) (pipe_diameters : R) : result R :=
  Cv <- pdiv Q2 (Q1 + Q2) ;;
  t2 <- pdiv (1 - Cv) Cv ;;
  COV0 <- psqrt t2 ;;
  COVr <- ppow Ki pipe_diameters ;;
  let COV := (COV0 * COVr) in
  Ok COV.

(** fluids/mixing.py:424-424 [K_motionless_mixer]. *)
Definition K_motionless_mixer (K : R) (L : R) (D_ : R) (fd : R) : result R :=
  t1 <- pdiv L D_ ;;
  Ok ((t1 * fd) * K).

(** fluids/saltation.py:110-116 [Rizk]. *)
Definition Rizk (mp : R) (dp : R) (rhog : R) (D_ : R) : result R :=
  let alpha := ((1440 * dp) + 1.96) in
  let beta := ((1100 * dp) + 2.5) in
  term1 <- ppow 0.1 alpha ;;
  t2 <- psqrt (9.80665 * D_) ;;
  Frs_sorta <- pdiv 1 t2 ;;
  t4 <- ppow Frs_sorta beta ;;
  let expression1 := (term1 * t4) in
  t5 <- pdiv mp rhog ;;
  expression2 <- pdiv t5 (((PI / 4) * D_) * D_) ;;
  t7 <- pdiv expression2 expression1 ;;
  t8 <- pdiv 1 (1 + beta) ;;
  ppow t7 t8.

(** fluids/saltation.py:179-184 [Matsumoto_1974]. *)
Definition Matsumoto_1974 (mp : R) (rhop : R) (dp : R) (rhog : R) (D_ : R) (Vterminal : R) : result R :=
  let A := ((PI / 4) * (D_ ^ 2)) in
  t1 <- psqrt (9.80665 * dp) ;;
  Frp <- pdiv Vterminal t1 ;;
  t3 <- psqrt (9.80665 * D_) ;;
  Frs_sorta <- pdiv 1 t3 ;;
  t5 <- pdiv rhop rhog ;;
  t6 <- psqrt t5 ;;
  t7 <- ppow (Frp / 10) (- 1.75) ;;
  let expression1 := (((0.448 * t6) * t7) * ((Frs_sorta / 10) ^ 3)) in
  t8 <- pdiv mp rhog ;;
  expression2 <- pdiv t8 A ;;
  t10 <- pdiv expression2 expression1 ;;
  ppow t10 (1 / 4).

(** fluids/saltation.py:247-252 [Matsumoto_1975]. *)
Definition Matsumoto_1975 (mp : R) (rhop : R) (dp : R) (rhog : R) (D_ : R) (Vterminal : R) : result R :=
  let A := ((PI / 4) * (D_ ^ 2)) in
  t1 <- psqrt (9.80665 * dp) ;;
  Frp <- pdiv Vterminal t1 ;;
  t3 <- psqrt (9.80665 * D_) ;;
  Frs_sorta <- pdiv 1 t3 ;;
  t5 <- pdiv rhop rhog ;;
  t6 <- ppow t5 0.55 ;;
  t7 <- ppow (Frp / 10) (- 2.3) ;;
  let expression1 := (((1.11 * t6) * t7) * ((Frs_sorta / 10) ^ 3)) in
  t8 <- pdiv mp rhog ;;
  expression2 <- pdiv t8 A ;;
  t10 <- pdiv expression2 expression1 ;;
  ppow t10 (1 / 4).

(** fluids/saltation.py:333-346 [Matsumoto_1977]. *)
Definition Matsumoto_1977 (mp : R) (rhop : R) (dp : R) (rhog : R) (D_ : R) (Vterminal : R) : result R :=
  t1 <- pdiv rhop rhog ;;
  t2 <- ppow t1 (- 0.74) ;;
  let limit := ((1.39 * D_) * t2) in
  let A := ((PI / 4) * (D_ ^ 2)) in
  if (Rltb limit dp) then t3 <- psqrt (9.80665 * dp) ;;
  Frp <- pdiv Vterminal t3 ;;
  t5 <- psqrt (9.80665 * D_) ;;
  Frs_sorta <- pdiv 1 t5 ;;
  t7 <- pdiv rhop rhog ;;
  t8 <- ppow t7 1.06 ;;
  t9 <- ppow (Frp / 10) (- 3.7) ;;
  t10 <- ppow (Frs_sorta / 10) 3.61 ;;
  let expression1 := (((0.373 * t8) * t9) * t10) in
  t11 <- pdiv mp rhog ;;
  expression2 <- pdiv t11 A ;;
  t13 <- pdiv expression2 expression1 ;;
  ppow t13 (1 / 4.61)
  else t15 <- psqrt (9.80665 * D_) ;;
  Frs_sorta <- pdiv 1 t15 ;;
  t17 <- pdiv dp D_ ;;
  t18 <- ppow t17 1.43 ;;
  let expression1 := ((5560 * t18) * ((Frs_sorta / 10) ^ 4)) in
  t19 <- pdiv mp rhog ;;
  expression2 <- pdiv t19 A ;;
  t21 <- pdiv expression2 expression1 ;;
  ppow t21 0.2.

(** fluids/saltation.py:413-416 [Schade]. *)
Definition Schade (mp : R) (rhop : R) (dp : R) (rhog : R) (D_ : R) : result R :=
  t1 <- pdiv D_ dp ;;
  t2 <- ppow t1 0.025 ;;
  t3 <- pdiv rhop rhog ;;
  t4 <- ppow t3 0.34 ;;
  let B := (t2 * t4) in
  A <- psqrt (9.80665 * D_) ;;
  C_ <- pdiv mp (((rhog * PI) / 4) * (D_ ^ 2)) ;;
  t7 <- ppow C_ 0.11 ;;
  ppow ((t7 * B) * A) (1 / 1.11).

(** fluids/saltation.py:491-497 [Weber_saltation]. *)
Definition Weber_saltation (mp : R) (rhop : R) (dp : R) (rhog : R) (D_ : R) (Vterminal : R) : result R :=
  term1 <- (if (Rleb Vterminal 3) then t1 <- pdiv dp D_ ;;
  t2 <- ppow t1 0.1 ;;
  let term1 := ((7 + ((8 / 3) * Vterminal)) * t2) in
  Ok term1
  else t3 <- pdiv dp D_ ;;
  t4 <- ppow t3 0.1 ;;
  let term1 := (15 * t4) in
  Ok term1) ;;
  t5 <- psqrt (9.80665 * D_) ;;
  term2 <- pdiv 1 t5 ;;
  t7 <- pdiv mp rhog ;;
  term3 <- pdiv t7 ((PI / 4) * (D_ ^ 2)) ;;
  t9 <- pdiv term1 term2 ;;
  t10 <- psqrt term3 ;;
  t11 <- psqrt t10 ;;
  ppow (t9 * t11) (1 / 1.25).

(** fluids/saltation.py:560-564 [Geldart_Ling]. *)
Definition Geldart_Ling (mp : R) (rhog : R) (D_ : R) (mug : R) : result R :=
  Gs <- pdiv mp (((0.25 * PI) * D_) * D_) ;;
  t3 <- pdiv Gs D_ ;;
  if (Rleb t3 47000) then t4 <- ppow Gs 0.465 ;;
  t5 <- ppow D_ (- 0.01) ;;
  t6 <- ppow mug 0.055 ;;
  t7 <- ppow rhog (- 0.42) ;;
  Ok ((((1.5 * t4) * t5) * t6) * t7)
  else t8 <- ppow Gs 0.302 ;;
  t9 <- ppow D_ 0.153 ;;
  t10 <- ppow mug 0.055 ;;
  t11 <- ppow rhog (- 0.42) ;;
  Ok ((((8.7 * t8) * t9) * t10) * t11).

(** fluids/packed_tower.py:127-129 [dP_demister_dry_Setekleiv_Svendsen]. *)
Definition dP_demister_dry_Setekleiv_Svendsen (S_ : R) (voidage : R) (vs : R) (rho : R) (mu : R) (L : R) : result R :=
  t1 <- pdiv 565 ((((69.6 * S_) * L) - ((S_ * L) ^ 2)) - 779) ;;
  t2 <- pdiv 74.9 (160.9 - ((4.85 * S_) * L)) ;;
  let term := ((10.29 - t1) - t2) in
  t3 <- pdiv (((mu * voidage) * (S_ ^ 2)) * L) rho ;;
  t4 <- pdiv t3 vs ;;
  t5 <- ppow t4 0.75 ;;
  let right := (term + (45.33 * t5)) in
  pdiv ((right * rho) * (vs ^ 2)) (voidage ^ 2).

(** fluids/packed_tower.py:181-183 [dP_demister_dry_Setekleiv_Svendsen_lit]. *)
Definition dP_demister_dry_Setekleiv_Svendsen_lit (S_ : R) (voidage : R) (vs : R) (rho : R) (mu : R) (L : R) : result R :=
  t1 <- pdiv 320 ((((69.6 * S_) * L) - ((S_ * L) ^ 2)) - 779) ;;
  t2 <- pdiv 52.4 (161 - ((4.85 * S_) * L)) ;;
  let term := ((7.3 - t1) - t2) in
  t3 <- pdiv (((mu * voidage) * (S_ ^ 2)) * L) rho ;;
  t4 <- pdiv t3 vs ;;
  t5 <- ppow t4 0.75 ;;
  let right := (term + (27.2 * t5)) in
  pdiv ((right * rho) * (vs ^ 2)) (voidage ^ 2).

(** fluids/packed_tower.py:246-246 [dP_demister_wet_ElDessouky]. *)
Definition dP_demister_wet_ElDessouky (vs : R) (voidage : R) (d_wire : R) (L : R) : result R :=
  t1 <- ppow (1 - voidage) 0.375798 ;;
  t2 <- ppow vs 0.81317 ;;
  t3 <- ppow d_wire (- 1.56114147) ;;
  Ok ((((L * 0.002356999643727531) * t1) * t2) * t3).

(** fluids/packed_tower.py:309-310 [separation_demister_ElDessouky]. *)
Definition separation_demister_ElDessouky (vs : R) (voidage : R) (d_wire : R) (d_drop : R) : result R :=
  t1 <- ppow d_wire (- 0.28264) ;;
  t2 <- ppow (1 - voidage) 0.099625 ;;
  t3 <- ppow vs 0.106878 ;;
  t4 <- ppow d_drop 0.383197 ;;
  let eta := ((((0.858352355761947 * t1) * t2) * t3) * t4) in
  Ok (Rmin eta 1).

(** fluids/packed_tower.py:354-354 [voidage_experimental]. *)
Definition voidage_experimental (m : R) (rho : R) (D_ : R) (H : R) : result R :=
  t1 <- pdiv m (((PI / 4) * (D_ ^ 2)) * H) ;;
  t2 <- pdiv t1 rho ;;
  Ok (1 - t2).

(** fluids/packed_tower.py:395-395 [specific_area_mesh]. *)
Definition specific_area_mesh (voidage : R) (d : R) : result R :=
  pdiv (4 * (1 - voidage)) d.

(** fluids/packed_tower.py:461-464 [Stichlmair_dry]. *)
Definition Stichlmair_dry (Vg : R) (rhog : R) (mug : R) (voidage : R) (specific_area : R) (C1 : R) (C2 : R) (C3 : R) (H : R) : result R :=
  dp <- pdiv (6 * (1 - voidage)) specific_area ;;
  Re <- pdiv ((Vg * rhog) * dp) mug ;;
  t3 <- pdiv C1 Re ;;
  t4 <- psqrt Re ;;
  t5 <- pdiv C2 t4 ;;
  let f0 := ((t3 + t5) + C3) in
  t6 <- ppow voidage 4.65 ;;
  t7 <- pdiv (((3 / 4) * f0) * (1 - voidage)) t6 ;;
  t8 <- pdiv ((t7 * rhog) * H) dp ;;
  Ok (t8 * (Vg ^ 2)).

(** fluids/packed_tower.py:468-470 [_Stichlmair_wet_err]. *)
Definition _Stichlmair_wet_err (dP_irr : R) (h0 : R) (c1 : R) (dP_dry : R) (H : R) (voidage : R) (c : R) : result R :=
  let hT := (h0 * (1 + (((20 * dP_irr) * dP_irr) * c1))) in
  t1 <- pdiv dP_dry H ;;
  t2 <- pdiv ((1 - voidage) + hT) (1 - voidage) ;;
  t3 <- ppow t2 ((2 + c) / 3) ;;
  t4 <- pdiv voidage (voidage - hT) ;;
  t5 <- ppow t4 4.65 ;;
  t6 <- pdiv dP_irr H ;;
  let err := (((t1 * t3) * t5) - t6) in
  Ok err.

(** fluids/packed_tower.py:814-829 [Robbins]. *)
Definition Robbins (L : R) (G : R) (rhol : R) (rhog : R) (mul : R) (H : R) (Fpd : R) : result R :=
  let L := (L * 737.33812) in
  let G := (G * 737.33812) in
  let rhol := (rhol * 0.062427961) in
  let rhog := (rhog * 0.062427961) in
  let mul := (mul * 1000) in
  let C3 := 0.000000074 in
  let C4 := 0.000027 in
  Fpd_root_term <- psqrt (0.05 * Fpd) ;;
  t2 <- pdiv 62.4 rhol ;;
  t3 <- ppow mul 0.1 ;;
  let Lf := (((L * t2) * Fpd_root_term) * t3) in
  t4 <- pdiv 0.075 rhog ;;
  t5 <- psqrt t4 ;;
  let Gf := ((G * t5) * Fpd_root_term) in
  let Gf2 := (Gf * Gf) in
  t6 <- ppow 10 (C4 * Lf) ;;
  let C4LF_10_GF2_C3 := ((C3 * Gf2) * t6) in
  let C4LF_10_GF2_C3_2 := (C4LF_10_GF2_C3 * C4LF_10_GF2_C3) in
  t7 <- ppow (0.00005 * Lf) 0.1 ;;
  let dP := (C4LF_10_GF2_C3 + ((0.4 * t7) * (C4LF_10_GF2_C3_2 * C4LF_10_GF2_C3_2))) in
  Ok ((dP * 817.22083) * H).

(** fluids/jet_pump.py:667-678 [vacuum_air_leakage_Ryans_Croll]. *)
Definition vacuum_air_leakage_Ryans_Croll (V : R) (P_ : R) (P_atm : R) : result R :=
  let V := (V * (1953125000 / 55306341)) in
  let P_ := (P_ * (152 / 20265)) in
  let P_atm := (P_atm * (152 / 20265)) in
  let P_vacuum := (P_atm - P_) in
  air_leakage <- (if (Rltb P_vacuum 10) then t1 <- ppow P_vacuum 0.34 ;;
  t2 <- ppow V 0.6 ;;
  let air_leakage := ((0.026 * t1) * t2) in
  Ok air_leakage
  else if (Rltb P_vacuum 100) then t3 <- ppow P_vacuum 0.26 ;;
  t4 <- ppow V 0.6 ;;
  let air_leakage := ((0.032 * t3) * t4) in
  Ok air_leakage
  else t5 <- ppow V 0.6 ;;
  let air_leakage := (0.106 * t5) in
  Ok air_leakage) ;;
  let leakage := ((air_leakage * 0.45359237) * (1 / 3600)) in
  Ok leakage.

(** fluids/jet_pump.py:721-728 [vacuum_air_leakage_Seider]. *)
Definition vacuum_air_leakage_Seider (V : R) (P_ : R) (P_atm : R) : result R :=
  let P_ := (P_ * (152 / 20265)) in
  let P_atm := (P_atm * (152 / 20265)) in
  let P_vacuum := (P_atm - P_) in
  let V := (V * (1953125000 / 55306341)) in
  lnP <- plog P_vacuum ;;
  t2 <- ppow V 0.66 ;;
  let leakage_lb_hr := (5 + (((0.0289 + (0.03088 * lnP)) - ((0.0005733 * lnP) * lnP)) * t2)) in
  let leakage := ((leakage_lb_hr * 0.45359237) * (1 / 3600)) in
  Ok leakage.

(** fluids/jet_pump.py:773-793 [vacuum_air_leakage_HEI2633]. *)
Definition vacuum_air_leakage_HEI2633 (V : R) (P_ : R) (P_atm : R) : result R :=
  let P_atm := (P_atm * (152 / 20265)) in
  let P_ := (P_ * (152 / 20265)) in
  let P_vacuum := (P_atm - P_) in
  let V := (V * (1953125000 / 55306341)) in
  V <- (if (Rltb V 10) then let V := 10 in
  Ok V
  else Ok V) ;;
  logV <- plog V ;;
  '(c0, c1) <- (if (Rleb P_vacuum 1) then let c0 := 0.6667235169997174 in
  let c1 := (- 3.71246576520232) in
  Ok (c0, c1)
  else if (Rleb P_vacuum 3) then let c0 := 0.664489357445796 in
  let c1 := (- 3.0147277548691274) in
  Ok (c0, c1)
  else if (Rleb P_vacuum 20) then let c0 := 0.6656780453394583 in
  let c1 := (- 2.34007321331419) in
  Ok (c0, c1)
  else if (Rleb P_vacuum 90) then let c0 := 0.663080000739313 in
  let c1 := (- 1.9278288516732665) in
  Ok (c0, c1)
  else let c0 := 0.6658471905826482 in
  let c1 := (- 1.6641585778506027) in
  Ok (c0, c1)) ;;
  let leakage_lb_hr := (exp (c1 + (logV * c0))) in
  let leakage := ((leakage_lb_hr * 0.45359237) * (1 / 3600)) in
  Ok leakage.

(** fluids/jet_pump.py:828-850 [vacuum_air_leakage_Coker_Worthington]. *)
Definition vacuum_air_leakage_Coker_Worthington (P_ : R) (P_atm : R) (conservative : bool) : result R :=
  let P_ := (P_ / (514731 / 152)) in
  let P_atm := (P_atm / (514731 / 152)) in
  let P_vacuum := (P_atm - P_) in
  leakage <- (if conservative then if (Rltb 8 P_vacuum) then let leakage := 40 in
  Ok leakage
  else if (Rltb 5 P_vacuum) then let leakage := 30 in
  Ok leakage
  else if (Rltb 3 P_vacuum) then let leakage := 25 in
  Ok leakage
  else let leakage := 20 in
  Ok leakage
  else if (Rltb 8 P_vacuum) then let leakage := 30 in
  Ok leakage
  else if (Rltb 5 P_vacuum) then let leakage := 25 in
  Ok leakage
  else if (Rltb 3 P_vacuum) then let leakage := 20 in
  Ok leakage
  else let leakage := 10 in
  Ok leakage) ;;
  let leakage := ((leakage * 0.45359237) * (1 / 3600)) in
  Ok leakage.
