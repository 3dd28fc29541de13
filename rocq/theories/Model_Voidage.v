(** Void fraction and viscosity of gas-liquid mixtures.
    Generated by tools/pytrans.py from /repo/fluids, function by function: floats are exact reals,
    a division, root, logarithm or power that Python refuses is an [Err]; float rounding and overflow
    are not represented.  Module constants are inlined with their exact rational value. *)
From Coq Require Import Reals String List Bool.
From Verif Require Import Base Model_Real.
Import ListNotations.
Open Scope R_scope.

(** fluids/core.py:1267-1270 [Froude]. *)
Definition Froude (V : R) (L : R) (g : R) (squared : bool) : result R :=
  t1 <- psqrt (L * g) ;;
  Fr <- pdiv V t1 ;;
  if squared then let Fr := (Fr * Fr) in
  Ok Fr
  else Ok Fr.

(** fluids/two_phase_voidage.py:199-199 [Thom]. *)
Definition Thom (x : R) (rhol : R) (rhog : R) (mul : R) (mug : R) : result R :=
  t1 <- pdiv (1 - x) x ;;
  t2 <- pdiv rhog rhol ;;
  t3 <- ppow t2 0.89 ;;
  t4 <- pdiv mul mug ;;
  t5 <- ppow t4 0.18 ;;
  pdiv 1 (1 + ((t1 * t3) * t5)).

(** fluids/two_phase_voidage.py:249-249 [Zivi]. *)
Definition Zivi (x : R) (rhol : R) (rhog : R) : result R :=
  t1 <- pdiv (1 - x) x ;;
  t2 <- pdiv rhog rhol ;;
  t3 <- ppow t2 (2 / 3) ;;
  pdiv 1 (1 + (t1 * t3)).

(** fluids/two_phase_voidage.py:304-308 [Smith]. *)
Definition Smith (x : R) (rhol : R) (rhog : R) : result R :=
  let K := 0.4 in
  x_ratio <- pdiv (1 - x) x ;;
  t2 <- pdiv rhol rhog ;;
  t3 <- pdiv (t2 + (K * x_ratio)) (1 + (K * x_ratio)) ;;
  root <- psqrt t3 ;;
  t5 <- pdiv rhog rhol ;;
  pdiv 1 (1 + ((x_ratio * t5) * (K + ((1 - K) * root)))).

(** fluids/two_phase_voidage.py:357-357 [Fauske]. *)
Definition Fauske (x : R) (rhol : R) (rhog : R) : result R :=
  t1 <- pdiv (1 - x) x ;;
  t2 <- pdiv rhog rhol ;;
  t3 <- psqrt t2 ;;
  pdiv 1 (1 + (t1 * t3)).

(** fluids/two_phase_voidage.py:408-410 [Chisholm_voidage]. *)
Definition Chisholm_voidage (x : R) (rhol : R) (rhog : R) : result R :=
  t1 <- pdiv rhol rhog ;;
  S_ <- psqrt (1 - (x * (1 - t1))) ;;
  t3 <- pdiv (1 - x) x ;;
  t4 <- pdiv (t3 * rhog) rhol ;;
  pdiv 1 (1 + (t4 * S_)).

(** fluids/two_phase_voidage.py:464-464 [Turner_Wallis]. *)
Definition Turner_Wallis (x : R) (rhol : R) (rhog : R) (mul : R) (mug : R) : result R :=
  t1 <- pdiv (1 - x) x ;;
  t2 <- ppow t1 0.72 ;;
  t3 <- pdiv rhog rhol ;;
  t4 <- ppow t3 0.4 ;;
  t5 <- pdiv mul mug ;;
  t6 <- ppow t5 0.08 ;;
  pdiv 1 (1 + ((t2 * t4) * t6)).

(** fluids/two_phase_voidage.py:514-518 [homogeneous]. *)
Definition homogeneous (x : R) (rhol : R) (rhog : R) : result R :=
  if (Reqb x 1) then Ok 1
  else if (Reqb x 0) then Ok 0
  else t1 <- pdiv (1 - x) x ;;
  t2 <- pdiv rhog rhol ;;
  pdiv 1 (1 + (t1 * t2)).

(** fluids/two_phase_voidage.py:570-571 [Chisholm_Armand]. *)
Definition Chisholm_Armand (x : R) (rhol : R) (rhog : R) : result R :=
  alpha_h <- homogeneous x rhol rhog ;;
  t2 <- psqrt (1 - alpha_h) ;;
  pdiv alpha_h (alpha_h + t2).

(** fluids/two_phase_voidage.py:621-621 [Armand]. *)
Definition Armand (x : R) (rhol : R) (rhog : R) : result R :=
  t1 <- homogeneous x rhol rhog ;;
  Ok (0.833 * t1).

(** fluids/two_phase_voidage.py:673-674 [Nishino_Yamazaki]. *)
Definition Nishino_Yamazaki (x : R) (rhol : R) (rhog : R) : result R :=
  alpha_h <- homogeneous x rhol rhog ;;
  t2 <- pdiv ((1 - x) * rhog) (x * rhol) ;;
  t3 <- psqrt t2 ;;
  t4 <- psqrt alpha_h ;;
  Ok (1 - (t3 * t4)).

(** fluids/two_phase_voidage.py:728-733 [Guzhov]. *)
Definition Guzhov (x : R) (rhol : R) (rhog : R) (m : R) (D_ : R) : result R :=
  t1 <- pdiv (1 - x) rhol ;;
  t2 <- pdiv x rhog ;;
  rho_tp <- pdiv 1 (t1 + t2) ;;
  G <- pdiv m (((0.25 * PI) * D_) * D_) ;;
  V_tp <- pdiv G rho_tp ;;
  Fr <- Froude V_tp D_ 9.80665 true ;;
  alpha_h <- homogeneous x rhol rhog ;;
  t8 <- psqrt Fr ;;
  Ok ((0.81 * (1 - (exp ((- 2.2) * t8)))) * alpha_h).

(** fluids/two_phase_voidage.py:791-798 [Kawahara]. *)
Definition Kawahara (x : R) (rhol : R) (rhog : R) (D_ : R) : result R :=
  if (Rltb 0.00025 D_) then Armand x rhol rhog
  else if (Rltb 0.000075 D_) then let C1 := 0.03 in
  let C2 := 0.97 in
  alpha_h <- homogeneous x rhol rhog ;;
  t3 <- psqrt alpha_h ;;
  t4 <- psqrt alpha_h ;;
  pdiv (C1 * t3) (1 - (C2 * t4))
  else let C1 := 0.02 in
  let C2 := 0.98 in
  alpha_h <- homogeneous x rhol rhog ;;
  t7 <- psqrt alpha_h ;;
  t8 <- psqrt alpha_h ;;
  pdiv (C1 * t7) (1 - (C2 * t8)).

(** fluids/two_phase_voidage.py:865-868 [Lockhart_Martinelli_Xtt]. *)
Definition Lockhart_Martinelli_Xtt (x : R) (rhol : R) (rhog : R) (mul : R) (mug : R) (pow_x : R) (pow_rho : R) (pow_mu : R) (n : option R) : result R :=
  '(pow_x, pow_mu) <- (match n with
    | Some n => let pow_x := ((2 - n) / 2) in
    let pow_mu := (n / 2) in
    Ok (pow_x, pow_mu)
    | None => Ok (pow_x, pow_mu)
  end) ;;
  t1 <- pdiv (1 - x) x ;;
  t2 <- ppow t1 pow_x ;;
  t3 <- pdiv rhog rhol ;;
  t4 <- ppow t3 pow_rho ;;
  t5 <- pdiv mul mug ;;
  t6 <- ppow t5 pow_mu ;;
  Ok ((t2 * t4) * t6).

(** fluids/two_phase_voidage.py:924-926 [Baroczy]. *)
Definition Baroczy (x : R) (rhol : R) (rhog : R) (mul : R) (mug : R) : result R :=
  Xtt <- Lockhart_Martinelli_Xtt x rhol rhog mul mug 0.74 0.65 0.13 None ;;
  pdiv 1 (1 + Xtt).

(** fluids/two_phase_voidage.py:1004-1012 [Tandon_Varma_Gupta]. *)
Definition Tandon_Varma_Gupta (x : R) (rhol : R) (rhog : R) (mul : R) (mug : R) (m : R) (D_ : R) : result R :=
  G <- pdiv m (((0.25 * PI) * D_) * D_) ;;
  Rel <- pdiv (G * D_) mul ;;
  Xtt <- Lockhart_Martinelli_Xtt x rhol rhog mul mug 0.9 0.5 0.1 None ;;
  t4 <- pdiv 1 Xtt ;;
  t5 <- ppow Xtt (- 0.476) ;;
  let Fxtt := (0.15 * (t4 + (2.85 * t5))) in
  if (Rltb Rel 1125) then t6 <- ppow Rel (- 0.315) ;;
  t7 <- pdiv (1.928 * t6) Fxtt ;;
  t8 <- ppow Rel (- 0.63) ;;
  t9 <- pdiv (0.9293 * t8) (Fxtt * Fxtt) ;;
  let alpha := ((1 - t7) + t9) in
  Ok alpha
  else t10 <- ppow Rel (- 0.088) ;;
  t11 <- pdiv (0.38 * t10) Fxtt ;;
  t12 <- ppow Rel (- 0.176) ;;
  t13 <- pdiv (0.0361 * t12) (Fxtt * Fxtt) ;;
  let alpha := ((1 - t11) + t13) in
  Ok alpha.

(** fluids/two_phase_voidage.py:1072-1077 [Harms]. *)
Definition Harms (x : R) (rhol : R) (rhog : R) (mul : R) (mug : R) (m : R) (D_ : R) : result R :=
  G <- pdiv m (((0.25 * PI) * D_) * D_) ;;
  Rel <- pdiv ((G * D_) * (1 - x)) mul ;;
  Xtt <- Lockhart_Martinelli_Xtt x rhol rhog mul mug 0.9 0.5 0.1 None ;;
  t4 <- psqrt Rel ;;
  let term := (1.74 + (0.104 * t4)) in
  t5 <- ppow Rel (- 0.875) ;;
  t6 <- ppow Xtt (- 1.655) ;;
  t7 <- psqrt (1.376 + (7.242 * t6)) ;;
  t8 <- pdiv ((((10.06 * t5) * term) * term) * 1) t7 ;;
  Ok ((1 - t8) ^ 2).

(** fluids/two_phase_voidage.py:1140-1144 [Domanski_Didion]. *)
Definition Domanski_Didion (x : R) (rhol : R) (rhog : R) (mul : R) (mug : R) : result R :=
  Xtt <- Lockhart_Martinelli_Xtt x rhol rhog mul mug 0.9 0.5 0.1 None ;;
  if (Rltb Xtt 10) then t2 <- ppow Xtt 0.8 ;;
  ppow (1 + t2) (- 0.378)
  else t4 <- plog Xtt ;;
  Ok (0.823 - (0.157 * t4)).

(** fluids/two_phase_voidage.py:1209-1215 [Graham]. *)
Definition Graham (x : R) (rhol : R) (rhog : R) (mul : R) (mug : R) (m : R) (D_ : R) (g : R) : result R :=
  G <- pdiv m (((0.25 * PI) * D_) * D_) ;;
  t2 <- pdiv ((((G * G) * x) * x) * x) (((((1 - x) * rhog) * rhog) * g) * D_) ;;
  Ft <- psqrt t2 ;;
  if (Rltb Ft 0.01032) then Ok 0
  else log_Ft <- plog Ft ;;
  Ok (1 - (exp (((- 1) - (0.3 * log_Ft)) - ((0.0328 * log_Ft) * log_Ft)))).

(** fluids/two_phase_voidage.py:1276-1279 [Yashar]. *)
Definition Yashar (x : R) (rhol : R) (rhog : R) (mul : R) (mug : R) (m : R) (D_ : R) (g : R) : result R :=
  G <- pdiv m (((0.25 * PI) * D_) * D_) ;;
  t2 <- pdiv ((((G * G) * x) * x) * x) (((((1 - x) * rhog) * rhog) * g) * D_) ;;
  Ft <- psqrt t2 ;;
  Xtt <- Lockhart_Martinelli_Xtt x rhol rhog mul mug 0.9 0.5 0.1 None ;;
  t5 <- pdiv 1 Ft ;;
  ppow ((1 + t5) + Xtt) (- 0.321).

(** fluids/two_phase_voidage.py:1333-1336 [Huq_Loth]. *)
Definition Huq_Loth (x : R) (rhol : R) (rhog : R) : result R :=
  let term := (1 - x) in
  let B := ((2 * x) * term) in
  t1 <- pdiv rhol rhog ;;
  D_ <- psqrt (1 + ((2 * B) * (t1 - 1))) ;;
  t3 <- pdiv ((2 * term) * term) ((1 - (2 * x)) + D_) ;;
  Ok (1 - t3).

(** fluids/two_phase_voidage.py:1393-1399 [Kopte_Newell_Chato]. *)
Definition Kopte_Newell_Chato (x : R) (rhol : R) (rhog : R) (m : R) (D_ : R) (g : R) : result R :=
  G <- pdiv m (((0.25 * PI) * D_) * D_) ;;
  t2 <- pdiv ((((G * G) * x) * x) * x) (((((1 - x) * rhog) * rhog) * g) * D_) ;;
  Ft <- psqrt t2 ;;
  if (Rltb Ft 0.044) then homogeneous x rhol rhog
  else log_Ft <- plog Ft ;;
  Ok (1.045 - (exp ((((- 1) - (0.342 * log_Ft)) - ((0.0268 * log_Ft) * log_Ft)) + (((0.00597 * log_Ft) * log_Ft) * log_Ft)))).

(** fluids/two_phase_voidage.py:1462-1465 [Steiner]. *)
Definition Steiner (x : R) (rhol : R) (rhog : R) (sigma : R) (m : R) (D_ : R) (g : R) : result R :=
  G <- pdiv m (((0.25 * PI) * D_) * D_) ;;
  let C0 := (1 + (0.12 * (1 - x))) in
  t2 <- psqrt rhol ;;
  t3 <- pdiv (1.18 * (1 - x)) t2 ;;
  t4 <- psqrt ((g * sigma) * (rhol - rhog)) ;;
  t5 <- psqrt t4 ;;
  let vgm := (t3 * t5) in
  t6 <- pdiv x rhog ;;
  t7 <- pdiv (1 - x) rhol ;;
  t8 <- pdiv vgm G ;;
  pdiv x (rhog * ((C0 * (t6 + t7)) + t8)).

(** fluids/two_phase_voidage.py:1527-1530 [Rouhani_1]. *)
Definition Rouhani_1 (x : R) (rhol : R) (rhog : R) (sigma : R) (m : R) (D_ : R) (g : R) : result R :=
  G <- pdiv m (((0.25 * PI) * D_) * D_) ;;
  let C0 := (1 + (0.2 * (1 - x))) in
  t2 <- psqrt rhol ;;
  t3 <- pdiv (1.18 * (1 - x)) t2 ;;
  t4 <- psqrt ((g * sigma) * (rhol - rhog)) ;;
  t5 <- psqrt t4 ;;
  let vgm := (t3 * t5) in
  t6 <- pdiv x rhog ;;
  t7 <- pdiv (1 - x) rhol ;;
  t8 <- pdiv vgm G ;;
  pdiv x (rhog * ((C0 * (t6 + t7)) + t8)).

(** fluids/two_phase_voidage.py:1592-1595 [Rouhani_2]. *)
Definition Rouhani_2 (x : R) (rhol : R) (rhog : R) (sigma : R) (m : R) (D_ : R) (g : R) : result R :=
  G <- pdiv m (((0.25 * PI) * D_) * D_) ;;
  t2 <- psqrt (g * D_) ;;
  t3 <- psqrt t2 ;;
  t4 <- pdiv rhol G ;;
  t5 <- psqrt t4 ;;
  let C0 := (1 + (((0.2 * (1 - x)) * t3) * t5)) in
  t6 <- psqrt rhol ;;
  t7 <- pdiv (1.18 * (1 - x)) t6 ;;
  t8 <- psqrt ((g * sigma) * (rhol - rhog)) ;;
  t9 <- psqrt t8 ;;
  let vgm := (t7 * t9) in
  t10 <- pdiv x rhog ;;
  t11 <- pdiv (1 - x) rhol ;;
  t12 <- pdiv vgm G ;;
  pdiv x (rhog * ((C0 * (t10 + t11)) + t12)).

(** fluids/two_phase_voidage.py:1652-1655 [Nicklin_Wilkes_Davidson]. *)
Definition Nicklin_Wilkes_Davidson (x : R) (rhol : R) (rhog : R) (m : R) (D_ : R) (g : R) : result R :=
  G <- pdiv m (((0.25 * PI) * D_) * D_) ;;
  let C0 := 1.2 in
  t2 <- psqrt (g * D_) ;;
  let vgm := (0.35 * t2) in
  t3 <- pdiv x rhog ;;
  t4 <- pdiv (1 - x) rhol ;;
  t5 <- pdiv vgm G ;;
  pdiv x (rhog * ((C0 * (t3 + t4)) + t5)).

(** fluids/two_phase_voidage.py:1708-1709 [Gregory_Scott]. *)
Definition Gregory_Scott (x : R) (rhol : R) (rhog : R) : result R :=
  let C0 := 1.19 in
  t1 <- pdiv x rhog ;;
  t2 <- pdiv (1 - x) rhol ;;
  pdiv x (rhog * (C0 * (t1 + t2))).

(** fluids/two_phase_voidage.py:1777-1783 [Dix]. *)
Definition Dix (x : R) (rhol : R) (rhog : R) (sigma : R) (m : R) (D_ : R) (g : R) : result R :=
  let A := (((0.25 * PI) * D_) * D_) in
  vgs <- pdiv (m * x) (rhog * A) ;;
  vls <- pdiv (m * (1 - x)) (rhol * A) ;;
  G <- pdiv m A ;;
  t4 <- pdiv vgs (vls + vgs) ;;
  t5 <- pdiv vls vgs ;;
  t6 <- pdiv rhog rhol ;;
  t7 <- ppow t6 0.1 ;;
  t8 <- ppow t5 t7 ;;
  let C0 := (t4 * (1 + t8)) in
  t9 <- pdiv ((g * sigma) * (rhol - rhog)) (rhol * rhol) ;;
  t10 <- psqrt t9 ;;
  t11 <- psqrt t10 ;;
  let vgm := (2.9 * t11) in
  t12 <- pdiv x rhog ;;
  t13 <- pdiv (1 - x) rhol ;;
  t14 <- pdiv vgm G ;;
  pdiv x (rhog * ((C0 * (t12 + t13)) + t14)).

(** fluids/two_phase_voidage.py:1848-1852 [Sun_Duffey_Peng]. *)
Definition Sun_Duffey_Peng (x : R) (rhol : R) (rhog : R) (sigma : R) (m : R) (D_ : R) (P_ : R) (Pc : R) (g : R) : result R :=
  G <- pdiv m (((0.25 * PI) * D_) * D_) ;;
  Pr <- (pdiv P_ Pc) ;;
  C0 <- pdiv 1 (0.82 + (0.18 * Pr)) ;;
  t5 <- pdiv ((g * sigma) * (rhol - rhog)) (rhol * rhol) ;;
  t6 <- psqrt t5 ;;
  t7 <- psqrt t6 ;;
  let vgm := (1.41 * t7) in
  t8 <- pdiv x rhog ;;
  t9 <- pdiv (1 - x) rhol ;;
  t10 <- pdiv vgm G ;;
  pdiv x (rhog * ((C0 * (t8 + t9)) + t10)).

(** fluids/two_phase_voidage.py:1904-1907 [Xu_Fang_voidage]. *)
Definition Xu_Fang_voidage (x : R) (rhol : R) (rhog : R) (m : R) (D_ : R) (g : R) : result R :=
  G <- pdiv m (((0.25 * PI) * D_) * D_) ;;
  alpha_h <- homogeneous x rhol rhog ;;
  Frlo <- pdiv (G * G) (((g * D_) * rhol) * rhol) ;;
  t4 <- ppow Frlo (- 0.2) ;;
  t5 <- ppow alpha_h 3.5 ;;
  t6 <- pdiv (1 - x) x ;;
  t7 <- pdiv rhog rhol ;;
  pdiv 1 (1 + (((1 + ((2 * t4) * t5)) * t6) * t7)).

(** fluids/two_phase_voidage.py:1970-1978 [Woldesemayat_Ghajar]. *)
Definition Woldesemayat_Ghajar (x : R) (rhol : R) (rhog : R) (sigma : R) (m : R) (D_ : R) (P_ : R) (angle : R) (g : R) : result R :=
  let A := (((0.25 * PI) * D_) * D_) in
  vgs <- pdiv (m * x) (rhog * A) ;;
  vls <- pdiv (m * (1 - x)) (rhol * A) ;;
  t3 <- pdiv vls vgs ;;
  t4 <- pdiv rhog rhol ;;
  t5 <- ppow t4 0.1 ;;
  t6 <- ppow t3 t5 ;;
  let first := (vgs * (1 + t6)) in
  t7 <- pdiv ((((g * D_) * sigma) * (1 + (cos (radians angle)))) * (rhol - rhog)) (rhol * rhol) ;;
  t8 <- psqrt t7 ;;
  t9 <- psqrt t8 ;;
  let second := (2.9 * t9) in
  P_ <- (Ok P_) ;;
  t10 <- pdiv 101325 P_ ;;
  third <- ppow (1.22 + (1.22 * (sin (radians angle)))) t10 ;;
  pdiv vgs (first + (second * third)).

(** fluids/two_phase_voidage.py:2183-2286 [liquid_gas_voidage]. *)
Definition liquid_gas_voidage (x : R) (rhol : R) (rhog : R) (D_ : option R) (m : option R) (mul : option R) (mug : option R) (sigma : option R) (P_ : option R) (Pc : option R) (angle : R) (g : R) (Method : option string) : result R :=
  Method2 <- (match Method with
    | Some Method => let Method2 := Method in
    Ok Method2
    | None => let Method2 := "homogeneous"%string in
    Ok Method2
  end) ;;
  let D2 := 0 in
  let m2 := 0 in
  let mul2 := 0 in
  let mug2 := 0 in
  let sigma2 := 0 in
  let P2 := 0 in
  let Pc2 := 0 in
  D2 <- (if ((String.eqb Method2 "Dix"%string) || (String.eqb Method2 "Graham"%string) || (String.eqb Method2 "Guzhov"%string) || (String.eqb Method2 "Harms"%string) || (String.eqb Method2 "Kawahara"%string) || (String.eqb Method2 "Kopte_Newell_Chato"%string) || (String.eqb Method2 "Nicklin Wilkes Davidson"%string) || (String.eqb Method2 "Rouhani 1"%string) || (String.eqb Method2 "Rouhani 2"%string) || (String.eqb Method2 "Steiner"%string) || (String.eqb Method2 "Sun Duffey Peng"%string) || (String.eqb Method2 "Tandon Varma Gupta"%string) || (String.eqb Method2 "Woldesemayat Ghajar"%string) || (String.eqb Method2 "Xu Fang voidage"%string) || (String.eqb Method2 "Yashar"%string))%bool then match D_ with
    | Some D_ => let D2 := D_ in
    Ok D2
    | None => Err TypeError
  end
  else Ok D2) ;;
  m2 <- (if ((String.eqb Method2 "Dix"%string) || (String.eqb Method2 "Graham"%string) || (String.eqb Method2 "Guzhov"%string) || (String.eqb Method2 "Harms"%string) || (String.eqb Method2 "Kopte_Newell_Chato"%string) || (String.eqb Method2 "Nicklin Wilkes Davidson"%string) || (String.eqb Method2 "Rouhani 1"%string) || (String.eqb Method2 "Rouhani 2"%string) || (String.eqb Method2 "Steiner"%string) || (String.eqb Method2 "Sun Duffey Peng"%string) || (String.eqb Method2 "Tandon Varma Gupta"%string) || (String.eqb Method2 "Woldesemayat Ghajar"%string) || (String.eqb Method2 "Xu Fang voidage"%string) || (String.eqb Method2 "Yashar"%string))%bool then match m with
    | Some m => let m2 := m in
    Ok m2
    | None => Err TypeError
  end
  else Ok m2) ;;
  mul2 <- (if ((String.eqb Method2 "Baroczy"%string) || (String.eqb Method2 "Domanski Didion"%string) || (String.eqb Method2 "Graham"%string) || (String.eqb Method2 "Harms"%string) || (String.eqb Method2 "Tandon Varma Gupta"%string) || (String.eqb Method2 "Thom"%string) || (String.eqb Method2 "Turner Wallis"%string) || (String.eqb Method2 "Yashar"%string))%bool then match mul with
    | Some mul => let mul2 := mul in
    Ok mul2
    | None => Err TypeError
  end
  else Ok mul2) ;;
  mug2 <- (if ((String.eqb Method2 "Baroczy"%string) || (String.eqb Method2 "Domanski Didion"%string) || (String.eqb Method2 "Graham"%string) || (String.eqb Method2 "Harms"%string) || (String.eqb Method2 "Tandon Varma Gupta"%string) || (String.eqb Method2 "Thom"%string) || (String.eqb Method2 "Turner Wallis"%string) || (String.eqb Method2 "Yashar"%string))%bool then match mug with
    | Some mug => let mug2 := mug in
    Ok mug2
    | None => Err TypeError
  end
  else Ok mug2) ;;
  sigma2 <- (if ((String.eqb Method2 "Dix"%string) || (String.eqb Method2 "Rouhani 1"%string) || (String.eqb Method2 "Rouhani 2"%string) || (String.eqb Method2 "Steiner"%string) || (String.eqb Method2 "Sun Duffey Peng"%string) || (String.eqb Method2 "Woldesemayat Ghajar"%string))%bool then match sigma with
    | Some sigma => let sigma2 := sigma in
    Ok sigma2
    | None => Err TypeError
  end
  else Ok sigma2) ;;
  P2 <- (if ((String.eqb Method2 "Sun Duffey Peng"%string) || (String.eqb Method2 "Woldesemayat Ghajar"%string))%bool then match P_ with
    | Some P_ => let P2 := P_ in
    Ok P2
    | None => Err TypeError
  end
  else Ok P2) ;;
  Pc2 <- (if (String.eqb Method2 "Sun Duffey Peng"%string) then match Pc with
    | Some Pc => let Pc2 := Pc in
    Ok Pc2
    | None => Err TypeError
  end
  else Ok Pc2) ;;
  if (String.eqb Method2 "Thom"%string) then Thom x rhol rhog mul2 mug2
  else if (String.eqb Method2 "Zivi"%string) then Zivi x rhol rhog
  else if (String.eqb Method2 "Smith"%string) then Smith x rhol rhog
  else if (String.eqb Method2 "Fauske"%string) then Fauske x rhol rhog
  else if (String.eqb Method2 "Chisholm_voidage"%string) then Chisholm_voidage x rhol rhog
  else if (String.eqb Method2 "Turner Wallis"%string) then Turner_Wallis x rhol rhog mul2 mug2
  else if (String.eqb Method2 "homogeneous"%string) then homogeneous x rhol rhog
  else if (String.eqb Method2 "Chisholm Armand"%string) then Chisholm_Armand x rhol rhog
  else if (String.eqb Method2 "Armand"%string) then Armand x rhol rhog
  else if (String.eqb Method2 "Nishino Yamazaki"%string) then Nishino_Yamazaki x rhol rhog
  else if (String.eqb Method2 "Guzhov"%string) then Guzhov x rhol rhog m2 D2
  else if (String.eqb Method2 "Kawahara"%string) then Kawahara x rhol rhog D2
  else if (String.eqb Method2 "Baroczy"%string) then Baroczy x rhol rhog mul2 mug2
  else if (String.eqb Method2 "Tandon Varma Gupta"%string) then Tandon_Varma_Gupta x rhol rhog mul2 mug2 m2 D2
  else if (String.eqb Method2 "Harms"%string) then Harms x rhol rhog mul2 mug2 m2 D2
  else if (String.eqb Method2 "Domanski Didion"%string) then Domanski_Didion x rhol rhog mul2 mug2
  else if (String.eqb Method2 "Graham"%string) then Graham x rhol rhog mul2 mug2 m2 D2 g
  else if (String.eqb Method2 "Yashar"%string) then Yashar x rhol rhog mul2 mug2 m2 D2 g
  else if (String.eqb Method2 "Huq_Loth"%string) then Huq_Loth x rhol rhog
  else if (String.eqb Method2 "Kopte_Newell_Chato"%string) then Kopte_Newell_Chato x rhol rhog m2 D2 g
  else if (String.eqb Method2 "Steiner"%string) then Steiner x rhol rhog sigma2 m2 D2 g
  else if (String.eqb Method2 "Rouhani 1"%string) then Rouhani_1 x rhol rhog sigma2 m2 D2 g
  else if (String.eqb Method2 "Rouhani 2"%string) then Rouhani_2 x rhol rhog sigma2 m2 D2 g
  else if (String.eqb Method2 "Nicklin Wilkes Davidson"%string) then Nicklin_Wilkes_Davidson x rhol rhog m2 D2 g
  else if (String.eqb Method2 "Gregory_Scott"%string) then Gregory_Scott x rhol rhog
  else if (String.eqb Method2 "Dix"%string) then Dix x rhol rhog sigma2 m2 D2 g
  else if (String.eqb Method2 "Sun Duffey Peng"%string) then Sun_Duffey_Peng x rhol rhog sigma2 m2 D2 P2 Pc2 g
  else if (String.eqb Method2 "Xu Fang voidage"%string) then Xu_Fang_voidage x rhol rhog m2 D2 g
  else if (String.eqb Method2 "Woldesemayat Ghajar"%string) then Woldesemayat_Ghajar x rhol rhog sigma2 m2 D2 P2 angle g
  else Err ValueError.

(** fluids/two_phase_voidage.py:2330-2330 [density_two_phase]. *)
Definition density_two_phase (alpha : R) (rhol : R) (rhog : R) : result R :=
  Ok ((alpha * rhog) + ((1 - alpha) * rhol)).

(** fluids/two_phase_voidage.py:2373-2373 [two_phase_voidage_experimental]. *)
Definition two_phase_voidage_experimental (rho_lg : R) (rhol : R) (rhog : R) : result R :=
  pdiv (rho_lg - rhol) (rhog - rhol).

(** fluids/two_phase_voidage.py:2435-2436 [Beattie_Whalley]. *)
Definition Beattie_Whalley (x : R) (mul : R) (mug : R) (rhol : R) (rhog : R) : result R :=
  alpha <- homogeneous x rhol rhog ;;
  Ok (((mul * (1 - alpha)) * (1 + (2.5 * alpha))) + (mug * alpha)).

(** fluids/two_phase_voidage.py:2488-2488 [McAdams]. *)
Definition McAdams (x : R) (mul : R) (mug : R) : result R :=
  t1 <- pdiv x mug ;;
  t2 <- pdiv (1 - x) mul ;;
  pdiv 1 (t1 + t2).

(** fluids/two_phase_voidage.py:2539-2539 [Cicchitti]. *)
Definition Cicchitti (x : R) (mul : R) (mug : R) : result R :=
  Ok ((x * mug) + ((1 - x) * mul)).

(** fluids/two_phase_voidage.py:2585-2585 [Lin_Kwok]. *)
Definition Lin_Kwok (x : R) (mul : R) (mug : R) : result R :=
  t1 <- ppow x 1.4 ;;
  pdiv (mul * mug) (mug + (t1 * (mul - mug))).

(** fluids/two_phase_voidage.py:2644-2648 [Fourar_Bories]. *)
Definition Fourar_Bories (x : R) (mul : R) (mug : R) (rhol : R) (rhog : R) : result R :=
  t1 <- pdiv x rhog ;;
  t2 <- pdiv (1 - x) rhol ;;
  rhom <- pdiv 1 (t1 + t2) ;;
  nul <- pdiv mul rhol ;;
  nug <- pdiv mug rhog ;;
  t6 <- psqrt (x * nug) ;;
  t7 <- psqrt ((1 - x) * nul) ;;
  let term := (t6 + t7) in
  Ok ((rhom * term) * term).

(** fluids/two_phase_voidage.py:2715-2715 [Duckler]. *)
Definition Duckler (x : R) (mul : R) (mug : R) (rhol : R) (rhog : R) : result R :=
  t1 <- pdiv (x * mug) rhog ;;
  t2 <- pdiv ((1 - x) * mul) rhol ;;
  t3 <- pdiv x rhog ;;
  t4 <- pdiv (1 - x) rhol ;;
  pdiv (t1 + t2) (t3 + t4).

(** fluids/two_phase_voidage.py:2839-2869 [gas_liquid_viscosity]. *)
Definition gas_liquid_viscosity (x : R) (mul : R) (mug : R) (rhol : option R) (rhog : option R) (Method : option string) : result R :=
  let Method := match Method with Some v => v | None => "McAdams"%string end in
  let rhol2 := 0 in
  let rhog2 := 0 in
  rhol2 <- (if ((String.eqb Method "Beattie Whalley"%string) || (String.eqb Method "Duckler"%string) || (String.eqb Method "Fourar Bories"%string))%bool then match rhol with
    | Some rhol => let rhol2 := rhol in
    Ok rhol2
    | None => Err TypeError
  end
  else Ok rhol2) ;;
  rhog2 <- (if ((String.eqb Method "Beattie Whalley"%string) || (String.eqb Method "Duckler"%string) || (String.eqb Method "Fourar Bories"%string))%bool then match rhog with
    | Some rhog => let rhog2 := rhog in
    Ok rhog2
    | None => Err TypeError
  end
  else Ok rhog2) ;;
  if (String.eqb Method "Beattie Whalley"%string) then Beattie_Whalley x mul mug rhol2 rhog2
  else if (String.eqb Method "Fourar Bories"%string) then Fourar_Bories x mul mug rhol2 rhog2
  else if (String.eqb Method "Duckler"%string) then Duckler x mul mug rhol2 rhog2
  else if (String.eqb Method "McAdams"%string) then McAdams x mul mug
  else if (String.eqb Method "Cicchitti"%string) then Cicchitti x mul mug
  else if (String.eqb Method "Lin Kwok"%string) then Lin_Kwok x mul mug
  else Err ValueError.

(** fluids/two_phase_voidage.py:1982-2010 [two_phase_voidage_correlations]: the optional arguments each entry names
    ([x], [rhol], [rhog], [angle] and [g] always have a value). *)
Definition two_phase_voidage_correlations : list (string * list string) :=
  [("Thom", ["mul"; "mug"]); ("Zivi", []); ("Smith", []); ("Fauske", []); ("Chisholm_voidage", []);
   ("Turner Wallis", ["mul"; "mug"]); ("homogeneous", []); ("Chisholm Armand", []); ("Armand", []); ("Nishino Yamazaki", []);
   ("Guzhov", ["m"; "D"]); ("Kawahara", ["D"]); ("Baroczy", ["mul"; "mug"]); ("Tandon Varma Gupta", ["mul"; "mug"; "m"; "D"]);
   ("Harms", ["mul"; "mug"; "m"; "D"]); ("Domanski Didion", ["mul"; "mug"]); ("Graham", ["mul"; "mug"; "m"; "D"]);
   ("Yashar", ["mul"; "mug"; "m"; "D"]); ("Huq_Loth", []); ("Kopte_Newell_Chato", ["m"; "D"]);
   ("Steiner", ["sigma"; "m"; "D"]); ("Rouhani 1", ["sigma"; "m"; "D"]); ("Rouhani 2", ["sigma"; "m"; "D"]);
   ("Nicklin Wilkes Davidson", ["m"; "D"]); ("Gregory_Scott", []); ("Dix", ["sigma"; "m"; "D"]);
   ("Sun Duffey Peng", ["sigma"; "m"; "D"; "P"; "Pc"]); ("Xu Fang voidage", ["m"; "D"]);
   ("Woldesemayat Ghajar", ["sigma"; "m"; "D"; "P"])]%string.

(** fluids/two_phase_voidage.py:2065-2073 [liquid_gas_voidage_methods]; each optional argument is represented by whether
    it is given. *)
Definition liquid_gas_voidage_methods (D_ m mul mug sigma P_ Pc : option R) : list string :=
  let given (o : option R) := match o with Some _ => true | None => false end in
  let vals (n : string) : bool :=
    if String.eqb n "D" then given D_ else if String.eqb n "m" then given m else if String.eqb n "mul" then given mul
    else if String.eqb n "mug" then given mug else if String.eqb n "sigma" then given sigma
    else if String.eqb n "P" then given P_ else given Pc in
  List.map fst (List.filter (fun e => forallb vals (snd e)) two_phase_voidage_correlations).

(** fluids/two_phase_voidage.py:2754-2757 [gas_liquid_viscosity_methods] ([check_ranges] is not used by the code). *)
Definition gas_liquid_viscosity_methods (rhol rhog : option R) : list string :=
  match rhol, rhog with
  | Some _, Some _ => ["Beattie Whalley"; "Fourar Bories"; "Duckler"; "McAdams"; "Cicchitti"; "Lin Kwok"]%string
  | _, _ => ["McAdams"; "Cicchitti"; "Lin Kwok"]%string
  end.

