(** Pipe friction: correlations, dispatch, curved pipes, pressure drops.
    Generated by tools/pytrans.py from /repo/fluids, function by function: floats are exact reals,
    a division, root, logarithm or power that Python refuses is an [Err]; float rounding and overflow
    are not represented.  Module constants are inlined with their exact rational value. *)
From Coq Require Import Reals String List Bool.
From Verif Require Import Base Model_Real.
Import ListNotations.
Open Scope R_scope.

(** fluids/friction.py:303-303 [friction_laminar]. *)
Definition friction_laminar (Re : R) : result R :=
  pdiv 64 Re.

(** fluids/friction.py:342-342 [Blasius]. *)
Definition Blasius (Re : R) : result R :=
  t1 <- psqrt Re ;;
  t2 <- psqrt t1 ;;
  pdiv 0.3164 t2.

(** fluids/friction.py:536-554 [Clamond]. *)
Definition Clamond (Re : R) (eD : R) (fast : bool) : result R :=
  let X1 := ((eD * Re) * 0.1239681863354175460160858261654858382699) in
  t1 <- plog Re ;;
  let X2 := (t1 - 0.7793974884556819406441139701653776731705) in
  let F := (X2 - 0.2) in
  let X1F := (X1 + F) in
  let X1F1 := (1 + X1F) in
  t2 <- plog X1F ;;
  E <- pdiv (t2 - 0.2) X1F1 ;;
  t4 <- pdiv (((X1F1 + (0.5 * E)) * E) * X1F) (X1F1 + (E * (1 + ((1 / 3) * E)))) ;;
  let F := (F - t4) in
  if fast then pdiv 1.325474527619599502640416597148504422899 (F * F)
  else let X1F := (X1 + F) in
  let X1F1 := (1 + X1F) in
  t6 <- plog X1F ;;
  E <- pdiv ((t6 + F) - X2) X1F1 ;;
  let b := (X1F1 + (E * (1 + ((1 / 3) * E)))) in
  F <- pdiv b ((b * F) - (((X1F1 + (0.5 * E)) * E) * X1F)) ;;
  Ok (1.325474527619599502640416597148504422899 * (F * F)).

(** fluids/friction.py:422-480 [Colebrook] for [tol] None or -1, with [W] the principal branch of the
    Lambert function ([scipy]'s or py_lambertw).  Not represented: tol = 0 (needs mpmath), other tolerances
    (a secant search from Clamond's value) and the float overflow of the power of ten, which makes the code
    fall back on that secant search. *)
Definition Colebrook (W : R -> R) (Re : R) (eD : R) (tol : option R) : result R :=
  let closed :=
    let eD_Re := eD * Re in
    p <- ppow 10 (0.10767739851405189 * eD_Re) ;;
    let sub := 0.15872763924382155 * p * Re * Re in
    r <- psqrt sub ;;
    let lambert_term := W (1.151292546497022950546806896454654633998870849609375 * r) in
    let den := 2.30258509299404590109361379290930926799774169921875 * eD_Re - 18.574 * lambert_term in
    pdiv 457.28006463294371997108100913465023040771484375 (den * den) in
  match tol with
  | Some t => if Reqb t (-1) then (if Rltb 10 Re then Clamond Re eD false else closed) else Err NotImplementedError
  | None => closed
  end.

(** fluids/friction.py:595-595 [Moody]. *)
Definition Moody (Re : R) (eD : R) : result R :=
  t1 <- pdiv 1000000 Re ;;
  t2 <- pcbrt ((20000 * eD) + t1) ;;
  Ok (4 * (0.001375 * (1 + t2))).

(** fluids/friction.py:633-633 [Alshul_1952]. *)
Definition Alshul_1952 (Re : R) (eD : R) : result R :=
  t1 <- pdiv 68 Re ;;
  t2 <- psqrt (t1 + eD) ;;
  t3 <- psqrt t2 ;;
  Ok (0.11 * t3).

(** fluids/friction.py:677-678 [Wood_1966]. *)
Definition Wood_1966 (Re : R) (eD : R) : result R :=
  t1 <- ppow eD 0.134 ;;
  let A1 := (1.62 * t1) in
  t2 <- ppow eD 0.225 ;;
  t3 <- ppow eD 0.4 ;;
  t4 <- ppow Re (- A1) ;;
  Ok (((0.094 * t2) + (0.53 * eD)) + ((88 * t3) * t4)).

(** fluids/friction.py:720-721 [Churchill_1973]. *)
Definition Churchill_1973 (Re : R) (eD : R) : result R :=
  t1 <- pdiv 7 Re ;;
  t2 <- ppow t1 0.9 ;;
  t3 <- plog10 ((eD * (1 / 3.7)) + t2) ;;
  let term := ((- 2) * t3) in
  pdiv 1 (term * term).

(** fluids/friction.py:761-762 [Eck_1973]. *)
Definition Eck_1973 (Re : R) (eD : R) : result R :=
  t1 <- pdiv 15 Re ;;
  t2 <- plog10 ((eD * (1 / 3.715)) + t1) ;;
  let term := ((- 2) * t2) in
  pdiv 1 (term * term).

(** fluids/friction.py:803-804 [Jain_1976]. *)
Definition Jain_1976 (Re : R) (eD : R) : result R :=
  t1 <- pdiv 29.843 Re ;;
  t2 <- ppow t1 0.9 ;;
  t3 <- plog10 (eD + t2) ;;
  let term := (2.28 - (4 * t3)) in
  pdiv 4 (term * term).

(** fluids/friction.py:846-847 [Swamee_Jain_1976]. *)
Definition Swamee_Jain_1976 (Re : R) (eD : R) : result R :=
  t1 <- pdiv 6.97 Re ;;
  t2 <- ppow t1 0.9 ;;
  t3 <- plog10 (t2 + (eD * (1 / 3.7))) ;;
  let term := ((- 4) * t3) in
  pdiv 4 (term * term).

(** fluids/friction.py:894-897 [Churchill_1977]. *)
Definition Churchill_1977 (Re : R) (eD : R) : result R :=
  t1 <- pdiv 37530 Re ;;
  let A3 := (t1 ^ 16) in
  t2 <- pdiv 7 Re ;;
  t3 <- ppow t2 0.9 ;;
  t4 <- plog (t3 + (0.27 * eD)) ;;
  let A2 := ((2.457 * t4) ^ 16) in
  t5 <- pdiv 8 Re ;;
  t6 <- ppow (A2 + A3) 1.5 ;;
  t7 <- pdiv 1 t6 ;;
  t8 <- ppow ((t5 ^ 12) + t7) (1 / 12) ;;
  let ff := (2 * t8) in
  Ok (4 * ff).

(** fluids/friction.py:943-945 [Chen_1979]. *)
Definition Chen_1979 (Re : R) (eD : R) : result R :=
  t1 <- ppow eD 1.1098 ;;
  t2 <- pdiv 7.149 Re ;;
  t3 <- ppow t2 0.8981 ;;
  let A4 := ((t1 * (1 / 2.8257)) + t3) in
  t4 <- pdiv 5.0452 Re ;;
  t5 <- plog10 A4 ;;
  t6 <- plog10 ((eD * (1 / 3.7065)) - (t4 * t5)) ;;
  let term := ((- 4) * t6) in
  pdiv 4 (term * term).

(** fluids/friction.py:988-989 [Round_1980]. *)
Definition Round_1980 (Re : R) (eD : R) : result R :=
  t1 <- pdiv Re (((0.135 * Re) * eD) + 6.5) ;;
  t2 <- plog10 t1 ;;
  let term := ((- 3.6) * t2) in
  pdiv 4 (term * term).

(** fluids/friction.py:1032-1033 [Shacham_1980]. *)
Definition Shacham_1980 (Re : R) (eD : R) : result R :=
  t1 <- pdiv 5.02 Re ;;
  t2 <- pdiv 14.5 Re ;;
  t3 <- plog10 ((eD * (1 / 3.7)) + t2) ;;
  t4 <- plog10 ((eD * (1 / 3.7)) - (t1 * t3)) ;;
  let term := ((- 4) * t4) in
  pdiv 4 (term * term).

(** fluids/friction.py:1077-1078 [Barr_1981]. *)
Definition Barr_1981 (Re : R) (eD : R) : result R :=
  t1 <- plog10 (Re * (1 / 7)) ;;
  t2 <- ppow Re 0.52 ;;
  t3 <- ppow eD 0.7 ;;
  t4 <- pdiv (4.518 * t1) (Re * (1 + ((t2 * (1 / 29)) * t3))) ;;
  t5 <- plog10 ((eD * (1 / 3.7)) + t4) ;;
  let term := ((- 2) * t5) in
  pdiv 1 (term * term).

(** fluids/friction.py:1122-1124 [Zigrang_Sylvester_1]. *)
Definition Zigrang_Sylvester_1 (Re : R) (eD : R) : result R :=
  t1 <- pdiv 13 Re ;;
  let A5 := ((eD * (1 / 3.7)) + t1) in
  t2 <- pdiv 5.02 Re ;;
  t3 <- plog10 A5 ;;
  t4 <- plog10 ((eD * (1 / 3.7)) - (t2 * t3)) ;;
  let term := ((- 4) * t4) in
  pdiv 4 (term * term).

(** fluids/friction.py:1172-1175 [Zigrang_Sylvester_2]. *)
Definition Zigrang_Sylvester_2 (Re : R) (eD : R) : result R :=
  t1 <- pdiv 13 Re ;;
  let A5 := ((eD * (1 / 3.7)) + t1) in
  t2 <- pdiv 5.02 Re ;;
  t3 <- plog10 A5 ;;
  let A6 := ((eD * (1 / 3.7)) - (t2 * t3)) in
  t4 <- pdiv 5.02 Re ;;
  t5 <- plog10 A6 ;;
  t6 <- plog10 ((eD * (1 / 3.7)) - (t4 * t5)) ;;
  let term := ((- 4) * t6) in
  pdiv 4 (term * term).

(** fluids/friction.py:1217-1218 [Haaland]. *)
Definition Haaland (Re : R) (eD : R) : result R :=
  t1 <- pdiv 6.9 Re ;;
  t2 <- ppow (eD * (1 / 3.7)) 1.11 ;;
  t3 <- plog10 (t1 + t2) ;;
  let term := ((- 3.6) * t3) in
  pdiv 4 (term * term).

(** fluids/friction.py:1267-1272 [Serghides_1]. *)
Definition Serghides_1 (Re : R) (eD : R) : result R :=
  t1 <- pdiv 12 Re ;;
  t2 <- plog10 ((eD * (1 / 3.7)) + t1) ;;
  let A := ((- 2) * t2) in
  t3 <- pdiv (2.51 * A) Re ;;
  t4 <- plog10 ((eD * (1 / 3.7)) + t3) ;;
  let B := ((- 2) * t4) in
  t5 <- pdiv (2.51 * B) Re ;;
  t6 <- plog10 ((eD * (1 / 3.7)) + t5) ;;
  let C_ := ((- 2) * t6) in
  let B_minus_A := (B - A) in
  t7 <- pdiv (B_minus_A * B_minus_A) ((C_ - (2 * B)) + A) ;;
  let term := (A - t7) in
  pdiv 1 (term * term).

(** fluids/friction.py:1320-1324 [Serghides_2]. *)
Definition Serghides_2 (Re : R) (eD : R) : result R :=
  t1 <- pdiv 12 Re ;;
  t2 <- plog10 ((eD * (1 / 3.7)) + t1) ;;
  let A := ((- 2) * t2) in
  t3 <- pdiv (2.51 * A) Re ;;
  t4 <- plog10 ((eD * (1 / 3.7)) + t3) ;;
  let B := ((- 2) * t4) in
  let x1 := (A - 4.781) in
  t5 <- pdiv (x1 * x1) ((B - (2 * A)) + 4.781) ;;
  let term := (4.781 - t5) in
  pdiv 1 (term * term).

(** fluids/friction.py:1368-1372 [Tsal_1989]. *)
Definition Tsal_1989 (Re : R) (eD : R) : result R :=
  t1 <- pdiv 68 Re ;;
  t2 <- psqrt (t1 + eD) ;;
  t3 <- psqrt t2 ;;
  let A := (0.11 * t3) in
  if (Rleb 0.018 A) then Ok A
  else Ok (0.0028 + (0.85 * A)).

(** fluids/friction.py:1413-1414 [Manadilli_1997]. *)
Definition Manadilli_1997 (Re : R) (eD : R) : result R :=
  t1 <- ppow Re (- 0.983) ;;
  t2 <- pdiv 96.82 Re ;;
  t3 <- plog10 (((eD * (1 / 3.7)) + (95 * t1)) - t2) ;;
  let term := ((- 2) * t3) in
  pdiv 1 (term * term).

(** fluids/friction.py:1459-1460 [Romeo_2002]. *)
Definition Romeo_2002 (Re : R) (eD : R) : result R :=
  t1 <- pdiv 5.0272 Re ;;
  t2 <- pdiv 4.567 Re ;;
  t3 <- ppow (eD * (1 / 7.7918)) 0.9924 ;;
  t4 <- pdiv 5.3326 (208.815 + Re) ;;
  t5 <- ppow t4 0.9345 ;;
  t6 <- plog10 (t3 + t5) ;;
  t7 <- plog10 ((eD * (1 / 3.827)) - (t2 * t6)) ;;
  t8 <- plog10 ((eD * (1 / 3.7065)) - (t1 * t7)) ;;
  let term := ((- 2) * t8) in
  pdiv 1 (term * term).

(** fluids/friction.py:1504-1506 [Sonnad_Goudar_2006]. *)
Definition Sonnad_Goudar_2006 (Re : R) (eD : R) : result R :=
  t1 <- plog (0.4587 * Re) ;;
  let S_ := (((0.124 * eD) * Re) + t1) in
  t2 <- pdiv S_ (S_ + 1) ;;
  t3 <- ppow S_ t2 ;;
  t4 <- pdiv (0.4587 * Re) t3 ;;
  t5 <- plog t4 ;;
  let term := (0.8686 * t5) in
  pdiv 1 (term * term).

(** fluids/friction.py:1554-1557 [Rao_Kumar_2007]. *)
Definition Rao_Kumar_2007 (Re : R) (eD : R) : result R :=
  term <- plog (Re * (1 / 6.5)) ;;
  let beta := (1 - (0.55 * (exp (((- 0.33) * term) * term)))) in
  t2 <- pdiv 0.444 Re ;;
  t3 <- pdiv 1 (((2 * eD) * beta) * (t2 + 0.135)) ;;
  t4 <- plog10 t3 ;;
  let term := (2 * t4) in
  pdiv 1 (term * term).

(** fluids/friction.py:1604-1607 [Buzzelli_2008]. *)
Definition Buzzelli_2008 (Re : R) (eD : R) : result R :=
  t1 <- plog Re ;;
  t2 <- psqrt eD ;;
  B1 <- pdiv ((0.774 * t1) - 1.41) (1 + (1.32 * t2)) ;;
  let B2 := (((eD * (1 / 3.7)) * Re) + (2.51 * B1)) in
  t4 <- pdiv B2 Re ;;
  t5 <- plog10 t4 ;;
  t6 <- pdiv 2.18 B2 ;;
  t7 <- pdiv (B1 + (2 * t5)) (1 + t6) ;;
  let term := (B1 - t7) in
  pdiv 1 (term * term).

(** fluids/friction.py:1650-1650 [Avci_Karagoz_2009]. *)
Definition Avci_Karagoz_2009 (Re : R) (eD : R) : result R :=
  t1 <- plog Re ;;
  t2 <- psqrt eD ;;
  t3 <- plog (1 + (((0.01 * Re) * eD) * (1 + (10 * t2)))) ;;
  t4 <- ppow (t1 - t3) (- 2.4) ;;
  Ok (6.4 * t4).

(** fluids/friction.py:1694-1696 [Papaevangelo_2010]. *)
Definition Papaevangelo_2010 (Re : R) (eD : R) : result R :=
  t1 <- plog Re ;;
  let x1 := (7 - t1) in
  t2 <- ppow Re (- 0.9142) ;;
  term <- plog10 ((eD * (1 / 3.615)) + (7.366 * t2)) ;;
  pdiv (0.2479 - ((((0.0000947 * x1) * x1) * x1) * x1)) (term * term).

(** fluids/friction.py:1741-1743 [Brkic_2011_1]. *)
Definition Brkic_2011_1 (Re : R) (eD : R) : result R :=
  t1 <- plog (1 + (1.1 * Re)) ;;
  t2 <- pdiv (1.1 * Re) t1 ;;
  t3 <- plog t2 ;;
  t4 <- pdiv Re (1.816 * t3) ;;
  beta <- plog t4 ;;
  t6 <- ppow 10 ((- 0.4343) * beta) ;;
  t7 <- plog10 (t6 + (eD * (1 / 3.71))) ;;
  let term := ((- 2) * t7) in
  pdiv 1 (term * term).

(** fluids/friction.py:1788-1790 [Brkic_2011_2]. *)
Definition Brkic_2011_2 (Re : R) (eD : R) : result R :=
  t1 <- plog (1 + (1.1 * Re)) ;;
  t2 <- pdiv (1.1 * Re) t1 ;;
  t3 <- plog t2 ;;
  t4 <- pdiv Re (1.816 * t3) ;;
  beta <- plog t4 ;;
  t6 <- pdiv (2.18 * beta) Re ;;
  t7 <- plog10 (t6 + (eD * (1 / 3.71))) ;;
  let term := ((- 2) * t7) in
  pdiv 1 (term * term).

(** fluids/friction.py:1836-1837 [Fang_2011]. *)
Definition Fang_2011 (Re : R) (eD : R) : result R :=
  t1 <- ppow eD 1.1007 ;;
  t2 <- ppow Re (- 1.1105) ;;
  t3 <- ppow Re (- 1.0712) ;;
  term <- plog (((0.234 * t1) - (60.525 * t2)) + (56.291 * t3)) ;;
  pdiv 1.613 (term * term).

(** fluids/friction.py:1875-1876 [von_Karman]. *)
Definition von_Karman (eD : R) : result R :=
  x <- plog10 (eD * (1 / 3.7)) ;;
  pdiv 0.25 (x * x).

(** fluids/friction.py:1925-1927 [Prandtl_von_Karman_Nikuradse], [W] as above. *)
Definition Prandtl_von_Karman_Nikuradse (W : R -> R) (Re : R) : result R :=
  let c1 := 1.151292546497022842008995727342182103801 in
  let c2 := 1.325474527619599502640416597148504422899 in
  pdiv c2 (W ((c1 * Re) / 2.51) ^ 2).

(** fluids/friction.py:2014-2017 [ft_Crane]. *)
Definition ft_Crane (D_ : R) : result R :=
  let fast := true in
  if (Rltb D_ 0.01) then let fast := false in
  t1 <- ppow D_ (- 1.0112) ;;
  Clamond (7500000 * D_) (0.000034126825352925 * t1) fast
  else t3 <- ppow D_ (- 1.0112) ;;
  Clamond (7500000 * D_) (0.000034126825352925 * t3) fast.

(** fluids/friction.py:2020-2049 [fmethods]: name, (Re_min, Re_max, eD_min, eD_max). *)
Definition fmethods : list (string * (option R * option R * option R * option R)) :=
  [("Moody"%string, (Some 4000, Some 100000000, Some 0, Some 0.01));
   ("Alshul_1952"%string, (None, None, None, None));
   ("Wood_1966"%string, (Some 4000, Some 50000000, Some 0.00001, Some 0.04));
   ("Churchill_1973"%string, (None, None, None, None));
   ("Eck_1973"%string, (None, None, None, None));
   ("Jain_1976"%string, (Some 5000, Some 10000000, Some 0.00004, Some 0.05));
   ("Swamee_Jain_1976"%string, (Some 5000, Some 100000000, Some 0.000001, Some 0.05));
   ("Churchill_1977"%string, (None, None, None, None));
   ("Chen_1979"%string, (Some 4000, Some 400000000, Some 0.0000001, Some 0.05));
   ("Round_1980"%string, (Some 4000, Some 400000000, Some 0, Some 0.05));
   ("Shacham_1980"%string, (Some 4000, Some 400000000, None, None));
   ("Barr_1981"%string, (None, None, None, None));
   ("Zigrang_Sylvester_1"%string, (Some 4000, Some 100000000, Some 0.00004, Some 0.05));
   ("Zigrang_Sylvester_2"%string, (Some 4000, Some 100000000, Some 0.00004, Some 0.05));
   ("Haaland"%string, (Some 4000, Some 100000000, Some 0.000001, Some 0.05));
   ("Serghides_1"%string, (None, None, None, None));
   ("Serghides_2"%string, (None, None, None, None));
   ("Tsal_1989"%string, (Some 4000, Some 100000000, Some 0, Some 0.05));
   ("Manadilli_1997"%string, (Some 5245, Some 100000000, Some 0, Some 0.05));
   ("Romeo_2002"%string, (Some 3000, Some 150000000, Some 0, Some 0.05));
   ("Sonnad_Goudar_2006"%string, (Some 4000, Some 100000000, Some 0.000001, Some 0.05));
   ("Rao_Kumar_2007"%string, (None, None, None, None));
   ("Buzzelli_2008"%string, (None, None, None, None));
   ("Avci_Karagoz_2009"%string, (None, None, None, None));
   ("Papaevangelo_2010"%string, (Some 10000, Some 10000000, Some 0.00001, Some 0.001));
   ("Brkic_2011_1"%string, (None, None, None, None));
   ("Brkic_2011_2"%string, (None, None, None, None));
   ("Fang_2011"%string, (Some 3000, Some 100000000, Some 0, Some 0.05));
   ("Clamond"%string, (Some 0, None, Some 0, None));
   ("Colebrook"%string, (Some 0, None, Some 0, None))].

(** fluids/friction.py:2082-2089, the four range tests of one entry. *)
Definition in_limits (Re eD : R) (lim : option R * option R * option R * option R) : bool :=
  let '(Re_min, Re_max, eD_min, eD_max) := lim in
  if (match Re_min with Some m => Rltb Re m | None => false end) then false
  else if (match Re_max with Some m => Rltb m Re | None => false end) then false
  else if (match eD_min with Some m => Rltb eD m | None => false end) then false
  else if (match eD_max with Some m => Rltb m eD | None => false end) then false
  else true.

(** fluids/friction.py:2077-2093 [friction_factor_methods]. *)
Definition friction_factor_methods (Re eD : R) (check_ranges : bool) : list string :=
  if check_ranges then
    if Rltb Re 2040 then ["laminar"%string]
    else map fst (filter (fun e => in_limits Re eD (snd e)) fmethods)
  else map fst fmethods ++ ["laminar"%string].

(** fluids/friction.py:2212-2281 [friction_factor]. *)
Definition friction_factor (W : R -> R) (Re : R) (eD : R) (Method : option string) (Darcy : bool) : result R :=
  let Method := match Method with Some v => v | None => "Clamond"%string end in
  f <- (if ((Rltb Re 2040) || (String.eqb Method "laminar"%string))%bool then friction_laminar Re
  else if (String.eqb Method "Clamond"%string) then Clamond Re eD false
  else if (String.eqb Method "Colebrook"%string) then Colebrook W Re eD None
  else if (String.eqb Method "Moody"%string) then Moody Re eD
  else if (String.eqb Method "Alshul_1952"%string) then Alshul_1952 Re eD
  else if (String.eqb Method "Wood_1966"%string) then Wood_1966 Re eD
  else if (String.eqb Method "Churchill_1973"%string) then Churchill_1973 Re eD
  else if (String.eqb Method "Eck_1973"%string) then Eck_1973 Re eD
  else if (String.eqb Method "Jain_1976"%string) then Jain_1976 Re eD
  else if (String.eqb Method "Swamee_Jain_1976"%string) then Swamee_Jain_1976 Re eD
  else if (String.eqb Method "Churchill_1977"%string) then Churchill_1977 Re eD
  else if (String.eqb Method "Chen_1979"%string) then Chen_1979 Re eD
  else if (String.eqb Method "Round_1980"%string) then Round_1980 Re eD
  else if (String.eqb Method "Shacham_1980"%string) then Shacham_1980 Re eD
  else if (String.eqb Method "Barr_1981"%string) then Barr_1981 Re eD
  else if (String.eqb Method "Zigrang_Sylvester_1"%string) then Zigrang_Sylvester_1 Re eD
  else if (String.eqb Method "Zigrang_Sylvester_2"%string) then Zigrang_Sylvester_2 Re eD
  else if (String.eqb Method "Haaland"%string) then Haaland Re eD
  else if (String.eqb Method "Serghides_1"%string) then Serghides_1 Re eD
  else if (String.eqb Method "Serghides_2"%string) then Serghides_2 Re eD
  else if (String.eqb Method "Tsal_1989"%string) then Tsal_1989 Re eD
  else if (String.eqb Method "Manadilli_1997"%string) then Manadilli_1997 Re eD
  else if (String.eqb Method "Romeo_2002"%string) then Romeo_2002 Re eD
  else if (String.eqb Method "Sonnad_Goudar_2006"%string) then Sonnad_Goudar_2006 Re eD
  else if (String.eqb Method "Rao_Kumar_2007"%string) then Rao_Kumar_2007 Re eD
  else if (String.eqb Method "Buzzelli_2008"%string) then Buzzelli_2008 Re eD
  else if (String.eqb Method "Avci_Karagoz_2009"%string) then Avci_Karagoz_2009 Re eD
  else if (String.eqb Method "Papaevangelo_2010"%string) then Papaevangelo_2010 Re eD
  else if (String.eqb Method "Brkic_2011_1"%string) then Brkic_2011_1 Re eD
  else if (String.eqb Method "Brkic_2011_2"%string) then Brkic_2011_2 Re eD
  else if (String.eqb Method "Fang_2011"%string) then Fang_2011 Re eD
  else Err ValueError) ;;
  if Darcy then Ok f
  else let f := (f * 0.25) in
  Ok f.

(** fluids/core.py:2312-2312 [Dean]. *)
Definition Dean (Re : R) (Di : R) (D_ : R) : result R :=
  t1 <- pdiv Di D_ ;;
  t2 <- psqrt t1 ;;
  Ok (t2 * Re).

(** fluids/core.py:377-381 [Reynolds]. *)
Definition Reynolds (V : R) (D_ : R) (rho : option R) (mu : option R) (nu : option R) : result R :=
  nu <- (match rho with
    | Some rho => match mu with
      | Some mu => pdiv mu rho
      | None => match nu with
        | Some nu => Ok nu
        | None => Err ValueError
      end
    end
    | None => match nu with
      | Some nu => Ok nu
      | None => Err ValueError
    end
  end) ;;
  pdiv (V * D_) nu.

(** fluids/friction.py:2337-2341 [helical_laminar_fd_White]. *)
Definition helical_laminar_fd_White (Re : R) (Di : R) (Dc : R) : result R :=
  De <- Dean Re Di Dc ;;
  fd <- friction_laminar Re ;;
  if (Rltb De 11.6) then Ok fd
  else t3 <- pdiv 11.6 De ;;
  t4 <- ppow t3 0.45 ;;
  t5 <- ppow (1 - t4) (1 / 0.45) ;;
  pdiv fd (1 - t5).

(** fluids/friction.py:2396-2400 [helical_laminar_fd_Mori_Nakayama]. *)
Definition helical_laminar_fd_Mori_Nakayama (Re : R) (Di : R) (Dc : R) : result R :=
  De <- Dean Re Di Dc ;;
  fd <- friction_laminar Re ;;
  if (Rltb De 42.328036) then Ok (fd * 1.405296)
  else t3 <- psqrt De ;;
  t4 <- psqrt De ;;
  t5 <- pdiv 3.253 t4 ;;
  pdiv (fd * (0.108 * t3)) (1 - t5).

(** fluids/friction.py:2455-2457 [helical_laminar_fd_Schmidt]. *)
Definition helical_laminar_fd_Schmidt (Re : R) (Di : R) (Dc : R) : result R :=
  fd <- friction_laminar Re ;;
  D_ratio <- pdiv Di Dc ;;
  t3 <- ppow D_ratio 0.97 ;;
  t4 <- ppow D_ratio 0.312 ;;
  t5 <- ppow Re (1 - (0.644 * t4)) ;;
  Ok (fd * (1 + ((0.14 * t3) * t5))).

(** fluids/friction.py:2507-2508 [helical_turbulent_fd_Srinivasan]. *)
Definition helical_turbulent_fd_Srinivasan (Re : R) (Di : R) (Dc : R) : result R :=
  De <- Dean Re Di Dc ;;
  t2 <- ppow De (- 0.2) ;;
  Ok (0.336 * t2).

(** fluids/friction.py:2624-2626 [helical_turbulent_fd_Mori_Nakayama]. *)
Definition helical_turbulent_fd_Mori_Nakayama (Re : R) (Di : R) (Dc : R) : result R :=
  Di_Dc <- pdiv Di Dc ;;
  term <- ppow ((Re * Di_Dc) * Di_Dc) (- 0.2) ;;
  t3 <- pdiv Dc Di ;;
  t4 <- psqrt t3 ;;
  t5 <- pdiv 0.3 t4 ;;
  Ok ((t5 * term) * (1 + (0.112 * term))).

(** fluids/friction.py:2728-2729 [helical_turbulent_fd_Czop]. *)
Definition helical_turbulent_fd_Czop (Re : R) (Di : R) (Dc : R) : result R :=
  De <- Dean Re Di Dc ;;
  t2 <- ppow De (- 0.1517) ;;
  Ok (0.096 * t2).

(** fluids/friction.py:2777-2777 [helical_turbulent_fd_Guo]. *)
Definition helical_turbulent_fd_Guo (Re : R) (Di : R) (Dc : R) : result R :=
  t1 <- ppow Re (- 0.15) ;;
  t2 <- pdiv Di Dc ;;
  t3 <- ppow t2 0.51 ;;
  Ok ((0.638 * t1) * t3).

(** fluids/friction.py:2566-2570 [helical_turbulent_fd_Schmidt]. *)
Definition helical_turbulent_fd_Schmidt (W : R -> R) (Re : R) (Di : R) (Dc : R) (roughness : R) : result R :=
  t1 <- pdiv roughness Di ;;
  fd <- friction_factor W Re t1 (Some "Clamond"%string) true ;;
  if (Rltb Re 22000) then t3 <- pdiv 28800 Re ;;
  t4 <- pdiv Di Dc ;;
  t5 <- ppow t4 0.62 ;;
  Ok (fd * (1 + (t3 * t5)))
  else t6 <- pdiv Di Dc ;;
  t7 <- pdiv Di Dc ;;
  t8 <- ppow t7 0.53 ;;
  t9 <- psqrt Re ;;
  t10 <- psqrt t9 ;;
  Ok (fd * (1 + (((0.0823 * (1 + t6)) * t8) * t10))).

(** fluids/friction.py:2678-2680 [helical_turbulent_fd_Prasad]. *)
Definition helical_turbulent_fd_Prasad (W : R -> R) (Re : R) (Di : R) (Dc : R) (roughness : R) : result R :=
  t1 <- pdiv roughness Di ;;
  fd <- friction_factor W Re t1 (Some "Clamond"%string) true ;;
  Di_Dc <- pdiv Di Dc ;;
  t4 <- psqrt ((Re * Di_Dc) * Di_Dc) ;;
  t5 <- psqrt t4 ;;
  Ok (fd * (1 + (0.18 * t5))).

(** fluids/friction.py:2827-2828 [helical_turbulent_fd_Ju]. *)
Definition helical_turbulent_fd_Ju (W : R -> R) (Re : R) (Di : R) (Dc : R) (roughness : R) : result R :=
  t1 <- pdiv roughness Di ;;
  fd <- friction_factor W Re t1 (Some "Clamond"%string) true ;;
  t3 <- ppow Re 0.23 ;;
  t4 <- pdiv Di Dc ;;
  t5 <- ppow t4 0.14 ;;
  Ok (fd * (1 + ((0.11 * t3) * t5))).

(** fluids/friction.py:2878-2880 [helical_turbulent_fd_Mandal_Nigam]. *)
Definition helical_turbulent_fd_Mandal_Nigam (W : R -> R) (Re : R) (Di : R) (Dc : R) (roughness : R) : result R :=
  De <- Dean Re Di Dc ;;
  t2 <- pdiv roughness Di ;;
  fd <- friction_factor W Re t2 (Some "Clamond"%string) true ;;
  t4 <- ppow De 0.27 ;;
  Ok (fd * (1 + (0.03 * t4))).

(** fluids/friction.py:2918-2918 [helical_transition_Re_Seth_Stahel]. *)
Definition helical_transition_Re_Seth_Stahel (Di : R) (Dc : R) : result R :=
  t1 <- pdiv Di Dc ;;
  t2 <- psqrt t1 ;;
  Ok (1900 * (1 + (8 * t2))).

(** fluids/friction.py:2965-2965 [helical_transition_Re_Ito]. *)
Definition helical_transition_Re_Ito (Di : R) (Dc : R) : result R :=
  t1 <- pdiv Di Dc ;;
  t2 <- ppow t1 0.32 ;;
  Ok (20000 * t2).

(** fluids/friction.py:3010-3010 [helical_transition_Re_Kubair_Kuloor]. *)
Definition helical_transition_Re_Kubair_Kuloor (Di : R) (Dc : R) : result R :=
  t1 <- pdiv Di Dc ;;
  t2 <- ppow t1 0.2 ;;
  Ok (12730 * t2).

(** fluids/friction.py:3053-3053 [helical_transition_Re_Kutateladze_Borishanskii]. *)
Definition helical_transition_Re_Kutateladze_Borishanskii (Di : R) (Dc : R) : result R :=
  t1 <- pdiv Di Dc ;;
  t2 <- ppow t1 0.3 ;;
  Ok (2300 + (10500 * t2)).

(** fluids/friction.py:3100-3100 [helical_transition_Re_Schmidt]. *)
Definition helical_transition_Re_Schmidt (Di : R) (Dc : R) : result R :=
  t1 <- pdiv Di Dc ;;
  t2 <- ppow t1 0.45 ;;
  Ok (2300 * (1 + (8.6 * t2))).

(** fluids/friction.py:3146-3146 [helical_transition_Re_Srinivasan]. *)
Definition helical_transition_Re_Srinivasan (Di : R) (Dc : R) : result R :=
  t1 <- pdiv Di Dc ;;
  t2 <- psqrt t1 ;;
  Ok (2100 * (1 + (12 * t2))).

(** fluids/friction.py:3224-3238 [helical_Re_crit]. *)
Definition helical_Re_crit (Di : R) (Dc : R) (Method : string) : result R :=
  Re_crit <- (if (String.eqb Method "Schmidt"%string) then helical_transition_Re_Schmidt Di Dc
  else if (String.eqb Method "Seth Stahel"%string) then helical_transition_Re_Seth_Stahel Di Dc
  else if (String.eqb Method "Ito"%string) then helical_transition_Re_Ito Di Dc
  else if (String.eqb Method "Kubair Kuloor"%string) then helical_transition_Re_Kubair_Kuloor Di Dc
  else if (String.eqb Method "Kutateladze Borishanskii"%string) then helical_transition_Re_Kutateladze_Borishanskii Di Dc
  else if (String.eqb Method "Srinivasan"%string) then helical_transition_Re_Srinivasan Di Dc
  else Err ValueError) ;;
  Ok Re_crit.

(** fluids/friction.py:3173-3173. *)
Definition curved_friction_turbulent_methods_list : list string := ["Schmidt turbulent"%string; "Mori Nakayama turbulent"%string; "Prasad"%string; "Czop"%string; "Guo"%string; "Ju"%string; "Mandal Nigam"%string; "Srinivasan turbulent"%string].

(** fluids/friction.py:3174-3174. *)
Definition curved_friction_laminar_methods_list : list string := ["White"%string; "Mori Nakayama laminar"%string; "Schmidt laminar"%string].

(** fluids/friction.py:3273-3281 [friction_factor_curved_methods] (the roughness argument is unused there). *)
Definition friction_factor_curved_methods (Re Di Dc : R) (check_ranges : bool) : result (list string) :=
  Re_crit <- helical_Re_crit Di Dc "Schmidt"%string ;;
  let turbulent := negb (Rltb Re Re_crit) in
  if check_ranges then
    if turbulent then Ok curved_friction_turbulent_methods_list else Ok curved_friction_laminar_methods_list
  else Ok (curved_friction_turbulent_methods_list ++ curved_friction_laminar_methods_list).

(** fluids/friction.py:3371-3407 [friction_factor_curved]. *)
Definition friction_factor_curved (W : R -> R) (Re : R) (Di : R) (Dc : R) (roughness : R) (Method : option string) (Rec_method : string) (laminar_method : string) (turbulent_method : string) (Darcy : bool) : result R :=
  Re_crit <- helical_Re_crit Di Dc Rec_method ;;
  let turbulent := (negb (Rltb Re Re_crit)) in
  Method2 <- (match Method with
    | Some Method => let Method2 := Method in
    Ok Method2
    | None => (if turbulent then Ok turbulent_method
    else Ok laminar_method)
  end) ;;
  f <- (if (String.eqb Method2 "Schmidt laminar"%string) then helical_laminar_fd_Schmidt Re Di Dc
  else if (String.eqb Method2 "White"%string) then helical_laminar_fd_White Re Di Dc
  else if (String.eqb Method2 "Mori Nakayama laminar"%string) then helical_laminar_fd_Mori_Nakayama Re Di Dc
  else if (String.eqb Method2 "Schmidt turbulent"%string) then helical_turbulent_fd_Schmidt W Re Di Dc roughness
  else if (String.eqb Method2 "Prasad"%string) then helical_turbulent_fd_Prasad W Re Di Dc roughness
  else if (String.eqb Method2 "Ju"%string) then helical_turbulent_fd_Ju W Re Di Dc roughness
  else if (String.eqb Method2 "Mandal Nigam"%string) then helical_turbulent_fd_Mandal_Nigam W Re Di Dc roughness
  else if (String.eqb Method2 "Mori Nakayama turbulent"%string) then helical_turbulent_fd_Mori_Nakayama Re Di Dc
  else if (String.eqb Method2 "Czop"%string) then helical_turbulent_fd_Czop Re Di Dc
  else if (String.eqb Method2 "Guo"%string) then helical_turbulent_fd_Guo Re Di Dc
  else if (String.eqb Method2 "Srinivasan turbulent"%string) then helical_turbulent_fd_Srinivasan Re Di Dc
  else Err ValueError) ;;
  if Darcy then Ok f
  else let f := (f * 0.25) in
  Ok f.

(** fluids/friction.py:4251-4256 [transmission_factor]. *)
Definition transmission_factor (fd : option R) (F : option R) : result R :=
  match fd with
    | Some fd => t1 <- psqrt fd ;;
    pdiv 2 t1
    | None => match F with
      | Some F => pdiv 4 (F * F)
      | None => Err ValueError
    end
  end.

(** fluids/friction.py:4298-4303 [one_phase_dP]. *)
Definition one_phase_dP (W : R -> R) (m : R) (rho : R) (mu : R) (D_ : R) (roughness : R) (L : R) (Method : option string) : result R :=
  let D2 := (D_ * D_) in
  V <- pdiv m (((0.25 * PI) * D2) * rho) ;;
  Re <- Reynolds V D_ (Some rho) (Some mu) None ;;
  t3 <- pdiv roughness D_ ;;
  fd <- friction_factor W Re t3 Method true ;;
  t5 <- pdiv (fd * L) D_ ;;
  let dP := (t5 * (((0.5 * rho) * V) * V)) in
  Ok dP.

(** fluids/friction.py:4345-4358 [one_phase_dP_acceleration]. *)
Definition one_phase_dP_acceleration (m : R) (D_ : R) (rho_o : R) (rho_i : R) (D_i : option R) : result R :=
  let D_i := match D_i with Some v => v | None => D_ end in
  let A_i := (((0.25 * PI) * D_i) * D_i) in
  let A_o := (((0.25 * PI) * D_) * D_) in
  Q_i <- pdiv m rho_i ;;
  v_i <- pdiv Q_i A_i ;;
  Q_o <- pdiv m rho_o ;;
  v_o <- pdiv Q_o A_o ;;
  let rho_avg := (0.5 * (rho_o + rho_i)) in
  Ok ((0.5 * rho_avg) * ((v_o * v_o) - (v_i * v_i))).

(** fluids/friction.py:4418-4420 [one_phase_dP_dz_acceleration]. *)
Definition one_phase_dP_dz_acceleration (m : R) (D_ : R) (rho : R) (dv_dP : R) (dP_dL : R) (dA_dL : R) : result R :=
  let A := (((0.25 * PI) * D_) * D_) in
  G <- pdiv m A ;;
  t2 <- pdiv dA_dL (rho * A) ;;
  Ok (((- G) * G) * ((dP_dL * dv_dP) - t2)).

(** fluids/friction.py:4462-4463 [one_phase_dP_gravitational]. *)
Definition one_phase_dP_gravitational (angle : R) (rho : R) (L : R) (g : R) : result R :=
  let angle := (radians angle) in
  Ok (((L * g) * (sin angle)) * rho).
