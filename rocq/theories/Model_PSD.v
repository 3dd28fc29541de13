(** Particle size distributions: model of fluids/particle_size_distribution.py (hand-written).
    [d**p] is [ppow] (real exponent; sizes are taken non-negative).  [ds] is a list, not [None]; lists of Python floats. *)
From Coq Require Import Reals Lra Lia List Bool ZArith String.
From Verif Require Import Base Model_Numerics.
Import ListNotations.
Open Scope R_scope.

(** particle_size_distribution.py:1963-2002 [ParticleSizeDistribution.di_power]; the object's fields [size_classes] and [ds] are
    arguments. *)
Definition di_power (size_classes : bool) (ds : list R) (i : nat) (power : R) : result R :=
  if size_classes then
    let rt := power + 1 in
    u <- idx ds (S i) ;; a <- ppow u rt ;; l <- idx ds i ;; b <- ppow l rt ;;
    pdiv (a - b) ((u - l) * rt)
  else d <- idx ds i ;; ppow d power.

(** Python's [sum] *)
Definition psum (l : list R) : R := fold_left Rplus l 0.

(** the fields of the object the modelled methods use *)
Record psd : Type := { p_ds : list R; p_classes : bool; p_N : nat;
  p_fractions : list R; p_number : list R; p_length : list R; p_area : list R;
  p_volume_cdf : list R; p_area_cdf : list R; p_length_cdf : list R; p_number_cdf : list R }.

(** particle_size_distribution.py:1873-1876, 1879-1882, 1885-1888: one of the three further fraction sets *)
Definition per_power (size_classes : bool) (ds : list R) (N : nat) (fractions : list R) (power : R) : result (list R) :=
  D3s <- mapM (fun i => di_power size_classes ds i power) (seq 0 N) ;;
  numbers <- mapM (fun vp : R * R => pdiv (fst vp) (snd vp)) (combine fractions D3s) ;;
  mapM (fun i => pdiv i (psum numbers)) numbers.

(** particle_size_distribution.py:1841-1900 [ParticleSizeDistribution.__init__].  The attributes [monotonic], [parameters],
    [d_excessive], [d_minimum] are left out (the last element of [ds] is still read). *)
Definition psd_init (ds fractions : list R) (cdf : bool) (order : R) : result psd :=
  let size_classes := Nat.eqb (List.length ds) (S (List.length fractions)) in
  fractions <- (if cdf then
      if size_classes then f0 <- idx fractions 0 ;; Ok (f0 :: diff1 fractions)
      else Ok (0 :: diff1 fractions)
    else if negb (Reqb (psum fractions) 1) then
      tot_inv <- pdiv 1 (psum fractions) ;; Ok (map (fun i => if negb (Reqb i 0) then i * tot_inv else 0) fractions)
    else Ok fractions) ;;
  let N := List.length fractions in
  volume <- (if negb (Reqb order 3) then
      let power := 3 - order in
      d3s <- mapM (fun i => d <- di_power size_classes ds i power ;; f <- idx fractions i ;; Ok (d * f)) (seq 0 N) ;;
      mapM (fun i => pdiv i (psum d3s)) d3s
    else Ok fractions) ;;
  number <- per_power size_classes ds N volume 3 ;;
  len <- per_power size_classes ds N volume 2 ;;
  area <- per_power size_classes ds N volume 1 ;;
  _ <- (match ds with [] => Err IndexError | _ => Ok tt end) ;;
  vc <- cumsum volume ;; ac <- cumsum area ;; lc <- cumsum len ;; nc <- cumsum number ;;
  Ok {| p_ds := ds; p_classes := size_classes; p_N := N; p_fractions := volume; p_number := number; p_length := len; p_area := area;
        p_volume_cdf := vc; p_area_cdf := ac; p_length_cdf := lc; p_number_cdf := nc |}.

(** particle_size_distribution.py:2004-2021 [ParticleSizeDistribution.mean_size] *)
Definition moment_of (o : psd) (power : R) : result R :=
  l <- mapM (fun i => d <- di_power (p_classes o) (p_ds o) i power ;; n <- idx (p_number o) i ;; Ok (d * n)) (seq 0 (p_N o)) ;;
  Ok (psum l).
Definition mean_size (o : psd) (p q : R) : result R :=
  if negb (Reqb p q) then
    numerator <- moment_of o p ;;
    denominator <- moment_of o q ;;
    r <- pdiv numerator denominator ;;
    e <- pdiv 1 (p - q) ;;
    ppow r e
  else
    l <- mapM (fun i => d <- di_power (p_classes o) (p_ds o) i 1 ;; g <- plog d ;; e <- di_power (p_classes o) (p_ds o) i p ;;
                        n <- idx (p_number o) i ;; Ok (g * e * n)) (seq 0 (p_N o)) ;;
    denominator <- moment_of o q ;;
    r <- pdiv (psum l) denominator ;;
    Ok (exp r).
(** particle_size_distribution.py:2023-2034 [mean_size_ISO] *)
Definition mean_size_ISO (o : psd) (k r : R) : result R := mean_size o (k + r) r.

(** particle_size_distribution.py:1959-1961 [Dis], 2037-2060 [vssa] *)
Definition Dis (o : psd) : result (list R) := mapM (fun i => di_power (p_classes o) (p_ds o) i 1) (seq 0 (p_N o)).
Definition vssa (o : psd) : result R :=
  ds <- Dis o ;;
  Vs <- mapM (fun di => c <- ppow di 3 ;; Ok (PI / 6 * c)) ds ;;
  SAs <- mapM (fun di => c <- ppow di 2 ;; Ok (PI * c)) ds ;;
  SASs <- mapM (fun sv : R * R => pdiv (fst sv) (snd sv)) (combine SAs Vs) ;;
  Ok (psum (map (fun fs : R * R => fst fs * snd fs) (combine (p_fractions o) SASs))).

(** ** Continuous distributions *)
(** particle_size_distribution.py:592-649 [pdf_lognormal].  [log] of a non-positive number raises [ValueError], which the code turns
    into 0 (the divisions raise [ZeroDivisionError] as usual). *)
Definition pdf_lognormal (d d_characteristic s : R) : result R :=
  r <- pdiv d d_characteristic ;;
  if Rltb 0 r then
    log_term <- pdiv (ln r) s ;;
    t <- pdiv 1 (d * s * sqrt (2 * PI)) ;;
    Ok (t * exp (- 0.5 * log_term * log_term))
  else Ok 0.
Section erf.
(** [erf] is a parameter: the error function of Python's [math] module *)
Context (erf : R -> R).
(** particle_size_distribution.py:652-708 [cdf_lognormal]: any exception gives 0 *)
Definition cdf_lognormal (d d_characteristic s : R) : result R :=
  match (r <- pdiv d d_characteristic ;; l <- plog r ;; x <- pdiv l (s * sqrt 2) ;; Ok (0.5 * (1 + erf x))) with
  | Ok v => Ok v | Err _ => Ok 0 end.
(** particle_size_distribution.py:760-768 [pdf_lognormal_basis_integral]; the retry at [d=1E-80] on an exception is the
    parameter [retry] (the value the second call gives). *)
Definition pdf_lognormal_basis_integral (retry : result R) (d d_characteristic s n : R) : result R :=
  match (let s2 := s * s in
    let t0 := exp (s2 * n * n * 0.5) in
    d_ratio <- pdiv d d_characteristic ;;
    q <- pdiv d d_ratio ;;
    t1 <- ppow q n ;;
    l <- plog d_ratio ;;
    x <- pdiv (s2 * n - l) (sqrt 2 * s) ;;
    Ok (- 0.5 * t0 * t1 * erf x)) with
  | Ok v => Ok v | Err _ => retry end.
End erf.
(** particle_size_distribution.py:771-822 [pdf_Gates_Gaudin_Schuhman] *)
Definition pdf_GGS (d d_characteristic m : R) : result R :=
  if Rleb d d_characteristic then
    a <- pdiv m d ;; r <- pdiv d d_characteristic ;; b <- ppow r m ;; Ok (a * b)
  else Ok 0.
(** particle_size_distribution.py:825-876 [cdf_Gates_Gaudin_Schuhman] *)
Definition cdf_GGS (d d_characteristic m : R) : result R :=
  if Rleb d d_characteristic then r <- pdiv d d_characteristic ;; ppow r m else Ok 1.
(** particle_size_distribution.py:879-915 [pdf_Gates_Gaudin_Schuhman_basis_integral] *)
Definition GGS_basis (d d_characteristic m n : R) : result R :=
  a <- pdiv m (m + n) ;; b <- ppow d n ;; r <- pdiv d d_characteristic ;; c <- ppow r m ;; Ok (a * b * c).
(** particle_size_distribution.py:918-956 [pdf_Rosin_Rammler] *)
Definition pdf_RR (d k m : R) : result R :=
  a <- ppow d (m - 1) ;; b <- ppow d m ;; Ok (a * k * m * exp (- b * k)).
(** particle_size_distribution.py:959-1002 [cdf_Rosin_Rammler] *)
Definition cdf_RR (d k m : R) : result R := b <- ppow d m ;; Ok (1 - exp (- k * b)).
(** particle_size_distribution.py:1005-1055 [pdf_Rosin_Rammler_basis_integral] away from its error retry; [Gam] is
    [gamma(a)*gammaincc(a, x)], the upper incomplete gamma function. *)
Definition RR_basis (Gam : R -> R -> R) (d k m n : R) : result R :=
  a <- pdiv (m + n) m ;; b <- ppow d m ;; let x := b * k in let t1 := Gam a x in
  c <- ppow d (m + n) ;; e <- ppow (b * k) (- a) ;; Ok (- c * k * e * t1).

(** a continuous distribution object (particle_size_distribution.py:1208-1253): its three functions and its fields.
    [c_trunc] is [Some (d_min, d_max, cdf(d_max), cdf(d_min))] for a truncated distribution. *)
Record cont : Type := { c_order : R; c_excessive : R; c_minimum : R; c_trunc : option (R * R * R * R);
  c_pdf : R -> result R; c_cdf : R -> result R; c_basis : R -> R -> result R }.
(** particle_size_distribution.py:1250-1253 *)
Definition basis_definite (o : cont) (d_min d_max n : R) : result R :=
  a <- c_basis o d_max n ;; b <- c_basis o d_min n ;; Ok (a - b).
Definition other_basis (o : cont) (n : option R) : option R :=
  match n with Some n => if Reqb n (c_order o) then None else Some (n - c_order o) | None => None end.
(** particle_size_distribution.py:1306-1318 [pdf] *)
Definition pdf (o : cont) (d : R) (n : option R) : result R :=
  ans <- c_pdf o d ;;
  ans <- (match other_basis o n with
    | Some power => a <- ppow d power ;; den <- basis_definite o 0 (c_excessive o) power ;; pdiv (a * ans) den
    | None => Ok ans end) ;;
  let ans := Rmax ans 0 in
  match c_trunc o with
  | Some (d_min, d_max, cmax, cmin) => if (Rltb d d_min || Rltb d_max d)%bool then Ok 0 else pdiv ans (cmax - cmin)
  | None => Ok ans end.
(** particle_size_distribution.py:1355-1371 [cdf] *)
Definition cdf (o : cont) (d : R) (n : option R) : result R :=
  ans <- (match other_basis o n with
    | Some power => num <- basis_definite o 0 d power ;; den <- basis_definite o 0 (c_excessive o) power ;; r <- pdiv num den ;; Ok (Rmax r 0)
    | None => c <- c_cdf o d ;; Ok (Rmax c 0) end) ;;
  match c_trunc o with
  | Some (d_min, d_max, cmax, cmin) => if Rleb d d_min then Ok 0 else if Rleb d_max d then Ok 1 else pdiv (ans - cmin) (cmax - cmin)
  | None => Ok ans end.
(** particle_size_distribution.py:1373-1403 [delta_cdf] *)
Definition delta_cdf (o : cont) (d_min d_max : R) (n : option R) : result R :=
  a <- cdf o d_max n ;; b <- cdf o d_min n ;; Ok (a - b).
(** particle_size_distribution.py:1405-1463 [dn]; [brenth] is a parameter (the root finder), [eps] the float [epsilon]. *)
Definition dn (brenth : (R -> result R) -> R -> R -> result R) (eps : R) (o : cont) (fraction : R) (n : option R) : result R :=
  let fraction := if Reqb fraction 1 then 1 - eps else fraction in
  if Rltb fraction 0 then Err ValueError
  else if Reqb fraction 0 then (match c_trunc o with Some (d_min, _, _, _) => Ok d_min | None => Ok 0 end)
  else if Rltb 1 fraction then Err ValueError
  else brenth (fun d => c <- cdf o d n ;; Ok (c - fraction)) (c_minimum o) (c_excessive o).
(** particle_size_distribution.py:1519-1546 [fractions_discrete], 1548-1573 [cdf_discrete] *)
Definition cdf_discrete (o : cont) (ds : list R) (n : option R) : result (list R) := mapM (fun d => cdf o d n) ds.
Definition fractions_discrete (o : cont) (ds : list R) (n : option R) : result (list R) :=
  cdfs <- cdf_discrete o ds n ;; f <- idx cdfs 0 ;; Ok (f :: diff1 cdfs).
(** particle_size_distribution.py:1575-1600 [mean_size] *)
Definition cont_mean_size (o : cont) (p q : R) : result R :=
  let '(p, q) := if Reqb p q then (p - 1 / 10 ^ 9, q + 1 / 10 ^ 9) else (p, q) in
  denominator <- basis_definite o (c_minimum o) (c_excessive o) (q - c_order o) ;;
  numerator <- basis_definite o (c_minimum o) (c_excessive o) (p - c_order o) ;;
  r <- pdiv numerator denominator ;;
  e <- pdiv 1 (p - q) ;;
  ppow r e.
(** particle_size_distribution.py:1613-1636 [vssa] *)
Definition cont_vssa (o : cont) : result R := m <- cont_mean_size o 3 2 ;; pdiv 6 m.

(** the truncation code shared by the constructors, e.g. particle_size_distribution.py:2097-2110 *)
Definition truncate (c : R -> result R) (exc : R) (d_min d_max : option R) : result (option (R * R * R * R)) :=
  match d_min, d_max with
  | None, None => Ok None
  | _, _ =>
      let dmax := match d_max with None => exc | Some v => v end in
      let dmin := match d_min with None => 0 | Some v => v end in
      cmax <- c dmax ;; cmin <- c dmin ;; Ok (Some (dmin, dmax, cmax, cmin))
  end.
Definition or_zero (o : option R) : R := match o with Some v => v | None => 0 end.
(** particle_size_distribution.py:2173-2209 [PSDRosinRammler] *)
Definition PSDRosinRammler (Gam : R -> R -> R) (k m order : R) (d_min d_max : option R) : result cont :=
  let exc := match d_max with Some v => v | None => 10 ^ 15 end in
  t <- truncate (fun d => cdf_RR d k m) exc d_min d_max ;;
  Ok {| c_order := order; c_excessive := exc; c_minimum := or_zero d_min; c_trunc := t;
        c_pdf := fun d => pdf_RR d k m; c_cdf := fun d => cdf_RR d k m; c_basis := fun d n => RR_basis Gam d k m n |}.
(** particle_size_distribution.py:2126-2166 [PSDGatesGaudinSchuhman]: with [d_max] given, line 2135 reads [self.d_max] before any
    assignment to it; the class only annotates that name, so the read raises. *)
Definition PSDGatesGaudinSchuhman (d_characteristic m order : R) (d_min d_max : option R) : result cont :=
  match d_max with
  | Some _ => Err AttributeError
  | None =>
      t <- truncate (fun d => cdf_GGS d d_characteristic m) d_characteristic d_min None ;;
      Ok {| c_order := order; c_excessive := d_characteristic; c_minimum := or_zero d_min; c_trunc := t;
            c_pdf := fun d => pdf_GGS d d_characteristic m; c_cdf := fun d => cdf_GGS d d_characteristic m;
            c_basis := fun d n => GGS_basis d d_characteristic m n |}
  end.
(** particle_size_distribution.py:2076-2119 [PSDLognormal] *)
Definition PSDLognormal (erf : R -> R) (retry : R -> R -> R -> result R) (d_characteristic s order : R) (d_min d_max : option R) : result cont :=
  let exc := match d_max with Some v => v | None => 10 ^ 15 * d_characteristic end in
  t <- truncate (fun d => cdf_lognormal erf d d_characteristic s) exc d_min d_max ;;
  Ok {| c_order := order; c_excessive := exc; c_minimum := or_zero d_min; c_trunc := t;
        c_pdf := fun d => pdf_lognormal d d_characteristic s; c_cdf := fun d => cdf_lognormal erf d d_characteristic s;
        c_basis := fun d n => pdf_lognormal_basis_integral erf (retry d_characteristic s n) d d_characteristic s n |}.

(** particle_size_distribution.py:553-576 [psd_spacing], the geometric (Renard) series: [method] is "R" followed by [number]. *)
Definition spacing_renard (d_min d_max : option R) (pts : nat) (number : R) : result (list R) :=
  e <- pdiv 1 number ;;
  ratio <- ppow 10 e ;;
  match d_min, d_max with
  | Some lo, None => Ok ((fix go k d := match k with O => [d] | S k => d :: go k (d * ratio) end) (pts - 1)%nat lo)
  | None, Some hi =>
      l <- (fix go k d := match k with O => Ok [d] | S k => d' <- pdiv d ratio ;; t <- go k d' ;; Ok (d :: t) end) (pts - 1)%nat hi ;;
      Ok (rev l)
  | _, _ => Err ValueError
  end.
