(** Numerical helpers of /repo/fluids/numerics/__init__.py: searching, interpolation,
    sequences, statistics, Chebyshev series, bound translation, damping, oscillation
    checking, caching. *)
From Coq Require Import List Bool QArith Reals ZArith Arith Lia.
From Verif Require Import Base Model_Poly.
Import ListNotations.

Section Generic.
Context {A : Type} `{NA : Num A}.
Local Open Scope num_scope.

(** [l[-1]] and [l[-2]] *)
Definition last_of {B} (l : list B) : result B := idx (rev l) 0.
Definition last2_of {B} (l : list B) : result B := idx (rev l) 1.
Definition nsum (l : list A) : A := fold_left nadd l n0.

(** __init__.py:570-572 [mean] *)
Definition mean (data : list A) : result A := pydiv (nsum data) (nnat (length data)).

(** __init__.py:586-619 [linspace] with retstep=False.  [lin_acc n x step] are the [n] values
    appended one after the other, each the previous one plus [step]. *)
Fixpoint lin_acc (n : nat) (x step : A) : list A :=
  match n with O => [] | S n' => (x + step) :: lin_acc n' (x + step) step end.
Definition linspace (start stop : A) (num : Z) (endpoint : bool) : result (list A) :=
  if (num <=? 0)%Z then Ok []
  else
    let n := Z.to_nat num in
    if endpoint then
      if (num =? 1)%Z then Ok [start]
      else step <- pydiv (stop - start) (nnat (n - 1)) ;;
           Ok ((start :: lin_acc (n - 2) start step) ++ [stop])
    else step <- pydiv (stop - start) (nnat n) ;;
         Ok (start :: lin_acc (n - 1) start step).

(** __init__.py:621-671 [cumulative_trapezoid] *)
Fixpoint trap_dx (y : list A) (dx integral : A) : list A :=
  match y with
  | y0 :: ((y1 :: _) as t) =>
      let integral := integral + (y0 + y1) * dx * nQ (1#2) in
      integral :: trap_dx t dx integral
  | _ => []
  end.
Fixpoint trap_x (y x : list A) (integral : A) : list A :=
  match y, x with
  | y0 :: ((y1 :: _) as ty), x0 :: ((x1 :: _) as tx) =>
      let dx := x1 - x0 in
      let integral := integral + (y0 + y1) * dx * nQ (1#2) in
      integral :: trap_x ty tx integral
  | _, _ => []
  end.
Definition cumulative_trapezoid (y : list A) (x : option (list A)) (dx : option A) : result (list A) :=
  if Nat.ltb (length y) 2 then Ok []
  else match x with
  | None => match dx with None => Err ValueError | Some dx => Ok (trap_dx y dx n0) end
  | Some x => if negb (Nat.eqb (length x) (length y)) then Err ValueError else Ok (trap_x y x n0)
  end.

(** __init__.py:681-686 [product] *)
Definition product (l : list A) : A := fold_left nmul l n1.
(** __init__.py:689-696 [cumsum] *)
Fixpoint cumsum_acc (base : A) (l : list A) : list A :=
  match l with [] => [] | v :: t => (base + v) :: cumsum_acc (base + v) t end.
Definition cumsum (a : list A) : result (list A) :=
  match a with [] => Err IndexError | base :: t => Ok (base :: cumsum_acc base t) end.
(** __init__.py:699-713 [diff] *)
Fixpoint diff1 (a : list A) : list A :=
  match a with x :: ((y :: _) as t) => (y - x) :: diff1 t | _ => [] end.
Fixpoint diff_iter (n : nat) (a : list A) : list A :=
  match n with O => a | S n' => diff_iter n' (diff1 a) end.
Definition diff (a : list A) (n : Z) : result (list A) :=
  if (n =? 0)%Z then Ok a else if (n <? 0)%Z then Err ValueError else Ok (diff_iter (Z.to_nat n) a).

(** __init__.py:1458-1503 [is_monotonic] *)
Fixpoint changes (points : list A) (inc dec : bool) : bool * bool :=
  match points with
  | p :: ((q :: _) as t) => changes t (inc || (p <? q)) (dec || (q <? p))
  | _ => (inc, dec)
  end.
Definition is_monotonic (points : list A) : bool :=
  if Nat.eqb (length points) 1 then true
  else let '(inc, dec) := changes points false false in negb (inc && dec).
(** __init__.py:1505-1544 [is_increasing] *)
Fixpoint increasing_from (previous : A) (l : list A) : bool :=
  match l with
  | [] => true
  | current :: t => if current <=? previous then false else increasing_from current t
  end.
Definition is_increasing (points : list A) : bool :=
  match points with [] => true | p :: t => increasing_from p t end.

(** __init__.py:1546-1565 [min_max_ratios] *)
Fixpoint ratios (actual calculated : list A) (mn mx : A) : result (A * A) :=
  match actual with
  | [] => Ok (mn, mx)
  | a :: ta =>
    match calculated with
    | [] => Err IndexError
    | c :: tc =>
      r <- (if a =? n0 then Ok (if c =? a then n1 else nQ 10) else pydiv c a) ;;
      if r <? mn then ratios ta tc r mx
      else if mx <? r then ratios ta tc mn r
      else ratios ta tc mn mx
    end
  end.
Definition min_max_ratios (actual calculated : list A) : result (A * A) := ratios actual calculated n1 n1.

(** __init__.py:1753-1769 [chebval] *)
Definition clenshaw_step (x2 : A) (s : A * A) (ci : A) : A * A :=
  let '(c0, c1) := s in (ci - c1, c0 + c1 * x2).
Definition chebval (x : A) (c : list A) (offset scale : A) : result A :=
  let x := offset + scale * x in
  match rev c with
  | [] => Err IndexError
  | [c0] => Ok c0
  | [c1; c0] => Ok (c0 + c1 * x)
  | c1 :: c0 :: rest =>
      let x2 := nQ 2 * x in
      let '(c0, c1) := fold_left (clenshaw_step x2) rest (c0, c1) in
      Ok (c0 + c1 * x)
  end.

(** __init__.py:1771-1799 [chebder]: [c] and [der] are the two buffers swapped at each order;
    the divisor [j - 2.0] is positive.  Python shares no buffer with the caller (a copy is made). *)
Definition chebder_inner (cd : list A * list A) (j : nat) : list A * list A :=
  let '(c, der) := cd in
  let der := upd der (j - 1) (nnat (j + j) * nth j c n0) in
  let c := upd c (j - 2) (nth (j - 2) c n0 + ndiv (nnat j * nth j c n0) (nnat j - nQ 2)) in
  (c, der).
Definition chebder_pass (scl : A) (c der : list A) (n : nat) : list A * list A :=
  let c := if negb (scl =? n1)
           then fold_left (fun c j => upd c j (nth j c n0 * scl)) (seq 0 (n + 1)) c else c in
  let '(c, der) := fold_left chebder_inner (rev (seq 3 (n - 2))) (c, der) in
  let der := if Nat.ltb 1 n then upd der 1 (nQ 4 * nth 2 c n0) else der in
  let der := upd der 0 (nth 1 c n0) in
  (c, der).
Fixpoint chebder_loop (m : nat) (scl : A) (c der : list A) (n : nat) : list A * nat :=
  match m with
  | O => (c, n)
  | S m' =>
      let n := (n - 1)%nat in
      let '(c, der) := chebder_pass scl c der n in
      chebder_loop m' scl der c n
  end.
Definition chebder (c : list A) (m : nat) (scl : A) : list A :=
  match m with
  | O => c
  | S _ =>
      let n := length c in
      if Nat.leb n m then []
      else let '(c, n) := chebder_loop m scl c (repeat n0 (n - 1)) n in firstn n c
  end.

(** __init__.py:1801-1837 [chebint]: [c0] and [tmp] are the two buffers of [n0 + cnt] entries.
    A negative order raises ValueError. *)
Definition chebint_inner (c0 : list A) (tmp : list A) (j : nat) : list A :=
  let cval := nth j c0 n0 in
  let tmp := upd tmp (j + 1) (ndiv cval (nQ 2 * nnat (j + 1))) in
  upd tmp (j - 1) (nth (j - 1) tmp n0 - ndiv cval (nQ 2 * nnat (j - 1))).
Definition chebint_pass (lbnd : A) (c0 tmp : list A) (n : nat) : result (list A) :=
  let tmp := upd tmp 1 (nth 0 c0 n0) in
  let tmp := if Nat.ltb 1 n then upd tmp 2 (nQ (1#4) * nth 1 c0 n0) else tmp in
  let tmp := fold_left (chebint_inner c0) (seq 2 (n - 2)) tmp in
  val <- chebval lbnd tmp n0 n1 ;;
  Ok (upd tmp 0 (nth 0 tmp n0 - val)).
Fixpoint chebint_loop (cnt : nat) (lbnd scl : A) (c0 tmp : list A) (n : nat) : result (list A) :=
  match cnt with
  | O => Ok c0
  | S cnt' =>
      let c0 := if negb (scl =? n1)
                then fold_left (fun c i => upd c i (nth i c n0 * scl)) (seq 0 n) c0 else c0 in
      if Nat.eqb n 1 && (nth 0 c0 n0 =? n0) then chebint_loop cnt' lbnd scl c0 tmp n
      else tmp <- chebint_pass lbnd c0 tmp n ;; chebint_loop cnt' lbnd scl tmp c0 (S n)
  end.
Definition chebint (c : list A) (m : Z) (lbnd scl : A) : result (list A) :=
  if (m <? 0)%Z then Err ValueError
  else
    let cnt := Z.to_nat m in
    if Nat.eqb cnt 0 then Ok c
    else if Nat.eqb (length c) 1 && (nth 0 c n0 =? n0) then Ok c
    else if Nat.eqb (length c + cnt) 1 then Err IndexError  (* tmp[1] with a buffer of one entry *)
    else chebint_loop cnt lbnd scl (c ++ repeat n0 cnt) (repeat n0 (length c + cnt)) (length c).

(** __init__.py:1841-1852 [binary_search] with the default size (the length of the array) *)
Fixpoint bs_loop (fuel : nat) (key : A) (arr : list A) (imin imax : nat) : result nat :=
  match fuel with
  | O => Err Diverges
  | S fuel' =>
      if Nat.ltb imin imax then
        let imid := (imin + Nat.div2 (imax - imin))%nat in
        v <- idx arr imid ;;
        if v <=? key then bs_loop fuel' key arr (imid + 1) imax
        else bs_loop fuel' key arr imin imid
      else Ok imin
  end.
Definition binary_search (key : A) (arr : list A) : result Z :=
  let size := length arr in
  l <- last_of arr ;;
  if l <? key then Ok (Z.of_nat size)
  else imin <- bs_loop (S size) key arr 0 size ;; Ok (Z.of_nat imin - 1)%Z.

(** __init__.py:2017-2079 [interp] *)
Definition interp_between (x : A) (dx dy : list A) (j : nat) : result A :=
  dy1 <- idx dy (j + 1) ;; dy0 <- idx dy j ;;
  dx1 <- idx dx (j + 1) ;; dx0 <- idx dx j ;;
  q <- pydiv (dy1 - dy0) (dx1 - dx0) ;;
  Ok (q * (x - dx0) + dy0).
(** the [j = -2] branch: the last two entries of each list *)
Definition interp_last (x : A) (dx dy : list A) : result A :=
  dy1 <- last_of dy ;; dy0 <- last2_of dy ;;
  dx1 <- last_of dx ;; dx0 <- last2_of dx ;;
  q <- pydiv (dy1 - dy0) (dx1 - dx0) ;;
  Ok (q * (x - dx0) + dy0).
Definition interp (x : A) (dx dy : list A) (left right : option A) (extrapolate : bool) : result A :=
  j <- binary_search x dx ;;
  let lendx := Z.of_nat (length dx) in
  if (j =? -1)%Z then
    match left with
    | Some v => Ok v
    | None => if extrapolate then interp_between x dx dy 0 else idx dy 0
    end
  else if (j =? lendx - 1)%Z then idx dy (Z.to_nat j)
  else if (j =? lendx)%Z then
    match right with
    | Some v => Ok v
    | None => if extrapolate then interp_last x dx dy else last_of dy
    end
  else interp_between x dx dy (Z.to_nat j).

(** __init__.py:2082-2099 [interp2d_linear].  Index -1 (reached when y equals ys[0]) is Python's
    last element; falling out of the for loop leaves i0 unbound. *)
Definition zidx {B} (l : list B) (i : Z) : result B :=
  if (0 <=? i)%Z then idx l (Z.to_nat i) else idx (rev l) (Z.to_nat (- i - 1)).
Fixpoint first_ge (ys : list A) (y : A) (i : Z) : option Z :=
  match ys with [] => None | v :: t => if y <=? v then Some i else first_ge t y (i + 1)%Z end.
Definition interp2d_rows (y : A) (ys : list A) : result (Z * Z) :=
  ys0 <- idx ys 0 ;;
  if y <? ys0 then Ok (0, 1)%Z
  else
    ysl <- last_of ys ;;
    if ysl <? y then Ok (-2, -1)%Z
    else match first_ge ys y 0 with Some i => Ok (i - 1, i)%Z | None => Err UnboundLocalError end.
Definition interp2d_linear (x y : A) (xs ys : list A) (vals : list (list A)) : result A :=
  ' (i0, i1) <- interp2d_rows y ys ;;
  y_low <- zidx ys i0 ;; y_high <- zidx ys i1 ;;
  r0 <- zidx vals i0 ;; v_low <- interp x xs r0 None None true ;;
  r1 <- zidx vals i1 ;; v_high <- interp x xs r1 None None true ;;
  q <- pydiv (y - y_low) (y_high - y_low) ;;
  Ok (v_low + q * (v_high - v_low)).

(** __init__.py:1855-1888 [isclose], finite real arguments *)
Definition isclose (a b rel_tol abs_tol : A) : result bool :=
  if (rel_tol <? n0) || (abs_tol <? n0) then Err ValueError
  else if a =? b then Ok true
  else let diff := nabs (a - b) in
       Ok ((diff <=? rel_tol * nabs b) || (diff <=? rel_tol * nabs a) || (diff <=? abs_tol)).

(** __init__.py:2342-2384 [damping_maintain_sign], scalars and lists *)
Definition damping_maintain_sign (x step damping factor : A) : A :=
  let positive := n0 <=? x in
  let step_x := x + step in
  let step := if (positive && (step_x <? n0)) || (negb positive && (n0 <? step_x))
              then - factor * x else step in
  x + step * damping.
Fixpoint damping_maintain_sign_list (x step : list A) (damping factor : A) : result (list A) :=
  match x with
  | [] => Ok []
  | xi :: tx =>
    match step with
    | [] => Err IndexError
    | si :: ts => r <- damping_maintain_sign_list tx ts damping factor ;;
                  Ok (damping_maintain_sign xi si damping factor :: r)
    end
  end.

(** __init__.py:2387-2400 [make_damp_initial]: the closure is a state machine whose state is
    the remaining number of damped calls; scalar case *)
Definition damp_initial_call (damping : A) (st : Z) (xs : A * A) : Z * A :=
  let '(x, step) := xs in
  if (st <=? 0)%Z then (st, x + step) else ((st - 1)%Z, x + step * damping).
(** __init__.py:2403-2436 [make_max_step_initial], scalar case; copysign(m, s) with m >= 0 is
    m for s > 0 and -m for s < 0 (s is non-zero where it is used) *)
Definition max_step_call (max_step : A) (st : Z) (xs : A * A) : Z * A :=
  let '(x, step) := xs in
  if (st <=? 0)%Z then (st, x + step)
  else ((st - 1)%Z,
        if max_step <? nabs step
        then x + (if step <? n0 then - (nabs max_step) else nabs max_step)
        else x + step).
(** results of a sequence of calls of a stateful closure *)
Fixpoint run_calls {S I O} (f : S -> I -> S * O) (st : S) (l : list I) : list O :=
  match l with [] => [] | i :: t => let '(st, o) := f st i in o :: run_calls f st t end.

(** __init__.py:2439-2513 [OscillationChecker]; the lists are in order of arrival.  Division
    by y, ys_pos[-1] or ys_neg[-1] never fails (they are non-zero), see the theorems. *)
Record checker : Type := mk_checker {
  xs_pos : list A; ys_pos : list A; xs_neg : list A; ys_neg : list A }.
Definition checker_new : checker := mk_checker [] [] [] [].
Definition is_oscillating (minimum_progress : A) (both_sides : bool) (good_err : option A)
    (st : checker) (x y : A) : checker * result bool :=
  if y =? n0 then (st, Ok false)
  else
    let st := if y <? n0
              then mk_checker (xs_pos st) (ys_pos st) (xs_neg st ++ [x]) (ys_neg st ++ [y])
              else mk_checker (xs_pos st ++ [x]) (ys_pos st ++ [y]) (xs_neg st) (ys_neg st) in
    (st,
     if Nat.ltb (length (xs_pos st)) 2 || Nat.ltb (length (xs_neg st)) 2 then Ok false
     else
       yn1 <- last_of (ys_neg st) ;; yn2 <- last2_of (ys_neg st) ;;
       yp1 <- last_of (ys_pos st) ;; yp2 <- last2_of (ys_pos st) ;;
       gn <- pydiv (yn1 - yn2) yn1 ;;
       gp <- pydiv (yp1 - yp2) yp1 ;;
       let gain_neg := nabs gn in
       let gain_pos := nabs gp in
       let oscillating :=
         if both_sides then (gain_pos <? minimum_progress) && (gain_neg <? minimum_progress)
         else (gain_pos <? minimum_progress) || (gain_neg <? minimum_progress) in
       match good_err with
       | Some g =>
           let an := nabs yn1 in let ap := nabs yp1 in
           let best_err := if ap <? an then ap else an in
           if oscillating && (best_err <? g) then Ok false else Ok oscillating
       | None => Ok oscillating
       end).
(** state and verdicts of a sequence of calls *)
Fixpoint run_checker (mp : A) (both : bool) (ge : option A) (st : checker) (l : list (A * A)) : list (result bool) :=
  match l with
  | [] => []
  | (x, y) :: t => let '(st, v) := is_oscillating mp both ge st x y in v :: run_checker mp both ge st t
  end.

(** Python [min(l)], [max(l)] and [l.index(v)] for a non-empty list *)
Definition list_min (h : A) (t : list A) : A := fold_left (fun m v => if v <? m then v else m) t h.
Definition list_max (h : A) (t : list A) : A := fold_left (fun m v => if m <? v then v else m) t h.
Fixpoint index_of (v : A) (l : list A) : result nat :=
  match l with [] => Err ValueError | h :: t => if h =? v then Ok O else i <- index_of v t ;; Ok (S i) end.
(** __init__.py:2550-2639 [best_bounding_bounds], with fa and fb already evaluated.  [None]/empty
    histories are []. The comparison [y_min_pos > fb] of line 2634 is kept: it uses a name that
    is unbound when no positive history exists. *)
Definition best_bounding_bounds (low high fa fb : A) (xp yp xn yn : list A) : result (A * A * A * A) :=
  ' (low, high, fa, fb, ymp) <-
    (match yp with
     | [] => Ok (low, high, fa, fb, None)
     | h :: t =>
        let y_min_pos := list_min h t in
        i <- index_of y_min_pos yp ;;
        x_min_pos <- idx xp i ;;
        if n0 <? fa then
          if y_min_pos <? fa then Ok (x_min_pos, high, y_min_pos, fb, Some y_min_pos)
          else Ok (low, high, fa, fb, Some y_min_pos)
        else
          if y_min_pos <? fb then Ok (low, x_min_pos, fa, y_min_pos, Some y_min_pos)
          else Ok (low, high, fa, fb, Some y_min_pos)
     end) ;;
  ' (low, high, fa, fb) <-
    (match yn with
     | [] => Ok (low, high, fa, fb)
     | h :: t =>
        let y_min_neg := list_max h t in
        i <- index_of y_min_neg yn ;;
        x_min_neg <- idx xn i ;;
        if fa <? n0 then
          if fa <? y_min_neg then Ok (x_min_neg, high, y_min_neg, fb) else Ok (low, high, fa, fb)
        else
          match ymp with
          | None => Err UnboundLocalError
          | Some y_min_pos =>
              if fb <? y_min_pos then Ok (low, x_min_neg, fa, y_min_neg) else Ok (low, high, fa, fb)
          end
     end) ;;
  if n0 <? fa * fb then Err ValueError else Ok (low, high, fa, fb).

(** __init__.py:1586-1610 [fit_integral_linear_extrapolation] *)
Definition nmin (a b : A) : A := if b <? a then b else a.
Definition nmax (a b : A) : A := if a <? b then b else a.
Definition fit_integral_linear_extrapolation (T1 T2 : A) (int_coeffs : list A)
    (Tmin Tmax Tmin_value Tmax_value Tmin_slope Tmax_slope : A) : A :=
  let flip := T2 <? T1 in
  let '(T1, T2) := if flip then (T2, T1) else (T1, T2) in
  let h := nQ (1#2) in
  let tot := n0 in
  let tot := if T1 <? Tmin then
      let T2_low := nmin Tmin T2 in
      let x1 := Tmin_value - Tmin_slope * Tmin in
      tot + (T2_low * (h * Tmin_slope * T2_low + x1) - T1 * (h * Tmin_slope * T1 + x1))
    else tot in
  let tot := if ((Tmin <=? T1) && (T1 <=? Tmax)) || ((Tmin <=? T2) && (T2 <=? Tmax))
                || ((T1 <=? Tmin) && (Tmax <=? T2)) then
      let T1_mid := nmax Tmin T1 in
      let T2_mid := nmin Tmax T2 in
      tot + (horner int_coeffs T2_mid - horner int_coeffs T1_mid)
    else tot in
  let tot := if Tmax <? T2 then
      let T1_high := nmax Tmax T1 in
      let x1 := Tmax_value - Tmax_slope * Tmax in
      tot + (T2 * (h * Tmax_slope * T2 + x1) - T1_high * (h * Tmax_slope * T1_high + x1))
    else tot in
  if flip then - tot else tot.

(** __init__.py:1612-1632 [poly_fit_integral_value] *)
Definition poly_fit_integral_value (T : A) (int_coeffs : list A)
    (Tmin Tmax Tmin_value Tmax_value Tmin_slope Tmax_slope : A) : A :=
  let h := nQ (1#2) in
  if T <? Tmin then
    let x1 := Tmin_value - Tmin_slope * Tmin in
    T * (h * Tmin_slope * T + x1)
  else if (Tmin <=? T) && (T <=? Tmax) then
    let tot1 := horner int_coeffs T - horner int_coeffs Tmin in
    let x1 := Tmin_value - Tmin_slope * Tmin in
    let tot := Tmin * (h * Tmin_slope * Tmin + x1) in
    tot + tot1
  else
    let x1 := Tmin_value - Tmin_slope * Tmin in
    let tot := Tmin * (h * Tmin_slope * Tmin + x1) in
    let tot1 := horner int_coeffs Tmax - horner int_coeffs Tmin in
    let x1 := Tmax_value - Tmax_slope * Tmax in
    let tot2 := T * (h * Tmax_slope * T + x1) - Tmax * (h * Tmax_slope * Tmax + x1) in
    tot1 + tot + tot2.

(** __init__.py:1688-1730 [evaluate_linear_fits], [evaluate_linear_fits_d],
    [evaluate_linear_fits_d2]: one record per component (the code keeps parallel lists) *)
Record lin_fit : Type := mk_fit {
  low_limit : A; low_slope : A; low_value : A; high_limit : A; high_slope : A; high_value : A;
  coeffs : list A; dcoeffs : list A; d2coeffs : list A }.
Definition eval_fit (d : lin_fit) (x : A) : A :=
  if x <? low_limit d then (x - low_limit d) * low_slope d + low_value d
  else if high_limit d <? x then (x - high_limit d) * high_slope d + high_value d
  else fold_left (fun v c => v * x + c) (coeffs d) n0.
Definition eval_fit_d (d : lin_fit) (x : A) : A :=
  if x <? low_limit d then low_slope d
  else if high_limit d <? x then high_slope d
  else fold_left (fun v c => v * x + c) (dcoeffs d) n0.
Definition eval_fit_d2 (d : lin_fit) (x : A) : A :=
  if (low_limit d <? x) && (x <? high_limit d) then fold_left (fun v c => v * x + c) (d2coeffs d) n0
  else n0.
Definition evaluate_linear_fits (data : list lin_fit) (x : A) : list A := map (fun d => eval_fit d x) data.
Definition evaluate_linear_fits_d (data : list lin_fit) (x : A) : list A := map (fun d => eval_fit_d d x) data.
Definition evaluate_linear_fits_d2 (data : list lin_fit) (x : A) : list A := map (fun d => eval_fit_d2 d x) data.

(** __init__.py:4953-4954 [normalize] *)
Definition normalize (values : list A) : result (list A) :=
  tot_inv <- pydiv n1 (nsum values) ;; Ok (map (fun i => i * tot_inv) values).

(** __init__.py:5203-5283 error measures.  [calc] shorter than [data] raises IndexError. *)
Fixpoint fold2 {S} (f : S -> A -> A -> result S) (data calc : list A) (s : S) : result S :=
  match data with
  | [] => Ok s
  | d :: td => match calc with
               | [] => Err IndexError
               | c :: tc => s <- f s d c ;; fold2 f td tc s
               end
  end.
Definition max_abs_error (data calc : list A) : result A :=
  fold2 (fun e d c => let diff := nabs (d - c) in Ok (if e <? diff then diff else e)) data calc n0.
Definition max_abs_rel_error (data calc : list A) (max_val : A) : result A :=
  fold2 (fun e d c =>
           diff <- (if d =? n0 then Ok (if c =? n0 then n0 else max_val)
                    else q <- pydiv (d - c) d ;;
                         let diff := nabs q in Ok (if max_val <? diff then max_val else diff)) ;;
           Ok (if e <? diff then diff else e)) data calc n0.
Definition max_squared_error (data calc : list A) : result A :=
  fold2 (fun e d c => let diff := nabs (d - c) in let diff := diff * diff in
                      Ok (if e <? diff then diff else e)) data calc n0.
Definition max_squared_rel_error (data calc : list A) : result A :=
  fold2 (fun e d c => q <- pydiv (d - c) d ;; let diff := nabs q in let diff := diff * diff in
                      Ok (if e <? diff then diff else e)) data calc n0.
Definition mean_abs_error (data calc : list A) : result A :=
  t <- fold2 (fun e d c => Ok (e + nabs (d - c))) data calc n0 ;; pydiv t (nnat (length data)).
Definition mean_abs_rel_error (data calc : list A) : result A :=
  t <- fold2 (fun e d c =>
           if d =? n0 then Ok (if c =? n0 then e else e + n1)
           else q <- pydiv (d - c) d ;; Ok (e + nabs q)) data calc n0 ;;
  pydiv t (nnat (length data)).
Definition mean_squared_error (data calc : list A) : result A :=
  t <- fold2 (fun e d c => let err := nabs (d - c) in Ok (e + err * err)) data calc n0 ;;
  pydiv t (nnat (length data)).
Definition mean_squared_rel_error (data calc : list A) : result A :=
  t <- fold2 (fun e d c => q <- pydiv (d - c) d ;; let err := nabs q in Ok (e + err * err)) data calc n0 ;;
  pydiv t (nnat (length data)).

(** __init__.py:5342-5369 [fixed_quad_Gauss_Kronrod]: Kronrod value and difference to the
    Legendre value, which uses the odd-numbered points.  [odd] is [i % 2]. *)
Fixpoint gk_loop (f : A -> A) (a b fact : A) (odd : bool) (pts ws ls : list A) (vk vl : A) : result (A * A) :=
  match pts with
  | [] => Ok (vk, vl)
  | p :: tp =>
      let x0 := nQ (1#2) * (n1 - p) in
      let x1 := nQ (1#2) * (n1 + p) in
      let x := a * x0 + b * x1 in
      let y := f x in
      match ws with
      | [] => Err IndexError
      | w :: tw =>
        let vk := vk + fact * y * w in
        if odd then
          match ls with
          | [] => Err IndexError
          | l :: tl => gk_loop f a b fact (negb odd) tp tw tl vk (vl + fact * y * l)
          end
        else gk_loop f a b fact (negb odd) tp tw ls vk vl
      end
  end.
Definition fixed_quad_Gauss_Kronrod (f : A -> A) (a b : A) (k_points k_weights l_weights : list A) : result (A * A) :=
  let fact := nQ (1#2) * (b - a) in
  ' (vk, vl) <- gk_loop f a b fact false k_points k_weights l_weights n0 n0 ;;
  Ok (vk, vk - vl).

(** __init__.py:5389-5402 [quad_adaptive].  [rem] is 7 minus the Python argument [depth]; the
    recursion stops when depth > 6, that is rem = 0. *)
Fixpoint quad_adaptive (rem : nat) (f : A -> A) (a b : A) (kp kw lw : list A) (epsrel epsabs : A) : result (A * A) :=
  ' (area, err_abs) <- fixed_quad_Gauss_Kronrod f a b kp kw lw ;;
  let small :=
    if nabs err_abs <? epsabs then true
    else if area =? n0 then true
    else nabs (ndiv err_abs area) <? epsrel in
  match rem with
  | O => Ok (area, err_abs)
  | S rem' =>
      if small then Ok (area, err_abs)
      else
        let mid := a + (b - a) * nQ (1#2) in
        ' (area_A, err_A) <- quad_adaptive rem' f a mid kp kw lw epsrel (epsabs * nQ (1#2)) ;;
        ' (area_B, err_B) <- quad_adaptive rem' f mid b kp kw lw epsrel (epsabs * nQ (1#2)) ;;
        Ok (area_A + area_B, nabs err_A + nabs err_B)
  end.

(** __init__.py:5447-5457 [bounds_clip_naive]; N = len(low) is evaluated even when low is None
    (TypeError).  Longer [x] keeps its tail, a shorter [x] or [high] raises IndexError. *)
Fixpoint clip_low (x low : list A) : result (list A) :=
  match low with
  | [] => Ok x
  | l :: tl => match x with
               | [] => Err IndexError
               | h :: t => r <- clip_low t tl ;; Ok ((if h <? l then l else h) :: r)
               end
  end.
Fixpoint clip_high (n : nat) (x high : list A) : result (list A) :=
  match n with
  | O => Ok x
  | S n' => match x, high with
            | h :: t, u :: tu => r <- clip_high n' t tu ;; Ok ((if u <? h then u else h) :: r)
            | _, _ => Err IndexError
            end
  end.
Definition bounds_clip_naive (x : list A) (low high : option (list A)) : result (list A) :=
  match low with
  | None => Err TypeError
  | Some l =>
      x <- clip_low x l ;;
      match high with None => Ok x | Some h => clip_high (length l) x h end
  end.

(** __init__.py:5466-5470 [sort_nelder_mead_points_python]: pairs (f, x) in lexicographic order.
    Lists compare lexicographically in Python. *)
Fixpoint lex_lt (a b : list A) : bool :=
  match a, b with
  | _, [] => false
  | [], _ :: _ => true
  | x :: ta, y :: tb => if x =? y then lex_lt ta tb else x <? y
  end.
Definition pair_lt (p q : A * list A) : bool :=
  if fst p =? fst q then lex_lt (snd p) (snd q) else fst p <? fst q.
Fixpoint ins_pair (p : A * list A) (l : list (A * list A)) : list (A * list A) :=
  match l with [] => [p] | q :: t => if pair_lt q p then q :: ins_pair p t else p :: l end.
Definition sort_points (l : list (A * list A)) : list (A * list A) := fold_right ins_pair [] l.

(** __init__.py:5472-5604 [nelder_mead] without bounds or with both bounds given, no
    initial_simplex.  The simplex is kept as a list of (value, point). *)
Record nm_params : Type := { nm_rho : A; nm_chi : A; nm_psi : A }.
Definition nm_default : nm_params := {| nm_rho := n1; nm_chi := nQ 2; nm_psi := nQ (1#2) |}.
Definition nm_adaptive (N : nat) : result nm_params :=
  d <- pydiv (nQ 2) (nnat N) ;; e <- pydiv n1 (nQ 2 * nnat N) ;;
  Ok {| nm_rho := n1; nm_chi := n1 + d; nm_psi := nQ (3#4) - e |}.
Definition nm_initial (x0 : list A) (perturb zperturb : A) : list (list A) :=
  x0 :: map (fun k => let xk := nth k x0 n0 in
                      upd x0 k (if negb (xk =? n0) then (n1 + perturb) * xk else zperturb))
            (seq 0 (length x0)).
Definition lin2 (a b : A) (x y : list A) : list A :=
  map (fun '(u, v) => a * u + b * v) (combine x y).
Definition lin2m (a b : A) (x y : list A) : list A :=
  map (fun '(u, v) => a * u - b * v) (combine x y).
(** sum over the first N points times 1/N *)
Definition nm_xbar (N : nat) (sim : list (list A)) (one_N : A) : list A :=
  map (fun i => i * one_N)
      (fold_left (fun acc p => map (fun '(u, v) => u + v) (combine acc p)) (firstn N sim) (repeat n0 N)).
Definition nm_clip (low high : option (list A)) (x : list A) : result (list A) :=
  match low, high with None, None => Ok x | _, _ => bounds_clip_naive x low high end.
Definition nm_converged (sim : list (A * list A)) (xtol ftol : A) : bool :=
  match sim with
  | [] => true
  | (f0, s0) :: rest =>
      let e := fold_left (fun e '(_, p) =>
                 fold_left (fun e '(u, v) => let d := nabs (u - v) in if e <? d then d else e)
                           (combine s0 p) e) rest n0 in
      let d := fold_left (fun e '(f, _) => let d := nabs (f0 - f) in if e <? d then d else e) rest n0 in
      (e <=? xtol) && (d <=? ftol)
  end.
Definition replace_last {B} (l : list B) (v : B) : list B := removelast l ++ [v].
Definition nm_step (func : list A -> A) (P : nm_params) (low high : option (list A)) (N : nat) (one_N : A)
    (sim : list (A * list A)) : result (list (A * list A)) :=
  let rho := nm_rho P in let chi := nm_chi P in let psi := nm_psi P in
  ' (f_last, sim_last) <- last_of sim ;;
  ' (f_last2, _) <- last2_of sim ;;
  ' (f_best, _) <- idx sim 0 ;;
  let xbar := nm_xbar N (map snd sim) one_N in
  xr <- nm_clip low high (lin2m (n1 + rho) rho xbar sim_last) ;;
  let fxr := func xr in
  if fxr <? f_best then
    xe <- nm_clip low high (lin2m (rho * chi + n1) (rho * chi) xbar sim_last) ;;
    let fxe := func xe in
    if fxe <? fxr then Ok (sort_points (replace_last sim (fxe, xe)))
    else Ok (sort_points (replace_last sim (fxr, xr)))
  else if fxr <? f_last2 then Ok (sort_points (replace_last sim (fxr, xr)))
  else if fxr <? f_last then
    xc <- nm_clip low high (lin2m (rho * psi + n1) (rho * psi) xbar sim_last) ;;
    Ok (sort_points (replace_last sim (func xc, xc)))
  else
    xcc <- nm_clip low high (lin2 (n1 - psi) psi xbar sim_last) ;;
    Ok (sort_points (replace_last sim (func xcc, xcc))).
Fixpoint nm_loop (iters : nat) (done : nat) (func : list A -> A) (P : nm_params) (low high : option (list A)) (N : nat)
    (one_N xtol ftol : A) (sim : list (A * list A)) : result (list (A * list A) * nat) :=
  match iters with
  | O => Ok (sim, done)
  | S it => if nm_converged sim xtol ftol then Ok (sim, done)
            else sim <- nm_step func P low high N one_N sim ;;
                 nm_loop it (S done) func P low high N one_N xtol ftol sim
  end.
Definition nelder_mead (func : list A -> A) (x0 : list A) (xtol ftol : A) (maxiter : nat) (adaptive : bool)
    (perturb zperturb : A) (low high : option (list A)) : result (list A * A * nat) :=
  let N := length x0 in
  P <- (if adaptive then nm_adaptive N else Ok nm_default) ;;
  let sim := sort_points (map (fun p => (func p, p)) (nm_initial x0 perturb zperturb)) in
  one_N <- pydiv n1 (nnat N) ;;
  ' (sim, its) <- nm_loop maxiter 0 func P low high N one_N xtol ftol sim ;;
  ' (fb, x) <- idx sim 0 ;;
  let fval := match map fst sim with [] => fb | h :: t => list_min h t end in
  Ok (x, fval, its).

(** __init__.py:5607-5645 [fixed_point_to_residual], [residual_to_fixed_point] *)
Definition fixed_point_to_residual (f : list A -> list A) : list A -> list A := fun x => map nopp (f x).
Definition residual_to_fixed_point (f : list A -> list A) : list A -> list A := fun x => map nopp (f x).
End Generic.

(** __init__.py:921-924, 1014-1018, 1091-1093: the default tables [kronrod_points[10]],
    [kronrod_weights[10]], [legendre_weights[10]], decimal literals taken as exact rationals *)
Definition kronrod_points_10 : list Q := [
  -9956571630258076 # 10000000000000000; -9739065285171714 # 10000000000000000; -9301574913557086 # 10000000000000000;
  -8650633666889832 # 10000000000000000; -7808177265864168 # 10000000000000000; -679409568299023 # 1000000000000000;
  -562757134668605 # 1000000000000000; -4333953941292482 # 10000000000000000; -29439286270146015 # 100000000000000000;
  -14887433898163127 # 100000000000000000; 2220446049250313 # 10000000000000000000000000000000; 1488743389816316 # 10000000000000000;
  2943928627014607 # 10000000000000000; 43339539412924755 # 100000000000000000; 5627571346686051 # 10000000000000000;
  6794095682990244 # 10000000000000000; 7808177265864169 # 10000000000000000; 8650633666889844 # 10000000000000000;
  9301574913557082 # 10000000000000000; 9739065285171717 # 10000000000000000; 9956571630258081 # 10000000000000000]%Q.
Definition kronrod_weights_10 : list Q := [
  11694638867371172 # 1000000000000000000; 3255816230796458 # 100000000000000000; 5475589657435185 # 100000000000000000;
  7503967481091954 # 100000000000000000; 9312545458369915 # 100000000000000000; 10938715880229993 # 100000000000000000;
  12349197626206619 # 100000000000000000; 1347092173114735 # 10000000000000000; 1427759385770589 # 10000000000000000;
  14773910490133732 # 100000000000000000; 1494455540029151 # 10000000000000000; 14773910490133846 # 100000000000000000;
  14277593857705978 # 100000000000000000; 13470921731147467 # 100000000000000000; 1234919762620664 # 10000000000000000;
  10938715880229763 # 100000000000000000; 9312545458369788 # 100000000000000000; 750396748109198 # 10000000000000000;
  5475589657435227 # 100000000000000000; 3255816230796462 # 100000000000000000; 1169463886737192 # 100000000000000000]%Q.
Definition legendre_weights_10 : list Q := [
  6667134430868807 # 100000000000000000; 14945134915058036 # 100000000000000000; 219086362515982 # 1000000000000000;
  2692667193099965 # 10000000000000000; 295524224714753 # 1000000000000000; 295524224714753 # 1000000000000000;
  2692667193099965 # 10000000000000000; 219086362515982 # 1000000000000000; 14945134915058036 # 100000000000000000;
  6667134430868807 # 100000000000000000]%Q.

(** __init__.py:2147-2163 [caching_decorator]; keys compared by [eqb].  A call carries the point
    and whether an "info" list is passed; the wrapped function returns its value and, when asked,
    the content it writes to the list.  [None] in the info component means no list was passed. *)
Section Cache.
Context {X V I : Type} (eqb : X -> X -> bool) (f : X -> bool -> V * I).
Record cache_state : Type := mk_cache { cache : list (X * V); info_cache : list (X * I); evals : list X }.
Definition cache_empty : cache_state := mk_cache [] [] [].
Fixpoint lookup {W} (x : X) (l : list (X * W)) : option W :=
  match l with [] => None | (k, v) :: t => if eqb k x then Some v else lookup x t end.
Definition cached_call (st : cache_state) (call : X * bool) : cache_state * result (V * option I) :=
  let '(x, has_info) := call in
  match lookup x (cache st) with
  | Some v =>
      if has_info then
        match lookup x (info_cache st) with
        | Some i => (st, Ok (v, Some i))
        | None => (st, Err KeyError)
        end
      else (st, Ok (v, None))
  | None =>
      let '(v, i) := f x has_info in
      (mk_cache ((x, v) :: cache st)
                (if has_info then (x, i) :: info_cache st else info_cache st)
                (evals st ++ [x]),
       Ok (v, if has_info then Some i else None))
  end.
Fixpoint run_cache (st : cache_state) (calls : list (X * bool)) : cache_state * list (result (V * option I)) :=
  match calls with
  | [] => (st, [])
  | c :: t => let '(st, r) := cached_call st c in
              let '(st, rs) := run_cache st t in (st, r :: rs)
  end.
End Cache.

(** ** Functions of the real line *)
Local Open Scope R_scope.

(** __init__.py:1567-1581 [std] *)
Definition std (data : list R) : result R :=
  let tot := fold_left Rplus data 0 in
  mean <- pdiv tot (INR (length data)) ;;
  let tot := fold_left (fun t d => let v := d - mean in t + v * v) data 0 in
  q <- pdiv tot (INR (length data)) ;;
  psqrt q.
(** __init__.py:574-584 [detect_outlier_normal] *)
Definition detect_outlier_normal (data : list R) (cutoff : R) : result (list nat) :=
  std_val <- std data ;;
  mean_val <- mean data ;;
  let low := mean_val - std_val * cutoff in
  let high := mean_val + std_val * cutoff in
  Ok (map fst (filter (fun '(_, p) => Rltb p low || Rltb high p) (combine (seq 0 (length data)) data))).

(** __init__.py:673-678 [logspace] for a positive base *)
Definition logspace (start stop : R) (num : Z) (endpoint : bool) (base : R) : result (list R) :=
  y <- linspace start stop num endpoint ;; mapM (ppow base) y.

(** __init__.py:1634-1659 [fit_integral_over_T_linear_extrapolation] *)
Definition fit_integral_over_T_linear_extrapolation (T1 T2 : R) (cs : list R)
    (lc Tmin Tmax Tmin_value Tmax_value Tmin_slope Tmax_slope : R) : result R :=
  let flip := Rltb T2 T1 in
  let '(T1, T2) := if flip then (T2, T1) else (T1, T2) in
  tot <- (if Rltb T1 Tmin then
      let T2_low := nmin Tmin T2 in
      let x1 := Tmin_value - Tmin_slope * Tmin in
      l2 <- plog T2_low ;; l1 <- plog T1 ;;
      Ok (0 + (Tmin_slope * T2_low + x1 * l2 - (Tmin_slope * T1 + x1 * l1)))
    else Ok 0) ;;
  tot <- (if (Rleb Tmin T1 && Rleb T1 Tmax) || (Rleb Tmin T2 && Rleb T2 Tmax)
             || (Rleb T1 Tmin && Rleb Tmax T2) then
      let T1_mid := nmax Tmin T1 in
      let T2_mid := nmin Tmax T2 in
      h2 <- horner_log cs lc T2_mid ;; h1 <- horner_log cs lc T1_mid ;;
      Ok (tot + (h2 - h1))
    else Ok tot) ;;
  tot <- (if Rltb Tmax T2 then
      let T1_high := nmax Tmax T1 in
      let x1 := Tmax_value - Tmax_slope * Tmax in
      l2 <- plog T2 ;; l1 <- plog T1_high ;;
      Ok (tot + (Tmax_slope * T2 + x1 * l2 - (Tmax_slope * T1_high + x1 * l1)))
    else Ok tot) ;;
  Ok (if flip then - tot else tot).
(** __init__.py:1662-1684 [poly_fit_integral_over_T_value] *)
Definition poly_fit_integral_over_T_value (T : R) (cs : list R)
    (lc Tmin Tmax Tmin_value Tmax_value Tmin_slope Tmax_slope : R) : result R :=
  if Rltb T Tmin then
    let x1 := Tmin_value - Tmin_slope * Tmin in
    l <- plog T ;; Ok (Tmin_slope * T + x1 * l)
  else if Rleb Tmin T && Rleb T Tmax then
    h2 <- horner_log cs lc T ;; h1 <- horner_log cs lc Tmin ;;
    let tot1 := h2 - h1 in
    let x1 := Tmin_value - Tmin_slope * Tmin in
    l <- plog Tmin ;;
    Ok (Tmin_slope * Tmin + x1 * l + tot1)
  else
    let x1 := Tmin_value - Tmin_slope * Tmin in
    l <- plog Tmin ;;
    let tot := Tmin_slope * Tmin + x1 * l in
    h2 <- horner_log cs lc Tmax ;; h1 <- horner_log cs lc Tmin ;;
    let tot1 := h2 - h1 in
    let x2 := Tmax_value - Tmax * Tmax_slope in
    lT <- plog T ;; lm <- plog Tmax ;;
    let tot2 := - Tmax_slope * (Tmax - T) + x2 * lT - x2 * lm in
    Ok (tot1 + tot + tot2).

(** __init__.py:1316-1420: Chebyshev series of x or of ln(1 - T/Tc), with derivatives *)
Definition exp_cheb (x : R) (cs : list R) (offset scale : R) : result R :=
  y <- chebval x cs offset scale ;; Ok (trunc_exp y).
Definition exp_cheb_and_der (x : R) (cs ds : list R) (offset scale : R) : result (R * R) :=
  poly_val <- chebval x cs offset scale ;;
  poly_der <- chebval x ds offset scale ;;
  val <- pexp poly_val ;;
  Ok (val, poly_der * val).
Definition exp_cheb_and_der2 (x : R) (cs ds d2s : list R) (offset scale : R) : result (R * R * R) :=
  poly_val <- chebval x cs offset scale ;;
  poly_der <- chebval x ds offset scale ;;
  poly_der2 <- chebval x d2s offset scale ;;
  val <- pexp poly_val ;;
  Ok (val, poly_der * val, (poly_der * poly_der + poly_der2) * val).
Definition exp_cheb_and_der3 (x : R) (cs ds d2s d3s : list R) (offset scale : R) : result (R * R * R * R) :=
  poly_val <- chebval x cs offset scale ;;
  poly_der <- chebval x ds offset scale ;;
  poly_der2 <- chebval x d2s offset scale ;;
  poly_der3 <- chebval x d3s offset scale ;;
  val <- pexp poly_val ;;
  Ok (val, poly_der * val, (poly_der * poly_der + poly_der2) * val,
      (poly_der * poly_der * poly_der + 3 * poly_der * poly_der2 + poly_der3) * val).
Definition exp_cheb_ln_tau (T Tc : R) (cs : list R) (offset scale : R) : result R :=
  if Rleb Tc T then Ok 0 else
  q <- pdiv T Tc ;; lntau <- plog (1 - q) ;;
  y <- chebval lntau cs offset scale ;; Ok (trunc_exp y).
Definition exp_cheb_ln_tau_and_der (T Tc : R) (cs ds : list R) (offset scale : R) : result (R * R) :=
  if Rleb Tc T then Ok (0, 0) else
  q <- pdiv T Tc ;; let tau := 1 - q in lntau <- plog tau ;;
  poly_val <- chebval lntau cs offset scale ;;
  poly_der_val <- chebval lntau ds offset scale ;;
  val <- pexp poly_val ;;
  der <- pdiv (- val * poly_der_val) (Tc * tau) ;;
  Ok (val, der).
Definition exp_cheb_ln_tau_and_der2 (T Tc : R) (cs ds d2s : list R) (offset scale : R) : result (R * R * R) :=
  if Rleb Tc T then Ok (0, 0, 0) else
  q <- pdiv T Tc ;; let tau := 1 - q in lntau <- plog tau ;;
  poly_val <- chebval lntau cs offset scale ;;
  poly_val_der <- chebval lntau ds offset scale ;;
  poly_val_der2 <- chebval lntau d2s offset scale ;;
  val <- pexp poly_val ;;
  der <- pdiv (- val * poly_val_der) (Tc * tau) ;;
  der2 <- pdiv ((poly_val_der * poly_val_der - poly_val_der + poly_val_der2) * val) (Tc * Tc * (tau * tau)) ;;
  Ok (val, der, der2).
Definition chebval_ln_tau (T Tc : R) (cs : list R) (offset scale : R) : result R :=
  if Rleb Tc T then Ok 0 else
  q <- pdiv T Tc ;; lntau <- plog (1 - q) ;; chebval lntau cs offset scale.
Definition chebval_ln_tau_and_der (T Tc : R) (cs ds : list R) (offset scale : R) : result (R * R) :=
  if Rleb Tc T then Ok (0, 0) else
  q <- pdiv T Tc ;; lntau <- plog (1 - q) ;;
  val <- chebval lntau cs offset scale ;;
  poly_der <- chebval lntau ds offset scale ;;
  q2 <- pdiv (- T) Tc ;; der <- pdiv (- poly_der) (Tc * (q2 + 1)) ;;
  Ok (val, der).
Definition chebval_ln_tau_and_der2 (T Tc : R) (cs ds d2s : list R) (offset scale : R) : result (R * R * R) :=
  if Rleb Tc T then Ok (0, 0, 0) else
  q <- pdiv T Tc ;; lntau <- plog (1 - q) ;;
  val <- chebval lntau cs offset scale ;;
  poly_der <- chebval lntau ds offset scale ;;
  poly_der2 <- chebval lntau d2s offset scale ;;
  q2 <- pdiv (- T) Tc ;; der <- pdiv (- poly_der) (Tc * (q2 + 1)) ;;
  der2 <- pdiv (- poly_der + poly_der2) (Tc ^ 2 * (q - 1) ^ 2) ;;
  Ok (val, der, der2).
Definition chebval_ln_tau_and_der3 (T Tc : R) (cs ds d2s d3s : list R) (offset scale : R) : result (R * R * R * R) :=
  if Rleb Tc T then Ok (0, 0, 0, 0) else
  q <- pdiv T Tc ;; lntau <- plog (1 - q) ;;
  val <- chebval lntau cs offset scale ;;
  poly_der <- chebval lntau ds offset scale ;;
  poly_der2 <- chebval lntau d2s offset scale ;;
  poly_der3 <- chebval lntau d3s offset scale ;;
  q2 <- pdiv (- T) Tc ;; der <- pdiv (- poly_der) (Tc * (q2 + 1)) ;;
  der2 <- pdiv (- poly_der + poly_der2) (Tc ^ 2 * (q - 1) ^ 2) ;;
  der3 <- pdiv (2 * poly_der - 3 * poly_der2 + poly_der3) (Tc ^ 3 * (q - 1) ^ 3) ;;
  Ok (val, der, der2, der3).

(** __init__.py:2182-2193 (also 2217-2228, 2273-2292): the coordinate maps of
    [translate_bound_func], [translate_bound_jac], [translate_bound_f_jac]; one coordinate, then
    lists.  The division by 1 + trunc_exp(..) never fails. *)
Definition outof1 (low high x : R) : R := low + (high - low) / (1 + trunc_exp (- x)).
Definition into1 (low high x : R) : result R :=
  q <- pdiv (high - x) (x - low) ;; l <- trunc_log q ;; Ok (- l).
Fixpoint translate_outof (low high x : list R) : result (list R) :=
  match x with
  | [] => Ok []
  | v :: t => match low, high with
              | l :: tl, h :: th => r <- translate_outof tl th t ;; Ok (outof1 l h v :: r)
              | _, _ => Err IndexError
              end
  end.
Fixpoint translate_into (low high x : list R) : result (list R) :=
  match x with
  | [] => Ok []
  | v :: t => match low, high with
              | l :: tl, h :: th => y <- into1 l h v ;; r <- translate_into tl th t ;; Ok (y :: r)
              | _, _ => Err IndexError
              end
  end.
(** __init__.py:2174-2180 [new_f] *)
Definition bound_func {Y} (func : list R -> Y) (low high x : list R) : result Y :=
  y <- translate_outof low high x ;; Ok (func y).
(** __init__.py:2201-2213 [new_j] *)
Fixpoint scale_jac (low high x jac : list R) : result (list R) :=
  match x with
  | [] => Ok jac
  | v :: t => match low, high, jac with
              | l :: tl, h :: th, j :: tj =>
                  r <- scale_jac tl th t tj ;;
                  Ok ((h - l) * trunc_exp (- v) * j * / ((1 + trunc_exp (- v)) ^ 2) :: r)
              | _, _, _ => Err NotImplementedError
              end
  end.
Definition bound_jac (jac : list R -> list R) (low high x : list R) : result (list R) :=
  x_base <- translate_outof low high x ;; scale_jac low high x (jac x_base).
