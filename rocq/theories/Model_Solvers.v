(** One-dimensional root finders of /repo/fluids/numerics/__init__.py.  The user function is
    [f : A -> result A]: it may raise.  Python floats are numbers of the class [Num]; nan and
    inf do not exist there, so the isnan/isinf tests are always false and left out. *)
From Coq Require Import List Bool QArith Reals ZArith Arith.
From Verif Require Import Base Model_Poly Model_Numerics.
Import ListNotations.

Section Generic.
Context {A : Type} `{NA : Num A}.
Local Open Scope num_scope.

(** __init__.py:2641-2672 [bisect] *)
Fixpoint bisect_loop (n : nat) (f : A -> result A) (xtol rtol : A) (ytol : option A) (fa a dm : A) : result A :=
  match n with
  | O => Err UnconvergedError
  | S n' =>
      let dm := dm * nQ (1#2) in
      let xm := a + dm in
      fm <- f xm ;;
      let a := if n0 <=? fm * fa then xm else a in
      let abs_dm := nabs dm in
      if fm =? n0 then Ok xm
      else match ytol with
      | Some yt => if (abs_dm <? xtol + rtol * abs_dm) && (nabs fm <? yt) then Ok xm
                   else bisect_loop n' f xtol rtol ytol fa a dm
      | None => if abs_dm <? xtol + rtol * abs_dm then Ok xm
                else bisect_loop n' f xtol rtol ytol fa a dm
      end
  end.
Definition bisect (f : A -> result A) (a b xtol rtol : A) (maxiter : nat) (ytol : option A) : result A :=
  fa <- f a ;; fb <- f b ;;
  if n0 <? fa * fb then Err ValueError
  else if fa =? n0 then Ok a
  else if fb =? n0 then Ok b
  else bisect_loop maxiter f xtol rtol ytol fa a (b - a).

(** __init__.py:2716-2806 [brenth]; kwargs are part of [f].  [fa], [fb] are the optional values at the
    ends.  Python's [min(x, y)] is [nmin]. *)
Definition brenth_try (q : bool) (xpre fpre xcur fcur xblk fblk : A) : result A :=
  if xpre =? xblk then pydiv (- fcur * (xcur - xpre)) (fcur - fpre)
  else
    dpre <- pydiv (fpre - fcur) (xpre - xcur) ;;
    dblk <- pydiv (fblk - fcur) (xblk - xcur) ;;
    if q then pydiv (- fcur * (fblk * dblk - fpre * dpre)) (dblk * dpre * (fblk - fpre))
    else pydiv (- fcur * (fblk - fpre)) (fblk * dpre - fpre * dblk).
Fixpoint brenth_loop (n : nat) (f : A -> result A) (xtol rtol : A) (ytol : option A) (q : bool)
    (xpre fpre xcur fcur xblk fblk spre scur : A) : result A :=
  match n with
  | O => Err UnconvergedError
  | S n' =>
      let '(xblk, fblk, spre, scur) :=
        if fpre * fcur <? n0 then (xpre, fpre, xcur - xpre, xcur - xpre) else (xblk, fblk, spre, scur) in
      let '(xpre, fpre, xcur, fcur, xblk, fblk) :=
        if nabs fblk <? nabs fcur then (xcur, fcur, xblk, fblk, xcur, fcur)
        else (xpre, fpre, xcur, fcur, xblk, fblk) in
      let delta := nQ (1#2) * (xtol + rtol * nabs xcur) in
      let sbis := nQ (1#2) * (xblk - xcur) in
      if (match ytol with
          | Some yt => (fcur =? n0) || ((nabs sbis <? delta) && (nabs fcur <? yt))
          | None => (fcur =? n0) || (nabs sbis <? delta)
          end) then Ok xcur
      else
        ' (spre, scur) <-
          (if (delta <? nabs spre) && (nabs fcur <? nabs fpre) then
             stry <- brenth_try q xpre fpre xcur fcur xblk fblk ;;
             Ok (if nabs (stry + stry) <? nmin (nabs spre) (nQ 3 * nabs sbis - delta)
                 then (scur, stry) else (sbis, sbis))
           else Ok (sbis, sbis)) ;;
        let xnew := if delta <? nabs scur then xcur + scur
                    else if n0 <? sbis then xcur + delta else xcur - delta in
        fnew <- f xnew ;;
        brenth_loop n' f xtol rtol ytol q xcur fcur xnew fnew xblk fblk spre scur
  end.
Definition brenth (f : A -> result A) (xa xb xtol rtol : A) (maxiter : nat) (ytol : option A) (q : bool)
    (fa fb : option A) : result A :=
  fpre <- match fa with None => f xa | Some v => Ok v end ;;
  fcur <- match fb with None => f xb | Some v => Ok v end ;;
  if n0 <? fpre * fcur then Err NotBoundedError
  else if fpre =? n0 then Ok xa
  else if fcur =? n0 then Ok xb
  else brenth_loop maxiter f xtol rtol ytol q xa fpre xb fcur n0 n0 n0 n0.

(** truncation to the optional bounds, e.g. __init__.py:2899-2902 *)
Definition clip_opt (low high : option A) (p : A) : A :=
  let p := match low with Some l => if p <? l then l else p | None => p end in
  match high with Some h => if h <? p then h else p | None => p end.
Definition at_bound (p : A) (bound : option A) : bool := match bound with Some l => p =? l | None => false end.

(** __init__.py:2824-2984 [secant].  [s_factors] is the module constant [secant_bisection_factors]. *)
Record secant_opts : Type := mk_secant {
  s_low : option A; s_high : option A; s_damping : A; s_require_eval : bool; s_bisection : bool;
  s_same_tol : A; s_require_xtol : bool; s_guesses : bool; s_scale : A; s_factors : list A }.
(** lines 2861-2874 *)
Fixpoint secant_guess1 (f : A -> result A) (o : secant_opts) (x0 q0 : A) (factors : list A) (p1 q1 : A) : result (A * A) :=
  match factors with
  | [] => Ok (p1, q1)
  | g :: t =>
      let p1 := clip_opt (s_low o) (s_high o) (if negb (x0 =? n0) then x0 * g else g) in
      q1 <- f p1 ;; r <- pydiv q1 q0 ;;
      if nQ (1#10000000000) <? nabs (r - n1) then Ok (p1, q1) else secant_guess1 f o x0 q0 t p1 q1
  end.
(** lines 2952-2960; [p] keeps the last guess also when no guess changes the sign *)
Fixpoint secant_guess2 (f : A -> result A) (o : secant_opts) (x0 q0 : A) (factors : list A) (p : A) : result A :=
  match factors with
  | [] => Ok p
  | g :: t =>
      let p := x0 * g * s_scale o in
      if (match s_low o with Some l => p <? l | None => false end) || (match s_high o with Some h => h <? p | None => false end)
      then secant_guess2 f o x0 q0 t p
      else temp_q <- f p ;;
           if temp_q * q0 <? n0 then Ok p else secant_guess2 f o x0 q0 t p
  end.
(** lines 2910-2926 and 2936-2945: the two convergence tests *)
Definition secant_done (o : secant_opts) (xtol ytol : option A) (p0 p1 q1 : A) (first : bool) : bool :=
  let xt v := nabs (p0 - p1) <=? nabs (v * p0) in
  let inside := negb ((p0 =? p1) && (at_bound p0 (s_low o) || at_bound p0 (s_high o))) in
  match ytol, xtol with
  | Some y, Some x => if first then (nabs q1 <? y) && (negb (s_require_xtol o) || xt x) else xt x && (nabs q1 <? y)
  | None, Some x => xt x && inside
  | Some y, None => nabs q1 <? y
  | None, None => false
  end.
Definition set_ab (bis : bool) (a b : option A) (p q : A) : option A * option A :=
  if bis then (if q <? n0 then (Some p, b) else (a, Some p)) else (a, b).
Fixpoint secant_loop (n : nat) (f : A -> result A) (o : secant_opts) (x0 : A) (xtol ytol : option A)
    (p0 q0 p1 q1 : A) (a b : option A) (did : bool) : result A :=
  match n with
  | O => Err UnconvergedError
  | S n' =>
      p <- (if negb (q1 =? q0) then r <- pydiv (q1 * (p1 - p0)) (q1 - q0) ;; Ok (p1 - r * s_damping o) else Ok p1) ;;
      let p := clip_opt (s_low o) (s_high o) p in
      let p := match s_bisection o, a, b with
               | true, Some a, Some b =>
                   if negb ((a <? p) && (p <? b)) || ((b <? p) && (p <? a)) then nQ (1#2) * (a + b) else p
               | _, _, _ => p
               end in
      if secant_done o xtol ytol p0 p1 q1 true then Ok (if s_require_eval o then p1 else p)
      else
        let same := q1 =? q0 in
        let xtol := if same then option_map (fun v => v * s_same_tol o) xtol else xtol in
        let ytol := if same then option_map (fun v => v * s_same_tol o) ytol else ytol in
        if same && secant_done o xtol ytol p0 p1 q1 false then Ok p
        else
          ' (p, did) <-
            (if same then
               match s_bisection o, a, b with
               | true, Some a, Some b => Ok (nQ (1#2) * (a + b), did)
               | _, _, _ => if s_guesses o && negb did
                            then p <- secant_guess2 f o x0 q0 (s_factors o) p ;; Ok (p, true)
                            else Err SamePointError
               end
             else Ok (p, did)) ;;
          q <- f p ;;
          if q =? n0 then Ok p
          else let '(a, b) := set_ab (s_bisection o) a b p q in
               secant_loop n' f o x0 xtol ytol p1 q1 p q a b did
  end.
Definition secant_x1 (o : secant_opts) (x0 : A) : A :=
  clip_opt (s_low o) (s_high o)
    (if n0 <=? x0 then x0 * nQ (10001#10000) + nQ (1#10000) else x0 * nQ (10001#10000) - nQ (1#10000)).
Definition secant (f : A -> result A) (x0 : A) (maxiter : nat) (o : secant_opts) (xtol ytol x1 f0 f1 : option A) : result A :=
  let p0 := n1 * x0 in
  let p1 := match x1 with Some v => v | None => secant_x1 o x0 end in
  let near q := (match ytol with Some y => (nabs q <? y) && negb (s_require_xtol o) | None => false end) || (q =? n0) in
  q0 <- match f0 with None => f p0 | Some v => Ok v end ;;
  if near q0 then Ok p0
  else
    q1 <- match f1 with None => f p1 | Some v => Ok v end ;;
    ' (p1, q1) <- (if (q1 =? q0) && s_guesses o then secant_guess1 f o x0 q0 (s_factors o) p1 q1 else Ok (p1, q1)) ;;
    if near q1 then Ok p1
    else
      let '(a, b) := set_ab (s_bisection o) None None p1 q1 in
      let '(a, b) := set_ab (s_bisection o) a b p0 q0 in
      match maxiter with
      | O => Err UnboundLocalError   (* line 2984 names the loop variable i *)
      | S _ => secant_loop maxiter f o x0 xtol ytol p0 q0 p1 q1 a b false
      end.

(** __init__.py:3130-3351 [newton].  [func p] gives value, derivative and second derivative;
    [n_second] tells whether fprime2 is given (otherwise the third component is not used).
    [n_bis_factors], [n_ls_factors] are the module constants secant_bisection_factors and line_search_factors. *)
Record newton_opts : Type := mk_newton {
  n_low : option A; n_high : option A; n_damping : A; n_require_eval : bool; n_require_xtol : bool;
  n_damping_func : option (A -> A -> A -> A); n_bisection : bool; n_guesses : bool; n_max_hits : nat;
  n_second : bool; n_bis_factors : list A; n_ls_factors : list A }.
Definition oeq (x : A) (y : option A) : bool := match y with Some v => x =? v | None => false end.
(** lines 3197-3200 *)
Definition newton_stuck (p0 : A) (p1 p2 p3 : option A) : bool :=
  match p1, p2 with
  | Some _, Some _ => (oeq p0 p2 && oeq p0 p1) || oeq p0 p3
  | _, _ => false
  end.
(** lines 3227-3266: next usable guess and the iteration count; None if no guess works *)
Fixpoint newton_guess (func : A -> result (A * A * A)) (o : newton_opts) (x0 p0 : A) (p1 : option A)
    (reinit need_bracket : bool) (fval1 : option A) (factors : list A) (it : nat)
    : result (option (A * (A * A * A)) * nat) :=
  match factors with
  | [] => Ok (None, it)
  | g :: t =>
      let it := S it in
      guess <- (if reinit then Ok (if negb (x0 =? n0) then x0 * g else g)
                else match p1 with Some p1 => Ok (p1 + (p0 - p1) * g) | None => Err TypeError end) ;;
      let guess := clip_opt (n_low o) (n_high o) guess in
      if guess =? p0 then newton_guess func o x0 p0 p1 reinit need_bracket fval1 t it
      else
        ' (fval, fder, fcurv) <- func guess ;;
        skip <- (if need_bracket then match fval1 with Some v => Ok (n0 <=? fval * v) | None => Err TypeError end
                 else Ok false) ;;
        if skip || (fder =? n0) then newton_guess func o x0 p0 p1 reinit need_bracket fval1 t it
        else Ok (Some (guess, (fval, fder, fcurv)), it)
  end.
(** lines 3277-3293 *)
Definition newton_next (o : newton_opts) (p0 fval fder fcurv : A) : result A :=
  fder_inv <- pydiv n1 fder ;;
  let step := fval * fder_inv in
  match n_damping_func o with
  | Some df =>
      step <- (if n_second o then pydiv step (n1 - nQ (1#2) * step * fcurv * fder_inv) else Ok step) ;;
      Ok (df p0 (- step) (n_damping o))
  | None =>
      if negb (n_second o) then Ok (p0 - step * n_damping o)
      else
        let newton_step := step * n_damping o in
        halley_step <- pydiv newton_step (n1 - nQ (1#2) * step * fcurv * fder_inv) ;;
        if halley_step * newton_step <? n0 then Ok (p0 - newton_step) else Ok (p0 - halley_step)
  end.
(** lines 3307-3323: [inl r] leaves with r, [inr] goes on with the truncated point *)
Definition newton_bounds (o : newton_opts) (ytol : option A) (p0 fval p : A) (hl hh : nat)
    : result (A + A * nat * nat) :=
  let close := match ytol with Some y => nabs fval <? y | None => false end in
  let below := match n_low o with Some l => p <? l | None => false end in
  let hl := if below then S hl else hl in
  if below && at_bound p0 (n_low o) && Nat.ltb (n_max_hits o) hl then
    if close then Ok (inl (match n_low o with Some l => l | None => p end)) else Err UnconvergedError
  else
    let p := match n_low o with Some l => if p <? l then l else p | None => p end in
    let above := match n_high o with Some h => h <? p | None => false end in
    let hh := if above then S hh else hh in
    if above && at_bound p0 (n_high o) && Nat.ltb (n_max_hits o) hh then
      if close then Ok (inl (match n_high o with Some h => h | None => p end)) else Err UnconvergedError
    else Ok (inr (match n_high o with Some h => if h <? p then h else p | None => p end, hl, hh)).
(** lines 3327-3344 *)
Definition newton_done (o : newton_opts) (xtol ytol : option A) (p p0 fval : A) : bool :=
  match ytol, xtol with
  | Some y, Some x =>
      let ytol_met := nabs fval <=? y in
      let xtol_met := nabs (p - p0) <=? nabs (x * p) in
      (xtol_met && ytol_met) || (negb (n_require_xtol o) && ytol_met)
  | None, Some x => nabs (p - p0) <? nabs (x * p)
  | Some y, None => nabs fval <? y
  | None, None => false
  end.
Fixpoint newton_loop (fuel : nat) (func : A -> result (A * A * A)) (o : newton_opts) (x0 : A) (maxiter : nat)
    (xtol ytol : option A) (p0 : A) (p1 p2 p3 fval0 fval1 a b : option A) (hl hh it : nat) (did : bool) : result A :=
  match fuel with
  | O => Err Diverges
  | S fuel' =>
    if negb (Nat.ltb it maxiter) then (if Nat.eqb it 0 then Err UnboundLocalError else Err UnconvergedError)
    else
      ' (fval, fder, fcurv) <- func p0 ;;
      let bad_fder := fder =? n0 in
      let stuck := newton_stuck p0 p1 p2 p3 in
      if fval =? n0 then Ok p0
      else if (bad_fder || stuck) && (match ytol with Some y => nabs fval <? y | None => false end) then Ok p0
      else
        ' (p0, fval, fder, fcurv, it, did) <-
          (if bad_fder || stuck then
             if stuck && (negb (n_guesses o) || did) then Err UnconvergedError
             else if Nat.eqb it 0 && negb (n_guesses o) then Err UnconvergedError
             else
               let flat := oeq fval fval0 in
               let reinit := n_guesses o && ((Nat.eqb it 0 || stuck) || flat) in
               let need_bracket := reinit && flat && n_bisection o in
               ' (g, it) <- newton_guess func o x0 p0 p1 reinit need_bracket fval1
                              (if reinit then n_bis_factors o else n_ls_factors o) it ;;
               match g with
               | Some (guess, (fval, fder, fcurv)) => Ok (guess, fval, fder, fcurv, it, did || reinit)
               | None => Err UnconvergedError
               end
           else Ok (p0, fval, fder, fcurv, it, did)) ;;
        let '(a, b) := set_ab (n_bisection o) a b p0 fval in
        p <- newton_next o p0 fval fder fcurv ;;
        let p := match n_bisection o, a, b with
                 | true, Some a, Some b =>
                     if (negb ((a <? p) && (p <? b)) && negb ((b <? p) && (p <? a))) || Nat.ltb 40 it
                     then nQ (1#2) * (a + b) else p
                 | _, _, _ => p
                 end in
        r <- newton_bounds o ytol p0 fval p hl hh ;;
        match r with
        | inl v => Ok v
        | inr (p, hl, hh) =>
            let it := S it in
            if newton_done o xtol ytol p p0 fval then Ok (if n_require_eval o then p0 else p)
            else newton_loop fuel' func o x0 maxiter xtol ytol p (Some p0) p1 p2 (Some fval) fval0 a b hl hh it did
        end
  end.
Definition newton (func : A -> result (A * A * A)) (x0 : A) (maxiter : nat) (o : newton_opts) (xtol ytol : option A) : result A :=
  newton_loop (S maxiter) func o x0 maxiter xtol ytol (n1 * x0) None None None None None None None 0 0 0 false.

(** __init__.py:3353-3443 [halley] *)
Record halley_opts : Type := mk_halley {
  h_low : option A; h_high : option A; h_damping : A; h_require_eval : bool;
  h_damping_func : option (A -> A -> A -> A); h_bisection : bool; h_max_hits : nat; h_max_ratio : option A }.
(** lines 3402-3418; [abs(fval) < ytol] with ytol=None raises TypeError *)
Definition halley_bounds (o : halley_opts) (ytol : option A) (p0 fval p : A) (hl hh : nat)
    : result (A + A * nat * nat) :=
  let leave (v : A) : result (A + A * nat * nat) :=
    match ytol with
    | None => Err TypeError
    | Some y => if nabs fval <? y then Ok (inl v) else Err UnconvergedError
    end in
  let below := match h_low o with Some l => p <? l | None => false end in
  let hl := if below then S hl else hl in
  if below && at_bound p0 (h_low o) && Nat.ltb (h_max_hits o) hl then leave (match h_low o with Some l => l | None => p end)
  else
    let p := match h_low o with Some l => if p <? l then l else p | None => p end in
    let above := match h_high o with Some h => h <? p | None => false end in
    let hh := if above then S hh else hh in
    if above && at_bound p0 (h_high o) && Nat.ltb (h_max_hits o) hh then leave (match h_high o with Some h => h | None => p end)
    else Ok (inr (match h_high o with Some h => if h <? p then h else p | None => p end, hl, hh)).
Fixpoint halley_loop (n : nat) (func : A -> result (A * A * A)) (o : halley_opts) (xtol ytol : option A)
    (p0 : A) (a b : option A) (hl hh : nat) : result A :=
  match n with
  | O => Err UnconvergedError
  | S n' =>
      ' (fval, fder, fder2) <- func p0 ;;
      if fval =? n0 then Ok p0
      else if fder =? n0 then
        (if (match ytol with None => true | Some y => nabs fval <? y end) then Ok p0 else Err UnconvergedError)
      else
        let '(a, b) := set_ab (h_bisection o) a b p0 fval in
        fder_inv <- pydiv n1 fder ;;
        let step := fval * fder_inv in
        let den := n1 - nQ (1#2) * step * fder2 * fder_inv in
        ' (p, skipped) <-
          (match h_damping_func o with
           | Some df => step <- pydiv step den ;; Ok (df p0 (- step) (h_damping o), false)
           | None =>
               r <- pydiv step den ;;
               let step2 := r * h_damping o in
               big <- (match h_max_ratio o with
                       | Some m => q <- pydiv step2 step ;; Ok (m <? nabs (n1 - q))
                       | None => Ok false end) ;;
               Ok (if big then (p0 - step, true) else (p0 - step2, false))
           end) ;;
        let p := match h_bisection o, a, b with
                 | true, Some a, Some b =>
                     if negb ((a <? p) && (p <? b)) && negb ((b <? p) && (p <? a)) then nQ (1#2) * (a + b) else p
                 | _, _, _ => p
                 end in
        r <- halley_bounds o ytol p0 fval p hl hh ;;
        match r with
        | inl v => Ok v
        | inr (p, hl, hh) =>
            let done :=
              match ytol, xtol with
              | Some y, Some x => (nabs (p - p0) <? nabs (x * p)) && (nabs fval <? y)
              | None, Some x => nabs (p - p0) <? nabs (x * p)
              | Some y, None => nabs fval <? y
              | None, None => false
              end in
            if negb skipped && done then Ok (if h_require_eval o then p0 else p)
            else halley_loop n' func o xtol ytol p a b hl hh
        end
  end.
(** with maxiter = 0 the final message names the unbound p *)
Definition halley (func : A -> result (A * A * A)) (x0 : A) (maxiter : nat) (o : halley_opts) (xtol ytol : option A) : result A :=
  match maxiter with
  | O => Err UnboundLocalError
  | S _ => halley_loop maxiter func o xtol ytol (n1 * x0) None None 0 0
  end.

(** __init__.py:2808-2821 [secant_bisection_factors]: exact rationals instead of rounded floats;
    linspace(1, 3, 20)[i] is 1 + i*(2/19) *)
Definition secant_bisection_factors : list A :=
  flat_map (fun i =>
    let g := inject_Z (3 ^ (Z.of_nat i + 1)) in
    let near := (1 + inject_Z (Z.of_nat i) * (2#19))%Q in
    map nQ (filter (fun l => negb (Qeq_bool l 1)) [g; / g; - g; - / g; near; / near]%Q)) (seq 0 19).
(** __init__.py:2986-3000 [line_search_factors] *)
Definition line_search_factors : list A :=
  map nQ (map (fun i => 1 - (1#100) * inject_Z (2 ^ Z.of_nat i))%Q (seq 0 7) ++
          map (fun i => / inject_Z (10 ^ (Z.of_nat i + 1)))%Q (seq 0 10)).
End Generic.

(** ** Solvers that need square roots *)
Local Open Scope R_scope.
(** math.copysign(x, s); for s = 0 the sign of the Python zero is not modelled, + is taken *)
Definition copysign (x s : R) : R := if Rltb s 0 then - Rabs x else Rabs x.
(** __init__.py:2675-2713 [ridder] *)
Fixpoint ridder_loop (n : nat) (f : R -> result R) (xtol rtol tol a b fa fb : R) : result R :=
  match n with
  | O => Err UnconvergedError
  | S n' =>
      let dm := / 2 * (b - a) in
      let xm := a + dm in
      fm <- f xm ;;
      s <- psqrt (fm * fm - fa * fb) ;;
      i <- pdiv 1 s ;;
      let dn := copysign i (fb - fa) * fm * dm in
      let xn := xm - copysign (nmin (Rabs dm - / 2 * tol) (Rabs dn)) dn in
      fn <- f xn ;;
      let '(a, b, fa, fb) :=
        if Rltb (fn * fm) 0 then (xn, xm, fn, fm)
        else if Rltb (fn * fa) 0 then (a, xn, fa, fn)
        else (xn, b, fn, fb) in
      let tol := xtol + rtol * xn in
      if Reqb fn 0 || Rltb (Rabs (b - a)) tol then Ok xn
      else ridder_loop n' f xtol rtol tol a b fa fb
  end.
Definition ridder (f : R -> result R) (a b xtol rtol : R) (maxiter : nat) : result R :=
  let tol := xtol + rtol * nmin (Rabs b) (Rabs a) in
  fa <- f a ;; fb <- f b ;;
  if Rltb 0 (fa * fb) then Err ValueError
  else if Reqb fa 0 then Ok a
  else if Reqb fb 0 then Ok b
  else ridder_loop maxiter f xtol rtol tol a b fa fb.
