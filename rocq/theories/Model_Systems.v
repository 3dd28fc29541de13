(** Solvers for systems in /repo/fluids/numerics/__init__.py.  Vectors are lists; the user function is
    [f : list A -> result (list A)].  [nrm2] stands for numerics.norm2 (a square root), see [norm2] below. *)
From Coq Require Import List Bool QArith Reals ZArith Arith.
From Verif Require Import Base Model_Poly Model_Numerics Model_Arrays Model_Solvers.
Import ListNotations.

Section Generic.
Context {A : Type} `{NA : Num A} (nrm2 : list A -> A).
Local Open Scope num_scope.
Local Notation vect := (list A).

(** err = 0; for v in F: err += abs(v), e.g. __init__.py:3915-3917 *)
Definition sumabs (l : vect) : A := fold_left (fun e v => e + nabs v) l n0.
(** [xi + dxi*c for xi, dxi in zip(x, dx)]; [xi - fi*c ...] uses [step_sub] *)
Definition step_add (x dx : vect) (c : A) : vect := map (fun p => fst p + snd p * c) (combine x dx).
Definition step_sub (x fx : vect) (c : A) : vect := map (fun p => fst p - snd p * c) (combine x fx).
(** the tolerance test that ends the loops, e.g. 3933-3938 *)
Definition tol_break (xtol ytol : option A) (fcur : vect) (err : A) : bool :=
  match xtol, ytol with
  | Some xt, Some yt => (nrm2 fcur <? xt) && (err <? yt)
  | Some xt, None => nrm2 fcur <? xt
  | None, Some yt => err <? yt
  | None, None => false
  end.
(** the final test, e.g. 3945-3952 *)
Definition tol_final (xtol ytol : option A) (fcur : vect) : bool :=
  negb (match xtol with Some xt => xt <? nrm2 fcur | None => false end) &&
  negb (match ytol with Some yt => yt <? sumabs fcur | None => false end).
Definition tol_start (xtol ytol : option A) (err : A) : bool :=
  match xtol, ytol with None, Some yt => err <? yt | _, _ => false end.

(** __init__.py:3912-3953 [fixed_point] (check_numbers: no nan or inf here); the count 0.0 is 0 *)
Fixpoint fp_loop (n : nat) (f : vect -> result vect) (xtol ytol : option A) (damping : A) (progress : bool)
    (x fcur : vect) (err0 : A) (it : nat) : result (vect * vect * nat) :=
  match n with
  | O => Ok (x, fcur, it)
  | S n' =>
      fcur <- f x ;;
      let x := step_sub x fcur damping in
      let err1 := sumabs fcur in
      let it := S it in
      if tol_break xtol ytol fcur err1 then Ok (x, fcur, it)
      else if (err0 <=? err1) && progress then Err ValueError
      else fp_loop n' f xtol ytol damping progress x fcur err1 it
  end.
Definition fixed_point (f : vect -> result vect) (x0 : vect) (xtol ytol : option A) (maxiter : nat) (damping : A) (progress : bool)
    : result (vect * nat) :=
  fcur <- f x0 ;;
  let err0 := sumabs fcur in
  if tol_start xtol ytol err0 then Ok (x0, 0%nat)
  else
    ' (x, fcur, it) <- fp_loop (maxiter - 1) f xtol ytol damping progress (step_sub x0 fcur n1) fcur err0 1 ;;
    if tol_final xtol ytol fcur then Ok (x, it) else Err UnconvergedError.

(** __init__.py:3955-3967 [aitken_delta_squared_accelerate]; IndexError if x1 or x2 is shorter *)
Definition aitken1 (x x1 x2 max_ratio : A) : result A :=
  let dx1 := x2 - x1 in
  let dx := x1 - x in
  let den := dx1 - dx in
  if den =? n0 then Ok n0
  else change <- pydiv (- dx1 * dx1) den ;;
       if (change =? n0) || (x =? n0) then Ok n0
       else r <- pydiv change x ;; Ok (if nabs r <? max_ratio then change else n0).
Definition aitken (x x1 x2 : vect) (max_ratio : A) : result vect :=
  mapM (fun i => a <- idx x i ;; b <- idx x1 i ;; c <- idx x2 i ;; aitken1 a b c max_ratio) (seq 0 (length x)).
(** __init__.py:4019-4037 [dem] *)
Definition vsum (l : vect) : A := fold_left nadd l n0.
Definition vsubi (x y : vect) : result vect := mapM (fun i => a <- idx x i ;; b <- idx y i ;; Ok (a - b)) (seq 0 (length x)).
Definition vdot (x y : vect) : A := vsum (map (fun p => fst p * snd p) (combine x y)).
Definition dem (x x1 x2 : vect) : result vect :=
  dx <- vsubi x x1 ;;
  dx1 <- mapM (fun i => a <- idx x1 i ;; b <- idx x2 i ;; Ok (a - b)) (seq 0 (length x)) ;;
  let dd := vdot dx dx in
  if dd =? n0 then Ok (repeat n0 (length x))
  else
    lbda <- pydiv (vdot dx1 dx) dd ;;
    let den := n1 - lbda in
    if den =? n0 then Ok (repeat n0 (length x))
    else r <- pydiv n1 den ;; Ok (map (fun v => v * nabs r) dx).
(** __init__.py:4039-4069 [gdem] *)
Definition gdem (x x1 x2 x3 : vect) (max_ratio : A) : result vect :=
  dx2 <- vsubi x x3 ;; dx1 <- vsubi x x2 ;; dx <- vsubi x x1 ;;
  let b01 := vdot dx dx1 in
  let b02 := vdot dx dx2 in
  let b12 := vdot dx1 dx2 in
  let b11 := vdot dx1 dx1 in
  let b22 := vdot dx2 dx2 in
  let to_den := b11 * b22 - b12 * b12 in
  if nabs to_den =? n0 then dem x x1 x2
  else
    den_inv <- pydiv n1 to_den ;;
    let mu1 := den_inv * (b02 * b12 - b01 * b22) in
    let mu2 := den_inv * (b01 * b12 - b02 * b11) in
    let to_den2 := n1 + mu1 + mu2 in
    if to_den2 =? n0 then dem x x1 x2
    else
      factor <- pydiv n1 to_den2 ;;
      mapM (fun p => let '(xi, (d, d1)) := p in
              let change := factor * (d - mu2 * d1) in
              if xi =? n0 then Ok d
              else r <- pydiv change xi ;; Ok (if nabs r <? max_ratio then change else d))
           (combine x (combine dx dx1)).

(** __init__.py:3969-4017 [fixed_point_aitken] and 4071-4120 [fixed_point_gdem], which differ in the accelerator only.
    [hist] is all_guesses with the newest first; [acc hist] the accelerated step (IndexError when hist is too short). *)
Fixpoint acc_loop (n : nat) (f : vect -> result vect) (acc : list vect -> result vect) (freq : nat) (acc_damping : A)
    (xtol ytol : option A) (damping : A) (progress : bool)
    (hist : list vect) (x fcur : vect) (err0 : A) (it : nat) : result (vect * vect * nat) :=
  match n with
  | O => Ok (x, fcur, it)
  | S n' =>
      let hist := x :: hist in
      fcur <- f x ;;
      x <- (if Nat.eqb freq 0 then Err ZeroDivisionError
            else if Nat.eqb (it mod freq) 0 then dx <- acc hist ;; Ok (step_add x dx acc_damping)
            else Ok (step_sub x fcur damping)) ;;
      let err1 := sumabs fcur in
      let it := S it in
      if tol_break xtol ytol fcur err1 then Ok (x, fcur, it)
      else if (err0 <=? err1) && progress then Err ValueError
      else acc_loop n' f acc freq acc_damping xtol ytol damping progress hist x fcur err1 it
  end.
Definition fixed_point_acc (acc : list vect -> result vect) (f : vect -> result vect) (x0 : vect) (xtol ytol : option A)
    (maxiter : nat) (damping : A) (progress : bool) (freq : nat) (acc_damping : A) : result (vect * nat) :=
  fcur <- f x0 ;;
  let err0 := sumabs fcur in
  if tol_start xtol ytol err0 then Ok (x0, 0%nat)
  else
    ' (x, fcur, it) <- acc_loop (maxiter - 1) f acc freq acc_damping xtol ytol damping progress [x0] (step_sub x0 fcur n1) fcur err0 1 ;;
    if tol_final xtol ytol fcur then Ok (x, it) else Err UnconvergedError.
Definition fixed_point_aitken (max_ratio : A) :=
  fixed_point_acc (fun h => x <- idx h 0 ;; x1 <- idx h 1 ;; x2 <- idx h 2 ;; aitken x x1 x2 max_ratio).
Definition fixed_point_gdem (max_ratio : A) :=
  fixed_point_acc (fun h => x <- idx h 0 ;; x1 <- idx h 1 ;; x2 <- idx h 2 ;; x3 <- idx h 3 ;; gdem x x1 x2 x3 max_ratio).

(** __init__.py:3574-3730 [newton_system] with a separate [jac] (jac is not True), check_numbers=False and
    jac_error_allowed=False; [ns_armijo] is Some c1 for Armijo=True.  [solve] is solve_func. *)
Record ns_opts : Type := mk_ns {
  ns_damping : A; ns_damping_func : option (vect -> vect -> A -> vect); ns_factors : list A;
  ns_line_search : bool; ns_progress : bool; ns_armijo : option A }.
Definition sumsq (l : vect) : A := fold_left (fun e v => e + v * v) l n0.
(** lines 3652-3672 *)
Definition armijo_ok (c1 factor : A) (j : list vect) (fcur fnew : vect) : bool :=
  let N := length fcur in
  let temp i := sum_to (fun jidx => nth jidx fcur n0 * mat_at j jidx i) N in
  let derphi0 := sum_to (fun i => nQ 4 * temp i * temp i) N in
  sumsq fnew <=? c1 * factor * derphi0 + sumsq fcur.
(** lines 3615-3681: the last trial point, the last function value obtained (possibly of an earlier point) and
    whether the loop was left by break *)
Fixpoint ns_search (f : vect -> result vect) (o : ns_opts) (j : list vect) (x dx fcur : vect) (err0 : A)
    (factors : list A) (xnew : vect) (fn : option (vect * A)) : vect * option (vect * A) * bool :=
  match factors with
  | [] => (xnew, fn, false)
  | factor :: t =>
      let mult := factor * ns_damping o in
      let xnew := match ns_damping_func o with None => step_add x dx mult | Some df => df x dx (ns_damping o * factor) end in
      match f xnew with
      | Err _ => ns_search f o j x dx fcur err0 t xnew fn
      | Ok fnew =>
          let err_new := sumabs fnew in
          if (err_new <? err0) && (match ns_armijo o with Some c1 => armijo_ok c1 factor j fcur fnew | None => true end)
          then (xnew, Some (fnew, err_new), true)
          else ns_search f o j x dx fcur err0 t xnew (Some (fnew, err_new))
      end
  end.
Fixpoint ns_loop (n : nat) (f : vect -> result vect) (jac : vect -> result (list vect)) (solve : list vect -> vect -> result vect)
    (o : ns_opts) (xtol ytol : option A) (x fcur : vect) (err0 : A) (j : list vect) (jac_updated : bool) (jnew : option (list vect))
    (fn : option (vect * A)) (it : nat) : result (vect * vect * nat) :=
  match n with
  | O => Ok (x, fcur, it)
  | S n' =>
      dx <- solve j (map nopp fcur) ;;
      let '(xnew, fn, brk) := ns_search f o j x dx fcur err0 (ns_factors o) x fn in
      match fn with
      | None => Err UnboundLocalError
      | Some (fnew, err_new) =>
          let jac_updated := if brk then false else jac_updated in
          if ns_line_search o && (err0 <? err_new) && ns_progress o then Err ValueError
          else
            ' (jac_updated, jnew) <-
              (if err0 <=? err_new then
                 if ns_progress o then Err ValueError else j1 <- jac xnew ;; Ok (true, Some j1)
               else Ok (jac_updated, jnew)) ;;
            let it := S it in
            if tol_break xtol ytol fnew err_new then Ok (xnew, fnew, it)
            else
              jnew <- (if negb jac_updated then jac xnew else match jnew with Some v => Ok v | None => Err UnboundLocalError end) ;;
              ns_loop n' f jac solve o xtol ytol xnew fnew err_new jnew false (Some jnew) fn it
      end
  end.
Definition newton_system (f : vect -> result vect) (x0 : vect) (jac : vect -> result (list vect)) (solve : list vect -> vect -> result vect)
    (o : ns_opts) (xtol ytol : option A) (maxiter : nat) : result (vect * nat) :=
  fcur <- f x0 ;;
  let err0 := sumabs fcur in
  if tol_start xtol ytol err0 then Ok (x0, 0%nat)
  else
    j <- jac x0 ;;
    ' (x, fcur, it) <- ns_loop (maxiter - 1) f jac solve o xtol ytol x0 fcur err0 j true None None 1 ;;
    if tol_final xtol ytol fcur then Ok (x, it) else Err UnconvergedError.

(** __init__.py:3732-3777 [newton_minimize] with separate jac and hess (the value of f itself is never used) *)
Fixpoint nm_loop (n : nat) (jac : vect -> result vect) (hess : vect -> result (list vect)) (damping_func : option (vect -> vect -> A -> vect))
    (damping : A) (xtol ytol : option A) (x j : vect) (h : list vect) (it : nat) : result (vect * vect * nat) :=
  match n with
  | O => Ok (x, j, it)
  | S n' =>
      dx <- solve h (map nopp j) ;;
      let x := match damping_func with None => step_add x dx damping | Some df => df x dx damping end in
      j <- jac x ;; h <- hess x ;;
      let it := S it in
      if match xtol with Some t => nrm2 j <? t | None => false end then Ok (x, j, it)
      else if match ytol with Some t => sumabs j <? t | None => false end then Ok (x, j, it)
      else nm_loop n' jac hess damping_func damping xtol ytol x j h it
  end.
Definition newton_minimize (x0 : vect) (jac : vect -> result vect) (hess : vect -> result (list vect)) (xtol ytol : option A)
    (maxiter : nat) (damping : A) (damping_func : option (vect -> vect -> A -> vect)) : result (vect * nat) :=
  j <- jac x0 ;; h <- hess x0 ;;
  ' (x, j, it) <- nm_loop maxiter jac hess damping_func damping xtol ytol x0 j h 0 ;;
  if tol_final xtol ytol j then Ok (x, it) else Err UnconvergedError.

(** __init__.py:3779-3798 [homotopy_function] *)
Definition homotopy_function (x : vect) (lambd : A) (F0 : vect) (objf : vect -> result vect) : result vect :=
  Fx <- objf x ;;
  let const := n1 - lambd in
  mapM (fun i => a <- idx Fx i ;; b <- idx F0 i ;; Ok (a - const * b)) (seq 0 (length F0)).

(** __init__.py:3861-3910 [broyden2] with separate fun and jac, or skip_J ([jac] = None); the update of J is
    [broyden_update] *)
Definition broyden_update (J : list vect) (s z : vect) : result (list vect) :=
  u <- matrix_vector_dot J z ;;
  let d := map nopp s in
  dmu <- vsubi d u ;;
  dmu_d <- dot_product dmu d ;;
  du <- dot_product d u ;;
  den_inv <- pydiv n1 du ;;
  let factor := den_inv * dmu_d in
  Ok (map (map (fun j => j + factor * j)) J).
Fixpoint broyden_loop (n : nat) (f : vect -> result vect) (xtol : A) (J : list vect) (xs fcur : vect) (it : nat) : result (vect * nat) :=
  match n with
  | O => Ok (xs, it)
  | S n' =>
      if negb (xtol <? sumabs fcur) then Ok (xs, it)
      else
        s <- matrix_vector_dot J fcur ;;
        xs <- vsubi xs s ;;
        fnew <- f xs ;;
        z <- vsubi fnew fcur ;;
        J <- broyden_update J s z ;;
        broyden_loop n' f xtol J xs fnew (S it)
  end.
Definition broyden2 (xs : vect) (f : vect -> result vect) (jac : option (vect -> result (list vect))) (xtol : A) (maxiter : nat)
    : result (vect * nat) :=
  fcur <- f xs ;;
  J <- match jac with None => eye (Z.of_nat (length fcur)) | Some jf => j <- jf xs ;; inv j end ;;
  broyden_loop maxiter f xtol J xs fcur 0.
End Generic.

(** arrays.py:1225-1229 [norm2] *)
Definition norm2 (arr : list R) : R := sqrt (fold_left (fun tot i => tot + i * i)%R arr 0%R).
