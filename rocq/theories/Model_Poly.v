(** Polynomial evaluation and polynomial utilities.
    Source: /repo/fluids/numerics/polynomial_evaluation.py, polynomial_utils.py, special.py *)
From Coq Require Import List Bool QArith Reals ZArith.
From Verif Require Import Base.
Import ListNotations.

Section Generic.
Context {A : Type} `{NA : Num A}.
Local Open Scope num_scope.

(** polynomial_evaluation.py:67-121 [horner] *)
Definition horner (coeffs : list A) (x : A) : A :=
  fold_left (fun tot c => tot * x + c) coeffs n0.

(** polynomial_evaluation.py:124-131 [horner_and_der] *)
Definition horner_and_der (coeffs : list A) (x : A) : A * A :=
  fold_left (fun '(f, der) a => (x * f + a, x * der + f)) coeffs (n0, n0).

(** polynomial_evaluation.py:133-140 [horner_and_der2] *)
Definition horner_and_der2 (coeffs : list A) (x : A) : A * A * A :=
  let '(f, der, der2) :=
    fold_left (fun '(f, der, der2) a => (x * f + a, x * der + f, x * der2 + der))
              coeffs (n0, n0, n0) in
  (f, der, der2 + der2).

(** polynomial_evaluation.py:142-151 [horner_and_der3] *)
Definition horner_and_der3 (coeffs : list A) (x : A) : A * A * A * A :=
  let '(f, der, der2, der3) :=
    fold_left (fun '(f, der, der2, der3) a =>
                 (x * f + a, x * der + f, x * der2 + der, x * der3 + der2))
              coeffs (n0, n0, n0, n0) in
  (f, der, der2 + der2, der3 * nQ 6).

(** polynomial_evaluation.py:153-163 [horner_and_der4] *)
Definition horner_and_der4 (coeffs : list A) (x : A) : A * A * A * A * A :=
  let '(f, der, der2, der3, der4) :=
    fold_left (fun '(f, der, der2, der3, der4) a =>
                 (x * f + a, x * der + f, x * der2 + der, x * der3 + der2, x * der4 + der3))
              coeffs (n0, n0, n0, n0, n0) in
  (f, der, der2 + der2, der3 * nQ 6, der4 * nQ 24).

(** polynomial_evaluation.py:262-299 [horner_domain] *)
Definition horner_domain (x : A) (coeffs : list A) (xmin xmax : A) : result A :=
  range_inv <- pydiv n1 (xmax - xmin) ;;
  let off := (- xmax - xmin) * range_inv in
  let scl := nQ 2 * range_inv in
  let x := off + scl * x in
  Ok (fold_left (fun tot c => tot * x + c) coeffs n0).

(** polynomial_evaluation.py:301-306 [horner_stable] *)
Definition horner_stable (x : A) (coeffs : list A) (offset scale : A) : A :=
  let x := offset + scale * x in
  fold_left (fun tot c => tot * x + c) coeffs n0.

(** polynomial_evaluation.py:308-315 [horner_stable_and_der] *)
Definition horner_stable_and_der (x : A) (coeffs : list A) (offset scale : A) : A * A :=
  let x := offset + scale * x in
  let '(f, der) :=
    fold_left (fun '(f, der) a => (x * f + a, x * der + f)) coeffs (n0, n0) in
  (f, der * scale).

(** polynomial_evaluation.py:317-324 [horner_stable_and_der2] *)
Definition horner_stable_and_der2 (x : A) (coeffs : list A) (offset scale : A) : A * A * A :=
  let x := offset + scale * x in
  let '(f, der, der2) :=
    fold_left (fun '(f, der, der2) a => (x * f + a, x * der + f, x * der2 + der))
              coeffs (n0, n0, n0) in
  (f, der * scale, scale * scale * (der2 + der2)).

(** polynomial_evaluation.py:326-335 [horner_stable_and_der3] *)
Definition horner_stable_and_der3 (x : A) (coeffs : list A) (offset scale : A) : A * A * A * A :=
  let x := offset + scale * x in
  let '(f, der, der2, der3) :=
    fold_left (fun '(f, der, der2, der3) a =>
                 (x * f + a, x * der + f, x * der2 + der, x * der3 + der2))
              coeffs (n0, n0, n0, n0) in
  let scale2 := scale * scale in
  (f, der * scale, scale2 * (der2 + der2), scale2 * scale * der3 * nQ 6).

(** polynomial_evaluation.py:337-347 [horner_stable_and_der4] *)
Definition horner_stable_and_der4 (x : A) (coeffs : list A) (offset scale : A) : A * A * A * A * A :=
  let x := offset + scale * x in
  let '(f, der, der2, der3, der4) :=
    fold_left (fun '(f, der, der2, der3, der4) a =>
                 (x * f + a, x * der + f, x * der2 + der, x * der3 + der2, x * der4 + der3))
              coeffs (n0, n0, n0, n0, n0) in
  let scale2 := scale * scale in
  (f, der * scale, scale2 * (der2 + der2), scale2 * scale * der3 * nQ 6,
   scale2 * scale2 * der4 * nQ 24).

(** polynomial_utils.py:57-65 [poly_add] (lowest order first) *)
Definition poly_add (p1 p2 : list A) : list A :=
  let max_len := Nat.max (length p1) (length p2) in
  map (fun i =>
         let coeff1 := if Nat.ltb i (length p1) then nth i p1 n0 else n0 in
         let coeff2 := if Nat.ltb i (length p2) then nth i p2 n0 else n0 in
         coeff1 + coeff2) (seq 0 max_len).

(** [result[k] += v]; [k] is always in range in [poly_mul] *)
Definition addat (l : list A) (k : nat) (v : A) : list A := upd l k (nth k l n0 + v).

(** polynomial_utils.py:67-73 [poly_mul] (lowest order first) *)
Definition poly_mul (p1 p2 : list A) : list A :=
  fold_left (fun res i =>
    fold_left (fun res j => addat res (i + j)%nat (nth i p1 n0 * nth j p2 n0))
              (seq 0 (length p2)) res)
    (seq 0 (length p1)) (repeat n0 (length p1 + length p2 - 1)%nat).

(** polynomial_utils.py:92-95: drop leading zeros; an all-zero list is returned unchanged *)
Fixpoint first_nonzero (l : list A) : option (list A) :=
  match l with
  | [] => None
  | c :: t => if neq c n0 then first_nonzero t else Some (c :: t)
  end.
Definition strip_leading (l : list A) : list A :=
  match first_nonzero l with Some r => r | None => l end.

(** polynomial_utils.py:76-95 [stable_poly_to_unstable] *)
Definition stable_poly_to_unstable (coeffs : list A) (low high : A) : result (list A) :=
  match coeffs with
  | [] => Ok []
  | c0 :: rest =>
      if neq high low then Ok (strip_leading coeffs)
      else
        a <- pydiv (nQ 2) (high - low) ;;
        b <- pydiv (- (high + low)) (high - low) ;;
        let x_poly := [b; a] in
        let res := fold_left (fun r c => poly_add (poly_mul r x_poly) [c]) rest [c0] in
        Ok (strip_leading (rev res))
  end.

(** polynomial_utils.py:116-120 [polynomial_offset_scale] *)
Definition polynomial_offset_scale (xmin xmax : A) : result (A * A) :=
  range_inv <- pydiv n1 (xmax - xmin) ;;
  Ok ((- xmax - xmin) * range_inv, nQ 2 * range_inv).

(** polynomial_utils.py:123-134 [polyint]; the divisor [N-i] is a positive integer *)
Definition polyint (coeffs : list A) : list A :=
  let N := length coeffs in
  map (fun i => ndiv (nth i coeffs n0) (nnat (N - i))) (seq 0 N) ++ [n0].

(** polynomial_utils.py:98-105 [polyint_stable] *)
Definition polyint_stable (coeffs : list A) (xmin xmax : A) : result (list A) :=
  '(offset, scale) <- polynomial_offset_scale xmin xmax ;;
  scale <- pydiv n1 scale ;;
  let N := length coeffs in
  Ok (map (fun i => ndiv (scale * nth i coeffs n0) (nnat (N - i))) (seq 0 N) ++ [n0]).

(** polynomial_utils.py:136-146 [polyint_over_x] *)
Definition polyint_over_x (coeffs : list A) : list A * A :=
  let N := length coeffs in
  let Nm1 := (N - 1)%nat in
  match N with
  | O => ([], n0)
  | S _ => (map (fun i => ndiv (nth i coeffs n0) (nnat (Nm1 - i))) (seq 0 Nm1) ++ [n0],
            last coeffs n0)
  end.

(** polynomial_utils.py:160-179 [polyder] (lowest order first); one pass of the loop
    over the shared buffer [der] *)
Definition polyder_pass (c der : list A) (n : nat) : list A :=
  fold_left (fun d j => upd d (j - 1)%nat (nnat j * nth j c n0)) (rev (seq 1 n)) der.
Fixpoint polyder_loop (cnt : nat) (c der : list A) (n : nat) : list A :=
  match cnt with
  | O => c
  | S cnt' =>
      let n := (n - 1)%nat in
      let der := polyder_pass c der n in
      polyder_loop cnt' (firstn n der) der n
  end.
Definition polyder (c : list A) (m : nat) : list A :=
  match m with
  | O => c
  | S _ => if Nat.leb (length c) m then []
           else polyder_loop m c (repeat n0 (length c)) (length c)
  end.

(** polynomial_utils.py:181-205 [quadratic_from_points] *)
Definition quadratic_from_points (x0 x1 x2 f0 f1 f2 : A) : result (A * A * A) :=
  let v0 := - x2 in
  let v1 := f0 * (v0 + x1) in
  let v2 := f2 * (x0 - x1) in
  let v3 := f1 * (v0 + x0) in
  let v4 := x2 * x2 in
  let v5 := x0 * x0 in
  let v6 := x1 * x1 in
  v7 <- pydiv n1 (v4 * x0 + v5 * x1 + v6 * x2 - (v4 * x1 + v5 * x2 + v6 * x0)) ;;
  let v8 := - v4 in
  let a := v7 * (v1 + v2 - v3) in
  let b := - v7 * (f0 * (v6 + v8) - f1 * (v5 + v8) + f2 * (v5 - v6)) in
  let c := v7 * (v1 * x1 * x2 + v2 * x0 * x1 - v3 * x0 * x2) in
  Ok (a, b, c).

(** polynomial_utils.py:207-220 [quadratic_from_f_ders] *)
Definition quadratic_from_f_ders (x v d1 d2 : A) : A * A * A :=
  let a := d2 * nQ (1#2) in
  let b := d1 - d2 * x in
  let c := - d1 * x + d2 * x * x * nQ (1#2) + v in
  (a, b, c).

(** polynomial_utils.py:367-390 [poly_convert] (lowest order first; numpy
    [Polynomial.convert]).  The powers lists are [off**j], [scl**j] built by repeated
    multiplication; [fpow] is that product.  A length-0 input is [[0.0]*0] = []. *)
Fixpoint fpow (x : A) (n : nat) : A :=
  match n with O => n1 | S m => fpow x m * x end.
Fixpoint poly_convert_inner (Q : list A) (coeff_i off scl binom : A) (i k n : nat) : list A :=
  match n with
  | O => Q
  | S n' =>
      let term := coeff_i * binom * fpow off (i - k) * fpow scl k in
      poly_convert_inner (addat Q k term) coeff_i off scl
        (binom * ndiv (nnat (i - k)) (nnat k + n1)) i (S k) n'
  end.
Definition poly_convert (coeffs : list A) (Tmin Tmax : A) : list A :=
  let off := nQ (1#2) * (Tmin + Tmax) in
  let scl := nQ (1#2) * (Tmax - Tmin) in
  fold_left (fun Q i => poly_convert_inner Q (nth i coeffs n0) off scl n1 i 0 (S i))
            (seq 0 (length coeffs)) (repeat n0 (length coeffs)).
End Generic.

(** ** Functions using math.exp / math.log: on the reals. *)
Local Open Scope R_scope.

(** special.py:131: [math.exp] raises OverflowError above 709.782712893384. *)
Definition exp_overflow : R := Q2R (709782712893384 # 1000000000000).
Definition pexp (x : R) : result R := if Rltb exp_overflow x then Err OverflowError else Ok (exp x).
(** special.py:130-136 [trunc_exp] with its default [trunc] 1.7976931348622732e+308 *)
Definition trunc_exp_default : R := 17976931348622732 * 10 ^ 292.
Definition trunc_exp (x : R) : R :=
  match pexp x with Ok v => v | Err _ => trunc_exp_default end.
(** special.py:140-146 [trunc_log], default [trunc] -744.4400719213812 *)
Definition trunc_log_default : R := Q2R (-7444400719213812 # 10000000000000).
Definition trunc_log (x : R) : result R :=
  if Reqb x 0 then Ok trunc_log_default else plog x.

(** polynomial_evaluation.py:165-166 *)
Definition horner_backwards (x : R) (coeffs : list R) : R := horner coeffs x.
(** polynomial_evaluation.py:168-169 *)
Definition exp_horner_backwards (x : R) (coeffs : list R) : result R := pexp (horner coeffs x).
(** polynomial_evaluation.py:171-175 *)
Definition exp_horner_backwards_and_der (x : R) (coeffs : list R) : result (R * R) :=
  let '(poly_val, poly_der) := horner_and_der coeffs x in
  val <- pexp poly_val ;;
  let der := poly_der * val in
  Ok (val, der).
(** polynomial_evaluation.py:177-182 *)
Definition exp_horner_backwards_and_der2 (x : R) (coeffs : list R) : result (R * R * R) :=
  let '(poly_val, poly_der, poly_der2) := horner_and_der2 coeffs x in
  val <- pexp poly_val ;;
  let der := poly_der * val in
  let der2 := (poly_der * poly_der + poly_der2) * val in
  Ok (val, der, der2).
(** polynomial_evaluation.py:184-190 *)
Definition exp_horner_backwards_and_der3 (x : R) (coeffs : list R) : result (R * R * R * R) :=
  let '(poly_val, poly_der, poly_der2, poly_der3) := horner_and_der3 coeffs x in
  val <- pexp poly_val ;;
  let der := poly_der * val in
  let der2 := (poly_der * poly_der + poly_der2) * val in
  let der3 := (poly_der * poly_der * poly_der + 3 * poly_der * poly_der2 + poly_der3) * val in
  Ok (val, der, der2, der3).

(** polynomial_evaluation.py:193-197 *)
Definition horner_backwards_ln_tau (T Tc : R) (coeffs : list R) : result R :=
  if Rleb Tc T then Ok 0 else
  q <- pdiv T Tc ;;
  lntau <- plog (1 - q) ;;
  Ok (horner coeffs lntau).
(** polynomial_evaluation.py:199-205 *)
Definition horner_backwards_ln_tau_and_der (T Tc : R) (coeffs : list R) : result (R * R) :=
  if Rleb Tc T then Ok (0, 0) else
  q <- pdiv T Tc ;;
  lntau <- plog (1 - q) ;;
  let '(val, poly_der) := horner_and_der coeffs lntau in
  q2 <- pdiv (- T) Tc ;;
  der <- pdiv (- poly_der) (Tc * (q2 + 1)) ;;
  Ok (val, der).
(** polynomial_evaluation.py:207-215 *)
Definition horner_backwards_ln_tau_and_der2 (T Tc : R) (coeffs : list R) : result (R * R * R) :=
  if Rleb Tc T then Ok (0, 0, 0) else
  q <- pdiv T Tc ;;
  lntau <- plog (1 - q) ;;
  let '(val, poly_der, poly_der2) := horner_and_der2 coeffs lntau in
  q2 <- pdiv (- T) Tc ;;
  der <- pdiv (- poly_der) (Tc * (q2 + 1)) ;;
  der2 <- pdiv (- poly_der + poly_der2) (Tc ^ 2 * (q - 1) ^ 2) ;;
  Ok (val, der, der2).
(** polynomial_evaluation.py:217-226 *)
Definition horner_backwards_ln_tau_and_der3 (T Tc : R) (coeffs : list R) : result (R * R * R * R) :=
  if Rleb Tc T then Ok (0, 0, 0, 0) else
  q <- pdiv T Tc ;;
  lntau <- plog (1 - q) ;;
  let '(val, poly_der, poly_der2, poly_der3) := horner_and_der3 coeffs lntau in
  q2 <- pdiv (- T) Tc ;;
  der <- pdiv (- poly_der) (Tc * (q2 + 1)) ;;
  der2 <- pdiv (- poly_der + poly_der2) (Tc ^ 2 * (q - 1) ^ 2) ;;
  der3 <- pdiv (2 * poly_der - 3 * poly_der2 + poly_der3) (Tc ^ 3 * (q - 1) ^ 3) ;;
  Ok (val, der, der2, der3).

(** polynomial_evaluation.py:228-238 *)
Definition exp_horner_backwards_ln_tau (T Tc : R) (coeffs : list R) : result R :=
  if Rleb Tc T then Ok 0 else
  q <- pdiv T Tc ;;
  lntau <- plog (1 - q) ;;
  pexp (horner coeffs lntau).
(** polynomial_evaluation.py:240-247 *)
Definition exp_horner_backwards_ln_tau_and_der (T Tc : R) (coeffs : list R) : result (R * R) :=
  if Rleb Tc T then Ok (0, 0) else
  q <- pdiv T Tc ;;
  let tau := 1 - q in
  lntau <- plog tau ;;
  let '(poly_val, poly_der_val) := horner_and_der coeffs lntau in
  val <- pexp poly_val ;;
  der <- pdiv (- val * poly_der_val) (Tc * tau) ;;
  Ok (val, der).
(** polynomial_evaluation.py:249-260 *)
Definition exp_horner_backwards_ln_tau_and_der2 (T Tc : R) (coeffs : list R) : result (R * R * R) :=
  if Rleb Tc T then Ok (0, 0, 0) else
  q <- pdiv T Tc ;;
  let tau := 1 - q in
  lntau <- plog tau ;;
  let '(poly_val, poly_val_der, poly_val_der2) := horner_and_der2 coeffs lntau in
  val <- pexp poly_val ;;
  temp <- pdiv 1 (Tc * tau) ;;
  let der := - temp * val * poly_val_der in
  let der2 := (poly_val_der * poly_val_der - poly_val_der + poly_val_der2) * val * (temp * temp) in
  Ok (val, der, der2).

(** polynomial_evaluation.py:349-353 *)
Definition horner_stable_ln_tau (T Tc : R) (coeffs : list R) (offset scale : R) : result R :=
  if Rleb Tc T then Ok 0 else
  q <- pdiv T Tc ;;
  lntau <- plog (1 - q) ;;
  Ok (horner_stable lntau coeffs offset scale).
(** polynomial_evaluation.py:355-361 *)
Definition horner_stable_ln_tau_and_der (T Tc : R) (coeffs : list R) (offset scale : R) : result (R * R) :=
  if Rleb Tc T then Ok (0, 0) else
  q <- pdiv T Tc ;;
  lntau <- plog (1 - q) ;;
  let '(val, poly_der) := horner_stable_and_der lntau coeffs offset scale in
  q2 <- pdiv (- T) Tc ;;
  der <- pdiv (- poly_der) (Tc * (q2 + 1)) ;;
  Ok (val, der).
(** polynomial_evaluation.py:363-373 *)
Definition horner_stable_ln_tau_and_der2 (T Tc : R) (coeffs : list R) (offset scale : R) : result (R * R * R) :=
  if Rleb Tc T then Ok (0, 0, 0) else
  q <- pdiv T Tc ;;
  let tau := 1 - q in
  lntau <- plog tau ;;
  let '(val, poly_der, poly_der2) := horner_stable_and_der2 lntau coeffs offset scale in
  den <- pdiv 1 (Tc * tau) ;;
  let der := - poly_der * den in
  let der2 := (- poly_der + poly_der2) * den * den in
  Ok (val, der, der2).
(** polynomial_evaluation.py:375-386 *)
Definition horner_stable_ln_tau_and_der3 (T Tc : R) (coeffs : list R) (offset scale : R) : result (R * R * R * R) :=
  if Rleb Tc T then Ok (0, 0, 0, 0) else
  q <- pdiv T Tc ;;
  let tau := 1 - q in
  lntau <- plog tau ;;
  let '(val, poly_der, poly_der2, poly_der3) := horner_stable_and_der3 lntau coeffs offset scale in
  den <- pdiv 1 (Tc * tau) ;;
  let der := - poly_der * den in
  let der2 := (- poly_der + poly_der2) * den * den in
  let der3 := - (2 * poly_der - 3 * poly_der2 + poly_der3) * den * den * den in
  Ok (val, der, der2, der3).

(** polynomial_evaluation.py:388-389 *)
Definition exp_horner_stable (x : R) (coeffs : list R) (offset scale : R) : R :=
  trunc_exp (horner_stable x coeffs offset scale).
(** polynomial_evaluation.py:391-395 (note: [exp], not [trunc_exp]) *)
Definition exp_horner_stable_and_der (x : R) (coeffs : list R) (offset scale : R) : result (R * R) :=
  let '(poly_val, poly_der) := horner_stable_and_der x coeffs offset scale in
  val <- pexp poly_val ;;
  let der := poly_der * val in
  Ok (val, der).
(** polynomial_evaluation.py:397-402 *)
Definition exp_horner_stable_and_der2 (x : R) (coeffs : list R) (offset scale : R) : result (R * R * R) :=
  let '(poly_val, poly_der, poly_der2) := horner_stable_and_der2 x coeffs offset scale in
  val <- pexp poly_val ;;
  let der := poly_der * val in
  let der2 := (poly_der * poly_der + poly_der2) * val in
  Ok (val, der, der2).
(** polynomial_evaluation.py:404-410 *)
Definition exp_horner_stable_and_der3 (x : R) (coeffs : list R) (offset scale : R) : result (R * R * R * R) :=
  let '(poly_val, poly_der, poly_der2, poly_der3) := horner_stable_and_der3 x coeffs offset scale in
  val <- pexp poly_val ;;
  let der := poly_der * val in
  let der2 := (poly_der * poly_der + poly_der2) * val in
  let der3 := (poly_der * poly_der * poly_der + 3 * poly_der * poly_der2 + poly_der3) * val in
  Ok (val, der, der2, der3).
(** polynomial_evaluation.py:412-416 *)
Definition exp_horner_stable_ln_tau (T Tc : R) (coeffs : list R) (offset scale : R) : result R :=
  if Rleb Tc T then Ok 0 else
  q <- pdiv T Tc ;;
  lntau <- plog (1 - q) ;;
  Ok (trunc_exp (horner_stable lntau coeffs offset scale)).
(** polynomial_evaluation.py:418-425 *)
Definition exp_horner_stable_ln_tau_and_der (T Tc : R) (coeffs : list R) (offset scale : R) : result (R * R) :=
  if Rleb Tc T then Ok (0, 0) else
  q <- pdiv T Tc ;;
  let tau := 1 - q in
  lntau <- plog tau ;;
  let '(poly_val, poly_der_val) := horner_stable_and_der lntau coeffs offset scale in
  let val := trunc_exp poly_val in
  der <- pdiv (- val * poly_der_val) (Tc * tau) ;;
  Ok (val, der).
(** polynomial_evaluation.py:427-437 *)
Definition exp_horner_stable_ln_tau_and_der2 (T Tc : R) (coeffs : list R) (offset scale : R) : result (R * R * R) :=
  if Rleb Tc T then Ok (0, 0, 0) else
  q <- pdiv T Tc ;;
  let tau := 1 - q in
  lntau <- plog tau ;;
  let '(poly_val, poly_val_der, poly_val_der2) := horner_stable_and_der2 lntau coeffs offset scale in
  let val := trunc_exp poly_val in
  der <- pdiv (- val * poly_val_der) (Tc * tau) ;;
  der2 <- pdiv ((poly_val_der * poly_val_der - poly_val_der + poly_val_der2) * val) (Tc * Tc * (tau * tau)) ;;
  Ok (val, der, der2).
(** polynomial_evaluation.py:439-446 *)
Definition horner_log (coeffs : list R) (log_coeff x : R) : result R :=
  l <- plog x ;;
  Ok (horner coeffs x + log_coeff * l).
(** polynomial_evaluation.py:449-451 *)
Definition horner_stable_log (x : R) (coeffs : list R) (offset scale log_coeff : R) : result R :=
  l <- plog x ;;
  Ok (horner_stable x coeffs offset scale + log_coeff * l).

(** polynomial_utils.py:223-243 [exp_poly_ln_tau_coeffs2] *)
Definition exp_poly_ln_tau_coeffs2 (T Tc val der : R) : result (R * R) :=
  x0 <- pdiv 1 val ;;
  let x1 := T - Tc in
  q <- pdiv (- x1) Tc ;;
  l <- plog q ;;
  let x2 := der * l in
  let c0 := der * x0 * x1 in
  lv <- plog val ;;
  let c1 := x0 * (- T * x2 + Tc * x2 + val * lv) in
  Ok (c0, c1).
(** polynomial_utils.py:245-288 [exp_poly_ln_tau_coeffs3] *)
Definition exp_poly_ln_tau_coeffs3 (T Tc val der der2 : R) : result (R * R * R) :=
  let x0 := der * val in
  let x1 := Tc * x0 in
  let x2 := T * x0 in
  let x3 := der2 * val in
  let x4 := 2 * T * Tc in
  let x5 := x3 * x4 in
  let x6 := T * T in
  let x7 := der * der in
  let x8 := x6 * x7 in
  let x9 := Tc * Tc in
  let x10 := x7 * x9 in
  let x11 := x4 * x7 in
  let x12 := x3 * x6 in
  let x13 := x3 * x9 in
  let x14 := val * val in
  x15 <- pdiv 1 x14 ;;
  let x16 := x15 * (1/2) in
  q <- pdiv (- (T - Tc)) Tc ;;
  x17 <- plog q ;;
  let x18 := x1 * x17 in
  let x19 := x17 * x2 in
  let x20 := x17 * x17 in
  let a := - x16 * (x1 + x10 - x11 - x12 - x13 - x2 + x5 + x8) in
  let b := x15 * (- x1 + x10 * x17 - x11 * x17 - x12 * x17 - x13 * x17 + x17 * x5 + x17 * x8 + x18 - x19 + x2) in
  lv <- plog val ;;
  let c := x16 * (- x1 * x20 - x10 * x20 + x11 * x20 + x12 * x20 + x13 * x20 + 2 * x14 * lv
                  + 2 * x18 - 2 * x19 + x2 * x20 - x20 * x5 - x20 * x8) in
  Ok (a, b, c).

(** polynomial_utils.py:291-306 [deflate_cubic_real_roots] *)
Definition deflate_cubic_real_roots (b c d x0 : R) : result (R * R) :=
  let F := b + x0 in
  G <- pdiv (- d) x0 ;;
  let D := F * F - 4 * G in
  if Rltb D 0 then Ok (0, 0)
  else
    D <- psqrt D ;;
    Ok (1/2 * (D - F), 1/2 * (- F - D)).

(** special.py:37-43 [py_factorial] on Z *)
Definition py_factorial (n : Z) : result Z :=
  if (n <? 0)%Z then Err ValueError
  else Ok (fold_left (fun acc i => (acc * Z.of_nat i)%Z) (seq 2 (Z.to_nat n - 1)) 1%Z).
(** special.py:49-52 [py_comb] *)
Definition py_comb (n k : Z) : result Z :=
  if ((k <? 0) || (n <? k))%Z%bool then Ok 0%Z
  else
    fn <- py_factorial n ;; fk <- py_factorial k ;; fnk <- py_factorial (n - k) ;;
    Ok (fn / (fk * fnk))%Z.
(** special.py:80-88 [py_hypot] *)
Definition py_hypot (x y : R) : result R :=
  let x := Rabs x in let y := Rabs y in
  let '(x, y) := if Rltb x y then (y, x) else (x, y) in
  if Reqb x 0 then Ok 0
  else
    yx <- pdiv y x ;;
    s <- psqrt (1 + yx * yx) ;;
    Ok (x * s).
