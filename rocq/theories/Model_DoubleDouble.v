(** Model of the double-double arithmetic of numerics/doubledouble.py.
    A Python float is a real number of the binary64 format (53 bits, least exponent -1074); every arithmetic operation
    is the exact one followed by rounding to nearest, ties to even.  Simplification: the exponent range is not bounded
    above, so overflow, infinities and nan do not occur, and the two zeros are one. *)
From Coq Require Import Reals ZArith Bool Lra.
From Flocq Require Import Core.
From Verif Require Import Base.
Open Scope R_scope.

(** The binary64 numbers and rounding to nearest even. *)
Definition F64 (x : R) : Prop := generic_format radix2 (FLT_exp (-1074) 53) x.
Definition rnd (x : R) : R := round radix2 (FLT_exp (-1074) 53) ZnearestE x.
Definition fadd (x y : R) : R := rnd (x + y).
Definition fsub (x y : R) : R := rnd (x - y).
Definition fmul (x y : R) : R := rnd (x * y).
Definition fdiv (x y : R) : result R := q <- pdiv x y ;; Ok (rnd q).
Definition fsqrt (x : R) : result R := q <- psqrt x ;; Ok (rnd q).
(** [134217729.0], that is 2^27 + 1 *)
Definition splitter : R := 134217729.

(** numerics/doubledouble.py:57-85: [eq_dd], [neq_dd], [lt_dd], [le_dd], [gt_dd], [ge_dd] *)
Definition eq_dd (r0 e0 r1 e1 : R) : bool := Reqb r0 r1 && Reqb e0 e1.
Definition neq_dd (r0 e0 r1 e1 : R) : bool := negb (Reqb r0 r1) || negb (Reqb e0 e1).
Definition lt_dd (r0 e0 r1 e1 : R) : bool := Rltb r0 r1 || (Reqb r0 r1 && Rltb e0 e1).
Definition le_dd (r0 e0 r1 e1 : R) : bool := Rltb r0 r1 || (Reqb r0 r1 && Rleb e0 e1).
Definition gt_dd (r0 e0 r1 e1 : R) : bool := Rltb r1 r0 || (Reqb r0 r1 && Rltb e1 e0).
Definition ge_dd (r0 e0 r1 e1 : R) : bool := Rltb r1 r0 || (Reqb r0 r1 && Rleb e1 e0).

(** numerics/doubledouble.py:87-97 [add_dd] *)
Definition add_dd (x0 y0 x1 y1 : R) : R * R :=
  let r := fadd x0 x1 in
  let t := fsub r x0 in
  let e := fadd (fsub x0 (fsub r t)) (fsub x1 t) in
  let e := fadd e (fadd y0 y1) in
  let r2 := fadd r e in
  let e := fsub e (fsub r2 r) in
  (r2, e).

(** numerics/doubledouble.py:99-111 [mul_noerrors_dd] *)
Definition mul_noerrors_dd (x0 x1 : R) : R * R :=
  let u := fmul x0 splitter in
  let v := fmul x1 splitter in
  let s := fsub u (fsub u x0) in
  let t := fsub v (fsub v x1) in
  let f := fsub x0 s in
  let g := fsub x1 t in
  let r := fmul x0 x1 in
  let e := fadd (fadd (fadd (fsub (fmul s t) r) (fmul s g)) (fmul f t)) (fmul f g) in
  (r, e).

(** numerics/doubledouble.py:113-125 [mul_dd] *)
Definition mul_dd (x0 y0 x1 y1 : R) : R * R :=
  let u := fmul x0 splitter in
  let v := fmul x1 splitter in
  let s := fsub u (fsub u x0) in
  let t := fsub v (fsub v x1) in
  let f := fsub x0 s in
  let g := fsub x1 t in
  let r := fmul x0 x1 in
  let e := fadd (fadd (fadd (fsub (fmul s t) r) (fmul s g)) (fmul f t)) (fmul f g) in
  let e := fadd e (fadd (fmul x0 y1) (fmul y0 x1)) in
  let r0 := fadd r e in
  let e := fsub e (fsub r0 r) in
  (r0, e).

(** numerics/doubledouble.py:127-141 [div_dd] *)
Definition div_dd (x0 y0 x1 y1 : R) : result (R * R) :=
  r <- fdiv x0 x1 ;;
  let u := fmul r splitter in
  let v := fmul x1 splitter in
  let s2 := fsub u (fsub u r) in
  let t := fsub v (fsub v x1) in
  let f := fsub r s2 in
  let g := fsub x1 t in
  let s := fmul r x1 in
  let f := fadd (fadd (fadd (fsub (fmul s2 t) s) (fmul s2 g)) (fmul f t)) (fmul f g) in
  e <- fdiv (fsub (fadd (fsub (fsub x0 s) f) y0) (fmul r y1)) x1 ;;
  let r0 := fadd r e in
  let e := fsub e (fsub r0 r) in
  Ok (r0, e).

(** numerics/doubledouble.py:143-155 [sqrt_dd] *)
Definition sqrt_dd (x y : R) : result (R * R) :=
  if Reqb x 0 then Ok (0, 0)
  else
    r <- fsqrt x ;;
    let u := fmul r splitter in
    let s2 := fsub u (fsub u r) in
    let f2 := fsub r s2 in
    let s := fmul r r in
    let f := fadd (fadd (fsub (fmul s2 s2) s) (fmul (fmul 2 s2) f2)) (fmul f2 f2) in
    e <- fdiv (fmul (fadd (fsub (fsub x s) f) y) (1 / 2)) r ;;
    let r0 := fadd r e in
    let e := fsub e (fsub r0 r) in
    Ok (r0, e).

(** numerics/doubledouble.py:157-166 [square_dd] *)
Definition square_dd (x0 y0 : R) : R * R :=
  let u := fmul x0 splitter in
  let s := fsub u (fsub u x0) in
  let f := fsub x0 s in
  let r := fmul x0 x0 in
  let e := fadd (fadd (fadd (fsub (fmul s s) r) (fmul (fmul 2 s) f)) (fmul f f)) (fmul (fmul 2 x0) y0) in
  let r0 := fadd r e in
  let e := fsub e (fsub r0 r) in
  (r0, e).

(** numerics/doubledouble.py:168-185 [intpow_dd]; the loop halves [i], so a positive [i] of the binary form is consumed
    bit by bit; for [n = 0] the loop ends in its first pass. *)
Fixpoint intpow_loop (i : positive) (rr re br be : R) : R * R :=
  match i with
  | xH => mul_dd rr re br be
  | xO i' => let '(br', be') := mul_dd br be br be in intpow_loop i' rr re br' be'
  | xI i' => let '(rr', re') := mul_dd rr re br be in
             let '(br', be') := mul_dd br be br be in intpow_loop i' rr' re' br' be'
  end.
Definition intpow_dd (r e : R) (n : Z) : result (R * R) :=
  let '(rr, re) := match Z.abs n with Zpos i => intpow_loop i 1 0 r e | _ => (1, 0) end in
  if (n <? 0)%Z then div_dd 1 0 rr re else Ok (rr, re).

(** numerics/doubledouble.py:232-241 [mul_imag_dd] *)
Definition mul_imag_dd (xrr xre xcr xce yrr yre ycr yce : R) : R * R * R * R :=
  let '(zrr, zre) := mul_dd xrr xre yrr yre in
  let '(wrr, wre) := mul_dd xcr xce ycr yce in
  let '(zrr, zre) := add_dd zrr zre (- wrr) (- wre) in
  let '(zcr, zce) := mul_dd xrr xre ycr yce in
  let '(wrr, wre) := mul_dd xcr xce yrr yre in
  let '(zcr, zce) := add_dd zcr zce wrr wre in
  (zrr, zre, zcr, zce).

(** numerics/doubledouble.py:253-275 [sqrt_imag_dd] *)
Definition sqrt_imag_dd (xrr xre xcr xce : R) : result (R * R * R * R) :=
  if Reqb xcr 0 then
    if Rltb 0 xrr then '(zrr, zre) <- sqrt_dd xrr xre ;; Ok (zrr, zre, 0, 0)
    else '(zrr, zre) <- sqrt_dd (- xrr) (- xre) ;; Ok (0, 0, zrr, zre)
  else
    let '(xrr2, xre2) := square_dd xrr xre in
    let '(xcr2, xce2) := square_dd xcr xce in
    let '(wr, we) := add_dd xrr2 xre2 xcr2 xce2 in
    '(wr, we) <- sqrt_dd wr we ;;
    let '(zrr, zre) := add_dd wr we xrr xre in
    let zrr := fmul zrr (1 / 2) in
    let zre := fmul zre (1 / 2) in
    '(zrr, zre) <- sqrt_dd zrr zre ;;
    let '(zcr, zce) := add_dd wr we (- xrr) (- xre) in
    let zcr := fmul zcr (1 / 2) in
    let zce := fmul zce (1 / 2) in
    '(zcr, zce) <- sqrt_dd zcr zce ;;
    Ok (zrr, zre, zcr, zce).

(** numerics/doubledouble.py:277-280 [add_imag_dd] *)
Definition add_imag_dd (xrr xre xcr xce yrr yre ycr yce : R) : R * R * R * R :=
  let '(zrr, zre) := add_dd xrr xre yrr yre in
  let '(zcr, zce) := add_dd xcr xce ycr yce in
  (zrr, zre, zcr, zce).
