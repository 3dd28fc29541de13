(** The same models run in IEEE 754 binary64 arithmetic (round to nearest even), as CPython's float does.
    Operations are those of the standard library's executable specification [Coq.Floats.SpecFloat]. *)
From Coq Require Import ZArith QArith List Floats.SpecFloat.
From Verif Require Import Base.
Definition prec64 : Z := 53. Definition emax64 : Z := 1024.
Definition b64 : Type := spec_float.
Definition b64_of_Z (z : Z) : b64 := binary_normalize prec64 emax64 z 0 false.
(** the float nearest to a decimal literal: exact when numerator and denominator are below 2^53 (one rounding, in the
    division), which holds for every literal used in the float theorems *)
Definition b64_of_Q (q : Q) : b64 := SFdiv prec64 emax64 (b64_of_Z (Qnum q)) (b64_of_Z (Zpos (Qden q))).
#[export] Instance NumB64 : Num b64 := {|
  nadd := SFadd prec64 emax64; nsub := SFsub prec64 emax64; nmul := SFmul prec64 emax64; ndiv := SFdiv prec64 emax64;
  nopp := SFopp; nabs := SFabs; nlt := SFltb; nle := SFleb; neq := SFeqb; nQ := b64_of_Q |}.
