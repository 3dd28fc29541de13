(** Pressure drop and voidage of packed beds.
    Generated by tools/pytrans.py from /repo/fluids, function by function: floats are exact reals,
    a division, root, logarithm or power that Python refuses is an [Err]; float rounding and overflow
    are not represented.  Module constants are inlined with their exact rational value. *)
From Coq Require Import Reals String List Bool.
From Verif Require Import Base Model_Real.
Import ListNotations.
Open Scope R_scope.

(** fluids/packed_bed.py:165-168 [Ergun]. *)
Definition Ergun (dp : R) (voidage : R) (vs : R) (rho : R) (mu : R) (L : R) : result R :=
  Re <- pdiv ((dp * rho) * vs) mu ;;
  let holdup := (1 - voidage) in
  t2 <- pdiv Re holdup ;;
  fp <- pdiv (((150 + (1.75 * t2)) * holdup) * holdup) (((voidage * voidage) * voidage) * Re) ;;
  pdiv ((((fp * rho) * vs) * vs) * L) dp.

(** fluids/packed_bed.py:231-234 [Kuo_Nydegger]. *)
Definition Kuo_Nydegger (dp : R) (voidage : R) (vs : R) (rho : R) (mu : R) (L : R) : result R :=
  Re <- pdiv ((dp * rho) * vs) mu ;;
  let holdup := (1 - voidage) in
  t2 <- pdiv Re holdup ;;
  t3 <- ppow t2 0.87 ;;
  fp <- pdiv (((276.23 + (5.05 * t3)) * holdup) * holdup) (((voidage * voidage) * voidage) * Re) ;;
  pdiv ((((fp * rho) * vs) * vs) * L) dp.

(** fluids/packed_bed.py:295-298 [Tallmadge]. *)
Definition Tallmadge (dp : R) (voidage : R) (vs : R) (rho : R) (mu : R) (L : R) : result R :=
  Re <- pdiv ((dp * rho) * vs) mu ;;
  let holdup := (1 - voidage) in
  t2 <- pdiv Re holdup ;;
  t3 <- ppow t2 (5 / 6) ;;
  fp <- pdiv (((150 + (4.2 * t3)) * holdup) * holdup) (((voidage * voidage) * voidage) * Re) ;;
  pdiv ((((fp * rho) * vs) * vs) * L) dp.

(** fluids/packed_bed.py:358-361 [Jones_Krier]. *)
Definition Jones_Krier (dp : R) (voidage : R) (vs : R) (rho : R) (mu : R) (L : R) : result R :=
  Re <- pdiv ((dp * rho) * vs) mu ;;
  let holdup := (1 - voidage) in
  t2 <- pdiv Re holdup ;;
  t3 <- ppow t2 0.87 ;;
  fp <- pdiv (((150 + (3.89 * t3)) * holdup) * holdup) (((voidage * voidage) * voidage) * Re) ;;
  pdiv ((((fp * rho) * vs) * vs) * L) dp.

(** fluids/packed_bed.py:422-425 [Carman]. *)
Definition Carman (dp : R) (voidage : R) (vs : R) (rho : R) (mu : R) (L : R) : result R :=
  Re <- pdiv ((dp * rho) * vs) mu ;;
  let holdup := (1 - voidage) in
  t2 <- pdiv Re holdup ;;
  t3 <- ppow t2 0.9 ;;
  fp <- pdiv (((180 + (2.871 * t3)) * holdup) * holdup) (((voidage * voidage) * voidage) * Re) ;;
  pdiv ((((fp * rho) * vs) * vs) * L) dp.

(** fluids/packed_bed.py:486-489 [Hicks]. *)
Definition Hicks (dp : R) (voidage : R) (vs : R) (rho : R) (mu : R) (L : R) : result R :=
  Re <- pdiv ((dp * rho) * vs) mu ;;
  let holdup := (1 - voidage) in
  t2 <- ppow holdup 1.2 ;;
  t3 <- ppow Re 0.2 ;;
  fp <- pdiv (6.8 * t2) (((t3 * voidage) * voidage) * voidage) ;;
  pdiv ((((fp * rho) * vs) * vs) * L) dp.

(** fluids/packed_bed.py:551-554 [Brauer]. *)
Definition Brauer (dp : R) (voidage : R) (vs : R) (rho : R) (mu : R) (L : R) : result R :=
  Re <- pdiv ((dp * rho) * vs) mu ;;
  let holdup := (1 - voidage) in
  t2 <- pdiv Re holdup ;;
  t3 <- ppow t2 0.9 ;;
  fp <- pdiv (((160 + (3.1 * t3)) * holdup) * holdup) (((voidage * voidage) * voidage) * Re) ;;
  pdiv ((((fp * rho) * vs) * vs) * L) dp.

(** fluids/packed_bed.py:615-618 [KTA]. *)
Definition KTA (dp : R) (voidage : R) (vs : R) (rho : R) (mu : R) (L : R) : result R :=
  Re <- pdiv ((dp * rho) * vs) mu ;;
  let holdup := (1 - voidage) in
  t2 <- pdiv Re holdup ;;
  t3 <- ppow t2 0.9 ;;
  fp <- pdiv (((160 + (3 * t3)) * holdup) * holdup) (((voidage * voidage) * voidage) * Re) ;;
  pdiv ((((fp * rho) * vs) * vs) * L) dp.

(** fluids/packed_bed.py:675-678 [Erdim_Akgiray_Demir]. *)
Definition Erdim_Akgiray_Demir (dp : R) (voidage : R) (vs : R) (rho : R) (mu : R) (L : R) : result R :=
  let holdup := (1 - voidage) in
  Rem <- pdiv ((dp * rho) * vs) (holdup * mu) ;;
  t2 <- ppow Rem 0.904 ;;
  let fv := (160 + (2.81 * t2)) in
  t3 <- pdiv ((mu * vs) * L) (dp * dp) ;;
  pdiv (((fv * t3) * holdup) * holdup) ((voidage * voidage) * voidage).

(** fluids/packed_bed.py:747-755 [Fahien_Schriver]. *)
Definition Fahien_Schriver (dp : R) (voidage : R) (vs : R) (rho : R) (mu : R) (L : R) : result R :=
  let holdup := (1 - voidage) in
  let voidage2 := (voidage * voidage) in
  Rem <- pdiv ((dp * rho) * vs) (holdup * mu) ;;
  let q := (exp ((((- voidage2) * holdup) * (1 / 12.6)) * Rem)) in
  t2 <- ppow holdup 0.38 ;;
  f1L <- pdiv 136 t2 ;;
  t4 <- ppow holdup 1.45 ;;
  f1T <- pdiv 29 (t4 * voidage2) ;;
  t6 <- ppow voidage 0.75 ;;
  t7 <- ppow holdup 0.26 ;;
  f2 <- pdiv (1.87 * t6) t7 ;;
  t9 <- pdiv (q * f1L) Rem ;;
  t10 <- pdiv f1T Rem ;;
  fp <- pdiv ((t9 + ((1 - q) * (f2 + t10))) * holdup) (voidage2 * voidage) ;;
  pdiv ((((fp * rho) * vs) * vs) * L) dp.

(** fluids/packed_bed.py:813-817 [Idelchik]. *)
Definition Idelchik (dp : R) (voidage : R) (vs : R) (rho : R) (mu : R) (L : R) : result R :=
  Re <- pdiv ((rho * vs) * dp) (mu * (1 - voidage)) ;;
  t2 <- psqrt voidage ;;
  t3 <- pdiv 0.45 t2 ;;
  let Re := (t3 * Re) in
  t4 <- ppow voidage (- 4.2) ;;
  t5 <- pdiv 30 Re ;;
  t6 <- ppow Re (- 0.7) ;;
  let right := ((0.765 * t4) * ((t5 + (3 * t6)) + 0.3)) in
  left <- pdiv dp (((L * rho) * vs) * vs) ;;
  pdiv right left.

(** fluids/packed_bed.py:889-898 [Harrison_Brunner_Hecker]. *)
Definition Harrison_Brunner_Hecker (dp : R) (voidage : R) (vs : R) (rho : R) (mu : R) (L : R) (Dt : option R) : result R :=
  Re <- pdiv ((dp * rho) * vs) mu ;;
  let holdup := (1 - voidage) in
  '(A, B) <- (match Dt with
    | Some Dt => t2 <- pdiv (PI * dp) ((6 * holdup) * Dt) ;;
    let A := (1 + t2) in
    let A := (A * A) in
    t3 <- pdiv (((PI * PI) * dp) / 24) Dt ;;
    t4 <- pdiv dp (2 * Dt) ;;
    let B := (1 - (t3 * (1 - t4))) in
    Ok (A, B)
    | None => let A := 1 in
    let B := 1 in
    Ok (A, B)
  end) ;;
  t5 <- pdiv Re holdup ;;
  t6 <- ppow t5 (5 / 6) ;;
  fp <- pdiv ((((119.8 * A) + ((4.63 * B) * t6)) * holdup) * holdup) (((voidage * voidage) * voidage) * Re) ;;
  pdiv ((((fp * rho) * vs) * vs) * L) dp.

(** fluids/packed_bed.py:961-972 [Montillet_Akkari_Comiti]. *)
Definition Montillet_Akkari_Comiti (dp : R) (voidage : R) (vs : R) (rho : R) (mu : R) (L : R) (Dt : option R) : result R :=
  Re <- pdiv ((rho * vs) * dp) mu ;;
  a <- (if (Rltb voidage 0.4) then let a := 0.061 in
  Ok a
  else let a := 0.05 in
  Ok a) ;;
  Dterm <- (match Dt with
    | Some Dt => t3 <- pdiv Dt dp ;;
    if (Rltb 50 t3) then let Dterm := 2.2 in
    Ok Dterm
    else t4 <- pdiv Dt dp ;;
    ppow t4 0.2
    | None => let Dterm := 2.2 in
    Ok Dterm
  end) ;;
  t6 <- pdiv 1000 Re ;;
  t7 <- psqrt Re ;;
  t8 <- pdiv 60 t7 ;;
  let right := ((a * Dterm) * ((t6 + t8) + 12)) in
  t9 <- pdiv dp ((((L * rho) * vs) * vs) * (1 - voidage)) ;;
  let left := (((t9 * voidage) * voidage) * voidage) in
  pdiv right left.

(** fluids/packed_bed.py:1037-1041 [Guo_Sun]. *)
Definition Guo_Sun (dp : R) (voidage : R) (vs : R) (rho : R) (mu : R) (Dt : option R) (L : R) : result R :=
  let holdup := (1 - voidage) in
  Rem <- pdiv ((dp * rho) * vs) (mu * holdup) ;;
  ratio <- (match Dt with
    | Some Dt => pdiv dp Dt
    | None => Ok 3.5
  end) ;;
  t4 <- ppow Rem 0.97 ;;
  let fv := (180 + (((9.5374 * ratio) - 2.8054) * t4)) in
  t5 <- pdiv ((mu * vs) * L) ((((dp * dp) * voidage) * voidage) * voidage) ;;
  Ok (((fv * t5) * holdup) * holdup).

(** fluids/packed_bed.py:1166-1203 [dP_packed_bed]. *)
Definition dP_packed_bed (dp : R) (voidage : R) (vs : R) (rho : R) (mu : R) (L : R) (Dt : option R) (sphericity : option R) (Method : option string) : result R :=
  Method2 <- (match Method with
    | Some Method => let Method2 := Method in
    Ok Method2
    | None => (match Dt with
      | Some Dt => Ok ("Harrison, Brunner & Hecker"%string)
      | None => Ok ("Erdim, Akgiray & Demir"%string)
    end)
  end) ;;
  dp <- (match sphericity with
    | Some sphericity => let dp := (dp * sphericity) in
    Ok dp
    | None => Ok dp
  end) ;;
  if (String.eqb Method2 "Ergun"%string) then Ergun dp voidage vs rho mu L
  else if (String.eqb Method2 "Tallmadge"%string) then Tallmadge dp voidage vs rho mu L
  else if (String.eqb Method2 "Kuo & Nydegger"%string) then Kuo_Nydegger dp voidage vs rho mu L
  else if (String.eqb Method2 "Jones & Krier"%string) then Jones_Krier dp voidage vs rho mu L
  else if (String.eqb Method2 "Carman"%string) then Carman dp voidage vs rho mu L
  else if (String.eqb Method2 "Hicks"%string) then Hicks dp voidage vs rho mu L
  else if (String.eqb Method2 "Brauer"%string) then Brauer dp voidage vs rho mu L
  else if (String.eqb Method2 "KTA"%string) then KTA dp voidage vs rho mu L
  else if (String.eqb Method2 "Erdim, Akgiray & Demir"%string) then Erdim_Akgiray_Demir dp voidage vs rho mu L
  else if (String.eqb Method2 "Fahien & Schriver"%string) then Fahien_Schriver dp voidage vs rho mu L
  else if (String.eqb Method2 "Idelchik"%string) then Idelchik dp voidage vs rho mu L
  else if (String.eqb Method2 "Harrison, Brunner & Hecker"%string) then Harrison_Brunner_Hecker dp voidage vs rho mu L Dt
  else if (String.eqb Method2 "Montillet, Akkari & Comiti"%string) then Montillet_Akkari_Comiti dp voidage vs rho mu L Dt
  else if (String.eqb Method2 "Guo, Sun, Zhang, Ding & Liu"%string) then Guo_Sun dp voidage vs rho mu Dt L
  else Err ValueError.

(** fluids/packed_bed.py:1269-1270 [voidage_Benyahia_Oneil]. *)
Definition voidage_Benyahia_Oneil (Dpe : R) (Dt : R) (sphericity : R) : result R :=
  t1 <- pdiv Dt Dpe ;;
  let x1 := (t1 + 0.1226) in
  t2 <- pdiv 0.2024 sphericity ;;
  t3 <- pdiv 1.0814 (x1 * x1) ;;
  Ok ((0.1504 + t2) + t3).

(** fluids/packed_bed.py:1310-1311 [voidage_Benyahia_Oneil_spherical]. *)
Definition voidage_Benyahia_Oneil_spherical (Dp : R) (Dt : R) : result R :=
  t1 <- pdiv Dt Dp ;;
  let x1 := (t1 + 1.14) in
  t2 <- pdiv 1.74 (x1 * x1) ;;
  Ok (0.39 + t2).

(** fluids/packed_bed.py:1355-1356 [voidage_Benyahia_Oneil_cylindrical]. *)
Definition voidage_Benyahia_Oneil_cylindrical (Dpe : R) (Dt : R) (sphericity : R) : result R :=
  t1 <- pdiv Dt Dpe ;;
  let x1 := (t1 + 0.611) in
  t2 <- pdiv 1.703 (x1 * x1) ;;
  Ok (0.373 + t2).

(** fluids/packed_bed.py:1104-1113 [dP_packed_bed_methods], all required arguments given ([check_ranges] is not
    used by the code). *)
Definition dP_packed_bed_methods (Dt : option R) : list string :=
  ((match Dt with
    | Some _ => ["Harrison, Brunner & Hecker"; "Montillet, Akkari & Comiti"; "Guo, Sun, Zhang, Ding & Liu"]
    | None => [] end)
   ++ ["Erdim, Akgiray & Demir"; "Idelchik"; "Fahien & Schriver"; "KTA"; "Brauer"; "Hicks"; "Carman";
       "Jones & Krier"; "Kuo & Nydegger"; "Tallmadge"; "Ergun"])%list%string.

