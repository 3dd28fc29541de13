(** Gas compression and pipeline flow.
    Generated by tools/pytrans.py from /repo/fluids, function by function: floats are exact reals,
    a division, root, logarithm or power that Python refuses is an [Err]; float rounding and overflow
    are not represented.  Module constants are inlined with their exact rational value. *)
From Coq Require Import Reals String List Bool.
From Verif Require Import Base Model_Real.
Import ListNotations.
Open Scope R_scope.

(** fluids/compressible.py:170-170 [isothermal_work_compression]. *)
Definition isothermal_work_compression (P1 : R) (P2 : R) (T : R) (Z_ : R) : result R :=
  t1 <- pdiv P2 P1 ;;
  t2 <- plog t1 ;;
  Ok (((Z_ * 8.31446261815324) * T) * t2).

(** fluids/compressible.py:268-277 [isentropic_work_compression]. *)
Definition isentropic_work_compression (T1 : R) (k : R) (Z_ : R) (P1 : option R) (P2 : option R) (W : option R) (eta : option R) : result R :=
  match W with
    | Some W => match P1 with
      | Some P1 => match P2 with
        | Some P2 => match eta with
          | Some eta => Err ValueError
          | None => t1 <- pdiv P2 P1 ;;
          t2 <- pdiv (k - 1) k ;;
          t3 <- ppow t1 t2 ;;
          pdiv ((((8.31446261815324 * T1) * Z_) * k) * (t3 - 1)) (W * (k - 1))
        end
        | None => match eta with
          | Some eta => t5 <- pdiv (W * eta) ((8.31446261815324 * T1) * Z_) ;;
          t6 <- pdiv (W * eta) (((8.31446261815324 * T1) * Z_) * k) ;;
          t7 <- pdiv k (k - 1) ;;
          t8 <- ppow ((1 + t5) - t6) t7 ;;
          Ok (P1 * t8)
          | None => Err ValueError
        end
      end
      | None => match eta with
        | Some eta => match P2 with
          | Some P2 => t9 <- pdiv (W * eta) ((8.31446261815324 * T1) * Z_) ;;
          t10 <- pdiv (W * eta) (((8.31446261815324 * T1) * Z_) * k) ;;
          t11 <- pdiv (- k) (k - 1) ;;
          t12 <- ppow ((1 + t9) - t10) t11 ;;
          Ok (P2 * t12)
          | None => Err ValueError
        end
        | None => match P2 with
          | Some P2 => Err ValueError
          | None => Err ValueError
        end
      end
    end
    | None => match eta with
      | Some eta => match P1 with
        | Some P1 => match P2 with
          | Some P2 => t13 <- pdiv k (k - 1) ;;
          t14 <- pdiv P2 P1 ;;
          t15 <- pdiv (k - 1) k ;;
          t16 <- ppow t14 t15 ;;
          pdiv ((((t13 * Z_) * 8.31446261815324) * T1) * (t16 - 1)) eta
          | None => Err ValueError
        end
        | None => match P2 with
          | Some P2 => Err ValueError
          | None => Err ValueError
        end
      end
      | None => match P1 with
        | Some P1 => match P2 with
          | Some P2 => Err ValueError
          | None => Err ValueError
        end
        | None => match P2 with
          | Some P2 => Err ValueError
          | None => Err ValueError
        end
      end
    end
  end.

(** fluids/compressible.py:331-332 [isentropic_T_rise_compression]. *)
Definition isentropic_T_rise_compression (T1 : R) (P1 : R) (P2 : R) (k : R) (eta : R) : result R :=
  t1 <- pdiv P2 P1 ;;
  t2 <- pdiv (k - 1) k ;;
  t3 <- ppow t1 t2 ;;
  dT <- pdiv (T1 * (t3 - 1)) eta ;;
  Ok (T1 + dT).

(** fluids/compressible.py:382-388 [isentropic_efficiency]. *)
Definition isentropic_efficiency (P1 : R) (P2 : R) (k : R) (eta_s : option R) (eta_p : option R) : result R :=
  match eta_s with
    | Some eta_s => match eta_p with
      | Some eta_p => Err ValueError
      | None => t1 <- pdiv P2 P1 ;;
      t2 <- plog t1 ;;
      t3 <- pdiv P2 P1 ;;
      t4 <- pdiv (k - 1) k ;;
      t5 <- ppow t3 t4 ;;
      t6 <- pdiv ((eta_s + t5) - 1) eta_s ;;
      t7 <- plog t6 ;;
      pdiv ((k - 1) * t2) (k * t7)
    end
    | None => match eta_p with
      | Some eta_p => t9 <- pdiv P2 P1 ;;
      t10 <- pdiv (k - 1) k ;;
      t11 <- ppow t9 t10 ;;
      t12 <- pdiv P2 P1 ;;
      t13 <- pdiv (k - 1) (k * eta_p) ;;
      t14 <- ppow t12 t13 ;;
      pdiv (t11 - 1) (t14 - 1)
      | None => Err ValueError
    end
  end.

(** fluids/compressible.py:429-434 [polytropic_exponent]. *)
Definition polytropic_exponent (k : R) (n : option R) (eta_p : option R) : result R :=
  match n with
    | Some n => match eta_p with
      | Some eta_p => Err ValueError
      | None => pdiv (n * (k - 1)) (k * (n - 1))
    end
    | None => match eta_p with
      | Some eta_p => pdiv (k * eta_p) (1 - (k * (1 - eta_p)))
      | None => Err ValueError
    end
  end.

(** fluids/compressible.py:474-474 [T_critical_flow]. *)
Definition T_critical_flow (T : R) (k : R) : result R :=
  pdiv (T * 2) (k + 1).

(** fluids/compressible.py:514-514 [P_critical_flow]. *)
Definition P_critical_flow (P_ : R) (k : R) : result R :=
  t1 <- pdiv 2 (k + 1) ;;
  t2 <- pdiv k (k - 1) ;;
  t3 <- ppow t1 t2 ;;
  Ok (P_ * t3).

(** fluids/compressible.py:618-619 [is_critical_flow]. *)
Definition is_critical_flow (P1 : R) (P2 : R) (k : R) : result bool :=
  Pcf <- P_critical_flow P1 k ;;
  Ok (Rltb P2 Pcf).

(** fluids/compressible.py:653-653 [stagnation_energy]. *)
Definition stagnation_energy (V : R) : result R :=
  Ok ((0.5 * V) * V).

(** fluids/compressible.py:696-696 [P_stagnation]. *)
Definition P_stagnation (P_ : R) (T : R) (Tst : R) (k : R) : result R :=
  t1 <- pdiv Tst T ;;
  t2 <- pdiv k (k - 1) ;;
  t3 <- ppow t1 t2 ;;
  Ok (P_ * t3).

(** fluids/compressible.py:739-739 [T_stagnation]. *)
Definition T_stagnation (T : R) (P_ : R) (Pst : R) (k : R) : result R :=
  t1 <- pdiv Pst P_ ;;
  t2 <- pdiv (k - 1) k ;;
  t3 <- ppow t1 t2 ;;
  Ok (T * t3).

(** fluids/compressible.py:776-776 [T_stagnation_ideal]. *)
Definition T_stagnation_ideal (T : R) (V : R) (Cp : R) : result R :=
  t1 <- pdiv ((0.5 * V) * V) Cp ;;
  Ok (T + t1).

(** fluids/compressible.py:1074-1092 [Panhandle_A]. *)
Definition Panhandle_A (SG : R) (Tavg : R) (L : option R) (D_ : option R) (P1 : option R) (P2 : option R) (Q_ : option R) (Ts : R) (Ps : R) (Zavg : R) (E : R) : result R :=
  let c1 := 1.0788 in
  let c2 := 0.8539 in
  let c3 := 0.5394 in
  let c4 := 2.6182 in
  let c5 := 158.0205328706957220332831680508433862787 in
  match Q_ with
    | Some Q_ => match D_ with
      | Some D_ => match P1 with
        | Some P1 => match P2 with
          | Some P2 => match L with
            | Some L => Err ValueError
            | None => t1 <- ppow SG (- c2) ;;
            t2 <- ppow D_ (- c4) ;;
            t3 <- pdiv Ts Ps ;;
            t4 <- ppow t3 (- c1) ;;
            t5 <- pdiv ((t2 * Q_) * t4) (E * c5) ;;
            t6 <- pdiv (- 1) c3 ;;
            t7 <- ppow t5 t6 ;;
            pdiv ((t1 * t7) * ((P1 ^ 2) - (P2 ^ 2))) (Tavg * Zavg)
          end
          | None => match L with
            | Some L => t9 <- ppow SG c2 ;;
            t10 <- ppow D_ (- c4) ;;
            t11 <- pdiv Ts Ps ;;
            t12 <- ppow t11 (- c1) ;;
            t13 <- pdiv ((t10 * Q_) * t12) (E * c5) ;;
            t14 <- pdiv 1 c3 ;;
            t15 <- ppow t13 t14 ;;
            psqrt ((((((- L) * t9) * Tavg) * Zavg) * t15) + (P1 ^ 2))
            | None => Err ValueError
          end
        end
        | None => match L with
          | Some L => match P2 with
            | Some P2 => t17 <- ppow SG c2 ;;
            t18 <- ppow D_ (- c4) ;;
            t19 <- pdiv Ts Ps ;;
            t20 <- ppow t19 (- c1) ;;
            t21 <- pdiv ((t18 * Q_) * t20) (E * c5) ;;
            t22 <- pdiv 1 c3 ;;
            t23 <- ppow t21 t22 ;;
            psqrt (((((L * t17) * Tavg) * Zavg) * t23) + (P2 ^ 2))
            | None => Err ValueError
          end
          | None => match P2 with
            | Some P2 => Err ValueError
            | None => Err ValueError
          end
        end
      end
      | None => match L with
        | Some L => match P1 with
          | Some P1 => match P2 with
            | Some P2 => t25 <- pdiv Ts Ps ;;
            t26 <- ppow t25 (- c1) ;;
            t27 <- ppow SG (- c2) ;;
            t28 <- pdiv (t27 * ((P1 ^ 2) - (P2 ^ 2))) ((L * Tavg) * Zavg) ;;
            t29 <- ppow t28 (- c3) ;;
            t30 <- pdiv ((Q_ * t26) * t29) (E * c5) ;;
            t31 <- pdiv 1 c4 ;;
            ppow t30 t31
            | None => Err ValueError
          end
          | None => match P2 with
            | Some P2 => Err ValueError
            | None => Err ValueError
          end
        end
        | None => match P1 with
          | Some P1 => match P2 with
            | Some P2 => Err ValueError
            | None => Err ValueError
          end
          | None => match P2 with
            | Some P2 => Err ValueError
            | None => Err ValueError
          end
        end
      end
    end
    | None => match L with
      | Some L => match D_ with
        | Some D_ => match P1 with
          | Some P1 => match P2 with
            | Some P2 => t33 <- pdiv Ts Ps ;;
            t34 <- ppow t33 c1 ;;
            t35 <- ppow SG c2 ;;
            t36 <- pdiv ((P1 ^ 2) - (P2 ^ 2)) (((L * t35) * Tavg) * Zavg) ;;
            t37 <- ppow t36 c3 ;;
            t38 <- ppow D_ c4 ;;
            Ok ((((c5 * E) * t34) * t37) * t38)
            | None => Err ValueError
          end
          | None => match P2 with
            | Some P2 => Err ValueError
            | None => Err ValueError
          end
        end
        | None => match P1 with
          | Some P1 => match P2 with
            | Some P2 => Err ValueError
            | None => Err ValueError
          end
          | None => match P2 with
            | Some P2 => Err ValueError
            | None => Err ValueError
          end
        end
      end
      | None => match D_ with
        | Some D_ => match P1 with
          | Some P1 => match P2 with
            | Some P2 => Err ValueError
            | None => Err ValueError
          end
          | None => match P2 with
            | Some P2 => Err ValueError
            | None => Err ValueError
          end
        end
        | None => match P1 with
          | Some P1 => match P2 with
            | Some P2 => Err ValueError
            | None => Err ValueError
          end
          | None => match P2 with
            | Some P2 => Err ValueError
            | None => Err ValueError
          end
        end
      end
    end
  end.

(** fluids/compressible.py:1193-1211 [Panhandle_B]. *)
Definition Panhandle_B (SG : R) (Tavg : R) (L : option R) (D_ : option R) (P1 : option R) (P2 : option R) (Q_ : option R) (Ts : R) (Ps : R) (Zavg : R) (E : R) : result R :=
  let c1 := 1.02 in
  let c2 := 0.961 in
  let c3 := 0.51 in
  let c4 := 2.53 in
  let c5 := 152.881163429805545862438598586662441906 in
  match Q_ with
    | Some Q_ => match D_ with
      | Some D_ => match P1 with
        | Some P1 => match P2 with
          | Some P2 => match L with
            | Some L => Err ValueError
            | None => t1 <- ppow SG (- c2) ;;
            t2 <- ppow D_ (- c4) ;;
            t3 <- pdiv Ts Ps ;;
            t4 <- ppow t3 (- c1) ;;
            t5 <- pdiv ((t2 * Q_) * t4) (E * c5) ;;
            t6 <- pdiv (- 1) c3 ;;
            t7 <- ppow t5 t6 ;;
            pdiv ((t1 * t7) * ((P1 ^ 2) - (P2 ^ 2))) (Tavg * Zavg)
          end
          | None => match L with
            | Some L => t9 <- ppow SG c2 ;;
            t10 <- ppow D_ (- c4) ;;
            t11 <- pdiv Ts Ps ;;
            t12 <- ppow t11 (- c1) ;;
            t13 <- pdiv ((t10 * Q_) * t12) (E * c5) ;;
            t14 <- pdiv 1 c3 ;;
            t15 <- ppow t13 t14 ;;
            psqrt ((((((- L) * t9) * Tavg) * Zavg) * t15) + (P1 ^ 2))
            | None => Err ValueError
          end
        end
        | None => match L with
          | Some L => match P2 with
            | Some P2 => t17 <- ppow SG c2 ;;
            t18 <- ppow D_ (- c4) ;;
            t19 <- pdiv Ts Ps ;;
            t20 <- ppow t19 (- c1) ;;
            t21 <- pdiv ((t18 * Q_) * t20) (E * c5) ;;
            t22 <- pdiv 1 c3 ;;
            t23 <- ppow t21 t22 ;;
            psqrt (((((L * t17) * Tavg) * Zavg) * t23) + (P2 ^ 2))
            | None => Err ValueError
          end
          | None => match P2 with
            | Some P2 => Err ValueError
            | None => Err ValueError
          end
        end
      end
      | None => match L with
        | Some L => match P1 with
          | Some P1 => match P2 with
            | Some P2 => t25 <- pdiv Ts Ps ;;
            t26 <- ppow t25 (- c1) ;;
            t27 <- ppow SG (- c2) ;;
            t28 <- pdiv (t27 * ((P1 ^ 2) - (P2 ^ 2))) ((L * Tavg) * Zavg) ;;
            t29 <- ppow t28 (- c3) ;;
            t30 <- pdiv ((Q_ * t26) * t29) (E * c5) ;;
            t31 <- pdiv 1 c4 ;;
            ppow t30 t31
            | None => Err ValueError
          end
          | None => match P2 with
            | Some P2 => Err ValueError
            | None => Err ValueError
          end
        end
        | None => match P1 with
          | Some P1 => match P2 with
            | Some P2 => Err ValueError
            | None => Err ValueError
          end
          | None => match P2 with
            | Some P2 => Err ValueError
            | None => Err ValueError
          end
        end
      end
    end
    | None => match L with
      | Some L => match D_ with
        | Some D_ => match P1 with
          | Some P1 => match P2 with
            | Some P2 => t33 <- pdiv Ts Ps ;;
            t34 <- ppow t33 c1 ;;
            t35 <- ppow SG c2 ;;
            t36 <- pdiv ((P1 ^ 2) - (P2 ^ 2)) (((L * t35) * Tavg) * Zavg) ;;
            t37 <- ppow t36 c3 ;;
            t38 <- ppow D_ c4 ;;
            Ok ((((c5 * E) * t34) * t37) * t38)
            | None => Err ValueError
          end
          | None => match P2 with
            | Some P2 => Err ValueError
            | None => Err ValueError
          end
        end
        | None => match P1 with
          | Some P1 => match P2 with
            | Some P2 => Err ValueError
            | None => Err ValueError
          end
          | None => match P2 with
            | Some P2 => Err ValueError
            | None => Err ValueError
          end
        end
      end
      | None => match D_ with
        | Some D_ => match P1 with
          | Some P1 => match P2 with
            | Some P2 => Err ValueError
            | None => Err ValueError
          end
          | None => match P2 with
            | Some P2 => Err ValueError
            | None => Err ValueError
          end
        end
        | None => match P1 with
          | Some P1 => match P2 with
            | Some P2 => Err ValueError
            | None => Err ValueError
          end
          | None => match P2 with
            | Some P2 => Err ValueError
            | None => Err ValueError
          end
        end
      end
    end
  end.

(** fluids/compressible.py:1311-1327 [Weymouth]. *)
Definition Weymouth (SG : R) (Tavg : R) (L : option R) (D_ : option R) (P1 : option R) (P2 : option R) (Q_ : option R) (Ts : R) (Ps : R) (Zavg : R) (E : R) : result R :=
  let c3 := 0.5 in
  let c4 := 2.667 in
  let c5 := 137.3295809942512546732179684618143090992 in
  match Q_ with
    | Some Q_ => match D_ with
      | Some D_ => match P1 with
        | Some P1 => match P2 with
          | Some P2 => match L with
            | Some L => Err ValueError
            | None => t1 <- ppow D_ (- c4) ;;
            t2 <- pdiv ((t1 * Ps) * Q_) ((E * Ts) * c5) ;;
            t3 <- pdiv (- 1) c3 ;;
            t4 <- ppow t2 t3 ;;
            pdiv (t4 * ((P1 ^ 2) - (P2 ^ 2))) ((SG * Tavg) * Zavg)
          end
          | None => match L with
            | Some L => t6 <- ppow D_ (- c4) ;;
            t7 <- pdiv ((t6 * Ps) * Q_) ((E * Ts) * c5) ;;
            t8 <- pdiv 1 c3 ;;
            t9 <- ppow t7 t8 ;;
            psqrt ((((((- L) * SG) * Tavg) * Zavg) * t9) + (P1 ^ 2))
            | None => Err ValueError
          end
        end
        | None => match L with
          | Some L => match P2 with
            | Some P2 => t11 <- ppow D_ (- c4) ;;
            t12 <- pdiv ((t11 * Ps) * Q_) ((E * Ts) * c5) ;;
            t13 <- pdiv 1 c3 ;;
            t14 <- ppow t12 t13 ;;
            psqrt (((((L * SG) * Tavg) * Zavg) * t14) + (P2 ^ 2))
            | None => Err ValueError
          end
          | None => match P2 with
            | Some P2 => Err ValueError
            | None => Err ValueError
          end
        end
      end
      | None => match L with
        | Some L => match P1 with
          | Some P1 => match P2 with
            | Some P2 => t16 <- pdiv ((P1 ^ 2) - (P2 ^ 2)) (((L * SG) * Tavg) * Zavg) ;;
            t17 <- ppow t16 (- c3) ;;
            t18 <- pdiv ((Ps * Q_) * t17) ((E * Ts) * c5) ;;
            t19 <- pdiv 1 c4 ;;
            ppow t18 t19
            | None => Err ValueError
          end
          | None => match P2 with
            | Some P2 => Err ValueError
            | None => Err ValueError
          end
        end
        | None => match P1 with
          | Some P1 => match P2 with
            | Some P2 => Err ValueError
            | None => Err ValueError
          end
          | None => match P2 with
            | Some P2 => Err ValueError
            | None => Err ValueError
          end
        end
      end
    end
    | None => match L with
      | Some L => match D_ with
        | Some D_ => match P1 with
          | Some P1 => match P2 with
            | Some P2 => t21 <- pdiv Ts Ps ;;
            t22 <- pdiv ((P1 ^ 2) - (P2 ^ 2)) (((L * SG) * Tavg) * Zavg) ;;
            t23 <- ppow t22 c3 ;;
            t24 <- ppow D_ c4 ;;
            Ok ((((c5 * E) * t21) * t23) * t24)
            | None => Err ValueError
          end
          | None => match P2 with
            | Some P2 => Err ValueError
            | None => Err ValueError
          end
        end
        | None => match P1 with
          | Some P1 => match P2 with
            | Some P2 => Err ValueError
            | None => Err ValueError
          end
          | None => match P2 with
            | Some P2 => Err ValueError
            | None => Err ValueError
          end
        end
      end
      | None => match D_ with
        | Some D_ => match P1 with
          | Some P1 => match P2 with
            | Some P2 => Err ValueError
            | None => Err ValueError
          end
          | None => match P2 with
            | Some P2 => Err ValueError
            | None => Err ValueError
          end
        end
        | None => match P1 with
          | Some P1 => match P2 with
            | Some P2 => Err ValueError
            | None => Err ValueError
          end
          | None => match P2 with
            | Some P2 => Err ValueError
            | None => Err ValueError
          end
        end
      end
    end
  end.

(** fluids/compressible.py:1409-1433 [Spitzglass_high]. First pass: the branch solving for D, which is the only one to call [secant], is left out so that the residual below can be stated. *)
Definition Spitzglass_high_explicit (SG : R) (Tavg : R) (L : option R) (D_ : option R) (P1 : option R) (P2 : option R) (Q_ : option R) (Ts : R) (Ps : R) (Zavg : R) (E : R) : result R :=
  let c3 := 1.181102362204724409448818897637795275591 in
  let c4 := 0.09144 in
  let c5 := 125.106 in
  match Q_ with
    | Some Q_ => match D_ with
      | Some D_ => match P1 with
        | Some P1 => match P2 with
          | Some P2 => match L with
            | Some L => Err ValueError
            | None => pdiv (((((D_ ^ 6) * (E ^ 2)) * (Ts ^ 2)) * (c5 ^ 2)) * ((P1 ^ 2) - (P2 ^ 2))) ((((((Ps ^ 2) * (Q_ ^ 2)) * SG) * Tavg) * Zavg) * ((((D_ ^ 2) * c3) + D_) + c4))
          end
          | None => match L with
            | Some L => t2 <- pdiv ((((((((D_ ^ 6) * (E ^ 2)) * (P1 ^ 2)) * (Ts ^ 2)) * (c5 ^ 2)) - ((((((((D_ ^ 2) * L) * (Ps ^ 2)) * (Q_ ^ 2)) * SG) * Tavg) * Zavg) * c3)) - ((((((D_ * L) * (Ps ^ 2)) * (Q_ ^ 2)) * SG) * Tavg) * Zavg)) - ((((((L * (Ps ^ 2)) * (Q_ ^ 2)) * SG) * Tavg) * Zavg) * c4)) ((((D_ ^ 6) * (E ^ 2)) * (Ts ^ 2)) * (c5 ^ 2)) ;;
            psqrt t2
            | None => Err ValueError
          end
        end
        | None => match L with
          | Some L => match P2 with
            | Some P2 => t4 <- pdiv ((((((((D_ ^ 6) * (E ^ 2)) * (P2 ^ 2)) * (Ts ^ 2)) * (c5 ^ 2)) + ((((((((D_ ^ 2) * L) * (Ps ^ 2)) * (Q_ ^ 2)) * SG) * Tavg) * Zavg) * c3)) + ((((((D_ * L) * (Ps ^ 2)) * (Q_ ^ 2)) * SG) * Tavg) * Zavg)) + ((((((L * (Ps ^ 2)) * (Q_ ^ 2)) * SG) * Tavg) * Zavg) * c4)) ((((D_ ^ 6) * (E ^ 2)) * (Ts ^ 2)) * (c5 ^ 2)) ;;
            psqrt t4
            | None => Err ValueError
          end
          | None => match P2 with
            | Some P2 => Err ValueError
            | None => Err ValueError
          end
        end
      end
      | None => match L with
        | Some L => match P1 with
          | Some P1 => match P2 with
            | Some P2 => Err NotImplementedError
            | None => Err ValueError
          end
          | None => match P2 with
            | Some P2 => Err ValueError
            | None => Err ValueError
          end
        end
        | None => match P1 with
          | Some P1 => match P2 with
            | Some P2 => Err ValueError
            | None => Err ValueError
          end
          | None => match P2 with
            | Some P2 => Err ValueError
            | None => Err ValueError
          end
        end
      end
    end
    | None => match L with
      | Some L => match D_ with
        | Some D_ => match P1 with
          | Some P1 => match P2 with
            | Some P2 => t7 <- pdiv ((c5 * E) * Ts) Ps ;;
            t8 <- ppow D_ 2.5 ;;
            t9 <- pdiv c4 D_ ;;
            t10 <- pdiv ((P1 ^ 2) - (P2 ^ 2)) ((((L * SG) * Zavg) * Tavg) * ((1 + t9) + (c3 * D_))) ;;
            t11 <- psqrt t10 ;;
            Ok ((t7 * t8) * t11)
            | None => Err ValueError
          end
          | None => match P2 with
            | Some P2 => Err ValueError
            | None => Err ValueError
          end
        end
        | None => match P1 with
          | Some P1 => match P2 with
            | Some P2 => Err ValueError
            | None => Err ValueError
          end
          | None => match P2 with
            | Some P2 => Err ValueError
            | None => Err ValueError
          end
        end
      end
      | None => match D_ with
        | Some D_ => match P1 with
          | Some P1 => match P2 with
            | Some P2 => Err ValueError
            | None => Err ValueError
          end
          | None => match P2 with
            | Some P2 => Err ValueError
            | None => Err ValueError
          end
        end
        | None => match P1 with
          | Some P1 => match P2 with
            | Some P2 => Err ValueError
            | None => Err ValueError
          end
          | None => match P2 with
            | Some P2 => Err ValueError
            | None => Err ValueError
          end
        end
      end
    end
  end.

(** fluids/compressible.py:1331-1332 [_to_solve_Spitzglass_high]. *)
Definition _to_solve_Spitzglass_high (D_ : R) (Q_ : R) (SG : R) (Tavg : R) (L : R) (P1 : R) (P2 : R) (Ts : R) (Ps : R) (Zavg : R) (E : R) : result R :=
  t1 <- Spitzglass_high_explicit SG Tavg (Some L) (Some D_) (Some P1) (Some P2) None Ts Ps Zavg E ;;
  Ok (Q_ - t1).

(** fluids/compressible.py:1409-1433 [Spitzglass_high]. [secant]: the root finder, a parameter. *)
Definition Spitzglass_high (secant : (R -> result R) -> R -> result R) (SG : R) (Tavg : R) (L : option R) (D_ : option R) (P1 : option R) (P2 : option R) (Q_ : option R) (Ts : R) (Ps : R) (Zavg : R) (E : R) : result R :=
  let c3 := 1.181102362204724409448818897637795275591 in
  let c4 := 0.09144 in
  let c5 := 125.106 in
  match Q_ with
    | Some Q_ => match D_ with
      | Some D_ => match P1 with
        | Some P1 => match P2 with
          | Some P2 => match L with
            | Some L => Err ValueError
            | None => pdiv (((((D_ ^ 6) * (E ^ 2)) * (Ts ^ 2)) * (c5 ^ 2)) * ((P1 ^ 2) - (P2 ^ 2))) ((((((Ps ^ 2) * (Q_ ^ 2)) * SG) * Tavg) * Zavg) * ((((D_ ^ 2) * c3) + D_) + c4))
          end
          | None => match L with
            | Some L => t2 <- pdiv ((((((((D_ ^ 6) * (E ^ 2)) * (P1 ^ 2)) * (Ts ^ 2)) * (c5 ^ 2)) - ((((((((D_ ^ 2) * L) * (Ps ^ 2)) * (Q_ ^ 2)) * SG) * Tavg) * Zavg) * c3)) - ((((((D_ * L) * (Ps ^ 2)) * (Q_ ^ 2)) * SG) * Tavg) * Zavg)) - ((((((L * (Ps ^ 2)) * (Q_ ^ 2)) * SG) * Tavg) * Zavg) * c4)) ((((D_ ^ 6) * (E ^ 2)) * (Ts ^ 2)) * (c5 ^ 2)) ;;
            psqrt t2
            | None => Err ValueError
          end
        end
        | None => match L with
          | Some L => match P2 with
            | Some P2 => t4 <- pdiv ((((((((D_ ^ 6) * (E ^ 2)) * (P2 ^ 2)) * (Ts ^ 2)) * (c5 ^ 2)) + ((((((((D_ ^ 2) * L) * (Ps ^ 2)) * (Q_ ^ 2)) * SG) * Tavg) * Zavg) * c3)) + ((((((D_ * L) * (Ps ^ 2)) * (Q_ ^ 2)) * SG) * Tavg) * Zavg)) + ((((((L * (Ps ^ 2)) * (Q_ ^ 2)) * SG) * Tavg) * Zavg) * c4)) ((((D_ ^ 6) * (E ^ 2)) * (Ts ^ 2)) * (c5 ^ 2)) ;;
            psqrt t4
            | None => Err ValueError
          end
          | None => match P2 with
            | Some P2 => Err ValueError
            | None => Err ValueError
          end
        end
      end
      | None => match L with
        | Some L => match P1 with
          | Some P1 => match P2 with
            | Some P2 => secant (fun x_ => _to_solve_Spitzglass_high x_ Q_ SG Tavg L P1 P2 Ts Ps Zavg E) 0.5
            | None => Err ValueError
          end
          | None => match P2 with
            | Some P2 => Err ValueError
            | None => Err ValueError
          end
        end
        | None => match P1 with
          | Some P1 => match P2 with
            | Some P2 => Err ValueError
            | None => Err ValueError
          end
          | None => match P2 with
            | Some P2 => Err ValueError
            | None => Err ValueError
          end
        end
      end
    end
    | None => match L with
      | Some L => match D_ with
        | Some D_ => match P1 with
          | Some P1 => match P2 with
            | Some P2 => t7 <- pdiv ((c5 * E) * Ts) Ps ;;
            t8 <- ppow D_ 2.5 ;;
            t9 <- pdiv c4 D_ ;;
            t10 <- pdiv ((P1 ^ 2) - (P2 ^ 2)) ((((L * SG) * Zavg) * Tavg) * ((1 + t9) + (c3 * D_))) ;;
            t11 <- psqrt t10 ;;
            Ok ((t7 * t8) * t11)
            | None => Err ValueError
          end
          | None => match P2 with
            | Some P2 => Err ValueError
            | None => Err ValueError
          end
        end
        | None => match P1 with
          | Some P1 => match P2 with
            | Some P2 => Err ValueError
            | None => Err ValueError
          end
          | None => match P2 with
            | Some P2 => Err ValueError
            | None => Err ValueError
          end
        end
      end
      | None => match D_ with
        | Some D_ => match P1 with
          | Some P1 => match P2 with
            | Some P2 => Err ValueError
            | None => Err ValueError
          end
          | None => match P2 with
            | Some P2 => Err ValueError
            | None => Err ValueError
          end
        end
        | None => match P1 with
          | Some P1 => match P2 with
            | Some P2 => Err ValueError
            | None => Err ValueError
          end
          | None => match P2 with
            | Some P2 => Err ValueError
            | None => Err ValueError
          end
        end
      end
    end
  end.

(** fluids/compressible.py:1533-1549 [Spitzglass_low]. First pass: the branch solving for D, which is the only one to call [secant], is left out so that the residual below can be stated. *)
Definition Spitzglass_low_explicit (SG : R) (Tavg : R) (L : option R) (D_ : option R) (P1 : option R) (P2 : option R) (Q_ : option R) (Ts : R) (Ps : R) (Zavg : R) (E : R) : result R :=
  let c3 := 1.181102362204724409448818897637795275591 in
  let c4 := 0.09144 in
  let c5 := 125.106 in
  match Q_ with
    | Some Q_ => match D_ with
      | Some D_ => match P1 with
        | Some P1 => match P2 with
          | Some P2 => match L with
            | Some L => Err ValueError
            | None => pdiv (((((2 * (D_ ^ 6)) * (E ^ 2)) * (Ts ^ 2)) * (c5 ^ 2)) * ((((P1 * Ps) + (1210 * P1)) - (P2 * Ps)) - (1210 * P2))) ((((((Ps ^ 2) * (Q_ ^ 2)) * SG) * Tavg) * Zavg) * ((((D_ ^ 2) * c3) + D_) + c4))
          end
          | None => match L with
            | Some L => pdiv (0.5 * (((((((((2 * (D_ ^ 6)) * (E ^ 2)) * P1) * (Ts ^ 2)) * (c5 ^ 2)) * (Ps + 1210)) - ((((((((D_ ^ 2) * L) * (Ps ^ 2)) * (Q_ ^ 2)) * SG) * Tavg) * Zavg) * c3)) - ((((((D_ * L) * (Ps ^ 2)) * (Q_ ^ 2)) * SG) * Tavg) * Zavg)) - ((((((L * (Ps ^ 2)) * (Q_ ^ 2)) * SG) * Tavg) * Zavg) * c4))) (((((D_ ^ 6) * (E ^ 2)) * (Ts ^ 2)) * (c5 ^ 2)) * (Ps + 1210))
            | None => Err ValueError
          end
        end
        | None => match L with
          | Some L => match P2 with
            | Some P2 => pdiv (0.5 * (((((((((2 * (D_ ^ 6)) * (E ^ 2)) * P2) * (Ts ^ 2)) * (c5 ^ 2)) * (Ps + 1210)) + ((((((((D_ ^ 2) * L) * (Ps ^ 2)) * (Q_ ^ 2)) * SG) * Tavg) * Zavg) * c3)) + ((((((D_ * L) * (Ps ^ 2)) * (Q_ ^ 2)) * SG) * Tavg) * Zavg)) + ((((((L * (Ps ^ 2)) * (Q_ ^ 2)) * SG) * Tavg) * Zavg) * c4))) (((((D_ ^ 6) * (E ^ 2)) * (Ts ^ 2)) * (c5 ^ 2)) * (Ps + 1210))
            | None => Err ValueError
          end
          | None => match P2 with
            | Some P2 => Err ValueError
            | None => Err ValueError
          end
        end
      end
      | None => match L with
        | Some L => match P1 with
          | Some P1 => match P2 with
            | Some P2 => Err NotImplementedError
            | None => Err ValueError
          end
          | None => match P2 with
            | Some P2 => Err ValueError
            | None => Err ValueError
          end
        end
        | None => match P1 with
          | Some P1 => match P2 with
            | Some P2 => Err ValueError
            | None => Err ValueError
          end
          | None => match P2 with
            | Some P2 => Err ValueError
            | None => Err ValueError
          end
        end
      end
    end
    | None => match L with
      | Some L => match D_ with
        | Some D_ => match P1 with
          | Some P1 => match P2 with
            | Some P2 => t5 <- pdiv (c5 * Ts) Ps ;;
            t6 <- ppow D_ 2.5 ;;
            t7 <- pdiv c4 D_ ;;
            t8 <- pdiv (((P1 - P2) * 2) * (Ps + 1210)) ((((L * SG) * Tavg) * Zavg) * ((1 + t7) + (c3 * D_))) ;;
            t9 <- psqrt t8 ;;
            Ok (((t5 * t6) * E) * t9)
            | None => Err ValueError
          end
          | None => match P2 with
            | Some P2 => Err ValueError
            | None => Err ValueError
          end
        end
        | None => match P1 with
          | Some P1 => match P2 with
            | Some P2 => Err ValueError
            | None => Err ValueError
          end
          | None => match P2 with
            | Some P2 => Err ValueError
            | None => Err ValueError
          end
        end
      end
      | None => match D_ with
        | Some D_ => match P1 with
          | Some P1 => match P2 with
            | Some P2 => Err ValueError
            | None => Err ValueError
          end
          | None => match P2 with
            | Some P2 => Err ValueError
            | None => Err ValueError
          end
        end
        | None => match P1 with
          | Some P1 => match P2 with
            | Some P2 => Err ValueError
            | None => Err ValueError
          end
          | None => match P2 with
            | Some P2 => Err ValueError
            | None => Err ValueError
          end
        end
      end
    end
  end.

(** fluids/compressible.py:1436-1436 [_to_solve_Spitzglass_low]. *)
Definition _to_solve_Spitzglass_low (D_ : R) (Q_ : R) (SG : R) (Tavg : R) (L : R) (P1 : R) (P2 : R) (Ts : R) (Ps : R) (Zavg : R) (E : R) : result R :=
  t1 <- Spitzglass_low_explicit SG Tavg (Some L) (Some D_) (Some P1) (Some P2) None Ts Ps Zavg E ;;
  Ok (Q_ - t1).

(** fluids/compressible.py:1533-1549 [Spitzglass_low]. [secant]: the root finder, a parameter. *)
Definition Spitzglass_low (secant : (R -> result R) -> R -> result R) (SG : R) (Tavg : R) (L : option R) (D_ : option R) (P1 : option R) (P2 : option R) (Q_ : option R) (Ts : R) (Ps : R) (Zavg : R) (E : R) : result R :=
  let c3 := 1.181102362204724409448818897637795275591 in
  let c4 := 0.09144 in
  let c5 := 125.106 in
  match Q_ with
    | Some Q_ => match D_ with
      | Some D_ => match P1 with
        | Some P1 => match P2 with
          | Some P2 => match L with
            | Some L => Err ValueError
            | None => pdiv (((((2 * (D_ ^ 6)) * (E ^ 2)) * (Ts ^ 2)) * (c5 ^ 2)) * ((((P1 * Ps) + (1210 * P1)) - (P2 * Ps)) - (1210 * P2))) ((((((Ps ^ 2) * (Q_ ^ 2)) * SG) * Tavg) * Zavg) * ((((D_ ^ 2) * c3) + D_) + c4))
          end
          | None => match L with
            | Some L => pdiv (0.5 * (((((((((2 * (D_ ^ 6)) * (E ^ 2)) * P1) * (Ts ^ 2)) * (c5 ^ 2)) * (Ps + 1210)) - ((((((((D_ ^ 2) * L) * (Ps ^ 2)) * (Q_ ^ 2)) * SG) * Tavg) * Zavg) * c3)) - ((((((D_ * L) * (Ps ^ 2)) * (Q_ ^ 2)) * SG) * Tavg) * Zavg)) - ((((((L * (Ps ^ 2)) * (Q_ ^ 2)) * SG) * Tavg) * Zavg) * c4))) (((((D_ ^ 6) * (E ^ 2)) * (Ts ^ 2)) * (c5 ^ 2)) * (Ps + 1210))
            | None => Err ValueError
          end
        end
        | None => match L with
          | Some L => match P2 with
            | Some P2 => pdiv (0.5 * (((((((((2 * (D_ ^ 6)) * (E ^ 2)) * P2) * (Ts ^ 2)) * (c5 ^ 2)) * (Ps + 1210)) + ((((((((D_ ^ 2) * L) * (Ps ^ 2)) * (Q_ ^ 2)) * SG) * Tavg) * Zavg) * c3)) + ((((((D_ * L) * (Ps ^ 2)) * (Q_ ^ 2)) * SG) * Tavg) * Zavg)) + ((((((L * (Ps ^ 2)) * (Q_ ^ 2)) * SG) * Tavg) * Zavg) * c4))) (((((D_ ^ 6) * (E ^ 2)) * (Ts ^ 2)) * (c5 ^ 2)) * (Ps + 1210))
            | None => Err ValueError
          end
          | None => match P2 with
            | Some P2 => Err ValueError
            | None => Err ValueError
          end
        end
      end
      | None => match L with
        | Some L => match P1 with
          | Some P1 => match P2 with
            | Some P2 => secant (fun x_ => _to_solve_Spitzglass_low x_ Q_ SG Tavg L P1 P2 Ts Ps Zavg E) 0.5
            | None => Err ValueError
          end
          | None => match P2 with
            | Some P2 => Err ValueError
            | None => Err ValueError
          end
        end
        | None => match P1 with
          | Some P1 => match P2 with
            | Some P2 => Err ValueError
            | None => Err ValueError
          end
          | None => match P2 with
            | Some P2 => Err ValueError
            | None => Err ValueError
          end
        end
      end
    end
    | None => match L with
      | Some L => match D_ with
        | Some D_ => match P1 with
          | Some P1 => match P2 with
            | Some P2 => t5 <- pdiv (c5 * Ts) Ps ;;
            t6 <- ppow D_ 2.5 ;;
            t7 <- pdiv c4 D_ ;;
            t8 <- pdiv (((P1 - P2) * 2) * (Ps + 1210)) ((((L * SG) * Tavg) * Zavg) * ((1 + t7) + (c3 * D_))) ;;
            t9 <- psqrt t8 ;;
            Ok (((t5 * t6) * E) * t9)
            | None => Err ValueError
          end
          | None => match P2 with
            | Some P2 => Err ValueError
            | None => Err ValueError
          end
        end
        | None => match P1 with
          | Some P1 => match P2 with
            | Some P2 => Err ValueError
            | None => Err ValueError
          end
          | None => match P2 with
            | Some P2 => Err ValueError
            | None => Err ValueError
          end
        end
      end
      | None => match D_ with
        | Some D_ => match P1 with
          | Some P1 => match P2 with
            | Some P2 => Err ValueError
            | None => Err ValueError
          end
          | None => match P2 with
            | Some P2 => Err ValueError
            | None => Err ValueError
          end
        end
        | None => match P1 with
          | Some P1 => match P2 with
            | Some P2 => Err ValueError
            | None => Err ValueError
          end
          | None => match P2 with
            | Some P2 => Err ValueError
            | None => Err ValueError
          end
        end
      end
    end
  end.

(** fluids/compressible.py:1630-1645 [Oliphant]. First pass: the branch solving for D, which is the only one to call [secant], is left out so that the residual below can be stated. *)
Definition Oliphant_explicit (SG : R) (Tavg : R) (L : option R) (D_ : option R) (P1 : option R) (P2 : option R) (Q_ : option R) (Ts : R) (Ps : R) (Zavg : R) (E : R) : result R :=
  let c1 := 84.587176139918568651410168968141078948974609375 in
  let c2 := 0.2091519350460528670065940559652517549694 in
  match Q_ with
    | Some Q_ => match D_ with
      | Some D_ => match P1 with
        | Some P1 => match P2 with
          | Some P2 => match L with
            | Some L => Err ValueError
            | None => t1 <- ppow D_ 2.5 ;;
            pdiv ((((Ts ^ 2) * (c1 ^ 2)) * ((P1 ^ 2) - (P2 ^ 2))) * ((((D_ ^ 3) * c2) + t1) ^ 2)) ((((Ps ^ 2) * (Q_ ^ 2)) * SG) * Tavg)
          end
          | None => match L with
            | Some L => t3 <- ppow D_ 2.5 ;;
            t4 <- pdiv (((((- L) * (Ps ^ 2)) * (Q_ ^ 2)) * SG) * Tavg) (((Ts ^ 2) * (c1 ^ 2)) * ((((D_ ^ 3) * c2) + t3) ^ 2)) ;;
            psqrt (t4 + (P1 ^ 2))
            | None => Err ValueError
          end
        end
        | None => match L with
          | Some L => match P2 with
            | Some P2 => t6 <- ppow D_ 2.5 ;;
            t7 <- pdiv ((((L * (Ps ^ 2)) * (Q_ ^ 2)) * SG) * Tavg) (((Ts ^ 2) * (c1 ^ 2)) * ((((D_ ^ 3) * c2) + t6) ^ 2)) ;;
            psqrt (t7 + (P2 ^ 2))
            | None => Err ValueError
          end
          | None => match P2 with
            | Some P2 => Err ValueError
            | None => Err ValueError
          end
        end
      end
      | None => match L with
        | Some L => match P1 with
          | Some P1 => match P2 with
            | Some P2 => Err NotImplementedError
            | None => Err ValueError
          end
          | None => match P2 with
            | Some P2 => Err ValueError
            | None => Err ValueError
          end
        end
        | None => match P1 with
          | Some P1 => match P2 with
            | Some P2 => Err ValueError
            | None => Err ValueError
          end
          | None => match P2 with
            | Some P2 => Err ValueError
            | None => Err ValueError
          end
        end
      end
    end
    | None => match L with
      | Some L => match D_ with
        | Some D_ => match P1 with
          | Some P1 => match P2 with
            | Some P2 => t10 <- ppow D_ 2.5 ;;
            t11 <- pdiv ((c1 * (t10 + (c2 * (D_ ^ 3)))) * Ts) Ps ;;
            t12 <- pdiv ((P1 ^ 2) - (P2 ^ 2)) ((L * SG) * Tavg) ;;
            t13 <- psqrt t12 ;;
            Ok (t11 * t13)
            | None => Err ValueError
          end
          | None => match P2 with
            | Some P2 => Err ValueError
            | None => Err ValueError
          end
        end
        | None => match P1 with
          | Some P1 => match P2 with
            | Some P2 => Err ValueError
            | None => Err ValueError
          end
          | None => match P2 with
            | Some P2 => Err ValueError
            | None => Err ValueError
          end
        end
      end
      | None => match D_ with
        | Some D_ => match P1 with
          | Some P1 => match P2 with
            | Some P2 => Err ValueError
            | None => Err ValueError
          end
          | None => match P2 with
            | Some P2 => Err ValueError
            | None => Err ValueError
          end
        end
        | None => match P1 with
          | Some P1 => match P2 with
            | Some P2 => Err ValueError
            | None => Err ValueError
          end
          | None => match P2 with
            | Some P2 => Err ValueError
            | None => Err ValueError
          end
        end
      end
    end
  end.

(** fluids/compressible.py:1552-1552 [_to_solve_Oliphant]. *)
Definition _to_solve_Oliphant (D_ : R) (Q_ : R) (SG : R) (Tavg : R) (L : R) (P1 : R) (P2 : R) (Ts : R) (Ps : R) (Zavg : R) (E : R) : result R :=
  t1 <- Oliphant_explicit SG Tavg (Some L) (Some D_) (Some P1) (Some P2) None Ts Ps Zavg E ;;
  Ok (Q_ - t1).

(** fluids/compressible.py:1630-1645 [Oliphant]. [secant]: the root finder, a parameter. *)
Definition Oliphant (secant : (R -> result R) -> R -> result R) (SG : R) (Tavg : R) (L : option R) (D_ : option R) (P1 : option R) (P2 : option R) (Q_ : option R) (Ts : R) (Ps : R) (Zavg : R) (E : R) : result R :=
  let c1 := 84.587176139918568651410168968141078948974609375 in
  let c2 := 0.2091519350460528670065940559652517549694 in
  match Q_ with
    | Some Q_ => match D_ with
      | Some D_ => match P1 with
        | Some P1 => match P2 with
          | Some P2 => match L with
            | Some L => Err ValueError
            | None => t1 <- ppow D_ 2.5 ;;
            pdiv ((((Ts ^ 2) * (c1 ^ 2)) * ((P1 ^ 2) - (P2 ^ 2))) * ((((D_ ^ 3) * c2) + t1) ^ 2)) ((((Ps ^ 2) * (Q_ ^ 2)) * SG) * Tavg)
          end
          | None => match L with
            | Some L => t3 <- ppow D_ 2.5 ;;
            t4 <- pdiv (((((- L) * (Ps ^ 2)) * (Q_ ^ 2)) * SG) * Tavg) (((Ts ^ 2) * (c1 ^ 2)) * ((((D_ ^ 3) * c2) + t3) ^ 2)) ;;
            psqrt (t4 + (P1 ^ 2))
            | None => Err ValueError
          end
        end
        | None => match L with
          | Some L => match P2 with
            | Some P2 => t6 <- ppow D_ 2.5 ;;
            t7 <- pdiv ((((L * (Ps ^ 2)) * (Q_ ^ 2)) * SG) * Tavg) (((Ts ^ 2) * (c1 ^ 2)) * ((((D_ ^ 3) * c2) + t6) ^ 2)) ;;
            psqrt (t7 + (P2 ^ 2))
            | None => Err ValueError
          end
          | None => match P2 with
            | Some P2 => Err ValueError
            | None => Err ValueError
          end
        end
      end
      | None => match L with
        | Some L => match P1 with
          | Some P1 => match P2 with
            | Some P2 => secant (fun x_ => _to_solve_Oliphant x_ Q_ SG Tavg L P1 P2 Ts Ps Zavg E) 0.5
            | None => Err ValueError
          end
          | None => match P2 with
            | Some P2 => Err ValueError
            | None => Err ValueError
          end
        end
        | None => match P1 with
          | Some P1 => match P2 with
            | Some P2 => Err ValueError
            | None => Err ValueError
          end
          | None => match P2 with
            | Some P2 => Err ValueError
            | None => Err ValueError
          end
        end
      end
    end
    | None => match L with
      | Some L => match D_ with
        | Some D_ => match P1 with
          | Some P1 => match P2 with
            | Some P2 => t10 <- ppow D_ 2.5 ;;
            t11 <- pdiv ((c1 * (t10 + (c2 * (D_ ^ 3)))) * Ts) Ps ;;
            t12 <- pdiv ((P1 ^ 2) - (P2 ^ 2)) ((L * SG) * Tavg) ;;
            t13 <- psqrt t12 ;;
            Ok (t11 * t13)
            | None => Err ValueError
          end
          | None => match P2 with
            | Some P2 => Err ValueError
            | None => Err ValueError
          end
        end
        | None => match P1 with
          | Some P1 => match P2 with
            | Some P2 => Err ValueError
            | None => Err ValueError
          end
          | None => match P2 with
            | Some P2 => Err ValueError
            | None => Err ValueError
          end
        end
      end
      | None => match D_ with
        | Some D_ => match P1 with
          | Some P1 => match P2 with
            | Some P2 => Err ValueError
            | None => Err ValueError
          end
          | None => match P2 with
            | Some P2 => Err ValueError
            | None => Err ValueError
          end
        end
        | None => match P1 with
          | Some P1 => match P2 with
            | Some P2 => Err ValueError
            | None => Err ValueError
          end
          | None => match P2 with
            | Some P2 => Err ValueError
            | None => Err ValueError
          end
        end
      end
    end
  end.

(** fluids/compressible.py:1724-1739 [Fritzsche]. *)
Definition Fritzsche (SG : R) (Tavg : R) (L : option R) (D_ : option R) (P1 : option R) (P2 : option R) (Q_ : option R) (Ts : R) (Ps : R) (Zavg : R) (E : R) : result R :=
  let c5 := 93.50009798751128188757518688244137811221 in
  let c2 := 0.8587 in
  let c3 := 0.538 in
  let c4 := 2.69 in
  match Q_ with
    | Some Q_ => match D_ with
      | Some D_ => match P1 with
        | Some P1 => match P2 with
          | Some P2 => match L with
            | Some L => Err ValueError
            | None => t1 <- ppow SG (- c2) ;;
            t2 <- ppow D_ (- c4) ;;
            t3 <- pdiv ((t2 * Ps) * Q_) ((E * Ts) * c5) ;;
            t4 <- pdiv (- 1) c3 ;;
            t5 <- ppow t3 t4 ;;
            pdiv ((t1 * t5) * ((P1 ^ 2) - (P2 ^ 2))) (Tavg * Zavg)
          end
          | None => match L with
            | Some L => t7 <- ppow SG c2 ;;
            t8 <- ppow D_ (- c4) ;;
            t9 <- pdiv ((t8 * Ps) * Q_) ((E * Ts) * c5) ;;
            t10 <- pdiv 1 c3 ;;
            t11 <- ppow t9 t10 ;;
            psqrt ((((((- L) * t7) * Tavg) * Zavg) * t11) + (P1 ^ 2))
            | None => Err ValueError
          end
        end
        | None => match L with
          | Some L => match P2 with
            | Some P2 => t13 <- ppow SG c2 ;;
            t14 <- ppow D_ (- c4) ;;
            t15 <- pdiv ((t14 * Ps) * Q_) ((E * Ts) * c5) ;;
            t16 <- pdiv 1 c3 ;;
            t17 <- ppow t15 t16 ;;
            psqrt (((((L * t13) * Tavg) * Zavg) * t17) + (P2 ^ 2))
            | None => Err ValueError
          end
          | None => match P2 with
            | Some P2 => Err ValueError
            | None => Err ValueError
          end
        end
      end
      | None => match L with
        | Some L => match P1 with
          | Some P1 => match P2 with
            | Some P2 => t19 <- ppow SG (- c2) ;;
            t20 <- pdiv (t19 * ((P1 ^ 2) - (P2 ^ 2))) ((L * Tavg) * Zavg) ;;
            t21 <- ppow t20 (- c3) ;;
            t22 <- pdiv ((Ps * Q_) * t21) ((E * Ts) * c5) ;;
            t23 <- pdiv 1 c4 ;;
            ppow t22 t23
            | None => Err ValueError
          end
          | None => match P2 with
            | Some P2 => Err ValueError
            | None => Err ValueError
          end
        end
        | None => match P1 with
          | Some P1 => match P2 with
            | Some P2 => Err ValueError
            | None => Err ValueError
          end
          | None => match P2 with
            | Some P2 => Err ValueError
            | None => Err ValueError
          end
        end
      end
    end
    | None => match L with
      | Some L => match D_ with
        | Some D_ => match P1 with
          | Some P1 => match P2 with
            | Some P2 => t25 <- pdiv Ts Ps ;;
            t26 <- ppow SG c2 ;;
            t27 <- pdiv ((P1 ^ 2) - (P2 ^ 2)) (((t26 * Tavg) * L) * Zavg) ;;
            t28 <- ppow t27 c3 ;;
            t29 <- ppow D_ c4 ;;
            Ok ((((c5 * E) * t25) * t28) * t29)
            | None => Err ValueError
          end
          | None => match P2 with
            | Some P2 => Err ValueError
            | None => Err ValueError
          end
        end
        | None => match P1 with
          | Some P1 => match P2 with
            | Some P2 => Err ValueError
            | None => Err ValueError
          end
          | None => match P2 with
            | Some P2 => Err ValueError
            | None => Err ValueError
          end
        end
      end
      | None => match D_ with
        | Some D_ => match P1 with
          | Some P1 => match P2 with
            | Some P2 => Err ValueError
            | None => Err ValueError
          end
          | None => match P2 with
            | Some P2 => Err ValueError
            | None => Err ValueError
          end
        end
        | None => match P1 with
          | Some P1 => match P2 with
            | Some P2 => Err ValueError
            | None => Err ValueError
          end
          | None => match P2 with
            | Some P2 => Err ValueError
            | None => Err ValueError
          end
        end
      end
    end
  end.

(** fluids/compressible.py:1833-1849 [Muller]. *)
Definition Muller (SG : R) (Tavg : R) (mu : R) (L : option R) (D_ : option R) (P1 : option R) (P2 : option R) (Q_ : option R) (Ts : R) (Ps : R) (Zavg : R) (E : R) : result R :=
  let c5 := 15.77439908642077352939746374951659525108 in
  let c2 := 0.575 in
  let c3 := 2.725 in
  let c4 := 0.425 in
  let c1 := 0.15 in
  match Q_ with
    | Some Q_ => match D_ with
      | Some D_ => match P1 with
        | Some P1 => match P2 with
          | Some P2 => match L with
            | Some L => Err ValueError
            | None => t1 <- ppow D_ (- c3) ;;
            t2 <- ppow SG c4 ;;
            t3 <- ppow mu c1 ;;
            t4 <- pdiv ((((t1 * Ps) * Q_) * t2) * t3) ((E * Ts) * c5) ;;
            t5 <- pdiv (- 1) c2 ;;
            t6 <- ppow t4 t5 ;;
            pdiv (t6 * ((P1 ^ 2) - (P2 ^ 2))) (Tavg * Zavg)
          end
          | None => match L with
            | Some L => t8 <- ppow D_ (- c3) ;;
            t9 <- ppow SG c4 ;;
            t10 <- ppow mu c1 ;;
            t11 <- pdiv ((((t8 * Ps) * Q_) * t9) * t10) ((E * Ts) * c5) ;;
            t12 <- pdiv 1 c2 ;;
            t13 <- ppow t11 t12 ;;
            psqrt (((((- L) * Tavg) * Zavg) * t13) + (P1 ^ 2))
            | None => Err ValueError
          end
        end
        | None => match L with
          | Some L => match P2 with
            | Some P2 => t15 <- ppow D_ (- c3) ;;
            t16 <- ppow SG c4 ;;
            t17 <- ppow mu c1 ;;
            t18 <- pdiv ((((t15 * Ps) * Q_) * t16) * t17) ((E * Ts) * c5) ;;
            t19 <- pdiv 1 c2 ;;
            t20 <- ppow t18 t19 ;;
            psqrt ((((L * Tavg) * Zavg) * t20) + (P2 ^ 2))
            | None => Err ValueError
          end
          | None => match P2 with
            | Some P2 => Err ValueError
            | None => Err ValueError
          end
        end
      end
      | None => match L with
        | Some L => match P1 with
          | Some P1 => match P2 with
            | Some P2 => t22 <- ppow SG c4 ;;
            t23 <- ppow mu c1 ;;
            t24 <- pdiv ((P1 ^ 2) - (P2 ^ 2)) ((L * Tavg) * Zavg) ;;
            t25 <- ppow t24 (- c2) ;;
            t26 <- pdiv ((((Ps * Q_) * t22) * t23) * t25) ((E * Ts) * c5) ;;
            t27 <- pdiv 1 c3 ;;
            ppow t26 t27
            | None => Err ValueError
          end
          | None => match P2 with
            | Some P2 => Err ValueError
            | None => Err ValueError
          end
        end
        | None => match P1 with
          | Some P1 => match P2 with
            | Some P2 => Err ValueError
            | None => Err ValueError
          end
          | None => match P2 with
            | Some P2 => Err ValueError
            | None => Err ValueError
          end
        end
      end
    end
    | None => match L with
      | Some L => match D_ with
        | Some D_ => match P1 with
          | Some P1 => match P2 with
            | Some P2 => t29 <- pdiv (c5 * Ts) Ps ;;
            t30 <- pdiv ((P1 ^ 2) - (P2 ^ 2)) Tavg ;;
            t31 <- pdiv t30 L ;;
            t32 <- pdiv t31 Zavg ;;
            t33 <- ppow t32 c2 ;;
            t34 <- ppow D_ c3 ;;
            t35 <- ppow SG c4 ;;
            t36 <- pdiv (((t29 * E) * t33) * t34) t35 ;;
            t37 <- ppow mu c1 ;;
            pdiv t36 t37
            | None => Err ValueError
          end
          | None => match P2 with
            | Some P2 => Err ValueError
            | None => Err ValueError
          end
        end
        | None => match P1 with
          | Some P1 => match P2 with
            | Some P2 => Err ValueError
            | None => Err ValueError
          end
          | None => match P2 with
            | Some P2 => Err ValueError
            | None => Err ValueError
          end
        end
      end
      | None => match D_ with
        | Some D_ => match P1 with
          | Some P1 => match P2 with
            | Some P2 => Err ValueError
            | None => Err ValueError
          end
          | None => match P2 with
            | Some P2 => Err ValueError
            | None => Err ValueError
          end
        end
        | None => match P1 with
          | Some P1 => match P2 with
            | Some P2 => Err ValueError
            | None => Err ValueError
          end
          | None => match P2 with
            | Some P2 => Err ValueError
            | None => Err ValueError
          end
        end
      end
    end
  end.

(** fluids/compressible.py:1940-1956 [IGT]. *)
Definition IGT (SG : R) (Tavg : R) (mu : R) (L : option R) (D_ : option R) (P1 : option R) (P2 : option R) (Q_ : option R) (Ts : R) (Ps : R) (Zavg : R) (E : R) : result R :=
  let c5 := 24.6241245146140705487530170944393035055 in
  let c2 := (5 / 9) in
  let c3 := (8 / 3) in
  let c4 := (4 / 9) in
  let c1 := (1 / 9) in
  match Q_ with
    | Some Q_ => match D_ with
      | Some D_ => match P1 with
        | Some P1 => match P2 with
          | Some P2 => match L with
            | Some L => Err ValueError
            | None => t1 <- ppow D_ (- c3) ;;
            t2 <- ppow SG c4 ;;
            t3 <- ppow mu c1 ;;
            t4 <- pdiv ((((t1 * Ps) * Q_) * t2) * t3) ((E * Ts) * c5) ;;
            t5 <- pdiv (- 1) c2 ;;
            t6 <- ppow t4 t5 ;;
            pdiv (t6 * ((P1 ^ 2) - (P2 ^ 2))) (Tavg * Zavg)
          end
          | None => match L with
            | Some L => t8 <- ppow D_ (- c3) ;;
            t9 <- ppow SG c4 ;;
            t10 <- ppow mu c1 ;;
            t11 <- pdiv ((((t8 * Ps) * Q_) * t9) * t10) ((E * Ts) * c5) ;;
            t12 <- pdiv 1 c2 ;;
            t13 <- ppow t11 t12 ;;
            psqrt (((((- L) * Tavg) * Zavg) * t13) + (P1 ^ 2))
            | None => Err ValueError
          end
        end
        | None => match L with
          | Some L => match P2 with
            | Some P2 => t15 <- ppow D_ (- c3) ;;
            t16 <- ppow SG c4 ;;
            t17 <- ppow mu c1 ;;
            t18 <- pdiv ((((t15 * Ps) * Q_) * t16) * t17) ((E * Ts) * c5) ;;
            t19 <- pdiv 1 c2 ;;
            t20 <- ppow t18 t19 ;;
            psqrt ((((L * Tavg) * Zavg) * t20) + (P2 ^ 2))
            | None => Err ValueError
          end
          | None => match P2 with
            | Some P2 => Err ValueError
            | None => Err ValueError
          end
        end
      end
      | None => match L with
        | Some L => match P1 with
          | Some P1 => match P2 with
            | Some P2 => t22 <- ppow SG c4 ;;
            t23 <- ppow mu c1 ;;
            t24 <- pdiv ((P1 ^ 2) - (P2 ^ 2)) ((L * Tavg) * Zavg) ;;
            t25 <- ppow t24 (- c2) ;;
            t26 <- pdiv ((((Ps * Q_) * t22) * t23) * t25) ((E * Ts) * c5) ;;
            t27 <- pdiv 1 c3 ;;
            ppow t26 t27
            | None => Err ValueError
          end
          | None => match P2 with
            | Some P2 => Err ValueError
            | None => Err ValueError
          end
        end
        | None => match P1 with
          | Some P1 => match P2 with
            | Some P2 => Err ValueError
            | None => Err ValueError
          end
          | None => match P2 with
            | Some P2 => Err ValueError
            | None => Err ValueError
          end
        end
      end
    end
    | None => match L with
      | Some L => match D_ with
        | Some D_ => match P1 with
          | Some P1 => match P2 with
            | Some P2 => t29 <- pdiv (c5 * Ts) Ps ;;
            t30 <- pdiv ((P1 ^ 2) - (P2 ^ 2)) Tavg ;;
            t31 <- pdiv t30 L ;;
            t32 <- pdiv t31 Zavg ;;
            t33 <- ppow t32 c2 ;;
            t34 <- ppow D_ c3 ;;
            t35 <- ppow SG c4 ;;
            t36 <- pdiv (((t29 * E) * t33) * t34) t35 ;;
            t37 <- ppow mu c1 ;;
            pdiv t36 t37
            | None => Err ValueError
          end
          | None => match P2 with
            | Some P2 => Err ValueError
            | None => Err ValueError
          end
        end
        | None => match P1 with
          | Some P1 => match P2 with
            | Some P2 => Err ValueError
            | None => Err ValueError
          end
          | None => match P2 with
            | Some P2 => Err ValueError
            | None => Err ValueError
          end
        end
      end
      | None => match D_ with
        | Some D_ => match P1 with
          | Some P1 => match P2 with
            | Some P2 => Err ValueError
            | None => Err ValueError
          end
          | None => match P2 with
            | Some P2 => Err ValueError
            | None => Err ValueError
          end
        end
        | None => match P1 with
          | Some P1 => match P2 with
            | Some P2 => Err ValueError
            | None => Err ValueError
          end
          | None => match P2 with
            | Some P2 => Err ValueError
            | None => Err ValueError
          end
        end
      end
    end
  end.
