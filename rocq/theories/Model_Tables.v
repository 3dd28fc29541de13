(** Table lookups of /repo/fluids/piping.py, pump.py and safety_valve.py, on the tables of Data_*.v.
    Numbers are exact ([Num] instances); [rint] is the exact value's nearest integer (ties to even), which Python's
    round(x, n) uses on the exact value of x. *)
From Coq Require Import String List Bool QArith Qround Reals R_Ifp ZArith Arith DecimalString.
From Verif Require Import Base Model_Numerics Model_Splines Data_Piping Data_Pump Data_Safety.
Import ListNotations.

Class Rint (A : Type) := rint : A -> Z.
Definition rint_from (f : Z) (below above : bool) : Z :=
  if below then f else if above then (f + 1)%Z else if Z.even f then f else (f + 1)%Z.
#[export] Instance RintQ : Rint Q := fun x =>
  let f := Qfloor x in let d := (x - inject_Z f)%Q in rint_from f (Qltb d (1#2)) (Qltb (1#2) d).
#[export] Instance RintR : Rint R := fun x =>
  let f := Int_part x in let d := (x - IZR f)%R in rint_from f (Rltb d (1/2)%R) (Rltb (1/2)%R d).

Fixpoint assoc_str {B} (k : string) (l : list (string * B)) : option B :=
  match l with [] => None | (k', b) :: r => if String.eqb k k' then Some b else assoc_str k r end.

Section Generic.
Context {A : Type} `{NA : Num A} `{RA : Rint A}.
Local Open Scope num_scope.
Definition tbl (l : list Q) : list A := map nQ l.
(** Python's round(x, n), n digits *)
Definition pyround (x : A) (n : nat) : A :=
  let s := (10 ^ Z.of_nat n)%Z in nQ (inject_Z (rint (x * nQ (inject_Z s))%num) / inject_Z s)%Q.

(** ** piping.py *)
Definition row4 : Type := (A * A * A * A)%type.
(** piping.py:603-619 [Di_lookup], [Do_lookup]: the same loop with keys Dis or Dos; the remaining indices are listed *)
Fixpoint D_scan (x : A) (keys NPSes Dis Dos ts : list A) (is : list nat) : result row4 :=
  match is with
  | [] => Err ValueError
  | i :: is' =>
      last <- last_of keys ;;
      if last <? x then Err ValueError
      else
        k <- idx keys i ;;
        if x <=? k then
          nps <- idx NPSes i ;; di <- idx Dis i ;; do_ <- idx Dos i ;; t <- idx ts i ;;
          Ok (nps, di, do_, t)
        else D_scan x keys NPSes Dis Dos ts is'
  end.
Definition Di_lookup (Di : A) (NPSes Dis Dos ts : list A) := D_scan Di Dis NPSes Dis Dos ts (seq 0 (List.length Dis)).
Definition Do_lookup (Do : A) (NPSes Dis Dos ts : list A) := D_scan Do Dos NPSes Dis Dos ts (seq 0 (List.length Dos)).
(** piping.py:621-626 [NPS_lookup] *)
Fixpoint NPS_scan (x : A) (NPSes Dis Dos ts : list A) (is : list nat) : result row4 :=
  match is with
  | [] => Err ValueError
  | i :: is' =>
      k <- idx NPSes i ;;
      if k =? x then
        di <- idx Dis i ;; do_ <- idx Dos i ;; t <- idx ts i ;; Ok (k, di, do_, t)
      else NPS_scan x NPSes Dis Dos ts is'
  end.
Definition NPS_lookup (NPS : A) (NPSes Dis Dos ts : list A) := NPS_scan NPS NPSes Dis Dos ts (seq 0 (List.length NPSes)).
(** the schedule argument: a string, or a number already truncated by int() *)
Inductive schedule_arg := SStr (s : string) | SNum (z : Z).
Definition schedule_name (s : schedule_arg) : string :=
  match s with SStr s => s | SNum z => NilZero.string_of_int (Z.to_int z) end.
(** piping.py:730-755 [nearest_pipe] *)
Definition nearest_pipe (Do Di NPS : option A) (schedule : schedule_arg) : result row4 :=
  let k3 := nQ 1000%Q in
  match assoc_str (schedule_name schedule) schedule_lookup with
  | None => Err ValueError
  | Some (lN, lI, lO, lT) =>
      nums <- match Di with
              | Some di => Di_lookup (di * k3) (tbl lN) (tbl lI) (tbl lO) (tbl lT)
              | None => match Do with
                        | Some d => Do_lookup (d * k3) (tbl lN) (tbl lI) (tbl lO) (tbl lT)
                        | None => match NPS with
                                  | Some n => NPS_lookup n (tbl lN) (tbl lI) (tbl lO) (tbl lT)
                                  | None => Err UnboundLocalError
                                  end
                        end
              end ;;
      let m3 := nQ (1 # 1000)%Q in
      let '(n, di, d, t) := nums in Ok (n, di * m3, d * m3, t * m3)
  end.

(** list.index / in *)
Fixpoint index_of (x : A) (l : list A) : option nat :=
  match l with [] => None | y :: r => if y =? x then Some 0%nat else option_map S (index_of x r) end.
(** piping.py:986-990: the for loop; returns (larger, i) at its end.  The last index is kept when it never breaks. *)
Fixpoint gauge_scan (t : A) (l : list A) (i : nat) (larger : option A) : option A * nat :=
  match l with
  | [] => (larger, (i - 1)%nat)
  | v :: r => if t <=? v then gauge_scan t r (S i) (Some v) else (larger, i)
  end.
Definition inch : A := nQ 0.0254%Q.
(** piping.py:962-999 [gauge_from_t].  The result is a gauge number, or for t below the smallest thickness that
    thickness itself (line 992). *)
Definition gauge_from_t (t : A) (SI : bool) (schedule : string) : result A :=
  t_inch <- (if SI then q <- pydiv t inch ;; Ok (pyround q 9) else Ok t) ;;
  match assoc_str schedule wire_schedules with
  | None => Err ValueError
  | Some (gauges, inches, _) =>
      sch_max <- idx (tbl inches) 0 ;; sch_min <- last_of (tbl inches) ;;
      if sch_max <? t_inch then Err ValueError
      else match index_of t_inch (tbl inches) with
           | Some i => idx (tbl gauges) i
           | None =>
               match gauge_scan t_inch (tbl inches) 0 None with
               | (None, _) => Err UnboundLocalError
               | (Some larger, i) =>
                   if larger =? sch_min then Ok sch_min
                   else
                     smaller <- idx (tbl inches) i ;;
                     if (t_inch - smaller) <=? (nQ 0.1%Q * (larger - smaller)) then idx (tbl gauges) i
                     else idx (tbl gauges) (i - 1)
               end
           end
  end.
(** piping.py:1044-1057 [t_from_gauge] *)
Definition t_from_gauge (gauge : A) (SI : bool) (schedule : string) : result A :=
  match assoc_str schedule wire_schedules with
  | None => Err ValueError
  | Some (gauges, inches, si) =>
      match index_of gauge (tbl gauges) with
      | None => Err ValueError
      | Some i => if SI then idx (tbl si) i else idx (tbl inches) i
      end
  end.

(** ** pump.py *)
(** constants.py:174 hp = 550*foot*pound*g *)
Definition hpQ : Q := (550 * (12 * 0.0254) * (7000 * 64.79891e-6) * 9.80665)%Q.
Definition hp : A := nQ hpQ.
Fixpoint first_at_least (x : A) (l : list A) : result A :=
  match l with [] => Err ValueError | v :: r => if x <=? v then Ok v else first_at_least x r end.
(** pump.py:267 [nema_sizes], 302-305 [motor_round_size] *)
Definition nema_sizes : list A := map (fun i => i * hp) (tbl nema_sizes_hp).
Definition motor_round_size (P : A) : result A := first_at_least P nema_sizes.
(** pump.py:391-428 [CSA_motor_efficiency] *)
Definition CSA_table (closed : bool) (poles : Z) (high : bool) : option (list Q * list Q) :=
  if high then
    if closed then
      if (poles =? 2)%Z then Some (nema_high_P, nema_high_full_closed_2p)
      else if (poles =? 4)%Z then Some (nema_high_P, nema_high_full_closed_4p)
      else if (poles =? 6)%Z then Some (nema_high_P, nema_high_full_closed_6p) else None
    else
      if (poles =? 2)%Z then Some (nema_high_P, nema_high_full_open_2p)
      else if (poles =? 4)%Z then Some (nema_high_P, nema_high_full_open_4p)
      else if (poles =? 6)%Z then Some (nema_high_P, nema_high_full_open_6p) else None
  else
    if closed then
      if (poles =? 2)%Z then Some (nema_min_P, nema_min_full_closed_2p)
      else if (poles =? 4)%Z then Some (nema_min_P, nema_min_full_closed_4p)
      else if (poles =? 6)%Z then Some (nema_min_P, nema_min_full_closed_6p)
      else if (poles =? 8)%Z then Some (nema_min_P, nema_min_full_closed_8p) else None
    else
      if (poles =? 2)%Z then Some (nema_min_P, nema_min_full_open_2p)
      else if (poles =? 4)%Z then Some (nema_min_P, nema_min_full_open_4p)
      else if (poles =? 6)%Z then Some (nema_min_P, nema_min_full_open_6p)
      else if (poles =? 8)%Z then Some (nema_min_P, nema_min_full_open_8p) else None.
Definition CSA_motor_efficiency (P : A) (closed : bool) (poles : Z) (high_efficiency : bool) : result A :=
  P <- pydiv P hp ;;
  match CSA_table closed poles high_efficiency with
  | None => Err UnboundLocalError
  | Some (x, y) => e <- interp P (tbl x) (tbl y) None None false ;; Ok (pyround e 4)
  end.
(** pump.py:202-204, 251-258 [VFD_efficiency] *)
Definition VFD_efficiency (P load : A) : result A :=
  ' (tx, ty, c) <- tck_interp2d_linear (tbl VFD_efficiency_loads) (tbl VFD_efficiency_powers) (map tbl VFD_efficiencies) ;;
  P <- pydiv P hp ;;
  let P := if P <? nQ 3%Q then nQ 3%Q else if nQ 400%Q <? P then nQ 400%Q else P in
  let load := if load <? nQ 0.016%Q then nQ 0.016%Q else load in
  v <- bisplev tx ty c 1 1 load P ;;
  Ok (pyround v 4).
(** pump.py:478-495 [motor_efficiency_underloaded] *)
Definition underloaded_class (P : A) : nat :=
  if P <=? nQ 1%Q then 0%nat else if P <=? nQ 5%Q then 1%nat else if P <=? nQ 10%Q then 2%nat
  else if P <=? nQ 25%Q then 3%nat else if P <=? nQ 60%Q then 4%nat else 5%nat.
Definition motor_efficiency_underloaded (P load : A) : result A :=
  P <- pydiv P hp ;;
  let i := underloaded_class P in
  one <- idx (tbl _efficiency_ones) i ;;
  if one <? load then Ok n1
  else
    cs <- idx (map tbl _efficiency_lists) i ;;
    c0 <- idx cs 0 ;; c1 <- idx cs 1 ;; c2 <- idx cs 2 ;; c3 <- idx cs 3 ;; c4 <- idx cs 4 ;;
    Ok (c0 + c1 * load + c2 * (load * load) + c3 * (load * load * load) + c4 * (load * load * load * load)).
(** pump.py:611 [speed_synchronous] *)
Definition speed_synchronous (f poles : A) : result A := pydiv (nQ 120%Q * f) poles.

(** ** safety_valve.py *)
(** safety_valve.py:88-92 [API526_A] (square inches to m^2), 136-139 [API520_round_size] *)
Definition API526_A : list A := map (fun i => i * (inch * inch)) (tbl API526_A_sq_inch).
Definition API520_round_size (a : A) : result A := first_at_least a API526_A.
(** safety_valve.py:274-279 [API520_N] *)
Definition API520_N (P1 : A) : result A :=
  let P1 := P1 * nQ (1 # 1000)%Q in
  if P1 <=? nQ 10339%Q then Ok n1
  else pydiv (nQ 0.02764%Q * P1 - nQ 1000%Q) (nQ 0.03324%Q * P1 - nQ 1061%Q).
Inductive edition_arg := E7 | E10 | EOther.
(** safety_valve.py:443-445, 486-502 [API520_SH] *)
Definition API520_SH (T1 P1 : A) (edition : edition_arg) : result A :=
  t7 <- tck_interp2d_linear (tbl _KSH_tempKs_7E) (tbl _KSH_Pa_7E) (map tbl _KSH_factors_7E) ;;
  t10 <- tck_interp2d_linear (tbl _KSH_K_10E) (tbl _KSH_Pa_10E) (map tbl _KSH_factors_10E) ;;
  if nQ 922.15%Q <? T1 then Err ValueError
  else match edition with
       | E7 =>
           if nQ 20780325%Q <? P1 then Err ValueError
           else if T1 <? nQ 422.15%Q then Ok n1
           else let '(tx, ty, c) := t7 in bisplev tx ty c 1 1 T1 P1
       | E10 =>
           if T1 <? nQ 478.15%Q then Ok n1
           else if nQ 22063223.338138755%Q <? P1 then Err ValueError
           else let '(tx, ty, c) := t10 in bisplev tx ty c 1 1 T1 P1
       | EOther => Err ValueError
       end.
Definition atm : A := nQ 101325%Q.
(** safety_valve.py:572-585 [API520_B] *)
Definition API520_B (Pset Pback overpressure : A) : result A :=
  q <- pydiv (Pback - atm) (Pset - atm) ;;
  let g := q * nQ 100%Q in
  let is10 := overpressure =? nQ 0.1%Q in
  let is16 := overpressure =? nQ 0.16%Q in
  let is21 := overpressure =? nQ 0.21%Q in
  if negb (is10 || is16 || is21) then Err ValueError
  else if (is10 && (g <? nQ 30%Q)) || (is16 && (g <? nQ 38%Q)) || (is21 && (g <=? nQ 50%Q)) then Ok n1
  else if nQ 50%Q <? g then Err ValueError
  else if is16 then interp g (tbl Kb_16_over_x) (tbl Kb_16_over_y) None None false
  else if is10 then interp g (tbl Kb_10_over_x) (tbl Kb_10_over_y) None None false
  else Err UnboundLocalError.
(** safety_valve.py:898-901 [API520_W] *)
Definition API520_W (Pset Pback : A) : result A :=
  q <- pydiv (Pback - atm) (Pset - atm) ;;
  let g := q * nQ 100%Q in
  if g <? nQ 15%Q then Ok n1 else interp g (tbl Kw_x) (tbl Kw_y) None None false.
End Generic.
