(** Fittings: entrances, exits, bends, contractions, diffusers, 2K/3K methods, Crane valves and tees.
    Generated by tools/pytrans.py from /repo/fluids, function by function: floats are exact reals,
    a division, root, logarithm or power that Python refuses is an [Err]; float rounding and overflow
    are not represented.  Module constants are inlined with their exact rational value. *)
From Coq Require Import Reals String List Bool.
From Verif Require Import Base Model_Real.
From Coq Require Import QArith Qreals.
From Verif Require Import Model_Numerics Model_Poly Model_Splines Data_Piping Model_Friction Model_Valve.
Import ListNotations.
Open Scope R_scope.

(** fluids/fittings.py:3301-3334 [Hooper]. *)
Definition Hooper : list (string * (R * R)) :=
  [("Elbow, 90°, Standard (R/D = 1), Screwed"%string, (800, 0.4)%R);
   ("Elbow, 90°, Standard (R/D = 1), Flanged/welded"%string, (800, 0.25)%R);
   ("Elbow, 90°, Long-radius (R/D = 1.5), All types"%string, (800, 0.2)%R);
   ("Elbow, 90°, Mitered (R/D = 1.5), 1 weld (90° angle)"%string, (1000, 1.15)%R);
   ("Elbow, 90°, Mitered (R/D = 1.5), 2 weld (45° angle)"%string, (800, 0.35)%R);
   ("Elbow, 90°, Mitered (R/D = 1.5), 3 weld (30° angle)"%string, (800, 0.3)%R);
   ("Elbow, 90°, Mitered (R/D = 1.5), 4 weld (22.5° angle)"%string, (800, 0.27)%R);
   ("Elbow, 90°, Mitered (R/D = 1.5), 5 weld (18° angle)"%string, (800, 0.25)%R);
   ("Elbow, 45°, Standard (R/D = 1), All types"%string, (500, 0.2)%R);
   ("Elbow, 45°, Long-radius (R/D 1.5), All types"%string, (500, 0.15)%R);
   ("Elbow, 45°, Mitered (R/D=1.5), 1 weld (45° angle)"%string, (500, 0.25)%R);
   ("Elbow, 45°, Mitered (R/D=1.5), 2 weld (22.5° angle)"%string, (500, 0.15)%R);
   ("Elbow, 45°, Standard (R/D = 1), Screwed"%string, (1000, 0.7)%R);
   ("Elbow, 180°, Standard (R/D = 1), Flanged/welded"%string, (1000, 0.35)%R);
   ("Elbow, 180°, Long-radius (R/D = 1.5), All types"%string, (1000, 0.3)%R);
   ("Elbow, Used as, Standard, Screwed"%string, (500, 0.7)%R);
   ("Elbow, Elbow, Long-radius, Screwed"%string, (800, 0.4)%R);
   ("Elbow, Elbow, Standard, Flanged/welded"%string, (800, 0.8)%R);
   ("Elbow, Elbow, Stub-in type branch"%string, (1000, 1)%R);
   ("Tee, Run, Screwed"%string, (200, 0.1)%R);
   ("Tee, Through, Flanged or welded"%string, (150, 0.05)%R);
   ("Tee, Tee, Stub-in type branch"%string, (100, 0)%R);
   ("Valve, Gate, Full line size, Beta = 1"%string, (300, 0.1)%R);
   ("Valve, Ball, Reduced trim, Beta = 0.9"%string, (500, 0.15)%R);
   ("Valve, Plug, Reduced trim, Beta = 0.8"%string, (1000, 0.25)%R);
   ("Valve, Globe, Standard"%string, (1500, 4)%R);
   ("Valve, Globe, Angle or Y-type"%string, (1000, 2)%R);
   ("Valve, Diaphragm, Dam type"%string, (1000, 2)%R);
   ("Valve, Butterfly,"%string, (800, 0.25)%R);
   ("Valve, Check, Lift"%string, (2000, 10)%R);
   ("Valve, Check, Swing"%string, (1500, 1.5)%R);
   ("Valve, Check, Tilting-disc"%string, (1000, 0.5)%R)].

(** fluids/fittings.py:3155-3191 [Darby]. *)
Definition Darby : list (string * (R * R * R)) :=
  [("Elbow, 90°, threaded, standard, (r/D = 1)"%string, (800, 0.14, 4)%R);
   ("Elbow, 90°, threaded, long radius, (r/D = 1.5)"%string, (800, 0.071, 4.2)%R);
   ("Elbow, 90°, flanged, welded, bends, (r/D = 1)"%string, (800, 0.091, 4)%R);
   ("Elbow, 90°, (r/D = 2)"%string, (800, 0.056, 3.9)%R);
   ("Elbow, 90°, (r/D = 4)"%string, (800, 0.066, 3.9)%R);
   ("Elbow, 90°, (r/D = 6)"%string, (800, 0.075, 4.2)%R);
   ("Elbow, 90°, mitered, 1 weld, (90°)"%string, (1000, 0.27, 4)%R);
   ("Elbow, 90°, 2 welds, (45°)"%string, (800, 0.068, 4.1)%R);
   ("Elbow, 90°, 3 welds, (30°)"%string, (800, 0.035, 4.2)%R);
   ("Elbow, 45°, threaded standard, (r/D = 1)"%string, (500, 0.071, 4.2)%R);
   ("Elbow, 45°, long radius, (r/D = 1.5)"%string, (500, 0.052, 4)%R);
   ("Elbow, 45°, mitered, 1 weld, (45°)"%string, (500, 0.086, 4)%R);
   ("Elbow, 45°, mitered, 2 welds, (22.5°)"%string, (500, 0.052, 4)%R);
   ("Elbow, 180°, threaded, close-return bend, (r/D = 1)"%string, (1000, 0.23, 4)%R);
   ("Elbow, 180°, flanged, (r/D = 1)"%string, (1000, 0.12, 4)%R);
   ("Elbow, 180°, all, (r/D = 1.5)"%string, (1000, 0.1, 4)%R);
   ("Tee, Through-branch, (as elbow), threaded, (r/D = 1)"%string, (500, 0.274, 4)%R);
   ("Tee, Through-branch,(as elbow), (r/D = 1.5)"%string, (800, 0.14, 4)%R);
   ("Tee, Through-branch, (as elbow), flanged, (r/D = 1)"%string, (800, 0.28, 4)%R);
   ("Tee, Through-branch, (as elbow), stub-in branch"%string, (1000, 0.34, 4)%R);
   ("Tee, Run-through, threaded, (r/D = 1)"%string, (200, 0.091, 4)%R);
   ("Tee, Run-through, flanged, (r/D = 1)"%string, (150, 0.05, 4)%R);
   ("Tee, Run-through, stub-in branch"%string, (100, 0, 0)%R);
   ("Valve, Angle valve, 45°, full line size, β = 1"%string, (950, 0.25, 4)%R);
   ("Valve, Angle valve, 90°, full line size, β = 1"%string, (1000, 0.69, 4)%R);
   ("Valve, Globe valve, standard, β = 1"%string, (1500, 1.7, 3.6)%R);
   ("Valve, Plug valve, branch flow"%string, (500, 0.41, 4)%R);
   ("Valve, Plug valve, straight through"%string, (300, 0.084, 3.9)%R);
   ("Valve, Plug valve, three-way (flow through)"%string, (300, 0.14, 4)%R);
   ("Valve, Gate valve, standard, β = 1"%string, (300, 0.037, 3.9)%R);
   ("Valve, Ball valve, standard, β = 1"%string, (300, 0.017, 3.5)%R);
   ("Valve, Diaphragm, dam type"%string, (1000, 0.69, 4.9)%R);
   ("Valve, Swing check"%string, (1500, 0.46, 4)%R);
   ("Valve, Lift check"%string, (2000, 2.85, 3.8)%R)].

(** Dictionary lookup by key. *)
Fixpoint assoc {B} (k : string) (l : list (string * B)) : option B :=
  match l with [] => None | (n, v) :: r => if String.eqb k n then Some v else assoc k r end.

(** fluids/fittings.py:3393-3408 [Hooper2K].  Outside numba the fallback on [Hooper_keys] always fails, and its
    bare except turns the NameError into ValueError. *)
Definition Hooper2K (Di Re : R) (name : option string) (K1 Kinfty : option R) : result R :=
  '(K1, Kinfty) <- match name with
     | Some n => match assoc n Hooper with Some ks => Ok ks | None => Err ValueError end
     | None => match K1, Kinfty with Some a, Some b => Ok (a, b) | _, _ => Err ValueError end
     end ;;
  t1 <- pdiv K1 Re ;;
  t2 <- pdiv 1 Di ;;
  Ok (t1 + Kinfty * (1 + t2)).

(** fluids/fittings.py:3259-3276 [Darby3K]. *)
Definition Darby3K (NPS Re : option R) (name : option string) (K1 Ki Kd Di : option R) : result R :=
  NPS <- match Di with
         | Some D => v <- interp (D * 1000) (map Q2R S40i) (map Q2R NPS40) None None true ;; Ok (Some v)
         | None => Ok NPS
         end ;;
  '(K1, Ki, Kd) <- match name with
     | Some n => match assoc n Darby with Some ks => Ok ks | None => Err ValueError end
     | None => match K1, Ki, Kd with Some a, Some b, Some c => Ok (a, b, c) | _, _, _ => Err ValueError end
     end ;;
  match NPS, Re with
  | Some NPS, Some Re =>
      t1 <- pdiv K1 Re ;;
      t2 <- ppow NPS (- 0.3) ;;
      Ok (t1 + Ki * (1 + Kd * t2))
  | _, _ => Err ValueError
  end.

(** A spline built by [tck_interp2d_linear] at module level and evaluated by [bisplev]. *)
Definition bisplev_linear (xs ys : list R) (zs : list (list R)) (x y : R) : result R :=
  '(tx, ty, c) <- tck_interp2d_linear xs ys zs ;;
  bisplev tx ty c 1 1 x y.

(** fluids/fittings.py:266-267. *)
Definition entrance_sharp_methods : list string := ["Rennels"%string;
  "Swamee"%string;
  "Blevins"%string;
  "Idelchik"%string;
  "Crane"%string;
  "Miller"%string].

(** fluids/fittings.py:399-400. *)
Definition entrance_distance_methods : list string := ["Rennels"%string;
  "Miller"%string;
  "Idelchik"%string;
  "Harris"%string;
  "Crane"%string].

(** fluids/fittings.py:566-566. *)
Definition entrance_angled_methods : list string := ["Idelchik"%string].

(** fluids/fittings.py:660-661. *)
Definition entrance_rounded_methods : list string := ["Rennels"%string;
  "Crane"%string;
  "Miller"%string;
  "Idelchik"%string;
  "Harris"%string;
  "Swamee"%string].

(** fluids/fittings.py:792-792. *)
Definition entrance_beveled_methods : list string := ["Rennels"%string;
  "Idelchik"%string].

(** fluids/fittings.py:1396-1396. *)
Definition bend_rounded_methods : list string := ["Rennels"%string;
  "Crane"%string;
  "Crane standard"%string;
  "Miller"%string;
  "Swamee"%string;
  "Ito"%string].

(** fluids/fittings.py:1623-1623. *)
Definition bend_miter_methods : list string := ["Rennels"%string;
  "Miller"%string;
  "Crane"%string;
  "Blevins"%string].

(** fluids/fittings.py:1882-1882. *)
Definition contraction_sharp_methods : list string := ["Rennels"%string;
  "Hooper"%string;
  "Crane"%string].

(** fluids/fittings.py:2011-2011. *)
Definition contraction_round_methods : list string := ["Rennels"%string;
  "Miller"%string;
  "Idelchik"%string].

(** fluids/fittings.py:2240-2241. *)
Definition contraction_conical_methods : list string := ["Rennels"%string;
  "Idelchik"%string;
  "Crane"%string;
  "Swamee"%string;
  "Blevins"%string;
  "Miller"%string;
  "Hooper"%string].

(** fluids/fittings.py:2539-2539. *)
Definition diffuser_sharp_methods : list string := ["Rennels"%string;
  "Hooper"%string].

(** fluids/fittings.py:2746-2746. *)
Definition diffuser_conical_methods : list string := ["Rennels"%string;
  "Crane"%string;
  "Miller"%string;
  "Swamee"%string;
  "Idelchik"%string;
  "Hooper"%string].

(** fluids/fittings.py:4744-4756. *)
Definition CRANE_VALVES : list string := ["CRANE_GATE_VALVE"%string;
  "CRANE_GLOBE_VALVE"%string;
  "CRANE_ANGLE_VALVE_0"%string;
  "CRANE_ANGLE_VALVE_1"%string;
  "CRANE_ANGLE_VALVE_2"%string;
  "CRANE_SWING_CHECK_VALVE"%string;
  "CRANE_SWING_CHECK_VALVE_ANGLED"%string;
  "CRANE_LIFT_CHECK_VALVE"%string;
  "CRANE_LIFT_CHECK_VALVE_ANGLED"%string;
  "CRANE_TILTING_CHECK_VALVE_5DEG"%string;
  "CRANE_TILTING_CHECK_VALVE_15DEG"%string;
  "CRANE_GLOBE_STOP_CHECK_VALVE_0"%string;
  "CRANE_GLOBE_STOP_CHECK_VALVE_1"%string;
  "CRANE_GLOBE_STOP_CHECK_VALVE_2"%string;
  "CRANE_ANGLE_STOP_CHECK_VALVE_0"%string;
  "CRANE_ANGLE_STOP_CHECK_VALVE_1"%string;
  "CRANE_ANGLE_STOP_CHECK_VALVE_2"%string;
  "CRANE_BALL_VALVE"%string;
  "CRANE_DIAPHRAGM_VALVE_WEIR"%string;
  "CRANE_DIAPHRAGM_VALVE_STRAIGHT_THROUGH_WEIR"%string;
  "CRANE_FOOT_VALVE_POPPET_DISK"%string;
  "CRANE_FOOT_VALVE_HINGED_DISK"%string;
  "CRANE_BUTTERFLY_VALVE_CENTRIC"%string;
  "CRANE_BUTTERFLY_VALVE_DOUBLE_OFFSET"%string;
  "CRANE_BUTTERFLY_VALVE_TRIPLE_OFFSET"%string;
  "CRANE_PLUG_VALVE_STRAIGHT_THROUGH"%string;
  "CRANE_PLUG_VALVE_3_WAY_STRAIGHT_THROUGH"%string;
  "CRANE_PLUG_VALVE_3_WAY_90_DEG"%string].

(** fluids/fittings.py:3291-3295. *)
Definition HOOPER_VALVES : list string := ["Valve, Check, Tilting-disc"%string;
  "Valve, Check, Swing"%string;
  "Valve, Check, Lift"%string;
  "Valve, Butterfly,"%string;
  "Valve, Diaphragm, Dam type"%string;
  "Valve, Globe, Angle or Y-type"%string;
  "Valve, Globe, Standard"%string;
  "Valve, Plug, Reduced trim, Beta = 0.8"%string;
  "Valve, Ball, Reduced trim, Beta = 0.9"%string;
  "Valve, Gate, Full line size, Beta = 1"%string].

(** fluids/fittings.py:3144-3148. *)
Definition DARBY_VALVES : list string := ["Valve, Angle valve, 45°, full line size, β = 1"%string;
  "Valve, Angle valve, 90°, full line size, β = 1"%string;
  "Valve, Globe valve, standard, β = 1"%string;
  "Valve, Plug valve, branch flow"%string;
  "Valve, Plug valve, straight through"%string;
  "Valve, Plug valve, three-way (flow through)"%string;
  "Valve, Gate valve, standard, β = 1"%string;
  "Valve, Ball valve, standard, β = 1"%string;
  "Valve, Diaphragm, dam type"%string;
  "Valve, Swing check"%string;
  "Valve, Lift check"%string].

(** fluids/fittings.py:318-328 [entrance_sharp]. *)
Definition entrance_sharp (method : string) : result R :=
  method <- (Ok method) ;;
  if ((String.eqb method "Swamee"%string) || (String.eqb method "Blevins"%string) || (String.eqb method "Crane"%string) || (String.eqb method "Idelchik"%string))%bool then Ok 0.5
  else if (String.eqb method "Miller"%string) then Ok 0.5092676683721356
  else if (String.eqb method "Rennels"%string) then Ok 0.57
  else Err ValueError.

(** fluids/fittings.py:330-335 *)
Definition entrance_distance_Miller_coeffs : list Q := ([3.5979871366071166; (-2.735407311020481); (-14.08678246875138); 10.637236472292983; 21.99568490754116; (-16.38501138746954); (-17.62779826803278); 12.945551397987447; 7.715463242992863; (-5.850893341031715); (-1.3809402870404826); 1.179637166644488; 0.08781141316107932; (-0.09751968111743672); 0.00501792061942849; 0.0026378278251172615; 0.5309019247035696])%Q.

(** fluids/fittings.py:337-338 *)
Definition entrance_distance_Idelchik_tck_x : list Q := ([0; 0.002; 0.005; 0.01; 0.02; 0.05; 0.1; 0.2; 0.3; 0.5; 10])%Q.

(** fluids/fittings.py:339-340 *)
Definition entrance_distance_Idelchik_tck_y : list Q := ([0; 0.004; 0.008; 0.012; 0.016; 0.02; 0.024; 0.03; 0.04; 0.05; 1])%Q.

(** fluids/fittings.py:342-353 *)
Definition entrance_distance_Idelchik_tck_z : list (list Q) := ([[0.5; 0.57; 0.63; 0.68; 0.73; 0.8; 0.86; 0.92; 0.97; 1; 1];
   [0.5; 0.54; 0.58; 0.63; 0.67; 0.74; 0.8; 0.86; 0.9; 0.94; 0.94];
   [0.5; 0.53; 0.55; 0.58; 0.62; 0.68; 0.74; 0.81; 0.85; 0.88; 0.88];
   [0.5; 0.52; 0.53; 0.55; 0.58; 0.63; 0.68; 0.75; 0.79; 0.83; 0.83];
   [0.5; 0.51; 0.51; 0.53; 0.55; 0.58; 0.64; 0.7; 0.74; 0.77; 0.77];
   [0.5; 0.51; 0.51; 0.52; 0.53; 0.55; 0.6; 0.66; 0.69; 0.72; 0.72];
   [0.5; 0.5; 0.5; 0.51; 0.52; 0.53; 0.58; 0.62; 0.65; 0.68; 0.68];
   [0.5; 0.5; 0.5; 0.51; 0.52; 0.52; 0.54; 0.57; 0.59; 0.61; 0.61];
   [0.5; 0.5; 0.5; 0.51; 0.51; 0.51; 0.51; 0.52; 0.52; 0.54; 0.54];
   [0.5; 0.5; 0.5; 0.5; 0.5; 0.5; 0.5; 0.5; 0.5; 0.5; 0.5];
   [0.5; 0.5; 0.5; 0.5; 0.5; 0.5; 0.5; 0.5; 0.5; 0.5; 0.5]])%Q.

(** fluids/fittings.py:377-381 *)
Definition entrance_distance_Harris_tck_t : list Q := ([0.00322; 0.00322; 0.00322; 0.00322; 0.01223; 0.018015; 0.021776; 0.029044; 0.039417; 0.049519; 0.058012; 0.066234; 0.076747; 0.088337; 0.098714; 0.109497; 0.121762; 0.130655; 0.14036; 0.148986; 0.159902; 0.17149; 0.179578; 0.189416; 0.200602; 0.208148; 0.217716; 0.228232; 0.239821; 0.250063; 0.260845; 0.270818; 0.289145; 0.289145; 0.289145; 0.289145])%Q.

(** fluids/fittings.py:382-392 *)
Definition entrance_distance_Harris_tck_c : list Q := ([0.894574; 0.8607821362959746; 0.7418364422223542; 0.7071594764719331; 0.5230593641637336; 0.5053866365045014; 0.4869380604512194; 0.40993425463761973; 0.4588732899536263; 0.45115886608796796; 0.4672085434114074; 0.45422360120010624; 0.45882234693051327; 0.4633823025024543; 0.4785594597978615; 0.45603301615693537; 0.46825191653436804; 0.4759245648612374; 0.4816400424293727; 0.4467699156979281; 0.4713316096394432; 0.4667017151264001; 0.4686302748435692; 0.4597796190662107; 0.445267522727416; 0.491034205369033; 0.4641178520412072; 0.46721810151497395; 0.46958841021674314; 0.4664976446563455; 0.46420067427943945; 0.458894; 0; 0; 0; 0])%Q.

(** fluids/fittings.py:480-512 [entrance_distance]. *)
Definition entrance_distance (Di : R) (t : option R) (l : option R) (method : string) : result R :=
  method <- (Ok method) ;;
  if ((String.eqb method "Rennels"%string) || (String.eqb method "Miller"%string) || (String.eqb method "Idelchik"%string) || (String.eqb method "Harris"%string))%bool then match t with
    | Some t => let t2 := t in
    if (String.eqb method "Rennels"%string) then t_Di <- pdiv t2 Di ;;
    t_Di <- (if (Rltb 0.05 t_Di) then let t_Di := 0.05 in
    Ok t_Di
    else Ok t_Di) ;;
    Ok (1.12 + (t_Di * ((t_Di * ((80 * t_Di) + 216)) - 22)))
    else if (String.eqb method "Miller"%string) then t_Di <- pdiv t2 Di ;;
    t_Di <- (if (Rltb 0.3 t_Di) then let t_Di := 0.3 in
    Ok t_Di
    else Ok t_Di) ;;
    Ok (horner (map Q2R entrance_distance_Miller_coeffs) ((20 / 3) * (t_Di - 0.15)))
    else if (String.eqb method "Idelchik"%string) then let l := match l with Some v => v | None => Di end in
    t4 <- pdiv t2 Di ;;
    let t_Di := (Rmin t4 1) in
    t5 <- pdiv l Di ;;
    let l_Di := (Rmin t5 10) in
    K <- bisplev_linear (map Q2R entrance_distance_Idelchik_tck_x) (map Q2R entrance_distance_Idelchik_tck_y) (map (map Q2R) entrance_distance_Idelchik_tck_z) l_Di t_Di ;;
    K <- (if (Rltb K 0) then let K := 0 in
    Ok K
    else Ok K) ;;
    Ok K
    else if (String.eqb method "Harris"%string) then t7 <- pdiv t2 Di ;;
    let ratio := (Rmin t7 0.289145) in
    py_splev ratio (map Q2R entrance_distance_Harris_tck_t) (map Q2R entrance_distance_Harris_tck_c) 3 0
    else if (String.eqb method "Crane"%string) then Ok 0.78
    else Err ValueError
    | None => Err ValueError
  end
  else if (String.eqb method "Rennels"%string) then Err UnboundLocalError
  else if (String.eqb method "Miller"%string) then Err UnboundLocalError
  else if (String.eqb method "Idelchik"%string) then let l := match l with Some v => v | None => Di end in
  Err UnboundLocalError
  else if (String.eqb method "Harris"%string) then Err UnboundLocalError
  else if (String.eqb method "Crane"%string) then Ok 0.78
  else Err ValueError.

(** fluids/fittings.py:515-520 *)
Definition entrance_distance_45_Miller_coeffs : list Q := ([1.866792110435199; (-2.8873199398381075); (-4.814715029513536); 10.49562589373457; 1.40401776402922; (-14.035912282651882); 6.576826918678071; 7.854645523152614; (-8.044860164646053); (-1.1515885154512326); 4.145420152553604; (-0.7994793202964967); (-1.1034822877774095); 0.32764916637953573; 0.367065452438954; (-0.2614447909010587); 0.29084476697430256])%Q.

(** fluids/fittings.py:559-563 [entrance_distance_45_Miller]. *)
Definition entrance_distance_45_Miller (Di : R) (Di0 : R) : result R :=
  let t := (0.5 * (Di0 - Di)) in
  t_Di <- pdiv t Di ;;
  if (Rltb 0.3 t_Di) then let t_Di := 0.3 in
  Ok (horner (map Q2R entrance_distance_45_Miller_coeffs) (6.66666666666666696 * (t_Di - 0.15)))
  else Ok (horner (map Q2R entrance_distance_45_Miller_coeffs) (6.66666666666666696 * (t_Di - 0.15))).

(** fluids/fittings.py:615-619 [entrance_angled]. *)
Definition entrance_angled (angle : R) (method : string) : result R :=
  if (String.eqb method "Idelchik"%string) then let cos_term := (cos ((PI / 180) * angle)) in
  Ok (0.57 + (cos_term * ((0.2 * cos_term) + 0.3)))
  else Err ValueError.

(** fluids/fittings.py:644-644 *)
Definition entrance_rounded_ratios_Crane : list Q := ([0; 0.02; 0.04; 0.06; 0.1; 0.15])%Q.

(** fluids/fittings.py:645-645 *)
Definition entrance_rounded_Ks_Crane : list Q := ([0.5; 0.28; 0.24; 0.15; 0.09; 0.04])%Q.

(** fluids/fittings.py:622-627 *)
Definition entrance_rounded_Miller_coeffs : list Q := ([1.3127209945178038; 0.19963046592715727; (-6.49081916725612); (-0.10347409377743588); 12.68369791325003; (-0.9435681020599904); (-12.44320584089916); 1.328251365167716; 6.668390027065714; (-0.4356382649470076); (-2.209229212394282); (-0.07222448354500295); 0.6786898049825905; (-0.18686362789567468); 0.020064570486606065; (-0.013120241146656442); 0.061951596342059975])%Q.

(** fluids/fittings.py:651-652 *)
Definition entrance_rounded_Harris_tck_t : list Q := ([0; 0; 0; 0.015; 0.025; 0.035; 0.045; 0.055; 0.07; 0.1; 0.16; 0.16; 0.16])%Q.

(** fluids/fittings.py:653-655 *)
Definition entrance_rounded_Harris_tck_c : list Q := ([0.44; 0.36435669860605086; 0.2790010365858813; 0.2187082142826953; 0.16874967771794716; 0.1287937194096216; 0.09091157742799895; 0.06354756460434334; 0.01885121769782832; 0; 0; 0; 0])%Q.

(** fluids/fittings.py:634-635 *)
Definition entrance_rounded_Idelchik_tck_t : list Q := ([0; 0; 0; 0.015; 0.025; 0.035; 0.045; 0.055; 0.07; 0.1; 0.14; 0.2; 0.2; 0.2])%Q.

(** fluids/fittings.py:636-638 *)
Definition entrance_rounded_Idelchik_tck_c : list Q := ([0.5; 0.46003224474143023; 0.3682580956033294; 0.30877401146621397; 0.2590978355993873; 0.2166389749374616; 0.19717564973543905; 0.1332971654240214; 0.08659056691519569; 0.05396118560777325; 0.03; 0; 0; 0])%Q.

(** fluids/fittings.py:755-789 [entrance_rounded]. *)
Definition entrance_rounded (Di : R) (rc : R) (method : string) : result R :=
  method <- (Ok method) ;;
  ratio <- pdiv rc Di ;;
  if (String.eqb method "Rennels"%string) then if (Rltb 1 ratio) then Ok 0.03
  else t2 <- psqrt ratio ;;
  let lbd := ((1 - (0.3 * t2)) - (0.7 * ratio)) in
  let lbd := (lbd * lbd) in
  let lbd := (1 + ((0.622 * lbd) * lbd)) in
  Ok ((((0.0696 * (1 - (0.569 * ratio))) * lbd) * lbd) + ((lbd - 1) * (lbd - 1)))
  else if (String.eqb method "Swamee"%string) then t3 <- ppow ratio 1.2 ;;
  pdiv 0.5 (1 + (36 * t3))
  else if (String.eqb method "Crane"%string) then if (Rltb ratio 0) then Ok 0.5
  else if (Rltb 0.15 ratio) then Ok 0.04
  else interp ratio (map Q2R entrance_rounded_ratios_Crane) (map Q2R entrance_rounded_Ks_Crane) None None false
  else if (String.eqb method "Miller"%string) then ratio <- (if (Rltb 0.3 ratio) then let ratio := 0.3 in
  Ok ratio
  else Ok ratio) ;;
  Ok (horner (map Q2R entrance_rounded_Miller_coeffs) ((20 / 3) * (ratio - 0.15)))
  else if (String.eqb method "Harris"%string) then if (Rltb 0.16 ratio) then Ok 0
  else py_splev ratio (map Q2R entrance_rounded_Harris_tck_t) (map Q2R entrance_rounded_Harris_tck_c) 2 0
  else if (String.eqb method "Idelchik"%string) then if (Rltb 0.2 ratio) then Ok 0.03
  else py_splev ratio (map Q2R entrance_rounded_Idelchik_tck_t) (map Q2R entrance_rounded_Idelchik_tck_c) 2 0
  else Err ValueError.

(** fluids/fittings.py:796-797 *)
Definition entrance_beveled_Idelchik_tck_x : list Q := ([0; 10; 20; 30; 40; 60; 100; 140; 180])%Q.

(** fluids/fittings.py:795-795 *)
Definition entrance_beveled_Idelchik_tck_y : list Q := ([0.025; 0.05; 0.075; 0.1; 0.15; 0.6])%Q.

(** fluids/fittings.py:799-805 *)
Definition entrance_beveled_Idelchik_tck_z : list (list Q) := ([[0.5; 0.47; 0.45; 0.43; 0.41; 0.4; 0.42; 0.45; 0.5];
   [0.5; 0.45; 0.41; 0.36; 0.33; 0.3; 0.35; 0.42; 0.5];
   [0.5; 0.42; 0.35; 0.3; 0.26; 0.23; 0.3; 0.4; 0.5];
   [0.5; 0.39; 0.32; 0.25; 0.22; 0.18; 0.27; 0.38; 0.5];
   [0.5; 0.37; 0.27; 0.2; 0.16; 0.15; 0.25; 0.37; 0.5];
   [0.5; 0.27; 0.18; 0.13; 0.11; 0.12; 0.23; 0.36; 0.5]])%Q.

(** fluids/fittings.py:883-892 [entrance_beveled]. *)
Definition entrance_beveled (Di : R) (l : R) (angle : R) (method : string) : result R :=
  method <- (Ok method) ;;
  if (String.eqb method "Rennels"%string) then t1 <- pdiv l Di ;;
  t2 <- pdiv 1 (1 + t1) ;;
  t3 <- ppow (angle / 90) t2 ;;
  let Cb := ((1 - (angle / 90)) * t3) in
  t4 <- pdiv l Di ;;
  t5 <- pdiv l Di ;;
  t6 <- psqrt t5 ;;
  t7 <- psqrt t6 ;;
  t8 <- ppow t4 ((1 - t7) / 2) ;;
  let lbd := (1 + (0.622 * (1 - ((1.5 * Cb) * t8)))) in
  t9 <- pdiv (Cb * l) Di ;;
  Ok (((0.0696 * (1 - t9)) * (lbd ^ 2)) + ((lbd - 1) ^ 2))
  else if (String.eqb method "Idelchik"%string) then t10 <- pdiv l Di ;;
  bisplev_linear (map Q2R entrance_beveled_Idelchik_tck_x) (map Q2R entrance_beveled_Idelchik_tck_y) (map (map Q2R) entrance_beveled_Idelchik_tck_z) (angle * 2) t10
  else Err ValueError.

(** fluids/fittings.py:941-943 [entrance_beveled_orifice]. *)
Definition entrance_beveled_orifice (Di : R) (Do : R) (l : R) (angle : R) : result R :=
  t1 <- pdiv l Do ;;
  t2 <- pdiv 1 (1 + t1) ;;
  t3 <- ppow (angle / 90) t2 ;;
  let Cb := ((1 - (angle / 90)) * t3) in
  t4 <- pdiv l Do ;;
  t5 <- pdiv l Do ;;
  t6 <- psqrt t5 ;;
  t7 <- psqrt t6 ;;
  t8 <- ppow t4 ((1 - t7) / 2) ;;
  let lbd := (1 + (0.622 * (1 - (Cb * t8)))) in
  t9 <- pdiv (Cb * l) Do ;;
  t10 <- pdiv Do Di ;;
  Ok (((0.0696 * (1 - t9)) * (lbd ^ 2)) + ((lbd - (t10 ^ 2)) ^ 2)).

(** fluids/fittings.py:979-979 [exit_normal]. *)
Definition exit_normal  : result R :=
  Ok 1.

(** fluids/fittings.py:1098-1105 [Miller_bend_roughness_correction]. *)
Definition Miller_bend_roughness_correction (W : R -> R) (Re : R) (Di : R) (roughness : R) : result R :=
  let Re_fd_min := (Rmin 1000000 Re) in
  fd_smooth <- (if (Rltb Re_fd_min 1000000) then friction_factor W Re_fd_min 0 (Some "Clamond"%string) true
  else let fd_smooth := 0.011645040997991626 in
  Ok fd_smooth) ;;
  t2 <- pdiv roughness Di ;;
  fd_rough <- friction_factor W Re_fd_min t2 (Some "Clamond"%string) true ;;
  pdiv fd_rough fd_smooth.

(** fluids/fittings.py:1048-1050 *)
Definition tck_bend_rounded_Miller_C_o_0_1_t : list Q := ([0.000009975803953769495; 0.000009975803953769495; 0.000009975803953769495; 0.000009975803953769495; 0.5259485989276764; 1.3157845547408782; 3.220104449183945; 6.133677908951886; 30.260656153593906; 30.260656153593906; 30.260656153593906; 30.260656153593906])%Q.

(** fluids/fittings.py:1051-1052 *)
Definition tck_bend_rounded_Miller_C_o_0_1_c : list Q := ([0.6179524338907976; 0.6000479624108129; 0.49299050530751654; 0.4820011733402483; 0.5584830305084972; 0.7496716557444135; 0.8977538553873484; 0.9987218804089956; 0; 0; 0; 0])%Q.

(** fluids/fittings.py:1054-1056 *)
Definition tck_bend_rounded_Miller_C_o_0_15_t : list Q := ([0.0025931401409935687; 0.0025931401409935687; 0.0025931401409935687; 0.0025931401409935687; 0.26429667728434275; 0.5188174292838083; 1.469212480387932; 4.269571348168375; 13.268280073552294; 26.28093462852014; 26.28093462852014; 26.28093462852014; 26.28093462852014])%Q.

(** fluids/fittings.py:1057-1058 *)
Definition tck_bend_rounded_Miller_C_o_0_15_c : list Q := ([0.8691924906711972; 0.8355177386350426; 0.7617588987656675; 0.5853012015918869; 0.5978128647571033; 0.7366100253604377; 0.8229203841913866; 0.9484887080989913; 1.0003643259424702; 0; 0; 0; 0])%Q.

(** fluids/fittings.py:1060-1062 *)
Definition tck_bend_rounded_Miller_C_o_0_2_t : list Q := ([(-0.001273275512351991); (-0.001273275512351991); (-0.001273275512351991); (-0.001273275512351991); 0.36379835796750504; 0.7789151587713531; 1.7319487323386349; 3.559883175039053; 22.10600230228466; 22.10600230228466; 22.10600230228466; 22.10600230228466])%Q.

(** fluids/fittings.py:1063-1064 *)
Definition tck_bend_rounded_Miller_C_o_0_2_c : list Q := ([1.2055892891232; 1.1810797953131011; 0.8556056552110055; 0.6595884323229468; 0.6669634037761268; 0.8636791463334055; 0.8855712717206472; 0.9992625616471772; 0; 0; 0; 0])%Q.

(** fluids/fittings.py:1066-1070 *)
Definition tck_bend_rounded_Miller_C_o_0_25_t : list Q := ([0.0025931401409935687; 0.0025931401409935687; 0.0025931401409935687; 0.0025931401409935687; 0.2765978180291006; 0.5010875816968301; 0.6395222359284018; 0.661563946104784; 0.6887462820881093; 0.7312909084975013; 0.7605490601821624; 0.8078652661481783; 0.8553090397903271; 1.024376958429362; 1.4748577103270428; 2.052843716337269; 3.9670225184835175; 6.951737782758053; 16.770001745987884; 16.770001745987884; 16.770001745987884; 16.770001745987884])%Q.

(** fluids/fittings.py:1071-1074 *)
Definition tck_bend_rounded_Miller_C_o_0_25_c : list Q := ([2.7181584441006414; 2.6722855229796196; 2.510271857479865; 2.162580617260359; 1.8234805515473758; 1.5274137403431902; 1.3876379087140025; 1.2712745614209848; 1.1478416325256429; 1.015542018903243; 0.8445749706812837; 0.7368799268423506; 0.7061205857035833; 0.7381928947255646; 0.7960778489514514; 0.878729192230999; 0.9281388590439098; 0.9825611959699471; 0; 0; 0; 0])%Q.

(** fluids/fittings.py:1077-1080 *)
Definition tck_bend_rounded_Miller_C_o_1_0_t : list Q := ([0.0025931401409935687; 0.0025931401409935687; 0.0025931401409935687; 0.0025931401409935687; 0.4940382602529053; 0.7383107558560895; 0.8929948619544391; 0.9910262538499016; 1.1035407055233972; 1.2685727302009009; 2.190931635360523; 3.718073594472333; 6.026458907878363; 13.268280073552294; 13.268280073552294; 13.268280073552294; 13.268280073552294])%Q.

(** fluids/fittings.py:1081-1083 *)
Definition tck_bend_rounded_Miller_C_o_1_0_c : list Q := ([2.713127433391318; 2.6799201583608965; 2.4446034702691906; 2.0505313661892837; 1.7853408404592677; 1.5802763594858027; 1.395503315683405; 1.0504150726350026; 0.9294800209596744; 0.8937523212160566; 0.9339124388590752; 0.9769117997985829; 0.9948478073955791; 0; 0; 0; 0])%Q.

(** fluids/fittings.py:1089-1089 *)
Definition bend_rounded_Miller_C_o_Kbs : list Q := ([0.1; 0.15; 0.2; 0.25; 1])%Q.

(** fluids/fittings.py:1090-1090 *)
Definition bend_rounded_Miller_C_o_limits : list Q := ([30.260656153593906; 26.28093462852014; 22.10600230228466; 16.770001745987884; 13.268280073552294])%Q.

(** fluids/fittings.py:1091-1091 *)
Definition bend_rounded_Miller_C_o_limit_0_01 : list Q := ([0.6169055099514943; 0.8663244713199465; 1.2029584898712695; 2.7143438886138744; 2.7115417734646114])%Q.

(** fluids/fittings.py:1086-1088 *)
Definition tck_bend_rounded_Miller_C_os : list (list Q * list Q) := [(tck_bend_rounded_Miller_C_o_0_1_t, tck_bend_rounded_Miller_C_o_0_1_c); (tck_bend_rounded_Miller_C_o_0_15_t, tck_bend_rounded_Miller_C_o_0_15_c); (tck_bend_rounded_Miller_C_o_0_2_t, tck_bend_rounded_Miller_C_o_0_2_c); (tck_bend_rounded_Miller_C_o_0_25_t, tck_bend_rounded_Miller_C_o_0_25_c); (tck_bend_rounded_Miller_C_o_1_0_t, tck_bend_rounded_Miller_C_o_1_0_c)].

(** fluids/fittings.py:1120-1148 [Miller_bend_unimpeded_correction]; [co i] is the value of the i-th curve. *)
Definition miller_Co (i : nat) (ratio : R) : result R :=
  lim <- idx (map Q2R bend_rounded_Miller_C_o_limits) i ;;
  if Rleb lim ratio then Ok 1
  else if Rleb ratio 0.01 then idx (map Q2R bend_rounded_Miller_C_o_limit_0_01) i
  else
    '(t, c) <- idx tck_bend_rounded_Miller_C_os i ;;
    py_splev ratio (map Q2R t) (map Q2R c) 3 0.
Fixpoint miller_Co_loop (n i : nat) (Kb_C_o ratio : R) : result R :=
  match n with
  | O => Err ValueError
  | S n =>
      lo <- idx (map Q2R bend_rounded_Miller_C_o_Kbs) i ;;
      hi <- idx (map Q2R bend_rounded_Miller_C_o_Kbs) (S i) ;;
      if (Rleb lo Kb_C_o && Rleb Kb_C_o hi)%bool then
        Co_low <- miller_Co i ratio ;;
        Co_high <- miller_Co (S i) ratio ;;
        t <- pdiv ((Kb_C_o - lo) * (Co_high - Co_low)) (hi - lo) ;;
        Ok (Co_low + t)
      else miller_Co_loop n (S i) Kb_C_o ratio
  end.
Definition Miller_bend_unimpeded_correction (Kb Di L_unimpeded : R) : result R :=
  let Kb_C_o := if Rltb Kb 0.1 then 0.1 else if Rltb 1 Kb then 1 else Kb in
  r <- pdiv L_unimpeded Di ;;
  let r := if Rltb 30 r then 30 else r in
  miller_Co_loop 5 0 Kb_C_o r.

(** fluids/fittings.py:985-987 *)
Definition tck_bend_rounded_Miller_tx : list Q := ([0.500967; 0.500967; 0.500967; 0.500967; 0.5572659504420276; 0.6220535279438968; 0.6876695918008857; 0.8109956990835443; 0.8966138996017785; 1.0418136796591293; 1.2129808986390955; 1.4328097893561944; 2.684491977649823; 3.496050493509287; 4.245254058334557; 10.0581; 10.0581; 10.0581; 10.0581])%Q.

(** fluids/fittings.py:988-990 *)
Definition tck_bend_rounded_Miller_ty : list Q := ([10.0022; 10.0022; 10.0022; 10.0022; 26.661576730080427; 35.71142422728946; 46.22896414495794; 54.476944091380965; 67.28681897720492; 79.96560467244989; 88.89484575805731; 104.37345376723293; 113.75217318286595; 121.36638011164008; 139.53481668808192; 180.502; 180.502; 180.502; 180.502])%Q.

(** fluids/fittings.py:991-1030 *)
Definition tck_bend_rounded_Miller_c : list Q := ([0.02844925354339322; 0.032368056788003474; 0.06341726367587057; 0.18372991235687228; 0.27828335685928296; 0.4184452895626468; 0.5844709012848479; 0.8517327028006999; 1.0883889837806633; 1.003595822015052; 1.2959349743905006; 1.3631701864169843; 3.2579960738248563; 8.188259745620396; 6.370167194425542; 0.026614405579949103; 0.03578575879432178; 0.05399131725104529; 0.17357295746658216; 0.2597698136964017; 0.384398460262134; 0.5537955210508835; 0.842964805734998; 1.1076060802420074; 1.0500502914944205; 1.2160489773171173; 1.2940140217639442; 2.5150913200614293; 5.987790923112488; 4.791049223949247; 0.026866783841898684; 0.03061409809632371; 0.054698306220358; 0.14037162784411245; 0.23981090432386729; 0.31617091309760137; 0.47435842573782666; 0.7484605121106159; 0.9223888516911868; 1.0345139221619066; 1.0709769967277933; 1.1489283659291687; 1.4249255928619116; 2.6908421883082823; 2.3898833324508804; 0.019707980719056793; 0.03350958504709355; 0.0457699204936841; 0.1180773988295937; 0.18163838540491214; 0.2955424583244998; 0.3178086095370295; 0.54907384767895; 0.7497276995283433; 0.8353766950608585; 0.8907203653185313; 0.941376749552297; 0.8755423259796333; 0.8987849646797164; 0.9905785504810203; 0.018632197087313764; 0.0275473376021632; 0.046686663726990756; 0.09334625398868963; 0.15009471210360348; 0.21438462374865175; 0.310541469358518; 0.27652184608845864; 0.4703245212932829; 0.5612926929410017; 0.6344189573543495; 0.6897616299237337; 0.8553230255854581; 0.8050040042565408; 0.7800498994134173; 0.017040716941189974; 0.027163747207842776; 0.04233976165781228; 0.08546809847236579; 0.11872359104267481; 0.1748602349243538; 0.248787221592314; 0.3166892465009758; 0.2894990945943436; 0.35635089905047324; 0.3942719381041552; 0.4019846022857163; 0.4910888827789205; 0.4424331343990761; 0.5367477778555589; 0.017232689797500957; 0.024595005629126976; 0.04235982677436609; 0.0748705682747817; 0.11096283696103083; 0.13900984487771062; 0.18773056195495877; 0.2400721832034611; 0.28581377924973544; 0.282839816159864; 0.2907117502580411; 0.3035848810896592; 0.31268019467513564; 0.3365050687225188; 0.2836774098946595; 0.017462451480157917; 0.02373981127475937; 0.04248526591300313; 0.07305722078054935; 0.09424065630357203; 0.13682400355164548; 0.15020534827616405; 0.2100221959547714; 0.23136495625582817; 0.24417894312621574; 0.2505645472554214; 0.24143469557592281; 0.24722191256497117; 0.2195110087547775; 0.29557609063213136; 0.017605444779345832; 0.026265210174737128; 0.0445497171166642; 0.07254637551095446; 0.08779690828578819; 0.11992614224260065; 0.14501268843599757; 0.17386066713179812; 0.21657094190224363; 0.21594544490951023; 0.22661999176624517; 0.23759356544596819; 0.23887614636323537; 0.25802515101229484; 0.20566480389514516; 0.01928450591486404; 0.03264367752872495; 0.05391006363370407; 0.07430728218140033; 0.08818045730326454; 0.09978389535000864; 0.12544634357734885; 0.13365159719049172; 0.15802979203343911; 0.17543365869590444; 0.17531453508236272; 0.1706085325985479; 0.15983319357859727; 0.16872558079206196; 0.19799750352823683; 0.020835891827102552; 0.047105767455498285; 0.05307639179638059; 0.07839236342751181; 0.09519829368423402; 0.10189528661430994; 0.12852821694010982; 0.13195311029179943; 0.1594822363328695; 0.15660304273110143; 0.15934161651984413; 0.17702957118830723; 0.1892675345030034; 0.19710951153945122; 0.1897835097361326; 0.031571285288316195; 0.04810266172763896; 0.05660304311192384; 0.09317293919692342; 0.08967028392412497; 0.12028974875677166; 0.1182836264474129; 0.13845925262729528; 0.15739100571169004; 0.17649056196464383; 0.20171423738165223; 0.20947832805305883; 0.22837004534830094; 0.23661874048689152; 0.24537433391842686; 0.042992073811512765; 0.045958026954244176; 0.08988351069774198; 0.08320361205549355; 0.1253881915447805; 0.12765039447605908; 0.1632907944306065; 0.17922551055575348; 0.20436939408609628; 0.23133806857897737; 0.22837190631962206; 0.2611718034649056; 0.30462224139228183; 0.3277471634644065; 0.3595577208662931; 0.042671097083349346; 0.06027193387363409; 0.07182684474072856; 0.12072547771177115; 0.1331787059163636; 0.16137414417679433; 0.1780034002291815; 0.19820571860540606; 0.2294059556234193; 0.23221403415772682; 0.2697708431035234; 0.2813760107306456; 0.28992333749905363; 0.3650401400682786; 0.8993207970132076; 0.045660964207664585; 0.06299599466264151; 0.09193684371316964; 0.12747145786167088; 0.14606550538249963; 0.172664884028299; 0.19152378303841075; 0.2212007207927944; 0.23752800077573005; 0.26289800433018995; 0.2772198641539113; 0.2995308585350757; 0.3549459028594012; 0.8032461437896778; 3.330618601208751])%Q.

(** fluids/fittings.py:1036-1036 *)
Definition tck_bend_rounded_Miller_C_Re_tx : list Q := ([4; 4; 4; 4; 8; 8; 8; 8])%Q.

(** fluids/fittings.py:1037-1037 *)
Definition tck_bend_rounded_Miller_C_Re_ty : list Q := ([1; 1; 1; 1; 2; 2; 2; 2])%Q.

(** fluids/fittings.py:1038-1041 *)
Definition tck_bend_rounded_Miller_C_Re_c : list Q := ([2.177340320782947; 2.185952396281732; 2.185952396281732; 2.1775876405173977; 0.6513348082098823; 0.7944713057222101; 0.7944713057222103; 1.0526247737400114; 0.6030278030721317; 1.3741240162063968; 1.3741240162063992; 0.7693594604301893; (-2.1663631289607883); (-1.9474318981548622); (-1.9474318981548622); 0.4196741237602154])%Q.

(** fluids/fittings.py:1045-1045 *)
Definition bend_rounded_Miller_C_Re_limit_1 : list Q := ([2428087.757821312; (-13637184.203693766); 28450331.830760233; (-25496945.91463643); 8471761.477755375])%Q.

(** fluids/fittings.py:1213-1273 [bend_rounded_Miller]. *)
Definition bend_rounded_Miller (W : R -> R) (Di : R) (angle : R) (Re : R) (rc : option R) (bend_diameters : option R) (roughness : R) (L_unimpeded : option R) : result R :=
  rc <- (match rc with
    | Some rc => Ok rc
    | None => let bend_diameters := match bend_diameters with Some v => v | None => 5 end in
    let rc := (Di * bend_diameters) in
    Ok rc
  end) ;;
  radius_ratio <- pdiv rc Di ;;
  let L_unimpeded := match L_unimpeded with Some v => v | None => (20 * Di) end in
  radius_ratio <- (if (Rltb radius_ratio 0.5) then let radius_ratio := 0.5 in
  Ok radius_ratio
  else Ok radius_ratio) ;;
  radius_ratio <- (if (Rltb 10 radius_ratio) then let radius_ratio := 10 in
  Ok radius_ratio
  else Ok radius_ratio) ;;
  angle <- (if (Rltb angle 10) then let angle := 10 in
  Ok angle
  else Ok angle) ;;
  Kb <- bisplev (map Q2R tck_bend_rounded_Miller_tx) (map Q2R tck_bend_rounded_Miller_ty) (map Q2R tck_bend_rounded_Miller_c) 3 3 radius_ratio angle ;;
  C_roughness <- Miller_bend_roughness_correction W Re Di roughness ;;
  let Re_C_Re := (Rmin (Rmax Re 10000) 100000000) in
  C_Re <- (if (Rleb 2 radius_ratio) then if (Reqb Re_C_Re 100000000) then let C_Re := 0.4196741237602154 in
  Ok C_Re
  else if (Reqb Re_C_Re 10000) then let C_Re := 2.1775876405173977 in
  Ok C_Re
  else t4 <- plog10 Re_C_Re ;;
  bisplev (map Q2R tck_bend_rounded_Miller_C_Re_tx) (map Q2R tck_bend_rounded_Miller_C_Re_ty) (map Q2R tck_bend_rounded_Miller_C_Re_c) 3 3 t4 2
  else if (Rleb radius_ratio 1) then C_Re_1 <- (if (Rltb Re_C_Re 207956.58904584477) then t7 <- plog10 Re_C_Re ;;
  bisplev (map Q2R tck_bend_rounded_Miller_C_Re_tx) (map Q2R tck_bend_rounded_Miller_C_Re_ty) (map Q2R tck_bend_rounded_Miller_C_Re_c) 3 3 t7 1
  else Ok 1) ;;
  if ((Rltb 0.7 radius_ratio) || (Rltb Kb 0.4))%bool then let C_Re := C_Re_1 in
  Ok C_Re
  else C_Re <- pdiv Kb ((Kb - (0.2 * C_Re_1)) + 0.2) ;;
  if ((Rltb 2.2 C_Re) || (Rltb C_Re 0))%bool then let C_Re := 2.2 in
  Ok C_Re
  else Ok C_Re
  else if (Rltb 1048884.4656835075 Re_C_Re) then let C_Re := 1 in
  Ok C_Re
  else if (Rltb (horner (map Q2R bend_rounded_Miller_C_Re_limit_1) radius_ratio) Re_C_Re) then let C_Re := 1 in
  Ok C_Re
  else t10 <- plog10 Re_C_Re ;;
  bisplev (map Q2R tck_bend_rounded_Miller_C_Re_tx) (map Q2R tck_bend_rounded_Miller_C_Re_ty) (map Q2R tck_bend_rounded_Miller_C_Re_c) 3 3 t10 radius_ratio) ;;
  C_o <- Miller_bend_unimpeded_correction Kb Di L_unimpeded ;;
  Ok (((Kb * C_Re) * C_roughness) * C_o).

(** fluids/fittings.py:1281-1286 *)
Definition bend_rounded_Crane_coeffs : list Q := ([111.75011378177442; (-331.89911345404107); (-27.841951521656483); 1066.8916917931147; (-857.8702190626232); (-1151.4621655498092); 1775.2416673594603; 216.37911821941805; (-1458.1661519377653); 447.169127650163; 515.361158769082; (-322.58377486107577); (-38.38349416327068); 71.12796602489138; (-16.198233745350535); 19.377150177339015; 31.107110520349494])%Q.

(** fluids/fittings.py:1337-1354 [bend_rounded_Crane]. *)
Definition bend_rounded_Crane (Di : R) (angle : R) (rc : option R) (bend_diameters : option R) : result R :=
  _ <- (match rc with
    | Some rc => match bend_diameters with
      | Some bend_diameters => t2 <- pdiv (Di * bend_diameters) rc ;;
      if (Rltb 0.000000000001 (Rabs (t2 - 1))) then Err ValueError
      else Ok tt
      | None => Ok tt
    end
    | None => Ok tt
  end) ;;
  rc <- (match rc with
    | Some rc => Ok rc
    | None => let bend_diameters := match bend_diameters with Some v => v | None => 5 end in
    let rc := (Di * bend_diameters) in
    Ok rc
  end) ;;
  fd <- ft_Crane Di ;;
  radius_ratio <- pdiv rc Di ;;
  radius_ratio <- (if (Rltb radius_ratio 1) then let radius_ratio := 1 in
  Ok radius_ratio
  else if (Rltb 20 radius_ratio) then let radius_ratio := 20 in
  Ok radius_ratio
  else Ok radius_ratio) ;;
  let factor := (horner (map Q2R bend_rounded_Crane_coeffs) (0.105263157894736836 * (radius_ratio - 10.5))) in
  let K := (fd * factor) in
  let K := ((((angle / 90) - 1) * ((((0.25 * PI) * fd) * radius_ratio) + (0.5 * K))) + K) in
  Ok K.

(** fluids/fittings.py:1357-1357 *)
Definition _Ito_angles : list Q := ([45; 90; 180])%Q.

(** fluids/fittings.py:1365-1391 [bend_rounded_Ito]. *)
Definition bend_rounded_Ito (W : R -> R) (Di : R) (angle : R) (Re : R) (rc : option R) (bend_diameters : option R) (roughness : R) : result R :=
  rc <- (match rc with
    | Some rc => if Reqb rc 0 then let bend_diameters := match bend_diameters with Some v => v | None => 5 end in
    let rc := (Di * bend_diameters) in
    Ok rc else Ok rc
    | None => let bend_diameters := match bend_diameters with Some v => v | None => 5 end in
    let rc := (Di * bend_diameters) in
    Ok rc
  end) ;;
  radius_ratio <- pdiv rc Di ;;
  let angle_rad := (radians angle) in
  t2 <- pdiv Di rc ;;
  let De2 := (Re * (t2 ^ 2)) in
  alpha <- (if (Rltb (50 * Di) rc) then let alpha := 1 in
  Ok alpha
  else t3 <- pdiv Di rc ;;
  t4 <- ppow t3 1.47 ;;
  let alpha_45 := (1 + (5.13 * t4)) in
  alpha_90 <- (t7 <- pdiv rc Di ;;
  if (Rltb t7 9.85) then t8 <- pdiv Di rc ;;
  t9 <- ppow t8 1.96 ;;
  Ok (0.95 + (4.42 * t9))
  else Ok 1) ;;
  t10 <- pdiv Di rc ;;
  t11 <- ppow t10 4.52 ;;
  let alpha_180 := (1 + (5.06 * t11)) in
  interp angle (map Q2R _Ito_angles) [alpha_45; alpha_90; alpha_180] None None false) ;;
  if (Rleb De2 360) then fc <- friction_factor_curved W Re Di (2 * rc) roughness None ("Srinivasan"%string) ("White"%string) ("Srinivasan turbulent"%string) true ;;
  pdiv ((((0.0175 * alpha) * fc) * angle) * rc) Di
  else t15 <- ppow Re (- 0.17) ;;
  t16 <- pdiv rc Di ;;
  t17 <- ppow t16 0.84 ;;
  let K := ((((0.00431 * alpha) * angle) * t15) * t17) in
  Ok K.

(** fluids/fittings.py:1393-1393 *)
Definition crane_standard_bend_angles : list Q := ([45; 90; 180])%Q.

(** fluids/fittings.py:1394-1394 *)
Definition crane_standard_bend_losses : list Q := ([16; 30; 50])%Q.

(** fluids/fittings.py:1504-1546 [bend_rounded]. *)
Definition bend_rounded (W : R -> R) (Di : R) (angle : R) (fd : option R) (rc : option R) (bend_diameters : option R) (Re : option R) (roughness : R) (L_unimpeded : option R) (method : string) : result R :=
  method <- (Ok method) ;;
  bend_diameters <- (match bend_diameters with
    | Some bend_diameters => Ok (Some bend_diameters)
    | None => match rc with
      | Some rc => Ok None
      | None => let bend_diameters := 5 in
      Ok (Some bend_diameters)
    end
  end) ;;
  '(bend_diameters2, rc) <- (match rc with
    | Some rc => bend_diameters2 <- (match bend_diameters with
      | Some bend_diameters => Ok bend_diameters
      | None => Ok 5
    end) ;;
    Ok (bend_diameters2, rc)
    | None => let bend_diameters := match bend_diameters with Some v => v | None => 5 end in
    let bend_diameters2 := bend_diameters in
    let rc := (Di * bend_diameters2) in
    Ok (bend_diameters2, rc)
  end) ;;
  if (String.eqb method "Rennels"%string) then let angle := (radians angle) in
  fd <- (match fd with
    | Some fd => Ok fd
    | None => match Re with
      | Some Re => t2 <- pdiv roughness Di ;;
      Clamond Re t2 false
      | None => Err ValueError
    end
  end) ;;
  let sin_term := (sin (0.5 * angle)) in
  t4 <- pdiv ((fd * angle) * rc) Di ;;
  t5 <- psqrt sin_term ;;
  t6 <- pdiv rc Di ;;
  t7 <- ppow t6 ((4 * angle) / PI) ;;
  t8 <- pdiv ((6.6 * fd) * (t5 + sin_term)) t7 ;;
  Ok ((t4 + ((0.1 + (2.4 * fd)) * sin_term)) + t8)
  else if (String.eqb method "Miller"%string) then match Re with
    | Some Re => bend_rounded_Miller W Di angle Re (Some rc) (Some bend_diameters2) roughness L_unimpeded
    | None => Err ValueError
  end
  else if (String.eqb method "Crane"%string) then bend_rounded_Crane Di angle (Some rc) (Some bend_diameters2)
  else if (String.eqb method "Crane standard"%string) then t11 <- ft_Crane Di ;;
  t12 <- interp angle (map Q2R crane_standard_bend_angles) (map Q2R crane_standard_bend_losses) None None true ;;
  Ok (t11 * t12)
  else if (String.eqb method "Ito"%string) then match Re with
    | Some Re => bend_rounded_Ito W Di angle Re (Some rc) (Some bend_diameters2) roughness
    | None => Err ValueError
  end
  else if (String.eqb method "Swamee"%string) then t14 <- pdiv Di rc ;;
  t15 <- ppow t14 3.5 ;;
  t16 <- psqrt (radians angle) ;;
  Ok ((0.0733 + (0.923 * t15)) * t16)
  else Err ValueError.

(** fluids/fittings.py:1549-1553 *)
Definition bend_miter_Miller_coeffs : list Q := ([(-12.050299402650126); (-4.472433689233185); 50.51478860493546; 18.246302079077196; (-84.61426660754049); (-28.9340865412371); 71.07345367553872; 21.354010992349565; (-30.239604839338); (-5.855129345095336); 5.465131779316523; (-1.0881363712712555); (-0.3635431075401224); 0.5120065303391261; 0.46818214491579246; 0.9789177645343993; 0.5080285124448385])%Q.

(** fluids/fittings.py:1599-1614 [bend_miter_Miller]. *)
Definition bend_miter_Miller (W : R -> R) (Di : R) (angle : R) (Re : R) (roughness : R) (L_unimpeded : option R) : result R :=
  let L_unimpeded := match L_unimpeded with Some v => v | None => (20 * Di) end in
  angle <- (if (Rltb 120 angle) then let angle := 120 in
  Ok angle
  else Ok angle) ;;
  let Kb := (horner (map Q2R bend_miter_Miller_coeffs) ((1 / 60) * (angle - 60))) in
  C_o <- Miller_bend_unimpeded_correction Kb Di L_unimpeded ;;
  C_roughness <- Miller_bend_roughness_correction W Re Di roughness ;;
  let Re_C_Re := (Rmin (Rmax Re 10000) 100000000) in
  C_Re_1 <- (if (Rltb Re_C_Re 207956.58904584477) then t4 <- plog10 Re_C_Re ;;
  bisplev (map Q2R tck_bend_rounded_Miller_C_Re_tx) (map Q2R tck_bend_rounded_Miller_C_Re_ty) (map Q2R tck_bend_rounded_Miller_C_Re_c) 3 3 t4 1
  else Ok 1) ;;
  C_Re <- pdiv Kb ((Kb - (0.2 * C_Re_1)) + 0.2) ;;
  if ((Rltb 2.2 C_Re) || (Rltb C_Re 0))%bool then let C_Re := 2.2 in
  Ok (((Kb * C_Re) * C_roughness) * C_o)
  else Ok (((Kb * C_Re) * C_roughness) * C_o).

(** fluids/fittings.py:1617-1617 *)
Definition bend_miter_Crane_angles : list Q := ([0; 15; 30; 45; 60; 75; 90])%Q.

(** fluids/fittings.py:1618-1618 *)
Definition bend_miter_Crane_fds : list Q := ([2; 4; 8; 15; 25; 40; 60])%Q.

(** fluids/fittings.py:1620-1620 *)
Definition bend_miter_Blevins_angles : list Q := ([0; 10; 20; 30; 40; 50; 60; 70; 80; 90; 120])%Q.

(** fluids/fittings.py:1621-1621 *)
Definition bend_miter_Blevins_Ks : list Q := ([0; 0.025; 0.055; 0.1; 0.2; 0.35; 0.5; 0.7; 0.9; 1.1; 1.5])%Q.

(** fluids/fittings.py:1705-1730 [bend_miter]. *)
Definition bend_miter (W : R -> R) (angle : R) (Di : option R) (Re : option R) (roughness : R) (L_unimpeded : option R) (method : string) : result R :=
  method <- (Ok method) ;;
  if (String.eqb method "Rennels"%string) then let angle_rad := (radians angle) in
  let sin_half_angle := (sin (angle_rad * 0.5)) in
  Ok ((0.42 * sin_half_angle) + (((2.56 * sin_half_angle) * sin_half_angle) * sin_half_angle))
  else if (String.eqb method "Crane"%string) then match Di with
    | Some Di => factor <- interp angle (map Q2R bend_miter_Crane_angles) (map Q2R bend_miter_Crane_fds) None None false ;;
    t2 <- ft_Crane Di ;;
    Ok (t2 * factor)
    | None => Err ValueError
  end
  else if (String.eqb method "Miller"%string) then match Di with
    | Some Di => match Re with
      | Some Re => bend_miter_Miller W Di angle Re roughness L_unimpeded
      | None => Err ValueError
    end
    | None => Err ValueError
  end
  else if (String.eqb method "Blevins"%string) then match Re with
    | Some Re => K_base <- interp angle (map Q2R bend_miter_Blevins_angles) (map Q2R bend_miter_Blevins_Ks) None None false ;;
    t5 <- pdiv 200000 Re ;;
    t6 <- ppow t5 0.2 ;;
    Ok (K_base * t6)
    | None => Err ValueError
  end
  else Err ValueError.

(** fluids/fittings.py:1775-1775 [helix]. *)
Definition helix (Di : R) (rs : R) (pitch : R) (N_ : R) (fd : R) : result R :=
  t1 <- psqrt ((((2 * PI) * rs) ^ 2) + (pitch ^ 2)) ;;
  t2 <- pdiv (fd * t1) Di ;;
  Ok (N_ * ((t2 + 0.2) + (4.8 * fd))).

(** fluids/fittings.py:1819-1819 [spiral]. *)
Definition spiral (Di : R) (rmax : R) (rmin : R) (pitch : R) (fd : R) : result R :=
  t1 <- pdiv (rmax - rmin) pitch ;;
  t2 <- pdiv ((fd * PI) * (rmax + rmin)) Di ;;
  t3 <- pdiv rmin Di ;;
  t4 <- pdiv (13.2 * fd) (t3 ^ 2) ;;
  Ok ((t1 * ((t2 + 0.2) + (4.8 * fd))) + t4).

(** fluids/fittings.py:1824-1824 *)
Definition tck_contraction_abrupt_Miller_tx : list Q := ([0; 0; 0; 0; 0.5553844358576507; 0.7193937784550933; 0.8144518359319883; 1; 1; 1; 1])%Q.

(** fluids/fittings.py:1825-1825 *)
Definition tck_contraction_abrupt_Miller_ty : list Q := ([0; 0; 0; 0; 0.008318525134414716; 0.03421785904690331; 0.1; 0.1; 0.1; 0.1])%Q.

(** fluids/fittings.py:1826-1834 *)
Definition tck_contraction_abrupt_Miller_c : list Q := ([0.4994829280256306; 0.4879234090312588; 0.4255534701302917; 0.13986792857000196; 0.18065199312360336; 0.08701863105570044; 0.440886271558411; 0.4243716649409474; 0.36030826702480984; 0.2117960027770777; 0.11248601502220595; 0.08616608643911047; 0.4018850813314268; 0.3706136100344715; 0.26368725187530173; 0.15316562777200723; 0.09856904494833027; 0.08399367477431015; 0.17005190739488515; 0.16023910724406945; 0.1242906181281536; 0.06137573180850665; 0.05726821990215439; 0.04684229988854647; 0.03922553704852396; 0.036955938945600654; 0.029450340285188167; 0.028656302938315878; 0.019588760093397686; 0.01950497484044149; 0.006447273360860872; 0.006569278508667471; 0.0053786079483153885; (-0.013158950566037957); 0.010870991979047888; 0.0015100946100218284; (-0.0005221250682760256); (-0.0006447517875307877); (-0.0007846123907797336); 0.0024459067063225485; (-0.0019102888752274472); (-0.0001356300464508266)])%Q.

(** fluids/fittings.py:1871-1879 [contraction_round_Miller]. *)
Definition contraction_round_Miller (Di1 : R) (Di2 : R) (rc : R) : result R :=
  A_ratio <- pdiv (Di2 * Di2) (Di1 * Di1) ;;
  radius_ratio <- pdiv rc Di2 ;;
  radius_ratio <- (if (Rltb 0.1 radius_ratio) then let radius_ratio := 0.1 in
  Ok radius_ratio
  else Ok radius_ratio) ;;
  Ks <- bisplev (map Q2R tck_contraction_abrupt_Miller_tx) (map Q2R tck_contraction_abrupt_Miller_ty) (map Q2R tck_contraction_abrupt_Miller_c) 3 3 A_ratio radius_ratio ;;
  if (Rltb Ks 0) then let Ks := 0 in
  Ok Ks
  else Ok Ks.

(** fluids/fittings.py:2148-2166 [contraction_conical_Crane]. *)
Definition contraction_conical_Crane (Di1 : R) (Di2 : R) (l : option R) (angle : option R) : result R :=
  angle_rad <- (match l with
    | Some l => if (Reqb l 0) then let angle_rad := PI in
    Ok angle_rad
    else t1 <- pdiv (Di1 - Di2) (2 * l) ;;
    let angle_rad := (2 * (atan t1)) in
    Ok angle_rad
    | None => match angle with
      | Some angle => let angle_rad := ((PI / 180) * angle) in
      Ok angle_rad
      | None => Err ValueError
    end
  end) ;;
  beta <- pdiv Di2 Di1 ;;
  let beta2 := (beta * beta) in
  if (Rltb angle_rad (0.25 * PI)) then let K2 := ((0.8 * (sin (0.5 * angle_rad))) * (1 - beta2)) in
  Ok K2
  else t3 <- psqrt (sin (0.5 * angle_rad)) ;;
  let K2 := (0.5 * (t3 * (1 - beta2))) in
  Ok K2.

(** fluids/fittings.py:1981-2003 [contraction_sharp]. *)
Definition contraction_sharp (Di1 : R) (Di2 : R) (fd : option R) (Re : option R) (roughness : R) (method : string) : result R :=
  if (String.eqb method "Rennels"%string) then beta <- pdiv Di2 Di1 ;;
  let beta2 := (beta * beta) in
  let beta5 := ((beta2 * beta2) * beta) in
  let lbd := (1 + (0.622 * ((1 - (0.215 * beta2)) - (0.785 * beta5)))) in
  Ok ((((0.0696 * (1 - beta5)) * lbd) * lbd) + ((lbd - 1) * (lbd - 1)))
  else if (String.eqb method "Hooper"%string) then match Re with
    | Some Re => D1_D2 <- pdiv Di1 Di2 ;;
    let D1_D2_2 := (D1_D2 * D1_D2) in
    K <- (if (Rleb Re 2500) then t3 <- pdiv 160 Re ;;
    let K := ((1.2 + t3) * ((D1_D2_2 * D1_D2_2) - 1)) in
    Ok K
    else fd <- match fd with Some v => Ok v | None => t4 <- pdiv roughness Di1 ;;
    Clamond Re t4 false end ;;
    let K := (((0.6 + (0.48 * fd)) * D1_D2_2) * (D1_D2_2 - 1)) in
    Ok K) ;;
    change_K_basis K Di1 Di2
    | None => Err ValueError
  end
  else if (String.eqb method "Crane"%string) then contraction_conical_Crane Di1 Di2 (Some 0) None
  else Err ValueError.

(** fluids/fittings.py:2005-2006 *)
Definition contraction_round_Idelchik_ratios : list Q := ([0; 0.01; 0.02; 0.03; 0.04; 0.05; 0.06; 0.08; 0.12; 0.16; 0.2])%Q.

(** fluids/fittings.py:2007-2008 *)
Definition contraction_round_Idelchik_factors : list Q := ([0.5; 0.43; 0.37; 0.31; 0.26; 0.22; 0.2; 0.15; 0.09; 0.06; 0.03])%Q.

(** fluids/fittings.py:2081-2095 [contraction_round]. *)
Definition contraction_round (Di1 : R) (Di2 : R) (rc : R) (method : string) : result R :=
  beta <- pdiv Di2 Di1 ;;
  method <- (Ok method) ;;
  if (String.eqb method "Rennels"%string) then t2 <- pdiv rc Di2 ;;
  t3 <- psqrt t2 ;;
  t4 <- pdiv (0.7 * rc) Di2 ;;
  let lbd := (1 + ((0.622 * (((1 - (0.3 * t3)) - t4) ^ 4)) * ((1 - (0.215 * (beta ^ 2))) - (0.785 * (beta ^ 5))))) in
  t5 <- pdiv (0.569 * rc) Di2 ;;
  t6 <- pdiv rc Di2 ;;
  t7 <- psqrt t6 ;;
  Ok ((((((0.0696 * (1 - t5)) * (1 - (t7 * beta))) * (1 - (beta ^ 5))) * lbd) * lbd) + ((lbd - 1) ^ 2))
  else if (String.eqb method "Miller"%string) then contraction_round_Miller Di1 Di2 rc
  else if (String.eqb method "Idelchik"%string) then t9 <- pdiv rc Di2 ;;
  K0 <- interp t9 (map Q2R contraction_round_Idelchik_ratios) (map Q2R contraction_round_Idelchik_factors) None None false ;;
  Ok (K0 * (1 - (beta * beta)))
  else Err ValueError.

(** fluids/fittings.py:2169-2169 *)
Definition contraction_conical_friction_Idelchik_tck_x : list Q := ([2; 3; 6; 8; 10; 12; 14; 16; 20])%Q.

(** fluids/fittings.py:2170-2170 *)
Definition contraction_conical_friction_Idelchik_tck_y : list Q := ([0.05; 0.075; 0.1; 0.15; 0.2; 0.25; 0.3; 0.4; 0.5; 0.6])%Q.

(** fluids/fittings.py:2172-2182 *)
Definition contraction_conical_friction_Idelchik_tck_z : list (list Q) := ([[0.14; 0.1; 0.05; 0.04; 0.03; 0.03; 0.02; 0.02; 0.01];
   [0.14; 0.1; 0.05; 0.04; 0.03; 0.02; 0.02; 0.02; 0.01];
   [0.14; 0.1; 0.05; 0.04; 0.03; 0.02; 0.02; 0.02; 0.01];
   [0.14; 0.1; 0.05; 0.04; 0.03; 0.02; 0.02; 0.02; 0.01];
   [0.14; 0.1; 0.05; 0.03; 0.03; 0.02; 0.02; 0.02; 0.01];
   [0.14; 0.1; 0.05; 0.03; 0.03; 0.02; 0.02; 0.02; 0.01];
   [0.13; 0.09; 0.04; 0.03; 0.03; 0.02; 0.02; 0.02; 0.01];
   [0.12; 0.08; 0.04; 0.03; 0.02; 0.02; 0.02; 0.02; 0.01];
   [0.11; 0.07; 0.04; 0.03; 0.02; 0.02; 0.02; 0.02; 0.01];
   [0.09; 0.06; 0.03; 0.02; 0.02; 0.02; 0.02; 0.02; 0.01]])%Q.

(** fluids/fittings.py:2190-2190 *)
Definition contraction_conical_Blevins_tck_x : list Q := ([0; 0.05; 0.1; 0.15; 0.6])%Q.

(** fluids/fittings.py:2191-2191 *)
Definition contraction_conical_Blevins_tck_y : list Q := ([1.2; 1.5; 2; 3; 5; 10])%Q.

(** fluids/fittings.py:2192-2197 *)
Definition contraction_conical_Blevins_tck_z : list (list Q) := ([[0.08; 0.06; 0.04; 0.03; 0.03];
   [0.17; 0.12; 0.09; 0.07; 0.06];
   [0.25; 0.23; 0.17; 0.14; 0.06];
   [0.33; 0.31; 0.27; 0.23; 0.08];
   [0.4; 0.38; 0.35; 0.31; 0.18];
   [0.45; 0.45; 0.41; 0.39; 0.27]])%Q.

(** fluids/fittings.py:2205-2208 *)
Definition contraction_conical_Miller_tck_tx : list Q := ([(-2.2990613088204293); (-2.2990613088204293); (-2.2990613088204293); (-2.2990613088204293); (-1.9345621970869704); (-1.404550366067981); (-1.1205580332553446); (-0.7202074014540876); (-0.18305354619604816); 0.5791478950190209; 1.2576636025381396; 2.2907351590368092; 2.2907351590368092; 2.2907351590368092; 2.2907351590368092])%Q.

(** fluids/fittings.py:2209-2212 *)
Definition contraction_conical_Miller_tck_ty : list Q := ([0.09564194294666524; 0.09564194294666524; 0.17553288711543455; 0.263895293813645; 0.3890819147022019; 0.46277323951998217; 0.5504296236707121; 0.7265657737596892; 1.0772357648098938; 1.2566022106161683; 1.3896885941879062; 1.3896885941879062])%Q.

(** fluids/fittings.py:2213-2235 *)
Definition contraction_conical_Miller_tck_c : list Q := ([(-0.019518693251672135); 0.04439613867473242; 0.11549650174721836; 0.21325506677861075; 0.268179723158688; 0.31125301421509866; 0.38394595875289805; 0.4808287074532006; 0.5205981039085685; 0.5444079315893322; (-0.016435668699253902); 0.036132755789022385; 0.09344296094392814; 0.18264727448046977; 0.23460506265914166; 0.2772896726095435; 0.3475409775384636; 0.45339837219176454; 0.49766916609817535; 0.533981552804865; (-0.006524265764454468); 0.024107195694715193; 0.05862956870028131; 0.12122104285943507; 0.17207312024278762; 0.2175356288866053; 0.282297563080016; 0.3995008583081823; 0.4563724107887528; 0.5175856070810377; 0.00971345082784277; 0.025981390544674948; 0.0438578322196561; 0.08103403101086341; 0.11351528283253318; 0.16873088559958743; 0.2347695003589526; 0.3428907161435351; 0.42017998591926276; 0.49784770602295325; 0.022572122504756167; 0.0277671279384801; 0.033512283408629495; 0.05470423531298454; 0.06485563480390757; 0.10483763206962131; 0.1802208799223503; 0.29075723837012296; 0.35502824385155335; 0.4460106883062252; 0.030312717163327077; 0.03080869253188484; 0.03583128286874324; 0.04627567520803308; 0.050501484562613955; 0.05683263025468022; 0.12297253802915259; 0.2415222338797251; 0.3025777968736861; 0.3724407040165538; 0.03115993727503623; 0.03443665864698284; 0.03574452046031886; 0.03995718256281492; 0.04759698369059247; 0.050404788737262694; 0.052375330859925545; 0.1356057568743366; 0.20463667731329582; 0.26043914743762864; 0.02844193432840707; 0.0219797618956514; 0.013352154001094038; 0.018393840217638825; 0.02448602185526976; 0.038812331325140816; 0.0522197430071833; 0.057132169238281294; 0.06871138075102912; 0.09334527259294226; 0.04089985439478869; 0.07148502476706058; 0.06750266344761692; 0.038560772865945815; 0.020172054809734774; 0.01596047961326318; 0.033338955878272625; 0.058808731166289874; 0.055802602927507314; 0.025265841939291166; 0.11200365568168691; 0.11945663812857424; 0.10673570013847415; 0.07758458179796549; 0.055266607234870514; 0.03072901347153607; 0.025790727504652375; 0.037031664564632104; 0.0601306808668177; 0.07612350738135039; 0.0964900248905913; 0.11088549072803407; 0.10778442024110846; 0.09386482850507959; 0.06940476627270852; 0.04434507143623664; 0.03331958878624311; 0.01854072032522763; 0.027553821071285824; 0.045426686375783926])%Q.

(** fluids/fittings.py:2383-2476 [contraction_conical]. *)
Definition contraction_conical (Di1 : R) (Di2 : R) (fd : option R) (l : option R) (angle : option R) (Re : option R) (roughness : R) (method : string) : result R :=
  beta <- pdiv Di2 Di1 ;;
  '(angle_rad, l) <- (match angle with
    | Some angle => let angle_rad := (angle * (PI / 180)) in
    l <- pdiv (Di1 - Di2) (2 * (tan (0.5 * angle_rad))) ;;
    Ok (angle_rad, l)
    | None => match l with
      | Some l => if (negb (Reqb l 0)) then t3 <- pdiv (Di1 - Di2) (2 * l) ;;
      let angle_rad := (2 * (atan t3)) in
      Ok (angle_rad, l)
      else let angle_rad := PI in
      Ok (angle_rad, l)
      | None => Err ValueError
    end
  end) ;;
  if (String.eqb method "Rennels"%string) then fd <- (match fd with
    | Some fd => Ok fd
    | None => match Re with
      | Some Re => t4 <- pdiv roughness Di2 ;;
      Clamond Re t4 false
      | None => Err ValueError
    end
  end) ;;
  let beta2 := (beta * beta) in
  let beta4 := (beta2 * beta2) in
  let beta5 := (beta4 * beta) in
  t6 <- ppow (angle_rad / PI) 0.8 ;;
  let lbd := (1 + ((0.622 * t6) * ((1 - (0.215 * beta2)) - (0.785 * beta5)))) in
  let sin_half_angle := (sin (0.5 * angle_rad)) in
  K_fr2 <- pdiv (fd * (1 - beta4)) (8 * sin_half_angle) ;;
  let K_conv2 := (((((0.0696 * sin_half_angle) * (1 - beta5)) * lbd) * lbd) + ((lbd - 1) ^ 2)) in
  Ok (K_fr2 + K_conv2)
  else if (String.eqb method "Crane"%string) then contraction_conical_Crane Di1 Di2 (Some l) (Some (angle_rad * (180 / PI)))
  else if (String.eqb method "Swamee"%string) then t9 <- ppow angle_rad (1 / 3) ;;
  Ok (0.315 * t9)
  else if (String.eqb method "Idelchik"%string) then t10 <- pdiv l Di2 ;;
  K0 <- bisplev_linear (map Q2R entrance_beveled_Idelchik_tck_x) (map Q2R entrance_beveled_Idelchik_tck_y) (map (map Q2R) entrance_beveled_Idelchik_tck_z) (angle_rad * (180 / PI)) t10 ;;
  angle_fric <- (if (Rltb (20 * (PI / 180)) angle_rad) then let angle_fric := 20 in
  Ok angle_fric
  else if (Rltb angle_rad (2 * (PI / 180))) then let angle_fric := 2 in
  Ok angle_fric
  else let angle_fric := (angle_rad * (180 / PI)) in
  Ok angle_fric) ;;
  A_ratio_fric <- pdiv (Di2 * Di2) (Di1 * Di1) ;;
  let A_ratio := A_ratio_fric in
  A_ratio_fric <- (if (Rltb A_ratio_fric 0.05) then let A_ratio_fric := 0.05 in
  Ok A_ratio_fric
  else if (Rltb 0.6 A_ratio_fric) then let A_ratio_fric := 0.6 in
  Ok A_ratio_fric
  else Ok A_ratio_fric) ;;
  K_fr <- bisplev_linear (map Q2R contraction_conical_friction_Idelchik_tck_x) (map Q2R contraction_conical_friction_Idelchik_tck_y) (map (map Q2R) contraction_conical_friction_Idelchik_tck_z) angle_fric A_ratio_fric ;;
  Ok ((K0 * (1 - A_ratio)) + K_fr)
  else if (String.eqb method "Blevins"%string) then A_ratio <- pdiv (Di1 * Di1) (Di2 * Di2) ;;
  A_ratio <- (if (Rltb A_ratio 1.2) then let A_ratio := 1.2 in
  Ok A_ratio
  else if (Rltb 10 A_ratio) then let A_ratio := 10 in
  Ok A_ratio
  else Ok A_ratio) ;;
  l_ratio <- pdiv l Di2 ;;
  l_ratio <- (if (Rltb 0.6 l_ratio) then let l_ratio := 0.6 in
  Ok l_ratio
  else Ok l_ratio) ;;
  bisplev_linear (map Q2R contraction_conical_Blevins_tck_x) (map Q2R contraction_conical_Blevins_tck_y) (map (map Q2R) contraction_conical_Blevins_tck_z) l_ratio A_ratio
  else if (String.eqb method "Miller"%string) then A_ratio <- pdiv (Di1 * Di1) (Di2 * Di2) ;;
  A_ratio <- (if (Rltb 4 A_ratio) then let A_ratio := 4 in
  Ok A_ratio
  else if (Rltb A_ratio 1.1) then let A_ratio := 1.1 in
  Ok A_ratio
  else Ok A_ratio) ;;
  l_ratio <- pdiv l (Di2 * 0.5) ;;
  l_ratio <- (if (Rltb l_ratio 0.1) then let l_ratio := 0.1 in
  Ok l_ratio
  else if (Rltb 10 l_ratio) then let l_ratio := 10 in
  Ok l_ratio
  else Ok l_ratio) ;;
  t19 <- plog l_ratio ;;
  t20 <- plog A_ratio ;;
  t21 <- bisplev (map Q2R contraction_conical_Miller_tck_tx) (map Q2R contraction_conical_Miller_tck_ty) (map Q2R contraction_conical_Miller_tck_c) 3 1 t19 t20 ;;
  Ok (Rmax (Rmin t21 0.5) 0)
  else if (String.eqb method "Hooper"%string) then match Re with
    | Some Re => D1_D2 <- pdiv Di1 Di2 ;;
    let D1_D2_2 := (D1_D2 * D1_D2) in
    K <- (if (Rleb Re 2500) then t23 <- pdiv 160 Re ;;
    let K := ((1.2 + t23) * ((D1_D2_2 * D1_D2_2) - 1)) in
    Ok K
    else fd <- match fd with Some v => Ok v | None => t24 <- pdiv roughness Di1 ;;
    Clamond Re t24 false end ;;
    let K := (((0.6 + (0.48 * fd)) * D1_D2_2) * (D1_D2_2 - 1)) in
    Ok K) ;;
    K <- (if (Rltb (0.25 * PI) angle_rad) then t26 <- psqrt (sin (0.5 * angle_rad)) ;;
    let K := (K * t26) in
    Ok K
    else let K := (K * (1.6 * (sin (0.5 * angle_rad)))) in
    Ok K) ;;
    change_K_basis K Di1 Di2
    | None => Err ValueError
  end
  else Err ValueError.

(** fluids/fittings.py:2529-2535 [contraction_beveled]. *)
Definition contraction_beveled (Di1 : R) (Di2 : R) (l : R) (angle : R) : result R :=
  let angle := (radians angle) in
  beta <- pdiv Di2 Di1 ;;
  t2 <- pdiv l Di2 ;;
  CB <- pdiv (((t2 * 2) * beta) * (tan (0.5 * angle))) (1 - beta) ;;
  let beta2 := (beta * beta) in
  let beta5 := ((beta2 * beta2) * beta) in
  t4 <- ppow (angle / PI) 0.8 ;;
  let lbd := (1 + ((0.622 * (1 + (CB * (t4 - 1)))) * ((1 - (0.215 * beta2)) - (0.785 * beta5)))) in
  Ok (((((0.0696 * (1 + (CB * ((sin (0.5 * angle)) - 1)))) * (1 - beta5)) * lbd) * lbd) + ((lbd - 1) ^ 2)).

(** fluids/fittings.py:2606-2620 [diffuser_sharp]. *)
Definition diffuser_sharp (Di1 : R) (Di2 : R) (Re : option R) (fd : option R) (roughness : R) (method : string) : result R :=
  beta <- pdiv Di1 Di2 ;;
  if (String.eqb method "Rennels"%string) then let r := (1 - (beta * beta)) in
  Ok (r * r)
  else if (String.eqb method "Hooper"%string) then match Re with
    | Some Re => if (Rltb Re 4000) then Ok (2 * (1 - (((beta * beta) * beta) * beta)))
    else fd <- match fd with Some v => Ok v | None => t2 <- pdiv roughness Di1 ;;
    Clamond Re t2 false end ;;
    let x := (1 - (beta * beta)) in
    Ok (((1 + (0.8 * fd)) * x) * x)
    | None => Err ValueError
  end
  else Err ValueError.

(** fluids/fittings.py:2624-2646 [diffuser_conical_Crane]. *)
Definition diffuser_conical_Crane (Di1 : R) (Di2 : R) (l : option R) (angle : option R) : result R :=
  beta <- pdiv Di1 Di2 ;;
  let beta2 := (beta * beta) in
  '(angle_rad, angle_deg) <- (match angle with
    | Some angle => let angle_rad := (radians angle) in
    let angle_deg := angle in
    Ok (angle_rad, angle_deg)
    | None => match l with
      | Some l => if (negb (Reqb l 0)) then t2 <- pdiv (Di1 - Di2) (2 * l) ;;
      let angle_rad := (2 * (atan t2)) in
      let angle_deg := (degrees angle_rad) in
      Ok (angle_rad, angle_deg)
      else let angle_rad := PI in
      let angle_deg := 180 in
      Ok (angle_rad, angle_deg)
      | None => Err ValueError
    end
  end) ;;
  if (Rltb angle_deg 45) then K2 <- pdiv ((2.6 * (sin (0.5 * angle_rad))) * ((1 - beta2) ^ 2)) (beta2 * beta2) ;;
  let K1 := ((K2 * beta2) * beta2) in
  Ok K1
  else K2 <- pdiv ((1 - beta2) ^ 2) (beta2 * beta2) ;;
  let K1 := ((K2 * beta2) * beta2) in
  Ok K1.

(** fluids/fittings.py:2650-2654 *)
Definition tck_diffuser_conical_Miller_tx : list Q := ([(-2.307004845727645); (-2.307004845727645); (-2.307004845727645); (-2.307004845727645); (-0.852533937110498); (-0.08240363489988907); 0.5915927994712962; 0.8982804334259539; 1.2315822114127628; 1.5343291978351532; 1.9774792041044793; 2.990267368122924; 2.990267368122924; 2.990267368122924; 2.990267368122924])%Q.

(** fluids/fittings.py:2655-2659 *)
Definition tck_diffuser_conical_Miller_ty : list Q := ([0.15265175024859737; 0.15265175024859737; 0.15265175024859737; 0.15265175024859737; 0.40701687154729443; 0.6664564516122377; 0.8948974705226967; 1.0144777142876453; 1.0931592421107108; 1.1789561829062467; 1.3141101898631344; 1.4016433190574298; 1.4016433190574298; 1.4016433190574298; 1.4016433190574298])%Q.

(** fluids/fittings.py:2660-2686 *)
Definition tck_diffuser_conical_Miller_c : list Q := ([0.06036297171599943; 0.08322477303304361; 0.1533018560180316; 0.23256231139725417; 0.3176212581983357; 0.40020914174974515; 0.4385944607898857; 0.5200344894492758; 0.6068491969006803; 0.5644812620968174; 0.5206931820307759; 0.05279258341151595; 0.06701886136626269; 0.15460022709300852; 0.22187392289400498; 0.3163189969211137; 0.40236602598664045; 0.44217477520553994; 0.5224439320660155; 0.5978399391103398; 0.6131809640282799; 0.6101286467987195; 0.05708355184742518; 0.06843627744908527; 0.08943713554460665; 0.2666074936578441; 0.3093579837678418; 0.3920305705167829; 0.44503141066730906; 0.5320996705995045; 0.5598015078960548; 0.9045290434928654; 1.1278543134986714; 0.004082132921064788; 0.08726673904790738; 0.05768023021275458; 0.2018006237954987; 0.31496483541908044; 0.3856708355645899; 0.4432173742517448; 0.5150555453757539; 0.5447727935474795; 0.8251456282600432; 0.996071097893787; (-0.1110682037244921); 0.07314890991840513; 0.06176280023793122; 0.14210338139570033; 0.221133551530109; 0.34303500384378116; 0.40130996632027693; 0.49982098188910806; 0.5348917607889022; 0.6163719511180222; 0.6823385842053077; (-0.2166378057986125); 0.03883937343819872; 0.06286476564404532; 0.10772310640543344; 0.16931893225970837; 0.22920155110345403; 0.32189134044934775; 0.4091523406543155; 0.5122997879847003; 0.5557259511248352; 0.5834892444785406; (-0.2784258718931251); 0.01614983641474248; 0.06657175843926792; 0.06987287339424499; 0.11347683852709868; 0.18271325237542604; 0.24381226992585622; 0.33699751608726225; 0.4328543409526461; 0.4932084120786604; 0.5172902462503076; (-0.3110304748285624); (-0.02554857636053585); 0.04945754727786904; 0.06935393005092971; 0.05644398696176074; 0.08533241552366327; 0.15458680076525846; 0.24566876577901098; 0.35324686175439035; 0.4095605186012888; 0.4277661722408436; (-0.27286175236092153); (-0.15488345611240545); (-0.09243246273089455); 0.03455782910023685; 0.0829563174865211; 0.05506682466210118; 0.07027248456489407; 0.13458355260751956; 0.21084209763905942; 0.2971705194724395; 0.3194829528180993; (-0.08063077687005854); (-0.4253397307338264); (-0.6215191566655465); (-0.29467521770312016); 0.018448009119198257; 0.08412326971799582; 0.08337420030229001; 0.131275821589702; 0.1623166890922024; 0.21352111168837065; 0.2394011632386149; 0.14484414802505116; (-0.781141319195365); (-1.4412452429263252); (-0.6266583715858592); 0.019328251090708078; 0.07939124881757918; 0.07570115443982374; 0.10818570632561267; 0.14931529315415798; 0.1845260859797597; 0.1975713897205575])%Q.

(** fluids/fittings.py:2704-2704 *)
Definition diffuser_conical_Idelchik_tck_tx : list Q := ([0; 0; 0; 0; 0.075; 0.1; 0.15; 0.2; 0.25; 0.3; 0.4; 0.6; 0.6; 0.6; 0.6])%Q.

(** fluids/fittings.py:2705-2705 *)
Definition diffuser_conical_Idelchik_tck_ty : list Q := ([3; 3; 6; 8; 10; 12; 14; 16; 20; 24; 30; 40; 60; 90; 180; 180])%Q.

(** fluids/fittings.py:2706-2740 *)
Definition diffuser_conical_Idelchik_tck_c : list Q := ([0.03; 0.08000000000000002; 0.11; 0.15000000000000002; 0.19; 0.23000000000000004; 0.2700000000000001; 0.36000000000000004; 0.4700000000000001; 0.6500000000000001; 0.9200000000000003; 1.1499999999999997; 1.0999999999999999; 1.02; 0.031285899404876215; 0.06962481602354913; 0.12336980866449107; 0.1503712244832664; 0.14378748320215035; 0.20742060216292338; 0.24836000991873095; 0.35209826742177064; 0.43872500319959085; 0.6090878367568959; 0.8690773980930455; 1.0742803401164671; 1.0021612593588036; 0.9451655708069392; 0.028714100595123804; 0.06926407286533984; 0.08440796911328675; 0.1374065532945115; 0.17287918346451642; 0.19813495339263237; 0.23719554563682488; 0.301235065911563; 0.4134972190226316; 0.5698010521319933; 0.8164781574625106; 1.0379418821057562; 1.0011720739745302; 0.9192788736375066; 0.03171453253983491; 0.07116642136473203; 0.09282641155265463; 0.11549496597768823; 0.14338331093620021; 0.17489413621723082; 0.21614667989164066; 0.28946435656236014; 0.37330000426612064; 0.5104504490091938; 0.7371031974573926; 0.9040404534886205; 0.8645483458117367; 0.810220761075916; 0.01599798425801497; 0.0600112625583925; 0.07849171306072822; 0.11003185192295382; 0.14431407179880976; 0.1740127023740962; 0.20378359569975044; 0.2582633102962821; 0.33980922441927436; 0.45585837012862357; 0.6659720355794456; 0.8470955557688615; 0.7909107314263772; 0.7433823030652078; 0.021150220771741206; 0.04655749664043002; 0.0703397965060472; 0.10328500351954951; 0.11954655404108269; 0.1488787675177576; 0.1662463204709797; 0.231242192999296; 0.3007649420874127; 0.4151976547001982; 0.604782427849235; 0.7361883438919813; 0.6970812056056823; 0.6428823350611119; 0.019401132655020165; 0.053758750879887386; 0.06014910091508289; 0.07682813399884816; 0.09749971203685935; 0.13047222755487306; 0.1512311224163308; 0.19676791770653376; 0.2571310072310745; 0.3433510110705831; 0.45489825302361336; 0.6481510686632118; 0.6207644461508929; 0.5850883566903438; 0.02185995392589747; 0.033290416160064826; 0.045368699473134086; 0.06692723598046114; 0.08810622640302032; 0.10215235383204274; 0.1213618790128196; 0.17665887566391483; 0.2219043695740277; 0.3007473976664318; 0.37586666240054567; 0.5455594857191605; 0.5128931976706977; 0.4673228653399028; 0.000012670378191600348; 0.03091333375994541; 0.03916320044367654; 0.06214899426206778; 0.062121072502719726; 0.06871380729933241; 0.09367771591902911; 0.10605919242336995; 0.14532614492011708; 0.196826752842303; 0.32944561762761065; 0.340669205008426; 0.32703730722467556; 0.32918425374885374; 0.014993664810904203; 0.014543333120027308; 0.025418399778161738; 0.026425502868966118; 0.04393946374864015; 0.0556430963503338; 0.05566114204048549; 0.07947040378831506; 0.10483692753994148; 0.13908662357884857; 0.1752771911861948; 0.26216539749578693; 0.2564813463876624; 0.22290787312557322; 0.01; 0.01; 0.02; 0.03; 0.03; 0.04; 0.05; 0.06; 0.08; 0.1; 0.15; 0.18; 0.17; 0.16])%Q.

(** fluids/fittings.py:2876-2970 [diffuser_conical]. *)
Definition diffuser_conical (Di1 : R) (Di2 : R) (l : option R) (angle : option R) (fd : option R) (Re : option R) (roughness : R) (method : string) : result R :=
  beta <- pdiv Di1 Di2 ;;
  let beta2 := (beta * beta) in
  '(angle_rad, angle_deg, l_calc) <- (match l with
    | Some l => t2 <- pdiv (0.5 * (Di2 - Di1)) l ;;
    let angle_rad := (2 * (atan t2)) in
    let angle_deg := (angle_rad * (180 / PI)) in
    let l_calc := l in
    Ok (angle_rad, angle_deg, l_calc)
    | None => match angle with
      | Some angle => let angle_rad := (angle * (PI / 180)) in
      let angle_deg := angle in
      l_calc <- pdiv (Di2 - Di1) (2 * (tan (0.5 * angle_rad))) ;;
      Ok (angle_rad, angle_deg, l_calc)
      | None => Err ValueError
    end
  end) ;;
  method <- (Ok method) ;;
  if (String.eqb method "Rennels"%string) then fd <- (match fd with
    | Some fd => Ok fd
    | None => match Re with
      | Some Re => t4 <- pdiv roughness Di2 ;;
      Clamond Re t4 false
      | None => Err ValueError
    end
  end) ;;
  K <- (if ((Rltb 0 angle_deg) && (Rleb angle_deg 20))%bool then t6 <- ppow (tan (0.5 * angle_rad)) 1.75 ;;
  t7 <- pdiv ((0.125 * fd) * (1 - (beta2 * beta2))) (sin (0.5 * angle_rad)) ;;
  let K := (((8.3 * t6) * ((1 - beta2) ^ 2)) + t7) in
  Ok K
  else if (((Rltb 20 angle_deg) && (Rleb angle_deg 60))%bool && ((Rleb 0 beta) && (Rltb beta 0.5))%bool)%bool then t8 <- psqrt (sin (((2 * PI) * (angle_deg - 15)) / 180)) ;;
  t9 <- psqrt (0.025 * (angle_deg - 20)) ;;
  t10 <- pdiv ((0.125 * fd) * (1 - (beta2 * beta2))) (sin (0.5 * angle_rad)) ;;
  let K := (((((1.366 * t8) - 0.17) - ((3.28 * (0.0625 - (beta ^ 4))) * t9)) * ((1 - beta2) ^ 2)) + t10) in
  Ok K
  else if (((Rltb 20 angle_deg) && (Rleb angle_deg 60))%bool && (Rleb 0.5 beta))%bool then t11 <- psqrt (sin (((2 * PI) * (angle_deg - 15)) / 180)) ;;
  t12 <- pdiv ((0.125 * fd) * (1 - (beta2 * beta2))) (sin (0.5 * angle_rad)) ;;
  let K := ((((1.366 * t11) - 0.17) * ((1 - beta2) ^ 2)) + t12) in
  Ok K
  else if (((Rltb 60 angle_deg) && (Rleb angle_deg 180))%bool && ((Rleb 0 beta) && (Rltb beta 0.5))%bool)%bool then let beta4 := (beta2 * beta2) in
  t13 <- psqrt ((angle_deg - 60) / 120) ;;
  let K := (((1.205 - (3.28 * (0.0625 - beta4))) - (((12.8 * beta4) * beta2) * t13)) * ((1 - beta2) ^ 2)) in
  Ok K
  else if (((Rltb 60 angle_deg) && (Rleb angle_deg 180))%bool && (Rleb 0.5 beta))%bool then t14 <- psqrt ((angle_deg - 60) / 120) ;;
  let K := ((1.205 - (0.2 * t14)) * ((1 - (beta ^ 2)) ^ 2)) in
  Ok K
  else Err ValueError) ;;
  Ok K
  else if (String.eqb method "Crane"%string) then diffuser_conical_Crane Di1 Di2 (Some l_calc) (Some angle_deg)
  else if (String.eqb method "Miller"%string) then A_ratio <- pdiv 1 beta2 ;;
  A_ratio <- (if (Rltb 4 A_ratio) then let A_ratio := 4 in
  Ok A_ratio
  else if (Rltb A_ratio 1.1) then let A_ratio := 1.1 in
  Ok A_ratio
  else Ok A_ratio) ;;
  l_R1_ratio <- pdiv l_calc (0.5 * Di1) ;;
  l_R1_ratio <- (if (Rltb l_R1_ratio 0.1) then let l_R1_ratio := 0.1 in
  Ok l_R1_ratio
  else if (Rltb 20 l_R1_ratio) then let l_R1_ratio := 20 in
  Ok l_R1_ratio
  else Ok l_R1_ratio) ;;
  t18 <- plog l_R1_ratio ;;
  t19 <- plog A_ratio ;;
  t20 <- bisplev (map Q2R tck_diffuser_conical_Miller_tx) (map Q2R tck_diffuser_conical_Miller_ty) (map Q2R tck_diffuser_conical_Miller_c) 3 3 t18 t19 ;;
  let Kd := (Rmax t20 0) in
  Ok Kd
  else if (String.eqb method "Idelchik"%string) then let A_ratio := beta2 in
  angle_fric <- (if (Rltb 20 angle_deg) then let angle_fric := 20 in
  Ok angle_fric
  else if (Rltb angle_deg 2) then let angle_fric := 2 in
  Ok angle_fric
  else let angle_fric := angle_deg in
  Ok angle_fric) ;;
  let A_ratio_fric := A_ratio in
  A_ratio_fric <- (if (Rltb A_ratio_fric 0.05) then let A_ratio_fric := 0.05 in
  Ok A_ratio_fric
  else if (Rltb 0.6 A_ratio_fric) then let A_ratio_fric := 0.6 in
  Ok A_ratio_fric
  else Ok A_ratio_fric) ;;
  K_fr <- bisplev_linear (map Q2R contraction_conical_friction_Idelchik_tck_x) (map Q2R contraction_conical_friction_Idelchik_tck_y) (map (map Q2R) contraction_conical_friction_Idelchik_tck_z) angle_fric A_ratio_fric ;;
  K_exp <- bisplev (map Q2R diffuser_conical_Idelchik_tck_tx) (map Q2R diffuser_conical_Idelchik_tck_ty) (map Q2R diffuser_conical_Idelchik_tck_c) 3 1 (Rmin 0.6 A_ratio) (Rmax 3 angle_deg) ;;
  Ok (K_fr + K_exp)
  else if (String.eqb method "Swamee"%string) then r <- pdiv Di2 Di1 ;;
  t24 <- pdiv 1 (angle_rad ^ 3) ;;
  t25 <- ppow r (- 1.67) ;;
  t26 <- pdiv ((0.6 * t25) * (PI - angle_rad)) angle_rad ;;
  t27 <- ppow (1 + t26) ((0.533 * r) - 2.6) ;;
  t28 <- psqrt ((0.25 * t24) * t27) ;;
  pdiv 1 t28
  else if (String.eqb method "Hooper"%string) then match Re with
    | Some Re => if (Rltb Re 4000) then let K_sharp := (2 * (1 - (((beta * beta) * beta) * beta))) in
    if (Rltb (0.25 * PI) angle_rad) then Ok K_sharp
    else Ok ((K_sharp * 2.6) * (sin (0.5 * angle_rad)))
    else fd <- match fd with Some v => Ok v | None => t30 <- pdiv roughness Di1 ;;
    Clamond Re t30 false end ;;
    let x := (1 - (beta * beta)) in
    let K_sharp := (((1 + (0.8 * fd)) * x) * x) in
    if (Rltb (0.25 * PI) angle_rad) then Ok K_sharp
    else Ok ((K_sharp * 2.6) * (sin (0.5 * angle_rad)))
    | None => Err ValueError
  end
  else Err ValueError.

(** fluids/fittings.py:3018-3023 [diffuser_conical_staged]: the stage i of the loop; [DEs] and [ls] as lists. *)
Fixpoint staged_loop (DEs ls : list R) (n i : nat) (fd : option R) (method : string) (K : R) : result R :=
  match n with
  | O => Ok K
  | S n =>
      a <- idx DEs i ;; b <- idx DEs (S i) ;; l <- idx ls (S i) ;;
      k <- diffuser_conical a b (Some l) None fd None 0 method ;;
      staged_loop DEs ls n (S i) fd method (K + k)
  end.
Definition diffuser_conical_staged (Di1 Di2 : R) (DEs ls : list R) (fd : option R) (method : string) : result R :=
  d0 <- idx DEs 0 ;; l0 <- idx ls 0 ;;
  k0 <- diffuser_conical Di1 d0 (Some l0) None fd None 0 method ;;
  dn <- last_of DEs ;; ln_ <- last_of ls ;;
  k1 <- diffuser_conical dn Di2 (Some ln_) None fd None 0 method ;;
  staged_loop DEs ls (List.length DEs - 1) 0 fd method (0 + k0 + k1).

(** fluids/fittings.py:3071-3073 [diffuser_curved]. *)
Definition diffuser_curved (Di1 : R) (Di2 : R) (l : R) : result R :=
  beta <- pdiv Di1 Di2 ;;
  t2 <- pdiv (0.624 * l) Di1 ;;
  t3 <- pdiv l Di1 ;;
  t4 <- pdiv l Di1 ;;
  t5 <- pdiv l Di1 ;;
  let phi := ((((1.01 - t2) + (0.3 * (t3 ^ 2))) - (0.074 * (t4 ^ 3))) + (0.007 * (t5 ^ 4))) in
  Ok ((phi * (1.43 - (1.3 * (beta ^ 2)))) * ((1 - (beta ^ 2)) ^ 2)).

(** fluids/fittings.py:3123-3128 [diffuser_pipe_reducer]. *)
Definition diffuser_pipe_reducer (Di1 : R) (Di2 : R) (l : R) (fd1 : R) (fd2 : option R) : result R :=
  let fd2 := match fd2 with Some v => v | None => fd1 end in
  beta <- pdiv Di1 Di2 ;;
  t2 <- pdiv ((Di1 - Di2) / 1.2) l ;;
  let angle := ((- 2) * (atan t2)) in
  t3 <- pdiv ((fd1 * 0.2) * l) Di1 ;;
  t4 <- pdiv ((fd1 * (1 - beta)) / 8) (sin (angle / 2)) ;;
  t5 <- pdiv ((fd2 * 0.2) * l) Di2 ;;
  let K := ((t3 + t4) + (t5 * (beta ^ 4))) in
  Ok K.

(** fluids/fittings.py:3747-3761 [K_gate_valve_Crane]. *)
Definition K_gate_valve_Crane (D1 : R) (D2 : R) (angle : R) (fd : option R) : result R :=
  let angle := (radians angle) in
  beta <- pdiv D1 D2 ;;
  fd <- match fd with Some v => Ok v | None => ft_Crane D2 end ;;
  let K1 := (8 * fd) in
  if ((Reqb beta 1) || (Reqb angle 0))%bool then Ok K1
  else let beta2 := (beta * beta) in
  let one_m_beta2 := (1 - beta2) in
  if (Rleb angle 0.7853981633974483) then pdiv (K1 + ((sin (0.5 * angle)) * (one_m_beta2 * (0.8 + (2.6 * one_m_beta2))))) (beta2 * beta2)
  else t4 <- psqrt (sin (0.5 * angle)) ;;
  pdiv (K1 + (one_m_beta2 * ((0.5 * t4) + one_m_beta2))) (beta2 * beta2).

(** fluids/fittings.py:3810-3821 [K_globe_valve_Crane]. *)
Definition K_globe_valve_Crane (D1 : R) (D2 : R) (fd : option R) : result R :=
  beta <- pdiv D1 D2 ;;
  fd <- match fd with Some v => Ok v | None => ft_Crane D2 end ;;
  let K1 := (340 * fd) in
  if (Reqb beta 1) then Ok K1
  else let beta2 := (beta * beta) in
  let one_m_beta := (1 - beta) in
  let one_m_beta2 := (1 - beta2) in
  pdiv (K1 + (beta * (((0.5 * one_m_beta) * one_m_beta) + (one_m_beta2 * one_m_beta2)))) (beta2 * beta2).

(** fluids/fittings.py:3875-3888 [K_angle_valve_Crane]. *)
Definition K_angle_valve_Crane (D1 : R) (D2 : R) (fd : option R) (style : R) : result R :=
  beta <- pdiv D1 D2 ;;
  if (negb ((Reqb style 0) || (Reqb style 1) || (Reqb style 2))%bool) then Err ValueError
  else fd <- match fd with Some v => Ok v | None => ft_Crane D2 end ;;
  K1 <- (if ((Reqb style 0) || (Reqb style 2))%bool then let K1 := (55 * fd) in
  Ok K1
  else let K1 := (150 * fd) in
  Ok K1) ;;
  if (Reqb beta 1) then Ok K1
  else pdiv (K1 + (beta * ((0.5 * ((1 - beta) ^ 2)) + ((1 - (beta ^ 2)) ^ 2)))) (beta ^ 4).

(** fluids/fittings.py:3932-3938 [K_swing_check_valve_Crane]. *)
Definition K_swing_check_valve_Crane (D_ : option R) (fd : option R) (angled : bool) : result R :=
  fd <- (match fd with
    | Some fd => Ok fd
    | None => match D_ with
      | Some D_ => ft_Crane D_
      | None => Err ValueError
    end
  end) ;;
  if angled then Ok (100 * fd)
  else Ok (50 * fd).

(** fluids/fittings.py:3991-4005 [K_lift_check_valve_Crane]. *)
Definition K_lift_check_valve_Crane (D1 : R) (D2 : R) (fd : option R) (angled : bool) : result R :=
  beta <- pdiv D1 D2 ;;
  fd <- match fd with Some v => Ok v | None => ft_Crane D2 end ;;
  if angled then let K1 := (55 * fd) in
  if (Reqb beta 1) then Ok K1
  else pdiv (K1 + (beta * ((0.5 * (1 - (beta ^ 2))) + ((1 - (beta ^ 2)) ^ 2)))) (beta ^ 4)
  else let K1 := (600 * fd) in
  if (Reqb beta 1) then Ok K1
  else pdiv (K1 + (beta * ((0.5 * (1 - (beta ^ 2))) + ((1 - (beta ^ 2)) ^ 2)))) (beta ^ 4).

(** fluids/fittings.py:4066-4089 [K_tilting_disk_check_valve_Crane]. *)
Definition K_tilting_disk_check_valve_Crane (D_ : R) (angle : R) (fd : option R) : result R :=
  fd <- match fd with Some v => Ok v | None => ft_Crane D_ end ;;
  if (Rltb angle 10) then if (Rleb D_ 0.2286) then Ok (40 * fd)
  else if (Rleb D_ 0.381) then Ok (30 * fd)
  else Ok (20 * fd)
  else if (Rltb D_ 0.2286) then Ok (120 * fd)
  else if (Rltb D_ 0.381) then Ok (90 * fd)
  else Ok (60 * fd).

(** fluids/fittings.py:4149-4163 [K_globe_stop_check_valve_Crane]. *)
Definition K_globe_stop_check_valve_Crane (D1 : R) (D2 : R) (fd : option R) (style : R) : result R :=
  fd <- match fd with Some v => Ok v | None => ft_Crane D2 end ;;
  K <- (if (Reqb style 0) then let K := (400 * fd) in
  Ok K
  else if (Reqb style 1) then let K := (300 * fd) in
  Ok K
  else if (Reqb style 2) then let K := (55 * fd) in
  Ok K
  else Err ValueError) ;;
  beta <- pdiv D1 D2 ;;
  if (Reqb beta 1) then Ok K
  else pdiv (K + (beta * ((0.5 * (1 - (beta ^ 2))) + ((1 - (beta ^ 2)) ^ 2)))) (beta ^ 4).

(** fluids/fittings.py:4223-4238 [K_angle_stop_check_valve_Crane]. *)
Definition K_angle_stop_check_valve_Crane (D1 : R) (D2 : R) (fd : option R) (style : R) : result R :=
  fd <- match fd with Some v => Ok v | None => ft_Crane D2 end ;;
  K <- (if (Reqb style 0) then let K := (200 * fd) in
  Ok K
  else if (Reqb style 1) then let K := (350 * fd) in
  Ok K
  else if (Reqb style 2) then let K := (55 * fd) in
  Ok K
  else Err ValueError) ;;
  beta <- pdiv D1 D2 ;;
  if (Reqb beta 1) then Ok K
  else pdiv (K + (beta * ((0.5 * (1 - (beta ^ 2))) + ((1 - (beta ^ 2)) ^ 2)))) (beta ^ 4).

(** fluids/fittings.py:4296-4307 [K_ball_valve_Crane]. *)
Definition K_ball_valve_Crane (D1 : R) (D2 : R) (angle : R) (fd : option R) : result R :=
  fd <- match fd with Some v => Ok v | None => ft_Crane D2 end ;;
  beta <- pdiv D1 D2 ;;
  let K1 := (3 * fd) in
  let angle := (radians angle) in
  if (Reqb beta 1) then Ok K1
  else if (Rleb angle (PI / 4)) then pdiv (K1 + ((sin (angle / 2)) * ((0.8 * (1 - (beta ^ 2))) + (2.6 * ((1 - (beta ^ 2)) ^ 2))))) (beta ^ 4)
  else t4 <- psqrt (sin (angle / 2)) ;;
  pdiv ((K1 + ((0.5 * t4) * (1 - (beta ^ 2)))) + ((1 - (beta ^ 2)) ^ 2)) (beta ^ 4).

(** fluids/fittings.py:4355-4367 [K_diaphragm_valve_Crane]. *)
Definition K_diaphragm_valve_Crane (D_ : option R) (fd : option R) (style : R) : result R :=
  match D_ with
    | Some D_ => fd <- (match fd with
      | Some fd => Ok fd
      | None => ft_Crane D_
    end) ;;
    K <- (if (Reqb style 0) then let K := (149 * fd) in
    Ok K
    else if (Reqb style 1) then let K := (39 * fd) in
    Ok K
    else Err ValueError) ;;
    Ok K
    | None => match fd with
      | Some fd => fd <- (Ok fd) ;;
      K <- (if (Reqb style 0) then let K := (149 * fd) in
      Ok K
      else if (Reqb style 1) then let K := (39 * fd) in
      Ok K
      else Err ValueError) ;;
      Ok K
      | None => Err ValueError
    end
  end.

(** fluids/fittings.py:4416-4428 [K_foot_valve_Crane]. *)
Definition K_foot_valve_Crane (D_ : option R) (fd : option R) (style : R) : result R :=
  match D_ with
    | Some D_ => fd <- (match fd with
      | Some fd => Ok fd
      | None => ft_Crane D_
    end) ;;
    K <- (if (Reqb style 0) then let K := (420 * fd) in
    Ok K
    else if (Reqb style 1) then let K := (75 * fd) in
    Ok K
    else Err ValueError) ;;
    Ok K
    | None => match fd with
      | Some fd => fd <- (Ok fd) ;;
      K <- (if (Reqb style 0) then let K := (420 * fd) in
      Ok K
      else if (Reqb style 1) then let K := (75 * fd) in
      Ok K
      else Err ValueError) ;;
      Ok K
      | None => Err ValueError
    end
  end.

(** fluids/fittings.py:4490-4508 [K_butterfly_valve_Crane]. *)
Definition K_butterfly_valve_Crane (D_ : R) (fd : option R) (style : R) : result R :=
  fd <- match fd with Some v => Ok v | None => ft_Crane D_ end ;;
  '(c1, c2, c3) <- (if (Reqb style 0) then let c1 := 45 in
  let c2 := 35 in
  let c3 := 25 in
  Ok (c1, c2, c3)
  else if (Reqb style 1) then let c1 := 74 in
  let c2 := 52 in
  let c3 := 43 in
  Ok (c1, c2, c3)
  else if (Reqb style 2) then let c1 := 218 in
  let c2 := 96 in
  let c3 := 55 in
  Ok (c1, c2, c3)
  else Err ValueError) ;;
  if (Rleb D_ 0.2286) then Ok (c1 * fd)
  else if (Rleb D_ 0.381) then Ok (c2 * fd)
  else Ok (c3 * fd).

(** fluids/fittings.py:4571-4586 [K_plug_valve_Crane]. *)
Definition K_plug_valve_Crane (D1 : R) (D2 : R) (angle : R) (fd : option R) (style : R) : result R :=
  fd <- match fd with Some v => Ok v | None => ft_Crane D2 end ;;
  beta <- pdiv D1 D2 ;;
  K <- (if (Reqb style 0) then let K := (18 * fd) in
  Ok K
  else if (Reqb style 1) then let K := (30 * fd) in
  Ok K
  else if (Reqb style 2) then let K := (90 * fd) in
  Ok K
  else Err ValueError) ;;
  let angle := (radians angle) in
  if (Reqb beta 1) then Ok K
  else t3 <- psqrt (sin (angle / 2)) ;;
  pdiv ((K + ((0.5 * t3) * (1 - (beta ^ 2)))) + ((1 - (beta ^ 2)) ^ 2)) (beta ^ 4).

(** fluids/fittings.py:4674-4705 [v_lift_valve_Crane]. *)
Definition v_lift_valve_Crane (rho : R) (D1 : option R) (D2 : option R) (style : string) : result R :=
  specific_volume <- pdiv 1 rho ;;
  match D1 with
    | Some D1 => match D2 with
      | Some D2 => beta <- pdiv D1 D2 ;;
      let beta2 := (beta * beta) in
      if (String.eqb style "swing check angled"%string) then t3 <- psqrt specific_volume ;;
      Ok (45 * t3)
      else if (String.eqb style "swing check straight"%string) then t4 <- psqrt specific_volume ;;
      Ok (75 * t4)
      else if (String.eqb style "swing check UL"%string) then t5 <- psqrt specific_volume ;;
      Ok (120 * t5)
      else if (String.eqb style "lift check straight"%string) then t6 <- psqrt specific_volume ;;
      Ok ((50 * beta2) * t6)
      else if (String.eqb style "lift check angled"%string) then t7 <- psqrt specific_volume ;;
      Ok ((170 * beta2) * t7)
      else if (String.eqb style "tilting check 5°"%string) then t8 <- psqrt specific_volume ;;
      Ok (100 * t8)
      else if (String.eqb style "tilting check 15°"%string) then t9 <- psqrt specific_volume ;;
      Ok (40 * t9)
      else if (String.eqb style "stop check globe 1"%string) then t10 <- psqrt specific_volume ;;
      Ok ((70 * beta2) * t10)
      else if (String.eqb style "stop check angle 1"%string) then t11 <- psqrt specific_volume ;;
      Ok ((95 * beta2) * t11)
      else if ((String.eqb style "stop check globe 2"%string) || (String.eqb style "stop check angle 2"%string))%bool then t12 <- psqrt specific_volume ;;
      Ok ((75 * beta2) * t12)
      else if ((String.eqb style "stop check globe 3"%string) || (String.eqb style "stop check angle 3"%string))%bool then t13 <- psqrt specific_volume ;;
      Ok ((170 * beta2) * t13)
      else if (String.eqb style "foot valve poppet disc"%string) then t14 <- psqrt specific_volume ;;
      Ok (20 * t14)
      else if (String.eqb style "foot valve hinged disc"%string) then t15 <- psqrt specific_volume ;;
      Ok (45 * t15)
      else Err ValueError
      | None => if (String.eqb style "swing check angled"%string) then t16 <- psqrt specific_volume ;;
      Ok (45 * t16)
      else if (String.eqb style "swing check straight"%string) then t17 <- psqrt specific_volume ;;
      Ok (75 * t17)
      else if (String.eqb style "swing check UL"%string) then t18 <- psqrt specific_volume ;;
      Ok (120 * t18)
      else if (String.eqb style "lift check straight"%string) then Err UnboundLocalError
      else if (String.eqb style "lift check angled"%string) then Err UnboundLocalError
      else if (String.eqb style "tilting check 5°"%string) then t23 <- psqrt specific_volume ;;
      Ok (100 * t23)
      else if (String.eqb style "tilting check 15°"%string) then t24 <- psqrt specific_volume ;;
      Ok (40 * t24)
      else if (String.eqb style "stop check globe 1"%string) then Err UnboundLocalError
      else if (String.eqb style "stop check angle 1"%string) then Err UnboundLocalError
      else if ((String.eqb style "stop check globe 2"%string) || (String.eqb style "stop check angle 2"%string))%bool then Err UnboundLocalError
      else if ((String.eqb style "stop check globe 3"%string) || (String.eqb style "stop check angle 3"%string))%bool then Err UnboundLocalError
      else if (String.eqb style "foot valve poppet disc"%string) then t33 <- psqrt specific_volume ;;
      Ok (20 * t33)
      else if (String.eqb style "foot valve hinged disc"%string) then t34 <- psqrt specific_volume ;;
      Ok (45 * t34)
      else Err ValueError
    end
    | None => if (String.eqb style "swing check angled"%string) then t35 <- psqrt specific_volume ;;
    Ok (45 * t35)
    else if (String.eqb style "swing check straight"%string) then t36 <- psqrt specific_volume ;;
    Ok (75 * t36)
    else if (String.eqb style "swing check UL"%string) then t37 <- psqrt specific_volume ;;
    Ok (120 * t37)
    else if (String.eqb style "lift check straight"%string) then Err UnboundLocalError
    else if (String.eqb style "lift check angled"%string) then Err UnboundLocalError
    else if (String.eqb style "tilting check 5°"%string) then t42 <- psqrt specific_volume ;;
    Ok (100 * t42)
    else if (String.eqb style "tilting check 15°"%string) then t43 <- psqrt specific_volume ;;
    Ok (40 * t43)
    else if (String.eqb style "stop check globe 1"%string) then Err UnboundLocalError
    else if (String.eqb style "stop check angle 1"%string) then Err UnboundLocalError
    else if ((String.eqb style "stop check globe 2"%string) || (String.eqb style "stop check angle 2"%string))%bool then Err UnboundLocalError
    else if ((String.eqb style "stop check globe 3"%string) || (String.eqb style "stop check angle 3"%string))%bool then Err UnboundLocalError
    else if (String.eqb style "foot valve poppet disc"%string) then t52 <- psqrt specific_volume ;;
    Ok (20 * t52)
    else if (String.eqb style "foot valve hinged disc"%string) then t53 <- psqrt specific_volume ;;
    Ok (45 * t53)
    else Err ValueError
  end.

(** fluids/fittings.py:4798-4855 [Crane_loss_coefficient]. *)
Definition Crane_loss_coefficient (D1 : R) (D2 : R) (angle : R) (fitting : string) (fd : option R) : result R :=
  if (String.eqb fitting "CRANE_GATE_VALVE"%string) then K_gate_valve_Crane D1 D2 angle fd
  else if (String.eqb fitting "CRANE_GLOBE_VALVE"%string) then K_globe_valve_Crane D1 D2 fd
  else if (String.eqb fitting "CRANE_ANGLE_VALVE_0"%string) then K_angle_valve_Crane D1 D2 fd 0
  else if (String.eqb fitting "CRANE_ANGLE_VALVE_1"%string) then K_angle_valve_Crane D1 D2 fd 1
  else if (String.eqb fitting "CRANE_ANGLE_VALVE_2"%string) then K_angle_valve_Crane D1 D2 fd 2
  else if (String.eqb fitting "CRANE_SWING_CHECK_VALVE"%string) then K_swing_check_valve_Crane (Some D2) fd false
  else if (String.eqb fitting "CRANE_SWING_CHECK_VALVE_ANGLED"%string) then K_swing_check_valve_Crane (Some D2) fd true
  else if (String.eqb fitting "CRANE_LIFT_CHECK_VALVE"%string) then K_lift_check_valve_Crane D1 D2 fd false
  else if (String.eqb fitting "CRANE_LIFT_CHECK_VALVE_ANGLED"%string) then K_lift_check_valve_Crane D1 D2 fd true
  else if (String.eqb fitting "CRANE_TILTING_CHECK_VALVE_5DEG"%string) then K_tilting_disk_check_valve_Crane D2 5 fd
  else if (String.eqb fitting "CRANE_TILTING_CHECK_VALVE_15DEG"%string) then K_tilting_disk_check_valve_Crane D2 15 fd
  else if (String.eqb fitting "CRANE_GLOBE_STOP_CHECK_VALVE_0"%string) then K_globe_stop_check_valve_Crane D1 D2 fd 0
  else if (String.eqb fitting "CRANE_GLOBE_STOP_CHECK_VALVE_1"%string) then K_globe_stop_check_valve_Crane D1 D2 fd 1
  else if (String.eqb fitting "CRANE_GLOBE_STOP_CHECK_VALVE_2"%string) then K_globe_stop_check_valve_Crane D1 D2 fd 2
  else if (String.eqb fitting "CRANE_ANGLE_STOP_CHECK_VALVE_0"%string) then K_angle_stop_check_valve_Crane D1 D2 fd 0
  else if (String.eqb fitting "CRANE_ANGLE_STOP_CHECK_VALVE_1"%string) then K_angle_stop_check_valve_Crane D1 D2 fd 1
  else if (String.eqb fitting "CRANE_ANGLE_STOP_CHECK_VALVE_2"%string) then K_angle_stop_check_valve_Crane D1 D2 fd 2
  else if (String.eqb fitting "CRANE_BALL_VALVE"%string) then K_ball_valve_Crane D1 D2 angle fd
  else if (String.eqb fitting "CRANE_DIAPHRAGM_VALVE_WEIR"%string) then K_diaphragm_valve_Crane (Some D2) fd 0
  else if (String.eqb fitting "CRANE_DIAPHRAGM_VALVE_STRAIGHT_THROUGH_WEIR"%string) then K_diaphragm_valve_Crane (Some D2) fd 1
  else if (String.eqb fitting "CRANE_FOOT_VALVE_POPPET_DISK"%string) then K_foot_valve_Crane (Some D2) fd 0
  else if (String.eqb fitting "CRANE_FOOT_VALVE_HINGED_DISK"%string) then K_foot_valve_Crane (Some D2) fd 1
  else if (String.eqb fitting "CRANE_BUTTERFLY_VALVE_CENTRIC"%string) then K_butterfly_valve_Crane D2 fd 0
  else if (String.eqb fitting "CRANE_BUTTERFLY_VALVE_DOUBLE_OFFSET"%string) then K_butterfly_valve_Crane D2 fd 1
  else if (String.eqb fitting "CRANE_BUTTERFLY_VALVE_TRIPLE_OFFSET"%string) then K_butterfly_valve_Crane D2 fd 2
  else if (String.eqb fitting "CRANE_PLUG_VALVE_STRAIGHT_THROUGH"%string) then K_plug_valve_Crane D1 D2 angle fd 0
  else if (String.eqb fitting "CRANE_PLUG_VALVE_3_WAY_STRAIGHT_THROUGH"%string) then K_plug_valve_Crane D1 D2 angle fd 1
  else if (String.eqb fitting "CRANE_PLUG_VALVE_3_WAY_90_DEG"%string) then K_plug_valve_Crane D1 D2 angle fd 2
  else Err ValueError.

(** fluids/fittings.py:4859-4859 *)
Definition branch_converging_Crane_angles : list Q := ([30; 45; 60; 90])%Q.

(** fluids/fittings.py:4858-4858 *)
Definition branch_converging_Crane_Fs : list Q := ([1.74; 1.41; 1; 0])%Q.

(** fluids/fittings.py:4946-4959 [K_branch_converging_Crane]. *)
Definition K_branch_converging_Crane (D_run : R) (D_branch : R) (Q_run : R) (Q_branch : R) (angle : R) : result R :=
  beta <- pdiv D_branch D_run ;;
  let beta2 := (beta * beta) in
  let Q_comb := (Q_run + Q_branch) in
  Q_ratio <- pdiv Q_branch Q_comb ;;
  C_ <- (if (Rleb beta2 0.35) then let C_ := 1 in
  Ok C_
  else if (Rleb Q_ratio 0.4) then let C_ := (0.9 * (1 - Q_ratio)) in
  Ok C_
  else let C_ := 0.55 in
  Ok C_) ;;
  let D_ := 1 in
  let E := 2 in
  F <- interp angle (map Q2R branch_converging_Crane_angles) (map Q2R branch_converging_Crane_Fs) None None false ;;
  t4 <- pdiv Q_ratio beta2 ;;
  t5 <- pdiv F beta2 ;;
  let K := (C_ * (((1 + (D_ * (t4 ^ 2))) - (E * ((1 - Q_ratio) ^ 2))) - (t5 * (Q_ratio ^ 2)))) in
  Ok K.

(** fluids/fittings.py:4963-4963 *)
Definition run_converging_Crane_angles : list Q := ([30; 45; 60])%Q.

(** fluids/fittings.py:4962-4962 *)
Definition run_converging_Crane_Fs : list Q := ([1.74; 1.41; 1])%Q.

(** fluids/fittings.py:5042-5054 [K_run_converging_Crane]. *)
Definition K_run_converging_Crane (D_run : R) (D_branch : R) (Q_run : R) (Q_branch : R) (angle : R) : result R :=
  beta <- pdiv D_branch D_run ;;
  let beta2 := (beta * beta) in
  let Q_comb := (Q_run + Q_branch) in
  Q_ratio <- pdiv Q_branch Q_comb ;;
  if (Rltb angle 75) then let C_ := 1 in
  let D_ := 0 in
  let E := 1 in
  F <- interp angle (map Q2R run_converging_Crane_angles) (map Q2R run_converging_Crane_Fs) None None false ;;
  t4 <- pdiv Q_ratio beta2 ;;
  t5 <- pdiv F beta2 ;;
  let K := (C_ * (((1 + (D_ * (t4 ^ 2))) - (E * ((1 - Q_ratio) ^ 2))) - (t5 * (Q_ratio ^ 2)))) in
  Ok K
  else Ok ((1.55 * Q_ratio) - (Q_ratio * Q_ratio)).

(** fluids/fittings.py:5143-5172 [K_branch_diverging_Crane]. *)
Definition K_branch_diverging_Crane (D_run : R) (D_branch : R) (Q_run : R) (Q_branch : R) (angle : R) : result R :=
  beta <- pdiv D_branch D_run ;;
  let beta2 := (beta * beta) in
  let Q_comb := (Q_run + Q_branch) in
  Q_ratio <- pdiv Q_branch Q_comb ;;
  '(H, J) <- (if ((Rltb angle 60) || (Rleb beta (2 / 3)))%bool then let H := 1 in
  let J := 2 in
  Ok (H, J)
  else let H := 0.3 in
  let J := 0 in
  Ok (H, J)) ;;
  G <- (if (Rltb angle 75) then if (Rleb beta2 0.35) then if (Rleb Q_ratio 0.4) then let G := (1.1 - (0.7 * Q_ratio)) in
  Ok G
  else let G := 0.85 in
  Ok G
  else if (Rleb Q_ratio 0.6) then let G := (1 - (0.6 * Q_ratio)) in
  Ok G
  else let G := 0.6 in
  Ok G
  else if (Rleb beta2 (2 / 3)) then let G := 1 in
  Ok G
  else let G := (1 + ((0.3 * Q_ratio) * Q_ratio)) in
  Ok G) ;;
  let angle_rad := (radians angle) in
  t3 <- pdiv Q_ratio beta2 ;;
  t4 <- pdiv Q_ratio beta2 ;;
  let K_branch := (G * ((1 + (H * (t3 ^ 2))) - ((J * t4) * (cos angle_rad)))) in
  Ok K_branch.

(** fluids/fittings.py:5238-5248 [K_run_diverging_Crane]. *)
Definition K_run_diverging_Crane (D_run : R) (D_branch : R) (Q_run : R) (Q_branch : R) (angle : R) : result R :=
  beta <- pdiv D_branch D_run ;;
  let beta2 := (beta * beta) in
  let Q_comb := (Q_run + Q_branch) in
  Q_ratio <- pdiv Q_branch Q_comb ;;
  M <- (if (Rleb beta2 0.4) then let M := 0.4 in
  Ok M
  else if (Rleb Q_ratio 0.5) then let M := (2 * ((2 * Q_ratio) - 1)) in
  Ok M
  else let M := (0.3 * ((2 * Q_ratio) - 1)) in
  Ok M) ;;
  Ok ((M * Q_ratio) * Q_ratio).
