(** Geometry classes of fluids/geometry.py: helical coils, plate exchangers, fin exchangers, cooling towers, air coolers.
    A constructor is a function from its arguments to the record of the attributes it sets. *)
From Coq Require Import Reals String List Bool Arith ZArith.
From Coquelicot Require Import Coquelicot.
From Flocq Require Import Core.
From Verif Require Import Base Model_Real Model_Geometry.
Open Scope R_scope.

(** the attributes set by [HelicalCoil.__init__] (without the inner diameter) *)
Record coil := mk_coil { c_Dt : R; c_Do : R; c_Do_total : R; c_N : R; c_pitch : R; c_H : R; c_H_total : R; c_tube_circumference : R; c_tube_length : R;
  c_surface_area : R; c_helix_angle : R; c_curvature : R; c_total_inlet_area : R; c_total_volume : R }.
(** fluids/geometry.py:4052-4069: turns, pitch and height from two of the three *)
Definition coil_winding (Dt : R) (pitch H N : option R) : result (R * R * R) :=
  match N, pitch, H with
  | Some N, Some pitch, _ => Ok (N, pitch, N * pitch)
  | Some N, None, Some H => p <- pdiv H N ;; if Rltb p Dt then Err ValueError else Ok (N, p, H)
  | None, Some pitch, Some H => n <- pdiv H pitch ;; if Rltb pitch Dt then Err ValueError else Ok (n, pitch, H)
  | _, _, _ => Err ValueError
  end.
(** fluids/geometry.py:4033-4087 [HelicalCoil.__init__] *)
Definition HelicalCoil (Dt : R) (Do pitch H N H_total Do_total : option R) : result coil :=
  let H := match H_total with Some H_total => Some (H_total - Dt) | None => H end in
  let Do := match Do_total with Some Do_total => Some (Do_total - Dt) | None => Do end in
  Do <- (match Do with Some Do => Ok Do | None => Err ValueError end) ;;
  '(N, pitch, H) <- coil_winding Dt pitch H N ;;
  let H_total := Dt + H in
  if Rltb Do Dt then Err ValueError else
  let circ := PI * Do in
  L <- psqrt ((circ * N) ^ 2 + H ^ 2) ;;
  t <- pdiv pitch (PI * Do) ;;
  let angle := atan t in
  c <- pdiv Dt Do ;;
  curv <- pdiv c (1 + 4 * PI ^ 2 * (tan angle) ^ 2) ;;
  let area := PI / 4 * Dt ^ 2 in
  Ok (mk_coil Dt Do (Do + Dt) N pitch H H_total circ L (L * PI * Dt) angle curv area (area * L)).
(** fluids/geometry.py:4089-4095: inner_surface_area, inlet_area, inner_volume, annulus_area, annulus_volume *)
Definition coil_inside (c : coil) (Di : R) : R * R * R * R * R :=
  let inlet := PI / 4 * Di ^ 2 in
  let inner := inlet * c_tube_length c in
  (c_tube_length c * PI * Di, inlet, inner, c_total_inlet_area c - inlet, c_total_volume c - inner).

(** fluids/numerics/special.py [ellipe] (scipy or the arithmetic-geometric mean): idealised as the complete elliptic integral it computes *)
Definition ellipe (m : R) : R := RInt (fun t => sqrt (1 - m * (sin t) ^ 2)) 0 (PI / 2).
(** fluids/geometry.py:4154-4155 [plate_enlargement_factor] *)
Definition plate_enlargement_factor (amplitude wavelength : R) : result R :=
  let b := 2 * amplitude in
  t <- pdiv (- b * b * PI * PI) (wavelength * wavelength) ;;
  Ok (2 * ellipe t / PI).
(** the attributes set by [PlateExchanger.__init__]; an attribute that is not set is None *)
Record plates := mk_plates { p_b : R; p_beta : R; p_angles : R * R; p_inclination : R; p_gamma : R; p_factor : R; p_D_eq : R; p_D_hydraulic : R;
  p_length_port : option R; p_A_plate_surface : option R; p_A_heat_transfer : option R; p_A_channel_flow : option R; p_channels : option R; p_channels_per_fluid : option R }.
(** fluids/geometry.py:4273-4316 [PlateExchanger.__init__] *)
Definition PlateExchanger (amplitude wavelength chevron_angle : R) (chevron_angles : option (R * R)) (width length d_port n_plates : option R) : result plates :=
  let b := 2 * amplitude in
  let '(beta, angles) := match chevron_angles with Some (a1, a2) => (0.5 * (a1 + a2), (a1, a2)) | None => (chevron_angle, (chevron_angle, chevron_angle)) end in
  gamma <- pdiv (4 * amplitude) wavelength ;;
  phi <- plate_enlargement_factor amplitude wavelength ;;
  Dh <- pdiv (4 * amplitude) phi ;;
  let surface := match width, length with Some w, Some l => Some (l * w * phi) | _, _ => None end in
  Ok (mk_plates b beta angles (90 - beta) gamma phi (4 * amplitude) Dh
    (match d_port, length with Some d, Some l => Some (l + d) | _, _ => None end)
    surface
    (match surface, n_plates with Some s, Some n => Some ((n - 2) * s) | _, _ => None end)
    (match width with Some w => Some (w * b) | None => None end)
    (match n_plates with Some n => Some (n - 1) | None => None end)
    (match n_plates with Some n => Some (0.5 * (n - 1)) | None => None end)).

(** the attributes set by [RectangularFinExchanger.__init__] *)
Record fins := mk_fins { f_channel_height : R; f_channel_width : R; f_fin_count : R; f_blockage_ratio : R; f_A_channel : R; f_P_channel : R; f_Dh : R }.
(** fluids/geometry.py:4428-4436 [RectangularFinExchanger.__init__] *)
Definition RectangularFinExchanger (h t s : R) : result fins :=
  count <- pdiv 1 s ;;
  blockage <- pdiv (s * h - s * t - (h - t) * t) (s * h) ;;
  let A := (s - t) * (h - t) in
  let P := 2 * (s - t) + 2 * (h - t) in
  Dh <- pdiv (4 * A) P ;;
  Ok (mk_fins (h - t) (s - t) count blockage A P Dh).
(** the attributes set by [RectangularOffsetStripFinExchanger.__init__]: blockage_ratio, blockage_ratio_Kim, alpha, delta, gamma, A_channel, A, Dh,
    P_channel, Dh_Kays_London, Dh_Joshi_Webb *)
Record strips := mk_strips { s_blockage : R; s_blockage_Kim : R; s_alpha : R; s_delta : R; s_gamma : R; s_A_channel : R; s_A : R; s_Dh : R; s_P_channel : R; s_Dh_Kays_London : R; s_Dh_Joshi_Webb : R }.
(** fluids/geometry.py:4466-4485 [RectangularOffsetStripFinExchanger.__init__] *)
Definition RectangularOffsetStripFinExchanger (l h t s : R) : result strips :=
  ts <- pdiv (2 * t) s ;;
  th <- pdiv t h ;;
  ts1 <- pdiv t s ;;
  k <- pdiv (t ^ 2) (h * s) ;;
  alpha <- pdiv s h ;;
  delta <- pdiv t l ;;
  let Ac := (h - t) * (s - t) in
  let A := 2 * (l * (h - t) + l * (s - t) + t * (h - t)) + t * (s - 2 * t) in
  Dh <- pdiv (4 * l * Ac) A ;;
  let P := 2 * (s - t) + 2 * (h - t) in
  KL <- pdiv (4 * Ac) (2 * (h - t) + 2 * (s - t)) ;;
  JW <- pdiv (2 * l * (h - t) * (s - 2 * t)) (l * (h - t) + l * (s - t) + t * (h - t)) ;;
  Ok (mk_strips (ts * (1 - th) + th * (1 - ts)) (th + ts1 - k) alpha delta ts1 Ac A Dh P KL JW).
(** the attributes set by [set_overall_geometry] *)
Record stack := mk_stack { k_layer_fin_count : R; k_A_HX_layer : R; k_A_HX : R; k_layer_thickness : R; k_height : R; k_volume : R; k_A_specific_HX : R }.
(** fluids/geometry.py:4440-4456 [set_overall_geometry] with length, width, layers and plate thickness all given and not 0; Python's round(x, 0)
    rounds half to even *)
Definition overall_geometry (fin_height fin_count P_channel length width plate_thickness : R) (layers : nat) : result stack :=
  let n := IZR (ZnearestE (fin_count * width)) in
  let layer := P_channel * length * n in
  let total := INR layers * layer in
  let thick := plate_thickness + fin_height in
  let height := thick * INR layers + plate_thickness in
  let volume := length * width * height in
  spec <- pdiv total volume ;;
  Ok (mk_stack n layer total thick height volume spec).

(** the attributes set by [HyperbolicCoolingTower.__init__] *)
Record tower := mk_tower { t_H_throat : R; t_D_throat : R; t_D_inlet : R; t_D_base : R; t_b_lower : R; t_b_upper : R }.
(** fluids/geometry.py:4593-4627 [HyperbolicCoolingTower.__init__] (the supports are only stored) *)
Definition HyperbolicCoolingTower (H_inlet D_outlet H_outlet : R) (D_inlet D_base D_throat H_throat : option R) : result tower :=
  let Ht := match H_throat with Some H => H | None => 2 / 3 * H_outlet end in
  Dt <- (match D_throat with Some D => Ok D | None => match D_inlet with Some D => Ok (0.63 * D) | None => Err ValueError end end) ;;
  '(Di, Db, b) <- (match D_base, D_inlet with
    | Some Db, _ => r <- psqrt (Db ^ 2 - Dt ^ 2) ;; b <- pdiv (Dt * Ht) r ;; q <- psqrt ((Ht - H_inlet) ^ 2 + b ^ 2) ;; Di <- pdiv (2 * Dt * q) (2 * b) ;; Ok (Di, Db, b)
    | None, Some Di => r <- psqrt (Di ^ 2 - Dt ^ 2) ;; b <- pdiv (Dt * (Ht - H_inlet)) r ;; q <- psqrt (Ht ^ 2 + b ^ 2) ;; Db <- pdiv (2 * Dt * q) (2 * b) ;; Ok (Di, Db, b)
    | None, None => Err ValueError
    end) ;;
  r <- psqrt (D_outlet ^ 2 - Dt ^ 2) ;;
  bu <- pdiv (Dt * (H_outlet - Ht)) r ;;
  Ok (mk_tower Ht Dt Di Db b bu).
(** fluids/geometry.py:4644-4675 [HyperbolicCoolingTower.diameter] *)
Definition tower_diameter (t : tower) (H : R) : result R :=
  let '(H, b) := if Rleb H (t_H_throat t) then (t_H_throat t - H, t_b_lower t) else (H - t_H_throat t, t_b_upper t) in
  q <- psqrt (H * H + b * b) ;;
  r <- pdiv (t_D_throat t * q) (2 * b) ;;
  Ok (r * 2).

(** attributes of [AirCooledExchanger.__init__]: layout, then numbers of tubes, then areas per tube / row / bundle / bay / in all *)
Record levels := mk_levels { per_tube : R; per_row : R; per_bundle : R; per_bay : R; overall : R }.
Record cooler := mk_cooler { a_angle : R; a_pitch : R; a_pitch_ratio : R; a_pitch_parallel : R; a_pitch_normal : R; a_pitch_diagonal : R;
  a_fin_height : R; a_fin_diameter : R; a_fin_interval : R; a_fin_density : R; a_bare_length : option R;
  a_tubes_per_bundle : R; a_tubes_per_bay : R; a_tubes : R;
  a_bare : levels; a_showing : levels; a_A_per_fin : R; a_fin : levels; a_total : levels; a_increase : R;
  a_diagonal : R; a_normal : R; a_min_bundle : R; a_min_bay : R; a_min : R; a_face_bundle : R; a_face_bay : R; a_face : R; a_contraction : R; a_channels : R }.
(** the multiples of an area per tube, fluids/geometry.py:5019-5037 *)
Definition multiples (A tubes_per_row tubes_per_bundle tubes_per_bay tubes : R) : levels := mk_levels A (A * tubes_per_row) (A * tubes_per_bundle) (A * tubes_per_bay) (A * tubes).
(** fluids/geometry.py:5039-5043 *)
Definition levels_sum (x y : levels) : levels :=
  mk_levels (per_tube x + per_tube y) (per_row x + per_row y) (per_bundle x + per_bundle y) (per_bay x + per_bay y) (overall x + overall y).
(** fluids/geometry.py:4931-5061, 5104-5107 [AirCooledExchanger.__init__]; the tube side volumes (5063-5100) and the names of the layouts are left out *)
Definition AirCooledExchanger (tube_rows tube_passes tubes_per_row : nat) (tube_length tube_diameter fin_thickness : R) (angle pitch pitch_parallel pitch_normal pitch_ratio : option R)
    (fin_diameter fin_height fin_density fin_interval : option R) (parallel_bays bundles_per_bay : nat) (corbels : bool) : result cooler :=
  pitch <- (match pitch_ratio, pitch with
    | Some ratio, Some _ => Ok (Some (tube_diameter * ratio))
    | Some _, None => Err ValueError
    | None, p => Ok p end) ;;
  '(angle, pitch, pitch_parallel, pitch_normal) <- pitch_angle_solver angle pitch pitch_parallel pitch_normal ;;
  ratio <- pdiv pitch tube_diameter ;;
  diagonal <- psqrt (pitch_parallel ^ 2 + (0.5 * pitch_normal) ^ 2) ;;
  '(fin_height, fin_diameter) <- (match fin_diameter, fin_height with
    | Some d, _ => Ok (0.5 * (d - tube_diameter), d)
    | None, Some h => Ok (h, tube_diameter + 2 * h)
    | None, None => Err ValueError end) ;;
  '(fin_interval, fin_density) <- (match fin_density, fin_interval with
    | Some d, _ => i <- pdiv 1 d ;; Ok (i, d)
    | None, Some i => d <- pdiv 1 i ;; Ok (i, d)
    | None, None => Err ValueError end) ;;
  let bare_length := if Reqb fin_interval 0 then None else Some (fin_interval - fin_thickness) in
  let row := INR tubes_per_row in
  let bundle := row * INR tube_rows in
  let bay := bundle * INR bundles_per_bay in
  let tubes := bay * INR parallel_bays in
  let bare := multiples (PI * tube_diameter * tube_length) row bundle bay tubes in
  u <- pdiv fin_thickness fin_interval ;;
  let showing := multiples (PI * tube_diameter * tube_length * (1 - u)) row bundle bay tubes in
  let A_per_fin := 2 * PI / 4 * (fin_diameter ^ 2 - tube_diameter ^ 2) + PI * fin_diameter * fin_thickness in
  let fin := multiples (fin_density * tube_length * A_per_fin) row bundle bay tubes in
  let total := levels_sum showing fin in
  increase <- pdiv (overall total) (overall bare) ;;
  let A_diag := 2 * row * tube_length * (diagonal - tube_diameter - 2 * fin_density * fin_height * fin_thickness) + 0 in
  let A_norm := row * tube_length * (pitch_normal - tube_diameter - 2 * fin_density * fin_height * fin_thickness) + 0 in
  let Amin := Rmin A_diag A_norm in
  let face := pitch_normal * tube_length * (row + (if corbels then 0.5 else 1)) in
  let A_min_all := Amin * INR bundles_per_bay * INR parallel_bays in
  let A_face_all := face * INR bundles_per_bay * INR parallel_bays in
  contraction <- pdiv A_min_all A_face_all ;;
  channels <- (if Nat.eqb tube_passes 0 then Err ZeroDivisionError else if Nat.eqb (Nat.modulo tube_rows tube_passes) 0 then pdiv bundle (INR tube_passes) else Ok row) ;;
  Ok (mk_cooler angle pitch ratio pitch_parallel pitch_normal diagonal fin_height fin_diameter fin_interval fin_density bare_length bundle bay tubes
        bare showing A_per_fin fin total increase A_diag A_norm Amin (Amin * INR bundles_per_bay) A_min_all face (face * INR bundles_per_bay) A_face_all contraction channels).
