(** Weirs and open channels.
    Generated by tools/pytrans.py from /repo/fluids, function by function: floats are exact reals,
    a division, root, logarithm or power that Python refuses is an [Err]; float rounding and overflow
    are not represented.  Module constants are inlined with their exact rational value. *)
From Coq Require Import Reals String List Bool.
From Verif Require Import Base Model_Real.
From Coq Require Import QArith Qreals.
From Verif Require Import Model_Numerics.
Import ListNotations.
Open Scope R_scope.

(** fluids/open_flow.py:89-89 *)
Definition angles_Shen : list Q := ([20; 40; 60; 80; 100])%Q.

(** fluids/open_flow.py:90-90 *)
Definition Cs_Shen : list Q := ([0.59; 0.58; 0.575; 0.575; 0.58])%Q.

(** fluids/open_flow.py:91-91 *)
Definition k_Shen : list Q := ([0.0028; 0.0017; 0.0012; 0.001; 0.001])%Q.

(** fluids/open_flow.py:152-154 [Q_weir_V_Shen]. *)
Definition Q_weir_V_Shen (h1 : R) (angle : R) : result R :=
  C_ <- interp angle (map Q2R angles_Shen) (map Q2R Cs_Shen) None None false ;;
  k <- interp angle (map Q2R angles_Shen) (map Q2R k_Shen) None None false ;;
  t3 <- psqrt 9.80665 ;;
  t4 <- ppow (h1 + k) 2.5 ;;
  Ok (((C_ * (tan ((radians angle) / 2))) * t3) * t4).

(** fluids/open_flow.py:209-209 [Q_weir_rectangular_Kindsvater_Carter]. *)
Definition Q_weir_rectangular_Kindsvater_Carter (h1 : R) (h2 : R) (b : R) : result R :=
  t1 <- pdiv (0.0035 * h1) h2 ;;
  t2 <- psqrt 9.80665 ;;
  t3 <- ppow (h1 + 0.0001) 1.5 ;;
  Ok ((((0.554 * (1 - t1)) * (b + 0.0025)) * t2) * t3).

(** fluids/open_flow.py:264-267 [Q_weir_rectangular_SIA]. *)
Definition Q_weir_rectangular_SIA (h1 : R) (h2 : R) (b : R) (b1 : R) : result R :=
  let h := (h1 + h2) in
  t1 <- pdiv b b1 ;;
  t2 <- pdiv b b1 ;;
  t3 <- pdiv (0.00626 - (0.00519 * (t2 ^ 2))) (h1 + 0.0016) ;;
  t4 <- pdiv b b1 ;;
  t5 <- pdiv h1 (h1 + h2) ;;
  t6 <- psqrt 9.80665 ;;
  t7 <- ppow h 1.5 ;;
  let Q_ := (((((0.544 * ((1 + (0.064 * (t1 ^ 2))) + t3)) * (1 + ((0.5 * (t4 ^ 4)) * (t5 ^ 2)))) * b) * t6) * t7) in
  Ok Q_.

(** fluids/open_flow.py:322-322 [Q_weir_rectangular_full_Ackers]. *)
Definition Q_weir_rectangular_full_Ackers (h1 : R) (h2 : R) (b : R) : result R :=
  t1 <- pdiv (0.15 * h1) h2 ;;
  t2 <- psqrt 9.80665 ;;
  t3 <- ppow (h1 + 0.001) 1.5 ;;
  Ok ((((0.564 * (1 + t1)) * b) * t2) * t3).

(** fluids/open_flow.py:375-377 [Q_weir_rectangular_full_SIA]. *)
Definition Q_weir_rectangular_full_SIA (h1 : R) (h2 : R) (b : R) : result R :=
  t1 <- psqrt 2 ;;
  t2 <- pdiv 0.000615 (h1 + 0.0016) ;;
  t3 <- psqrt 9.80665 ;;
  t4 <- pdiv h1 (h1 + h2) ;;
  t5 <- psqrt 9.80665 ;;
  t6 <- ppow h1 1.5 ;;
  let Q_ := (((((((2 / 3) * t1) * (0.615 + t2)) * b) * t3) * h1) + ((((0.5 * (t4 ^ 2)) * b) * t5) * t6)) in
  Ok Q_.

(** fluids/open_flow.py:430-430 [Q_weir_rectangular_full_Rehbock]. *)
Definition Q_weir_rectangular_full_Rehbock (h1 : R) (h2 : R) (b : R) : result R :=
  t1 <- psqrt 2 ;;
  t2 <- pdiv (0.0832 * h1) h2 ;;
  t3 <- psqrt 9.80665 ;;
  t4 <- ppow (h1 + 0.00125) 1.5 ;;
  Ok ((((((2 / 3) * t1) * (0.602 + t2)) * b) * t3) * t4).

(** fluids/open_flow.py:483-484 [Q_weir_rectangular_full_Kindsvater_Carter]. *)
Definition Q_weir_rectangular_full_Kindsvater_Carter (h1 : R) (h2 : R) (b : R) : result R :=
  t1 <- psqrt 2 ;;
  t2 <- pdiv (0.075 * h1) h2 ;;
  t3 <- psqrt 9.80665 ;;
  t4 <- ppow (h1 + 0.001) 1.5 ;;
  let Q_ := ((((((2 / 3) * t1) * (0.602 + t2)) * (b - 0.001)) * t3) * t4) in
  Ok Q_.

(** fluids/open_flow.py:536-536 [V_Manning]. *)
Definition V_Manning (Rh : R) (S_ : R) (n : R) : result R :=
  t1 <- ppow Rh (2 / 3) ;;
  t2 <- psqrt S_ ;;
  pdiv (t1 * t2) n.

(** fluids/open_flow.py:572-572 [n_Manning_to_C_Chezy]. *)
Definition n_Manning_to_C_Chezy (n : R) (Rh : R) : result R :=
  t1 <- pdiv 1 n ;;
  t2 <- ppow Rh (1 / 6) ;;
  Ok (t1 * t2).

(** fluids/open_flow.py:608-608 [C_Chezy_to_n_Manning]. *)
Definition C_Chezy_to_n_Manning (C_ : R) (Rh : R) : result R :=
  t1 <- ppow Rh (1 / 6) ;;
  pdiv t1 C_.

(** fluids/open_flow.py:652-652 [V_Chezy]. *)
Definition V_Chezy (Rh : R) (S_ : R) (C_ : R) : result R :=
  t1 <- psqrt (S_ * Rh) ;;
  Ok (C_ * t1).

(** fluids/open_flow.py:819-852: (group, surface, (minimum, average, maximum)) *)
Definition n_natural : list (string * string * (Q * Q * Q)) :=
  ([("Major streams", "Irregular, rough", (0.035, 0.07, 0.1));
   ("Flood plains", "Pasture, no brush, short grass", (0.025, 0.03, 0.035));
   ("Flood plains", "Pasture, no brush, high grass", (0.03, 0.035, 0.05));
   ("Flood plains", "Cultivated areas, no crop", (0.02, 0.03, 0.04));
   ("Flood plains", "Cultivated areas, mature row crops", (0.025, 0.035, 0.045));
   ("Flood plains", "Cultivated areas, mature field crops", (0.03, 0.04, 0.05));
   ("Flood plains", "Brush, scattered brush, heavy weeds", (0.035, 0.05, 0.07));
   ("Flood plains", "Brush, light brush and trees, in winter", (0.035, 0.05, 0.06));
   ("Flood plains", "Brush, light brush and trees, in summer", (0.04, 0.06, 0.08));
   ("Flood plains", "Brush, medium to dense brush, in winter", (0.045, 0.07, 0.11));
   ("Flood plains", "Brush, medium to dense brush, in summer", (0.07, 0.1, 0.16));
   ("Flood plains", "Trees, dense willows, summer, straight", (0.11, 0.15, 0.2));
   ("Flood plains", "Trees, cleared land with tree stumps, no sprouts", (0.03, 0.04, 0.05));
   ("Flood plains", "Trees, cleared land with tree stumps, heavy growth of sprouts", (0.05, 0.06, 0.08));
   ("Flood plains", "Trees, heavy stand of timber, a few down trees, little undergrowth, flood stage below branches", (0.08, 0.1, 0.12));
   ("Flood plains", "Trees, heavy stand of timber, a few down trees, little undergrowth, flood stage reaching branches", (0.1, 0.12, 0.16));
   ("Minor streams", "Mountain streams, no vegetation in channel, banks steep, trees and bush on the banks submerged to high stages, with gravel, cobbles and few boulders on bottom", (0.03, 0.04, 0.05));
   ("Minor streams", "Mountain streams, no vegetation in channel, banks steep, trees and bush on the banks submerged to high stages, with cobbles and large boulders on bottom", (0.04, 0.05, 0.07));
   ("Minor streams", "Plain streams, clean, straight, full stage, no rifts or deep pools", (0.025, 0.03, 0.033));
   ("Minor streams", "Plain streams, clean, straight, full stage, no rifts or deep pools, more stones and weeds", (0.03, 0.035, 0.04));
   ("Minor streams", "Clean, winding, some pools and shoals", (0.033, 0.04, 0.045));
   ("Minor streams", "Clean, winding, some pools and shoals, some weeds and stones", (0.035, 0.045, 0.05));
   ("Minor streams", "Clean, winding, some pools and shoals, some weeds and stones, lower stages, less effective slopes and sections", (0.04, 0.048, 0.055));
   ("Minor streams", "Clean, winding, some pools and shoals, more weeds and stones", (0.045, 0.05, 0.06));
   ("Minor streams", "Sluggish reaches, weedy, deep pools", (0.05, 0.07, 0.08));
   ("Minor streams", "Very weedy reaches, deep pools, or floodways with heavy stand of timber and underbrush", (0.075, 0.1, 0.15))])%Q%string.


(** fluids/open_flow.py:788-817: (group, surface, (minimum, average, maximum)) *)
Definition n_excavated_dredged : list (string * string * (Q * Q * Q)) :=
  ([("Earth, straight, and uniform", "Clean, recently completed", (0.016, 0.018, 0.02));
   ("Earth, straight, and uniform", "Clean, after weathering", (0.018, 0.022, 0.025));
   ("Earth, straight, and uniform", "Gravel, uniform section, clean", (0.022, 0.025, 0.03));
   ("Earth, straight, and uniform", "With short grass and few weeds", (0.022, 0.027, 0.033));
   ("Earth, winding and sluggish", "No vegetation", (0.023, 0.025, 0.03));
   ("Earth, winding and sluggish", "Grass and some weeds", (0.025, 0.03, 0.033));
   ("Earth, winding and sluggish", "Dense weeds or aquatic plants, in deep channels", (0.03, 0.035, 0.04));
   ("Earth, winding and sluggish", "Earth bottom; rubble sides", (0.028, 0.03, 0.035));
   ("Earth, winding and sluggish", "Stony bottom; weedy banks", (0.025, 0.035, 0.04));
   ("Earth, winding and sluggish", "Cobble bottom; clean sides", (0.03, 0.04, 0.05));
   ("Dragline-excavated or dredged", "No vegetation", (0.025, 0.028, 0.033));
   ("Dragline-excavated or dredged", "Light brush on banks", (0.035, 0.05, 0.06));
   ("Rock cuts", "Smooth and Uniform", (0.025, 0.035, 0.04));
   ("Rock cuts", "Jaged and Irregular", (0.035, 0.04, 0.05));
   ("Channels not maintained, with weeds and uncut brush", "Dense weeds, as high as the flow depth", (0.05, 0.08, 0.12));
   ("Channels not maintained, with weeds and uncut brush", "Clean bottom, brush on sides", (0.04, 0.05, 0.08));
   ("Channels not maintained, with weeds and uncut brush", "Clean bottom, brush on sides, highest stage of flow", (0.045, 0.07, 0.11));
   ("Channels not maintained, with weeds and uncut brush", "Dense brush, high stage", (0.08, 0.1, 0.14))])%Q%string.


(** fluids/open_flow.py:728-785: (group, surface, (minimum, average, maximum)) *)
Definition n_lined_built : list (string * string * (Q * Q * Q)) :=
  ([("Metal", "Smooth steel, unpainted", (0.011, 0.012, 0.014));
   ("Metal", "Smooth steel, painted", (0.012, 0.013, 0.017));
   ("Metal", "Corrugated", (0.021, 0.025, 0.03));
   ("Cement", "Neat, surface", (0.01, 0.011, 0.013));
   ("Cement", "Mortar", (0.011, 0.013, 0.015));
   ("Wood", "Planed, untreated", (0.01, 0.012, 0.014));
   ("Wood", "Planed, creosoted", (0.011, 0.012, 0.015));
   ("Wood", "Unplaned", (0.011, 0.013, 0.015));
   ("Wood", "Plank with battens", (0.012, 0.015, 0.018));
   ("Wood", "Lined with Roofing paper", (0.01, 0.014, 0.017));
   ("Concrete", "Trowel finish", (0.011, 0.013, 0.015));
   ("Concrete", "Float finish", (0.013, 0.015, 0.016));
   ("Concrete", "Finished, with gravel on bottom", (0.015, 0.017, 0.02));
   ("Concrete", "Unfinished", (0.014, 0.017, 0.02));
   ("Concrete", "Gunite, good section", (0.016, 0.019, 0.023));
   ("Concrete", "Gunite, wavy section", (0.018, 0.022, 0.025));
   ("Concrete", "On good excavated rock", (0.017, 0.02, 0.02));
   ("Concrete", "On irregular excavated rock", (0.022, 0.027, 0.027));
   ("Concrete bottom float", "Finished with sides of dressed stone in mortar", (0.015, 0.017, 0.02));
   ("Concrete bottom float", "Finished with sides of random stone in mortar", (0.017, 0.02, 0.024));
   ("Concrete bottom float", "Finished with sides of cement rubble masonry, plastered", (0.016, 0.02, 0.024));
   ("Concrete bottom float", "Finished with sides of cement rubble masonry", (0.02, 0.025, 0.03));
   ("Concrete bottom float", "Finished with sides of dry rubble or riprap", (0.02, 0.03, 0.035));
   ("Gravel bottom", "Sides of formed concrete", (0.017, 0.02, 0.025));
   ("Gravel bottom", "Sides of random stone in mortar", (0.02, 0.023, 0.026));
   ("Gravel bottom", "Sides of dry rubble or riprap", (0.023, 0.033, 0.036));
   ("Brick", "Glazed", (0.011, 0.013, 0.015));
   ("Brick", "In-cement mortar", (0.012, 0.015, 0.018));
   ("Masonry", "Cemented rubble", (0.017, 0.025, 0.03));
   ("Masonry", "Dry rubble", (0.023, 0.032, 0.035));
   ("Dressed ashlar", "Stone paving", (0.013, 0.015, 0.017));
   ("Asphalt", "Smooth", (0.013, 0.013, 0.013));
   ("Asphalt", "Rough", (0.016, 0.016, 0.016));
   ("Vegatal", "Lined", (0.03, 0.4, 0.5))])%Q%string.


(** fluids/open_flow.py:665-723: (group, surface, (minimum, average, maximum)) *)
Definition n_closed_conduit : list (string * string * (Q * Q * Q)) :=
  ([("Brass", "Smooth", (0.009, 0.01, 0.013));
   ("Steel", "Lockbar and welded", (0.01, 0.012, 0.014));
   ("Steel", "Riveted and spiral", (0.013, 0.016, 0.017));
   ("Cast Iron", "Coated ", (0.01, 0.013, 0.014));
   ("Cast Iron", "Uncoated", (0.011, 0.014, 0.016));
   ("Wrought Iron", "Black ", (0.012, 0.014, 0.015));
   ("Wrought Iron", "Galvanized", (0.013, 0.016, 0.017));
   ("Corrugated metal", "Subdrain", (0.017, 0.019, 0.021));
   ("Corrugated metal", "Storm drain", (0.021, 0.024, 0.03));
   ("Acrylic", "Smooth", (0.008, 0.009, 0.01));
   ("Glass", "Smooth", (0.009, 0.01, 0.013));
   ("Cement", "Neat, surface", (0.01, 0.011, 0.013));
   ("Cement", "Mortar", (0.011, 0.013, 0.015));
   ("Concrete", "Culvert, straight and free of debris", (0.01, 0.011, 0.013));
   ("Concrete", "Culvert, some bends, connections, and debris", (0.011, 0.013, 0.014));
   ("Concrete", "Finished", (0.011, 0.012, 0.014));
   ("Concrete", "Sewer with manholes, inlet, straight", (0.013, 0.015, 0.017));
   ("Concrete", "Unfinished, steel form", (0.012, 0.013, 0.014));
   ("Concrete", "Unfinished, smooth wood form", (0.012, 0.014, 0.016));
   ("Concrete", "Unfinished, rough wood form", (0.015, 0.017, 0.02));
   ("Wood", "Stave", (0.01, 0.012, 0.014));
   ("Wood", "Laminated, treated", (0.015, 0.017, 0.02));
   ("Clay", "Common drainage tile", (0.011, 0.013, 0.017));
   ("Clay", "Vitrified sewer", (0.011, 0.014, 0.017));
   ("Clay", "Vitrified sewer with manholes, inlet, etc.", (0.013, 0.015, 0.017));
   ("Clay", "Vitrified Subdrain with open joint", (0.014, 0.016, 0.018));
   ("Brickwork", "Glazed", (0.011, 0.013, 0.015));
   ("Brickwork", "Lined with cement mortar", (0.012, 0.015, 0.017));
   ("Other", "Sanitary sewers coated with sewage slime with bends and connections", (0.012, 0.013, 0.016));
   ("Other", "Paved invert, sewer, smooth bottom", (0.016, 0.019, 0.02));
   ("Other", "Rubble masonry, cemented", (0.018, 0.025, 0.03))])%Q%string.


(** fluids/open_flow.py:854 *)
Definition n_dicts := [n_natural; n_excavated_dredged; n_lined_built; n_closed_conduit].

