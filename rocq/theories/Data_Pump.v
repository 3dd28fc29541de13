(** Generated by tools/gen_data.py from /repo/fluids/pump.py: the literal tables, verbatim. *)
From Coq Require Import List QArith ZArith String.
Import ListNotations.
Local Open Scope Q_scope.

(** pump.py:188-198 *)
Definition VFD_efficiencies := [[0.31; 0.77; 0.86; 0.9; 0.91; 0.93; 0.94];
 [0.35; 0.8; 0.88; 0.91; 0.92; 0.94; 0.95];
 [0.41; 0.83; 0.9; 0.93; 0.94; 0.95; 0.96];
 [0.47; 0.86; 0.93; 0.94; 0.95; 0.96; 0.97];
 [0.5; 0.88; 0.93; 0.95; 0.95; 0.96; 0.97];
 [0.46; 0.86; 0.92; 0.95; 0.95; 0.96; 0.97];
 [0.51; 0.87; 0.92; 0.95; 0.95; 0.96; 0.97];
 [0.47; 0.86; 0.93; 0.95; 0.96; 0.97; 0.97];
 [0.55; 0.89; 0.94; 0.95; 0.96; 0.97; 0.97];
 [0.61; 0.91; 0.95; 0.96; 0.96; 0.97; 0.97];
 [0.61; 0.91; 0.95; 0.96; 0.96; 0.97; 0.97]].
(** pump.py:199-199 *)
Definition VFD_efficiency_loads : list Q := [0.016; 0.125; 0.25; 0.42; 0.5; 0.75; 1.0].
(** pump.py:200-201 *)
Definition VFD_efficiency_powers : list Q := [3.0; 5.0; 10.0; 20.0; 30.0; 50.0; 60.0; 75.0; 100.0; 200.0; 400.0].
(** pump.py:261-264 *)
Definition nema_sizes_hp : list Q := [0.25; 0.3333333333333333; 0.5; 0.75; 1.0; 1.5; 2.0; 3.0; 4.0; 5.0; 5.5; 7.5; 10.0; 15.0; 20.0; 25.0; 30.0; 40.0; 50.0; 60.0; 75.0; 100.0; 125.0; 150.0; 175.0; 200.0; 250.0; 300.0; 350.0; 400.0; 450.0; 500.0].
(** pump.py:308-308 *)
Definition nema_high_P : list Q := [1.0; 1.5; 2.0; 3.0; 4.0; 5.0; 5.5; 7.5; 10.0; 15.0; 20.0; 25.0; 30.0; 40.0; 50.0; 60.0; 75.0; 100.0; 125.0; 150.0; 175.0; 200.0].
(** pump.py:309-309 *)
Definition nema_high_full_open_2p : list Q := [0.77; 0.84; 0.855; 0.855; 0.865; 0.865; 0.865; 0.885; 0.895; 0.902; 0.91; 0.917; 0.917; 0.924; 0.93; 0.936; 0.936; 0.936; 0.941; 0.941; 0.95; 0.95].
(** pump.py:310-310 *)
Definition nema_high_full_open_4p : list Q := [0.855; 0.865; 0.865; 0.895; 0.895; 0.895; 0.895; 0.91; 0.917; 0.93; 0.93; 0.936; 0.941; 0.941; 0.945; 0.95; 0.95; 0.954; 0.954; 0.958; 0.958; 0.958].
(** pump.py:311-311 *)
Definition nema_high_full_open_6p : list Q := [0.825; 0.865; 0.875; 0.885; 0.895; 0.895; 0.895; 0.902; 0.917; 0.917; 0.924; 0.93; 0.936; 0.941; 0.941; 0.945; 0.945; 0.95; 0.95; 0.954; 0.954; 0.954].
(** pump.py:312-312 *)
Definition nema_high_full_closed_2p : list Q := [0.77; 0.84; 0.855; 0.865; 0.885; 0.885; 0.885; 0.895; 0.902; 0.91; 0.91; 0.917; 0.917; 0.924; 0.93; 0.936; 0.936; 0.941; 0.95; 0.95; 0.954; 0.954].
(** pump.py:313-313 *)
Definition nema_high_full_closed_4p : list Q := [0.855; 0.865; 0.865; 0.895; 0.895; 0.895; 0.895; 0.917; 0.917; 0.924; 0.93; 0.936; 0.936; 0.941; 0.945; 0.95; 0.954; 0.954; 0.954; 0.958; 0.962; 0.962].
(** pump.py:314-314 *)
Definition nema_high_full_closed_6p : list Q := [0.825; 0.875; 0.885; 0.895; 0.895; 0.895; 0.895; 0.91; 0.91; 0.917; 0.917; 0.93; 0.93; 0.941; 0.941; 0.945; 0.945; 0.95; 0.95; 0.958; 0.958; 0.958].
(** pump.py:317-317 *)
Definition nema_min_P : list Q := [1.0; 1.5; 2.0; 3.0; 4.0; 5.0; 5.5; 7.5; 10.0; 15.0; 20.0; 25.0; 30.0; 40.0; 50.0; 60.0; 75.0; 100.0; 125.0; 150.0; 175.0; 200.0; 250.0; 300.0; 350.0; 400.0; 450.0; 500.0].
(** pump.py:318-318 *)
Definition nema_min_full_open_2p : list Q := [0.755; 0.825; 0.84; 0.84; 0.84; 0.855; 0.855; 0.875; 0.885; 0.895; 0.902; 0.91; 0.91; 0.917; 0.924; 0.93; 0.93; 0.93; 0.936; 0.936; 0.945; 0.945; 0.945; 0.95; 0.95; 0.954; 0.958; 0.958].
(** pump.py:319-319 *)
Definition nema_min_full_open_4p : list Q := [0.825; 0.84; 0.84; 0.865; 0.865; 0.875; 0.875; 0.885; 0.895; 0.91; 0.91; 0.917; 0.924; 0.93; 0.93; 0.936; 0.941; 0.941; 0.945; 0.95; 0.95; 0.95; 0.954; 0.954; 0.954; 0.954; 0.958; 0.958].
(** pump.py:320-320 *)
Definition nema_min_full_open_6p : list Q := [0.8; 0.84; 0.855; 0.865; 0.865; 0.875; 0.875; 0.885; 0.902; 0.902; 0.91; 0.917; 0.924; 0.93; 0.93; 0.936; 0.936; 0.941; 0.941; 0.945; 0.945; 0.945; 0.954; 0.954; 0.954; 0.954; 0.954; 0.954].
(** pump.py:321-321 *)
Definition nema_min_full_open_8p : list Q := [0.74; 0.755; 0.855; 0.865; 0.865; 0.875; 0.875; 0.885; 0.895; 0.895; 0.902; 0.902; 0.91; 0.91; 0.917; 0.924; 0.936; 0.936; 0.936; 0.936; 0.936; 0.936; 0.945; 0.945; 0.945; 0.945; 0.945; 0.945].
(** pump.py:322-322 *)
Definition nema_min_full_closed_2p : list Q := [0.755; 0.825; 0.84; 0.855; 0.855; 0.875; 0.875; 0.885; 0.895; 0.902; 0.902; 0.91; 0.91; 0.917; 0.924; 0.93; 0.93; 0.936; 0.945; 0.945; 0.95; 0.95; 0.954; 0.954; 0.954; 0.954; 0.954; 0.954].
(** pump.py:323-323 *)
Definition nema_min_full_closed_4p : list Q := [0.825; 0.84; 0.84; 0.875; 0.875; 0.875; 0.875; 0.895; 0.895; 0.91; 0.91; 0.924; 0.924; 0.93; 0.93; 0.936; 0.941; 0.945; 0.945; 0.95; 0.95; 0.95; 0.95; 0.954; 0.954; 0.954; 0.954; 0.958].
(** pump.py:324-324 *)
Definition nema_min_full_closed_6p : list Q := [0.8; 0.855; 0.865; 0.875; 0.875; 0.875; 0.875; 0.895; 0.895; 0.902; 0.902; 0.917; 0.917; 0.93; 0.93; 0.936; 0.936; 0.941; 0.941; 0.95; 0.95; 0.95; 0.95; 0.95; 0.95; 0.95; 0.95; 0.95].
(** pump.py:325-325 *)
Definition nema_min_full_closed_8p : list Q := [0.74; 0.77; 0.825; 0.84; 0.84; 0.855; 0.855; 0.855; 0.885; 0.885; 0.895; 0.895; 0.91; 0.91; 0.917; 0.917; 0.93; 0.93; 0.936; 0.936; 0.941; 0.941; 0.945; 0.945; 0.945; 0.945; 0.945; 0.945].
(** pump.py:431-431 *)
Definition _to_1 : list Q := [0.015807118828266818; 4.3158627514876216; -8.5612097969025438; 8.2040355039147386; -3.0147603718043068].
(** pump.py:432-432 *)
Definition _to_5 : list Q := [0.015560190519232379; 4.5699731811493152; -7.6800154569463883; 5.4701698738380813; -1.3630071852989643].
(** pump.py:433-433 *)
Definition _to_10 : list Q := [0.059917274403963446; 6.356781885851186; -17.099192527703369; 20.707077651470666; -9.2215133149377841].
(** pump.py:434-434 *)
Definition _to_25 : list Q := [0.29536141765389839; 4.9918188632064329; -13.785081664656504; 16.908273659093812; -7.5816775136809609].
(** pump.py:435-435 *)
Definition _to_60 : list Q := [0.46934299949154384; 4.0298663805446004; -11.632822556859477; 14.616967043793032; -6.6284514347522245].
(** pump.py:436-436 *)
Definition _to_infty : list Q := [0.68235730304242914; 2.4402956771025748; -6.8306770996860182; 8.2108432911172713; -3.5629309804411577].
(** pump.py:437-437 *)
Definition _efficiency_lists := [_to_1; _to_5; _to_10; _to_25; _to_60; _to_infty].
(** pump.py:438-438 *)
Definition _efficiency_ones : list Q := [0.9218102; 0.64307597; 0.61724113; 0.61569791; 0.6172238; 0.40648294].
