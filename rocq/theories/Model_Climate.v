(** fluids/design_climate.py: StationDataGSOD, monthly averages over a range of years. *)
From Coq Require Import Reals List ZArith Bool.
From Verif Require Import Base Model_Real.
Import ListNotations.
Open Scope R_scope.

(** One parsed day: date and the reading asked for ([TEMP] or [WDSP]), which may be missing. *)
Record day := Day { d_year : Z; d_month : nat; d_value : option R }.
Definition in_range (older newer y : Z) : bool := ((older <=? y) && (y <=? newer))%Z.

(** fluids/design_climate.py:482-497 (and :546-561): the sums and counts of the twelve months of one year *)
Definition add_day (older newer : Z) (sc : list R * list nat) (d : option day) : list R * list nat :=
  let '(s, c) := sc in
  match d with
  | None => (s, c)
  | Some d =>
    if negb (in_range older newer (d_year d)) then (s, c)
    else match d_value d with
    | None => (s, c)
    | Some T => let i := (d_month d - 1)%nat in (upd s i (nth i s 0 + T), upd c i (nth i c 0%nat + 1)%nat)
    end
  end.
Definition year_sums (older newer : Z) (days : list (option day)) : list R * list nat :=
  fold_left (add_day older newer) days (repeat 0 12, repeat 0%nat 12).
(** fluids/design_climate.py:499-505 (and :563-569) *)
Definition year_averages (older newer : Z) (minimum_days : nat) (days : list (option day)) : result (list (option R)) :=
  let '(s, c) := year_sums older newer days in
  mapM (fun month => let count := nth month c 0%nat in
    if Nat.ltb count minimum_days then Ok None else a <- pdiv (nth month s 0) (INR count) ;; Ok (Some a)) (seq 0 12).
(** fluids/design_climate.py:508-524 (and :572-588) *)
Definition add_year (sc : list R * list nat) (average : list (option R)) : list R * list nat :=
  fold_left (fun '(s, c) month => match nth month average None with
    | None => (s, c)
    | Some a => (upd s month (nth month s 0 + a), upd c month (nth month c 0%nat + 1)%nat)
    end) (seq 0 12) sc.
(** fluids/design_climate.py:467-534 [StationDataGSOD.month_average_temperature] and :537-598 [month_average_windspeed] (the same text
    reading another field); [data] is the dictionary of parsed years in its order *)
Definition month_average (data : list (Z * list (option day))) (older newer : Z) (minimum_days : nat) : result (list R) :=
  yearly <- mapM (fun '(_, days) => year_averages older newer minimum_days days) (filter (fun '(y, _) => in_range older newer y) data) ;;
  let '(s, c) := fold_left add_year yearly (repeat 0 12, repeat 0%nat 12) in
  mapM (fun month => pdiv (nth month s 0) (INR (nth month c 0%nat))) (seq 0 12).

(** [l.index(min(l))] and [l.index(max(l))] of a list that is not empty: the first position of an extreme value *)
Fixpoint best_index (better : R -> R -> bool) (l : list R) (i at_ : nat) (v : R) : nat :=
  match l with
  | [] => at_
  | x :: t => if better x v then best_index better t (S i) i x else best_index better t (S i) at_ v
  end.
(** fluids/design_climate.py:453-458 [coldest_month], :460-465 [warmest_month] *)
Definition extreme_month (better : R -> R -> bool) (data : list (Z * list (option day))) (older newer : Z) (minimum_days : nat) : result nat :=
  l <- month_average data older newer minimum_days ;;
  match l with [] => Err ValueError | v :: t => Ok (best_index better t 1 0 v) end.
Definition coldest_month := extreme_month Rltb.
Definition warmest_month := extreme_month (fun x y => Rltb y x).

(** A station: coordinates in degrees and the date (YYYYMMDD) of its last data. *)
Record station := Station { latitude : R; longitude : R; s_end : R }.
(** fluids/design_climate.py:732-737: the loop over the indexes of one query; an END of None (TypeError in the source) is left out *)
Fixpoint first_recent (stations : list station) (recent : R) (indexes : list nat) : option nat :=
  match indexes with
  | [] => None
  | i :: t => match nth_error stations i with
    | Some s => if Rltb recent (s_end s) then Some i else first_recent stations recent t
    | None => first_recent stations recent t
    end
  end.
(** fluids/design_climate.py:685-741 [get_closest_station], giving the index of the station; [query k] is [KDTree.query([latitude, longitude], k)]
    (scipy); [fuel] bounds the recursion, as the interpreter's stack does *)
Fixpoint get_closest_station (fuel : nat) (query : nat -> list nat) (stations : list station) (recent : R) (match_max : nat) : result nat :=
  match fuel with
  | O => Err Diverges
  | S fuel =>
    match first_recent stations recent (query (Nat.min match_max (length stations))) with
    | Some i => Ok i
    | None => if Nat.ltb match_max (length stations) then get_closest_station fuel query stations recent (match_max * 10) else Err ValueError
    end
  end.
