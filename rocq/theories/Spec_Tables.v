(** What the tables contain, for the statements in Properties_Tables.v *)
From Coq Require Import String List QArith Reals Arith.
From Verif Require Import Base Proofs_Numerics Data_Piping Data_Pump Data_Safety Model_Tables.
Import ListNotations.
Local Open Scope R_scope.

(** the sizes of a pipe schedule: (nominal size, inner diameter, outer diameter, wall thickness) in metres *)
Definition pipe : Type := (R * R * R * R)%type.
Definition pipe_nps (p : pipe) : R := let '(n, _, _, _) := p in n.
Definition pipe_di (p : pipe) : R := let '(_, d, _, _) := p in d.
Definition pipe_do (p : pipe) : R := let '(_, _, d, _) := p in d.
Definition pipe_t (p : pipe) : R := let '(_, _, _, t) := p in t.
Definition sizes (schedule : string) : list pipe :=
  match assoc_str schedule schedule_lookup with
  | None => []
  | Some (lN, lI, lO, lT) =>
      map (fun j => (Q2R (nth j lN 0%Q), Q2R (nth j lI 0%Q) / 1000, Q2R (nth j lO 0%Q) / 1000, Q2R (nth j lT 0%Q) / 1000))
          (seq 0 (List.length lN))
  end.
Definition known_schedule (s : string) : Prop := In s (map fst schedule_lookup).
(** the gauges of a wire schedule with their thickness in inches and metres *)
Definition gauges (schedule : string) : list (R * R * R) :=
  match assoc_str schedule wire_schedules with
  | None => []
  | Some (g, inch_, si) => map (fun j => (Q2R (nth j g 0%Q), Q2R (nth j inch_ 0%Q), Q2R (nth j si 0%Q))) (seq 0 (List.length g))
  end.
