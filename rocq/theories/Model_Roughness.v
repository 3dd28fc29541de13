(** Wall roughness look-up, friction.py 4022-4211. The tables are in Data_Friction (generated). *)
From Coq Require Import Reals QArith Qreals List String Bool.
From Verif Require Import Base Model_Real Data_Friction.
Import ListNotations.
Open Scope R_scope.

(** Python dict access on an association list with distinct keys *)
Fixpoint dict_get {A} (d : list (string * A)) (k : string) : option A :=
  match d with [] => None | (k', v) :: d' => if String.eqb k' k then Some v else dict_get d' k end.

(** fluids/constants: inch, 0.0254 m *)
Definition inch : R := 0.0254.

(** friction.py:4095-4112 [roughness_Farshad]. An identifier outside the table leaves [dat] unassigned
    (4102-4109): UnboundLocalError. *)
Definition roughness_Farshad (ID : option string) (D_ : option R) (coeffs : option (R * R)) : result R :=
  let lookup :=
    match (match ID with Some i => dict_get Farshad_roughness i | None => None end) with
    | None => Err UnboundLocalError
    | Some (avg, A, B) =>
      match D_ with
      | None => Ok (Q2R avg)
      | Some D => q <- pdiv D inch ;; p <- ppow q (Q2R B + 1) ;; Ok (Q2R A * p * inch)
      end
    end in
  match ID, coeffs with
  | None, Some (A, B) =>
    match D_ with
    | None => Err ValueError
    | Some D => q <- pdiv D inch ;; p <- ppow q (B + 1) ;; Ok (A * p * inch)
    end
  | _, _ => lookup
  end.

(** Python truth of an optional number *)
Definition truthy (x : option Q) : bool := match x with Some q => negb (Qeq_bool q 0) | None => false end.
Definition py_or (x y : option Q) : option Q := if truthy x then x else y.

(** friction.py:4197-4211 [material_roughness]; [near] is nearest_material_roughness(ID, clean=False) (4119-4157),
    an external fuzzy string search, passed in as an oracle. The recursion is given fuel. *)
Fixpoint material_roughness_fuel (fuel : nat) (near : string -> string) (ID : string) (D_ : option R) (optimism : option bool) : result (option R) :=
  match fuel with
  | 0%nat => Err Diverges
  | S k =>
    match dict_get Farshad_roughness ID with
    | Some _ => r <- roughness_Farshad (Some ID) D_ None ;; Ok (Some r)
    | None =>
      match dict_get roughness_table ID with
      | Some e => Ok (Some (Q2R e))
      | None =>
        match dict_get HHR_roughness ID with
        | Some (minimum, maximum, avg) =>
          Ok (option_map Q2R (match optimism with
              | None => py_or avg (py_or maximum minimum)
              | Some true => py_or minimum (py_or avg maximum)
              | Some false => py_or maximum (py_or avg minimum)
              end))
        | None => material_roughness_fuel k near (near ID) D_ optimism
        end
      end
    end
  end.
