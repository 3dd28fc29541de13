(** fluids/packed_bed.py:1104-1113 [dP_packed_bed_methods], all required arguments given ([check_ranges] is not
    used by the code). *)
Definition dP_packed_bed_methods (Dt : option R) : list string :=
  ((match Dt with
    | Some _ => ["Harrison, Brunner & Hecker"; "Montillet, Akkari & Comiti"; "Guo, Sun, Zhang, Ding & Liu"]
    | None => [] end)
   ++ ["Erdim, Akgiray & Demir"; "Idelchik"; "Fahien & Schriver"; "KTA"; "Brauer"; "Hicks"; "Carman";
       "Jones & Krier"; "Kuo & Nydegger"; "Tallmadge"; "Ergun"])%list%string.
