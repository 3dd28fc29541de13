(** fluids/two_phase_voidage.py:1982-2010 [two_phase_voidage_correlations]: the optional arguments each entry names
    ([x], [rhol], [rhog], [angle] and [g] always have a value). *)
Definition two_phase_voidage_correlations : list (string * list string) :=
  [("Thom", ["mul"; "mug"]); ("Zivi", []); ("Smith", []); ("Fauske", []); ("Chisholm_voidage", []);
   ("Turner Wallis", ["mul"; "mug"]); ("homogeneous", []); ("Chisholm Armand", []); ("Armand", []); ("Nishino Yamazaki", []);
   ("Guzhov", ["m"; "D"]); ("Kawahara", ["D"]); ("Baroczy", ["mul"; "mug"]); ("Tandon Varma Gupta", ["mul"; "mug"; "m"; "D"]);
   ("Harms", ["mul"; "mug"; "m"; "D"]); ("Domanski Didion", ["mul"; "mug"]); ("Graham", ["mul"; "mug"; "m"; "D"]);
   ("Yashar", ["mul"; "mug"; "m"; "D"]); ("Huq_Loth", []); ("Kopte_Newell_Chato", ["m"; "D"]);
   ("Steiner", ["sigma"; "m"; "D"]); ("Rouhani 1", ["sigma"; "m"; "D"]); ("Rouhani 2", ["sigma"; "m"; "D"]);
   ("Nicklin Wilkes Davidson", ["m"; "D"]); ("Gregory_Scott", []); ("Dix", ["sigma"; "m"; "D"]);
   ("Sun Duffey Peng", ["sigma"; "m"; "D"; "P"; "Pc"]); ("Xu Fang voidage", ["m"; "D"]);
   ("Woldesemayat Ghajar", ["sigma"; "m"; "D"; "P"])]%string.

(** fluids/two_phase_voidage.py:2065-2073 [liquid_gas_voidage_methods]; each optional argument is represented by whether
    it is given. *)
Definition liquid_gas_voidage_methods (D_ m mul mug sigma P_ Pc : option R) : list string :=
  let given (o : option R) := match o with Some _ => true | None => false end in
  let vals (n : string) : bool :=
    if String.eqb n "D" then given D_ else if String.eqb n "m" then given m else if String.eqb n "mul" then given mul
    else if String.eqb n "mug" then given mug else if String.eqb n "sigma" then given sigma
    else if String.eqb n "P" then given P_ else given Pc in
  List.map fst (List.filter (fun e => forallb vals (snd e)) two_phase_voidage_correlations).

(** fluids/two_phase_voidage.py:2754-2757 [gas_liquid_viscosity_methods] ([check_ranges] is not used by the code). *)
Definition gas_liquid_viscosity_methods (rhol rhog : option R) : list string :=
  match rhol, rhog with
  | Some _, Some _ => ["Beattie Whalley"; "Fourar Bories"; "Duckler"; "McAdams"; "Cicchitti"; "Lin Kwok"]%string
  | _, _ => ["McAdams"; "Cicchitti"; "Lin Kwok"]%string
  end.
