(** fluids/two_phase.py:2322-2354 [two_phase_correlations]: names with the index of their argument list *)
Definition two_phase_correlations : list (string * nat) :=
  [("Zhang_Webb", 0); ("Lockhart_Martinelli", 1); ("Bankoff", 2); ("Baroczy_Chisholm", 2); ("Chisholm", 2); ("Gronnerud", 2);
   ("Jung_Radermacher", 2); ("Muller_Steinhagen_Heck", 2); ("Theissing", 2); ("Wang_Chiang_Lu", 2); ("Yu_France", 2);
   ("Kim_Mudawar", 3); ("Friedel", 4); ("Hwang_Kim", 4); ("Mishima_Hibiki", 4); ("Tran", 4); ("Xu_Fang", 4);
   ("Zhang_Hibiki_Mishima", 4); ("Chen_Friedel", 4); ("Lombardi_Pedrocchi", 5); ("Chisholm rough", 101);
   ("Zhang_Hibiki_Mishima adiabatic gas", 102); ("Zhang_Hibiki_Mishima flow boiling", 103); ("Beggs-Brill", 104)]%string%nat.
(** fluids/two_phase.py:2406-2418 [two_phase_dP_methods]; each optional argument is represented by whether it is given *)
Definition two_phase_dP_methods (rhog mul mug sigma P_ Pc angle : option R) : list string :=
  let given (o : option R) := match o with Some _ => true | None => false end in
  let usable := ((if given rhog && given sigma then [5] else [])
    ++ (if given rhog && given sigma && given mul && given mug then [4; 3; 102; 103] else [])
    ++ (if given rhog && given mul && given mug then [1; 2; 101] else [])
    ++ (if given mul && given P_ && given Pc then [0] else [])
    ++ (if given rhog && given mul && given mug && given sigma && given P_ && given angle then [104] else []))%nat%bool in
  List.map fst (List.filter (fun e => existsb (Nat.eqb (snd e)) usable) two_phase_correlations).
