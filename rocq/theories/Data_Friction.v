(** Generated by tools/gen_data.py from /repo/fluids/friction.py: the literal tables, verbatim. *)
From Coq Require Import List QArith ZArith String.
Import ListNotations.
Local Open Scope Q_scope.

Local Open Scope string_scope.
Local Open Scope Q_scope.

(** friction.py:3763-4002, [HHR_roughness]: name, (minimum, maximum, average) in m *)
Definition HHR_roughness : list (string * (option Q * option Q * option Q)) :=
 [("Rough channels in rock, Blast-hewed, little jointing", (Some 1.0e-1, Some 1.4e-1, None));
  ("Rough channels in rock, Blast-hewed, substantial jointing", (Some 1.3e-1, Some 5.0e-1, None));
  ("Rough channels in rock, Roughly cut or very uneven surface", (Some 5.0e-1, Some 1.5e+0, None));
  ("Unlined tunnels, Rocks, gneiss, diameter 3-13.5 m", (Some 3.0e-1, Some 7.0e-1, None));
  ("Unlined tunnels, Rocks, granite, diameter 3-9 m", (Some 2.0e-1, Some 7.0e-1, None));
  ("Unlined tunnels, Shale, diameter 9-12 m", (Some 2.5e-1, Some 6.5e-1, None));
  ("Unlined tunnels, Shale, quartz, quartzile, diameter 7-10 m", (Some 2.0e-1, Some 6.0e-1, None));
  ("Unlined tunnels, Shale, sedimentary, diameter 4-7 m", (None, None, Some 4.0e-1));
  ("Unlined tunnels, Shale, nephrite bearing, diameter 3-8 m", (None, None, Some 2.0e-1));
  ("Wood tubes, Boards, thoroughly dressed", (None, None, Some 1.5e-4));
  ("Wood tubes, Boards, well dressed", (None, None, Some 3.0e-4));
  ("Wood tubes, Boards, undressed but fitted", (None, None, Some 7.0e-4));
  ("Wood tubes, Boards, undressed", (None, None, Some 1.0e-3));
  ("Wood tubes, Staved", (None, None, Some 6.0e-4));
  ("Plywood tubes, Birch plywood, transverse grain, good quality", (None, None, Some 1.2e-4));
  ("Plywood tubes, Birch plywood, longitudinal grain, good quality", (Some 3.0e-5, Some 5.0e-5, None));
  ("Glass tubes, Glass", (Some 1.5e-6, Some 1.0e-5, None));
  ("Concrete water conduits, no finish, New and finished with plaster; excellent manufacture (joints aligned, prime coated and smoothed)", (Some 5.0e-5, Some 1.5e-4, None));
  ("Concrete water conduits, no finish, Used and corroded; with a wavy surface and wood framework", (Some 1.0e-3, Some 4.0e-3, None));
  ("Concrete water conduits, no finish, Old, poor fitting and manufacture; with an overgrown surface and deposits of sand and gravel", (Some 1.0e-3, Some 4.0e-3, None));
  ("Concrete water conduits, no finish, Very old; damaged surface, very overgrown", (Some 5.0e-3, None, None));
  ("Concrete water conduits, no finish, Water conduit, finished with smoothed plaster", (Some 5.0e-3, None, None));
  ("Concrete water conduits, no finish, New, very well manufactured, hand smoothed, prime-coated joints", (Some 1.0e-4, Some 2.0e-4, None));
  ("Concrete water conduits, no finish, Hand-smoothed cement finish and smoothed joints", (Some 1.5e-4, Some 3.5e-4, None));
  ("Concrete water conduits, no finish, Used, no deposits, moderately smooth, steel or wooden casing, joints prime coated but not smoothed", (Some 3.0e-4, Some 6.0e-4, None));
  ("Concrete water conduits, no finish, Used, prefabricated monoliths, cement plaster (wood floated), rough joints", (Some 5.0e-4, Some 1.0e-3, None));
  ("Concrete water conduits, no finish, Conduits for water, sprayed surface of concrete", (Some 5.0e-4, Some 1.0e-3, None));
  ("Concrete water conduits, no finish, Brushed air-placed, either sprayed concrete or concrete on more concrete", (None, None, Some 2.3e-3));
  ("Concrete water conduits, no finish, Non-smoothed air-placed, either sprayed concrete or concrete on more concrete", (Some 3.0e-3, Some 6.0e-3, None));
  ("Concrete water conduits, no finish, Smoothed air-placed, either sprayed concrete or concrete on more concrete", (Some 6.0e-3, Some 1.7e-2, Some 5.0e-4));
  ("Reinforced concrete tubes, New", (Some 2.5e-4, Some 3.4e-4, None));
  ("Reinforced concrete tubes, Nonprocessed", (Some 2.5e-3, None, None));
  ("Asbestos cement tubes, New", (Some 5.0e-5, Some 1.0e-4, None));
  ("Asbestos cement tubes, Average", (Some 6.0e-4, None, None));
  ("Cement tubes, Smoothed", (Some 3.0e-4, Some 8.0e-4, None));
  ("Cement tubes, Non processed", (Some 1.0e-3, Some 2.0e-3, None));
  ("Cement tubes, Joints, non smoothed", (Some 1.9e-3, Some 6.4e-3, None));
  ("Cement-mortar plaster channels, Plaster, cement, smoothed joints and protrusions, and a casing", (Some 5.0e-5, Some 2.2e-4, None));
  ("Cement-mortar plaster channels, Steel trowled", (None, None, Some 5.0e-4));
  ("Other, Plaster over a screen", (Some 1.0e-2, Some 1.5e-2, None));
  ("Other, Salt-glazed ceramic", (None, None, Some 1.4e-3));
  ("Other, Slag-concrete", (None, None, Some 1.5e-3));
  ("Other, Slag and alabaster-filling", (Some 1.0e-3, Some 1.5e-3, None));
  ("Seamless tubes made from brass, copper, lead, aluminum, Commercially smooth", (Some 1.5e-6, Some 1.0e-5, None));
  ("Seamless steel tubes, New and unused", (Some 2.0e-5, Some 1.0e-4, None));
  ("Seamless steel tubes, Cleaned, following years of use", (None, Some 4.0e-5, None));
  ("Seamless steel tubes, Bituminized", (None, Some 4.0e-5, None));
  ("Seamless steel tubes, Heating systems piping; either superheated steam pipes, or just water pipes of systems with deaerators and chemical treatment", (None, None, Some 1.0e-4));
  ("Seamless steel tubes, Following one year as a gas pipeline", (None, None, Some 1.2e-4));
  ("Seamless steel tubes, Following multiple year as a gas pipeline", (Some 4.0e-5, Some 2.0e-4, None));
  ("Seamless steel tubes, Casings in gas wells, different conditions, several years of use", (Some 6.0e-5, Some 2.2e-4, None));
  ("Seamless steel tubes, Heating systems, saturated steam ducts or water pipes (with minor water leakage < 0.5%, and balance water deaerated)", (None, None, Some 2.0e-4));
  ("Seamless steel tubes, Water heating system pipelines, any source", (None, None, Some 2.0e-4));
  ("Seamless steel tubes, Oil pipelines, intermediate operating conditions", (None, None, Some 2.0e-4));
  ("Seamless steel tubes, Corroded, moderately", (None, None, Some 4.0e-4));
  ("Seamless steel tubes, Scale, small depositions only", (None, None, Some 4.0e-4));
  ("Seamless steel tubes, Condensate pipes in open systems or periodically operated steam pipelines", (None, None, Some 5.0e-4));
  ("Seamless steel tubes, Compressed air piping", (None, None, Some 8.0e-4));
  ("Seamless steel tubes, Following multiple years of operation, generally corroded or with small amounts of scale", (Some 1.5e-4, Some 1.0e-3, None));
  ("Seamless steel tubes, Water heating piping without deaeration but with chemical treatment of water; leakage up to 3%; or condensate piping operated periodically", (None, None, Some 1.0e-3));
  ("Seamless steel tubes, Used water piping", (Some 1.2e-3, Some 1.5e-3, None));
  ("Seamless steel tubes, Poor condition", (Some 5.0e-3, None, None));
  ("Welded steel tubes, Good condition", (Some 4.0e-5, Some 1.0e-4, None));
  ("Welded steel tubes, New and covered with bitumen", (None, None, Some 5.0e-5));
  ("Welded steel tubes, Used and covered with partially dissolved bitumen; corroded", (None, None, Some 1.0e-4));
  ("Welded steel tubes, Used, suffering general corrosion", (None, None, Some 1.5e-4));
  ("Welded steel tubes, Surface looks like new, 10 mm lacquer inside, even joints", (Some 3.0e-4, Some 4.0e-4, None));
  ("Welded steel tubes, Used Gas mains", (None, None, Some 5.0e-4));
  ("Welded steel tubes, Double or simple transverse riveted joints; with or without lacquer; without corrosion", (Some 6.0e-4, Some 7.0e-4, None));
  ("Welded steel tubes, Lacquered inside but rusted", (Some 9.5e-4, Some 1.0e-3, None));
  ("Welded steel tubes, Gas mains, many years of use, with layered deposits", (None, None, Some 1.1e-3));
  ("Welded steel tubes, Non-corroded and with double transverse riveted joints", (Some 1.2e-3, Some 1.5e-3, None));
  ("Welded steel tubes, Small deposits", (None, None, Some 1.5e-3));
  ("Welded steel tubes, Heavily corroded and with double transverse riveted joints", (None, None, Some 2.0e-3));
  ("Welded steel tubes, Appreciable deposits", (Some 2.0e-3, Some 4.0e-3, None));
  ("Welded steel tubes, Gas mains, many years of use, deposits of resin/naphthalene", (None, None, Some 2.4e-3));
  ("Welded steel tubes, Poor condition", (Some 5.0e-3, None, None));
  ("Riveted steel tubes, Riveted laterally and longitudinally with one line; lacquered on the inside", (Some 3.0e-4, Some 4.0e-4, None));
  ("Riveted steel tubes, Riveted laterally and longitudinally with two lines; with or without lacquer on the inside and without corrosion", (Some 6.0e-4, Some 7.0e-4, None));
  ("Riveted steel tubes, Riveted laterally with one line and longitudinally with two lines; thickly lacquered or torred on the inside", (Some 1.2e-3, Some 1.4e-3, None));
  ("Riveted steel tubes, Riveted longitudinally with six lines, after extensive use", (None, None, Some 2.0e-3));
  ("Riveted steel tubes, Riveted laterally with four lines and longitudinally with six lines; overlapping joints inside", (None, None, Some 4.0e-3));
  ("Riveted steel tubes, Extremely poor surface; overlapping and uneven joints", (Some 5.0e-3, None, None));
  ("Roofing steel sheets, Oiled", (Some 1.5e-4, Some 1.1e-3, None));
  ("Roofing steel sheets, Not Oiled", (Some 2.0e-5, Some 4.0e-5, None));
  ("Galvanized steel tubes, Bright galvanization; new", (Some 7.0e-5, Some 1.0e-4, None));
  ("Galvanized steel tubes, Ordinary galvanization", (Some 1.0e-4, Some 1.5e-4, None));
  ("Galvanized sheet steel, New", (None, None, Some 1.5e-4));
  ("Galvanized sheet steel, Used previously for water", (None, None, Some 1.8e-4));
  ("Steel tubes, Glass enamel coat", (Some 1.0e-6, Some 1.0e-5, None));
  ("Steel tubes, New", (Some 2.5e-4, Some 1.0e-3, None));
  ("Cast-iron tubes, New, bituminized", (Some 1.0e-4, Some 1.5e-4, None));
  ("Cast-iron tubes, Coated with asphalt", (Some 1.2e-4, Some 3.0e-4, None));
  ("Cast-iron tubes, Used water pipelines", (None, None, Some 1.4e-3));
  ("Cast-iron tubes, Used and corroded", (Some 1.0e-3, Some 1.5e-3, None));
  ("Cast-iron tubes, Deposits visible", (Some 1.0e-3, Some 1.5e-3, None));
  ("Cast-iron tubes, Substantial deposits", (Some 2.0e-3, Some 4.0e-3, None));
  ("Cast-iron tubes, Cleaned after extensive use", (Some 3.0e-4, Some 1.5e-3, None));
  ("Cast-iron tubes, Severely corroded", (None, Some 3.0e-3, None));
  ("Steel water conduits in generating stations, New, clean, seamless (without joints), well fitted", (Some 1.5e-5, Some 4.0e-5, None));
  ("Steel water conduits in generating stations, New, clean, welded lengthwise and well fitted", (Some 1.2e-5, Some 3.0e-5, None));
  ("Steel water conduits in generating stations, New, clean, welded lengthwise and well fitted, with transverse welded joints", (Some 8.0e-5, Some 1.7e-4, None));
  ("Steel water conduits in generating stations, New, clean, coated, bituminized when manufactured", (Some 1.4e-5, Some 1.8e-5, None));
  ("Steel water conduits in generating stations, New, clean, coated, bituminized when manufactured, with transverse welded joints", (Some 2.0e-4, Some 6.0e-4, None));
  ("Steel water conduits in generating stations, New, clean, coated, galvanized", (Some 1.0e-4, Some 2.0e-4, None));
  ("Steel water conduits in generating stations, New, clean, coated, roughly galvanized", (Some 4.0e-4, Some 7.0e-4, None));
  ("Steel water conduits in generating stations, New, clean, coated, bituminized, curved", (Some 1.0e-4, Some 1.4e-3, None));
  ("Steel water conduits in generating stations, Used, clean, slight corrosion", (Some 1.0e-4, Some 3.0e-4, None));
  ("Steel water conduits in generating stations, Used, clean, moderate corrosion or slight deposits", (Some 3.0e-4, Some 7.0e-4, None));
  ("Steel water conduits in generating stations, Used, clean, severe corrosion", (Some 8.0e-4, Some 1.5e-3, None));
  ("Steel water conduits in generating stations, Used, clean, previously cleaned of either deposits or rust", (Some 1.5e-4, Some 2.0e-4, None));
  ("Used steel water conduits in generating stations, Used, all welded, <2 years use, no deposits", (Some 1.2e-4, Some 2.4e-4, None));
  ("Used steel water conduits in generating stations, Used, all welded, <20 years use, no deposits", (Some 6.0e-4, Some 5.0e-3, None));
  ("Used steel water conduits in generating stations, Used, iron-bacterial corrosion", (Some 3.0e-3, Some 4.0e-3, None));
  ("Used steel water conduits in generating stations, Used, heavy corrosion, or with incrustation (deposit 1.5 - 9 mm deep)", (Some 3.0e-3, Some 5.0e-3, None));
  ("Used steel water conduits in generating stations, Used, heavy corrosion, or with incrustation (deposit 3 - 25 mm deep)", (Some 6.0e-3, Some 6.5e-3, None));
  ("Used steel water conduits in generating stations, Used, inside coating, bituminized, < 2 years use", (Some 1.0e-4, Some 3.5e-4, None))].

(** friction.py:3979-3983 *)
Definition roughness_table : list (string * Q) :=
 [("Brass", 0.00000152);
  ("Lead", 0.00000152);
  ("Glass", 0.00000152);
  ("Steel", 0.00000152);
  ("Asphalted cast iron", 0.000122);
  ("Galvanized iron", 0.000152);
  ("Cast iron", 0.000259);
  ("Wood stave", 0.000183);
  ("Rough wood stave", 0.000914);
  ("Concrete", 0.000305);
  ("Rough concrete", 0.00305);
  ("Riveted steel", 0.000914);
  ("Rough riveted steel", 0.00914)].

(** friction.py:4009-4015: average roughness, A and B (inches) *)
Definition Farshad_roughness : list (string * (Q * Q * Q)) :=
 [("Plastic coated", (5e-6, 0.0002, -1.0098));
  ("Carbon steel, honed bare", (12.5e-6, 0.0005, -1.0101));
  ("Cr13, electropolished bare", (30e-6, 0.0012, -1.0086));
  ("Cement lining", (33e-6, 0.0014, -1.0105));
  ("Carbon steel, bare", (36e-6, 0.0014, -1.0112));
  ("Fiberglass lining", (38e-6, 0.0016, -1.0086));
  ("Cr13, bare", (55e-6, 0.0021, -1.0055))].
