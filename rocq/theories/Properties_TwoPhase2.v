(** C92 continued: choice of the correlation, acceleration and gravity, flow regime maps, Beggs and Brill. *)
From Coq Require Import Reals Lra Lia List Bool String Psatz.
From Verif Require Import Base Model_Real Proofs_Real Interval Model_Friction Model_Voidage Model_Core Model_TwoPhase Proofs_TwoPhase Proofs_TwoPhase2 Properties_Voidage Properties_TwoPhase.
Import ListNotations.
Open Scope R_scope.

(** ** Choice of the correlation *)
(** the optional arguments *)
Record given := mk_given { g_rhog : option R; g_mul : option R; g_mug : option R; g_sigma : option R; g_P : option R; g_Pc : option R; g_angle : option R }.
(** a value that needs an argument is there only if the argument is *)
Definition need {B} (a : option R) (f : R -> option B) : option B := match a with Some v => f v | None => None end.
Section Dispatch.
Variable W : R -> R.
Variables m x rhol D L rough : R.
Definition three (f : R -> R -> R -> result R) (a : given) : option (result R) := need (g_rhog a) (fun rg => need (g_mul a) (fun ml => need (g_mug a) (fun mg => Some (f rg ml mg)))).
Definition four (f : R -> R -> R -> R -> result R) (a : given) : option (result R) := need (g_sigma a) (fun s => three (fun rg ml mg => f rg ml mg s) a).
(** the documented names with the call each stands for *)
Definition catalogue : list (string * (given -> option (result R))) := [
  ("Zhang_Webb", fun a => need (g_mul a) (fun ml => need (g_P a) (fun P => need (g_Pc a) (fun Pc => Some (Zhang_Webb W m x rhol ml P Pc D rough L)))));
  ("Lockhart_Martinelli", three (fun rg ml mg => Lockhart_Martinelli m x rhol rg ml mg D L 2000));
  ("Bankoff", three (fun rg ml mg => Bankoff W m x rhol rg ml mg D rough L));
  ("Baroczy_Chisholm", three (fun rg ml mg => Baroczy_Chisholm W m x rhol rg ml mg D rough L));
  ("Chisholm", three (fun rg ml mg => Chisholm W m x rhol rg ml mg D rough L false));
  ("Gronnerud", three (fun rg ml mg => Gronnerud W m x rhol rg ml mg D rough L));
  ("Jung_Radermacher", three (fun rg ml mg => Jung_Radermacher W m x rhol rg ml mg D rough L));
  ("Muller_Steinhagen_Heck", three (fun rg ml mg => Muller_Steinhagen_Heck W m x rhol rg ml mg D rough L));
  ("Theissing", three (fun rg ml mg => Theissing W m x rhol rg ml mg D rough L));
  ("Wang_Chiang_Lu", three (fun rg ml mg => Wang_Chiang_Lu W m x rhol rg ml mg D rough L));
  ("Yu_France", three (fun rg ml mg => Yu_France W m x rhol rg ml mg D rough L));
  ("Kim_Mudawar", four (fun rg ml mg s => Kim_Mudawar m x rhol rg ml mg s D L));
  ("Friedel", four (fun rg ml mg s => Friedel W m x rhol rg ml mg s D rough L));
  ("Hwang_Kim", four (fun rg ml mg s => Hwang_Kim W m x rhol rg ml mg s D rough L));
  ("Mishima_Hibiki", four (fun rg ml mg s => Mishima_Hibiki W m x rhol rg ml mg s D rough L));
  ("Tran", four (fun rg ml mg s => Tran W m x rhol rg ml mg s D rough L));
  ("Xu_Fang", four (fun rg ml mg s => Xu_Fang W m x rhol rg ml mg s D rough L));
  ("Zhang_Hibiki_Mishima", four (fun rg ml mg s => Zhang_Hibiki_Mishima W m x rhol rg ml mg s D rough L "adiabatic vapor"));
  ("Chen_Friedel", four (fun rg ml mg s => Chen_Friedel W m x rhol rg ml mg s D rough L));
  ("Lombardi_Pedrocchi", fun a => need (g_rhog a) (fun rg => need (g_sigma a) (fun s => Some (Lombardi_Pedrocchi m x rhol rg s D L))));
  ("Chisholm rough", three (fun rg ml mg => Chisholm W m x rhol rg ml mg D rough L true));
  ("Zhang_Hibiki_Mishima adiabatic gas", four (fun rg ml mg s => Zhang_Hibiki_Mishima W m x rhol rg ml mg s D rough L "adiabatic gas"));
  ("Zhang_Hibiki_Mishima flow boiling", four (fun rg ml mg s => Zhang_Hibiki_Mishima W m x rhol rg ml mg s D rough L "flow boiling"));
  ("Beggs-Brill", fun a => need (g_P a) (fun P => need (g_angle a) (fun an => four (fun rg ml mg s => Beggs_Brill W m x rhol rg ml mg s P D an rough L 9.80665 false) a))) ]%string.
Definition ask (a : given) (method : option string) : result R := two_phase_dP W m x rhol D L (g_rhog a) (g_mul a) (g_mug a) (g_sigma a) (g_P a) (g_Pc a) rough (g_angle a) method.
Definition offered (a : given) : list string := two_phase_dP_methods (g_rhog a) (g_mul a) (g_mug a) (g_sigma a) (g_P a) (g_Pc a) (g_angle a).

Lemma In_bool n l : In n l <-> existsb (String.eqb n) l = true.
Proof. rewrite existsb_exists. split; [intros H; exists n; split; auto; apply String.eqb_refl|intros (k & K & E); apply String.eqb_eq in E; now subst]. Qed.
(** a named correlation runs with the arguments given; it is refused with [TypeError] exactly when [two_phase_dP_methods] does not offer it *)
Theorem C92_named name f a : In (name, f) catalogue ->
  ask a (Some name) = match f a with Some r => r | None => Err TypeError end /\ (In name (offered a) <-> f a <> None).
Proof.
  intros H. cbn [In catalogue] in H. unfold ask, offered. destruct a as [rg ml mg s P Pc an]; cbn [g_rhog g_mul g_mug g_sigma g_P g_Pc g_angle].
  repeat (destruct H as [H|H]; [injection H as <- <-|]); [..|destruct H].
  all: split; [cbv [two_phase_dP bind String.eqb Ascii.eqb Bool.eqb orb need three four g_rhog g_mul g_mug g_sigma g_P g_Pc g_angle]; destruct rg, ml, mg, s, P, Pc, an; reflexivity|].
  all: rewrite In_bool; cbv [need three four g_rhog g_mul g_mug g_sigma g_P g_Pc g_angle]; destruct rg, ml, mg, s, P, Pc, an.
  all: lazymatch goal with |- ?b = true <-> _ => let v := eval vm_compute in b in change b with v end; split; intros Hn; first [discriminate | reflexivity | exfalso; apply Hn; reflexivity].
Qed.
Definition known (name : string) : bool := existsb (fun e => String.eqb name (fst e)) catalogue.
Theorem C92_unknown name a : known name = false -> ask a (Some name) = Err ValueError /\ ~ In name (offered a).
Proof.
  intros H. unfold known, catalogue in H. cbn [existsb fst] in H. repeat (apply orb_false_elim in H; destruct H as [? H]).
  split.
  - unfold ask, two_phase_dP. cbn [bind]. rewrite !H0, !H1, !H2, !H3, !H4, !H5, !H6, !H7, !H8, !H9, !H10, !H11, !H12, !H13, !H14, !H15, !H16, !H17, !H18, !H19, !H20, !H21, !H22, !H23. cbn [orb bind]. reflexivity.
  - unfold offered, two_phase_dP_methods. cbv zeta. intros I. apply in_map_iff in I. destruct I as (e & E & I). apply filter_In in I. destruct I as [I _]. subst name.
    cbn [In two_phase_correlations] in I. repeat (destruct I as [I|I]; [subst e; cbn in *; discriminate|]). exact I.
Qed.
(** without a name: the first of the documented rules that applies *)
Theorem C92_default a :
  ask a None = match g_rhog a, g_mul a, g_mug a, g_sigma a with
    | Some rg, Some ml, Some mg, Some s => Kim_Mudawar m x rhol rg ml mg s D L
    | Some rg, Some ml, Some mg, None => Chisholm W m x rhol rg ml mg D rough L false
    | rg, ml, _, s => match ml, g_P a, g_Pc a with
      | Some ml, Some P, Some Pc => Zhang_Webb W m x rhol ml P Pc D rough L
      | _, _, _ => match rg, s with Some rg, Some s => Lombardi_Pedrocchi m x rhol rg s D L | _, _ => Err ValueError end end end.
Proof.
  unfold ask. destruct a as [rg ml mg s P Pc an]; cbn [g_rhog g_mul g_mug g_sigma g_P g_Pc g_angle]. cbv [two_phase_dP bind String.eqb Ascii.eqb Bool.eqb orb]. destruct rg, ml, mg, s, P, Pc; reflexivity.
Qed.
(** the default is refused only when nothing but the Beggs and Brill correlation could be offered -- and then nothing can *)
Theorem C92_default_refused a : (forall n, ~ In n (offered a)) -> ask a None = Err ValueError.
Proof.
  intros H. rewrite C92_default. destruct a as [rg ml mg s P Pc an]; cbn [g_rhog g_mul g_mug g_sigma g_P g_Pc g_angle] in *.
  destruct rg, ml, mg, s, P, Pc; try reflexivity; exfalso.
  all: first [ solve [apply (H "Chisholm"%string), In_bool; destruct an; vm_compute; reflexivity] | solve [apply (H "Zhang_Webb"%string), In_bool; destruct an; vm_compute; reflexivity] | solve [apply (H "Lombardi_Pedrocchi"%string), In_bool; destruct an; vm_compute; reflexivity] ].
Qed.
End Dispatch.
(** leaving the inclination out: the list of methods assumes 0 and offers Beggs and Brill, the calculation insists on it *)
Theorem C92_inclination_refuted W m x rhol D L rough rg ml mg s P : In "Beggs-Brill"%string (two_phase_dP_methods (Some rg) (Some ml) (Some mg) (Some s) (Some P) None (Some 0)) /\
  two_phase_dP W m x rhol D L (Some rg) (Some ml) (Some mg) (Some s) (Some P) None rough None (Some "Beggs-Brill"%string) = Err TypeError.
Proof. split; [cbv [two_phase_dP_methods two_phase_correlations List.map List.filter existsb Nat.eqb app fst snd andb orb In]; intuition|reflexivity]. Qed.
Example C92_named_case : exists f, In ("Friedel"%string, f) (catalogue (fun y => y) 0.6 0.1 915 0.05 1 0) /\ f (mk_given (Some 2.67) (Some 0.00018) (Some 0.000014) (Some 0.0487) None None None) <> None /\ f (mk_given (Some 2.67) None None None None None None) = None.
Proof. eexists. split; [cbn; do 12 right; left; reflexivity|]. split; [discriminate|reflexivity]. Qed.
Example C92_unknown_case : known (fun y => y) 0.6 0.1 915 0.05 1 0 "Friedell" = false. Proof. reflexivity. Qed.

(** ** Acceleration *)
(** specific volume of the homogeneous mixture *)
Definition specific_volume (x rhol rhog : R) : R := x / rhog + (1 - x) / rhol.
Definition flux (m D : R) : R := m / (PI / 4 * D ^ 2).
Lemma flux_code m D : 0 < D -> 4 * m / (PI * D * D) = flux m D.
Proof. intros. unfold flux. pose proof PI_RGT_0. field. lra. Qed.
(** momentum flux per unit of [G^2] at one end *)
Definition momentum (x a rhol rhog : R) : R := (1 - x) ^ 2 / (rhol * (1 - a)) + x ^ 2 / (rhog * a).
Lemma acceleration_eval m D xi xo ai ao rli rgi rlo rgo : 0 < D -> 0 < ai < 1 -> 0 < ao < 1 -> 0 < rli -> 0 < rgi -> 0 < rlo -> 0 < rgo ->
  two_phase_dP_acceleration m D xi xo ai ao rli rgi (Some rlo) (Some rgo) = Ok (flux m D ^ 2 * (momentum xo ao rlo rgo - momentum xi ai rli rgi)).
Proof.
  intros HD Hi Ho H1 H2 H3 H4. unfold two_phase_dP_acceleration. pose proof PI_RGT_0. assert (0 < rli * (1 - ai)) by (apply Rmult_lt_0_compat; lra). assert (0 < rlo * (1 - ao)) by (apply Rmult_lt_0_compat; lra).
  assert (0 < rgi * ai) by (apply Rmult_lt_0_compat; lra). assert (0 < rgo * ao) by (apply Rmult_lt_0_compat; lra). mrun. rewrite flux_code by auto. f_equal. unfold momentum. unfold Rdiv. ring.
Qed.
(** consecutive sections add up; a section and its reverse cancel *)
Theorem C92_acceleration_adds m D x0 x1 x2 a0 a1 a2 l0 l1 l2 g0 g1 g2 : 0 < D -> 0 < a0 < 1 -> 0 < a1 < 1 -> 0 < a2 < 1 -> 0 < l0 -> 0 < l1 -> 0 < l2 -> 0 < g0 -> 0 < g1 -> 0 < g2 ->
  exists p q, two_phase_dP_acceleration m D x0 x1 a0 a1 l0 g0 (Some l1) (Some g1) = Ok p /\ two_phase_dP_acceleration m D x1 x2 a1 a2 l1 g1 (Some l2) (Some g2) = Ok q /\
    two_phase_dP_acceleration m D x0 x2 a0 a2 l0 g0 (Some l2) (Some g2) = Ok (p + q) /\ two_phase_dP_acceleration m D x1 x0 a1 a0 l1 g1 (Some l0) (Some g0) = Ok (- p).
Proof. intros. rewrite !acceleration_eval by auto. do 2 eexists. splits; [reflexivity|reflexivity| |]; f_equal; ring. Qed.
(** with the no-slip void fractions at both ends: the momentum balance of a homogeneous fluid, [G^2 (v_out - v_in)] *)
Theorem C92_acceleration_homogeneous m D xi xo rhol rhog : 0 < D -> 0 < xi < 1 -> 0 < xo < 1 -> 0 < rhog < rhol ->
  exists ai ao, homogeneous xi rhol rhog = Ok ai /\ homogeneous xo rhol rhog = Ok ao /\
    two_phase_dP_acceleration m D xi xo ai ao rhol rhog None None = Ok (flux m D ^ 2 * (specific_volume xo rhol rhog - specific_volume xi rhol rhog)).
Proof.
  intros HD Hi Ho Hr. exists (no_slip xi rhol rhog), (no_slip xo rhol rhog). splits; try (apply homogeneous_eval; split; auto).
  change (two_phase_dP_acceleration m D xi xo (no_slip xi rhol rhog) (no_slip xo rhol rhog) rhol rhog None None) with (two_phase_dP_acceleration m D xi xo (no_slip xi rhol rhog) (no_slip xo rhol rhog) rhol rhog (Some rhol) (Some rhog)).
  pose proof (no_slip_01 xi rhol rhog ltac:(split; auto)). pose proof (no_slip_01 xo rhol rhog ltac:(split; auto)). rewrite acceleration_eval by (auto; lra). do 2 f_equal.
  assert (K : forall x, 0 < x < 1 -> momentum x (no_slip x rhol rhog) rhol rhog = specific_volume x rhol rhog).
  { intros x Hx. unfold momentum, specific_volume, no_slip. assert (0 < x * rhol + (1 - x) * rhog) by nra. assert (0 < (1 - x) * rhog) by nra. field. splits; try lra. }
  now rewrite !K.
Qed.
Example C92_acceleration_case : two_phase_dP_acceleration 1 0.1 0.1 0.9 0.5 0.9 800 2 None None <> Ok 0 /\ 0 < 0.5 < 1.
Proof.
  change (two_phase_dP_acceleration 1 0.1 0.1 0.9 0.5 0.9 800 2 None None) with (two_phase_dP_acceleration 1 0.1 0.1 0.9 0.5 0.9 800 2 (Some 800) (Some 2)).
  split; [|lits; lra]. rewrite acceleration_eval by (lits; lra). intros E. injection E as E. apply Rmult_integral in E. destruct E as [E|E].
  - revert E. apply (pow_nonzero (flux 1 0.1) 2). unfold flux. pose proof PI_RGT_0. apply Rgt_not_eq. posr.
  - unfold momentum in E. lits. lra.
Qed.
(** complete evaporation is refused although the momentum of the vanished liquid is zero *)
Theorem C92_acceleration_dry_refuted m D xi ai rhol rhog : 0 < D -> 0 < ai < 1 -> 0 < rhol -> 0 < rhog -> two_phase_dP_acceleration m D xi 1 ai 1 rhol rhog None None = Err ZeroDivisionError.
Proof.
  intros HD Ha Hl Hg. unfold two_phase_dP_acceleration. pose proof PI_RGT_0. assert (0 < rhol * (1 - ai)) by (apply Rmult_lt_0_compat; lra). assert (0 < rhog * ai) by (apply Rmult_lt_0_compat; lra). cbv zeta.
  rewrite (pdiv_ok (4 * m)) by posr. cbn [bind]. rewrite (pdiv_ok _ (rhol * (1 - ai))) by lra. cbn [bind]. rewrite (pdiv_ok (xi * xi)) by lra. cbn [bind]. replace (rhol * (1 - 1)) with 0 by ring. rewrite pdiv_0. reflexivity.
Qed.

(** ** Gravity *)
(** the two-ended formula is the mean of the local one at the ends, times the length *)
Theorem C92_gravity angle z ai ao rli rgi rlo rgo g : exists p q, two_phase_dP_dz_gravitational angle ai rli rgi g = Ok p /\ two_phase_dP_dz_gravitational angle ao rlo rgo g = Ok q /\
  two_phase_dP_gravitational angle z ai rli rgi (Some ao) (Some rlo) (Some rgo) g = Ok ((p + q) / 2 * z) /\ two_phase_dP_gravitational angle z ai rli rgi None None None g = Ok (p * z).
Proof. unfold two_phase_dP_dz_gravitational, two_phase_dP_gravitational. cbv zeta. do 2 eexists. splits; [reflexivity|reflexivity| |]; f_equal; lits; field. Qed.
(** straight up it is the weight of the column, level it is nothing, down it is regained *)
Theorem C92_gravity_angles a rhol rhog g p : two_phase_dP_dz_gravitational 90 a rhol rhog g = Ok (g * (a * rhog + (1 - a) * rhol)) /\ two_phase_dP_dz_gravitational 0 a rhol rhog g = Ok 0 /\
  (two_phase_dP_dz_gravitational 30 a rhol rhog g = Ok p -> two_phase_dP_dz_gravitational (- 30) a rhol rhog g = Ok (- p)).
Proof.
  unfold two_phase_dP_dz_gravitational, radians. splits.
  - replace (90 * (PI / 180)) with (PI / 2) by field. rewrite sin_PI2. f_equal. ring.
  - rewrite Rmult_0_l, sin_0. f_equal. ring.
  - intros E. injection E as <-. replace (- 30 * (PI / 180)) with (- (30 * (PI / 180))) by ring. rewrite sin_neg. f_equal. ring.
Qed.

(** ** Flow regime maps *)
(** superficial velocity of the mass flow [M] *)
Definition superficial (M rho D : R) : R := M / (rho * (PI / 4 * D ^ 2)).
Theorem C92_Mandhane m x rhol rhog mul mug sigma D : 0 < m -> 0 < x < 1 -> 0 < rhol -> 0 < rhog -> 0 < mul -> 0 < mug -> 0 < sigma -> 0 < D ->
  exists regime, In regime ["elongated bubble"; "stratified"; "annular mist"; "slug"; "dispersed bubble"; "wave"]%string /\
    Mandhane_Gregory_Aziz_regime m x rhol rhog mul mug sigma D = Ok (regime, superficial (m * (1 - x)) rhol D / 0.3048, superficial (m * x) rhog D / 0.3048).
Proof.
  intros Hm Hx Hl Hg Hml Hmg Hs HD. pose proof (area_pos D HD) as HA. assert (0 < m * (1 - x)) by (apply Rmult_lt_0_compat; lra). assert (0 < m * x) by (apply Rmult_lt_0_compat; lra).
  assert (EA : forall M rho, superficial M rho D = M / (rho * (0.25 * PI * D * D))) by (intros; unfold superficial; do 2 f_equal; lits; field).
  unfold Mandhane_Gregory_Aziz_regime. cbv zeta. rewrite (pdiv_ok (m * (1 - x))) by posr. cbn [bind]. rewrite (pdiv_ok (m * x)) by posr. cbn [bind]. rewrite <- !EA.
  assert (HV : 0 < superficial (m * (1 - x)) rhol D) by (rewrite EA; posr). assert (HW : 0 < superficial (m * x) rhog D) by (rewrite EA; posr). 
  set (vl := superficial (m * (1 - x)) rhol D / 0.3048). set (vg := superficial (m * x) rhog D / 0.3048). assert (0 < vl) by (unfold vl; posr). assert (0 < vg) by (unfold vg; posr).
  mrun. repeat match goal with |- context [sqrt ?a] => lazymatch a with context [sqrt _] => fail | _ => let q := fresh "q" in assert (0 < sqrt a) by posr; set (q := sqrt a) in * end end.
  repeat match goal with |- context [if ?c then _ else _] => destruct c; cbn [bind] | _ => progress cbn [bind] | _ => progress mrun end.
  all: eexists; split; [|reflexivity]; cbn; intuition.
Qed.
Example C92_Mandhane_case : 0 < 0.6 /\ 0 < 0.112 < 1 /\ 0 < 915.12 /\ 0 < 2.67 /\ 0 < 0.00018 /\ 0 < 0.000014 /\ 0 < 0.065 /\ 0 < 0.05. Proof. splits; lits; lra. Qed.
(** the documentation promises the gas velocity first *)
Theorem C92_Mandhane_order_refuted : exists regime vl vg, Mandhane_Gregory_Aziz_regime 1 (9 / 10) 1000 1 (1 / 1000) (1 / 100000) (1 / 20) 1 = Ok (regime, vl, vg) /\
  vl = superficial (1 / 10) 1000 1 / 0.3048 /\ vg = superficial (9 / 10) 1 1 / 0.3048 /\ vl <> vg.
Proof.
  destruct (C92_Mandhane 1 (9 / 10) 1000 1 (1 / 1000) (1 / 100000) (1 / 20) 1) as (r & _ & E); try lra. rewrite E. replace (1 * (1 - 9 / 10)) with (1 / 10) by lra. replace (1 * (9 / 10)) with (9 / 10) by lra.
  do 3 eexists. splits; [reflexivity|reflexivity|reflexivity|]. unfold superficial. pose proof PI_RGT_0. assert (HI : 0 < / PI) by now apply Rinv_0_lt_compat.
  replace (1 / 10 / (1000 * (PI / 4 * 1 ^ 2)) / 0.3048) with (4 / 10000 / 0.3048 * / PI) by (lits; field; lra). replace (9 / 10 / (1 * (PI / 4 * 1 ^ 2)) / 0.3048) with (36 / 10 / 0.3048 * / PI) by (lits; field; lra). lits. nra.
Qed.

Theorem C92_Taitel_Dukler W m x rhol rhog mul mug D angle rough g regime X T F K : Taitel_Dukler_regime W m x rhol rhog mul mug D angle rough g = Ok (regime, X, T, F, K) ->
  In regime ["annular"; "bubbly"; "intermittent"; "stratified wavy"; "stratified smooth"]%string.
Proof.
  unfold Taitel_Dukler_regime. cbv zeta. intros H.
  repeat match type of H with bind ?a _ = Ok _ => destruct a eqn:?; cbn [bind] in H; [|discriminate] end. injection H as <- _ _ _ _.
  match goal with E : (if _ then _ else _) = Ok ?r |- In ?r _ => revert E end.
  repeat match goal with |- (if ?c then _ else _) = Ok _ -> _ => destruct c | |- bind ?a _ = Ok _ -> _ => destruct a; cbn [bind]; [|discriminate] | |- Err _ = Ok _ -> _ => discriminate | |- Ok _ = Ok _ -> _ => let E := fresh in intros E; injection E as <-; cbn; tauto end.
Qed.
(** the parameters reported: Martinelli's, by the phases flowing alone, and the modified Froude number of the gas *)
Theorem C92_Taitel_Dukler_parameters W m x rhol rhog mul mug D angle rough g regime X T F K : stream m x rhol rhog mul mug D rough -> 0 < x < 1 -> 0 < g -> -90 < angle < 90 ->
  Taitel_Dukler_regime W m x rhol rhog mul mug D angle rough g = Ok (regime, X, T, F, K) ->
  X ^ 2 = grad W (m * (1 - x)) rhol mul D rough / grad W (m * x) rhog mug D rough /\ T ^ 2 = grad W (m * (1 - x)) rhol mul D rough / ((rhol - rhog) * g * cos (angle * (PI / 180))) /\
  F ^ 2 = rhog / (rhol - rhog) * superficial (m * x) rhog D ^ 2 / (D * g * cos (angle * (PI / 180))).
Proof.
  intros S Hx Hg Ha. destruct (bfacts W m x rhol rhog mul mug D rough S Hx) as ((Q1 & Q2 & Q3 & Q4) & (V1 & V2 & V3 & V4) & (R1 & R2 & R3 & R4) & Hml & Hmg). pose proof S as [Hm _ Hrho Hmu HD Hr].
  assert (HC : 0 < cos (radians angle)). { unfold radians. pose proof PI_RGT_0. apply cos_gt_0; nra. }
  assert (HR : 0 < rhol - rhog) by lra. assert (HR2 : 0 < rhog / (rhol - rhog)) by (posr; lra).
  unfold Taitel_Dukler_regime. cbv zeta. rewrite phase by (auto; lra). rewrite (pdiv_ok _ D) by lra. cbn [bind]. rewrite phase by (auto; lra). rewrite (pdiv_ok _ D) by lra. cbn [bind].
  assert (E : forall M rho mu, fac W M rho mu D rough / D * (0.5 * rho * vel M rho D * vel M rho D) = grad W M rho mu D rough). { intros. unfold grad, drop. lits. field. lra. }
  rewrite !E. rewrite (pdiv_ok (grad _ _ _ _ _ _) (grad _ _ _ _ _ _)) by lra. cbn [bind]. set (l := grad W (m * (1 - x)) rhol mul D rough) in *. set (q := grad W (m * x) rhog mug D rough) in *.
  assert (0 < l / q) by posr. rewrite (psqrt_ok (l / q)) by lra. cbn [bind]. rewrite (pdiv_ok rhog) by lra. cbn [bind]. rewrite (psqrt_ok (rhog / _)) by lra. cbn [bind]. set (co := cos (radians angle)) in *.
  assert (0 < D * g * co) by posr. assert (0 < sqrt (D * g * co)) by posr. rewrite (psqrt_ok (D * g * co)) by lra. cbn [bind]. rewrite (pdiv_ok _ (sqrt (D * g * co))) by lra. cbn [bind].
  rewrite (pdiv_ok mul rhol) by lra. cbn [bind]. assert (0 < (rhol - rhog) * g * co) by posr. rewrite (pdiv_ok l) by lra. cbn [bind]. assert (0 < l / ((rhol - rhog) * g * co)) by posr. rewrite (psqrt_ok (l / ((rhol - rhog) * g * co))) by lra. cbn [bind].
  intros H'. repeat match type of H' with bind ?a _ = Ok _ => destruct a eqn:?; cbn [bind] in H'; [|discriminate] end. injection H' as _ <- <- <- _. change (angle * (PI / 180)) with (radians angle). fold co.
  splits; [apply pow2_sqrt; lra|apply pow2_sqrt; lra|]. replace (superficial (m * x) rhog D) with (vel (m * x) rhog D). 2:{ unfold superficial, vel. do 2 f_equal. lits. field. }
  replace ((sqrt (rhog / (rhol - rhog)) * vel (m * x) rhog D / sqrt (D * g * co)) ^ 2) with (sqrt (rhog / (rhol - rhog)) ^ 2 * vel (m * x) rhog D ^ 2 / sqrt (D * g * co) ^ 2) by (field; lra). rewrite !pow2_sqrt by lra. reflexivity.
Qed.

(** ** Beggs and Brill *)
Ltac choose_first := match goal with |- context [bind (if Rltb ?h ?l then _ else _) _] => let B := fresh "B" in let t := fresh "t" in set (t := h); destruct (Rltb t l) eqn:B; [|apply Rltb_false in B]; cbn [bind] end.
Lemma holdup_ge regime lam Fr angle LV : regime = 0 \/ regime = 2 \/ regime = 3 -> 0 < lam <= 1 -> 0 < Fr -> 0 <= angle <= PI / 2 -> 0 < LV ->
  exists h, _Beggs_Brill_holdup regime lam Fr angle LV = Ok h /\ lam <= h.
Proof.
  intros Hr Hl HF Ha HLV. pose proof PI_RGT_0.
  assert (HS : 0 <= sin (1.8 * angle) <= 1). { split; [apply sin_ge_0; lits; lra|apply SIN_bound]. }
  assert (K : forall H0 C, lam <= H0 -> 0 <= C -> lam <= H0 * (1 + C * sin (1.8 * angle) * (1 - 1 / 3 * sin (1.8 * angle) * sin (1.8 * angle)))).
  { intros H0 C A B. set (s := sin (1.8 * angle)) in *. assert (0 <= C * s * (1 - 1 / 3 * s * s)) by (apply Rmult_le_pos; [apply Rmult_le_pos; lra|nra]). nra. }
  unfold _Beggs_Brill_holdup. destruct Hr as [->|[->| ->]].
  all: repeat match goal with |- context [Reqb ?a ?b] => first [rewrite (proj2 (Reqb_true a b)) by lra | rewrite (proj2 (Reqb_false a b)) by lra] end; cbv iota.
  all: destruct (Req_dec angle 0) as [->|HA]; [rewrite ?(proj2 (Rltb_false 0 0)), ?(proj2 (Rleb_true 0 0)), ?(proj2 (Reqb_true 0 0)) by lra | rewrite ?(proj2 (Rltb_true 0 angle)), ?(proj2 (Reqb_false angle 0)) by lra].
  all: cbn [andb orb]; cbv iota zeta; rewrite ?(ppow_ok lam), ?(ppow_ok Fr) by lra; cbn [bind].
  all: choose_first.
  all: rewrite ?(ppow_ok LV) by lra; cbn [bind]; rewrite plog_ok by (repeat apply Rmult_lt_0_compat; first [apply exp_pos | lits; lra]); cbn [bind].
  all: choose_first.
  all: eexists; split; [reflexivity|].
  all: first [apply K; lra | lra].
Qed.
(** the liquid moves slower than the mixture: level or uphill, the hold-up is at least the no-slip liquid fraction *)
Definition liquid_fraction (x rhol rhog : R) : R := (1 - x) / rhol / (x / rhog + (1 - x) / rhol).
Theorem C92_Beggs_Brill_positive W m x rhol rhog mul mug sigma P D angle rough L v : stream m x rhol rhog mul mug D rough -> 0 < x < 1 -> 0 < sigma -> 0 <= angle <= 90 -> 0 < L ->
  Beggs_Brill W m x rhol rhog mul mug sigma P D angle rough L 9.80665 false = Ok v ->
  0 < v /\ (0 < angle -> (rhol * liquid_fraction x rhol rhog + rhog * (1 - liquid_fraction x rhol rhog)) * 9.80665 * (L * sin (angle * PI / 180)) < v).
Proof.
  intros S Hx Hs Ha HL. pose proof S as [Hm _ Hrho Hmu HD Hr]. pose proof (area_pos D HD) as HA. pose proof PI_RGT_0 as HPi. assert (HX : 0 < 1 - x) by lra. destruct Hx as [Hx0 Hx1]. assert (Hrl : 0 < rhol) by lra. assert (Hrg : 0 < rhog) by lra.
  set (g := 9.80665). assert (Hg : 0 < g) by (unfold g; lits; lra). clearbody g.
  unfold Beggs_Brill. cbv zeta. rewrite (pdiv_ok (x * m)) by lra. cbn [bind]. rewrite (pdiv_ok ((1 - x) * m)) by lra. cbn [bind]. rewrite !(pdiv_ok _ (0.25 * PI * D * D)) by lra. cbn [bind].
  set (A := 0.25 * PI * D * D) in *. set (vg := x * m / rhog / A). set (vl := (1 - x) * m / rhol / A). assert (Hvg : 0 < vg) by (unfold vg; posr). assert (Hvl : 0 < vl) by (unfold vl; posr).
  assert (ELam : vl / (vg + vl) = liquid_fraction x rhol rhog). { unfold vl, vg, liquid_fraction. assert (0 < x * rhol + (1 - x) * rhog) by nra. field. splits; try lra. nra. }
  rewrite (pdiv_ok _ (g * D)) by posr. cbn [bind]. rewrite (pdiv_ok vl) by lra. cbn [bind]. rewrite ELam.
  assert (HLam : 0 < liquid_fraction x rhol rhog < 1). { rewrite <- ELam. split; [posr|]. apply Rmult_lt_reg_r with (vg + vl); [lra|]. unfold Rdiv. rewrite Rmult_assoc, Rinv_l by lra. lra. }
  set (lam := liquid_fraction x rhol rhog) in *. set (vm := vg + vl) in *. assert (Hvm : 0 < vm) by (unfold vm; lra). set (Fr := vm * vm / (g * D)). assert (HFr : 0 < Fr) by (unfold Fr; posr).
  rewrite !(ppow_ok lam) by lra. cbn [bind]. set (L1 := 316 * _). set (L2 := 0.0009252 * _). set (L3 := 0.1 * _). set (L4 := 0.5 * _).
  intros H. apply bind_Ok_inv in H; destruct H as (regime & ER & H). rewrite (pdiv_ok rhol) in H by posr. cbn [bind] in H. rewrite (psqrt_ok (rhol / _)) in H by (left; posr). cbn [bind] in H. rewrite psqrt_ok in H by apply sqrt_pos. cbn [bind] in H.
  set (LV := vl * sqrt (sqrt (rhol / (g * sigma)))) in *. assert (HLV : 0 < LV) by (unfold LV; posr).
  assert (Hth : 0 <= PI / 180 * angle <= PI / 2) by (split; nra). set (th := PI / 180 * angle) in *.
  apply bind_Ok_inv in H. destruct H as (Hl & EH & H).
  assert (HH : lam <= Hl).
  { assert (regime = 1 /\ L2 <= Fr <= L3 \/ regime = 0 \/ regime = 2 \/ regime = 3) as [[-> HF]|HR].
    { revert ER. destruct (Rltb lam 0.01 && _ || _)%bool; [intros E; injection E as <-; auto|]. destruct (Rleb 0.01 lam && (Rleb L2 Fr && Rleb Fr L3))%bool eqn:B.
      - intros E; injection E as <-. left. apply andb_prop in B. destruct B as [_ B]. apply andb_prop in B. destruct B as [B1 B2]. apply Rleb_true in B1, B2. auto.
      - do 2 match goal with |- (if ?c then _ else _) = _ -> _ => destruct c; [intros E; injection E as <-; auto|] end. discriminate. }
    - rewrite (proj2 (Reqb_true 1 1)) in EH by auto. cbn [negb] in EH. apply bind_Ok_inv in EH. destruct EH as (w & Ew & EH).
      destruct (Req_dec (L3 - L2) 0) as [Z|Z]; [rewrite Z, pdiv_0 in Ew; discriminate|]. rewrite pdiv_ok in Ew by auto. injection Ew as <-.
      destruct (holdup_ge 0 lam Fr th LV) as (h0 & E0 & P0); auto; try lra. destruct (holdup_ge 2 lam Fr th LV) as (h2 & E2 & P2); auto; try lra. rewrite E0, E2 in EH. cbn [bind] in EH. injection EH as <-.
      assert (0 <= (L3 - Fr) / (L3 - L2) <= 1). { split; [apply Rmult_le_pos; [lra|left; apply Rinv_0_lt_compat; lra]|]. apply Rmult_le_reg_r with (L3 - L2); [lra|]. unfold Rdiv. rewrite Rmult_assoc, Rinv_l by lra. lra. }
      set (w := (L3 - Fr) / (L3 - L2)) in *. nra.
    - rewrite (proj2 (Reqb_false regime 1)) in EH by (destruct HR as [->|[->| ->]]; lra). cbn [negb] in EH. destruct (holdup_ge regime lam Fr th LV) as (h0 & E0 & P0); auto; try lra. rewrite E0 in EH. injection EH as <-. exact P0. }
  set (rm := rhol * lam + rhog * (1 - lam)) in *. assert (Hrm : 0 < rm) by (unfold rm; nra). set (mm := mul * lam + mug * (1 - lam)) in *. assert (Hmm : 0 < mm) by (unfold mm; nra).
  rewrite (pdiv_ok (rm * D)) in H by lra. cbn [bind] in H. rewrite (pdiv_ok rough) in H by lra. cbn [bind] in H. destruct (friction_ok W (rm * D / mm * vm) (rough / D)) as (fn & Ef & Hf); [posr|auto|]. rewrite Ef in H. cbn [bind] in H.
  rewrite (pdiv_ok lam) in H by (apply Rgt_not_eq; nra). cbn [bind] in H. apply bind_Ok_inv in H. destruct H as (S0 & _ & H). apply bind_Ok_inv in H. destruct H as (S1 & _ & H). rewrite (pdiv_ok _ D) in H by lra. cbn [bind] in H. injection H as <-.
  assert (HT : 0 < fn * exp S1 * L / D * 0.5 * rm * vm * vm) by posr. set (t := fn * exp S1 * L / D * 0.5 * rm * vm * vm) in *.
  assert (HS : 0 <= sin th) by (apply sin_ge_0; lra). assert (HE : rm <= rhol * Hl + rhog * (1 - Hl)) by (unfold rm; nra).
  replace (angle * PI / 180) with th by (unfold th; field). set (s := sin th) in *.
  assert (HG : 0 <= g * s * L) by (apply Rmult_le_pos; [apply Rmult_le_pos; lra|lra]).
  assert (rm * (g * s * L) <= (rhol * Hl + rhog * (1 - Hl)) * (g * s * L)) by (apply Rmult_le_compat_r; auto).
  assert (0 <= rm * (g * s * L)) by (apply Rmult_le_pos; lra). split; [|intros _]; lra.
Qed.
(** the hold-up correlation is not confined to fractions: slow flow gives more liquid than pipe *)
Theorem C92_Beggs_Brill_holdup_refuted : exists h, _Beggs_Brill_holdup 0 (1 / 2) (1 / 10 ^ 10) 0 1 = Ok h /\ 1 < h.
Proof.
  unfold _Beggs_Brill_holdup. rewrite !(proj2 (Reqb_true 0 0)), (proj2 (Rltb_false 0 0)), (proj2 (Rleb_true 0 0)) by lra. cbn [andb orb]. cbv iota zeta. rewrite !(ppow_ok (1 / 2)), !(ppow_ok (1 / 10 ^ 10)), !(ppow_ok 1) by lra. cbn [bind].
  set (h := 0.98 * _ * _). assert (Hh : 1 < h).
  { unfold h. assert (1 / 2 < Rpower (1 / 2) 0.4846). { rewrite <- (Rpower_1 (1 / 2)) at 1 by lra. unfold Rpower. apply exp_increasing. assert (ln (1 / 2) < 0) by (rewrite <- ln_1; apply ln_increasing; lra). lits. nra. }
    assert (3 < Rpower (1 / 10 ^ 10) (- (0.0868))). { unfold Rpower. replace (1 / 10 ^ 10) with (/ 10 ^ 10) by lra. rewrite ln_Rinv by (apply pow_lt; lra). rewrite ln_pow by lra. replace (INR 10) with 10 by (cbn; lra). itv 40%nat. }
    set (p := Rpower (1 / 2) _) in *. set (q := Rpower _ (- (0.0868))) in *. lits. nra. }
  rewrite (proj2 (Rltb_false h _)) by lra. cbn [bind]. rewrite plog_ok by (repeat apply Rmult_lt_0_compat; first [apply exp_pos | lits; lra]). cbn [bind].
  match goal with |- context [if Rltb ?c 0 then _ else _] => destruct (Rltb c 0) end; cbn [bind]; eexists; (split; [reflexivity|lra]).
Qed.

Print Assumptions C92_named.
Print Assumptions C92_unknown.
Print Assumptions C92_default.
Print Assumptions C92_default_refused.
Print Assumptions C92_inclination_refuted.
Print Assumptions C92_acceleration_adds.
Print Assumptions C92_acceleration_homogeneous.
Print Assumptions C92_acceleration_dry_refuted.
Print Assumptions C92_gravity.
Print Assumptions C92_gravity_angles.
Print Assumptions C92_Mandhane.
Print Assumptions C92_Mandhane_order_refuted.
Print Assumptions C92_Taitel_Dukler.
Print Assumptions C92_Taitel_Dukler_parameters.
Print Assumptions C92_Beggs_Brill_positive.
Print Assumptions C92_Beggs_Brill_holdup_refuted.
