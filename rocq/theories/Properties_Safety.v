(** C34, C37: relief valve tables and correction factors (see /verif/properties.jsonl). *)
From Coq Require Import String List Bool QArith Qreals Reals ZArith Arith Lra Lia Psatz.
From Verif Require Import Base Sums Model_Numerics Model_Splines Proofs_Numerics Proofs_Splines Data_Safety Model_Tables Spec_Tables Proofs_Tables Proofs_Tables2 Proofs_Tables3.
Import ListNotations.
Local Open Scope R_scope.
Lemma QZ z : Q2R (inject_Z z) = IZR z. Proof. apply Q2R_Z. Qed.

Lemma div_between a b n d : 0 < d -> a * d <= n <= b * d -> a <= n / d <= b.
Proof. intros Hd [H1 H2]. split; (apply Rmult_le_reg_r with d; [auto|]); unfold Rdiv; rewrite Rmult_assoc, Rinv_l by lra; lra. Qed.

(** ** C34 *)
Definition orifice_areas : list R := map (fun a => Q2R a * (0.0254 * 0.0254)) API526_A_sq_inch.
Lemma orifice_model : @API526_A R _ = orifice_areas.
Proof. unfold API526_A, orifice_areas, tbl. rewrite map_map. reflexivity. Qed.
Lemma orifice_increasing : increasing (@API526_A R _).
Proof.
  unfold API526_A. apply increasing_scale; [|rewrite tbl_R; apply Qincr_ok; vm_compute; reflexivity].
  unfold inch. numR. unfold Q2R; simpl. lra.
Qed.
Theorem C34_API520_round_size A v : @API520_round_size R _ A = Ok v <->
  In v orifice_areas /\ A <= v /\ forall w, In w orifice_areas -> A <= w -> v <= w.
Proof.
  unfold API520_round_size. pose proof (first_at_least_spec (@API526_A R _) A orifice_increasing) as H. rewrite orifice_model in *.
  destruct (first_at_least A orifice_areas) as [u|e].
  - destruct H as (H1 & H2 & H3). split.
    + intros Q. injection Q as <-. splits; auto.
    + intros (V1 & V2 & V3). f_equal. apply Rle_antisym; auto.
  - destruct H as [_ H]. split; [discriminate|]. intros (V1 & V2 & _). specialize (H v V1). lra.
Qed.
Theorem C34_too_large A e : @API520_round_size R _ A = Err e <-> e = ValueError /\ forall w, In w orifice_areas -> w < A.
Proof.
  unfold API520_round_size. pose proof (first_at_least_spec (@API526_A R _) A orifice_increasing) as H. rewrite orifice_model in *.
  destruct (first_at_least A orifice_areas) as [u|e'].
  - destruct H as (H1 & H2 & H3). split; [discriminate|]. intros [_ H]. specialize (H u H1). lra.
  - destruct H as [-> H]. split; [intros Q; injection Q as <-; auto|intros [-> _]; reflexivity].
Qed.
Example C34_ex : @API520_round_size Q _ 2e-3%Q = Ok (Qred (3.60 * (0.0254 * 0.0254)))%Q /\ @API520_round_size Q _ 0.02%Q = Err ValueError.
Proof. split; vm_compute; reflexivity. Qed.

(** ** C37: high-pressure steam factor *)
Lemma API520_N_eval P : @API520_N R _ P = if Rle_dec (P / 1000) 10339 then Ok 1 else pydiv (0.02764 * (P / 1000) - 1000) (0.03324 * (P / 1000) - 1061).
Proof.
  unfold API520_N. numR. rewrite ?n1R. unfold Rleb. change 10339%Q with (inject_Z 10339). change 1000%Q with (inject_Z 1000). change 1061%Q with (inject_Z 1061).
  rewrite !QZ. rewrite m3. change (P * / 1000) with (P / 1000). destruct (Rle_dec (P / 1000) 10339); reflexivity.
Qed.
Theorem C37_API520_N_low P : P <= 10339e3 -> @API520_N R _ P = Ok 1.
Proof. intros H. rewrite API520_N_eval. destruct (Rle_dec (P / 1000) 10339); [reflexivity|]. exfalso. apply n. apply Rmult_le_reg_r with 1000; [lra|]. unfold Rdiv. rewrite Rmult_assoc, Rinv_l by lra. lra. Qed.
Lemma lits : 0.02764 = 2764 / 100000 /\ 0.03324 = 3324 / 100000 /\ 0.995 = 995 / 1000 /\ 1.2 = 12 / 10.
Proof. unfold Q2R; simpl. lra. Qed.
(** between 10339 and 22057 kPa: defined, within [0.995, 1.2], increasing *)
Theorem C37_API520_N_high P : 10339e3 < P <= 22057e3 -> exists k, @API520_N R _ P = Ok k /\ 0.995 <= k <= 1.2.
Proof.
  intros H. rewrite API520_N_eval. set (p := P / 1000). assert (Hp : 10339 < p <= 22057) by (unfold p; lra).
  destruct (Rle_dec p 10339); [lra|]. destruct lits as (-> & -> & -> & ->).
  rewrite pydivR_ok by lra. eexists; split; [reflexivity|].
  assert (D : 3324 / 100000 * p - 1061 < 0) by lra.
  replace ((2764 / 100000 * p - 1000) / (3324 / 100000 * p - 1061)) with ((1000 - 2764 / 100000 * p) / (1061 - 3324 / 100000 * p)) by (field; lra).
  assert (0 < 1061 - 3324 / 100000 * p) by lra.
  apply div_between; lra.
Qed.
Theorem C37_API520_N_increasing P P' k k' : 10339e3 < P -> P < P' -> P' <= 22057e3 -> @API520_N R _ P = Ok k -> @API520_N R _ P' = Ok k' -> k < k'.
Proof.
  intros H0 H1 H2. rewrite !API520_N_eval. set (p := P / 1000). set (p' := P' / 1000).
  assert (10339 < p) by (unfold p; lra). assert (p < p') by (unfold p, p'; lra). assert (p' <= 22057) by (unfold p'; lra).
  destruct (Rle_dec p 10339); [lra|]. destruct (Rle_dec p' 10339); [lra|]. destruct lits as (-> & -> & _ & _).
  rewrite !pydivR_ok by lra. intros E E'. injection E as <-. injection E' as <-.
  set (d := 1061 - 3324 / 100000 * p). set (d' := 1061 - 3324 / 100000 * p'). assert (0 < d) by (unfold d; lra). assert (0 < d') by (unfold d'; lra).
  apply Rminus_gt_0_lt.
  replace ((2764 / 100000 * p' - 1000) / (3324 / 100000 * p' - 1061) - (2764 / 100000 * p - 1000) / (3324 / 100000 * p - 1061)) with
    ((1000 * (3324 / 100000) - 1061 * (2764 / 100000)) * (p' - p) / (d * d')) by (unfold d, d'; field; unfold d, d' in *; lra).
  apply Rmult_lt_0_compat; [apply Rmult_lt_0_compat; lra|]. apply Rinv_0_lt_compat. now apply Rmult_lt_0_compat.
Qed.
(** the factor is not monotone across the threshold, and the formula's pole is not guarded *)
Theorem C37_API520_N_jump_refuted : exists P P' k', P < P' /\ @API520_N R _ P = Ok 1 /\ @API520_N R _ P' = Ok k' /\ k' < 1.
Proof.
  exists 10339e3, 10340e3. eexists. split; [lra|]. split; [apply C37_API520_N_low; lra|]. rewrite API520_N_eval. destruct (Rle_dec (10340e3 / 1000) 10339); [lra|].
  destruct lits as (-> & -> & _ & _). rewrite pydivR_ok by lra. split; [reflexivity|].
  apply Rminus_gt_0_lt. match goal with |- 0 < 1 - ?a / ?b => replace (1 - a / b) with ((a - b) / (- b)) by (field; lra) end. apply Rmult_lt_0_compat; [lra|]. apply Rinv_0_lt_compat. lra.
Qed.
Theorem C37_API520_N_pole_refuted : exists P, 10339e3 < P /\ @API520_N R _ P = Err ZeroDivisionError.
Proof.
  exists (1061 / 0.03324 * 1000). destruct lits as (A & B & _). split; [rewrite B; lra|]. rewrite API520_N_eval.
  destruct (Rle_dec (1061 / 0.03324 * 1000 / 1000) 10339) as [H|H]; [rewrite B in H; lra|]. unfold pydiv. numR.
  assert (Reqb (0.03324 * (1061 / 0.03324 * 1000 / 1000) - 1061) 0 = true) as ->; [|reflexivity]. apply Reqb_true. rewrite B. field.
Qed.

(** ** C37: superheat factor *)
Lemma sh7_surface : Qsurface _KSH_tempKs_7E _KSH_Pa_7E _KSH_factors_7E = true. Proof. vm_compute. reflexivity. Qed.
Lemma sh10_surface : Qsurface _KSH_K_10E _KSH_Pa_10E _KSH_factors_10E = true. Proof. vm_compute. reflexivity. Qed.
Lemma sh7_rows : forallb (fun r => Qnonincr r && Qbetween 0.62 1 r) _KSH_factors_7E = true. Proof. vm_compute. reflexivity. Qed.
Lemma sh10_rows : forallb (fun r => Qnonincr r && Qbetween 0.627 1 r) _KSH_factors_10E = true. Proof. vm_compute. reflexivity. Qed.
Lemma sh_eval xs ys z (m : Q) : Qsurface xs ys z = true -> forallb (fun r => Qnonincr r && Qbetween m 1 r) z = true ->
  exists tx ty c, tck_interp2d_linear (tbl xs) (tbl ys) (map (@tbl R _) z) = Ok (tx, ty, c) /\
  (forall x y, exists v, bisplev tx ty c 1 1 x y = Ok v /\ Q2R m <= v <= 1) /\
  (forall x x' y v v', x <= x' -> bisplev tx ty c 1 1 x y = Ok v -> bisplev tx ty c 1 1 x' y = Ok v' -> v' <= v).
Proof.
  intros H K. destruct (Qsurface_ok _ _ _ H) as (A & B & C & D & E & F). rewrite forallb_forall in K.
  assert (K' : forall r, In r (map (map Q2R) z) -> nonincreasing r /\ forall v, In v r -> Q2R m <= v <= 1).
  { intros r Hr. apply in_map_iff in Hr. destruct Hr as (q & <- & Hq). specialize (K _ Hq). apply andb_prop in K. destruct K as [K1 K2]. split; [now apply Qnonincr_ok|].
    intros v Hv. apply (In_nth _ _ 0) in Hv. destruct Hv as (i & Hi & <-). rewrite <- Q2R_1. apply (Qbetween_ok m 1); auto. }
  destruct (surface_bounds _ _ _ (Q2R m) 1 A B C D E F) as (tx & ty & c & T & S1); [intros r v Hr Hv; now apply (K' r Hr)|].
  destruct (surface_anti _ _ _ A B C D E F) as (tx' & ty' & c' & T' & S2); [intros r Hr; now apply K'|].
  rewrite T in T'. injection T' as <- <- <-. exists tx, ty, c. splits; auto.
Qed.
Definition sh_Tmin (e : edition_arg) : R := match e with E7 => 422.15 | _ => 478.15 end.
Definition sh_Pmax (e : edition_arg) : R := match e with E7 => 20780325 | _ => 22063223.338138755 end.
Lemma sh_formula : exists tx ty c tx' ty' c',
  (forall x y, exists v, bisplev tx ty c 1 1 x y = Ok v /\ 0.62 <= v <= 1) /\
  (forall x x' y v v', x <= x' -> bisplev tx ty c 1 1 x y = Ok v -> bisplev tx ty c 1 1 x' y = Ok v' -> v' <= v) /\
  (forall x y, exists v, bisplev tx' ty' c' 1 1 x y = Ok v /\ 0.627 <= v <= 1) /\
  (forall x x' y v v', x <= x' -> bisplev tx' ty' c' 1 1 x y = Ok v -> bisplev tx' ty' c' 1 1 x' y = Ok v' -> v' <= v) /\
  forall T P e, @API520_SH R _ T P e =
    if Rlt_dec 922.15 T then Err ValueError else match e with
    | E7 => if Rlt_dec (sh_Pmax E7) P then Err ValueError else if Rlt_dec T (sh_Tmin E7) then Ok 1 else bisplev tx ty c 1 1 T P
    | E10 => if Rlt_dec T (sh_Tmin E10) then Ok 1 else if Rlt_dec (sh_Pmax E10) P then Err ValueError else bisplev tx' ty' c' 1 1 T P
    | EOther => Err ValueError end.
Proof.
  destruct (sh_eval _ _ _ _ sh7_surface sh7_rows) as (tx & ty & c & T1 & B1 & M1). destruct (sh_eval _ _ _ _ sh10_surface sh10_rows) as (tx' & ty' & c' & T2 & B2 & M2).
  exists tx, ty, c, tx', ty', c'. splits; auto. intros T P e. unfold API520_SH. rewrite T1, T2. cbn [bind]. numR. rewrite ?n1R. unfold Rltb, sh_Pmax, sh_Tmin.
  change 20780325%Q with (inject_Z 20780325). rewrite QZ.
  destruct (Rlt_dec 922.15 T); [reflexivity|]. destruct e; auto.
  - destruct (Rlt_dec 20780325 P); [reflexivity|]. destruct (Rlt_dec T 422.15); reflexivity.
  - destruct (Rlt_dec T 478.15); [reflexivity|]. destruct (Rlt_dec 22063223.338138755 P); reflexivity.
Qed.
(** the factor exists exactly for temperatures up to 922.15 K, an edition 7E or 10E, and pressures up to the table's limit
    (which 10E checks only from 478.15 K); it lies in [0.62, 1] and is 1 for saturated steam *)
Theorem C37_API520_SH T P e : 
  ((exists k, @API520_SH R _ T P e = Ok k) <-> T <= 922.15 /\ (e = E7 \/ e = E10) /\ (P <= sh_Pmax e \/ (e = E10 /\ T < 478.15))) /\
  (forall k, @API520_SH R _ T P e = Ok k -> 0.62 <= k <= 1 /\ (T < sh_Tmin e -> k = 1)) /\
  (forall x, @API520_SH R _ T P e = Err x -> x = ValueError).
Proof.
  destruct sh_formula as (tx & ty & c & tx' & ty' & c' & B1 & _ & B2 & _ & E). rewrite E.
  assert (L : 0.62 <= 0.627 /\ 0.62 <= 1) by (unfold Q2R; simpl; lra).
  destruct (Rlt_dec 922.15 T) as [H|H].
  { splits; try (intros ? Q; try discriminate Q; congruence). split; [intros [k Q]; discriminate Q|intros [Q _]; lra]. }
  destruct e.
  - destruct (Rlt_dec (sh_Pmax E7) P) as [HP|HP].
    { splits; try (intros ? Q; try discriminate Q; congruence). split; [intros [k Q]; discriminate Q|]. intros (_ & _ & [Q|[Q _]]); [lra|discriminate]. }
    destruct (Rlt_dec T (sh_Tmin E7)) as [HT|HT].
    { splits; try (intros ? Q; discriminate Q). 2: intros k Q; injection Q as <-; split; [lra|auto]. split; eauto. intros _. splits; auto; [lra|left; lra]. }
    destruct (B1 T P) as (v & V1 & V2). rewrite V1. splits; try (intros ? Q; discriminate Q). 2: intros k Q; injection Q as <-; split; [lra|intros; lra].
    split; eauto. intros _. splits; auto; [lra|left; lra].
  - destruct (Rlt_dec T (sh_Tmin E10)) as [HT|HT]; cbn [sh_Tmin] in *.
    { splits; try (intros ? Q; discriminate Q). 2: intros k Q; injection Q as <-; split; [lra|auto]. split; eauto. intros _. splits; auto; lra. }
    destruct (Rlt_dec (sh_Pmax E10) P) as [HP|HP].
    { splits; try (intros ? Q; try discriminate Q; congruence). split; [intros [k Q]; discriminate Q|]. intros (_ & _ & [Q|[_ Q]]); lra. }
    destruct (B2 T P) as (v & V1 & V2). rewrite V1. splits; try (intros ? Q; discriminate Q). 2: intros k Q; injection Q as <-; split; [lra|intros; lra].
    split; eauto. intros _. splits; auto; [lra|left; lra].
  - splits; try (intros ? Q; try discriminate Q; congruence). split; [intros [k Q]; discriminate Q|]. intros (_ & [Q|Q] & _); discriminate.
Qed.
Theorem C37_API520_SH_nonincreasing T T' P e k k' : T <= T' -> @API520_SH R _ T P e = Ok k -> @API520_SH R _ T' P e = Ok k' -> k' <= k.
Proof.
  intros HT E1 E2. pose proof (proj1 (proj2 (C37_API520_SH T P e)) _ E1) as [_ R1]. pose proof (proj1 (proj2 (C37_API520_SH T' P e)) _ E2) as [R2 _].
  destruct (Rlt_dec T (sh_Tmin e)) as [Hm|Hm]; [rewrite (R1 Hm); lra|].
  destruct sh_formula as (tx & ty & c & tx' & ty' & c' & _ & M1 & _ & M2 & E). rewrite E in E1, E2.
  destruct (Rlt_dec 922.15 T); [discriminate|]. destruct (Rlt_dec 922.15 T'); [discriminate|]. destruct e; [| |discriminate].
  - destruct (Rlt_dec (sh_Pmax E7) P); [discriminate|]. destruct (Rlt_dec T (sh_Tmin E7)); [lra|]. destruct (Rlt_dec T' (sh_Tmin E7)); [lra|]. apply (M1 T T' P); auto.
  - destruct (Rlt_dec T (sh_Tmin E10)); [lra|]. destruct (Rlt_dec T' (sh_Tmin E10)); [lra|]. destruct (Rlt_dec (sh_Pmax E10) P); [discriminate|]. apply (M2 T T' P); auto.
Qed.
(** 10E accepts any pressure below 478.15 K *)
Theorem C37_API520_SH_pressure_limit_refuted P : sh_Pmax E10 < P -> @API520_SH R _ 450 P E10 = Ok 1 /\ @API520_SH R _ 500 P E10 = Err ValueError.
Proof.
  intros H. destruct sh_formula as (tx & ty & c & tx' & ty' & c' & _ & _ & _ & _ & E). rewrite !E. cbn [sh_Tmin].
  assert (450 < 478.15 /\ 478.15 < 500 /\ 500 < 922.15) by (unfold Q2R; simpl; lra).
  destruct (Rlt_dec 922.15 450); [lra|]. destruct (Rlt_dec 922.15 500); [lra|]. destruct (Rlt_dec 450 478.15); [|lra]. destruct (Rlt_dec 500 478.15); [lra|].
  destruct (Rlt_dec (sh_Pmax E10) P); [auto|lra].
Qed.

(** ** C37: back pressure factors.  [gauge_percent] is the back pressure in percent of the set pressure, both gauge *)
Definition gauge_percent (Pset Pback : R) : R := (Pback - 101325) / (Pset - 101325) * 100.
Lemma kb_facts x y (m : Q) : Qincr x && Qnonincr y && Qbetween m 1 y && Nat.eqb (List.length x) (List.length y) && Nat.leb 2 (List.length x) = true ->
  increasing (map Q2R x) /\ nonincreasing (map Q2R y) /\ List.length (map Q2R x) = List.length (map Q2R y) /\ (2 <= List.length (map Q2R x))%nat /\
  (forall g, exists v, interp g (map Q2R x) (map Q2R y) None None false = Ok v /\ Q2R m <= v <= 1).
Proof.
  intros K. rewrite !andb_true_iff in K. destruct K as ((((K1 & K2) & K3) & K4) & K5). apply Nat.eqb_eq in K4. apply Nat.leb_le in K5.
  assert (A : increasing (map Q2R x)) by now apply Qincr_ok. assert (L : List.length (map Q2R x) = List.length (map Q2R y)) by (rewrite !map_length; auto).
  assert (L2 : (2 <= List.length (map Q2R x))%nat) by (rewrite map_length; auto). splits; auto; [now apply Qnonincr_ok|].
  intros g. apply interp_bounds; auto. intros i Hi. rewrite <- Q2R_1. now apply (Qbetween_ok m 1).
Qed.
Lemma kb10 : Qincr Kb_10_over_x && Qnonincr Kb_10_over_y && Qbetween 0.695076 1 Kb_10_over_y && Nat.eqb (List.length Kb_10_over_x) (List.length Kb_10_over_y) && Nat.leb 2 (List.length Kb_10_over_x) = true. Proof. vm_compute. reflexivity. Qed.
Lemma kb16 : Qincr Kb_16_over_x && Qnonincr Kb_16_over_y && Qbetween 0.90625 1 Kb_16_over_y && Nat.eqb (List.length Kb_16_over_x) (List.length Kb_16_over_y) && Nat.leb 2 (List.length Kb_16_over_x) = true. Proof. vm_compute. reflexivity. Qed.
Lemma kw : Qincr Kw_x && Qnonincr Kw_y && Qbetween 0.666357 1 Kw_y && Nat.eqb (List.length Kw_x) (List.length Kw_y) && Nat.leb 2 (List.length Kw_x) = true. Proof. vm_compute. reflexivity. Qed.
Definition f10 (g : R) := interp g (map Q2R Kb_10_over_x) (map Q2R Kb_10_over_y) None None false.
Definition f16 (g : R) := interp g (map Q2R Kb_16_over_x) (map Q2R Kb_16_over_y) None None false.
Definition fw (g : R) := interp g (map Q2R Kw_x) (map Q2R Kw_y) None None false.
Lemma atmR : @atm R _ = 101325. Proof. unfold atm. numR. change 101325%Q with (inject_Z 101325). apply QZ. Qed.
Lemma percentR Pset Pback : Pset <> 101325 -> (q <- @pydiv R _ (Pback - 101325) (Pset - 101325) ;; Ok (q * 100)) = Ok (gauge_percent Pset Pback).
Proof. intros H. rewrite pydivR_ok by lra. reflexivity. Qed.
Lemma API520_B_eval Pset Pback over : Pset <> 101325 -> @API520_B R _ Pset Pback over =
  let g := gauge_percent Pset Pback in
  if Req_EM_T over 0.1 then (if Rlt_dec g 30 then Ok 1 else if Rlt_dec 50 g then Err ValueError else f10 g)
  else if Req_EM_T over 0.16 then (if Rlt_dec g 38 then Ok 1 else if Rlt_dec 50 g then Err ValueError else f16 g)
  else if Req_EM_T over 0.21 then (if Rlt_dec 50 g then Err ValueError else Ok 1)
  else Err ValueError.
Proof.
  intros H. unfold API520_B. rewrite atmR. numR. rewrite pydivR_ok by lra. cbn [bind].
  change 100%Q with (inject_Z 100). change 30%Q with (inject_Z 30). change 38%Q with (inject_Z 38). change 50%Q with (inject_Z 50). rewrite !QZ, ?n1R, !tbl_R.
  fold (gauge_percent Pset Pback). cbv zeta. set (g := gauge_percent Pset Pback). fold (f10 g) (f16 g).
  assert (0.1 <> 0.16 /\ 0.1 <> 0.21 /\ 0.16 <> 0.21) as (N1 & N2 & N3) by (unfold Q2R; simpl; lra).
  unfold Reqb, Rltb, Rleb.
  destruct (Req_EM_T over 0.1) as [->|O1].
  { destruct (Req_EM_T 0.1 0.16); [contradiction|]. destruct (Req_EM_T 0.1 0.21); [contradiction|]. cbn [andb orb negb].
    destruct (Rlt_dec g 30), (Rlt_dec g 38), (Rlt_dec 50 g); try reflexivity; lra. }
  destruct (Req_EM_T over 0.16) as [->|O2].
  { destruct (Req_EM_T 0.16 0.21); [contradiction|]. cbn [andb orb negb]. destruct (Rlt_dec g 30), (Rlt_dec g 38), (Rlt_dec 50 g); try reflexivity; lra. }
  destruct (Req_EM_T over 0.21) as [->|O3].
  { cbn [andb orb negb]. destruct (Rlt_dec 50 g), (Rle_dec g 50); try reflexivity; lra. }
  reflexivity.
Qed.
(** balanced gas/vapour valves: within [0.695, 1] for 10 % overpressure, [0.906, 1] for 16 %, always 1 for 21 %;
    ValueError exactly above 50 % back pressure or for another overpressure *)
Theorem C37_API520_B Pset Pback over : Pset <> 101325 -> let g := gauge_percent Pset Pback in
  ((exists k, @API520_B R _ Pset Pback over = Ok k) <-> In over [0.1; 0.16; 0.21] /\ g <= 50) /\
  (forall k, @API520_B R _ Pset Pback over = Ok k -> 0.695076 <= k <= 1 /\ (over = 0.16 -> 0.90625 <= k) /\ (over = 0.21 -> k = 1) /\
     (g < 30 -> k = 1) /\ (over = 0.16 -> g < 38 -> k = 1)) /\
  (forall e, @API520_B R _ Pset Pback over = Err e -> e = ValueError).
Proof.
  intros H. cbv zeta. rewrite API520_B_eval by auto. cbv zeta. set (g := gauge_percent Pset Pback).
  assert (0.1 <> 0.16 /\ 0.1 <> 0.21 /\ 0.16 <> 0.21 /\ 0.695076 < 0.90625 < 1) as (N1 & N2 & N3 & N4) by (unfold Q2R; simpl; lra).
  pose proof (kb_facts _ _ _ kb10) as (_ & _ & _ & _ & F10). pose proof (kb_facts _ _ _ kb16) as (_ & _ & _ & _ & F16).
  destruct (Req_EM_T over 0.1) as [->|O1].
  { destruct (Rlt_dec g 30).
    { splits; [split; [intros _; split; [simpl; auto|lra]|eauto]|intros k Q; injection Q as <-; splits; auto; lra|discriminate]. }
    destruct (Rlt_dec 50 g).
    { splits; [split; [intros [k Q]; discriminate Q|intros [_ Q]; lra]|discriminate|congruence]. }
    destruct (F10 g) as (v & V1 & V2). fold (f10 g) in V1. rewrite V1. splits; [split; [intros _; split; [simpl; auto|lra]|eauto]| |discriminate].
    intros k Q. injection Q as <-. splits; auto; try lra; try contradiction. all: intros Q; try contradiction; lra. }
  destruct (Req_EM_T over 0.16) as [->|O2].
  { destruct (Rlt_dec g 38).
    { splits; [split; [intros _; split; [simpl; auto|lra]|eauto]|intros k Q; injection Q as <-; splits; auto; lra|discriminate]. }
    destruct (Rlt_dec 50 g).
    { splits; [split; [intros [k Q]; discriminate Q|intros [_ Q]; lra]|discriminate|congruence]. }
    destruct (F16 g) as (v & V1 & V2). fold (f16 g) in V1. rewrite V1. splits; [split; [intros _; split; [simpl; auto|lra]|eauto]| |discriminate].
    intros k Q. injection Q as <-. splits; auto; try lra; try contradiction. all: intros Q; try contradiction; lra. }
  destruct (Req_EM_T over 0.21) as [->|O3].
  { destruct (Rlt_dec 50 g).
    { splits; [split; [intros [k Q]; discriminate Q|intros [_ Q]; lra]|discriminate|congruence]. }
    splits; [split; [intros _; split; [simpl; auto|lra]|eauto]|intros k Q; injection Q as <-; splits; auto; lra|discriminate]. }
  splits; [split; [intros [k Q]; discriminate Q|]|discriminate|congruence]. intros [[Q|[Q|[Q|[]]]] _]; exfalso; auto.
Qed.
(** more back pressure never increases the factor; more overpressure never decreases it *)
Lemma gauge_percent_mono Pset Pb Pb' : 101325 < Pset -> Pb <= Pb' -> gauge_percent Pset Pb <= gauge_percent Pset Pb'.
Proof. intros H Hb. unfold gauge_percent. apply Rmult_le_compat_r; [lra|]. apply Rmult_le_compat_r; [apply Rlt_le, Rinv_0_lt_compat; lra|lra]. Qed.
Theorem C37_API520_B_nonincreasing Pset Pb Pb' over k k' : 101325 < Pset -> Pb <= Pb' ->
  @API520_B R _ Pset Pb over = Ok k -> @API520_B R _ Pset Pb' over = Ok k' -> k' <= k.
Proof.
  intros H Hb. pose proof (gauge_percent_mono Pset Pb Pb' H Hb) as G. pose proof (C37_API520_B Pset Pb' over ltac:(lra)) as (_ & B & _).
  intros E E'. specialize (B _ E'). revert E E'. rewrite !API520_B_eval by lra. cbv zeta. set (g := gauge_percent Pset Pb) in *. set (g' := gauge_percent Pset Pb') in *.
  pose proof (kb_facts _ _ _ kb10) as (I1 & I2 & I3 & I4 & F10). pose proof (kb_facts _ _ _ kb16) as (J1 & J2 & J3 & J4 & F16).
  destruct (Req_EM_T over 0.1) as [->|O1].
  { destruct (Rlt_dec g 30), (Rlt_dec g' 30), (Rlt_dec 50 g), (Rlt_dec 50 g'); try lra; intros E E'; try discriminate; try (injection E as <-); try (injection E' as <-); try lra.
    apply (interp_anti g g' _ _ k k' I1 I3 I4 I2 G); auto. }
  destruct (Req_EM_T over 0.16) as [->|O2].
  { destruct (Rlt_dec g 38), (Rlt_dec g' 38), (Rlt_dec 50 g), (Rlt_dec 50 g'); try lra; intros E E'; try discriminate; try (injection E as <-); try (injection E' as <-); try lra.
    apply (interp_anti g g' _ _ k k' J1 J3 J4 J2 G); auto. }
  destruct (Req_EM_T over 0.21) as [->|O3]; [|discriminate].
  destruct (Rlt_dec 50 g), (Rlt_dec 50 g'); intros E E'; try discriminate. injection E as <-. injection E' as <-. lra.
Qed.
Theorem C37_API520_B_overpressure Pset Pb k10 k16 k21 : Pset <> 101325 ->
  @API520_B R _ Pset Pb 0.1 = Ok k10 -> @API520_B R _ Pset Pb 0.16 = Ok k16 -> @API520_B R _ Pset Pb 0.21 = Ok k21 -> k10 <= k16 <= k21.
Proof.
  intros H E10 E16 E21. pose proof (C37_API520_B Pset Pb 0.16 H) as (_ & B & _). pose proof (C37_API520_B Pset Pb 0.21 H) as (_ & C & _). pose proof (C37_API520_B Pset Pb 0.1 H) as (_ & A & _).
  specialize (B _ E16). specialize (C _ E21). specialize (A _ E10). destruct C as (C1 & _ & C2 & _). destruct A as (A1 & _). split; [|rewrite C2 by auto; lra].
  revert E10 E16. rewrite !API520_B_eval by auto. cbv zeta. set (g := gauge_percent Pset Pb) in *.
  assert (0.1 <> 0.16) as N1 by (unfold Q2R; simpl; lra).
  destruct (Req_EM_T 0.1 0.1) as [_|n]; [|congruence]. destruct (Req_EM_T 0.16 0.1) as [Q|_]; [congruence|]. destruct (Req_EM_T 0.16 0.16) as [_|n]; [|congruence].
  destruct (Rlt_dec g 38) as [G|G].
  { intros _ E. injection E as <-. lra. }
  destruct (Rlt_dec g 30); [lra|]. destruct (Rlt_dec 50 g); [discriminate|]. intros E10 _.
  pose proof (kb_facts _ _ _ kb10) as (I1 & I2 & I3 & I4 & F10).
  assert (N : interp (at_ (map Q2R Kb_10_over_x) 16) (map Q2R Kb_10_over_x) (map Q2R Kb_10_over_y) None None false = Ok (at_ (map Q2R Kb_10_over_y) 16)).
  { apply interp_node; auto. vm_compute. lia. }
  assert (X : at_ (map Q2R Kb_10_over_x) 16 <= 38). { rewrite at_map by (vm_compute; lia). rewrite <- QZ. apply Qle_lit. vm_compute. reflexivity. }
  assert (Y : at_ (map Q2R Kb_10_over_y) 16 <= 0.90625). { rewrite at_map by (vm_compute; lia). apply Qle_lit. vm_compute. reflexivity. }
  assert (k10 <= at_ (map Q2R Kb_10_over_y) 16) by (apply (interp_anti (at_ (map Q2R Kb_10_over_x) 16) g _ _ _ _ I1 I3 I4 I2); auto; lra).
  destruct B as (_ & B & _). specialize (B eq_refl). lra.
Qed.
(** a set pressure equal to the atmospheric pressure is not guarded *)
Theorem C37_API520_B_atmospheric_set_refuted Pback over : @API520_B R _ 101325 Pback over = Err ZeroDivisionError /\ @API520_W R _ 101325 Pback = Err ZeroDivisionError.
Proof. unfold API520_B, API520_W. rewrite atmR. numR. rewrite Rminus_eq_0. rewrite pydivR_0 by reflexivity. split; reflexivity. Qed.
(** balanced liquid valves *)
Lemma API520_W_eval Pset Pback : Pset <> 101325 -> @API520_W R _ Pset Pback = let g := gauge_percent Pset Pback in if Rlt_dec g 15 then Ok 1 else fw g.
Proof.
  intros H. unfold API520_W. rewrite atmR. numR. rewrite pydivR_ok by lra. cbn [bind]. change 100%Q with (inject_Z 100). change 15%Q with (inject_Z 15). rewrite !QZ, ?n1R, !tbl_R.
  fold (gauge_percent Pset Pback). cbv zeta. unfold Rltb, fw. destruct (Rlt_dec _ 15); reflexivity.
Qed.
Theorem C37_API520_W Pset Pback : Pset <> 101325 -> exists k, @API520_W R _ Pset Pback = Ok k /\ 0.666357 <= k <= 1 /\ (gauge_percent Pset Pback <= 15 -> k = 1).
Proof.
  intros H. rewrite API520_W_eval by auto. cbv zeta. pose proof (kb_facts _ _ _ kw) as (I1 & I2 & I3 & I4 & F). set (g := gauge_percent Pset Pback).
  assert (0.666357 <= 1) by (unfold Q2R; simpl; lra).
  destruct (Rlt_dec g 15); [eexists; split; [reflexivity|split; auto; lra]|]. destruct (F g) as (v & V1 & V2). exists v. splits; auto; try tauto.
  intros Hg. assert (g = at_ (map Q2R Kw_x) 0) as E. { rewrite at_map by (vm_compute; lia). assert (g = 15) as -> by lra. rewrite <- QZ. apply Qeq_lit. vm_compute. reflexivity. }
  rewrite E, interp_node in V1 by (auto; vm_compute; lia). assert (v = at_ (map Q2R Kw_y) 0) as -> by congruence. rewrite at_map by (vm_compute; lia). rewrite <- Q2R_1. apply Qeq_lit. vm_compute. reflexivity.
Qed.
Theorem C37_API520_W_nonincreasing Pset Pb Pb' k k' : 101325 < Pset -> Pb <= Pb' -> @API520_W R _ Pset Pb = Ok k -> @API520_W R _ Pset Pb' = Ok k' -> k' <= k.
Proof.
  intros H Hb E E'. pose proof (gauge_percent_mono Pset Pb Pb' H Hb) as G. destruct (C37_API520_W Pset Pb' ltac:(lra)) as (k2 & K2 & R2 & _). rewrite E' in K2. injection K2 as <-.
  revert E E'. rewrite !API520_W_eval by lra. cbv zeta. pose proof (kb_facts _ _ _ kw) as (I1 & I2 & I3 & I4 & F).
  destruct (Rlt_dec (gauge_percent Pset Pb) 15); intros E.
  - injection E as <-. intros _. lra.
  - destruct (Rlt_dec (gauge_percent Pset Pb') 15); [lra|]. intros E'. apply (interp_anti _ _ _ _ k k' I1 I3 I4 I2 G); auto.
Qed.
(** above 50 % the liquid factor silently stays at its last value, where the gas factor raises *)
Theorem C37_API520_W_above_table_refuted Pset Pback : Pset <> 101325 -> 50 <= gauge_percent Pset Pback -> @API520_W R _ Pset Pback = Ok 0.666357.
Proof.
  intros H G. rewrite API520_W_eval by auto. cbv zeta. destruct (Rlt_dec _ 15); [lra|]. pose proof (kb_facts _ _ _ kw) as (I1 & I2 & I3 & I4 & F).
  unfold fw. assert (N : map Q2R Kw_x <> []) by discriminate.
  assert (X : at_ (map Q2R Kw_x) (List.length (map Q2R Kw_x) - 1) = 50) by (rewrite at_map by (vm_compute; lia); rewrite <- QZ; apply Qeq_lit; vm_compute; reflexivity).
  assert (Y : at_ (map Q2R Kw_y) (List.length (map Q2R Kw_x) - 1) = 0.666357) by (rewrite at_map by (vm_compute; lia); apply Qeq_lit; vm_compute; reflexivity).
  destruct (Req_dec (gauge_percent Pset Pback) 50) as [Q|Q].
  - rewrite Q, <- X, interp_node by (auto; lia). now rewrite Y.
  - rewrite interp_above by (auto; lra). rewrite <- I3, Y. reflexivity.
Qed.
Example C37_ex : @API520_B Q _ 1e6%Q 5e5%Q 0.21%Q = Ok 1%Q /\
  match @API520_W Q _ 1e6%Q 3e5%Q with Ok k => Qltb 0.951147184%Q k && Qltb k 0.951147185%Q | _ => false end = true /\
  match @API520_SH Q _ 593%Q 1066325%Q E7 with Ok k => Qltb 0.72%Q k && Qltb k 1%Q | _ => false end = true /\
  match @API520_N Q _ 1774700%Q with Ok k => Qeq_bool k 1%Q | _ => false end = true.
Proof. repeat split; vm_compute; reflexivity. Qed.

Print Assumptions C34_API520_round_size.
Print Assumptions C34_too_large.
Print Assumptions C37_API520_N_low.
Print Assumptions C37_API520_N_high.
Print Assumptions C37_API520_N_increasing.
Print Assumptions C37_API520_N_jump_refuted.
Print Assumptions C37_API520_N_pole_refuted.
Print Assumptions C37_API520_SH.
Print Assumptions C37_API520_SH_nonincreasing.
Print Assumptions C37_API520_SH_pressure_limit_refuted.
Print Assumptions C37_API520_B.
Print Assumptions C37_API520_B_nonincreasing.
Print Assumptions C37_API520_B_overpressure.
Print Assumptions C37_API520_B_atmospheric_set_refuted.
Print Assumptions C37_API520_W.
Print Assumptions C37_API520_W_nonincreasing.
Print Assumptions C37_API520_W_above_table_refuted.
