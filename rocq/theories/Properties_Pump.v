(** C33, C35, C36: electric motors (see /verif/properties.jsonl). *)
From Coq Require Import String List Bool QArith Qreals Reals ZArith Arith Lra Lia Psatz.
From Verif Require Import Base Sums Model_Numerics Model_Splines Proofs_Numerics Proofs_Splines Properties_Splines Data_Pump Model_Tables Spec_Tables Proofs_Tables Proofs_Tables2 Proofs_Tables3 Proofs_Pump.
Import ListNotations.
Local Open Scope R_scope.

Lemma Ok_inj {A} (a b : A) : Ok a = Ok b -> a = b. Proof. congruence. Qed.
(** ** C33.  [horsepower] is 550 ft lbf/s (Proofs_Pump.v, horsepower_value: between 745.69987 and 745.69988 W). *)
Definition motor_sizes : list R := map (fun h => Q2R h * horsepower) nema_sizes_hp.
Lemma motor_sizes_model : @nema_sizes R _ = motor_sizes.
Proof. unfold nema_sizes, motor_sizes, tbl. rewrite map_map. reflexivity. Qed.
Theorem C33_motor_round_size P v : @motor_round_size R _ P = Ok v <->
  In v motor_sizes /\ P <= v /\ forall w, In w motor_sizes -> P <= w -> v <= w.
Proof.
  unfold motor_round_size. pose proof (first_at_least_spec (@nema_sizes R _) P nema_increasing) as H. rewrite motor_sizes_model in *.
  destruct (first_at_least P motor_sizes) as [u|e].
  - destruct H as (H1 & H2 & H3). split.
    + intros Q. injection Q as <-. splits; auto.
    + intros (V1 & V2 & V3). f_equal. apply Rle_antisym; auto.
  - destruct H as [_ H]. split; [discriminate|]. intros (V1 & V2 & _). specialize (H v V1). lra.
Qed.
Theorem C33_too_large P e : @motor_round_size R _ P = Err e <-> e = ValueError /\ forall w, In w motor_sizes -> w < P.
Proof.
  unfold motor_round_size. pose proof (first_at_least_spec (@nema_sizes R _) P nema_increasing) as H. rewrite motor_sizes_model in *.
  destruct (first_at_least P motor_sizes) as [u|e'].
  - destruct H as (H1 & H2 & H3). split; [discriminate|]. intros [_ H]. specialize (H u H1). lra.
  - destruct H as [-> H]. split; [intros Q; injection Q as <-; auto|intros [-> _]; reflexivity].
Qed.
Theorem C33_monotone_idempotent P P' v v' : @motor_round_size R _ P = Ok v -> @motor_round_size R _ v = Ok v /\
  (P <= P' -> @motor_round_size R _ P' = Ok v' -> v <= v').
Proof.
  intros E. apply C33_motor_round_size in E. destruct E as (E1 & E2 & E3). split.
  - apply C33_motor_round_size. splits; auto; lra.
  - intros H E'. apply C33_motor_round_size in E'. destruct E' as (A & B & _). apply E3; auto; lra.
Qed.
Example C33_ex : @motor_round_size Q _ 1000%Q = Ok (Qred (1.5 * hpQ)) /\ @motor_round_size Q _ 2e6%Q = Err ValueError.
Proof. split; vm_compute; reflexivity. Qed.

(** ** C35 *)
Definition supported (closed : bool) (poles : Z) (high : bool) : Prop :=
  In poles [2; 4; 6]%Z \/ (poles = 8%Z /\ high = false).
Lemma supported_table closed poles high : (exists t, CSA_table closed poles high = Some t) <-> supported closed poles high.
Proof.
  unfold CSA_table, supported. simpl.
  destruct (Z.eqb_spec poles 2), (Z.eqb_spec poles 4), (Z.eqb_spec poles 6), (Z.eqb_spec poles 8); subst; try lia;
    destruct high, closed; (split; [intros [t H]; try discriminate H|intros H]); try tauto; eauto;
    try (destruct H as [[H|[H|[H|H]]]|[H H']]; try congruence; try tauto).
Qed.
Theorem C35_efficiency_in_table_range P closed poles high : supported closed poles high ->
  exists e, @CSA_motor_efficiency R _ _ P closed poles high = Ok e /\ 0.74 <= e <= 0.962.
Proof.
  intros H. apply supported_table in H. destruct H as [[x y] H]. destruct (csa_eval P _ _ _ _ _ H) as (e & _ & E & ->).
  eexists; split; [reflexivity|]. rewrite <- (pyround4 0.74), <- (pyround4 0.962) by (vm_compute; reflexivity). split; apply pyround_mono; tauto.
Qed.
Theorem C35_nondecreasing_in_power P P' closed poles high e e' : P <= P' ->
  @CSA_motor_efficiency R _ _ P closed poles high = Ok e -> @CSA_motor_efficiency R _ _ P' closed poles high = Ok e' -> e <= e'.
Proof.
  intros HP E E'. destruct (CSA_table closed poles high) as [[x y]|] eqn:T.
  - destruct (csa_eval P _ _ _ _ _ T) as (v & V1 & _ & V2). destruct (csa_eval P' _ _ _ _ _ T) as (v' & V1' & _ & V2').
    rewrite E in V2. rewrite E' in V2'. apply Ok_inj in V2, V2'. rewrite V2, V2'. apply pyround_mono.
    destruct (csa_facts _ _ _ _ _ T) as (A & B & C & D & _). apply (interp_mono (P / horsepower) (P' / horsepower) (map Q2R x) (map Q2R y)); auto using div_hp_mono.
    intros Q. rewrite Q in D. simpl in D. lia.
  - unfold CSA_motor_efficiency in E. rewrite div_hp in E. cbn [bind] in E. rewrite T in E. discriminate.
Qed.
(** a motor of a tabulated size has its tabulated efficiency *)
Theorem C35_tabulated closed poles high x y i : CSA_table closed poles high = Some (x, y) -> (i < List.length x)%nat ->
  @CSA_motor_efficiency R _ _ (Q2R (nth i x 0%Q) * horsepower) closed poles high = Ok (Q2R (nth i y 0%Q)).
Proof.
  intros T Hi. destruct (csa_facts _ _ _ _ _ T) as (A & B & C & D & E).
  unfold CSA_motor_efficiency. rewrite div_hp. cbn [bind]. rewrite T, !tbl_R. pose proof hp_pos.
  replace (Q2R (nth i x 0%Q) * horsepower / horsepower) with (Q2R (nth i x 0%Q)) by (field; lra).
  assert (N : map Q2R x <> []) by (intros Q; rewrite Q in D; simpl in D; lia). rewrite map_length in D. rewrite !map_length in C.
  assert (I : interp (Q2R (nth i x 0%Q)) (map Q2R x) (map Q2R y) None None false = Ok (Q2R (nth i y 0%Q))).
  { destruct (find_segment (map Q2R x) (Q2R (nth i x 0%Q))) as (k & K1 & K2); [rewrite map_length; lia| |].
    { rewrite <- (at_map x i Hi). rewrite map_length.
      assert (M : forall a b, (a <= b)%nat -> (b < List.length x)%nat -> at_ (map Q2R x) a <= at_ (map Q2R x) b).
      { intros a b Hab Hb. destruct (Nat.eq_dec a b) as [->|]; [lra|]. apply Rlt_le, A; [lia|rewrite map_length; lia]. }
      split; apply M; lia. }
    rewrite map_length in K1. rewrite (interp_inside _ _ _ _ _ _ k); auto; [|rewrite !map_length; lia|rewrite map_length; lia].
    rewrite <- (at_map x i Hi) in *. assert (Hk : at_ (map Q2R x) k < at_ (map Q2R x) (S k)) by (apply A; [lia|rewrite map_length; lia]).
    assert (i = k \/ i = S k) as [-> | ->].
    { destruct (lt_eq_lt_dec i k) as [[L|L]|L]; auto.
      - assert (at_ (map Q2R x) i < at_ (map Q2R x) k) by (apply A; [lia|rewrite map_length; lia]). lra.
      - destruct (Nat.eq_dec i (S k)); auto. assert (at_ (map Q2R x) (S k) < at_ (map Q2R x) i) by (apply A; [lia|rewrite map_length; lia]). lra. }
    - rewrite <- (at_map y k) by lia. f_equal. unfold line. field. lra.
    - rewrite <- (at_map y (S k)) by lia. f_equal. unfold line. field. lra. }
  rewrite I. cbn [bind]. f_equal. apply csa_in in T.
  assert (K : forallb (fun e : list Q * list Q => forallb (fun q => Qeq_bool (@pyround Q _ _ q 4) q) (snd e)) csa_all = true) by (vm_compute; reflexivity).
  rewrite forallb_forall in K. specialize (K _ T). cbn [snd] in K. rewrite forallb_forall in K. apply pyround4, K, nth_In. lia.
Qed.
(** up to 200 hp a high-efficiency motor is never less efficient than a standard one *)
Theorem C35_high_efficiency_at_least_minimum P closed poles e e' : P <= 200 * horsepower -> In poles [2; 4; 6]%Z ->
  @CSA_motor_efficiency R _ _ P closed poles true = Ok e -> @CSA_motor_efficiency R _ _ P closed poles false = Ok e' -> e' <= e.
Proof.
  intros HP Hp E E'. pose proof csa_cmp_check as K. rewrite forallb_forall in K. specialize (K (closed, poles)).
  assert (Hin : In (closed, poles) [(true, 2%Z); (true, 4%Z); (true, 6%Z); (false, 2%Z); (false, 4%Z); (false, 6%Z)]).
  { simpl in Hp. destruct Hp as [<-|[<-|[<-|[]]]], closed; simpl; tauto. }
  specialize (K Hin). cbv beta iota in K. destruct (CSA_table closed poles true) as [[x y]|] eqn:T; [|discriminate].
  destruct (CSA_table closed poles false) as [[x2 y2]|] eqn:T2; [|discriminate].
  destruct (csa_eval P _ _ _ _ _ T) as (v & V1 & _ & V2). destruct (csa_eval P _ _ _ _ _ T2) as (v' & V1' & _ & V2').
  rewrite E in V2. rewrite E' in V2'. apply Ok_inj in V2, V2'. rewrite V2, V2'. apply pyround_mono.
  destruct (csa_facts _ _ _ _ _ T) as (A & B & C & D & _). destruct (csa_facts _ _ _ _ _ T2) as (A2 & B2 & C2 & D2 & _).
  rewrite !andb_true_iff in K. destruct K as (((K1 & K2) & K3) & K4). apply Nat.leb_le in K1. apply Nat.eqb_eq in K2. rewrite forallb_forall in K4.
  apply (interp_compare (P / horsepower) (map Q2R x) (map Q2R y) (map Q2R x2) (map Q2R y2)); auto.
  - rewrite !map_length. auto.
  - intros i Hi. rewrite !map_length in *. specialize (K4 i). rewrite in_seq in K4. specialize (K4 ltac:(lia)). apply andb_prop in K4. destruct K4 as [K5 K6].
    rewrite !at_map by lia. split; [now apply Qeq_lit|now apply Qle_lit].
  - rewrite map_length, K2. rewrite at_map by lia. apply Qeq_lit in K3. simpl Nat.sub. rewrite K3. change 200%Q with (inject_Z 200). rewrite Q2R_Z.
    pose proof hp_pos. apply Rmult_le_reg_r with horsepower; [lra|]. unfold Rdiv. rewrite Rmult_assoc, Rinv_l by lra. lra.
Qed.
(** ... but above 200 hp the "high efficiency" figure can be the lower one, *)
Theorem C35_high_efficiency_at_least_minimum_refuted : exists P : Q,
  match @CSA_motor_efficiency Q _ _ P false 2%Z true, @CSA_motor_efficiency Q _ _ P false 2%Z false with
  | Ok e, Ok e' => Qltb e e' = true | _, _ => False end.
Proof. exists (500 * hpQ)%Q. vm_compute. reflexivity. Qed.
(** ... and every unsupported pole number, including the 8-pole high-efficiency motor, fails on an unset variable instead of a documented error *)
Theorem C35_unsupported_poles_refuted P closed poles high : ~ supported closed poles high ->
  @CSA_motor_efficiency R _ _ P closed poles high = Err UnboundLocalError.
Proof.
  intros H. unfold CSA_motor_efficiency. rewrite div_hp. cbn [bind]. destruct (CSA_table closed poles high) eqn:T; [|reflexivity].
  exfalso. apply H, supported_table. eauto.
Qed.
Example C35_ex : supported true 2%Z true /\ supported false 8%Z false /\ ~ supported true 8%Z true /\
  @CSA_motor_efficiency Q _ _ (100 * hpQ)%Q true 2%Z false = Ok 0.9360%Q.
Proof. unfold supported. simpl. repeat split; try tauto. intros [H|[_ H]]; [lia|discriminate]. Qed.

(** ** C36: variable frequency drive *)
Theorem C36_VFD_in_range P load : exists e, @VFD_efficiency R _ _ P load = Ok e /\ 0.31 <= e <= 0.97.
Proof.
  destruct vfd_eval as (tx & ty & c & _ & R1 & _ & E). destruct (R1 (vfd_load load) (vfd_power P)) as (v & V1 & V2).
  exists (pyround v 4). rewrite E, V1. split; [reflexivity|].
  rewrite <- (pyround4 0.31), <- (pyround4 0.97) by (vm_compute; reflexivity). split; apply pyround_mono; tauto.
Qed.
Theorem C36_VFD_nondecreasing_in_load P l l' e e' : l <= l' -> @VFD_efficiency R _ _ P l = Ok e -> @VFD_efficiency R _ _ P l' = Ok e' -> e <= e'.
Proof.
  destruct vfd_eval as (tx & ty & c & _ & R1 & M & E). intros H E1 E2. rewrite E in E1, E2.
  destruct (R1 (vfd_load l) (vfd_power P)) as (v & V1 & _). destruct (R1 (vfd_load l') (vfd_power P)) as (v' & V1' & _).
  rewrite V1 in E1. rewrite V1' in E2. cbn [rmap] in E1, E2. apply Ok_inj in E1, E2. rewrite <- E1, <- E2. apply pyround_mono.
  apply (M (vfd_load l) (vfd_load l') (vfd_power P)); auto. unfold vfd_load. destruct (Rlt_dec l 0.016), (Rlt_dec l' 0.016); lra.
Qed.
(** outside the table the nearest edge is used *)
Theorem C36_VFD_clamped P load : 
  (load <= 0.016 -> @VFD_efficiency R _ _ P load = VFD_efficiency P 0.016) /\
  (P <= 3 * horsepower -> @VFD_efficiency R _ _ P load = VFD_efficiency (3 * horsepower) load) /\
  (400 * horsepower <= P -> @VFD_efficiency R _ _ P load = VFD_efficiency (400 * horsepower) load) /\
  (1 <= load -> @VFD_efficiency R _ _ P load = VFD_efficiency P 1).
Proof.
  pose proof hp_pos as Hh. destruct vfd_eval as (tx & ty & c & T & R1 & M & E). rewrite !E.
  assert (D : forall a P, a * horsepower <= P -> a <= P / horsepower).
  { intros a Q H. apply Rmult_le_reg_r with horsepower; [lra|]. unfold Rdiv. rewrite Rmult_assoc, Rinv_l by lra. lra. }
  assert (D' : forall a P, P <= a * horsepower -> P / horsepower <= a).
  { intros a Q H. apply Rmult_le_reg_r with horsepower; [lra|]. unfold Rdiv. rewrite Rmult_assoc, Rinv_l by lra. lra. }
  splits.
  - intros H. f_equal. f_equal. unfold vfd_load. destruct (Rlt_dec load 0.016), (Rlt_dec 0.016 0.016); lra.
  - intros H. f_equal. f_equal. unfold vfd_power. cbv zeta. replace (3 * horsepower / horsepower) with 3 by (field; lra). apply D' in H.
    destruct (Rlt_dec (P / horsepower) 3), (Rlt_dec 400 (P / horsepower)), (Rlt_dec 3 3), (Rlt_dec 400 3); lra.
  - intros H. f_equal. f_equal. unfold vfd_power. cbv zeta. replace (400 * horsepower / horsepower) with 400 by (field; lra). apply D in H.
    destruct (Rlt_dec (P / horsepower) 3), (Rlt_dec 400 (P / horsepower)), (Rlt_dec 400 3), (Rlt_dec 400 400); lra.
  - intros H. destruct (Qsurface_ok _ _ _ vfd_surface) as (A & B & C & D0 & F & G). f_equal.
    assert (L : 0.016 < 1). { rewrite <- Q2R_1. apply Qlt_lit. reflexivity. }
    assert (vfd_load load = load) as -> by (unfold vfd_load; destruct (Rlt_dec load 0.016); lra).
    assert (vfd_load 1 = 1) as -> by (unfold vfd_load; destruct (Rlt_dec 1 0.016); lra).
    destruct (surface_rows _ _ _ (vfd_power P) A B C D0 F G) as (tx' & ty' & c' & T' & j & s & J & Ss & RR).
    rewrite T in T'. injection T' as <- <- <-. destruct (RR load) as (a & b & I1 & I2 & ->). destruct (RR 1) as (a' & b' & I1' & I2' & ->).
    assert (Z : forall r, In r (map (map Q2R) VFD_efficiencies) -> interp load (map Q2R VFD_efficiency_loads) r None None false = interp 1 (map Q2R VFD_efficiency_loads) r None None false).
    { intros r Hr. assert (Hl : at_ (map Q2R VFD_efficiency_loads) (List.length (map Q2R VFD_efficiency_loads) - 1) = 1) by (rewrite <- Q2R_1; apply Qeq_lit; reflexivity).
      assert (N : map Q2R VFD_efficiency_loads <> []) by discriminate.
      destruct (interp_cases load _ _ A (eq_sym (G r Hr)) C) as (k & K1 & K2 & ->). destruct (interp_cases 1 _ _ A (eq_sym (G r Hr)) C) as (k' & K1' & K2' & ->).
      rewrite Hl in *. assert (H0 : at_ (map Q2R VFD_efficiency_loads) 0 <= 1). { eapply Rle_trans; [|apply Rlt_le, L]. apply Qle_lit. reflexivity. }
      assert (clamp (at_ (map Q2R VFD_efficiency_loads) 0) 1 load = 1) as E1 by (unfold clamp; rewrite Rmax_right, Rmin_left; lra).
      assert (clamp (at_ (map Q2R VFD_efficiency_loads) 0) 1 1 = 1) as E2 by (unfold clamp; rewrite Rmax_right, Rmin_left; lra).
      rewrite E1, E2 in *. assert (U : forall q, (S q < List.length (map Q2R VFD_efficiency_loads))%nat -> at_ (map Q2R VFD_efficiency_loads) q <= 1 <= at_ (map Q2R VFD_efficiency_loads) (S q) -> q = 5%nat).
      { intros q Hq [_ Hq']. destruct (Nat.eq_dec q 5); auto. exfalso.
        assert (at_ (map Q2R VFD_efficiency_loads) (S q) < at_ (map Q2R VFD_efficiency_loads) 6) by (apply A; [change (S q < 7)%nat in Hq; lia|vm_compute; lia]).
        change (at_ (map Q2R VFD_efficiency_loads) 6 = 1) in Hl. lra. }
      rewrite (U k K1 K2), (U k' K1' K2'). reflexivity. }
    rewrite Z in I1 by (apply nth_In; rewrite F; lia). rewrite Z in I2 by (apply nth_In; rewrite F; lia).
    rewrite I1 in I1'. rewrite I2 in I2'. injection I1' as ->. injection I2' as ->. reflexivity.
Qed.
(** a tabulated power and load give the tabulated efficiency *)
Theorem C36_VFD_tabulated i j : (i < 7)%nat -> (j < 11)%nat ->
  @VFD_efficiency R _ _ (Q2R (nth j VFD_efficiency_powers 0%Q) * horsepower) (Q2R (nth i VFD_efficiency_loads 0%Q)) = Ok (Q2R (nth i (nth j VFD_efficiencies []) 0%Q)).
Proof.
  intros Hi Hj. destruct vfd_eval as (tx & ty & c & T & _ & _ & E). rewrite E, vfd_power_node by auto.
  assert (vfd_load (Q2R (nth i VFD_efficiency_loads 0%Q)) = Q2R (nth i VFD_efficiency_loads 0%Q)) as ->.
  { unfold vfd_load. destruct (Rlt_dec _ _) as [H|]; auto. exfalso.
    assert (K : forallb (fun q => Qle_bool 0.016 q) VFD_efficiency_loads = true) by (vm_compute; reflexivity). rewrite forallb_forall in K.
    specialize (K _ (nth_In VFD_efficiency_loads 0%Q Hi)). apply Qle_lit in K. lra. }
  destruct (Qsurface_ok _ _ _ vfd_surface) as (A & B & C & D0 & F & G).
  destruct (C72_linear_surface_through_nodes _ _ (map (map Q2R) VFD_efficiencies) i j A B C D0) as (tx' & ty' & c' & T' & V); auto; try (rewrite map_length; auto).
  rewrite T in T'. injection T' as <- <- <-. rewrite !at_map in V by auto. rewrite V. cbn [rmap]. f_equal.
  unfold zget. rewrite (nth_indep _ [] (map Q2R [])) by (rewrite map_length; auto). rewrite (map_nth (map Q2R)).
  assert (K : forallb (fun r : list Q => Nat.eqb (List.length r) 7 && forallb (fun q => Qeq_bool (@pyround Q _ _ q 4) q) r) VFD_efficiencies = true) by (vm_compute; reflexivity).
  rewrite forallb_forall in K. specialize (K _ (nth_In VFD_efficiencies [] Hj)). apply andb_prop in K. destruct K as [K1 K2]. apply Nat.eqb_eq in K1. rewrite forallb_forall in K2.
  change (pyround (at_ (map Q2R (nth j VFD_efficiencies [])) i) 4 = Q2R (nth i (nth j VFD_efficiencies []) 0%Q)). rewrite (at_map _ i) by lia. apply pyround4, K2, nth_In. lia.
Qed.
(** efficiency does not always rise with power: a 50 hp drive at the smallest load is less efficient than a 30 hp one *)
Theorem C36_VFD_nondecreasing_in_power_refuted : exists P P' load : Q, Qltb P P' = true /\
  match @VFD_efficiency Q _ _ P load, @VFD_efficiency Q _ _ P' load with Ok e, Ok e' => Qltb e' e = true | _, _ => False end.
Proof. exists (30 * hpQ)%Q, (50 * hpQ)%Q, 0.016%Q. split; vm_compute; reflexivity. Qed.

(** ** C36: underloaded motors *)
(** for every power and every load from 0: at least 0.0155, and 1 up to the accuracy of the fit; 1 exactly for loads above 0.93 *)
Theorem C36_underloaded_range P load : 0 <= load ->
  exists e, @motor_efficiency_underloaded R _ P load = Ok e /\ 0.0154 <= e <= 1 + 4e-10 /\ (0.93 <= load -> e = 1).
Proof.
  intros Hl. rewrite underloaded_eval. cbv zeta. set (i := underloaded_class _). assert (Hi : (i < 6)%nat) by apply underloaded_class_lt. clearbody i.
  destruct (underloaded_facts i Hi) as (U & L & C0 & Top & M).
  assert (S : 0 <= Q2R (eslack i) <= 4e-7). { unfold eslack. destruct (Nat.eqb i 5); unfold Q2R; simpl; lra. }
  assert (Q1 : Q2R 0.93 = 0.93) by reflexivity. assert (L1 : 0.4 = Q2R 0.4) by reflexivity. 
  assert (N : 0.0154 + 1e-5 <= 0.0155 /\ 0.0155 <= 0.99987 /\ 0.93 <= 1 /\ 0.99987 + 1e-6 <= 1). { unfold Q2R; simpl. lra. }
  destruct (Rlt_dec (Q2R (eone i)) load) as [H|H].
  - eexists; split; [reflexivity|]. splits; auto; lra.
  - eexists; split; [reflexivity|]. splits; [| |lra].
    + pose proof (M 0 load ltac:(lra) Hl ltac:(lra)) as M0. unfold quartic at 1 in M0. nra.
    + pose proof (M load (Q2R (eone i)) Hl ltac:(lra) ltac:(lra)) as M1. destruct (Nat.eqb i 5) eqn:Ei.
      * nra.
      * assert (Q2R (eslack i) = 0) as Z by (unfold eslack; rewrite Ei; apply Q2R_0). rewrite Z in M1. lra.
Qed.
(** a larger load never lowers the efficiency by more than 4e-7, and for motors up to 60 hp by more than 4e-10 *)
Theorem C36_underloaded_nondecreasing P x y e e' : 0 <= x -> x <= y ->
  @motor_efficiency_underloaded R _ P x = Ok e -> @motor_efficiency_underloaded R _ P y = Ok e' ->
  e <= e' + 4e-7 /\ (P <= 60 * horsepower -> e <= e' + 4e-10).
Proof.
  intros Hx Hxy. rewrite !underloaded_eval. cbv zeta. set (i := underloaded_class _). assert (Hi : (i < 6)%nat) by apply underloaded_class_lt.
  assert (Hc : P <= 60 * horsepower -> i <> 5%nat).
  { intros HP. assert (P / horsepower <= 60). { pose proof hp_pos. apply Rmult_le_reg_r with horsepower; [lra|]. unfold Rdiv. rewrite Rmult_assoc, Rinv_l by lra. lra. }
    unfold i, underloaded_class. numR. assert (Q2R 60 = 60) as Q60 by (change 60%Q with (inject_Z 60); apply Q2R_Z). rewrite Q60.
    assert (Rleb (P / horsepower) 60 = true) as -> by now apply Rleb_true.
    repeat match goal with |- context [if ?c then _ else _] => destruct c end; lia. }
  clearbody i. destruct (underloaded_facts i Hi) as (U & L & C0 & Top & M).
  assert (S : 0 <= Q2R (eslack i) <= 4e-7). { unfold eslack. destruct (Nat.eqb i 5); unfold Q2R; simpl; lra. }
  assert (N : 0.99987 + 1e-6 <= 1 /\ 0.93 <= 1). { unfold Q2R; simpl. lra. }
  assert (Z : i <> 5%nat -> Q2R (eslack i) = 0).
  { intros Hn. unfold eslack. assert (Nat.eqb i 5 = false) as -> by now apply Nat.eqb_neq. apply Q2R_0. }
  assert (T' : Nat.eqb i 5 = true \/ quartic (ecoefs i) (Q2R (eone i)) <= 1 + 4e-10) by (destruct (Nat.eqb i 5); auto).
  assert (T5 : quartic (ecoefs i) (Q2R (eone i)) <= 1 + 4e-10).  { destruct (Nat.eqb i 5); lra. }
  destruct (Rlt_dec (Q2R (eone i)) x) as [H|H], (Rlt_dec (Q2R (eone i)) y) as [H'|H']; intros E E'; try lra; injection E as <-; injection E' as <-.
  - split; intros; lra.
  - pose proof (M x (Q2R (eone i)) Hx ltac:(lra) ltac:(lra)) as M1. destruct (Nat.eq_dec i 5) as [Ei|Ei].
    + split; [|intros HP; exfalso; now apply Hc]. assert (Nat.eqb i 5 = true) as E5 by now apply Nat.eqb_eq. rewrite E5 in Top. nra.
    + rewrite Z in M1 by auto. split; intros; lra.
  - pose proof (M x y Hx Hxy ltac:(lra)) as M1. split; [nra|]. intros HP. rewrite Z in M1 by auto. lra.
Qed.
(** the exact claims fail: the fraction can exceed 1, and can fall as the load rises *)
Theorem C36_underloaded_at_most_one_refuted : exists P load : Q, match @motor_efficiency_underloaded Q _ P load with Ok e => Qltb 1%Q e = true | _ => False end.
Proof. exists (20 * hpQ)%Q, 0.61569791%Q. vm_compute. reflexivity. Qed.
Theorem C36_underloaded_monotone_refuted : exists P x y : Q, Qltb x y = true /\
  match @motor_efficiency_underloaded Q _ P x, @motor_efficiency_underloaded Q _ P y with Ok e, Ok e' => Qltb e' e = true | _, _ => False end.
Proof. exists (20 * hpQ)%Q, 0.61569791%Q, 0.7%Q. split; vm_compute; reflexivity. Qed.
Example C36_ex : @VFD_efficiency Q _ _ (10 * hpQ)%Q 0.2%Q = Ok 0.8720%Q /\ 
  match @motor_efficiency_underloaded Q _ (1 * hpQ)%Q 0.25%Q with Ok e => Qltb 0.67%Q e && Qltb e 0.69%Q | _ => false end = true.
Proof. split; vm_compute; reflexivity. Qed.

Print Assumptions C33_motor_round_size.
Print Assumptions C33_too_large.
Print Assumptions C33_monotone_idempotent.
Print Assumptions C35_efficiency_in_table_range.
Print Assumptions C35_nondecreasing_in_power.
Print Assumptions C35_tabulated.
Print Assumptions C35_high_efficiency_at_least_minimum.
Print Assumptions C35_high_efficiency_at_least_minimum_refuted.
Print Assumptions C35_unsupported_poles_refuted.
Print Assumptions C36_VFD_in_range.
Print Assumptions C36_VFD_nondecreasing_in_load.
Print Assumptions C36_VFD_clamped.
Print Assumptions C36_VFD_tabulated.
Print Assumptions C36_VFD_nondecreasing_in_power_refuted.
Print Assumptions C36_underloaded_range.
Print Assumptions C36_underloaded_nondecreasing.
Print Assumptions C36_underloaded_at_most_one_refuted.
Print Assumptions C36_underloaded_monotone_refuted.
