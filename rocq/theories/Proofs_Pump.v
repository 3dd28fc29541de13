(** Proofs for the motor tables of pump.py. *)
From Coq Require Import String List Bool QArith Qreals Reals ZArith Arith Lra Lia Psatz.
From Verif Require Import Base Sums Model_Numerics Model_Splines Proofs_Numerics Proofs_Splines Data_Pump Model_Tables Spec_Tables Proofs_Tables Proofs_Tables2 Proofs_Tables3.
Import ListNotations.
Local Open Scope R_scope.

(** the mechanical horsepower, 550 ft lbf/s, in watts *)
Definition horsepower : R := Q2R hpQ.
Lemma horsepower_value : 745.69987 < horsepower < 745.69988.
Proof. unfold horsepower. split; apply Qlt_lit; vm_compute; reflexivity. Qed.
Lemma hp_pos : 0 < horsepower. Proof. pose proof horsepower_value. assert (0 <= 745.69987); [|lra]. rewrite <- Q2R_0. apply Qle_lit. reflexivity. Qed.
Lemma div_hp P : @pydiv R _ P hp = Ok (P / horsepower).
Proof. unfold hp. numR. apply pydivR_ok. pose proof hp_pos. fold horsepower. lra. Qed.
Lemma div_hp_mono P P' : P <= P' -> P / horsepower <= P' / horsepower.
Proof. intros H. apply Rmult_le_compat_r; auto. apply Rlt_le, Rinv_0_lt_compat, hp_pos. Qed.
Lemma nema_increasing : increasing (@nema_sizes R _).
Proof. unfold nema_sizes. apply increasing_scale; [unfold hp; numR; apply hp_pos|]. rewrite tbl_R. apply Qincr_ok. vm_compute. reflexivity. Qed.
Lemma pyround4 (q : Q) : Qeq_bool (@pyround Q _ _ q 4) q = true -> @pyround R _ _ (Q2R q) 4 = Q2R q.
Proof. intros H. rewrite pyround_Q. now apply Qeq_lit. Qed.

(** ** efficiency tables *)
Definition csa_ok (e : list Q * list Q) : bool :=
  let '(x, y) := e in Qincr x && Qnondecr y && Nat.eqb (List.length x) (List.length y) && Nat.leb 2 (List.length x) && Qbetween 0.74 0.962 y.
Definition csa_all : list (list Q * list Q) :=
  [(nema_high_P, nema_high_full_closed_2p); (nema_high_P, nema_high_full_closed_4p); (nema_high_P, nema_high_full_closed_6p);
   (nema_high_P, nema_high_full_open_2p); (nema_high_P, nema_high_full_open_4p); (nema_high_P, nema_high_full_open_6p);
   (nema_min_P, nema_min_full_closed_2p); (nema_min_P, nema_min_full_closed_4p); (nema_min_P, nema_min_full_closed_6p); (nema_min_P, nema_min_full_closed_8p);
   (nema_min_P, nema_min_full_open_2p); (nema_min_P, nema_min_full_open_4p); (nema_min_P, nema_min_full_open_6p); (nema_min_P, nema_min_full_open_8p)].
Lemma csa_all_ok : forallb csa_ok csa_all = true. Proof. vm_compute. reflexivity. Qed.
Lemma csa_in closed poles high t : CSA_table closed poles high = Some t -> In t csa_all.
Proof. unfold CSA_table. destruct high, closed; repeat match goal with |- context [Z.eqb ?a ?b] => destruct (Z.eqb a b) end; intros H; try discriminate; injection H as <-; unfold csa_all; simpl; tauto. Qed.
Lemma csa_facts closed poles high x y : CSA_table closed poles high = Some (x, y) ->
  increasing (map Q2R x) /\ nondecreasing (map Q2R y) /\ List.length (map Q2R x) = List.length (map Q2R y) /\ (2 <= List.length (map Q2R x))%nat /\
  (forall i, (i < List.length (map Q2R y))%nat -> 0.74 <= at_ (map Q2R y) i <= 0.962).
Proof.
  intros H. apply csa_in in H. pose proof csa_all_ok as K. rewrite forallb_forall in K. specialize (K _ H). cbn [csa_ok] in K.
  repeat (apply andb_prop in K; destruct K as [K ?]). rewrite Nat.eqb_eq, Nat.leb_le in *. rewrite !map_length.
  splits; auto using Qincr_ok, Qnondecr_ok. intros i Hi. apply (Qbetween_ok 0.74 0.962); auto. now rewrite map_length.
Qed.
Lemma csa_eval P closed poles high x y : CSA_table closed poles high = Some (x, y) ->
  exists e, interp (P / horsepower) (map Q2R x) (map Q2R y) None None false = Ok e /\ 0.74 <= e <= 0.962 /\
    @CSA_motor_efficiency R _ _ P closed poles high = Ok (pyround e 4).
Proof.
  intros H. destruct (csa_facts _ _ _ _ _ H) as (A & B & C & D & E).
  destruct (interp_bounds (P / horsepower) (map Q2R x) (map Q2R y) 0.74 0.962 A C D) as (e & E1 & E2); [auto|].
  exists e. splits; try tauto. unfold CSA_motor_efficiency. rewrite div_hp. cbn [bind]. rewrite H, !tbl_R, E1. reflexivity.
Qed.
Lemma csa_cmp_check : forallb (fun e : bool * Z => let '(closed, poles) := e in
  match CSA_table closed poles true, CSA_table closed poles false with
  | Some (x, y), Some (x2, y2) => Nat.leb (List.length x) (List.length x2) && Nat.eqb (List.length x) 22 && Qeq_bool (nth 21 x 0%Q) 200 &&
      forallb (fun i => Qeq_bool (nth i x2 0%Q) (nth i x 0%Q) && Qle_bool (nth i y2 0%Q) (nth i y 0%Q)) (seq 0 (List.length x))
  | _, _ => false end)
  [(true, 2%Z); (true, 4%Z); (true, 6%Z); (false, 2%Z); (false, 4%Z); (false, 6%Z)] = true.
Proof. vm_compute. reflexivity. Qed.

(** ** quartics: cubic derivative in Bernstein form on panels *)
Definition blossom (p0 p1 p2 p3 a b c : R) : R := p0 + p1 * ((a + b + c) / 3) + p2 * ((a * b + b * c + a * c) / 3) + p3 * (a * b * c).
Definition blossomQ (p0 p1 p2 p3 a b c : Q) : Q := (p0 + p1 * ((a + b + c) / 3) + p2 * ((a * b + b * c + a * c) / 3) + p3 * (a * b * c))%Q.
Lemma Q2R_3 : Q2R 3 = 3. Proof. change 3%Q with (inject_Z 3). apply Q2R_Z. Qed.
Lemma blossom_Q p0 p1 p2 p3 a b c : Q2R (blossomQ p0 p1 p2 p3 a b c) = blossom (Q2R p0) (Q2R p1) (Q2R p2) (Q2R p3) (Q2R a) (Q2R b) (Q2R c).
Proof. unfold blossomQ, blossom. rewrite !Q2R_plus, !Q2R_mult, !Q2R_div by (intros Q; discriminate Q). rewrite !Q2R_plus, !Q2R_mult, !Q2R_3. ring. Qed.
Lemma bernstein_nonneg p0 p1 p2 p3 a b t : a < b -> a <= t <= b ->
  0 <= blossom p0 p1 p2 p3 a a a -> 0 <= blossom p0 p1 p2 p3 a a b -> 0 <= blossom p0 p1 p2 p3 a b b -> 0 <= blossom p0 p1 p2 p3 b b b ->
  0 <= p0 + p1 * t + p2 * t ^ 2 + p3 * t ^ 3.
Proof.
  intros Hab Ht H0 H1 H2 H3.
  assert (E : (p0 + p1 * t + p2 * t ^ 2 + p3 * t ^ 3) * (b - a) ^ 3 =
     blossom p0 p1 p2 p3 a a a * (b - t) ^ 3 + 3 * blossom p0 p1 p2 p3 a a b * ((t - a) * (b - t) ^ 2) +
     3 * blossom p0 p1 p2 p3 a b b * ((t - a) ^ 2 * (b - t)) + blossom p0 p1 p2 p3 b b b * (t - a) ^ 3) by (unfold blossom; field).
  assert (K : 0 < (b - a) ^ 3) by (apply pow_lt; lra).
  apply Rmult_le_reg_r with ((b - a) ^ 3); auto. rewrite Rmult_0_l, E.
  assert (0 <= (b - t) ^ 3) by (apply pow_le; lra). assert (0 <= (t - a) ^ 3) by (apply pow_le; lra).
  assert (0 <= (b - t) ^ 2) by (apply pow_le; lra). assert (0 <= (t - a) ^ 2) by (apply pow_le; lra).
  assert (0 <= (t - a) * (b - t) ^ 2) by (apply Rmult_le_pos; lra). assert (0 <= (t - a) ^ 2 * (b - t)) by (apply Rmult_le_pos; lra).
  assert (forall u v, 0 <= u -> 0 <= v -> 0 <= u * v) as M by (intros; now apply Rmult_le_pos).
  repeat apply Rplus_le_le_0_compat; repeat apply M; auto; lra.
Qed.
Lemma quartic_difference c0 c1 c2 c3 c4 x y :
  let q := fun t => c0 + c1 * t + c2 * (t * t) + c3 * (t * t * t) + c4 * (t * t * t * t) in
  let p := fun t => c1 + 2 * c2 * t + 3 * c3 * t ^ 2 + 4 * c4 * t ^ 3 in
  q y - q x = (y - x) / 6 * (p x + 4 * p ((x + y) / 2) + p y).
Proof. cbv beta zeta. field. Qed.
Definition panels (p0 p1 p2 p3 u : Q) : bool :=
  forallb (fun k => let a := (u * inject_Z (Z.of_nat k) / 4)%Q in let b := (u * inject_Z (Z.of_nat (S k)) / 4)%Q in
    Qle_bool 0 (blossomQ p0 p1 p2 p3 a a a) && Qle_bool 0 (blossomQ p0 p1 p2 p3 a a b) && Qle_bool 0 (blossomQ p0 p1 p2 p3 a b b) && Qle_bool 0 (blossomQ p0 p1 p2 p3 b b b)) (seq 0 4).
Lemma panel_end u k : Q2R (u * inject_Z (Z.of_nat k) / 4) = Q2R u * INR k / 4.
Proof. rewrite Q2R_div by (intros Q; discriminate Q). rewrite Q2R_mult, Q2R_Z, <- INR_IZR_INZ. change 4%Q with (inject_Z 4). rewrite Q2R_Z. reflexivity. Qed.
Lemma panels_ok p0 p1 p2 p3 u t : panels p0 p1 p2 p3 u = true -> 0 < Q2R u -> 0 <= t <= Q2R u ->
  0 <= Q2R p0 + Q2R p1 * t + Q2R p2 * t ^ 2 + Q2R p3 * t ^ 3.
Proof.
  intros H Hu Ht. unfold panels in H. rewrite forallb_forall in H.
  assert (K : exists k, (k < 4)%nat /\ Q2R u * INR k / 4 <= t <= Q2R u * INR (S k) / 4).
  { destruct (Rle_dec t (Q2R u / 4)); [exists 0%nat; simpl; split; [lia|lra]|].
    destruct (Rle_dec t (Q2R u * 2 / 4)); [exists 1%nat; simpl; split; [lia|lra]|].
    destruct (Rle_dec t (Q2R u * 3 / 4)); [exists 2%nat; simpl; split; [lia|lra]|]. exists 3%nat. simpl. split; [lia|lra]. }
  destruct K as (k & Hk & Hb). specialize (H k). rewrite in_seq in H. specialize (H ltac:(lia)). cbv zeta in H.
  repeat (apply andb_prop in H; destruct H as [H ?]).
  apply (bernstein_nonneg _ _ _ _ (Q2R u * INR k / 4) (Q2R u * INR (S k) / 4)); auto; rewrite ?S_INR; [lra|..];
    rewrite <- ?S_INR, <- !panel_end, <- blossom_Q, <- Q2R_0; apply Qle_lit; auto.
Qed.
Definition quartic (cs : list Q) (t : R) : R :=
  Q2R (nth 0 cs 0%Q) + Q2R (nth 1 cs 0%Q) * t + Q2R (nth 2 cs 0%Q) * (t * t) + Q2R (nth 3 cs 0%Q) * (t * t * t) + Q2R (nth 4 cs 0%Q) * (t * t * t * t).
Lemma quartic_mono (cs : list Q) (e u : Q) (x y : R) : panels (nth 1 cs 0 + e)%Q (2 * nth 2 cs 0)%Q (3 * nth 3 cs 0)%Q (4 * nth 4 cs 0)%Q u = true -> 0 < Q2R u ->
  0 <= x -> x <= y -> y <= Q2R u -> quartic cs x <= quartic cs y + Q2R e * (y - x).
Proof.
  intros H Hu Hx Hxy Hy. pose proof (fun t => panels_ok _ _ _ _ _ t H Hu) as P.
  rewrite Q2R_plus, !Q2R_mult in P. change 2%Q with (inject_Z 2) in P. change 4%Q with (inject_Z 4) in P. rewrite Q2R_3, !Q2R_Z in P.
  pose proof (quartic_difference (Q2R (nth 0 cs 0%Q)) (Q2R (nth 1 cs 0%Q) + Q2R e) (Q2R (nth 2 cs 0%Q)) (Q2R (nth 3 cs 0%Q)) (Q2R (nth 4 cs 0%Q)) x y) as D.
  cbv beta zeta in D. unfold quartic. pose proof (P x ltac:(lra)). pose proof (P ((x + y) / 2) ltac:(lra)). pose proof (P y ltac:(lra)).
  match type of D with _ = ?a / 6 * ?b => assert (0 <= a / 6 * b) by (apply Rmult_le_pos; lra) end. lra.
Qed.
Definition ecoefs (i : nat) : list Q := nth i _efficiency_lists [].
Definition eone (i : nat) : Q := nth i _efficiency_ones 0%Q.
Definition eslack (i : nat) : Q := if Nat.eqb i 5 then 4e-7%Q else 0%Q.
Lemma underloaded_check : forallb (fun i => let cs := ecoefs i in let u := eone i in
   panels (nth 1 cs 0 + eslack i)%Q (2 * nth 2 cs 0)%Q (3 * nth 3 cs 0)%Q (4 * nth 4 cs 0)%Q u && Nat.eqb (List.length cs) 5
   && Qltb 0.4 u && Qltb u 0.93 && Qle_bool 0.0155 (nth 0 cs 0%Q)
   && Qle_bool (nth 0 cs 0 + nth 1 cs 0 * u + nth 2 cs 0 * (u * u) + nth 3 cs 0 * (u * u * u) + nth 4 cs 0 * (u * u * u * u))%Q (if Nat.eqb i 5 then 0.99987 else 1 + 4e-10)%Q) (seq 0 6) = true.
Proof. vm_compute. reflexivity. Qed.
Lemma quartic_Q cs u : Q2R (nth 0 cs 0 + nth 1 cs 0 * u + nth 2 cs 0 * (u * u) + nth 3 cs 0 * (u * u * u) + nth 4 cs 0 * (u * u * u * u))%Q = quartic cs (Q2R u).
Proof. unfold quartic. now rewrite !Q2R_plus, !Q2R_mult. Qed.
Lemma underloaded_class_lt (P : R) : (@underloaded_class R _ P < 6)%nat.
Proof. unfold underloaded_class. repeat match goal with |- context [if ?c then _ else _] => destruct c end; lia. Qed.
Lemma underloaded_facts i : (i < 6)%nat ->
  0.4 < Q2R (eone i) < 0.93 /\ List.length (ecoefs i) = 5%nat /\ 0.0155 <= Q2R (nth 0 (ecoefs i) 0%Q) /\
  quartic (ecoefs i) (Q2R (eone i)) <= (if Nat.eqb i 5 then 0.99987 else 1 + 4e-10) /\
  (forall x y, 0 <= x -> x <= y -> y <= Q2R (eone i) -> quartic (ecoefs i) x <= quartic (ecoefs i) y + Q2R (eslack i) * (y - x)).
Proof.
  intros Hi. pose proof underloaded_check as K. rewrite forallb_forall in K. specialize (K i). rewrite in_seq in K. specialize (K ltac:(lia)). cbv zeta in K.
  rewrite !andb_true_iff in K. destruct K as (((((K & ?) & ?) & ?) & ?) & ?). rewrite Nat.eqb_eq in *.
  assert (U : 0.4 < Q2R (eone i) < 0.93) by (split; apply Qlt_lit; auto).
  assert (0 < Q2R (eone i)). { destruct U as [U _]. eapply Rlt_trans; [|exact U]. rewrite <- Q2R_0. apply Qlt_lit. reflexivity. }
  splits; try tauto; auto.
  - apply Qle_lit; auto.
  - match goal with h : Qle_bool _ (if _ then _ else _) = true |- _ => apply Qle_lit in h; rewrite quartic_Q in h; eapply Rle_trans; [exact h|] end.
    destruct (Nat.eqb i 5); [lra|]. rewrite Q2R_plus. unfold Q2R; simpl. lra.
  - intros x y Hx Hxy Hy. now apply quartic_mono with (u := eone i).
Qed.
Lemma underloaded_eval P load : @motor_efficiency_underloaded R _ P load =
  let i := @underloaded_class R _ (P / horsepower) in
  if Rlt_dec (Q2R (eone i)) load then Ok 1 else Ok (quartic (ecoefs i) load).
Proof.
  unfold motor_efficiency_underloaded. rewrite div_hp. cbn [bind]. cbv zeta. set (i := underloaded_class _).
  assert (Hi : (i < 6)%nat) by apply underloaded_class_lt. destruct (underloaded_facts i Hi) as (_ & L & _). clearbody i.
  rewrite tbl_R, idx_Q. unfold idx at 1. rewrite (nth_error_nth' _ 0%Q) by (change (List.length _efficiency_ones) with 6%nat; auto). cbn [rmap bind]. fold (eone i).
  numR. rewrite ?n1R. unfold Rltb. destruct (Rlt_dec (Q2R (eone i)) load); [reflexivity|].
  unfold idx at 1. rewrite nth_error_map, (nth_error_nth' _ []) by (change (List.length _efficiency_lists) with 6%nat; auto). cbn [option_map bind]. fold (ecoefs i).
  rewrite tbl_R, !idx_Q. unfold idx. rewrite !(nth_error_nth' _ 0%Q) by lia. cbn [rmap bind]. reflexivity.
Qed.

(** ** VFD *)
Lemma vfd_surface : Qsurface VFD_efficiency_loads VFD_efficiency_powers VFD_efficiencies = true. Proof. vm_compute. reflexivity. Qed.
Lemma vfd_rows : forallb (fun r => Qnondecr r && Qbetween 0.31 0.97 r) VFD_efficiencies = true. Proof. vm_compute. reflexivity. Qed.
Definition vfd_power (P : R) : R := let p := P / horsepower in if Rlt_dec p 3 then 3 else if Rlt_dec 400 p then 400 else p.
Definition vfd_load (l : R) : R := if Rlt_dec l 0.016 then 0.016 else l.
Lemma vfd_eval : exists tx ty c, tck_interp2d_linear (map Q2R VFD_efficiency_loads) (map Q2R VFD_efficiency_powers) (map (map Q2R) VFD_efficiencies) = Ok (tx, ty, c) /\
  (forall x y, exists v, bisplev tx ty c 1 1 x y = Ok v /\ 0.31 <= v <= 0.97) /\
  (forall x x' y v v', x <= x' -> bisplev tx ty c 1 1 x y = Ok v -> bisplev tx ty c 1 1 x' y = Ok v' -> v <= v') /\
  forall P l, @VFD_efficiency R _ _ P l = rmap (fun v => pyround v 4) (bisplev tx ty c 1 1 (vfd_load l) (vfd_power P)).
Proof.
  destruct (Qsurface_ok _ _ _ vfd_surface) as (A & B & C & D & E & F). pose proof vfd_rows as K. rewrite forallb_forall in K.
  assert (K' : forall r, In r (map (map Q2R) VFD_efficiencies) -> nondecreasing r /\ forall v, In v r -> 0.31 <= v <= 0.97).
  { intros r Hr. apply in_map_iff in Hr. destruct Hr as (q & <- & Hq). specialize (K _ Hq). apply andb_prop in K. destruct K as [K1 K2]. split; [now apply Qnondecr_ok|].
    intros v Hv. apply (In_nth _ _ 0) in Hv. destruct Hv as (i & Hi & <-). apply (Qbetween_ok 0.31 0.97); auto. }
  destruct (surface_bounds _ _ _ 0.31 0.97 A B C D E F) as (tx & ty & c & T & S1); [intros r v Hr Hv; now apply (K' r Hr)|].
  destruct (surface_mono _ _ _ A B C D E F) as (tx' & ty' & c' & T' & S2); [intros r Hr; now apply K'|].
  rewrite T in T'. injection T' as <- <- <-. exists tx, ty, c. splits; auto.
  intros P l. unfold VFD_efficiency. rewrite !tbl_R. change (map tbl VFD_efficiencies) with (map (map Q2R) VFD_efficiencies). rewrite T. cbn [bind].
  rewrite div_hp. cbn [bind]. numR. unfold vfd_load, vfd_power. cbv zeta. unfold Rltb.
  assert (Q2R 400 = 400) by (change 400%Q with (inject_Z 400); apply Q2R_Z). rewrite ?Q2R_3, ?H.
  assert (X : forall r : result R, (v <- r ;; Ok (@pyround R _ _ v 4)) = rmap (fun v => pyround v 4) r) by (intros [|]; reflexivity).
  rewrite X. f_equal. destruct (Rlt_dec (P / horsepower) 3), (Rlt_dec 400 (P / horsepower)), (Rlt_dec l 0.016); reflexivity.
Qed.
Lemma vfd_power_node j : (j < 11)%nat -> vfd_power (Q2R (nth j VFD_efficiency_powers 0%Q) * horsepower) = Q2R (nth j VFD_efficiency_powers 0%Q).
Proof.
  intros Hj. unfold vfd_power. cbv zeta. pose proof hp_pos. replace (Q2R (nth j VFD_efficiency_powers 0%Q) * horsepower / horsepower) with (Q2R (nth j VFD_efficiency_powers 0%Q)) by (field; lra).
  assert (K : forallb (fun q => Qle_bool 3 q && Qle_bool q 400) VFD_efficiency_powers = true) by (vm_compute; reflexivity). rewrite forallb_forall in K.
  specialize (K (nth j VFD_efficiency_powers 0%Q) (nth_In VFD_efficiency_powers 0%Q Hj)). apply andb_prop in K. destruct K as [K1 K2]. apply Qle_lit in K1, K2.
  assert (Q2R 400 = 400) by (change 400%Q with (inject_Z 400); apply Q2R_Z). rewrite Q2R_3 in K1. rewrite H0 in K2.
  destruct (Rlt_dec _ 3); [lra|]. destruct (Rlt_dec 400 _); lra.
Qed.
