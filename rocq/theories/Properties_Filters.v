(** Loss coefficients of screens, nets and grills. *)
From Coq Require Import Reals String List Bool Lra Lia Psatz QArith Qreals.
From Verif Require Import Base Model_Real Proofs_Real Model_Numerics Proofs_Numerics Proofs_Tables Proofs_Tables3 Model_Splines Interval Model_Equipment.
Import ListNotations.
Open Scope R_scope.

(* evaluate a spline on known data *)
Ltac cmp_num := match goal with |- context [Rltb ?x ?y] => first [rewrite (proj2 (Rltb_false x y)) by (lits; lra)|rewrite (proj2 (Rltb_true x y)) by (lits; lra)] end; cbn [orb andb negb Z.eqb Nat.eqb bind].
Ltac spl_step := first [rewrite orb_true_r; cbn [bind]|cmp_num|rewrite pydivR_ok by (lits; lra)]; cbn [map List.length Nat.sub Nat.add idx nth_error bind func_40_splev fpbspl_row dot_from]; numR.
Ltac spl := unfold py_splev, fpbspl; cbn [map List.length Nat.sub Nat.add idx nth_error bind func_40_splev fpbspl_row dot_from]; numR; repeat spl_step.
Definition grill_1 a := 56107142857142843 / 6250000000000000 - 2593749999999999 / 78125000000000 * a + 6214285714285711 / 187500000000000 * a * a.
Definition grill_2 a := 388571428571429267 / 100000000000000000 - 26428571428571499 / 2500000000000000 * a + 2000000000000007 / 250000000000000 * a * a.
Definition grill_3 a := 41999999999999779 / 37500000000000000 - 1928571428571359 / 3750000000000000 * a - 214285714285717 / 187500000000000 * a * a.
Lemma spl1 a : 0.3 <= a < 0.45 -> py_splev a (map Q2R grills_rounded_tck_t) (map Q2R grills_rounded_tck_c) 2 0 = Ok (grill_1 a).
Proof. intros H. unfold grills_rounded_tck_t, grills_rounded_tck_c. spl. f_equal. unfold grill_1. lits. field. Qed.
Lemma spl2 a : 0.45 <= a < 0.55 -> py_splev a (map Q2R grills_rounded_tck_t) (map Q2R grills_rounded_tck_c) 2 0 = Ok (grill_2 a).
Proof. intros H. unfold grills_rounded_tck_t, grills_rounded_tck_c. spl. f_equal. unfold grill_2. lits. field. Qed.
Lemma spl3 a : 0.55 <= a -> py_splev a (map Q2R grills_rounded_tck_t) (map Q2R grills_rounded_tck_c) 2 0 = Ok (grill_3 a).
Proof.
  intros H. unfold grills_rounded_tck_t, grills_rounded_tck_c. destruct (Rle_lt_dec a 0.7) as [L|L].
  - spl. f_equal. unfold grill_3. lits. field.
  - spl. f_equal. unfold grill_3. lits. field.
Qed.

(** a thin grill with rounded edges: from 30 % to 70 % free area the loss falls from 2 to 0.2 *)
Theorem C96_round_grill a b : 0.3 <= a -> a < b -> b <= 0.7 -> exists K K', round_edge_grill a None None None = Ok K /\ round_edge_grill b None None None = Ok K' /\ 0.2 <= K' < K /\ K <= 2.
Proof.
  intros Ha Hab Hb.
  assert (E : forall x, 0.3 <= x <= 0.7 -> exists K, round_edge_grill x None None None = Ok K /\ (x < 0.45 /\ K = grill_1 x \/ 0.45 <= x < 0.55 /\ K = grill_2 x \/ 0.55 <= x /\ K = grill_3 x)).
  { intros x Hx. unfold round_edge_grill. destruct (Rlt_le_dec x 0.45); [|destruct (Rlt_le_dec x 0.55)]; [rewrite spl1 by lra|rewrite spl2 by lra|rewrite spl3 by lra]; cbn [bind]; eexists; (split; [reflexivity|]); auto 6. }
  destruct (E a ltac:(lra)) as (K & E1 & V). destruct (E b ltac:(lra)) as (K' & E2 & V'). exists K, K'. splits; auto; clear E E1 E2; lits; unfold grill_1, grill_2, grill_3 in *;
  destruct V as [[? ->]|[[? ->]|[? ->]]], V' as [[? ->]|[[? ->]|[? ->]]]; nra.
Qed.
(** outside that range the fitted curve is continued instead of held constant: a grill with 80 % free area has a negative loss, i.e. a pressure gain *)
Theorem C96_round_grill_refuted a : 0.8 <= a -> exists K, round_edge_grill a None None None = Ok K /\ K < 0.
Proof. intros H. unfold round_edge_grill. rewrite spl3 by (lits; lra). cbn [bind]. eexists. split; [reflexivity|]. unfold grill_3. lits. nra. Qed.
(** friction is added exactly for a thickness of more than 50 hydraulic diameters *)
Theorem C96_round_grill_friction a l Dh fd K : 0 < a -> 0 < l -> 0 < Dh -> 0 < fd -> round_edge_grill a None None None = Ok K ->
  round_edge_grill a (Some l) (Some Dh) (Some fd) = Ok (if Rlt_dec (50 * Dh) l then K + fd * l / (a * a * Dh) else K).
Proof.
  intros Ha Hl HD Hf. unfold round_edge_grill. destruct (py_splev _ _ _ _ _) as [v|]; cbn [bind]; [|discriminate]. intros G. assert (v = K) by congruence. subst. rewrite !(proj2 (Reqb_false _ _)) by lra.
  destruct (Rlt_dec _ _); [rewrite (proj2 (Rltb_true _ _)) by auto; rewrite pdiv_ok by (apply Rgt_not_eq; posr); reflexivity|rewrite (proj2 (Rltb_false _ _)) by lra; reflexivity].
Qed.

(** a grill with square edges: contraction and exit losses on the velocity in the openings, plus friction in a thick one *)
Theorem C96_square_grill a l Dh fd : 0 < a -> 0 < Dh ->
  square_edge_grill a None None None = Ok ((0.5 * (1 - a) + (1 - a * a)) / (a * a)) /\
  square_edge_grill a (Some l) (Some Dh) (Some fd) = Ok ((0.5 * (1 - a) + (1 - a * a) + (if Rlt_dec (50 * Dh) l then fd * l / Dh else 0)) / (a * a)).
Proof.
  intros Ha HD. assert (0 < a * a) by nra. unfold square_edge_grill. cbv zeta. rewrite !(pdiv_ok (fd * l)) by lra. cbn [bind]. rewrite !pdiv_ok by lra. split; auto.
  destruct (Rlt_dec _ _); [rewrite (proj2 (Rltb_true _ _)) by auto|rewrite (proj2 (Rltb_false _ _)) by lra; rewrite Rplus_0_r]; reflexivity.
Qed.
Lemma frac_anti n n' d d' : 0 < d -> d < d' -> 0 <= n' -> n' < n -> n' / d' < n / d.
Proof. intros. apply Rle_lt_trans with (n' / d). { unfold Rdiv. apply Rmult_le_compat_l; auto. apply Rinv_le_contravar; lra. } apply div_lt_r; auto. Qed.
Theorem C96_square_grill_falls a b : 0 < a -> a < b -> b <= 1 -> exists K K', square_edge_grill a None None None = Ok K /\ square_edge_grill b None None None = Ok K' /\ 0 <= K' < K /\ (b = 1 -> K' = 0).
Proof.
  intros Ha Hab Hb. destruct (C96_square_grill a 0 1 0) as [E _]; try lra. destruct (C96_square_grill b 0 1 0) as [E' _]; try lra. do 2 eexists. splits; eauto.
  - assert (0 < b * b) by nra. apply Rmult_le_pos; [lits; nra|apply Rlt_le, Rinv_0_lt_compat; auto].
  - apply frac_anti; lits; nra.
  - intros ->. lits. field.
Qed.

(** perforated plates and wire screens by tables *)
Theorem C96_square_screen a b : a <= b -> exists K K', square_edge_screen a = Ok K /\ square_edge_screen b = Ok K' /\ 0 <= K' <= K /\ K <= 1024000 /\ (1 <= b -> K' = 0).
Proof.
  intros H. assert (I : increasing (map Q2R square_alphas)) by (apply Qincr_ok; reflexivity). assert (L : (2 <= List.length (map Q2R square_alphas))%nat) by (cbn; lia).
  assert (B : forall x, exists v, interp x (map Q2R square_alphas) (map Q2R square_Ks) None None false = Ok v /\ Q2R 0 <= v <= Q2R 1024000) by (intros; apply interp_bounds; auto; apply Qbetween_ok; reflexivity).
  destruct (B a) as (K & E & B1). destruct (B b) as (K' & E' & B2). exists K, K'. unfold square_edge_screen. rewrite RMicromega.Q2R_0 in *. splits; auto; try lra.
  - apply (interp_anti a b (map Q2R square_alphas) (map Q2R square_Ks) _ _ I eq_refl L); auto. apply Qnonincr_ok. reflexivity.
  - intros Hb. assert (N := interp_node (map Q2R square_alphas) (map Q2R square_Ks) 23 I eq_refl L ltac:(cbn; lia)).
    assert (K' <= at_ (map Q2R square_Ks) 23). { apply (interp_anti (at_ (map Q2R square_alphas) 23) b (map Q2R square_alphas) (map Q2R square_Ks) _ _ I eq_refl L); auto; [apply Qnonincr_ok; reflexivity|cbn; lits; lra]. } cbn in *. lits. lra.
Qed.

Lemma Ires : increasing (map Q2R round_Res). Proof. apply Qincr_ok. reflexivity. Qed.
Lemma Ithetas : increasing (map Q2R round_thetas). Proof. apply Qincr_ok. reflexivity. Qed.
Lemma beta_ok Re : exists b, interp Re (map Q2R round_Res) (map Q2R round_betas) None None false = Ok b /\ 0.52 <= b <= 1.3.
Proof. apply interp_bounds; [apply Ires|reflexivity|cbn; lia|apply Qbetween_ok; reflexivity]. Qed.
Lemma gamma_ok x : exists b, interp x (map Q2R round_thetas) (map Q2R round_gammas) None None false = Ok b /\ 0.09 <= b <= Q2R 1.
Proof. apply interp_bounds; [apply Ithetas|reflexivity|cbn; lia|apply Qbetween_ok; reflexivity]. Qed.
Lemma cos_range x : 0 <= x <= 45 -> 1 / 2 <= cos (radians x) * cos (radians x) <= 1.
Proof.
  intros H. pose proof PI_RGT_0. assert (Y : 0 <= radians x <= PI / 4) by (unfold radians; nra). set (y := radians x) in *. clearbody y.
  assert (C1 : cos (PI / 4) <= cos y) by (apply cos_decr_1; lra). assert (C2 : cos y <= 1) by apply COS_bound. rewrite cos_PI4 in C1.
  assert (S : 1 / sqrt 2 * (1 / sqrt 2) = 1 / 2). { assert (sqrt 2 * sqrt 2 = 2) by (apply sqrt_sqrt; lra). assert (0 < sqrt 2) by (apply sqrt_lt_R0; lra). replace (1 / sqrt 2 * (1 / sqrt 2)) with (1 / (sqrt 2 * sqrt 2)) by (field; lra). now rewrite H1. }
  assert (0 < 1 / sqrt 2) by (apply Rdiv_lt_0_compat; [lra|apply sqrt_lt_R0; lra]). nra.
Qed.

(** wire screens: the loss is a coefficient of the Reynolds number, times (1 - a^2)/a^2, times a factor of the inclination that is 1 for a perpendicular screen *)
Theorem C96_round_screen : exists beta tilt : R -> R,
  (forall a Re angle, 0 < a -> 0 <= angle -> round_edge_screen a Re angle = Ok (beta Re * ((1 - a * a) / (a * a)) * tilt angle)) /\
  (forall Re Re', Re <= Re' -> 0.52 <= beta Re' <= beta Re /\ beta Re <= 1.3) /\
  (forall angle, 0 <= angle -> 0.09 <= tilt angle <= 1) /\ tilt 0 = 1 /\
  (forall x y, 0 <= x -> x <= y -> y <= 45 \/ 45 < x -> tilt y <= tilt x).
Proof.
  exists (fun Re => match interp Re (map Q2R round_Res) (map Q2R round_betas) None None false with Ok b => b | _ => 0 end),
    (fun x => if Rleb x 45 then cos (radians x) * cos (radians x) else match interp x (map Q2R round_thetas) (map Q2R round_gammas) None None false with Ok b => b | _ => 0 end).
  splits.
  - intros a Re x Ha Hx. unfold round_edge_screen. destruct (beta_ok Re) as (b & -> & _). cbn [bind]. cbv zeta. assert (0 < a * a) by nra. rewrite pdiv_ok by lra. cbn [bind]. rcase; cbn [bind]; [f_equal; field; lra|]. destruct (gamma_ok x) as (c & -> & _). cbn [bind]. f_equal. field. lra.
  - intros Re Re' H. destruct (beta_ok Re) as (b & E & B). destruct (beta_ok Re') as (b' & E' & B'). rewrite E, E'. splits; try lra. apply (interp_anti Re Re' (map Q2R round_Res) (map Q2R round_betas)); auto; [apply Ires|cbn; lia|apply Qnonincr_ok; reflexivity].
  - intros x Hx. rcase. { pose proof (cos_range x ltac:(lra)). lits. lra. } destruct (gamma_ok x) as (c & -> & B). lits. lra.
  - rcase; [|lra]. unfold radians. rewrite Rmult_0_l, cos_0 || (replace (_ * 0) with 0 by ring; rewrite cos_0). ring.
  - intros x y H1 H2 H3. destruct (Rle_lt_dec y 45) as [L|L].
    + rewrite !(proj2 (Rleb_true _ _)) by lra. pose proof PI_RGT_0. assert (C : cos (radians y) <= cos (radians x)) by (unfold radians; apply cos_decr_1; nra). assert (0 <= cos (radians y)) by (unfold radians; apply cos_ge_0; nra). nra.
    + rewrite !(proj2 (Rleb_false _ _)) by lra. destruct (gamma_ok x) as (c & E & _), (gamma_ok y) as (d & E' & _). rewrite E, E'. apply (interp_anti x y (map Q2R round_thetas) (map Q2R round_gammas)); auto; [apply Ithetas|cbn; lia|apply Qnonincr_ok; reflexivity].
Qed.
Theorem C96_round_screen_falls a b Re angle : 0 < a -> a < b -> b <= 1 -> 0 <= angle -> exists K K', round_edge_screen a Re angle = Ok K /\ round_edge_screen b Re angle = Ok K' /\ 0 <= K' < K /\ (b = 1 -> K' = 0).
Proof.
  intros Ha Hab Hb Hx. destruct C96_round_screen as (f & t & E & F & T & _). specialize (F Re Re ltac:(lra)). specialize (T angle Hx). rewrite !E by lra. do 2 eexists. splits; try reflexivity.
  - assert (0 <= (1 - b * b) / (b * b)) by (apply Rmult_le_pos; [nra|apply Rlt_le, Rinv_0_lt_compat; nra]). apply Rmult_le_pos; [apply Rmult_le_pos; auto; lits; lra|lits; lra].
  - assert ((1 - b * b) / (b * b) < (1 - a * a) / (a * a)) by (apply frac_anti; nra). apply Rmult_lt_compat_r; [lits; lra|]. apply Rmult_lt_compat_l; [lits; lra|auto].
  - intros ->. field.
Qed.
(** turning the screen from 45 to 46 degrees raises its loss: the two inclination rules do not meet *)
Theorem C96_round_screen_refuted a Re : 0 < a -> a < 1 -> exists K K', round_edge_screen a Re 45 = Ok K /\ round_edge_screen a Re 46 = Ok K' /\ K < K'.
Proof.
  intros Ha Ha1. assert (0 < a * a) by nra. unfold round_edge_screen. destruct (beta_ok Re) as (b & -> & B). cbn [bind]. cbv zeta. rewrite pdiv_ok by lra. cbn [bind]. rewrite (proj2 (Rleb_true 45 45)) by lra. rewrite (proj2 (Rleb_false 46 45)) by lra. cbn [bind].
  assert (E : interp 46 (map Q2R round_thetas) (map Q2R round_gammas) None None false = Ok 0.506).
  { rewrite (interp_inside _ _ _ _ _ _ 4); [|apply Ithetas|reflexivity|cbn; lia|cbn; lits; lra]. f_equal. unfold line. cbn. lits. field. }
  rewrite E. cbn [bind]. do 2 eexists. splits; try reflexivity. replace (radians 45) with (PI / 4) by (unfold radians; field). rewrite cos_PI4.
  replace (1 / sqrt 2 * (1 / sqrt 2)) with (1 / 2). 2:{ assert (sqrt 2 * sqrt 2 = 2) by (apply sqrt_sqrt; lra). assert (0 < sqrt 2) by (apply sqrt_lt_R0; lra). replace (1 / sqrt 2 * (1 / sqrt 2)) with (1 / (sqrt 2 * sqrt 2)) by (field; lra). now rewrite H0. }
  apply Rmult_lt_compat_l; [|lits; lra]. apply Rdiv_lt_0_compat; auto. apply Rmult_lt_0_compat; [lits; lra|nra].
Qed.

(** open meshes *)
Definition mesh (subtype : string) : option (R * R) :=
  if String.eqb subtype "round bar screen" then Some (0.95, 0.2) else if String.eqb subtype "diamond pattern wire" then Some (0.67, 1.3)
  else if String.eqb subtype "knotted net" then Some (0.7, 4.9) else if String.eqb subtype "knotless net" then Some (0.72, 2.1) else None.
Theorem C96_open_mesh s angle : 0 <= angle ->
  match mesh s with
  | Some (p, q) => exists t, 0.09 <= t <= 1 /\ (angle = 0 -> t = 1) /\ forall a, round_edge_open_mesh a s angle = Ok ((p * (1 - a) + q * (1 - a) ^ 2) * t)
  | None => forall a, round_edge_open_mesh a s angle = Err ValueError
  end.
Proof.
  intros Hx.
  assert (T : exists t, 0.09 <= t <= 1 /\ (angle = 0 -> t = 1) /\ forall K, (K <- (if Rltb angle 45 then let K := K * cos (radians angle) ^ 2 in Ok K else t1 <- interp angle (map Q2R round_thetas) (map Q2R round_gammas) None None false ;; let K := K * t1 in Ok K) ;; Ok K) = Ok (K * t)).
  { rcase. - exists (cos (radians angle) ^ 2). pose proof (cos_range angle ltac:(lra)). splits; auto; [lits; lra|lra|]. intros ->. unfold radians. rewrite Rmult_0_l, cos_0. ring.
    - destruct (gamma_ok angle) as (g & -> & B). exists g. splits; auto; [lits; lra|lits; lra|]. intros ->. lra. }
  destruct T as (t & T1 & T2 & T3). unfold mesh, round_edge_open_mesh. cbv zeta in T3. cbv zeta.
  repeat (match goal with |- context [String.eqb s ?x] => destruct (String.eqb s x) end; cbn [bind]; [exists t; splits; auto; try lra; intros a; rewrite T3; f_equal; ring|]). reflexivity.
Qed.
Theorem C96_open_mesh_falls s angle a b : 0 <= angle -> mesh s <> None -> 0 < a -> a < b -> b <= 1 ->
  exists K K', round_edge_open_mesh a s angle = Ok K /\ round_edge_open_mesh b s angle = Ok K' /\ 0 <= K' < K /\ (b = 1 -> K' = 0).
Proof.
  intros Hx Hm Ha Hab Hb. pose proof (C96_open_mesh s angle Hx) as M. destruct (mesh s) as [[p q]|] eqn:E; [|now elim Hm]. destruct M as (t & T & _ & M). rewrite !M.
  assert (PQ : 0 < p /\ 0 < q). { unfold mesh in E. repeat match type of E with context [String.eqb s ?x] => destruct (String.eqb s x) end; try discriminate; assert (G : forall x y z w : R, Some (x, y) = Some (z, w) -> x = z /\ y = w) by (intros; split; congruence); apply G in E; destruct E as [<- <-]; lits; lra. }
  assert (T' : 0 < t) by (lits; lra). destruct PQ. do 2 eexists. splits; try reflexivity.
  - apply Rmult_le_pos; [|lra]. apply Rplus_le_le_0_compat; apply Rmult_le_pos; try lra. apply pow2_ge_0.
  - apply Rmult_lt_compat_r; auto. assert ((1 - b) ^ 2 < (1 - a) ^ 2) by nra. nra.
  - intros ->. ring.
Qed.

(** documented calls lie inside the hypotheses *)
Example C96_case : mesh "diamond pattern wire" <> None /\ mesh "chain" = None /\ 0.3 <= 0.4 < 0.5.
Proof. splits; try discriminate; auto; lits; lra. Qed.
Example C96_case_mesh : exists t, round_edge_open_mesh 0.96 "diamond pattern wire" 0 = Ok t /\ 0.0288 < t < 0.0289.
Proof.
  pose proof (C96_open_mesh "diamond pattern wire" 0 ltac:(lra)) as M. cbn in M. destruct M as (t & _ & T & M). eexists. split; [apply M|]. rewrite T by auto. lits. split; lra.
Qed.

Print Assumptions C96_round_grill.
Print Assumptions C96_round_grill_refuted.
Print Assumptions C96_round_grill_friction.
Print Assumptions C96_square_grill.
Print Assumptions C96_square_grill_falls.
Print Assumptions C96_square_screen.
Print Assumptions C96_round_screen.
Print Assumptions C96_round_screen_falls.
Print Assumptions C96_round_screen_refuted.
Print Assumptions C96_open_mesh.
Print Assumptions C96_open_mesh_falls.
