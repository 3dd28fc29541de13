(** Mixing times and in-line mixing quality. *)
From Coq Require Import Reals String List Bool Lra Lia Psatz.
From Verif Require Import Base Model_Real Proofs_Real Proofs_Ln Interval Model_Equipment.
Import ListNotations.
Open Scope R_scope.

(** *** Agitated vessels *)
(** the fraction still unmixed decays exponentially: 95 % is the reference *)
Theorem C98_homogeneity : adjust_homogeneity 0.95 = Ok 1 /\
  forall x y, 0 < x -> x < y -> y < 1 -> exists m m', adjust_homogeneity x = Ok m /\ adjust_homogeneity y = Ok m' /\ 0 < m < m' /\ 1 - x = Rpower 0.05 m.
Proof.
  assert (L : ln 0.05 < 0) by itv 0%nat. split.
  - unfold adjust_homogeneity. replace (1 - 0.95) with 0.05 by (lits; field). rewrite !plog_ok by (lits; lra). cbn [bind]. rewrite pdiv_ok by lra. f_equal. field. lra.
  - intros x y Hx Hxy Hy. unfold adjust_homogeneity. rewrite !plog_ok by (lits; lra). cbn [bind]. rewrite !pdiv_ok by lra. do 2 eexists. splits; try reflexivity.
    + assert (ln (1 - x) < 0) by (rewrite <- ln_1; apply ln_increasing; lra). replace (ln (1 - x) / ln 0.05) with ((- ln (1 - x)) / (- ln 0.05)) by (field; lra). apply Rdiv_lt_0_compat; lra.
    + assert (ln (1 - y) < ln (1 - x)) by (apply ln_increasing; lra). replace (ln (1 - x) / ln 0.05) with ((- ln (1 - x)) / (- ln 0.05)) by (field; lra). replace (ln (1 - y) / ln 0.05) with ((- ln (1 - y)) / (- ln 0.05)) by (field; lra). apply div_lt_r; lra.
    + unfold Rpower. replace (ln (1 - x) / ln 0.05 * ln 0.05) with (ln (1 - x)) by (field; lra). rewrite exp_ln; lra.
Qed.

(** power number and impeller Reynolds number (the documented power number carries a factor g) *)
Definition Np (N P rho D : R) : R := P * 9.80665 / rho / N ^ 3 / D ^ 5.
Definition Re_imp (N rho mu D : R) : R := rho / mu * D ^ 2 * N.
Definition mixing_group (N P rho mu D : R) : R := Rpower (Np N P rho D) (1 / 3) * Re_imp N rho mu D.

(** turbulent mixing times do not depend on the viscosity; below the regime limit they grow with it *)
Theorem C98_agitator N P T H mu rho D h : 0 < N -> 0 < P -> 0 < T -> 0 < H -> 0 < mu -> 0 < rho -> 0 < D -> 0 < h -> h < 1 ->
  exists m, adjust_homogeneity h = Ok m /\ 0 < m /\
  let c := mixing_group N P rho mu D in
  agitator_time_homogeneous N P T H mu rho (Some D) h =
    Ok (if Rle_dec 6370 c then 5.2 * Rpower T 1.5 * sqrt H / (Rpower (Np N P rho D) (1 / 3) * N * D ^ 2) * m
        else 183 ^ 2 * mu * Rpower T 1.5 * sqrt H / (rho * (Rpower (Np N P rho D) (1 / 3) * N * D ^ 2) ^ 2) * m).
Proof.
  intros HN HP HT HH Hmu Hrho HD H0 H1. destruct C98_homogeneity as [_ C]. destruct (C h ((1 + h) / 2)) as (m & m2 & E & _ & M & _); try lra. exists m. split; auto. split; [lra|]. cbv zeta.
  assert (0 < 9.80665) by (lits; lra). unfold agitator_time_homogeneous. rewrite (proj2 (Reqb_false D 0)) by lra. cbn [bind]. rewrite !(pdiv_ok (P * 9.80665)) by lra. cbn [bind]. rewrite pdiv_ok by posr. cbn [bind]. rewrite pdiv_ok by posr. cbn [bind]. rewrite (pdiv_ok rho) by lra. cbn [bind]. cbv zeta.
  fold (Np N P rho D). assert (0 < Np N P rho D) by (unfold Np; posr). rewrite ppow_ok by auto. cbn [bind]. fold (Re_imp N rho mu D). fold (mixing_group N P rho mu D). set (c := mixing_group N P rho mu D) in *. assert (Hc : 0 < c) by (unfold c, mixing_group, Re_imp; posr).
  rewrite E. rewrite !(ppow_ok T), !(psqrt_ok H) by lra. cbn [bind]. assert (0 < Rpower (Np N P rho D) (1 / 3)) by apply Rpower_pos. destruct (Rle_dec 6370 c) as [G|G].
  - rewrite (proj2 (Rleb_true _ _)) by auto. rewrite pdiv_ok by lra. cbn [bind]. rewrite pdiv_ok by lra. cbn [bind]. f_equal. unfold c, mixing_group, Re_imp. field. splits; try lra; apply Rgt_not_eq; posr.
  - rewrite (proj2 (Rleb_false _ _)) by lra. rewrite pdiv_ok by lra. cbn [bind]. rewrite pdiv_ok by lra. cbn [bind]. f_equal. unfold c, mixing_group, Re_imp. field. splits; try lra; apply Rgt_not_eq; posr.
Qed.
(** without a diameter (or with 0) the impeller is half the tank *)
Theorem C98_agitator_default N P T H mu rho h : agitator_time_homogeneous N P T H mu rho None h = agitator_time_homogeneous N P T H mu rho (Some 0) h /\
  (T <> 0 -> agitator_time_homogeneous N P T H mu rho None h = agitator_time_homogeneous N P T H mu rho (Some (T / 2)) h).
Proof.
  unfold agitator_time_homogeneous. rewrite (proj2 (Reqb_true 0 0)) by auto. split; auto. intros HT. rewrite (proj2 (Reqb_false (T / 2) 0)) by lra. cbn [bind]. replace (T * 0.5) with (T / 2) by (lits; field). reflexivity.
Qed.
Lemma Fo_falls c c' : 0 < c -> c < c' -> 0 < (if Rle_dec 6370 c' then 5.2 / c' else (183 / c') ^ 2) < (if Rle_dec 6370 c then 5.2 / c else (183 / c) ^ 2).
Proof.
  intros Hc Hcc. assert (S : forall a b, 0 < a -> a < b -> (183 / b) ^ 2 < (183 / a) ^ 2). { intros a b Ha Hab. assert (183 / b < 183 / a) by (apply div_lt_l; lra). assert (0 < 183 / b) by (apply Rdiv_lt_0_compat; lra). nra. }
  assert (0 < 5.2) by (lits; lra). split; [destruct (Rle_dec 6370 c'); posr|]. destruct (Rle_dec 6370 c'), (Rle_dec 6370 c); try lra.
  - apply div_lt_l; lra.
  - apply Rle_lt_trans with (5.2 / 6370). { apply div_le_l; lra. } apply Rlt_trans with ((183 / 6370) ^ 2). { lits. lra. } apply S; lra.
  - apply S; lra.
Qed.
(** more power mixes faster, across the change of regime too; a higher target takes longer *)
Theorem C98_agitator_power N P P' T H mu rho D h : 0 < N -> 0 < P -> P < P' -> 0 < T -> 0 < H -> 0 < mu -> 0 < rho -> 0 < D -> 0 < h -> h < 1 ->
  exists t t', agitator_time_homogeneous N P T H mu rho (Some D) h = Ok t /\ agitator_time_homogeneous N P' T H mu rho (Some D) h = Ok t' /\ 0 < t' < t.
Proof.
  intros HN HP HPP HT HH Hmu Hrho HD H0 H1. destruct (C98_agitator N P T H mu rho D h) as (m & E & Hm & A); auto. destruct (C98_agitator N P' T H mu rho D h) as (m' & E' & _ & A'); auto; [lra|]. assert (m' = m) by congruence. subst m'. cbv zeta in *. rewrite A, A'. do 2 eexists. splits; try reflexivity; clear A A' E E'.
  all: assert (0 < 9.80665) by (lits; lra). all: set (q := fun P => Rpower (Np N P rho D) (1 / 3)) in *.
  all: assert (Q : 0 < q P < q P') by (unfold q; split; [apply Rpower_pos|apply Rpower_lt_l; [unfold Np; posr| |lra]]; unfold Np; repeat (apply div_lt_r; [posr|]); apply Rmult_lt_compat_r; auto).
  all: assert (CC : forall P, mixing_group N P rho mu D = q P * Re_imp N rho mu D) by reflexivity. all: change (Rpower (Np N P rho D) (1 / 3)) with (q P) in *; change (Rpower (Np N P' rho D) (1 / 3)) with (q P') in *.
  all: rewrite ?CC in *. all: assert (HR : 0 < Re_imp N rho mu D) by (unfold Re_imp; posr).
  all: assert (V : forall P, 0 < q P -> (if Rle_dec 6370 (q P * Re_imp N rho mu D) then 5.2 * Rpower T 1.5 * sqrt H / (q P * N * D ^ 2) * m else 183 ^ 2 * mu * Rpower T 1.5 * sqrt H / (rho * (q P * N * D ^ 2) ^ 2) * m)
    = rho * Rpower T 1.5 * sqrt H / mu * m * (if Rle_dec 6370 (q P * Re_imp N rho mu D) then 5.2 / (q P * Re_imp N rho mu D) else (183 / (q P * Re_imp N rho mu D)) ^ 2)) by (intros X HX; destruct (Rle_dec _ _); unfold Re_imp; field; splits; lra).
  all: rewrite !V by lra. all: assert (F := Fo_falls (q P * Re_imp N rho mu D) (q P' * Re_imp N rho mu D) ltac:(apply Rmult_lt_0_compat; lra) ltac:(apply Rmult_lt_compat_r; lra)). all: assert (K : 0 < rho * Rpower T 1.5 * sqrt H / mu * m) by posr.
  - apply Rmult_lt_0_compat; lra.
  - apply Rmult_lt_compat_l; lra.
Qed.
Theorem C98_agitator_target N P T H mu rho D h h' : 0 < N -> 0 < P -> 0 < T -> 0 < H -> 0 < mu -> 0 < rho -> 0 < D -> 0 < h -> h < h' -> h' < 1 ->
  exists t t', agitator_time_homogeneous N P T H mu rho (Some D) h = Ok t /\ agitator_time_homogeneous N P T H mu rho (Some D) h' = Ok t' /\ 0 < t < t'.
Proof.
  intros HN HP HT HH Hmu Hrho HD H0 H1 H2. destruct C98_homogeneity as [_ C]. destruct (C h h') as (m & m' & E & E' & M & _); auto. clear C.
  destruct (C98_agitator N P T H mu rho D h) as (n & F & _ & A); auto; [lra|]. destruct (C98_agitator N P T H mu rho D h') as (n' & F' & _ & A'); auto; [lra|]. assert (n = m) by congruence. assert (n' = m') by congruence. subst n n'. cbv zeta in *. rewrite A, A'. do 2 eexists. split; [reflexivity|]. split; [reflexivity|].
  assert (0 < 5.2) by (lits; lra). assert (0 < m) by lra. assert (0 < 9.80665) by (lits; lra). destruct (Rle_dec _ _); (split; [posr|]; apply Rmult_lt_compat_l; [posr|lra]).
Qed.

(** *** Helical ribbons *)
Theorem C98_ribbon Kp Kp' N : 0 < Kp -> Kp < Kp' -> 0 < N -> exists t t', time_helical_ribbon_Grenville Kp N = Ok t /\ time_helical_ribbon_Grenville Kp' N = Ok t' /\ 0 < t' < t /\ time_helical_ribbon_Grenville Kp (2 * N) = Ok (t / 2).
Proof.
  intros. unfold time_helical_ribbon_Grenville. rewrite !ppow_ok by lra. cbn [bind]. rewrite !pdiv_ok by lra. do 2 eexists. splits; try reflexivity; [posr| |f_equal; field; lra]. apply div_lt_r; auto. apply Rmult_lt_compat_l; [lra|]. apply Rpower_anti_lt_l; auto; lits; lra.
Qed.
Theorem C98_ribbon_power D h nb pitch width T : 0 < D -> D < T -> 0 < h -> 0 < nb -> 0 < pitch -> 0 < width -> exists K, Kp_helical_ribbon_Rieger D h nb pitch width T = Ok K /\ 0 < K /\
  (forall T', T < T' -> exists K', Kp_helical_ribbon_Rieger D h nb pitch width T' = Ok K' /\ 0 < K' < K) /\
  (forall k, 0 < k -> Kp_helical_ribbon_Rieger (k * D) (k * h) nb (k * pitch) (k * width) (k * T) = Ok K).
Proof.
  intros HD HT Hh Hn Hp Hw. assert (0 < 82.8) by (lits; lra). assert (0 < 0.5) by (lits; lra). unfold Kp_helical_ribbon_Rieger. cbv zeta.
  assert (F : forall D h pitch width T, 0 < D -> D < T -> 0 < h -> 0 < pitch -> 0 < width -> (t1 <- pdiv (82.8 * h) D ;; t2 <- pdiv (0.5 * (T - D)) D ;; t3 <- ppow t2 (- 0.38) ;; t4 <- pdiv pitch D ;; t5 <- ppow t4 (- 0.35) ;; t6 <- pdiv width D ;; t7 <- ppow t6 0.2 ;; t8 <- ppow nb 0.78 ;; Ok (t1 * t3 * t5 * t7 * t8))
    = Ok (82.8 * h / D * Rpower (0.5 * (T - D) / D) (- 0.38) * Rpower (pitch / D) (- 0.35) * Rpower (width / D) 0.2 * Rpower nb 0.78)).
  { intros. assert (0 < T0 - D0) by lra. mrun. reflexivity. }
  rewrite F by auto. eexists. split; [reflexivity|]. split; [assert (0 < T - D) by lra; posr|]. split.
  - intros T' HT'. rewrite F by (auto; lra). eexists. split; [reflexivity|]. split; [assert (0 < T' - D) by lra; posr|]. do 3 (apply Rmult_lt_compat_r; [posr|]). apply Rmult_lt_compat_l; [posr|]. apply Rpower_anti_lt_l; [assert (0 < T - D) by lra; posr|apply div_lt_r; auto; apply Rmult_lt_compat_l; lra|lits; lra].
  - intros k Hk. rewrite F; try (apply Rmult_lt_0_compat; auto); [|apply Rmult_lt_compat_l; auto]. f_equal.
    replace (82.8 * (k * h) / (k * D)) with (82.8 * h / D) by (field; lra). replace (0.5 * (k * T - k * D) / (k * D)) with (0.5 * (T - D) / D) by (field; lra). replace (k * pitch / (k * D)) with (pitch / D) by (field; lra). replace (k * width / (k * D)) with (width / D) by (field; lra). reflexivity.
Qed.

(** *** Static mixers: every length of mixer leaves the same fraction of the variation *)
Theorem C98_static_mixer Ki Q1 Q2 x y : 0 < Ki -> Ki < 1 -> 0 < Q1 -> 0 < Q2 -> x < y ->
  exists c c0 c', COV_motionless_mixer Ki Q1 Q2 0 = Ok c0 /\ c0 = sqrt (Q1 / Q2) /\ COV_motionless_mixer Ki Q1 Q2 x = Ok c /\ COV_motionless_mixer Ki Q1 Q2 y = Ok c' /\ 0 < c' < c /\ c' = c * Rpower Ki (y - x).
Proof.
  intros H0 H1 HQ1 HQ2 Hxy. assert (F : forall z, COV_motionless_mixer Ki Q1 Q2 z = Ok (sqrt (Q1 / Q2) * Rpower Ki z)).
  { intros z. unfold COV_motionless_mixer. rewrite pdiv_ok by lra. cbn [bind]. assert (0 < Q2 / (Q1 + Q2)) by (apply Rdiv_lt_0_compat; lra). rewrite pdiv_ok by lra. cbn [bind]. replace ((1 - Q2 / (Q1 + Q2)) / (Q2 / (Q1 + Q2))) with (Q1 / Q2) by (field; splits; lra). rewrite psqrt_ok by (apply Rlt_le; posr). cbn [bind]. rewrite ppow_ok by auto. reflexivity. }
  assert (S : 0 < sqrt (Q1 / Q2)) by posr. assert (L : ln Ki < 0) by (rewrite <- ln_1; apply ln_increasing; lra).
  exists (sqrt (Q1 / Q2) * Rpower Ki x), (sqrt (Q1 / Q2)), (sqrt (Q1 / Q2) * Rpower Ki y). rewrite !F. splits; auto.
  - f_equal. rewrite Rpower_O by auto. ring.
  - posr.
  - apply Rmult_lt_compat_l; auto. apply exp_increasing. nra.
  - rewrite Rmult_assoc, <- Rpower_plus. do 2 f_equal. ring.
Qed.
Theorem C98_static_mixer_loss K L L' D fd : 0 < D -> exists k k', K_motionless_mixer K L D fd = Ok k /\ K_motionless_mixer K L' D fd = Ok k' /\ K_motionless_mixer K (L + L') D fd = Ok (k + k') /\ k = K * (fd * L / D).
Proof. intros HD. unfold K_motionless_mixer. rewrite !pdiv_ok by lra. cbn [bind]. do 2 eexists. splits; try reflexivity; [f_equal|]; field; lra. Qed.

(** *** Mixing tees *)
(** momentum of the side jets relative to the main flow *)
Definition jet_strength (Q1 Q2 D D2 n : R) : R := n ^ 2 * (Q2 / Q1) ^ 2 * (D / D2) ^ 2.
Definition tee_exponent (n B : R) : R :=
  if Reqb n 1 then if Rltb B 0.7 then 1.33 else 1 / 33 + 0.95 * ln (B / 0.7)
  else if Reqb n 2 then if Rleb B 0.8 then 1.44 else 1.44 + 0.95 * Rpower (ln (B / 0.8)) 1.5
  else if Reqb n 3 then if Rleb B 0.8 then 1.75 else 1.75 + 0.95 * Rpower (ln (B / 0.8)) 1.8
  else if Rltb B 2 then 1.97 else 1.97 + 0.95 * ln (B / 2) ^ 2.
Lemma ppow_pos0 e : 0 < e -> ppow 0 e = Ok 0.
Proof. intros. apply ppow_0. lra. Qed.
Theorem C98_tee Q1 Q2 D D2 n x : 0 < Q1 -> 0 < Q2 -> 0 < D -> 0 < D2 -> 0 < x -> n = 1 \/ n = 2 \/ n = 3 \/ n = 4 ->
  let B := jet_strength Q1 Q2 D D2 n in size_tee Q1 Q2 D (Some D2) n x = Ok (sqrt (0.32 / Rpower B 0.86 * Rpower x (- tee_exponent n B))).
Proof.
  intros HQ1 HQ2 HD HD2 Hx Hn B. pose proof PI_RGT_0. assert (0 < 0.32) by (lits; lra). unfold size_tee. rewrite (pdiv_ok Q1) by posr. cbn [bind]. rewrite (pdiv_ok Q2) by posr. cbn [bind]. rewrite (pdiv_ok D2) by lra. cbn [bind]. rewrite pdiv_ok by posr. cbn [bind]. cbv zeta.
  match goal with |- context [n ^ 2 * ?a * ?b] => replace (n ^ 2 * a * b) with B by (unfold B, jet_strength; field; splits; lra) end.
  assert (HB : 0 < B). { unfold B, jet_strength. assert (0 < n) by lra. posr. } clearbody B.
  assert (Z : negb (Reqb n 1) && negb (Reqb n 2) && negb (Reqb n 3) && negb (Reqb n 4) = false). { destruct Hn as [-> |[-> |[-> | ->]]]; [rewrite (proj2 (Reqb_true 1 1)) by auto|rewrite (proj2 (Reqb_true 2 2)) by auto|rewrite (proj2 (Reqb_true 3 3)) by auto|rewrite (proj2 (Reqb_true 4 4)) by auto]; cbn [negb]; rewrite ?andb_false_r; auto. }
  rewrite Z.
  match goal with |- (E <- ?e ;; _) = _ => assert (EE : e = Ok (tee_exponent n B)) end.
  { unfold tee_exponent. assert (L : forall c, 0 < c -> c < B -> 0 < ln (B / c)). { intros c Hc G. rewrite <- ln_1. apply ln_increasing; [lra|]. replace 1 with (c / c) by (field; lra). apply div_lt_r; auto. }
    destruct (Reqb n 1); [|destruct (Reqb n 2); [|destruct (Reqb n 3)]]; rcase.
    - reflexivity.
    - rewrite plog_ok by (apply Rdiv_lt_0_compat; auto; lits; lra). reflexivity.
    - rewrite (proj2 (Rleb_true _ _)) by lra. reflexivity.
    - rewrite plog_ok by (apply Rdiv_lt_0_compat; auto; lits; lra). cbn [bind]. rcase.
      + replace B with 0.8 by lra. replace (0.8 / 0.8) with 1 by (lits; field). rewrite ln_1, ppow_pos0 by (lits; lra). cbn [bind]. f_equal. ring.
      + rewrite ppow_ok by (apply L; lits; lra). reflexivity.
    - rewrite (proj2 (Rleb_true _ _)) by lra. reflexivity.
    - rewrite plog_ok by (apply Rdiv_lt_0_compat; auto; lits; lra). cbn [bind]. rcase.
      + replace B with 0.8 by lra. replace (0.8 / 0.8) with 1 by (lits; field). rewrite ln_1, ppow_pos0 by (lits; lra). cbn [bind]. f_equal. ring.
      + rewrite ppow_ok by (apply L; lits; lra). reflexivity.
    - reflexivity.
    - rewrite plog_ok by posr. reflexivity. }
  rewrite EE. cbn [bind]. rewrite ppow_ok by auto. cbn [bind]. rewrite pdiv_ok by posr. cbn [bind]. rewrite ppow_ok by auto. cbn [bind]. apply psqrt_ok. apply Rlt_le. posr.
Qed.
Theorem C98_tee_jets Q1 Q2 D D2 n x : 0 < Q1 -> 0 < Q2 -> 0 < D -> 0 < D2 -> n <> 1 -> n <> 2 -> n <> 3 -> n <> 4 -> size_tee Q1 Q2 D (Some D2) n x = Err ValueError.
Proof.
  intros HQ1 HQ2 HD HD2 N1 N2 N3 N4. pose proof PI_RGT_0. unfold size_tee. rewrite (pdiv_ok Q1) by posr. cbn [bind]. rewrite (pdiv_ok Q2) by posr. cbn [bind]. rewrite (pdiv_ok D2) by lra. cbn [bind]. rewrite pdiv_ok by posr. cbn [bind]. cbv zeta.
  rewrite (proj2 (Reqb_false n 1)), (proj2 (Reqb_false n 2)), (proj2 (Reqb_false n 3)), (proj2 (Reqb_false n 4)) by auto. reflexivity.
Qed.
(** the default injector diameter *)
Theorem C98_tee_default Q1 Q2 D n x : 0 < Q1 -> 0 < Q2 -> 0 < D -> size_tee Q1 Q2 D None n x = size_tee Q1 Q2 D (Some (Rpower (Q2 / Q1) (2 / 3) * D)) n x.
Proof. intros. pose proof PI_RGT_0. unfold size_tee. rewrite (pdiv_ok Q1) by posr. cbn [bind]. rewrite (pdiv_ok Q2 Q1) by lra. cbn [bind]. rewrite ppow_ok by posr. reflexivity. Qed.
Lemma ln_pos_ge c B : 0 < c -> c <= B -> 0 <= ln (B / c).
Proof. intros Hc H. rewrite <- ln_1. assert (1 <= B / c). { replace 1 with (c / c) by (field; lra). now apply div_le_r. } destruct H0 as [G|G]; [left; apply ln_increasing; lra|rewrite <- G; lra]. Qed.
Lemma tee_exponent_pos n B : 0 < B -> 0 < tee_exponent n B.
Proof.
  intros HB. unfold tee_exponent. destruct (Reqb n 1); [|destruct (Reqb n 2); [|destruct (Reqb n 3)]]; rcase; try (lits; lra).
  - pose proof (ln_pos_ge 0.7 B ltac:(lits; lra) ltac:(lra)). lits. lra.
  - pose proof (Rpower_pos (ln (B / 0.8)) 1.5). lits. lra.
  - pose proof (Rpower_pos (ln (B / 0.8)) 1.8). lits. lra.
  - pose proof (pow2_ge_0 (ln (B / 2))). lits. lra.
Qed.
(** the variation dies out along the pipe *)
Theorem C98_tee_length Q1 Q2 D D2 n x y : 0 < Q1 -> 0 < Q2 -> 0 < D -> 0 < D2 -> 0 < x -> x < y -> n = 1 \/ n = 2 \/ n = 3 \/ n = 4 ->
  exists c c', size_tee Q1 Q2 D (Some D2) n x = Ok c /\ size_tee Q1 Q2 D (Some D2) n y = Ok c' /\ 0 < c' < c.
Proof.
  intros HQ1 HQ2 HD HD2 Hx Hxy Hn. rewrite !C98_tee by (auto; lra). set (B := jet_strength _ _ _ _ _). assert (HB : 0 < B) by (unfold B, jet_strength; assert (0 < n) by lra; posr). pose proof (tee_exponent_pos n B HB). assert (0 < 0.32) by (lits; lra).
  do 2 eexists. split; [reflexivity|]. split; [reflexivity|]. split; [posr|]. apply sqrt_lt_1_alt. split; [apply Rlt_le; posr|]. apply Rmult_lt_compat_l; [posr|]. apply Rpower_anti_lt_l; auto; lra.
Qed.
(** stronger jets (two, three or four of them) mix better *)
Lemma Rpower_exp_anti x a b : 1 <= x -> a <= b -> Rpower x (- b) <= Rpower x (- a).
Proof. intros Hx H. assert (0 <= ln x) by (rewrite <- ln_1; destruct Hx as [G| <-]; [left; apply ln_increasing; lra|lra]). assert (- b * ln x <= - a * ln x) by nra. unfold Rpower. destruct H1 as [G|G]; [left; now apply exp_increasing|rewrite G; lra]. Qed.
Lemma ln_mono c A B : 0 < c -> 0 < A -> A <= B -> ln (A / c) <= ln (B / c).
Proof. intros Hc HA H. assert (A / c <= B / c) by (apply div_le_r; auto). assert (0 < A / c) by posr. destruct H0 as [G|G]; [left; now apply ln_increasing|rewrite G; lra]. Qed.
Lemma ln_pos_gt c B : 0 < c -> c < B -> 0 < ln (B / c).
Proof. intros Hc G. rewrite <- ln_1. apply ln_increasing; [lra|]. replace 1 with (c / c) by (field; lra). apply div_lt_r; auto. Qed.
Lemma tee_exponent_rises n A B : n <> 1 -> 0 < A -> A <= B -> tee_exponent n A <= tee_exponent n B.
Proof.
  intros Hn HA HAB. unfold tee_exponent. rewrite (proj2 (Reqb_false n 1)) by auto. destruct (Reqb n 2); [|destruct (Reqb n 3)].
  - rcase; rcase; try lra. { pose proof (Rpower_pos (ln (B / 0.8)) 1.5). lits. lra. } pose proof (ln_pos_gt 0.8 A ltac:(lits; lra) Hb). pose proof (ln_mono 0.8 A B ltac:(lits; lra) HA HAB). assert (Rpower (ln (A / 0.8)) 1.5 <= Rpower (ln (B / 0.8)) 1.5) by (apply Rpower_le_l; auto; lits; lra). lits. lra.
  - rcase; rcase; try lra. { pose proof (Rpower_pos (ln (B / 0.8)) 1.8). lits. lra. } pose proof (ln_pos_gt 0.8 A ltac:(lits; lra) Hb). pose proof (ln_mono 0.8 A B ltac:(lits; lra) HA HAB). assert (Rpower (ln (A / 0.8)) 1.8 <= Rpower (ln (B / 0.8)) 1.8) by (apply Rpower_le_l; auto; lits; lra). lits. lra.
  - rcase; rcase; try lra. { pose proof (pow2_ge_0 (ln (B / 2))). lits. lra. } pose proof (ln_pos_ge 2 A ltac:(lra) Hb). pose proof (ln_mono 2 A B ltac:(lra) HA HAB). assert (ln (A / 2) ^ 2 <= ln (B / 2) ^ 2) by nra. lits. lra.
Qed.
Theorem C98_tee_strength Q1 Q2 Q2' D D2 n x : 0 < Q1 -> 0 < Q2 -> Q2 < Q2' -> 0 < D -> 0 < D2 -> 1 <= x -> n = 2 \/ n = 3 \/ n = 4 ->
  exists c c', size_tee Q1 Q2 D (Some D2) n x = Ok c /\ size_tee Q1 Q2' D (Some D2) n x = Ok c' /\ 0 < c' < c.
Proof.
  intros HQ1 HQ2 HQQ HD HD2 Hx Hn. rewrite !C98_tee by (auto; lra). set (A := jet_strength Q1 Q2 _ _ _). set (B := jet_strength Q1 Q2' _ _ _). assert (Hn0 : 0 < n) by lra. assert (HA : 0 < A) by (unfold A, jet_strength; posr).
  assert (HAB : A < B). { unfold A, B, jet_strength. apply Rmult_lt_compat_r; [posr|]. apply Rmult_lt_compat_l; [posr|]. assert (Q2 / Q1 < Q2' / Q1) by (apply div_lt_r; auto). assert (0 < Q2 / Q1) by posr. nra. }
  assert (HB : 0 < B) by lra. assert (0 < 0.32) by (lits; lra). do 2 eexists. split; [reflexivity|]. split; [reflexivity|]. split; [posr|]. apply sqrt_lt_1_alt. split; [apply Rlt_le; posr|].
  pose proof (tee_exponent_rises n A B ltac:(lra) HA ltac:(lra)). pose proof (Rpower_exp_anti x _ _ Hx H0). apply Rlt_le_trans with (0.32 / Rpower A 0.86 * Rpower x (- tee_exponent n B)).
  - apply Rmult_lt_compat_r; [posr|]. apply div_lt_l; auto; [posr|]. apply Rpower_lt_l; auto. lits; lra.
  - apply Rmult_le_compat_l; [apply Rlt_le; posr|auto].
Qed.
(** one jet: the exponent 1.33 is mistyped as 1/33 from a strength of 0.7 on, so that a stronger jet leaves more than twice the variation after five diameters *)
Theorem C98_tee_strength_refuted : exists c c', size_tee 1 0.8 1 (Some 1) 1 5 = Ok c /\ size_tee 1 (sqrt 0.7) 1 (Some 1) 1 5 = Ok c' /\ 2 * c < c'.
Proof.
  assert (S : 0 < sqrt 0.7) by (apply sqrt_lt_R0; lits; lra). rewrite !C98_tee by (auto; lits; lra).
  assert (A : jet_strength 1 0.8 1 1 1 = 0.64) by (unfold jet_strength; lits; field). assert (B : jet_strength 1 (sqrt 0.7) 1 1 1 = 0.7). { unfold jet_strength. replace (1 ^ 2 * (sqrt 0.7 / 1) ^ 2 * (1 / 1) ^ 2) with (sqrt 0.7 * sqrt 0.7) by field. apply sqrt_sqrt. lits. lra. }
  cbv zeta. rewrite A, B. unfold tee_exponent. rewrite (proj2 (Reqb_true 1 1)) by auto. rewrite (proj2 (Rltb_true 0.64 _)) by (lits; lra). rewrite (proj2 (Rltb_false 0.7 _)) by lra. replace (0.7 / 0.7) with 1 by (lits; field). rewrite ln_1. replace (1 / 33 + 0.95 * 0) with (1 / 33) by ring.
  do 2 eexists. split; [reflexivity|]. split; [reflexivity|]. itv 0%nat.
Qed.

Example C98_case : exists t, agitator_time_homogeneous (36 / 60) 957 1.83 1.83 0.018 1020 None 0.995 = Ok t /\ 0 < t.
Proof.
  destruct (C98_agitator_default (36 / 60) 957 1.83 1.83 0.018 1020 0.995) as [_ E]. rewrite E by (lits; lra).
  destruct (C98_agitator_power (36 / 60) 957 958 1.83 1.83 0.018 1020 (1.83 / 2) 0.995) as (t & t' & A & _ & B); try (lits; lra). exists t. split; auto. lra.
Qed.
Example C98_case_tee : 2 <> 1 /\ 0 < jet_strength 11.7 2.74 0.762 0.3 2.
Proof. split; [lra|]. unfold jet_strength. lits. lra. Qed.

Print Assumptions C98_homogeneity.
Print Assumptions C98_agitator.
Print Assumptions C98_agitator_default.
Print Assumptions C98_agitator_power.
Print Assumptions C98_agitator_target.
Print Assumptions C98_ribbon.
Print Assumptions C98_ribbon_power.
Print Assumptions C98_static_mixer.
Print Assumptions C98_static_mixer_loss.
Print Assumptions C98_tee.
Print Assumptions C98_tee_jets.
Print Assumptions C98_tee_default.
Print Assumptions C98_tee_length.
Print Assumptions C98_tee_strength.
Print Assumptions C98_tee_strength_refuted.
