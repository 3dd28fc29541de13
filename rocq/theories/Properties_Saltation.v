(** Saltation velocity in pneumatic conveying. *)
From Coq Require Import Reals String List Bool Lra Psatz.
From Verif Require Import Base Model_Real Proofs_Real Proofs_Ln Interval Model_Equipment.
Open Scope R_scope.

(** *** Specification: solids loading and Froude number of the gas at velocity V *)
Definition loading (mp rhog D V : R) : R := mp / (PI / 4 * D ^ 2 * V * rhog).
Definition Fr (V d : R) : R := V / sqrt (9.80665 * d).

Lemma g0 : 0 < 9.80665. Proof. lits. lra. Qed.
Lemma loading_pos mp rhog D V : 0 < mp -> 0 < rhog -> 0 < D -> 0 < V -> 0 < loading mp rhog D V.
Proof. intros. pose proof PI_RGT_0. unfold loading. posr. Qed.
Lemma loading_lt mp rhog D V W : 0 < mp -> 0 < rhog -> 0 < D -> 0 < V -> V < W -> loading mp rhog D W < loading mp rhog D V.
Proof. intros. pose proof PI_RGT_0. unfold loading. assert (0 < PI / 4 * D ^ 2) by posr. assert (0 < PI / 4 * D ^ 2 * V) by posr. apply div_lt_l; auto; [posr|]. apply Rmult_lt_compat_r; auto. apply Rmult_lt_compat_l; auto. Qed.
Lemma Fr_pos V d : 0 < V -> 0 < d -> 0 < Fr V d.
Proof. intros. pose proof g0. unfold Fr. posr. Qed.
Lemma Fr_lt V W d : 0 < V -> V < W -> 0 < d -> Fr V d < Fr W d.
Proof. intros. pose proof g0. unfold Fr. apply div_lt_r; auto. posr. Qed.

(** one velocity balances a falling and a rising curve *)
Lemma unique (f g : R -> R) V W : (forall a b, 0 < a -> a < b -> f b < f a) -> (forall a b, 0 < a -> a < b -> g a < g b) -> 0 < V -> 0 < W -> f V = g V -> f W = g W -> W = V.
Proof. intros Hf Hg HV HW EV EW. destruct (Rtotal_order V W) as [L|[L|L]]; auto; [pose proof (Hf V W HV L); pose proof (Hg V W HV L)|pose proof (Hf W V HW L); pose proof (Hg W V HW L)]; lra. Qed.

(** the equation of a correlation has exactly one positive solution and the function returns it *)
Definition solved (r : result R) (eqn : R -> Prop) : Prop := exists V, r = Ok V /\ 0 < V /\ forall W, 0 < W -> (eqn W <-> W = V).

Lemma solved_intro r V (f g : R -> R) : r = Ok V -> 0 < V -> f V = g V -> (forall a b, 0 < a -> a < b -> f b < f a) -> (forall a b, 0 < a -> a < b -> g a < g b) -> solved r (fun W => f W = g W).
Proof. intros H HV E Hf Hg. exists V. splits; auto. intros W HW. split; [intros EW; now apply (unique f g)|now intros ->]. Qed.
Lemma ln_tenth : ln 0.1 = - ln 10. Proof. replace 0.1 with (/ 10) by (lits; field). apply ln_Rinv. lra. Qed.
Lemma Fr_pow_lt c e D : 0 < c -> 0 < e -> 0 < D -> forall a b, 0 < a -> a < b -> c * Rpower (Fr a D) e < c * Rpower (Fr b D) e.
Proof. intros Hc He HD a b Ha Hb. apply Rmult_lt_compat_l; auto. apply Rpower_lt_l; auto; [now apply Fr_pos|now apply Fr_lt]. Qed.
Lemma Rpower_3 x : 0 < x -> x ^ 3 = Rpower x 3. Proof. intros. rewrite <- Rpower_pow by auto. f_equal. cbn. ring. Qed.
Lemma Rpower_4 x : 0 < x -> x ^ 4 = Rpower x 4. Proof. intros. rewrite <- Rpower_pow by auto. f_equal. cbn. ring. Qed.
Lemma div_Rpower x e c : 0 < x -> 0 < c -> Rpower (x / c) e = / Rpower c e * Rpower x e.
Proof. intros. bylog. ring. Qed.
(* the closed form returned solves the equation: compare logarithms *)
Ltac closed :=
  match goal with |- ?l = ?r => match l with context [?V] => idtac end end; bylog;
  repeat match goal with H : ln ?V = _ |- _ => rewrite H; clear H end; rewrite ?ln_1, ?ln_tenth; cbn [INR]; lits; field; try lra.
Ltac start := intros; pose proof PI_RGT_0; pose proof g0.

Theorem C95_Rizk mp dp rhog D : 0 < mp -> 0 < dp -> 0 < rhog -> 0 < D ->
  solved (Rizk mp dp rhog D) (fun V => loading mp rhog D V = 1 / Rpower 10 (1440 * dp + 1.96) * Rpower (Fr V D) (1100 * dp + 2.5)).
Proof.
  start. unfold Rizk. mrun. eapply solved_intro; [reflexivity|apply Rpower_pos| |intros; apply loading_lt; auto|intros; apply Fr_pow_lt; auto; [posr|lits; lra]].
  set (V := Rpower _ (1 / (1 + _))). assert (HV : 0 < V) by apply Rpower_pos. assert (LV := ln_Rpower _ _ : ln V = _). revert LV. lnpush. intros LV. clearbody V. unfold loading, Fr. closed.
Qed.
Theorem C95_Matsumoto_1974 mp rhop dp rhog D vt : 0 < mp -> 0 < rhop -> 0 < dp -> 0 < rhog -> 0 < D -> 0 < vt ->
  solved (Matsumoto_1974 mp rhop dp rhog D vt) (fun V => loading mp rhog D V = 0.448 * Rpower (rhop / rhog) 0.5 * Rpower (Fr vt dp / 10) (-1.75) * Rpower (Fr V D / 10) 3).
Proof.
  start. unfold Matsumoto_1974. mrun. eapply solved_intro; [reflexivity|apply Rpower_pos| |intros; apply loading_lt; auto|intros].
  - set (V := Rpower _ (1 / 4)). assert (HV : 0 < V) by apply Rpower_pos. assert (LV := ln_Rpower _ _ : ln V = _). revert LV. lnpush. intros LV. clearbody V. unfold loading, Fr. closed.
  - apply Rmult_lt_compat_l; [posr|]. apply Rpower_lt_l; [apply Rdiv_lt_0_compat; [now apply Fr_pos|lra]|apply div_lt_r; [lra|now apply Fr_lt]|lra].
Qed.
Theorem C95_Matsumoto_1975 mp rhop dp rhog D vt : 0 < mp -> 0 < rhop -> 0 < dp -> 0 < rhog -> 0 < D -> 0 < vt ->
  solved (Matsumoto_1975 mp rhop dp rhog D vt) (fun V => loading mp rhog D V = 1.11 * Rpower (rhop / rhog) 0.55 * Rpower (Fr vt dp / 10) (-2.3) * Rpower (Fr V D / 10) 3).
Proof.
  start. unfold Matsumoto_1975. mrun. eapply solved_intro; [reflexivity|apply Rpower_pos| |intros; apply loading_lt; auto|intros].
  - set (V := Rpower _ (1 / 4)). assert (HV : 0 < V) by apply Rpower_pos. assert (LV := ln_Rpower _ _ : ln V = _). revert LV. lnpush. intros LV. clearbody V. unfold loading, Fr. closed.
  - apply Rmult_lt_compat_l; [posr|]. apply Rpower_lt_l; [apply Rdiv_lt_0_compat; [now apply Fr_pos|lra]|apply div_lt_r; [lra|now apply Fr_lt]|lra].
Qed.
(** fine particles below the limiting size, coarse ones above *)
Theorem C95_Matsumoto_1977 mp rhop dp rhog D vt : 0 < mp -> 0 < rhop -> 0 < dp -> 0 < rhog -> 0 < D -> 0 < vt ->
  let limit := 1.39 * D * Rpower (rhop / rhog) (- 0.74) in
  (dp <= limit -> solved (Matsumoto_1977 mp rhop dp rhog D vt) (fun V => loading mp rhog D V = 5560 * Rpower (dp / D) 1.43 * Rpower (Fr V D / 10) 4)) /\
  (limit < dp -> solved (Matsumoto_1977 mp rhop dp rhog D vt) (fun V => loading mp rhog D V = 0.373 * Rpower (rhop / rhog) 1.06 * Rpower (Fr vt dp / 10) (-3.7) * Rpower (Fr V D / 10) 3.61)).
Proof.
  start. unfold Matsumoto_1977. rewrite (pdiv_ok rhop) by posr. cbn [bind]. rewrite (ppow_ok (rhop / rhog)) by posr. cbn [bind]. fold limit. cbv zeta. split; intros HL.
  - rewrite (proj2 (Rltb_false _ _)) by lra. mrun. eapply solved_intro; [reflexivity|apply Rpower_pos| |intros; apply loading_lt; auto|intros].
    + set (V := Rpower _ 0.2). assert (HV : 0 < V) by apply Rpower_pos. assert (LV := ln_Rpower _ _ : ln V = _). revert LV. lnpush. intros LV. clearbody V. unfold loading, Fr. closed.
    + apply Rmult_lt_compat_l; [posr|]. apply Rpower_lt_l; [apply Rdiv_lt_0_compat; [now apply Fr_pos|lra]|apply div_lt_r; [lra|now apply Fr_lt]|lra].
  - rewrite (proj2 (Rltb_true _ _)) by lra. mrun. eapply solved_intro; [reflexivity|apply Rpower_pos| |intros; apply loading_lt; auto|intros].
    + set (V := Rpower _ (1 / 4.61)). assert (HV : 0 < V) by apply Rpower_pos. assert (LV := ln_Rpower _ _ : ln V = _). revert LV. lnpush. intros LV. clearbody V. unfold loading, Fr. closed.
    + apply Rmult_lt_compat_l; [posr|]. apply Rpower_lt_l; [apply Rdiv_lt_0_compat; [now apply Fr_pos|lra]|apply div_lt_r; [lra|now apply Fr_lt]|lits; lra].
Qed.
Theorem C95_Schade mp rhop dp rhog D : 0 < mp -> 0 < rhop -> 0 < dp -> 0 < rhog -> 0 < D ->
  solved (Schade mp rhop dp rhog D) (fun V => Rpower (loading mp rhog D V) 0.11 * Rpower (D / dp) 0.025 * Rpower (rhop / rhog) 0.34 = Fr V D).
Proof.
  start. unfold Schade. mrun. eapply solved_intro; [reflexivity|apply Rpower_pos| |intros|intros; apply Fr_lt; auto].
  - set (V := Rpower _ (1 / 1.11)). assert (HV : 0 < V) by apply Rpower_pos. assert (LV := ln_Rpower _ _ : ln V = _). revert LV. lnpush. intros LV. clearbody V. unfold loading, Fr. closed.
  - apply Rmult_lt_compat_r; [posr|]. apply Rmult_lt_compat_r; [posr|]. apply Rpower_lt_l; [apply loading_pos; auto; lra|apply loading_lt; auto|lits; lra].
Qed.
(** the two terminal velocity ranges join at 3 m/s *)
Theorem C95_Weber mp rhop dp rhog D vt : 0 < mp -> 0 < dp -> 0 < rhog -> 0 < D -> 0 < vt ->
  solved (Weber_saltation mp rhop dp rhog D vt) (fun V => (7 + 8 / 3 * Rmin vt 3) * Rpower (loading mp rhog D V) 0.25 * Rpower (dp / D) 0.1 = Fr V D).
Proof.
  start. unfold Weber_saltation. 
  assert (E : forall k, 0 < k -> solved (t5 <- psqrt (9.80665 * D) ;; term2 <- pdiv 1 t5 ;; t7 <- pdiv mp rhog ;; term3 <- pdiv t7 (PI / 4 * D ^ 2) ;; t9 <- pdiv (k * Rpower (dp / D) 0.1) term2 ;; t10 <- psqrt term3 ;; t11 <- psqrt t10 ;; ppow (t9 * t11) (1 / 1.25))
    (fun V => k * Rpower (loading mp rhog D V) 0.25 * Rpower (dp / D) 0.1 = Fr V D)).
  { intros k Hk. mrun. eapply solved_intro; [reflexivity|apply Rpower_pos| |intros|intros; apply Fr_lt; auto].
    - set (V := Rpower _ (1 / 1.25)). assert (HV : 0 < V) by apply Rpower_pos. assert (LV := ln_Rpower _ _ : ln V = _). revert LV. lnpush. intros LV. clearbody V. unfold loading, Fr. closed.
    - apply Rmult_lt_compat_r; [posr|]. apply Rmult_lt_compat_l; [posr|]. apply Rpower_lt_l; [apply loading_pos; auto; lra|apply loading_lt; auto|lits; lra]. }
  rewrite !(pdiv_ok dp) by posr. cbn [bind]. rewrite !(ppow_ok (dp / D)) by posr. cbn [bind]. rcase; cbn [bind].
  - rewrite Rmin_left by auto. apply E. lra.
  - rewrite Rmin_right by lra. replace (7 + 8 / 3 * 3) with 15 by field. apply E. lra.
Qed.

(** Geldart and Ling: explicit; increasing with the solids flow within each range, and the two ranges agree to 0.6 % where they meet, whatever the pipe *)
Theorem C95_Geldart_Ling mp rhog D mug : 0 < mp -> 0 < rhog -> 0 < D -> 0 < mug ->
  let Gs := mp / (PI / 4 * D ^ 2) in
  exists V, Geldart_Ling mp rhog D mug = Ok V /\ 0 < V /\
  (Gs <= 47000 * D -> V = 1.5 * Rpower Gs 0.465 * Rpower D (-0.01) * Rpower mug 0.055 * Rpower rhog (-0.42)) /\
  (47000 * D < Gs -> V = 8.7 * Rpower Gs 0.302 * Rpower D 0.153 * Rpower mug 0.055 * Rpower rhog (-0.42)).
Proof.
  start. unfold Geldart_Ling. rewrite pdiv_ok by posr. cbn [bind]. replace (mp / (0.25 * PI * D * D)) with Gs by (unfold Gs; lits; field; lra). assert (0 < Gs) by (unfold Gs; posr). rewrite pdiv_ok by posr. cbn [bind].
  assert (K : Gs / D <= 47000 <-> Gs <= 47000 * D). { split; intros K. - apply (Rmult_le_reg_r (/ D)); [posr|]. replace (47000 * D * / D) with 47000 by (field; lra). exact K. - apply (Rmult_le_reg_r D); auto. replace (Gs / D * D) with Gs by (field; lra). exact K. }
  rcase; mrun; eexists; splits; try reflexivity; try posr; intros; try reflexivity; exfalso; tauto || lra.
Qed.
(** at the junction the upper range starts higher, by less than 0.6 %, whatever the pipe *)
Theorem C95_Geldart_Ling_join D : 0 < D -> let Gs := 47000 * D in
  let low := 1.5 * Rpower Gs 0.465 * Rpower D (-0.01) in let high := 8.7 * Rpower Gs 0.302 * Rpower D 0.153 in 0.994 < low / high < 1.
Proof.
  start. match goal with |- _ < ?a / ?b < _ => replace (a / b) with (exp (ln 1.5 - ln 8.7 + 0.163 * ln 47000)) end.
  - split; itv 0%nat.
  - apply ln_inv; [apply exp_pos|subst low high Gs; posr|]. rewrite ln_exp. subst low high Gs. lnpush. lits. field.
Qed.

(** more solids need more gas *)
Definition rises (f : R -> result R) : Prop := forall m1 m2, 0 < m1 -> m1 < m2 -> exists V1 V2, f m1 = Ok V1 /\ f m2 = Ok V2 /\ 0 < V1 < V2.
Lemma rises_intro (F : R -> result R) (f : R -> R -> R) (g : R -> R) :
  (forall m, 0 < m -> solved (F m) (fun V => f m V = g V)) -> (forall m a b, 0 < m -> 0 < a -> a < b -> f m b < f m a) -> (forall m n a, 0 < m -> m < n -> 0 < a -> f m a < f n a) -> (forall a b, 0 < a -> a < b -> g a < g b) -> rises F.
Proof.
  intros HF H1 H2 H3 m1 m2 Hm Hmm. destruct (HF m1 Hm) as (V1 & E1 & P1 & U1). destruct (HF m2) as (V2 & E2 & P2 & U2); [lra|]. exists V1, V2. splits; auto.
  apply (fun K => proj2 (U1 V1 K)) in P1 as A1; auto. apply (fun K => proj2 (U2 V2 K)) in P2 as A2; auto. cbv beta in *.
  destruct (Rlt_le_dec V1 V2) as [|[L|L]]; auto; exfalso.
  - pose proof (H1 m2 V2 V1 ltac:(lra) P2 L). pose proof (H2 m1 m2 V1 Hm Hmm P1). pose proof (H3 V2 V1 P2 L). lra.
  - subst V2. pose proof (H2 m1 m2 V1 Hm Hmm P1). lra.
Qed.
Lemma loading_rises m n rhog D V : 0 < m -> m < n -> 0 < rhog -> 0 < D -> 0 < V -> loading m rhog D V < loading n rhog D V.
Proof. start. unfold loading. apply div_lt_r; [posr|auto]. Qed.
Lemma Fr10_rises c e D a b : 0 < c -> 0 < e -> 0 < D -> 0 < a -> a < b -> c * Rpower (Fr a D / 10) e < c * Rpower (Fr b D / 10) e.
Proof. intros. apply Rmult_lt_compat_l; auto. apply Rpower_lt_l; auto; [apply Rdiv_lt_0_compat; [now apply Fr_pos|lra]|apply div_lt_r; [lra|now apply Fr_lt]]. Qed.

Theorem C95_rises rhop dp rhog D vt mug : 0 < rhop -> 0 < dp -> 0 < rhog -> 0 < D -> 0 < vt -> 0 < mug ->
  rises (fun m => Rizk m dp rhog D) /\ rises (fun m => Matsumoto_1974 m rhop dp rhog D vt) /\ rises (fun m => Matsumoto_1975 m rhop dp rhog D vt) /\
  rises (fun m => Matsumoto_1977 m rhop dp rhog D vt) /\ rises (fun m => Schade m rhop dp rhog D) /\ rises (fun m => Weber_saltation m rhop dp rhog D vt) /\
  rises (fun m => Geldart_Ling m rhog D mug).
Proof.
  start. splits.
  - eapply rises_intro; [intros; apply C95_Rizk; auto|intros; apply loading_lt; auto|intros; apply loading_rises; auto|intros; apply Fr_pow_lt; auto; [posr|lits; lra]].
  - eapply rises_intro; [intros; apply C95_Matsumoto_1974; auto|intros; apply loading_lt; auto|intros; apply loading_rises; auto|intros; apply Fr10_rises; auto; [posr|lra]].
  - eapply rises_intro; [intros; apply C95_Matsumoto_1975; auto|intros; apply loading_lt; auto|intros; apply loading_rises; auto|intros; apply Fr10_rises; auto; [posr|lra]].
  - destruct (Rle_lt_dec dp (1.39 * D * Rpower (rhop / rhog) (- 0.74))) as [L|L].
    + eapply rises_intro; [intros; apply (proj1 (C95_Matsumoto_1977 m rhop dp rhog D vt ltac:(auto) ltac:(auto) ltac:(auto) ltac:(auto) ltac:(auto) ltac:(auto)) L)|intros; apply loading_lt; auto|intros; apply loading_rises; auto|intros; apply Fr10_rises; auto; [posr|lra]].
    + eapply rises_intro; [intros; apply (proj2 (C95_Matsumoto_1977 m rhop dp rhog D vt ltac:(auto) ltac:(auto) ltac:(auto) ltac:(auto) ltac:(auto) ltac:(auto)) L)|intros; apply loading_lt; auto|intros; apply loading_rises; auto|intros; apply Fr10_rises; auto; [posr|lits; lra]].
  - eapply rises_intro; [intros; apply C95_Schade; auto| | |intros; apply Fr_lt; auto]; intros; cbv beta; (apply Rmult_lt_compat_r; [posr|]); (apply Rmult_lt_compat_r; [posr|]); (apply Rpower_lt_l; [apply loading_pos; auto; lra| |lits; lra]); [now apply loading_lt|now apply loading_rises].
  - assert (0 < 7 + 8 / 3 * Rmin vt 3) by (unfold Rmin; destruct (Rle_dec vt 3); lra).
    eapply rises_intro; [intros; apply C95_Weber; auto| | |intros; apply Fr_lt; auto]; intros; cbv beta; (apply Rmult_lt_compat_r; [posr|]); (apply Rmult_lt_compat_l; [posr|]); (apply Rpower_lt_l; [apply loading_pos; auto; lra| |lits; lra]); [now apply loading_lt|now apply loading_rises].
  - intros m1 m2 Hm1 Hm2. destruct (C95_Geldart_Ling m1 rhog D mug) as (V1 & E1 & P1 & A1 & B1); auto. destruct (C95_Geldart_Ling m2 rhog D mug) as (V2 & E2 & P2 & A2 & B2); auto; [lra|]. cbv zeta in *.
    exists V1, V2. splits; auto. set (G1 := m1 / _) in *. set (G2 := m2 / _) in *.
    assert (0 < G1) by (unfold G1; posr). assert (G12 : G1 < G2) by (apply div_lt_r; [posr|auto]). clearbody G1 G2.
    assert (L1 : forall x y, 0 < x -> x < y -> 1.5 * Rpower x 0.465 * Rpower D (-0.01) < 1.5 * Rpower y 0.465 * Rpower D (-0.01)) by (intros; apply Rmult_lt_compat_r; [posr|]; apply Rmult_lt_compat_l; [lits; lra|]; apply Rpower_lt_l; auto; lits; lra).
    assert (L2 : forall x y, 0 < x -> x < y -> 8.7 * Rpower x 0.302 * Rpower D 0.153 < 8.7 * Rpower y 0.302 * Rpower D 0.153) by (intros; apply Rmult_lt_compat_r; [posr|]; apply Rmult_lt_compat_l; [lits; lra|]; apply Rpower_lt_l; auto; lits; lra).
    destruct (Rle_lt_dec G2 (47000 * D)) as [K2|K2]; [|destruct (Rle_lt_dec G1 (47000 * D)) as [K1|K1]].
    + rewrite A1, A2 by lra. do 2 (apply Rmult_lt_compat_r; [posr|]). now apply L1.
    + rewrite A1, B2 by lra. do 2 (apply Rmult_lt_compat_r; [posr|]). pose proof (C95_Geldart_Ling_join D ltac:(auto)) as J. cbv zeta in J.
      assert (J' : 1.5 * Rpower (47000 * D) 0.465 * Rpower D (-0.01) < 8.7 * Rpower (47000 * D) 0.302 * Rpower D 0.153).
      { destruct J as [_ J]. match type of J with ?a / ?b < _ => set (x := a) in *; set (y := b) in * end. assert (0 < y) by (unfold y; posr). apply (Rmult_lt_compat_r y) in J; auto. replace (x / y * y) with x in J by (field; lra). lra. }
      pose proof (L2 (47000 * D) G2 ltac:(posr) K2). destruct K1 as [K1|K1]; [pose proof (L1 G1 (47000 * D) ltac:(auto) K1); lra|rewrite K1; lra].
    + rewrite B1, B2 by lra. do 2 (apply Rmult_lt_compat_r; [posr|]). now apply L2.
Qed.

(** the documented case: 0.25 kg/s of 100 micron solids in a 78 mm pipe *)
Example C95_case : (exists V, Rizk 0.25 0.0001 1.2 0.078 = Ok V /\ 0 < V) /\ 0.0001 <= 1.39 * 0.078 * Rpower (1000 / 1.2) (- 0.74).
Proof. split. destruct (C95_Rizk 0.25 0.0001 1.2 0.078) as (V & E & H & _); try (lits; lra). eauto. itv 0%nat. Qed.
Example C95_case_coarse : 1.39 * 0.078 * Rpower (1000 / 1.2) (- 0.74) < 0.001.
Proof. itv 0%nat. Qed.

Print Assumptions C95_Rizk.
Print Assumptions C95_Matsumoto_1974.
Print Assumptions C95_Matsumoto_1975.
Print Assumptions C95_Matsumoto_1977.
Print Assumptions C95_Schade.
Print Assumptions C95_Weber.
Print Assumptions C95_Geldart_Ling.
Print Assumptions C95_Geldart_Ling_join.
Print Assumptions C95_rises.
