(** C84: packed beds.
    Claims about [dP_packed_bed] and the voidage correlations of fluids/packed_bed.py. *)
From Coq Require Import Reals Lra Lia List Bool String Psatz QArith Qreals.
From Coquelicot Require Import Coquelicot.
From Verif Require Import Base Model_Real Proofs_Real Interval Model_PackedBed.
Import ListNotations.
Open Scope R_scope.

(** ** Vocabulary *)
(** Every correlation is one dimensionless function of the particle Reynolds number [Re], the voidage [e]
    and (some of them) the ratio [r] of particle to bed diameter; the pressure drop is that function times
    [mu * vs * L / dp ^ 2].  The published functions: *)
Definition ergun_type (a b n Re e : R) : R := (a + b * Rpower (Re / (1 - e)) n) * ((1 - e) ^ 2 / e ^ 3).
Definition fahien (Re e : R) : R :=
  let Rem := Re / (1 - e) in
  let q := exp (- (e ^ 2 * (1 - e) / 12.6 * Rem)) in
  (q * (136 / Rpower (1 - e) 0.38) +
   (1 - q) * (1.87 * Rpower e 0.75 / Rpower (1 - e) 0.26 * Rem + 29 / (Rpower (1 - e) 1.45 * e ^ 2))) * ((1 - e) ^ 2 / e ^ 3).
Definition idelchik (Re e : R) : R :=
  let Rei := 0.45 / sqrt e * (Re / (1 - e)) in
  Re * (0.765 * Rpower e (- 4.2) * (30 / Rei + 3 * Rpower Rei (- 0.7) + 0.3)).
Definition harrison (Re e : R) (r : option R) : R :=
  let '(A, B) := match r with Some r => ((1 + PI * r / (6 * (1 - e))) ^ 2, 1 - PI ^ 2 / 24 * r * (1 - r / 2)) | None => (1, 1) end in
  (119.8 * A + 4.63 * B * Rpower (Re / (1 - e)) (5 / 6)) * ((1 - e) ^ 2 / e ^ 3).
Definition montillet (Re e : R) (r : option R) : R :=
  (if Rltb e 0.4 then 0.061 else 0.05) * (match r with Some r => if Rltb 50 (/ r) then 2.2 else Rpower (/ r) 0.2 | None => 2.2 end)
  * (1000 + 60 * sqrt Re + 12 * Re) * ((1 - e) / e ^ 3).
Definition guo (Re e : R) (r : option R) : R :=
  let r := match r with Some r => r | None => 3.5 end in
  ergun_type 180 (9.5374 * r - 2.8054) 0.97 Re e.
Definition published : list (string * (R -> R -> option R -> R)) :=
  [("Ergun", fun Re e _ => ergun_type 150 1.75 1 Re e);
   ("Tallmadge", fun Re e _ => ergun_type 150 4.2 (5 / 6) Re e);
   ("Kuo & Nydegger", fun Re e _ => ergun_type 276.23 5.05 0.87 Re e);
   ("Jones & Krier", fun Re e _ => ergun_type 150 3.89 0.87 Re e);
   ("Carman", fun Re e _ => ergun_type 180 2.871 0.9 Re e);
   ("Hicks", fun Re e _ => ergun_type 0 6.8 0.8 Re e);
   ("Brauer", fun Re e _ => ergun_type 160 3.1 0.9 Re e);
   ("KTA", fun Re e _ => ergun_type 160 3 0.9 Re e);
   ("Erdim, Akgiray & Demir", fun Re e _ => ergun_type 160 2.81 0.904 Re e);
   ("Fahien & Schriver", fun Re e _ => fahien Re e);
   ("Idelchik", fun Re e _ => idelchik Re e);
   ("Harrison, Brunner & Hecker", harrison);
   ("Montillet, Akkari & Comiti", montillet);
   ("Guo, Sun, Zhang, Ding & Liu", guo)]%string.
(** particles, fluid and bed that exist *)
Definition bed (dp e vs rho mu L : R) (Dt : option R) : Prop :=
  0 < dp /\ 0 < e < 1 /\ 0 < vs /\ 0 < rho /\ 0 < mu /\ 0 < L /\ match Dt with Some D => 0 < D | None => True end.
Definition ratio (dp : R) (Dt : option R) : option R := option_map (fun D => dp / D) Dt.

Lemma ergun_mu a b n dp e vs rho mu L : 0 < dp -> 0 < e < 1 -> 0 < vs -> 0 < rho -> 0 < mu -> 0 < L ->
  (Re <- pdiv ((dp * rho) * vs) mu ;;
   let holdup := (1 - e) in
   t2 <- pdiv Re holdup ;;
   t3 <- ppow t2 n ;;
   fp <- pdiv (((a + (b * t3)) * holdup) * holdup) (((e * e) * e) * Re) ;;
   pdiv ((((fp * rho) * vs) * vs) * L) dp)
  = Ok (mu * vs * L / dp ^ 2 * ergun_type a b n (dp * rho * vs / mu) e).
Proof.
  intros Hdp He Hvs Hrho Hmu HL. assert (Hh : 0 < 1 - e) by lra. assert (He0 : 0 < e) by lra.
  mrun. unfold ergun_type. f_equal. set (w := Rpower _ n). field. splits; lra.
Qed.

Lemma Rpower_quot x y n : 0 < x -> 0 < y -> Rpower (x / y) n = Rpower x n / Rpower y n.
Proof.
  intros. unfold Rpower. rewrite ln_div by auto. unfold Rdiv at 1. rewrite <- exp_Ropp, <- exp_plus. f_equal. ring.
Qed.
(** For every method and every bed, the pressure drop is the published dimensionless function times
    [mu * vs * L / dp ^ 2]; a sphericity multiplies the particle size. *)
Theorem C84_published : forall m Phi dp e vs rho mu L Dt, In (m, Phi) published -> bed dp e vs rho mu L Dt ->
  dP_packed_bed dp e vs rho mu L Dt None (Some m) = Ok (mu * vs * L / dp ^ 2 * Phi (dp * rho * vs / mu) e (ratio dp Dt)).
Proof.
  intros m Phi dp e vs rho mu L Dt Hin (Hdp & He & Hvs & Hrho & Hmu & HL & HDt).
  assert (Hh : 0 < 1 - e) by lra. assert (He0 : 0 < e) by lra.
  assert (HRe : 0 < dp * rho * vs / mu) by posr.
  cbn [In published] in Hin.
  repeat (destruct Hin as [Hin|Hin]; [injection Hin as <- <-|]); [..|contradiction];
    cbv [dP_packed_bed bind String.eqb Ascii.eqb Bool.eqb]; fold (@bind R R).
  - (* Ergun *) unfold Ergun. mrun. unfold ergun_type. rewrite Rpower_1 by posr. f_equal. field. splits; lra.
  - exact (ergun_mu 150 4.2 (5 / 6) dp e vs rho mu L Hdp He Hvs Hrho Hmu HL).
  - exact (ergun_mu 276.23 5.05 0.87 dp e vs rho mu L Hdp He Hvs Hrho Hmu HL).
  - exact (ergun_mu 150 3.89 0.87 dp e vs rho mu L Hdp He Hvs Hrho Hmu HL).
  - exact (ergun_mu 180 2.871 0.9 dp e vs rho mu L Hdp He Hvs Hrho Hmu HL).
  - (* Hicks *) unfold Hicks. mrun. unfold ergun_type. f_equal.
    replace 1.2 with (2 + Ropp 0.8) by (lits; lra). replace 0.2 with (1 + Ropp 0.8) by (lits; lra).
    rewrite !Rpower_plus, Rpower_1 by posr. rewrite !Rpower_Ropp. 
    rewrite (Rpower_quot (dp * rho * vs / mu) (1 - e)) by auto.
    replace (Rpower (1 - e) 2) with ((1 - e) ^ 2) by (rewrite <- Rpower_pow by lra; f_equal; cbn; ring).
    pose proof (Rpower_pos (dp * rho * vs / mu) 0.8). pose proof (Rpower_pos (1 - e) 0.8).
    set (w1 := Rpower (dp * rho * vs / mu) 0.8) in *. set (w2 := Rpower (1 - e) 0.8) in *. clearbody w1 w2.
    field. splits; lra.
  - exact (ergun_mu 160 3.1 0.9 dp e vs rho mu L Hdp He Hvs Hrho Hmu HL).
  - exact (ergun_mu 160 3 0.9 dp e vs rho mu L Hdp He Hvs Hrho Hmu HL).
  - unfold Erdim_Akgiray_Demir. mrun. unfold ergun_type. 
    replace (dp * rho * vs / ((1 - e) * mu)) with (dp * rho * vs / mu / (1 - e)) by (field; lra).
    f_equal. set (w := Rpower _ _). field. splits; lra.
  - unfold Fahien_Schriver. mrun. unfold fahien. cbv zeta.
    replace (dp * rho * vs / ((1 - e) * mu)) with (dp * rho * vs / mu / (1 - e)) by (field; lra).
    replace (- (e * e) * (1 - e) * (1 / 12.6) * (dp * rho * vs / mu / (1 - e))) with
      (- (e ^ 2 * (1 - e) / 12.6 * (dp * rho * vs / mu / (1 - e)))) by (field; splits; lits; lra).
    f_equal. pose proof (Rpower_pos (1 - e) 0.38). pose proof (Rpower_pos (1 - e) 1.45). pose proof (Rpower_pos (1 - e) 0.26).
    set (w1 := Rpower (1 - e) 0.38) in *. set (w2 := Rpower (1 - e) 1.45) in *. set (w3 := Rpower (1 - e) 0.26) in *.
    set (w4 := Rpower e _). set (q := exp _). clearbody w1 w2 w3 w4 q. field. splits; lra.
  - unfold Idelchik. assert (Hs : 0 < sqrt e) by (apply sqrt_lt_R0; lra). mrun. unfold idelchik. cbv zeta.
    replace (rho * vs * dp / (mu * (1 - e))) with (dp * rho * vs / mu / (1 - e)) by (field; lra).
    f_equal. set (Rei := 0.45 / sqrt e * _). set (X := 0.765 * _ * _). clearbody X. field. splits; lra.
  - unfold Harrison_Brunner_Hecker, harrison. destruct Dt as [D|]; cbn [ratio option_map].
    + mrun. f_equal. set (w := Rpower _ _). field. splits; lra.
    + mrun. f_equal. set (w := Rpower _ _). field. splits; lra.
  - unfold Montillet_Akkari_Comiti, montillet. assert (HS : 0 < sqrt (rho * vs * dp / mu)) by (apply sqrt_lt_R0; posr).
    replace (dp * rho * vs / mu) with (rho * vs * dp / mu) in * by (field; lra).
    assert (SS := sqrt_sqrt (rho * vs * dp / mu) ltac:(lra)).
    assert (Fin : forall a w, (t6 <- pdiv 1000 (rho * vs * dp / mu) ;; t7 <- psqrt (rho * vs * dp / mu) ;; t8 <- pdiv 60 t7 ;;
      let right := ((a * w) * ((t6 + t8) + 12)) in t9 <- pdiv dp ((((L * rho) * vs) * vs) * (1 - e)) ;;
      let left := (((t9 * e) * e) * e) in pdiv right left) =
      Ok (mu * vs * L / dp ^ 2 * (a * w * (1000 + 60 * sqrt (rho * vs * dp / mu) + 12 * (rho * vs * dp / mu)) * ((1 - e) / e ^ 3)))).
    { intros a w. mrun. f_equal. set (s := sqrt _) in *.
      assert (E60 : 60 / s = 60 * s / (rho * vs * dp / mu)) by (rewrite <- SS; field; lra). rewrite E60.
      clearbody s. clear - Hdp He0 Hvs Hrho Hmu HL Hh. field. splits; lra. }
    rewrite (pdiv_ok _ mu) by lra. cbn [bind].
    destruct (Rltb e 0.4); cbn [bind]; cbv zeta; (destruct Dt as [D|]; cbn [ratio option_map]; [rewrite pdiv_ok by lra; cbn [bind];
      replace (/ (dp / D)) with (D / dp) by (field; lra); destruct (Rltb 50 (D / dp)); cbn [bind];
      [|rewrite ppow_ok by posr; cbn [bind]]|]; cbn [bind]; apply Fin).
  - unfold Guo_Sun, guo, ergun_type. destruct Dt as [D|]; cbn [ratio option_map]; mrun;
    (replace (dp * rho * vs / (mu * (1 - e))) with (dp * rho * vs / mu / (1 - e)) by (field; lra));
    f_equal; set (w := Rpower _ _); field; splits; lra.
Qed.

(** ** What follows for every method *)
Lemma cubed e : 0 < e -> 0 < e ^ 3. Proof. intros; apply pow_lt; auto. Qed.
Lemma erg_pos a b n Re e : 0 <= a -> 0 <= b -> 0 < a + b -> 0 < Re -> 0 < e < 1 -> 0 < ergun_type a b n Re e.
Proof.
  intros. unfold ergun_type. pose proof (Rpower_pos (Re / (1 - e)) n). pose proof (cubed e ltac:(lra)).
  apply Rmult_lt_0_compat; [destruct (Rle_lt_or_eq_dec 0 b); [auto|nra|subst; lra]|]. apply Rdiv_lt_0_compat; auto. apply pow_lt; lra.
Qed.
Lemma erg_Re a b n Re Re' e : 0 <= b -> 0 <= n -> 0 < Re -> Re <= Re' -> 0 < e < 1 -> ergun_type a b n Re e <= ergun_type a b n Re' e.
Proof.
  intros. unfold ergun_type. pose proof (cubed e ltac:(lra)). apply Rmult_le_compat_r.
  { apply Rdiv_le_0_compat; auto. apply pow_le; lra. }
  assert (Rpower (Re / (1 - e)) n <= Rpower (Re' / (1 - e)) n); [|nra].
  apply Rpower_le_l; auto; [apply Rdiv_lt_0_compat; lra|apply div_le_r; lra].
Qed.
Lemma cube_lt e e' : 0 < e -> e < e' -> e ^ 3 < e' ^ 3.
Proof. intros. assert (0 < (e' - e) * (e' * e' + e' * e + e * e)) by (apply Rmult_lt_0_compat; nra). nra. Qed.
(** quotient of a falling non-negative and a rising positive function *)
Lemma quot_lt N N' D D' : 0 <= N' -> N' <= N -> 0 < N -> 0 < D -> D < D' -> N' / D' < N / D.
Proof. intros. apply Rle_lt_trans with (N / D'); [apply div_le_r; lra|apply div_lt_l; lra]. Qed.
Lemma erg_split a b n Re e : 0 < Re -> 0 < e < 1 ->
  ergun_type a b n Re e = (a * (1 - e) ^ 2 + b * (Rpower Re n * Rpower (1 - e) (2 - n))) / e ^ 3.
Proof.
  intros. unfold ergun_type. rewrite (Rpower_quot Re (1 - e)) by lra. replace (2 - n) with (2 + - n) by ring. rewrite Rpower_plus, Rpower_Ropp.
  replace (Rpower (1 - e) 2) with ((1 - e) ^ 2) by (rewrite <- Rpower_pow by lra; f_equal; cbn; ring).
  pose proof (Rpower_pos (1 - e) n). set (w := Rpower (1 - e) n) in *. field. splits; lra.
Qed.
Lemma erg_e a b n Re e e' : 0 <= a -> 0 <= b -> 0 < a + b -> n <= 2 -> 0 < Re -> 0 < e -> e < e' -> e' < 1 ->
  ergun_type a b n Re e' < ergun_type a b n Re e.
Proof.
  intros Ha Hb Hab Hn HR H0 H1 H2. rewrite !erg_split by lra.
  pose proof (Rpower_pos Re n) as HP. pose proof (Rpower_pos (1 - e) (2 - n)) as W1. pose proof (Rpower_pos (1 - e') (2 - n)) as W2.
  assert (W : Rpower (1 - e') (2 - n) <= Rpower (1 - e) (2 - n)) by (apply Rpower_le_l; lra).
  set (w := Rpower (1 - e) (2 - n)) in *. set (w' := Rpower (1 - e') (2 - n)) in *. set (p := Rpower Re n) in *. clearbody w w' p.
  assert (S2 : 0 < (1 - e') ^ 2 /\ (1 - e') ^ 2 <= (1 - e) ^ 2) by (split; nra).
  assert (PW : 0 < p * w' /\ p * w' <= p * w) by (split; nra).
  set (s := (1 - e) ^ 2) in *. set (s' := (1 - e') ^ 2) in *. set (u := p * w) in *. set (u' := p * w') in *. clearbody s s' u u'.
  apply quot_lt; [nra|nra|destruct (Rle_lt_or_eq_dec 0 a Ha); [|assert (0 < b) by lra]; nra|apply cubed; lra|apply cube_lt; lra].
Qed.
Lemma Rpower_1_l y : Rpower 1 y = 1. Proof. unfold Rpower. rewrite ln_1, Rmult_0_r. apply exp_0. Qed.
Lemma fah_AC e : 0 < e < 1 -> 136 / Rpower (1 - e) 0.38 <= 29 / (Rpower (1 - e) 1.45 * e ^ 2).
Proof.
  intros He. pose proof (Rpower_pos (1 - e) 0.38) as P1.
  replace 1.45 with (0.38 + (1 + 0.07)) by (lits; lra). rewrite !Rpower_plus, Rpower_1 by lra.
  assert (S : 0 < Rpower (1 - e) 0.07 <= 1).
  { split; [apply exp_pos|]. apply Rle_trans with (Rpower 1 0.07); [apply Rpower_le_l; lits; lra|rewrite Rpower_1_l; lra]. }
  set (w := Rpower (1 - e) 0.07) in *. set (v := Rpower (1 - e) 0.38) in *. clearbody w v.
  assert (K : (1 - e) * e ^ 2 <= 4 / 27). { assert (0 <= (e - 2 / 3) ^ 2 * (e + 1 / 3)) by (apply Rmult_le_pos; [apply pow2_ge_0|lra]). nra. }
  assert (K0 : 0 < (1 - e) * e ^ 2) by (apply Rmult_lt_0_compat; [lra|apply pow_lt; lra]).
  set (x := (1 - e) * e ^ 2) in *. 
  replace (29 / (v * ((1 - e) * w) * e ^ 2)) with (29 / (w * x) / v) by (unfold x; field; splits; lra).
  apply div_le_r; auto. apply Rmult_le_reg_r with (w * x); [nra|]. unfold Rdiv. rewrite Rmult_assoc, Rinv_l by nra. nra.
Qed.
Lemma exp_neg_lt x : x < 0 -> exp x < 1. Proof. intros. rewrite <- exp_0. apply exp_increasing; auto. Qed.
Lemma fah_pos Re e : 0 < Re -> 0 < e < 1 -> 0 < fahien Re e.
Proof.
  intros HR He. unfold fahien. cbv zeta. pose proof (cubed e ltac:(lra)).
  assert (HRem : 0 < Re / (1 - e)) by (apply Rdiv_lt_0_compat; lra).
  apply Rmult_lt_0_compat; [|apply Rdiv_lt_0_compat; auto; apply pow_lt; lra].
  assert (Q : 0 < exp (- (e ^ 2 * (1 - e) / 12.6 * (Re / (1 - e)))) < 1).
  { split; [apply exp_pos|]. apply exp_neg_lt. assert (0 < e ^ 2) by (apply pow_lt; lra).
    assert (0 < e ^ 2 * (1 - e) / 12.6 * (Re / (1 - e))); [|lra]. assert (0 < 1 - e) by lra. posr. }
  set (q := exp _) in *. assert (0 < 1 - e) by lra. assert (0 < e) by lra.
  assert (A : 0 < 136 / Rpower (1 - e) 0.38) by posr.
  assert (B : 0 < 1.87 * Rpower e 0.75 / Rpower (1 - e) 0.26 * (Re / (1 - e)) + 29 / (Rpower (1 - e) 1.45 * e ^ 2)) by posr.
  set (x := 136 / _) in *. set (y := _ + _) in *. clearbody x y q. nra.
Qed.
Lemma fah_Re Re Re' e : 0 < Re -> Re <= Re' -> 0 < e < 1 -> fahien Re e <= fahien Re' e.
Proof.
  intros HR HR' He. unfold fahien. cbv zeta. pose proof (cubed e ltac:(lra)).
  assert (HRem : 0 < Re / (1 - e) <= Re' / (1 - e)) by (split; [apply Rdiv_lt_0_compat; lra|apply div_le_r; lra]).
  apply Rmult_le_compat_r; [apply Rdiv_le_0_compat; auto; apply pow_le; lra|].
  set (x := Re / (1 - e)) in *. set (x' := Re' / (1 - e)) in *. clearbody x x'.
  assert (0 < 1 - e) by lra. assert (0 < e) by lra.
  assert (C : 0 < e ^ 2 * (1 - e) / 12.6) by posr. set (c := e ^ 2 * (1 - e) / 12.6) in *.
  assert (Q : 0 < exp (- (c * x')) <= exp (- (c * x))).
  { split; [apply exp_pos|]. destruct (Rle_lt_or_eq_dec x x') as [Hlt|Heq]; [lra| |subst; lra]. left. apply exp_increasing. nra. }
  assert (Q1 : exp (- (c * x)) < 1). { apply exp_neg_lt. nra. }
  set (q := exp (- (c * x))) in *. set (q' := exp (- (c * x'))) in *.
  pose proof (fah_AC e He) as AC. assert (A : 0 < 136 / Rpower (1 - e) 0.38) by posr.
  assert (B : 0 < 1.87 * Rpower e 0.75 / Rpower (1 - e) 0.26) by posr.
  set (a := 136 / _) in *. set (b := 1.87 * _ / _) in *. set (d := 29 / _) in *. clearbody q q' a b d.
  assert (b * x <= b * x') by (apply Rmult_le_compat_l; lra). assert (0 < b * x) by (apply Rmult_lt_0_compat; lra).
  set (u := b * x) in *. set (u' := b * x') in *. clearbody u u'. clear - Q Q1 AC A H2 H3.
  assert ((1 - q') * (u + d) <= (1 - q') * (u' + d)) by (apply Rmult_le_compat_l; lra).
  assert (0 <= (q - q') * (u + d - a)) by (apply Rmult_le_pos; lra). nra.
Qed.
(** Idelchik's function without the apparent singularity *)
Lemma idel_split Re e : 0 < Re -> 0 < e < 1 ->
  idelchik Re e = 0.765 / 0.45 * (30 * ((1 - e) * Rpower e (- 3.7))) + 0.765 * (0.3 * Re * Rpower e (- 4.2)) +
    0.765 * (3 * Rpower Re 0.3 * (Rpower ((1 - e) / 0.45) 0.7 * Rpower e (- 3.85))).
Proof.
  intros HR He. unfold idelchik. cbv zeta. assert (Hs : 0 < sqrt e) by (apply sqrt_lt_R0; lra). assert (Hh : 0 < 1 - e) by lra.
  assert (Hs2 : sqrt e = Rpower e 0.5). { rewrite <- Rpower_sqrt by lra. f_equal. lits; lra. }
  assert (E1 : 0.45 / sqrt e * (Re / (1 - e)) = Re / ((1 - e) / 0.45 * sqrt e)) by (field; lra). rewrite E1.
  assert (Hk : 0 < (1 - e) / 0.45) by (apply Rdiv_lt_0_compat; lits; lra).
  assert (E2 : Rpower (Re / ((1 - e) / 0.45 * sqrt e)) (- 0.7) = Rpower Re 0.3 / Re * (Rpower ((1 - e) / 0.45) 0.7 * Rpower e 0.35)).
  { rewrite Rpower_quot by posr. rewrite <- Rpower_mult_distr by auto. rewrite Hs2, Rpower_mult.
    replace (- 0.7) with (0.3 + Ropp 1) at 1 by (lits; lra). rewrite Rpower_plus, Rpower_Ropp, Rpower_1 by auto.
    replace (- 0.7) with (Ropp 0.7) by (lits; lra). rewrite Rpower_Ropp.
    replace (0.5 * Ropp 0.7) with (Ropp 0.35) by (lits; lra). rewrite Rpower_Ropp.
    pose proof (Rpower_pos ((1 - e) / 0.45) 0.7). pose proof (Rpower_pos e 0.35). field. splits; lra. }
  rewrite E2. clear E1 E2.
  replace (- 3.7) with (0.5 + (- 4.2)) by (lits; lra). replace (- 3.85) with (0.35 + (- 4.2)) by (lits; lra).
  rewrite !Rpower_plus, Hs2. pose proof (Rpower_pos e 0.5). pose proof (Rpower_pos e 0.35).
  set (w1 := Rpower e 0.5) in *. set (w2 := Rpower e 0.35) in *. set (w3 := Rpower e (- 4.2)). set (w4 := Rpower _ 0.7). set (w5 := Rpower Re 0.3).
  clearbody w1 w2 w3 w4 w5. field. splits; lits; lra.
Qed.
Lemma idel_pos Re e : 0 < Re -> 0 < e < 1 -> 0 < idelchik Re e.
Proof. intros HR He. rewrite idel_split by auto. assert (0 < 1 - e) by lra. posr. Qed.
Lemma idel_Re Re Re' e : 0 < Re -> Re <= Re' -> 0 < e < 1 -> idelchik Re e <= idelchik Re' e.
Proof.
  intros HR HR' He. rewrite !idel_split by lra. assert (0 < 1 - e) by lra.
  assert (P : Rpower Re 0.3 <= Rpower Re' 0.3) by (apply Rpower_le_l; lits; lra).
  apply Rplus_le_compat; [apply Rplus_le_compat_l|].
  - apply Rmult_le_compat_l; [lits; lra|]. apply Rmult_le_compat_r; [left; apply exp_pos|]. lits; lra.
  - apply Rmult_le_compat_l; [lits; lra|]. apply Rmult_le_compat_r; [posr|]. lra.
Qed.
Lemma idel_e Re e e' : 0 < Re -> 0 < e -> e < e' -> e' < 1 -> idelchik Re e' < idelchik Re e.
Proof.
  intros HR H0 H1 H2. rewrite !idel_split by lra.
  assert (M : forall n, n < 0 -> 0 < Rpower e' n < Rpower e n) by (intros; split; [apply exp_pos|apply Rpower_anti_lt_l; lra]).
  pose proof (M (- 3.7) ltac:(lits; lra)) as M1. pose proof (M (- 4.2) ltac:(lits; lra)) as M2. pose proof (M (- 3.85) ltac:(lits; lra)) as M3.
  assert (K : 0 < Rpower ((1 - e') / 0.45) 0.7 < Rpower ((1 - e) / 0.45) 0.7).
  { split; [apply exp_pos|]. apply Rpower_lt_l; [apply Rdiv_lt_0_compat; lits; lra|apply div_lt_r; lits; lra|lits; lra]. }
  pose proof (Rpower_pos Re 0.3).
  repeat apply Rplus_lt_compat.
  - apply Rmult_lt_compat_l; [lits; lra|]. apply Rmult_lt_compat_l; [lra|]. apply Rmult_le_0_lt_compat; lra.
  - apply Rmult_lt_compat_l; [lits; lra|]. apply Rmult_lt_compat_l; [posr|lra].
  - apply Rmult_lt_compat_l; [lits; lra|]. apply Rmult_lt_compat_l; [posr|]. apply Rmult_le_0_lt_compat; lra.
Qed.
Lemma har_B r : 0 < r -> 0 < 1 - PI ^ 2 / 24 * r * (1 - r / 2).
Proof.
  intros Hr. pose proof PI_RGT_0. pose proof PI_4 as P4.
  assert (Q : 0 < PI ^ 2 / 24 <= 16 / 24). { split; nra. }
  assert (Rr : r * (1 - r / 2) <= 1 / 2). { pose proof (pow2_ge_0 (r - 1)). nra. }
  set (p := PI ^ 2 / 24) in *. set (x := r * (1 - r / 2)) in *. replace (p * r * (1 - r / 2)) with (p * x) by (unfold x; ring). nra.
Qed.

(** The wall correction of one method turns negative in wide beds (see [C84_guo_negative_refuted]); the others
    hold for every bed. *)
Definition sound (m : string) (r : option R) : Prop :=
  m = "Guo, Sun, Zhang, Ding & Liu"%string -> match r with Some r => 2.8054 <= 9.5374 * r | None => True end.
Lemma guo_b (r : option R) : sound "Guo, Sun, Zhang, Ding & Liu" r -> 0 <= 9.5374 * match r with Some r => r | None => 3.5 end - 2.8054.
Proof. intros H. specialize (H eq_refl). destruct r; lits; lra. Qed.
Lemma mon_pos Re e r : 0 < Re -> 0 < e < 1 -> 0 < montillet Re e r.
Proof.
  intros HR He. unfold montillet. assert (0 < 1 - e) by lra. assert (0 < e) by lra.
  assert (A : 0 < (if Rltb e 0.4 then 0.061 else 0.05)) by (destruct (Rltb e 0.4); lits; lra).
  assert (W : 0 < match r with Some r => if Rltb 50 (/ r) then 2.2 else Rpower (/ r) 0.2 | None => 2.2 end).
  { destruct r as [r|]; [destruct (Rltb 50 (/ r)); [|apply exp_pos]|]; lits; lra. }
  match type of A with 0 < ?x => set (a := x) in * end. match type of W with 0 < ?x => set (w := x) in * end. clearbody a w. posr.
Qed.
Ltac methods Hin := cbn [In published] in Hin;
  repeat (destruct Hin as [Hin|Hin]; [injection Hin as <- <-|]); [..|contradiction].
Lemma Phi_pos m Phi Re e r : In (m, Phi) published -> sound m r -> 0 < Re -> 0 < e < 1 -> match r with Some r => 0 < r | None => True end ->
  0 < Phi Re e r.
Proof.
  intros Hin Hs HR He Hr. methods Hin; try (apply erg_pos; lits; lra).
  - apply fah_pos; auto.
  - apply idel_pos; auto.
  - unfold harrison. pose proof (Rpower_pos (Re / (1 - e)) (5 / 6)). pose proof (cubed e ltac:(lra)). destruct r as [r|].
    + pose proof (har_B r Hr). apply Rmult_lt_0_compat; [|apply Rdiv_lt_0_compat; auto; apply pow_lt; lra].
      pose proof PI_RGT_0. assert (0 < 1 - e) by lra. posr.
    + apply Rmult_lt_0_compat; [lits; lra|apply Rdiv_lt_0_compat; auto; apply pow_lt; lra].
  - apply mon_pos; auto.
  - unfold guo. cbv zeta. pose proof (guo_b r Hs). apply erg_pos; lits; lra.
Qed.
Lemma Phi_Re m Phi Re Re' e r : In (m, Phi) published -> sound m r -> 0 < Re -> Re <= Re' -> 0 < e < 1 ->
  match r with Some r => 0 < r | None => True end -> Phi Re e r <= Phi Re' e r.
Proof.
  intros Hin Hs HR HR' He Hr. methods Hin; try (apply erg_Re; lits; lra).
  - apply fah_Re; auto.
  - apply idel_Re; auto.
  - unfold harrison. pose proof (cubed e ltac:(lra)).
    assert (P : Rpower (Re / (1 - e)) (5 / 6) <= Rpower (Re' / (1 - e)) (5 / 6)).
    { apply Rpower_le_l; [apply Rdiv_lt_0_compat; lra|apply div_le_r; lra|lra]. }
    destruct r as [r|]; (apply Rmult_le_compat_r; [apply Rdiv_le_0_compat; auto; apply pow_le; lra|]); apply Rplus_le_compat_l;
      (apply Rmult_le_compat_l; [|exact P]); [pose proof (har_B r Hr)|]; lits; lra.
  - pose proof (mon_pos Re e r HR He) as MP. unfold montillet in *. pose proof (cubed e ltac:(lra)).
    assert (A : 0 < (if Rltb e 0.4 then 0.061 else 0.05)) by (destruct (Rltb e 0.4); lits; lra).
    assert (W : 0 < match r with Some r => if Rltb 50 (/ r) then 2.2 else Rpower (/ r) 0.2 | None => 2.2 end).
    { destruct r as [r|]; [destruct (Rltb 50 (/ r)); [|apply exp_pos]|]; lits; lra. }
    match type of A with 0 < ?x => set (a := x) in * end. match type of W with 0 < ?x => set (w := x) in * end. clearbody a w.
    apply Rmult_le_compat_r; [apply Rdiv_le_0_compat; lra|]. apply Rmult_le_compat_l; [apply Rmult_le_pos; lra|].
    pose proof (sqrt_le_1_alt Re Re' HR'). lra.
  - unfold guo. cbv zeta. pose proof (guo_b r Hs). apply erg_Re; lits; lra.
Qed.
Lemma Phi_e m Phi Re e e' r : In (m, Phi) published -> sound m r -> m <> "Fahien & Schriver"%string -> 0 < Re ->
  0 < e -> e < e' -> e' < 1 -> match r with Some r => 0 < r | None => True end -> Phi Re e' r < Phi Re e r.
Proof.
  intros Hin Hs Hm HR H0 H1 H2 Hr. methods Hin; try (apply erg_e; lits; lra).
  - contradiction.
  - apply idel_e; auto.
  - unfold harrison. destruct r as [r|].
    + pose proof (har_B r Hr) as HB. set (B := 1 - PI ^ 2 / 24 * r * (1 - r / 2)) in *.
      pose proof (erg_e 0 (4.63 * B) (5 / 6) Re e e') as M. unfold ergun_type in M.
      rewrite !Rmult_plus_distr_r. rewrite !Rplus_0_l in M. apply Rplus_lt_compat; [|apply M; lits; lra].
      set (c := PI * r / 6). assert (Hc : 0 < c) by (unfold c; pose proof PI_RGT_0; posr).
      replace (119.8 * (1 + PI * r / (6 * (1 - e'))) ^ 2 * ((1 - e') ^ 2 / e' ^ 3)) with (119.8 * (1 - e' + c) ^ 2 / e' ^ 3) by (unfold c; field; lra).
      replace (119.8 * (1 + PI * r / (6 * (1 - e))) ^ 2 * ((1 - e) ^ 2 / e ^ 3)) with (119.8 * (1 - e + c) ^ 2 / e ^ 3) by (unfold c; field; lra).
      assert (0 < (1 - e' + c) ^ 2 /\ (1 - e' + c) ^ 2 <= (1 - e + c) ^ 2) by (split; nra).
      apply quot_lt; [lits; nra|lits; nra|lits; nra|apply cubed; lra|apply cube_lt; lra].
    + pose proof (erg_e 119.8 4.63 (5 / 6) Re e e') as M. unfold ergun_type in M. rewrite !Rmult_1_r. apply M; lits; lra.
  - unfold montillet.
    assert (A : 0 < (if Rltb e' 0.4 then 0.061 else 0.05) <= (if Rltb e 0.4 then 0.061 else 0.05)).
    { destruct (Rltb e' 0.4) eqn:E1, (Rltb e 0.4) eqn:E2; try (lits; lra).
      apply Rltb_true in E1. apply Rltb_false in E2. lits; lra. }
    assert (W : 0 < match r with Some r => if Rltb 50 (/ r) then 2.2 else Rpower (/ r) 0.2 | None => 2.2 end).
    { destruct r as [r|]; [destruct (Rltb 50 (/ r)); [|apply exp_pos]|]; lits; lra. }
    match type of A with 0 < ?x <= ?y => set (a := x) in *; set (a' := y) in * end. match type of W with 0 < ?x => set (w := x) in * end. clearbody a a' w.
    assert (S : 0 < 1000 + 60 * sqrt Re + 12 * Re) by (pose proof (sqrt_pos Re); lra). set (s := 1000 + _ + _) in *. clearbody s.
    assert (Q : 0 < (1 - e') / e' ^ 3 < (1 - e) / e ^ 3).
    { split; [apply Rdiv_lt_0_compat; [lra|apply cubed; lra]|]. apply quot_lt; try lra; [apply cubed; lra|apply cube_lt; lra]. }
    apply Rle_lt_trans with (a' * w * s * ((1 - e') / e' ^ 3)).
    + apply Rmult_le_compat_r; [lra|]. apply Rmult_le_compat_r; [lra|]. apply Rmult_le_compat_r; lra.
    + apply Rmult_lt_compat_l; [apply Rmult_lt_0_compat; [apply Rmult_lt_0_compat; lra|lra]|lra].
  - unfold guo. cbv zeta. pose proof (guo_b r Hs). apply erg_e; lits; lra.
Qed.
Definition names : list string := map fst published.
Lemma name_in m : In m names -> exists Phi, In (m, Phi) published.
Proof. intros H. apply in_map_iff in H as ([m' Phi] & E & H). cbn in E. subst. eauto. Qed.
Lemma ratio_pos dp Dt : 0 < dp -> match Dt with Some D => 0 < D | None => True end -> match ratio dp Dt with Some r => 0 < r | None => True end.
Proof. destruct Dt; cbn; auto. intros. apply Rdiv_lt_0_compat; auto. Qed.

(** There is a pressure drop, in the direction of flow. *)
Theorem C84_positive : forall m dp e vs rho mu L Dt, In m names -> sound m (ratio dp Dt) -> bed dp e vs rho mu L Dt ->
  exists dP, dP_packed_bed dp e vs rho mu L Dt None (Some m) = Ok dP /\ 0 < dP.
Proof.
  intros m dp e vs rho mu L Dt Hm Hs Hb. destruct (name_in m Hm) as [Phi Hin]. rewrite (C84_published m Phi) by auto.
  destruct Hb as (Hdp & He & Hvs & Hrho & Hmu & HL & HDt). eexists. split; [reflexivity|].
  assert (HP := Phi_pos m Phi (dp * rho * vs / mu) e (ratio dp Dt) Hin Hs ltac:(posr) He (ratio_pos dp Dt Hdp HDt)). posr.
Qed.
(** It rises with the velocity. *)
Theorem C84_velocity : forall m dp e vs vs' rho mu L Dt dP dP', In m names -> sound m (ratio dp Dt) -> bed dp e vs rho mu L Dt -> vs < vs' ->
  dP_packed_bed dp e vs rho mu L Dt None (Some m) = Ok dP -> dP_packed_bed dp e vs' rho mu L Dt None (Some m) = Ok dP' -> dP < dP'.
Proof.
  intros m dp e vs vs' rho mu L Dt dP dP' Hm Hs Hb Hv E E'. destruct (name_in m Hm) as [Phi Hin].
  assert (Hb' : bed dp e vs' rho mu L Dt) by (unfold bed in *; intuition lra).
  rewrite (C84_published m Phi) in E by auto. rewrite (C84_published m Phi) in E' by auto. injection E as <-. injection E' as <-.
  destruct Hb as (Hdp & He & Hvs & Hrho & Hmu & HL & HDt).
  assert (R1 : 0 < dp * rho * vs / mu) by posr.
  assert (R2 : dp * rho * vs / mu <= dp * rho * vs' / mu). { apply div_le_r; auto. apply Rmult_le_compat_l; [posr|lra]. }
  pose proof (Phi_pos m Phi _ e (ratio dp Dt) Hin Hs R1 He (ratio_pos dp Dt Hdp HDt)) as HP.
  pose proof (Phi_Re m Phi _ _ e (ratio dp Dt) Hin Hs R1 R2 He (ratio_pos dp Dt Hdp HDt)) as HM.
  change (dp * (dp * 1)) with (dp ^ 2).
  assert (K : 0 < mu * vs * L / dp ^ 2 < mu * vs' * L / dp ^ 2).
  { split; [posr|]. apply div_lt_r; [posr|]. apply Rmult_lt_compat_r; auto. apply Rmult_lt_compat_l; auto. }
  set (p := Phi _ e _) in *. set (p' := Phi _ e _) in *. set (k := mu * vs * L / _) in *. set (k' := mu * vs' * L / _) in *. clearbody p p' k k'.
  apply Rlt_le_trans with (k' * p); [apply Rmult_lt_compat_r; lra|apply Rmult_le_compat_l; lra].
Qed.
(** It falls with the voidage (not proved for Fahien & Schriver). *)
Theorem C84_voidage : forall m dp e e' vs rho mu L Dt dP dP', In m names -> sound m (ratio dp Dt) -> m <> "Fahien & Schriver"%string ->
  bed dp e vs rho mu L Dt -> e < e' -> e' < 1 ->
  dP_packed_bed dp e vs rho mu L Dt None (Some m) = Ok dP -> dP_packed_bed dp e' vs rho mu L Dt None (Some m) = Ok dP' -> dP' < dP.
Proof.
  intros m dp e e' vs rho mu L Dt dP dP' Hm Hs Hf Hb Hv He' E E'. destruct (name_in m Hm) as [Phi Hin].
  assert (Hb' : bed dp e' vs rho mu L Dt) by (unfold bed in *; intuition lra).
  rewrite (C84_published m Phi) in E by auto. rewrite (C84_published m Phi) in E' by auto. injection E as <-. injection E' as <-.
  destruct Hb as (Hdp & He & Hvs & Hrho & Hmu & HL & HDt).
  change (dp * (dp * 1)) with (dp ^ 2). apply Rmult_lt_compat_l; [posr|].
  apply (Phi_e m); auto; try lra; [posr|]. apply ratio_pos; auto.
Qed.
(** Twice the bed, twice the drop. *)
Theorem C84_length : forall m dp e vs rho mu L k Dt dP, In m names -> bed dp e vs rho mu L Dt -> 0 < k ->
  dP_packed_bed dp e vs rho mu L Dt None (Some m) = Ok dP -> dP_packed_bed dp e vs rho mu (k * L) Dt None (Some m) = Ok (k * dP).
Proof.
  intros m dp e vs rho mu L k Dt dP Hm Hb Hk E. destruct (name_in m Hm) as [Phi Hin].
  assert (Hb' : bed dp e vs rho mu (k * L) Dt) by (unfold bed in *; intuition (auto; apply Rmult_lt_0_compat; lra)).
  rewrite (C84_published m Phi) in E by auto. rewrite (C84_published m Phi) by auto. injection E as <-. f_equal.
  destruct Hb as (Hdp & _). field. lra.
Qed.
(** Consistent units: measuring in other units of length, mass and time changes the answer by the factor of a
    pressure only. *)
Theorem C84_units : forall m dp e vs rho mu L Dt dP l k t, In m names -> bed dp e vs rho mu L Dt -> 0 < l -> 0 < k -> 0 < t ->
  dP_packed_bed dp e vs rho mu L Dt None (Some m) = Ok dP ->
  dP_packed_bed (dp * l) e (vs * (l / t)) (rho * (k / l ^ 3)) (mu * (k / (l * t))) (L * l) (option_map (fun D => D * l) Dt) None (Some m)
  = Ok (dP * (k / (l * t ^ 2))).
Proof.
  intros m dp e vs rho mu L Dt dP l k t Hm Hb Hl Hk Ht E. destruct (name_in m Hm) as [Phi Hin].
  rewrite (C84_published m Phi) in E by auto. injection E as <-.
  destruct Hb as (Hdp & He & Hvs & Hrho & Hmu & HL & HDt).
  rewrite (C84_published m Phi); auto.
  - replace (dp * l * (rho * (k / l ^ 3)) * (vs * (l / t)) / (mu * (k / (l * t)))) with (dp * rho * vs / mu) by (field; lra).
    replace (ratio (dp * l) (option_map (fun D => D * l) Dt)) with (ratio dp Dt).
    + f_equal. set (p := Phi _ _ _). field. lra.
    + destruct Dt as [D|]; cbn; auto. f_equal. field. lra.
  - unfold bed. splits; try posr; try lra. destruct Dt; cbn; auto. posr.
Qed.
(** A sphericity scales the particle size; the default method is Harrison's with a bed diameter, Erdim's
    without; any other name is refused. *)
Theorem C84_dispatch : forall m dp e vs rho mu L Dt s,
  dP_packed_bed dp e vs rho mu L Dt (Some s) m = dP_packed_bed (dp * s) e vs rho mu L Dt None m /\
  dP_packed_bed dp e vs rho mu L Dt None None =
    dP_packed_bed dp e vs rho mu L Dt None (Some (match Dt with Some _ => "Harrison, Brunner & Hecker" | None => "Erdim, Akgiray & Demir" end)%string).
Proof. intros. split; [reflexivity|]. destruct Dt; reflexivity. Qed.
Theorem C84_unknown : forall m dp e vs rho mu L Dt s, ~ In m names -> dP_packed_bed dp e vs rho mu L Dt s (Some m) = Err ValueError.
Proof.
  intros m dp e vs rho mu L Dt s Hm. unfold dP_packed_bed. cbn [bind]. cbn in Hm.
  destruct s; cbn [bind]; cbv zeta;
  (repeat match goal with |- context [String.eqb m ?x] => destruct (String.eqb_spec m x) as [->|_]; [exfalso; tauto|] end; reflexivity).
Qed.
(** Guo's correlation gives a pressure RISE in the direction of flow for fine particles in a wide bed. *)
Theorem C84_guo_negative_refuted : ~ (forall dp e vs rho mu L D dP, bed dp e vs rho mu L (Some D) ->
  dP_packed_bed dp e vs rho mu L (Some D) None (Some "Guo, Sun, Zhang, Ding & Liu"%string) = Ok dP -> 0 < dP).
Proof.
  intros H. assert (Hb : bed 1 0.5 1 500 1 1 (Some 10)) by (unfold bed; splits; lits; lra).
  specialize (H _ _ _ _ _ _ _ _ Hb (C84_published _ guo _ _ _ _ _ _ _ ltac:(cbn; auto 20) Hb)).
  revert H. apply Rle_not_lt. cbn [ratio option_map]. unfold guo, ergun_type.
  replace (1 * 500 * 1 / 1 / (1 - 0.5)) with 1000 by (lits; field; lra).
  assert (W : 100 < Rpower 1000 0.97) by itv 0%nat. set (w := Rpower _ _) in *. clearbody w. lits. lra.
Qed.
(** Every offered method is implemented, the default first; with a bed diameter all of them are offered. *)
Theorem C84_offered : forall Dt, incl (dP_packed_bed_methods Dt) names /\ (Dt <> None -> incl names (dP_packed_bed_methods Dt)) /\
  forall dp e vs rho mu L, dP_packed_bed dp e vs rho mu L Dt None None = dP_packed_bed dp e vs rho mu L Dt None (hd_error (dP_packed_bed_methods Dt)).
Proof.
  intros [D|]; splits; try reflexivity; try congruence; try (intros; cbv [incl dP_packed_bed_methods names published map fst app]; cbn [In]; intros; tauto).
Qed.

(** Voidage: falls with the bed diameter towards the value of the unbounded packing, and is a proper fraction
    for beds at least as wide as a particle (spheres, cylinders) or twice as wide as a sphere (general). *)
Lemma inv_sq_lt x y : 0 < x -> x < y -> / (y * y) < / (x * x).
Proof. intros. apply Rinv_lt_contravar; [apply Rmult_lt_0_compat; nra|nra]. Qed.
Theorem C84_voidage_spheres : forall Dp Dt Dt', 0 < Dp -> 0 < Dt -> Dt < Dt' ->
  exists v v', voidage_Benyahia_Oneil_spherical Dp Dt = Ok v /\ voidage_Benyahia_Oneil_spherical Dp Dt' = Ok v' /\
    0.39 < v' < v /\ (Dp <= Dt -> v < 1).
Proof.
  intros Dp Dt Dt' Hp Ht Htt. unfold voidage_Benyahia_Oneil_spherical.
  assert (Q : 0 < Dt / Dp < Dt' / Dp) by (split; [posr|apply div_lt_r; lra]).
  assert (0 < Dt / Dp + 1.14) by (lits; lra). assert (0 < Dt' / Dp + 1.14) by (lits; lra).
  mrun. eexists _, _. split; [reflexivity|]. split; [reflexivity|].
  pose proof (inv_sq_lt (Dt / Dp + 1.14) (Dt' / Dp + 1.14) ltac:(auto) ltac:(lra)) as I.
  assert (0 < / ((Dt' / Dp + 1.14) * (Dt' / Dp + 1.14))) by posr. unfold Rdiv at 1 3 5. splits.
  - lits; lra.
  - lits; lra.
  - intros Hle. assert (1 <= Dt / Dp). { apply Rmult_le_reg_r with Dp; auto. unfold Rdiv. rewrite Rmult_assoc, Rinv_l by lra. lra. }
    assert (/ ((Dt / Dp + 1.14) * (Dt / Dp + 1.14)) <= / 4). { apply Rinv_le_contravar; [lra|]. lits. nra. }
    lits; lra.
Qed.
Theorem C84_voidage_cylinders : forall Dp Dt Dt' s s', 0 < Dp -> 0 < Dt -> Dt < Dt' ->
  exists v v', voidage_Benyahia_Oneil_cylindrical Dp Dt s = Ok v /\ voidage_Benyahia_Oneil_cylindrical Dp Dt' s' = Ok v' /\
    0.373 < v' < v /\ (1.1 * Dp <= Dt -> v < 1).
Proof.
  intros Dp Dt Dt' s s' Hp Ht Htt. unfold voidage_Benyahia_Oneil_cylindrical.
  assert (Q : 0 < Dt / Dp < Dt' / Dp) by (split; [posr|apply div_lt_r; lra]).
  assert (0 < Dt / Dp + 0.611) by (lits; lra). assert (0 < Dt' / Dp + 0.611) by (lits; lra).
  mrun. eexists _, _. split; [reflexivity|]. split; [reflexivity|].
  pose proof (inv_sq_lt (Dt / Dp + 0.611) (Dt' / Dp + 0.611) ltac:(auto) ltac:(lra)) as I.
  assert (0 < / ((Dt' / Dp + 0.611) * (Dt' / Dp + 0.611))) by posr. unfold Rdiv at 1 3 5. splits.
  - lits; lra.
  - lits; lra.
  - intros Hle. assert (1.1 <= Dt / Dp). { apply Rmult_le_reg_r with Dp; auto. unfold Rdiv. rewrite Rmult_assoc, Rinv_l by lra. lra. }
    assert (/ ((Dt / Dp + 0.611) * (Dt / Dp + 0.611)) <= / 2.9). { apply Rinv_le_contravar; [lits; lra|]. lits. nra. }
    lits; lra.
Qed.
Theorem C84_voidage_general : forall Dp Dt Dt' s, 0 < Dp -> 0 < Dt -> Dt < Dt' -> 0 < s <= 1 ->
  exists v v', voidage_Benyahia_Oneil Dp Dt s = Ok v /\ voidage_Benyahia_Oneil Dp Dt' s = Ok v' /\
    0.35 < v' < v /\ (2 * Dp <= Dt -> 0.5 <= s -> v < 1).
Proof.
  intros Dp Dt Dt' s Hp Ht Htt Hs. unfold voidage_Benyahia_Oneil.
  assert (Q : 0 < Dt / Dp < Dt' / Dp) by (split; [posr|apply div_lt_r; lra]).
  assert (0 < Dt / Dp + 0.1226) by (lits; lra). assert (0 < Dt' / Dp + 0.1226) by (lits; lra).
  assert (0 < s) by lra.
  mrun. eexists _, _. split; [reflexivity|]. split; [reflexivity|].
  pose proof (inv_sq_lt (Dt / Dp + 0.1226) (Dt' / Dp + 0.1226) ltac:(auto) ltac:(lra)) as I.
  assert (0 < / ((Dt' / Dp + 0.1226) * (Dt' / Dp + 0.1226))) by posr.
  assert (S1 : 1 <= / s). { rewrite <- Rinv_1. apply Rinv_le_contravar; lra. }
  unfold Rdiv at 1 2 4 5 7 8. splits.
  - lits; lra.
  - lits; lra.
  - intros Hle Hs5. assert (2 <= Dt / Dp). { apply Rmult_le_reg_r with Dp; auto. unfold Rdiv. rewrite Rmult_assoc, Rinv_l by lra. lra. }
    assert (/ ((Dt / Dp + 0.1226) * (Dt / Dp + 0.1226)) <= / 4.5). { apply Rinv_le_contravar; [lits; lra|]. lits. nra. }
    assert (/ s <= 2). { replace 2 with (/ (/ 2)) by field. apply Rinv_le_contravar; lits; lra. }
    lits; lra.
Qed.

Example C84_ex_bed : bed 0.0008 0.4 0.001 1000 0.001 1 (Some 0.01) /\ In "Ergun"%string names /\
  sound "Ergun" (ratio 0.0008 (Some 0.01)) /\ sound "Guo, Sun, Zhang, Ding & Liu" (ratio 0.4 (Some 1)).
Proof.
  splits; [unfold bed; splits; lits; lra|cbn; auto|intros E; discriminate|]. intros _. cbn. lits; lra.
Qed.
Example C84_ex_ergun : dP_packed_bed 1 0.5 1 1 1 1 None None (Some "Ergun"%string) = Ok 307.
Proof.
  rewrite (C84_published "Ergun" (fun Re e _ => ergun_type 150 1.75 1 Re e)); [|cbn; auto|unfold bed; splits; lits; lra].
  unfold ergun_type. rewrite Rpower_1 by (lits; lra). f_equal. lits. field.
Qed.
Example C84_ex_unknown : ~ In "Darcy"%string names.
Proof. cbn. intuition discriminate. Qed.

Print Assumptions C84_published.
Print Assumptions C84_positive.
Print Assumptions C84_velocity.
Print Assumptions C84_voidage.
Print Assumptions C84_length.
Print Assumptions C84_units.
Print Assumptions C84_dispatch.
Print Assumptions C84_unknown.
Print Assumptions C84_guo_negative_refuted.
Print Assumptions C84_offered.
Print Assumptions C84_voidage_spheres.
Print Assumptions C84_voidage_cylinders.
Print Assumptions C84_voidage_general.
