(** Proofs about secant, newton and halley. *)
From Coq Require Import Reals Lra Lia List Bool QArith ZArith.
From Verif Require Import Base Model_Poly Model_Numerics Spec_Solvers Model_Solvers Proofs_Solvers.
Import ListNotations.
Local Open Scope R_scope.

Definition consistent (low high : option R) : Prop := forall l h, low = Some l -> high = Some h -> l <= h.
Lemma consistent_of low high x : in_bounds low high x -> consistent low high.
Proof. intros [H1 H2] l h E1 E2. specialize (H1 _ E1). specialize (H2 _ E2). lra. Qed.
Lemma clip_in low high p : consistent low high -> in_bounds low high (clip_opt low high p).
Proof.
  intros H. unfold clip_opt, in_bounds; numR. destruct low as [l|], high as [h|]; split; intros ? [= <-];
  try (specialize (H _ _ eq_refl eq_refl)); repeat rcase; lra.
Qed.
Lemma in_bounds_mid low high a b : in_bounds low high a -> in_bounds low high b -> in_bounds low high (/ 2 * (a + b)).
Proof. intros [A1 A2] [B1 B2]. split; intros z Hz; [specialize (A1 _ Hz); specialize (B1 _ Hz)|specialize (A2 _ Hz); specialize (B2 _ Hz)]; lra. Qed.

(** ** secant *)
Definition convex (P : R -> Prop) : Prop := forall x y z, P x -> P y -> hull x y z -> P z.
Lemma convex_bounds low high : convex (in_bounds low high).
Proof. intros x y z [A1 A2] [B1 B2] Hz. split; intros t Ht; [specialize (A1 _ Ht); specialize (B1 _ Ht)|specialize (A2 _ Ht); specialize (B2 _ Ht)]; unfold hull in Hz; lra. Qed.
Lemma convex_hull a b : convex (hull a b). Proof. unfold convex, hull; intros; lra. Qed.
Lemma convex_mid P a b : convex P -> P a -> P b -> P (/ 2 * (a + b)).
Proof. intros C Ha Hb. apply (C a b); auto. unfold hull; lra. Qed.
Definition opt_in (P : R -> Prop) (o : option R) : Prop := forall v, o = Some v -> P v.

Lemma set_ab_in P bis a b p q a' b' : opt_in P a -> opt_in P b -> P p -> set_ab bis a b p q = (a', b') -> opt_in P a' /\ opt_in P b'.
Proof.
  intros Ha Hb Hp. unfold set_ab; numR. destruct bis; [|intros [= <- <-]; auto].
  rcase; intros [= <- <-]; split; auto; intros v [= <-]; auto.
Qed.
Lemma set_ab_some bis a b p q a' b' : a <> None -> b <> None -> set_ab bis a b p q = (a', b') -> a' <> None /\ b' <> None.
Proof. unfold set_ab; numR. intros Ha Hb. destruct bis; [rcase|]; intros [= <- <-]; split; auto; discriminate. Qed.

Lemma secant_loop_inside f g o x0 P n : convex P -> agree_on P f g ->
  forall xtol ytol p0 q0 p1 q1 a b did, P p0 -> P p1 -> opt_in P a -> opt_in P b ->
  ((forall p, P (clip_opt (s_low o) (s_high o) p)) /\ s_guesses o = false) \/ (s_bisection o = true /\ a <> None /\ b <> None) ->
  let L f := secant_loop n f o x0 xtol ytol p0 q0 p1 q1 a b did in
  L f = L g /\ (forall x, L f = Ok x -> P x) /\
  (total f -> s_bisection o = true -> a <> None -> b <> None -> forall e, L f = Err e -> e = UnconvergedError).
Proof.
  intros C Hag. induction n; intros xtol ytol p0 q0 p1 q1 a b did I0 I1 Ia Ib Hc; cbv zeta; cbn [secant_loop].
  { splits; congruence. }
  numR. rewrite half.
  match goal with |- context [bind ?c _] => set (step := c) end.
  assert (Hstep : exists p, step = Ok p).
  { unfold step. rcase; cbn [negb]; [eauto|]. rewrite pydivR_ok by lra. eexists; reflexivity. }
  destruct Hstep as [p ->]. cbn [bind].
  set (pc := clip_opt (s_low o) (s_high o) p).
  match goal with |- context [if secant_done o xtol ytol p0 p1 q1 true then Ok (if s_require_eval o then p1 else ?v) else _] => set (pn := v) end.
  assert (Hmid : forall u v, a = Some u -> b = Some v -> P (/ 2 * (u + v))) by (intros; apply convex_mid; auto).
  assert (Hpn : P pn).
  { unfold pn. destruct Hc as [[Hc _]|[Hb [Na Nb]]].
    - destruct (s_bisection o); [|apply Hc]. destruct a as [u|]; [|apply Hc]. destruct b as [v|]; [|apply Hc].
      match goal with |- P (if ?c then _ else _) => destruct c end; [apply Hmid; auto|apply Hc].
    - rewrite Hb. destruct a as [u|]; [|contradiction]. destruct b as [v|]; [|contradiction].
      destruct (Rltb u pc) eqn:E1; cbn [andb negb orb]; [|apply Hmid; auto].
      destruct (Rltb pc v) eqn:E2; cbn [andb negb orb]; [|apply Hmid; auto].
      apply Rltb_true in E1, E2.
      destruct (Rltb v pc && Rltb pc u); [apply Hmid; auto|].
      apply (C u v); auto. unfold hull; lra. }
  clearbody pn.
  destruct (secant_done o xtol ytol p0 p1 q1 true).
  { splits; auto; [|discriminate]. intros x [= <-]. destruct (s_require_eval o); auto. }
  set (same := Reqb q1 q0).
  set (xtol' := if same then _ else xtol). set (ytol' := if same then _ else ytol).
  destruct (same && secant_done o xtol' ytol' p0 p1 q1 false).
  { splits; auto; [|discriminate]. congruence. }
  match goal with |- bind ?u _ = bind ?v _ /\ _ => set (cf := u); set (cg := v) end.
  assert (Hcc : cf = cg /\ ((exists p' did', cf = Ok (p', did') /\ P p') \/ (cf = Err SamePointError /\ ~ (s_bisection o = true /\ a <> None /\ b <> None)))).
  { unfold cf, cg. destruct same; [|split; [reflexivity|left; do 2 eexists; split; [reflexivity|auto]]].
    destruct (s_bisection o) eqn:Eb.
    - destruct a as [u|].
      + destruct b as [v|].
        * split; auto; left; do 2 eexists; split; [reflexivity|apply Hmid; auto].
        * destruct Hc as [[_ Hgs]|[_ [Na Nb]]]; [rewrite Hgs; cbn [andb]; split; auto; right; split; auto; intros [_ [Na Nb]]|exfalso]; now apply Nb.
      + destruct Hc as [[_ Hgs]|[_ [Na Nb]]]; [rewrite Hgs; cbn [andb]; split; auto; right; split; auto; intros [_ [Na Nb]]|exfalso]; now apply Na.
    - destruct Hc as [[_ Hgs]|[? _]]; [|discriminate]. rewrite Hgs; cbn [andb]. split; auto. right; split; auto. intros [? _]; congruence. }
  destruct Hcc as [<- [[p' [did' [-> Ip']]]|[-> Hno]]]; cbn [bind].
  2:{ splits; auto; try discriminate. intros; exfalso; apply Hno; auto. }
  rewrite <- (Hag p') by auto.
  destruct (f p') as [q'|] eqn:Ef; cbn [bind].
  2:{ splits; auto; try discriminate. intros T. destruct (T p'). congruence. }
  rcase.
  { splits; auto; congruence. }
  destruct (set_ab (s_bisection o) a b p' q') as [a' b'] eqn:Es.
  destruct (set_ab_in P _ _ _ _ _ _ _ Ia Ib Ip' Es) as [Ia' Ib'].
  destruct (IHn xtol' ytol' p1 q1 p' q' a' b' did') as [K1 [K2 K3]]; auto.
  { destruct Hc as [|[? [Na Nb]]]; [left; auto|right]. split; auto. apply (set_ab_some _ _ _ _ _ _ _ Na Nb Es). }
  splits; auto. intros T Hbb Na Nb. destruct (set_ab_some _ _ _ _ _ _ _ Na Nb Es). auto.
Qed.

(** without additional guesses, points and result stay within the bounds *)
Lemma secant_inside f g x0 n o xtol ytol x1 f0 f1 :
  s_guesses o = false -> in_bounds (s_low o) (s_high o) x0 -> opt_in (in_bounds (s_low o) (s_high o)) x1 ->
  agree_on (in_bounds (s_low o) (s_high o)) f g ->
  secant f x0 n o xtol ytol x1 f0 f1 = secant g x0 n o xtol ytol x1 f0 f1 /\
  (forall x, secant f x0 n o xtol ytol x1 f0 f1 = Ok x -> in_bounds (s_low o) (s_high o) x).
Proof.
  intros Hg H0 H1 Hag. set (P := in_bounds (s_low o) (s_high o)) in *.
  pose proof (consistent_of _ _ _ H0) as Hcons.
  unfold secant. rewrite Hg. numR. rewrite Rmult_1_l. cbv zeta.
  set (p1 := match x1 with Some v => v | None => secant_x1 o x0 end).
  assert (I1 : P p1). { unfold p1. destruct x1; [apply H1; auto|]. apply clip_in; auto. }
  rewrite <- (Hag x0), <- (Hag p1) by auto.
  destruct (match f0 with None => f x0 | Some v => Ok v end) as [q0|]; cbn [bind]; [|split; auto; discriminate].
  match goal with |- context [if ?c then Ok x0 else _] => destruct c end.
  { split; auto. congruence. }
  destruct (match f1 with None => f p1 | Some v => Ok v end) as [q1|]; cbn [bind]; [|split; auto; discriminate].
  rewrite andb_false_r. cbn [bind].
  match goal with |- context [if ?c then Ok p1 else _] => destruct c end.
  { split; auto. congruence. }
  destruct (set_ab (s_bisection o) None None p1 q1) as [a b] eqn:E1.
  destruct (set_ab (s_bisection o) a b x0 q0) as [a' b'] eqn:E2.
  assert (N : opt_in P None) by (intros ?; discriminate).
  destruct (set_ab_in P _ _ _ _ _ _ _ N N I1 E1) as [Ia Ib].
  destruct (set_ab_in P _ _ _ _ _ _ _ Ia Ib H0 E2) as [Ia' Ib'].
  destruct n; [split; auto; discriminate|].
  destruct (secant_loop_inside f g o x0 P (S n) (convex_bounds _ _) Hag xtol ytol x0 q0 p1 q1 a' b' false) as [K1 [K2 _]]; auto.
  left; split; auto. intros p; apply clip_in; auto.
Qed.

(** with bisection and a sign change between the two starting points, everything stays between them *)
Lemma secant_bracketed f g x0 x1 n o xtol ytol :
  s_bisection o = true -> opposite f x0 x1 -> agree_on (hull x0 x1) f g ->
  secant f x0 n o xtol ytol (Some x1) None None = secant g x0 n o xtol ytol (Some x1) None None /\
  (forall x, secant f x0 n o xtol ytol (Some x1) None None = Ok x -> hull x0 x1 x) /\
  (total f -> (1 <= n)%nat -> forall e, secant f x0 n o xtol ytol (Some x1) None None = Err e -> e = UnconvergedError).
Proof.
  intros Hb [q0 [q1 [E0 [E1 Hs]]]] Hag.
  assert (I0 : hull x0 x1 x0) by (unfold hull; lra). assert (I1 : hull x0 x1 x1) by (unfold hull; lra).
  unfold secant. numR. rewrite Rmult_1_l. cbv zeta. rewrite <- (Hag x0), <- (Hag x1) by auto. rewrite E0, E1. cbn [bind].
  match goal with |- context [if ?c then Ok x0 else _] => destruct c end.
  { splits; auto; congruence. }
  assert (Reqb q1 q0 = false) as ->. { apply Reqb_false. intros ->. nra. } cbn [andb bind].
  match goal with |- context [if ?c then Ok x1 else _] => destruct c end.
  { splits; auto; congruence. }
  rewrite Hb.
  destruct (set_ab true None None x1 q1) as [a b] eqn:S1.
  destruct (set_ab true a b x0 q0) as [a' b'] eqn:S2.
  assert (N : opt_in (hull x0 x1) None) by (intros ?; discriminate).
  destruct (set_ab_in (hull x0 x1) _ _ _ _ _ _ _ N N I1 S1) as [Ia Ib].
  destruct (set_ab_in (hull x0 x1) _ _ _ _ _ _ _ Ia Ib I0 S2) as [Ia' Ib'].
  assert (Nab : a' <> None /\ b' <> None).
  { unfold set_ab in S1, S2. numR. apply mul_neg_cases in Hs.
    rcase_in S1; injection S1 as <- <-; rcase_in S2; injection S2 as <- <-; split; try discriminate; lra. }
  destruct n; [splits; auto; try discriminate; intros; lia|].
  destruct (secant_loop_inside f g o x0 (hull x0 x1) (S n) (convex_hull _ _) Hag xtol ytol x0 q0 x1 q1 a' b' false) as [K1 [K2 K3]]; auto.
  splits; auto. intros T _ e He. destruct Nab. apply (K3 T); auto.
Qed.

(** the value at the returned point *)
Lemma secant_loop_value f o x0 y n x : s_require_eval o = true -> s_same_tol o = 1 ->
  forall xtol p0 q0 p1 q1 a b did, f p1 = Ok q1 ->
  secant_loop n f o x0 xtol (Some y) p0 q0 p1 q1 a b did = Ok x -> exists v, f x = Ok v /\ (v = 0 \/ Rabs v < y).
Proof.
  intros Hre Hst. induction n; intros xtol p0 q0 p1 q1 a b did H1; cbn [secant_loop]; [discriminate|].
  numR. intros E. inv_bind E.
  rewrite Hre in E. cbv zeta in E.
  destruct (secant_done o xtol (Some y) p0 p1 q1 true) eqn:Ed.
  { injection E as <-. exists q1. split; auto. right. unfold secant_done in Ed. numR.
    destruct xtol.
    - apply andb_true_iff in Ed as [Ed _]. now apply Rltb_true in Ed.
    - now apply Rltb_true in Ed. }
  cbn [option_map] in E. rewrite Hst, Rmult_1_r in E.
  replace (if Reqb q1 q0 then Some y else Some y) with (Some y) in E by (destruct (Reqb q1 q0); auto).
  set (xtol' := if Reqb q1 q0 then option_map (fun v => v * 1) xtol else xtol) in *.
  assert (Hx : xtol' = xtol) by (unfold xtol'; destruct (Reqb q1 q0), xtol; cbn [option_map]; rewrite ?Rmult_1_r; auto).
  rewrite Hx in E. clear xtol' Hx.
  destruct (Reqb q1 q0 && secant_done o xtol (Some y) p0 p1 q1 false) eqn:Es.
  { exfalso. apply andb_true_iff in Es as [_ Es]. unfold secant_done in Es, Ed. numR.
    destruct xtol; [|congruence]. apply andb_true_iff in Es as [Es1 Es2]. rewrite Es1, Es2 in Ed. rewrite orb_true_r in Ed. discriminate. }
  inv_bind E. destruct v0 as [p' did']. inv_bind E.
  rcase_in E.
  { injection E as <-. exists v0; auto. }
  destruct (set_ab _ a b p' v0) as [a' b'].
  eapply IHn in E; eauto.
Qed.
Lemma secant_guess1_value f o x0 q0 fs : forall p1 q1 p q, f p1 = Ok q1 ->
  secant_guess1 f o x0 q0 fs p1 q1 = Ok (p, q) -> f p = Ok q.
Proof.
  induction fs as [|gf fs IH]; intros p1 q1 p q H E; cbn [secant_guess1] in E.
  - injection E as <- <-; auto.
  - inv_bind E. inv_bind E. destruct (_ <? _)%num; [injection E as <- <-; auto|]. eapply IH in E; eauto.
Qed.
Lemma secant_value f x0 n o xtol y x1 x : s_require_eval o = true -> s_same_tol o = 1 ->
  secant f x0 n o xtol (Some y) x1 None None = Ok x -> exists v, f x = Ok v /\ (v = 0 \/ Rabs v < y).
Proof.
  intros Hre Hst. unfold secant. cbv zeta. intros E.
  set (p1 := match x1 with Some v => v | None => secant_x1 o x0 end) in *. numR.
  inv_bind E.
  match type of E with (if ?c then _ else _) = _ => destruct c eqn:E1 end.
  { injection E as <-. exists v; split; auto. apply orb_true_iff in E1 as [E1|E1].
    - apply andb_true_iff in E1 as [E1 _]. right. now apply Rltb_true in E1.
    - left. now apply Reqb_true in E1. }
  inv_bind E. inv_bind E. destruct v1 as [p q].
  assert (Hpq : f p = Ok q). { destruct (Reqb v0 v && s_guesses o); [eapply secant_guess1_value; eauto|injection E3 as <- <-; auto]. }
  match type of E with (if ?c then _ else _) = _ => destruct c eqn:E4 end.
  { injection E as <-. exists q; split; auto. apply orb_true_iff in E4 as [E4|E4].
    - apply andb_true_iff in E4 as [E4 _]. right. now apply Rltb_true in E4.
    - left. now apply Reqb_true in E4. }
  destruct (set_ab (s_bisection o) None None p q) as [a b]. destruct (set_ab (s_bisection o) a b _ v) as [a' b'].
  destruct n; [discriminate|]. eapply secant_loop_value in E; eauto.
Qed.

(** an affine function is solved exactly by the first secant step *)
Lemma secant_affine m c x0 x1 n o : m <> 0 -> x0 <> x1 -> s_low o = None -> s_high o = None -> s_damping o = 1 -> s_bisection o = false ->
  (1 <= n)%nat -> exists x, secant (fun x => Ok (m * x + c)) x0 n o None None (Some x1) None None = Ok x /\ m * x + c = 0.
Proof.
  intros Hm Hx Hl Hh Hd Hb Hn. unfold secant. numR. rewrite Rmult_1_l. cbv zeta. cbn [bind orb].
  destruct (Reqb (m * x0 + c) 0) eqn:E0. { apply Reqb_true in E0. eauto. }
  assert (Hne : Reqb (m * x1 + c) (m * x0 + c) = false) by (apply Reqb_false; intros K; apply Hx; nra).
  rewrite Hne. cbn [andb bind].
  destruct (Reqb (m * x1 + c) 0) eqn:E1. { apply Reqb_true in E1. eauto. }
  rewrite Hb. cbn [set_ab]. destruct n; [lia|]. cbn [secant_loop]. numR. rewrite Hne. cbn [negb].
  assert (Hmd : m * x1 + c - (m * x0 + c) <> 0) by (apply Reqb_false in Hne; lra).
  rewrite pydivR_ok by auto. cbn [bind].
  unfold clip_opt. rewrite Hl, Hh, Hb, Hd. cbn [secant_done andb bind].
  match goal with |- context [Reqb ?v 0] => assert (Hv : v = 0) end.
  { assert (x1 - x0 <> 0) by lra. field. lra. }
  rewrite (proj2 (Reqb_true _ 0)) by auto. eauto.
Qed.
(** with bisection too, if the function increases *)
Lemma secant_affine_bisection m c x0 x1 n o : 0 < m -> (m * x0 + c) * (m * x1 + c) < 0 -> s_low o = None -> s_high o = None -> s_damping o = 1 -> s_bisection o = true ->
  (1 <= n)%nat -> exists x, secant (fun x => Ok (m * x + c)) x0 n o None None (Some x1) None None = Ok x /\ m * x + c = 0.
Proof.
  intros Hm Hs Hl Hh Hd Hb Hn. assert (Hx : x0 <> x1) by (intros ->; pose proof (Rle_0_sqr (m * x1 + c)) as K; unfold Rsqr in K; lra). unfold secant. numR. rewrite Rmult_1_l. cbv zeta. cbn [bind orb].
  rewrite (proj2 (Reqb_false (m * x0 + c) 0)) by (intros K; rewrite K in Hs; lra).
  assert (Hne : Reqb (m * x1 + c) (m * x0 + c) = false) by (apply Reqb_false; intros K; apply Hx; nra).
  rewrite Hne. cbn [andb bind]. rewrite (proj2 (Reqb_false (m * x1 + c) 0)) by (intros K; rewrite K in Hs; lra).
  rewrite Hb. destruct n; [lia|]. unfold set_ab. numR.
  set (r := x1 - (m * x1 + c) * (x1 - x0) / (m * x1 + c - (m * x0 + c)) * 1).
  assert (Hmd : m * x1 + c - (m * x0 + c) <> 0) by (apply Reqb_false in Hne; lra).
  assert (Hr : r = - c / m). { unfold r. assert (x1 - x0 <> 0) by lra. field. split; [lra|]. replace (m * x1 + c - (m * x0 + c)) with (m * (x1 - x0)) in Hmd by ring. lra. }
  assert (Hr0 : m * r + c = 0) by (rewrite Hr; field; lra).
  destruct (Rltb (m * x1 + c) 0) eqn:E1; [apply Rltb_true in E1|apply Rltb_false in E1].
  - assert (0 < m * x0 + c) by nra. rewrite (proj2 (Rltb_false (m * x0 + c) 0)) by lra. cbn [secant_loop]. numR. rewrite Hne. cbn [negb]. rewrite pydivR_ok by auto. cbn [bind].
    unfold clip_opt. rewrite Hl, Hh, Hb, Hd. fold r.
    rewrite (proj2 (Rltb_true x1 r)) by nra. rewrite (proj2 (Rltb_true r x0)) by nra. rewrite (proj2 (Rltb_false x0 r)) by nra.
    cbn [secant_done andb orb negb bind]. rewrite Hr0, (proj2 (Reqb_true 0 0)) by auto. eauto.
  - assert (0 < m * x1 + c) by (destruct E1 as [E1|E1]; [lra|rewrite <- E1 in Hs; lra]). assert (m * x0 + c < 0) by nra. rewrite (proj2 (Rltb_true (m * x0 + c) 0)) by lra. cbn [secant_loop]. numR. rewrite Hne. cbn [negb]. rewrite pydivR_ok by auto. cbn [bind].
    unfold clip_opt. rewrite Hl, Hh, Hb, Hd. fold r.
    rewrite (proj2 (Rltb_true x0 r)) by nra. rewrite (proj2 (Rltb_true r x1)) by nra. rewrite (proj2 (Rltb_false x1 r)) by nra.
    cbn [secant_done andb orb negb bind]. rewrite Hr0, (proj2 (Reqb_true 0 0)) by auto. eauto.
Qed.
