(** Proofs about bisect, brenth and ridder. *)
From Coq Require Import Reals Lra Lia List Bool QArith ZArith.
From Coquelicot Require Import Coquelicot.
From Verif Require Import Base Model_Poly Model_Numerics Spec_Solvers Model_Solvers.
Import ListNotations.
Local Open Scope R_scope.

Lemma half : Q2R (1#2) = / 2. Proof. unfold Q2R; simpl; lra. Qed.
Lemma three : Q2R 3 = 3. Proof. unfold Q2R; simpl; lra. Qed.

Lemma mul_neg_cases a b : a * b < 0 -> (a < 0 /\ 0 < b) \/ (0 < a /\ b < 0).
Proof. intros. destruct (Rlt_dec a 0), (Rlt_dec b 0), (Rlt_dec 0 a), (Rlt_dec 0 b); try (left; lra); try (right; lra); nra. Qed.
Lemma mul_pos_cases a b : 0 < a * b -> (a < 0 /\ b < 0) \/ (0 < a /\ 0 < b).
Proof. intros. destruct (Rlt_dec a 0), (Rlt_dec b 0), (Rlt_dec 0 a), (Rlt_dec 0 b); try (left; lra); try (right; lra); nra. Qed.
Lemma neg_mul a b : (a < 0 /\ 0 < b) \/ (0 < a /\ b < 0) -> a * b < 0. Proof. intros [[? ?]|[? ?]]; nra. Qed.

(** ** bisect *)
Section Bisect.
Context (f : R -> result R) (xtol rtol : R) (ytol : option R).

Lemma bisect_loop_result n fa va vb a dm x :
  fa <> 0 -> f a = Ok va -> f (a + dm) = Ok vb -> 0 < va * fa -> vb * fa < 0 ->
  bisect_loop n f xtol rtol ytol fa a dm = Ok x ->
  hull a (a + dm) x /\
  (f x = Ok 0 \/
   exists y, hull a (a + dm) y /\ opposite f x y /\ Rabs (y - x) < xtol + rtol * Rabs (y - x) /\
     exists v, f x = Ok v /\ within ytol v).
Proof.
  revert va vb a dm; induction n; intros va vb a dm H0 Ha Hb Sa Sb; cbn [bisect_loop]; [discriminate|].
  numR; rewrite half; intros E. inv_bind E. cbv zeta in E.
  set (d := dm * / 2) in *.
  assert (Hd : dm = 2 * d) by (unfold d; lra).
  assert (Hxm : hull a (a + dm) (a + d)) by (unfold hull; destruct (Rle_dec 0 d); [left|right]; lra).
  assert (Hother : v <> 0 -> exists y, hull a (a + dm) y /\ opposite f (a + d) y /\ Rabs (y - (a + d)) = Rabs d).
  { intros Hv. destruct (Rle_dec 0 (v * fa)).
    - exists (a + dm). splits.
      + unfold hull; destruct (Rle_dec 0 d); [left|right]; lra.
      + exists v, vb; splits; auto. assert (0 < v * fa) by (assert (v * fa <> 0) by (apply Rmult_integral_contrapositive_currified; auto); lra).
        apply mul_pos_cases in H. apply mul_neg_cases in Sb. apply neg_mul; lra.
      + f_equal; lra.
    - exists a. splits.
      + unfold hull; destruct (Rle_dec 0 d); [left|right]; lra.
      + exists v, va; splits; auto. assert (v * fa < 0) by lra. apply mul_neg_cases in H. apply mul_pos_cases in Sa. apply neg_mul; lra.
      + replace (a - (a + d)) with (- d) by lra. apply Rabs_Ropp. }
  assert (Hdone : v <> 0 -> Rabs d < xtol + rtol * Rabs d -> within ytol v -> x = a + d ->
     hull a (a + dm) x /\ (f x = Ok 0 \/ exists y, hull a (a + dm) y /\ opposite f x y /\
       Rabs (y - x) < xtol + rtol * Rabs (y - x) /\ exists v, f x = Ok v /\ within ytol v)).
  { intros Hv Hs Hw ->. split; auto. right. destruct (Hother Hv) as [y [Hy1 [Hy2 Hy3]]].
    exists y; splits; auto. now rewrite Hy3. exists v; auto. }
  assert (Hrec : v <> 0 -> bisect_loop n f xtol rtol ytol fa (if Rleb 0 (v * fa) then a + d else a) d = Ok x ->
     hull a (a + dm) x /\ (f x = Ok 0 \/ exists y, hull a (a + dm) y /\ opposite f x y /\
       Rabs (y - x) < xtol + rtol * Rabs (y - x) /\ exists v, f x = Ok v /\ within ytol v)).
  { intros Hv. rcase; intros Hl.
    - assert (0 < v * fa) by (assert (v * fa <> 0) by (apply Rmult_integral_contrapositive_currified; auto); lra).
      apply (IHn v vb) in Hl; auto. 2:{ replace (a + d + d) with (a + dm) by lra; auto. }
      assert (K : forall z, hull (a + d) (a + d + d) z -> hull a (a + dm) z) by (unfold hull; intros; destruct (Rle_dec 0 d); [left|right]; lra).
      destruct Hl as [K1 K2]; split; auto. destruct K2 as [|[y [? ?]]]; auto. right; exists y; split; auto.
    - apply (IHn va v) in Hl; auto.
      assert (K : forall z, hull a (a + d) z -> hull a (a + dm) z) by (unfold hull; intros; destruct (Rle_dec 0 d); [left|right]; lra).
      destruct Hl as [K1 K2]; split; auto. destruct K2 as [|[y [? ?]]]; auto. right; exists y; split; auto. }
  destruct (Reqb v 0) eqn:Ez.
  { apply Reqb_true in Ez. injection E as <-. split; auto. left; congruence. }
  apply Reqb_false in Ez.
  destruct ytol as [yt|].
  - destruct (Rltb (Rabs d) _ && Rltb (Rabs v) yt) eqn:Et.
    + apply andb_true_iff in Et as [T1 T2]. apply Rltb_true in T1, T2. injection E as E.
      apply Hdone; auto. intros t [= <-]; auto.
    + apply Hrec; auto.
  - destruct (Rltb (Rabs d) _) eqn:Et.
    + apply Rltb_true in Et. injection E as E. apply Hdone; auto. intros t; discriminate.
    + apply Hrec; auto.
Qed.

Lemma bisect_result a b n x : bisect f a b xtol rtol n ytol = Ok x ->
  hull a b x /\
  (f x = Ok 0 \/
   exists y, hull a b y /\ opposite f x y /\ Rabs (y - x) < xtol + rtol * Rabs (y - x) /\
     exists v, f x = Ok v /\ within ytol v).
Proof.
  unfold bisect; intros E. inv_bind E. inv_bind E. numR.
  repeat rcase_in E; try discriminate.
  - injection E as <-. split; [unfold hull; lra | left; congruence].
  - injection E as <-. split; [unfold hull; lra | left; congruence].
  - apply (bisect_loop_result n v v v0) in E; auto.
    + replace (a + (b - a)) with b in E by lra. auto.
    + replace (a + (b - a)) with b by lra. auto.
    + destruct (Rlt_dec v 0); [nra|]. assert (0 < v) by lra. nra.
    + assert (v * v0 <> 0) by (apply Rmult_integral_contrapositive_currified; auto). lra.
Qed.

(** only points of the bracket matter *)
Lemma bisect_loop_agree g n fa a dm : agree_on (hull a (a + dm)) f g ->
  bisect_loop n f xtol rtol ytol fa a dm = bisect_loop n g xtol rtol ytol fa a dm.
Proof.
  revert a dm; induction n; intros a dm H; cbn [bisect_loop]; auto. numR; rewrite half. cbv zeta.
  set (d := dm * / 2). assert (dm = 2 * d) by (unfold d; lra).
  rewrite <- (H (a + d)) by (unfold hull; destruct (Rle_dec 0 d); [left|right]; lra).
  destruct (f (a + d)) as [v|]; cbn [bind]; auto.
  assert (K : bisect_loop n f xtol rtol ytol fa (if Rleb 0 (v * fa) then a + d else a) d =
              bisect_loop n g xtol rtol ytol fa (if Rleb 0 (v * fa) then a + d else a) d).
  { apply IHn. intros z Hz. apply H. revert Hz. rcase; unfold hull; destruct (Rle_dec 0 d); intros; [left|right|left|right]; lra. }
  now rewrite K.
Qed.
Lemma bisect_agree g a b n : agree_on (hull a b) f g -> bisect f a b xtol rtol n ytol = bisect g a b xtol rtol n ytol.
Proof.
  intros H. unfold bisect. rewrite <- (H a), <- (H b) by (unfold hull; lra).
  destruct (f a) as [va|]; auto. destruct (f b) as [vb|]; auto. cbn [bind].
  rewrite (bisect_loop_agree g); auto. numR. replace (a + (b - a)) with b by lra. auto.
Qed.
Lemma bisect_loop_errors n fa a dm e : total f -> bisect_loop n f xtol rtol ytol fa a dm = Err e -> e = UnconvergedError.
Proof.
  intros T. revert a dm; induction n; intros a dm; cbn [bisect_loop]; [congruence|]. cbv zeta.
  match goal with |- context [f ?p] => destruct (T p) as [v ->] end. cbn [bind].
  destruct (_ =? _)%num; [discriminate|]. destruct ytol; destruct (_ : bool); try discriminate; apply IHn.
Qed.
Lemma bisect_loop_total n fa a dm : total f -> ytol = None -> 0 <= rtol -> (1 <= n)%nat -> Rabs dm < 2 ^ n * xtol ->
  exists x, bisect_loop n f xtol rtol ytol fa a dm = Ok x.
Proof.
  intros T -> Hr. revert a dm; induction n; intros a dm Hn Hd; [lia|]. cbn [bisect_loop]; numR; rewrite half. cbv zeta.
  destruct (T (a + dm * / 2)) as [v ->]. cbn [bind].
  assert (Rabs (dm * / 2) < 2 ^ n * xtol) by (rewrite Rabs_mult, (Rabs_right (/2)) by lra; simpl in Hd; lra).
  destruct (Reqb v 0); [eauto|]. destruct n.
  - assert (Rltb (Rabs (dm * / 2)) (xtol + rtol * Rabs (dm * / 2)) = true) as ->; eauto.
    apply Rltb_true. simpl in H. pose proof (Rabs_pos (dm * / 2)). nra.
  - rcase; eauto. apply IHn; auto. lia.
Qed.
End Bisect.

(** ** brenth *)
Lemma brenth_loop_tol f xtol rtol ytol q n x : forall xpre fpre xcur fcur xblk fblk spre scur,
  f xpre = Ok fpre -> f xcur = Ok fcur -> fpre <> 0 ->
  (fpre * fcur < 0 \/ (f xblk = Ok fblk /\ fblk * fpre < 0)) ->
  brenth_loop n f xtol rtol ytol q xpre fpre xcur fcur xblk fblk spre scur = Ok x ->
  f x = Ok 0 \/ exists y, opposite f x y /\ Rabs (y - x) < xtol + rtol * Rabs x /\ exists v, f x = Ok v /\ within ytol v.
Proof.
  induction n; intros xpre fpre xcur fcur xblk fblk spre scur Hp Hc Np Hs; cbn [brenth_loop]; [discriminate|].
  numR; rewrite half.
  set (st := if Rltb (fpre * fcur) 0 then _ else _).
  assert (Hst : exists xb fb sp sc, st = (xb, fb, sp, sc) /\ f xb = Ok fb /\ (fcur = 0 \/ fb * fcur < 0) /\ fb <> 0).
  { unfold st. rcase.
    - exists xpre, fpre, (xcur - xpre), (xcur - xpre). splits; auto.
    - destruct Hs as [|[Hs1 Hs2]]; [lra|]. exists xblk, fblk, spre, scur. splits; auto.
      + destruct (Req_dec fcur 0); auto. right. apply mul_neg_cases in Hs2. apply neg_mul.
        destruct Hs2 as [[? ?]|[? ?]]; [left|right]; split; auto; nra.
      + intros ->. lra. }
  destruct Hst as [xb [fb [sp [sc [-> [Hb [Sb Nb]]]]]]]. clear Hs.
  set (st := if Rltb (Rabs fb) (Rabs fcur) then _ else _).
  assert (Hst : exists xp fp xc fc xb' fb', st = (xp, fp, xc, fc, xb', fb') /\ f xp = Ok fp /\ f xc = Ok fc /\ f xb' = Ok fb' /\
    (fc = 0 \/ fb' * fc < 0) /\ fb' <> 0).
  { unfold st. rcase.
    - assert (fcur <> 0). { intros ->. rewrite Rabs_R0 in Hb0. pose proof (Rabs_pos fb). lra. }
      do 6 eexists; splits; try reflexivity; auto. right. lra.
    - do 6 eexists; splits; try reflexivity; auto. }
  destruct Hst as [xp [fp [xc [fc [xb' [fb' [-> [H1 [H2 [H3 [H4 H5]]]]]]]]]]].
  cbv zeta.
  match goal with |- (if ?c then _ else _) = _ -> _ => destruct c eqn:Et end.
  - intros [= <-].
    destruct (Req_dec fc 0) as [->|Nc]; [left; auto|].
    assert (Hd : Rabs (/ 2 * (xb' - xc)) < / 2 * (xtol + rtol * Rabs xc) /\ within ytol fc).
    { assert (Hz : Reqb fc 0 = false) by now apply Reqb_false. rewrite Hz in Et.
      destruct ytol as [yt|]; cbn [orb] in Et.
      - apply andb_true_iff in Et as [T1 T2]. apply Rltb_true in T1, T2. split; auto. intros t [= <-]; auto.
      - apply Rltb_true in Et. split; auto. intros t; discriminate. }
    destruct Hd as [Hd1 Hd2]. right. exists xb'. splits.
    + exists fc, fb'. splits; auto. destruct H4 as [|]; [contradiction|lra].
    + rewrite Rabs_mult, (Rabs_right (/2)) in Hd1 by lra. lra.
    + exists fc; auto.
  - intros E. inv_bind E. destruct v as [sp' sc']. inv_bind E.
    destruct (Req_dec fc 0) as [->|Nc].
    { exfalso. destruct ytol; rewrite (proj2 (Reqb_true 0 0)) in Et; auto; discriminate. }
    eapply IHn in E; eauto. right; split; auto. destruct H4; [contradiction|auto].
Qed.
Lemma brenth_tol f xa xb xtol rtol n ytol q fa fb x :
  (forall v, fa = Some v -> f xa = Ok v) -> (forall v, fb = Some v -> f xb = Ok v) ->
  brenth f xa xb xtol rtol n ytol q fa fb = Ok x ->
  f x = Ok 0 \/ exists y, opposite f x y /\ Rabs (y - x) < xtol + rtol * Rabs x /\ exists v, f x = Ok v /\ within ytol v.
Proof.
  intros Ha Hb E. unfold brenth in E. inv_bind E. inv_bind E.
  assert (f xa = Ok v) by (destruct fa; [injection E0 as <-|]; auto).
  assert (f xb = Ok v0) by (destruct fb; [injection E1 as <-|]; auto). numR.
  repeat rcase_in E; try discriminate.
  - injection E as <-. left; congruence.
  - injection E as <-. left; congruence.
  - eapply brenth_loop_tol in E; eauto. left.
    assert (v * v0 <> 0) by (apply Rmult_integral_contrapositive_currified; auto). lra.
Qed.

Lemma div_pp a b : 0 < a -> 0 < b -> 0 < a / b. Proof. intros; now apply Rdiv_lt_0_compat. Qed.
Lemma div_nn a b : a < 0 -> b < 0 -> 0 < a / b.
Proof. intros. replace (a / b) with ((- a) / (- b)) by (field; lra). apply div_pp; lra. Qed.
Lemma div_np a b : a < 0 -> 0 < b -> a / b < 0.
Proof. intros. replace (a / b) with (- ((- a) / b)) by (field; lra). pose proof (div_pp (- a) b). lra. Qed.
Lemma div_pn a b : 0 < a -> b < 0 -> a / b < 0.
Proof. intros. replace (a / b) with (- (a / (- b))) by (field; lra). pose proof (div_pp a (- b)). lra. Qed.

(** the interpolated step exists and points strictly from xcur towards xblk *)
Lemma brenth_try_dir q xpre fpre xcur fcur xblk fblk :
  fblk * fcur < 0 -> xblk <> xcur ->
  ((xpre = xblk /\ fpre = fblk) \/ (xpre <> xblk /\ fblk * fpre < 0 /\ 0 < (xcur - xpre) * (xblk - xcur) /\ Rabs fcur < Rabs fpre)) ->
  exists s, brenth_try q xpre fpre xcur fcur xblk fblk = Ok s /\ 0 < s * (xblk - xcur).
Proof.
  intros Hs Hx Hc. unfold brenth_try. numR.
  destruct Hc as [[-> ->]|[Hn [Hp [Hg Hm]]]].
  - rewrite (proj2 (Reqb_true xblk xblk)) by auto.
    assert (fcur - fblk <> 0) by (apply mul_neg_cases in Hs; lra).
    rewrite pydivR_ok by auto. eexists; split; eauto.
    replace (- fcur * (xcur - xblk) / (fcur - fblk) * (xblk - xcur)) with ((xblk - xcur) * (xblk - xcur) * (fcur / (fcur - fblk))) by (field; auto).
    apply Rmult_lt_0_compat; [nra|]. apply mul_neg_cases in Hs as [[? ?]|[? ?]]; [apply div_pp|apply div_nn]; lra.
  - rewrite (proj2 (Reqb_false xpre xblk)) by auto.
    assert (Hxp : xpre - xcur <> 0) by (intros K; replace (xcur - xpre) with 0 in Hg by lra; lra).
    assert (Hxb : xblk - xcur <> 0) by lra.
    rewrite !pydivR_ok by auto. cbn [bind].
    set (dp := (fpre - fcur) / (xpre - xcur)). set (db := (fblk - fcur) / (xblk - xcur)).
    apply mul_pos_cases in Hg. apply mul_neg_cases in Hs.
    assert (Hf : (fcur > 0 /\ fpre > fcur /\ fblk < 0) \/ (fcur < 0 /\ fpre < fcur /\ 0 < fblk)).
    { apply mul_neg_cases in Hp. unfold Rabs in Hm. destruct (Rcase_abs fcur), (Rcase_abs fpre); lra. }
    assert (Hd : ((fcur > 0 /\ fpre > fcur /\ fblk < 0) /\ (xblk - xcur < 0 /\ 0 < dp /\ 0 < db \/ 0 < xblk - xcur /\ dp < 0 /\ db < 0)) \/
                 ((fcur < 0 /\ fpre < fcur /\ 0 < fblk) /\ (xblk - xcur < 0 /\ dp < 0 /\ db < 0 \/ 0 < xblk - xcur /\ 0 < dp /\ 0 < db))).
    { destruct Hf as [Hf|Hf]; [left|right]; split; auto; destruct Hg as [[G1 G2]|[G1 G2]]; [left|right|left|right]; splits; auto; unfold dp, db;
      first [apply div_pp; lra | apply div_nn; lra | apply div_np; lra | apply div_pn; lra]. }
    clearbody dp db. clear Hf Hg Hs Hp Hm.
    assert (Hpn : forall a b, (0 < a /\ 0 < b) \/ (a < 0 /\ b < 0) -> b <> 0 /\ 0 < a / b).
    { intros a b [[? ?]|[? ?]]; split; try lra; [apply div_pp|apply div_nn]; lra. }
    assert (Hnp : forall a b, (a < 0 /\ 0 < b) \/ (0 < a /\ b < 0) -> b <> 0 /\ a / b < 0).
    { intros a b [[? ?]|[? ?]]; split; try lra; [apply div_np|apply div_pn]; lra. }
    destruct q.
    + set (N := - fcur * (fblk * db - fpre * dp)). set (D := db * dp * (fblk - fpre)).
      destruct Hd as [[[? [? ?]] Hd]|[[? [? ?]] Hd]]; destruct Hd as [[? [? ?]]|[? [? ?]]];
      assert (0 < db * dp) by nra.
      * assert (D < 0) by (unfold D; nra). assert (fblk * db < 0) by nra. assert (0 < fpre * dp) by nra. assert (0 < N) by (unfold N; nra).
        rewrite pydivR_ok by lra. eexists; split; eauto. pose proof (div_pn N D). nra.
      * assert (D < 0) by (unfold D; nra). assert (0 < fblk * db) by nra. assert (fpre * dp < 0) by nra. assert (N < 0) by (unfold N; nra).
        rewrite pydivR_ok by lra. eexists; split; eauto. pose proof (div_nn N D). nra.
      * assert (0 < D) by (unfold D; nra). assert (fblk * db < 0) by nra. assert (0 < fpre * dp) by nra. assert (N < 0) by (unfold N; nra).
        rewrite pydivR_ok by lra. eexists; split; eauto. pose proof (div_np N D). nra.
      * assert (0 < D) by (unfold D; nra). assert (0 < fblk * db) by nra. assert (fpre * dp < 0) by nra. assert (0 < N) by (unfold N; nra).
        rewrite pydivR_ok by lra. eexists; split; eauto. pose proof (div_pp N D). nra.
    + set (N := - fcur * (fblk - fpre)). set (D := fblk * dp - fpre * db).
      destruct Hd as [[[? [? ?]] Hd]|[[? [? ?]] Hd]]; destruct Hd as [[? [? ?]]|[? [? ?]]].
      * assert (D < 0) by (unfold D; nra). assert (0 < N) by (unfold N; nra).
        rewrite pydivR_ok by lra. eexists; split; eauto. pose proof (div_pn N D). nra.
      * assert (0 < D) by (unfold D; nra). assert (0 < N) by (unfold N; nra).
        rewrite pydivR_ok by lra. eexists; split; eauto. pose proof (div_pp N D). nra.
      * assert (D < 0) by (unfold D; nra). assert (0 < N) by (unfold N; nra).
        rewrite pydivR_ok by lra. eexists; split; eauto. pose proof (div_pn N D). nra.
      * assert (0 < D) by (unfold D; nra). assert (0 < N) by (unfold N; nra).
        rewrite pydivR_ok by lra. eexists; split; eauto. pose proof (div_pp N D). nra.
Qed.

(** strictly between, and then inside any segment containing both ends *)
Lemma hull_step a b c d s : hull a b c -> hull a b d -> 0 <= s * (d - c) -> Rabs s <= Rabs (d - c) -> hull a b (c + s).
Proof.
  intros Hc Hd Hs Hm.
  assert (hull c d (c + s)).
  { unfold hull. unfold Rabs in Hm. destruct (Rcase_abs s), (Rcase_abs (d - c)).
    - right; lra.
    - assert (d - c = 0) by nra. lra.
    - assert (s = 0) by nra. lra.
    - left; lra. }
  unfold hull in *; lra.
Qed.

Lemma brenth_loop_inside f g a b xtol rtol q n : 0 <= xtol -> 0 <= rtol -> agree_on (hull a b) f g ->
  forall xpre fpre xcur fcur xblk fblk spre scur,
  hull a b xpre -> hull a b xcur -> f xpre = Ok fpre -> f xcur = Ok fcur -> fpre <> 0 ->
  (fpre * fcur < 0 \/ (0 <= fpre * fcur /\ hull a b xblk /\ f xblk = Ok fblk /\ fblk * fpre < 0 /\ 0 < (xcur - xpre) * (xblk - xcur))) ->
  let L f := brenth_loop n f xtol rtol None q xpre fpre xcur fcur xblk fblk spre scur in
  L f = L g /\ (forall x, L f = Ok x -> hull a b x) /\ (total f -> forall e, L f = Err e -> e = UnconvergedError).
Proof.
  intros Hxt Hrt Hag.
  induction n; intros xpre fpre xcur fcur xblk fblk spre scur Ip Ic Hp Hc Np Hs; cbv zeta; cbn [brenth_loop].
  { splits; auto; congruence. }
  numR; rewrite half.
  set (st := if Rltb (fpre * fcur) 0 then _ else _).
  assert (Hst : exists xb fb sp sc, st = (xb, fb, sp, sc) /\ hull a b xb /\ f xb = Ok fb /\ (fcur = 0 \/ fb * fcur < 0) /\ fb <> 0 /\
     ((xpre = xb /\ fpre = fb) \/ (xpre <> xb /\ fb * fpre < 0 /\ 0 < (xcur - xpre) * (xb - xcur)))).
  { unfold st. rcase.
    - exists xpre, fpre, (xcur - xpre), (xcur - xpre). splits; auto.
    - destruct Hs as [|[Hs0 [Hs1 [Hs2 [Hs3 Hs4]]]]]; [lra|]. exists xblk, fblk, spre, scur. splits; auto.
      + destruct (Req_dec fcur 0); auto. right. apply mul_neg_cases in Hs3. apply neg_mul.
        destruct Hs3 as [[? ?]|[? ?]]; [left|right]; split; auto; nra.
      + intros ->. lra.
      + right. splits; auto. intros <-. rewrite Hp in Hs2. injection Hs2 as <-. nra. }
  destruct Hst as [xb [fb [sp [sc [-> [Ib [Hb [Sb [Nb Hgeo]]]]]]]]]. clear Hs.
  set (st := if Rltb (Rabs fb) (Rabs fcur) then _ else _).
  assert (Hst : exists xp fp xc fc xb' fb', st = (xp, fp, xc, fc, xb', fb') /\ f xp = Ok fp /\ f xc = Ok fc /\ f xb' = Ok fb' /\
    (fc = 0 \/ fb' * fc < 0) /\ fb' <> 0 /\ hull a b xp /\ hull a b xc /\ hull a b xb' /\
    ((xp = xb' /\ fp = fb') \/ (xp <> xb' /\ fb' * fp < 0 /\ 0 < (xc - xp) * (xb' - xc)))).
  { unfold st. rcase.
    - assert (fcur <> 0). { intros ->. rewrite Rabs_R0 in Hb0. pose proof (Rabs_pos fb). lra. }
      do 6 eexists; splits; try reflexivity; auto. right. lra.
    - do 6 eexists; splits; try reflexivity; auto. }
  destruct Hst as [xp [fp [xc [fc [xb' [fb' [-> [H1 [H2 [H3 [H4 [H5 [H6 [H7 [H8 H9]]]]]]]]]]]]]]].
  cbv zeta. clear - IHn H1 H2 H3 H4 H5 H6 H7 H8 H9 Hxt Hrt Hag.
  set (delta := / 2 * (xtol + rtol * Rabs xc)). set (sbis := / 2 * (xb' - xc)).
  assert (Hde : 0 <= delta) by (unfold delta; pose proof (Rabs_pos xc); nra).
  destruct (Reqb fc 0) eqn:Ez; cbn [orb].
  { splits; auto; try congruence. }
  apply Reqb_false in Ez. destruct H4 as [|H4]; [contradiction|].
  assert (Hxx : xb' <> xc). { intros ->. rewrite H2 in H3. injection H3 as <-. nra. }
  destruct (Rltb (Rabs sbis) delta) eqn:Et; cbn [orb].
  { splits; auto; try congruence. }
  apply Rltb_false in Et.
  assert (Hsb : sbis * 2 = xb' - xc) by (unfold sbis; lra).
  assert (Hsb0 : 0 < Rabs sbis) by (apply Rabs_pos_lt; lra).
  set (ch := if Rltb delta (Rabs sp) && Rltb (Rabs fc) (Rabs fp) then _ else _).
  assert (Hch : exists s1 s2, ch = Ok (s1, s2) /\ 0 < s2 * (xb' - xc) /\ Rabs s2 < Rabs (xb' - xc)).
  { assert (Hbis : forall s1, exists s1' s2, @Ok (R * R) (s1, sbis) = Ok (s1', s2) /\ 0 < s2 * (xb' - xc) /\ Rabs s2 < Rabs (xb' - xc)).
    { intros s1. exists s1, sbis. splits; auto. nra.
      rewrite <- Hsb, Rabs_mult, (Rabs_right 2) by lra. lra. }
    unfold ch. destruct (Rltb delta (Rabs sp) && Rltb (Rabs fc) (Rabs fp)) eqn:Ec; [|apply Hbis].
    apply andb_true_iff in Ec as [_ Ec]. apply Rltb_true in Ec.
    destruct (brenth_try_dir q xp fp xc fc xb' fb') as [s [-> Hdir]]; auto.
    { destruct H9 as [|[? [? ?]]]; [left|right]; auto. }
    cbn [bind].
    destruct (Rltb (Rabs (s + s)) _) eqn:El; [|apply Hbis].
    exists sc, s. splits; auto.
    apply Rltb_true in El. unfold nmin in El. numR. rewrite three in El.
    replace (s + s) with (2 * s) in El by lra. rewrite Rabs_mult, (Rabs_right 2) in El by lra.
    assert (Rabs (xb' - xc) = 2 * Rabs sbis) by (rewrite <- Hsb, Rabs_mult, (Rabs_right 2) by lra; lra).
    rcase_in El; lra. }
  destruct Hch as [s1 [s2 [-> [Hd1 Hd2]]]]. cbn [bind].
  set (xn := if Rltb delta (Rabs s2) then _ else _).
  assert (Hxn : hull a b xn /\ 0 < (xn - xc) * (xb' - xn)).
  { assert (Hgen : forall s, 0 < s * (xb' - xc) -> Rabs s < Rabs (xb' - xc) -> hull a b (xc + s) /\ 0 < (xc + s - xc) * (xb' - (xc + s))).
    { intros s K1 K2. split; [apply hull_step with xb'; auto; lra|].
      apply mul_pos_cases in K1. unfold Rabs in K2. destruct (Rcase_abs s), (Rcase_abs (xb' - xc)); nra. }
    assert (Rabs (xb' - xc) = 2 * Rabs sbis) by (rewrite <- Hsb, Rabs_mult, (Rabs_right 2) by lra; lra).
    unfold xn. rcase.
    - apply Hgen; auto.
    - assert (0 < delta). { assert (0 < Rabs s2); [|lra]. apply Rabs_pos_lt. intros ->. lra. }
      rcase.
      + apply Hgen; [nra | rewrite (Rabs_right delta); lra].
      + replace (xc - delta) with (xc + - delta) by lra. assert (sbis < 0) by lra.
        apply Hgen; [nra | rewrite Rabs_Ropp, (Rabs_right delta); lra]. }
  destruct Hxn as [Hxn1 Hxn2].
  rewrite <- (Hag xn) by auto.
  destruct (f xn) as [fn|e] eqn:En; cbn [bind].
  - apply IHn; auto.
    destruct (Rlt_dec (fc * fn) 0); [left; auto|]. right; splits; auto; lra.
  - splits; auto; try congruence. intros T. destruct (T xn). congruence.
Qed.
Lemma brenth_inside f g xa xb xtol rtol n q fa fb : 0 <= xtol -> 0 <= rtol -> agree_on (hull xa xb) f g ->
  (forall v, fa = Some v -> f xa = Ok v) -> (forall v, fb = Some v -> f xb = Ok v) ->
  let L f := brenth f xa xb xtol rtol n None q fa fb in
  L f = L g /\ (forall x, L f = Ok x -> hull xa xb x) /\
  (total f -> forall e, L f = Err e -> e = UnconvergedError \/ (e = NotBoundedError /\ exists v w, f xa = Ok v /\ f xb = Ok w /\ 0 < v * w)).
Proof.
  intros Hx Hr Hag Ha Hb. cbv zeta.
  assert (Ia : hull xa xb xa) by (unfold hull; lra). assert (Ib : hull xa xb xb) by (unfold hull; lra).
  unfold brenth.
  replace (match fa with Some v => Ok v | None => g xa end) with (f xa).
  2:{ destruct fa; [now apply Ha|apply Hag; auto]. }
  replace (match fa with Some v => Ok v | None => f xa end) with (f xa) by (destruct fa; auto; now apply Ha).
  replace (match fb with Some v => Ok v | None => g xb end) with (f xb).
  2:{ destruct fb; [now apply Hb|apply Hag; auto]. }
  replace (match fb with Some v => Ok v | None => f xb end) with (f xb) by (destruct fb; auto; now apply Hb).
  destruct (f xa) as [va|] eqn:Ea; cbn [bind].
  2:{ splits; auto; try discriminate. intros T. destruct (T xa); congruence. }
  destruct (f xb) as [vb|] eqn:Eb; cbn [bind].
  2:{ splits; auto; try discriminate. intros T. destruct (T xb); congruence. }
  numR.
  destruct (Rltb 0 (va * vb)) eqn:E1.
  { apply Rltb_true in E1. splits; auto; try discriminate. intros _ e [= <-]. right; split; auto. exists va, vb; auto. }
  apply Rltb_false in E1.
  destruct (Reqb va 0) eqn:E2; [splits; auto; congruence|].
  destruct (Reqb vb 0) eqn:E3; [splits; auto; congruence|].
  apply Reqb_false in E2, E3.
  assert (va * vb <> 0) by (apply Rmult_integral_contrapositive_currified; auto).
  destruct (brenth_loop_inside f g xa xb xtol rtol q n Hx Hr Hag xa va xb vb 0 0 0 0) as [K1 [K2 K3]]; auto.
  { left; lra. }
Qed.

(** ** ridder *)
Lemma copysign_abs x s : Rabs (copysign x s) = Rabs x.
Proof. unfold copysign. rcase; rewrite ?Rabs_Ropp; apply Rabs_Rabsolu. Qed.
Lemma nminR x y : nmin x y = Rmin x y.
Proof. unfold nmin; numR. unfold Rmin. rcase; destruct (Rle_dec x y); lra. Qed.

(** |fm| < sqrt (fm^2 - fa fb), so the Ridder step is shorter than half the bracket *)
Lemma ridder_step_short fm fa fb : fa * fb < 0 ->
  exists s, psqrt (fm * fm - fa * fb) = Ok s /\ 0 < s /\ Rabs fm < s.
Proof.
  intros H. exists (sqrt (fm * fm - fa * fb)).
  assert (0 < fm * fm - fa * fb) by nra.
  splits.
  - apply psqrt_ok; lra.
  - now apply sqrt_lt_R0.
  - rewrite <- (sqrt_Rsqr_abs fm). apply sqrt_lt_1; unfold Rsqr; nra.
Qed.

Lemma ridder_loop_ok f g xtol rtol A B n : agree_on (hull A B) f g ->
  forall tol a b fa fb, hull A B a -> hull A B b -> f a = Ok fa -> f b = Ok fb -> fa * fb < 0 -> tol <= 2 * Rabs (b - a) ->
  let L f := ridder_loop n f xtol rtol tol a b fa fb in
  L f = L g /\ (forall x, L f = Ok x -> hull A B x) /\ (total f -> forall e, L f = Err e -> e = UnconvergedError).
Proof.
  intros Hag. induction n; intros tol a b fa fb Ia Ib Ha Hb Hs Ht; cbv zeta; cbn [ridder_loop].
  { splits; congruence. }
  set (dm := / 2 * (b - a)). assert (Hdm : b - a = 2 * dm) by (unfold dm; lra).
  assert (Im : hull A B (a + dm)).
  { apply hull_step with b; auto. rewrite Hdm. nra. rewrite Hdm, Rabs_mult, (Rabs_right 2) by lra. pose proof (Rabs_pos dm); lra. }
  rewrite <- (Hag (a + dm)) by auto.
  destruct (f (a + dm)) as [fm|] eqn:Em; cbn [bind].
  2:{ splits; auto; try congruence. intros T. destruct (T (a + dm)); congruence. }
  destruct (ridder_step_short fm fa fb Hs) as [s [-> [Hs0 Hsm]]]. cbn [bind].
  rewrite pdiv_ok by lra. cbn [bind].
  set (dn := copysign (1 / s) (fb - fa) * fm * dm).
  assert (Hdn : Rabs dn <= Rabs dm).
  { unfold dn. rewrite !Rabs_mult, copysign_abs. unfold Rdiv. rewrite Rmult_1_l, (Rabs_right (/ s)) by (left; now apply Rinv_0_lt_compat).
    assert (/ s * Rabs fm <= 1). { apply Rmult_le_reg_l with s; auto. rewrite <- Rmult_assoc, Rinv_r by lra. lra. }
    pose proof (Rabs_pos dm). nra. }
  rewrite nminR.
  set (m := copysign (Rmin (Rabs dm - / 2 * tol) (Rabs dn)) dn).
  assert (Hm : Rabs m <= Rabs dm).
  { unfold m. rewrite copysign_abs. rewrite Hdm, Rabs_mult, (Rabs_right 2) in Ht by lra.
    pose proof (Rabs_pos dn). unfold Rmin. destruct (Rle_dec (Rabs dm - / 2 * tol) (Rabs dn)); unfold Rabs at 1; destruct (Rcase_abs _); lra. }
  clearbody m. clear dn Hdn.
  assert (In : hull A B (a + dm - m)).
  { replace (a + dm - m) with (a + (dm - m)) by lra. apply hull_step with b; auto; rewrite Hdm.
    - unfold Rabs in Hm. destruct (Rcase_abs m), (Rcase_abs dm); nra.
    - unfold Rabs in Hm |- *. destruct (Rcase_abs m), (Rcase_abs dm), (Rcase_abs (dm - m)), (Rcase_abs (2 * dm)); lra. }
  rewrite <- (Hag (a + dm - m)) by auto.
  set (xn := a + dm - m) in *. set (xm := a + dm) in *. clearbody xn xm.
  destruct (f xn) as [fn|] eqn:En; cbn [bind].
  2:{ splits; auto; try congruence. intros T. destruct (T xn); congruence. }
  set (st := if Rltb (fn * fm) 0 then _ else _).
  assert (Hst : exists a' b' fa' fb', st = (a', b', fa', fb') /\ hull A B a' /\ hull A B b' /\ f a' = Ok fa' /\ f b' = Ok fb' /\ (fn <> 0 -> fa' * fb' < 0)).
  { unfold st. rcase; [|rcase]; do 4 eexists; splits; try reflexivity; auto; intros.
    - lra.
    - assert (0 <= fn * fa) by lra. apply mul_neg_cases in Hs. apply neg_mul.
      destruct Hs as [[? ?]|[? ?]]; [left|right]; split; auto; nra. }
  destruct Hst as [a' [b' [fa' [fb' [-> [Ia' [Ib' [Ha' [Hb' Hs']]]]]]]]].
  destruct (Reqb fn 0) eqn:Ez; cbn [orb].
  { splits; auto; congruence. }
  apply Reqb_false in Ez. specialize (Hs' Ez).
  destruct (Rltb (Rabs (b' - a')) _) eqn:Et.
  { splits; auto; congruence. }
  apply Rltb_false in Et. apply IHn; auto. pose proof (Rabs_pos (b' - a')). lra.
Qed.
Lemma ridder_loop_tol f xtol rtol n x : forall tol a b fa fb, f a = Ok fa -> f b = Ok fb -> fa * fb < 0 ->
  ridder_loop n f xtol rtol tol a b fa fb = Ok x ->
  f x = Ok 0 \/ exists y, opposite f x y /\ Rabs (y - x) < xtol + rtol * x.
Proof.
  induction n; intros tol a b fa fb Ha Hb Hs; cbn [ridder_loop]; [discriminate|]. cbv zeta.
  intros E. inv_bind E. inv_bind E. inv_bind E. inv_bind E.
  match type of E3 with f ?p = _ => set (xn := p) in * end.
  set (xm := a + / 2 * (b - a)) in *. clearbody xn xm.
  destruct (Req_dec v2 0) as [Hz|Hz].
  { subst v2. left. rewrite (proj2 (Reqb_true 0 0)) in E by auto. cbn [orb] in E.
    destruct (Rltb (0 * v) 0); [|destruct (Rltb (0 * fa) 0)]; congruence. }
  rewrite (proj2 (Reqb_false v2 0)) in E by auto. cbn [orb] in E.
  destruct (Rltb (v2 * v) 0) eqn:C1; [|destruct (Rltb (v2 * fa) 0) eqn:C2].
  - apply Rltb_true in C1. destruct (Rltb (Rabs (xm - xn)) _) eqn:Et.
    + apply Rltb_true in Et. injection E as <-. right. exists xm. splits; auto. exists v2, v; auto.
    + eapply IHn in E; eauto.
  - apply Rltb_true in C2. destruct (Rltb (Rabs (xn - a)) _) eqn:Et.
    + apply Rltb_true in Et. injection E as <-. right. exists a. splits; auto. exists v2, fa; auto.
      rewrite Rabs_minus_sym; auto.
    + eapply IHn in E; eauto. lra.
  - apply Rltb_false in C1, C2.
    assert (v2 * fb < 0). { apply mul_neg_cases in Hs. apply neg_mul. destruct Hs as [[? ?]|[? ?]]; [left|right]; split; auto; nra. }
    destruct (Rltb (Rabs (b - xn)) _) eqn:Et.
    + apply Rltb_true in Et. injection E as <-. right. exists b. splits; auto. exists v2, fb; auto.
    + eapply IHn in E; eauto.
Qed.
Lemma ridder_tol f a b xtol rtol n x : ridder f a b xtol rtol n = Ok x ->
  f x = Ok 0 \/ exists y, opposite f x y /\ Rabs (y - x) < xtol + rtol * x.
Proof.
  unfold ridder; cbv zeta. intros E. inv_bind E. inv_bind E.
  repeat rcase_in E; try discriminate; [injection E as <-; left; congruence..|].
  eapply ridder_loop_tol in E; eauto.
  assert (v * v0 <> 0) by (apply Rmult_integral_contrapositive_currified; auto). lra.
Qed.
Lemma ridder_inside f g a b xtol rtol n :
  agree_on (hull a b) f g -> xtol + rtol * Rmin (Rabs a) (Rabs b) <= 2 * Rabs (b - a) ->
  let L f := ridder f a b xtol rtol n in
  L f = L g /\ (forall x, L f = Ok x -> hull a b x) /\
  (total f -> forall e, L f = Err e -> e = UnconvergedError \/ (e = ValueError /\ exists v w, f a = Ok v /\ f b = Ok w /\ 0 < v * w)).
Proof.
  intros Hag Ht. cbv zeta.
  assert (Ia : hull a b a) by (unfold hull; lra). assert (Ib : hull a b b) by (unfold hull; lra).
  unfold ridder. rewrite <- (Hag a), <- (Hag b) by auto.
  destruct (f a) as [va|] eqn:Ea; cbn [bind].
  2:{ splits; auto; try discriminate. intros T. destruct (T a); congruence. }
  destruct (f b) as [vb|] eqn:Eb; cbn [bind].
  2:{ splits; auto; try discriminate. intros T. destruct (T b); congruence. }
  destruct (Rltb 0 (va * vb)) eqn:E1.
  { apply Rltb_true in E1. splits; auto; try discriminate. intros _ e [= <-]. right; split; auto. exists va, vb; auto. }
  apply Rltb_false in E1.
  destruct (Reqb va 0) eqn:E2; [splits; auto; congruence|].
  destruct (Reqb vb 0) eqn:E3; [splits; auto; congruence|].
  apply Reqb_false in E2, E3.
  assert (va * vb <> 0) by (apply Rmult_integral_contrapositive_currified; auto).
  rewrite nminR, Rmin_comm.
  destruct (ridder_loop_ok f g xtol rtol a b n Hag (xtol + rtol * Rmin (Rabs a) (Rabs b)) a b va vb) as [K1 [K2 K3]]; auto; try lra.
Qed.

(** ** brenth converges *)
Lemma pow_le_1 x n : 1 <= x -> 1 <= x ^ n.
Proof. intros; induction n; simpl; nra. Qed.
Lemma brenth_loop_converges f xtol rtol q m : 0 < xtol -> 0 <= rtol -> total f ->
  forall n k i j xpre fpre xcur fcur xblk fblk spre scur,
  f xpre = Ok fpre -> f xcur = Ok fcur -> fpre <> 0 -> (i <= m)%nat -> (j <= m)%nat ->
  ((fpre * fcur < 0 /\ i = m /\ j = m /\ Rabs (xcur - xpre) < xtol * (4/3) ^ k /\ Rabs (xcur - xpre) <= 2 ^ m * (xtol / 2))
   \/ (0 <= fpre * fcur /\ f xblk = Ok fblk /\ fblk * fpre < 0 /\ 0 < (xcur - xpre) * (xblk - xcur) /\
       Rabs (xblk - xcur) < xtol * (4/3) ^ k /\ Rabs (xblk - xcur) <= 2 ^ m * (xtol / 2) /\
       Rabs spre <= 2 ^ i * (xtol / 2) /\ Rabs scur <= 2 ^ j * (xtol / 2))) ->
  (k * (2 * m + 1) + (i + j) + 1 <= n)%nat ->
  exists x, brenth_loop n f xtol rtol None q xpre fpre xcur fcur xblk fblk spre scur = Ok x.
Proof.
  intros Hxt Hrt Htot.
  induction n; intros k i j xpre fpre xcur fcur xblk fblk spre scur Hp Hc Np Him Hjm Hs Hn; [lia|]. cbn [brenth_loop].
  numR; rewrite half.
  set (st := if Rltb (fpre * fcur) 0 then _ else _).
  assert (Hst : exists xb fb sp sc, st = (xb, fb, sp, sc) /\ f xb = Ok fb /\ (fcur = 0 \/ fb * fcur < 0) /\ fb <> 0 /\
     ((xpre = xb /\ fpre = fb) \/ (xpre <> xb /\ fb * fpre < 0 /\ 0 < (xcur - xpre) * (xb - xcur))) /\
     Rabs (xb - xcur) < xtol * (4/3) ^ k /\ Rabs (xb - xcur) <= 2 ^ m * (xtol / 2) /\
     Rabs sp <= 2 ^ i * (xtol / 2) /\ Rabs sc <= 2 ^ j * (xtol / 2)).
  { unfold st. rcase.
    - destruct Hs as [[Hs1 [-> [-> [Hs2 Hs3]]]]|[? ?]]; [|lra].
      exists xpre, fpre, (xcur - xpre), (xcur - xpre). splits; auto; rewrite Rabs_minus_sym; auto.
    - destruct Hs as [[? ?]|[Hs0 [Hs2 [Hs3 [Hs4 [Hs5 [Hs6 [Hs7 Hs8]]]]]]]]; [lra|]. exists xblk, fblk, spre, scur. splits; auto.
      + destruct (Req_dec fcur 0); auto. right. apply mul_neg_cases in Hs3. apply neg_mul.
        destruct Hs3 as [[? ?]|[? ?]]; [left|right]; split; auto; nra.
      + intros ->. lra.
      + right. splits; auto. intros <-. rewrite Hp in Hs2. injection Hs2 as <-. nra. }
  destruct Hst as [xb [fb [sp [sc [-> [Hb [Sb [Nb [Hgeo [W1 [W2 [W3 W4]]]]]]]]]]]]. clear Hs.
  set (st := if Rltb (Rabs fb) (Rabs fcur) then _ else _).
  assert (Hst : exists xp fp xc fc xb' fb', st = (xp, fp, xc, fc, xb', fb') /\ f xp = Ok fp /\ f xc = Ok fc /\ f xb' = Ok fb' /\
    (fc = 0 \/ fb' * fc < 0) /\ fb' <> 0 /\
    ((xp = xb' /\ fp = fb') \/ (xp <> xb' /\ fb' * fp < 0 /\ 0 < (xc - xp) * (xb' - xc))) /\
     Rabs (xb' - xc) < xtol * (4/3) ^ k /\ Rabs (xb' - xc) <= 2 ^ m * (xtol / 2)).
  { unfold st. rcase.
    - assert (fcur <> 0). { intros ->. rewrite Rabs_R0 in Hb0. pose proof (Rabs_pos fb). lra. }
      do 6 eexists; splits; try reflexivity; auto; try (rewrite Rabs_minus_sym; auto; fail). right. lra.
    - do 6 eexists; splits; try reflexivity; auto. }
  destruct Hst as [xp [fp [xc [fc [xb' [fb' [-> [H1 [H2 [H3 [H4 [H5 [H9 [H10 H11]]]]]]]]]]]]]].
  cbv zeta. clear - IHn H1 H2 H3 H4 H5 H9 H10 H11 W3 W4 Hxt Hrt Hn Htot Him Hjm.
  set (delta := / 2 * (xtol + rtol * Rabs xc)). set (sbis := / 2 * (xb' - xc)).
  assert (Hde : xtol / 2 <= delta) by (unfold delta; pose proof (Rabs_pos xc); nra).
  destruct (Reqb fc 0) eqn:Ez; cbn [orb]; eauto.
  apply Reqb_false in Ez. destruct H4 as [|H4]; [contradiction|].
  assert (Hxx : xb' <> xc). { intros ->. rewrite H2 in H3. injection H3 as <-. nra. }
  destruct (Rltb (Rabs sbis) delta) eqn:Et; cbn [orb]; eauto.
  apply Rltb_false in Et.
  assert (Hsb : sbis * 2 = xb' - xc) by (unfold sbis; lra).
  assert (Hsba : Rabs (xb' - xc) = 2 * Rabs sbis) by (rewrite <- Hsb, Rabs_mult, (Rabs_right 2) by lra; lra).
  assert (Hsb0 : 0 < Rabs sbis) by (apply Rabs_pos_lt; lra).
  destruct k as [|k]. { exfalso. simpl in H10. lra. }
  (* what a bisection step leads to *)
  assert (Hpow : forall c, c <= 3/4 * Rabs (xb' - xc) -> c < xtol * (4/3) ^ k).
  { intros c Hc. simpl in H10. lra. }
  assert (Hbis : exists x, (let xnew := if Rltb delta (Rabs sbis) then xc + sbis else if Rltb 0 sbis then xc + delta else xc - delta in
      fnew <- f xnew;; brenth_loop n f xtol rtol None q xc fc xnew fnew xb' fb' sbis sbis) = Ok x).
  { cbv zeta.
    match goal with |- context [bind (f ?p) _] => assert (Hxn : p = xc + sbis) end.
    { rcase; auto. assert (Heq : Rabs sbis = delta) by lra. unfold Rabs in Heq.
      rcase; destruct (Rcase_abs sbis); lra. }
    rewrite Hxn. destruct (Htot (xc + sbis)) as [fn Hfn]. rewrite Hfn. cbn [bind].
    assert (Hd1 : Rabs (xc + sbis - xc) = Rabs sbis) by (f_equal; lra).
    assert (Hd2 : Rabs (xb' - (xc + sbis)) = Rabs sbis) by (f_equal; lra).
    apply (IHn k m m); auto.
    - destruct (Rlt_dec (fc * fn) 0); [left|right]; splits; auto; rewrite ?Hd1, ?Hd2; try (apply Hpow); try lra. nra.
    - lia. }
  match goal with |- context [bind ?c _] => set (ch := c) end.
  assert (Hch : ch = Ok (sbis, sbis) \/ exists s, ch = Ok (sc, s) /\ 0 < s * (xb' - xc) /\ 2 * Rabs s < Rabs sp /\
     2 * Rabs s < 3 * Rabs sbis - delta /\ delta < Rabs sp).
  { unfold ch. destruct (Rltb delta (Rabs sp) && Rltb (Rabs fc) (Rabs fp)) eqn:Ec; [|left; auto].
    apply andb_true_iff in Ec as [Ec0 Ec]. apply Rltb_true in Ec0, Ec.
    destruct (brenth_try_dir q xp fp xc fc xb' fb') as [s [-> Hdir]]; auto.
    { destruct H9 as [|[? [? ?]]]; [left|right]; auto. }
    cbn [bind]. destruct (Rltb (Rabs (s + s)) _) eqn:El; [|left; auto].
    right. exists s. split; auto. split; auto.
    apply Rltb_true in El. unfold nmin in El. numR. rewrite three in El.
    replace (s + s) with (2 * s) in El by lra. rewrite Rabs_mult, (Rabs_right 2) in El by lra.
    rcase_in El; lra. }
  destruct Hch as [->|[s [-> [Hd1 [Hd2 [Hd3 Hd4]]]]]]; cbn [bind]; [exact Hbis|].
  clear Hbis.
  set (xn := if Rltb delta (Rabs s) then _ else _).
  assert (Hxn : exists t, xn = xc + t /\ 0 < t * (xb' - xc) /\ Rabs t <= 3/4 * Rabs (xb' - xc)).
  { unfold xn. rcase.
    - exists s. splits; auto. lra.
    - rcase.
      + exists delta. splits; auto. nra. rewrite (Rabs_right delta); lra.
      + exists (- delta). splits; auto. assert (sbis < 0). { assert (sbis <> 0) by lra. lra. } nra. rewrite Rabs_Ropp, (Rabs_right delta); lra. }
  destruct Hxn as [t [-> [Ht1 Ht2]]].
  destruct (Htot (xc + t)) as [fn Hfn]. rewrite Hfn. cbn [bind].
  assert (He1 : Rabs (xc + t - xc) = Rabs t) by (f_equal; lra).
  destruct (Rlt_dec (fc * fn) 0).
  - apply (IHn k m m); auto; [|lia]. left. splits; auto; rewrite He1; [apply Hpow; auto | pose proof (Rabs_pos t); lra].
  - destruct i as [|i]. { exfalso. simpl in W3. lra. }
    assert (He2 : Rabs (xb' - (xc + t)) <= Rabs (xb' - xc) /\ 0 < (xc + t - xc) * (xb' - (xc + t))).
    { apply mul_pos_cases in Ht1. unfold Rabs in *. destruct (Rcase_abs t), (Rcase_abs (xb' - xc)), (Rcase_abs (xb' - (xc + t))); split; nra. }
    destruct He2.
    apply (IHn (S k) j i); auto; [lia| |lia]. right. splits; auto; try lra.
    simpl in W3. lra.
Qed.
Lemma brenth_converges f xa xb xtol rtol n q m : 0 < xtol -> 0 <= rtol -> total f ->
  (exists v w, f xa = Ok v /\ f xb = Ok w /\ v * w <= 0) ->
  Rabs (xb - xa) <= 2 ^ m * (xtol / 2) -> ((3 * m + 1) * (2 * m + 1) <= n)%nat ->
  exists x, brenth f xa xb xtol rtol n None q None None = Ok x.
Proof.
  intros Hx Hr Ht [v [w [Ev [Ew Hs]]]] Hd Hn. unfold brenth. rewrite Ev, Ew. cbn [bind]. numR.
  assert (Rltb 0 (v * w) = false) as -> by (apply Rltb_false; lra).
  destruct (Reqb v 0) eqn:E1; eauto. destruct (Reqb w 0) eqn:E2; eauto. apply Reqb_false in E1, E2.
  assert (v * w <> 0) by (apply Rmult_integral_contrapositive_currified; auto).
  apply (brenth_loop_converges f xtol rtol q m Hx Hr Ht n (3 * m) m m); auto; [|lia].
  left; splits; auto; try lra.
  assert (2 ^ m <= (4/3) ^ (3 * m)). { rewrite pow_mult. apply pow_incr. simpl. lra. }
  assert (1 <= 2 ^ m) by (apply pow_le_1; lra). nra.
Qed.
