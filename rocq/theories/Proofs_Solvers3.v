(** Proofs about newton and halley. *)
From Coq Require Import Reals Lra Lia List Bool QArith ZArith.
From Verif Require Import Base Model_Poly Model_Numerics Spec_Solvers Model_Solvers Proofs_Solvers Proofs_Solvers2.
Import ListNotations.
Local Open Scope R_scope.

Section Newton.
Context (func : R -> result (R * R * R)) (o : @newton_opts R).
Let inb := in_bounds (n_low o) (n_high o).

Lemma newton_guess_inside gunc x0 p0 p1 reinit nb fval1 fs : consistent (n_low o) (n_high o) -> agree_on inb func gunc ->
  forall it, newton_guess func o x0 p0 p1 reinit nb fval1 fs it = newton_guess gunc o x0 p0 p1 reinit nb fval1 fs it /\
  (forall p v it', newton_guess func o x0 p0 p1 reinit nb fval1 fs it = Ok (Some (p, v), it') -> inb p /\ func p = Ok v).
Proof.
  intros Hc Hag. induction fs as [|g fs IH]; intros it; cbn [newton_guess].
  { split; auto; discriminate. }
  cbv zeta.
  match goal with |- bind ?c _ = _ /\ _ => destruct c as [gu|] end; cbn [bind]; [|split; auto; discriminate].
  pose proof (clip_in _ _ gu Hc) as Hin. set (gc := clip_opt (n_low o) (n_high o) gu) in *.
  destruct (gc =? p0)%num; [apply IH|].
  rewrite <- (Hag gc) by auto.
  destruct (func gc) as [[[fv fd] fc]|] eqn:Ef; cbn [bind]; [|split; auto; discriminate].
  match goal with |- bind ?c _ = _ /\ _ => destruct c as [sk|] end; cbn [bind]; [|split; auto; discriminate].
  destruct (sk || (fd =? n0)%num); [apply IH|].
  split; auto. intros p v it' [= <- <- <-]. auto.
Qed.

Lemma newton_bounds_inside ytol p0 fval p hl hh r : consistent (n_low o) (n_high o) ->
  newton_bounds o ytol p0 fval p hl hh = Ok r ->
  match r with
  | inl v => inb v /\ v = p0 /\ exists y, ytol = Some y /\ Rabs fval < y
  | inr (p', _, _) => inb p' /\ p' = clip_opt (n_low o) (n_high o) p
  end.
Proof.
  intros Hc. unfold newton_bounds, inb, at_bound; numR. cbv zeta.
  set (close := match ytol with Some y => Rltb (Rabs fval) y | None => false end).
  assert (Hclose : close = true -> exists y, ytol = Some y /\ Rabs fval < y).
  { unfold close. destruct ytol as [y|]; [|discriminate]. intros E; apply Rltb_true in E; eauto. }
  assert (Hfin : forall p', p' = clip_opt (n_low o) (n_high o) p -> in_bounds (n_low o) (n_high o) p' /\ p' = clip_opt (n_low o) (n_high o) p).
  { intros p' ->. split; auto. apply clip_in; auto. }
  assert (Cases : forall cl ch : bool, forall (hl' hh' : nat) r,
    (if cl then (if close then Ok (inl (match n_low o with Some l => l | None => p end)) else Err UnconvergedError)
     else if ch then (if close then Ok (inl (match n_high o with Some h => h | None => match n_low o with Some l => if Rltb p l then l else p | None => p end end)) else Err UnconvergedError)
     else Ok (inr (clip_opt (n_low o) (n_high o) p, hl', hh'))) = Ok r ->
    (cl = true -> exists l, n_low o = Some l /\ p0 = l) -> (ch = true -> exists h, n_high o = Some h /\ p0 = h) ->
    match r with
    | inl v => in_bounds (n_low o) (n_high o) v /\ v = p0 /\ exists y, ytol = Some y /\ Rabs fval < y
    | inr (p', _, _) => in_bounds (n_low o) (n_high o) p' /\ p' = clip_opt (n_low o) (n_high o) p
    end).
  { intros cl ch hl' hh' r' E Hl Hh. destruct cl; [|destruct ch].
    - destruct (Hl eq_refl) as [l [El ->]]. rewrite El in E. destruct close; [|discriminate]. injection E as <-. splits; auto.
      split; [intros ? H; rewrite El in H; injection H as <-; lra|]. intros h H. apply (Hc l h El H).
    - destruct (Hh eq_refl) as [h [El ->]]. rewrite El in E. destruct close; [|discriminate]. injection E as <-. splits; auto.
      split; [|intros ? H; rewrite El in H; injection H as <-; lra]. intros l H. apply (Hc l h H El).
    - injection E as <-. apply Hfin; auto. }
  intros E. eapply Cases; [etransitivity; [|exact E]; reflexivity|..].
  - intros H. apply andb_true_iff in H as [H _]. apply andb_true_iff in H as [_ H]. destruct (n_low o) as [l|]; [|discriminate].
    exists l; split; auto. now apply Reqb_true.
  - intros H. apply andb_true_iff in H as [H _]. apply andb_true_iff in H as [_ H]. destruct (n_high o) as [h|]; [|discriminate].
    exists h; split; auto. now apply Reqb_true.
Qed.

Lemma newton_loop_inside gunc x0 xs maxiter : consistent (n_low o) (n_high o) ->
  agree_on (fun x => x = xs \/ inb x) func gunc ->
  forall fuel xtol ytol p0 p1 p2 p3 fval0 fval1 a b hl hh it did, (p0 = xs \/ inb p0) ->
  let L func := newton_loop fuel func o x0 maxiter xtol ytol p0 p1 p2 p3 fval0 fval1 a b hl hh it did in
  L func = L gunc /\ (forall x, L func = Ok x -> x = xs \/ inb x) /\
  (forall x y, n_require_eval o = true -> ytol = Some y -> L func = Ok x ->
     exists v d c, func x = Ok (v, d, c) /\ (v = 0 \/ Rabs v <= y)).
Proof.
  intros Hc Hag. induction fuel; intros xtol ytol p0 p1 p2 p3 fval0 fval1 a b hl hh it did I0; cbv zeta; cbn [newton_loop].
  { splits; auto; discriminate. }
  destruct (negb (it <? maxiter)%nat). { destruct (it =? 0)%nat; splits; auto; discriminate. }
  rewrite <- (Hag p0) by auto.
  destruct (func p0) as [[[fval fder] fcurv]|] eqn:Ef; cbn [bind]; [|splits; auto; discriminate].
  numR.
  destruct (Reqb fval 0) eqn:Ez.
  { apply Reqb_true in Ez. splits; auto; [congruence|]. intros x y _ _ [= <-]. do 3 eexists; split; eauto. }
  match goal with |- context [(?c && ?d)%bool] => destruct (c && d)%bool eqn:Est end.
  { splits; auto; [congruence|]. intros x y _ Hy [= <-]. do 3 eexists; split; eauto. right.
    apply andb_true_iff in Est as [_ Est]. subst ytol. apply Rltb_true in Est. lra. }
  match goal with |- bind ?u _ = bind ?v _ /\ _ => set (cf := u); set (cg := v) end.
  assert (Hcc : cf = cg /\ forall p v d c it' did', cf = Ok (p, v, d, c, it', did') -> (p = xs \/ inb p) /\ func p = Ok (v, d, c)).
  { unfold cf, cg. destruct (Reqb fder 0 || newton_stuck p0 p1 p2 p3); [|split; auto; intros ? ? ? ? ? ? [= <- <- <- <- <- <-]; auto].
    destruct (newton_stuck p0 p1 p2 p3 && _); [split; auto; discriminate|].
    destruct ((it =? 0)%nat && _); [split; auto; discriminate|]. cbv zeta.
    match goal with |- context [newton_guess func o x0 p0 p1 ?r ?nb fval1 ?fs it] =>
      destruct (newton_guess_inside gunc x0 p0 p1 r nb fval1 fs Hc) with (it := it) as [G1 G2] end.
    { intros z Hz; apply Hag; auto. }
    rewrite <- G1. split; auto.
    match type of G2 with context [newton_guess func o x0 p0 p1 ?r ?nb fval1 ?fs it] =>
      destruct (newton_guess func o x0 p0 p1 r nb fval1 fs it) as [[[[gu [[gv gd] gc]]|] it2]|] end; cbn [bind]; try discriminate.
    intros ? ? ? ? ? ? [= <- <- <- <- <- <-]. destruct (G2 _ _ _ eq_refl); auto. }
  destruct Hcc as [<- Hcc]. destruct cf as [[[[[[p0' fv] fd] fc] it'] did']|]; cbn [bind]; [|splits; auto; discriminate].
  destruct (Hcc _ _ _ _ _ _ eq_refl) as [I0' Ef'].
  destruct (set_ab (n_bisection o) a b p0' fv) as [a' b'].
  destruct (newton_next o p0' fv fd fc) as [p|]; cbn [bind]; [|splits; auto; discriminate].
  match goal with |- context [newton_bounds o ytol p0' fv ?w hl hh] => destruct (newton_bounds o ytol p0' fv w hl hh) as [r|] eqn:Eb end;
    cbn [bind]; [|splits; auto; discriminate].
  apply newton_bounds_inside in Eb; auto.
  destruct r as [v|[[p' hl'] hh']].
  { destruct Eb as [K1 [-> [y' [K2 K3]]]]. splits; auto; [congruence|]. intros x y _ Hy [= <-]. do 3 eexists; split; eauto. right.
    rewrite K2 in Hy. injection Hy as <-. lra. }
  destruct Eb as [Eb _].
  destruct (newton_done o xtol ytol p' p0' fv) eqn:Ed.
  { splits; auto; [destruct (n_require_eval o); intros x [= <-]; auto|]. intros x y Hr Hy. rewrite Hr. intros [= <-]. do 3 eexists; split; eauto. right.
    subst ytol. unfold newton_done in Ed; numR. destruct xtol.
    - apply orb_true_iff in Ed as [Ed|Ed]; apply andb_true_iff in Ed as [E1 E2]; [apply Rleb_true in E2; auto|apply Rleb_true in E2; auto].
    - apply Rltb_true in Ed. lra. }
  apply IHfuel; auto.
Qed.

Lemma newton_inside gunc x0 n xtol ytol : consistent (n_low o) (n_high o) ->
  agree_on (fun x => x = x0 \/ inb x) func gunc ->
  newton func x0 n o xtol ytol = newton gunc x0 n o xtol ytol /\
  (forall x, newton func x0 n o xtol ytol = Ok x -> x = x0 \/ inb x) /\
  (forall x y, n_require_eval o = true -> ytol = Some y -> newton func x0 n o xtol ytol = Ok x ->
     exists v d c, func x = Ok (v, d, c) /\ (v = 0 \/ Rabs v <= y)).
Proof.
  intros Hc Hag. unfold newton. numR. rewrite Rmult_1_l. apply newton_loop_inside; auto.
Qed.

(** Only UnconvergedError without second derivatives and additional guesses *)
Lemma newton_guess_errors x0 p0 v1 fval1 fs e : total func ->
  forall it, newton_guess func o x0 p0 (Some v1) false false fval1 fs it = Err e -> False.
Proof.
  intros T. induction fs as [|g fs IH]; intros it; cbn [newton_guess]; [discriminate|]. cbv zeta. cbn [bind].
  destruct (_ =? p0)%num; [apply IH|].
  match goal with |- context [func ?p] => destruct (T p) as [[[fv fd] fc] ->] end. cbn [bind].
  destruct (false || _); [apply IH|discriminate].
Qed.
Lemma newton_guess_it x0 p0 p1 r nb fval1 fs g it' : forall it, newton_guess func o x0 p0 p1 r nb fval1 fs it = Ok (g, it') -> (it <= it')%nat.
Proof.
  induction fs as [|gf fs IH]; intros it; cbn [newton_guess]. { intros [= <- <-]; auto. }
  cbv zeta. intros E. inv_bind E. destruct (_ =? p0)%num; [apply IH in E; lia|].
  inv_bind E. destruct v0 as [[? ?] ?]. inv_bind E. destruct (_ || _); [apply IH in E; lia|]. injection E as <- <-. lia.
Qed.
Lemma newton_loop_errors x0 maxiter e : total func -> n_second o = false -> n_guesses o = false ->
  forall fuel xtol ytol p0 p1 p2 p3 fval0 fval1 a b hl hh it did,
  (it = 0%nat -> (1 <= maxiter)%nat) -> (it <> 0%nat -> p1 <> None) -> (maxiter < fuel + it)%nat -> (1 <= fuel)%nat ->
  newton_loop fuel func o x0 maxiter xtol ytol p0 p1 p2 p3 fval0 fval1 a b hl hh it did = Err e -> e = UnconvergedError.
Proof.
  intros T H2 Hg. induction fuel; intros xtol ytol p0 p1 p2 p3 fval0 fval1 a b hl hh it did Hm Hp Hf Hf1; cbn [newton_loop].
  { lia. }
  destruct (it <? maxiter)%nat eqn:Elt; cbn [negb].
  2:{ apply Nat.ltb_ge in Elt. destruct (it =? 0)%nat eqn:Ei; [|congruence]. apply Nat.eqb_eq in Ei. specialize (Hm Ei). lia. }
  apply Nat.ltb_lt in Elt.
  destruct (T p0) as [[[fval fder] fcurv] Ef]. rewrite Ef. cbn [bind]. numR.
  destruct (Reqb fval 0); [discriminate|].
  match goal with |- context [(?c && ?d)%bool] => destruct (c && d)%bool end; [discriminate|].
  intros E.
  match type of E with bind ?u _ = _ => set (cf := u) in * end.
  assert (Hcf : cf = Err UnconvergedError \/ exists p v d c it' did', cf = Ok (p, v, d, c, it', did') /\ d <> 0 /\ (it <= it')%nat).
  { unfold cf. rewrite Hg. cbn [negb orb andb]. rewrite andb_true_r.
    destruct (Reqb fder 0) eqn:Ed; cbn [orb].
    2:{ apply Reqb_false in Ed. destruct (newton_stuck p0 p1 p2 p3); [left; auto|]. right. do 6 eexists; splits; [reflexivity|auto|auto]. }
    destruct (newton_stuck p0 p1 p2 p3); [left; auto|]. rewrite andb_true_r.
    destruct (it =? 0)%nat eqn:Ei; [left; auto|]. apply Nat.eqb_neq in Ei.
    destruct p1 as [v1|]; [|exfalso; now apply (Hp Ei)].
    destruct (newton_guess func o x0 p0 (Some v1) false false fval1 (n_ls_factors o) it) as [[g it']|] eqn:Eg.
    2:{ exfalso. eapply newton_guess_errors; eauto. }
    cbn [bind]. pose proof (newton_guess_it _ _ _ _ _ _ _ _ _ _ Eg) as Hit.
    destruct g as [[gu [[gv gd] gc]]|]; [|left; auto]. right. do 6 eexists; splits; [reflexivity| |auto].
    clear - Eg. revert Eg. generalize it. induction (n_ls_factors o) as [|gf fs IH]; intros j; cbn [newton_guess]; [discriminate|].
    cbv zeta. cbn [bind]. intros E. destruct (_ =? p0)%num; [apply IH in E; auto|].
    inv_bind E. destruct v as [[? ?] ?]. cbn [bind] in E. numR. cbn [orb] in E. rcase_in E; [apply IH in E; auto|].
    injection E as _ _ <- _ _. auto. }
  destruct Hcf as [Hcf|[p0' [fv [fd [fc [it' [did' [Hcf [Hd Hit]]]]]]]]]; rewrite Hcf in E; cbn [bind] in E; [congruence|]. clear cf Hcf.
  destruct (set_ab (n_bisection o) a b p0' fv) as [a' b'].
  assert (Hnx : exists p, newton_next o p0' fv fd fc = Ok p).
  { unfold newton_next. numR. rewrite H2. rewrite pydivR_ok by auto. cbn [bind negb]. destruct (n_damping_func o); eexists; reflexivity. }
  destruct Hnx as [p Hnx]. rewrite Hnx in E. cbn [bind] in E.
  match type of E with context [newton_bounds o ytol p0' fv ?w hl hh] => destruct (newton_bounds o ytol p0' fv w hl hh) as [r|er] eqn:Eb end; cbn [bind] in E.
  2:{ injection E as <-. clear - Eb. unfold newton_bounds in Eb. cbv zeta in Eb.
      repeat match type of Eb with (if ?c then _ else _) = _ => destruct c end; congruence. }
  destruct r as [v|[[p' hl'] hh']]; [discriminate|].
  destruct (newton_done o xtol ytol p' p0' fv); [discriminate|].
  eapply IHfuel in E; eauto; try lia; discriminate.
Qed.
Lemma newton_errors x0 n xtol ytol e : total func -> n_second o = false -> n_guesses o = false -> (1 <= n)%nat ->
  newton func x0 n o xtol ytol = Err e -> e = UnconvergedError.
Proof. intros T H2 Hg Hn. apply newton_loop_errors; auto; try lia; congruence. Qed.
End Newton.

(** Newton on a convex increasing function, from the right of the root: monotone, never overshoots. *)
Lemma newton_convex f df r x0 n o xtol ytol x :
  (forall u v, f u + df u * (v - u) <= f v) -> (forall u, 0 < df u) -> f r = 0 -> r <= x0 ->
  n_low o = None -> n_high o = None -> n_bisection o = false -> n_second o = false -> n_guesses o = false ->
  n_damping_func o = None -> 0 <= n_damping o <= 1 ->
  newton (fun p => Ok (f p, df p, 0)) x0 n o xtol ytol = Ok x -> r <= x <= x0.
Proof.
  intros Hcx Hdf Hr H0 Hl Hh Hb H2 Hg Hdfn Hd. unfold newton. numR. rewrite Rmult_1_l.
  assert (L : forall fuel p0 p1 p2 p3 fval0 fval1 a b hl hh it did, r <= p0 <= x0 ->
    newton_loop fuel (fun p => Ok (f p, df p, 0)) o x0 n xtol ytol p0 p1 p2 p3 fval0 fval1 a b hl hh it did = Ok x -> r <= x <= x0).
  { induction fuel; intros p0 p1 p2 p3 fval0 fval1 a b hl hh it did I0; cbn [newton_loop]; [discriminate|].
    destruct (negb (it <? n)%nat). { destruct (it =? 0)%nat; discriminate. }
    cbn [bind]. numR.
    destruct (Reqb (f p0) 0). { intros [= <-]; auto. }
    assert (Reqb (df p0) 0 = false) as -> by (apply Reqb_false; specialize (Hdf p0); lra). cbn [orb].
    match goal with |- context [if (?c && ?d)%bool then Ok p0 else _] => destruct (c && d)%bool end. { intros [= <-]; auto. }
    rewrite Hg. cbn [negb orb]. rewrite andb_true_r.
    destruct (newton_stuck p0 p1 p2 p3); [discriminate|]. cbn [bind]. rewrite Hb. cbn [set_ab].
    unfold newton_next. numR. rewrite H2, Hdfn. cbn [negb].
    pose proof (Hdf p0) as Hd0.
    rewrite pydivR_ok by lra. cbn [bind].
    set (p := p0 - f p0 * (1 / df p0) * n_damping o).
    assert (Hp : r <= p <= p0).
    { pose proof (Hcx p0 r) as C1. rewrite Hr in C1.
      assert (C2 : 0 <= f p0). { pose proof (Hcx r p0) as C. rewrite Hr in C. pose proof (Hdf r). nra. }
      assert (Hs : 0 <= f p0 * (1 / df p0) <= p0 - r).
      { split.
        - apply Rmult_le_pos; auto. left. apply Rdiv_lt_0_compat; lra.
        - apply Rmult_le_reg_r with (df p0); auto. replace (f p0 * (1 / df p0) * df p0) with (f p0) by (field; lra). nra. }
      unfold p. nra. }
    clearbody p.
    unfold newton_bounds. rewrite Hl, Hh. cbn [andb at_bound bind].
    destruct (newton_done o xtol ytol p p0 (f p0)).
    { intros [= <-]. destruct (n_require_eval o); lra. }
    apply IHfuel. lra. }
  apply L. lra.
Qed.

(** an affine function needs one newton step *)
Lemma newton_affine m c x0 n o : m <> 0 -> n_low o = None -> n_high o = None -> n_damping o = 1 -> n_damping_func o = None ->
  n_bisection o = false -> n_second o = false -> (2 <= n)%nat ->
  exists x, newton (fun p => Ok (m * p + c, m, 0)) x0 n o None None = Ok x /\ m * x + c = 0.
Proof.
  intros Hm Hl Hh Hd Hdf Hb H2 Hn. unfold newton. numR. rewrite Rmult_1_l.
  cbn [newton_loop]. assert ((0 <? n)%nat = true) as -> by (apply Nat.ltb_lt; lia). cbn [negb bind]. numR.
  destruct (Reqb (m * x0 + c) 0) eqn:E0. { apply Reqb_true in E0. eauto. }
  assert (Reqb m 0 = false) as Em by now apply Reqb_false. rewrite Em. cbn [orb andb newton_stuck bind].
  rewrite Hb. cbn [set_ab]. unfold newton_next. numR. rewrite Hdf, H2. cbn [negb]. rewrite pydivR_ok by auto. cbn [bind].
  unfold newton_bounds. rewrite Hl, Hh. cbn [andb bind newton_done].
  destruct n; [lia|]. cbn [newton_loop]. assert ((1 <? S n)%nat = true) as -> by (apply Nat.ltb_lt; lia). cbn [negb bind]. numR.
  rewrite Hd. match goal with |- context [Reqb ?v 0] => assert (Hv : v = 0) by (field; auto) end.
  rewrite (proj2 (Reqb_true _ 0) Hv). eauto.
Qed.

(** ** halley *)
Lemma halley_bounds_inside o ytol p0 fval p hl hh r : consistent (h_low o) (h_high o) ->
  halley_bounds o ytol p0 fval p hl hh = Ok r ->
  match r with
  | inl v => in_bounds (h_low o) (h_high o) v /\ v = p0 /\ exists y, ytol = Some y /\ Rabs fval < y
  | inr (p', _, _) => in_bounds (h_low o) (h_high o) p'
  end.
Proof.
  intros Hc. unfold halley_bounds, at_bound; numR. cbv zeta.
  assert (Hclose : forall v r', match ytol with None => Err TypeError | Some y => if Rltb (Rabs fval) y then Ok (inl v) else Err UnconvergedError end = Ok r' ->
     r' = inl (v : R) :> (R + R * nat * nat) /\ exists y, ytol = Some y /\ Rabs fval < y).
  { intros v r'. destruct ytol as [y|]; [|discriminate]. destruct (Rltb (Rabs fval) y) eqn:E; [|discriminate]. apply Rltb_true in E.
    intros [= <-]; eauto. }
  pose proof (clip_in _ _ p Hc) as Hfin. unfold clip_opt in Hfin; numR.
  match goal with |- (if ?c then _ else _) = _ -> _ => destruct c eqn:E1 end.
  - intros E. apply Hclose in E as [-> E]. apply andb_true_iff in E1 as [E1 _]. apply andb_true_iff in E1 as [_ E1].
    destruct (h_low o) as [l|] eqn:El; [|discriminate]. apply Reqb_true in E1. splits; auto.
    split; [intros ? [= <-]; lra|]. intros h H. apply (Hc l h); auto.
  - match goal with |- (if ?c then _ else _) = _ -> _ => destruct c eqn:E2 end.
    + intros E. apply Hclose in E as [-> E]. apply andb_true_iff in E2 as [E2 _]. apply andb_true_iff in E2 as [_ E2].
      destruct (h_high o) as [h|] eqn:El; [|discriminate]. apply Reqb_true in E2. splits; auto.
      split; [|intros ? [= <-]; lra]. intros l H. apply (Hc l h); auto.
    + intros [= <-]. exact Hfin.
Qed.
Lemma halley_loop_inside func gunc o xs : consistent (h_low o) (h_high o) ->
  agree_on (fun x => x = xs \/ in_bounds (h_low o) (h_high o) x) func gunc ->
  forall n xtol ytol p0 a b hl hh, (p0 = xs \/ in_bounds (h_low o) (h_high o) p0) ->
  let L func := halley_loop n func o xtol ytol p0 a b hl hh in
  L func = L gunc /\ (forall x, L func = Ok x -> x = xs \/ in_bounds (h_low o) (h_high o) x) /\
  (forall x y, h_require_eval o = true -> ytol = Some y -> L func = Ok x ->
     exists v d c, func x = Ok (v, d, c) /\ (v = 0 \/ Rabs v < y)).
Proof.
  intros Hc Hag. induction n; intros xtol ytol p0 a b hl hh I0; cbv zeta; cbn [halley_loop].
  { splits; auto; discriminate. }
  rewrite <- (Hag p0) by auto.
  destruct (func p0) as [[[fval fder] fder2]|] eqn:Ef; cbn [bind]; [|splits; auto; discriminate].
  numR.
  destruct (Reqb fval 0) eqn:Ez.
  { apply Reqb_true in Ez. splits; auto; [congruence|]. intros x y _ _ [= <-]. do 3 eexists; split; eauto. }
  destruct (Reqb fder 0).
  { match goal with |- context [if ?c then Ok p0 else _] => destruct c eqn:E1 end; [|splits; auto; discriminate].
    splits; auto; [congruence|]. intros x y _ -> [= <-]. apply Rltb_true in E1. do 3 eexists; split; eauto. }
  destruct (set_ab (h_bisection o) a b p0 fval) as [a' b'].
  destruct (pydiv 1 fder) as [fi|]; cbn [bind]; [|splits; auto; discriminate].
  match goal with |- bind ?u _ = bind _ _ /\ _ => destruct u as [[p sk]|] end; cbn [bind]; [|splits; auto; discriminate].
  match goal with |- context [halley_bounds o ytol p0 fval ?w hl hh] => destruct (halley_bounds o ytol p0 fval w hl hh) as [r|] eqn:Eb end;
    cbn [bind]; [|splits; auto; discriminate].
  apply halley_bounds_inside in Eb; auto.
  destruct r as [v|[[p' hl'] hh']].
  { destruct Eb as [K1 [-> [y' [K2 K3]]]]. splits; auto; [congruence|]. intros x y _ Hy [= <-]. do 3 eexists; split; eauto. right.
    rewrite K2 in Hy. injection Hy as <-. lra. }
  match goal with |- context [if (negb sk && ?d)%bool then _ else _] => destruct (negb sk && d)%bool eqn:Ed end; [|apply IHn; auto].
  splits; auto; [destruct (h_require_eval o); intros x [= <-]; auto|]. intros x y Hr -> . rewrite Hr. intros [= <-]. do 3 eexists; split; eauto. right.
  apply andb_true_iff in Ed as [_ Ed]. destruct xtol; [apply andb_true_iff in Ed as [_ Ed]|]; apply Rltb_true in Ed; auto.
Qed.
Lemma halley_inside func gunc o x0 n xtol ytol : consistent (h_low o) (h_high o) ->
  agree_on (fun x => x = x0 \/ in_bounds (h_low o) (h_high o) x) func gunc ->
  halley func x0 n o xtol ytol = halley gunc x0 n o xtol ytol /\
  (forall x, halley func x0 n o xtol ytol = Ok x -> x = x0 \/ in_bounds (h_low o) (h_high o) x) /\
  (forall x y, h_require_eval o = true -> ytol = Some y -> halley func x0 n o xtol ytol = Ok x ->
     exists v d c, func x = Ok (v, d, c) /\ (v = 0 \/ Rabs v < y)).
Proof.
  intros Hc Hag. unfold halley. numR. rewrite Rmult_1_l. destruct n; [splits; auto; discriminate|]. apply halley_loop_inside; auto.
Qed.
