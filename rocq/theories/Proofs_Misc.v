(** Damping, oscillation checking, caching, adaptive quadrature, best bounds, statistics,
    error measures, bound translation, piecewise fits. *)
From Coq Require Import List Bool QArith Reals ZArith Arith Lra Lia Psatz.
From Verif Require Import Base Sums Model_Poly Model_Numerics Proofs_Numerics Proofs_Seq Proofs_Opt.
Import ListNotations.
Local Open Scope R_scope.

(** ** damping_maintain_sign *)
Lemma damping_sign x step d f : 0 <= d <= 1 -> 0 <= f <= 1 ->
  (0 <= x -> 0 <= damping_maintain_sign x step d f) /\
  (x < 0 -> damping_maintain_sign x step d f <= 0).
Proof.
  intros Hd Hf. unfold damping_maintain_sign. numR.
  split; intros Hx.
  - destruct (Rleb 0 x) eqn:E; [|apply Rleb_false in E; lra]. simpl. rewrite orb_false_r.
    destruct (Rltb (x + step) 0) eqn:E2; [apply Rltb_true in E2 | apply Rltb_false in E2].
    + assert (0 <= f * d <= 1) by nra. nra.
    + nra.
  - destruct (Rleb 0 x) eqn:E; [apply Rleb_true in E; lra|]. simpl.
    destruct (Rltb 0 (x + step)) eqn:E2; [apply Rltb_true in E2 | apply Rltb_false in E2].
    + assert (0 <= f * d <= 1) by nra. nra.
    + nra.
Qed.
Lemma damping_strict x step d f : 0 <= d < 1 -> 0 <= f <= 1 ->
  (0 < x -> 0 < damping_maintain_sign x step d f) /\
  (x < 0 -> damping_maintain_sign x step d f < 0).
Proof.
  intros Hd Hf. unfold damping_maintain_sign. numR.
  split; intros Hx.
  - destruct (Rleb 0 x) eqn:E; [|apply Rleb_false in E; lra]. simpl. rewrite orb_false_r.
    destruct (Rltb (x + step) 0) eqn:E2; [apply Rltb_true in E2 | apply Rltb_false in E2].
    + assert (0 <= f * d < 1) by nra. nra.
    + nra.
  - destruct (Rleb 0 x) eqn:E; [apply Rleb_true in E; lra|]. simpl.
    destruct (Rltb 0 (x + step)) eqn:E2; [apply Rltb_true in E2 | apply Rltb_false in E2].
    + assert (0 <= f * d < 1) by nra. nra.
    + nra.
Qed.
(** a step that keeps the sign is only scaled *)
Lemma damping_plain x step d f : (0 <= x /\ 0 <= x + step) \/ (x < 0 /\ x + step <= 0) ->
  damping_maintain_sign x step d f = x + step * d.
Proof.
  intros H. unfold damping_maintain_sign. numR.
  destruct (Rleb 0 x) eqn:E; [apply Rleb_true in E | apply Rleb_false in E]; simpl.
  - rcase; simpl; auto. lra.
  - destruct (Rltb 0 (x + step)) eqn:E2; [apply Rltb_true in E2; lra|]. simpl. auto.
Qed.
Lemma damping_cross x step d f : (0 <= x /\ x + step < 0) \/ (x < 0 /\ 0 < x + step) ->
  damping_maintain_sign x step d f = x * (1 - f * d).
Proof.
  intros H. unfold damping_maintain_sign. numR.
  destruct (Rleb 0 x) eqn:E; [apply Rleb_true in E | apply Rleb_false in E]; simpl.
  - rcase; simpl; [ring|lra].
  - destruct (Rltb 0 (x + step)) eqn:E2; [simpl; ring|apply Rltb_false in E2; lra].
Qed.
Lemma damping_list x : forall step d f, length step = length x ->
  exists r, damping_maintain_sign_list x step d f = Ok r /\ length r = length x /\
   forall i, (i < length x)%nat -> at_ r i = damping_maintain_sign (at_ x i) (at_ step i) d f.
Proof.
  induction x as [|a t IH]; intros step d f L.
  - exists []. simpl. splits; auto. intros; lia.
  - destruct step as [|s ts]; [discriminate|]. cbn [damping_maintain_sign_list].
    destruct (IH ts d f ltac:(simpl in L; lia)) as (r & -> & Lr & V). cbn [bind].
    eexists; split; [reflexivity|]. split; [simpl; lia|]. intros [|i] Hi; [reflexivity|].
    rewrite !at_cons. apply V. simpl in Hi; lia.
Qed.

(** ** step limiting closures: the first [steps] calls are limited, later ones are not *)
Lemma run_damp d l : forall st, (0 <= st)%Z ->
  run_calls (damp_initial_call d) st l =
    map (fun '(i, (x, s)) => if (Z.of_nat i <? st)%Z then x + s * d else x + s) (combine (seq 0 (length l)) l).
Proof.
  assert (G : forall k st, (0 <= st)%Z ->
    run_calls (damp_initial_call d) st l =
    map (fun '(i, (x, s)) => if (Z.of_nat i <? Z.of_nat k + st)%Z then x + s * d else x + s) (combine (seq k (length l)) l)).
  { induction l as [|[x s] t IH]; intros k st H; [reflexivity|].
    cbn [run_calls length seq combine map]. unfold damp_initial_call at 1. numR.
    destruct (Z.leb_spec st 0).
    - assert (st = 0%Z) by lia. subst st. destruct (Z.ltb_spec (Z.of_nat k) (Z.of_nat k + 0)); [lia|]. f_equal.
      rewrite (IH (S k) 0%Z) by lia. apply map_ext_in. intros [i [x' s']] Hi.
      apply in_combine_l in Hi. apply in_seq in Hi.
      destruct (Z.ltb_spec (Z.of_nat i) (Z.of_nat (S k) + 0)); [lia|].
      destruct (Z.ltb_spec (Z.of_nat i) (Z.of_nat k + 0)); [lia|]. reflexivity.
    - destruct (Z.ltb_spec (Z.of_nat k) (Z.of_nat k + st)); [|lia]. f_equal.
      rewrite (IH (S k) (st - 1)%Z) by lia. replace (Z.of_nat (S k) + (st - 1))%Z with (Z.of_nat k + st)%Z by lia. reflexivity. }
  intros st H. rewrite (G 0%nat st H). reflexivity.
Qed.
(** clamp to [-m, m] *)
Definition limit (m s : R) : R := Rmax (- m) (Rmin m s).
Lemma max_step_value m x s : 0 <= m ->
  (if Rltb m (Rabs s) then x + (if Rltb s 0 then - Rabs m else Rabs m) else x + s) = x + limit m s.
Proof.
  intros Hm. rewrite (Rabs_pos_eq m) by auto. unfold limit, Rmax, Rmin, Rabs.
  destruct (Rcase_abs s), (Rle_dec m s); repeat (destruct (Rle_dec _ _)); repeat rcase; try lra.
Qed.
Lemma run_max m l : 0 <= m -> forall st, (0 <= st)%Z ->
  run_calls (max_step_call m) st l =
    map (fun '(i, (x, s)) => if (Z.of_nat i <? st)%Z then x + limit m s else x + s) (combine (seq 0 (length l)) l).
Proof.
  intros Hm.
  assert (G : forall k st, (0 <= st)%Z ->
    run_calls (max_step_call m) st l =
    map (fun '(i, (x, s)) => if (Z.of_nat i <? Z.of_nat k + st)%Z then x + limit m s else x + s) (combine (seq k (length l)) l)).
  { induction l as [|[x s] t IH]; intros k st H; [reflexivity|].
    cbn [run_calls length seq combine map]. unfold max_step_call at 1.
    destruct (Z.leb_spec st 0).
    - assert (st = 0%Z) by lia. subst st. destruct (Z.ltb_spec (Z.of_nat k) (Z.of_nat k + 0)); [lia|]. f_equal.
      rewrite (IH (S k) 0%Z) by lia. apply map_ext_in. intros [i [x' s']] Hi.
      apply in_combine_l in Hi. apply in_seq in Hi.
      destruct (Z.ltb_spec (Z.of_nat i) (Z.of_nat (S k) + 0)); [lia|].
      destruct (Z.ltb_spec (Z.of_nat i) (Z.of_nat k + 0)); [lia|]. reflexivity.
    - destruct (Z.ltb_spec (Z.of_nat k) (Z.of_nat k + st)); [|lia]. f_equal.
      + numR. apply max_step_value; auto.
      + rewrite (IH (S k) (st - 1)%Z) by lia. replace (Z.of_nat (S k) + (st - 1))%Z with (Z.of_nat k + st)%Z by lia. reflexivity. }
  intros st H. rewrite (G 0%nat st H). reflexivity.
Qed.

(** ** OscillationChecker *)
Definition pos_part (h : list (R * R)) : list R := map snd (filter (fun '(_, y) => Rltb 0 y) h).
Definition neg_part (h : list (R * R)) : list R := map snd (filter (fun '(_, y) => Rltb y 0) h).
(** relative progress between the last two values of one sign *)
Definition last_gain (l : list R) : R :=
  let n := length l in Rabs ((at_ l (n - 1) - at_ l (n - 2)) / at_ l (n - 1)).
Definition flagged (mp : R) (both : bool) (ge : option R) (h : list (R * R)) : Prop :=
  let p := pos_part h in let n := neg_part h in
  (2 <= length p)%nat /\ (2 <= length n)%nat /\
  (if both then last_gain p < mp /\ last_gain n < mp else last_gain p < mp \/ last_gain n < mp) /\
  match ge with
  | None => True
  | Some g => g <= Rmin (Rabs (at_ p (length p - 1))) (Rabs (at_ n (length n - 1)))
  end.
Definition st_of (h : list (R * R)) : checker :=
  mk_checker (map fst (filter (fun '(_, y) => Rltb 0 y) h)) (pos_part h)
             (map fst (filter (fun '(_, y) => Rltb y 0) h)) (neg_part h).
Lemma pos_part_pos h i : (i < length (pos_part h))%nat -> 0 < at_ (pos_part h) i.
Proof.
  intros H. assert (I : In (at_ (pos_part h) i) (pos_part h)) by (apply nth_In; auto).
  unfold pos_part in I at 2. apply in_map_iff in I. destruct I as ((x & y) & E & I). apply filter_In in I. destruct I as [_ I].
  apply Rltb_true in I. simpl in E. lra.
Qed.
Lemma neg_part_neg h i : (i < length (neg_part h))%nat -> at_ (neg_part h) i < 0.
Proof.
  intros H. assert (I : In (at_ (neg_part h) i) (neg_part h)) by (apply nth_In; auto).
  unfold neg_part in I at 2. apply in_map_iff in I. destruct I as ((x & y) & E & I). apply filter_In in I. destruct I as [_ I].
  apply Rltb_true in I. simpl in E. lra.
Qed.
Lemma is_oscillating_spec mp both ge h x y :
  exists b, is_oscillating mp both ge (st_of h) x y = (st_of (h ++ [(x, y)]), Ok b) /\
    (b = true <-> y <> 0 /\ flagged mp both ge (h ++ [(x, y)])).
Proof.
  unfold is_oscillating. numR. destruct (Reqb y 0) eqn:Ey.
  - apply Reqb_true in Ey. subst y. exists false. split.
    + f_equal. unfold st_of, pos_part, neg_part. rewrite !filter_app. simpl.
      rewrite (proj2 (Rltb_false 0 0)) by lra. now rewrite !app_nil_r.
    + split; [discriminate|]. intros [H _]. contradiction.
  - apply Reqb_false in Ey.
    set (h' := h ++ [(x, y)]).
    set (st := if Rltb y 0 then _ else _).
    assert (Es : st = st_of h').
    { unfold st, st_of, h', pos_part, neg_part. rewrite !filter_app, !map_app. simpl.
      destruct (Rltb y 0) eqn:E0; [apply Rltb_true in E0 | apply Rltb_false in E0].
      - rewrite (proj2 (Rltb_false 0 y)) by lra. simpl. rewrite !app_nil_r. reflexivity.
      - rewrite (proj2 (Rltb_true 0 y)) by lra. simpl. rewrite !app_nil_r. reflexivity. }
    rewrite Es. clear st Es. clearbody h'. cbv zeta.
    assert (Lp : length (xs_pos (st_of h')) = length (pos_part h')) by (unfold st_of, pos_part; simpl; now rewrite !map_length).
    assert (Ln : length (xs_neg (st_of h')) = length (neg_part h')) by (unfold st_of, neg_part; simpl; now rewrite !map_length).
    rewrite Lp, Ln. change (ys_neg (st_of h')) with (neg_part h'). change (ys_pos (st_of h')) with (pos_part h').
    set (p := pos_part h') in *. set (n := neg_part h') in *.
    destruct (Nat.ltb_spec (length p) 2) as [C|C].
    { exists false. split; [reflexivity|]. split; [discriminate|]. intros (_ & H & _). fold p in H. lia. }
    destruct (Nat.ltb_spec (length n) 2) as [C'|C'].
    { exists false. split; [reflexivity|]. split; [discriminate|]. intros (_ & _ & H & _). fold n in H. lia. }
    simpl orb. cbv iota. rewrite !last_of_at, !last2_of_at by lia. cbn [bind].
    pose proof (pos_part_pos h' (length p - 1) ltac:(fold p; lia)) as Pp. fold p in Pp.
    pose proof (neg_part_neg h' (length n - 1) ltac:(fold n; lia)) as Pn. fold n in Pn.
    rewrite !pydivR_ok by lra. cbn [bind]. fold (last_gain n) (last_gain p).
    set (gp := last_gain p) in *. set (gn := last_gain n) in *.
    set (osc := if both then _ else _).
    assert (Ho : osc = true <-> if both then gp < mp /\ gn < mp else gp < mp \/ gn < mp).
    { unfold osc. destruct both; [rewrite andb_true_iff | rewrite orb_true_iff]; now rewrite !Rltb_true. }
    assert (Hf : (y <> 0 /\ flagged mp both ge h') <-> (osc = true /\ match ge with None => True | Some g => g <= Rmin (Rabs (at_ p (length p - 1))) (Rabs (at_ n (length n - 1))) end)).
    { unfold flagged. fold p n gp gn. rewrite Ho. tauto. }
    destruct ge as [g|].
    + set (b := if Rltb _ _ then _ else _).
      assert (Eb : b = Rmin (Rabs (at_ p (length p - 1))) (Rabs (at_ n (length n - 1)))).
      { unfold b, Rmin. destruct (Rle_dec _ _); rcase; lra. }
      rewrite Eb. destruct osc eqn:Eo; simpl.
      * destruct (Rltb _ g) eqn:Eg.
        -- apply Rltb_true in Eg. exists false. split; auto. rewrite Hf. split; [discriminate|]. intros [_ H]. lra.
        -- apply Rltb_false in Eg. exists true. split; auto. rewrite Hf. tauto.
      * exists false. split; auto. rewrite Hf. split; [discriminate|]. intros [H _]; discriminate.
    + exists osc. split; auto. rewrite Hf. tauto.
Qed.
Definition prefixes {B} (l : list B) : list (list B) := map (fun i => firstn (S i) l) (seq 0 (length l)).
Lemma run_checker_spec mp both ge l : forall h, exists bs,
  run_checker mp both ge (st_of h) l = map Ok bs /\ length bs = length l /\
  forall i, (i < length l)%nat ->
    (nth i bs false = true <-> snd (nth i l (0, 0)) <> 0 /\ flagged mp both ge (h ++ firstn (S i) l)).
Proof.
  induction l as [|[x y] t IH]; intros h.
  - exists []. simpl. splits; auto. intros; lia.
  - cbn [run_checker]. destruct (is_oscillating_spec mp both ge h x y) as (b & -> & Hb).
    destruct (IH (h ++ [(x, y)])) as (bs & -> & L & V). exists (b :: bs). splits; auto.
    + simpl; lia.
    + intros [|i] Hi.
      * simpl. exact Hb.
      * cbn [nth]. rewrite V by (simpl in Hi; lia). rewrite <- app_assoc. reflexivity.
Qed.
Lemma gain_ge l mp : (2 <= length l)%nat -> 0 <= mp -> at_ l (length l - 1) <> 0 ->
  (1 + mp) * Rabs (at_ l (length l - 1)) <= Rabs (at_ l (length l - 2)) -> mp <= last_gain l.
Proof.
  intros L Hm Hz H. unfold last_gain. set (a := at_ l (length l - 1)) in *. set (b := at_ l (length l - 2)) in *.
  pose proof (Rabs_pos_lt a Hz). unfold Rdiv. rewrite Rabs_mult, Rabs_inv. apply Rmult_le_reg_r with (Rabs a); auto.
  rewrite Rmult_assoc, Rinv_l by lra. pose proof (Rabs_triang_inv b a). rewrite Rabs_minus_sym in H1. lra.
Qed.

(** ** caching_decorator *)
Section CacheP.
Context {X V I : Type} (eqb : X -> X -> bool) (Heq : forall a b, eqb a b = true <-> a = b).
Context (f : X -> bool -> V * I).
Definition keys {W} (l : list (X * W)) : list X := map fst l.
Lemma lookup_some {W} x (l : list (X * W)) w : lookup eqb x l = Some w -> In (x, w) l.
Proof.
  induction l as [|[k v] t IH]; simpl; [discriminate|]. destruct (eqb k x) eqn:E.
  - intros H; injection H as <-. apply Heq in E. subst. auto.
  - auto.
Qed.
Lemma lookup_none {W} x (l : list (X * W)) : lookup eqb x l = None <-> ~ In x (keys l).
Proof.
  induction l as [|[k v] t IH]; simpl; [tauto|]. destruct (eqb k x) eqn:E.
  - apply Heq in E. subst. split; [discriminate|]. intros H. exfalso. apply H. auto.
  - rewrite IH. split; intros H; [intros [->|C]|]; auto. rewrite (proj2 (Heq x x) eq_refl) in E. discriminate.
Qed.
(** invariant *)
Definition cache_ok (st : cache_state) : Prop :=
  NoDup (evals st) /\ (forall x, In x (keys (cache st)) <-> In x (evals st)) /\
  (forall x v, In (x, v) (cache st) -> exists b, v = fst (f x b)) /\
  (forall x i, In (x, i) (info_cache st) -> i = snd (f x true)) /\
  (forall x, In x (keys (info_cache st)) -> In x (keys (cache st))).
Lemma cached_call_ok st x b : cache_ok st ->
  let '(st', r) := cached_call eqb f st (x, b) in cache_ok st' /\
   (In x (evals st) -> evals st' = evals st) /\ (~ In x (evals st) -> evals st' = evals st ++ [x]) /\
   (forall v i, r = Ok (v, i) -> (exists b', v = fst (f x b')) /\ (i = if b then Some (snd (f x true)) else None)).
Proof.
  intros (N & K & C & J & S). unfold cached_call. destruct (lookup eqb x (cache st)) as [v|] eqn:E.
  - assert (I0 : In x (evals st)). { apply K. apply lookup_some in E. apply (in_map fst) in E. exact E. }
    pose proof (lookup_some _ _ _ E) as E'.
    destruct b.
    + destruct (lookup eqb x (info_cache st)) as [i|] eqn:Ei.
      * splits; auto; try (unfold cache_ok; splits; auto; fail); try contradiction.
        intros v0 i0 H; injection H as <- <-. split; eauto. apply lookup_some in Ei. f_equal. eauto.
      * splits; auto; try (unfold cache_ok; splits; auto; fail); try contradiction. discriminate.
    + splits; auto; try (unfold cache_ok; splits; auto; fail); try contradiction.
      intros v0 i0 H; injection H as <- <-. split; eauto.
  - apply lookup_none in E. assert (NI : ~ In x (evals st)) by (rewrite <- K; auto).
    destruct (f x b) as [v i] eqn:Ef. splits; auto; try contradiction.
    + unfold cache_ok. simpl. splits.
      * apply NoDup_rev in N. rewrite <- (rev_involutive (evals st ++ [x])). apply NoDup_rev. rewrite rev_app_distr. simpl.
        constructor; auto. rewrite <- in_rev. auto.
      * intros z. rewrite in_app_iff. simpl. rewrite K. tauto.
      * intros z w [H|H]; eauto. injection H as <- <-. exists b. now rewrite Ef.
      * intros z w. destruct b; [|eauto]. intros [H|H]; eauto. injection H as <- <-. now rewrite Ef.
      * intros z. destruct b; simpl; [|auto]. intros [H|H]; auto.
    + intros v0 i0 H. injection H as <- <-. split; [exists b; now rewrite Ef|]. destruct b; auto. now rewrite Ef.
Qed.
Lemma run_cache_ok calls : forall st, cache_ok st ->
  let '(st', rs) := run_cache eqb f st calls in cache_ok st' /\ length rs = length calls /\
   (forall x, In x (evals st') <-> In x (evals st) \/ In x (map fst calls)) /\
   (forall n x b v i, nth_error calls n = Some (x, b) -> nth_error rs n = Some (Ok (v, i)) ->
      (exists b', v = fst (f x b')) /\ i = if b then Some (snd (f x true)) else None).
Proof.
  induction calls as [|[x b] t IH]; intros st H; cbn [run_cache].
  - splits; auto; [simpl; tauto|]. intros [|n]; discriminate.
  - pose proof (cached_call_ok st x b H) as P. destruct (cached_call eqb f st (x, b)) as [st1 r].
    destruct P as (P1 & P2 & P3 & P4). specialize (IH st1 P1). destruct (run_cache eqb f st1 t) as [st2 rs].
    destruct IH as (Q1 & Q2 & Q3 & Q4). splits; auto.
    + simpl; lia.
    + intros z. rewrite Q3. cbn [map]. simpl In.
      destruct (lookup eqb x (cache st)) as [v|] eqn:E.
      * assert (In x (evals st)). { apply (proj1 (proj2 H)). apply lookup_some in E. apply (in_map fst) in E. exact E. }
        rewrite (P2 H0). split; [tauto|]. intros [?|[->|?]]; auto.
      * apply lookup_none in E. assert (NI : ~ In x (evals st)) by (rewrite <- (proj1 (proj2 H)); auto).
        rewrite (P3 NI). rewrite in_app_iff. simpl. tauto.
    + intros [|n] z b0 v i Hc Hr; cbn [nth_error] in *.
      * injection Hc as <- <-. injection Hr as ->. apply P4; auto.
      * eapply Q4; eauto.
Qed.
(** never a KeyError when every call for one point agrees on whether info is wanted *)
Lemma run_cache_noerr calls : forall st, cache_ok st ->
  (forall x, In x (keys (cache st)) -> In (x, true) calls -> In x (keys (info_cache st))) ->
  (forall x, In (x, true) calls -> In (x, false) calls -> False) ->
  forall r, In r (snd (run_cache eqb f st calls)) -> exists v i, r = Ok (v, i).
Proof.
  induction calls as [|[x b] t IH]; intros st H HI HC r; cbn [run_cache].
  - simpl. tauto.
  - pose proof (cached_call_ok st x b H) as P. unfold cached_call in *.
    destruct (lookup eqb x (cache st)) as [v|] eqn:E.
    + assert (Kx : In x (keys (cache st))). { apply lookup_some in E. apply (in_map fst) in E. exact E. }
      assert (G : forall r0 : result (V * option I), (exists v i, r0 = Ok (v, i)) ->
        In r (snd (let '(st0, rs) := run_cache eqb f st t in (st0, r0 :: rs))) -> exists v i, r = Ok (v, i)).
      { intros r0 H0. pose proof (IH st H) as IH'. destruct (run_cache eqb f st t) as [st2 rs]. simpl. intros [<-|Hr]; auto.
        apply IH'; auto. intros z Hz Ht. apply HI; auto. right; auto. intros z H1 H2. apply (HC z); right; auto. }
      destruct b.
      * destruct (lookup eqb x (info_cache st)) as [i|] eqn:Ei; [apply G; eauto|].
        exfalso. apply lookup_none in Ei. apply Ei. apply HI; auto. left; auto.
      * apply G; eauto.
    + apply lookup_none in E. destruct (f x b) as [v i]. destruct P as (P1 & _).
      set (st1 := mk_cache _ _ _) in *. specialize (IH st1 P1).
      destruct (run_cache eqb f st1 t) as [st2 rs]. simpl. intros [<-|Hr]; eauto. apply IH; auto.
      * intros z Hz Ht. unfold st1 in *. simpl in *. destruct b.
        -- simpl. destruct Hz as [<-|Hz]; auto.
        -- destruct Hz as [<-|Hz]; [exfalso; apply (HC x); [right; auto | left; auto] | auto].
      * intros z H1 H2. apply (HC z); right; auto.
Qed.
End CacheP.
