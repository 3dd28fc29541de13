(** Two-K and three-K fitting methods. *)
From Coq Require Import Reals Lra Lia String List Bool QArith Qreals.
From Verif Require Import Base Model_Real Proofs_Real Interval Sums Model_Numerics Proofs_Numerics Data_Piping Proofs_Tables Proofs_Tables3 Model_Fittings Properties_Core.
From Coquelicot Require Import Rcomplements.
Import ListNotations.
Open Scope R_scope.

(** ** Tables *)
Fixpoint nodupb (l : list string) : bool :=
  match l with [] => true | a :: r => (negb (existsb (String.eqb a) r) && nodupb r)%bool end.
Lemma nodupb_ok l : nodupb l = true -> NoDup l.
Proof.
  induction l as [|a l IH]; simpl; intros H; [constructor|]. apply andb_prop in H as [H1 H2]. constructor; auto.
  intros Hin. apply negb_true_iff in H1. assert (existsb (String.eqb a) l = true); [|congruence].
  apply existsb_exists. exists a. split; auto. apply String.eqb_refl.
Qed.
Lemma assoc_in {B} (l : list (string * B)) : NoDup (map fst l) -> forall k v, In (k, v) l -> assoc k l = Some v.
Proof.
  induction l as [|[n w] l IH]; simpl; intros N k v H; [contradiction|]. inversion N as [|? ? N1 N2]; subst.
  destruct H as [E|H]. - inversion E; subst. rewrite String.eqb_refl; reflexivity.
  - destruct (String.eqb_spec k n) as [->|]; [|apply IH; auto]. exfalso; apply N1. apply (in_map fst) in H. exact H.
Qed.
Lemma assoc_none {B} (l : list (string * B)) k : ~ In k (map fst l) -> assoc k l = None.
Proof.
  induction l as [|[n w] l IH]; simpl; intros H; auto. destruct (String.eqb_spec k n) as [->|]; [exfalso; apply H; auto|]. apply IH; tauto.
Qed.
Lemma Hooper_names : NoDup (map fst Hooper). Proof. apply nodupb_ok. vm_compute. reflexivity. Qed.
Lemma Darby_names : NoDup (map fst Darby). Proof. apply nodupb_ok. vm_compute. reflexivity. Qed.
Lemma Hooper_pos : Forall (fun e => 0 < fst (snd e) /\ 0 <= snd (snd e)) Hooper.
Proof. unfold Hooper. repeat (apply Forall_cons; [cbn [fst snd]; splits; lits; lra|]); apply Forall_nil. Qed.
Lemma Darby_pos : Forall (fun e => 0 < fst (fst (snd e)) /\ 0 <= snd (fst (snd e)) /\ 0 <= snd (snd e)) Darby.
Proof. unfold Darby. repeat (apply Forall_cons; [cbn [fst snd]; splits; lits; lra|]); apply Forall_nil. Qed.

(** ** Specification: the two formulas, and "answers with" *)
Definition two_K (K1 Kinf Re Di : R) : R := K1 / Re + Kinf * (1 + 1 / Di).
Definition three_K (K1 Ki Kd Re NPS : R) : R := K1 / Re + Ki * (1 + Kd * Rpower NPS (- 0.3)).

(** ** C52 *)

(** Every fitting in Hooper's table has a positive loss coefficient, given by the formula with its two constants
    whatever constants are also passed, and passing those constants directly gives the same. *)
Theorem C52_Hooper : forall name K1 Kinf Di Re a b, In (name, (K1, Kinf)) Hooper -> 0 < Di -> 0 < Re ->
  exists K, Hooper2K Di Re (Some name) a b = Ok K /\ Hooper2K Di Re None (Some K1) (Some Kinf) = Ok K /\ K = two_K K1 Kinf Re Di /\ 0 < K.
Proof.
  intros name K1 Kinf Di Re a b H HD HR. unfold Hooper2K. rewrite (assoc_in _ Hooper_names _ _ H). cbn [bind].
  rewrite !pdiv_ok by lra. cbn [bind]. eexists; splits; try reflexivity.
  pose proof (proj1 (Forall_forall _ _) Hooper_pos _ H) as [P1 P2]. cbn [fst snd] in *.
  assert (0 < K1 / Re) by (apply Rdiv_lt_0_compat; lra). assert (0 < 1 / Di) by (apply Rdiv_lt_0_compat; lra). nra.
Qed.
Lemma inv_anti x y : 0 < x -> x <= y -> / y <= / x.
Proof. intros. apply Rinv_le_contravar; lra. Qed.
(** The loss falls as the Reynolds number grows, strictly, and does not grow with the diameter. *)
Theorem C52_Hooper_monotone : forall name Di Di' Re Re' a b K K', 0 < Di <= Di' -> 0 < Re <= Re' ->
  Hooper2K Di Re (Some name) a b = Ok K -> Hooper2K Di' Re' (Some name) a b = Ok K' -> K' <= K /\ (Re < Re' -> K' < K).
Proof.
  intros name Di Di' Re Re' a b K K' HD HR. unfold Hooper2K. destruct (assoc name Hooper) as [[K1 Kinf]|] eqn:E; [|discriminate]. cbn [bind].
  rewrite !pdiv_ok by lra. cbn [bind]. intros Q Q'. injection Q as <-. injection Q' as <-.
  assert (P : 0 < K1 /\ 0 <= Kinf).
  { assert (exists n, In (n, (K1, Kinf)) Hooper) as [n Hn].
    { clear - E. revert E. generalize Hooper. intros l. induction l as [|[n w] l IH]; simpl; intros E; [discriminate|].
      destruct (String.eqb name n). injection E as ->. exists n; auto. destruct (IH E) as [m Hm]. exists m; auto. }
    exact (proj1 (Forall_forall _ _) Hooper_pos _ Hn). }
  destruct P as [P1 P2]. pose proof (inv_anti Re Re' ltac:(lra) ltac:(lra)). pose proof (inv_anti Di Di' ltac:(lra) ltac:(lra)).
  unfold Rdiv. split.
  - assert (K1 * / Re' <= K1 * / Re) by (apply Rmult_le_compat_l; lra). assert (Kinf * (1 + 1 * / Di') <= Kinf * (1 + 1 * / Di)) by (apply Rmult_le_compat_l; lra). lra.
  - intros HL. assert (/ Re' < / Re) by (apply Rinv_lt_contravar; [apply Rmult_lt_0_compat; lra|lra]).
    assert (K1 * / Re' < K1 * / Re) by (apply Rmult_lt_compat_l; lra). assert (Kinf * (1 + 1 * / Di') <= Kinf * (1 + 1 * / Di)) by (apply Rmult_le_compat_l; lra). lra.
Qed.
(** A name not in the table, or no name and an incomplete set of constants, raises ValueError whatever else is given;
    zero diameter or Reynolds number raises ZeroDivisionError. *)
Theorem C52_Hooper_errors : forall Di Re a b,
  (forall name, ~ In name (map fst Hooper) -> Hooper2K Di Re (Some name) a b = Err ValueError) /\
  Hooper2K Di Re None None b = Err ValueError /\ Hooper2K Di Re None a None = Err ValueError /\
  (forall name, In name (map fst Hooper) -> Di = 0 \/ Re = 0 -> Hooper2K Di Re (Some name) a b = Err ZeroDivisionError).
Proof.
  intros. splits.
  - intros n H. unfold Hooper2K. rewrite assoc_none by auto. reflexivity.
  - reflexivity. - destruct a; reflexivity.
  - intros n H H0. apply in_map_iff in H as ([n' [x y]] & <- & H). cbn [fst]. unfold Hooper2K. rewrite (assoc_in _ Hooper_names _ _ H). cbn [bind].
    destruct (Req_dec Re 0) as [->|HR]. rewrite pdiv_0. reflexivity.
    destruct H0 as [->|H0]; [|contradiction]. rewrite pdiv_ok by auto. cbn [bind]. rewrite pdiv_0. reflexivity.
Qed.
Example C52_ex_Hooper : exists K, Hooper2K 2 10000 (Some "Valve, Globe, Standard"%string) None None = Ok K /\ K = 6.15.
Proof.
  destruct (C52_Hooper "Valve, Globe, Standard" 1500 4 2 10000 None None) as (K & E & _ & F & _); try lra.
  { unfold Hooper. cbn [In]. repeat (first [left; reflexivity | right]). }
  exists K; split; auto. rewrite F. unfold two_K. lits. lra.
Qed.

(** The same for Darby's method with a nominal size. *)
Theorem C52_Darby : forall name K1 Ki Kd NPS Re a b c, In (name, (K1, Ki, Kd)) Darby -> 0 < NPS -> 0 < Re ->
  exists K, Darby3K (Some NPS) (Some Re) (Some name) a b c None = Ok K /\
    Darby3K (Some NPS) (Some Re) None (Some K1) (Some Ki) (Some Kd) None = Ok K /\ K = three_K K1 Ki Kd Re NPS /\ 0 < K.
Proof.
  intros name K1 Ki Kd NPS Re a b c H HN HR. unfold Darby3K. rewrite (assoc_in _ Darby_names _ _ H). cbn [bind].
  rewrite !pdiv_ok by lra. cbn [bind]. rewrite !ppow_ok by lra. cbn [bind]. eexists; splits; try reflexivity.
  pose proof (proj1 (Forall_forall _ _) Darby_pos _ H) as (P1 & P2 & P3). cbn [fst snd] in *.
  assert (0 < K1 / Re) by (apply Rdiv_lt_0_compat; lra). pose proof (Rpower_pos NPS (- 0.3)).
  assert (0 <= Kd * Rpower NPS (- 0.3)) by (apply Rmult_le_pos; lra). nra.
Qed.
Theorem C52_Darby_monotone : forall name NPS NPS' Re Re' a b c K K', 0 < NPS <= NPS' -> 0 < Re <= Re' ->
  Darby3K (Some NPS) (Some Re) (Some name) a b c None = Ok K -> Darby3K (Some NPS') (Some Re') (Some name) a b c None = Ok K' ->
  K' <= K /\ (Re < Re' -> K' < K).
Proof.
  intros name N N' Re Re' a b c K K' HD HR. unfold Darby3K. cbn [bind]. destruct (assoc name Darby) as [[[K1 Ki] Kd]|] eqn:E; [|discriminate]. cbn [bind].
  rewrite !pdiv_ok by lra. cbn [bind]. rewrite !ppow_ok by lra. cbn [bind]. intros Q Q'. injection Q as <-. injection Q' as <-.
  assert (P : 0 < K1 /\ 0 <= Ki /\ 0 <= Kd).
  { assert (exists n, In (n, (K1, Ki, Kd)) Darby) as [n Hn].
    { clear - E. revert E. generalize Darby. intros l. induction l as [|[n w] l IH]; simpl; intros E; [discriminate|].
      destruct (String.eqb name n). injection E as ->. exists n; auto. destruct (IH E) as [m Hm]. exists m; auto. }
    exact (proj1 (Forall_forall _ _) Darby_pos _ Hn). }
  destruct P as (P1 & P2 & P3). pose proof (inv_anti Re Re' ltac:(lra) ltac:(lra)).
  assert (G : Rpower N' (- 0.3) <= Rpower N (- 0.3)).
  { apply Rpower_anti_l; lits; lra. }
  assert (Ki * (1 + Kd * Rpower N' (- 0.3)) <= Ki * (1 + Kd * Rpower N (- 0.3))).
  { apply Rmult_le_compat_l; [lra|]. apply Rplus_le_compat_l. apply Rmult_le_compat_l; lra. }
  unfold Rdiv. split.
  - assert (K1 * / Re' <= K1 * / Re) by (apply Rmult_le_compat_l; lra). lra.
  - intros HL. assert (/ Re' < / Re) by (apply Rinv_lt_contravar; [apply Rmult_lt_0_compat; lra|lra]).
    assert (K1 * / Re' < K1 * / Re) by (apply Rmult_lt_compat_l; lra). lra.
Qed.
Theorem C52_Darby_errors : forall NPS Re a b c,
  (forall name, ~ In name (map fst Darby) -> Darby3K NPS Re (Some name) a b c None = Err ValueError) /\
  Darby3K NPS Re None None b c None = Err ValueError /\ Darby3K NPS Re None a None c None = Err ValueError /\ Darby3K NPS Re None a b None None = Err ValueError /\
  (forall name, Darby3K None Re name a b c None = Err ValueError) /\ (forall name, Darby3K NPS None name a b c None = Err ValueError).
Proof.
  intros. splits.
  - intros n H. unfold Darby3K. rewrite assoc_none by auto. reflexivity.
  - reflexivity. - destruct a; reflexivity. - destruct a, b; reflexivity.
  - intros [n|]; unfold Darby3K; cbn [bind]; [destruct (assoc n Darby) as [[[? ?] ?]|]; reflexivity|]. destruct a, b, c; reflexivity.
  - intros [n|]; unfold Darby3K; cbn [bind]; [destruct (assoc n Darby) as [[[? ?] ?]|]; destruct NPS; reflexivity|]. destruct a, b, c, NPS; reflexivity.
Qed.

(** An inside diameter may be given instead of the nominal size: from the smallest schedule 40 pipe up it stands for a
    nominal size of at least 1/8 inch, for exactly the tabulated one at every tabulated diameter, and it overrides [NPS]. *)
Lemma S40 : increasing (map Q2R S40i) /\ List.length (map Q2R S40i) = List.length (map Q2R NPS40) /\ (2 <= List.length (map Q2R S40i))%nat /\ increasing (map Q2R NPS40).
Proof. splits; [apply Qincr_ok; vm_compute; reflexivity|reflexivity|cbn; lia|apply Qincr_ok; vm_compute; reflexivity]. Qed.
Lemma line_ge x0 y0 x1 y1 x : x0 < x1 -> x0 <= x -> y0 <= y1 -> y0 <= line x0 y0 x1 y1 x.
Proof. intros. unfold line. assert (0 <= (y1 - y0) * ((x - x0) / (x1 - x0))) by (apply Rmult_le_pos; [lra|apply Rdiv_le_0_compat; lra]). lra. Qed.
Theorem C52_Darby_diameter : forall Di Re name a b c, 0.00684 <= Di -> exists NPS, 0.125 <= NPS /\
  forall n, Darby3K n Re name a b c (Some Di) = Darby3K (Some NPS) Re name a b c None.
Proof.
  intros Di Re name a b c H. destruct S40 as (I & L & L2 & J).
  assert (E : exists v, interp (Di * 1000) (map Q2R S40i) (map Q2R NPS40) None None true = Ok v /\ 0.125 <= v).
  { assert (H0 : at_ (map Q2R S40i) 0 <= Di * 1000). { change (at_ (map Q2R S40i) 0) with (Q2R 6.84). lits. lra. }
    assert (M : forall i, (i < List.length (map Q2R NPS40))%nat -> 0.125 <= at_ (map Q2R NPS40) i).
    { intros i Hi. change 0.125 with (at_ (map Q2R NPS40) 0). destruct i; [lra|]. apply Rlt_le, J; lia. }
    destruct (Rlt_le_dec (at_ (map Q2R S40i) (List.length (map Q2R S40i) - 1)) (Di * 1000)) as [H1|H1].
    - rewrite interp_above by (auto; discriminate). rewrite interp_last_line by (auto; lia). eexists; split; [reflexivity|].
      eapply Rle_trans; [|apply line_ge].
      + apply (M (List.length (map Q2R S40i) - 2)%nat). rewrite <- L. lia.
      + apply I; lia. + apply Rlt_le. eapply Rlt_trans; [|exact H1]. apply I; lia. + apply Rlt_le, J; rewrite <- ?L; lia.
    - destruct (find_segment (map Q2R S40i) (Di * 1000)) as (k & K1 & K2); [lia|lra|].
      rewrite (interp_inside _ _ _ _ _ _ k) by auto. eexists; split; [reflexivity|]. eapply Rle_trans; [apply (M k); rewrite <- L; lia|].
      apply line_ge; [apply I; lia|apply K2|apply Rlt_le, J; rewrite <- ?L; lia]. }
  destruct E as (v & E & Hv). exists v; split; auto. intros n. unfold Darby3K. rewrite E. reflexivity.
Qed.
Theorem C52_Darby_tabulated : forall i, (i < List.length S40i)%nat -> forall n Re name a b c,
  Darby3K n Re name a b c (Some (Q2R (nth i S40i 0%Q) / 1000)) = Darby3K (Some (Q2R (nth i NPS40 0%Q))) Re name a b c None.
Proof.
  intros i Hi n Re name a b c. destruct S40 as (I & L & L2 & J). unfold Darby3K.
  replace (Q2R (nth i S40i 0%Q) / 1000 * 1000) with (at_ (map Q2R S40i) i) by (rewrite at_map by auto; field).
  assert (E : interp (at_ (map Q2R S40i) i) (map Q2R S40i) (map Q2R NPS40) None None true = Ok (at_ (map Q2R NPS40) i)).
  { assert (Hi' : (i < List.length (map Q2R S40i))%nat) by (rewrite map_length; auto).
    assert (M : forall a b, (a <= b)%nat -> (b < List.length (map Q2R S40i))%nat -> at_ (map Q2R S40i) a <= at_ (map Q2R S40i) b).
    { intros x y Hab Hb. destruct (Nat.eq_dec x y) as [->|]; [lra|]. apply Rlt_le, I; lia. }
    destruct i as [|i].
    - rewrite (interp_inside _ _ _ _ _ _ 0%nat) by (first [assumption | lia | split; [lra|apply M; lia]]). f_equal. unfold line. field.
      assert (at_ (map Q2R S40i) 0 < at_ (map Q2R S40i) 1) by (apply I; lia). lra.
    - rewrite (interp_inside _ _ _ _ _ _ i) by (first [assumption | lia | split; [apply M; lia|lra]]). f_equal. unfold line. field.
      assert (at_ (map Q2R S40i) i < at_ (map Q2R S40i) (S i)) by (apply I; lia). lra. }
  rewrite E. cbn [bind]. rewrite at_map by (assert (List.length S40i = List.length NPS40) by reflexivity; lia). reflexivity.
Qed.
(** Below about 4.5 mm the extrapolated nominal size is negative and its power is not a real number: the answer is a
    complex number, not a loss coefficient. *)
Theorem C52_Darby_small_bore_refuted : forall n Re a b c, 0 < Re ->
  Darby3K n (Some Re) (Some "Valve, Gate valve, standard, β = 1"%string) a b c (Some 0.004) = Err ComplexResult.
Proof.
  intros n Re a b c HR. destruct S40 as (I & L & L2 & J). unfold Darby3K.
  rewrite interp_below; [|auto|auto|discriminate|change (at_ (map Q2R S40i) 0) with (Q2R 6.84); lits; lra].
  rewrite interp_between_line by (auto; lia). cbn [bind].
  rewrite (assoc_in _ Darby_names "Valve, Gate valve, standard, β = 1"%string (300, 0.037, 3.9)) by (unfold Darby; cbn [In]; repeat (first [left; reflexivity | right])).
  cbn [bind]. rewrite pdiv_ok by lra. cbn [bind].
  change (at_ (map Q2R S40i) 0) with (Q2R 6.84). change (at_ (map Q2R S40i) 1) with (Q2R 9.22).
  change (at_ (map Q2R NPS40) 0) with (Q2R 0.125). change (at_ (map Q2R NPS40) 1) with (Q2R 0.25).
  unfold line, ppow. rewrite (proj2 (Rltb_false 0 _)) by (lits; lra).
  rewrite (proj2 (Reqb_false _ 0)) by (lits; lra). reflexivity.
Qed.
Example C52_ex_Darby : exists K, Darby3K (Some 1) (Some 10000) (Some "Valve, Swing check"%string) None None None None = Ok K /\ K = 2.45.
Proof.
  destruct (C52_Darby "Valve, Swing check" 1500 0.46 4 1 10000 None None None) as (K & E & _ & F & _); try lra.
  { unfold Darby. cbn [In]. repeat (first [left; reflexivity | right]). }
  exists K; split; auto. rewrite F. unfold three_K. rewrite Rpower_1_l || idtac. replace (Rpower 1 (- 0.3)) with 1 by (unfold Rpower; rewrite ln_1, Rmult_0_r, exp_0; reflexivity). lits. lra.
Qed.

Print Assumptions C52_Hooper.
Print Assumptions C52_Hooper_monotone.
Print Assumptions C52_Hooper_errors.
Print Assumptions C52_Darby.
Print Assumptions C52_Darby_monotone.
Print Assumptions C52_Darby_errors.
Print Assumptions C52_Darby_diameter.
Print Assumptions C52_Darby_tabulated.
Print Assumptions C52_Darby_small_bore_refuted.
