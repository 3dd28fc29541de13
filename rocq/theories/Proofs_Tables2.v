(** Proofs about wire gauges. *)
From Coq Require Import String List Bool QArith Qreals Qround Reals R_Ifp ZArith Arith Lra Lia Psatz.
From Verif Require Import Base Sums Model_Numerics Proofs_Numerics Data_Piping Data_Pump Data_Safety Model_Tables Spec_Tables Proofs_Tables.
Import ListNotations.
Local Open Scope R_scope.

(** ** running on rationals agrees with running on reals *)
Lemma Q2R_red q : Q2R (Qred q) = Q2R q.
Proof. apply Qeq_eqR, Qred_correct. Qed.
Lemma Q2R_qmul a b : Q2R (@nmul Q _ a b) = Q2R a * Q2R b.
Proof. change (Q2R (Qred (a * b)) = Q2R a * Q2R b). now rewrite Q2R_red, Q2R_mult. Qed.
Lemma Q2R_qsub a b : Q2R (@nsub Q _ a b) = Q2R a - Q2R b.
Proof. change (Q2R (Qred (a - b)) = Q2R a - Q2R b). now rewrite Q2R_red, Q2R_minus. Qed.
Lemma pydiv_Q a b : @pydiv R _ (Q2R a) (Q2R b) = rmap Q2R (@pydiv Q _ a b).
Proof.
  unfold pydiv. numR. rewrite <- Q2R_0, <- Qeq_R. change (@n0 Q _) with 0%Q. cbn [neq NumQ]. destruct (Qeq_bool b 0) eqn:E; [reflexivity|].
  cbn [rmap]. f_equal. change (@ndiv Q NumQ a b) with (Qred (a / b)). rewrite Q2R_red, Q2R_div; [reflexivity|]. intros Q. apply Qeq_bool_iff in Q. congruence.
Qed.
Lemma pyround_Q x n : @pyround R _ _ (Q2R x) n = Q2R (@pyround Q _ _ x n).
Proof.
  unfold pyround. cbv zeta. numR. cbn [nQ NumQ]. f_equal. f_equal. f_equal. rewrite <- Q2R_mult. rewrite rint_Q.
  change (@nmul Q NumQ) with (fun x y => Qred (Qmult x y)). cbv beta.
  rewrite <- (rint_Q (x * _)), <- (rint_Q (Qred _)), Q2R_red. reflexivity.
Qed.
Lemma index_of_Q x l : @index_of R _ (Q2R x) (map Q2R l) = @index_of Q _ x l.
Proof.
  induction l as [|a l IH]; [reflexivity|]. cbn [index_of map]. rewrite IH. numR. cbn [neq NumQ]. now rewrite Qeq_R.
Qed.
Lemma gauge_scan_Q x l : forall i o, @gauge_scan R _ (Q2R x) (map Q2R l) i (option_map Q2R o) =
  (let '(a, b) := @gauge_scan Q _ x l i o in (option_map Q2R a, b)).
Proof.
  induction l as [|a l IH]; intros i o; cbn [gauge_scan map]; [reflexivity|]. numR. cbn [nle NumQ]. rewrite <- Qle_R.
  destruct (Qle_bool x a); [apply (IH (S i) (Some a))|reflexivity].
Qed.
Lemma idx_Q l i : idx (map Q2R l) i = rmap Q2R (idx l i).
Proof. unfold idx. rewrite nth_error_map. destruct (nth_error l i); reflexivity. Qed.
Lemma last_of_Q l : last_of (map Q2R l) = rmap Q2R (last_of l).
Proof. unfold last_of. rewrite <- map_rev. apply idx_Q. Qed.
Lemma tbl_Q l : @tbl Q _ l = l.
Proof. apply map_id. Qed.
Lemma gauge_from_t_Q t SI s : @gauge_from_t R _ _ (Q2R t) SI s = rmap Q2R (@gauge_from_t Q _ _ t SI s).
Proof.
  unfold gauge_from_t.
  assert (E : (if SI then q <- @pydiv R _ (Q2R t) inch;; Ok (pyround q 9) else Ok (Q2R t)) = rmap Q2R (if SI then q <- @pydiv Q _ t inch;; Ok (pyround q 9) else Ok t)).
  { destruct SI; [|reflexivity]. unfold inch. numR. rewrite pydiv_Q. cbn [nQ NumQ]. destruct (pydiv t 0.0254%Q); cbn [bind rmap]; [|reflexivity]. now rewrite pyround_Q. }
  rewrite E; clear E. destruct (if SI then _ else _) as [ti|e]; cbn [bind rmap]; [|reflexivity].
  destruct (assoc_str s wire_schedules) as [[[g il] si]|]; [|reflexivity].
  rewrite !tbl_R, !tbl_Q, idx_Q, last_of_Q. destruct (idx il 0) as [mx|]; cbn [rmap bind]; [|reflexivity].
  destruct (last_of il) as [mn|]; cbn [rmap bind]; [|reflexivity]. numR. rewrite <- Qltb_R. cbn [nlt NumQ].
  destruct (Qltb mx ti); [reflexivity|]. rewrite index_of_Q. destruct (index_of ti il) as [i|]; [apply idx_Q|].
  pose proof (gauge_scan_Q ti il 0 None) as GS. cbn [option_map] in GS. rewrite GS; clear GS. destruct (gauge_scan ti il 0 None) as [[lg|] i]; cbn [option_map]; [|reflexivity].
  numR. rewrite <- Qeq_R. cbn [neq NumQ]. destruct (Qeq_bool lg mn); [reflexivity|]. rewrite idx_Q. destruct (idx il i) as [sm|]; cbn [rmap bind]; [|reflexivity].
  numR. rewrite <- !Q2R_qsub, <- Q2R_qmul, <- Qle_R. cbn [nle NumQ]. cbn [nQ NumQ]. destruct (Qle_bool _ _); apply idx_Q.
Qed.
Lemma t_from_gauge_Q g SI s : @t_from_gauge R _ (Q2R g) SI s = rmap Q2R (@t_from_gauge Q _ g SI s).
Proof.
  unfold t_from_gauge. destruct (assoc_str s wire_schedules) as [[[gs il] si]|]; [|reflexivity].
  rewrite !tbl_R, !tbl_Q, index_of_Q. destruct (index_of g gs); [|reflexivity]. destruct SI; apply idx_Q.
Qed.
Definition Ok_eqb (r : result Q) (q : Q) : bool := match r with Ok v => Qeq_bool v q | _ => false end.
Lemma Ok_eqb_R r q : Ok_eqb r q = true -> rmap Q2R r = Ok (Q2R q).
Proof. destruct r; cbn; [|discriminate]. intros H. apply Qeq_lit in H. now rewrite H. Qed.
Definition wire_ok (e : string * (list Q * list Q * list Q)) : bool :=
  let '(s, (g, il, si)) := e in
  let n := List.length g in
  Nat.ltb 1 n && Nat.eqb (List.length il) n && Nat.eqb (List.length si) n && Qincr (rev il) && Qincr (rev si)
  && Qltb 0%Q (nth (n - 1) il 0%Q)
  && forallb (fun j => Ok_eqb (@t_from_gauge Q _ (nth j g 0) false s) (nth j il 0) && Ok_eqb (@t_from_gauge Q _ (nth j g 0) true s) (nth j si 0)
     && Ok_eqb (@gauge_from_t Q _ _ (nth j il 0) false s) (nth j g 0) && Ok_eqb (@gauge_from_t Q _ _ (nth j si 0) true s) (nth j g 0)
     && Qle_bool (Qabs.Qabs (nth j il 0 * 0.0254 - nth j si 0)) 4e-7)%Q (seq 0 n).
Lemma all_wire_ok : forallb wire_ok wire_schedules = true.
Proof. vm_compute. reflexivity. Qed.
Definition decreasing_ (l : list R) : Prop := forall i j, (i < j)%nat -> (j < List.length l)%nat -> at_ l j < at_ l i.
Lemma rev_increasing l : increasing (map Q2R (rev l)) -> decreasing_ (map Q2R l).
Proof.
  intros H i j Hij Hj. rewrite map_length in Hj. rewrite !at_map by lia.
  assert (K : forall k, (k < List.length l)%nat -> Q2R (nth k l 0%Q) = at_ (map Q2R (rev l)) (List.length l - S k)).
  { intros k Hk. rewrite at_map by (rewrite rev_length; lia). rewrite rev_nth by lia. do 2 f_equal. lia. }
  rewrite !K by lia. apply H; [lia|]. rewrite map_length, rev_length. lia.
Qed.
Lemma wire_facts s g il si : assoc_str s wire_schedules = Some (g, il, si) ->
  (1 < List.length g)%nat /\ List.length il = List.length g /\ List.length si = List.length g /\
  decreasing_ (map Q2R il) /\ decreasing_ (map Q2R si) /\ 0 < Q2R (nth (List.length g - 1) il 0%Q) /\
  (forall j, (j < List.length g)%nat ->
     @t_from_gauge R _ (Q2R (nth j g 0%Q)) false s = Ok (Q2R (nth j il 0%Q)) /\ @t_from_gauge R _ (Q2R (nth j g 0%Q)) true s = Ok (Q2R (nth j si 0%Q)) /\
     @gauge_from_t R _ _ (Q2R (nth j il 0%Q)) false s = Ok (Q2R (nth j g 0%Q)) /\ @gauge_from_t R _ _ (Q2R (nth j si 0%Q)) true s = Ok (Q2R (nth j g 0%Q)) /\
     Rabs (Q2R (nth j il 0%Q) * 0.0254 - Q2R (nth j si 0%Q)) <= 4e-7).
Proof.
  intros H. apply assoc_str_in in H. pose proof all_wire_ok as K. rewrite forallb_forall in K. specialize (K _ H). cbn [wire_ok] in K. cbv zeta in K.
  repeat (apply andb_prop in K; destruct K as [K ?]). rewrite !Nat.eqb_eq, Nat.ltb_lt in *.
  splits; auto using rev_increasing, Qincr_ok.
  { rewrite <- Q2R_0. apply Qlt_lit. auto. }
  intros j Hj. rewrite forallb_forall in H0. specialize (H0 j). rewrite in_seq in H0. specialize (H0 ltac:(lia)).
  repeat (apply andb_prop in H0; destruct H0 as [H0 ?]).
  rewrite !t_from_gauge_Q, !gauge_from_t_Q. splits; auto using Ok_eqb_R.
  match goal with h : Qle_bool _ _ = true |- _ => apply Qle_bool_iff, Qabs.Qabs_Qle_condition in h; destruct h as [h1 h2]; apply Qle_Rle in h1; apply Qle_Rle in h2 end.
  rewrite Q2R_opp, Q2R_minus, Q2R_mult in *.
  assert (L2 : Q2R 4e-7 = 4e-7) by (unfold Q2R; simpl; lra).
  rewrite L2 in h1; rewrite L2 in h2. apply Rabs_le. lra.
Qed.
(** ** arbitrary thickness *)
Lemma gauge_scan_spec t l : decreasing_ l -> forall r i o, (exists p, l = p ++ r /\ List.length p = i /\ (forall k, (k < i)%nat -> t <= at_ l k) /\
    o = match i with O => None | S k => Some (at_ l k) end) ->
  (exists k, (k < List.length l)%nat /\ at_ l k < t /\ (forall j, (j < k)%nat -> t <= at_ l j) /\
     @gauge_scan R _ t r i o = (match k with O => None | S j => Some (at_ l j) end, k)) \/
  ((forall k, (k < List.length l)%nat -> t <= at_ l k) /\
     @gauge_scan R _ t r i o = (match List.length l with O => None | S j => Some (at_ l j) end, (List.length l - 1)%nat)).
Proof.
  intros Hd. induction r as [|v r IH]; intros i o (p & Hl & Hp & Hb & Ho); cbn [gauge_scan].
  - rewrite app_nil_r in Hl. subst p. right. split; [rewrite Hp; auto|]. rewrite Hp, Ho. reflexivity.
  - assert (Hv : at_ l i = v). { rewrite Hl. unfold at_. rewrite app_nth2 by lia. replace (i - List.length p)%nat with 0%nat by lia. reflexivity. }
    numR. destruct (Rleb t v) eqn:E.
    + apply Rleb_true in E. apply IH. exists (p ++ [v]). splits.
      * rewrite Hl, <- app_assoc. reflexivity.
      * rewrite app_length. simpl. lia.
      * intros k Hk. destruct (Nat.eq_dec k i) as [->|]; [lra|]. apply Hb. lia.
      * now rewrite Hv.
    + apply Rleb_false in E. left. exists i. splits; auto.
      * rewrite Hl, app_length. simpl. lia.
      * lra.
      * now rewrite Ho.
Qed.
Lemma index_of_spec x l : match @index_of R _ x l with
  | Some i => (i < List.length l)%nat /\ at_ l i = x
  | None => forall i, (i < List.length l)%nat -> at_ l i <> x end.
Proof.
  induction l as [|a l IH]; cbn [index_of]; [simpl; intros; lia|]. numR. destruct (Reqb a x) eqn:E.
  - apply Reqb_true in E. split; [simpl; lia|auto].
  - apply Reqb_false in E. destruct (index_of x l); cbn [option_map].
    + destruct IH. split; [simpl; lia|auto].
    + intros [|i] Hi; [auto|]. apply IH. simpl in Hi. lia.
Qed.
(** the result for a thickness in inches *)
Lemma gauge_from_t_inch t s g il si : assoc_str s wire_schedules = Some (g, il, si) ->
  let n := List.length g in let T k := Q2R (nth k il 0%Q) in let G k := Q2R (nth k g 0%Q) in
  (T 0%nat < t /\ @gauge_from_t R _ _ t false s = Err ValueError) \/
  (t < T (n - 1)%nat /\ @gauge_from_t R _ _ t false s = Ok (T (n - 1)%nat)) \/
  (exists k, (k < n)%nat /\ T k = t /\ @gauge_from_t R _ _ t false s = Ok (G k)) \/
  (exists k, (S k < n)%nat /\ T (S k) < t < T k /\
     @gauge_from_t R _ _ t false s = Ok (if Rle_dec (t - T (S k)) (0.1 * (T k - T (S k))) then G (S k) else G k)).
Proof.
  intros H. destruct (wire_facts _ _ _ _ H) as (Hn & Li & Ls & Di & Ds & Hp & _). cbv zeta.
  unfold gauge_from_t. cbn [bind]. rewrite H, !tbl_R. rewrite idx_at, last_of_at by (rewrite map_length; lia). cbn [bind]. numR.
  rewrite map_length, Li. rewrite !at_map by lia.
  destruct (Rltb (Q2R (nth 0 il 0%Q)) t) eqn:E0; [apply Rltb_true in E0; left; auto|]. apply Rltb_false in E0. right.
  pose proof (index_of_spec t (map Q2R il)) as Ix. destruct (index_of t (map Q2R il)) as [k|].
  - destruct Ix as [K1 K2]. rewrite map_length in K1. rewrite at_map in K2 by auto. right. left. exists k. splits; auto; [lia|].
    rewrite idx_at by (rewrite map_length; lia). now rewrite at_map by lia.
  - assert (Ix' : forall i, (i < List.length g)%nat -> Q2R (nth i il 0%Q) <> t).
    { intros i Hi. rewrite <- at_map by lia. apply Ix. rewrite map_length. lia. }
    destruct (gauge_scan_spec t (map Q2R il) Di (map Q2R il) 0 None) as [(k & K1 & K2 & K3 & ->)|[K1 ->]].
    { exists []. splits; auto. intros; lia. }
    + rewrite map_length in K1. rewrite at_map in K2 by auto. destruct k as [|k]; [lra|].
      assert (K4 : t <= at_ (map Q2R il) k) by (apply K3; lia). rewrite !at_map in * by lia.
      assert (t <> Q2R (nth k il 0%Q)) by (intros Q; apply (Ix' k); [lia|auto]).
      assert (Reqb (Q2R (nth k il 0%Q)) (Q2R (nth (List.length g - 1) il 0%Q)) = false) as ->.
      { apply Reqb_false. assert (at_ (map Q2R il) (List.length g - 1) < at_ (map Q2R il) k) by (apply Di; rewrite ?map_length; lia).
        rewrite !at_map in * by lia. lra. }
      rewrite idx_at by (rewrite map_length; lia). cbn [bind]. rewrite at_map by lia.
      right. right. exists k. splits; auto; [lia|lra|].

      rewrite !idx_at by (rewrite map_length; lia). rewrite !at_map by lia. replace (S k - 1)%nat with k by lia.
      unfold Rleb. destruct (Rle_dec _ _); reflexivity.
    + rewrite map_length, Li. destruct (List.length g) as [|m] eqn:Em; [lia|]. replace (S m - 1)%nat with m in * by lia. rewrite at_map by lia.
      assert (Reqb (Q2R (nth m il 0%Q)) (Q2R (nth m il 0%Q)) = true) as -> by now apply Reqb_true.
      left. split; auto. specialize (K1 m). rewrite map_length, at_map in K1 by lia. specialize (K1 ltac:(lia)).
      assert (Q2R (nth m il 0%Q) <> t) by (apply Ix'; lia). lra.
Qed.
