(** C90: finite difference derivatives, gradients and second derivative matrices. *)
From Coq Require Import Reals Lra Lia List Bool ZArith QArith Qreals.
From Coquelicot Require Import Coquelicot.
From Verif Require Import Base Sums Proofs_PSD Proofs_Real Model_Differences Proofs_Differences.
Import ListNotations.
Open Scope R_scope.

(** the (derivative, points) pairs for which weights are stored *)
Definition stored : list (nat * nat) :=
  [(1, 3); (1, 5); (1, 7); (1, 9); (1, 11); (1, 13); (1, 15); (1, 17); (1, 19); (2, 3); (2, 5); (2, 7); (2, 9); (2, 11); (2, 13);
   (2, 15); (2, 17); (2, 19); (3, 5); (3, 7); (3, 9)]%nat.
(** half of the span of the evaluation points *)
Definition half_span (order : nat) (dx : R) : R := INR (order / 2) * dx.
(** the point [x] with coordinate [i] increased by [d] *)
Definition moved (x : list R) (i : nat) (d : R) : list R := upd x i (nth i x 0 + d).

Lemma stored_some n o : In (n, o) stored -> exists w, weights_of n o weights_table = Some w.
Proof.
  assert (H : forallb (fun p => match weights_of (fst p) (snd p) weights_table with Some _ => true | None => false end) stored = true) by (vm_compute; reflexivity).
  rewrite forallb_forall in H. intros HI. specialize (H _ HI). cbn [fst snd] in H. destruct (weights_of n o weights_table); [eauto|discriminate].
Qed.
Lemma stored_none n o : ~ In (n, o) stored -> weights_of n o weights_table = None.
Proof.
  intros H. destruct (weights_of n o weights_table) as [w|] eqn:E; auto. apply weights_of_In in E.
  assert (HI : In (n, o) (map fst weights_table)) by (apply in_map_iff; exists (n, o, w); auto).
  exfalso. apply H. exact HI.
Qed.
Lemma div2_half o : Nat.div2 o = (o / 2)%nat.
Proof. apply Nat.div2_div. Qed.

Lemma loop_sum (f : R -> result R) g W x dx ho : forall m s tot, (s + m <= List.length W)%nat ->
  (forall k, (k < List.length W)%nat -> f (x + (INR k - INR ho) * dx) = Ok (g (x + (INR k - INR ho) * dx))) ->
  (fix go (ks : list nat) (tot : R) : result R :=
            match ks with
            | [] => Ok tot
            | k :: ks' =>
                w <- idx W k ;;
                if negb (Reqb w 0) then v <- f (x + (INR k - INR ho) * dx) ;; go ks' (tot + w * v)
                else go ks' tot
            end) (seq s m) tot = Ok (tot + Rsum (fun i => nth (s + i) W 0 * g (x + (INR (s + i) - INR ho) * dx)) m).
Proof.
  induction m as [|m IH]; intros s tot Hl Hf; [cbn; f_equal; lra|].
  cbn [seq]. rewrite idx_ok by lia. cbn [bind]. rewrite Rsum_head, Nat.add_0_r.
  rewrite (Rsum_ext _ (fun i => nth (S s + i) W 0 * g (x + (INR (S s + i) - INR ho) * dx))) by (intros i _; now rewrite Nat.add_succ_r).
  destruct (Reqb (nth s W 0) 0) eqn:E; cbn [negb].
  - apply Reqb_true in E. rewrite IH by (auto; lia). rewrite E. f_equal. lra.
  - rewrite Hf by lia. cbn [bind]. rewrite IH by (auto; lia). f_equal. lra.
Qed.

Lemma derivative_plain extra f g x0 dx n o ws : weights_of n o weights_table = Some ws -> dx <> 0 ->
  (forall k, (k < o)%nat -> f (x0 + (INR k - INR (Nat.div2 o)) * dx) = Ok (g (x0 + (INR k - INR (Nat.div2 o)) * dx))) ->
  derivative extra f x0 dx n o None None = Ok (Rsum (fun k => nth k (map Q2R ws) 0 * g (x0 + (INR k - INR (Nat.div2 o)) * dx)) o * (1 / dx ^ n)).
Proof.
  intros E Hdx Hf. pose proof (g_len _ _ _ (table_good _ _ _ E)) as HL. unfold derivative. rewrite E. cbn [bind]. rewrite pdiv_ok by now apply pow_nonzero. cbn [bind].
  rewrite (loop_sum f g (map Q2R ws) x0 dx (Nat.div2 o)) by (rewrite HL; auto). cbn [bind]. rewrite Rplus_0_l. reflexivity.
Qed.

(** For every stored pair the value returned for a function whose [order]-th derivative is bounded by [M] over the evaluation
    points differs from the [n]-th derivative at the requested point by at most [M/3 dx^(order-n)] plus [2e-16] times the sum
    of the Taylor terms at half span (the rounding of the stored weights), and no evaluation outside the span is made. *)
Theorem C90_derivative_error : forall extra f g x0 dx n order a b M,
  In (n, order) stored -> 0 < dx -> 0 <= M ->
  a < x0 - half_span order dx -> x0 + half_span order dx < b ->
  (forall t, Rabs (t - x0) <= half_span order dx -> f t = Ok (g t)) ->
  (forall t, a < t < b -> forall k, (k <= order)%nat -> ex_derive_n g k t) ->
  (forall t, Rabs (t - x0) <= half_span order dx -> Rabs (Derive_n g order t) <= M) ->
  exists d, derivative extra f x0 dx n order None None = Ok d /\
    Rabs (d - Derive_n g n x0) <=
      (M / 3 * dx ^ order + 2 / 10 ^ 16 * Rsum (fun j => half_span order dx ^ j / INR (fact j) * Rabs (Derive_n g j x0)) order) / dx ^ n.
Proof.
  intros extra f g x0 dx n o a b M HI Hdx HM Ha Hb Hf Hd HB. unfold half_span in *. rewrite <- div2_half in *.
  destruct (stored_some _ _ HI) as (ws & E). pose proof (table_good _ _ _ E) as G.
  eexists. split.
  - apply (derivative_plain extra f g); eauto; [lra|]. intros k Hk. apply Hf.
    replace (x0 + (INR k - INR (Nat.div2 o)) * dx - x0) with ((INR k - INR (Nat.div2 o)) * dx) by ring.
    rewrite Rabs_mult, (Rabs_pos_eq dx) by lra. apply Rmult_le_compat_r; [lra|]. apply Rabs_le.
    pose proof (g_odd _ _ _ G) as Go. apply Nat.odd_spec in Go. destruct Go as [m ->].
    rewrite Nat.add_1_r, Nat.div2_succ_double in *. assert (INR k <= INR (2 * m)) by (apply le_INR; lia). rewrite mult_INR in H. cbn [INR] in H. pose proof (pos_INR k). lra.
  - pose proof (weighted_error n o (map Q2R ws) g x0 dx a b M G Hdx HM Ha Hb Hd HB) as W.
    assert (Hp : 0 < dx ^ n) by (apply pow_lt; lra).
    set (S := Rsum (fun k => nth k (map Q2R ws) 0 * g (x0 + (INR k - INR (Nat.div2 o)) * dx)) o) in *.
    replace (S * (1 / dx ^ n) - Derive_n g n x0) with ((S - dx ^ n * Derive_n g n x0) / dx ^ n) by (field; lra).
    unfold Rdiv at 1. rewrite Rabs_mult, (Rabs_pos_eq (/ dx ^ n)) by (apply Rlt_le, Rinv_0_lt_compat, Hp).
    apply Rmult_le_compat_r; [apply Rlt_le, Rinv_0_lt_compat, Hp|]. exact W.
Qed.

Example C90_derivative_error_ex : exists d, derivative (fun _ _ => Err ValueError) (fun x => Ok (exp x)) 0 (1 / 10) 1 5 None None = Ok d /\ Rabs (d - 1) <= 1 / 10000.
Proof.
  destruct (C90_derivative_error (fun _ _ => Err ValueError) (fun x => Ok (exp x)) exp 0 (1 / 10) 1 5 (- 1) 1 2) as (d & E & H).
  - cbn; auto.
  - lra.
  - lra.
  - unfold half_span. cbn. lra.
  - unfold half_span. cbn. lra.
  - reflexivity.
  - intros t _ k _. destruct k; [exact I|]. exists (exp t). exact (is_derive_n_exp (S k) t).
  - unfold half_span. cbn [Nat.div fst snd Nat.divmod INR]. intros t Ht. rewrite (is_derive_n_unique _ _ _ _ (is_derive_n_exp 5 t)).
    rewrite Rabs_pos_eq by (apply Rlt_le, exp_pos). apply Rabs_le_between in Ht.
    apply Rle_trans with (exp (1 / 2)); [destruct (Rle_lt_or_eq_dec t (1/2)) as [L|L]; [lra|left; now apply exp_increasing|subst; lra]|].
    pose proof (exp_ineq1 (- (1 / 2)) ltac:(lra)). pose proof (exp_pos (1/2)). assert (exp (1/2) * exp (- (1/2)) = 1) by (rewrite <- exp_plus; replace (1/2 + - (1/2)) with 0 by lra; apply exp_0).
    nra.
  - exists d. split; [exact E|]. rewrite (is_derive_n_unique _ _ _ _ (is_derive_n_exp 1 0)), exp_0 in H.
    eapply Rle_trans; [exact H|]. unfold half_span. cbn [Rsum Nat.div fst snd Nat.divmod].
    rewrite !(is_derive_n_unique _ _ _ _ (is_derive_n_exp _ 0)), exp_0, Rabs_R1. cbn [fact Nat.mul Nat.add pow]. cbn [INR]. lra.
Qed.

(** The shortest formulas are exact for quadratic functions, whatever the step. *)
Theorem C90_derivative_quadratic : forall extra p q r x0 dx, dx <> 0 ->
  derivative extra (fun x => Ok (p * x * x + q * x + r)) x0 dx 1 3 None None = Ok (2 * p * x0 + q) /\
  derivative extra (fun x => Ok (p * x * x + q * x + r)) x0 dx 2 3 None None = Ok (2 * p).
Proof.
  intros extra p q r x0 dx Hdx. split.
  - erewrite (derivative_plain extra _ (fun x => p * x * x + q * x + r)); [|reflexivity|auto|reflexivity]. f_equal. cbn [map nth Rsum Nat.div2 INR pow]. unfold Q2R; cbn [Qnum Qden]. field. auto.
  - erewrite (derivative_plain extra _ (fun x => p * x * x + q * x + r)); [|reflexivity|auto|reflexivity]. f_equal. cbn [map nth Rsum Nat.div2 INR pow]. unfold Q2R; cbn [Qnum Qden]. field. auto.
Qed.

(** Requests: a pair that is not stored is refused when there are too few points or an even number of them; a zero step raises. *)
Theorem C90_derivative_errors : forall extra f x0 dx n order lo up,
  (~ In (n, order) stored -> (order < n + 1)%nat \/ Nat.even order = true -> derivative extra f x0 dx n order lo up = Err ValueError) /\
  (In (n, order) stored -> derivative extra f x0 0 n order lo up = Err ZeroDivisionError).
Proof.
  intros extra f x0 dx n o lo up. split.
  - intros HI H. unfold derivative. rewrite stored_none by auto. destruct (Nat.ltb_spec o (n + 1)); [reflexivity|].
    destruct H as [H| ->]; [lia|reflexivity].
  - intros HI. destruct (stored_some _ _ HI) as (w & E). unfold derivative. rewrite E. cbn [bind].
    assert (n <> 0)%nat. { intros ->. cbn in HI. intuition congruence. }
    rewrite pow_i by lia. rewrite pdiv_0. reflexivity.
Qed.
Example C90_derivative_errors_ex : ~ In (4, 4)%nat stored /\ derivative (fun _ _ => Ok []) (fun x => Ok x) 0 1 4 4 None None = Err ValueError.
Proof. assert (H : ~ In (4, 4)%nat stored) by (cbn; intuition congruence). split; [exact H|]. apply C90_derivative_errors; auto. Qed.

(** Limits at least one and a half spans apart are respected: the function is evaluated only between them. *)
Lemma loop_ext (f f' : R -> result R) W x dx ho : forall ks tot,
  (forall k, In k ks -> f (x + (INR k - INR ho) * dx) = f' (x + (INR k - INR ho) * dx)) ->
  (fix go (ks : list nat) (tot : R) : result R :=
            match ks with [] => Ok tot | k :: ks' =>
                w <- idx W k ;;
                if negb (Reqb w 0) then v <- f (x + (INR k - INR ho) * dx) ;; go ks' (tot + w * v) else go ks' tot end) ks tot =
  (fix go (ks : list nat) (tot : R) : result R :=
            match ks with [] => Ok tot | k :: ks' =>
                w <- idx W k ;;
                if negb (Reqb w 0) then v <- f' (x + (INR k - INR ho) * dx) ;; go ks' (tot + w * v) else go ks' tot end) ks tot.
Proof.
  induction ks as [|k ks IH]; intros tot H; [reflexivity|]. destruct (idx W k) as [w|]; [|reflexivity]. cbn [bind].
  destruct (Reqb w 0); cbn [negb]; [apply IH; intros; apply H; now right|].
  rewrite (H k) by (now left). destruct (f' _); [|reflexivity]. cbn [bind]. apply IH. intros; apply H; now right.
Qed.

Theorem C90_limits_respected : forall extra f f' x0 dx n order lo up,
  0 < dx -> Nat.odd order = true -> lo <= x0 <= up -> 3 * half_span order dx <= up - lo ->
  (forall x, lo <= x <= up -> f x = f' x) ->
  derivative extra f x0 dx n order (Some lo) (Some up) = derivative extra f' x0 dx n order (Some lo) (Some up).
Proof.
  intros extra f f' x0 dx n o lo up Hdx Ho Hx Hw Hf. unfold half_span in Hw. rewrite <- div2_half in Hw. unfold derivative.
  match goal with |- bind ?w _ = _ => destruct w as [W|]; [|reflexivity] end. cbn [bind].
  destruct (pdiv 1 (dx ^ n)) as [den|]; [|reflexivity]. cbn [bind].
  apply Nat.odd_spec in Ho. destruct Ho as [m ->]. rewrite Nat.add_1_r in *. rewrite Nat.div2_succ_double in *.
  replace (S (2 * m) - 1 - m)%nat with m by lia.
  assert (Hm : 0 <= INR m * dx) by (apply Rmult_le_pos; [apply pos_INR|lra]).
  set (x1 := if Rltb up (x0 + INR m * dx) then x0 - (x0 + INR m * dx - x0) else x0).
  set (x2 := if Rltb (x1 + - INR m * dx) lo then x1 + (x1 - (x1 + - INR m * dx)) else x1).
  assert (H2 : lo <= x2 - INR m * dx /\ x2 + INR m * dx <= up).
  { unfold x2, x1. clear x1 x2. destruct (Rltb up (x0 + INR m * dx)) eqn:E1; [apply Rltb_true in E1|apply Rltb_false in E1].
    - match goal with |- context [Rltb ?p lo] => destruct (Rltb p lo) eqn:E2; [apply Rltb_true in E2|apply Rltb_false in E2] end; lra.
    - match goal with |- context [Rltb ?p lo] => destruct (Rltb p lo) eqn:E2; [apply Rltb_true in E2|apply Rltb_false in E2] end; lra. }
  rewrite (loop_ext f f'); [reflexivity|]. intros k Hk. apply in_seq in Hk. apply Hf.
  assert (INR k <= INR (2 * m)) by (apply le_INR; lia). rewrite mult_INR in H. cbn [INR] in H. pose proof (pos_INR k). nra.
Qed.
Example C90_limits_respected_ex : let hidden := fun x => if Rltb 1 x then Err ValueError else Ok (x * x) in
  derivative (fun _ _ => Ok []) hidden 1 (1 / 10) 1 3 (Some 0) (Some 1) = derivative (fun _ _ => Ok []) (fun x => Ok (x * x)) 1 (1 / 10) 1 3 (Some 0) (Some 1).
Proof.
  intros hidden. apply C90_limits_respected; try lra; [reflexivity|unfold half_span; cbn; lra|].
  intros x Hx. unfold hidden. rewrite (proj2 (Rltb_false _ _)) by lra. reflexivity.
Qed.

(** Limits that leave room for the evaluation points change nothing. *)
Theorem C90_limits_inactive : forall extra f x0 dx n order lo up,
  0 < dx -> Nat.odd order = true -> lo <= x0 - half_span order dx -> x0 + half_span order dx <= up ->
  derivative extra f x0 dx n order (Some lo) (Some up) = derivative extra f x0 dx n order None None.
Proof.
  intros extra f x0 dx n o lo up Hdx Ho H1 H2. unfold half_span in *. rewrite <- div2_half in *. unfold derivative.
  apply Nat.odd_spec in Ho. destruct Ho as [m ->]. rewrite Nat.add_1_r in *. rewrite Nat.div2_succ_double in *.
  replace (S (2 * m) - 1 - m)%nat with m by lia.
  cbv zeta. rewrite (proj2 (Rltb_false up (x0 + INR m * dx))) by lra. rewrite (proj2 (Rltb_false (x0 + - INR m * dx) lo)) by lra. reflexivity.
Qed.
Example C90_limits_inactive_ex : derivative (fun _ _ => Ok []) (fun x => Ok (1 * x * x + 0 * x + 0)) 1 (1 / 10) 1 3 (Some 0) (Some 2) = Ok (2 * 1 * 1 + 0).
Proof. rewrite C90_limits_inactive; [apply C90_derivative_quadratic; lra|lra|reflexivity| |]; unfold half_span; cbn; lra. Qed.

(** Deviation: near a limit the evaluation points are moved but the central weights are kept, so the value is the derivative
    at another point.  For x^2 at 1 (derivative 2) with upper limit 1 and step 1/10 the answer is 1.8. *)
Theorem C90_limit_shift_refuted :
  ~ (forall extra x0 dx lo up, 0 < dx -> lo <= x0 <= up -> 3 * half_span 3 dx <= up - lo ->
     derivative extra (fun x => Ok (x * x)) x0 dx 1 3 (Some lo) (Some up) = Ok (2 * x0)) /\
  derivative (fun _ _ => Ok []) (fun x => Ok (x * x)) 1 (1 / 10) 1 3 (Some 0) (Some 1) = Ok (18 / 10).
Proof.
  assert (E : derivative (fun _ _ => Ok []) (fun x => Ok (x * x)) 1 (1 / 10) 1 3 (Some 0) (Some 1) = Ok (18 / 10)).
  { transitivity (derivative (fun _ _ => Ok []) (fun x => Ok (x * x)) (9 / 10) (1 / 10) 1 3 None None).
    - unfold derivative. cbn [Nat.div2 Nat.sub INR].
      rewrite (proj2 (Rltb_true 1 (1 + 1 * (1 / 10)))) by lra. rewrite (proj2 (Rltb_false _ 0)) by lra.
      replace (1 - (1 + 1 * (1 / 10) - 1)) with (9 / 10) by lra. reflexivity.
    - erewrite (derivative_plain _ _ (fun x => x * x)); [|reflexivity|lra|reflexivity]. f_equal. cbn [map nth Rsum Nat.div2 INR pow]. unfold Q2R; cbn [Qnum Qden]. field. }
  split; [|exact E]. intros H. specialize (H (fun _ _ => Ok []) 1 (1 / 10) 0 1 ltac:(lra) ltac:(lra) ltac:(unfold half_span; cbn; lra)).
  rewrite H in E. assert (2 * 1 = 18 / 10) by congruence. lra.
Qed.

(* -- gradient -- *)
Lemma upd_same {A} (l : list A) i a b : upd (upd l i a) i b = upd l i b.
Proof. revert i; induction l as [|c l IH]; intros [|i]; cbn; auto. now rewrite IH. Qed.
Lemma upd_id (l : list R) i : (i < List.length l)%nat -> upd l i (nth i l 0) = l.
Proof. revert i; induction l as [|c l IH]; intros [|i] H; cbn in *; auto; try lia. rewrite IH by lia. reflexivity. Qed.

(** the step used in coordinate [i] *)
Definition delta (x0 : list R) (p z : R) (i : nat) : R := if Req_EM_T (nth i x0 0 * p) 0 then z else nth i x0 0 * p.
Lemma delta_step x0 p z i : step_of (nth i x0 0) p z = delta x0 p z i.
Proof. unfold step_of, delta. destruct (Req_EM_T _ _) as [E|E]; [rewrite (proj2 (Reqb_true _ _) E)|rewrite (proj2 (Reqb_false _ _) E)]; reflexivity. Qed.
Lemma delta_nz x0 p z i : z <> 0 -> delta x0 p z i <> 0.
Proof. unfold delta. destruct (Req_EM_T _ _); auto. Qed.

(** Every entry of the gradient is the difference quotient of the function along that coordinate, taken at the given point. *)
Theorem C90_jacobian_quotients : forall f g x0 p z, z <> 0 ->
  (forall x, List.length x = List.length x0 -> f x = Ok (g x)) ->
  exists J, jacobian f x0 p z None = Ok J /\ List.length J = List.length x0 /\
    forall i, (i < List.length x0)%nat -> nth i J 0 = (g (moved x0 i (delta x0 p z i)) - g x0) / delta x0 p z i.
Proof.
  intros f g x0 p z Hz Hf. set (q := fun i => (g (moved x0 i (delta x0 p z i)) - g x0) / delta x0 p z i).
  exists (map q (seq 0 (List.length x0))). split; [|split].
  - unfold jacobian. rewrite Hf by reflexivity. cbn [bind].
    assert (H : forall is, (forall i, In i is -> (i < List.length x0)%nat) ->
      (fix go (is : list nat) (x : list R) : result (list R) :=
     match is with
     | [] => Ok []
     | i :: is' =>
         x0i <- idx x0 i ;;
         let delta := step_of x0i p z in
         xi <- idx x i ;;
         let x := upd x i (xi + delta) in
         point <- f x ;;
         dy <- pdiv (point - g x0) delta ;;
         xi <- idx x i ;;
         let x := upd x i (xi - delta) in
         t <- go is' x ;; Ok (dy :: t)
     end) is x0 = Ok (map q is)).
    { induction is as [|i is IH]; intros HI; [reflexivity|]. assert (Hi : (i < List.length x0)%nat) by (apply HI; now left).
      cbn [map]. rewrite idx_ok by auto. cbn [bind]. rewrite delta_step. rewrite Hf by apply upd_length. cbn [bind]. rewrite pdiv_ok by now apply delta_nz. cbn [bind].
      rewrite idx_ok by (rewrite upd_length; auto). cbn [bind]. rewrite upd_nth_eq by auto. rewrite upd_same.
      replace (nth i x0 0 + delta x0 p z i - delta x0 p z i) with (nth i x0 0) by ring. rewrite upd_id by auto.
      cbv zeta in IH |- *. rewrite IH by (intros; apply HI; now right). reflexivity. }
    apply H. intros i Hi. apply in_seq in Hi. lia.
  - now rewrite map_length, seq_length.
  - intros i Hi. rewrite (nth_indep _ 0 (q 0%nat)) by (rewrite map_length, seq_length; auto). rewrite map_nth, seq_nth by auto. reflexivity.
Qed.

Lemma nth_moved x i d k : (i < List.length x)%nat -> nth k (moved x i d) 0 = nth k x 0 + (if Nat.eqb k i then d else 0).
Proof.
  intros H. unfold moved. destruct (Nat.eqb_spec k i) as [->|N]; [now apply upd_nth_eq|]. rewrite upd_nth_neq by auto. lra.
Qed.
Lemma moved_length x i d : List.length (moved x i d) = List.length x.
Proof. apply upd_length. Qed.

(** For an affine function the gradient is exact, whatever the point and the perturbations. *)
Theorem C90_jacobian_affine : forall c a x0 p z, z <> 0 ->
  exists J, jacobian (fun x => Ok (c + Rsum (fun i => a i * nth i x 0) (List.length x0))) x0 p z None = Ok J /\
    List.length J = List.length x0 /\ forall i, (i < List.length x0)%nat -> nth i J 0 = a i.
Proof.
  intros c a x0 p z Hz.
  destruct (C90_jacobian_quotients (fun x => Ok (c + Rsum (fun i => a i * nth i x 0) (List.length x0))) (fun x => c + Rsum (fun i => a i * nth i x 0) (List.length x0)) x0 p z Hz ltac:(reflexivity)) as (J & E & L & H).
  exists J. repeat split; auto. intros i Hi. rewrite (H i Hi). pose proof (delta_nz x0 p z i Hz) as Hd. set (d := delta x0 p z i) in *.
  rewrite (Rsum_ext _ (fun k => a k * nth k x0 0 + a k * (if Nat.eqb k i then d else 0))) by (intros k _; rewrite nth_moved by auto; ring).
  rewrite Rsum_plus, (Rsum_single (fun k => a k * (if Nat.eqb k i then d else 0)) _ i); auto.
  - rewrite Nat.eqb_refl. field. auto.
  - intros k _ N. rewrite (proj2 (Nat.eqb_neq _ _) N). ring.
Qed.
Example C90_jacobian_affine_ex : exists J, jacobian (fun x => Ok (5 + Rsum (fun i => INR (S i) * nth i x 0) 2)) [0; 3] (1 / 10) (1 / 100) None = Ok J /\ nth 0 J 0 = 1 /\ nth 1 J 0 = 2.
Proof.
  destruct (C90_jacobian_affine 5 (fun i => INR (S i)) [0; 3] (1 / 10) (1 / 100) ltac:(lra)) as (J & E & _ & H). exists J. split; [exact E|].
  rewrite !H by (cbn; lia). cbn. split; lra.
Qed.

(** In general an entry differs from the partial derivative by at most half the step times a bound on the second derivative. *)
Theorem C90_jacobian_error : forall f g x0 p z i a b M, z <> 0 ->
  (forall x, List.length x = List.length x0 -> f x = Ok (g x)) -> (i < List.length x0)%nat ->
  let d := delta x0 p z i in let phi := fun t => g (moved x0 i t) in
  a < 0 < b -> a < d < b ->
  (forall t, a < t < b -> forall k, (k <= 2)%nat -> ex_derive_n phi k t) ->
  (forall t, Rabs t <= Rabs d -> Rabs (Derive_n phi 2 t) <= M) ->
  exists J, jacobian f x0 p z None = Ok J /\ Rabs (nth i J 0 - Derive phi 0) <= M * Rabs d / 2.
Proof.
  intros f g x0 p z i a b M Hz Hf Hi d phi H0 Hdb Hd HM. destruct (C90_jacobian_quotients f g x0 p z Hz Hf) as (J & E & L & H).
  exists J. split; auto. rewrite (H i Hi). fold d. change (g (moved x0 i d)) with (phi d).
  assert (Hp0 : g x0 = phi 0) by (unfold phi, moved; rewrite Rplus_0_r, upd_id by auto; reflexivity). rewrite Hp0.
  pose proof (taylor_both phi 1 0 a b d M H0 ltac:(rewrite Rplus_0_l; auto) Hd) as T.
  assert (HT : forall t, Rabs (t - 0) <= Rabs d -> a < t < b -> Rabs (Derive_n phi 2 t) <= M) by (intros t Ht _; apply HM; now rewrite Rminus_0_r in Ht).
  specialize (T HT). rewrite Rplus_0_l in T. cbn [Rsum fact Nat.mul Nat.add pow INR] in T. rewrite !Rmult_1_r in T. cbn [Derive_n] in T.
  change (Derive (fun x => phi x) 0) with (Derive phi 0) in T.
  pose proof (delta_nz x0 p z i Hz) as Hdn. fold d in Hdn. assert (Hda : 0 < Rabs d) by now apply Rabs_pos_lt.
  replace ((phi d - phi 0) / d - Derive phi 0) with ((phi d - (0 + 1 / 1 * phi 0 + d / 1 * Derive phi 0)) / d) by (field; auto).
  unfold Rdiv at 1. rewrite Rabs_mult, Rabs_inv.
  apply Rmult_le_reg_r with (Rabs d); auto. rewrite Rmult_assoc, Rinv_l, Rmult_1_r by lra.
  eapply Rle_trans; [exact T|]. apply Req_le. lra.
Qed.

Example C90_jacobian_error_ex : exists J, jacobian (fun x => Ok (exp (nth 0 x 0))) [0] (1 / 10) (1 / 100) None = Ok J /\ Rabs (nth 0 J 0 - 1) <= 2 * (1 / 100) / 2.
Proof.
  assert (Ed : delta [0] (1 / 10) (1 / 100) 0 = 1 / 100) by (unfold delta; cbn [nth]; destruct (Req_EM_T _ _); [reflexivity|lra]).
  assert (Ef : (fun t => exp (nth 0 (moved [0] 0 t) 0)) = exp) by (apply FunctionalExtensionality.functional_extensionality; intros t; cbn; f_equal; lra).
  pose proof (C90_jacobian_error (fun x => Ok (exp (nth 0 x 0))) (fun x => exp (nth 0 x 0)) [0] (1 / 10) (1 / 100) 0 (- 1) 1 2) as H.
  cbv beta zeta in H. rewrite Ef, Ed in H. assert (D1 : Derive exp 0 = 1) by (rewrite (is_derive_unique exp 0 _ (is_derive_exp 0)); apply exp_0). rewrite D1 in H. rewrite (Rabs_pos_eq (1 / 100)) in H by lra.
  apply H; try lra; try reflexivity; [cbn; lia| |].
  - intros t _ k _. destruct k; [exact I|]. exists (exp t). exact (is_derive_n_exp (S k) t).
  - intros t Ht. rewrite (is_derive_n_unique _ _ _ _ (is_derive_n_exp 2 t)). rewrite Rabs_pos_eq by (apply Rlt_le, exp_pos). apply Rabs_le_between in Ht.
    pose proof (exp_ineq1_le (- t)). pose proof (exp_pos t). assert (exp t * exp (- t) = 1) by (rewrite <- exp_plus; replace (t + - t) with 0 by lra; apply exp_0). nra.
Qed.

(* -- second derivatives -- *)
(** Every entry of the matrix is the second difference quotient at the given point; the matrix is square and symmetric. *)
Theorem C90_hessian_quotients : forall f g x0 p z, z <> 0 ->
  (forall x, List.length x = List.length x0 -> f x = Ok (g x)) ->
  exists H, hessian_full f x0 p z None = Ok H /\ List.length H = List.length x0 /\
    forall i j, (i < List.length x0)%nat -> (j < List.length x0)%nat ->
      List.length (nth i H []) = List.length x0 /\
      nth j (nth i H []) 0 = nth i (nth j H []) 0 /\
      let di := delta x0 p z i in let dj := delta x0 p z j in
      nth j (nth i H []) 0 = (g (moved (moved x0 i di) j dj) - g (moved x0 i di) - g (moved x0 j dj) + g x0) / (di * dj).
Proof.
  intros f g x0 p z Hz Hf. set (n := List.length x0). set (dl := delta x0 p z).
  set (q := fun i j => ((g (moved (moved x0 i (dl i)) j (dl j)) + g x0) - (g (moved x0 i (dl i)) + g (moved x0 j (dl j)))) * (1 / dl j) * (1 / dl i)).
  assert (Hn : forall i, dl i <> 0) by (intros; now apply delta_nz).
  assert (Edl : map (fun v => step_of v p z) x0 = map dl (seq 0 n)).
  { rewrite (as_map x0) at 1. rewrite map_map. apply map_ext. intros i. apply delta_step. }
  assert (Hsym : forall i j, (i < n)%nat -> (j < n)%nat -> q i j = q j i).
  { intros i j Hi Hj. unfold q. destruct (Nat.eq_dec i j) as [->|N]; auto.
    replace (moved (moved x0 i (dl i)) j (dl j)) with (moved (moved x0 j (dl j)) i (dl i)); [ring|].
    apply nth_ext with 0 0; [now rewrite !moved_length|]. intros k _. rewrite !nth_moved by (rewrite ?moved_length; auto). ring. }
  assert (EH : hessian f x0 p z None = Ok (map (fun i => map (q i) (seq 0 (S i))) (seq 0 n))).
  { unfold hessian. rewrite Hf by reflexivity. cbn [bind]. rewrite Edl.
    rewrite (mapM_ok _ (fun d => 1 / d)).
    2:{ intros d Hd. apply in_map_iff in Hd. destruct Hd as (i & <- & _). now apply pdiv_ok. }
    cbn [bind]. rewrite map_map. fold n.
    rewrite (mapM_seq _ (fun i => g (moved x0 i (dl i)))).
    2:{ intros i Hi. rewrite idx_ok by auto. cbn [bind]. rewrite idx_map by auto. cbn [bind]. apply Hf. apply upd_length. }
    cbn [bind]. apply mapM_seq. intros i Hi. rewrite idx_map by auto. cbn [bind]. rewrite idx_ok by auto. cbn [bind]. rewrite !idx_map by auto. cbn [bind].
    apply mapM_seq. intros j Hj. assert (Hjn : (j < n)%nat) by lia. rewrite idx_map by auto. cbn [bind]. rewrite idx_ok by (rewrite upd_length; auto). cbn [bind]. rewrite !idx_map by auto. cbn [bind].
    rewrite Hf by (rewrite !upd_length; auto). cbn [bind]. f_equal. unfold q. do 4 f_equal.
    change (upd x0 i (nth i x0 0 + dl i)) with (moved x0 i (dl i)). unfold moved at 2 3. f_equal. f_equal.
    destruct (Nat.eqb_spec i j) as [->|N]; auto. change (upd x0 j (nth j x0 0 + dl j)) with (moved x0 j (dl j)). rewrite nth_moved by auto. rewrite Nat.eqb_refl. ring. }
  unfold hessian_full. rewrite EH. cbn [bind]. fold n.
  assert (EM : forall i j, (i < n)%nat -> (j < n)%nat -> nth (Nat.min i j) (nth (Nat.max i j) (map (fun i => map (q i) (seq 0 (S i))) (seq 0 n)) []) 0 = q i j).
  { intros i j Hi Hj.
    assert (E : forall a b, (a < n)%nat -> (b <= a)%nat -> nth b (nth a (map (fun i => map (q i) (seq 0 (S i))) (seq 0 n)) []) 0 = q a b).
    { intros a b Ha Hb. rewrite (nth_indep _ [] (map (q 0%nat) (seq 0 1))) by (rewrite map_length, seq_length; auto).
      rewrite (map_nth (fun i => map (q i) (seq 0 (S i)))), seq_nth by auto. rewrite (nth_indep _ 0 (q (0 + a)%nat 0%nat)) by (rewrite map_length, seq_length; lia).
      rewrite (map_nth (q (0 + a)%nat)), seq_nth by lia. reflexivity. }
    destruct (Nat.le_ge_cases i j).
    - rewrite Nat.min_l, Nat.max_r by lia. rewrite E by auto. now apply Hsym.
    - rewrite Nat.min_r, Nat.max_l by lia. now apply E. }
  eexists. split; [reflexivity|]. split; [now rewrite map_length, seq_length|].
  set (F := fun i j => nth (Nat.min i j) (nth (Nat.max i j) (map (fun i => map (q i) (seq 0 (S i))) (seq 0 n)) []) 0) in *.
  assert (EF : forall i, (i < n)%nat -> nth i (map (fun i => map (fun j => F i j) (seq 0 n)) (seq 0 n)) [] = map (F i) (seq 0 n)).
  { intros i Hi. rewrite (nth_indep _ [] (map (F 0%nat) (seq 0 n))) by (rewrite map_length, seq_length; auto).
    rewrite (map_nth (fun i => map (fun j => F i j) (seq 0 n))), seq_nth by auto. reflexivity. }
  assert (EE : forall i j, (i < n)%nat -> (j < n)%nat -> nth j (nth i (map (fun i => map (fun j => F i j) (seq 0 n)) (seq 0 n)) []) 0 = q i j).
  { intros i j Hi Hj. rewrite EF by auto. rewrite (nth_indep _ 0 (F i 0%nat)) by (rewrite map_length, seq_length; auto).
    rewrite (map_nth (F i)), seq_nth by auto. now apply EM. }
  intros i j Hi Hj. cbv zeta. split; [|split].
  - rewrite EF by auto. now rewrite map_length, seq_length.
  - rewrite !EE by auto. now apply Hsym.
  - rewrite EE by auto. unfold q, dl. pose proof (Hn i). pose proof (Hn j). unfold dl in *. field. auto.
Qed.

(** For a quadratic function the matrix of second derivatives is exact, whatever the point and the perturbations. *)
Theorem C90_hessian_quadratic : forall c b A x0 p z, z <> 0 ->
  let n := List.length x0 in
  let g := fun x => c + Rsum (fun i => b i * nth i x 0) n + Rsum (fun i => Rsum (fun j => A i j * nth i x 0 * nth j x 0) n) n in
  exists H, hessian_full (fun x => Ok (g x)) x0 p z None = Ok H /\
    forall i j, (i < n)%nat -> (j < n)%nat -> nth j (nth i H []) 0 = A i j + A j i.
Proof.
  intros c b A x0 p z Hz n g. destruct (C90_hessian_quotients (fun x => Ok (g x)) g x0 p z Hz ltac:(reflexivity)) as (H & E & _ & HH).
  exists H. split; auto. intros i j Hi Hj. destruct (HH i j Hi Hj) as (_ & _ & ->). clear HH E H.
  pose proof (delta_nz x0 p z i Hz) as Hdi. pose proof (delta_nz x0 p z j Hz) as Hdj.
  set (di := delta x0 p z i) in *. set (dj := delta x0 p z j) in *.
  assert (HN : g (moved (moved x0 i di) j dj) - g (moved x0 i di) - g (moved x0 j dj) + g x0 = di * dj * (A i j + A j i)); [|rewrite HN; field; auto].
  set (ei := fun k => if Nat.eqb k i then di else 0). set (ej := fun k => if Nat.eqb k j then dj else 0).
  assert (Hei : forall k, nth k (moved x0 i di) 0 = nth k x0 0 + ei k) by (intros; now apply nth_moved).
  assert (Hej : forall k, nth k (moved x0 j dj) 0 = nth k x0 0 + ej k) by (intros; now apply nth_moved).
  assert (Heij : forall k, nth k (moved (moved x0 i di) j dj) 0 = nth k x0 0 + ei k + ej k) by (intros; rewrite nth_moved by (rewrite moved_length; auto); now rewrite Hei).
  set (L := fun v : nat -> R => Rsum (fun i => b i * v i) n).
  set (Q := fun v : nat -> R => Rsum (fun i => Rsum (fun j => A i j * v i * v j) n) n).
  assert (Eg : forall x v, (forall k, nth k x 0 = v k) -> g x = c + L v + Q v).
  { intros x v Hv. unfold g, L, Q. f_equal; [f_equal|]; apply Rsum_ext; intros k _; [now rewrite Hv|]. apply Rsum_ext; intros l _. now rewrite !Hv. }
  rewrite (Eg _ _ Heij), (Eg _ _ Hei), (Eg _ _ Hej), (Eg x0 (fun k => nth k x0 0)) by reflexivity.
  assert (EL : L (fun k => nth k x0 0 + ei k + ej k) - L (fun k => nth k x0 0 + ei k) - L (fun k => nth k x0 0 + ej k) + L (fun k => nth k x0 0) = 0).
  { unfold L. rewrite <- !Rsum_minus, <- Rsum_plus. apply Rsum_zero. intros; ring. }
  assert (EQ : Q (fun k => nth k x0 0 + ei k + ej k) - Q (fun k => nth k x0 0 + ei k) - Q (fun k => nth k x0 0 + ej k) + Q (fun k => nth k x0 0) =
               Rsum (fun k => Rsum (fun l => A k l * ei k * ej l + A k l * ej k * ei l) n) n).
  { unfold Q. rewrite <- !Rsum_minus, <- Rsum_plus. apply Rsum_ext. intros k _. rewrite <- !Rsum_minus, <- Rsum_plus. apply Rsum_ext. intros l _. ring. }
  assert (ES : forall (B : nat -> nat -> R) (u w : nat -> R) a b' du dw, (a < n)%nat -> (b' < n)%nat -> (forall k, u k = if Nat.eqb k a then du else 0) -> (forall k, w k = if Nat.eqb k b' then dw else 0) ->
     Rsum (fun k => Rsum (fun l => B k l * u k * w l) n) n = B a b' * du * dw).
  { intros B u w a b' du dw Ha Hb Hu Hw. rewrite (Rsum_single _ _ a); auto.
    - rewrite (Rsum_single _ _ b'); auto; [now rewrite Hu, Hw, !Nat.eqb_refl|]. intros l _ N. rewrite (Hw l), (proj2 (Nat.eqb_neq _ _) N). ring.
    - intros k _ N. apply Rsum_zero. intros l _. rewrite (Hu k), (proj2 (Nat.eqb_neq _ _) N). ring. }
  rewrite (Rsum_ext _ (fun k => Rsum (fun l => A k l * ei k * ej l) n + Rsum (fun l => A k l * ej k * ei l) n)) in EQ by (intros; apply Rsum_plus).
  rewrite Rsum_plus, (ES A ei ej i j di dj), (ES A ej ei j i dj di) in EQ by (auto; reflexivity).
  lra.
Qed.
Example C90_hessian_quadratic_ex : exists H, hessian_full (fun x => Ok (1 + Rsum (fun i => 0 * nth i x 0) 2 + Rsum (fun i => Rsum (fun j => INR (i + 2 * j) * nth i x 0 * nth j x 0) 2) 2)) [2; 0] (1 / 10) (1 / 100) None = Ok H /\
  nth 1 (nth 0 H []) 0 = 3 /\ nth 1 (nth 1 H []) 0 = 6.
Proof.
  destruct (C90_hessian_quadratic 1 (fun _ => 0) (fun i j => INR (i + 2 * j)) [2; 0] (1 / 10) (1 / 100) ltac:(lra)) as (H & E & HH).
  exists H. split; [exact E|]. rewrite !HH by (cbn; lia). cbn. split; lra.
Qed.

Print Assumptions C90_derivative_error.
Print Assumptions C90_derivative_quadratic.
Print Assumptions C90_derivative_errors.
Print Assumptions C90_limits_respected.
Print Assumptions C90_limits_inactive.
Print Assumptions C90_limit_shift_refuted.
Print Assumptions C90_jacobian_quotients.
Print Assumptions C90_jacobian_affine.
Print Assumptions C90_jacobian_error.
Print Assumptions C90_hessian_quotients.
Print Assumptions C90_hessian_quadratic.
