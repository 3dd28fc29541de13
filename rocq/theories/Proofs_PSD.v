(** Lemmas about the discrete particle size distribution model. *)
From Coq Require Import Reals Lra Lia List Bool ZArith String.
From Coquelicot Require Import Coquelicot.
From Verif Require Import Base Sums Model_Numerics Model_Real Proofs_Real Proofs_Seq Model_PSD.
Import ListNotations.
Open Scope R_scope.

(** ** lists as functions of the index *)
Lemma psum_lsum l : psum l = lsum l.
Proof. unfold psum. rewrite fold_left_Rplus. ring. Qed.
Lemma lsum_seq f n : lsum (map f (seq 0 n)) = Rsum f n.
Proof.
  assert (G : forall s, lsum (map f (seq s n)) = Rsum (fun i => f (s + i)%nat) n).
  { induction n as [|n IH]; intros s; [reflexivity|]. cbn [seq map lsum]. rewrite IH, Rsum_head. rewrite Nat.add_0_r. f_equal.
    apply Rsum_ext. intros i _. f_equal. lia. }
  rewrite G. apply Rsum_ext. reflexivity.
Qed.
Lemma as_map (l : list R) : l = map (fun i => nth i l 0) (seq 0 (List.length l)).
Proof.
  apply (nth_ext _ _ 0 0); [now rewrite map_length, seq_length|]. intros n H.
  rewrite (nth_indep (map _ _) 0 ((fun i => nth i l 0) O)) by (rewrite map_length, seq_length; lia).
  rewrite (map_nth (fun i => nth i l 0) (seq 0 (List.length l)) O n), seq_nth by lia. f_equal.
Qed.
Lemma mapM_ok {A B} (f : A -> result B) (g : A -> B) l : (forall x, In x l -> f x = Ok (g x)) -> mapM f l = Ok (map g l).
Proof.
  induction l as [|a l IH]; intros H; [reflexivity|]. cbn [mapM map]. rewrite (H a) by (now left). cbn [bind]. rewrite IH by (intros; apply H; now right). reflexivity.
Qed.
Lemma mapM_seq {B} (f : nat -> result B) (g : nat -> B) n : (forall i, (i < n)%nat -> f i = Ok (g i)) -> mapM f (seq 0 n) = Ok (map g (seq 0 n)).
Proof. intros H. apply mapM_ok. intros x HI. apply in_seq in HI. apply H. lia. Qed.
Lemma combine_map {A B C} (f : A -> B) (g : A -> C) l : combine (map f l) (map g l) = map (fun i => (f i, g i)) l.
Proof. induction l; cbn; congruence. Qed.
Lemma idx_ok (l : list R) i : (i < List.length l)%nat -> idx l i = Ok (nth i l 0).
Proof.
  intros H. unfold idx. destruct (nth_error l i) eqn:E; [|apply nth_error_None in E; lia]. f_equal. symmetry. now apply nth_error_nth.
Qed.
Lemma idx_map {B} (f : nat -> B) n i : (i < n)%nat -> idx (map f (seq 0 n)) i = Ok (f i).
Proof.
  intros H. unfold idx. rewrite nth_error_map. destruct (nth_error (seq 0 n) i) eqn:E; [|apply nth_error_None in E; rewrite seq_length in E; lia].
  cbn [option_map]. apply (nth_error_nth _ _ O) in E. rewrite seq_nth in E by lia. subst. reflexivity.
Qed.
Lemma nth_map_seq (f : nat -> R) n i : (i < n)%nat -> nth i (map f (seq 0 n)) 0 = f i.
Proof. intros H. pose proof (idx_map f n i H) as E. rewrite idx_ok in E by (rewrite map_length, seq_length; auto). congruence. Qed.
Lemma map_seq_ext (f g : nat -> R) n : (forall i, (i < n)%nat -> f i = g i) -> map f (seq 0 n) = map g (seq 0 n).
Proof. intros H. apply map_ext_in. intros a HI. apply in_seq in HI. apply H. lia. Qed.
Lemma Rsum_pos f n : (forall i, (i < n)%nat -> 0 <= f i) -> (exists i, (i < n)%nat /\ 0 < f i) -> 0 < Rsum f n.
Proof.
  induction n as [|n IH]; intros H (i & L & P); [lia|]. cbn [Rsum].
  assert (0 <= Rsum f n) by (apply Rsum_nonneg; intros; apply H; lia). assert (0 <= f n) by (apply H; lia).
  destruct (Nat.eq_dec i n) as [->|]; [lra|]. assert (0 < Rsum f n); [apply IH; [intros; apply H; lia|exists i; split; [lia|auto]]|lra].
Qed.

(** shares: the weights divided by their total *)
Definition share (w : nat -> R) (N : nat) (i : nat) : R := w i / Rsum w N.
Lemma share_sum w N : Rsum w N <> 0 -> Rsum (share w N) N = 1.
Proof. intros H. unfold share. rewrite (Rsum_ext _ (fun i => w i * / Rsum w N)) by (intros; reflexivity). rewrite Rsum_scal_r. now apply Rinv_r. Qed.
Lemma share_ext u w N : (forall i, (i < N)%nat -> u i = w i) -> forall i, (i < N)%nat -> share u N i = share w N i.
Proof. intros H i L. unfold share. rewrite (H i L), (Rsum_ext u w N H). reflexivity. Qed.
Lemma share_scale c u w N : c <> 0 -> (forall i, (i < N)%nat -> u i = c * w i) -> forall i, (i < N)%nat -> share u N i = share w N i.
Proof.
  intros Hc H i L. unfold share. rewrite (H i L), (Rsum_ext u (fun j => c * w j) N H), Rsum_scal.
  destruct (Req_dec (Rsum w N) 0) as [->|]; [rewrite Rmult_0_r; unfold Rdiv; rewrite Rinv_0; ring|field; auto].
Qed.

(** one set of fractions *)
Lemma per_power_eval sc ds N (w : nat -> R) p (D : nat -> R) : (forall i, (i < N)%nat -> di_power sc ds i p = Ok (D i)) ->
  (forall i, (i < N)%nat -> 0 < D i) -> 0 < Rsum (fun i => w i / D i) N ->
  per_power sc ds N (map w (seq 0 N)) p = Ok (map (share (fun i => w i / D i) N) (seq 0 N)).
Proof.
  intros HD HP HS. unfold per_power. rewrite (mapM_seq _ D) by auto. cbn [bind]. rewrite combine_map.
  rewrite (mapM_ok _ (fun vp : R * R => fst vp / snd vp)).
  2:{ intros x HI. apply in_map_iff in HI. destruct HI as (i & <- & HI). apply in_seq in HI. cbn. apply pdiv_ok. specialize (HP i ltac:(lia)). lra. }
  cbn [bind]. rewrite map_map. cbn [fst snd]. rewrite (mapM_ok _ (fun i => i / psum (map (fun x => w x / D x) (seq 0 N)))).
  2:{ intros x _. apply pdiv_ok. rewrite psum_lsum, lsum_seq. lra. }
  rewrite map_map, psum_lsum, lsum_seq. reflexivity.
Qed.

(** the whole constructor, given the powers of the representative diameters *)
Section init.
Context (ds fr : list R) (order : R) (D : nat -> R -> R).
Let N := List.length fr.
Let sc := Nat.eqb (List.length ds) (S N).
Context (Hds : ds <> []) (HN : fr <> []).
Context (HD : forall i p, (i < N)%nat -> In p [1; 2; 3; 3 - order] -> di_power sc ds i p = Ok (D i p) /\ 0 < D i p).
Context (Hf : forall i, (i < N)%nat -> 0 <= nth i fr 0) (Hs : exists i, (i < N)%nat /\ 0 < nth i fr 0).
(** the volume weight of class [i] *)
Definition vol_weight (i : nat) : R := nth i fr 0 * (if Reqb order 3 then 1 else D i (3 - order)).
Lemma HDp i p : (i < N)%nat -> In p [1; 2; 3; 3 - order] -> 0 < D i p. Proof. intros. apply HD; auto. Qed.
Lemma fr_total : 0 < psum fr.
Proof. rewrite psum_lsum. rewrite (as_map fr). rewrite lsum_seq. now apply Rsum_pos. Qed.
Lemma vol_nonneg i : (i < N)%nat -> 0 <= vol_weight i.
Proof.
  intros L. unfold vol_weight. apply Rmult_le_pos; [auto|]. destruct (Reqb order 3); [lra|]. left. apply HDp; [auto|cbn; tauto].
Qed.
Lemma vol_some : exists i, (i < N)%nat /\ 0 < vol_weight i.
Proof.
  destruct Hs as (i & L & P). exists i. split; auto. unfold vol_weight. apply Rmult_lt_0_compat; auto. destruct (Reqb order 3); [lra|]. apply HDp; [auto|cbn; tauto].
Qed.
Lemma vol_total : 0 < Rsum vol_weight N. Proof. apply Rsum_pos; [exact vol_nonneg|exact vol_some]. Qed.
Lemma share_nonneg w : (forall i, (i < N)%nat -> 0 <= w i) -> 0 < Rsum w N -> forall i, (i < N)%nat -> 0 <= share w N i.
Proof. intros H T i L. unfold share. apply Rdiv_le_0_compat; auto. Qed.
Lemma over_D p : In p [1; 2; 3; 3 - order] -> 0 < Rsum (fun i => share vol_weight N i / D i p) N.
Proof.
  intros HI. apply Rsum_pos.
  - intros i L. apply Rdiv_le_0_compat; [apply share_nonneg; auto; [exact vol_nonneg|exact vol_total]|apply HDp; auto].
  - destruct vol_some as (i & L & P). exists i. split; auto. apply Rdiv_lt_0_compat; [|apply HDp; auto]. unfold share. apply Rdiv_lt_0_compat; [auto|exact vol_total].
Qed.
Lemma over_share p i : In p [1; 2; 3; 3 - order] -> (i < N)%nat ->
  share (fun i => share vol_weight N i / D i p) N i = share (fun i => vol_weight i / D i p) N i.
Proof.
  intros HI L. apply (share_scale (/ Rsum vol_weight N)); auto; [apply Rinv_neq_0_compat; pose proof vol_total; lra|].
  intros j Lj. unfold share. pose proof vol_total. pose proof (HDp j p Lj HI). field. split; lra.
Qed.
Definition result_psd : psd :=
  let vol := map (share vol_weight N) (seq 0 N) in
  let set p := map (share (fun i => vol_weight i / D i p) N) (seq 0 N) in
  let cs l := match l with [] => [] | b :: t => b :: cumsum_acc b t end in
  {| p_ds := ds; p_classes := sc; p_N := N; p_fractions := vol; p_number := set 3; p_length := set 2; p_area := set 1;
     p_volume_cdf := cs vol; p_area_cdf := cs (set 1); p_length_cdf := cs (set 2); p_number_cdf := cs (set 3) |}.
Lemma psd_init_eval : psd_init ds fr false order = Ok result_psd.
Proof.
  unfold psd_init. fold N. change (Nat.eqb (List.length ds) (S N)) with sc. pose proof fr_total as T. cbv zeta.
  assert (TT : psum fr = Rsum (fun i => nth i fr 0) N). { rewrite psum_lsum. rewrite (as_map fr) at 1. apply lsum_seq. }
  assert (E1 : (if negb (Reqb (psum fr) 1) then tot_inv <- pdiv 1 (psum fr) ;; Ok (map (fun i => if negb (Reqb i 0) then i * tot_inv else 0) fr) else Ok fr)
    = Ok (map (share (fun i => nth i fr 0) N) (seq 0 N))).
  { assert (Q : map (fun i => i / psum fr) fr = map (share (fun i => nth i fr 0) N) (seq 0 N)).
    { rewrite TT. unfold share. generalize (Rsum (fun i => nth i fr 0) N). intros t. rewrite (as_map fr) at 1. now rewrite map_map. }
    rewrite <- Q. destruct (Reqb (psum fr) 1) eqn:E.
    - apply Reqb_true in E. cbn [negb]. f_equal. rewrite E. rewrite (map_ext _ (fun x => x)) by (intros; field). now rewrite map_id.
    - cbn [negb]. rewrite pdiv_ok by lra. cbn [bind]. f_equal. apply map_ext. intros a. destruct (Reqb a 0) eqn:Z; cbn [negb].
      + apply Reqb_true in Z. subst. field. lra.
      + field. lra. }
  rewrite E1. cbn [bind]. rewrite map_length, seq_length.
  assert (E2 : (if negb (Reqb order 3) then
      d3s <- mapM (fun i => d <- di_power sc ds i (3 - order) ;; f <- idx (map (share (fun i => nth i fr 0) N) (seq 0 N)) i ;; Ok (d * f)) (seq 0 N) ;;
      mapM (fun i => pdiv i (psum d3s)) d3s
    else Ok (map (share (fun i => nth i fr 0) N) (seq 0 N))) = Ok (map (share vol_weight N) (seq 0 N))).
  { destruct (Reqb order 3) eqn:E; cbn [negb].
    - f_equal. apply map_seq_ext. intros i L. apply share_ext; auto. intros j Lj. unfold vol_weight. rewrite E. ring.
    - rewrite (mapM_seq _ (fun i => D i (3 - order) * share (fun i => nth i fr 0) N i)).
      2:{ intros i L. rewrite (proj1 (HD i (3 - order) L ltac:(cbn; tauto))). cbn [bind]. rewrite idx_map by auto. reflexivity. }
      cbn [bind]. set (u := fun i => D i (3 - order) * share (fun i => nth i fr 0) N i).
      assert (U : forall i, (i < N)%nat -> u i = / psum fr * vol_weight i).
      { intros i L. unfold u, share, vol_weight. rewrite E, TT. unfold Rdiv. ring. }
      assert (U2 : Rsum u N = / psum fr * Rsum vol_weight N) by (rewrite <- Rsum_scal; apply Rsum_ext; exact U).
      rewrite (mapM_ok _ (fun i => i / psum (map u (seq 0 N)))).
      + f_equal. rewrite map_map. apply map_seq_ext. intros i L. rewrite psum_lsum, lsum_seq. apply (share_scale (/ psum fr)); auto. apply Rinv_neq_0_compat. lra.
      + intros x _. apply pdiv_ok. rewrite psum_lsum, lsum_seq, U2. pose proof vol_total. apply Rgt_not_eq. apply Rmult_lt_0_compat; [apply Rinv_0_lt_compat; auto|auto]. }
  rewrite E2. cbn [bind].
  assert (PP : forall p, In p [1; 2; 3; 3 - order] -> per_power sc ds N (map (share vol_weight N) (seq 0 N)) p = Ok (map (share (fun i => vol_weight i / D i p) N) (seq 0 N))).
  { intros p HI. rewrite (per_power_eval sc ds N (share vol_weight N) p (fun i => D i p)).
    - f_equal. apply map_seq_ext. intros i L. now apply over_share.
    - intros i L. apply HD; auto.
    - intros i L. apply HD; auto.
    - now apply over_D. }
  rewrite !PP by (cbn; tauto). cbn [bind].
  assert (NN : (0 < N)%nat). { unfold N. destruct fr; [congruence|cbn; lia]. }
  assert (CS : forall f : nat -> R, cumsum (map f (seq 0 N)) = Ok (match map f (seq 0 N) with [] => [] | b :: t => b :: cumsum_acc b t end)).
  { intros f. destruct N; [lia|]. reflexivity. }
  assert (NE : forall l : list R, l <> [] -> match l with [] => Err IndexError | _ :: _ => Ok tt end = Ok tt) by (intros [|]; congruence).
  rewrite (NE ds Hds), !CS. reflexivity.
Qed.
End init.
