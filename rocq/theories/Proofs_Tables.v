(** Proofs about the table lookups. *)
From Coq Require Import String List Bool QArith Qreals Qround Reals R_Ifp ZArith Arith Lra Lia Psatz.
From Verif Require Import Base Sums Model_Numerics Model_Splines Proofs_Numerics Proofs_Splines Data_Piping Data_Pump Data_Safety Model_Tables Spec_Tables.
Import ListNotations.
Local Open Scope R_scope.

(** ** from checks on rationals to statements on reals *)
Fixpoint Qincr (l : list Q) : bool :=
  match l with a :: ((b :: _) as r) => Qltb a b && Qincr r | _ => true end.
Fixpoint Qnondecr (l : list Q) : bool :=
  match l with a :: ((b :: _) as r) => Qle_bool a b && Qnondecr r | _ => true end.
Lemma Qltb_lt a b : Qltb a b = true <-> (a < b)%Q.
Proof. unfold Qltb. rewrite Qlt_alt. destruct (a ?= b)%Q; split; intros; auto; discriminate. Qed.
Lemma Qltb_R a b : Qltb a b = Rltb (Q2R a) (Q2R b).
Proof.
  destruct (Qltb a b) eqn:E; symmetry.
  - apply Qltb_lt in E. apply Rltb_true. now apply Qlt_Rlt.
  - apply Rltb_false. destruct (Rle_dec (Q2R b) (Q2R a)) as [|Hn]; [auto|]. exfalso.
    assert (a < b)%Q by (apply Rlt_Qlt; lra). apply Qltb_lt in H. congruence.
Qed.
Lemma Qle_R a b : Qle_bool a b = Rleb (Q2R a) (Q2R b).
Proof.
  destruct (Qle_bool a b) eqn:E; symmetry.
  - apply Qle_bool_iff in E. apply Rleb_true. now apply Qle_Rle.
  - apply Rleb_false. destruct (Rlt_dec (Q2R b) (Q2R a)) as [|Hn]; [auto|]. exfalso.
    assert (a <= b)%Q by (apply Rle_Qle; lra). apply Qle_bool_iff in H. congruence.
Qed.
Lemma Qeq_R a b : Qeq_bool a b = Reqb (Q2R a) (Q2R b).
Proof.
  destruct (Qeq_bool a b) eqn:E; symmetry.
  - apply Qeq_bool_iff in E. apply Reqb_true. now apply Qeq_eqR.
  - apply Reqb_false. intros H. apply eqR_Qeq in H. apply Qeq_bool_iff in H. congruence.
Qed.
Lemma Qlt_lit a b : Qltb a b = true -> Q2R a < Q2R b.
Proof. rewrite Qltb_R. apply Rltb_true. Qed.
Lemma Qle_lit a b : Qle_bool a b = true -> Q2R a <= Q2R b.
Proof. rewrite Qle_R. apply Rleb_true. Qed.
Lemma Qeq_lit a b : Qeq_bool a b = true -> Q2R a = Q2R b.
Proof. rewrite Qeq_R. apply Reqb_true. Qed.
Lemma at_map (l : list Q) i : (i < List.length l)%nat -> at_ (map Q2R l) i = Q2R (nth i l 0%Q).
Proof. intros H. unfold at_. rewrite (nth_indep _ 0 (Q2R 0)) by (rewrite map_length; auto). apply map_nth. Qed.
Lemma Qincr_ok l : Qincr l = true -> increasing (map Q2R l).
Proof.
  intros H. assert (K : forall i, (S i < List.length l)%nat -> (nth i l 0 < nth (S i) l 0)%Q).
  { revert H. induction l as [|a [|b l] IH]; intros H i Hi; simpl in Hi; try lia.
    cbn [Qincr] in H. apply andb_prop in H. destruct H as [H1 H2]. destruct i; [now apply Qltb_lt|].
    apply (IH H2 i). simpl. lia. }
  intros i j Hij Hj. rewrite map_length in Hj. rewrite !at_map by lia. apply Qlt_Rlt.
  induction j; [lia|]. destruct (Nat.eq_dec i j) as [->|]; [apply K; lia|].
  apply Qlt_trans with (nth j l 0)%Q; [apply IHj; lia|apply K; lia].
Qed.
Lemma Qnondecr_ok l : Qnondecr l = true -> nondecreasing (map Q2R l).
Proof.
  intros H. assert (K : forall i, (S i < List.length l)%nat -> (nth i l 0 <= nth (S i) l 0)%Q).
  { revert H. induction l as [|a [|b l] IH]; intros H i Hi; simpl in Hi; try lia.
    cbn [Qnondecr] in H. apply andb_prop in H. destruct H as [H1 H2]. destruct i; [now apply Qle_bool_iff|].
    apply (IH H2 i). simpl. lia. }
  intros i j Hij Hj. rewrite map_length in Hj. rewrite !at_map by lia. apply Qle_Rle.
  induction j; [assert (i = 0%nat) as -> by lia; apply Qle_refl|]. destruct (Nat.eq_dec i (S j)) as [->|]; [apply Qle_refl|].
  apply Qle_trans with (nth j l 0)%Q; [apply IHj; lia|apply K; lia].
Qed.
Lemma tbl_R l : @tbl R _ l = map Q2R l. Proof. reflexivity. Qed.
Lemma tbl_len l : List.length (@tbl R _ l) = List.length l. Proof. apply map_length. Qed.

(** ** rounding *)
Lemma Int_part_Q q : Int_part (Q2R q) = Qfloor q.
Proof.
  pose proof (base_Int_part (Q2R q)) as [B1 B2]. pose proof (Qfloor_le q) as H1. pose proof (Qlt_floor q) as H2.
  apply Qle_Rle in H1. apply Qlt_Rlt in H2. rewrite Q2R_Z in *. rewrite plus_IZR in H2.
  assert (Int_part (Q2R q) < Qfloor q + 1)%Z by (apply lt_IZR; rewrite plus_IZR; lra).
  assert (Qfloor q < Int_part (Q2R q) + 1)%Z by (apply lt_IZR; rewrite plus_IZR; lra). lia.
Qed.
Lemma rint_Q q : @rint R _ (Q2R q) = @rint Q _ q.
Proof.
  unfold rint, RintR, RintQ. rewrite Int_part_Q. cbv zeta.
  assert (H2 : (1/2)%R = Q2R (1#2)) by (unfold Q2R; simpl; lra).
  assert (Hd : Q2R q - IZR (Qfloor q) = Q2R (q - inject_Z (Qfloor q))) by (rewrite Q2R_minus, Q2R_Z; reflexivity).
  rewrite Hd, H2, <- !Qltb_R. reflexivity.
Qed.
Lemma rint_spec x : Rabs (IZR (rint x) - x) <= 1/2 /\ (Rabs (IZR (rint x) - x) = 1/2 -> Z.even (rint x) = true).
Proof.
  unfold rint, RintR. cbv zeta. pose proof (base_Int_part x) as [B1 B2].
  set (f := Int_part x) in *. set (d := x - IZR f). assert (Hd : 0 <= d < 1) by (unfold d; lra).
  unfold rint_from. destruct (Rltb d (1/2)) eqn:E1.
  - apply Rltb_true in E1. replace (IZR f - x) with (- d) by (unfold d; lra). rewrite Rabs_Ropp, Rabs_right by lra. split; lra.
  - apply Rltb_false in E1. destruct (Rltb (1/2) d) eqn:E2.
    + apply Rltb_true in E2. rewrite plus_IZR. replace (IZR f + 1 - x) with (1 - d) by (unfold d; lra). rewrite Rabs_right by lra. split; lra.
    + apply Rltb_false in E2. assert (d = 1/2) by lra. destruct (Z.even f) eqn:E3.
      * split; auto. replace (IZR f - x) with (- d) by (unfold d; lra). rewrite Rabs_Ropp, Rabs_right; lra.
      * rewrite Z.even_add, E3. split; auto. rewrite plus_IZR. replace (IZR f + 1 - x) with (1 - d) by (unfold d; lra). rewrite Rabs_right; lra.
Qed.
Lemma rint_unique x z : Rabs (IZR z - x) < 1/2 -> rint x = z.
Proof.
  intros H. destruct (rint_spec x) as [H1 _]. assert (Rabs (IZR (rint x) - IZR z) < 1).
  { replace (IZR (rint x) - IZR z) with ((IZR (rint x) - x) - (IZR z - x)) by lra. eapply Rle_lt_trans; [apply Rabs_triang|]. rewrite Rabs_Ropp. lra. }
  rewrite <- minus_IZR in H0. assert (Z.abs (rint x - z) < 1)%Z by (apply lt_IZR; rewrite abs_IZR; lra). lia.
Qed.
Lemma rint_Z z : rint (IZR z) = z.
Proof. apply rint_unique. rewrite Rminus_diag_eq, Rabs_R0 by reflexivity. lra. Qed.
Lemma rint_mono x y : x <= y -> (rint x <= rint y)%Z.
Proof.
  intros H. destruct (Z_le_gt_dec (rint x) (rint y)) as [|Hg]; [auto|]. exfalso.
  destruct (rint_spec x) as [X1 X2]. destruct (rint_spec y) as [Y1 Y2].
  assert (Hz : IZR (rint y) + 1 <= IZR (rint x)) by (rewrite <- plus_IZR; apply IZR_le; lia).
  assert (AB : forall a b, Rabs a <= b -> - b <= a <= b).
  { intros a b Hab. pose proof (Rle_abs a). pose proof (Rle_abs (- a)). rewrite Rabs_Ropp in *. lra. }
  apply AB in X1 as X1'. apply AB in Y1 as Y1'.
  assert (x = y) by lra. subst y. lra.
Qed.
Lemma pyround_R x n : @pyround R _ _ x n = IZR (rint (x * IZR (10 ^ Z.of_nat n))) / IZR (10 ^ Z.of_nat n).
Proof.
  unfold pyround. cbv zeta. numR. assert (0 < 10 ^ Z.of_nat n)%Z by (apply Z.pow_pos_nonneg; lia).
  rewrite Q2R_div, !Q2R_Z; [reflexivity|]. intros E. apply Qeq_bool_iff in E. unfold Qeq_bool in E. simpl in E. destruct (10 ^ Z.of_nat n)%Z; simpl in *; try lia; discriminate.
Qed.
Lemma pyround_mono x y n : x <= y -> @pyround R _ _ x n <= pyround y n.
Proof.
  intros H. rewrite !pyround_R. assert (0 < IZR (10 ^ Z.of_nat n)) by (apply IZR_lt, Z.pow_pos_nonneg; lia).
  apply Rmult_le_compat_r; [apply Rlt_le, Rinv_0_lt_compat; auto|]. apply IZR_le, rint_mono. apply Rmult_le_compat_r; lra.
Qed.
Lemma pyround_near x n : Rabs (@pyround R _ _ x n - x) <= 1/2 / 10 ^ n.
Proof.
  rewrite pyround_R. assert (P : 0 < 10 ^ n) by (apply pow_lt; lra).
  assert (IZR (10 ^ Z.of_nat n) = 10 ^ n) as ->.
  { rewrite <- (pow_IZR 10 n). reflexivity. }
  destruct (rint_spec (x * 10 ^ n)) as [H _]. set (r := IZR (rint _)) in *.
  replace (r / 10 ^ n - x) with ((r - x * 10 ^ n) / 10 ^ n) by (field; lra).
  unfold Rdiv. rewrite Rabs_mult, (Rabs_right (/ _)) by (apply Rle_ge, Rlt_le, Rinv_0_lt_compat; auto).
  apply Rmult_le_compat_r; [apply Rlt_le, Rinv_0_lt_compat; auto|auto].
Qed.
Lemma pyround_exact z n : @pyround R _ _ (IZR z / 10 ^ n) n = IZR z / 10 ^ n.
Proof.
  rewrite pyround_R. assert (P : 0 < 10 ^ n) by (apply pow_lt; lra).
  assert (IZR (10 ^ Z.of_nat n) = 10 ^ n) as -> by (rewrite <- (pow_IZR 10 n); reflexivity).
  replace (IZR z / 10 ^ n * 10 ^ n) with (IZR z) by (field; lra). now rewrite rint_Z.
Qed.

(** ** scanning an increasing list *)
Lemma first_at_least_spec l x : increasing l ->
  match @first_at_least R _ x l with
  | Ok v => In v l /\ x <= v /\ (forall w, In w l -> x <= w -> v <= w)
  | Err e => e = ValueError /\ forall w, In w l -> w < x
  end.
Proof.
  induction l as [|a l IH]; intros H; cbn [first_at_least]; [split; [auto|intros w []]|]. numR.
  assert (Hl : increasing l). { intros i j Hij Hj. apply (H (S i) (S j)); simpl; lia. }
  assert (Ha : forall w, In w l -> a < w).
  { intros w Hw. apply (In_nth _ _ 0) in Hw. destruct Hw as (k & Hk & <-). apply (H 0%nat (S k)); simpl; lia. }
  destruct (Rleb x a) eqn:E.
  - apply Rleb_true in E. splits; [now left|auto|]. intros w [->|Hw] _; [lra|]. apply Rlt_le; auto.
  - apply Rleb_false in E. specialize (IH Hl). destruct (first_at_least x l).
    + destruct IH as (I1 & I2 & I3). splits; [now right|auto|]. intros w [->|Hw] Hx; [lra|auto].
    + destruct IH as (I1 & I2). split; auto. intros w [->|Hw]; auto.
Qed.
Lemma increasing_scale l c : 0 < c -> increasing l -> increasing (map (fun x => x * c) l).
Proof.
  intros Hc H i j Hij Hj. rewrite map_length in Hj. unfold at_. set (g := fun x => x * c).
  assert (G : g 0 = 0) by (unfold g; lra). rewrite <- G, !(map_nth g). unfold g. apply Rmult_lt_compat_r; auto. apply (H i j); auto.
Qed.
Lemma D_scan_spec x keys N I O T : List.length N = List.length keys -> List.length I = List.length keys -> List.length O = List.length keys ->
  List.length T = List.length keys -> increasing keys -> (0 < List.length keys)%nat ->
  (at_ keys (List.length keys - 1) < x /\ D_scan x keys N I O T (seq 0 (List.length keys)) = Err ValueError) \/
  (exists i, (i < List.length keys)%nat /\ x <= at_ keys i /\ (forall j, (j < i)%nat -> at_ keys j < x) /\
     D_scan x keys N I O T (seq 0 (List.length keys)) = Ok (at_ N i, at_ I i, at_ O i, at_ T i)).
Proof.
  intros HN HI HO HT Hk H0.
  assert (G : forall n i, (i + n = List.length keys)%nat -> (0 < n)%nat -> (forall j, (j < i)%nat -> at_ keys j < x) ->
    (at_ keys (List.length keys - 1) < x /\ D_scan x keys N I O T (seq i n) = Err ValueError) \/
    (exists i', (i' < List.length keys)%nat /\ x <= at_ keys i' /\ (forall j, (j < i')%nat -> at_ keys j < x) /\
     D_scan x keys N I O T (seq i n) = Ok (at_ N i', at_ I i', at_ O i', at_ T i'))).
  { induction n; intros i Hi Hn Hb; [lia|]. cbn [seq D_scan]. rewrite last_of_at by lia. cbn [bind]. numR.
    destruct (Rltb (at_ keys (List.length keys - 1)) x) eqn:E.
    - apply Rltb_true in E. left; auto.
    - apply Rltb_false in E. rewrite idx_at by lia. cbn [bind]. destruct (Rleb x (at_ keys i)) eqn:E2.
      + apply Rleb_true in E2. right. exists i. splits; auto; [lia|]. rewrite !idx_at by lia. reflexivity.
      + apply Rleb_false in E2. destruct n.
        * replace (List.length keys - 1)%nat with i in E by lia. lra.
        * destruct (IHn (S i)) as [[Q _]|(i' & Q1 & Q2 & Q3 & Q4)]; try lia.
          { intros j Hj. destruct (Nat.eq_dec j i) as [->|]; [lra|]. apply Hb. lia. }
          { lra. }
          right. exists i'. splits; auto. }
  apply G; auto. intros j Hj; lia.
Qed.
Lemma NPS_scan_spec x N I O T : List.length I = List.length N -> List.length O = List.length N -> List.length T = List.length N ->
  ((forall i, (i < List.length N)%nat -> at_ N i <> x) /\ NPS_scan x N I O T (seq 0 (List.length N)) = Err ValueError) \/
  (exists i, (i < List.length N)%nat /\ at_ N i = x /\ NPS_scan x N I O T (seq 0 (List.length N)) = Ok (at_ N i, at_ I i, at_ O i, at_ T i)).
Proof.
  intros HI HO HT.
  assert (G : forall n i, (i + n = List.length N)%nat -> (forall j, (j < i)%nat -> at_ N j <> x) ->
    ((forall i, (i < List.length N)%nat -> at_ N i <> x) /\ NPS_scan x N I O T (seq i n) = Err ValueError) \/
    (exists i', (i' < List.length N)%nat /\ at_ N i' = x /\ NPS_scan x N I O T (seq i n) = Ok (at_ N i', at_ I i', at_ O i', at_ T i'))).
  { induction n; intros i Hi Hb; cbn [seq NPS_scan].
    - left. split; auto. intros j Hj. apply Hb. lia.
    - rewrite idx_at by lia. cbn [bind]. numR. destruct (Reqb (at_ N i) x) eqn:E.
      + apply Reqb_true in E. right. exists i. splits; auto; [lia|]. rewrite !idx_at by lia. reflexivity.
      + apply Reqb_false in E. apply IHn; [lia|]. intros j Hj. destruct (Nat.eq_dec j i) as [->|]; auto. apply Hb. lia. }
  apply G; auto. intros j Hj; lia.
Qed.
Lemma assoc_str_in {B} k (l : list (string * B)) b : assoc_str k l = Some b -> In (k, b) l.
Proof.
  induction l as [|[k' b'] l IH]; cbn [assoc_str]; [discriminate|]. destruct (String.eqb_spec k k') as [->|]; intros H.
  - injection H as ->. now left.
  - right. auto.
Qed.

(** ** pipe schedules *)
Definition sched_ok (e : string * (list Q * list Q * list Q * list Q)) : bool :=
  let '(_, (N, I', O', T)) := e in
  let n := List.length N in
  Nat.ltb 0 n && Nat.eqb (List.length I') n && Nat.eqb (List.length O') n && Nat.eqb (List.length T) n
  && Qincr N && Qincr I' && Qincr O'
  && forallb (fun j => Qeq_bool (nth j O' 0) (nth j I' 0 + 2 * nth j T 0) && Qltb 0 (nth j T 0) && Qltb 0 (nth j I' 0) && Qltb 0 (nth j N 0))%Q (seq 0 n).
Lemma all_sched_ok : forallb sched_ok schedule_lookup = true.
Proof. vm_compute. reflexivity. Qed.
Lemma sched_facts s N I O T : assoc_str s schedule_lookup = Some (N, I, O, T) ->
  (0 < List.length N)%nat /\ List.length I = List.length N /\ List.length O = List.length N /\ List.length T = List.length N /\
  increasing (map Q2R N) /\ increasing (map Q2R I) /\ increasing (map Q2R O) /\
  (forall j, (j < List.length N)%nat -> Q2R (nth j O 0%Q) = Q2R (nth j I 0%Q) + 2 * Q2R (nth j T 0%Q) /\ 0 < Q2R (nth j T 0%Q) /\ 0 < Q2R (nth j I 0%Q) /\ 0 < Q2R (nth j N 0%Q)).
Proof.
  intros H. apply assoc_str_in in H. pose proof all_sched_ok as K. rewrite forallb_forall in K. specialize (K _ H). cbn [sched_ok] in K. cbv zeta in K.
  repeat (apply andb_prop in K; destruct K as [K ?]). rewrite !Nat.eqb_eq, Nat.ltb_lt in *. splits; auto using Qincr_ok.
  intros j Hj. rewrite forallb_forall in H0. specialize (H0 j). rewrite in_seq in H0. specialize (H0 ltac:(lia)).
  repeat (apply andb_prop in H0; destruct H0 as [H0 ?]).
  apply Qeq_lit in H0. rewrite Q2R_plus, Q2R_mult in H0. change (Q2R 2) with (Q2R (inject_Z 2)) in H0. rewrite Q2R_Z in H0.
  repeat match goal with h : Qltb 0 _ = true |- _ => apply Qlt_lit in h; rewrite Q2R_0 in h end. splits; auto.
Qed.
Definition size_at (N I O T : list Q) (j : nat) : pipe :=
  (Q2R (nth j N 0%Q), Q2R (nth j I 0%Q) / 1000, Q2R (nth j O 0%Q) / 1000, Q2R (nth j T 0%Q) / 1000).
Lemma in_sizes s N I O T p : assoc_str s schedule_lookup = Some (N, I, O, T) ->
  (In p (sizes s) <-> exists j, (j < List.length N)%nat /\ p = size_at N I O T j).
Proof.
  intros H. unfold sizes. rewrite H. rewrite in_map_iff. split.
  - intros (j & <- & Hj). apply in_seq in Hj. exists j. split; [lia|reflexivity].
  - intros (j & Hj & ->). exists j. split; [reflexivity|apply in_seq; lia].
Qed.
Lemma k3 : Q2R 1000 = 1000. Proof. change 1000%Q with (inject_Z 1000). apply Q2R_Z. Qed.
Lemma m3 : Q2R (1 # 1000) = / 1000. Proof. unfold Q2R; simpl; lra. Qed.
Lemma nearest_pipe_Di Do Di NPS s N I O T : assoc_str (schedule_name s) schedule_lookup = Some (N, I, O, T) ->
  (at_ (map Q2R I) (List.length N - 1) < Di * 1000 /\ @nearest_pipe R _ Do (Some Di) NPS s = Err ValueError) \/
  (exists j, (j < List.length N)%nat /\ Di * 1000 <= at_ (map Q2R I) j /\ (forall i, (i < j)%nat -> at_ (map Q2R I) i < Di * 1000) /\
     @nearest_pipe R _ Do (Some Di) NPS s = Ok (size_at N I O T j)).
Proof.
  intros H. destruct (sched_facts _ _ _ _ _ H) as (H0 & LI & LO & LT & SN & SI & SO & G).
  unfold nearest_pipe. rewrite H. unfold Di_lookup. numR. rewrite k3, m3. cbv zeta.
  destruct (D_scan_spec (Di * 1000) (map Q2R I) (map Q2R N) (map Q2R I) (map Q2R O) (map Q2R T)) as [[A B]|(j & A & B & C & D)];
    rewrite ?map_length in *; try lia; auto.
  - left. rewrite LI in A. split; auto. rewrite tbl_len, LI. rewrite LI in B. rewrite !tbl_R, B. reflexivity.
  - right. exists j. splits; auto; [lia|]. rewrite tbl_len, !tbl_R, D. cbn [bind]. rewrite !at_map by lia. reflexivity.
Qed.
Lemma nearest_pipe_Do Do NPS s N I O T : assoc_str (schedule_name s) schedule_lookup = Some (N, I, O, T) ->
  (at_ (map Q2R O) (List.length N - 1) < Do * 1000 /\ @nearest_pipe R _ (Some Do) None NPS s = Err ValueError) \/
  (exists j, (j < List.length N)%nat /\ Do * 1000 <= at_ (map Q2R O) j /\ (forall i, (i < j)%nat -> at_ (map Q2R O) i < Do * 1000) /\
     @nearest_pipe R _ (Some Do) None NPS s = Ok (size_at N I O T j)).
Proof.
  intros H. destruct (sched_facts _ _ _ _ _ H) as (H0 & LI & LO & LT & SN & SI & SO & G).
  unfold nearest_pipe. rewrite H. unfold Do_lookup. numR. rewrite k3, m3. cbv zeta.
  destruct (D_scan_spec (Do * 1000) (map Q2R O) (map Q2R N) (map Q2R I) (map Q2R O) (map Q2R T)) as [[A B]|(j & A & B & C & D)];
    rewrite ?map_length in *; try lia; auto.
  - left. rewrite LO in A. split; auto. rewrite tbl_len, LO. rewrite LO in B. rewrite !tbl_R, B. reflexivity.
  - right. exists j. splits; auto; [lia|]. rewrite tbl_len, !tbl_R, D. cbn [bind]. rewrite !at_map by lia. reflexivity.
Qed.
Lemma nearest_pipe_NPS n s N I O T : assoc_str (schedule_name s) schedule_lookup = Some (N, I, O, T) ->
  ((forall j, (j < List.length N)%nat -> Q2R (nth j N 0%Q) <> n) /\ @nearest_pipe R _ None None (Some n) s = Err ValueError) \/
  (exists j, (j < List.length N)%nat /\ Q2R (nth j N 0%Q) = n /\ @nearest_pipe R _ None None (Some n) s = Ok (size_at N I O T j)).
Proof.
  intros H. destruct (sched_facts _ _ _ _ _ H) as (H0 & LI & LO & LT & SN & SI & SO & G).
  unfold nearest_pipe. rewrite H. unfold NPS_lookup. numR. rewrite m3. cbv zeta.
  destruct (NPS_scan_spec n (map Q2R N) (map Q2R I) (map Q2R O) (map Q2R T)) as [[A B]|(j & A & B & C)];
    rewrite ?map_length in *; try lia; auto.
  - left. rewrite tbl_len. rewrite !tbl_R, B. split; [|reflexivity]. intros j Hj. rewrite <- at_map by auto. auto.
  - right. exists j. rewrite at_map in B by auto. splits; auto. rewrite tbl_len, !tbl_R, C. cbn [bind]. rewrite !at_map by lia. reflexivity.
Qed.
