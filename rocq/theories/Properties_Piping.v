(** C31, C32: pipe sizes and wire gauges (see /verif/properties.jsonl).  [sizes], [gauges] (Spec_Tables.v) are the
    rows of the tables in /repo/fluids/piping.py. *)
From Coq Require Import String List Bool QArith Qreals Reals ZArith Arith Lra Lia Psatz.
From Verif Require Import Base Sums Model_Numerics Proofs_Numerics Data_Piping Model_Tables Model_Float Spec_Tables Proofs_Tables Proofs_Tables2.
Import ListNotations.
Local Open Scope R_scope.

(** ** C31 *)
Lemma known_some s : known_schedule s -> exists N I' O' T, assoc_str s schedule_lookup = Some (N, I', O', T).
Proof.
  unfold known_schedule. generalize schedule_lookup as l. induction l as [|[k [[[a b] c] d]] l IH]; simpl; [tauto|].
  destruct (String.eqb_spec s k) as [->|Hne]; intros H; [eauto|]. destruct H as [->|H]; [congruence|auto].
Qed.
Lemma unknown_none s : ~ known_schedule s -> assoc_str s schedule_lookup = None.
Proof.
  unfold known_schedule. generalize schedule_lookup as l. induction l as [|[k v] l IH]; simpl; intros H; [auto|].
  destruct (String.eqb_spec s k) as [->|Hne]; [exfalso; auto|]. apply IH. auto.
Qed.
Lemma mono_idx l i j : increasing l -> (i <= j)%nat -> (j < List.length l)%nat -> at_ l i <= at_ l j.
Proof. intros H Hij Hj. destruct (Nat.eq_dec i j) as [->|]; [lra|]. apply Rlt_le, H; lia. Qed.

(** every row of every schedule is a pipe: outer diameter = inner diameter + two walls *)
Theorem C31_table_geometry s p : In p (sizes s) -> pipe_do p = pipe_di p + 2 * pipe_t p /\ 0 < pipe_t p /\ 0 < pipe_di p /\ 0 < pipe_nps p.
Proof.
  unfold sizes at 1. destruct (assoc_str s schedule_lookup) as [[[[N I'] O'] T]|] eqn:E; [|simpl; tauto]. intros H.
  destruct (sched_facts _ _ _ _ _ E) as (_ & _ & _ & _ & _ & _ & _ & G).
  apply in_map_iff in H. destruct H as (j & <- & Hj). apply in_seq in Hj. cbn [pipe_do pipe_di pipe_t pipe_nps].
  destruct (G j) as (G1 & G2 & G3 & G4); [lia|]. splits; auto; lra.
Qed.
(** within a schedule a larger inner diameter goes with a larger outer diameter and nominal size, so no two rows share one *)
Theorem C31_table_order s p q : In p (sizes s) -> In q (sizes s) ->
  (pipe_di p < pipe_di q <-> pipe_do p < pipe_do q) /\ (pipe_di p < pipe_di q <-> pipe_nps p < pipe_nps q) /\
  (pipe_di p = pipe_di q -> p = q).
Proof.
  unfold sizes. destruct (assoc_str s schedule_lookup) as [[[[N I'] O'] T]|] eqn:E; [|simpl; tauto]. intros H H'.
  destruct (sched_facts _ _ _ _ _ E) as (_ & LI & LO & LT & SN & SI & SO & G).
  apply in_map_iff in H, H'. destruct H as (j & <- & Hj). destruct H' as (k & <- & Hk). apply in_seq in Hj, Hk.
  cbn [pipe_do pipe_di pipe_t pipe_nps].
  assert (A : forall l a b, increasing (map Q2R l) -> (a < b)%nat -> (b < List.length l)%nat -> Q2R (nth a l 0%Q) < Q2R (nth b l 0%Q)).
  { intros l a b Hl Hab Hb. specialize (Hl a b Hab). rewrite map_length, !at_map in Hl by lia. auto. }
  destruct (lt_eq_lt_dec j k) as [[Hlt| ->]|Hgt].
  - pose proof (A N j k SN Hlt ltac:(lia)). pose proof (A I' j k SI Hlt ltac:(lia)). pose proof (A O' j k SO Hlt ltac:(lia)).
    splits; try split; intros; lra.
  - splits; try split; intros; try lra; auto.
  - pose proof (A N k j SN Hgt ltac:(lia)). pose proof (A I' k j SI Hgt ltac:(lia)). pose proof (A O' k j SO Hgt ltac:(lia)).
    splits; try split; intros; lra.
Qed.

(** a request by inner diameter: exactly the smallest adequate size, whatever else is passed *)
Theorem C31_inner_diameter s Do Di NPS p : known_schedule s ->
  (@nearest_pipe R _ Do (Some Di) NPS (SStr s) = Ok p <->
   In p (sizes s) /\ Di <= pipe_di p /\ forall q, In q (sizes s) -> Di <= pipe_di q -> pipe_di p <= pipe_di q).
Proof.
  intros K. destruct (known_some s K) as (N & I' & O' & T & E).
  pose proof (nearest_pipe_Di Do Di NPS (SStr s) N I' O' T E) as [(A & B)|(j & J1 & J2 & J3 & J4)];
    destruct (sched_facts _ _ _ _ _ E) as (L0 & LI & LO & LT & SN & SI & SO & G).
  - rewrite B. split; [discriminate|]. intros (M1 & M2 & _). exfalso.
    apply (in_sizes _ _ _ _ _ _ E) in M1. destruct M1 as (k & Hk & ->). cbn [size_at pipe_di] in M2.
    assert (at_ (map Q2R I') k <= at_ (map Q2R I') (List.length N - 1)) by (apply mono_idx; rewrite ?map_length; auto; lia).
    rewrite at_map in H by lia. rewrite at_map in A, H by lia. lra.
  - rewrite J4. rewrite at_map in J2 by lia. split.
    + intros Q. injection Q as <-. splits.
      * apply (in_sizes _ _ _ _ _ _ E). eauto.
      * cbn [size_at pipe_di]. lra.
      * intros q Hq Hd. apply (in_sizes _ _ _ _ _ _ E) in Hq. destruct Hq as (k & Hk & ->). cbn [size_at pipe_di] in *.
        destruct (Nat.le_gt_cases j k) as [Hjk|Hjk].
        -- pose proof (mono_idx (map Q2R I') j k SI Hjk) as M. rewrite map_length, !at_map in M by lia. specialize (M ltac:(lia)). lra.
        -- specialize (J3 k Hjk). rewrite at_map in J3 by lia. lra.
    + intros (M1 & M2 & M3). f_equal.
      assert (P1 : In (size_at N I' O' T j) (sizes s)) by (apply (in_sizes _ _ _ _ _ _ E); eauto).
      assert (P2 : pipe_di p <= pipe_di (size_at N I' O' T j)) by (apply M3; auto; cbn [size_at pipe_di]; lra).
      apply (in_sizes _ _ _ _ _ _ E) in M1. destruct M1 as (k & Hk & ->). cbn [size_at pipe_di] in M2, P2.
      destruct (lt_eq_lt_dec k j) as [[Hlt| ->]|Hgt]; [|reflexivity|].
      * specialize (J3 k Hlt). rewrite at_map in J3 by lia. lra.
      * specialize (SI j k Hgt). rewrite map_length, !at_map in SI by lia. specialize (SI ltac:(lia)). lra.
Qed.
Theorem C31_inner_diameter_error s Do Di NPS e : known_schedule s ->
  (@nearest_pipe R _ Do (Some Di) NPS (SStr s) = Err e <-> e = ValueError /\ forall q, In q (sizes s) -> pipe_di q < Di).
Proof.
  intros K. destruct (known_some s K) as (N & I' & O' & T & E).
  pose proof (nearest_pipe_Di Do Di NPS (SStr s) N I' O' T E) as [(A & B)|(j & J1 & J2 & J3 & J4)];
    destruct (sched_facts _ _ _ _ _ E) as (L0 & LI & LO & LT & SN & SI & SO & G).
  - rewrite B. split; [|intros [-> _]; reflexivity]. intros Q. injection Q as <-. split; auto. intros q Hq.
    apply (in_sizes _ _ _ _ _ _ E) in Hq. destruct Hq as (k & Hk & ->). cbn [size_at pipe_di].
    assert (at_ (map Q2R I') k <= at_ (map Q2R I') (List.length N - 1)) by (apply mono_idx; rewrite ?map_length; auto; lia).
    rewrite at_map in H by lia. rewrite at_map in A, H by lia. lra.
  - rewrite J4. rewrite at_map in J2 by lia. split; [discriminate|]. intros [_ F].
    specialize (F (size_at N I' O' T j)). cbn [size_at pipe_di] in F. assert (In (size_at N I' O' T j) (sizes s)) by (apply (in_sizes _ _ _ _ _ _ E); eauto).
    specialize (F H). lra.
Qed.
(** a request by outer diameter *)
Theorem C31_outer_diameter s Do NPS p : known_schedule s ->
  (@nearest_pipe R _ (Some Do) None NPS (SStr s) = Ok p <->
   In p (sizes s) /\ Do <= pipe_do p /\ forall q, In q (sizes s) -> Do <= pipe_do q -> pipe_do p <= pipe_do q).
Proof.
  intros K. destruct (known_some s K) as (N & I' & O' & T & E).
  pose proof (nearest_pipe_Do Do NPS (SStr s) N I' O' T E) as [(A & B)|(j & J1 & J2 & J3 & J4)];
    destruct (sched_facts _ _ _ _ _ E) as (L0 & LI & LO & LT & SN & SI & SO & G).
  - rewrite B. split; [discriminate|]. intros (M1 & M2 & _). exfalso.
    apply (in_sizes _ _ _ _ _ _ E) in M1. destruct M1 as (k & Hk & ->). cbn [size_at pipe_do] in M2.
    assert (at_ (map Q2R O') k <= at_ (map Q2R O') (List.length N - 1)) by (apply mono_idx; rewrite ?map_length; auto; lia).
    rewrite at_map in H by lia. rewrite at_map in A, H by lia. lra.
  - rewrite J4. rewrite at_map in J2 by lia. split.
    + intros Q. injection Q as <-. splits.
      * apply (in_sizes _ _ _ _ _ _ E). eauto.
      * cbn [size_at pipe_do]. lra.
      * intros q Hq Hd. apply (in_sizes _ _ _ _ _ _ E) in Hq. destruct Hq as (k & Hk & ->). cbn [size_at pipe_do] in *.
        destruct (Nat.le_gt_cases j k) as [Hjk|Hjk].
        -- pose proof (mono_idx (map Q2R O') j k SO Hjk) as M. rewrite map_length, !at_map in M by lia. specialize (M ltac:(lia)). lra.
        -- specialize (J3 k Hjk). rewrite at_map in J3 by lia. lra.
    + intros (M1 & M2 & M3). f_equal.
      assert (P1 : In (size_at N I' O' T j) (sizes s)) by (apply (in_sizes _ _ _ _ _ _ E); eauto).
      assert (P2 : pipe_do p <= pipe_do (size_at N I' O' T j)) by (apply M3; auto; cbn [size_at pipe_do]; lra).
      apply (in_sizes _ _ _ _ _ _ E) in M1. destruct M1 as (k & Hk & ->). cbn [size_at pipe_do] in M2, P2.
      destruct (lt_eq_lt_dec k j) as [[Hlt| ->]|Hgt]; [|reflexivity|].
      * specialize (J3 k Hlt). rewrite at_map in J3 by lia. lra.
      * specialize (SO j k Hgt). rewrite map_length, !at_map in SO by lia. specialize (SO ltac:(lia)). lra.
Qed.
Theorem C31_outer_diameter_error s Do NPS e : known_schedule s ->
  (@nearest_pipe R _ (Some Do) None NPS (SStr s) = Err e <-> e = ValueError /\ forall q, In q (sizes s) -> pipe_do q < Do).
Proof.
  intros K. destruct (known_some s K) as (N & I' & O' & T & E).
  pose proof (nearest_pipe_Do Do NPS (SStr s) N I' O' T E) as [(A & B)|(j & J1 & J2 & J3 & J4)];
    destruct (sched_facts _ _ _ _ _ E) as (L0 & LI & LO & LT & SN & SI & SO & G).
  - rewrite B. split; [|intros [-> _]; reflexivity]. intros Q. injection Q as <-. split; auto. intros q Hq.
    apply (in_sizes _ _ _ _ _ _ E) in Hq. destruct Hq as (k & Hk & ->). cbn [size_at pipe_do].
    assert (at_ (map Q2R O') k <= at_ (map Q2R O') (List.length N - 1)) by (apply mono_idx; rewrite ?map_length; auto; lia).
    rewrite at_map in H by lia. rewrite at_map in A, H by lia. lra.
  - rewrite J4. rewrite at_map in J2 by lia. split; [discriminate|]. intros [_ F].
    specialize (F (size_at N I' O' T j)). cbn [size_at pipe_do] in F. assert (In (size_at N I' O' T j) (sizes s)) by (apply (in_sizes _ _ _ _ _ _ E); eauto).
    specialize (F H). lra.
Qed.
(** a request by nominal size *)
Theorem C31_nominal_size s n p : known_schedule s ->
  (@nearest_pipe R _ None None (Some n) (SStr s) = Ok p <-> In p (sizes s) /\ pipe_nps p = n) /\
  ((forall q, In q (sizes s) -> pipe_nps q <> n) -> @nearest_pipe R _ None None (Some n) (SStr s) = Err ValueError).
Proof.
  intros K. destruct (known_some s K) as (N & I' & O' & T & E).
  pose proof (nearest_pipe_NPS n (SStr s) N I' O' T E) as [(A & B)|(j & J1 & J2 & J4)];
    destruct (sched_facts _ _ _ _ _ E) as (L0 & LI & LO & LT & SN & SI & SO & G).
  - rewrite B. split; auto. split; [discriminate|]. intros (M1 & M2). exfalso.
    apply (in_sizes _ _ _ _ _ _ E) in M1. destruct M1 as (k & Hk & ->). cbn [size_at pipe_nps] in M2. now apply (A k).
  - rewrite J4. assert (P1 : In (size_at N I' O' T j) (sizes s)) by (apply (in_sizes _ _ _ _ _ _ E); eauto). split.
    + split.
      * intros Q. injection Q as <-. auto.
      * intros (M1 & M2). f_equal. apply (in_sizes _ _ _ _ _ _ E) in M1. destruct M1 as (k & Hk & ->). cbn [size_at pipe_nps] in M2.
        destruct (lt_eq_lt_dec k j) as [[Hlt| ->]|Hgt]; [|reflexivity|].
        -- specialize (SN k j Hlt). rewrite map_length, !at_map in SN by lia. specialize (SN ltac:(lia)). lra.
        -- specialize (SN j k Hgt). rewrite map_length, !at_map in SN by lia. specialize (SN ltac:(lia)). lra.
    + intros F. exfalso. apply (F _ P1). auto.
Qed.
(** an unknown schedule is refused whatever the request; a numeric schedule is looked up by its decimal name *)
Theorem C31_unknown_schedule s Do Di NPS : ~ known_schedule s -> @nearest_pipe R _ Do Di NPS (SStr s) = Err ValueError.
Proof. intros H. unfold nearest_pipe. cbn [schedule_name]. now rewrite unknown_none. Qed.
Theorem C31_numeric_schedule z Do Di NPS : @nearest_pipe R _ Do Di NPS (SNum z) = nearest_pipe Do Di NPS (SStr (schedule_name (SNum z))).
Proof. reflexivity. Qed.
(** a larger request never gives a smaller pipe *)
Theorem C31_monotone s Di Di' p p' : Di <= Di' ->
  @nearest_pipe R _ None (Some Di) None (SStr s) = Ok p -> @nearest_pipe R _ None (Some Di') None (SStr s) = Ok p' ->
  pipe_di p <= pipe_di p' /\ pipe_do p <= pipe_do p' /\ pipe_nps p <= pipe_nps p'.
Proof.
  intros H E1 E2. destruct (assoc_str s schedule_lookup) as [v|] eqn:E; [|unfold nearest_pipe in E1; cbn [schedule_name] in E1; rewrite E in E1; discriminate].
  assert (K : known_schedule s) by (apply assoc_str_in in E; apply (in_map fst) in E; exact E).
  apply C31_inner_diameter in E1, E2; auto. destruct E1 as (A1 & A2 & A3), E2 as (B1 & B2 & B3).
  assert (L : pipe_di p <= pipe_di p') by (apply A3; auto; lra).
  destruct (C31_table_order s p p' A1 B1) as (O1 & O2 & O3). destruct L as [L|L].
  - split; [lra|]. split; [apply Rlt_le, O1|apply Rlt_le, O2]; auto.
  - rewrite (O3 L). splits; lra.
Qed.
(** in exact arithmetic every size is found again from its own diameters and nominal size *)
Theorem C31_round_trip s p : In p (sizes s) ->
  @nearest_pipe R _ None (Some (pipe_di p)) None (SStr s) = Ok p /\ @nearest_pipe R _ (Some (pipe_do p)) None None (SStr s) = Ok p /\
  @nearest_pipe R _ None None (Some (pipe_nps p)) (SStr s) = Ok p.
Proof.
  intros H. assert (K : known_schedule s).
  { unfold sizes in H. destruct (assoc_str s schedule_lookup) eqn:E; [|simpl in H; tauto]. apply assoc_str_in in E. apply (in_map fst) in E. exact E. }
  split; [|split].
  - apply C31_inner_diameter; auto. splits; auto; lra.
  - apply C31_outer_diameter; auto. splits; auto; lra.
  - apply C31_nominal_size; auto.
Qed.
(** with no size given the call does not raise the documented error but fails on an unset variable *)
Theorem C31_no_request_refuted s : known_schedule s -> @nearest_pipe R _ None None None (SStr s) = Err UnboundLocalError.
Proof. intros K. destruct (known_some s K) as (N & I' & O' & T & E). unfold nearest_pipe. cbn [schedule_name]. rewrite E. reflexivity. Qed.

Example C31_ex_schedule : known_schedule "40" /\ known_schedule "80S" /\ ~ known_schedule "41".
Proof. unfold known_schedule. repeat split; try (vm_compute; tauto). vm_compute. intuition discriminate. Qed.
Example C31_ex_value : @nearest_pipe Q _ None (Some 0.021%Q) None (SStr "40") = Ok (1.0%Q, Qred 0.02664, Qred 0.0334, Qred 0.00338)%Q.
Proof. vm_compute. reflexivity. Qed.
Example C31_ex_error : @nearest_pipe Q _ None (Some 2%Q) None (SNum 40) = Err ValueError.
Proof. vm_compute. reflexivity. Qed.

(** in binary64 the conversion to metres and back is inexact: nearest_pipe asked for the inner diameter of its own
    schedule 40, NPS 3/8 answer returns the next larger pipe *)
Theorem C31_round_trip_binary64_refuted : exists (s : string) (nps nps' di di' do_ do' t t' : b64),
  nearest_pipe None None (Some nps) (SStr s) = Ok (nps, di, do_, t) /\
  nearest_pipe None (Some di) None (SStr s) = Ok (nps', di', do', t') /\
  (nps <? nps')%num = true /\ (di <? di')%num = true.
Proof. exists "40"%string, (b64_of_Q 0.375). do 7 eexists. split; [vm_compute; reflexivity|]. split; [vm_compute; reflexivity|]. split; vm_compute; reflexivity. Qed.

(** ** C32 *)
Lemma gauge_some s : gauges s <> [] -> exists g il si, assoc_str s wire_schedules = Some (g, il, si).
Proof. unfold gauges. destruct (assoc_str s wire_schedules) as [[[g il] si]|]; [eauto|tauto]. Qed.
Lemma in_gauges s g il si r : assoc_str s wire_schedules = Some (g, il, si) ->
  (In r (gauges s) <-> exists j, (j < List.length g)%nat /\ r = (Q2R (nth j g 0%Q), Q2R (nth j il 0%Q), Q2R (nth j si 0%Q))).
Proof.
  intros H. unfold gauges. rewrite H, in_map_iff. split.
  - intros (j & <- & Hj). apply in_seq in Hj. exists j. split; [lia|reflexivity].
  - intros (j & Hj & ->). exists j. split; [reflexivity|]. apply in_seq. lia.
Qed.
(** every gauge of every schedule round-trips, in inches and in metres; the two columns of the table agree to 0.4 micrometre *)
Theorem C32_round_trip s g inches metres : In (g, inches, metres) (gauges s) ->
  @t_from_gauge R _ g false s = Ok inches /\ @t_from_gauge R _ g true s = Ok metres /\
  @gauge_from_t R _ _ inches false s = Ok g /\ @gauge_from_t R _ _ metres true s = Ok g /\
  Rabs (inches * 0.0254 - metres) <= 4e-7.
Proof.
  intros H. destruct (gauge_some s) as (gs & il & si & E); [intros Q; rewrite Q in H; destruct H|].
  apply (in_gauges _ _ _ _ _ E) in H. destruct H as (j & Hj & H). injection H as -> -> ->.
  destruct (wire_facts _ _ _ _ E) as (_ & _ & _ & _ & _ & _ & F). apply F. auto.
Qed.
(** a thickness in metres is converted to inches, rounded to nine digits, and looked up as such *)
Theorem C32_metres t s : @gauge_from_t R _ _ t true s = gauge_from_t (pyround (t / 0.0254) 9) false s /\
  Rabs (@pyround R _ _ (t / 0.0254) 9 - t / 0.0254) <= 1 / 2 / 10 ^ 9.
Proof.
  split; [|apply pyround_near]. unfold gauge_from_t at 1. unfold pydiv. numR. unfold inch. numR. destruct (Reqb 0.0254 0) eqn:E.
  - apply Reqb_true in E. exfalso. revert E. unfold Q2R; simpl. lra.
  - reflexivity.
Qed.
(** a thickness within the range of the schedule: the result is a gauge of the schedule, either the thinnest one not
    thinner than t, or the next thinner one when t exceeds it by at most a tenth of the step *)
Theorem C32_gauge_from_t t s gmax tmax smax gmin tmin smin : In (gmax, tmax, smax) (gauges s) -> In (gmin, tmin, smin) (gauges s) ->
  tmin <= t <= tmax ->
  exists g T S, In (g, T, S) (gauges s) /\ @gauge_from_t R _ _ t false s = Ok g /\
    ((t <= T /\ forall g' T' S', In (g', T', S') (gauges s) -> t <= T' -> T <= T') \/
     (T < t /\ exists g' T' S', In (g', T', S') (gauges s) /\ t < T' /\ t - T <= 0.1 * (T' - T) /\
        forall g2 T2 S2, In (g2, T2, S2) (gauges s) -> T2 <= T \/ T' <= T2)).
Proof.
  intros Hmax Hmin Ht. destruct (gauge_some s) as (gs & il & si & E); [intros Q; rewrite Q in Hmax; destruct Hmax|].
  destruct (wire_facts _ _ _ _ E) as (Ln & Li & Ls & Di & Ds & P & F).
  assert (D : forall a b, (a < b)%nat -> (b < List.length gs)%nat -> Q2R (nth b il 0%Q) < Q2R (nth a il 0%Q)).
  { intros a b Hab Hb. specialize (Di a b Hab). rewrite map_length, !at_map in Di by lia. apply Di. lia. }
  assert (D' : forall a b, (a <= b)%nat -> (b < List.length gs)%nat -> Q2R (nth b il 0%Q) <= Q2R (nth a il 0%Q)).
  { intros a b Hab Hb. destruct (Nat.eq_dec a b) as [->|]; [lra|]. apply Rlt_le, D; lia. }
  assert (IN : forall j, (j < List.length gs)%nat -> In (Q2R (nth j gs 0%Q), Q2R (nth j il 0%Q), Q2R (nth j si 0%Q)) (gauges s)).
  { intros j Hj. apply (in_gauges _ _ _ _ _ E). eauto. }
  apply (in_gauges _ _ _ _ _ E) in Hmax, Hmin. destruct Hmax as (jx & Jx & Qx), Hmin as (jn & Jn & Qn).
  injection Qx as -> -> ->. injection Qn as -> -> ->.
  pose proof (D' 0%nat jx ltac:(lia) Jx). pose proof (D' jn (List.length gs - 1)%nat ltac:(lia) ltac:(lia)).
  destruct (gauge_from_t_inch t s gs il si E) as [[A _]|[[A _]|[(k & K1 & K2 & K3)|(k & K1 & K2 & K3)]]]; [lra|lra| |].
  - exists (Q2R (nth k gs 0%Q)), (Q2R (nth k il 0%Q)), (Q2R (nth k si 0%Q)). splits; auto. left. split; [lra|].
    intros g' T' S' H' HT'. lra.
  - destruct (Rle_dec (t - Q2R (nth (S k) il 0%Q)) (0.1 * (Q2R (nth k il 0%Q) - Q2R (nth (S k) il 0%Q)))) as [Hd|Hd].
    + exists (Q2R (nth (S k) gs 0%Q)), (Q2R (nth (S k) il 0%Q)), (Q2R (nth (S k) si 0%Q)). splits; auto. right. split; [lra|].
      exists (Q2R (nth k gs 0%Q)), (Q2R (nth k il 0%Q)), (Q2R (nth k si 0%Q)). splits; auto; try lra; [apply IN; lia|].
      intros g2 T2 S2 H2. apply (in_gauges _ _ _ _ _ E) in H2. destruct H2 as (j & Hj & Q). injection Q as -> -> ->.
      destruct (Nat.le_gt_cases j k) as [L|L]; [right; apply D'; lia|left; apply D'; lia].
    + exists (Q2R (nth k gs 0%Q)), (Q2R (nth k il 0%Q)), (Q2R (nth k si 0%Q)). splits; auto; [apply IN; lia|]. left. split; [lra|].
      intros g2 T2 S2 H2 HT. apply (in_gauges _ _ _ _ _ E) in H2. destruct H2 as (j & Hj & Q). injection Q as -> -> ->.
      destruct (Nat.le_gt_cases j k) as [L|L]; [apply D'; lia|]. pose proof (D' (S k) j ltac:(lia) Hj). lra.
Qed.
(** thicker than every gauge: ValueError, and only then (for a known schedule) *)
Theorem C32_too_thick t s e : gauges s <> [] ->
  (@gauge_from_t R _ _ t false s = Err e <-> e = ValueError /\ forall g T S, In (g, T, S) (gauges s) -> T < t).
Proof.
  intros Hs. destruct (gauge_some s Hs) as (gs & il & si & E). destruct (wire_facts _ _ _ _ E) as (Ln & Li & Ls & Di & Ds & P & F).
  assert (D' : forall a b, (a <= b)%nat -> (b < List.length gs)%nat -> Q2R (nth b il 0%Q) <= Q2R (nth a il 0%Q)).
  { intros a b Hab Hb. destruct (Nat.eq_dec a b) as [->|]; [lra|]. specialize (Di a b ltac:(lia)). rewrite map_length, !at_map in Di by lia. apply Rlt_le, Di. lia. }
  assert (IN : forall j, (j < List.length gs)%nat -> In (Q2R (nth j gs 0%Q), Q2R (nth j il 0%Q), Q2R (nth j si 0%Q)) (gauges s)).
  { intros j Hj. apply (in_gauges _ _ _ _ _ E). eauto. }
  destruct (gauge_from_t_inch t s gs il si E) as [[A B]|[[A B]|[(k & K1 & K2 & B)|(k & K1 & K2 & B)]]]; rewrite B.
  - split; [|intros [-> _]; reflexivity]. intros Q. injection Q as <-. split; auto. intros g T S H. apply (in_gauges _ _ _ _ _ E) in H.
    destruct H as (j & Hj & Q). injection Q as -> -> ->. pose proof (D' 0%nat j ltac:(lia) Hj). lra.
  - split; [discriminate|]. intros [_ H]. specialize (H _ _ _ (IN (List.length gs - 1)%nat ltac:(lia))). lra.
  - split; [discriminate|]. intros [_ H]. specialize (H _ _ _ (IN k ltac:(lia))). lra.
  - split; [discriminate|]. intros [_ H]. specialize (H _ _ _ (IN k ltac:(lia))). lra.
Qed.
(** thinner than every gauge: the call returns the smallest thickness, which is not a gauge of the schedule *)
Definition no_gauge (e : string * (list Q * list Q * list Q)) : bool :=
  let '(_, (g, il, _)) := e in forallb (fun q => negb (Qeq_bool q (nth (List.length g - 1) il 0%Q))) g.
Lemma all_no_gauge : forallb no_gauge wire_schedules = true.
Proof. vm_compute. reflexivity. Qed.
Theorem C32_too_thin_refuted t s : gauges s <> [] -> (forall g T S, In (g, T, S) (gauges s) -> t < T) ->
  exists x gmin smin, @gauge_from_t R _ _ t false s = Ok x /\ In (gmin, x, smin) (gauges s) /\
    (forall g T S, In (g, T, S) (gauges s) -> x <= T) /\ forall g T S, In (g, T, S) (gauges s) -> g <> x.
Proof.
  intros Hs Ht. destruct (gauge_some s Hs) as (gs & il & si & E). destruct (wire_facts _ _ _ _ E) as (Ln & Li & Ls & Di & Ds & P & F).
  assert (D' : forall a b, (a <= b)%nat -> (b < List.length gs)%nat -> Q2R (nth b il 0%Q) <= Q2R (nth a il 0%Q)).
  { intros a b Hab Hb. destruct (Nat.eq_dec a b) as [->|]; [lra|]. specialize (Di a b ltac:(lia)). rewrite map_length, !at_map in Di by lia. apply Rlt_le, Di. lia. }
  assert (IN : forall j, (j < List.length gs)%nat -> In (Q2R (nth j gs 0%Q), Q2R (nth j il 0%Q), Q2R (nth j si 0%Q)) (gauges s)).
  { intros j Hj. apply (in_gauges _ _ _ _ _ E). eauto. }
  pose proof (Ht _ _ _ (IN (List.length gs - 1)%nat ltac:(lia))) as Hm. pose proof (Ht _ _ _ (IN 0%nat ltac:(lia))) as H0.
  destruct (gauge_from_t_inch t s gs il si E) as [[A B]|[[A B]|[(k & K1 & K2 & B)|(k & K1 & K2 & B)]]].
  - lra.
  - exists (Q2R (nth (List.length gs - 1) il 0%Q)), (Q2R (nth (List.length gs - 1) gs 0%Q)), (Q2R (nth (List.length gs - 1) si 0%Q)).
    splits; auto; [apply IN; lia| |].
    + intros g T S H. apply (in_gauges _ _ _ _ _ E) in H. destruct H as (j & Hj & Q). injection Q as -> -> ->. apply D'; lia.
    + intros g T S H Q. apply (in_gauges _ _ _ _ _ E) in H. destruct H as (j & Hj & Q'). injection Q' as -> _ _.
      pose proof all_no_gauge as G. rewrite forallb_forall in G. specialize (G _ (assoc_str_in _ _ _ E)). cbn [no_gauge] in G.
      rewrite forallb_forall in G. specialize (G _ (nth_In gs 0%Q Hj)). rewrite Qeq_R in G. apply Reqb_true in Q. rewrite Q in G. discriminate.
  - exfalso. pose proof (Ht _ _ _ (IN k ltac:(lia))). lra.
  - exfalso. pose proof (Ht _ _ _ (IN (S k) ltac:(lia))). lra.
Qed.
(** unknown schedules and unknown gauges are refused *)
Theorem C32_unknown t s SI : gauges s = [] -> @gauge_from_t R _ _ t SI s = Err ValueError /\ @t_from_gauge R _ t SI s = Err ValueError.
Proof.
  intros H. assert (E : assoc_str s wire_schedules = None).
  { destruct (assoc_str s wire_schedules) as [[[g il] si]|] eqn:E; [|reflexivity]. exfalso.
    destruct (wire_facts _ _ _ _ E) as (Ln & _). unfold gauges in H. rewrite E in H. destruct g; [simpl in Ln; lia|discriminate]. }
  assert (U : forall t : R, gauge_from_t t false s = Err ValueError) by (intros u; unfold gauge_from_t; cbn [bind]; now rewrite E).
  split; [|unfold t_from_gauge; now rewrite E]. destruct SI; [rewrite (proj1 (C32_metres t s))|]; apply U.
Qed.
Theorem C32_unknown_gauge g s SI : (forall g' T S, In (g', T, S) (gauges s) -> g' <> g) -> @t_from_gauge R _ g SI s = Err ValueError.
Proof.
  intros H. unfold t_from_gauge. destruct (assoc_str s wire_schedules) as [[[gs il] si]|] eqn:E; [|reflexivity]. rewrite !tbl_R.
  pose proof (index_of_spec g (map Q2R gs)) as Ix. destruct (index_of g (map Q2R gs)) as [k|]; [|reflexivity]. exfalso.
  destruct Ix as [K1 K2]. rewrite map_length in K1. rewrite at_map in K2 by auto.
  apply (H (Q2R (nth k gs 0%Q)) (Q2R (nth k il 0%Q)) (Q2R (nth k si 0%Q))); auto. apply (in_gauges _ _ _ _ _ E). eauto.
Qed.
Example C32_ex_values : map (fun t => @gauge_from_t Q _ _ t false "BWG") [0.501; 0.5; 0.4999; 0.455; 0.02; 0.00401; 0.003]%Q =
  [Err ValueError; Ok 0.2; Ok 0.2; Ok 0.25; Ok 25; Ok 36; Ok 0.004]%Q.
Proof. vm_compute. reflexivity. Qed.
Example C32_ex_metres : map (fun t => @gauge_from_t Q _ _ t true "BWG") [0.0127; 0.000508; 0.00051]%Q = [Ok 0.2; Ok 25; Ok 25]%Q.
Proof. vm_compute. reflexivity. Qed.
Example C32_ex_rows : In (Q2R 25, Q2R 0.02, Q2R 0.000508) (gauges "BWG") /\ gauges "XWG" = [].
Proof. split; [|reflexivity]. eapply in_gauges; [reflexivity|]. exists 29%nat. split; [vm_compute; lia|reflexivity]. Qed.

Print Assumptions C31_table_geometry.
Print Assumptions C31_table_order.
Print Assumptions C31_inner_diameter.
Print Assumptions C31_inner_diameter_error.
Print Assumptions C31_outer_diameter.
Print Assumptions C31_outer_diameter_error.
Print Assumptions C31_nominal_size.
Print Assumptions C31_unknown_schedule.
Print Assumptions C31_numeric_schedule.
Print Assumptions C31_monotone.
Print Assumptions C31_round_trip.
Print Assumptions C31_no_request_refuted.
Print Assumptions C31_round_trip_binary64_refuted.
Print Assumptions C32_round_trip.
Print Assumptions C32_metres.
Print Assumptions C32_gauge_from_t.
Print Assumptions C32_too_thick.
Print Assumptions C32_too_thin_refuted.
Print Assumptions C32_unknown.
Print Assumptions C32_unknown_gauge.
