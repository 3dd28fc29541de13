(** C57: open channels and weirs.
    Claims about [V_Manning], [V_Chezy], [n_Manning_to_C_Chezy], [C_Chezy_to_n_Manning], the tables of Manning
    coefficients and the weir formulas of fluids/open_flow.py. *)
From Coq Require Import Reals Lra Lia List Bool String Psatz QArith Qreals.
From Verif Require Import Base Model_Real Proofs_Real Model_Numerics Proofs_Numerics Proofs_Tables Proofs_Tables3 Model_OpenFlow.
Import ListNotations.
Open Scope R_scope.

Lemma Ok_inj {A} (x y : A) : Ok x = Ok y -> x = y. Proof. congruence. Qed.

(** ** Manning and Chezy *)
Lemma pow_sixth Rh : 0 < Rh -> Rpower Rh (2 / 3) = Rpower Rh (1 / 6) * sqrt Rh.
Proof. intros H. rewrite <- Rpower_sqrt by exact H. rewrite <- Rpower_plus. f_equal. lra. Qed.

(** Converting a coefficient one way and back gives it again, in both directions, for any non-zero coefficient and
    any hydraulic radius. *)
Theorem C57_conversions_are_inverse Rh c : 0 < Rh -> c <> 0 ->
  (exists C_, n_Manning_to_C_Chezy c Rh = Ok C_ /\ C_Chezy_to_n_Manning C_ Rh = Ok c) /\
  (exists n, C_Chezy_to_n_Manning c Rh = Ok n /\ n_Manning_to_C_Chezy n Rh = Ok c).
Proof.
  intros HR Hc. unfold n_Manning_to_C_Chezy, C_Chezy_to_n_Manning. pose proof (Rpower_pos Rh (1 / 6)) as P. split.
  - rewrite pdiv_ok by exact Hc. cbn [bind]. rewrite ppow_ok by exact HR. cbn [bind]. eexists; split; [reflexivity|].
    assert (N : 1 / c * Rpower Rh (1 / 6) <> 0). { apply Rmult_integral_contrapositive_currified. unfold Rdiv. rewrite Rmult_1_l. apply Rinv_neq_0_compat; exact Hc. lra. }
    rewrite pdiv_ok by exact N. f_equal. set (p := Rpower Rh (1 / 6)) in *. clearbody p. field. split. exact Hc. lra.
  - rewrite ppow_ok by exact HR. cbn [bind]. rewrite pdiv_ok by exact Hc. eexists; split; [reflexivity|].
    set (p := Rpower Rh (1 / 6)) in *. clearbody p.
    assert (N : p / c <> 0). { unfold Rdiv. apply Rmult_integral_contrapositive_currified. lra. apply Rinv_neq_0_compat; exact Hc. }
    rewrite pdiv_ok by exact N. cbn [bind]. f_equal. field. split. exact Hc. lra.
Qed.
Example C57_conversions_are_inverse_ex : 0 < 5 /\ 0.05 <> 0. Proof. lits; split; lra. Qed.

(** The velocity is the same whichever coefficient is used, for every slope. *)
Theorem C57_same_velocity Rh S_ n : 0 < Rh -> 0 <= S_ -> n <> 0 ->
  exists C_ V, n_Manning_to_C_Chezy n Rh = Ok C_ /\ V_Manning Rh S_ n = Ok V /\ V_Chezy Rh S_ C_ = Ok V.
Proof.
  intros HR HS Hn. unfold n_Manning_to_C_Chezy, V_Manning, V_Chezy.
  rewrite pdiv_ok by exact Hn. cbn [bind]. rewrite !ppow_ok by exact HR. cbn [bind].
  rewrite psqrt_ok by exact HS. cbn [bind]. rewrite pdiv_ok by exact Hn.
  do 2 eexists. split; [reflexivity|]. split; [reflexivity|].
  rewrite psqrt_ok by nra. cbn [bind]. f_equal. rewrite pow_sixth by exact HR. rewrite sqrt_mult by lra. field. exact Hn.
Qed.
Example C57_same_velocity_ex : 0 < 0.2859 /\ 0 <= 0.005236 /\ 0.03 <> 0. Proof. lits; splits; lra. Qed.

(** No slope, no flow; a steeper or hydraulically larger channel is faster, a rougher one slower. *)
Theorem C57_Manning_monotone Rh Rh' S_ S_' n n' : 0 < Rh <= Rh' -> 0 <= S_ <= S_' -> 0 < n' <= n ->
  exists V V', V_Manning Rh S_ n = Ok V /\ V_Manning Rh' S_' n' = Ok V' /\ 0 <= V <= V' /\ (S_ = 0 -> V = 0) /\ (0 < S_ -> 0 < V).
Proof.
  intros HR HS Hn. unfold V_Manning. rewrite !ppow_ok by lra. cbn [bind]. rewrite !psqrt_ok by lra. cbn [bind]. rewrite !pdiv_ok by lra.
  do 2 eexists. split; [reflexivity|]. split; [reflexivity|].
  pose proof (Rpower_pos Rh (2 / 3)) as P. pose proof (Rpower_le_l Rh Rh' (2 / 3) (proj1 HR) (proj2 HR) ltac:(lra)) as Q.
  pose proof (sqrt_pos S_) as T. pose proof (sqrt_le_1_alt _ _ (proj2 HS)) as U.
  set (p := Rpower Rh (2 / 3)) in *. set (q := Rpower Rh' (2 / 3)) in *. clearbody p q.
  splits.
  - apply Rmult_le_pos; [nra|left; apply Rinv_0_lt_compat; lra].
  - apply Rle_trans with (q * sqrt S_' / n). apply div_le_r; [lra|]. apply Rmult_le_compat; lra. apply div_le_l; [nra|lra|lra].
  - intros ->. rewrite sqrt_0. unfold Rdiv. ring.
  - intros H. apply Rdiv_lt_0_compat; [|lra]. apply Rmult_lt_0_compat; [lra|]. apply sqrt_lt_R0; exact H.
Qed.
Example C57_Manning_monotone_ex : 0 < 1 <= 2 /\ 0 <= 0.001 <= 0.002 /\ 0 < 0.01 <= 0.03. Proof. lits; splits; lra. Qed.

(** Every listed surface gives, at every hydraulic radius and slope, three velocities in the order its three
    coefficients promise: slowest for the maximum, fastest for the minimum. *)
Lemma Q_le_R (a b : Q) : Qle_bool a b = true -> Q2R a <= Q2R b.
Proof. intros H. apply Qle_Rle. now apply Qle_bool_iff. Qed.
Definition ordered_row (r : string * string * (Q * Q * Q)) : bool :=
  let '(_, _, (lo, avg, hi)) := r in (Qle_bool 0.008 lo && Qle_bool lo avg && Qle_bool avg hi)%bool.
Theorem C57_tables_ordered d grp surface lo avg hi Rh S_ : In d n_dicts -> In (grp, surface, (lo, avg, hi)) d -> 0 < Rh -> 0 <= S_ ->
  exists V1 V2 V3, V_Manning Rh S_ (Q2R hi) = Ok V1 /\ V_Manning Rh S_ (Q2R avg) = Ok V2 /\ V_Manning Rh S_ (Q2R lo) = Ok V3 /\
    0 <= V1 <= V2 /\ V2 <= V3.
Proof.
  intros Hd Hr HR HS.
  assert (K : forallb (forallb ordered_row) n_dicts = true) by (vm_compute; reflexivity).
  rewrite forallb_forall in K. specialize (K d Hd). rewrite forallb_forall in K. specialize (K _ Hr). cbn [ordered_row] in K.
  apply andb_prop in K. destruct K as [K K3]. apply andb_prop in K. destruct K as [K1 K2].
  apply Q_le_R in K1. apply Q_le_R in K2. apply Q_le_R in K3.
  assert (P : 0 < Q2R lo) by (eapply Rlt_le_trans; [|exact K1]; lits; lra).
  destruct (C57_Manning_monotone Rh Rh S_ S_ (Q2R hi) (Q2R avg)) as (V1 & V2 & E1 & E2 & B & _); try lra.
  destruct (C57_Manning_monotone Rh Rh S_ S_ (Q2R avg) (Q2R lo)) as (V2' & V3 & E2' & E3 & B' & _); try lra.
  rewrite E2 in E2'. apply Ok_inj in E2'. subst V2'. exists V1, V2, V3. splits; auto; lra.
Qed.
Example C57_tables_ordered_ex : In ("Brass", "Smooth", (0.009, 0.01, 0.013))%string%Q n_closed_conduit /\ In n_closed_conduit n_dicts.
Proof. split; [left; reflexivity | cbn; auto]. Qed.

(** ** Weirs across the whole channel *)
Definition full_weirs : list (R -> R -> R -> result R) :=
  [Q_weir_rectangular_full_Ackers; Q_weir_rectangular_full_SIA; Q_weir_rectangular_full_Rehbock].
Lemma g_pos : 0 < sqrt 9.80665. Proof. apply sqrt_lt_R0. lits; lra. Qed.
Lemma two_pos : 0 < sqrt 2. Proof. apply sqrt_lt_R0. lra. Qed.
Lemma head_lt h h' k : 0 <= h < h' -> 0 < k -> 0 < Rpower (h + k) 1.5 < Rpower (h' + k) 1.5.
Proof. intros H Hk. split. apply Rpower_pos. apply Rpower_lt_l; lits; lra. Qed.
Lemma prod_lt a b c d : 0 <= a <= b -> 0 < d -> 0 <= c < d -> 0 < b -> a * c < b * d.
Proof. intros [Ha Hb] Hd Hc P. apply Rle_lt_trans with (b * c). apply Rmult_le_compat_r; lra. apply Rmult_lt_compat_l; lra. Qed.
Lemma frac_le h1 h1' h2 h2' : 0 <= h1 <= h1' -> 0 < h2' <= h2 -> 0 <= h1 / h2 <= h1' / h2'.
Proof.
  intros H1 H2. split. apply Rmult_le_pos; [lra|left; apply Rinv_0_lt_compat; lra].
  apply Rle_trans with (h1' / h2). apply div_le_r; lra. apply div_le_l; lra.
Qed.

(** The discharge is never negative, grows strictly with the head over the crest, never grows with the height of the
    weir, and is proportional to the width of the channel. *)
Theorem C57_full_weirs w h1 h1' h2 h2' b c : In w full_weirs -> 0 <= h1 < h1' -> 0 < h2' <= h2 -> 0 < b -> 0 < c ->
  exists Q Q', w h1 h2 b = Ok Q /\ w h1' h2' b = Ok Q' /\ 0 <= Q < Q' /\ w h1 h2 (c * b) = Ok (c * Q).
Proof.
  intros Hw H1 H2 Hb Hc. pose proof g_pos as G. pose proof two_pos as T. pose proof (frac_le h1 h1' h2 h2' ltac:(lra) H2) as F.
  destruct Hw as [<-|[<-|[<-|[]]]].
  - unfold Q_weir_rectangular_full_Ackers. rewrite !pdiv_ok by lra. cbn [bind]. rewrite !psqrt_ok by (lits; lra). cbn [bind].
    rewrite !ppow_ok by (lits; lra). cbn [bind].
    destruct (head_lt h1 h1' 0.001 H1 ltac:(lits; lra)) as [A B].
    do 2 eexists. split; [reflexivity|]. split; [reflexivity|].
    set (p := Rpower (h1 + 0.001) 1.5) in *. set (q := Rpower (h1' + 0.001) 1.5) in *. clearbody p q. set (g := sqrt 9.80665) in *. clearbody g.
    replace (0.15 * h1 / h2) with (0.15 * (h1 / h2)) by (field; lra). replace (0.15 * h1' / h2') with (0.15 * (h1' / h2')) by (field; lra).
    set (f := h1 / h2) in *. set (f' := h1' / h2') in *. clearbody f f'.
    splits.
    + left. repeat apply Rmult_lt_0_compat; try assumption; lits; lra.
    + apply prod_lt; try lra. split. left. repeat apply Rmult_lt_0_compat; try assumption; lits; lra.
      apply Rmult_le_compat_r; [lra|]. apply Rmult_le_compat_r; [lra|]. lits; lra. repeat apply Rmult_lt_0_compat; try assumption; lits; lra.
    + f_equal. ring.
  - unfold Q_weir_rectangular_full_SIA. cbv zeta.
    assert (S1 : forall h, 0 <= h -> psqrt 2 = Ok (sqrt 2) /\ psqrt 9.80665 = Ok (sqrt 9.80665) /\ pdiv 0.000615 (h + 0.0016) = Ok (0.000615 / (h + 0.0016)) /\ ppow h 1.5 = Ok (pw h 1.5)).
    { intros h Hh. splits. apply psqrt_ok; lra. apply psqrt_ok; lits; lra. apply pdiv_ok; lits; lra. apply ppow_pw; lits; lra. }
    destruct (S1 h1 ltac:(lra)) as (-> & -> & -> & ->). destruct (S1 h1' ltac:(lra)) as (_ & _ & -> & ->).
    cbn [bind]. rewrite !pdiv_ok by lra. cbn [bind]. do 2 eexists. split; [reflexivity|]. split; [reflexivity|].
    assert (F2 : 0 <= h1 / (h1 + h2) <= h1' / (h1' + h2')).
    { split. apply Rmult_le_pos; [lra|left; apply Rinv_0_lt_compat; lra].
      apply Rmult_le_reg_r with ((h1 + h2) * (h1' + h2')). nra. replace (h1 / (h1 + h2) * ((h1 + h2) * (h1' + h2'))) with (h1 * (h1' + h2')) by (field; lra).
      replace (h1' / (h1' + h2') * ((h1 + h2) * (h1' + h2'))) with (h1' * (h1 + h2)) by (field; lra). nra. }
    assert (P : 0 <= pw h1 1.5 < pw h1' 1.5). { split. apply pw_nonneg. apply pw_lt; lits; lra. }
    assert (L : 0 <= (0.615 + 0.000615 / (h1 + 0.0016)) * h1 < (0.615 + 0.000615 / (h1' + 0.0016)) * h1').
    { assert (I1 : 0 < / (h1 + 0.0016)) by (apply Rinv_0_lt_compat; lits; lra). assert (I2 : 0 < / (h1' + 0.0016)) by (apply Rinv_0_lt_compat; lits; lra).
      split. apply Rmult_le_pos; [|lra]. unfold Rdiv. lits; nra.
      assert (M : forall h, 0 <= h -> (0.615 + 0.000615 / (h + 0.0016)) * h = 0.615 * h + 0.000615 - 0.000000984 / (h + 0.0016)).
      { intros h Hh. lits. field. lra. } rewrite !M by lra.
      assert (/ (h1' + 0.0016) < / (h1 + 0.0016)) by (apply Rinv_lt_contravar; [apply Rmult_lt_0_compat|]; lits; lra). unfold Rdiv. lits; lra. }
    set (l := (0.615 + 0.000615 / (h1 + 0.0016)) * h1) in *. set (l' := (0.615 + 0.000615 / (h1' + 0.0016)) * h1') in *.
    set (f := h1 / (h1 + h2)) in *. set (f' := h1' / (h1' + h2')) in *. set (p := pw h1 1.5) in *. set (q := pw h1' 1.5) in *.
    set (g := sqrt 9.80665) in *. set (s := sqrt 2) in *.
    replace (2 / 3 * s * (0.615 + 0.000615 / (h1 + 0.0016)) * b * g * h1) with (2 / 3 * s * b * g * l) by (unfold l; ring).
    replace (2 / 3 * s * (0.615 + 0.000615 / (h1' + 0.0016)) * b * g * h1') with (2 / 3 * s * b * g * l') by (unfold l'; ring).
    replace (2 / 3 * s * (0.615 + 0.000615 / (h1 + 0.0016)) * (c * b) * g * h1) with (2 / 3 * s * (c * b) * g * l) by (unfold l; ring).
    clearbody l l' f f' p q g s.
    assert (K : 0 < 2 / 3 * s * b * g) by (repeat apply Rmult_lt_0_compat; lra).
    assert (K2 : 0 < b * g) by (apply Rmult_lt_0_compat; lra).
    assert (FF : 0 <= 0.5 * f ^ 2 * b * g * p <= 0.5 * f' ^ 2 * b * g * q).
    { assert (0 <= f ^ 2 <= f' ^ 2) by nra. replace (0.5 * f ^ 2 * b * g * p) with (0.5 * f ^ 2 * (b * g) * p) by ring. replace (0.5 * f' ^ 2 * b * g * q) with (0.5 * f' ^ 2 * (b * g) * q) by ring.
      set (u := f ^ 2) in *. set (u' := f' ^ 2) in *. clearbody u u'. split. apply Rmult_le_pos; [|lra]. apply Rmult_le_pos; [lits|]; lra.
      apply Rmult_le_compat; try lra. apply Rmult_le_pos; [lits|]; lra. apply Rmult_le_compat_r; lits; lra. }
    assert (2 / 3 * s * b * g * l < 2 / 3 * s * b * g * l') by (apply Rmult_lt_compat_l; lra).
    assert (0 <= 2 / 3 * s * b * g * l) by (apply Rmult_le_pos; lra).
    splits; try lra. f_equal. ring.
  - unfold Q_weir_rectangular_full_Rehbock. rewrite !psqrt_ok by (lits; lra). cbn [bind]. rewrite !pdiv_ok by lra. cbn [bind].
    rewrite !ppow_ok by (lits; lra). cbn [bind].
    destruct (head_lt h1 h1' 0.00125 H1 ltac:(lits; lra)) as [A B].
    do 2 eexists. split; [reflexivity|]. split; [reflexivity|].
    set (p := Rpower (h1 + 0.00125) 1.5) in *. set (q := Rpower (h1' + 0.00125) 1.5) in *. clearbody p q. set (g := sqrt 9.80665) in *. clearbody g.
    set (s := sqrt 2) in *. clearbody s.
    replace (0.0832 * h1 / h2) with (0.0832 * (h1 / h2)) by (field; lra). replace (0.0832 * h1' / h2') with (0.0832 * (h1' / h2')) by (field; lra).
    set (f := h1 / h2) in *. set (f' := h1' / h2') in *. clearbody f f'.
    splits.
    + left. repeat apply Rmult_lt_0_compat; try assumption; lits; lra.
    + apply prod_lt; try lra. split. left. repeat apply Rmult_lt_0_compat; try assumption; lits; lra.
      apply Rmult_le_compat_r; [lra|]. apply Rmult_le_compat_r; [lra|]. apply Rmult_le_compat_l; [apply Rmult_le_pos; lra|]. lits; lra.
      repeat apply Rmult_lt_0_compat; try assumption; lits; lra.
    + f_equal. ring.
Qed.
Example C57_full_weirs_ex : In Q_weir_rectangular_full_SIA full_weirs /\ 0 <= 0 < 0.3 /\ 0 < 0.3 <= 0.4 /\ 0 < 2 /\ 0 < 3.
Proof. cbn. lits; splits; try lra; auto. Qed.

(** The Kindsvater-Carter formula for the whole channel takes one millimetre off the width: the flow is positive and
    grows strictly with the head exactly for channels wider than that; at one millimetre it is zero for every head. *)
Theorem C57_full_Kindsvater_Carter h1 h1' h2 b : 0 <= h1 < h1' -> 0 < h2 -> 0.001 < b ->
  exists Q Q', Q_weir_rectangular_full_Kindsvater_Carter h1 h2 b = Ok Q /\ Q_weir_rectangular_full_Kindsvater_Carter h1' h2 b = Ok Q' /\
    0 < Q < Q' /\ Q_weir_rectangular_full_Kindsvater_Carter h1 h2 0.001 = Ok 0.
Proof.
  intros H1 H2 Hb. pose proof g_pos as G. pose proof two_pos as T. pose proof (frac_le h1 h1' h2 h2 ltac:(lra) ltac:(lra)) as F.
  unfold Q_weir_rectangular_full_Kindsvater_Carter. rewrite !psqrt_ok by (lits; lra). cbn [bind]. rewrite !pdiv_ok by lra. cbn [bind].
  rewrite !ppow_ok by (lits; lra). cbn [bind]. cbv zeta.
  destruct (head_lt h1 h1' 0.001 H1 ltac:(lits; lra)) as [A B].
  do 2 eexists. split; [reflexivity|]. split; [reflexivity|].
  set (p := Rpower (h1 + 0.001) 1.5) in *. set (q := Rpower (h1' + 0.001) 1.5) in *. clearbody p q. set (g := sqrt 9.80665) in *. clearbody g.
  set (s := sqrt 2) in *. clearbody s.
  replace (0.075 * h1 / h2) with (0.075 * (h1 / h2)) by (field; lra). replace (0.075 * h1' / h2) with (0.075 * (h1' / h2)) by (field; lra).
  set (f := h1 / h2) in *. set (f' := h1' / h2) in *. clearbody f f'.
  splits.
  - repeat apply Rmult_lt_0_compat; try assumption; lits; lra.
  - apply prod_lt; try lra. split. left. repeat apply Rmult_lt_0_compat; try assumption; lits; lra.
    apply Rmult_le_compat_r; [lra|]. apply Rmult_le_compat_r; [lra|]. apply Rmult_le_compat_l; [apply Rmult_le_pos; lra|]. lits; lra.
    repeat apply Rmult_lt_0_compat; try assumption; lits; lra.
  - f_equal. replace (0.001 - 0.001) with 0 by ring. ring.
Qed.
Example C57_full_Kindsvater_Carter_ex : 0 <= 0.1 < 0.3 /\ 0 < 0.4 /\ 0.001 < 2. Proof. lits; splits; lra. Qed.

(** Contracted rectangular weir (Kindsvater-Carter): positive and strictly increasing in the head up to a hundred times
    the crest height, for every crest of a millimetre or more. *)
Theorem C57_contracted_Kindsvater_Carter h1 h1' h2 b : 0 <= h1 < h1' -> h1' <= 100 * h2 -> 0.001 <= h2 -> 0 <= b ->
  exists Q Q', Q_weir_rectangular_Kindsvater_Carter h1 h2 b = Ok Q /\ Q_weir_rectangular_Kindsvater_Carter h1' h2 b = Ok Q' /\ 0 < Q < Q'.
Proof.
  intros H1 Hm H2 Hb. pose proof g_pos as G. assert (P2 : 0 < h2) by (lits; lra).
  unfold Q_weir_rectangular_Kindsvater_Carter. rewrite !psqrt_ok by (lits; lra). rewrite !pdiv_ok by lra. cbn [bind].
  rewrite !ppow_ok by (lits; lra). cbn [bind].
  do 2 eexists. split; [reflexivity|]. split; [reflexivity|].
  set (g := sqrt 9.80665) in *. clearbody g.
  assert (R15 : forall x, 0 < x -> Rpower x 1.5 = x * sqrt x).
  { intros x Hx. rewrite <- (Rpower_sqrt x Hx). rewrite <- (Rpower_1 x Hx) at 2. rewrite <- Rpower_plus. f_equal. lits; lra. }
  rewrite !R15 by (lits; lra).
  assert (S1 : 0 < sqrt (h1 + 0.0001) < sqrt (h1' + 0.0001)). { split. apply sqrt_lt_R0; lits; lra. apply sqrt_lt_1; lits; lra. }
  replace (0.0035 * h1 / h2) with (0.0035 * (h1 / h2)) by (field; lra). replace (0.0035 * h1' / h2) with (0.0035 * (h1' / h2)) by (field; lra).
  assert (B1 : 0 <= h1 / h2). { apply Rmult_le_pos; [lra|left; apply Rinv_0_lt_compat; lra]. }
  assert (B2 : h1' / h2 <= 100). { apply Rmult_le_reg_r with h2; [lra|]. replace (h1' / h2 * h2) with h1' by (field; lra). lra. }
  assert (E1 : h1 = h1 / h2 * h2) by (field; lra). assert (E2 : h1' = h1' / h2 * h2) by (field; lra).
  set (f := h1 / h2) in *. set (f' := h1' / h2) in *. clearbody f f'.
  assert (L : f < f') by nra.
  set (s := sqrt (h1 + 0.0001)) in *. set (s' := sqrt (h1' + 0.0001)) in *. clearbody s s'.
  assert (K : 0 < (1 - 0.0035 * f) * (h1 + 0.0001) < (1 - 0.0035 * f') * (h1' + 0.0001)).
  { rewrite E1, E2. split. apply Rmult_lt_0_compat; lits; nra.
    replace ((1 - 0.0035 * f') * (f' * h2 + 0.0001)) with ((1 - 0.0035 * f) * (f * h2 + 0.0001) + (f' - f) * (h2 * (1 - 0.0035 * (f + f')) - 0.00000035)) by (lits; field).
    assert (0 < h2 * (1 - 0.0035 * (f + f')) - 0.00000035). { assert (0.29 <= 1 - 0.0035 * (f + f')) by (clear - L B2; lits; lra). assert (0.001 * 0.29 <= h2 * (1 - 0.0035 * (f + f'))) by (apply Rmult_le_compat; lits; lra). lits; lra. }
    nra. }
  set (k := (1 - 0.0035 * f) * (h1 + 0.0001)) in *. set (k' := (1 - 0.0035 * f') * (h1' + 0.0001)) in *.
  replace (0.554 * (1 - 0.0035 * f) * (b + 0.0025) * g * ((h1 + 0.0001) * s)) with (0.554 * (b + 0.0025) * g * (k * s)) by (unfold k; ring).
  replace (0.554 * (1 - 0.0035 * f') * (b + 0.0025) * g * ((h1' + 0.0001) * s')) with (0.554 * (b + 0.0025) * g * (k' * s')) by (unfold k'; ring).
  clearbody k k'. assert (C : 0 < 0.554 * (b + 0.0025) * g) by (repeat apply Rmult_lt_0_compat; lits; lra). set (c := 0.554 * (b + 0.0025) * g) in *. clearbody c.
  assert (0 < k * s < k' * s') by (split; [apply Rmult_lt_0_compat; lra|apply prod_lt; lra]). split; [apply Rmult_lt_0_compat|apply Rmult_lt_compat_l]; lra.
Qed.
Example C57_contracted_Kindsvater_Carter_ex : 0 <= 0.1 < 0.2 /\ 0.2 <= 100 * 0.5 /\ 0.001 <= 0.5 /\ 0 <= 1. Proof. lits; splits; lra. Qed.

(** V-notch: for every opening angle the discharge is positive and grows strictly with the head. *)
Theorem C57_V_notch h1 h1' angle : 0 <= h1 < h1' -> 0 < angle < 180 ->
  exists Q Q', Q_weir_V_Shen h1 angle = Ok Q /\ Q_weir_V_Shen h1' angle = Ok Q' /\ 0 < Q < Q'.
Proof.
  intros H1 Ha. pose proof g_pos as G. unfold Q_weir_V_Shen.
  destruct (interp_bounds angle (map Q2R angles_Shen) (map Q2R Cs_Shen) 0.575 0.59) as [c [E1 B1]].
  { apply Qincr_ok; reflexivity. } { reflexivity. } { cbn; lia. } { apply Qbetween_ok; reflexivity. }
  destruct (interp_bounds angle (map Q2R angles_Shen) (map Q2R k_Shen) 0.001 0.0028) as [k [E2 B2]].
  { apply Qincr_ok; reflexivity. } { reflexivity. } { cbn; lia. } { apply Qbetween_ok; reflexivity. }
  rewrite E1, E2. cbn [bind]. rewrite psqrt_ok by (lits; lra). cbn [bind]. rewrite !ppow_ok by (lits; lra). cbn [bind].
  do 2 eexists. split; [reflexivity|]. split; [reflexivity|].
  assert (T : 0 < tan (radians angle / 2)). { unfold radians. pose proof PI_RGT_0. apply tan_gt_0; nra. }
  assert (C : 0 < c * tan (radians angle / 2) * sqrt 9.80665) by (assert (0 < c) by (clear - B1; lits; lra); apply Rmult_lt_0_compat; [apply Rmult_lt_0_compat; assumption|exact G]).
  split. apply Rmult_lt_0_compat; [lra|apply Rpower_pos]. apply Rmult_lt_compat_l; [lra|]. apply Rpower_lt_l; lits; lra.
Qed.
Example C57_V_notch_ex : 0 <= 0.1 < 0.2 /\ 0 < 90 < 180. Proof. lits; splits; lra. Qed.

(** ** Deviations *)
(** A weir passes nothing when the water does not rise above its crest.  For the contracted SIA weir this is false: at
    zero head the formula still returns the discharge of a head equal to the height of the crest, because the sum of
    head and crest height is raised to the power 3/2 - for every crest height and every notch. *)
Theorem C57_SIA_no_head_refuted h2 b b1 : 0 < h2 -> 0 < b <= b1 ->
  exists Q, Q_weir_rectangular_SIA 0 h2 b b1 = Ok Q /\ 0.544 * b * sqrt 9.80665 * Rpower h2 1.5 < Q.
Proof.
  intros H2 Hb. pose proof g_pos as G. unfold Q_weir_rectangular_SIA. cbv zeta. rewrite !(pdiv_ok b b1) by lra. cbn [bind].
  rewrite !Rplus_0_l. rewrite pdiv_ok by (lits; lra). cbn [bind]. rewrite pdiv_ok by lra. cbn [bind]. rewrite psqrt_ok by (lits; lra). cbn [bind].
  rewrite ppow_ok by lra. cbn [bind]. eexists; split; [reflexivity|].
  assert (R1 : 0 < b / b1 <= 1). { split. apply Rdiv_lt_0_compat; lra. apply Rmult_le_reg_r with b1; [lra|]. replace (b / b1 * b1) with b by (field; lra). lra. }
  replace (0 / h2) with 0 by (field; lra). set (r := b / b1) in *. clearbody r.
  pose proof (Rpower_pos h2 1.5) as P. set (p := Rpower h2 1.5) in *. clearbody p. set (g := sqrt 9.80665) in *. clearbody g.
  assert (R2 : 0 < r ^ 2 <= 1) by nra. set (u := r ^ 2) in *. clearbody u.
  replace (1 + 0.5 * r ^ 4 * 0 ^ 2) with 1 by ring.
  assert (K : 1 < 1 + 0.064 * u + (0.00626 - 0.00519 * u) / 0.0016) by (clear - R2; lits; lra).
  set (k := 1 + 0.064 * u + (0.00626 - 0.00519 * u) / 0.0016) in *. clearbody k.
  replace (0.544 * k * 1 * b * g * p) with (k * (0.544 * b * g * p)) by ring.
  assert (0 < 0.544 * b * g * p) by (repeat apply Rmult_lt_0_compat; lits; lra). nra.
Qed.
Example C57_SIA_no_head_refuted_ex : 0 < 0.5 /\ 0 < 1 <= 2. Proof. lits; splits; lra. Qed.

(** The discharge of a rectangular weir follows the 3/2 power of the head.  The SIA formula for the whole channel has a
    term linear in the head: the discharge coefficient Q/(b*sqrt(g)*h1^1.5) exceeds any bound for small heads. *)
Theorem C57_full_SIA_power_law_refuted h2 b M : 0 < h2 -> 0 < b -> 0 < M ->
  exists h1 Q, 0 < h1 /\ Q_weir_rectangular_full_SIA h1 h2 b = Ok Q /\ M * (b * sqrt 9.80665 * Rpower h1 1.5) < Q.
Proof.
  intros H2 Hb HM. pose proof g_pos as G. pose proof two_pos as T.
  assert (S2 : 1 <= sqrt 2) by (rewrite <- sqrt_1; apply sqrt_le_1_alt; lra).
  set (h := (/ (3 * M)) ^ 2). assert (I : 0 < / (3 * M)) by (apply Rinv_0_lt_compat; lra). assert (Hh : 0 < h) by (apply pow_lt; exact I).
  assert (E : Rpower h 1.5 = h * / (3 * M)).
  { replace 1.5 with (1 + / 2) by (lits; lra). rewrite Rpower_plus, Rpower_1, Rpower_sqrt by exact Hh. f_equal. unfold h. rewrite sqrt_pow2 by lra. reflexivity. }
  exists h. unfold Q_weir_rectangular_full_SIA. rewrite !psqrt_ok by (lits; lra). cbn [bind]. rewrite !pdiv_ok by (lits; lra). cbn [bind].
  rewrite ppow_ok by exact Hh. cbn [bind]. cbv zeta. eexists. split; [exact Hh|]. split; [reflexivity|].
  rewrite E. pose proof (Rpower_pos h 1.5) as P. rewrite E in P.
  set (g := sqrt 9.80665) in *. clearbody g. set (s := sqrt 2) in *. clearbody s. clearbody h.
  assert (D : 0 < 0.000615 / (h + 0.0016)) by (apply Rdiv_lt_0_compat; lits; lra). set (d := 0.000615 / (h + 0.0016)) in *. clearbody d.
  assert (F : 0 <= (h / (h + h2)) ^ 2) by apply pow2_ge_0. set (f := (h / (h + h2)) ^ 2) in *. clearbody f.
  assert (X : 0 < b * g * h) by (repeat apply Rmult_lt_0_compat; lra).
  assert (Y : 0 <= 0.5 * f * b * g * (h * / (3 * M))).
  { replace (0.5 * f * b * g * (h * / (3 * M))) with (0.5 * f * ((b * g) * (h * / (3 * M)))) by ring. apply Rmult_le_pos; [lits; lra|]. left. apply Rmult_lt_0_compat; [nra|exact P]. }
  replace (M * (b * g * (h * / (3 * M)))) with (/ 3 * (b * g * h)) by (field; lra).
  assert (Z : / 3 < 2 / 3 * s * (0.615 + d)). { assert (0.615 < s * (0.615 + d)) by (lits; nra). lits; lra. }
  replace (2 / 3 * s * (0.615 + d) * b * g * h) with (2 / 3 * s * (0.615 + d) * (b * g * h)) by ring.
  set (x := b * g * h) in *. clearbody x. nra.
Qed.
Example C57_full_SIA_power_law_refuted_ex : 0 < 0.4 /\ 0 < 2 /\ 0 < 100. Proof. lits; splits; lra. Qed.

Print Assumptions C57_conversions_are_inverse.
Print Assumptions C57_same_velocity.
Print Assumptions C57_Manning_monotone.
Print Assumptions C57_tables_ordered.
Print Assumptions C57_full_weirs.
Print Assumptions C57_full_Kindsvater_Carter.
Print Assumptions C57_contracted_Kindsvater_Carter.
Print Assumptions C57_V_notch.
Print Assumptions C57_SIA_no_head_refuted.
Print Assumptions C57_full_SIA_power_law_refuted.
