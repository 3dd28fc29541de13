(** Proofs about interpolated tables. *)
From Coq Require Import String List Bool QArith Qreals Reals ZArith Arith Lra Lia Psatz.
From Verif Require Import Base Sums Model_Numerics Model_Splines Proofs_Numerics Proofs_Splines Data_Piping Data_Pump Data_Safety Model_Tables Spec_Tables Proofs_Tables Proofs_Tables2.
Import ListNotations.
Local Open Scope R_scope.
Definition nonincreasing (l : list R) : Prop := forall i j, (i <= j)%nat -> (j < List.length l)%nat -> at_ l j <= at_ l i.

(** ** one-dimensional interpolation *)
Lemma interp_cases x dx dy : increasing dx -> List.length dx = List.length dy -> (2 <= List.length dx)%nat ->
  exists k, (S k < List.length dx)%nat /\ at_ dx k <= clamp (at_ dx 0) (at_ dx (List.length dx - 1)) x <= at_ dx (S k) /\
  interp x dx dy None None false = Ok (line (at_ dx k) (at_ dy k) (at_ dx (S k)) (at_ dy (S k)) (clamp (at_ dx 0) (at_ dx (List.length dx - 1)) x)).
Proof.
  intros Hx L Hl. assert (Hn : dx <> []) by (intros ->; simpl in Hl; lia).
  assert (M : at_ dx 0 < at_ dx (List.length dx - 1)) by (apply Hx; lia).
  destruct (Rlt_le_dec x (at_ dx 0)) as [H0|H0].
  - exists 0%nat. assert (C : clamp (at_ dx 0) (at_ dx (List.length dx - 1)) x = at_ dx 0) by (unfold clamp; rewrite Rmax_left, Rmin_right; lra).
    rewrite C. assert (at_ dx 0 < at_ dx 1) by (apply Hx; lia). splits; [lia|lra|lra|]. rewrite interp_below by auto. f_equal. unfold line. field. lra.
  - destruct (Rlt_le_dec (at_ dx (List.length dx - 1)) x) as [H1|H1].
    + exists (List.length dx - 2)%nat. assert (C : clamp (at_ dx 0) (at_ dx (List.length dx - 1)) x = at_ dx (List.length dx - 1)) by (unfold clamp; rewrite Rmax_right, Rmin_left; lra).
      rewrite C. replace (S (List.length dx - 2)) with (List.length dx - 1)%nat by lia.
      assert (at_ dx (List.length dx - 2) < at_ dx (List.length dx - 1)) by (apply Hx; lia). splits; [lia|lra|lra|].
      rewrite interp_above by auto. rewrite <- L. f_equal. unfold line. field. lra.
    + assert (C : clamp (at_ dx 0) (at_ dx (List.length dx - 1)) x = x) by (unfold clamp; rewrite Rmax_right, Rmin_right; lra). rewrite C.
      destruct (find_segment dx x) as (k & K1 & K2); [lia|lra|]. exists k. splits; auto; try lra. apply interp_inside; auto.
Qed.
Lemma line_opp x0 y0 x1 y1 x : line x0 (- y0) x1 (- y1) x = - line x0 y0 x1 y1 x.
Proof. unfold line. unfold Rdiv. ring. Qed.
Lemma at_opp l i : at_ (map Ropp l) i = - at_ l i.
Proof. unfold at_. rewrite <- Ropp_0 at 1. apply map_nth. Qed.
Lemma interp_opp x dx dy : increasing dx -> List.length dx = List.length dy -> (2 <= List.length dx)%nat ->
  interp x dx (map Ropp dy) None None false = rmap Ropp (interp x dx dy None None false).
Proof.
  intros Hx L Hl. assert (Hn : dx <> []) by (intros ->; simpl in Hl; lia).
  destruct (Rlt_le_dec x (at_ dx 0)) as [H0|H0].
  - rewrite !interp_below by (auto; rewrite ?map_length; auto). cbn [rmap]. now rewrite at_opp.
  - destruct (Rlt_le_dec (at_ dx (List.length dx - 1)) x) as [H1|H1].
    + rewrite !interp_above by (auto; rewrite ?map_length; auto). rewrite map_length. cbn [rmap]. now rewrite at_opp.
    + destruct (find_segment dx x) as (k & K1 & K2); [lia|lra|].
      rewrite !(interp_inside x dx _ _ _ _ k) by (auto; rewrite ?map_length; auto). cbn [rmap]. rewrite !at_opp. f_equal. apply line_opp.
Qed.
Lemma interp_anti x x' dx dy v v' : increasing dx -> List.length dx = List.length dy -> (2 <= List.length dx)%nat -> nonincreasing dy ->
  x <= x' -> interp x dx dy None None false = Ok v -> interp x' dx dy None None false = Ok v' -> v' <= v.
Proof.
  intros Hx L Hl Hd Hxx E E'. assert (Hn : dx <> []) by (intros ->; simpl in Hl; lia).
  pose proof (interp_opp x dx dy Hx L Hl) as O1. pose proof (interp_opp x' dx dy Hx L Hl) as O2. rewrite E in O1. rewrite E' in O2. cbn [rmap] in *.
  assert (- v <= - v'); [|lra]. apply (interp_mono x x' dx (map Ropp dy)); auto.
  - rewrite map_length; auto.
  - intros i j Hij Hj. rewrite map_length in Hj. rewrite !at_opp. specialize (Hd i j Hij Hj). lra.
Qed.
Lemma interp_bounds x dx dy m M : increasing dx -> List.length dx = List.length dy -> (2 <= List.length dx)%nat ->
  (forall i, (i < List.length dy)%nat -> m <= at_ dy i <= M) -> exists v, interp x dx dy None None false = Ok v /\ m <= v <= M.
Proof.
  intros Hx L Hl Hb. assert (Hn : dx <> []) by (intros ->; simpl in Hl; lia).
  destruct (interp_default_total x dx dy Hx L Hn) as [v E]. exists v. split; auto.
  destruct (interp_range x dx dy v Hx L Hn E) as (i & j & Hi & Hj & B). pose proof (Hb i Hi). pose proof (Hb j Hj). lra.
Qed.
(** comparing two tables whose nodes agree up to the last node of the first *)
Lemma interp_compare x dx dy dx2 dy2 v v2 : increasing dx -> List.length dx = List.length dy -> (2 <= List.length dx)%nat ->
  increasing dx2 -> List.length dx2 = List.length dy2 -> (List.length dx <= List.length dx2)%nat ->
  (forall i, (i < List.length dx)%nat -> at_ dx2 i = at_ dx i /\ at_ dy2 i <= at_ dy i) ->
  x <= at_ dx (List.length dx - 1) ->
  interp x dx dy None None false = Ok v -> interp x dx2 dy2 None None false = Ok v2 -> v2 <= v.
Proof.
  intros Hx L Hl Hx2 L2 Hl2 Hc Hle E E2. assert (Hn : dx <> []) by (intros ->; simpl in Hl; lia).
  assert (Hn2 : dx2 <> []) by (intros ->; simpl in Hl2; lia).
  destruct (Rlt_le_dec x (at_ dx 0)) as [H0|H0].
  - rewrite interp_below in E by auto. rewrite interp_below in E2; auto; [|destruct (Hc 0%nat); [lia|lra]].
    injection E as <-. injection E2 as <-. apply Hc. lia.
  - destruct (find_segment dx x) as (k & K1 & K2); [lia|lra|].
    destruct (Hc k) as [A1 A2]; [lia|]. destruct (Hc (S k)) as [B1 B2]; [lia|].
    rewrite (interp_inside x dx _ _ _ _ k) in E by auto. rewrite (interp_inside x dx2 _ _ _ _ k) in E2 by (auto; try lia; lra).
    injection E as <-. injection E2 as <-. rewrite A1, B1. assert (at_ dx k < at_ dx (S k)) by (apply Hx; lia).
    unfold line. set (s := (x - at_ dx k) / (at_ dx (S k) - at_ dx k)).
    assert (0 <= s <= 1).
    { unfold s. split; [apply Rmult_le_pos; [lra|apply Rlt_le, Rinv_0_lt_compat; lra]|]. apply Rmult_le_reg_r with (at_ dx (S k) - at_ dx k); [lra|].
      unfold Rdiv. rewrite Rmult_assoc, Rinv_l by lra. lra. }
    nra.
Qed.
(** ** surfaces *)
Lemma surface_rows xs ys (z : list (list R)) y : increasing xs -> increasing ys -> (2 <= List.length xs)%nat -> (2 <= List.length ys)%nat ->
  List.length z = List.length ys -> (forall r, In r z -> List.length r = List.length xs) ->
  exists tx ty c, tck_interp2d_linear xs ys z = Ok (tx, ty, c) /\
  exists j s, (j + 1 < List.length ys)%nat /\ 0 <= s <= 1 /\ forall x, exists a b,
    interp x xs (nth j z []) None None false = Ok a /\ interp x xs (nth (j + 1) z []) None None false = Ok b /\
    bisplev tx ty c 1 1 x y = Ok ((1 - s) * a + s * b).
Proof.
  intros Hx Hy Lx Ly Lz Hr. do 3 eexists. split; [apply tck_ok; auto; lia|].
  set (cy := clamp (at_ ys 0) (at_ ys (List.length ys - 1)) y).
  assert (M : at_ ys 0 < at_ ys (List.length ys - 1)) by (apply Hy; lia).
  assert (Hcy : at_ ys 0 <= cy <= at_ ys (List.length ys - 1)).
  { unfold cy, clamp. split; [apply Rmin_glb; [lra|apply Rmax_l]|apply Rmin_l]. }
  destruct (find_segment ys cy) as (j & J1 & J2); [lia|lra|]. replace (S j) with (j + 1)%nat in * by lia.
  assert (Hj : at_ ys j < at_ ys (j + 1)) by (apply Hy; lia).
  exists j, ((cy - at_ ys j) / (at_ ys (j + 1) - at_ ys j)). splits; auto.
  { apply Rmult_le_pos; [lra|apply Rlt_le, Rinv_0_lt_compat; lra]. }
  { apply Rmult_le_reg_r with (at_ ys (j + 1) - at_ ys j); [lra|]. unfold Rdiv. rewrite Rmult_assoc, Rinv_l by lra. lra. }
  intros x.
  assert (R1 : List.length xs = List.length (nth j z [])) by (symmetry; apply Hr, nth_In; lia).
  assert (R2 : List.length xs = List.length (nth (j + 1) z [])) by (symmetry; apply Hr, nth_In; lia).
  destruct (interp_cases x xs (nth j z []) Hx R1 Lx) as (i & I1 & I2 & I3).
  assert (I4 : interp x xs (nth (j + 1) z []) None None false = Ok (line (at_ xs i) (at_ (nth (j + 1) z []) i) (at_ xs (S i)) (at_ (nth (j + 1) z []) (S i)) (clamp (at_ xs 0) (at_ xs (List.length xs - 1)) x))).
  { clear I3. assert (at_ xs i < at_ xs (S i)) by (apply Hx; lia). assert (Mx : at_ xs 0 < at_ xs (List.length xs - 1)) by (apply Hx; lia).
    assert (Hn : xs <> []) by (intros ->; simpl in Lx; lia).
    destruct (Rlt_le_dec x (at_ xs 0)) as [H0|H0].
    - assert (C : clamp (at_ xs 0) (at_ xs (List.length xs - 1)) x = at_ xs 0) by (unfold clamp; rewrite Rmax_left, Rmin_right; lra).
      rewrite C in *. rewrite interp_below by auto. assert (i = 0%nat) as ->.
      { destruct i; auto. assert (at_ xs 0 < at_ xs (S i)) by (apply Hx; lia). lra. }
      f_equal. unfold line. field. lra.
    - destruct (Rlt_le_dec (at_ xs (List.length xs - 1)) x) as [H1|H1].
      + assert (C : clamp (at_ xs 0) (at_ xs (List.length xs - 1)) x = at_ xs (List.length xs - 1)) by (unfold clamp; rewrite Rmax_right, Rmin_left; lra).
        rewrite C in *. rewrite interp_above by auto. rewrite <- R2. assert (S i = (List.length xs - 1)%nat) as E.
        { destruct (Nat.eq_dec (S i) (List.length xs - 1)); auto. assert (at_ xs (S i) < at_ xs (List.length xs - 1)) by (apply Hx; lia). lra. }
        rewrite <- E in *. f_equal. unfold line. field. lra.
      + assert (C : clamp (at_ xs 0) (at_ xs (List.length xs - 1)) x = x) by (unfold clamp; rewrite Rmax_right, Rmin_right; lra). rewrite C in *.
        apply interp_inside; auto. }
  eexists; eexists. split; [exact I3|]. split; [exact I4|].
  destruct (bisplev_linear xs ys z x y i j) as (tx & ty & c & E1 & E2); auto; try lia.
  { replace (i + 1)%nat with (S i) by lia. auto. }
  rewrite tck_ok in E1 by (auto; lia). injection E1 as <- <- <-. rewrite E2. f_equal. unfold bilinear. fold cy. replace (i + 1)%nat with (S i) by lia. unfold zget, at_, line. ring.
Qed.
Lemma surface_bounds xs ys (z : list (list R)) m M : increasing xs -> increasing ys -> (2 <= List.length xs)%nat -> (2 <= List.length ys)%nat ->
  List.length z = List.length ys -> (forall r, In r z -> List.length r = List.length xs) -> (forall r v, In r z -> In v r -> m <= v <= M) ->
  exists tx ty c, tck_interp2d_linear xs ys z = Ok (tx, ty, c) /\ forall x y, exists v, bisplev tx ty c 1 1 x y = Ok v /\ m <= v <= M.
Proof.
  intros Hx Hy Lx Ly Lz Hr Hb. do 3 eexists. split; [apply tck_ok; auto; lia|]. intros x y.
  destruct (surface_rows xs ys z y Hx Hy Lx Ly Lz Hr) as (tx & ty & c & E1 & j & s & J & S & F).
  rewrite tck_ok in E1 by (auto; lia). injection E1 as <- <- <-. destruct (F x) as (a & b & A & B & E). eexists; split; [exact E|].
  assert (G : forall j v, (j < List.length z)%nat -> interp x xs (nth j z []) None None false = Ok v -> m <= v <= M).
  { intros j' v Hj Hv. assert (R1 : List.length xs = List.length (nth j' z [])) by (symmetry; apply Hr, nth_In; lia).
    destruct (interp_bounds x xs (nth j' z []) m M Hx R1 Lx) as (v' & V1 & V2).
    - intros i Hi. apply (Hb (nth j' z [])); apply nth_In; auto.
    - congruence. }
  pose proof (G j a ltac:(lia) A). pose proof (G (j + 1)%nat b ltac:(lia) B). nra.
Qed.
Lemma surface_mono xs ys (z : list (list R)) : increasing xs -> increasing ys -> (2 <= List.length xs)%nat -> (2 <= List.length ys)%nat ->
  List.length z = List.length ys -> (forall r, In r z -> List.length r = List.length xs) -> (forall r, In r z -> nondecreasing r) ->
  exists tx ty c, tck_interp2d_linear xs ys z = Ok (tx, ty, c) /\ forall x x' y v v', x <= x' ->
    bisplev tx ty c 1 1 x y = Ok v -> bisplev tx ty c 1 1 x' y = Ok v' -> v <= v'.
Proof.
  intros Hx Hy Lx Ly Lz Hr Hb. do 3 eexists. split; [apply tck_ok; auto; lia|]. intros x x' y v v' Hxx V V'.
  destruct (surface_rows xs ys z y Hx Hy Lx Ly Lz Hr) as (tx & ty & c & E1 & j & s & J & S & F).
  rewrite tck_ok in E1 by (auto; lia). injection E1 as <- <- <-. destruct (F x) as (a & b & A & B & E). destruct (F x') as (a' & b' & A' & B' & E').
  rewrite E in V. rewrite E' in V'. injection V as <-. injection V' as <-.
  assert (Hn : xs <> []) by (intros ->; simpl in Lx; lia).
  assert (a <= a'). { apply (interp_mono x x' xs (nth j z [])); auto; [symmetry; apply Hr|apply Hb]; apply nth_In; lia. }
  assert (b <= b'). { apply (interp_mono x x' xs (nth (j + 1) z [])); auto; [symmetry; apply Hr|apply Hb]; apply nth_In; lia. }
  nra.
Qed.
Lemma surface_anti xs ys (z : list (list R)) : increasing xs -> increasing ys -> (2 <= List.length xs)%nat -> (2 <= List.length ys)%nat ->
  List.length z = List.length ys -> (forall r, In r z -> List.length r = List.length xs) -> (forall r, In r z -> nonincreasing r) ->
  exists tx ty c, tck_interp2d_linear xs ys z = Ok (tx, ty, c) /\ forall x x' y v v', x <= x' ->
    bisplev tx ty c 1 1 x y = Ok v -> bisplev tx ty c 1 1 x' y = Ok v' -> v' <= v.
Proof.
  intros Hx Hy Lx Ly Lz Hr Hb. do 3 eexists. split; [apply tck_ok; auto; lia|]. intros x x' y v v' Hxx V V'.
  destruct (surface_rows xs ys z y Hx Hy Lx Ly Lz Hr) as (tx & ty & c & E1 & j & s & J & S & F).
  rewrite tck_ok in E1 by (auto; lia). injection E1 as <- <- <-. destruct (F x) as (a & b & A & B & E). destruct (F x') as (a' & b' & A' & B' & E').
  rewrite E in V. rewrite E' in V'. injection V as <-. injection V' as <-.
  assert (a' <= a). { apply (interp_anti x x' xs (nth j z [])); auto; [symmetry; apply Hr|apply Hb]; apply nth_In; lia. }
  assert (b' <= b). { apply (interp_anti x x' xs (nth (j + 1) z [])); auto; [symmetry; apply Hr|apply Hb]; apply nth_In; lia. }
  nra.
Qed.
(** ** checks on rational tables *)
Definition Qbetween (m M : Q) (l : list Q) : bool := forallb (fun v => Qle_bool m v && Qle_bool v M) l.
Lemma Qbetween_ok m M l : Qbetween m M l = true -> forall i, (i < List.length (map Q2R l))%nat -> Q2R m <= at_ (map Q2R l) i <= Q2R M.
Proof.
  intros H i Hi. rewrite map_length in Hi. rewrite at_map by auto. unfold Qbetween in H. rewrite forallb_forall in H.
  specialize (H (nth i l 0%Q) (nth_In _ _ Hi)). apply andb_prop in H. destruct H. split; apply Qle_lit; auto.
Qed.
Definition Qnonincr (l : list Q) : bool := Qnondecr (rev l).
Lemma Qnonincr_ok l : Qnonincr l = true -> nonincreasing (map Q2R l).
Proof.
  intros H. apply Qnondecr_ok in H. intros i j Hij Hj. rewrite map_length in Hj. rewrite !at_map by lia.
  assert (K : forall k, (k < List.length l)%nat -> Q2R (nth k l 0%Q) = at_ (map Q2R (rev l)) (List.length l - S k)).
  { intros k Hk. rewrite at_map by (rewrite rev_length; lia). rewrite rev_nth by lia. do 2 f_equal. lia. }
  rewrite !K by lia. apply H; [lia|]. rewrite map_length, rev_length. lia.
Qed.
Definition Qsurface (xs ys : list Q) (z : list (list Q)) : bool :=
  Qincr xs && Qincr ys && Nat.leb 2 (List.length xs) && Nat.leb 2 (List.length ys) && Nat.eqb (List.length z) (List.length ys)
  && forallb (fun r => Nat.eqb (List.length r) (List.length xs)) z.
Lemma Qsurface_ok xs ys z : Qsurface xs ys z = true ->
  increasing (map Q2R xs) /\ increasing (map Q2R ys) /\ (2 <= List.length (map Q2R xs))%nat /\ (2 <= List.length (map Q2R ys))%nat /\
  List.length (map (map Q2R) z) = List.length (map Q2R ys) /\ (forall r, In r (map (map Q2R) z) -> List.length r = List.length (map Q2R xs)).
Proof.
  intros H. unfold Qsurface in H. repeat (apply andb_prop in H; destruct H as [H ?]). rewrite !map_length. rewrite Nat.leb_le, Nat.eqb_eq in *.
  splits; auto using Qincr_ok. intros r Hr. apply in_map_iff in Hr. destruct Hr as (r' & <- & Hr). rewrite map_length.
  rewrite forallb_forall in H0. specialize (H0 r' Hr). now apply Nat.eqb_eq in H0.
Qed.
Lemma interp_node x y i : increasing x -> List.length x = List.length y -> (2 <= List.length x)%nat -> (i < List.length x)%nat ->
  interp (at_ x i) x y None None false = Ok (at_ y i).
Proof.
  intros A C D Hi. assert (N : x <> []) by (intros Q; rewrite Q in D; simpl in D; lia).
  assert (M : forall a b, (a <= b)%nat -> (b < List.length x)%nat -> at_ x a <= at_ x b).
  { intros a b Hab Hb. destruct (Nat.eq_dec a b) as [->|]; [lra|]. apply Rlt_le, A; lia. }
  destruct (find_segment x (at_ x i)) as (k & K1 & K2); [lia|split; apply M; lia|].
  rewrite (interp_inside _ _ _ _ _ _ k); auto. assert (Hk : at_ x k < at_ x (S k)) by (apply A; lia).
  assert (i = k \/ i = S k) as [-> | ->].
  { destruct (lt_eq_lt_dec i k) as [[L|L]|L]; auto.
    - assert (at_ x i < at_ x k) by (apply A; lia). lra.
    - destruct (Nat.eq_dec i (S k)); auto. assert (at_ x (S k) < at_ x i) by (apply A; lia). lra. }
  - f_equal. unfold line. field. lra.
  - f_equal. unfold line. field. lra.
Qed.
