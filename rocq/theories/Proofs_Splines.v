(** Proofs about B-spline evaluation. *)
From Coq Require Import List Bool Reals ZArith Arith Lra Lia Psatz QArith.
From Verif Require Import Base Sums Model_Poly Model_Numerics Proofs_Numerics Model_Splines.
Import ListNotations.
Local Open Scope R_scope.

(** sum of c_(i+j) w_j *)
Fixpoint wsum (c : list R) (i : nat) (w : list R) : R :=
  match w with [] => 0 | v :: r => at_ c i * v + wsum c (S i) r end.
Definition weights (w : list R) : Prop := (forall v, In v w -> 0 <= v) /\ lsum w = 1.

Lemma wsum_bounds c w : forall i m M, (forall v, In v w -> 0 <= v) ->
  (forall j, (i <= j < i + length w)%nat -> m <= at_ c j <= M) -> m * lsum w <= wsum c i w <= M * lsum w.
Proof.
  induction w as [|v w IH]; intros i m M Hw Hc; simpl; [lra|].
  assert (0 <= v) by (apply Hw; now left).
  assert (m <= at_ c i <= M) by (apply Hc; simpl; lia).
  assert (K : m * lsum w <= wsum c (S i) w <= M * lsum w).
  { apply IH; [intros; apply Hw; now right|]. intros j Hj. apply Hc. simpl. lia. }
  assert (m * v <= at_ c i * v <= M * v) by (split; apply Rmult_le_compat_r; lra). lra.
Qed.
Lemma wsum_avg c w i m M : weights w -> (forall j, (i <= j < i + length w)%nat -> m <= at_ c j <= M) -> m <= wsum c i w <= M.
Proof. intros [Hw Hs] Hc. pose proof (wsum_bounds c w i m M Hw Hc). rewrite Hs in H. lra. Qed.
Lemma dot_from_ok c : forall h i sp, (i + length h <= length c)%nat -> dot_from c i h sp = Ok (sp + wsum c i h).
Proof.
  induction h as [|v h IH]; intros i sp H; simpl in *; [f_equal; numR; lra|].
  rewrite idx_at by lia. cbn [bind]. rewrite IH by lia. f_equal. numR. lra.
Qed.

(** the interval found: t_(l-1) < t_l with k knots on each side *)
Definition located (t : list R) (k l : nat) : Prop :=
  nondecreasing t /\ (k < l)%nat /\ (l + k <= length t)%nat /\ (l < length t)%nat /\ at_ t (l - 1) < at_ t l.
Lemma fpbspl_row_ok t k l x : located t k l -> forall hh j i carry, (1 <= j <= k)%nat -> (i + length hh = j)%nat ->
  exists w, fpbspl_row t x l j i carry hh = Ok w /\ length w = S (length hh) /\ lsum w = carry + lsum hh /\
    (at_ t (l - 1) <= x <= at_ t l -> 0 <= carry -> (forall v, In v hh -> 0 <= v) -> forall v, In v w -> 0 <= v).
Proof.
  intros (Hn & Hkl & Hlk & Hll & Hlt). induction hh as [|v hh IH]; intros j i carry Hj Hi; cbn [fpbspl_row].
  { exists [carry]. splits; [reflexivity|reflexivity|simpl; lra|intros _ Hc _ v [<-|[]]; auto]. }
  simpl in Hi. rewrite !idx_at by lia. cbn [bind]. numR.
  assert (Hr : at_ t l <= at_ t (l + i)) by (apply Hn; lia).
  assert (Hl : at_ t (l + i - j) <= at_ t (l - 1)) by (apply Hn; lia).
  rewrite pydivR_ok by lra. cbn [bind].
  set (f := v / (at_ t (l + i) - at_ t (l + i - j))).
  destruct (IH j (S i) (f * (x - at_ t (l + i - j)))) as (w & -> & Hw & Hs & Hp); try lia.
  cbn [bind]. exists ((carry + f * (at_ t (l + i) - x)) :: w). splits.
  - reflexivity.
  - simpl. lia.
  - simpl. rewrite Hs. unfold f. field. lra.
  - intros Hx Hc Hv u [<-|Hu].
    + assert (0 <= f) by (apply Rmult_le_pos; [apply Hv; now left|apply Rlt_le, Rinv_0_lt_compat; lra]). nra.
    + apply (Hp Hx); auto; [|intros; apply Hv; now right].
      assert (0 <= f) by (apply Rmult_le_pos; [apply Hv; now left|apply Rlt_le, Rinv_0_lt_compat; lra]). nra.
Qed.
Lemma fpbspl_ok t l x : forall k K, (k <= K)%nat -> located t K l ->
  exists w, fpbspl t k x l = Ok w /\ length w = S k /\ lsum w = 1 /\ (at_ t (l - 1) <= x <= at_ t l -> forall v, In v w -> 0 <= v).
Proof.
  induction k; intros K HK Hl; cbn [fpbspl].
  { exists [1]. numR. splits; [reflexivity|reflexivity|simpl; lra|intros _ v [<-|[]]; lra]. }
  destruct (IHk K) as (h & -> & H1 & H2 & H3); auto; [lia|]. cbn [bind]. numR.
  destruct (fpbspl_row_ok t K l x Hl h (S k) 0 0) as (w & E & W1 & W2 & W3); try lia.
  exists w. splits; auto; try lia; try lra. intros Hx v. apply W3; auto; lra.
Qed.

(** ** searching *)
Lemma splev_search t arg nk1 : forall fuel l, (l <= nk1)%nat -> (nk1 < length t)%nat -> (nk1 < fuel + l)%nat -> at_ t (l - 1) <= arg ->
  exists l', func_40_splev fuel t arg l nk1 = Ok l' /\ (l <= l' <= nk1)%nat /\ at_ t (l' - 1) <= arg /\ (arg < at_ t l' \/ l' = nk1).
Proof.
  induction fuel; intros l H1 H2 H3 H4; [lia|]. cbn [func_40_splev]. rewrite idx_at by lia. cbn [bind]. numR.
  destruct (Rltb arg (at_ t l)) eqn:E; cbn [orb].
  { apply Rltb_true in E. exists l. splits; auto; lia. }
  apply Rltb_false in E. destruct (Nat.eqb_spec l nk1).
  { exists l. splits; auto; lia. }
  destruct (IHfuel (S l)) as (l' & E' & K1 & K2 & K3); try lia.
  { replace (S l - 1)%nat with l by lia. auto. }
  exists l'. splits; auto; lia.
Qed.
Lemma init_w_search t arg l stop fuel : init_w_loop fuel t arg l stop = func_40_splev fuel t arg l stop.
Proof. reflexivity. Qed.

Definition good_knots (t : list R) (k : nat) : Prop :=
  nondecreasing t /\ (2 * k + 2 <= length t)%nat /\ at_ t (length t - k - 2) < at_ t (length t - k - 1).
Lemma search_located t k x : good_knots t k -> at_ t k <= x <= at_ t (length t - k - 1) ->
  exists l, func_40_splev (S (length t)) t x (S k) (length t - k - 1) = Ok l /\ (S k <= l <= length t - k - 1)%nat /\
    located t k l /\ at_ t (l - 1) <= x <= at_ t l /\ (x < at_ t l \/ l = (length t - k - 1)%nat).
Proof.
  intros (Hn & Hlen & Hlast) Hx.
  destruct (splev_search t x (length t - k - 1) (S (length t)) (S k)) as (l & E & K1 & K2 & K3); try lia.
  { replace (S k - 1)%nat with k by lia. lra. }
  exists l. splits; auto; try lia.
  - unfold located; splits; auto; try lia. destruct K3 as [K3| ->]; [lra|]. replace (length t - k - 1 - 1)%nat with (length t - k - 2)%nat by lia. auto.
  - destruct K3 as [K3| ->]; lra.
Qed.
Lemma splev_inside t c k x ext : good_knots t k -> (length t - k - 1 <= length c)%nat -> at_ t k <= x <= at_ t (length t - k - 1) ->
  exists l w, (S k <= l <= length t - k - 1)%nat /\ at_ t (l - 1) <= x <= at_ t l /\ (x < at_ t l \/ l = (length t - k - 1)%nat) /\
    length w = S k /\ weights w /\ fpbspl t k x l = Ok w /\
    py_splev x t c k ext = Ok (wsum c (l - S k) w).
Proof.
  intros Hg Hc Hx. pose proof Hg as (Hn & Hlen & Hlast).
  destruct (search_located t k x Hg Hx) as (l & E & K1 & K2 & K3 & K3').
  destruct (fpbspl_ok t l x k k) as (w & Ew & W1 & W2 & W3); auto.
  exists l, w. splits; auto; try lia; try lra.
  - split; auto.
  - unfold py_splev. replace (length t - S k)%nat with (length t - k - 1)%nat by lia. rewrite !idx_at by lia. cbn [bind]. cbv zeta. numR.
    assert (Rltb x (at_ t k) = false) as -> by (apply Rltb_false; lra).
    assert (Rltb (at_ t (length t - k - 1)) x = false) as -> by (apply Rltb_false; lra). cbn [orb andb].
    rewrite E. cbn [bind]. rewrite Ew. cbn [bind]. rewrite dot_from_ok by lia. f_equal. lra.
Qed.
Lemma splev_range t c k x ext m M : good_knots t k -> (length t - k - 1 <= length c)%nat -> at_ t k <= x <= at_ t (length t - k - 1) ->
  (forall j, (j < length t - k - 1)%nat -> m <= at_ c j <= M) ->
  exists v, py_splev x t c k ext = Ok v /\ m <= v <= M.
Proof.
  intros Hg Hc Hx Hm. destruct (splev_inside t c k x ext Hg Hc Hx) as (l & w & K1 & K2 & K2' & K3 & K4 & _ & E).
  eexists; split; [exact E|]. apply wsum_avg; auto. intros j Hj. apply Hm. lia.
Qed.
(** degree one: the straight line between consecutive knots *)
Lemma fpbspl_1 t l x : located t 1 l -> fpbspl t 1 x l =
  Ok [(at_ t l - x) / (at_ t l - at_ t (l - 1)); (x - at_ t (l - 1)) / (at_ t l - at_ t (l - 1))].
Proof.
  intros (Hn & Hkl & Hlk & Hll & Hlt). cbn [fpbspl bind fpbspl_row]. replace (l + 0)%nat with l by lia. rewrite !idx_at by lia. cbn [bind]. numR.
  rewrite pydivR_ok by lra. cbn [bind]. f_equal. f_equal; [field; lra|]. f_equal. field. lra.
Qed.
Lemma splev_1 t c x ext l : good_knots t 1 -> (length t - 2 <= length c)%nat -> (2 <= l <= length t - 2)%nat ->
  at_ t (l - 1) < at_ t l -> at_ t (l - 1) <= x < at_ t l \/ (at_ t (l - 1) <= x <= at_ t l /\ l = (length t - 2)%nat) ->
  py_splev x t c 1 ext = Ok (line (at_ t (l - 1)) (at_ c (l - 2)) (at_ t l) (at_ c (l - 1)) x).
Proof.
  intros Hg Hc Hl Hlt Hx. pose proof Hg as (Hn & Hlen & Hlast).
  assert (Hx1 : at_ t (l - 1) <= x <= at_ t l) by (destruct Hx; lra).
  assert (A1 : at_ t 1 <= at_ t (l - 1)) by (apply Hn; lia).
  assert (A2 : at_ t l <= at_ t (length t - 1 - 1)) by (apply Hn; lia).
  destruct (splev_inside t c 1 x ext Hg) as (l' & w & K1 & K2 & K2' & K3 & K4 & Ew & E); try lia; [lra|].
  assert (l' = l) as ->.
  { destruct (lt_eq_lt_dec l' l) as [[Q|Q]|Q]; auto; exfalso.
    - assert (at_ t l' <= at_ t (l - 1)) by (apply Hn; lia). destruct K2' as [K2'|K2']; [lra|lia].
    - assert (at_ t l <= at_ t (l' - 1)) by (apply Hn; lia). destruct Hx as [Hx|[_ Hx]]; [lra|lia]. }
  assert (L : located t 1 l) by (unfold located; splits; auto; lia).
  rewrite (fpbspl_1 t l x L) in Ew. injection Ew as <-. rewrite E. f_equal. cbn [wsum].
  replace (S (l - 2)) with (l - 1)%nat by lia. unfold line. field. lra.
Qed.

(** ** outside the domain *)
Lemma splev_outside t c k x ext : (k < length t)%nat -> (length t - S k < length t)%nat -> (x < at_ t k \/ at_ t (length t - k - 1) < x) ->
  (ext = 1%Z -> py_splev x t c k ext = Ok 0) /\ (ext = 2%Z -> py_splev x t c k ext = Err ValueError) /\
  (ext = 3%Z -> at_ t k <= at_ t (length t - k - 1) ->
     py_splev x t c k ext = py_splev (Rmax (at_ t k) (Rmin x (at_ t (length t - k - 1)))) t c k ext).
Proof.
  intros Hk Hk2 Hx. unfold py_splev. replace (length t - S k)%nat with (length t - k - 1)%nat by lia. rewrite !idx_at by lia. cbn [bind]. cbv zeta. numR.
  assert (O : Rltb x (at_ t k) || Rltb (at_ t (length t - k - 1)) x = true).
  { apply orb_true_iff. destruct Hx as [Hx|Hx]; [left|right]; now apply Rltb_true. }
  rewrite !O. cbn [andb]. splits.
  - intros ->. reflexivity.
  - intros ->. reflexivity.
  - intros -> Hle. cbn [Z.eqb Pos.eqb orb negb andb].
    assert (O2 : Rltb (Rmax (at_ t k) (Rmin x (at_ t (length t - k - 1)))) (at_ t k) = false) by (apply Rltb_false, Rmax_l).
    assert (O3 : Rltb (at_ t (length t - k - 1)) (Rmax (at_ t k) (Rmin x (at_ t (length t - k - 1)))) = false).
    { apply Rltb_false. apply Rmax_lub; [auto|apply Rmin_r]. }
    rewrite !O2, !O3. cbn [orb andb].
    assert (A : (if Rltb x (at_ t k) then at_ t k else at_ t (length t - k - 1)) = Rmax (at_ t k) (Rmin x (at_ t (length t - k - 1)))).
    { destruct (Rltb x (at_ t k)) eqn:E.
      - apply Rltb_true in E. rewrite Rmin_left by lra. rewrite Rmax_left by lra. reflexivity.
      - apply Rltb_false in E. destruct Hx as [Hx|Hx]; [lra|]. rewrite Rmin_right by lra. rewrite Rmax_right by lra. reflexivity. }
    rewrite A. reflexivity.
Qed.
(** a constant spline extrapolates to the same constant *)
Lemma wsum_const c w : forall i m, (forall j, (i <= j < i + length w)%nat -> at_ c j = m) -> wsum c i w = m * lsum w.
Proof.
  induction w as [|v w IH]; intros i m Hc; simpl; [lra|]. rewrite (Hc i) by (simpl; lia). rewrite (IH (S i) m); [lra|].
  intros j Hj. apply Hc. simpl. lia.
Qed.
Lemma splev_search_low t arg nk1 fuel l : (l < length t)%nat -> arg < at_ t l -> func_40_splev (S fuel) t arg l nk1 = Ok l.
Proof. intros H1 H. cbn [func_40_splev]. rewrite idx_at by lia. cbn [bind]. numR. apply Rltb_true in H. rewrite H. reflexivity. Qed.
Lemma splev_constant t c k x m : good_knots t k -> at_ t k < at_ t (S k) -> (length t - k - 1 <= length c)%nat ->
  (forall j, (j < length t - k - 1)%nat -> at_ c j = m) -> py_splev x t c k 0 = Ok m.
Proof.
  intros Hg Hk Hc Hm. pose proof Hg as (Hn & Hlen & Hlast).
  assert (exists l, func_40_splev (S (length t)) t x (S k) (length t - k - 1) = Ok l /\ (S k <= l <= length t - k - 1)%nat /\ located t k l) as (l & E & K1 & K2).
  { destruct (Rlt_dec x (at_ t k)) as [Hx|Hx].
    - exists (S k). split; [apply splev_search_low; [lia|lra]|split; [lia|]].
      unfold located; splits; auto; try lia. now replace (S k - 1)%nat with k by lia.
    - destruct (Rle_dec x (at_ t (length t - k - 1))) as [Hx2|Hx2].
      + destruct (search_located t k x Hg) as (l & E & K1 & K2 & _); [lra|]. exists l. splits; auto; lia.
      + destruct (splev_search t x (length t - k - 1) (S (length t)) (S k)) as (l & E & K1 & K2 & K3); try lia.
        { replace (S k - 1)%nat with k by lia. lra. }
        exists l. splits; auto; try lia. destruct K3 as [K3| ->].
        { assert (at_ t l <= at_ t (length t - k - 1)) by (apply Hn; lia). lra. }
        unfold located; splits; auto; try lia. now replace (length t - k - 1 - 1)%nat with (length t - k - 2)%nat by lia. }
  destruct (fpbspl_ok t l x k k) as (w & Ew & W1 & W2 & W3); auto.
  unfold py_splev. replace (length t - S k)%nat with (length t - k - 1)%nat by lia. rewrite !idx_at by lia. cbn [bind]. cbv zeta.
  cbn [Z.eqb orb negb]. rewrite !andb_false_r. rewrite E. cbn [bind]. rewrite Ew. cbn [bind]. rewrite dot_from_ok by lia.
  f_equal. rewrite (wsum_const c w (l - S k) m), W2; [numR; lra|]. intros j Hj. apply Hm. lia.
Qed.

(** ** two dimensions *)
Definition clamp (a b x : R) : R := Rmin b (Rmax a x).
Lemma init_w_ok t k x : good_knots t k -> at_ t k <= at_ t (length t - k - 1) ->
  exists l w, (S k <= l <= length t - k - 1)%nat /\ located t k l /\
    let a := clamp (at_ t k) (at_ t (length t - k - 1)) x in
    at_ t (l - 1) <= a <= at_ t l /\ (a < at_ t l \/ l = (length t - k - 1)%nat) /\
    length w = S k /\ weights w /\ fpbspl t k a l = Ok w /\ init_w t k x = Ok ((l - k - 1)%nat, w).
Proof.
  intros Hg Hle. pose proof Hg as (Hn & Hlen & Hlast). cbv zeta. set (a := clamp _ _ x).
  assert (Ha : at_ t k <= a <= at_ t (length t - k - 1)).
  { unfold a, clamp. split; [apply Rmin_glb; [auto|apply Rmax_l]|apply Rmin_l]. }
  destruct (search_located t k a Hg Ha) as (l & E & K1 & K2 & K3 & K4).
  destruct (fpbspl_ok t l a k k) as (w & Ew & W1 & W2 & W3); auto.
  exists l, w. splits; auto; try lia; try lra; [split; auto|].
  unfold init_w. rewrite !idx_at by lia. cbn [bind]. cbv zeta. numR.
  assert (A : (if Rltb (at_ t (length t - k - 1)) (if Rltb x (at_ t k) then at_ t k else x) then at_ t (length t - k - 1) else if Rltb x (at_ t k) then at_ t k else x) = a).
  { unfold a, clamp. destruct (Rltb x (at_ t k)) eqn:Q1; [apply Rltb_true in Q1; rewrite (Rmax_left _ x) by lra|apply Rltb_false in Q1; rewrite (Rmax_right _ x) by lra];
    (destruct (Rltb (at_ t (length t - k - 1)) _) eqn:Q2; [apply Rltb_true in Q2; rewrite Rmin_left by lra|apply Rltb_false in Q2; rewrite Rmin_right by lra]; reflexivity). }
  rewrite A, init_w_search, E. cbn [bind]. rewrite Ew. cbn [bind]. reflexivity.
Qed.
(** sum over rows *)
Fixpoint wsum2 (c : list R) (n : nat) (wx : list R) (l2 : nat) (wy : list R) : R :=
  match wx with [] => 0 | v :: r => v * wsum c l2 wy + wsum2 c n r (l2 + n) wy end.
Lemma bispev_row_ok c v : forall wy l2 sp, (l2 + length wy <= length c)%nat ->
  bispev_row c v l2 wy sp 0 = Ok (sp + v * wsum c l2 wy, 0).
Proof.
  induction wy as [|w wy IH]; intros l2 sp H; simpl in *; [do 2 f_equal; lra|].
  rewrite idx_at by lia. cbn [bind]. numR.
  replace (sp + (at_ c l2 * v * w - 0) - sp - (at_ c l2 * v * w - 0)) with 0 by lra. rewrite IH by lia. do 2 f_equal. lra.
Qed.
Lemma bispev_rows_ok c n wy : (length wy <= n)%nat -> forall wx l2 sp, (l2 + length wx * n <= length c + n - length wy)%nat ->
  bispev_rows c n wx l2 wy sp 0 = Ok (sp + wsum2 c n wx l2 wy).
Proof.
  intros Hn. induction wx as [|v wx IH]; intros l2 sp H; cbn [bispev_rows wsum2 length] in *; [f_equal; lra|].
  rewrite bispev_row_ok by nia. cbn [bind]. rewrite IH by nia. f_equal. lra.
Qed.
Lemma wsum2_bounds c n wy m M : weights wy -> forall wx l2, (forall v, In v wx -> 0 <= v) ->
  (forall i j, (i < length wx)%nat -> (j < length wy)%nat -> m <= at_ c (l2 + i * n + j) <= M) ->
  m * lsum wx <= wsum2 c n wx l2 wy <= M * lsum wx.
Proof.
  intros Hy. induction wx as [|v wx IH]; intros l2 Hx Hc; simpl; [lra|].
  assert (0 <= v) by (apply Hx; now left).
  assert (m <= wsum c l2 wy <= M).
  { apply wsum_avg; auto. intros j Hj. specialize (Hc 0%nat (j - l2)%nat). simpl in Hc.
    replace (l2 + 0 + (j - l2))%nat with j in Hc by lia. apply Hc; lia. }
  assert (K : m * lsum wx <= wsum2 c n wx (l2 + n) wy <= M * lsum wx).
  { apply IH; [intros; apply Hx; now right|]. intros i j Hi Hj. specialize (Hc (S i) j). simpl in Hc.
    replace (l2 + n + i * n + j)%nat with (l2 + (n + i * n) + j)%nat by lia. apply Hc; lia. }
  nra.
Qed.
Lemma bisplev_ok tx ty c kx ky x y : good_knots tx kx -> good_knots ty ky ->
  at_ tx kx <= at_ tx (length tx - kx - 1) -> at_ ty ky <= at_ ty (length ty - ky - 1) ->
  ((length tx - kx - 1) * (length ty - ky - 1) <= length c)%nat ->
  exists lx wx ly wy, (S kx <= lx <= length tx - kx - 1)%nat /\ (S ky <= ly <= length ty - ky - 1)%nat /\
    init_w tx kx x = Ok ((lx - kx - 1)%nat, wx) /\ init_w ty ky y = Ok ((ly - ky - 1)%nat, wy) /\
    length wx = S kx /\ length wy = S ky /\ weights wx /\ weights wy /\
    bisplev tx ty c kx ky x y = Ok (wsum2 c (length ty - ky - 1) wx ((lx - kx - 1) * (length ty - ky - 1) + (ly - ky - 1)) wy).
Proof.
  intros Hgx Hgy Hx Hy Hc.
  destruct (init_w_ok tx kx x Hgx Hx) as (lx & wx & X1 & _ & X2). cbv zeta in X2. destruct X2 as (_ & _ & X3 & X4 & _ & X5).
  destruct (init_w_ok ty ky y Hgy Hy) as (ly & wy & Y1 & _ & Y2). cbv zeta in Y2. destruct Y2 as (_ & _ & Y3 & Y4 & _ & Y5).
  exists lx, wx, ly, wy. splits; auto; try lia. destruct Hgx as (_ & Lx & _), Hgy as (_ & Ly & _).
  unfold bisplev. rewrite X5. cbn [bind]. rewrite Y5. cbn [bind]. replace (length ty - S ky)%nat with (length ty - ky - 1)%nat by lia.
  rewrite n0R. rewrite bispev_rows_ok; [f_equal; lra|lia|]. rewrite X3, Y3. nia.
Qed.
Lemma bisplev_range tx ty c kx ky x y m M : good_knots tx kx -> good_knots ty ky ->
  at_ tx kx <= at_ tx (length tx - kx - 1) -> at_ ty ky <= at_ ty (length ty - ky - 1) ->
  ((length tx - kx - 1) * (length ty - ky - 1) <= length c)%nat ->
  (forall i, (i < length c)%nat -> m <= at_ c i <= M) ->
  exists v, bisplev tx ty c kx ky x y = Ok v /\ m <= v <= M.
Proof.
  intros Hgx Hgy Hx Hy Hc Hm.
  destruct (bisplev_ok tx ty c kx ky x y Hgx Hgy Hx Hy Hc) as (lx & wx & ly & wy & L1 & L2 & _ & _ & W1 & W2 & X & Y & E).
  eexists; split; [exact E|]. destruct X as [X1 X2].
  epose proof (wsum2_bounds c (length ty - ky - 1) wy m M Y wx _ X1) as B. rewrite X2, !Rmult_1_r in B. apply B.
  intros i j Hi Hj. apply Hm. destruct Hgy as (_ & Ly & _). destruct Hgx as (_ & Lx & _).
  rewrite W1 in Hi. rewrite W2 in Hj. assert (lx - kx - 1 + i < length tx - kx - 1)%nat by lia. nia.
Qed.

(** ** the linear case *)
Lemma pad_ends_ok (x : list R) : (0 < length x)%nat -> pad_ends x = Ok ((at_ x 0 :: x) ++ [at_ x (length x - 1)]).
Proof. intros H. unfold pad_ends. rewrite idx_at, last_of_at by lia. reflexivity. Qed.
Definition padded (x : list R) : list R := (at_ x 0 :: x) ++ [at_ x (length x - 1)].
Lemma padded_length x : length (padded x) = (length x + 2)%nat.
Proof. unfold padded. rewrite app_length. simpl. lia. Qed.
Lemma padded_at x i : (0 < length x)%nat -> (i <= length x + 1)%nat -> at_ (padded x) i = at_ x (Nat.min (i - 1) (length x - 1)).
Proof.
  intros H Hi. unfold padded, at_. destruct i as [|i]; [reflexivity|]. simpl. destruct (Nat.eq_dec i (length x)) as [->|Hn].
  - rewrite app_nth2 by lia. rewrite Nat.sub_diag. simpl. f_equal. lia.
  - rewrite app_nth1 by lia. f_equal. lia.
Qed.
Lemma padded_good x : increasing x -> (2 <= length x)%nat -> good_knots (padded x) 1.
Proof.
  intros Hi Hl. unfold good_knots; splits.
  - intros i j Hij Hj. rewrite padded_length in Hj. rewrite !padded_at by lia.
    destruct (Nat.eq_dec (Nat.min (i - 1) (length x - 1)) (Nat.min (j - 1) (length x - 1))) as [->|Hn]; [lra|].
    apply Rlt_le, Hi; lia.
  - rewrite padded_length. lia.
  - rewrite padded_length, !padded_at by lia. apply Hi; lia.
Qed.
Definition zget (z : list (list R)) (j i : nat) : R := nth i (nth j z []) 0.
Lemma flat_at (f : nat -> nat -> R) n : forall m i j, (i < m)%nat -> (j < n)%nat ->
  forall o, nth (i * n + j) (concat (map (fun i => map (f i) (seq 0 n)) (seq o m))) 0 = f (o + i)%nat j.
Proof.
  induction m; intros i j Hi Hj o; [lia|]. cbn [seq map concat].
  assert (Ln : length (map (f o) (seq 0 n)) = n) by now rewrite map_length, seq_length.
  destruct i.
  - rewrite app_nth1 by (rewrite Ln; simpl; lia). simpl. rewrite (nth_indep _ 0 (f o 0%nat)) by (rewrite Ln; lia). rewrite map_nth, seq_nth by lia. f_equal; lia.
  - rewrite app_nth2 by (rewrite Ln; simpl; lia). rewrite Ln. replace (S i * n + j - n)%nat with (i * n + j)%nat by (simpl; lia).
    rewrite IHm by lia. f_equal. lia.
Qed.
Lemma flat_length (f : nat -> nat -> R) n : forall m o, length (concat (map (fun i => map (f i) (seq 0 n)) (seq o m))) = (m * n)%nat.
Proof. induction m; intros o; auto. cbn [seq map concat]. rewrite app_length, IHm, map_length, seq_length. simpl. lia. Qed.
Lemma mapM_all {A B} (f : A -> result B) (g : A -> B) : forall l, (forall a, In a l -> f a = Ok (g a)) -> mapM f l = Ok (map g l).
Proof.
  induction l as [|a l IH]; intros H; [reflexivity|]. cbn [mapM map]. rewrite H by now left. cbn [bind]. rewrite IH by (intros; apply H; now right). reflexivity.
Qed.
Lemma map_nth_seq {B} (g : list R -> B) (z : list (list R)) : map g z = map (fun j => g (nth j z [])) (seq 0 (length z)).
Proof.
  induction z as [|a z IH]; [reflexivity|]. cbn [length seq map nth]. f_equal. rewrite IH, <- seq_shift, map_map. reflexivity.
Qed.
Lemma tck_ok x y z : (0 < length x)%nat -> (0 < length y)%nat -> length z = length y -> (forall r, In r z -> length r = length x) ->
  tck_interp2d_linear x y z = Ok (padded x, padded y,
    concat (map (fun i => map (fun j => zget z j i) (seq 0 (length y))) (seq 0 (length x)))).
Proof.
  intros Hx Hy Hz Hr. unfold tck_interp2d_linear. rewrite !pad_ends_ok by lia. cbn [bind].
  destruct z as [|z0 z]; [simpl in Hz; lia|]. cbn [idx nth_error]. cbn [bind]. rewrite (Hr z0) by now left.
  rewrite (mapM_all _ (fun i => map (fun j => zget (z0 :: z) j i) (seq 0 (length y)))).
  - reflexivity.
  - intros i Hi. apply in_seq in Hi. rewrite (mapM_all _ (fun r => nth i r 0)).
    + rewrite (map_nth_seq (fun r => nth i r 0)). rewrite Hz. reflexivity.
    + intros r HrI. apply idx_at. rewrite Hr by auto. lia.
Qed.
Lemma locate_1 x i a l : increasing x -> (2 <= length x)%nat -> (i + 1 < length x)%nat -> at_ x i <= a <= at_ x (i + 1) ->
  (2 <= l <= length (padded x) - 2)%nat -> at_ (padded x) (l - 1) <= a <= at_ (padded x) l ->
  at_ x (l - 2) <= a <= at_ x (l - 1) /\ (l - 1 < length x)%nat /\
  (l = (i + 2)%nat \/ (l = (i + 1)%nat /\ a = at_ x i) \/ (l = (i + 3)%nat /\ a = at_ x (i + 1))).
Proof.
  intros Hx Hl Hi Ha Hr Hb. rewrite padded_length in Hr. rewrite !padded_at in Hb by lia.
  replace (Nat.min (l - 1 - 1) (length x - 1)) with (l - 2)%nat in Hb by lia.
  replace (Nat.min (l - 1) (length x - 1)) with (l - 1)%nat in Hb by lia. splits; try lra; [lia|].
  destruct (lt_eq_lt_dec l (i + 2)) as [[Q|Q]|Q]; [|now left|].
  - right; left. destruct (Nat.eq_dec (l - 1) i) as [Q2|Q2]; [subst i; split; [lia|lra]|].
    assert (at_ x (l - 1) < at_ x i) by (apply Hx; lia). lra.
  - right; right. destruct (Nat.eq_dec (l - 2) (i + 1)) as [Q2|Q2]; [split; [lia|rewrite Q2 in Hb; lra]|].
    assert (at_ x (i + 1) < at_ x (l - 2)) by (apply Hx; lia). lra.
Qed.
Definition bilinear (x0 x1 y0 y1 z00 z10 z01 z11 x y : R) : R :=
  line y0 (line x0 z00 x1 z10 x) y1 (line x0 z01 x1 z11 x) y.
Lemma bisplev_linear x y z u v i j : increasing x -> increasing y -> (i + 1 < length x)%nat -> (j + 1 < length y)%nat ->
  length z = length y -> (forall r, In r z -> length r = length x) ->
  at_ x i <= clamp (at_ x 0) (at_ x (length x - 1)) u <= at_ x (i + 1) ->
  at_ y j <= clamp (at_ y 0) (at_ y (length y - 1)) v <= at_ y (j + 1) ->
  exists tx ty c, tck_interp2d_linear x y z = Ok (tx, ty, c) /\
    bisplev tx ty c 1 1 u v = Ok (bilinear (at_ x i) (at_ x (i + 1)) (at_ y j) (at_ y (j + 1))
      (zget z j i) (zget z j (i + 1)) (zget z (j + 1) i) (zget z (j + 1) (i + 1))
      (clamp (at_ x 0) (at_ x (length x - 1)) u) (clamp (at_ y 0) (at_ y (length y - 1)) v)).
Proof.
  intros Hx Hy Hi Hj Hz Hr Hu Hv. do 3 eexists. split; [apply tck_ok; auto; lia|].
  set (c := concat _).
  assert (C1 : length c = (length x * length y)%nat) by apply flat_length.
  assert (Hc : forall i j, (i < length x)%nat -> (j < length y)%nat -> at_ c (i * length y + j) = zget z j i).
  { intros i' j' Hi' Hj'. unfold at_, c. rewrite (flat_at (fun i j => zget z j i)) by lia. reflexivity. }
  assert (P1 : forall x, (2 <= length x)%nat -> at_ (padded x) 1 = at_ x 0 /\ at_ (padded x) (length (padded x) - 1 - 1) = at_ x (length x - 1)).
  { intros x' H'. rewrite padded_length, !padded_at by lia. split; f_equal; lia. }
  assert (M : forall x, increasing x -> (2 <= length x)%nat -> at_ x 0 < at_ x (length x - 1)) by (intros x' H' L'; apply H'; lia).
  assert (I : forall x u i, increasing x -> (i + 1 < length x)%nat -> let a := clamp (at_ x 0) (at_ x (length x - 1)) u in
     at_ x i <= a <= at_ x (i + 1) ->
     exists l, (l + 1 < length x)%nat /\ at_ x l < at_ x (l + 1) /\ init_w (padded x) 1 u = Ok (l, [(at_ x (l + 1) - a) / (at_ x (l + 1) - at_ x l); (a - at_ x l) / (at_ x (l + 1) - at_ x l)]) /\
      (l = i \/ (S l = i /\ a = at_ x i) \/ (l = S i /\ a = at_ x (i + 1)))).
  { clear -P1 M. intros x u i Hx Hi a Ha. destruct (P1 x) as [A1 A2]; [lia|].
    destruct (init_w_ok (padded x) 1 u) as (l & w & L1 & L2 & L3).
    { apply padded_good; auto; lia. }
    { rewrite A1, A2. apply Rlt_le, M; auto; lia. }
    cbv zeta in L3. rewrite A1, A2 in L3. fold a in L3. destruct L3 as (L3 & _ & _ & _ & L4 & L5).
    rewrite fpbspl_1 in L4 by auto. injection L4 as <-.
    destruct (locate_1 x i a l) as (Q1 & Q2 & Q3); auto; try lia.
    rewrite padded_length in L1. rewrite !padded_at in L5 by lia.
    replace (Nat.min (l - 1 - 1) (length x - 1)) with (l - 2)%nat in L5 by lia.
    replace (Nat.min (l - 1) (length x - 1)) with (l - 1)%nat in L5 by lia.
    exists (l - 2)%nat. replace (l - 2 + 1)%nat with (l - 1)%nat by lia. splits; auto; try lia.
    - apply Hx; lia.
    - rewrite L5. do 2 f_equal. lia.
    - destruct Q3 as [Q3|[[Q3 Q4]|[Q3 Q4]]]; [left; lia|right; left; split; [lia|auto]|right; right; split; [lia|auto]]. }
  destruct (I x u i Hx Hi Hu) as (lx & X1 & X2 & X3 & X4). destruct (I y v j Hy Hj Hv) as (ly & Y1 & Y2 & Y3 & Y4).
  set (a := clamp _ _ u) in *. set (b := clamp _ _ v) in *.
  unfold bisplev. rewrite X3. cbn [bind]. rewrite Y3. cbn [bind]. rewrite padded_length. replace (length y + 2 - 2)%nat with (length y) by lia.
  rewrite n0R. rewrite bispev_rows_ok; [|simpl; lia|simpl; nia]. f_equal. cbn [wsum2 wsum].
  replace (S (lx * length y + ly)) with (lx * length y + (ly + 1))%nat by lia.
  replace (S (lx * length y + ly + length y)) with ((lx + 1) * length y + (ly + 1))%nat by lia.
  replace (lx * length y + ly + length y)%nat with ((lx + 1) * length y + ly)%nat by lia.
  rewrite !Hc by lia.
  assert (F : forall x l i a (g : nat -> R), increasing x -> (i + 1 < length x)%nat -> (l + 1 < length x)%nat -> at_ x l < at_ x (l + 1) ->
    (l = i \/ (S l = i /\ a = at_ x i) \/ (l = S i /\ a = at_ x (i + 1))) ->
    g l * ((at_ x (l + 1) - a) / (at_ x (l + 1) - at_ x l)) + g (l + 1)%nat * ((a - at_ x l) / (at_ x (l + 1) - at_ x l))
    = line (at_ x i) (g i) (at_ x (i + 1)) (g (i + 1)%nat) a).
  { clear. intros x l i a g Hx Hi Hl Hlt Hc. assert (Hi2 : at_ x i < at_ x (i + 1)) by (apply Hx; lia). unfold line.
    destruct Hc as [->|[[Q ->]|[Q ->]]].
    - field. lra.
    - replace i with (l + 1)%nat in * by lia. field. lra.
    - replace l with (i + 1)%nat in * by lia. field. lra. }
  pose proof (F x lx i a (fun i' => zget z ly i') Hx Hi X1 X2 X4) as F1.
  pose proof (F x lx i a (fun i' => zget z (ly + 1) i') Hx Hi X1 X2 X4) as F2.
  pose proof (F y ly j b (fun j' => line (at_ x i) (zget z j' i) (at_ x (i + 1)) (zget z j' (i + 1)) a) Hy Hj Y1 Y2 Y4) as F3.
  cbv beta in F1, F2, F3. unfold bilinear. rewrite <- F3, <- F1, <- F2. ring.
Qed.

(** ** Cox - de Boor *)
Fixpoint bspline (t : list R) (k i : nat) (x : R) : R :=
  match k with
  | O => if Rle_dec (at_ t i) x then if Rlt_dec x (at_ t (i + 1)) then 1 else 0 else 0
  | S k' => (x - at_ t i) / (at_ t (i + k) - at_ t i) * bspline t k' i x
            + (at_ t (i + k + 1) - x) / (at_ t (i + k + 1) - at_ t (i + 1)) * bspline t k' (i + 1) x
  end.
Lemma bspline_zero t x l : nondecreasing t -> (1 <= l < length t)%nat -> at_ t (l - 1) <= x < at_ t l ->
  forall k i, (i + k + 1 < length t)%nat -> (i + k + 1 < l \/ l <= i)%nat -> bspline t k i x = 0.
Proof.
  intros Hn Hl Hx. induction k; intros i Hi Ho; cbn [bspline].
  - destruct (Rle_dec _ _); [|auto]. destruct (Rlt_dec _ _); [|auto]. exfalso. destruct Ho.
    + assert (at_ t (i + 1) <= at_ t (l - 1)) by (apply Hn; lia). lra.
    + assert (at_ t l <= at_ t i) by (apply Hn; lia). lra.
  - rewrite !IHk by lia. ring.
Qed.
Section Row.
Context (t : list R) (x : R) (l : nat).
Definition lefts (k q : nat) : R := let p := (l - 2 - k + q)%nat in (x - at_ t p) / (at_ t (p + k + 1) - at_ t p) * bspline t k p x.
Definition rights (k q : nat) : R := let p := (l - 2 - k + q)%nat in
  (at_ t (p + k + 2) - x) / (at_ t (p + k + 2) - at_ t (p + 1)) * bspline t k (p + 1) x.
Lemma row_bspline K k : (k < K)%nat -> (l + K + 1 <= length t)%nat -> located t K l -> at_ t (l - 1) <= x < at_ t l -> forall m i, (i + m = S k)%nat ->
  fpbspl_row t x l (S k) i (lefts k i) (map (fun q => bspline t k (l - 1 - k + q) x) (seq i m))
  = Ok (map (fun q => lefts k q + rights k q) (seq i (S m))).
Proof.
  intros HkK HlK (Hn & Hkl & Hlk & Hll & Hlt) Hx. induction m; intros i Hi.
  - cbn [seq map fpbspl_row]. do 2 f_equal. unfold rights. rewrite (bspline_zero t x l Hn) by (auto; lia). ring.
  - cbn [seq map fpbspl_row]. rewrite !idx_at by lia. cbn [bind]. numR.
    assert (Hr : at_ t l <= at_ t (l + i)) by (apply Hn; lia).
    assert (Hl : at_ t (l + i - S k) <= at_ t (l - 1)) by (apply Hn; lia).
    rewrite pydivR_ok by lra. cbn [bind].
    assert (A : bspline t k (l - 1 - k + i) x / (at_ t (l + i) - at_ t (l + i - S k)) * (x - at_ t (l + i - S k)) = lefts k (S i)).
    { unfold lefts. replace (l - 2 - k + S i)%nat with (l + i - S k)%nat by lia. replace (l - 1 - k + i)%nat with (l + i - S k)%nat by lia.
      replace (l + i - S k + k + 1)%nat with (l + i)%nat by lia. field. lra. }
    rewrite A, IHm by lia. cbn [bind seq map]. do 2 f_equal. f_equal. unfold rights.
    replace (l - 2 - k + i + k + 2)%nat with (l + i)%nat by lia. replace (l - 2 - k + i + 1)%nat with (l + i - S k)%nat by lia.
    replace (l - 1 - k + i)%nat with (l + i - S k)%nat by lia. field. lra.
Qed.
Lemma fpbspl_bspline K : (l + K + 1 <= length t)%nat -> located t K l -> at_ t (l - 1) <= x < at_ t l -> forall k, (k <= K)%nat ->
  fpbspl t k x l = Ok (map (fun q => bspline t k (l - 1 - k + q) x) (seq 0 (S k))).
Proof.
  intros HlK HL Hx. induction k; intros Hk.
  - cbn [fpbspl seq map bspline]. replace (l - 1 - 0 + 0)%nat with (l - 1)%nat by lia. destruct HL as (_ & H1 & _).
    replace (l - 1 + 1)%nat with l by lia. destruct (Rle_dec _ _); [|lra]. destruct (Rlt_dec _ _); [|lra]. rewrite n1R. reflexivity.
  - cbn [fpbspl]. rewrite IHk by lia. cbn [bind].
    assert (Z : n0 = lefts k 0).
    { unfold lefts. destruct HL as (Hn & H1 & H2 & H3 & H4). rewrite (bspline_zero t x l Hn) by (auto; lia). rewrite n0R. ring. }
    rewrite Z, (row_bspline K) by (auto; lia). f_equal. apply map_ext_in. intros q Hq. apply in_seq in Hq. destruct HL as (Hn & H1 & H2 & H3 & H4).
    unfold lefts, rights. cbn [bspline]. replace (l - 1 - S k + q)%nat with (l - 2 - k + q)%nat by lia.
    replace (l - 2 - k + q + S k)%nat with (l - 2 - k + q + k + 1)%nat by lia.
    replace (l - 2 - k + q + k + 1 + 1)%nat with (l - 2 - k + q + k + 2)%nat by lia. reflexivity.
Qed.
End Row.
Lemma wsum_map c f : forall m i o, wsum c i (map f (seq o m)) = Rsum (fun q => at_ c (i + q) * f (o + q)%nat) m.
Proof.
  induction m; intros i o; [reflexivity|]. cbn [seq map wsum]. rewrite IHm, Rsum_head. f_equal; [do 2 f_equal; lia|].
  apply Rsum_ext. intros q Hq. do 2 f_equal; lia.
Qed.
Lemma splev_bspline t c k x ext : good_knots t k -> (length t - k - 1 <= length c)%nat -> at_ t k <= x < at_ t (length t - k - 1) ->
  py_splev x t c k ext = Ok (Rsum (fun i => at_ c i * bspline t k i x) (length t - k - 1)).
Proof.
  intros Hg Hc Hx. destruct (splev_inside t c k x ext Hg Hc) as (l & w & K1 & K2 & K2' & K3 & K4 & Ew & E); [lra|].
  assert (Hx2 : at_ t (l - 1) <= x < at_ t l) by (destruct K2' as [K| ->]; lra).
  pose proof Hg as (Hn & Hlen & Hlast).
  assert (L : located t k l) by (unfold located; splits; auto; try lia; lra).
  rewrite (fpbspl_bspline t x l k) in Ew by (auto; lia). assert (Ew2 : forall a b : list R, Ok a = Ok b -> a = b) by (intros ? ? Q; congruence). apply Ew2 in Ew. subst w. rewrite E. f_equal. rewrite wsum_map.
  replace (length t - k - 1)%nat with ((l - S k) + (S k + (length t - k - 1 - l)))%nat by lia.
  rewrite Rsum_app, Rsum_app. rewrite (Rsum_zero _ (l - S k)), (Rsum_zero _ (length t - k - 1 - l)).
  - rewrite Rplus_0_l, Rplus_0_r. apply Rsum_ext. intros q Hq. do 2 f_equal. lia.
  - intros q Hq. rewrite (bspline_zero t x l Hn) by (auto; lia). ring.
  - intros q Hq. rewrite (bspline_zero t x l Hn) by (auto; lia). ring.
Qed.
