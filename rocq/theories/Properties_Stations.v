(** The station found for a place (C115). *)
From Coq Require Import Reals Lra Lia List Arith.
From Verif Require Import Base Model_Real Model_Climate.
Import ListNotations.
Open Scope R_scope.

(** squared distance in the plane of latitude and longitude, and how near two places are on the globe (cosine of the angle between them) *)
Definition plane_distance (lat lon : R) (s : station) : R := (latitude s - lat) ^ 2 + (longitude s - lon) ^ 2.
Definition globe_nearness (lat lon : R) (s : station) : R :=
  sin (radians lat) * sin (radians (latitude s)) + cos (radians lat) * cos (radians (latitude s)) * cos (radians (longitude s - lon)).
Definition none : station := Station 0 0 0.
(** what a tree search for the [k] nearest stations promises: [k] different stations in order of distance, none of the others nearer *)
Definition nearest_query (lat lon : R) (stations : list station) (query : nat -> list nat) : Prop :=
  let dist i := plane_distance lat lon (nth i stations none) in
  forall k, (k <= length stations)%nat ->
    length (query k) = k /\ NoDup (query k) /\ (forall i, In i (query k) -> (i < length stations)%nat) /\
    (forall a b, (a < b < k)%nat -> dist (nth a (query k) 0%nat) <= dist (nth b (query k) 0%nat)) /\
    (forall i j, In i (query k) -> (j < length stations)%nat -> ~ In j (query k) -> dist i <= dist j).

Lemma first_recent_some stations recent l i : (forall i, In i l -> (i < length stations)%nat) -> first_recent stations recent l = Some i ->
  exists a, (a < length l)%nat /\ nth a l 0%nat = i /\ recent < s_end (nth i stations none) /\ forall b, (b < a)%nat -> s_end (nth (nth b l 0%nat) stations none) <= recent.
Proof.
  induction l as [|x t IH]; intros HL H; cbn [first_recent] in H; [discriminate|].
  destruct (nth_error stations x) as [s|] eqn:E.
  - assert (Es : nth x stations none = s) by (apply nth_error_nth; exact E). destruct (Rltb recent (s_end s)) eqn:C; [apply Rltb_true in C|apply Rltb_false in C].
    + injection H as <-. exists 0%nat. split; [simpl; lia|]. split; [reflexivity|]. rewrite Es. split; [lra|]. intros; lia.
    + destruct (IH ltac:(intros; apply HL; right; assumption) H) as (a & Ha & Na & Ra & Rb). exists (S a). split; [simpl; lia|]. split; [exact Na|]. split; [exact Ra|]. intros [|b] Hb; [cbn [nth]; rewrite Es; lra|]. apply Rb. lia.
  - exfalso. apply nth_error_None in E. specialize (HL x ltac:(left; reflexivity)). lia.
Qed.
Lemma first_recent_none stations recent l : (forall i, In i l -> (i < length stations)%nat) -> first_recent stations recent l = None -> forall i, In i l -> s_end (nth i stations none) <= recent.
Proof.
  induction l as [|x t IH]; intros HL H i Hi; cbn [first_recent] in H; [destruct Hi|].
  destruct (nth_error stations x) as [s|] eqn:E.
  - assert (Es : nth x stations none = s) by (apply nth_error_nth; exact E). destruct (Rltb recent (s_end s)) eqn:C; [discriminate|]. apply Rltb_false in C. destruct Hi as [<-|Hi]; [rewrite Es; lra|]. apply IH; try assumption. intros; apply HL; right; assumption.
  - apply nth_error_None in E. specialize (HL x ltac:(left; reflexivity)). lia.
Qed.
Lemma all_in (l : list nat) n : length l = n -> NoDup l -> (forall i, In i l -> (i < n)%nat) -> forall j, (j < n)%nat -> In j l.
Proof.
  intros HL HN HI j Hj. assert (H : incl (seq 0 n) l). { apply NoDup_length_incl; [exact HN|rewrite seq_length; lia|]. intros i Hi. apply in_seq. specialize (HI i Hi). lia. }
  apply H, in_seq. lia.
Qed.

(** the station returned is recent, and no other recent station is nearer in the plane of coordinates *)
Theorem C115_nearest : forall lat lon stations query recent match_max fuel i, nearest_query lat lon stations query ->
  get_closest_station fuel query stations recent match_max = Ok i ->
  (i < length stations)%nat /\ recent < s_end (nth i stations none) /\
  forall j, (j < length stations)%nat -> recent < s_end (nth j stations none) -> plane_distance lat lon (nth i stations none) <= plane_distance lat lon (nth j stations none).
Proof.
  intros lat lon stations query recent match_max fuel i HQ. revert match_max. induction fuel as [|fuel IH]; intros mm H; cbn [get_closest_station] in H; [discriminate|].
  set (k := Nat.min mm (length stations)) in *. destruct (HQ k ltac:(lia)) as (Q1 & Q2 & Q3 & Q4 & Q5).
  destruct (first_recent stations recent (query k)) as [i'|] eqn:E.
  - injection H as ->. destruct (first_recent_some _ _ _ _ Q3 E) as (a & Ha & Na & Ra & Rb). assert (Ii : In i (query k)) by (rewrite <- Na; apply nth_In, Ha).
    split; [apply Q3, Ii|]. split; [exact Ra|]. intros j Hj Rj. destruct (in_dec Nat.eq_dec j (query k)) as [Ij|Nj]; [|exact (Q5 i j Ii Hj Nj)].
    destruct (In_nth _ _ 0%nat Ij) as (b & Hb & Nb). destruct (lt_eq_lt_dec a b) as [[L|EQ]|L].
    + rewrite <- Na, <- Nb. apply (Q4 a b). lia.
    + subst b. rewrite <- Na, <- Nb. apply Rle_refl.
    + exfalso. specialize (Rb b L). rewrite Nb in Rb. lra.
  - destruct (Nat.ltb mm (length stations)); [|discriminate]. apply (IH _ H).
Qed.
(** it refuses exactly when no station is recent, and the widening search ends *)
Theorem C115_found : forall lat lon stations query recent match_max fuel, nearest_query lat lon stations query -> (0 < match_max)%nat -> (length stations < fuel)%nat ->
  ((exists j, (j < length stations)%nat /\ recent < s_end (nth j stations none)) -> exists i, get_closest_station fuel query stations recent match_max = Ok i) /\
  ((forall j, (j < length stations)%nat -> s_end (nth j stations none) <= recent) -> get_closest_station fuel query stations recent match_max = Err ValueError).
Proof.
  intros lat lon stations query recent match_max fuel HQ HM HF.
  assert (G : forall fuel mm, (0 < mm)%nat -> (length stations < fuel + mm)%nat -> (0 < fuel)%nat ->
    ((exists j, (j < length stations)%nat /\ recent < s_end (nth j stations none)) -> exists i, get_closest_station fuel query stations recent mm = Ok i) /\
    ((forall j, (j < length stations)%nat -> s_end (nth j stations none) <= recent) -> get_closest_station fuel query stations recent mm = Err ValueError)).
  { clear fuel HF. induction fuel as [|fuel IH]; intros mm Hm HF H0; [lia|]. cbn [get_closest_station].
    set (k := Nat.min mm (length stations)) in *. destruct (HQ k ltac:(lia)) as (Q1 & Q2 & Q3 & _ & _).
    destruct (first_recent stations recent (query k)) as [i'|] eqn:E.
    - split; [intros _; exists i'; reflexivity|]. intros HN. exfalso. destruct (first_recent_some _ _ _ _ Q3 E) as (a & Ha & Na & Ra & _). assert (Ii : In i' (query k)) by (rewrite <- Na; apply nth_In, Ha). specialize (HN i' (Q3 _ Ii)). lra.
    - pose proof (first_recent_none _ _ _ Q3 E) as HO. destruct (Nat.ltb_spec mm (length stations)) as [L|L].
      + apply IH; lia.
      + split; [|reflexivity]. intros (j & Hj & Rj). exfalso. assert (k = length stations) by lia. assert (Ij : In j (query k)) by (apply (all_in (query k) (length stations)); [congruence|exact Q2|exact Q3|exact Hj]). specialize (HO j Ij). lra. }
  apply G; lia.
Qed.
(** more matches per search change nothing about how near the answer is *)
Theorem C115_match_max : forall lat lon stations query recent m1 m2 f1 f2 i1 i2, nearest_query lat lon stations query ->
  get_closest_station f1 query stations recent m1 = Ok i1 -> get_closest_station f2 query stations recent m2 = Ok i2 ->
  plane_distance lat lon (nth i1 stations none) = plane_distance lat lon (nth i2 stations none).
Proof.
  intros lat lon stations query recent m1 m2 f1 f2 i1 i2 HQ H1 H2. destruct (C115_nearest _ _ _ _ _ _ _ _ HQ H1) as (A1 & A2 & A3). destruct (C115_nearest _ _ _ _ _ _ _ _ HQ H2) as (B1 & B2 & B3).
  apply Rle_antisym; [apply A3|apply B3]; assumption.
Qed.

(** The documentation promises the station nearest to the coordinates.  Full claim: no recent station is nearer on the globe.  It fails across the
    date line, where the plane of coordinates is cut: a station at the very place asked for is passed over for one a quarter turn away. *)
Definition dateline : list station := [Station 60 (-180) 20200101; Station 60 90 20200101].
Lemma dateline_query : nearest_query 60 180 dateline (fun k => firstn k [1%nat; 0%nat]).
Proof.
  assert (D : plane_distance 60 180 (nth 1 dateline none) <= plane_distance 60 180 (nth 0 dateline none)) by (unfold plane_distance; cbn [nth dateline latitude longitude]; lra).
  unfold nearest_query. cbv zeta. intros k Hk. cbn [dateline length] in Hk. destruct k as [|[|[|k]]]; [| | |lia]; cbn [firstn].
  - split; [reflexivity|]. split; [constructor|]. split; [intros i []|]. split; [intros; lia|]. intros i j [].
  - split; [reflexivity|]. split; [repeat constructor; intros []|]. split; [intros i [<-|[]]; simpl; lia|]. split; [intros; lia|].
    intros i j [<-|[]] Hj Nj. cbn [dateline length] in Hj. destruct j as [|[|j]]; [exact D|exfalso; apply Nj; left; reflexivity|lia].
  - split; [reflexivity|]. split; [repeat constructor; simpl; intuition lia|]. split; [intros i [<-|[<-|[]]]; simpl; lia|]. split.
    + intros a b Hab. assert (a = 0%nat) by lia. assert (b = 1%nat) by lia. subst a b. exact D.
    + intros i j _ Hj Nj. cbn [dateline length] in Hj. exfalso. apply Nj. destruct j as [|[|j]]; [right; left; reflexivity|left; reflexivity|lia].
Qed.
Theorem C115_globe_refuted : exists lat lon stations query recent i j, nearest_query lat lon stations query /\
  get_closest_station 3 query stations recent 100 = Ok i /\ (j < length stations)%nat /\ recent < s_end (nth j stations none) /\
  globe_nearness lat lon (nth j stations none) = 1 /\ globe_nearness lat lon (nth i stations none) <= 3 / 4.
Proof.
  exists 60, 180, dateline, (fun k => firstn k [1%nat; 0%nat]), 20140000, 1%nat, 0%nat. split; [exact dateline_query|]. split.
  - cbn [get_closest_station dateline length Nat.min firstn first_recent nth_error s_end]. rcase; [reflexivity|lra].
  - split; [simpl; lia|]. cbn [nth dateline s_end]. split; [lra|]. unfold globe_nearness. cbn [latitude longitude].
    pose proof (sin2_cos2 (radians 60)) as SC. unfold Rsqr in SC. split.
    + replace (radians (-180 - 180)) with (- (2 * PI)) by (unfold radians; field). rewrite cos_neg, cos_2PI. lra.
    + replace (radians (90 - 180)) with (- (PI / 2)) by (unfold radians; field). rewrite cos_neg, cos_PI2.
      replace (radians 60) with (PI / 3) by (unfold radians; field). rewrite sin_PI3. assert (S3 := sqrt_sqrt 3 ltac:(lra)).
      replace (sqrt 3 / 2 * (sqrt 3 / 2) + cos (PI / 3) * cos (PI / 3) * 0) with (sqrt 3 * sqrt 3 / 4) by field. lra.
Qed.
(** three stations, the nearest one closed: the search widens once and takes the second *)
Example C115_ex : let stations := [Station 50 1 20200101; Station 50 2 20100101; Station 50 5 20200101] in
  get_closest_station 4 (fun k => firstn k [1%nat; 0%nat; 2%nat]) stations 20140000 1 = Ok 0%nat.
Proof.
  cbn [get_closest_station length Nat.min firstn first_recent nth_error s_end]. rcase; [lra|]. cbn [Nat.ltb Nat.leb Nat.mul Nat.add get_closest_station Nat.min firstn first_recent nth_error s_end]. rcase; [lra|]. rcase; [reflexivity|lra].
Qed.

Print Assumptions C115_nearest.
Print Assumptions C115_found.
Print Assumptions C115_match_max.
Print Assumptions C115_globe_refuted.
