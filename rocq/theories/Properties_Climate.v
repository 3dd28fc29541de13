(** Monthly averages of a weather station (C114). *)
From Coq Require Import Reals Lra Lia List ZArith Bool Arith.
From Verif Require Import Base Sums Model_Real Model_Climate.
Import ListNotations.
Open Scope R_scope.

(** ** What the averages mean *)
Definition mean (l : list R) : R := lsum l / INR (length l).
(** the readings of month [m] (0 is January) among the days of a year, missing days and missing values left out *)
Definition readings (older newer : Z) (m : nat) (days : list (option day)) : list R :=
  flat_map (fun d => match d with
    | Some (Day y mo (Some v)) => if (Z.leb older y && Z.leb y newer && Nat.eqb mo (S m))%bool then [v] else []
    | _ => []
    end) days.
(** the means of month [m] in the years asked for that have enough readings *)
Definition year_means (data : list (Z * list (option day))) (older newer : Z) (enough m : nat) : list R :=
  flat_map (fun '(y, days) => if (Z.leb older y && Z.leb y newer && Nat.leb enough (length (readings older newer m days)))%bool then [mean (readings older newer m days)] else []) data.
Definition calendar (data : list (Z * list (option day))) : Prop :=
  forall y days d, In (y, days) data -> In (Some d) days -> (1 <= d_month d <= 12)%nat.

(** ** Sums and counts *)
Definition holds (vals : nat -> list R) (s : list R) (c : list nat) : Prop :=
  length s = 12%nat /\ length c = 12%nat /\ forall m, (m < 12)%nat -> nth m s 0 = lsum (vals m) /\ nth m c 0%nat = length (vals m).
Lemma holds_zero : holds (fun _ => []) (repeat 0 12) (repeat 0%nat 12).
Proof. split; [reflexivity|split; [reflexivity|]]. intros m Hm. do 12 (destruct m as [|m]; [split; reflexivity|]). lia. Qed.
Lemma holds_ext v w s c : (forall m, (m < 12)%nat -> v m = w m) -> holds v s c -> holds w s c.
Proof. intros E (H1 & H2 & H3). split; [exact H1|split; [exact H2|]]. intros m Hm. rewrite <- E by exact Hm. apply H3, Hm. Qed.
Lemma holds_add v s c i a : (i < 12)%nat -> holds v s c ->
  holds (fun m => v m ++ if Nat.eqb m i then [a] else []) (upd s i (nth i s 0 + a)) (upd c i (nth i c 0%nat + 1)%nat).
Proof.
  intros Hi (H1 & H2 & H3). split; [now rewrite upd_length|split; [now rewrite upd_length|]].
  intros m Hm. destruct (Nat.eqb_spec m i) as [->|N].
  - rewrite !upd_nth_eq by lia. destruct (H3 i Hi) as [-> ->]. rewrite lsum_app, app_length. simpl. split; [ring|lia].
  - rewrite !upd_nth_neq by congruence. rewrite app_nil_r. apply H3, Hm.
Qed.
Lemma year_sums_spec older newer days : (forall d, In (Some d) days -> (1 <= d_month d <= 12)%nat) ->
  forall v s c, holds v s c -> let '(s', c') := fold_left (add_day older newer) days (s, c) in holds (fun m => v m ++ readings older newer m days) s' c'.
Proof.
  induction days as [|d t IH]; intros HD v s c H; cbn [fold_left].
  - eapply holds_ext; [|exact H]. intros. cbn. now rewrite app_nil_r.
  - assert (HT : forall d, In (Some d) t -> (1 <= d_month d <= 12)%nat) by (intros; apply HD; right; assumption).
    assert (G : exists s1 c1, add_day older newer (s, c) d = (s1, c1) /\ holds (fun m => v m ++ readings older newer m [d]) s1 c1).
    { unfold add_day, readings. destruct d as [[y mo [T|]]|]; cbn [d_year d_month d_value flat_map].
      - unfold in_range. destruct ((older <=? y)%Z && (y <=? newer)%Z) eqn:E; cbn [negb andb].
        + eexists _, _. split; [reflexivity|]. assert (HM := HD (Day y mo (Some T)) ltac:(left; reflexivity)). cbn in HM.
          eapply holds_ext; [|apply (holds_add v s c (mo - 1) T ltac:(lia) H)]. intros m Hm. cbv beta.
          replace (Nat.eqb mo (S m)) with (Nat.eqb m (mo - 1)) by (destruct (Nat.eqb_spec m (mo - 1)), (Nat.eqb_spec mo (S m)); try reflexivity; lia). destruct (Nat.eqb m (mo - 1)); reflexivity.
        + eexists _, _. split; [reflexivity|]. eapply holds_ext; [|exact H]. intros. cbv beta. cbn [app]. now rewrite app_nil_r.
      - exists s, c. split; [destruct (negb _); reflexivity|]. eapply holds_ext; [|exact H]. intros. cbv beta. cbn [app]. now rewrite app_nil_r.
      - exists s, c. split; [reflexivity|]. eapply holds_ext; [|exact H]. intros. cbv beta. cbn [app]. now rewrite app_nil_r. }
    destruct G as (s1 & c1 & -> & H1). specialize (IH HT _ _ _ H1). destruct (fold_left _ t (s1, c1)) as [s' c'].
    eapply holds_ext; [|exact IH]. intros m _. cbv beta. rewrite <- app_assoc. f_equal. unfold readings. rewrite <- flat_map_app. reflexivity.
Qed.
Lemma mapM_ok {A B} (f : A -> result B) (g : A -> B) l : (forall x, In x l -> f x = Ok (g x)) -> mapM f l = Ok (map g l).
Proof. induction l as [|x t IH]; intros H; cbn [mapM map]; [reflexivity|]. rewrite (H x) by (left; reflexivity). cbn [bind]. rewrite IH by (intros; apply H; right; assumption). reflexivity. Qed.
Definition year_mean older newer enough days m : option R := if Nat.ltb (length (readings older newer m days)) enough then None else Some (mean (readings older newer m days)).
Lemma year_averages_spec older newer enough days : (0 < enough)%nat -> (forall d, In (Some d) days -> (1 <= d_month d <= 12)%nat) ->
  year_averages older newer enough days = Ok (map (year_mean older newer enough days) (seq 0 12)).
Proof.
  intros HE HD. unfold year_averages, year_sums. pose proof (year_sums_spec older newer days HD _ _ _ holds_zero) as H.
  destruct (fold_left _ days _) as [s c]. destruct H as (_ & _ & H). apply mapM_ok. intros m Hm. apply in_seq in Hm. destruct (H m ltac:(lia)) as [E1 E2]. cbv zeta. rewrite E1, E2. cbn [app].
  unfold year_mean. destruct (Nat.ltb_spec (length (readings older newer m days)) enough); [reflexivity|].
  rewrite pdiv_ok by (apply not_0_INR; lia). reflexivity.
Qed.
Lemma add_year_spec avg v s c : holds v s c -> let '(s', c') := add_year (s, c) avg in holds (fun m => v m ++ match nth m avg None with Some a => [a] | None => [] end) s' c'.
Proof.
  intros H. unfold add_year.
  assert (G : forall n k v s c, (k + n <= 12)%nat -> holds v s c ->
    let '(s', c') := fold_left (fun '(s, c) month => match nth month avg None with None => (s, c) | Some a => (upd s month (nth month s 0 + a), upd c month (nth month c 0%nat + 1)%nat) end) (seq k n) (s, c) in
    holds (fun m => v m ++ if (Nat.leb k m && Nat.ltb m (k + n))%bool then match nth m avg None with Some a => [a] | None => [] end else []) s' c').
  { induction n as [|n IH]; intros k w s0 c0 Hk H0; cbn [seq fold_left].
    - eapply holds_ext; [|exact H0]. intros m Hm. cbv beta. destruct (Nat.leb_spec k m), (Nat.ltb_spec m (k + 0)); cbn [andb]; try lia; now rewrite app_nil_r.
    - assert (S1 : exists s1 c1, (match nth k avg None with None => (s0, c0) | Some a => (upd s0 k (nth k s0 0 + a), upd c0 k (nth k c0 0%nat + 1)%nat) end) = (s1, c1) /\
        holds (fun m => w m ++ if Nat.eqb m k then match nth k avg None with Some a => [a] | None => [] end else []) s1 c1).
      { destruct (nth k avg None) as [a|].
        - eexists _, _. split; [reflexivity|]. apply holds_add; [lia|exact H0].
        - exists s0, c0. split; [reflexivity|]. eapply holds_ext; [|exact H0]. intros m _. cbv beta. destruct (Nat.eqb m k); now rewrite app_nil_r. }
      destruct S1 as (s1 & c1 & -> & H1). specialize (IH (S k) _ s1 c1 ltac:(lia) H1). destruct (fold_left _ (seq (S k) n) (s1, c1)) as [s' c'].
      eapply holds_ext; [|exact IH]. intros m Hm. cbv beta. rewrite <- app_assoc. f_equal.
      destruct (Nat.eqb_spec m k) as [->|N].
      + destruct (Nat.leb_spec (S k) k); [lia|]. cbn [andb]. rewrite app_nil_r. destruct (Nat.leb_spec k k), (Nat.ltb_spec k (k + S n)); cbn [andb]; try lia. reflexivity.
      + cbn [app]. destruct (Nat.leb_spec (S k) m), (Nat.leb_spec k m), (Nat.ltb_spec m (S k + n)), (Nat.ltb_spec m (k + S n)); cbn [andb]; try lia; reflexivity. }
  specialize (G 12%nat 0%nat v s c ltac:(lia) H). destruct (fold_left _ (seq 0 12) (s, c)) as [s' c']. eapply holds_ext; [|exact G]. intros m Hm. cbv beta.
  destruct (Nat.ltb_spec m (0 + 12)); [|lia]. reflexivity.
Qed.
Lemma add_years_spec yearly : forall v s c, holds v s c -> let '(s', c') := fold_left add_year yearly (s, c) in
  holds (fun m => v m ++ flat_map (fun avg => match nth m avg None with Some a => [a] | None => [] end) yearly) s' c'.
Proof.
  induction yearly as [|avg t IH]; intros v s c H; cbn [fold_left].
  - eapply holds_ext; [|exact H]. intros. cbn. now rewrite app_nil_r.
  - pose proof (add_year_spec avg v s c H) as H1. destruct (add_year (s, c) avg) as [s1 c1]. specialize (IH _ _ _ H1). destruct (fold_left _ t (s1, c1)) as [s' c'].
    eapply holds_ext; [|exact IH]. intros m _. cbv beta. rewrite <- app_assoc. reflexivity.
Qed.
Lemma means_of older newer enough m data : (m < 12)%nat ->
  flat_map (fun avg => match nth m avg None with Some a => [a] | None => [] end) (map (fun '(_, days) => map (year_mean older newer enough days) (seq 0 12)) (filter (fun '(y, _) => in_range older newer y) data)) = year_means data older newer enough m.
Proof.
  intros Hm. induction data as [|[y days] t IH]; [reflexivity|]. cbn [filter year_means flat_map]. fold (year_means t older newer enough m). rewrite <- IH. unfold in_range.
  destruct ((older <=? y)%Z && (y <=? newer)%Z); cbn [andb]; [|reflexivity]. cbn [map flat_map]. f_equal.
  rewrite (nth_indep _ None (year_mean older newer enough days 0%nat)) by (rewrite map_length, seq_length; lia). rewrite map_nth, seq_nth by lia. cbn [Nat.add]. unfold year_mean.
  destruct (Nat.ltb_spec (length (readings older newer m days)) enough), (Nat.leb_spec enough (length (readings older newer m days))); try lia; reflexivity.
Qed.
Lemma totals data older newer enough : calendar data -> (0 < enough)%nat ->
  exists s c, month_average data older newer enough = mapM (fun month => pdiv (nth month s 0) (INR (nth month c 0%nat))) (seq 0 12) /\ holds (year_means data older newer enough) s c.
Proof.
  intros HC HE. unfold month_average.
  rewrite (mapM_ok _ (fun '(_, days) => map (year_mean older newer enough days) (seq 0 12))).
  2:{ intros [y days] Hin. apply filter_In in Hin. destruct Hin as [Hin _]. apply year_averages_spec; [exact HE|]. intros d Hd. exact (HC y days d Hin Hd). }
  cbn [bind]. pose proof (add_years_spec (map (fun '(_, days) => map (year_mean older newer enough days) (seq 0 12)) (filter (fun '(y, _) => in_range older newer y) data)) _ _ _ holds_zero) as H.
  destruct (fold_left add_year _ _) as [s c]. exists s, c. split; [reflexivity|]. eapply holds_ext; [|exact H]. intros m Hm. cbv beta. cbn [app]. apply means_of, Hm.
Qed.

(** each month: the mean, over the years with enough readings, of the mean of that year's readings *)
Theorem C114_month_average : forall data older newer enough, calendar data -> (0 < enough)%nat ->
  (forall m, (m < 12)%nat -> year_means data older newer enough m <> []) ->
  month_average data older newer enough = Ok (map (fun m => mean (year_means data older newer enough m)) (seq 0 12)).
Proof.
  intros data older newer enough HC HE HM. destruct (totals data older newer enough HC HE) as (s & c & -> & _ & _ & H). apply mapM_ok. intros m Hm. apply in_seq in Hm. destruct (H m ltac:(lia)) as [-> ->].
  rewrite pdiv_ok; [reflexivity|]. apply not_0_INR. intro E. apply (HM m ltac:(lia)). apply length_zero_iff_nil, E.
Qed.
(** one month without a single complete year and nothing is reported *)
Theorem C114_incomplete : forall data older newer enough m, calendar data -> (0 < enough)%nat -> (m < 12)%nat -> year_means data older newer enough m = [] ->
  month_average data older newer enough = Err ZeroDivisionError.
Proof.
  intros data older newer enough m HC HE Hm E. destruct (totals data older newer enough HC HE) as (s & c & -> & _ & _ & H).
  assert (G : forall l, (forall k, In k l -> (k < 12)%nat) -> In m l -> mapM (fun month => pdiv (nth month s 0) (INR (nth month c 0%nat))) l = Err ZeroDivisionError).
  { induction l as [|k t IH]; intros Hl Hin; [destruct Hin|]. cbn [mapM]. destruct (Nat.eq_dec k m) as [->|N].
    - destruct (H m Hm) as [_ ->]. rewrite E. cbn [length INR]. rewrite pdiv_0. reflexivity.
    - assert (It : In m t) by (destruct Hin; [congruence|assumption]). rewrite IH by (try assumption; intros; apply Hl; right; assumption).
      unfold pdiv. destruct (Reqb _ 0); reflexivity. }
  apply G; [intros k Hk; apply in_seq in Hk; lia|apply in_seq; lia].
Qed.
Lemma mean_bounds l lo hi : l <> [] -> (forall x, In x l -> lo <= x <= hi) -> lo <= mean l <= hi.
Proof.
  intros N H. assert (P : 0 < INR (length l)) by (apply lt_0_INR; destruct l; [congruence|simpl; lia]).
  assert (S : lo * INR (length l) <= lsum l <= hi * INR (length l)).
  { clear N P. induction l as [|x t IH]; [simpl; lra|]. specialize (IH ltac:(intros; apply H; right; assumption)). pose proof (H x ltac:(left; reflexivity)). cbn [length lsum]. rewrite S_INR. lra. }
  unfold mean. split; [apply (Rmult_le_reg_r (INR (length l))); [lra|]; unfold Rdiv; rewrite Rmult_assoc, Rinv_l by lra; lra|].
  apply (Rmult_le_reg_r (INR (length l))); [lra|]. unfold Rdiv. rewrite Rmult_assoc, Rinv_l by lra. lra.
Qed.
(** no average leaves the range of the readings *)
Theorem C114_range : forall data older newer enough lo hi l m, calendar data -> (0 < enough)%nat ->
  (forall y days d v, In (y, days) data -> In (Some d) days -> d_value d = Some v -> lo <= v <= hi) ->
  month_average data older newer enough = Ok l -> (m < 12)%nat -> length l = 12%nat /\ lo <= nth m l 0 <= hi.
Proof.
  intros data older newer enough lo hi l m HC HE HV HM Hm.
  assert (NE : forall k, (k < 12)%nat -> year_means data older newer enough k <> []).
  { intros k Hk E. rewrite (C114_incomplete _ _ _ _ k HC HE Hk E) in HM. discriminate. }
  rewrite (C114_month_average _ _ _ _ HC HE NE) in HM. assert (El : l = map (fun m => mean (year_means data older newer enough m)) (seq 0 12)) by congruence. clear HM. subst l. split; [reflexivity|].
  rewrite (nth_indep _ 0 (mean (year_means data older newer enough 0%nat))) by (rewrite map_length, seq_length; lia). rewrite (map_nth (fun m => mean (year_means data older newer enough m))), seq_nth by lia. cbn [Nat.add].
  apply mean_bounds; [apply NE, Hm|]. intros x Hx. unfold year_means in Hx. apply in_flat_map in Hx. destruct Hx as [[y days] [Hin Hx]].
  destruct (Z.leb older y && Z.leb y newer); cbn [andb] in Hx; [|destruct Hx]. destruct (Nat.leb_spec enough (length (readings older newer m days))) as [L|L]; [|destruct Hx]. destruct Hx as [<-|[]].
  apply mean_bounds; [intro Z; rewrite Z in L; simpl in L; lia|]. intros v Hv. unfold readings in Hv. apply in_flat_map in Hv. destruct Hv as [d [Hd Hv]].
  destruct d as [[y' mo [T|]]|]; try destruct Hv. destruct (_ && _)%bool; [|destruct Hv]. destruct Hv as [<-|[]]. exact (HV y days _ T Hin Hd eq_refl).
Qed.
Lemma mapM_size {A B} (f : A -> result B) l r : mapM f l = Ok r -> length r = length l.
Proof. revert r. induction l as [|x t IH]; intros r H; cbn [mapM] in H; [injection H as <-; reflexivity|]. inv_bind H. inv_bind H. injection H as <-. cbn [length]. f_equal. apply IH. assumption. Qed.
Lemma month_average_size data older newer enough l : month_average data older newer enough = Ok l -> length l = 12%nat.
Proof. intros H. unfold month_average in H. inv_bind H. destruct (fold_left add_year _ _) as [s c]. apply mapM_size in H. rewrite H. apply seq_length. Qed.
(** the coldest (warmest) month is the first with the smallest (largest) average *)
Lemma best_index_spec (better : R -> R -> bool) (le : R -> R -> Prop) : (forall x y, better x y = true -> le x y /\ x <> y) -> (forall x y, better x y = false -> le y x) -> (forall x y z, le x y -> le y z -> le x z) -> (forall x, le x x) -> (forall x y, le x y -> le y x -> x = y) ->
  forall l pre v at_, (at_ < length pre)%nat -> nth at_ pre 0 = v -> (forall j, (j < length pre)%nat -> le v (nth j pre 0) /\ ((j < at_)%nat -> nth j pre 0 <> v)) ->
  let i := best_index better l (length pre) at_ v in (i < length (pre ++ l))%nat /\ forall j, (j < length (pre ++ l))%nat -> le (nth i (pre ++ l) 0) (nth j (pre ++ l) 0) /\ ((j < i)%nat -> nth j (pre ++ l) 0 <> nth i (pre ++ l) 0).
Proof.
  intros B1 B2 TR RF AS. induction l as [|x t IH]; intros pre v at_ Ha Hv HP; cbn [best_index].
  - rewrite app_nil_r. cbv zeta. split; [exact Ha|]. rewrite Hv. exact HP.
  - replace (pre ++ x :: t) with ((pre ++ [x]) ++ t) by (rewrite <- app_assoc; reflexivity). assert (EL : S (length pre) = length (pre ++ [x])) by (rewrite app_length; simpl; lia). rewrite EL. destruct (better x v) eqn:E.
    + apply IH; [rewrite <- EL; lia|rewrite app_nth2, Nat.sub_diag by lia; reflexivity|]. intros j Hj. rewrite <- EL in Hj. destruct (B1 _ _ E) as [L N]. destruct (Nat.eq_dec j (length pre)) as [->|Nj].
      * rewrite app_nth2, Nat.sub_diag by lia. split; [apply RF|lia].
      * rewrite app_nth1 by lia. destruct (HP j ltac:(lia)) as [L2 _]. split; [eapply TR; eassumption|]. intros _ Z. apply N. apply AS; [exact L|]. rewrite <- Z. exact L2.
    + apply IH; [rewrite <- EL; lia|rewrite app_nth1 by lia; exact Hv|]. intros j Hj. rewrite <- EL in Hj. destruct (Nat.eq_dec j (length pre)) as [->|Nj].
      * rewrite app_nth2, Nat.sub_diag by lia. split; [apply B2, E|lia].
      * rewrite app_nth1 by lia. apply HP. lia.
Qed.
Theorem C114_coldest : forall data older newer enough l, month_average data older newer enough = Ok l ->
  exists i, coldest_month data older newer enough = Ok i /\ (i < 12)%nat /\ (forall j, (j < 12)%nat -> nth i l 0 <= nth j l 0) /\ (forall j, (j < i)%nat -> nth i l 0 < nth j l 0).
Proof.
  intros data older newer enough l H. pose proof (month_average_size _ _ _ _ _ H) as HL. unfold coldest_month, extreme_month. rewrite H. cbn [bind]. destruct l as [|v t]; [discriminate|]. eexists. split; [reflexivity|].
  destruct (best_index_spec Rltb Rle) with (l := t) (pre := [v]) (v := v) (at_ := 0%nat) as [G1 G2].
  - intros x y E. apply Rltb_true in E. lra.
  - intros x y E. apply Rltb_false in E. lra.
  - intros; lra. - intros; lra. - intros; lra.
  - simpl; lia. - reflexivity.
  - intros [|j] Hj; [simpl; split; [lra|lia]|simpl in Hj; lia].
  - cbn [length app] in G1, G2. cbn [length] in HL. split; [lia|]. split; intros j Hj; destruct (G2 j ltac:(lia)) as [L N]; [exact L|]. specialize (N Hj). lra.
Qed.
Theorem C114_warmest : forall data older newer enough l, month_average data older newer enough = Ok l ->
  exists i, warmest_month data older newer enough = Ok i /\ (i < 12)%nat /\ (forall j, (j < 12)%nat -> nth j l 0 <= nth i l 0) /\ (forall j, (j < i)%nat -> nth j l 0 < nth i l 0).
Proof.
  intros data older newer enough l H. pose proof (month_average_size _ _ _ _ _ H) as HL. unfold warmest_month, extreme_month. rewrite H. cbn [bind]. destruct l as [|v t]; [discriminate|]. eexists. split; [reflexivity|].
  destruct (best_index_spec (fun x y => Rltb y x) (fun x y => y <= x)) with (l := t) (pre := [v]) (v := v) (at_ := 0%nat) as [G1 G2].
  - intros x y E. apply Rltb_true in E. lra.
  - intros x y E. apply Rltb_false in E. lra.
  - intros; lra. - intros; lra. - intros; lra.
  - simpl; lia. - reflexivity.
  - intros [|j] Hj; [simpl; split; [lra|lia]|simpl in Hj; lia].
  - cbn [length app] in G1, G2. cbn [length] in HL. split; [lia|]. split; intros j Hj; destruct (G2 j ltac:(lia)) as [L N]; [exact L|]. specialize (N Hj). lra.
Qed.
(** two years, one reading a month: the first year counts, the second is out of range *)
Example C114_ex : let data := [(2000%Z, map (fun m => Some (Day 2000 (S m) (Some (INR m)))) (seq 0 12) ++ [None]); (2001%Z, [Some (Day 2001 1 (Some 50))])] in
  calendar data /\ month_average data 2000 2000 1 = Ok (map INR (seq 0 12)) /\ month_average data 2001 2001 1 = Err ZeroDivisionError /\ coldest_month data 2000 2000 1 = Ok 0%nat.
Proof.
  intros data. assert (HC : calendar data).
  { intros y days d H Hd. destruct H as [H|[H|[]]]; apply (f_equal snd) in H; cbn [snd] in H; rewrite <- H in Hd.
    - apply in_app_or in Hd. destruct Hd as [Hd|[Hd|[]]]; [|discriminate]. apply in_map_iff in Hd. destruct Hd as [m [E Hm]]. apply in_seq in Hm. assert (E2 : Day 2000 (S m) (Some (INR m)) = d) by congruence. rewrite <- E2. cbn [d_month]. lia.
    - destruct Hd as [Hd|[]]. assert (E2 : Day 2001 1 (Some 50) = d) by congruence. rewrite <- E2. cbn [d_month]. lia. }
  assert (HM : month_average data 2000 2000 1 = Ok (map INR (seq 0 12))).
  { assert (E : forall m, (m < 12)%nat -> year_means data 2000 2000 1 m = [INR m]).
    { intros m Hm. do 12 (destruct m as [|m]; [cbn; unfold mean; cbn [length lsum]; f_equal; simpl; field|]). lia. }
    rewrite C114_month_average; [|exact HC|lia|intros m Hm; rewrite E by exact Hm; discriminate].
    f_equal. apply map_ext_in. intros m Hm. apply in_seq in Hm. rewrite E by lia. unfold mean. cbn [length lsum]. simpl (INR 1). field. }
  split; [exact HC|]. split; [exact HM|]. split.
  - apply (C114_incomplete data 2001 2001 1 1 HC); [lia|lia|reflexivity].
  - destruct (C114_coldest _ _ _ _ _ HM) as (i & -> & Hi & L & _). f_equal. destruct i as [|i]; [reflexivity|exfalso]. specialize (L 0%nat ltac:(lia)).
    assert (G : forall j, (j < 12)%nat -> nth j (map INR (seq 0 12)) 0 = INR j) by (intros j Hj; do 12 (destruct j as [|j]; [reflexivity|]); lia).
    rewrite !G in L by lia. pose proof (lt_0_INR (S i) ltac:(lia)). simpl (INR 0) in L. lra.
Qed.

Print Assumptions C114_month_average.
Print Assumptions C114_incomplete.
Print Assumptions C114_range.
Print Assumptions C114_coldest.
Print Assumptions C114_warmest.
