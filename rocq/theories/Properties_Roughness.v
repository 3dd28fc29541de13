(** Final theorems: wall roughness look-up (C40). *)
From Coq Require Import Reals Lra Lia QArith Qreals List String Bool.
From Verif Require Import Base Model_Real Interval Proofs_Real Data_Friction Model_Roughness.
Import ListNotations.
Open Scope R_scope.
Open Scope string_scope.
Open Scope R_scope.

(** A fuzzy search returns one of the strings it searches. *)
Definition search_spec (near : string -> string) : Prop := forall s, In (near s) (map fst HHR_roughness).
(** material_roughness terminates with the value v *)
Definition roughness_is near ID D opt (v : result (option R)) : Prop :=
  v <> Err Diverges /\ exists n, forall k, material_roughness_fuel (n + k) near ID D opt = v.

Lemma dict_get_in {A} (d : list (string * A)) k v : dict_get d k = Some v -> In (k, v) d.
Proof.
  induction d as [|[k' v'] d IH]; cbn; [discriminate|]. destruct (String.eqb k' k) eqn:E.
  - intros H; injection H as ->. apply String.eqb_eq in E. subst. auto.
  - auto.
Qed.
Lemma dict_get_some {A} (d : list (string * A)) k : In k (map fst d) -> exists v, dict_get d k = Some v.
Proof.
  induction d as [|[k' v'] d IH]; cbn; [contradiction|]. intros [->|H].
  - rewrite String.eqb_refl. eauto.
  - destruct (String.eqb k' k); eauto.
Qed.
Definition entry_ok (e : string * (option Q * option Q * option Q)) : bool :=
  let '(_, (mn, mx, av)) := e in
  forallb (fun o => match o with Some q => Qle_bool (1 # 10000000) q | None => false end)
    [py_or av (py_or mx mn); py_or mn (py_or av mx); py_or mx (py_or av mn)].
Lemma HHR_ok : forallb entry_ok HHR_roughness = true. Proof. vm_compute. reflexivity. Qed.
Lemma table_ok : forallb (fun e => Qle_bool (1 # 10000000) (snd e)) roughness_table = true. Proof. vm_compute. reflexivity. Qed.
Lemma Farshad_ok : forallb (fun e => let '(_, (a, b, c)) := e in Qle_bool (1 # 10000000) a && Qle_bool (1 # 10000000) b) Farshad_roughness = true. Proof. vm_compute. reflexivity. Qed.
Lemma Q2R_ge q : Qle_bool (1 # 10000000) q = true -> 0 < Q2R q.
Proof. intros H. apply Qle_bool_iff in H. apply Qle_Rle in H. assert (0 < Q2R (1 # 10000000)) by (unfold Q2R; cbn; lra). lra. Qed.

(** every name, known or not, gives a positive roughness *)
Theorem C40_total_positive : forall near ID D opt, search_spec near ->
  (forall d, D = Some d -> 0 < d) ->
  exists e, 0 < e /\ roughness_is near ID D opt (Ok (Some e)).
Proof.
  intros near ID D opt Hn HD.
  assert (KF : forall v i, dict_get Farshad_roughness i = Some v -> exists e, 0 < e /\ roughness_Farshad (Some i) D None = Ok e).
  { intros [[a b] c] i G. unfold roughness_Farshad. rewrite G. apply dict_get_in in G. pose proof (proj1 (forallb_forall _ _) Farshad_ok _ G) as K.
    cbv beta iota in K. apply andb_true_iff in K. destruct K as [K1 K2]. apply Q2R_ge in K1, K2. destruct D as [d|]; [|eauto].
    specialize (HD d eq_refl). assert (0 < d / inch) by (apply Rdiv_lt_0_compat; auto; unfold inch; lits; lra).
    rewrite pdiv_ok by (unfold inch; lits; lra). cbn [bind]. rewrite ppow_ok by auto. cbn [bind]. eexists; split; [|reflexivity].
    apply Rmult_lt_0_compat; [apply Rmult_lt_0_compat; auto; apply Rpower_pos|unfold inch; lits; lra]. }
  assert (KH : forall v i, dict_get HHR_roughness i = Some v -> exists e, 0 < e /\ (let '(mn, mx, av) := v in
     option_map Q2R (match opt with None => py_or av (py_or mx mn) | Some true => py_or mn (py_or av mx) | Some false => py_or mx (py_or av mn) end)) = Some e).
  { intros [[a b] c] i G. apply dict_get_in in G. pose proof (proj1 (forallb_forall _ _) HHR_ok _ G) as K. cbv beta iota delta [entry_ok] in K. cbn [forallb] in K.
    rewrite !andb_true_iff in K. destruct K as [K1 [K2 [K3 _]]].
    destruct opt as [[|]|]; [destruct (py_or a _) as [q|]|destruct (py_or b (py_or c a)) as [q|]|destruct (py_or c (py_or b a)) as [q|]]; try discriminate; exists (Q2R q); split; try reflexivity; apply Q2R_ge; auto. }
  assert (One : forall i, In i (map fst HHR_roughness) \/ dict_get Farshad_roughness i <> None \/ dict_get roughness_table i <> None ->
     exists e, 0 < e /\ forall k, material_roughness_fuel (S k) near i D opt = Ok (Some e)).
  { intros i Hi. cbn [material_roughness_fuel]. destruct (dict_get Farshad_roughness i) eqn:GF.
    { destruct (KF _ _ GF) as [e [P E]]. exists e. split; auto. intros _. rewrite E. reflexivity. }
    destruct (dict_get roughness_table i) as [q|] eqn:GR.
    { exists (Q2R q). split; auto. apply dict_get_in in GR. pose proof (proj1 (forallb_forall _ _) table_ok _ GR) as K. apply Q2R_ge; auto. }
    destruct Hi as [Hi|[Hi|Hi]]; try congruence. destruct (dict_get_some _ _ Hi) as [v Gv]. rewrite Gv.
    destruct (KH _ _ Gv) as [e [P E]]. exists e. split; auto. intros _. destruct v as [[a b] c]. rewrite E. reflexivity. }
  destruct (dict_get Farshad_roughness ID) as [v|] eqn:GF.
  { destruct (One ID) as [e [P E]]; [rewrite GF; right; left; discriminate|]. exists e. split; auto. split; [discriminate|]. exists 1%nat. exact E. }
  destruct (dict_get roughness_table ID) as [v|] eqn:GR.
  { destruct (One ID) as [e [P E]]; [rewrite GR; right; right; discriminate|]. exists e. split; auto. split; [discriminate|]. exists 1%nat. exact E. }
  destruct (dict_get HHR_roughness ID) as [v|] eqn:GH.
  { destruct (One ID) as [e [P E]]. left. apply dict_get_in in GH. apply (in_map fst) in GH. auto. exists e. split; auto. split; [discriminate|]. exists 1%nat. exact E. }
  destruct (One (near ID) (or_introl (Hn ID))) as [e [P E]]. exists e. split; auto. split; [discriminate|]. exists 2%nat. intros k.
  change (2 + k)%nat with (S (S k)). specialize (E k). cbn [material_roughness_fuel] in E |- *. rewrite GF, GR, GH. exact E.
Qed.

Definition inverted : string := "Concrete water conduits, no finish, Smoothed air-placed, either sprayed concrete or concrete on more concrete".
Definition ordered_entry (e : string * (option Q * option Q * option Q)) : bool :=
  let '(n, (mn, mx, av)) := e in String.eqb n inverted ||
  match py_or mn (py_or av mx), py_or av (py_or mx mn), py_or mx (py_or av mn) with
  | Some a, Some b, Some c => Qle_bool a b && Qle_bool b c | _, _, _ => false end.
Lemma HHR_ordered : forallb ordered_entry HHR_roughness = true. Proof. vm_compute. reflexivity. Qed.
Lemma run_eq near ID D opt v w : roughness_is near ID D opt v -> (exists n, material_roughness_fuel n near ID D opt = w /\ w <> Err Diverges) -> v = w.
Proof.
  intros [Hv [n E]] [m [Em Hw]].
  assert (M : forall k i r, material_roughness_fuel k near i D opt = r -> r <> Err Diverges -> forall j, material_roughness_fuel (k + j) near i D opt = r).
  { induction k as [|k IH]; intros i r Er Hr j; [cbn in Er; congruence|]. cbn [material_roughness_fuel plus] in Er |- *.
    destruct (dict_get Farshad_roughness i); auto. destruct (dict_get roughness_table i); auto. destruct (dict_get HHR_roughness i); auto. }
  rewrite <- (M m ID w Em Hw n). rewrite <- (E m). f_equal. lia.
Qed.
(** the optimistic estimate is at most the default, the pessimistic one at least the default: every material of the
    three tables but one *)
Theorem C40_optimism_ordered : forall near ID D a b c,
  In ID (map fst Farshad_roughness ++ map fst roughness_table ++ map fst HHR_roughness) -> ID <> inverted ->
  roughness_is near ID D (Some true) (Ok (Some a)) -> roughness_is near ID D None (Ok (Some b)) ->
  roughness_is near ID D (Some false) (Ok (Some c)) -> a <= b <= c.
Proof.
  intros near ID D a b c Hi Hx Ha Hb Hc. destruct Ha as [_ [n1 Ha]], Hb as [_ [n2 Hb]], Hc as [_ [n3 Hc]].
  specialize (Ha 1%nat). specialize (Hb 1%nat). specialize (Hc 1%nat). rewrite Nat.add_1_r in Ha, Hb, Hc. cbn [material_roughness_fuel] in *.
  assert (NI : forall A (d : list (string * A)), dict_get d ID = None -> ~ In ID (map fst d)).
  { intros A d N I. destruct (dict_get_some d ID I) as [v Ev]. congruence. }
  destruct (dict_get Farshad_roughness ID) eqn:GF.
  { assert (a = b) by congruence. assert (b = c) by congruence. subst. split; apply Rle_refl. }
  destruct (dict_get roughness_table ID) eqn:GR.
  { assert (a = b) by congruence. assert (b = c) by congruence. subst. split; apply Rle_refl. }
  apply NI in GF, GR. rewrite !in_app_iff in Hi. destruct Hi as [Hi|[Hi|Hi]]; try contradiction.
  destruct (dict_get_some _ _ Hi) as [[[mn mx] av] G]. rewrite G in Ha, Hb, Hc. apply dict_get_in in G.
  pose proof (proj1 (forallb_forall _ _) HHR_ordered _ G) as K. cbv beta iota delta [ordered_entry] in K.
  apply orb_true_iff in K. destruct K as [K|K]; [apply String.eqb_eq in K; contradiction|].
  destruct (py_or mn (py_or av mx)) as [qa|]; [|discriminate]. destruct (py_or av (py_or mx mn)) as [qb|]; [|discriminate].
  destruct (py_or mx (py_or av mn)) as [qc|]; [|discriminate]. apply andb_true_iff in K. destruct K as [K1 K2].
  apply Qle_bool_iff in K1, K2. apply Qle_Rle in K1, K2. cbn [option_map] in Ha, Hb, Hc.
  assert (Q2R qa = a) by congruence. assert (Q2R qb = b) by congruence. assert (Q2R qc = c) by congruence. subst. auto.
Qed.
(** the remaining entry: its tabulated average lies below its minimum, so that being optimistic raises the estimate *)
Theorem C40_optimism_refuted : forall near D, exists a b,
  roughness_is near inverted D (Some true) (Ok (Some a)) /\ roughness_is near inverted D None (Ok (Some b)) /\ b < a.
Proof.
  intros near D. exists (Q2R (6.0e-3)), (Q2R (5.0e-4)). splits.
  - split; [discriminate|]. exists 1%nat. intros k. reflexivity.
  - split; [discriminate|]. exists 1%nat. intros k. reflexivity.
  - apply Qlt_Rlt. reflexivity.
Qed.
(** without a diameter the Farshad materials give their average roughness; with one, Farshad's power law in inches *)
Theorem C40_Farshad_lookup : forall ID avg A B D coeffs, In (ID, (avg, A, B)) Farshad_roughness -> 0 < D ->
  roughness_Farshad (Some ID) None coeffs = Ok (Q2R avg) /\
  roughness_Farshad (Some ID) (Some D) coeffs = Ok (Q2R A * Rpower (D / 0.0254) (Q2R B + 1) * 0.0254).
Proof.
  intros ID avg A B D coeffs Hi HD.
  assert (G : dict_get Farshad_roughness ID = Some (avg, A, B)).
  { cbn [In Farshad_roughness] in Hi. repeat (destruct Hi as [Hi|Hi]; [inversion Hi; subst; reflexivity|]). contradiction. }
  assert (P : 0 < D / inch) by (apply Rdiv_lt_0_compat; auto; unfold inch; lits; lra).
  unfold roughness_Farshad. rewrite G. split; destruct coeffs as [[? ?]|]; auto.
  all: rewrite pdiv_ok by (unfold inch; lits; lra); cbn [bind]; rewrite ppow_ok by auto; reflexivity.
Qed.
(** user supplied coefficients are used only without an identifier, and need a diameter *)
Theorem C40_Farshad_coeffs : forall A B D, 0 < D ->
  roughness_Farshad None None (Some (A, B)) = Err ValueError /\
  roughness_Farshad None (Some D) (Some (A, B)) = Ok (A * Rpower (D / 0.0254) (B + 1) * 0.0254).
Proof.
  intros A B D HD. split; auto. unfold roughness_Farshad.
  assert (P : 0 < D / inch) by (apply Rdiv_lt_0_compat; auto; unfold inch; lits; lra).
  rewrite pdiv_ok by (unfold inch; lits; lra); cbn [bind]; rewrite ppow_ok by auto; reflexivity.
Qed.
(** an unknown identifier surfaces as an UnboundLocalError, not as a documented error *)
Theorem C40_Farshad_unknown_refuted : forall ID D coeffs, ~ In ID (map fst Farshad_roughness) ->
  roughness_Farshad (Some ID) D coeffs = Err UnboundLocalError.
Proof.
  intros ID D coeffs N. unfold roughness_Farshad. destruct (dict_get Farshad_roughness ID) as [v|] eqn:G.
  - exfalso. apply N. apply dict_get_in in G. apply (in_map fst) in G. auto.
  - destruct coeffs as [[? ?]|]; auto.
Qed.
Example C40_ex : exists near a b c, search_spec near /\
  let ID := "Seamless steel tubes, New and unused" in
  In ID (map fst HHR_roughness) /\ ID <> inverted /\
  roughness_is near ID None (Some true) (Ok (Some a)) /\ roughness_is near ID None None (Ok (Some b)) /\
  roughness_is near ID None (Some false) (Ok (Some c)) /\ a < b /\ b <= c.
Proof.
  exists (fun _ => inverted). eexists; eexists; eexists. split.
  - intros s. unfold HHR_roughness, inverted. cbn. tauto.
  - cbv zeta. splits.
    + unfold HHR_roughness. cbn. tauto.
    + discriminate.
    + split; [discriminate|]. exists 1%nat. intros k. reflexivity.
    + split; [discriminate|]. exists 1%nat. intros k. reflexivity.
    + split; [discriminate|]. exists 1%nat. intros k. reflexivity.
    + apply Qlt_Rlt. reflexivity.
    + apply Qle_Rle. discriminate.
Qed.

Print Assumptions C40_total_positive.
Print Assumptions C40_optimism_ordered.
Print Assumptions C40_optimism_refuted.
Print Assumptions C40_Farshad_lookup.
Print Assumptions C40_Farshad_coeffs.
Print Assumptions C40_Farshad_unknown_refuted.
