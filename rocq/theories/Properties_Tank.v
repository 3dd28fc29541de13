(** C110: the tank class builds the tank that was asked for. *)
From Coq Require Import Reals Lra String List Bool.
From Coquelicot Require Import Coquelicot.
From Verif Require Import Base Proofs_Real Model_Real Model_Geometry Model_Tank Spec_Geometry Proofs_Geometry Properties_Geometry2 Properties_Geometry3.
Import ListNotations.
Open Scope R_scope.

(** * Specification *)
(** The end [built] on a tank of diameter [D] is the end that [given] describes: the kind is kept; a depth given
    is kept, or is the ratio times the diameter, or a quarter of the diameter; a torispherical end has the depth of
    its factors, by default 1 and 0.06; a flat end has no depth; the ratio is depth over diameter. *)
Definition head_of (D : R) (given built : side) : Prop :=
  s_kind built = s_kind given /\
  (forall x, s_kind given <> Some "torispherical"%string -> s_a given = Some x -> s_a built = Some x) /\
  (s_kind given = None -> s_a given = None -> s_a built = Some 0) /\
  (forall kind, s_kind given = Some kind -> In kind ["conical"%string; "ellipsoidal"%string; "guppy"%string; "spherical"%string] -> s_a given = None ->
    (forall r, s_ratio given = Some r -> s_a built = Some (D * r)) /\ (s_ratio given = None -> s_a built = Some (D / 4))) /\
  (forall f k, s_kind given = Some "torispherical"%string -> s_f given = Some f -> s_k given = Some k ->
    s_f built = Some f /\ s_k built = Some k /\ exists a, a_torispherical D f k = Ok a /\ s_a built = Some a) /\
  (s_kind given = Some "torispherical"%string -> s_a given = None -> s_f given = None -> s_k given = None ->
    s_f built = Some 1 /\ s_k built = Some 0.06 /\ exists a, a_torispherical D 1 0.06 = Ok a /\ s_a built = Some a) /\
  (forall a, D <> 0 -> s_a built = Some a -> s_ratio built = Some (a / D)).
Definition roots_only (secant : (R -> result R) -> R -> result R) : Prop := forall f x0 x, secant f x0 = Ok x -> f x = Ok 0.
Definition roots_between (solve : (R -> result R) -> R -> R -> R -> result R) : Prop :=
  forall f x0 lo hi x, solve f x0 lo hi = Ok x -> f x = Ok 0 /\ lo <= x <= hi.

(** * Lemmas *)
Lemma is_kind_true s k : is_kind s k = true <-> s = Some k.
Proof. destruct s as [s|]; cbn; [rewrite String.eqb_eq | ]; split; congruence. Qed.
Lemma is_kind_false s k : is_kind s k = false <-> s <> Some k.
Proof. rewrite <- (is_kind_true s k). destruct (is_kind s k); split; congruence. Qed.
Lemma defaults_idem s : side_defaults (side_defaults s) = side_defaults s.
Proof.
  destruct s as [kind a ratio f k]. unfold side_defaults; cbn [s_kind s_a s_ratio s_f s_k].
  destruct kind as [kind|]; destruct a as [a|]; destruct ratio as [r|]; cbn; try reflexivity;
    destruct (String.eqb kind "torispherical") eqn:E; cbn; rewrite ?E; cbn; try reflexivity; destruct f; destruct k; cbn; rewrite ?E; reflexivity.
Qed.
Lemma pdiv_inv' x y v : pdiv x y = Ok v -> y <> 0 /\ v = x / y.
Proof. intros E. destruct (Req_dec y 0) as [->|H]; [rewrite pdiv_0 in E; discriminate|]. rewrite pdiv_ok in E by exact H. apply Ok_inj in E. auto. Qed.
Lemma sized_ratio D (a : option R) (r : option R) r' :
  (match a, r with
    | Some a, None => r <- pdiv a D ;; Ok (Some r)
    | Some a, Some r => if negb (Reqb a (D * r)) then r <- pdiv a D ;; Ok (Some r) else Ok (Some r)
    | None, r => Ok r end) = Ok r' -> forall x, D <> 0 -> a = Some x -> r' = Some (x / D).
Proof.
  intros E x HD ->. destruct r as [r|].
  - destruct (Reqb x (D * r)) eqn:T; cbn [negb] in E.
    + apply Reqb_true in T. apply Ok_inj in E. subst. f_equal. field. exact HD.
    + rewrite pdiv_ok in E by exact HD. cbn [bind] in E. congruence.
  - rewrite pdiv_ok in E by exact HD. cbn [bind] in E. congruence.
Qed.
Lemma built_head D s b : side_sized D (side_defaults s) = Ok b -> head_of D s b.
Proof.
  unfold side_sized. intros E. inv_bind E. inv_bind E. inv_bind E. apply Ok_inj in E. subst b. unfold head_of. cbn [s_kind s_a s_ratio s_f s_k].
  destruct s as [kind a r f k]. cbn [s_kind s_a s_ratio s_f s_k side_defaults] in *.
  assert (HR := sized_ratio _ _ _ _ E2). clear E2.
  splits.
  - reflexivity.
  - intros x Hk ->. apply is_kind_false in Hk. destruct kind; cbn in E0; apply Ok_inj in E0; subst; rewrite Hk in E1; apply Ok_inj in E1; congruence.
  - intros -> ->. cbn in E0, E1. apply Ok_inj in E0. subst. apply Ok_inj in E1. congruence.
  - intros kd -> Hin ->. cbn [is_kind] in *.
    assert (T : String.eqb kd "torispherical" = false /\ head_by_ratio (Some kd) = true).
    { cbn in Hin. destruct Hin as [<-|[<-|[<-|[<-|[]]]]]; split; reflexivity. }
    destruct T as (T & H). rewrite T, H in *. split.
    + intros x ->. apply Ok_inj in E0. subst. apply Ok_inj in E1. congruence.
    + intros ->. apply Ok_inj in E0. subst. apply Ok_inj in E1. subst. f_equal. lits. field.
  - intros f' k' -> -> ->. cbn [is_kind String.eqb opt_default] in *. destruct a as [a|]; cbn in E1; inv_bind E1; apply Ok_inj in E1; subst; splits; try reflexivity; eexists; split; [eassumption | reflexivity | eassumption | reflexivity].
  - intros -> -> -> ->. cbn in E1. inv_bind E1. apply Ok_inj in E1. subst. splits; try reflexivity. eexists; split; [eassumption | reflexivity].
  - exact HR.
Qed.
Lemma sizes_spec D L r d l x : tank_sizes D L r = Ok (d, l, x) ->
  l = d * x /\ (forall y, D = Some y -> d = y) /\ (forall y, L = Some y -> l = y) /\ (D = None \/ L = None -> forall y, r = Some y -> x = y).
Proof.
  unfold tank_sizes. intros E. destruct D as [D|]; destruct L as [L|]; try (destruct r as [r|]); try discriminate.
  - inv_bind E. unfold pdiv in E0. numR. rcase_in E0; try discriminate. apply Ok_inj in E0. injection E as <- <- <-. splits; try congruence. subst. field. assumption. intros [H|H]; discriminate.
  - inv_bind E. unfold pdiv in E0. numR. rcase_in E0; try discriminate. apply Ok_inj in E0. injection E as <- <- <-. splits; try congruence. subst. field. assumption.
  - injection E as <- <- <-. splits; try congruence.
  - inv_bind E. unfold pdiv in E0. numR. rcase_in E0; try discriminate. apply Ok_inj in E0. injection E as <- <- <-. splits; try congruence. subst. field. assumption.
Qed.
Lemma misc_inv quad D L r horizontal A B t : set_misc quad D L r horizontal A B = Ok t ->
  exists a b, tank_sizes D L r = Ok (t_D t, t_L t, t_L_over_D t) /\ side_sized (t_D t) A = Ok a /\ side_sized (t_D t) B = Ok b /\ t_A t = a /\ t_B t = b /\
  t_horizontal t = horizontal /\ t_h_max t = (if horizontal then t_D t else t_L t + depth a + depth b) /\
  V_tank quad (t_D t) (t_L t) horizontal (s_kind a) (s_kind b) (depth a) (depth b) (s_f a) (s_k a) (s_f b) (s_k b) = Ok (t_V_total t, t_V_sideA t, t_V_sideB t, t_V_lateral t) /\
  SA_tank (t_D t) (t_L t) (s_kind a) (s_kind b) (depth a) (depth b) (s_f a) (s_k a) (s_f b) (s_k b) = Ok (t_area t, t_A_sideA t, t_A_sideB t, t_A_lateral t) /\
  t_A_sideA_extra t = t_A_sideA t - PI / 4 * (t_D t) ^ 2 /\ t_A_sideB_extra t = t_A_sideB t - PI / 4 * (t_D t) ^ 2.
Proof.
  unfold set_misc. intros E. inv_bind E. destruct v as ((d, l), x). inv_bind E. inv_bind E. inv_bind E. destruct v1 as (((V, VA), VB), VL). inv_bind E. destruct v1 as (((S, SA), SB), SL).
  apply Ok_inj in E. subst t. cbn [t_D t_L t_L_over_D t_horizontal t_A t_B t_h_max t_V_total t_V_sideA t_V_sideB t_V_lateral t_area t_A_sideA t_A_sideB t_A_lateral t_A_sideA_extra t_A_sideB_extra].
  exists v, v0. splits; auto.
  - destruct horizontal; ring.
  - lits. field.
  - lits. field.
Qed.
Lemma TANK_plain quad secant D L horizontal A B r : s_kind A <> Some "same"%string -> s_kind B <> Some "same"%string ->
  TANK quad secant D L horizontal A B r None = set_misc quad D L r horizontal (side_defaults A) (side_defaults B).
Proof. intros HA HB. unfold TANK, same_sides. apply is_kind_false in HA, HB. rewrite HA, HB. reflexivity. Qed.
Lemma head_fk_form k f kk : forall p, head_fk (head_name k) f kk = Ok p -> head_fk (head_name k) (fst (fk k (fst p) (snd p))) (snd (fk k (fst p) (snd p))) = Ok p.
Proof. intros p E. unfold head_fk in *. destruct k; cbn in *; try exact E. destruct f; destruct kk; try discriminate. apply Ok_inj in E. subst p. reflexivity. Qed.

Lemma tank_form quad D L hz sA sB aA aB fA kA fB kB v : V_tank quad D L hz sA sB aA aB fA kA fB kB = Ok v ->
  exists hA hB fA' kA' fB' kB', sA = head_name hA /\ sB = head_name hB /\
  V_tank quad D L hz (head_name hA) (head_name hB) aA aB (fst (fk hA fA' kA')) (snd (fk hA fA' kA')) (fst (fk hB fB' kB')) (snd (fk hB fB' kB')) = Ok v /\
  forall h, V_from_h quad h D L hz sA sB aA aB fA kA fB kB =
    V_from_h quad h D L hz (head_name hA) (head_name hB) aA aB (fst (fk hA fA' kA')) (snd (fk hA fA' kA')) (fst (fk hB fB' kB')) (snd (fk hB fB' kB')).
Proof.
  intros E. assert (E' := E). unfold V_tank in E'. destruct (head_known sA) eqn:KA; [|discriminate]. destruct (head_known sB) eqn:KB; [|discriminate]. cbn [negb] in E'.
  destruct (names_known _ KA) as (hA & ->). destruct (names_known _ KB) as (hB & ->).
  destruct (head_fk (head_name hA) fA kA) as [pA|] eqn:FA; [|discriminate]. destruct (head_fk (head_name hB) fB kB) as [pB|] eqn:FB; [|destruct pA; discriminate].
  clear E'. exists hA, hB, (fst pA), (snd pA), (fst pB), (snd pB). assert (GA := head_fk_form _ _ _ _ FA). assert (GB := head_fk_form _ _ _ _ FB).
  splits; [reflexivity | reflexivity | |].
  - rewrite <- E. unfold V_tank. rewrite KA, KB, FA, FB, GA, GB. reflexivity.
  - intros h. unfold V_from_h. rewrite KA, KB, FA, FB, GA, GB. reflexivity.
Qed.

Lemma flat_tank quad secant D L a b : 0 < D -> exists t, TANK quad secant (Some D) (Some L) false (mk_side None (Some a) None None None) (mk_side None (Some b) None None None) None None = Ok t /\
  t_h_max t = L + a + b /\ t_V_total t = PI / 4 * D ^ 2 * L /\ True /\ t_A t = mk_side None (Some a) (Some (a / D)) None None /\ t_B t = mk_side None (Some b) (Some (b / D)) None None /\
  t_L t = L /\ t_D t = D /\ t_horizontal t = false.
Proof.
  intros HD. rewrite TANK_plain by discriminate.
  assert (F : forall x, side_sized D (side_defaults (mk_side None (Some x) None None None)) = Ok (mk_side None (Some x) (Some (x / D)) None None)).
  { intros x. unfold side_sized, side_defaults. cbn [s_kind s_a s_ratio s_f s_k is_kind head_by_ratio orb bind]. rewrite pdiv_ok by lra. reflexivity. }
  unfold set_misc, tank_sizes. rewrite pdiv_ok by lra. cbn [bind]. rewrite F. cbn [bind]. rewrite F. cbn [bind].
  unfold V_tank, SA_tank, SA_tank_side, depth. cbn [s_kind s_a s_ratio s_f s_k head_known negb head_fk is_kind bind add_if]. eexists. split; [reflexivity|].
  cbn [t_h_max t_V_total t_A t_B t_L t_D t_horizontal]. splits; auto; try ring. lits. field.
Qed.

(** * Theorems *)
(** Diameter, length and their ratio are consistent, and whichever two were given are kept. *)
Theorem C110_sizes : forall quad secant D L horizontal A B r t, TANK quad secant D L horizontal A B r None = Ok t ->
  t_L t = t_D t * t_L_over_D t /\ (forall d, D = Some d -> t_D t = d) /\ (forall l, L = Some l -> t_L t = l) /\
  (D = None \/ L = None -> forall x, r = Some x -> t_L_over_D t = x) /\ t_horizontal t = horizontal.
Proof.
  intros quad secant D L horizontal A B r t E. unfold TANK in E. inv_bind E. destruct v as (A', B'). cbn [truthy bind] in E.
  apply misc_inv in E. destruct E as (a & b & ES & _ & _ & _ & _ & EH & _). apply sizes_spec in ES. destruct ES as (S1 & S2 & S3 & S4). splits; assumption.
Qed.
(** Both ends are the ones described. *)
Theorem C110_heads : forall quad secant D L horizontal A B r t, s_kind A <> Some "same"%string -> s_kind B <> Some "same"%string ->
  TANK quad secant D L horizontal A B r None = Ok t -> head_of (t_D t) A (t_A t) /\ head_of (t_D t) B (t_B t).
Proof.
  intros quad secant D L horizontal A B r t HA HB E. rewrite TANK_plain in E by assumption. apply misc_inv in E.
  destruct E as (a & b & _ & EA & EB & -> & -> & _). split; apply built_head; assumption.
Qed.
(** An end called the same as the other is the other, whatever else was said about it; both cannot be. *)
Theorem C110_same : forall quad secant D L horizontal A B r V, s_kind A = Some "same"%string ->
  (s_kind B <> Some "same"%string -> TANK quad secant D L horizontal A B r V = TANK quad secant D L horizontal B B r V /\
    TANK quad secant D L horizontal B A r V = TANK quad secant D L horizontal B B r V) /\
  (s_kind B = Some "same"%string -> TANK quad secant D L horizontal A B r V = Err ValueError).
Proof.
  intros quad secant D L horizontal A B r V HA. apply is_kind_true in HA. split; intros HB.
  - apply is_kind_false in HB. unfold TANK, same_sides. rewrite HA, HB. split; reflexivity.
  - apply is_kind_true in HB. unfold TANK, same_sides. rewrite HA, HB. reflexivity.
Qed.
(** Volume and surface are those of wall and ends together; the height is the diameter lying and the length with both heads standing. *)
Theorem C110_totals : forall quad secant D L horizontal A B r V t, TANK quad secant D L horizontal A B r V = Ok t -> 0 < t_D t ->
  t_V_total t = t_V_lateral t + t_V_sideA t + t_V_sideB t /\ t_V_lateral t = PI / 4 * (t_D t) ^ 2 * t_L t /\
  t_area t = t_A_lateral t + t_A_sideA t + t_A_sideB t /\ t_A_lateral t = PI * t_D t * t_L t /\
  t_h_max t = (if horizontal then t_D t else t_L t + depth (t_A t) + depth (t_B t)) /\
  t_A_sideA t = t_A_sideA_extra t + PI / 4 * (t_D t) ^ 2 /\ t_A_sideB t = t_A_sideB_extra t + PI / 4 * (t_D t) ^ 2.
Proof.
  intros quad secant D L horizontal A B r V t E HD. unfold TANK in E. inv_bind E. destruct v as (A', B'). inv_bind E. destruct v as (D', L').
  apply misc_inv in E. destruct E as (a & b & _ & _ & _ & -> & -> & _ & EH & EV & ES & X1 & X2).
  unfold SA_tank in ES. inv_bind ES. inv_bind ES. injection ES as S1 S2 S3 S4.
  assert (W : t_V_total t = t_V_lateral t + t_V_sideA t + t_V_sideB t /\ t_V_lateral t = PI / 4 * (t_D t) ^ 2 * t_L t).
  { destruct (tank_form _ _ _ _ _ _ _ _ _ _ _ _ _ EV) as (hA & hB & fA & kA & fB & kB & _ & _ & F & _). clear EV. destruct horizontal.
    - apply tank_horizontal in F; [|exact HD]. destruct F as (xA & xB & _ & _ & F).
      assert (S : segment (t_D t / 2) (t_D t) = PI * (t_D t / 2 * (t_D t / 2))).
      { unfold segment, half_chord. replace ((t_D t / 2 - t_D t) / (t_D t / 2)) with (- (1)) by (field; lra). rewrite acos_opp, acos_1.
        replace (t_D t * (2 * (t_D t / 2) - t_D t)) with 0 by field. rewrite sqrt_0. ring. }
      rewrite S in F. injection F as F1 F2 F3 F4. rewrite F1, F2, F3, F4. split; [reflexivity | field].
    - apply tank_vertical in F. destruct F as (xA & xB & _ & _ & F). injection F as F1 F2 F3 F4. rewrite F1, F2, F3, F4. split; [reflexivity | field]. }
  splits; try tauto; lra.
Qed.
(** A tank filled to its height holds its volume. *)
Theorem C110_full : forall quad secant D L horizontal A B r V t, TANK quad secant D L horizontal A B r V = Ok t ->
  0 < t_D t -> 0 <= t_L t -> 0 <= depth (t_A t) -> 0 <= depth (t_B t) -> tank_V_from_h quad t (t_h_max t) = Ok (t_V_total t).
Proof.
  intros quad secant D L horizontal A B r V t E HD HL HA HB. unfold TANK in E. inv_bind E. destruct v as (A', B'). inv_bind E. destruct v as (D', L').
  apply misc_inv in E. destruct E as (a & b & _ & _ & _ & EA & EB & Eh & EH & EV & _). unfold tank_V_from_h. rewrite EA, EB in *. rewrite Eh, EH.
  destruct (tank_form _ _ _ _ _ _ _ _ _ _ _ _ _ EV) as (hA & hB & fA & kA & fB & kB & _ & _ & F & G). rewrite G.
  apply (C81_full quad (t_D t) (t_L t) horizontal hA hB _ _ fA kA fB kB _ _ _ _ _ HD HL HA HB (Rle_refl _) F).
Qed.
(** A tank asked for by its volume has that volume, and the one size that was given, if the solver returns only roots. *)
Theorem C110_volume : forall quad secant D L horizontal A B r V t, roots_only secant -> V <> 0 ->
  TANK quad secant D L horizontal A B r (Some V) = Ok t ->
  t_V_total t = V /\ (forall d, D = Some d -> d <> 0 -> t_D t = d) /\ (forall l, L = Some l -> l <> 0 -> t_L t = l) /\
  (forall x, D = None -> L = None -> r = Some x -> t_L_over_D t = x).
Proof.
  intros quad secant D L horizontal A B r V t HS HV E. unfold TANK in E. inv_bind E. destruct v as (A', B'). clear E0.
  assert (TV : truthy (Some V) = true) by (cbn; destruct (Reqb V 0) eqn:T; [apply Reqb_true in T; contradiction | reflexivity]). rewrite TV in E. inv_bind E. destruct v as (D', L').
  assert (TR : forall y, truthy (Some y) = true <-> y <> 0) by (intros y; cbn; destruct (Reqb y 0) eqn:T; cbn; [apply Reqb_true in T | apply Reqb_false in T]; split; congruence).
  assert (Key : exists d l, D' = Some d /\ L' = Some l /\ V_solver_error quad V d l horizontal (side_defaults A') (side_defaults B') = Ok 0 /\
     (forall x, D = Some x -> x <> 0 -> d = x) /\ (forall x, L = Some x -> x <> 0 -> l = x) /\ (forall x, D = None -> L = None -> r = Some x -> pdiv l x = Ok d)).
  { unfold solve_tank_for_V in E0.
    destruct (truthy L && _)%bool in E0; [discriminate|].
    destruct (truthy D && truthy L || truthy D && truthy r || truthy L && truthy r)%bool eqn:T2 in E0; [discriminate|].
    match type of E0 with (if ?c then _ else _) = _ => destruct c; [discriminate|] end.
    apply orb_false_elim in T2. destruct T2 as (T2 & T4). apply orb_false_elim in T2. destruct T2 as (T2 & T3).
    destruct (truthy D) eqn:TD in T2, T3, E0.
    - destruct D as [d|]; [|discriminate]. inv_bind E0. inv_bind E0. injection E0 as <- <-. apply HS in E2. cbn [andb] in T2.
      eexists _, _. splits; try reflexivity; try exact E2; intros; subst; try congruence; match goal with H : _ <> 0 |- _ => apply TR in H; congruence end.
    - destruct (truthy L) eqn:TL in T2, T4, E0.
      + destruct L as [l|]; [|discriminate]. inv_bind E0. inv_bind E0. inv_bind E0. injection E0 as <- <-. apply HS in E3.
        eexists _, _. splits; try reflexivity; try exact E3; intros; subst; try congruence; try match goal with H : _ <> 0 |- _ => apply TR in H; congruence end.
      + destruct r as [x|]; [|discriminate]. inv_bind E0. inv_bind E0. inv_bind E0. injection E0 as <- <-. apply HS in E2. rewrite E3 in E2. cbn [bind] in E2.
        eexists _, _. splits; try reflexivity; try exact E2; intros; subst; try match goal with H : _ <> 0 |- _ => apply TR in H; congruence end; congruence. }
  destruct Key as (d & l & -> & -> & K & K1 & K2 & K3). unfold V_solver_error in K. rewrite !defaults_idem in K. inv_bind K. rename v into t'. apply Ok_inj in K.
  assert (t' = t). { unfold set_misc, tank_sizes in E, E1. rewrite E1 in E. congruence. } subst t'.
  apply misc_inv in E. destruct E as (a & b & ES & _). assert (ES' := ES). unfold tank_sizes in ES'. apply bind_Ok_inv in ES'. destruct ES' as (rr & Err & ES'). injection ES' as H1 H2 H3. rewrite <- H1, <- H2, <- H3.
  splits; [lra | intros; apply K1; assumption | intros; apply K2; assumption |].
  intros x H4 H5 H6. specialize (K3 x H4 H5 H6). apply pdiv_inv' in Err. apply pdiv_inv' in K3. destruct Err as (N1 & ->). destruct K3 as (N2 & Q).
  assert (l <> 0) by (intros ->; apply N1; rewrite Q; field; assumption). rewrite Q. field. split; assumption.
Qed.
(** Too much or too little is refused: with a volume, two of the sizes, or the length and a depth; without, fewer than two sizes. *)
Theorem C110_refused : forall quad secant horizontal A B D L r V d, s_kind A <> Some "same"%string -> s_kind B <> Some "same"%string -> D <> 0 -> L <> 0 -> r <> 0 -> V <> 0 -> d <> 0 ->
  (forall o, TANK quad secant (Some D) (Some L) horizontal A B o (Some V) = Err ValueError) /\
  TANK quad secant (Some D) None horizontal A B (Some r) (Some V) = Err ValueError /\
  TANK quad secant None (Some L) horizontal A B (Some r) (Some V) = Err ValueError /\
  (s_a A = Some d \/ s_a B = Some d -> TANK quad secant None (Some L) horizontal A B None (Some V) = Err ValueError) /\
  (forall o, TANK quad secant (Some D) None horizontal A B None None = Ok o -> False) /\
  (forall o, TANK quad secant None (Some L) horizontal A B None None = Ok o -> False) /\
  (forall o, TANK quad secant None None horizontal A B (Some r) None = Ok o -> False).
Proof.
  intros quad secant horizontal A B D L r V d HA HB HD HL Hr HV Hd. apply is_kind_false in HA, HB.
  assert (TR : forall y, y <> 0 -> truthy (Some y) = true) by (intros y H; cbn; apply Reqb_false in H; rewrite H; reflexivity).
  assert (TN : truthy None = false) by reflexivity.
  assert (P : forall D L r, (truthy D && truthy L || truthy D && truthy r || truthy L && truthy r)%bool = true -> TANK quad secant D L horizontal A B r (Some V) = Err ValueError).
  { intros D' L' r' H. unfold TANK, same_sides. rewrite HA, HB. cbn [bind]. rewrite (TR V HV). unfold solve_tank_for_V. rewrite H. match goal with |- context [if ?c then Err ValueError else Err ValueError] => destruct c end; reflexivity. }
  splits.
  - intros o. apply P. rewrite (TR D HD), (TR L HL). reflexivity.
  - apply P. rewrite (TR D HD), (TR r Hr). reflexivity.
  - apply P. rewrite (TR L HL), (TR r Hr). reflexivity.
  - intros H. unfold TANK, same_sides. rewrite HA, HB. cbn [bind]. rewrite (TR V HV). unfold solve_tank_for_V. rewrite (TR L HL).
    assert (Q : forall s, s_a s = Some d -> truthy (s_a (side_defaults s)) = true) by (intros [k a ra f kk] X; cbn in X; subst a; destruct k; apply (TR d Hd)).
    destruct H as [H|H]; rewrite (Q _ H); rewrite ?orb_true_r; reflexivity.
  - intros o. unfold TANK, same_sides. rewrite HA, HB. discriminate.
  - intros o. unfold TANK, same_sides. rewrite HA, HB. discriminate.
  - intros o. unfold TANK, same_sides. rewrite HA, HB. discriminate.
Qed.
(** The level found for a volume lies in the tank and holds that volume. *)
Theorem C110_level : forall quad solve t V h, roots_between solve -> tank_h_from_V quad solve t V = Ok h ->
  tank_V_from_h quad t h = Ok V /\ 0 <= h <= t_h_max t.
Proof.
  intros quad solve t V h HS E. unfold tank_h_from_V in E. apply HS in E. destruct E as (E & H). inv_bind E. apply Ok_inj in E. split; [|exact H]. rewrite E0. f_equal. lra.
Qed.
(** Adding a thickness widens the wall on both sides and deepens each head by its own thickness. *)
Theorem C110_thicker : forall quad secant t x tA tB t', add_thickness quad secant t x tA tB = Ok t' ->
  s_kind (t_A t) <> Some "same"%string -> s_kind (t_B t) <> Some "same"%string -> s_kind (t_A t) <> Some "torispherical"%string -> s_kind (t_B t) <> Some "torispherical"%string ->
  s_a (t_A t) <> None -> s_a (t_B t) <> None ->
  let xA := match tA with Some y => y | None => x end in let xB := match tB with Some y => y | None => x end in
  t_D t' = t_D t + 2 * x /\ t_horizontal t' = t_horizontal t /\ s_kind (t_A t') = s_kind (t_A t) /\ s_kind (t_B t') = s_kind (t_B t) /\
  depth (t_A t') = depth (t_A t) + xA /\ depth (t_B t') = depth (t_B t) + xB /\ t_L t' = t_L t + xA + xB.
Proof.
  intros quad secant t x tA tB t' E SA SB NA NB aA aB xA xB. unfold add_thickness, thicker in E. fold xA xB in E. cbv zeta in E.
  assert (E1 := E). apply C110_sizes in E1. destruct E1 as (_ & H1 & H2 & _ & H3). specialize (H1 _ eq_refl). specialize (H2 _ eq_refl).
  apply C110_heads in E; [|exact SA|exact SB]. destruct E as (PA & PB). unfold head_of in PA, PB. cbn [s_kind s_a s_ratio s_f s_k] in PA, PB.
  destruct PA as (KA & DA & _). destruct PB as (KB & DB & _). apply is_kind_false in NA, NB. rewrite NA in DA. rewrite NB in DB. apply is_kind_false in NA, NB.
  unfold depth. destruct (s_a (t_A t)) as [a|]; [|contradiction]. destruct (s_a (t_B t)) as [b|]; [|contradiction].
  rewrite (DA _ NA eq_refl), (DB _ NB eq_refl). splits; auto; lra.
Qed.
(** The shell is then thicker than asked at the ends of a standing tank: the wall is lengthened and the heads are deepened, so the
    tank of height 3 with a shell of 0.1 is 3.4 high, not 3.2; and a flat bottom gets a depth under which no volume is counted. *)
Theorem C110_thickness_refuted : forall quad secant, exists t t', TANK quad secant (Some 2) (Some 3) false (mk_side None None None None None) (mk_side None None None None None) None None = Ok t /\
  t_h_max t = 3 /\ add_thickness quad secant t 0.1 None None = Ok t' /\ t_h_max t' = 3.4 /\ tank_V_from_h quad t' 0.1 = Ok 0.
Proof.
  intros quad secant. destruct (flat_tank quad secant 2 3 0 0 ltac:(lra)) as (t & E & H1 & H2 & H3 & HA & HB & HL & HD & Hz). 
  destruct (flat_tank quad secant (2 + 2 * 0.1) (3 + (0.1 + 0.1)) (0 + 0.1) (0 + 0.1) ltac:(lits; lra)) as (t' & E' & H1' & H2' & H3' & HA' & HB' & HL' & HD' & Hz').
  exists t, t'. splits.
  - exact E.
  - rewrite H1. ring.
  - unfold add_thickness, thicker. rewrite HA, HB, HL, HD, Hz. exact E'.
  - rewrite H1'. lits. lra.
  - unfold tank_V_from_h. rewrite HA', HB', HL', HD', Hz'. unfold V_from_h, depth. cbn [s_kind s_a s_f s_k head_known negb head_fk is_kind bind add_if].
    assert (Hm : Rltb (3 + (0.1 + 0.1) + (0 + 0.1) + (0 + 0.1)) 0.1 = false) by (apply Rltb_false; lits; lra). rewrite Hm.
    assert (Hm2 : Rleb (0 + 0.1 + (3 + (0.1 + 0.1))) 0.1 = false) by (apply Rleb_false; lits; lra). rewrite Hm2.
    assert (Hm3 : Rltb (0 + 0.1) 0.1 = false) by (apply Rltb_false; lits; lra). rewrite Hm3.
    assert (Hm4 : Rltb (0 + 0.1 + (3 + (0.1 + 0.1))) 0.1 = false) by (apply Rltb_false; lits; lra). rewrite Hm4. reflexivity.
Qed.

Example C110_ex1 : forall quad secant, exists t, TANK quad secant (Some 2) (Some 3) false (mk_side None None None None None) (mk_side None None None None None) None None = Ok t /\
  t_V_total t = 3 * PI /\ 0 < t_D t /\ 0 <= t_L t /\ 0 <= depth (t_A t) /\ 0 <= depth (t_B t).
Proof.
  intros quad secant. destruct (flat_tank quad secant 2 3 0 0 ltac:(lra)) as (t & E & H1 & H2 & _ & HA & HB & HL & HD & Hz). exists t. splits; [exact E | rewrite H2; field | lra | lra | |]; rewrite ?HA, ?HB; cbn; lra.
Qed.
(** the solver which accepts its first guess; the guess is exact for flat ends *)
Definition first_guess (f : R -> result R) (x0 : R) : result R := match f x0 with Ok v => if Reqb v 0 then Ok x0 else Err ValueError | Err e => Err e end.
Example C110_ex2 : roots_only first_guess.
Proof. intros f x0 x. unfold first_guess. destruct (f x0) as [v|] eqn:E; [|discriminate]. destruct (Reqb v 0) eqn:T; [|discriminate]. apply Reqb_true in T. intros H. apply Ok_inj in H. congruence. Qed.
Example C110_ex3 : forall quad, exists t, TANK quad first_guess (Some 2) None false (mk_side None None None None None) (mk_side None None None None None) None (Some (3 * PI)) = Ok t /\
  t_D t = 2 /\ t_L t = 3.
Proof.
  intros quad. assert (HP := PI_RGT_0). destruct (flat_tank quad first_guess 2 3 0 0 ltac:(lra)) as (t & E & H1 & H2 & _ & HA & HB & HL & HD & Hz). exists t. split; [|tauto].
  rewrite TANK_plain in E by discriminate. unfold TANK. cbn [same_sides s_kind is_kind bind]. assert (T : forall y, y <> 0 -> truthy (Some y) = true) by (intros y H; cbn; apply Reqb_false in H; rewrite H; reflexivity).
  rewrite (T (3 * PI)) by lra. unfold solve_tank_for_V. rewrite (T 2) by lra.
  cbn [truthy andb orb]. match goal with |- context [if ?c then Err ValueError else _] => replace c with false by reflexivity end.
  rewrite pdiv_ok by lra. cbn [bind]. replace (3 * PI / (PI / 4 * 2 ^ 2)) with 3 by (field; lra). unfold first_guess, V_solver_error. rewrite !defaults_idem.
  change (side_defaults (mk_side None None None None None)) with (side_defaults (mk_side None (Some 0) None None None)). rewrite E. cbn [bind].
  rewrite (proj2 (Reqb_true (3 * PI - t_V_total t) 0)) by (rewrite H2; field). cbn [bind]. exact E.
Qed.
Example C110_ex4 : head_of 2 (mk_side (Some "ellipsoidal"%string) None None None None) (mk_side (Some "ellipsoidal"%string) (Some (1/2)) (Some (1/4)) None None).
Proof. unfold head_of. cbn [s_kind s_a s_ratio s_f s_k]. splits; try discriminate; try (intros; congruence). - intros kind _ _ _. split; [discriminate | intros; f_equal; field]. - intros a _ E. injection E as <-. f_equal. field. Qed.

Print Assumptions C110_sizes.
Print Assumptions C110_heads.
Print Assumptions C110_same.
Print Assumptions C110_totals.
Print Assumptions C110_full.
Print Assumptions C110_volume.
Print Assumptions C110_refused.
Print Assumptions C110_level.
Print Assumptions C110_thicker.
Print Assumptions C110_thickness_refuted.
