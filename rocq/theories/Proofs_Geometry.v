(** Calculus used by the geometry theorems. *)
From Coq Require Import Reals Lra Psatz.
From Coquelicot Require Import Coquelicot.
From Verif Require Import Base Model_Real Proofs_Real Spec_Geometry.
Open Scope R_scope.

Lemma is_RInt_val (f : R -> R) (a b v w : R) : v = w -> is_RInt f a b v -> is_RInt f a b w.
Proof. intros ->; auto. Qed.

(** The fundamental theorem when the derivative exists only inside the interval. *)
Lemma FTC (F f : R -> R) a b : a <= b ->
  (forall x, a <= x <= b -> continuous F x) -> (forall x, continuous f x) ->
  (forall x, a < x < b -> is_derive F x (f x)) ->
  is_RInt f a b (F b - F a).
Proof.
  intros Hab HF Hf HD.
  assert (HI : forall c d, ex_RInt f c d) by (intros c d; apply (@ex_RInt_continuous R_CompleteNormedModule); intros; apply Hf).
  set (G x := RInt f a x - F x).
  assert (HG : forall x, is_derive (fun x => RInt f a x) x (f x)).
  { intros x. apply (@is_derive_RInt R_NormedModule f (fun x => RInt f a x) a x).
    - apply filter_forall; intros y. apply (@RInt_correct R_CompleteNormedModule), HI.
    - apply Hf. }
  assert (E : G b = G a).
  { destruct (MVT_gen G a b (fun _ => 0)) as [c [_ Hc]].
    - rewrite Rmin_left, Rmax_right by lra. intros x Hx. unfold G.
      replace 0 with (minus (f x) (f x)) by (unfold minus, plus, opp; simpl; lra).
      apply (is_derive_minus (fun x => RInt f a x) F x (f x) (f x)); [apply HG | apply HD; lra].
    - rewrite Rmin_left, Rmax_right by lra. intros x Hx. unfold G.
      apply continuity_pt_filterlim.
      apply (continuous_minus (fun x => RInt f a x) F x).
      + apply (ex_derive_continuous (fun x => RInt f a x) x). eexists; apply HG.
      + apply HF; lra.
    - lra. }
  unfold G in E. rewrite RInt_point in E. unfold zero in E; simpl in E.
  eapply is_RInt_val; [|apply (@RInt_correct R_CompleteNormedModule), HI]. lra.
Qed.

Lemma RInt_ext (f g : R -> R) a b V : a <= b -> (forall x, a < x < b -> f x = g x) -> is_RInt f a b V -> is_RInt g a b V.
Proof. intros H E. apply is_RInt_ext. rewrite Rmin_left, Rmax_right by lra. auto. Qed.

Lemma RInt_scale (f : R -> R) a b k V : is_RInt f a b V -> is_RInt (fun x => k * f x) a b (k * V).
Proof. apply (is_RInt_scal f a b k V). Qed.
Lemma RInt_plus' (f g : R -> R) a b V W : is_RInt f a b V -> is_RInt g a b W -> is_RInt (fun x => f x + g x) a b (V + W).
Proof. apply (is_RInt_plus f g a b V W). Qed.
Lemma RInt_minus' (f g : R -> R) a b V W : is_RInt f a b V -> is_RInt g a b W -> is_RInt (fun x => f x - g x) a b (V - W).
Proof. apply (is_RInt_minus f g a b V W). Qed.
Lemma RInt_const' a b (k : R) : is_RInt (fun _ => k) a b (k * (b - a)).
Proof. eapply is_RInt_val; [|apply (is_RInt_const a b k)]. unfold scal; simpl; unfold mult; simpl; lra. Qed.
Lemma RInt_empty (f : R -> R) a : is_RInt f a a 0.
Proof. apply (is_RInt_point f a). Qed.
Lemma RInt_join (f : R -> R) a b c V W : is_RInt f a b V -> is_RInt f b c W -> is_RInt f a c (V + W).
Proof. apply (is_RInt_Chasles f a b c V W). Qed.

(** Continuity of arc cosine on the closed interval. *)
Lemma acos_cont_1 : continuous acos 1.
Proof.
  apply continuity_pt_filterlim. intros eps He.
  set (e := Rmin eps 1).
  assert (He1 : 0 < e <= 1) by (unfold e; split; [apply Rmin_glb_lt; lra | apply Rmin_r]).
  assert (Hee : e <= eps) by apply Rmin_l.
  pose proof PI_RGT_0. pose proof PI2_1.
  exists (1 - cos e). split.
  - pose proof (cos_decreasing_1 0 e ltac:(lra) ltac:(lra) ltac:(lra) ltac:(lra) ltac:(lra)) as Hc. rewrite cos_0 in Hc. lra.
  - intros y [_ Hy]. unfold dist in *; simpl in *. unfold R_dist in *.
    replace (acos 1) with 0 by (rewrite acos_1; reflexivity).
    destruct (Rle_dec 1 y) as [H1|H1].
    + assert (acos y = 0) as ->. { unfold acos. destruct (Rle_dec y (-1)); [lra|]. destruct (Rle_dec 1 y); [reflexivity|lra]. }
      rewrite Rminus_0_r, Rabs_R0; lra.
    + assert (Hc : cos e < y) by (unfold Rabs in Hy; destruct (Rcase_abs (y - 1)); lra).
      pose proof (COS_bound e). pose proof (acos_bound y).
      assert (acos y < e). { destruct (Rlt_dec (acos y) e) as [|N]; [assumption|]. exfalso.
        assert (cos (acos y) <= cos e) by (apply cos_decr_1; lra). rewrite cos_acos in H4 by lra. lra. }
      rewrite Rminus_0_r, Rabs_right by lra. lra.
Qed.

Lemma is_derive_acos x : -1 < x < 1 -> is_derive acos x (- (1 / sqrt (1 - x * x))).
Proof.
  intros H. apply is_derive_Reals.
  replace (- (1 / sqrt (1 - x * x))) with (derive_pt acos x (derivable_pt_acos x H)).
  - destruct (derivable_pt_acos x H) as [l Hl]; simpl. exact Hl.
  - rewrite derive_pt_acos. unfold Rsqr; lra.
Qed.
Lemma is_derive_asin x : -1 < x < 1 -> is_derive asin x (1 / sqrt (1 - x * x)).
Proof.
  intros H. apply is_derive_Reals.
  replace (1 / sqrt (1 - x * x)) with (derive_pt asin x (derivable_pt_asin x H)).
  - destruct (derivable_pt_asin x H) as [l Hl]; simpl. exact Hl.
  - rewrite derive_pt_asin. unfold Rsqr; lra.
Qed.

Lemma acos_cont x : -1 <= x <= 1 -> continuous acos x.
Proof.
  intros [H1 H2]. destruct (Req_dec x 1) as [->|N1]; [apply acos_cont_1|].
  destruct (Req_dec x (-1)) as [->|N2].
  - apply (continuous_ext (fun x => PI - acos (- x))). { intros; rewrite acos_opp; lra. }
    apply (continuous_minus (fun _ => PI) (fun x => acos (- x)) (-1)); [apply continuous_const|].
    apply (continuous_comp (fun x => - x) acos (-1)).
    + apply (continuous_opp (fun x => x) (-1)), continuous_id.
    + replace (- -1) with 1 by lra. apply acos_cont_1.
  - apply (ex_derive_continuous acos x). eexists. apply is_derive_acos; lra.
Qed.

Lemma asin_cont x : -1 <= x <= 1 -> continuous asin x.
Proof.
  intros [H1 H2].
  apply (continuous_ext (fun x => PI / 2 - acos x)).
  { intros y. unfold acos, asin. destruct (Rle_dec y (-1)); [lra|]. destruct (Rle_dec 1 y); lra. }
  apply (continuous_minus (fun _ => PI / 2) acos x); [apply continuous_const | apply acos_cont; lra].
Qed.

Lemma sqrt_cont x : continuous sqrt x.
Proof.
  apply continuity_pt_filterlim. destruct (Rle_dec 0 x).
  - apply continuity_pt_sqrt; assumption.
  - intros eps He. exists (- x). split; [lra|]. intros y [_ Hy]. unfold dist in *; simpl in *. unfold R_dist in *.
    apply Rabs_def2 in Hy. rewrite !sqrt_neg_0 by lra. rewrite Rminus_0_r, Rabs_R0; lra.
Qed.
Lemma sqrt_of_cont (f : R -> R) x : continuous f x -> continuous (fun x => sqrt (f x)) x.
Proof. intros H. apply (continuous_comp f sqrt x H), sqrt_cont. Qed.
Lemma of_derive (f : R -> R) x : ex_derive f x -> continuous f x.
Proof. apply (ex_derive_continuous f x). Qed.
Ltac poly := apply of_derive; auto_derive; auto.
Lemma cmult (f g : R -> R) x : continuous f x -> continuous g x -> continuous (fun x => f x * g x) x.
Proof. apply (continuous_mult f g x). Qed.
Lemma cplus (f g : R -> R) x : continuous f x -> continuous g x -> continuous (fun x => f x + g x) x.
Proof. apply (continuous_plus f g x). Qed.
Lemma cminus (f g : R -> R) x : continuous f x -> continuous g x -> continuous (fun x => f x - g x) x.
Proof. apply (continuous_minus f g x). Qed.
Lemma cconst (k x : R) : continuous (fun _ => k) x.
Proof. apply continuous_const. Qed.
Lemma cacos (f : R -> R) x : -1 <= f x <= 1 -> continuous f x -> continuous (fun x => acos (f x)) x.
Proof. intros H C. apply (continuous_comp f acos x C), acos_cont, H. Qed.
Lemma casin (f : R -> R) x : -1 <= f x <= 1 -> continuous f x -> continuous (fun x => asin (f x)) x.
Proof. intros H C. apply (continuous_comp f asin x C), asin_cont, H. Qed.

(** Derivatives in a form that [eapply] can use. *)
Lemma der_eq (f : R -> R) (x l m : R) : l = m -> is_derive f x l -> is_derive f x m.
Proof. intros ->; auto. Qed.
Lemma dacos (f : R -> R) (x l : R) : -1 < f x < 1 -> is_derive f x l -> is_derive (fun x => acos (f x)) x (- l / sqrt (1 - f x * f x)).
Proof.
  intros H D. eapply der_eq; [|apply (is_derive_comp acos f x _ _ (is_derive_acos _ H) D)].
  unfold scal; simpl; unfold mult; simpl. unfold Rdiv; ring.
Qed.
Lemma dasin (f : R -> R) (x l : R) : -1 < f x < 1 -> is_derive f x l -> is_derive (fun x => asin (f x)) x (l / sqrt (1 - f x * f x)).
Proof.
  intros H D. eapply der_eq; [|apply (is_derive_comp asin f x _ _ (is_derive_asin _ H) D)].
  unfold scal; simpl; unfold mult; simpl. unfold Rdiv; ring.
Qed.
Lemma dsqrt (f : R -> R) (x l : R) : 0 < f x -> is_derive f x l -> is_derive (fun x => sqrt (f x)) x (l / (2 * sqrt (f x))).
Proof. intros H D. apply is_derive_sqrt; assumption. Qed.
Lemma datan (f : R -> R) (x l : R) : is_derive f x l -> is_derive (fun x => atan (f x)) x (l / (1 + f x * f x)).
Proof.
  intros D. eapply der_eq; [|apply (is_derive_comp atan f x _ _ (is_derive_atan _) D)].
  unfold scal; simpl; unfold mult; simpl. unfold Rsqr. unfold Rdiv; ring.
Qed.
Lemma dln (f : R -> R) (x l : R) : 0 < f x -> is_derive f x l -> is_derive (fun x => ln (f x)) x (l / f x).
Proof.
  intros H D. assert (L : is_derive ln (f x) (/ f x)) by (apply is_derive_Reals, derivable_pt_lim_ln, H).
  eapply der_eq; [|apply (is_derive_comp ln f x _ _ L D)].
  unfold scal; simpl; unfold mult; simpl. unfold Rdiv; ring.
Qed.
Lemma dmult (f g : R -> R) (x l m : R) : is_derive f x l -> is_derive g x m -> is_derive (fun x => f x * g x) x (l * g x + f x * m).
Proof.
  intros Hf Hg. eapply der_eq; [|apply (is_derive_mult f g x l m Hf Hg)].
  - unfold plus, mult; simpl; ring.
  - intros; apply Rmult_comm.
Qed.
Lemma dplus (f g : R -> R) (x l m : R) : is_derive f x l -> is_derive g x m -> is_derive (fun x => f x + g x) x (l + m).
Proof. apply (is_derive_plus f g x l m). Qed.
Lemma dminus (f g : R -> R) (x l m : R) : is_derive f x l -> is_derive g x m -> is_derive (fun x => f x - g x) x (l - m).
Proof. apply (is_derive_minus f g x l m). Qed.
Lemma dscal (f : R -> R) (k x l : R) : is_derive f x l -> is_derive (fun x => k * f x) x (k * l).
Proof. apply (is_derive_scal f x k l). Qed.

(** ** The circle *)
Lemma chord_pos r y : 0 < y < 2 * r -> 0 < y * (2 * r - y).
Proof. intros; apply Rmult_lt_0_compat; lra. Qed.
Lemma half_chord_sq r y : 0 <= y <= 2 * r -> half_chord r y * half_chord r y = y * (2 * r - y).
Proof. intros; apply sqrt_sqrt, Rmult_le_pos; lra. Qed.
Lemma half_chord_pos r y : 0 < y < 2 * r -> 0 < half_chord r y.
Proof. intros; apply sqrt_lt_R0, chord_pos; assumption. Qed.
Lemma half_chord_nonneg r y : 0 <= half_chord r y.
Proof. apply sqrt_pos. Qed.
Lemma half_chord_cont r y : continuous (half_chord r) y.
Proof. unfold half_chord. apply sqrt_of_cont. poly. Qed.

Lemma angle_range r y : 0 < r -> 0 <= y <= 2 * r -> -1 <= (r - y) / r <= 1.
Proof.
  intros Hr Hy. split; [apply Rmult_le_reg_r with r | apply Rmult_le_reg_r with r]; try assumption;
  replace ((r - y) / r * r) with (r - y) by (field; lra); lra.
Qed.
Lemma angle_range_lt r y : 0 < r -> 0 < y < 2 * r -> -1 < (r - y) / r < 1.
Proof.
  intros Hr Hy. split; [apply Rmult_lt_reg_r with r | apply Rmult_lt_reg_r with r]; try assumption;
  replace ((r - y) / r * r) with (r - y) by (field; lra); lra.
Qed.
Lemma angle_sin r y : 0 < r -> 0 <= y <= 2 * r -> sqrt (1 - (r - y) / r * ((r - y) / r)) = half_chord r y / r.
Proof.
  intros Hr Hy. pose proof (half_chord_sq r y Hy) as E. pose proof (half_chord_nonneg r y).
  apply sqrt_lem_1.
  - replace (1 - (r - y) / r * ((r - y) / r)) with (y * (2 * r - y) / (r * r)) by (field; lra).
    apply Rdiv_le_0_compat; nra.
  - apply Rdiv_le_0_compat; lra.
  - replace (half_chord r y / r * (half_chord r y / r)) with (half_chord r y * half_chord r y / (r * r)) by (field; lra).
    rewrite E. field; lra.
Qed.
Lemma angle_derive r y : 0 < r -> 0 < y < 2 * r -> is_derive (fun y => acos ((r - y) / r)) y (1 / half_chord r y).
Proof.
  intros Hr Hy. pose proof (half_chord_pos r y Hy).
  eapply der_eq; [|apply (dacos (fun y => (r - y) / r) y (- 1 / r))].
  - rewrite angle_sin by lra. field; lra.
  - apply angle_range_lt; assumption.
  - auto_derive; [lra | field; lra].
Qed.
Lemma half_chord_derive r y : 0 < y < 2 * r -> is_derive (half_chord r) y ((r - y) / half_chord r y).
Proof.
  intros Hy. pose proof (half_chord_pos r y Hy).
  eapply der_eq; [|apply (dsqrt (fun y => y * (2 * r - y)) y (2 * r - 2 * y)); [apply chord_pos, Hy | auto_derive; [auto | ring]]].
  fold (half_chord r y). field; lra.
Qed.
Lemma angle_cont r y : 0 < r -> 0 <= y <= 2 * r -> continuous (fun y => acos ((r - y) / r)) y.
Proof. intros. apply cacos; [apply angle_range; assumption|]. poly; lra. Qed.

Definition segment (r y : R) : R := r * r * acos ((r - y) / r) - (r - y) * half_chord r y.

Lemma segment_0 r : 0 < r -> segment r 0 = 0.
Proof.
  intros; unfold segment, half_chord. replace ((r - 0) / r) with 1 by (field; lra). rewrite acos_1.
  replace (0 * (2 * r - 0)) with 0 by ring. rewrite sqrt_0; ring.
Qed.
Lemma segment_cont r y : 0 < r -> 0 <= y <= 2 * r -> continuous (segment r) y.
Proof.
  intros; unfold segment. apply cminus; apply cmult.
  - apply cconst. - apply angle_cont; assumption. - poly. - apply half_chord_cont.
Qed.
Lemma segment_derive r y : 0 < r -> 0 < y < 2 * r -> is_derive (segment r) y (2 * half_chord r y).
Proof.
  intros Hr Hy; unfold segment. pose proof (half_chord_pos r y Hy). pose proof (half_chord_sq r y ltac:(lra)).
  eapply der_eq; [|apply dminus; [apply dscal, angle_derive; assumption | apply (dmult (fun y => r - y) (half_chord r) y (-1) ((r - y) / half_chord r y)); [auto_derive; [auto|ring] | apply half_chord_derive, Hy]]].
  apply Rmult_eq_reg_r with (half_chord r y); [|lra].
  replace ((r * r * (1 / half_chord r y) - (-1 * half_chord r y + (r - y) * ((r - y) / half_chord r y))) * half_chord r y)
    with (r * r + half_chord r y * half_chord r y - (r - y) * (r - y)) by (field; lra). nra.
Qed.
Lemma segment_area r h : 0 < r -> 0 <= h <= 2 * r -> is_RInt (fun y => 2 * half_chord r y) 0 h (segment r h).
Proof.
  intros Hr Hh. eapply is_RInt_val; [|apply (FTC (segment r))]; try lra.
  - rewrite segment_0 by assumption; ring.
  - intros; apply segment_cont; lra.
  - intros; apply cmult; [apply cconst | apply half_chord_cont].
  - intros; apply segment_derive; lra.
Qed.
