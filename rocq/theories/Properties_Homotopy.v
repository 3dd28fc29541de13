(** The homotopy continuation solver of fluids.numerics (C69). *)
From Coq Require Import Reals Lra Lia List Bool ZArith.
From Verif Require Import Base Sums Spec_Mat Model_Poly Model_Numerics Model_Arrays Spec_Solvers Model_Solvers Spec_Systems Model_Systems Proofs_Systems Model_Homotopy Model_Real Proofs_Real.
Import ListNotations.
Local Open Scope R_scope.

(** The inner solver: what it returns meets the tolerances it was given (C69_newton_system_result). *)
Definition sound_newton (newton : (list R -> result (list R)) -> list R -> option R -> option R -> Z -> result (list R * Z * list R * list (list R))) : Prop :=
  forall g x1 xt yt m x2 n Fx J, total g -> newton g x1 xt yt m = Ok (x2, n, Fx, J) ->
    exists r, g x2 = Ok r /\ meets xt yt r /\ (0 <= n)%Z.

Lemma homotopy_value (f : list R -> list R) f0 lam x : length (f x) = length f0 ->
  homotopy_function x lam f0 (fun z => Ok (f z)) = Ok (map (fun i => nth i (f x) 0 - (1 - lam) * nth i f0 0) (seq 0 (length f0))).
Proof.
  intros L. unfold homotopy_function. cbn [bind]. apply mapM_ok. intros i Hi. apply in_seq in Hi.
  rewrite (idx_nth (f x) i 0) by lia. cbn [bind]. rewrite (idx_nth f0 i 0) by lia. cbn [bind]. now numR.
Qed.
Lemma norm_1_nth : forall l, norm_1 l = lsum (map (fun i => Rabs (nth i l 0)) (seq 0 (length l))).
Proof.
  intros l. unfold norm_1. f_equal. induction l as [|a l IH]; [reflexivity|]. simpl. f_equal. rewrite IH, <- seq_shift, map_map. reflexivity.
Qed.
Lemma lsum_le {B} (g h : B -> R) l : (forall b, In b l -> g b <= h b) -> lsum (map g l) <= lsum (map h l).
Proof. induction l as [|a l IH]; intros H; simpl; [lra|]. unfold lsum in *. simpl. specialize (IH (fun b Hb => H b (or_intror Hb))). specialize (H a (or_introl eq_refl)). lra. Qed.
Lemma lsum_lin {B} (g h : B -> R) c l : lsum (map (fun b => g b + c * h b) l) = lsum (map g l) + c * lsum (map h l).
Proof. induction l as [|a l IH]; unfold lsum in *; simpl; [ring|]. rewrite IH. ring. Qed.
(** the residual of f is that of the deformed system up to (1 - lambda) times the initial one *)
Lemma residual_bound (a f0 : list R) lam : length a = length f0 ->
  norm_1 a <= norm_1 (map (fun i => nth i a 0 - (1 - lam) * nth i f0 0) (seq 0 (length f0))) + Rabs (1 - lam) * norm_1 f0.
Proof.
  intros L. rewrite (norm_1_nth a), (norm_1_nth f0), L. unfold norm_1 at 1. rewrite map_map, <- lsum_lin. apply lsum_le. intros i _.
  replace (nth i a 0) with ((nth i a 0 - (1 - lam) * nth i f0 0) + (1 - lam) * nth i f0 0) at 1 by ring.
  eapply Rle_trans; [apply Rabs_triang|]. rewrite Rabs_mult. lra.
Qed.

Section Loop.
Variables (f : list R -> list R) (jac : list R -> result (list (list R))) (solve : list (list R) -> list R -> result (list R)).
Variable newton : (list R -> result (list R)) -> list R -> option R -> option R -> Z -> result (list R * Z * list R * list (list R)).
Variables (xtol ytol txtol tytol : option R) (criteria : R) (f0 : list R).
Hypothesis Hn : sound_newton newton.
Hypothesis Hf : forall x, length (f x) = length f0.
Let hom lam x := map (fun i => nth i (f x) 0 - (1 - lam) * nth i f0 0) (seq 0 (length f0)).
Let F := fun z => Ok (f z) : result (list R).
Lemma loop_result : forall fuel x0 lambd lp step st k rem x rem', criteria <= 1 - 1e-15 -> lambd <= 1 -> 0 < step ->
  (lambd < 1 - 1e-15 \/ meets txtol tytol (hom lambd x0)) ->
  homotopy_loop F jac solve newton xtol ytol txtol tytol criteria f0 fuel x0 lambd lp step st k rem = Ok (x, rem') ->
  (rem' <= rem)%Z /\ exists lam, 1 - 1e-15 <= lam <= 1 /\ meets txtol tytol (hom lam x).
Proof.
  induction fuel as [|fuel IH]; intros x0 lambd lp step st k rem x rem' Hc Hl Hs Hm; [discriminate|]. cbn [homotopy_loop].
  destruct (Rltb 1e-15 (Rabs (lambd - 1))) eqn:E1; cbn [negb].
  2:{ apply Rltb_false in E1. intros [= <- <-]. split; [lia|]. rewrite Rabs_minus_sym, Rabs_pos_eq in E1 by lra. exists lambd. split; [lra|]. destruct Hm as [Hm|Hm]; [lra|auto]. }
  apply Rltb_true in E1. rewrite Rabs_minus_sym, Rabs_pos_eq in E1 by lra. cbv zeta.
  set (l' := if Rltb 1 (lambd + step) then 1 else lambd + step).
  assert (Hl' : l' <= 1 /\ l' <= lambd + step) by (unfold l'; destruct (Rltb 1 (lambd + step)) eqn:E; [apply Rltb_true in E|apply Rltb_false in E]; lra).
  intros H. apply bind_Ok_inv in H as [[Fx J] [_ H]]. apply bind_Ok_inv in H as [x1 [_ H]].
  destruct (if Rltb l' criteria then (xtol, ytol) else (txtol, tytol)) as [xt yt] eqn:E2.
  destruct (newton _ x1 xt yt rem) as [[[[x2 n] Fx'] J']|e] eqn:E3.
  - apply Hn in E3 as [r [Er [Em En]]]. 2:{ intros z. unfold F. rewrite homotopy_value by auto. eauto. }
    unfold F in Er. rewrite homotopy_value in Er by auto. injection Er as <-. apply IH in H; auto; [|lra|].
    + destruct H as [H1 H2]. split; [lia|auto].
    + destruct (Rltb l' criteria) eqn:E4; [apply Rltb_true in E4; left; lra|]. injection E2 as <- <-. now right.
  - destruct (Nat.ltb 5 (S k)); [discriminate|]. apply IH in H; auto; [lra|lra|]. left.
    revert E1. clear -Hl' Hs. lra.
Qed.
End Loop.

(** What the continuation returns solves the requested system: the residual of f meets the terminal tolerance up to 1e-15 of the
    residual at the start, whatever path the inner solves took. *)
Theorem C69_homotopy_result fuel (f : list R -> list R) jac solve newton xtol ytol txtol t criteria step x0 maxiter x it :
  sound_newton newton -> (forall z, length (f z) = length (f x0)) -> 0 < step -> criteria <= 1 - 1e-15 ->
  homotopy_solver fuel (fun z => Ok (f z)) jac solve newton xtol ytol txtol (Some t) criteria step x0 maxiter = Ok (x, it) ->
  norm_1 (f x) <= t + 1e-15 * norm_1 (f x0) /\ (0 <= it)%Z.
Proof.
  intros Hn Hf Hs Hc H. unfold homotopy_solver in H. cbn [bind] in H. apply bind_Ok_inv in H as [[x' rem] [H E]]. injection E as <- <-.
  apply loop_result in H; auto; [|lra|left; lits; lra]. destruct H as [H1 [lam [Hl [_ Hm]]]]. split; [|lia].
  specialize (Hm t eq_refl). assert (B := residual_bound (f x') (f x0) lam (Hf x')). rewrite Rabs_pos_eq in B by lra.
  assert (P : 0 <= norm_1 (f x0)). { unfold norm_1. clear. induction (f x0); unfold lsum in *; simpl; [lra|]. assert (Q := Rabs_pos a). lra. }
  nra.
Qed.

(** However the inner solver fails, the continuation ends: it returns or gives up, within a number of passes set by the step alone. *)
Lemma loop_ends (f : list R -> result (list R)) (jac : list R -> list (list R)) (solve : list (list R) -> list R -> list R) newton xtol ytol txtol tytol criteria f0 s : 0 < s ->
  forall fuel x0 lambd lp st k rem e, lambd <= 1 -> (k <= 5)%nat ->
  64 * (1 - lambd) / s + 1 + (6 - INR k) * 66 <= INR fuel ->
  homotopy_loop f (fun x => Ok (jac x)) (fun J b => Ok (solve J b)) newton xtol ytol txtol tytol criteria f0 fuel x0 lambd lp (s / 2 ^ k) st k rem = Err e ->
  e = UnconvergedError.
Proof.
  intros Hs. induction fuel as [|fuel IH]; intros x0 lambd lp st k rem e Hl Hk Hf.
  { exfalso. assert (K : INR k <= 5) by (apply (le_INR k 5) in Hk; simpl in Hk; lra). assert (0 <= 64 * (1 - lambd) / s) by (apply Rmult_le_pos; [lra|apply Rlt_le, Rinv_0_lt_compat; auto]). simpl in Hf. lra. }
  cbn [homotopy_loop]. destruct (Rltb 1e-15 (Rabs (lambd - 1))) eqn:E1; cbn [negb]; [|discriminate]. cbv zeta.
  assert (P : 1 <= 2 ^ k <= 32). { split; [apply pow_R1_Rle; lra|]. replace 32 with (2 ^ 5) by ring. apply Rle_pow; [lra|auto]. }
  assert (D : s / 32 <= s / 2 ^ k <= s).
  { split; [apply Rmult_le_compat_l; [lra|]; apply Rinv_le_contravar; lra|]. apply (Rmult_le_reg_r (2 ^ k)); [lra|]. unfold Rdiv. rewrite Rmult_assoc, Rinv_l by lra. nra. }
  set (d := s / 2 ^ k) in *.
  set (l' := if Rltb 1 (lambd + d) then 1 else lambd + d).
  assert (Hl' : l' <= 1 /\ (l' = 1 \/ l' = lambd + d)) by (unfold l'; destruct (Rltb 1 (lambd + d)) eqn:E; [apply Rltb_true in E|apply Rltb_false in E]; lra).
  assert (L1 : lambd - d <= l' - d) by (unfold l'; destruct (Rltb 1 (lambd + d)) eqn:E; [apply Rltb_true in E|apply Rltb_false in E]; lra).
  intros H. destruct st as [[Fx J]|]; cbn [bind] in H.
  all: unfold predictor in H; rewrite (pdiv_ok (- (1)) d) in H by lra; cbn [bind] in H.
  all: destruct (if Rltb l' criteria then (xtol, ytol) else (txtol, tytol)) as [xt yt].
  all: destruct (newton _ _ xt yt rem) as [[[[x2 n] Fx'] J']|e'].
  all: rewrite S_INR in Hf.
  all: try (destruct (Nat.ltb 5 (S k)) eqn:E5; [injection H as <-; reflexivity|]; apply Nat.ltb_ge in E5;
    replace (d * 0.5) with (s / 2 ^ S k) in H by (unfold d; simpl; lits; field; lra);
    apply IH in H; auto; try lra; rewrite S_INR;
    assert (64 * (1 - (l' - d)) / s <= 64 * (1 - lambd) / s + 64);
    [apply (Rmult_le_reg_r s); auto; replace (64 * (1 - (l' - d)) / s * s) with (64 * (1 - (l' - d))) by (field; lra);
     replace ((64 * (1 - lambd) / s + 64) * s) with (64 * (1 - lambd) + 64 * s) by (field; lra); nra|lra]).
  all: destruct Hl' as [Q1 [Q2|Q2]].
  all: try (rewrite Q2 in H; destruct fuel as [|fuel]; [simpl in Hf; exfalso; assert (K : INR k <= 5) by (apply (le_INR k 5) in Hk; simpl in Hk; lra);
    assert (0 <= 64 * (1 - lambd) / s) by (apply Rmult_le_pos; [lra|apply Rlt_le, Rinv_0_lt_compat; auto]); lra|];
    cbn [homotopy_loop] in H; replace (1 - 1) with 0 in H by ring; rewrite Rabs_R0 in H;
    assert (Z : Rltb 1e-15 0 = false) by (apply Rltb_false; lits; lra); rewrite Z in H; discriminate).
  all: apply IH in H; auto;
    assert (64 * (1 - l') / s <= 64 * (1 - lambd) / s - 2);
    [apply (Rmult_le_reg_r s); auto; replace (64 * (1 - l') / s * s) with (64 * (1 - l')) by (field; lra);
     replace ((64 * (1 - lambd) / s - 2) * s) with (64 * (1 - lambd) - 2 * s) by (field; lra); lra|lra].
Qed.
Theorem C69_homotopy_terminates fuel (f : list R -> list R) jac solve newton xtol ytol txtol tytol criteria step x0 maxiter e :
  0 < step -> 64 / step + 397 <= INR fuel ->
  homotopy_solver fuel (fun z => Ok (f z)) (fun x => Ok (jac x)) (fun J b => Ok (solve J b)) newton xtol ytol txtol tytol criteria step x0 maxiter = Err e ->
  e = UnconvergedError.
Proof.
  intros Hs Hf H. unfold homotopy_solver in H. cbn [bind] in H.
  destruct (homotopy_loop _ _ _ _ _ _ _ _ _ _ _ _ _ _ _ _ _ _) as [[x r]|e'] eqn:E; [discriminate|]. cbn [bind] in H. injection H as <-.
  replace step with (step / 2 ^ 0) in E at 1 by (simpl; field). apply loop_ends in E; auto; [lra|lia|]. simpl. 
  replace (64 * (1 - 0) / step) with (64 / step) by (field; lra). lra.
Qed.
(** An inner solver that never succeeds makes it give up. *)
Theorem C69_homotopy_gives_up fuel (f : list R -> list R) jac solve xtol ytol txtol tytol criteria step x0 maxiter :
  0 < step <= 1 -> (6 <= fuel)%nat ->
  homotopy_solver fuel (fun z => Ok (f z)) (fun x => Ok (jac x)) (fun J b => Ok (solve J b)) (fun _ _ _ _ _ => Err UnconvergedError) xtol ytol txtol tytol criteria step x0 maxiter = Err UnconvergedError.
Proof.
  intros Hs Hf. unfold homotopy_solver. cbn [bind].
  assert (G : forall k fuel lambd d, (k <= 5)%nat -> (6 - k <= fuel)%nat -> 0 < d -> -1e-16 <= lambd <= 0 -> lambd + d <= 1 ->
    homotopy_loop (fun z => Ok (f z)) (fun x => Ok (jac x)) (fun J b => Ok (solve J b)) (fun _ _ _ _ _ => Err UnconvergedError) xtol ytol txtol tytol criteria (f x0) fuel x0 lambd 0 d None k maxiter = Err UnconvergedError).
  { intros k. remember (5 - k)%nat as m eqn:Em. revert k Em. induction m; intros k Em fu lambd d Hk Hfu Hd Hl Hd1.
    all: destruct fu as [|fu]; [lia|]; cbn [homotopy_loop]; assert (E : Rltb 1e-15 (Rabs (lambd - 1)) = true) by (apply Rltb_true; rewrite Rabs_minus_sym, Rabs_pos_eq by (lits; lra); lits; lra); rewrite E; cbn [negb bind]; cbv zeta.
    all: assert (E2 : Rltb 1 (lambd + d) = false) by (apply Rltb_false; lra); rewrite E2.
    all: unfold predictor; rewrite (pdiv_ok (- (1)) d) by lra; cbn [bind].
    all: destruct (if Rltb (lambd + d) criteria then (xtol, ytol) else (txtol, tytol)) as [xt yt].
    - replace k with 5%nat by lia. reflexivity.
    - destruct (Nat.ltb 5 (S k)) eqn:E3; [reflexivity|]. apply IHm; try lia; try (lits; lra). }
  rewrite G; try lia; try (lits; lra). reflexivity.
Qed.
(** The predicted point solves the next system exactly when f is affine (with linear part L, which the linear solver inverts) and
    the current point solves the current one. *)
Theorem C69_homotopy_predictor (f L : list R -> list R) solve x0 x1 lp l step J :
  let f0 := f x0 in
  step <> 0 -> (forall z, length (f z) = length f0) ->
  (forall b dx, solve J b = Ok dx -> forall i, (i < length f0)%nat -> nth i (L dx) 0 = nth i b 0) ->
  forall xc, (forall dx i, (i < length f0)%nat -> nth i (f (map (fun i => nth i xc 0 + step * nth i dx 0) (seq 0 (length f0)))) 0 = nth i (f xc) 0 + step * nth i (L dx) 0) ->
  homotopy_function xc lp f0 (fun z => Ok (f z)) = Ok (repeat 0 (length f0)) ->
  predictor solve f0 xc lp l step (f xc) J = Ok x1 ->
  homotopy_function x1 l f0 (fun z => Ok (f z)) = Ok (repeat 0 (length f0)).
Proof.
  intros f0 Hs Hf Hsol xc Haff Hc Hp. rewrite homotopy_value in * by auto. injection Hc as Hc.
  unfold predictor in Hp. rewrite pdiv_ok in Hp by auto. cbn [bind] in Hp. apply bind_Ok_inv in Hp as [dx [Ed Hp]]. injection Hp as <-.
  assert (Z : forall i, (i < length f0)%nat -> nth i (f xc) 0 = (1 - lp) * nth i f0 0).
  { intros i Hi. assert (Q : nth i (map (fun i => nth i (f xc) 0 - (1 - lp) * nth i f0 0) (seq 0 (length f0))) 0 = 0) by (rewrite Hc; apply nth_repeat).
    rewrite nth_indep with (d' := nth 0 (f xc) 0 - (1 - lp) * nth 0 f0 0) in Q by (rewrite map_length, seq_length; auto).
    rewrite (map_nth (fun i => nth i (f xc) 0 - (1 - lp) * nth i f0 0)), seq_nth in Q by auto. simpl in Q. lra. }
  f_equal. apply (nth_ext _ _ 0 0); [rewrite map_length, seq_length, repeat_length; reflexivity|].
  intros i Hi. rewrite map_length, seq_length in Hi. rewrite nth_repeat.
  rewrite nth_indep with (d' := (fun i => nth i (f (map (fun i => nth i xc 0 + step * nth i dx 0) (seq 0 (length f0)))) 0 - (1 - l) * nth i f0 0) 0%nat) by (rewrite map_length, seq_length; auto).
  rewrite (map_nth (fun i => nth i (f (map (fun i => nth i xc 0 + step * nth i dx 0) (seq 0 (length f0)))) 0 - (1 - l) * nth i f0 0)), seq_nth by auto.
  cbn [plus Nat.add]. rewrite Haff by auto. rewrite (Hsol _ _ Ed) by auto.
  match goal with |- context [nth i (map ?g (seq 0 (length f0))) 0] => rewrite (nth_indep (map g (seq 0 (length f0))) 0 (g 0%nat)) by (rewrite map_length, seq_length; auto); rewrite (map_nth g), seq_nth by auto end.
  cbn [Nat.add]. rewrite (Z i Hi). field. auto.
Qed.
(** The modelled newton_system is such an inner solver. *)
Definition newton_inner jac solve o (g : list R -> result (list R)) (x1 : list R) (xt yt : option R) (m : Z) : result (list R * Z * list R * list (list R)) :=
  '(x, n) <- newton_system norm2 g x1 jac solve o xt yt (Z.to_nat m) ;; r <- g x ;; J <- jac x ;; Ok (x, Z.of_nat n, r, J).
Theorem C69_homotopy_newton jac solve o : ns_factors o <> [] -> sound_newton (newton_inner jac solve o).
Proof.
  intros Ho g x1 xt yt m x2 n Fx J Hg H. unfold newton_inner in H. apply bind_Ok_inv in H as [[x it] [H1 H]].
  apply bind_Ok_inv in H as [r [H2 H]]. apply bind_Ok_inv in H as [J' [H3 H]]. injection H as <- <- <- <-.
  apply newton_system_result in H1; auto. destruct H1 as [fx [fs [A1 [A2 [A3 A4]]]]]. exists fx. splits; auto. lia.
Qed.
(** 2 x = 4 from 0 in one step of the parameter: the predictor is exact *)
Definition accept (g : list R -> result (list R)) (x1 : list R) (xt yt : option R) (m : Z) : result (list R * Z * list R * list (list R)) :=
  r <- g x1 ;; if tol_final norm2 xt yt r then Ok (x1, 0%Z, r, [[2]]) else Err UnconvergedError.
Example C69_homotopy_accept_sound : sound_newton accept.
Proof.
  intros g x1 xt yt m x2 n Fx J _ H. unfold accept in H. apply bind_Ok_inv in H as [r [H1 H]].
  destruct (tol_final norm2 xt yt r) eqn:E; [|discriminate]. injection H as <- <- <- <-. apply tol_final_meets in E. exists r. splits; auto. lia.
Qed.
Example C69_homotopy_ex n : exists x, homotopy_solver (S (S n)) (fun z => Ok [2 * nth 0 z 0 - 4]) (fun _ => Ok [[2]]) (fun _ b => Ok [nth 0 b 0 / 2])
  accept None (Some 1e-6) None (Some 1e-9) 0.9 1 [0] 100 = Ok (x, 0%Z) /\ x = [2].
Proof.
  eexists. unfold homotopy_solver. cbn [bind nth]. cbn [homotopy_loop].
  assert (E : Rltb 1e-15 (Rabs (0 - 1)) = true) by (apply Rltb_true; rewrite Rabs_minus_sym, Rabs_pos_eq by lra; lits; lra). rewrite E. cbn [negb bind]. cbv zeta.
  assert (E2 : Rltb 1 (0 + 1) = false) by (apply Rltb_false; lra). rewrite E2. unfold predictor. rewrite pdiv_ok by lra. cbn [bind length seq map nth].
  assert (E3 : Rltb (0 + 1) 0.9 = false) by (apply Rltb_false; lits; lra). rewrite E3. unfold accept. rewrite homotopy_value with (f := fun z => [2 * nth 0 z 0 - 4]) by reflexivity.
  cbn [bind length seq map nth]. match goal with |- context [tol_final ?a ?b ?c ?d] => assert (E4 : tol_final a b c d = true) end.
  { unfold tol_final. cbn [negb andb]. rewrite sumabs_norm_1. unfold norm_1, lsum. cbn [map fold_right]. numR. apply negb_true_iff, Rltb_false. match goal with |- context [Rabs ?u] => replace u with 0 by field end. rewrite Rabs_R0. lits; lra. }
  rewrite E4. replace (0 + 1 - 1) with 0 by ring. rewrite Rabs_R0.
  assert (E5 : Rltb 1e-15 0 = false) by (apply Rltb_false; lits; lra). rewrite E5. cbn [negb bind]. split; [reflexivity|]. f_equal. field.
Qed.

Print Assumptions C69_homotopy_result.
Print Assumptions C69_homotopy_terminates.
Print Assumptions C69_homotopy_gives_up.
Print Assumptions C69_homotopy_predictor.
Print Assumptions C69_homotopy_newton.
