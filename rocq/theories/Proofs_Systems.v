(** Proofs about the solvers of systems. *)
From Coq Require Import Reals Lra Lia List Bool QArith ZArith Arith.
From Verif Require Import Base Sums Spec_Mat Model_Poly Model_Numerics Model_Arrays Spec_Solvers Model_Solvers Proofs_Solvers Spec_Systems Model_Systems.
Import ListNotations.
Local Open Scope R_scope.

Lemma sumabs_norm_1 (l : list R) : sumabs l = norm_1 l.
Proof.
  unfold sumabs, norm_1. numR.
  assert (H : forall l a, fold_left (fun e v => e + Rabs v) l a = a + lsum (map Rabs l)).
  { clear. induction l as [|v l IH]; intros a; cbn [fold_left map lsum fold_right]; [unfold lsum; simpl; lra|]. rewrite IH. unfold lsum; simpl. lra. }
  rewrite H. lra.
Qed.
Lemma norm2_norm_2 l : norm2 l = norm_2 l.
Proof.
  unfold norm2, norm_2. f_equal.
  assert (H : forall l a, fold_left (fun e v => e + v * v) l a = a + lsum (map (fun v => v * v) l)).
  { clear. induction l as [|v l IH]; intros a; cbn [fold_left map]; [unfold lsum; simpl; lra|]. rewrite IH. unfold lsum; simpl. lra. }
  rewrite H. lra.
Qed.
Lemma norm_1_nonneg l : 0 <= norm_1 l.
Proof. unfold norm_1. induction l; unfold lsum in *; simpl; [lra|]. pose proof (Rabs_pos a). lra. Qed.
Lemma norm_1_cons v l : norm_1 (v :: l) = Rabs v + norm_1 l. Proof. reflexivity. Qed.
Lemma step_add_moved x d c : step_add x d c = moved x d c. Proof. reflexivity. Qed.
Lemma step_sub_moved x d c : step_sub x d c = moved_back x d c. Proof. reflexivity. Qed.
Lemma step_sub_1 x d : step_sub x d (@n1 R _) = moved_back x d 1.
Proof. unfold step_sub, moved_back. numR. reflexivity. Qed.

Lemma tol_final_meets xtol ytol fcur : tol_final norm2 xtol ytol fcur = true -> meets xtol ytol fcur.
Proof.
  unfold tol_final, meets. numR. intros E. apply andb_true_iff in E as [E1 E2]. apply negb_true_iff in E1, E2.
  split; intros t ->.
  - apply Rltb_false in E1. now rewrite norm2_norm_2 in E1.
  - apply Rltb_false in E2. now rewrite sumabs_norm_1 in E2.
Qed.
Lemma tol_start_meets xtol ytol fcur : tol_start xtol ytol (sumabs fcur) = true -> meets xtol ytol fcur.
Proof.
  unfold tol_start, meets. numR. destruct xtol; [discriminate|]. destruct ytol; [|discriminate].
  intros E. apply Rltb_true in E. rewrite sumabs_norm_1 in E. split; intros t [= <-]. lra.
Qed.

(** ** fixed_point *)
Lemma fp_loop_last f xtol ytol damping progress : forall n x fcur err0 it x' fcur' it',
  fp_loop norm2 n f xtol ytol damping progress x fcur err0 it = Ok (x', fcur', it') ->
  (n = 0%nat /\ x' = x /\ fcur' = fcur /\ it' = it) \/ exists y, f y = Ok fcur' /\ x' = moved_back y fcur' damping.
Proof.
  induction n; intros x fcur err0 it x' fcur' it'; cbn [fp_loop].
  { intros [= <- <- <-]; auto. }
  intros E. inv_bind E. cbv zeta in E. numR.
  destruct (tol_break norm2 xtol ytol v (sumabs v)).
  { injection E as <- <- <-. right. exists x; auto. }
  destruct (Rleb err0 (sumabs v) && progress); [discriminate|].
  apply IHn in E as [[_ [-> [-> _]]]|[y [Ey Ex]]]; right; eauto.
Qed.
Lemma fixed_point_result f x0 xtol ytol n damping progress x it :
  fixed_point norm2 f x0 xtol ytol n damping progress = Ok (x, it) ->
  exists y fy, f y = Ok fy /\ meets xtol ytol fy /\
    ((it = 0%nat /\ x = x0 /\ y = x0) \/ (y = x0 /\ x = moved_back x0 fy 1) \/ x = moved_back y fy damping).
Proof.
  unfold fixed_point. intros E. inv_bind E. cbv zeta in E.
  destruct (tol_start xtol ytol (sumabs v)) eqn:Es.
  { injection E as <- <-. exists x0, v. splits; auto. now apply tol_start_meets. }
  inv_bind E. destruct v0 as [[x' fcur'] it'].
  destruct (tol_final norm2 xtol ytol fcur') eqn:Ef; [|discriminate]. injection E as <- <-.
  apply tol_final_meets in Ef. apply fp_loop_last in E1 as [[_ [-> [-> _]]]|[y [Ey Ex]]].
  - exists x0, v. splits; auto. right; left. split; auto. apply step_sub_1.
  - exists y, fcur'. splits; auto.
Qed.
Lemma fp_loop_errors f xtol ytol damping progress e : total f -> forall n x fcur err0 it,
  fp_loop norm2 n f xtol ytol damping progress x fcur err0 it = Err e -> progress = true /\ e = ValueError.
Proof.
  intros T. induction n; intros x fcur err0 it; cbn [fp_loop]; [discriminate|].
  destruct (T x) as [v ->]. cbn [bind]. cbv zeta.
  destruct (tol_break _ _ _ _ _); [discriminate|].
  destruct (err0 <=? sumabs v)%num; cbn [andb]; [|apply IHn].
  destruct progress; [intros [= <-]; auto|apply IHn].
Qed.
Lemma fixed_point_errors f x0 xtol ytol n damping progress e : total f ->
  fixed_point norm2 f x0 xtol ytol n damping progress = Err e ->
  e = UnconvergedError \/ (progress = true /\ e = ValueError).
Proof.
  intros T. unfold fixed_point. destruct (T x0) as [v ->]. cbn [bind]. cbv zeta.
  destruct (tol_start _ _ _); [discriminate|].
  destruct (fp_loop _ _ _ _ _ _ _ _ _ _ _) as [[[x' f'] it']|e'] eqn:El; cbn [bind].
  - destruct (tol_final _ _ _ _); [discriminate|]. intros [= <-]; auto.
  - intros [= <-]. right. eapply fp_loop_errors; eauto.
Qed.

(** contractions *)
Lemma norm_1_minus_sym x y : norm_1 (minus x y) = norm_1 (minus y x).
Proof. revert y; induction x; destruct y; unfold norm_1, minus in *; simpl; auto. unfold lsum in *; simpl. rewrite IHx, Rabs_minus_sym. reflexivity. Qed.
Lemma moved_back_length x d c : length d = length x -> length (moved_back x d c) = length x.
Proof. intros H. unfold moved_back. rewrite map_length, combine_length, H. lia. Qed.
Lemma minus_moved x d : length d = length x -> minus x (moved_back x d 1) = d.
Proof.
  revert d; induction x; destruct d; simpl; intros H; try discriminate; auto. unfold minus, moved_back in *; simpl.
  rewrite IHx by congruence. f_equal. lra.
Qed.
Lemma moved_diff x y fx : length fx = length x -> length y = length x -> y = moved_back x fx 1 -> forall fy, length fy = length x ->
  norm_1 fy = norm_1 (minus (moved_back x fx 1) (moved_back y fy 1)).
Proof.
  intros H1 H2 -> fy H3. f_equal. symmetry. apply minus_moved. rewrite moved_back_length; congruence.
Qed.
(** x - f x is a contraction with constant L on vectors of length N *)
Definition contraction (N : nat) (f : list R -> list R) (L : R) : Prop :=
  (forall x, length x = N -> length (f x) = N) /\
  forall x y, length x = N -> length y = N ->
    norm_1 (minus (moved_back x (f x) 1) (moved_back y (f y) 1)) <= L * norm_1 (minus x y).
Lemma contraction_step N f L x : contraction N f L -> length x = N -> norm_1 (f (moved_back x (f x) 1)) <= L * norm_1 (f x).
Proof.
  intros [H1 H2] Hx. set (y := moved_back x (f x) 1).
  assert (Hy : length y = N) by (unfold y; rewrite moved_back_length; auto; rewrite H1; auto).
  rewrite (moved_diff x y (f x)); auto; try (rewrite H1; auto); try congruence.
  - eapply Rle_trans; [apply H2; auto|]. unfold y. rewrite minus_moved by (rewrite H1; auto). lra.
Qed.
Lemma fp_loop_converges N f L yt : 0 <= L < 1 -> contraction N f L ->
  forall n x fcur err0 it, (1 <= n)%nat -> length x = N -> L ^ (n - 1) * norm_1 (f x) < yt ->
  exists y it', fp_loop norm2 n (fun z => Ok (f z)) None (Some yt) 1 false x fcur err0 it = Ok (moved_back y (f y) 1, f y, it') /\
    length y = N /\ norm_1 (f y) < yt.
Proof.
  intros HL Hc. induction n; intros x fcur err0 it Hn Hx Hy; [lia|]. cbn [fp_loop]. cbn [bind]. cbv zeta.
  rewrite andb_false_r. cbn [tol_break]. rewrite sumabs_norm_1. numR. rewrite step_sub_moved.
  destruct (Rltb (norm_1 (f x)) yt) eqn:E.
  - apply Rltb_true in E. exists x, (S it). splits; auto.
  - apply Rltb_false in E. destruct n. { simpl in Hy. lra. }
    apply IHn; try lia.
    + rewrite moved_back_length; auto. destruct Hc as [Hc _]. rewrite Hc; auto.
    + eapply Rle_lt_trans; [|exact Hy]. replace (S (S n) - 1)%nat with (S (S n - 1)) by lia. simpl.
      replace (n - 0)%nat with n by lia. pose proof (contraction_step N f L x Hc Hx). pose proof (pow_le L n (proj1 HL)). nra.
Qed.
Lemma fixed_point_converges N f L x0 yt n : 0 <= L < 1 -> contraction N f L -> length x0 = N -> 0 < yt -> (2 <= n)%nat ->
  L ^ (n - 1) * norm_1 (f x0) < yt ->
  exists x it, fixed_point norm2 (fun z => Ok (f z)) x0 None (Some yt) n 1 false = Ok (x, it) /\ norm_1 (f x) < yt.
Proof.
  intros HL Hc Hx Hyt Hn Hs. unfold fixed_point. cbn [bind]. cbv zeta. cbn [tol_start]. rewrite sumabs_norm_1. numR.
  destruct (Rltb (norm_1 (f x0)) yt) eqn:E0.
  { apply Rltb_true in E0. eauto. }
  rewrite step_sub_moved.
  assert (Hx1 : length (moved_back x0 (f x0) 1) = N) by (rewrite moved_back_length; auto; destruct Hc as [Hc _]; rewrite Hc; auto).
  destruct (fp_loop_converges N f L yt HL Hc (n - 1) (moved_back x0 (f x0) 1) (f x0) (norm_1 (f x0)) 1) as [y [it [E [Hy Hr]]]]; auto; try lia.
  { eapply Rle_lt_trans; [|exact Hs]. replace (n - 1)%nat with (S (n - 1 - 1)) at 2 by lia. simpl.
    pose proof (contraction_step N f L x0 Hc Hx). pose proof (pow_le L (n - 1 - 1) (proj1 HL)). nra. }
  rewrite E. cbn [bind].
  assert (tol_final norm2 None (Some yt) (f y) = true) as ->.
  { unfold tol_final. cbn [negb andb]. rewrite sumabs_norm_1. numR. apply negb_true_iff, Rltb_false. lra. }
  exists (moved_back y (f y) 1), it. split; auto.
  pose proof (contraction_step N f L y Hc Hy). pose proof (norm_1_nonneg (f y)). nra.
Qed.

(** ** accelerated variants *)
Lemma acc_loop_last f acc freq ad xtol ytol damping progress : forall n hist x fcur err0 it x' fcur' it',
  acc_loop norm2 n f acc freq ad xtol ytol damping progress hist x fcur err0 it = Ok (x', fcur', it') ->
  (n = 0%nat /\ x' = x /\ fcur' = fcur /\ it' = it) \/
  exists y, f y = Ok fcur' /\ (x' = moved_back y fcur' damping \/ exists d, x' = moved y d ad).
Proof.
  induction n; intros hist x fcur err0 it x' fcur' it'; cbn [acc_loop].
  { intros [= <- <- <-]; auto. }
  cbv zeta. intros E. inv_bind E. inv_bind E. numR.
  assert (Hv0 : v0 = moved_back x v damping \/ exists d, v0 = moved x d ad).
  { destruct (freq =? 0)%nat; [discriminate|]. destruct (it mod freq =? 0)%nat.
    - inv_bind E1. injection E1 as <-. right; eauto.
    - injection E1 as <-. left; auto. }
  destruct (tol_break norm2 xtol ytol v (sumabs v)).
  { injection E as <- <- <-. right. exists x; auto. }
  destruct (Rleb err0 (sumabs v) && progress); [discriminate|].
  apply IHn in E as [[_ [-> [-> _]]]|[y [Ey Ex]]]; right; eauto.
Qed.
Lemma fixed_point_acc_result acc f x0 xtol ytol n damping progress freq ad x it :
  fixed_point_acc norm2 acc f x0 xtol ytol n damping progress freq ad = Ok (x, it) ->
  exists y fy, f y = Ok fy /\ meets xtol ytol fy /\
    ((it = 0%nat /\ x = x0 /\ y = x0) \/ (y = x0 /\ x = moved_back x0 fy 1) \/ x = moved_back y fy damping \/ exists d, x = moved y d ad).
Proof.
  unfold fixed_point_acc. intros E. inv_bind E. cbv zeta in E.
  destruct (tol_start xtol ytol (sumabs v)) eqn:Es.
  { injection E as <- <-. exists x0, v. splits; auto. now apply tol_start_meets. }
  inv_bind E. destruct v0 as [[x' fcur'] it'].
  destruct (tol_final norm2 xtol ytol fcur') eqn:Ef; [|discriminate]. injection E as <- <-.
  apply tol_final_meets in Ef. apply acc_loop_last in E1 as [[_ [-> [-> _]]]|[y [Ey Ex]]].
  - exists x0, v. splits; auto. right; left. split; auto. apply step_sub_1.
  - exists y, fcur'. splits; auto.
Qed.

(** ** newton_system *)
Section NewtonSystem.
Context (f : list R -> result (list R)) (jac : list R -> result (list (list R)))
        (solve : list (list R) -> list R -> result (list R)) (o : @ns_opts R).

Lemma ns_search_total j x dx fcur err0 : total f -> forall fs xnew fn xnew' fn' brk, (fs <> [] \/ exists fv, f xnew = Ok fv /\ fn = Some (fv, sumabs fv)) ->
  ns_search f o j x dx fcur err0 fs xnew fn = (xnew', fn', brk) ->
  exists fv, f xnew' = Ok fv /\ fn' = Some (fv, sumabs fv) /\ (brk = true -> sumabs fv < err0) /\
    (brk = false -> ns_armijo o = None -> fs <> [] -> err0 <= sumabs fv).
Proof.
  intros T. induction fs as [|factor t IH]; intros xnew fn xnew' fn' brk H; cbn [ns_search].
  { intros [= <- <- <-]. destruct H as [H|[fv [H1 H2]]]; [congruence|]. exists fv; splits; auto; congruence. }
  cbv zeta. set (xt := match ns_damping_func o with None => _ | Some df => _ end).
  destruct (T xt) as [fv Ef]. rewrite Ef. numR.
  destruct (Rltb (sumabs fv) err0 && _) eqn:Ec.
  - intros [= <- <- <-]. apply andb_true_iff in Ec as [Ec _]. apply Rltb_true in Ec. exists fv; splits; auto; congruence.
  - intros E. destruct t as [|f2 t].
    + cbn [ns_search] in E. injection E as <- <- <-. exists fv; splits; auto; try congruence.
      intros _ Ha _. rewrite Ha, andb_true_r in Ec. now apply Rltb_false in Ec.
    + apply IH in E; [|left; discriminate]. destruct E as [fv' [K1 [K2 [K3 K4]]]]. exists fv'; splits; auto. intros; apply K4; auto; discriminate.
Qed.
Lemma ns_loop_result xtol ytol : total f -> ns_factors o <> [] -> forall n x fcur err0 j ju jn fn it x' fcur' it',
  f x = Ok fcur -> err0 = sumabs fcur ->
  ns_loop norm2 n f jac solve o xtol ytol x fcur err0 j ju jn fn it = Ok (x', fcur', it') ->
  f x' = Ok fcur' /\ (it <= it')%nat /\ (it' <= it + n)%nat /\ (ns_progress o = true -> (it < it')%nat -> sumabs fcur' < sumabs fcur) /\ (it' = it -> x' = x).
Proof.
  intros T Hf. induction n; intros x fcur err0 j ju jn fn it x' fcur' it' Hx He; cbn [ns_loop].
  { intros [= <- <- <-]. splits; auto; intros; lia. }
  intros E. inv_bind E.
  destruct (ns_search f o j x v fcur err0 (ns_factors o) x fn) as [[xnew fn'] brk] eqn:Es.
  apply ns_search_total in Es; auto. destruct Es as [fv [K1 [-> [K3 K4]]]]. cbv zeta in E. numR.
  destruct (ns_line_search o && Rltb err0 (sumabs fv) && ns_progress o); [discriminate|].
  inv_bind E. destruct v0 as [ju' jn'].
  assert (Hp : ns_progress o = true -> sumabs fv < sumabs fcur).
  { intros Hp. rewrite Hp in E1. destruct (Rleb err0 (sumabs fv)) eqn:El; [discriminate|]. apply Rleb_false in El. lra. }
  destruct (tol_break norm2 xtol ytol fv (sumabs fv)).
  { injection E as <- <- <-. splits; auto; intros; lia. }
  inv_bind E. apply IHn in E; auto. destruct E as [M1 [M2 [M3 [M4 M5]]]]. splits; auto; try lia.
  intros Hpr Hit. specialize (Hp Hpr).
  destruct (Nat.eq_dec (S it) it') as [<-|Hne].
  - specialize (M5 eq_refl). subst x'. rewrite K1 in M1. injection M1 as <-. auto.
  - assert (S it < it')%nat by lia. specialize (M4 Hpr H). lra.
Qed.
Lemma newton_system_result x0 xtol ytol n x it : total f -> ns_factors o <> [] ->
  newton_system norm2 f x0 jac solve o xtol ytol n = Ok (x, it) ->
  exists fx f0, f x = Ok fx /\ f x0 = Ok f0 /\ meets xtol ytol fx /\ (it <= Nat.max 1 n)%nat /\
    (ns_progress o = true -> x = x0 \/ norm_1 fx < norm_1 f0).
Proof.
  intros T Hf. unfold newton_system. intros E. inv_bind E. cbv zeta in E.
  destruct (tol_start xtol ytol (sumabs v)) eqn:Es.
  { injection E as <- <-. exists v, v. splits; auto; try lia. now apply tol_start_meets. }
  inv_bind E. inv_bind E. destruct v1 as [[x' fcur'] it'].
  destruct (tol_final norm2 xtol ytol fcur') eqn:Ef; [|discriminate]. injection E as <- <-.
  apply tol_final_meets in Ef. apply ns_loop_result in E2; auto. destruct E2 as [M1 [M2 [M3 [M4 M5]]]].
  exists fcur', v. splits; auto; try lia. intros Hp.
  destruct (Nat.eq_dec it' 1) as [->|]; [left; auto|]. right. rewrite <- !sumabs_norm_1. apply M4; auto. lia.
Qed.
Lemma ns_loop_errors xtol ytol e : total f -> total jac -> (forall j b, exists v, solve j b = Ok v) -> ns_factors o <> [] -> ns_armijo o = None ->
  forall n x fcur err0 j ju jn fn it, f x = Ok fcur ->
  ns_loop norm2 n f jac solve o xtol ytol x fcur err0 j ju jn fn it = Err e -> ns_progress o = true /\ e = ValueError.
Proof.
  intros T Tj Ts Hf Ha. induction n; intros x fcur err0 j ju jn fn it Hx; cbn [ns_loop]; [discriminate|].
  destruct (Ts j (map nopp fcur)) as [dx ->]. cbn [bind].
  destruct (ns_search f o j x dx fcur err0 (ns_factors o) x fn) as [[xnew fn'] brk] eqn:Es.
  apply ns_search_total in Es; auto. destruct Es as [fv [K1 [-> [K3 K4]]]]. cbv zeta. numR.
  destruct (ns_progress o) eqn:Ep.
  - rewrite andb_true_r. destruct (ns_line_search o && Rltb err0 (sumabs fv)); [intros [= <-]; auto|].
    destruct (Rleb err0 (sumabs fv)) eqn:El; cbn [bind]; [intros [= <-]; auto|]. apply Rleb_false in El.
    destruct brk. 2:{ specialize (K4 eq_refl Ha Hf). lra. }
    destruct (tol_break norm2 xtol ytol fv (sumabs fv)); [discriminate|]. cbn [negb].
    destruct (Tj xnew) as [jv ->]. cbn [bind]. apply IHn; auto.
  - rewrite andb_false_r.
    destruct (Rleb err0 (sumabs fv)) eqn:El; cbn [bind].
    + destruct (Tj xnew) as [jv ->]. cbn [bind].
      destruct (tol_break norm2 xtol ytol fv (sumabs fv)); [discriminate|]. cbn [negb bind]. apply IHn; auto.
    + apply Rleb_false in El. destruct brk. 2:{ specialize (K4 eq_refl Ha Hf). lra. }
      destruct (tol_break norm2 xtol ytol fv (sumabs fv)); [discriminate|]. cbn [negb].
      destruct (Tj xnew) as [jv ->]. cbn [bind]. apply IHn; auto.
Qed.
Lemma newton_system_errors x0 xtol ytol n e : total f -> total jac -> (forall j b, exists v, solve j b = Ok v) -> ns_factors o <> [] -> ns_armijo o = None ->
  newton_system norm2 f x0 jac solve o xtol ytol n = Err e ->
  e = UnconvergedError \/ (ns_progress o = true /\ e = ValueError).
Proof.
  intros T Tj Ts Hf Ha. unfold newton_system. destruct (T x0) as [v Ev]. rewrite Ev. cbn [bind]. cbv zeta.
  destruct (tol_start _ _ _); [discriminate|]. destruct (Tj x0) as [jv ->]. cbn [bind].
  match goal with |- bind ?c _ = _ -> _ => destruct c as [[[x' f'] it']|e'] eqn:El end; cbn [bind].
  - destruct (tol_final _ _ _ _); [discriminate|]. intros [= <-]; auto.
  - intros [= <-]. right. eapply ns_loop_errors; eauto.
Qed.
End NewtonSystem.

(** affine systems: f(x + d) = f(x) + J d, and a solver that really solves *)
Lemma newton_system_affine (f : list R -> list R) J x0 jac solve o yt n d :
  (forall x, jac x = Ok J) -> solve J (map Ropp (f x0)) = Ok d -> f (moved x0 d 1) = map (fun _ => 0) (f x0) ->
  ns_damping o = 1 -> ns_damping_func o = None -> ns_armijo o = None -> (exists t, ns_factors o = 1 :: t) -> 0 < yt -> (2 <= n)%nat ->
  norm_1 (f x0) <> 0 ->
  exists x it, newton_system norm2 (fun z => Ok (f z)) x0 jac solve o None (Some yt) n = Ok (x, it) /\ norm_1 (f x) < yt.
Proof.
  intros Hj Hs Hz Hd Hdf Ha [t Hfs] Hyt Hn Hnz. unfold newton_system. cbn [bind]. cbv zeta. cbn [tol_start]. rewrite sumabs_norm_1. numR.
  destruct (Rltb (norm_1 (f x0)) yt) eqn:E0. { apply Rltb_true in E0. eauto. }
  rewrite Hj. cbn [bind]. destruct n as [|[|n]]; try lia. replace (S (S n) - 1)%nat with (S n) by lia. cbn [ns_loop]. numR.
  rewrite Hs. cbn [bind]. rewrite Hfs. cbn [ns_search]. rewrite Hdf, Hd, Ha. numR. rewrite Rmult_1_r. rewrite step_add_moved, Hz.
  assert (Hz0 : norm_1 (map (fun _ => 0) (f x0)) = 0).
  { clear. induction (f x0); auto. simpl. rewrite norm_1_cons, IHl, Rabs_R0. lra. }
  rewrite sumabs_norm_1, Hz0.
  assert (0 < norm_1 (f x0)) by (pose proof (norm_1_nonneg (f x0)); lra).
  assert (Rltb 0 (norm_1 (f x0)) = true) as -> by now apply Rltb_true. cbn [andb].
  assert (Rltb (norm_1 (f x0)) 0 = false) as -> by (apply Rltb_false; lra). rewrite andb_false_r. cbn [andb].
  assert (Rleb (norm_1 (f x0)) 0 = false) as -> by (apply Rleb_false; lra). cbn [bind tol_break]. numR.
  assert (Rltb 0 yt = true) as -> by now apply Rltb_true. cbn [bind].
  assert (tol_final norm2 None (Some yt) (map (fun _ => 0) (f x0)) = true) as ->.
  { unfold tol_final. cbn [negb andb]. rewrite sumabs_norm_1, Hz0. numR. apply negb_true_iff, Rltb_false. lra. }
  exists (moved x0 d 1), 2%nat. split; auto. rewrite Hz, Hz0. auto.
Qed.

(** ** newton_minimize *)
Lemma nm_loop_last jac hess df damping xtol ytol : forall n x j h it x' j' it', jac x = Ok j ->
  nm_loop norm2 n jac hess df damping xtol ytol x j h it = Ok (x', j', it') -> jac x' = Ok j' /\ (it' <= it + n)%nat.
Proof.
  induction n; intros x j h it x' j' it' Hj; cbn [nm_loop]. { intros [= <- <- <-]; split; auto; lia. }
  intros E. inv_bind E. cbv zeta in E. inv_bind E. inv_bind E.
  destruct (match xtol with Some _ => _ | None => _ end). { injection E as <- <- <-; split; auto; lia. }
  destruct (match ytol with Some _ => _ | None => _ end). { injection E as <- <- <-; split; auto; lia. }
  apply IHn in E; auto. destruct E; split; auto; lia.
Qed.
Lemma newton_minimize_result x0 jac hess xtol ytol n damping df x it :
  newton_minimize norm2 x0 jac hess xtol ytol n damping df = Ok (x, it) ->
  exists g, jac x = Ok g /\ meets xtol ytol g /\ (it <= n)%nat.
Proof.
  unfold newton_minimize. intros E. inv_bind E. inv_bind E. inv_bind E. destruct v1 as [[x' j'] it'].
  destruct (tol_final norm2 xtol ytol j') eqn:Ef; [|discriminate]. injection E as <- <-.
  apply tol_final_meets in Ef. apply nm_loop_last in E2; auto. destruct E2. exists j'; auto.
Qed.

(** ** homotopy_function *)
Lemma mapM_ok {B C} (g : B -> result C) (h : B -> C) l : (forall i, In i l -> g i = Ok (h i)) -> mapM g l = Ok (map h l).
Proof. induction l; simpl; intros H; auto. rewrite H, IHl; auto. Qed.
Lemma idx_nth {B} (l : list B) i d : (i < length l)%nat -> idx l i = Ok (nth i l d).
Proof. revert i; induction l; destruct i; simpl; intros; try lia; auto. unfold idx in *. simpl. apply IHl. lia. Qed.
Lemma homotopy_value objf x Fx F0 lam : objf x = Ok Fx -> length Fx = length F0 ->
  homotopy_function x lam F0 objf = Ok (moved_back Fx F0 (1 - lam)).
Proof.
  intros E Hl. unfold homotopy_function. rewrite E. cbn [bind]. cbv zeta. numR.
  set (g := fun i => nth i Fx 0 - (1 - lam) * nth i F0 0). set (h := fun p : R * R => fst p - snd p * (1 - lam)).
  rewrite (mapM_ok _ g).
  - f_equal. unfold moved_back. fold h. apply (nth_ext _ _ 0 0).
    + rewrite !map_length, combine_length, seq_length. lia.
    + intros i Hi. rewrite map_length, seq_length in Hi.
      rewrite (nth_indep _ 0 (g 0%nat)) by (rewrite map_length, seq_length; auto).
      rewrite (map_nth g), seq_nth by auto. simpl.
      rewrite (nth_indep _ 0 (h (0, 0))) by (rewrite map_length, combine_length; lia).
      rewrite (map_nth h), combine_nth by auto. unfold g, h. simpl. lra.
  - intros i Hi. apply in_seq in Hi. rewrite (idx_nth Fx i 0), (idx_nth F0 i 0) by lia. reflexivity.
Qed.

(** ** broyden2 *)
Lemma broyden_loop_result f xtol : forall n J xs fcur it x it', f xs = Ok fcur -> broyden_loop n f xtol J xs fcur it = Ok (x, it') ->
  exists fx, f x = Ok fx /\ (it' <= it + n)%nat /\ (norm_1 fx <= xtol \/ it' = (it + n)%nat).
Proof.
  induction n; intros J xs fcur it x it' Hx; cbn [broyden_loop].
  { intros [= <- <-]. exists fcur; splits; auto; try lia. }
  rewrite sumabs_norm_1. numR. destruct (Rltb xtol (norm_1 fcur)) eqn:E0; cbn [negb].
  2:{ intros [= <- <-]. apply Rltb_false in E0. exists fcur; splits; auto; lia. }
  intros E. inv_bind E. inv_bind E. inv_bind E. inv_bind E. inv_bind E. apply IHn in E; auto.
  destruct E as [fx [K1 [K2 K3]]]. exists fx; splits; auto; [lia|]. destruct K3; auto. right; lia.
Qed.
Lemma broyden2_result xs f jac xtol n x it : broyden2 xs f jac xtol n = Ok (x, it) ->
  exists fx, f x = Ok fx /\ (it <= n)%nat /\ (norm_1 fx <= xtol \/ it = n).
Proof. unfold broyden2. intros E. inv_bind E. inv_bind E. apply broyden_loop_result in E; auto. Qed.

(** ** accelerators on geometric sequences *)
Lemma moved_cons s1 s c1 c k : moved (s1 :: s) (c1 :: c) k = (s1 + c1 * k) :: moved s c k. Proof. reflexivity. Qed.
Lemma mapM_diff (x y : list R) : length x = length y ->
  mapM (fun i => a <- idx x i ;; b <- idx y i ;; Ok (a - b)) (seq 0 (length x)) = Ok (minus x y).
Proof.
  intros Hl. rewrite (mapM_ok _ (fun i => nth i x 0 - nth i y 0)).
  - f_equal. unfold minus. set (g := fun i => nth i x 0 - nth i y 0). set (h := fun p : R * R => fst p - snd p).
    apply (nth_ext _ _ 0 0).
    + rewrite !map_length, combine_length, seq_length. lia.
    + intros i Hi. rewrite map_length, seq_length in Hi.
      rewrite (nth_indep _ 0 (g 0%nat)) by (rewrite map_length, seq_length; auto).
      rewrite (map_nth g), seq_nth by auto. simpl.
      rewrite (nth_indep _ 0 (h (0, 0))) by (rewrite map_length, combine_length; lia).
      rewrite (map_nth h), combine_nth by auto. unfold g, h. simpl. lra.
  - intros i Hi. apply in_seq in Hi. rewrite (idx_nth x i 0), (idx_nth y i 0) by lia. reflexivity.
Qed.
Lemma moved_length s c k : length s = length c -> length (moved s c k) = length s.
Proof. intros H. unfold moved. rewrite map_length, combine_length. lia. Qed.
Lemma minus_geo : forall s c a b, length s = length c -> minus (moved s c a) (moved s c b) = map (fun v => v * (a - b)) c.
Proof.
  induction s; destruct c; simpl; intros a' b' H; try discriminate; auto. unfold minus, moved in *. simpl. rewrite IHs by congruence.
  f_equal. lra.
Qed.
Lemma vsum_lsum (l : list R) : vsum l = lsum l.
Proof. unfold vsum. numR. rewrite fold_left_Rplus. lra. Qed.
Lemma vdot_scaled : forall (c : list R) a b, vdot (map (fun v => v * a) c) (map (fun v => v * b) c) = a * b * lsum (map (fun v => v * v) c).
Proof.
  intros c a b. unfold vdot. rewrite vsum_lsum. induction c; simpl; unfold lsum in *; simpl; [numR; lra|]. numR. rewrite IHc. lra.
Qed.
Lemma sumsq_pos (c : list R) : norm_1 c <> 0 -> 0 < lsum (map (fun v => v * v) c).
Proof.
  intros H. assert (G : forall c, 0 <= lsum (map (fun v => v * v) c)).
  { clear. induction c; unfold lsum in *; simpl; [lra|]. nra. }
  induction c; [exfalso; apply H; reflexivity|]. rewrite norm_1_cons in H. unfold lsum in *; simpl.
  specialize (G c). unfold lsum in G. destruct (Req_dec a 0) as [->|Ha].
  - rewrite Rabs_R0 in H. assert (norm_1 c <> 0) by lra. specialize (IHc H0). unfold lsum in IHc. lra.
  - assert (0 < a * a) by nra. lra.
Qed.
Lemma dem_geometric s c r : length s = length c -> norm_1 c <> 0 -> 0 < r < 1 ->
  exists d, dem (moved s c (r * r)) (moved s c r) (moved s c 1) = Ok d /\ moved (moved s c (r * r)) d 1 = s.
Proof.
  intros Hl Hc Hr. unfold dem, vsubi. numR.
  rewrite mapM_diff by (rewrite !moved_length; auto). cbn [bind].
  replace (length (moved s c (r * r))) with (length (moved s c r)) by (rewrite !moved_length; auto).
  rewrite mapM_diff by (rewrite !moved_length; auto). cbn [bind]. cbv zeta. rewrite !minus_geo by auto. rewrite !vdot_scaled.
  pose proof (sumsq_pos c Hc) as Hp. set (S2 := lsum (map (fun v => v * v) c)) in *.
  assert (Hd : (r * r - r) * (r * r - r) * S2 <> 0).
  { apply Rmult_integral_contrapositive_currified; [|lra]. apply Rmult_integral_contrapositive_currified; nra. }
  destruct (Reqb _ 0) eqn:E0; [apply Reqb_true in E0; contradiction|].
  rewrite pydivR_ok by auto. cbn [bind].
  assert (Hlam : (r - 1) * (r * r - r) * S2 / ((r * r - r) * (r * r - r) * S2) = / r).
  { field. splits; try lra; try nra. }
  rewrite Hlam. assert (Hden : 1 - / r <> 0). { intros K. assert (r * (1 - / r) = r - 1) as Q by (field; lra). rewrite K in Q. lra. }
  destruct (Reqb (1 - / r) 0) eqn:E1; [apply Reqb_true in E1; contradiction|].
  rewrite pydivR_ok by auto. cbn [bind]. eexists; split; [reflexivity|].
  assert (Ha : Rabs (1 / (1 - / r)) = r / (1 - r)).
  { rewrite Rabs_left. - field. splits; lra. - replace (1 / (1 - / r)) with (- (r / (1 - r))) by (field; splits; lra).
    pose proof (Rdiv_lt_0_compat r (1 - r)). lra. }
  rewrite Ha. clear -Hl Hr. revert c Hl; induction s; destruct c; simpl; intros Hl; try discriminate; auto.
  unfold moved in *. simpl. rewrite IHs by congruence. f_equal. field. lra.
Qed.

(** the update of broyden2 on 1x1 systems satisfies the secant equation *)
Lemma broyden_update_scalar (j s z : R) J' : broyden_update [[j]] [s] [z] = Ok J' -> exists j', J' = [[j']] /\ j' * z = - s.
Proof.
  unfold broyden_update, matrix_vector_dot, dot_product, vsubi. cbn. numR. intros E.
  destruct (Req_dec (0 + - s * (0 + j * z)) 0) as [K|K].
  { rewrite K in E. rewrite pydivR_0 in E. discriminate. }
  rewrite pydivR_ok in E by auto. cbn in E. injection E as <-. eexists; split; [reflexivity|].
  assert (s <> 0) by (intros ->; apply K; ring). assert (j <> 0) by (intros ->; apply K; ring). assert (z <> 0) by (intros ->; apply K; ring).
  field. splits; auto; intros Q; apply K; nra.
Qed.
