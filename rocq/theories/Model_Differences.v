(** Model of the finite difference routines of numerics/__init__.py: [derivative] (scalar functions), [jacobian] and
    [hessian] of scalar functions of several variables.  Real arithmetic; the weights are the decimal literals of the
    source taken exactly. *)
From Coq Require Import Reals Lra Lia List Bool ZArith QArith Qreals.
From Verif Require Import Base.
Import ListNotations.
Open Scope R_scope.

(** numerics/__init__.py:717-803 [central_diff_weights_precomputed]: (derivative, points, weights) *)
Definition weights_table : list (nat * nat * list Q) := [
  (1%nat, 3%nat, [(-1#2); (0#1); (1#2)]);
  (1%nat, 5%nat, [(8333333333333333#100000000000000000); (-3333333333333333#5000000000000000); (0#1); (3333333333333333#5000000000000000); (-8333333333333333#100000000000000000)]);
  (1%nat, 7%nat, [(-8333333333333333#500000000000000000); (3#20); (-3#4); (0#1); (3#4); (-3#20); (8333333333333333#500000000000000000)]);
  (1%nat, 9%nat, [(35714285714285713#10000000000000000000); (-380952380952381#10000000000000000); (1#5); (-4#5); (0#1); (4#5); (-1#5); (380952380952381#10000000000000000); (-35714285714285713#10000000000000000000)]);
  (1%nat, 11%nat, [(-7936507936507937#10000000000000000000); (248015873015873#25000000000000000); (-744047619047619#12500000000000000); (744047619047619#3125000000000000); (-4166666666666667#5000000000000000); (0#1); (4166666666666667#5000000000000000); (-744047619047619#3125000000000000); (744047619047619#12500000000000000); (-248015873015873#25000000000000000); (7936507936507937#10000000000000000000)]);
  (1%nat, 13%nat, [(9018759018759019#50000000000000000000); (-12987012987012987#5000000000000000000); (2232142857142857#125000000000000000); (-248015873015873#3125000000000000); (5357142857142857#20000000000000000); (-8571428571428571#10000000000000000); (0#1); (8571428571428571#10000000000000000); (-5357142857142857#20000000000000000); (248015873015873#3125000000000000); (-2232142857142857#125000000000000000); (12987012987012987#5000000000000000000); (-9018759018759019#50000000000000000000)]);
  (1%nat, 15%nat, [(-333000333000333#8000000000000000000); (6798756798756799#10000000000000000000); (-5303030303030303#1000000000000000000); (6628787878787879#250000000000000000); (-4861111111111111#50000000000000000); (2916666666666667#10000000000000000); (-7#8); (0#1); (7#8); (-2916666666666667#10000000000000000); (4861111111111111#50000000000000000); (-6628787878787879#250000000000000000); (5303030303030303#1000000000000000000); (-6798756798756799#10000000000000000000); (333000333000333#8000000000000000000)]);
  (1%nat, 17%nat, [(9712509712509713#1000000000000000000000); (-111000111000111#625000000000000000); (777000777000777#500000000000000000); (-4351204351204351#500000000000000000); (707070707070707#20000000000000000); (-5656565656565657#50000000000000000); (3111111111111111#10000000000000000); (-1111111111111111#1250000000000000); (0#1); (1111111111111111#1250000000000000); (-3111111111111111#10000000000000000); (5656565656565657#50000000000000000); (-707070707070707#20000000000000000); (4351204351204351#500000000000000000); (-777000777000777#500000000000000000); (111000111000111#625000000000000000); (-9712509712509713#1000000000000000000000)]);
  (1%nat, 19%nat, [(-1142648201471731#500000000000000000000); (2892328259975319#62500000000000000000); (-8991008991008991#20000000000000000000); (2797202797202797#1000000000000000000); (-3146853146853147#250000000000000000); (8811188811188811#200000000000000000); (-6363636363636363#50000000000000000); (32727272727272727#100000000000000000); (-9#10); (0#1); (9#10); (-32727272727272727#100000000000000000); (6363636363636363#50000000000000000); (-8811188811188811#200000000000000000); (3146853146853147#250000000000000000); (-2797202797202797#1000000000000000000); (8991008991008991#20000000000000000000); (-2892328259975319#62500000000000000000); (1142648201471731#500000000000000000000)]);
  (2%nat, 3%nat, [(1#1); (-2#1); (1#1)]);
  (2%nat, 5%nat, [(-8333333333333333#100000000000000000); (13333333333333333#10000000000000000); (-5#2); (13333333333333333#10000000000000000); (-8333333333333333#100000000000000000)]);
  (2%nat, 7%nat, [(1388888888888889#125000000000000000); (-3#20); (3#2); (-27222222222222223#10000000000000000); (3#2); (-3#20); (1388888888888889#125000000000000000)]);
  (2%nat, 9%nat, [(-17857142857142857#10000000000000000000); (25396825396825397#1000000000000000000); (-1#5); (8#5); (-28472222222222223#10000000000000000); (8#5); (-1#5); (25396825396825397#1000000000000000000); (-17857142857142857#10000000000000000000)]);
  (2%nat, 11%nat, [(15873015873015873#50000000000000000000); (-248015873015873#50000000000000000); (248015873015873#6250000000000000); (-744047619047619#3125000000000000); (16666666666666667#10000000000000000); (-1829513888888889#625000000000000); (16666666666666667#10000000000000000); (-744047619047619#3125000000000000); (248015873015873#6250000000000000); (-248015873015873#50000000000000000); (15873015873015873#50000000000000000000)]);
  (2%nat, 13%nat, [(-6012506012506013#100000000000000000000); (1038961038961039#1000000000000000000); (-2232142857142857#250000000000000000); (5291005291005291#100000000000000000); (-5357142857142857#20000000000000000); (8571428571428571#5000000000000000); (-14913888888888889#5000000000000000); (8571428571428571#5000000000000000); (-5357142857142857#20000000000000000); (5291005291005291#100000000000000000); (-2232142857142857#250000000000000000); (1038961038961039#1000000000000000000); (-6012506012506013#100000000000000000000)]);
  (2%nat, 15%nat, [(11892869035726179#1000000000000000000000); (-22662522662522663#100000000000000000000); (10606060606060607#5000000000000000000); (-6628787878787879#500000000000000000); (6481481481481481#100000000000000000); (-2916666666666667#10000000000000000); (7#4); (-302359410430839#100000000000000); (7#4); (-2916666666666667#10000000000000000); (6481481481481481#100000000000000000); (-6628787878787879#500000000000000000); (10606060606060607#5000000000000000000); (-22662522662522663#100000000000000000000); (11892869035726179#1000000000000000000000)]);
  (2%nat, 17%nat, [(-607031857031857#250000000000000000000); (5074290788576503#100000000000000000000); (-259000259000259#500000000000000000); (3480963480963481#1000000000000000000); (-4419191919191919#250000000000000000); (3771043771043771#50000000000000000); (-3111111111111111#10000000000000000); (17777777777777777#10000000000000000); (-305484410430839#100000000000000); (17777777777777777#10000000000000000); (-3111111111111111#10000000000000000); (3771043771043771#50000000000000000); (-4419191919191919#250000000000000000); (3480963480963481#1000000000000000000); (-259000259000259#500000000000000000); (5074290788576503#100000000000000000000); (-607031857031857#250000000000000000000)]);
  (2%nat, 19%nat, [(5078436450985471#10000000000000000000000); (-2892328259975319#250000000000000000000); (802768659911517#6250000000000000000); (-2331002331002331#2500000000000000000); (1006993006993007#200000000000000000); (-22027972027972027#1000000000000000000); (1696969696969697#20000000000000000); (-32727272727272727#100000000000000000); (9#5); (-6159070924666163#2000000000000000); (9#5); (-32727272727272727#100000000000000000); (1696969696969697#20000000000000000); (-22027972027972027#1000000000000000000); (1006993006993007#200000000000000000); (-2331002331002331#2500000000000000000); (802768659911517#6250000000000000000); (-2892328259975319#250000000000000000000); (5078436450985471#10000000000000000000000)]);
  (3%nat, 5%nat, [(-1#2); (1#1); (0#1); (-1#1); (1#2)]);
  (3%nat, 7%nat, [(1#8); (-1#1); (13#8); (0#1); (-13#8); (1#1); (-1#8)]);
  (3%nat, 9%nat, [(-29166666666666667#1000000000000000000); (7500000000000001#25000000000000000); (-3520833333333333#2500000000000000); (2033333333333333#1000000000000000); (0#1); (-2033333333333333#1000000000000000); (3520833333333333#2500000000000000); (-7500000000000001#25000000000000000); (29166666666666667#1000000000000000000)])]%Q.
Fixpoint weights_of (n order : nat) (l : list (nat * nat * list Q)) : option (list Q) :=
  match l with
  | [] => None
  | (n', o', w) :: t => if Nat.eqb n n' && Nat.eqb order o' then Some w else weights_of n order t
  end.

(** numerics/__init__.py:838-884 [derivative] with [scalar=True].  [extra order n] stands for the weights computed by sympy
    for a pair that is not in the table.  [order >> 1] is [Nat.div2]; [dx] multiplied [n] times is the power. *)
Definition derivative (extra : nat -> nat -> result (list R)) (f : R -> result R) (x0 dx : R) (n order : nat)
    (lower_limit upper_limit : option R) : result R :=
  weights <- (match weights_of n order weights_table with
              | Some w => Ok (map Q2R w)
              | None => if Nat.ltb order (n + 1) then Err ValueError
                        else if Nat.even order then Err ValueError
                        else extra order n end) ;;
  let ho := Nat.div2 order in
  denominator <- pdiv 1 (dx ^ n) ;;
  let x0 := match upper_limit with
            | Some up => let max_x := x0 + INR (order - 1 - ho) * dx in
                         if Rltb up max_x then x0 - (max_x - x0) else x0
            | None => x0 end in
  let x0 := match lower_limit with
            | Some lo => let min_x := x0 + - INR ho * dx in
                         if Rltb min_x lo then x0 + (x0 - min_x) else x0
            | None => x0 end in
  tot <- (fix go (ks : list nat) (tot : R) : result R :=
            match ks with
            | [] => Ok tot
            | k :: ks' =>
                w <- idx weights k ;;
                if negb (Reqb w 0) then v <- f (x0 + (INR k - INR ho) * dx) ;; go ks' (tot + w * v)
                else go ks' tot
            end) (seq 0 order) 0 ;;
  Ok (tot * denominator).

(** numerics/__init__.py:1182-1226 [jacobian] with [scalar=True], no extra arguments.  The point is changed in place and
    changed back by adding and subtracting the step. *)
Definition step_of (x0i perturbation zero_offset : R) : R :=
  let delta := x0i * perturbation in if Reqb delta 0 then zero_offset else delta.
Definition jacobian (f : list R -> result R) (x0 : list R) (perturbation zero_offset : R) (base : option R) : result (list R) :=
  base <- (match base with Some b => Ok b | None => f x0 end) ;;
  (fix go (is : list nat) (x : list R) : result (list R) :=
     match is with
     | [] => Ok []
     | i :: is' =>
         x0i <- idx x0 i ;;
         let delta := step_of x0i perturbation zero_offset in
         xi <- idx x i ;;
         let x := upd x i (xi + delta) in
         point <- f x ;;
         dy <- pdiv (point - base) delta ;;
         xi <- idx x i ;;
         let x := upd x i (xi - delta) in
         t <- go is' x ;; Ok (dy :: t)
     end) (seq 0 (List.length x0)) x0.

(** numerics/__init__.py:1229-1312 [hessian] with [scalar=True, full=False]: row [i] has the entries [0..i]. *)
Definition hessian (f : list R -> result R) (x0 : list R) (perturbation zero_offset : R) (base : option R) : result (list (list R)) :=
  base <- (match base with Some b => Ok b | None => f x0 end) ;;
  let nx := List.length x0 in
  let deltas := map (fun v => step_of v perturbation zero_offset) x0 in
  deltas_inv <- mapM (fun d => pdiv 1 d) deltas ;;
  fs <- mapM (fun i => xi <- idx x0 i ;; di <- idx deltas i ;; f (upd x0 i (xi + di))) (seq 0 nx) ;;
  mapM (fun i =>
    fi <- idx fs i ;; tmp_i <- idx x0 i ;; di <- idx deltas i ;; ii <- idx deltas_inv i ;;
    let xp := upd x0 i (tmp_i + di) in
    mapM (fun j =>
      fj <- idx fs j ;; xj <- idx xp j ;; dj <- idx deltas j ;; ij <- idx deltas_inv j ;;
      let xp := upd xp j (if Nat.eqb i j then tmp_i + 2 * dj else xj + dj) in
      fij <- f xp ;;
      Ok (((fij + base) - (fi + fj)) * ij * ii)) (seq 0 (S i))) (seq 0 nx).

(** numerics/__init__.py:1268-1305 with [full=True]: [hessian[i][j] = hessian[j][i] = dij]. *)
Definition hessian_full (f : list R -> result R) (x0 : list R) (perturbation zero_offset : R) (base : option R) : result (list (list R)) :=
  rows <- hessian f x0 perturbation zero_offset base ;;
  let nx := List.length x0 in
  Ok (map (fun i => map (fun j => nth (Nat.min i j) (nth (Nat.max i j) rows []) 0) (seq 0 nx)) (seq 0 nx)).
