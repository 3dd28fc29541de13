(** Matrices and linear systems.
    Source: /repo/fluids/numerics/arrays.py; direct solvers in /repo/fluids/numerics/__init__.py.
    A matrix is a list of rows, as in the code.  The in-place loops of the LU routines work on
    a memory [nat -> nat -> A] read from / written back to lists ([of_rows], [to_rows]). *)
From Coq Require Import List Bool QArith Reals ZArith Arith.
From Verif Require Import Base.
Import ListNotations.

Definition same_len {A} (n : nat) (row : list A) : bool := Nat.eqb (length row) n.
Definition is_nil {A} (l : list A) : bool := match l with [] => true | _ => false end.
(** [not M or not M[0]] *)
Definition no_entries {A} (M : list (list A)) : bool :=
  match M with [] => true | r :: _ => is_nil r end.

(** Python [zip( *rows )] for rows of [n] elements each. *)
Definition heads {A} (rows : list (list A)) : list A :=
  flat_map (fun r => match r with [] => [] | x :: _ => [x] end) rows.
Fixpoint zip_star {A} (n : nat) (rows : list (list A)) : list (list A) :=
  match n with
  | O => []
  | S n' => heads rows :: zip_star n' (map (@tl A) rows)
  end.

(** arrays.py:115-129 [transpose] *)
Definition transpose {A} (matrix : list (list A)) : result (list (list A)) :=
  match matrix with
  | [] => Ok []
  | [] :: _ => Ok []
  | row0 :: _ =>
      let row_length := length row0 in
      if negb (forallb (same_len row_length) matrix) then Err ValueError
      else Ok (zip_star row_length matrix)
  end.

(** arrays.py:1420-1437 [subset_matrix], for a list (or range) of non-negative indices *)
Definition subset_matrix {A} (whole : list (list A)) (subset : list nat) : result (list (list A)) :=
  mapM (fun i => whole_i <- idx whole i ;; mapM (idx whole_i) subset) subset.

(** arrays.py:1274-1282 [array_as_tridiagonals]; the three lists are built in one loop there,
    all failures are IndexError *)
Definition idx2 {A} (M : list (list A)) (i j : nat) : result A := r <- idx M i ;; idx r j.
Definition array_as_tridiagonals {A} (arr : list (list A)) : result (list A * list A * list A) :=
  row_last <- idx arr 0 ;;
  b0 <- idx row_last 0 ;;
  let N := length row_last in
  b <- mapM (fun i => idx2 arr i i) (seq 1 (N - 1)) ;;
  c <- mapM (fun i => idx2 arr (i - 1) i) (seq 1 (N - 1)) ;;
  a <- mapM (fun i => idx2 arr i (i - 1)) (seq 1 (N - 1)) ;;
  Ok (a, b0 :: b, c).

(** arrays.py:1328-1338 [tridiagonals_as_array]: row i of the result is zero except for
    a[i-1], b[i], c[i] around the diagonal (written there by successive assignments) *)
Definition tridiagonals_as_array {A} (a b c : list A) (zero : A) : result (list (list A)) :=
  let N := length b in
  if Nat.eqb N 0 then Err IndexError
  else if Nat.ltb (length a) (N - 1) || Nat.ltb (length c) (N - 1) then Err IndexError
  else Ok (map (fun i => map (fun j =>
         if Nat.eqb j i then nth i b zero
         else if Nat.eqb (S j) i then nth j a zero
         else if Nat.eqb j (S i) then nth i c zero
         else zero) (seq 0 N)) (seq 0 N)).

(** Python [sorted(l, key)]: stable ascending sort, here by insertion from the
    right: an element goes before the first of the later elements whose key is not smaller. *)
Section Sorting.
Context {A : Type} (leb : A -> A -> bool).
Fixpoint ins (x : nat * A) (l : list (nat * A)) : list (nat * A) :=
  match l with
  | [] => [x]
  | y :: t => if leb (snd x) (snd y) then x :: l else y :: ins x t
  end.
Definition sorted_by_value (l : list (nat * A)) : list (nat * A) := fold_right ins [] l.
(** arrays.py:1466 [argsort1d] *)
Definition argsort1d (arr : list A) : list nat :=
  map fst (sorted_by_value (combine (seq 0 (length arr)) arr)).
(** arrays.py:1505-1519 [sort_paired_lists] *)
Definition sort_paired_lists {B} (list1 : list A) (list2 : list B) : result (list A * list B) :=
  if negb (Nat.eqb (length list1) (length list2)) then Err ValueError
  else if Nat.eqb (length list1) 0 then Ok ([], [])
  else
    let sorted_indices := argsort1d list1 in
    s1 <- mapM (idx list1) sorted_indices ;;
    s2 <- mapM (idx list2) sorted_indices ;;
    Ok (s1, s2).
End Sorting.

Section Generic.
Context {A : Type} `{NA : Num A}.
Local Open Scope num_scope.

(** entry read used by the loops; every use below is at an index the checks have put in range *)
Definition mat_at (M : list (list A)) (i j : nat) : A := nth j (nth i M []) n0.
Definition sum_to (f : nat -> A) (n : nat) : A := fold_left (fun tot k => tot + f k) (seq 0 n) n0.

(** arrays.py:512-525 [eye] (default float entries) *)
Definition eye (N : Z) : result (list (list A)) :=
  if (N <=? 0)%Z then Err ValueError
  else let n := Z.to_nat N in
       Ok (map (fun i => upd (repeat n0 n) i n1) (seq 0 n)).

(** arrays.py:563-568 [dot_product] *)
Definition dot_product (a b : list A) : result A :=
  if negb (Nat.eqb (length a) (length b)) then Err ValueError
  else Ok (sum_to (fun i => nth i a n0 * nth i b n0) (length a)).

(** arrays.py:601-606 [matrix_vector_dot] *)
Definition matrix_vector_dot (matrix : list (list A)) (vector : list A) : result (list A) :=
  let N := length vector in
  if negb (forallb (same_len N) matrix) then Err ValueError
  else Ok (map (fun row => sum_to (fun i => nth i row n0 * nth i vector n0) N) matrix).

(** arrays.py:650-679 [matrix_multiply] *)
Definition matrix_multiply (MA MB : list (list A)) : result (list (list A)) :=
  if no_entries MA || no_entries MB then Err ValueError
  else
    let m := length MA in
    let p := length (nth 0 MA []) in
    let n := length (nth 0 MB []) in
    if negb (forallb (same_len p) MA) then Err ValueError
    else if negb (Nat.eqb (length MB) p) then Err ValueError
    else if negb (forallb (same_len n) MB) then Err ValueError
    else Ok (map (fun i => map (fun j => sum_to (fun k => mat_at MA i k * mat_at MB k j) p)
                               (seq 0 n)) (seq 0 m)).

(** arrays.py:713-726 [sum_matrix_rows] *)
Definition sum_matrix_rows (matrix : list (list A)) : result (list A) :=
  if no_entries matrix then Err ValueError
  else if negb (forallb (same_len (length (nth 0 matrix []))) matrix) then Err ValueError
  else Ok (map (fun row => fold_left nadd row n0) matrix).

(** arrays.py:760-771 [sum_matrix_cols] *)
Definition sum_matrix_cols (matrix : list (list A)) : result (list A) :=
  if no_entries matrix then Err ValueError
  else let n := length (nth 0 matrix []) in
  if negb (forallb (same_len n) matrix) then Err ValueError
  else Ok (fold_left (fun res row => map (fun '(r, v) => r + v) (combine res row))
                     matrix (repeat n0 n)).

Fixpoint zip_rows (op : A -> A -> A) (MA MB : list (list A)) : result (list (list A)) :=
  match MA, MB with
  | ra :: ta, rb :: tb =>
      if negb (Nat.eqb (length ra) (length rb)) then Err ValueError
      else rest <- zip_rows op ta tb ;;
           Ok (map (fun '(a, b) => op a b) (combine ra rb) :: rest)
  | _, _ => Ok []
  end.
Definition elementwise (op : A -> A -> A) (MA MB : list (list A)) : result (list (list A)) :=
  match MA, MB with
  | ra :: _, rb :: _ =>
      if negb (Nat.eqb (length MA) (length MB)) || negb (Nat.eqb (length ra) (length rb))
         || Nat.eqb (length ra) 0
      then Err ValueError else zip_rows op MA MB
  | _, _ => Err ValueError
  end.
(** arrays.py:804-812 [scalar_add_matrices] *)
Definition scalar_add_matrices := elementwise nadd.
(** arrays.py:846-854 [scalar_subtract_matrices] *)
Definition scalar_subtract_matrices := elementwise nsub.
(** arrays.py:887-893 [scalar_multiply_matrix] *)
Definition scalar_multiply_matrix (scalar : A) (matrix : list (list A)) : result (list (list A)) :=
  if no_entries matrix then Err ValueError
  else Ok (map (map (fun val => scalar * val)) matrix).
(** arrays.py:928-936 [scalar_divide_matrix] *)
Definition scalar_divide_matrix (scalar : A) (matrix : list (list A)) : result (list (list A)) :=
  if scalar =? n0 then Err ZeroDivisionError
  else if no_entries matrix then Err ValueError
  else mapM (mapM (fun val => pydiv val scalar)) matrix.

(** arrays.py:153-273 [det].  For a 1x1 matrix the code returns the row itself ([DetRow]).
    Sizes above 5 call numpy: [np_det].  A row of the wrong length fails the tuple
    unpacking (ValueError). *)
Inductive det_out : Type := DetNum (d : A) | DetRow (row : list A).
Definition det (np_det : list (list A) -> result A) (matrix : list (list A)) : result det_out :=
  match matrix with
  | [row] => Ok (DetRow row)
  | [r1; r2] =>
    match r1, r2 with
    | [a; b], [c; d] => Ok (DetNum (a * d - c * b))
    | _, _ => Err ValueError end
  | [r1; r2; r3] =>
    match r1, r2, r3 with
    | [a; b; c], [d; e; f], [g; h; i] =>
      Ok (DetNum (a * (e * i - h * f) - d * (b * i - h * c) + g * (b * f - e * c)))
    | _, _, _ => Err ValueError end
  | [r1; r2; r3; r4] =>
    match r1, r2, r3, r4 with
    | [a; b; c; d], [e; f; g; h], [i; j; k; l], [m; n; o; p] =>
      Ok (DetNum (a*f*k*p - a*f*l*o - a*g*j*p + a*g*l*n + a*h*j*o - a*h*k*n
                - b*e*k*p + b*e*l*o + b*g*i*p - b*g*l*m - b*h*i*o + b*h*k*m
                + c*e*j*p - c*e*l*n - c*f*i*p + c*f*l*m + c*h*i*n - c*h*j*m
                - d*e*j*o + d*e*k*n + d*f*i*o - d*f*k*m - d*g*i*n + d*g*j*m))
    | _, _, _, _ => Err ValueError end
  | [r1; r2; r3; r4; r5] =>
    match r1, r2, r3, r4, r5 with
    | [a; b; c; d; e], [f; g; h; i; j], [k; l; m; n; o], [p; q; r; s; t], [u; v; w; x; y] =>
    let x0 := s * y in
    let x1 := a * g * m in
    let x2 := t * w in
    let x3 := a * g * n in
    let x4 := r * x in
    let x5 := a * g * o in
    let x6 := t * x in
    let x7 := a * h * l in
    let x8 := q * y in
    let x9 := a * h * n in
    let x10 := s * v in
    let x11 := a * h * o in
    let x12 := r * y in
    let x13 := a * i * l in
    let x14 := t * v in
    let x15 := a * i * m in
    let x16 := q * w in
    let x17 := a * i * o in
    let x18 := s * w in
    let x19 := a * j * l in
    let x20 := q * x in
    let x21 := a * j * m in
    let x22 := r * v in
    let x23 := a * j * n in
    let x24 := b * f * m in
    let x25 := b * f * n in
    let x26 := b * f * o in
    let x27 := b * h * k in
    let x28 := t * u in
    let x29 := b * h * n in
    let x30 := p * x in
    let x31 := b * h * o in
    let x32 := b * i * k in
    let x33 := p * y in
    let x34 := b * i * m in
    let x35 := r * u in
    let x36 := b * i * o in
    let x37 := b * j * k in
    let x38 := s * u in
    let x39 := b * j * m in
    let x40 := p * w in
    let x41 := b * j * n in
    let x42 := c * f * l in
    let x43 := c * f * n in
    let x44 := c * f * o in
    let x45 := c * g * k in
    let x46 := c * g * n in
    let x47 := c * g * o in
    let x48 := c * i * k in
    let x49 := c * i * l in
    let x50 := p * v in
    let x51 := c * i * o in
    let x52 := c * j * k in
    let x53 := c * j * l in
    let x54 := q * u in
    let x55 := c * j * n in
    let x56 := d * f * l in
    let x57 := d * f * m in
    let x58 := d * f * o in
    let x59 := d * g * k in
    let x60 := d * g * m in
    let x61 := d * g * o in
    let x62 := d * h * k in
    let x63 := d * h * l in
    let x64 := d * h * o in
    let x65 := d * j * k in
    let x66 := d * j * l in
    let x67 := d * j * m in
    let x68 := e * f * l in
    let x69 := e * f * m in
    let x70 := e * f * n in
    let x71 := e * g * k in
    let x72 := e * g * m in
    let x73 := e * g * n in
    let x74 := e * h * k in
    let x75 := e * h * l in
    let x76 := e * h * n in
    let x77 := e * i * k in
    let x78 := e * i * l in
    let x79 := e * i * m in
    Ok (DetNum (x0 * x1 - x0 * x24 + x0 * x27 + x0 * x42 - x0 * x45 - x0 * x7 - x1 * x6 + x10 * x11 - x10 * x21 - x10 * x44 + x10 * x52 + x10 * x69 - x10 * x74 - x11 * x20 + x12 * x13 + x12 * x25 - x12 * x3 - x12 * x32 - x12 * x56 + x12 * x59 - x13 * x2 + x14 * x15 + x14 * x43 - x14 * x48 - x14 * x57 + x14 * x62 - x14 * x9 - x15 * x8 + x16 * x17 - x16 * x23 - x16 * x58 + x16 * x65 + x16 * x70 - x16 * x77 - x17 * x22 + x18 * x19 + x18 * x26 - x18 * x37 - x18 * x5 - x18 * x68 + x18 * x71 - x19 * x4 - x2 * x25 + x2 * x3 + x2 * x32 + x2 * x56 - x2 * x59 + x20 * x21 + x20 * x44 - x20 * x52 - x20 * x69 + x20 * x74 + x22 * x23 + x22 * x58 - x22 * x65 - x22 * x70 + x22 * x77 + x24 * x6 - x26 * x4 - x27 * x6 + x28 * x29 - x28 * x34 - x28 * x46 + x28 * x49 + x28 * x60 - x28 * x63 - x29 * x33 + x30 * x31 - x30 * x39 - x30 * x47 + x30 * x53 + x30 * x72 - x30 * x75 - x31 * x38 + x33 * x34 + x33 * x46 - x33 * x49 - x33 * x60 + x33 * x63 + x35 * x36 - x35 * x41 - x35 * x61 + x35 * x66 + x35 * x73 - x35 * x78 - x36 * x40 + x37 * x4 + x38 * x39 + x38 * x47 - x38 * x53 - x38 * x72 + x38 * x75 + x4 * x5 + x4 * x68 - x4 * x71 + x40 * x41 + x40 * x61 - x40 * x66 - x40 * x73 + x40 * x78 - x42 * x6 - x43 * x8 + x45 * x6 + x48 * x8 + x50 * x51 - x50 * x55 - x50 * x64 + x50 * x67 + x50 * x76 - x50 * x79 - x51 * x54 + x54 * x55 + x54 * x64 - x54 * x67 - x54 * x76 + x54 * x79 + x57 * x8 + x6 * x7 - x62 * x8 + x8 * x9))
    | _, _, _, _, _ => Err ValueError end
  | _ => d <- np_det matrix ;; Ok (DetNum d)
  end.

(** ** LU routines: memory of the loops *)
Definition mem := nat -> nat -> A.
Definition mset (M : mem) (i j : nat) (v : A) : mem :=
  fun i' j' => if Nat.eqb i' i && Nat.eqb j' j then v else M i' j'.
Definition vec := nat -> A.
Definition vset {B} (b : nat -> B) (i : nat) (v : B) : nat -> B :=
  fun i' => if Nat.eqb i' i then v else b i'.
Definition of_rows (M : list (list A)) : mem := mat_at M.
Definition to_rows (m n : nat) (M : mem) : list (list A) :=
  map (fun i => map (M i) (seq 0 n)) (seq 0 m).
Definition of_list (b : list A) : vec := fun i => nth i b n0.
Definition to_list (n : nat) (b : vec) : list A := map b (seq 0 n).

Fixpoint foldM {S T} (f : S -> T -> result S) (l : list T) (s : S) : result S :=
  match l with [] => Ok s | x :: t => s' <- f s x ;; foldM f t s' end.

(** [tot = t0; for k in range(n): tot -= A[i][k]*v(k)] *)
Definition sub_dot (f : nat -> A) (ks : list nat) (t0 : A) : A :=
  fold_left (fun tot k => tot - f k) ks t0.

(** arrays.py:963-967, rows above the diagonal of column j *)
Definition lu_upper (j : nat) (M : mem) : mem :=
  fold_left (fun M i => mset M i j (sub_dot (fun k => M i k * M k j) (seq 0 i) (M i j)))
            (seq 0 j) M.
(** arrays.py:969-979, rows on and below the diagonal, with the pivot search *)
Definition lu_lower (N j : nat) (M : mem) : mem * A * nat :=
  fold_left (fun '(M, apiv, ipiv) i =>
               let tot := sub_dot (fun k => M i k * M k j) (seq 0 j) (M i j) in
               let M := mset M i j tot in
               if apiv <? nabs (M i j) then (M, nabs (M i j), i) else (M, apiv, ipiv))
            (seq j (N - j)) (M, n0, j).
(** arrays.py:986-989, exchange of two rows *)
Definition swap_rows (N ipiv j : nat) (M : mem) : mem :=
  fold_left (fun M k => let t := M ipiv k in mset (mset M ipiv k (M j k)) j k t) (seq 0 N) M.
(** arrays.py:992-993 *)
Definition lu_scale (N j : nat) (inv : A) (M : mem) : mem :=
  fold_left (fun M i => mset M i j (M i j * inv)) (seq (j + 1) (N - (j + 1))) M.
Definition lu_column (N : nat) (st : mem * (nat -> nat)) (j : nat) : result (mem * (nat -> nat)) :=
  let '(M, piv) := st in
  let M := lu_upper j M in
  let '(M, apiv, ipiv) := lu_lower N j M in
  if apiv =? n0 then Err ValueError
  else
    let piv := vset piv j ipiv in
    let M := if Nat.eqb ipiv j then M else swap_rows N ipiv j M in
    Ajjinv <- pydiv n1 (M j j) ;;
    Ok (lu_scale N j Ajjinv M, piv).
(** arrays.py:959-993 [inplace_LU]; ipivot starts as zeros in every caller *)
Definition inplace_LU (N : nat) (M : mem) : result (mem * (nat -> nat)) :=
  foldM (lu_column N) (seq 0 N) (M, fun _ => O).

(** arrays.py:1000-1005 *)
Definition lu_forward (M : mem) (piv : nat -> nat) (N : nat) (b : vec) : vec :=
  fold_left (fun b i =>
               let tot := b (piv i) in
               let b := vset b (piv i) (b i) in
               vset b i (sub_dot (fun j => M i j * b j) (seq 0 i) tot)) (seq 0 N) b.
(** arrays.py:1007-1011 *)
Definition lu_backward (M : mem) (N : nat) (b : vec) : result vec :=
  foldM (fun b i =>
           q <- pydiv (sub_dot (fun j => M i j * b j) (seq (i + 1) (N - (i + 1))) (b i)) (M i i) ;;
           Ok (vset b i q)) (rev (seq 0 N)) b.
(** arrays.py:996-1012 [solve_from_lu] *)
Definition solve_from_lu (M : mem) (piv : nat -> nat) (N : nat) (b : vec) : result vec :=
  lu_backward M N (lu_forward M piv N b).

(** A row shorter than the number of rows makes the loops read past its end (IndexError; the
    model reports it before a possible "Singular matrix" error). *)
Definition short_row (N : nat) (M : list (list A)) : bool := existsb (fun r => Nat.ltb (length r) N) M.

(** arrays.py:1015-1020 [solve_LU_decomposition]; N = len(b), and len(A) must be N
    (a longer b or A indexes out of range) *)
Definition solve_LU_decomposition (MA : list (list A)) (b : list A) : result (list A) :=
  let N := length b in
  if negb (Nat.eqb (length MA) N) || short_row N MA then Err IndexError
  else ' (M, piv) <- inplace_LU N (of_rows MA) ;;
       x <- solve_from_lu M piv N (of_list b) ;;
       Ok (to_list N x).

(** arrays.py:1023-1038 [inv_lu] *)
Definition inv_lu (a : list (list A)) : result (list (list A)) :=
  let N := length a in
  if short_row N a then Err IndexError
  else ' (M, piv) <- inplace_LU N (of_rows a) ;;
       ainv <- foldM (fun ainv j =>
                        x <- solve_from_lu M piv N (fun i => if Nat.eqb i j then n1 else n0) ;;
                        Ok (fold_left (fun W i => mset W i j (x i)) (seq 0 N) ainv))
                     (seq 0 N) (fun _ _ => n0) ;;
       Ok (to_rows N N ainv).

(** arrays.py:1077-1080, rows of the identity exchanged pivot by pivot *)
Definition swap_entries {B} (l : nat -> B) (i p : nat) : nat -> B := vset (vset l i (l p)) p (l i).
Definition lu_P (N : nat) (piv : nat -> nat) : mem :=
  fold_left (fun P i => if Nat.eqb (piv i) i then P else swap_entries P i (piv i)) (seq 0 N)
            (fun i j => if Nat.eqb j i then n1 else n0).
(** arrays.py:1055-1082 [lu], returned in the order P, L, U *)
Definition lu (a : list (list A)) : result (list (list A) * list (list A) * list (list A)) :=
  let N := length a in
  if short_row N a then Err IndexError
  else ' (M, piv) <- inplace_LU N (of_rows a) ;;
       let L := fun i j => if Nat.ltb j i then M i j else if Nat.eqb i j then n1 else n0 in
       let U := fun i j => if Nat.ltb j i then n0 else M i j in
       Ok (to_rows N N (lu_P N piv), to_rows N N L, to_rows N N U).

(** arrays.py:376-420 [inv] *)
Definition inv_tol : A := nQ (1 # 10000000).
Definition inv (matrix : list (list A)) : result (list (list A)) :=
  match matrix with
  | [r1] => match r1 with
            | [] => Err IndexError
            | m :: _ => x <- pydiv n1 m ;; Ok [[x]]
            end
  | [r1; r2] =>
    match r1, r2 with
    | [m_00; m_01], [m_10; m_11] =>
      let x0 := m_00 * m_11 - m_01 * m_10 in
      if nabs x0 <=? inv_tol then inv_lu matrix
      else x1 <- pydiv n1 x0 ;;
           Ok [[m_11 * x1; - m_01 * x1]; [- m_10 * x1; m_00 * x1]]
    | _, _ => Err ValueError end
  | [r1; r2; r3] =>
    match r1, r2, r3 with
    | [m_00; m_01; m_02], [m_10; m_11; m_12], [m_20; m_21; m_22] =>
      let x0 := m_11 * m_22 in
      let x1 := m_01 * m_12 in
      let x2 := m_02 * m_21 in
      let x3 := m_12 * m_21 in
      let x4 := m_01 * m_22 in
      let x5 := m_02 * m_11 in
      let x6 := m_00 * x0 - m_00 * x3 + m_10 * x2 - m_10 * x4 + m_20 * x1 - m_20 * x5 in
      if nabs x6 <=? inv_tol then inv_lu matrix
      else x7 <- pydiv n1 x6 ;;
        Ok [[x7 * (x0 - x3); - x7 * (- x2 + x4); x7 * (x1 - x5)];
            [- x7 * (m_10 * m_22 - m_12 * m_20); x7 * (m_00 * m_22 - m_02 * m_20); - x7 * (m_00 * m_12 - m_02 * m_10)];
            [x7 * (m_10 * m_21 - m_11 * m_20); - x7 * (m_00 * m_21 - m_01 * m_20); x7 * (m_00 * m_11 - m_01 * m_10)]]
    | _, _, _ => Err ValueError end
  | _ => inv_lu matrix
  end.

(** arrays.py:1183-1221 [solve] *)
Definition solve (matrix : list (list A)) (b : list A) : result (list A) :=
  match matrix with
  | [r1; r2] =>
    match r1, r2, b with
    | [a_00; a_01], [a_10; a_11], [b_0; b_1] =>
      let det := a_00 * a_11 - a_01 * a_10 in
      if nabs det <=? inv_tol then solve_LU_decomposition matrix b
      else inv_det <- pydiv n1 det ;;
        let x_0 := (a_11 * b_0 - a_01 * b_1) * inv_det in
        let x_1 := (- a_10 * b_0 + a_00 * b_1) * inv_det in
        Ok [x_0; x_1]
    | _, _, _ => Err ValueError end
  | [r1; r2; r3] =>
    match r1, r2, r3, b with
    | [a_00; a_01; a_02], [a_10; a_11; a_12], [a_20; a_21; a_22], [b_0; b_1; b_2] =>
      let det := a_00 * a_11 * a_22 - a_00 * a_12 * a_21 - a_01 * a_10 * a_22
                 + a_01 * a_12 * a_20 + a_02 * a_10 * a_21 - a_02 * a_11 * a_20 in
      if nabs det <=? inv_tol then solve_LU_decomposition matrix b
      else inv_det <- pydiv n1 det ;;
        let x_0 := (b_0 * (a_11 * a_22 - a_12 * a_21) + b_1 * (- a_01 * a_22 + a_02 * a_21)
                    + b_2 * (a_01 * a_12 - a_02 * a_11)) * inv_det in
        let x_1 := (b_0 * (- a_10 * a_22 + a_12 * a_20) + b_1 * (a_00 * a_22 - a_02 * a_20)
                    + b_2 * (- a_00 * a_12 + a_02 * a_10)) * inv_det in
        let x_2 := (b_0 * (a_10 * a_21 - a_11 * a_20) + b_1 * (- a_00 * a_21 + a_01 * a_20)
                    + b_2 * (a_00 * a_11 - a_01 * a_10)) * inv_det in
        Ok [x_0; x_1; x_2]
    | _, _, _, _ => Err ValueError end
  | _ => solve_LU_decomposition matrix b
  end.

(** arrays.py:1405-1419 [solve_tridiagonal], for bands of matching lengths
    (other lengths are outside the model: IndexError stands for them) *)
Definition tri_forward (a c : vec) (N : nat) (b d : vec) : result (vec * vec) :=
  foldM (fun '(b, d) i =>
           m <- pydiv (a i) (b i) ;;
           Ok (vset b (S i) (b (S i) - m * c i), vset d (S i) (d (S i) - m * d i)))
        (seq 0 (N - 1)) (b, d).
Definition tri_backward (c : vec) (N : nat) (b d : vec) : result vec :=
  last <- pydiv (d (N - 1)%nat) (b (N - 1)%nat) ;;
  foldM (fun b i => q <- pydiv (d i - c i * b (S i)) (b i) ;; Ok (vset b i q))
        (rev (seq 0 (N - 1))) (vset b (N - 1) last).
Definition solve_tridiagonal (a b c d : list A) : result (list A) :=
  let N := length d in
  if Nat.eqb N 0 then Err IndexError
  else if negb (Nat.eqb (length b) N && Nat.eqb (S (length a)) N && Nat.eqb (S (length c)) N)
  then Err IndexError
  else ' (b', d') <- tri_forward (of_list a) (of_list c) N (of_list b) (of_list d) ;;
       x <- tri_backward (of_list c) N b' d' ;;
       Ok (to_list N x).

(** numerics/__init__.py:3456-3468 [solve_2_direct]; rows and vector of the right length
    (otherwise IndexError / ValueError from the unpacking) *)
Definition solve_2_direct (a b c d e f : A) : result (list A) :=
  x0 <- pydiv n1 (a * d - b * c) ;;
  Ok [x0 * (- b * f + d * e); x0 * (a * f - c * e)].

(** numerics/__init__.py:3470-3494 [solve_3_direct] *)
Definition solve_3_direct (a b c d e f g h i j k l : A) : result (list A) :=
  let x0 := a * e in
  let x1 := - b * d + x0 in
  let x2 := a * i - c * g in
  let x3 := a * f - c * d in
  let x4 := a * h - b * g in
  let x5 := x1 * x2 - x3 * x4 in
  x6 <- pydiv n1 x5 ;;
  let x7 := b * x3 - c * x1 in
  x8 <- pydiv n1 x1 ;;
  let x9 := d * x4 - g * x1 in
  let x10 := j * x8 in
  let x11 := a * k in
  let x12 := a * l in
  q <- pydiv (x10 * (x0 * x5 + x7 * x9)) a ;;
  Ok [x6 * (- k * x8 * (b * x5 + x4 * x7) + l * x7 + q);
      x6 * (- x10 * (d * x5 + x3 * x9) + x11 * x2 - x12 * x3);
      x6 * (j * x9 + x1 * x12 - x11 * x4)].

(** numerics/__init__.py:3496-3545 [solve_4_direct] *)
Definition solve_4_direct (a b c d e f g h i j k l m n o p q r s t : A) : result (list A) :=
  let x0 := a*f in
  let x1 := - b*e + x0 in
  let x2 := x1*(a*k - c*i) in
  let x3 := a*g - c*e in
  let x4 := a*j - b*i in
  let x5 := x2 - x3*x4 in
  let x6 := a*h - d*e in
  let x7 := a*n - b*m in
  let x8 := x1*(a*p - d*m) - x6*x7 in
  let x9 := x1*(a*l - d*i) - x4*x6 in
  let x10 := x1*(a*o - c*m) - x3*x7 in
  let x11 := - x10*x9 + x5*x8 in
  x12 <- pydiv n1 x11 ;;
  let x13 := - b*x3 + c*x1 in
  let x14 := x13*x9 in
  let x15 := x5*(- b*x6 + d*x1) in
  let x16 := - x14 + x15 in
  x17 <- pydiv n1 x5 ;;
  let x18 := s*x17 in
  let x19 := x10*x4 - x5*x7 in
  x20 <- pydiv n1 x1 ;;
  let x21 := x17*x20 in
  let x22 := e*x4 - i*x1 in
  let x23 := x5*(e*x7 - m*x1) in
  let x24 := x10*x22 in
  let x25 := x23 - x24 in
  let x26 := q*x17 in
  let x27 := x20*x26 in
  let x28 := x3*x9 in
  let x29 := x5*x6 in
  let x30 := a*t in
  let x31 := - x28 + x29 in
  let x32 := a*r in
  let x33 := a*s*x1 in
  let x34 := x1*x30 in
  let x35 := - x23 + x24 in
  z <- pydiv (x27*(- x11*(x0*x5 - x13*x22) + x16*x25)) a ;;
  Ok [x12*(- r*x21*(- x11*(- b*x5 + x13*x4) + x16*x19) + t*(x14 - x15)
             - x18*(- x10*x16 + x11*x13) - z);
      x12*(- a*x18*(- x10*x31 + x11*x3) - x21*x32*(- x11*x2 + x19*x31)
             - x27*(x11*(e*x5 + x22*x3) + x25*x31) + x30*(x28 - x29));
      x12*(- x17*x32*(x11*x4 + x19*x9) + x26*(x11*x22 + x35*x9) + x33*x8 - x34*x9);
      x12*(- q*x35 - x10*x33 + x19*x32 + x34*x5)].

End Generic.
Arguments det_out : clear implicits.
