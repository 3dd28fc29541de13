(** Common vocabulary of all models: Python exceptions as values, numbers. *)
From Coq Require Import List Bool QArith Qabs Reals ZArith Lra Lia.
Import ListNotations.

(** One constructor per exception class raised by the code under study.
    [ComplexResult] is not an exception in Python: it stands for "the float power
    of a negative base by a non-integer exponent", which leaves the reals
    (Python returns a [complex]); the models stop there.  [Diverges] marks a while loop that
    outlived the step bound given to its model; theorems show where it is unreachable. *)
Inductive exn : Type :=
| ValueError | ZeroDivisionError | TypeError | IndexError | KeyError | NameError
| UnboundLocalError | AttributeError | OverflowError | NotImplementedError | RuntimeError
| AssertionError
| UnconvergedError | SamePointError | NoSolutionError | NotBoundedError
| DiscontinuityError | OscillationError | ComplexResult
| Diverges.

Inductive result (A : Type) : Type :=
| Ok (a : A)
| Err (e : exn).
Arguments Ok {A} a.
Arguments Err {A} e.

Definition bind {A B} (m : result A) (k : A -> result B) : result B :=
  match m with Ok a => k a | Err e => Err e end.
Notation "x <- e ;; k" := (bind e (fun x => k)) (at level 61, e at next level, right associativity).
Notation "' p <- e ;; k" := (bind e (fun x => match x with p => k end))
  (at level 61, p pattern, e at next level, right associativity).

Definition rmap {A B} (f : A -> B) (m : result A) : result B :=
  match m with Ok a => Ok (f a) | Err e => Err e end.

Fixpoint mapM {A B} (f : A -> result B) (l : list A) : result (list B) :=
  match l with
  | [] => Ok []
  | x :: t => y <- f x ;; ys <- mapM f t ;; Ok (y :: ys)
  end.

(** Python list indexing with a natural index. *)
Definition idx {A} (l : list A) (i : nat) : result A :=
  match nth_error l i with Some a => Ok a | None => Err IndexError end.

(** In-place list assignment [l[i] = v] (unchanged when out of range; models use it
    only where the index is in range, or check first). *)
Fixpoint upd {A} (l : list A) (i : nat) (v : A) : list A :=
  match l, i with
  | [], _ => []
  | _ :: t, O => v :: t
  | h :: t, S j => h :: upd t j v
  end.

(** Numbers: the operations the generic models use. *)
Class Num (A : Type) : Type := {
  nadd : A -> A -> A;
  nsub : A -> A -> A;
  nmul : A -> A -> A;
  ndiv : A -> A -> A;   (* only used behind the zero test of [pydiv] *)
  nopp : A -> A;
  nabs : A -> A;
  nlt : A -> A -> bool;
  nle : A -> A -> bool;
  neq : A -> A -> bool;
  nQ : Q -> A           (* literals *)
}.

Declare Scope num_scope.
Delimit Scope num_scope with num.
Infix "+" := nadd : num_scope.
Infix "-" := nsub : num_scope.
Infix "*" := nmul : num_scope.
Notation "- x" := (nopp x) : num_scope.
Infix "<?" := nlt (at level 70) : num_scope.
Infix "<=?" := nle (at level 70) : num_scope.
Infix "=?" := neq (at level 70) : num_scope.

Definition n0 {A} `{Num A} : A := nQ 0%Q.
Definition n1 {A} `{Num A} : A := nQ 1%Q.
(** Python int to float. *)
Definition nnat {A} `{Num A} (n : nat) : A := nQ (inject_Z (Z.of_nat n)).

#[global] Arguments n0 : simpl never.
#[global] Arguments n1 : simpl never.
#[global] Arguments nnat : simpl never.
#[global] Arguments Q2R : simpl never.

(** Python [x / y]. *)
Definition pydiv {A} `{Num A} (x y : A) : result A :=
  if neq y n0 then Err ZeroDivisionError else Ok (ndiv x y).

(** ** Instance: rationals (used to run the models). *)
Definition Qltb (x y : Q) : bool := match Qcompare x y with Lt => true | _ => false end.
#[export] Instance NumQ : Num Q := {|
  nadd x y := Qred (Qplus x y); nsub x y := Qred (Qminus x y);
  nmul x y := Qred (Qmult x y); ndiv x y := Qred (Qdiv x y);
  nopp x := Qopp x; nabs x := Qabs x;
  nlt := Qltb; nle := Qle_bool; neq := Qeq_bool; nQ x := x |}.

(** ** Instance: real numbers. *)
Definition Rltb (x y : R) : bool := if Rlt_dec x y then true else false.
Definition Rleb (x y : R) : bool := if Rle_dec x y then true else false.
Definition Reqb (x y : R) : bool := if Req_EM_T x y then true else false.

#[export] Instance NumR : Num R := {|
  nadd := Rplus; nsub := Rminus; nmul := Rmult; ndiv := Rdiv;
  nopp := Ropp; nabs := Rabs;
  nlt := Rltb; nle := Rleb; neq := Reqb; nQ := Q2R |}.

Lemma Rltb_true x y : Rltb x y = true <-> (x < y)%R.
Proof. unfold Rltb; destruct (Rlt_dec x y); split; intros; auto; discriminate. Qed.
Lemma Rltb_false x y : Rltb x y = false <-> (y <= x)%R.
Proof. unfold Rltb; destruct (Rlt_dec x y); split; intros; auto; try discriminate; lra. Qed.
Lemma Rleb_true x y : Rleb x y = true <-> (x <= y)%R.
Proof. unfold Rleb; destruct (Rle_dec x y); split; intros; auto; discriminate. Qed.
Lemma Rleb_false x y : Rleb x y = false <-> (y < x)%R.
Proof. unfold Rleb; destruct (Rle_dec x y); split; intros; auto; try discriminate; lra. Qed.
Lemma Reqb_true x y : Reqb x y = true <-> x = y.
Proof. unfold Reqb; destruct (Req_EM_T x y); split; intros; auto; discriminate. Qed.
Lemma Reqb_false x y : Reqb x y = false <-> x <> y.
Proof. unfold Reqb; destruct (Req_EM_T x y); split; intros; auto; try discriminate; contradiction. Qed.

(** Destruct every real comparison in the goal, keeping it as a real (in)equality. *)
Ltac rcase :=
  match goal with
  | |- context [Rltb ?x ?y] =>
      let H := fresh "Hb" in destruct (Rltb x y) eqn:H;
      [apply Rltb_true in H | apply Rltb_false in H]
  | |- context [Rleb ?x ?y] =>
      let H := fresh "Hb" in destruct (Rleb x y) eqn:H;
      [apply Rleb_true in H | apply Rleb_false in H]
  | |- context [Reqb ?x ?y] =>
      let H := fresh "Hb" in destruct (Reqb x y) eqn:H;
      [apply Reqb_true in H | apply Reqb_false in H]
  end.
Ltac rcase_in H0 :=
  match type of H0 with
  | context [Rltb ?x ?y] =>
      let H := fresh "Hb" in destruct (Rltb x y) eqn:H;
      [apply Rltb_true in H | apply Rltb_false in H]
  | context [Rleb ?x ?y] =>
      let H := fresh "Hb" in destruct (Rleb x y) eqn:H;
      [apply Rleb_true in H | apply Rleb_false in H]
  | context [Reqb ?x ?y] =>
      let H := fresh "Hb" in destruct (Reqb x y) eqn:H;
      [apply Reqb_true in H | apply Reqb_false in H]
  end.

Lemma Q2R_0 : Q2R 0%Q = 0%R.
Proof. unfold Q2R; simpl; lra. Qed.
Lemma Q2R_1 : Q2R 1%Q = 1%R.
Proof. unfold Q2R; simpl; lra. Qed.
Lemma Q2R_Z z : Q2R (inject_Z z) = IZR z.
Proof. unfold Q2R; simpl; lra. Qed.
Lemma n0R : @n0 R _ = 0%R. Proof. exact Q2R_0. Qed.
Lemma n1R : @n1 R _ = 1%R. Proof. exact Q2R_1. Qed.
Lemma nnatR n : @nnat R _ n = INR n.
Proof. unfold nnat; simpl. rewrite Q2R_Z. symmetry; apply INR_IZR_INZ. Qed.

(** Turn generic operations at instance [NumR] into the real ones. *)
Ltac numR := cbn [nadd nsub nmul ndiv nopp nabs nlt nle neq nQ NumR] in *;
             rewrite ?n0R, ?n1R, ?nnatR in *.

(** ** Python float operations on [R] that can fail. *)
Definition pdiv (x y : R) : result R := if Reqb y 0 then Err ZeroDivisionError else Ok (x / y)%R.
Definition psqrt (x : R) : result R := if Rltb x 0 then Err ValueError else Ok (sqrt x).
Definition plog (x : R) : result R := if Rleb x 0 then Err ValueError else Ok (ln x).
(** Float power [x ** y] with a non-integer exponent [y] (for integer exponents the models use [pow]). *)
Definition ppow (x y : R) : result R :=
  if Rltb 0 x then Ok (Rpower x y)
  else if Reqb x 0 then
    (if Rltb y 0 then Err ZeroDivisionError else if Reqb y 0 then Ok 1%R else Ok 0%R)
  else Err ComplexResult.

Lemma pdiv_ok x y : y <> 0%R -> pdiv x y = Ok (x / y)%R.
Proof. intros H; unfold pdiv. destruct (Reqb y 0) eqn:E; auto. apply Reqb_true in E; contradiction. Qed.
Lemma pdiv_0 x : pdiv x 0 = Err ZeroDivisionError.
Proof. unfold pdiv. destruct (Reqb 0 0) eqn:E; auto. apply Reqb_false in E; contradiction. Qed.
Lemma pydivR_ok (x y : R) : y <> 0%R -> pydiv x y = Ok (x / y)%R.
Proof. intros H; unfold pydiv; numR. destruct (Reqb y 0) eqn:E; auto. apply Reqb_true in E; contradiction. Qed.
Lemma pydivR_0 (x : R) : pydiv x 0%R = Err ZeroDivisionError.
Proof. unfold pydiv; numR. destruct (Reqb 0 0) eqn:E; auto. apply Reqb_false in E; contradiction. Qed.
Lemma psqrt_ok x : (0 <= x)%R -> psqrt x = Ok (sqrt x).
Proof. intros H; unfold psqrt. destruct (Rltb x 0) eqn:E; auto. apply Rltb_true in E; lra. Qed.
Lemma plog_ok x : (0 < x)%R -> plog x = Ok (ln x).
Proof. intros H; unfold plog. destruct (Rleb x 0) eqn:E; auto. apply Rleb_true in E; lra. Qed.
Lemma ppow_ok x y : (0 < x)%R -> ppow x y = Ok (Rpower x y).
Proof. intros H; unfold ppow. destruct (Rltb 0 x) eqn:E; auto. apply Rltb_false in E; lra. Qed.

Lemma bind_Ok_inv {A B} (m : result A) (k : A -> result B) b :
  bind m k = Ok b -> exists a, m = Ok a /\ k a = Ok b.
Proof. destruct m; simpl; intros H; [eauto | discriminate]. Qed.

Ltac inv_bind H :=
  let a := fresh "v" in let H1 := fresh "E" in
  apply bind_Ok_inv in H; destruct H as [a [H1 H]].

(** ** Lists *)
Lemma upd_length {A} (l : list A) i v : length (upd l i v) = length l.
Proof. revert i; induction l; destruct i; simpl; auto. Qed.
Lemma upd_nth_eq {A} (l : list A) i v d : (i < length l)%nat -> nth i (upd l i v) d = v.
Proof. revert i; induction l; destruct i; simpl; intros; try lia; auto. apply IHl; lia. Qed.
Lemma upd_nth_neq {A} (l : list A) i j v d : i <> j -> nth j (upd l i v) d = nth j l d.
Proof. revert i j; induction l; destruct i, j; simpl; intros; try lia; auto. Qed.

Ltac splits := repeat match goal with |- _ /\ _ => split end.
Ltac pair_eq := repeat match goal with |- (_, _) = (_, _) => apply f_equal2 end; try reflexivity.
