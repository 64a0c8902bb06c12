(** Common vocabulary: Python numbers as exact rationals, Python [min], [max],
    [round], [range], slices, and exceptions as values.

    Simplification (global): a Python/numpy float is modelled by an exact
    rational.  Rounding errors, infinities and NaN are outside the model. *)
From Coq Require Export List Bool ZArith QArith Qround Qminmax Lia Lqa.
Export ListNotations.
Open Scope Q_scope.

(** ** Exceptions as values *)
Inductive exn : Type :=
| ValueError | KeyError | TypeError | IndexError | ZeroDivisionError
| SystemError | SystemExit | FileExistsError | FileNotFoundError
| UnboundLocalError | AttributeError | NotADirectoryError | IsADirectoryError
| RuntimeError.

Inductive res (A : Type) : Type :=
| Ok (a : A)
| Err (e : exn).
Arguments Ok {A} a.
Arguments Err {A} e.

Definition bind {A B} (x : res A) (f : A -> res B) : res B :=
  match x with Ok a => f a | Err e => Err e end.

Declare Scope res_scope.
Notation "x <- e ;; f" := (bind e (fun x => f))
  (at level 61, e at next level, right associativity) : res_scope.
Notation "'do' p <~ e ;; f" := (bind e (fun p => f))
  (at level 61, p pattern, e at next level, right associativity) : res_scope.
Open Scope res_scope.

(** A Python loop whose body may raise: left fold that stops at the first error. *)
Fixpoint foldM {A B} (f : A -> B -> res A) (l : list B) (a : A) : res A :=
  match l with
  | [] => Ok a
  | x :: xs => a' <- f a x ;; foldM f xs a'
  end.

Fixpoint mapM {A B} (f : A -> res B) (l : list A) : res (list B) :=
  match l with
  | [] => Ok []
  | x :: xs => y <- f x ;; ys <- mapM f xs ;; Ok (y :: ys)
  end.

(** ** Comparisons *)
Definition qle (a b : Q) : bool := Qle_bool a b.
Definition qlt (a b : Q) : bool := negb (Qle_bool b a).
Definition qeq (a b : Q) : bool := Qeq_bool a b.

Lemma qle_spec a b : BoolSpec (a <= b) (b < a) (qle a b).
Proof.
  unfold qle. destruct (Qle_bool a b) eqn:E; constructor.
  - apply Qle_bool_iff; exact E.
  - apply Qnot_le_lt. intro H. apply Qle_bool_iff in H. congruence.
Qed.

Lemma qlt_spec a b : BoolSpec (a < b) (b <= a) (qlt a b).
Proof.
  unfold qlt. destruct (Qle_bool b a) eqn:E; constructor.
  - apply Qle_bool_iff; exact E.
  - apply Qnot_le_lt. intro H. apply Qle_bool_iff in H. congruence.
Qed.

Lemma qeq_spec a b : BoolSpec (a == b) (~ a == b) (qeq a b).
Proof.
  unfold qeq. destruct (Qeq_bool a b) eqn:E; constructor.
  - apply Qeq_bool_iff; exact E.
  - apply Qeq_bool_neq; exact E.
Qed.

(** Python [min(a, b)]: the first argument unless the second is smaller.
    Python [max(a, b)]: the first argument unless the second is larger. *)
Definition pmin (a b : Q) : Q := if qlt b a then b else a.
Definition pmax (a b : Q) : Q := if qlt a b then b else a.
Definition pabs (a : Q) : Q := if qlt a 0 then - a else a.

(** Python [max(list)] for a non-empty list. *)
Definition pmax_list (x : Q) (l : list Q) : Q := fold_left pmax l x.

Ltac qcase :=
  match goal with
  | |- context [qle ?a ?b] => destruct (qle_spec a b)
  | |- context [qlt ?a ?b] => destruct (qlt_spec a b)
  | |- context [qeq ?a ?b] => destruct (qeq_spec a b)
  | H : context [qle ?a ?b] |- _ => destruct (qle_spec a b)
  | H : context [qlt ?a ?b] |- _ => destruct (qlt_spec a b)
  | H : context [qeq ?a ?b] |- _ => destruct (qeq_spec a b)
  end.
Ltac qcases := repeat (qcase; cbn [andb orb negb] in *).

(** ** Python rounding: [round(x, n)], ties to even. *)
Definition round_half_even (x : Q) : Z :=
  let f := Qfloor x in
  let d := x - inject_Z f in
  if qlt d (1 # 2) then f
  else if qlt (1 # 2) d then (f + 1)%Z
  else if Z.even f then f else (f + 1)%Z.

(** [round(x, 0) .. round(x, 2)] are the only non-negative digit counts used. *)
Definition pround (n : positive) (x : Q) : Q :=
  inject_Z (round_half_even (x * inject_Z (Zpos n))) / inject_Z (Zpos n).
Definition round2 (x : Q) : Q := pround 100 x.
Definition round1 (x : Q) : Q := pround 10 x.
(** [round(x, -1)]: to the nearest multiple of ten. *)
Definition round_tens (x : Q) : Q := inject_Z (10 * round_half_even (x / 10)).

(** [math.ceil] *)
Definition pceil (x : Q) : Z := Qceiling x.

(** ** Python [range(start, stop, step)] for a positive step; a non-positive
    step other than 0 is handled by [zrange_step] below. *)
Definition zrange (a b : Z) : list Z :=
  map (fun i => (a + Z.of_nat i)%Z) (seq 0 (Z.to_nat (b - a))).

(** General [range]: step 0 raises ValueError. *)
Definition zrange_step (a b s : Z) : res (list Z) :=
  if (s =? 0)%Z then Err ValueError
  else
    let n := if (0 <? s)%Z then ((b - a + s - 1) / s)%Z
             else ((a - b - s - 1) / (- s))%Z in
    Ok (map (fun i => (a + Z.of_nat i * s)%Z) (seq 0 (Z.to_nat n))).

(** ** Sums *)
Definition qsum (l : list Q) : Q := fold_right Qplus 0 l.

(** Python list indexing [l[i]] for [i >= 0]. *)
Definition pidx {A} (l : list A) (i : nat) : res A :=
  match nth_error l i with Some x => Ok x | None => Err IndexError end.

(** Python slice [l[a:b]] for [0 <= a <= b]. *)
Definition pslice {A} (a b : nat) (l : list A) : list A :=
  firstn (b - a) (skipn a l).
