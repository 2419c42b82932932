(** Specification vocabulary: integral, mean and super-level set of a profile over an
    interval of rationals, without real numbers and without reference to the model.

    [is_integral T a b I]: for every partition of [a, b], [I] lies between the lower and the
    upper Darboux sum of the (non-decreasing) profile [T]. *)
From Verif Require Import Prelude.
Open Scope Q_scope.

(** [pts] is a partition of [a, b]: an ascending chain that starts at [a] and ends at [b]. *)
Fixpoint is_partition (a : Q) (pts : list Q) (b : Q) : Prop :=
  match pts with
  | [] => a == b
  | x :: r => a <= x /\ is_partition x r b
  end.

(** Darboux sums of a non-decreasing profile: value at the left end / at the right end. *)
Fixpoint lower_sum (T : Q -> Q) (a : Q) (pts : list Q) : Q :=
  match pts with [] => 0 | x :: r => (x - a) * T a + lower_sum T x r end.
Fixpoint upper_sum (T : Q -> Q) (a : Q) (pts : list Q) : Q :=
  match pts with [] => 0 | x :: r => (x - a) * T x + upper_sum T x r end.

Definition is_integral (T : Q -> Q) (a b I : Q) : Prop :=
  forall pts, is_partition a pts b -> lower_sum T a pts <= I /\ I <= upper_sum T a pts.

(** [m] is the mean value of [T] over [a, b]. *)
Definition is_mean (T : Q -> Q) (a b m : Q) : Prop := is_integral T a b (m * (b - a)).

Definition nondecreasing_on (T : Q -> Q) (a b : Q) : Prop :=
  forall x y, a <= x -> x <= y -> y <= b -> T x <= T y.

(** [m] is the length of the part of [a, b] where [T] is at least [s], for a profile that is
    below [s] to the left of one point and at least [s] to the right of it. *)
Definition is_level_length (T : Q -> Q) (a b s m : Q) : Prop :=
  exists x, a <= x <= b /\ m == b - x /\
    (forall y, a <= y -> y < x -> T y < s) /\
    (forall y, x < y -> y <= b -> s <= T y).
