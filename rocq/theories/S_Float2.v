(** Specification vocabulary for binary64 numbers. *)
From Coq Require Import ZArith SpecFloat.
From Verif Require Import Prelude.
Open Scope Q_scope.

(** The rational value of a finite number: plus or minus [m * 2 ^ e]. *)
Definition f64_val (x : spec_float) : Q :=
  match x with
  | S754_finite s m e =>
      let z := if s then Z.neg m else Z.pos m in
      if (0 <=? e)%Z then inject_Z (z * 2 ^ e) else z # Z.to_pos (2 ^ (- e))
  | _ => 0
  end.

(** Finite binary64 numbers, and the positive ones among them. *)
Definition f64_finite (x : spec_float) : Prop :=
  valid_binary 53 1024 x = true /\ match x with S754_zero _ | S754_finite _ _ _ => True | _ => False end.
Definition f64_positive (x : spec_float) : Prop := f64_finite x /\ 0 < f64_val x.
