(** Model of the step-to-hour conversion of the utility tracker in IEEE-754 binary64 arithmetic. *)
From Coq Require Import ZArith SpecFloat.
From Verif Require Import Prelude M_Building M_Utility.
Open Scope Z_scope.

(** Python [float(n)] for an int: the binary64 value nearest [n], ties to even. Simplification: an
    int beyond the float range becomes infinity; Python raises OverflowError. *)
Definition f64_of_int (n : Z) : spec_float := binary_normalize 53 1024 n 0 false.

(** Python [x / y] on floats: a zero divisor raises, otherwise the correctly rounded quotient. *)
Definition f64_div (x y : spec_float) : res spec_float :=
  match y with S754_zero _ => Err ZeroDivisionError | _ => Ok (SFdiv 53 1024 x y) end.

(** Python [math.floor(x)]. Simplification: the OverflowError of an infinity is not told from the
    ValueError of a NaN. *)
Definition f64_floor (x : spec_float) : res Z :=
  match x with
  | S754_zero _ => Ok 0
  | S754_finite s m e =>
      let z := if s then Z.neg m else Z.pos m in
      Ok (if 0 <=? e then z * 2 ^ e else z / 2 ^ (- e))
  | _ => Err ValueError
  end.

(** [math.floor(step / (60.0 / timestep_min))], UtilityCostTracker.py L578 and L597. *)
Definition f64_hour_of_step (step iv : Z) : res Z :=
  do r <- f64_div (f64_of_int 60) (f64_of_int iv);
  do x <- f64_div (f64_of_int step) r;
  f64_floor x.

(** get_demand_period_at_step, UtilityCostTracker.py L584-598, with the hour in binary64. *)
Definition f64_period_at (u : tracker) (step iv : Z) : res Z :=
  do h <- f64_hour_of_step step iv; py_nth (ut_chart u) h.

(** get_energy_charge_at_step, UtilityCostTracker.py L563-582, with the hour in binary64. *)
Definition f64_energy_at (u : tracker) (step iv : Z) : res (option Q) :=
  do h <- f64_hour_of_step step iv;
  if (Z.of_nat (length (ut_by_hour u)) =? year_hours)%Z
  then do x <- py_nth (ut_by_hour u) h; Ok (Some x)
  else do k <- py_nth (ut_chart u) h;
       match zget (ut_energy u) k with Some x => Ok x | None => Err KeyError end.
