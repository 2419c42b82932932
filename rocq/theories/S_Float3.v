(** Specification vocabulary for sizing in binary64. *)
From Coq Require Import ZArith List SpecFloat.
From Verif Require Import Prelude S_Float2.
Open Scope Q_scope.

(** A day of finite numbers: a daily use between 2^-900 and 2^900 gallons, at least one run hour, up to 24 hourly
    fractions between 0 and 1, and a generation over the day that covers the use. *)
Definition f64_day (daily run : spec_float) (shape : list spec_float) : Prop :=
  f64_finite daily /\ 1 / inject_Z (2 ^ 900) <= f64_val daily <= inject_Z (2 ^ 900) /\
  f64_finite run /\ 1 <= f64_val run /\
  (0 < length shape <= 24)%nat /\ Forall (fun f => f64_finite f /\ 0 <= f64_val f <= 1) shape /\
  f64_val run * qsum (map f64_val shape) <= qz (Z.of_nat (length shape)).

(** A finite number between a thousandth and a billion. *)
Definition ordinary (v : Q) : Prop := 1 # 1000 <= v <= 1000000000.
