(** Specification vocabulary for C81. *)
From Verif Require Import Prelude M_SimRun.
Open Scope Q_scope.

(** Energy drawn in a step of [iv] minutes, primary heaters and temperature maintenance together. *)
Definition step_kwh (iv : Z) (o : step_out) : Q := (or0 (so_power o) + or0 (so_tm_kw o)) * (qz iv / 60).
