(** Specification vocabulary for load-shift sizing of swing-tank systems (C80). *)
From Verif Require Import Prelude S_Sizing S_Swing.
Open Scope Q_scope.

(** [draw n] is the draw on the primary in minute [n] of the [len] minutes from hour [i] of a daily shape; as
    [day_draws], but for any length: the first minute is the demand itself, then the tank, starting 0.1 above supply
    with its element off, is followed. *)
Definition window_draws (k : swing_tank) (daily : Q) (shape : list Q) (i len : nat) (draw : nat -> Q) : Prop :=
  ((0 < len)%nat -> draw 0%nat == minute_demand daily shape i 0) /\
  exists tr, swing_days k false (tk_supply k + (1 # 10)) (map (minute_demand daily shape i) (seq 1 (len - 1))) tr /\
    (forall n, (n < len - 1)%nat -> draw (S n) == snd (nth n tr (0, 0, 0))) /\
    (forall t run hw, In (t, run, hw) tr -> tk_supply k <= t).

(** Gallons made in minute [n] of the days from hour [start], at [gen] gallons an hour outside the shed hours. *)
Definition minute_gen (sched : list string) (gen : Q) (start n : nat) : Q := shed_gen sched gen (start + n / 60) / 60.
