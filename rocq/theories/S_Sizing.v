(** Specification vocabulary for the sizing properties C35-C42, independent of the model. *)
From Verif Require Import Prelude M_StratifiedTank M_Building M_Heater.
Open Scope Q_scope.

(** ** Hourly storage balance (C35, C36) *)

(** Demand in hour [t] of an endless repetition of a daily shape. *)
Definition demand_at (daily : Q) (shape : list Q) (t : nat) : Q :=
  daily * nth (t mod length shape) shape 0.

(** Level of a store of size [V] that is full at the beginning of hour [start], after [n] hours:
    in hour [t], [gen t] flows in and [demand t] flows out, and what does not fit is lost. *)
Fixpoint level (V : Q) (gen demand : nat -> Q) (start n : nat) : Q :=
  match n with
  | O => V
  | S k => qmin V (level V gen demand start k + gen (start + k)%nat - demand (start + k)%nat)
  end.

(** Generation at a constant rate. *)
Definition steady (g : Q) : nat -> Q := fun _ => g.

(** ** Tank at the on-trigger (C38) *)

(** Temperature at height [h] (in percent) of a tank whose on-sensor at [on_pct] reads [on_temp]:
    it rises by [slope] per percent and is capped at [storage]. *)
Definition trigger_profile (on_pct on_temp slope storage h : Q) : Q :=
  qmin storage (on_temp + (h - on_pct) * slope).

(** Gallons of supply-temperature water obtained from one gallon at height [h]: none below the
    sensor or where the water is colder than supply, else the heat relative to the inlet per
    heat of a supply gallon. *)
Definition usable_at (on_pct on_temp slope supply storage inlet h : Q) : Q :=
  if qltb h on_pct then 0
  else if qltb (trigger_profile on_pct on_temp slope storage h) supply then 0
  else (trigger_profile on_pct on_temp slope storage h - inlet) / (supply - inlet).

(** ** Load-shift schedule (C39) *)

(** Hours [a .. a + k - 1] of the schedule all carry [label]. *)
Definition all_labelled (sched : list string) (label : string) (a k : nat) : Prop :=
  forall i, (i < k)%nat -> nth_error sched (a + i) = Some label.

(** [a .. a + k - 1] is the first maximal run of shed hours of the day. *)
Definition is_first_shed_run (sched : list string) (a k : nat) : Prop :=
  (0 < k)%nat /\ (a + k <= 24)%nat /\ all_labelled sched "shed" a k /\
  (forall h, (h < a)%nat -> nth_error sched h <> Some "shed"%string) /\
  ((a + k = 24)%nat \/ nth_error sched (a + k) <> Some "shed"%string).

(** Exactly [u] load-up hours directly precede hour [a]. *)
Definition load_up_before (sched : list string) (a u : nat) : Prop :=
  (u <= a)%nat /\ all_labelled sched "loadUp" (a - u) u /\
  (u = a \/ nth_error sched (a - u - 1) <> Some "loadUp"%string).

(** Is hour [h] of the day a shed hour? *)
Definition is_shed (sched : list string) (h : nat) : bool :=
  match nth_error sched h with Some k => String.eqb k "shed" | None => false end.

(** Generation in hour [t] of endless repetitions of the schedule: nothing in shed hours. *)
Definition shed_gen (sched : list string) (gen : Q) (t : nat) : Q :=
  if is_shed sched (t mod 24) then 0 else gen.

(** Demand of hours [a .. a + k - 1] of one day. *)
Definition demand_of_hours (daily : Q) (shape : list Q) (a k : nat) : Q :=
  qsum (map (fun i => daily * nth (a + i) shape 0) (seq 0 k)).

(** ** Curves (C41, C42) *)
Fixpoint strictly_decreasing (l : list Q) : Prop :=
  match l with
  | x :: ((y :: _) as r) => y < x /\ strictly_decreasing r
  | _ => True
  end.
Fixpoint strictly_increasing (l : list Q) : Prop :=
  match l with
  | x :: ((y :: _) as r) => x < y /\ strictly_increasing r
  | _ => True
  end.
Fixpoint non_increasing (l : list Q) : Prop :=
  match l with
  | x :: ((y :: _) as r) => y <= x /\ non_increasing r
  | _ => True
  end.
Fixpoint non_decreasing (l : list Q) : Prop :=
  match l with
  | x :: ((y :: _) as r) => x <= y /\ non_decreasing r
  | _ => True
  end.

(** ** Configuration (C35-C42) *)

(** No load shifting: no schedule, or no controls for shed hours. *)
Definition no_load_shift (sched : option (list string)) (m : option (list (string * controls))) : Prop :=
  sched = None \/ forall d, m = Some d -> dict_get d "shed" = None.

(** Both shapes of the building are the library's annual shape. *)
Definition library_annual (lib : library) (b : building) : Prop :=
  exists f, lib_file lib "multi_family" = Some f /\ sf_annual f = Some (bd_peak b) /\ bd_avg b = bd_peak b.


(** ** Load shifting and warnings (C37, C39, C63) *)
Definition hours_outside_shed (sched : list string) : Q :=
  qz (Z.of_nat (length sched)) - qz (Z.of_nat (count_occ string_dec sched "shed"%string)).

(** Heat (BTU) that takes the water between the two sensors from supply to storage temperature. *)
Definition deadband_heat (c : controls) (volume supply storage : Q) : Q :=
  (ct_on_sensor c - ct_off_sensor c) * volume * rho_cp * (storage - supply).
