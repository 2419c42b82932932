(** Specification vocabulary for the heat audit of a simulated swing-tank system (C91). *)
From Verif Require Import Prelude M_StratifiedTank M_Building M_Heater M_SimRun S_SimRun.
Open Scope Q_scope.

(** BTU the element of the swing tank put in over the recorded steps. *)
Definition element_made (r : sim_run) : Q := qsum (map (fun k => qmax 0 k * 1000 * step_hours r) (sr_tm_output r)).

(** BTU a loop losing [kbtuh] took over the recorded steps. *)
Definition loop_took (r : sim_run) (kbtuh : Q) : Q := qz (Z.of_nat (length (sr_demand r))) * (kbtuh * 1000 * step_hours r).

(** The last recorded temperature of the swing tank, [start] before the first step. *)
Definition last_swing_temp (r : sim_run) (start : Q) : Q := last (sr_tm_temp r) start.

(** Whatever the weather of the run, no heater gives more than [cop] times the power it draws (3.412142 kBTU per
    hour are one kW). *)
Definition efficient (b : building) (iv : Z) (hs : list heater) (storage cop : Q) : Prop :=
  forall h t oat inlet c, In h hs -> bd_oat b t iv = Ok oat -> bd_inlet b t iv = Ok inlet ->
    wh_capacity h (Some oat) storage (Some inlet) = Ok c ->
    exists w, wh_power h (Some oat) storage (Some inlet) = Ok w /\ 0 <= cop * or0 w /\ or0 c <= cop * (3412142 # 1000000) * or0 w.

(** An element that does not cool. *)
Definition never_cools (h : heater) : Prop := forall oat top c, wh_capacity h (Some oat) top None = Ok (Some c) -> 0 <= c.
