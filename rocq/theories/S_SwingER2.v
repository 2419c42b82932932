(** Specification vocabulary for the resistance trade-off system (C73). *)
From Verif Require Import Prelude M_StratifiedTank M_MixedTank M_EnergyTank M_Building M_Heater S_Heater M_Sizing M_Step M_Swing.
Open Scope Q_scope.

(** An electric element of capacity [cap] kBTU/h for a swing tank: off at first, and under the same
    thermostat at every hour, which reads the middle of the tank, starts below [supply] and stops 8
    degrees above. *)
Record resistance_element (h : heater) (supply cap : Q) : Prop := {
  re_cap : exists c, wh_pm h = Some (PmNominal c) /\ c == cap;
  re_off : wh_active h = false;
  re_hour : forall hour, (0 <= hour < 24)%Z -> exists c, in_effect h hour c;
  re_set : forall hour c, in_effect h hour c ->
    ct_on_sensor c = 1 # 2 /\ ct_on_trigger c = supply /\ ct_off_sensor c = 1 # 2 /\ ct_off_trigger c = supply + 8 }.

(** What a heater can give under the design conditions, by its own performance map. *)
Definition gives_at (oat : option Q) (storage inlet : Q) (h : heater) (c : Q) : Prop :=
  exists p, wh_pm h = Some p /\ pm_capacity p oat storage (Some inlet) = Ok (Some c).

(** The heat the circulation loop loses, kBTU/h. *)
Definition loop_loss (supply ret flow : Q) : Q := flow * (supply - ret) * (8353535 # 1000000) * 60 / 1000.
