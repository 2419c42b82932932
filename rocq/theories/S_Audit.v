(** Specification vocabulary for the heat audit of a simulated run (C91): what the record of a run says. *)
From Verif Require Import Prelude M_StratifiedTank M_Building M_Heater M_SimRun S_SimRun.
Open Scope Q_scope.

(** BTU the water heaters put in over the recorded steps; the series holds kBTU per hour. *)
Definition heat_made (r : sim_run) : Q := qsum (map (fun k => qmax 0 k * 1000 * step_hours r) (sr_output r)).

(** BTU in the water the building took over the recorded steps, at [supply] instead of [mains] degrees. *)
Definition heat_taken (r : sim_run) (supply mains : Q) : Q := qsum (map (fun d => d * rho_cp * (supply - mains)) (sr_demand r)).

(** BTU in [gal] gallons at [storage] instead of [mains] degrees. *)
Definition heat_held (gal storage mains : Q) : Q := gal * rho_cp * (storage - mains).

(** kWh the water heaters used over the recorded steps. *)
Definition kwh_used (r : sim_run) : Q := qsum (map (fun w => or0 w * step_hours r) (sr_power r)).
