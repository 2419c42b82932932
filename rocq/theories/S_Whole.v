(** Specification vocabulary for orders that are sized and then simulated (C72). *)
From Verif Require Import Prelude M_Building M_Heater M_Sizing M_Engine S_Sizing S_Engine S_EngineSize.
Open Scope Q_scope.

(** Some hour of the design day takes more water than an evenly running heater makes in an hour. *)
Definition peaks_above_output (b : building) (run : Q) : Prop := exists x, In x (bd_peak b) /\ 1 < run * x.

(** A recirculation loop that loses heat. *)
Definition loop_loses (p : eparams) : Prop :=
  forall r f, ep_return p = Some r -> ep_flow p = Some f -> r < ep_supply p /\ 0 < f.

(** Mains water never arrives hotter than the supply temperature. *)
Definition mains_below_supply (p : eparams) (b : building) : Prop :=
  forall t iv x, bd_inlet b t iv = Ok x -> x <= ep_supply p.
