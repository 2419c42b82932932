(** Specification vocabulary for one heating cycle of the slug overlay: what the cycle's calls
    draw, let in and heat. *)
From Verif Require Import Prelude M_EnergyTank.
Open Scope Q_scope.

(** The calls made while the overlay is active: a draw replaced by inlet water that is not colder
    than the water already below the inlet ([cold]) and colder than storage ([h]), or a heater run. *)
Definition cycle_call (cold h : Q) (o : sl_op) : Prop :=
  match o with
  | LDrawPhysical g c _ => 0 < g /\ cold <= c /\ c < h
  | LHeat k d => 0 <= k /\ 0 <= d
  | _ => False
  end.

(** Gallons drawn. *)
Fixpoint drawn_gal (ops : list sl_op) : Q :=
  match ops with
  | [] => 0
  | LDrawPhysical g _ _ :: r => g + drawn_gal r
  | _ :: r => drawn_gal r
  end.

(** Gallon-degrees that came in with the inlet water. *)
Fixpoint entered_gal_f (ops : list sl_op) : Q :=
  match ops with
  | [] => 0
  | LDrawPhysical g c _ :: r => g * c + entered_gal_f r
  | _ :: r => entered_gal_f r
  end.

(** BTU delivered by the heater: kBTU/h times 1000 over the run's minutes. *)
Fixpoint heated_btu (ops : list sl_op) : Q :=
  match ops with
  | [] => 0
  | LHeat k d :: r => k * 1000 * (d / 60) + heated_btu r
  | _ :: r => heated_btu r
  end.

(** The tank would store [e] BTU if its slug (if any) were mixed back now. *)
Definition held (t : slug) (e : Q) : Prop := exists t', sl_deactivate t = Ok t' /\ e == en_energy (sl_base t').
