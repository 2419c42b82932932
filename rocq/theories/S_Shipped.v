(** Specification vocabulary for the models shipped with a coefficient table (C77). *)
From Verif Require Import Prelude M_Heater M_Engine.
Open Scope Q_scope.

(** The entry is rated by a coefficient table, not by pickled interpolators. *)
Definition tabulated (e : reg_entry) (l : list hp_entry) : Prop :=
  re_pkl e = None /\ re_perfmap e = Some l.

(** The coldest outdoor temperature of a table: below it the equipment is taken to run on its
    resistance backup. *)
Definition coldest_rating (l : list hp_entry) (t : Q) : Prop :=
  exists e r, l = e :: r /\ t = he_T e.

(** The inlet temperature a call is answered for: the one given, or the design inlet. *)
Definition inlet_used (design : Q) (inlet : option Q) : Q :=
  match inlet with Some x => x | None => design end.

(** Water that can enter a water heater: not frozen, not hotter than 145 F. *)
Definition ordinary_water (t : Q) : Prop := 32 <= t /\ t <= 145.

(** The tabulated temperatures behind a pickled map: at least one outdoor temperature, a row of inlets for each, and
    at least one outlet for each inlet (a row may be empty). *)
Definition gridded (oats : list Q) (grid : list (list (Q * list Q))) : Prop :=
  oats <> [] /\ length grid = length oats /\ Forall (Forall (fun e => snd e <> [])) grid.

(** Pickled files that claim no power below zero, and no heat short of the power. *)
Definition honest (f : pk_files) : Prop :=
  (forall a o i, pf_out f a = Some o -> pf_in f a = Some i -> 0 <= i /\ i <= o) /\
  0 <= pf_in_high f /\ pf_in_high f <= pf_out_high f /\ 0 <= pf_out_low f.
