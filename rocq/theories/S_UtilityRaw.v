(** Specification vocabulary for C85: tariffs given by single numbers. *)
From Verif Require Import Prelude M_Building M_Utility S_Utility M_UtilityRaw.
Open Scope Q_scope.

(** One rate all year: a value for every argument, the months left at their defaults. *)
Definition uniform (base s e pd pe od oe : option Q) (disc : bool) (ds de dd den : option Q) : raw_params :=
  mkRaw base (One s) (One e) (One pd) (One pe) (One od) (One oe) (One (Some 0%Z)) (One (Some 12%Z)) disc
    (One ds) (One de) (One dd) (One den).

(** The same discount in every season. *)
Definition one_discount (r : raw_params) (ds de dd den : option Q) : Prop :=
  rw_dc_start r = One ds /\ rw_dc_end r = One de /\ rw_dc_demand r = One dd /\ rw_dc_energy r = One den.

(** Some argument other than the peak start and the discount is a single value. *)
Definition some_single (r : raw_params) : Prop :=
  (exists x, rw_pk_end r = One x) \/ (exists x, rw_pk_demand r = One x) \/ (exists x, rw_pk_energy r = One x) \/
  (exists x, rw_off_demand r = One x) \/ (exists x, rw_off_energy r = One x) \/
  (exists x, rw_start_month r = One x) \/ (exists x, rw_end_month r = One x).

(** What is charged in the steps of an hour: [e] per kWh, [d] per kW of the period's peak. *)
Definition charged (u : tracker) (h : Z) (e d : option Q) : Prop :=
  forall t iv, step_in_hour t iv h ->
    ut_energy_at u t iv = Ok e /\
    exists k, ut_period_at u t iv = Ok k /\
      forall kw, ut_demand_charge u k kw = match d with Some x => Ok (x * kw) | None => Err TypeError end.
