(** Specification vocabulary for simulated systems (C47, C50, C55, C59-C61): what a user reads off a
    building, a heater and one reported step. *)
From Verif Require Import Prelude M_StratifiedTank M_MixedTank M_Building M_Heater S_Heater M_Sizing M_SimRun M_Step.
Open Scope Q_scope.

(** The hour of the day in which step [t] begins. *)
Definition in_hour (t iv h : Z) : Prop :=
  (0 <= h < 24)%Z /\ exists day, ((day * 24 + h) * 60 <= t * iv < (day * 24 + h + 1) * 60)%Z.

(** The delivery temperature at an hour: the highest outlet temperature among the controls in
    force, or the storage temperature if no heater has controls then. *)
Definition setpoint (hs : list heater) (storage : Q) (hour : Z) (x : Q) : Prop :=
  ((forall h c, In h hs -> ~ in_effect h hour c) /\ x = storage) \/
  ((exists h c, In h hs /\ in_effect h hour c /\ ct_outlet c = x) /\
   forall h c, In h hs -> in_effect h hour c -> ct_outlet c <= x).

(** Heaters that differ at most in being on or off. *)
Definition same_heater (h h' : heater) : Prop :=
  wh_pm h' = wh_pm h /\ wh_schedule h' = wh_schedule h /\ wh_map h' = wh_map h.

(** Some heater has a load-up or shed setting: the building's average profile is used. *)
Definition shifting (hs : list heater) : Prop :=
  exists h d, In h hs /\ wh_map h = Some d /\
    (In "loadUp"%string (map fst d) \/ In "shed"%string (map fst d)).

(** A step reports what the building asked for, a possible usable volume, and six temperatures
    that rise with height and lie between the inlet and the delivery temperature. *)
Record physical_step (b : building) (hs : list heater) (storage vol : Q) (t iv : Z) (o : step_out) : Prop := {
  ph_demand : forall avg : bool, (avg = true <-> shifting hs) -> bd_load b t iv avg = Ok (so_demand o);
  ph_oat : bd_oat b t iv = Ok (so_oat o);
  ph_inlet : bd_inlet b t iv = Ok (so_inlet o);
  ph_usable : 0 <= so_usable o <= vol;
  ph_six : length (so_temps o) = 6%nat;
  ph_sorted : forall i j x y, (i <= j)%nat -> nth_error (so_temps o) i = Some x ->
     nth_error (so_temps o) j = Some y -> x <= y;
  ph_range : forall h sp x, in_hour t iv h -> setpoint hs storage h sp -> so_inlet o <= sp ->
     In x (so_temps o) -> so_inlet o <= x <= sp }.

(** A heater with controls at every hour of the day. *)
Definition scheduled (h : heater) : Prop :=
  exists s d, wh_schedule h = Some s /\ wh_map h = Some d /\ (24 <= length s)%nat /\
    forall k, In k s -> exists c, dict_get d k = Some c.

(** A heater whose capacity and power can be queried at all conditions with a known outdoor temperature. *)
Definition rated (h : heater) : Prop :=
  forall (oat : Q) outlet inlet, exists c w, wh_capacity h (Some oat) outlet inlet = Ok c /\
    wh_power h (Some oat) outlet inlet = Ok w.

(** A heater whose capacity is never negative. *)
Definition heats (h : heater) : Prop :=
  forall (oat : Q) outlet inlet c, wh_capacity h (Some oat) outlet inlet = Ok (Some c) -> 0 <= c.

(** A building with a load profile and weather for every hour. *)
Definition complete (b : building) : Prop :=
  bd_peak b <> [] /\ bd_avg b <> [] /\
  exists c, bd_climate b = Some c /\
    (cz_const_oat c <> None \/ exists l, cz_oat c = Some l /\ l <> []) /\
    (cz_const_inlet c <> None \/ exists l, cz_inlet c = Some l /\ (12 <= length l)%nat).

(** The highest node's temperature in a step. *)
Definition top_of (o : step_out) : Q := last (so_temps o) 0.

(** Step [o] at [t] draws hot water: positive demand, and the mains are colder than the delivery
    temperature. *)
Definition draws (hs : list heater) (storage : Q) (t iv : Z) (o : step_out) : Prop :=
  0 < so_demand o /\
  forall h sp, in_hour t iv h -> setpoint hs storage h sp -> so_inlet o < sp.

(** The heaters of [hs'] are those of [hs] after their aquastats looked at the tank [view]. *)
Definition aquastats (hs hs' : list heater) (view : tank_view) (hour : Z) : Prop :=
  Forall2 (fun h h' => same_heater h h' /\
    (wh_active h = false -> (wh_active h' = true <-> calls_on h (view, hour))) /\
    (wh_active h = true -> (wh_active h' = false <-> calls_off h (view, hour)))) hs hs'.

(** Heat output of one heater: nothing when off, else what its performance map says at these conditions and
    the outlet temperature of its controls (nothing without a map). *)
Definition heater_gives (oat inlet : Q) (hour : Z) (h : heater) (x : Q) : Prop :=
  exists c, in_effect h hour c /\
    ((wh_active h = false /\ x = 0) \/
     (wh_active h = true /\ exists cap,
        match wh_pm h with
        | Some m => pm_capacity m (Some oat) (ct_outlet c) (Some inlet)
        | None => Ok None
        end = Ok cap /\ x = or0 cap)).

(** ** Parallel loop (C47, C61) *)

(** Accepted temperature-maintenance parameters: safety factor above 1, off-time in (0, 1] hours,
    off- above on-temperature, and off-time / (safety - 1), the time to recover, above 20 minutes. *)
Definition tm_accepted (p : ploop) : Prop :=
  1 < pl_safety p /\ 0 < pl_off_time p <= 1 /\ pl_on p < pl_off p /\
  (pl_safety p - 1) * 20 < 60 * pl_off_time p.

(** Design loss of the loop in BTU per hour. *)
Definition design_loss (p : ploop) : Q := pl_flow p * 60 * rho_cp * (dh_supply (pl_dhw p) - pl_return p).

(** Share of the maintenance tank that the loop exchanges in a step of [iv] minutes. *)
Definition tm_exchange (p : ploop) (iv : Z) : Q :=
  qz iv * (pl_off p - pl_on p) / (60 * (dh_supply (pl_dhw p) - pl_return p) * pl_off_time p).

(** The tank temperature at which the running heater just balances the loop. *)
Definition tm_equilibrium (p : ploop) : Q :=
  pl_return p + pl_safety p * (dh_supply (pl_dhw p) - pl_return p).
