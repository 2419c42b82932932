(** Specification vocabulary for tanks that never run out (C71). *)
From Verif Require Import Prelude M_StratifiedTank M_Building M_Heater M_SimRun M_Step M_Engine S_Engine.
Open Scope Q_scope.

(** Gallons at the top of the tank that are at the full storage temperature when the sensor at height
    [sensor] reads [trigger], with [slope] degrees F per percent of height below them. *)
Definition hot_reserve (vol slope storage sensor trigger : Q) : Q :=
  vol * (1 - sensor - (storage - trigger) / (100 * slope)).

(** By how much the [n] steps from step [i] on take more than the [g] gallons each of them brings. *)
Definition shortfall (d : nat -> Q) (g : Q) (i n : nat) : Q := qsum (map (fun k => d k - g) (seq i n)).

(** The heaters, all running, give at least [k] kBTU per hour at the storage temperature in all the
    weather of the building. *)
Definition give_at_least (b : building) (iv : Z) (hs : list heater) (storage k : Q) : Prop :=
  forall t oat inlet l, bd_oat b t iv = Ok oat -> bd_inlet b t iv = Ok inlet ->
    Forall2 (fun h x => exists c, wh_capacity h (Some oat) storage (Some inlet) = Ok c /\ x = or0 c) hs l -> k <= qsum l.

(** Mains water heated to the storage temperature in a step of [iv] minutes by [k] kBTU per hour. *)
Definition heated (k : Q) (iv : Z) (storage cold : Q) : Q := k * 1000 * qz iv / 60 / (rho_cp * (storage - cold)).

(** Storage-temperature water that, mixed with mains water, makes [d] gallons at the supply temperature. *)
Definition blended (d supply storage cold : Q) : Q := d * (supply - cold) / (storage - cold).

(** Storage-temperature water whose heat the recirculation loop takes out of the primary tank in a step. *)
Definition loop_takes (t : system_type) (p : eparams) (iv : Z) (warm x : Q) : Prop :=
  match t with
  | SinglePassRTP => exists r f, ep_return p = Some r /\ ep_flow p = Some f /\ 0 <= f /\ r <= ep_supply p /\
      x == f * qz iv * (ep_supply p - r) / (ep_storage p - warm)
  | _ => x == 0
  end.

(** Gallons at the supply temperature wanted in hour [h] of a day that repeats. *)
Definition wanted (b : building) (h : nat) : Q := bd_daily b * nth (h mod 24) (bd_peak b) 0.

(** The same order, but for a given primary plant instead of one to be sized: a tank of [vol] gallons and
    heaters of [cap] kBTU per hour in all, with temperature-maintenance equipment [tm_vol], [tm_cap]. *)
Definition with_plant (p : eparams) (vol cap : Q) (tm_vol tm_cap : option Q) : eparams :=
  mkParams (ep_type p) (ep_mag p) (ep_cz p) (ep_supply p) (ep_storage p) (ep_schematic p) (ep_gpdpp p) (ep_peak p) (ep_avg p)
    (ep_num p) None (ep_run p) (ep_defrost p) (ep_aq p) (ep_off_sensor p) (ep_on_t p) (ep_off_t p) (ep_ls p) (ep_lu_hours p)
    (ep_shed_aq p) (ep_lu_aq p) (ep_shed_off p) (ep_lu_off p) (ep_lu_off_t p) (ep_ls_percent p) (ep_return p) (ep_flow p)
    (ep_tm_on p) (ep_tm_off p) (ep_tm_off_time p) (ep_tm_safety p) (Some vol) (Some cap) tm_vol tm_cap (ep_tm_model p) (ep_num_tm p).

(** A simulation without a minute of outage: usable water at every step, never fewer than [low] gallons, and
    the top of the tank always at [storage]; a run that gives up on water more than [thr] degrees too cold
    goes on to the end. *)
Record never_out (storage low thr : Q) (r : sim_run) : Prop := {
  no_outage : sr_outage r = 0%Z;
  no_stop : 0 <= thr -> sr_stopped r = false;
  no_usable : forall i x, nth_error (sr_usable r) i = Some x -> low <= x;
  no_top : exists l, nth_error (sr_temps r) 5 = Some l /\ forall i x, nth_error l i = Some x -> x == storage }.
