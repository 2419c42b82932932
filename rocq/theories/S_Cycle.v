(** Specification vocabulary for heater cycles in a simulation (C79). *)
From Verif Require Import Prelude M_StratifiedTank M_Building M_Heater M_SimRun M_Step M_Engine S_Engine S_EngineSize S_EngineRun S_Lasts S_Shift.
Open Scope Q_scope.

(** The heaters, all running, give between [low] and [high] kBTU per hour at the storage temperature in all the
    weather of the building. *)
Definition give_between (b : building) (iv : Z) (hs : list heater) (storage low high : Q) : Prop :=
  forall t oat inlet l, bd_oat b t iv = Ok oat -> bd_inlet b t iv = Ok inlet ->
    Forall2 (fun h x => exists c, wh_capacity h (Some oat) storage (Some inlet) = Ok c /\ x = or0 c) hs l -> low <= qsum l /\ qsum l <= high.

(** In hour [h] of the day the heaters come on when the sensor at height [sensor] reads less than [on_t], and go
    off when the one at [off_sensor] reads [off_t]: by the schedule, or all day without one. *)
Definition settings_at (p : eparams) (h : nat) (sensor on_t off_sensor off_t : Q) : Prop :=
  (exists ls, given_schedule p ls /\ in_force p ls h sensor on_t off_sensor off_t) \/
  (without_schedule p /\ sensor = ep_aq p /\ off_sensor = ep_off_sensor p /\ defaulted (ep_on_t p) (ep_supply p) on_t /\ defaulted (ep_off_t p) (ep_storage p) off_t).

(** Whether a load-shift schedule was given. *)
Definition has_schedule (p : eparams) : bool := match ep_ls p with Some (_ :: _) => true | _ => false end.

(** A new engine with a primary tank of [vol] gallons, simulated in [iv]-minute steps for [total] minutes with mains
    water between [cold] and [warm].  The settings of hour [h] are [sensor h], [on_t], [off_sensor h], [off_t h], the
    turn-on temperature not below the supply temperature.  The heaters, all running, give between [low] and [high]
    kBTU per hour; in step [n] the building draws [d n] gallons and the loop takes [take]. *)
Record cycling (dt : data) (p : eparams) (e : engine) (dur : string) (total iv : Z)
  (vol cold warm start on_t low high take : Q) (sensor off_sensor off_t : nat -> Q) (d : nat -> Q) : Prop := {
  cy_new : eng_new dt p = Ok e;
  cy_kind : pooled (type_of (en_system e));
  cy_heaters : primary_heaters (en_system e) <> [];
  cy_volume : primary_volume (en_system e) = Some vol /\ 0 < vol;
  cy_settings : forall h, (h < 24)%nat -> settings_at p h (sensor h) on_t (off_sensor h) (off_t h);
  cy_order : 0 <= ep_aq p /\ forall h, (h < 24)%nat -> sensor h <= 1 /\ off_sensor h <= sensor h /\ on_t <= off_t h;
  cy_temps : cold <= warm /\ warm < ep_supply p /\ ep_supply p <= on_t /\ on_t <= ep_storage p /\ ep_supply p < ep_storage p;
  cy_lasts : lasts dur total iv;
  cy_mains : forall t x, bd_inlet (en_building e) t iv = Ok x -> cold <= x /\ x <= warm;
  cy_start : (forall di, bd_design_inlet (en_building e) = Ok di -> sim_inlet di = start) /\ cold <= start <= warm;
  cy_give : 0 < low /\ give_between (en_building e) iv (primary_heaters (en_system e)) (ep_storage p) low high;
  cy_loop : loop_takes (type_of (en_system e)) p iv warm take;
  cy_draws : forall n, (Z.of_nat n * iv < total)%Z ->
    bd_load (en_building e) (Z.of_nat n) iv (has_schedule p) = Ok (d n) /\ 0 <= d n }.

(** The heaters come on in step [s] of run [r]: heat in it, none in the step before, if there is one. *)
Definition comes_on (r : sim_run) (s : nat) : Prop :=
  (exists x, nth_error (sr_output r) s = Some x /\ ~ x == 0) /\
  forall n, s = S n -> exists x, nth_error (sr_output r) n = Some x /\ x == 0.
(** The heaters go off in step [s]. *)
Definition goes_off (r : sim_run) (s : nat) : Prop :=
  exists n x y, s = S n /\ nth_error (sr_output r) n = Some x /\ ~ x == 0 /\ nth_error (sr_output r) s = Some y /\ y == 0.

(** Hot gallons at which the heaters go off in step [n]. *)
Definition off_level (t : system_type) (p : eparams) (iv : Z) (vol : Q) (off_sensor off_t : nat -> Q) (n : nat) : Q :=
  hot_reserve vol (steepness t) (ep_storage p) (off_sensor (hour_at iv n)) (off_t (hour_at iv n)).

(** Minutes the heater of a sized system of [cap] kBTU per hour and [vol] gallons is estimated to run per cycle, by
    the rule of the short-cycling warning, times [cap * 1000]. *)
Definition estimated_cycle (sensor off_sensor vol supply storage : Q) : Q := (sensor - off_sensor) * vol * rho_cp * (storage - supply) * 60.
