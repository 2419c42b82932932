(** Specification vocabulary for simulated load shifting (C78). *)
From Verif Require Import Prelude M_StratifiedTank M_Building M_Heater M_SimRun M_Step M_Engine S_Engine S_EngineSize S_EngineRun S_Lasts.
Open Scope Q_scope.

(** The settings in force in hour [h] of the day: the heaters come on when the sensor at height [sensor]
    reads less than [on_t], and go off when the one at height [off_sensor] reads [off_t]. *)
Definition in_force (p : eparams) (ls : list Z) (h : nat) (sensor on_t off_sensor off_t : Q) : Prop :=
  defaulted (ep_on_t p) (ep_supply p) on_t /\
  ((shed_hour ls h /\ defaulted (ep_shed_aq p) (ep_aq p) sensor /\ defaulted (ep_shed_off p) (ep_off_sensor p) off_sensor /\
      defaulted (ep_off_t p) (ep_storage p) off_t) \/
   (load_up_hour ls (ep_lu_hours p) h /\ ep_lu_aq p = Some sensor /\ defaulted (ep_lu_off p) (ep_off_sensor p) off_sensor /\
      exists x, defaulted (ep_off_t p) (ep_storage p) x /\ defaulted (ep_lu_off_t p) x off_t) \/
   (~ shed_hour ls h /\ ~ load_up_hour ls (ep_lu_hours p) h /\ sensor = ep_aq p /\ off_sensor = ep_off_sensor p /\
      defaulted (ep_off_t p) (ep_storage p) off_t)).

(** The hour of the day in which step [n] of [iv] minutes begins. *)
Definition hour_at (iv : Z) (n : nat) : nat := Z.to_nat ((Z.of_nat n * iv / 60) mod 24).

(** A new engine with schedule [ls] and a primary tank of [vol] gallons, in weather whose mains water is between
    [cold] and [warm], simulated in [iv]-minute steps for [total] minutes.  In hour [h] its settings are
    [sensor h], [on_t], [off_sensor h], [off_t h]; in step [n] the building draws [d n] gallons; the heaters, all
    running, give at least [k] kBTU per hour; the loop takes [take] gallons a step. *)
Record shifting (dt : data) (p : eparams) (ls : list Z) (e : engine) (dur : string) (total iv : Z)
  (vol cold warm start on_t k take : Q) (sensor off_sensor off_t : nat -> Q) (d : nat -> Q) : Prop := {
  sh_new : eng_new dt p = Ok e;
  sh_schedule : given_schedule p ls;
  sh_kind : pooled (type_of (en_system e));
  sh_heaters : primary_heaters (en_system e) <> [];
  sh_volume : primary_volume (en_system e) = Some vol /\ 0 < vol;
  sh_settings : forall h, (h < 24)%nat -> in_force p ls h (sensor h) on_t (off_sensor h) (off_t h);
  sh_order : 0 <= ep_aq p /\ forall h, (h < 24)%nat -> 0 <= sensor h /\ off_sensor h <= sensor h /\ on_t <= off_t h;
  sh_temps : cold <= warm /\ warm < on_t /\ on_t <= ep_storage p /\ warm < ep_supply p /\ ep_supply p < ep_storage p;
  sh_lasts : lasts dur total iv;
  sh_mains : forall t x, bd_inlet (en_building e) t iv = Ok x -> cold <= x /\ x <= warm;
  sh_start : (forall di, bd_design_inlet (en_building e) = Ok di -> sim_inlet di = start) /\ cold <= start <= warm;
  sh_give : 0 <= k /\ give_at_least (en_building e) iv (primary_heaters (en_system e)) (ep_storage p) k;
  sh_loop : loop_takes (type_of (en_system e)) p iv warm take;
  sh_draws : forall n, (Z.of_nat n * iv < total)%Z -> bd_load (en_building e) (Z.of_nat n) iv true = Ok (d n) /\ 0 <= d n }.

(** Storage-temperature water that step [n] takes, and hot gallons left when the heaters are off in step [n]. *)
Definition takes (p : eparams) (cold take : Q) (d : nat -> Q) (n : nat) : Q := blended (d n) (ep_supply p) (ep_storage p) cold + take.
Definition left_in (t : system_type) (p : eparams) (iv : Z) (vol on_t : Q) (sensor : nat -> Q) (n : nat) : Q :=
  hot_reserve vol (steepness t) (ep_storage p) (sensor (hour_at iv n)) on_t.
(** Hot gallons the simulation starts with. *)
Definition hot_at_start (t : system_type) (p : eparams) (vol start : Q) : Q := hot_reserve vol (steepness t) (ep_storage p) (ep_aq p) start.

(** *** By the hour *)

(** What the building draws in minute [n] of a day on its average load shape, and what building and loop take in
    hour [h] in storage-temperature water. *)
Definition minute_draw (b : building) (n : nat) : Q := bd_daily b * nth (hour_at 1 n) (bd_avg b) 0 * qz 1 / 60.
Definition hour_takes (p : eparams) (b : building) (inlet take : Q) (h : nat) : Q :=
  blended (bd_daily b * nth (h mod 24) (bd_avg b) 0) (ep_supply p) (ep_storage p) inlet + take.
(** Hot gallons left when the heaters are off in hour [h]. *)
Definition hour_left (t : system_type) (p : eparams) (vol on_t : Q) (sensor : nat -> Q) (h : nat) : Q :=
  hot_reserve vol (steepness t) (ep_storage p) (sensor (h mod 24)%nat) on_t.
