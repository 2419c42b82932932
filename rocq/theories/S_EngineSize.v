(** Specification vocabulary for the results of sizing with an engine (C67). *)
From Verif Require Import Prelude M_StratifiedTank M_MixedTank M_EnergyTank M_Building M_Heater M_Sizing S_Integral S_Sizing
  M_Step M_Swing M_MPRTP M_Engine S_Engine.
Open Scope Q_scope.

(** The engine is not given a load-shift schedule. *)
Definition without_schedule (p : eparams) : Prop := forall ls, ~ given_schedule p ls.

(** The two numbers every sizing returns. *)
Definition sized_capacity (e : engine) : option Q := fst (fst (eng_results e)).
Definition sized_storage (e : engine) : option Q := snd (fst (eng_results e)).
(** Volume and capacity of the temperature-maintenance equipment, when there is one. *)
Definition sized_maintenance (e : engine) : option (Q * option Q) := snd (eng_results e).

(** Degrees F per percent of height in the transition zone of the primary tank. *)
Definition steepness (t : system_type) : Q :=
  match t with SinglePassRTP => 17 # 10 | MultiPassRTP => 8 # 10 | _ => 28 # 10 end.

(** Heat (BTU) that a day's hot water takes, and that a day of recirculation loses. *)
Definition daily_heat (b : building) (supply inlet : Q) : Q := bd_daily b * rho_cp * (supply - inlet).
Definition daily_loss (supply ret flow : Q) : Q := 24 * (flow * 60) * rho_cp * (supply - ret).

(** [u] is the gallons of supply-temperature water that a gallon of tank holds when the sensor at
    height [sensor] reads [trigger]. *)
Definition share (sensor trigger slope supply storage inlet u : Q) : Prop :=
  is_integral (usable_at (sensor * 100) trigger slope supply storage inlet) 0 100 (u * 100).

(** The design mains temperature. *)
Definition mains (e : engine) (inlet : Q) : Prop := bd_design_inlet (en_building e) = Ok (Some inlet).

(** A daily shape that leaves the heater the run hours it is allowed. *)
Definition fits_run_hours (b : building) (run : Q) : Prop :=
  length (bd_peak b) = 24%nat /\ 0 <= bd_daily b /\ 0 < run /\ run * qsum (bd_peak b) <= 24.

(** The single-pass systems whose primary tank alone covers the demand. *)
Definition pooled (t : system_type) : Prop := t = PrimaryNoRecirc \/ t = ParallelLoop \/ t = SinglePassRTP.

(** ** Load shifting *)

(** Hours [a .. a + k - 1] are the first uninterrupted run of shed hours of the day. *)
Definition first_shed_hours (ls : list Z) (a k : nat) : Prop :=
  (0 < k)%nat /\ (a + k <= 24)%nat /\ first_shed ls a /\ (forall i, (i < k)%nat -> shed_hour ls (a + i)) /\
  ((a + k = 24)%nat \/ ~ shed_hour ls (a + k)).

(** Generation in hour [t] of endless repetitions of the day: nothing in shed hours. *)
Definition off_in_shed (ls : list Z) (gen : Q) (t : nat) : Q :=
  match nth_error ls (t mod 24) with Some 0%Z => 0 | _ => gen end.

(** The engine is told how to load up. *)
Definition loads_up (p : eparams) : Prop := (0 < ep_lu_hours p)%Z /\ ep_lu_aq p <> None.

(** Height and temperature the tank is charged to before the shed hours. *)
Definition charged_to (p : eparams) (sensor trigger : Q) : Prop :=
  exists off_t, defaulted (ep_off_t p) (ep_storage p) off_t /\
    (loads_up p -> defaulted (ep_lu_off p) (ep_off_sensor p) sensor /\ defaulted (ep_lu_off_t p) off_t trigger) /\
    (~ loads_up p -> sensor = ep_off_sensor p /\ trigger = off_t).

(** Height and temperature it may be drawn down to in them. *)
Definition drained_to (p : eparams) (sensor trigger : Q) : Prop :=
  defaulted (ep_shed_aq p) (ep_aq p) sensor /\ defaulted (ep_on_t p) (ep_supply p) trigger.

(** Share of a day's water that load shifting is sized for. *)
Definition shifted_share (dt : data) (p : eparams) (fract : Q) : Prop :=
  (1 <= ep_ls_percent p /\ fract = 1) \/
  (0 < ep_ls_percent p < 1 /\ fract = qmin (da_icdf dt (ep_ls_percent p)) 1).

(** ** Temperature maintenance *)

(** Heat (BTU) the loop loses in an hour. *)
Definition hourly_loss (supply ret flow : Q) : Q := flow * 60 * rho_cp * (supply - ret).

(** The swing-tank sizes on the market. *)
Definition swing_sizes : list Z := [40; 50; 80; 100; 120; 160; 175; 240; 350; 400; 500; 600; 800; 1000; 1250]%Z.
(** [v] gallons suffice for the swing tank: a hundred watts of loss per gallon, and no minute that draws more
    than the tank holds. *)
Definition swing_suffices (loss daily : Q) (shape : list Q) (v : Q) : Prop :=
  loss <= v * (100 * (3412142 # 1000000)) /\ forall x, In x shape -> daily * x <= v * 60.

(** ** Parameters that can be sized *)
Record sizable (p : eparams) (b : building) (t : system_type) (inlet on_t : Q) : Prop := {
  sz_plain : without_schedule p;
  sz_hours : length (bd_peak b) = 24%nat;
  sz_demand : 0 < bd_daily b;
  sz_inlet : bd_design_inlet b = Ok (Some inlet);
  sz_trigger : defaulted (ep_on_t p) (ep_supply p) on_t;
  sz_run : 0 < ep_run p;
  sz_defrost : 0 < ep_defrost p;
  sz_temps : inlet < ep_supply p <= ep_storage p /\ on_t <= ep_storage p;
  sz_sensor : 0 <= ep_aq p /\ ep_aq p * 100 + (ep_supply p - on_t) / steepness t < 100 /\ ep_aq p < 1;
  sz_loop : recirculates t -> exists r f, ep_return p = Some r /\ ep_flow p = Some f /\ r <= ep_supply p /\ 0 <= f;
  sz_tm : t = ParallelLoop -> 1 < ep_tm_safety p /\ 0 < ep_tm_off_time p <= 1 /\
            (ep_tm_safety p - 1) * 20 < 60 * ep_tm_off_time p /\
            exists on off, defaulted (ep_tm_on p) (ep_supply p) on /\ defaulted (ep_tm_off p) (ep_supply p + 8) off /\ on < off;
  sz_swing : t = SwingTank -> 1 < ep_tm_safety p /\ (forall x, In x (bd_peak b) -> 0 <= x) /\
            (exists r f, ep_return p = Some r /\ ep_flow p = Some f /\
               swing_suffices (hourly_loss (ep_supply p) r f) (bd_daily b) (bd_peak b) 1250) /\
            forall x z, In x (bd_peak b) -> In z swing_sizes -> ~ bd_daily b * x == qz z * 60 }.

(** The loop's loss in kBTU per hour. *)
Definition loop_kbtuh (supply ret flow : Q) : Q := flow * (supply - ret) * rho_cp * 60 / 1000.
