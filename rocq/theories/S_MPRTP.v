(** Specification vocabulary for the multi-pass systems (C48, C49, C62). *)
From Verif Require Import Prelude M_StratifiedTank M_EnergyTank M_Building M_Heater M_SimRun M_Step S_Step M_MPRTP.
Open Scope Q_scope.

(** ** Mixing valve *)

(** Ordinary operation: mains colder than supply and no warmer than the return, the return no
    warmer than supply, supply colder than the storage outlet; no negative flows. *)
Record ordinary (load flow cold supply ret hot : Q) : Prop := {
  or_load : 0 <= load; or_flow : 0 <= flow; or_cold : cold <= ret; or_lift : cold < supply; or_ret : ret <= supply; or_hot : supply < hot }.

(** Heat (per gallon-degree) that users and loop take. *)
Definition heat_taken (load flow cold supply ret : Q) : Q := load * (supply - cold) + flow * (supply - ret).

(** ** Growing slug

    Water enters the tank in minute [i] as [draw i] gallons at [inlet i]; a heater adds [q] BTU a
    minute.  The minutes [a], ..., [a + n - 1] form one batch. *)
Definition batch_vol (draw : nat -> Q) (a n : nat) : Q := qsum (map draw (seq a n)).
Definition batch_heat (draw inlet : nat -> Q) (a n : nat) : Q :=
  qsum (map (fun i => draw i * inlet i) (seq a n)).

(** The batch, mixed, with the heat of its minutes in it, is at least as hot as [storage]. *)
Definition batch_served (draw inlet : nat -> Q) (q storage : Q) (a n : nat) : Prop :=
  storage * batch_vol draw a n <= batch_heat draw inlet a n + qz (Z.of_nat n) * q / rho_cp.

(** A batch begins in minute 0, and in the minute after a batch has been served. *)
Inductive batch_begins (draw inlet : nat -> Q) (q storage : Q) : nat -> Prop :=
  | begins_first : batch_begins draw inlet q storage 0
  | begins_next a n : batch_begins draw inlet q storage a -> (0 < n)%nat ->
      (forall k, (0 < k < n)%nat -> ~ batch_served draw inlet q storage a k) ->
      batch_served draw inlet q storage a n -> batch_begins draw inlet q storage (a + n).

(** The batch begun in minute [a] is still waiting after [n] minutes. *)
Definition batch_waits (draw inlet : nat -> Q) (q storage : Q) (a n : nat) : Prop :=
  batch_begins draw inlet q storage a /\
  forall k, (0 < k <= n)%nat -> ~ batch_served draw inlet q storage a k.

(** ** Simulation *)

(** What every reported step of a multi-pass simulation satisfies: the demand and the mains temperature are
    the building's, the usable volume is possible, and the six temperatures lie between mains and
    storage temperature. *)
Record mp_possible (b : building) (storage usable_max : Q) (t iv : Z) (o : step_out) : Prop := {
  mp_demand : bd_load b t iv false = Ok (so_demand o);
  mp_inlet : bd_inlet b t iv = Ok (so_inlet o);
  mp_usable : 0 <= so_usable o <= usable_max;
  mp_six : length (so_temps o) = 6%nat;
  mp_range : forall x, In x (so_temps o) -> so_inlet o <= x <= storage;
  mp_gives : 0 <= so_output o }.

(** A tank as the constructor makes it: positive size and stratification, a usable share that is
    the part above the inlet. *)
Definition slug_tank (t : slug) : Prop :=
  (0 < en_vol (sl_base t) /\ 0 < en_slope (sl_base t) /\ 0 < sl_pu t <= 1) /\
  en_cold_pct (sl_base t) == (1 - sl_pu t) * 100 /\ sl_max t == sl_pu t * en_vol (sl_base t).

(** A heater that answers in the building's weather, without an inlet temperature, and whose capacity is then not
    negative. *)
Definition productive (b : building) (h : heater) : Prop :=
  forall t iv oat outlet, bd_oat b t iv = Ok oat ->
  exists c w, wh_capacity h (Some oat) outlet None = Ok c /\ (forall x, c = Some x -> 0 <= x) /\ wh_power h (Some oat) outlet None = Ok w.

(** A multi-pass plant in its building: mains water never below [lo], no warmer than the loop
    return and colder than supply; the return no warmer than supply, supply colder than storage. *)
Record mp_plant (lo : Q) (b : building) (s : msys) : Prop := {
  pl_complete : complete b;
  pl_scheduled : Forall scheduled (ms_heaters s);
  pl_rated : Forall (productive b) (ms_heaters s);
  pl_tank : slug_tank (ms_tank s);
  pl_load : forall t iv x, (0 < iv)%Z -> bd_load b t iv false = Ok x -> 0 <= x;
  pl_mains : forall t iv x, bd_inlet b t iv = Ok x -> lo <= x /\ x <= ms_return s /\ x < ms_supply s;
  pl_start : forall di, bd_design_inlet b = Ok di -> lo <= sim_inlet di < ms_storage s;
  pl_return : ms_return s <= ms_supply s;
  pl_supply : ms_supply s < ms_storage s;
  pl_flow : 0 <= ms_flow s }.

(** What makes a step impossible: the water at the top of the tank is exactly at supply
    temperature, or exactly as cold as the mains, or there is nothing to serve. *)
Definition valve_undefined (demand loop_heat inlet supply top : Q) : Prop :=
  top == supply \/ top == inlet \/ (demand == 0 /\ loop_heat == 0).
