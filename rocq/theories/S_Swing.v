(** Specification vocabulary for the swing-tank properties C43-C46, independent of the model. *)
From Verif Require Import Prelude.
Open Scope Q_scope.

(** A swing tank: temperatures in F, volume in gallons, rates in kBTU/h. *)
Record swing_tank := mkTank {
  tk_supply : Q; tk_storage : Q; tk_inlet : Q; tk_loss : Q; tk_vol : Q; tk_cap : Q }.

(** BTU per gallon and degree. *)
Definition btu_gal_f : Q := 8353535 # 1000000.

(** Heat (BTU) that one minute at [rate] kBTU/h carries. *)
Definition minute_btu (rate : Q) : Q := rate * 1000 / 60.

(** Sensible physical data: a real tank, a loss that is not a gain, an element at least as strong
    as the loss, inlet below supply, storage at or above supply. *)
Definition sensible (k : swing_tank) : Prop :=
  0 < tk_vol k /\ 0 <= tk_loss k /\ tk_loss k <= tk_cap k /\ tk_inlet k < tk_supply k /\
  tk_supply k <= tk_storage k.

(** Temperature after drawing [hw] gallons, refilled at [feed], and losing a minute of loss heat. *)
Definition idle_temp (k : swing_tank) (t hw feed t2 : Q) : Prop :=
  tk_vol k * btu_gal_f * (t2 - t) == hw * btu_gal_f * (feed - t) - minute_btu (tk_loss k).

(** One minute of the element with its 8-degree deadband above supply: it starts at or below
    supply and stops at supply + 8; [run] is the part of the minute it is on. *)
Definition thermostat (k : swing_tank) (on : bool) (t2 : Q) (on' : bool) (t' run : Q) : Prop :=
  tk_vol k * btu_gal_f * (t' - t2) == run * minute_btu (tk_cap k) /\ 0 <= run <= 1 /\
  match on with
  | false => (tk_supply k < t2 /\ on' = false /\ run == 0) \/
             (t2 <= tk_supply k /\ on' = true /\ (run == 1 \/ t' == tk_supply k) /\ t' <= tk_supply k)
  | true => (on' = true /\ run == 1 /\ t' <= tk_supply k + 8) \/
            (on' = false /\ tk_supply k + 8 <= t' /\ (run == 0 \/ t' == tk_supply k + 8) /\
             tk_vol k * btu_gal_f * (tk_supply k + 8 - t2) < minute_btu (tk_cap k))
  end.

(** The draw [hw] at tank temperature [t] that gives the heat of [demand] gallons at supply. *)
Definition meets_demand (k : swing_tank) (t demand hw : Q) : Prop :=
  hw * (t - tk_inlet k) == demand * (tk_supply k - tk_inlet k).

(** The tank over the minutes of a demand list, fed at storage temperature: per minute the
    temperature after it, the part of the minute the element ran and the draw. *)
Inductive swing_days (k : swing_tank) : bool -> Q -> list Q -> list (Q * Q * Q) -> Prop :=
| sd_nil : forall on t, swing_days k on t [] []
| sd_cons : forall on t demand r on' t2 t' run hw rest,
    meets_demand k t demand hw ->
    idle_temp k t hw (tk_storage k) t2 ->
    thermostat k on t2 on' t' run ->
    swing_days k on' t' r rest ->
    swing_days k on t (demand :: r) ((t', run, hw) :: rest).

(** ** Hours and minutes *)

(** Demand per minute, minute [n] of the days that start at hour [start] of a daily shape. *)
Definition minute_demand (daily : Q) (shape : list Q) (start n : nat) : Q :=
  daily * nth ((start + n / 60) mod length shape) shape 0 / 60.

(** Sum of the first [n] values of [f]. *)
Fixpoint total (f : nat -> Q) (n : nat) : Q :=
  match n with O => 0 | S m => total f m + f m end.

(** Minutes of a day. *)
Definition day_minutes : nat := (24 * 60)%nat.

(** Hour [i] is a deficit hour (share of the daily demand above [1 / run]) after an hour without. *)
Definition onset (run : Q) (shape : list Q) (i : nat) : Prop :=
  (i < 24)%nat /\ 1 / run < nth i shape 0 /\ nth ((i + 23) mod 24) shape 0 <= 1 / run.

(** The hours from which sizing starts its days: the onsets and the hours after them. *)
Definition probed (run : Q) (shape : list Q) (i : nat) : Prop :=
  (i < 24)%nat /\ (onset run shape i \/ exists j, onset run shape j /\ i = S j).

(** [draw n] is the draw on the primary in minute [n] of a day from hour [i]: the first minute is
    the demand itself, then the tank, starting 0.1 above supply with its element off, is followed. *)
Definition day_draws (k : swing_tank) (daily : Q) (shape : list Q) (i : nat) (draw : nat -> Q) : Prop :=
  draw 0%nat == minute_demand daily shape i 0 /\
  exists tr, swing_days k false (tk_supply k + (1 # 10))
               (map (minute_demand daily shape i) (seq 1 (day_minutes - 1))) tr /\
    (forall n, (n < day_minutes - 1)%nat -> draw (S n) == snd (nth n tr (0, 0, 0))) /\
    (forall t run hw, In (t, run, hw) tr -> tk_supply k <= t).

(** A primary store holding [W] gallons at hour [i], generating all day at the rate that makes
    [mix] times the daily demand in [run] hours, where [mix] is the day's draw relative to the daily
    demand, never runs out during the day. *)
Definition day_covered (k : swing_tank) (run daily : Q) (shape : list Q) (i : nat) (W mix : Q) (draw : nat -> Q) : Prop :=
  day_draws k daily shape i draw /\ mix * daily == total draw day_minutes /\
  forall n, (n <= day_minutes)%nat -> 0 <= W - total (fun j => draw j - daily * mix / run / 60) n.

(** ** Resistance trade-off (C46) *)

(** The water the primary delivers: [hw] gallons, of which up to [hot] are at storage temperature
    and the rest at inlet temperature. *)
Definition feed_heat (k : swing_tank) (hw hot feed : Q) : Prop :=
  hw * (feed - tk_inlet k) == qmin hw (qmax 0 hot) * (tk_storage k - tk_inlet k).

(** A primary store of size [full], generating [gen] gallons a minute, and the swing tank with its
    base element; a shortfall below supply is topped up to supply.  The list holds the shortfall
    (degrees below supply before topping up) of each minute. *)
Inductive er_days (k : swing_tank) (gen full : Q) : bool -> Q -> Q -> list Q -> list Q -> Prop :=
| ed_nil : forall on t level, er_days k gen full on t level [] []
| ed_cons : forall on t level demand r hw feed t2 on' t3 run short rest t' level',
    meets_demand k t demand hw ->
    feed_heat k hw (level + gen) feed ->
    idle_temp k t hw feed t2 ->
    thermostat k on t2 on' t3 run ->
    short == qmax 0 (tk_supply k - t3) -> t' == t3 + short ->
    level' == qmin (qmax (level + gen - hw) 0) full ->
    er_days k gen full on' t' level' r rest ->
    er_days k gen full on t level (demand :: r) (short :: rest).

(** The hour the resistance sizing starts from: the first onset, or midnight without one. *)
Definition first_onset (run : Q) (shape : list Q) (i : nat) : Prop :=
  (onset run shape i /\ forall j, onset run shape j -> (i <= j)%nat) \/
  ((forall j, ~ onset run shape j) /\ i = 0%nat).

(** Minutes of two days. *)
Definition two_days : nat := (48 * 60)%nat.

(** C45: a tank of [v] gallons is adequate when it holds 100 W per gallon of recirculation loss
    ([loss] in kBTU/h) and the demand of the largest minute. *)
Definition needs (loss daily : Q) (shape : list Q) (v : Q) : Prop :=
  loss * 1000 <= v * (100 * (3412142 # 1000000)) /\ forall x, In x shape -> daily * x <= v * 60.
