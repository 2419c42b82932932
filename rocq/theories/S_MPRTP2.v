(** Specification vocabulary for the capacity boost of multi-pass systems (C49). *)
From Verif Require Import Prelude M_StratifiedTank M_EnergyTank M_Building M_Heater M_Sizing M_SimRun M_Step S_SimRun M_MPRTP.
Open Scope Q_scope.

(** In minute [i] no usable water was left and the top of the tank was at [top], below [supply]. *)
Definition short_minute (supply : Q) (outs : list step_out) (i : nat) (top : Q) : Prop :=
  exists o, nth_error outs i = Some o /\ so_usable o <= 0 /\ last (so_temps o) 0 = top /\ top < supply.

(** The coldest such minute, the earliest if there are several. *)
Record worst_minute (supply : Q) (outs : list step_out) (i : nat) (top : Q) : Prop := {
  wm_short : short_minute supply outs i top;
  wm_coldest : forall j t, short_minute supply outs j t -> top <= t;
  wm_earliest : forall j t, short_minute supply outs j t -> (j < i)%nat -> top < t }.

(** The heater came on in minute [j]: it gives heat, and gave none in the minute before, if any. *)
Definition came_on (outs : list step_out) (j : nat) : Prop :=
  (exists o, nth_error outs j = Some o /\ 0 < so_output o) /\
  (forall k o, S k = j -> nth_error outs k = Some o -> so_output o <= 0).

(** [k] is the last minute up to [i] in which the heater came on, or 0 if it never did. *)
Definition on_since (outs : list step_out) (i k : nat) : Prop :=
  (k <= i)%nat /\ (forall j, (k < j <= i)%nat -> ~ came_on outs j) /\
  (came_on outs k \/ (k = 0%nat /\ ~ came_on outs 0)).

(** What the increase is computed from, for a tank of [vol] gallons of which the part [pu] lies above the inlet: the
    heat missing at the worst minute, to be brought in the time since the heater came on. *)
Definition missing_kbtuh (vol pu supply top : Q) (i k : nat) : Q :=
  vol * pu * rho_cp * (supply - top) / 1000 / (qz (Z.of_nat i - Z.of_nat k) / 60).

(** One round: enough, or more capacity. *)
Inductive round_says (vol pu supply cap : Q) (outs : list step_out) : option Q -> Prop :=
  | says_never_short : (forall i top, ~ short_minute supply outs i top) -> round_says vol pu supply cap outs None
  | says_just_on i top : worst_minute supply outs i top -> on_since outs i i -> round_says vol pu supply cap outs None
  | says_more i k top cap' : worst_minute supply outs i top -> on_since outs i k -> (k < i)%nat ->
      cap' == cap + missing_kbtuh vol pu supply top i k -> round_says vol pu supply cap outs (Some cap').

(** The days tried with capacity [cap]: [days] days of one-minute steps from the given fill. *)
Definition tried (b : building) (days : nat) (inlet fill : Q) (s s' : msys) (outs : list step_out) : Prop :=
  exists tk, sl_initialize (ms_tank s) (ms_storage s) inlet fill = Ok tk /\
    length outs = (1440 * days)%nat /\
    executed (mp_step b) 1 (mkMsys (ms_heaters s) tk (ms_supply s) (ms_storage s) (ms_return s) (ms_flow s)) 0 outs s'.

(** The whole search, [iters] rounds at most: what system and capacity it ends with. *)
Inductive boost_search (b : building) (days : nat) (vol pu inlet fill : Q) (sched : option schedule) (m : option ctl_map)
  : nat -> msys -> Q -> msys -> Q -> Prop :=
  | search_over s cap : boost_search b days vol pu inlet fill sched m 0 s cap s cap
  | search_enough n s s' cap outs : tried b days inlet fill s s' outs -> round_says vol pu (ms_supply s) cap outs None ->
      boost_search b days vol pu inlet fill sched m (S n) s cap s' cap
  | search_more n s s1 cap cap1 outs s' cap' : tried b days inlet fill s s1 outs ->
      round_says vol pu (ms_supply s) cap outs (Some cap1) ->
      boost_search b days vol pu inlet fill sched m n
        (mkMsys [wh_new (Some (PmNominal cap1)) sched m] (ms_tank s1) (ms_supply s) (ms_storage s) (ms_return s) (ms_flow s)) cap1 s' cap' ->
      boost_search b days vol pu inlet fill sched m (S n) s cap s' cap'.
