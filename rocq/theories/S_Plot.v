(** Specification vocabulary for the figures of simulation runs (C69, C70). *)
From Verif Require Import Prelude M_StratifiedTank M_Building S_Building M_Utility S_Utility M_Heater M_SimRun S_SimRun M_Plot.
Open Scope Q_scope.

(** ** Stacked bars *)

(** The months of the year, as the graph labels them. *)
Definition calendar_months : list string :=
  ["Jan"; "Feb"; "Mar"; "Apr"; "May"; "Jun"; "Jul"; "Aug"; "Sep"; "Oct"; "Nov"; "Dec"]%string.

(** The height of the stack at label [x]: what all traces draw there. *)
Definition drawn_at (x : string) (t : bars) : Q :=
  qsum (map snd (filter (fun e => String.eqb (fst e) x) (combine (br_x t) (br_y t)))).
Definition stack (fig : list bars) (x : string) : Q := qsum (map (drawn_at x) fig).

(** [x] is what the run is billed in month [m]: the base charge, the energy charges of
    the steps of that month, and the demand charges of the periods these steps fall in. *)
Definition month_bill (r : sim_run) (u : tracker) (m : nat) (x : Q) : Prop :=
  exists rate period d charges mon pmon,
    rates_at r u rate period /\
    peak_list (length (sr_power r)) (billed_kw r) period d /\ demand_charged u d charges /\
    step_months (length (sr_power r)) (sr_iv r) mon /\
    (forall i, (i < length (sr_power r))%nat -> pmon (period i) = mon i) /\
    x == ut_base u
         + sum_if (length (sr_power r)) (fun i => Nat.eqb (mon i) m) (energy_charge (billed_kw r) (step_hours r) rate)
         + charge_if (fun k => Nat.eqb (pmon k) m) d charges.

(** ** Lines *)

(** The line [l] shows the value [f] of each of the steps [outs], at the minute the step begins. *)
Definition shows (iv : Z) (outs : list step_out) (f : step_out -> Q) (l : line) : Prop :=
  length (ln_x l) = length outs /\ length (ln_y l) = length outs /\
  forall i o, nth_error outs i = Some o ->
    nth_error (ln_x l) i = Some (Z.of_nat i * iv)%Z /\
    exists y, nth_error (ln_y l) i = Some y /\ y == f o.

(** Gallons per hour the reported heat warms from the inlet to the supply temperature (by one degree if
    they are closer). *)
Definition generated (supply : Q) (o : step_out) : Q :=
  so_output o * 1000 / (rho_cp * (if Qle_bool (supply - so_inlet o) 1 then 1 else supply - so_inlet o)).

(** What the lines of a simulation plot are expected to show. *)
Definition volume_lines (supply : Q) (iv : Z) : list (string * Z * bool * (step_out -> Q)) :=
  [("Usable Volume (gal at or above Supply Temp)"%string, 1%Z, false, so_usable);
   ("DHW Demand (gal/hr at Supply Temp)"%string, 1%Z, false, fun o => so_demand o * 60 / qz iv);
   ("Heater Generation (gal/hr at Supply Temperature)"%string, 1%Z, false, generated supply)].
Definition temperature_lines : list (string * Z * bool * (step_out -> Q)) :=
  [("OAT"%string, 1%Z, true, so_oat); ("Inlet Water"%string, 1%Z, true, so_inlet);
   ("Tank 0% (bottom)"%string, 1%Z, true, fun o => nth 0 (so_temps o) 0);
   ("Tank 20%"%string, 1%Z, true, fun o => nth 1 (so_temps o) 0);
   ("Tank 40%"%string, 1%Z, true, fun o => nth 2 (so_temps o) 0);
   ("Tank 60%"%string, 1%Z, true, fun o => nth 3 (so_temps o) 0);
   ("Tank 80%"%string, 1%Z, true, fun o => nth 4 (so_temps o) 0);
   ("Tank 100% (top)"%string, 1%Z, true, fun o => nth 5 (so_temps o) 0)].
Definition panel_lines : list (string * Z * bool * (step_out -> Q)) :=
  [("TM Heater Output (kBTU/hr)"%string, 2%Z, false, fun o => or0 (so_tm_output o));
   ("Swing Tank Temp"%string, 2%Z, true, fun o => or0 (so_tm_temp o))].
Definition line_shows (iv : Z) (outs : list step_out) (w : string * Z * bool * (step_out -> Q)) (l : line) : Prop :=
  let '(name, row, axis, f) := w in
  ln_name l = name /\ ln_row l = row /\ ln_right l = axis /\ shows iv outs f l.

(** ** Shading *)

(** The steps [a] .. [b - 1] are in mode [m], and no more around them. *)
Definition whole_block (modes : list string) (m : string) (a b : nat) : Prop :=
  (a < b)%nat /\ (forall k, (a <= k < b)%nat -> nth_error modes k = Some m) /\
  (a = O \/ nth_error modes (a - 1) <> Some m) /\ nth_error modes b <> Some m.

(** The instant [t] (in minutes) is shaded as [kind]. *)
Definition shaded (sh : list shade) (kind : string) (t : Q) : Prop :=
  exists s, In s sh /\ sh_kind s = kind /\ qz (sh_from s) <= t /\ t < qz (sh_to s).
