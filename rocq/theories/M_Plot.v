(** Model of the figures drawn from simulation runs: get_annual_utility_comparison_graph
    (/repo/src/ecoengine/interfaces/EcosizerEngine.py L213-319), SimulationRun.to_plotly
    (/repo/src/ecoengine/objects/simulation/SimulationRun.py L338-544) and
    EcosizerEngine.plot_simulation.  A plotly figure is its data: colours, fonts, axis titles and
    hover texts are left out, and so are the ImportError without plotly and writing HTML. *)
From Verif Require Import Prelude M_StratifiedTank M_MixedTank M_EnergyTank M_Building M_Utility M_Heater M_Sizing M_SimRun
  M_Step M_Swing M_MPRTP M_Engine.
Open Scope Q_scope.

(** ** Utility comparison *)

(** _MONTH_NAMES, EcosizerEngine.py L209. *)
Definition month_names : list string :=
  ["Jan"; "Feb"; "Mar"; "Apr"; "May"; "Jun"; "Jul"; "Aug"; "Sep"; "Oct"; "Nov"; "Dec"]%string.

(** One go.Bar trace. *)
Record bars := mkBars { br_name : string; br_x : list string; br_y : list Q }.

(** x_labels, L269-271. *)
Definition x_labels : list string := flat_map (fun n => [n; (n ++ " ")%string]) month_names.

(** _interleave, L275-283. *)
Definition interleave (values : list Q) (slot : Z) : list Q :=
  flat_map (fun v => if (slot =? 0)%Z then [v; 0] else [0; v]) values.

(** return_as_array=True, L251-261. *)
Definition comparison_array (hp iwh : sim_run) (u : tracker) : res (breakdown * breakdown) :=
  if (negb (sr_duration hp =? 365 * 24 * 60) || negb (sr_duration iwh =? 365 * 24 * 60))%Z%bool
  then Err ValueError
  else do a <- detailed_cost hp u; do b <- detailed_cost iwh u; Ok (a, b).

(** The pair of traces of one category, L293-303. *)
Definition category (label : string) (hp iwh : list Q) : list bars :=
  [mkBars (label ++ " for HP")%string x_labels (interleave hp 0);
   mkBars (label ++ " for UER")%string x_labels (interleave iwh 1)].

(** The figure, L285-319. *)
Definition comparison_graph (hp iwh : sim_run) (u : tracker) : res (list bars) :=
  do ab <- comparison_array hp iwh u;
  let '(a, b) := ab in
  let base := repeat (ut_base u) 12 in
  Ok (category "Base Charges" base base
      ++ category "Peak Energy Charges" (bk_energy_peak a) (bk_energy_peak b)
      ++ category "Off-Peak Energy Charges" (bk_energy_off a) (bk_energy_off b)
      ++ category "Peak Demand Charges" (bk_demand_peak a) (bk_demand_peak b)
      ++ category "Off-Peak Demand Charges" (bk_demand_off a) (bk_demand_off b)).

(** ** Simulation plot *)

(** One go.Scatter trace: its name, panel row, whether it uses the right axis, and its points. *)
Record line := mkLine { ln_name : string; ln_row : Z; ln_right : bool; ln_x : list Z; ln_y : list Q }.

(** One add_vrect: [kind] stands for the colour. *)
Record shade := mkShade { sh_from : Z; sh_to : Z; sh_kind : string; sh_text : string }.

(** _TANK_NODE_LABELS, SimulationRun.py L23. *)
Definition node_labels : list string :=
  ["Tank 0% (bottom)"; "Tank 20%"; "Tank 40%"; "Tank 60%"; "Tank 80%"; "Tank 100% (top)"]%string.

(** [[i * timestep_min for i in range(n)]], L397 and L464. *)
Definition step_times (iv : Z) (n : nat) : list Z := map (fun i => (Z.of_nat i * iv)%Z) (seq 0 n).

(** heater_gph, L431-437; the divisor is at least _RHO_CP. *)
Definition heater_gph (supply : Q) (out inlet : list Q) : list Q :=
  map (fun x => fst x * 1000 / (rho_cp * qmax 1 (supply - snd x))) (combine out inlet).

(** The inner while, L490-492: how many of the next steps are in mode [m] too. *)
Fixpoint run_length (m : string) (l : list string) : nat :=
  match l with
  | x :: r => if String.eqb x m then S (run_length m r) else O
  | [] => O
  end.

(** The keys of _LS_COLORS, L482. *)
Definition is_ls_mode (m : string) : bool := (String.eqb m "shed" || String.eqb m "loadUp")%bool.

(** The outer while, L486-510: [l] are the modes from step [i] on, [seen] is _LS_LEGEND_ADDED. *)
Fixpoint shades (fuel : nat) (times : list Z) (iv : Z) (l : list string) (i : nat) (seen : list string)
  : res (list shade) :=
  match fuel, l with
  | _, [] => Ok []
  | O, _ => Err OutOfFuel
  | S f, m :: r =>
      if is_ls_mode m then
        let j := (i + 1 + run_length m r)%nat in
        do x0 <- py_nth times (Z.of_nat i);
        do x1 <- py_nth times (Z.of_nat j - 1);
        do rest <- shades f times iv (skipn (run_length m r) r) j (m :: seen);
        Ok (mkShade x0 (x1 + iv) m
              (if existsb (String.eqb m) seen then ""
               else if String.eqb m "shed" then "Shed" else "Load-Up")%string :: rest)
      else shades f times iv r (i + 1) seen
  end.

(** to_plotly, L338-544 (temperature labels without their unit sign), after the run's supply_temp_f was set to [supply] (Simulator.py L79). *)
Definition run_plot (supply : option Q) (r : sim_run) (temperatures : bool) : res (list line * list shade) :=
  let time := step_times (sr_iv r) (length (sr_demand r)) in
  do per_hour <- qdiv 60 (qz (sr_iv r));
  let volume :=
    [mkLine "Usable Volume (gal at or above Supply Temp)" 1 false time (sr_usable r);
     mkLine "DHW Demand (gal/hr at Supply Temp)" 1 false time (map (fun v => v * per_hour) (sr_demand r))] in
  let heater :=
    match supply with
    | Some t => [mkLine "Heater Generation (gal/hr at Supply Temperature)" 1 false time
                   (heater_gph t (sr_output r) (sr_inlet r))]
    | None => []
    end in
  let temps :=
    if temperatures then
      mkLine "OAT" 1 true time (sr_oat r) :: mkLine "Inlet Water" 1 true time (sr_inlet r)
      :: flat_map (fun x => match snd x with
                            | [] => []
                            | ts => [mkLine (fst x) 1 true time ts]
                            end) (combine node_labels (sr_temps r))
    else [] in
  let panel :=
    if sr_show_tm r then
      let tm_time := step_times (sr_iv r) (length (sr_tm_temp r)) in
      [mkLine "TM Heater Output (kBTU/hr)" 2 false tm_time (sr_tm_output r);
       mkLine "Swing Tank Temp" 2 true tm_time (sr_tm_temp r)]
    else [] in
  do sh <- shades (length (sr_mode r)) time (sr_iv r) (sr_mode r) 0 [];
  Ok (volume ++ heater ++ temps ++ panel, sh).

(** The attribute supply_temp_f of the simulated system (Simulator.py L79). *)
Definition sim_supply (s : esys) : Q :=
  match s with
  | EPrimary _ x => bs_supply x | EParallel _ x => bs_supply (ps_base x) | ESwing _ x => ws_supply x
  | ESprtp _ _ _ x => bs_supply x | EMprtp x => ms_supply (mb_sys x) | EInstant d => dh_supply d
  end.

(** plot_simulation, EcosizerEngine.py L1246-1288: the engine as the simulation leaves it and the
    figure, whose run has the default stop rule (SimulationRun.py L41-42). *)
Definition eng_plot_simulation (e : engine) (temperatures : bool) : res (engine * (list line * list shade)) :=
  do x <- eng_simulate e "3day" 5 10;
  let '(e', r) := x in
  do f <- run_plot (Some (sim_supply (en_system e))) r temperatures;
  Ok (e', f).

(** get_annual_cost_estimate, EcosizerEngine.py L1221-1234: the one entry of the dictionary. *)
Definition annual_cost_estimate (r : sim_run) : res (list Q) := monthly_energy r.
