(** Model of /repo/src/ecoengine/objects/simulation/SimulationRun.py and of the loop of
    /repo/src/ecoengine/interfaces/Simulator.py.

    A system is abstracted to its state type and one function, the outcome of simulate_step; the
    models of the systems supply it. *)
From Verif Require Import Prelude M_Building M_Utility M_Heater.

(** What simulate_step returns (the dict read in Simulator.py L84-106).  The [option]s of the
    last four are keys that may be missing, and of the power also an explicit None. *)
Record step_out := mkStep {
  so_demand : Q; so_usable : Q; so_output : Q; so_power : option Q; so_oat : Q; so_inlet : Q;
  so_temps : list Q; so_mode : string;
  so_tm_temp : option Q; so_tm_output : option Q; so_tm_kw : option Q; so_delivery : option Q }.

(** SimulationRun.__init__, SimulationRun.py L38-93 (supply_temp_f, only read by plots, left out). *)
Record sim_run := mkRun {
  sr_duration : Z; sr_iv : Z;
  sr_demand : list Q; sr_usable : list Q; sr_output : list Q; sr_power : list (option Q);
  sr_oat : list Q; sr_inlet : list Q; sr_mode : list string; sr_temps : list (list Q);
  sr_tm_temp : list Q; sr_tm_output : list Q; sr_tm_kw : list Q;
  sr_outage : Z; sr_show_tm : bool;
  sr_thr : Q; sr_max : Z; sr_consec : Z; sr_stopped : bool }.

Definition sr_new (duration iv : Z) (thr : Q) (maxm : Z) (show_tm : bool) : sim_run :=
  mkRun duration iv [] [] [] [] [] [] [] [[]; []; []; []; []; []] [] [] [] 0 show_tm thr maxm 0 false.

(** The loop over tank nodes, SimulationRun.py L147-148. *)
Fixpoint record_nodes (cols : list (list Q)) (temps : list Q) : res (list (list Q)) :=
  match temps, cols with
  | [], _ => Ok cols
  | t :: ts, c :: cs => do r <- record_nodes cs ts; Ok ((c ++ [t]) :: r)
  | _ :: _, [] => Err IndexError
  end.

(** [if x is not None: list.append(x)], L149-154. *)
Definition append_some (l : list Q) (x : option Q) : list Q :=
  match x with Some v => l ++ [v] | None => l end.

(** record_timestep, SimulationRun.py L95-154. *)
Definition record_timestep (r : sim_run) (o : step_out) : res sim_run :=
  do nodes <- record_nodes (sr_temps r) (so_temps o);
  Ok (mkRun (sr_duration r) (sr_iv r)
        (sr_demand r ++ [so_demand o]) (sr_usable r ++ [so_usable o]) (sr_output r ++ [so_output o])
        (sr_power r ++ [so_power o]) (sr_oat r ++ [so_oat o]) (sr_inlet r ++ [so_inlet o])
        (sr_mode r ++ [so_mode o]) nodes
        (append_some (sr_tm_temp r) (so_tm_temp o)) (append_some (sr_tm_output r) (so_tm_output o))
        (append_some (sr_tm_kw r) (so_tm_kw o))
        (sr_outage r) (sr_show_tm r) (sr_thr r) (sr_max r) (sr_consec r) (sr_stopped r)).

Definition sr_set (r : sim_run) (outage consec : Z) (stopped : bool) : sim_run :=
  mkRun (sr_duration r) (sr_iv r) (sr_demand r) (sr_usable r) (sr_output r) (sr_power r)
    (sr_oat r) (sr_inlet r) (sr_mode r) (sr_temps r) (sr_tm_temp r) (sr_tm_output r) (sr_tm_kw r)
    outage (sr_show_tm r) (sr_thr r) (sr_max r) consec stopped.

(** record_outage, SimulationRun.py L186-195. *)
Definition record_outage (r : sim_run) (minutes : Z) : sim_run :=
  sr_set r (sr_outage r + minutes) (sr_consec r) (sr_stopped r).

(** check_outlet_deficit, SimulationRun.py L156-184. *)
Definition check_outlet_deficit (r : sim_run) (top supply : Q) : sim_run * bool :=
  if qltb top (supply - sr_thr r)
  then let c := (sr_consec r + sr_iv r)%Z in
       if (sr_max r <? c)%Z then (sr_set r (sr_outage r) c true, true)
       else (sr_set r (sr_outage r) c (sr_stopped r), false)
  else (sr_set r (sr_outage r) 0 (sr_stopped r), false).

(** [step.get("delivery_temp_f", step["tank_temps_f"][-1])], Simulator.py L108: the default is
    evaluated first. *)
Definition delivery_temp (o : step_out) : res Q :=
  do top <- py_nth (so_temps o) (-1);
  Ok (match so_delivery o with Some d => d | None => top end).

(** Loop body and loop of simulate, Simulator.py L82-110: [n] steps left, next step [i]. *)
Fixpoint sim_loop {St} (stp : St -> Z -> Z -> res (St * step_out)) (supply : Q) (n : nat) (i : Z)
    (s : St) (r : sim_run) : res (St * sim_run) :=
  match n with
  | O => Ok (s, r)
  | S n' =>
      do so <- stp s i (sr_iv r);
      let '(s', o) := so in
      do r1 <- record_timestep r o;
      let r2 := if Qle_bool (so_usable o) 0 then record_outage r1 (sr_iv r) else r1 in
      do d <- delivery_temp o;
      let '(r3, stop) := check_outlet_deficit r2 d supply in
      if stop then Ok (s', r3) else sim_loop stp supply n' (i + 1) s' r3
  end.

(** simulate, Simulator.py L11-110, after the tanks are initialised: durations and timesteps. *)
Definition sim_times (duration : string) : res (Z * Z) :=
  if String.eqb duration "3day" then Ok (4320, 1)%Z
  else if String.eqb duration "annual" then Ok (525600, 10)%Z
  else Err ValueError.

Definition simulate {St} (stp : St -> Z -> Z -> res (St * step_out)) (s0 : St) (supply : Q)
    (duration : string) (thr : Q) (maxm : Z) (show_tm : bool) : res (St * sim_run) :=
  do t <- sim_times duration;
  let '(dur, iv) := t in
  sim_loop stp supply (Z.to_nat (dur / iv)) 0 s0 (sr_new dur iv thr maxm show_tm).

(** [building.get_design_inlet_water_temp_f() or 50.0], Simulator.py L60: 0.0 is falsy. *)
Definition sim_inlet (x : option Q) : Q :=
  match x with Some t => if Qeq_bool t 0 then 50 else t | None => 50 end.

(** _initial_percent_useable, Simulator.py L153-172.  A heater without control map is skipped;
    one with an empty map too. *)
Fixpoint initial_percent (hs : list heater) : Q :=
  match hs with
  | [] => 1
  | h :: rest =>
      match wh_map h with
      | None => initial_percent rest
      | Some d =>
          match (match dict_get d "normal"%string with
                 | Some c => Some c
                 | None => match d with (_, c) :: _ => Some c | [] => None end
                 end) with
          | Some c => qmax 0 (qmin 1 (1 - ct_on_sensor c))
          | None => initial_percent rest
          end
      end
  end.

(** *** Results *)

(** is_successful, SimulationRun.py L197-210. *)
Definition is_successful (r : sim_run) (max_outage : Z) : bool := (sr_outage r <=? max_outage)%Z.

(** [p or 0.0]. *)
Definition or0 (p : option Q) : Q := match p with Some x => x | None => 0 end.

(** get_failure_message, SimulationRun.py L212-251: the values in the text (its wording and the
    rounding to one decimal left out). *)
Inductive message := MsgSucceeded | MsgOutage (minutes : Z) | MsgOutageOn (minutes day : Z) (avg : Q).

Fixpoint outage_steps (i : Z) (l : list Q) : list Z :=
  match l with
  | [] => []
  | v :: r => if Qle_bool v 0 then i :: outage_steps (i + 1) r else outage_steps (i + 1) r
  end.

Definition failure_message (r : sim_run) : res message :=
  if is_successful r 0 then Ok MsgSucceeded
  else
    match outage_steps 0 (sr_usable r) with
    | [] => Ok (MsgOutage (sr_outage r))
    | (first :: _) as steps =>
        let day := (first * sr_iv r / (24 * 60) + 1)%Z in
        do temps <- (match sr_show_tm r, sr_tm_temp r with
                     | true, _ :: _ => Ok (sr_tm_temp r)
                     | _, _ => py_nth (sr_temps r) 5
                     end);
        do xs <- mapM (py_nth temps) steps;
        do avg <- qdiv (qsum xs) (qz (Z.of_nat (length steps)));
        Ok (MsgOutageOn (sr_outage r) day avg)
    end.

(** get_total_energy_kwh, SimulationRun.py L253-268. *)
Definition total_energy (r : sim_run) : Q :=
  let h := qz (sr_iv r) / 60 in
  qsum (map (fun p => or0 p * h) (sr_power r)) + qsum (map (fun p => p * h) (sr_tm_kw r)).

(** get_peak_demand_kw, SimulationRun.py L270-279. *)
Fixpoint somes {A} (l : list (option A)) : list A :=
  match l with [] => [] | Some x :: r => x :: somes r | None :: r => somes r end.
Definition peak_demand (r : sim_run) : Q :=
  match somes (sr_power r) with [] => 0 | x :: l => qmaxl x l end.

(** The kW of step [i]: primary plus temperature-maintenance power at the same index,
    SimulationRun.py L567-569 and L643-645. *)
Definition step_kw (tm : list Q) (i : nat) (raw : option Q) : Q :=
  match nth_error tm i with Some x => or0 raw + x | None => or0 raw end.

(** [if period not in d or kw > d[period]: d[period] = kw], L575-576. *)
Definition put_max (d : list (Z * Q)) (p : Z) (kw : Q) : list (Z * Q) :=
  match zget d p with
  | Some x => if qltb x kw then zset d p kw else d
  | None => zset d p kw
  end.

(** [kw * hours * rate] with a rate that may be None. *)
Definition step_cost (kw hours : Q) (rate : option Q) : res Q :=
  match rate with Some x => Ok (kw * hours * x) | None => Err TypeError end.

(** The loop of get_annual_utility_cost, L566-576. *)
Fixpoint annual_loop (u : tracker) (iv : Z) (tm : list Q) (i : nat) (l : list (option Q))
    (cost : Q) (d : list (Z * Q)) : res (Q * list (Z * Q)) :=
  match l with
  | [] => Ok (cost, d)
  | raw :: rest =>
      let kw := step_kw tm i raw in
      do rate <- ut_energy_at u (Z.of_nat i) iv;
      do c <- step_cost kw (qz iv / 60) rate;
      do p <- ut_period_at u (Z.of_nat i) iv;
      annual_loop u iv tm (i + 1) rest (cost + c) (put_max d p kw)
  end.

(** get_annual_utility_cost, SimulationRun.py L546-581. *)
Definition annual_cost (r : sim_run) (u : tracker) : res Q :=
  do x <- annual_loop u (sr_iv r) (sr_tm_kw r) 0 (sr_power r) 0 [];
  let '(energy, d) := x in
  do demand <- mapM (fun e => ut_demand_charge u (fst e) (snd e)) d;
  Ok (energy + qsum demand + ut_yearly_base u).

(** _step_to_month, SimulationRun.py L13-19 (the same scan as _hour_to_month). *)
Definition step_to_month (i iv : Z) : Z := hour_scan (i * iv / 60) 12.

(** [l[m] += x] for 0 <= m < len(l). *)
Fixpoint add_at (l : list Q) (m : nat) (x : Q) : list Q :=
  match l, m with
  | [], _ => []
  | y :: r, O => (y + x) :: r
  | y :: r, S m' => y :: add_at r m' x
  end.

Definition zeros12 : list Q := repeat 0 12.

Definition periods_per_month (u : tracker) : Z := if ut_include_discount u then 3 else 2.

(** The loop of get_monthly_cost_breakdown, L602-612: primary power only. *)
Fixpoint monthly_loop (u : tracker) (iv : Z) (i : nat) (l : list (option Q))
    (en : list Q) (d : list (Z * Q)) : res (list Q * list (Z * Q)) :=
  match l with
  | [] => Ok (en, d)
  | raw :: rest =>
      let kw := or0 raw in
      do rate <- ut_energy_at u (Z.of_nat i) iv;
      do c <- step_cost kw (qz iv / 60) rate;
      let en' := add_at en (Z.to_nat (step_to_month (Z.of_nat i) iv)) c in
      do p <- ut_period_at u (Z.of_nat i) iv;
      monthly_loop u iv (i + 1) rest en' (put_max d p kw)
  end.

(** Demand charges by month, L616-621. *)
Fixpoint monthly_demand (u : tracker) (d : list (Z * Q)) (dm : list Q) : res (list Q) :=
  match d with
  | [] => Ok dm
  | (p, kw) :: rest =>
      let m := (p / periods_per_month u)%Z in
      if ((0 <=? m) && (m <? 12))%Z%bool
      then do c <- ut_demand_charge u p kw; monthly_demand u rest (add_at dm (Z.to_nat m) c)
      else monthly_demand u rest dm
  end.

(** get_monthly_cost_breakdown, SimulationRun.py L583-625: energy, demand, base. *)
Definition monthly_cost (r : sim_run) (u : tracker) : res (list Q * list Q * Q) :=
  do x <- monthly_loop u (sr_iv r) 0 (sr_power r) zeros12 [];
  let '(en, d) := x in
  do dm <- monthly_demand u d zeros12;
  Ok (en, dm, ut_base u).

(** [uc.is_peak_map.get(period, False)]. *)
Definition is_peak (u : tracker) (p : Z) : bool :=
  match zget (ut_peak u) p with Some b => b | None => false end.

(** The loop of get_monthly_cost_breakdown_detailed, L642-656. *)
Fixpoint detailed_loop (u : tracker) (iv : Z) (tm : list Q) (i : nat) (l : list (option Q))
    (ep eo : list Q) (d : list (Z * Q)) : res (list Q * list Q * list (Z * Q)) :=
  match l with
  | [] => Ok (ep, eo, d)
  | raw :: rest =>
      let kw := step_kw tm i raw in
      do p <- ut_period_at u (Z.of_nat i) iv;
      do rate <- ut_energy_at u (Z.of_nat i) iv;
      let m := Z.to_nat (step_to_month (Z.of_nat i) iv) in
      do c <- step_cost kw (qz iv / 60) rate;
      let ep' := if is_peak u p then add_at ep m c else ep in
      let eo' := if is_peak u p then eo else add_at eo m c in
      detailed_loop u iv tm (i + 1) rest ep' eo' (put_max d p kw)
  end.

(** Demand charges by month and kind, L661-668. *)
Fixpoint detailed_demand (u : tracker) (d : list (Z * Q)) (dp dq : list Q) : res (list Q * list Q) :=
  match d with
  | [] => Ok (dp, dq)
  | (p, kw) :: rest =>
      let m := (p / periods_per_month u)%Z in
      if ((0 <=? m) && (m <? 12))%Z%bool
      then do c <- ut_demand_charge u p kw;
           if is_peak u p then detailed_demand u rest (add_at dp (Z.to_nat m) c) dq
           else detailed_demand u rest dp (add_at dq (Z.to_nat m) c)
      else detailed_demand u rest dp dq
  end.

(** get_monthly_cost_breakdown_detailed, SimulationRun.py L627-676. *)
Record breakdown := mkBreakdown {
  bk_energy_peak : list Q; bk_energy_off : list Q; bk_demand_peak : list Q; bk_demand_off : list Q;
  bk_base : Q }.
Definition detailed_cost (r : sim_run) (u : tracker) : res breakdown :=
  do x <- detailed_loop u (sr_iv r) (sr_tm_kw r) 0 (sr_power r) zeros12 zeros12 [];
  let '(ep, eo, d) := x in
  do y <- detailed_demand u d zeros12 zeros12;
  let '(dp, dq) := y in
  Ok (mkBreakdown ep eo dp dq (ut_base u)).

(** get_monthly_energy_kwh, SimulationRun.py L678-703. *)
Definition days_per_month : list Z := [31; 28; 31; 30; 31; 30; 31; 31; 30; 31; 30; 31]%Z.
Fixpoint monthly_energy_loop (l : list (option Q)) (h : Q) (spd : Z) (days : list Z) : list Q :=
  match days with
  | [] => []
  | d :: rest =>
      let n := Z.to_nat (d * spd) in
      qsum (map (fun p => or0 p * h) (firstn n l)) :: monthly_energy_loop (skipn n l) h spd rest
  end.
Definition monthly_energy (r : sim_run) : res (list Q) :=
  if negb (sr_duration r =? 525600)%Z then Ok zeros12
  else if (sr_iv r =? 0)%Z then Err ZeroDivisionError
  else Ok (monthly_energy_loop (sr_power r) (qz (sr_iv r) / 60) (24 * 60 / sr_iv r) days_per_month).

(** to_csv, SimulationRun.py L300-336: the rows below the header. *)
Definition csv_line (r : sim_run) (i : nat) : res (Z * Z * list Q * option Q * list Q * list Q) :=
  let at_ {A} (l : list A) := py_nth l (Z.of_nat i) in
  do a <- at_ (sr_demand r); do b <- at_ (sr_usable r); do c <- at_ (sr_output r);
  do p <- at_ (sr_power r); do o <- at_ (sr_oat r); do w <- at_ (sr_inlet r);
  do ts <- mapM (fun node => do col <- py_nth (sr_temps r) node; at_ col) [0; 1; 2; 3; 4; 5]%Z;
  Ok (Z.of_nat i, (Z.of_nat i * sr_iv r)%Z, [a; b; c], p, [o; w], ts).
Definition sim_csv (r : sim_run) := mapM (csv_line r) (seq 0 (length (sr_demand r))).

(** get_summary, SimulationRun.py L281-298. *)
Record summary := mkSummary {
  sm_successful : bool; sm_outage : Z; sm_energy : Q; sm_peak : Q; sm_steps : nat; sm_stopped : bool }.
Definition get_summary (r : sim_run) : summary :=
  mkSummary (is_successful r 0) (sr_outage r) (total_energy r) (peak_demand r)
    (length (sr_demand r)) (sr_stopped r).
