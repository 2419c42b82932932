(** Model of /repo/src/ecoengine/objects/dhwsystems/utils.py and rtp_systems/MultiPassRTPSystem.py:
    the mixing valve, and sizing, sizing curve and simulation of multi-pass return-to-primary
    systems. *)
From Verif Require Import Prelude M_StratifiedTank M_EnergyTank M_Building M_Heater M_Sizing M_SimRun M_Step.
Open Scope Q_scope.

(** mixing_valve_behavior, utils.py L4-20: (storage_draw_gal, inlet_temp_f). *)
Definition mixing_valve (load flow cold supply ret storage : Q) : res (Q * Q) :=
  let loss := flow * rho_cp * (supply - ret) in
  do critical <- qdiv loss (rho_cp * (storage - supply));
  if qltb critical load then
    do a <- qdiv (supply - cold) (storage - cold);
    do c <- qdiv (supply - ret) (storage - cold);
    Ok (load * a + flow * c, cold)
  else
    do a <- qdiv (supply - ret) (storage - ret);
    let draw := (load + flow) * a in
    let to_tank := draw - load in
    do inlet <- qdiv (load * cold + to_tank * ret) draw;
    Ok (draw, inlet).

(** ** Sizing *)

(** The virtual slug of the sizing loop and the largest volume so far, MultiPassRTPSystem.py L462-464. *)
Record gslug := mkGslug { gs_vol : Q; gs_temp : Q; gs_max : Q }.

(** One minute of the loop after the mixing valve, L484-506. *)
Definition grow_minute (cold storage heat_per_min : Q) (g : gslug) (draw inlet : Q) : res gslug :=
  do vt <- (if qltb 0 draw then
              if Qle_bool (gs_vol g) 0 then Ok (draw, inlet)
              else
                do x <- qdiv (gs_vol g * gs_temp g + draw * inlet) (gs_vol g + draw);
                Ok (gs_vol g + draw, x)
            else Ok (gs_vol g, gs_temp g));
  let '(v1, t1) := vt in
  do t2 <- (if qltb 0 v1 then do dt <- qdiv (heat_per_min * 1000) (v1 * rho_cp); Ok (t1 + dt) else Ok t1);
  let reset := (qltb 0 v1 && Qle_bool storage t2)%bool in
  let v3 := if reset then 0 else v1 in
  let t3 := if reset then cold else t2 in
  Ok (mkGslug v3 t3 (if qltb (gs_max g) v3 then v3 else gs_max g)).

(** The loop L466-506 over the minutes [t], [t + 1], ..., [n] of them. *)
Fixpoint grow_loop (n : nat) (t : Z) (b : building) (flow cold supply ret storage hot heat_per_min : Q)
  (g : gslug) : res gslug :=
  match n with
  | O => Ok g
  | S k =>
      do demand <- bd_load b t 1 false;
      do di <- mixing_valve demand flow cold supply ret hot;
      do g1 <- grow_minute cold storage heat_per_min g (fst di) (snd di);
      grow_loop k (t + 1) b flow cold supply ret storage hot heat_per_min g1
  end.

(** _calc_running_volume_supplyT_gal, L420-508; [hot] is _avg_storage_outlet_temp_f. *)
Definition mp_running (ret flow hot : Q) (s : dhw) (b : building) (capacity : Q) : res Q :=
  do cold <- design_inlet b;
  do g <- grow_loop (2 * 24 * 60) 0 b (flow * 1) cold (dh_supply s) ret (dh_storage s) hot (capacity * 1 / 60)
            (mkGslug 0 cold 0);
  Ok (gs_max g).

(** The try block of size, L236-252: (capacity, storage).  [control_map.values()] of None raises
    AttributeError, [min([])] ValueError. *)
Definition mp_size_values (ret flow : Q) (s : dhw) (b : building) (m : option ctl_map) (slope : Q) : res (Q * Q) :=
  match m with
  | None => Err AttributeError
  | Some d =>
      do l <- mapM (fun kc => avg_hot_temp s (ct_on_sensor (snd kc)) (ct_on_trigger (snd kc)) slope) d;
      do hot <- py_min l;
      do cap <- rtp_capacity ret flow s b;
      do rv <- mp_running ret flow hot s b cap;
      do inlet <- design_inlet b;
      do f <- strat_factor s m slope inlet;
      do stor <- storage_volume rv f;
      Ok (cap, stor)
  end.

(** size, L195-256: the system and the building as they are left, and the outcome. *)
Definition mp_size (ret flow : Q) (lib : library) (s : dhw) (b : building) (m : option ctl_map) (slope : Q)
  : dhw * building * res unit :=
  if is_load_shifting m then (s, b, Err ValueError)
  else
    match (if bd_is_annual b then bd_set_daily lib b else Ok b) with
    | Err e => (s, b, Err e)
    | Ok b1 =>
        let '(s1, out) :=
          match mp_size_values ret flow s b1 m slope with
          | Err e => (s, Err e)
          | Ok (cap, stor) => (dh_set_results s cap stor slope, Ok tt)
          end in
        let '(b2, out2) := restore_annual lib (bd_is_annual b) b1 out in
        (s1, b2, out2)
    end.

(** ** Simulation *)

(** The attributes simulate_step reads: water_heaters, storage_tank (a SlugOverlayTank),
    supply_temp_f, storage_temp_f, return_temp_f, return_flow_gpm. *)
Record msys := mkMsys {
  ms_heaters : list heater; ms_tank : slug; ms_supply : Q; ms_storage : Q; ms_return : Q; ms_flow : Q }.

(** [tank._cold_temp_f = inlet_water_temp_f], L567. *)
Definition sl_set_cold (t : slug) (c : Q) : slug :=
  mkSlug (en_set_cold (sl_base t) c) (sl_supply t) (sl_pu t) (sl_max t) (sl_active t) (sl_vol t) (sl_temp t)
         (sl_top t) (sl_orig t).

(** The heaters' outputs and powers, L588-602: no inlet temperature is passed. *)
Definition mp_output (hs : list heater) (oat : Q) (hour : Z) : res Q :=
  do l <- mapM (fun h => do o <- wh_outlet_temp h hour; wh_output h (Some oat) o None) hs;
  Ok (qsum l).
Definition mp_powers (hs : list heater) (oat : Q) (hour : Z) : res (list (option Q)) :=
  mapM (fun h => do o <- wh_outlet_temp h hour; wh_power h (Some oat) o None) (filter wh_active hs).

(** The slug's lifecycle, L580-584. *)
Definition mp_lifecycle (was now : bool) (supply : Q) (t : slug) : res slug :=
  if now then sl_activate t supply else if was then sl_deactivate t else Ok t.

(** simulate_step, L514-646; the reported "oat_f" is the tank's top temperature (L641). *)
Definition mp_step (b : building) (s : msys) (t iv : Z) : res (msys * step_out) :=
  do demand <- bd_load b t iv false;
  do oat <- bd_oat b t iv;
  do inlet <- bd_inlet b t iv;
  let hour := hour_of t iv in
  do mode <- mode_for (ms_heaters s) hour;
  let tk0 := sl_set_cold (ms_tank s) inlet in
  let was := existsb wh_active (ms_heaters s) in
  do hs <- mapM (fun h => wh_update h (sl_temp_at tk0) hour) (ms_heaters s);
  let now := existsb wh_active hs in
  do tk1 <- mp_lifecycle was now (ms_supply s) tk0;
  do top <- sl_temp_at tk1 1;
  do out <- mp_output hs oat hour;
  do kws <- mp_powers hs oat hour;
  do di <- mixing_valve demand (ms_flow s * qz iv) inlet (ms_supply s) (ms_return s) top;
  let '(draw, mv) := di in
  do tk2 <- (if (now && (sl_active tk1 && qltb 0 (sl_vol tk1)))%bool then sl_heat tk1 out (qz iv) else Ok tk1);
  do tk3 <- (if qltb 0 draw then sl_draw_physical tk2 draw mv false else Ok tk2);
  do usable <- sl_usable tk3 (ms_supply s);
  do temps <- mapM (sl_temp_at tk3) six_heights;
  Ok (mkMsys hs tk3 (ms_supply s) (ms_storage s) (ms_return s) (ms_flow s),
      mkStep demand usable out (total_kw kws) top inlet temps mode
        None None None (Some (if now then ms_supply s else top))).

(** Simulator.py L60-68. *)
Definition init_mp (b : building) (s : msys) : res msys :=
  do di <- bd_design_inlet b;
  do tk <- sl_initialize (ms_tank s) (ms_storage s) (sim_inlet di) (initial_percent (ms_heaters s));
  Ok (mkMsys (ms_heaters s) tk (ms_supply s) (ms_storage s) (ms_return s) (ms_flow s)).

Definition simulate_mp (b : building) (s : msys) (dur : string) (thr : Q) (maxm : Z) : res (msys * sim_run) :=
  do s0 <- init_mp b s;
  simulate (mp_step b) s0 (ms_supply s) dur thr maxm false.

(** ** from_size *)

(** The running values of one boost trial, L154-158. *)
Record trial := mkTrial { tr_deficit : Z; tr_min : Q; tr_on : bool; tr_start : Z }.

(** One minute of a trial, L165-176.  [step["tank_temps_f"][-1]] is the highest of the six. *)
Definition trial_minute (i : Z) (o : step_out) (r : trial) : trial :=
  let '(on, start) :=
    if (qltb 0 (so_output o) && negb (tr_on r))%bool then (true, i)
    else if (Qle_bool (so_output o) 0 && tr_on r)%bool then (false, tr_start r)
    else (tr_on r, tr_start r) in
  if Qle_bool (so_usable o) 0 then
    let top := last (so_temps o) 0 in
    if qltb top (tr_min r) then mkTrial (i - start) top on start
    else mkTrial (tr_deficit r) (tr_min r) on start
  else mkTrial (tr_deficit r) (tr_min r) on start.

(** The minutes of a trial, L159-176. *)
Fixpoint trial_loop (n : nat) (i : Z) (b : building) (s : msys) (r : trial) : res (msys * trial) :=
  match n with
  | O => Ok (s, r)
  | S k => do so <- mp_step b s i 1; trial_loop k (i + 1) b (fst so) (trial_minute i (snd so) r)
  end.

(** One trial and the increase of capacity after it, L149-188; [false] is [break]. *)
Definition boost_once (days : nat) (b : building) (s : msys) (cap pu inlet start_pu : Q)
  (sched : option schedule) (m : option ctl_map) : res (bool * msys * Q) :=
  do tk <- sl_initialize (ms_tank s) (ms_storage s) inlet start_pu;
  do sr <- trial_loop (24 * 60 * days) 0 b
             (mkMsys (ms_heaters s) tk (ms_supply s) (ms_storage s) (ms_return s) (ms_flow s))
             (mkTrial 0 (ms_supply s) false 0);
  let '(s1, r) := sr in
  if (0 <? tr_deficit r)%Z then
    let increase := en_vol (sl_base (ms_tank s1)) * pu * rho_cp * (ms_supply s - tr_min r) / 1000 in
    if qltb 0 increase then
      do x <- qdiv increase (qz (tr_deficit r) / 60);
      let cap1 := cap + x in
      Ok (true, mkMsys [wh_new (Some (PmNominal cap1)) sched m] (ms_tank s1) (ms_supply s1) (ms_storage s1)
                  (ms_return s1) (ms_flow s1), cap1)
    else Ok (true, s1, cap)
  else Ok (false, s1, cap).

(** The boost loop, L148-188. *)
Fixpoint boost_loop (iters days : nat) (b : building) (s : msys) (cap pu inlet start_pu : Q)
  (sched : option schedule) (m : option ctl_map) : res (msys * Q) :=
  match iters with
  | O => Ok (s, cap)
  | S k =>
      do x <- boost_once days b s cap pu inlet start_pu sched m;
      let '(go, s1, cap1) := x in
      if go then boost_loop k days b s1 cap1 pu inlet start_pu sched m else Ok (s1, cap1)
  end.

(** The aquastats must sit above the cold inlet, L102-116. *)
Definition sensors_ok (m : option ctl_map) (pu : Q) : bool :=
  if qltb pu 1 then
    forallb (fun kc => negb (qltb (ct_on_sensor (snd kc)) (1 - pu)) && negb (qltb (ct_off_sensor (snd kc)) (1 - pu)))%bool
            (map_of m)
  else true.

(** [control_map.get("normal") or next(iter(control_map.values()), None)], L146. *)
Definition first_control (m : option ctl_map) : res controls :=
  match m with
  | None => Err AttributeError
  | Some d =>
      match dict_get d "normal", d with
      | Some c, _ => Ok c
      | None, (_, c) :: _ => Ok c
      | None, [] => Err AttributeError
      end
  end.

(** A sized system: its sizing attributes and what it is built of. *)
Record mp_built := mkBuilt { mb_dhw : dhw; mb_sys : msys }.

(** from_size, L57-189: the building as it is left, and the outcome. *)
Definition mp_from_size (lib : library) (b : building) (supply storage ret flow run defrost : Q)
  (sched : option schedule) (m : option ctl_map) (slope pu : Q) (days iters : nat) : building * res mp_built :=
  if negb (sensors_ok m pu) then (b, Err ValueError)
  else
    let '(s, b1, out) := mp_size ret flow lib (mkDhw supply storage run defrost None None None) b m slope in
    (b1,
     do _ <- out;
     do cold <- design_inlet b1;
     match dh_min_cap s, dh_min_stor s with
     | Some cap, Some vol =>
         let sys := mkMsys [wh_new (Some (PmNominal cap)) sched m] (sl_new vol cold storage supply pu slope)
                      supply storage ret flow in
         do di <- bd_design_inlet b1;
         do c <- first_control m;
         let start_pu := qmax 0 (qmin 1 (1 - ct_on_sensor c)) in
         do r <- boost_loop iters days b1 sys cap pu (sim_inlet di) start_pu sched m;
         Ok (mkBuilt (mkDhw supply storage run defrost (Some (snd r)) (Some vol) (dh_slope s)) (fst r))
     | _, _ => Err TypeError
     end).

(** ** Sizing curve *)

(** Python [round(x, 1)] (on exact rationals). *)
Definition py_round1 (x : Q) : Q := qz (py_round (x * 10)) / 10.

(** One point of the sweep, L340-365; [None] is [break]. *)
Definition mp_curve_point (lib : library) (b : building) (sz : mp_built) (sched : option schedule)
  (m : option ctl_map) (slope pu h : Q) : res (option (Q * Q)) :=
  let d := mb_dhw sz in
  let values x := match dh_min_stor x, dh_min_cap x with
                  | Some vol, Some cap => Ok (if Qeq_bool vol 0 then None else Some (vol, cap))
                  | _, _ => Err TypeError
                  end in
  if Qeq_bool h (dh_run d) then values d
  else if qltb h 9 then Ok None
  else
    match snd (mp_from_size lib b (dh_supply d) (dh_storage d) (ms_return (mb_sys sz)) (ms_flow (mb_sys sz)) h
                 (dh_defrost d) sched m slope pu 2 1) with
    | Ok x => values (mb_dhw x)
    | Err ValueError | Err RuntimeError | Err NotImplementedError | Err ZeroDivisionError => Ok None
    | Err e => Err e
    end.

(** The sweep, L339-383: points in order of appending, and rec_back_hr. *)
Fixpoint mp_curve_loop (pt : Q -> res (option (Q * Q))) (num defrost : Q) (hs : list Q)
  (rec : option Q) (acc : list (Q * Q * Q)) : res (option Q * list (Q * Q * Q)) :=
  match hs with
  | [] => Ok (rec, acc)
  | h :: r =>
      do p <- pt h;
      match p with
      | None => Ok (rec, acc)
      | Some (vol, cap) =>
          do q <- qdiv num (cap * defrost);
          let back := py_round1 q in
          let rec1 := match rec with Some x => Some x | None => Some back end in
          if existsb (fun p => Qle_bool (fst (fst p)) back) acc
          then mp_curve_loop pt num defrost r rec1 acc
          else mp_curve_loop pt num defrost r rec1 (acc ++ [(back, cap, vol)])
      end
  end.

(** [sorted(.., reverse=True)] by the first component (stable), L387-395. *)
Fixpoint insert_desc (x : Q * Q * Q) (l : list (Q * Q * Q)) : list (Q * Q * Q) :=
  match l with
  | [] => [x]
  | y :: r => if qltb (fst (fst y)) (fst (fst x)) then x :: l else y :: insert_desc x r
  end.
Definition sort_desc (l : list (Q * Q * Q)) : list (Q * Q * Q) :=
  fold_left (fun acc x => insert_desc x acc) l [].

(** [min(range(n), key=...)]: the first index with the smallest key, L399-402. *)
Fixpoint argmin_from (i besti : Z) (best : Q) (l : list Q) : Z :=
  match l with
  | [] => besti
  | x :: r => if qltb x best then argmin_from (i + 1) i x r else argmin_from (i + 1) besti best r
  end.
Definition argmin (l : list Q) : Z :=
  match l with [] => 0%Z | x :: r => argmin_from 1 0 x r end.

(** The try block of get_sizing_curve, L315-411. *)
Definition mp_curve_body (lib : library) (sz : mp_built) (b : building) (sched : option schedule)
  (m : option ctl_map) (slope pu step : Q) : res curve :=
  let d := mb_dhw sz in
  do inlet <- design_inlet b;
  let loss := recirc_loss d (ms_return (mb_sys sz)) (ms_flow (mb_sys sz)) in
  let num := bd_daily b * rho_cp * (dh_supply d - inlet) / 1000 + loss * 24 in
  do lo <- min_run_hr b;
  do hs <- arange (dh_run d) lo (- step);
  do rp <- mp_curve_loop (mp_curve_point lib b sz sched m (slope_or d slope) pu) num (dh_defrost d) hs None [];
  let '(rec, pts) := rp in
  match pts with
  | [] => Ok (mkCurve [] [] [] 0)
  | _ =>
      let sorted := sort_desc pts in
      let hours := map (fun p => fst (fst p)) sorted in
      Ok (mkCurve hours (map (fun p => snd (fst p)) sorted) (map snd sorted)
                  (argmin (map (fun x => Qabs (x - or0 rec)) hours)))
  end.

(** get_sizing_curve, L262-414.  [_cmap], [_sched] and [_pct_use] come from the sized system. *)
Definition mp_sizing_curve (lib : library) (sz : mp_built) (b : building) (slope step : Q) : building * res curve :=
  match (if bd_is_annual b then bd_set_daily lib b else Ok b) with
  | Err e => (b, Err e)
  | Ok b1 =>
      let m := match ms_heaters (mb_sys sz) with h :: _ => wh_map h | [] => None end in
      let sched := match ms_heaters (mb_sys sz) with h :: _ => wh_schedule h | [] => None end in
      restore_annual lib (bd_is_annual b) b1
        (mp_curve_body lib sz b1 sched m slope (sl_pu (ms_tank (mb_sys sz))) step)
  end.
