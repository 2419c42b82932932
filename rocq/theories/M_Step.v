(** Model of the simulate_step methods of /repo/src/ecoengine/objects/dhwsystems: DHWSystem,
    recirc_systems/RecircSystem, ParallelLoopSystem, SwingSystem, rtp_systems/SinglePassRTPSystem
    and InstantWHSystem; of ParallelLoopSystem and InstantWHSystem sizing; and of the tank
    initialisation of interfaces/Simulator.py.

    Tanks and heaters are Python objects updated in place; here a step maps the old system state
    to the new one.  A step that raises ends the simulation, so the partly updated objects are
    not modelled. *)
From Verif Require Import Prelude M_StratifiedTank M_MixedTank M_Building M_Heater M_Sizing M_SimRun.
Open Scope Q_scope.

(** The attributes of a DHWSystem that its simulate_step reads (DHWSystem.py L100-160).  [bs_tank]
    is None for systems without storage_tank.  Every tank here is a StratifiedTank: the from_size
    constructors of the modelled classes build no other (DHWSystem.py L212, SwingSystem.py L150,
    ParallelLoopSystem.py L206, SinglePassRTPSystem.py L111). *)
Record bsys := mkBsys {
  bs_heaters : list heater; bs_tank : option strat; bs_supply : Q; bs_storage : Q }.

(** [(timestep_interval * interval_min // 60) % 24], DHWSystem.py L1665. *)
Definition hour_of (t iv : Z) : Z := ((t * iv / 60) mod 24)%Z.

(** _get_outlet_temp_f, DHWSystem.py L1728-1749. *)
Definition outlet_for (hs : list heater) (storage : Q) (hour : Z) : res Q :=
  do cs <- mapM (fun h => wh_controls_for h hour) hs;
  match map ct_outlet (somes cs) with
  | [] => Ok storage
  | x :: r => Ok (qmaxl x r)
  end.

(** The reported mode, DHWSystem.py L1667-1671 (an empty schedule is falsy). *)
Definition mode_for (hs : list heater) (hour : Z) : res string :=
  match hs with
  | [] => Ok "normal"%string
  | h :: _ =>
      match wh_schedule h with
      | None | Some [] => Ok "normal"%string
      | Some s => py_nth s hour
      end
  end.

(** The sum of the heaters' outputs, DHWSystem.py L1680-1683. *)
Definition total_output (hs : list heater) (oat inlet : Q) (hour : Z) : res Q :=
  do l <- mapM (fun h => do o <- wh_outlet_temp h hour; wh_output h (Some oat) o (Some inlet)) hs;
  Ok (qsum l).

(** The power of the running heaters, DHWSystem.py L1685-1689. *)
Definition active_powers (hs : list heater) (oat inlet : Q) (hour : Z) : res (list (option Q)) :=
  mapM (fun h => do o <- wh_outlet_temp h hour; wh_power h (Some oat) o (Some inlet))
       (filter wh_active hs).

Definition is_some {A} (x : option A) : bool := match x with Some _ => true | None => false end.

(** DHWSystem.py L1684 and L1690-1691. *)
Definition total_kw (kws : list (option Q)) : option Q :=
  if existsb is_some kws then Some (qsum (map or0 kws)) else None.

(** The six reported heights, DHWSystem.py L1703-1706. *)
Definition six_heights : list Q := [0; 2 # 10; 4 # 10; 6 # 10; 8 # 10; 1].
Definition six_temps (t : strat) : res (list Q) := mapM (st_temp t) six_heights.

(** DHWSystem.simulate_step, DHWSystem.py L1617-1726. *)
Definition base_step (b : building) (s : bsys) (t iv : Z) : res (bsys * step_out) :=
  let use_avg := existsb wh_load_shifting (bs_heaters s) in
  do demand <- bd_load b t iv use_avg;
  do oat <- bd_oat b t iv;
  do inlet <- bd_inlet b t iv;
  let hour := hour_of t iv in
  do outlet <- outlet_for (bs_heaters s) (bs_storage s) hour;
  do mode <- mode_for (bs_heaters s) hour;
  match bs_tank s with
  | None =>
      Ok (s, mkStep demand 0 0 None oat inlet (repeat 0 6) mode None None None None)
  | Some tk =>
      do hs <- mapM (fun h => wh_update h (st_temp tk) hour) (bs_heaters s);
      do _ <- st_temp tk 1;
      do out <- total_output hs oat inlet hour;
      do kws <- active_powers hs oat inlet hour;
      do tk1 <- st_heat tk out (qz iv) outlet;
      do tk2 <- st_draw tk1 demand inlet (bs_supply s) outlet;
      do usable <- st_usable tk2 (bs_supply s);
      do temps <- six_temps tk2;
      Ok (mkBsys hs (Some tk2) (bs_supply s) (bs_storage s),
          mkStep demand usable out (total_kw kws) oat inlet temps mode None None None None)
  end.

(** SinglePassRTPSystem.simulate_step, SinglePassRTPSystem.py L326-355. *)
Definition sprtp_step (ret flow : Q) (b : building) (s : bsys) (t iv : Z) : res (bsys * step_out) :=
  do so <- base_step b s t iv;
  let '(s1, o) := so in
  match bs_tank s1 with
  | None => Ok (s1, o)
  | Some tk =>
      do tk1 <- st_recirc tk flow ret (qz iv) (Some (bs_supply s1));
      do usable <- st_usable tk1 (bs_supply s1);
      do temps <- six_temps tk1;
      Ok (mkBsys (bs_heaters s1) (Some tk1) (bs_supply s1) (bs_storage s1),
          mkStep (so_demand o) usable (so_output o) (so_power o) (so_oat o) (so_inlet o) temps (so_mode o)
            (so_tm_temp o) (so_tm_output o) (so_tm_kw o) (so_delivery o))
  end.

(** ** ParallelLoopSystem *)

(** The attributes of ParallelLoopSystem, ParallelLoopSystem.py L101-123. *)
Record ploop := mkPloop {
  pl_dhw : dhw; pl_return : Q; pl_flow : Q; pl_on : Q; pl_off : Q; pl_off_time : Q;
  pl_safety : Q; pl_num : Z; pl_tm_vol : option Q; pl_tm_cap : option Q }.

(** _TM_MIN_RUNTIME_HR, ParallelLoopSystem.py L14. *)
Definition tm_min_runtime : Q := 20 / 60.

(** _validate_tm_inputs, ParallelLoopSystem.py L239-260. *)
Definition pl_validate (p : ploop) : res unit :=
  if Qle_bool (pl_safety p) 1 then Err ValueError
  else if negb (qltb 0 (pl_off_time p) && Qle_bool (pl_off_time p) 1) then Err ValueError
  else if Qle_bool (pl_off p) (pl_on p) then Err ValueError
  else do runtime <- qdiv (pl_off_time p) (pl_safety p - 1);
       if Qle_bool runtime tm_min_runtime then Err ValueError else Ok tt.

(** size_tm_system, ParallelLoopSystem.py L292-316; the loss is RecircSystem.py L55-74. *)
Definition pl_loss (p : ploop) : Q := pl_flow p * (dh_supply (pl_dhw p) - pl_return p) * rho_cp * 60 / 1000.
Definition pl_size_tm (p : ploop) : res ploop :=
  let loss := pl_loss p * 1000 in
  do ratio <- qdiv (pl_off_time p) (pl_off p - pl_on p);
  Ok (mkPloop (pl_dhw p) (pl_return p) (pl_flow p) (pl_on p) (pl_off p) (pl_off_time p) (pl_safety p)
        (pl_num p) (Some (loss / rho_cp * ratio)) (Some (pl_safety p * loss / 1000))).

Definition pl_set_dhw (p : ploop) (d : dhw) : ploop :=
  mkPloop d (pl_return p) (pl_flow p) (pl_on p) (pl_off p) (pl_off_time p) (pl_safety p) (pl_num p)
    (pl_tm_vol p) (pl_tm_cap p).

(** size, ParallelLoopSystem.py L266-290. *)
Definition pl_size (lib : library) (p : ploop) (b : building) (sched : option schedule)
    (m : option ctl_map) (slope fract : Q) : (ploop * building) * res unit :=
  match pl_validate p with
  | Err e => ((p, b), Err e)
  | Ok _ =>
      let '((d, b'), r) := dhw_size base_klass lib (pl_dhw p) b sched m slope fract in
      let p1 := pl_set_dhw p d in
      match r with
      | Err e => ((p1, b'), Err e)
      | Ok _ => match pl_size_tm p1 with
                | Ok p2 => ((p2, b'), Ok tt)
                | Err e => ((p1, b'), Err e)
                end
      end
  end.

(** get_minimum_tm_volume_gal and get_minimum_tm_capacity_kbtuh, ParallelLoopSystem.py L322-330. *)
Definition or_unsized (x : option Q) : res Q := match x with Some v => Ok v | None => Err RuntimeError end.

(** The state of a parallel-loop system during simulation. *)
Record psys := mkPsys {
  ps_base : bsys; ps_return : Q; ps_flow : Q; ps_on : Q; ps_off : Q; ps_num : Z;
  ps_tank : mixed; ps_heater : heater }.

(** The temperature-maintenance components built by from_size, ParallelLoopSystem.py L216-232. *)
Definition pl_build (base : bsys) (p : ploop) (vol cap : Q) : res psys :=
  do per_unit <- qdiv cap (qz (pl_num p));
  let ctl := mkControls (1 # 2) (pl_on p) (1 # 2) (pl_off p) (pl_off p) in
  Ok (mkPsys base (pl_return p) (pl_flow p) (pl_on p) (pl_off p) (pl_num p) (mkMixed vol 0 0)
        (wh_new (Some (PmNominal per_unit)) (Some (repeat "normal"%string 24))
           (Some [("normal"%string, ctl)]))).

(** The temperature-maintenance half of simulate_step, ParallelLoopSystem.py L385-418: the new
    tank and heater, and what is added to the step's dictionary. *)
Definition tm_step (p : psys) (oat : Q) (t iv : Z) : res (mixed * heater * (Q * Q * option Q)) :=
  let hour := hour_of t iv in
  do tk1 <- mx_recirc (ps_tank p) (ps_flow p) (ps_return p) (qz iv);
  do h <- wh_update (ps_heater p) (fun f => Ok (mx_temp_at tk1 f)) hour;
  let top := mx_temp_at tk1 1 in
  let inlet := (ps_off p + ps_on p) / 2 in
  do out1 <- wh_output h (Some oat) top (Some inlet);
  let out := out1 * qz (ps_num p) in
  do unit_kw <- (if wh_active h then wh_power h (Some oat) top (Some inlet) else Ok None);
  let kw := match unit_kw with Some k => Some (k * qz (ps_num p)) | None => None end in
  do tk2 <- mx_heat tk1 out (qz iv) (ps_off p);
  Ok (tk2, h, (mx_temp_at tk2 (1 # 2), out, kw)).

(** simulate_step, ParallelLoopSystem.py L336-418. *)
Definition parallel_step (b : building) (p : psys) (t iv : Z) : res (psys * step_out) :=
  do so <- base_step b (ps_base p) t iv;
  let '(s1, o) := so in
  do r <- tm_step p (so_oat o) t iv;
  let '(tk, h, (temp, out, kw)) := r in
  Ok (mkPsys s1 (ps_return p) (ps_flow p) (ps_on p) (ps_off p) (ps_num p) tk h,
      mkStep (so_demand o) (so_usable o) (so_output o) (so_power o) (so_oat o) (so_inlet o) (so_temps o)
        (so_mode o) (Some temp) (Some out) kw (so_delivery o)).

(** ** SwingSystem *)

(** The state of a swing-tank system during simulation. *)
Record wsys := mkWsys {
  ws_heaters : list heater; ws_tank : strat; ws_supply : Q; ws_storage : Q;
  ws_return : Q; ws_flow : Q; ws_swing : mixed; ws_element : heater }.

(** get_recirc_loss_kbtuh, RecircSystem.py L55-74. *)
Definition ws_loss (w : wsys) : Q := ws_flow w * (ws_supply w - ws_return w) * rho_cp * 60 / 1000.

(** tm_off_temp_f, SwingSystem.py L833-850; _ELEMENT_DEADBAND_F is 8, L30. *)
Definition ws_off_temp (w : wsys) : res Q :=
  do c <- wh_controls_for (ws_element w) 0;
  Ok (match c with Some ct => ct_off_trigger ct | None => ws_supply w + 8 end).

(** The gallons drawn through the swing tank, SwingSystem.py L955-964. *)
Definition swing_draw (w : wsys) (demand inlet : Q) : res Q :=
  let st := mx_temp_at (ws_swing w) (1 # 2) in
  if qltb (ws_supply w) st then qdiv (demand * (ws_supply w - inlet)) (st - inlet)
  else Ok demand.

(** simulate_step, SwingSystem.py L882-1033. *)
Definition swing_sim_step (b : building) (w : wsys) (t iv : Z) : res (wsys * step_out) :=
  let use_avg := existsb wh_load_shifting (ws_heaters w) in
  do demand <- bd_load b t iv use_avg;
  do oat <- bd_oat b t iv;
  do inlet <- bd_inlet b t iv;
  let hour := hour_of t iv in
  do outlet <- outlet_for (ws_heaters w) (ws_storage w) hour;
  do mode <- mode_for (ws_heaters w) hour;
  do hs <- mapM (fun h => wh_update h (st_temp (ws_tank w)) hour) (ws_heaters w);
  do _ <- st_temp (ws_tank w) 1;
  do out <- total_output hs oat inlet hour;
  do kws <- active_powers hs oat inlet hour;
  let primary_kw := match kws with [] => None | _ => Some (qsum (map or0 kws)) end in
  do tk1 <- st_heat (ws_tank w) out (qz iv) outlet;
  let swing_t := mx_temp_at (ws_swing w) (1 # 2) in
  do hw <- swing_draw w demand inlet;
  do feed <- st_avg tk1 hw;
  do sw1 <- mx_inflow (ws_swing w) hw feed;
  do sw2 <- mx_fixed_loss sw1 (ws_loss w) (qz iv);
  do el <- wh_update (ws_element w) (fun f => Ok (mx_temp_at sw2 f)) hour;
  let tm_top := mx_temp_at sw2 1 in
  do tm_out <- wh_output el (Some oat) tm_top None;
  do tm_kw <- (if wh_active el then wh_power el (Some oat) tm_top None else Ok None);
  do ctl <- wh_controls_for el hour;
  do off <- ws_off_temp w;
  let tm_outlet := match ctl with Some c => ct_outlet c | None => off end in
  do sw3 <- mx_heat sw2 tm_out (qz iv) tm_outlet;
  do tk2 <- st_draw_physical tk1 hw inlet (Some (ws_supply w));
  do usable <- (if qltb swing_t (ws_supply w) then Ok 0 else st_usable tk2 (ws_supply w));
  do temps <- six_temps tk2;
  let kw := match primary_kw, tm_kw with None, None => None | _, _ => Some (or0 primary_kw) end in
  let mid := mx_temp_at sw3 (1 # 2) in
  Ok (mkWsys hs tk2 (ws_supply w) (ws_storage w) (ws_return w) (ws_flow w) sw3 el,
      mkStep demand usable out kw oat inlet temps mode (Some mid) (Some tm_out)
        (Some (tm_out / w_to_kbtuh)) (Some mid)).

(** ** InstantWHSystem *)

(** Python [max(l)]. *)
Definition py_max (l : list Q) : res Q :=
  match l with [] => Err ValueError | x :: r => Ok (qmaxl x r) end.

(** size, InstantWHSystem.py L65-87. *)
Definition instant_size (s : dhw) (b : building) : res dhw :=
  do inlet <- design_inlet b;
  do mx <- py_max (bd_peak b);
  let peak := bd_daily b * mx * 60 in
  do x <- qdiv (peak * rho_cp * (dh_supply s - inlet)) (dh_defrost s);
  Ok (mkDhw (dh_supply s) (dh_storage s) (dh_run s) (dh_defrost s) (Some (x / 1000)) (Some 0) (dh_slope s)).

(** simulate_step, InstantWHSystem.py L93-127. *)
Definition instant_step (b : building) (s : dhw) (t iv : Z) : res (dhw * step_out) :=
  do demand <- bd_load b t iv false;
  do oat <- bd_oat b t iv;
  do inlet <- bd_inlet b t iv;
  let delta := qmax (dh_supply s - inlet) 1 in
  do r <- qdiv 60 (qz iv);
  do x <- qdiv (demand * r * rho_cp * delta) (dh_defrost s);
  let cap := x / 1000 in
  Ok (s, mkStep demand 0 cap (Some (cap / w_to_kbtuh)) oat inlet (repeat (dh_supply s) 6)
           "normal"%string None None None None).

(** ** Simulator: initial tanks, Simulator.py L59-78 *)

Definition init_base (b : building) (s : bsys) : res bsys :=
  do di <- bd_design_inlet b;
  let inlet := sim_inlet di in
  let pu := initial_percent (bs_heaters s) in
  Ok (mkBsys (bs_heaters s)
        (match bs_tank s with
         | Some tk => Some (st_initialize tk (bs_storage s) inlet pu)
         | None => None
         end) (bs_supply s) (bs_storage s)).

Definition init_parallel (b : building) (p : psys) : res psys :=
  do di <- bd_design_inlet b;
  do s <- init_base b (ps_base p);
  Ok (mkPsys s (ps_return p) (ps_flow p) (ps_on p) (ps_off p) (ps_num p)
        (mx_initialize (ps_tank p) (ps_off p) (sim_inlet di) 1) (ps_heater p)).

Definition init_swing (b : building) (w : wsys) : res wsys :=
  do di <- bd_design_inlet b;
  let inlet := sim_inlet di in
  do off <- ws_off_temp w;
  Ok (mkWsys (ws_heaters w) (st_initialize (ws_tank w) (ws_storage w) inlet (initial_percent (ws_heaters w)))
        (ws_supply w) (ws_storage w) (ws_return w) (ws_flow w)
        (mx_initialize (ws_swing w) off inlet 1) (ws_element w)).

(** simulate, Simulator.py L11-110, for each kind of system. *)
Definition simulate_base (b : building) (s : bsys) dur thr maxm :=
  do s0 <- init_base b s; simulate (base_step b) s0 (bs_supply s) dur thr maxm false.
Definition simulate_sprtp (ret flow : Q) (b : building) (s : bsys) dur thr maxm :=
  do s0 <- init_base b s; simulate (sprtp_step ret flow b) s0 (bs_supply s) dur thr maxm false.
Definition simulate_parallel (b : building) (p : psys) dur thr maxm :=
  do s0 <- init_parallel b p; simulate (parallel_step b) s0 (bs_supply (ps_base p)) dur thr maxm false.
Definition simulate_swing (b : building) (w : wsys) dur thr maxm :=
  do s0 <- init_swing b w; simulate (swing_sim_step b) s0 (ws_supply w) dur thr maxm true.
Definition simulate_instant (b : building) (s : dhw) dur thr maxm :=
  do _ <- bd_design_inlet b; simulate (instant_step b) s (dh_supply s) dur thr maxm false.
