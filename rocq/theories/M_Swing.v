(** Model of the sizing half of /repo/src/ecoengine/objects/dhwsystems/recirc_systems/:
    RecircSystem.py, SwingSystem.py and SwingERTrdOffSystem.py.
    numpy arrays are lists; the simulation half (simulate_step) is in M_Systems.v. *)
From Verif Require Import Prelude M_StratifiedTank M_Building M_Heater M_Sizing.
Open Scope Q_scope.

(** The attributes of SwingSystem (SwingSystem.py L70-107) beyond those of DHWSystem.  The
    three TM results are [None] until sizing. *)
Record swing := mkSwing {
  sw_dhw : dhw; sw_return : Q; sw_flow : Q; sw_safety : Q;
  sw_eff_mix : Q; sw_tm_vol : option Q; sw_tm_ca : option Q; sw_tm_cap : option Q }.

Definition sw_set_dhw (s : swing) (d : dhw) : swing :=
  mkSwing d (sw_return s) (sw_flow s) (sw_safety s) (sw_eff_mix s) (sw_tm_vol s) (sw_tm_ca s) (sw_tm_cap s).
Definition sw_set_mix (s : swing) (x : Q) : swing :=
  mkSwing (sw_dhw s) (sw_return s) (sw_flow s) (sw_safety s) x (sw_tm_vol s) (sw_tm_ca s) (sw_tm_cap s).
Definition sw_set_tm (s : swing) (vol ca cap : Q) : swing :=
  mkSwing (sw_dhw s) (sw_return s) (sw_flow s) (sw_safety s) (sw_eff_mix s) (Some vol) (Some ca) (Some cap).
Definition sw_set_run (s : swing) (r : Q) : swing := sw_set_dhw s (dh_set_run (sw_dhw s) r).

(** SwingSystem.__init__, L82-107: rejects a safety factor of at most 1. *)
Definition sw_new (supply storage ret flow safety run defrost : Q) : res swing :=
  if Qle_bool safety 1 then Err ValueError
  else Ok (mkSwing (mkDhw supply storage run defrost None None None) ret flow safety 1 None None None).

(** RecircSystem.get_recirc_loss_kbtuh, RecircSystem.py L55-74. *)
Definition sw_loss (s : swing) : Q :=
  sw_flow s * (dh_supply (sw_dhw s) - sw_return s) * rho_cp * 60 / 1000.

(** ** Swing-tank size *)

(** SwingSystem.py L19-27. *)
Definition swing_table : list Z := [40; 50; 80; 100; 120; 160; 175; 240; 350; 400; 500; 600; 800; 1000; 1250]%Z.
Definition swing_table_ca : list Z := [80; 96; 168; 288; 480]%Z.
(** _ELEMENT_DEADBAND_F, L30; _WATTS_PER_GAL, L27. *)
Definition deadband : Q := 8.
Definition watts_per_gal : Q := 100.

(** [min(v for v in table if v >= x)] (ValueError when there is none). *)
Definition table_pick (table : list Z) (x : Q) : res Q :=
  py_min (filter (fun v => Qle_bool x v) (map qz table)).

(** The required volume, L369-380; np.max of the peak shape. *)
Definition shape_max (b : building) : res Q :=
  match bd_peak b with [] => Err ValueError | x :: r => Ok (qmaxl x r) end.
Definition tm_vol_required (s : swing) (b : building) : res Q :=
  do m <- shape_max b;
  Ok (qmax (sw_loss s * 1000 / (watts_per_gal * w_to_kbtuh)) (bd_daily b * m / 60)).

(** _size_tm_system, L350-400 (always called with a building). *)
Definition size_tm (s : swing) (b : building) : res swing :=
  do v <- tm_vol_required s b;
  if qltb 1250 v then Err ValueError
  else
    do vol <- table_pick swing_table v;
    do ca <- (if qltb vol 480 then table_pick swing_table_ca v else Ok 480);
    Ok (sw_set_tm s vol ca (sw_safety s * (sw_loss s * 1000) / 1000)).

(** ** The swing tank by itself *)

(** What _run_one_swing_step reads. *)
Record swing_env := mkEnv { sv_supply : Q; sv_storage : Q; sv_inlet : Q; sv_loss : Q; sv_vol : Q; sv_cap : Q }.

(** L788-798: mix in [hw] gallons at [feed], then lose one minute of recirculation heat. *)
Definition swing_mix (v : swing_env) (t hw feed : Q) : res Q :=
  if qltb 0 hw then
    if Qle_bool (sv_vol v - hw) 0 then Err ValueError
    else qdiv (hw * feed + t * (sv_vol v - hw)) (sv_vol v)
  else Ok t.
Definition swing_lose (v : swing_env) (t : Q) : res Q :=
  do x <- qdiv (sv_loss v * 1000 / 60) (rho_cp * sv_vol v); Ok (t - x).
Definition element_dt (v : swing_env) : res Q := qdiv (sv_cap v * 1000 / 60) (rho_cp * sv_vol v).

(** L803-820: the element, on or off, over one minute: state, temperature, fraction of the minute run. *)
Definition swing_element (v : swing_env) (heating : bool) (t dt : Q) : res (bool * Q * Q) :=
  if heating then
    let t1 := t + dt in
    if qltb (sv_supply v + deadband) t1 then
      do r <- qdiv (t1 - (sv_supply v + deadband)) dt;
      let over := qmin r 1 in
      Ok (false, t1 - dt * over, 1 - over)
    else Ok (true, t1, 1)
  else if Qle_bool t (sv_supply v) then
    do r <- qdiv (sv_supply v - t) dt;
    let missed := qmin r 1 in
    Ok (true, t + dt * missed, missed)
  else Ok (false, t, 0).

(** _run_one_swing_step, L755-827. *)
Definition swing_step (v : swing_env) (heating : bool) (t hw feed : Q) : res (bool * Q * Q) :=
  do t1 <- swing_mix v t hw feed;
  do t2 <- swing_lose v t1;
  do dt <- element_dt v;
  do r <- swing_element v heating t2 dt;
  let '(h, t3, run) := r in
  if qltb t3 (sv_supply v) then Err ValueError else Ok (h, t3, run).

(** L738-744: gallons asked from the primary. *)
Definition from_primary (v : swing_env) (t hw_out : Q) : res Q :=
  if qltb (sv_inlet v) t then qdiv (hw_out * (sv_supply v - sv_inlet v)) (t - sv_inlet v)
  else Ok hw_out.

(** The loop of _sim_just_swing, L735-751: per minute the tank temperature, the run fraction and
    the gallons from the primary. *)
Fixpoint sim_loop_swing (v : swing_env) (heating : bool) (t : Q) (l : list Q) : res (list (Q * Q * Q)) :=
  match l with
  | [] => Ok []
  | x :: r =>
      do hw <- from_primary v t x;
      do o <- swing_step v heating t hw (sv_storage v);
      let '(h, t', run) := o in
      do rest <- sim_loop_swing v h t' r;
      Ok ((t', run, hw) :: rest)
  end.

(** _sim_just_swing, L707-753: the first minute is not simulated ([hw_out[0]] of an empty array
    raises IndexError). *)
Definition sim_just_swing (v : swing_env) (hw_out : list Q) (init : Q) : res (list (Q * Q * Q)) :=
  match hw_out with
  | [] => Err IndexError
  | x :: r => do rest <- sim_loop_swing v false init r; Ok ((init, 0, x) :: rest)
  end.

(** The third component: hw_from_primary. *)
Definition hw_of (l : list (Q * Q * Q)) : list Q := map snd l.
Definition temps_of (l : list (Q * Q * Q)) : list Q := map (fun x => fst (fst x)) l.

(** The environment of a sized system (before size_tm the attributes are None: TypeError). *)
Definition env_of (s : swing) (inlet : Q) : res swing_env :=
  match sw_tm_vol s, sw_tm_cap s with
  | Some vol, Some cap =>
      Ok (mkEnv (dh_supply (sw_dhw s)) (dh_storage (sw_dhw s)) inlet (sw_loss s) vol cap)
  | _, _ => Err TypeError
  end.

(** ** Running volume *)

(** _hr_to_min, L33-35, and the conversion of gallons per hour to gallons per minute. *)
Definition hr_to_min (l : list Q) : list Q := flat_map (fun x => repeat x 60) l.
Definition per_minute (l : list Q) : list Q := map (fun x => x / 60) (hr_to_min l).

(** [np.tile(l, 2)[i : i + 24]]. *)
Definition day_from (l : list Q) (i : nat) : list Q := firstn 24 (skipn i (l ++ l)).

(** L455-462: peak hours and the hours after them, sorted, without duplicates. *)
Definition extended_peaks (peaks : list nat) : list nat :=
  filter (fun i => existsb (Nat.eqb i) (flat_map (fun p => [p; S p]) peaks)) (seq 0 24).

(** The body of the loop, L467-484, for one start hour: volume drawn from the primary over the day
    relative to the demand, and the worst deficit. *)
Definition swing_peak (v : swing_env) (run daily : Q) (shape : list Q) (idx : nat) : res (Q * option Q) :=
  let hw_out := map (fun x => x / 60 * daily) (hr_to_min (day_from shape idx)) in
  do sim <- sim_just_swing v hw_out (sv_supply v + (1 # 10));
  do mix <- qdiv (qsum (hw_of sim)) daily;
  do g <- qdiv 1 run;
  let gen := map (fun x => x / 60 * daily * mix) (hr_to_min (day_from (repeat g 24) idx)) in
  do diff <- vsub gen (hw_of sim);
  Ok (mix, worst_deficit (cumsum diff)).

(** The loop, L464-494 (both [continue] branches skip an entry without deficit). *)
Fixpoint swing_peaks (v : swing_env) (run daily : Q) (shape : list Q) (idxs : list nat) (best mix : Q)
  : res (Q * Q) :=
  match idxs with
  | [] => Ok (best, mix)
  | i :: r =>
      do o <- swing_peak v run daily shape i;
      match snd o with
      | Some d => if qltb best d then swing_peaks v run daily shape r d (fst o)
                  else swing_peaks v run daily shape r best mix
      | None => swing_peaks v run daily shape r best mix
      end
  end.

(** _calc_running_volume_supplyT_gal, L425-503: the new mix fraction ([None]: left alone) and the
    volume. *)
Definition swing_running (s : swing) (b : building) : res (option Q * Q) :=
  do inlet <- design_inlet b;
  do g <- qdiv 1 (dh_run (sw_dhw s));
  do diff <- vsub (repeat g 24) (bd_peak b);
  match peak_indices diff with
  | [] => Ok (None, 0)
  | peaks =>
      do v <- env_of s inlet;
      do r <- swing_peaks v (dh_run (sw_dhw s)) (bd_daily b) (bd_peak b) (extended_peaks peaks) 0 1;
      let '(vol, mix) := r in
      do k <- qdiv (sv_storage v - inlet) (sv_supply v - inlet);
      Ok (Some mix, vol * k)
  end.
Definition apply_mix (s : swing) (m : option Q) : swing :=
  match m with Some x => sw_set_mix s x | None => s end.

(** _calc_required_capacity, L402-419, and the capacity at a generation rate, L608-624. *)
Definition swing_capacity_of (s : swing) (b : building) (gen : res Q) : res Q :=
  do inlet <- design_inlet b;
  do g <- gen;
  do x <- qdiv (g * rho_cp * (dh_storage (sw_dhw s) - inlet)) (dh_defrost (sw_dhw s));
  Ok (x / 1000).
Definition swing_normal_gen (s : swing) (b : building) : res Q :=
  qdiv (bd_daily b * sw_eff_mix s) (dh_run (sw_dhw s)).
Definition swing_capacity (s : swing) (b : building) : res Q := swing_capacity_of s b (swing_normal_gen s b).

(** ** Load shifting *)

Definition shape_at (l : list Q) (hs : list Z) : res (list Q) := mapM (py_nth l) hs.

(** _calc_prelim_vols_supplyT_gal, L509-558. *)
Definition swing_prelim (s : swing) (sched : schedule) (b : building) (fract : Q) : res (Q * Q) :=
  let gph := map (fun f => f * bd_daily b) (bd_avg b) in
  do fl <- first_shed_block sched;
  let '(block, lu) := fl in
  do xs <- shape_at gph block;
  let vraw := qsum xs in
  do inlet <- design_inlet b;
  do v <- env_of s inlet;
  do sim <- sim_just_swing v (per_minute xs) (sv_supply v + (1 # 10));
  do eff <- (if qltb 0 vraw then qdiv (qsum (hw_of sim)) vraw else Ok 1);
  let vshift := vraw * eff * fract in
  do h0 <- py_nth block 0;
  do ys <- shape_at gph (zrange (h0 - lu) h0);
  let lraw := qsum ys in
  if ((0 <? lu)%Z && qltb 0 lraw)%bool then
    do sim2 <- sim_just_swing v (per_minute ys) (sv_supply v + (1 # 10));
    do eff_lu <- qdiv (qsum (hw_of sim2)) lraw;
    Ok (vshift, lraw * eff_lu)
  else Ok (vshift, lraw).

(** _calc_gen_rate_ls_gph, L564-606. *)
Definition swing_gen_ls (s : swing) (sched : schedule) (d : ctl_map) (b : building) (slope fract : Q)
  : res Q :=
  do normal_gen <- swing_normal_gen s b;
  do fl <- first_shed_block sched;
  let lu := snd fl in
  if (lu =? 0)%Z then Ok normal_gen
  else
    do pv <- swing_prelim s sched b fract;
    let '(vshift, vcons) := pv in
    do nc <- ctl d "normal";
    let lc := ctl_load_up d nc in
    do sc <- ctl d "shed";
    do lp <- strat_pct (sw_dhw s) (ct_on_sensor lc) (ct_on_trigger lc) slope;
    do np <- strat_pct (sw_dhw s) (ct_on_sensor nc) (ct_on_trigger nc) slope;
    do sp <- strat_pct (sw_dhw s) (ct_on_sensor sc) (ct_on_trigger sc) slope;
    let band := lp - sp in
    if Qle_bool band 0 then Ok normal_gen
    else
      let vload := vshift * (lp - np) / band in
      Ok (qmax normal_gen ((vload + vcons) / qz lu)).

(** _calc_running_volume_ls_swing, L650-701: volume and mix fraction. *)
Definition swing_running_ls (s : swing) (sched : schedule) (b : building) (gen fract : Q) : res (Q * Q) :=
  do inlet <- design_inlet b;
  do fl <- first_shed_block sched;
  let block := fst fl in
  do pv <- swing_prelim s sched b fract;
  do prof <- mapM (fun h => do k <- py_nth sched h; Ok (if String.eqb k "shed" then 0 else gen)) hours24;
  do last <- py_nth block (-1);
  let i := Z.to_nat (last + 1) in
  let hw_out := per_minute (day_from (map (fun f => f * bd_daily b) (bd_avg b)) i) in
  do v <- env_of s inlet;
  do sim <- sim_just_swing v hw_out (sv_supply v + (1 # 10));
  do mix <- qdiv (qsum (hw_of sim)) (bd_daily b);
  do diff <- vsub (per_minute (day_from prof i)) (hw_of sim);
  let deficit := match worst_deficit (cumsum diff) with Some m => m | None => 0 end in
  do k <- qdiv (sv_storage v - inlet) (sv_supply v - inlet);
  Ok ((deficit + fst pv) * k, mix).

(** ** size *)

(** The try block of size(), L206-263: the system as far as it got, and the outcome. *)
Definition swing_size_ls (s : swing) (b : building) (sc : schedule) (d : ctl_map) (slope fract inlet cap stor : Q)
  : res swing :=
  do g <- swing_gen_ls s sc d b slope fract;
  do lcap <- swing_capacity_of s b (swing_gen_ls s sc d b slope fract);
  do rm <- swing_running_ls s sc b g fract;
  let '(lrv, lmix) := rm in
  do lstor <- storage_volume_ls (sw_dhw s) lrv d slope inlet;
  let cap' := qmax cap lcap in
  if qltb stor lstor then Ok (sw_set_mix (sw_set_dhw s (dh_set_results (sw_dhw s) cap' lstor slope)) lmix)
  else Ok (sw_set_dhw s (dh_set_results (sw_dhw s) cap' stor slope)).

Definition swing_size_try (s : swing) (b : building) (sched : option schedule) (m : option ctl_map)
  (slope fract : Q) : swing * res unit :=
  match design_inlet b with
  | Err e => (s, Err e)
  | Ok inlet =>
    match size_tm s b with
    | Err e => (s, Err e)
    | Ok s1 =>
      let s2 := sw_set_mix s1 1 in
      match swing_running s2 b with
      | Err e => (s2, Err e)
      | Ok (mix, rv) =>
        let s3 := apply_mix s2 mix in
        match (do f <- strat_factor (sw_dhw s3) m slope inlet;
               do stor <- storage_volume rv f;
               do cap <- swing_capacity s3 b;
               match sched, m with
               | Some sc, Some d =>
                   if ls_active sched m then swing_size_ls s3 b sc d slope fract inlet cap stor
                   else Ok (sw_set_dhw s3 (dh_set_results (sw_dhw s3) cap stor slope))
               | _, _ => Ok (sw_set_dhw s3 (dh_set_results (sw_dhw s3) cap stor slope))
               end) with
        | Err e => (s3, Err e)
        | Ok s4 => (s4, Ok tt)
        end
      end
    end
  end.

(** SwingSystem.size, L183-271. *)
Definition swing_size (lib : library) (s : swing) (b : building) (sched : option schedule)
  (m : option ctl_map) (slope fract : Q) : swing * building * res unit :=
  match (if bd_is_annual b then bd_set_daily lib b else Ok b) with
  | Err e => (s, b, Err e)
  | Ok b1 =>
      let s0 := sw_set_dhw s (cap_run (sw_dhw s) sched m) in
      let '(s2, out) := swing_size_try s0 b1 sched m slope fract in
      let s3 := sw_set_run s2 (dh_run (sw_dhw s)) in
      match out with
      | Err e => (s3, b1, Err e)
      | Ok w =>
          if bd_is_annual b then
            match bd_set_annual lib b1 with
            | Err e => (s3, b1, Err e)
            | Ok b2 => (s3, b2, Ok w)
            end
          else (s3, b1, Ok w)
      end
  end.

(** ** Sizing curve, L277-344: volume before capacity *)

(** One pass of the sweep, L317-328: the system it leaves and the point ([None] is [break]). *)
Definition swing_curve_point (s : swing) (b : building) (factor : Q) : swing * res (option (Q * Q)) :=
  match swing_running s b with
  | Err ValueError | Err RuntimeError => (s, Ok None)
  | Err e => (s, Err e)
  | Ok (mix, rv) =>
      let s1 := apply_mix s mix in
      if Qeq_bool rv 0 then (s1, Ok None)
      else match (do cap <- swing_capacity s1 b; do st <- storage_volume rv factor; Ok (cap, st)) with
           | Err ValueError | Err RuntimeError => (s1, Ok None)
           | Err e => (s1, Err e)
           | Ok p => (s1, Ok (Some p))
           end
  end.

Fixpoint swing_curve_loop (s : swing) (b : building) (factor : Q) (hs : list Q)
  : swing * res (list (Q * Q * Q)) :=
  match hs with
  | [] => (s, Ok [])
  | h :: r =>
      let '(s1, o) := swing_curve_point (sw_set_run s h) b factor in
      match o with
      | Err e => (s1, Err e)
      | Ok None => (s1, Ok [])
      | Ok (Some (cap, st)) =>
          let '(s2, rest) := swing_curve_loop s1 b factor r in
          (s2, do l <- rest; Ok ((h, cap, st) :: l))
      end
  end.

Definition swing_curve_body (s : swing) (b : building) (cmap : option ctl_map) (slope step : Q)
  : swing * res curve :=
  match (do inlet <- design_inlet b;
         do f <- strat_factor (sw_dhw s) cmap (slope_or (sw_dhw s) slope) inlet;
         do lo <- min_run_hr b;
         do a1 <- arange 24 (dh_run (sw_dhw s)) (- step);
         do a2 <- arange (dh_run (sw_dhw s)) lo (- step);
         Ok (f, a1, a2)) with
  | Err e => (s, Err e)
  | Ok (f, a1, a2) =>
      let '(s1, out) := swing_curve_loop s b f (a1 ++ a2) in
      (sw_set_run s1 (dh_run (sw_dhw s)),
       do pts <- out;
       Ok (mkCurve (map (fun p => fst (fst p)) pts) (map (fun p => snd (fst p)) pts) (map snd pts)
                   (Z.min (Z.of_nat (length a1)) (Z.max 0 (Z.of_nat (length pts) - 1)))))
  end.

Definition swing_sizing_curve (lib : library) (s : swing) (b : building) (cmap : option ctl_map)
  (slope step : Q) : swing * building * res curve :=
  match (if bd_is_annual b then bd_set_daily lib b else Ok b) with
  | Err e => (s, b, Err e)
  | Ok b1 =>
      let '(s2, out) := swing_curve_body s b1 cmap slope step in
      let '(b2, out2) := restore_annual lib (bd_is_annual b) b1 out in
      (s2, b2, out2)
  end.

(** ** Resistance trade-off, SwingERTrdOffSystem.py *)

(** Attributes of SwingERTrdOffSystem, L68-93. *)
Record swing_er := mkEr { er_base : swing; er_safety : Q; er_cap : option Q }.

(** _run_one_swing_step_er, L427-509: state, temperature, deficit closed by the element to be sized. *)
Definition swing_step_er (v : swing_env) (heating : bool) (t hw feed : Q) : res (bool * Q * Q) :=
  do t1 <- swing_mix v t hw feed;
  do t2 <- swing_lose v t1;
  do dt <- element_dt v;
  do r <- swing_element v heating t2 dt;
  let '(h, t3, _) := r in
  if qltb t3 (sv_supply v) then Ok (h, sv_supply v, sv_supply v - t3) else Ok (h, t3, 0).

(** L371-388: temperature of the water the primary feeds. *)
Definition er_feed (v : swing_env) (hw hot : Q) : res Q :=
  if (Qle_bool hw 0 || Qle_bool hot 0)%bool then Ok (sv_inlet v)
  else if Qle_bool hw hot then Ok (sv_storage v)
  else qdiv (hot * sv_storage v + (hw - hot) * sv_inlet v) hw.

(** One scenario, L351-406: the largest deficit so far. *)
Fixpoint er_loop (v : swing_env) (gen full : Q) (heating : bool) (t level worst : Q) (l : list Q) : res Q :=
  match l with
  | [] => Ok worst
  | x :: r =>
      do hw <- from_primary v t x;
      do feed <- er_feed v hw (level + gen);
      let level' := qmin (qmax (level + gen - hw) 0) full in
      do o <- swing_step_er v heating t hw feed;
      let '(h, t', deficit) := o in
      er_loop v gen full h t' level' (if qltb worst deficit then deficit else worst) r
  end.

(** L331-340: two days of demand per minute from the first peak hour. *)
Definition er_demand (run daily : Q) (shape : list Q) : res (list Q) :=
  do g <- qdiv 1 run;
  do diff <- vsub (repeat g 24) shape;
  let i := match peak_indices diff with p :: _ => p | [] => 0%nat end in
  let l := map (fun f => f * daily) shape in
  Ok (per_minute (firstn 48 (skipn i (l ++ l ++ l)))).

(** L316-326. *)
Definition er_gen (v : swing_env) (cap : Q) : res Q :=
  do x <- qdiv (cap * 1000) (rho_cp * (sv_storage v - sv_inlet v)); Ok (x / 60).

(** The worst deficit over both scenarios, L342-406. *)
Definition er_deficit (v : swing_env) (cap full : Q) (demand : list Q) : res Q :=
  do gen <- er_gen v cap;
  do w1 <- er_loop v gen full false (sv_supply v) 0 0 demand;
  er_loop v gen full false (sv_supply v) full w1 demand.

(** _size_er_element, L297-425: the ER capacity and the new total. *)
Definition er_element (s : swing) (safety : Q) (b : building) : res (Q * Q) :=
  do inlet <- design_inlet b;
  match dh_min_cap (sw_dhw s), dh_min_stor (sw_dhw s) with
  | Some cap, Some full =>
      do v <- env_of s inlet;
      do dem <- er_demand (dh_run (sw_dhw s)) (bd_daily b) (bd_peak b);
      do w <- er_deficit v cap full dem;
      let er := sv_vol v * rho_cp * 60 * w / 1000 * safety in
      Ok (er, sv_cap v + er)
  | _, _ => Err TypeError
  end.

Definition sw_set_cap (s : swing) (c : Q) : swing :=
  mkSwing (sw_dhw s) (sw_return s) (sw_flow s) (sw_safety s) (sw_eff_mix s) (sw_tm_vol s) (sw_tm_ca s) (Some c).
Definition size_er (s : swing_er) (b : building) : swing_er * res unit :=
  match er_element (er_base s) (er_safety s) b with
  | Err e => (s, Err e)
  | Ok (er, total) => (mkEr (sw_set_cap (er_base s) total) (er_safety s) (Some er), Ok tt)
  end.

(** size, L277-295. *)
Definition swing_er_size (lib : library) (s : swing_er) (b : building) (sched : option schedule)
  (m : option ctl_map) (slope fract : Q) : swing_er * building * res unit :=
  let '(s1, b1, out) := swing_size lib (er_base s) b sched m slope fract in
  let e1 := mkEr s1 (er_safety s) (er_cap s) in
  match out with
  | Err e => (e1, b1, Err e)
  | Ok _ => let '(e2, o) := size_er e1 b1 in (e2, b1, o)
  end.

(** Python [round(x, 0)] is [qz (py_round x)].  The while loop of get_er_sized_points, L567-592:
    the magnitudes 120, 110, ..., 10; the points in order of visit, the index of 100 percent and the
    system and building as they are left ([None]: an exception, which leaves them mutated). *)
Fixpoint er_points (s : swing_er) (b : building) (daily base total : Q) (add_safety : Q) (is_ : list Q)
  (acc : list (Q * Q)) (start : nat) : swing_er * building * res (list (Q * Q) * nat) :=
  match is_ with
  | [] => (s, b, Ok (acc, start))
  | i :: r =>
      if Qeq_bool i 100 then
        er_points s b daily base total add_safety r (acc ++ [(i, qz (py_round (total / w_to_kbtuh)))]) (length acc)
      else
        let b1 := bd_set_magnitude b (daily * (i / 100)) in
        let s1 := mkEr (sw_set_cap (er_base s) base) add_safety None in
        let '(s2, out) := size_er s1 b1 in
        match out with
        | Err e => (s2, b1, Err e)
        | Ok _ =>
            let s3 := mkEr (er_base s2) (er_safety s) (er_cap s2) in
            match sw_tm_cap (er_base s3), er_cap s3 with
            | Some t, Some er =>
                let acc' := acc ++ [(i, qz (py_round (t / w_to_kbtuh)))] in
                if qltb 0 er then er_points s3 b1 daily base total add_safety r acc' start
                else (s3, b1, Ok (acc', start))
            | _, _ => (s3, b1, Err TypeError)
            end
        end
  end.

Definition er_fractions : list Q := map (fun i => qz (120 - 10 * Z.of_nat i)) (seq 0 12).

(** get_er_sized_points, L529-611: capacities in kW and percentages, lowest first, and the index of
    100 percent. *)
Definition er_sized_points (s : swing_er) (b : building) (add_safety : Q)
  : swing_er * building * res (list Q * list Q * Z) :=
  match er_cap s, sw_tm_cap (er_base s) with
  | Some er, Some total =>
      if Qle_bool er 0 then (s, b, Err RuntimeError)
      else
        let '(s1, b1, out) := er_points s b (bd_daily b) (total - er) total add_safety er_fractions [] 0%nat in
        match out with
        | Err e => (s1, b1, Err e)
        | Ok (pts, start) =>
            (mkEr (sw_set_cap (er_base s1) total) (er_safety s1) (Some er),
             bd_set_magnitude b1 (bd_daily b),
             Ok (rev (map snd pts), rev (map fst pts), (Z.of_nat (length pts) - 1 - Z.of_nat start)%Z))
        end
  | Some er, None => (s, b, if Qle_bool er 0 then Err RuntimeError else Err TypeError)
  | None, _ => (s, b, Err RuntimeError)
  end.
