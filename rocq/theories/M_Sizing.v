(** Model of the sizing half of /repo/src/ecoengine/objects/dhwsystems/DHWSystem.py, and of the
    sizing overrides of rtp_systems/RTPSystem.py and rtp_systems/SinglePassRTPSystem.py.

    numpy arrays are lists; element-wise operations are [map]s.  Python's method resolution
    (self._calc_...) is a table of functions, [klass], filled in per class. *)
From Verif Require Import Prelude M_StratifiedTank M_Building M_Heater.
Open Scope Q_scope.

Definition schedule := list string.
Definition ctl_map := list (string * controls).

(** The attributes of DHWSystem that sizing reads or writes, DHWSystem.py L100-160.
    [dh_slope] is [None] until size() has created the attribute (getattr default, L466). *)
Record dhw := mkDhw {
  dh_supply : Q; dh_storage : Q; dh_run : Q; dh_defrost : Q;
  dh_min_cap : option Q; dh_min_stor : option Q; dh_slope : option Q }.

Definition dh_set_run (s : dhw) (r : Q) : dhw :=
  mkDhw (dh_supply s) (dh_storage s) r (dh_defrost s) (dh_min_cap s) (dh_min_stor s) (dh_slope s).
Definition dh_set_results (s : dhw) (cap stor slope : Q) : dhw :=
  mkDhw (dh_supply s) (dh_storage s) (dh_run s) (dh_defrost s) (Some cap) (Some stor) (Some slope).

(** _require_design_inlet_temp, L1539-1551. *)
Definition design_inlet (b : building) : res Q :=
  do t <- bd_design_inlet b;
  match t with Some x => Ok x | None => Err ValueError end.

(** ** Capacity *)

(** _calc_required_capacity, L836-862. *)
Definition base_capacity (s : dhw) (b : building) : res Q :=
  do inlet <- design_inlet b;
  do gen <- qdiv (bd_daily b) (dh_run s);
  do x <- qdiv (gen * rho_cp * (dh_supply s - inlet)) (dh_defrost s);
  Ok (x / 1000).

(** ** Running volume *)

(** _get_peak_indices, L54-64; [hourly_diff[i - 1]] wraps to the last entry at [i = 0]. *)
Definition prev_hour (n i : nat) : nat := match i with O => (n - 1)%nat | S j => j end.
Definition peak_indices (d : list Q) : list nat :=
  filter (fun i => Qle_bool 0 (nth (prev_hour (length d) i) d 0) && qltb (nth i d 0) 0)
         (seq 0 (length d)).

(** np.cumsum. *)
Fixpoint cumsum_from (acc : Q) (l : list Q) : list Q :=
  match l with [] => [] | x :: r => (acc + x) :: cumsum_from (acc + x) r end.
Definition cumsum (l : list Q) : list Q := cumsum_from 0 l.

(** [x[x < 0]] followed by [-np.min(..)]; [None] when there is no negative entry. *)
Definition worst_deficit (cum : list Q) : option Q :=
  match filter (fun x => qltb x 0) cum with
  | [] => None
  | x :: r => Some (- qminl x r)
  end.

(** The loop of _calc_running_volume_supplyT_gal, L896-916, on the hourly difference. *)
Definition running_of_diff (d : list Q) : Q :=
  let tiled := d ++ d in
  match peak_indices d with
  | [] => 0
  | idxs => fold_left (fun v idx => match worst_deficit (cumsum (skipn idx tiled)) with
                                    | None => v
                                    | Some m => qmax v m
                                    end) idxs 0
  end.

Definition hourly_diff (gen daily : Q) (shape : list Q) : list Q :=
  map (fun f => gen - daily * f) shape.

(** _calc_running_volume_supplyT_gal, L864-916 (the capacity argument is unused). *)
Definition base_running (s : dhw) (b : building) (capacity : Q) : res Q :=
  do gen <- qdiv (bd_daily b) (dh_run s);
  Ok (running_of_diff (hourly_diff gen (bd_daily b) (bd_peak b))).

(** ** Storage volume and stratification *)

(** _calc_storage_volume_storageT_gal, L918-948. *)
Definition storage_volume (running factor : Q) : res Q := qdiv running factor.

(** _calc_supply_temp_gal_from_100gal_tank, L1000-1083. *)
Definition supply_gal_100 (s : dhw) (on_fract on_temp slope inlet : Q) : res Q :=
  let on_pct := on_fract * 100 in
  let supply_delta := dh_supply s - inlet in
  do sup_off <- qdiv (dh_supply s - on_temp) slope;
  do sto_off <- qdiv (dh_storage s - on_temp) slope;
  let storage_h := qmin (on_pct + sto_off) 100 in
  let supply_h := qmax (on_pct + sup_off) on_pct in
  if Qle_bool 100 supply_h then Ok 0
  else
    let s1 := supply_h - on_pct in
    let s2 := storage_h - on_pct in
    let a := on_temp - inlet in
    do trans <- qdiv (a * (s2 - s1) + slope * (s2 * s2 - s1 * s1) / 2) supply_delta;
    do hot <- qdiv (qmax 0 (100 - storage_h) * (dh_storage s - inlet)) supply_delta;
    Ok (trans + hot).

(** Python truthiness of [control_map]. *)
Definition map_of (m : option ctl_map) : ctl_map := match m with Some d => d | None => [] end.

(** _calc_stratification_factor, L950-998. *)
Definition strat_factor (s : dhw) (m : option ctl_map) (slope inlet : Q) : res Q :=
  match map_of m with
  | [] => do x <- supply_gal_100 s 0 (dh_supply s) slope inlet; Ok (x / 100)
  | d =>
      match dict_get d "normal" with
      | Some c => do x <- supply_gal_100 s (ct_on_sensor c) (ct_on_trigger c) slope inlet; Ok (x / 100)
      | None =>
          do l <- mapM (fun kc => do x <- supply_gal_100 s (ct_on_sensor (snd kc)) (ct_on_trigger (snd kc)) slope inlet;
                                  Ok (x / 100)) d;
          py_min l
      end
  end.

(** _calc_avg_hot_temp_at_on_trigger, L1085-1147. *)
Definition avg_hot_temp (s : dhw) (on_fract on_temp slope : Q) : res Q :=
  let on_pct := on_fract * 100 in
  do sup_off <- qdiv (dh_supply s - on_temp) slope;
  do sto_off <- qdiv (dh_storage s - on_temp) slope;
  let supply_h := on_pct + sup_off in
  let storage_h := on_pct + sto_off in
  let top := if qltb 100 storage_h then on_temp + (100 - on_pct) * slope else dh_storage s in
  if Qle_bool 100 supply_h then Ok (dh_supply s)
  else
    let bottom := if qltb supply_h 0 then on_temp - on_pct * slope else dh_supply s in
    let trans_avg := (top + bottom) / 2 in
    let trans_gal := qmin 100 storage_h - qmax 0 supply_h in
    let hot_gal := qmax 0 (100 - storage_h) in
    let total := trans_gal + hot_gal in
    if Qle_bool total 0 then Ok (dh_supply s)
    else Ok ((trans_gal * trans_avg + dh_storage s * hot_gal) / total).

(** _strat_factor_for_on_params, L1149-1205. *)
Definition strat_factor_on (s : dhw) (on_fract on_temp slope : Q) : res Q :=
  let on_pct := on_fract * 100 in
  let dt := dh_storage s - dh_supply s in
  do sup_off <- qdiv (dh_supply s - on_temp) slope;
  do sto_off <- qdiv (dh_storage s - on_temp) slope;
  let storage_h := qmin (on_pct + sto_off) 100 in
  let supply_h := qmax (on_pct + sup_off) on_pct in
  let above := (100 - storage_h) * dt + (storage_h - supply_h) * dt / 2 in
  qdiv above ((100 - on_pct) * dt).

(** _strat_pct_of_tank, L1207-1236. *)
Definition strat_pct (s : dhw) (on_fract on_temp slope : Q) : res Q :=
  do f <- strat_factor_on s on_fract on_temp slope; Ok (f * (1 - on_fract)).

(** ** Load shifting *)

(** _is_load_shifting, L1238-1241. *)
Definition is_load_shifting (m : option ctl_map) : bool :=
  match m with Some d => dict_has d "shed" | None => false end.

(** [control_schedule and self._is_load_shifting(control_map)], L343. *)
Definition ls_active (sched : option schedule) (m : option ctl_map) : bool :=
  match sched with Some (_ :: _) => is_load_shifting m | _ => false end.

(** [sum(1 for h in control_schedule if h != "shed")]. *)
Definition non_shed_hours (sched : schedule) : Q :=
  qz (Z.of_nat (length (filter (fun k => negb (String.eqb k "shed")) sched))).

(** The extension of the first block, L1268-1273: keep consecutive hours, stop at the first gap. *)
Fixpoint take_run (last : Z) (l : list Z) : list Z :=
  match l with
  | h :: r => if (h =? last + 1)%Z then h :: take_run h r else []
  | [] => []
  end.
(** The [while] loop counting load-up hours before hour [h], L1276-1281; [k] counts down to the
    start of the day, so that [h >= 0] is the recursion. *)
Fixpoint count_load_up (sched : schedule) (k : nat) : Z :=
  match k with
  | O => 0
  | S j => match nth_error sched j with
           | Some key => if String.eqb key "loadUp" then (1 + count_load_up sched j)%Z else 0%Z
           | None => 0%Z
           end
  end.

Definition hours24 : list Z := map Z.of_nat (seq 0 24).

(** _get_first_shed_block_and_load_up_hours, L1243-1283. *)
Definition first_shed_block (sched : schedule) : res (list Z * Z) :=
  do keys <- mapM (fun h => do k <- py_nth sched h; Ok (h, k)) hours24;
  match map fst (filter (fun hk => String.eqb (snd hk) "shed") keys) with
  | [] => Ok ([], 0%Z)
  | h0 :: r => Ok (h0 :: take_run h0 r, count_load_up sched (Z.to_nat h0))
  end.

(** [sum(load_shape_gph[h] for h in ..)]. *)
Definition sum_at (l : list Q) (hs : list Z) : res Q :=
  do xs <- mapM (py_nth l) hs; Ok (qsum xs).
(** [range(a, b)]. *)
Definition zrange (a b : Z) : list Z := map (fun i => (a + Z.of_nat i)%Z) (seq 0 (Z.to_nat (b - a))).

(** _calc_prelim_vols_supplyT_gal, L1285-1321. *)
Definition prelim_vols (sched : schedule) (b : building) (fract : Q) : res (Q * Q) :=
  do fl <- first_shed_block sched;
  let '(block, lu) := fl in
  let gph := map (fun f => f * bd_daily b) (bd_avg b) in
  do vs <- sum_at gph block;
  do h0 <- py_nth block 0;
  do vc <- sum_at gph (zrange (h0 - lu) h0);
  Ok (vs * fract, vc).

(** [control_map[key]] (KeyError) and [control_map.get("loadUp", normal)]. *)
Definition ctl (d : ctl_map) (k : string) : res controls :=
  match dict_get d k with Some c => Ok c | None => Err KeyError end.
Definition ctl_load_up (d : ctl_map) (normal : controls) : controls :=
  match dict_get d "loadUp" with Some c => c | None => normal end.

(** _calc_gen_rate_ls_gph, L1323-1392. *)
Definition base_gen_ls (s : dhw) (sched : schedule) (d : ctl_map) (b : building) (slope fract : Q)
  : res Q :=
  do normal_gen <- qdiv (bd_daily b) (dh_run s);
  do fl <- first_shed_block sched;
  let lu := snd fl in
  if (lu =? 0)%Z then Ok normal_gen
  else
    do pv <- prelim_vols sched b fract;
    let '(vshift, vcons) := pv in
    do nc <- ctl d "normal";
    let lc := ctl_load_up d nc in
    do sc <- ctl d "shed";
    do np <- strat_pct s (ct_on_sensor nc) (ct_on_trigger nc) slope;
    do lp <- strat_pct s (ct_on_sensor lc) (ct_on_trigger lc) slope;
    do sp <- strat_pct s (ct_on_sensor sc) (ct_on_trigger sc) slope;
    let band := lp - sp in
    if Qle_bool band 0 then Ok normal_gen
    else
      let vload := vshift * (lp - np) / band in
      Ok (qmax normal_gen ((vload + vcons) / qz lu)).

(** _calc_required_capacity_ls_kbtuh, L1394-1428, given the generation rate it asks for. *)
Definition capacity_of_gen (s : dhw) (b : building) (gen : res Q) : res Q :=
  do inlet <- design_inlet b;
  do g <- gen;
  do x <- qdiv (g * rho_cp * (dh_supply s - inlet)) (dh_defrost s);
  Ok (x / 1000).
Definition base_capacity_ls (s : dhw) (sched : schedule) (d : ctl_map) (b : building) (slope fract : Q)
  : res Q := capacity_of_gen s b (base_gen_ls s sched d b slope fract).

(** Element-wise difference of two arrays; numpy raises ValueError when the lengths differ
    (broadcasting of a length-1 array is left out: shapes have 24 or 8760 entries). *)
Fixpoint vsub (a b : list Q) : res (list Q) :=
  match a, b with
  | [], [] => Ok []
  | x :: r, y :: t => do l <- vsub r t; Ok ((x - y) :: l)
  | _, _ => Err ValueError
  end.

(** _calc_running_volume_ls_supplyT_gal, L1430-1490. *)
Definition base_running_ls (sched : schedule) (b : building) (gen fract : Q) : res Q :=
  do fl <- first_shed_block sched;
  let block := fst fl in
  do pv <- prelim_vols sched b fract;
  do prof <- mapM (fun h => do k <- py_nth sched h; Ok (if String.eqb k "shed" then 0 else gen)) hours24;
  do diff <- vsub prof (map (fun f => bd_daily b * f) (bd_avg b));
  do last <- py_nth block (-1);
  let cum := cumsum (skipn (Z.to_nat (last + 1)) (diff ++ diff)) in
  let deficit := match worst_deficit cum with Some m => m | None => 0 end in
  Ok (deficit * fract + fst pv).

(** _calc_storage_volume_ls_storageT_gal, L1492-1537. *)
Definition storage_volume_ls (s : dhw) (running : Q) (d : ctl_map) (slope inlet : Q) : res Q :=
  do nc <- ctl d "normal";
  let lc := ctl_load_up d nc in
  do sc <- ctl d "shed";
  do lx <- supply_gal_100 s (ct_off_sensor lc) (ct_off_trigger lc) slope inlet;
  do sx <- supply_gal_100 s (ct_on_sensor sc) (ct_on_trigger sc) slope inlet;
  storage_volume running ((lx - sx) / 100).

(** ** Short-cycling warnings *)
Inductive warning := WBackwards | WShortCycle.

(** _warn_if_short_cycling, L1556-1611: the list of warnings, in the order they are issued.
    (Warnings issued before a ZeroDivisionError are dropped.) *)
Definition short_cycling (s : dhw) (d : ctl_map) (cap stor : Q) : res (list (string * warning)) :=
  let dt := dh_storage s - dh_supply s in
  if Qle_bool dt 0 then Ok []
  else
    let rate := cap * 1000 / (rho_cp * dt) in
    do ws <- mapM (fun kc =>
      let c := snd kc in
      if qltb (ct_on_sensor c) (ct_off_sensor c) then Ok [(fst kc, WBackwards)]
      else
        do hr <- qdiv ((ct_on_sensor c - ct_off_sensor c) * stor) rate;
        Ok (if qltb (hr * 60) 10 then [(fst kc, WShortCycle)] else [])) d;
    Ok (concat ws).

(** ** Method table *)
Record klass := mkKlass {
  k_capacity : dhw -> building -> res Q;
  k_running : dhw -> building -> Q -> res Q;
  k_gen_ls : dhw -> schedule -> ctl_map -> building -> Q -> Q -> res Q;
  k_capacity_ls : dhw -> schedule -> ctl_map -> building -> Q -> Q -> res Q;
  k_running_ls : dhw -> schedule -> building -> Q -> Q -> res Q }.

(** DHWSystem itself, and ParallelLoopSystem / RecircSystem, which override none of these. *)
Definition base_klass : klass :=
  mkKlass base_capacity base_running base_gen_ls base_capacity_ls (fun _ => base_running_ls).

(** RTPSystem.get_recirc_loss_kbtuh, RTPSystem.py L58-76 (RecircSystem.py L55-74 multiplies the same
    factors in another order). *)
Definition recirc_loss (s : dhw) (ret flow : Q) : Q :=
  flow * 60 * rho_cp * (dh_supply s - ret) / 1000.

(** The recirculation share of the capacity, RTPSystem.py L104-110, L145-150. *)
Definition recirc_capacity (s : dhw) (ret flow : Q) : res Q :=
  do x <- qdiv (recirc_loss s ret flow * 24) (dh_run s); qdiv x (dh_defrost s).

(** RTPSystem._calc_required_capacity, RTPSystem.py L82-111. *)
Definition rtp_capacity (ret flow : Q) (s : dhw) (b : building) : res Q :=
  do c <- base_capacity s b; do r <- recirc_capacity s ret flow; Ok (c + r).

(** Daily recirculation volume at supply temperature, SinglePassRTPSystem.py L215-221. *)
Definition recirc_daily_gal (ret flow : Q) (s : dhw) (b : building) : res Q :=
  do inlet <- design_inlet b;
  do x <- qdiv (recirc_loss s ret flow * 1000) (rho_cp * (dh_supply s - inlet));
  Ok (x * 24).

Definition bd_set_magnitude (b : building) (g : Q) : building :=
  mkBuilding (bd_climate b) g (bd_peak b) (bd_avg b) (bd_type b).

(** SinglePassRTPSystem._calc_running_volume_supplyT_gal, L184-229: the boost is computed (and can
    raise) but, the two lines being commented out, never applied. *)
Definition sprtp_running (ret flow : Q) (s : dhw) (b : building) (cap : Q) : res Q :=
  do _ <- recirc_daily_gal ret flow s b; base_running s b cap.

(** Run [f] with the building's magnitude raised by [r], and lower it again on every exit
    (try/finally, L254-264 and L310-320).  Returns the building as it is left, and the outcome. *)
Definition with_boost (b : building) (r : Q) (f : building -> res Q) : building * res Q :=
  let b1 := bd_set_magnitude b (bd_daily b + r) in
  let out := f b1 in
  (bd_set_magnitude b1 (bd_daily b1 - r), out).

(** SinglePassRTPSystem._calc_gen_rate_ls_gph, L231-264, and
    _calc_running_volume_ls_supplyT_gal, L266-320, with their effect on the building. *)
Definition sprtp_gen_ls_st (ret flow : Q) (s : dhw) (sched : schedule) (d : ctl_map) (b : building)
  (slope fract : Q) : building * res Q :=
  match recirc_daily_gal ret flow s b with
  | Err e => (b, Err e)
  | Ok r => with_boost b r (fun b1 => base_gen_ls s sched d b1 slope fract)
  end.
Definition sprtp_running_ls_st (ret flow : Q) (s : dhw) (sched : schedule) (b : building)
  (gen fract : Q) : building * res Q :=
  match recirc_daily_gal ret flow s b with
  | Err e => (b, Err e)
  | Ok r => with_boost b r (fun b1 => base_running_ls sched b1 gen fract)
  end.
(** Their return values.  The callers below go on with the building they passed in: in exact
    arithmetic [x + r - r = x], so the effect on the building is nil
    (theorem C40_boost_restored). *)
Definition sprtp_gen_ls ret flow s sched d b slope fract :=
  snd (sprtp_gen_ls_st ret flow s sched d b slope fract).
Definition sprtp_running_ls ret flow s sched b gen fract :=
  snd (sprtp_running_ls_st ret flow s sched b gen fract).

(** RTPSystem._calc_required_capacity_ls_kbtuh, RTPSystem.py L113-151, whose super() call asks the
    overridden generation rate. *)
Definition sprtp_capacity_ls (ret flow : Q) (s : dhw) (sched : schedule) (d : ctl_map) (b : building)
  (slope fract : Q) : res Q :=
  do c <- capacity_of_gen s b (sprtp_gen_ls ret flow s sched d b slope fract);
  do r <- recirc_capacity s ret flow;
  Ok (c + r).

Definition sprtp_klass (ret flow : Q) : klass :=
  mkKlass (rtp_capacity ret flow) (sprtp_running ret flow) (sprtp_gen_ls ret flow)
          (sprtp_capacity_ls ret flow) (fun s => sprtp_running_ls ret flow s).

(** ** size *)

(** The values computed inside the try block of size(), L347-373. *)
Definition size_values (K : klass) (s : dhw) (b : building) (sched : option schedule)
  (m : option ctl_map) (slope fract : Q) : res (Q * Q) :=
  do inlet <- design_inlet b;
  do cap <- k_capacity K s b;
  do rv <- k_running K s b cap;
  do f <- strat_factor s m slope inlet;
  do stor <- storage_volume rv f;
  match sched, m with
  | Some sc, Some d =>
      if ls_active sched m then
        do lcap <- k_capacity_ls K s sc d b slope fract;
        do g <- k_gen_ls K s sc d b slope fract;
        do lrv <- k_running_ls K s sc b g fract;
        do lstor <- storage_volume_ls s lrv d slope inlet;
        Ok (qmax cap lcap, qmax stor lstor)
      else Ok (cap, stor)
  | _, _ => Ok (cap, stor)
  end.

(** The try block: results are stored before the short-cycling check, which may still raise. *)
Definition size_try (K : klass) (s : dhw) (b : building) (sched : option schedule)
  (m : option ctl_map) (slope fract : Q) : dhw * res (list (string * warning)) :=
  match size_values K s b sched m slope fract with
  | Err e => (s, Err e)
  | Ok (cap, stor) =>
      (dh_set_results s cap stor slope,
       match map_of m with [] => Ok [] | d => short_cycling s d cap stor end)
  end.

Definition cap_run (s : dhw) (sched : option schedule) (m : option ctl_map) : dhw :=
  match sched with
  | Some sc => if ls_active sched m then dh_set_run s (qmin (dh_run s) (non_shed_hours sc)) else s
  | None => s
  end.

(** size, L284-384: the system and the building as they are left, and the outcome. *)
Definition dhw_size (K : klass) (lib : library) (s : dhw) (b : building) (sched : option schedule)
  (m : option ctl_map) (slope fract : Q) : dhw * building * res (list (string * warning)) :=
  match (if bd_is_annual b then bd_set_daily lib b else Ok b) with
  | Err e => (s, b, Err e)
  | Ok b1 =>
      let '(s2, out) := size_try K (cap_run s sched m) b1 sched m slope fract in
      let s3 := dh_set_run s2 (dh_run s) in
      match out with
      | Err e => (s3, b1, Err e)
      | Ok w =>
          if bd_is_annual b then
            match bd_set_annual lib b1 with
            | Err e => (s3, b1, Err e)
            | Ok b2 => (s3, b2, Ok w)
            end
          else (s3, b1, Ok w)
      end
  end.

(** ** Sizing curve *)

(** np.arange(start, stop, step) with float arguments. *)
Definition arange (start stop step : Q) : res (list Q) :=
  if Qeq_bool step 0 then Err ZeroDivisionError
  else Ok (map (fun i => start + qz (Z.of_nat i) * step)
               (seq 0 (Z.to_nat (Qceiling ((stop - start) / step))))).

Record curve := mkCurve {
  cv_hours : list Q; cv_capacity : list Q; cv_storage : list Q; cv_rec : Z }.

(** One pass of the sweep, L494-506: [None] is [break]. *)
Definition curve_point (K : klass) (s : dhw) (b : building) (factor : Q) : res (option (Q * Q)) :=
  match (do cap <- k_capacity K s b;
         do rv <- k_running K s b cap;
         if Qeq_bool rv 0 then Ok None
         else do st <- storage_volume rv factor; Ok (Some (cap, st))) with
  | Err ValueError | Err RuntimeError => Ok None
  | x => x
  end.

(** The sweep, L491-509: the system as the loop leaves it (run hours of the last point tried). *)
Fixpoint curve_loop (K : klass) (s : dhw) (b : building) (factor : Q) (hs : list Q)
  : dhw * res (list (Q * Q * Q)) :=
  match hs with
  | [] => (s, Ok [])
  | h :: r =>
      let s1 := dh_set_run s h in
      match curve_point K s1 b factor with
      | Err e => (s1, Err e)
      | Ok None => (s1, Ok [])
      | Ok (Some (cap, st)) =>
          let '(s2, rest) := curve_loop K s1 b factor r in
          (s2, do l <- rest; Ok ((h, cap, st) :: l))
      end
  end.

Definition slope_or (s : dhw) (slope : Q) : Q := match dh_slope s with Some x => x | None => slope end.

(** np.max of the peak shape (ValueError on an empty array), then the physical minimum, L478. *)
Definition min_run_hr (b : building) : res Q :=
  match bd_peak b with
  | [] => Err ValueError
  | x :: r => do y <- qdiv 1 (qmaxl x r); Ok (y * (1001 # 1000))
  end.

(** The body of get_sizing_curve inside the outer try, L468-519; [cmap] is
    water_heaters[0].control_map, or None without heaters. *)
Definition curve_body (K : klass) (s : dhw) (b : building) (cmap : option ctl_map) (slope step : Q)
  : dhw * res curve :=
  match (do inlet <- design_inlet b;
         do f <- strat_factor s cmap (slope_or s slope) inlet;
         do lo <- min_run_hr b;
         do a1 <- arange 24 (dh_run s) (- step);
         do a2 <- arange (dh_run s) lo (- step);
         Ok (f, a1, a2)) with
  | Err e => (s, Err e)
  | Ok (f, a1, a2) =>
      let '(s1, out) := curve_loop K s b f (a1 ++ a2) in
      (dh_set_run s1 (dh_run s),
       do pts <- out;
       Ok (mkCurve (map (fun p => fst (fst p)) pts) (map (fun p => snd (fst p)) pts) (map snd pts)
                   (Z.min (Z.of_nat (length a1)) (Z.max 0 (Z.of_nat (length pts) - 1)))))
  end.

(** [finally: if was_annual: building.set_to_annual_load_shape()]: an exception raised there
    replaces the outcome. *)
Definition restore_annual {A} (lib : library) (was : bool) (b : building) (out : res A)
  : building * res A :=
  if was then match bd_set_annual lib b with Err e => (b, Err e) | Ok b2 => (b2, out) end
  else (b, out).

(** get_sizing_curve, L413-522. *)
Definition sizing_curve (K : klass) (lib : library) (s : dhw) (b : building) (cmap : option ctl_map)
  (slope step : Q) : dhw * building * res curve :=
  match (if bd_is_annual b then bd_set_daily lib b else Ok b) with
  | Err e => (s, b, Err e)
  | Ok b1 =>
      let '(s2, out) := curve_body K s b1 cmap slope step in
      let '(b2, out2) := restore_annual lib (bd_is_annual b) b1 out in
      (s2, b2, out2)
  end.

(** ** Load-shift percentile curve *)

(** _load_shift_fract_total_vol, L25-47; [icdf] is NormalDist(mu, sigma).inv_cdf, which raises
    StatisticsError (a ValueError) outside (0, 1). *)
Definition ls_fract (icdf : Q -> Q) (p : Q) : res Q :=
  if Qle_bool 1 p then Ok 1
  else if Qle_bool p 0 then Err ValueError
  else Ok (qmin (icdf p) 1).

(** Python [round(x)]: nearest integer, halves to even. *)
Definition py_round (x : Q) : Z :=
  let f := Qfloor x in
  let r := x - qz f in
  if qltb r (1 # 2) then f
  else if qltb (1 # 2) r then (f + 1)%Z
  else if Z.even f then f else (f + 1)%Z.

Definition ls_percents : list Q := map (fun i => qz (Z.of_nat i) / 100) (seq 25 76).

Definition ls_point (K : klass) (icdf : Q -> Q) (s : dhw) (b : building) (sched : schedule)
  (d : ctl_map) (slope inlet cap_n stor_n p : Q) : res (Q * Q) :=
  do fr <- ls_fract icdf p;
  do lcap <- k_capacity_ls K s sched d b slope fr;
  do g <- k_gen_ls K s sched d b slope fr;
  do lrv <- k_running_ls K s sched b g fr;
  do lstor <- storage_volume_ls s lrv d slope inlet;
  Ok (qmax cap_n lcap, qmax stor_n lstor).

Definition ls_rec_index (p : Q) : Z :=
  let c := qmax (1 # 4) (qmin 1 p) in
  Z.max 0 (Z.min (py_round ((c - (1 # 4)) * 100)) (Z.of_nat (length ls_percents) - 1)).

(** The try block of get_ls_sizing_curve, L596-640. *)
Definition ls_curve_body (K : klass) (icdf : Q -> Q) (s : dhw) (b : building) (sched : schedule)
  (d : ctl_map) (slope p : Q) : res curve :=
  do inlet <- design_inlet b;
  do cap_n <- k_capacity K s b;
  do rv <- k_running K s b cap_n;
  do f <- strat_factor s (Some d) slope inlet;
  do stor_n <- storage_volume rv f;
  do pts <- mapM (ls_point K icdf s b sched d slope inlet cap_n stor_n) ls_percents;
  Ok (mkCurve ls_percents (map fst pts) (map snd pts) (ls_rec_index p)).

(** get_ls_sizing_curve, L524-646; the first series of the result is load_shift_percent. *)
Definition ls_sizing_curve (K : klass) (lib : library) (icdf : Q -> Q) (s : dhw) (b : building)
  (sched : schedule) (m : option ctl_map) (slope p : Q) : dhw * building * res curve :=
  match m with
  | None => (s, b, Err ValueError)
  | Some d =>
      if negb (dict_has d "shed") then (s, b, Err ValueError)
      else
        match (if bd_is_annual b then bd_set_daily lib b else Ok b) with
        | Err e => (s, b, Err e)
        | Ok b1 =>
            let s1 := dh_set_run s (qmin (dh_run s) (non_shed_hours sched)) in
            let out := ls_curve_body K icdf s1 b1 sched d (slope_or s slope) p in
            let s2 := dh_set_run s1 (dh_run s) in
            let '(b2, out2) := restore_annual lib (bd_is_annual b) b1 out in
            (s2, b2, out2)
        end
  end.

(** SinglePassRTPSystem.size, SinglePassRTPSystem.py L126-162: the base sizing, then the reported
    recirculation share at the configured run hours. *)
Definition sprtp_size (ret flow : Q) (lib : library) (s : dhw) (b : building) (sched : option schedule)
  (m : option ctl_map) (slope fract : Q) : dhw * building * res Q :=
  let '(s', b', out) := dhw_size (sprtp_klass ret flow) lib s b sched m slope fract in
  (s', b', do _ <- out; recirc_capacity s' ret flow).
