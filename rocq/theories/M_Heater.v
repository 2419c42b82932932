(** Model of src/ecoengine/objects/components/heating/: Controls.py, PerformanceMap.py and
    WaterHeater.py, and of constants/constants.py.

    Simplifications: floats are exact rationals; NaN is [None] in interpolator results; the
    scipy interpolators (loaded from pickle files) are arbitrary functions; the tank a heater
    looks at is the function "fraction -> temperature" (which may raise). *)
From Verif Require Import Prelude.

(** constants/constants.py: [_W_TO_KBTUH]. *)
Definition w_to_kbtuh : Q := 3412142 # 1000000.

(** ** Controls.py *)

(** Controls.__init__, Controls.py L53-57. *)
Record controls := mkControls {
  ct_on_sensor : Q; ct_on_trigger : Q; ct_off_sensor : Q; ct_off_trigger : Q; ct_outlet : Q }.

(** The tank as seen by a heater: StorageTank.get_temperature_at_fraction. *)
Definition tank_view := Q -> res Q.

(** Controls.should_turn_on, Controls.py L59-74. *)
Definition ct_should_turn_on (c : controls) (tk : tank_view) : res bool :=
  do temp <- tk (ct_on_sensor c); Ok (qltb temp (ct_on_trigger c)).

(** Controls.should_turn_off, Controls.py L76-92. *)
Definition ct_should_turn_off (c : controls) (tk : tank_view) : res bool :=
  do temp <- tk (ct_off_sensor c); Ok (Qle_bool (ct_off_trigger c) temp).

(** ** PerformanceMap.py: HPWHsimPerformanceMap *)

(** One OAT bracket of a perfmap: "T_F", "COP_coeffs", "inputPower_coeffs". *)
Record hp_entry := mkHpEntry { he_T : Q; he_cop : list Q; he_pow : list Q }.

(** HPWHsimPerformanceMap.__init__, PerformanceMap.py L507-522. *)
Record hp_map := mkHpMap {
  hp_perfmap : list hp_entry; hp_units : Z; hp_multipass : bool;
  hp_nominal : option Q; hp_design_inlet : Q }.

(** _linear_interp, PerformanceMap.py L531-533. *)
Definition hp_linear_interp (x x0 x1 y0 y1 : Q) : res Q :=
  do d <- qdiv ((x - x0) * (y1 - y0)) (x1 - x0); Ok (y0 + d).

(** _quad, PerformanceMap.py L535-537. *)
Definition hp_quad (c : list Q) (x : Q) : res Q :=
  do c0 <- py_nth c 0; do c1 <- py_nth c 1; do c2 <- py_nth c 2;
  Ok (c0 + c1 * x + c2 * x * x).

(** _poly11, PerformanceMap.py L539-549. *)
Definition hp_poly11 (c : list Q) (oat out_t in_t : Q) : res Q :=
  do c0 <- py_nth c 0; do c1 <- py_nth c 1; do c2 <- py_nth c 2; do c3 <- py_nth c 3;
  do c4 <- py_nth c 4; do c5 <- py_nth c 5; do c6 <- py_nth c 6; do c7 <- py_nth c 7;
  do c8 <- py_nth c 8; do c9 <- py_nth c 9; do c10 <- py_nth c 10;
  Ok (c0 + c1 * oat + c2 * out_t + c3 * in_t
      + c4 * oat * oat + c5 * out_t * out_t + c6 * in_t * in_t
      + c7 * oat * out_t + c8 * oat * in_t + c9 * out_t * in_t
      + c10 * oat * out_t * in_t).

(** _poly6, PerformanceMap.py L551-558. *)
Definition hp_poly6 (c : list Q) (x1 x2 : Q) : res Q :=
  do c0 <- py_nth c 0; do c1 <- py_nth c 1; do c2 <- py_nth c 2; do c3 <- py_nth c 3;
  do c4 <- py_nth c 4; do c5 <- py_nth c 5;
  Ok (c0 + c1 * x1 + c2 * x2 + c3 * x1 * x1 + c4 * x2 * x2 + c5 * x1 * x2).

(** _er_per_unit_kbtuh, PerformanceMap.py L560-571. *)
Definition hp_er_per_unit (m : hp_map) : res Q :=
  match hp_nominal m with
  | Some n => qdiv n (qz (hp_units m))
  | None =>
      match hp_perfmap m with
      | e :: _ =>
          do w <- hp_quad (he_pow e) (hp_design_inlet m);
          do c <- hp_quad (he_cop e) (hp_design_inlet m);
          Ok (qmax (qmax c 0 * (w / 1000) * w_to_kbtuh) 0)
      | [] => Ok 0
      end
  end.

(** The loop of _get_per_unit_kbtuh, PerformanceMap.py L590-602: scan the brackets, [prev]
    being the entry before the current one.  [None] is the early return "below minimum OAT". *)
Fixpoint hp_bracket (oat : Q) (prev : option hp_entry) (l : list hp_entry)
  : option (hp_entry * hp_entry) :=
  match l with
  | [] => None
  | e :: r =>
      if qltb oat (he_T e) then
        match prev with None => None | Some p => Some (p, e) end
      else
        match r, prev with
        | [], Some p => Some (p, e)
        | _, _ => hp_bracket oat (Some e) r
        end
  end.

(** _get_per_unit_kbtuh, PerformanceMap.py L573-627.  [oat_f = None] is Python None. *)
Definition hp_per_unit (m : hp_map) (oat_f : option Q) (inlet outlet : Q) : res (Q * Q) :=
  match oat_f with
  | None => Err ValueError
  | Some oat =>
      match hp_perfmap m with
      | [] => do er <- hp_er_per_unit m; Ok (er, er)
      | [e] =>
          do ci <- (if hp_multipass m then
                      do i <- hp_poly6 (he_pow e) oat inlet;
                      do c <- hp_poly6 (he_cop e) oat inlet; Ok (c, i)
                    else
                      do i <- hp_poly11 (he_pow e) oat outlet inlet;
                      do c <- hp_poly11 (he_cop e) oat outlet inlet; Ok (c, i));
          let '(cop, input_kw) := ci in
          Ok (cop * input_kw * w_to_kbtuh, input_kw * w_to_kbtuh)
      | l =>
          match hp_bracket oat None l with
          | None => do er <- hp_er_per_unit m; Ok (er, er)
          | Some (p, n) =>
              do cop1 <- hp_quad (he_cop p) inlet;
              do cop2 <- hp_quad (he_cop n) inlet;
              do w1 <- hp_quad (he_pow p) inlet;
              do w2 <- hp_quad (he_pow n) inlet;
              do cop <- hp_linear_interp oat (he_T p) (he_T n) cop1 cop2;
              do input_kw <- hp_linear_interp oat (he_T p) (he_T n) (w1 / 1000) (w2 / 1000);
              Ok (cop * input_kw * w_to_kbtuh, input_kw * w_to_kbtuh)
          end
      end
  end.

(** get_capacity_kbtuh, PerformanceMap.py L633-641. *)
Definition hp_capacity (m : hp_map) (oat : option Q) (outlet : Q) (inlet : option Q) : res Q :=
  let inl := match inlet with Some x => x | None => hp_design_inlet m end in
  do p <- hp_per_unit m oat inl outlet; Ok (fst p * qz (hp_units m)).

(** get_power_in_kw, PerformanceMap.py L643-651. *)
Definition hp_power (m : hp_map) (oat : option Q) (outlet : Q) (inlet : option Q) : res Q :=
  let inl := match inlet with Some x => x | None => hp_design_inlet m end in
  do p <- hp_per_unit m oat inl outlet; Ok (snd p / w_to_kbtuh * qz (hp_units m)).

(** ** PerformanceMap.py: PklPerformanceMap *)

(** PklPerformanceMap.__init__, PerformanceMap.py L272-310.  The interpolators take the list of
    coordinates and return a value or NaN ([None]). *)
Record pk_map := mkPkMap {
  pk_out_interp : list Q -> option Q; pk_in_interp : list Q -> option Q;
  pk_oats : list Q; pk_grid : list (list (Q * list Q));
  pk_inlet_max : Q;
  pk_out_high : Q; pk_in_high : Q; pk_out_low : Q;
  pk_units : Z; pk_two_input : bool; pk_hx : bool; pk_hx_increase : Q;
  pk_nominal : option Q; pk_design_inlet : Q }.

(** oat_min / oat_max, PerformanceMap.py L312-318. *)
Definition pk_oat_min (m : pk_map) : res Q := py_nth (pk_oats m) 0.
Definition pk_oat_max (m : pk_map) : res Q := py_nth (pk_oats m) (-1).

(** _resolve_temps, PerformanceMap.py L324-334. *)
Definition pk_resolve (m : pk_map) (outlet : Q) (inlet : option Q) : Q * Q :=
  let inl := match inlet with Some x => x | None => pk_design_inlet m end in
  let '(i, o) := if pk_hx m then (inl + pk_hx_increase m, outlet + pk_hx_increase m)
                 else (inl, outlet) in
  (qmin i (pk_inlet_max m), o).

(** _raw_query, PerformanceMap.py L336-347, with the caller's NaN test (L412, L418, L456):
    [None] when either of the two values is NaN. *)
Definition pk_raw (m : pk_map) (inl out oat : Q) : option (Q * Q) :=
  let arr := if pk_two_input m then [inl; oat] else [inl; out; oat] in
  match pk_out_interp m arr, pk_in_interp m arr with
  | Some o, Some i => Some (o, i)
  | _, _ => None
  end.

(** Scan of _idx_nearest_oat, PerformanceMap.py L351-355: [i] is the index of the head of [l]. *)
Fixpoint pk_scan (x best : Q) (idx i : Z) (l : list Q) : Z :=
  match l with
  | [] => idx
  | y :: r =>
      let d := Qabs (y - x) in
      if qltb d best then pk_scan x d i (i + 1) r else pk_scan x best idx (i + 1) r
  end.

(** _idx_nearest_oat, PerformanceMap.py L349-355. *)
Definition pk_idx_nearest_oat (m : pk_map) (oat : Q) : res Z :=
  match pk_oats m with
  | [] => Err IndexError
  | y :: r => Ok (pk_scan oat (Qabs (y - oat)) 0 1 r)
  end.

(** Scan of _idx_nearest_inlet, PerformanceMap.py L365-368. *)
Fixpoint pk_scan_inlet (x best : Q) (idx i : Z) (l : list (Q * list Q)) : Z :=
  match l with
  | [] => idx
  | (t, _) :: r =>
      let d := Qabs (t - x) in
      if (qltb d best && Qle_bool x t)%bool then pk_scan_inlet x d i (i + 1) r
      else pk_scan_inlet x best idx (i + 1) r
  end.

(** _idx_nearest_inlet, PerformanceMap.py L357-369. *)
Definition pk_idx_nearest_inlet (m : pk_map) (oat_idx : Z) (inl : Q) : res Z :=
  do entries <- py_nth (pk_grid m) oat_idx;
  do last <- py_nth entries (-1);
  Ok (pk_scan_inlet inl (Qabs (fst last - inl)) (-1) 0 entries).

(** _nearest_outlet, PerformanceMap.py L371-380: the running best starts from the distance of
    the lowest tabulated OUTDOOR temperature. *)
Definition pk_nearest_outlet (m : pk_map) (oat_idx inlet_idx : Z) (out : Q) : res Q :=
  do entries <- py_nth (pk_grid m) oat_idx;
  do e <- py_nth entries inlet_idx;
  do o0 <- py_nth (pk_oats m) 0;
  py_nth (snd e) (pk_scan out (Qabs (o0 - out)) 0 0 (snd e)).

(** _force_closest, PerformanceMap.py L382-417: [Ok None] is the Python result None. *)
Definition pk_force_closest (m : pk_map) (inl out oat : Q) : res (option (Q * Q)) :=
  do oi <- pk_idx_nearest_oat m oat;
  match pk_idx_nearest_inlet m oi inl with
  | Err _ => Ok None
  | Ok ii =>
      do soat <- py_nth (pk_oats m) oi;
      do entries <- py_nth (pk_grid m) oi;
      do e <- py_nth entries ii;
      let sinl := fst e in
      match pk_raw m sinl out soat with
      | Some p => Ok (Some p)
      | None =>
          do sout <- pk_nearest_outlet m oi ii out;
          match pk_raw m sinl sout soat with
          | Some (o, i) =>
              if (qltb sout out && qltb sinl out)%bool then
                let adj := o * ((out - sinl) - (sout - sinl)) / (out - sinl) in
                Ok (Some (o + adj, i + adj))
              else Ok (Some (o, i))
          | None => Ok None
          end
      end
  end.

(** _er_per_unit_kw, PerformanceMap.py L419-423. *)
Definition pk_er_per_unit (m : pk_map) : res Q :=
  match pk_nominal m with
  | Some n => do x <- qdiv n (qz (pk_units m)); Ok (x / w_to_kbtuh)
  | None => Ok (pk_out_low m)
  end.

(** _get_per_unit_kw, PerformanceMap.py L425-459. *)
Definition pk_per_unit (m : pk_map) (oat_f : option Q) (inl out : Q) : res (Q * Q) :=
  match oat_f with
  | None => Err ValueError
  | Some oat =>
      do omax <- pk_oat_max m;
      if Qle_bool omax oat then Ok (pk_out_high m, pk_in_high m)
      else match pk_raw m inl out oat with
      | Some p => Ok p
      | None =>
          do omin <- pk_oat_min m;
          if qltb oat omin then do er <- pk_er_per_unit m; Ok (er, er)
          else
            do r <- pk_force_closest m inl out oat;
            match r with
            | Some p => Ok p
            | None => do er <- pk_er_per_unit m; Ok (er, er / (3 # 2))
            end
      end
  end.

(** get_capacity_kbtuh, PerformanceMap.py L465-473. *)
Definition pk_capacity (m : pk_map) (oat : option Q) (outlet : Q) (inlet : option Q) : res Q :=
  let '(i, o) := pk_resolve m outlet inlet in
  do p <- pk_per_unit m oat i o; Ok (fst p * qz (pk_units m) * w_to_kbtuh).

(** get_power_in_kw, PerformanceMap.py L475-483. *)
Definition pk_power (m : pk_map) (oat : option Q) (outlet : Q) (inlet : option Q) : res Q :=
  let '(i, o) := pk_resolve m outlet inlet in
  do p <- pk_per_unit m oat i o; Ok (snd p * qz (pk_units m)).

(** ** PerformanceMap.py: the class hierarchy *)

(** NominalPerformanceMap (L223-248), HPWHsimPerformanceMap, PklPerformanceMap. *)
Inductive perf_map : Type :=
  | PmNominal (capacity : Q)
  | PmHpwhsim (m : hp_map)
  | PmPkl (m : pk_map).

(** get_capacity_kbtuh dispatch; L245-248 for the nominal map. *)
Definition pm_capacity (p : perf_map) (oat : option Q) (outlet : Q) (inlet : option Q)
  : res (option Q) :=
  match p with
  | PmNominal c => Ok (Some c)
  | PmHpwhsim m => do x <- hp_capacity m oat outlet inlet; Ok (Some x)
  | PmPkl m => do x <- pk_capacity m oat outlet inlet; Ok (Some x)
  end.

(** get_power_in_kw dispatch; the nominal map inherits the stub of L192-199, which returns None. *)
Definition pm_power (p : perf_map) (oat : option Q) (outlet : Q) (inlet : option Q)
  : res (option Q) :=
  match p with
  | PmNominal _ => Ok None
  | PmHpwhsim m => do x <- hp_power m oat outlet inlet; Ok (Some x)
  | PmPkl m => do x <- pk_power m oat outlet inlet; Ok (Some x)
  end.

(** PerformanceMap.get_cop, PerformanceMap.py L201-212. *)
Definition pm_cop (p : perf_map) (oat : option Q) (outlet : Q) (inlet : option Q)
  : res (option Q) :=
  do cap <- pm_capacity p oat outlet inlet;
  do pwr <- pm_power p oat outlet inlet;
  match cap, pwr with
  | Some c, Some w =>
      if Qle_bool w 0 then Ok None
      else do q <- qdiv (c / w_to_kbtuh) w; Ok (Some q)
  | _, _ => Ok None
  end.

(** is_within_operating_bounds: the stub returns None (L214-216) for nominal maps; L480-481 for
    pickled maps; L650-651 for HPWHsim maps, whose [oat_min] is -inf when empty (L524-526). *)
Definition pm_within_bounds (p : perf_map) (oat : Q) : res (option bool) :=
  match p with
  | PmNominal _ => Ok None
  | PmHpwhsim m =>
      match hp_perfmap m with
      | [] => Ok (Some true)
      | e :: _ => Ok (Some (Qle_bool (he_T e) oat))
      end
  | PmPkl m => do lo <- pk_oat_min m; Ok (Some (Qle_bool lo oat))
  end.

(** ** WaterHeater.py *)

(** WaterHeater.__init__, WaterHeater.py L45-74 ([fuel_type] only selects which cost a caller
    applies and is not modelled). *)
Record heater := mkHeater {
  wh_pm : option perf_map;
  wh_schedule : option (list string);
  wh_map : option (list (string * controls));
  wh_active : bool }.

Definition wh_new (pm : option perf_map) (s : option (list string))
  (mp : option (list (string * controls))) : heater := mkHeater pm s mp false.

(** is_active / turn_on / turn_off, WaterHeater.py L169-179. *)
Definition wh_set (h : heater) (b : bool) : heater :=
  mkHeater (wh_pm h) (wh_schedule h) (wh_map h) b.

(** is_load_shifting, WaterHeater.py L181-185. *)
Definition wh_load_shifting (h : heater) : bool :=
  match wh_map h with
  | None => false
  | Some d => dict_has d "loadUp"%string || dict_has d "shed"%string
  end.

(** get_controls_for_hour, WaterHeater.py L187-204. *)
Definition wh_controls_for (h : heater) (hour : Z) : res (option controls) :=
  match wh_schedule h, wh_map h with
  | Some s, Some d => do key <- py_nth s hour; Ok (dict_get d key)
  | _, _ => Ok None
  end.

(** get_capacity_kbtuh, WaterHeater.py L210-233. *)
Definition wh_capacity (h : heater) (oat : option Q) (outlet : Q) (inlet : option Q)
  : res (option Q) :=
  match wh_pm h with Some p => pm_capacity p oat outlet inlet | None => Ok None end.

(** get_power_in_kw, WaterHeater.py L235-258. *)
Definition wh_power (h : heater) (oat : option Q) (outlet : Q) (inlet : option Q)
  : res (option Q) :=
  match wh_pm h with Some p => pm_power p oat outlet inlet | None => Ok None end.

(** get_output_kbtuh, WaterHeater.py L260-283. *)
Definition wh_output (h : heater) (oat : option Q) (outlet : Q) (inlet : option Q) : res Q :=
  if negb (wh_active h) then Ok 0
  else do cap <- wh_capacity h oat outlet inlet;
       Ok (match cap with Some c => c | None => 0 end).

(** get_outlet_temp_f, WaterHeater.py L285-303. *)
Definition wh_outlet_temp (h : heater) (hour : Z) : res Q :=
  do c <- wh_controls_for h hour;
  match c with None => Err ValueError | Some ct => Ok (ct_outlet ct) end.

(** update_state, WaterHeater.py L305-333.  When it raises, the heater object is unchanged (the
    raise precedes every assignment), so the caller keeps the old record. *)
Definition wh_update (h : heater) (tk : tank_view) (hour : Z) : res heater :=
  do c <- wh_controls_for h hour;
  match c with
  | None => Err ValueError
  | Some ct =>
      if wh_active h then
        do off <- ct_should_turn_off ct tk; Ok (if off then wh_set h false else h)
      else
        do on <- ct_should_turn_on ct tk; Ok (if on then wh_set h true else h)
  end.

(** A history of control updates: each step shows the heater a tank at an hour of the day.
    DHWSystem.simulate_step L1681 calls update_state once per step for every heater. *)
Fixpoint wh_run (h : heater) (hist : list (tank_view * Z)) : res heater :=
  match hist with
  | [] => Ok h
  | (tk, hour) :: r => do h' <- wh_update h tk hour; wh_run h' r
  end.
