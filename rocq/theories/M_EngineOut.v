(** Model of the output side of /repo/src/ecoengine/interfaces/EcosizerEngine.py: the sizing-curve
    plots, with DHWSystem.plot_sizing_curve (DHWSystem.py L648-830).  A plotly figure is its data:
    titles, colours and number formats are left out, and so are the ImportError without plotly
    and writing the HTML file. *)
From Verif Require Import Prelude M_StratifiedTank M_MixedTank M_EnergyTank M_Building M_Heater M_Sizing M_SimRun
  M_Step M_Swing M_MPRTP M_Engine.
Open Scope Q_scope.

(** ** Load-shift percentile curve of the swing system *)

(** One percentile of DHWSystem.get_ls_sizing_curve, DHWSystem.py L612-632, with the methods of
    SwingSystem.py L564-646. *)
Definition swing_ls_point (icdf : Q -> Q) (s : swing) (b : building) (sched : schedule) (d : ctl_map)
  (slope inlet cap_n stor_n p : Q) : res (Q * Q) :=
  do fr <- ls_fract icdf p;
  do lcap <- swing_capacity_of s b (swing_gen_ls s sched d b slope fr);
  do g <- swing_gen_ls s sched d b slope fr;
  do rm <- swing_running_ls s sched b g fr;
  do lstor <- storage_volume_ls (sw_dhw s) (fst rm) d slope inlet;
  Ok (qmax cap_n lcap, qmax stor_n lstor).

(** The try block, L596-640: the normal capacity is computed before the running volume, with the
    mix fraction the system was left with (SwingSystem.py L402-419). *)
Definition swing_ls_curve_body (icdf : Q -> Q) (s : swing) (b : building) (sched : schedule)
  (d : ctl_map) (slope p : Q) : swing * res curve :=
  match (do inlet <- design_inlet b;
         do cap_n <- swing_capacity s b;
         do mr <- swing_running s b;
         Ok (inlet, cap_n, mr)) with
  | Err e => (s, Err e)
  | Ok (inlet, cap_n, (mix, rv)) =>
      let s1 := apply_mix s mix in
      (s1,
       do f <- strat_factor (sw_dhw s1) (Some d) slope inlet;
       do stor_n <- storage_volume rv f;
       do pts <- mapM (swing_ls_point icdf s1 b sched d slope inlet cap_n stor_n) ls_percents;
       Ok (mkCurve ls_percents (map fst pts) (map snd pts) (ls_rec_index p)))
  end.

(** get_ls_sizing_curve, DHWSystem.py L524-646, on a SwingSystem. *)
Definition swing_ls_sizing_curve (lib : library) (icdf : Q -> Q) (s : swing) (b : building)
  (sched : schedule) (m : option ctl_map) (slope p : Q) : swing * building * res curve :=
  match m with
  | None => (s, b, Err ValueError)
  | Some d =>
      if negb (dict_has d "shed") then (s, b, Err ValueError)
      else
        match (if bd_is_annual b then bd_set_daily lib b else Ok b) with
        | Err e => (s, b, Err e)
        | Ok b1 =>
            let '(s1, out) := swing_ls_curve_body icdf
                                (sw_set_run s (qmin (dh_run (sw_dhw s)) (non_shed_hours sched))) b1 sched d
                                (slope_or (sw_dhw s) slope) p in
            let '(b2, out2) := restore_annual lib (bd_is_annual b) b1 out in
            (sw_set_run s1 (dh_run (sw_dhw s)), b2, out2)
        end
  end.

(** get_ls_sizing_curve on a MultiPassRTPSystem: its running volume reads an attribute that only
    size sets (MultiPassRTPSystem.py L238, L476), and size refuses shed controls (L229), so the
    first minute of the loop raises. *)
Definition mp_ls_sizing_curve (lib : library) (x : mp_built) (b : building) (sched : schedule)
  : building * res curve :=
  match (if bd_is_annual b then bd_set_daily lib b else Ok b) with
  | Err e => (b, Err e)
  | Ok b1 =>
      let d := mb_dhw x in
      restore_annual lib (bd_is_annual b) b1
        (do _ <- design_inlet b1;
         do _ <- rtp_capacity (ms_return (mb_sys x)) (ms_flow (mb_sys x))
                   (dh_set_run d (qmin (dh_run d) (non_shed_hours sched))) b1;
         do _ <- bd_load b1 0 1 false;
         Err AttributeError)
  end.

(** ** Curves of an engine's system *)

(** [self.water_heaters[0].control_map if self.water_heaters else None], DHWSystem.py L474. *)
Definition first_map (hs : list heater) : option ctl_map :=
  match hs with h :: _ => wh_map h | [] => None end.

(** self._dhw_system.get_sizing_curve(self._building, strat_slope): the default steps are 0.25 h
    (DHWSystem.py L417, SwingSystem.py L281) and 0.5 h (MultiPassRTPSystem.py L266).  The engine is
    the one the call leaves. *)
Definition eng_curve (dt : data) (e : engine) (slope : Q) : engine * res curve :=
  let lib := da_lib dt in
  let b := en_building e in
  match en_system e with
  | EPrimary d s =>
      let '(d', b', out) := sizing_curve base_klass lib d b (first_map (bs_heaters s)) slope (1 # 4) in
      (mkEngine b' (EPrimary d' s), out)
  | EParallel l s =>
      let '(d', b', out) := sizing_curve base_klass lib (pl_dhw l) b (first_map (bs_heaters (ps_base s))) slope (1 # 4) in
      (mkEngine b' (EParallel (pl_set_dhw l d') s), out)
  | ESwing w s =>
      let '(w', b', out) := swing_sizing_curve lib w b (first_map (ws_heaters s)) slope (1 # 4) in
      (mkEngine b' (ESwing w' s), out)
  | ESprtp d ret flow s =>
      let '(d', b', out) := sizing_curve (sprtp_klass ret flow) lib d b (first_map (bs_heaters s)) slope (1 # 4) in
      (mkEngine b' (ESprtp d' ret flow s), out)
  | EMprtp x =>
      let '(b', out) := mp_sizing_curve lib x b slope (1 # 2) in
      (mkEngine b' (EMprtp x), out)
  | EInstant d =>
      let '(d', b', out) := sizing_curve base_klass lib d b None slope (1 # 4) in
      (mkEngine b' (EInstant d'), out)
  end.

(** self._dhw_system.get_ls_sizing_curve(self._building, ...). *)
Definition eng_ls_curve (dt : data) (e : engine) (sched : schedule) (m : ctl_map) (slope p : Q)
  : engine * res curve :=
  let lib := da_lib dt in
  let icdf := da_icdf dt in
  let b := en_building e in
  match en_system e with
  | EPrimary d s =>
      let '(d', b', out) := ls_sizing_curve base_klass lib icdf d b sched (Some m) slope p in
      (mkEngine b' (EPrimary d' s), out)
  | EParallel l s =>
      let '(d', b', out) := ls_sizing_curve base_klass lib icdf (pl_dhw l) b sched (Some m) slope p in
      (mkEngine b' (EParallel (pl_set_dhw l d') s), out)
  | ESwing w s =>
      let '(w', b', out) := swing_ls_sizing_curve lib icdf w b sched (Some m) slope p in
      (mkEngine b' (ESwing w' s), out)
  | ESprtp d ret flow s =>
      let '(d', b', out) := ls_sizing_curve (sprtp_klass ret flow) lib icdf d b sched (Some m) slope p in
      (mkEngine b' (ESprtp d' ret flow s), out)
  | EMprtp x =>
      let '(b', out) := mp_ls_sizing_curve lib x b sched in
      (mkEngine b' (EMprtp x), out)
  | EInstant d =>
      let '(d', b', out) := ls_sizing_curve base_klass lib icdf d b sched (Some m) slope p in
      (mkEngine b' (EInstant d'), out)
  end.

(** ** Figures *)

(** The data of a sizing-curve figure: trace 0 (the curve), one marker trace per point with its
    initial visibility, and the slider: the visibilities each step sets, and the active step. *)
Record figure := mkFigure {
  fg_x : list Q; fg_y : list Q; fg_marks : list (Q * Q * bool); fg_steps : list (list bool); fg_active : Z }.

(** DHWSystem.plot_sizing_curve, DHWSystem.py L771-827 ([xs] and [ys] have one length). *)
Definition figure_of (xs ys : list Q) (rec : Z) : figure :=
  let n := length xs in
  mkFigure xs ys
    (map (fun p => (fst (snd p), snd (snd p), (Z.of_nat (fst p) =? rec)%Z))
         (combine (seq 0 n) (combine xs ys)))
    (map (fun i => true :: map (fun j => Nat.eqb j i) (seq 0 n)) (seq 0 n))
    rec.

(** The points of a plot: L725-768, and again EcosizerEngine.py L1360-1379.  Without load
    shifting the curve is turned round. *)
Definition ls_points (cv : curve) : list Q * list Q * Z :=
  (map (fun p => p * 100) (cv_hours cv), cv_storage cv, cv_rec cv).
Definition plain_points (cv : curve) : list Q * list Q * Z :=
  (rev (cv_storage cv), rev (cv_capacity cv), (Z.of_nat (length (cv_storage cv)) - 1 - cv_rec cv)%Z).

(** The curve that is plotted. *)
Definition eng_points (dt : data) (e : engine) (sched : schedule) (m : ctl_map) (p slope : Q)
  : engine * res (list Q * list Q * Z) :=
  if is_load_shifting (Some m) then
    let '(e1, out) := eng_ls_curve dt e sched m slope p in (e1, do cv <- out; Ok (ls_points cv))
  else
    let '(e1, out) := eng_curve dt e slope in (e1, do cv <- out; Ok (plain_points cv)).

(** plot_sizing_curve with return_with_x_y_points, EcosizerEngine.py L1290-1381: the figure, then
    the points of a second computation of the curve. *)
Definition eng_plot (dt : data) (p : eparams) (e : engine) (slope : Q)
  : engine * res (figure * (list Q * list Q * Z)) :=
  match eng_controls p with
  | Err x => (e, Err x)
  | Ok (sched, m) =>
      let '(e1, out1) := eng_points dt e sched m (ep_ls_percent p) slope in
      match out1 with
      | Err x => (e1, Err x)
      | Ok (xs, ys, rec) =>
          let '(e2, out2) := eng_points dt e1 sched m (ep_ls_percent p) slope in
          (e2, do pts <- out2; Ok (figure_of xs ys rec, pts))
      end
  end.

(** get_sizing_curve_plot, EcosizerEngine.py L326-431: the curve and the marked point. *)
Definition curve_plot (xs ys : list Q) (start : Z) : res (list Q * list Q * (Q * Q)) :=
  do x <- py_nth xs start;
  do y <- py_nth ys start;
  Ok (xs, ys, (x, y)).
