(** Model of the construction and output side of
    /repo/src/ecoengine/objects/dhwsystems/recirc_systems/SwingERTrdOffSystem.py: the factories
    from_components and from_size, the accessors of the sized element and the trade-off figure. *)
From Verif Require Import Prelude M_StratifiedTank M_MixedTank M_EnergyTank M_Building M_Heater M_Sizing M_SimRun
  M_Step M_Swing M_MPRTP M_Engine M_EngineOut.
Open Scope Q_scope.

(** __init__, L68-96, with SwingSystem.__init__. *)
Definition er_new (supply storage ret flow tm_safety safety run defrost : Q) : res swing_er :=
  do w <- sw_new supply storage ret flow tm_safety run defrost; Ok (mkEr w safety None).

(** wh.performance_map.get_capacity_kbtuh, L179: not the heater's own method, so a heater without a
    map raises. *)
Definition map_capacity (oat : option Q) (outlet inlet : Q) (h : heater) : res Q :=
  match wh_pm h with
  | None => Err AttributeError
  | Some p => do c <- pm_capacity p oat outlet (Some inlet);
              match c with Some x => Ok x | None => Err TypeError end
  end.

(** The sizing state set from the parts, L175-189. *)
Definition er_adopt (s : swing_er) (cap vol tm_vol tm_cap : Q) : swing_er :=
  let w := er_base s in
  let d := sw_dhw w in
  mkEr (mkSwing (mkDhw (dh_supply d) (dh_storage d) (dh_run d) (dh_defrost d) (Some cap) (Some vol) (dh_slope d))
          (sw_return w) (sw_flow w) (sw_safety w) (sw_eff_mix w) (Some tm_vol) (sw_tm_ca w) (Some tm_cap))
    (er_safety s) (er_cap s).

(** from_components, L104-204, with the defaults tm_safety_factor 1.2, max_daily_run_hr 24 and
    defrost_factor 1 of the constructor; control_schedule and control_map are not used.  The heaters
    and tanks are the objects passed in. *)
Definition er_from_components (hs : list heater) (tank : strat) (sw : mixed) (initial : Q) (b : building)
  (supply storage ret flow safety : Q) : res (swing_er * wsys) :=
  do s0 <- er_new supply storage ret flow (6 # 5) safety 24 1;
  do oat <- bd_design_oat b;
  do inlet <- design_inlet b;
  do caps <- mapM (map_capacity oat storage inlet) hs;
  let '(s2, out) := size_er (er_adopt s0 (qsum caps) (st_vol tank) (mx_vol sw) initial) b in
  do _ <- out;
  Ok (s2, mkWsys hs tank supply storage ret flow sw (swing_element supply (sw_tm_cap (er_base s2)))).

(** from_size, L206-275. *)
Definition er_from_size (lib : library) (b : building) (supply storage ret flow tm_safety safety run defrost : Q)
  (sched : option schedule) (m : option ctl_map) (slope fract : Q) : res (building * swing_er * wsys) :=
  do s0 <- er_new supply storage ret flow tm_safety safety run defrost;
  let '(s, b', out) := swing_er_size lib s0 b sched m slope fract in
  do _ <- out;
  let w := er_base s in
  match dh_min_cap (sw_dhw w), dh_min_stor (sw_dhw w), sw_tm_vol w with
  | Some c, Some v, Some tv =>
      Ok (b', s, mkWsys [wh_new (Some (PmNominal c)) sched m] (st_new v slope)
                   supply storage ret flow (mkMixed tv 0 0) (swing_element supply (sw_tm_cap w)))
  | _, _, _ => Err TypeError
  end.

(** get_er_capacity_kbtuh and get_er_capacity_kw, L515-523. *)
Definition get_er_kbtuh (s : swing_er) : res Q :=
  match er_cap s with None => Err RuntimeError | Some e => Ok e end.
Definition get_er_kw (s : swing_er) : res Q :=
  do e <- get_er_kbtuh s; Ok (e / w_to_kbtuh).

(** get_er_sizing_curve, L613-713: percentages across, total element capacity up. *)
Definition er_figure (s : swing_er) (b : building) (add_safety : Q) : swing_er * building * res figure :=
  let '(s', b', out) := er_sized_points s b add_safety in
  (s', b', do r <- out; let '(kw, pct, start) := r in Ok (figure_of pct kw start)).
