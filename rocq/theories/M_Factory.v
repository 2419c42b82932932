(** Model of how the classes of /repo/src/ecoengine/objects/dhwsystems are constructed: the
    signatures of their constructors and methods, the class from which each inherits the factories
    [from_size] and [from_components], and Python's matching of keyword arguments with parameters.
    Includes the four classes whose [size] and [simulate_step] are placeholders. *)
From Verif Require Import Prelude M_Building M_Heater M_Sizing M_SimRun M_Step M_Session.
Local Open Scope string_scope.
Local Open Scope list_scope.

(** The concrete and abstract system classes. *)
Inductive cls :=
| CDhw | CInstant | CMPNoRecirc
| CRecirc | CParallel | CSwing | CSwingER
| CRtp | CSinglePass | CMultiPass | CSPInParallel | CSPInSeries | CMPInSeries.

(** A signature: parameter names, and whether a value must be given. *)
Definition signature := list (string * bool).
Definition req (l : list string) : signature := map (fun x => (x, true)) l.
Definition opt (l : list string) : signature := map (fun x => (x, false)) l.

(** A Python call with keyword arguments [kw]: TypeError for a keyword that is no parameter, or a
    required parameter left out. *)
Definition bind_kw (sg : signature) (kw : list string) : res unit :=
  if forallb (fun k => existsb (fun p => String.eqb (fst p) k) sg) kw &&
     forallb (fun p => negb (snd p) || existsb (String.eqb (fst p)) kw)%bool sg
  then Ok tt else Err TypeError.

Definition four : list string := ["water_heaters"; "storage_tank"; "supply_temp_f"; "storage_temp_f"].
Definition ret2 : list string := ["return_temp_f"; "return_flow_gpm"].
Definition run2 : list string := ["max_daily_run_hr"; "defrost_factor"].

(** __init__: DHWSystem.py L93, InstantWHSystem.py L17, MPNoRecircSystem.py L10,
    RecircSystem.py L15, ParallelLoopSystem.py L42, SwingSystem.py L71, SwingERTrdOffSystem.py L71,
    RTPSystem.py L16 (inherited by the classes below it). *)
Definition init_sig (c : cls) : signature :=
  match c with
  | CDhw => req four ++ opt run2
  | CInstant => req ["supply_temp_f"; "storage_temp_f"] ++ opt ["defrost_factor"]
  | CMPNoRecirc => req four
  | CRecirc => req (four ++ ret2) ++ opt run2
  | CParallel => req (four ++ ret2 ++ ["tm_on_temp_f"; "tm_off_temp_f"]) ++
                 opt (["tm_off_time_hr"; "tm_safety_factor"; "tm_storage_tank"; "tm_water_heater"; "num_tm_heaters"] ++ run2)
  | CSwing => req (four ++ ret2) ++ opt ("tm_safety_factor" :: run2)
  | CSwingER => req (four ++ ret2) ++ opt ("tm_safety_factor" :: "er_safety_factor" :: run2)
  | CRtp | CSinglePass | CMultiPass | CSPInParallel | CSPInSeries | CMPInSeries => req (four ++ ret2) ++ opt run2
  end.

(** The four classes whose methods have the body [pass]: MPNoRecircSystem.py, MP_RTPInSeriesSystem.py,
    SP_RTPInParallelSystem.py, SP_RTPInSeriesSystem.py. *)
Definition stub (c : cls) : bool :=
  match c with CMPNoRecirc | CSPInParallel | CSPInSeries | CMPInSeries => true | _ => false end.

(** size, same files (InstantWHSystem accepts any keyword: listed with those it is ever given). *)
Definition size_sig (c : cls) : signature :=
  if stub c then req ["building"]
  else req ["building"] ++ opt ["control_schedule"; "control_map"; "strat_slope"; "load_shift_fract_total_vol"].

(** simulate_step: [(building, timestep_min, mode)] in the placeholder classes,
    [(building, timestep_interval, interval_min, mode)] elsewhere (DHWSystem.py L1617-1623). *)
Definition step_sig (c : cls) : signature :=
  if stub c then req ["building"; "timestep_min"] ++ opt ["mode"]
  else req ["building"; "timestep_interval"] ++ opt ["interval_min"; "mode"].

(** The keyword arguments with which the [from_size] a class has (its own or inherited) calls the
    constructor and then [size]: DHWSystem.py L196-210, InstantWHSystem.py L53-58,
    ParallelLoopSystem.py L182-203, SwingSystem.py L132-149, SwingERTrdOffSystem.py L223-241,
    SinglePassRTPSystem.py L93-109, MultiPassRTPSystem.py L118-128. *)
Definition sizing_kw : list string :=
  ["building"; "control_schedule"; "control_map"; "strat_slope"; "load_shift_fract_total_vol"].
Definition from_size_init_kw (c : cls) : list string :=
  match c with
  | CDhw | CMPNoRecirc | CRecirc | CRtp => four ++ run2
  | CInstant => ["supply_temp_f"; "storage_temp_f"; "defrost_factor"]
  | CParallel => four ++ ret2 ++ ["tm_on_temp_f"; "tm_off_temp_f"; "tm_off_time_hr"; "tm_safety_factor"; "num_tm_heaters"] ++ run2
  | CSwing => four ++ ret2 ++ "tm_safety_factor" :: run2
  | CSwingER => four ++ ret2 ++ "tm_safety_factor" :: "er_safety_factor" :: run2
  | CSinglePass | CSPInParallel | CSPInSeries | CMultiPass | CMPInSeries => four ++ ret2 ++ run2
  end.
Definition from_size_size_kw (c : cls) : list string :=
  match c with
  | CInstant => ["building"]
  | CMultiPass | CMPInSeries => ["building"; "control_map"; "strat_slope"]
  | _ => sizing_kw
  end.

(** [from_size], as far as it can fail on its own calls: constructor, then [size]. *)
Definition from_size_calls (c : cls) : res unit :=
  do _ <- bind_kw (init_sig c) (from_size_init_kw c);
  bind_kw (size_sig c) (from_size_size_kw c).

(** [from_components]: DHWSystem's (L223-275) in every class but SwingERTrdOffSystem, which has its
    own (SwingERTrdOffSystem.py L164-204). *)
Definition from_components_calls (c : cls) : res unit :=
  match c with
  | CSwingER =>
      bind_kw (init_sig c) (four ++ ret2 ++ ["er_safety_factor"])
  | _ => bind_kw (init_sig c) (four ++ run2)
  end.

(** What the caller gets: the system of M_Session, when the constructor accepts the arguments. *)
Definition class_from_components (c : cls) (vol : Q) (hs : list heater)
  (supply storage run defrost slope : Q) : res (dhw * bsys) :=
  do _ <- from_components_calls c; Ok (from_components vol hs supply storage run defrost slope).

(** The placeholder [size]: nothing is computed and nothing is stored. *)
Definition stub_size (s : dhw) (b : building) : dhw * building * res unit := (s, b, Ok tt).

(** The step the simulator runs, Simulator.py L82-86: the call is made with the keywords
    building, timestep_interval, interval_min; [real] is what the method does once called. *)
Definition keyword_step {St} (c : cls) (real : St -> Z -> Z -> res (St * step_out)) (s : St) (i iv : Z)
  : res (St * step_out) :=
  do _ <- bind_kw (step_sig c) ["building"; "timestep_interval"; "interval_min"]; real s i iv.
Definition class_simulate {St} (c : cls) (real : St -> Z -> Z -> res (St * step_out)) (s0 : St) (supply : Q)
  (duration : string) (thr : Q) (maxm : Z) (show_tm : bool) : res (St * sim_run) :=
  simulate (keyword_step c real) s0 supply duration thr maxm show_tm.
