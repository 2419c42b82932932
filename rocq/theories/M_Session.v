(** Model of a system object in use: the result getters of
    /repo/src/ecoengine/objects/dhwsystems/DHWSystem.py and recirc_systems/SwingSystem.py,
    check_for_outage, and the sequence of sizing calls made on one object. *)
From Verif Require Import Prelude M_StratifiedTank M_Building M_Heater M_Sizing M_Step M_Swing.
Open Scope Q_scope.

(** DHWSystem.__init__, L89-129: nothing sized yet. *)
Definition dhw_new (supply storage run defrost : Q) : dhw := mkDhw supply storage run defrost None None None.

(** get_minimum_capacity_kbtuh and get_minimum_storage_storageT_gal, L386-411. *)
Definition get_capacity (s : dhw) : res Q := or_unsized (dh_min_cap s).
Definition get_storage (s : dhw) : res Q := or_unsized (dh_min_stor s).

(** from_components, L223-275: the given heaters, a tank of the given volume; nothing is sized. *)
Definition from_components (vol : Q) (hs : list heater) (supply storage run defrost slope : Q) : dhw * bsys :=
  (dhw_new supply storage run defrost, mkBsys hs (Some (st_new vol slope)) supply storage).

(** check_for_outage, L1751-1768: the demand is not looked at. *)
Definition check_for_outage (s : bsys) (demand : Q) : res bool :=
  match bs_tank s with
  | None => Ok false
  | Some tk => do u <- st_usable tk (bs_supply s); Ok (Qle_bool u 0)
  end.

(** The calls that sizing a system consists of, with everything they are given. *)
Inductive call :=
| CallSize (lib : library) (b : building) (sched : option schedule) (m : option ctl_map) (slope fract : Q)
| CallCurve (lib : library) (b : building) (m : option ctl_map) (slope step : Q)
| CallLsCurve (lib : library) (icdf : Q -> Q) (b : building) (sched : schedule) (m : option ctl_map) (slope p : Q).

(** The system after one call, raised or not: size L284-384, get_sizing_curve L413-522,
    get_ls_sizing_curve L524-646. *)
Definition after (K : klass) (s : dhw) (c : call) : dhw :=
  match c with
  | CallSize lib b sched m slope fract => fst (fst (dhw_size K lib s b sched m slope fract))
  | CallCurve lib b m slope step => fst (fst (sizing_curve K lib s b m slope step))
  | CallLsCurve lib icdf b sched m slope p => fst (fst (ls_sizing_curve K lib icdf s b sched m slope p))
  end.
Definition session (K : klass) (s : dhw) (cs : list call) : dhw := fold_left (after K) cs s.

(** ** Swing systems: SwingSystem.py L183-271 (size), L277-344 (get_sizing_curve), L856-876 *)

Inductive swing_call :=
| SwSize (lib : library) (b : building) (sched : option schedule) (m : option ctl_map) (slope fract : Q)
| SwCurve (lib : library) (b : building) (m : option ctl_map) (slope step : Q).
Definition swing_after (s : swing) (c : swing_call) : swing :=
  match c with
  | SwSize lib b sched m slope fract => fst (fst (swing_size lib s b sched m slope fract))
  | SwCurve lib b m slope step => fst (fst (swing_sizing_curve lib s b m slope step))
  end.
Definition swing_session (s : swing) (cs : list swing_call) : swing := fold_left swing_after cs s.

Definition get_tm_volume (s : swing) : res Q := or_unsized (sw_tm_vol s).
Definition get_tm_ca_volume (s : swing) : res Q := or_unsized (sw_tm_ca s).
Definition get_tm_capacity (s : swing) : res Q := or_unsized (sw_tm_cap s).
