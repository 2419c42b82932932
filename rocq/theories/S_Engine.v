(** Specification vocabulary for the engine (C51-C54, C64-C66): what a user means by shed and load-up
    hours, by the documented schematics, and by a model suitable for a listing. *)
From Coq Require Import Ascii.
From Verif Require Import Prelude M_StratifiedTank M_MixedTank M_EnergyTank M_Building M_Heater M_Sizing
  M_Step M_Swing M_MPRTP M_Engine.
Open Scope Q_scope.

(** ** Schedules *)

(** Hour [h] of a 0/1 schedule is a shed hour. *)
Definition shed_hour (ls : list Z) (h : nat) : Prop := nth_error ls h = Some 0%Z.
(** [k] is the first shed hour. *)
Definition first_shed (ls : list Z) (k : nat) : Prop :=
  shed_hour ls k /\ forall j, (j < k)%nat -> ~ shed_hour ls j.
(** [h] is one of the [n] hours directly before the first shed hour. *)
Definition load_up_hour (ls : list Z) (n : Z) (h : nat) : Prop :=
  exists k, first_shed ls k /\ (h < k)%nat /\ (Z.of_nat k <= Z.of_nat h + n)%Z.

(** The schedule given, if any: an empty list counts as none. *)
Definition given_schedule (p : eparams) (ls : list Z) : Prop := ep_ls p = Some ls /\ ls <> [].

(** An optional argument with its default. *)
Definition defaulted (x : option Q) (d v : Q) : Prop :=
  match x with Some y => v = y | None => v = d end.

(** The aquastat settings of the three modes: [on], [off] sensor heights and triggers; water
    always leaves the heater at storage temperature. *)
Record settings (c : controls) (on_sensor on_t off_sensor off_t outlet : Q) : Prop := {
  se_on : ct_on_sensor c = on_sensor; se_on_t : ct_on_trigger c = on_t;
  se_off : ct_off_sensor c = off_sensor; se_off_t : ct_off_trigger c = off_t;
  se_outlet : ct_outlet c = outlet }.

(** ** Schematics *)

Inductive system_type :=
  PrimaryNoRecirc | ParallelLoop | SwingTank | SinglePassRTP | MultiPassRTP | InstantWH.
Definition type_of (s : esys) : system_type :=
  match s with
  | EPrimary _ _ => PrimaryNoRecirc | EParallel _ _ => ParallelLoop | ESwing _ _ => SwingTank
  | ESprtp _ _ _ _ => SinglePassRTP | EMprtp _ => MultiPassRTP | EInstant _ => InstantWH
  end.
(** The names the engine's documentation lists, and their aliases. *)
Definition documented : list (string * system_type) :=
  [("primary_no_recirc", PrimaryNoRecirc); ("singlepass_norecirc", PrimaryNoRecirc);
   ("parallel_loop", ParallelLoop); ("paralleltank", ParallelLoop);
   ("swing_tank", SwingTank); ("swingtank", SwingTank);
   ("single_pass_rtp", SinglePassRTP); ("sprtp", SinglePassRTP);
   ("multi_pass_rtp", MultiPassRTP); ("mprtp", MultiPassRTP);
   ("instant_wh", InstantWH)]%string.
Definition recirculates (t : system_type) : Prop := t <> PrimaryNoRecirc /\ t <> InstantWH.

(** The parameters with other equipment arguments. *)
Definition with_equipment (p : eparams) (num : Z) (model : option string) (cap tm_vol tm_cap : option Q)
  (tm_model : option string) (num_tm : Z) : eparams :=
  mkParams (ep_type p) (ep_mag p) (ep_cz p) (ep_supply p) (ep_storage p) (ep_schematic p) (ep_gpdpp p)
    (ep_peak p) (ep_avg p) num model (ep_run p) (ep_defrost p) (ep_aq p) (ep_off_sensor p) (ep_on_t p)
    (ep_off_t p) (ep_ls p) (ep_lu_hours p) (ep_shed_aq p) (ep_lu_aq p) (ep_shed_off p) (ep_lu_off p)
    (ep_lu_off_t p) (ep_ls_percent p) (ep_return p) (ep_flow p) (ep_tm_on p) (ep_tm_off p)
    (ep_tm_off_time p) (ep_tm_safety p) (ep_volume p) cap tm_vol tm_cap tm_model num_tm.
(** The parameters with another run-hour limit. *)
Definition with_run (p : eparams) (run : Q) : eparams :=
  mkParams (ep_type p) (ep_mag p) (ep_cz p) (ep_supply p) (ep_storage p) (ep_schematic p) (ep_gpdpp p)
    (ep_peak p) (ep_avg p) (ep_num p) (ep_model p) run (ep_defrost p) (ep_aq p) (ep_off_sensor p) (ep_on_t p)
    (ep_off_t p) (ep_ls p) (ep_lu_hours p) (ep_shed_aq p) (ep_lu_aq p) (ep_shed_off p) (ep_lu_off p)
    (ep_lu_off_t p) (ep_ls_percent p) (ep_return p) (ep_flow p) (ep_tm_on p) (ep_tm_off p)
    (ep_tm_off_time p) (ep_tm_safety p) (ep_volume p) (ep_capacity p) (ep_tm_volume p) (ep_tm_capacity p)
    (ep_tm_model p) (ep_num_tm p).

(** The parts of a system that a user can see on it. *)
Definition primary_heaters (s : esys) : list heater :=
  match s with
  | EPrimary _ x => bs_heaters x | EParallel _ x => bs_heaters (ps_base x) | ESwing _ x => ws_heaters x
  | ESprtp _ _ _ x => bs_heaters x | EMprtp x => ms_heaters (mb_sys x) | EInstant _ => []
  end.
(** Volume of the primary tank. *)
Definition primary_volume (s : esys) : option Q :=
  let vol x := match bs_tank x with Some t => Some (st_vol t) | None => None end in
  match s with
  | EPrimary _ x => vol x | EParallel _ x => vol (ps_base x) | ESwing _ x => Some (st_vol (ws_tank x))
  | ESprtp _ _ _ x => vol x | EMprtp x => Some (en_vol (sl_base (ms_tank (mb_sys x)))) | EInstant _ => None
  end.
(** Supply and storage temperature it is run at. *)
Definition temperatures (s : esys) : Q * Q :=
  match s with
  | EPrimary _ x => (bs_supply x, bs_storage x) | EParallel _ x => (bs_supply (ps_base x), bs_storage (ps_base x))
  | ESwing _ x => (ws_supply x, ws_storage x) | ESprtp _ _ _ x => (bs_supply x, bs_storage x)
  | EMprtp x => (ms_supply (mb_sys x), ms_storage (mb_sys x)) | EInstant d => (dh_supply d, dh_storage d)
  end.
(** Return temperature and flow of its recirculation loop. *)
Definition loop (s : esys) : option (Q * Q) :=
  match s with
  | EPrimary _ _ | EInstant _ => None
  | EParallel _ x => Some (ps_return x, ps_flow x) | ESwing _ x => Some (ws_return x, ws_flow x)
  | ESprtp _ r f _ => Some (r, f) | EMprtp x => Some (ms_return (mb_sys x), ms_flow (mb_sys x))
  end.

(** Every hour of the given schedule has settings: no load-up hour lacks a load-up aquastat. *)
Definition load_up_configured (p : eparams) : Prop :=
  forall ls h, given_schedule p ls -> (h < 24)%nat -> load_up_hour ls (ep_lu_hours p) h -> ep_lu_aq p <> None.

(** ** Model listing *)

(** The text ends with [t]. *)
Definition ends (s t : string) : Prop := exists a, s = (a ++ t)%string.
(** [s] contains the text [t]. *)
Definition has_text (s t : string) : Prop := exists a b, s = (a ++ t ++ b)%string.
(** Models measured without regard to the outlet temperature: three by name, every multi-pass model and every
    Lochinvar model. *)
Definition outlet_free (code : string) : Prop :=
  In code ["MODELS_SANCO2_C_SP"; "MODELS_COLMAC_R454B_C_SP"; "MODELS_Droplet_C_SP"]%string \/
  ends code "MP" \/ has_text code "Lochinvar".
(** The fourth character from the end is [C] (commercial). *)
Definition commercial (code : string) : Prop := exists a x y z, code = (a ++ String "C" (String x (String y (String z EmptyString))))%string.
(** A model that passes the listing's filters, apart from the single/multi-pass choice. *)
Definition suitable (residential sgip_only : bool) (exclude : list string) (code : string) (e : reg_entry) : Prop :=
  ~ In code exclude /\ (sgip_only = true -> re_sgip e = true) /\ (residential = false -> commercial code).

(** [l] is [m] with some elements left out. *)
Inductive sublist {A} : list A -> list A -> Prop :=
  | sub_nil : sublist [] []
  | sub_skip x l m : sublist l m -> sublist l (x :: m)
  | sub_keep x l m : sublist l m -> sublist (x :: l) (x :: m).

(** A database all of whose models have a name and a code of at least four characters. *)
Definition well_formed (reg : registry) : Prop :=
  forall code e, In (code, e) reg -> (4 <= String.length code)%nat /\ exists n, re_name e = Some n.
