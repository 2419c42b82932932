(** Specification vocabulary for simulations started from an engine (C65, C66). *)
From Verif Require Import Prelude M_StratifiedTank M_MixedTank M_EnergyTank M_Building M_Heater M_Sizing M_SimRun S_SimRun
  M_Step S_Step M_Swing M_MPRTP M_Engine S_Engine.
Open Scope Q_scope.

(** Minutes simulated and minutes per step. *)
Definition lasts (dur : string) (total iv : Z) : Prop :=
  dur = "3day"%string /\ total = 4320%Z /\ iv = 1%Z \/ dur = "annual"%string /\ total = 525600%Z /\ iv = 10%Z.

(** [r] is the record of the steps [outs] of a simulation that gives up as soon as the delivered water
    has been more than [thr] degrees below [supply] for more than [maxm] minutes without a break. *)
Record reported (supply thr : Q) (maxm total iv : Z) (outs : list step_out) (r : sim_run) : Prop := {
  rp_duration : sr_duration r = total;
  rp_interval : sr_iv r = iv;
  rp_recorded : recorded outs r;
  rp_length : (Z.of_nat (length outs) * iv <= total)%Z;
  rp_not_before : forall j, (j + 1 < length outs)%nat -> ~ too_long supply thr maxm iv outs j;
  rp_stopped : sr_stopped r = true <-> too_long supply thr maxm iv outs (length outs - 1);
  rp_full : sr_stopped r = false -> (Z.of_nat (length outs) * iv = total)%Z }.

(** The second tank of a system, and its heater. *)
Definition second_tank (s : esys) : option (Q * heater) :=
  match s with
  | EParallel _ x => Some (mx_vol (ps_tank x), ps_heater x)
  | ESwing _ x => Some (mx_vol (ws_swing x), ws_element x)
  | _ => None
  end.

(** What a simulation leaves as it was: everything but tank contents and heaters being on or off. *)
Record same_plant (e e' : engine) : Prop := {
  sp_building : en_building e' = en_building e;
  sp_results : eng_results e' = eng_results e;
  sp_type : type_of (en_system e') = type_of (en_system e);
  sp_temperatures : temperatures (en_system e') = temperatures (en_system e);
  sp_loop : loop (en_system e') = loop (en_system e);
  sp_volume : primary_volume (en_system e') = primary_volume (en_system e);
  sp_heaters : Forall2 same_heater (primary_heaters (en_system e)) (primary_heaters (en_system e'));
  sp_second : match second_tank (en_system e), second_tank (en_system e') with
              | Some (v, h), Some (v', h') => v' = v /\ same_heater h h'
              | None, None => True
              | _, _ => False
              end }.

(** Which heaters are on. *)
Definition running (s : esys) : list bool :=
  map wh_active (primary_heaters s ++ match second_tank s with Some (_, h) => [h] | None => [] end).

(** The single-pass systems with a primary tank. *)
Definition stratified (t : system_type) : Prop :=
  t = PrimaryNoRecirc \/ t = ParallelLoop \/ t = SwingTank \/ t = SinglePassRTP.
