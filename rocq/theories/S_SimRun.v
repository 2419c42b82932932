(** Specification vocabulary for C13-C19: executed steps, cold runs, billed power. *)
From Verif Require Import Prelude M_Building S_Building M_Utility S_Utility M_Heater M_SimRun.

(** The steps [i], [i+1], ... of the system [stp] from state [s] produce [outs] and end in [s']. *)
Fixpoint executed {St} (stp : St -> Z -> Z -> res (St * step_out)) (iv : Z) (s : St) (i : Z)
    (outs : list step_out) (s' : St) : Prop :=
  match outs with
  | [] => s' = s
  | o :: rest => exists s1, stp s i iv = Ok (s1, o) /\ executed stp iv s1 (i + 1) rest s'
  end.

(** Temperature delivered in a step: the swing tank's if reported, else the top tank node. *)
Definition delivered (o : step_out) : Q :=
  match so_delivery o with Some d => d | None => last (so_temps o) 0 end.
Definition too_cold (supply thr : Q) (o : step_out) : Prop := delivered o < supply - thr.

(** An unbroken run of [k] too-cold steps ends at step [i] and lasts more than [maxm] minutes. *)
Definition cold_run (supply thr : Q) (outs : list step_out) (i k : nat) : Prop :=
  (k <= i + 1)%nat /\
  forall j, (i + 1 - k <= j <= i)%nat -> exists o, nth_error outs j = Some o /\ too_cold supply thr o.
Definition too_long (supply thr : Q) (maxm iv : Z) (outs : list step_out) (i : nat) : Prop :=
  exists k, (1 <= k)%nat /\ cold_run supply thr outs i k /\ (maxm < Z.of_nat k * iv)%Z.

(** The steps whose tank ended without usable water. *)
Definition outages (outs : list step_out) : list step_out :=
  filter (fun o => Qle_bool (so_usable o) 0) outs.

(** The series of a run are those of the executed steps. *)
Record recorded (outs : list step_out) (r : sim_run) : Prop := {
  rc_demand : sr_demand r = map so_demand outs;
  rc_usable : sr_usable r = map so_usable outs;
  rc_output : sr_output r = map so_output outs;
  rc_power : sr_power r = map so_power outs;
  rc_oat : sr_oat r = map so_oat outs;
  rc_inlet : sr_inlet r = map so_inlet outs;
  rc_mode : sr_mode r = map so_mode outs;
  rc_temps : forall k, (k < 6)%nat ->
     nth_error (sr_temps r) k = Some (somes (map (fun o => nth_error (so_temps o) k) outs));
  rc_tm_temp : sr_tm_temp r = somes (map so_tm_temp outs);
  rc_tm_output : sr_tm_output r = somes (map so_tm_output outs);
  rc_tm_kw : sr_tm_kw r = somes (map so_tm_kw outs);
  rc_outage : sr_outage r = (sr_iv r * Z.of_nat (length (outages outs)))%Z }.

(** *** Billing *)

(** Power billed at step [i]: primary plus the [i]-th temperature-maintenance entry. *)
Definition billed_kw (r : sim_run) (i : nat) : Q := or0 (nth i (sr_power r) None) + nth i (sr_tm_kw r) 0.
Definition step_hours (r : sim_run) : Q := qz (sr_iv r) / 60.

(** The tariff's answers at the recorded steps. *)
Definition rates_at (r : sim_run) (u : tracker) (rate : nat -> Q) (period : nat -> Z) : Prop :=
  forall i, (i < length (sr_power r))%nat ->
    ut_energy_at u (Z.of_nat i) (sr_iv r) = Ok (Some (rate i)) /\
    ut_period_at u (Z.of_nat i) (sr_iv r) = Ok (period i).

(** [d] lists the demand periods that occur, once each, with the largest power billed in them. *)
Definition peak_list (n : nat) (kw : nat -> Q) (period : nat -> Z) (d : list (Z * Q)) : Prop :=
  NoDup (map fst d) /\
  (forall p x, In (p, x) d ->
     (exists i, (i < n)%nat /\ period i = p /\ kw i == x) /\
     forall i, (i < n)%nat -> period i = p -> kw i <= x) /\
  (forall i, (i < n)%nat -> In (period i) (map fst d)).

(** Energy charge of step [i]. *)
Definition energy_charge (kw : nat -> Q) (hours : Q) (rate : nat -> Q) (i : nat) : Q := kw i * hours * rate i.

(** Sum over the first [n] steps of [f i], restricted to those selected. *)
Definition sum_if (n : nat) (sel : nat -> bool) (f : nat -> Q) : Q :=
  qsum (map (fun i => if sel i then f i else 0) (seq 0 n)).

(** [mon i] is the month containing step [i]. *)
Definition step_months (n : nat) (iv : Z) (mon : nat -> nat) : Prop :=
  forall i, (i < n)%nat -> forall h, step_in_hour (Z.of_nat i) iv h -> hour_month h (mon i).

Definition without_tm (r : sim_run) : sim_run :=
  mkRun (sr_duration r) (sr_iv r) (sr_demand r) (sr_usable r) (sr_output r) (sr_power r)
    (sr_oat r) (sr_inlet r) (sr_mode r) (sr_temps r) (sr_tm_temp r) (sr_tm_output r) []
    (sr_outage r) (sr_show_tm r) (sr_thr r) (sr_max r) (sr_consec r) (sr_stopped r).

(** The demand charges of a peak list, as the tariff computes them one by one (C12). *)
Definition demand_charged (u : tracker) (d : list (Z * Q)) (charges : list Q) : Prop :=
  Forall2 (fun e x => ut_demand_charge u (fst e) (snd e) = Ok x) d charges.

(** Step [i] lies in month [m] and is billed in window [w] of the tariff [p]. *)
Definition step_window (p : params) (iv : Z) (i : nat) (m : nat) (w : window) : Prop :=
  exists h s, step_in_hour (Z.of_nat i) iv h /\ hour_month h m /\ covers p s m /\ billed_in p s (h mod 24) w.

(** The sum of the charges whose period is selected. *)
Definition charge_if (sel : Z -> bool) (d : list (Z * Q)) (charges : list Q) : Q :=
  qsum (map (fun x => if sel (fst (fst x)) then snd x else 0) (combine d charges)).

(** [k] is the first position of [outs] that satisfies [P]. *)
Definition first_at {A} (P : A -> Prop) (outs : list A) (k : nat) : Prop :=
  (exists o, nth_error outs k = Some o /\ P o) /\
  forall j o, (j < k)%nat -> nth_error outs j = Some o -> ~ P o.

(** One row of the exported file: step, minute, demand, usable volume, heat output, power, outdoor
    and inlet temperatures, the six node temperatures. *)
Definition sim_csv_row (iv : Z) (i : nat) (o : step_out) : Z * Z * list Q * option Q * list Q * list Q :=
  (Z.of_nat i, (Z.of_nat i * iv)%Z, [so_demand o; so_usable o; so_output o], so_power o,
   [so_oat o; so_inlet o], so_temps o).
