(** Specification vocabulary for C84: the designs a multi-pass sizing curve sweeps through. *)
From Verif Require Import Prelude M_StratifiedTank M_EnergyTank M_Building M_Heater M_Sizing M_MPRTP.
Open Scope Q_scope.

(** Heat of a day in kBTU: the water from mains to supply and the loop's loss around the clock. *)
Definition day_kbtu (daily supply inlet flow ret : Q) : Q :=
  (daily * rho_cp * (supply - inlet) + 24 * (flow * 60) * rho_cp * (supply - ret)) / 1000.

(** The same order as that of [x], sized from nothing for [h] hours of running a day; two trial days and one boost. *)
Definition redesign (lib : library) (b : building) (x : mp_built) (slope h : Q) : res mp_built :=
  let d := mb_dhw x in
  let s := mb_sys x in
  let sched := match ms_heaters s with w :: _ => wh_schedule w | [] => None end in
  let m := match ms_heaters s with w :: _ => wh_map w | [] => None end in
  let slope' := match dh_slope d with Some k => k | None => slope end in
  snd (mp_from_size lib b (dh_supply d) (dh_storage d) (ms_return s) (ms_flow s) h (dh_defrost d) sched m slope'
         (sl_pu (ms_tank s)) 2 1).

(** Capacity [c] and storage [v] for [h] hours: the system's own at its own hours; a new design for others, of nine and more. *)
Inductive design_at (lib : library) (b : building) (x : mp_built) (slope h c v : Q) : Prop :=
  | own_design : h == dh_run (mb_dhw x) -> dh_min_cap (mb_dhw x) = Some c -> dh_min_stor (mb_dhw x) = Some v ->
      design_at lib b x slope h c v
  | new_design y : ~ h == dh_run (mb_dhw x) -> 9 <= h -> redesign lib b x slope h = Ok y ->
      dh_min_cap (mb_dhw y) = Some c -> dh_min_stor (mb_dhw y) = Some v -> design_at lib b x slope h c v.

(** The hours of the sweep: down from the system's own by [step]. *)
Definition swept (x : mp_built) (step : Q) (k : nat) : Q := dh_run (mb_dhw x) + qz (Z.of_nat k) * - step.

(** Some hour of the day takes more than a heater running [h] hours brings in an hour, by a thousandth. *)
Definition peaky (b : building) (h : Q) : Prop := exists p, In p (bd_peak b) /\ 1001 # 1000 < h * p.
