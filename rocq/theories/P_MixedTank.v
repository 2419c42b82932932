(** Properties C25 and C26: the fully mixed storage tank. Theorems only; vocabulary in
    [S_MixedTank], proofs in [L_MixedTank]. *)
From Verif Require Import Prelude M_StratifiedTank M_MixedTank S_MixedTank L_MixedTank.
Open Scope Q_scope.

Definition ex_mixed : mixed := mkMixed 100 140 50.

(** ** C25 *)
(** A draw of [v] gallons at supply temperature [s] removes exactly their heat above the inlet
    temperature, or everything if the tank holds less. *)
Theorem C25_draw_heat_balance :
  forall t v c s h,
  0 < mx_vol t -> 0 <= v -> c <= s -> c + (1 # 1000000) <= mx_temp_at t 0 ->
  exists t', mx_draw t v c s h = Ok t' /\
    mx_heat_above c t' == qmax 0 (mx_heat_above c t - v * rho_cp * (s - c)).
Proof. exact c25_draw. Qed.
Print Assumptions C25_draw_heat_balance.

(** When the tank is warmer than the inlet by less than a millionth of a degree (the guard in the
    code), a draw removes no more than that and never cools below the inlet. *)
Theorem C25_draw_nearly_cold :
  forall t v c s h,
  0 < mx_vol t -> 0 <= v -> c <= s -> mx_temp_at t 0 < c + (1 # 1000000) ->
  exists t', mx_draw t v c s h = Ok t' /\
    mx_heat_above c t' <= mx_heat_above c t /\
    mx_heat_above c t - v * rho_cp * (s - c) <= mx_heat_above c t' /\
    (c <= mx_temp_at t 0 -> c <= mx_temp_at t' 0).
Proof. exact c25_draw_sliver. Qed.
Print Assumptions C25_draw_nearly_cold.

Theorem C25_heating_heat_balance :
  forall t k d h, 0 < mx_vol t -> 0 <= k ->
  exists t', mx_heat t k d h = Ok t' /\ mx_heat_above 0 t' == mx_heat_above 0 t + k * 1000 * d / 60.
Proof. exact c25_heat. Qed.
Print Assumptions C25_heating_heat_balance.

Theorem C25_fixed_loss_heat_balance :
  forall t k d, 0 < mx_vol t -> 0 <= k -> 0 <= d ->
  exists t', mx_fixed_loss t k d = Ok t' /\ mx_heat_above 0 t' == mx_heat_above 0 t - k * 1000 * d / 60.
Proof. exact c25_fixed_loss. Qed.
Print Assumptions C25_fixed_loss_heat_balance.

(** [g] gallons enter at [p] while [g] gallons leave at tank temperature; more than a tank volume
    replaces the contents. *)
Theorem C25_inflow_heat_balance :
  forall t g p, 0 < mx_vol t -> 0 <= g -> exists t', mx_inflow t g p = Ok t' /\
    (g <= mx_vol t -> mx_heat_above 0 t' == mx_heat_above 0 t + g * rho_cp * (p - mx_temp_at t 0)) /\
    (mx_vol t <= g -> mx_temp_at t' 0 == p).
Proof. exact c25_inflow. Qed.
Print Assumptions C25_inflow_heat_balance.

Theorem C25_physical_draw_heat_balance :
  forall t g p, 0 < mx_vol t -> 0 <= g -> exists t', mx_draw_physical t g p = Ok t' /\
    (g <= mx_vol t -> mx_heat_above 0 t' == mx_heat_above 0 t + g * rho_cp * (p - mx_temp_at t 0)) /\
    (mx_vol t <= g -> mx_temp_at t' 0 == p).
Proof. exact c25_draw_physical. Qed.
Print Assumptions C25_physical_draw_heat_balance.

Theorem C25_recirculation_heat_balance :
  forall t f r d, 0 < mx_vol t -> exists t', mx_recirc t f r d = Ok t' /\
    mx_heat_above 0 t' == mx_heat_above 0 t + f * d * rho_cp * (r - mx_temp_at t 0).
Proof. exact c25_recirc. Qed.
Print Assumptions C25_recirculation_heat_balance.

(** Without heating and fixed losses, every history keeps the temperature between bounds that
    contain the initial temperature and all temperatures entering the tank. *)
Theorem C25_stays_between_sources :
  forall lo hi os t,
  0 < mx_vol t -> lo <= mx_temp_at t 0 -> mx_temp_at t 0 <= hi ->
  Forall (exchange_ok (mx_vol t) lo hi) os ->
  exists t', mx_run t os = Ok t' /\ lo <= mx_temp_at t' 0 /\ mx_temp_at t' 0 <= hi.
Proof. exact c25_between. Qed.
Print Assumptions C25_stays_between_sources.

Example C25_nonvacuous :
  0 < mx_vol ex_mixed /\ 50 + (1 # 1000000) <= mx_temp_at ex_mixed 0 /\
  Forall (exchange_ok (mx_vol ex_mixed) 45 160)
    [MDraw 10 50 120 140; MInflow 30 160; MRecirc 2 110 15; MDrawPhysical 20 45] /\
  exists t', mx_run ex_mixed [MDraw 10 50 120 140; MInflow 30 160; MRecirc 2 110 15; MDrawPhysical 20 45] = Ok t' /\
  45 < mx_temp_at t' 0 /\ mx_temp_at t' 0 < 140.
Proof.
  split; [reflexivity|]. split; [vm_compute; discriminate|]. split.
  - repeat constructor; vm_compute; discriminate.
  - eexists. split; [vm_compute; reflexivity|]. split; reflexivity.
Qed.

(** The volume condition on recirculation is needed: circulating twice the tank volume in one
    step cools it below the return temperature. *)
Theorem C25_recirculating_more_than_volume_refuted :
  exists t t' f d r, mx_recirc t f r d = Ok t' /\ r < mx_temp_at t 0 /\ mx_temp_at t' 0 < r.
Proof.
  exists ex_mixed. eexists. exists 10, 20, 110. split; [vm_compute; reflexivity|]. split; reflexivity.
Qed.
Print Assumptions C25_recirculating_more_than_volume_refuted.

(** ** C26 *)
(** The outlet temperature passed to heat() has no influence at all, *)
Theorem C26_heating_ignores_outlet_temperature :
  forall t k d h1 h2, mx_heat t k d h1 = mx_heat t k d h2.
Proof. exact c26_ignores. Qed.
Print Assumptions C26_heating_ignores_outlet_temperature.

(** and every tank can be heated in one step beyond every temperature, whatever the outlet. *)
Theorem C26_heating_cap_refuted :
  forall t d h M, 0 < mx_vol t -> 0 < d ->
  exists k t', 0 < k /\ mx_heat t k d h = Ok t' /\ M < mx_temp_at t' 0.
Proof. exact c26_unbounded. Qed.
Print Assumptions C26_heating_cap_refuted.

Example C26_nonvacuous :
  exists t', mx_heat ex_mixed 600 15 150 = Ok t' /\ 150 < mx_temp_at t' 0.
Proof. eexists. split; [vm_compute; reflexivity|reflexivity]. Qed.
