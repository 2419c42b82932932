(** Properties C27-C29: the energy tank and the slug overlay. Theorems only; vocabulary in
    [S_Integral] and [S_EnergyTank], proofs in [L_EnergyTank] and [L_Slug]. *)
From Verif Require Import Prelude S_Integral L_Integral M_StratifiedTank M_EnergyTank S_EnergyTank
  L_EnergyTank L_Slug.
Open Scope Q_scope.

(** 100 gallons, inlet 50, storage 150, slope 2.8, 40000 BTU stored. *)
Definition ex_en : entank := mkEn 100 50 150 (14 # 5) 40000 0.

(** ** C27 *)
(** The heat above the inlet temperature in the reported profile is the stored energy, up to the
    tolerance of the search. *)
Theorem C27_profile_holds_stored_energy :
  forall t T, en_wf t -> en_cold t < en_storage t -> 0 <= en_energy t -> en_energy t <= en_full t ->
  en_profile t T ->
  exists I, is_integral (fun f => T f - en_cold t) 0 1 I /\
    Qabs (rho_cp * en_vol t * I - en_energy t) <= en_tol t.
Proof. exact c27_energy. Qed.
Print Assumptions C27_profile_holds_stored_energy.

Theorem C27_profile_monotone_and_bounded :
  forall t T, en_wf t -> en_cold t < en_storage t -> en_profile t T ->
  (forall f g, f <= g -> T f <= T g) /\ (forall f, en_cold t <= T f /\ T f <= en_storage t).
Proof. exact c27_monotone. Qed.
Print Assumptions C27_profile_monotone_and_bounded.

(** A profile is always reported. *)
Theorem C27_profile_total :
  forall t, en_wf t -> en_cold t < en_storage t -> exists T, en_profile t T.
Proof. exact en_profile_exists. Qed.
Print Assumptions C27_profile_total.

(** The average draw temperature is the mean of the reported profile over the drawn gallons. *)
Theorem C27_average_draw_is_mean :
  forall t T g, en_wf t -> en_cold t < en_storage t -> en_profile t T ->
  0 < g -> g <= (1 - en_cold_pct t / 100) * en_vol t ->
  exists a, en_avg t g = Ok a /\ is_mean T (1 - g / en_vol t) 1 a.
Proof. exact c27_avg. Qed.
Print Assumptions C27_average_draw_is_mean.

(** The usable volume is the volume at or above the supply temperature. *)
Theorem C27_usable_volume_is_measure :
  forall t T sup, en_wf t -> en_cold_pct t == 0 -> en_profile t T -> en_cold t < sup -> sup <= en_storage t ->
  exists u m, en_usable t sup = Ok u /\ is_level_length T 0 1 sup m /\ u == m * en_vol t.
Proof. exact c27_usable. Qed.
Print Assumptions C27_usable_volume_is_measure.

Example C27_nonvacuous :
  en_wf ex_en /\ en_cold ex_en < en_storage ex_en /\ 0 <= en_energy ex_en /\ en_energy ex_en <= en_full ex_en /\
  (exists T, en_profile ex_en T) /\ en_tol ex_en < 1 /\
  exists a b u, en_temp ex_en (1 # 2) = Ok a /\ en_temp ex_en (3 # 5) = Ok b /\ 50 < a /\ a < b /\ b < 150 /\
    en_usable ex_en 120 = Ok u /\ 30 < u /\ u < 50.
Proof.
  assert (W : en_wf ex_en) by (repeat split; vm_compute; try reflexivity; discriminate).
  split; [exact W|]. split; [reflexivity|]. split; [vm_compute; discriminate|]. split; [vm_compute; discriminate|].
  split; [apply en_profile_exists; [exact W|reflexivity]|]. split; [reflexivity|].
  eexists. eexists. eexists. split; [vm_compute; reflexivity|]. split; [vm_compute; reflexivity|].
  split; [reflexivity|]. split; [reflexivity|]. split; [reflexivity|].
  split; [vm_compute; reflexivity|]. split; reflexivity.
Qed.

(** ** C28 *)
(** At a constant inlet temperature every history keeps the stored energy between empty and full. *)
Theorem C28_energy_between_empty_and_full :
  forall c h os t, en_wf t -> c <= h -> en_storage t == h -> en_cold t == c ->
  0 <= en_energy t -> en_energy t <= en_full t -> Forall (const_inlet c h) os ->
  exists t', en_run t os = Ok t' /\ 0 <= en_energy t' /\ en_energy t' <= en_full t'.
Proof. exact c28_const. Qed.
Print Assumptions C28_energy_between_empty_and_full.

(** With varying inlet temperatures it is still never negative. *)
Theorem C28_energy_never_negative :
  forall h os t, en_wf t -> en_storage t == h -> en_cold t <= h -> 0 <= en_energy t ->
  Forall (inlet_below h) os ->
  exists t', en_run t os = Ok t' /\ 0 <= en_energy t'.
Proof. exact c28_nonneg. Qed.
Print Assumptions C28_energy_never_negative.

(** A new tank is cold throughout and, once heated for long enough, at storage temperature throughout: "full" is
    the whole volume warmed from the inlet to the storage temperature. *)
Theorem C28_new_tank_fills : forall vol cold storage slope k d outlet f,
  0 < vol -> 0 < slope -> cold < storage -> 0 < k -> cold < outlet -> 0 <= f -> f <= 1 ->
  vol * rho_cp * (storage - cold) <= k * 1000 * d / 60 ->
  let t := en_new vol cold storage slope in
  en_energy t == 0 /\ (exists x, en_temp t f = Ok x /\ x == cold) /\
  en_energy (en_heat t k d outlet) == vol * rho_cp * (storage - cold) /\
  (exists x, en_temp (en_heat t k d outlet) f = Ok x /\ x == storage).
Proof. exact en_new_fills. Qed.
Print Assumptions C28_new_tank_fills.

Example C28_nonvacuous :
  let os := [EInit 150 50 (9 # 10); EDraw 20 50 120 150; EHeat 100 30 150; ERecirc 2 110 10 None; EDrawPhysical 10 50 true] in
  Forall (const_inlet 50 150) os /\ Forall (inlet_below 150) os /\
  exists t', en_run (en_new 100 50 150 (14 # 5)) os = Ok t' /\ 0 < en_energy t' /\ en_energy t' < en_full t'.
Proof.
  cbv zeta. split; [repeat constructor; try reflexivity; vm_compute; discriminate|].
  split; [repeat constructor; try reflexivity; vm_compute; discriminate|].
  eexists. split; [vm_compute; reflexivity|]. split; reflexivity.
Qed.

(** If the inlet gets warmer, the tank can hold more than full, and heating then removes energy. *)
Theorem C28_warmer_inlet_exceeds_full_refuted :
  exists os t t', Forall (inlet_below 150) os /\ en_run (en_new 100 50 150 (14 # 5)) os = Ok t /\
    en_full t < en_energy t /\ en_heat t 100 15 150 = t' /\ en_energy t' < en_energy t.
Proof.
  exists [EInit 150 50 2; EDraw 0 70 120 150]. eexists. eexists.
  split; [repeat constructor; try reflexivity; vm_compute; discriminate|].
  split; [vm_compute; reflexivity|]. split; [reflexivity|]. split; [vm_compute; reflexivity|reflexivity].
Qed.
Print Assumptions C28_warmer_inlet_exceeds_full_refuted.

(** ** C29 *)
(** A concrete overlay tank, with the slug activated, used below. *)
Definition ex_slug : res slug :=
  sl_run (sl_new 100 50 140 120 (9 # 10) (1 # 2)) [LInit 140 50 (1 # 2); LActivate 120].

(** Over every history of lifecycle calls: no call fails, the slug volume stays between zero and
    the usable tank volume, its temperature does not fall below the coldest water that entered,
    the stored energy is not negative, and the usable volume is between zero and the usable tank. *)
Theorem C29_lifecycle_invariant :
  forall vol cold h supply pu slope lo os sup,
  sl_params_ok vol pu slope -> lo <= cold -> cold < h -> Forall (slug_call lo h) os ->
  exists t u, sl_run (sl_new vol cold h supply pu slope) os = Ok t /\
    (sl_active t = true -> 0 <= sl_vol t /\ sl_vol t <= pu * vol /\ lo <= sl_temp t) /\
    0 <= en_energy (sl_base t) /\
    sl_usable t sup = Ok u /\ 0 <= u /\ u <= pu * vol.
Proof. exact c29_invariant. Qed.
Print Assumptions C29_lifecycle_invariant.

(** Queries while the slug is active: inlet temperature below it, its (clamped) temperature inside
    it, and above it the profile from before, moved up by the slug's growth. *)
Theorem C29_queries_see_the_slug :
  forall lo h t f, sl_reachable lo h t -> sl_active t = true ->
  (f * 100 < en_cold_pct (sl_base t) -> sl_temp_at t f = Ok (en_cold (sl_base t))) /\
  (en_cold_pct (sl_base t) <= f * 100 -> f * 100 <= en_cold_pct (sl_base t) + sl_vol t / en_vol (sl_base t) * 100 ->
     sl_temp_at t f = Ok (qmax (en_cold (sl_base t)) (qmin (en_storage (sl_base t)) (sl_temp t)))) /\
  (en_cold_pct (sl_base t) + sl_vol t / en_vol (sl_base t) * 100 < f * 100 ->
     sl_temp_at t f = en_temp (sl_base t) (f - (sl_vol t - sl_orig t) / en_vol (sl_base t))).
Proof. exact c29_query_r. Qed.
Print Assumptions C29_queries_see_the_slug.

(** Water added to the slug mixes with it; heat warms exactly the slug's water. *)
Theorem C29_adding_mixes :
  forall t g c, 0 < en_vol (sl_base t) -> sl_active t = true -> 0 <= sl_vol t -> 0 < g ->
  exists t', sl_add t g c = Ok t' /\ sl_base t' = sl_base t /\
    sl_vol t' == sl_vol t + g /\ sl_vol t' * sl_temp t' == sl_vol t * sl_temp t + g * c.
Proof. exact c29_add. Qed.
Print Assumptions C29_adding_mixes.

Theorem C29_heating_warms_the_slug :
  forall t k d, sl_active t = true -> 0 < sl_vol t -> 0 <= k ->
  exists t', sl_heat t k d = Ok t' /\ sl_base t' = sl_base t /\ sl_vol t' = sl_vol t /\
    sl_vol t * rho_cp * (sl_temp t' - sl_temp t) == k * 1000 * d / 60.
Proof. exact c29_heat. Qed.
Print Assumptions C29_heating_warms_the_slug.

(** A draw that fits in the hot zone is replaced by make-up water joining the slug; a larger one
    also takes slug water and leaves a slug that fills the usable tank. *)
Theorem C29_draws_act_on_the_slug :
  forall lo h t g c u, sl_reachable lo h t -> sl_active t = true -> lo <= c -> c < h -> 0 < g ->
  exists t', sl_draw_physical t g c u = Ok t' /\ sl_active t' = true /\ sl_base t' = sl_base t /\
   (g <= sl_max t - sl_vol t ->
      sl_vol t' == sl_vol t + g /\ sl_vol t' * sl_temp t' == sl_vol t * sl_temp t + g * c) /\
   (sl_max t - sl_vol t < g -> sl_vol t' = sl_max t /\
      (g < sl_max t -> sl_max t * sl_temp t' == (sl_max t - g) * sl_temp t + g * c) /\
      (sl_max t <= g -> sl_temp t' == c)).
Proof. exact c29_draw. Qed.
Print Assumptions C29_draws_act_on_the_slug.

(** Deactivation returns the slug's heat, plus the heat of the hot zone that is left: the mean [a]
    of the profile from before activation over the gallons not yet drawn. *)
Theorem C29_deactivation_returns_heat :
  forall lo h t T, sl_reachable lo h t -> sl_active t = true -> en_profile (sl_base t) T ->
  exists t', sl_deactivate t = Ok t' /\ sl_active t' = false /\
    let V := en_vol (sl_base t) in
    let slug_heat := qmax 0 (sl_vol t * rho_cp * (sl_temp t - en_cold (sl_base t))) in
    (sl_max t <= sl_vol t -> en_energy (sl_base t') == slug_heat) /\
    (sl_vol t < sl_max t -> exists a,
       is_mean T (1 - sl_pu t + sl_orig t / V) (1 - (sl_vol t - sl_orig t) / V) a /\
       en_energy (sl_base t') == slug_heat + (sl_max t - sl_vol t) * rho_cp * (a - en_cold (sl_base t))).
Proof. exact c29_deactivate_r. Qed.
Print Assumptions C29_deactivation_returns_heat.

(** Activating and at once deactivating keeps the stored energy, up to the search tolerance. *)
Theorem C29_activation_round_trip :
  forall lo h t sup, sl_reachable lo h t -> sl_active t = false ->
  en_energy (sl_base t) <= en_full (sl_base t) ->
  exists t1 t2, sl_activate t sup = Ok t1 /\ sl_deactivate t1 = Ok t2 /\
    Qabs (en_energy (sl_base t2) - en_energy (sl_base t)) <= en_tol (sl_base t).
Proof. exact c29_roundtrip_r. Qed.
Print Assumptions C29_activation_round_trip.

(** Repeated activation and deactivation, and slug calls without a slug, change nothing. *)
Theorem C29_idempotent :
  forall t, (sl_active t = true -> forall s, sl_activate t s = Ok t) /\
    (sl_active t = false -> sl_deactivate t = Ok t /\
       forall a b, sl_add t a b = Ok t /\ sl_heat t a b = Ok t).
Proof.
  intro t. split; intro H.
  - intro s. apply sl_activate_active. exact H.
  - split; [apply sl_deactivate_inactive; exact H|]. intros a b.
    split; [apply sl_add_inactive|apply sl_heat_inactive]; exact H.
Qed.
Print Assumptions C29_idempotent.

Example C29_nonvacuous :
  exists t, ex_slug = Ok t /\ sl_reachable 40 140 t /\ sl_active t = true /\ 30 < sl_vol t /\ sl_vol t < sl_max t /\
    exists t', sl_draw_physical t 20 50 true = Ok t' /\ sl_vol t' == sl_vol t + 20.
Proof.
  eexists. split; [vm_compute; reflexivity|]. split.
  { exists 100, 50, 120, (9 # 10), (1 # 2), [LInit 140 50 (1 # 2); LActivate 120].
    split; [repeat split; vm_compute; try reflexivity; discriminate|].
    split; [vm_compute; discriminate|]. split; [reflexivity|].
    split; [repeat constructor; vm_compute; try reflexivity; discriminate|]. vm_compute. reflexivity. }
  split; [reflexivity|]. split; [reflexivity|]. split; [reflexivity|].
  eexists. split; [vm_compute; reflexivity|]. reflexivity.
Qed.

(** The documented caps are not enforced: one call of heat_slug takes the slug above storage
    temperature, and add_to_slug takes its volume above the usable tank volume; deactivation can
    then leave more than a full tank of energy. *)
Theorem C29_documented_caps_refuted :
  exists t t1 t2 t3, ex_slug = Ok t /\
    sl_heat t 1000 60 = Ok t1 /\ en_storage (sl_base t) < sl_temp t1 /\
    sl_add t 200 50 = Ok t2 /\ sl_max t < sl_vol t2 /\
    sl_deactivate t1 = Ok t3 /\ en_full (sl_base t3) < en_energy (sl_base t3).
Proof.
  eexists. eexists. eexists. eexists. split; [vm_compute; reflexivity|].
  split; [vm_compute; reflexivity|]. split; [reflexivity|].
  split; [vm_compute; reflexivity|]. split; [reflexivity|]. split; [vm_compute; reflexivity|]. reflexivity.
Qed.
Print Assumptions C29_documented_caps_refuted.

(** The average draw temperature of an active overlay ignores the slug's growth: after a draw the
    average of the top gallon is above the temperature reported at the very top. *)
Theorem C29_average_above_hottest_refuted :
  exists t t1 a x, ex_slug = Ok t /\ sl_draw_physical t 20 50 true = Ok t1 /\
    sl_avg t1 1 = Ok a /\ sl_temp_at t1 1 = Ok x /\ x < a.
Proof.
  eexists. eexists. eexists. eexists. split; [vm_compute; reflexivity|].
  split; [vm_compute; reflexivity|]. split; [vm_compute; reflexivity|]. split; [vm_compute; reflexivity|]. reflexivity.
Qed.
Print Assumptions C29_average_above_hottest_refuted.
