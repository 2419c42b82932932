(** Properties C20-C24 (and the stratified part of C22): the stratified storage tank.
    Theorems only; vocabulary in [S_Integral] and [S_StratifiedTank], proofs in [L_*]. *)
From Verif Require Import Prelude S_Integral L_Integral M_StratifiedTank S_StratifiedTank
  L_StratifiedTank L_StratifiedTank2 L_StratifiedTank3.
Open Scope Q_scope.

(** A concrete tank used in the non-vacuity examples: 100 gallons, slope 2.8, one tenth cold,
    after a 10 gallon draw. *)
Definition ex_tank : strat := mkStrat 100 (14 # 5) (-7) (50 - (14 # 5) * 10) 50 150.

(** ** C20 *)
(** After every history of calls on a new tank, the reported temperature never decreases with
    height and lies between the inlet and outlet temperature last passed in (if the inlet was
    not above the outlet; otherwise the whole tank reads the inlet temperature). No call fails. *)
Theorem C20_stratified_temperatures_physical :
  forall vol slope ops, 0 < vol -> 0 < slope ->
  exists t T, st_run (st_new vol slope) ops = Ok t /\ profile t T /\
    (forall f g, f <= g -> T f <= T g) /\
    (current_inlet ops <= current_outlet ops ->
       forall f, current_inlet ops <= T f /\ T f <= current_outlet ops) /\
    (current_outlet ops < current_inlet ops -> forall f, T f == current_inlet ops).
Proof. exact c20. Qed.
Print Assumptions C20_stratified_temperatures_physical.

Example C20_nonvacuous :
  let ops := [SInit 150 50 (9 # 10); SDraw 10 50 120 150; SHeat 100 15 150; SRecirc 2 110 15 None] in
  current_inlet ops <= current_outlet ops /\ current_inlet ops == 50 /\ current_outlet ops == 150 /\
  exists t T0 T1, st_run (st_new 100 (14 # 5)) ops = Ok t /\ st_temp t 0 = Ok T0 /\ st_temp t 1 = Ok T1 /\ T0 < T1.
Proof.
  cbv zeta. split; [vm_compute; discriminate|]. split; [reflexivity|]. split; [reflexivity|].
  eexists. eexists. eexists. split; [vm_compute; reflexivity|].
  split; [vm_compute; reflexivity|]. split; [vm_compute; reflexivity|]. vm_compute. reflexivity.
Qed.

(** ** C21 *)
(** The average draw temperature is the (unique) mean of the reported profile over the top [g]
    gallons, and lies between inlet and outlet temperature. *)
Theorem C21_average_draw_is_mean :
  forall t T g, st_wf t -> profile t T -> st_inlet t <= st_outlet t -> 0 < g -> g <= st_vol t ->
  exists a, st_avg t g = Ok a /\ is_mean T (1 - g / st_vol t) 1 a /\
    (forall a', is_mean T (1 - g / st_vol t) 1 a' -> a' == a) /\
    st_inlet t <= a /\ a <= st_outlet t.
Proof. exact c21_mean. Qed.
Print Assumptions C21_average_draw_is_mean.

(** Drawing more never raises the average, for any two volumes (also beyond the tank volume). *)
Theorem C21_average_draw_antitone :
  forall t g1 g2 a1 a2, st_wf t -> st_inlet t <= st_outlet t ->
  g1 <= g2 -> st_avg t g1 = Ok a1 -> st_avg t g2 = Ok a2 -> a2 <= a1.
Proof. exact st_avg_antitone. Qed.
Print Assumptions C21_average_draw_antitone.

Example C21_nonvacuous :
  st_wf ex_tank /\ profile ex_tank (tval ex_tank) /\ st_inlet ex_tank <= st_outlet ex_tank /\
  exists a b, st_avg ex_tank 20 = Ok a /\ st_avg ex_tank 60 = Ok b /\ b < a /\ 50 < b /\ a <= 150.
Proof.
  split; [split; reflexivity|]. split; [apply profile_exists; split; reflexivity|]. split; [vm_compute; discriminate|].
  eexists. eexists. split; [vm_compute; reflexivity|]. split; [vm_compute; reflexivity|].
  split; [reflexivity|]. split; [reflexivity|]. vm_compute; discriminate.
Qed.

(** ** C22 *)
(** For a supply temperature above the inlet and not above the outlet temperature, the usable
    volume is the tank volume times the (unique) length of the part of the height range whose
    temperature is at least the supply temperature. *)
Theorem C22_usable_volume_is_measure :
  forall t T s, st_wf t -> profile t T -> st_inlet t < s -> s <= st_outlet t ->
  exists u m, st_usable t s = Ok u /\ is_level_length T 0 1 s m /\ u == m * st_vol t.
Proof. exact c22_level. Qed.
Print Assumptions C22_usable_volume_is_measure.

Theorem C22_level_length_unique :
  forall T a b s m1 m2, is_level_length T a b s m1 -> is_level_length T a b s m2 -> m1 == m2.
Proof. exact level_length_unique. Qed.
Print Assumptions C22_level_length_unique.

(** It is between zero and the tank volume for every supply temperature. *)
Theorem C22_usable_volume_bounded :
  forall t s, st_wf t -> exists u, st_usable t s = Ok u /\ 0 <= u /\ u <= st_vol t.
Proof. exact st_usable_ok. Qed.
Print Assumptions C22_usable_volume_bounded.

Theorem C22_usable_volume_antitone :
  forall t s1 s2 u1 u2, st_wf t -> s1 <= s2 ->
  st_usable t s1 = Ok u1 -> st_usable t s2 = Ok u2 -> u2 <= u1.
Proof. exact st_usable_antitone. Qed.
Print Assumptions C22_usable_volume_antitone.

Example C22_nonvacuous :
  st_inlet ex_tank < 120 /\ 120 <= st_outlet ex_tank /\
  exists u, st_usable ex_tank 120 = Ok u /\ 0 < u /\ u < st_vol ex_tank.
Proof.
  split; [reflexivity|]. split; [vm_compute; discriminate|].
  eexists. split; [vm_compute; reflexivity|]. split; reflexivity.
Qed.

(** Above the outlet temperature the claim is false: a reachable tank reports usable volume
    although it is colder than the supply temperature everywhere. *)
Theorem C22_over_reports_above_outlet_refuted :
  exists ops t s u, st_run (st_new 100 (14 # 5)) ops = Ok t /\ st_outlet t < s /\
    st_usable t s = Ok u /\ 0 < u /\ forall f x, st_temp t f = Ok x -> x < s.
Proof.
  exists [SInit 120 50 1]. eexists. exists 200. eexists. split; [reflexivity|]. split; [reflexivity|].
  split; [vm_compute; reflexivity|]. split; [reflexivity|].
  intros f x H. rewrite st_temp_ok in H by (split; reflexivity). injection H as <-.
  eapply Qle_lt_trans; [apply tval_range; vm_compute; discriminate|reflexivity].
Qed.
Print Assumptions C22_over_reports_above_outlet_refuted.

(** Below the inlet temperature it is false in the other direction: less than the whole tank is
    reported although every height is at or above the supply temperature. *)
Theorem C22_under_reports_below_inlet_refuted :
  exists ops t s u, st_run (st_new 100 (14 # 5)) ops = Ok t /\ s <= st_inlet t /\
    st_usable t s = Ok u /\ u < st_vol t /\ forall f x, st_temp t f = Ok x -> s <= x.
Proof.
  exists [SInit 150 40 (1 # 2); SDraw 0 80 120 150]. eexists. exists 70. eexists.
  split; [vm_compute; reflexivity|]. split; [vm_compute; discriminate|].
  split; [vm_compute; reflexivity|]. split; [reflexivity|].
  intros f x H. rewrite st_temp_ok in H by (split; reflexivity). injection H as <-.
  eapply Qle_trans; [|apply tval_range; vm_compute; discriminate]. vm_compute; discriminate.
Qed.
Print Assumptions C22_under_reports_below_inlet_refuted.

(** ** C23 *)
(** A draw that a full tank could serve moves the profile up by [g] gallons (but not below the
    spent profile, whose top is at supply temperature). The [g] gallons taken from the top, at
    their mean temperature [m], carry the requested heat up to the stated tolerance; or the
    tank held too little and all of it (up to the tolerance) was taken. *)
Theorem C23_draw_removes_delivered_heat :
  forall t v cold supply outlet T0,
  st_wf t -> cold < supply -> supply <= outlet -> 0 < v ->
  v * (supply - cold) <= st_vol t * (outlet - cold) ->
  profile (set_outlet (set_inlet t cold) outlet) T0 ->
  exists t' T' g m,
    st_draw t v cold supply outlet = Ok t' /\ profile t' T' /\ 0 < g <= st_vol t /\
    (forall f, T' f == qmax (T0 (f - g / st_vol t)) (spent_profile cold outlet (st_slope t) supply f)) /\
    is_mean T0 (1 - g / st_vol t) 1 m /\
    let tol := (1 # 1000000) + st_vol t / inject_Z (2 ^ 52) in
    ((v * (supply - cold) - (1 # 1000000) * st_vol t - (outlet - cold) * tol <= g * (m - cold) /\
      g * (m - cold) <= v * (supply - cold) + (outlet - cold) * tol)
     \/ (g * (m - cold) < v * (supply - cold) /\ st_vol t - tol <= g)).
Proof. exact c23_draw. Qed.
Print Assumptions C23_draw_removes_delivered_heat.

(** A larger draw takes at least the whole tank, again not below the spent profile. *)
Theorem C23_oversized_draw_empties_tank :
  forall t v cold supply outlet T0,
  st_wf t -> cold < supply -> supply <= outlet -> 0 < v ->
  st_vol t * (outlet - cold) < v * (supply - cold) ->
  profile (set_outlet (set_inlet t cold) outlet) T0 ->
  exists t' T' g,
    st_draw t v cold supply outlet = Ok t' /\ profile t' T' /\ st_vol t <= g /\
    (forall f, T' f == qmax (T0 (f - g / st_vol t)) (spent_profile cold outlet (st_slope t) supply f)).
Proof. exact c23_draw_over. Qed.
Print Assumptions C23_oversized_draw_empties_tank.

(** The hypotheses hold for a fast-path draw (5 gal) and for a draw that needs the search (75 gal). *)
Example C23_nonvacuous :
  st_wf ex_tank /\ 75 * (120 - 50) <= st_vol ex_tank * (150 - 50) /\
  (exists t', st_draw ex_tank 5 50 120 150 = Ok t' /\ st_delta t' == -7 - (5 * 70 / 100)) /\
  (exists t', st_draw ex_tank 75 50 120 150 = Ok t' /\ st_delta t' < -7 - (75 * 70 / 100)).
Proof.
  split; [split; reflexivity|]. split; [vm_compute; discriminate|].
  split; eexists; (split; [vm_compute; reflexivity|reflexivity]).
Qed.

(** ** C24 *)
(** Heating never lowers any temperature and never heats above the heater's outlet temperature. *)
Theorem C24_heating_never_removes_heat :
  forall t T k d h, st_wf t -> profile t T -> 0 <= d -> st_outlet t <= h ->
  exists t' T', st_heat t k d h = Ok t' /\ profile t' T' /\
    (forall f, 0 <= f -> f <= 1 -> T f <= T' f /\ T' f <= qmax h (st_inlet t)).
Proof. exact c24_heat. Qed.
Print Assumptions C24_heating_never_removes_heat.

(** The amount: the profile moves down by [v] gallons where [v] gallons heated from inlet to
    outlet temperature carry exactly the heater's output. *)
Theorem C24_heating_amount :
  forall t T0 k d h, st_wf t -> 0 < k -> st_inlet t < h -> profile (set_outlet t h) T0 ->
  exists t' T' v, st_heat t k d h = Ok t' /\ profile t' T' /\
    v * (rho_cp * (h - st_inlet t)) == k * 1000 * d / 60 /\
    forall f, 0 <= f -> T' f == T0 (f + v / st_vol t).
Proof. exact c24_heat_amount. Qed.
Print Assumptions C24_heating_amount.

(** Recirculation return never raises any temperature; the profile moves up by the volume whose
    heat equals the loop's loss. *)
Theorem C24_recirculation_never_adds_heat :
  forall t T fl r d s, st_wf t -> profile t T -> 0 <= fl * d ->
  r <= match s with Some x => x | None => st_outlet t end ->
  exists t' T' n, st_recirc t fl r d s = Ok t' /\ profile t' T' /\
    (forall f, T' f <= T f) /\
    (st_inlet t < st_outlet t ->
      n * (rho_cp * (st_outlet t - st_inlet t))
        == fl * d * rho_cp * (match s with Some x => x | None => st_outlet t end - r) /\
      forall f, T' f == T (f - n / st_vol t)).
Proof. exact c24_recirc. Qed.
Print Assumptions C24_recirculation_never_adds_heat.

(** A draw never raises any temperature as long as the top of the tank is at supply temperature. *)
Theorem C24_draw_never_adds_heat :
  forall t T v cold supply outlet, st_wf t -> profile t T ->
  cold <= st_inlet t -> outlet <= st_outlet t -> st_inlet t < supply -> supply <= T 1 ->
  exists t' T', st_draw t v cold supply outlet = Ok t' /\ profile t' T' /\ (forall f, T' f <= T f).
Proof. exact c24_draw. Qed.
Print Assumptions C24_draw_never_adds_heat.

Example C24_nonvacuous :
  st_wf ex_tank /\ 0 <= 15 /\ st_outlet ex_tank <= 150 /\ 50 <= st_inlet ex_tank /\
  st_inlet ex_tank < 120 /\ 120 <= tval ex_tank 1 /\ 110 <= st_outlet ex_tank.
Proof. repeat split; vm_compute; try reflexivity; discriminate. Qed.

(** Without that condition it is false: after enough recirculation loss, drawing one gallon
    makes the top of the tank hotter. *)
Theorem C24_draw_creates_heat_refuted :
  exists ops t t' x x', st_run (st_new 100 (14 # 5)) ops = Ok t /\
    st_draw t 1 50 120 150 = Ok t' /\ st_temp t 1 = Ok x /\ st_temp t' 1 = Ok x' /\ x == 50 /\ x' == 120.
Proof.
  exists [SInit 150 50 1; SRecirc 10 100 60 None].
  eexists. eexists. eexists. eexists.
  split; [vm_compute; reflexivity|]. split; [vm_compute; reflexivity|].
  split; [vm_compute; reflexivity|]. split; [vm_compute; reflexivity|].
  split; reflexivity.
Qed.
Print Assumptions C24_draw_creates_heat_refuted.
