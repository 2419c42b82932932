(** Property C90: what a heating cycle of the slug overlay does to the heat in the tank.
    Theorems only; vocabulary in S_EnergyTank, S_Integral and S_SlugCycle. *)
From Verif Require Import Prelude S_Integral M_StratifiedTank M_EnergyTank S_EnergyTank L_EnergyTank L_Slug M_Building M_Heater S_Heater M_Sizing M_SimRun S_SimRun M_Step S_Step M_MPRTP S_MPRTP
  S_SlugCycle L_SlugCycle L_SlugCycle2 L_SlugCycle3.
From Verif Require Import P_Step P_MPRTP P_MPRTP2.
From Coq Require Import Permutation.
Open Scope Q_scope.

(** From any reachable tank that holds at most its full energy, a cycle - activation at any supply
    temperature that leaves some water in the slug, then any sequence of draws and heater runs that
    does not draw more than the water above the slug, then deactivation - changes the stored energy
    by exactly what came in and went out: the heater's output, plus the inlet water's heat, less the
    heat of the drawn water, which is the integral of the profile reported before the cycle over the
    drawn top of the tank.  Only the tolerance of the profile search is left over, once. *)
Theorem C90_cycle_keeps_the_heat : forall lo h t T sup ops t1,
  sl_reachable lo h t -> sl_active t = false -> en_energy (sl_base t) <= en_full (sl_base t) ->
  en_profile (sl_base t) T -> sl_activate t sup = Ok t1 -> 0 < sl_vol t1 ->
  Forall (cycle_call (en_cold (sl_base t)) h) ops -> drawn_gal ops <= sl_max t1 - sl_vol t1 ->
  exists t' I, sl_run t (LActivate sup :: ops ++ [LDeactivate]) = Ok t' /\ sl_active t' = false /\
    is_integral T (1 - drawn_gal ops / en_vol (sl_base t)) 1 I /\
    Qabs (en_energy (sl_base t') -
      (en_energy (sl_base t) + heated_btu ops + rho_cp * entered_gal_f ops - rho_cp * (en_vol (sl_base t) * I)))
      <= en_tol (sl_base t).
Proof. exact cyc_balance. Qed.
Print Assumptions C90_cycle_keeps_the_heat.

(** A cycle's heater runs act in any order with its draws: two cycles that draw, let in and heat
    the same amounts in another order end with the same stored energy. *)
Theorem C90_order_does_not_matter : forall lo h t T sup ops1 ops2 t1,
  sl_reachable lo h t -> sl_active t = false -> en_energy (sl_base t) <= en_full (sl_base t) ->
  en_profile (sl_base t) T -> sl_activate t sup = Ok t1 -> 0 < sl_vol t1 ->
  Permutation ops1 ops2 ->
  Forall (cycle_call (en_cold (sl_base t)) h) ops1 -> drawn_gal ops1 <= sl_max t1 - sl_vol t1 ->
  exists a b, sl_run t (LActivate sup :: ops1 ++ [LDeactivate]) = Ok a /\
    sl_run t (LActivate sup :: ops2 ++ [LDeactivate]) = Ok b /\
    en_energy (sl_base a) == en_energy (sl_base b).
Proof. exact cyc_order. Qed.
Print Assumptions C90_order_does_not_matter.

Definition ex_idle : res slug := sl_run (sl_new 100 50 140 120 (9 # 10) 4) [LInit 140 50 (1 # 2)].

(** A cycle that meets the hypotheses: a half-full tank, two draws and two heater runs. *)
Example C90_case : exists t t1,
  ex_idle = Ok t /\ sl_reachable 40 140 t /\ sl_active t = false /\ en_energy (sl_base t) <= en_full (sl_base t) /\
  sl_activate t 120 = Ok t1 /\ 0 < sl_vol t1 /\
  (let ops := [LHeat 40 10; LDrawPhysical 5 50 true; LHeat 40 10; LDrawPhysical 3 55 false] in
   Forall (cycle_call (en_cold (sl_base t)) 140) ops /\ drawn_gal ops <= sl_max t1 - sl_vol t1 /\
   heated_btu ops == 40000 / 3 /\ entered_gal_f ops == 415).
Proof.
  eexists. eexists. split; [vm_compute; reflexivity|]. split.
  { exists 100, 50, 120, (9 # 10), 4, [LInit 140 50 (1 # 2)].
    split; [repeat split; vm_compute; try reflexivity; discriminate|].
    split; [vm_compute; discriminate|]. split; [reflexivity|].
    split; [repeat constructor; vm_compute; try reflexivity; discriminate|]. vm_compute. reflexivity. }
  split; [reflexivity|]. split; [vm_compute; discriminate|]. split; [vm_compute; reflexivity|]. split; [reflexivity|].
  cbv zeta. split; [repeat constructor; vm_compute; try reflexivity; discriminate|].
  split; [vm_compute; discriminate|]. split; reflexivity.
Qed.

(** The heater's output is lost when the slug is empty: activated on a full tank, the slug holds
    no water, and ten minutes at 60 kBTU/h leave the stored energy where it was. *)
Definition ex_full : res slug := sl_run (sl_new 100 50 140 120 (9 # 10) 4) [LInit 140 50 1].
Theorem C90_empty_slug_drops_heat_refuted : exists t t',
  ex_full = Ok t /\ sl_active t = false /\
  sl_run t (LActivate 120 :: [LHeat 60 10] ++ [LDeactivate]) = Ok t' /\
  heated_btu [LHeat 60 10] == 10000 /\ en_energy (sl_base t') - en_energy (sl_base t) < 1.
Proof.
  eexists. eexists. split; [vm_compute; reflexivity|]. split; [reflexivity|].
  split; [vm_compute; reflexivity|]. split; [reflexivity|]. vm_compute. reflexivity.
Qed.
Print Assumptions C90_empty_slug_drops_heat_refuted.

(** A simulated step of a multi-pass plant, in any state a simulation reaches.  [e] is the heat in
    the tank before the step (with today's mains below it), [e'] after it, any slug counted as if
    mixed back.  The tank does not lose more than the heat of the drawn water at the hottest
    temperature in the tank (less what comes back), and does not gain more than the heater's output
    and the heat of the returning water.  The heater's output counts only if the slug holds water.
    The draw is the one that carries the heat of users and loop at the reported top temperature. *)
Theorem C90_simulated_step : forall lo b s s0 iv outs s1 t s2 o, mp_plant lo b s -> (0 < iv)%Z ->
  init_mp b s = Ok s0 -> executed (mp_step b) iv s0 0 outs s1 -> mp_step b s1 t iv = Ok (s2, o) ->
  let tk := sl_set_cold (ms_tank s1) (so_inlet o) in
  (sl_active tk = false -> en_energy (sl_base tk) <= en_full (sl_base tk)) ->
  (sl_active tk = true -> so_inlet o <= sl_temp tk) ->
  exists tk1 e e' draw back,
    let on := existsb wh_active (ms_heaters s2) in
    let heat := if (on && qltb 0 (sl_vol tk1))%bool then so_output o * 1000 * (qz iv / 60) else 0 in
    let hot := if sl_active tk1 then qmax (so_oat o) (sl_temp tk1 + heat / (rho_cp * sl_vol tk1)) else so_oat o in
    mp_lifecycle (existsb wh_active (ms_heaters s1)) on (ms_supply s) tk = Ok tk1 /\
    held tk e /\ held (ms_tank s2) e' /\ 0 < draw /\ so_inlet o <= back <= ms_return s /\
    draw * (so_oat o - back) == heat_taken (so_demand o) (ms_flow s * qz iv) (so_inlet o) (ms_supply s) (ms_return s) /\
    e + heat - rho_cp * draw * (hot - back) - en_tol (sl_base tk) <= e' /\
    e' <= e + heat + rho_cp * draw * (back - so_inlet o) + en_tol (sl_base tk).
Proof.
  intros lo b s s0 iv outs s1 t s2 o P Piv E X ST.
  destruct (plant_run lo b s iv P Piv outs s0 0%Z s1 (proj1 (plant_start lo b s s0 P E)) X) as [R _].
  exact (mp_step_held lo s b s1 t iv s2 o P R Piv ST).
Qed.
Print Assumptions C90_simulated_step.

(** Its hypotheses are met: the first minute of the example plant. *)
Example C90_step_case : exists s0 s2 o, init_mp ex_building (ex_mp 50) = Ok s0 /\ executed (mp_step ex_building) 1 s0 0 [] s0 /\
  mp_step ex_building s0 0 1 = Ok (s2, o) /\
  let tk := sl_set_cold (ms_tank s0) (so_inlet o) in
  sl_active tk = false /\ en_energy (sl_base tk) <= en_full (sl_base tk).
Proof.
  destruct (init_mp ex_building (ex_mp 50)) as [s0|e] eqn:E0; [|vm_compute in E0; discriminate].
  assert (C : match init_mp ex_building (ex_mp 50) with
              | Ok s0 => match mp_step ex_building s0 0 1 with
                         | Ok (_, o) => let tk := sl_set_cold (ms_tank s0) (so_inlet o) in
                               (negb (sl_active tk) && Qle_bool (en_energy (sl_base tk)) (en_full (sl_base tk)))%bool
                         | Err _ => false end
              | Err _ => false end = true) by (vm_compute; reflexivity).
  rewrite E0 in C. destruct (mp_step ex_building s0 0 1) as [[s2 o]|e] eqn:E1; [|discriminate].
  exists s0, s2, o. split; [reflexivity|]. split; [reflexivity|]. split; [exact E1|]. cbv zeta in *.
  apply andb_prop in C. destruct C as [C1 C2]. split; [destruct (sl_active _); [discriminate|reflexivity]|].
  apply Qle_bool_iff. exact C2.
Qed.

(** Reported output need not reach the water: storage at 180 F, supply at 120 F, the "on"
    aquastat set to 145 F at 9 percent of the height, just below the inlet.  In the first minute the heater runs at 50 kBTU/h, but all stored water is hotter than
    supply, so the slug is empty and nothing is heated. *)
Definition ex_hot_heater : heater :=
  wh_new (Some (PmNominal 50)) (Some (repeat "normal"%string 24)) (Some [("normal"%string, mkControls (9 # 100) 145 (5 # 10) 170 180)]).
Definition ex_hot_plant : msys := mkMsys [ex_hot_heater] (sl_new 300 50 180 120 (9 # 10) 1) 120 180 110 3.
Theorem C90_reported_output_refuted : exists s0 s2 o tk1, mp_plant 50 ex_building ex_hot_plant /\
  init_mp ex_building ex_hot_plant = Ok s0 /\ mp_step ex_building s0 0 1 = Ok (s2, o) /\
  mp_lifecycle (existsb wh_active (ms_heaters s0)) (existsb wh_active (ms_heaters s2)) 120 (sl_set_cold (ms_tank s0) (so_inlet o)) = Ok tk1 /\
  existsb wh_active (ms_heaters s2) = true /\ so_output o == 50 /\ sl_vol tk1 <= 0.
Proof.
  assert (C : match init_mp ex_building ex_hot_plant with
              | Ok s0 => match mp_step ex_building s0 0 1 with
                         | Ok (s2, o) =>
                           match mp_lifecycle (existsb wh_active (ms_heaters s0)) (existsb wh_active (ms_heaters s2)) 120 (sl_set_cold (ms_tank s0) (so_inlet o)) with
                           | Ok tk1 => (existsb wh_active (ms_heaters s2) && (Qeq_bool (so_output o) 50 && Qle_bool (sl_vol tk1) 0))%bool
                           | Err _ => false end
                         | Err _ => false end
              | Err _ => false end = true) by (vm_compute; reflexivity).
  destruct (init_mp ex_building ex_hot_plant) as [s0|e]; [|discriminate].
  destruct (mp_step ex_building s0 0 1) as [[s2 o]|e] eqn:E1; [|discriminate].
  destruct (mp_lifecycle _ _ 120 _) as [tk1|e] eqn:E2; [|discriminate].
  apply andb_prop in C. destruct C as [C1 C]. apply andb_prop in C. destruct C as [C2 C3].
  exists s0, s2, o, tk1. split.
  { pose proof (ex_plant 50 ltac:(lra)) as [A B F D E K G H I J]. constructor; try assumption; try (cbn; lra).
    - constructor; [|constructor]. exists (repeat "normal"%string 24), [("normal"%string, mkControls (9 # 100) 145 (5 # 10) 170 180)].
      split; [reflexivity|]. split; [reflexivity|]. split; [cbn; lia|].
      intros k Hk. apply repeat_spec in Hk. subst k. eexists. reflexivity.
    - constructor; [|constructor]. intros t iv oat out _. eexists _, _. split; [reflexivity|]. split; [|reflexivity]. intros q K0. injection K0 as <-. discriminate.
    - intros di Ed. injection Ed as <-. cbn. split; lra. }
  split; [reflexivity|]. split; [exact E1|]. split; [exact E2|]. split; [exact C1|]. split; [apply Qeq_bool_iff; exact C2|apply Qle_bool_iff; exact C3].
Qed.
Print Assumptions C90_reported_output_refuted.
