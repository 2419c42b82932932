(** C62: simulation of multi-pass systems with the loop returning to the tank.  Vocabulary in S_MPRTP. *)
From Verif Require Import Prelude M_StratifiedTank M_EnergyTank S_EnergyTank L_EnergyTank L_Slug M_MixedTank L_MixedTank M_Building L_Building M_Heater S_Heater L_Heater
  M_Sizing M_SimRun S_SimRun L_SimRun M_Step S_Step L_Step L_Step2 M_MPRTP S_MPRTP L_MPRTP L_MPRTP3.
From Verif Require Import P_Step P_MPRTP.
Open Scope Q_scope.

Lemma plant_start lo b s s0 : mp_plant lo b s -> init_mp b s = Ok s0 -> mp_ready b lo s s0 /\ sl_active (ms_tank s0) = false.
Proof.
  intros P E. unfold init_mp in E. destruct (bind_ok _ _ _ E) as (di & Edi & E1). destruct (bind_ok _ _ _ E1) as (tk & Etk & E2). apply ok_inj in E2. subst s0.
  destruct (pl_start _ _ _ P _ Edi) as (L1 & L2). destruct (pl_tank _ _ _ P) as ((V1 & V2 & V3 & V4) & V5 & V6).
  set (t0 := mkSlug (mkEn (en_vol (sl_base (ms_tank s))) (sim_inlet di) (ms_storage s) (en_slope (sl_base (ms_tank s))) 0 (en_cold_pct (sl_base (ms_tank s))))
               (sl_supply (ms_tank s)) (sl_pu (ms_tank s)) (sl_max (ms_tank s)) false (sl_vol (ms_tank s)) (sl_temp (ms_tank s)) (sl_top (ms_tank s)) (sl_orig (ms_tank s))).
  assert (I0 : sl_inv lo (ms_storage s) t0).
  { unfold sl_inv, t0. cbn. split; [auto|]. split; [exact V5|]. split; [exact V6|]. split; [repeat split; lra|]. split; [lra|discriminate]. }
  destruct (sl_init_inv lo (ms_storage s) t0 (ms_storage s) (sim_inlet di) (initial_percent (ms_heaters s)) I0 (Qeq_refl _) L1 L2) as (t' & Et & I & G & A).
  assert (SAME : sl_initialize t0 (ms_storage s) (sim_inlet di) (initial_percent (ms_heaters s)) = sl_initialize (ms_tank s) (ms_storage s) (sim_inlet di) (initial_percent (ms_heaters s))) by reflexivity.
  rewrite SAME, Etk in Et. apply ok_inj in Et. subst t'. cbn [ms_tank ms_heaters]. split; [|exact A].
  split; [exact (pl_scheduled _ _ _ P)|]. split; [exact (pl_rated _ _ _ P)|]. split; [exact I|]. split; [exact G|]. repeat split.
Qed.

Lemma plant_run lo b s iv : mp_plant lo b s -> (0 < iv)%Z -> forall outs s1 i s2, mp_ready b lo s s1 -> executed (mp_step b) iv s1 i outs s2 ->
  mp_ready b lo s s2 /\ forall k o, nth_error outs k = Some o ->
    mp_possible b (ms_storage s) (sl_pu (ms_tank s) * en_vol (sl_base (ms_tank s))) (i + Z.of_nat k)%Z iv o.
Proof.
  intros P Piv outs s1 i s2 R E.
  refine (executed_forall (mp_step b) iv (mp_ready b lo s) (fun t o => mp_possible b (ms_storage s) (sl_pu (ms_tank s) * en_vol (sl_base (ms_tank s))) t iv o) _ outs s1 i s2 R E).
  clear - P Piv. intros s1 t s2 o R E.
  destruct (mp_step_cases lo s b s1 t iv (pl_complete _ _ _ P) R Piv (pl_load _ _ _ P) (pl_mains _ _ _ P) (pl_return _ _ _ P) (pl_supply _ _ _ P) (pl_flow _ _ _ P))
    as (d & inlet & hs & tk1 & top & _ & _ & _ & _ & _ & _ & [(_ & X)|(_ & s' & o' & dr & mv & X & Y & _ & Z & _)]); rewrite E in X; [discriminate|].
  apply ok_inj in X. apply pair_equal_spec in X. destruct X as [-> ->]. auto.
Qed.

(** However many steps a plant has been simulated, every step so far was possible. *)
Theorem C62_bounds : forall lo b s s0 iv outs s', mp_plant lo b s -> (0 < iv)%Z ->
  init_mp b s = Ok s0 -> executed (mp_step b) iv s0 0 outs s' ->
  forall i o, nth_error outs i = Some o ->
    mp_possible b (ms_storage s) (sl_pu (ms_tank s) * en_vol (sl_base (ms_tank s))) (Z.of_nat i) iv o.
Proof.
  intros lo b s s0 iv outs s' P Piv E X i o N.
  exact (proj2 (plant_run lo b s iv P Piv outs s0 0%Z s' (proj1 (plant_start lo b s s0 P E)) X) i o N).
Qed.
Print Assumptions C62_bounds.

(** And so is every step of a completed simulation. *)
Theorem C62_completed : forall lo b s dur thr maxm s' r, mp_plant lo b s ->
  simulate_mp b s dur thr maxm = Ok (s', r) ->
  exists s0 outs, init_mp b s = Ok s0 /\ executed (mp_step b) (sr_iv r) s0 0 outs s' /\ recorded outs r /\
    forall i o, nth_error outs i = Some o ->
      mp_possible b (ms_storage s) (sl_pu (ms_tank s) * en_vol (sl_base (ms_tank s))) (Z.of_nat i) (sr_iv r) o.
Proof.
  intros lo b s dur thr maxm s' r P H. unfold simulate_mp in H. destruct (bind_ok _ _ _ H) as (s0 & E0 & H1).
  destruct (simulate_inv _ _ _ _ _ _ _ _ _ H1) as (total & iv & outs & Et & Piv & Eiv & _ & _ & EX & RC & _).
  exists s0, outs. rewrite Eiv. split; [exact E0|]. split; [exact EX|]. split; [exact RC|].
  exact (C62_bounds lo b s s0 iv outs s' P Piv E0 EX).
Qed.
Print Assumptions C62_completed.

(** The next step, exactly.  The aquastats read the tank with today's mains below it; if any heater
    is on the slug is started (if it is not already there), if the last one went off it is ended;
    [top] is then the top temperature.  The step raises ZeroDivisionError when the mixing valve is
    undefined there, and otherwise succeeds; it reports [top] as the outdoor temperature, and as
    delivery temperature supply while heating and [top] otherwise.  What is drawn carries the heat
    of users and loop. *)
Theorem C62_step : forall lo b s s0 iv outs s1 t, mp_plant lo b s -> (0 < iv)%Z ->
  init_mp b s = Ok s0 -> executed (mp_step b) iv s0 0 outs s1 ->
  exists demand inlet hs tk top,
    bd_load b t iv false = Ok demand /\ bd_inlet b t iv = Ok inlet /\
    aquastats (ms_heaters s1) hs (sl_temp_at (sl_set_cold (ms_tank s1) inlet)) (hour_of t iv) /\
    mp_lifecycle (existsb wh_active (ms_heaters s1)) (existsb wh_active hs) (ms_supply s) (sl_set_cold (ms_tank s1) inlet) = Ok tk /\
    sl_temp_at tk 1 = Ok top /\ inlet <= top <= ms_storage s /\
    let bad := valve_undefined demand (ms_flow s * qz iv * (ms_supply s - ms_return s)) inlet (ms_supply s) top in
    (bad /\ mp_step b s1 t iv = Err ZeroDivisionError \/
     ~ bad /\ exists s2 o draw back, mp_step b s1 t iv = Ok (s2, o) /\ ms_heaters s2 = hs /\
       so_demand o = demand /\ so_inlet o = inlet /\ so_oat o = top /\
       so_delivery o = Some (if existsb wh_active hs then ms_supply s else top) /\
       inlet <= back <= ms_return s /\
       draw * (top - back) == heat_taken demand (ms_flow s * qz iv) inlet (ms_supply s) (ms_return s)).
Proof.
  intros lo b s s0 iv outs s1 t P Piv E X.
  destruct (plant_run lo b s iv P Piv outs s0 0%Z s1 (proj1 (plant_start lo b s s0 P E)) X) as [R _].
  destruct (mp_step_cases lo s b s1 t iv (pl_complete _ _ _ P) R Piv (pl_load _ _ _ P) (pl_mains _ _ _ P) (pl_return _ _ _ P) (pl_supply _ _ _ P) (pl_flow _ _ _ P))
    as (d & inlet & hs & tk1 & top & E1 & E2 & E3 & E4 & E5 & E6 & K).
  exists d, inlet, hs, tk1, top. split; [exact E1|]. split; [exact E2|]. split; [exact E3|]. split; [exact E4|]. split; [exact E5|]. split; [exact E6|]. cbv zeta.
  destruct K as [K|(N & s2 & o & dr & mv & S & _ & H & _ & D & I & O & DL & M & B)]; [left; exact K|right].
  split; [exact N|]. exists s2, o, dr, mv. split; [exact S|]. split; [exact H|]. split; [exact D|]. split; [exact I|]. split; [exact O|]. split; [exact DL|]. split; [exact B|].
  exact (C48_heat _ _ _ _ _ _ _ _ M).
Qed.
Print Assumptions C62_step.

(** So the only way a simulation of such a plant fails is that error. *)
Theorem C62_fails_only_there : forall lo b s dur thr maxm e, mp_plant lo b s -> known_duration dur ->
  simulate_mp b s dur thr maxm = Err e -> e = ZeroDivisionError.
Proof.
  intros lo b s dur thr maxm e P D H. unfold simulate_mp in H.
  destruct (init_mp b s) as [s0|e0] eqn:E0.
  2: { exfalso. unfold init_mp in E0. destruct (complete_answers b (pl_complete _ _ _ P) 0 1) as (_ & _ & _ & di & Edi). rewrite Edi in E0. cbn [bind] in E0.
       destruct (pl_tank _ _ _ P) as ((V1 & V2 & V3 & V4) & V5 & V6). destruct (pl_start _ _ _ P _ Edi) as (L1 & L2).
       set (t0 := mkSlug (mkEn (en_vol (sl_base (ms_tank s))) (sim_inlet di) (ms_storage s) (en_slope (sl_base (ms_tank s))) 0 (en_cold_pct (sl_base (ms_tank s))))
               (sl_supply (ms_tank s)) (sl_pu (ms_tank s)) (sl_max (ms_tank s)) false (sl_vol (ms_tank s)) (sl_temp (ms_tank s)) (sl_top (ms_tank s)) (sl_orig (ms_tank s))).
       assert (I0 : sl_inv lo (ms_storage s) t0).
       { unfold sl_inv, t0. cbn. split; [auto|]. split; [exact V5|]. split; [exact V6|]. split; [repeat split; lra|]. split; [lra|discriminate]. }
       destruct (sl_init_inv lo (ms_storage s) t0 (ms_storage s) (sim_inlet di) (initial_percent (ms_heaters s)) I0 (Qeq_refl _) L1 L2) as (t' & Et & _).
       assert (SAME : sl_initialize t0 (ms_storage s) (sim_inlet di) (initial_percent (ms_heaters s)) = sl_initialize (ms_tank s) (ms_storage s) (sim_inlet di) (initial_percent (ms_heaters s))) by reflexivity.
       rewrite SAME in Et. rewrite Et in E0. discriminate. }
  cbn [bind] in H. destruct (plant_start lo b s s0 P E0) as [R _].
  unfold simulate in H. assert (ST : exists a c, sim_times dur = Ok (a, c) /\ (0 < c)%Z) by (destruct D as [-> | ->]; eexists; eexists; split; reflexivity).
  destruct ST as (a & c & Est & Pc). rewrite Est in H. cbn [bind] in H.
  refine (sim_loop_err_only (mp_step b) (ms_supply s) (mp_ready b lo s) ZeroDivisionError c _ _ _ _ _ _ R _ _ H); [|reflexivity|reflexivity].
  intros s1 i R1.
  destruct (mp_step_cases lo s b s1 i c (pl_complete _ _ _ P) R1 Pc (pl_load _ _ _ P) (pl_mains _ _ _ P) (pl_return _ _ _ P) (pl_supply _ _ _ P) (pl_flow _ _ _ P))
    as (d & inlet & hs & tk1 & top & _ & _ & _ & _ & _ & _ & [(_ & X)|(_ & s' & o' & dr & mv & X & Y & _ & Z & _)]); [left; exact X|right].
  exists s', o'. split; [exact X|]. split; [exact Y|exact (mp_six _ _ _ _ _ _ Z)].
Qed.
Print Assumptions C62_fails_only_there.

(** A tank without heat (no slug in it): the next step raises, whatever the demand. *)
Theorem C62_drained_raises : forall lo b s s0 iv outs s1 t, mp_plant lo b s -> (0 < iv)%Z ->
  init_mp b s = Ok s0 -> executed (mp_step b) iv s0 0 outs s1 ->
  sl_active (ms_tank s1) = false -> en_energy (sl_base (ms_tank s1)) == 0 ->
  mp_step b s1 t iv = Err ZeroDivisionError.
Proof.
  intros lo b s s0 iv outs s1 t P Piv E X A N.
  destruct (plant_run lo b s iv P Piv outs s0 0%Z s1 (proj1 (plant_start lo b s s0 P E)) X) as [R _].
  destruct (mp_step_cases lo s b s1 t iv (pl_complete _ _ _ P) R Piv (pl_load _ _ _ P) (pl_mains _ _ _ P) (pl_return _ _ _ P) (pl_supply _ _ _ P) (pl_flow _ _ _ P))
    as (d & inlet & hs & tk1 & top & E1 & E2 & E3 & E4 & E5 & E6 & K).
  destruct K as [[_ K]|(NB & _)]; [exact K|exfalso]. apply NB. right. left.
  destruct (pl_mains _ _ _ P _ _ _ E2) as (M1 & M2 & M3). pose proof (pl_supply _ _ _ P) as M4.
  destruct R as (_ & _ & SI & _).
  destruct (sl_set_cold_inv _ _ _ inlet SI M1 ltac:(lra)) as (S0 & _).
  exact (sl_top_drained _ _ _ _ _ _ _ _ S0 A N (Qlt_le_weak _ _ M3) E4 E5).
Qed.
Print Assumptions C62_drained_raises.

(** The simulator starts with hot water down to the "on" aquastat.  An aquastat at the very top of
    the tank starts it without heat, and the simulation raises at its first step. *)
Theorem C62_top_sensor_refuted : forall lo b s h rest d c dur thr maxm, mp_plant lo b s -> known_duration dur ->
  ms_heaters s = h :: rest -> wh_map h = Some d -> dict_get d "normal"%string = Some c -> ct_on_sensor c == 1 ->
  simulate_mp b s dur thr maxm = Err ZeroDivisionError.
Proof.
  intros lo b s h rest d c dur thr maxm P D Hh Hm Hc H1.
  assert (PU : initial_percent (ms_heaters s) <= 0).
  { rewrite Hh. cbn [initial_percent]. rewrite Hm, Hc. apply qmax_lub; [lra|]. eapply Qle_trans; [apply qmin_r|]. lra. }
  destruct (complete_answers b (pl_complete _ _ _ P) 0 1) as (_ & _ & _ & di & Edi).
  destruct (sl_init_empty (ms_tank s) (ms_storage s) (sim_inlet di) (initial_percent (ms_heaters s)) PU) as (tk & Etk & A & N).
  assert (E0 : init_mp b s = Ok (mkMsys (ms_heaters s) tk (ms_supply s) (ms_storage s) (ms_return s) (ms_flow s))).
  { unfold init_mp. rewrite Edi. cbn [bind]. rewrite Etk. reflexivity. }
  unfold simulate_mp. rewrite E0. cbn [bind]. apply simulate_first_err; [exact D|]. intros iv Piv.
  exact (C62_drained_raises lo b s _ iv [] _ 0%Z P Piv E0 eq_refl A N).
Qed.
Print Assumptions C62_top_sensor_refuted.

(** A concrete plant: office, 300 gal tank, 120 F supply, 150 F storage, loop back at 110 F. *)
Definition ex_mp (cap : Q) : msys := mkMsys [ex_heater cap] (sl_new 300 50 150 120 (9 # 10) 1) 120 150 110 3.

Lemma ex_plant cap : 0 <= cap -> mp_plant 50 ex_building (ex_mp cap).
Proof.
  intro P. constructor.
  - exact ex_complete.
  - constructor; [apply ex_scheduled|constructor].
  - constructor; [|constructor]. intros t iv oat outlet _. eexists _, _. split; [reflexivity|]. split; [|reflexivity]. intros x E. injection E as <-. exact P.
  - repeat split; cbn; lra.
  - intros t iv x Piv E. apply (daily_nonneg ex_building false t iv x); [discriminate| |lia|exact E]. intros y I. apply (repeat_spec 24) in I. subst y. discriminate.
  - intros t iv x E. cbn in E. apply ok_inj in E. subst x. cbn. repeat split; lra.
  - intros di E. injection E as <-. cbn. split; lra.
  - cbn. lra.
  - cbn. lra.
  - cbn. lra.
Qed.

(** A minute of it runs: the top is at storage temperature, and there is usable water. *)
Example C62_case : exists s0 o s', init_mp ex_building (ex_mp 50) = Ok s0 /\ executed (mp_step ex_building) 1 s0 0 [o] s' /\
  120 < so_oat o /\ 0 < so_demand o /\ 0 < so_usable o.
Proof.
  assert (C : match init_mp ex_building (ex_mp 50) with
              | Ok s0 => match mp_step ex_building s0 0 1 with
                         | Ok (_, o) => (qltb 120 (so_oat o) && (qltb 0 (so_demand o) && qltb 0 (so_usable o)))%bool
                         | Err _ => false end
              | Err _ => false end = true) by (vm_compute; reflexivity).
  destruct (init_mp ex_building (ex_mp 50)) as [s0|e]; [|discriminate].
  destruct (mp_step ex_building s0 0 1) as [[s1 o]|e] eqn:E1; [|discriminate].
  apply andb_prop in C. destruct C as [C1 C]. apply andb_prop in C. destruct C as [C2 C3]. apply qltb_true in C1, C2, C3.
  exists s0, o, s1. split; [reflexivity|]. split; [exists s1; split; [exact E1|reflexivity]|]. auto.
Qed.

(** A plant that satisfies every hypothesis, with a quart tank and a heater that comes on: the first
    minute runs, the second raises.  The slug fills the tank and is exactly as cold as the mains. *)
Theorem C62_completes_refuted : exists b s s0 o s1, mp_plant 50 b s /\ init_mp b s = Ok s0 /\
  executed (mp_step b) 1 s0 0 [o] s1 /\ 0 < so_output o /\ mp_step b s1 1 1 = Err ZeroDivisionError.
Proof.
  set (s := mkMsys [ex_heater 50] (sl_new (1 # 4) 50 150 120 (9 # 10) 1) 120 150 110 1).
  assert (C : match init_mp ex_building s with
              | Ok s0 => match mp_step ex_building s0 0 1 with
                         | Ok (s1, o) => (qltb 0 (so_output o) &&
                                 match mp_step ex_building s1 1 1 with Err ZeroDivisionError => true | _ => false end)%bool
                         | Err _ => false end
              | Err _ => false end = true) by (vm_compute; reflexivity).
  exists ex_building, s.
  destruct (init_mp ex_building s) as [s0|e]; [|discriminate].
  destruct (mp_step ex_building s0 0 1) as [[s1 o]|e] eqn:E1; [|discriminate].
  apply andb_prop in C. destruct C as [C1 C]. apply qltb_true in C1.
  exists s0, o, s1. split.
  { pose proof (ex_plant 50 ltac:(lra)) as [A B F D E K G H I J]. constructor; try assumption; try (cbn; lra). repeat split; cbn; lra. }
  split; [reflexivity|]. split; [exists s1; split; [exact E1|reflexivity]|].
  split; [exact C1|]. destruct (mp_step ex_building s1 1 1) as [x|[]]; try discriminate. reflexivity.
Qed.
Print Assumptions C62_completes_refuted.

(** The reported outdoor temperature is not the building's. *)
Theorem C62_oat_refuted : exists b s s0 o s', mp_plant 50 b s /\ init_mp b s = Ok s0 /\ mp_step b s0 0 1 = Ok (s', o) /\
  bd_oat b 0 1 = Ok 40 /\ 120 < so_oat o.
Proof.
  destruct C62_case as (s0 & o1 & s' & E0 & (s1 & E1 & _) & H & _).
  exists ex_building, (ex_mp 50), s0, o1, s1. split; [apply ex_plant; lra|]. auto.
Qed.
Print Assumptions C62_oat_refuted.

(** The aquastat at the top: a plant that meets the hypotheses of [C62_top_sensor_refuted]. *)
Example C62_top_sensor_case : exists b s h d c, mp_plant 50 b s /\ ms_heaters s = [h] /\ wh_map h = Some d /\ dict_get d "normal"%string = Some c /\ ct_on_sensor c == 1.
Proof.
  set (c := mkControls 1 120 (2 # 10) 130 150).
  set (h := wh_new (Some (PmNominal 50)) (Some (repeat "normal"%string 24)) (Some [("normal"%string, c)])).
  exists ex_building, (mkMsys [h] (sl_new 300 50 150 120 (9 # 10) 1) 120 150 110 3), h, [("normal"%string, c)], c.
  split; [|repeat split].
  pose proof (ex_plant 50 ltac:(lra)) as [A B C D E F G H I J]. constructor; try assumption.
  - constructor; [|constructor]. exists (repeat "normal"%string 24), [("normal"%string, c)]. split; [reflexivity|]. split; [reflexivity|]. split; [cbn; lia|].
    intros k K. apply repeat_spec in K. subst k. exists c. reflexivity.
  - constructor; [|constructor]. intros t iv oat out _. exists (Some 50), None. split; [reflexivity|]. split; [|reflexivity]. intros q K. injection K as <-. discriminate.
Qed.
