(** C65: what a simulation started from an engine reports, and when it completes; C66: running one again. *)
From Verif Require Import Prelude M_StratifiedTank M_MixedTank M_EnergyTank M_Building L_Building M_Heater S_Heater L_Heater
  M_Sizing L_Sizing3 M_SimRun S_SimRun L_SimRun M_Step S_Step L_Step L_Step2 L_Step3 L_Step4 L_Step5 L_Step6 M_Swing M_MPRTP S_MPRTP L_MPRTP2
  M_Engine S_Engine S_EngineRun L_Engine L_Engine2 L_Engine4 L_Engine5 L_Engine6 L_Engine7 P_Step P_Step2 P_Step3 P_Step4 P_MPRTP2 P_Engine P_Engine5.
Open Scope Q_scope.

(** ** C65 Simulations of an engine *)

(** The engine runs its own system, with the loop it was given, in its own building, with the stop rule
    asked for; so all that C47, C55 and C59-C62 say of those simulations holds of it. *)
Theorem C65_runs_its_system : forall dt p e dur thr maxm e' r, eng_new dt p = Ok e ->
  eng_simulate e dur thr maxm = Ok (e', r) ->
  en_building e' = en_building e /\
  let b := en_building e in
  match en_system e with
  | EPrimary d s => exists s', simulate_base b s dur thr maxm = Ok (s', r) /\ en_system e' = EPrimary d s'
  | EParallel l s => exists s', simulate_parallel b s dur thr maxm = Ok (s', r) /\ en_system e' = EParallel l s'
  | ESwing w s => exists s', simulate_swing b s dur thr maxm = Ok (s', r) /\ en_system e' = ESwing w s'
  | ESprtp d _ _ s => exists ret flow s', ep_return p = Some ret /\ ep_flow p = Some flow /\
      simulate_sprtp ret flow b s dur thr maxm = Ok (s', r) /\ en_system e' = ESprtp d ret flow s'
  | EMprtp x => exists s', simulate_mp b (mb_sys x) dur thr maxm = Ok (s', r) /\ en_system e' = EMprtp (mkBuilt (mb_dhw x) s')
  | EInstant d => exists d', simulate_instant b d dur thr maxm = Ok (d', r) /\ en_system e' = EInstant d'
  end.
Proof.
  intros dt p e dur thr maxm e' r H HS. destruct (engine_assembled _ _ _ H) as (hs & vol & A). unfold eng_simulate in HS. cbv zeta.
  destruct (en_system e) as [d s|l s|w s|d ret flow s|x|d] eqn:ES; destruct (bind_ok _ _ _ HS) as ([s' r'] & E & H1); apply ok_inj in H1; apply pair_equal_spec in H1; destruct H1 as [<- <-];
    (split; [reflexivity|]); cbn [en_system fst snd]; try (exists s'; split; [exact E|reflexivity]).
  destruct A as (_ & A1 & A2 & _). exists ret, flow, s'. auto.
Qed.
Print Assumptions C65_runs_its_system.

(** It reports exactly the executed steps; judges delivery by the supply temperature asked for and the
    stop rule given; only swing tanks report delivery from the second tank. *)
Theorem C65_reported : forall dt p e dur thr maxm e' r, eng_new dt p = Ok e ->
  eng_simulate e dur thr maxm = Ok (e', r) ->
  exists total iv outs, lasts dur total iv /\ reported (ep_supply p) thr maxm total iv outs r /\
    (sr_show_tm r = true <-> type_of (en_system e) = SwingTank) /\
    (stratified (type_of (en_system e)) -> forall vol, primary_volume (en_system e) = Some vol -> 0 < vol ->
       forall i o, nth_error outs i = Some o ->
         physical_step (en_building e) (primary_heaters (en_system e)) (ep_storage p) vol (Z.of_nat i) iv o).
Proof.
  intros dt p e dur thr maxm e' r H HS. destruct (engine_assembled _ _ _ H) as (hs & vol0 & A).
  destruct (assembled_parts _ _ _ _ _ A) as (T & _). destruct (C65_runs_its_system _ _ _ _ _ _ _ _ H HS) as (_ & K). cbv zeta in K.
  destruct (en_system e) as [d s|l s|w s|d ret flow s|x|d] eqn:ES; cbn [temperatures type_of primary_volume primary_heaters] in *.
  - destruct K as (s' & E & _). unfold simulate_base in E. destruct (bind_ok _ _ _ E) as (s0 & E0 & E1). apply pair_equal_spec in T. destruct T as [T1 T2]. rewrite T1 in E1.
    destruct (simulate_reported _ _ _ _ _ _ _ _ _ E1) as (total & iv & outs & LA & _ & EX & RP & TM). exists total, iv, outs. split; [exact LA|]. split; [exact RP|].
    split; [rewrite TM; split; discriminate|]. intros _ vol V1 V2. destruct A as (_ & A). rewrite A in V1. injection V1 as ->. rewrite <- T2.
    refine (base_run_physical _ _ _ (st_new vol (28 # 10)) _ _ _ _ V2 _ E0 EX); [rewrite A; reflexivity|reflexivity].
  - destruct K as (s' & E & _). unfold simulate_parallel in E. destruct (bind_ok _ _ _ E) as (s0 & E0 & E1). apply pair_equal_spec in T. destruct T as [T1 T2]. rewrite T1 in E1.
    destruct (simulate_reported _ _ _ _ _ _ _ _ _ E1) as (total & iv & outs & LA & _ & EX & RP & TM). exists total, iv, outs. split; [exact LA|]. split; [exact RP|].
    split; [rewrite TM; split; discriminate|]. intros _ vol V1 V2. destruct A as (_ & r0 & f & _ & _ & A & _). rewrite A in V1. injection V1 as ->. rewrite <- T2.
    refine (parallel_run_physical _ _ _ (st_new vol (28 # 10)) _ _ _ _ V2 _ E0 EX); [rewrite A; reflexivity|reflexivity].
  - destruct K as (s' & E & _). unfold simulate_swing in E. destruct (bind_ok _ _ _ E) as (s0 & E0 & E1). apply pair_equal_spec in T. destruct T as [T1 T2]. rewrite T1 in E1.
    destruct (simulate_reported _ _ _ _ _ _ _ _ _ E1) as (total & iv & outs & LA & _ & EX & RP & TM). exists total, iv, outs. split; [exact LA|]. split; [exact RP|].
    split; [rewrite TM; split; reflexivity|]. intros _ vol V1 V2. injection V1 as <-. rewrite <- T2.
    refine (swing_run_physical _ _ _ _ _ _ V2 _ E0 EX). destruct A as (_ & r0 & f & tv & tc & _ & _ & ->). reflexivity.
  - destruct K as (r0 & f0 & s' & _ & _ & E & _). unfold simulate_sprtp in E. destruct (bind_ok _ _ _ E) as (s0 & E0 & E1). apply pair_equal_spec in T. destruct T as [T1 T2]. rewrite T1 in E1.
    destruct (simulate_reported _ _ _ _ _ _ _ _ _ E1) as (total & iv & outs & LA & _ & EX & RP & TM). exists total, iv, outs. split; [exact LA|]. split; [exact RP|].
    split; [rewrite TM; split; discriminate|]. intros _ vol V1 V2. destruct A as (_ & _ & _ & A). rewrite A in V1. injection V1 as ->. rewrite <- T2.
    refine (sprtp_run_physical _ _ _ _ _ (st_new vol (17 # 10)) _ _ _ _ V2 _ E0 EX); [rewrite A; reflexivity|reflexivity].
  - destruct K as (s' & E & _). unfold simulate_mp in E. destruct (bind_ok _ _ _ E) as (s0 & E0 & E1). apply pair_equal_spec in T. destruct T as [T1 T2]. rewrite T1 in E1.
    destruct (simulate_reported _ _ _ _ _ _ _ _ _ E1) as (total & iv & outs & LA & _ & EX & RP & TM). exists total, iv, outs. split; [exact LA|]. split; [exact RP|].
    split; [rewrite TM; split; discriminate|]. intros [S|[S|[S|S]]]; discriminate.
  - destruct K as (s' & E & _). unfold simulate_instant in E. destruct (bind_ok _ _ _ E) as (s0 & E0 & E1). apply pair_equal_spec in T. destruct T as [T1 T2]. rewrite T1 in E1.
    destruct (simulate_reported _ _ _ _ _ _ _ _ _ E1) as (total & iv & outs & LA & _ & EX & RP & TM). exists total, iv, outs. split; [exact LA|]. split; [exact RP|].
    split; [rewrite TM; split; discriminate|]. intros [S|[S|[S|S]]]; discriminate.
Qed.
Print Assumptions C65_reported.

(** A simulation changes nothing of the engine but tank contents and heaters being on or off. *)
Theorem C65_same_plant : forall e dur thr maxm e' r, eng_simulate e dur thr maxm = Ok (e', r) -> same_plant e e'.
Proof.
  intros e dur thr maxm e' r H. unfold eng_simulate in H. destruct e as [b sys]. cbn [en_building en_system] in H.
  destruct sys as [d s|l s|w s|d ret flow s|x|d]; destruct (bind_ok _ _ _ H) as ([s' r'] & E & H1); clear H; apply ok_inj in H1; apply pair_equal_spec in H1; destruct H1 as [<- _].
  - unfold simulate_base in E. destruct (bind_ok _ _ _ E) as (s0 & E0 & E1). destruct (simulate_reported _ _ _ _ _ _ _ _ _ E1) as (total & iv & outs & _ & _ & EX & _).
    destruct (init_base_like _ _ _ E0) as [L0 _].
    pose proof (executed_like base_like (base_step b) iv base_like_refl base_like_trans (fun a t a' o => base_step_like b a t iv a' o) _ _ _ _ EX) as L1.
    destruct (base_like_trans _ _ _ L0 L1) as (F & S1 & S2 & D). cbn [fst].
    constructor; cbn; try reflexivity; [congruence| |exact F].
    destruct (bs_tank s) as [t|], (bs_tank s') as [t'|]; cbn in D; try discriminate; [|reflexivity]. injection D. intros. congruence.
  - unfold simulate_parallel in E. destruct (bind_ok _ _ _ E) as (s0 & E0 & E1). destruct (simulate_reported _ _ _ _ _ _ _ _ _ E1) as (total & iv & outs & _ & _ & EX & _).
    pose proof (executed_like par_like (parallel_step b) iv par_like_refl par_like_trans (fun a t a' o => parallel_step_like b a t iv a' o) _ _ _ _ EX) as L1.
    destruct (par_like_trans _ _ _ (init_parallel_like _ _ _ E0) L1) as ((F & S1 & S2 & D) & P & SH). cbn [fst]. injection P as P1 P2 P3 P4 P5 P6.
    constructor; cbn; try reflexivity; [congruence|congruence| |exact F|split; [congruence|exact SH]].
    destruct (bs_tank (ps_base s)) as [t|], (bs_tank (ps_base s')) as [t'|]; cbn in D; try discriminate; [|reflexivity]. injection D. intros. congruence.
  - unfold simulate_swing in E. destruct (bind_ok _ _ _ E) as (s0 & E0 & E1). destruct (simulate_reported _ _ _ _ _ _ _ _ _ E1) as (total & iv & outs & _ & _ & EX & _).
    pose proof (executed_like swing_like (swing_sim_step b) iv swing_like_refl swing_like_trans (fun a t a' o => swing_step_like b a t iv a' o) _ _ _ _ EX) as L1.
    destruct (swing_like_trans _ _ _ (init_swing_like _ _ _ E0) L1) as (F & P & SH). cbn [fst]. injection P as P1 P2 P3 P4 P5 P6 P7.
    constructor; cbn; try reflexivity; [congruence|congruence|congruence|exact F|split; [congruence|exact SH]].
  - unfold simulate_sprtp in E. destruct (bind_ok _ _ _ E) as (s0 & E0 & E1). destruct (simulate_reported _ _ _ _ _ _ _ _ _ E1) as (total & iv & outs & _ & _ & EX & _).
    destruct (init_base_like _ _ _ E0) as [L0 _].
    pose proof (executed_like base_like (sprtp_step ret flow b) iv base_like_refl base_like_trans (fun a t a' o => sprtp_step_like ret flow b a t iv a' o) _ _ _ _ EX) as L1.
    destruct (base_like_trans _ _ _ L0 L1) as (F & S1 & S2 & D). cbn [fst].
    constructor; cbn; try reflexivity; [congruence| |exact F].
    destruct (bs_tank s) as [t|], (bs_tank s') as [t'|]; cbn in D; try discriminate; [|reflexivity]. injection D. intros. congruence.
  - unfold simulate_mp in E. destruct (bind_ok _ _ _ E) as (s0 & E0 & E1). destruct (simulate_reported _ _ _ _ _ _ _ _ _ E1) as (total & iv & outs & _ & _ & EX & _).
    pose proof (executed_like mp_like (mp_step b) iv mp_like_refl mp_like_trans (fun a t a' o => mp_step_like b a t iv a' o) _ _ _ _ EX) as L1.
    destruct (mp_like_trans _ _ _ (init_mp_like _ _ _ E0) L1) as (F & P). cbn [fst]. injection P. intros.
    constructor; cbn; try reflexivity; [congruence|congruence|congruence|exact F].
  - unfold simulate_instant in E. destruct (bind_ok _ _ _ E) as (s0 & E0 & E1). destruct (simulate_reported _ _ _ _ _ _ _ _ _ E1) as (total & iv & outs & _ & _ & EX & _).
    assert (ED : s' = d).
    { refine (executed_like (fun a a' => a' = a) (instant_step b) iv _ _ _ _ _ _ _ EX); [reflexivity|congruence|].
      intros a t a' o ST. unfold instant_step in ST. cbv zeta in ST. opn ST; congruence. }
    subst s'. constructor; cbn; try reflexivity; constructor.
Qed.
Print Assumptions C65_same_plant.

(** With weather and load for every hour, a working tank, and heaters that can be queried, every
    three-day and annual simulation of a non-multi-pass engine completes. *)
Theorem C65_completes : forall dt p e dur thr maxm, eng_new dt p = Ok e -> load_up_configured p ->
  complete (en_building e) -> dur = "3day"%string \/ dur = "annual"%string ->
  type_of (en_system e) <> MultiPassRTP ->
  (type_of (en_system e) <> InstantWH -> exists vol, primary_volume (en_system e) = Some vol /\ 0 < vol) ->
  Forall rated (primary_heaters (en_system e)) ->
  (forall v h, second_tank (en_system e) = Some (v, h) -> 0 < v /\ rated h) ->
  (type_of (en_system e) = SwingTank -> forall t iv x, bd_inlet (en_building e) t iv = Ok x -> x <= ep_supply p) ->
  (type_of (en_system e) = InstantWH -> ~ ep_defrost p == 0) ->
  exists e' r, eng_simulate e dur thr maxm = Ok (e', r).
Proof.
  intros dt p e dur thr maxm H LU CB D NM VOL FR TM SW IN.
  assert (FS : Forall scheduled (primary_heaters (en_system e))) by (apply Forall_forall; intros h I; exact (C51_labelled _ _ _ _ H I LU)).
  destruct (engine_assembled _ _ _ H) as (hs & vol0 & A).
  unfold eng_simulate. destruct (en_system e) as [d s|l s|w s|d ret flow s|x|d] eqn:ES; cbn [type_of primary_volume primary_heaters second_tank] in *.
  - destruct VOL as (vol & V1 & V2); [discriminate|]. destruct A as (_ & A). destruct (bs_tank s) as [tk|] eqn:ET; [|discriminate]. injection V1 as <-.
    assert (SL : 0 < st_slope tk) by (rewrite A in ET; injection ET as <-; reflexivity).
    destruct (base_completes (en_building e) s dur thr maxm CB) as (s' & r & E); [split; [exact FS|]; split; [exact FR|]; exists tk; split; [exact ET|]; split; assumption|exact D|].
    rewrite E. eexists _, _. reflexivity.
  - destruct VOL as (vol & V1 & V2); [discriminate|]. destruct A as (_ & r0 & f & _ & _ & A & _). destruct (bs_tank (ps_base s)) as [tk|] eqn:ET; [|discriminate]. injection V1 as <-.
    assert (SL : 0 < st_slope tk) by (rewrite A in ET; injection ET as <-; reflexivity). destruct (TM _ _ eq_refl) as [T1 T2].
    destruct (C52_parallel_loop _ _ _ _ _ H ES) as (on & off & c & _ & _ & _ & _ & S1 & S2 & _).
    destruct (parallel_total (en_building e) s dur thr maxm CB) as (s' & r & E); [split; [exact FS|]; split; [exact FR|]; exists tk; split; [exact ET|]; split; assumption|exact T1| |exact T2|exact D|].
    { exists (repeat "normal"%string 24), [("normal"%string, c)]. split; [exact S1|]. split; [exact S2|]. split; [cbn; lia|]. intros k I. apply repeat_spec in I. subst k. exists c. reflexivity. }
    rewrite E. eexists _, _. reflexivity.
  - destruct VOL as (vol & V1 & V2); [discriminate|]. injection V1 as <-. destruct (TM _ _ eq_refl) as [T1 T2]. destruct (C52_swing_tank _ _ _ _ _ H ES) as (c & S1 & S2 & _).
    assert (SL : 0 < st_slope (ws_tank s)) by (destruct A as (_ & r0 & f & tv & tc & _ & _ & ->); reflexivity).
    assert (SU : ws_supply s = ep_supply p) by (destruct A as (_ & r0 & f & tv & tc & _ & _ & ->); reflexivity).
    destruct (C60_completes (en_building e) s dur thr maxm CB FS FR) as (s' & r & E); [|exact T2|exact V2|exact SL|exact T1|rewrite SU; exact (SW eq_refl)|exact D|].
    { exists (repeat "normal"%string 24), [("normal"%string, c)]. split; [exact S1|]. split; [exact S2|]. split; [cbn; lia|]. intros k I. apply repeat_spec in I. subst k. exists c. reflexivity. }
    rewrite E. eexists _, _. reflexivity.
  - destruct VOL as (vol & V1 & V2); [discriminate|]. destruct A as (_ & _ & _ & A). destruct (bs_tank s) as [tk|] eqn:ET; [|discriminate]. injection V1 as <-.
    assert (SL : 0 < st_slope tk) by (rewrite A in ET; injection ET as <-; reflexivity).
    destruct (C59_completes ret flow (en_building e) s tk dur thr maxm CB FS FR ET V2 SL D) as (s' & r & E). rewrite E. eexists _, _. reflexivity.
  - contradiction.
  - destruct A as (_ & _ & _ & DF). unfold simulate_instant. destruct (complete_answers (en_building e) CB 0 1) as (_ & _ & _ & di & E0). rewrite E0. cbn [bind].
    destruct (simulate_total_iv (instant_step (en_building e)) (fun y => y = d) d (dh_supply d) dur thr maxm false) as (s' & r & E); [|reflexivity|exact D|rewrite E; eexists _, _; reflexivity].
    intros y i iv Piv ->. unfold instant_step. destruct (complete_answers (en_building e) CB i iv) as (L & (oat & EO) & (inl & EI) & _). destruct (L false) as (dem & EL).
    rewrite EL, EO, EI. cbn [bind]. cbv zeta. rewrite qdiv_ok by (apply qz_nonzero; lia). cbn [bind]. rewrite qdiv_ok by (rewrite DF; exact (IN eq_refl)). cbn [bind].
    eexists _, _. split; [reflexivity|]. split; reflexivity.
Qed.
Print Assumptions C65_completes.

(** Multi-pass engines: mains water no warmer than the loop return, the return no warmer than supply,
    supply colder than storage.  Each reported step is possible, and the only failure is a division by
    zero (C62 says when). *)
Theorem C65_multi_pass : forall dt p e vol ret flow lo, eng_new dt p = Ok e -> type_of (en_system e) = MultiPassRTP ->
  load_up_configured p -> complete (en_building e) ->
  primary_volume (en_system e) = Some vol -> 0 < vol -> Forall (productive (en_building e)) (primary_heaters (en_system e)) ->
  ep_return p = Some ret -> ep_flow p = Some flow -> 0 <= flow -> ret <= ep_supply p -> ep_supply p < ep_storage p ->
  (forall t iv x, (0 < iv)%Z -> bd_load (en_building e) t iv false = Ok x -> 0 <= x) ->
  (forall t iv x, bd_inlet (en_building e) t iv = Ok x -> lo <= x /\ x <= ret /\ x < ep_supply p) ->
  (forall di, bd_design_inlet (en_building e) = Ok di -> lo <= sim_inlet di < ep_storage p) ->
  forall dur thr maxm, dur = "3day"%string \/ dur = "annual"%string ->
  match eng_simulate e dur thr maxm with
  | Ok (e', r) => exists total iv outs, lasts dur total iv /\ reported (ep_supply p) thr maxm total iv outs r /\
      forall i o, nth_error outs i = Some o -> mp_possible (en_building e) (ep_storage p) vol (Z.of_nat i) iv o
  | Err x => x = ZeroDivisionError
  end.
Proof.
  intros dt p e vol ret flow lo H TY LU CB PV VP FR ER EF FL RS SS LD MA ST dur thr maxm D.
  assert (FS : Forall scheduled (primary_heaters (en_system e))) by (apply Forall_forall; intros h I; exact (C51_labelled _ _ _ _ H I LU)).
  destruct (engine_assembled _ _ _ H) as (hs & vol0 & A).
  destruct (en_system e) as [d s|l s|w s|d r0 f0 s|x|d] eqn:ES; try discriminate. cbn [primary_volume primary_heaters] in *.
  destruct A as (_ & r0 & f0 & A1 & A2 & _ & A3 & A4 & A5 & A6 & A7). assert (R0 : ms_return (mb_sys x) = ret) by congruence. assert (F0 : ms_flow (mb_sys x) = flow) by congruence.
  destruct (mp_tank_built _ _ _ _ H ES) as (v & cold & DM). unfold sl_dims in DM. cbn in DM. injection DM as D1 D2 D3 D4 D5 D6. injection PV as PV.
  assert (P : mp_plant lo (en_building e) (mb_sys x)).
  { constructor; rewrite ?A4, ?A5, ?R0, ?F0; [exact CB|exact FS|exact FR| |exact LD|exact MA|exact ST|exact RS|exact SS|exact FL]. split; [|split].
    - rewrite PV, D2, D5. split; [exact VP|]. split; [reflexivity|]. split; [reflexivity|discriminate].
    - rewrite D3, D5. ring.
    - rewrite D6, D5, D1. reflexivity. }
  unfold eng_simulate. rewrite ES. destruct (simulate_mp (en_building e) (mb_sys x) dur thr maxm) as [[s' r]|er] eqn:E; cbn [bind fst snd].
  - pose proof E as E'. unfold simulate_mp in E. destruct (bind_ok _ _ _ E) as (s0 & E0 & E1). rewrite A4 in E1.
    destruct (simulate_reported _ _ _ _ _ _ _ _ _ E1) as (total & iv & outs & LA & Piv & EX & RP & TM). exists total, iv, outs. split; [exact LA|]. split; [exact RP|].
    intros i o N. pose proof (C62_bounds lo _ _ _ _ _ _ P Piv E0 EX i o N) as [Q1 Q2 Q3 Q4 Q5 Q6]. rewrite A5 in Q5.
    constructor; auto. destruct Q3 as [Q3 Q3']. split; [exact Q3|]. rewrite D5, PV, Qmult_1_l in Q3'. exact Q3'.
  - exact (C62_fails_only_there lo _ _ _ _ _ _ P D E).
Qed.
Print Assumptions C65_multi_pass.

(** ** C66 Running a simulation again *)

(** An engine whose heaters ended a simulation as they began it, on or off, answers every further
    simulation request exactly as it would have without the first. *)
Theorem C66_repeatable : forall e dur thr maxm e' r, eng_simulate e dur thr maxm = Ok (e', r) ->
  running (en_system e') = running (en_system e) ->
  forall dur2 thr2 maxm2,
    match eng_simulate e dur2 thr2 maxm2, eng_simulate e' dur2 thr2 maxm2 with
    | Ok (_, r1), Ok (_, r2) => r2 = r1
    | Err x1, Err x2 => x2 = x1
    | _, _ => False
    end.
Proof.
  intros e dur thr maxm e' r H RU dur2 thr2 maxm2.
  assert (SELF : forall (x y : res (engine * sim_run)), y = x -> match x, y with Ok (_, r1), Ok (_, r2) => r2 = r1 | Err x1, Err x2 => x2 = x1 | _, _ => False end)
    by (intros x y ->; destruct x as [[]|]; reflexivity).
  assert (BASE : forall s s', base_like s s' -> map wh_active (bs_heaters s') = map wh_active (bs_heaters s) -> forall b, init_base b s' = init_base b s).
  { intros s s' (F & S1 & S2 & DM) M b. unfold init_base. rewrite (same_all_eq _ _ F M), S1, S2. destruct (bs_tank s) as [t|], (bs_tank s') as [t'|]; cbn in DM; try discriminate; [|reflexivity].
    injection DM as DV DS. unfold st_initialize. rewrite DV, DS. reflexivity. }
  unfold eng_simulate in H. destruct e as [b sys]. cbn [en_building en_system] in H.
  destruct sys as [d s|l s|w s|d ret flow s|x|d]; destruct (bind_ok _ _ _ H) as ([s' r'] & E & H1); clear H; apply ok_inj in H1; apply pair_equal_spec in H1; destruct H1 as [<- _];
    cbn [en_system fst] in RU; unfold running in RU; cbn [primary_heaters second_tank] in RU; rewrite ?app_nil_r in RU; unfold eng_simulate; cbn [en_building en_system fst].
  - unfold simulate_base in E. destruct (bind_ok _ _ _ E) as (s0 & E0 & E1). destruct (simulate_reported _ _ _ _ _ _ _ _ _ E1) as (total & iv & outs & _ & _ & EX & _).
    destruct (init_base_like _ _ _ E0) as [L0 _].
    pose proof (executed_like base_like (base_step b) iv base_like_refl base_like_trans (fun a t a' o => base_step_like b a t iv a' o) _ _ _ _ EX) as L1.
    pose proof (base_like_trans _ _ _ L0 L1) as L. pose proof (BASE _ _ L RU b) as EI. destruct L as (_ & S1 & _). apply SELF. unfold simulate_base. rewrite EI, S1. reflexivity.
  - unfold simulate_parallel in E. destruct (bind_ok _ _ _ E) as (s0 & E0 & E1). destruct (simulate_reported _ _ _ _ _ _ _ _ _ E1) as (total & iv & outs & _ & _ & EX & _).
    pose proof (executed_like par_like (parallel_step b) iv par_like_refl par_like_trans (fun a t a' o => parallel_step_like b a t iv a' o) _ _ _ _ EX) as L1.
    destruct (par_like_trans _ _ _ (init_parallel_like _ _ _ E0) L1) as (L & P & SH). injection P as P1 P2 P3 P4 P5 P6.
    rewrite !map_app in RU. cbn [map] in RU. apply app_inj_tail in RU. destruct RU as [RU1 RU2].
    apply SELF. unfold simulate_parallel, init_parallel. rewrite (BASE _ _ L RU1 b), (same_active_eq _ _ SH RU2), P1, P2, P3, P4, P5. destruct L as (_ & -> & _).
    unfold mx_initialize. rewrite P6. reflexivity.
  - unfold simulate_swing in E. destruct (bind_ok _ _ _ E) as (s0 & E0 & E1). destruct (simulate_reported _ _ _ _ _ _ _ _ _ E1) as (total & iv & outs & _ & _ & EX & _).
    pose proof (executed_like swing_like (swing_sim_step b) iv swing_like_refl swing_like_trans (fun a t a' o => swing_step_like b a t iv a' o) _ _ _ _ EX) as L1.
    destruct (swing_like_trans _ _ _ (init_swing_like _ _ _ E0) L1) as (F & P & SH). injection P as P1 P2 P3 P4 P5 P6 P7.
    rewrite !map_app in RU. cbn [map] in RU. apply app_inj_tail in RU. destruct RU as [RU1 RU2].
    apply SELF. unfold simulate_swing, init_swing, ws_off_temp. rewrite (same_all_eq _ _ F RU1), (same_active_eq _ _ SH RU2), P1, P2, P3, P4.
    unfold mx_initialize, st_initialize. rewrite P5, P6, P7. reflexivity.
  - unfold simulate_sprtp in E. destruct (bind_ok _ _ _ E) as (s0 & E0 & E1). destruct (simulate_reported _ _ _ _ _ _ _ _ _ E1) as (total & iv & outs & _ & _ & EX & _).
    destruct (init_base_like _ _ _ E0) as [L0 _].
    pose proof (executed_like base_like (sprtp_step ret flow b) iv base_like_refl base_like_trans (fun a t a' o => sprtp_step_like ret flow b a t iv a' o) _ _ _ _ EX) as L1.
    pose proof (base_like_trans _ _ _ L0 L1) as L. pose proof (BASE _ _ L RU b) as EI. destruct L as (_ & S1 & _). apply SELF. unfold simulate_sprtp. rewrite EI, S1. reflexivity.
  - unfold simulate_mp in E. destruct (bind_ok _ _ _ E) as (s0 & E0 & E1). destruct (simulate_reported _ _ _ _ _ _ _ _ _ E1) as (total & iv & outs & _ & _ & EX & _).
    pose proof (executed_like mp_like (mp_step b) iv mp_like_refl mp_like_trans (fun a t a' o => mp_step_like b a t iv a' o) _ _ _ _ EX) as L1.
    destruct (mp_like_trans _ _ _ (init_mp_like _ _ _ E0) L1) as (F & P). cbn [mb_sys]. pose proof (same_all_eq _ _ F RU) as HE.
    pose proof (simulate_mp_agree b (mb_sys x) s' dur2 thr2 maxm2 HE) as AG. injection P. intros.
    assert (AG' : agree msame (simulate_mp b (mb_sys x) dur2 thr2 maxm2) (simulate_mp b s' dur2 thr2 maxm2)) by (apply AG; unfold sl_dims; congruence).
    unfold agree in AG'. destruct (simulate_mp b (mb_sys x) dur2 thr2 maxm2) as [[a1 r1]|], (simulate_mp b s' dur2 thr2 maxm2) as [[a2 r2]|]; cbn [bind snd]; try contradiction; [symmetry; exact (proj2 AG')|symmetry; exact AG'].
  - unfold simulate_instant in E. destruct (bind_ok _ _ _ E) as (s0 & E0 & E1). destruct (simulate_reported _ _ _ _ _ _ _ _ _ E1) as (total & iv & outs & _ & _ & EX & _).
    assert (ED : s' = d).
    { refine (executed_like (fun a a' => a' = a) (instant_step b) iv _ _ _ _ _ _ _ EX); [reflexivity|congruence|].
      intros a t a' o STP. unfold instant_step in STP. cbv zeta in STP. opn STP; congruence. }
    subst s'. apply SELF. reflexivity.
Qed.
Print Assumptions C66_repeatable.

(** A newly built pre-sized engine has all its heaters off. *)
Theorem C66_new_off : forall dt p e vol, eng_new dt p = Ok e -> ep_volume p = Some vol -> forall x, In x (running (en_system e)) -> x = false.
Proof.
  intros dt p e vol H EV x I. destruct (new_inv _ _ _ H) as (b & sched & m & EB & EC & [(vol' & hs & EV' & EH & A & Eb & E1 & E2 & EP)|(EV' & _)]); [|congruence].
  assert (HO : forall h, In h hs -> wh_active h = false).
  { intros h Ih. unfold eng_heaters in EH. destruct (ep_model p).
    - destruct (bind_ok _ _ _ EH) as (di & _ & F1). destruct (bind_ok _ _ _ F1) as (pm & _ & F2). apply ok_inj in F2. subst hs. destruct Ih as [<-|[]]. reflexivity.
    - destruct (ep_capacity p); [|discriminate]. destruct (bind_ok _ _ _ EH) as (y & _ & F1). apply ok_inj in F1. subst hs. apply repeat_spec in Ih. subst h. reflexivity. }
  unfold running in I. apply in_map_iff in I. destruct I as (h & <- & I). apply in_app_or in I. destruct I as [I|I].
  - destruct (assembled_parts _ _ _ _ _ A) as (_ & P & _). destruct (en_system e) eqn:ES; try (destruct P as [P _]; [discriminate|]; rewrite P in I; exact (HO _ I)). destruct I.
  - unfold eng_presized in EP. rewrite EC in EP. cbn [bind] in EP. rewrite EH in EP. cbn [bind] in EP. destruct (en_system e) as [d s|l s|w s|d r0 f0 s|y|d] eqn:ES; try contradiction.
    + destruct A as (EK & _). rewrite EK in EP. destruct (bind_ok _ _ _ EP) as ([r f] & ER & F1). destruct (bind_ok _ _ _ F1) as (tv & ET & F2). cbv zeta in F2. destruct (bind_ok _ _ _ F2) as (th & EH2 & F3).
      apply ok_inj in F3. apply pair_equal_spec in F3. destruct F3 as [_ F3]. injection F3 as _ <-. destruct I as [<-|[]]. cbn [ps_heater].
      unfold eng_tm_heater in EH2. destruct (bind_ok _ _ _ EH2) as (share & _ & G1). destruct (bind_ok _ _ _ G1) as (pm & _ & G2). apply ok_inj in G2. subst th. reflexivity.
    + destruct A as (EK & r & f & tv & tc & _ & _ & ->). destruct I as [<-|[]]. reflexivity.
Qed.
Print Assumptions C66_new_off.

(** ** Cases *)

(** A small tank under a heavy, even load, shedding with a high aquastat. *)
Definition ex_busy : eparams :=
  mkParams (One None) (One (Some 10000))
    (CzDict [("design_oat_f"%string, Some 30); ("design_inlet_water_temp_f"%string, Some 50)])
    120 150 "primary_no_recirc" None (Some (One (repeat (1 # 24) 24))) None 1 None 16 1 (1 # 2) (1 # 10) None None
    (Some (repeat 0%Z 24)) 0 (Some (9 # 10)) None None None None 1 None None None None 1 (175 # 100)
    (Some 40) (Some 100) None None None 1.

(** A heater left running does change the next simulation: run first, this engine gives no heat in its
    first minute; run again, with the same arguments, it does. *)
Theorem C66_repeat_refuted : exists e e1 r1 e2 r2, eng_new ex_data ex_busy = Ok e /\
  eng_simulate e "3day" (-1000) 2 = Ok (e1, r1) /\ eng_simulate e1 "3day" (-1000) 2 = Ok (e2, r2) /\
  running (en_system e) = [false] /\ running (en_system e1) = [true] /\
  nth_error (sr_output r1) 0 = Some 0 /\ exists x, nth_error (sr_output r2) 0 = Some x /\ x == 100.
Proof.
  assert (C : match eng_new ex_data ex_busy with
              | Ok e => match eng_simulate e "3day" (-1000) 2 with
                        | Ok (e1, r1) => match eng_simulate e1 "3day" (-1000) 2 with
                                         | Ok (e2, r2) => match running (en_system e), running (en_system e1), sr_output r1, sr_output r2 with
                                                          | [false], [true], (0 # 1) :: _, x :: _ => Qeq_bool x 100
                                                          | _, _, _, _ => false end
                                         | Err _ => false end
                        | Err _ => false end
              | Err _ => false end = true) by (vm_compute; reflexivity).
  destruct (eng_new ex_data ex_busy) as [e|]; [|discriminate]. destruct (eng_simulate e "3day" (-1000) 2) as [[e1 r1]|] eqn:E1; [|discriminate].
  destruct (eng_simulate e1 "3day" (-1000) 2) as [[e2 r2]|] eqn:E2; [|discriminate]. exists e, e1, r1, e2, r2. split; [reflexivity|]. split; [exact E1|]. split; [exact E2|].
  destruct (running (en_system e)) as [|[] [|]]; try discriminate. destruct (running (en_system e1)) as [|[] [|]]; try discriminate.
  destruct (sr_output r1) as [|[[] []] ?]; try discriminate. destruct (sr_output r2) as [|x ?]; [discriminate|]. repeat split. exists x. split; [reflexivity|apply Qeq_bool_iff; exact C].
Qed.
Print Assumptions C66_repeat_refuted.

(** One more step and the heaters are as they were: the next run is the same (C66_repeatable applies). *)
Example ex_repeats : exists e e1 r1, eng_new ex_data (ex_params "primary_no_recirc" None 0 None (Some 10) (Some 100)) = Ok e /\
  eng_simulate e "3day" (-1000) 4 = Ok (e1, r1) /\ running (en_system e1) = running (en_system e) /\ nth_error (sr_output r1) 0 <> nth_error (sr_output r1) 4.
Proof. eexists _, _, _. split; [vm_compute; reflexivity|]. split; [vm_compute; reflexivity|]. split; [reflexivity|]. vm_compute. discriminate. Qed.

Lemma nominal_rated c s m : 0 <= c -> rated (wh_new (Some (PmNominal c)) s m).
Proof. intros _ oat outlet inlet. eexists _, _. split; reflexivity. Qed.
Lemma nominal_productive b c s m : 0 <= c -> productive b (wh_new (Some (PmNominal c)) s m).
Proof. intros P t iv oat outlet _. eexists _, _. split; [reflexivity|]. split; [|reflexivity]. intros x E. injection E as <-. exact P. Qed.

(** The hypotheses of C65_completes hold of a pre-sized engine of each type, and its annual simulation
    completes. *)
Example ex_runs : Forall (fun s => exists e e' r, eng_new ex_data (ex_params s None 0 None (Some 500) (Some 100)) = Ok e /\
    eng_simulate e "annual" 5 60 = Ok (e', r)) ["primary_no_recirc"; "paralleltank"; "swing_tank"; "sprtp"; "instant_wh"]%string.
Proof.
  assert (LU : forall s, load_up_configured (ex_params s None 0 None (Some 500) (Some 100))) by (intros s ls h [N _]; discriminate N).
  assert (K : forall s e t, eng_new ex_data (ex_params s None 0 None (Some 500) (Some 100)) = Ok e -> type_of (en_system e) = t -> t <> MultiPassRTP ->
     complete (en_building e) -> (forall t iv x, bd_inlet (en_building e) t iv = Ok x -> x <= 120) ->
     (t <> InstantWH -> exists vol, primary_volume (en_system e) = Some vol /\ 0 < vol) ->
     Forall rated (primary_heaters (en_system e)) ->
     (forall v h, second_tank (en_system e) = Some (v, h) -> 0 < v /\ rated h) ->
     exists e e' r, eng_new ex_data (ex_params s None 0 None (Some 500) (Some 100)) = Ok e /\ eng_simulate e "annual" 5 60 = Ok (e', r)).
  { intros s e t E T NM CB MA VO FR TM.
    destruct (C65_completes ex_data _ e "annual" 5 60 E (LU s) CB (or_intror eq_refl)) as (e' & r & ER).
    - rewrite T. exact NM.
    - rewrite T. exact VO.
    - exact FR.
    - exact TM.
    - intro. exact MA.
    - intro. discriminate.
    - exists e, e', r. auto. }
  assert (CB : forall b, eng_building ex_data (ex_params "sprtp" None 0 None (Some 500) (Some 100)) = Ok b -> complete b /\ forall t iv x, bd_inlet b t iv = Ok x -> x <= 120).
  { intros b E. vm_compute in E. injection E as <-. split.
    - split; [discriminate|]. split; [discriminate|]. eexists. split; [reflexivity|]. split; left; discriminate.
    - intros t iv x X. cbn in X. apply ok_inj in X. subst x. discriminate. }
  assert (EB : exists b, eng_building ex_data (ex_params "sprtp" None 0 None (Some 500) (Some 100)) = Ok b) by (eexists; vm_compute; reflexivity).
  destruct EB as (b & EB). destruct (CB b EB) as [C1 C2]. vm_compute in EB. injection EB as EB.
  repeat apply Forall_cons; [| | | | |apply Forall_nil];
    (eapply K; [vm_compute; rewrite EB; reflexivity|reflexivity|discriminate|exact C1|exact C2|
       intro; try contradiction; eexists; split; reflexivity|
       cbn [en_system primary_heaters ps_base bs_heaters ws_heaters]; repeat apply Forall_cons; try apply Forall_nil; apply nominal_rated; discriminate|
       cbn [en_system second_tank]; intros v h TH; first [discriminate TH|injection TH as <- <-; split; [reflexivity|apply nominal_rated; discriminate]]]).
Qed.

(** The hypotheses of C65_multi_pass hold of a pre-sized engine. *)
Example ex_runs_multi_pass : exists e, eng_new ex_data (ex_params "mprtp" None 0 None (Some 500) (Some 100)) = Ok e /\
  forall dur thr maxm, dur = "3day"%string \/ dur = "annual"%string ->
  match eng_simulate e dur thr maxm with
  | Ok (_, r) => exists total iv outs, lasts dur total iv /\ reported 120 thr maxm total iv outs r /\
      forall i o, nth_error outs i = Some o -> mp_possible (en_building e) 150 500 (Z.of_nat i) iv o
  | Err x => x = ZeroDivisionError
  end.
Proof.
  set (p := ex_params "mprtp" None 0 None (Some 500) (Some 100)). destruct (eng_new ex_data p) as [e|] eqn:E; [|vm_compute in E; discriminate].
  exists e. split; [reflexivity|]. pose proof E as E'. vm_compute in E'. injection E' as E'.
  apply (C65_multi_pass ex_data p e 500 110 3 50 E); try rewrite <- E'; try reflexivity; try discriminate.
  - intros ls h [N _]. discriminate N.
  - split; [discriminate|]. split; [discriminate|]. eexists. split; [reflexivity|]. split; left; discriminate.
  - cbn. repeat apply Forall_cons; try apply Forall_nil; apply nominal_productive; discriminate.
  - intros t iv x Piv X. refine (daily_nonneg _ false t iv x _ _ _ X); [discriminate| |lia].
    intros y Y. cbn in Y. repeat (destruct Y as [<-|Y]; [discriminate|]). destruct Y.
  - intros t iv x X. cbn in X. apply ok_inj in X. subst x. repeat split; (discriminate || reflexivity).
  - intros di X. cbn in X. apply ok_inj in X. subst di. split; (discriminate || reflexivity).
Qed.
