(** C50: instantaneous heaters; C59: single-pass return-to-primary simulation.  Vocabulary in S_Step. *)
From Verif Require Import Prelude M_StratifiedTank S_StratifiedTank L_StratifiedTank L_StratifiedTank3
  M_MixedTank L_MixedTank M_Building L_Building M_Heater S_Heater L_Heater M_Sizing M_SimRun S_SimRun L_SimRun L_Sizing3 M_Step S_Step L_Step L_Step2 L_Step3 L_Step5.
From Verif Require Import P_Step P_SimRun.
From Verif Require P_Sizing.
Open Scope Q_scope.

(** ** C50 *)

Lemma instant_step_inv b s t iv s' o : instant_step b s t iv = Ok (s', o) ->
  s' = s /\ bd_load b t iv false = Ok (so_demand o) /\ bd_oat b t iv = Ok (so_oat o) /\ bd_inlet b t iv = Ok (so_inlet o) /\
  so_usable o = 0 /\ so_temps o = repeat (dh_supply s) 6 /\ so_delivery o = None /\ ~ qz iv == 0 /\ ~ dh_defrost s == 0 /\
  so_output o == so_demand o * (60 / qz iv) * rho_cp * qmax (dh_supply s - so_inlet o) 1 / dh_defrost s / 1000.
Proof.
  unfold instant_step. intro H. destruct (bind_ok _ _ _ H) as (d & Ed & H1). destruct (bind_ok _ _ _ H1) as (oat & Eo & H2). destruct (bind_ok _ _ _ H2) as (inlet & Ei & H3).
  cbv zeta in H3. destruct (bind_ok _ _ _ H3) as (r & Er & H4). destruct (bind_ok _ _ _ H4) as (x & Ex & H5). apply ok_inj in H5. apply pair_equal_spec in H5. destruct H5 as [<- <-].
  destruct (qdiv_inv _ _ _ Er) as [N1 ->]. destruct (qdiv_inv _ _ _ Ex) as [N2 ->]. cbn [so_demand so_oat so_inlet so_usable so_temps so_delivery so_output].
  repeat (split; [assumption || reflexivity|]). reflexivity.
Qed.

(** In every step the heat delivered over the step (output in kBTU/h, derated by the defrost
    factor) is the heat of the demanded water; at least one degree of lift is assumed. *)
Theorem C50_heat : forall b s t iv s' o, instant_step b s t iv = Ok (s', o) ->
  bd_load b t iv false = Ok (so_demand o) /\ bd_inlet b t iv = Ok (so_inlet o) /\
  so_output o * 1000 * (qz iv / 60) * dh_defrost s == so_demand o * rho_cp * qmax (dh_supply s - so_inlet o) 1.
Proof.
  intros b s t iv s' o H. destruct (instant_step_inv _ _ _ _ _ _ H) as (_ & A & _ & B & _ & _ & _ & N1 & N2 & E).
  split; [exact A|]. split; [exact B|]. rewrite E. field. split; assumption.
Qed.
Print Assumptions C50_heat.

(** The sized capacity: sixty times the heat of the peak hour's gallons, so sixty times any step's
    output fits in it whenever the mains are at least as warm as the design inlet; in a peak hour
    at design inlet it is reached exactly. *)
Theorem C50_capacity : forall b s s1 di cap t iv s' o,
  instant_size s b = Ok s1 -> dh_min_cap s1 = Some cap -> design_inlet b = Ok di ->
  0 <= bd_daily b -> (forall x, In x (bd_peak b) -> 0 <= x) -> 0 < dh_defrost s -> (0 < iv)%Z ->
  instant_step b s t iv = Ok (s', o) -> di <= so_inlet o -> 1 <= dh_supply s - di ->
  60 * so_output o <= cap /\
  (forall top, In top (bd_peak b) -> (forall x, In x (bd_peak b) -> x <= top) ->
    so_demand o == bd_daily b * top * (qz iv / 60) -> so_inlet o == di -> 60 * so_output o == cap).
Proof.
  intros b s s1 di cap t iv s' o Hs Ec Ed D0 P0 F0 Iv H Li L1.
  destruct (instant_step_inv _ _ _ _ _ _ H) as (_ & A & _ & _ & _ & _ & _ & N1 & N2 & E).
  unfold instant_size in Hs. rewrite Ed in Hs. cbn [bind] in Hs. destruct (bind_ok _ _ _ Hs) as (m & Em & H1). cbv zeta in H1.
  destruct (bind_ok _ _ _ H1) as (x & Ex & H2). apply ok_inj in H2. subst s1. cbn in Ec. injection Ec as <-.
  destruct (qdiv_inv _ _ _ Ex) as [_ ->].
  assert (MX : In m (bd_peak b) /\ forall y, In y (bd_peak b) -> y <= m).
  { unfold py_max in Em. destruct (bd_peak b) as [|y0 l]; [discriminate|]. apply ok_inj in Em. subst m. split.
    - destruct (qmaxl_in y0 l) as [->|I]; [left; reflexivity|right; exact I].
    - intros y [<-|I]; [exact (proj1 (qmaxl_ge _ _))|exact (proj2 (qmaxl_ge _ _) y I)]. }
  destruct MX as [M1 M2]. pose proof rho_pos as RP.
  assert (QI : 0 < qz iv) by (unfold qz, inject_Z, Qlt; cbn; lia).
  set (mxd := qmax (dh_supply s - so_inlet o) 1) in *.
  assert (DL : 1 <= mxd <= dh_supply s - di).
  { unfold mxd. split; [apply qmax_r|]. apply qmax_lub; lra. }
  assert (DE : forall d f, so_demand o == bd_daily b * f * (qz iv / 60) -> d == bd_daily b * f * rho_cp * mxd ->
     60 * so_output o == 60 * d / dh_defrost s / 1000).
  { intros d f G ->. rewrite E, G. field. split; assumption. }
  split.
  - assert (G : exists f, In f (bd_peak b) /\ so_demand o == bd_daily b * f * (qz iv / 60)).
    { clear - A. unfold bd_load in A. cbv zeta in A. destruct (Z.of_nat (length (bd_peak b)) =? 0)%Z; [discriminate|].
      destruct (bind_ok _ _ _ A) as (f & Ef & A1). apply ok_inj in A1. exists f. split; [exact (py_nth_in _ _ _ Ef)|]. rewrite <- A1. field. }
    destruct G as (f & If & G). rewrite (DE _ f G (Qeq_refl _)).
    pose proof (P0 f If) as Pf. pose proof (M2 f If) as Lf.
    unfold Qdiv. apply Qmult_le_compat_r; [|discriminate]. apply Qmult_le_compat_r; [|apply Qlt_le_weak, Qinv_lt_0_compat; exact F0].
    assert (X1 : bd_daily b * f <= bd_daily b * m) by nra. assert (X2 : 0 <= bd_daily b * f) by (apply qmul_nonneg; lra).
    assert (X3 : bd_daily b * f * mxd <= bd_daily b * m * (dh_supply s - di)) by (clear - X1 X2 DL; clearbody mxd; nra).
    apply (proj2 (Qmult_le_l _ _ (60 * rho_cp) ltac:(lra))) in X3. clear - X3. clearbody mxd. lra.
  - intros top It Mt G1 G2.
    assert (TE : top == m) by (apply Qle_antisym; [exact (M2 _ It)|exact (Mt _ M1)]).
    rewrite (DE _ top G1 (Qeq_refl _)). assert (MD : mxd == dh_supply s - di).
    { unfold mxd. apply Qle_antisym; [apply qmax_lub; lra|]. apply Qle_trans with (dh_supply s - so_inlet o); [lra|apply qmax_l]. }
    rewrite TE, MD. field. exact N2.
Qed.
Print Assumptions C50_capacity.

Lemma instant_executed b s iv : forall outs i s', executed (instant_step b) iv s i outs s' ->
  forall o, In o outs -> so_usable o = 0 /\ so_temps o = repeat (dh_supply s) 6 /\ so_delivery o = None.
Proof.
  induction outs as [|o outs IH]; intros i s' EX o' I; [destruct I|]. cbn [executed] in EX. destruct EX as (s1 & E & EX).
  destruct (instant_step_inv _ _ _ _ _ _ E) as (-> & _ & _ & _ & A & B & C & _). destruct I as [<-|I]; [auto|exact (IH _ _ EX _ I)].
Qed.

(** Every run goes to its end, yet every simulated minute counts as an outage and the run as failed. *)
Theorem C50_always_fails : forall b s dur thr maxm s' r, 0 <= thr ->
  simulate_instant b s dur thr maxm = Ok (s', r) ->
  sr_stopped r = false /\ sr_outage r = sr_duration r /\ is_successful r 0 = false /\ (0 < sr_outage r)%Z.
Proof.
  intros b s dur thr maxm s' r T0 H. unfold simulate_instant in H. destruct (bind_ok _ _ _ H) as (di & _ & H1).
  destruct (simulate_inv _ _ _ _ _ _ _ _ _ H1) as (total & iv & outs & Et & Piv & Eiv & ED & _ & EX & RC & _ & _ & ST & NS).
  pose proof (instant_executed b s iv _ _ _ EX) as ALL.
  assert (F : sr_stopped r = false).
  { destruct (sr_stopped r); [|reflexivity]. exfalso. destruct (ST eq_refl) as [NE (k & K1 & (_ & K2) & _)].
    destruct (K2 (length outs - 1)%nat ltac:(lia)) as (o & Eo & TC). destruct (ALL o (nth_error_In _ _ Eo)) as (_ & B & C).
    unfold too_cold, delivered in TC. rewrite C, B in TC. cbn in TC. lra. }
  destruct (NS F) as [L _].
  assert (OU : outages outs = outs).
  { clear - ALL. induction outs as [|o outs IH]; [reflexivity|]. unfold outages. cbn [filter]. rewrite (proj1 (ALL o (or_introl eq_refl))). cbn.
    f_equal. apply IH. intros o' I. apply ALL. right. exact I. }
  assert (OT : sr_outage r = sr_duration r /\ (0 < sr_outage r)%Z).
  { rewrite (rc_outage _ _ RC), OU, Eiv, ED, L. unfold sim_times in Et. destruct (String.eqb dur "3day"); [injection Et as <- <-; split; reflexivity|].
    destruct (String.eqb dur "annual"); [injection Et as <- <-; split; reflexivity|discriminate]. }
  split; [exact F|]. split; [exact (proj1 OT)|]. split; [|exact (proj2 OT)]. unfold is_successful. apply Z.leb_gt. exact (proj2 OT).
Qed.
Print Assumptions C50_always_fails.

(** The run completes for every building with weather and profile. *)
Theorem C50_completes : forall b s dur thr maxm, complete b -> ~ dh_defrost s == 0 ->
  dur = "3day"%string \/ dur = "annual"%string -> exists s' r, simulate_instant b s dur thr maxm = Ok (s', r).
Proof.
  intros b s dur thr maxm C D0 D. unfold simulate_instant. destruct (complete_answers b C 0 1) as (_ & _ & _ & di & ->). cbn [bind].
  apply (simulate_total_iv (instant_step b) (fun s1 => dh_defrost s1 = dh_defrost s)); [|reflexivity|exact D].
  intros s1 i iv Piv E1. destruct (complete_answers b C i iv) as (L & (oat & Eo) & (inlet & Ei) & _). destruct (L false) as (d & Ed).
  unfold instant_step. rewrite Ed, Eo, Ei. cbn [bind]. rewrite qdiv_ok by (intro Z; unfold qz, inject_Z, Qeq in Z; cbn in Z; lia). cbn [bind].
  rewrite qdiv_ok by (rewrite E1; exact D0). cbn [bind]. eexists. eexists. split; [reflexivity|]. split; [exact E1|reflexivity].
Qed.
Print Assumptions C50_completes.

Lemma instant_state b s dur thr maxm s' r : simulate_instant b s dur thr maxm = Ok (s', r) -> s' = s.
Proof.
  intro E. unfold simulate_instant in E. destruct (bind_ok _ _ _ E) as (di & _ & H1).
  destruct (simulate_inv _ _ _ _ _ _ _ _ _ H1) as (total & iv & outs & _ & _ & _ & _ & _ & EX & _). clear - EX. revert EX. generalize 0%Z.
  induction outs as [|o outs IH]; intros i EX; cbn [executed] in EX; [exact EX|]. destruct EX as (s1 & E & EX).
  destruct (instant_step_inv _ _ _ _ _ _ E) as (-> & _). exact (IH _ EX).
Qed.

(** A concrete case of the above: 1000 gallons in two four-hour blocks, mains and design inlet at 50. *)
Example C50_case : exists s1 cap s' o r,
  instant_size P_Sizing.ex_dhw P_Sizing.ex_building = Ok s1 /\ dh_min_cap s1 = Some cap /\ design_inlet P_Sizing.ex_building = Ok 50 /\
  instant_step P_Sizing.ex_building P_Sizing.ex_dhw 420 1 = Ok (s', o) /\ so_inlet o == 50 /\
  so_demand o == 1000 * (1 # 8) * (qz 1 / 60) /\ 0 < so_output o /\
  simulate_instant P_Sizing.ex_building P_Sizing.ex_dhw "annual" 5 10 = Ok (s', r).
Proof.
  destruct (C50_completes P_Sizing.ex_building P_Sizing.ex_dhw "annual" 5 10) as (s' & r & E).
  - split; [discriminate|]. split; [discriminate|]. eexists. split; [reflexivity|]. split; left; discriminate.
  - discriminate.
  - right. reflexivity.
  - pose proof (instant_state _ _ _ _ _ _ _ E) as X.
    subst s'. destruct (instant_size P_Sizing.ex_dhw P_Sizing.ex_building) as [s1|] eqn:E1; [|vm_compute in E1; discriminate].
    destruct (instant_step P_Sizing.ex_building P_Sizing.ex_dhw 420 1) as [[s2 o]|] eqn:E2; [|vm_compute in E2; discriminate].
    vm_compute in E1, E2. injection E1 as <-. injection E2 as <- <-.
    eexists. eexists. eexists. eexists. eexists. split; [reflexivity|]. split; [reflexivity|]. split; [reflexivity|]. split; [reflexivity|].
    split; [reflexivity|]. split; [reflexivity|]. split; [reflexivity|]. exact E.
Qed.

(** ** C59 *)

(** Every simulated step of a single-pass return-to-primary system is physical. *)
Theorem C59_every_step_physical : forall ret flow b s tk dur thr maxm s' r,
  bs_tank s = Some tk -> 0 < st_vol tk -> 0 < st_slope tk ->
  simulate_sprtp ret flow b s dur thr maxm = Ok (s', r) ->
  exists s0 outs, init_base b s = Ok s0 /\ executed (sprtp_step ret flow b) (sr_iv r) s0 0 outs s' /\ recorded outs r /\
    forall i o, nth_error outs i = Some o ->
      physical_step b (bs_heaters s) (bs_storage s) (st_vol tk) (Z.of_nat i) (sr_iv r) o.
Proof.
  intros ret flow b s tk dur thr maxm s' r ET V1 V2 H. unfold simulate_sprtp in H. destruct (bind_ok _ _ _ H) as (s0 & E0 & H1).
  destruct (simulate_inv _ _ _ _ _ _ _ _ _ H1) as (total & iv & outs & Et & Piv & Eiv & _ & _ & EX & RC & _).
  exists s0, outs. rewrite Eiv. split; [exact E0|]. split; [exact EX|]. split; [exact RC|].
  pose proof (base_inv_init b s s0 tk ET (conj V1 V2) E0) as BI.
  destruct (executed_forall (sprtp_step ret flow b) iv _ (fun t o => physical_step b (bs_heaters s) (bs_storage s) (st_vol tk) t iv o)
    (fun s1 t s2 o => sprtp_physical ret flow b _ _ _ _ _ s1 t iv s2 o) _ _ _ _ BI EX) as [_ P].
  intros i o E. exact (P i o E).
Qed.
Print Assumptions C59_every_step_physical.

(** Each step is the base system's step followed by the loop's return: heat and draw first, then the
    recirculated gallons come back at the return temperature; usable volume and the six reported
    temperatures are those after the return, everything else is the base step's. *)
Theorem C59_step : forall ret flow b s t iv s' o tk, bs_tank s = Some tk ->
  sprtp_step ret flow b s t iv = Ok (s', o) ->
  exists s1 o1 tk1 tk2, base_step b s t iv = Ok (s1, o1) /\ bs_tank s1 = Some tk1 /\
    st_recirc tk1 flow ret (qz iv) (Some (bs_supply s)) = Ok tk2 /\ bs_tank s' = Some tk2 /\ bs_heaters s' = bs_heaters s1 /\
    st_usable tk2 (bs_supply s) = Ok (so_usable o) /\
    Forall2 (fun f x => st_temp tk2 f = Ok x) [0; 2 # 10; 4 # 10; 6 # 10; 8 # 10; 1] (so_temps o) /\
    (so_demand o, so_output o, so_power o, so_oat o, so_inlet o, so_mode o) =
      (so_demand o1, so_output o1, so_power o1, so_oat o1, so_inlet o1, so_mode o1).
Proof.
  intros ret flow b s t iv s' o tk ET H. destruct (sprtp_step_inv _ _ _ _ _ _ _ _ H) as (s1 & o1 & E & K).
  destruct (C55_tank_operations b s t iv s1 o1 tk _ ET (hour_of_spec t iv) E) as (sp & tk0 & tk1 & _ & _ & _ & E1 & S1 & _).
  destruct (K tk1 E1) as (tk2 & Er & Eu & Ets & -> & D1 & D2 & D3 & D4 & D5 & D6). rewrite S1 in Er, Eu.
  exists s1, o1, tk1, tk2. split; [exact E|]. split; [exact E1|]. split; [exact Er|]. split; [reflexivity|]. split; [reflexivity|]. split; [exact Eu|].
  split; [exact (mapM_forall2 _ _ _ Ets)|congruence].
Qed.
Print Assumptions C59_step.

Theorem C59_completes : forall ret flow b s tk dur thr maxm,
  complete b -> Forall scheduled (bs_heaters s) -> Forall rated (bs_heaters s) ->
  bs_tank s = Some tk -> 0 < st_vol tk -> 0 < st_slope tk ->
  dur = "3day"%string \/ dur = "annual"%string ->
  exists s' r, simulate_sprtp ret flow b s dur thr maxm = Ok (s', r).
Proof.
  intros ret flow b s tk dur thr maxm C FS FR ET V1 V2 D. unfold simulate_sprtp.
  assert (R : base_ready s) by (split; [exact FS|]; split; [exact FR|]; exists tk; split; [exact ET|]; split; assumption).
  destruct (init_base_total b s C R) as (s0 & E & R0). rewrite E. cbn [bind].
  apply (simulate_total (sprtp_step ret flow b) base_ready); [|exact R0|exact D].
  intros s1 i iv H. destruct (sprtp_step_total ret flow b s1 i iv C H) as (s' & o & E1 & R1 & L). exists s', o. auto.
Qed.
Print Assumptions C59_completes.

Example C59_case : forall cap, 0 <= cap -> exists s' r,
  simulate_sprtp 110 3 ex_building (ex_bsys cap) "annual" 5 10 = Ok (s', r).
Proof.
  intros cap P. apply (C59_completes 110 3 ex_building (ex_bsys cap) (st_new 300 1));
    [exact ex_complete|constructor; [apply ex_scheduled|constructor]|constructor; [apply ex_rated; exact P|constructor]|reflexivity|reflexivity|reflexivity|right; reflexivity].
Qed.
