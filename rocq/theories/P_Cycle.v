(** C79: how long the heaters of a simulated system run and rest, and what the short-cycling warning says about it. *)
From Verif Require Import Prelude M_StratifiedTank S_StratifiedTank L_StratifiedTank L_StratifiedTank2 L_StratifiedTank3
  M_Building S_Building L_Building M_Heater S_Heater L_Heater M_Sizing S_Sizing M_SimRun S_SimRun L_SimRun L_SimMisc M_Step S_Step L_Step L_Step2 L_Step3 L_Step4
  M_Swing M_MPRTP M_Engine S_Engine S_EngineRun S_EngineSize L_Engine L_Engine2 L_Engine6 L_Engine8 S_Lasts L_Lasts L_Lasts2 L_Lasts3 S_Shift L_Shift S_Cycle L_Cycle
  P_Sizing P_Engine P_Engine2 P_Engine6 P_Engine7 P_Lasts P_Shift.
Open Scope Q_scope.

Lemma cycling_controls dt p e on_t sensor off_sensor off_t :
  eng_new dt p = Ok e -> primary_heaters (en_system e) <> [] ->
  (forall h, (h < 24)%nat -> settings_at p h (sensor h) on_t (off_sensor h) (off_t h)) ->
  existsb wh_load_shifting (primary_heaters (en_system e)) = has_schedule p /\
  (forall h hour c, In h (primary_heaters (en_system e)) -> in_effect h hour c -> c = day_ctl (ep_storage p) on_t sensor off_sensor off_t hour) /\
  (0 <= ep_aq p -> 1 - ep_aq p <= initial_percent (primary_heaters (en_system e)) <= 1).
Proof.
  intros H NE SE. destruct (SE 0%nat ltac:(lia)) as [(ls & GS & _)|(NS & _)].
  - assert (IF : forall h, (h < 24)%nat -> in_force p ls h (sensor h) on_t (off_sensor h) (off_t h)).
    { intros h L. destruct (SE h L) as [(ls' & GS' & IF)|(NS & _)]; [|exfalso; exact (NS ls GS)]. destruct GS as [E1 _], GS' as [E2 _]. rewrite E1 in E2. injection E2 as <-. exact IF. }
    destruct (schedule_controls _ _ _ _ _ _ _ _ H GS NE IF) as (PL & CT & IP). split; [|split; [exact CT|exact IP]].
    rewrite PL. destruct GS as [E1 E2]. unfold has_schedule. rewrite E1. destruct ls; [congruence|reflexivity].
  - destruct (new_controls _ _ _ H NS) as (PL & CT & IP). split; [|split; [|exact IP]].
    + rewrite PL. unfold has_schedule. destruct (ep_ls p) as [[|z l]|] eqn:E; try reflexivity. exfalso. apply (NS (z :: l)). split; [exact E|discriminate].
    + intros h hour c I IE. rewrite (CT h hour c I IE). unfold day_ctl. cbv zeta. set (n := Z.to_nat (hour mod 24)).
      destruct (SE n (mod_lt hour)) as [(ls & GS & _)|(_ & E1 & E2 & D1 & D2)]; [exfalso; exact (NS ls GS)|].
      apply defaulted_is in D1, D2. rewrite E1, E2, <- D1, <- D2. reflexivity.
Qed.

(** Whatever the kind of system. *)
Lemma cycle_core dt p e dur total iv vol cold warm start on_t low high take sensor off_sensor off_t d thr maxm e' r :
  cycling dt p e dur total iv vol cold warm start on_t low high take sensor off_sensor off_t d ->
  eng_simulate e dur thr maxm = Ok (e', r) ->
  let T := type_of (en_system e) in
  let left := left_in T p iv vol on_t sensor in
  let stop := off_level T p iv vol off_sensor off_t in
  let bring := heated high iv (ep_storage p) warm in
  let need := takes p cold take d in
  (forall s m, comes_on r s -> (forall i, (i <= m)%nat -> left s + inject_Z (Z.of_nat i) * bring <= stop (s + i)%nat) ->
     forall i x, (i <= m)%nat -> nth_error (sr_output r) (s + i) = Some x -> 0 < x) /\
  (forall s m, goes_off r s -> (forall i, (i <= m)%nat -> 0 <= left (s + i)%nat /\ left (s + i)%nat + qsum (map need (seq s i)) <= stop s) ->
     forall i x, (i <= m)%nat -> nth_error (sr_output r) (s + i) = Some x -> x == 0).
Proof.
  intros [H TY NE [PV V0] SE [A0 ORD] (CW & WS & SO & OS & SS) LA MA [DI [ST1 ST2]] [L0 GK] LT LD] SIM T left stop bring need.
  destruct (engine_assembled _ _ _ H) as (hs & vol0 & A). destruct (assembled_parts _ _ _ _ _ A) as (TT & PP & _).
  destruct PP as [PH PV']; [intro X; rewrite X in TY; destruct TY as [Y|[Y|Y]]; discriminate|]. rewrite PV in PV'. injection PV' as <-.
  destruct (cycling_controls _ _ _ _ _ _ _ H NE SE) as (PL & CT & IP). specialize (IP A0).
  destruct (C65_runs_its_system _ _ _ _ _ _ _ _ H SIM) as (_ & KS). cbv zeta in KS.
  assert (Piv : (0 < iv)%Z) by (destruct LA as [(_ & _ & ->)|(_ & _ & ->)]; lia).
  assert (DV : exists N, (Z.of_nat N * iv = total)%Z).
  { exists (Z.to_nat (total / iv)). destruct LA as [(_ & -> & ->)|(_ & -> & ->)]; reflexivity. }
  destruct DV as (N & EN).
  set (slope := steepness T). assert (SL : 0 < slope) by (apply steepness_pos).
  set (ctl := day_ctl (ep_storage p) on_t sensor off_sensor off_t) in *.
  assert (Hon : forall hour, ep_supply p <= ct_on_trigger (ctl hour) /\ ct_on_trigger (ctl hour) <= ep_storage p) by (intro hour; cbn; auto).
  assert (Hoff : forall hour, ct_on_trigger (ctl hour) <= ct_off_trigger (ctl hour)) by (intro hour; cbn; apply ORD; apply mod_lt).
  assert (Hsens : forall hour, ct_on_sensor (ctl hour) <= 1) by (intro hour; cbn; apply ORD; apply mod_lt).
  assert (Hout : forall hour, ct_outlet (ctl hour) = ep_storage p) by (intro hour; reflexivity).
  set (b := en_building e) in *.
  assert (LD' : forall n, (n < N)%nat -> bd_load b (Z.of_nat n) iv (has_schedule p) = Ok (d n) /\ 0 <= d n) by (intros n L; apply LD; rewrite <- EN; apply Z.mul_lt_mono_pos_r; lia).
  assert (LE : forall j, left j = hot_reserve vol slope (ep_storage p) (ct_on_sensor (ctl (hour_of (Z.of_nat j) iv))) (ct_on_trigger (ctl (hour_of (Z.of_nat j) iv)))).
  { intro j. unfold ctl. rewrite hour_at_ctl by exact Piv. reflexivity. }
  assert (LO : forall j, stop j = hot_reserve vol slope (ep_storage p) (ct_off_sensor (ctl (hour_of (Z.of_nat j) iv))) (ct_off_trigger (ctl (hour_of (Z.of_nat j) iv)))).
  { intro j. unfold ctl. rewrite hour_at_ctl by exact Piv. reflexivity. }
  (* the state the simulation starts from *)
  assert (INI : forall s s0, bs_heaters s = primary_heaters (en_system e) -> s = base_parts p hs vol slope -> init_base b s = Ok s0 ->
            exists y, hot_state hs (ep_supply p) (ep_storage p) vol slope cold warm s0 false y).
  { intros s s0 EH ES E0. unfold init_base in E0. destruct (bind_ok _ _ _ E0) as (di & Edi & E1). clear E0. cbv zeta in E1. apply ok_inj in E1. rewrite (DI _ Edi) in E1. rewrite EH in E1.
    set (pu := initial_percent (primary_heaters (en_system e))) in *. subst s. cbn [base_parts bs_tank bs_supply bs_storage] in E1. subst s0.
    assert (W : st_wf (st_new vol slope)) by (split; [exact V0|exact SL]).
    pose proof (init_hot (st_new vol slope) (ep_storage p) start pu W) as IH. cbn [st_new st_vol st_slope] in IH.
    set (z := (ep_storage p - start) / (100 * slope)) in *. assert (Z0 : 0 <= z) by (unfold z; apply qdiv_nonneg; lra).
    exists (vol * (pu - z)).
    constructor; cbn [bs_heaters bs_supply bs_storage bs_tank]; try reflexivity; [rewrite PH; apply same_all_refl|intros h I; exact (new_off _ _ _ _ H TY I)| |].
    - setoid_replace vol with (vol * 1) at 2 by ring. apply Qmult_le_l; [exact V0|]. lra.
    - eexists. split; [reflexivity|]. cbn [st_initialize st_vol st_slope st_inlet st_outlet st_new]. split; [reflexivity|]. split; [reflexivity|]. split; [exact ST1|]. split; [exact ST2|]. split; [reflexivity|]. exact IH. }
  assert (LEN : forall outs, reported (ep_supply p) thr maxm total iv outs r -> (length outs <= N)%nat).
  { intros outs RP. pose proof (rp_length _ _ _ _ _ _ _ RP) as L. rewrite <- EN in L. apply Zmult_le_reg_r in L; lia. }
  (* the steps *)
  assert (FIN : forall (St : Type) (stp : St -> Z -> Z -> res (St * step_out)) (core : St -> bsys) outs s0 y s',
     (forall t s s' o, stp s t iv = Ok (s', o) -> cycle_moves b iv hs (ep_supply p) (ep_storage p) vol slope cold warm high ctl (has_schedule p) take t (core s) (core s') o) ->
     hot_state hs (ep_supply p) (ep_storage p) vol slope cold warm (core s0) false y -> executed stp iv s0 0 outs s' ->
     reported (ep_supply p) thr maxm total iv outs r ->
     (forall s m, comes_on r s -> (forall i, (i <= m)%nat -> left s + inject_Z (Z.of_nat i) * bring <= stop (s + i)%nat) ->
        forall i x, (i <= m)%nat -> nth_error (sr_output r) (s + i) = Some x -> 0 < x) /\
     (forall s m, goes_off r s -> (forall i, (i <= m)%nat -> 0 <= left (s + i)%nat /\ left (s + i)%nat + qsum (map need (seq s i)) <= stop s) ->
        forall i x, (i <= m)%nat -> nth_error (sr_output r) (s + i) = Some x -> x == 0)).
  { intros St stp core outs s0 y s' MV HS EX RP. pose proof (LEN outs RP) as LN.
    assert (RC : sr_output r = map so_output outs) by (destruct (rp_recorded _ _ _ _ _ _ _ RP); assumption).
    assert (AT : forall i x, nth_error (sr_output r) i = Some x -> exists o, nth_error outs i = Some o /\ so_output o = x).
    { intros i x X. rewrite RC, nth_error_map in X. destruct (nth_error outs i) as [o|]; [|discriminate]. exists o. split; [reflexivity|]. injection X as <-. reflexivity. }
    split.
    - intros s m [(x0 & X0 & NZ) PV0] BAND i x I X. destruct (AT _ _ X) as (o & EO & <-). destruct (AT _ _ X0) as (o0 & EO0 & <-).
      refine (run_lasts b iv hs (ep_supply p) (ep_storage p) vol slope cold warm high ctl (has_schedule p) V0 SL Hon Hsens stp core take MV d N LD' outs s0 y s' LN HS EX s m _ _ _ i o I EO).
      + exists o0. auto.
      + intros n ->. destruct (PV0 n eq_refl) as (z & Z1 & Z2). destruct (AT _ _ Z1) as (oz & EZ & <-). exists oz. auto.
      + intros j J. rewrite <- LE, <- LO. exact (BAND j J).
    - intros s m (n & x1 & y1 & -> & X1 & NZ & Y1 & Z1) BAND i x I X. destruct (AT _ _ X) as (o & EO & <-). destruct (AT _ _ X1) as (o1 & EO1 & <-). destruct (AT _ _ Y1) as (o2 & EO2 & <-).
      refine (rest_lasts b iv hs (ep_supply p) (ep_storage p) vol slope cold warm high ctl (has_schedule p) stp core take MV d N LD' outs s0 y s' LN HS EX n m _ _ _ i o I EO).
      + exists o1. auto.
      + exists o2. auto.
      + intros j J. rewrite <- LE, <- LO. exact (BAND j J). }
  clearbody left stop.
  destruct (en_system e) as [dh s|l s|w s|dh ret flow s|x|dh] eqn:ES; cbn [type_of primary_heaters] in *; try (destruct TY as [Y|[Y|Y]]; discriminate).
  - destruct KS as (s' & E & _). unfold simulate_base in E. destruct (bind_ok _ _ _ E) as (s0 & E0 & E1). apply pair_equal_spec in TT. destruct TT as [T1 T2]. rewrite T1 in E1.
    destruct (simulate_reported _ _ _ _ _ _ _ _ _ E1) as (total' & iv' & outs & LA' & _ & EX & RP & _).
    assert (total' = total /\ iv' = iv) as [-> ->] by (destruct LA as [(L1 & -> & ->)|(L1 & -> & ->)]; destruct LA' as [(L2 & -> & ->)|(L2 & -> & ->)]; (split; reflexivity) || congruence).
    destruct A as (_ & A). destruct (INI s s0 eq_refl A E0) as (y & HS). rewrite PH in *.
    assert (TA : 0 <= take) by (cbn [loop_takes] in LT; lra).
    refine (FIN _ (base_step b) (fun s => s) outs s0 y s' _ HS EX RP).
    intros t u u' o X. eapply cycle_more; [exact TA|].
    refine (cycle_base b iv hs (ep_supply p) (ep_storage p) vol slope cold warm low high ctl (has_schedule p) Piv V0 SL _ _ Hon Hoff Hout MA CT PL L0 GK t u u' o X); assumption.
  - destruct KS as (s' & E & _). unfold simulate_parallel in E. destruct (bind_ok _ _ _ E) as (s0 & E0 & E1). apply pair_equal_spec in TT. destruct TT as [T1 T2]. rewrite T1 in E1.
    destruct (simulate_reported _ _ _ _ _ _ _ _ _ E1) as (total' & iv' & outs & LA' & _ & EX & RP & _).
    assert (total' = total /\ iv' = iv) as [-> ->] by (destruct LA as [(L1 & -> & ->)|(L1 & -> & ->)]; destruct LA' as [(L2 & -> & ->)|(L2 & -> & ->)]; (split; reflexivity) || congruence).
    destruct A as (_ & r0 & f & _ & _ & A & _). unfold init_parallel in E0. destruct (bind_ok _ _ _ E0) as (di & _ & E2). destruct (bind_ok _ _ _ E2) as (s1 & EI & E3). apply ok_inj in E3.
    destruct (INI (ps_base s) s1 eq_refl A EI) as (y & HS). rewrite PH in *. assert (EB : ps_base s0 = s1) by (rewrite <- E3; reflexivity). rewrite <- EB in HS.
    assert (TA : 0 <= take) by (cbn [loop_takes] in LT; lra).
    refine (FIN _ (parallel_step b) ps_base outs s0 y s' _ HS EX RP).
    intros t u u' o X. eapply cycle_more; [exact TA|].
    refine (cycle_parallel b iv hs (ep_supply p) (ep_storage p) vol slope cold warm low high ctl (has_schedule p) Piv V0 SL _ _ Hon Hoff Hout MA CT PL L0 GK t u u' o X); assumption.
  - destruct KS as (ret' & flow' & s' & R1 & F1 & E & _). unfold simulate_sprtp in E. destruct (bind_ok _ _ _ E) as (s0 & E0 & E1). apply pair_equal_spec in TT. destruct TT as [T1 T2]. rewrite T1 in E1.
    destruct (simulate_reported _ _ _ _ _ _ _ _ _ E1) as (total' & iv' & outs & LA' & _ & EX & RP & _).
    assert (total' = total /\ iv' = iv) as [-> ->] by (destruct LA as [(L1 & -> & ->)|(L1 & -> & ->)]; destruct LA' as [(L2 & -> & ->)|(L2 & -> & ->)]; (split; reflexivity) || congruence).
    destruct A as (_ & _ & _ & A). destruct (INI s s0 eq_refl A E0) as (y & HS). rewrite PH in *.
    destruct LT as (r1 & f1 & R2 & F2 & F0 & RS & ET). rewrite R1 in R2. injection R2 as <-. rewrite F1 in F2. injection F2 as <-.
    refine (FIN _ (sprtp_step ret' flow' b) (fun s => s) outs s0 y s' _ HS EX RP).
    intros t u u' o X.
    refine (cycle_sprtp b iv hs (ep_supply p) (ep_storage p) vol slope cold warm low high ctl (has_schedule p) Piv V0 SL _ _ Hon Hoff Hout MA CT PL L0 GK ret' flow' take t u u' o F0 RS ET X); assumption.
Qed.

(** ** C79 Cycles *)

(** Once the heaters have come on they keep heating as long as the gallons they can heat in the time, added to the
    hot gallons at which they come on, stay below the level at which the settings then in force turn them off: draws
    and the loop can only make a run longer, whatever they are and even if the water runs out. *)
Theorem C79_run : forall dt p e dur total iv vol cold warm start on_t low high take sensor off_sensor off_t d thr maxm e' r s m,
  cycling dt p e dur total iv vol cold warm start on_t low high take sensor off_sensor off_t d ->
  eng_simulate e dur thr maxm = Ok (e', r) ->
  let T := type_of (en_system e) in
  comes_on r s ->
  (forall i, (i <= m)%nat -> left_in T p iv vol on_t sensor s + inject_Z (Z.of_nat i) * heated high iv (ep_storage p) warm <= off_level T p iv vol off_sensor off_t (s + i)) ->
  forall i x, (i <= m)%nat -> nth_error (sr_output r) (s + i) = Some x -> 0 < x.
Proof.
  intros dt p e dur total iv vol cold warm start on_t low high take sensor off_sensor off_t d thr maxm e' r s m CY SIM T ON BAND.
  exact (proj1 (cycle_core _ _ _ _ _ _ _ _ _ _ _ _ _ _ _ _ _ _ _ _ _ _ CY SIM) s m ON BAND).
Qed.
Print Assumptions C79_run.

(** Once they have gone off they rest as long as the water taken since fits between the level that turned them off
    and the one at which the settings then in force turn them on. *)
Theorem C79_rest : forall dt p e dur total iv vol cold warm start on_t low high take sensor off_sensor off_t d thr maxm e' r s m,
  cycling dt p e dur total iv vol cold warm start on_t low high take sensor off_sensor off_t d ->
  eng_simulate e dur thr maxm = Ok (e', r) ->
  let T := type_of (en_system e) in
  goes_off r s ->
  (forall i, (i <= m)%nat -> 0 <= left_in T p iv vol on_t sensor (s + i) /\
     left_in T p iv vol on_t sensor (s + i) + qsum (map (takes p cold take d) (seq s i)) <= off_level T p iv vol off_sensor off_t s) ->
  forall i x, (i <= m)%nat -> nth_error (sr_output r) (s + i) = Some x -> x == 0.
Proof.
  intros dt p e dur total iv vol cold warm start on_t low high take sensor off_sensor off_t d thr maxm e' r s m CY SIM T OF BAND.
  exact (proj2 (cycle_core _ _ _ _ _ _ _ _ _ _ _ _ _ _ _ _ _ _ _ _ _ _ CY SIM) s m OF BAND).
Qed.
Print Assumptions C79_rest.

(** A run lasts at least the cycle time the short-cycling warning estimates, lengthened by as much as the mains water
    is colder than the supply temperature from which the estimate heats it; while the turn-off level of the settings
    does not fall. *)
Theorem C79_estimate : forall dt p e dur total iv vol cold warm start on_t low high take sensor off_sensor off_t d thr maxm e' r s i x,
  cycling dt p e dur total iv vol cold warm start on_t low high take sensor off_sensor off_t d ->
  eng_simulate e dur thr maxm = Ok (e', r) ->
  let T := type_of (en_system e) in
  let h := hour_at iv s in
  comes_on r s ->
  (forall j, (j <= i)%nat -> off_level T p iv vol off_sensor off_t s <= off_level T p iv vol off_sensor off_t (s + j)) ->
  inject_Z (Z.of_nat i) * qz iv * (high * 1000) * (ep_storage p - ep_supply p) <= estimated_cycle (sensor h) (off_sensor h) vol (ep_supply p) (ep_storage p) * (ep_storage p - warm) ->
  nth_error (sr_output r) (s + i) = Some x -> 0 < x.
Proof.
  intros dt p e dur total iv vol cold warm start on_t low high take sensor off_sensor off_t d thr maxm e' r s i x CY SIM T h ON LVL EST X.
  refine (C79_run _ _ _ _ _ _ _ _ _ _ _ _ _ _ _ _ _ _ _ _ _ _ s i CY SIM ON _ i x (le_n i) X).
  intros j J. apply Qle_trans with (off_level T p iv vol off_sensor off_t s); [|exact (LVL j J)].
  destruct CY as [_ _ _ [_ V0] _ [_ ORD] (CW & WS & SO & OS & SS) LA _ _ [L0 GB] _ _]. assert (HL : (h < 24)%nat) by apply hour_at_lt. destruct (ORD h HL) as (S1 & S2 & S3).
  unfold left_in, off_level, hot_reserve, estimated_cycle in *. fold h. fold T. set (sl := steepness T). assert (SL : 0 < sl) by apply steepness_pos.
  set (on := sensor h) in *. set (of := off_sensor h) in *. set (tf := off_t h) in *. set (st := ep_storage p) in *. set (su := ep_supply p) in *.
  assert (TT : (st - tf) / (100 * sl) <= (st - on_t) / (100 * sl)) by (unfold Qdiv; apply Qmult_le_compat_r; [lra|apply Qinv_le_0_compat; lra]).
  assert (B : inject_Z (Z.of_nat j) * heated high iv st warm <= vol * (on - of)).
  { assert (H0 : 0 <= high \/ high < 0) by (destruct (Qlt_le_dec high 0); auto).
    unfold heated. assert (RP : 0 < rho_cp) by reflexivity. assert (K : 0 < rho_cp * (st - warm)) by (apply qmul_pos; lra).
    assert (QI : 0 <= qz iv) by (destruct LA as [(_ & _ & ->)|(_ & _ & ->)]; discriminate).
    assert (IJ : 0 <= inject_Z (Z.of_nat j) /\ inject_Z (Z.of_nat j) <= inject_Z (Z.of_nat i)) by (split; [change 0 with (inject_Z 0)|]; rewrite <- Zle_Qle; lia).
    set (nj := inject_Z (Z.of_nat j)) in *. set (ni := inject_Z (Z.of_nat i)) in *. set (v := qz iv) in *.
    assert (VB : 0 <= vol * (on - of)) by (apply Qmult_le_0_compat; lra).
    setoid_replace (nj * (high * 1000 * v / 60 / (rho_cp * (st - warm)))) with (nj * v * (high * 1000) / 60 / (rho_cp * (st - warm))) by (field; split; [lra|exact rho_nz]).
    apply Qle_shift_div_r; [exact K|]. 
    destruct H0 as [H0|H0].
    - assert (A1 : nj * v * (high * 1000) <= ni * v * (high * 1000)) by (apply Qmult_le_compat_r; [apply Qmult_le_compat_r; lra|lra]).
      assert (A2 : ni * v * (high * 1000) <= (on - of) * vol * rho_cp * (st - warm) * 60).
      { assert (P : 0 < st - su) by lra. apply (Qmult_le_r _ _ (st - su) P). 
        setoid_replace ((on - of) * vol * rho_cp * (st - warm) * 60 * (st - su)) with ((on - of) * vol * rho_cp * (st - su) * 60 * (st - warm)) by ring. exact EST. }
      setoid_replace (vol * (on - of) * (rho_cp * (st - warm))) with ((on - of) * vol * rho_cp * (st - warm) * 60 / 60) by field.
      apply Qmult_le_compat_r; [lra|discriminate].
    - assert (A1 : 0 <= nj * v * - (high * 1000)) by (apply Qmult_le_0_compat; [apply Qmult_le_0_compat; lra|lra]).
      assert (A2 : 0 <= vol * (on - of) * (rho_cp * (st - warm))) by (apply Qmult_le_0_compat; lra).
      setoid_replace (nj * v * (high * 1000) / 60) with (- (nj * v * - (high * 1000) / 60)) by field.
      assert (0 <= nj * v * - (high * 1000) / 60) by (apply qdiv_nonneg; [exact A1|reflexivity]). lra. }
  assert (E : vol * (1 - on - (st - on_t) / (100 * sl)) + vol * (on - of) <= vol * (1 - of - (st - tf) / (100 * sl))).
  { setoid_replace (vol * (1 - on - (st - on_t) / (100 * sl)) + vol * (on - of)) with (vol * (1 - of - (st - on_t) / (100 * sl))) by ring. apply Qmult_le_l; [exact V0|lra]. }
  lra.
Qed.
Print Assumptions C79_estimate.

(** Where sizing does not warn of short cycling (C63), no run is shorter than ten minutes. *)
Theorem C79_unwarned : forall dt p e dur total iv vol cold warm start on_t low high take sensor off_sensor off_t d thr maxm e' r s i x,
  cycling dt p e dur total iv vol cold warm start on_t low high take sensor off_sensor off_t d ->
  eng_simulate e dur thr maxm = Ok (e', r) ->
  let T := type_of (en_system e) in
  let h := hour_at iv s in
  ~ deadband_heat (mkControls (sensor h) on_t (off_sensor h) (off_t h) (ep_storage p)) vol (ep_supply p) (ep_storage p) * 60 < high * 1000 * 10 ->
  comes_on r s ->
  (forall j, (j <= i)%nat -> off_level T p iv vol off_sensor off_t s <= off_level T p iv vol off_sensor off_t (s + j)) ->
  (Z.of_nat i * iv <= 10)%Z -> nth_error (sr_output r) (s + i) = Some x -> 0 < x.
Proof.
  intros dt p e dur total iv vol cold warm start on_t low high take sensor off_sensor off_t d thr maxm e' r s i x CY SIM T h NW ON LVL I10 X.
  refine (C79_estimate _ _ _ _ _ _ _ _ _ _ _ _ _ _ _ _ _ _ _ _ _ _ s i x CY SIM ON LVL _ X).
  destruct CY as [_ _ _ [_ V0] _ [_ ORD] (CW & WS & SO & OS & SS) LA _ _ [L0 GB] _ _]. assert (HL : (h < 24)%nat) by apply hour_at_lt. destruct (ORD h HL) as (S1 & S2 & S3).
  fold h. unfold deadband_heat in NW. cbn [ct_on_sensor ct_off_sensor] in NW. apply Qnot_lt_le in NW. unfold estimated_cycle.
  set (a := (sensor h - off_sensor h) * vol * rho_cp * (ep_storage p - ep_supply p) * 60) in *.
  assert (A0 : 0 <= a). { unfold a. apply Qmult_le_0_compat; [|discriminate]. apply Qmult_le_0_compat; [|lra]. apply Qmult_le_0_compat; [|discriminate]. apply Qmult_le_0_compat; lra. }
  assert (IV : inject_Z (Z.of_nat i) * qz iv <= 10). { unfold qz. rewrite <- inject_Z_mult. change 10 with (inject_Z 10). rewrite <- Zle_Qle. exact I10. }
  assert (I0 : 0 <= inject_Z (Z.of_nat i) * qz iv). { unfold qz. rewrite <- inject_Z_mult. change 0 with (inject_Z 0). rewrite <- Zle_Qle. destruct LA as [(_ & _ & ->)|(_ & _ & ->)]; lia. }
  set (n := inject_Z (Z.of_nat i) * qz iv) in *.
  assert (B : n * (high * 1000) <= a).
  { destruct (Qlt_le_dec high 0) as [Z|Z].
    - assert (0 <= n * - (high * 1000)) by (apply Qmult_le_0_compat; lra). lra.
    - assert (n * (high * 1000) <= 10 * (high * 1000)) by (apply Qmult_le_compat_r; lra). lra. }
  apply Qle_trans with (a * (ep_storage p - ep_supply p)).
  - apply Qmult_le_compat_r; [exact B|lra].
  - rewrite !(Qmult_comm a). apply Qmult_le_compat_r; [lra|exact A0].
Qed.
Print Assumptions C79_unwarned.

(** The heaters of a system that was sized give exactly the capacity it reports, in any weather. *)
Theorem C79_sized_heaters : forall dt p e cap iv storage, eng_new dt p = Ok e -> ep_volume p = None -> type_of (en_system e) <> InstantWH ->
  sized_capacity e = Some cap -> give_between (en_building e) iv (primary_heaters (en_system e)) storage cap cap.
Proof.
  intros dt p e cap iv storage H EV TY SC.
  destruct (new_inv _ _ _ H) as (b & sched & m & EB & EC & [(vol' & hs & EV' & _)|(_ & ES & [(d & ED & _)|(c & v & hs & MC & _ & (h & -> & W1 & _) & AS & _)])]); [congruence|rewrite ED in TY; contradiction|].
  destruct (assembled_parts _ _ _ _ _ AS) as (_ & PH & _). destruct (PH TY) as [-> _]. unfold sized_capacity, eng_results in SC. cbv zeta in SC. cbn [fst] in SC. rewrite MC in SC. injection SC as ->.
  intros t oat inlet l _ _ F. inversion F as [|h' x hs l' (c & C1 & ->) F']; subst. inversion F'; subst.
  unfold wh_capacity in C1. rewrite W1 in C1. cbn in C1. apply ok_inj in C1. subst c. cbn. split; lra.
Qed.
Print Assumptions C79_sized_heaters.

(** ** Cases *)

Lemma ex_shift_heats : first_minute_heats (eng_new ex_data ex_shift) = true.
Proof. vm_compute. reflexivity. Qed.

Lemma ex_shift_gives : exists e, eng_new ex_data ex_shift = Ok e /\ primary_heaters (en_system e) <> [] /\ give_between (en_building e) 1 (primary_heaters (en_system e)) 150 200 200.
Proof.
  eexists. split; [vm_compute; reflexivity|]. cbn [en_system primary_heaters en_building bs_heaters]. split; [discriminate|].
  intros t oat inlet l _ _ F. inversion F as [|h' x hs l' (c & C1 & ->) F']; subst. inversion F' as [|h2 x2 hs2 l2 (c2 & C2 & ->) F2]; subst. inversion F2; subst.
  cbn in C1, C2. apply ok_inj in C1. apply ok_inj in C2. subst c c2. split; apply Qle_bool_iff; vm_compute; reflexivity.
Qed.

Lemma ex_cycling : exists e e' r, cycling ex_data ex_shift e "3day" 4320 1 1000 50 50 50 120 200 200 0 ex_sensor ex_off (fun _ => 150) ex_draw /\
  type_of (en_system e) = PrimaryNoRecirc /\ eng_simulate e "3day" 5 60 = Ok (e', r) /\ comes_on r 0 /\
  (forall n, (n < 500)%nat -> exists x, nth_error (sr_output r) n = Some x) /\ forall n, (300 <= n < 420)%nat -> forall x, nth_error (sr_output r) n = Some x -> x == 0.
Proof.
  destruct C78_case as (e & e' & r & N & SH & SIM & NO & REST). destruct ex_shift_gives as (e0 & N0 & NE & GB). assert (e0 = e) by congruence. subst e0.
  destruct ex_shift_engine as (e0 & N1 & T & EB & _). assert (e0 = e) by congruence. subst e0. clear N1 N0.
  exists e, e', r. split; [|split; [exact T|split; [exact SIM|split; [|split]]]].
  - destruct SH. split; try assumption.
    + intros h L. left. exists ex_shed. split; [split; [reflexivity|discriminate]|]. apply ex_settings, L.
    + split; [discriminate|]. intros h L. unfold ex_sensor, ex_off. do 24 (destruct h as [|h]; [repeat split; discriminate|]). lia.
    + repeat split; (discriminate || reflexivity).
    + split; [reflexivity|exact GB].
  - pose proof ex_shift_heats as FO. rewrite N in FO.
    destruct (C65_runs_its_system _ _ _ _ _ _ _ _ N SIM) as (_ & K). cbv zeta in K. cbn [first_minute_heats] in FO. destruct (en_system e) as [dh s| | | | |]; try discriminate T. destruct K as (s' & E & _).
    unfold simulate_base in E. destruct (bind_ok _ _ _ E) as (s0 & E0 & E1). clear E. rewrite E0 in FO. cbn [bind] in FO.
    destruct (simulate_reported _ _ _ _ _ _ _ _ _ E1) as (total & iv & outs & LA & _ & EX & RP & _).
    destruct LA as [(_ & -> & ->)|(X & _)]; [|discriminate X]. destruct outs as [|o outs].
    + exfalso. destruct (sr_stopped r) eqn:SR.
      * apply (rp_stopped _ _ _ _ _ _ _ RP) in SR. destruct SR as (n & N1 & (N2 & N3) & _). clear - N1 N2 N3. cbn [length] in N1, N2, N3. destruct (N3 0%nat) as (o & EO & _); [lia|discriminate EO].
      * pose proof (rp_full _ _ _ _ _ _ _ RP SR) as X. discriminate X.
    + destruct EX as (s1 & ES & _). rewrite ES in FO. split; [|intros n X; discriminate X]. exists (so_output o).
      split; [rewrite (rc_output _ _ (rp_recorded _ _ _ _ _ _ _ RP)); reflexivity|]. apply Qle_bool_iff in FO. intro Z. rewrite Z in FO. apply FO. reflexivity.
  - destruct (C65_runs_its_system _ _ _ _ _ _ _ _ N SIM) as (_ & K). cbv zeta in K. destruct (en_system e) as [dh s| | | | |]; try discriminate T. destruct K as (s' & E & _).
    unfold simulate_base in E. destruct (bind_ok _ _ _ E) as (s0 & E0 & E1). clear E.
    destruct (simulate_reported _ _ _ _ _ _ _ _ _ E1) as (total & iv & outs & LA & _ & EX & RP & _).
    destruct LA as [(_ & -> & ->)|(X & _)]; [|discriminate X]. pose proof (rp_full _ _ _ _ _ _ _ RP (no_stop _ _ _ _ NO ltac:(discriminate))) as FL.
    rewrite (rc_output _ _ (rp_recorded _ _ _ _ _ _ _ RP)). intros n L. rewrite nth_error_map. destruct (nth_error outs n) as [o|] eqn:EO; [eexists; reflexivity|].
    apply nth_error_None in EO. exfalso. clear -EO FL L. lia.
  - intros n L x X. destruct (REST n L) as (_ & Z & _). exact (Z x X).
Qed.

(** In the simulated design days the heaters start at midnight and run through minute 100 at least; they go off
    before the shed of hour 5, and then rest for an hour at least. *)
Example C79_case : exists e e' r, cycling ex_data ex_shift e "3day" 4320 1 1000 50 50 50 120 200 200 0 ex_sensor ex_off (fun _ => 150) ex_draw /\
  eng_simulate e "3day" 5 60 = Ok (e', r) /\
  (forall n x, (n <= 100)%nat -> nth_error (sr_output r) n = Some x -> 0 < x) /\
  exists s, (100 < s <= 300)%nat /\ goes_off r s /\ forall i x, (i <= 60)%nat -> nth_error (sr_output r) (s + i) = Some x -> x == 0.
Proof.
  destruct ex_cycling as (e & e' & r & CY & T & SIM & ON & LEN & REST). exists e, e', r. split; [exact CY|]. split; [exact SIM|].
  assert (RUN : forall n x, (n <= 100)%nat -> nth_error (sr_output r) n = Some x -> 0 < x).
  { intros n x L X. refine (C79_run _ _ _ _ _ _ _ _ _ _ _ _ _ _ _ _ _ _ _ _ _ _ 0 100 CY SIM ON _ n x L X). rewrite T. intros i I. cbn [Nat.add].
    assert (H : (hour_at 1 i < 3)%nat).
    { unfold hour_at. rewrite Z.mul_1_r. assert (Z.of_nat i / 60 < 3)%Z by (apply Z.div_lt_upper_bound; lia). assert (0 <= Z.of_nat i / 60)%Z by (apply Z.div_pos; lia). rewrite Z.mod_small by lia. lia. }
    unfold off_level. set (h := hour_at 1 i) in *. clearbody h. apply Qle_trans with 899; [|do 3 (destruct h as [|h]; [discriminate|]); lia].
    assert (B : heated 200 1 (ep_storage ex_shift) 50 <= 4) by discriminate. set (br := heated 200 1 (ep_storage ex_shift) 50) in *. clearbody br.
    assert (LF : left_in PrimaryNoRecirc ex_shift 1 1000 120 ex_sensor 0 <= 494) by discriminate. set (l0 := left_in PrimaryNoRecirc ex_shift 1 1000 120 ex_sensor 0) in *. clearbody l0.
    assert (I0 : 0 <= inject_Z (Z.of_nat i) <= 100) by (split; [change 0 with (inject_Z 0)|change 100 with (inject_Z 100)]; rewrite <- Zle_Qle; lia).
    set (q := inject_Z (Z.of_nat i)) in *. clearbody q. assert (q * br <= q * 4) by (rewrite !(Qmult_comm q); apply Qmult_le_compat_r; lra). lra. }
  split; [exact RUN|].
  assert (GO : exists s, (100 < s <= 300)%nat /\ goes_off r s).
  { assert (D : forall k, (k <= 200)%nat -> (exists s, (100 < s <= 100 + k)%nat /\ goes_off r s) \/ exists x, nth_error (sr_output r) (100 + k) = Some x /\ ~ x == 0).
    { induction k as [|k IH]; intro K.
      - right. destruct (LEN 100%nat) as (x & X); [lia|]. exists x. replace (100 + 0)%nat with 100%nat by lia. split; [exact X|]. specialize (RUN 100%nat x (le_n _) X). intro E. rewrite E in RUN. discriminate RUN.
      - destruct IH as [(s & L & G)|(x & X & NX)]; [lia|left; exists s; split; [lia|exact G]|].
        destruct (LEN (100 + S k)%nat) as (y & Y); [lia|]. destruct (Qeq_dec y 0) as [E|E]; [|right; exists y; auto].
        left. exists (100 + S k)%nat. split; [lia|]. exists (100 + k)%nat, x, y. split; [lia|]. auto. }
    destruct (D 200%nat (le_n _)) as [(s & L & G)|(x & X & NX)]; [exists s; split; [lia|exact G]|].
    exfalso. apply NX. refine (REST _ _ x X). lia. }
  destruct GO as (s & L & G). exists s. split; [exact L|]. split; [exact G|].
  intros i x I X. refine (C79_rest _ _ _ _ _ _ _ _ _ _ _ _ _ _ _ _ _ _ _ _ _ _ s 60 CY SIM G _ i x I X). rewrite T. clear i x I X. intros i I.
  assert (ND : forall j, 0 <= takes ex_shift 50 0 ex_draw j <= 3 # 2).
  { intro j. unfold takes, blended, ex_draw. change (ep_supply ex_shift) with 120. change (ep_storage ex_shift) with 150. change (qz 1) with 1. pose proof (ex_shape_bound (hour_at 1 j)).
    setoid_replace (1000 * nth (hour_at 1 j) ex_shape 0 * 1 / 60 * (120 - 50) / (150 - 50) + 0) with (nth (hour_at 1 j) ex_shape 0 * (35 # 3)) by field. lra. }
  assert (SN : qsum (map (takes ex_shift 50 0 ex_draw) (seq s i)) <= inject_Z (Z.of_nat i) * (3 # 2)).
  { clear - ND. revert s. induction i as [|i IH]; intro s; [discriminate|]. cbn [seq map qsum]. rewrite Nat2Z.inj_succ. unfold Z.succ. rewrite inject_Z_plus. change (inject_Z 1) with 1. specialize (IH (S s)). specialize (ND s). lra. }
  assert (I0 : inject_Z (Z.of_nat i) <= 60) by (change 60 with (inject_Z 60); rewrite <- Zle_Qle; lia).
  assert (HH : forall j, (Z.of_nat j / 60 < 24)%Z -> hour_at 1 j = Z.to_nat (Z.of_nat j / 60)).
  { intros j J. unfold hour_at. rewrite Z.mul_1_r, Z.mod_small; [reflexivity|]. split; [apply Z.div_pos; lia|exact J]. }
  assert (J6 : (Z.of_nat (s + i) / 60 < 7)%Z) by (apply Z.div_lt_upper_bound; lia). assert (JS : (Z.of_nat s / 60 < 6)%Z) by (apply Z.div_lt_upper_bound; lia).
  assert (SP : (0 <= Z.of_nat s / 60)%Z) by (apply Z.div_pos; lia).
  assert (MO : (Z.of_nat s / 60 <= Z.of_nat (s + i) / 60)%Z) by (apply Z.div_le_mono; lia).
  unfold left_in, off_level. rewrite !HH by lia. set (a := Z.to_nat (Z.of_nat s / 60)). set (b := Z.to_nat (Z.of_nat (s + i) / 60)).
  assert (AB : (a <= b < 7)%nat /\ (a < 6)%nat) by (unfold a, b; lia). clearbody a b. set (sn := qsum _) in *. clearbody sn.
  assert (LB : 90 <= hot_reserve 1000 (steepness PrimaryNoRecirc) (ep_storage ex_shift) (ex_sensor b) 120 /\ hot_reserve 1000 (steepness PrimaryNoRecirc) (ep_storage ex_shift) (ex_sensor b) 120 <= (if (b <? 5)%nat then 695 else 95)).
  { destruct AB as [[_ B] _]. clear - B. do 7 (destruct b as [|b]; [split; discriminate|]). lia. }
  assert (OA : (if (a <? 5)%nat then 899 else 499) <= hot_reserve 1000 (steepness PrimaryNoRecirc) (ep_storage ex_shift) (ex_off a) 150).
  { destruct AB as [_ B]. clear - B. do 6 (destruct a as [|a]; [discriminate|]). lia. }
  split; [lra|]. destruct (Nat.ltb_spec a 5) as [A|A]; destruct (Nat.ltb_spec b 5) as [B|B]; try lra. exfalso. lia.
Qed.
