(** C91 for swing-tank systems: a run without an outage has made the heat it delivered and the heat its loop lost. *)
From Verif Require Import Prelude M_StratifiedTank S_StratifiedTank L_StratifiedTank L_StratifiedTank2 L_StratifiedTank3
  M_MixedTank L_MixedTank M_Building S_Building L_Building M_Heater S_Heater L_Heater M_Sizing S_Sizing M_SimRun S_SimRun L_SimRun L_SimMisc M_Step S_Step L_Step L_Step2 L_Step3 L_Step4 L_Step6
  M_Swing M_MPRTP M_Engine S_Engine S_EngineRun S_EngineSize L_Engine L_Engine2 L_Engine6 L_Engine8 S_Lasts S_Lasts2 L_Lasts L_Lasts2 L_Lasts3 S_Audit S_Audit2 L_Audit L_Audit2
  P_Sizing P_Engine P_Engine2 P_Engine6 P_Engine7 P_Lasts P_Lasts2 P_Audit.
Open Scope Q_scope.

Lemma swing_load b w t iv w' o : swing_sim_step b w t iv = Ok (w', o) -> exists avg, bd_load b t iv avg = Ok (so_demand o).
Proof.
  intro H. destruct (swing_step_inv _ _ _ _ _ _ H) as (outlet & hs & tk1 & hw & feed & sw1 & sw2 & el & sw3 & tk2 & tmo & Ed & _). eexists. exact Ed.
Qed.

(** A new swing-tank engine, with or without a load-shift schedule, on mains water between [cold] and [warm] degrees
    and with no step asking for more than a swing tankful.  If the record of a run shows no outage, the heat in the
    water the building took and the heat the loop lost are covered by one primary tankful of hot water, the heat the
    recorded outputs of the water heaters and of the swing tank's element add up to, and what the swing tank lost
    between its initial and its last recorded temperature: no heat comes from nowhere. *)
Theorem C91_swing_heat_is_made : forall dt p e dur thr maxm e' r total iv vol tv el cold warm ret flow,
  eng_new dt p = Ok e -> type_of (en_system e) = SwingTank ->
  primary_volume (en_system e) = Some vol -> 0 < vol -> second_tank (en_system e) = Some (tv, el) -> 0 < tv -> lasts dur total iv ->
  ep_return p = Some ret -> ep_flow p = Some flow -> ret <= ep_supply p -> 0 <= flow ->
  warm < ep_supply p -> ep_supply p <= ep_storage p ->
  let b := en_building e in
  (forall t x, bd_inlet b t iv = Ok x -> cold <= x /\ x <= warm) ->
  (forall di, bd_design_inlet b = Ok di -> cold <= sim_inlet di <= warm) ->
  (forall t avg x, bd_load b t iv avg = Ok x -> 0 <= x <= tv) ->
  eng_simulate e dur thr maxm = Ok (e', r) -> sr_outage r = 0%Z ->
  heat_taken r (ep_supply p) warm + loop_took r (loop_kbtuh (ep_supply p) ret flow)
  <= heat_held vol (ep_storage p) warm + heat_made r + element_made r
     + heat_held tv (ep_supply p + 8) (last_swing_temp r (ep_supply p + 8)).
Proof.
  intros dt p e dur thr maxm e' r total iv vol tv el cold warm ret flow H TY PV V0 ST2 TV LA ER EF RS F0 WS SS b MA DI LD SIM NO.
  destruct (engine_assembled _ _ _ H) as (hs & vol0 & A). destruct (assembled_parts _ _ _ _ _ A) as (T & PP & _).
  destruct PP as [PH PV']; [rewrite TY; discriminate|]. rewrite PV in PV'. injection PV' as <-.
  pose proof (outlets_storage _ _ _ H) as CT.
  destruct (C65_runs_its_system _ _ _ _ _ _ _ _ H SIM) as (_ & KS). cbv zeta in KS.
  assert (Piv : (0 < iv)%Z) by (destruct LA as [(_ & _ & ->)|(_ & _ & ->)]; lia).
  set (slope := 28 # 10) in *. assert (SL : 0 < slope) by reflexivity.
  destruct (en_system e) as [dh s|l s|w s|dh r0 f0 s|x|dh] eqn:ES; try discriminate TY. cbn [primary_heaters primary_volume second_tank] in *.
  destruct KS as (s' & E & _). unfold simulate_swing in E. destruct (bind_ok _ _ _ E) as (s0 & E0 & E1). clear E.
  destruct A as (_ & r1 & f1 & tv1 & tc1 & R1 & F1 & A). rewrite ER in R1. injection R1 as <-. rewrite EF in F1. injection F1 as <-.
  assert (SUP : ws_supply s = ep_supply p) by (rewrite A; reflexivity). rewrite SUP in E1.
  destruct (simulate_reported _ _ _ _ _ _ _ _ _ E1) as (total' & iv' & outs & LA' & _ & EX & RP & _).
  assert (total' = total /\ iv' = iv) as [-> ->] by (destruct LA as [(L1 & -> & ->)|(L1 & -> & ->)]; destruct LA' as [(L2 & -> & ->)|(L2 & -> & ->)]; (split; reflexivity) || congruence).
  injection ST2 as ETV EEL.
  assert (WT : ws_tank s = st_new vol slope) by (rewrite A; reflexivity). assert (WSG : ws_storage s = ep_storage p) by (rewrite A; reflexivity).
  assert (INI : exists y T0, swing_account hs (ep_supply p) (ep_storage p) vol slope cold warm ret flow tv s0 y T0 /\ y <= vol /\ T0 == ep_supply p + 8).
  { unfold init_swing in E0. destruct (bind_ok _ _ _ E0) as (di & Edi & E2). clear E0. cbv zeta in E2. destruct (bind_ok _ _ _ E2) as (off & EO & E3). clear E2. apply ok_inj in E3. destruct (DI _ Edi) as [D1 D2].
    pose proof (pu_range (ws_heaters s)) as PU. set (pu := initial_percent (ws_heaters s)) in *.
    assert (EOF : off == ep_supply p + 8).
    { rewrite A in EO. unfold ws_off_temp in EO. cbn [ws_element] in EO. unfold swing_element in EO.
      destruct (bind_ok _ _ _ EO) as (ct & C1 & C2). vm_compute in C1. apply ok_inj in C1. subst ct. apply ok_inj in C2. cbn [ct_off_trigger] in C2. subst off. reflexivity. }
    set (start := sim_inlet di) in *.
    assert (W : st_wf (st_new vol slope)) by (split; [exact V0|exact SL]).
    pose proof (init_hot (st_new vol slope) (ep_storage p) start pu W) as IH. cbn [st_new st_vol st_slope] in IH.
    assert (W' : st_wf (st_initialize (st_new vol slope) (ep_storage p) start pu)) by (split; [exact V0|exact SL]).
    pose proof (hot_shift _ (ep_supply p) (ep_storage p) W') as HS. change (st_vol (st_initialize (st_new vol slope) (ep_storage p) start pu)) with vol in HS. change (st_slope (st_initialize (st_new vol slope) (ep_storage p) start pu)) with slope in HS.
    exists (hot (st_initialize (st_new vol slope) (ep_storage p) start pu) (ep_supply p)), off. split; [|split; [|exact EOF]].
    - subst s0. constructor; cbn [ws_return ws_flow ws_swing mx_initialize mx_vol mx_temp].
      + constructor; cbn [ws_heaters ws_tank ws_supply ws_storage bs_heaters bs_supply bs_storage bs_tank]; try (rewrite A; reflexivity).
        * rewrite PH. apply same_all_refl.
        * eexists. split; [reflexivity|]. rewrite WT, WSG. cbn [st_initialize st_vol st_slope st_inlet st_outlet st_new]. split; [reflexivity|]. split; [reflexivity|]. split; [exact D1|]. split; [exact D2|]. reflexivity.
      + rewrite A. reflexivity.
      + rewrite A. reflexivity.
      + exact ETV.
      + reflexivity.
    - rewrite HS, IH.
      setoid_replace (vol * (pu - (ep_storage p - start) / (100 * slope)) + vol * (ep_storage p - ep_supply p) / (100 * slope)) with (vol * (pu - (ep_supply p - start) / (100 * slope))) by (field; discriminate).
      assert (0 <= (ep_supply p - start) / (100 * slope)) by (apply qdiv_nonneg; lra).
      setoid_replace vol with (vol * 1) at 2 by ring. apply Qmult_le_l; [exact V0|]. lra. }
  destruct INI as (y & T0 & HS & YV & ET0). rewrite PH in CT.
  pose proof (rp_recorded _ _ _ _ _ _ _ RP) as RC. pose proof (rp_interval _ _ _ _ _ _ _ RP) as RI.
  pose proof (no_outage_usable outs r RC ltac:(lia) NO) as US.
  pose proof (executed_loads (swing_sim_step b) b iv (fun s t s' o => swing_load b s t iv s' o) outs s0 0%Z s' EX) as LO'.
  assert (DM : forall o, In o outs -> 0 <= so_demand o <= tv) by (intros o I; destruct (LO' o I) as (t & avg & E); exact (LD _ _ _ E)).
  destruct (swing_run_audit b iv hs (ep_supply p) (ep_storage p) vol slope cold warm ret flow tv Piv V0 SL WS SS TV F0 RS MA CT outs 0%Z s0 y T0 s' HS EX (fun o I => conj (US o I) (DM o I))) as (y' & _ & P' & LE).
  assert (RP0 : 0 < rho_cp) by reflexivity. assert (SW : 0 < ep_storage p - warm) by lra.
  unfold heat_taken, loop_took, heat_held, heat_made, element_made, last_swing_temp, loop_kbtuh, step_hours.
  rewrite RI, (rc_demand _ _ RC), (rc_output _ _ RC), (rc_tm_temp _ _ RC), (rc_tm_output _ _ RC), map_length.
  assert (Y0 : y * (rho_cp * (ep_storage p - warm)) <= vol * (rho_cp * (ep_storage p - warm))) by (apply Qmult_le_compat_r; [exact YV|apply Qmult_le_0_compat; lra]).
  destruct outs as [|o outs].
  - cbn [map somes last length] in *. change (qsum (@nil Q)) with 0 in *. change (qz (Z.of_nat 0)) with 0 in *.
    assert (0 <= vol * rho_cp * (ep_storage p - warm)) by (apply Qmult_le_0_compat; [apply Qmult_le_0_compat; lra|lra]). lra.
  - specialize (P' ltac:(discriminate)). assert (Y1 : 0 <= y' * rho_cp * (ep_storage p - warm)) by (apply Qmult_le_0_compat; [apply Qmult_le_0_compat; lra|lra]).
    assert (LST : last (somes (map so_tm_temp (o :: outs))) T0 = last (somes (map so_tm_temp (o :: outs))) (ep_supply p + 8)).
    { destruct EX as (s1 & ST1 & _). destruct (swing_audit b iv hs (ep_supply p) (ep_storage p) vol slope cold warm ret flow tv Piv V0 SL WS SS TV F0 RS MA CT _ _ _ _ _ _ ST1 HS (US o (or_introl eq_refl)) (DM o (or_introl eq_refl))) as (y1 & T1 & tmo & _ & _ & ETT & _).
      cbn [map]. rewrite ETT. cbn [somes]. rewrite !last_cons. reflexivity. }
    rewrite LST in LE. set (L := last (somes (map so_tm_temp (o :: outs))) (ep_supply p + 8)) in *.
    assert (TT : tv * T0 * rho_cp == tv * (ep_supply p + 8) * rho_cp) by (rewrite ET0; reflexivity). rewrite TT in LE. lra.
Qed.
Print Assumptions C91_swing_heat_is_made.

(** Read the other way: a run asked for more heat than that shows an outage. *)
Theorem C91_swing_shortage_shows : forall dt p e dur thr maxm e' r total iv vol tv el cold warm ret flow,
  eng_new dt p = Ok e -> type_of (en_system e) = SwingTank ->
  primary_volume (en_system e) = Some vol -> 0 < vol -> second_tank (en_system e) = Some (tv, el) -> 0 < tv -> lasts dur total iv ->
  ep_return p = Some ret -> ep_flow p = Some flow -> ret <= ep_supply p -> 0 <= flow ->
  warm < ep_supply p -> ep_supply p <= ep_storage p ->
  let b := en_building e in
  (forall t x, bd_inlet b t iv = Ok x -> cold <= x /\ x <= warm) ->
  (forall di, bd_design_inlet b = Ok di -> cold <= sim_inlet di <= warm) ->
  (forall t avg x, bd_load b t iv avg = Ok x -> 0 <= x <= tv) ->
  eng_simulate e dur thr maxm = Ok (e', r) ->
  heat_held vol (ep_storage p) warm + heat_made r + element_made r + heat_held tv (ep_supply p + 8) (last_swing_temp r (ep_supply p + 8))
  < heat_taken r (ep_supply p) warm + loop_took r (loop_kbtuh (ep_supply p) ret flow) ->
  (0 < sr_outage r)%Z.
Proof.
  intros dt p e dur thr maxm e' r total iv vol tv el cold warm ret flow H TY PV V0 ST2 TV LA ER EF RS F0 WS SS b MA DI LD SIM LT.
  assert (NN : (0 <= sr_outage r)%Z).
  { destruct (C65_runs_its_system _ _ _ _ _ _ _ _ H SIM) as (_ & KS). cbv zeta in KS.
    destruct (en_system e) as [dh s|l s|w s|dh r0 f0 s|x|dh] eqn:ES; try discriminate TY.
    destruct KS as (s' & E & _). unfold simulate_swing in E. destruct (bind_ok _ _ _ E) as (s0 & _ & E1).
    destruct (simulate_reported _ _ _ _ _ _ _ _ _ E1) as (total' & iv' & outs & LA' & _ & _ & RP & _).
    rewrite (rc_outage _ _ (rp_recorded _ _ _ _ _ _ _ RP)), (rp_interval _ _ _ _ _ _ _ RP). destruct LA' as [(_ & _ & ->)|(_ & _ & ->)]; lia. }
  destruct (Z.eq_dec (sr_outage r) 0) as [Z|Z]; [exfalso|lia].
  pose proof (C91_swing_heat_is_made dt p e dur thr maxm e' r total iv vol tv el cold warm ret flow H TY PV V0 ST2 TV LA ER EF RS F0 WS SS MA DI LD SIM Z). lra.
Qed.
Print Assumptions C91_swing_shortage_shows.

Lemma made_used cop h : 0 <= h -> forall ks ws, (forall i k, nth_error ks i = Some k -> exists w, nth_error ws i = Some w /\ 0 <= cop * or0 w /\ k <= cop * (3412142 # 1000000) * or0 w) ->
  length ks = length ws ->
  qsum (map (fun k => qmax 0 k * 1000 * h) ks) <= cop * (3412142 # 1000) * qsum (map (fun w => or0 w * h) ws).
Proof.
  intros SH. induction ks as [|k ks IH]; intros ws CP LE.
  - destruct ws; [cbn; lra|discriminate].
  - destruct ws as [|w ws]; [discriminate|]. destruct (CP 0%nat k eq_refl) as (w' & E & C0 & C1). cbn in E. injection E as <-.
    specialize (IH ws (fun i k' X => CP (S i) k' X) ltac:(cbn in LE; congruence)). cbn [map]. change (qsum (?a :: ?l)) with (a + qsum l).
    assert (K1 : qmax 0 k * 1000 * h <= cop * (3412142 # 1000) * (or0 w * h)).
    { setoid_replace (cop * (3412142 # 1000) * (or0 w * h)) with (cop * (3412142 # 1000000) * or0 w * 1000 * h) by ring.
      apply Qmult_le_compat_r; [|exact SH]. apply Qmult_le_compat_r; [|discriminate]. qmm; lra. }
    lra.
Qed.

Lemma element_used cop h outs : 0 <= h -> 1 <= cop ->
  (forall o, In o outs -> exists k, so_tm_output o = Some k /\ so_tm_kw o = Some (k / w_to_kbtuh) /\ 0 <= k) ->
  qsum (map (fun k => qmax 0 k * 1000 * h) (somes (map so_tm_output outs))) <= cop * (3412142 # 1000) * qsum (map (fun w => w * h) (somes (map so_tm_kw outs))).
Proof.
  intros H0 C1. induction outs as [|o outs IH]; intro H; [cbn; lra|]. specialize (IH (fun o' I => H o' (or_intror I))).
  destruct (H o (or_introl eq_refl)) as (k & E1 & E2 & K0). cbn [map]. rewrite E1, E2. cbn [somes map]. change (qsum (?a :: ?l)) with (a + qsum l).
  assert (X : qmax 0 k == k) by (qmm; lra). rewrite X.
  assert (Y : (3412142 # 1000) * (k / w_to_kbtuh * h) == k * 1000 * h) by (unfold w_to_kbtuh; field).
  assert (K1 : 0 <= k * 1000 * h) by (apply Qmult_le_0_compat; [lra|exact H0]).
  assert (Z1 : 1 * (k * 1000 * h) <= cop * (k * 1000 * h)) by (apply Qmult_le_compat_r; assumption).
  set (q := qsum (map (fun w : Q => w * h) (somes (map so_tm_kw outs)))) in *.
  setoid_replace (cop * (3412142 # 1000) * (k / w_to_kbtuh * h + q)) with (cop * ((3412142 # 1000) * (k / w_to_kbtuh * h)) + cop * (3412142 # 1000) * q) by ring. rewrite Y. lra.
Qed.

(** With heaters that never give more than [cop] >= 1 times the energy they use and an element that does not cool, the
    total energy the run reports covers that heat; 3412.142 BTU are one kWh. *)
Theorem C91_swing_energy_is_used : forall dt p e dur thr maxm e' r total iv vol tv el cold warm ret flow cop,
  eng_new dt p = Ok e -> type_of (en_system e) = SwingTank ->
  primary_volume (en_system e) = Some vol -> 0 < vol -> second_tank (en_system e) = Some (tv, el) -> 0 < tv -> lasts dur total iv ->
  ep_return p = Some ret -> ep_flow p = Some flow -> ret <= ep_supply p -> 0 <= flow ->
  warm < ep_supply p -> ep_supply p <= ep_storage p ->
  let b := en_building e in
  (forall t x, bd_inlet b t iv = Ok x -> cold <= x /\ x <= warm) ->
  (forall di, bd_design_inlet b = Ok di -> cold <= sim_inlet di <= warm) ->
  (forall t avg x, bd_load b t iv avg = Ok x -> 0 <= x <= tv) ->
  eng_simulate e dur thr maxm = Ok (e', r) -> sr_outage r = 0%Z ->
  1 <= cop -> (forall k, In k (sr_tm_output r) -> 0 <= k) ->
  (forall i k, nth_error (sr_output r) i = Some k -> exists w, nth_error (sr_power r) i = Some w /\ 0 <= cop * or0 w /\ k <= cop * (3412142 # 1000000) * or0 w) ->
  heat_taken r (ep_supply p) warm + loop_took r (loop_kbtuh (ep_supply p) ret flow)
  <= heat_held vol (ep_storage p) warm + cop * (3412142 # 1000) * total_energy r
     + heat_held tv (ep_supply p + 8) (last_swing_temp r (ep_supply p + 8)).
Proof.
  intros dt p e dur thr maxm e' r total iv vol tv el cold warm ret flow cop H TY PV V0 ST2 TV LA ER EF RS F0 WS SS b MA DI LD SIM NO C1 TM CP.
  pose proof (C91_swing_heat_is_made dt p e dur thr maxm e' r total iv vol tv el cold warm ret flow H TY PV V0 ST2 TV LA ER EF RS F0 WS SS MA DI LD SIM NO) as M.
  assert (R : 0 <= step_hours r /\ length (sr_output r) = length (sr_power r) /\
              exists outs, sr_tm_output r = somes (map so_tm_output outs) /\ sr_tm_kw r = somes (map so_tm_kw outs) /\
                forall o, In o outs -> exists k, so_tm_output o = Some k /\ so_tm_kw o = Some (k / w_to_kbtuh)).
  { destruct (C65_runs_its_system _ _ _ _ _ _ _ _ H SIM) as (_ & KS). cbv zeta in KS.
    destruct (en_system e) as [dh s|l s|w s|dh r0 f0 s|x|dh] eqn:ES; try discriminate TY.
    destruct KS as (s' & E & _). unfold simulate_swing in E. destruct (bind_ok _ _ _ E) as (s0 & _ & E1).
    destruct (simulate_reported _ _ _ _ _ _ _ _ _ E1) as (total' & iv' & outs & LA' & _ & EX & RP & _).
    pose proof (rp_recorded _ _ _ _ _ _ _ RP) as RC. unfold step_hours. rewrite (rp_interval _ _ _ _ _ _ _ RP), (rc_output _ _ RC), (rc_power _ _ RC), !map_length.
    split; [destruct LA' as [(_ & _ & ->)|(_ & _ & ->)]; discriminate|]. split; [reflexivity|].
    exists outs. split; [exact (rc_tm_output _ _ RC)|]. split; [exact (rc_tm_kw _ _ RC)|]. clear - EX. revert s0 EX. generalize 0%Z.
    induction outs as [|o outs IH]; intros i s0 EX o' I; [destruct I|]. destruct EX as (s1 & X & EX). destruct I as [<-|I]; [|exact (IH _ _ EX o' I)].
    destruct (swing_step_inv _ _ _ _ _ _ X) as (outlet & hs & tk1 & hw & feed & sw1 & sw2 & el & sw3 & tk2 & tmo & _ & _ & _ & _ & _ & _ & _ & _ & _ & _ & _ & _ & _ & _ & _ & _ & _ & _ & _ & Eto & Etk & _).
    exists tmo. split; assumption. }
  destruct R as (SH & LE & outs & R1 & R2 & R3).
  pose proof (made_used cop (step_hours r) SH (sr_output r) (sr_power r) CP LE) as A1.
  assert (A2 : qsum (map (fun k => qmax 0 k * 1000 * step_hours r) (sr_tm_output r)) <= cop * (3412142 # 1000) * qsum (map (fun w => w * step_hours r) (sr_tm_kw r))).
  { rewrite R2. rewrite R1 in TM |- *. apply element_used; [exact SH|exact C1|]. intros o I. destruct (R3 o I) as (k & E1 & E2). exists k. split; [exact E1|]. split; [exact E2|].
    apply TM. clear - I E1. induction outs as [|o' outs IH]; [destruct I|]. cbn [map]. destruct I as [->|I].
    - rewrite E1. left. reflexivity.
    - specialize (IH I). destruct (so_tm_output o') as [x|]; [right; exact IH|exact IH]. }
  unfold heat_made, element_made in M. unfold total_energy. fold (step_hours r). lra.
Qed.
Print Assumptions C91_swing_energy_is_used.

(** The swing tank of C76's case: no outage in three days, so the account holds. *)
Example C91_swing_case : exists e e' r, eng_new ex_data ex_swing = Ok e /\ type_of (en_system e) = SwingTank /\
  eng_simulate e "3day" 5 60 = Ok (e', r) /\ sr_outage r = 0%Z /\
  heat_taken r 120 50 + loop_took r (loop_kbtuh 120 110 3)
  <= heat_held 2000 150 50 + heat_made r + element_made r + heat_held 80 128 (last_swing_temp r 128).
Proof.
  destruct C76_case as (e & e' & r & N & T & SIM & NV & _).
  assert (NI : type_of (en_system e) <> InstantWH) by (rewrite T; discriminate).
  assert (EB : eng_building ex_data ex_swing = Ok (mkBuilding (Some (cz_from_design (Some 30) (Some 50))) 1000 ex_shape ex_shape "custom")) by reflexivity.
  pose proof (C67_building _ _ _ _ N EB eq_refl) as Eb.
  destruct ex_swing_built as (e0 & N0 & _ & _ & (el & SP & _) & _). rewrite N in N0. apply ok_inj in N0. subst e0.
  exists e, e', r. split; [exact N|]. split; [exact T|]. split; [exact SIM|]. split; [exact (no_outage _ _ _ _ NV)|].
  refine (C91_swing_heat_is_made ex_data ex_swing e "3day" 5 60 e' r 4320 1 2000 80 el 50 50 110 3 N T _ _ SP _ _ eq_refl eq_refl _ _ _ _ _ _ _ SIM (no_outage _ _ _ _ NV)); try reflexivity; try discriminate.
  - exact (proj2 (proj2 (C52_parts _ _ _ N)) NI).
  - left. repeat split.
  - rewrite Eb. intros t x X. cbn in X. apply ok_inj in X. subst x. split; discriminate.
  - rewrite Eb. intros di X. cbn in X. apply ok_inj in X. subst di. split; discriminate.
  - rewrite Eb. intros t0 avg x X. assert (Y : exists y, 0 <= y <= 1 # 4 /\ x = 1000 * y * qz 1 / 60).
    { unfold bd_load in X. cbn [bd_avg bd_peak bd_daily] in X.
      destruct avg; cbv zeta in X; change (Z.of_nat (length ex_shape) =? 0)%Z with false in X; cbv iota in X; destruct (bind_ok _ _ _ X) as (y & EY & X1); apply ok_inj in X1;
      (exists y; split; [|symmetry; exact X1]; apply py_nth_in in EY; cbn in EY; repeat (destruct EY as [<-|EY]; [split; discriminate|]); destruct EY). }
    destruct Y as (y & [Y0 Y1] & ->). change (qz 1) with 1. assert (E : 1000 * y * 1 / 60 == y * (1000 # 60)) by field. rewrite E. lra.
Qed.
