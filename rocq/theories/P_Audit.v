(** C91: a run without an outage has made the heat it delivered. *)
From Verif Require Import Prelude M_StratifiedTank S_StratifiedTank L_StratifiedTank L_StratifiedTank2 L_StratifiedTank3
  M_Building S_Building L_Building M_Heater S_Heater L_Heater M_Sizing S_Sizing M_SimRun S_SimRun L_SimRun L_SimMisc M_Step S_Step L_Step L_Step2 L_Step3 L_Step4
  M_Swing M_MPRTP M_Engine S_Engine S_EngineRun S_EngineSize L_Engine L_Engine2 L_Engine6 L_Engine8 S_Lasts L_Lasts L_Lasts2 L_Lasts3 S_Audit L_Audit
  P_Sizing P_Engine P_Engine2 P_Engine6 P_Engine7 P_Lasts.
Open Scope Q_scope.

(** Whatever its schedule, a new engine's heaters aim at the storage temperature. *)
Lemma outlets_storage dt p e : eng_new dt p = Ok e ->
  forall h hour c, In h (primary_heaters (en_system e)) -> in_effect h hour c -> ct_outlet c = ep_storage p.
Proof.
  intros H h hour c I (_ & s & d & k & S & M & N & G). destruct (engine_heaters _ _ _ H) as (sched & m & EC & F).
  rewrite Forall_forall in F. destruct (F h I) as [F1 F2]. rewrite F2 in M. injection M as <-. clear - EC G.
  unfold eng_controls in EC. cbv zeta in EC.
  assert (Z : forall d, (forall k c, In (k, c) d -> ct_outlet c = ep_storage p) -> dict_get d k = Some c -> ct_outlet c = ep_storage p).
  { clear. intros d A G. induction d as [|[k0 c0] d IH]; [discriminate|]. cbn [dict_get] in G. destruct (String.eqb k k0).
    - injection G as <-. exact (A _ _ (or_introl eq_refl)).
    - apply IH; [|exact G]. intros k1 c1 I. exact (A k1 c1 (or_intror I)). }
  revert G. apply Z. clear Z. destruct (ep_ls p) as [[|w ls]|].
  - apply ok_inj in EC. apply pair_equal_spec in EC. destruct EC as [_ <-]. intros k0 c0 [E|[]]. injection E as _ <-. reflexivity.
  - destruct (bind_ok _ _ _ EC) as (sc & _ & E1). apply ok_inj in E1. apply pair_equal_spec in E1. destruct E1 as [_ <-].
    intros k0 c0 [E|[E|I]]; [injection E as _ <-; reflexivity|injection E as _ <-; reflexivity|].
    destruct (ep_lu_aq p); [|destruct I]. destruct (0 <? ep_lu_hours p)%Z; [|destruct I]. destruct I as [E|[]]. injection E as _ <-. reflexivity.
  - apply ok_inj in EC. apply pair_equal_spec in EC. destruct EC as [_ <-]. intros k0 c0 [E|[]]. injection E as _ <-. reflexivity.
Qed.

Lemma pu_range hs : 0 <= initial_percent hs <= 1.
Proof.
  induction hs as [|h hs IH]; cbn [initial_percent]; [lra|]. destruct (wh_map h) as [d|]; [|exact IH].
  destruct (match dict_get d "normal"%string with Some c => Some c | None => match d with (_, c) :: _ => Some c | [] => None end end); [|exact IH].
  split; qmm; lra.
Qed.

(** The demand of a step is the building's. *)
Lemma base_load b s t iv s' o : base_step b s t iv = Ok (s', o) -> exists avg, bd_load b t iv avg = Ok (so_demand o).
Proof.
  unfold base_step. cbv zeta. intro H. destruct (bind_ok _ _ _ H) as (d & ED & H1). exists (existsb wh_load_shifting (bs_heaters s)). rewrite ED. f_equal.
  destruct (bind_ok _ _ _ H1) as (x1 & _ & H2). destruct (bind_ok _ _ _ H2) as (x2 & _ & H3). destruct (bind_ok _ _ _ H3) as (x3 & _ & H4). destruct (bind_ok _ _ _ H4) as (x4 & _ & H5).
  destruct (bs_tank s) as [tk|].
  - destruct (bind_ok _ _ _ H5) as (y1 & _ & G1). destruct (bind_ok _ _ _ G1) as (y2 & _ & G2). destruct (bind_ok _ _ _ G2) as (y3 & _ & G3). destruct (bind_ok _ _ _ G3) as (y4 & _ & G4).
    destruct (bind_ok _ _ _ G4) as (y5 & _ & G5). destruct (bind_ok _ _ _ G5) as (y6 & _ & G6). destruct (bind_ok _ _ _ G6) as (y7 & _ & G7). destruct (bind_ok _ _ _ G7) as (y8 & _ & G8).
    apply ok_inj in G8. apply pair_equal_spec in G8. destruct G8 as [_ <-]. reflexivity.
  - apply ok_inj in H5. apply pair_equal_spec in H5. destruct H5 as [_ <-]. reflexivity.
Qed.
Lemma sprtp_load ret flow b s t iv s' o : sprtp_step ret flow b s t iv = Ok (s', o) -> exists avg, bd_load b t iv avg = Ok (so_demand o).
Proof.
  unfold sprtp_step. intro H. destruct (bind_ok _ _ _ H) as ([s1 o1] & E & H1). destruct (base_load _ _ _ _ _ _ E) as (avg & EL). exists avg. rewrite EL. f_equal.
  destruct (bs_tank s1) as [tk|].
  - destruct (bind_ok _ _ _ H1) as (tk1 & _ & H2). destruct (bind_ok _ _ _ H2) as (u & _ & H3). destruct (bind_ok _ _ _ H3) as (ts & _ & H4).
    apply ok_inj in H4. apply pair_equal_spec in H4. destruct H4 as [_ <-]. reflexivity.
  - apply ok_inj in H1. apply pair_equal_spec in H1. destruct H1 as [_ <-]. reflexivity.
Qed.
Lemma parallel_load b p t iv p' o : parallel_step b p t iv = Ok (p', o) -> exists avg, bd_load b t iv avg = Ok (so_demand o).
Proof.
  unfold parallel_step. intro H. destruct (bind_ok _ _ _ H) as ([s1 o1] & E & H1). destruct (base_load _ _ _ _ _ _ E) as (avg & EL). exists avg. rewrite EL. f_equal.
  destruct (bind_ok _ _ _ H1) as ([[tk h] [[a c] k]] & _ & H2). apply ok_inj in H2. apply pair_equal_spec in H2. destruct H2 as [_ <-]. reflexivity.
Qed.
Lemma executed_loads {St} (stp : St -> Z -> Z -> res (St * step_out)) b iv : (forall s t s' o, stp s t iv = Ok (s', o) -> exists avg, bd_load b t iv avg = Ok (so_demand o)) ->
  forall outs s i s', executed stp iv s i outs s' -> forall o, In o outs -> exists t avg, bd_load b t iv avg = Ok (so_demand o).
Proof.
  intros H outs. induction outs as [|o outs IH]; intros s i s' EX o' I; [destruct I|]. destruct EX as (s1 & E & EX). destruct I as [<-|I].
  - exists i. exact (H _ _ _ _ E).
  - exact (IH _ _ _ EX o' I).
Qed.

(** No outage: every step leaves usable water. *)
Lemma no_outage_usable outs r : recorded outs r -> (0 < sr_iv r)%Z -> sr_outage r = 0%Z -> forall o, In o outs -> 0 < so_usable o.
Proof.
  intros RC P Z o I. pose proof (rc_outage _ _ RC) as RO. rewrite Z in RO. assert (L : length (outages outs) = 0%nat) by nia.
  apply length_zero_iff_nil in L. destruct (Qlt_le_dec 0 (so_usable o)) as [X|X]; [exact X|exfalso].
  assert (IN : In o (outages outs)) by (unfold outages; apply filter_In; split; [exact I|apply Qle_bool_iff; exact X]). rewrite L in IN. destruct IN.
Qed.

Lemma qsum_scale {A} (f g : A -> Q) k l : (forall x, In x l -> f x <= g x * k) -> qsum (map f l) <= qsum (map g l) * k.
Proof.
  induction l as [|x l IH]; intro H; cbn [map]; [cbn; lra|]. change (f x + qsum (map f l) <= (g x + qsum (map g l)) * k).
  specialize (IH (fun y I => H y (or_intror I))). specialize (H x (or_introl eq_refl)). lra.
Qed.
Lemma qsum_scale_eq {A} (f g : A -> Q) k l : (forall x, In x l -> f x == g x * k) -> qsum (map f l) == qsum (map g l) * k.
Proof.
  induction l as [|x l IH]; intro H; cbn [map]; [cbn; ring|]. change (f x + qsum (map f l) == (g x + qsum (map g l)) * k).
  rewrite (IH (fun y I => H y (or_intror I))), (H x (or_introl eq_refl)). ring.
Qed.

(** A new engine whose primary tank serves the demand alone, with or without a load-shift schedule, on mains water
    between [cold] and [warm] degrees and with no step asking for more than a tankful.  If the record of a run shows
    no outage, the heat in the water the building took and the heat the loop took back from the tank are covered by
    one tankful of hot water and the heat the recorded output adds up to: no heat comes from nowhere. *)
Theorem C91_heat_is_made : forall dt p e dur thr maxm e' r total iv vol cold warm take,
  eng_new dt p = Ok e -> pooled (type_of (en_system e)) ->
  primary_volume (en_system e) = Some vol -> 0 < vol -> lasts dur total iv ->
  cold <= warm -> warm < ep_supply p -> ep_supply p <= ep_storage p ->
  let b := en_building e in
  (forall t x, bd_inlet b t iv = Ok x -> cold <= x /\ x <= warm) ->
  (forall di, bd_design_inlet b = Ok di -> cold <= sim_inlet di <= warm) ->
  (forall t avg x, bd_load b t iv avg = Ok x -> 0 <= x <= vol) ->
  loop_takes (type_of (en_system e)) p iv cold take ->
  eng_simulate e dur thr maxm = Ok (e', r) -> sr_outage r = 0%Z ->
  heat_taken r (ep_supply p) warm + heat_held (qz (Z.of_nat (length (sr_demand r))) * take) (ep_storage p) warm
  <= heat_held vol (ep_storage p) warm + heat_made r.
Proof.
  intros dt p e dur thr maxm e' r total iv vol cold warm take H TY PV V0 LA CW WS SS b MA DI LD LT SIM NO.
  destruct (engine_assembled _ _ _ H) as (hs & vol0 & A). destruct (assembled_parts _ _ _ _ _ A) as (T & PP & _).
  destruct PP as [PH PV']; [intro X; rewrite X in TY; destruct TY as [Y|[Y|Y]]; discriminate|]. rewrite PV in PV'. injection PV' as <-.
  pose proof (outlets_storage _ _ _ H) as CT.
  destruct (C65_runs_its_system _ _ _ _ _ _ _ _ H SIM) as (_ & KS). cbv zeta in KS.
  assert (Piv : (0 < iv)%Z) by (destruct LA as [(_ & _ & ->)|(_ & _ & ->)]; lia).
  set (slope := steepness (type_of (en_system e))) in *. assert (SL : 0 < slope) by (apply steepness_pos).
  (* the state the simulation starts from *)
  assert (INI : forall s s0, bs_heaters s = primary_heaters (en_system e) -> s = base_parts p hs vol slope -> init_base b s = Ok s0 ->
            exists y, account hs (ep_supply p) (ep_storage p) vol slope cold warm s0 y /\ y <= vol).
  { intros s s0 EH ES E0. unfold init_base in E0. destruct (bind_ok _ _ _ E0) as (di & Edi & E1). clear E0. cbv zeta in E1. apply ok_inj in E1. destruct (DI _ Edi) as [D1 D2]. rewrite EH in E1.
    pose proof (pu_range (primary_heaters (en_system e))) as PU.
    set (pu := initial_percent (primary_heaters (en_system e))) in *. subst s. cbn [base_parts bs_tank bs_supply bs_storage] in E1. subst s0. set (start := sim_inlet di) in *.
    assert (W : st_wf (st_new vol slope)) by (split; [exact V0|exact SL]).
    pose proof (init_hot (st_new vol slope) (ep_storage p) start pu W) as IH. cbn [st_new st_vol st_slope] in IH.
    assert (W' : st_wf (st_initialize (st_new vol slope) (ep_storage p) start pu)) by (split; [exact V0|exact SL]).
    pose proof (hot_shift _ (ep_supply p) (ep_storage p) W') as HS. cbn [st_initialize st_new st_vol st_slope] in HS. change (mkStrat vol slope 0 (start - slope * ((1 - pu) * 100)) start (ep_storage p)) with (st_initialize (st_new vol slope) (ep_storage p) start pu) in HS.
    eexists. split.
    - constructor; cbn [bs_heaters bs_supply bs_storage bs_tank]; try reflexivity; [rewrite PH; apply same_all_refl|].
      eexists. split; [reflexivity|]. cbn [st_initialize st_vol st_slope st_inlet st_outlet st_new]. split; [reflexivity|]. split; [reflexivity|]. split; [exact D1|]. split; [exact D2|]. reflexivity.
    - change (mkStrat vol slope 0 (start - slope * ((1 - pu) * 100)) start (ep_storage p)) with (st_initialize (st_new vol slope) (ep_storage p) start pu).
      rewrite HS, IH.
      setoid_replace (vol * (pu - (ep_storage p - start) / (100 * slope)) + vol * (ep_storage p - ep_supply p) / (100 * slope)) with (vol * (pu - (ep_supply p - start) / (100 * slope))) by (field; lra).
      assert (0 <= (ep_supply p - start) / (100 * slope)) by (apply qdiv_nonneg; lra).
      setoid_replace vol with (vol * 1) at 2 by ring. apply Qmult_le_l; [exact V0|]. lra. }
  (* whatever the kind of system *)
  assert (FIN : forall (St : Type) (stp : St -> Z -> Z -> res (St * step_out)) (core : St -> bsys) outs s0 y s',
     (forall t s s' o, stp s t iv = Ok (s', o) -> audited iv hs (ep_supply p) (ep_storage p) vol slope cold warm take t (core s) (core s') o) ->
     (forall s t s' o, stp s t iv = Ok (s', o) -> exists avg, bd_load b t iv avg = Ok (so_demand o)) ->
     account hs (ep_supply p) (ep_storage p) vol slope cold warm (core s0) y -> y <= vol -> executed stp iv s0 0 outs s' ->
     reported (ep_supply p) thr maxm total iv outs r ->
     heat_taken r (ep_supply p) warm + heat_held (qz (Z.of_nat (length (sr_demand r))) * take) (ep_storage p) warm <= heat_held vol (ep_storage p) warm + heat_made r).
  { intros St stp core outs s0 y s' MV LO HS YV EX RP.
    pose proof (rp_recorded _ _ _ _ _ _ _ RP) as RC. pose proof (rp_interval _ _ _ _ _ _ _ RP) as RI.
    pose proof (no_outage_usable outs r RC ltac:(lia) NO) as US.
    pose proof (executed_loads stp b iv LO outs s0 0%Z s' EX) as LO'.
    assert (DM : forall o, In o outs -> 0 <= so_demand o <= vol) by (intros o I; destruct (LO' o I) as (t & avg & E); exact (LD _ _ _ E)).
    destruct (run_audit iv hs (ep_supply p) (ep_storage p) vol slope cold warm stp core take MV outs 0%Z s0 y s' HS EX (fun o I => conj (US o I) (proj2 (DM o I)))) as (y' & _ & P' & FI & LE).
    assert (RP0 : 0 < rho_cp) by reflexivity. assert (SW : 0 < ep_storage p - warm) by lra.
    set (k := rho_cp * (ep_storage p - warm)). assert (K0 : 0 < k) by (apply Qmult_lt_0_compat; assumption).
    assert (LE2 : qsum (map (fun o => blended (so_demand o) (ep_supply p) (ep_storage p) (so_inlet o) + take) outs) <=
                  vol + qsum (map (fun o => heated (qmax 0 (so_output o)) iv (ep_storage p) warm) outs)).
    { destruct outs as [|o outs]; [cbn; lra|]. specialize (P' ltac:(discriminate)). lra. }
    assert (EM : heat_made r == qsum (map (fun o => heated (qmax 0 (so_output o)) iv (ep_storage p) warm) outs) * k).
    { unfold heat_made. rewrite (rc_output _ _ RC), map_map. apply qsum_scale_eq. intros o _. unfold heated, k, step_hours. rewrite RI. field. split; [lra|discriminate]. }
    assert (ETK : heat_taken r (ep_supply p) warm + heat_held (qz (Z.of_nat (length (sr_demand r))) * take) (ep_storage p) warm <=
                 qsum (map (fun o => blended (so_demand o) (ep_supply p) (ep_storage p) (so_inlet o) + take) outs) * k).
    { unfold heat_taken, heat_held. rewrite (rc_demand _ _ RC), map_map, map_length.
      assert (SP : heat_held (qz (Z.of_nat (length outs)) * take) (ep_storage p) warm == qsum (map (fun _ : step_out => take) outs) * k).
      { unfold heat_held, k. clear. induction outs as [|o outs IH]; [cbn; unfold qz; cbn; ring|]. cbn [map length].
        change (qsum (take :: map (fun _ => take) outs)) with (take + qsum (map (fun _ : step_out => take) outs)).
        assert (Q1 : qz (Z.of_nat (S (length outs))) == 1 + qz (Z.of_nat (length outs))) by (unfold qz; rewrite Nat2Z.inj_succ; unfold Z.succ; rewrite inject_Z_plus; ring).
        rewrite Q1. setoid_replace ((1 + qz (Z.of_nat (length outs))) * take * rho_cp * (ep_storage p - warm)) with (take * rho_cp * (ep_storage p - warm) + qz (Z.of_nat (length outs)) * take * rho_cp * (ep_storage p - warm)) by ring.
        rewrite IH. ring. }
      unfold heat_held in SP. rewrite SP.
      assert (SB : qsum (map (fun o => so_demand o * rho_cp * (ep_supply p - warm)) outs) <= qsum (map (fun o => blended (so_demand o) (ep_supply p) (ep_storage p) (so_inlet o)) outs) * k).
      { apply qsum_scale. intros o I. rewrite Forall_forall in FI. destruct (FI o I) as [I1 I2]. destruct (DM o I) as [D1 _].
        pose proof (blended_le (so_demand o) (ep_supply p) (ep_storage p) (so_inlet o) warm D1 I2 ltac:(lra) SS) as BL.
        assert (E : so_demand o * rho_cp * (ep_supply p - warm) == blended (so_demand o) (ep_supply p) (ep_storage p) warm * k) by (unfold blended, k; field; lra).
        rewrite E. apply Qmult_le_compat_r; [exact BL|lra]. }
      assert (AD : qsum (map (fun o => blended (so_demand o) (ep_supply p) (ep_storage p) (so_inlet o) + take) outs) ==
        qsum (map (fun o => blended (so_demand o) (ep_supply p) (ep_storage p) (so_inlet o)) outs) + qsum (map (fun _ : step_out => take) outs)).
      { clear. induction outs as [|o outs IH]; [reflexivity|]. cbn [map]. change (qsum (?a :: ?l)) with (a + qsum l). rewrite IH. ring. }
      rewrite AD. lra. }
    eapply Qle_trans; [exact ETK|]. rewrite EM. unfold heat_held. fold k.
    setoid_replace (vol * rho_cp * (ep_storage p - warm)) with (vol * k) by (unfold k; ring).
    rewrite <- Qmult_plus_distr_l. apply Qmult_le_compat_r; [exact LE2|lra]. }
  destruct (en_system e) as [dh s|l s|w s|dh ret flow s|x|dh] eqn:ES; cbn [type_of primary_heaters] in *; try (destruct TY as [Y|[Y|Y]]; discriminate).
  - destruct KS as (s' & E & _). unfold simulate_base in E. destruct (bind_ok _ _ _ E) as (s0 & E0 & E1). apply pair_equal_spec in T. destruct T as [T1 T2]. rewrite T1 in E1.
    destruct (simulate_reported _ _ _ _ _ _ _ _ _ E1) as (total' & iv' & outs & LA' & _ & EX & RP & _).
    assert (total' = total /\ iv' = iv) as [-> ->] by (destruct LA as [(L1 & -> & ->)|(L1 & -> & ->)]; destruct LA' as [(L2 & -> & ->)|(L2 & -> & ->)]; (split; reflexivity) || congruence).
    destruct A as (_ & A). destruct (INI s s0 eq_refl A E0) as (y & HS & KP). rewrite PH in *.
    refine (FIN _ (base_step b) (fun s => s) outs s0 y s' _ _ HS KP EX RP); [|intros; eapply base_load; eassumption].
    intros t u u' o X y0 HS0 U0 D0. cbn [loop_takes] in LT.
    destruct (audit_base b iv hs (ep_supply p) (ep_storage p) vol slope cold warm Piv V0 SL WS SS MA CT t u u' o X y0 HS0 U0 D0) as (IN & y1 & Q1 & Q2 & Q3). split; [exact IN|].
    exists y1. split; [exact Q1|]. split; [exact Q2|]. lra.
  - destruct KS as (s' & E & _). unfold simulate_parallel in E. destruct (bind_ok _ _ _ E) as (s0 & E0 & E1). apply pair_equal_spec in T. destruct T as [T1 T2]. rewrite T1 in E1.
    destruct (simulate_reported _ _ _ _ _ _ _ _ _ E1) as (total' & iv' & outs & LA' & _ & EX & RP & _).
    assert (total' = total /\ iv' = iv) as [-> ->] by (destruct LA as [(L1 & -> & ->)|(L1 & -> & ->)]; destruct LA' as [(L2 & -> & ->)|(L2 & -> & ->)]; (split; reflexivity) || congruence).
    destruct A as (_ & r0 & f & _ & _ & A & _). unfold init_parallel in E0. destruct (bind_ok _ _ _ E0) as (di & _ & E2). destruct (bind_ok _ _ _ E2) as (s1 & EI & E3). apply ok_inj in E3.
    destruct (INI (ps_base s) s1 eq_refl A EI) as (y & HS & KP). rewrite PH in *. assert (EB : ps_base s0 = s1) by (rewrite <- E3; reflexivity). rewrite <- EB in HS.
    refine (FIN _ (parallel_step b) ps_base outs s0 y s' _ _ HS KP EX RP); [|intros; eapply parallel_load; eassumption].
    intros t u u' o X y0 HS0 U0 D0. cbn [loop_takes] in LT.
    destruct (audit_parallel b iv hs (ep_supply p) (ep_storage p) vol slope cold warm Piv V0 SL WS SS MA CT t u u' o X y0 HS0 U0 D0) as (IN & y1 & Q1 & Q2 & Q3). split; [exact IN|].
    exists y1. split; [exact Q1|]. split; [exact Q2|]. lra.
  - destruct KS as (ret' & flow' & s' & R1 & F1 & E & _). unfold simulate_sprtp in E. destruct (bind_ok _ _ _ E) as (s0 & E0 & E1). apply pair_equal_spec in T. destruct T as [T1 T2]. rewrite T1 in E1.
    destruct (simulate_reported _ _ _ _ _ _ _ _ _ E1) as (total' & iv' & outs & LA' & _ & EX & RP & _).
    assert (total' = total /\ iv' = iv) as [-> ->] by (destruct LA as [(L1 & -> & ->)|(L1 & -> & ->)]; destruct LA' as [(L2 & -> & ->)|(L2 & -> & ->)]; (split; reflexivity) || congruence).
    destruct A as (_ & _ & _ & A). destruct (INI s s0 eq_refl A E0) as (y & HS & KP). rewrite PH in *.
    destruct LT as (r1 & f1 & R2 & F2 & F0 & RS & ET). rewrite R1 in R2. injection R2 as <-. rewrite F1 in F2. injection F2 as <-.
    refine (FIN _ (sprtp_step ret' flow' b) (fun s => s) outs s0 y s' _ _ HS KP EX RP); [|intros; eapply sprtp_load; eassumption].
    intros t u u' o X.
    exact (audit_sprtp b iv hs (ep_supply p) (ep_storage p) vol slope cold warm Piv V0 SL CW WS SS MA CT ret' flow' take t u u' o F0 RS ET X).
Qed.
Print Assumptions C91_heat_is_made.

(** Read the other way: a run asked for more heat than a tankful and its heaters' output shows an outage. *)
Theorem C91_shortage_shows : forall dt p e dur thr maxm e' r total iv vol cold warm take,
  eng_new dt p = Ok e -> pooled (type_of (en_system e)) ->
  primary_volume (en_system e) = Some vol -> 0 < vol -> lasts dur total iv ->
  cold <= warm -> warm < ep_supply p -> ep_supply p <= ep_storage p ->
  let b := en_building e in
  (forall t x, bd_inlet b t iv = Ok x -> cold <= x /\ x <= warm) ->
  (forall di, bd_design_inlet b = Ok di -> cold <= sim_inlet di <= warm) ->
  (forall t avg x, bd_load b t iv avg = Ok x -> 0 <= x <= vol) ->
  loop_takes (type_of (en_system e)) p iv cold take ->
  eng_simulate e dur thr maxm = Ok (e', r) ->
  heat_held vol (ep_storage p) warm + heat_made r
  < heat_taken r (ep_supply p) warm + heat_held (qz (Z.of_nat (length (sr_demand r))) * take) (ep_storage p) warm ->
  (0 < sr_outage r)%Z.
Proof.
  intros dt p e dur thr maxm e' r total iv vol cold warm take H TY PV V0 LA CW WS SS b MA DI LD LT SIM LT2.
  assert (NN : (0 <= sr_outage r)%Z).
  { destruct (C65_runs_its_system _ _ _ _ _ _ _ _ H SIM) as (_ & KS). cbv zeta in KS.
    assert (R : exists sup tot v outs, lasts dur tot v /\ reported sup thr maxm tot v outs r).
    { destruct (en_system e) as [dh s|l s|w s|dh ret flow s|x|dh]; cbn [type_of] in *; try (destruct TY as [Y|[Y|Y]]; discriminate).
      - destruct KS as (s' & E & _). unfold simulate_base in E. destruct (bind_ok _ _ _ E) as (s0 & _ & E1).
        destruct (simulate_reported _ _ _ _ _ _ _ _ _ E1) as (total' & iv' & outs & LA' & _ & _ & RP & _). eauto 8.
      - destruct KS as (s' & E & _). unfold simulate_parallel in E. destruct (bind_ok _ _ _ E) as (s0 & _ & E1).
        destruct (simulate_reported _ _ _ _ _ _ _ _ _ E1) as (total' & iv' & outs & LA' & _ & _ & RP & _). eauto 8.
      - destruct KS as (ret' & flow' & s' & _ & _ & E & _). unfold simulate_sprtp in E. destruct (bind_ok _ _ _ E) as (s0 & _ & E1).
        destruct (simulate_reported _ _ _ _ _ _ _ _ _ E1) as (total' & iv' & outs & LA' & _ & _ & RP & _). eauto 8. }
    destruct R as (sup & tot & v & outs & LA' & RP). rewrite (rc_outage _ _ (rp_recorded _ _ _ _ _ _ _ RP)), (rp_interval _ _ _ _ _ _ _ RP).
    destruct LA' as [(_ & _ & ->)|(_ & _ & ->)]; lia. }
  destruct (Z.eq_dec (sr_outage r) 0) as [Z|Z]; [exfalso|lia].
  pose proof (C91_heat_is_made dt p e dur thr maxm e' r total iv vol cold warm take H TY PV V0 LA CW WS SS MA DI LD LT SIM Z). lra.
Qed.
Print Assumptions C91_shortage_shows.

(** With heaters that never give more than [cop] times the energy they use, a run without an outage used at least
    the energy this takes; 3412.142 BTU are one kWh. *)
Theorem C91_energy_is_used : forall dt p e dur thr maxm e' r total iv vol cold warm take cop,
  eng_new dt p = Ok e -> pooled (type_of (en_system e)) ->
  primary_volume (en_system e) = Some vol -> 0 < vol -> lasts dur total iv ->
  cold <= warm -> warm < ep_supply p -> ep_supply p <= ep_storage p ->
  let b := en_building e in
  (forall t x, bd_inlet b t iv = Ok x -> cold <= x /\ x <= warm) ->
  (forall di, bd_design_inlet b = Ok di -> cold <= sim_inlet di <= warm) ->
  (forall t avg x, bd_load b t iv avg = Ok x -> 0 <= x <= vol) ->
  loop_takes (type_of (en_system e)) p iv cold take ->
  eng_simulate e dur thr maxm = Ok (e', r) -> sr_outage r = 0%Z ->
  (forall i k, nth_error (sr_output r) i = Some k -> exists w, nth_error (sr_power r) i = Some w /\ 0 <= cop * or0 w /\ k <= cop * (3412142 # 1000000) * or0 w) ->
  heat_taken r (ep_supply p) warm + heat_held (qz (Z.of_nat (length (sr_demand r))) * take) (ep_storage p) warm
  <= heat_held vol (ep_storage p) warm + cop * (3412142 # 1000) * kwh_used r.
Proof.
  intros dt p e dur thr maxm e' r total iv vol cold warm take cop H TY PV V0 LA CW WS SS b MA DI LD LT SIM NO CP.
  pose proof (C91_heat_is_made dt p e dur thr maxm e' r total iv vol cold warm take H TY PV V0 LA CW WS SS MA DI LD LT SIM NO) as M.
  assert (SH : 0 <= step_hours r /\ length (sr_output r) = length (sr_power r)).
  { destruct (C65_runs_its_system _ _ _ _ _ _ _ _ H SIM) as (_ & KS). cbv zeta in KS.
    assert (R : exists sup tot v outs, lasts dur tot v /\ reported sup thr maxm tot v outs r).
    { destruct (en_system e) as [dh s|l s|w s|dh ret flow s|x|dh]; cbn [type_of] in *; try (destruct TY as [Y|[Y|Y]]; discriminate).
      - destruct KS as (s' & E & _). unfold simulate_base in E. destruct (bind_ok _ _ _ E) as (s0 & _ & E1).
        destruct (simulate_reported _ _ _ _ _ _ _ _ _ E1) as (total' & iv' & outs & LA' & _ & _ & RP & _). eauto 8.
      - destruct KS as (s' & E & _). unfold simulate_parallel in E. destruct (bind_ok _ _ _ E) as (s0 & _ & E1).
        destruct (simulate_reported _ _ _ _ _ _ _ _ _ E1) as (total' & iv' & outs & LA' & _ & _ & RP & _). eauto 8.
      - destruct KS as (ret' & flow' & s' & _ & _ & E & _). unfold simulate_sprtp in E. destruct (bind_ok _ _ _ E) as (s0 & _ & E1).
        destruct (simulate_reported _ _ _ _ _ _ _ _ _ E1) as (total' & iv' & outs & LA' & _ & _ & RP & _). eauto 8. }
    destruct R as (sup & tot & v & outs & LA' & RP). pose proof (rp_recorded _ _ _ _ _ _ _ RP) as RC. unfold step_hours. rewrite (rp_interval _ _ _ _ _ _ _ RP), (rc_output _ _ RC), (rc_power _ _ RC), !map_length.
    split; [|reflexivity]. destruct LA' as [(_ & _ & ->)|(_ & _ & ->)]; discriminate. }
  destruct SH as [SH LE]. eapply Qle_trans; [exact M|]. apply Qplus_le_r. unfold heat_made, kwh_used.
  revert CP LE SH. generalize (step_hours r). intros h CP LE SH. clear - CP LE SH. revert CP LE. generalize (sr_power r). induction (sr_output r) as [|k ks IH]; intros ws CP LE.
  - destruct ws; [cbn; lra|discriminate].
  - destruct ws as [|w ws]; [discriminate|]. destruct (CP 0%nat k eq_refl) as (w' & E & C0 & C1). cbn in E. injection E as <-.
    specialize (IH ws (fun i k' X => CP (S i) k' X) ltac:(cbn in LE; congruence)). cbn [map]. change (qsum (?a :: ?l)) with (a + qsum l).
    assert (K1 : qmax 0 k * 1000 * h <= cop * (3412142 # 1000) * (or0 w * h)).
    { setoid_replace (cop * (3412142 # 1000) * (or0 w * h)) with (cop * (3412142 # 1000000) * or0 w * 1000 * h) by ring.
      apply Qmult_le_compat_r; [|exact SH]. apply Qmult_le_compat_r; [|discriminate]. qmm; lra. }
    lra.
Qed.
Print Assumptions C91_energy_is_used.

(** The limit of a tankful a step is needed: draw() takes at most the tank's volume however much is asked for, so a
    tank warm to the bottom yields any amount of water in one call and still reports usable water. *)
Theorem C91_overdraw_refuted :
  ~ (forall t v cold supply storage t' u, st_wf t -> cold < supply -> supply < storage -> 0 < v ->
       st_draw t v cold supply storage = Ok t' -> st_usable t' supply = Ok u -> 0 < u ->
       heat_held v supply cold <= heat_held (2 * st_vol t) storage cold).
Proof.
  intro H.
  assert (W : st_wf (mkStrat 100 1 80 50 50 150)) by (split; reflexivity).
  destruct (st_draw (mkStrat 100 1 80 50 50 150) 1000000 50 120 150) eqn:E; [|vm_compute in E; discriminate].
  destruct (st_usable a 120) eqn:U; [|revert U; vm_compute in E; injection E as <-; vm_compute; discriminate].
  assert (P : 0 < a0) by (vm_compute in E; injection E as <-; vm_compute in U; injection U as <-; reflexivity).
  specialize (H _ 1000000 50 120 150 a a0 W eq_refl eq_refl eq_refl E U P). vm_compute in H. apply H. reflexivity.
Qed.
Print Assumptions C91_overdraw_refuted.

(** The systems of the C71 example (tank of at least 1000 gallons, 1000 gallons a day, mains at 50 degrees) meet all of
    these hypotheses: their three-day runs show no outage, so the heat account holds of them. *)
Example C91_case : forall name t, In (name, t) documented -> pooled t ->
  exists vol c e e' r take, 1000 <= vol /\ eng_new ex_data (with_plant (ex_low name) vol c (Some 80) (Some 20)) = Ok e /\
    type_of (en_system e) = t /\ eng_simulate e "3day" 5 60 = Ok (e', r) /\ sr_outage r = 0%Z /\
    loop_takes t (with_plant (ex_low name) vol c (Some 80) (Some 20)) 1 50 take /\
    heat_taken r 120 50 + heat_held (qz (Z.of_nat (length (sr_demand r))) * take) 150 50 <= heat_held vol 150 50 + heat_made r.
Proof.
  intros name t D TY. destruct (C71_case name t D TY) as (e & c & vol & e2 & e' & r & N & T & SC & V & N2 & SIM & NV).
  destruct (ex_low_sizable name t TY) as (b & EB & P & DD & BI & MI & CB & SZ).
  assert (L24 : length (bd_peak b) = 24%nat) by (rewrite P; reflexivity).
  assert (T2 : type_of (en_system e2) = t) by (rewrite (plant_type _ _ _ _ _ _ _ _ N N2); exact T).
  assert (NI : type_of (en_system e2) <> InstantWH) by (rewrite T2; destruct TY as [-> |[-> | ->]]; discriminate).
  set (take := match t with SinglePassRTP => 3 * 1 * (120 - 110) / (150 - 50) | _ => 0 end).
  assert (LT : loop_takes t (with_plant (ex_low name) vol c (Some 80) (Some 20)) 1 50 take).
  { unfold take. destruct TY as [-> |[-> | ->]]; [reflexivity|reflexivity|]. exists 110, 3. do 4 (split; [reflexivity || discriminate|]). reflexivity. }
  assert (EB2 : en_building e2 = b) by exact (C67_building ex_data (with_plant (ex_low name) vol c (Some 80) (Some 20)) b e2 N2 EB L24).
  exists vol, c, e2, e', r, take. split; [exact V|]. split; [exact N2|]. split; [exact T2|]. split; [exact SIM|]. split; [exact (no_outage _ _ _ _ NV)|]. split; [exact LT|].
  refine (C91_heat_is_made ex_data (with_plant (ex_low name) vol c (Some 80) (Some 20)) e2 "3day" 5 60 e' r 4320 1 vol 50 50 take N2 _ _ _ _ _ _ _ _ _ _ _ SIM (no_outage _ _ _ _ NV)).
  - rewrite T2. exact TY.
  - exact (proj2 (proj2 (C52_parts _ _ _ N2)) NI).
  - lra.
  - left. repeat split.
  - discriminate.
  - reflexivity.
  - discriminate.
  - rewrite EB2. intros t0 x X. specialize (MI t0 x X). lra.
  - rewrite EB2. intros di X. rewrite BI in X. apply ok_inj in X. subst di. split; discriminate.
  - rewrite EB2. assert (EB' : b = mkBuilding (Some (cz_from_design (Some 30) (Some 50))) 1000 ex_shape ex_shape "custom").
    { assert (Y : eng_building ex_data (ex_low name) = Ok (mkBuilding (Some (cz_from_design (Some 30) (Some 50))) 1000 ex_shape ex_shape "custom")) by reflexivity. rewrite EB in Y. apply ok_inj in Y. exact Y. }
    intros t0 avg x X. assert (Y : exists y, 0 <= y <= 1 # 4 /\ x = 1000 * y * qz 1 / 60).
    { rewrite EB' in X. unfold bd_load in X. cbn [bd_avg bd_peak bd_daily] in X.
      destruct avg; cbv zeta in X; change (Z.of_nat (length ex_shape) =? 0)%Z with false in X; cbv iota in X; destruct (bind_ok _ _ _ X) as (y & EY & X1); apply ok_inj in X1;
      (exists y; split; [|symmetry; exact X1]; apply py_nth_in in EY; cbn in EY; repeat (destruct EY as [<-|EY]; [split; discriminate|]); destruct EY). }
    destruct Y as (y & [Y0 Y1] & ->). change (qz 1) with 1. assert (E : 1000 * y * 1 / 60 == y * (1000 # 60)) by field. rewrite E. lra.
  - rewrite T2. exact LT.
Qed.
