(** C52, continued: the second tank and heater of recirculation systems, the multi-pass tank, and the
    daily demand. *)
From Verif Require Import Prelude M_StratifiedTank M_MixedTank M_EnergyTank M_Building L_Building M_Heater S_Heater L_Heater
  M_Sizing L_Sizing3 M_SimRun S_SimRun M_Step S_Step L_Step L_Step2 L_Step4 M_Swing L_Swing4 M_MPRTP L_MPRTP2 M_Engine S_Engine
  S_EngineRun L_Engine L_Engine2 L_Engine3 L_Engine4 L_Engine5 P_Engine.
Open Scope Q_scope.

Lemma default_is x d : defaulted x d (or_default x d).
Proof. destruct x; reflexivity. Qed.
Lemma one_unit c : exists x, qdiv c (qz 1) = Ok x /\ x == c.
Proof. rewrite qdiv_ok by discriminate. eexists. split; [reflexivity|]. unfold qz. field. Qed.

(** A parallel-loop engine's second heater watches the middle of its tank, all day, with the thresholds
    asked for.  Sized, tank and heater are those reported, and follow the sizing rules; pre-sized, they
    are those given, the capacity shared among the heaters. *)
Theorem C52_parallel_loop : forall dt p e l s, eng_new dt p = Ok e -> en_system e = EParallel l s ->
  exists on off c, defaulted (ep_tm_on p) (ep_supply p) on /\ defaulted (ep_tm_off p) (ep_supply p + 8) off /\
    ps_on s = on /\ ps_off s = off /\ wh_schedule (ps_heater s) = Some (repeat "normal"%string 24) /\
    wh_map (ps_heater s) = Some [("normal"%string, c)] /\ settings c (1 # 2) on (1 # 2) off off /\
    match ep_volume p with
    | None => exists r f tv tc x, ep_return p = Some r /\ ep_flow p = Some f /\
        snd (eng_results e) = Some (tv, Some tc) /\ mx_vol (ps_tank s) = tv /\ ps_num s = 1%Z /\
        wh_pm (ps_heater s) = Some (PmNominal x) /\ x == tc /\
        tc == ep_tm_safety p * (f * 60 * rho_cp * (ep_supply p - r)) / 1000 /\
        tv * (off - on) == f * 60 * (ep_supply p - r) * ep_tm_off_time p
    | Some _ => ep_tm_volume p = Some (mx_vol (ps_tank s)) /\ ps_num s = ep_num_tm p /\
        exists share, match ep_tm_capacity p with
                      | Some tc => exists x, share = Some x /\ qz (ep_num_tm p) * x == tc
                      | None => share = None
                      end /\
        match ep_tm_model p with
        | None => exists x, share = Some x /\ wh_pm (ps_heater s) = Some (PmNominal x)
        | Some name => exists r pm, ep_return p = Some r /\ pm_from_model (da_reg dt) name 1 r share = Ok pm /\
                         wh_pm (ps_heater s) = Some pm
        end
    end.
Proof.
  intros dt p e l s H ES. destruct (new_inv _ _ _ H) as (b & sched & m & EB & EC & C).
  exists (ep_tm_on_temp p), (ep_tm_off_temp p), (mkControls (1 # 2) (ep_tm_on_temp p) (1 # 2) (ep_tm_off_temp p) (ep_tm_off_temp p)).
  split; [apply default_is|]. split; [apply default_is|].
  destruct C as [(vol & hs & EV & EH & A & Eb & E1 & E2 & EP)|(EV & EZ & C)].
  - rewrite EV. rewrite ES in A, EP. destruct A as (EK & _). unfold eng_presized in EP. rewrite EC in EP. cbn [bind] in EP. rewrite EH in EP. cbn [bind] in EP. rewrite EK in EP.
    destruct (bind_ok _ _ _ EP) as ([r f] & ER & F1). destruct (bind_ok _ _ _ F1) as (tv & ET & F2). cbv zeta in F2. destruct (bind_ok _ _ _ F2) as (th & EH2 & F3).
    apply ok_inj in F3. apply pair_equal_spec in F3. destruct F3 as [_ F3]. injection F3 as _ <-. clear F1 F2 EP. cbn [ps_on ps_off ps_heater ps_tank ps_num mx_vol].
    split; [reflexivity|]. split; [reflexivity|]. unfold eng_tm_heater in EH2. destruct (bind_ok _ _ _ EH2) as (share & EQ & G1). destruct (bind_ok _ _ _ G1) as (pm & EM & G2).
    apply ok_inj in G2. subst th. cbn [wh_schedule wh_map wh_pm wh_new]. split; [reflexivity|]. split; [reflexivity|]. split; [constructor; reflexivity|].
    apply recirc_ok in ER. destruct ER as [ER _].
    split. { unfold require_tm in ET. destruct (ep_tm_volume p) as [v|]; [|discriminate]. destruct (ep_tm_capacity p), (ep_tm_model p); try discriminate; apply ok_inj in ET; congruence. }
    split; [reflexivity|]. exists share. split.
    + destruct (ep_tm_capacity p) as [tc|]; [|apply ok_inj in EQ; congruence]. destruct (bind_ok _ _ _ EQ) as (y & Ey & Es). apply ok_inj in Es. exists y. split; [congruence|].
      destruct (qdiv_inv _ _ _ Ey) as [NZ Ex]. rewrite Ex. field. exact NZ.
    + cbn [fst] in EM. unfold require_tm in ET. destruct (ep_tm_model p) as [name|].
      * destruct (bind_ok _ _ _ EM) as (y & Ey & Es). apply ok_inj in Es. exists r, y. split; [exact ER|]. split; [exact Ey|congruence].
      * apply ok_inj in EM. destruct share as [x|]; [exists x; split; [reflexivity|congruence]|exfalso].
        destruct (ep_tm_volume p); [|discriminate ET]. destruct (ep_tm_capacity p); [|discriminate ET].
        destruct (bind_ok _ _ _ EQ) as (y & _ & Es). apply ok_inj in Es. discriminate.
  - rewrite EV. rewrite ES in EZ. unfold eng_sized in EZ. rewrite EC in EZ. cbn [bind] in EZ. destruct (bind_ok _ _ _ EZ) as (fract & EF & H1). clear EZ.
    assert (EK : kind_of (ep_schematic p) = Some KParallel).
    { destruct C as [(d & Ed & _)|(c & v & hs & _ & _ & _ & A & _)]; [congruence|]. rewrite ES in A. exact (proj1 A). }
    cbv zeta in H1. rewrite EK in H1. destruct (bind_ok _ _ _ H1) as ([r f] & ER & H2). clear H1. apply recirc_ok in ER. destruct ER as [ER EF2]. cbn [fst snd] in H2.
    unfold fs_parallel in H2. cbv zeta in H2. destruct (pl_size _ _ _ _ _ _ _) as [[l1 b1] out] eqn:EL. destruct (bind_ok _ _ _ H2) as ([] & -> & H3). clear H2.
    destruct (bind_ok _ _ _ H3) as (bs & EP & H4). clear H3.
    destruct (pl_size_inv _ _ _ _ _ _ _ _ _ EL) as (AC & (w & EW) & I1 & I2 & I3 & I4 & I5 & I6 & I7 & tv & tc & EV1 & EC1 & Q1 & Q2).
    rewrite EV1, EC1 in H4. destruct (bind_ok _ _ _ H4) as (ps & EB2 & H5). clear H4. apply ok_inj in H5. apply pair_equal_spec in H5. destruct H5 as [_ H5]. injection H5 as El <-.
    unfold pl_build in EB2. cbn [pl_num pl_on pl_off pl_return pl_flow pl_safety pl_off_time pl_dhw] in *. rewrite I7 in EB2. cbn [pl_num] in EB2. destruct (one_unit tc) as (x & Ex & QX). rewrite Ex in EB2. cbn [bind] in EB2.
    apply ok_inj in EB2. subst ps. cbn [ps_on ps_off ps_heater ps_tank ps_num mx_vol wh_schedule wh_map wh_pm wh_new]. rewrite I3, I4. cbn [pl_on pl_off].
    split; [reflexivity|]. split; [reflexivity|]. split; [reflexivity|]. split; [reflexivity|]. split; [constructor; reflexivity|].
    exists r, f, tv, tc, x. split; [exact ER|]. split; [exact EF2|]. unfold eng_results. rewrite ES. cbn [snd]. rewrite <- El, EV1, EC1. split; [reflexivity|]. split; [reflexivity|]. split; [reflexivity|].
    split; [reflexivity|]. split; [exact QX|].
    assert (SU : dh_supply (pl_dhw l1) = ep_supply p) by (exact (proj1 (size_temps _ _ _ _ _ _ _ _ _ _ _ EW))).
    unfold pl_loss in Q1, Q2. rewrite SU, I1, I2 in Q1, Q2. cbn [pl_flow pl_return pl_safety pl_off_time pl_off pl_on] in Q1, Q2. split.
    + rewrite Q2. field.
    + destruct AC as (_ & _ & AC & _). cbn [pl_off pl_on] in AC. rewrite Q1. field. split; [lra|]. unfold rho_cp; lra.
Qed.
Print Assumptions C52_parallel_loop.

(** A swing-tank engine's element watches the middle of the swing tank, all day, keeping it between the
    supply temperature and 8 F above.  Sized, tank and element are those reported; pre-sized, given. *)
Theorem C52_swing_tank : forall dt p e w s, eng_new dt p = Ok e -> en_system e = ESwing w s ->
  exists c, wh_schedule (ws_element s) = Some (repeat "normal"%string 24) /\
    wh_map (ws_element s) = Some [("normal"%string, c)] /\
    settings c (1 # 2) (ep_supply p) (1 # 2) (ep_supply p + 8) (ep_supply p + 8) /\
    match ep_volume p with
    | None => exists r f tv tc, ep_return p = Some r /\ ep_flow p = Some f /\
        snd (eng_results e) = Some (tv, Some tc) /\ mx_vol (ws_swing s) = tv /\ wh_pm (ws_element s) = Some (PmNominal tc) /\
        tc == ep_tm_safety p * (f * 60 * rho_cp * (ep_supply p - r)) / 1000
    | Some _ => ep_tm_volume p = Some (mx_vol (ws_swing s)) /\
        wh_pm (ws_element s) = match ep_tm_capacity p with Some tc => Some (PmNominal tc) | None => None end
    end.
Proof.
  intros dt p e w s H ES. destruct (new_inv _ _ _ H) as (b & sched & m & EB & EC & C).
  exists (mkControls (1 # 2) (ep_supply p) (1 # 2) (ep_supply p + 8) (ep_supply p + 8)).
  destruct C as [(vol & hs & EV & EH & A & Eb & E1 & E2 & EP)|(EV & EZ & C)].
  - rewrite EV. rewrite ES in A, EP. destruct A as (EK & _). unfold eng_presized in EP. rewrite EC in EP. cbn [bind] in EP. rewrite EH in EP. cbn [bind] in EP. rewrite EK in EP.
    destruct (bind_ok _ _ _ EP) as ([r f] & ER & F1). destruct (bind_ok _ _ _ F1) as (tv & ET & F2). destruct (bind_ok _ _ _ F2) as (w0 & EH2 & F3).
    apply ok_inj in F3. apply pair_equal_spec in F3. destruct F3 as [_ F3]. injection F3 as _ <-. clear F1 F2 EP.
    cbn [ws_element ws_swing mx_vol swing_element wh_schedule wh_map wh_pm wh_new]. split; [reflexivity|]. split; [reflexivity|]. split; [constructor; reflexivity|].
    split; [|reflexivity]. unfold require_tm in ET. destruct (ep_tm_volume p) as [v|]; [|discriminate]. destruct (ep_tm_capacity p), (ep_tm_model p); try discriminate; apply ok_inj in ET; congruence.
  - rewrite EV. rewrite ES in EZ. unfold eng_sized in EZ. rewrite EC in EZ. cbn [bind] in EZ. destruct (bind_ok _ _ _ EZ) as (fract & EF & H1). clear EZ.
    assert (EK : kind_of (ep_schematic p) = Some KSwing).
    { destruct C as [(d & Ed & _)|(c & v & hs & _ & _ & _ & A & _)]; [congruence|]. rewrite ES in A. exact (proj1 A). }
    cbv zeta in H1. rewrite EK in H1. destruct (bind_ok _ _ _ H1) as ([r f] & ER & H2). clear H1. apply recirc_ok in ER. destruct ER as [ER EF2]. cbn [fst snd] in H2.
    unfold fs_swing in H2. cbv zeta in H2. destruct (bind_ok _ _ _ H2) as (w0 & EN & H3). clear H2. destruct (swing_size _ _ _ _ _ _ _) as [[w1 b1] out] eqn:EL. destruct (bind_ok _ _ _ H3) as (wt & -> & H4). clear H3.
    unfold sw_new in EN. destruct (Qle_bool (ep_tm_safety p) 1) eqn:SF; [discriminate|]. apply ok_inj in EN. subst w0.
    destruct (swing_size_inv _ _ _ _ _ _ _ _ _ _ EL) as (b2 & inlet & s1 & mo & rv & g & stor & cap & _ & _ & ET & _ & _ & _ & _ & cap' & stor' & mix' & -> & _).
    destruct (size_tm_inv _ _ _ ET) as (v & tv & ca & _ & _ & _ & _ & ->). cbn [dh_min_cap dh_min_stor sw_dhw sw_tm_vol sw_set_tm sw_tm_cap] in H4.
    apply ok_inj in H4. apply pair_equal_spec in H4. destruct H4 as [_ H4]. injection H4 as Ew <-.
    cbn [ws_element ws_swing mx_vol swing_element wh_schedule wh_map wh_pm wh_new]. split; [reflexivity|]. split; [reflexivity|]. split; [constructor; reflexivity|].
    eexists r, f, tv, _. split; [exact ER|]. split; [exact EF2|]. unfold eng_results. rewrite ES, <- Ew. cbn [snd sw_tm_vol sw_tm_cap]. split; [reflexivity|]. split; [reflexivity|]. split; [reflexivity|].
    unfold sw_loss, sw_set_dhw. cbn [sw_safety sw_flow sw_return sw_dhw].
    destruct (match sched with [] => false | _ :: _ => dict_has m "shed" end); cbn; field.
Qed.
Print Assumptions C52_swing_tank.

(** A pre-sized multi-pass engine's tank starts from the design mains temperature (50 F without one) and
    holds storage water behind a supply-temperature mixing valve. *)
Theorem C52_multi_pass_tank : forall dt p e x vol, eng_new dt p = Ok e -> en_system e = EMprtp x -> ep_volume p = Some vol ->
  exists di, bd_design_inlet (en_building e) = Ok di /\
    let t := ms_tank (mb_sys x) in
    en_vol (sl_base t) = vol /\ sl_supply t = ep_supply p /\ en_storage (sl_base t) = ep_storage p /\
    (forall c, di = Some c -> ~ c == 0 -> en_cold (sl_base t) = c) /\
    ((forall c, di = Some c -> c == 0) -> en_cold (sl_base t) = 50).
Proof.
  intros dt p e x vol H ES EV. destruct (new_inv _ _ _ H) as (b & sched & m & EB & EC & [(vol' & hs & EV' & EH & A & Eb & E1 & E2 & EP)|(EV' & _)]); [|congruence].
  rewrite ES in A, EP. destruct A as (EK & _). unfold eng_presized in EP. rewrite EC in EP. cbn [bind] in EP. rewrite EH in EP. cbn [bind] in EP. rewrite EK in EP.
  destruct (bind_ok _ _ _ EP) as ([r f] & ER & F1). destruct (bind_ok _ _ _ F1) as (di & ED & F2).
  apply ok_inj in F2. apply pair_equal_spec in F2. destruct F2 as [_ F2]. injection F2 as <-. rewrite Eb. exists di. split; [exact ED|].
  cbn. split; [congruence|]. split; [reflexivity|]. split; [reflexivity|]. unfold sim_inlet. split.
  - intros c -> NZ. destruct (Qeq_bool c 0) eqn:Q; [apply Qeq_bool_iff in Q; contradiction|reflexivity].
  - intro Z. destruct di as [c|]; [|reflexivity]. rewrite (proj2 (Qeq_bool_iff c 0)); [reflexivity|]. apply Z. reflexivity.
Qed.
Print Assumptions C52_multi_pass_tank.

(** The daily demand of a constructed engine: the magnitude times the demand per unit, or, for a custom
    load shape, the magnitude itself, or the total of the shape. *)
Theorem C52_magnitude : forall dt p e ty mag, eng_new dt p = Ok e -> ep_type p = One ty -> ep_mag p = One mag ->
  match ty with
  | Some t => exists m x, mag = Some m /\ 0 < m /\ eng_magnitude e = x * m /\
                (t = "multi_family"%string /\ ep_gpdpp p = Some x \/ In (t, x) ashrae_gpd)
  | None => match mag with
            | Some m => eng_magnitude e = m
            | None => exists shape, ep_peak p = Some (One shape) /\ eng_magnitude e = qsum shape
            end
  end.
Proof.
  intros dt p e ty mag H ET EM. destruct (new_kept _ _ _ H) as (b & EB & _ & D). unfold eng_magnitude. rewrite D. clear D.
  unfold eng_building in EB. destruct (bind_ok _ _ _ EB) as (cz & _ & F). unfold from_building_type in F. cbv zeta in F. rewrite ET, EM in F.
  destruct (bind_ok _ _ _ F) as (cp & EP & F1). destruct (bind_ok _ _ _ F1) as (ca & EA & F2). cbn [bind] in F2.
  destruct (bind_ok _ _ _ F2) as ([[g pk] av] & EC & F3). apply ok_inj in F3. subst b. cbn [bd_daily bd_new]. unfold compute_single in EC.
  destruct ty as [t|].
  - destruct mag as [m|]; [|discriminate]. destruct (Qle_bool m 0) eqn:Q; [discriminate|]. qbool. destruct (bind_ok _ _ _ EC) as (g0 & EG & G1).
    assert (g0 = g). { destruct (bind_ok _ _ _ G1) as (p1 & _ & G2). destruct (bind_ok _ _ _ G2) as (a1 & _ & G3). apply ok_inj in G3. congruence. }
    subst g0. destruct (String.eqb t "multi_family"%string) eqn:T.
    + apply String.eqb_eq in T. unfold mf_gpdpp in EG. destruct (ep_gpdpp p) as [x|]; [|discriminate]. cbn [bind] in EG. apply ok_inj in EG.
      exists m, x. repeat split; auto.
    + destruct (dict_get ashrae_gpd t) as [x|] eqn:G; [|discriminate]. apply ok_inj in EG. exists m, x. repeat split; auto. right.
      clear -G. revert G. generalize ashrae_gpd. induction l as [|[k v] l IH]; cbn; [discriminate|]. destruct (String.eqb t k) eqn:E.
      * apply String.eqb_eq in E. intro G. left. congruence.
      * intro G. right. exact (IH G).
  - destruct cp as [raw|]; [|discriminate]. destruct (bind_ok _ _ _ EC) as ([g0 p0] & EG & G1).
    assert (g0 = g).
    { destruct ca as [ra|]; [|apply ok_inj in G1; congruence]. destruct (bind_ok _ _ _ G1) as (p1 & _ & G2). destruct (bind_ok _ _ _ G2) as (a1 & _ & G3). apply ok_inj in G3. congruence. }
    subst g0. destruct mag as [m|].
    + destruct (qltb _ _); destruct (bind_ok _ _ _ EG) as (y & _ & G2); apply ok_inj in G2; congruence.
    + destruct (bind_ok _ _ _ EG) as (y & _ & G2). apply ok_inj in G2. exists raw. split; [|congruence].
      destruct (ep_peak p) as [[l|l]|]; [apply ok_inj in EP; congruence|discriminate|apply ok_inj in EP; discriminate].
Qed.
Print Assumptions C52_magnitude.

(** Each is reached: pre-sized engines of the three types, and their daily demand. *)
Example ex_parallel_built : exists e l s, eng_new ex_data (ex_params "paralleltank" None 0 None (Some 500) (Some 100)) = Ok e /\
  en_system e = EParallel l s /\ ep_volume (ex_params "paralleltank" None 0 None (Some 500) (Some 100)) = Some 500 /\ eng_magnitude e = 1000.
Proof. eexists _, _, _. repeat split; vm_compute; reflexivity. Qed.
Example ex_swing_built : exists e w s, eng_new ex_data (ex_params "swingtank" None 0 None (Some 500) (Some 100)) = Ok e /\ en_system e = ESwing w s.
Proof. eexists _, _, _. repeat split; vm_compute; reflexivity. Qed.
Example ex_mp_built : exists e x, eng_new ex_data (ex_params "mprtp" None 0 None (Some 500) (Some 100)) = Ok e /\ en_system e = EMprtp x.
Proof. eexists _, _. repeat split; vm_compute; reflexivity. Qed.
Example ex_parallel_sized : exists e l s, eng_new ex_data (ex_params "paralleltank" None 0 None None None) = Ok e /\ en_system e = EParallel l s.
Proof. eexists _, _, _. split; vm_compute; reflexivity. Qed.
