(** C52-C54: schematic dispatch and construction, the capacity query, the model listing. *)
From Coq Require Import Ascii.
From Verif Require Import Prelude M_StratifiedTank M_MixedTank M_EnergyTank M_Building L_Building M_Heater S_Heater L_Heater
  M_Sizing M_SimRun S_SimRun M_Step S_Step L_Step L_Step2 M_Swing M_MPRTP M_Engine S_Engine L_Engine L_Engine2 L_Engine3 P_Sizing P_Engine.
Open Scope Q_scope.

(** ** C52 Schematic dispatch *)

(** A constructed engine holds the system its schematic name documents. *)
Theorem C52_dispatch : forall dt p e, eng_new dt p = Ok e -> In (ep_schematic p, type_of (en_system e)) documented.
Proof. intros dt p e H. destruct (engine_assembled _ _ _ H) as (hs & vol & A). exact (assembled_type _ _ _ _ _ A). Qed.
Print Assumptions C52_dispatch.

(** One name, one type. *)
Theorem C52_names_unambiguous : forall s t t', In (s, t) documented -> In (s, t') documented -> t = t'.
Proof.
  intros s t t' A B. apply kind_documented in A. apply kind_documented in B. destruct A as (k & E & <-). destruct B as (k' & E' & <-). congruence.
Qed.
Print Assumptions C52_names_unambiguous.

(** Any other name is refused, whatever the rest; with a building and no other mistake, by ValueError. *)
Theorem C52_unknown_rejected : forall dt p, (forall t, ~ In (ep_schematic p, t) documented) ->
  (forall e, eng_new dt p <> Ok e) /\
  (forall b, eng_building dt p = Ok b -> (forall ls, ~ given_schedule p ls) -> ep_volume p = None -> eng_new dt p = Err ValueError).
Proof.
  intros dt p N. split; [intros e H; exact (N _ (C52_dispatch _ _ _ H))|].
  intros b Eb NG EV. unfold eng_new. rewrite Eb. cbn [bind]. rewrite EV. unfold eng_sized, eng_controls.
  assert (EK : kind_of (ep_schematic p) = None).
  { destruct (kind_of (ep_schematic p)) as [k|] eqn:E; [exfalso; exact (N _ (kind_type _ _ E))|reflexivity]. }
  destruct (ep_ls p) as [[|v ls]|] eqn:EL.
  - cbv zeta. cbn [bind]. rewrite EK. reflexivity.
  - exfalso. apply (NG (v :: ls)). split; [exact EL|discriminate].
  - cbv zeta. cbn [bind]. rewrite EK. reflexivity.
Qed.
Print Assumptions C52_unknown_rejected.

(** Recirculating systems need the loop's return temperature and flow. *)
Theorem C52_missing_recirc : forall dt p t, In (ep_schematic p, t) documented -> recirculates t ->
  ep_return p = None \/ ep_flow p = None -> forall e, eng_new dt p <> Ok e.
Proof.
  intros dt p t D R M e H. destruct (engine_assembled _ _ _ H) as (hs & vol & A).
  rewrite (C52_names_unambiguous _ _ _ D (C52_dispatch _ _ _ H)) in R.
  destruct (assembled_parts _ _ _ _ _ A) as (_ & _ & P). destruct (P R) as (r & f & E1 & E2 & _). destruct M; congruence.
Qed.
Print Assumptions C52_missing_recirc.

(** Pre-sized parallel-loop and swing-tank systems need the second tank's volume, and its capacity or
    model; every pre-sized system needs a heating capacity or a model. *)
Theorem C52_missing_equipment : forall dt p t vol, In (ep_schematic p, t) documented -> ep_volume p = Some vol ->
  (t = ParallelLoop \/ t = SwingTank) /\ (ep_tm_volume p = None \/ ep_tm_capacity p = None /\ ep_tm_model p = None) \/
  ep_capacity p = None /\ ep_model p = None -> forall e, eng_new dt p <> Ok e.
Proof.
  intros dt p t vol D EV M e H.
  destruct (new_inv _ _ _ H) as (b & sched & m & EB & EC & [(vol' & hs & EV' & EH & A & _ & _ & _ & EP)|(EV' & _)]); [|congruence].
  destruct M as [[T M]|[M1 M2]].
  - apply kind_documented in D. destruct D as (k & EK & D). unfold eng_presized in EP. rewrite EC in EP. cbn [bind] in EP. rewrite EH in EP. cbn [bind] in EP.
    rewrite EK in EP.
    assert (RT : forall x, require_tm p <> Ok x) by (unfold require_tm; intros x E; destruct (ep_tm_volume p), (ep_tm_capacity p), (ep_tm_model p); destruct M as [M|[M M']]; discriminate).
    destruct k; cbn in D; try (destruct T; congruence).
    + destruct (bind_ok _ _ _ EP) as (rf & _ & E1). destruct (bind_ok _ _ _ E1) as (tv & E2 & _). exact (RT _ E2).
    + destruct (bind_ok _ _ _ EP) as (rf & _ & E1). destruct (bind_ok _ _ _ E1) as (tv & E2 & _). exact (RT _ E2).
  - unfold eng_heaters in EH. rewrite M1, M2 in EH. discriminate.
Qed.
Print Assumptions C52_missing_equipment.

(** With its parameters given every documented name builds its system around the given equipment. *)
Theorem C52_presized_builds : forall dt p t b di vol c, In (ep_schematic p, t) documented ->
  eng_building dt p = Ok b -> bd_design_inlet b = Ok di -> (forall ls, given_schedule p ls -> (24 <= length ls)%nat) ->
  ep_volume p = Some vol -> ep_model p = None -> ep_capacity p = Some c -> ep_num p <> 0%Z ->
  (recirculates t -> ep_return p <> None /\ ep_flow p <> None) ->
  (t = ParallelLoop \/ t = SwingTank ->
     ep_tm_volume p <> None /\ ep_tm_capacity p <> None /\ ep_tm_model p = None /\ ep_num_tm p <> 0%Z) ->
  (t = SwingTank -> 1 < ep_tm_safety p) ->
  exists e, eng_new dt p = Ok e /\ type_of (en_system e) = t /\ en_building e = b.
Proof.
  intros dt p t b di vol c D EB ED LS EV EM EC EN R TM SF.
  destruct (proj2 (C51_accepts p) LS) as ([sched m] & ECt).
  unfold eng_new. rewrite EB. cbn [bind]. rewrite EV. unfold eng_presized. rewrite ECt. cbn [bind]. unfold eng_heaters. rewrite EM, EC.
  assert (NZ : forall n, n <> 0%Z -> ~ qz n == 0) by (intros n Hn E; unfold qz in E; change 0 with (inject_Z 0) in E; rewrite inject_Z_injective in E; lia).
  rewrite qdiv_ok by (apply NZ; exact EN). cbn [bind].
  apply kind_documented in D. destruct D as (k & EK & D). rewrite EK.
  assert (RR : recirculates t -> exists r f, require_recirc p = Ok (r, f)).
  { intro Rt. destruct (R Rt) as [A B]. unfold require_recirc. destruct (ep_return p); [|contradiction]. destruct (ep_flow p); [|contradiction]. eauto. }
  assert (RT : t = ParallelLoop \/ t = SwingTank -> exists v, require_tm p = Ok v).
  { intro Rt. destruct (TM Rt) as (A & B & _). unfold require_tm. destruct (ep_tm_volume p); [|contradiction]. destruct (ep_tm_capacity p); [|contradiction]. eauto. }
  destruct k; cbn in D; subst t.
  - eexists. split; [reflexivity|]. split; reflexivity.
  - destruct (RR ltac:(split; discriminate)) as (r & f & ->). cbn [bind]. destruct (RT ltac:(auto)) as (v & ->). cbn [bind]. cbv zeta.
    destruct (TM ltac:(auto)) as (_ & B & C & E). unfold eng_tm_heater. rewrite C. destruct (ep_tm_capacity p); [|contradiction].
    rewrite qdiv_ok by (apply NZ; exact E). cbn [bind]. eexists. split; [reflexivity|]. split; reflexivity.
  - destruct (RR ltac:(split; discriminate)) as (r & f & ->). cbn [bind]. destruct (RT ltac:(auto)) as (v & ->). cbn [bind].
    unfold sw_new. destruct (Qle_bool (ep_tm_safety p) 1) eqn:Q1; [exfalso; qbool; pose proof (SF eq_refl); lra|]. cbn [bind].
    eexists. split; [reflexivity|]. split; reflexivity.
  - destruct (RR ltac:(split; discriminate)) as (r & f & ->). cbn [bind]. eexists. split; [reflexivity|]. split; reflexivity.
  - destruct (RR ltac:(split; discriminate)) as (r & f & ->). cbn [bind]. rewrite ED. cbn [bind]. eexists. split; [reflexivity|]. split; reflexivity.
  - eexists. split; [reflexivity|]. split; reflexivity.
Qed.
Print Assumptions C52_presized_builds.

(** Every alias, concretely. *)
Example C52_case : forall s t, In (s, t) documented -> exists e,
  eng_new ex_data (ex_params s None 0 None (Some 500) (Some 100)) = Ok e /\ type_of (en_system e) = t.
Proof.
  intros s t I. cbn in I.
  repeat (destruct I as [I|I]; [injection I as <- <-; eexists; split; [vm_compute; reflexivity|reflexivity]|]). destruct I.
Qed.
Print Assumptions C52_case.

(** What is built: the requested temperatures and loop; on the sized path one heater of exactly the
    reported capacity and a tank of exactly the reported volume, on the other the given volume. *)
Theorem C52_parts : forall dt p e, eng_new dt p = Ok e ->
  temperatures (en_system e) = (ep_supply p, ep_storage p) /\
  (recirculates (type_of (en_system e)) ->
     exists r f, ep_return p = Some r /\ ep_flow p = Some f /\ loop (en_system e) = Some (r, f)) /\
  (type_of (en_system e) <> InstantWH ->
     match ep_volume p with
     | Some vol => primary_volume (en_system e) = Some vol
     | None => exists cap vol tm h, eng_results e = (Some cap, Some vol, tm) /\
                 primary_volume (en_system e) = Some vol /\ primary_heaters (en_system e) = [h] /\
                 forall oat outlet inlet, wh_capacity h oat outlet inlet = Ok (Some cap)
     end).
Proof.
  intros dt p e H. destruct (new_inv _ _ _ H) as (b & sched & m & _ & EC & C).
  destruct C as [(vol & hs & EV & _ & A & _)|(EV & _ & [(d & E & A)|(c & v & hs & E1 & E2 & (h & -> & S1 & S2 & S3) & A & _)])].
  - destruct (assembled_parts _ _ _ _ _ A) as (P1 & P2 & P3). split; [exact P1|]. split; [exact P3|]. rewrite EV. intro NI. exact (proj2 (P2 NI)).
  - destruct (assembled_parts _ _ _ _ _ A) as (P1 & P2 & P3). split; [exact P1|]. split; [exact P3|]. rewrite E. cbn. contradiction.
  - destruct (assembled_parts _ _ _ _ _ A) as (P1 & P2 & P3). split; [exact P1|]. split; [exact P3|]. rewrite EV. intro NI. destruct (P2 NI) as [Q1 Q2].
    exists c, v. do 1 eexists. exists h. split; [unfold eng_results; rewrite E1, E2; reflexivity|]. split; [exact Q2|]. split; [exact Q1|].
    intros oat outlet inlet. unfold wh_capacity. rewrite S1. reflexivity.
Qed.
Print Assumptions C52_parts.

(** The heaters of a pre-sized system: the requested number, each with its share, together exactly the
    given capacity; or one heater with the registered map of the given model for that many units. *)
Theorem C52_presized_heaters : forall dt p e vol, eng_new dt p = Ok e -> ep_volume p = Some vol ->
  type_of (en_system e) <> InstantWH ->
  match ep_model p with
  | None => exists c share, ep_capacity p = Some c /\ length (primary_heaters (en_system e)) = Z.to_nat (ep_num p) /\
      qz (ep_num p) * share == c /\
      forall h, In h (primary_heaters (en_system e)) -> forall oat outlet inlet, wh_capacity h oat outlet inlet = Ok (Some share)
  | Some name => exists di x pm h, bd_design_inlet (en_building e) = Ok di /\
      (forall t, di = Some t -> ~ t == 0 -> x = t) /\
      pm_from_model (da_reg dt) name (ep_num p) x None = Ok pm /\
      primary_heaters (en_system e) = [h] /\ wh_pm h = Some pm
  end.
Proof.
  intros dt p e vol H EV NI. destruct (new_inv _ _ _ H) as (b & sched & m & EB & EC & [(vol' & hs & _ & EH & A & Eb & _)|(E & _)]); [|congruence].
  destruct (assembled_parts _ _ _ _ _ A) as (_ & P2 & _). destruct (P2 NI) as [-> _]. unfold eng_heaters in EH. destruct (ep_model p) as [name|].
  - destruct (bind_ok _ _ _ EH) as (di & E1 & H1). destruct (bind_ok _ _ _ H1) as (pm & E2 & H2). apply ok_inj in H2. subst hs.
    rewrite Eb. exists di, (sim_inlet di), pm. eexists. split; [exact E1|]. split; [|split; [exact E2|split; reflexivity]].
    intros t -> NZ. cbn. destruct (Qeq_bool t 0) eqn:Q0; [exfalso; qbool; contradiction|reflexivity].
  - destruct (ep_capacity p) as [c|]; [|discriminate]. destruct (bind_ok _ _ _ EH) as (x & E1 & H1). apply ok_inj in H1. subst hs.
    destruct (qdiv_inv _ _ _ E1) as [NZ ->]. exists c, (c / qz (ep_num p)). split; [reflexivity|]. split; [apply repeat_length|].
    split; [field; exact NZ|]. intros h I oat outlet inlet. apply repeat_spec in I. subst h. reflexivity.
Qed.
Print Assumptions C52_presized_heaters.

(** A pre-sized system reports no sizing results. *)
Theorem C52_presized_results : forall dt p e vol, eng_new dt p = Ok e -> ep_volume p = Some vol -> eng_results e = (None, None, None).
Proof.
  intros dt p e vol H EV. destruct (new_inv _ _ _ H) as (b & sched & m & EB & EC & [(vol' & hs & _ & EH & A & Eb & E1 & E2 & EP)|(E & _)]); [|congruence].
  unfold eng_results. rewrite E1, E2. unfold eng_presized in EP. rewrite EC in EP. cbn [bind] in EP. rewrite EH in EP. cbn [bind] in EP.
  destruct (kind_of (ep_schematic p)) as [[]|].
  - apply ok_inj in EP. apply pair_equal_spec in EP. destruct EP as [_ <-]. reflexivity.
  - destruct (bind_ok _ _ _ EP) as (rf & _ & F1). destruct (bind_ok _ _ _ F1) as (tv & _ & F2). cbv zeta in F2. destruct (bind_ok _ _ _ F2) as (th & _ & F3).
    apply ok_inj in F3. apply pair_equal_spec in F3. destruct F3 as [_ <-]. reflexivity.
  - destruct (bind_ok _ _ _ EP) as (rf & _ & F1). destruct (bind_ok _ _ _ F1) as (tv & _ & F2). destruct (bind_ok _ _ _ F2) as (w & EW & F3).
    apply ok_inj in F3. apply pair_equal_spec in F3. destruct F3 as [_ <-]. unfold sw_new in EW. destruct (Qle_bool _ _); [discriminate|].
    apply ok_inj in EW. subst w. reflexivity.
  - destruct (bind_ok _ _ _ EP) as (rf & _ & F1). apply ok_inj in F1. apply pair_equal_spec in F1. destruct F1 as [_ <-]. reflexivity.
  - destruct (bind_ok _ _ _ EP) as (rf & _ & F1). destruct (bind_ok _ _ _ F1) as (di & _ & F2). apply ok_inj in F2. apply pair_equal_spec in F2. destruct F2 as [_ <-]. reflexivity.
  - apply ok_inj in EP. apply pair_equal_spec in EP. destruct EP as [_ <-]. reflexivity.
  - discriminate.
Qed.
Print Assumptions C52_presized_results.

(** Without a storage volume all other equipment arguments are ignored. *)
Theorem C52_sized_ignores_equipment : forall dt p num model cap tm_vol tm_cap tm_model num_tm, ep_volume p = None ->
  eng_new dt (with_equipment p num model cap tm_vol tm_cap tm_model num_tm) = eng_new dt p.
Proof. intros dt p num model cap tm_vol tm_cap tm_model num_tm EV. destruct p. cbn in EV. subst. reflexivity. Qed.
Print Assumptions C52_sized_ignores_equipment.

(** Multi-pass and instantaneous systems ignore the run-hours argument; all others keep it. *)
Theorem C52_run_hours_ignored : forall dt p run t, In (ep_schematic p, t) documented -> t = MultiPassRTP \/ t = InstantWH ->
  eng_new dt (with_run p run) = eng_new dt p.
Proof.
  intros dt p run t D T. apply kind_documented in D. destruct D as (k & EK & D).
  assert (K : k = KMprtp \/ k = KInstant) by (destruct k; cbn in D; subst t; destruct T; try discriminate; auto).
  unfold eng_new. change (ep_volume (with_run p run)) with (ep_volume p). change (eng_building dt (with_run p run)) with (eng_building dt p).
  destruct (eng_building dt p) as [b|ex]; [cbn [bind]|reflexivity].
  match goal with |- bind ?a _ = bind ?b _ => assert (E : a = b); [|rewrite E; reflexivity] end.
  destruct (ep_volume p) as [v|].
  - unfold eng_presized. change (eng_controls (with_run p run)) with (eng_controls p). destruct (eng_controls p) as [[sched m]|ex]; [cbn [bind]|reflexivity].
    change (eng_heaters dt (with_run p run)) with (eng_heaters dt p). destruct (eng_heaters dt p b sched m) as [hs|ex]; [cbn [bind]|reflexivity].
    change (ep_schematic (with_run p run)) with (ep_schematic p). rewrite EK. destruct K as [-> | ->]; reflexivity.
  - unfold eng_sized. change (eng_controls (with_run p run)) with (eng_controls p). destruct (eng_controls p) as [[sched m]|ex]; [cbn [bind]|reflexivity].
    change (ep_ls (with_run p run)) with (ep_ls p). change (ep_ls_percent (with_run p run)) with (ep_ls_percent p).
    match goal with |- bind ?a _ = bind ?a _ => destruct a as [fr|ex]; [cbn [bind]|reflexivity] end.
    change (ep_schematic (with_run p run)) with (ep_schematic p). rewrite EK. destruct K as [-> | ->]; reflexivity.
Qed.
Print Assumptions C52_run_hours_ignored.

Theorem C52_run_hours_kept : forall dt p e, eng_new dt p = Ok e ->
  type_of (en_system e) <> MultiPassRTP -> type_of (en_system e) <> InstantWH -> dh_run (sys_dhw (en_system e)) = ep_run p.
Proof. exact engine_run. Qed.
Print Assumptions C52_run_hours_kept.

(** The second heater of a parallel-loop engine starts at supply temperature and stops 8 degrees above
    it unless told otherwise. *)
Theorem C52_tm_thresholds : forall dt p e l s, eng_new dt p = Ok e -> en_system e = EParallel l s ->
  defaulted (ep_tm_on p) (ep_supply p) (ps_on s) /\ defaulted (ep_tm_off p) (ep_supply p + 8) (ps_off s).
Proof.
  intros dt p e l s H E. destruct (engine_assembled _ _ _ H) as (hs & vol & A). rewrite E in A. cbn in A.
  destruct A as (_ & r & f & _ & _ & _ & _ & _ & -> & ->). unfold ep_tm_on_temp, ep_tm_off_temp, defaulted, or_default.
  destruct (ep_tm_on p), (ep_tm_off p); auto.
Qed.
Print Assumptions C52_tm_thresholds.

(** The element of a pre-sized swing tank gives the stated capacity whatever model is named; with a
    model but no capacity it gives no heat at all. *)
Theorem C52_swing_element : forall dt p e vol w s, eng_new dt p = Ok e -> ep_volume p = Some vol -> en_system e = ESwing w s ->
  forall oat outlet inlet, wh_capacity (ws_element s) oat outlet inlet = Ok (ep_tm_capacity p).
Proof.
  intros dt p e vol w s H EV ES oat outlet inlet.
  destruct (new_inv _ _ _ H) as (b & sched & m & EB & EC & [(vol' & hs & _ & EH & A & Eb & E1 & E2 & EP)|(E & _)]); [|congruence].
  rewrite ES in *. destruct A as (EK & _). unfold eng_presized in EP. rewrite EC in EP. cbn [bind] in EP. rewrite EH in EP. cbn [bind] in EP. rewrite EK in EP.
  destruct (bind_ok _ _ _ EP) as (rf & _ & F1). destruct (bind_ok _ _ _ F1) as (tv & _ & F2). destruct (bind_ok _ _ _ F2) as (w' & EW & F3).
  apply ok_inj in F3. apply pair_equal_spec in F3. destruct F3 as [_ F3]. injection F3 as _ <-. unfold ws_element, swing_element, wh_capacity, wh_new. cbn [wh_pm].
  destruct (ep_tm_capacity p); reflexivity.
Qed.
Print Assumptions C52_swing_element.
