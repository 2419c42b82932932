From Coq Require Import Ascii.
From Verif Require Import Prelude M_StratifiedTank M_MixedTank M_EnergyTank M_Building L_Building M_Heater S_Heater L_Heater
  M_Sizing L_Sizing3 M_SimRun S_SimRun M_Step S_Step L_Step L_Step2 M_Swing M_MPRTP L_MPRTP2 M_Engine S_Engine L_Engine L_Engine2.
Open Scope Q_scope.

(** The run hours a system is left with. *)
Lemma sw_set_run_run s r : dh_run (sw_dhw (sw_set_run s r)) = r.
Proof. reflexivity. Qed.

Lemma engine_run dt p e : eng_new dt p = Ok e ->
  type_of (en_system e) <> MultiPassRTP -> type_of (en_system e) <> InstantWH -> dh_run (sys_dhw (en_system e)) = ep_run p.
Proof.
  intros H NM NI. destruct (new_inv _ _ _ H) as (b & sched & m & EB & EC & [(vol & hs & EV & EH & A & Eb & _ & _ & EP)|(EV & ES & _)]).
  - unfold eng_presized in EP. rewrite EC in EP. cbn [bind] in EP. rewrite EH in EP. cbn [bind] in EP. cbv zeta in EP.
    destruct (kind_of (ep_schematic p)) as [[]|].
    + apply ok_inj in EP. apply pair_equal_spec in EP. destruct EP as [_ EP]. rewrite <- EP. reflexivity.
    + destruct (bind_ok _ _ _ EP) as (rf & _ & F1). destruct (bind_ok _ _ _ F1) as (tv & _ & F2). destruct (bind_ok _ _ _ F2) as (th & _ & F3).
      apply ok_inj in F3. apply pair_equal_spec in F3. destruct F3 as [_ F3]. rewrite <- F3. reflexivity.
    + destruct (bind_ok _ _ _ EP) as (rf & _ & F1). destruct (bind_ok _ _ _ F1) as (tv & _ & F2). destruct (bind_ok _ _ _ F2) as (w & EW & F3).
      apply ok_inj in F3. apply pair_equal_spec in F3. destruct F3 as [_ F3]. rewrite <- F3. unfold sw_new in EW. destruct (Qle_bool _ _); [discriminate|].
      apply ok_inj in EW. subst w. reflexivity.
    + destruct (bind_ok _ _ _ EP) as (rf & _ & F1). apply ok_inj in F1. apply pair_equal_spec in F1. destruct F1 as [_ F1]. rewrite <- F1. reflexivity.
    + destruct (bind_ok _ _ _ EP) as (rf & _ & F1). destruct (bind_ok _ _ _ F1) as (di & _ & F2). apply ok_inj in F2. apply pair_equal_spec in F2. destruct F2 as [_ F2].
      rewrite <- F2 in NM. exfalso. apply NM. reflexivity.
    + apply ok_inj in EP. apply pair_equal_spec in EP. destruct EP as [_ EP]. rewrite <- EP in NI. exfalso. apply NI. reflexivity.
    + discriminate.
  - unfold eng_sized in ES. rewrite EC in ES. cbn [bind] in ES. destruct (bind_ok _ _ _ ES) as (fr & _ & F). clear ES. cbv zeta in F.
    destruct (kind_of (ep_schematic p)) as [[]|].
    + unfold fs_primary in F. destruct (dhw_size _ _ _ _ _ _ _ _) as [[d b1] out] eqn:E. destruct (bind_ok _ _ _ F) as (w & -> & F1). destruct (bind_ok _ _ _ F1) as (x & _ & F2).
      apply ok_inj in F2. apply pair_equal_spec in F2. destruct F2 as [_ F2]. rewrite <- F2. cbn [sys_dhw].
      destruct (size_temps _ _ _ _ _ _ _ _ _ _ _ E) as (_ & _ & R & _). exact R.
    + destruct (bind_ok _ _ _ F) as (rf & _ & F1). unfold fs_parallel in F1. cbv zeta in F1. destruct (pl_size _ _ _ _ _ _ _) as [[l b1] out] eqn:E.
      destruct (bind_ok _ _ _ F1) as ([] & -> & F2). destruct (bind_ok _ _ _ F2) as (x & _ & F3).
      unfold pl_size in E. destruct (pl_validate _) as [u|ex]; [|apply pair_equal_spec in E; destruct E; discriminate]. cbn [pl_dhw] in E.
      destruct (dhw_size _ _ _ _ _ _ _ _) as [[d b2] o2] eqn:ED. cbv zeta in E. destruct o2 as [w|ex]; [|apply pair_equal_spec in E; destruct E; discriminate].
      destruct (pl_size_tm _) as [p2|ex] eqn:ET; [|apply pair_equal_spec in E; destruct E; discriminate].
      apply pair_equal_spec in E. destruct E as [E _]. apply pair_equal_spec in E. destruct E as [-> ->].
      unfold pl_size_tm in ET. destruct (bind_ok _ _ _ ET) as (ratio & _ & ET1). apply ok_inj in ET1. subst l. cbn [pl_tm_vol pl_tm_cap] in F3.
      destruct (bind_ok _ _ _ F3) as (ps & _ & F4). apply ok_inj in F4. apply pair_equal_spec in F4. destruct F4 as [_ F4]. rewrite <- F4. cbn [sys_dhw pl_dhw pl_set_dhw].
      destruct (size_temps _ _ _ _ _ _ _ _ _ _ _ ED) as (_ & _ & R & _). exact R.
    + destruct (bind_ok _ _ _ F) as (rf & _ & F1). unfold fs_swing in F1. destruct (bind_ok _ _ _ F1) as (w0 & EW & F2).
      unfold sw_new in EW. destruct (Qle_bool _ _); [discriminate|]. apply ok_inj in EW. subst w0.
      destruct (swing_size _ _ _ _ _ _ _) as [[w b1] out] eqn:E. destruct (bind_ok _ _ _ F2) as ([] & -> & F3).
      destruct (dh_min_cap (sw_dhw w)); [|discriminate]. destruct (dh_min_stor (sw_dhw w)); [|discriminate]. destruct (sw_tm_vol w); [|discriminate].
      apply ok_inj in F3. apply pair_equal_spec in F3. destruct F3 as [_ F3]. rewrite <- F3. cbn [sys_dhw].
      unfold swing_size in E. destruct (if bd_is_annual b then _ else _) as [b2|ex]; [|discriminate].
      destruct (swing_size_try _ _ _ _ _ _) as [s2 o2]. cbv zeta in E. cbn [sw_dhw dh_run] in E. destruct o2 as [u|ex]; [|discriminate].
      destruct (bd_is_annual b).
      * destruct (bd_set_annual _ _); [|discriminate]. apply pair_equal_spec in E. destruct E as [E _]. apply pair_equal_spec in E. destruct E as [<- _]. apply sw_set_run_run.
      * apply pair_equal_spec in E. destruct E as [E _]. apply pair_equal_spec in E. destruct E as [<- _]. apply sw_set_run_run.
    + destruct (bind_ok _ _ _ F) as (rf & _ & F1). unfold fs_sprtp, sprtp_size in F1. destruct (dhw_size _ _ _ _ _ _ _ _) as [[d b1] out] eqn:E.
      destruct (bind_ok _ _ _ F1) as (rc & ERC & F2). destruct (bind_ok _ _ _ ERC) as (w & -> & _). destruct (bind_ok _ _ _ F2) as (x & _ & F3).
      apply ok_inj in F3. apply pair_equal_spec in F3. destruct F3 as [_ F3]. rewrite <- F3. cbn [sys_dhw].
      destruct (size_temps _ _ _ _ _ _ _ _ _ _ _ E) as (_ & _ & R & _). exact R.
    + destruct (bind_ok _ _ _ F) as (rf & _ & F1). destruct (mp_from_size _ _ _ _ _ _ _ _ _ _ _ _ _ _) as [b1 out]. destruct (bind_ok _ _ _ F1) as (x & _ & F2).
      apply ok_inj in F2. apply pair_equal_spec in F2. destruct F2 as [_ F2]. rewrite <- F2 in NM. exfalso. apply NM. reflexivity.
    + unfold fs_instant in F. destruct (bind_ok _ _ _ F) as (d & _ & F1). apply ok_inj in F1. apply pair_equal_spec in F1. destruct F1 as [_ F1].
      rewrite <- F1 in NI. exfalso. apply NI. reflexivity.
    + discriminate.
Qed.
