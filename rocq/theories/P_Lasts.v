(** C71: a tank whose fully hot part covers what the heaters cannot keep up with never runs out. *)
From Verif Require Import Prelude M_StratifiedTank S_StratifiedTank L_StratifiedTank L_StratifiedTank2 L_StratifiedTank3
  M_Building S_Building L_Building M_Heater S_Heater L_Heater M_Sizing S_Sizing M_SimRun S_SimRun L_SimRun L_SimMisc M_Step S_Step L_Step L_Step2 L_Step3 L_Step4
  M_Swing M_MPRTP M_Engine S_Engine S_EngineRun S_EngineSize L_Engine L_Engine2 L_Engine6 L_Engine8 S_Lasts L_Lasts L_Lasts2 L_Lasts3
  P_Sizing P_Engine P_Engine2 P_Engine6 P_Engine7.
Open Scope Q_scope.

(** ** New engines *)

Lemma presized_off dt p b sched m hs h : eng_heaters dt p b sched m = Ok hs -> In h hs -> wh_active h = false.
Proof.
  intros EH I. unfold eng_heaters in EH. destruct (ep_model p).
  - destruct (bind_ok _ _ _ EH) as (di & _ & F1). destruct (bind_ok _ _ _ F1) as (pm & _ & F2). apply ok_inj in F2. subst hs. destruct I as [<-|[]]. reflexivity.
  - destruct (ep_capacity p); [|discriminate]. destruct (bind_ok _ _ _ EH) as (y & _ & F1). apply ok_inj in F1. subst hs. apply repeat_spec in I. subst h. reflexivity.
Qed.

Lemma sized_off dt p b b' s h : eng_sized dt p b = Ok (b', s) -> pooled (type_of s) -> In h (primary_heaters s) -> wh_active h = false.
Proof.
  unfold eng_sized. intros H T I. destruct (bind_ok _ _ _ H) as ([sched m] & EC & H1). clear H. destruct (bind_ok _ _ _ H1) as (fract & EF & H). clear H1.
  cbv zeta in H. destruct (kind_of (ep_schematic p)) as [[]|] eqn:EK; [| | | | | |discriminate].
  - unfold fs_primary in H. destruct (dhw_size _ _ _ _ _ _ _ _) as [[d b1] out] eqn:ES.
    destruct (bind_ok _ _ _ H) as (w & -> & H1). destruct (bind_ok _ _ _ H1) as (x & EP & H2). apply ok_inj in H2. apply pair_equal_spec in H2. destruct H2 as [<- <-].
    destruct (parts_inv _ _ _ _ _ EP) as (c & v & A & B & ->). destruct I as [<-|[]]. reflexivity.
  - destruct (bind_ok _ _ _ H) as ([r f] & ER & H0). clear H. cbn [fst snd] in H0. unfold fs_parallel in H0. cbv zeta in H0. destruct (pl_size _ _ _ _ _ _ _) as [[l b1] out] eqn:ES.
    destruct (bind_ok _ _ _ H0) as ([] & -> & H1). clear H0. destruct (bind_ok _ _ _ H1) as (x & EP & H2). clear H1.
    destruct (parts_inv _ _ _ _ _ EP) as (c & v & A & B & ->). destruct (pl_tm_vol l) as [tv|]; [|discriminate]. destruct (pl_tm_cap l) as [tc|]; [|discriminate].
    destruct (bind_ok _ _ _ H2) as (ps & EB & H3). clear H2. apply ok_inj in H3. apply pair_equal_spec in H3. destruct H3 as [<- <-].
    unfold pl_build in EB. destruct (bind_ok _ _ _ EB) as (pu & _ & EB1). clear EB. cbv zeta in EB1. apply ok_inj in EB1. subst ps. destruct I as [<-|[]]. reflexivity.
  - destruct (bind_ok _ _ _ H) as ([r f] & ER & H0). clear H. unfold fs_swing in H0. destruct (bind_ok _ _ _ H0) as (w0 & EW & H1). clear H0.
    destruct (swing_size _ _ _ _ _ _ _) as [[w b1] out] eqn:ES. destruct (bind_ok _ _ _ H1) as ([] & -> & H2). clear H1.
    destruct (dh_min_cap (sw_dhw w)); [|discriminate]. destruct (dh_min_stor (sw_dhw w)); [|discriminate]. destruct (sw_tm_vol w); [|discriminate].
    apply ok_inj in H2. apply pair_equal_spec in H2. destruct H2 as [<- <-]. destruct T as [T|[T|T]]; discriminate.
  - destruct (bind_ok _ _ _ H) as ([r f] & ER & H0). clear H. cbn [fst snd] in H0. unfold fs_sprtp, sprtp_size in H0. destruct (dhw_size _ _ _ _ _ _ _ _) as [[d b1] out] eqn:ES.
    destruct (bind_ok _ _ _ H0) as (rc & ERC & H1). clear H0. destruct (bind_ok _ _ _ H1) as (x & EP & H2). apply ok_inj in H2. apply pair_equal_spec in H2. destruct H2 as [<- <-].
    destruct (parts_inv _ _ _ _ _ EP) as (c & v & A & B & ->). destruct I as [<-|[]]. reflexivity.
  - destruct (bind_ok _ _ _ H) as ([r f] & ER & H0). clear H. destruct (mp_from_size _ _ _ _ _ _ _ _ _ _ _ _ _ _) as [b1 out]. destruct (bind_ok _ _ _ H0) as (x & -> & H1).
    apply ok_inj in H1. apply pair_equal_spec in H1. destruct H1 as [<- <-]. destruct T as [T|[T|T]]; discriminate.
  - unfold fs_instant in H. destruct (bind_ok _ _ _ H) as (d & ED & H1). apply ok_inj in H1. apply pair_equal_spec in H1. destruct H1 as [<- <-]. destruct T as [T|[T|T]]; discriminate.
Qed.

Lemma new_off dt p e h : eng_new dt p = Ok e -> pooled (type_of (en_system e)) -> In h (primary_heaters (en_system e)) -> wh_active h = false.
Proof.
  intros H T I. destruct (new_inv _ _ _ H) as (b & sched & m & EB & EC & [(vol' & hs & EV' & EH & A & Eb & E1 & E2 & EP)|(EV' & ES & _)]).
  - destruct (assembled_parts _ _ _ _ _ A) as (_ & P & _). destruct P as [P _]; [intro X; rewrite X in T; destruct T as [T|[T|T]]; discriminate|]. rewrite P in I. exact (presized_off _ _ _ _ _ _ _ EH I).
  - exact (sized_off _ _ _ _ _ _ ES T I).
Qed.

(** The controls of a new engine without a schedule. *)
Lemma new_controls dt p e : eng_new dt p = Ok e -> without_schedule p ->
  existsb wh_load_shifting (primary_heaters (en_system e)) = false /\
  (forall h hour c, In h (primary_heaters (en_system e)) -> in_effect h hour c ->
     c = mkControls (ep_aq p) (or_default (ep_on_t p) (ep_supply p)) (ep_off_sensor p) (or_default (ep_off_t p) (ep_storage p)) (ep_storage p)) /\
  (0 <= ep_aq p -> 1 - ep_aq p <= initial_percent (primary_heaters (en_system e)) <= 1).
Proof.
  intros H NS. destruct (engine_heaters _ _ _ H) as (sched & m & EC & F). destruct (plain_controls _ _ _ NS EC) as [-> ->].
  set (hs := primary_heaters (en_system e)) in *. clearbody hs. split; [|split].
  - clear - F. induction F as [|h l [F1 F2] F IH]; [reflexivity|]. cbn [existsb]. rewrite IH. unfold wh_load_shifting. rewrite F2. reflexivity.
  - intros h hour c I (_ & s & d & k & S & M & N & G). rewrite Forall_forall in F. destruct (F h I) as [F1 F2]. rewrite F1 in S. rewrite F2 in M.
    assert (SI : forall A (x y : A), Some x = Some y -> y = x) by congruence. apply SI in S, M. rewrite S in N. rewrite M in G. apply nth_error_In in N. apply repeat_spec in N. subst k. cbn in G. injection G as <-. reflexivity.
  - intro A0. destruct F as [|h l [F1 F2] F]; [cbn; lra|]. cbn [initial_percent]. rewrite F2. cbn [dict_get String.eqb Ascii.eqb Bool.eqb ct_on_sensor]. split; qmm; lra.
Qed.

(** ** C71 Never running out *)

(** A new engine without a load-shift schedule whose tank serves the demand alone.  Steps need at most
    [top] gallons of storage-temperature water.  If the hot gallons left when the aquastat calls exceed, by
    one step's need, what any stretch of steps takes beyond what the heaters bring, and the hot gallons the
    simulation starts with cover every stretch from the start, then the water never runs out: the outage time
    is zero, the run is not stopped, the top of the tank stays at the storage temperature and usable water
    remains at every step. *)
Theorem C71_never_runs_out : forall dt p e dur thr maxm e' r total iv vol cold warm start on_t off_t k take top d,
  eng_new dt p = Ok e -> without_schedule p -> pooled (type_of (en_system e)) ->
  primary_volume (en_system e) = Some vol -> 0 < vol ->
  defaulted (ep_on_t p) (ep_supply p) on_t -> defaulted (ep_off_t p) (ep_storage p) off_t ->
  0 <= ep_aq p -> ep_off_sensor p <= ep_aq p -> on_t <= off_t -> on_t <= ep_storage p ->
  cold <= warm -> warm < on_t -> warm < ep_supply p -> ep_supply p < ep_storage p ->
  lasts dur total iv ->
  let b := en_building e in
  let slope := steepness (type_of (en_system e)) in
  (forall t x, bd_inlet b t iv = Ok x -> cold <= x /\ x <= warm) ->
  (forall di, bd_design_inlet b = Ok di -> sim_inlet di = start) -> cold <= start <= warm ->
  0 <= k -> give_at_least b iv (primary_heaters (en_system e)) (ep_storage p) k ->
  loop_takes (type_of (en_system e)) p iv warm take ->
  (forall n, (Z.of_nat n * iv < total)%Z -> bd_load b (Z.of_nat n) iv false = Ok (d n) /\ 0 <= d n) ->
  let need n := blended (d n) (ep_supply p) (ep_storage p) cold + take in
  let bring := heated k iv (ep_storage p) cold in
  (forall n, (Z.of_nat n * iv < total)%Z -> need n <= top) ->
  (forall i n, (Z.of_nat (i + n) * iv <= total)%Z -> shortfall need bring i n + top <= hot_reserve vol slope (ep_storage p) (ep_aq p) on_t) ->
  (forall n, (Z.of_nat n * iv <= total)%Z -> shortfall need bring 0 n <= hot_reserve vol slope (ep_storage p) (ep_aq p) start) ->
  eng_simulate e dur thr maxm = Ok (e', r) ->
  never_out (ep_storage p) (qmin vol (vol * (ep_storage p - ep_supply p) / (100 * slope))) thr r.
Proof.
  intros dt p e dur thr maxm e' r total iv vol cold warm start on_t off_t k take top d H NS TY PV V0 ON OFF A0 SO OO OS CW WO WS SS LA b slope MA DI [ST1 ST2] K0 GK LT LD need bring TOP WIN STA SIM.
  destruct (engine_assembled _ _ _ H) as (hs & vol0 & A). destruct (assembled_parts _ _ _ _ _ A) as (T & PP & _).
  destruct PP as [PH PV']; [intro X; rewrite X in TY; destruct TY as [Y|[Y|Y]]; discriminate|]. rewrite PV in PV'. injection PV' as <-.
  destruct (new_controls _ _ _ H NS) as (PL & CT & IP). specialize (IP A0). apply defaulted_is in ON, OFF. rewrite <- ON, <- OFF in CT.
  destruct (C65_runs_its_system _ _ _ _ _ _ _ _ H SIM) as (_ & KS). cbv zeta in KS.
  assert (Piv : (0 < iv)%Z) by (destruct LA as [(_ & _ & ->)|(_ & _ & ->)]; lia).
  assert (DV : exists N, (Z.of_nat N * iv = total)%Z).
  { exists (Z.to_nat (total / iv)). destruct LA as [(_ & -> & ->)|(_ & -> & ->)]; reflexivity. }
  destruct DV as (N & EN).
  assert (SL : 0 < slope) by (apply steepness_pos).
  set (Yon := hot_reserve vol slope (ep_storage p) (ep_aq p) on_t) in *. set (Y0 := hot_reserve vol slope (ep_storage p) (ep_aq p) start) in *.
  assert (CAP : Yon <= vol).
  { unfold Yon, hot_reserve. assert (0 <= (ep_storage p - on_t) / (100 * slope)) by (apply qdiv_nonneg; lra). 
    setoid_replace vol with (vol * 1) at 2 by ring. apply Qmult_le_l; [exact V0|]. lra. }
  assert (LD' : forall n, (n < N)%nat -> bd_load b (Z.of_nat n) iv false = Ok (d n) /\ 0 <= d n) by (intros n L; apply LD; rewrite <- EN; apply Z.mul_lt_mono_pos_r; lia).
  assert (TOP' : forall n, (n < N)%nat -> need n <= top) by (intros n L; apply TOP; rewrite <- EN; apply Z.mul_lt_mono_pos_r; lia).
  assert (WIN' : forall i n, (i + n <= N)%nat -> shortfall need bring i n + top <= Yon) by (intros i n L; apply WIN; rewrite <- EN; apply Z.mul_le_mono_nonneg_r; lia).
  assert (STA' : forall n, (n <= N)%nat -> shortfall need bring 0 n <= Y0) by (intros n L; apply STA; rewrite <- EN; apply Z.mul_le_mono_nonneg_r; lia).
  (* the state the simulation starts from *)
  assert (INI : forall s s0, bs_heaters s = primary_heaters (en_system e) -> s = base_parts p hs vol slope -> init_base b s = Ok s0 ->
            exists y, hot_state hs (ep_supply p) (ep_storage p) vol slope cold warm s0 false y /\ Kept need bring top Yon Y0 0 y).
  { intros s s0 EH ES E0. unfold init_base in E0. destruct (bind_ok _ _ _ E0) as (di & Edi & E1). clear E0. cbv zeta in E1. apply ok_inj in E1. rewrite (DI _ Edi) in E1. rewrite EH in E1.
    set (pu := initial_percent (primary_heaters (en_system e))) in *. subst s. cbn [base_parts bs_tank bs_supply bs_storage] in E1. subst s0.
    assert (W : st_wf (st_new vol slope)) by (split; [exact V0|exact SL]).
    pose proof (init_hot (st_new vol slope) (ep_storage p) start pu W) as IH. cbn [st_new st_vol st_slope] in IH.
    set (z := (ep_storage p - start) / (100 * slope)) in *. assert (Z0 : 0 <= z) by (unfold z; apply qdiv_nonneg; lra).
    exists (vol * (pu - z)). split.
    - constructor; cbn [bs_heaters bs_supply bs_storage bs_tank]; try reflexivity; [rewrite PH; apply same_all_refl|intros h I; exact (new_off _ _ _ _ H TY I)| |].
      + setoid_replace vol with (vol * 1) at 2 by ring. apply Qmult_le_l; [exact V0|]. lra.
      + eexists. split; [reflexivity|]. cbn [st_initialize st_vol st_slope st_inlet st_outlet st_new]. split; [reflexivity|]. split; [reflexivity|]. split; [exact ST1|]. split; [exact ST2|]. split; [reflexivity|]. exact IH.
    - right. rewrite shortfall_O. unfold Y0, hot_reserve. fold z. assert (vol * (1 - ep_aq p - z) <= vol * (pu - z)) by (apply Qmult_le_l; [exact V0|lra]). lra. }
  (* whatever the kind of system *)
  assert (FIN : forall outs, reported (ep_supply p) thr maxm total iv outs r -> Forall (hot_out (ep_supply p) (ep_storage p) vol slope) outs ->
    never_out (ep_storage p) (qmin vol (vol * (ep_storage p - ep_supply p) / (100 * slope))) thr r).
  { intros outs RP FO. destruct (rp_recorded _ _ _ _ _ _ _ RP) as [_ RU _ _ _ _ _ RT _ _ _ RO]. rewrite Forall_forall in FO.
    assert (LOW : 0 < qmin vol (vol * (ep_storage p - ep_supply p) / (100 * slope))).
    { assert (0 < vol * (ep_storage p - ep_supply p) / (100 * slope)) by (apply Qlt_shift_div_l; [lra|]; assert (0 < vol * (ep_storage p - ep_supply p)) by (apply Qmult_lt_0_compat; lra); lra). qmm; lra. }
    split.
    - rewrite RO. replace (outages outs) with (@nil step_out); [cbn; lia|]. symmetry. unfold outages.
      assert (Z : forall o, In o outs -> Qle_bool (so_usable o) 0 = false) by (intros o I; destruct (FO o I) as (U & _); apply qleb_false; lra).
      clear - Z. induction outs as [|o l IH]; [reflexivity|]. cbn [filter]. rewrite (Z o (or_introl eq_refl)). apply IH. intros o' I. apply Z. right. exact I.
    - intro T0. destruct (sr_stopped r) eqn:ES; [exfalso|reflexivity]. apply (rp_stopped _ _ _ _ _ _ _ RP) in ES.
      destruct ES as (n & N1 & (N2 & N3) & _). destruct (N3 (length outs - 1)%nat ltac:(lia)) as (o & EO & TC). apply nth_error_In in EO. destruct (FO o EO) as (_ & DN & _ & TP).
      unfold too_cold, delivered in TC. rewrite DN in TC. lra.
    - intros i x E. rewrite RU in E. rewrite nth_error_map in E. destruct (nth_error outs i) as [o|] eqn:EO; [|discriminate]. cbn in E. injection E as <-. apply nth_error_In in EO. exact (proj1 (FO o EO)).
    - eexists. split; [apply RT; lia|]. intros i x E. apply nth_error_In in E. assert (Z : exists o, In o outs /\ nth_error (so_temps o) 5 = Some x).
      { clear - E. induction outs as [|o l IH]; [destruct E|]. cbn [map somes] in E. destruct (nth_error (so_temps o) 5) as [y|] eqn:EY.
        - destruct E as [<-|E]; [exists o; split; [left; reflexivity|exact EY]|]. destruct (IH E) as (o' & I & X). exists o'. split; [right; exact I|exact X].
        - destruct (IH E) as (o' & I & X). exists o'. split; [right; exact I|exact X]. }
      destruct Z as (o & I & EX). destruct (FO o I) as (_ & _ & S6 & TP). rewrite (last_nth5 _ S6) in TP. rewrite (nth_error_nth _ _ _ EX) in TP. exact TP. }
  assert (LEN : forall outs, reported (ep_supply p) thr maxm total iv outs r -> (0 + length outs <= N)%nat).
  { intros outs RP. pose proof (rp_length _ _ _ _ _ _ _ RP) as L. rewrite <- EN in L. apply Zmult_le_reg_r in L; lia. }
  destruct (en_system e) as [dh s|l s|w s|dh ret flow s|x|dh] eqn:ES; cbn [type_of primary_heaters] in *; try (destruct TY as [Y|[Y|Y]]; discriminate).
  - destruct KS as (s' & E & _). unfold simulate_base in E. destruct (bind_ok _ _ _ E) as (s0 & E0 & E1). apply pair_equal_spec in T. destruct T as [T1 T2]. rewrite T1 in E1.
    destruct (simulate_reported _ _ _ _ _ _ _ _ _ E1) as (total' & iv' & outs & LA' & _ & EX & RP & _).
    assert (total' = total /\ iv' = iv) as [-> ->] by (destruct LA as [(L1 & -> & ->)|(L1 & -> & ->)]; destruct LA' as [(L2 & -> & ->)|(L2 & -> & ->)]; (split; reflexivity) || congruence).
    apply (FIN outs RP). destruct A as (_ & A). destruct (INI s s0 eq_refl A E0) as (y & HS & KP). rewrite PH in *.
    assert (TA : 0 <= take) by (cbn [loop_takes] in LT; lra).
    refine (run_hot b iv hs (ep_supply p) (ep_storage p) vol slope cold warm k (ep_aq p) on_t (base_step b) (fun s => s) take _ d top Y0 N LD' TOP' WIN' STA' CAP outs 0 s0 false y s' (LEN outs RP) HS KP EX).
    intros t u u' o X. eapply moves_more; [exact TA|].
    refine (moves_base b iv hs (ep_supply p) (ep_storage p) vol slope cold warm k (ep_aq p) on_t (ep_off_sensor p) off_t Piv V0 SL _ _ _ _ _ _ _ MA CT PL K0 GK t u u' o X); assumption.
  - destruct KS as (s' & E & _). unfold simulate_parallel in E. destruct (bind_ok _ _ _ E) as (s0 & E0 & E1). apply pair_equal_spec in T. destruct T as [T1 T2]. rewrite T1 in E1.
    destruct (simulate_reported _ _ _ _ _ _ _ _ _ E1) as (total' & iv' & outs & LA' & _ & EX & RP & _).
    assert (total' = total /\ iv' = iv) as [-> ->] by (destruct LA as [(L1 & -> & ->)|(L1 & -> & ->)]; destruct LA' as [(L2 & -> & ->)|(L2 & -> & ->)]; (split; reflexivity) || congruence).
    apply (FIN outs RP). destruct A as (_ & r0 & f & _ & _ & A & _). unfold init_parallel in E0. destruct (bind_ok _ _ _ E0) as (di & _ & E2). destruct (bind_ok _ _ _ E2) as (s1 & EI & E3). apply ok_inj in E3.
    destruct (INI (ps_base s) s1 eq_refl A EI) as (y & HS & KP). rewrite PH in *. assert (EB : ps_base s0 = s1) by (rewrite <- E3; reflexivity). rewrite <- EB in HS.
    assert (TA : 0 <= take) by (cbn [loop_takes] in LT; lra).
    refine (run_hot b iv hs (ep_supply p) (ep_storage p) vol slope cold warm k (ep_aq p) on_t (parallel_step b) ps_base take _ d top Y0 N LD' TOP' WIN' STA' CAP outs 0 s0 false y s' (LEN outs RP) HS KP EX).
    intros t u u' o X. eapply moves_more; [exact TA|].
    refine (moves_parallel b iv hs (ep_supply p) (ep_storage p) vol slope cold warm k (ep_aq p) on_t (ep_off_sensor p) off_t Piv V0 SL _ _ _ _ _ _ _ MA CT PL K0 GK t u u' o X); assumption.
  - destruct KS as (ret' & flow' & s' & R1 & F1 & E & _). unfold simulate_sprtp in E. destruct (bind_ok _ _ _ E) as (s0 & E0 & E1). apply pair_equal_spec in T. destruct T as [T1 T2]. rewrite T1 in E1.
    destruct (simulate_reported _ _ _ _ _ _ _ _ _ E1) as (total' & iv' & outs & LA' & _ & EX & RP & _).
    assert (total' = total /\ iv' = iv) as [-> ->] by (destruct LA as [(L1 & -> & ->)|(L1 & -> & ->)]; destruct LA' as [(L2 & -> & ->)|(L2 & -> & ->)]; (split; reflexivity) || congruence).
    apply (FIN outs RP). destruct A as (_ & _ & _ & A). destruct (INI s s0 eq_refl A E0) as (y & HS & KP). rewrite PH in *.
    destruct LT as (r1 & f1 & R2 & F2 & F0 & RS & ET). rewrite R1 in R2. injection R2 as <-. rewrite F1 in F2. injection F2 as <-.
    refine (run_hot b iv hs (ep_supply p) (ep_storage p) vol slope cold warm k (ep_aq p) on_t (sprtp_step ret' flow' b) (fun s => s) take _ d top Y0 N LD' TOP' WIN' STA' CAP outs 0 s0 false y s' (LEN outs RP) HS KP EX).
    intros t u u' o X.
    refine (moves_sprtp b iv hs (ep_supply p) (ep_storage p) vol slope cold warm k (ep_aq p) on_t (ep_off_sensor p) off_t Piv V0 SL _ _ _ _ _ _ _ MA CT PL K0 GK ret' flow' take t u u' o F0 RS ET X); assumption.
Qed.
Print Assumptions C71_never_runs_out.

(** ** Whole hours *)

Lemma mains_start e inlet : mains e inlet -> ~ inlet == 0 -> forall di, bd_design_inlet (en_building e) = Ok di -> sim_inlet di = inlet.
Proof.
  intros M N di E. unfold mains in M. rewrite M in E. apply ok_inj in E. subst di. cbn. destruct (Qeq_bool inlet 0) eqn:Q; [|reflexivity].
  apply Qeq_bool_iff in Q. contradiction.
Qed.

Lemma load_minute b n : length (bd_peak b) = 24%nat -> bd_load b (Z.of_nat n) 1 false = Ok (bd_daily b * nth (n / 60 mod 24) (bd_peak b) 0 * qz 1 / 60).
Proof.
  intro L. unfold bd_load. rewrite L. change (Z.of_nat 24 =? 0)%Z with false. cbv iota zeta.
  replace ((Z.of_nat n * 1 / 60) mod Z.of_nat 24)%Z with (Z.of_nat (n / 60 mod 24)).
  2:{ rewrite Z.mul_1_r. change 60%Z with (Z.of_nat 60). rewrite <- Nat2Z.inj_div, <- Nat2Z.inj_mod. reflexivity. }
  pose proof (Nat.mod_upper_bound (n / 60) 24 ltac:(lia)) as B.
  rewrite (py_nth_nonneg (bd_peak b) (Z.of_nat (n / 60 mod 24)) (nth (n / 60 mod 24) (bd_peak b) 0)); [reflexivity|lia|].
  rewrite Nat2Z.id. apply nth_error_nth'. rewrite L. exact B.
Qed.

Lemma hourly_core dt p e thr maxm e' r vol inlet on_t off_t k take R :
  eng_new dt p = Ok e -> without_schedule p -> pooled (type_of (en_system e)) ->
  primary_volume (en_system e) = Some vol -> 0 < vol ->
  defaulted (ep_on_t p) (ep_supply p) on_t -> defaulted (ep_off_t p) (ep_storage p) off_t ->
  0 <= ep_aq p -> ep_off_sensor p <= ep_aq p -> on_t <= off_t -> on_t <= ep_storage p ->
  inlet < on_t -> inlet < ep_supply p -> ep_supply p < ep_storage p ->
  let b := en_building e in
  let slope := steepness (type_of (en_system e)) in
  length (bd_peak b) = 24%nat -> 0 <= bd_daily b -> (forall x, In x (bd_peak b) -> 0 <= x) ->
  mains e inlet -> ~ inlet == 0 -> (forall t x, bd_inlet b t 1 = Ok x -> x == inlet) ->
  0 <= k -> give_at_least b 1 (primary_heaters (en_system e)) (ep_storage p) k ->
  loop_takes (type_of (en_system e)) p 60 inlet take ->
  let need h := blended (wanted b h) (ep_supply p) (ep_storage p) inlet + take in
  let bring := heated k 60 (ep_storage p) inlet in
  (forall start n, shortfall need bring start n <= R) ->
  (forall h, (h < 24)%nat -> R + need h / 60 <= hot_reserve vol slope (ep_storage p) (ep_aq p) on_t) ->
  R <= hot_reserve vol slope (ep_storage p) (ep_aq p) inlet ->
  eng_simulate e "3day" thr maxm = Ok (e', r) ->
  never_out (ep_storage p) (qmin vol (vol * (ep_storage p - ep_supply p) / (100 * slope))) thr r.
Proof.
  intros H NS TY PV V0 ON OFF A0 SO OO OS IO IS SS b slope L24 D0 PK MA N0 MI K0 GK LT need bring WIN TOP STA SIM.
  set (d := fun n : nat => bd_daily b * nth (n / 60 mod 24) (bd_peak b) 0 * qz 1 / 60).
  assert (NN : forall n, need (n / 60)%nat / 60 == blended (d n) (ep_supply p) (ep_storage p) inlet + take / 60).
  { intro n. unfold need, blended, d, wanted. change (qz 1) with 1. field. lra. }
  assert (BB : bring / 60 == heated k 1 (ep_storage p) inlet).
  { unfold bring, heated. change (qz 60) with 60. change (qz 1) with 1. field. repeat split; (lra || exact rho_nz || discriminate). }
  assert (P24 : forall n, need (n mod 24)%nat = need n) by (intro n; unfold need, wanted; rewrite Nat.mod_mod by lia; reflexivity).
  assert (SF : forall i n, shortfall (fun n => blended (d n) (ep_supply p) (ep_storage p) inlet + take / 60) (heated k 1 (ep_storage p) inlet) i n <= R).
  { intros i n. rewrite (shortfall_ext _ (fun k => need (k / 60)%nat / 60) _ (bring / 60)); [apply minutes_covered; exact WIN|].
    intros j _. rewrite NN, BB. reflexivity. }
  apply (C71_never_runs_out dt p e "3day" thr maxm e' r 4320 1 vol inlet inlet inlet on_t off_t k (take / 60) (hot_reserve vol slope (ep_storage p) (ep_aq p) on_t - R) d); try assumption; try lra.
  - left. auto.
  - intros t x E. specialize (MI t x E). lra.
  - exact (mains_start e inlet MA N0).
  - destruct (type_of (en_system e)) eqn:TE; cbn [loop_takes] in *; try (rewrite LT; reflexivity).
    destruct LT as (rt & f & R1 & F1 & F0 & RS & ET). exists rt, f. do 4 (split; [assumption|]). rewrite ET. change (qz 60) with 60. change (qz 1) with 1. field. lra.
  - intros n _. split; [apply load_minute; exact L24|]. unfold d. apply qdiv_nonneg; [|reflexivity]. change (qz 1) with 1. rewrite Qmult_1_r. apply Qmult_le_0_compat; [exact D0|].
    apply PK. apply nth_In. rewrite L24. apply Nat.mod_upper_bound. lia.
  - intros n _. rewrite <- NN. rewrite <- P24. specialize (TOP (n / 60 mod 24)%nat (Nat.mod_upper_bound (n / 60) 24 (Nat.neq_succ_0 23))). fold slope. lra.
  - intros i n _. fold slope. specialize (SF i n). cbv beta in SF. fold b. lra.
  - intros n _. fold slope. specialize (SF 0%nat n). fold b. lra.
Qed.

(** On the three design days: an hour's demand, the heat of the loop and the heaters' output are counted per
    hour.  If a day brings at least what it takes, [R] bounds what up to a day's stretch of whole hours takes
    beyond what it brings, the hot gallons left when the aquastat calls exceed [R] by one minute of the busiest
    hour, and those the simulation starts with are at least [R], the water never runs out. *)
Theorem C71_design_day : forall dt p e thr maxm e' r vol inlet on_t off_t k take R,
  eng_new dt p = Ok e -> without_schedule p -> pooled (type_of (en_system e)) ->
  primary_volume (en_system e) = Some vol -> 0 < vol ->
  defaulted (ep_on_t p) (ep_supply p) on_t -> defaulted (ep_off_t p) (ep_storage p) off_t ->
  0 <= ep_aq p -> ep_off_sensor p <= ep_aq p -> on_t <= off_t -> on_t <= ep_storage p ->
  inlet < on_t -> inlet < ep_supply p -> ep_supply p < ep_storage p ->
  let b := en_building e in
  let slope := steepness (type_of (en_system e)) in
  length (bd_peak b) = 24%nat -> 0 <= bd_daily b -> (forall x, In x (bd_peak b) -> 0 <= x) ->
  mains e inlet -> ~ inlet == 0 -> (forall t x, bd_inlet b t 1 = Ok x -> x == inlet) ->
  0 <= k -> give_at_least b 1 (primary_heaters (en_system e)) (ep_storage p) k ->
  loop_takes (type_of (en_system e)) p 60 inlet take ->
  let need h := blended (wanted b h) (ep_supply p) (ep_storage p) inlet + take in
  let bring := heated k 60 (ep_storage p) inlet in
  shortfall need bring 0 24 <= 0 ->
  (forall start n, (start < 24)%nat -> (n <= 24)%nat -> shortfall need bring start n <= R) ->
  (forall h, (h < 24)%nat -> R + need h / 60 <= hot_reserve vol slope (ep_storage p) (ep_aq p) on_t) ->
  R <= hot_reserve vol slope (ep_storage p) (ep_aq p) inlet ->
  eng_simulate e "3day" thr maxm = Ok (e', r) ->
  never_out (ep_storage p) (qmin vol (vol * (ep_storage p - ep_supply p) / (100 * slope))) thr r.
Proof.
  intros dt p e thr maxm e' r vol inlet on_t off_t k take R H NS TY PV V0 ON OFF A0 SO OO OS IO IS SS b slope L24 D0 PK MA N0 MI K0 GK LT need bring DAY WIN TOP STA SIM.
  assert (P24 : forall n, need (n + 24)%nat = need n).
  { intro n. unfold need, wanted. replace ((n + 24) mod 24)%nat with (n mod 24)%nat; [reflexivity|]. replace (n + 24)%nat with (n + 1 * 24)%nat by lia. rewrite Nat.mod_add by lia. reflexivity. }
  exact (hourly_core dt p e thr maxm e' r vol inlet on_t off_t k take R H NS TY PV V0 ON OFF A0 SO OO OS IO IS SS L24 D0 PK MA N0 MI K0 GK LT
           (shortfall_day need bring R P24 DAY WIN) TOP STA SIM).
Qed.
Print Assumptions C71_design_day.

(** ** Sized plants with a margin *)

Lemma level_shortfall V g d start n : level V (steady g) d start n <= V - shortfall d g start n.
Proof.
  induction n as [|n IH]; cbn [level]; [rewrite shortfall_O; lra|]. rewrite shortfall_S. eapply Qle_trans; [apply qmin_r|]. unfold steady at 2. lra.
Qed.

Lemma qdiv_mono a b c : a <= b -> 0 < c -> a / c <= b / c.
Proof. intros L P. apply qdiv_le_iff; [exact P|]. rewrite qdiv_mul by lra. exact L. Qed.

Lemma shortfall_scale d g d' g' z i n : (forall k, (i <= k < i + n)%nat -> d k - g <= z * (d' k - g')) -> shortfall d g i n <= z * shortfall d' g' i n.
Proof.
  induction n as [|n IH]; intro H; [rewrite !shortfall_O; lra|]. rewrite !shortfall_S. specialize (IH ltac:(intros k K; apply H; lia)). specialize (H (i + n)%nat ltac:(lia)). lra.
Qed.

Lemma qsum_repeat x n : qsum (repeat x n) == inject_Z (Z.of_nat n) * x.
Proof.
  induction n as [|n IH]; [cbn [repeat qsum]; change (inject_Z (Z.of_nat 0)) with 0; lra|]. cbn [repeat qsum]. rewrite IH, Nat2Z.inj_succ. unfold Z.succ. rewrite inject_Z_plus. change (inject_Z 1) with 1. lra.
Qed.

Lemma plant_output dt p e vol cap tmv tmc : eng_new dt (with_plant p vol cap tmv tmc) = Ok e -> (1 <= ep_num p)%Z -> type_of (en_system e) <> InstantWH ->
  forall b iv storage k, k <= cap -> give_at_least b iv (primary_heaters (en_system e)) storage k.
Proof.
  intros H N NI b iv storage k K t oat inlet l _ _ F.
  pose proof (C52_presized_heaters dt _ e vol H eq_refl NI) as X. cbn [with_plant ep_model ep_capacity ep_num] in X. destruct X as (c & sh & EC & LN & SUM & CAP).
  assert (SI : forall A (x y : A), Some x = Some y -> y = x) by congruence. apply SI in EC. subst c.
  assert (EL : l = repeat sh (length (primary_heaters (en_system e)))).
  { clear -F CAP. revert CAP. induction F as [|h x hs l R F IH]; intro CAP; [reflexivity|]. cbn [repeat length]. f_equal; [|apply IH; intros; apply CAP; right; assumption].
    destruct R as (c & C1 & ->). rewrite CAP in C1 by (left; reflexivity). apply ok_inj in C1. subst c. reflexivity. }
  rewrite EL, qsum_repeat, LN, Z2Nat.id by lia. fold (qz (ep_num p)). rewrite SUM. exact K.
Qed.

Lemma plant_type dt p e e2 vol cap tmv tmc : eng_new dt p = Ok e -> eng_new dt (with_plant p vol cap tmv tmc) = Ok e2 -> type_of (en_system e2) = type_of (en_system e).
Proof.
  intros H H2. destruct (engine_assembled _ _ _ H) as (hs & v & A). destruct (engine_assembled _ _ _ H2) as (hs2 & v2 & A2).
  assert (K : forall q b hs v s, assembled q b hs v s -> exists k, kind_of (ep_schematic q) = Some k /\ type_kind k = type_of s).
  { intros q b0 hs0 v0 s. destruct s; cbn [assembled]; intro X; [destruct X as (X & _); eexists; split; [exact X|reflexivity] ..]. }
  destruct (K _ _ _ _ _ A) as (k & K1 & <-). destruct (K _ _ _ _ _ A2) as (k2 & K3 & <-). cbn [with_plant ep_schematic] in K3. congruence.
Qed.

(** A sized system, built with its capacity or more and a tank whose fully hot part, when the aquastat calls, holds
    the sized reserve [V * u] and one minute of the busiest hour, and in the state the simulation starts in the
    sized reserve: the design days never run out of hot water. *)
Theorem C71_sized_plus_margin : forall dt p b e inlet on_t off_t take,
  eng_new dt p = Ok e -> ep_volume p = None -> without_schedule p -> pooled (type_of (en_system e)) ->
  eng_building dt p = Ok b -> fits_run_hours b (ep_run p) -> ep_run p <= 24 -> 0 < ep_defrost p <= 1 -> (forall x, In x (bd_peak b) -> 0 <= x) ->
  mains e inlet -> ~ inlet == 0 -> (forall t x, bd_inlet b t 1 = Ok x -> x == inlet) ->
  defaulted (ep_on_t p) (ep_supply p) on_t -> defaulted (ep_off_t p) (ep_storage p) off_t ->
  0 <= ep_aq p -> ep_off_sensor p <= ep_aq p -> on_t <= off_t -> on_t <= ep_storage p ->
  inlet < on_t -> inlet < ep_supply p -> ep_supply p < ep_storage p ->
  loop_takes (type_of (en_system e)) p 60 inlet take ->
  let slope := steepness (type_of (en_system e)) in
  exists V c u, sized_storage e = Some V /\ sized_capacity e = Some c /\
    share (ep_aq p) on_t slope (ep_supply p) (ep_storage p) inlet u /\
    forall vol cap tmv tmc e2 thr maxm e' r,
      (1 <= ep_num p)%Z -> c <= cap -> 0 < vol ->
      let kept := blended (V * u) (ep_supply p) (ep_storage p) inlet in
      (forall h, (h < 24)%nat -> kept + (blended (wanted b h) (ep_supply p) (ep_storage p) inlet + take) / 60
                                   <= hot_reserve vol slope (ep_storage p) (ep_aq p) on_t) ->
      kept <= hot_reserve vol slope (ep_storage p) (ep_aq p) inlet ->
      eng_new dt (with_plant p vol cap tmv tmc) = Ok e2 ->
      eng_simulate e2 "3day" thr maxm = Ok (e', r) ->
      never_out (ep_storage p) (qmin vol (vol * (ep_storage p - ep_supply p) / (100 * slope))) thr r.
Proof.
  intros dt p b e inlet on_t off_t take H EV NS TY EB F R24 [DF0 DF1] PK MA N0 MI ON OFF A0 SO OO OS IO IS SS LT slope.
  pose proof F as (L24 & D0 & RN & RS). pose proof (C67_building _ _ _ _ H EB L24) as Eb.
  destruct (C67_storage dt p b e inlet on_t H EV NS TY EB F MA ON A0) as (V & u & SV & SH & NR & _); [lra|exact OS|].
  destruct (C67_capacity dt p b e inlet H EV NS EB L24 MA) as (c & SC & HEAT); [destruct TY as [-> |[-> | ->]]; discriminate|].
  exists V, c, u. split; [exact SV|]. split; [exact SC|]. split; [exact SH|].
  intros vol cap tmv tmc e2 thr maxm e' r NM CC V0 kept TOP STA H2 SIM.
  assert (TE : type_of (en_system e2) = type_of (en_system e)) by exact (plant_type _ _ _ _ _ _ _ _ H H2).
  assert (Eb2 : en_building e2 = b) by exact (C67_building dt (with_plant p vol cap tmv tmc) b e2 H2 EB L24).
  assert (NI : type_of (en_system e2) <> InstantWH) by (rewrite TE; destruct TY as [-> |[-> | ->]]; discriminate).
  assert (PV : primary_volume (en_system e2) = Some vol) by exact (proj2 (proj2 (C52_parts _ _ _ H2)) NI).
  assert (WIN0 : forall i n, shortfall (wanted b) (bd_daily b / ep_run p) i n <= V * u).
  { intros i n. specialize (NR i n). pose proof (level_shortfall (V * u) (bd_daily b / ep_run p) (demand_at (bd_daily b) (bd_peak b)) i n) as LS.
    assert (EX : shortfall (demand_at (bd_daily b) (bd_peak b)) (bd_daily b / ep_run p) i n == shortfall (wanted b) (bd_daily b / ep_run p) i n).
    { apply shortfall_ext. intros j _. unfold demand_at, wanted. rewrite L24. reflexivity. }
    rewrite EX in LS. lra. }
  assert (RP : 0 < rho_cp) by reflexivity.
  assert (G : bd_daily b / ep_run p * (ep_supply p - inlet) / (ep_storage p - inlet) + take <= heated c 60 (ep_storage p) inlet /\ 0 <= c).
  { assert (DN : 0 <= bd_daily b / ep_run p * (ep_supply p - inlet) / (ep_storage p - inlet)).
    { apply qdiv_nonneg; [apply Qmult_le_0_compat; [apply qdiv_nonneg; [exact D0|exact RN]|lra]|lra]. }
    assert (K : forall loss, 0 <= loss -> take <= loss / ep_run p / (rho_cp * (ep_storage p - inlet)) -> c * 1000 * ep_defrost p * ep_run p == daily_heat b (ep_supply p) inlet + loss ->
       bd_daily b / ep_run p * (ep_supply p - inlet) / (ep_storage p - inlet) + take <= heated c 60 (ep_storage p) inlet /\ 0 <= c).
    { intros loss L0 TK E.
      assert (C0 : 0 <= c).
      { assert (X : 0 <= c * (1000 * ep_defrost p * ep_run p)).
        { setoid_replace (c * (1000 * ep_defrost p * ep_run p)) with (c * 1000 * ep_defrost p * ep_run p) by ring. rewrite E. unfold daily_heat.
          assert (0 <= bd_daily b * rho_cp * (ep_supply p - inlet)) by (apply Qmult_le_0_compat; [apply Qmult_le_0_compat; lra|lra]). lra. }
        destruct (Qlt_le_dec c 0) as [B|B]; [|exact B]. exfalso.
        assert (P : 0 < 1000 * ep_defrost p * ep_run p) by (apply Qmult_lt_0_compat; [lra|exact RN]). assert (Y : 0 < - c * (1000 * ep_defrost p * ep_run p)) by (apply Qmult_lt_0_compat; lra). lra. }
      split; [|exact C0]. unfold heated. change (qz 60) with 60.
      setoid_replace (c * 1000 * 60 / 60 / (rho_cp * (ep_storage p - inlet))) with (c * 1000 / (rho_cp * (ep_storage p - inlet))) by (field; repeat split; (lra || exact rho_nz)).
      assert (P2 : 0 < rho_cp * (ep_storage p - inlet)) by (apply Qmult_lt_0_compat; lra).
      assert (LE : (daily_heat b (ep_supply p) inlet + loss) / ep_run p / (rho_cp * (ep_storage p - inlet)) <= c * 1000 / (rho_cp * (ep_storage p - inlet))).
      { apply qdiv_mono; [|exact P2]. rewrite <- E. setoid_replace (c * 1000 * ep_defrost p * ep_run p / ep_run p) with (c * 1000 * ep_defrost p) by (field; lra).
        assert (0 <= c * 1000 * (1 - ep_defrost p)) by (apply Qmult_le_0_compat; lra). lra. }
      eapply Qle_trans; [|exact LE].
      setoid_replace ((daily_heat b (ep_supply p) inlet + loss) / ep_run p / (rho_cp * (ep_storage p - inlet)))
        with (bd_daily b / ep_run p * (ep_supply p - inlet) / (ep_storage p - inlet) + loss / ep_run p / (rho_cp * (ep_storage p - inlet)))
        by (unfold daily_heat; field; repeat split; (lra || exact rho_nz)).
      lra. }
    destruct TY as [TY|[TY|TY]]; rewrite TY in HEAT, LT; cbn [loop_takes] in LT.
    - apply (K 0); [lra| |rewrite HEAT; lra]. rewrite LT. setoid_replace (0 / ep_run p / (rho_cp * (ep_storage p - inlet))) with 0 by (field; repeat split; (lra || exact rho_nz)). lra.
    - apply (K 0); [lra| |rewrite HEAT; lra]. rewrite LT. setoid_replace (0 / ep_run p / (rho_cp * (ep_storage p - inlet))) with 0 by (field; repeat split; (lra || exact rho_nz)). lra.
    - destruct HEAT as (r1 & f1 & R1 & F1 & HEAT). destruct LT as (r2 & f2 & R2 & F2 & F0 & RS2 & TK).
      assert (SI : forall A (x y : A), Some x = Some y -> y = x) by congruence. rewrite R1 in R2. rewrite F1 in F2. apply SI in R2, F2. subst r2 f2.
      assert (T0 : 0 <= f1 * 60 * (ep_supply p - r1)) by (apply Qmult_le_0_compat; [|lra]; lra).
      apply (K (daily_loss (ep_supply p) r1 f1)); [| |exact HEAT].
      + unfold daily_loss. apply Qmult_le_0_compat; [|lra]. apply Qmult_le_0_compat; lra.
      + rewrite TK. change (qz 60) with 60.
        setoid_replace (daily_loss (ep_supply p) r1 f1 / ep_run p / (rho_cp * (ep_storage p - inlet))) with (24 / ep_run p * (f1 * 60 * (ep_supply p - r1)) / (ep_storage p - inlet))
          by (unfold daily_loss; field; repeat split; (lra || exact rho_nz)).
        apply qdiv_mono; [|lra]. assert (Z : 1 <= 24 / ep_run p) by (apply Qle_shift_div_l; lra).
        assert (0 <= (24 / ep_run p - 1) * (f1 * 60 * (ep_supply p - r1))) by (apply Qmult_le_0_compat; lra). lra. }
  destruct G as [G C0].
  set (z := (ep_supply p - inlet) / (ep_storage p - inlet)).
  assert (Z0 : 0 <= z) by (apply qdiv_nonneg; lra).
  assert (KEPT : kept == z * (V * u)) by (unfold kept, blended, z; field; lra).
  unfold slope in TOP, STA |- *. clear slope. rewrite <- TE in TOP, STA, LT |- *.
  refine (hourly_core dt (with_plant p vol cap tmv tmc) e2 thr maxm e' r vol inlet on_t off_t c take kept H2 NS _ PV V0 ON OFF A0 SO OO OS IO IS SS _ _ _ _ N0 _ C0 _ _ _ _ _ SIM);
    try rewrite Eb2; cbn [with_plant ep_supply ep_storage ep_aq]; try assumption.
  - rewrite TE. exact TY.
  - unfold mains in *. rewrite Eb2, <- Eb. exact MA.
  - exact (plant_output _ _ _ _ _ _ _ H2 NM NI b 1%Z (ep_storage p) c CC).
  - intros i n. rewrite KEPT. eapply Qle_trans; [apply (shortfall_scale _ _ (wanted b) (bd_daily b / ep_run p) z)|].
    + intros j _. setoid_replace (blended (wanted b j) (ep_supply p) (ep_storage p) inlet) with (z * wanted b j) by (unfold blended, z; field; lra).
      assert (E1 : bd_daily b / ep_run p * (ep_supply p - inlet) / (ep_storage p - inlet) == z * (bd_daily b / ep_run p)) by (unfold z; field; lra). lra.
    + specialize (WIN0 i n). assert (0 <= z * (V * u - shortfall (wanted b) (bd_daily b / ep_run p) i n)) by (apply Qmult_le_0_compat; lra). lra.
Qed.
Print Assumptions C71_sized_plus_margin.

(** ** The sized plant itself *)

Definition ex_high : eparams := mkParams (One None) (One (Some 1000))
  (CzDict [("design_oat_f"%string, Some 30); ("design_inlet_water_temp_f"%string, Some 50)])
  120 150 "primary_no_recirc" None (Some (One ex_shape)) None 2 None 16 1 (8 # 10) (1 # 10) None None
  None 0 None None None None None 1 (Some 110) (Some 3) None None 1 (175 # 100) None None (Some 80) (Some 20) None 1.

Lemma ex_high_sizable : sizable ex_high (mkBuilding (Some (cz_from_design (Some 30) (Some 50))) 1000 ex_shape ex_shape "custom") PrimaryNoRecirc 50 120.
Proof.
  split; try reflexivity; try discriminate.
  - intros ls [X _]. discriminate X.
  - repeat split; (discriminate || reflexivity).
  - repeat split; (discriminate || reflexivity).
  - intros [X _]. contradiction.
Qed.

Definition first_minute_out (x : res engine) : bool :=
  match x with
  | Ok e => match en_system e with
            | EPrimary _ s => match (do s0 <- init_base (en_building e) s; base_step (en_building e) s0 0 1) with
                              | Ok (_, o) => Qle_bool (so_usable o) 0
                              | Err _ => false
                              end
            | _ => false
            end
  | Err _ => false
  end.
Lemma ex_high_out : first_minute_out (eng_new ex_data ex_high) = true.
Proof. vm_compute. reflexivity. Qed.
Lemma ex_high_sizes : match eng_new ex_data ex_high with
  | Ok e => match eng_results e with (Some c, Some v, _) => Qle_bool 1 c && Qle_bool 1 v | _ => false end
  | Err _ => false
  end = true.
Proof. vm_compute. reflexivity. Qed.

(** A system that has just been sized need not last through its own design days: the simulation starts with mains
    temperature at the aquastat, and the transition zone above it then reaches the top of the tank. *)
Theorem C71_sized_lasts_refuted :
  ~ (forall dt p b t inlet on_t e thr maxm e' r, eng_building dt p = Ok b -> sizable p b t inlet on_t -> pooled t ->
       eng_new dt p = Ok e -> type_of (en_system e) = t -> ep_volume p = None ->
       eng_simulate e "3day" thr maxm = Ok (e', r) -> sr_outage r = 0%Z).
Proof.
  intro ALL. set (b := mkBuilding (Some (cz_from_design (Some 30) (Some 50))) 1000 ex_shape ex_shape "custom").
  assert (EB : eng_building ex_data ex_high = Ok b) by reflexivity.
  pose proof ex_high_out as FO. pose proof ex_high_sizes as FS. destruct (eng_new ex_data ex_high) as [e|] eqn:EN; [|discriminate FO].
  assert (T : type_of (en_system e) = PrimaryNoRecirc).
  { cbn [first_minute_out] in FO. destruct (en_system e); try discriminate FO. reflexivity. }
  assert (NI : type_of (en_system e) <> InstantWH) by (rewrite T; discriminate).
  destruct (new_inv _ _ _ EN) as (b0 & sched & m & _ & _ & [(v0 & h0 & X & _)|(_ & _ & [(d & X & _)|(c & v & hs & C1 & V1 & SH & AS & _)])]); [discriminate X|rewrite X in T; discriminate T|].
  unfold eng_results in FS. rewrite C1, V1 in FS. apply andb_prop in FS. destruct FS as [C0 V0]. qbool.
  destruct (assembled_parts _ _ _ _ _ AS) as (_ & PP & _). destruct (PP NI) as [PH PV].
  destruct (C65_completes ex_data ex_high e "3day" 5 60 EN) as (e' & r & SIM).
  - intros ls h [X _]. discriminate X.
  - rewrite (C67_building ex_data ex_high b e EN EB eq_refl). split; [discriminate|]. split; [discriminate|]. eexists. split; [reflexivity|]. split; left; discriminate.
  - left. reflexivity.
  - rewrite T. discriminate.
  - intros _. exists v. split; [exact PV|]. lra.
  - rewrite PH. destruct SH as (h & -> & S1 & S2 & S3). apply Forall_cons; [|apply Forall_nil]. intros oat outlet inlet. exists (Some c), None. unfold wh_capacity, wh_power. rewrite S1. split; reflexivity.
  - clear - T. destruct (en_system e); try discriminate T. discriminate.
  - rewrite T. discriminate.
  - rewrite T. discriminate.
  - pose proof (ALL ex_data ex_high b PrimaryNoRecirc 50 120 e 5 60%Z e' r EB ex_high_sizable (or_introl eq_refl) EN T eq_refl SIM) as Z.
    destruct (C65_runs_its_system _ _ _ _ _ _ _ _ EN SIM) as (_ & K). cbv zeta in K. cbn [first_minute_out] in FO. destruct (en_system e) as [d s| | | | |]; try discriminate T. destruct K as (s' & E & _).
    unfold simulate_base in E. destruct (bind_ok _ _ _ E) as (s0 & E0 & E1). clear E. rewrite E0 in FO. cbn [bind] in FO.
    destruct (simulate_reported _ _ _ _ _ _ _ _ _ E1) as (total & iv & outs & LA & _ & EX & RP & _).
    destruct LA as [(_ & -> & ->)|(X & _)]; [|discriminate X]. destruct outs as [|o outs].
    + destruct (sr_stopped r) eqn:SR.
      * apply (rp_stopped _ _ _ _ _ _ _ RP) in SR. destruct SR as (n & N1 & (N2 & N3) & _). clear - N1 N2 N3. cbn [length] in N1, N2, N3. destruct (N3 0%nat) as (o & EO & _); [lia|discriminate EO].
      * pose proof (rp_full _ _ _ _ _ _ _ RP SR) as X. discriminate X.
    + destruct EX as (s1 & ES & _). rewrite ES in FO. pose proof (rc_outage _ _ (rp_recorded _ _ _ _ _ _ _ RP)) as RO. rewrite (rp_interval _ _ _ _ _ _ _ RP) in RO.
      unfold outages in RO. cbn [filter] in RO. rewrite FO in RO. cbn [length] in RO. clear - RO Z. lia.
Qed.
Print Assumptions C71_sized_lasts_refuted.

(** ** A case *)

(** The aquastat is at a fifth of the height. *)
Definition ex_low (name : string) : eparams := mkParams (One None) (One (Some 1000))
  (CzDict [("design_oat_f"%string, Some 30); ("design_inlet_water_temp_f"%string, Some 50)])
  120 150 name None (Some (One ex_shape)) None 2 None 16 1 (1 # 5) (1 # 10) None None
  None 0 None None None None None 1 (Some 110) (Some 3) None None 1 (175 # 100) None None (Some 80) (Some 20) None 1.

Lemma ex_low_sizable name t : pooled t ->
  exists b, eng_building ex_data (ex_low name) = Ok b /\ bd_peak b = ex_shape /\ bd_daily b = 1000 /\ bd_design_inlet b = Ok (Some 50) /\
    (forall t x, bd_inlet b t 1 = Ok x -> x == 50) /\ complete b /\ sizable (ex_low name) b t 50 120.
Proof.
  intros TY. exists (mkBuilding (Some (cz_from_design (Some 30) (Some 50))) 1000 ex_shape ex_shape "custom").
  split; [reflexivity|]. split; [reflexivity|]. split; [reflexivity|]. split; [reflexivity|].
  split. { intros t0 x X. cbn in X. apply ok_inj in X. subst x. reflexivity. }
  split. { split; [discriminate|]. split; [discriminate|]. eexists. split; [reflexivity|]. split; left; discriminate. }
  split; try reflexivity.
  - intros ls [X _]. discriminate X.
  - repeat split; (discriminate || reflexivity).
  - repeat split; (discriminate || (destruct t; reflexivity)).
  - intros _. exists 110, 3. repeat split; discriminate.
  - intros _. split; [reflexivity|]. split; [split; (discriminate || reflexivity)|]. split; [reflexivity|]. exists 120, 128. repeat split.
  - intros ->. destruct TY as [X|[X|X]]; discriminate X.
Qed.

Lemma ex_low_plant name t vol c : In (name, t) documented -> pooled t -> 0 <= c ->
  exists e2, eng_new ex_data (with_plant (ex_low name) vol c (Some 80) (Some 20)) = Ok e2 /\
    Forall rated (primary_heaters (en_system e2)) /\
    (forall v h, second_tank (en_system e2) = Some (v, h) -> 0 < v /\ rated h).
Proof.
  intros D TY C0. assert (C1 : 0 <= c / 2) by (apply qdiv_nonneg; [exact C0|reflexivity]).
  cbn in D. destruct TY as [-> |[-> | ->]];
    repeat (destruct D as [D|D];
      [first [discriminate D|assert (EN : name = name) by reflexivity; injection D as <-; clear EN;
         eexists; split; [vm_compute; reflexivity|]; split;
         [cbn [en_system primary_heaters ps_base bs_heaters]; repeat apply Forall_cons; try apply Forall_nil; apply nominal_rated; exact C1
         |cbn [en_system second_tank]; intros v h TH; first [discriminate TH|injection TH as <- <-; split; [reflexivity|apply nominal_rated; discriminate]]]]|]);
    destruct D.
Qed.

(** Each of the three systems sized for 1000 gallons a day, and built with its sized capacity and a larger tank. *)
Example C71_case : forall name t, In (name, t) documented -> pooled t ->
  exists e c vol e2 e' r, eng_new ex_data (ex_low name) = Ok e /\ type_of (en_system e) = t /\ sized_capacity e = Some c /\ 1000 <= vol /\
    eng_new ex_data (with_plant (ex_low name) vol c (Some 80) (Some 20)) = Ok e2 /\
    eng_simulate e2 "3day" 5 60 = Ok (e', r) /\ never_out 150 (qmin vol (vol * (150 - 120) / (100 * steepness t))) 5 r.
Proof.
  intros name t D TY. assert (NM : t <> MultiPassRTP) by (destruct TY as [-> |[-> | ->]]; discriminate).
  destruct (ex_low_sizable name t TY) as (b & EB & P & DD & BI & MI & CB & SZ). destruct (C67_sizes ex_data (ex_low name) b t 50 120 D NM eq_refl EB SZ) as (e & N & T).
  assert (L24 : length (bd_peak b) = 24%nat) by (rewrite P; reflexivity).
  assert (M : mains e 50) by (unfold mains; rewrite (C67_building _ _ _ _ N EB L24); exact BI).
  assert (F : fits_run_hours b 16). { unfold fits_run_hours. rewrite P, DD. repeat split; discriminate. }
  assert (PK : forall x, In x (bd_peak b) -> 0 <= x <= 1 # 4).
  { rewrite P. intros x I. cbn in I. repeat (destruct I as [<-|I]; [split; discriminate|]). destruct I. }
  set (take := match t with SinglePassRTP => 3 * 60 * (120 - 110) / (150 - 50) | _ => 0 end).
  assert (LT : loop_takes (type_of (en_system e)) (ex_low name) 60 50 take).
  { rewrite T. unfold take. destruct TY as [-> |[-> | ->]]; [reflexivity|reflexivity|]. exists 110, 3. do 4 (split; [reflexivity || discriminate|]). reflexivity. }
  assert (TK : 0 <= take <= 18) by (unfold take; destruct TY as [-> |[-> | ->]]; split; discriminate).
  assert (TY' : pooled (type_of (en_system e))) by (rewrite T; exact TY).
  destruct (C71_sized_plus_margin ex_data (ex_low name) b e 50 120 150 take N eq_refl) as (V & c & u & SV & SC & SH & LA); try assumption; try reflexivity; try discriminate.
  - intros ls [X _]. discriminate X.
  - split; [reflexivity|discriminate].
  - intros x I. apply PK. exact I.
  - set (kept := blended (V * u) 120 150 50). set (vol := 10 * (qmax kept 0 + 100)).
    assert (Z0 : 1000 <= vol) by (unfold vol; qmm; lra). assert (Z1 : kept + 100 <= vol / 10).
    { setoid_replace (vol / 10) with (qmax kept 0 + 100) by (unfold vol; field). qmm; lra. }
    exists e, c, vol.
    assert (C0 : 0 <= c).
    { destruct (C67_capacity ex_data (ex_low name) b e 50 N eq_refl) as (c' & SC' & HEAT); try assumption.
      - intros ls [X _]. discriminate X.
      - rewrite T. intros ->. destruct TY as [X|[X|X]]; discriminate X.
      - assert (c' = c) by congruence. subst c'. rewrite T in HEAT. cbn [ex_low ep_supply ep_defrost ep_run] in HEAT.
        assert (H0 : daily_heat b 120 50 == 70000 * rho_cp) by (unfold daily_heat; rewrite DD; ring). assert (RP : 0 < rho_cp) by reflexivity.
        destruct TY as [-> |[-> | ->]]; [lra|lra|]. destruct HEAT as (r & f & R1 & F1 & HEAT).
        cbn [ex_low ep_return ep_flow] in R1, F1. injection R1 as <-. injection F1 as <-.
        assert (daily_loss 120 110 3 == 43200 * rho_cp) by (unfold daily_loss; ring). lra. }
    destruct (ex_low_plant name t vol c D TY C0) as (e2 & N2 & RH & R2).
    assert (T2 : type_of (en_system e2) = t) by (rewrite (plant_type _ _ _ _ _ _ _ _ N N2); exact T).
    assert (NI : type_of (en_system e2) <> InstantWH) by (rewrite T2; destruct TY as [-> |[-> | ->]]; discriminate).
    destruct (C65_completes ex_data _ e2 "3day" 5 60 N2) as (e' & r & SIM).
    + intros ls h [X _]. discriminate X.
    + rewrite (C67_building ex_data (with_plant (ex_low name) vol c (Some 80) (Some 20)) b e2 N2 EB L24). exact CB.
    + left. reflexivity.
    + rewrite T2. exact NM.
    + intros _. exists vol. split; [exact (proj2 (proj2 (C52_parts _ _ _ N2)) NI)|lra].
    + exact RH.
    + exact R2.
    + rewrite T2. intros ->. destruct TY as [X|[X|X]]; discriminate X.
    + discriminate.
    + exists e2, e', r. do 3 (split; [assumption|]). split; [lra|]. split; [exact N2|]. split; [exact SIM|]. rewrite <- T.
      assert (HR : forall x, 50 <= x <= 150 -> vol / 10 <= hot_reserve vol (steepness (type_of (en_system e))) 150 (1 # 5) x).
      { intros x [X0 X1]. rewrite T. unfold hot_reserve. assert (S0 : (17 # 10) <= steepness t) by (destruct TY as [-> |[-> | ->]]; discriminate).
        assert (W : (150 - x) / (100 * steepness t) <= 100 # 170).
        { apply qdiv_le_iff; [lra|]. lra. }
        setoid_replace (vol / 10) with (vol * (1 # 10)) by field. rewrite !(Qmult_comm vol). apply Qmult_le_compat_r; lra. }
      assert (B : forall h, blended (wanted b h) 120 150 50 <= 175).
      { intro h. unfold wanted, blended. rewrite DD. assert (W : 0 <= nth (h mod 24) (bd_peak b) 0 <= 1 # 4) by (apply PK, nth_In; rewrite L24; apply Nat.mod_upper_bound; lia).
        apply qdiv_le_iff; [reflexivity|]. lra. }
      apply (LA vol c (Some 80) (Some 20) e2 5 60%Z e' r); try assumption; try discriminate.
      * apply Qle_refl.
      * lra.
      * intros h _. cbn [ex_low ep_supply ep_storage ep_aq]. fold kept. eapply Qle_trans; [|apply HR; lra]. specialize (B h).
        assert ((blended (wanted b h) 120 150 50 + take) / 60 <= 4) by (apply qdiv_le_iff; [reflexivity|lra]). lra.
      * cbn [ex_low ep_supply ep_storage ep_aq]. fold kept. eapply Qle_trans; [|apply HR; lra]. lra.
Qed.
