(** C78: simulated load shifting.  When the water never runs out, and when the heaters rest in the shed hours. *)
From Verif Require Import Prelude M_StratifiedTank S_StratifiedTank L_StratifiedTank L_StratifiedTank2 L_StratifiedTank3
  M_Building S_Building L_Building M_Heater S_Heater L_Heater M_Sizing S_Sizing M_SimRun S_SimRun L_SimRun L_SimMisc M_Step S_Step L_Step L_Step2 L_Step3 L_Step4
  M_Swing M_MPRTP M_Engine S_Engine S_EngineRun S_EngineSize L_Engine L_Engine2 L_Engine6 L_Engine8 S_Lasts L_Lasts L_Lasts2 L_Lasts3 S_Shift L_Shift
  P_Sizing P_Engine P_Engine2 P_Engine6 P_Engine7 P_Lasts.
Open Scope Q_scope.

Lemma defaulted_eq x d v w : defaulted x d v -> defaulted x d w -> v = w.
Proof. unfold defaulted. destruct x; congruence. Qed.

Lemma load_up_not_shed ls n h : load_up_hour ls n h -> ~ shed_hour ls h.
Proof. intros (k & [_ F] & L & _). exact (F h L). Qed.

(** The settings of hour [h], as a function of any hour number. *)
Definition day_ctl (storage on_t : Q) (sensor off_sensor off_t : nat -> Q) (hour : Z) : controls :=
  let n := Z.to_nat (hour mod 24) in mkControls (sensor n) on_t (off_sensor n) (off_t n) storage.

Lemma mod_lt hour : (Z.to_nat (hour mod 24) < 24)%nat.
Proof. pose proof (Z.mod_pos_bound hour 24 ltac:(lia)). lia. Qed.

Lemma schedule_controls dt p ls e on_t sensor off_sensor off_t :
  eng_new dt p = Ok e -> given_schedule p ls -> primary_heaters (en_system e) <> [] ->
  (forall h, (h < 24)%nat -> in_force p ls h (sensor h) on_t (off_sensor h) (off_t h)) ->
  existsb wh_load_shifting (primary_heaters (en_system e)) = true /\
  (forall h hour c, In h (primary_heaters (en_system e)) -> in_effect h hour c -> c = day_ctl (ep_storage p) on_t sensor off_sensor off_t hour) /\
  (0 <= ep_aq p -> 1 - ep_aq p <= initial_percent (primary_heaters (en_system e)) <= 1).
Proof.
  intros H GS NE IF.
  assert (M : forall h, In h (primary_heaters (en_system e)) -> exists m shed normal, wh_map h = Some m /\ dict_get m "shed" = Some shed /\ dict_get m "normal" = Some normal /\ ct_on_sensor normal = ep_aq p).
  { intros h I. destruct (C51_settings dt p e h ls H I GS) as (m & normal & shed & on' & off' & EM & _ & _ & GN & GSH & SN & _). exists m, shed, normal. do 3 (split; [assumption|]). exact (se_on _ _ _ _ _ _ SN). }
  split; [|split].
  - destruct (primary_heaters (en_system e)) as [|h r]; [congruence|]. cbn [existsb]. apply orb_true_iff. left.
    destruct (M h (or_introl eq_refl)) as (m & shed & normal & EM & ES & _). unfold wh_load_shifting. rewrite EM.
    unfold dict_has. rewrite ES. apply orb_true_r.
  - intros h hour c I (H0 & s & m & k & ES & EM & N & GT).
    destruct (C51_schedule dt p e h ls H I GS) as (sched & ES' & L24 & LB). rewrite ES in ES'. injection ES' as <-.
    destruct (C51_settings dt p e h ls H I GS) as (m' & normal & shed & on' & off' & EM' & DO & DF & GN & GSH & SN & (a & o & DA & DO2 & SS) & LU & _).
    rewrite EM in EM'. injection EM' as <-.
    assert (LT : (Z.to_nat hour < 24)%nat) by (rewrite <- L24; apply nth_error_Some; congruence).
    unfold day_ctl. rewrite Z.mod_small by lia. set (n := Z.to_nat hour) in *. cbv zeta.
    destruct (LB n k N) as (B1 & B2 & B3 & B4). destruct (IF n LT) as (DON & [IF1|[IF1|IF1]]).
    + destruct IF1 as (SH & X1 & X2 & X3). apply B1 in SH. subst k. rewrite GSH in GT. injection GT as <-. destruct shed as [c1 c2 c3 c4 c5]. destruct SS as [S1 S2 S3 S4 S5]. cbn in *. subst.
      f_equal; eapply defaulted_eq; eassumption.
    + destruct IF1 as (LUH & X1 & X2 & (x & X3 & X4)). apply B2 in LUH. subst k. destruct (LU c GT) as (a' & o' & t' & Y1 & Y2 & Y3 & [S1 S2 S3 S4 S5]).
      destruct c as [c1 c2 c3 c4 c5]. cbn in *. subst. pose proof (defaulted_eq _ _ _ _ DF X3) as ->. rewrite X1 in Y1. injection Y1 as <-.
      f_equal; try reflexivity; eapply defaulted_eq; eassumption.
    + destruct IF1 as (NS & NL & X1 & X2 & X3). assert (KN : k = "normal"%string) by (apply B3; split; assumption). subst k. rewrite GN in GT. injection GT as <-.
      destruct normal as [c1 c2 c3 c4 c5]. destruct SN as [S1 S2 S3 S4 S5]. cbn in *. subst. rewrite X1, X2. f_equal; eapply defaulted_eq; eassumption.
  - intro A0. destruct (primary_heaters (en_system e)) as [|h r]; [congruence|]. destruct (M h (or_introl eq_refl)) as (m & shed & normal & EM & _ & EN & EA).
    cbn [initial_percent]. rewrite EM, EN, EA. split; qmm; lra.
Qed.

(** Steps with a hot top make a run without a minute of outage. *)
Lemma hot_steps_last supply storage vol slope thr maxm total iv outs r : 0 < vol -> 0 < slope -> supply < storage ->
  reported supply thr maxm total iv outs r -> Forall (hot_out supply storage vol slope) outs ->
  never_out storage (qmin vol (vol * (storage - supply) / (100 * slope))) thr r.
Proof.
  intros V0 SL SS RP FO. destruct (rp_recorded _ _ _ _ _ _ _ RP) as [_ RU _ _ _ _ _ RT _ _ _ RO]. rewrite Forall_forall in FO.
  assert (LOW : 0 < qmin vol (vol * (storage - supply) / (100 * slope))).
  { assert (0 < vol * (storage - supply) / (100 * slope)) by (apply Qlt_shift_div_l; [lra|]; assert (0 < vol * (storage - supply)) by (apply Qmult_lt_0_compat; lra); lra). qmm; lra. }
  split.
  - rewrite RO. replace (outages outs) with (@nil step_out); [cbn; lia|]. symmetry. unfold outages.
    assert (Z : forall o, In o outs -> Qle_bool (so_usable o) 0 = false) by (intros o I; destruct (FO o I) as (U & _); apply qleb_false; lra).
    clear - Z. induction outs as [|o l IH]; [reflexivity|]. cbn [filter]. rewrite (Z o (or_introl eq_refl)). apply IH. intros o' I. apply Z. right. exact I.
  - intro T0. destruct (sr_stopped r) eqn:ES; [exfalso|reflexivity]. apply (rp_stopped _ _ _ _ _ _ _ RP) in ES.
    destruct ES as (n & N1 & (N2 & N3) & _). destruct (N3 (length outs - 1)%nat ltac:(lia)) as (o & EO & TC). apply nth_error_In in EO. destruct (FO o EO) as (_ & DN & _ & TP).
    unfold too_cold, delivered in TC. rewrite DN in TC. lra.
  - intros i x E. rewrite RU in E. rewrite nth_error_map in E. destruct (nth_error outs i) as [o|] eqn:EO; [|discriminate]. cbn in E. injection E as <-. apply nth_error_In in EO. exact (proj1 (FO o EO)).
  - eexists. split; [apply RT; lia|]. intros i x E. apply nth_error_In in E. assert (Z : exists o, In o outs /\ nth_error (so_temps o) 5 = Some x).
    { clear - E. induction outs as [|o l IH]; [destruct E|]. cbn [map somes] in E. destruct (nth_error (so_temps o) 5) as [y|] eqn:EY.
      - destruct E as [<-|E]; [exists o; split; [left; reflexivity|exact EY]|]. destruct (IH E) as (o' & I & X). exists o'. split; [right; exact I|exact X].
      - destruct (IH E) as (o' & I & X). exists o'. split; [right; exact I|exact X]. }
    destruct Z as (o & I & EX). destruct (FO o I) as (_ & _ & S6 & TP). rewrite (last_nth5 _ S6) in TP. rewrite (nth_error_nth _ _ _ EX) in TP. exact TP.
Qed.

Lemma hour_at_ctl storage on_t sensor off_sensor off_t iv n : (0 < iv)%Z ->
  day_ctl storage on_t sensor off_sensor off_t (hour_of (Z.of_nat n) iv) =
  mkControls (sensor (hour_at iv n)) on_t (off_sensor (hour_at iv n)) (off_t (hour_at iv n)) storage.
Proof.
  intro P. unfold day_ctl, hour_of, hour_at. rewrite Z.mod_mod by lia. reflexivity.
Qed.

(** Whatever the kind of system. *)
Lemma shift_core dt p ls e dur total iv vol cold warm start on_t k take sensor off_sensor off_t d thr maxm e' r :
  shifting dt p ls e dur total iv vol cold warm start on_t k take sensor off_sensor off_t d ->
  let T := type_of (en_system e) in
  let need := takes p cold take d in
  let bring := heated k iv (ep_storage p) cold in
  let left := left_in T p iv vol on_t sensor in
  (forall j n, (Z.of_nat (S j + n) * iv <= total)%Z -> shortfall need bring (S j) n + need j <= left j) ->
  (forall n, (Z.of_nat n * iv <= total)%Z -> shortfall need bring 0 n <= hot_at_start T p vol start) ->
  eng_simulate e dur thr maxm = Ok (e', r) ->
  exists outs, reported (ep_supply p) thr maxm total iv outs r /\ Forall (hot_out (ep_supply p) (ep_storage p) vol (steepness T)) outs /\
    forall q m F,
      (forall j, (j < q)%nat -> shortfall need bring (S j) (q - S j) + need j + F <= left j) -> shortfall need bring 0 q + F <= hot_at_start T p vol start ->
      (forall i, (i < m)%nat -> left (q + i)%nat + qsum (map need (seq q i)) <= F) ->
      off_t (hour_at iv q) <= ep_storage p ->
      hot_reserve vol (steepness T) (ep_storage p) (off_sensor (hour_at iv q)) (off_t (hour_at iv q)) <= F ->
      forall i o, (i < m)%nat -> nth_error outs (q + i) = Some o -> so_output o == 0 /\ so_power o = None.
Proof.
  intros [H GS TY NE [PV V0] IF [A0 ORD] (CW & WO & OS & WS & SS) LA MA [DI [ST1 ST2]] [K0 GK] LT LD] T need bring left WIN STA SIM.
  destruct (engine_assembled _ _ _ H) as (hs & vol0 & A). destruct (assembled_parts _ _ _ _ _ A) as (TT & PP & _).
  destruct PP as [PH PV']; [intro X; rewrite X in TY; destruct TY as [Y|[Y|Y]]; discriminate|]. rewrite PV in PV'. injection PV' as <-.
  destruct (schedule_controls _ _ _ _ _ _ _ _ H GS NE IF) as (PL & CT & IP). specialize (IP A0).
  destruct (C65_runs_its_system _ _ _ _ _ _ _ _ H SIM) as (_ & KS). cbv zeta in KS.
  assert (Piv : (0 < iv)%Z) by (destruct LA as [(_ & _ & ->)|(_ & _ & ->)]; lia).
  assert (DV : exists N, (Z.of_nat N * iv = total)%Z).
  { exists (Z.to_nat (total / iv)). destruct LA as [(_ & -> & ->)|(_ & -> & ->)]; reflexivity. }
  destruct DV as (N & EN).
  set (slope := steepness T). assert (SL : 0 < slope) by (apply steepness_pos).
  set (ctl := day_ctl (ep_storage p) on_t sensor off_sensor off_t) in *.
  assert (Hon : forall hour, warm < ct_on_trigger (ctl hour) /\ ct_on_trigger (ctl hour) <= ep_storage p) by (intro hour; cbn; auto).
  assert (Hoff : forall hour, ct_on_trigger (ctl hour) <= ct_off_trigger (ctl hour)) by (intro hour; cbn; apply ORD; apply mod_lt).
  assert (Hsens : forall hour, ct_off_sensor (ctl hour) <= ct_on_sensor (ctl hour)) by (intro hour; cbn; apply ORD; apply mod_lt).
  assert (Hsens0 : forall hour, 0 <= ct_on_sensor (ctl hour)) by (intro hour; cbn; apply ORD; apply mod_lt).
  assert (Hout : forall hour, ct_outlet (ctl hour) = ep_storage p) by (intro hour; reflexivity).
  set (b := en_building e) in *. set (Y0 := hot_at_start T p vol start) in *.
  assert (LD' : forall n, (n < N)%nat -> bd_load b (Z.of_nat n) iv true = Ok (d n) /\ 0 <= d n) by (intros n L; apply LD; rewrite <- EN; apply Z.mul_lt_mono_pos_r; lia).
  assert (STA' : forall n, (n <= N)%nat -> shortfall need bring 0 n <= Y0) by (intros n L; apply STA; rewrite <- EN; apply Z.mul_le_mono_nonneg_r; lia).
  assert (LE : forall j, left j = hot_reserve vol slope (ep_storage p) (ct_on_sensor (ctl (hour_of (Z.of_nat j) iv))) (ct_on_trigger (ctl (hour_of (Z.of_nat j) iv)))).
  { intro j. unfold ctl. rewrite hour_at_ctl by exact Piv. reflexivity. }
  assert (WIN' : forall j n, (S j + n <= N)%nat -> shortfall need bring (S j) n + need j <= left j) by (intros i n L; apply WIN; rewrite <- EN; apply Z.mul_le_mono_nonneg_r; lia).
  (* the state the simulation starts from *)
  assert (INI : forall s s0, bs_heaters s = primary_heaters (en_system e) -> s = base_parts p hs vol slope -> init_base b s = Ok s0 ->
            exists y, hot_state hs (ep_supply p) (ep_storage p) vol slope cold warm s0 false y /\ Y0 <= y).
  { intros s s0 EH ES E0. unfold init_base in E0. destruct (bind_ok _ _ _ E0) as (di & Edi & E1). clear E0. cbv zeta in E1. apply ok_inj in E1. rewrite (DI _ Edi) in E1. rewrite EH in E1.
    set (pu := initial_percent (primary_heaters (en_system e))) in *. subst s. cbn [base_parts bs_tank bs_supply bs_storage] in E1. subst s0.
    assert (W : st_wf (st_new vol slope)) by (split; [exact V0|exact SL]).
    pose proof (init_hot (st_new vol slope) (ep_storage p) start pu W) as IH. cbn [st_new st_vol st_slope] in IH.
    set (z := (ep_storage p - start) / (100 * slope)) in *. assert (Z0 : 0 <= z) by (unfold z; apply qdiv_nonneg; lra).
    exists (vol * (pu - z)). split.
    - constructor; cbn [bs_heaters bs_supply bs_storage bs_tank]; try reflexivity; [rewrite PH; apply same_all_refl|intros h I; exact (new_off _ _ _ _ H TY I)| |].
      + setoid_replace vol with (vol * 1) at 2 by ring. apply Qmult_le_l; [exact V0|]. lra.
      + eexists. split; [reflexivity|]. cbn [st_initialize st_vol st_slope st_inlet st_outlet st_new]. split; [reflexivity|]. split; [reflexivity|]. split; [exact ST1|]. split; [exact ST2|]. split; [reflexivity|]. exact IH.
    - unfold Y0, hot_at_start, hot_reserve. fold T slope z. apply Qmult_le_l; [exact V0|lra]. }
  assert (LEN : forall outs, reported (ep_supply p) thr maxm total iv outs r -> (0 + length outs <= N)%nat).
  { intros outs RP. pose proof (rp_length _ _ _ _ _ _ _ RP) as L. rewrite <- EN in L. apply Zmult_le_reg_r in L; lia. }
  (* the steps *)
  assert (FIN : forall (St : Type) (stp : St -> Z -> Z -> res (St * step_out)) (core : St -> bsys) outs s0 y s',
     (forall t s s' o, stp s t iv = Ok (s', o) -> shift_moves b iv hs (ep_supply p) (ep_storage p) vol slope cold warm k ctl true take t (core s) (core s') o) ->
     hot_state hs (ep_supply p) (ep_storage p) vol slope cold warm (core s0) false y -> Y0 <= y -> executed stp iv s0 0 outs s' ->
     reported (ep_supply p) thr maxm total iv outs r ->
     exists outs, reported (ep_supply p) thr maxm total iv outs r /\ Forall (hot_out (ep_supply p) (ep_storage p) vol (steepness T)) outs /\
       forall q m F,
      (forall j, (j < q)%nat -> shortfall need bring (S j) (q - S j) + need j + F <= left j) -> shortfall need bring 0 q + F <= Y0 ->
      (forall i, (i < m)%nat -> left (q + i)%nat + qsum (map need (seq q i)) <= F) ->
      off_t (hour_at iv q) <= ep_storage p ->
      hot_reserve vol (steepness T) (ep_storage p) (off_sensor (hour_at iv q)) (off_t (hour_at iv q)) <= F ->
      forall i o, (i < m)%nat -> nth_error outs (q + i) = Some o -> so_output o == 0 /\ so_power o = None).
  { intros St stp core outs s0 y s' MV HS YY EX RP. exists outs. split; [exact RP|].
    assert (W2 : forall j n, (S j + n <= N)%nat -> shortfall (fun k0 => blended (d k0) (ep_supply p) (ep_storage p) cold + take) (heated k iv (ep_storage p) cold) (S j) n
       + (blended (d j) (ep_supply p) (ep_storage p) cold + take) <= hot_reserve vol slope (ep_storage p) (ct_on_sensor (ctl (hour_of (Z.of_nat j) iv))) (ct_on_trigger (ctl (hour_of (Z.of_nat j) iv)))).
    { intros j n L. rewrite <- LE. exact (WIN' j n L). }
    split.
    - refine (proj1 (run_shift b iv hs (ep_supply p) (ep_storage p) vol slope cold warm k ctl true V0 SL Hon Hsens0 stp core take MV d Y0 N LD' W2 STA' outs 0 s0 false y s' (LEN outs RP) HS _ EX)).
      right. rewrite shortfall_O. lra.
    - intros q m F C1 C2 C3 C4 C5.
      refine (rest b iv hs (ep_supply p) (ep_storage p) vol slope cold warm k ctl true V0 SL Hon Hsens0 stp core take MV d Y0 N LD' W2 STA' outs s0 y s' q m F (LEN outs RP) HS YY EX _ C2 _ _ _).
      + intros j J. rewrite <- LE. exact (C1 j J).
      + intros i I. rewrite <- LE. exact (C3 i I).
      + unfold ctl. rewrite hour_at_ctl by exact Piv. exact C4.
      + unfold ctl. rewrite hour_at_ctl by exact Piv. exact C5. }
  destruct (en_system e) as [dh s|l s|w s|dh ret flow s|x|dh] eqn:ES; cbn [type_of primary_heaters] in *; try (destruct TY as [Y|[Y|Y]]; discriminate).
  - destruct KS as (s' & E & _). unfold simulate_base in E. destruct (bind_ok _ _ _ E) as (s0 & E0 & E1). apply pair_equal_spec in TT. destruct TT as [T1 T2]. rewrite T1 in E1.
    destruct (simulate_reported _ _ _ _ _ _ _ _ _ E1) as (total' & iv' & outs & LA' & _ & EX & RP & _).
    assert (total' = total /\ iv' = iv) as [-> ->] by (destruct LA as [(L1 & -> & ->)|(L1 & -> & ->)]; destruct LA' as [(L2 & -> & ->)|(L2 & -> & ->)]; (split; reflexivity) || congruence).
    destruct A as (_ & A). destruct (INI s s0 eq_refl A E0) as (y & HS & KP). rewrite PH in *.
    assert (TA : 0 <= take) by (cbn [loop_takes] in LT; lra).
    refine (FIN _ (base_step b) (fun s => s) outs s0 y s' _ HS KP EX RP).
    intros t u u' o X. eapply shift_more; [exact TA|].
    refine (shift_base b iv hs (ep_supply p) (ep_storage p) vol slope cold warm k ctl true Piv V0 SL _ _ _ Hon Hoff Hsens Hout MA CT PL K0 GK t u u' o X); assumption.
  - destruct KS as (s' & E & _). unfold simulate_parallel in E. destruct (bind_ok _ _ _ E) as (s0 & E0 & E1). apply pair_equal_spec in TT. destruct TT as [T1 T2]. rewrite T1 in E1.
    destruct (simulate_reported _ _ _ _ _ _ _ _ _ E1) as (total' & iv' & outs & LA' & _ & EX & RP & _).
    assert (total' = total /\ iv' = iv) as [-> ->] by (destruct LA as [(L1 & -> & ->)|(L1 & -> & ->)]; destruct LA' as [(L2 & -> & ->)|(L2 & -> & ->)]; (split; reflexivity) || congruence).
    destruct A as (_ & r0 & f & _ & _ & A & _). unfold init_parallel in E0. destruct (bind_ok _ _ _ E0) as (di & _ & E2). destruct (bind_ok _ _ _ E2) as (s1 & EI & E3). apply ok_inj in E3.
    destruct (INI (ps_base s) s1 eq_refl A EI) as (y & HS & KP). rewrite PH in *. assert (EB : ps_base s0 = s1) by (rewrite <- E3; reflexivity). rewrite <- EB in HS.
    assert (TA : 0 <= take) by (cbn [loop_takes] in LT; lra).
    refine (FIN _ (parallel_step b) ps_base outs s0 y s' _ HS KP EX RP).
    intros t u u' o X. eapply shift_more; [exact TA|].
    refine (shift_parallel b iv hs (ep_supply p) (ep_storage p) vol slope cold warm k ctl true Piv V0 SL _ _ _ Hon Hoff Hsens Hout MA CT PL K0 GK t u u' o X); assumption.
  - destruct KS as (ret' & flow' & s' & R1 & F1 & E & _). unfold simulate_sprtp in E. destruct (bind_ok _ _ _ E) as (s0 & E0 & E1). apply pair_equal_spec in TT. destruct TT as [T1 T2]. rewrite T1 in E1.
    destruct (simulate_reported _ _ _ _ _ _ _ _ _ E1) as (total' & iv' & outs & LA' & _ & EX & RP & _).
    assert (total' = total /\ iv' = iv) as [-> ->] by (destruct LA as [(L1 & -> & ->)|(L1 & -> & ->)]; destruct LA' as [(L2 & -> & ->)|(L2 & -> & ->)]; (split; reflexivity) || congruence).
    destruct A as (_ & _ & _ & A). destruct (INI s s0 eq_refl A E0) as (y & HS & KP). rewrite PH in *.
    destruct LT as (r1 & f1 & R2 & F2 & F0 & RS & ET). rewrite R1 in R2. injection R2 as <-. rewrite F1 in F2. injection F2 as <-.
    refine (FIN _ (sprtp_step ret' flow' b) (fun s => s) outs s0 y s' _ HS KP EX RP).
    intros t u u' o X.
    refine (shift_sprtp b iv hs (ep_supply p) (ep_storage p) vol slope cold warm k ctl true Piv V0 SL _ _ _ Hon Hoff Hsens Hout MA CT PL K0 GK ret' flow' take t u u' o F0 RS ET X); assumption.
Qed.

(** A simulated load-shifting system does not run out of water when, from every step on, what the building and the
    loop take in excess of what the heaters bring, added to what that step takes, is covered by the hot water its
    sensor of that hour guarantees while the heaters are off, and likewise from the state the simulation starts in. *)
Theorem C78_lasts : forall dt p ls e dur total iv vol cold warm start on_t k take sensor off_sensor off_t d thr maxm e' r,
  shifting dt p ls e dur total iv vol cold warm start on_t k take sensor off_sensor off_t d ->
  let T := type_of (en_system e) in
  let need := takes p cold take d in
  let bring := heated k iv (ep_storage p) cold in
  let left := left_in T p iv vol on_t sensor in
  (forall j n, (Z.of_nat (S j + n) * iv <= total)%Z -> shortfall need bring (S j) n + need j <= left j) ->
  (forall n, (Z.of_nat n * iv <= total)%Z -> shortfall need bring 0 n <= hot_at_start T p vol start) ->
  eng_simulate e dur thr maxm = Ok (e', r) ->
  never_out (ep_storage p) (qmin vol (vol * (ep_storage p - ep_supply p) / (100 * steepness T))) thr r.
Proof.
  intros dt p ls e dur total iv vol cold warm start on_t k take sensor off_sensor off_t d thr maxm e' r SH T need bring left WIN STA SIM.
  destruct (shift_core _ _ _ _ _ _ _ _ _ _ _ _ _ _ _ _ _ _ _ _ _ _ SH WIN STA SIM) as (outs & RP & HO & _).
  destruct (sh_volume _ _ _ _ _ _ _ _ _ _ _ _ _ _ _ _ _ _ SH) as [_ V0]. destruct (sh_temps _ _ _ _ _ _ _ _ _ _ _ _ _ _ _ _ _ _ SH) as (_ & _ & _ & _ & SS).
  exact (hot_steps_last _ _ _ _ _ _ _ _ _ _ V0 (steepness_pos T) SS RP HO).
Qed.
Print Assumptions C78_lasts.

(** The heaters give no heat and draw no power in the [m] steps from step [q] when [full] hot gallons are in the
    tank when step [q] begins, whatever went before; these are enough to turn the heaters off, and in each of the
    steps the ones not yet drawn are more than the sensor of that hour needs to stay satisfied. *)
Theorem C78_rest : forall dt p ls e dur total iv vol cold warm start on_t k take sensor off_sensor off_t d thr maxm e' r q m full,
  shifting dt p ls e dur total iv vol cold warm start on_t k take sensor off_sensor off_t d ->
  let T := type_of (en_system e) in
  let need := takes p cold take d in
  let bring := heated k iv (ep_storage p) cold in
  let left := left_in T p iv vol on_t sensor in
  (forall j n, (Z.of_nat (S j + n) * iv <= total)%Z -> shortfall need bring (S j) n + need j <= left j) ->
  (forall n, (Z.of_nat n * iv <= total)%Z -> shortfall need bring 0 n <= hot_at_start T p vol start) ->
  (forall j, (j < q)%nat -> shortfall need bring (S j) (q - S j) + need j + full <= left j) ->
  shortfall need bring 0 q + full <= hot_at_start T p vol start ->
  off_t (hour_at iv q) <= ep_storage p ->
  hot_reserve vol (steepness T) (ep_storage p) (off_sensor (hour_at iv q)) (off_t (hour_at iv q)) <= full ->
  (forall i, (i < m)%nat -> left (q + i)%nat + qsum (map need (seq q i)) <= full) ->
  eng_simulate e dur thr maxm = Ok (e', r) ->
  forall i, (i < m)%nat ->
    (forall x, nth_error (sr_output r) (q + i) = Some x -> x == 0) /\
    (forall x, nth_error (sr_power r) (q + i) = Some x -> x = None).
Proof.
  intros dt p ls e dur total iv vol cold warm start on_t k take sensor off_sensor off_t d thr maxm e' r q m full SH T need bring left WIN STA C1 C2 C4 C5 C3 SIM i I.
  destruct (shift_core _ _ _ _ _ _ _ _ _ _ _ _ _ _ _ _ _ _ _ _ _ _ SH WIN STA SIM) as (outs & RP & _ & R).
  specialize (R q m full C1 C2 C3 C4 C5 i). destruct (rp_recorded _ _ _ _ _ _ _ RP) as [_ _ RO RW _ _ _ _ _ _ _ _].
  rewrite RO, RW, !nth_error_map. destruct (nth_error outs (q + i)) as [o|]; [|split; intros x X; discriminate X].
  destruct (R o I eq_refl) as [R1 R2]. cbn [option_map]. split; intros x X; injection X as <-; assumption.
Qed.
Print Assumptions C78_rest.

(** ** Cases *)

(** Shed in hours 5 and 6. *)
Definition ex_shed : list Z := repeat 1%Z 5 ++ [0; 0]%Z ++ repeat 1%Z 17.
(** Two hours of load-up; the sensors at two fifths of the height, and at a fifth to load up, at four fifths to shed. *)
Definition ex_shift : eparams := mkParams (One None) (One (Some 1000))
  (CzDict [("design_oat_f"%string, Some 30); ("design_inlet_water_temp_f"%string, Some 50)])
  120 150 "primary_no_recirc" None (Some (One ex_shape)) None 2 None 16 1 (2 # 5) (1 # 10) None None
  (Some ex_shed) 2 (Some (4 # 5)) (Some (1 # 5)) (Some (1 # 2)) None None 1 (Some 110) (Some 3) None None 1 (175 # 100) (Some 1000) (Some 200) (Some 80) (Some 20) None 1.

Definition ex_sensor (h : nat) : Q := if (h <? 3)%nat then 2 # 5 else if (h <? 5)%nat then 1 # 5 else if (h <? 7)%nat then 4 # 5 else 2 # 5.
Definition ex_off (h : nat) : Q := if (h <? 5)%nat then 1 # 10 else if (h <? 7)%nat then 1 # 2 else 1 # 10.
Definition ex_draw (n : nat) : Q := 1000 * nth (hour_at 1 n) ex_shape 0 * qz 1 / 60.

Lemma ex_first k : first_shed ex_shed k -> k = 5%nat.
Proof.
  intros [S1 S2]. destruct (lt_eq_lt_dec k 5) as [[L|L]|L]; [|exact L|exfalso; apply (S2 5%nat L); reflexivity].
  do 5 (destruct k as [|k]; [vm_compute in S1; discriminate S1|]). clear -L. lia.
Qed.

Lemma ex_settings h : (h < 24)%nat -> in_force ex_shift ex_shed h (ex_sensor h) 120 (ex_off h) 150.
Proof.
  intro L. split; [reflexivity|].
  assert (LU : load_up_hour ex_shed (ep_lu_hours ex_shift) h -> (3 <= h < 5)%nat).
  { intros (k & F & A & B). apply ex_first in F. subst k. change (ep_lu_hours ex_shift) with 2%Z in B. lia. }
  assert (F5 : first_shed ex_shed 5). { split; [reflexivity|]. intros j J X. do 5 (destruct j as [|j]; [vm_compute in X; discriminate X|]). clear -J. lia. }
  destruct (le_lt_dec 3 h) as [A|A].
  - destruct (le_lt_dec 5 h) as [B|B].
    + destruct (le_lt_dec 7 h) as [D|D].
      * right. right. split; [|split; [intro X; apply LU in X; lia|]].
        -- intro X. unfold shed_hour in X. clear -L D X. do 7 (destruct h as [|h]; [exfalso; clear -D; lia|]). do 17 (destruct h as [|h]; [vm_compute in X; discriminate X|]). clear -L. lia.
        -- unfold ex_sensor, ex_off. rewrite !(proj2 (Nat.ltb_ge h _)) by lia. repeat split.
      * left. assert (E : h = 5%nat \/ h = 6%nat) by lia. destruct E as [-> | ->]; repeat split.
    + right. left. assert (E : h = 3%nat \/ h = 4%nat) by lia. split; [exists 5%nat; split; [exact F5|]; change (ep_lu_hours ex_shift) with 2%Z; lia|].
      destruct E as [-> | ->]; (split; [reflexivity|]; split; [reflexivity|]; exists 150; split; reflexivity).
  - right. right. assert (E : h = 0%nat \/ h = 1%nat \/ h = 2%nat) by lia. split; [|split; [intro X; apply LU in X; lia|]]; destruct E as [-> |[-> | ->]]; try discriminate; repeat split.
Qed.

Lemma ex_shape_bound h : 0 <= nth h ex_shape 0 <= 1 # 8.
Proof.
  destruct (le_lt_dec 24 h) as [L|L]; [rewrite nth_overflow by exact L; split; discriminate|].
  do 24 (destruct h as [|h]; [vm_compute; split; intro X; discriminate X|]). clear -L. lia.
Qed.

Lemma hour_at_lt iv n : (hour_at iv n < 24)%nat.
Proof. unfold hour_at. pose proof (Z.mod_pos_bound (Z.of_nat n * iv / 60) 24 ltac:(lia)). lia. Qed.

Lemma ex_shift_engine : exists e, eng_new ex_data ex_shift = Ok e /\ type_of (en_system e) = PrimaryNoRecirc /\
  en_building e = mkBuilding (Some (cz_from_design (Some 30) (Some 50))) 1000 ex_shape ex_shape "custom" /\
  (forall tk, tk == 0 -> shifting ex_data ex_shift ex_shed e "3day" 4320 1 1000 50 50 50 120 200 tk ex_sensor ex_off (fun _ => 150) ex_draw) /\
  exists e' r, eng_simulate e "3day" 5 60 = Ok (e', r).
Proof.
  set (b := mkBuilding (Some (cz_from_design (Some 30) (Some 50))) 1000 ex_shape ex_shape "custom").
  assert (X : exists e, eng_new ex_data ex_shift = Ok e /\ type_of (en_system e) = PrimaryNoRecirc /\ primary_volume (en_system e) = Some 1000 /\
     en_building e = b /\ primary_heaters (en_system e) <> [] /\ Forall rated (primary_heaters (en_system e)) /\ second_tank (en_system e) = None).
  { eexists. split; [vm_compute; reflexivity|]. cbn [en_system type_of primary_volume primary_heaters second_tank en_building bs_tank bs_heaters st_vol].
    split; [reflexivity|]. split; [reflexivity|]. split; [reflexivity|]. split; [discriminate|]. split; [|reflexivity].
    repeat apply Forall_cons; try apply Forall_nil; apply nominal_rated; discriminate. }
  destruct X as (e & N & T & PV & EB & NE & RT & ST). exists e. split; [exact N|]. split; [exact T|]. split; [exact EB|].
  assert (MI : forall t iv x, bd_inlet b t iv = Ok x -> x = 50) by (intros t iv x E; cbn in E; apply ok_inj in E; congruence).
  split.
  { intros tk TK. split; try assumption.
    - split; [reflexivity|discriminate].
    - rewrite T. left. reflexivity.
    - split; [exact PV|reflexivity].
    - exact ex_settings.
    - split; [discriminate|]. intros h L. unfold ex_sensor, ex_off. do 24 (destruct h as [|h]; [repeat split; discriminate|]). lia.
    - repeat split; (discriminate || reflexivity).
    - left. repeat split.
    - intros t x E. rewrite EB in E. apply MI in E. subst x. split; discriminate.
    - split; [|split; discriminate]. intros di E. rewrite EB in E. cbn in E. apply ok_inj in E. subst di. reflexivity.
    - split; [discriminate|]. change ex_shift with (with_plant ex_shift 1000 200 (Some 80) (Some 20)) in N.
      apply (plant_output _ _ _ _ _ _ _ N); [discriminate|rewrite T; discriminate|discriminate].
    - rewrite T. exact TK.
    - intros n _. rewrite EB. split.
      + unfold ex_draw. change (nth (hour_at 1 n) ex_shape 0) with (nth (hour_at 1 n) (bd_avg b) 0). unfold bd_load.
        change (length (bd_avg b)) with 24%nat. change (Z.of_nat 24 =? 0)%Z with false. cbv iota zeta.
        rewrite (py_nth_nonneg (bd_avg b) ((Z.of_nat n * 1 / 60) mod Z.of_nat 24)%Z (nth (hour_at 1 n) (bd_avg b) 0)); [reflexivity| |].
        * change (Z.of_nat 24) with 24%Z. pose proof (Z.mod_pos_bound (Z.of_nat n * 1 / 60) 24 ltac:(lia)). lia.
        * change (Z.of_nat 24) with 24%Z. apply nth_error_nth'. exact (hour_at_lt 1 n).
      + unfold ex_draw. change (qz 1) with 1. pose proof (ex_shape_bound (hour_at 1 n)). apply qdiv_nonneg; [lra|reflexivity]. }
  apply (C65_completes ex_data ex_shift e "3day" 5 60 N).
  - intros ls h [X _] _ _. discriminate.
  - rewrite EB. split; [discriminate|]. split; [discriminate|]. eexists. split; [reflexivity|]. split; left; discriminate.
  - left. reflexivity.
  - rewrite T. discriminate.
  - intros _. exists 1000. split; [exact PV|reflexivity].
  - exact RT.
  - rewrite ST. discriminate.
  - rewrite T. discriminate.
  - rewrite T. discriminate.
Qed.

(** The pre-sized system simulates the three design days, never runs out, and rests through the first day's shed. *)
Example C78_case : exists e e' r, eng_new ex_data ex_shift = Ok e /\
  shifting ex_data ex_shift ex_shed e "3day" 4320 1 1000 50 50 50 120 200 0 ex_sensor ex_off (fun _ => 150) ex_draw /\
  eng_simulate e "3day" 5 60 = Ok (e', r) /\
  never_out 150 (qmin 1000 (1000 * (150 - 120) / (100 * (28 # 10)))) 5 r /\
  forall n, (300 <= n < 420)%nat -> shed_hour ex_shed (hour_at 1 n) /\
    (forall x, nth_error (sr_output r) n = Some x -> x == 0) /\ (forall x, nth_error (sr_power r) n = Some x -> x = None).
Proof.
  destruct ex_shift_engine as (e & N & T & EB & SH & e' & r & SIM). specialize (SH 0 (Qeq_refl 0)). exists e.
  exists e', r. split; [exact N|]. split; [exact SH|]. split; [exact SIM|].
    set (need := takes ex_shift 50 0 ex_draw). set (bring := heated 200 1 (ep_storage ex_shift) 50).
    assert (ND : forall j, 0 <= need j <= 3 # 2).
    { intro j. unfold need, takes, blended, ex_draw. change (ep_supply ex_shift) with 120. change (ep_storage ex_shift) with 150. change (qz 1) with 1. pose proof (ex_shape_bound (hour_at 1 j)).
      setoid_replace (1000 * nth (hour_at 1 j) ex_shape 0 * 1 / 60 * (120 - 50) / (150 - 50) + 0) with (nth (hour_at 1 j) ex_shape 0 * (35 # 3)) by field. lra. }
    assert (BR : (7 # 2) <= bring) by discriminate.
    assert (SF : forall i n, shortfall need bring i n <= - (2) * inject_Z (Z.of_nat n)).
    { intros i n. induction n as [|n IH]; [rewrite shortfall_O; discriminate|]. rewrite shortfall_S, Nat2Z.inj_succ. unfold Z.succ. rewrite inject_Z_plus. change (inject_Z 1) with 1. specialize (ND (i + n)%nat). lra. }
    assert (SF0 : forall i n, shortfall need bring i n <= 0).
    { intros i n. specialize (SF i n). assert (0 <= inject_Z (Z.of_nat n)) by (change 0 with (inject_Z 0); rewrite <- Zle_Qle; lia). lra. }
    assert (LF : forall j, 50 <= left_in PrimaryNoRecirc ex_shift 1 1000 120 ex_sensor j).
    { intro j. unfold left_in. pose proof (hour_at_lt 1 j) as L. set (h := hour_at 1 j) in *. clearbody h. do 24 (destruct h as [|h]; [discriminate|]). lia. }
    assert (W1 : forall j n, (Z.of_nat (S j + n) * 1 <= 4320)%Z -> shortfall need bring (S j) n + need j <= left_in (type_of (en_system e)) ex_shift 1 1000 120 ex_sensor j).
    { intros j n _. rewrite T. specialize (LF j). specialize (ND j). specialize (SF0 (S j) n). lra. }
    assert (H0 : 0 <= hot_at_start PrimaryNoRecirc ex_shift 1000 50) by discriminate.
    assert (W2 : forall n, (Z.of_nat n * 1 <= 4320)%Z -> shortfall need bring 0 n <= hot_at_start (type_of (en_system e)) ex_shift 1000 50).
    { intros n _. rewrite T. specialize (SF0 0%nat n). lra. }
    split.
    + pose proof (C78_lasts _ _ _ _ _ _ _ _ _ _ _ _ _ _ _ _ _ _ _ _ _ _ SH W1 W2 SIM) as R. cbv zeta in R. rewrite T in R. exact R.
    + intros n L. split.
      { assert (E : hour_at 1 n = 5%nat \/ hour_at 1 n = 6%nat).
        { unfold hour_at. rewrite Z.mul_1_r. assert (B : (Z.of_nat n / 60 = 5 \/ Z.of_nat n / 60 = 6)%Z).
          { assert (5 <= Z.of_nat n / 60)%Z by (apply Z.div_le_lower_bound; lia). assert (Z.of_nat n / 60 < 7)%Z by (apply Z.div_lt_upper_bound; lia). lia. }
          destruct B as [-> | ->]; [left|right]; reflexivity. }
        destruct E as [-> | ->]; reflexivity. }
      replace n with (300 + (n - 300))%nat by lia.
      apply (C78_rest ex_data ex_shift ex_shed e "3day" 4320 1 1000 50 50 50 120 200 0 ex_sensor ex_off (fun _ => 150) ex_draw 5 60 e' r 300 120 600 SH W1 W2); [ | | | | |exact SIM|lia]; rewrite ?T.
      * intros j J. assert (HJ : (hour_at 1 j < 3)%nat \/ (3 <= hour_at 1 j < 5)%nat /\ True).
        { unfold hour_at. rewrite Z.mul_1_r. assert (Z.of_nat j / 60 < 5)%Z by (apply Z.div_lt_upper_bound; lia). assert (0 <= Z.of_nat j / 60)%Z by (apply Z.div_pos; lia).
          rewrite Z.mod_small by lia. lia. }
        destruct HJ as [HJ|[HJ _]].
        -- assert (J3 : (j < 180)%nat).
           { unfold hour_at in HJ. rewrite Z.mul_1_r in HJ. assert (Z.of_nat j / 60 < 5)%Z by (apply Z.div_lt_upper_bound; lia). assert (0 <= Z.of_nat j / 60)%Z by (apply Z.div_pos; lia).
             rewrite Z.mod_small in HJ by lia. assert (~ (180 <= j)%nat); [|lia]. intro G. assert (3 <= Z.of_nat j / 60)%Z by (apply Z.div_le_lower_bound; lia). lia. }
           assert (LJ : 490 <= left_in PrimaryNoRecirc ex_shift 1 1000 120 ex_sensor j) by (unfold left_in; set (h := hour_at 1 j) in *; clearbody h; do 3 (destruct h as [|h]; [discriminate|]); lia).
           specialize (SF (S j) (300 - S j)%nat). assert (G : 119 <= inject_Z (Z.of_nat (300 - S j))) by (change 119 with (inject_Z 119); rewrite <- Zle_Qle; lia).
           specialize (ND j). fold need bring. lra.
        -- assert (LJ : 690 <= left_in PrimaryNoRecirc ex_shift 1 1000 120 ex_sensor j).
           { unfold left_in. assert (E : hour_at 1 j = 3%nat \/ hour_at 1 j = 4%nat) by lia. destruct E as [-> | ->]; discriminate. }
           specialize (SF0 (S j) (300 - S j)%nat). specialize (ND j). fold need bring. lra.
      * specialize (SF 0%nat 300%nat). change (inject_Z (Z.of_nat 300)) with 300 in SF. fold need bring. lra.
      * discriminate.
      * discriminate.
      * intros i I. assert (QS : qsum (map need (seq 300 i)) <= 2 * inject_Z (Z.of_nat i)).
        { clear -ND. generalize 300%nat. induction i as [|i IH]; intro a; [discriminate|]. cbn [seq map qsum]. rewrite Nat2Z.inj_succ. unfold Z.succ. rewrite inject_Z_plus. change (inject_Z 1) with 1.
          specialize (IH (S a)). specialize (ND a). lra. }
        assert (G : inject_Z (Z.of_nat i) <= 120) by (change 120 with (inject_Z 120); rewrite <- Zle_Qle; lia).
        assert (LJ : left_in PrimaryNoRecirc ex_shift 1 1000 120 ex_sensor (300 + i) <= 100).
        { unfold left_in. assert (E : hour_at 1 (300 + i) = 5%nat \/ hour_at 1 (300 + i) = 6%nat).
          { unfold hour_at. rewrite Z.mul_1_r. assert (B : (Z.of_nat (300 + i) / 60 = 5 \/ Z.of_nat (300 + i) / 60 = 6)%Z).
            { assert (5 <= Z.of_nat (300 + i) / 60)%Z by (apply Z.div_le_lower_bound; lia). assert (Z.of_nat (300 + i) / 60 < 7)%Z by (apply Z.div_lt_upper_bound; lia). lia. }
            destruct B as [-> | ->]; [left|right]; reflexivity. }
          destruct E as [-> | ->]; discriminate. }
        fold need. lra.
Qed.

(** ** A shed does not forbid heating *)

(** Shed from midnight; the shed sensor above the normal one. *)
Definition ex_midnight : eparams := mkParams (One None) (One (Some 1000))
  (CzDict [("design_oat_f"%string, Some 30); ("design_inlet_water_temp_f"%string, Some 50)])
  120 150 "primary_no_recirc" None (Some (One ex_shape)) None 2 None 16 1 (3 # 5) (1 # 10) None None
  (Some (0 :: repeat 1 23)%Z) 0 (Some (4 # 5)) None (Some (1 # 2)) None None 1 (Some 110) (Some 3) None None 1 (175 # 100) (Some 1000) (Some 200) (Some 80) (Some 20) None 1.

Definition first_minute_heats (x : res engine) : bool :=
  match x with
  | Ok e => match en_system e with
            | EPrimary _ s => match (do s0 <- init_base (en_building e) s; base_step (en_building e) s0 0 1) with
                              | Ok (_, o) => Qle_bool 1 (so_output o)
                              | Err _ => false
                              end
            | _ => false
            end
  | Err _ => false
  end.
Lemma ex_midnight_heats : first_minute_heats (eng_new ex_data ex_midnight) = true.
Proof. vm_compute. reflexivity. Qed.

(** A shed hour raises the sensor; it does not keep the heaters off when the water there is cold. *)
Theorem C78_shed_off_refuted :
  ~ (forall dt p ls e thr maxm e' r a n x, eng_new dt p = Ok e -> given_schedule p ls -> ep_shed_aq p = Some a -> ep_aq p < a ->
       eng_simulate e "3day" thr maxm = Ok (e', r) -> shed_hour ls (hour_at 1 n) -> nth_error (sr_output r) n = Some x -> x == 0).
Proof.
  intro ALL. pose proof ex_midnight_heats as FO.
  assert (X : exists e, eng_new ex_data ex_midnight = Ok e /\ type_of (en_system e) = PrimaryNoRecirc /\ primary_volume (en_system e) = Some 1000 /\
     en_building e = mkBuilding (Some (cz_from_design (Some 30) (Some 50))) 1000 ex_shape ex_shape "custom" /\ Forall rated (primary_heaters (en_system e)) /\ second_tank (en_system e) = None).
  { eexists. split; [vm_compute; reflexivity|]. cbn [en_system type_of primary_volume primary_heaters second_tank en_building bs_tank bs_heaters st_vol].
    split; [reflexivity|]. split; [reflexivity|]. split; [reflexivity|]. split; [|reflexivity].
    repeat apply Forall_cons; try apply Forall_nil; apply nominal_rated; discriminate. }
  destruct X as (e & EN & T & PV & EB & RT & ST). rewrite EN in FO.
  destruct (C65_completes ex_data ex_midnight e "3day" 5 60 EN) as (e' & r & SIM).
  - intros ls h [X _] _ (k & [S0 S1] & L & L2). change (ep_lu_hours ex_midnight) with 0%Z in L2. lia.
  - rewrite EB. split; [discriminate|]. split; [discriminate|]. eexists. split; [reflexivity|]. split; left; discriminate.
  - left. reflexivity.
  - rewrite T. discriminate.
  - intros _. exists 1000. split; [exact PV|reflexivity].
  - exact RT.
  - rewrite ST. discriminate.
  - rewrite T. discriminate.
  - rewrite T. discriminate.
  - pose proof (ALL ex_data ex_midnight (0 :: repeat 1 23)%Z e 5 60%Z e' r (4 # 5) 0%nat) as Z.
    destruct (C65_runs_its_system _ _ _ _ _ _ _ _ EN SIM) as (_ & K). cbv zeta in K. cbn [first_minute_heats] in FO. destruct (en_system e) as [dh s| | | | |]; try discriminate T. destruct K as (s' & E & _).
    unfold simulate_base in E. destruct (bind_ok _ _ _ E) as (s0 & E0 & E1). clear E. rewrite E0 in FO. cbn [bind] in FO.
    destruct (simulate_reported _ _ _ _ _ _ _ _ _ E1) as (total & iv & outs & LA & _ & EX & RP & _).
    destruct LA as [(_ & -> & ->)|(X & _)]; [|discriminate X]. destruct outs as [|o outs].
    + destruct (sr_stopped r) eqn:SR.
      * apply (rp_stopped _ _ _ _ _ _ _ RP) in SR. destruct SR as (n & N1 & (N2 & N3) & _). clear - N1 N2 N3. cbn [length] in N1, N2, N3. destruct (N3 0%nat) as (o & EO & _); [lia|discriminate EO].
      * pose proof (rp_full _ _ _ _ _ _ _ RP SR) as X. discriminate X.
    + destruct EX as (s1 & ES & _). rewrite ES in FO.
      assert (H0 : so_output o == 0).
      { apply Z; [exact EN|split; [reflexivity|discriminate]|reflexivity|reflexivity|exact SIM|reflexivity|].
        rewrite (rc_output _ _ (rp_recorded _ _ _ _ _ _ _ RP)). reflexivity. }
      apply Qle_bool_iff in FO. lra.
Qed.
Print Assumptions C78_shed_off_refuted.
