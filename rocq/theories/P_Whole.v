(** C72: an order is sized and then simulated. *)
From Verif Require Import Prelude M_StratifiedTank M_MixedTank M_EnergyTank M_Building M_Heater M_Sizing M_SimRun M_Step M_Swing M_MPRTP M_Engine
  S_Integral S_Sizing S_Step S_Swing S_Engine S_EngineSize S_EngineRun S_Whole S_StratifiedTank L_StratifiedTank L_Building L_Heater L_Sizing3 L_Step L_Step2 L_Step4
  L_Engine L_Engine2 L_Engine6 L_Engine8 L_Whole P_Sizing P_Engine P_Engine2 P_Engine5 P_Engine6 P_Engine7 P_EngineOut.
Open Scope Q_scope.

(** ** When there is storage *)

(** The sized primary tank is not negative, and it is larger than nothing exactly if some hour takes more
    water than an evenly running heater makes. *)
Theorem C72_storage_positive : forall dt p b e inlet on_t,
  eng_new dt p = Ok e -> ep_volume p = None -> without_schedule p -> pooled (type_of (en_system e)) ->
  eng_building dt p = Ok b -> fits_run_hours b (ep_run p) -> 0 < bd_daily b -> mains e inlet -> defaulted (ep_on_t p) (ep_supply p) on_t ->
  0 <= ep_aq p -> inlet < ep_supply p <= ep_storage p -> on_t <= ep_storage p ->
  exists V, sized_storage e = Some V /\ 0 <= V /\ (0 < V <-> peaks_above_output b (ep_run p)).
Proof.
  intros dt p b e inlet on_t H EV NS PT EB F D0 HI ON A0 I O1.
  destruct (C67_storage dt p b e inlet on_t H EV NS PT EB F HI ON A0 I O1) as (V & u & SV & _ & Q1 & Q2). cbv zeta in Q1, Q2.
  exists V. split; [exact SV|]. destruct F as (L & _ & R0 & _).
  set (g := steady (bd_daily b / ep_run p)) in *. set (d := demand_at (bd_daily b) (bd_peak b)) in *.
  assert (U : 0 <= u \/ u < 0) by (destruct (Qlt_le_dec u 0); auto).
  assert (UN : 0 <= u).
  { destruct U as [U|U]; [exact U|]. exfalso. destruct (Q2 (V - 1)) as (st & n & _ & _ & R); [lra|]. apply (Q1 st n).
    eapply Qle_lt_trans; [|exact R]. apply level_mono. assert ((V - 1) * u == V * u - u) by ring. lra. }
  assert (W0 : 0 <= V * u) by (apply Qnot_lt_le; exact (Q1 0%nat 0%nat)).
  assert (VN : 0 <= V).
  { apply Qnot_lt_le. intro VL. assert (VU : V * u == 0). { assert (V * u <= 0) by (assert (0 <= (- V) * u) by (apply Qmult_le_0_compat; lra); lra). lra. }
    assert (UZ : u == 0). { apply Qmult_integral in VU. destruct VU; [lra|assumption]. }
    destruct (Q2 (V - 1)) as (st & n & _ & _ & R); [lra|]. apply (Q1 st n). eapply Qle_lt_trans; [|exact R]. apply level_mono. rewrite UZ. lra. }
  assert (HOUR : forall h, (h < 24)%nat -> d h == bd_daily b * nth h (bd_peak b) 0). { intros h Hh. unfold d, demand_at. rewrite L, Nat.mod_small by exact Hh. reflexivity. }
  assert (OUT : forall x, bd_daily b / ep_run p < bd_daily b * x <-> 1 < ep_run p * x).
  { intro x. assert (K : bd_daily b / ep_run p * ep_run p == bd_daily b) by (field; lra). split; intro X.
    - apply Qnot_le_lt. intro Y. assert (bd_daily b * (ep_run p * x) <= bd_daily b * 1) by (rewrite (Qmult_comm _ (ep_run p * x)), (Qmult_comm _ 1); apply Qmult_le_compat_r; lra).
      assert (bd_daily b / ep_run p * ep_run p < bd_daily b * x * ep_run p) by (apply Qmult_lt_r; assumption). lra.
    - apply Qnot_le_lt. intro Y. assert (bd_daily b * x * ep_run p <= bd_daily b / ep_run p * ep_run p) by (apply Qmult_le_compat_r; lra).
      assert (bd_daily b * 1 < bd_daily b * (ep_run p * x)) by (apply Qmult_lt_l; assumption). lra. }
  split; [exact VN|]. split.
  - intro VP. destruct (existsb (fun x => qltb 1 (ep_run p * x)) (bd_peak b)) eqn:EX.
    + apply existsb_exists in EX. destruct EX as (x & Ix & Hx). qbool. exists x. auto.
    + exfalso. destruct (Q2 0 VP) as (st & n & _ & _ & R). revert R. apply Qle_not_lt. rewrite level_flat; [lra|lra|].
      intro t. unfold g, steady, d, demand_at. apply Qnot_lt_le. intro Y. apply OUT in Y.
      assert (IN : In (nth (t mod length (bd_peak b)) (bd_peak b) 0) (bd_peak b)). { apply nth_In. apply Nat.mod_upper_bound. rewrite L. discriminate. }
      assert (existsb (fun x => qltb 1 (ep_run p * x)) (bd_peak b) = true); [|congruence]. apply existsb_exists. eexists. split; [exact IN|]. apply qltb_true. exact Y.
  - intros (x & Ix & Hx). apply OUT in Hx. destruct (In_nth _ _ 0 Ix) as (h & Hh & <-). rewrite L in Hh.
    assert (LV : 0 <= level (V * u) g d h 1) by (apply Qnot_lt_le; exact (Q1 h 1%nat)). cbn [level] in LV. rewrite Nat.add_0_r in LV.
    pose proof (qmin_r (V * u) (V * u + g h - d h)) as M. pose proof (HOUR h Hh) as DH. assert (GH : g h == bd_daily b / ep_run p) by reflexivity.
    destruct (Qlt_le_dec 0 V) as [VP|VP]; [exact VP|]. assert (VZ : V == 0) by lra. assert (VU : V * u == 0) by (rewrite VZ; ring).
    set (q := qmin _ _) in *. clearbody q. lra.
Qed.
Print Assumptions C72_storage_positive.

(** ** Sized, then simulated *)

Lemma cap_sign c df rn h : c * 1000 * df * rn == h -> 0 <= h -> 0 < df -> 0 < rn -> 0 <= c.
Proof.
  intros E H D R. apply Qnot_lt_le. intro L. assert (0 < (- c) * 1000 * df * rn) by (repeat apply Qmult_lt_0_compat; lra). lra.
Qed.
Lemma nominal_is_rated h c : wh_pm h = Some (PmNominal c) -> 0 <= c -> rated h.
Proof. intros E P oat outlet inlet. unfold wh_capacity, wh_power. rewrite E. eexists _, _. split; reflexivity. Qed.

(** Every order that can be sized is simulated to the end if its primary tank came out larger than nothing;
    if it came out as nothing, the simulation divides by zero in its first step. *)
Theorem C72_sized_simulates : forall dt p b t inlet on_t, In (ep_schematic p, t) documented -> t <> MultiPassRTP ->
  ep_volume p = None -> eng_building dt p = Ok b -> sizable p b t inlet on_t -> complete b ->
  (t = ParallelLoop -> loop_loses p) -> (t = SwingTank -> mains_below_supply p b) ->
  exists e, eng_new dt p = Ok e /\ type_of (en_system e) = t /\
    forall dur thr maxm, dur = "3day"%string \/ dur = "annual"%string ->
    let runs := exists e' r, eng_simulate e dur thr maxm = Ok (e', r) in
    (t = InstantWH -> runs) /\
    (t <> InstantWH -> exists V, sized_storage e = Some V /\
       (0 < V -> runs) /\ (V == 0 -> eng_simulate e dur thr maxm = Err ZeroDivisionError)).
Proof.
  intros dt p b t inlet on_t D NM EV EB SZ CB LL MS.
  destruct (C67_sizes dt p b t inlet on_t D NM EV EB SZ) as (e & N & T). exists e. split; [exact N|]. split; [exact T|].
  pose proof SZ as [NS L D0 BI ON R0 F0 [[I1 I2] O1] [A0 [SS A1]] LP TM SW].
  pose proof (C67_building _ _ _ _ N EB L) as Eb.
  assert (HM : mains e inlet) by (unfold mains; rewrite Eb; exact BI).
  assert (LU : load_up_configured p) by (intros ls h E; destruct (NS ls); exact E).
  assert (RP : 0 < rho_cp) by reflexivity.
  assert (HP : 0 <= daily_heat b (ep_supply p) inlet). { unfold daily_heat. apply Qmult_le_0_compat; [apply Qmult_le_0_compat|]; lra. }
  (* the capacity *)
  assert (CAP : t <> InstantWH -> exists c, sized_capacity e = Some c /\ 0 <= c).
  { intro NI. assert (TE : {t = SwingTank} + {t <> SwingTank}) by decide equality. destruct TE as [TS|TS].
    - destruct (SW TS) as (S1 & S2 & (r & f & ER & EF & SF) & S4). destruct LP as (r' & f' & ER' & EF' & LP1 & LP2); [rewrite TS; split; discriminate|].
      assert (r' = r) by congruence. assert (f' = f) by congruence. subst r' f'.
      pose proof (C67_maintenance _ _ _ _ N EV EB L (Qlt_le_weak _ _ D0)) as MT. rewrite T, TS in MT. destruct MT as (r1 & f1 & z & cap & _ & _ & SM & IZ & _).
      assert (TY : type_of (en_system e) = SwingTank) by congruence.
      destruct (C67_swing dt p b e inlet on_t r f N EV NS TY EB L S2 D0 HM ON A0 (conj I1 I2) O1 R0 ER EF LP1 LP2) as (vol & cp & V & C & u & mix & _ & _ & SC & _ & Z).
      { intros x vol cap0 Ix E. rewrite SM in E. injection E as <- _. exact (S4 x z Ix IZ). }
      cbv zeta in Z. destruct Z as ([M0 _] & QC & _). exists C. split; [exact SC|]. apply (cap_sign _ _ _ _ QC); [|assumption|assumption].
      apply Qmult_le_0_compat; [|lra]. apply Qmult_le_0_compat; [|lra]. apply Qmult_le_0_compat; lra.
    - destruct (C67_capacity dt p b e inlet N EV NS EB L HM) as (c & SC & Z); [rewrite T; exact TS|]. exists c. split; [exact SC|]. rewrite T in Z.
      destruct t; try congruence.
      + exact (cap_sign _ _ _ _ Z HP F0 R0).
      + exact (cap_sign _ _ _ _ Z HP F0 R0).
      + destruct LP as (r' & f' & ER' & EF' & LP1 & LP2); [split; discriminate|]. destruct Z as (r & f & ER & EF & Z). assert (r' = r) by congruence. assert (f' = f) by congruence. subst r' f'.
        apply (cap_sign _ _ _ _ Z); [|assumption|assumption]. pose proof (loss_nonneg _ _ _ LP1 LP2). lra. }
  assert (FS : Forall scheduled (primary_heaters (en_system e))) by (apply Forall_forall; intros h Ih; exact (C51_labelled _ _ _ _ N Ih LU)).
  assert (FR : Forall rated (primary_heaters (en_system e))).
  { destruct (new_inv _ _ _ N) as (b0 & sched & m & _ & _ & [(vol & hs & E & _)|(_ & _ & [(d & E & _)|(c & v & hs & E1 & E2 & (h & -> & Q1 & _) & A & NI)])]); [congruence|rewrite E; constructor|].
    destruct (assembled_parts _ _ _ _ _ A) as (_ & P2 & _). destruct (P2 NI) as [-> _]. constructor; [|constructor].
    destruct CAP as (c' & SC & C0); [rewrite <- T; exact NI|]. apply (nominal_is_rated _ _ Q1). unfold sized_capacity, eng_results in SC. cbn [fst] in SC. congruence. }
  assert (VOL : t <> InstantWH -> exists V, sized_storage e = Some V /\ primary_volume (en_system e) = Some V).
  { intro NI. destruct (new_inv _ _ _ N) as (b0 & sched & m & _ & _ & [(vol & hs & E & _)|(_ & _ & [(d & E & _)|(c & v & hs & E1 & E2 & _ & A & NI')])]); [congruence|rewrite E in T; cbn in T; congruence|].
    exists v. split; [unfold sized_storage, eng_results; exact E2|]. destruct (assembled_parts _ _ _ _ _ A) as (_ & P2 & _). exact (proj2 (P2 NI')). }
  assert (ST : forall v h, second_tank (en_system e) = Some (v, h) -> 0 < v /\ rated h).
  { intros v h E. destruct (sized_second dt p e v h N EV E) as (oc & SM & PC).
    pose proof (C67_maintenance _ _ _ _ N EV EB L (Qlt_le_weak _ _ D0)) as MT. rewrite T in MT.
    destruct t; try (rewrite MT in SM; discriminate SM).
    - destruct MT as (r & f & on & off & vol & cap & ER & EF & TN & TF & SM' & QV & QC). rewrite SM in SM'. injection SM' as <- ->.
      destruct (LL eq_refl r f ER EF) as [L1 L2]. destruct (TM eq_refl) as (T1 & (T2 & _) & _ & on' & off' & TN' & TF' & TL).
      apply defaulted_is in TN. apply defaulted_is in TF. apply defaulted_is in TN'. apply defaulted_is in TF'. assert (TLT : on < off) by congruence.
      assert (HL : 0 < hourly_loss (ep_supply p) r f). { unfold hourly_loss. apply Qmult_lt_0_compat; [|lra]. apply Qmult_lt_0_compat; [|exact RP]. lra. }
      destruct (PC cap eq_refl) as (c' & EC & PM). split.
      + apply Qnot_le_lt. intro Y. assert (0 <= (- v) * (rho_cp * (off - on))) by (apply Qmult_le_0_compat; [lra|apply Qmult_le_0_compat; lra]).
        assert (0 < hourly_loss (ep_supply p) r f * ep_tm_off_time p) by (apply Qmult_lt_0_compat; lra). lra.
      + apply (nominal_is_rated _ _ PM). assert (0 < ep_tm_safety p * hourly_loss (ep_supply p) r f) by (apply Qmult_lt_0_compat; lra). lra.
    - destruct MT as (r & f & z & cap & ER & EF & SM' & IZ & _ & _ & QC). rewrite SM in SM'. injection SM' as -> ->.
      destruct (SW eq_refl) as (T1 & _). destruct LP as (r' & f' & ER' & EF' & LP1 & LP2); [split; discriminate|]. assert (r' = r) by congruence. assert (f' = f) by congruence. subst r' f'.
      destruct (PC cap eq_refl) as (c' & EC & PM). split; [cbn in IZ; repeat (destruct IZ as [<-|IZ]; [reflexivity|]); destruct IZ|].
      apply (nominal_is_rated _ _ PM). assert (HL : 0 <= hourly_loss (ep_supply p) r f). { unfold hourly_loss. apply Qmult_le_0_compat; [|lra]. apply Qmult_le_0_compat; lra. }
      assert (0 <= ep_tm_safety p * hourly_loss (ep_supply p) r f) by (apply Qmult_le_0_compat; lra). lra. }
  intros dur thr maxm DUR runs.
  assert (GO : (t <> InstantWH -> exists vol, primary_volume (en_system e) = Some vol /\ 0 < vol) -> runs).
  { intro PV. apply (C65_completes dt p e dur thr maxm N LU); [rewrite Eb; exact CB|exact DUR|congruence|rewrite T; exact PV|exact FR|exact ST| |].
    - rewrite T. intros TS i iv x. rewrite Eb. exact (MS TS i iv x).
    - intros _. lra. }
  split; [intro TI; apply GO; congruence|]. intro NI. destruct (VOL NI) as (V & SV & PV). exists V. split; [exact SV|]. split.
  - intro VP. apply GO. intros _. exists V. auto.
  - intro VZ. assert (CB' : complete (en_building e)) by (rewrite Eb; exact CB). destruct (complete_answers _ CB' 0 1) as (_ & _ & _ & di & DI).
    unfold eng_simulate. destruct (en_system e) as [d s|l s|w s|d ret flow s|x|d] eqn:ES; cbn [type_of primary_volume primary_heaters second_tank] in *.
    + destruct (bs_tank s) as [tk|] eqn:ET; [|discriminate]. injection PV as PV. unfold simulate_base, init_base. rewrite DI. cbn [bind]. cbv zeta. rewrite ET.
      rewrite (simulate_first _ _ _ _ _ _ _ ZeroDivisionError); [reflexivity| |exact DUR]. intros i iv. eapply base_step_empty; [exact CB'|exact FS|exact FR|reflexivity|cbn; rewrite PV; exact VZ].
    + destruct (bs_tank (ps_base s)) as [tk|] eqn:ET; [|discriminate]. injection PV as PV. unfold simulate_parallel, init_parallel, init_base. rewrite DI. cbn [bind]. cbv zeta. rewrite ET.
      cbn [bind]. rewrite (simulate_first _ _ _ _ _ _ _ ZeroDivisionError); [reflexivity| |exact DUR]. intros i iv. unfold parallel_step. cbn [ps_base].
      erewrite base_step_empty; [reflexivity|exact CB'|exact FS|exact FR|reflexivity|cbn; rewrite PV; exact VZ].
    + injection PV as PV. destruct (C52_swing_tank _ _ _ _ _ N ES) as (c & S1 & S2 & _). unfold simulate_swing, init_swing. rewrite DI. cbn [bind]. cbv zeta.
      unfold ws_off_temp, wh_controls_for. rewrite S1, S2. assert (py_nth (repeat "normal"%string 24) 0 = Ok "normal"%string) as -> by reflexivity. cbn [bind].
      rewrite (simulate_first _ _ _ _ _ _ _ ZeroDivisionError); [reflexivity| |exact DUR]. intros i iv. apply swing_step_empty; [exact CB'|exact FS|exact FR|cbn; rewrite PV; exact VZ].
    + destruct (bs_tank s) as [tk|] eqn:ET; [|discriminate]. injection PV as PV. unfold simulate_sprtp, init_base. rewrite DI. cbn [bind]. cbv zeta. rewrite ET.
      rewrite (simulate_first _ _ _ _ _ _ _ ZeroDivisionError); [reflexivity| |exact DUR]. intros i iv. unfold sprtp_step.
      erewrite base_step_empty; [reflexivity|exact CB'|exact FS|exact FR|reflexivity|cbn; rewrite PV; exact VZ].
    + congruence.
    + congruence.
Qed.
Print Assumptions C72_sized_simulates.

(** ** Cases *)

(** The example orders of C67 need storage and meet the hypotheses: they are sized and simulated. *)
Example C72_case : forall name t, In (name, t) documented -> pooled t \/ t = InstantWH ->
  exists e e' r, eng_new ex_data (ex_plain name) = Ok e /\ type_of (en_system e) = t /\ eng_simulate e "annual" 5 60 = Ok (e', r).
Proof.
  intros name t D PT. assert (NM : t <> MultiPassRTP) by (destruct PT as [[Z|[Z|Z]]|Z]; rewrite Z; discriminate).
  destruct (ex_plain_sizable name t D NM) as (b & EB & P & DD & BI & SZ).
  assert (CB : complete b). { injection EB as <-. split; [discriminate|]. split; [discriminate|]. eexists. split; [reflexivity|]. split; left; discriminate. }
  destruct (C72_sized_simulates ex_data (ex_plain name) b t 50 120 D NM eq_refl EB SZ CB) as (e & N & T & RUN).
  - intros _ r f ER EF. injection ER as <-. injection EF as <-. split; reflexivity.
  - intro TS. destruct PT as [[Z|[Z|Z]]|Z]; congruence.
  - destruct (RUN "annual"%string 5 60%Z (or_intror eq_refl)) as [R1 R2]. cbv zeta in R1, R2.
    assert (G : exists e' r, eng_simulate e "annual" 5 60 = Ok (e', r)).
    { destruct PT as [PT|TI]; [|exact (R1 TI)]. destruct R2 as (V & SV & R2 & _); [destruct PT as [Z|[Z|Z]]; rewrite Z; discriminate|]. apply R2.
      pose proof SZ as [NS L D0 _ ON R0 F0 [I O1] [A0 _] _ _ _].
      assert (PT' : pooled (type_of (en_system e))) by (rewrite T; exact PT).
      assert (F : fits_run_hours b (ep_run (ex_plain name))). { split; [exact L|]. split; [lra|]. split; [exact R0|]. rewrite P. discriminate. }
      assert (HM : mains e 50) by (unfold mains; rewrite (C67_building _ _ _ _ N EB L); exact BI).
      destruct (C72_storage_positive ex_data (ex_plain name) b e 50 120 N eq_refl NS PT' EB F D0 HM ON A0 I O1) as (V' & SV' & _ & VP). assert (V' = V) by congruence. subst V'.
      apply VP. exists (1 # 8). rewrite P. split; [cbn; auto 10|reflexivity]. }
    destruct G as (e' & r & G). exists e, e', r. auto.
Qed.

(** The design day's water at an even rate, all day long. *)
Definition flat_shape : list Q := repeat (1 # 24) 24.
Definition ex_flat : eparams :=
  mkParams (One None) (One (Some 1000)) (CzDict [("design_oat_f"%string, Some 30); ("design_inlet_water_temp_f"%string, Some 50)])
    120 150 "primary_no_recirc" None (Some (One flat_shape)) None 2 None 16 1 (1 # 2) (1 # 10) None None
    None 0 None None None None None 1 (Some 110) (Some 3) None None 1 (175 # 100) None None (Some 80) (Some 20) None 1.
Definition flat_building : building := mkBuilding (Some (cz_from_design (Some 30) (Some 50))) 1000 flat_shape flat_shape "custom".

Lemma ex_flat_sizable : eng_building ex_data ex_flat = Ok flat_building /\ sizable ex_flat flat_building PrimaryNoRecirc 50 120.
Proof.
  split; [reflexivity|]. split; try reflexivity; try discriminate.
  - intros ls [X _]. discriminate X.
  - repeat split; (discriminate || reflexivity).
  - repeat split; (discriminate || reflexivity).
  - intros [X _]. congruence.
Qed.

(** "What was sized can be simulated" is false: an even load on a heater allowed 16 hours a day needs no
    storage, the engine is built with a tank of no gallons, and no simulation of it gets past the first step. *)
Theorem C72_sized_simulates_refuted : exists dt p e V, eng_new dt p = Ok e /\ type_of (en_system e) = PrimaryNoRecirc /\
  sized_storage e = Some V /\ V == 0 /\
  forall dur thr maxm, dur = "3day"%string \/ dur = "annual"%string -> eng_simulate e dur thr maxm = Err ZeroDivisionError.
Proof.
  destruct ex_flat_sizable as [EB SZ].
  assert (CB : complete flat_building). { split; [discriminate|]. split; [discriminate|]. eexists. split; [reflexivity|]. split; left; discriminate. }
  assert (D : In (ep_schematic ex_flat, PrimaryNoRecirc) documented) by (left; reflexivity).
  destruct (C72_sized_simulates ex_data ex_flat flat_building PrimaryNoRecirc 50 120 D ltac:(discriminate) eq_refl EB SZ CB ltac:(discriminate) ltac:(discriminate)) as (e & N & T & RUN).
  pose proof SZ as [NS L D0 BI ON R0 F0 [I O1] [A0 _] _ _ _].
  assert (PT : pooled (type_of (en_system e))) by (rewrite T; left; reflexivity).
  assert (F : fits_run_hours flat_building (ep_run ex_flat)). { split; [exact L|]. split; [discriminate|]. split; [reflexivity|]. vm_compute. discriminate. }
  assert (HM : mains e 50) by (unfold mains; rewrite (C67_building _ _ _ _ N EB L); exact BI).
  destruct (C72_storage_positive ex_data ex_flat flat_building e 50 120 N eq_refl NS PT EB F D0 HM ON A0 I O1) as (V & SV & V0 & VP).
  assert (VZ : V == 0).
  { assert (~ 0 < V). { intro P. apply VP in P. destruct P as (x & Ix & Hx). apply repeat_spec in Ix. subst x. discriminate Hx. } lra. }
  exists ex_data, ex_flat, e, V. split; [exact N|]. split; [exact T|]. split; [exact SV|]. split; [exact VZ|].
  intros dur thr maxm DUR. destruct (RUN dur thr maxm DUR) as [_ R]. destruct R as (V' & SV' & _ & Z); [discriminate|]. apply Z. assert (V' = V) by congruence. subst V'. exact VZ.
Qed.
Print Assumptions C72_sized_simulates_refuted.
