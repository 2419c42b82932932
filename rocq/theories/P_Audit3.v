(** C91: the energy a run reports pays for the heat it delivered, from the efficiency of the engine's heaters. *)
From Verif Require Import Prelude M_StratifiedTank S_StratifiedTank L_StratifiedTank L_StratifiedTank2 L_StratifiedTank3
  M_MixedTank L_MixedTank M_Building S_Building L_Building M_Heater S_Heater L_Heater M_Sizing S_Sizing M_SimRun S_SimRun L_SimRun L_SimMisc M_Step S_Step L_Step L_Step2 L_Step3 L_Step4 L_Step6
  M_Swing M_MPRTP M_Engine S_Engine S_EngineRun S_EngineSize L_Engine L_Engine2 L_Engine6 L_Engine8 S_Lasts S_Lasts2 L_Lasts L_Lasts2 L_Lasts3 S_Audit S_Audit2 L_Audit L_Audit2 L_Audit3
  P_Sizing P_Engine P_Engine2 P_Engine6 P_Engine7 P_Lasts P_Lasts2 P_Audit P_Audit2.
Open Scope Q_scope.

Lemma nth_paid cop outs r : recorded outs r -> (forall o, In o outs -> paid cop o) ->
  forall i k, nth_error (sr_output r) i = Some k -> exists w, nth_error (sr_power r) i = Some w /\ 0 <= cop * or0 w /\ k <= cop * (3412142 # 1000000) * or0 w.
Proof.
  intros RC H i k E. rewrite (rc_output _ _ RC), nth_error_map in E. destruct (nth_error outs i) as [o|] eqn:EO; [|discriminate]. cbn in E. injection E as <-.
  exists (so_power o). rewrite (rc_power _ _ RC), nth_error_map, EO. split; [reflexivity|]. exact (H o (nth_error_In _ _ EO)).
Qed.

(** The systems of C91_heat_is_made, with heaters that never give more than [cop] times the power they draw: in a run
    without an outage the recorded energy covers the heat in the water the building took and the heat the loop took
    back, beyond one tankful. *)
Theorem C91_plant_energy : forall dt p e dur thr maxm e' r total iv vol cold warm take cop,
  eng_new dt p = Ok e -> pooled (type_of (en_system e)) ->
  primary_volume (en_system e) = Some vol -> 0 < vol -> lasts dur total iv ->
  cold <= warm -> warm < ep_supply p -> ep_supply p <= ep_storage p ->
  let b := en_building e in
  (forall t x, bd_inlet b t iv = Ok x -> cold <= x /\ x <= warm) ->
  (forall di, bd_design_inlet b = Ok di -> cold <= sim_inlet di <= warm) ->
  (forall t avg x, bd_load b t iv avg = Ok x -> 0 <= x <= vol) ->
  loop_takes (type_of (en_system e)) p iv cold take ->
  efficient b iv (primary_heaters (en_system e)) (ep_storage p) cop ->
  eng_simulate e dur thr maxm = Ok (e', r) -> sr_outage r = 0%Z ->
  heat_taken r (ep_supply p) warm + heat_held (qz (Z.of_nat (length (sr_demand r))) * take) (ep_storage p) warm
  <= heat_held vol (ep_storage p) warm + cop * (3412142 # 1000) * kwh_used r.
Proof.
  intros dt p e dur thr maxm e' r total iv vol cold warm take cop H TY PV V0 LA CW WS SS b MA DI LD LT EFF SIM NO.
  refine (C91_energy_is_used dt p e dur thr maxm e' r total iv vol cold warm take cop H TY PV V0 LA CW WS SS MA DI LD LT SIM NO _).
  pose proof (outlets_storage _ _ _ H) as CT.
  assert (IVS : forall total' iv', lasts dur total' iv' -> iv' = iv) by (intros total' iv' LA'; destruct LA as [(L1 & -> & ->)|(L1 & -> & ->)]; destruct LA' as [(L2 & -> & ->)|(L2 & -> & ->)]; reflexivity || congruence).
  destruct (C65_runs_its_system _ _ _ _ _ _ _ _ H SIM) as (_ & KS). cbv zeta in KS.
  destruct (en_system e) as [dh s|l s|w s|dh ret flow s|x|dh] eqn:ES; cbn [type_of primary_heaters] in *; try (destruct TY as [Y|[Y|Y]]; discriminate).
  - destruct KS as (s' & E & _). unfold simulate_base in E. destruct (bind_ok _ _ _ E) as (s0 & E0 & E1).
    destruct (simulate_reported _ _ _ _ _ _ _ _ _ E1) as (total' & iv' & outs & LA' & _ & EX & RP & _). apply IVS in LA'. subst iv'.
    apply (nth_paid cop outs r (rp_recorded _ _ _ _ _ _ _ RP)).
    refine (executed_all iv (base_step b) (fun s1 => Forall2 same_heater (bs_heaters s) (bs_heaters s1)) (paid cop) (fun s1 t s2 o X J => base_paid b iv _ (ep_storage p) cop CT EFF t s1 s2 o X J) outs s0 0%Z s' EX _).
    unfold init_base in E0. destruct (bind_ok _ _ _ E0) as (di & _ & E2). cbv zeta in E2. apply ok_inj in E2. subst s0. destruct (bs_tank s); apply same_all_refl.
  - destruct KS as (s' & E & _). unfold simulate_parallel in E. destruct (bind_ok _ _ _ E) as (s0 & E0 & E1).
    destruct (simulate_reported _ _ _ _ _ _ _ _ _ E1) as (total' & iv' & outs & LA' & _ & EX & RP & _). apply IVS in LA'. subst iv'.
    apply (nth_paid cop outs r (rp_recorded _ _ _ _ _ _ _ RP)).
    refine (executed_all iv (parallel_step b) (fun s1 => Forall2 same_heater (bs_heaters (ps_base s)) (bs_heaters (ps_base s1))) (paid cop) (fun s1 t s2 o X J => parallel_paid b iv _ (ep_storage p) cop CT EFF t s1 s2 o X J) outs s0 0%Z s' EX _).
    unfold init_parallel in E0. destruct (bind_ok _ _ _ E0) as (di & _ & E2). destruct (bind_ok _ _ _ E2) as (s1 & EI & E3). apply ok_inj in E3.
    unfold init_base in EI. destruct (bind_ok _ _ _ EI) as (di2 & _ & E4). cbv zeta in E4. apply ok_inj in E4. subst s0. cbn [ps_base]. subst s1. destruct (bs_tank (ps_base s)); apply same_all_refl.
  - destruct KS as (ret' & flow' & s' & _ & _ & E & _). unfold simulate_sprtp in E. destruct (bind_ok _ _ _ E) as (s0 & E0 & E1).
    destruct (simulate_reported _ _ _ _ _ _ _ _ _ E1) as (total' & iv' & outs & LA' & _ & EX & RP & _). apply IVS in LA'. subst iv'.
    apply (nth_paid cop outs r (rp_recorded _ _ _ _ _ _ _ RP)).
    refine (executed_all iv (sprtp_step ret' flow' b) (fun s1 => Forall2 same_heater (bs_heaters s) (bs_heaters s1)) (paid cop) (fun s1 t s2 o X J => sprtp_paid b iv _ (ep_storage p) cop CT EFF ret' flow' t s1 s2 o X J) outs s0 0%Z s' EX _).
    unfold init_base in E0. destruct (bind_ok _ _ _ E0) as (di & _ & E2). cbv zeta in E2. apply ok_inj in E2. subst s0. destruct (bs_tank s); apply same_all_refl.
Qed.
Print Assumptions C91_plant_energy.

(** With a swing tank, the total energy the run reports, heaters and element together. *)
Theorem C91_swing_plant_energy : forall dt p e dur thr maxm e' r total iv vol tv el cold warm ret flow cop,
  eng_new dt p = Ok e -> type_of (en_system e) = SwingTank ->
  primary_volume (en_system e) = Some vol -> 0 < vol -> second_tank (en_system e) = Some (tv, el) -> 0 < tv -> lasts dur total iv ->
  ep_return p = Some ret -> ep_flow p = Some flow -> ret <= ep_supply p -> 0 <= flow ->
  warm < ep_supply p -> ep_supply p <= ep_storage p ->
  let b := en_building e in
  (forall t x, bd_inlet b t iv = Ok x -> cold <= x /\ x <= warm) ->
  (forall di, bd_design_inlet b = Ok di -> cold <= sim_inlet di <= warm) ->
  (forall t avg x, bd_load b t iv avg = Ok x -> 0 <= x <= tv) ->
  1 <= cop -> efficient b iv (primary_heaters (en_system e)) (ep_storage p) cop -> never_cools el ->
  eng_simulate e dur thr maxm = Ok (e', r) -> sr_outage r = 0%Z ->
  heat_taken r (ep_supply p) warm + loop_took r (loop_kbtuh (ep_supply p) ret flow)
  <= heat_held vol (ep_storage p) warm + cop * (3412142 # 1000) * total_energy r
     + heat_held tv (ep_supply p + 8) (last_swing_temp r (ep_supply p + 8)).
Proof.
  intros dt p e dur thr maxm e' r total iv vol tv el cold warm ret flow cop H TY PV V0 ST2 TV LA ER EF RS F0 WS SS b MA DI LD C1 EFF NC SIM NO.
  pose proof (outlets_storage _ _ _ H) as CT.
  assert (R : (forall k, In k (sr_tm_output r) -> 0 <= k) /\
              forall i k, nth_error (sr_output r) i = Some k -> exists w, nth_error (sr_power r) i = Some w /\ 0 <= cop * or0 w /\ k <= cop * (3412142 # 1000000) * or0 w).
  { destruct (C65_runs_its_system _ _ _ _ _ _ _ _ H SIM) as (_ & KS). cbv zeta in KS.
    destruct (en_system e) as [dh s|l s|w s|dh r0 f0 s|x|dh] eqn:ES; try discriminate TY. cbn [primary_heaters second_tank] in *.
    assert (SI : forall A (x y : A), Some x = Some y -> x = y) by congruence. apply SI in ST2. apply pair_equal_spec in ST2. destruct ST2 as [_ EE].
    destruct KS as (s' & E & _). unfold simulate_swing in E. destruct (bind_ok _ _ _ E) as (s0 & E0 & E1).
    destruct (simulate_reported _ _ _ _ _ _ _ _ _ E1) as (total' & iv' & outs & LA' & _ & EX & RP & _).
    assert (iv' = iv) as -> by (destruct LA as [(L1 & -> & ->)|(L1 & -> & ->)]; destruct LA' as [(L2 & -> & ->)|(L2 & -> & ->)]; reflexivity || congruence).
    assert (AL : forall o, In o outs -> paid cop o /\ exists k, so_tm_output o = Some k /\ 0 <= k).
    { refine (executed_all iv (swing_sim_step b) (fun s1 => Forall2 same_heater (ws_heaters s) (ws_heaters s1) /\ same_heater el (ws_element s1)) (fun o => paid cop o /\ exists k, so_tm_output o = Some k /\ 0 <= k)
        (fun s1 t s2 o X J => swing_paid b iv _ (ep_storage p) cop CT EFF el t s1 s2 o X NC J) outs s0 0%Z s' EX _).
      unfold init_swing in E0. destruct (bind_ok _ _ _ E0) as (di & _ & E2). cbv zeta in E2. destruct (bind_ok _ _ _ E2) as (off & _ & E3). apply ok_inj in E3. subst s0. cbn [ws_heaters ws_element].
      split; [apply same_all_refl|rewrite EE; apply same_heater_refl]. }
    pose proof (rp_recorded _ _ _ _ _ _ _ RP) as RC. split.
    - intros k I. rewrite (rc_tm_output _ _ RC) in I. clear - I AL. induction outs as [|o outs IH]; [destruct I|]. cbn [map] in I.
      destruct (AL o (or_introl eq_refl)) as (_ & k' & EK & K0). rewrite EK in I. cbn [somes] in I. destruct I as [<-|I]; [exact K0|]. exact (IH (fun o' J => AL o' (or_intror J)) I).
    - apply (nth_paid cop outs r RC). intros o I. exact (proj1 (AL o I)). }
  destruct R as [TM CP].
  exact (C91_swing_energy_is_used dt p e dur thr maxm e' r total iv vol tv el cold warm ret flow cop H TY PV V0 ST2 TV LA ER EF RS F0 WS SS MA DI LD SIM NO C1 TM CP).
Qed.
Print Assumptions C91_swing_plant_energy.

(** ** Cases: a heat pump drawing 10 kW at a COP of 3, in the plants of the C71 and C76 cases *)

Definition ex_hp_entry : hp_entry := mkHpEntry 0 [3; 0; 0; 0; 0; 0; 0; 0; 0; 0; 0] [10; 0; 0; 0; 0; 0; 0; 0; 0; 0; 0].
Lemma ex_hp_gives h di oat out inl : wh_pm h = Some (PmHpwhsim (mkHpMap [ex_hp_entry] 1 false None di)) ->
  exists c w, wh_capacity h (Some oat) out inl = Ok (Some c) /\ wh_power h (Some oat) out inl = Ok (Some w) /\ c == 30 * w_to_kbtuh /\ w == 10.
Proof.
  intro E. unfold wh_capacity, wh_power. rewrite E. unfold pm_capacity, pm_power, hp_capacity, hp_power, hp_per_unit.
  cbn [hp_perfmap hp_multipass ex_hp_entry he_pow he_cop].
  set (i := match inl with Some x => x | None => _ end).
  assert (P : forall a, exists x, hp_poly11 [a; 0; 0; 0; 0; 0; 0; 0; 0; 0; 0] oat out i = Ok x /\ x == a).
  { intro a. eexists. split; [reflexivity|]. ring. }
  destruct (P 10) as (x & -> & X). destruct (P 3) as (y & -> & Y). cbn [bind fst snd hp_units].
  exists (y * x * w_to_kbtuh * qz 1), (x * w_to_kbtuh / w_to_kbtuh * qz 1). split; [reflexivity|]. split; [reflexivity|]. change (qz 1) with 1. rewrite X, Y.
  split; [unfold w_to_kbtuh|unfold w_to_kbtuh]; reflexivity.
Qed.

Definition ex_hp_data : data := mkData [] [] [] [] ex_lib [("HP10"%string, mkEntry None false false 0 None (Some [ex_hp_entry]))] (fun _ => 0).
Definition ex_hp (name : string) : eparams :=
  with_equipment (with_plant (ex_low name) 2000 100 (Some 80) (Some 20)) 1 (Some "HP10"%string) (Some 100) (Some 80) (Some 20) None 1.
Definition ex_hp_building : building := mkBuilding (Some (cz_from_design (Some 30) (Some 50))) 1000 ex_shape ex_shape "custom".

Definition hp_fitted (hs : list heater) : Prop := exists h, hs = [h] /\ wh_pm h = Some (PmHpwhsim (mkHpMap [ex_hp_entry] 1 false None 50)).

Lemma hp_rated hs : hp_fitted hs -> Forall rated hs.
Proof.
  intros (h & -> & E). constructor; [|constructor]. intros oat out inl. destruct (ex_hp_gives h 50 oat out inl E) as (c & w & E1 & E2 & _ & _).
  exists (Some c), (Some w). split; [exact E1|exact E2].
Qed.
Lemma hp_gives b iv hs storage : hp_fitted hs -> give_at_least b iv hs storage 100.
Proof.
  intros (h & -> & E) t oat inlet l _ _ F. inversion F as [|h' x hs' l' Fx F']; subst. destruct Fx as (c & Ec & Ex). inversion F'; subst.
  destruct (ex_hp_gives h 50 oat storage (Some inlet) E) as (c' & w & E1 & _ & C & _). rewrite E1 in Ec. apply ok_inj in Ec. subst c.
  change (100 <= c' + 0). rewrite C. vm_compute. discriminate.
Qed.
Lemma hp_efficient b iv hs storage : hp_fitted hs -> efficient b iv hs storage 3.
Proof.
  intros (h & -> & E) h' t oat inlet c [<-|[]] _ _ Ec. destruct (ex_hp_gives h 50 oat storage (Some inlet) E) as (c' & w & E1 & E2 & C & W). rewrite E1 in Ec. apply ok_inj in Ec. subst c.
  exists (Some w). split; [exact E2|]. cbn [or0]. rewrite C, W. split; vm_compute; discriminate.
Qed.
Lemma hp_loads t avg x : bd_load ex_hp_building t 1 avg = Ok x -> 0 <= x <= 80.
Proof.
  intro X. assert (Y : exists y, 0 <= y <= 1 # 4 /\ x = 1000 * y * qz 1 / 60).
  { unfold bd_load in X. cbn [ex_hp_building bd_avg bd_peak bd_daily] in X.
    destruct avg; cbv zeta in X; change (Z.of_nat (length ex_shape) =? 0)%Z with false in X; cbv iota in X; destruct (bind_ok _ _ _ X) as (y & EY & X1); apply ok_inj in X1;
    (exists y; split; [|symmetry; exact X1]; apply py_nth_in in EY; cbn in EY; repeat (destruct EY as [<-|EY]; [split; discriminate|]); destruct EY). }
  destruct Y as (y & [Y0 Y1] & ->). change (qz 1) with 1. assert (E : 1000 * y * 1 / 60 == y * (1000 # 60)) by field. rewrite E. lra.
Qed.
Lemma hp_windows : let bring := heated 100 60 150 50 in shortfall (wanted ex_hp_building) bring 0 24 <= 0 /\
  (forall i n, (i < 24)%nat -> (n <= 24)%nat -> shortfall (wanted ex_hp_building) bring i n <= 300) /\ forall h, 0 <= wanted ex_hp_building h <= 125.
Proof.
  assert (BR : 119 <= heated 100 60 150 50) by (vm_compute; discriminate). split; [vm_compute; discriminate|]. split.
  - intros i n LI LN. pose proof ex_swing_windows as X. rewrite forallb_forall in X. specialize (X i ltac:(apply in_seq; lia)). rewrite forallb_forall in X. specialize (X n ltac:(apply in_seq; lia)).
    apply Qle_bool_iff in X. eapply Qle_trans; [|exact X]. fold ex_hp_building. pose proof (shortfall_scale (wanted ex_hp_building) (heated 100 60 150 50) (wanted ex_hp_building) 119 1 i n) as S1. rewrite Qmult_1_l in S1. apply S1. intros j _. lra.
  - intro h. unfold wanted. change (bd_daily ex_hp_building) with 1000. change (bd_peak ex_hp_building) with ex_shape.
    assert (X : 0 <= nth (h mod 24) ex_shape 0 <= 1 # 8).
    { assert (Y : forall x, In x ex_shape -> 0 <= x <= 1 # 8) by (intros x I; cbn in I; repeat (destruct I as [<-|I]; [split; discriminate|]); destruct I).
      destruct (nth_in_or_default (h mod 24) ex_shape 0) as [I|Z0]; [exact (Y _ I)|]. rewrite Z0. split; discriminate. }
    lra.
Qed.

(** Three days of the plain system: the energy on the record, at a COP of 3, and a tankful cover the heat delivered. *)
Example C91_plant_case : exists e e' r, eng_new ex_hp_data (ex_hp "primary_no_recirc") = Ok e /\ type_of (en_system e) = PrimaryNoRecirc /\
  eng_simulate e "3day" 5 60 = Ok (e', r) /\ sr_outage r = 0%Z /\
  heat_taken r 120 50 <= heat_held 2000 150 50 + 3 * (3412142 # 1000) * kwh_used r.
Proof.
  destruct (eng_new ex_hp_data (ex_hp "primary_no_recirc")) as [e|er] eqn:N; [|vm_compute in N; discriminate].
  assert (X : type_of (en_system e) = PrimaryNoRecirc /\ hp_fitted (primary_heaters (en_system e)) /\ second_tank (en_system e) = None).
  { vm_compute in N. injection N as <-. split; [reflexivity|]. split; [eexists; split; reflexivity|reflexivity]. }
  destruct X as (T & HF & S2).
  assert (NI : type_of (en_system e) <> InstantWH) by (rewrite T; discriminate).
  assert (Eb : en_building e = ex_hp_building) by exact (C67_building _ _ _ _ N eq_refl eq_refl).
  assert (PV : primary_volume (en_system e) = Some 2000) by exact (proj2 (proj2 (C52_parts _ _ _ N)) NI).
  destruct hp_windows as (W1 & W2 & W3).
  destruct (C65_completes ex_hp_data _ e "3day" 5 60 N) as (e' & r & SIM).
  - intros ls h [Y _]. discriminate Y.
  - rewrite Eb. split; [discriminate|]. split; [discriminate|]. eexists. split; [reflexivity|]. split; left; discriminate.
  - left. reflexivity.
  - rewrite T. discriminate.
  - intros _. exists 2000. split; [exact PV|reflexivity].
  - apply hp_rated. exact HF.
  - rewrite S2. intros v h Y. discriminate Y.
  - rewrite T. discriminate.
  - rewrite T. discriminate.
  - exists e, e', r. split; [reflexivity|]. split; [exact T|]. split; [exact SIM|].
    assert (NV : never_out 150 (qmin 2000 (2000 * (150 - 120) / (100 * steepness (type_of (en_system e))))) 5 r).
    { assert (BL : forall h, blended (wanted ex_hp_building h) 120 150 50 + 0 == wanted ex_hp_building h * (7 # 10)) by (intro h; unfold blended; field).
      assert (LE : forall i n, shortfall (fun h => blended (wanted ex_hp_building h) 120 150 50 + 0) (heated 100 60 150 50) i n <= shortfall (wanted ex_hp_building) (heated 100 60 150 50) i n).
      { intros i n. apply shortfall_less. intros k _. rewrite BL. specialize (W3 k). lra. }
      apply (C71_design_day ex_hp_data (ex_hp "primary_no_recirc") e 5 60%Z e' r 2000 50 120 150 100 0 300 N); rewrite ?Eb, ?T; try assumption; try reflexivity; try discriminate.
      + intros ls [Y _]. discriminate Y.
      + left. reflexivity.
      + intros x I. cbn in I. repeat (destruct I as [<-|I]; [discriminate|]). destruct I.
      + unfold mains. rewrite Eb. reflexivity.
      + intros t x Y. cbn in Y. apply ok_inj in Y. subst x. reflexivity.
      + apply hp_gives. exact HF.
      + intros i n LI LN. eapply Qle_trans; [apply LE|exact (W2 i n LI LN)].
      + intros h _. change (ep_supply _) with 120. change (ep_storage _) with 150. change (ep_aq _) with (ep_aq (ex_hp "primary_no_recirc")). rewrite BL. specialize (W3 h). set (x := wanted ex_hp_building h) in *.
        assert (Z1 : x * (7 # 10) / 60 <= 2) by (apply qdiv_le_iff; [reflexivity|lra]). eapply Qle_trans; [apply Qplus_le_r; exact Z1|]. vm_compute. discriminate. }
    split; [exact (no_outage _ _ _ _ NV)|].
    pose proof (C91_plant_energy ex_hp_data (ex_hp "primary_no_recirc") e "3day" 5 60 e' r 4320 1 2000 50 50 0 3 N) as K. rewrite T, Eb in K.
    assert (G : heat_taken r 120 50 + heat_held (qz (Z.of_nat (length (sr_demand r))) * 0) 150 50 <= heat_held 2000 150 50 + 3 * (3412142 # 1000) * kwh_used r).
    { apply K; clear K; try assumption; try reflexivity; try discriminate.
      - left. reflexivity.
      - left. repeat split.
      - intros t x Y. cbn in Y. apply ok_inj in Y. subst x. split; discriminate.
      - intros di Y. cbn in Y. apply ok_inj in Y. subst di. split; discriminate.
      - intros t avg x Y. pose proof (hp_loads _ _ _ Y). lra.
      - apply hp_efficient. exact HF.
      - exact (no_outage _ _ _ _ NV). }
    unfold heat_held in G |- *. lra.
Qed.

(** Three days of the swing-tank system. *)
Example C91_swing_plant_case : exists e e' r, eng_new ex_hp_data (ex_hp "swing_tank") = Ok e /\ type_of (en_system e) = SwingTank /\
  eng_simulate e "3day" 5 60 = Ok (e', r) /\ sr_outage r = 0%Z /\
  heat_taken r 120 50 + loop_took r (loop_kbtuh 120 110 3)
  <= heat_held 2000 150 50 + 3 * (3412142 # 1000) * total_energy r + heat_held 80 128 (last_swing_temp r 128).
Proof.
  destruct (eng_new ex_hp_data (ex_hp "swing_tank")) as [e|er] eqn:N; [|vm_compute in N; discriminate].
  assert (X : type_of (en_system e) = SwingTank /\ hp_fitted (primary_heaters (en_system e)) /\ second_plant (en_system e) 80 20 /\
              forall v h, second_tank (en_system e) = Some (v, h) -> 0 < v /\ rated h /\ never_cools h).
  { vm_compute in N. injection N as <-. split; [reflexivity|]. split; [eexists; split; reflexivity|]. split; [eexists; split; reflexivity|].
    cbn [en_system second_tank]. intros v h TH. injection TH as <- <-. split; [reflexivity|]. split; [apply nominal_rated; discriminate|].
    intros oat top c Y. cbn in Y. injection Y as <-. discriminate. }
  destruct X as (T & HF & SP & S2).
  assert (NI : type_of (en_system e) <> InstantWH) by (rewrite T; discriminate).
  assert (Eb : en_building e = ex_hp_building) by exact (C67_building _ _ _ _ N eq_refl eq_refl).
  assert (PV : primary_volume (en_system e) = Some 2000) by exact (proj2 (proj2 (C52_parts _ _ _ N)) NI).
  destruct hp_windows as (W1 & W2 & W3).
  destruct (C65_completes ex_hp_data _ e "3day" 5 60 N) as (e' & r & SIM).
  - intros ls h [Y _]. discriminate Y.
  - rewrite Eb. split; [discriminate|]. split; [discriminate|]. eexists. split; [reflexivity|]. split; left; discriminate.
  - left. reflexivity.
  - rewrite T. discriminate.
  - intros _. exists 2000. split; [exact PV|reflexivity].
  - apply hp_rated. exact HF.
  - intros v h Y. destruct (S2 v h Y) as (A1 & A2 & _). split; assumption.
  - intros _ t iv x Y. rewrite Eb in Y. cbn in Y. apply ok_inj in Y. subst x. discriminate.
  - rewrite T. discriminate.
  - exists e, e', r. split; [reflexivity|]. split; [exact T|]. split; [exact SIM|].
    assert (NV : never_out 150 (qmin 2000 (2000 * (150 - 120) / (100 * (28 # 10)))) 5 r).
    { apply (C76_design_day ex_hp_data (ex_hp "swing_tank") e 5 60%Z e' r 2000 50 120 150 100 110 3 80 20 300 N); rewrite ?Eb; try assumption; try reflexivity; try discriminate.
      + intros ls [Y _]. discriminate Y.
      + split; discriminate.
      + intros x I. cbn in I. repeat (destruct I as [<-|I]; [discriminate|]). destruct I.
      + unfold mains. rewrite Eb. reflexivity.
      + intro t. exists 50. split; reflexivity.
      + apply hp_gives. exact HF.
      + intros h _. specialize (W3 h). set (x := wanted ex_hp_building h) in *.
        assert (Z1 : x / 60 <= 3) by (apply qdiv_le_iff; [reflexivity|lra]). eapply Qle_trans; [apply Qplus_le_r; exact Z1|]. vm_compute. discriminate. }
    split; [exact (no_outage _ _ _ _ NV)|]. destruct SP as (el & SP & _). destruct (S2 _ _ SP) as (_ & _ & NC).
    refine (C91_swing_plant_energy ex_hp_data (ex_hp "swing_tank") e "3day" 5 60 e' r 4320 1 2000 80 el 50 50 110 3 3 N T PV _ SP _ _ eq_refl eq_refl _ _ _ _ _ _ _ _ _ NC SIM (no_outage _ _ _ _ NV)); rewrite ?Eb; try reflexivity; try discriminate.
    + left. repeat split.
    + intros t x Y. cbn in Y. apply ok_inj in Y. subst x. split; discriminate.
    + intros di Y. cbn in Y. apply ok_inj in Y. subst di. split; discriminate.
    + exact hp_loads.
    + apply hp_efficient. exact HF.
Qed.
