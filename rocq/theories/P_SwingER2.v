(** C73: building a resistance trade-off system from parts or by sizing, its accessors and its figure. *)
From Verif Require Import Prelude M_StratifiedTank M_MixedTank M_EnergyTank M_Building M_Heater S_Heater M_Sizing S_Sizing L_Building L_Heater
  L_Sizing L_Sizing2 L_Sizing3 L_Sizing4 M_SimRun M_Step S_Step L_Step L_Step2 M_Swing S_Swing L_Swing L_Swing2 L_Swing3 L_Swing4 L_SwingER
  P_Swing P_SwingER M_MPRTP M_Engine M_EngineOut S_EngineOut L_Out P_Step4 M_SwingER2 S_SwingER2.
Open Scope Q_scope.

Lemma loop_loss_is w : sw_loss w == loop_loss (dh_supply (sw_dhw w)) (sw_return w) (sw_flow w).
Proof. reflexivity. Qed.

Lemma element_is supply c cap : c == cap -> resistance_element (swing_element supply (Some c)) supply cap.
Proof.
  intro E. assert (L24 : forall hour, (0 <= hour < 24)%Z -> wh_controls_for (swing_element supply (Some c)) hour =
    Ok (Some (mkControls (1 # 2) supply (1 # 2) (supply + deadband) (supply + deadband)))).
  { intros hour R. unfold wh_controls_for, swing_element. cbn [wh_schedule wh_map wh_new].
    assert (In hour (map Z.of_nat (seq 0 24))) as HI.
    { apply in_map_iff. exists (Z.to_nat hour). split; [lia|]. apply in_seq. lia. }
    cbn in HI. repeat (destruct HI as [<-|HI]; [reflexivity|]). destruct HI. }
  constructor.
  - exists c. split; [reflexivity|exact E].
  - reflexivity.
  - intros hour R. eexists. apply in_effect_iff; [lia|]. apply L24. exact R.
  - intros hour k H. assert (R : (0 <= hour)%Z) by (destruct H as (? & ? & ? & _ & _ & R & _); lia). apply in_effect_iff in H; [|exact R]. unfold wh_controls_for, swing_element in H. cbn [wh_schedule wh_map wh_new] in H.
    destruct (bind_ok _ _ _ H) as (key & EK & H1). apply ok_inj in H1. cbn [dict_get] in H1.
    destruct (String.eqb key "normal"); [|discriminate]. injection H1 as <-. repeat split; reflexivity.
Qed.

Lemma caps_ok oat storage inlet : forall hs caps, Forall2 (gives_at oat storage inlet) hs caps ->
  mapM (map_capacity oat storage inlet) hs = Ok caps.
Proof.
  intros hs caps F. induction F as [|h c hs caps (p & P & C) F IH]; [reflexivity|]. cbn [mapM]. unfold map_capacity at 1.
  rewrite P, C. cbn [bind]. rewrite IH. reflexivity.
Qed.

(** ** From parts *)

Theorem C73_components : forall hs tank sw initial b supply storage ret flow safety oat inlet caps,
  bd_design_oat b = Ok oat -> design_inlet b = Ok inlet -> Forall2 (gives_at oat storage inlet) hs caps ->
  0 < mx_vol sw -> 0 < initial -> inlet < supply -> supply <= storage -> length (bd_peak b) = 24%nat ->
  (forall x, In x (bd_peak b) -> 0 <= bd_daily b * x < 60 * mx_vol sw) ->
  let k := mkTank supply storage inlet (loop_loss supply ret flow) (mx_vol sw) initial in
  exists s w i gen l1 l2 worst er,
    er_from_components hs tank sw initial b supply storage ret flow safety = Ok (s, w) /\
    ws_heaters w = hs /\ ws_tank w = tank /\ ws_swing w = sw /\
    ws_supply w = supply /\ ws_storage w = storage /\ ws_return w = ret /\ ws_flow w = flow /\
    resistance_element (ws_element w) supply (initial + er) /\ get_er_kbtuh s = Ok er /\
    first_onset 24 (bd_peak b) i /\
    gen * 60 * btu_gal_f * (storage - inlet) == qsum caps * 1000 /\
    let demand := map (minute_demand (bd_daily b) (bd_peak b) i) (seq 0 two_days) in
    er_days k gen (st_vol tank) false supply 0 demand l1 /\
    er_days k gen (st_vol tank) false supply (st_vol tank) demand l2 /\
    (forall x, In x (l1 ++ l2) -> 0 <= x <= worst) /\ (worst == 0 \/ In worst (l1 ++ l2)) /\
    minute_btu er == safety * (mx_vol sw * btu_gal_f * worst) /\ (0 <= safety -> 0 <= er).
Proof.
  intros hs tank sw initial b supply storage ret flow safety oat inlet caps HO HI FC V0 B0 Hin Hst LP SH k.
  set (s0 := mkEr (mkSwing (mkDhw supply storage 24 1 None None None) ret flow (6 # 5) 1 None None None) safety None).
  assert (N0 : er_new supply storage ret flow (6 # 5) safety 24 1 = Ok s0) by reflexivity.
  set (s1 := er_adopt s0 (qsum caps) (st_vol tank) (mx_vol sw) initial).
  destruct (C46_er_closes_worst_shortfall s1 b inlet (qsum caps) (st_vol tank) (mx_vol sw) initial HI eq_refl eq_refl eq_refl eq_refl
    V0 B0 Hin Hst eq_refl LP SH) as (i & gen & l1 & l2 & worst & er & total & E & T & FO & G & D1 & D2 & A & O & MB & EN & _).
  exists (mkEr (sw_set_cap (er_base s1) total) (er_safety s1) (Some er)),
    (mkWsys hs tank supply storage ret flow sw (swing_element supply (Some total))), i, gen, l1, l2, worst, er.
  split.
  { unfold er_from_components. rewrite N0. cbn [bind]. rewrite HO. cbn [bind]. rewrite HI. cbn [bind]. rewrite (caps_ok _ _ _ _ _ FC). cbn [bind].
    fold s1. rewrite E. reflexivity. }
  cbn [ws_heaters ws_tank ws_swing ws_supply ws_storage ws_return ws_flow ws_element].
  repeat (split; [reflexivity|]). split; [apply element_is; exact T|]. split; [reflexivity|].
  split; [exact FO|]. split; [exact G|]. cbv zeta. split; [exact D1|]. split; [exact D2|]. split; [exact A|]. split; [exact O|]. split; [exact MB|exact EN].
Qed.
Print Assumptions C73_components.

(** A heater without a performance map is refused, whatever the rest. *)
Theorem C73_unrated_refused : forall hs tank sw initial b supply storage ret flow safety h s w,
  In h hs -> wh_pm h = None -> er_from_components hs tank sw initial b supply storage ret flow safety <> Ok (s, w).
Proof.
  intros hs tank sw initial b supply storage ret flow safety h s w I N H. unfold er_from_components in H.
  destruct (bind_ok _ _ _ H) as (s0 & _ & H1). destruct (bind_ok _ _ _ H1) as (oat & _ & H2). destruct (bind_ok _ _ _ H2) as (inlet & _ & H3).
  destruct (bind_ok _ _ _ H3) as (caps & EC & _). apply mapM_forall2 in EC. clear - EC I N. induction EC as [|x y l r X F IH]; [destruct I|].
  destruct I as [->|I]; [|exact (IH I)]. unfold map_capacity in X. rewrite N in X. discriminate.
Qed.
Print Assumptions C73_unrated_refused.

(** Such a system can be simulated: with heaters that are scheduled and rated at every condition and
    real tanks, the run of three days or a year completes. *)
Theorem C73_components_simulate : forall hs tank sw initial b supply storage ret flow safety oat inlet caps dur thr maxm,
  bd_design_oat b = Ok oat -> design_inlet b = Ok inlet -> Forall2 (gives_at oat storage inlet) hs caps ->
  0 < mx_vol sw -> 0 < initial -> inlet < supply -> supply <= storage -> length (bd_peak b) = 24%nat ->
  (forall x, In x (bd_peak b) -> 0 <= bd_daily b * x < 60 * mx_vol sw) -> 0 <= safety ->
  complete b -> Forall scheduled hs -> Forall rated hs -> 0 < st_vol tank -> 0 < st_slope tank ->
  (forall t iv x, bd_inlet b t iv = Ok x -> x <= supply) -> dur = "3day"%string \/ dur = "annual"%string ->
  exists s w w' r, er_from_components hs tank sw initial b supply storage ret flow safety = Ok (s, w) /\
    simulate_swing b w dur thr maxm = Ok (w', r).
Proof.
  intros hs tank sw initial b supply storage ret flow safety oat inlet caps dur thr maxm HO HI FC V0 B0 Hin Hst LP SH SF C FS FR V1 V2 IN D.
  destruct (C73_components hs tank sw initial b supply storage ret flow safety oat inlet caps HO HI FC V0 B0 Hin Hst LP SH)
    as (s & w & i & gen & l1 & l2 & worst & er & E & W1 & W2 & W3 & W4 & W5 & W6 & W7 & RE & _ & _ & _ & _ & _ & _ & _ & _ & EN).
  specialize (EN SF). destruct (re_cap _ _ _ RE) as (c & PM & CE).
  assert (EQ : exists c', ws_element w = swing_element supply (Some c')).
  { unfold er_from_components in E. destruct (bind_ok _ _ _ E) as (a1 & _ & E1). destruct (bind_ok _ _ _ E1) as (a2 & _ & E2). destruct (bind_ok _ _ _ E2) as (a3 & _ & E3).
    destruct (bind_ok _ _ _ E3) as (a4 & _ & E4). destruct (size_er _ b) as [s2 o]. destruct (bind_ok _ _ _ E4) as (a5 & _ & E5).
    apply ok_inj in E5. injection E5 as _ <-. cbn [ws_element] in *. destruct (sw_tm_cap (er_base s2)) as [c'|]; [exists c'; reflexivity|discriminate PM]. }
  destruct EQ as (c' & EQ). rewrite EQ in PM. injection PM as ->.
  destruct (C60_completes b w dur thr maxm C) as (w' & r & SM).
  - rewrite W1. exact FS.
  - rewrite W1. exact FR.
  - rewrite EQ. do 2 eexists. split; [reflexivity|]. split; [reflexivity|]. split; [apply Nat.le_refl|].
    intros key K. apply repeat_spec in K. subst key. eexists. reflexivity.
  - rewrite EQ. intros oa ou il. do 2 eexists. split; reflexivity.
  - rewrite W2. exact V1.
  - rewrite W2. exact V2.
  - rewrite W3. exact V0.
  - rewrite W4. exact IN.
  - exact D.
  - exists s, w, w', r. split; [exact E|exact SM].
Qed.
Print Assumptions C73_components_simulate.

(** ** By sizing *)

(** The plant is what sizing asked for: a primary heater and tank of the minimum capacity and volume of the
    plain swing system, its swing tank, and an element of the safety factor times the loop's loss plus the
    resistance addition. *)
Theorem C73_sized_parts : forall lib b supply storage ret flow tm_safety safety run defrost sched m slope fract b' s w,
  (if bd_is_annual b then bd_set_daily lib b else Ok b) = Ok b -> 0 <= bd_daily b ->
  er_from_size lib b supply storage ret flow tm_safety safety run defrost sched m slope fract = Ok (b', s, w) ->
  1 < tm_safety /\
  exists w0 w1 c v tv er h,
    sw_new supply storage ret flow tm_safety run defrost = Ok w0 /\
    swing_size lib w0 b sched m slope fract = (w1, b', Ok tt) /\
    dh_min_cap (sw_dhw w1) = Some c /\ dh_min_stor (sw_dhw w1) = Some v /\ sw_tm_vol w1 = Some tv /\
    ws_heaters w = [h] /\ wh_pm h = Some (PmNominal c) /\ wh_schedule h = sched /\ wh_map h = m /\ wh_active h = false /\
    st_vol (ws_tank w) = v /\ st_slope (ws_tank w) = slope /\ mx_vol (ws_swing w) = tv /\
    ws_supply w = supply /\ ws_storage w = storage /\ ws_return w = ret /\ ws_flow w = flow /\
    get_er_kbtuh s = Ok er /\ resistance_element (ws_element w) supply (tm_safety * loop_loss supply ret flow + er).
Proof.
  intros lib b supply storage ret flow tm_safety safety run defrost sched m slope fract b' s w NA D0 H. unfold er_from_size in H.
  destruct (bind_ok _ _ _ H) as (s0 & N0 & H1). unfold er_new in N0. destruct (bind_ok _ _ _ N0) as (w0 & NW & N1). apply ok_inj in N1. subst s0.
  assert (TS : 1 < tm_safety). { unfold sw_new in NW. destruct (Qle_bool tm_safety 1) eqn:Q; [discriminate|]. qbool. exact Q. }
  split; [exact TS|].
  unfold swing_er_size in H1. cbn [er_base er_safety er_cap] in H1. destruct (swing_size lib w0 b sched m slope fract) as [[w1 b1] o] eqn:SZ.
  destruct o as [u|e]; [|discriminate]. unfold size_er in H1. cbn [er_base er_safety] in H1.
  destruct (er_element w1 safety b1) as [[er total]|e] eqn:EE; [|discriminate]. cbn [bind er_base] in H1.
  change (dh_min_cap (sw_dhw (sw_set_cap w1 total))) with (dh_min_cap (sw_dhw w1)) in H1.
  change (dh_min_stor (sw_dhw (sw_set_cap w1 total))) with (dh_min_stor (sw_dhw w1)) in H1.
  change (sw_tm_vol (sw_set_cap w1 total)) with (sw_tm_vol w1) in H1.
  destruct (dh_min_cap (sw_dhw w1)) as [c|] eqn:E1; [|discriminate]. destruct (dh_min_stor (sw_dhw w1)) as [v|] eqn:E2; [|discriminate].
  destruct (sw_tm_vol w1) as [tv|] eqn:E3; [|discriminate]. apply ok_inj in H1. injection H1 as <- <- <-.
  destruct (C45_smallest_adequate lib w0 b b sched m slope fract w1 b1 u NA D0 SZ) as (z & ca & cap & TV & _ & TC & _ & _ & _ & _ & CE).
  exists w0, w1, c, v, tv, er, (wh_new (Some (PmNominal c)) sched m). destruct u.
  split; [exact NW|]. split; [exact SZ|]. split; [exact E1|]. split; [exact E2|]. split; [exact E3|].
  cbn [ws_heaters ws_tank ws_swing ws_supply ws_storage ws_return ws_flow ws_element mx_vol].
  repeat (split; [reflexivity|]). apply element_is. unfold sw_set_cap. cbn [sw_tm_cap].
  unfold er_element in EE. destruct (bind_ok _ _ _ EE) as (inlet & _ & EE1). rewrite E1, E2 in EE1. destruct (bind_ok _ _ _ EE1) as (k & EK & EE2).
  destruct (bind_ok _ _ _ EE2) as (dem & _ & EE3). destruct (bind_ok _ _ _ EE3) as (wst & _ & EE4). apply ok_inj in EE4. injection EE4 as X1 X2.
  unfold env_of in EK. rewrite E3, TC in EK. apply ok_inj in EK.
  assert (TT : total == cap + er) by (rewrite <- X2, <- X1, <- EK; reflexivity).
  assert (LS : sw_loss w0 = loop_loss supply ret flow /\ sw_safety w0 = tm_safety).
  { unfold sw_new in NW. destruct (Qle_bool tm_safety 1); [discriminate|]. apply ok_inj in NW. rewrite <- NW. split; reflexivity. }
  destruct LS as [LS SS]. rewrite LS, SS in CE. rewrite TT, CE. reflexivity.
Qed.
Print Assumptions C73_sized_parts.

(** Sizing such a system and simulating it: both succeed for a daily building without load shifting, if the
    plant it asks for has any storage. *)
Theorem C73_sized_simulates : forall lib b supply storage ret flow tm_safety safety run defrost sched m slope fract inlet factor dur thr maxm,
  let d := mkDhw supply storage run defrost None None None in
  bd_is_annual b = false -> no_load_shift (Some sched) (Some m) ->
  design_inlet b = Ok inlet -> strat_factor d (Some m) slope inlet = Ok factor -> 0 < factor ->
  inlet < supply -> supply <= storage -> 0 < run -> 0 < defrost -> 1 < tm_safety -> 0 < loop_loss supply ret flow ->
  length (bd_peak b) = 24%nat -> (forall x, In x (bd_peak b) -> 0 <= x) -> 0 < bd_daily b ->
  loop_loss supply ret flow * 1000 <= 1250 * 100 * w_to_kbtuh ->
  (forall x, In x (bd_peak b) -> bd_daily b * x <= 1250 * 60) ->
  (forall x z, In x (bd_peak b) -> In z swing_table -> ~ bd_daily b * x == qz z * 60) -> 0 <= safety ->
  exists s w, er_from_size lib b supply storage ret flow tm_safety safety run defrost (Some sched) (Some m) slope fract = Ok (b, s, w) /\
    (0 < st_vol (ws_tank w) -> 0 < slope -> complete b -> (24 <= length sched)%nat -> (forall k, In k sched -> exists c, dict_get m k = Some c) ->
     (forall t iv x, bd_inlet b t iv = Ok x -> x <= supply) -> dur = "3day"%string \/ dur = "annual"%string ->
     exists w' r, simulate_swing b w dur thr maxm = Ok (w', r)).
Proof.
  intros lib b supply storage ret flow tm_safety safety run defrost sched m slope fract inlet factor dur thr maxm d AN NL HI SF F0 Hin Hst R0 DF TS LS LP P0 D0 CL CP NEQ ES.
  set (w0 := mkSwing d ret flow tm_safety 1 None None None).
  assert (NW : sw_new supply storage ret flow tm_safety run defrost = Ok w0).
  { unfold sw_new. destruct (Qle_bool tm_safety 1) eqn:Q; qbool; [lra|reflexivity]. }
  destruct (C46_sizing_succeeds lib (mkEr w0 safety None) b (Some sched) (Some m) slope fract inlet factor AN NL HI SF) as (s & er & SZ & EC & EN & t & TC & TE);
    [clear - F0; intro; lra|exact Hin|exact Hst|exact R0|clear - DF; cbn; intro; lra|exact TS|exact LS|exact LP|exact P0|exact D0|exact CL|exact CP|exact NEQ|exact ES|].
  destruct (er_from_size lib b supply storage ret flow tm_safety safety run defrost (Some sched) (Some m) slope fract) as [[[b' s'] w]|e] eqn:EF.
  - assert (b' = b) as ->.
    { unfold er_from_size, er_new in EF. rewrite NW in EF. cbn [bind] in EF. rewrite SZ in EF. cbn [bind] in EF.
      destruct (dh_min_cap (sw_dhw (er_base s))); [|discriminate]. destruct (dh_min_stor (sw_dhw (er_base s))); [|discriminate].
      destruct (sw_tm_vol (er_base s)); [|discriminate]. apply ok_inj in EF. injection EF as -> _ _. reflexivity. }
    exists s', w. split; [reflexivity|]. intros V0 SL C L24 KM INL D.
    assert (NA : (if bd_is_annual b then bd_set_daily lib b else Ok b) = Ok b) by (rewrite AN; reflexivity).
    destruct (C73_sized_parts _ _ _ _ _ _ _ _ _ _ _ _ _ _ _ _ _ NA (Qlt_le_weak _ _ D0) EF) as
      (_ & w0' & w1 & c & v & tv & er' & h & NW' & SZ' & E1 & _ & E3 & H1 & H2 & H3 & H4 & _ & T1 & T2 & T3 & W4 & _ & _ & _ & GE & RE).
    assert (TVP : 0 < mx_vol (ws_swing w)).
    { destruct (C45_smallest_adequate lib w0' b b (Some sched) (Some m) slope fract w1 b tt NA (Qlt_le_weak _ _ D0) SZ') as (z & ca & cp & TV & _ & _ & IN & _).
      rewrite T3. rewrite E3 in TV. injection TV as ->. cbn in IN. repeat (destruct IN as [<-|IN]; [reflexivity|]). destruct IN. }
    assert (ER : er' = er).
    { unfold er_from_size, er_new in EF. rewrite NW in EF. cbn [bind] in EF. rewrite SZ in EF. cbn [bind] in EF.
      destruct (dh_min_cap (sw_dhw (er_base s))); [|discriminate]. destruct (dh_min_stor (sw_dhw (er_base s))); [|discriminate].
      destruct (sw_tm_vol (er_base s)); [|discriminate]. apply ok_inj in EF. injection EF as <- _. unfold get_er_kbtuh in GE. rewrite EC in GE. apply ok_inj in GE. congruence. }
    subst er'.
    assert (EQ : exists c', ws_element w = swing_element supply (Some c') /\ 0 <= c').
    { destruct (re_cap _ _ _ RE) as (c' & PM & CE). exists c'. split.
      - unfold er_from_size, er_new in EF. rewrite NW in EF. cbn [bind] in EF. rewrite SZ in EF. cbn [bind] in EF.
        destruct (dh_min_cap (sw_dhw (er_base s))); [|discriminate]. destruct (dh_min_stor (sw_dhw (er_base s))); [|discriminate].
        destruct (sw_tm_vol (er_base s)); [|discriminate]. apply ok_inj in EF. injection EF as _ EW. rewrite <- EW in PM |- *. cbn [ws_element] in *.
        rewrite TC in *. injection PM as ->. reflexivity.
      - rewrite CE. assert (0 < tm_safety * loop_loss supply ret flow) by (apply Qmult_lt_0_compat; lra). lra. }
    destruct EQ as (c' & EQ & C0).
    assert (w0' = w0) as -> by congruence.
    assert (CP0 : 0 <= c).
    { destruct (C44_sized_for_every_probed_day lib w0 b b (Some sched) (Some m) slope fract w1 b tt inlet factor NA NL SZ' HI SF Hin Hst R0 TS (Qlt_le_weak _ _ LS) LP P0 D0)
        as (vol & cp & V & C1 & _ & _ & _ & E1' & Z).
      { intros x vol X EV. destruct (C45_smallest_adequate lib w0 b b (Some sched) (Some m) slope fract w1 b tt NA (Qlt_le_weak _ _ D0) SZ') as (z & ca & cp & TV & _ & _ & IN & _).
        rewrite EV in TV. injection TV as ->. exact (NEQ x z X IN). }
      cbv zeta in Z. destruct Z as ([M0 _] & QC & _). assert (C1 = c) as -> by congruence.
      apply Qnot_lt_le. intro L. assert (0 < (- c) * 1000 * defrost * run) by (repeat apply Qmult_lt_0_compat; lra).
      assert (0 <= bd_daily b * sw_eff_mix w1 * rho_cp * (storage - inlet)).
      { apply Qmult_le_0_compat; [|lra]. apply Qmult_le_0_compat; [|discriminate]. apply Qmult_le_0_compat; lra. }
      cbn [w0 d sw_dhw dh_defrost dh_run dh_storage] in QC. lra. }
    apply (C60_completes b w dur thr maxm C).
    + rewrite H1. constructor; [|constructor]. exists sched, m. auto.
    + rewrite H1. constructor; [|constructor]. intros oa ou il. unfold wh_capacity, wh_power. rewrite H2. do 2 eexists. split; reflexivity.
    + rewrite EQ. do 2 eexists. split; [reflexivity|]. split; [reflexivity|]. split; [apply Nat.le_refl|].
      intros key K. apply repeat_spec in K. subst key. eexists. reflexivity.
    + rewrite EQ. intros oa ou il. do 2 eexists. split; reflexivity.
    + exact V0.
    + rewrite T2. exact SL.
    + exact TVP.
    + rewrite W4. exact INL.
    + exact D.
  - exfalso. unfold er_from_size, er_new in EF. rewrite NW in EF. cbn [bind] in EF. rewrite SZ in EF. cbn [bind] in EF.
    pose proof SZ as SZ'. unfold swing_er_size in SZ'. cbn [er_base er_safety er_cap] in SZ'. destruct (swing_size lib w0 b (Some sched) (Some m) slope fract) as [[w1 b1] o] eqn:SW.
    destruct o as [u|x]; [|discriminate]. destruct (swing_size_inv _ _ _ _ _ _ _ _ _ _ SW) as (b1' & inlet' & sx & mo & rv & f & stor & cp & _ & _ & _ & _ & _ & _ & _ & cap' & stor' & mix' & EX & _).
    destruct (C45_smallest_adequate lib w0 b b (Some sched) (Some m) slope fract w1 b1 u) as (z & ca & cp' & TV & _); [rewrite AN; reflexivity|lra|exact SW|].
    destruct (size_er (mkEr w1 safety None) b1) as [e2 o2] eqn:SE. injection SZ' as -> -> ->. destruct (size_er_state _ _ _ _ SE) as (c1 & c2 & ES').
    rewrite ES' in EF. cbn [er_base sw_dhw sw_tm_vol] in EF. rewrite TV in EF. rewrite EX in EF. cbn [sw_dhw dh_min_cap dh_min_stor] in EF. discriminate EF.
Qed.
Print Assumptions C73_sized_simulates.

(** ** Accessors *)

(** The accessors refuse before sizing, and only then; the two units agree. *)
Theorem C73_accessors : forall s,
  (er_cap s = None -> get_er_kbtuh s = Err RuntimeError /\ get_er_kw s = Err RuntimeError) /\
  (forall e, get_er_kbtuh s = Ok e -> exists kw, get_er_kw s = Ok kw /\ kw * w_to_kbtuh == e).
Proof.
  intro s. unfold get_er_kw, get_er_kbtuh. destruct (er_cap s) as [e|]; split; try discriminate.
  - intros e' H. apply ok_inj in H. subst e'. exists (e / w_to_kbtuh). split; [reflexivity|]. apply qdiv_mul. discriminate.
  - auto.
Qed.
Print Assumptions C73_accessors.

(** A new system has no element yet. *)
Theorem C73_not_sized : forall supply storage ret flow tm_safety safety run defrost s,
  er_new supply storage ret flow tm_safety safety run defrost = Ok s -> get_er_kbtuh s = Err RuntimeError.
Proof.
  intros supply storage ret flow tm_safety safety run defrost s H. unfold er_new in H. destruct (bind_ok _ _ _ H) as (w & _ & H1).
  apply ok_inj in H1. subst s. reflexivity.
Qed.
Print Assumptions C73_not_sized.

(** ** The figure *)

(** The figure draws element capacity against the percentage of the demand; the system and building are as
    before; the percentages are 10 apart and end at 120; and if 100 percent is among them, the marked point is
    the one at 100 percent, with the capacity the system has. *)
Theorem C73_figure : forall s b add s' b' g,
  er_figure s b add = (s', b', Ok g) ->
  s' = s /\ b' = b /\
  exists pct kw i, draws g pct kw i /\ pct <> [] /\
    (forall j, (j < length pct)%nat -> nth j pct 0 == 120 - 10 * qz (Z.of_nat (length pct - 1 - j))) /\
    ((3 <= length pct)%nat -> exists x y total, point_at pct kw i x y /\ x == 100 /\
       sw_tm_cap (er_base s) = Some total /\ y = qz (py_round (total / w_to_kbtuh))).
Proof.
  intros s b add s' b' g H. unfold er_figure in H. destruct (er_sized_points s b add) as [[s1 b1] out] eqn:E. destruct out as [[[kw pct] i]|e]; [|discriminate].
  cbn [bind] in H. apply pair_equal_spec in H. destruct H as [H1 H2]. apply pair_equal_spec in H1. destruct H1 as [-> ->]. apply ok_inj in H2. subst g.
  destruct (C46_points_restore _ _ _ _ _ _ E) as [-> ->]. split; [reflexivity|]. split; [reflexivity|].
  destruct (C46_points_shape _ _ _ _ _ _ _ _ E) as (L & NE & P & X). exists pct, kw, i. split; [apply figure_draws; congruence|]. split; [exact NE|]. split; [exact P|].
  intro L3. destruct (X (or_introl L3)) as (I0 & I1 & total & T1 & T2).
  assert (IL : (Z.to_nat i < length pct)%nat).
  { apply Nat.nle_gt. intro G. rewrite nth_overflow in I1 by exact G. vm_compute in I1. discriminate I1. }
  exists (nth (Z.to_nat i) pct 0), (nth (Z.to_nat i) kw 0), total. split; [split; [exact I0|]; split; apply nth_error_nth'; [exact IL|rewrite L; exact IL]|].
  split; [exact I1|]. split; [exact T1|exact T2].
Qed.
Print Assumptions C73_figure.

(** The sweep of a sized system succeeds if the draws of 120 percent of the demand still fit its swing tank. *)
Definition sweepable (s : swing_er) (b : building) (inlet vol base : Q) : Prop :=
  design_inlet b = Ok inlet /\ (exists c, dh_min_cap (sw_dhw (er_base s)) = Some c) /\ (exists v, dh_min_stor (sw_dhw (er_base s)) = Some v) /\
  sw_tm_vol (er_base s) = Some vol /\ 0 < vol /\ 0 < base /\ inlet < dh_supply (sw_dhw (er_base s)) /\
  dh_supply (sw_dhw (er_base s)) <= dh_storage (sw_dhw (er_base s)) /\ 0 < dh_run (sw_dhw (er_base s)) /\ length (bd_peak b) = 24%nat.

Lemma points_total vol base total add daily inlet : forall is_ s b acc start,
  sweepable s b inlet vol base -> (forall i, In i is_ -> forall x, In x (bd_peak b) -> 0 <= daily * (i / 100) * x < 60 * vol) ->
  exists s' b' r, er_points s b daily base total add is_ acc start = (s', b', Ok r).
Proof.
  induction is_ as [|i is_ IH]; intros s b acc start SW FIT; cbn [er_points].
  - do 3 eexists. reflexivity.
  - assert (FIT' : forall j, In j is_ -> forall x, In x (bd_peak b) -> 0 <= daily * (j / 100) * x < 60 * vol) by (intros j J; apply FIT; right; exact J).
    destruct (Qeq_bool i 100); [exact (IH _ _ _ _ SW FIT')|].
    pose proof SW as (HI & (c & EC) & (v & EV) & TV & V0 & B0 & IN & ST & RN & LP).
    set (b1 := bd_set_magnitude b (daily * (i / 100))). set (s1 := mkEr (sw_set_cap (er_base s) base) add None).
    destruct (C46_er_closes_worst_shortfall s1 b1 inlet c v vol base HI EC EV TV eq_refl V0 B0 IN ST RN LP) as (i0 & gen & l1 & l2 & w & er & tt' & E & _).
    { intros x X. exact (FIT i (or_introl eq_refl) x X). }
    rewrite E. cbn [er_base er_safety er_cap sw_tm_cap sw_set_cap]. destruct (qltb 0 er).
    + apply IH; [|exact FIT']. exact (conj HI (conj (ex_intro _ c EC) (conj (ex_intro _ v EV) (conj TV (conj V0 (conj B0 (conj IN (conj ST (conj RN LP))))))))).
    + do 3 eexists. reflexivity.
Qed.

Theorem C73_figure_exists : forall s b add inlet cap full vol total er,
  let d := sw_dhw (er_base s) in
  design_inlet b = Ok inlet -> dh_min_cap d = Some cap -> dh_min_stor d = Some full -> sw_tm_vol (er_base s) = Some vol ->
  sw_tm_cap (er_base s) = Some total -> get_er_kbtuh s = Ok er -> 0 < er -> er < total -> 0 < vol ->
  inlet < dh_supply d -> dh_supply d <= dh_storage d -> 0 < dh_run d -> length (bd_peak b) = 24%nat ->
  (forall x, In x (bd_peak b) -> 0 <= bd_daily b * x /\ bd_daily b * x * 120 / 100 < 60 * vol) ->
  exists g, er_figure s b add = (s, b, Ok g).
Proof.
  intros s b add inlet cap full vol total er d HI EC EF EV ET GE E0 ET0 V0 IN ST RN LP FIT.
  assert (EE : er_cap s = Some er). { unfold get_er_kbtuh in GE. destruct (er_cap s); [|discriminate]. apply ok_inj in GE. congruence. }
  destruct (points_total vol (total - er) total add (bd_daily b) inlet er_fractions s b [] 0%nat) as (s' & b' & [pts st] & P).
  { refine (conj HI (conj (ex_intro _ cap EC) (conj (ex_intro _ full EF) (conj EV (conj V0 (conj _ (conj IN (conj ST (conj RN LP))))))))). lra. }
  { intros i I x X. destruct (FIT x X) as [F1 F2].
    assert (B : 0 <= i <= 120). { vm_compute in I. repeat (destruct I as [<-|I]; [split; discriminate|]). destruct I. }
    assert (Q1 : bd_daily b * (i / 100) * x == bd_daily b * x * i * (1 # 100)) by field.
    assert (Q2 : bd_daily b * x * 120 / 100 == bd_daily b * x * 120 * (1 # 100)) by field. rewrite Q2 in F2. rewrite Q1.
    assert (0 <= bd_daily b * x * i) by (apply Qmult_le_0_compat; lra). assert (0 <= bd_daily b * x * (120 - i)) by (apply Qmult_le_0_compat; lra).
    set (u := bd_daily b * x) in *. clearbody u. split; lra. }
  assert (EP : exists s2 b2 r, er_sized_points s b add = (s2, b2, Ok r)).
  { unfold er_sized_points. rewrite EE, ET. destruct (Qle_bool er 0) eqn:Q; qbool; [lra|]. rewrite P. do 3 eexists. reflexivity. }
  destruct EP as (s2 & b2 & r & EP). destruct (C46_points_restore _ _ _ _ _ _ EP) as [-> ->].
  unfold er_figure. rewrite EP. destruct r as [[kw pct] i]. eexists. reflexivity.
Qed.
Print Assumptions C73_figure_exists.

(** When the sweep stops at 120 percent, the figure marks that point as the system's. *)
Theorem C73_figure_refuted : exists kw, let g := figure_of [120] [kw] 0 in
  er_figure er_small sw_building 0 = (er_small, sw_building, Ok g) /\ fg_marks g = [(120, kw, true)] /\ fg_active g = 0%Z.
Proof.
  destruct C46_points_index_refuted as (kw & E). exists kw. unfold er_figure. rewrite E. split; [reflexivity|]. split; reflexivity.
Qed.
Print Assumptions C73_figure_refuted.

(** ** A case *)

(** An undersized plant: a 20 kBTU/h heater, 100 gallons of storage and a 50 gallon swing tank. *)
Definition ex_hs : list heater :=
  [wh_new (Some (PmNominal 20)) (Some (repeat "normal"%string 24)) (Some [("normal"%string, mkControls (4 # 10) 120 (1 # 10) 140 150)])].
Example C73_case : exists s w er, er_from_components ex_hs (st_new 100 2) (mkMixed 50 0 0) 30 sw_building 120 150 115 6 1 = Ok (s, w) /\
  get_er_kbtuh s = Ok er /\ 0 <= er /\ (exists w' r, simulate_swing sw_building w "3day" 1 60 = Ok (w', r)).
Proof.
  assert (CG : Forall2 (gives_at (Some 30) 150 50) ex_hs [20]) by (constructor; [|constructor]; eexists; split; reflexivity).
  assert (FIT : forall x, In x (bd_peak sw_building) -> 0 <= bd_daily sw_building * x < 60 * mx_vol (mkMixed 50 0 0)).
  { intros x X. unfold sw_building, sw_shape in X. cbn in X. repeat (destruct X as [<-|X]; [split; [discriminate|reflexivity]|]). destruct X. }
  destruct (C73_components ex_hs (st_new 100 2) (mkMixed 50 0 0) 30 sw_building 120 150 115 6 1 (Some 30) 50 [20] eq_refl eq_refl CG
    eq_refl eq_refl eq_refl) as (s & w & i & gen & l1 & l2 & wst & er & E & _ & _ & _ & _ & _ & _ & _ & _ & GE & _ & _ & _ & _ & _ & _ & _ & EN); [discriminate|reflexivity|exact FIT|].
  exists s, w, er. split; [exact E|]. split; [exact GE|]. split; [apply EN; discriminate|].
  destruct (C73_components_simulate ex_hs (st_new 100 2) (mkMixed 50 0 0) 30 sw_building 120 150 115 6 1 (Some 30) 50 [20] "3day" 1 60 eq_refl eq_refl CG
    eq_refl eq_refl eq_refl) as (s' & w1 & w' & r & E' & SM).
  - discriminate.
  - reflexivity.
  - exact FIT.
  - discriminate.
  - split; [discriminate|]. split; [discriminate|]. eexists. split; [reflexivity|]. split; left; discriminate.
  - constructor; [|constructor]. do 2 eexists. split; [reflexivity|]. split; [reflexivity|]. split; [apply Nat.le_refl|].
    intros k I. apply repeat_spec in I. subst k. eexists. reflexivity.
  - constructor; [|constructor]. intros oa ou il. do 2 eexists. split; reflexivity.
  - reflexivity.
  - reflexivity.
  - intros t iv x X. unfold bd_inlet, sw_building in X. cbn in X. apply ok_inj in X. subst x. discriminate.
  - left. reflexivity.
  - rewrite E in E'. apply ok_inj in E'. injection E' as <- <-. exists w', r. exact SM.
Qed.
