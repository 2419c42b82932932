(** Theorems added after a further round of mutation testing. *)
From Verif Require Import Prelude M_StratifiedTank M_EnergyTank S_EnergyTank L_EnergyTank L_Slug M_Building M_Heater S_Heater M_Sizing S_Sizing
  S_Integral L_Integral L_Building L_Sizing2 L_Sizing3 L_Sizing4 M_SimRun M_Step M_Swing M_MPRTP M_Session M_EngineOut S_CaGpd M_CaGpd L_CaGpd S_MPRTP2 S_Tighten2.
From Verif Require Import P_EnergyTank P_Sizing P_Sizing2 P_Boost P_Swing P_SwingLS.
Open Scope Q_scope.

(** ** C39: the share of the tank a setting keeps above supply temperature *)

Definition ramp_sum (u : Q) : Q := if Qle_bool u 0 then 0 else if Qle_bool u 1 then u * u * (1 # 2) else u - (1 # 2).

Lemma ramp_bounds x y : x <= y ->
  qmax 0 (qmin 1 x) * (y - x) <= ramp_sum y - ramp_sum x /\ ramp_sum y - ramp_sum x <= qmax 0 (qmin 1 y) * (y - x).
Proof.
  intro L.
  assert (C : forall u, (u <= 0 /\ qmax 0 (qmin 1 u) == 0 /\ ramp_sum u == 0) \/ (0 < u /\ u <= 1 /\ qmax 0 (qmin 1 u) == u /\ ramp_sum u == u * u * (1 # 2)) \/
    (1 < u /\ qmax 0 (qmin 1 u) == 1 /\ ramp_sum u == u - (1 # 2))).
  { intro u. unfold ramp_sum. destruct (qmin_spec 1 u) as [[X ->]|[X ->]].
    - destruct (Qle_bool u 0) eqn:A; qbool; [lra|]. destruct (Qle_bool u 1) eqn:B; qbool.
      + right. left. split; [lra|]. split; [exact B|]. split; [destruct (qmax_spec 0 1) as [[Y ->]|[Y ->]]; lra|reflexivity].
      + right. right. split; [exact B|]. split; [destruct (qmax_spec 0 1) as [[Y ->]|[Y ->]]; lra|reflexivity].
    - destruct (Qle_bool u 0) eqn:A; qbool.
      + left. split; [exact A|]. split; [destruct (qmax_spec 0 u) as [[Y ->]|[Y ->]]; lra|reflexivity].
      + right. left. split; [exact A|]. split; [lra|]. split; [destruct (qmax_spec 0 u) as [[Y ->]|[Y ->]]; lra|].
        destruct (Qle_bool u 1) eqn:B; qbool; [reflexivity|lra]. }
  destruct (C x) as [(X1 & X2 & X3)|[(X0 & X1 & X2 & X3)|(X1 & X2 & X3)]]; destruct (C y) as [(Y1 & Y2 & Y3)|[(Y0 & Y1 & Y2 & Y3)|(Y1 & Y2 & Y3)]];
    rewrite X2, X3, Y2, Y3; split; nra.
Qed.

(** What a setting keeps: with the ramp from the sensor reaching storage temperature inside the tank, the share
    is the surplus above supply temperature summed over the whole tank. *)
Theorem C39_share_is_surplus : forall s on_fract on_temp slope x,
  0 < slope -> 0 <= on_fract -> on_temp <= dh_supply s -> dh_supply s < dh_storage s ->
  on_fract * 100 + (dh_storage s - on_temp) / slope <= 100 ->
  strat_pct s on_fract on_temp slope = Ok x ->
  is_mean (surplus_at (on_fract * 100) on_temp slope (dh_supply s) (dh_storage s)) 0 100 x.
Proof.
  intros s onf ont slope x Hm Hf Ho Hs Ht H. unfold strat_pct, strat_factor_on in H. rewrite !qdiv_ok in H by lra. cbn [bind] in H.
  set (sup := dh_supply s) in *. set (sto := dh_storage s) in *. set (dt := sto - sup) in *. set (w := dt / slope).
  assert (W0 : 0 < w) by (apply qdiv_pos; unfold dt; lra).
  assert (E1 : (sto - ont) / slope == (sup - ont) / slope + w) by (unfold w, dt; field; lra).
  assert (S0 : 0 <= (sup - ont) / slope) by (apply qdiv_nonneg; lra).
  set (a := onf * 100 + (sup - ont) / slope).
  assert (A100 : a + w <= 100) by (unfold a; lra).
  rewrite qdiv_ok in H. 2: { intro Z. assert (0 < (100 - onf * 100) * dt) by (apply qmul_pos; unfold dt; [unfold a in A100; lra|lra]). lra. }
  cbn [bind] in H. apply ok_inj in H.
  assert (EX : x * 100 == (100 - (a + w)) + w * (1 # 2)).
  { rewrite <- H. assert (M1 : qmin (onf * 100 + (sto - ont) / slope) 100 == a + w) by (unfold a; destruct (qmin_spec (onf * 100 + (sto - ont) / slope) 100) as [[X ->]|[X ->]]; lra).
    assert (M2 : qmax (onf * 100 + (sup - ont) / slope) (onf * 100) == a) by (unfold a; destruct (qmax_spec (onf * 100 + (sup - ont) / slope) (onf * 100)) as [[X ->]|[X ->]]; lra).
    rewrite M1, M2. field. split; unfold dt; [lra|]. unfold a in A100. lra. }
  unfold is_mean. apply is_integral_comp with (x := w * ramp_sum ((100 - a) / w) - w * ramp_sum ((0 - a) / w)).
  { assert (R1 : ramp_sum ((100 - a) / w) == (100 - a) / w - (1 # 2)).
    { assert (1 <= (100 - a) / w) by (apply qle_div_iff; [exact W0|lra]). unfold ramp_sum. destruct (Qle_bool _ 0) eqn:A; qbool; [lra|].
      destruct (Qle_bool ((100 - a) / w) 1) eqn:B; qbool; [|reflexivity]. assert (Z : (100 - a) / w == 1) by lra. rewrite Z. reflexivity. }
    assert (R2 : ramp_sum ((0 - a) / w) == 0).
    { assert ((0 - a) / w <= 0) by (apply qdiv_le_iff; [exact W0|unfold a; nra]). unfold ramp_sum. destruct (Qle_bool _ 0) eqn:A; qbool; [reflexivity|lra]. }
    rewrite R1, R2. assert (W1 : w * ((100 - a) / w) == 100 - a) by (field; lra). setoid_replace (x * (100 - 0)) with (x * 100) by ring. rewrite EX. nra. }
  apply (integral_of_antiderivative _ (fun h => w * ramp_sum ((h - a) / w))). intros h k H1 H2 H3.
  assert (SP : forall z, surplus_at (onf * 100) ont slope sup sto z == qmax 0 (qmin 1 ((z - a) / w))).
  { intro z. unfold surplus_at, trigger_profile. assert (DT : 0 < sto - sup) by lra.
    assert (EU : (z - a) / w == (ont + (z - onf * 100) * slope - sup) / (sto - sup)) by (unfold a, w, dt; field; lra).
    destruct (qmin_spec sto (ont + (z - onf * 100) * slope)) as [[X ->]|[X ->]].
    - assert (U1 : 1 <= (z - a) / w) by (rewrite EU; apply qle_div_iff; lra).
      assert (V1 : (sto - sup) / (sto - sup) == 1) by (field; lra).
      destruct (qmin_spec 1 ((z - a) / w)) as [[Y EY]|[Y EY]]; rewrite EY.
      + destruct (qmax_spec 0 ((sto - sup) / (sto - sup))) as [[Y1 ->]|[Y1 ->]]; destruct (qmax_spec 0 1) as [[Y2 ->]|[Y2 ->]]; lra.
      + destruct (qmax_spec 0 ((sto - sup) / (sto - sup))) as [[Y1 ->]|[Y1 ->]]; destruct (qmax_spec 0 ((z - a) / w)) as [[Y2 ->]|[Y2 ->]]; lra.
    - assert (U1 : (z - a) / w <= 1) by (rewrite EU; apply qdiv_le_iff; lra). rewrite <- EU.
      destruct (qmin_spec 1 ((z - a) / w)) as [[Y EY]|[Y EY]]; rewrite EY; [|reflexivity].
      assert (Z1 : (z - a) / w == 1) by lra.
      destruct (qmax_spec 0 ((z - a) / w)) as [[Y1 ->]|[Y1 ->]]; destruct (qmax_spec 0 1) as [[Y2 ->]|[Y2 ->]]; lra. }
  rewrite !SP. assert (LE : (h - a) / w <= (k - a) / w) by (apply qdiv_le_iff; [exact W0|]; assert (Z : (k - a) / w * w == k - a) by (field; lra); lra).
  destruct (ramp_bounds _ _ LE) as [B1 B2].
  assert (ED : k - h == w * ((k - a) / w - (h - a) / w)) by (field; lra). rewrite ED.
  set (u := (h - a) / w) in *. set (v := (k - a) / w) in *. set (cu := qmax 0 (qmin 1 u)) in *. set (cv := qmax 0 (qmin 1 v)) in *.
  split; nra.
Qed.
Print Assumptions C39_share_is_surplus.

(** Where the ramp leaves the tank below storage temperature, the share is too large: here twice the surplus. *)
Theorem C39_share_of_long_ramp_refuted : exists s on_fract on_temp slope x y,
  0 < slope /\ 0 <= on_fract /\ on_temp <= dh_supply s /\ dh_supply s < dh_storage s /\
  strat_pct s on_fract on_temp slope = Ok x /\
  is_mean (surplus_at (on_fract * 100) on_temp slope (dh_supply s) (dh_storage s)) 0 100 y /\ y * 2 == x.
Proof.
  exists (mkDhw 120 140 16 1 None None None), (3 # 5), 120, (1 # 4), (40000 # 200000), (1 # 10). cbn [dh_supply dh_storage].
  split; [reflexivity|]. split; [discriminate|]. split; [discriminate|]. split; [reflexivity|]. split; [vm_compute; reflexivity|]. split; [|reflexivity].
  unfold is_mean. apply is_integral_comp with (x := 80 * ramp_sum ((100 - 60) / 80) - 80 * ramp_sum ((0 - 60) / 80)); [reflexivity|].
  apply (integral_of_antiderivative _ (fun h => 80 * ramp_sum ((h - 60) / 80))). intros h k H1 H2 H3.
  assert (SP : forall z, z <= 100 -> surplus_at ((3 # 5) * 100) 120 (1 # 4) 120 140 z == qmax 0 (qmin 1 ((z - 60) / 80))).
  { intros z Z. unfold surplus_at, trigger_profile. assert (EU : (z - 60) / 80 == (120 + (z - (3 # 5) * 100) * (1 # 4) - 120) / (140 - 120)) by field.
    destruct (qmin_spec 140 (120 + (z - (3 # 5) * 100) * (1 # 4))) as [[X ->]|[X ->]]; [lra|]. rewrite <- EU.
    assert ((z - 60) / 80 <= 1) by (apply qdiv_le_iff; lra).
    destruct (qmin_spec 1 ((z - 60) / 80)) as [[Y EY]|[Y EY]]; rewrite EY; [|reflexivity].
    destruct (qmax_spec 0 ((z - 60) / 80)) as [[Y1 ->]|[Y1 ->]]; destruct (qmax_spec 0 1) as [[Y2 ->]|[Y2 ->]]; lra. }
  rewrite !SP by lra. assert (LE : (h - 60) / 80 <= (k - 60) / 80) by (apply qdiv_le_iff; [reflexivity|]; assert (Z : (k - 60) / 80 * 80 == k - 60) by field; lra).
  destruct (ramp_bounds _ _ LE) as [B1 B2].
  assert (ED : k - h == 80 * ((k - 60) / 80 - (h - 60) / 80)) by field. rewrite ED.
  set (u := (h - 60) / 80) in *. set (v := (k - 60) / 80) in *. set (cu := qmax 0 (qmin 1 u)) in *. set (cv := qmax 0 (qmin 1 v)) in *.
  split; nra.
Qed.
Print Assumptions C39_share_of_long_ramp_refuted.

Example C39_share_case : exists x, strat_pct (mkDhw 120 140 16 1 None None None) (3 # 5) 110 1 = Ok x /\ x == 1 # 5 /\
  (3 # 5) * 100 + (140 - 110) / 1 <= 100.
Proof. eexists. split; [vm_compute; reflexivity|]. split; [reflexivity|discriminate]. Qed.

(** ** C39: the load-up setting *)

(** The shed window is covered from the off-state of the controls used in load-up hours: those given for
    them, or the normal ones. *)
Theorem C39_load_up_setting : forall lib s b b1 sc d slope fract s' b' w inlet lc nc shc lx sx,
  (if bd_is_annual b then bd_set_daily lib b else Ok b) = Ok b1 ->
  sc <> [] -> dict_get d "shed" = Some shc -> dict_get d "normal" = Some nc -> used_in_load_up d lc ->
  dhw_size base_klass lib s b (Some sc) (Some d) slope fract = (s', b', Ok w) ->
  design_inlet b1 = Ok inlet -> inlet <= dh_supply s -> 0 < dh_defrost s ->
  0 <= fract -> 0 <= bd_daily b1 -> (forall x, In x (bd_avg b1) -> 0 <= x) ->
  supply_gal_100 s (ct_off_sensor lc) (ct_off_trigger lc) slope inlet = Ok lx ->
  supply_gal_100 s (ct_on_sensor shc) (ct_on_trigger shc) slope inlet = Ok sx ->
  sx < lx ->
  exists V gen a k, dh_min_stor s' = Some V /\ is_first_shed_run sc a k /\
    (forall n, (n <= k)%nat ->
       0 <= level (V * ((lx - sx) / 100)) (fun t => fract * shed_gen sc gen t)
                  (fun t => fract * demand_at (bd_daily b1) (bd_avg b1) t) a n).
Proof.
  intros lib s b b1 sc d slope fract s' b' w inlet lc nc shc lx sx Hb N1 Gs Gn U H Hi Hs Hdf F0 D0 Sh Lx Sx LS.
  assert (E : ctl_load_up d nc = lc) by (unfold ctl_load_up; destruct U as [->|[-> U]]; [reflexivity|congruence]).
  rewrite <- E in Lx.
  destruct (C39_shed_window_covered _ _ _ _ _ _ _ _ _ _ _ _ _ _ _ _ Hb N1 Gs Gn H Hi Hs Hdf F0 D0 Sh Lx Sx LS) as (V & C & gen & a & k & A1 & _ & _ & A2 & A3 & _).
  exists V, gen, a, k. auto.
Qed.
Print Assumptions C39_load_up_setting.

(** The generation rate heats, within the load-up hours, the part of the shifted volume between the normal
    setting and the one used in load-up hours. *)
Theorem C39_load_up_setting_rate : forall s sched d b slope fract g lc nc sc np lp sp a k u,
  base_gen_ls s sched d b slope fract = Ok g ->
  dict_get d "normal" = Some nc -> dict_get d "shed" = Some sc -> used_in_load_up d lc ->
  strat_pct s (ct_on_sensor nc) (ct_on_trigger nc) slope = Ok np ->
  strat_pct s (ct_on_sensor lc) (ct_on_trigger lc) slope = Ok lp ->
  strat_pct s (ct_on_sensor sc) (ct_on_trigger sc) slope = Ok sp -> sp < lp ->
  is_first_shed_run sched a k -> load_up_before sched a u -> (0 < u)%nat ->
  demand_of_hours (bd_daily b) (bd_avg b) (a - u) u +
    fract * demand_of_hours (bd_daily b) (bd_avg b) a k * (lp - np) / (lp - sp) <= g * qz (Z.of_nat u).
Proof.
  intros s sched d b slope fract g lc nc sc np lp sp a k u H Gn Gs U Np Lp Sp L A B U0.
  assert (E : ctl_load_up d nc = lc) by (unfold ctl_load_up; destruct U as [->|[-> U]]; [reflexivity|congruence]).
  rewrite <- E in Lp. apply (C39_load_up_rate _ _ _ _ _ _ _ _ _ _ _ _ _ _ _ H Gn Gs Np Lp Sp L A B U0).
Qed.
Print Assumptions C39_load_up_setting_rate.

(** ** C29: the average temperature of a draw from a tank with a slug *)

(** A draw within the hot water above the slug has the plain tank's average; a longer one mixes all of that
    hot water with water at the slug's temperature. *)
Theorem C29_average_with_slug : forall lo h t g, sl_reachable lo h t -> sl_active t = true -> 0 < g ->
  let hot := sl_max t - sl_vol t in
  (g <= hot -> sl_avg t g = en_avg (sl_base t) g) /\
  (hot < g -> exists a0 hot' a, hot' == hot /\ en_avg (sl_base t) hot' = Ok a0 /\ sl_avg t g = Ok a /\ a * g == a0 * hot + sl_temp t * (g - hot)).
Proof.
  intros lo h t g R A G hot. pose proof (sl_reachable_inv _ _ _ R) as I. pose proof (sl_inv_wf _ _ _ I) as W.
  destruct I as ((V0 & S0 & P0 & P1) & CP & MX & (ST & C1 & C2) & E0 & ACT). destruct (ACT A) as ((B1 & B2 & B3) & TP & LT).
  set (V := en_vol (sl_base t)) in *.
  assert (TOP : sl_top t == 100 - hot / V * 100).
  { rewrite TP, CP. unfold hot. rewrite MX. field. lra. }
  assert (GV : g / V * V == g) by (field; lra). assert (HV : hot / V * V == hot) by (field; lra).
  unfold sl_avg. rewrite A. cbn [negb]. fold V. rewrite (qdiv_ok g V) by lra. cbn [bind]. cbv zeta. split; intro L.
  - assert (LE : sl_top t <= 100 - g / V * 100).
    { rewrite TOP. assert (g / V <= hot / V) by (apply qdiv_le_iff; [exact V0|lra]). lra. }
    apply qleb_true in LE. rewrite LE. reflexivity.
  - assert (LT' : 100 - g / V * 100 < sl_top t).
    { rewrite TOP. assert (hot / V < g / V) by (apply qdiv_lt_iff; [exact V0|lra]). lra. }
    destruct (Qle_bool (sl_top t) (100 - g / V * 100)) eqn:X; qbool; [lra|].
    destruct (en_avg_total (sl_base t) (V * ((100 - sl_top t) / 100)) W) as (a0 & EA); [lra|]. rewrite EA. cbn [bind].
    assert (D0 : 0 < g / V * 100) by (assert (0 < g / V) by (apply qdiv_pos; lra); lra).
    rewrite qdiv_ok by lra.
    eexists a0, (V * ((100 - sl_top t) / 100)), _. split; [rewrite TOP; field; lra|]. split; [exact EA|]. split; [reflexivity|].
    rewrite TOP. field. lra.
Qed.
Print Assumptions C29_average_with_slug.

Example C29_average_case : exists t a, ex_slug = Ok t /\ sl_active t = true /\ sl_max t - sl_vol t < 60 /\ sl_avg t 60 = Ok a /\ a < 140.
Proof. eexists. eexists. split; [vm_compute; reflexivity|]. split; [reflexivity|]. split; [reflexivity|]. split; [vm_compute; reflexivity|reflexivity]. Qed.

(** ** C75: a system made of given components *)

(** It holds exactly the given heaters and an unfilled tank of the given volume and slope; it has no sizing. *)
Theorem C75_components_kept : forall vol hs supply storage run defrost slope,
  let r := from_components vol hs supply storage run defrost slope in
  bs_heaters (snd r) = hs /\ bs_supply (snd r) = supply /\ bs_storage (snd r) = storage /\
  (exists t, bs_tank (snd r) = Some t /\ st_vol t = vol /\ st_slope t = slope) /\
  dh_supply (fst r) = supply /\ dh_storage (fst r) = storage /\ dh_run (fst r) = run /\ dh_defrost (fst r) = defrost /\
  dh_min_cap (fst r) = None /\ dh_min_stor (fst r) = None.
Proof. intros. repeat split. eexists. repeat split. Qed.
Print Assumptions C75_components_kept.

(** ** C68: a swing-tank load-shift curve is never below the sizing without load shifting *)

Theorem C68_swing_not_below_normal : forall lib icdf s b b1 sched m slope p s' b' cv i c v,
  (if bd_is_annual b then bd_set_daily lib b else Ok b) = Ok b1 ->
  swing_ls_sizing_curve lib icdf s b sched m slope p = (s', b', Ok cv) ->
  nth_error (cv_capacity cv) i = Some c -> nth_error (cv_storage cv) i = Some v ->
  let s1 := sw_set_run s (qmin (dh_run (sw_dhw s)) (non_shed_hours sched)) in
  exists d inlet c0 mix rv f v0, m = Some d /\ design_inlet b1 = Ok inlet /\ swing_capacity s1 b1 = Ok c0 /\ swing_running s1 b1 = Ok (mix, rv) /\
    strat_factor (sw_dhw s1) m (match dh_slope (sw_dhw s) with Some k => k | None => slope end) inlet = Ok f /\
    v0 * f == rv /\ c0 <= c /\ v0 <= v.
Proof.
  intros lib icdf s b b1 sched m slope p s' b' cv i c v Hb H Ec Ev s1. unfold swing_ls_sizing_curve in H.
  destruct m as [d|]; [|discriminate]. destruct (negb (dict_has d "shed")); [discriminate|]. rewrite Hb in H. fold s1 in H.
  destruct (swing_ls_curve_body icdf s1 b1 sched d (slope_or (sw_dhw s) slope) p) as [s2 out] eqn:E.
  assert (O : out = Ok cv).
  { unfold restore_annual in H. destruct (bd_is_annual b); [destruct (bd_set_annual lib b1)|]; inversion H; reflexivity. }
  subst out. clear H. unfold swing_ls_curve_body in E.
  destruct (design_inlet b1) as [inlet|] eqn:DI; [|discriminate]. cbn [bind] in E.
  destruct (swing_capacity s1 b1) as [c0|] eqn:SC; [|discriminate]. cbn [bind] in E.
  destruct (swing_running s1 b1) as [[mix rv]|] eqn:SR; [|discriminate]. cbn [bind] in E.
  apply pair_equal_spec in E. destruct E as [_ E].
  apply bind_ok in E. destruct E as (f & EF & E). apply bind_ok in E. destruct E as (v0 & EV & E). apply bind_ok in E. destruct E as (pts & EP & E).
  apply ok_inj in E. subst cv. cbn [cv_capacity cv_storage] in Ec, Ev. rewrite nth_error_map in Ec, Ev.
  destruct (nth_error pts i) as [[c' v']|] eqn:NP; [|discriminate]. cbn in Ec, Ev. injection Ec as <-. injection Ev as <-.
  destruct (nth_error ls_percents i) as [q|] eqn:NQ.
  2: { apply nth_error_None in NQ. rewrite <- (mapM_length _ _ _ EP) in NQ. apply nth_error_None in NQ. congruence. }
  destruct (mapM_nth _ _ _ _ _ EP NQ) as (y & NY & PT). rewrite NP in NY. injection NY as <-.
  unfold swing_ls_point in PT. apply bind_ok in PT. destruct PT as (fr & _ & PT). apply bind_ok in PT. destruct PT as (lcap & _ & PT).
  apply bind_ok in PT. destruct PT as (g & _ & PT). apply bind_ok in PT. destruct PT as (rm & _ & PT). apply bind_ok in PT. destruct PT as (ls & _ & PT).
  apply ok_inj in PT. injection PT as <- <-.
  exists d, inlet, c0, mix, rv, f, v0. split; [reflexivity|]. split; [reflexivity|]. split; [reflexivity|]. split; [reflexivity|].
  split; [destruct mix; exact EF|]. split; [|split; apply qmax_l].
  unfold storage_volume in EV. apply qdiv_inv in EV. destruct EV as [Z ->]. field. exact Z.
Qed.
Print Assumptions C68_swing_not_below_normal.

(** ** C49: where the boost simulations start from *)

Lemma starting_iff m c : first_control m = Ok c -> exists d, m = Some d /\ starting_controls d c.
Proof.
  unfold first_control, starting_controls. destruct m as [d|]; [|discriminate]. intro H. exists d. split; [reflexivity|]. destruct (dict_get d "normal") as [c'|] eqn:E.
  - apply ok_inj in H. left. congruence.
  - right. split; [reflexivity|]. destruct d as [|[k c'] r]; [discriminate|]. apply ok_inj in H. subst c'. eauto.
Qed.

(** The trial days start with the tank hot above the on-sensor of the normal controls, or of the first ones
    given when there are no normal ones. *)
Theorem C49_trial_start : forall lib b supply storage ret flow run defrost sched m slope pu days iters b' x,
  mp_from_size lib b supply storage ret flow run defrost sched m slope pu days iters = (b', Ok x) ->
  exists s cap vol cold di d c cap',
    mp_size ret flow lib (mkDhw supply storage run defrost None None None) b m slope = (s, b', Ok tt) /\
    dh_min_cap s = Some cap /\ dh_min_stor s = Some vol /\ dh_min_cap (mb_dhw x) = Some cap' /\
    design_inlet b' = Ok cold /\ bd_design_inlet b' = Ok di /\ m = Some d /\ starting_controls d c /\
    (0 < vol -> 0 < pu ->
     boost_search b' days vol pu (sim_inlet di) (qmax 0 (qmin 1 (1 - ct_on_sensor c))) sched m iters
       (mkMsys [wh_new (Some (PmNominal cap)) sched m] (sl_new vol cold storage supply pu slope) supply storage ret flow) cap (mb_sys x) cap').
Proof.
  intros lib b supply storage ret flow run defrost sched m slope pu days iters b' x H.
  destruct (C49_boost_rounds _ _ _ _ _ _ _ _ _ _ _ _ _ _ _ _ H) as (s & cap & vol & cold & di & c & cap' & A1 & A2 & A3 & A4 & A5 & A6 & A7 & A8).
  destruct (starting_iff _ _ A7) as (d & D1 & D2). exists s, cap, vol, cold, di, d, c, cap'. auto 12.
Qed.
Print Assumptions C49_trial_start.

(** ** C42: which point is recommended *)

(** The one whose percent is nearest to the asked one; half way between two, the even index. *)
Theorem C42_recommended_nearest : forall K lib icdf s b sched m slope p s' b' cv,
  ls_sizing_curve K lib icdf s b sched m slope p = (s', b', Ok cv) -> (1 # 4) <= p <= 1 ->
  nearest_whole ((p - (1 # 4)) * 100) (cv_rec cv).
Proof.
  intros K lib icdf s b sched m slope p s' b' cv H P.
  destruct (ls_curve_inv _ _ _ _ _ _ _ _ _ _ _ _ H) as (d & b1 & inlet & c & rv & f & st & pts & _ & _ & _ & _ & _ & _ & _ & _ & M & ->).
  cbn [cv_rec]. unfold ls_rec_index.
  assert (LP : length ls_percents = 76%nat) by reflexivity. rewrite LP.
  set (c0 := qmax (1 # 4) (qmin 1 p)).
  assert (EC : c0 == p) by (unfold c0; destruct (qmin_spec 1 p) as [[X ->]|[X ->]]; [destruct (qmax_spec (1 # 4) 1) as [[Y ->]|[Y ->]]|destruct (qmax_spec (1 # 4) p) as [[Y ->]|[Y ->]]]; lra).
  destruct (round_even_spec ((c0 - (1 # 4)) * 100)) as [A B]. change (round_even ((c0 - (1 # 4)) * 100)) with (py_round ((c0 - (1 # 4)) * 100)) in A, B.
  assert (R : (0 <= py_round ((c0 - (1 # 4)) * 100) <= 75)%Z).
  { apply Qabs_Qle_condition in A. destruct A as [A1 A2]. set (z := py_round ((c0 - (1 # 4)) * 100)) in *.
    assert (L1 : qz (-1) < qz z) by (change (qz (-1)) with (-1)%Q; lra). assert (L2 : qz z < qz 76) by (change (qz 76) with 76%Q; lra).
    unfold qz in L1, L2. rewrite <- Zlt_Qlt in L1, L2. lia. }
  rewrite Z.max_r by lia. rewrite Z.min_l by lia. unfold nearest_whole.
  assert (E : forall z, qz z - (p - (1 # 4)) * 100 == qz z - (c0 - (1 # 4)) * 100) by (intro z; lra).
  rewrite !E. split; assumption.
Qed.
Print Assumptions C42_recommended_nearest.
