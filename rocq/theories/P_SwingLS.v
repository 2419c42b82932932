(** C80: load-shift sizing of swing-tank systems. *)
From Verif Require Import Prelude M_StratifiedTank M_Building M_Heater M_Sizing S_Sizing L_Building L_Heater L_Sizing L_Sizing2 L_Sizing3 L_Sizing4 M_Swing S_Swing L_Swing L_Swing2 L_Swing3 L_Swing4 S_SwingLS L_SwingLS P_Swing P_Swing2.
Open Scope Q_scope.

(** Sizing with a shed block in hours [a .. a + k - 1] after [u] load-up hours follows the swing tank through the
    block, the load-up hours and the day after the block: the capacity heats [g] gallons an hour to storage
    temperature, at least the rate of a sizing without load shifting for the hours that are not shed and enough to
    bring in the load-up hours what they draw and the load-up part of the shifted draw; the stored volume between
    the load-up and the shed setting holds the given part of what is drawn in the shed block and, at any minute of
    the following day, what is drawn beyond the rate [g] outside shed hours.  Neither is larger than that asks for. *)
Theorem C80_sized : forall lib s b b1 sc d slope fract s' b' w s2 b2 w2 inlet nc shc lx sx vol,
  (if bd_is_annual b then bd_set_daily lib b else Ok b) = Ok b1 ->
  sc <> [] -> dict_get d "shed" = Some shc -> dict_get d "normal" = Some nc ->
  swing_size lib s b (Some sc) (Some d) slope fract = (s', b', Ok w) ->
  swing_size lib (sw_set_run s (qmin (dh_run (sw_dhw s)) (non_shed_hours sc))) b None (Some d) slope fract = (s2, b2, Ok w2) ->
  design_inlet b1 = Ok inlet -> inlet < dh_supply (sw_dhw s) -> dh_supply (sw_dhw s) <= dh_storage (sw_dhw s) ->
  0 < dh_defrost (sw_dhw s) -> 1 < sw_safety s -> 0 <= sw_loss s -> 0 < bd_daily b1 -> length (bd_avg b1) = 24%nat ->
  sw_tm_vol s' = Some vol -> (forall x, In x (bd_avg b1) -> 0 <= x /\ bd_daily b1 * x < 60 * vol) ->
  supply_gal_100 (sw_dhw s) (ct_off_sensor (ctl_load_up d nc)) (ct_off_trigger (ctl_load_up d nc)) slope inlet = Ok lx ->
  supply_gal_100 (sw_dhw s) (ct_on_sensor shc) (ct_on_trigger shc) slope inlet = Ok sx -> sx < lx ->
  let supply := dh_supply (sw_dhw s) in let storage := dh_storage (sw_dhw s) in
  let daily := bd_daily b1 in let shape := bd_avg b1 in
  exists cap V C V2 C2 a k u shed up day g,
    sw_tm_cap s' = Some cap /\ dh_min_stor (sw_dhw s') = Some V /\ dh_min_cap (sw_dhw s') = Some C /\
    dh_min_stor (sw_dhw s2) = Some V2 /\ dh_min_cap (sw_dhw s2) = Some C2 /\
    is_first_shed_run sc a k /\ load_up_before sc a u /\
    let tank := mkTank supply storage inlet (sw_loss s) vol cap in
    let W := V * ((lx - sx) / 100) * (supply - inlet) / (storage - inlet) in
    let need := fun n => fract * total shed (60 * k) + total (fun j => day j - minute_gen sc g (a + k) j) n in
    window_draws tank daily shape a (60 * k) shed /\ window_draws tank daily shape (a - u) (60 * u) up /\
    window_draws tank daily shape (a + k) day_minutes day /\
    C * 1000 * dh_defrost (sw_dhw s) == g * rho_cp * (storage - inlet) /\ C2 <= C /\
    (forall np lp sp,
       strat_pct (sw_dhw s) (ct_on_sensor nc) (ct_on_trigger nc) slope = Ok np ->
       strat_pct (sw_dhw s) (ct_on_sensor (ctl_load_up d nc)) (ct_on_trigger (ctl_load_up d nc)) slope = Ok lp ->
       strat_pct (sw_dhw s) (ct_on_sensor shc) (ct_on_trigger shc) slope = Ok sp ->
       let fill := total up (60 * u) + fract * total shed (60 * k) * (lp - np) / (lp - sp) in
       ((0 < u)%nat -> sp < lp -> fill <= g * qz (Z.of_nat u)) /\
       (C == C2 \/ (0 < u)%nat /\ sp < lp /\ fill == g * qz (Z.of_nat u))) /\
    V2 <= V /\ (forall n, (n <= day_minutes)%nat -> need n <= W) /\
    ((V = V2 /\ sw_eff_mix s' = sw_eff_mix s2) \/ (exists n, (n <= day_minutes)%nat /\ need n == W) /\ sw_eff_mix s' * daily == total day day_minutes).
Proof.
  intros lib s b b1 sc d slope fract s' b' w s2 b2 w2 inlet nc shc lx sx vol Hb N1 Gs Gn H H2 Hi Hin Hst Hdf Hs Hl D0 LN TV AV Lx Sx LS supply storage daily shape.
  assert (LA : ls_active (Some sc) (Some d) = true).
  { unfold ls_active, is_load_shifting. destruct sc; [congruence|]. unfold dict_has. rewrite Gs. reflexivity. }
  destruct (swing_size_inv _ _ _ _ _ _ _ _ _ _ H) as (b1x & inletx & s1 & mo & rv & f & stor & cap & A1 & A2 & A3 & A4 & A5 & A6 & A7 & cap' & stor' & mix' & ES & X).
  destruct (swing_size_inv _ _ _ _ _ _ _ _ _ _ H2) as (b1y & inlety & s1x & mox & rvx & fx & storx & capx & B1 & B2 & B3 & B4 & B5 & B6 & B7 & cap'x & stor'x & mix'x & ESx & Y).
  destruct Y as [(_ & -> & -> & ->)|Y]; [|destruct Y as (? & ? & ? & ? & ? & ? & ? & Y & _); discriminate Y].
  destruct X as [(X & _)|(sc' & d' & g & lcap & lrv & lmix & lstor & E1 & E2 & _ & G1 & G2 & G3 & G4 & -> & -> & ->)]; [congruence|].
  injection E1 as <-. injection E2 as <-.
  rewrite Hb in A1. apply ok_inj in A1. subst b1x. rewrite Hb in B1. apply ok_inj in B1. subst b1y. rewrite Hi in A2. apply ok_inj in A2. subst inletx. rewrite Hi in B2. apply ok_inj in B2. subst inlety.
  unfold cap_run in A3, B3. rewrite LA in A3.
  change (sw_set_dhw s (dh_set_run (sw_dhw s) (qmin (dh_run (sw_dhw s)) (non_shed_hours sc)))) with (sw_set_run s (qmin (dh_run (sw_dhw s)) (non_shed_hours sc))) in A3.
  replace (sw_set_dhw (sw_set_run s (qmin (dh_run (sw_dhw s)) (non_shed_hours sc))) (sw_dhw (sw_set_run s (qmin (dh_run (sw_dhw s)) (non_shed_hours sc)))))
    with (sw_set_run s (qmin (dh_run (sw_dhw s)) (non_shed_hours sc))) in B3 by reflexivity.
  rewrite A3 in B3. apply ok_inj in B3. subst s1x. rewrite A4 in B4. apply ok_inj in B4. injection B4 as <- <-.
  rewrite A5 in B5. apply ok_inj in B5. subst fx. rewrite A6 in B6. apply ok_inj in B6. subst storx.
  rewrite A7 in B7. apply ok_inj in B7. subst capx.
  destruct (size_tm_inv _ _ _ A3) as (v' & vol' & ca & _ & _ & TP & _ & E1). destruct (table_pick_spec _ _ _ TP) as ((z & ZI & ->) & _ & _).
  assert (ZP : 0 < qz z) by (cbn in ZI; repeat (destruct ZI as [<-|ZI]; [reflexivity|]); destruct ZI).
  assert (TVE : qz z = vol) by (rewrite ES in TV; cbn [sw_tm_vol] in TV; rewrite E1 in TV; cbn in TV; injection TV as <-; reflexivity).
  set (s3 := apply_mix (sw_set_mix s1 1) mo) in *. set (tc := sw_safety s * (sw_loss s * 1000) / 1000).
  assert (CE : tc == sw_safety s * sw_loss s) by (unfold tc; field).
  assert (D3 : sw_dhw s3 = dh_set_run (sw_dhw s) (qmin (dh_run (sw_dhw s)) (non_shed_hours sc))) by (unfold s3; rewrite E1; destruct mo; reflexivity).
  set (v := mkEnv supply storage inlet (sw_loss s) vol tc).
  assert (EV : env_of s3 inlet = Ok v).
  { unfold s3. rewrite E1. unfold v. rewrite <- TVE. destruct mo; reflexivity. }
  assert (RD : ls_ready v daily shape).
  { split; cbn [sv_vol sv_loss sv_cap sv_inlet sv_supply sv_storage v]; try assumption.
    - rewrite <- TVE. exact ZP.
    - rewrite CE. assert (0 <= (sw_safety s - 1) * sw_loss s) by (apply qmul_nonneg; lra). lra. }
  assert (FB0 : exists fb, first_shed_block sc = Ok fb) by (unfold swing_running_ls in G3; rewrite Hi in G3; cbn [bind] in G3; destruct (first_shed_block sc) as [fb|]; [exists fb; reflexivity|discriminate G3]).
  destruct FB0 as ([block lu] & FB).
  destruct (first_shed_block_spec _ _ _ FB) as (_ & [(E & _)|(a & k & u & EB & EU & RU & LU)]).
  { exfalso. subst block. unfold swing_running_ls in G3. rewrite Hi in G3. cbn [bind] in G3. rewrite FB in G3. cbn [bind fst] in G3. unfold swing_prelim in G3. rewrite FB in G3. cbn [bind] in G3.
    change (shape_at (map (fun f0 => f0 * bd_daily b1) (bd_avg b1)) []) with (@Ok (list Q) []) in G3. cbn [bind] in G3. rewrite Hi in G3. cbn [bind] in G3. rewrite EV in G3. cbn [bind] in G3.
    change (per_minute []) with (@nil Q) in G3. cbn [sim_just_swing bind] in G3. discriminate G3. }
  subst block lu.
  destruct (prelim_ok s3 sc b1 fract inlet v a k u Hi EV RD FB RU LU) as (vs & vc & shed & up & PV & WS & WU & EVS & EVC).
  destruct (running_ls_ok s3 sc b1 fract inlet v a k u Hi EV RD FB RU LU g) as (lrv' & lmix' & day & vs' & shed' & R1 & (vc' & PV') & _ & _ & WD & EM & def & ER & DF0 & DF1 & n0 & N0 & EN0).
  rewrite PV in PV'. apply ok_inj in PV'. injection PV' as <- <-. rewrite G3 in R1. apply ok_inj in R1. injection R1 as <- <-.
  destruct (gen_ls_sw _ _ _ _ _ _ _ a k u vs vc G1 FB PV) as (ng & NG & NGg & GG).
  exists tc, (if qltb stor lstor then lstor else stor), (qmax cap lcap), stor, cap, a, k, u, shed, up, day, g.
  split; [rewrite ES; cbn [sw_tm_cap]; rewrite E1; reflexivity|]. split; [rewrite ES; reflexivity|]. split; [rewrite ES; reflexivity|]. split; [rewrite ESx; reflexivity|]. split; [rewrite ESx; reflexivity|].
  split; [exact RU|]. split; [exact LU|]. intros tank W need. split; [exact WS|]. split; [exact WU|]. split; [exact WD|].
  assert (RP : 0 < rho_cp) by reflexivity.
  assert (CN : cap * 1000 * dh_defrost (sw_dhw s) == ng * rho_cp * (storage - inlet)).
  { unfold swing_capacity, swing_capacity_of in A7. rewrite Hi in A7. cbn [bind] in A7. fold s3 in A7. rewrite NG in A7. cbn [bind] in A7.
    apply bind_ok in A7. destruct A7 as (x & XE & A7). apply ok_inj in A7. subst cap. apply qdiv_inv in XE. rewrite D3 in XE. cbn [dh_set_run dh_defrost dh_storage] in XE. destruct XE as [ND ->]. fold storage. field. exact ND. }
  assert (CL : lcap * 1000 * dh_defrost (sw_dhw s) == g * rho_cp * (storage - inlet)).
  { unfold swing_capacity_of in G2. rewrite Hi in G2. cbn [bind] in G2.
    apply bind_ok in G2. destruct G2 as (x & XE & G2). apply ok_inj in G2. subst lcap. apply qdiv_inv in XE. rewrite D3 in XE. cbn [dh_set_run dh_defrost dh_storage] in XE. destruct XE as [ND ->]. fold storage. field. exact ND. }
  assert (K : 0 < rho_cp * (storage - inlet)) by (apply qmul_pos; [exact RP|unfold storage; lra]).
  assert (LE : cap <= lcap).
  { apply (Qmult_le_r _ _ (1000 * dh_defrost (sw_dhw s))); [lra|]. rewrite !Qmult_assoc, CN, CL, <- !Qmult_assoc. apply Qmult_le_compat_r; lra. }
  assert (CM : qmax cap lcap == lcap) by (destruct (qmax_spec cap lcap) as [[_ ->]|[? ->]]; lra).
  split; [rewrite CM; exact CL|]. split; [apply qmax_l|]. split.
  { intros np lp sp Np Lp Sp fill. destruct (GG nc shc lp np sp) as [F1 F2];
      [unfold ctl; rewrite Gn; reflexivity|unfold ctl; rewrite Gs; reflexivity|rewrite D3; exact Np|rewrite D3; exact Lp|rewrite D3; exact Sp|].
    assert (FE : sp < lp -> vs * (lp - np) / (lp - sp) + vc == fill) by (intro; unfold fill; rewrite EVS, EVC; field; lra).
    split; [intros U SL; rewrite <- (FE SL); apply F1; assumption|]. destruct F2 as [F2|(U & SL & F2)]; [left|right].
    - rewrite CM. assert (NZ : ~ 1000 * dh_defrost (sw_dhw s) == 0) by lra. apply (Qmult_inj_r _ _ _ NZ). rewrite !Qmult_assoc, CN, CL, F2. reflexivity.
    - split; [exact U|]. split; [exact SL|]. rewrite <- (FE SL). exact F2. }
  unfold storage_volume_ls, ctl in G4. rewrite Gn, Gs in G4. cbn [bind] in G4.
  assert (D1 : sw_dhw s1 = dh_set_run (sw_dhw s) (qmin (dh_run (sw_dhw s)) (non_shed_hours sc))) by (rewrite E1; reflexivity).
  rewrite D1 in G4. change (supply_gal_100 (dh_set_run (sw_dhw s) (qmin (dh_run (sw_dhw s)) (non_shed_hours sc)))) with (supply_gal_100 (sw_dhw s)) in G4. rewrite Lx, Sx in G4. cbn [bind] in G4.
  unfold storage_volume in G4. apply qdiv_inv in G4. destruct G4 as [BZ EL].
  set (band := (lx - sx) / 100) in *. assert (B0 : 0 < band) by (unfold band; apply qdiv_pos; lra).
  assert (SI : 0 < supply - inlet) by (unfold supply; lra). assert (TI : 0 < storage - inlet) by (unfold storage; lra).
  assert (WL : lstor * band * (supply - inlet) / (storage - inlet) == def + vs).
  { rewrite EL, (qdiv_mul lrv band BZ), ER. cbn [sv_storage sv_supply v]. field. split; lra. }
  assert (VL : lstor <= (if qltb stor lstor then lstor else stor) /\ stor <= (if qltb stor lstor then lstor else stor)) by (destruct (qltb stor lstor) eqn:Z; qbool; split; lra).
  assert (WW : def + vs <= W).
  { rewrite <- WL. unfold W. unfold Qdiv. apply Qmult_le_compat_r; [|apply Qinv_le_0_compat; lra]. apply Qmult_le_compat_r; [|lra]. apply Qmult_le_compat_r; [exact (proj1 VL)|lra]. }
  split; [exact (proj2 VL)|]. split.
  { intros n N. unfold need. specialize (DF1 n N). rewrite <- EVS. lra. }
  rewrite ES, ESx. cbn [sw_eff_mix]. destruct (qltb stor lstor) eqn:Z.
  - right. split; [exists n0; split; [exact N0|]|exact EM]. unfold need, W. rewrite WL, EN0, <- EVS. ring.
  - left. split; reflexivity.
Qed.
Print Assumptions C80_sized.

(** Where a sizing without load shifting, for the hours that are not shed, returns, so does the load-shift sizing, if
    some hour is shed, the settings' temperatures can be placed in the tank and the average day fits the swing tank. *)
Theorem C80_succeeds : forall lib s b b1 sc d slope fract s2 b2 w2 inlet nc shc lx sx vol h,
  (if bd_is_annual b then bd_set_daily lib b else Ok b) = Ok b1 ->
  (24 <= length sc)%nat -> (h < 24)%nat -> nth_error sc h = Some "shed"%string -> dict_get d "shed" = Some shc -> dict_get d "normal" = Some nc ->
  swing_size lib (sw_set_run s (qmin (dh_run (sw_dhw s)) (non_shed_hours sc))) b None (Some d) slope fract = (s2, b2, Ok w2) ->
  design_inlet b1 = Ok inlet -> inlet < dh_supply (sw_dhw s) -> dh_supply (sw_dhw s) <= dh_storage (sw_dhw s) ->
  1 < sw_safety s -> 0 <= sw_loss s -> 0 < bd_daily b1 -> length (bd_avg b1) = 24%nat ->
  sw_tm_vol s2 = Some vol -> (forall x, In x (bd_avg b1) -> 0 <= x /\ bd_daily b1 * x < 60 * vol) ->
  (forall c, In c [nc; ctl_load_up d nc; shc] -> exists x, strat_pct (sw_dhw s) (ct_on_sensor c) (ct_on_trigger c) slope = Ok x) ->
  supply_gal_100 (sw_dhw s) (ct_off_sensor (ctl_load_up d nc)) (ct_off_trigger (ctl_load_up d nc)) slope inlet = Ok lx ->
  supply_gal_100 (sw_dhw s) (ct_on_sensor shc) (ct_on_trigger shc) slope inlet = Ok sx -> ~ sx == lx ->
  exists s' b', swing_size lib s b (Some sc) (Some d) slope fract = (s', b', Ok tt) /\ sw_tm_vol s' = Some vol.
Proof.
  intros lib s b b1 sc d slope fract s2 b2 w2 inlet nc shc lx sx vol h Hb L24 Hh SHD Gs Gn H2 Hi Hin Hst Hs Hl D0 LN TV AV PCT Lx Sx LS.
  set (supply := dh_supply (sw_dhw s)) in *. set (storage := dh_storage (sw_dhw s)) in *. set (daily := bd_daily b1) in *. set (shape := bd_avg b1) in *.
  assert (N1 : sc <> []) by (intros ->; cbn in L24; lia).
  assert (LA : ls_active (Some sc) (Some d) = true).
  { unfold ls_active, is_load_shifting. destruct sc; [congruence|]. unfold dict_has. rewrite Gs. reflexivity. }
  assert (BA : exists bb, (if bd_is_annual b then bd_set_annual lib b1 else Ok b1) = Ok bb).
  { unfold swing_size in H2. rewrite Hb in H2. destruct (swing_size_try _ _ _ _ _ _) as [sx' out] in H2. destruct out as [[]|]; [|discriminate H2].
    destruct (bd_is_annual b); [destruct (bd_set_annual lib b1) as [bb|]; [exists bb; reflexivity|discriminate H2]|exists b1; reflexivity]. }
  destruct (swing_size_inv _ _ _ _ _ _ _ _ _ _ H2) as (b1y & inlety & s1 & mo & rv & f & stor & cap & B1 & B2 & A3 & A4 & A5 & A6 & A7 & cap'x & stor'x & mix'x & ESx & Y).
  destruct Y as [(_ & -> & -> & ->)|Y]; [|destruct Y as (? & ? & ? & ? & ? & ? & ? & Y & _); discriminate Y].
  rewrite Hb in B1. apply ok_inj in B1. subst b1y. rewrite Hi in B2. apply ok_inj in B2. subst inlety.
  unfold cap_run in A3. cbn [ls_active] in A3.
  replace (sw_set_dhw (sw_set_run s (qmin (dh_run (sw_dhw s)) (non_shed_hours sc))) (sw_dhw (sw_set_run s (qmin (dh_run (sw_dhw s)) (non_shed_hours sc)))))
    with (sw_set_run s (qmin (dh_run (sw_dhw s)) (non_shed_hours sc))) in A3 by reflexivity.
  destruct (size_tm_inv _ _ _ A3) as (v' & vol' & ca & _ & _ & TP & _ & E1). destruct (table_pick_spec _ _ _ TP) as ((z & ZI & ->) & _ & _).
  assert (ZP : 0 < qz z) by (cbn in ZI; repeat (destruct ZI as [<-|ZI]; [reflexivity|]); destruct ZI).
  assert (TVE : qz z = vol) by (rewrite ESx in TV; cbn [sw_tm_vol] in TV; rewrite E1 in TV; cbn in TV; injection TV as <-; reflexivity).
  set (s3 := apply_mix (sw_set_mix s1 1) mo) in *. set (tc := sw_safety s * (sw_loss s * 1000) / 1000).
  assert (CE : tc == sw_safety s * sw_loss s) by (unfold tc; field).
  assert (D3 : sw_dhw s3 = dh_set_run (sw_dhw s) (qmin (dh_run (sw_dhw s)) (non_shed_hours sc))) by (unfold s3; rewrite E1; destruct mo; reflexivity).
  assert (D1 : sw_dhw s1 = sw_dhw s3) by (unfold s3; destruct mo; reflexivity).
  set (v := mkEnv supply storage inlet (sw_loss s) vol tc).
  assert (EV : env_of s3 inlet = Ok v).
  { unfold s3. rewrite E1. unfold v. rewrite <- TVE. destruct mo; reflexivity. }
  assert (RD : ls_ready v daily shape).
  { split; cbn [sv_vol sv_loss sv_cap sv_inlet sv_supply sv_storage v]; try assumption.
    - rewrite <- TVE. exact ZP.
    - rewrite CE. assert (0 <= (sw_safety s - 1) * sw_loss s) by (apply qmul_nonneg; lra). lra. }
  destruct (first_shed_block_total sc L24) as ([block lu] & FB).
  destruct (first_shed_block_spec _ _ _ FB) as (_ & [(_ & _ & N)|(a & k & u & -> & -> & RU & LU)]); [exfalso; exact (N h Hh SHD)|].
  destruct (prelim_ok s3 sc b1 fract inlet v a k u Hi EV RD FB RU LU) as (vs & vc & shed & up & PV & _).
  assert (NG : exists ng, swing_normal_gen s3 b1 = Ok ng /\ ~ dh_defrost (sw_dhw s) == 0).
  { unfold swing_capacity, swing_capacity_of in A7. rewrite Hi in A7. cbn [bind] in A7. fold s3 in A7. destruct (swing_normal_gen s3 b1) as [ng|] eqn:E; [|discriminate A7]. exists ng. split; [reflexivity|].
    cbn [bind] in A7. apply bind_ok in A7. destruct A7 as (x & XE & _). apply qdiv_inv in XE. rewrite D3 in XE. exact (proj1 XE). }
  destruct NG as (ng & NG & ND).
  assert (G : exists g, swing_gen_ls s3 sc d b1 slope fract = Ok g).
  { unfold swing_gen_ls. rewrite NG. cbn [bind]. rewrite FB. cbn [bind snd]. destruct (Z.of_nat u =? 0)%Z; [eexists; reflexivity|]. rewrite PV. cbn [bind].
    unfold ctl. rewrite Gn, Gs. cbn [bind]. rewrite D3.
    change (strat_pct (dh_set_run (sw_dhw s) (qmin (dh_run (sw_dhw s)) (non_shed_hours sc)))) with (strat_pct (sw_dhw s)).
    destruct (PCT (ctl_load_up d nc)) as (x1 & ->); [right; left; reflexivity|]. destruct (PCT nc) as (x2 & ->); [left; reflexivity|]. destruct (PCT shc) as (x3 & ->); [right; right; left; reflexivity|].
    cbn [bind]. destruct (Qle_bool (x1 - x3) 0); eexists; reflexivity. }
  destruct G as (g & G).
  destruct (running_ls_ok s3 sc b1 fract inlet v a k u Hi EV RD FB RU LU g) as (lrv & lmix & _ & _ & _ & R1 & _).
  assert (LC : exists lcap, swing_capacity_of s3 b1 (Ok g) = Ok lcap).
  { unfold swing_capacity_of. rewrite Hi. cbn [bind]. rewrite D3. cbn [dh_set_run dh_defrost]. rewrite qdiv_ok by exact ND. cbn [bind]. eexists; reflexivity. }
  destruct LC as (lcap & LC).
  assert (ST : exists lstor, storage_volume_ls (sw_dhw s3) lrv d slope inlet = Ok lstor).
  { unfold storage_volume_ls, ctl. rewrite Gn, Gs. cbn [bind]. rewrite D3.
    change (supply_gal_100 (dh_set_run (sw_dhw s) (qmin (dh_run (sw_dhw s)) (non_shed_hours sc)))) with (supply_gal_100 (sw_dhw s)). rewrite Lx, Sx. cbn [bind].
    unfold storage_volume. rewrite qdiv_ok; [eexists; reflexivity|]. intro Z. apply LS. assert (lx - sx == (lx - sx) / 100 * 100) by field. lra. }
  destruct ST as (lstor & ST). destruct BA as (bb & BA).
  assert (TRY : exists s4, swing_size_try (sw_set_dhw s (cap_run (sw_dhw s) (Some sc) (Some d))) b1 (Some sc) (Some d) slope fract = (s4, Ok tt) /\ sw_tm_vol s4 = Some vol).
  { unfold swing_size_try. rewrite Hi. unfold cap_run. rewrite LA.
    change (sw_set_dhw s (dh_set_run (sw_dhw s) (qmin (dh_run (sw_dhw s)) (non_shed_hours sc)))) with (sw_set_run s (qmin (dh_run (sw_dhw s)) (non_shed_hours sc))).
    rewrite A3. rewrite A4. fold s3. cbv zeta. rewrite D1 in A5. rewrite A5. cbn [bind]. rewrite A6. cbn [bind]. rewrite A7. cbn [bind].
    unfold swing_size_ls. rewrite G. cbn [bind]. rewrite LC. cbn [bind]. rewrite R1. cbn [bind]. rewrite ST. cbn [bind].
    assert (T3 : sw_tm_vol s3 = Some vol) by (unfold s3; rewrite E1, <- TVE; destruct mo; reflexivity).
    destruct (qltb stor lstor); eexists; (split; [reflexivity|exact T3]). }
  destruct TRY as (s4 & TRY & T4). unfold swing_size. rewrite Hb. cbv zeta. rewrite TRY.
  destruct (bd_is_annual b); [rewrite BA|]; do 2 eexists; (split; [reflexivity|exact T4]).
Qed.
Print Assumptions C80_succeeds.

(** The swing-tank plant of C43 asked to rest for four hours of the evening after three hours of loading up. *)
Definition sw_ls_sched : schedule :=
  repeat "normal"%string 14 ++ repeat "loadUp"%string 3 ++ repeat "shed"%string 4 ++ repeat "normal"%string 3.
Definition sw_shed_controls : controls := mkControls (8 # 10) 120 (3 # 10) 140 150.
Definition sw_up_controls : controls := mkControls (3 # 10) 120 (5 # 100) 140 150.
Definition sw_ls_map : ctl_map :=
  [("normal"%string, mkControls (4 # 10) 120 (1 # 10) 140 150); ("loadUp"%string, sw_up_controls); ("shed"%string, sw_shed_controls)].
Example C80_case : exists s' b' s2 V C V2 C2 a k u g,
  swing_size sw_lib sw_system sw_building (Some sw_ls_sched) (Some sw_ls_map) 2 1 = (s', b', Ok tt) /\
  swing_size sw_lib (sw_set_run sw_system (qmin 16 (non_shed_hours sw_ls_sched))) sw_building None (Some sw_ls_map) 2 1 = (s2, sw_building, Ok tt) /\
  dh_min_stor (sw_dhw s') = Some V /\ dh_min_cap (sw_dhw s') = Some C /\
  dh_min_stor (sw_dhw s2) = Some V2 /\ dh_min_cap (sw_dhw s2) = Some C2 /\
  is_first_shed_run sw_ls_sched a k /\ load_up_before sw_ls_sched a u /\
  C2 <= C /\ V2 <= V /\ C * 1000 == g * rho_cp * (150 - 50).
Proof.
  destruct (strat_factor (sw_dhw sw_system) (Some sw_ls_map) 2 50) as [f|] eqn:F; [|vm_compute in F; discriminate].
  assert (N : exists s2, swing_size sw_lib (sw_set_run sw_system (qmin 16 (non_shed_hours sw_ls_sched))) sw_building None (Some sw_ls_map) 2 1 = (s2, sw_building, Ok tt)).
  { apply (C43_sizing_succeeds sw_lib _ sw_building None (Some sw_ls_map) 2 1 50 f); try reflexivity; try discriminate.
    - left. reflexivity.
    - exact F.
    - vm_compute in F. inversion F. discriminate.
    - intros x H. unfold sw_building, sw_shape in H. cbn in H. repeat (destruct H as [<-|H]; [discriminate|]). destruct H.
    - intros x H. unfold sw_building, sw_shape in H. cbn in H. repeat (destruct H as [<-|H]; [discriminate|]). destruct H.
    - intros x z H Z. unfold sw_building, sw_shape in H. cbn in H, Z.
      repeat (destruct H as [<-|H]; [repeat (destruct Z as [<-|Z]; [discriminate|]); destruct Z|]). destruct H. }
  destruct N as (s2 & N).
  assert (B1 : (if bd_is_annual sw_building then bd_set_daily sw_lib sw_building else Ok sw_building) = Ok sw_building) by reflexivity.
  destruct (C45_smallest_adequate sw_lib _ sw_building sw_building None _ 2 1 s2 _ _ B1 ltac:(discriminate) N) as (z & ca & cap & TV & _ & _ & ZI & _).
  destruct (supply_gal_100 (sw_dhw sw_system) (5 # 100) 140 2 50) as [lx|] eqn:Lx; [|vm_compute in Lx; discriminate].
  destruct (supply_gal_100 (sw_dhw sw_system) (8 # 10) 120 2 50) as [sx|] eqn:Sx; [|vm_compute in Sx; discriminate].
  assert (LT : sx < lx) by (vm_compute in Lx, Sx; injection Lx as <-; injection Sx as <-; reflexivity).
  assert (AV : forall x, In x (bd_avg sw_building) -> 0 <= x /\ bd_daily sw_building * x < 60 * qz z).
  { assert (Z40 : 40 <= qz z) by (clear - ZI; cbn in ZI; repeat (destruct ZI as [<-|ZI]; [discriminate|]); destruct ZI).
    intros x H. unfold sw_building, sw_shape in H. cbn in H. change (bd_daily sw_building) with 1500.
    clear - Z40 H. repeat (destruct H as [<-|H]; [split; lra|]). destruct H. }
  assert (LA : (24 <= length sw_ls_sched)%nat) by (cbn; lia).
  assert (PC : forall c, In c [mkControls (4 # 10) 120 (1 # 10) 140 150; ctl_load_up sw_ls_map (mkControls (4 # 10) 120 (1 # 10) 140 150); sw_shed_controls] ->
    exists x, strat_pct (sw_dhw sw_system) (ct_on_sensor c) (ct_on_trigger c) 2 = Ok x).
  { cbn [In]. intros c [<-|[<-|[<-|[]]]]; eexists; vm_compute; reflexivity. }
  assert (NE : ~ sx == lx) by (clear - LT; intro E; lra).
  destruct (C80_succeeds sw_lib sw_system sw_building sw_building sw_ls_sched sw_ls_map 2 1 s2 sw_building tt 50
    (mkControls (4 # 10) 120 (1 # 10) 140 150) sw_shed_controls lx sx (qz z) 17 B1 LA ltac:(lia) eq_refl eq_refl eq_refl N eq_refl ltac:(reflexivity) ltac:(discriminate)
    ltac:(reflexivity) ltac:(discriminate) ltac:(reflexivity) eq_refl TV AV PC Lx Sx NE) as (s' & b' & P & TV').
  destruct (C80_sized sw_lib sw_system sw_building sw_building sw_ls_sched sw_ls_map 2 1 s' b' tt s2 sw_building tt 50
      (mkControls (4 # 10) 120 (1 # 10) 140 150) sw_shed_controls lx sx (qz z) B1 ltac:(discriminate) eq_refl eq_refl P N eq_refl ltac:(reflexivity) ltac:(discriminate)
      ltac:(reflexivity) ltac:(reflexivity) ltac:(discriminate) ltac:(reflexivity) eq_refl TV' AV Lx Sx LT)
    as (cap' & V & C & V2 & C2 & a & k & u & shed & up & day & g & _ & SV & SC & SV2 & SC2 & RU & LU & _ & _ & _ & GE & CC & _ & VV & _).
  exists s', b', s2, V, C, V2, C2, a, k, u, g.
  split; [exact P|]. split; [exact N|]. split; [exact SV|]. split; [exact SC|]. split; [exact SV2|]. split; [exact SC2|]. split; [exact RU|]. split; [exact LU|].
  split; [exact CC|]. split; [exact VV|].
  change (dh_storage (sw_dhw sw_system)) with 150 in GE. change (dh_defrost (sw_dhw sw_system)) with 1 in GE. clear - GE. lra.
Qed.
