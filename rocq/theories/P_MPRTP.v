(** C48, C49 and part of C38: mixing valve and sizing of multi-pass systems.  Vocabulary in S_MPRTP. *)
From Verif Require Import Prelude S_Integral L_Integral M_StratifiedTank M_EnergyTank M_MixedTank L_MixedTank M_Building L_Building M_Heater M_Sizing S_Sizing
  L_Sizing2 L_Sizing3 L_Sizing4 M_SimRun M_Step M_MPRTP S_MPRTP L_MPRTP L_AvgHot L_MPRTP2 P_Sizing.
Open Scope Q_scope.

(** ** C48 Mixing valve *)

(** Whenever the valve answers, the water drawn gives up exactly the heat users and loop take. *)
Theorem C48_heat : forall load flow cold supply ret hot d i,
  mixing_valve load flow cold supply ret hot = Ok (d, i) ->
  d * (hot - i) == load * (supply - cold) + flow * (supply - ret).
Proof. exact valve_heat. Qed.
Print Assumptions C48_heat.

(** Ordinary operation: the draw is positive and the returning water is between mains and loop
    return.  If the load dominates, only mains water returns and no more than the load is drawn; if the
    loop dominates, the draw serves load and loop as if all water returned at loop temperature, and
    is at least the load.  At the boundary both descriptions hold. *)
Theorem C48_regimes : forall load flow cold supply ret hot d i,
  ordinary load flow cold supply ret hot ->
  mixing_valve load flow cold supply ret hot = Ok (d, i) ->
  0 < d /\ cold <= i <= ret /\
  (flow * (supply - ret) <= load * (hot - supply) ->
     d * (hot - cold) == load * (supply - cold) + flow * (supply - ret) /\ i == cold /\ d <= load) /\
  (load * (hot - supply) <= flow * (supply - ret) ->
     d * (hot - ret) == (load + flow) * (supply - ret) /\ i * d == load * cold + (d - load) * ret /\ load <= d).
Proof.
  intros load flow cold supply ret hot d i O H. destruct (valve_ordinary _ _ _ _ _ _ _ _ O H) as (A & B & C & D).
  split; [exact A|]. split; [exact B|]. split; [exact C|]. intro L. destruct (D L) as [D1 D2]. split; [exact D1|]. split; [|exact D2].
  pose proof (valve_heat _ _ _ _ _ _ _ _ H) as E. unfold heat_taken in E.
  assert (X : d * (hot - i) == d * (hot - ret) + d * ret - i * d) by ring. rewrite X, D1 in E.
  assert (Y : (load + flow) * (supply - ret) == load * (supply - ret) + flow * (supply - ret)) by ring.
  assert (Z : load * cold + (d - load) * ret == d * ret + load * (supply - ret) - load * (supply - cold)) by ring.
  lra.
Qed.
Print Assumptions C48_regimes.

(** In ordinary operation the valve answers unless nothing is needed. *)
Theorem C48_answers : forall load flow cold supply ret hot,
  ordinary load flow cold supply ret hot -> 0 < load \/ 0 < flow * (supply - ret) ->
  exists d i, mixing_valve load flow cold supply ret hot = Ok (d, i).
Proof. exact valve_total. Qed.
Print Assumptions C48_answers.

(** Storage colder than supply: only mains water returns and more than the load is drawn. *)
Theorem C48_cold_storage : forall load flow cold supply ret hot d i,
  0 < load -> 0 <= flow -> ret <= supply -> cold < hot -> hot < supply ->
  mixing_valve load flow cold supply ret hot = Ok (d, i) -> i = cold /\ load < d.
Proof.
  intros load flow cold supply ret hot d i L F R C S0 H.
  assert (FN : 0 <= flow * (supply - ret)) by (apply qmul_nonneg; lra).
  destruct (valve_inv _ _ _ _ _ _ _ _ H) as [_ [(_ & _ & -> & E1)|(Q & _ & _ & _ & _)]].
  - split; [reflexivity|]. apply Qmult_lt_r with (hot - cold); [lra|]. rewrite E1. unfold heat_taken.
    pose proof (qmul_pos load (supply - hot) L ltac:(lra)) as P. assert (X : load * (supply - hot) == load * (supply - cold) - load * (hot - cold)) by ring. lra.
  - exfalso. assert (X : flow * (supply - ret) / (hot - supply) <= 0).
    { assert (Y : flow * (supply - ret) / (hot - supply) == - (flow * (supply - ret) / (supply - hot))) by (field; split; lra). rewrite Y.
      assert (0 <= flow * (supply - ret) / (supply - hot)) by (apply qdiv_nonneg; lra). lra. }
    lra.
Qed.
Print Assumptions C48_cold_storage.

(** The valve only ever raises ZeroDivisionError, exactly in these cases. *)
Theorem C48_raises : forall load flow cold supply ret hot,
  (forall e, mixing_valve load flow cold supply ret hot = Err e -> e = ZeroDivisionError) /\
  (mixing_valve load flow cold supply ret hot = Err ZeroDivisionError <->
   hot == supply \/
   (~ hot == supply /\ flow * (supply - ret) / (hot - supply) < load /\ hot == cold) \/
   (~ hot == supply /\ load <= flow * (supply - ret) / (hot - supply) /\ (hot == ret \/ (load + flow) * (supply - ret) == 0))).
Proof. intros. split; [intros e; apply valve_err|apply valve_err_iff]. Qed.
Print Assumptions C48_raises.

(** With storage between mains and infinity, this means: storage at supply temperature, storage at
    mains temperature, or nothing to deliver and no loop loss. *)
Theorem C48_raises_in_range : forall load flow cold supply ret hot,
  0 <= load -> 0 <= flow -> cold <= ret -> cold < supply -> ret <= supply -> cold <= hot ->
  (mixing_valve load flow cold supply ret hot = Err ZeroDivisionError <->
   hot == supply \/ hot == cold \/ (load == 0 /\ flow * (supply - ret) == 0)).
Proof.
  intros load flow cold supply ret hot A B C D E F.
  assert (FN : 0 <= flow * (supply - ret)) by (apply qmul_nonneg; lra).
  assert (LN : 0 <= load * (supply - ret)) by (apply qmul_nonneg; lra).
  assert (XE : (load + flow) * (supply - ret) == load * (supply - ret) + flow * (supply - ret)) by ring.
  assert (LO : hot < supply -> flow * (supply - ret) / (hot - supply) <= 0 /\ (0 < flow * (supply - ret) -> flow * (supply - ret) / (hot - supply) < 0)).
  { intro L. assert (Y : flow * (supply - ret) / (hot - supply) == - (flow * (supply - ret) / (supply - hot))) by (field; split; lra).
    split; [rewrite Y; assert (0 <= flow * (supply - ret) / (supply - hot)) by (apply qdiv_nonneg; lra); lra|].
    intro P. rewrite Y. assert (0 < flow * (supply - ret) / (supply - hot)) by (apply qdiv_pos; lra). lra. }
  assert (HI : supply < hot -> 0 <= flow * (supply - ret) / (hot - supply) /\
     (load <= flow * (supply - ret) / (hot - supply) -> load * (hot - supply) <= flow * (supply - ret))).
  { intro L. split; [apply qdiv_nonneg; lra|]. intro P. apply qle_div_iff in P; lra. }
  rewrite valve_err_iff. split.
  - intros [H|[(N & L & H)|(N & L & H)]]; [left; exact H|right; left; exact H|].
    destruct (Qlt_le_dec hot supply) as [G|G].
    + destruct (LO G) as [L1 L2]. right. right. assert (Z : flow * (supply - ret) == 0) by (destruct (Qlt_le_dec 0 (flow * (supply - ret))) as [P|P]; [specialize (L2 P); lra|lra]).
      split; [lra|exact Z].
    + destruct (HI ltac:(lra)) as [_ L2]. specialize (L2 L). destruct H as [H|H]; [lra|]. right. right.
      assert (Z : flow * (supply - ret) == 0) by lra. split; [|exact Z].
      assert (P : 0 <= load * (hot - supply)) by (apply qmul_nonneg; lra).
      assert (W : load * (hot - supply) == 0) by lra. apply Qmult_integral in W. destruct W as [W|W]; [exact W|exfalso; lra].
  - destruct (Qeq_dec hot supply) as [G|G]; [intros _; left; exact G|]. intros [H|[H|(H1 & H2)]]; [left; exact H| |].
    + destruct (Qlt_le_dec hot supply) as [G1|G1]; [|lra]. destruct (LO G1) as [L1 L2].
      destruct (Qlt_le_dec (flow * (supply - ret) / (hot - supply)) load) as [P|P]; [right; left; auto|].
      right. right. split; [exact G|]. split; [exact P|]. right.
      assert (Z : flow * (supply - ret) == 0) by (destruct (Qlt_le_dec 0 (flow * (supply - ret))) as [P'|P']; [specialize (L2 P'); lra|lra]).
      assert (load == 0) by lra. rewrite XE, Z, H0. ring.
    + right. right. split; [exact G|]. split.
      * assert (W : flow * (supply - ret) / (hot - supply) == 0) by (rewrite H2; unfold Qdiv; ring). rewrite W, H1. apply Qle_refl.
      * right. rewrite XE, H1, H2. ring.
Qed.
Print Assumptions C48_raises_in_range.

(** Four gallons at 120 with mains at 50 from a 150-degree tank, and one gallon of loop flow coming
    back at 110 (load dominates); one gallon of load and nine of loop flow (loop dominates). *)
Example C48_case : ordinary 4 1 50 120 110 150 /\ ordinary 1 9 50 120 110 150 /\
  (exists d, mixing_valve 4 1 50 120 110 150 = Ok (d, 50) /\ d == 29 # 10) /\
  (exists d i, mixing_valve 1 9 50 120 110 150 = Ok (d, i) /\ d == 5 # 2 /\ i == 86).
Proof.
  split; [split; discriminate || reflexivity|]. split; [split; discriminate || reflexivity|]. split.
  - eexists. split; [reflexivity|]. vm_compute. reflexivity.
  - eexists. eexists. split; [reflexivity|]. split; vm_compute; reflexivity.
Qed.

(** ** C38 The hot water's average at the on-trigger *)

(** The average temperature of the water at least as hot as supply in a tank at its on-trigger is the
    mean of the linear profile through the sensor reading, capped at storage temperature, over the part
    of the tank above the supply temperature; supply temperature if there is none. *)
Theorem C38_average_hot : forall s sensor trigger slope x,
  0 < slope -> 0 <= sensor -> trigger <= dh_storage s -> dh_supply s <= dh_storage s ->
  avg_hot_temp s sensor trigger slope = Ok x ->
  let bottom := qmax 0 (sensor * 100 + (dh_supply s - trigger) / slope) in
  (forall h, bottom <= h -> dh_supply s <= trigger_profile (sensor * 100) trigger slope (dh_storage s) h) /\
  (forall h, 0 <= h -> h < bottom -> trigger_profile (sensor * 100) trigger slope (dh_storage s) h < dh_supply s) /\
  (bottom < 100 -> is_mean (trigger_profile (sensor * 100) trigger slope (dh_storage s)) bottom 100 x) /\
  (100 <= bottom -> x = dh_supply s).
Proof.
  intros s sensor trigger slope x Hm Ho H1 H2 H bottom.
  assert (EB : (sensor * 100 + (dh_supply s - trigger) / slope - sensor * 100) * slope == dh_supply s - trigger) by (field; lra).
  destruct (avg_hot_mean _ _ _ _ _ Hm Ho H1 H2 H) as [A B]. cbv zeta in A, B. subst bottom.
  set (hs := sensor * 100 + (dh_supply s - trigger) / slope) in *. clearbody hs. set (p := sensor * 100) in *. clearbody p.
  split; [|split; [|split; [exact A|exact B]]].
  - intros h L. unfold trigger_profile. pose proof (qmax_r 0 hs). apply qmin_glb; [exact H2|].
    pose proof (qmul_nonneg (h - hs) slope ltac:(lra) ltac:(lra)) as P. assert (X : (h - hs) * slope == (h - p) * slope - (hs - p) * slope) by ring. lra.
  - intros h L0 L. unfold trigger_profile. assert (LH : h < hs) by (destruct (qmax_spec 0 hs) as [[_ U]|[_ U]]; rewrite U in L; lra).
    pose proof (qmul_pos (hs - h) slope ltac:(lra) Hm) as P. assert (X : (hs - h) * slope == (hs - p) * slope - (h - p) * slope) by ring.
    eapply Qle_lt_trans; [apply qmin_r|]. lra.
Qed.
Print Assumptions C38_average_hot.

Example C38_average_case : exists x, avg_hot_temp ex_dhw (1 # 5) 110 2 = Ok x /\ x == 147 /\
  qmax 0 ((1 # 5) * 100 + (120 - 110) / 2) == 25.
Proof. eexists. split; [reflexivity|]. split; vm_compute; reflexivity. Qed.

(** ** C49 Growing-slug sizing *)

(** What a successful sizing returns.  The capacity meets the daily demand and 24 hours of loop loss
    in the run hours.  With [hot] the coldest average hot-water temperature of the controls, [draw i] gallons at
    [inl i] enter the tank in minute [i] of two days of peak demand.  The heater works on the water
    entered since the last time everything was hot (a batch).  Storage times stratification factor is
    the volume of the largest batch. *)
Theorem C49_sized : forall ret flow lib s b d slope s' b' inlet,
  mp_size ret flow lib s b (Some d) slope = (s', b', Ok tt) -> design_inlet b = Ok inlet ->
  0 < slope -> dh_supply s < dh_storage s -> 0 <= flow -> inlet <= ret -> inlet < dh_supply s -> ret <= dh_supply s ->
  (forall k c, In (k, c) d -> 0 <= ct_on_sensor c /\ ct_on_trigger c <= dh_storage s /\
     ct_on_sensor c * 100 + (dh_supply s - ct_on_trigger c) / slope < 100) ->
  (forall b1 t x, (if bd_is_annual b then bd_set_daily lib b else Ok b) = Ok b1 -> bd_load b1 t 1 false = Ok x -> 0 <= x) ->
  exists b1 cap V factor hot draw inl,
    (if bd_is_annual b then bd_set_daily lib b else Ok b) = Ok b1 /\
    s' = mkDhw (dh_supply s) (dh_storage s) (dh_run s) (dh_defrost s) (Some cap) (Some V) (Some slope) /\
    cap * 1000 * dh_defrost s * dh_run s ==
      bd_daily b * rho_cp * (dh_supply s - inlet) + 24 * (flow * 60) * rho_cp * (dh_supply s - ret) /\
    strat_factor s (Some d) slope inlet = Ok factor /\
    (exists k c, In (k, c) d /\ avg_hot_temp s (ct_on_sensor c) (ct_on_trigger c) slope = Ok hot) /\
    (forall k c, In (k, c) d -> exists x, avg_hot_temp s (ct_on_sensor c) (ct_on_trigger c) slope = Ok x /\ hot <= x) /\
    (forall i, (i < 2880)%nat -> exists x, bd_load b1 (Z.of_nat i) 1 false = Ok x /\
       mixing_valve x flow inlet (dh_supply s) ret hot = Ok (draw i, inl i)) /\
    (forall a n, (a + n <= 2880)%nat -> batch_waits draw inl (cap * 1000 / 60) (dh_storage s) a n -> batch_vol draw a n <= V * factor) /\
    (V * factor == 0 \/ exists a n, (0 < n)%nat /\ (a + n <= 2880)%nat /\
       batch_waits draw inl (cap * 1000 / 60) (dh_storage s) a n /\ V * factor == batch_vol draw a n).
Proof.
  intros ret flow lib s b d slope s' b' inlet H HI Hm HS FN I1 I2 I3 HC HL.
  destruct (mp_size_inv _ _ _ _ _ _ _ _ _ H) as (b1 & d' & l & hot & cap & rv & inlet' & f & stor & Ed & _ & EB & El & Eh & Ec & Er & Ei & Ef & Es & -> & _).
  injection Ed as <-. pose proof (design_inlet_daily _ _ _ EB) as DI. destruct (set_daily_fields _ _ _ EB) as [_ BD].
  assert (inlet' = inlet) by congruence. subst inlet'.
  pose proof (hot_of_controls _ _ _ _ _ Hm HS HC El Eh) as HH.
  destruct (mp_running_spec _ _ _ _ _ _ _ _ Ei Er (fun t x => HL b1 t x EB) FN I1 I2 I3 HH) as (draw & inl & P1 & P2 & P3).
  exists b1, cap, stor, f, hot, draw, inl. unfold storage_volume in Es. destruct (qdiv_inv _ _ _ Es) as [NF ->]. pose proof (qdiv_mul rv f NF) as VF.
  split; [exact EB|]. split; [reflexivity|]. split; [rewrite <- BD; apply rtp_capacity_inv; assumption|]. split; [exact Ef|].
  apply py_min_le in Eh. destruct Eh as [M1 M2]. apply mapM_in in El. destruct El as [L1 L2].
  split; [destruct (L2 _ M1) as ([k c] & X & Y); exists k, c; auto|].
  split; [intros k c X; destruct (L1 _ X) as (y & Y1 & Y2); exists y; split; [exact Y1|apply M2; exact Y2]|].
  split; [exact P1|]. split.
  - intros a n L W. rewrite VF. exact (P2 a n L W).
  - destruct P3 as [P3|(a & n & A1 & A2 & A3 & A4)]; [left; rewrite VF; exact P3|]. right. exists a, n. repeat (split; [assumption|]). rewrite VF. exact A4.
Qed.
Print Assumptions C49_sized.

(** The building is handed back as it was, and shed controls are never sized. *)
Theorem C49_restores : forall ret flow lib s b m slope s' b' out,
  mp_size ret flow lib s b m slope = (s', b', out) -> (bd_is_annual b = true -> library_annual lib b) ->
  b' = b /\ dh_supply s' = dh_supply s /\ dh_storage s' = dh_storage s /\ dh_run s' = dh_run s /\ dh_defrost s' = dh_defrost s /\
  (out <> Ok tt -> s' = s).
Proof.
  intros ret flow lib s b m slope s' b' out H HL. unfold mp_size in H.
  destruct (is_load_shifting m); [apply pair_equal_spec in H; destruct H as [H <-]; apply pair_equal_spec in H; destruct H as [<- <-]; auto 10|].
  destruct (if bd_is_annual b then bd_set_daily lib b else Ok b) as [b1|e] eqn:EB.
  2: { apply pair_equal_spec in H; destruct H as [H <-]; apply pair_equal_spec in H; destruct H as [<- <-]; auto 10. }
  destruct (mp_size_values ret flow s b1 m slope) as [[cap stor]|e].
  - rewrite (restore_annual_back lib b b1 (Ok tt) HL EB) in H. apply pair_equal_spec in H; destruct H as [H <-]; apply pair_equal_spec in H; destruct H as [<- <-].
    repeat (split; [reflexivity|]). congruence.
  - rewrite (restore_annual_back lib b b1 (Err e) HL EB) in H. apply pair_equal_spec in H; destruct H as [H <-]; apply pair_equal_spec in H; destruct H as [<- <-]; auto 10.
Qed.
Print Assumptions C49_restores.

(** Rejected configurations: controls for shed hours, no control map (the default argument), an empty
    one; and a tank whose trigger leaves no water hotter than supply cannot be sized. *)
Theorem C49_rejects : forall ret flow lib s b m slope,
  (forall d c, m = Some d -> dict_get d "shed" = Some c -> mp_size ret flow lib s b m slope = (s, b, Err ValueError)) /\
  (m = None -> bd_is_annual b = false -> mp_size ret flow lib s b m slope = (s, b, Err AttributeError)) /\
  (m = Some [] -> bd_is_annual b = false -> mp_size ret flow lib s b m slope = (s, b, Err ValueError)) /\
  (forall d k c cap inlet, m = Some d -> dict_get d "shed" = None -> bd_is_annual b = false -> bd_peak b <> [] ->
     0 < slope -> dh_supply s <= dh_storage s ->
     (forall k c, In (k, c) d -> 0 <= ct_on_sensor c /\ ct_on_trigger c <= dh_storage s) ->
     In (k, c) d -> 100 <= ct_on_sensor c * 100 + (dh_supply s - ct_on_trigger c) / slope ->
     rtp_capacity ret flow s b = Ok cap -> design_inlet b = Ok inlet ->
     mp_size ret flow lib s b m slope = (s, b, Err ZeroDivisionError)).
Proof.
  intros ret flow lib s b m slope. split; [|split; [|split]].
  - intros d c -> E. unfold mp_size, is_load_shifting, dict_has. rewrite E. reflexivity.
  - intros -> E. unfold mp_size. cbn [is_load_shifting]. rewrite E. reflexivity.
  - intros -> E. unfold mp_size. cbn. rewrite E. reflexivity.
  - intros d k c cap inlet -> E EA NP Hm HS HC HI HB Hc Hi. unfold mp_size, is_load_shifting, dict_has. rewrite E, EA.
    assert (V : mp_size_values ret flow s b (Some d) slope = Err ZeroDivisionError).
    { unfold mp_size_values.
      destruct (mapM_total (fun kc : string * controls => avg_hot_temp s (ct_on_sensor (snd kc)) (ct_on_trigger (snd kc)) slope) d) as (l & El);
        [intros x _; apply avg_hot_total; lra|].
      rewrite El. cbn [bind].
      assert (PM : exists hot, py_min l = Ok hot).
      { pose proof (mapM_length _ _ _ El) as LL. destruct l as [|y l]; [destruct d; [destruct HI|discriminate]|]. eexists. reflexivity. }
      destruct PM as (hot & Eh). rewrite Eh. cbn [bind]. rewrite Hc. cbn [bind].
      assert (HH : hot == dh_supply s).
      { destruct (py_min_le _ _ Eh) as [M1 M2]. apply mapM_in in El. destruct El as [L1 L2].
        assert (GE : forall x, In x l -> dh_supply s <= x).
        { intros x X. destruct (L2 _ X) as ([k' c'] & X' & Y). cbn [snd] in Y. destruct (HC _ _ X') as [C1 C2].
          destruct (C38_average_hot _ _ _ _ _ Hm C1 C2 HS Y) as (T1 & _ & T3 & T4).
          set (bot := qmax 0 _) in *. destruct (Qlt_le_dec bot 100) as [G|G]; [|rewrite (T4 G); apply Qle_refl].
          specialize (T3 G). unfold is_mean in T3. destruct (T3 [100]) as [LL _]; [cbn; split; [lra|reflexivity]|]. cbn [lower_sum] in LL.
          pose proof (T1 bot (Qle_refl bot)) as T. set (A := trigger_profile _ _ _ _ bot) in *. clearbody A bot.
          apply Qmult_le_r with (100 - bot); [lra|]. pose proof (qmul_nonneg (100 - bot) (A - dh_supply s) ltac:(lra) ltac:(lra)) as P.
          assert (Z : (100 - bot) * (A - dh_supply s) == (100 - bot) * A - dh_supply s * (100 - bot)) by ring. lra. }
        pose proof (GE _ M1) as G1. destruct (L1 _ HI) as (y & Y1 & Y2). cbn [snd] in Y1. destruct (HC _ _ HI) as [C1 C2].
        destruct (C38_average_hot _ _ _ _ _ Hm C1 C2 HS Y1) as (_ & _ & _ & T4).
        rewrite T4 in Y2; [|eapply Qle_trans; [exact HB|apply qmax_r]]. pose proof (M2 _ Y2). lra. }
      assert (LD : exists x, bd_load b 0 1 false = Ok x).
      { unfold bd_load. cbv zeta. destruct (bd_peak b) as [|p r]; [congruence|]. set (n := Z.of_nat (length (p :: r))). assert (N : (0 < n)%Z) by (unfold n; cbn [length]; lia).
        replace (n =? 0)%Z with false by lia. change (0 * 1 / 60)%Z with 0%Z. rewrite Z.mod_0_l by lia. eexists. reflexivity. }
      destruct LD as (x & Ex). unfold mp_running. rewrite Hi. cbn [bind].
      rewrite (grow_loop_first_err b (flow * 1) inlet (dh_supply s) ret (dh_storage s) hot (cap * 1 / 60) (2 * 24 * 60) 0 (mkGslug 0 inlet 0) x ZeroDivisionError);
        [reflexivity|lia|exact Ex|apply valve_err_iff; left; exact HH]. }
    rewrite V. unfold restore_annual. reflexivity.
Qed.
Print Assumptions C49_rejects.

(** Sizing succeeds for every system in ordinary operation. *)
Theorem C49_completes : forall ret flow lib s b b1 d slope inlet f,
  (if bd_is_annual b then bd_set_daily lib b else Ok b) = Ok b1 -> (bd_is_annual b = true -> library_annual lib b) ->
  dict_get d "shed" = None -> d <> [] ->
  0 < slope -> dh_supply s < dh_storage s ->
  (forall k c, In (k, c) d -> 0 <= ct_on_sensor c /\ ct_on_trigger c <= dh_storage s /\
     ct_on_sensor c * 100 + (dh_supply s - ct_on_trigger c) / slope < 100) ->
  design_inlet b = Ok inlet -> inlet < dh_supply s -> inlet <= ret -> ret <= dh_supply s -> 0 <= flow ->
  ~ dh_run s == 0 -> ~ dh_defrost s == 0 ->
  (forall t, exists x, bd_load b1 t 1 false = Ok x /\ 0 <= x /\ (0 < x \/ 0 < flow * (dh_supply s - ret))) ->
  strat_factor s (Some d) slope inlet = Ok f -> ~ f == 0 ->
  exists s', mp_size ret flow lib s b (Some d) slope = (s', b, Ok tt).
Proof.
  intros ret flow lib s b b1 d slope inlet f EB HL ES EN HM HS HC HI I1 I2 I3 FN R D HX HF NF.
  destruct (mp_size_total ret flow lib s b b1 d slope inlet f EB) as (s' & b' & E); try assumption.
  - intro A. exists b. rewrite A in EB. exact (daily_then_annual _ _ _ (HL A) EB).
  - rewrite (design_inlet_daily _ _ _ EB). exact HI.
  - exists s'. destruct (C49_restores _ _ _ _ _ _ _ _ _ _ E HL) as [-> _]. exact E.
Qed.
Print Assumptions C49_completes.

(** A 1000-gallon office with a loop of 3 gallons a minute returning at 110: sizing succeeds, so all of
    C49_sized applies. *)
Example C49_case : exists s', mp_size 110 3 ex_lib ex_dhw ex_building ex_map 2 = (s', ex_building, Ok tt).
Proof.
  destruct (strat_factor ex_dhw ex_map 2 50) as [f|] eqn:EF; [|vm_compute in EF; discriminate].
  refine (C49_completes 110 3 ex_lib ex_dhw ex_building ex_building [("normal"%string, ex_controls)] 2 50 f _ _ _ _ _ _ _ _ _ _ _ _ _ _ _ EF _);
    try reflexivity; try discriminate.
  - intros k c [E|[]]. injection E as _ <-. split; [discriminate|]. split; [discriminate|reflexivity].
  - intro t. assert (LD : exists x, bd_load ex_building t 1 false = Ok x).
    { rewrite bd_load_ok; [eexists; reflexivity|discriminate]. }
    destruct LD as (x & E). exists x. split; [exact E|]. split.
    + apply (daily_nonneg ex_building false t 1 x); [discriminate| |discriminate|exact E].
      intros y Y. cbn in Y. repeat (destruct Y as [<-|Y]; [discriminate|]). destruct Y.
    + right. reflexivity.
  - vm_compute in EF. injection EF as <-. discriminate.
Qed.

(** ** Boosting in from_size *)

(** A built system keeps the sized volume; its heater's capacity is the reported one and at least
    the sized one; temperatures and loop are the requested ones. *)
Theorem C49_boost : forall lib b supply storage ret flow run defrost sched m slope pu days iters b' x,
  mp_from_size lib b supply storage ret flow run defrost sched m slope pu days iters = (b', Ok x) ->
  exists s cap vol cap',
    mp_size ret flow lib (mkDhw supply storage run defrost None None None) b m slope = (s, b', Ok tt) /\
    dh_min_cap s = Some cap /\ dh_min_stor s = Some vol /\
    dh_min_cap (mb_dhw x) = Some cap' /\ cap <= cap' /\ dh_min_stor (mb_dhw x) = Some vol /\
    en_vol (sl_base (ms_tank (mb_sys x))) = vol /\
    (exists h, ms_heaters (mb_sys x) = [h] /\ wh_pm h = Some (PmNominal cap')) /\
    ms_supply (mb_sys x) = supply /\ ms_storage (mb_sys x) = storage /\ ms_return (mb_sys x) = ret /\ ms_flow (mb_sys x) = flow.
Proof.
  intros lib b supply storage ret flow run defrost sched m slope pu days iters b' x H. unfold mp_from_size in H.
  destruct (negb (sensors_ok m pu)); [apply pair_equal_spec in H; destruct H as [_ H]; discriminate|].
  destruct (mp_size ret flow lib _ b m slope) as [[s b1] out] eqn:E. apply pair_equal_spec in H. destruct H as [<- H].
  destruct (bind_ok _ _ _ H) as ([] & -> & H1). clear H. destruct (bind_ok _ _ _ H1) as (cold & _ & H). clear H1.
  destruct (dh_min_cap s) as [cap|] eqn:EC; [|discriminate]. destruct (dh_min_stor s) as [vol|] eqn:EV; [|discriminate]. cbv zeta in H.
  destruct (bind_ok _ _ _ H) as (di & _ & H1). clear H. destruct (bind_ok _ _ _ H1) as (c & _ & H). clear H1.
  destruct (bind_ok _ _ _ H) as ([s1 cap'] & EB & H1). clear H. apply ok_inj in H1. subst x. cbn [mb_dhw mb_sys dh_min_cap dh_min_stor fst snd].
  assert (B0 : boosted vol cap (mkMsys [wh_new (Some (PmNominal cap)) sched m] (sl_new vol cold storage supply pu slope) supply storage ret flow))
    by (split; [reflexivity|eexists; split; reflexivity]).
  destruct (boost_loop_boosted _ _ _ _ _ _ _ _ _ _ _ _ _ B0 EB) as ((B1 & B2) & L & T1 & T2 & T3 & T4).
  exists s, cap, vol, cap'. auto 20.
Qed.
Print Assumptions C49_boost.

(** Aquastats below the cold inlet are refused before anything is sized. *)
Theorem C49_sensor_below_inlet : forall lib b supply storage ret flow run defrost sched d slope pu days iters k c,
  pu < 1 -> In (k, c) d -> (ct_on_sensor c < 1 - pu \/ ct_off_sensor c < 1 - pu) ->
  mp_from_size lib b supply storage ret flow run defrost sched (Some d) slope pu days iters = (b, Err ValueError).
Proof.
  intros lib b supply storage ret flow run defrost sched d slope pu days iters k c P I L. unfold mp_from_size.
  assert (E : sensors_ok (Some d) pu = false).
  { unfold sensors_ok. apply qltb_true in P. rewrite P. cbn [map_of]. apply not_true_iff_false. intro F. rewrite forallb_forall in F. specialize (F _ I). cbn [snd] in F.
    apply andb_prop in F. destruct F as [F1 F2]. apply negb_true_iff in F1, F2. apply qltb_false in F1. apply qltb_false in F2. destruct L; lra. }
  rewrite E. reflexivity.
Qed.
Print Assumptions C49_sensor_below_inlet.

Example C49_boost_case : exists x,
  mp_from_size ex_lib ex_building 120 150 110 3 16 1 None ex_map 2 (9 # 10) 2 0 = (ex_building, Ok x).
Proof.
  destruct C49_case as (s' & E). unfold mp_from_size. change (negb (sensors_ok ex_map (9 # 10))) with false. cbn [negb].
  unfold ex_dhw in E. rewrite E.
  destruct (mp_size_inv _ _ _ _ _ _ _ _ _ E) as (b1 & d' & l & hot & cap & rv & inlet' & f & stor & _ & _ & _ & _ & _ & _ & _ & _ & _ & _ & -> & _).
  eexists. cbn [bind dh_set_results dh_min_cap dh_min_stor]. reflexivity.
Qed.
