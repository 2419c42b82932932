(** Lemmas for C67: what construction by sizing computed. *)
From Verif Require Import Prelude M_StratifiedTank M_MixedTank M_EnergyTank M_Building M_Heater M_Sizing S_Integral S_Sizing
  L_Building L_Sizing L_Sizing2 L_Sizing3 L_Sizing4 M_Step S_Step M_Swing S_Swing M_MPRTP S_MPRTP M_Engine S_Engine S_EngineSize
  L_Step4 L_Swing4 L_MPRTP2 L_Engine L_Engine2 L_Engine5 P_Sizing.
Open Scope Q_scope.

Definition fresh (p : eparams) (run : Q) : dhw := mkDhw (ep_supply p) (ep_storage p) run (ep_defrost p) None None None.

Lemma new_sized dt p e : eng_new dt p = Ok e -> ep_volume p = None ->
  exists b, eng_building dt p = Ok b /\ eng_sized dt p b = Ok (en_building e, en_system e).
Proof.
  intros H V. unfold eng_new in H. destruct (bind_ok _ _ _ H) as (b & EB & H1). clear H. destruct (bind_ok _ _ _ H1) as ([b' s] & ES & H). clear H1.
  apply ok_inj in H. subst e. rewrite V in ES. exists b. auto.
Qed.

(** The systems sized by the common procedure. *)
Lemma sized_common dt p b b' s : eng_sized dt p b = Ok (b', s) ->
  exists sched m fract, eng_controls p = Ok (sched, m) /\
    match ep_ls p with None | Some [] => fract = 1 | Some _ => ls_fract (da_icdf dt) (ep_ls_percent p) = Ok fract end /\
    match s with
    | EPrimary d _ => exists w, dhw_size base_klass (da_lib dt) (fresh p (ep_run p)) b (Some sched) (Some m) (28 # 10) fract = (d, b', Ok w)
    | ESprtp d r f _ => exists w, ep_return p = Some r /\ ep_flow p = Some f /\
        dhw_size (sprtp_klass r f) (da_lib dt) (fresh p (ep_run p)) b (Some sched) (Some m) (17 # 10) fract = (d, b', Ok w)
    | EParallel l _ => exists r f, ep_return p = Some r /\ ep_flow p = Some f /\
        pl_size (da_lib dt) (mkPloop (fresh p (ep_run p)) r f (ep_tm_on_temp p) (ep_tm_off_temp p) (ep_tm_off_time p) (ep_tm_safety p) 1 None None)
          b (Some sched) (Some m) (28 # 10) fract = ((l, b'), Ok tt)
    | ESwing w _ => exists r f w0, ep_return p = Some r /\ ep_flow p = Some f /\
        sw_new (ep_supply p) (ep_storage p) r f (ep_tm_safety p) (ep_run p) (ep_defrost p) = Ok w0 /\
        swing_size (da_lib dt) w0 b (Some sched) (Some m) (28 # 10) fract = (w, b', Ok tt)
    | EMprtp x => exists r f, ep_return p = Some r /\ ep_flow p = Some f /\
        mp_from_size (da_lib dt) b (ep_supply p) (ep_storage p) r f 14 (ep_defrost p) (Some sched) (Some m) (8 # 10) 1 3 3 = (b', Ok x)
    | EInstant d => b' = b /\ instant_size (fresh p 24) b = Ok d
    end.
Proof.
  unfold eng_sized. intro H. destruct (bind_ok _ _ _ H) as ([sched m] & EC & H1). clear H. destruct (bind_ok _ _ _ H1) as (fract & EF & H). clear H1.
  exists sched, m, fract. split; [exact EC|]. split.
  { destruct (ep_ls p) as [[|z l]|]; [apply ok_inj in EF; auto|exact EF|apply ok_inj in EF; auto]. }
  clear EF EC. cbv zeta in H. destruct (kind_of (ep_schematic p)) as [[]|]; [| | | | | |discriminate].
  - unfold fs_primary in H. destruct (dhw_size _ _ _ _ _ _ _ _) as [[d b1] out] eqn:ES.
    destruct (bind_ok _ _ _ H) as (w & -> & H1). destruct (bind_ok _ _ _ H1) as (x & EP & H2). apply ok_inj in H2. apply pair_equal_spec in H2. destruct H2 as [<- <-].
    exists w. first [exact ES|reflexivity].
  - destruct (bind_ok _ _ _ H) as ([r f] & ER & H0). clear H. apply recirc_ok in ER. destruct ER as [ER EFl].
    cbn [fst snd] in H0. unfold fs_parallel in H0. cbv zeta in H0. destruct (pl_size _ _ _ _ _ _ _) as [[l b1] out] eqn:ES.
    destruct (bind_ok _ _ _ H0) as ([] & -> & H1). clear H0. destruct (bind_ok _ _ _ H1) as (x & EP & H2). clear H1.
    destruct (pl_tm_vol l) as [tv|]; [|discriminate]. destruct (pl_tm_cap l) as [tc|]; [|discriminate].
    destruct (bind_ok _ _ _ H2) as (ps & _ & H3). apply ok_inj in H3. apply pair_equal_spec in H3. destruct H3 as [<- <-].
    exists r, f. auto.
  - destruct (bind_ok _ _ _ H) as ([r f] & ER & H0). clear H. apply recirc_ok in ER. destruct ER as [ER EFl].
    cbn [fst snd] in H0. unfold fs_swing in H0. destruct (bind_ok _ _ _ H0) as (w0 & EW & H1). clear H0.
    destruct (swing_size _ _ _ _ _ _ _) as [[w b1] out] eqn:ES. destruct (bind_ok _ _ _ H1) as ([] & -> & H2). clear H1.
    destruct (dh_min_cap (sw_dhw w)) as [c|]; [|discriminate]. destruct (dh_min_stor (sw_dhw w)) as [v|]; [|discriminate].
    destruct (sw_tm_vol w) as [tv|]; [|discriminate]. apply ok_inj in H2. apply pair_equal_spec in H2. destruct H2 as [<- <-].
    exists r, f, w0. auto.
  - destruct (bind_ok _ _ _ H) as ([r f] & ER & H0). clear H. apply recirc_ok in ER. destruct ER as [ER EFl].
    cbn [fst snd] in H0. unfold fs_sprtp, sprtp_size in H0. destruct (dhw_size _ _ _ _ _ _ _ _) as [[d b1] out] eqn:ES.
    destruct (bind_ok _ _ _ H0) as (rc & ERC & H1). clear H0. destruct (bind_ok _ _ _ ERC) as (w & -> & _). clear ERC.
    destruct (bind_ok _ _ _ H1) as (x & EP & H2). apply ok_inj in H2. apply pair_equal_spec in H2. destruct H2 as [<- <-].
    exists w. auto.
  - destruct (bind_ok _ _ _ H) as ([r f] & ER & H0). clear H. apply recirc_ok in ER. destruct ER as [ER EFl]. cbn [fst snd] in H0.
    destruct (mp_from_size _ _ _ _ _ _ _ _ _ _ _ _ _ _) as [b1 out] eqn:ES. destruct (bind_ok _ _ _ H0) as (x & -> & H1). clear H0.
    apply ok_inj in H1. apply pair_equal_spec in H1. destruct H1 as [<- <-]. exists r, f. auto.
  - unfold fs_instant in H. destruct (bind_ok _ _ _ H) as (d & ED & H1). apply ok_inj in H1. apply pair_equal_spec in H1. destruct H1 as [<- <-]. auto.
Qed.

(** Controls of an engine without a schedule. *)
Lemma plain_controls p sched m : without_schedule p -> eng_controls p = Ok (sched, m) ->
  sched = repeat "normal"%string 24 /\
  m = [("normal"%string, mkControls (ep_aq p) (or_default (ep_on_t p) (ep_supply p)) (ep_off_sensor p) (or_default (ep_off_t p) (ep_storage p)) (ep_storage p))].
Proof.
  intros NS. unfold eng_controls. cbv zeta. destruct (ep_ls p) as [[|z l]|] eqn:E.
  - intro H. apply ok_inj in H. apply pair_equal_spec in H. destruct H as [<- <-]. auto.
  - exfalso. apply (NS (z :: l)). split; [exact E|discriminate].
  - intro H. apply ok_inj in H. apply pair_equal_spec in H. destruct H as [<- <-]. auto.
Qed.

Lemma plain_no_shift p sched m : without_schedule p -> eng_controls p = Ok (sched, m) -> no_load_shift (Some sched) (Some m).
Proof. intros NS H. destruct (plain_controls _ _ _ NS H) as [_ ->]. right. intros d E. inversion E. reflexivity. Qed.


(** A building with 24 hourly values is not switched. *)
Lemma daily_not_annual b : length (bd_peak b) = 24%nat -> bd_is_annual b = false.
Proof. intro L. unfold bd_is_annual. rewrite L. reflexivity. Qed.

Lemma mains_inlet b inlet : bd_design_inlet b = Ok (Some inlet) -> design_inlet b = Ok inlet.
Proof. intro H. unfold design_inlet. rewrite H. reflexivity. Qed.

Lemma sized_pooled dt p b b' s : eng_sized dt p b = Ok (b', s) -> pooled (type_of s) ->
  exists sched m fract K d w, eng_controls p = Ok (sched, m) /\
    match ep_ls p with None | Some [] => fract = 1 | Some _ => ls_fract (da_icdf dt) (ep_ls_percent p) = Ok fract end /\
    dhw_size K (da_lib dt) (fresh p (ep_run p)) b (Some sched) (Some m) (steepness (type_of s)) fract = (d, b', Ok w) /\
    dh_min_cap (sys_dhw s) = dh_min_cap d /\ dh_min_stor (sys_dhw s) = dh_min_stor d /\
    (K = base_klass /\ type_of s <> SinglePassRTP \/
     exists r f, ep_return p = Some r /\ ep_flow p = Some f /\ K = sprtp_klass r f /\ type_of s = SinglePassRTP).
Proof.
  intros H T. destruct (sized_common _ _ _ _ _ H) as (sched & m & fract & EC & EF & X). exists sched, m, fract.
  destruct s as [d x|l x|w x|d r f x|x|d]; cbn [type_of] in T; try (destruct T as [T|[T|T]]; discriminate); cbn [type_of steepness sys_dhw].
  - destruct X as (w & X). exists base_klass, d, w. repeat (split; [assumption || reflexivity|]). left. split; [reflexivity|discriminate].
  - destruct X as (r & f & _ & _ & X). destruct (pl_size_inv _ _ _ _ _ _ _ _ _ X) as (_ & (w & D) & _). cbn [pl_dhw] in D.
    exists base_klass, (pl_dhw l), w. repeat (split; [assumption || reflexivity|]). left. split; [reflexivity|discriminate].
  - destruct X as (w & ER & EFl & X). exists (sprtp_klass r f), d, w. repeat (split; [assumption || reflexivity|]). right. exists r, f. auto.
Qed.

Lemma pooled_running K (p : eparams) (t : system_type) s b cap rv :
  (K = base_klass /\ t <> SinglePassRTP \/
     exists r f, ep_return p = Some r /\ ep_flow p = Some f /\ K = sprtp_klass r f /\ t = SinglePassRTP) ->
  k_running K s b cap = Ok rv -> base_running s b cap = Ok rv.
Proof.
  intros [(-> & _)|(r & f & _ & _ & -> & _)] H; [exact H|]. cbn [k_running sprtp_klass] in H. unfold sprtp_running in H.
  destruct (bind_ok _ _ _ H) as (x & _ & H1). exact H1.
Qed.

(** The reservoir argument for any class with the base system's running volume. *)
Lemma reservoir s b cap rv factor V : base_running s b cap = Ok rv -> storage_volume rv factor = Ok V -> 0 <= factor ->
  fits_run_hours b (dh_run s) ->
  (forall start n, 0 <= level (V * factor) (steady (bd_daily b / dh_run s)) (demand_at (bd_daily b) (bd_peak b)) start n) /\
  (forall V', V' < V -> exists start n, (start < 24)%nat /\ (n <= 24)%nat /\
     level (V' * factor) (steady (bd_daily b / dh_run s)) (demand_at (bd_daily b) (bd_peak b)) start n < 0).
Proof.
  intros R T F0 (L & Hd & Hr & Hq).
  assert (Np : bd_peak b <> []) by (destruct (bd_peak b); [discriminate L|discriminate]).
  apply qdiv_inv in T. destruct T as [Z ->].
  unfold base_running in R. rewrite qdiv_ok in R by lra. cbn [bind] in R. apply ok_inj in R. subst rv.
  set (g := bd_daily b / dh_run s) in *.
  assert (G : g * dh_run s == bd_daily b) by (apply qdiv_mul; lra).
  assert (G0 : 0 <= g) by (apply qdiv_nonneg; assumption).
  assert (X : g * (dh_run s * qsum (bd_peak b)) <= g * 24).
  { rewrite !(Qmult_comm g). apply Qmult_le_compat_r; assumption. }
  assert (Y : bd_daily b * qsum (bd_peak b) <= g * qz (Z.of_nat (length (bd_peak b)))).
  { rewrite L. change (qz (Z.of_nat 24)) with 24. rewrite <- G. lra. }
  split.
  - intros start n.
    assert (E : forall t, steady g t - demand_at (bd_daily b) (bd_peak b) t == steady g t - demand_at (bd_daily b) (bd_peak b) t) by reflexivity.
    rewrite (level_ext _ _ _ _ _ _ start n (qdiv_mul _ factor Z) E). apply c35_never_negative; [exact Np|]. lra.
  - intros V' HV. rewrite <- L. apply c36_minimal; [exact Np|lra|].
    apply qlt_div_iff in HV; [exact HV|]. destruct (Qlt_le_dec 0 factor) as [P|P]; [exact P|]. exfalso. apply Z. lra.
Qed.

(** The stratification factor of an engine without a schedule. *)
Lemma one_control_factor s c slope inlet factor : strat_factor s (Some [("normal"%string, c)]) slope inlet = Ok factor ->
  exists x, supply_gal_100 s (ct_on_sensor c) (ct_on_trigger c) slope inlet = Ok x /\ factor = x / 100.
Proof.
  intro H. unfold strat_factor, map_of in H. cbn [dict_get] in H. change (String.eqb "normal" "normal") with true in H. cbn iota in H.
  destruct (bind_ok _ _ _ H) as (x & E & H1). apply ok_inj in H1. exists x. auto.
Qed.

Lemma supply_gal_total s of_ on m inl : 0 < m -> inl < dh_supply s -> exists x, supply_gal_100 s of_ on m inl = Ok x.
Proof.
  intros Hm Hi. unfold supply_gal_100. rewrite !(qdiv_ok _ m) by lra. cbn [bind]. cbv zeta. rewrite !(qdiv_ok _ (dh_supply s - inl)) by lra. cbn [bind].
  destruct (Qle_bool 100 _); eexists; reflexivity.
Qed.

Lemma usable_nonneg of_ on m sup sto inl h : inl < sup -> 0 <= usable_at of_ on m sup sto inl h.
Proof.
  intro Hi. unfold usable_at. destruct (qltb h of_); [lra|]. destruct (qltb _ sup) eqn:E; [lra|]. qbool. apply qdiv_nonneg; lra.
Qed.

Lemma supply_gal_nonneg s of_ on m inl x : 0 < m -> 0 <= of_ -> inl < dh_supply s -> dh_supply s <= dh_storage s -> on <= dh_storage s ->
  supply_gal_100 s of_ on m inl = Ok x -> 0 <= x.
Proof.
  intros Hm Ho Hi Hs Hn H. pose proof (supply_gal_integral _ _ _ _ _ _ Hm Ho Hi Hs Hn H [100]) as X. cbn in X.
  destruct X as [X _]; [split; [discriminate|reflexivity]|]. pose proof (usable_nonneg (of_ * 100) on m _ (dh_storage s) _ 0 Hi). lra.
Qed.

(** The tank holds some usable water at the trigger: the factor is positive. *)
Lemma supply_gal_pos s of_ on m inl x : 0 < m -> 0 <= of_ -> of_ < 1 -> inl < dh_supply s -> dh_supply s <= dh_storage s -> on <= dh_storage s ->
  of_ * 100 + (dh_supply s - on) / m < 100 -> supply_gal_100 s of_ on m inl = Ok x -> 0 < x.
Proof.
  intros Hm Ho H1 Hi Hs Hn Hh H. pose proof (supply_gal_integral _ _ _ _ _ _ Hm Ho Hi Hs Hn H) as X.
  set (hh := qmax (of_ * 100) (of_ * 100 + (dh_supply s - on) / m)).
  assert (Q1 : of_ * 100 <= hh /\ of_ * 100 + (dh_supply s - on) / m <= hh /\ hh < 100).
  { unfold hh, qmax. destruct (Qle_bool _ _) eqn:E; qbool; lra. }
  destruct Q1 as (A & B & C). assert (D : 0 <= hh) by lra.
  specialize (X [hh; 100]). cbn in X. destruct X as [X _]; [repeat split; [exact D|lra]|].
  pose proof (usable_nonneg (of_ * 100) on m _ (dh_storage s) _ 0 Hi) as U0.
  assert (U1 : 1 <= usable_at (of_ * 100) on m (dh_supply s) (dh_storage s) inl hh).
  { unfold usable_at. destruct (qltb hh (of_ * 100)) eqn:E; qbool; [lra|].
    assert (T : dh_supply s <= trigger_profile (of_ * 100) on m (dh_storage s) hh).
    { unfold trigger_profile. assert (L : dh_supply s <= on + (hh - of_ * 100) * m).
      { assert (Z : (dh_supply s - on) / m * m == dh_supply s - on) by (apply qdiv_mul; lra).
        assert (Y : (dh_supply s - on) / m * m <= (hh - of_ * 100) * m) by (apply Qmult_le_compat_r; lra). lra. }
      unfold qmin. destruct (Qle_bool _ _) eqn:E2; qbool; lra. }
    destruct (qltb _ (dh_supply s)) eqn:E3; qbool; [lra|].
    apply qle_div_iff; lra. }
  assert (P : 0 <= hh * usable_at (of_ * 100) on m (dh_supply s) (dh_storage s) inl 0) by (apply Qmult_le_0_compat; lra).
  assert (P2 : (100 - hh) * 1 <= (100 - hh) * usable_at (of_ * 100) on m (dh_supply s) (dh_storage s) inl hh).
  { rewrite !(Qmult_comm (100 - hh)). apply Qmult_le_compat_r; lra. }
  lra.
Qed.
