(** Runs of swing-tank systems. *)
From Verif Require Import Prelude M_StratifiedTank S_StratifiedTank L_StratifiedTank L_StratifiedTank2 L_StratifiedTank3
  M_MixedTank L_MixedTank M_Building L_Building M_Heater S_Heater L_Heater M_Sizing M_SimRun S_SimRun L_SimRun L_SimMisc L_Sizing3 M_Step S_Step L_Step L_Step2 L_Step3 L_Step5.
Open Scope Q_scope.

Lemma swing_step_inv b w t iv w' o : swing_sim_step b w t iv = Ok (w', o) ->
  exists outlet hs tk1 hw feed sw1 sw2 el sw3 tk2 tm_out,
    bd_load b t iv (existsb wh_load_shifting (ws_heaters w)) = Ok (so_demand o) /\
    bd_oat b t iv = Ok (so_oat o) /\ bd_inlet b t iv = Ok (so_inlet o) /\
    outlet_for (ws_heaters w) (ws_storage w) (hour_of t iv) = Ok outlet /\
    mapM (fun h => wh_update h (st_temp (ws_tank w)) (hour_of t iv)) (ws_heaters w) = Ok hs /\
    total_output hs (so_oat o) (so_inlet o) (hour_of t iv) = Ok (so_output o) /\
    st_heat (ws_tank w) (so_output o) (qz iv) outlet = Ok tk1 /\
    swing_draw w (so_demand o) (so_inlet o) = Ok hw /\ st_avg tk1 hw = Ok feed /\
    mx_inflow (ws_swing w) hw feed = Ok sw1 /\ mx_fixed_loss sw1 (ws_loss w) (qz iv) = Ok sw2 /\
    wh_update (ws_element w) (fun f => Ok (mx_temp_at sw2 f)) (hour_of t iv) = Ok el /\
    wh_output el (Some (so_oat o)) (mx_temp sw2) None = Ok tm_out /\
    (exists x, mx_heat sw2 tm_out (qz iv) x = Ok sw3) /\
    st_draw_physical tk1 hw (so_inlet o) (Some (ws_supply w)) = Ok tk2 /\
    (if qltb (mx_temp (ws_swing w)) (ws_supply w) then Ok 0 else st_usable tk2 (ws_supply w)) = Ok (so_usable o) /\
    six_temps tk2 = Ok (so_temps o) /\
    w' = mkWsys hs tk2 (ws_supply w) (ws_storage w) (ws_return w) (ws_flow w) sw3 el /\
    so_tm_temp o = Some (mx_temp sw3) /\ so_tm_output o = Some tm_out /\ so_tm_kw o = Some (tm_out / w_to_kbtuh) /\
    so_delivery o = Some (mx_temp sw3) /\ mode_for (ws_heaters w) (hour_of t iv) = Ok (so_mode o).
Proof.
  unfold swing_sim_step. intro H.
  destruct (bind_ok _ _ _ H) as (d & Ed & H1). clear H. destruct (bind_ok _ _ _ H1) as (oat & Eo & H2). clear H1.
  destruct (bind_ok _ _ _ H2) as (inlet & Ei & H3). clear H2. cbv zeta in H3.
  destruct (bind_ok _ _ _ H3) as (outlet & Eout & H4). clear H3. destruct (bind_ok _ _ _ H4) as (mode & Em & H5). clear H4.
  destruct (bind_ok _ _ _ H5) as (hs & Ehs & H6). clear H5. destruct (bind_ok _ _ _ H6) as (x0 & _ & H7). clear H6.
  destruct (bind_ok _ _ _ H7) as (q & Eq & H8). clear H7. destruct (bind_ok _ _ _ H8) as (kws & Ek & H9). clear H8.
  destruct (bind_ok _ _ _ H9) as (tk1 & E1 & H10). clear H9. destruct (bind_ok _ _ _ H10) as (hw & Ehw & H11). clear H10.
  destruct (bind_ok _ _ _ H11) as (feed & Ef & H12). clear H11. destruct (bind_ok _ _ _ H12) as (sw1 & Es1 & H13). clear H12.
  destruct (bind_ok _ _ _ H13) as (sw2 & Es2 & H14). clear H13. destruct (bind_ok _ _ _ H14) as (el & Eel & H15). clear H14.
  destruct (bind_ok _ _ _ H15) as (tmo & Etm & H16). clear H15. destruct (bind_ok _ _ _ H16) as (tkw & _ & H17). clear H16.
  destruct (bind_ok _ _ _ H17) as (ctl & _ & H18). clear H17. destruct (bind_ok _ _ _ H18) as (off & _ & H19). clear H18.
  destruct (bind_ok _ _ _ H19) as (sw3 & Es3 & H20). clear H19. destruct (bind_ok _ _ _ H20) as (tk2 & E2 & H21). clear H20.
  destruct (bind_ok _ _ _ H21) as (u & Eu & H22). clear H21. destruct (bind_ok _ _ _ H22) as (ts & Ets & H23). clear H22.
  apply ok_inj in H23. apply pair_equal_spec in H23. destruct H23 as [<- <-].
  exists outlet, hs, tk1, hw, feed, sw1, sw2, el, sw3, tk2, tmo.
  cbn [so_demand so_oat so_inlet so_output so_usable so_temps so_tm_temp so_tm_output so_tm_kw so_delivery so_mode].
  repeat (split; [first [assumption | reflexivity | eexists; exact Es3]|]). exact Em.
Qed.

Definition swing_inv (w0 w : wsys) : Prop :=
  Forall2 same_heater (ws_heaters w0) (ws_heaters w) /\ ws_supply w = ws_supply w0 /\ ws_storage w = ws_storage w0 /\
  ws_return w = ws_return w0 /\ ws_flow w = ws_flow w0 /\ st_wf (ws_tank w) /\ st_vol (ws_tank w) = st_vol (ws_tank w0) /\
  st_slope (ws_tank w) = st_slope (ws_tank w0) /\ mx_vol (ws_swing w) = mx_vol (ws_swing w0) /\
  same_heater (ws_element w0) (ws_element w).

Lemma physical_draw_keeps t g c s t' : st_wf t -> st_draw_physical t g c s = Ok t' ->
  st_wf t' /\ st_vol t' = st_vol t /\ st_slope t' = st_slope t /\ st_inlet t' = c /\ st_outlet t' = st_outlet t.
Proof.
  intros W H. destruct (st_draw_physical_shape t g c s W) as (x & Ex & A & B). rewrite Ex in H. apply ok_inj in H. subst x.
  destruct (Qlt_le_dec 0 g) as [P|P]; [rewrite (B P)|rewrite (A P)]; cbn; (split; [exact W|repeat split; reflexivity]).
Qed.

Lemma fixed_loss_keeps m k d m' : 0 < mx_vol m -> 0 <= k -> 0 <= d -> mx_fixed_loss m k d = Ok m' ->
  mx_vol m' = mx_vol m /\ mx_temp m' == mx_temp m - k * d / 60 * 1000 / (mx_vol m * rho_cp).
Proof.
  intros V K D H. unfold mx_fixed_loss in H. destruct (Qle_bool k 0 || Qle_bool d 0)%bool eqn:E; qbool.
  - apply ok_inj in H. subst m'. split; [reflexivity|]. destruct E as [E|E]; qbool.
    + assert (Z : k == 0) by lra. rewrite Z. unfold Qdiv. ring.
    + assert (Z : d == 0) by lra. rewrite Z. unfold Qdiv. ring.
  - rewrite qdiv_ok in H by (pose proof rho_pos; nra). cbn [bind] in H. apply ok_inj in H. subst m'. split; reflexivity.
Qed.

Lemma mx_heat_keeps m k d h m' : 0 < mx_vol m -> 0 <= k -> mx_heat m k d h = Ok m' ->
  mx_vol m' = mx_vol m /\ mx_temp m' == mx_temp m + k * d / 60 * 1000 / (mx_vol m * rho_cp).
Proof.
  intros V K H. unfold mx_heat in H. destruct (Qle_bool k 0) eqn:E; qbool.
  - apply ok_inj in H. subst m'. split; [reflexivity|]. assert (Z : k == 0) by lra. rewrite Z. unfold Qdiv. ring.
  - rewrite qdiv_ok in H by (pose proof rho_pos; nra). cbn [bind] in H. apply ok_inj in H. subst m'. split; reflexivity.
Qed.

Lemma exchanged_between m m' g c lo hi : exchanged m m' g c -> 0 < mx_vol m ->
  lo <= mx_temp m <= hi -> lo <= c <= hi -> mx_vol m' = mx_vol m /\ lo <= mx_temp m' <= hi.
Proof.
  intros [EV [[_ ->]|[(_ & _ & ->)|(G1 & G2 & E)]]] V T C; (split; [exact EV || reflexivity|]); [exact T|exact C|].
  apply (mix_between (mx_vol m) g (mx_temp m) c lo hi); lra.
Qed.

(** The step's primary side. *)
Lemma swing_primary b w0 w t iv w' o : swing_inv w0 w -> 0 < mx_vol (ws_swing w0) -> 0 <= ws_loss w0 -> (0 <= iv)%Z ->
  (forall oat top x, wh_capacity (ws_element w0) (Some oat) top None = Ok x -> 0 <= or0 x) ->
  swing_sim_step b w t iv = Ok (w', o) ->
  swing_inv w0 w' /\ physical_step b (ws_heaters w0) (ws_storage w0) (st_vol (ws_tank w0)) t iv o /\
  st_inlet (ws_tank w') = so_inlet o /\ setpoint (ws_heaters w0) (ws_storage w0) (hour_of t iv) (st_outlet (ws_tank w')).
Proof.
  intros (SH & S1 & S2 & S3 & S4 & W & V & SL & MV & SE) MP LN IV CN H.
  destruct (swing_step_inv _ _ _ _ _ _ H) as (outlet & hs & tk1 & hw & feed & sw1 & sw2 & el & sw3 & tk2 & tmo & Ed & Eo & Ei & Eout & Ehs & Eq & E1 & Ehw & Ef & Es1 & Es2 & Eel & Etm & (hx & Es3) & E2 & Eu & Ets & -> & _).
  destruct (st_heat_shape (ws_tank w) (so_output o) (qz iv) outlet W) as (x & Ex & A1 & A2 & A3 & A4 & _). rewrite E1 in Ex. apply ok_inj in Ex. subst x.
  assert (W1 : st_wf tk1) by (unfold st_wf in *; rewrite A1, A2; exact W).
  destruct (physical_draw_keeps _ _ _ _ _ W1 E2) as (W2 & B1 & B2 & B3 & B4).
  assert (SP : setpoint (ws_heaters w0) (ws_storage w0) (hour_of t iv) outlet).
  { apply (setpoint_same (ws_heaters w) (ws_heaters w0)); [apply same_all_sym; exact SH|]. rewrite <- S2. apply outlet_for_spec; [apply (hour_of_range t iv)|exact Eout]. }
  pose proof (aquastats_same _ _ _ _ (aquastats_of _ _ _ _ (proj1 (hour_of_range t iv)) Ehs)) as SH1.
  destruct (mx_inflow_cases (ws_swing w) hw feed) as (x & Ex & XC); [rewrite MV; exact MP|]. rewrite Es1 in Ex. apply ok_inj in Ex. subst x.
  destruct XC as [EV1 _].
  assert (EL : ws_loss w = ws_loss w0) by (unfold ws_loss; congruence).
  assert (VP1 : 0 < mx_vol sw1) by (rewrite EV1, MV; exact MP).
  destruct (fixed_loss_keeps sw1 (ws_loss w) (qz iv) sw2 VP1 ltac:(rewrite EL; exact LN) (qz_nonneg iv IV) Es2) as [EV2 _].
  assert (VP2 : 0 < mx_vol sw2) by (rewrite EV2; exact VP1).
  destruct (wh_update_same _ _ _ _ Eel) as (U1 & U2 & U3).
  assert (SE2 : same_heater (ws_element w0) el) by (apply same_heater_trans with (ws_element w); [exact SE|split; [exact U1|split; assumption]]).
  assert (TN : 0 <= tmo).
  { unfold wh_output in Etm. destruct (wh_active el); cbn [negb] in Etm; [|apply ok_inj in Etm; subst tmo; lra].
    destruct (bind_ok _ _ _ Etm) as (c & Ec & E3). apply ok_inj in E3. subst tmo.
    change (0 <= or0 c). apply (CN (so_oat o) (mx_temp sw2)). rewrite <- Ec. unfold wh_capacity. destruct SE2 as (-> & _). reflexivity. }
  destruct (mx_heat_keeps sw2 tmo (qz iv) hx sw3 VP2 TN Es3) as [EV3 _].
  split; [|split; [|split; [exact B3|cbn; rewrite B4, A4; exact SP]]].
  - unfold swing_inv. cbn. split; [apply same_all_trans with (ws_heaters w); assumption|]. do 4 (split; [congruence|]). split; [exact W2|]. split; [congruence|]. split; [congruence|].
    split; [congruence|exact SE2].
  - apply (physical_of b (ws_heaters w0) (ws_heaters w) (ws_storage w0) (ws_supply w) (st_vol (ws_tank w0)) t iv o tk2 outlet);
      [exact SH|exact Ed|exact Eo|exact Ei|exact W2|congruence|congruence|congruence|exact SP| |exact Ets].
    destruct (qltb (mx_temp (ws_swing w)) (ws_supply w)); [left; apply ok_inj in Eu; symmetry; exact Eu|right; exact Eu].
Qed.

(** ** Temperature bounds *)

(** What one step's worth of heat [k] (kBTU/h) changes the swing tank's temperature by. *)
Definition swing_delta (w : wsys) (k : Q) (iv : Z) : Q := k * qz iv / 60 * 1000 / (mx_vol (ws_swing w) * rho_cp).

Lemma swing_delta_mono w a c iv : 0 < mx_vol (ws_swing w) -> (0 <= iv)%Z -> a <= c -> swing_delta w a iv <= swing_delta w c iv.
Proof.
  intros V I L. unfold swing_delta, Qdiv. pose proof (qz_nonneg iv I) as P. pose proof rho_pos as RP.
  assert (VV : 0 <= / (mx_vol (ws_swing w) * rho_cp)) by (apply Qinv_le_0_compat; apply qmul_nonneg; lra).
  apply Qmult_le_compat_r; [|exact VV]. change (/ 60) with (1 # 60). nra.
Qed.

Definition in_band (w0 : wsys) (L M H q : Q) (w : wsys) : Prop :=
  swing_inv w0 w /\ L <= st_inlet (ws_tank w) <= M /\ M <= st_outlet (ws_tank w) <= H /\ L <= mx_temp (ws_swing w) <= H + q.

Lemma swing_band b w0 L M H C iv w t w' o :
  0 < mx_vol (ws_swing w0) -> 0 <= ws_loss w0 -> (0 < iv)%Z ->
  (forall t iv x, bd_inlet b t iv = Ok x -> L <= x <= M) ->
  (forall hour sp, setpoint (ws_heaters w0) (ws_storage w0) hour sp -> M <= sp <= H) ->
  (forall hour c, in_effect (ws_element w0) hour c -> L <= ct_on_trigger c <= H /\ L <= ct_off_trigger c <= H) ->
  (forall oat top x, wh_capacity (ws_element w0) (Some oat) top None = Ok x -> ws_loss w0 <= or0 x <= C) -> ws_loss w0 <= C ->
  in_band w0 L M H (swing_delta w0 C iv) w -> swing_sim_step b w t iv = Ok (w', o) ->
  in_band w0 L M H (swing_delta w0 C iv) w' /\
  physical_step b (ws_heaters w0) (ws_storage w0) (st_vol (ws_tank w0)) t iv o /\
  exists x, so_tm_temp o = Some x /\ so_delivery o = Some x /\ L <= x <= H + swing_delta w0 C iv.
Proof.
  intros MP LN IV HI HS HE HC LC (SI & TI & TO & TS) ST.
  assert (CN : forall oat top x, wh_capacity (ws_element w0) (Some oat) top None = Ok x -> 0 <= or0 x) by (intros oat top x E; pose proof (HC oat top x E); lra).
  destruct (swing_primary b w0 w t iv w' o SI MP LN ltac:(lia) CN ST) as (SI' & PH & TI' & SP').
  pose proof SI as (SH & S1 & S2 & S3 & S4 & W & V & SL & MV & SE).
  destruct (swing_step_inv _ _ _ _ _ _ ST) as (outlet & hs & tk1 & hw & feed & sw1 & sw2 & el & sw3 & tk2 & tmo & Ed & Eo & Ei & Eout & Ehs & Eq & E1 & Ehw & Ef & Es1 & Es2 & Eel & Etm & (hx & Es3) & E2 & Eu & Ets & -> & Ett & _ & _ & Edel & _).
  destruct (st_heat_shape (ws_tank w) (so_output o) (qz iv) outlet W) as (x & Ex & A1 & A2 & A3 & A4 & _). rewrite E1 in Ex. apply ok_inj in Ex. subst x.
  assert (W1 : st_wf tk1) by (unfold st_wf in *; rewrite A1, A2; exact W).
  destruct (physical_draw_keeps _ _ _ _ _ W1 E2) as (W2 & B1 & B2 & B3 & B4). cbn [ws_tank] in *.
  pose proof (HS _ _ SP') as RO. rewrite B4, A4 in RO.
  assert (FE : L <= feed <= H).
  { pose proof (st_avg_range tk1 hw feed W1) as X. rewrite A3, A4 in X. specialize (X ltac:(lra) Ef). lra. }
  set (q := swing_delta w0 C iv) in *.
  assert (EL : ws_loss w = ws_loss w0) by (unfold ws_loss; congruence).
  destruct (mx_inflow_cases (ws_swing w) hw feed) as (x & Ex & XC); [rewrite MV; exact MP|]. rewrite Es1 in Ex. apply ok_inj in Ex. subst x.
  assert (VW : 0 < mx_vol (ws_swing w)) by (rewrite MV; exact MP).
  destruct (wh_update_same _ _ _ _ Eel) as (U1 & U2 & U3).
  assert (SE2 : same_heater (ws_element w0) el) by (apply same_heater_trans with (ws_element w); [exact SE|split; [exact U1|split; assumption]]).
  assert (CAP : forall c, wh_capacity el (Some (so_oat o)) (mx_temp sw2) None = Ok c -> ws_loss w0 <= or0 c <= C).
  { intros c Ec. apply (HC (so_oat o) (mx_temp sw2)). rewrite <- Ec. unfold wh_capacity. destruct SE2 as (-> & _). reflexivity. }
  assert (TMO : if wh_active el then ws_loss w0 <= tmo <= C else tmo = 0).
  { unfold wh_output in Etm. destruct (wh_active el); cbn [negb] in Etm; [|apply ok_inj in Etm; congruence].
    destruct (bind_ok _ _ _ Etm) as (c & Ec & E3). apply ok_inj in E3. subst tmo. exact (CAP c Ec). }
  assert (TN : 0 <= tmo) by (destruct (wh_active el); [lra|rewrite TMO; lra]).
  assert (D0 : 0 <= swing_delta w0 (ws_loss w0) iv).
  { unfold swing_delta. pose proof rho_pos. pose proof (qz_nonneg iv ltac:(lia)). apply qdiv_nonneg; [|apply qmul_pos; lra].
    apply qmul_nonneg; [|lra]. apply qdiv_nonneg; [apply qmul_nonneg; lra|lra]. }
  assert (Q0 : 0 <= q) by (pose proof (swing_delta_mono w0 (ws_loss w0) C iv MP ltac:(lia) LC) as X; fold q in X; lra).
  destruct (exchanged_between (ws_swing w) sw1 hw feed L (H + q) XC VW) as [EV1 T1B]; [exact TS|lra|].
  assert (VP1 : 0 < mx_vol sw1) by (rewrite EV1; exact VW).
  destruct (fixed_loss_keeps sw1 (ws_loss w) (qz iv) sw2 VP1 ltac:(rewrite EL; exact LN) (qz_nonneg iv ltac:(lia)) Es2) as [EV2 T2].
  assert (VP2 : 0 < mx_vol sw2) by (rewrite EV2; exact VP1).
  destruct (mx_heat_keeps sw2 tmo (qz iv) hx sw3 VP2 TN Es3) as [EV3 T3].
  assert (T2' : mx_temp sw2 == mx_temp sw1 - swing_delta w0 (ws_loss w0) iv) by (rewrite T2, EV1, MV, EL; reflexivity).
  assert (T3' : mx_temp sw3 == mx_temp sw2 + swing_delta w0 tmo iv) by (rewrite T3, EV2, EV1, MV; reflexivity).
  clear T2 T3.
  pose proof (hour_of_range t iv) as HR.
  assert (EFF : exists c, in_effect (ws_element w) (hour_of t iv) c).
  { unfold wh_update in Eel. destruct (bind_ok _ _ _ Eel) as ([c|] & Ec & K); [|discriminate]. exists c. apply in_effect_iff; [apply HR|exact Ec]. }
  destruct EFF as (c & IE). destruct SE as (SE0 & SE1 & SEM).
  destruct (HE (hour_of t iv) c (proj1 (in_effect_same _ _ _ _ SE1 SEM) IE)) as [ON OFF].
  destruct (c30_step _ _ _ _ (proj1 HR) Eel) as [K1 K2].
  assert (CON : calls_on (ws_element w) (fun f : Q => Ok (mx_temp_at sw2 f), hour_of t iv) <-> mx_temp sw2 < ct_on_trigger c).
  { unfold calls_on. cbn [fst snd]. split.
    - intros (c' & x & Ic' & Hx & Lx). rewrite <- (in_effect_unique _ _ _ _ IE Ic') in *. apply ok_inj in Hx. unfold mx_temp_at in Hx. subst x. exact Lx.
    - intro Lx. exists c, (mx_temp sw2). split; [exact IE|]. split; [reflexivity|exact Lx]. }
  assert (COF : calls_off (ws_element w) (fun f : Q => Ok (mx_temp_at sw2 f), hour_of t iv) <-> ct_off_trigger c <= mx_temp sw2).
  { unfold calls_off. cbn [fst snd]. split.
    - intros (c' & x & Ic' & Hx & Lx). rewrite <- (in_effect_unique _ _ _ _ IE Ic') in *. apply ok_inj in Hx. unfold mx_temp_at in Hx. subst x. exact Lx.
    - intro Lx. exists c, (mx_temp sw2). split; [exact IE|]. split; [reflexivity|exact Lx]. }
  assert (FIN : L <= mx_temp sw3 <= H + q).
  { destruct (wh_active el) eqn:AE.
    - pose proof (swing_delta_mono w0 (ws_loss w0) tmo iv MP ltac:(lia) (proj1 TMO)) as X1.
      pose proof (swing_delta_mono w0 tmo C iv MP ltac:(lia) (proj2 TMO)) as X2. fold q in X2.
      assert (T2H : mx_temp sw2 < H).
      { destruct (wh_active (ws_element w)) eqn:AW.
        - destruct (Qlt_le_dec (mx_temp sw2) (ct_off_trigger c)) as [G|G]; [lra|]. apply COF in G. apply (K2 eq_refl) in G. discriminate.
        - pose proof (proj1 CON (proj1 (K1 eq_refl) eq_refl)). lra. }
      lra.
    - assert (Z : swing_delta w0 tmo iv == 0) by (rewrite TMO; unfold swing_delta, Qdiv; ring). rewrite Z in T3'.
      assert (T2L : L <= mx_temp sw2).
      { destruct (wh_active (ws_element w)) eqn:AW.
        - pose proof (proj1 COF (proj1 (K2 eq_refl) eq_refl)). lra.
        - destruct (Qlt_le_dec (mx_temp sw2) (ct_on_trigger c)) as [G|G]; [|lra]. apply CON in G. apply (K1 eq_refl) in G. discriminate. }
      lra. }
  split; [|split; [exact PH|exists (mx_temp sw3); split; [exact Ett|]; split; [exact Edel|exact FIN]]].
  split; [exact SI'|]. cbn [ws_tank ws_swing]. split; [rewrite TI'; exact (HI _ _ _ Ei)|]. split; [rewrite B4, A4; exact RO|exact FIN].
Qed.

Lemma swing_inv_refl w : st_wf (ws_tank w) -> swing_inv w w.
Proof.
  intro W. unfold swing_inv. split; [apply same_all_refl|]. do 4 (split; [reflexivity|]). split; [exact W|]. do 3 (split; [reflexivity|]). apply same_heater_refl.
Qed.

Lemma swing_init b w w1 : st_wf (ws_tank w) -> init_swing b w = Ok w1 ->
  swing_inv w w1 /\ exists di off, bd_design_inlet b = Ok di /\ ws_off_temp w = Ok off /\
    st_inlet (ws_tank w1) = sim_inlet di /\ st_outlet (ws_tank w1) = ws_storage w /\ mx_temp (ws_swing w1) = off.
Proof.
  intros W H. unfold init_swing in H. destruct (bind_ok _ _ _ H) as (di & Ed & H1). cbv zeta in H1. destruct (bind_ok _ _ _ H1) as (off & Eo & H2). apply ok_inj in H2. subst w1.
  split; [|exists di, off; repeat split; assumption].
  unfold swing_inv. cbn. split; [apply same_all_refl|]. do 4 (split; [reflexivity|]). split; [exact W|]. do 3 (split; [reflexivity|]). apply same_heater_refl.
Qed.

(** ** Completion *)

Definition swing_ready (b : building) (w : wsys) : Prop :=
  Forall scheduled (ws_heaters w) /\ Forall rated (ws_heaters w) /\ st_wf (ws_tank w) /\ 0 < mx_vol (ws_swing w) /\
  scheduled (ws_element w) /\ rated (ws_element w) /\
  (forall t iv x, bd_inlet b t iv = Ok x -> x <= ws_supply w).

Lemma scheduled_same h h' : same_heater h h' -> scheduled h -> scheduled h'.
Proof. intros (_ & A & B) (s & d & E1 & E2 & K). exists s, d. rewrite A, B. auto. Qed.
Lemma rated_same h h' : same_heater h h' -> rated h -> rated h'.
Proof.
  intros (A & _) R oat out inl. destruct (R oat out inl) as (c & k & E1 & E2). exists c, k.
  unfold wh_capacity, wh_power in *. rewrite A. auto.
Qed.

Lemma swing_step_total b w t iv : complete b -> (0 < iv)%Z -> swing_ready b w ->
  exists w' o, swing_sim_step b w t iv = Ok (w', o) /\ swing_ready b w' /\ length (so_temps o) = 6%nat.
Proof.
  intros CB IV (FS & FR & W & MP & SE & RE & IN).
  destruct (complete_answers b CB t iv) as (Ld & (oat & Eo) & (inlet & Ei) & _).
  destruct (Ld (existsb wh_load_shifting (ws_heaters w))) as (d & Ed).
  pose proof (hour_of_range t iv) as HR.
  destruct (heaters_total (ws_heaters w) (ws_storage w) (ws_tank w) (hour_of t iv) oat inlet FS FR W HR)
    as (out & m & hs' & q & kws & Eout & Em & Ehs & Eq & Ek & FS' & FR').
  destruct (st_heat_shape (ws_tank w) q (qz iv) out W) as (tk1 & E1 & A1 & A2 & _).
  assert (W1 : st_wf tk1) by (unfold st_wf in *; rewrite A1, A2; exact W).
  assert (HW : exists hw, swing_draw w d inlet = Ok hw).
  { unfold swing_draw, mx_temp_at. destruct (qltb (ws_supply w) (mx_temp (ws_swing w))) eqn:E; qbool; [|eexists; reflexivity].
    pose proof (IN _ _ _ Ei). rewrite qdiv_ok by lra. eexists. reflexivity. }
  destruct HW as (hw & Ehw). destruct (st_avg_total tk1 hw W1) as (feed & Ef).
  destruct (mx_inflow_cases (ws_swing w) hw feed MP) as (sw1 & Es1 & EV1 & _).
  assert (L2 : exists sw2, mx_fixed_loss sw1 (ws_loss w) (qz iv) = Ok sw2 /\ mx_vol sw2 = mx_vol sw1).
  { unfold mx_fixed_loss. destruct (Qle_bool (ws_loss w) 0 || Qle_bool (qz iv) 0)%bool; [eexists; split; reflexivity|].
    rewrite qdiv_ok by (rewrite EV1; pose proof rho_pos; nra). cbn [bind]. eexists. split; reflexivity. }
  destruct L2 as (sw2 & Es2 & EV2).
  destruct (scheduled_effect _ _ SE HR) as (c & IE).
  destruct (c30_step_succeeds (ws_element w) (fun f => Ok (mx_temp_at sw2 f)) (hour_of t iv) c _ _ IE eq_refl eq_refl) as (el & Eel).
  destruct (wh_update_same _ _ _ _ Eel) as (U1 & U2 & U3). assert (SHE : same_heater (ws_element w) el) by (split; [exact U1|split; assumption]).
  pose proof (rated_same _ _ SHE RE) as RE'. pose proof (scheduled_same _ _ SHE SE) as SE'.
  destruct (RE' oat (mx_temp_at sw2 1) None) as (cap & kw & Ecap & Ekw).
  assert (O : exists x, wh_output el (Some oat) (mx_temp_at sw2 1) None = Ok x).
  { unfold wh_output. destruct (wh_active el); cbn [negb]; [|exists 0; reflexivity]. rewrite Ecap. cbn [bind]. eexists. reflexivity. }
  destruct O as (tmo & Etm).
  assert (K : exists k, (if wh_active el then wh_power el (Some oat) (mx_temp_at sw2 1) None else Ok None) = Ok k) by (destruct (wh_active el); [exists kw; exact Ekw|eexists; reflexivity]).
  destruct K as (k & Ek2).
  pose proof (proj1 (in_effect_iff _ _ _ (proj1 HR)) (proj2 (in_effect_same _ _ _ _ U2 U3) IE)) as Ec.
  destruct (scheduled_effect _ 0 SE ltac:(lia)) as (c0 & IE0). pose proof (proj1 (in_effect_iff _ _ _ (Z.le_refl 0)) IE0) as Ec0.
  assert (M : exists sw3, mx_heat sw2 tmo (qz iv) (ct_outlet c) = Ok sw3 /\ mx_vol sw3 = mx_vol sw2).
  { unfold mx_heat. destruct (Qle_bool tmo 0); [eexists; split; reflexivity|].
    rewrite qdiv_ok by (rewrite EV2, EV1; pose proof rho_pos; nra). cbn [bind]. eexists. split; reflexivity. }
  destruct M as (sw3 & Es3 & EV3).
  destruct (st_draw_physical_shape tk1 hw inlet (Some (ws_supply w)) W1) as (tk2 & E2 & _).
  destruct (physical_draw_keeps _ _ _ _ _ W1 E2) as (W2 & _).
  assert (U : exists u, (if qltb (mx_temp_at (ws_swing w) (1 # 2)) (ws_supply w) then Ok 0 else st_usable tk2 (ws_supply w)) = Ok u).
  { destruct (qltb _ _); [eexists; reflexivity|]. exact (st_usable_total tk2 (ws_supply w) W2). }
  destruct U as (u & Eu).
  unfold swing_sim_step. rewrite Ed. cbn [bind]. rewrite Eo. cbn [bind]. rewrite Ei. cbn [bind]. cbv zeta. rewrite Eout. cbn [bind]. rewrite Em. cbn [bind].
  rewrite Ehs. cbn [bind]. rewrite st_temp_ok by exact W. cbn [bind]. rewrite Eq. cbn [bind]. rewrite Ek. cbn [bind]. rewrite E1. cbn [bind].
  rewrite Ehw. cbn [bind]. rewrite Ef. cbn [bind]. rewrite Es1. cbn [bind]. rewrite Es2. cbn [bind]. rewrite Eel. cbn [bind]. rewrite Etm. cbn [bind].
  rewrite Ek2. cbn [bind]. rewrite Ec. cbn [bind]. unfold ws_off_temp. rewrite Ec0. cbn [bind]. rewrite Es3. cbn [bind]. rewrite E2. cbn [bind].
  rewrite Eu. cbn [bind]. rewrite six_temps_ok by exact W2. cbn [bind].
  eexists. eexists. split; [reflexivity|]. split; [|reflexivity].
  unfold swing_ready. cbn. split; [exact FS'|]. split; [exact FR'|]. split; [exact W2|]. split; [rewrite EV3, EV2, EV1; exact MP|]. split; [exact SE'|]. split; [exact RE'|exact IN].
Qed.

Lemma swing_completes b w dur thr maxm : complete b -> swing_ready b w -> known_duration dur ->
  exists w' r, simulate_swing b w dur thr maxm = Ok (w', r).
Proof.
  intros C R D. pose proof R as (FS & FR & W & MP & SE & RE & IN). unfold simulate_swing, init_swing.
  destruct (complete_answers b C 0 1) as (_ & _ & _ & di & E). rewrite E. cbn [bind].
  destruct (scheduled_effect _ 0 SE ltac:(lia)) as (c0 & IE0). pose proof (proj1 (in_effect_iff _ _ _ (Z.le_refl 0)) IE0) as Ec0.
  unfold ws_off_temp. rewrite Ec0. cbn [bind].
  apply (simulate_total_iv (swing_sim_step b) (swing_ready b)); [|unfold swing_ready; cbn; auto 10|exact D].
  intros s i iv Piv H. exact (swing_step_total b s i iv C Piv H).
Qed.
