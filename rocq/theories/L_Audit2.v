(** Heat accounts of a simulated swing-tank system, from above. *)
From Verif Require Import Prelude M_StratifiedTank S_StratifiedTank L_StratifiedTank L_StratifiedTank2 L_StratifiedTank3 M_MixedTank L_MixedTank
  M_Building L_Building M_Heater S_Heater L_Heater M_SimRun S_SimRun L_SimMisc M_Step S_Step L_Step L_Step2 L_Step3 L_Step4 L_Step6 M_Engine S_Engine S_Lasts L_Lasts L_Lasts2 L_Audit.
Open Scope Q_scope.

Lemma heat_upper tk k iv storage supply warm tk1 : st_wf tk -> (0 < iv)%Z -> st_inlet tk <= warm -> warm < storage ->
  st_heat tk k (qz iv) storage = Ok tk1 ->
  st_vol tk1 = st_vol tk /\ st_slope tk1 = st_slope tk /\ st_inlet tk1 = st_inlet tk /\ st_outlet tk1 = storage /\
  hot tk1 supply <= hot tk supply + heated (qmax 0 k) iv storage warm.
Proof.
  intros W Piv IW WS E1. assert (IS : st_inlet tk < storage) by lra.
  destruct (heat_hot tk k (qz iv) storage W IS) as (tk1' & E1' & V1 & L1 & I1 & O1 & N1 & P1). rewrite E1 in E1'. apply ok_inj in E1'. subst tk1'.
  assert (W1 : st_wf tk1) by (destruct W; split; [rewrite V1|rewrite L1]; assumption).
  split; [exact V1|]. split; [exact L1|]. split; [exact I1|]. split; [exact O1|].
  rewrite (hot_shift tk1 supply storage W1), V1, L1. rewrite (hot_shift tk supply storage W).
  assert (H0 : 0 <= heated (qmax 0 k) iv storage warm).
  { unfold heated. apply qdiv_nonneg; [|apply Qmult_lt_0_compat; [reflexivity|lra]].
    apply qdiv_nonneg; [|reflexivity]. apply Qmult_le_0_compat; [|apply qz_nonneg; lia]. apply Qmult_le_0_compat; [qmm; lra|discriminate]. }
  destruct (Qlt_le_dec 0 k) as [X|X]; [|rewrite (N1 X); lra]. rewrite (P1 X).
  pose proof (heated_mono k iv storage (st_inlet tk) warm ltac:(lra) Piv IW ltac:(lra)) as HM.
  assert (EX : heated (qmax 0 k) iv storage warm == heated k iv storage warm).
  { unfold heated. assert (E : qmax 0 k == k) by (qmm; lra). rewrite E. reflexivity. }
  rewrite EX. pose proof (qmin_l (hot tk storage + k * 1000 * qz iv / 60 / (rho_cp * (storage - st_inlet tk))) (st_vol tk)). lra.
Qed.

Lemma physical_upper t g inlet supply t' : st_wf t -> 0 <= g -> st_draw_physical t g inlet (Some supply) = Ok t' ->
  st_vol t' = st_vol t /\ st_slope t' = st_slope t /\ st_inlet t' = inlet /\ (0 < hot t' supply -> hot t' supply <= hot t supply - g).
Proof.
  intros W G E. unfold st_draw_physical in E. cbv zeta in E. destruct (qltb 0 g) eqn:B; qbool.
  - rewrite st_floor_ok in E by exact W. cbn [bind] in E. apply ok_inj in E. subst t'. cbn [set_delta set_inlet st_vol st_slope st_inlet]. repeat split.
    unfold hot. cbn [set_delta set_inlet st_delta].
    change (floor_delta (set_delta (set_delta (set_inlet t inlet) (st_delta t - g)) _) supply) with (floor_delta t supply).
    change (floor_delta (set_delta (set_inlet t inlet) (st_delta t - g)) supply) with (floor_delta t supply). qmm; lra.
  - apply ok_inj in E. subst t'. cbn [set_inlet st_vol st_slope st_inlet]. repeat split. change (hot (set_inlet t inlet) supply) with (hot t supply). lra.
Qed.

Lemma mx_heat_upper m k d h m' : 0 < mx_vol m -> mx_heat m k d h = Ok m' ->
  mx_vol m' = mx_vol m /\ mx_vol m * mx_temp m' * rho_cp == mx_vol m * mx_temp m * rho_cp + qmax 0 k * 1000 * (d / 60).
Proof.
  intros V H. unfold mx_heat in H. destruct (Qle_bool k 0) eqn:E; qbool.
  - apply ok_inj in H. subst m'. split; [reflexivity|]. assert (Z : qmax 0 k == 0) by (qmm; lra). rewrite Z. ring.
  - cbv zeta in H. assert (RP : 0 < rho_cp) by reflexivity. assert (NZ : 0 < mx_vol m * rho_cp) by (apply Qmult_lt_0_compat; assumption).
    rewrite qdiv_ok in H by lra. cbn [bind] in H. apply ok_inj in H. subst m'. cbn [mx_set_temp mx_vol mx_temp]. split; [reflexivity|].
    assert (Z : qmax 0 k == k) by (qmm; lra). rewrite Z. field. split; lra.
Qed.

Section Audit.
Variables (b : building) (iv : Z) (hs0 : list heater) (supply storage vol slope cold warm ret flow tv : Q).
Hypothesis Piv : (0 < iv)%Z.
Hypothesis Hvol : 0 < vol.
Hypothesis Hslope : 0 < slope.
Hypothesis Hws : warm < supply.
Hypothesis Hss : supply <= storage.
Hypothesis Htv : 0 < tv.
Hypothesis Hflow : 0 <= flow.
Hypothesis Hret : ret <= supply.
Hypothesis Hmains : forall t x, bd_inlet b t iv = Ok x -> cold <= x /\ x <= warm.
Hypothesis Hctl : forall h hour c, In h hs0 -> in_effect h hour c -> ct_outlet c = storage.

Record swing_account (w : wsys) (y T : Q) : Prop := {
  sa_primary : account hs0 supply storage vol slope cold warm (mkBsys (ws_heaters w) (Some (ws_tank w)) (ws_supply w) (ws_storage w)) y;
  sa_return : ws_return w = ret;
  sa_flow : ws_flow w = flow;
  sa_vol : mx_vol (ws_swing w) = tv;
  sa_temp : mx_temp (ws_swing w) = T }.

Let loss := flow * (supply - ret) * rho_cp * 60 / 1000.

(** One step of both tanks: heat above [warm] in BTU. *)
Lemma swing_audit t w w' o y T : swing_sim_step b w t iv = Ok (w', o) -> swing_account w y T ->
  0 < so_usable o -> 0 <= so_demand o <= tv ->
  exists y' T' tmo, swing_account w' y' T' /\ 0 < y' /\ so_tm_temp o = Some T' /\ so_tm_output o = Some tmo /\
    y' * rho_cp * (storage - warm) + tv * T' * rho_cp + so_demand o * rho_cp * (supply - warm) + loss * 1000 * (qz iv / 60)
    <= y * rho_cp * (storage - warm) + tv * T * rho_cp + qmax 0 (so_output o) * 1000 * (qz iv / 60) + qmax 0 tmo * 1000 * (qz iv / 60).
Proof.
  intros H [[SH ES EG (tk & ET & EV & EL & IC & IW & EY)] ER EF MV MT] US [D0 DV].
  cbn [bs_heaters bs_tank bs_supply bs_storage] in *. injection ET as <-.
  destruct (swing_step_inv _ _ _ _ _ _ H) as (outlet & hs & tk1 & hw & feed & sw1 & sw2 & el & sw3 & tk2 & tmo & Ed & Eo & Ei & Eout & Ehs & Eq & E1 & Ehw & Ef & Es1 & Es2 & Eel & Etm & (hx & Es3) & E2 & Eu & Ets & -> & Ett & Eto & _ & Edel & _).
  pose proof (proj1 (hour_of_range t iv)) as Hh.
  set (tk := ws_tank w) in *. assert (W : st_wf tk) by (split; [rewrite EV|rewrite EL]; assumption).
  rewrite EG in Eout. pose proof (outlet_is hs0 storage Hctl _ _ _ Hh SH Eout) as ->.
  pose proof (aquastats_of _ _ _ _ Hh Ehs) as AQ. pose proof (aquastats_same _ _ _ _ AQ) as SS. pose proof (same_all_trans _ _ _ SH SS) as SH'.
  destruct (Hmains _ _ Ei) as [M1 M2]. rewrite ES in *.
  destruct (heat_upper tk (so_output o) iv storage supply warm tk1 W Piv IW ltac:(lra) E1) as (V1 & L1 & I1 & O1 & Y1). rewrite EY in Y1.
  assert (W1 : st_wf tk1) by (split; [rewrite V1, EV|rewrite L1, EL]; assumption).
  rewrite MT in Eu. destruct (qltb T supply) eqn:QT; qbool. { apply ok_inj in Eu. rewrite <- Eu in US. lra. }
  assert (HW : hw * (T - so_inlet o) == so_demand o * (supply - so_inlet o) /\ 0 <= hw /\ hw <= so_demand o).
  { unfold swing_draw, mx_temp_at in Ehw. rewrite MT, ES in Ehw. destruct (qltb supply T) eqn:Q; qbool.
    - rewrite qdiv_ok in Ehw by lra. apply ok_inj in Ehw. subst hw. split; [field; lra|]. split.
      + apply qdiv_nonneg; [apply Qmult_le_0_compat; lra|lra].
      + apply qdiv_le_iff; [lra|]. rewrite !(Qmult_comm (so_demand o)). apply Qmult_le_compat_r; lra.
    - apply ok_inj in Ehw. subst hw. assert (X : T == supply) by lra. rewrite X. split; [reflexivity|]. lra. }
  destruct HW as (HW & HW0 & HWD).
  assert (DH : so_demand o * (supply - warm) <= hw * (T - warm)).
  { assert (hw * (warm - so_inlet o) <= so_demand o * (warm - so_inlet o)) by (apply Qmult_le_compat_r; lra). lra. }
  assert (FE : feed <= storage).
  { pose proof (st_avg_range tk1 hw feed W1) as X. rewrite I1, O1 in X. specialize (X ltac:(lra) Ef). lra. }
  assert (VW : 0 < mx_vol (ws_swing w)) by (rewrite MV; exact Htv).
  destruct (mx_inflow_cases (ws_swing w) hw feed VW) as (x & Ex & XC). rewrite Es1 in Ex. apply ok_inj in Ex. subst x.
  destruct XC as [EV1 XC].
  assert (S1 : tv * mx_temp sw1 == tv * T + hw * (feed - T)).
  { destruct XC as [[X ->]|[(X1 & X2 & X3)|(X1 & X2 & X3)]].
    - rewrite MT. assert (Z : hw == 0) by lra. rewrite Z. ring.
    - rewrite MV in X1. rewrite X3. assert (Z : hw == tv) by lra. rewrite Z. ring.
    - rewrite MV, MT in X3. rewrite X3. ring. }
  assert (VP1 : 0 < mx_vol sw1) by (rewrite EV1; exact VW).
  assert (WL : ws_loss w == loss) by (unfold ws_loss, loss; rewrite ES, ER, EF; reflexivity).
  assert (RP : 0 < rho_cp) by reflexivity.
  assert (WL0 : 0 <= ws_loss w).
  { rewrite WL. unfold loss. apply qdiv_nonneg; [|reflexivity]. repeat apply Qmult_le_0_compat; try discriminate; lra. }
  destruct (fixed_loss_keeps sw1 (ws_loss w) (qz iv) sw2 VP1 WL0 (qz_nonneg iv ltac:(lia)) Es2) as [EV2 S2].
  rewrite EV1, MV in S2.
  assert (S2' : tv * mx_temp sw2 * rho_cp == tv * mx_temp sw1 * rho_cp - loss * 1000 * (qz iv / 60)).
  { rewrite S2, WL. field. split; lra. }
  destruct (mx_heat_upper sw2 tmo (qz iv) hx sw3 ltac:(rewrite EV2; exact VP1) Es3) as [EV3 S3]. rewrite EV2, EV1, MV in S3.
  destruct (physical_upper tk1 hw (so_inlet o) supply tk2 W1 HW0 E2) as (V2 & L2 & I2 & Y2).
  assert (W2 : st_wf tk2) by (split; [rewrite V2, V1, EV|rewrite L2, L1, EL]; assumption).
  pose proof (usable_upper tk2 supply _ W2 Eu US) as P. specialize (Y2 P).
  exists (hot tk2 supply), (mx_temp sw3), tmo. split.
  { constructor; cbn [ws_heaters ws_tank ws_supply ws_storage ws_return ws_flow ws_swing]; try assumption; try reflexivity; [|congruence].
    constructor; cbn [bs_heaters bs_tank bs_supply bs_storage]; try assumption; try reflexivity.
    exists tk2. split; [reflexivity|]. split; [congruence|]. split; [congruence|]. rewrite I2. split; [exact M1|]. split; [exact M2|reflexivity]. }
  split; [exact P|]. split; [exact Ett|]. split; [exact Eto|].
  rewrite S3, S2'. 
  assert (HE : heated (qmax 0 (so_output o)) iv storage warm * rho_cp * (storage - warm) == qmax 0 (so_output o) * 1000 * (qz iv / 60)).
  { unfold heated. field. split; lra. }
  assert (S1' : tv * mx_temp sw1 * rho_cp == tv * T * rho_cp + hw * (feed - T) * rho_cp) by (rewrite S1; ring). rewrite S1'.
  assert (A1 : (hot tk2 supply + hw) * (rho_cp * (storage - warm)) <= (y + heated (qmax 0 (so_output o)) iv storage warm) * (rho_cp * (storage - warm))).
  { apply Qmult_le_compat_r; [lra|]. apply Qmult_le_0_compat; lra. }
  assert (A2 : so_demand o * (supply - warm) * rho_cp <= hw * (T - warm) * rho_cp) by (apply Qmult_le_compat_r; lra).
  assert (A3 : hw * (feed - warm) * rho_cp <= hw * (storage - warm) * rho_cp).
  { apply Qmult_le_compat_r; [|lra]. rewrite !(Qmult_comm hw). apply Qmult_le_compat_r; lra. }
  rewrite <- HE. set (G := heated (qmax 0 (so_output o)) iv storage warm) in *. lra.
Qed.

Lemma last_cons (a : Q) l d : last (a :: l) d = last l a.
Proof. revert a d. induction l as [|x l IH]; intros a d; [reflexivity|]. change (last (a :: x :: l) d) with (last (x :: l) d). rewrite !IH. reflexivity. Qed.

Lemma swing_run_audit : forall outs n w y T w', swing_account w y T -> executed (swing_sim_step b) iv w n outs w' ->
  (forall o, In o outs -> 0 < so_usable o /\ 0 <= so_demand o <= tv) ->
  exists y', swing_account w' y' (last (somes (map so_tm_temp outs)) T) /\ (outs <> [] -> 0 < y') /\
    y' * rho_cp * (storage - warm) + tv * last (somes (map so_tm_temp outs)) T * rho_cp
      + qsum (map (fun d => d * rho_cp * (supply - warm)) (map so_demand outs)) + qz (Z.of_nat (length outs)) * (loss * 1000 * (qz iv / 60))
    <= y * rho_cp * (storage - warm) + tv * T * rho_cp
      + qsum (map (fun k => qmax 0 k * 1000 * (qz iv / 60)) (map so_output outs))
      + qsum (map (fun k => qmax 0 k * 1000 * (qz iv / 60)) (somes (map so_tm_output outs))).
Proof.
  induction outs as [|o outs IH]; intros n w y T w' HS EX OK.
  - cbn in EX. subst w'. exists y. split; [exact HS|]. split; [congruence|]. cbn [map somes last length]. change (qsum (@nil Q)) with 0. change (qz (Z.of_nat 0)) with 0. lra.
  - destruct EX as (w1 & E & EX). destruct (OK o (or_introl eq_refl)) as [U D].
    destruct (swing_audit _ _ _ _ _ _ E HS U D) as (y1 & T1 & tmo & HS1 & P1 & ET & EO & LE).
    destruct (IH _ w1 y1 T1 w' HS1 EX (fun o' I => OK o' (or_intror I))) as (y' & HS' & P' & LE').
    exists y'. cbn [map]. rewrite ET, EO. cbn [somes]. rewrite last_cons. split; [exact HS'|]. split.
    { intros _. destruct outs as [|o' outs]; [|apply P'; discriminate]. cbn in EX. subst w'. destruct HS' as [[_ _ _ (tk & E1 & _ & _ & _ & _ & E2)] _ _ _ _], HS1 as [[_ _ _ (tk' & E1' & _ & _ & _ & _ & E2')] _ _ _ _].
      cbn [bs_tank] in *. rewrite E1' in E1. injection E1 as <-. lra. }
    cbn [map length]. change (qsum (?a :: ?l)) with (a + qsum l).
    assert (Q1 : qz (Z.of_nat (S (length outs))) == 1 + qz (Z.of_nat (length outs))) by (unfold qz; rewrite Nat2Z.inj_succ; unfold Z.succ; rewrite inject_Z_plus; ring).
    rewrite Q1. lra.
Qed.
End Audit.
