(** C60 and the swing part of C19: simulation of swing-tank systems.  Vocabulary in S_Step. *)
From Verif Require Import Prelude M_StratifiedTank S_StratifiedTank L_StratifiedTank L_StratifiedTank2 L_StratifiedTank3
  M_MixedTank L_MixedTank M_Building L_Building M_Heater S_Heater L_Heater M_Sizing M_SimRun S_SimRun L_SimRun L_Sizing3 M_Step S_Step L_Step L_Step2 L_Step3 L_Step5 L_Step6.
From Verif Require Import P_Step P_SimRun.
Open Scope Q_scope.

(** Mains between [L] and [M], delivery temperatures between [M] and [H], element triggers between
    [L] and [H], an element that can at least cover the loop loss and gives at most [C]: every step
    is physical and the swing tank stays between [L] and [H] plus one step of full heating. *)
Theorem C60_bounds : forall b w dur thr maxm w' r L M H C,
  0 < st_vol (ws_tank w) -> 0 < st_slope (ws_tank w) -> 0 < mx_vol (ws_swing w) -> 0 <= ws_loss w ->
  (forall t iv x, bd_inlet b t iv = Ok x -> L <= x <= M) ->
  (forall di, bd_design_inlet b = Ok di -> L <= sim_inlet di <= M) ->
  M <= ws_storage w <= H ->
  (forall hour sp, setpoint (ws_heaters w) (ws_storage w) hour sp -> M <= sp <= H) ->
  (forall hour c, in_effect (ws_element w) hour c -> L <= ct_on_trigger c <= H /\ L <= ct_off_trigger c <= H) ->
  (forall oat top x, wh_capacity (ws_element w) (Some oat) top None = Ok x -> ws_loss w <= or0 x <= C) -> ws_loss w <= C ->
  L <= ws_supply w + 8 <= H ->
  simulate_swing b w dur thr maxm = Ok (w', r) ->
  let q := C * 1000 * (qz (sr_iv r) / 60) / (mx_vol (ws_swing w) * rho_cp) in
  exists w0 outs, init_swing b w = Ok w0 /\ executed (swing_sim_step b) (sr_iv r) w0 0 outs w' /\ recorded outs r /\
    (forall i o, nth_error outs i = Some o ->
       physical_step b (ws_heaters w) (ws_storage w) (st_vol (ws_tank w)) (Z.of_nat i) (sr_iv r) o) /\
    length (sr_tm_temp r) = length (sr_demand r) /\ forall x, In x (sr_tm_temp r) -> L <= x <= H + q.
Proof.
  intros b w dur thr maxm w' r L M H C V1 V2 MP LN HI HD HST HS HE HC LC H8 HH q.
  unfold simulate_swing in HH. destruct (bind_ok _ _ _ HH) as (w0 & E0 & H1). clear HH.
  destruct (simulate_inv _ _ _ _ _ _ _ _ _ H1) as (total & iv & outs & Et & Piv & Eiv & _ & _ & EX & RC & _).
  exists w0, outs. subst q. rewrite Eiv in *. split; [exact E0|]. split; [exact EX|]. split; [exact RC|].
  destruct (swing_init b w w0 (conj V1 V2) E0) as (SI & di & off & Edi & Eoff & I1 & I2 & I3).
  assert (OFF : L <= off <= H).
  { unfold ws_off_temp in Eoff. destruct (bind_ok _ _ _ Eoff) as (c & Ec & E1). apply ok_inj in E1. rewrite <- E1. destruct c as [c|]; [|exact H8].
    apply (HE 0%Z c). apply in_effect_iff; [lia|exact Ec]. }
  assert (D0 : 0 <= swing_delta w C iv).
  { unfold swing_delta. pose proof rho_pos. pose proof (qz_nonneg iv ltac:(lia)). apply qdiv_nonneg; [|apply qmul_pos; lra].
    apply qmul_nonneg; [|lra]. apply qdiv_nonneg; [apply qmul_nonneg; lra|lra]. }
  assert (BD : in_band w L M H (swing_delta w C iv) w0).
  { split; [exact SI|]. rewrite I1, I2, I3. split; [exact (HD _ Edi)|]. split; [exact HST|lra]. }
  destruct (executed_forall (swing_sim_step b) iv (in_band w L M H (swing_delta w C iv))
     (fun t o => physical_step b (ws_heaters w) (ws_storage w) (st_vol (ws_tank w)) t iv o /\
        exists x, so_tm_temp o = Some x /\ so_delivery o = Some x /\ L <= x <= H + swing_delta w C iv)
     (fun s1 t s2 o J E => swing_band b w L M H C iv s1 t s2 o MP LN Piv HI HS HE HC LC J E) outs w0 0%Z w' BD EX) as [_ P].
  split; [intros i o E; exact (proj1 (P i o E))|].
  assert (QE : swing_delta w C iv == C * 1000 * (qz iv / 60) / (mx_vol (ws_swing w) * rho_cp)) by (unfold swing_delta; field; pose proof rho_pos; split; lra).
  assert (G : forall o, In o outs -> exists x, so_tm_temp o = Some x /\ L <= x <= H + swing_delta w C iv).
  { intros o I. apply In_nth_error in I. destruct I as (k & Ek). destruct (P k o Ek) as (_ & x & X & _ & B). exists x. auto. }
  cut (length (sr_tm_temp r) = length (sr_demand r) /\ forall x, In x (sr_tm_temp r) -> L <= x <= H + swing_delta w C iv).
  { intros [A1 A2]. split; [exact A1|]. intros x I. pose proof (A2 x I). lra. }
  rewrite (rc_tm_temp _ _ RC), (rc_demand _ _ RC), map_length. clear - G. induction outs as [|o outs IH]; [split; [reflexivity|intros x []]|].
  cbn [map somes]. destruct (G o (or_introl eq_refl)) as (x & -> & B). destruct IH as [A1 A2]; [intros o' I'; apply G; right; exact I'|]. split; [cbn [length]; f_equal; exact A1|].
  intros y [<-|I]; [exact B|exact (A2 y I)].
Qed.
Print Assumptions C60_bounds.

(** One step's heat balance.  The swing tank gives the demand, tempered by mains water if it is
    hotter than supply; what it gives is replaced by the top of the heated primary tank; then the
    loop loses its design loss and the element adds its output. *)
Theorem C60_heat_balance : forall b w t iv w' o,
  0 < st_vol (ws_tank w) -> 0 < st_slope (ws_tank w) -> 0 < mx_vol (ws_swing w) -> 0 <= ws_loss w -> (0 < iv)%Z ->
  heats (ws_element w) ->
  swing_sim_step b w t iv = Ok (w', o) ->
  let T := mx_temp (ws_swing w) in let V := mx_vol (ws_swing w) in
  exists hw feed tk1 sp T1 T2 out,
    (forall h, in_hour t iv h -> aquastats (ws_heaters w) (ws_heaters w') (st_temp (ws_tank w)) h /\
       exists l, Forall2 (heater_gives (so_oat o) (so_inlet o) h) (ws_heaters w') l /\ so_output o = qsum l) /\
    (T <= ws_supply w -> hw = so_demand o) /\
    (ws_supply w < T -> hw * (T - so_inlet o) == so_demand o * (ws_supply w - so_inlet o)) /\
    (forall h, in_hour t iv h -> setpoint (ws_heaters w) (ws_storage w) h sp) /\
    st_heat (ws_tank w) (so_output o) (qz iv) sp = Ok tk1 /\ st_avg tk1 hw = Ok feed /\
    st_draw_physical tk1 hw (so_inlet o) (Some (ws_supply w)) = Ok (ws_tank w') /\
    V * T1 == (V - qmin V (qmax 0 hw)) * T + qmin V (qmax 0 hw) * feed /\
    V * rho_cp * (T2 - T1) == - (ws_loss w * 1000 * (qz iv / 60)) /\
    (forall h, in_hour t iv h -> aquastats [ws_element w] [ws_element w'] (fun _ => Ok T2) h) /\
    (wh_active (ws_element w') = false -> out = 0) /\
    (wh_active (ws_element w') = true -> exists c, wh_capacity (ws_element w) (Some (so_oat o)) T2 None = Ok c /\ out = or0 c) /\
    so_tm_output o = Some out /\ so_tm_kw o = Some (out / w_to_kbtuh) /\
    V * rho_cp * (mx_temp (ws_swing w') - T2) == out * 1000 * (qz iv / 60) /\
    so_tm_temp o = Some (mx_temp (ws_swing w')) /\ so_delivery o = Some (mx_temp (ws_swing w')).
Proof.
  intros b w t iv w' o V1 V2 MP LN IV RE ST T V.
  destruct (swing_step_inv _ _ _ _ _ _ ST) as (outlet & hs & tk1 & hw & feed & sw1 & sw2 & el & sw3 & tk2 & tmo & Ed & Eo & Ei & Eout & Ehs & Eq & E1 & Ehw & Ef & Es1 & Es2 & Eel & Etm & (hx & Es3) & E2 & Eu & Ets & -> & Ett & Eto & Etk & Edel & _).
  exists hw, feed, tk1, outlet, (mx_temp sw1), (mx_temp sw2), tmo. cbn [ws_tank ws_swing ws_heaters ws_element].
  destruct (mx_inflow_cases (ws_swing w) hw feed MP) as (x & Ex & EV1 & XC). rewrite Es1 in Ex. apply ok_inj in Ex. subst x.
  destruct (fixed_loss_keeps sw1 (ws_loss w) (qz iv) sw2 ltac:(rewrite EV1; exact MP) LN (qz_nonneg iv ltac:(lia)) Es2) as [EV2 T2].
  destruct (wh_update_same _ _ _ _ Eel) as (U1 & U2 & U3).
  assert (TN : 0 <= tmo).
  { unfold wh_output in Etm. destruct (wh_active el); cbn [negb] in Etm; [|apply ok_inj in Etm; subst tmo; lra].
    destruct (bind_ok _ _ _ Etm) as ([c|] & Ec & E3); apply ok_inj in E3; subst tmo; [|lra]. apply (RE (so_oat o) (mx_temp_at sw2 1) None). unfold wh_capacity in *. rewrite U1 in Ec. exact Ec. }
  destruct (mx_heat_keeps sw2 tmo (qz iv) hx sw3 ltac:(rewrite EV2, EV1; exact MP) TN Es3) as [EV3 T3].
  split; [|split; [|split; [|split; [|split; [exact E1|split; [exact Ef|split; [exact E2|split; [|split; [|split; [|split; [|split; [|split; [exact Eto|split; [exact Etk|split; [|split; assumption]]]]]]]]]]]]]]].
  - intros h HH. apply in_hour_eq in HH. subst h. pose proof (proj1 (hour_of_range t iv)) as H0.
    split; [exact (aquastats_of _ _ _ _ H0 Ehs)|exact (total_output_spec _ _ _ _ _ H0 Eq)].
  - intro Le. unfold swing_draw, mx_temp_at in Ehw. fold T in Ehw. destruct (qltb (ws_supply w) T) eqn:E; qbool; [lra|]. apply ok_inj in Ehw. symmetry. exact Ehw.
  - intro Lt. unfold swing_draw, mx_temp_at in Ehw. fold T in Ehw. destruct (qltb (ws_supply w) T) eqn:E; qbool; [|lra].
    destruct (qdiv_inv _ _ _ Ehw) as [NZ ->]. apply qdiv_mul. exact NZ.
  - intros h HH. apply in_hour_eq in HH. subst h. apply outlet_for_spec; [apply (hour_of_range t iv)|exact Eout].
  - fold V in XC. fold T in XC. assert (MV : qmin V (qmax 0 hw) == qmin V (qmax 0 hw)) by reflexivity. fold V in MP.
    destruct XC as [[G ->]|[(G1 & G2 & ->)|(G1 & G2 & E)]].
    + assert (Z : qmin V (qmax 0 hw) == 0) by (apply Qle_antisym; [apply Qle_trans with (qmax 0 hw); [apply qmin_r|apply qmax_lub; lra]|apply qmin_glb; [lra|apply qmax_l]]). rewrite Z. fold T. ring.
    + assert (Z : qmin V (qmax 0 hw) == V) by (apply Qle_antisym; [apply qmin_l|apply qmin_glb; [lra|apply Qle_trans with hw; [exact G1|apply qmax_r]]]). rewrite Z. ring.
    + assert (Z : qmin V (qmax 0 hw) == hw) by (apply Qle_antisym; [apply Qle_trans with (qmax 0 hw); [apply qmin_r|apply qmax_lub; lra]|apply qmin_glb; [lra|apply qmax_r]]). rewrite Z. exact E.
  - rewrite T2, EV1. fold V. pose proof rho_pos. field. fold V in MP. split; lra.
  - intros h HH. apply in_hour_eq in HH. subst h. apply (aquastats_of [ws_element w] [el] (fun _ => Ok (mx_temp sw2)) (hour_of t iv)); [apply (hour_of_range t iv)|].
    cbn [mapM]. unfold mx_temp_at in Eel. rewrite Eel. reflexivity.
  - intro A. unfold wh_output in Etm. rewrite A in Etm. cbn [negb] in Etm. apply ok_inj in Etm. symmetry. exact Etm.
  - intro A. unfold wh_output in Etm. rewrite A in Etm. cbn [negb] in Etm. destruct (bind_ok _ _ _ Etm) as (c & Ec & E3). apply ok_inj in E3. exists c.
    split; [|subst tmo; destruct c; reflexivity]. rewrite <- Ec. unfold wh_capacity. rewrite U1. reflexivity.
  - rewrite T3, EV2, EV1. fold V. pose proof rho_pos. field. fold V in MP. split; lra.
Qed.
Print Assumptions C60_heat_balance.

(** No usable water is reported when the swing tank was below supply at the start of the step;
    otherwise the primary tank's usable volume is. *)
Theorem C60_usable : forall b w t iv w' o, swing_sim_step b w t iv = Ok (w', o) ->
  (mx_temp (ws_swing w) < ws_supply w -> so_usable o = 0) /\
  (ws_supply w <= mx_temp (ws_swing w) -> st_usable (ws_tank w') (ws_supply w) = Ok (so_usable o)).
Proof.
  intros b w t iv w' o ST.
  destruct (swing_step_inv _ _ _ _ _ _ ST) as (outlet & hs & tk1 & hw & feed & sw1 & sw2 & el & sw3 & tk2 & tmo & _ & _ & _ & _ & _ & _ & _ & _ & _ & _ & _ & _ & _ & _ & _ & Eu & _ & -> & _).
  cbn [ws_tank]. destruct (qltb (mx_temp (ws_swing w)) (ws_supply w)) eqn:E; qbool; split; intro Le; try lra.
  - apply ok_inj in Eu. symmetry. exact Eu.
  - exact Eu.
Qed.
Print Assumptions C60_usable.

Theorem C60_completes : forall b w dur thr maxm,
  complete b -> Forall scheduled (ws_heaters w) -> Forall rated (ws_heaters w) -> scheduled (ws_element w) -> rated (ws_element w) ->
  0 < st_vol (ws_tank w) -> 0 < st_slope (ws_tank w) -> 0 < mx_vol (ws_swing w) ->
  (forall t iv x, bd_inlet b t iv = Ok x -> x <= ws_supply w) ->
  dur = "3day"%string \/ dur = "annual"%string ->
  exists w' r, simulate_swing b w dur thr maxm = Ok (w', r).
Proof.
  intros b w dur thr maxm C FS FR SE RE V1 V2 MP IN D. apply swing_completes; [exact C| |exact D].
  unfold swing_ready. split; [exact FS|]. split; [exact FR|]. split; [split; assumption|]. auto 10.
Qed.
Print Assumptions C60_completes.

(** Every swing step records its maintenance power, so entry [i] belongs to step [i]. *)
Theorem C19_swing_aligned : forall b w dur thr maxm w' r,
  simulate_swing b w dur thr maxm = Ok (w', r) ->
  exists w0 outs, executed (swing_sim_step b) (sr_iv r) w0 0 outs w' /\ recorded outs r /\
    length (sr_tm_kw r) = length outs /\ length (sr_tm_output r) = length outs /\
    forall i o, nth_error outs i = Some o -> exists out, so_tm_output o = Some out /\
      nth_error (sr_tm_output r) i = Some out /\ nth_error (sr_tm_kw r) i = Some (out / w_to_kbtuh).
Proof.
  intros b w dur thr maxm w' r HH. unfold simulate_swing in HH. destruct (bind_ok _ _ _ HH) as (w0 & E0 & H1). clear HH.
  destruct (simulate_inv _ _ _ _ _ _ _ _ _ H1) as (total & iv & outs & Et & Piv & Eiv & _ & _ & EX & RC & _).
  exists w0, outs. rewrite Eiv. split; [exact EX|]. split; [exact RC|]. rewrite (rc_tm_kw _ _ RC), (rc_tm_output _ _ RC).
  clear - EX. revert EX. generalize w0 0%Z. induction outs as [|o outs IH]; intros x k EX; [repeat split; intros [|i] o E; discriminate|].
  cbn [executed] in EX. destruct EX as (s1 & E & EX).
  destruct (swing_step_inv _ _ _ _ _ _ E) as (outlet & hs & tk1 & hw & feed & sw1 & sw2 & el & sw3 & tk2 & tmo & _ & _ & _ & _ & _ & _ & _ & _ & _ & _ & _ & _ & _ & _ & _ & _ & _ & _ & _ & Eto & Etk & _).
  destruct (IH _ _ EX) as (A1 & A2 & A3). cbn [map somes]. rewrite Eto, Etk. cbn [length]. split; [f_equal; exact A1|]. split; [f_equal; exact A2|].
  intros [|i] o' Ei; cbn in Ei; [injection Ei as <-; exists tmo; auto|]. cbn [nth_error]. exact (A3 i o' Ei).
Qed.
Print Assumptions C19_swing_aligned.

(** *** Concrete cases *)
Definition ex_element (cap : Q) : heater :=
  wh_new (Some (PmNominal cap)) (Some (repeat "normal"%string 24)) (Some [("normal"%string, mkControls (1 # 2) 120 (1 # 2) 128 128)]).
Definition ex_wsys (flow cap : Q) : wsys :=
  mkWsys [ex_heater 60] (st_new 300 1) 120 150 110 flow (mkMixed 100 0 0) (ex_element cap).

Lemma ex_element_scheduled cap : scheduled (ex_element cap).
Proof.
  eexists. eexists. split; [reflexivity|]. split; [reflexivity|]. split; [cbn; lia|].
  intros k I. apply (repeat_spec 24) in I. subst k. eexists. reflexivity.
Qed.
Lemma ex_inlet t iv x : bd_inlet ex_building t iv = Ok x -> x = 50.
Proof. intro E. cbn in E. apply ok_inj in E. symmetry. exact E. Qed.

(** A three-gallon-per-minute loop and an 18 kBTU/h element (loss 15.04): all hypotheses of
    C60_bounds hold with mains at 50, so the swing tank stays between 50 and 150 plus one step. *)
Example C60_case : forall dur, dur = "3day"%string \/ dur = "annual"%string -> exists w' r,
  simulate_swing ex_building (ex_wsys 3 18) dur 5 10 = Ok (w', r) /\
  0 <= ws_loss (ex_wsys 3 18) <= 18 /\
  (forall t iv x, bd_inlet ex_building t iv = Ok x -> 50 <= x <= 100) /\
  (forall di, bd_design_inlet ex_building = Ok di -> 50 <= sim_inlet di <= 100) /\
  (forall hour sp, setpoint (ws_heaters (ex_wsys 3 18)) (ws_storage (ex_wsys 3 18)) hour sp -> 100 <= sp <= 150) /\
  (forall hour c, in_effect (ex_element 18) hour c -> 50 <= ct_on_trigger c <= 150 /\ 50 <= ct_off_trigger c <= 150) /\
  (forall oat top x, wh_capacity (ex_element 18) (Some oat) top None = Ok x -> ws_loss (ex_wsys 3 18) <= or0 x <= 18).
Proof.
  intros dur D. destruct (C60_completes ex_building (ex_wsys 3 18) dur 5 10 ex_complete) as (w' & r & E);
    [constructor; [apply ex_scheduled|constructor]|constructor; [apply ex_rated; discriminate|constructor]|apply ex_element_scheduled|
     intros oat out inl; exists (Some 18), None; repeat split; discriminate|reflexivity|reflexivity|reflexivity|
     intros t iv x Hx; apply ex_inlet in Hx; subst x; discriminate|exact D|].
  exists w', r. split; [exact E|]. clear E. split; [split; discriminate|].
  split; [intros t iv x Hx; apply ex_inlet in Hx; subst x; split; discriminate|].
  split; [intros di Hx; cbn in Hx; apply ok_inj in Hx; subst di; split; discriminate|].
  split; [intros h sp Hs; apply ex_setpoint in Hs; subst sp; split; discriminate|].
  split; [|intros oat top x Hx; cbn in Hx; apply ok_inj in Hx; subst x; split; discriminate].
  intros h c (_ & s & d & k & Es & Ed & Ek & Ec). cbn in Es, Ed. injection Es as <-. injection Ed as <-.
  apply nth_error_In in Ek. apply (repeat_spec 24) in Ek. subst k. cbn in Ec. injection Ec as <-. cbn. repeat split; discriminate.
Qed.

(** An element smaller than the loop's loss: after one ten-minute step of a 120-gpm loop the swing
    tank is colder than the mains. *)
Theorem C60_small_element_refuted : exists w0 w' o,
  init_swing ex_building (ex_wsys 120 18) = Ok w0 /\ swing_sim_step ex_building w0 0 10 = Ok (w', o) /\
  so_inlet o = 50 /\ mx_temp (ws_swing w') < 50 /\ 18 < ws_loss (ex_wsys 120 18).
Proof.
  destruct (init_swing ex_building (ex_wsys 120 18)) as [w0|] eqn:E0; [|vm_compute in E0; discriminate].
  destruct (swing_sim_step ex_building w0 0 10) as [[w' o]|] eqn:E1.
  - exists w0, w', o. split; [reflexivity|]. split; [exact E1|]. vm_compute in E0. injection E0 as <-. vm_compute in E1. injection E1 as <- <-.
    repeat split; vm_compute; reflexivity.
  - vm_compute in E0. injection E0 as <-. vm_compute in E1. discriminate.
Qed.
Print Assumptions C60_small_element_refuted.
