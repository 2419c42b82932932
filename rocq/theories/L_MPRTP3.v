(** Lemmas about simulation of multi-pass systems. *)
From Verif Require Import Prelude M_StratifiedTank M_EnergyTank S_EnergyTank L_EnergyTank L_Slug M_MixedTank L_MixedTank M_Building L_Building M_Heater S_Heater L_Heater
  M_Sizing M_SimRun S_SimRun L_SimRun M_Step S_Step L_Step L_Step2 M_MPRTP S_MPRTP L_MPRTP.
From Verif Require Import P_MPRTP L_Sizing3.
Open Scope Q_scope.

Lemma sl_set_cold_inv lo h t c : sl_inv lo h t -> lo <= c -> c < h -> sl_inv lo h (sl_set_cold t c) /\ sl_geom t (sl_set_cold t c).
Proof.
  intros [A [B [C [[D1 [D2 D3]] [E F]]]]] L1 L2. split; [|repeat split].
  unfold sl_inv, sl_set_cold. cbn. repeat (split; [assumption|]). split; [auto|]. split; [exact E|exact F].
Qed.

Lemma sl_geom_trans a b c : sl_geom a b -> sl_geom b c -> sl_geom a c.
Proof. intros (A1 & A2 & A3 & A4 & A5) (B1 & B2 & B3 & B4 & B5). repeat split; congruence. Qed.

(** Every query answers, between the cold and the storage temperature. *)
Lemma sl_temp_range lo h t f : sl_inv lo h t -> exists x, sl_temp_at t f = Ok x /\ en_cold (sl_base t) <= x <= h.
Proof.
  intros I. pose proof (sl_inv_wf _ _ _ I) as W. pose proof I as [[A1 [A2 [A3 A4]]] [B [C [[D1 [D2 D3]] [E F]]]]].
  assert (EN : forall g, exists x, en_temp (sl_base t) g = Ok x /\ en_cold (sl_base t) <= x <= h).
  { intro g. unfold en_temp. cbv zeta. destruct (qltb (g * 100) _); [eexists; split; [reflexivity|lra]|].
    destruct (en_shift_total _ W) as [sh ->]. cbn [bind]. eexists. split; [reflexivity|]. split; [apply qmax_l|]. apply qmax_lub; [lra|]. eapply Qle_trans; [apply qmin_l|lra]. }
  unfold sl_temp_at. cbv zeta. destruct (negb (sl_active t)); [apply EN|].
  destruct (qltb (f * 100) _); [eexists; split; [reflexivity|lra]|].
  destruct (Qle_bool (f * 100) (sl_top t)).
  - eexists. split; [reflexivity|]. split; [apply qmax_l|]. apply qmax_lub; [lra|]. eapply Qle_trans; [apply qmin_l|lra].
  - rewrite qdiv_ok by lra. cbn [bind]. apply EN.
Qed.

Lemma lifecycle_inv lo h was now sup t : sl_inv lo h t ->
  exists t', mp_lifecycle was now sup t = Ok t' /\ sl_inv lo h t' /\ sl_geom t t' /\ en_cold (sl_base t') = en_cold (sl_base t).
Proof.
  intro I. unfold mp_lifecycle. destruct now.
  - destruct (sl_activate_inv lo h t sup I) as (t' & E & J & G & EB & _). exists t'. rewrite EB. auto.
  - destruct was.
    + destruct (sl_deactivate_inv lo h t I) as (t' & E & J & G & _). exists t'. split; [exact E|]. split; [exact J|]. split; [exact G|].
      clear - E. unfold sl_deactivate in E. cbv zeta in E. destruct (negb (sl_active t)); [apply ok_inj in E; rewrite <- E; reflexivity|].
      repeat match goal with H : bind _ _ = Ok _ |- _ => let x := fresh in let Ex := fresh in destruct (bind_ok _ _ _ H) as (x & Ex & ?); clear H end.
      match goal with H : Ok _ = Ok t' |- _ => apply ok_inj in H; rewrite <- H end. reflexivity.
    + exists t. split; [reflexivity|]. split; [exact I|]. split; [repeat split|reflexivity].
Qed.

(** The heaters' part, without an inlet temperature. *)
Lemma mp_heaters_total lo h b t iv hs tk hour oat : bd_oat b t iv = Ok oat -> Forall scheduled hs -> Forall (productive b) hs -> sl_inv lo h tk -> (0 <= hour < 24)%Z ->
  exists m hs' q kws, mode_for hs hour = Ok m /\
    mapM (fun h => wh_update h (sl_temp_at tk) hour) hs = Ok hs' /\ mp_output hs' oat hour = Ok q /\
    mp_powers hs' oat hour = Ok kws /\ Forall scheduled hs' /\ Forall (productive b) hs' /\ 0 <= q /\
    aquastats hs hs' (sl_temp_at tk) hour.
Proof.
  intros BO FS FR SI HH. rewrite Forall_forall in FS, FR.
  assert (MO : exists m, mode_for hs hour = Ok m).
  { unfold mode_for. destruct hs as [|h0 hs0]; [eexists; reflexivity|]. destruct (FS h0 (or_introl eq_refl)) as (s & d & Es & _ & L & _).
    rewrite Es. destruct s as [|k s]; [eexists; reflexivity|]. destruct (py_nth_total (k :: s) hour) as (x & E & _); [lia|]. exists x. exact E. }
  destruct MO as (m & Em).
  destruct (mapM_exists (fun h => wh_update h (sl_temp_at tk) hour) hs) as (hs' & Ehs).
  { intros h0 I. destruct (scheduled_effect h0 hour (FS h0 I) HH) as (c & E).
    destruct (sl_temp_range lo h tk (ct_on_sensor c) SI) as (x & Ex & _). destruct (sl_temp_range lo h tk (ct_off_sensor c) SI) as (y & Ey & _).
    exact (c30_step_succeeds h0 (sl_temp_at tk) hour c x y E Ex Ey). }
  pose proof (aquastats_of _ _ _ _ (proj1 HH) Ehs) as AQ. pose proof (aquastats_same _ _ _ _ AQ) as SH.
  assert (FS' : Forall scheduled hs').
  { apply Forall_forall. intros h0 I. apply same_all_sym in SH. destruct (forall2_in _ _ _ h0 SH I) as (h1 & I0 & (_ & A & B)).
    destruct (FS h1 I0) as (s & d & X). exists s, d. rewrite <- A, <- B. exact X. }
  assert (FR' : Forall (productive b) hs').
  { apply Forall_forall. intros h0 I. apply same_all_sym in SH. destruct (forall2_in _ _ _ h0 SH I) as (h1 & I0 & (A & _ & _)).
    intros t0 iv0 oa ou BO0. destruct (FR h1 I0 t0 iv0 oa ou BO0) as (c & w & X). exists c, w. unfold wh_capacity, wh_power in *. rewrite <- A. exact X. }
  assert (EF' : forall h0, In h0 hs' -> exists c, wh_controls_for h0 hour = Ok (Some c)).
  { intros h0 I. destruct (scheduled_effect h0 hour (proj1 (Forall_forall _ _) FS' h0 I) HH) as (c & E). exists c. apply in_effect_iff; [lia|exact E]. }
  assert (TO : exists l, mapM (fun h => do o <- wh_outlet_temp h hour; wh_output h (Some oat) o None) hs' = Ok l).
  { apply mapM_exists. intros h0 I. destruct (EF' h0 I) as (c & E). unfold wh_outlet_temp. rewrite E. cbn [bind].
    unfold wh_output. destruct (negb (wh_active h0)); [eexists; reflexivity|].
    destruct (proj1 (Forall_forall _ _) FR' h0 I t iv oat (ct_outlet c) BO) as (cap & w & E1 & _). rewrite E1. eexists. reflexivity. }
  destruct TO as (l & El).
  assert (PO : exists kws, mp_powers hs' oat hour = Ok kws).
  { unfold mp_powers. apply mapM_exists. intros h0 I. apply filter_In in I. destruct I as [I _].
    destruct (EF' h0 I) as (c & E). unfold wh_outlet_temp. rewrite E. cbn [bind].
    destruct (proj1 (Forall_forall _ _) FR' h0 I t iv oat (ct_outlet c) BO) as (cap & w & _ & _ & E1). rewrite E1. eexists. reflexivity. }
  destruct PO as (kws & Ek).
  exists m, hs', (qsum l), kws. split; [exact Em|]. split; [exact Ehs|].
  split; [unfold mp_output; rewrite El; reflexivity|]. split; [exact Ek|]. split; [exact FS'|]. split; [exact FR'|]. split; [|exact AQ].
  assert (NN : forall x, In x l -> 0 <= x).
  { intros x I. apply mapM_forall2 in El. clear - El I FR' BO. induction El as [|h0 y hs l E F IH]; [destruct I|].
    inversion FR'; subst. destruct I as [<-|I]; [|apply IH; assumption].
    destruct (bind_ok _ _ _ E) as (o & _ & E1). unfold wh_output in E1. destruct (negb (wh_active h0)); [apply ok_inj in E1; subst; lra|].
    destruct (H1 t iv oat o BO) as (c & w & Ec & R2 & _). rewrite Ec in E1. apply ok_inj in E1. subst y. destruct c as [c|]; [exact (R2 _ eq_refl)|lra]. }
  clear - NN. induction l as [|x l IH]; cbn [qsum]; [lra|]. assert (0 <= x) by (apply NN; left; reflexivity).
  assert (0 <= qsum l) by (apply IH; intros y I; apply NN; right; exact I). lra.
Qed.

(** The temperature of the water returning to the tank. *)
Lemma valve_inlet_range load flow cold supply ret hot d i : 0 <= load -> 0 <= flow -> cold <= ret -> cold < supply -> ret <= supply -> cold <= hot ->
  mixing_valve load flow cold supply ret hot = Ok (d, i) -> cold <= i <= ret.
Proof.
  intros A B C D E F H. destruct (Qlt_le_dec supply hot) as [G|G].
  - exact (proj1 (proj2 (valve_ordinary _ _ _ _ _ _ _ _ (Build_ordinary _ _ _ _ _ _ A B C D E G) H))).
  - destruct (valve_inv _ _ _ _ _ _ _ _ H) as [N [(_ & _ & -> & _)|(L & N1 & N2 & E1 & _)]]; [lra|]. exfalso.
    assert (HS : hot < supply) by lra. assert (FN : 0 <= flow * (supply - ret)) by (apply qmul_nonneg; lra).
    assert (Y : flow * (supply - ret) / (hot - supply) == - (flow * (supply - ret) / (supply - hot))) by (field; split; lra).
    assert (P : 0 <= flow * (supply - ret) / (supply - hot)) by (apply qdiv_nonneg; lra).
    assert (L0 : load == 0) by lra.
    assert (Z : flow * (supply - ret) == 0).
    { destruct (Qlt_le_dec 0 (flow * (supply - ret))) as [P'|P']; [|lra]. assert (0 < flow * (supply - ret) / (supply - hot)) by (apply qdiv_pos; lra). lra. }
    apply N2. assert (Z2 : d * (hot - ret) == 0).
    { rewrite E1, L0. assert (X : (0 + flow) * (supply - ret) == flow * (supply - ret)) by ring. rewrite X. exact Z. }
    apply Qmult_integral in Z2. destruct Z2 as [Z2|Z2]; [exact Z2|exfalso; lra].
Qed.

(** ** A step *)

(** [s] is a state of a simulation of [s0]. *)
Definition mp_ready (b : building) (lo : Q) (s0 s : msys) : Prop :=
  Forall scheduled (ms_heaters s) /\ Forall (productive b) (ms_heaters s) /\ sl_inv lo (ms_storage s0) (ms_tank s) /\ sl_geom (ms_tank s0) (ms_tank s) /\
  ms_supply s = ms_supply s0 /\ ms_storage s = ms_storage s0 /\ ms_return s = ms_return s0 /\ ms_flow s = ms_flow s0.



Lemma mp_step_cases lo s0 b s t iv : complete b -> mp_ready b lo s0 s -> (0 < iv)%Z ->
  (forall t iv x, (0 < iv)%Z -> bd_load b t iv false = Ok x -> 0 <= x) ->
  (forall t iv x, bd_inlet b t iv = Ok x -> lo <= x /\ x <= ms_return s0 /\ x < ms_supply s0) ->
  ms_return s0 <= ms_supply s0 -> ms_supply s0 < ms_storage s0 -> 0 <= ms_flow s0 ->
  exists demand inlet hs tk1 top,
    bd_load b t iv false = Ok demand /\ bd_inlet b t iv = Ok inlet /\
    aquastats (ms_heaters s) hs (sl_temp_at (sl_set_cold (ms_tank s) inlet)) (hour_of t iv) /\
    mp_lifecycle (existsb wh_active (ms_heaters s)) (existsb wh_active hs) (ms_supply s0) (sl_set_cold (ms_tank s) inlet) = Ok tk1 /\
    sl_temp_at tk1 1 = Ok top /\ inlet <= top <= ms_storage s0 /\
    ((valve_undefined demand (ms_flow s0 * qz iv * (ms_supply s0 - ms_return s0)) inlet (ms_supply s0) top /\ mp_step b s t iv = Err ZeroDivisionError) \/
     (~ valve_undefined demand (ms_flow s0 * qz iv * (ms_supply s0 - ms_return s0)) inlet (ms_supply s0) top /\
      exists s' o draw mv, mp_step b s t iv = Ok (s', o) /\ mp_ready b lo s0 s' /\ ms_heaters s' = hs /\
        mp_possible b (ms_storage s0) (sl_pu (ms_tank s0) * en_vol (sl_base (ms_tank s0))) t iv o /\ so_demand o = demand /\ so_inlet o = inlet /\
        so_oat o = top /\ so_delivery o = Some (if existsb wh_active hs then ms_supply s0 else top) /\
        mixing_valve demand (ms_flow s0 * qz iv) inlet (ms_supply s0) (ms_return s0) top = Ok (draw, mv) /\
        inlet <= mv <= ms_return s0)).
Proof.
  intros CB (FS & FR & SI & SG & T1 & T2 & T3 & T4) Piv HD HI R1 R2 FN.
  destruct (complete_answers b CB t iv) as (Ld & (oat & Eo) & (inlet & Ei) & _). destruct (Ld false) as (demand & Ed). clear Ld.
  destruct (HI _ _ _ Ei) as (I1 & I2 & I3). pose proof (HD _ _ _ Piv Ed) as DN.
  assert (IP : 0 < qz iv) by (unfold qz, Qlt; cbn; lia).
  assert (FQ : 0 <= ms_flow s0 * qz iv) by (apply qmul_nonneg; lra).
  destruct (sl_set_cold_inv _ _ _ inlet SI I1 ltac:(lra)) as (S0 & G0).
  destruct (mp_heaters_total _ _ b t iv (ms_heaters s) (sl_set_cold (ms_tank s) inlet) (hour_of t iv) oat Eo FS FR S0 (hour_of_range t iv))
    as (m & hs & q & kws & Em & Ehs & Eq & Ek & FS' & FR' & NQ & AQ).
  destruct (lifecycle_inv _ _ (existsb wh_active (ms_heaters s)) (existsb wh_active hs) (ms_supply s0) _ S0) as (tk1 & E1 & S1 & G1 & C1).
  destruct (sl_temp_range _ _ _ 1 S1) as (top & Etop & RT). rewrite C1 in RT. cbn in RT.
  exists demand, inlet, hs, tk1, top. split; [exact Ed|]. split; [exact Ei|]. split; [exact AQ|]. split; [exact E1|]. split; [exact Etop|]. split; [exact RT|].
  pose proof (C48_raises_in_range demand (ms_flow s0 * qz iv) inlet (ms_supply s0) (ms_return s0) top DN FQ I2 I3 R1 (proj1 RT)) as RI.
  unfold mp_step. rewrite Ed. cbn [bind]. rewrite Eo. cbn [bind]. rewrite Ei. cbn [bind]. cbv zeta. rewrite Em. cbn [bind]. rewrite Ehs. cbn [bind]. rewrite T1. rewrite E1. cbn [bind].
  rewrite Etop. cbn [bind]. rewrite Eq. cbn [bind]. rewrite Ek. cbn [bind]. rewrite T3, T4.
  destruct (mixing_valve demand (ms_flow s0 * qz iv) inlet (ms_supply s0) (ms_return s0) top) as [[d i]|e] eqn:EM.
  - right. split; [intro X; apply RI in X; discriminate|]. cbn [bind].
    pose proof (valve_inlet_range _ _ _ _ _ _ _ _ DN FQ I2 I3 R1 (proj1 RT) EM) as IR.
    assert (H2 : exists tk2, (if (existsb wh_active hs && (sl_active tk1 && qltb 0 (sl_vol tk1)))%bool then sl_heat tk1 q (qz iv) else Ok tk1) = Ok tk2 /\
       sl_inv lo (ms_storage s0) tk2 /\ sl_geom tk1 tk2 /\ en_cold (sl_base tk2) = inlet).
    { destruct (_ && _)%bool.
      - destruct (sl_heat_inv lo (ms_storage s0) tk1 q (qz iv) S1 ltac:(apply qmul_nonneg; lra)) as (tk2 & E2 & S2 & G2). exists tk2. split; [exact E2|]. split; [exact S2|]. split; [exact G2|].
        rewrite <- C1 || idtac. clear - E2 C1. unfold sl_heat in E2. destruct (_ || _)%bool; [apply ok_inj in E2; rewrite <- E2; exact C1|].
        cbv zeta in E2. destruct (bind_ok _ _ _ E2) as (x & _ & E3). apply ok_inj in E3. rewrite <- E3. exact C1.
      - exists tk1. split; [reflexivity|]. split; [exact S1|]. split; [repeat split|exact C1]. }
    destruct H2 as (tk2 & E2 & S2 & G2 & C2). rewrite E2. cbn [bind].
    assert (H3 : exists tk3, (if qltb 0 d then sl_draw_physical tk2 d i false else Ok tk2) = Ok tk3 /\ sl_inv lo (ms_storage s0) tk3 /\ sl_geom tk2 tk3 /\ en_cold (sl_base tk3) = inlet).
    { destruct (qltb 0 d).
      - destruct (sl_draw_inv lo (ms_storage s0) tk2 d i false S2 ltac:(lra) ltac:(lra)) as (tk3 & E3 & S3 & G3 & _). exists tk3. split; [exact E3|]. split; [exact S3|]. split; [exact G3|].
        clear - E3 C2. unfold sl_draw_physical in E3. cbv zeta in E3. destruct (negb (sl_active tk2)).
        + destruct (bind_ok _ _ _ E3) as (e & E & H1). apply ok_inj in H1. rewrite <- H1. cbn [sl_base]. unfold en_draw_physical in E. cbv zeta in E.
          destruct (Qle_bool d 0); [apply ok_inj in E; rewrite <- E; exact C2|]. destruct (bind_ok _ _ _ E) as (a & _ & Ea). apply ok_inj in Ea. rewrite <- Ea. exact C2.
        + assert (AD : forall t0 t1, sl_add t0 d i = Ok t1 -> sl_base t1 = sl_base t0).
          { intros t0 t1 E. unfold sl_add in E. destruct (_ || _)%bool; [apply ok_inj in E; rewrite <- E; reflexivity|].
            destruct (bind_ok _ _ _ E) as ([a v] & _ & E4). destruct (bind_ok _ _ _ E4) as (x & _ & E5). apply ok_inj in E5. rewrite <- E5. reflexivity. }
          destruct (bind_ok _ _ _ E3) as (t1 & E & H1). apply AD in E. cbn [sl_base] in E. destruct (qltb _ d); apply ok_inj in H1; rewrite <- H1; cbn [sl_base]; rewrite E; exact C2.
      - exists tk2. split; [reflexivity|]. split; [exact S2|]. split; [repeat split|exact C2]. }
    destruct H3 as (tk3 & E3 & S3 & G3 & C3). rewrite E3. cbn [bind].
    destruct (sl_usable_inv _ _ _ (ms_supply s0) S3) as (u & Eu & U1 & U2). rewrite Eu. cbn [bind].
    assert (GG : sl_geom (ms_tank s0) tk3).
    { apply (sl_geom_trans _ _ _ SG). apply (sl_geom_trans _ _ _ G0). apply (sl_geom_trans _ _ _ G1). apply (sl_geom_trans _ _ _ G2). exact G3. }
    assert (TT : exists l, mapM (sl_temp_at tk3) six_heights = Ok l) by (apply mapM_exists; intros x _; destruct (sl_temp_range _ _ _ x S3) as (y & Y & _); exists y; exact Y).
    destruct TT as (l & El). rewrite El. cbn [bind].
    eexists. eexists. exists d, i. split; [reflexivity|]. split.
    { unfold mp_ready. cbn [ms_heaters ms_tank ms_supply ms_storage ms_return ms_flow]. auto 12. }
    split; [reflexivity|]. cbn [so_demand so_inlet so_oat so_delivery]. split; [|auto 10].
    constructor; cbn [so_demand so_inlet so_usable so_temps so_output].
    + exact Ed.
    + exact Ei.
    + destruct GG as (g1 & _ & _ & g4 & _). rewrite <- g1, <- g4. split; [exact U1|exact U2].
    + rewrite (mapM_length _ _ _ El). reflexivity.
    + intros x I. destruct (L_Sizing2.mapM_in _ _ _ El) as [_ M2]. destruct (M2 _ I) as (f & _ & Ef). destruct (sl_temp_range _ _ _ f S3) as (y & Ey & RY). rewrite Ef in Ey. apply ok_inj in Ey. subst y.
      rewrite C3 in RY. exact RY.
    + exact NQ.
  - left. assert (e = ZeroDivisionError) by exact (proj1 (C48_raises _ _ _ _ _ _) e EM). subst e. split; [apply RI; reflexivity|reflexivity].
Qed.

(** ** A drained tank *)
Lemma en_shift_drained t : en_wf t -> en_cold t < en_storage t -> en_energy t == 0 -> en_shift t = Ok (-100).
Proof.
  intros W C E. unfold en_shift. cbv zeta. destruct (Qle_bool (en_storage t - en_cold t) 0) eqn:D; qbool; [lra|].
  pose proof (en_max_nonneg t W ltac:(lra)) as M. destruct (Qle_bool (qmax 0 (qmin (en_energy t) (en_max t))) 0) eqn:Q; [reflexivity|]. qbool.
  exfalso. assert (qmax 0 (qmin (en_energy t) (en_max t)) <= 0) by (apply qmax_lub; [lra|eapply Qle_trans; [apply qmin_l|lra]]). lra.
Qed.

Lemma en_temp_drained t f : en_wf t -> en_cold t < en_storage t -> en_energy t == 0 -> f <= 1 -> exists x, en_temp t f = Ok x /\ x == en_cold t.
Proof.
  intros W C E F. unfold en_temp. cbv zeta. destruct (qltb _ _); [eexists; split; [reflexivity|lra]|].
  rewrite (en_shift_drained t W C E). cbn [bind]. eexists. split; [reflexivity|].
  assert (SL : 0 < en_slope t) by apply W.
  pose proof (qmul_nonneg (en_slope t) (100 - f * 100) ltac:(lra) ltac:(lra)) as P.
  assert (X : en_slope t * (100 - f * 100) == - (en_slope t * (f * 100 + -100))) by ring.
  set (y := en_slope t * (f * 100 + -100) + en_cold t) in *. assert (Y : y <= en_cold t) by (unfold y; lra). clearbody y.
  destruct (qmin_spec (en_storage t) y) as [[U ->]|[U ->]]; destruct (qmax_spec (en_cold t) y) as [[V V']|[V V']]; rewrite ?V'; try lra.
Qed.

Lemma zone_avg_drained t lo hi a : en_wf t -> en_cold t < en_storage t -> en_energy t == 0 -> 0 <= lo -> hi <= 100 ->
  en_zone_avg t lo hi = Ok a -> a == en_cold t.
Proof.
  intros W C E L H A. destruct (Qlt_le_dec lo hi) as [D|D].
  - destruct (en_zone_avg_ok t (-100) lo hi W C (en_shift_drained t W C E) L D H) as (a' & Ea & X). rewrite A in Ea. apply ok_inj in Ea. subst a'.
    destruct W as (V & M & _). pose proof (en_w_pos t M C) as P.
    assert (Z : forall x, x <= 100 -> L_Ramp.ramp_F (en_cold t) (en_slope t) (- (-100)) (en_w t) x == en_cold t * x).
    { intros x Hx. unfold L_Ramp.ramp_F, L_Ramp.pos.
      assert (Z1 : qmax 0 (x - - (-100)) == 0) by (destruct (qmax_spec 0 (x - - (-100))) as [[U ->]|[U ->]]; lra).
      assert (Z2 : qmax 0 (x - (- (-100) + en_w t)) == 0) by (destruct (qmax_spec 0 (x - (- (-100) + en_w t))) as [[U ->]|[U ->]]; lra).
      rewrite Z1, Z2. ring. }
    rewrite (Z hi H), (Z lo ltac:(lra)) in X.
    assert (Y : (a - en_cold t) * (hi - lo) == 0) by (transitivity (a * (hi - lo) - (en_cold t * hi - en_cold t * lo)); [ring|lra]).
    apply Qmult_integral in Y. destruct Y; lra.
  - unfold en_zone_avg in A. destruct (Qle_bool hi lo) eqn:B; qbool; [|lra]. apply ok_inj in A. subst a. reflexivity.
Qed.

Lemma sl_top_drained lo h t was now sup t' top : sl_inv lo h t -> sl_active t = false -> en_energy (sl_base t) == 0 -> en_cold (sl_base t) <= sup ->
  mp_lifecycle was now sup t = Ok t' -> sl_temp_at t' 1 = Ok top -> top == en_cold (sl_base t).
Proof.
  intros I A E HS HL HT. pose proof (sl_inv_wf _ _ _ I) as W. pose proof I as [[A1 [A2 [A3 A4]]] [B [C [[D1 [D2 D3]] [EN F]]]]].
  assert (CS : en_cold (sl_base t) < en_storage (sl_base t)) by lra.
  destruct (en_temp_drained _ 1 W CS E ltac:(lra)) as (x & Ex & EQ).
  assert (IN : sl_temp_at t 1 = Ok x) by (unfold sl_temp_at; cbv zeta; rewrite A; exact Ex).
  unfold mp_lifecycle in HL. destruct now.
  - destruct (sl_activate_inv lo h t sup I) as (t2 & E2 & J & G & EB & AC). rewrite HL in E2. apply ok_inj in E2. subst t2.
    unfold sl_activate in HL. rewrite A in HL. rewrite (en_shift_drained _ W CS E) in HL. cbn [bind] in HL. cbv zeta in HL.
    rewrite qdiv_ok in HL by lra. cbn [bind] in HL.
    set (xs := qmax (en_cold_pct (sl_base t)) _) in HL.
    assert (X : xs == 100).
    { unfold xs. assert (Q : 0 <= (sup - en_cold (sl_base t)) / en_slope (sl_base t)) by (apply qdiv_nonneg; lra).
      set (q := (sup - en_cold (sl_base t)) / en_slope (sl_base t)) in *. clearbody q.
      destruct (qmin_spec 100 (q - -100)) as [[U ->]|[U ->]]; [|lra].
      destruct (qmax_spec (en_cold_pct (sl_base t)) 100) as [[V ->]|[V ->]]; [reflexivity|]. destruct W as (_ & _ & W3 & W4). lra. }
    clearbody xs.
    destruct (bind_ok _ _ _ HL) as (tp & Etp & H1). destruct (bind_ok _ _ _ H1) as (tt & Ett & H2). apply ok_inj in H2.
    assert (TP : tp == en_cold (sl_base t)).
    { destruct (qltb 0 _) eqn:Q in Etp; [|apply ok_inj in Etp; subst tp; reflexivity].
      exact (zone_avg_drained (sl_base t) (en_cold_pct (sl_base t)) xs tp W CS E ltac:(destruct W as (_ & _ & W3 & _); exact W3) ltac:(lra) Etp). }
    rewrite <- H2 in HT. clear - HT TP W CS E A1. unfold sl_temp_at in HT. cbn [sl_base sl_active negb sl_top sl_temp sl_vol sl_orig] in HT. cbv zeta in HT.
    destruct (qltb (1 * 100) _); [apply ok_inj in HT; subst; reflexivity|].
    destruct (Qle_bool (1 * 100) tt).
    + apply ok_inj in HT. subst top. destruct (qmin_spec (en_storage (sl_base t)) tp) as [[U ->]|[U ->]]; [lra|].
      destruct (qmax_spec (en_cold (sl_base t)) tp) as [[V ->]|[V ->]]; lra.
    + destruct (bind_ok _ _ _ HT) as (g & Eg & H3). apply qdiv_inv in Eg. destruct Eg as (_ & Eg).
      assert (G : g == 0) by (rewrite Eg; unfold Qminus; rewrite Qplus_opp_r; field; lra).
      destruct (en_temp_drained (sl_base t) (1 - g) W CS E ltac:(lra)) as (y & Ey & EY). rewrite H3 in Ey. apply ok_inj in Ey. subst y. exact EY.
  - destruct was.
    + rewrite (sl_deactivate_inactive _ A) in HL. apply ok_inj in HL. subst t'. rewrite IN in HT. apply ok_inj in HT. subst top. exact EQ.
    + apply ok_inj in HL. subst t'. rewrite IN in HT. apply ok_inj in HT. subst top. exact EQ.
Qed.

(** ** Errors of a simulation *)
Lemma sim_loop_err_only {St} (stp : St -> Z -> Z -> res (St * step_out)) supply (P : St -> Prop) e0 iv :
  (forall s i, P s -> stp s i iv = Err e0 \/ exists s' o, stp s i iv = Ok (s', o) /\ P s' /\ length (so_temps o) = 6%nat) ->
  forall n i s r e, P s -> length (sr_temps r) = 6%nat -> sr_iv r = iv -> sim_loop stp supply n i s r = Err e -> e = e0.
Proof.
  intros T. induction n as [|n IH]; intros i s r e HP L EI H; [discriminate|].
  cbn [sim_loop] in H. rewrite EI in H. destruct (T s i HP) as [X|(s1 & o & E & HP1 & L6)]; [rewrite X in H; injection H as <-; reflexivity|].
  rewrite E in H. cbn [bind] in H.
  unfold record_timestep at 1 in H. destruct (record_nodes_total (so_temps o) (sr_temps r) ltac:(lia)) as (c & Ec).
  rewrite Ec in H. cbn [bind] in H.
  destruct (record_nodes_ok _ _ _ Ec) as (_ & LC & _).
  assert (DE : exists d, delivery_temp o = Ok d).
  { unfold delivery_temp.
    destruct (so_temps o) as [|a0 [|a1 [|a2 [|a3 [|a4 [|a5 [|]]]]]]]; try discriminate L6. cbn. destruct (so_delivery o); eexists; reflexivity. }
  destruct DE as (d & Ed). rewrite Ed in H. cbn [bind] in H.
  match type of H with context [check_outlet_deficit ?a d supply] => set (r2 := a) in H end.
  assert (L2 : length (sr_temps r2) = 6%nat /\ sr_iv r2 = iv).
  { unfold r2. destruct (Qle_bool (so_usable o) 0); cbn; split; lia. }
  destruct L2 as [L2 I2].
  unfold check_outlet_deficit in H. destruct (qltb d (supply - sr_thr r2)).
  - destruct (sr_max r2 <? sr_consec r2 + sr_iv r2)%Z; [discriminate|]. revert H. apply IH; assumption.
  - revert H. apply IH; assumption.
Qed.

Lemma simulate_first_err {St} (stp : St -> Z -> Z -> res (St * step_out)) s supply dur thr maxm tm e :
  known_duration dur -> (forall iv, (0 < iv)%Z -> stp s 0%Z iv = Err e) -> simulate stp s supply dur thr maxm tm = Err e.
Proof.
  intros D H. unfold simulate. assert (ST : exists a c, sim_times dur = Ok (a, c) /\ (0 < c)%Z /\ (0 < a / c)%Z) by (destruct D as [-> | ->]; eexists; eexists; repeat split; reflexivity).
  destruct ST as (a & c & Est & Pc & Pn). rewrite Est. cbn [bind].
  destruct (Z.to_nat (a / c)) as [|n] eqn:N; [lia|]. cbn [sim_loop]. change (sr_iv (sr_new a c thr maxm tm)) with c. rewrite (H c Pc). reflexivity.
Qed.

Lemma sl_init_empty t st c pu : pu <= 0 -> exists t', sl_initialize t st c pu = Ok t' /\ sl_active t' = false /\ en_energy (sl_base t') == 0.
Proof.
  intro H. unfold sl_initialize. cbv zeta. assert (E : Qle_bool pu 0 = true) by (apply Qle_bool_iff; exact H).
  rewrite E, !orb_true_r. eexists. split; [reflexivity|]. split; reflexivity.
Qed.
