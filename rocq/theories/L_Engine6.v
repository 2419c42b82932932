(** Simulations started from an engine: what they keep, and what every step satisfies. *)
From Verif Require Import Prelude M_StratifiedTank S_StratifiedTank L_StratifiedTank L_StratifiedTank2 L_StratifiedTank3
  M_MixedTank L_MixedTank M_EnergyTank M_Building L_Building M_Heater S_Heater L_Heater M_Sizing L_Sizing3 M_SimRun S_SimRun L_SimRun L_SimMisc
  M_Step S_Step L_Step L_Step2 L_Step3 L_Step4 L_Step5 L_Step6 M_Swing M_MPRTP M_Engine S_Engine S_EngineRun L_Engine L_Engine2.
Open Scope Q_scope.

(** ** Tank operations keep the tank's dimensions *)

Ltac opn H := repeat
  match type of H with
  | bind _ _ = Ok _ => let H' := fresh "H" in let x := fresh "x" in let E := fresh "E" in
      destruct (bind_ok _ _ _ H) as (x & E & H'); clear H; rename H' into H; cbv beta zeta in H
  | (let '(_, _) := ?x in _) = Ok _ => destruct x
  | (if ?c then _ else _) = Ok _ => destruct c
  | Ok _ = Ok _ => apply ok_inj in H
  end.

Definition st_dims (t : strat) := (st_vol t, st_slope t).
Lemma heat_dims t k d o t' : st_heat t k d o = Ok t' -> st_dims t' = st_dims t.
Proof. unfold st_heat. intro H. cbv zeta in H. opn H; subst; reflexivity. Qed.
Lemma draw_dims t v c s o t' : st_draw t v c s o = Ok t' -> st_dims t' = st_dims t.
Proof. unfold st_draw. intro H. cbv zeta in H. opn H; subst; reflexivity. Qed.
Lemma recirc_dims t f r d s t' : st_recirc t f r d s = Ok t' -> st_dims t' = st_dims t.
Proof. unfold st_recirc. intro H. cbv zeta in H. opn H; subst; reflexivity. Qed.
Lemma physical_dims t g c s t' : st_draw_physical t g c s = Ok t' -> st_dims t' = st_dims t.
Proof. unfold st_draw_physical. intro H. cbv zeta in H. opn H; subst; reflexivity. Qed.
Lemma mx_recirc_vol t f r d t' : mx_recirc t f r d = Ok t' -> mx_vol t' = mx_vol t.
Proof. unfold mx_recirc. intro H. cbv zeta in H. opn H; subst; reflexivity. Qed.
Lemma mx_heat_vol t k d o t' : mx_heat t k d o = Ok t' -> mx_vol t' = mx_vol t.
Proof. unfold mx_heat. intro H. cbv zeta in H. opn H; subst; reflexivity. Qed.
Lemma mx_inflow_vol t g c t' : mx_inflow t g c = Ok t' -> mx_vol t' = mx_vol t.
Proof. unfold mx_inflow. intro H. cbv zeta in H. opn H; subst; reflexivity. Qed.
Lemma mx_loss_vol t k d t' : mx_fixed_loss t k d = Ok t' -> mx_vol t' = mx_vol t.
Proof. unfold mx_fixed_loss. intro H. cbv zeta in H. opn H; subst; reflexivity. Qed.

Definition sl_dims (t : slug) := (en_vol (sl_base t), en_slope (sl_base t), en_cold_pct (sl_base t), sl_supply t, sl_pu t, sl_max t).
Lemma sl_init_dims t s c p t' : sl_initialize t s c p = Ok t' -> sl_dims t' = sl_dims t.
Proof. unfold sl_initialize. intro H. cbv zeta in H. opn H; subst; reflexivity. Qed.
Lemma sl_activate_dims t s t' : sl_activate t s = Ok t' -> sl_dims t' = sl_dims t.
Proof. unfold sl_activate. intro H. cbv zeta in H. opn H; subst; reflexivity. Qed.
Lemma sl_deactivate_dims t t' : sl_deactivate t = Ok t' -> sl_dims t' = sl_dims t.
Proof. unfold sl_deactivate. intro H. cbv zeta in H. opn H; subst; reflexivity. Qed.
Lemma sl_heat_dims t k d t' : sl_heat t k d = Ok t' -> sl_dims t' = sl_dims t.
Proof. unfold sl_heat. intro H. cbv zeta in H. opn H; subst; reflexivity. Qed.
Lemma sl_add_dims t g c t' : sl_add t g c = Ok t' -> sl_dims t' = sl_dims t.
Proof. unfold sl_add. intro H. cbv zeta in H. opn H; subst; reflexivity. Qed.
Lemma en_physical_dims t g c u t' : en_draw_physical t g c u = Ok t' -> (en_vol t', en_slope t', en_cold_pct t') = (en_vol t, en_slope t, en_cold_pct t).
Proof. unfold en_draw_physical. intro H. cbv zeta in H. destruct u; opn H; subst; reflexivity. Qed.
Lemma sl_physical_dims t g c u t' : sl_draw_physical t g c u = Ok t' -> sl_dims t' = sl_dims t.
Proof.
  unfold sl_draw_physical. intro H. destruct (negb (sl_active t)).
  - destruct (bind_ok _ _ _ H) as (b & E & H1). apply ok_inj in H1. subst t'. apply en_physical_dims in E. unfold sl_dims. cbn. injection E as E1 E2 E3. congruence.
  - cbv zeta in H. destruct (bind_ok _ _ _ H) as (t2 & E & H1). apply sl_add_dims in E. transitivity (sl_dims t2).
    + destruct (qltb _ _) in H1; apply ok_inj in H1; subst t'; reflexivity.
    + rewrite E. reflexivity.
Qed.

(** ** Steps keep the plant *)

Definition base_like (s s' : bsys) : Prop :=
  Forall2 same_heater (bs_heaters s) (bs_heaters s') /\ bs_supply s' = bs_supply s /\ bs_storage s' = bs_storage s /\
  option_map st_dims (bs_tank s') = option_map st_dims (bs_tank s).
Lemma base_like_refl s : base_like s s.
Proof. split; [apply same_all_refl|auto]. Qed.
Lemma base_like_trans a b c : base_like a b -> base_like b c -> base_like a c.
Proof. intros (A & B & C & D) (A' & B' & C' & D'). split; [eapply same_all_trans; eassumption|]. split; [congruence|]. split; congruence. Qed.
Lemma updates_same hs view hour hs' : (0 <= hour)%Z -> mapM (fun h => wh_update h view hour) hs = Ok hs' -> Forall2 same_heater hs hs'.
Proof. intros P H. exact (aquastats_same _ _ _ _ (aquastats_of _ _ _ _ P H)). Qed.

Lemma base_step_like b s t iv s' o : base_step b s t iv = Ok (s', o) -> base_like s s'.
Proof.
  intro H. destruct (bs_tank s) as [tk|] eqn:ET.
  - destruct (base_step_inv b s t iv s' o tk ET H) as (out & tk1 & tk2 & hs' & Ed & Eo & Ei & Eout & Ehs & Eq & E1 & E2 & Eu & Ets & Em & _ & _ & -> & _).
    split; [exact (updates_same _ _ _ _ (proj1 (hour_of_range t iv)) Ehs)|]. cbn. split; [reflexivity|]. split; [reflexivity|]. rewrite ET. cbn. f_equal.
    rewrite (draw_dims _ _ _ _ _ _ E2). exact (heat_dims _ _ _ _ _ E1).
  - unfold base_step in H. rewrite ET in H. cbv zeta in H. destruct (bind_ok _ _ _ H) as (x1 & _ & H1). destruct (bind_ok _ _ _ H1) as (x2 & _ & H2).
    destruct (bind_ok _ _ _ H2) as (x3 & _ & H3). destruct (bind_ok _ _ _ H3) as (x4 & _ & H4). destruct (bind_ok _ _ _ H4) as (x5 & _ & H5).
    apply ok_inj in H5. apply pair_equal_spec in H5. destruct H5 as [<- _]. apply base_like_refl.
Qed.
Lemma sprtp_step_like ret flow b s t iv s' o : sprtp_step ret flow b s t iv = Ok (s', o) -> base_like s s'.
Proof.
  unfold sprtp_step. intro H. destruct (bind_ok _ _ _ H) as ([s1 o1] & E & H1). apply base_step_like in E. apply (base_like_trans _ s1); [exact E|].
  destruct (bs_tank s1) as [tk|] eqn:ET.
  - destruct (bind_ok _ _ _ H1) as (tk1 & E1 & H2). destruct (bind_ok _ _ _ H2) as (u & _ & H3). destruct (bind_ok _ _ _ H3) as (ts & _ & H4).
    apply ok_inj in H4. apply pair_equal_spec in H4. destruct H4 as [<- _]. split; [apply same_all_refl|]. cbn. split; [reflexivity|]. split; [reflexivity|].
    rewrite ET. cbn. f_equal. exact (recirc_dims _ _ _ _ _ _ E1).
  - apply ok_inj in H1. apply pair_equal_spec in H1. destruct H1 as [<- _]. apply base_like_refl.
Qed.

Definition par_like (p p' : psys) : Prop :=
  base_like (ps_base p) (ps_base p') /\
  (ps_return p', ps_flow p', ps_on p', ps_off p', ps_num p', mx_vol (ps_tank p')) = (ps_return p, ps_flow p, ps_on p, ps_off p, ps_num p, mx_vol (ps_tank p)) /\
  same_heater (ps_heater p) (ps_heater p').
Lemma par_like_refl s : par_like s s.
Proof. split; [apply base_like_refl|]. split; [reflexivity|apply same_heater_refl]. Qed.
Lemma par_like_trans a b c : par_like a b -> par_like b c -> par_like a c.
Proof. intros (A & B & C) (A' & B' & C'). split; [eapply base_like_trans; eassumption|]. split; [congruence|eapply same_heater_trans; eassumption]. Qed.
Lemma parallel_step_like b p t iv p' o : parallel_step b p t iv = Ok (p', o) -> par_like p p'.
Proof.
  intro H. destruct (parallel_step_inv _ _ _ _ _ _ H) as (s1 & o1 & tk & h & temp & out & kw & E & ET & -> & _).
  split; [exact (base_step_like _ _ _ _ _ _ E)|]. cbn. unfold tm_step in ET. cbv zeta in ET.
  destruct (bind_ok _ _ _ ET) as (tk1 & E1 & H1). destruct (bind_ok _ _ _ H1) as (h1 & E2 & H2). destruct (bind_ok _ _ _ H2) as (x1 & _ & H3).
  destruct (bind_ok _ _ _ H3) as (x2 & _ & H4). destruct (bind_ok _ _ _ H4) as (tk2 & E3 & H5). apply ok_inj in H5. apply pair_equal_spec in H5. destruct H5 as [H5 _].
  apply pair_equal_spec in H5. destruct H5 as [<- <-]. split.
  - rewrite (mx_heat_vol _ _ _ _ _ E3), (mx_recirc_vol _ _ _ _ _ E1). reflexivity.
  - exact (wh_update_same _ _ _ _ E2).
Qed.

Definition swing_like (w w' : wsys) : Prop :=
  Forall2 same_heater (ws_heaters w) (ws_heaters w') /\
  (ws_supply w', ws_storage w', ws_return w', ws_flow w', st_dims (ws_tank w'), mx_vol (ws_swing w')) =
  (ws_supply w, ws_storage w, ws_return w, ws_flow w, st_dims (ws_tank w), mx_vol (ws_swing w)) /\
  same_heater (ws_element w) (ws_element w').
Lemma swing_like_refl s : swing_like s s.
Proof. split; [apply same_all_refl|]. split; [reflexivity|apply same_heater_refl]. Qed.
Lemma swing_like_trans a b c : swing_like a b -> swing_like b c -> swing_like a c.
Proof. intros (A & B & C) (A' & B' & C'). split; [eapply same_all_trans; eassumption|]. split; [congruence|eapply same_heater_trans; eassumption]. Qed.
Lemma swing_step_like b w t iv w' o : swing_sim_step b w t iv = Ok (w', o) -> swing_like w w'.
Proof.
  intro H. destruct (swing_step_inv _ _ _ _ _ _ H) as (outlet & hs & tk1 & hw & feed & sw1 & sw2 & el & sw3 & tk2 & tmo & Ed & Eo & Ei & Eout & Ehs & Eq & E1 & Ehw & Ef & Es1 & Es2 & Eel & Etm & (hx & Es3) & E2 & Eu & Ets & -> & _).
  split; [exact (updates_same _ _ _ _ (proj1 (hour_of_range t iv)) Ehs)|]. cbn. split; [|exact (wh_update_same _ _ _ _ Eel)].
  rewrite (physical_dims _ _ _ _ _ E2), (heat_dims _ _ _ _ _ E1), (mx_heat_vol _ _ _ _ _ Es3), (mx_loss_vol _ _ _ _ Es2), (mx_inflow_vol _ _ _ _ Es1). reflexivity.
Qed.

Definition mp_like (s s' : msys) : Prop :=
  Forall2 same_heater (ms_heaters s) (ms_heaters s') /\
  (sl_dims (ms_tank s'), ms_supply s', ms_storage s', ms_return s', ms_flow s') = (sl_dims (ms_tank s), ms_supply s, ms_storage s, ms_return s, ms_flow s).
Lemma mp_like_refl s : mp_like s s.
Proof. split; [apply same_all_refl|reflexivity]. Qed.
Lemma mp_like_trans a b c : mp_like a b -> mp_like b c -> mp_like a c.
Proof. intros (A & B) (A' & B'). split; [eapply same_all_trans; eassumption|congruence]. Qed.
Lemma mp_step_like b s t iv s' o : mp_step b s t iv = Ok (s', o) -> mp_like s s'.
Proof.
  unfold mp_step. intro H. destruct (bind_ok _ _ _ H) as (d & _ & H1). clear H. destruct (bind_ok _ _ _ H1) as (oat & _ & H2). clear H1.
  destruct (bind_ok _ _ _ H2) as (inlet & _ & H3). clear H2. cbv zeta in H3. destruct (bind_ok _ _ _ H3) as (mode & _ & H4). clear H3.
  destruct (bind_ok _ _ _ H4) as (hs & Ehs & H5). clear H4. destruct (bind_ok _ _ _ H5) as (tk1 & E1 & H6). clear H5.
  destruct (bind_ok _ _ _ H6) as (top & _ & H7). clear H6. destruct (bind_ok _ _ _ H7) as (out & _ & H8). clear H7.
  destruct (bind_ok _ _ _ H8) as (kws & _ & H9). clear H8. destruct (bind_ok _ _ _ H9) as ([draw mv] & _ & H10). clear H9.
  destruct (bind_ok _ _ _ H10) as (tk2 & E2 & H11). clear H10. destruct (bind_ok _ _ _ H11) as (tk3 & E3 & H12). clear H11.
  destruct (bind_ok _ _ _ H12) as (u & _ & H13). clear H12. destruct (bind_ok _ _ _ H13) as (ts & _ & H14). clear H13.
  apply ok_inj in H14. apply pair_equal_spec in H14. destruct H14 as [<- _].
  split; [exact (updates_same _ _ _ _ (proj1 (hour_of_range t iv)) Ehs)|]. cbn.
  assert (D1 : sl_dims tk1 = sl_dims (ms_tank s)).
  { unfold mp_lifecycle in E1. destruct (existsb wh_active hs); [exact (sl_activate_dims _ _ _ E1)|]. destruct (existsb wh_active (ms_heaters s)); [exact (sl_deactivate_dims _ _ E1)|].
    apply ok_inj in E1. subst tk1. reflexivity. }
  assert (D2 : sl_dims tk2 = sl_dims tk1).
  { destruct (existsb wh_active hs && _)%bool; [exact (sl_heat_dims _ _ _ _ E2)|apply ok_inj in E2; congruence]. }
  assert (D3 : sl_dims tk3 = sl_dims tk2).
  { destruct (qltb 0 draw); [exact (sl_physical_dims _ _ _ _ _ E3)|apply ok_inj in E3; congruence]. }
  rewrite D3, D2, D1. reflexivity.
Qed.

(** ** Runs *)

Lemma executed_like {St} (like : St -> St -> Prop) (stp : St -> Z -> Z -> res (St * step_out)) iv :
  (forall s, like s s) -> (forall a b c, like a b -> like b c -> like a c) ->
  (forall s t s' o, stp s t iv = Ok (s', o) -> like s s') ->
  forall outs s i s', executed stp iv s i outs s' -> like s s'.
Proof.
  intros R T S. induction outs as [|o outs IH]; intros s i s' H; cbn [executed] in H.
  - subst s'. apply R.
  - destruct H as (s1 & E & H). exact (T _ _ _ (S _ _ _ _ E) (IH _ _ _ H)).
Qed.

Lemma lasts_of dur total iv : sim_times dur = Ok (total, iv) -> lasts dur total iv.
Proof.
  unfold sim_times. destruct (String.eqb_spec dur "3day") as [->|N].
  - intro H. apply ok_inj in H. apply pair_equal_spec in H. destruct H as [<- <-]. left. auto.
  - destruct (String.eqb_spec dur "annual") as [->|N']; [|discriminate]. intro H. apply ok_inj in H. apply pair_equal_spec in H. destruct H as [<- <-]. right. auto.
Qed.

Lemma simulate_reported {St} (stp : St -> Z -> Z -> res (St * step_out)) s0 supply dur thr maxm tm s' r :
  simulate stp s0 supply dur thr maxm tm = Ok (s', r) ->
  exists total iv outs, lasts dur total iv /\ (0 < iv)%Z /\ executed stp iv s0 0 outs s' /\ reported supply thr maxm total iv outs r /\ sr_show_tm r = tm.
Proof.
  intro H. destruct (simulate_inv _ _ _ _ _ _ _ _ _ H) as (total & iv & outs & Et & Piv & Eiv & ED & Etm & EX & RC & LN & NB & ST & NS).
  pose proof (lasts_of _ _ _ Et) as LA.
  assert (DV : (total = total / iv * iv)%Z) by (destruct LA as [(_ & -> & ->)|(_ & -> & ->)]; reflexivity).
  assert (PT : (0 < total / iv)%Z) by (destruct LA as [(_ & -> & ->)|(_ & -> & ->)]; reflexivity).
  exists total, iv, outs. split; [exact LA|]. split; [exact Piv|]. split; [exact EX|]. split; [|exact Etm]. constructor.
  - exact ED.
  - exact Eiv.
  - exact RC.
  - rewrite DV. apply Z.mul_le_mono_nonneg_r; lia.
  - exact NB.
  - split; [intro S; exact (proj2 (ST S))|]. intro L. destruct (sr_stopped r) eqn:S; [reflexivity|exfalso].
    destruct (NS eq_refl) as [LE NL]. apply NL; [|exact L]. intros ->. cbn in LE. lia.
  - intro S. rewrite (proj1 (NS S)). lia.
Qed.

(** Every step of a single-pass run is physical. *)
Lemma base_run_physical b s s0 tk iv outs s' : bs_tank s = Some tk -> 0 < st_vol tk -> 0 < st_slope tk ->
  init_base b s = Ok s0 -> executed (base_step b) iv s0 0 outs s' ->
  forall i o, nth_error outs i = Some o -> physical_step b (bs_heaters s) (bs_storage s) (st_vol tk) (Z.of_nat i) iv o.
Proof.
  intros ET V1 V2 E0 EX. pose proof (base_inv_init b s s0 tk ET (conj V1 V2) E0) as BI.
  exact (proj2 (executed_forall (base_step b) iv _ (fun t o => physical_step b (bs_heaters s) (bs_storage s) (st_vol tk) t iv o)
    (fun s1 t s2 o => step_physical b _ _ _ _ _ s1 t iv s2 o) _ _ _ _ BI EX)).
Qed.
Lemma sprtp_run_physical ret flow b s s0 tk iv outs s' : bs_tank s = Some tk -> 0 < st_vol tk -> 0 < st_slope tk ->
  init_base b s = Ok s0 -> executed (sprtp_step ret flow b) iv s0 0 outs s' ->
  forall i o, nth_error outs i = Some o -> physical_step b (bs_heaters s) (bs_storage s) (st_vol tk) (Z.of_nat i) iv o.
Proof.
  intros ET V1 V2 E0 EX. pose proof (base_inv_init b s s0 tk ET (conj V1 V2) E0) as BI.
  exact (proj2 (executed_forall (sprtp_step ret flow b) iv _ (fun t o => physical_step b (bs_heaters s) (bs_storage s) (st_vol tk) t iv o)
    (fun s1 t s2 o => sprtp_physical ret flow b _ _ _ _ _ s1 t iv s2 o) _ _ _ _ BI EX)).
Qed.
Lemma physical_ext b hs storage vol t iv o o' : so_demand o' = so_demand o -> so_oat o' = so_oat o -> so_inlet o' = so_inlet o ->
  so_usable o' = so_usable o -> so_temps o' = so_temps o -> physical_step b hs storage vol t iv o -> physical_step b hs storage vol t iv o'.
Proof. intros A B C D E [P1 P2 P3 P4 P5 P6 P7]. constructor; rewrite ?A, ?B, ?C, ?D, ?E; assumption. Qed.
Lemma parallel_run_physical b s s0 tk iv outs s' : bs_tank (ps_base s) = Some tk -> 0 < st_vol tk -> 0 < st_slope tk ->
  init_parallel b s = Ok s0 -> executed (parallel_step b) iv s0 0 outs s' ->
  forall i o, nth_error outs i = Some o -> physical_step b (bs_heaters (ps_base s)) (bs_storage (ps_base s)) (st_vol tk) (Z.of_nat i) iv o.
Proof.
  intros ET V1 V2 E0 EX. unfold init_parallel in E0. destruct (bind_ok _ _ _ E0) as (di & _ & E1). destruct (bind_ok _ _ _ E1) as (s1 & Eb & E2). apply ok_inj in E2.
  pose proof (base_inv_init b (ps_base s) s1 tk ET (conj V1 V2) Eb) as BI.
  assert (BI0 : base_inv (bs_heaters (ps_base s)) (bs_supply (ps_base s)) (bs_storage (ps_base s)) (st_vol tk) (st_slope tk) (ps_base s0)) by (subst s0; exact BI).
  refine (proj2 (executed_forall (parallel_step b) iv (fun q => base_inv (bs_heaters (ps_base s)) (bs_supply (ps_base s)) (bs_storage (ps_base s)) (st_vol tk) (st_slope tk) (ps_base q))
    (fun t o => physical_step b (bs_heaters (ps_base s)) (bs_storage (ps_base s)) (st_vol tk) t iv o) _ _ _ _ _ BI0 EX)).
  intros q t q' o I H. destruct (parallel_step_inv _ _ _ _ _ _ H) as (s2 & o1 & tk2 & h & temp & out & kw & E & _ & -> & _ & _ & _ & D1 & D2 & _ & _ & D5 & D6 & D7 & _).
  destruct (step_physical b _ _ _ _ _ _ _ _ _ _ I E) as [I2 P]. split; [exact I2|]. eapply physical_ext; [..|exact P]; assumption.
Qed.
Lemma swing_step_physical b w0 w t iv w' o : swing_like w0 w -> st_wf (ws_tank w0) -> swing_sim_step b w t iv = Ok (w', o) ->
  physical_step b (ws_heaters w0) (ws_storage w0) (st_vol (ws_tank w0)) t iv o.
Proof.
  intros (SH & DM & SE) W0 H. injection DM as S1 S2 S3 S4 V SL MV.
  destruct (swing_step_inv _ _ _ _ _ _ H) as (outlet & hs & tk1 & hw & feed & sw1 & sw2 & el & sw3 & tk2 & tmo & Ed & Eo & Ei & Eout & Ehs & Eq & E1 & Ehw & Ef & Es1 & Es2 & Eel & Etm & (hx & Es3) & E2 & Eu & Ets & -> & _).
  assert (W : st_wf (ws_tank w)) by (unfold st_wf in *; rewrite V, SL; exact W0).
  destruct (st_heat_shape (ws_tank w) (so_output o) (qz iv) outlet W) as (x & Ex & A1 & A2 & A3 & A4 & _). rewrite E1 in Ex. apply ok_inj in Ex. subst x.
  assert (W1 : st_wf tk1) by (unfold st_wf in *; rewrite A1, A2; exact W).
  destruct (physical_draw_keeps _ _ _ _ _ W1 E2) as (W2 & B1 & B2 & B3 & B4).
  assert (SP : setpoint (ws_heaters w0) (ws_storage w0) (hour_of t iv) outlet).
  { apply (setpoint_same (ws_heaters w) (ws_heaters w0)); [apply same_all_sym; exact SH|]. rewrite <- S2. apply outlet_for_spec; [apply (hour_of_range t iv)|exact Eout]. }
  apply (physical_of b (ws_heaters w0) (ws_heaters w) (ws_storage w0) (ws_supply w) (st_vol (ws_tank w0)) t iv o tk2 outlet);
    [exact SH|exact Ed|exact Eo|exact Ei|exact W2|congruence|congruence|congruence|exact SP| |exact Ets].
  destruct (qltb (mx_temp (ws_swing w)) (ws_supply w)); [left; apply ok_inj in Eu; symmetry; exact Eu|right; exact Eu].
Qed.
Lemma init_base_like b s s0 : init_base b s = Ok s0 -> base_like s s0 /\ bs_heaters s0 = bs_heaters s.
Proof.
  unfold init_base. intro H. destruct (bind_ok _ _ _ H) as (di & _ & H1). cbv zeta in H1. apply ok_inj in H1. subst s0. split; [|reflexivity].
  split; [apply same_all_refl|]. cbn. split; [reflexivity|]. split; [reflexivity|]. destruct (bs_tank s); reflexivity.
Qed.
Lemma init_parallel_like b s s0 : init_parallel b s = Ok s0 -> par_like s s0.
Proof.
  unfold init_parallel. intro H. destruct (bind_ok _ _ _ H) as (di & _ & H1). destruct (bind_ok _ _ _ H1) as (s1 & E & H2). apply ok_inj in H2. subst s0.
  split; [exact (proj1 (init_base_like _ _ _ E))|]. split; [reflexivity|apply same_heater_refl].
Qed.
Lemma init_swing_like b w w0 : init_swing b w = Ok w0 -> swing_like w w0.
Proof.
  unfold init_swing. intro H. destruct (bind_ok _ _ _ H) as (di & _ & H1). cbv zeta in H1. destruct (bind_ok _ _ _ H1) as (off & E & H2). apply ok_inj in H2. subst w0.
  split; [apply same_all_refl|]. split; [reflexivity|apply same_heater_refl].
Qed.
Lemma init_mp_like b s s0 : init_mp b s = Ok s0 -> mp_like s s0.
Proof.
  unfold init_mp. intro H. destruct (bind_ok _ _ _ H) as (di & _ & H1). destruct (bind_ok _ _ _ H1) as (tk & E & H2). apply ok_inj in H2. subst s0.
  split; [apply same_all_refl|]. cbn. rewrite (sl_init_dims _ _ _ _ _ E). reflexivity.
Qed.
Lemma swing_run_physical b s s0 iv outs s' : 0 < st_vol (ws_tank s) -> 0 < st_slope (ws_tank s) ->
  init_swing b s = Ok s0 -> executed (swing_sim_step b) iv s0 0 outs s' ->
  forall i o, nth_error outs i = Some o -> physical_step b (ws_heaters s) (ws_storage s) (st_vol (ws_tank s)) (Z.of_nat i) iv o.
Proof.
  intros V1 V2 E0 EX.
  refine (proj2 (executed_forall (swing_sim_step b) iv (swing_like s) (fun t o => physical_step b (ws_heaters s) (ws_storage s) (st_vol (ws_tank s)) t iv o) _ _ _ _ _ (init_swing_like _ _ _ E0) EX)).
  intros q t q' o I H. split; [exact (swing_like_trans _ _ _ I (swing_step_like _ _ _ _ _ _ H))|]. exact (swing_step_physical _ _ _ _ _ _ _ I (conj V1 V2) H).
Qed.

(** ** Completion with any rated maintenance heater *)

Lemma tm_total p oat t iv : 0 < mx_vol (ps_tank p) -> scheduled (ps_heater p) -> rated (ps_heater p) ->
  exists tk h temp out kw, tm_step p oat t iv = Ok (tk, h, (temp, out, kw)) /\ mx_vol tk = mx_vol (ps_tank p) /\ same_heater (ps_heater p) h.
Proof.
  intros V SC RA. unfold tm_step. cbv zeta.
  destruct (mx_recirc_cases (ps_tank p) (ps_flow p) (ps_return p) (qz iv) V) as (tk1 & Ex & V1 & _). rewrite Ex. cbn [bind].
  destruct (scheduled_effect _ _ SC (hour_of_range t iv)) as (c & Ic).
  destruct (c30_step_succeeds (ps_heater p) (fun f => Ok (mx_temp_at tk1 f)) (hour_of t iv) c _ _ Ic eq_refl eq_refl) as (h & Eh). rewrite Eh. cbn [bind].
  pose proof (wh_update_same _ _ _ _ Eh) as SH. pose proof (rated_same _ _ SH RA) as RH.
  destruct (RH oat (mx_temp_at tk1 1) (Some ((ps_off p + ps_on p) / 2))) as (cp & kw & EC & EK).
  assert (O : exists q, wh_output h (Some oat) (mx_temp_at tk1 1) (Some ((ps_off p + ps_on p) / 2)) = Ok q).
  { unfold wh_output. destruct (wh_active h); cbn [negb]; [|eexists; reflexivity]. rewrite EC. cbn [bind]. eexists. reflexivity. }
  destruct O as (q & ->). cbn [bind].
  assert (K : exists k, (if wh_active h then wh_power h (Some oat) (mx_temp_at tk1 1) (Some ((ps_off p + ps_on p) / 2)) else Ok None) = Ok k).
  { destruct (wh_active h); [|eexists; reflexivity]. exists kw. exact EK. }
  destruct K as (k & ->). cbn [bind].
  assert (M : exists tk2, mx_heat tk1 (q * qz (ps_num p)) (qz iv) (ps_off p) = Ok tk2 /\ mx_vol tk2 = mx_vol tk1).
  { unfold mx_heat. destruct (Qle_bool (q * qz (ps_num p)) 0); [eexists; split; reflexivity|].
    rewrite qdiv_ok by (rewrite V1; pose proof rho_pos; nra). cbn [bind]. eexists. split; reflexivity. }
  destruct M as (tk2 & -> & V2). cbn [bind]. do 5 eexists. split; [reflexivity|]. split; [congruence|exact SH].
Qed.

Lemma parallel_total b p dur thr maxm : complete b -> base_ready (ps_base p) -> 0 < mx_vol (ps_tank p) -> scheduled (ps_heater p) -> rated (ps_heater p) ->
  known_duration dur -> exists s' r, simulate_parallel b p dur thr maxm = Ok (s', r).
Proof.
  intros C R V SC RA D. unfold simulate_parallel, init_parallel. destruct (complete_answers b C 0 1) as (_ & _ & _ & di & E). rewrite E. cbn [bind].
  destruct (init_base_total b (ps_base p) C R) as (s0 & E0 & R0). rewrite E0. cbn [bind].
  apply (simulate_total (parallel_step b) (fun q => base_ready (ps_base q) /\ 0 < mx_vol (ps_tank q) /\ scheduled (ps_heater q) /\ rated (ps_heater q))); [|split; [exact R0|auto]|exact D].
  intros q i iv (Rq & Vq & Sq & Aq). destruct (base_step_total b (ps_base q) i iv C Rq) as (s1 & o & E1 & R1 & L & _).
  destruct (tm_total q (so_oat o) i iv Vq Sq Aq) as (tk & h & temp & out & kw & E2 & V2 & SH).
  unfold parallel_step. rewrite E1. cbn [bind]. rewrite E2. cbn [bind]. eexists. eexists. split; [reflexivity|]. split; [|exact L].
  split; [exact R1|]. split; [cbn; rewrite V2; exact Vq|]. split; [exact (scheduled_same _ _ SH Sq)|exact (rated_same _ _ SH Aq)].
Qed.
