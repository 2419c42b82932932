(** Runs of single-pass return-to-primary, parallel-loop, swing and instantaneous systems. *)
From Verif Require Import Prelude M_StratifiedTank S_StratifiedTank L_StratifiedTank L_StratifiedTank2 L_StratifiedTank3
  M_MixedTank L_MixedTank M_Building L_Building M_Heater S_Heater L_Heater M_Sizing M_SimRun S_SimRun L_SimRun L_SimMisc L_Sizing3 M_Step S_Step L_Step L_Step2.
Open Scope Q_scope.

Lemma qz_nonneg z : (0 <= z)%Z -> 0 <= qz z.
Proof. intro H. unfold qz. change 0 with (inject_Z 0). rewrite <- Zle_Qle. exact H. Qed.

Lemma setpoint_unique hs storage hour x y : setpoint hs storage hour x -> setpoint hs storage hour y -> x == y.
Proof.
  intros [[N1 N2]|[(h1 & c1 & I1 & J1 & K1) M1]] [[N3 N4]|[(h2 & c2 & I2 & J2 & K2) M2]].
  - rewrite N2, N4. reflexivity.
  - exfalso. exact (N1 h2 c2 I2 J2).
  - exfalso. exact (N3 h1 c1 I1 J1).
  - pose proof (M1 h2 c2 I2 J2). pose proof (M2 h1 c1 I1 J1). rewrite K1 in *. rewrite K2 in *. lra.
Qed.

Lemma load_kind b hs hs' t iv d : Forall2 same_heater hs hs' -> bd_load b t iv (existsb wh_load_shifting hs') = Ok d ->
  forall avg : bool, (avg = true <-> shifting hs) -> bd_load b t iv avg = Ok d.
Proof.
  intros SH Ed avg Ha. rewrite <- Ed. f_equal. rewrite (shifting_same _ _ SH).
  destruct avg, (existsb wh_load_shifting hs) eqn:E; try reflexivity; exfalso.
  - apply not_true_iff_false in E. apply E. apply shifting_spec. apply Ha. reflexivity.
  - apply shifting_spec in E. apply Ha in E. discriminate.
Qed.

(** A reported step is physical if its usable volume and temperatures are read from a tank at
    the step's inlet and delivery temperatures. *)
Lemma physical_of b hs hs' storage supply vol t iv o tk sp :
  Forall2 same_heater hs hs' -> bd_load b t iv (existsb wh_load_shifting hs') = Ok (so_demand o) ->
  bd_oat b t iv = Ok (so_oat o) -> bd_inlet b t iv = Ok (so_inlet o) ->
  st_wf tk -> st_vol tk = vol -> st_inlet tk = so_inlet o -> st_outlet tk = sp ->
  setpoint hs storage (hour_of t iv) sp ->
  (so_usable o = 0 \/ st_usable tk supply = Ok (so_usable o)) -> six_temps tk = Ok (so_temps o) ->
  physical_step b hs storage vol t iv o.
Proof.
  intros SH Ed Eo Ei W EV A4 A5 SP Eu Ets. destruct (six_sorted tk _ W Ets) as (L6 & SO & RG & _). constructor; try assumption.
  - exact (load_kind b hs hs' t iv _ SH Ed).
  - destruct Eu as [Z|Eu]; [rewrite Z, <- EV; destruct W; lra|]. rewrite <- EV. apply (usable_range tk supply); assumption.
  - intros h sp' x Hh Hsp Hle Hx. apply in_hour_eq in Hh. subst h. pose proof (setpoint_unique _ _ _ _ _ Hsp SP) as Q.
    destruct (RG x Hx) as (f & ->). pose proof (tval_range tk f). rewrite A4, A5 in H. lra.
Qed.

(** ** Single-pass return to primary *)
Lemma sprtp_step_inv ret flow b s t iv s' o : sprtp_step ret flow b s t iv = Ok (s', o) ->
  exists s1 o1, base_step b s t iv = Ok (s1, o1) /\
   forall tk, bs_tank s1 = Some tk -> exists tk1, st_recirc tk flow ret (qz iv) (Some (bs_supply s1)) = Ok tk1 /\
     st_usable tk1 (bs_supply s1) = Ok (so_usable o) /\ six_temps tk1 = Ok (so_temps o) /\
     s' = mkBsys (bs_heaters s1) (Some tk1) (bs_supply s1) (bs_storage s1) /\
     so_demand o = so_demand o1 /\ so_oat o = so_oat o1 /\ so_inlet o = so_inlet o1 /\ so_output o = so_output o1 /\
     so_power o = so_power o1 /\ so_mode o = so_mode o1.
Proof.
  intro H. unfold sprtp_step in H. destruct (bind_ok _ _ _ H) as ([s1 o1] & E & H1). exists s1, o1. split; [exact E|].
  intros tk ET. rewrite ET in H1. destruct (bind_ok _ _ _ H1) as (tk1 & E1 & H2). destruct (bind_ok _ _ _ H2) as (u & Eu & H3).
  destruct (bind_ok _ _ _ H3) as (ts & Ets & H4). apply ok_inj in H4. apply pair_equal_spec in H4. destruct H4 as [<- <-].
  exists tk1. cbn. repeat (split; [assumption || reflexivity|]). reflexivity.
Qed.

Lemma base_step_tank b hs supply storage vol slope s t iv s' o :
  base_inv hs supply storage vol slope s -> base_step b s t iv = Ok (s', o) ->
  base_inv hs supply storage vol slope s' /\
  exists tk sp, bs_tank s' = Some tk /\ st_wf tk /\ st_vol tk = vol /\ st_slope tk = slope /\ st_inlet tk = so_inlet o /\ st_outlet tk = sp /\
    setpoint hs storage (hour_of t iv) sp /\
    bd_load b t iv (existsb wh_load_shifting hs) = Ok (so_demand o) /\ bd_oat b t iv = Ok (so_oat o) /\ bd_inlet b t iv = Ok (so_inlet o).
Proof.
  intros BI H. pose proof (step_physical _ _ _ _ _ _ _ _ _ _ _ BI H) as [BI' _]. split; [exact BI'|].
  destruct BI as (SH & ES & EG & tk & ET & W & EV & EL).
  destruct (base_step_inv b s t iv s' o tk ET H) as (out & tk1 & tk2 & hs' & Ed & Eo & Ei & Eout & Ehs & Eq & E1 & E2 & Eu & Ets & Em & _ & _ & -> & _).
  destruct (heat_draw tk _ _ _ _ _ _ tk1 tk2 W E1 E2) as (W1 & W2 & A1 & A2 & A3 & A4 & A5).
  exists tk2, out. split; [reflexivity|]. split; [exact W2|]. split; [congruence|]. split; [congruence|]. split; [exact A4|]. split; [exact A5|].
  rewrite <- (shifting_same _ _ SH). split; [|auto].
  apply (outlet_for_spec) in Eout; [|apply hour_of_range]. rewrite EG in Eout. apply same_all_sym in SH. exact (setpoint_same _ _ _ _ _ SH Eout).
Qed.

Lemma sprtp_physical ret flow b hs supply storage vol slope s t iv s' o :
  base_inv hs supply storage vol slope s -> sprtp_step ret flow b s t iv = Ok (s', o) ->
  base_inv hs supply storage vol slope s' /\ physical_step b hs storage vol t iv o.
Proof.
  intros BI H. destruct (sprtp_step_inv _ _ _ _ _ _ _ _ H) as (s1 & o1 & E & K).
  destruct (base_step_tank _ _ _ _ _ _ _ _ _ _ _ BI E) as (BI1 & tk & sp & ET & W & EV & EL & A4 & A5 & SP & Ed & Eo & Ei).
  destruct (K tk ET) as (tk1 & Er & Eu & Ets & -> & D1 & D2 & D3 & _).
  destruct (st_recirc_shape tk flow ret (qz iv) (Some (bs_supply s1)) W) as (x & Ex & B1 & B2 & B3 & B4 & _). rewrite Ex in Er. apply ok_inj in Er. subst x.
  assert (W1 : st_wf tk1) by (unfold st_wf in *; rewrite B1, B2; exact W).
  destruct BI1 as (SH & ES & EG & _). split.
  - split; [exact SH|]. split; [exact ES|]. split; [exact EG|]. exists tk1. split; [reflexivity|]. split; [exact W1|]. split; congruence.
  - apply (physical_of b hs hs storage (bs_supply s1) vol t iv o tk1 sp); [apply same_all_refl|congruence|congruence|congruence|exact W1|congruence|congruence|congruence|exact SP|right; exact Eu|exact Ets].
Qed.

Lemma sprtp_step_total ret flow b s t iv : complete b -> base_ready s ->
  exists s' o, sprtp_step ret flow b s t iv = Ok (s', o) /\ base_ready s' /\ length (so_temps o) = 6%nat.
Proof.
  intros C R. destruct (base_step_total b s t iv C R) as (s1 & o1 & E & (R1 & R2 & tk & ET & W) & L & _).
  unfold sprtp_step. rewrite E. cbn [bind]. rewrite ET.
  destruct (st_recirc_shape tk flow ret (qz iv) (Some (bs_supply s1)) W) as (tk1 & Ex & B1 & B2 & _). rewrite Ex. cbn [bind].
  assert (W1 : st_wf tk1) by (unfold st_wf in *; rewrite B1, B2; exact W).
  destruct (st_usable_total tk1 (bs_supply s1) W1) as (u & Eu). rewrite Eu. cbn [bind]. rewrite six_temps_ok by exact W1. cbn [bind].
  eexists. eexists. split; [reflexivity|]. split; [|reflexivity]. split; [exact R1|]. split; [exact R2|]. exists tk1. auto.
Qed.

(** ** Parallel loop *)

(** A maintenance heater as from_size builds it. *)
Definition tm_like (p : psys) (cap1 : Q) : Prop :=
  wh_pm (ps_heater p) = Some (PmNominal cap1) /\
  forall hour, (0 <= hour < 24)%Z -> exists c, in_effect (ps_heater p) hour c /\ ct_on_trigger c = ps_on p /\ ct_off_trigger c = ps_off p.

Definition tm_frac (p : psys) (iv : Z) : Q := ps_flow p * qz iv / mx_vol (ps_tank p).
Definition tm_rise (p : psys) (cap1 : Q) (iv : Z) : Q :=
  cap1 * qz (ps_num p) * qz iv / 60 * 1000 / (mx_vol (ps_tank p) * rho_cp).

Lemma in_effect_unique h hour c c' : in_effect h hour c -> in_effect h hour c' -> c = c'.
Proof.
  intros (_ & s & d & k & A & B & C & D) (_ & s' & d' & k' & A' & B' & C' & D'). congruence.
Qed.

Lemma nominal_capacity x oat out inl : pm_capacity (PmNominal x) oat out inl = Ok (Some x).
Proof. reflexivity. Qed.

Lemma tm_step_inv p cap1 oat t iv tk h temp out kw : 0 < mx_vol (ps_tank p) -> tm_like p cap1 -> 0 <= cap1 * qz (ps_num p) ->
  tm_step p oat t iv = Ok (tk, h, (temp, out, kw)) ->
  exists T1, mx_vol tk = mx_vol (ps_tank p) /\
    T1 == mx_temp (ps_tank p) - tm_frac p iv * (mx_temp (ps_tank p) - ps_return p) /\
    temp = mx_temp tk /\ same_heater (ps_heater p) h /\
    (wh_active (ps_heater p) = false -> (wh_active h = true <-> T1 < ps_on p)) /\
    (wh_active (ps_heater p) = true -> (wh_active h = false <-> ps_off p <= T1)) /\
    (wh_active h = true -> out = cap1 * qz (ps_num p) /\ mx_temp tk == T1 + tm_rise p cap1 iv) /\
    (wh_active h = false -> out == 0 /\ mx_temp tk == T1) /\ kw = None.
Proof.
  intros V [PM CT] Pc H. unfold tm_step in H. cbv zeta in H.
  destruct (bind_ok _ _ _ H) as (tk1 & E1 & H1). clear H. destruct (bind_ok _ _ _ H1) as (h1 & Eh & H2). clear H1.
  destruct (bind_ok _ _ _ H2) as (o1 & Eo & H3). clear H2. destruct (bind_ok _ _ _ H3) as (uk & Eu & H4). clear H3.
  destruct (bind_ok _ _ _ H4) as (tk2 & E2 & H5). clear H4. apply ok_inj in H5.
  apply pair_equal_spec in H5. destruct H5 as [H5 H6]. apply pair_equal_spec in H5. destruct H5 as [<- <-].
  apply pair_equal_spec in H6. destruct H6 as [H6 <-]. apply pair_equal_spec in H6. destruct H6 as [<- <-].
  destruct (mx_recirc_cases (ps_tank p) (ps_flow p) (ps_return p) (qz iv) V) as (x & Ex & V1 & T1). rewrite Ex in E1. apply ok_inj in E1. subst x.
  exists (mx_temp tk1).
  assert (TT : mx_temp tk1 == mx_temp (ps_tank p) - tm_frac p iv * (mx_temp (ps_tank p) - ps_return p)).
  { unfold tm_frac. assert (X : mx_temp tk1 == (mx_vol (ps_tank p) * mx_temp tk1) / mx_vol (ps_tank p)) by (field; lra).
    rewrite X, T1. field. lra. }
  pose proof (hour_of_range t iv) as HR. destruct (CT _ HR) as (c & Ic & On & Off).
  destruct (wh_update_same _ _ _ _ Eh) as (S1 & S2 & S3).
  destruct (c30_step _ _ _ _ (proj1 HR) Eh) as [U1 U2].
  assert (CO : calls_on (ps_heater p) (fun f : Q => Ok (mx_temp_at tk1 f), hour_of t iv) <-> mx_temp tk1 < ps_on p).
  { unfold calls_on. cbn [fst snd]. split.
    - intros (c' & x & Ic' & Hx & L). rewrite <- (in_effect_unique _ _ _ _ Ic Ic') in *. apply ok_inj in Hx. unfold mx_temp_at in Hx. subst x. rewrite <- On. exact L.
    - intro L. exists c, (mx_temp tk1). split; [exact Ic|]. split; [reflexivity|]. rewrite On. exact L. }
  assert (CF : calls_off (ps_heater p) (fun f : Q => Ok (mx_temp_at tk1 f), hour_of t iv) <-> ps_off p <= mx_temp tk1).
  { unfold calls_off. cbn [fst snd]. split.
    - intros (c' & x & Ic' & Hx & L). rewrite <- (in_effect_unique _ _ _ _ Ic Ic') in *. apply ok_inj in Hx. unfold mx_temp_at in Hx. subst x. rewrite <- Off. exact L.
    - intro L. exists c, (mx_temp tk1). split; [exact Ic|]. split; [reflexivity|]. rewrite Off. exact L. }
  assert (OUT : o1 = if wh_active h1 then cap1 else 0).
  { unfold wh_output in Eo. destruct (wh_active h1); cbn [negb] in Eo; [|apply ok_inj in Eo; congruence].
    unfold wh_capacity in Eo. rewrite S1, PM, nominal_capacity in Eo. cbn [bind] in Eo. apply ok_inj in Eo. congruence. }
  assert (KW : uk = None).
  { destruct (wh_active h1); [|apply ok_inj in Eu; congruence]. unfold wh_power in Eu. rewrite S1, PM in Eu. apply ok_inj in Eu. congruence. }
  assert (V2 : mx_vol tk2 = mx_vol tk1 /\ mx_temp tk2 == mx_temp tk1 + (o1 * qz (ps_num p)) * qz iv / 60 * 1000 / (mx_vol tk1 * rho_cp)).
  { unfold mx_heat in E2. assert (NZ : ~ mx_vol tk1 * rho_cp == 0) by (rewrite V1; pose proof rho_pos; nra).
    destruct (Qle_bool (o1 * qz (ps_num p)) 0) eqn:Q; qbool.
    - apply ok_inj in E2. subst tk2. split; [reflexivity|].
      assert (Z : o1 * qz (ps_num p) == 0) by (rewrite OUT in *; destruct (wh_active h1); lra).
      rewrite Z. unfold Qdiv. ring.
    - rewrite qdiv_ok in E2 by exact NZ. cbn [bind] in E2. apply ok_inj in E2. subst tk2. split; [reflexivity|]. cbn. reflexivity. }
  destruct V2 as [V2 T2].
  split; [congruence|]. split; [exact TT|]. split; [reflexivity|]. split; [split; [exact S1|split; assumption]|].
  split; [intro A; rewrite (U1 A); exact CO|]. split; [intro A; rewrite (U2 A); exact CF|].
  split; [|split].
  - intro A. rewrite A in OUT. subst o1. split; [reflexivity|]. rewrite T2, V1. reflexivity.
  - intro A. rewrite A in OUT. subst o1. split; [ring|]. rewrite T2. unfold Qdiv. ring.
  - rewrite KW. reflexivity.
Qed.
