(** C77, simulated: a plant of a model shipped with a coefficient table runs to the end of every simulation, and
    reports in each step at least the heat the electricity it used is worth. *)
From Verif Require Import Prelude M_StratifiedTank M_Building S_Building L_Building M_Heater S_Heater L_Heater M_Sizing S_Sizing M_SimRun S_SimRun L_SimRun M_Step S_Step L_Step L_Step2 L_Step6
  M_Swing M_MPRTP M_Engine S_Engine S_EngineRun S_EngineSize L_Engine L_Engine2 L_Engine6 L_Engine8 D_Models S_Shipped L_Shipped P_Engine P_Engine2 P_Engine3 P_Engine6 P_Shipped S_Lasts L_Lasts S_Audit S_Audit2 L_Audit L_Audit2 L_Audit3 L_ShippedRun P_Sizing P_Engine7 P_Lasts P_Lasts2 P_Audit P_Audit2 P_Audit3.
Open Scope Q_scope.

Lemma segment_exists oat : forall l a0 r0, l = a0 :: r0 -> r0 <> [] -> he_T a0 <= oat ->
  exists pre a b post, l = pre ++ a :: b :: post /\ he_T a <= oat /\ (oat <= he_T b \/ post = []).
Proof.
  induction l as [|a r IH]; intros a0 r0 E N H; [discriminate|]. injection E as <- <-. destruct r as [|b r]; [congruence|].
  destruct r as [|c r]; [exists [], a, b, []; split; [reflexivity|]; split; [exact H|right; reflexivity]|].
  destruct (Qlt_le_dec oat (he_T b)) as [L|L]; [exists [], a, b, (c :: r); split; [reflexivity|]; split; [exact H|left; lra]|].
  destruct (IH b (c :: r) eq_refl ltac:(discriminate) L) as (pre & x & y & post & -> & K). exists (a :: pre), x, y, post. split; [reflexivity|exact K].
Qed.

Lemma table_answers m oat inl out : table_ok (hp_perfmap m) -> hp_nominal m = None ->
  exists kw cap, hp_power m (Some oat) out inl = Ok kw /\ hp_capacity m (Some oat) out inl = Ok cap.
Proof.
  intros T N. pose proof T as (L2 & _ & FE). destruct (hp_perfmap m) as [|e r] eqn:EM; [cbn in L2; lia|]. assert (Nr : r <> []) by (intros ->; cbn in L2; lia).
  destruct (Qlt_le_dec oat (he_T e)) as [B|B].
  - destruct (c32_below_no_nominal m oat inl out e r EM Nr ltac:(inversion FE; assumption) B N) as (kw & cap & K1 & K2 & _). exists kw, cap. split; assumption.
  - destruct (segment_exists oat (e :: r) e r eq_refl Nr B) as (pre & x & y & post & E & H1 & H2). rewrite <- EM in T, E.
    destruct (c32_segment m _ oat (inlet_used (hp_design_inlet m) inl) out x y pre post T E eq_refl H1 H2) as (kw & cap & K1 & K2 & _).
    exists kw, cap. destruct inl; split; [exact K1|exact K2|exact K1|exact K2].
Qed.

(** The equipment of a pre-sized plant of such a model. *)
Lemma shipped_fitted pk dt p e vol code en l : da_reg dt = shipped pk -> In (code, en) (shipped pk) -> tabulated en l ->
  eng_new dt p = Ok e -> ep_volume p = Some vol -> ep_model p = Some code -> type_of (en_system e) <> InstantWH ->
  exists h di, primary_heaters (en_system e) = [h] /\ wh_pm h = Some (PmHpwhsim (mkHpMap l (ep_num p) (ends_with code "MP") None di)) /\
    exists d, bd_design_inlet (en_building e) = Ok d /\ forall t, d = Some t -> ~ t == 0 -> di = t.
Proof.
  intros RG I TB H EV EM NI. pose proof (C52_presized_heaters _ _ _ _ H EV NI) as K. rewrite EM in K. destruct K as (d & x & pm & h & ED & EX & EP & EH & EW).
  exists h, x. split; [exact EH|]. split; [|exists d; split; [exact ED|exact EX]]. rewrite EW. f_equal. rewrite RG in EP. destruct (C54_shipped pk) as (_ & ND & _).
  unfold pm_from_model in EP. rewrite (in_dict _ _ _ ND I) in EP. destruct TB as [T1 T2]. rewrite T1, T2 in EP. apply ok_inj in EP. symmetry. exact EP.
Qed.

(** It runs to the end: for every weather, load and loop, no query of the table fails. *)
Theorem C77_completes : forall pk dt p e code en l vol dur thr maxm,
  da_reg dt = shipped pk -> In (code, en) (shipped pk) -> tabulated en l -> ep_model p = Some code ->
  eng_new dt p = Ok e -> ep_volume p = Some vol -> 0 < vol -> load_up_configured p -> complete (en_building e) ->
  dur = "3day"%string \/ dur = "annual"%string ->
  type_of (en_system e) <> InstantWH -> type_of (en_system e) <> MultiPassRTP ->
  (forall v h, second_tank (en_system e) = Some (v, h) -> 0 < v /\ rated h) ->
  (type_of (en_system e) = SwingTank -> forall t iv x, bd_inlet (en_building e) t iv = Ok x -> x <= ep_supply p) ->
  exists e' r, eng_simulate e dur thr maxm = Ok (e', r).
Proof.
  intros pk dt p e code en l vol dur thr maxm RG I TB EM H EV V0 LU CB D NI NM ST SW.
  destruct (shipped_fitted _ _ _ _ _ _ _ _ RG I TB H EV EM NI) as (h & di & EH & EW & _).
  destruct (shipped_tables_good _ _ _ _ I TB) as [G L2].
  apply (C65_completes dt p e dur thr maxm H LU CB D NM).
  - intros _. exists vol. split; [|exact V0]. pose proof (proj2 (proj2 (C52_parts _ _ _ H)) NI) as PV. rewrite EV in PV. exact PV.
  - rewrite EH. constructor; [|constructor]. intros oat out inl. unfold wh_capacity, wh_power. rewrite EW. cbn [pm_capacity pm_power].
    destruct (table_answers (mkHpMap l (ep_num p) (ends_with code "MP") None di) oat inl out (table_good_ok _ G L2) eq_refl) as (kw & cap & -> & ->).
    eexists _, _. split; reflexivity.
  - exact ST.
  - exact SW.
  - intro X. exfalso. exact (NI X).
Qed.
Print Assumptions C77_completes.

Lemma nth_related (Rel : Q -> Q -> Prop) outs r : recorded outs r -> (forall o, In o outs -> related Rel o) ->
  forall i k, nth_error (sr_output r) i = Some k -> exists w, nth_error (sr_power r) i = Some w /\ Rel k (or0 w).
Proof.
  intros RC H i k E. rewrite (rc_output _ _ RC), nth_error_map in E. destruct (nth_error outs i) as [o|] eqn:EO; [|discriminate]. cbn in E. injection E as <-.
  exists (so_power o). rewrite (rc_power _ _ RC), nth_error_map, EO. split; [reflexivity|]. exact (H o (nth_error_In _ _ EO)).
Qed.

(** A relation between capacity and power of the fitted equipment that is closed under sums holds between the output
    and the power of every recorded step. *)
Lemma run_related (Rel : Q -> Q -> Prop) dt p e dur thr maxm e' r total iv :
  Rel 0 0 -> (forall x w y v, Rel x w -> Rel y v -> Rel (x + y) (w + v)) -> (forall x y w v, x == y -> w == v -> Rel x w -> Rel y v) ->
  eng_new dt p = Ok e -> type_of (en_system e) <> InstantWH -> lasts dur total iv ->
  (forall h0 t oat inl c, In h0 (primary_heaters (en_system e)) -> bd_oat (en_building e) t iv = Ok oat -> (forall x, inl = Some x -> bd_inlet (en_building e) t iv = Ok x) ->
    wh_capacity h0 (Some oat) (ep_storage p) inl = Ok c -> exists w, wh_power h0 (Some oat) (ep_storage p) inl = Ok w /\ Rel (or0 c) (or0 w)) ->
  eng_simulate e dur thr maxm = Ok (e', r) ->
  forall i k, nth_error (sr_output r) i = Some k -> exists w, nth_error (sr_power r) i = Some w /\ Rel k (or0 w).
Proof.
  intros R0 RA RE H NI LA EFF SIM. pose proof (outlets_storage _ _ _ H) as CT. set (b := en_building e) in *.
  assert (EFF1 : forall h0 t oat inlet c, In h0 (primary_heaters (en_system e)) -> bd_oat b t iv = Ok oat -> bd_inlet b t iv = Ok inlet ->
    wh_capacity h0 (Some oat) (ep_storage p) (Some inlet) = Ok c -> exists w, wh_power h0 (Some oat) (ep_storage p) (Some inlet) = Ok w /\ Rel (or0 c) (or0 w)).
  { intros h0 t oat inlet c I EO EI. apply (EFF h0 t oat (Some inlet) c I EO). intros x E. injection E as <-. exact EI. }
  assert (EFF2 : forall h0 t oat c, In h0 (primary_heaters (en_system e)) -> bd_oat b t iv = Ok oat ->
    wh_capacity h0 (Some oat) (ep_storage p) None = Ok c -> exists w, wh_power h0 (Some oat) (ep_storage p) None = Ok w /\ Rel (or0 c) (or0 w)).
  { intros h0 t oat c I EO. apply (EFF h0 t oat None c I EO). intros x E. discriminate E. }
  clear EFF.
  assert (IVS : forall total' iv', lasts dur total' iv' -> iv' = iv) by (intros total' iv' LA'; destruct LA as [(L1 & -> & ->)|(L1 & -> & ->)]; destruct LA' as [(L3 & -> & ->)|(L3 & -> & ->)]; reflexivity || congruence).
  destruct (C65_runs_its_system _ _ _ _ _ _ _ _ H SIM) as (_ & KS). cbv zeta in KS. fold b in KS.
  destruct (en_system e) as [dh s|l0 s|w s|dh ret flow s|x|dh] eqn:ES; cbn [type_of primary_heaters] in *; try (exfalso; apply NI; reflexivity).
  - destruct KS as (s' & E & _). unfold simulate_base in E. destruct (bind_ok _ _ _ E) as (s0 & E0 & E1).
    destruct (simulate_reported _ _ _ _ _ _ _ _ _ E1) as (total' & iv' & outs & LA' & _ & EX' & RP & _). apply IVS in LA'. subst iv'.
    apply (nth_related Rel outs r (rp_recorded _ _ _ _ _ _ _ RP)).
    refine (executed_all iv (base_step b) (fun s1 => Forall2 same_heater (bs_heaters s) (bs_heaters s1)) (related Rel) (fun s1 t s2 o X J => base_rel b iv _ (ep_storage p) Rel R0 RA RE CT EFF1 t s1 s2 o X J) outs s0 0%Z s' EX' _).
    unfold init_base in E0. destruct (bind_ok _ _ _ E0) as (di0 & _ & E2). cbv zeta in E2. apply ok_inj in E2. subst s0. destruct (bs_tank s); apply same_all_refl.
  - destruct KS as (s' & E & _). unfold simulate_parallel in E. destruct (bind_ok _ _ _ E) as (s0 & E0 & E1).
    destruct (simulate_reported _ _ _ _ _ _ _ _ _ E1) as (total' & iv' & outs & LA' & _ & EX' & RP & _). apply IVS in LA'. subst iv'.
    apply (nth_related Rel outs r (rp_recorded _ _ _ _ _ _ _ RP)).
    refine (executed_all iv (parallel_step b) (fun s1 => Forall2 same_heater (bs_heaters (ps_base s)) (bs_heaters (ps_base s1))) (related Rel) (fun s1 t s2 o X J => parallel_rel b iv _ (ep_storage p) Rel R0 RA RE CT EFF1 t s1 s2 o X J) outs s0 0%Z s' EX' _).
    unfold init_parallel in E0. destruct (bind_ok _ _ _ E0) as (di0 & _ & E2). destruct (bind_ok _ _ _ E2) as (s1 & EI & E3). apply ok_inj in E3.
    unfold init_base in EI. destruct (bind_ok _ _ _ EI) as (di2 & _ & E4). cbv zeta in E4. apply ok_inj in E4. subst s0. cbn [ps_base]. subst s1. destruct (bs_tank (ps_base s)); apply same_all_refl.
  - destruct KS as (s' & E & _). unfold simulate_swing in E. destruct (bind_ok _ _ _ E) as (s0 & E0 & E1).
    destruct (simulate_reported _ _ _ _ _ _ _ _ _ E1) as (total' & iv' & outs & LA' & _ & EX' & RP & _). apply IVS in LA'. subst iv'.
    apply (nth_related Rel outs r (rp_recorded _ _ _ _ _ _ _ RP)).
    refine (executed_all iv (swing_sim_step b) (fun s1 => Forall2 same_heater (ws_heaters s) (ws_heaters s1)) (related Rel) (fun s1 t s2 o X J => swing_rel b iv _ (ep_storage p) Rel R0 RA RE CT EFF1 t s1 s2 o X J) outs s0 0%Z s' EX' _).
    unfold init_swing in E0. destruct (bind_ok _ _ _ E0) as (di0 & _ & E2). destruct (bind_ok _ _ _ E2) as (off & _ & E3). apply ok_inj in E3. subst s0. apply same_all_refl.
  - destruct KS as (ret' & flow' & s' & _ & _ & E & _). unfold simulate_sprtp in E. destruct (bind_ok _ _ _ E) as (s0 & E0 & E1).
    destruct (simulate_reported _ _ _ _ _ _ _ _ _ E1) as (total' & iv' & outs & LA' & _ & EX' & RP & _). apply IVS in LA'. subst iv'.
    apply (nth_related Rel outs r (rp_recorded _ _ _ _ _ _ _ RP)).
    refine (executed_all iv (sprtp_step ret' flow' b) (fun s1 => Forall2 same_heater (bs_heaters s) (bs_heaters s1)) (related Rel) (fun s1 t s2 o X J => sprtp_rel b iv _ (ep_storage p) Rel R0 RA RE CT EFF1 ret' flow' t s1 s2 o X J) outs s0 0%Z s' EX' _).
    unfold init_base in E0. destruct (bind_ok _ _ _ E0) as (di0 & _ & E2). cbv zeta in E2. apply ok_inj in E2. subst s0. destruct (bs_tank s); apply same_all_refl.
  - destruct KS as (s' & E & _). unfold simulate_mp in E. destruct (bind_ok _ _ _ E) as (s0 & E0 & E1).
    destruct (simulate_reported _ _ _ _ _ _ _ _ _ E1) as (total' & iv' & outs & LA' & _ & EX' & RP & _). apply IVS in LA'. subst iv'.
    apply (nth_related Rel outs r (rp_recorded _ _ _ _ _ _ _ RP)).
    refine (executed_all iv (mp_step b) (fun s1 => Forall2 same_heater (ms_heaters (mb_sys x)) (ms_heaters s1)) (related Rel) (fun s1 t s2 o X J => mp_rel b iv _ (ep_storage p) Rel R0 RA RE CT EFF2 t s1 s2 o X J) outs s0 0%Z s' EX' _).
    unfold init_mp in E0. destruct (bind_ok _ _ _ E0) as (di0 & _ & E2). destruct (bind_ok _ _ _ E2) as (tk & _ & E3). apply ok_inj in E3. subst s0. apply same_all_refl.
Qed.

(** Weather no hotter than 114 F and ordinary water: in every recorded step the heat given is at least the heat of the
    power drawn, 3412 BTU for each kWh, and neither is negative. *)
Theorem C77_simulated : forall pk dt p e code en l vol dur thr maxm e' r total iv,
  da_reg dt = shipped pk -> In (code, en) (shipped pk) -> tabulated en l -> ep_model p = Some code -> (1 <= ep_num p)%Z ->
  eng_new dt p = Ok e -> ep_volume p = Some vol ->
  type_of (en_system e) <> InstantWH -> lasts dur total iv ->
  (forall t x, bd_oat (en_building e) t iv = Ok x -> x <= 114) ->
  (forall t x, bd_inlet (en_building e) t iv = Ok x -> ordinary_water x) ->
  (exists t, bd_design_inlet (en_building e) = Ok (Some t) /\ ordinary_water t) ->
  eng_simulate e dur thr maxm = Ok (e', r) ->
  forall i k, nth_error (sr_output r) i = Some k ->
  exists w, nth_error (sr_power r) i = Some w /\ 0 <= or0 w /\ (3412142 # 1000000) * or0 w <= k.
Proof.
  intros pk dt p e code en l vol dur thr maxm e' r total iv RG I TB EM NU H EV NI LA OA IW DW SIM.
  destruct (shipped_fitted _ _ _ _ _ _ _ _ RG I TB H EV EM NI) as (h & di & EH & EW & d & ED & EX).
  destruct DW as (td & ED' & OD). rewrite ED in ED'. apply ok_inj in ED'. subst d.
  assert (DI : di = td). { apply EX; [reflexivity|]. destruct OD. lra. }
  destruct (shipped_tables_good _ _ _ _ I TB) as [G L2]. destruct OD as [D1 D2].
  set (Rel := fun x w => 0 <= w /\ (3412142 # 1000000) * w <= x).
  assert (R0 : Rel 0 0) by (split; lra).
  assert (RA : forall x w y v, Rel x w -> Rel y v -> Rel (x + y) (w + v)) by (intros x w y v [A1 A2] [B1 B2]; split; lra).
  assert (RE : forall x y w v, x == y -> w == v -> Rel x w -> Rel y v) by (intros x y w v E1 E2 [A1 A2]; split; lra).
  set (b := en_building e) in *.
  assert (EFF : forall h0 t oat inl c, In h0 (primary_heaters (en_system e)) -> bd_oat b t iv = Ok oat -> (forall x, inl = Some x -> bd_inlet b t iv = Ok x) ->
    wh_capacity h0 (Some oat) (ep_storage p) inl = Ok c -> exists w, wh_power h0 (Some oat) (ep_storage p) inl = Ok w /\ Rel (or0 c) (or0 w)).
  { intros h0 t oat inl c IH EO EI EC. rewrite EH in IH. destruct IH as [<-|[]]. unfold wh_capacity, wh_power in *. rewrite EW in *. cbn [pm_capacity pm_power] in *.
    assert (X : 32 <= inlet_used di inl /\ inlet_used di inl <= 145) by (destruct inl as [x|]; [exact (IW _ _ (EI x eq_refl))|cbn; rewrite DI; split; assumption]). destruct X as [X1 X2].
    destruct (good_map_runs (mkHpMap l (ep_num p) (ends_with code "MP") None di) oat inl (ep_storage p)) as (kw & cap & P1 & P2 & P3 & P4 & _);
      [exact G|exact L2|exact NU|cbn; rewrite DI; exact D1|cbn; rewrite DI; exact D2|discriminate|exact X1|exact X2|exact (OA _ _ EO)|].
    rewrite P2 in EC. cbn [bind] in EC. apply ok_inj in EC. subst c. rewrite P1. cbn [bind]. eexists. split; [reflexivity|]. cbn [or0].
    unfold w_to_kbtuh in P4. split; lra. }
  exact (run_related Rel dt p e dur thr maxm e' r total iv R0 RA RE H NI LA EFF SIM).
Qed.
Print Assumptions C77_simulated.

Lemma run_sum dt p e dur thr maxm e' r : eng_new dt p = Ok e -> eng_simulate e dur thr maxm = Ok (e', r) ->
  (forall i k, nth_error (sr_output r) i = Some k -> exists w, nth_error (sr_power r) i = Some w /\ 0 <= or0 w /\ (3412142 # 1000000) * or0 w <= k) ->
  0 <= kwh_used r /\ (3412142 # 1000) * kwh_used r <= heat_made r.
Proof.
  intros H SIM K.
  destruct (C65_reported _ _ _ _ _ _ _ _ H SIM) as (total' & iv' & outs & LA' & RP & _). pose proof (rp_recorded _ _ _ _ _ _ _ RP) as RC.
  assert (LEN : length (sr_output r) = length (sr_power r)) by (rewrite (rc_output _ _ RC), (rc_power _ _ RC), !map_length; reflexivity).
  assert (HH : 0 <= step_hours r) by (unfold step_hours; rewrite (rp_interval _ _ _ _ _ _ _ RP); destruct LA' as [(_ & _ & ->)|(_ & _ & ->)]; discriminate).
  clear - K LEN HH.
  unfold kwh_used, heat_made. revert K LEN. generalize (sr_output r) as ks. generalize (sr_power r) as ws. induction ws as [|w ws IH]; intros [|k ks] K LEN; try discriminate; [cbn; split; lra|].
  injection LEN as LEN. destruct (K 0%nat k eq_refl) as (w' & E0 & W0 & W1). injection E0 as <-.
  destruct (IH ks (fun i => K (S i)) LEN) as [I1 I2].
  cbn [map]. match goal with |- 0 <= qsum (?a :: ?l1) /\ _ <= qsum (?c :: ?l2) => change (qsum (a :: l1)) with (a + qsum l1); change (qsum (c :: l2)) with (c + qsum l2) end.
  assert (X1 : 0 <= or0 w * step_hours r) by (apply qmul_nonneg; assumption).
  assert (X2 : (3412142 # 1000) * (or0 w * step_hours r) <= qmax 0 k * 1000 * step_hours r).
  { assert (Y : 0 <= (qmax 0 k * 1000 - (3412142 # 1000) * or0 w) * step_hours r).
    { apply qmul_nonneg; [|exact HH]. pose proof (qmax_r 0 k). lra. }
    assert (Z : (qmax 0 k * 1000 - (3412142 # 1000) * or0 w) * step_hours r == qmax 0 k * 1000 * step_hours r - (3412142 # 1000) * (or0 w * step_hours r)) by ring. lra. }
  split; lra.
Qed.

(** Over the run: the heat recorded is at least the heat of the energy recorded. *)
Theorem C77_run_cop : forall pk dt p e code en l vol dur thr maxm e' r total iv,
  da_reg dt = shipped pk -> In (code, en) (shipped pk) -> tabulated en l -> ep_model p = Some code -> (1 <= ep_num p)%Z ->
  eng_new dt p = Ok e -> ep_volume p = Some vol ->
  type_of (en_system e) <> InstantWH -> lasts dur total iv ->
  (forall t x, bd_oat (en_building e) t iv = Ok x -> x <= 114) ->
  (forall t x, bd_inlet (en_building e) t iv = Ok x -> ordinary_water x) ->
  (exists t, bd_design_inlet (en_building e) = Ok (Some t) /\ ordinary_water t) ->
  eng_simulate e dur thr maxm = Ok (e', r) ->
  0 <= kwh_used r /\ (3412142 # 1000) * kwh_used r <= heat_made r.
Proof.
  intros pk dt p e code en l vol dur thr maxm e' r total iv RG I TB EM NU H EV NI LA OA IW DW SIM.
  exact (run_sum dt p e dur thr maxm e' r H SIM (C77_simulated pk dt p e code en l vol dur thr maxm e' r total iv RG I TB EM NU H EV NI LA OA IW DW SIM)).
Qed.
Print Assumptions C77_run_cop.

(** ** A case: ten SANCO2 units on a 2000-gallon tank, for a year. *)

Definition ex_sanco (pk : string -> pk_files) : data := mkData [] [] [] [] ex_lib (shipped pk) (fun _ => 0).
Definition ex_sanco_params : eparams :=
  with_equipment (with_plant (ex_low "primary_no_recirc") 2000 100 (Some 80) (Some 20)) 10 (Some "MODELS_SANCO2_43_R_SP"%string) (Some 100) (Some 80) (Some 20) None 1.

Example C77_simulated_case : forall pk, exists e e' r, eng_new (ex_sanco pk) ex_sanco_params = Ok e /\ type_of (en_system e) = PrimaryNoRecirc /\
  eng_simulate e "annual" 5 60 = Ok (e', r) /\ 0 <= kwh_used r /\ (3412142 # 1000) * kwh_used r <= heat_made r.
Proof.
  intro pk. destruct (eng_new (ex_sanco pk) ex_sanco_params) as [e|er] eqn:N; [|vm_compute in N; discriminate].
  assert (X : type_of (en_system e) = PrimaryNoRecirc /\ second_tank (en_system e) = None) by (vm_compute in N; injection N as <-; split; reflexivity).
  destruct X as (T & S2). destruct (C77_case pk) as (l & I & TB & _).
  assert (NI : type_of (en_system e) <> InstantWH) by (rewrite T; discriminate). assert (NM : type_of (en_system e) <> MultiPassRTP) by (rewrite T; discriminate).
  assert (Eb : en_building e = ex_hp_building) by exact (C67_building _ _ _ _ N eq_refl eq_refl).
  destruct (C77_completes pk (ex_sanco pk) ex_sanco_params e _ _ l 2000 "annual" 5 60 eq_refl I TB eq_refl N eq_refl) as (e' & r & SIM).
  - reflexivity.
  - intros ls h [Y _]. discriminate Y.
  - rewrite Eb. split; [discriminate|]. split; [discriminate|]. eexists. split; [reflexivity|]. split; left; discriminate.
  - right. reflexivity.
  - exact NI.
  - exact NM.
  - rewrite S2. intros v h Y. discriminate Y.
  - rewrite T. discriminate.
  - exists e, e', r. split; [reflexivity|]. split; [exact T|]. split; [exact SIM|].
    refine (C77_run_cop pk (ex_sanco pk) ex_sanco_params e _ _ l 2000 "annual" 5 60 e' r 525600 10 eq_refl I TB eq_refl _ N eq_refl NI _ _ _ _ SIM); rewrite ?Eb.
    + discriminate.
    + right. repeat split.
    + intros t x Y. cbn in Y. apply ok_inj in Y. subst x. discriminate.
    + intros t x Y. cbn in Y. apply ok_inj in Y. subst x. split; discriminate.
    + exists 50. split; [reflexivity|split; discriminate].
Qed.
