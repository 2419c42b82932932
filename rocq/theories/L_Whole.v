(** Lemmas for C72. *)
From Verif Require Import Prelude M_StratifiedTank M_MixedTank M_EnergyTank M_Building M_Heater M_Sizing M_SimRun M_Step M_Swing M_MPRTP M_Engine
  S_Integral S_Sizing S_Step S_Engine S_EngineSize S_EngineRun S_Whole S_StratifiedTank L_StratifiedTank L_Building L_Heater L_Step L_Step2 L_Step4 L_Engine L_Engine2 L_Engine6 L_Engine8 P_Engine2 P_Engine6 P_Engine7 P_EngineOut.
Open Scope Q_scope.

(** The second tank of a sized system is the sized one, and its heater the sized one. *)
Lemma sized_second dt p e v h : eng_new dt p = Ok e -> ep_volume p = None -> second_tank (en_system e) = Some (v, h) ->
  exists oc, sized_maintenance e = Some (v, oc) /\ (forall c, oc = Some c -> exists c', c' == c /\ wh_pm h = Some (PmNominal c')).
Proof.
  intros H EV ST. destruct (new_inv _ _ _ H) as (b & sched & m & _ & _ & [(vol & hs & E & _)|(_ & ES & _)]); [congruence|].
  unfold sized_maintenance, eng_results. cbn [snd]. set (s := en_system e) in *. clearbody s. clear H.
  unfold eng_sized in ES. destruct (bind_ok _ _ _ ES) as ([sched' m'] & EC & H1). clear ES. destruct (bind_ok _ _ _ H1) as (fract & EF & H2). clear H1. cbv zeta in H2.
  destruct (kind_of (ep_schematic p)) as [[]|]; [| | | | | |discriminate].
  - unfold fs_primary in H2. destruct (dhw_size _ _ _ _ _ _ _ _) as [[d b1] out]. destruct (bind_ok _ _ _ H2) as (w & _ & H1). destruct (bind_ok _ _ _ H1) as (x & _ & H3).
    apply ok_inj in H3. apply pair_equal_spec in H3. destruct H3 as [_ <-]. discriminate ST.
  - destruct (bind_ok _ _ _ H2) as ([r f] & _ & H0). clear H2. cbn [fst snd] in H0. unfold fs_parallel in H0. cbv zeta in H0. destruct (pl_size _ _ _ _ _ _ _) as [[l b1] out] eqn:PS.
    destruct (bind_ok _ _ _ H0) as ([] & -> & H1). clear H0. destruct (bind_ok _ _ _ H1) as (x & EP & H2). clear H1.
    destruct (pl_size_inv _ _ _ _ _ _ _ _ _ PS) as (_ & _ & _ & _ & _ & _ & _ & _ & PN & _). cbn [pl_num] in PN.
    destruct (pl_tm_vol l) as [tv|] eqn:TV; [|discriminate]. destruct (pl_tm_cap l) as [tc|] eqn:TC; [|discriminate].
    destruct (bind_ok _ _ _ H2) as (ps & PB & H3). apply ok_inj in H3. apply pair_equal_spec in H3. destruct H3 as [_ <-]. cbn [second_tank] in ST.
    unfold pl_build in PB. destruct (bind_ok _ _ _ PB) as (pu & QD & PB'). apply ok_inj in PB'. subst ps. cbn [ps_tank ps_heater mx_vol] in ST. injection ST as <- <-.
    rewrite TV, TC. exists (Some tc). split; [reflexivity|]. intros c EQ. injection EQ as <-. exists pu. split; [|reflexivity].
    apply qdiv_inv in QD. destruct QD as [NZ ->]. rewrite PN. change (qz 1) with 1. field.
  - destruct (bind_ok _ _ _ H2) as ([r f] & _ & H0). clear H2. cbn [fst snd] in H0. unfold fs_swing in H0. destruct (bind_ok _ _ _ H0) as (w0 & EW & H1). clear H0.
    destruct (swing_size _ _ _ _ _ _ _) as [[w b1] out]. destruct (bind_ok _ _ _ H1) as ([] & -> & H2). clear H1.
    destruct (dh_min_cap (sw_dhw w)) as [c|]; [|discriminate]. destruct (dh_min_stor (sw_dhw w)) as [v0|]; [|discriminate]. destruct (sw_tm_vol w) as [tv|] eqn:TV; [|discriminate].
    apply ok_inj in H2. apply pair_equal_spec in H2. destruct H2 as [_ <-]. cbn [second_tank ws_swing ws_element mx_vol] in ST. injection ST as <- <-. rewrite TV.
    eexists. split; [reflexivity|]. intros c0 EQ. exists c0. split; [reflexivity|]. rewrite EQ. reflexivity.
  - destruct (bind_ok _ _ _ H2) as ([r f] & _ & H0). cbn [fst snd] in H0. unfold fs_sprtp in H0. destruct (sprtp_size _ _ _ _ _ _ _ _ _) as [[d b1] out].
    destruct (bind_ok _ _ _ H0) as (w & _ & H1). destruct (bind_ok _ _ _ H1) as (x & _ & H3).
    apply ok_inj in H3. apply pair_equal_spec in H3. destruct H3 as [_ <-]. discriminate ST.
  - destruct (bind_ok _ _ _ H2) as ([r f] & _ & H0). cbn [fst snd] in H0. destruct s; cbn [second_tank] in ST; try discriminate ST; exfalso; revert H0; clear.
    all: destruct (mp_from_size _ _ _ _ _ _ _ _ _ _ _ _ _ _) as [b1 [x|x]]; cbn; intro H0; try discriminate H0; apply ok_inj in H0; apply pair_equal_spec in H0; destruct H0 as [_ H0]; discriminate H0.
  - unfold fs_instant in H2. destruct (bind_ok _ _ _ H2) as (d & _ & H3). apply ok_inj in H3. apply pair_equal_spec in H3. destruct H3 as [_ <-]. discriminate ST.
Qed.

(** ** A tank without volume *)

Lemma temp_empty tk f : st_vol tk == 0 -> st_temp tk f = Err ZeroDivisionError.
Proof. intro Z. unfold st_temp, qdiv. destruct (Qeq_bool (st_vol tk) 0) eqn:E; [reflexivity|]. qbool. contradiction. Qed.

Lemma update_empty h tk hour : scheduled h -> (0 <= hour < 24)%Z -> st_vol tk == 0 -> wh_update h (st_temp tk) hour = Err ZeroDivisionError.
Proof.
  intros SC HH Z. destruct (scheduled_effect h hour SC HH) as (c & E). apply in_effect_iff in E; [|lia].
  unfold wh_update. rewrite E. cbn [bind]. unfold ct_should_turn_on, ct_should_turn_off. rewrite !(temp_empty tk _ Z). destruct (wh_active h); reflexivity.
Qed.

Lemma updates_empty hs tk hour : Forall scheduled hs -> (0 <= hour < 24)%Z -> st_vol tk == 0 ->
  (do hs' <- mapM (fun h => wh_update h (st_temp tk) hour) hs; do _ <- st_temp tk 1; Ok hs') = Err ZeroDivisionError.
Proof.
  intros FS HH Z. destruct hs as [|h hs]; cbn [mapM bind].
  - rewrite (temp_empty _ _ Z). reflexivity.
  - inversion FS; subst. rewrite update_empty by assumption. reflexivity.
Qed.

Lemma bind_err2 {A B C} (x : res A) (y : res B) (f : A -> res C) e : (do a <- x; do _ <- y; Ok a) = Err e -> (do a <- x; do _ <- y; f a) = Err e.
Proof. destruct x; cbn; [destruct y; cbn|]; intro H; congruence. Qed.

Lemma base_step_empty b s tk t iv : complete b -> Forall scheduled (bs_heaters s) -> Forall rated (bs_heaters s) -> bs_tank s = Some tk -> st_vol tk == 0 ->
  base_step b s t iv = Err ZeroDivisionError.
Proof.
  intros CB FS FR ET Z. destruct (complete_answers b CB t iv) as (Ld & (oat & Eo) & (inlet & Ei) & _).
  destruct (Ld (existsb wh_load_shifting (bs_heaters s))) as (d & Ed). pose proof (hour_of_range t iv) as HR.
  assert (W : st_wf (st_new 1 1)) by (split; reflexivity).
  destruct (heaters_total (bs_heaters s) (bs_storage s) (st_new 1 1) (hour_of t iv) oat inlet FS FR W HR) as (out & m & _ & _ & _ & Eout & Em & _).
  unfold base_step. rewrite Ed. cbn [bind]. rewrite Eo. cbn [bind]. rewrite Ei. cbn [bind]. cbv zeta. rewrite Eout. cbn [bind]. rewrite Em. cbn [bind]. rewrite ET.
  apply (bind_err2 _ (st_temp tk 1) (fun hs => do out <- total_output hs oat inlet (hour_of t iv); _)). apply updates_empty; assumption.
Qed.

Lemma swing_step_empty b w t iv : complete b -> Forall scheduled (ws_heaters w) -> Forall rated (ws_heaters w) -> st_vol (ws_tank w) == 0 ->
  swing_sim_step b w t iv = Err ZeroDivisionError.
Proof.
  intros CB FS FR Z. destruct (complete_answers b CB t iv) as (Ld & (oat & Eo) & (inlet & Ei) & _).
  destruct (Ld (existsb wh_load_shifting (ws_heaters w))) as (d & Ed). pose proof (hour_of_range t iv) as HR.
  assert (W : st_wf (st_new 1 1)) by (split; reflexivity).
  destruct (heaters_total (ws_heaters w) (ws_storage w) (st_new 1 1) (hour_of t iv) oat inlet FS FR W HR) as (out & m & _ & _ & _ & Eout & Em & _).
  unfold swing_sim_step. rewrite Ed. cbn [bind]. rewrite Eo. cbn [bind]. rewrite Ei. cbn [bind]. cbv zeta. rewrite Eout. cbn [bind]. rewrite Em. cbn [bind].
  apply (bind_err2 _ (st_temp (ws_tank w) 1) (fun hs => do out <- total_output hs oat inlet (hour_of t iv); _)). apply updates_empty; assumption.
Qed.

Lemma simulate_first {St} (stp : St -> Z -> Z -> res (St * step_out)) s supply dur thr maxm tm e :
  (forall i iv, stp s i iv = Err e) -> dur = "3day"%string \/ dur = "annual"%string -> simulate stp s supply dur thr maxm tm = Err e.
Proof.
  intros H D. unfold simulate. assert (ST : exists a c n, sim_times dur = Ok (a, c) /\ Z.to_nat (a / c) = S n).
  { destruct D as [-> | ->]; eexists _, _; [exists (Z.to_nat 4319)|exists (Z.to_nat 52559)]; (split; [reflexivity|]); rewrite <- Z2Nat.inj_succ by lia; reflexivity. }
  destruct ST as (a & c & n & -> & N). cbn [bind]. rewrite N. cbn [sim_loop]. rewrite H. reflexivity.
Qed.

(** ** What a positive volume takes *)

Lemma level_flat V g d s n : 0 <= V -> (forall t, d t <= g t) -> level V g d s n == V.
Proof.
  intros V0 H. induction n as [|n IH]; cbn [level]; [reflexivity|]. specialize (H (s + n)%nat).
  destruct (qmin_spec V (level V g d s n + g (s + n)%nat - d (s + n)%nat)) as [[_ ->]|[L ->]]; lra.
Qed.
