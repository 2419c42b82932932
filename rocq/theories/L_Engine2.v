From Coq Require Import Ascii.
From Verif Require Import Prelude M_StratifiedTank M_MixedTank M_EnergyTank M_Building L_Building M_Heater S_Heater L_Heater
  M_Sizing L_Sizing3 M_SimRun S_SimRun M_Step S_Step L_Step L_Step2 M_Swing M_MPRTP L_MPRTP2 M_Engine S_Engine L_Engine.
Open Scope Q_scope.

(** ** Schematic names *)

Definition type_kind (k : kind) : system_type :=
  match k with
  | KPrimary => PrimaryNoRecirc | KParallel => ParallelLoop | KSwing => SwingTank
  | KSprtp => SinglePassRTP | KMprtp => MultiPassRTP | KInstant => InstantWH
  end.

Lemma kind_documented s t : (exists k, kind_of s = Some k /\ type_kind k = t) <-> In (s, t) documented.
Proof.
  unfold kind_of, mem. cbn [existsb]. rewrite !orb_false_r.
  assert (N : forall a, String.eqb s a = true -> s = a) by (intros a; apply String.eqb_eq).
  assert (F : forall a, String.eqb s a = false -> s <> a) by (intros a; apply String.eqb_neq).
  split.
  - intros (k & H & <-).
    repeat (match type of H with
            | (if (String.eqb s ?a || String.eqb s ?b)%bool then _ else _) = _ =>
                destruct (String.eqb s a) eqn:?E; [apply N in E; injection H as <-; subst s; cbn; tauto|];
                destruct (String.eqb s b) eqn:?E; [apply N in E0; injection H as <-; subst s; cbn; tauto|]; cbn [orb] in H
            | (if String.eqb s ?a then _ else _) = _ =>
                destruct (String.eqb s a) eqn:?E; [apply N in E; injection H as <-; subst s; cbn; tauto|discriminate]
            end; try clear E E0).
  - intro I. cbn in I.
    repeat (destruct I as [I|I]; [injection I as <- <-; eexists; split; [reflexivity|reflexivity]|]). destruct I.
Qed.

Lemma kind_type s k : kind_of s = Some k -> In (s, type_kind k) documented.
Proof. intro H. apply kind_documented. exists k. auto. Qed.

Lemma recirc_ok p r f : require_recirc p = Ok (r, f) <-> ep_return p = Some r /\ ep_flow p = Some f.
Proof.
  unfold require_recirc. destruct (ep_return p), (ep_flow p); split; intro H; try discriminate; try (destruct H; discriminate).
  - apply ok_inj in H. apply pair_equal_spec in H. destruct H as [-> ->]. auto.
  - destruct H as [A B]. injection A as ->. injection B as ->. reflexivity.
Qed.

(** ** Sized multi-pass heaters *)

Definition by_all (sched : option schedule) (m : option ctl_map) (hs : list heater) : Prop :=
  Forall (fun h => wh_schedule h = sched /\ wh_map h = m) hs.

Lemma by_all_same sched m hs hs' : Forall2 same_heater hs hs' -> by_all sched m hs -> by_all sched m hs'.
Proof.
  intros F. induction F as [|a b l r (S1 & S2 & S3) F IH]; intro H; [exact H|]. inversion H as [|x l' [A B] H1]; subst. constructor; [|exact (IH H1)].
  split; congruence.
Qed.

Lemma mp_step_by sched m b s t iv s' o : by_all sched m (ms_heaters s) -> mp_step b s t iv = Ok (s', o) -> by_all sched m (ms_heaters s').
Proof.
  intros R E. unfold mp_step in E.
  destruct (bind_ok _ _ _ E) as (demand & _ & E1). clear E. destruct (bind_ok _ _ _ E1) as (oat & _ & E2). clear E1.
  destruct (bind_ok _ _ _ E2) as (inlet & _ & E3). clear E2. destruct (bind_ok _ _ _ E3) as (mode & _ & E5). clear E3.
  cbv zeta in E5. destruct (bind_ok _ _ _ E5) as (hs & Ehs & E6). clear E5.
  pose proof (by_all_same sched m _ _ (update_all_same _ _ _ _ (proj1 (hour_of_range t iv)) Ehs) R) as R2.
  destruct (bind_ok _ _ _ E6) as (tk1 & _ & E7). clear E6. destruct (bind_ok _ _ _ E7) as (top & _ & E8). clear E7.
  destruct (bind_ok _ _ _ E8) as (out & _ & E9). clear E8. destruct (bind_ok _ _ _ E9) as (kws & _ & E10). clear E9.
  destruct (bind_ok _ _ _ E10) as ([draw mv] & _ & E11). clear E10. destruct (bind_ok _ _ _ E11) as (tk2 & _ & E12). clear E11.
  destruct (bind_ok _ _ _ E12) as (tk3 & _ & E13). clear E12. destruct (bind_ok _ _ _ E13) as (usable & _ & E14). clear E13.
  destruct (bind_ok _ _ _ E14) as (temps & _ & E15). clear E14.
  apply ok_inj in E15. apply pair_equal_spec in E15. destruct E15 as [<- _]. exact R2.
Qed.

Lemma trial_by sched m b : forall n i s r s' r', by_all sched m (ms_heaters s) -> trial_loop n i b s r = Ok (s', r') -> by_all sched m (ms_heaters s').
Proof.
  induction n as [|n IH]; intros i s r s' r' B H; cbn [trial_loop] in H.
  - apply ok_inj in H. apply pair_equal_spec in H. destruct H as [<- _]. exact B.
  - destruct (bind_ok _ _ _ H) as ([s1 o] & E & H1). exact (IH _ _ _ _ _ (mp_step_by _ _ _ _ _ _ _ _ B E) H1).
Qed.

Lemma boost_by sched m days b pu inlet spu : forall iters s cap s' cap',
  by_all sched m (ms_heaters s) -> boost_loop iters days b s cap pu inlet spu sched m = Ok (s', cap') -> by_all sched m (ms_heaters s').
Proof.
  induction iters as [|k IH]; intros s cap s' cap' B H; cbn [boost_loop] in H.
  - apply ok_inj in H. apply pair_equal_spec in H. destruct H as [<- <-]. exact B.
  - destruct (bind_ok _ _ _ H) as ([[go s1] c1] & E & H1). clear H.
    assert (B1 : by_all sched m (ms_heaters s1)).
    { unfold boost_once in E. destruct (bind_ok _ _ _ E) as (tk & E0 & E1). clear E. destruct (bind_ok _ _ _ E1) as ([s2 r] & ET & E). clear E1.
      assert (B2 : by_all sched m (ms_heaters s2)) by exact (trial_by _ _ _ _ _ _ _ _ _ (B : by_all sched m (ms_heaters (mkMsys (ms_heaters s) tk (ms_supply s) (ms_storage s) (ms_return s) (ms_flow s)))) ET).
      destruct (0 <? tr_deficit r)%Z.
      - cbv zeta in E. destruct (qltb 0 _) in E.
        + destruct (bind_ok _ _ _ E) as (x & _ & E2). apply ok_inj in E2. apply pair_equal_spec in E2. destruct E2 as [E2 _]. apply pair_equal_spec in E2.
          destruct E2 as [_ <-]. constructor; [split; reflexivity|constructor].
        + apply ok_inj in E. apply pair_equal_spec in E. destruct E as [E _]. apply pair_equal_spec in E. destruct E as [_ <-]. exact B2.
      - apply ok_inj in E. apply pair_equal_spec in E. destruct E as [E _]. apply pair_equal_spec in E. destruct E as [_ <-]. exact B2. }
    destruct go; [exact (IH _ _ _ _ B1 H1)|]. apply ok_inj in H1. apply pair_equal_spec in H1. destruct H1 as [<- _]. exact B1.
Qed.

(** ** What an engine is built of *)

(** The base parts: heaters, tank volume and slope. *)
Definition base_parts (p : eparams) (hs : list heater) (vol slope : Q) : bsys :=
  mkBsys hs (Some (st_new vol slope)) (ep_supply p) (ep_storage p).

Definition assembled (p : eparams) (b : building) (hs : list heater) (vol : Q) (s : esys) : Prop :=
  match s with
  | EPrimary d x => kind_of (ep_schematic p) = Some KPrimary /\ x = base_parts p hs vol (28 # 10)
  | EParallel l x =>
      kind_of (ep_schematic p) = Some KParallel /\
      exists r f, ep_return p = Some r /\ ep_flow p = Some f /\ ps_base x = base_parts p hs vol (28 # 10) /\
        ps_return x = r /\ ps_flow x = f /\ ps_on x = ep_tm_on_temp p /\ ps_off x = ep_tm_off_temp p
  | ESwing w x =>
      kind_of (ep_schematic p) = Some KSwing /\
      exists r f tv tc, ep_return p = Some r /\ ep_flow p = Some f /\
        x = mkWsys hs (st_new vol (28 # 10)) (ep_supply p) (ep_storage p) r f (mkMixed tv 0 0) (swing_element (ep_supply p) tc)
  | ESprtp d r f x =>
      kind_of (ep_schematic p) = Some KSprtp /\ ep_return p = Some r /\ ep_flow p = Some f /\ x = base_parts p hs vol (17 # 10)
  | EMprtp x =>
      kind_of (ep_schematic p) = Some KMprtp /\
      exists r f, ep_return p = Some r /\ ep_flow p = Some f /\ ms_heaters (mb_sys x) = hs /\
        en_vol (sl_base (ms_tank (mb_sys x))) = vol /\ ms_supply (mb_sys x) = ep_supply p /\ ms_storage (mb_sys x) = ep_storage p /\
        ms_return (mb_sys x) = r /\ ms_flow (mb_sys x) = f
  | EInstant d => kind_of (ep_schematic p) = Some KInstant /\ dh_supply d = ep_supply p /\ dh_storage d = ep_storage p /\ dh_defrost d = ep_defrost p
  end.

Definition sized_heater (c : Q) (sched : schedule) (m : ctl_map) (hs : list heater) : Prop :=
  exists h, hs = [h] /\ wh_pm h = Some (PmNominal c) /\ wh_schedule h = Some sched /\ wh_map h = Some m.

Lemma size_temps K lib s b sched m slope fract s' b' w : dhw_size K lib s b sched m slope fract = (s', b', Ok w) ->
  dh_supply s' = dh_supply s /\ dh_storage s' = dh_storage s /\ dh_run s' = dh_run s /\ dh_defrost s' = dh_defrost s.
Proof. intro H. destruct (size_ok_inv _ _ _ _ _ _ _ _ _ _ _ H) as (b1 & c & v & _ & _ & ->). auto. Qed.

Lemma parts_inv d slope sched m s : fs_parts d slope sched m = Ok s ->
  exists c v, dh_min_cap d = Some c /\ dh_min_stor d = Some v /\
    s = mkBsys [wh_new (Some (PmNominal c)) (Some sched) (Some m)] (Some (st_new v slope)) (dh_supply d) (dh_storage d).
Proof.
  unfold fs_parts. destruct (dh_min_cap d) as [c|]; [|discriminate]. destruct (dh_min_stor d) as [v|]; [|discriminate].
  intro H. apply ok_inj in H. exists c, v. auto.
Qed.

Lemma sized_inv dt p b b' s : eng_sized dt p b = Ok (b', s) ->
  exists sched m, eng_controls p = Ok (sched, m) /\
    ((exists d, s = EInstant d /\ assembled p b' [] 0 s) \/
     exists c v hs, dh_min_cap (sys_dhw s) = Some c /\ dh_min_stor (sys_dhw s) = Some v /\ sized_heater c sched m hs /\ assembled p b' hs v s /\ type_of s <> InstantWH).
Proof.
  unfold eng_sized. intro H. destruct (bind_ok _ _ _ H) as ([sched m] & EC & H1). clear H. destruct (bind_ok _ _ _ H1) as (fract & EF & H). clear H1.
  exists sched, m. split; [exact EC|]. cbv zeta in H. destruct (kind_of (ep_schematic p)) as [[]|] eqn:EK; [| | | | | |discriminate].
  - right. unfold fs_primary in H. destruct (dhw_size _ _ _ _ _ _ _ _) as [[d b1] out] eqn:ES.
    destruct (bind_ok _ _ _ H) as (w & -> & H1). destruct (bind_ok _ _ _ H1) as (x & EP & H2). apply ok_inj in H2. apply pair_equal_spec in H2. destruct H2 as [<- <-].
    destruct (parts_inv _ _ _ _ _ EP) as (c & v & A & B & ->). destruct (size_temps _ _ _ _ _ _ _ _ _ _ _ ES) as (T1 & T2 & _). cbn in T1, T2.
    exists c, v, [wh_new (Some (PmNominal c)) (Some sched) (Some m)]. cbn [sys_dhw]. split; [exact A|]. split; [exact B|].
    split; [eexists; repeat split; reflexivity|]. split; [|discriminate]. split; [exact EK|]. unfold base_parts. rewrite T1, T2. reflexivity.
  - right. destruct (bind_ok _ _ _ H) as ([r f] & ER & H0). clear H. apply recirc_ok in ER. destruct ER as [ER EFl].
    cbn [fst snd] in H0. unfold fs_parallel in H0. cbv zeta in H0. destruct (pl_size _ _ _ _ _ _ _) as [[l b1] out] eqn:ES.
    destruct (bind_ok _ _ _ H0) as ([] & -> & H1). clear H0. destruct (bind_ok _ _ _ H1) as (x & EP & H2). clear H1.
    destruct (parts_inv _ _ _ _ _ EP) as (c & v & A & B & ->).
    unfold pl_size in ES. destruct (pl_validate _) as [u|e]; [|apply pair_equal_spec in ES; destruct ES; discriminate]. cbn [pl_dhw] in ES.
    destruct (dhw_size _ _ _ _ _ _ _ _) as [[d b2] o2] eqn:ED. cbv zeta in ES. destruct o2 as [w|e]; [|apply pair_equal_spec in ES; destruct ES; discriminate].
    destruct (pl_size_tm _) as [p2|e] eqn:ET; [|apply pair_equal_spec in ES; destruct ES; discriminate].
    apply pair_equal_spec in ES. destruct ES as [ES _]. apply pair_equal_spec in ES. destruct ES as [-> ->].
    destruct (size_temps _ _ _ _ _ _ _ _ _ _ _ ED) as (T1 & T2 & _). cbn in T1, T2.
    unfold pl_size_tm in ET. destruct (bind_ok _ _ _ ET) as (ratio & _ & ET1). clear ET. apply ok_inj in ET1. subst l. cbn [pl_tm_vol pl_tm_cap pl_dhw pl_set_dhw] in *.
    destruct (bind_ok _ _ _ H2) as (ps & EB & H3). clear H2. apply ok_inj in H3. apply pair_equal_spec in H3. destruct H3 as [<- <-].
    unfold pl_build in EB. destruct (bind_ok _ _ _ EB) as (pu & _ & EB1). clear EB. cbv zeta in EB1. apply ok_inj in EB1. subst ps.
    exists c, v, [wh_new (Some (PmNominal c)) (Some sched) (Some m)]. cbn [sys_dhw pl_dhw]. split; [exact A|]. split; [exact B|].
    split; [eexists; repeat split; reflexivity|]. split; [|discriminate]. split; [exact EK|]. exists r, f. cbn. unfold base_parts. rewrite T1, T2. auto 10.
  - right. destruct (bind_ok _ _ _ H) as ([r f] & ER & H0). clear H. apply recirc_ok in ER. destruct ER as [ER EFl].
    cbn [fst snd] in H0. unfold fs_swing in H0. destruct (bind_ok _ _ _ H0) as (w0 & EW & H1). clear H0.
    destruct (swing_size _ _ _ _ _ _ _) as [[w b1] out] eqn:ES. destruct (bind_ok _ _ _ H1) as ([] & -> & H2). clear H1.
    destruct (dh_min_cap (sw_dhw w)) as [c|] eqn:A; [|discriminate]. destruct (dh_min_stor (sw_dhw w)) as [v|] eqn:B; [|discriminate].
    destruct (sw_tm_vol w) as [tv|] eqn:TV; [|discriminate]. apply ok_inj in H2. apply pair_equal_spec in H2. destruct H2 as [<- <-].
    exists c, v, [wh_new (Some (PmNominal c)) (Some sched) (Some m)]. cbn [sys_dhw]. split; [exact A|]. split; [exact B|].
    split; [eexists; repeat split; reflexivity|]. split; [|discriminate]. split; [exact EK|]. exists r, f, tv, (sw_tm_cap w). auto.
  - right. destruct (bind_ok _ _ _ H) as ([r f] & ER & H0). clear H. apply recirc_ok in ER. destruct ER as [ER EFl].
    cbn [fst snd] in H0. unfold fs_sprtp, sprtp_size in H0. destruct (dhw_size _ _ _ _ _ _ _ _) as [[d b1] out] eqn:ES.
    destruct (bind_ok _ _ _ H0) as (rc & ERC & H1). clear H0. destruct (bind_ok _ _ _ ERC) as (w & -> & _). clear ERC.
    destruct (bind_ok _ _ _ H1) as (x & EP & H2). apply ok_inj in H2. apply pair_equal_spec in H2. destruct H2 as [<- <-].
    destruct (parts_inv _ _ _ _ _ EP) as (c & v & A & B & ->). destruct (size_temps _ _ _ _ _ _ _ _ _ _ _ ES) as (T1 & T2 & _). cbn in T1, T2.
    exists c, v, [wh_new (Some (PmNominal c)) (Some sched) (Some m)]. cbn [sys_dhw]. split; [exact A|]. split; [exact B|].
    split; [eexists; repeat split; reflexivity|]. split; [|discriminate]. split; [exact EK|]. split; [exact ER|]. split; [exact EFl|].
    unfold base_parts. rewrite T1, T2. reflexivity.
  - right. destruct (bind_ok _ _ _ H) as ([r f] & ER & H0). clear H. apply recirc_ok in ER. destruct ER as [ER EFl]. cbn [fst snd] in H0.
    destruct (mp_from_size _ _ _ _ _ _ _ _ _ _ _ _ _ _) as [b1 out] eqn:ES. destruct (bind_ok _ _ _ H0) as (x & -> & H1). clear H0.
    apply ok_inj in H1. apply pair_equal_spec in H1. destruct H1 as [<- <-]. unfold mp_from_size in ES.
    destruct (negb (sensors_ok _ _)); [apply pair_equal_spec in ES; destruct ES; discriminate|].
    destruct (mp_size _ _ _ _ _ _ _) as [[s0 b2] o2] eqn:EM. apply pair_equal_spec in ES. destruct ES as [<- ES].
    destruct (bind_ok _ _ _ ES) as ([] & -> & H1). clear ES. destruct (bind_ok _ _ _ H1) as (cold & _ & ES). clear H1.
    destruct (dh_min_cap s0) as [cap|] eqn:A; [|discriminate]. destruct (dh_min_stor s0) as [vol|] eqn:B; [|discriminate]. cbv zeta in ES.
    destruct (bind_ok _ _ _ ES) as (di & _ & H1). clear ES. destruct (bind_ok _ _ _ H1) as (c & _ & ES). clear H1.
    destruct (bind_ok _ _ _ ES) as ([s1 cap'] & EB & H1). clear ES. apply ok_inj in H1. subst x.
    assert (B0 : boosted vol cap (mkMsys [wh_new (Some (PmNominal cap)) (Some sched) (Some m)] (sl_new vol cold (ep_storage p) (ep_supply p) 1 (8 # 10))
                   (ep_supply p) (ep_storage p) r f)) by (split; [reflexivity|eexists; split; reflexivity]).
    assert (BA : by_all (Some sched) (Some m) [wh_new (Some (PmNominal cap)) (Some sched) (Some m)]) by (constructor; [split; reflexivity|constructor]).
    destruct (boost_loop_boosted _ _ _ _ _ _ _ _ _ _ _ _ _ B0 EB) as ((B1 & h & B2 & B3) & L & T1 & T2 & T3 & T4).
    pose proof (boost_by _ _ _ _ _ _ _ _ _ _ _ _ (BA : by_all _ _ (ms_heaters (mkMsys _ (sl_new vol cold (ep_storage p) (ep_supply p) 1 (8 # 10))
                   (ep_supply p) (ep_storage p) r f))) EB) as BS. rewrite B2 in BS. inversion BS as [|h' l' [S1 S2] _]; subst h' l'.
    exists cap', vol, [h]. cbn [sys_dhw mb_dhw mb_sys dh_min_cap dh_min_stor fst snd]. split; [reflexivity|]. split; [reflexivity|].
    split; [exists h; auto|]. split; [|discriminate]. split; [exact EK|]. exists r, f. cbn [mb_sys fst]. cbn in T1, T2, T3, T4. auto 12.
  - left. unfold fs_instant in H. destruct (bind_ok _ _ _ H) as (d & ED & H1). apply ok_inj in H1. apply pair_equal_spec in H1. destruct H1 as [<- <-].
    exists d. split; [reflexivity|]. split; [exact EK|]. unfold instant_size in ED. destruct (bind_ok _ _ _ ED) as (inl & _ & E1). destruct (bind_ok _ _ _ E1) as (mx & _ & E2).
    destruct (bind_ok _ _ _ E2) as (x & _ & E3). apply ok_inj in E3. subst d. auto.
Qed.

Lemma heaters_by dt p b sched m hs : eng_heaters dt p b sched m = Ok hs -> by_all (Some sched) (Some m) hs.
Proof.
  unfold eng_heaters. destruct (ep_model p) as [name|].
  - intro H. destruct (bind_ok _ _ _ H) as (di & _ & H1). destruct (bind_ok _ _ _ H1) as (pm & _ & H2). apply ok_inj in H2. subst hs. constructor; [split; reflexivity|constructor].
  - destruct (ep_capacity p); [|discriminate]. intro H. destruct (bind_ok _ _ _ H) as (x & _ & H1). apply ok_inj in H1. subst hs.
    apply Forall_forall. intros h I. apply repeat_spec in I. subst h. split; reflexivity.
Qed.

Lemma presized_inv dt p b vol b' s : eng_presized dt p b vol = Ok (b', s) ->
  exists sched m hs, eng_controls p = Ok (sched, m) /\ eng_heaters dt p b sched m = Ok hs /\ assembled p b' hs vol s /\ b' = b /\
    dh_min_cap (sys_dhw s) = None /\ dh_min_stor (sys_dhw s) = None.
Proof.
  unfold eng_presized. intro H. destruct (bind_ok _ _ _ H) as ([sched m] & EC & H1). clear H. destruct (bind_ok _ _ _ H1) as (hs & EH & H). clear H1.
  exists sched, m, hs. split; [exact EC|]. split; [exact EH|]. cbv zeta in H. destruct (kind_of (ep_schematic p)) as [[]|] eqn:EK; [| | | | | |discriminate].
  - apply ok_inj in H. apply pair_equal_spec in H. destruct H as [<- <-]. repeat split; try reflexivity. exact EK.
  - destruct (bind_ok _ _ _ H) as ([r f] & ER & H0). clear H. apply recirc_ok in ER. destruct ER as [ER EFl].
    destruct (bind_ok _ _ _ H0) as (tv & _ & H1). clear H0. destruct (bind_ok _ _ _ H1) as (th & _ & H2). clear H1.
    apply ok_inj in H2. apply pair_equal_spec in H2. destruct H2 as [<- <-].
    split; [|auto]. split; [exact EK|]. exists r, f. cbn. auto 10.
  - destruct (bind_ok _ _ _ H) as ([r f] & ER & H0). clear H. apply recirc_ok in ER. destruct ER as [ER EFl].
    destruct (bind_ok _ _ _ H0) as (tv & _ & H1). clear H0. destruct (bind_ok _ _ _ H1) as (w & EW & H2). clear H1.
    apply ok_inj in H2. apply pair_equal_spec in H2. destruct H2 as [<- <-].
    unfold sw_new in EW. destruct (Qle_bool _ _); [discriminate|]. apply ok_inj in EW. subst w.
    split; [|auto]. split; [exact EK|]. exists r, f, tv, (ep_tm_capacity p). cbn. auto 10.
  - destruct (bind_ok _ _ _ H) as ([r f] & ER & H0). clear H. apply recirc_ok in ER. destruct ER as [ER EFl].
    apply ok_inj in H0. apply pair_equal_spec in H0. destruct H0 as [<- <-]. split; [|auto]. cbn. auto 10.
  - destruct (bind_ok _ _ _ H) as ([r f] & ER & H0). clear H. apply recirc_ok in ER. destruct ER as [ER EFl].
    destruct (bind_ok _ _ _ H0) as (di & _ & H1). clear H0.
    apply ok_inj in H1. apply pair_equal_spec in H1. destruct H1 as [<- <-]. split; [|auto]. split; [exact EK|]. exists r, f. cbn. auto 12.
  - apply ok_inj in H. apply pair_equal_spec in H. destruct H as [<- <-]. split; [|auto]. cbn. auto.
Qed.

(** An engine that was constructed. *)
Lemma new_inv dt p e : eng_new dt p = Ok e ->
  exists b sched m, eng_building dt p = Ok b /\ eng_controls p = Ok (sched, m) /\
    ((exists vol hs, ep_volume p = Some vol /\ eng_heaters dt p b sched m = Ok hs /\ assembled p (en_building e) hs vol (en_system e) /\
        en_building e = b /\ dh_min_cap (sys_dhw (en_system e)) = None /\ dh_min_stor (sys_dhw (en_system e)) = None /\ eng_presized dt p b vol = Ok (b, en_system e)) \/
     ep_volume p = None /\ eng_sized dt p b = Ok (en_building e, en_system e) /\
     ((exists d, en_system e = EInstant d /\ assembled p (en_building e) [] 0 (en_system e)) \/
      exists c v hs, dh_min_cap (sys_dhw (en_system e)) = Some c /\ dh_min_stor (sys_dhw (en_system e)) = Some v /\
        sized_heater c sched m hs /\ assembled p (en_building e) hs v (en_system e) /\ type_of (en_system e) <> InstantWH)).
Proof.
  unfold eng_new. intro H. destruct (bind_ok _ _ _ H) as (b & EB & H1). clear H. destruct (bind_ok _ _ _ H1) as ([b' s] & ES & H). clear H1.
  apply ok_inj in H. subst e. cbn [en_building en_system fst snd]. destruct (ep_volume p) as [vol|].
  - destruct (presized_inv _ _ _ _ _ _ ES) as (sched & m & hs & A & B & C & D & E & F). exists b, sched, m. split; [exact EB|]. split; [exact A|]. left.
    exists vol, hs. subst b'. auto 10.
  - destruct (sized_inv _ _ _ _ _ ES) as (sched & m & A & C). exists b, sched, m. split; [exact EB|]. split; [exact A|]. right. auto.
Qed.

Lemma assembled_type p b hs vol s : assembled p b hs vol s -> In (ep_schematic p, type_of s) documented.
Proof. destruct s; cbn; intros [K _]; exact (kind_type _ _ K). Qed.

Lemma assembled_parts p b hs vol s : assembled p b hs vol s -> temperatures s = (ep_supply p, ep_storage p) /\
  (type_of s <> InstantWH -> primary_heaters s = hs /\ primary_volume s = Some vol) /\
  (recirculates (type_of s) -> exists r f, ep_return p = Some r /\ ep_flow p = Some f /\ loop s = Some (r, f)).
Proof.
  destruct s; cbn.
  - intros [_ ->]. cbn. split; [reflexivity|]. split; [auto|]. intros [N _]. contradiction.
  - intros (_ & r & f & A & B & C & D & E & _). rewrite C. cbn. split; [reflexivity|]. split; [auto|]. intros _. exists r, f. rewrite D, E. auto.
  - intros (_ & r & f & tv & tc & A & B & ->). cbn. split; [reflexivity|]. split; [auto|]. intros _. exists r, f. auto.
  - intros (_ & A & B & ->). cbn. split; [reflexivity|]. split; [auto|]. intros _. exists ret, flow. auto.
  - intros (_ & r & f & A & B & C & D & E & F & G & H). rewrite C, D, E, F, G, H. split; [reflexivity|]. split; [auto|]. intros _. exists r, f. auto.
  - intros (_ & A & B & _). rewrite A, B. split; [reflexivity|]. split; [contradiction|]. intros [_ N]. contradiction.
Qed.

Lemma engine_assembled dt p e : eng_new dt p = Ok e -> exists hs vol, assembled p (en_building e) hs vol (en_system e).
Proof.
  intro H. destruct (new_inv _ _ _ H) as (b & sched & m & _ & _ & [(vol & hs & _ & _ & A & _)|(_ & _ & [(d & E & A)|(c & v & hs & _ & _ & _ & A & _)])]); eauto.
Qed.

Lemma engine_heaters dt p e : eng_new dt p = Ok e ->
  exists sched m, eng_controls p = Ok (sched, m) /\
    Forall (fun h => wh_schedule h = Some sched /\ wh_map h = Some m) (primary_heaters (en_system e)).
Proof.
  intro H. destruct (new_inv _ _ _ H) as (b & sched & m & _ & EC & C). exists sched, m. split; [exact EC|].
  assert (D : type_of (en_system e) = InstantWH \/ type_of (en_system e) <> InstantWH) by (destruct (en_system e); cbn; auto; right; discriminate).
  destruct D as [D|D]; [destruct (en_system e); try discriminate; constructor|].
  destruct C as [(vol & hs & _ & EH & A & _)|(_ & _ & [(d & E & A)|(c & v & hs & _ & _ & (h & -> & _ & S1 & S2) & A & _)])].
  - destruct (assembled_parts _ _ _ _ _ A) as (_ & P & _). destruct (P D) as [-> _]. exact (heaters_by _ _ _ _ _ _ EH).
  - rewrite E in D. cbn in D. contradiction.
  - destruct (assembled_parts _ _ _ _ _ A) as (_ & P & _). destruct (P D) as [-> _]. constructor; [auto|constructor].
Qed.
