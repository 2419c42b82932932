(** Inversion of swing-tank sizing and the tank-size table. *)
From Verif Require Import Prelude M_StratifiedTank M_Building M_Heater M_Sizing S_Sizing L_Building L_Sizing L_Sizing2 L_Sizing3 L_Sizing4 M_Swing S_Swing L_Swing L_Swing2 L_Swing3.
Open Scope Q_scope.

Lemma no_ls sched m : no_load_shift sched m -> ls_active sched m = false.
Proof.
  intros [->|H]; [reflexivity|]. unfold ls_active. destruct sched as [[|k l]|]; try reflexivity.
  unfold is_load_shifting. destruct m as [d|]; [|reflexivity]. unfold dict_has. rewrite (H d eq_refl). reflexivity.
Qed.
Lemma cap_run_no_ls s sched m : ls_active sched m = false -> cap_run s sched m = s.
Proof. intro H. unfold cap_run. destruct sched; [rewrite H|]; reflexivity. Qed.

(** ** size_tm *)
Lemma table_pick_spec table x v : table_pick table x = Ok v ->
  (exists z, In z table /\ v = qz z) /\ x <= v /\ forall z, In z table -> x <= qz z -> v <= qz z.
Proof.
  unfold table_pick. intro H. apply py_min_le in H. destruct H as [I M].
  apply filter_In in I. destruct I as [I L]. apply in_map_iff in I. destruct I as (z & <- & Z). qbool.
  split; [exists z; auto|]. split; [exact L|]. intros y Y LY. apply M. apply filter_In. split; [apply in_map; exact Y|apply qleb_true; exact LY].
Qed.
Lemma table_pick_total table x : (exists z, In z table /\ x <= qz z) -> exists v, table_pick table x = Ok v.
Proof.
  intros (z & Z & L). unfold table_pick.
  assert (I : In (qz z) (filter (fun v => Qle_bool x v) (map qz table))).
  { apply filter_In. split; [apply in_map; exact Z|apply qleb_true; exact L]. }
  destruct (filter _ _) as [|a l]; [destruct I|]. cbn. eexists. reflexivity.
Qed.

Definition required (s : swing) (b : building) (v : Q) : Prop := tm_vol_required s b = Ok v.

Lemma size_tm_inv s b s1 : size_tm s b = Ok s1 ->
  exists v vol ca, tm_vol_required s b = Ok v /\ v <= 1250 /\ table_pick swing_table v = Ok vol /\
    (if qltb vol 480 then table_pick swing_table_ca v else Ok 480) = Ok ca /\
    s1 = sw_set_tm s vol ca (sw_safety s * (sw_loss s * 1000) / 1000).
Proof.
  unfold size_tm. intro H. apply bind_ok in H. destruct H as (v & V & H).
  destruct (qltb 1250 v) eqn:Q; [discriminate|]. qbool.
  apply bind_ok in H. destruct H as (vol & P & H). apply bind_ok in H. destruct H as (ca & C & H). apply ok_inj in H.
  exists v, vol, ca. auto.
Qed.
Lemma size_tm_total s b v : tm_vol_required s b = Ok v -> v <= 1250 -> exists s1, size_tm s b = Ok s1.
Proof.
  intros V L. unfold size_tm. rewrite V. cbn [bind]. destruct (qltb 1250 v) eqn:Q; qbool; [lra|].
  destruct (table_pick_total swing_table v) as (vol & P); [exists 1250%Z; split; [cbn; tauto|exact L]|].
  rewrite P. cbn [bind]. destruct (qltb vol 480) eqn:Q2; qbool.
  - apply table_pick_spec in P. destruct P as (_ & P & _).
    destruct (table_pick_total swing_table_ca v) as (ca & C).
    { exists 480%Z. split; [cbn; tauto|]. change (qz 480) with 480. lra. }
    rewrite C. cbn [bind]. eexists. reflexivity.
  - cbn [bind]. eexists. reflexivity.
Qed.

Lemma required_spec s b v : tm_vol_required s b = Ok v ->
  sw_loss s * 1000 / (100 * w_to_kbtuh) <= v /\
  (0 <= bd_daily b -> forall x, In x (bd_peak b) -> bd_daily b * x / 60 <= v) /\
  (v == sw_loss s * 1000 / (100 * w_to_kbtuh) \/ exists x, In x (bd_peak b) /\ v == bd_daily b * x / 60).
Proof.
  unfold tm_vol_required, shape_max. destruct (bd_peak b) as [|x r]; cbn [bind]; [discriminate|]. intro H. apply ok_inj in H. subst v.
  fold watts_per_gal. set (a := sw_loss s * 1000 / (watts_per_gal * w_to_kbtuh)). clearbody a.
  pose proof (qmax_l a (bd_daily b * qmaxl x r / 60)) as M1. pose proof (qmax_r a (bd_daily b * qmaxl x r / 60)) as M2.
  split; [exact M1|]. split.
  - intros D y Y. eapply Qle_trans; [|exact M2].
    assert (L : y <= qmaxl x r) by (destruct (qmaxl_ge x r) as [A B]; destruct Y as [<-|Y]; auto).
    unfold Qdiv. apply Qmult_le_compat_r; [|discriminate]. rewrite (Qmult_comm _ y), (Qmult_comm _ (qmaxl x r)).
    apply Qmult_le_compat_r; assumption.
  - destruct (qmax_spec a (bd_daily b * qmaxl x r / 60)) as [[_ E]|[_ E]]; rewrite E; [right|left; reflexivity].
    exists (qmaxl x r). split; [|reflexivity]. destruct (qmaxl_in x r) as [->|I]; [left; reflexivity|right; exact I].
Qed.

(** ** size *)
Lemma swing_size_inv lib s b sched m slope fract s' b' w :
  swing_size lib s b sched m slope fract = (s', b', Ok w) ->
  exists b1 inlet s1 mo rv f stor cap,
    (if bd_is_annual b then bd_set_daily lib b else Ok b) = Ok b1 /\ design_inlet b1 = Ok inlet /\
    size_tm (sw_set_dhw s (cap_run (sw_dhw s) sched m)) b1 = Ok s1 /\
    swing_running (sw_set_mix s1 1) b1 = Ok (mo, rv) /\
    strat_factor (sw_dhw s1) m slope inlet = Ok f /\ storage_volume rv f = Ok stor /\
    swing_capacity (apply_mix (sw_set_mix s1 1) mo) b1 = Ok cap /\
    exists cap' stor' mix',
      s' = mkSwing (mkDhw (dh_supply (sw_dhw s)) (dh_storage (sw_dhw s)) (dh_run (sw_dhw s)) (dh_defrost (sw_dhw s)) (Some cap') (Some stor') (Some slope))
             (sw_return s) (sw_flow s) (sw_safety s) mix' (sw_tm_vol s1) (sw_tm_ca s1) (sw_tm_cap s1) /\
      ((ls_active sched m = false /\ cap' = cap /\ stor' = stor /\ mix' = sw_eff_mix (apply_mix (sw_set_mix s1 1) mo)) \/
       (exists sc d g lcap lrv lmix lstor, sched = Some sc /\ m = Some d /\ ls_active sched m = true /\
          swing_gen_ls (apply_mix (sw_set_mix s1 1) mo) sc d b1 slope fract = Ok g /\
          swing_capacity_of (apply_mix (sw_set_mix s1 1) mo) b1 (Ok g) = Ok lcap /\
          swing_running_ls (apply_mix (sw_set_mix s1 1) mo) sc b1 g fract = Ok (lrv, lmix) /\
          storage_volume_ls (sw_dhw s1) lrv d slope inlet = Ok lstor /\
          cap' = qmax cap lcap /\ stor' = (if qltb stor lstor then lstor else stor) /\
          mix' = (if qltb stor lstor then lmix else sw_eff_mix (apply_mix (sw_set_mix s1 1) mo)))).
Proof.
  unfold swing_size. destruct (if bd_is_annual b then bd_set_daily lib b else Ok b) as [b1|e] eqn:E1; [|discriminate].
  set (s0 := sw_set_dhw s (cap_run (sw_dhw s) sched m)).
  destruct (swing_size_try s0 b1 sched m slope fract) as [s2 out] eqn:ET. intro H.
  assert (HO : out = Ok tt /\ s' = sw_set_run s2 (dh_run (sw_dhw s))).
  { destruct out as [[]|e]; [|discriminate]. split; [reflexivity|].
    destruct (bd_is_annual b); [destruct (bd_set_annual lib b1); [|discriminate]|]; congruence. }
  destruct HO as [-> ->]. clear H. unfold swing_size_try in ET.
  destruct (design_inlet b1) as [inlet|e] eqn:E2; [|discriminate].
  destruct (size_tm s0 b1) as [s1|e] eqn:E3; [|discriminate].
  destruct (swing_running (sw_set_mix s1 1) b1) as [[mo rv]|e] eqn:E4; [|discriminate].
  set (s3 := apply_mix (sw_set_mix s1 1) mo) in *.
  assert (D3 : sw_dhw s3 = sw_dhw s1) by (unfold s3; destruct mo; reflexivity).
  assert (T3 : sw_tm_vol s3 = sw_tm_vol s1 /\ sw_tm_ca s3 = sw_tm_ca s1 /\ sw_tm_cap s3 = sw_tm_cap s1) by (unfold s3; destruct mo; repeat split; reflexivity).
  assert (D1 : sw_dhw s1 = cap_run (sw_dhw s) sched m /\ sw_return s1 = sw_return s /\ sw_flow s1 = sw_flow s /\ sw_safety s1 = sw_safety s).
  { destruct (size_tm_inv _ _ _ E3) as (? & ? & ? & _ & _ & _ & _ & ->). repeat split; reflexivity. }
  assert (R3 : sw_return s3 = sw_return s /\ sw_flow s3 = sw_flow s /\ sw_safety s3 = sw_safety s).
  { destruct D1 as (_ & <- & <- & <-). unfold s3. destruct mo; repeat split; reflexivity. }
  destruct (bind _ _) as [s4|e] eqn:E5 in ET; [|discriminate]. inversion ET; subst s4. clear ET.
  apply bind_ok in E5. destruct E5 as (f & F & E5). apply bind_ok in E5. destruct E5 as (stor & ST & E5).
  apply bind_ok in E5. destruct E5 as (cap & C & E5). rewrite D3 in F.
  exists b1, inlet, s1, mo, rv, f, stor, cap. split; [reflexivity|]. split; [exact E2|]. split; [exact E3|].
  split; [exact E4|]. split; [exact F|]. split; [exact ST|]. split; [exact C|]. fold s3 in C.
  destruct (cap_run_fields (sw_dhw s) sched m) as (CF1 & CF2 & CF3).
  destruct D1 as (D1 & _). destruct R3 as (R31 & R32 & R33). destruct T3 as (T31 & T32 & T33).
  assert (FIN : forall st' m', sw_set_run (mkSwing (dh_set_results (sw_dhw s3) (fst st') (snd st') slope) (sw_return s3) (sw_flow s3) (sw_safety s3) m' (sw_tm_vol s3) (sw_tm_ca s3) (sw_tm_cap s3)) (dh_run (sw_dhw s)) =
     mkSwing (mkDhw (dh_supply (sw_dhw s)) (dh_storage (sw_dhw s)) (dh_run (sw_dhw s)) (dh_defrost (sw_dhw s)) (Some (fst st')) (Some (snd st')) (Some slope))
             (sw_return s) (sw_flow s) (sw_safety s) m' (sw_tm_vol s1) (sw_tm_ca s1) (sw_tm_cap s1)).
  { intros [a1 a2] m'. unfold sw_set_run, sw_set_dhw, dh_set_run, dh_set_results. cbn [sw_dhw sw_return sw_flow sw_safety sw_eff_mix sw_tm_vol sw_tm_ca sw_tm_cap dh_supply dh_storage dh_defrost dh_min_cap dh_min_stor dh_slope fst snd].
    rewrite D3, D1, CF1, CF2, CF3, R31, R32, R33, T31, T32, T33. reflexivity. }
  assert (PLAIN : s2 = sw_set_dhw s3 (dh_set_results (sw_dhw s3) cap stor slope) -> ls_active sched m = false ->
    exists cap' stor' mix',
      sw_set_run s2 (dh_run (sw_dhw s)) = mkSwing (mkDhw (dh_supply (sw_dhw s)) (dh_storage (sw_dhw s)) (dh_run (sw_dhw s)) (dh_defrost (sw_dhw s)) (Some cap') (Some stor') (Some slope))
             (sw_return s) (sw_flow s) (sw_safety s) mix' (sw_tm_vol s1) (sw_tm_ca s1) (sw_tm_cap s1) /\
      ls_active sched m = false /\ cap' = cap /\ stor' = stor /\ mix' = sw_eff_mix s3).
  { intros -> LS. exists cap, stor, (sw_eff_mix s3). split; [apply (FIN (cap, stor))|auto]. }
  assert (NOLS : s2 = sw_set_dhw s3 (dh_set_results (sw_dhw s3) cap stor slope) -> ls_active sched m = false -> 
    exists cap' stor' mix',
      sw_set_run s2 (dh_run (sw_dhw s)) = mkSwing (mkDhw (dh_supply (sw_dhw s)) (dh_storage (sw_dhw s)) (dh_run (sw_dhw s)) (dh_defrost (sw_dhw s)) (Some cap') (Some stor') (Some slope))
             (sw_return s) (sw_flow s) (sw_safety s) mix' (sw_tm_vol s1) (sw_tm_ca s1) (sw_tm_cap s1) /\
      ((ls_active sched m = false /\ cap' = cap /\ stor' = stor /\ mix' = sw_eff_mix s3) \/
       (exists sc d g lcap lrv lmix lstor, sched = Some sc /\ m = Some d /\ ls_active sched m = true /\
          swing_gen_ls s3 sc d b1 slope fract = Ok g /\
          swing_capacity_of s3 b1 (Ok g) = Ok lcap /\
          swing_running_ls s3 sc b1 g fract = Ok (lrv, lmix) /\
          storage_volume_ls (sw_dhw s1) lrv d slope inlet = Ok lstor /\
          cap' = qmax cap lcap /\ stor' = (if qltb stor lstor then lstor else stor) /\
          mix' = (if qltb stor lstor then lmix else sw_eff_mix s3)))).
  { intros A B. destruct (PLAIN A B) as (x & y & z & P & Q). exists x, y, z. split; [exact P|]. left. exact Q. }
  destruct sched as [sc|]; [|apply NOLS; [apply ok_inj in E5; congruence|reflexivity]].
  destruct m as [d|]; [|apply NOLS; [apply ok_inj in E5; congruence|unfold ls_active; destruct sc; reflexivity]].
  destruct (ls_active (Some sc) (Some d)) eqn:LS; [|apply NOLS; [apply ok_inj in E5; congruence|reflexivity]].
  clear NOLS PLAIN. unfold swing_size_ls in E5.
  apply bind_ok in E5. destruct E5 as (g & G & E5). rewrite G in E5.
  apply bind_ok in E5. destruct E5 as (lcap & LC & E5). apply bind_ok in E5. destruct E5 as ([lrv lmix] & LR & E5).
  apply bind_ok in E5. destruct E5 as (lstor & LT & E5). rewrite D3 in LT.
  destruct (qltb stor lstor) eqn:QQ; apply ok_inj in E5; subst s2.
  - exists (qmax cap lcap), lstor, lmix. split; [apply (FIN (qmax cap lcap, lstor))|]. right.
    exists sc, d, g, lcap, lrv, lmix, lstor. rewrite QQ. repeat (split; [first [reflexivity|assumption]|]). reflexivity.
  - exists (qmax cap lcap), stor, (sw_eff_mix s3). split; [apply (FIN (qmax cap lcap, stor))|]. right.
    exists sc, d, g, lcap, lrv, lmix, lstor. rewrite QQ. repeat (split; [first [reflexivity|assumption]|]). reflexivity.
Qed.
