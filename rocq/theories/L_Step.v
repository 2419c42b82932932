(** Lemmas about simulated steps. *)
From Verif Require Import Prelude M_StratifiedTank S_StratifiedTank L_StratifiedTank L_StratifiedTank2 L_StratifiedTank3
  M_MixedTank M_Building L_Building M_Heater S_Heater L_Heater M_Sizing M_SimRun S_SimRun L_SimRun L_SimMisc L_Sizing3 M_Step S_Step.
Open Scope Q_scope.

Lemma mapM_forall2 {A B} (f : A -> res B) : forall l r, mapM f l = Ok r -> Forall2 (fun x y => f x = Ok y) l r.
Proof.
  induction l as [|a l IH]; intros r H; cbn [mapM] in H.
  - apply ok_inj in H. subst r. constructor.
  - destruct (bind_ok _ _ _ H) as (y & Ey & H1). destruct (bind_ok _ _ _ H1) as (ys & Eys & H2).
    apply ok_inj in H2. subst r. constructor; [exact Ey|apply IH; exact Eys].
Qed.

Lemma hour_of_spec t iv : in_hour t iv (hour_of t iv).
Proof.
  unfold in_hour, hour_of. pose proof (Z.mod_pos_bound (t * iv / 60) 24 ltac:(lia)) as B.
  split; [exact B|]. exists (t * iv / 60 / 24)%Z.
  pose proof (Z.div_mod (t * iv / 60) 24 ltac:(lia)) as D. pose proof (Z.div_mod (t * iv) 60 ltac:(lia)) as E.
  pose proof (Z.mod_pos_bound (t * iv) 60 ltac:(lia)) as F. lia.
Qed.
Lemma in_hour_unique t iv h h' : in_hour t iv h -> in_hour t iv h' -> h = h'.
Proof. intros (A & d & B) (A' & d' & B'). lia. Qed.
Lemma in_hour_eq t iv h : in_hour t iv h -> h = hour_of t iv.
Proof. intro H. eapply in_hour_unique; [exact H|apply hour_of_spec]. Qed.

Lemma hour_of_range t iv : (0 <= hour_of t iv < 24)%Z.
Proof. apply (hour_of_spec t iv). Qed.

Lemma outlet_for_spec hs storage hour x : (0 <= hour)%Z -> outlet_for hs storage hour = Ok x -> setpoint hs storage hour x.
Proof.
  intros Hh H. unfold outlet_for in H. destruct (bind_ok _ _ _ H) as (cs & Ec & H1). clear H.
  pose proof (mapM_forall2 _ _ _ Ec) as F. clear Ec.
  assert (IN : forall c, In c (somes cs) <-> exists h, In h hs /\ in_effect h hour c).
  { clear H1. induction F as [|h o hs cs E F IH]; intro c.
    - cbn. split; [tauto|]. intros (h & [] & _).
    - destruct o as [c0|]; cbn [somes].
      + split.
        * intros [<-|I]; [exists h; split; [left; reflexivity|apply in_effect_iff; [exact Hh|exact E]]|].
          apply IH in I. destruct I as (h' & I & J). exists h'. split; [right; exact I|exact J].
        * intros (h' & [<-|I] & J); [left; apply in_effect_iff in J; [congruence|exact Hh]|]. right. apply IH. exists h'. auto.
      + rewrite IH. split; intros (h' & I & J); exists h'; (split; [|exact J]).
        * right. exact I.
        * destruct I as [<-|I]; [apply in_effect_iff in J; [congruence|exact Hh]|exact I]. }
  destruct (somes cs) as [|c0 l] eqn:E; cbn [map] in H1; apply ok_inj in H1; subst x.
  - left. split; [|reflexivity]. intros h c I J. apply (IN c). exists h. auto.
  - right. pose proof (qmaxl_ge (ct_outlet c0) (map ct_outlet l)) as [G1 G2].
    split.
    + destruct (qmaxl_in (ct_outlet c0) (map ct_outlet l)) as [Q|Q].
      * destruct (proj1 (IN c0) (or_introl eq_refl)) as (h & I & J). exists h, c0. rewrite Q. auto.
      * apply in_map_iff in Q. destruct Q as (c & Q & I0). destruct (proj1 (IN c) (or_intror I0)) as (h & I & J). exists h, c. auto.
    + intros h c I J. destruct (proj2 (IN c) (ex_intro _ h (conj I J))) as [<-|K]; [exact G1|apply G2; apply in_map; exact K].
Qed.

Lemma setpoint_same hs hs' storage hour x : Forall2 same_heater hs hs' -> setpoint hs storage hour x -> setpoint hs' storage hour x.
Proof.
  intros F H.
  assert (A : forall h' c, In h' hs' -> in_effect h' hour c -> exists h, In h hs /\ in_effect h hour c).
  { intros h' c I J. clear H. induction F as [|h h1 hs hs' S F IH]; [destruct I|]. destruct I as [<-|I].
    - exists h. split; [left; reflexivity|]. destruct S as (_ & S1 & S2). apply (in_effect_same h h1 hour c S1 S2). exact J.
    - destruct (IH I) as (h0 & I0 & J0). exists h0. split; [right; exact I0|exact J0]. }
  assert (B : forall h c, In h hs -> in_effect h hour c -> exists h', In h' hs' /\ in_effect h' hour c).
  { intros h c I J. clear H A. induction F as [|h0 h1 hs hs' S F IH]; [destruct I|]. destruct I as [<-|I].
    - exists h1. split; [left; reflexivity|]. destruct S as (_ & S1 & S2). apply (in_effect_same h0 h1 hour c S1 S2). exact J.
    - destruct (IH I) as (h2 & I0 & J0). exists h2. split; [right; exact I0|exact J0]. }
  destruct H as [[H1 H2]|[(h & c & I & J & E) H2]].
  - left. split; [|exact H2]. intros h' c I J. destruct (A h' c I J) as (h & I' & J'). exact (H1 h c I' J').
  - right. split.
    + destruct (B h c I J) as (h' & I' & J'). exists h', c. auto.
    + intros h' c' I' J'. destruct (A h' c' I' J') as (h0 & I0 & J0). exact (H2 h0 c' I0 J0).
Qed.

Lemma same_heater_refl h : same_heater h h. Proof. repeat split. Qed.
Lemma same_heater_trans a b c : same_heater a b -> same_heater b c -> same_heater a c.
Proof. intros (A1 & A2 & A3) (B1 & B2 & B3). repeat split; congruence. Qed.
Lemma same_heater_sym a b : same_heater a b -> same_heater b a.
Proof. intros (A1 & A2 & A3). repeat split; congruence. Qed.
Lemma same_all_refl hs : Forall2 same_heater hs hs.
Proof. induction hs; constructor; [apply same_heater_refl|assumption]. Qed.
Lemma same_all_trans : forall a b c, Forall2 same_heater a b -> Forall2 same_heater b c -> Forall2 same_heater a c.
Proof.
  intros a b c F. revert c. induction F as [|x y a b S F IH]; intros c G; inversion G; subst; constructor; [eapply same_heater_trans; eauto|auto].
Qed.
Lemma same_all_sym : forall a b, Forall2 same_heater a b -> Forall2 same_heater b a.
Proof. intros a b F. induction F; constructor; [apply same_heater_sym; assumption|assumption]. Qed.

Lemma dict_has_in {A} (d : list (string * A)) k : dict_has d k = true <-> In k (map fst d).
Proof.
  unfold dict_has. induction d as [|[k' v] d IH]; cbn; [split; [discriminate|tauto]|].
  destruct (String.eqb k k') eqn:E.
  - apply String.eqb_eq in E. subst. split; [auto|reflexivity].
  - apply String.eqb_neq in E. rewrite IH. split; [auto|]. intros [|]; [congruence|assumption].
Qed.

Lemma shifting_spec hs : existsb wh_load_shifting hs = true <-> shifting hs.
Proof.
  unfold shifting. rewrite existsb_exists. split.
  - intros (h & I & E). unfold wh_load_shifting in E. destruct (wh_map h) as [d|] eqn:M; [|discriminate].
    exists h, d. split; [exact I|]. split; [exact M|]. apply orb_true_iff in E. rewrite !dict_has_in in E. exact E.
  - intros (h & d & I & M & E). exists h. split; [exact I|]. unfold wh_load_shifting. rewrite M. apply orb_true_iff.
    rewrite !dict_has_in. exact E.
Qed.
Lemma shifting_same : forall hs hs', Forall2 same_heater hs hs' -> existsb wh_load_shifting hs' = existsb wh_load_shifting hs.
Proof.
  intros hs hs' F. induction F as [|h h' hs hs' (S1 & S2 & S3) F IH]; [reflexivity|]. cbn [existsb]. rewrite IH.
  f_equal. unfold wh_load_shifting. rewrite S3. reflexivity.
Qed.

Lemma aquastats_of hs hs' view hour : (0 <= hour)%Z ->
  mapM (fun h => wh_update h view hour) hs = Ok hs' -> aquastats hs hs' view hour.
Proof.
  intros Hh H. apply mapM_forall2 in H. induction H as [|h h' hs hs' E F IH]; constructor; [|exact IH].
  split; [destruct (wh_update_same _ _ _ _ E) as (A & B & C); repeat split; assumption|].
  exact (c30_step h view hour h' Hh E).
Qed.
Lemma aquastats_same hs hs' view hour : aquastats hs hs' view hour -> Forall2 same_heater hs hs'.
Proof. intro H. induction H as [|h h' hs hs' (S & _) F IH]; constructor; assumption. Qed.

Lemma total_output_spec hs oat inlet hour x : (0 <= hour)%Z -> total_output hs oat inlet hour = Ok x ->
  exists l, Forall2 (heater_gives oat inlet hour) hs l /\ x = qsum l.
Proof.
  intros Hh H. unfold total_output in H. destruct (bind_ok _ _ _ H) as (l & El & H1). apply ok_inj in H1. subst x.
  exists l. split; [|reflexivity]. apply mapM_forall2 in El. clear H. induction El as [|h y hs l E F IH]; constructor; [|exact IH].
  destruct (bind_ok _ _ _ E) as (o & Eo & E1). unfold wh_outlet_temp in Eo.
  destruct (bind_ok _ _ _ Eo) as ([c|] & Ec & E2); [|discriminate]. apply ok_inj in E2. subst o.
  exists c. split; [apply in_effect_iff; assumption|].
  unfold wh_output in E1. destruct (wh_active h) eqn:A; cbn [negb] in E1.
  - right. split; [reflexivity|]. destruct (bind_ok _ _ _ E1) as (cap & Ecap & E3). apply ok_inj in E3. subst y.
    exists cap. split; [exact Ecap|]. destruct cap; reflexivity.
  - left. split; [reflexivity|]. apply ok_inj in E1. congruence.
Qed.

(** *** One step of the base system *)
Lemma base_step_inv b s t iv s' o tk : bs_tank s = Some tk -> base_step b s t iv = Ok (s', o) ->
  exists outlet tk1 tk2 hs,
    bd_load b t iv (existsb wh_load_shifting (bs_heaters s)) = Ok (so_demand o) /\
    bd_oat b t iv = Ok (so_oat o) /\ bd_inlet b t iv = Ok (so_inlet o) /\
    outlet_for (bs_heaters s) (bs_storage s) (hour_of t iv) = Ok outlet /\
    mapM (fun h => wh_update h (st_temp tk) (hour_of t iv)) (bs_heaters s) = Ok hs /\
    total_output hs (so_oat o) (so_inlet o) (hour_of t iv) = Ok (so_output o) /\
    st_heat tk (so_output o) (qz iv) outlet = Ok tk1 /\
    st_draw tk1 (so_demand o) (so_inlet o) (bs_supply s) outlet = Ok tk2 /\
    st_usable tk2 (bs_supply s) = Ok (so_usable o) /\ six_temps tk2 = Ok (so_temps o) /\
    mode_for (bs_heaters s) (hour_of t iv) = Ok (so_mode o) /\
    so_delivery o = None /\ so_tm_kw o = None /\
    s' = mkBsys hs (Some tk2) (bs_supply s) (bs_storage s) /\
    (exists kws, active_powers hs (so_oat o) (so_inlet o) (hour_of t iv) = Ok kws /\ so_power o = total_kw kws).
Proof.
  intros ET H. unfold base_step in H.
  destruct (bind_ok _ _ _ H) as (d & Ed & H1). clear H. destruct (bind_ok _ _ _ H1) as (oa & Eo & H2). clear H1.
  destruct (bind_ok _ _ _ H2) as (i & Ei & H3). clear H2. cbv zeta in H3.
  destruct (bind_ok _ _ _ H3) as (out & Eout & H4). clear H3. destruct (bind_ok _ _ _ H4) as (m & Em & H5). clear H4.
  rewrite ET in H5.
  destruct (bind_ok _ _ _ H5) as (hs & Ehs & H6). clear H5. destruct (bind_ok _ _ _ H6) as (top & _ & H7). clear H6.
  destruct (bind_ok _ _ _ H7) as (q & Eq & H8). clear H7. destruct (bind_ok _ _ _ H8) as (kws & Ek & H9). clear H8.
  destruct (bind_ok _ _ _ H9) as (tk1 & E1 & H10). clear H9. destruct (bind_ok _ _ _ H10) as (tk2 & E2 & H11). clear H10.
  destruct (bind_ok _ _ _ H11) as (u & Eu & H12). clear H11. destruct (bind_ok _ _ _ H12) as (ts & Ets & H13). clear H12.
  apply ok_inj in H13. apply pair_equal_spec in H13. destruct H13 as [<- <-].
  exists out, tk1, tk2, hs. cbn [so_demand so_oat so_inlet so_output so_usable so_temps so_mode so_delivery so_tm_kw so_power].
  do 13 (split; [assumption || reflexivity|]). split; [reflexivity|]. exists kws. auto.
Qed.

Lemma six_temps_ok t : st_wf t -> six_temps t = Ok (map (tval t) six_heights).
Proof. intro W. unfold six_temps. apply mapM_ok_map. intros x _. apply st_temp_ok. exact W. Qed.

Lemma six_sorted t ts : st_wf t -> six_temps t = Ok ts -> length ts = 6%nat /\
  (forall i j x y, (i <= j)%nat -> nth_error ts i = Some x -> nth_error ts j = Some y -> x <= y) /\
  (forall x, In x ts -> exists f, x = tval t f) /\ last ts 0 = tval t 1.
Proof.
  intros W E. rewrite six_temps_ok in E by exact W. apply ok_inj in E. subst ts. split; [reflexivity|]. split; [|split].
  - intros i j x y L A B.
    assert (M : forall i j a c, (i <= j)%nat -> nth_error six_heights i = Some a -> nth_error six_heights j = Some c -> a <= c).
    { clear. intros i j a c L A B. unfold six_heights in *.
      assert (Hj : (j < 6)%nat) by (change 6%nat with (length [0; 2#10; 4#10; 6#10; 8#10; 1]); apply nth_error_Some; intro Z; unfold six_heights in B; cbn in *; congruence).
      assert (Hi : (i < 6)%nat) by lia.
      destruct i as [|[|[|[|[|[|i]]]]]]; [| | | | | |lia]; (destruct j as [|[|[|[|[|[|j]]]]]]; [| | | | | |lia]); try lia;
        cbn in A, B; injection A as <-; injection B as <-; vm_compute; discriminate. }
    rewrite nth_error_map in A, B.
    destruct (nth_error six_heights i) as [a|] eqn:Ea; [|discriminate]. destruct (nth_error six_heights j) as [c|] eqn:Ec; [|discriminate].
    cbn in A, B. inversion A. inversion B. apply tval_mono; [exact W|]. exact (M i j a c L Ea Ec).
  - intros x I. apply in_map_iff in I. destruct I as (f & E & _). exists f. congruence.
  - reflexivity.
Qed.

(** The tank after heating and drawing: same volume and gradient, new temperatures. *)
Lemma heat_draw t k d h v c s t1 t2 : st_wf t -> st_heat t k d h = Ok t1 -> st_draw t1 v c s h = Ok t2 ->
  st_wf t1 /\ st_wf t2 /\ st_vol t2 = st_vol t /\ st_slope t2 = st_slope t /\ st_inter t2 = st_inter t /\
  st_inlet t2 = c /\ st_outlet t2 = h.
Proof.
  intros W H1 H2.
  destruct (st_heat_shape t k d h W) as (x & E & A1 & A2 & A3 & A4 & A5 & _). rewrite E in H1. apply ok_inj in H1. subst x.
  assert (W1 : st_wf t1) by (unfold st_wf in *; rewrite A1, A2; exact W).
  destruct (st_step_ok t1 (SDraw v c s h) W1) as (x & E2 & B1 & B2 & B3 & B4). cbn [st_step inlet_of outlet_of upd] in *.
  rewrite E2 in H2. apply ok_inj in H2. subst x.
  assert (B5 : st_inter t2 = st_inter t1).
  { destruct (Qlt_le_dec c h) as [L|L]; [destruct (Qlt_le_dec 0 v) as [L'|L']|].
    - destruct (st_draw_shape t1 v c s h W1 L L') as (y & g & Ey & _ & ->). rewrite Ey in E2. apply ok_inj in E2. subst t2. reflexivity.
    - unfold st_draw in E2. replace (Qle_bool v 0) with true in E2 by (symmetry; apply qleb_true; lra).
      rewrite orb_true_r in E2. apply ok_inj in E2. subst t2. reflexivity.
    - unfold st_draw in E2. replace (Qle_bool h c) with true in E2 by (symmetry; apply qleb_true; lra).
      cbn [orb] in E2. apply ok_inj in E2. subst t2. reflexivity. }
  split; [exact W1|]. split; [unfold st_wf in *; rewrite B1, B2; exact W1|].
  split; [congruence|]. split; [congruence|]. split; [congruence|]. split; assumption.
Qed.

(** [topped s t]: the shift is at or above the level whose top is at temperature [s]. *)
Definition topped (s : Q) (t : strat) : Prop := floor_delta t s <= st_delta t.

Lemma topped_top s t : st_wf t -> topped s t -> s <= st_outlet t -> s <= tval t 1.
Proof.
  intros W H L. unfold topped in H. destruct W as [V1 V2].
  unfold tval. unfold floor_delta in H.
  assert (R : s <= st_slope t * (1 * 100 + st_delta t / st_vol t * 100) + st_inter t).
  { set (x := st_delta t / st_vol t). assert (E : st_delta t == x * st_vol t) by (unfold x; field; lra).
    set (y := (s - st_inter t) / st_slope t) in *. assert (F : s - st_inter t == y * st_slope t) by (unfold y; field; lra).
    assert (A : y - 100 <= x * 100).
    { apply Qmult_le_r with (z := st_vol t); [exact V1|].
      assert (E2 : (y - 100) * st_vol t == (y - 100) * st_vol t / 100 * 100) by field.
      rewrite E2. clear E2 F. clearbody x y. set (w := (y - 100) * st_vol t / 100) in *. clearbody w. lra. }
    clearbody x y. clear H. nra. }
  set (raw := st_slope t * (1 * 100 + st_delta t / st_vol t * 100) + st_inter t) in *. clearbody raw.
  qmm; lra.
Qed.
