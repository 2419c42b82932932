(** Any additive relation between what each heater gives and draws holds of each recorded step. *)
From Verif Require Import Prelude M_StratifiedTank S_StratifiedTank L_StratifiedTank L_StratifiedTank2 L_StratifiedTank3 M_MixedTank L_MixedTank M_Building L_Building M_Heater S_Heater L_Heater M_SimRun S_SimRun M_Step S_Step L_Step L_Step2 L_Step3 L_Step6 M_MPRTP M_Engine L_Audit S_Audit2 L_Audit3.
Open Scope Q_scope.

Section Related.
Variables (b : building) (iv : Z) (hs0 : list heater) (storage : Q) (Rel : Q -> Q -> Prop).
Hypothesis Rzero : Rel 0 0.
Hypothesis Radd : forall x w y v, Rel x w -> Rel y v -> Rel (x + y) (w + v).
Hypothesis Req : forall x y w v, x == y -> w == v -> Rel x w -> Rel y v.
Hypothesis Hctl : forall h hour c, In h hs0 -> in_effect h hour c -> ct_outlet c = storage.
Hypothesis Heff : forall h t oat inlet c, In h hs0 -> bd_oat b t iv = Ok oat -> bd_inlet b t iv = Ok inlet ->
  wh_capacity h (Some oat) storage (Some inlet) = Ok c -> exists w, wh_power h (Some oat) storage (Some inlet) = Ok w /\ Rel (or0 c) (or0 w).

Definition related (o : step_out) : Prop := Rel (so_output o) (or0 (so_power o)).

Lemma heaters_rel t oat inlet hour : (0 <= hour)%Z -> bd_oat b t iv = Ok oat -> bd_inlet b t iv = Ok inlet ->
  forall hsA hs, (forall h, In h hsA -> In h hs0) -> Forall2 same_heater hsA hs ->
  forall out kws, total_output hs oat inlet hour = Ok out -> active_powers hs oat inlet hour = Ok kws ->
  Rel out (qsum (map or0 kws)).
Proof.
  intros Hh EO EI hsA hs SUB F. induction F as [|h0 h hsA hs SM F IH]; intros out kws TO AP.
  - cbn in TO, AP. apply ok_inj in TO. apply ok_inj in AP. subst. exact Rzero.
  - unfold total_output in TO. destruct (bind_ok _ _ _ TO) as (l & El & E1). apply ok_inj in E1. subst out. cbn [mapM] in El.
    destruct (bind_ok _ _ _ El) as (x & Ex & E2). clear El. destruct (bind_ok _ _ _ E2) as (l' & El' & E3). clear E2. apply ok_inj in E3. subst l.
    destruct (bind_ok _ _ _ Ex) as (ot & Eot & Ew). clear Ex.
    assert (OT : ot = storage).
    { unfold wh_outlet_temp in Eot. destruct (bind_ok _ _ _ Eot) as ([c|] & Ec & E4); [|discriminate]. apply ok_inj in E4. subst ot.
      apply in_effect_iff in Ec; [|exact Hh]. destruct SM as (S1 & S2 & S3). apply (in_effect_same h0 h hour c S2 S3) in Ec.
      exact (Hctl h0 hour c (SUB h0 (or_introl eq_refl)) Ec). }
    subst ot. change (qsum (x :: l')) with (x + qsum l').
    unfold active_powers in AP. cbn [filter] in AP. unfold wh_output in Ew. destruct (wh_active h) eqn:A; cbn [negb] in Ew.
    + cbn [mapM] in AP. destruct (bind_ok _ _ _ AP) as (w & Ep & E5). clear AP. destruct (bind_ok _ _ _ E5) as (kws' & AP' & E6). clear E5. apply ok_inj in E6. subst kws.
      rewrite Eot in Ep. cbn [bind] in Ep. destruct (bind_ok _ _ _ Ew) as (cap & Ecap & E7). apply ok_inj in E7.
      assert (EQ : wh_capacity h0 (Some oat) storage (Some inlet) = Ok cap) by (destruct SM as (S1 & _); unfold wh_capacity in *; rewrite <- S1; exact Ecap).
      destruct (Heff h0 t oat inlet cap (SUB h0 (or_introl eq_refl)) EO EI EQ) as (w' & Ew' & W1).
      assert (EP : wh_power h0 (Some oat) storage (Some inlet) = Ok w) by (destruct SM as (S1 & _); unfold wh_power in *; rewrite <- S1; exact Ep).
      rewrite EP in Ew'. apply ok_inj in Ew'. subst w'.
      assert (X : x = or0 cap) by (rewrite <- E7; destruct cap; reflexivity).
      pose proof (IH (fun h' I => SUB h' (or_intror I)) (qsum l') kws' ltac:(unfold total_output; rewrite El'; reflexivity) AP') as I2.
      cbn [map]. change (qsum (or0 w :: map or0 kws')) with (or0 w + qsum (map or0 kws')). rewrite X. exact (Radd _ _ _ _ W1 I2).
    + apply ok_inj in Ew. subst x.
      pose proof (IH (fun h' I => SUB h' (or_intror I)) (qsum l') kws ltac:(unfold total_output; rewrite El'; reflexivity) AP) as I2. eapply Req; [| |exact I2]; [ring|reflexivity].
Qed.

Lemma base_rel t s s' o : base_step b s t iv = Ok (s', o) -> Forall2 same_heater hs0 (bs_heaters s) -> related o /\ Forall2 same_heater hs0 (bs_heaters s').
Proof.
  intros H F. pose proof (proj1 (hour_of_range t iv)) as Hh. destruct (bs_tank s) as [tk|] eqn:ET.
  - destruct (base_step_inv _ _ _ _ _ _ _ ET H) as (outlet & tk1 & tk2 & hs & _ & EO & EI & _ & Ehs & TO & _ & _ & _ & _ & _ & _ & _ & -> & kws & AP & EP).
    pose proof (same_all_trans _ _ _ F (aquastats_same _ _ _ _ (aquastats_of _ _ _ _ Hh Ehs))) as F'. split; [|exact F'].
    pose proof (heaters_rel t _ _ _ Hh EO EI hs0 hs (fun h I => I) F' _ _ TO AP) as P1. unfold related. rewrite EP.
    eapply Req; [reflexivity|symmetry; apply total_kw_sum|exact P1].
  - unfold base_step in H. cbv zeta in H. rewrite ET in H. destruct (bind_ok _ _ _ H) as (d & _ & H1). destruct (bind_ok _ _ _ H1) as (x1 & _ & H2). destruct (bind_ok _ _ _ H2) as (x2 & _ & H3).
    destruct (bind_ok _ _ _ H3) as (x3 & _ & H4). destruct (bind_ok _ _ _ H4) as (x4 & _ & H5). apply ok_inj in H5. apply pair_equal_spec in H5. destruct H5 as [<- <-].
    split; [|exact F]. exact Rzero.
Qed.

Lemma sprtp_rel ret flow t s s' o : sprtp_step ret flow b s t iv = Ok (s', o) -> Forall2 same_heater hs0 (bs_heaters s) -> related o /\ Forall2 same_heater hs0 (bs_heaters s').
Proof.
  unfold sprtp_step. intros H F. destruct (bind_ok _ _ _ H) as ([s1 o1] & E & H1). clear H. destruct (base_rel _ _ _ _ E F) as [P F1]. destruct (bs_tank s1) as [tk|].
  - destruct (bind_ok _ _ _ H1) as (tk1 & _ & H2). destruct (bind_ok _ _ _ H2) as (u & _ & H3). destruct (bind_ok _ _ _ H3) as (ts & _ & H4).
    apply ok_inj in H4. apply pair_equal_spec in H4. destruct H4 as [<- <-]. split; [exact P|exact F1].
  - apply ok_inj in H1. apply pair_equal_spec in H1. destruct H1 as [<- <-]. split; assumption.
Qed.

Lemma parallel_rel t s s' o : parallel_step b s t iv = Ok (s', o) -> Forall2 same_heater hs0 (bs_heaters (ps_base s)) -> related o /\ Forall2 same_heater hs0 (bs_heaters (ps_base s')).
Proof.
  unfold parallel_step. intros H F. destruct (bind_ok _ _ _ H) as ([s1 o1] & E & H1). clear H. destruct (base_rel _ _ _ _ E F) as [P F1].
  destruct (bind_ok _ _ _ H1) as ([[tk h] [[a c] k]] & _ & H2). apply ok_inj in H2. apply pair_equal_spec in H2. destruct H2 as [<- <-]. split; [exact P|exact F1].
Qed.

Lemma swing_rel t w w' o : swing_sim_step b w t iv = Ok (w', o) -> Forall2 same_heater hs0 (ws_heaters w) -> related o /\ Forall2 same_heater hs0 (ws_heaters w').
Proof.
  intros H F. pose proof (proj1 (hour_of_range t iv)) as Hh.
  destruct (swing_step_inv _ _ _ _ _ _ H) as (outlet & hs & tk1 & hw & feed & sw1 & sw2 & el & sw3 & tk2 & tmo & _ & EO & EI & _ & Ehs & TO & _ & _ & _ & _ & _ & Eel & Etm & _ & _ & _ & _ & -> & _ & Eto & _ & _).
  pose proof (same_all_trans _ _ _ F (aquastats_same _ _ _ _ (aquastats_of _ _ _ _ Hh Ehs))) as F'. cbn [ws_heaters ws_element]. split; [|exact F'].
    assert (KW : exists kws, active_powers hs (so_oat o) (so_inlet o) (hour_of t iv) = Ok kws /\ or0 (so_power o) == qsum (map or0 kws)).
    { unfold swing_sim_step in H. cbv zeta in H. destruct (bind_ok _ _ _ H) as (d & Ed & H1). clear H. destruct (bind_ok _ _ _ H1) as (oat & Eo & H2). clear H1.
      destruct (bind_ok _ _ _ H2) as (inlet & Ei & H3). clear H2.
      destruct (bind_ok _ _ _ H3) as (ou & Eout & H4). clear H3. destruct (bind_ok _ _ _ H4) as (mode & Em & H5). clear H4.
      destruct (bind_ok _ _ _ H5) as (hs' & Ehs' & H6). clear H5. destruct (bind_ok _ _ _ H6) as (x0 & _ & H7). clear H6.
      destruct (bind_ok _ _ _ H7) as (q & Eq & H8). clear H7. destruct (bind_ok _ _ _ H8) as (kws & Ek & H9). clear H8.
      repeat (match type of H9 with bind _ _ = Ok _ => let y := fresh "y" in let Ey := fresh "Ey" in let H10 := fresh "K" in destruct (bind_ok _ _ _ H9) as (y & Ey & H10); clear H9; rename H10 into H9 end).
      apply ok_inj in H9. apply pair_equal_spec in H9. destruct H9 as [_ <-]. cbn [so_oat so_inlet so_power] in *.
      rewrite Ehs in Ehs'. apply ok_inj in Ehs'. subst hs'. exists kws. split; [exact Ek|].
      destruct kws as [|k0 kws]; [|reflexivity].
      match goal with |- or0 (match ?z with Some _ => _ | None => _ end) == _ => destruct z; reflexivity | _ => idtac end. }
    destruct KW as (kws & AP & EK). pose proof (heaters_rel t _ _ _ Hh EO EI hs0 hs (fun h I => I) F' _ _ TO AP) as P1.
    eapply Req; [reflexivity|symmetry; exact EK|exact P1].
Qed.
End Related.

Section RelatedMp.
Variables (b : building) (iv : Z) (hs0 : list heater) (storage : Q) (Rel : Q -> Q -> Prop).
Hypothesis Rzero : Rel 0 0.
Hypothesis Radd : forall x w y v, Rel x w -> Rel y v -> Rel (x + y) (w + v).
Hypothesis Req : forall x y w v, x == y -> w == v -> Rel x w -> Rel y v.
Hypothesis Hctl : forall h hour c, In h hs0 -> in_effect h hour c -> ct_outlet c = storage.
Hypothesis Heff : forall h t oat c, In h hs0 -> bd_oat b t iv = Ok oat ->
  wh_capacity h (Some oat) storage None = Ok c -> exists w, wh_power h (Some oat) storage None = Ok w /\ Rel (or0 c) (or0 w).

Lemma mp_heaters_rel t oat hour : (0 <= hour)%Z -> bd_oat b t iv = Ok oat ->
  forall hsA hs, (forall h, In h hsA -> In h hs0) -> Forall2 same_heater hsA hs ->
  forall out kws, mp_output hs oat hour = Ok out -> mp_powers hs oat hour = Ok kws ->
  Rel out (qsum (map or0 kws)).
Proof.
  intros Hh EO hsA hs SUB F. induction F as [|h0 h hsA hs SM F IH]; intros out kws TO AP.
  - cbn in TO, AP. apply ok_inj in TO. apply ok_inj in AP. subst. exact Rzero.
  - unfold mp_output in TO. destruct (bind_ok _ _ _ TO) as (l & El & E1). apply ok_inj in E1. subst out. cbn [mapM] in El.
    destruct (bind_ok _ _ _ El) as (x & Ex & E2). clear El. destruct (bind_ok _ _ _ E2) as (l' & El' & E3). clear E2. apply ok_inj in E3. subst l.
    destruct (bind_ok _ _ _ Ex) as (ot & Eot & Ew). clear Ex.
    assert (OT : ot = storage).
    { unfold wh_outlet_temp in Eot. destruct (bind_ok _ _ _ Eot) as ([c|] & Ec & E4); [|discriminate]. apply ok_inj in E4. subst ot.
      apply in_effect_iff in Ec; [|exact Hh]. destruct SM as (S1 & S2 & S3). apply (in_effect_same h0 h hour c S2 S3) in Ec.
      exact (Hctl h0 hour c (SUB h0 (or_introl eq_refl)) Ec). }
    subst ot. change (qsum (x :: l')) with (x + qsum l').
    unfold mp_powers in AP. cbn [filter] in AP. unfold wh_output in Ew. destruct (wh_active h) eqn:A; cbn [negb] in Ew.
    + cbn [mapM] in AP. destruct (bind_ok _ _ _ AP) as (w & Ep & E5). clear AP. destruct (bind_ok _ _ _ E5) as (kws' & AP' & E6). clear E5. apply ok_inj in E6. subst kws.
      rewrite Eot in Ep. cbn [bind] in Ep. destruct (bind_ok _ _ _ Ew) as (cap & Ecap & E7). apply ok_inj in E7.
      assert (EQ : wh_capacity h0 (Some oat) storage None = Ok cap) by (destruct SM as (S1 & _); unfold wh_capacity in *; rewrite <- S1; exact Ecap).
      destruct (Heff h0 t oat cap (SUB h0 (or_introl eq_refl)) EO EQ) as (w' & Ew' & W1).
      assert (EP : wh_power h0 (Some oat) storage None = Ok w) by (destruct SM as (S1 & _); unfold wh_power in *; rewrite <- S1; exact Ep).
      rewrite EP in Ew'. apply ok_inj in Ew'. subst w'.
      assert (X : x = or0 cap) by (rewrite <- E7; destruct cap; reflexivity).
      pose proof (IH (fun h' I => SUB h' (or_intror I)) (qsum l') kws' ltac:(unfold mp_output; rewrite El'; reflexivity) AP') as I2.
      cbn [map]. change (qsum (or0 w :: map or0 kws')) with (or0 w + qsum (map or0 kws')). rewrite X. exact (Radd _ _ _ _ W1 I2).
    + apply ok_inj in Ew. subst x.
      pose proof (IH (fun h' I => SUB h' (or_intror I)) (qsum l') kws ltac:(unfold mp_output; rewrite El'; reflexivity) AP) as I2. eapply Req; [| |exact I2]; [ring|reflexivity].
Qed.

Lemma mp_rel t s s' o : mp_step b s t iv = Ok (s', o) -> Forall2 same_heater hs0 (ms_heaters s) -> related Rel o /\ Forall2 same_heater hs0 (ms_heaters s').
Proof.
  intros H F. pose proof (proj1 (hour_of_range t iv)) as Hh. unfold mp_step in H. cbv zeta in H.
  destruct (bind_ok _ _ _ H) as (d & _ & H1). clear H. destruct (bind_ok _ _ _ H1) as (oat & EO & H2). clear H1. destruct (bind_ok _ _ _ H2) as (inlet & _ & H3). clear H2.
  destruct (bind_ok _ _ _ H3) as (mode & _ & H4). clear H3. destruct (bind_ok _ _ _ H4) as (hs & Ehs & H5). clear H4. destruct (bind_ok _ _ _ H5) as (tk1 & _ & H6). clear H5.
  destruct (bind_ok _ _ _ H6) as (top & _ & H7). clear H6. destruct (bind_ok _ _ _ H7) as (out & TO & H8). clear H7. destruct (bind_ok _ _ _ H8) as (kws & AP & H9). clear H8.
  destruct (bind_ok _ _ _ H9) as ([draw mv] & _ & H10). clear H9. destruct (bind_ok _ _ _ H10) as (tk2 & _ & H11). clear H10. destruct (bind_ok _ _ _ H11) as (tk3 & _ & H12). clear H11.
  destruct (bind_ok _ _ _ H12) as (us & _ & H13). clear H12. destruct (bind_ok _ _ _ H13) as (ts & _ & H14). clear H13. apply ok_inj in H14. apply pair_equal_spec in H14. destruct H14 as [<- <-].
  pose proof (same_all_trans _ _ _ F (aquastats_same _ _ _ _ (aquastats_of _ _ _ _ Hh Ehs))) as F'. split; [|exact F'].
  pose proof (mp_heaters_rel t _ _ Hh EO hs0 hs (fun h I => I) F' _ _ TO AP) as P1. unfold related. cbn [so_output so_power].
  eapply Req; [reflexivity|symmetry; apply total_kw_sum|exact P1].
Qed.
End RelatedMp.
