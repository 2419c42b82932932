(** The power recorded in a simulated step pays for the output recorded. *)
From Verif Require Import Prelude M_StratifiedTank S_StratifiedTank L_StratifiedTank L_StratifiedTank2 L_StratifiedTank3 M_MixedTank L_MixedTank M_Building L_Building M_Heater S_Heater L_Heater M_SimRun S_SimRun M_Step S_Step L_Step L_Step2 L_Step3 L_Step6 M_Engine L_Audit S_Audit2.
Open Scope Q_scope.

Section Paid.
Variables (b : building) (iv : Z) (hs0 : list heater) (storage cop : Q).
Hypothesis Hctl : forall h hour c, In h hs0 -> in_effect h hour c -> ct_outlet c = storage.
Hypothesis Heff : efficient b iv hs0 storage cop.

Definition paid (o : step_out) : Prop := 0 <= cop * or0 (so_power o) /\ so_output o <= cop * (3412142 # 1000000) * or0 (so_power o).

Lemma heaters_paid t oat inlet hour : (0 <= hour)%Z -> bd_oat b t iv = Ok oat -> bd_inlet b t iv = Ok inlet ->
  forall hsA hs, (forall h, In h hsA -> In h hs0) -> Forall2 same_heater hsA hs ->
  forall out kws, total_output hs oat inlet hour = Ok out -> active_powers hs oat inlet hour = Ok kws ->
  0 <= cop * qsum (map or0 kws) /\ out <= cop * (3412142 # 1000000) * qsum (map or0 kws).
Proof.
  intros Hh EO EI hsA hs SUB F. induction F as [|h0 h hsA hs SM F IH]; intros out kws TO AP.
  - cbn in TO, AP. apply ok_inj in TO. apply ok_inj in AP. subst. cbn. split; lra.
  - unfold total_output in TO. destruct (bind_ok _ _ _ TO) as (l & El & E1). apply ok_inj in E1. subst out. cbn [mapM] in El.
    destruct (bind_ok _ _ _ El) as (x & Ex & E2). clear El. destruct (bind_ok _ _ _ E2) as (l' & El' & E3). clear E2. apply ok_inj in E3. subst l.
    destruct (bind_ok _ _ _ Ex) as (ot & Eot & Ew). clear Ex.
    assert (OT : ot = storage).
    { unfold wh_outlet_temp in Eot. destruct (bind_ok _ _ _ Eot) as ([c|] & Ec & E4); [|discriminate]. apply ok_inj in E4. subst ot.
      apply in_effect_iff in Ec; [|exact Hh]. destruct SM as (S1 & S2 & S3). apply (in_effect_same h0 h hour c S2 S3) in Ec.
      exact (Hctl h0 hour c (SUB h0 (or_introl eq_refl)) Ec). }
    subst ot. change (qsum (x :: l')) with (x + qsum l').
    unfold active_powers in AP. cbn [filter] in AP. unfold wh_output in Ew. destruct (wh_active h) eqn:A; cbn [negb] in Ew.
    + cbn [mapM] in AP. destruct (bind_ok _ _ _ AP) as (w & Ep & E5). clear AP. destruct (bind_ok _ _ _ E5) as (kws' & AP' & E6). clear E5. apply ok_inj in E6. subst kws.
      rewrite Eot in Ep. cbn [bind] in Ep. destruct (bind_ok _ _ _ Ew) as (cap & Ecap & E7). apply ok_inj in E7.
      assert (EQ : wh_capacity h0 (Some oat) storage (Some inlet) = Ok cap) by (destruct SM as (S1 & _); unfold wh_capacity in *; rewrite <- S1; exact Ecap).
      destruct (Heff h0 t oat inlet cap (SUB h0 (or_introl eq_refl)) EO EI EQ) as (w' & Ew' & W0 & W1).
      assert (EP : wh_power h0 (Some oat) storage (Some inlet) = Ok w) by (destruct SM as (S1 & _); unfold wh_power in *; rewrite <- S1; exact Ep).
      rewrite EP in Ew'. apply ok_inj in Ew'. subst w'.
      assert (X : x = or0 cap) by (rewrite <- E7; destruct cap; reflexivity).
      destruct (IH (fun h' I => SUB h' (or_intror I)) (qsum l') kws') as [I1 I2]; [unfold total_output; rewrite El'; reflexivity|exact AP'|].
      cbn [map]. change (qsum (or0 w :: map or0 kws')) with (or0 w + qsum (map or0 kws')). rewrite X. split; lra.
    + apply ok_inj in Ew. subst x.
      destruct (IH (fun h' I => SUB h' (or_intror I)) (qsum l') kws) as [I1 I2]; [unfold total_output; rewrite El'; reflexivity|exact AP|]. split; lra.
Qed.

Lemma total_kw_sum kws : or0 (total_kw kws) == qsum (map or0 kws).
Proof.
  unfold total_kw. destruct (existsb is_some kws) eqn:E; [reflexivity|]. induction kws as [|[x|] kws IH]; [reflexivity|discriminate|].
  cbn in E. specialize (IH E). cbn [map]. change (qsum (or0 None :: map or0 kws)) with (0 + qsum (map or0 kws)). rewrite <- IH. cbn. ring.
Qed.

Lemma base_paid t s s' o : base_step b s t iv = Ok (s', o) -> Forall2 same_heater hs0 (bs_heaters s) -> paid o /\ Forall2 same_heater hs0 (bs_heaters s').
Proof.
  intros H F. pose proof (proj1 (hour_of_range t iv)) as Hh. destruct (bs_tank s) as [tk|] eqn:ET.
  - destruct (base_step_inv _ _ _ _ _ _ _ ET H) as (outlet & tk1 & tk2 & hs & _ & EO & EI & _ & Ehs & TO & _ & _ & _ & _ & _ & _ & _ & -> & kws & AP & EP).
    pose proof (same_all_trans _ _ _ F (aquastats_same _ _ _ _ (aquastats_of _ _ _ _ Hh Ehs))) as F'. split; [|exact F'].
    destruct (heaters_paid t _ _ _ Hh EO EI hs0 hs (fun h I => I) F' _ _ TO AP) as [P1 P2]. unfold paid. rewrite EP.
    rewrite (total_kw_sum kws). split; assumption.
  - unfold base_step in H. cbv zeta in H. rewrite ET in H. destruct (bind_ok _ _ _ H) as (d & _ & H1). destruct (bind_ok _ _ _ H1) as (x1 & _ & H2). destruct (bind_ok _ _ _ H2) as (x2 & _ & H3).
    destruct (bind_ok _ _ _ H3) as (x3 & _ & H4). destruct (bind_ok _ _ _ H4) as (x4 & _ & H5). apply ok_inj in H5. apply pair_equal_spec in H5. destruct H5 as [<- <-].
    split; [|exact F]. unfold paid. cbn. split; lra.
Qed.

Lemma sprtp_paid ret flow t s s' o : sprtp_step ret flow b s t iv = Ok (s', o) -> Forall2 same_heater hs0 (bs_heaters s) -> paid o /\ Forall2 same_heater hs0 (bs_heaters s').
Proof.
  unfold sprtp_step. intros H F. destruct (bind_ok _ _ _ H) as ([s1 o1] & E & H1). clear H. destruct (base_paid _ _ _ _ E F) as [P F1]. destruct (bs_tank s1) as [tk|].
  - destruct (bind_ok _ _ _ H1) as (tk1 & _ & H2). destruct (bind_ok _ _ _ H2) as (u & _ & H3). destruct (bind_ok _ _ _ H3) as (ts & _ & H4).
    apply ok_inj in H4. apply pair_equal_spec in H4. destruct H4 as [<- <-]. split; [exact P|exact F1].
  - apply ok_inj in H1. apply pair_equal_spec in H1. destruct H1 as [<- <-]. split; assumption.
Qed.

Lemma parallel_paid t s s' o : parallel_step b s t iv = Ok (s', o) -> Forall2 same_heater hs0 (bs_heaters (ps_base s)) -> paid o /\ Forall2 same_heater hs0 (bs_heaters (ps_base s')).
Proof.
  unfold parallel_step. intros H F. destruct (bind_ok _ _ _ H) as ([s1 o1] & E & H1). clear H. destruct (base_paid _ _ _ _ E F) as [P F1].
  destruct (bind_ok _ _ _ H1) as ([[tk h] [[a c] k]] & _ & H2). apply ok_inj in H2. apply pair_equal_spec in H2. destruct H2 as [<- <-]. split; [exact P|exact F1].
Qed.

Lemma swing_paid el0 t w w' o : swing_sim_step b w t iv = Ok (w', o) -> never_cools el0 ->
  Forall2 same_heater hs0 (ws_heaters w) /\ same_heater el0 (ws_element w) ->
  (paid o /\ exists k, so_tm_output o = Some k /\ 0 <= k) /\ Forall2 same_heater hs0 (ws_heaters w') /\ same_heater el0 (ws_element w').
Proof.
  intros H NC [F SE]. pose proof (proj1 (hour_of_range t iv)) as Hh.
  destruct (swing_step_inv _ _ _ _ _ _ H) as (outlet & hs & tk1 & hw & feed & sw1 & sw2 & el & sw3 & tk2 & tmo & _ & EO & EI & _ & Ehs & TO & _ & _ & _ & _ & _ & Eel & Etm & _ & _ & _ & _ & -> & _ & Eto & _ & _).
  pose proof (same_all_trans _ _ _ F (aquastats_same _ _ _ _ (aquastats_of _ _ _ _ Hh Ehs))) as F'. cbn [ws_heaters ws_element].
  assert (SE' : same_heater el0 el) by (apply same_heater_trans with (ws_element w); [exact SE|exact (wh_update_same _ _ _ _ Eel)]).
  split; [|split; assumption]. split.
  - assert (KW : exists kws, active_powers hs (so_oat o) (so_inlet o) (hour_of t iv) = Ok kws /\ or0 (so_power o) == qsum (map or0 kws)).
    { unfold swing_sim_step in H. cbv zeta in H. destruct (bind_ok _ _ _ H) as (d & Ed & H1). clear H. destruct (bind_ok _ _ _ H1) as (oat & Eo & H2). clear H1.
      destruct (bind_ok _ _ _ H2) as (inlet & Ei & H3). clear H2.
      destruct (bind_ok _ _ _ H3) as (ou & Eout & H4). clear H3. destruct (bind_ok _ _ _ H4) as (mode & Em & H5). clear H4.
      destruct (bind_ok _ _ _ H5) as (hs' & Ehs' & H6). clear H5. destruct (bind_ok _ _ _ H6) as (x0 & _ & H7). clear H6.
      destruct (bind_ok _ _ _ H7) as (q & Eq & H8). clear H7. destruct (bind_ok _ _ _ H8) as (kws & Ek & H9). clear H8.
      repeat (match type of H9 with bind _ _ = Ok _ => let y := fresh "y" in let Ey := fresh "Ey" in let H10 := fresh "K" in destruct (bind_ok _ _ _ H9) as (y & Ey & H10); clear H9; rename H10 into H9 end).
      apply ok_inj in H9. apply pair_equal_spec in H9. destruct H9 as [_ <-]. cbn [so_oat so_inlet so_power] in *.
      rewrite Ehs in Ehs'. apply ok_inj in Ehs'. subst hs'. exists kws. split; [exact Ek|].
      destruct kws as [|k0 kws]; [|reflexivity].
      match goal with |- or0 (match ?z with Some _ => _ | None => _ end) == _ => destruct z; reflexivity | _ => idtac end. }
    destruct KW as (kws & AP & EK). destruct (heaters_paid t _ _ _ Hh EO EI hs0 hs (fun h I => I) F' _ _ TO AP) as [P1 P2].
    unfold paid. rewrite EK. split; assumption.
  - exists tmo. split; [exact Eto|]. unfold wh_output in Etm. destruct (wh_active el); cbn [negb] in Etm; [|apply ok_inj in Etm; subst tmo; lra].
    destruct (bind_ok _ _ _ Etm) as (c & Ec & E1). apply ok_inj in E1. destruct c as [c|]; [|subst tmo; lra]. subst tmo. apply (NC (so_oat o) (mx_temp sw2)).
    destruct SE' as (S1 & _). unfold wh_capacity in *. rewrite <- S1. exact Ec.
Qed.

Lemma executed_all {St} (stp : St -> Z -> Z -> res (St * step_out)) (J : St -> Prop) (Pr : step_out -> Prop) :
  (forall s t s' o, stp s t iv = Ok (s', o) -> J s -> Pr o /\ J s') ->
  forall outs s i s', executed stp iv s i outs s' -> J s -> forall o, In o outs -> Pr o.
Proof.
  intros H outs. induction outs as [|o outs IH]; intros s i s' EX HJ o' I; [destruct I|]. destruct EX as (s1 & E & EX). destruct (H _ _ _ _ E HJ) as [P J1]. destruct I as [<-|I].
  - exact P.
  - exact (IH _ _ _ EX J1 o' I).
Qed.
End Paid.
