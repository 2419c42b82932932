(** Heat accounts of a simulated stratified tank, from above. *)
From Verif Require Import Prelude M_StratifiedTank S_StratifiedTank L_StratifiedTank L_StratifiedTank2 L_StratifiedTank3
  M_Building L_Building M_Heater S_Heater L_Heater M_SimRun S_SimRun L_SimMisc M_Step S_Step L_Step L_Step2 L_Step3 L_Step4 M_Engine S_Engine S_Lasts L_Lasts L_Lasts2.
Open Scope Q_scope.

Lemma hot_shift t s h : st_wf t -> hot t s == hot t h + st_vol t * (h - s) / (100 * st_slope t).
Proof. intros [V L]. unfold hot, floor_delta. field. lra. Qed.

Lemma draw_upper t v cold supply h t' : st_wf t -> cold < h -> cold < supply -> supply <= h -> v <= st_vol t ->
  st_draw t v cold supply h = Ok t' ->
  st_vol t' = st_vol t /\ st_slope t' = st_slope t /\ st_inlet t' = cold /\ st_outlet t' = h /\
  hot t' supply <= qmax 0 (hot t supply - blended v supply h cold).
Proof.
  intros W CH CS SH VV D. destruct (Qlt_le_dec 0 v) as [V0|V0].
  - assert (PV : v * (supply - cold) / (h - cold) <= st_vol t).
    { apply qdiv_le_iff; [lra|]. nra. }
    unfold st_draw in D.
    replace (Qle_bool h cold) with false in D by (symmetry; apply qleb_false; lra).
    replace (Qle_bool v 0) with false in D by (symmetry; apply qleb_false; lra). cbn [orb] in D.
    set (t0 := set_outlet (set_inlet t cold) h) in *. assert (W0 : st_wf t0) by exact W.
    rewrite qdiv_ok in D by lra. cbn [bind] in D. unfold blended. set (p := v * (supply - cold) / (h - cold)) in *.
    assert (K : forall g, p <= g -> let t1 := set_delta t0 (st_delta t0 - g) in
      hot (set_delta t1 (qmax (st_delta t1) (floor_delta t1 supply))) supply <= qmax 0 (hot t supply - p)).
    { intros g G. cbv zeta. unfold hot. cbn [set_delta st_delta].
      change (floor_delta (set_delta (set_delta t0 (st_delta t0 - g)) _) supply) with (floor_delta t supply).
      change (floor_delta (set_delta t0 (st_delta t0 - g)) supply) with (floor_delta t supply). change (st_delta t0) with (st_delta t). qmm; lra. }
    destruct (bind_ok _ _ _ D) as (a & _ & D1). clear D.
    destruct (Qle_bool (h - (1 # 1000000)) a).
    + cbv zeta in D1. rewrite st_floor_ok in D1 by exact W. cbn [bind] in D1. apply ok_inj in D1. rewrite <- D1. cbn. repeat split. apply (K p). lra.
    + destruct (bind_ok _ _ _ D1) as ([lo hi] & Hs & D2). clear D1. cbv zeta in D2. rewrite st_floor_ok in D2 by exact W. cbn [bind] in D2. apply ok_inj in D2. rewrite <- D2. cbn. repeat split.
      apply K. destruct (st_search_range 52 t0 cold (supply - cold) v p (st_vol t0) p lo hi) as [A B]; [lra|exact PV|exact Hs|].
      apply qmin_glb; [lra|exact PV].
  - unfold st_draw in D. replace (Qle_bool v 0) with true in D by (symmetry; apply Qle_bool_iff; lra). rewrite orb_true_r in D. apply ok_inj in D. subst t'.
    cbn. repeat split. change (hot (set_outlet (set_inlet t cold) h) supply) with (hot t supply).
    assert (blended v supply h cold <= 0). { unfold blended. apply qdiv_le_iff; [lra|]. nra. }
    qmm; lra.
Qed.

Lemma usable_upper t s u : st_wf t -> st_usable t s = Ok u -> 0 < u -> 0 < hot t s.
Proof.
  intros W U P. pose proof (hot_line t s W) as HL. destruct W as [V L]. unfold st_usable in U. rewrite !qdiv_ok in U by lra. cbn [bind] in U. apply ok_inj in U.
  destruct (Qlt_le_dec 0 (hot t s)) as [X|X]; [exact X|exfalso].
  assert (Y : 100 <= (s - st_inter t) / st_slope t - st_delta t / st_vol t * 100).
  { setoid_replace ((s - st_inter t) / st_slope t - st_delta t / st_vol t * 100) with (100 - 100 * (hot t s / st_vol t)).
    2:{ unfold hot, floor_delta. field. split; lra. }
    assert (hot t s / st_vol t <= 0) by (apply qdiv_le_iff; [exact V|]; lra). lra. }
  set (x := (s - st_inter t) / st_slope t - st_delta t / st_vol t * 100) in *. clearbody x.
  assert (Z : qmax 0 (qmin 100 x) == 100) by (qmm; lra). assert (u == 0) by (rewrite <- U, Z; field). lra.
Qed.

Lemma heated_mono k iv h c w : 0 <= k -> (0 < iv)%Z -> c <= w -> w < h -> k * 1000 * qz iv / 60 / (rho_cp * (h - c)) <= heated k iv h w.
Proof. intros K P C H. exact (heated_le k k iv h c w K (Qle_refl k) P C H). Qed.

Section Audit.
Variables (b : building) (iv : Z) (hs0 : list heater) (supply storage vol slope cold warm : Q).
Hypothesis Piv : (0 < iv)%Z.
Hypothesis Hvol : 0 < vol.
Hypothesis Hslope : 0 < slope.
Hypothesis Hcw : cold <= warm.
Hypothesis Hws : warm < supply.
Hypothesis Hss : supply <= storage.
Hypothesis Hmains : forall t x, bd_inlet b t iv = Ok x -> cold <= x /\ x <= warm.
Hypothesis Hctl : forall h hour c, In h hs0 -> in_effect h hour c -> ct_outlet c = storage.

Record account (s : bsys) (y : Q) : Prop := {
  ac_same : Forall2 same_heater hs0 (bs_heaters s);
  ac_supply : bs_supply s = supply;
  ac_storage : bs_storage s = storage;
  ac_tank : exists tk, bs_tank s = Some tk /\ st_vol tk = vol /\ st_slope tk = slope /\ cold <= st_inlet tk /\ st_inlet tk <= warm /\ hot tk supply == y }.

(** One step: no more is left than was there, less what was taken and with what was added. *)
Definition audited (take : Q) (t : Z) (s s' : bsys) (o : step_out) : Prop :=
  forall y, account s y -> 0 < so_usable o -> so_demand o <= vol ->
  cold <= so_inlet o <= warm /\
  exists y', account s' y' /\ 0 < y' /\
    y' + blended (so_demand o) supply storage (so_inlet o) + take <= y + heated (qmax 0 (so_output o)) iv storage warm.

Lemma outlet_is hs hour x : (0 <= hour)%Z -> Forall2 same_heater hs0 hs -> outlet_for hs storage hour = Ok x -> x = storage.
Proof.
  intros Hh F H. apply outlet_for_spec in H; [|exact Hh]. apply (setpoint_same hs hs0) in H; [|apply same_all_sym; exact F].
  destruct H as [[_ ->]|[(h & c & I & E & <-) _]]; [reflexivity|]. exact (Hctl h hour c I E).
Qed.

(** The step up to the draw, whatever is usable afterwards. *)
Lemma base_account t s s' o y : base_step b s t iv = Ok (s', o) -> account s y -> so_demand o <= vol ->
  cold <= so_inlet o <= warm /\
  exists tk y', bs_tank s' = Some tk /\ account s' y' /\ st_outlet tk = storage /\ st_usable tk supply = Ok (so_usable o) /\ hot tk supply == y' /\ st_inlet tk = so_inlet o /\
    y' <= qmax 0 (y + heated (qmax 0 (so_output o)) iv storage warm - blended (so_demand o) supply storage (so_inlet o)).
Proof.
  intros H [SH ES EG (tk & ET & EV & EL & IC & IW & EY)] DV.
  destruct (base_step_inv b s t iv s' o tk ET H) as (out & tk1 & tk2 & hs' & Ed & Eo & Ei & Eout & Ehs & Eq & E1 & E2 & Eu & Ets & Em & DN & _ & -> & _).
  pose proof (proj1 (hour_of_range t iv)) as Hh.
  assert (W : st_wf tk) by (split; [rewrite EV|rewrite EL]; assumption).
  rewrite EG in Eout. pose proof (outlet_is _ _ _ Hh SH Eout) as ->.
  pose proof (aquastats_of _ _ _ _ Hh Ehs) as AQ. pose proof (aquastats_same _ _ _ _ AQ) as SS. pose proof (same_all_trans _ _ _ SH SS) as SH'.
  destruct (Hmains _ _ Ei) as [M1 M2]. split; [split; assumption|]. rewrite ES in *.
  assert (IS : st_inlet tk < storage) by lra.
  destruct (heat_hot tk (so_output o) (qz iv) storage W IS) as (tk1' & E1' & V1 & L1 & I1 & O1 & N1 & P1). rewrite E1 in E1'. apply ok_inj in E1'. subst tk1'.
  assert (W1 : st_wf tk1) by (split; [rewrite V1, EV|rewrite L1, EL]; assumption).
  assert (Y1 : hot tk1 supply <= y + heated (qmax 0 (so_output o)) iv storage warm).
  { rewrite (hot_shift tk1 supply storage W1), V1, L1. rewrite <- EY. rewrite (hot_shift tk supply storage W).
    assert (H0 : 0 <= heated (qmax 0 (so_output o)) iv storage warm).
    { unfold heated. apply qdiv_nonneg; [|apply Qmult_lt_0_compat; [reflexivity|lra]].
      apply qdiv_nonneg; [|reflexivity]. apply Qmult_le_0_compat; [|apply qz_nonneg; lia]. apply Qmult_le_0_compat; [qmm; lra|discriminate]. }
    destruct (Qlt_le_dec 0 (so_output o)) as [X|X]; [|rewrite (N1 X); lra]. rewrite (P1 X).
    pose proof (heated_mono (so_output o) iv storage (st_inlet tk) warm ltac:(lra) Piv IW ltac:(lra)) as HM.
    assert (EX : heated (qmax 0 (so_output o)) iv storage warm == heated (so_output o) iv storage warm).
    { unfold heated. assert (E : qmax 0 (so_output o) == so_output o) by (qmm; lra). rewrite E. reflexivity. }
    rewrite EX. pose proof (qmin_l (hot tk storage + so_output o * 1000 * qz iv / 60 / (rho_cp * (storage - st_inlet tk))) (st_vol tk)). lra. }
  destruct (draw_upper tk1 (so_demand o) (so_inlet o) supply storage tk2 W1) as (V2 & L2 & I2 & O2 & Y2); [lra|lra|exact Hss|rewrite V1, EV; exact DV|exact E2|].
  exists tk2, (hot tk2 supply). split; [reflexivity|]. split.
  - constructor; cbn [bs_heaters bs_supply bs_storage bs_tank]; try assumption; try reflexivity.
    exists tk2. split; [reflexivity|]. split; [congruence|]. split; [congruence|]. rewrite I2. split; [exact M1|]. split; [exact M2|reflexivity].
  - split; [exact O2|]. split; [exact Eu|]. split; [reflexivity|]. split; [exact I2|]. eapply Qle_trans; [exact Y2|]. qmm; lra.
Qed.

Lemma account_wf s y tk : account s y -> bs_tank s = Some tk -> st_wf tk.
Proof. intros [_ _ _ (tk' & E & V & L & _)] ET. rewrite ET in E. injection E as <-. split; [rewrite V|rewrite L]; assumption. Qed.

Lemma audit_base t s s' o : base_step b s t iv = Ok (s', o) -> audited 0 t s s' o.
Proof.
  intros H y HS U DV. destruct (base_account t s s' o y H HS DV) as (IN & tk & y' & ET & HS' & EO & EU & EY & EI & LE). split; [exact IN|].
  exists y'. split; [exact HS'|]. pose proof (usable_upper tk supply _ (account_wf _ _ _ HS' ET) EU U) as P. rewrite EY in P. split; [exact P|].
  revert LE. qmm; lra.
Qed.

Lemma audit_sprtp ret flow loss t s s' o : 0 <= flow -> ret <= supply -> loss == flow * qz iv * (supply - ret) / (storage - cold) ->
  sprtp_step ret flow b s t iv = Ok (s', o) -> audited loss t s s' o.
Proof.
  intros F0 R0 EL0 H y HS U DV. destruct (sprtp_step_inv _ _ _ _ _ _ _ _ H) as (s1 & o1 & EB & TK).
  assert (DV1 : so_demand o1 <= vol).
  { destruct (bs_tank s1) as [tk|] eqn:ET.
    - destruct (TK tk eq_refl) as (tk1 & _ & _ & _ & _ & D & _). rewrite <- D. exact DV.
    - exfalso. destruct HS as [_ _ _ (tk & ET0 & _)]. destruct (base_step_inv b s t iv s1 o1 tk ET0 EB) as (out & tk1 & tk2 & hs' & X). 
      destruct X as (_ & _ & _ & _ & _ & _ & _ & _ & _ & _ & _ & _ & _ & X & _). rewrite X in ET. discriminate. }
  destruct (base_account t s s1 o1 y EB HS DV1) as (IN & tk & y1 & ET & HS1 & EO & EU & EY & EI & LE).
  destruct (TK tk ET) as (tk1 & ER & Eu & Ets & -> & D & _ & EIN & EOUT & _). rewrite D, EIN, EOUT. split; [exact IN|].
  assert (W : st_wf tk) by (exact (account_wf _ _ _ HS1 ET)). 
  destruct HS1 as [SH ES EG (tk' & ET' & EV & EL & IC & IW & _)]. rewrite ET in ET'. injection ET' as <-. rewrite ES in *.
  assert (IS : st_inlet tk < storage) by lra.
  destruct (recirc_hot tk flow ret (qz iv) supply storage W EO IS) as (tk1' & ER' & V1 & L1 & I1 & O1 & Y1). rewrite ER in ER'. apply ok_inj in ER'. subst tk1'.
  assert (W1 : st_wf tk1) by (split; [rewrite V1, EV|rewrite L1, EL]; assumption).
  pose proof (usable_upper tk1 supply _ W1 Eu U) as P.
  assert (N0 : 0 <= flow * qz iv * (supply - ret)).
  { apply Qmult_le_0_compat; [|lra]. apply Qmult_le_0_compat; [exact F0|apply qz_nonneg; lia]. }
  assert (NL : loss <= flow * qz iv * (supply - ret) / (storage - st_inlet tk)).
  { rewrite EL0. apply qdiv_le_iff; [lra|].
    setoid_replace (flow * qz iv * (supply - ret) / (storage - st_inlet tk) * (storage - cold)) with (flow * qz iv * (supply - ret) * (storage - cold) / (storage - st_inlet tk)) by (field; lra).
    apply Qle_shift_div_l; [lra|]. nra. }
  assert (L0 : 0 <= flow * qz iv * (supply - ret) / (storage - st_inlet tk)) by (apply qdiv_nonneg; [exact N0|lra]).
  exists (hot tk1 supply). split.
  - constructor; cbn [bs_heaters bs_supply bs_storage bs_tank]; try assumption; try reflexivity.
    exists tk1. split; [reflexivity|]. split; [congruence|]. split; [congruence|]. rewrite I1. split; [exact IC|]. split; [exact IW|reflexivity].
  - split; [exact P|]. pose proof (hot_shift tk1 supply storage W1) as A1. pose proof (hot_shift tk supply storage W) as A0. rewrite V1, L1 in A1. rewrite EY in A0.
    revert LE. qmm; lra.
Qed.

Lemma audit_parallel t p p' o : parallel_step b p t iv = Ok (p', o) -> audited 0 t (ps_base p) (ps_base p') o.
Proof.
  intros H y HS U DV. destruct (parallel_step_inv _ _ _ _ _ _ H) as (s1 & o1 & tk & h & temp & out & kw & EB & _ & -> & X).
  pose proof (audit_base t _ s1 o1 EB y HS) as A.
  assert (E : so_demand o = so_demand o1 /\ so_usable o = so_usable o1 /\ so_output o = so_output o1 /\ so_inlet o = so_inlet o1) by tauto.
  destruct E as (E1 & E2 & E3 & E4). rewrite E1, E3, E4. rewrite E1 in DV. rewrite E2 in U. exact (A U DV).
Qed.

Section Run.
Context {St : Type}.
Variables (stp : St -> Z -> Z -> res (St * step_out)) (core : St -> bsys) (take : Q).
Hypothesis Hstep : forall t s s' o, stp s t iv = Ok (s', o) -> audited take t (core s) (core s') o.

Lemma run_audit : forall outs n s y s', account (core s) y -> executed stp iv s n outs s' ->
  (forall o, In o outs -> 0 < so_usable o /\ so_demand o <= vol) ->
  exists y', account (core s') y' /\ (outs <> [] -> 0 < y') /\ Forall (fun o => cold <= so_inlet o <= warm) outs /\
    y' + qsum (map (fun o => blended (so_demand o) supply storage (so_inlet o) + take) outs) <=
    y + qsum (map (fun o => heated (qmax 0 (so_output o)) iv storage warm) outs).
Proof.
  induction outs as [|o outs IH]; intros n s y s' HS EX OK.
  - cbn in EX. subst s'. exists y. split; [exact HS|]. split; [congruence|]. split; [constructor|]. cbn. lra.
  - destruct EX as (s1 & E & EX). destruct (OK o (or_introl eq_refl)) as [U D].
    destruct (Hstep _ _ _ _ E y HS U D) as (IN & y1 & HS1 & P1 & LE).
    destruct (IH _ s1 y1 s' HS1 EX (fun o' I => OK o' (or_intror I))) as (y' & HS' & P' & F & LE').
    exists y'. split; [exact HS'|]. split.
    { intros _. destruct outs as [|o2 outs]; [|apply P'; discriminate]. cbn in EX. subst s1.
      destruct HS' as [_ _ _ (tk & T1 & _ & _ & _ & _ & T2)]. destruct HS1 as [_ _ _ (tk' & T1' & _ & _ & _ & _ & T2')]. rewrite T1 in T1'. injection T1' as <-. lra. }
    split; [constructor; assumption|]. cbn [map].
    change (qsum (?a :: ?l)) with (a + qsum l). lra.
Qed.
End Run.
End Audit.
