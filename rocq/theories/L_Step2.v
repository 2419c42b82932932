(** Runs of the base system: safety and completion. *)
From Verif Require Import Prelude M_StratifiedTank S_StratifiedTank L_StratifiedTank L_StratifiedTank2 L_StratifiedTank3
  M_MixedTank L_MixedTank M_Building L_Building M_Heater S_Heater L_Heater M_Sizing M_SimRun S_SimRun L_SimRun L_SimMisc L_Sizing3 M_Step S_Step L_Step.
Open Scope Q_scope.

Lemma heat_topped t k d h t1 s : st_wf t -> 0 <= d -> s <= h -> topped s t -> st_heat t k d h = Ok t1 -> topped s t1.
Proof.
  intros [V1 V2] Hd Hs T H. unfold topped in *. unfold st_heat in H.
  destruct (Qle_bool k 0) eqn:E1; [|destruct (Qle_bool h (st_inlet (set_outlet t h))) eqn:E2]; qbool; cbn [orb] in H;
    [apply ok_inj in H; subst t1; exact T|apply ok_inj in H; subst t1; exact T|].
  destruct (bind_ok _ _ _ H) as (v & Ev & H1). clear H. destruct (bind_ok _ _ _ H1) as (x & Ex & H2). clear H1.
  apply ok_inj in H2. subst t1. cbn in E2.
  assert (Pv : 0 <= v).
  { rewrite qdiv_ok in Ev by (cbn; intro Z; pose proof rho_pos; nra). apply ok_inj in Ev. subst v. cbn.
    apply qdiv_nonneg; [|pose proof rho_pos; apply qmul_pos; lra].
    assert (A : 0 <= k * d) by nra. assert (B : 0 <= k * d / 60) by (apply qdiv_nonneg; lra). lra. }
  rewrite qdiv_ok in Ex by (cbn; lra). apply ok_inj in Ex. subst x.
  cbn [st_delta set_delta set_outlet st_vol st_slope st_inter] in *. unfold floor_delta in *. cbn [st_delta set_delta set_outlet st_vol st_slope st_inter] in *.
  assert (A : ((s - st_inter t) / st_slope t - 100) * st_vol t / 100 <= (h - st_inter t) / st_slope t * st_vol t / 100).
  { assert (B : (s - st_inter t) / st_slope t <= (h - st_inter t) / st_slope t).
    { apply qdiv_le_iff; [exact V2|]. assert (E : (h - st_inter t) / st_slope t * st_slope t == h - st_inter t) by (field; lra). lra. }
    set (a := (s - st_inter t) / st_slope t) in *. set (c := (h - st_inter t) / st_slope t) in *. clearbody a c.
    assert (C : (a - 100) * st_vol t <= c * st_vol t) by (apply Qmult_le_compat_r; lra).
    apply qdiv_le_iff; [lra|]. assert (E : c * st_vol t / 100 * 100 == c * st_vol t) by field. lra. }
  set (fl := ((s - st_inter t) / st_slope t - 100) * st_vol t / 100) in *.
  set (mx := (h - st_inter t) / st_slope t * st_vol t / 100) in *. clearbody fl mx. qmm; lra.
Qed.

Lemma draw_topped t v c s h t1 : st_wf t -> (topped s t \/ (0 < v /\ c < h)) -> st_draw t v c s h = Ok t1 -> topped s t1.
Proof.
  intros W T H. unfold topped in *.
  destruct (Qlt_le_dec c h) as [L|L]; [destruct (Qlt_le_dec 0 v) as [L'|L']|].
  - destruct (st_draw_shape t v c s h W L L') as (y & g & Ey & _ & ->). rewrite Ey in H. apply ok_inj in H. subst t1.
    cbn. apply qmax_r.
  - unfold st_draw in H. replace (Qle_bool v 0) with true in H by (symmetry; apply qleb_true; lra).
    rewrite orb_true_r in H. apply ok_inj in H. subst t1. destruct T as [T|T]; [exact T|lra].
  - unfold st_draw in H. replace (Qle_bool h c) with true in H by (symmetry; apply qleb_true; lra).
    cbn [orb] in H. apply ok_inj in H. subst t1. destruct T as [T|T]; [exact T|lra].
Qed.

(** What stays the same during a run. *)
Definition base_inv (hs : list heater) (supply storage vol slope : Q) (s : bsys) : Prop :=
  Forall2 same_heater hs (bs_heaters s) /\ bs_supply s = supply /\ bs_storage s = storage /\
  exists tk, bs_tank s = Some tk /\ st_wf tk /\ st_vol tk = vol /\ st_slope tk = slope.

Lemma forall2_in {A B} (R : A -> B -> Prop) l r x : Forall2 R l r -> In x l -> exists y, In y r /\ R x y.
Proof. induction 1 as [|a b l r H F IH]; intros []; [subst; exists b; split; [left; reflexivity|exact H]|]. destruct (IH H0) as (y & I & J). exists y. split; [right; exact I|exact J]. Qed.

Lemma usable_range t s u : st_wf t -> st_usable t s = Ok u -> 0 <= u <= st_vol t.
Proof.
  intros W H. destruct (st_usable_ok t s W) as (x & E & A & B). rewrite E in H. apply ok_inj in H. subst x. split; assumption.
Qed.

Lemma step_physical b hs supply storage vol slope s t iv s' o :
  base_inv hs supply storage vol slope s -> base_step b s t iv = Ok (s', o) ->
  base_inv hs supply storage vol slope s' /\ physical_step b hs storage vol t iv o.
Proof.
  intros (SH & ES & EG & tk & ET & W & EV & EL) H.
  destruct (base_step_inv b s t iv s' o tk ET H) as (out & tk1 & tk2 & hs' & Ed & Eo & Ei & Eout & Ehs & Eq & E1 & E2 & Eu & Ets & Em & _ & _ & -> & _).
  destruct (heat_draw tk _ _ _ _ _ _ tk1 tk2 W E1 E2) as (W1 & W2 & A1 & A2 & A3 & A4 & A5).
  pose proof (hour_of_range t iv) as HR.
  pose proof (aquastats_same _ _ _ _ (aquastats_of _ _ _ _ (proj1 HR) Ehs)) as SH2.
  split.
  - split; [eapply same_all_trans; eassumption|]. cbn. split; [exact ES|]. split; [exact EG|]. exists tk2. rewrite A1, A2. auto.
  - destruct (six_sorted tk2 _ W2 Ets) as (L6 & SO & RG & _).
    constructor; try assumption.
    + intros avg Ha. rewrite <- Ed. f_equal. destruct avg, (existsb wh_load_shifting (bs_heaters s)) eqn:E; try reflexivity; exfalso.
      * rewrite (shifting_same _ _ SH) in E. apply not_true_iff_false in E. apply E. apply shifting_spec. apply Ha. reflexivity.
      * rewrite (shifting_same _ _ SH) in E. apply shifting_spec in E. apply Ha in E. discriminate.
    + rewrite <- EV, <- A1. apply (usable_range tk2 (bs_supply s)); assumption.
    + intros h sp x Hh Hsp Hle Hx. apply in_hour_eq in Hh. subst h.
      assert (Q : sp == out).
      { apply (outlet_for_spec) in Eout; [|apply HR]. rewrite EG in Eout. apply same_all_sym in SH. apply (setpoint_same _ _ _ _ _ SH) in Eout.
        destruct Hsp as [[N1 N2]|[(h1 & c1 & I1 & J1 & K1) M1]], Eout as [[N3 N4]|[(h2 & c2 & I2 & J2 & K2) M2]].
        - rewrite N2, N4. reflexivity.
        - exfalso. exact (N1 h2 c2 I2 J2).
        - exfalso. exact (N3 h1 c1 I1 J1).
        - pose proof (M1 h2 c2 I2 J2). pose proof (M2 h1 c1 I1 J1). rewrite K1 in *. rewrite K2 in *. lra. }
      destruct (RG x Hx) as (f & ->). pose proof (tval_range tk2 f). rewrite A4, A5 in H0. lra.
Qed.

Lemma executed_forall {St} (stp : St -> Z -> Z -> res (St * step_out)) iv (I : St -> Prop) (R : Z -> step_out -> Prop) :
  (forall s t s' o, I s -> stp s t iv = Ok (s', o) -> I s' /\ R t o) ->
  forall outs s i s', I s -> executed stp iv s i outs s' ->
  I s' /\ forall k o, nth_error outs k = Some o -> R (i + Z.of_nat k)%Z o.
Proof.
  intro T. induction outs as [|o outs IH]; intros s i s' Hs H; cbn [executed] in H.
  - subst s'. split; [exact Hs|]. intros [|k]; discriminate.
  - destruct H as (s1 & E & H). destruct (T _ _ _ _ Hs E) as [H1 R1]. destruct (IH _ _ _ H1 H) as [H2 R2].
    split; [exact H2|]. intros [|k] o' K; cbn in K.
    + injection K as <-. replace (i + Z.of_nat 0)%Z with i by lia. exact R1.
    + replace (i + Z.of_nat (S k))%Z with (i + 1 + Z.of_nat k)%Z by lia. apply R2. exact K.
Qed.

Lemma base_inv_init b s s0 tk : bs_tank s = Some tk -> st_wf tk -> init_base b s = Ok s0 ->
  base_inv (bs_heaters s) (bs_supply s) (bs_storage s) (st_vol tk) (st_slope tk) s0.
Proof.
  intros ET W H. unfold init_base in H. destruct (bind_ok _ _ _ H) as (di & _ & H1). apply ok_inj in H1. subst s0.
  rewrite ET. split; [apply same_all_refl|]. split; [reflexivity|]. split; [reflexivity|]. eexists. split; [reflexivity|].
  split; [exact W|]. split; reflexivity.
Qed.

(** *** The top of the tank *)
Lemma step_topped b hs supply storage vol slope s t iv s' o :
  (0 < iv)%Z -> base_inv hs supply storage vol slope s -> base_step b s t iv = Ok (s', o) ->
  (forall hour sp, setpoint hs storage hour sp -> supply <= sp) ->
  (forall tk, bs_tank s = Some tk -> topped supply tk) \/ draws hs storage t iv o ->
  (forall tk, bs_tank s' = Some tk -> topped supply tk) /\ supply <= top_of o.
Proof.
  intros Hiv (SH & ES & EG & tk & ET & W & EV & EL) H SP TD.
  destruct (base_step_inv b s t iv s' o tk ET H) as (out & tk1 & tk2 & hs' & Ed & Eo & Ei & Eout & Ehs & Eq & E1 & E2 & Eu & Ets & Em & _ & _ & -> & _).
  destruct (heat_draw tk _ _ _ _ _ _ tk1 tk2 W E1 E2) as (W1 & W2 & A1 & A2 & A3 & A4 & A5).
  pose proof (hour_of_range t iv) as HR.
  apply (outlet_for_spec) in Eout; [|apply HR]. rewrite EG in Eout. apply same_all_sym in SH. apply (setpoint_same _ _ _ _ _ SH) in Eout.
  pose proof (SP _ _ Eout) as Hso. rewrite ES in E2.
  assert (T2 : topped supply tk2).
  { eapply draw_topped; [exact W1| |exact E2]. destruct TD as [T|[D1 D2]].
    - left. eapply heat_topped; [exact W| |exact Hso|apply T; exact ET|exact E1]. change 0 with (qz 0). unfold qz. apply inject_Z_injective || idtac. rewrite <- Zle_Qle. lia.
    - right. split; [exact D1|]. exact (D2 _ _ (hour_of_spec t iv) Eout). }
  split; [cbn; intros x E; injection E as <-; exact T2|].
  destruct (six_sorted tk2 _ W2 Ets) as (_ & _ & _ & LT). unfold top_of. rewrite LT.
  apply topped_top; [exact W2|exact T2|rewrite A5; exact Hso].
Qed.

Lemma executed_topped b hs supply storage vol slope iv :
  (0 < iv)%Z -> (forall hour sp, setpoint hs storage hour sp -> supply <= sp) ->
  forall outs s i s', base_inv hs supply storage vol slope s -> executed (base_step b) iv s i outs s' ->
  forall j k oj ok, (j <= k)%nat -> nth_error outs j = Some oj -> nth_error outs k = Some ok ->
    (forall tk, bs_tank s = Some tk -> topped supply tk) \/ draws hs storage (i + Z.of_nat j) iv oj -> supply <= top_of ok.
Proof.
  intros Hiv SP. induction outs as [|o outs IH]; intros s i s' BI H j k oj ok Ljk Ej Ek TD; [destruct j; discriminate|].
  cbn [executed] in H. destruct H as (s1 & E & H).
  destruct (step_physical _ _ _ _ _ _ _ _ _ _ _ BI E) as [BI1 _].
  destruct j as [|j].
  - cbn in Ej. injection Ej as ->. replace (i + Z.of_nat 0)%Z with i in TD by lia.
    destruct (step_topped _ _ _ _ _ _ _ _ _ _ _ Hiv BI E SP TD) as [T1 R1].
    destruct k as [|k]; cbn in Ek; [injection Ek as <-; exact R1|].
    destruct outs as [|o2 outs]; [destruct k; discriminate|].
    apply (IH s1 (i + 1)%Z s' BI1 H 0%nat k o2 ok ltac:(lia) eq_refl Ek). left. exact T1.
  - destruct k as [|k]; [lia|]. cbn in Ej, Ek.
    apply (IH s1 (i + 1)%Z s' BI1 H j k oj ok ltac:(lia) Ej Ek).
    destruct TD as [T|D]; [left|right; replace (i + 1 + Z.of_nat j)%Z with (i + Z.of_nat (S j))%Z by lia; exact D].
    exact (proj1 (step_topped _ _ _ _ _ _ _ _ _ _ _ Hiv BI E SP (or_introl T))).
Qed.

(** *** Completion *)
Lemma py_nth_total {A} (l : list A) i : (0 <= i < Z.of_nat (length l))%Z -> exists x, py_nth l i = Ok x /\ In x l.
Proof.
  intro B. destruct (nth_error l (Z.to_nat i)) as [x|] eqn:E; [|apply nth_error_None in E; lia].
  exists x. split; [apply py_nth_nonneg; [lia|exact E]|apply (nth_error_In _ _ E)].
Qed.

Lemma month_scan_range d : forall k, (0 <= month_scan d k)%Z /\ (k <> O -> (month_scan d k < Z.of_nat k)%Z).
Proof.
  induction k as [|k [IH1 IH2]]; cbn [month_scan]; [split; [lia|congruence]|].
  destruct (nth k month_start_day 0 <=? d)%Z; [split; lia|]. split; [exact IH1|]. intros _.
  destruct k; [cbn; lia|]. specialize (IH2 ltac:(congruence)). lia.
Qed.

Lemma complete_answers b : complete b -> forall t iv,
  (forall avg, exists d, bd_load b t iv avg = Ok d) /\ (exists o, bd_oat b t iv = Ok o) /\ (exists c, bd_inlet b t iv = Ok c) /\
  exists di, bd_design_inlet b = Ok di.
Proof.
  intros (P & A & c & Ec & O & C) t iv. split; [|split; [|split]].
  - intro avg. unfold bd_load. set (l := if avg then bd_avg b else bd_peak b).
    assert (N : l <> []) by (unfold l; destruct avg; assumption). clearbody l.
    assert (L : (0 < Z.of_nat (length l))%Z) by (destruct l; [congruence|cbn [length]; lia]).
    replace (Z.of_nat (length l) =? 0)%Z with false by lia.
    destruct (py_nth_total l ((t * iv / 60) mod Z.of_nat (length l))) as (x & E & _); [apply Z.mod_pos_bound; exact L|].
    rewrite E. eexists. reflexivity.
  - unfold bd_oat, cz_get_oat. rewrite Ec. destruct (cz_const_oat c); [eexists; reflexivity|].
    destruct O as [O|(l & El & N)]; [congruence|]. rewrite El.
    assert (L : (0 < Z.of_nat (length l))%Z) by (destruct l; [congruence|cbn [length]; lia]).
    replace (Z.of_nat (length l) =? 0)%Z with false by lia.
    destruct (py_nth_total l ((t * iv / 60) mod Z.of_nat (length l))) as (x & E & _); [apply Z.mod_pos_bound; exact L|]. exists x. exact E.
  - unfold bd_inlet, cz_get_inlet. rewrite Ec. destruct (cz_const_inlet c); [eexists; reflexivity|].
    destruct C as [C|(l & El & N)]; [congruence|]. rewrite El.
    destruct (month_scan_range ((t * iv / (60 * 24)) mod 365) 12) as [M1 M2].
    destruct (py_nth_total l (day_of_year_to_month ((t * iv / (60 * 24)) mod 365))) as (x & E & _); [unfold day_of_year_to_month; lia|]. exists x. exact E.
  - unfold bd_design_inlet, cz_design_inlet. rewrite Ec. destruct (cz_const_inlet c); [eexists; reflexivity|].
    destruct C as [C|(l & El & N)]; [congruence|]. rewrite El. destruct l; [cbn in N; lia|]. eexists. reflexivity.
Qed.

Lemma scheduled_effect h hour : scheduled h -> (0 <= hour < 24)%Z -> exists c, in_effect h hour c.
Proof.
  intros (s & d & Es & Ed & L & K) H. destruct (nth_error s (Z.to_nat hour)) as [k|] eqn:E; [|apply nth_error_None in E; lia].
  destruct (K k (nth_error_In _ _ E)) as (c & Ec). exists c. split; [lia|]. exists s, d, k. auto.
Qed.

Lemma mapM_exists {A B} (f : A -> res B) l : (forall x, In x l -> exists y, f x = Ok y) -> exists r, mapM f l = Ok r.
Proof.
  induction l as [|a l IH]; intro H; [eexists; reflexivity|]. destruct (H a (or_introl eq_refl)) as (y & E).
  destruct IH as (r & E2); [intros x I; apply H; right; exact I|]. cbn. rewrite E, E2. eexists. reflexivity.
Qed.

Lemma st_usable_total t s : st_wf t -> exists u, st_usable t s = Ok u.
Proof. intros [V1 V2]. unfold st_usable. rewrite !qdiv_ok by lra. eexists. reflexivity. Qed.

(** The heaters' part of a step succeeds. *)
Lemma heaters_total hs storage tk hour oat inlet : Forall scheduled hs -> Forall rated hs -> st_wf tk -> (0 <= hour < 24)%Z ->
  exists out m hs' q kws, outlet_for hs storage hour = Ok out /\ mode_for hs hour = Ok m /\
    mapM (fun h => wh_update h (st_temp tk) hour) hs = Ok hs' /\ total_output hs' oat inlet hour = Ok q /\
    active_powers hs' oat inlet hour = Ok kws /\ Forall scheduled hs' /\ Forall rated hs'.
Proof.
  intros FS FR W HH. rewrite Forall_forall in FS, FR.
  assert (EF : forall h, In h hs -> exists c, wh_controls_for h hour = Ok (Some c)).
  { intros h I. destruct (scheduled_effect h hour (FS h I) HH) as (c & E). exists c. apply in_effect_iff; [lia|exact E]. }
  destruct (mapM_exists (fun h => wh_controls_for h hour) hs) as (cs & Ecs).
  { intros h I. destruct (EF h I) as (c & E). exists (Some c). exact E. }
  assert (OUT : exists out, outlet_for hs storage hour = Ok out).
  { unfold outlet_for. rewrite Ecs. cbn [bind]. destruct (map ct_outlet (somes cs)); eexists; reflexivity. }
  destruct OUT as (out & Eout).
  assert (MO : exists m, mode_for hs hour = Ok m).
  { unfold mode_for. destruct hs as [|h hs0]; [eexists; reflexivity|]. destruct (FS h (or_introl eq_refl)) as (s & d & Es & _ & L & _).
    rewrite Es. destruct s as [|k s]; [eexists; reflexivity|]. destruct (py_nth_total (k :: s) hour) as (x & E & _); [lia|]. exists x. exact E. }
  destruct MO as (m & Em).
  destruct (mapM_exists (fun h => wh_update h (st_temp tk) hour) hs) as (hs' & Ehs).
  { intros h I. destruct (scheduled_effect h hour (FS h I) HH) as (c & E).
    apply (c30_step_succeeds h (st_temp tk) hour c (tval tk (ct_on_sensor c)) (tval tk (ct_off_sensor c)) E); apply st_temp_ok; exact W. }
  pose proof (aquastats_same _ _ _ _ (aquastats_of _ _ _ _ (proj1 HH) Ehs)) as SH.
  assert (FS' : Forall scheduled hs').
  { apply Forall_forall. intros h I. apply same_all_sym in SH. destruct (forall2_in _ _ _ h SH I) as (h0 & I0 & (_ & A & B)).
    destruct (FS h0 I0) as (s & d & X). exists s, d. rewrite <- A, <- B. exact X. }
  assert (FR' : Forall rated hs').
  { apply Forall_forall. intros h I. apply same_all_sym in SH. destruct (forall2_in _ _ _ h SH I) as (h0 & I0 & (A & _ & _)).
    intros oa ou il. destruct (FR h0 I0 oa ou il) as (c & w & X). exists c, w. unfold wh_capacity, wh_power in *. rewrite <- A. exact X. }
  assert (EF' : forall h, In h hs' -> exists c, wh_controls_for h hour = Ok (Some c)).
  { intros h I. destruct (scheduled_effect h hour (proj1 (Forall_forall _ _) FS' h I) HH) as (c & E). exists c. apply in_effect_iff; [lia|exact E]. }
  assert (TO : exists l, mapM (fun h => do o <- wh_outlet_temp h hour; wh_output h (Some oat) o (Some inlet)) hs' = Ok l).
  { apply mapM_exists. intros h I. destruct (EF' h I) as (c & E). unfold wh_outlet_temp. rewrite E. cbn [bind].
    unfold wh_output. destruct (negb (wh_active h)); [eexists; reflexivity|].
    destruct (proj1 (Forall_forall _ _) FR' h I oat (ct_outlet c) (Some inlet)) as (cap & w & E1 & _). rewrite E1. eexists. reflexivity. }
  destruct TO as (l & El).
  assert (PO : exists kws, active_powers hs' oat inlet hour = Ok kws).
  { unfold active_powers. apply mapM_exists. intros h I. apply filter_In in I. destruct I as [I _].
    destruct (EF' h I) as (c & E). unfold wh_outlet_temp. rewrite E. cbn [bind].
    destruct (proj1 (Forall_forall _ _) FR' h I oat (ct_outlet c) (Some inlet)) as (cap & w & _ & E1). rewrite E1. eexists. reflexivity. }
  destruct PO as (kws & Ek).
  exists out, m, hs', (qsum l), kws. split; [exact Eout|]. split; [exact Em|]. split; [exact Ehs|].
  split; [unfold total_output; rewrite El; reflexivity|]. split; [exact Ek|]. split; [exact FS'|exact FR'].
Qed.

Definition base_ready (s : bsys) : Prop :=
  Forall scheduled (bs_heaters s) /\ Forall rated (bs_heaters s) /\ exists tk, bs_tank s = Some tk /\ st_wf tk.

Lemma base_step_total b s t iv : complete b -> base_ready s ->
  exists s' o, base_step b s t iv = Ok (s', o) /\ base_ready s' /\ length (so_temps o) = 6%nat /\
    bs_supply s' = bs_supply s /\ bs_storage s' = bs_storage s.
Proof.
  intros CB (FS & FR & tk & ET & W).
  destruct (complete_answers b CB t iv) as (Ld & (oat & Eo) & (inlet & Ei) & _).
  destruct (Ld (existsb wh_load_shifting (bs_heaters s))) as (d & Ed).
  pose proof (hour_of_range t iv) as HR.
  destruct (heaters_total (bs_heaters s) (bs_storage s) tk (hour_of t iv) oat inlet FS FR W HR)
    as (out & m & hs' & q & kws & Eout & Em & Ehs & Eq & Ek & FS' & FR').
  destruct (st_step_ok tk (SHeat q (qz iv) out) W) as (tk1 & E1 & A1 & A2 & _). cbn [st_step] in E1.
  assert (W1 : st_wf tk1) by (unfold st_wf in *; rewrite A1, A2; exact W).
  destruct (st_step_ok tk1 (SDraw d inlet (bs_supply s) out) W1) as (tk2 & E2 & B1 & B2 & _). cbn [st_step] in E2.
  assert (W2 : st_wf tk2) by (unfold st_wf in *; rewrite B1, B2; exact W1).
  destruct (st_usable_total tk2 (bs_supply s) W2) as (u & Eu).
  exists (mkBsys hs' (Some tk2) (bs_supply s) (bs_storage s)),
    (mkStep d u q (total_kw kws) oat inlet (map (tval tk2) six_heights) m None None None None).
  split.
  - unfold base_step. rewrite Ed. cbn [bind]. rewrite Eo. cbn [bind]. rewrite Ei. cbn [bind]. rewrite Eout. cbn [bind]. rewrite Em. cbn [bind].
    rewrite ET. rewrite Ehs. cbn [bind]. rewrite st_temp_ok by exact W. cbn [bind]. rewrite Eq. cbn [bind]. rewrite Ek. cbn [bind].
    rewrite E1. cbn [bind]. rewrite E2. cbn [bind]. rewrite Eu. cbn [bind]. rewrite six_temps_ok by exact W2. reflexivity.
  - split; [split; [exact FS'|]; split; [exact FR'|]; exists tk2; split; [reflexivity|exact W2]|].
    split; [reflexivity|]. split; reflexivity.
Qed.

Definition known_duration (dur : string) : Prop := dur = "3day"%string \/ dur = "annual"%string.

Lemma simulate_total {St} (stp : St -> Z -> Z -> res (St * step_out)) (P : St -> Prop) s supply dur thr maxm tm :
  (forall s i iv, P s -> exists s' o, stp s i iv = Ok (s', o) /\ P s' /\ length (so_temps o) = 6%nat) ->
  P s -> known_duration dur -> exists s' r, simulate stp s supply dur thr maxm tm = Ok (s', r).
Proof.
  intros T Hs D.
  assert (TT : forall s i iv, P s -> exists s' o, stp s i iv = Ok (s', o) /\ P s' /\ so_temps o <> [] /\ (length (so_temps o) <= 6)%nat).
  { intros s1 i iv H1. destruct (T s1 i iv H1) as (s' & o & E & H2 & L). exists s', o. split; [exact E|]. split; [exact H2|].
    split; [intro N; rewrite N in L; discriminate|lia]. }
  unfold simulate. assert (ST : exists a c, sim_times dur = Ok (a, c)) by (destruct D as [-> | ->]; eexists; eexists; reflexivity).
  destruct ST as (a & c & Est). rewrite Est. cbn [bind].
  destruct (sim_loop_total stp supply P TT (Z.to_nat (a / c)) 0 s (sr_new a c thr maxm tm) Hs eq_refl) as ([s' r] & E).
  exists s', r. exact E.
Qed.

Lemma init_base_total b s : complete b -> base_ready s -> exists s0, init_base b s = Ok s0 /\ base_ready s0.
Proof.
  intros C (FS & FR & tk & ET & W). destruct (complete_answers b C 0 1) as (_ & _ & _ & di & E).
  unfold init_base. rewrite E. cbn [bind]. eexists. split; [reflexivity|]. split; [exact FS|]. split; [exact FR|].
  cbn. rewrite ET. eexists. split; [reflexivity|exact W].
Qed.

Lemma base_completes b s dur thr maxm : complete b -> base_ready s -> known_duration dur ->
  exists s' r, simulate_base b s dur thr maxm = Ok (s', r).
Proof.
  intros C R D. destruct (init_base_total b s C R) as (s0 & E & R0). unfold simulate_base. rewrite E. cbn [bind].
  apply (simulate_total (base_step b) base_ready); [|exact R0|exact D].
  intros s1 i iv H. destruct (base_step_total b s1 i iv C H) as (s' & o & E1 & R1 & L & _). exists s', o. auto.
Qed.
