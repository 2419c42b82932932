(** Lemmas for C46. *)
From Verif Require Import Prelude M_StratifiedTank M_Building M_Heater M_Sizing S_Sizing L_Building L_Sizing L_Sizing3 M_Swing S_Swing L_Swing L_Swing2 L_Swing3.
Open Scope Q_scope.

Lemma er_step_ok v on t hw feed :
  0 < sv_vol v -> 0 < sv_cap v -> 0 <= hw -> hw < sv_vol v ->
  exists on' t2 t3 run short t', swing_step_er v on t hw feed = Ok (on', t', short) /\
    idle_temp (tank_of v) t hw feed t2 /\ thermostat (tank_of v) on t2 on' t3 run /\
    short == qmax 0 (sv_supply v - t3) /\ t' == t3 + short /\ sv_supply v <= t' /\ 0 <= short.
Proof.
  intros V C H0 H1.
  destruct (mix_ok v t hw feed V H0 H1) as (t1 & M & M1).
  destruct (lose_ok v t1 V) as (t2 & L & L1).
  destruct (element_ok v V) as (dt & E & E1).
  pose proof (vb_pos v V) as VB.
  assert (DT : 0 < dt).
  { apply (mul_lt_inv _ _ _ VB). pose proof (minute_btu_lt _ _ C). assert (minute_btu 0 == 0) by reflexivity. lra. }
  destruct (element_thermostat v on t2 dt V E1 (or_introl DT)) as (on' & t3 & run & EL & TH & TE).
  unfold swing_step_er. rewrite M. cbn [bind]. rewrite L. cbn [bind]. rewrite E. cbn [bind]. rewrite EL. cbn [bind].
  exists on', t2, t3, run. destruct (qltb t3 (sv_supply v)) eqn:Q; qbool.
  - exists (sv_supply v - t3), (sv_supply v). split; [reflexivity|]. split; [apply (idle_comb _ _ t1); assumption|].
    split; [exact TH|]. split; [destruct (qmax_spec 0 (sv_supply v - t3)) as [[X ->]|[X ->]]; lra|]. repeat split; lra.
  - exists 0, t3. split; [reflexivity|]. split; [apply (idle_comb _ _ t1); assumption|].
    split; [exact TH|]. split; [destruct (qmax_spec 0 (sv_supply v - t3)) as [[X ->]|[X ->]]; lra|]. repeat split; lra.
Qed.

Lemma er_feed_ok v hw hot : 0 <= hw -> exists feed, er_feed v hw hot = Ok feed /\ feed_heat (tank_of v) hw hot feed.
Proof.
  intro H. unfold er_feed, feed_heat. cbn [tk_inlet tk_storage tank_of].
  destruct (Qle_bool hw 0) eqn:A; cbn [orb]; qbool.
  - eexists. split; [reflexivity|]. assert (Z : hw == 0) by lra.
    assert (M : qmin hw (qmax 0 hot) == 0).
    { pose proof (qmax_l 0 hot). destruct (qmin_spec hw (qmax 0 hot)) as [[X ->]|[X ->]]; lra. }
    rewrite M, Z. ring.
  - destruct (Qle_bool hot 0) eqn:B; qbool.
    + eexists. split; [reflexivity|].
      assert (M : qmin hw (qmax 0 hot) == 0).
      { assert (qmax 0 hot == 0) by (destruct (qmax_spec 0 hot) as [[X ->]|[X ->]]; lra).
        destruct (qmin_spec hw (qmax 0 hot)) as [[X ->]|[X ->]]; lra. }
      rewrite M. ring.
    + assert (MX : qmax 0 hot == hot) by (destruct (qmax_spec 0 hot) as [[X ->]|[X ->]]; lra).
      destruct (Qle_bool hw hot) eqn:D; qbool.
      * eexists. split; [reflexivity|].
        assert (M : qmin hw (qmax 0 hot) == hw) by (destruct (qmin_spec hw (qmax 0 hot)) as [[X ->]|[X ->]]; lra).
        rewrite M. reflexivity.
      * rewrite qdiv_ok by lra. eexists. split; [reflexivity|].
        assert (M : qmin hw (qmax 0 hot) == hot) by (destruct (qmin_spec hw (qmax 0 hot)) as [[X ->]|[X ->]]; lra).
        rewrite M. field. lra.
Qed.

Lemma er_loop_ok v gen full : 0 < sv_vol v -> 0 < sv_cap v -> sv_inlet v < sv_supply v ->
  forall l on t level worst, (forall x, In x l -> 0 <= x < sv_vol v) -> sv_supply v <= t ->
  exists w shorts, er_loop v gen full on t level worst l = Ok w /\
    er_days (tank_of v) gen full on t level l shorts /\
    worst <= w /\ (forall s, In s shorts -> 0 <= s <= w) /\ (w = worst \/ In w shorts).
Proof.
  intros V C I. induction l as [|x l IH]; intros on t level worst B T; cbn [er_loop].
  - exists worst, []. split; [reflexivity|]. split; [constructor|]. split; [lra|]. split; [intros s []|left; reflexivity].
  - destruct (B x (or_introl eq_refl)) as [X0 X1].
    destruct (from_primary_ok v t x I T X0) as (hw & F & M & H0 & H1). rewrite F. cbn [bind].
    destruct (er_feed_ok v hw (level + gen) H0) as (feed & FD & FH). rewrite FD. cbn [bind].
    destruct (er_step_ok v on t hw feed V C H0 (Qle_lt_trans _ _ _ H1 X1)) as (on' & t2 & t3 & run & short & t' & S1 & ID & TH & SH & TE & TS & S0).
    rewrite S1. cbn [bind].
    destruct (IH on' t' (qmin (qmax (level + gen - hw) 0) full) (if qltb worst short then short else worst) (fun y Y => B y (or_intror Y)) TS)
      as (w & shorts & E & ED & W & SB & WI).
    exists w, (short :: shorts). split; [exact E|]. split; [econstructor; eauto; reflexivity|].
    destruct (qltb worst short) eqn:Q; qbool.
    + split; [lra|]. split; [intros s [<-|Y]; [lra|apply SB; exact Y]|]. right. destruct WI as [->|WI]; [left; reflexivity|right; exact WI].
    + split; [lra|]. split; [intros s [<-|Y]; [lra|apply SB; exact Y]|]. destruct WI as [->|WI]; [left; reflexivity|right; right; exact WI].
Qed.

Lemma er_days_proper k gen full on t level l sh : er_days k gen full on t level l sh ->
  forall gen' l', gen == gen' -> Forall2 Qeq l l' -> er_days k gen' full on t level l' sh.
Proof.
  induction 1; intros gen' l' G F; inversion F; subst; [constructor|].
  econstructor; eauto.
  - unfold meets_demand in *. rewrite H. match goal with E : _ == y |- _ => rewrite E end. reflexivity.
  - unfold feed_heat in *. rewrite H0.
    assert (E : qmax 0 (level + gen) == qmax 0 (level + gen')) by (destruct (qmax_spec 0 (level + gen)) as [[X ->]|[X ->]]; destruct (qmax_spec 0 (level + gen')) as [[Y ->]|[Y ->]]; lra).
    assert (E2 : qmin hw (qmax 0 (level + gen)) == qmin hw (qmax 0 (level + gen'))) by (destruct (qmin_spec hw (qmax 0 (level + gen))) as [[X ->]|[X ->]]; destruct (qmin_spec hw (qmax 0 (level + gen'))) as [[Y ->]|[Y ->]]; lra).
    rewrite E2. reflexivity.
  - rewrite H5.
    assert (E : qmax (level + gen - hw) 0 == qmax (level + gen' - hw) 0) by (destruct (qmax_spec (level + gen - hw) 0) as [[X ->]|[X ->]]; destruct (qmax_spec (level + gen' - hw) 0) as [[Y ->]|[Y ->]]; lra).
    destruct (qmin_spec (qmax (level + gen - hw) 0) full) as [[X ->]|[X ->]]; destruct (qmin_spec (qmax (level + gen' - hw) 0) full) as [[Y ->]|[Y ->]]; lra.
Qed.

(** ** The demand *)
Lemma filter_seq_head f : forall n a p r, filter f (seq a n) = p :: r -> forall j, In j (p :: r) -> (p <= j)%nat.
Proof.
  induction n as [|n IH]; intros a p r H j J; cbn [seq filter] in H; [discriminate|].
  destruct (f a) eqn:E.
  - injection H as <- <-. destruct J as [<-|J]; [lia|]. apply filter_In in J. destruct J as [J _]. apply in_seq in J. lia.
  - exact (IH _ _ _ H j J).
Qed.

Lemma triple_nth l i k : length l = 24%nat -> (i < 24)%nat -> (k < 48)%nat ->
  nth k (firstn 48 (skipn i (l ++ l ++ l))) 0 = nth ((i + k) mod 24) l 0.
Proof.
  intros L H K. rewrite nth_firstn by exact K. rewrite nth_skipn.
  destruct (Nat.lt_ge_cases (i + k) 24) as [A|A].
  - rewrite app_nth1 by lia. rewrite Nat.mod_small by exact A. reflexivity.
  - rewrite app_nth2 by lia. rewrite L. destruct (Nat.lt_ge_cases (i + k) 48) as [B|B].
    + rewrite app_nth1 by lia. replace (i + k)%nat with (i + k - 24 + 1 * 24)%nat at 2 by lia.
      rewrite Nat.mod_add by lia. rewrite Nat.mod_small by lia. reflexivity.
    + rewrite app_nth2 by lia. rewrite L. replace (i + k)%nat with (i + k - 24 - 24 + 2 * 24)%nat at 2 by lia.
      rewrite Nat.mod_add by lia. rewrite Nat.mod_small by lia. reflexivity.
Qed.

Lemma er_demand_ok run daily shape : 0 < run -> length shape = 24%nat ->
  exists i l, er_demand run daily shape = Ok l /\ first_onset run shape i /\ (i < 24)%nat /\
    Forall2 Qeq l (map (minute_demand daily shape i) (seq 0 two_days)) /\
    (forall x, In x l -> exists y, In y shape /\ x = y * daily / 60).
Proof.
  intros R L. unfold er_demand. rewrite qdiv_ok by lra. cbn [bind].
  destruct (vsub_total (repeat (1 / run) 24) shape) as (diff & VS); [rewrite repeat_length, L; reflexivity|].
  rewrite VS. cbn [bind].
  pose proof (fun i => onset_peaks _ _ diff i L R VS) as ON.
  set (i := match peak_indices diff with p :: _ => p | [] => 0%nat end).
  assert (FO : first_onset run shape i /\ (i < 24)%nat).
  { unfold i. destruct (peak_indices diff) as [|p r] eqn:PK.
    - split; [|lia]. right. split; [|reflexivity]. intros j J. apply ON in J. destruct J.
    - assert (OP : onset run shape p) by (apply ON; left; reflexivity). split; [|apply OP].
      left. split; [exact OP|]. intros j J. apply ON in J. unfold peak_indices in PK. exact (filter_seq_head _ _ _ _ _ PK j J). }
  clearbody i. exists i. eexists. split; [reflexivity|]. destruct FO as [FO I24]. split; [exact FO|]. split; [exact I24|].
  set (l := map (fun f => f * daily) shape).
  assert (LL : length l = 24%nat) by (unfold l; rewrite map_length; exact L).
  assert (L48 : length (firstn 48 (skipn i (l ++ l ++ l))) = 48%nat).
  { rewrite firstn_length, skipn_length, !app_length. lia. }
  assert (LP : length (per_minute (firstn 48 (skipn i (l ++ l ++ l)))) = two_days).
  { unfold per_minute. rewrite map_length, hr_to_min_length, L48. reflexivity. }
  split.
  - rewrite <- LP. apply forall2_seq. intros n N. rewrite LP in N. unfold two_days in N. unfold per_minute.
    rewrite nth_map by (rewrite hr_to_min_length, L48; lia).
    rewrite hr_to_min_nth by (rewrite L48; lia).
    assert (D : (n / 60 < 48)%nat) by (apply Nat.div_lt_upper_bound; lia).
    rewrite triple_nth by lia. unfold l. rewrite nth_map by (rewrite L; apply Nat.mod_upper_bound; lia).
    unfold minute_demand. rewrite L. unfold Qdiv. ring.
  - intros x X. unfold per_minute in X. apply in_map_iff in X. destruct X as (y & <- & Y).
    unfold hr_to_min in Y. apply in_flat_map in Y. destruct Y as (z & Z & Y). apply repeat_spec in Y. subst y.
    assert (In z l).
    { apply (In_nth _ _ 0) in Z. destruct Z as (n & N & <-). rewrite L48 in N. rewrite triple_nth by lia.
      apply nth_In. rewrite LL. apply Nat.mod_upper_bound. lia. }
    unfold l in H. apply in_map_iff in H. destruct H as (y & <- & Y). exists y. auto.
Qed.
