(** Lemmas for the swing-tank properties C43-C46. *)
From Verif Require Import Prelude M_StratifiedTank M_Building M_Heater M_Sizing S_Sizing L_Building L_Sizing L_Sizing3 M_Swing S_Swing.
Open Scope Q_scope.

Definition tank_of (v : swing_env) : swing_tank :=
  mkTank (sv_supply v) (sv_storage v) (sv_inlet v) (sv_loss v) (sv_vol v) (sv_cap v).

Lemma rho_pos : 0 < rho_cp. Proof. reflexivity. Qed.
Lemma rv_pos v : 0 < sv_vol v -> 0 < rho_cp * sv_vol v.
Proof. intro H. apply qmul_pos; [exact rho_pos|exact H]. Qed.

(** ** One minute *)
Lemma mix_ok v t hw feed : 0 < sv_vol v -> 0 <= hw -> hw < sv_vol v ->
  exists t1, swing_mix v t hw feed = Ok t1 /\ sv_vol v * (t1 - t) == hw * (feed - t).
Proof.
  intros V H0 H1. unfold swing_mix. destruct (qltb 0 hw) eqn:A; qbool.
  - destruct (Qle_bool (sv_vol v - hw) 0) eqn:B; qbool; [lra|]. rewrite qdiv_ok by lra.
    eexists. split; [reflexivity|]. field. lra.
  - exists t. split; [reflexivity|]. assert (hw == 0) by lra. rewrite H. ring.
Qed.
Lemma lose_ok v t : 0 < sv_vol v -> exists t2, swing_lose v t = Ok t2 /\
  sv_vol v * btu_gal_f * (t2 - t) == - minute_btu (sv_loss v).
Proof.
  intro V. unfold swing_lose. pose proof (rv_pos v V) as P. rewrite qdiv_ok by lra. cbn [bind].
  eexists. split; [reflexivity|]. unfold minute_btu, btu_gal_f. change rho_cp with (8353535 # 1000000) in *. field. lra.
Qed.
Lemma element_ok v : 0 < sv_vol v -> exists dt, element_dt v = Ok dt /\
  sv_vol v * btu_gal_f * dt == minute_btu (sv_cap v).
Proof.
  intro V. unfold element_dt. pose proof (rv_pos v V) as P. rewrite qdiv_ok by lra.
  eexists. split; [reflexivity|]. unfold minute_btu, btu_gal_f. change rho_cp with (8353535 # 1000000) in *. field. lra.
Qed.

Lemma element_thermostat v on t2 dt : 0 < sv_vol v -> sv_vol v * btu_gal_f * dt == minute_btu (sv_cap v) ->
  0 < dt \/ (dt == 0 /\ on = false /\ sv_supply v < t2) ->
  exists on' t' run, swing_element v on t2 dt = Ok (on', t', run) /\
    thermostat (tank_of v) on t2 on' t' run /\ t' == t2 + dt * run.
Proof.
  intros V D C. unfold swing_element, thermostat. cbn [tk_supply tk_storage tk_vol tk_cap tank_of].
  assert (C' : 0 < dt \/ (dt == 0 /\ on = false /\ sv_supply v < t2)) by exact C.
  destruct on.
  - destruct C as [C|(_ & C & _)]; [|discriminate C].
    destruct (qltb (sv_supply v + deadband) (t2 + dt)) eqn:A; qbool.
    + rewrite qdiv_ok by lra. cbn [bind]. set (r := (t2 + dt - (sv_supply v + deadband)) / dt).
      assert (R : r * dt == t2 + dt - (sv_supply v + deadband)) by (apply qdiv_mul; lra).
      assert (R0 : 0 < r) by (apply qdiv_pos; lra). clearbody r. unfold deadband in *.
      do 3 eexists. split; [reflexivity|].
      destruct (qmin_spec r 1) as [[P Q]|[P Q]]; rewrite Q; split; try ring.
      * split; [rewrite <- D; ring|]. split; [split; lra|]. right. split; [reflexivity|].
        assert (E : t2 + dt - dt * r == sv_supply v + 8) by lra. split; [lra|].
        split; [right; exact E|]. rewrite <- D.
        apply Qmult_lt_l; [apply qmul_pos; [exact V|reflexivity]|lra].
      * split; [rewrite <- D; ring|]. split; [split; lra|]. right. split; [reflexivity|].
        assert (1 * dt < r * dt) by (apply Qmult_lt_r; lra).
        split; [lra|]. split; [left; ring|]. rewrite <- D.
        apply Qmult_lt_l; [apply qmul_pos; [exact V|reflexivity]|lra].
    + do 3 eexists. split; [reflexivity|]. split; [|ring]. split; [rewrite <- D; ring|]. split; [split; lra|].
      left. unfold deadband in *. split; [reflexivity|]. split; [reflexivity|exact A].
  - destruct (Qle_bool t2 (sv_supply v)) eqn:A; qbool.
    + destruct C as [C|(_ & _ & C)]; [|lra].
      rewrite qdiv_ok by lra. cbn [bind]. set (r := (sv_supply v - t2) / dt).
      assert (R : r * dt == sv_supply v - t2) by (apply qdiv_mul; lra).
      assert (R0 : 0 <= r) by (apply qdiv_nonneg; lra). clearbody r.
      do 3 eexists. split; [reflexivity|].
      destruct (qmin_spec r 1) as [[P Q]|[P Q]]; rewrite Q; split; try reflexivity.
      * split; [rewrite <- D; ring|]. split; [split; lra|]. right. split; [lra|]. split; [reflexivity|].
        split; [right; lra|lra].
      * assert (1 * dt < r * dt) by (apply Qmult_lt_r; lra).
        split; [rewrite <- D; ring|]. split; [split; lra|]. right. split; [lra|]. split; [reflexivity|].
        split; [left; reflexivity|lra].
    + do 3 eexists. split; [reflexivity|]. split; [|ring]. split; [rewrite <- D; ring|]. split; [split; lra|].
      left. split; [lra|]. split; reflexivity.
Qed.

(** The invariant of the sizing simulation. *)
Definition swing_inv (v : swing_env) (on : bool) (t : Q) : Prop :=
  sv_supply v <= t /\ (0 < sv_cap v \/ (on = false /\ sv_supply v < t)).

Lemma idle_comb v t t1 t2 hw feed :
  sv_vol v * (t1 - t) == hw * (feed - t) -> sv_vol v * btu_gal_f * (t2 - t1) == - minute_btu (sv_loss v) ->
  idle_temp (tank_of v) t hw feed t2.
Proof.
  intros A B. unfold idle_temp. cbn [tk_vol tk_loss tank_of].
  setoid_replace (sv_vol v * btu_gal_f * (t2 - t)) with (sv_vol v * btu_gal_f * (t2 - t1) + btu_gal_f * (sv_vol v * (t1 - t))) by ring.
  rewrite A, B. ring.
Qed.

Lemma vb_pos v : 0 < sv_vol v -> 0 < sv_vol v * btu_gal_f.
Proof. intro V. apply qmul_pos; [exact V|reflexivity]. Qed.

Lemma mul_le_inv k a b : 0 < k -> k * a <= k * b -> a <= b.
Proof. intros K H. apply (Qmult_le_l a b k K). exact H. Qed.
Lemma mul_lt_inv k a b : 0 < k -> k * a < k * b -> a < b.
Proof. intros K H. apply (Qmult_lt_l a b k K). exact H. Qed.

Lemma minute_btu_le a b : a <= b -> minute_btu a <= minute_btu b.
Proof. intro H. unfold minute_btu. unfold Qdiv. apply Qmult_le_compat_r; [lra|discriminate]. Qed.
Lemma minute_btu_lt a b : a < b -> minute_btu a < minute_btu b.
Proof. intro H. unfold minute_btu. unfold Qdiv. apply Qmult_lt_r; [reflexivity|lra]. Qed.

Lemma step_ok v on t hw feed :
  0 < sv_vol v -> 0 <= sv_loss v -> sv_loss v <= sv_cap v -> 0 <= hw -> hw < sv_vol v ->
  sv_supply v <= feed -> swing_inv v on t ->
  exists on' t2 t' run, swing_step v on t hw feed = Ok (on', t', run) /\
    idle_temp (tank_of v) t hw feed t2 /\ thermostat (tank_of v) on t2 on' t' run /\
    swing_inv v on' t' /\ t' <= qmax (qmax t feed) (sv_supply v + 8).
Proof.
  intros V L0 LC H0 H1 F [T0 T1].
  destruct (mix_ok v t hw feed V H0 H1) as (t1 & M & M1).
  destruct (lose_ok v t1 V) as (t2 & L & L1).
  destruct (element_ok v V) as (dt & E & E1).
  pose proof (vb_pos v V) as VB.
  assert (B1 : sv_supply v <= t1).
  { apply (mul_le_inv (sv_vol v)); [exact V|].
    assert (0 <= hw * (feed - sv_supply v)) by (apply qmul_nonneg; lra).
    assert (0 <= (sv_vol v - hw) * (t - sv_supply v)) by (apply qmul_nonneg; lra). lra. }
  assert (B1s : sv_supply v < t -> sv_supply v < t1).
  { intro T. apply (mul_lt_inv (sv_vol v)); [exact V|].
    assert (0 <= hw * (feed - sv_supply v)) by (apply qmul_nonneg; lra).
    assert (0 < (sv_vol v - hw) * (t - sv_supply v)) by (apply qmul_pos; lra). lra. }
  assert (B2 : t1 <= qmax t feed).
  { pose proof (qmax_l t feed). pose proof (qmax_r t feed). set (m := qmax t feed) in *. clearbody m.
    apply (mul_le_inv (sv_vol v)); [exact V|].
    assert (0 <= hw * (m - feed)) by (apply qmul_nonneg; lra).
    assert (0 <= (sv_vol v - hw) * (m - t)) by (apply qmul_nonneg; lra). lra. }
  assert (B3 : t2 <= t1).
  { apply (mul_le_inv _ _ _ VB). pose proof (minute_btu_le 0 (sv_loss v) L0) as X.
    assert (Y : minute_btu 0 == 0) by reflexivity. lra. }
  assert (B4 : t1 <= t2 + dt).
  { apply (mul_le_inv _ _ _ VB). pose proof (minute_btu_le _ _ LC). lra. }
  assert (DT : 0 < dt \/ (dt == 0 /\ on = false /\ sv_supply v < t2)).
  { destruct T1 as [T1|[-> T1]].
    - left. apply (mul_lt_inv _ _ _ VB). pose proof (minute_btu_lt _ _ T1). assert (minute_btu 0 == 0) by reflexivity. lra.
    - destruct (Qlt_le_dec 0 (sv_cap v)) as [C|C].
      + left. apply (mul_lt_inv _ _ _ VB). pose proof (minute_btu_lt _ _ C). assert (minute_btu 0 == 0) by reflexivity. lra.
      + right. assert (sv_cap v == 0) by lra. assert (sv_loss v == 0) by lra.
        assert (minute_btu (sv_cap v) == 0) by (unfold minute_btu; rewrite H; reflexivity).
        assert (minute_btu (sv_loss v) == 0) by (unfold minute_btu; rewrite H2; reflexivity).
        assert (Z : dt == 0).
        { assert (sv_vol v * btu_gal_f * dt == 0) by lra. apply Qmult_integral in H5. destruct H5; [lra|assumption]. }
        split; [exact Z|]. split; [reflexivity|]. specialize (B1s T1). lra. }
  assert (D0 : 0 <= dt) by (destruct DT as [|[-> _]]; lra).
  destruct (element_thermostat v on t2 dt V E1 DT) as (on' & t' & run & EL & TH & TE).
  assert (R : 0 <= dt * run /\ dt * run <= dt).
  { destruct TH as (_ & [R0 R1] & _). split; [apply qmul_nonneg; lra|].
    assert (0 <= dt * (1 - run)) by (apply qmul_nonneg; lra). lra. }
  assert (G : sv_supply v <= t' /\ (0 < sv_cap v \/ on' = false /\ sv_supply v < t') /\ t' <= qmax (qmax t feed) (sv_supply v + 8)).
  { pose proof (qmax_l (qmax t feed) (sv_supply v + 8)) as Q1. pose proof (qmax_r (qmax t feed) (sv_supply v + 8)) as Q2.
    destruct TH as (HB & _ & TH). cbn [tk_supply tank_of] in TH.
    destruct on.
    - assert (CP : 0 < sv_cap v) by (destruct T1 as [|[X _]]; [assumption|discriminate X]).
      destruct TH as [(-> & R1 & U)|(-> & U & [R1|R1] & _)].
      + split; [assert (dt * run == dt) by (rewrite R1; ring); lra|]. split; [left; exact CP|lra].
      + assert (dt * run == 0) by (rewrite R1; ring). split; [lra|]. split; [left; exact CP|lra].
      + split; [lra|]. split; [left; exact CP|lra].
    - destruct TH as [(U & -> & R1)|(U & -> & X & Y)].
      + assert (dt * run == 0) by (rewrite R1; ring). split; [lra|]. split; [|lra].
        right. split; [reflexivity|lra].
      + assert (CP : 0 < sv_cap v).
        { destruct DT as [DT|(_ & _ & W)]; [|lra].
          destruct (Qlt_le_dec 0 (sv_cap v)) as [C|C]; [exact C|]. exfalso.
          pose proof (minute_btu_le _ _ C). assert (minute_btu 0 == 0) by reflexivity.
          assert (0 < sv_vol v * btu_gal_f * dt) by (apply qmul_pos; assumption). lra. }
        split; [|split; [left; exact CP|lra]].
        destruct X as [X|X]; [|lra]. assert (dt * run == dt) by (rewrite X; ring). lra. }
  exists on', t2, t', run. split.
  { unfold swing_step. rewrite M. cbn [bind]. rewrite L. cbn [bind]. rewrite E. cbn [bind]. rewrite EL. cbn [bind].
    destruct (qltb t' (sv_supply v)) eqn:Q; qbool; [lra|reflexivity]. }
  split; [apply (idle_comb _ _ t1); assumption|]. split; [exact TH|]. split; [split; tauto|tauto].
Qed.

Lemma from_primary_ok v t x : sv_inlet v < sv_supply v -> sv_supply v <= t -> 0 <= x ->
  exists hw, from_primary v t x = Ok hw /\ meets_demand (tank_of v) t x hw /\ 0 <= hw <= x.
Proof.
  intros I T X. unfold from_primary, meets_demand. cbn [tk_inlet tk_supply tank_of].
  destruct (qltb (sv_inlet v) t) eqn:A; qbool; [|lra]. rewrite qdiv_ok by lra.
  eexists. split; [reflexivity|]. split; [apply qdiv_mul; lra|]. split.
  - apply qdiv_nonneg; [apply qmul_nonneg; lra|lra].
  - apply qdiv_le_iff; [lra|]. assert (0 <= x * (t - sv_supply v)) by (apply qmul_nonneg; lra). lra.
Qed.

Lemma sim_loop_ok v : 0 < sv_vol v -> 0 <= sv_loss v -> sv_loss v <= sv_cap v -> sv_inlet v < sv_supply v ->
  sv_supply v <= sv_storage v ->
  forall l on t, (forall x, In x l -> 0 <= x < sv_vol v) -> swing_inv v on t ->
  exists rest, sim_loop_swing v on t l = Ok rest /\ swing_days (tank_of v) on t l rest /\
    (forall t' run hw, In (t', run, hw) rest -> sv_supply v <= t' <= qmax (qmax t (sv_storage v)) (sv_supply v + 8)) /\
    Forall2 (fun x p => 0 <= snd p <= x) l rest.
Proof.
  intros V L0 LC I ST. induction l as [|x l IH]; intros on t B INV; cbn [sim_loop_swing].
  - exists []. split; [reflexivity|]. split; [constructor|]. split; [intros ? ? ? []|constructor].
  - destruct (B x (or_introl eq_refl)) as [X0 X1].
    destruct (from_primary_ok v t x I (proj1 INV) X0) as (hw & F & M & H0 & H1).
    destruct (step_ok v on t hw (sv_storage v) V L0 LC H0 (Qle_lt_trans _ _ _ H1 X1) ST INV)
      as (on' & t2 & t' & run & S1 & ID & TH & INV' & U).
    destruct (IH on' t' (fun y Y => B y (or_intror Y)) INV') as (rest & R & SD & T & F2).
    exists ((t', run, hw) :: rest). rewrite F. cbn [bind]. rewrite S1. cbn [bind]. rewrite R. cbn [bind].
    split; [reflexivity|]. split; [econstructor; eauto|]. split.
    + intros a b c [E|E].
      * inversion E; subst. split; [exact (proj1 INV')|exact U].
      * destruct (T _ _ _ E) as [T1 T2]. split; [exact T1|].
        eapply Qle_trans; [exact T2|]. apply qmax_lub; [|apply qmax_r]. apply qmax_lub; [exact U|].
        eapply Qle_trans; [|apply qmax_l]. apply qmax_r.
    + constructor; [cbn [snd]; split; assumption|exact F2].
Qed.
