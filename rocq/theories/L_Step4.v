(** The parallel loop: sizing, and the band of the maintenance tank. *)
From Verif Require Import Prelude M_StratifiedTank S_StratifiedTank L_StratifiedTank L_StratifiedTank2 L_StratifiedTank3
  M_MixedTank L_MixedTank M_Building L_Building M_Heater S_Heater L_Heater M_Sizing M_SimRun S_SimRun L_SimRun L_SimMisc L_Sizing3 M_Step S_Step L_Step L_Step2 L_Step3.
Open Scope Q_scope.

Lemma accepted_iff p : pl_validate p = Ok tt <-> tm_accepted p.
Proof.
  unfold pl_validate, tm_accepted. destruct (Qle_bool (pl_safety p) 1) eqn:E1; qbool.
  { split; [discriminate|]. intros (A & _). lra. }
  destruct (qltb 0 (pl_off_time p)) eqn:E2; qbool; cbn [andb negb].
  2:{ split; [discriminate|]. intros (_ & A & _). lra. }
  destruct (Qle_bool (pl_off_time p) 1) eqn:E3; qbool; cbn [andb negb].
  2:{ split; [discriminate|]. intros (_ & A & _). lra. }
  destruct (Qle_bool (pl_off p) (pl_on p)) eqn:E4; qbool.
  { split; [discriminate|]. intros (_ & _ & A & _). lra. }
  rewrite qdiv_ok by lra. cbn [bind]. unfold tm_min_runtime.
  assert (IFF : pl_off_time p / (pl_safety p - 1) <= 20 / 60 <-> 60 * pl_off_time p <= (pl_safety p - 1) * 20).
  { rewrite qdiv_le_iff by lra. change (20 / 60) with (20 # 60). split; intro; lra. }
  destruct (Qle_bool (pl_off_time p / (pl_safety p - 1)) (20 / 60)) eqn:E5; qbool.
  - split; [discriminate|]. intros (_ & _ & _ & A). apply IFF in E5. lra.
  - split; [|reflexivity]. intros _. split; [lra|]. split; [lra|]. split; [lra|].
    apply Qnot_le_lt. intro B. apply IFF in B. lra.
Qed.

Lemma validate_value_error p e : pl_validate p = Err e -> e = ValueError.
Proof.
  unfold pl_validate. destruct (Qle_bool (pl_safety p) 1) eqn:E1; qbool; [congruence|].
  destruct (negb _); [congruence|]. destruct (Qle_bool _ _); [congruence|]. rewrite qdiv_ok by lra. cbn [bind].
  destruct (Qle_bool _ _); congruence.
Qed.

Lemma pl_size_inv lib p b sched m slope fract p' b' : pl_size lib p b sched m slope fract = ((p', b'), Ok tt) ->
  tm_accepted p /\
  (exists w, dhw_size base_klass lib (pl_dhw p) b sched m slope fract = ((pl_dhw p', b'), Ok w)) /\
  pl_return p' = pl_return p /\ pl_flow p' = pl_flow p /\ pl_on p' = pl_on p /\ pl_off p' = pl_off p /\
  pl_off_time p' = pl_off_time p /\ pl_safety p' = pl_safety p /\ pl_num p' = pl_num p /\
  exists vol cap, pl_tm_vol p' = Some vol /\ pl_tm_cap p' = Some cap /\
    vol == pl_loss p' * 1000 / rho_cp * (pl_off_time p / (pl_off p - pl_on p)) /\
    cap == pl_safety p * (pl_loss p' * 1000) / 1000.
Proof.
  unfold pl_size. intro H. destruct (pl_validate p) as [[]|e] eqn:EV.
  2:{ apply pair_equal_spec in H. destruct H as [_ H]. discriminate. }
  apply accepted_iff in EV. destruct (dhw_size base_klass lib (pl_dhw p) b sched m slope fract) as [[d b1] [w|e]] eqn:ED.
  2:{ apply pair_equal_spec in H. destruct H as [_ H]. discriminate. }
  unfold pl_size_tm in H. rewrite qdiv_ok in H by (cbn; destruct EV as (_ & _ & A & _); lra). cbn [bind] in H.
  apply pair_equal_spec in H. destruct H as [H _]. apply pair_equal_spec in H. destruct H as [<- <-].
  split; [exact EV|]. cbn [pl_dhw pl_set_dhw pl_return pl_flow pl_on pl_off pl_off_time pl_safety pl_num pl_tm_vol pl_tm_cap].
  split; [exists w; reflexivity|]. do 7 (split; [reflexivity|]). eexists. eexists. split; [reflexivity|]. split; [reflexivity|].
  unfold pl_loss. cbn [pl_dhw pl_set_dhw pl_return pl_flow]. split; reflexivity.
Qed.

(** *** The band *)
Definition tm_inv (p0 : psys) (cap1 lo hi : Q) (p : psys) : Prop :=
  ps_return p = ps_return p0 /\ ps_flow p = ps_flow p0 /\ ps_on p = ps_on p0 /\ ps_off p = ps_off p0 /\ ps_num p = ps_num p0 /\
  mx_vol (ps_tank p) = mx_vol (ps_tank p0) /\ tm_like p cap1 /\
  (mx_temp (ps_tank p) < ps_on p -> wh_active (ps_heater p) = true) /\
  lo <= mx_temp (ps_tank p) <= hi.

Lemma tm_like_next p q cap1 : tm_like p cap1 -> same_heater (ps_heater p) (ps_heater q) -> ps_on q = ps_on p -> ps_off q = ps_off p -> tm_like q cap1.
Proof.
  intros [A B] (S1 & S2 & S3) E1 E2. split; [congruence|]. intros hour H. destruct (B hour H) as (c & I & O & F).
  exists c. rewrite E1, E2. split; [|auto]. apply (in_effect_same (ps_heater p) (ps_heater q)); assumption.
Qed.

Lemma parallel_step_inv b p t iv p' o : parallel_step b p t iv = Ok (p', o) ->
  exists s1 o1 tk h temp out kw, base_step b (ps_base p) t iv = Ok (s1, o1) /\ tm_step p (so_oat o1) t iv = Ok (tk, h, (temp, out, kw)) /\
    p' = mkPsys s1 (ps_return p) (ps_flow p) (ps_on p) (ps_off p) (ps_num p) tk h /\
    so_tm_temp o = Some temp /\ so_tm_output o = Some out /\ so_tm_kw o = kw /\
    so_demand o = so_demand o1 /\ so_usable o = so_usable o1 /\ so_output o = so_output o1 /\ so_power o = so_power o1 /\
    so_oat o = so_oat o1 /\ so_inlet o = so_inlet o1 /\ so_temps o = so_temps o1 /\ so_mode o = so_mode o1 /\ so_delivery o = so_delivery o1.
Proof.
  unfold parallel_step. intro H. destruct (bind_ok _ _ _ H) as ([s1 o1] & E & H1). destruct (bind_ok _ _ _ H1) as ([[tk h] [[temp out] kw]] & E2 & H2).
  apply ok_inj in H2. apply pair_equal_spec in H2. destruct H2 as [<- <-]. exists s1, o1, tk, h, temp, out, kw. cbn.
  repeat (split; [assumption || reflexivity|]). reflexivity.
Qed.

Lemma parallel_band b p0 cap1 lo hi eq iv p t p' o :
  0 < mx_vol (ps_tank p0) -> 0 <= cap1 * qz (ps_num p0) -> ps_return p0 <= ps_on p0 -> ps_on p0 < ps_off p0 ->
  let a := tm_frac p0 iv in let q := tm_rise p0 cap1 iv in
  0 <= a <= 1 -> 0 <= q -> q == a * (eq - ps_return p0) ->
  lo <= ps_on p0 - a * (ps_on p0 - ps_return p0) -> lo <= eq -> ps_off p0 + q <= hi ->
  tm_inv p0 cap1 lo hi p -> parallel_step b p t iv = Ok (p', o) ->
  tm_inv p0 cap1 lo hi p' /\ exists x, so_tm_temp o = Some x /\ lo <= x <= hi.
Proof.
  cbv zeta. intros V Pc RO OF A01 Q0 QE L1 L2 H1 (E1 & E2 & E3 & E4 & E5 & E6 & TL & AC & LO & HI) H.
  destruct (parallel_step_inv _ _ _ _ _ _ H) as (s1 & o1 & tk & h & temp & out & kw & _ & ES & -> & ET & _).
  destruct (tm_step_inv p cap1 (so_oat o1) t iv tk h temp out kw) as (T1 & V2 & X1 & X2 & SH & U1 & U2 & On & Off & _);
    [rewrite E6; exact V|exact TL|rewrite E5; exact Pc|exact ES|].
  assert (FA : tm_frac p iv = tm_frac p0 iv) by (unfold tm_frac; rewrite E2, E6; reflexivity).
  assert (FQ : tm_rise p cap1 iv = tm_rise p0 cap1 iv) by (unfold tm_rise; rewrite E5, E6; reflexivity).
  rewrite FA in X1. rewrite FQ in On. rewrite E1 in X1. rewrite E3 in U1, AC. rewrite E4 in U2.
  set (a := tm_frac p0 iv) in *. set (q := tm_rise p0 cap1 iv) in *. set (T := mx_temp (ps_tank p)) in *.
  set (R := ps_return p0) in *. set (on := ps_on p0) in *. set (off := ps_off p0) in *.
  assert (GL : lo <= mx_temp tk /\ mx_temp tk <= hi /\ (mx_temp tk < on -> wh_active h = true)).
  { clear - V Pc RO OF A01 Q0 QE L1 L2 H1 AC LO HI X1 U1 U2 On Off. clearbody a q T R on off.
    assert (TU : T1 <= T \/ T1 <= R).
    { destruct (Qlt_le_dec T R) as [C|C]; [right|left]; nra. }
    destruct (wh_active h) eqn:AH.
    - destruct (On eq_refl) as [_ T2].
      assert (TO : T1 < off).
      { destruct (wh_active (ps_heater p)) eqn:AP.
        - apply Qnot_le_lt. intro B. apply (proj2 (U2 eq_refl)) in B. discriminate.
        - assert (T1 < on) by (apply (U1 eq_refl); reflexivity). lra. }
      split; [|split; [lra|reflexivity]].
      destruct (Qlt_le_dec T on) as [C|C].
      + destruct (Qlt_le_dec T eq) as [D|D]; nra.
      + assert (lo <= T1) by nra. lra.
    - destruct (Off eq_refl) as [_ T2].
      assert (TO : on <= T1).
      { destruct (wh_active (ps_heater p)) eqn:AP.
        - assert (off <= T1) by (apply (U2 eq_refl); reflexivity). lra.
        - apply Qnot_lt_le. intro B. apply (proj2 (U1 eq_refl)) in B. discriminate. }
      split; [|split; [|intro; lra]].
      + assert (lo <= on) by nra. lra.
      + destruct TU; lra. }
  destruct GL as (G1 & G2 & G3). split.
  - unfold tm_inv. cbn [ps_return ps_flow ps_on ps_off ps_num ps_tank ps_heater]. split; [exact E1|]. split; [exact E2|]. split; [exact E3|].
    split; [exact E4|]. split; [exact E5|]. split; [congruence|]. split; [eapply tm_like_next; [exact TL|exact SH|reflexivity|reflexivity]|].
    split; [rewrite E3; exact G3|]. split; assumption.
  - exists temp. split; [exact ET|]. rewrite X2. split; assumption.
Qed.

(** Once on, always on, if the equilibrium temperature is not above the off-temperature. *)
Definition tm_inv2 (p0 : psys) (cap1 : Q) (on : bool) (p : psys) : Prop :=
  ps_return p = ps_return p0 /\ ps_flow p = ps_flow p0 /\ ps_on p = ps_on p0 /\ ps_off p = ps_off p0 /\ ps_num p = ps_num p0 /\
  mx_vol (ps_tank p) = mx_vol (ps_tank p0) /\ tm_like p cap1 /\ mx_temp (ps_tank p) <= ps_off p0 /\
  (on = true -> wh_active (ps_heater p) = true).

Lemma parallel_never_off b p0 cap1 eq iv p t p' o on :
  0 < mx_vol (ps_tank p0) -> 0 < cap1 * qz (ps_num p0) -> ps_return p0 < ps_off p0 ->
  let a := tm_frac p0 iv in let q := tm_rise p0 cap1 iv in
  0 < a <= 1 -> q == a * (eq - ps_return p0) -> eq <= ps_off p0 ->
  tm_inv2 p0 cap1 on p -> parallel_step b p t iv = Ok (p', o) ->
  exists out, so_tm_output o = Some out /\
    (on = true -> out = cap1 * qz (ps_num p0)) /\
    (0 < out -> out = cap1 * qz (ps_num p0) /\ tm_inv2 p0 cap1 true p') /\ tm_inv2 p0 cap1 on p'.
Proof.
  cbv zeta. intros V Pc RF A01 QE EF (E1 & E2 & E3 & E4 & E5 & E6 & TL & HI & AC) H.
  destruct (parallel_step_inv _ _ _ _ _ _ H) as (s1 & o1 & tk & h & temp & out & kw & _ & ES & -> & _ & EO & _).
  destruct (tm_step_inv p cap1 (so_oat o1) t iv tk h temp out kw) as (T1 & V2 & X1 & X2 & SH & U1 & U2 & On & Off & _);
    [rewrite E6; exact V|exact TL|rewrite E5; apply Qlt_le_weak; exact Pc|exact ES|].
  assert (FA : tm_frac p iv = tm_frac p0 iv) by (unfold tm_frac; rewrite E2, E6; reflexivity).
  assert (FQ : tm_rise p cap1 iv = tm_rise p0 cap1 iv) by (unfold tm_rise; rewrite E5, E6; reflexivity).
  rewrite FA in X1. rewrite FQ in On. rewrite E1 in X1. rewrite E4 in U2. rewrite E5 in On.
  set (a := tm_frac p0 iv) in *. set (q := tm_rise p0 cap1 iv) in *. set (T := mx_temp (ps_tank p)) in *.
  set (R := ps_return p0) in *. set (off := ps_off p0) in *.
  assert (TU : T1 < off) by (clear - A01 RF HI X1; clearbody a T R off; nra).
  assert (TF : mx_temp tk <= off).
  { destruct (wh_active h) eqn:AH.
    - destruct (On eq_refl) as [_ T2]. clear - T2 X1 QE EF HI A01. clearbody a q T R off. nra.
    - destruct (Off eq_refl) as [_ T2]. lra. }
  assert (ST : on = true -> wh_active h = true).
  { intro Y. specialize (AC Y). destruct (wh_active h) eqn:AH; [reflexivity|]. apply (proj1 (U2 AC)) in AH; [lra|reflexivity] || (pose proof (proj1 (U2 AC) eq_refl); lra). }
  assert (NX : forall on', (on' = true -> wh_active h = true) -> tm_inv2 p0 cap1 on' (mkPsys s1 (ps_return p) (ps_flow p) (ps_on p) (ps_off p) (ps_num p) tk h)).
  { intros on' Y. unfold tm_inv2. cbn [ps_return ps_flow ps_on ps_off ps_num ps_tank ps_heater]. split; [exact E1|]. split; [exact E2|]. split; [exact E3|].
    split; [exact E4|]. split; [exact E5|]. split; [congruence|]. split; [eapply tm_like_next; [exact TL|exact SH|reflexivity|reflexivity]|]. split; assumption. }
  exists out. split; [exact EO|]. split; [|split].
  - intro Y. destruct (On (ST Y)) as [G _]. exact G.
  - intro P. assert (AH : wh_active h = true) by (destruct (wh_active h) eqn:AH; [reflexivity|]; destruct (Off eq_refl) as [G _]; lra).
    split; [exact (proj1 (On AH))|]. apply NX. intros _. exact AH.
  - apply NX. exact ST.
Qed.

Lemma executed_never_off b p0 cap1 eq iv :
  0 < mx_vol (ps_tank p0) -> 0 < cap1 * qz (ps_num p0) -> ps_return p0 < ps_off p0 ->
  0 < tm_frac p0 iv <= 1 -> tm_rise p0 cap1 iv == tm_frac p0 iv * (eq - ps_return p0) -> eq <= ps_off p0 ->
  forall outs p i p' on, tm_inv2 p0 cap1 on p -> executed (parallel_step b) iv p i outs p' ->
  forall j k oj ok x, (j <= k)%nat -> nth_error outs j = Some oj -> nth_error outs k = Some ok ->
    (on = true \/ (so_tm_output oj = Some x /\ 0 < x)) -> so_tm_output ok = Some (cap1 * qz (ps_num p0)).
Proof.
  intros V Pc RF A01 QE EF. induction outs as [|o outs IH]; intros p i p' on TI H j k oj ok x Ljk Ej Ek TD; [destruct j; discriminate|].
  cbn [executed] in H. destruct H as (s1 & E & H).
  destruct (parallel_never_off b p0 cap1 eq iv p i s1 o on V Pc RF A01 QE EF TI E) as (out & EO & A & B & C).
  destruct j as [|j].
  - cbn in Ej. injection Ej as ->. destruct k as [|k]; cbn in Ek.
    + injection Ek as <-. rewrite EO. f_equal. destruct TD as [->|[F G]]; [exact (A eq_refl)|]. rewrite F in EO. injection EO as <-. exact (proj1 (B G)).
    + destruct outs as [|o2 outs]; [destruct k; discriminate|].
      assert (TI2 : tm_inv2 p0 cap1 true s1).
      { destruct TD as [->|[F G]]; [exact C|]. apply B. rewrite F in EO. injection EO as <-. exact G. }
      exact (IH s1 (i + 1)%Z p' true TI2 H 0%nat k o2 ok x ltac:(lia) eq_refl Ek (or_introl eq_refl)).
  - destruct k as [|k]; [lia|]. cbn in Ej, Ek.
    exact (IH s1 (i + 1)%Z p' on C H j k oj ok x ltac:(lia) Ej Ek TD).
Qed.

Lemma tm_step_total p cap1 oat t iv : 0 < mx_vol (ps_tank p) -> tm_like p cap1 ->
  exists tk h temp out kw, tm_step p oat t iv = Ok (tk, h, (temp, out, kw)) /\ mx_vol tk = mx_vol (ps_tank p) /\ same_heater (ps_heater p) h.
Proof.
  intros V [PM CT]. unfold tm_step. cbv zeta.
  destruct (mx_recirc_cases (ps_tank p) (ps_flow p) (ps_return p) (qz iv) V) as (tk1 & Ex & V1 & _). rewrite Ex. cbn [bind].
  destruct (CT _ (hour_of_range t iv)) as (c & Ic & _).
  destruct (c30_step_succeeds (ps_heater p) (fun f => Ok (mx_temp_at tk1 f)) (hour_of t iv) c _ _ Ic eq_refl eq_refl) as (h & Eh). rewrite Eh. cbn [bind].
  destruct (wh_update_same _ _ _ _ Eh) as (S1 & S2 & S3).
  assert (O : exists q, wh_output h (Some oat) (mx_temp_at tk1 1) (Some ((ps_off p + ps_on p) / 2)) = Ok q).
  { unfold wh_output. destruct (wh_active h); cbn [negb]; [|eexists; reflexivity]. unfold wh_capacity. rewrite S1, PM, nominal_capacity. cbn [bind]. eexists. reflexivity. }
  destruct O as (q & ->). cbn [bind].
  assert (K : exists k, (if wh_active h then wh_power h (Some oat) (mx_temp_at tk1 1) (Some ((ps_off p + ps_on p) / 2)) else Ok None) = Ok k).
  { destruct (wh_active h); [|eexists; reflexivity]. unfold wh_power. rewrite S1, PM. eexists. reflexivity. }
  destruct K as (k & ->). cbn [bind].
  assert (M : exists tk2, mx_heat tk1 (q * qz (ps_num p)) (qz iv) (ps_off p) = Ok tk2 /\ mx_vol tk2 = mx_vol tk1).
  { unfold mx_heat. destruct (Qle_bool (q * qz (ps_num p)) 0); [eexists; split; reflexivity|].
    rewrite qdiv_ok by (rewrite V1; pose proof rho_pos; nra). cbn [bind]. eexists. split; reflexivity. }
  destruct M as (tk2 & -> & V2). cbn [bind]. do 5 eexists. split; [reflexivity|]. split; [congruence|]. split; [exact S1|]. split; assumption.
Qed.

Definition par_ready (cap1 : Q) (p : psys) : Prop := base_ready (ps_base p) /\ 0 < mx_vol (ps_tank p) /\ tm_like p cap1.

Lemma parallel_completes b p cap1 dur thr maxm : complete b -> par_ready cap1 p -> known_duration dur ->
  exists s' r, simulate_parallel b p dur thr maxm = Ok (s', r).
Proof.
  intros C (R & V & TL) D. unfold simulate_parallel, init_parallel. destruct (complete_answers b C 0 1) as (_ & _ & _ & di & E). rewrite E. cbn [bind].
  destruct (init_base_total b (ps_base p) C R) as (s0 & E0 & R0). rewrite E0. cbn [bind].
  apply (simulate_total (parallel_step b) (par_ready cap1)); [|split; [exact R0|split; [exact V|exact TL]]|exact D].
  intros q i iv (Rq & Vq & Tq). destruct (base_step_total b (ps_base q) i iv C Rq) as (s1 & o & E1 & R1 & L & _).
  destruct (tm_step_total q cap1 (so_oat o) i iv Vq Tq) as (tk & h & temp & out & kw & E2 & V2 & SH).
  unfold parallel_step. rewrite E1. cbn [bind]. rewrite E2. cbn [bind]. eexists. eexists. split; [reflexivity|]. split; [|exact L].
  split; [exact R1|]. split; [cbn; rewrite V2; exact Vq|]. eapply tm_like_next; [exact Tq|exact SH|reflexivity|reflexivity].
Qed.
