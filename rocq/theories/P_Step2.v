(** C47, C61 and the parallel-loop part of C19: the parallel loop's maintenance tank.  Vocabulary in S_Step. *)
From Verif Require Import Prelude M_StratifiedTank S_StratifiedTank L_StratifiedTank L_StratifiedTank3
  M_MixedTank L_MixedTank M_Building L_Building M_Heater S_Heater L_Heater M_Sizing M_SimRun S_SimRun L_SimRun L_Sizing3 M_Step S_Step L_Step L_Step2 L_Step3 L_Step4.
From Verif Require Import P_Step.
Open Scope Q_scope.

(** ** C47 *)

(** Unacceptable parameters raise ValueError and change nothing; acceptable ones are never refused. *)
Theorem C47_rejects : forall lib p b sched m slope fract,
  ~ tm_accepted p -> pl_size lib p b sched m slope fract = ((p, b), Err ValueError).
Proof.
  intros lib p b sched m slope fract N. unfold pl_size. destruct (pl_validate p) as [[]|e] eqn:E.
  - exfalso. apply N. apply accepted_iff. exact E.
  - rewrite (validate_value_error p e E). reflexivity.
Qed.
Print Assumptions C47_rejects.

(** With accepted parameters the primary system is sized exactly as a system without recirculation,
    the tank cools from off- to on-temperature in the off-time under the design loss, and the heater
    gives the design loss times the safety factor. *)
Theorem C47_sized : forall lib p b sched m slope fract,
  tm_accepted p ->
  exists d b' r, dhw_size base_klass lib (pl_dhw p) b sched m slope fract = ((d, b'), r) /\
    match r with
    | Err e => exists p', pl_size lib p b sched m slope fract = ((p', b'), Err e) /\
        pl_dhw p' = d /\ pl_tm_vol p' = pl_tm_vol p /\ pl_tm_cap p' = pl_tm_cap p
    | Ok _ => exists p' vol cap, pl_size lib p b sched m slope fract = ((p', b'), Ok tt) /\
        pl_dhw p' = d /\ or_unsized (pl_tm_vol p') = Ok vol /\ or_unsized (pl_tm_cap p') = Ok cap /\
        (pl_return p', pl_flow p', pl_on p', pl_off p', pl_off_time p', pl_safety p', pl_num p') =
          (pl_return p, pl_flow p, pl_on p, pl_off p, pl_off_time p, pl_safety p, pl_num p) /\
        vol * rho_cp * (pl_off p - pl_on p) == design_loss p' * pl_off_time p /\
        cap * 1000 == pl_safety p * design_loss p'
    end.
Proof.
  intros lib p b sched m slope fract A. pose proof (proj2 (accepted_iff p) A) as EV.
  destruct (dhw_size base_klass lib (pl_dhw p) b sched m slope fract) as [[d b1] [w|e]] eqn:ED.
  - exists d, b1, (Ok w). split; [reflexivity|].
    assert (E : exists p', pl_size lib p b sched m slope fract = ((p', b1), Ok tt)).
    { unfold pl_size. rewrite EV, ED. unfold pl_size_tm. rewrite qdiv_ok by (cbn; destruct A as (_ & _ & X & _); lra).
      cbn [bind]. eexists. reflexivity. }
    destruct E as (p' & E). destruct (pl_size_inv _ _ _ _ _ _ _ _ _ E) as (_ & (w' & ED') & A1 & A2 & A3 & A4 & A5 & A6 & A7 & vol & cap & B1 & B2 & B3 & B4).
    exists p', vol, cap. split; [exact E|]. split; [rewrite ED in ED'; congruence|]. rewrite B1, B2. split; [reflexivity|]. split; [reflexivity|].
    split; [congruence|]. unfold design_loss. split.
    + rewrite B3. unfold pl_loss. pose proof rho_pos. destruct A as (_ & _ & X & _). field. split; [lra|]. intro Z. lra.
    + rewrite B4. unfold pl_loss. field.
  - exists d, b1, (Err e). split; [reflexivity|]. unfold pl_size. rewrite EV, ED. eexists. split; [reflexivity|]. repeat split.
Qed.
Print Assumptions C47_sized.

(** The heater recovers the off-time's loss in off-time / (safety - 1) hours, more than 20 minutes. *)
Theorem C47_run_time : forall lib p b sched m slope fract p' b' vol cap hours,
  pl_size lib p b sched m slope fract = ((p', b'), Ok tt) ->
  or_unsized (pl_tm_vol p') = Ok vol -> or_unsized (pl_tm_cap p') = Ok cap -> 0 < design_loss p' ->
  (cap * 1000 - design_loss p') * hours == vol * rho_cp * (pl_off p - pl_on p) -> 20 < hours * 60.
Proof.
  intros lib p b sched m slope fract p' b' vol cap hours E Ev Ec L H.
  destruct (pl_size_inv _ _ _ _ _ _ _ _ _ E) as ((S1 & (O1 & O2) & OF & RT) & _ & A1 & A2 & A3 & A4 & A5 & A6 & A7 & v & c & B1 & B2 & B3 & B4).
  rewrite B1 in Ev. rewrite B2 in Ec. apply ok_inj in Ev, Ec. subst v c.
  assert (V : vol * rho_cp * (pl_off p - pl_on p) == design_loss p' * pl_off_time p).
  { rewrite B3. unfold design_loss, pl_loss. pose proof rho_pos. field. split; [lra|]. intro Z. lra. }
  assert (C : cap * 1000 == pl_safety p * design_loss p') by (rewrite B4; unfold design_loss, pl_loss; field).
  rewrite V, C in H. set (l := design_loss p') in *. clearbody l. clear V C B3 B4.
  assert (X : l * ((pl_safety p - 1) * hours - pl_off_time p) == 0) by lra.
  assert (Y : (pl_safety p - 1) * hours == pl_off_time p) by nra.
  apply Qnot_le_lt. intro Z. nra.
Qed.
Print Assumptions C47_run_time.

(** Before sizing, the results raise RuntimeError. *)
Theorem C47_unsized : forall p, pl_tm_vol p = None -> pl_tm_cap p = None ->
  or_unsized (pl_tm_vol p) = Err RuntimeError /\ or_unsized (pl_tm_cap p) = Err RuntimeError.
Proof. intros p A B. rewrite A, B. split; reflexivity. Qed.
Print Assumptions C47_unsized.

(** The run-time error advises a larger safety factor; a larger one is refused as well. *)
Theorem C47_advice_refuted : forall p p2,
  1 < pl_safety p -> 0 < pl_off_time p <= 1 -> pl_on p < pl_off p -> ~ tm_accepted p ->
  (pl_off_time p2 = pl_off_time p /\ pl_on p2 = pl_on p /\ pl_off p2 = pl_off p /\ pl_safety p <= pl_safety p2) ->
  ~ tm_accepted p2.
Proof.
  intros p p2 S1 O1 OF N (E1 & E2 & E3 & L) (A1 & A2 & A3 & A4). apply N. rewrite E1 in *. rewrite E2, E3 in *.
  split; [exact S1|]. split; [exact O1|]. split; [exact OF|]. nra.
Qed.
Print Assumptions C47_advice_refuted.

(** ** C61: the maintenance tank in simulation *)

Lemma built_facts lib p b sched m slope fract p' b' vol cap base ps :
  pl_size lib p b sched m slope fract = ((p', b'), Ok tt) ->
  or_unsized (pl_tm_vol p') = Ok vol -> or_unsized (pl_tm_cap p') = Ok cap ->
  pl_build base p' vol cap = Ok ps -> 0 < pl_flow p -> pl_return p < dh_supply (pl_dhw p') ->
  0 < mx_vol (ps_tank ps) /\ 0 < cap /\ pl_on p < pl_off p /\ 1 < pl_safety p /\ 0 < pl_off_time p /\
  ps_return ps = pl_return p /\ ps_flow ps = pl_flow p /\ ps_on ps = pl_on p /\ ps_off ps = pl_off p /\
  wh_active (ps_heater ps) = false /\
  exists cap1, cap1 * qz (ps_num ps) == cap /\ tm_like ps cap1 /\
  forall iv, tm_frac ps iv == tm_exchange p' iv /\
    tm_rise ps cap1 iv == tm_exchange p' iv * (pl_safety p * (dh_supply (pl_dhw p') - pl_return p)).
Proof.
  intros E Ev Ec Eb Fl RS. destruct (pl_size_inv _ _ _ _ _ _ _ _ _ E) as ((S1 & (O1 & O2) & OF & RT) & _ & A1 & A2 & A3 & A4 & A5 & A6 & A7 & v & c & B1 & B2 & B3 & B4).
  rewrite B1 in Ev. rewrite B2 in Ec. apply ok_inj in Ev, Ec. subst v c.
  unfold pl_build in Eb. destruct (bind_ok _ _ _ Eb) as (cap1 & E1 & E2). apply ok_inj in E2. subst ps. cbn [ps_tank mx_vol ps_return ps_flow ps_on ps_off ps_num ps_heater].
  pose proof rho_pos as RP.
  assert (V : vol * (pl_off p - pl_on p) == pl_flow p * (dh_supply (pl_dhw p') - pl_return p) * 60 * pl_off_time p).
  { rewrite B3. unfold pl_loss. rewrite A1, A2. field. split; [lra|]. intro Z. lra. }
  assert (C : cap == pl_safety p * (pl_flow p * (dh_supply (pl_dhw p') - pl_return p) * rho_cp * 60) / 1000).
  { rewrite B4. unfold pl_loss. rewrite A1, A2. field. }
  set (dt := dh_supply (pl_dhw p') - pl_return p) in *. assert (DT : 0 < dt) by (unfold dt; lra). 
  assert (VP : 0 < vol).
  { assert (X : 0 < pl_flow p * dt * 60 * pl_off_time p) by (repeat apply qmul_pos; lra). clearbody dt. clear - X V OF. nra. }
  assert (CP : 0 < cap).
  { rewrite C. apply qdiv_pos; [|lra]. repeat apply qmul_pos; lra. }
  destruct (qdiv_inv _ _ _ E1) as [NZ EQ]. pose proof (qdiv_mul cap _ NZ) as M. rewrite <- EQ in M.
  split; [exact VP|]. split; [exact CP|]. split; [exact OF|]. split; [exact S1|]. split; [exact O1|].
  split; [exact A1|]. split; [exact A2|]. split; [exact A3|]. split; [exact A4|]. split; [reflexivity|].
  exists cap1. split; [exact M|]. split.
  - split; [reflexivity|]. intros hour HH. cbn [ps_heater ps_on ps_off]. exists (mkControls (1 # 2) (pl_on p') (1 # 2) (pl_off p') (pl_off p')).
    split; [|split; reflexivity]. split; [lia|]. eexists. eexists. exists "normal"%string. split; [reflexivity|]. split; [reflexivity|].
    split; [apply (nth_error_repeat "normal"%string); lia|reflexivity].
  - intro iv.
    assert (FR : tm_frac (mkPsys base (pl_return p') (pl_flow p') (pl_on p') (pl_off p') (pl_num p') (mkMixed vol 0 0)
        (wh_new (Some (PmNominal cap1)) (Some (repeat "normal"%string 24)) (Some [("normal"%string, mkControls (1 # 2) (pl_on p') (1 # 2) (pl_off p') (pl_off p'))]))) iv == tm_exchange p' iv).
    { unfold tm_frac, tm_exchange. cbn [ps_tank mx_vol ps_flow]. rewrite A1, A2, A3, A4, A5. fold dt.
      assert (NZ2 : ~ 60 * dt * pl_off_time p == 0) by (intro Z; assert (0 < 60 * dt * pl_off_time p) by (repeat apply qmul_pos; lra); lra).
      assert (X : pl_flow p * qz iv * (60 * dt * pl_off_time p) == qz iv * (pl_off p - pl_on p) * vol).
      { setoid_replace (qz iv * (pl_off p - pl_on p) * vol) with (qz iv * (vol * (pl_off p - pl_on p))) by ring. rewrite V. ring. }
      apply (Qmult_inj_r _ _ (vol * (60 * dt * pl_off_time p))); [intro Z; assert (0 < vol * (60 * dt * pl_off_time p)) by (repeat apply qmul_pos; lra); lra|].
      setoid_replace (pl_flow p * qz iv / vol * (vol * (60 * dt * pl_off_time p))) with (pl_flow p * qz iv * (60 * dt * pl_off_time p)) by (field; lra).
      rewrite X. field. repeat split; lra. }
    split; [exact FR|].
    rewrite <- FR. unfold tm_frac, tm_rise. cbn [ps_tank mx_vol ps_flow ps_num]. rewrite A2.
    setoid_replace (cap1 * qz (pl_num p') * qz iv / 60 * 1000 / (vol * rho_cp)) with (cap * qz iv / 60 * 1000 / (vol * rho_cp)) by (rewrite M; reflexivity).
    rewrite C. field. split; lra.
Qed.

(** Every reported tank temperature lies in the band from just below the on-temperature (or the
    heater's balance temperature, if lower) to one step's heating above the off-temperature,
    provided a step exchanges at most the whole tank. *)
Theorem C61_band : forall lib p b0 sched m slope fract p' b' vol cap base ps b dur thr maxm s' r,
  pl_size lib p b0 sched m slope fract = ((p', b'), Ok tt) ->
  or_unsized (pl_tm_vol p') = Ok vol -> or_unsized (pl_tm_cap p') = Ok cap ->
  pl_build base p' vol cap = Ok ps ->
  0 < pl_flow p -> pl_return p < dh_supply (pl_dhw p') -> pl_return p <= pl_on p ->
  simulate_parallel b ps dur thr maxm = Ok (s', r) ->
  let a := tm_exchange p' (sr_iv r) in
  a <= 1 ->
  length (sr_tm_temp r) = length (sr_demand r) /\
  forall x, In x (sr_tm_temp r) ->
    qmin (pl_on p - a * (pl_on p - pl_return p)) (tm_equilibrium p') <= x <=
    pl_off p + a * pl_safety p * (dh_supply (pl_dhw p') - pl_return p).
Proof.
  intros lib p b0 sched m slope fract p' b' vol cap base ps b dur thr maxm s' r E Ev Ec Eb Fl RS RO H a A1.
  destruct (pl_size_inv _ _ _ _ _ _ _ _ _ E) as (_ & _ & I1 & _ & _ & _ & _ & I6 & _).
  destruct (built_facts _ _ _ _ _ _ _ _ _ _ _ _ _ E Ev Ec Eb Fl RS) as (V & CP & OF & SF & OT & Q1 & Q2 & Q3 & Q4 & AC & cap1 & M & TL & FR).
  unfold simulate_parallel in H. destruct (bind_ok _ _ _ H) as (s0 & E0 & H1). clear H.
  destruct (simulate_inv _ _ _ _ _ _ _ _ _ H1) as (total & iv & outs & Et & Piv & Eiv & _ & _ & EX & RC & _). clear H1.
  unfold init_parallel in E0. destruct (bind_ok _ _ _ E0) as (di & _ & E1). clear E0. destruct (bind_ok _ _ _ E1) as (sb & _ & E2). clear E1. apply ok_inj in E2. subst s0.
  subst a. rewrite Eiv in *. set (a := tm_exchange p' iv) in *. destruct (FR iv) as [F1 F2]. fold a in F1, F2.
  assert (DT : 0 < dh_supply (pl_dhw p') - pl_return p) by lra.
  assert (A0 : 0 <= a).
  { unfold a, tm_exchange. destruct (pl_size_inv _ _ _ _ _ _ _ _ _ E) as (_ & _ & -> & _ & -> & -> & -> & _).
    apply qdiv_nonneg; [apply qmul_nonneg; [apply qz_nonneg; lia|lra]|repeat apply qmul_pos; lra]. }
  clearbody a.
  set (lo := qmin (pl_on p - a * (pl_on p - pl_return p)) (tm_equilibrium p')).
  set (hi := pl_off p + a * pl_safety p * (dh_supply (pl_dhw p') - pl_return p)).
  assert (QN : 0 <= a * pl_safety p * (dh_supply (pl_dhw p') - pl_return p)) by (repeat apply qmul_nonneg; lra).
  assert (LE : lo <= pl_on p). { unfold lo. pose proof (qmin_l (pl_on p - a * (pl_on p - pl_return p)) (tm_equilibrium p')). assert (0 <= a * (pl_on p - pl_return p)) by (apply qmul_nonneg; lra). lra. }
  set (p0 := mkPsys sb (ps_return ps) (ps_flow ps) (ps_on ps) (ps_off ps) (ps_num ps) (mx_initialize (ps_tank ps) (ps_off ps) (sim_inlet di) 1) (ps_heater ps)) in *.
  assert (INV : tm_inv ps cap1 lo hi p0).
  { unfold tm_inv, p0. cbn. split; [reflexivity|]. split; [reflexivity|]. split; [reflexivity|]. split; [reflexivity|]. split; [reflexivity|]. split; [reflexivity|].
    split; [exact TL|]. split; [intro L; rewrite Q3, Q4 in L; lra|]. rewrite Q4. unfold hi. split; lra. }
  destruct (executed_forall (parallel_step b) iv (tm_inv ps cap1 lo hi) (fun _ o => exists x, so_tm_temp o = Some x /\ lo <= x <= hi)
    (fun s1 t s2 o J1 E1 => parallel_band b ps cap1 lo hi (tm_equilibrium p') iv s1 t s2 o V ltac:(rewrite M; lra) ltac:(rewrite Q1, Q3; exact RO) ltac:(rewrite Q3, Q4; exact OF)
       ltac:(rewrite F1; lra) ltac:(rewrite F2; lra) ltac:(rewrite F1, F2, Q1; unfold tm_equilibrium; rewrite I1, I6; ring) ltac:(rewrite F1, Q1, Q3; apply qmin_l) (qmin_r _ _) ltac:(rewrite F2, Q4; unfold hi; lra) J1 E1)
    outs p0 0%Z s' INV EX) as [_ R].
  rewrite (rc_tm_temp _ _ RC), (rc_demand _ _ RC). rewrite map_length. split.
  - clear - R. assert (G : forall o, In o outs -> exists x, so_tm_temp o = Some x).
    { intros o I. apply In_nth_error in I. destruct I as (k & Ek). destruct (R k o Ek) as (x & X & _). exists x. exact X. }
    clear R. induction outs as [|o outs IH]; [reflexivity|]. cbn [map somes]. destruct (G o (or_introl eq_refl)) as (x & ->). cbn [length]. f_equal.
    apply IH. intros o' I'. apply G. right. exact I'.
  - intros x I. assert (G : exists o, In o outs /\ so_tm_temp o = Some x).
    { clear - I. induction outs as [|o outs IH]; [destruct I|]. cbn [map somes] in I. destruct (so_tm_temp o) as [y|] eqn:Ey.
      - destruct I as [<-|I]; [exists o; split; [left; reflexivity|exact Ey]|]. destruct (IH I) as (o' & J & K). exists o'. split; [right; exact J|exact K].
      - destruct (IH I) as (o' & J & K). exists o'. split; [right; exact J|exact K]. }
    destruct G as (o & J & K). apply In_nth_error in J. destruct J as (k & Ek). destruct (R k o Ek) as (y & Y & B). rewrite K in Y. injection Y as <-. exact B.
Qed.
Print Assumptions C61_band.

(** If the balance temperature does not exceed the off-temperature, the heater never turns off again
    once it has turned on. *)
Theorem C61_never_turns_off : forall lib p b0 sched m slope fract p' b' vol cap base ps b dur thr maxm s' r,
  pl_size lib p b0 sched m slope fract = ((p', b'), Ok tt) ->
  or_unsized (pl_tm_vol p') = Ok vol -> or_unsized (pl_tm_cap p') = Ok cap ->
  pl_build base p' vol cap = Ok ps ->
  0 < pl_flow p -> pl_return p < dh_supply (pl_dhw p') ->
  tm_equilibrium p' <= pl_off p -> tm_exchange p' (sr_iv r) <= 1 ->
  simulate_parallel b ps dur thr maxm = Ok (s', r) ->
  length (sr_tm_output r) = length (sr_demand r) /\
  forall i j x y, (i <= j)%nat -> nth_error (sr_tm_output r) i = Some x -> nth_error (sr_tm_output r) j = Some y ->
    0 < x -> y == cap.
Proof.
  intros lib p b0 sched m slope fract p' b' vol cap base ps b dur thr maxm s' r E Ev Ec Eb Fl RS EO A1 H.
  destruct (pl_size_inv _ _ _ _ _ _ _ _ _ E) as (_ & _ & I1 & _ & I3 & I4 & I5 & I6 & _).
  destruct (built_facts _ _ _ _ _ _ _ _ _ _ _ _ _ E Ev Ec Eb Fl RS) as (V & CP & OF & SF & OT & Q1 & Q2 & Q3 & Q4 & AC & cap1 & M & TL & FR).
  unfold simulate_parallel in H. destruct (bind_ok _ _ _ H) as (s0 & E0 & H1). clear H.
  destruct (simulate_inv _ _ _ _ _ _ _ _ _ H1) as (total & iv & outs & Et & Piv & Eiv & _ & _ & EX & RC & _). clear H1.
  unfold init_parallel in E0. destruct (bind_ok _ _ _ E0) as (di & _ & E1). clear E0. destruct (bind_ok _ _ _ E1) as (sb & _ & E2). clear E1. apply ok_inj in E2. subst s0.
  rewrite Eiv in *. set (a := tm_exchange p' iv) in *. destruct (FR iv) as [F1 F2]. fold a in F1, F2.
  assert (DT : 0 < dh_supply (pl_dhw p') - pl_return p) by lra.
  assert (A0 : 0 < a).
  { unfold a, tm_exchange. rewrite I1, I3, I4, I5.
    apply qdiv_pos; [apply qmul_pos; [unfold qz, inject_Z, Qlt; cbn; lia|lra]|repeat apply qmul_pos; lra]. }
  clearbody a.
  set (p0 := mkPsys sb (ps_return ps) (ps_flow ps) (ps_on ps) (ps_off ps) (ps_num ps) (mx_initialize (ps_tank ps) (ps_off ps) (sim_inlet di) 1) (ps_heater ps)) in *.
  assert (EQ : tm_equilibrium p' == pl_return p + pl_safety p * (dh_supply (pl_dhw p') - pl_return p)) by (unfold tm_equilibrium; rewrite I1, I6; reflexivity).
  assert (RF : ps_return ps < ps_off ps) by (rewrite Q1, Q4; nra).
  assert (INV : tm_inv2 ps cap1 false p0).
  { unfold tm_inv2, p0. cbn. split; [reflexivity|]. split; [reflexivity|]. split; [reflexivity|]. split; [reflexivity|]. split; [reflexivity|]. split; [reflexivity|].
    split; [exact TL|]. split; [apply Qle_refl|discriminate]. }
  assert (QE : tm_rise ps cap1 iv == tm_frac ps iv * (tm_equilibrium p' - ps_return ps)) by (rewrite F1, F2, Q1, EQ; ring).
  assert (AA : 0 < tm_frac ps iv <= 1) by (rewrite F1; lra).
  assert (PC : 0 < cap1 * qz (ps_num ps)) by (rewrite M; exact CP).
  pose proof (executed_never_off b ps cap1 (tm_equilibrium p') iv V PC RF AA QE ltac:(rewrite Q4; exact EO) outs p0 0%Z s' false INV EX) as K.
  assert (TOT : Forall (fun o => exists x, so_tm_output o = Some x) outs).
  { clear - EX. revert EX. generalize p0 0%Z. induction outs as [|o outs IH]; intros q i EX; constructor.
    - cbn [executed] in EX. destruct EX as (s1 & E & _). destruct (parallel_step_inv _ _ _ _ _ _ E) as (s2 & o1 & tk & h & temp & out & kw & _ & _ & _ & _ & EO & _). exists out. exact EO.
    - cbn [executed] in EX. destruct EX as (s1 & _ & EX). exact (IH _ _ EX). }
  assert (NTH : forall k y, nth_error (somes (map so_tm_output outs)) k = Some y -> exists o, nth_error outs k = Some o /\ so_tm_output o = Some y).
  { clear - TOT. induction TOT as [|o outs (x & X) _ IH]; intros k y E; [destruct k; discriminate|]. cbn [map somes] in E. rewrite X in E. destruct k as [|k]; cbn in E.
    - injection E as ->. exists o. split; [reflexivity|exact X].
    - exact (IH k y E). }
  rewrite (rc_tm_output _ _ RC), (rc_demand _ _ RC), map_length. split.
  - clear - TOT. induction TOT as [|o outs (x & X) _ IH]; [reflexivity|]. cbn [map somes]. rewrite X. cbn [length]. f_equal. exact IH.
  - intros i j x y L Ei Ej P. destruct (NTH _ _ Ei) as (oi & Oi & Xi). destruct (NTH _ _ Ej) as (oj & Oj & Xj).
    pose proof (K i j oi oj x L Oi Oj (or_intror (conj Xi P))) as G. rewrite Xj in G. injection G as ->. exact M.
Qed.
Print Assumptions C61_never_turns_off.

(** A system built from sizing results uses heaters without power data: the run reports no
    maintenance power at all, so its energy and cost miss the maintenance heater entirely. *)
Theorem C19_parallel_power_missing_refuted : forall lib p b0 sched m slope fract p' b' vol cap base ps b dur thr maxm s' r,
  pl_size lib p b0 sched m slope fract = ((p', b'), Ok tt) ->
  or_unsized (pl_tm_vol p') = Ok vol -> or_unsized (pl_tm_cap p') = Ok cap ->
  pl_build base p' vol cap = Ok ps -> 0 < pl_flow p -> pl_return p < dh_supply (pl_dhw p') ->
  simulate_parallel b ps dur thr maxm = Ok (s', r) -> sr_tm_kw r = [].
Proof.
  intros lib p b0 sched m slope fract p' b' vol cap base ps b dur thr maxm s' r E Ev Ec Eb Fl RS H.
  destruct (built_facts _ _ _ _ _ _ _ _ _ _ _ _ _ E Ev Ec Eb Fl RS) as (V & CP & OF & SF & OT & Q1 & Q2 & Q3 & Q4 & AC & cap1 & M & TL & FR).
  unfold simulate_parallel in H. destruct (bind_ok _ _ _ H) as (s0 & E0 & H1). clear H.
  destruct (simulate_inv _ _ _ _ _ _ _ _ _ H1) as (total & iv & outs & Et & Piv & Eiv & _ & _ & EX & RC & _). clear H1.
  unfold init_parallel in E0. destruct (bind_ok _ _ _ E0) as (di & _ & E1). clear E0. destruct (bind_ok _ _ _ E1) as (sb & _ & E2). clear E1. apply ok_inj in E2. subst s0.
  set (p0 := mkPsys sb (ps_return ps) (ps_flow ps) (ps_on ps) (ps_off ps) (ps_num ps) (mx_initialize (ps_tank ps) (ps_off ps) (sim_inlet di) 1) (ps_heater ps)) in *.
  assert (INV : mx_vol (ps_tank p0) = mx_vol (ps_tank ps) /\ ps_num p0 = ps_num ps /\ tm_like p0 cap1) by (split; [reflexivity|]; split; [reflexivity|exact TL]).
  rewrite (rc_tm_kw _ _ RC). clear RC. clearbody p0. revert EX INV. generalize p0 0%Z. clear p0.
  induction outs as [|o outs IH]; intros q i EX (J1 & J2 & J3); [reflexivity|]. cbn [executed] in EX. destruct EX as (s1 & E1 & EX).
  destruct (parallel_step_inv _ _ _ _ _ _ E1) as (s2 & o1 & tk & h & temp & out & kw & _ & ES & -> & _ & _ & EK & _).
  destruct (tm_step_inv q cap1 (so_oat o1) i iv tk h temp out kw) as (T1 & V2 & X1 & X2 & SH & _ & _ & _ & _ & KN);
    [rewrite J1; exact V|exact J3|rewrite J2, M; lra|exact ES|].
  cbn [map somes]. rewrite EK, KN. apply (IH _ _ EX). cbn. split; [congruence|]. split; [congruence|].
  eapply tm_like_next; [exact J3|exact SH|reflexivity|reflexivity].
Qed.
Print Assumptions C19_parallel_power_missing_refuted.

(** The primary system behaves exactly as a base system: each step's primary report is that of the
    base system's step from the same state, and its tank is the base system's. *)
Theorem C61_primary : forall b p t iv p' o, parallel_step b p t iv = Ok (p', o) ->
  exists o1, base_step b (ps_base p) t iv = Ok (ps_base p', o1) /\
    (so_demand o, so_usable o, so_output o, so_power o) = (so_demand o1, so_usable o1, so_output o1, so_power o1) /\
    (so_oat o, so_inlet o, so_temps o, so_mode o, so_delivery o) = (so_oat o1, so_inlet o1, so_temps o1, so_mode o1, so_delivery o1).
Proof.
  intros b p t iv p' o H. destruct (parallel_step_inv _ _ _ _ _ _ H) as (s1 & o1 & tk & h & temp & out & kw & E & _ & -> & _ & _ & _ & A1 & A2 & A3 & A4 & A5 & A6 & A7 & A8 & A9).
  exists o1. split; [exact E|]. split; congruence.
Qed.
Print Assumptions C61_primary.

(** A built system's simulation completes whenever the base system's does. *)
Theorem C61_completes : forall lib p b0 sched m slope fract p' b' vol cap base tk ps b dur thr maxm,
  pl_size lib p b0 sched m slope fract = ((p', b'), Ok tt) ->
  or_unsized (pl_tm_vol p') = Ok vol -> or_unsized (pl_tm_cap p') = Ok cap ->
  pl_build base p' vol cap = Ok ps -> 0 < pl_flow p -> pl_return p < dh_supply (pl_dhw p') ->
  complete b -> Forall scheduled (bs_heaters base) -> Forall rated (bs_heaters base) ->
  bs_tank base = Some tk -> 0 < st_vol tk -> 0 < st_slope tk ->
  dur = "3day"%string \/ dur = "annual"%string ->
  exists s' r, simulate_parallel b ps dur thr maxm = Ok (s', r).
Proof.
  intros lib p b0 sched m slope fract p' b' vol cap base tk ps b dur thr maxm E Ev Ec Eb Fl RS C FS FR ET V1 V2 D.
  destruct (built_facts _ _ _ _ _ _ _ _ _ _ _ _ _ E Ev Ec Eb Fl RS) as (V & CP & OF & SF & OT & Q1 & Q2 & Q3 & Q4 & AC & cap1 & M & TL & _).
  apply (parallel_completes b ps cap1); [exact C| |exact D]. split; [|split; [exact V|exact TL]].
  unfold pl_build in Eb. destruct (bind_ok _ _ _ Eb) as (x & _ & E2). apply ok_inj in E2. subst ps. cbn.
  split; [exact FS|]. split; [exact FR|]. exists tk. split; [exact ET|]. split; assumption.
Qed.
Print Assumptions C61_completes.

(** *** Concrete cases *)
From Verif Require P_Sizing.
Definition ex_ploop (on off off_time : Q) : ploop :=
  mkPloop P_Sizing.ex_dhw 110 3 on off off_time (6 # 5) 2 None None.

Lemma ex_par on off off_time : tm_accepted (ex_ploop on off off_time) ->
  exists p' vol cap ps, pl_size P_Sizing.ex_lib (ex_ploop on off off_time) P_Sizing.ex_building None P_Sizing.ex_map 2 1 = ((p', P_Sizing.ex_building), Ok tt) /\
    or_unsized (pl_tm_vol p') = Ok vol /\ or_unsized (pl_tm_cap p') = Ok cap /\
    pl_build (ex_bsys 60) p' vol cap = Ok ps /\ dh_supply (pl_dhw p') = 120 /\
    pl_return p' = 110 /\ pl_on p' = on /\ pl_off p' = off /\ pl_off_time p' = off_time /\ pl_safety p' = 6 # 5.
Proof.
  intro A. destruct P_Sizing.C35_case as (d0 & w0 & V0 & f0 & ED & _).
  destruct (C47_sized P_Sizing.ex_lib _ P_Sizing.ex_building None P_Sizing.ex_map 2 1 A) as (d & b' & r & ED2 & K).
  cbn [pl_dhw ex_ploop] in ED2. rewrite ED in ED2. apply pair_equal_spec in ED2. destruct ED2 as [X1 <-]. apply pair_equal_spec in X1. destruct X1 as [<- <-].
  destruct K as (p' & vol & cap & E & E1 & E2 & E3 & E4 & _).
  assert (S : dh_supply d0 = 120).
  { pose proof (P_Sizing.C35_case) as _. clear - ED. unfold dhw_size in ED. vm_compute in ED. injection ED as <- _. reflexivity. }
  cbn in E4. injection E4 as F1 F2 F3 F4 F5 F6 F7.
  exists p', vol, cap. unfold pl_build. rewrite F7. rewrite qdiv_ok by discriminate. cbn [bind]. eexists. split; [exact E|]. split; [exact E2|]. split; [exact E3|].
  split; [reflexivity|]. rewrite E1. split; [exact S|]. repeat split; assumption.
Qed.

(** Accepted parameters whose loop exchanges a sixtieth of the tank per minute; the run completes,
    so the band of C61_band holds of a real run. *)
Example C61_band_case : exists p' vol cap ps s' r,
  pl_size P_Sizing.ex_lib (ex_ploop 115 120 (1 # 2)) P_Sizing.ex_building None P_Sizing.ex_map 2 1 = ((p', P_Sizing.ex_building), Ok tt) /\
  or_unsized (pl_tm_vol p') = Ok vol /\ or_unsized (pl_tm_cap p') = Ok cap /\ pl_build (ex_bsys 60) p' vol cap = Ok ps /\
  simulate_parallel ex_building ps "3day" 5 10 = Ok (s', r) /\ tm_exchange p' 1 == 1 # 60 /\ tm_equilibrium p' == 122.
Proof.
  destruct (ex_par 115 120 (1 # 2)) as (p' & vol & cap & ps & E & E1 & E2 & E3 & F0 & F1 & F2 & F3 & F4 & F5).
  { repeat split; cbn; reflexivity || discriminate. }
  destruct (C61_completes _ _ _ _ _ _ _ _ _ _ _ _ (st_new 300 1) _ ex_building "3day" 5 10 E E1 E2 E3) as (s' & r & H);
    [reflexivity|cbn; rewrite F0; reflexivity|exact ex_complete|constructor; [apply ex_scheduled|constructor]|constructor; [apply ex_rated; discriminate|constructor]|reflexivity|reflexivity|reflexivity|left; reflexivity|].
  exists p', vol, cap, ps, s', r. split; [exact E|]. split; [exact E1|]. split; [exact E2|]. split; [exact E3|]. split; [exact H|].
  unfold tm_exchange, tm_equilibrium. rewrite F0, F1, F2, F3, F4, F5. split; reflexivity.
Qed.

(** Accepted parameters with the off-temperature at 125: the balance temperature is 122, so by
    C61_never_turns_off the heater never turns off. *)
Example C61_never_turns_off_case : exists p' vol cap ps s' r,
  pl_size P_Sizing.ex_lib (ex_ploop 115 125 (1 # 2)) P_Sizing.ex_building None P_Sizing.ex_map 2 1 = ((p', P_Sizing.ex_building), Ok tt) /\
  or_unsized (pl_tm_vol p') = Ok vol /\ or_unsized (pl_tm_cap p') = Ok cap /\ pl_build (ex_bsys 60) p' vol cap = Ok ps /\
  simulate_parallel ex_building ps "annual" 5 10 = Ok (s', r) /\ tm_exchange p' (sr_iv r) <= 1 /\ tm_equilibrium p' <= 125.
Proof.
  destruct (ex_par 115 125 (1 # 2)) as (p' & vol & cap & ps & E & E1 & E2 & E3 & F0 & F1 & F2 & F3 & F4 & F5).
  { repeat split; cbn; reflexivity || discriminate. }
  destruct (C61_completes _ _ _ _ _ _ _ _ _ _ _ _ (st_new 300 1) _ ex_building "annual" 5 10 E E1 E2 E3) as (s' & r & H);
    [reflexivity|cbn; rewrite F0; reflexivity|exact ex_complete|constructor; [apply ex_scheduled|constructor]|constructor; [apply ex_rated; discriminate|constructor]|reflexivity|reflexivity|reflexivity|right; reflexivity|].
  exists p', vol, cap, ps, s', r. split; [exact E|]. split; [exact E1|]. split; [exact E2|]. split; [exact E3|]. split; [exact H|].
  unfold simulate_parallel in H. destruct (bind_ok _ _ _ H) as (s0 & _ & H1).
  destruct (simulate_inv _ _ _ _ _ _ _ _ _ H1) as (total & iv & outs & Et & Piv & Eiv & _). cbn in Et. injection Et as _ Et.
  rewrite Eiv, <- Et. unfold tm_exchange, tm_equilibrium. rewrite F0, F1, F2, F3, F4, F5. split; discriminate.
Qed.

(** Accepted parameters (on 110, off 130, off-time 6 minutes) in an annual run: one ten-minute step
    exchanges 3.3 times the tank, and the first reported temperature is below the loop's return
    temperature. *)
Theorem C61_annual_overshoot_refuted : exists p' vol cap ps,
  pl_size P_Sizing.ex_lib (ex_ploop 110 130 (1 # 10)) P_Sizing.ex_building None P_Sizing.ex_map 2 1 = ((p', P_Sizing.ex_building), Ok tt) /\
  or_unsized (pl_tm_vol p') = Ok vol /\ or_unsized (pl_tm_cap p') = Ok cap /\ pl_build (ex_bsys 60) p' vol cap = Ok ps /\
  exists s' r, simulate_parallel ex_building ps "annual" 5 10 = Ok (s', r) /\
  exists x, nth_error (sr_tm_temp r) 0 = Some x /\ x < pl_return p' - 6.
Proof.
  destruct (ex_par 110 130 (1 # 10)) as (p' & vol & cap & ps & E & E1 & E2 & E3 & F0 & F1 & F2 & F3 & F4 & F5).
  { repeat split; cbn; reflexivity || discriminate. }
  assert (RS : pl_return (ex_ploop 110 130 (1 # 10)) < dh_supply (pl_dhw p')) by (cbn; rewrite F0; reflexivity).
  exists p', vol, cap, ps. split; [exact E|]. split; [exact E1|]. split; [exact E2|]. split; [exact E3|].
  destruct (C61_completes _ _ _ _ _ _ _ _ _ _ _ _ (st_new 300 1) _ ex_building "annual" 5 10 E E1 E2 E3) as (s' & r & H);
    [reflexivity|exact RS|exact ex_complete|constructor; [apply ex_scheduled|constructor]|constructor; [apply ex_rated; discriminate|constructor]|reflexivity|reflexivity|reflexivity|right; reflexivity|].
  exists s', r. split; [exact H|].
  destruct (built_facts _ _ _ _ _ _ _ _ _ _ _ _ _ E E1 E2 E3 eq_refl RS) as (V & CP & OF & SF & OT & Q1 & Q2 & Q3 & Q4 & AC & cap1 & M & TL & FR).
  unfold simulate_parallel in H. destruct (bind_ok _ _ _ H) as (s0 & E0 & H1). clear H.
  destruct (simulate_inv _ _ _ _ _ _ _ _ _ H1) as (total & iv & outs & Et & Piv & Eiv & _ & _ & EX & RC & _ & _ & ST & NS). clear H1.
  cbn in Et. injection Et as <- <-.
  assert (NE : outs <> []). { intros ->. destruct (sr_stopped r); [destruct (ST eq_refl); congruence|]. destruct (NS eq_refl) as [X _]. cbn in X. discriminate X. }
  destruct outs as [|o outs]; [congruence|]. cbn [executed] in EX. destruct EX as (s1 & ES & _).
  unfold init_parallel in E0. destruct (bind_ok _ _ _ E0) as (di & _ & E4). clear E0. destruct (bind_ok _ _ _ E4) as (sb & _ & E5). clear E4. apply ok_inj in E5. subst s0.
  destruct (parallel_step_inv _ _ _ _ _ _ ES) as (s2 & o1 & tk & h & temp & out & kw & _ & ET & _ & EO & _).
  destruct (FR 10%Z) as [R1 R2].
  assert (X1 : tm_exchange p' 10 == 10 # 3) by (unfold tm_exchange; rewrite F0, F1, F2, F3, F4; reflexivity).
  rewrite X1 in R1, R2.
  match type of ET with tm_step ?q _ _ _ = _ => set (q0 := q) in * end.
  destruct (tm_step_inv q0 cap1 (so_oat o1) 0 10 tk h temp out kw) as (T1 & _ & Y1 & -> & _ & U1 & _ & On & _ & _);
    [exact V|exact TL|change (0 <= cap1 * qz (ps_num ps)); rewrite M; lra|exact ET|].
  change (tm_frac q0 10) with (tm_frac ps 10) in Y1. change (tm_rise q0 cap1 10) with (tm_rise ps cap1 10) in On.
  change (mx_temp (ps_tank q0)) with (ps_off ps) in Y1. change (ps_return q0) with (ps_return ps) in Y1. change (ps_on q0) with (ps_on ps) in U1.
  rewrite R1, Q1, Q4 in Y1. rewrite Q3 in U1. rewrite F0 in R2. cbn in Y1, U1, R2.
  assert (T1V : T1 == 190 # 3) by (rewrite Y1; reflexivity).
  assert (A : wh_active h = true) by (apply U1; [exact AC|rewrite T1V; reflexivity]).
  destruct (On A) as [_ TT]. rewrite R2, T1V in TT.
  exists (mx_temp tk). rewrite (rc_tm_temp _ _ RC). cbn [map somes]. rewrite EO. split; [reflexivity|]. rewrite TT, F1. reflexivity.
Qed.
Print Assumptions C61_annual_overshoot_refuted.
