(** C43-C45 (and C40 for swing systems): sizing of the swing tank. *)
From Verif Require Import Prelude M_StratifiedTank M_Building M_Heater M_Sizing S_Sizing L_Building L_Heater L_Sizing L_Sizing2 L_Sizing3 L_Sizing4 M_Swing S_Swing L_Swing L_Swing2 L_Swing3 L_Swing4.
Open Scope Q_scope.

(** ** C43 The swing tank never drops below supply during sizing *)

(** For every draw sequence that leaves some water in the tank, the sizing simulation completes (so
    the "dropped below supply" and "undersized" errors are not raised), follows the heat balance and the
    thermostat of the specification, and stays between supply and the larger of storage and supply + 8. *)
Theorem C43_stays_at_supply : forall supply storage inlet loss vol cap draws,
  let k := mkTank supply storage inlet loss vol cap in
  sensible k -> draws <> [] -> (forall x, In x draws -> 0 <= x < vol) ->
  exists x r tr, draws = x :: r /\
    sim_just_swing (mkEnv supply storage inlet loss vol cap) draws (supply + (1 # 10))
      = Ok ((supply + (1 # 10), 0, x) :: tr) /\
    swing_days k false (supply + (1 # 10)) r tr /\ length tr = length r /\
    forall t run hw, In (t, run, hw) tr -> supply <= t <= qmax storage (supply + 8).
Proof.
  intros supply storage inlet loss vol cap draws k (V & L0 & LC & I & ST) NE B. cbn in V, L0, LC, I, ST.
  destruct (sim_just_ok (mkEnv supply storage inlet loss vol cap) draws V L0 LC I ST NE B)
    as (x & r & rest & E & SJ & SD & T & LT & _). cbn [sv_supply sv_storage] in *.
  exists x, r, rest. split; [exact E|]. split; [exact SJ|]. split; [exact SD|]. split; [exact LT|].
  intros t run hw H. destruct (T _ _ _ H) as [T1 T2]. split; [exact T1|]. eapply Qle_trans; [exact T2|].
  apply qmax_lub; [|apply qmax_r]. apply qmax_lub; [|apply qmax_l]. eapply Qle_trans; [|apply qmax_r]. lra.
Qed.
Print Assumptions C43_stays_at_supply.

(** Concretely: two minutes of draw from a 40 gallon tank at 120.1 F with 10 kBTU/h of loss. *)
Example C43_nonvacuous : exists t1 t2,
  sensible (mkTank 120 150 50 10 40 15) /\
  sim_just_swing (mkEnv 120 150 50 10 40 15) [1; 0; 2] (120 + (1 # 10)) = Ok [(120 + (1 # 10), 0, 1); t1; t2] /\
  fst (fst t1) == 120 /\ 0 < snd (fst t1) /\ 120 < fst (fst t2) /\ snd t2 == 2.
Proof.
  unfold sensible; cbn [tk_vol tk_loss tk_cap tk_inlet tk_supply tk_storage].
  destruct (sim_just_swing (mkEnv 120 150 50 10 40 15) [1; 0; 2] (120 + (1 # 10))) as [l|] eqn:E; vm_compute in E; inversion E; subst.
  do 2 eexists. repeat split; try discriminate; try reflexivity.
Qed.

(** The specification leaves no freedom: two traces with the same start agree. *)
Theorem C43_trajectory_unique : forall k on t draws tr tr',
  sensible k -> tk_supply k <= t ->
  swing_days k on t draws tr -> (forall a b c, In (a, b, c) tr -> tk_supply k <= a) ->
  swing_days k on t draws tr' ->
  Forall2 (fun p q => fst (fst p) == fst (fst q) /\ snd p == snd q) tr tr'.
Proof.
  intros k on t draws tr tr' (V & L0 & LC & I & ST) T H A H'.
  apply (swing_days_unique k V ltac:(lra) I on t draws tr H A T t tr' (Qeq_refl t) H').
Qed.
Print Assumptions C43_trajectory_unique.

(** Sizing a swing system without load shifting succeeds whenever the inputs are physical, the tank
    table is large enough and no minute's demand is exactly a table size. *)
Theorem C43_sizing_succeeds : forall lib s b sched m slope fract inlet factor,
  bd_is_annual b = false -> no_load_shift sched m ->
  design_inlet b = Ok inlet -> strat_factor (sw_dhw s) m slope inlet = Ok factor -> ~ factor == 0 ->
  inlet < dh_supply (sw_dhw s) -> dh_supply (sw_dhw s) <= dh_storage (sw_dhw s) ->
  0 < dh_run (sw_dhw s) -> ~ dh_defrost (sw_dhw s) == 0 -> 1 < sw_safety s -> 0 <= sw_loss s ->
  length (bd_peak b) = 24%nat -> (forall x, In x (bd_peak b) -> 0 <= x) -> 0 < bd_daily b ->
  sw_loss s * 1000 <= 1250 * 100 * w_to_kbtuh ->
  (forall x, In x (bd_peak b) -> bd_daily b * x <= 1250 * 60) ->
  (forall x z, In x (bd_peak b) -> In z swing_table -> ~ bd_daily b * x == qz z * 60) ->
  exists s', swing_size lib s b sched m slope fract = (s', b, Ok tt).
Proof.
  intros lib s b sched m slope fract inlet factor AN NL Hi Hf Nf Hin Hst Hr Hd Hs Hl LP P0 D0 CL CP NEQ.
  apply no_ls in NL.
  unfold swing_size. rewrite AN. rewrite cap_run_no_ls by exact NL.
  replace (sw_set_dhw s (sw_dhw s)) with s by (destruct s; reflexivity).
  assert (exists v, tm_vol_required s b = Ok v) as (v & RV).
  { unfold tm_vol_required, shape_max. destruct (bd_peak b) as [|x r]; [discriminate LP|]. cbn [bind]. eexists. reflexivity. }
  destruct (required_spec s b v RV) as (Q1 & Q2 & Q3).
  assert (WP : 0 < 100 * w_to_kbtuh) by reflexivity.
  assert (V1250 : v <= 1250).
  { destruct Q3 as [E|(x & X & E)]; rewrite E.
    - apply qdiv_le_iff; [exact WP|]. lra.
    - apply qdiv_le_iff; [reflexivity|]. apply CP. exact X. }
  destruct (size_tm_total s b v RV V1250) as (s1 & S1).
  destruct (size_tm_inv s b s1 S1) as (v' & vol & ca & RV' & _ & TP & TC & E1).
  rewrite RV in RV'. apply ok_inj in RV'. subst v'.
  destruct (table_pick_spec _ _ _ TP) as ((z & Z & ->) & VL & VM).
  assert (ZP : 0 < qz z).
  { cbn in Z. repeat (destruct Z as [<-|Z]; [reflexivity|]). destruct Z. }
  set (v0 := mkEnv (dh_supply (sw_dhw s)) (dh_storage (sw_dhw s)) inlet (sw_loss s) (qz z) (sw_safety s * (sw_loss s * 1000) / 1000)).
  assert (CE : sw_safety s * (sw_loss s * 1000) / 1000 == sw_safety s * sw_loss s) by field.
  assert (RDY : swing_ready v0 (dh_run (sw_dhw s)) (bd_daily b) (bd_peak b)).
  { constructor; cbn [sv_vol sv_loss sv_cap sv_inlet sv_supply sv_storage v0]; try assumption.
    - rewrite CE. assert (0 <= (sw_safety s - 1) * sw_loss s) by (apply qmul_nonneg; lra). lra.
    - intros x X. split; [apply P0; exact X|].
      assert (D1 : 0 <= bd_daily b) by lra. pose proof (Q2 D1 x X) as L1.
      assert (L2 : bd_daily b * x <= qz z * 60) by (apply qdiv_le_iff; [reflexivity|lra]).
      pose proof (NEQ x z X Z). destruct (Qlt_le_dec (bd_daily b * x) (60 * qz z)) as [A|A]; [exact A|].
      exfalso. apply H. lra. }
  destruct (running_ok (sw_set_mix s1 1) b inlet v0 Hi) as (mo & V & W & RN & _).
  { subst s1. reflexivity. }
  { subst s1. exact RDY. }
  unfold swing_size_try. rewrite Hi, S1, RN.
  assert (D3 : sw_dhw (apply_mix (sw_set_mix s1 1) mo) = sw_dhw s) by (subst s1; destruct mo; reflexivity).
  rewrite D3, Hf. cbn [bind]. unfold storage_volume. rewrite (qdiv_ok V factor Nf). cbn [bind].
  assert (CAP : exists c, swing_capacity (apply_mix (sw_set_mix s1 1) mo) b = Ok c).
  { unfold swing_capacity, swing_capacity_of, swing_normal_gen. rewrite Hi. cbn [bind]. rewrite D3.
    rewrite qdiv_ok by lra. cbn [bind]. rewrite qdiv_ok by exact Hd. cbn [bind]. eexists. reflexivity. }
  destruct CAP as (c & ->). cbn [bind].
  assert (FIN : forall A (x y : A), match sched, m with Some _, Some _ => if ls_active sched m then x else y | _, _ => y end = y).
  { intros A x y. rewrite NL. destruct sched, m; reflexivity. }
  destruct sched as [sc|]; [destruct m as [d|]; [rewrite NL|]|]; eexists; reflexivity.
Qed.
Print Assumptions C43_sizing_succeeds.

(** Such a system: 60 apartments' worth of demand with a morning peak. *)
Definition sw_shape : list Q := repeat (1 # 30) 18 ++ repeat (1 # 15) 6.
Definition sw_building : building :=
  mkBuilding (Some (cz_from_design (Some 30) (Some 50))) 1500 sw_shape sw_shape "multi_family".
Definition sw_system : swing := mkSwing (mkDhw 120 150 16 1 None None None) 115 6 (3 # 2) 1 None None None.
Definition sw_controls : option ctl_map := Some [("normal"%string, mkControls (4 # 10) 120 (1 # 10) 140 150)].
Definition sw_lib : library := mkLibrary (fun _ => None) (fun _ => Err KeyError) (fun _ => 0).

Example C43_sizing_case : exists s', swing_size sw_lib sw_system sw_building None sw_controls 2 1 = (s', sw_building, Ok tt).
Proof.
  destruct (strat_factor (sw_dhw sw_system) sw_controls 2 50) as [f|] eqn:F; [|vm_compute in F; discriminate].
  apply (C43_sizing_succeeds sw_lib sw_system sw_building None sw_controls 2 1 50 f); try reflexivity; try discriminate.
  - left. reflexivity.
  - exact F.
  - vm_compute in F. inversion F. discriminate.
  - intros x H. unfold sw_building, sw_shape in H. cbn in H. repeat (destruct H as [<-|H]; [discriminate|]). destruct H.
  - intros x H. unfold sw_building, sw_shape in H. cbn in H. repeat (destruct H as [<-|H]; [discriminate|]). destruct H.
  - intros x z H Z. unfold sw_building, sw_shape in H. cbn in H, Z. 
    repeat (destruct H as [<-|H]; [repeat (destruct Z as [<-|Z]; [discriminate|]); destruct Z|]). destruct H.
Qed.

(** A minute that draws exactly the tank's volume while it is at supply temperature raises, although
    the table only asks for a tank at least as large as the peak minute. *)
Theorem C43_full_draw_refuted : exists v t hw,
  sensible (tank_of v) /\ sv_supply v <= t /\ hw == sv_vol v /\
  from_primary v t (sv_vol v) = Ok hw /\ swing_step v true t hw (sv_storage v) = Err ValueError.
Proof.
  exists (mkEnv 120 150 50 10 40 15), 120, (40 * (120 - 50) / (120 - 50)). unfold sensible.
  cbn [tank_of tk_vol tk_loss tk_cap tk_inlet tk_supply tk_storage sv_vol sv_loss sv_cap sv_inlet sv_supply sv_storage].
  repeat split; try discriminate; try reflexivity.
Qed.
Print Assumptions C43_full_draw_refuted.

(** ** C44 Demand on the primary *)

(** Each minute's draw on the primary is at most the demand, whatever the draws. *)
Theorem C44_draw_at_most_demand : forall supply storage inlet loss vol cap draws out,
  sensible (mkTank supply storage inlet loss vol cap) -> (forall x, In x draws -> 0 <= x < vol) ->
  sim_just_swing (mkEnv supply storage inlet loss vol cap) draws (supply + (1 # 10)) = Ok out ->
  Forall2 (fun demand o => 0 <= snd o <= demand) draws out.
Proof.
  intros supply storage inlet loss vol cap draws out (V & L0 & LC & I & ST) B H. cbn in V, L0, LC, I, ST.
  destruct draws as [|x0 r0]; [discriminate H|].
  destruct (sim_just_ok (mkEnv supply storage inlet loss vol cap) (x0 :: r0) V L0 LC I ST ltac:(discriminate) B)
    as (x & r & rest & E & SJ & SD & T & LT & F2).
  cbn [sv_supply] in SJ. rewrite SJ in H. apply ok_inj in H. subst out. unfold hw_of in F2.
  cbn [sv_supply] in F2. clear - F2. revert F2. generalize ((supply + (1 # 10), 0, x) :: rest).
  generalize (x0 :: r0). induction l as [|a l IH]; intros [|p q] F; cbn [map] in F; inversion F; subst; constructor; auto.
Qed.
Print Assumptions C44_draw_at_most_demand.

Example C44_nonvacuous : exists out,
  sim_just_swing (mkEnv 120 150 50 10 40 15) [1; 3; 2] (120 + (1 # 10)) = Ok out /\
  sensible (mkTank 120 150 50 10 40 15) /\ qsum (hw_of out) < qsum [1; 3; 2].
Proof.
  destruct (sim_just_swing (mkEnv 120 150 50 10 40 15) [1; 3; 2] (120 + (1 # 10))) as [l|] eqn:E; vm_compute in E; inversion E; subst.
  eexists. split; [reflexivity|]. split; [|vm_compute; reflexivity].
  unfold sensible; cbn [tk_vol tk_loss tk_cap tk_inlet tk_supply tk_storage]. repeat split; discriminate.
Qed.

(** The facts a successful sizing without load shifting rests on. *)
Lemma ready_of_size s b s1 inlet : size_tm s b = Ok s1 -> design_inlet b = Ok inlet ->
  inlet < dh_supply (sw_dhw s) -> dh_supply (sw_dhw s) <= dh_storage (sw_dhw s) ->
  0 < dh_run (sw_dhw s) -> 1 < sw_safety s -> 0 <= sw_loss s ->
  length (bd_peak b) = 24%nat -> (forall x, In x (bd_peak b) -> 0 <= x) -> 0 < bd_daily b ->
  (forall x vol, In x (bd_peak b) -> sw_tm_vol s1 = Some vol -> ~ bd_daily b * x == vol * 60) ->
  exists vol cap, sw_tm_vol s1 = Some vol /\ sw_tm_cap s1 = Some cap /\ sw_dhw s1 = sw_dhw s /\
    let v := mkEnv (dh_supply (sw_dhw s)) (dh_storage (sw_dhw s)) inlet (sw_loss s) vol cap in
    env_of (sw_set_mix s1 1) inlet = Ok v /\ swing_ready v (dh_run (sw_dhw s)) (bd_daily b) (bd_peak b).
Proof.
  intros S1 Hi Hin Hst Hr Hs Hl LP P0 D0 NEQ.
  destruct (size_tm_inv s b s1 S1) as (v' & vol & ca & RV & _ & TP & TC & E1).
  destruct (required_spec s b v' RV) as (Q1 & Q2 & Q3).
  destruct (table_pick_spec _ _ _ TP) as ((z & Z & ->) & VL & VM).
  assert (ZP : 0 < qz z).
  { cbn in Z. repeat (destruct Z as [<-|Z]; [reflexivity|]). destruct Z. }
  subst s1. exists (qz z), (sw_safety s * (sw_loss s * 1000) / 1000).
  split; [reflexivity|]. split; [reflexivity|]. split; [reflexivity|]. split; [reflexivity|].
  assert (CE : sw_safety s * (sw_loss s * 1000) / 1000 == sw_safety s * sw_loss s) by field.
  constructor; cbn [sv_vol sv_loss sv_cap sv_inlet sv_supply sv_storage]; try assumption.
  - rewrite CE. assert (0 <= (sw_safety s - 1) * sw_loss s) by (apply qmul_nonneg; lra). lra.
  - intros x X. split; [apply P0; exact X|].
    assert (D1 : 0 <= bd_daily b) by lra. pose proof (Q2 D1 x X) as L1.
    assert (L2 : bd_daily b * x <= qz z * 60) by (apply qdiv_le_iff; [reflexivity|lra]).
    pose proof (NEQ x (qz z) X eq_refl). destruct (Qlt_le_dec (bd_daily b * x) (60 * qz z)) as [A|A]; [exact A|].
    exfalso. apply H. lra.
Qed.

(** What sizing without load shifting leaves behind: the mix fraction is at most the sum of the shape
    (or 1); the capacity is the one that makes the mixed daily demand at storage temperature in the run
    hours; the stored volume covers a full day from every probed hour, and is attained. *)
Theorem C44_sized_for_every_probed_day : forall lib s b b1 sched m slope fract s' b' w inlet factor,
  (if bd_is_annual b then bd_set_daily lib b else Ok b) = Ok b1 -> no_load_shift sched m ->
  swing_size lib s b sched m slope fract = (s', b', Ok w) ->
  design_inlet b1 = Ok inlet -> strat_factor (sw_dhw s) m slope inlet = Ok factor ->
  inlet < dh_supply (sw_dhw s) -> dh_supply (sw_dhw s) <= dh_storage (sw_dhw s) ->
  0 < dh_run (sw_dhw s) -> 1 < sw_safety s -> 0 <= sw_loss s ->
  length (bd_peak b1) = 24%nat -> (forall x, In x (bd_peak b1) -> 0 <= x) -> 0 < bd_daily b1 ->
  (forall x vol, In x (bd_peak b1) -> sw_tm_vol s' = Some vol -> ~ bd_daily b1 * x == vol * 60) ->
  exists vol cap V C,
    sw_tm_vol s' = Some vol /\ sw_tm_cap s' = Some cap /\ dh_min_stor (sw_dhw s') = Some V /\ dh_min_cap (sw_dhw s') = Some C /\
    let supply := dh_supply (sw_dhw s) in let storage := dh_storage (sw_dhw s) in
    let k := mkTank supply storage inlet (sw_loss s) vol cap in
    let W := V * factor * (supply - inlet) / (storage - inlet) in
    0 <= sw_eff_mix s' <= qmax 1 (qsum (bd_peak b1)) /\
    C * 1000 * dh_defrost (sw_dhw s) * dh_run (sw_dhw s) == bd_daily b1 * sw_eff_mix s' * rho_cp * (storage - inlet) /\
    (forall i, probed (dh_run (sw_dhw s)) (bd_peak b1) i ->
       exists mix draw, 0 <= mix <= qsum (bd_peak b1) /\ day_covered k (dh_run (sw_dhw s)) (bd_daily b1) (bd_peak b1) i W mix draw) /\
    (W == 0 \/ exists i draw n, probed (dh_run (sw_dhw s)) (bd_peak b1) i /\
       day_covered k (dh_run (sw_dhw s)) (bd_daily b1) (bd_peak b1) i W (sw_eff_mix s') draw /\ (n <= day_minutes)%nat /\
       W == total (fun j => draw j - bd_daily b1 * sw_eff_mix s' / dh_run (sw_dhw s) / 60) n).
Proof.
  intros lib s b b1 sched m slope fract s' b' w inlet factor Hb NL H Hi Hf Hin Hst Hr Hs Hl LP P0 D0 NEQ.
  apply no_ls in NL.
  destruct (swing_size_inv _ _ _ _ _ _ _ _ _ _ H) as (b1' & inlet' & s1 & mo & rv & f & stor & cap & A1 & A2 & A3 & A4 & A5 & A6 & A7 & cap' & stor' & mix' & ES & [(_ & -> & -> & ->)|X]);
    [|destruct X as (? & ? & ? & ? & ? & ? & ? & _ & _ & X & _); congruence].
  rewrite Hb in A1. apply ok_inj in A1. subst b1'. rewrite Hi in A2. apply ok_inj in A2. subst inlet'.
  rewrite cap_run_no_ls in A3 by exact NL.
  replace (sw_set_dhw s (sw_dhw s)) with s in A3 by (destruct s; reflexivity).
  assert (TV : sw_tm_vol s' = sw_tm_vol s1) by (rewrite ES; reflexivity).
  destruct (ready_of_size s b1 s1 inlet A3 Hi Hin Hst Hr Hs Hl LP P0 D0) as (vol & tcap & E1 & E2 & E3 & EV & RDY).
  { intros x vol X Y. apply (NEQ x vol X). rewrite TV. exact Y. }
  rewrite E3, Hf in A5. apply ok_inj in A5. subst f.
  assert (RUN : dh_run (sw_dhw (sw_set_mix s1 1)) = dh_run (sw_dhw s)) by (cbn [sw_dhw sw_set_mix]; rewrite E3; reflexivity).
  destruct (running_ok (sw_set_mix s1 1) b1 inlet _ Hi EV) as (mo' & V0 & W & RN & W0 & VW & CV & AT); [rewrite RUN; exact RDY|].
  rewrite RUN in CV, AT.
  rewrite A4 in RN. apply ok_inj in RN. inversion RN; subst mo' V0; clear RN. cbn [sv_storage sv_supply] in VW.
  unfold storage_volume in A6. apply qdiv_inv in A6. destruct A6 as [NF ->].
  exists vol, tcap, (rv / factor), cap. rewrite ES. cbn [sw_tm_vol sw_tm_cap sw_dhw dh_min_stor dh_min_cap sw_eff_mix].
  split; [exact E1|]. split; [exact E2|]. split; [reflexivity|]. split; [reflexivity|]. cbv zeta.
  set (su := dh_supply (sw_dhw s)) in *. set (st := dh_storage (sw_dhw s)) in *.
  assert (WE : rv / factor * factor * (su - inlet) / (st - inlet) == W).
  { rewrite (qdiv_mul rv factor NF), VW. field. split; lra. }
  set (W' := rv / factor * factor * (su - inlet) / (st - inlet)) in *. clearbody W'.
  assert (TR : forall i mi draw, covers (mkEnv su st inlet (sw_loss s) vol tcap) (dh_run (sw_dhw s)) (bd_daily b1) (bd_peak b1) i W mi draw ->
    day_covered (mkTank su st inlet (sw_loss s) vol tcap) (dh_run (sw_dhw s)) (bd_daily b1) (bd_peak b1) i W' mi draw).
  { intros i mi draw (X & Y & Z). split; [exact X|]. split; [exact Y|]. intros n N. rewrite WE. apply Z. exact N. }
  assert (MIX : forall x, mo = Some x -> sw_eff_mix (apply_mix (sw_set_mix s1 1) mo) = x) by (intros x ->; reflexivity).
  split.
  { pose proof (qmax_l 1 (qsum (bd_peak b1))). pose proof (qmax_r 1 (qsum (bd_peak b1))).
    destruct AT as [[_ [->| ->]]|(i & draw & mix & n & _ & -> & MB & _)]; cbn [apply_mix sw_set_mix sw_eff_mix]; lra. }
  split.
  { unfold swing_capacity, swing_capacity_of, swing_normal_gen in A7. rewrite Hi in A7. cbn [bind] in A7.
    assert (D3 : sw_dhw (apply_mix (sw_set_mix s1 1) mo) = sw_dhw s) by (rewrite <- E3; destruct mo; reflexivity).
    rewrite D3 in A7. rewrite qdiv_ok in A7 by lra. cbn [bind] in A7.
    apply bind_ok in A7. destruct A7 as (x & X & A7). apply ok_inj in A7. subst cap.
    apply qdiv_inv in X. destruct X as [ND ->]. fold st. field. split; [lra|exact ND]. }
  split.
  { intros i PR. destruct (CV i PR) as (mi & draw & C & MB). exists mi, draw. split; [exact MB|]. apply TR. exact C. }
  destruct AT as [[Z _]|(i & draw & mix & n & PR & EM & _ & C & N & T)]; [left; lra|].
  right. rewrite (MIX mix EM). exists i, draw, n. split; [exact PR|]. split; [apply TR; exact C|]. split; [exact N|].
  rewrite WE. symmetry. exact T.
Qed.
Print Assumptions C44_sized_for_every_probed_day.

(** The example building has a probed hour (18) and its sizing succeeds, so the theorem applies. *)
Example C44_case : probed 16 sw_shape 18 /\ (exists s', swing_size sw_lib sw_system sw_building None sw_controls 2 1 = (s', sw_building, Ok tt)) /\ qsum sw_shape == 1.
Proof.
  split; [|split; [exact C43_sizing_case|reflexivity]].
  split; [lia|]. left. split; [lia|]. split; vm_compute; [reflexivity|discriminate].
Qed.

(** ** C45 The tank is the smallest listed size that suffices *)

Lemma needs_iff s b r v : tm_vol_required s b = Ok r -> 0 <= bd_daily b -> (needs (sw_loss s) (bd_daily b) (bd_peak b) v <-> r <= v).
Proof.
  intros R D. destruct (required_spec s b r R) as (Q1 & Q2 & Q3). unfold needs.
  assert (WP : 0 < 100 * w_to_kbtuh) by reflexivity. change (3412142 # 1000000) with w_to_kbtuh.
  split.
  - intros [A B]. destruct Q3 as [E|(x & X & E)]; rewrite E.
    + apply qdiv_le_iff; [exact WP|lra].
    + apply qdiv_le_iff; [reflexivity|]. apply B. exact X.
  - intro L. split.
    + assert (sw_loss s * 1000 / (100 * w_to_kbtuh) <= v) by lra. apply qdiv_le_iff in H; [lra|exact WP].
    + intros x X. pose proof (Q2 D x X). assert (bd_daily b * x / 60 <= v) by lra. apply qdiv_le_iff in H0; [lra|reflexivity].
Qed.

Theorem C45_smallest_adequate : forall lib s b b1 sched m slope fract s' b' w,
  (if bd_is_annual b then bd_set_daily lib b else Ok b) = Ok b1 -> 0 <= bd_daily b1 ->
  swing_size lib s b sched m slope fract = (s', b', Ok w) ->
  exists z ca cap, sw_tm_vol s' = Some (qz z) /\ sw_tm_ca s' = Some ca /\ sw_tm_cap s' = Some cap /\
    let ok := needs (sw_loss s) (bd_daily b1) (bd_peak b1) in
    In z [40; 50; 80; 100; 120; 160; 175; 240; 350; 400; 500; 600; 800; 1000; 1250]%Z /\ ok (qz z) /\
    (forall y, In y [40; 50; 80; 100; 120; 160; 175; 240; 350; 400; 500; 600; 800; 1000; 1250]%Z -> ok (qz y) -> (z <= y)%Z) /\
    (exists y, In y [80; 96; 168; 288; 480]%Z /\ ca == qz y /\
       ((z < 480)%Z -> ok (qz y) /\ forall y', In y' [80; 96; 168; 288; 480]%Z -> ok (qz y') -> (y <= y')%Z) /\
       ((480 <= z)%Z -> y = 480%Z)) /\
    cap == sw_safety s * sw_loss s.
Proof.
  intros lib s b b1 sched m slope fract s' b' w Hb D H.
  destruct (swing_size_inv _ _ _ _ _ _ _ _ _ _ H) as (b1' & inlet' & s1 & mo & rv & f & stor & cap & A1 & A2 & A3 & _ & _ & _ & _ & cap' & stor' & mix' & ES & _).
  rewrite Hb in A1. apply ok_inj in A1. subst b1'.
  destruct (size_tm_inv _ _ _ A3) as (v & vol & ca & RV & _ & TP & TC & E1).
  set (s0 := sw_set_dhw s (cap_run (sw_dhw s) sched m)) in *.
  assert (L0 : sw_loss s0 = sw_loss s).
  { unfold sw_loss, s0. cbn [sw_flow sw_return sw_dhw sw_set_dhw]. destruct (cap_run_fields (sw_dhw s) sched m) as (-> & _). reflexivity. }
  pose proof (fun x => needs_iff s0 b1 v x RV D) as NI. rewrite L0 in NI.
  destruct (table_pick_spec _ _ _ TP) as ((z & Z & ->) & VL & VM).
  exists z, ca, (sw_safety s * (sw_loss s * 1000) / 1000).
  assert (S1 : sw_tm_vol s1 = Some (qz z) /\ sw_tm_ca s1 = Some ca /\ sw_tm_cap s1 = Some (sw_safety s * (sw_loss s * 1000) / 1000)).
  { rewrite E1. cbn [sw_tm_vol sw_tm_ca sw_tm_cap sw_set_tm]. rewrite L0. repeat split; reflexivity. }
  destruct S1 as (T1 & T2 & T3). rewrite ES. cbn [sw_tm_vol sw_tm_ca sw_tm_cap].
  split; [exact T1|]. split; [exact T2|]. split; [exact T3|]. cbv zeta.
  split; [exact Z|]. split; [apply NI; exact VL|]. split.
  { intros y Y OK. apply NI in OK. pose proof (VM y Y OK) as LE. unfold qz in LE. rewrite <- Zle_Qle in LE. exact LE. }
  split; [|field].
  destruct (qltb (qz z) 480) eqn:Q; qbool.
  - destruct (table_pick_spec _ _ _ TC) as ((y & Y & ->) & YL & YM). exists y. split; [exact Y|]. split; [reflexivity|]. split.
    + intros _. split; [apply NI; exact YL|]. intros y' Y' OK. apply NI in OK. pose proof (YM y' Y' OK) as LE. unfold qz in LE. rewrite <- Zle_Qle in LE. exact LE.
    + intro GE. exfalso. assert (480 <= qz z) by (change 480 with (inject_Z 480); unfold qz; rewrite <- Zle_Qle; exact GE). lra.
  - apply ok_inj in TC. subst ca. exists 480%Z. split; [cbn; tauto|]. split; [reflexivity|]. split; [|auto].
    intro LT. exfalso. assert (qz z < 480) by (change 480 with (inject_Z 480); unfold qz; rewrite <- Zlt_Qlt; exact LT). lra.
Qed.
Print Assumptions C45_smallest_adequate.

(** Too much loss or demand for the largest tank: sizing raises ValueError. *)
Theorem C45_too_large_rejected : forall lib s b b1 sched m slope fract inlet,
  (if bd_is_annual b then bd_set_daily lib b else Ok b) = Ok b1 -> 0 <= bd_daily b1 -> bd_peak b1 <> [] ->
  design_inlet b1 = Ok inlet -> ~ needs (sw_loss s) (bd_daily b1) (bd_peak b1) 1250 ->
  snd (swing_size lib s b sched m slope fract) = Err ValueError.
Proof.
  intros lib s b b1 sched m slope fract inlet Hb D NE Hi NN. unfold swing_size. rewrite Hb.
  set (s0 := sw_set_dhw s (cap_run (sw_dhw s) sched m)) in *.
  assert (L0 : sw_loss s0 = sw_loss s).
  { unfold sw_loss, s0. cbn [sw_flow sw_return sw_dhw sw_set_dhw]. destruct (cap_run_fields (sw_dhw s) sched m) as (-> & _). reflexivity. }
  assert (ST : size_tm s0 b1 = Err ValueError).
  { unfold size_tm. assert (exists v, tm_vol_required s0 b1 = Ok v) as (v & RV).
    { unfold tm_vol_required, shape_max. destruct (bd_peak b1) as [|x r]; [congruence|]. cbn [bind]. eexists. reflexivity. }
    rewrite RV. cbn [bind]. destruct (qltb 1250 v) eqn:Q; [reflexivity|]. qbool. exfalso. apply NN. rewrite <- L0.
    apply (needs_iff s0 b1 v 1250 RV D). exact Q. }
  unfold swing_size_try. rewrite Hi, ST. reflexivity.
Qed.
Print Assumptions C45_too_large_rejected.

(** A safety factor of at most 1 is refused when the system is built. *)
Theorem C45_safety_factor : forall supply storage ret flow safety run defrost,
  (safety <= 1 <-> sw_new supply storage ret flow safety run defrost = Err ValueError) /\
  forall s, sw_new supply storage ret flow safety run defrost = Ok s -> 1 < sw_safety s /\ sw_tm_vol s = None.
Proof.
  intros. unfold sw_new. destruct (Qle_bool safety 1) eqn:Q; qbool; split; try (split; intro; [reflexivity|assumption]); try discriminate.
  - split; [lra|discriminate].
  - intros s E. apply ok_inj in E. subst s. split; [exact Q|reflexivity].
Qed.
Print Assumptions C45_safety_factor.

Example C45_case : exists s' z ca, swing_size sw_lib sw_system sw_building None sw_controls 2 1 = (s', sw_building, Ok tt) /\
  sw_tm_vol s' = Some (qz z) /\ z = 50%Z /\ sw_tm_ca s' = Some ca /\ ca == 80.
Proof.
  destruct C43_sizing_case as (s' & H). exists s'.
  destruct (swing_size_inv _ _ _ _ _ _ _ _ _ _ H) as (b1' & inlet' & s1 & mo & rv & f & stor & cap & A1 & A2 & A3 & _ & _ & _ & _ & cap' & stor' & mix' & ES & _).
  apply ok_inj in A1. subst b1'.
  destruct (size_tm (sw_set_dhw sw_system (cap_run (sw_dhw sw_system) None sw_controls)) sw_building) as [x|] eqn:E; [|discriminate].
  vm_compute in E. apply ok_inj in A3. subst x. apply ok_inj in E. subst s1.
  exists 50%Z, 80. split; [exact H|]. rewrite ES. cbn [sw_tm_vol sw_tm_ca]. repeat split; reflexivity.
Qed.

(** ** C40 for swing systems: what sizing leaves behind *)
Theorem C40_swing_size_keeps_system : forall lib s b sched m slope fract s' b' out,
  swing_size lib s b sched m slope fract = (s', b', out) ->
  dh_run (sw_dhw s') = dh_run (sw_dhw s) /\
  (bd_is_annual b = false -> b' = b) /\
  (forall w, out = Ok w -> (bd_is_annual b = true -> library_annual lib b) -> b' = b) /\
  (forall e b1, out = Err e -> bd_is_annual b = true -> bd_set_daily lib b = Ok b1 -> b' = b1).
Proof.
  intros lib s b sched m slope fract s' b' out H. unfold swing_size in H.
  destruct (if bd_is_annual b then bd_set_daily lib b else Ok b) as [b1|e] eqn:E.
  - destruct (swing_size_try (sw_set_dhw s (cap_run (sw_dhw s) sched m)) b1 sched m slope fract) as [s2 o].
    destruct (bd_is_annual b) eqn:A.
    + destruct o as [[]|e].
      * destruct (bd_set_annual lib b1) as [b2|e] eqn:SA; inversion H; subst; (split; [reflexivity|]).
        -- split; [discriminate|]. split; [|intros e b0 X; discriminate X].
           intros w _ LA. specialize (LA eq_refl).
           pose proof (daily_then_annual lib b b1) as DA. rewrite DA in SA by assumption. apply ok_inj in SA. auto.
        -- split; [discriminate|]. split; [intros w X; discriminate X|]. intros e0 b0 _ _ SD. rewrite SD in E. apply ok_inj in E. auto.
      * inversion H; subst. split; [reflexivity|]. split; [discriminate|]. split; [intros w X; discriminate X|].
        intros e0 b0 _ _ SD. rewrite SD in E. apply ok_inj in E. auto.
    + apply ok_inj in E. subst b1. destruct o; inversion H; subst; (split; [reflexivity|]); (split; [reflexivity|]);
        (split; [reflexivity|]); intros; discriminate.
  - inversion H; subst. split; [reflexivity|]. split; [reflexivity|]. split; [intros w X; discriminate X|].
    intros e0 b1 _ A SD. rewrite A, SD in E. discriminate E.
Qed.
Print Assumptions C40_swing_size_keeps_system.
