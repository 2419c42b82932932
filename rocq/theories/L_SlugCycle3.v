(** Heat in the tank over one simulated step of a multi-pass plant. *)
From Verif Require Import Prelude S_Integral L_Integral L_Ramp M_StratifiedTank M_EnergyTank S_EnergyTank L_EnergyTank L_Slug M_MixedTank L_MixedTank M_Building L_Building M_Heater S_Heater L_Heater
  M_Sizing M_SimRun S_SimRun L_SimRun M_Step S_Step L_Step L_Step2 M_MPRTP S_MPRTP L_MPRTP L_MPRTP3 S_SlugCycle L_SlugCycle L_SlugCycle2.
From Verif Require Import P_Step P_MPRTP P_MPRTP2.
Open Scope Q_scope.

(** The valve draws something. *)
Lemma valve_draws load flow cold supply ret hot d i : 0 <= load -> 0 <= flow -> cold <= ret -> cold < supply -> ret <= supply -> cold <= hot ->
  mixing_valve load flow cold supply ret hot = Ok (d, i) -> 0 < d.
Proof.
  intros A B C D E F H. destruct (Qlt_le_dec supply hot) as [G|G].
  - exact (proj1 (valve_ordinary _ _ _ _ _ _ _ _ (Build_ordinary _ _ _ _ _ _ A B C D E G) H)).
  - pose proof (valve_heat _ _ _ _ _ _ _ _ H) as HT. unfold heat_taken in HT.
    pose proof (valve_inlet_range _ _ _ _ _ _ _ _ A B C D E F H) as IR.
    assert (FN : 0 <= flow * (supply - ret)) by (apply qmul_nonneg; lra).
    assert (LN : 0 <= load * (supply - cold)) by (apply qmul_nonneg; lra).
    pose proof (C48_raises_in_range load flow cold supply ret hot A B C D E F) as RI.
    assert (NZ : ~ (load == 0 /\ flow * (supply - ret) == 0)).
    { intro X. assert (Y : mixing_valve load flow cold supply ret hot = Err ZeroDivisionError) by (apply RI; auto). rewrite H in Y. discriminate. }
    assert (PT : 0 < load * (supply - cold) + flow * (supply - ret)).
    { destruct (Qlt_le_dec 0 load) as [L|L].
      - pose proof (qmul_pos load (supply - cold) L ltac:(lra)). lra.
      - destruct (Qlt_le_dec 0 (flow * (supply - ret))) as [K|K]; [lra|]. exfalso. apply NZ. split; lra. }
    destruct (valve_inv _ _ _ _ _ _ _ _ H) as [N [(_ & _ & -> & _)|(L & N1 & N2 & E1 & _)]].
    + destruct (Qlt_le_dec 0 d) as [K|K]; [exact K|]. exfalso.
      assert (0 <= (- d) * (hot - cold)) by (apply qmul_nonneg; lra). lra.
    + exfalso. assert (HS : hot < supply) by lra.
      assert (Y : flow * (supply - ret) / (hot - supply) == - (flow * (supply - ret) / (supply - hot))) by (field; split; lra).
      assert (P : 0 <= flow * (supply - ret) / (supply - hot)) by (apply qdiv_nonneg; lra).
      apply NZ. split; [lra|].
      destruct (Qlt_le_dec 0 (flow * (supply - ret))) as [P'|P']; [|lra]. assert (0 < flow * (supply - ret) / (supply - hot)) by (apply qdiv_pos; lra). lra.
Qed.

(** Heating does not make the top hotter than it was or than the slug. *)
Lemma top_after lo h t t' top top' : sl_inv lo h t -> sl_inv lo h t' -> sl_active t = true -> sl_active t' = true ->
  sl_base t' = sl_base t -> sl_vol t' = sl_vol t -> sl_top t' = sl_top t -> sl_orig t' = sl_orig t -> en_cold (sl_base t) <= sl_temp t' ->
  sl_temp_at t 1 = Ok top -> sl_temp_at t' 1 = Ok top' -> top' <= qmax top (sl_temp t').
Proof.
  intros I I' Ha Ha' B V T O Hc E E'. unfold sl_temp_at in *. cbv zeta in *. rewrite Ha in E. rewrite Ha', B, V, T, O in E'. cbn [negb] in *.
  destruct (qltb (1 * 100) _); [rewrite E in E'; injection E' as <-; apply qmax_l|].
  destruct (Qle_bool (1 * 100) (sl_top t)).
  - injection E' as <-. eapply Qle_trans; [|apply qmax_r].
    apply qmax_lub; [exact Hc|apply qmin_r].
  - rewrite E in E'. injection E' as <-. apply qmax_l.
Qed.

Lemma mp_step_held lo s b s1 t iv s2 o : mp_plant lo b s -> mp_ready b lo s s1 -> (0 < iv)%Z -> mp_step b s1 t iv = Ok (s2, o) ->
  let tk := sl_set_cold (ms_tank s1) (so_inlet o) in
  (sl_active tk = false -> en_energy (sl_base tk) <= en_full (sl_base tk)) ->
  (sl_active tk = true -> so_inlet o <= sl_temp tk) ->
  exists tk1 e e' draw back,
    let on := existsb wh_active (ms_heaters s2) in
    let heat := if (on && qltb 0 (sl_vol tk1))%bool then so_output o * 1000 * (qz iv / 60) else 0 in
    let hot := if sl_active tk1 then qmax (so_oat o) (sl_temp tk1 + heat / (rho_cp * sl_vol tk1)) else so_oat o in
    mp_lifecycle (existsb wh_active (ms_heaters s1)) on (ms_supply s) tk = Ok tk1 /\
    held tk e /\ held (ms_tank s2) e' /\ 0 < draw /\ so_inlet o <= back <= ms_return s /\
    draw * (so_oat o - back) == heat_taken (so_demand o) (ms_flow s * qz iv) (so_inlet o) (ms_supply s) (ms_return s) /\
    e + heat - rho_cp * draw * (hot - back) - en_tol (sl_base tk) <= e' /\
    e' <= e + heat + rho_cp * draw * (back - so_inlet o) + en_tol (sl_base tk).
Proof.
  intros P R Piv ST tk Hf Ht.
  destruct (mp_step_cases lo s b s1 t iv (pl_complete _ _ _ P) R Piv (pl_load _ _ _ P) (pl_mains _ _ _ P) (pl_return _ _ _ P) (pl_supply _ _ _ P) (pl_flow _ _ _ P))
    as (d & inlet & hs & tk1 & top & E1 & E2 & E3 & E4 & E5 & E6 & [(_ & X)|(_ & s2' & o' & dr & mv & X & R2 & HH & MP & OD & OI & OO & ODL & EM & MV)]); rewrite ST in X; [discriminate|].
  apply ok_inj in X. apply pair_equal_spec in X. destruct X as [<- <-].
  destruct (pl_mains _ _ _ P _ _ _ E2) as (M1 & M2 & M3). pose proof (pl_supply _ _ _ P) as M4. pose proof (pl_return _ _ _ P) as M5.
  pose proof (pl_load _ _ _ P _ _ _ Piv E1) as DN. pose proof (pl_flow _ _ _ P) as FN.
  assert (IP : 0 < qz iv) by (unfold qz, Qlt; cbn; lia).
  assert (FQ : 0 <= ms_flow s * qz iv) by (apply qmul_nonneg; lra).
  pose proof (valve_draws _ _ _ _ _ _ _ _ DN FQ M2 M3 M5 (proj1 E6) EM) as DP.
  pose proof (C48_heat _ _ _ _ _ _ _ _ EM) as HT.
  assert (MT : mv <= top).
  { assert (0 <= d * (ms_supply s - inlet)) by (apply qmul_nonneg; lra).
    assert (0 <= ms_flow s * qz iv * (ms_supply s - ms_return s)) by (apply qmul_nonneg; lra).
    destruct (Qlt_le_dec top mv) as [K|K]; [|exact K]. exfalso. assert (0 < dr * (mv - top)) by (apply qmul_pos; lra). lra. }
  pose proof R as (FS & FR & SI & SG & T1 & T2 & T3 & T4).
  subst tk. rewrite OI in *. set (tk := sl_set_cold (ms_tank s1) inlet) in *. destruct (sl_set_cold_inv _ _ _ inlet SI M1 ltac:(lra)) as (S0 & G0). fold tk in S0, G0.
  assert (CT : en_cold (sl_base tk) = inlet) by reflexivity.
  destruct (held_lifecycle lo (ms_storage s) (existsb wh_active (ms_heaters s1)) (existsb wh_active hs) (ms_supply s) tk S0 Hf ltac:(rewrite CT; exact Ht))
    as (tk1' & e & e1 & He & E4' & He1 & HA & HB).
  assert (tk1' = tk1) by (unfold mp_lifecycle in E4; rewrite E4 in E4'; injection E4' as <-; reflexivity). subst tk1'. clear E4'.
  destruct (lifecycle_inv _ _ (existsb wh_active (ms_heaters s1)) (existsb wh_active hs) (ms_supply s) _ S0) as (tk1' & E4' & S1 & G1 & C1).
  assert (tk1' = tk1) by (unfold mp_lifecycle in E4, E4'; rewrite E4 in E4'; injection E4' as <-; reflexivity). subst tk1'. rewrite CT in C1.
  (* the step itself *)
  unfold mp_step in ST. rewrite E1 in ST. cbn [bind] in ST. destruct (bind_ok _ _ _ ST) as (oat & Eo & ST1). clear ST. rewrite E2 in ST1. cbn [bind] in ST1. cbv zeta in ST1.
  destruct (bind_ok _ _ _ ST1) as (mode & Emo & ST2). clear ST1. destruct (bind_ok _ _ _ ST2) as (hs' & Ehs & ST3). clear ST2.
  rewrite T1, T3, T4 in ST3. fold tk in ST3.
  destruct (bind_ok _ _ _ ST3) as (tk1' & EL & ST4). clear ST3.
  destruct (bind_ok _ _ _ ST4) as (top' & Et' & ST5). clear ST4.
  destruct (bind_ok _ _ _ ST5) as (q & Eq & ST6). clear ST5.
  destruct (bind_ok _ _ _ ST6) as (kws & Ek & ST7). clear ST6.
  destruct (bind_ok _ _ _ ST7) as ([dr' mv'] & EM' & ST8). clear ST7.
  destruct (bind_ok _ _ _ ST8) as (tk2 & E8 & ST9). clear ST8.
  destruct (bind_ok _ _ _ ST9) as (tk3 & E9 & ST10). clear ST9.
  destruct (bind_ok _ _ _ ST10) as (us & Eu & ST11). clear ST10.
  destruct (bind_ok _ _ _ ST11) as (tm & Etm & ST12). clear ST11. apply ok_inj in ST12. apply pair_equal_spec in ST12. destruct ST12 as [<- <-].
  cbn [ms_heaters ms_tank so_output so_oat so_inlet so_demand] in *. subst hs' top'.
  rewrite E4 in EL. injection EL as <-. rewrite EM in EM'. injection EM' as <- <-.
  rename mv into c. pose proof (mp_gives _ _ _ _ _ _ MP) as QN. cbn [so_output] in QN.
  set (on := existsb wh_active hs) in *. set (heat := if (on && qltb 0 (sl_vol tk1))%bool then q * 1000 * (qz iv / 60) else 0).
  exists tk1, e. cbv zeta. fold heat.
  destruct (qltb 0 dr) eqn:QD; qbool; [|lra].
  assert (Hr : 0 < rho_cp) by apply en_rho_pos.
  assert (AB : - en_tol (sl_base tk) <= e1 - e /\ e1 - e <= en_tol (sl_base tk)) by (apply Qabs_Qle_condition; exact HA).
  (* heating *)
  destruct (sl_active tk1) eqn:Act1.
  - destruct (HB eq_refl) as [BB TB]. rewrite C1 in TB.
    assert (Hcs : en_cold (sl_base tk1) < en_storage (sl_base tk1)).
    { pose proof S1 as [_ [_ [_ [[D1 [D2 D3]] _]]]]. lra. }
    destruct (en_shift_ok (sl_base tk1) (sl_inv_wf _ _ _ S1) Hcs) as [sh [Hs _]].
    assert (K : exists e2, held tk2 e2 /\ e2 == e1 + heat /\ sl_inv lo (ms_storage s) tk2 /\ sl_active tk2 = true /\ sl_base tk2 = sl_base tk1 /\
       inlet <= sl_temp tk2 /\ sl_temp tk2 == sl_temp tk1 + heat / (rho_cp * sl_vol tk1) /\ sl_vol tk2 = sl_vol tk1 /\ sl_top tk2 = sl_top tk1 /\ sl_orig tk2 = sl_orig tk1).
    { cbn [andb] in E8. destruct (on && qltb 0 (sl_vol tk1))%bool eqn:Qv.
      - apply andb_prop in Qv. destruct Qv as [_ Qv]. qbool.
        destruct (held_heat lo (ms_storage s) tk1 sh q (qz iv) e1 S1 Act1 ltac:(rewrite C1; exact TB) Hs Qv QN ltac:(lra) He1)
          as (t' & e2 & A1 & A2 & A3 & A4 & A5 & A6 & A7 & A8 & A9 & A10).
        rewrite E8 in A1. injection A1 as <-. exists e2. split; [exact A2|]. split; [exact A3|]. split; [exact A4|]. split; [exact A5|]. split; [exact A6|].
        split; [lra|]. split; [|auto].
        destruct (cyc_heat tk1 q (qz iv) Act1 Qv QN) as (t' & B1 & _ & _ & _ & _ & _ & _ & _ & B8). rewrite E8 in B1. injection B1 as <-.
        assert (VV : 0 < rho_cp * sl_vol tk1) by (apply qmul_pos; lra).
        assert (Y : heat == rho_cp * sl_vol tk1 * (sl_temp tk2 - sl_temp tk1)).
        { unfold heat. assert (Z : q * 1000 * (qz iv / 60) == q * 1000 * qz iv / 60) by field. rewrite Z, <- B8. ring. }
        assert (Z : (sl_temp tk2 - sl_temp tk1) == heat / (rho_cp * sl_vol tk1)).
        { rewrite Y. field. split; lra. }
        lra.
      - injection E8 as <-. exists e1. assert (Z : heat / (rho_cp * sl_vol tk1) == 0) by (unfold heat, Qdiv; ring).
        unfold heat. split; [exact He1|]. split; [ring|]. split; [exact S1|]. split; [exact Act1|]. split; [reflexivity|]. split; [exact TB|].
        split; [unfold Qdiv; ring|auto]. }
    destruct K as (e2 & H2 & X2 & S2 & A2 & B2 & T2' & T2e & V2 & P2 & O2).
    set (M := qmax top (sl_temp tk1 + heat / (rho_cp * sl_vol tk1))).
    assert (MM : sl_temp tk2 <= M) by (unfold M; rewrite T2e; apply qmax_r).
    assert (Mt : top <= M) by apply qmax_l.
    destruct (sl_temp_range _ _ _ 1 S2) as (top2 & Et2 & _).
    assert (M2' : top2 <= M).
    { eapply Qle_trans; [apply (top_after lo (ms_storage s) tk1 tk2 top top2 S1 S2 Act1 A2 B2 V2 P2 O2 ltac:(rewrite C1; exact T2') E5 Et2)|].
      apply qmax_lub; [exact Mt|exact MM]. }
    destruct (held_draw_active lo (ms_storage s) tk2 sh dr c top2 M e2 S2 A2 ltac:(rewrite B2, C1; exact T2') ltac:(rewrite B2; exact Hs) Et2 M2' MM DP
      ltac:(rewrite B2, C1; lra) ltac:(lra) ltac:(lra) H2) as (t' & e' & F1 & F2 & F3 & F4).
    rewrite E9 in F1. injection F1 as <-. rewrite B2, C1 in F4.
    exists e', dr, c. split; [exact E4|]. split; [exact He|]. split; [exact F2|]. split; [exact DP|]. split; [exact MV|]. split; [exact HT|].
    fold M. split; lra.
  - assert (KH : on = false).
    { destruct on; [|reflexivity]. exfalso. unfold mp_lifecycle in E4. destruct (sl_activate_inv lo (ms_storage s) tk (ms_supply s) S0) as (t' & Z1 & _ & _ & _ & Z2).
      rewrite E4 in Z1. injection Z1 as <-. congruence. }
    rewrite KH in *. cbn [andb] in E8. injection E8 as <-.
    destruct (held_draw_inactive lo (ms_storage s) tk1 dr c top S1 Act1 E5 DP ltac:(rewrite C1; lra) ltac:(lra) MT) as (t' & e' & F1 & F2 & F3 & F4).
    rewrite E9 in F1. injection F1 as <-.
    pose proof (held_unique _ _ _ He1 (held_inactive _ Act1)) as U.
    exists e', dr, c. split; [exact E4|]. split; [exact He|]. split; [exact F2|]. split; [exact DP|]. split; [exact MV|]. split; [exact HT|].
    assert (HZ : heat == 0) by (unfold heat; rewrite KH; reflexivity).
    assert (BN : 0 <= rho_cp * dr * (c - inlet)) by (apply qmul_nonneg; [apply qmul_nonneg; lra|lra]).
    split; lra.
Qed.
