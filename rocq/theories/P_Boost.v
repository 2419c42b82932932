(** The swing tank of a sizing is never silently cold (C43), and how much a multi-pass system is boosted (C49). *)
From Verif Require Import Prelude M_StratifiedTank M_EnergyTank M_Building M_Heater M_Sizing M_SimRun M_Step S_SimRun M_Swing M_MPRTP S_MPRTP S_MPRTP2 L_Building L_MPRTP2 L_MPRTP4 P_MPRTP.
Open Scope Q_scope.

(** ** C43 Swing tank *)

(** Whatever tank, element, loss and draws: the swing simulation of the sizing ends with every temperature after the
    first at or above supply and every draw smaller than the tank, or raises ValueError. *)
Theorem C43_cold_raises : forall supply storage inlet loss vol cap draws start,
  0 < vol -> 0 < cap -> draws <> [] ->
  (exists x r tr, draws = x :: r /\
     sim_just_swing (mkEnv supply storage inlet loss vol cap) draws start = Ok ((start, 0, x) :: tr) /\
     length tr = length r /\ forall t run hw, In (t, run, hw) tr -> supply <= t /\ hw < vol) \/
  sim_just_swing (mkEnv supply storage inlet loss vol cap) draws start = Err ValueError.
Proof.
  intros supply storage inlet loss vol cap draws start V C NE. destruct draws as [|x r]; [congruence|]. clear NE. unfold sim_just_swing.
  set (v := mkEnv supply storage inlet loss vol cap).
  assert (RP : 0 < rho_cp) by reflexivity.
  assert (RV : ~ rho_cp * vol == 0) by (intro F; pose proof (qmul_pos rho_cp vol RP V); lra).
  assert (ED : exists dt, element_dt v = Ok dt /\ 0 < dt).
  { exists (cap * 1000 / 60 / (rho_cp * vol)). split; [apply qdiv_ok; exact RV|]. apply qdiv_pos; [|apply qmul_pos; assumption]. apply qdiv_pos; [lra|reflexivity]. }
  destruct ED as (dt & ED & DP).
  assert (G : forall r on t, (exists tr, sim_loop_swing v on t r = Ok tr /\ length tr = length r /\ forall t run hw, In (t, run, hw) tr -> supply <= t /\ hw < vol) \/
                             sim_loop_swing v on t r = Err ValueError).
  { clear x r. induction r as [|x r IH]; intros on t; cbn [sim_loop_swing].
    - left. exists []. split; [reflexivity|]. split; [reflexivity|]. intros ? ? ? [].
    - assert (FP : exists hw, from_primary v t x = Ok hw).
      { unfold from_primary. destruct (qltb (sv_inlet v) t) eqn:E; [|eexists; reflexivity]. apply qltb_true in E. rewrite qdiv_ok; [eexists; reflexivity|intro; lra]. }
      destruct FP as (hw & ->). cbn [bind]. unfold swing_step.
      assert (MX : (exists t1, swing_mix v t hw (sv_storage v) = Ok t1 /\ hw < vol) \/ swing_mix v t hw (sv_storage v) = Err ValueError).
      { unfold swing_mix. destruct (qltb 0 hw) eqn:H0; [|left; exists t; split; [reflexivity|apply qltb_false in H0; lra]].
        destruct (Qle_bool (sv_vol v - hw) 0) eqn:H1; [right; reflexivity|left]. rewrite qdiv_ok by (cbn; intro; lra). eexists. split; [reflexivity|].
        apply qleb_false in H1. cbn in H1. lra. }
      destruct MX as [(t1 & -> & HV)| ->]; [|right; reflexivity]. cbn [bind].
      unfold swing_lose. rewrite qdiv_ok by exact RV. cbn [bind]. rewrite ED. cbn [bind].
      set (t2 := t1 - _).
      assert (EL : exists h t3 run, swing_element v on t2 dt = Ok (h, t3, run)).
      { assert (ND : ~ dt == 0) by (intro; lra). unfold swing_element. cbv zeta. destruct on.
        - destruct (qltb _ _); [rewrite qdiv_ok by exact ND; cbn [bind]|]; do 3 eexists; reflexivity.
        - destruct (Qle_bool _ _); [rewrite qdiv_ok by exact ND; cbn [bind]|]; do 3 eexists; reflexivity. }
      destruct EL as (h & t3 & run & ->). cbn [bind]. change (sv_supply v) with supply.
      destruct (qltb t3 supply) eqn:TC; [right; reflexivity|]. cbn [bind].
      destruct (IH h t3) as [(tr & -> & L & A)| ->]; [left|right; reflexivity]. cbn [bind]. exists ((t3, run, hw) :: tr). split; [reflexivity|].
      split; [cbn; lia|]. intros a b0 c [E|I]; [|exact (A a b0 c I)]. injection E as <- <- <-. apply qltb_false in TC. auto. }
  destruct (G r false start) as [(tr & E & L & A)|E]; [left|right].
  - exists x, r, tr. split; [reflexivity|]. fold v. rewrite E. cbn [bind]. auto.
  - fold v. rewrite E. reflexivity.
Qed.
Print Assumptions C43_cold_raises.

(** An element of half the loss lets a 40-gallon tank go cold in the first minute: ValueError.  One that covers the loss does not. *)
Example C43_cold_case :
  sim_just_swing (mkEnv 120 150 50 10 40 5) [0; 0] (120 + (1 # 10)) = Err ValueError /\
  exists tr, sim_just_swing (mkEnv 120 150 50 10 40 15) [0; 0] (120 + (1 # 10)) = Ok tr.
Proof. split; [vm_compute; reflexivity|]. eexists. vm_compute. reflexivity. Qed.

(** ** C49 Boost *)

(** The capacity of a built system is found by rounds.  Each round simulates the given number of days with the
    capacity so far, from the fill the aquastat allows.  If no minute was without usable water and below supply, or the
    coldest such minute is the one in which the heater came on, the search ends.  Otherwise the capacity grows by the heat
    missing at the top in that minute over the time since the heater came on, and the next round uses a new heater. *)
Theorem C49_boost_rounds : forall lib b supply storage ret flow run defrost sched m slope pu days iters b' x,
  mp_from_size lib b supply storage ret flow run defrost sched m slope pu days iters = (b', Ok x) ->
  exists s cap vol cold di c cap',
    mp_size ret flow lib (mkDhw supply storage run defrost None None None) b m slope = (s, b', Ok tt) /\
    dh_min_cap s = Some cap /\ dh_min_stor s = Some vol /\ dh_min_cap (mb_dhw x) = Some cap' /\
    design_inlet b' = Ok cold /\ bd_design_inlet b' = Ok di /\ first_control m = Ok c /\
    (0 < vol -> 0 < pu ->
     boost_search b' days vol pu (sim_inlet di) (qmax 0 (qmin 1 (1 - ct_on_sensor c))) sched m iters
       (mkMsys [wh_new (Some (PmNominal cap)) sched m] (sl_new vol cold storage supply pu slope) supply storage ret flow) cap (mb_sys x) cap').
Proof.
  intros lib b supply storage ret flow run defrost sched m slope pu days iters b' x H. unfold mp_from_size in H.
  destruct (negb (sensors_ok m pu)); [apply pair_equal_spec in H; destruct H as [_ H]; discriminate|].
  destruct (mp_size ret flow lib _ b m slope) as [[s b1] out] eqn:E. apply pair_equal_spec in H. destruct H as [<- H].
  destruct (bind_ok _ _ _ H) as ([] & -> & H1). clear H. destruct (bind_ok _ _ _ H1) as (cold & EC0 & H). clear H1.
  destruct (dh_min_cap s) as [cap|] eqn:EC; [|discriminate]. destruct (dh_min_stor s) as [vol|] eqn:EV; [|discriminate]. cbv zeta in H.
  destruct (bind_ok _ _ _ H) as (di & ED & H1). clear H. destruct (bind_ok _ _ _ H1) as (c & EFC & H). clear H1.
  destruct (bind_ok _ _ _ H) as ([s1 cap'] & EB & H1). clear H. apply ok_inj in H1. subst x. cbn [mb_dhw mb_sys dh_min_cap dh_min_stor fst snd].
  assert (B0 : boosted vol cap (mkMsys [wh_new (Some (PmNominal cap)) sched m] (sl_new vol cold storage supply pu slope) supply storage ret flow))
    by (split; [reflexivity|eexists; split; reflexivity]).
  exists s, cap, vol, cold, di, c, cap'. repeat (split; [first [assumption|reflexivity]|]). intros V0 P0.
  exact (loop_search _ _ _ _ _ _ _ _ V0 P0 _ _ _ _ _ B0 EB).
Qed.
Print Assumptions C49_boost_rounds.

(** What a round says is determined by what it simulated. *)
Theorem C49_round_determined : forall vol pu supply cap outs r r',
  round_says vol pu supply cap outs r -> round_says vol pu supply cap outs r' ->
  match r, r' with None, None => True | Some c, Some c' => c == c' | _, _ => False end.
Proof.
  intros vol pu supply cap outs.
  assert (WU : forall i t i' t', worst_minute supply outs i t -> worst_minute supply outs i' t' -> i = i' /\ t = t').
  { intros i t i' t' [a1 a2 a3] [b1 b2 b3].
    assert (i = i') as <-.
    { destruct (Nat.lt_trichotomy i i') as [L|[L|L]]; [exfalso|exact L|exfalso].
      - specialize (b3 _ _ a1 L). specialize (a2 _ _ b1). lra.
      - specialize (a3 _ _ b1 L). specialize (b2 _ _ a1). lra. }
    split; [reflexivity|]. destruct a1 as (o & E1 & _ & <- & _), b1 as (o' & E2 & _ & <- & _). rewrite E1 in E2. injection E2 as <-. reflexivity. }
  assert (OU : forall i k k', on_since outs i k -> on_since outs i k' -> k = k').
  { intros i k k' (a1 & a2 & a3) (b1 & b2 & b3). destruct (Nat.lt_trichotomy k k') as [L|[L|L]]; [exfalso|exact L|exfalso].
    - destruct b3 as [b3|[-> _]]; [|lia]. apply (a2 k'); [lia|exact b3].
    - destruct a3 as [a3|[-> _]]; [|lia]. apply (b2 k); [lia|exact a3]. }
  assert (NS : forall i t, worst_minute supply outs i t -> (forall i top, ~ short_minute supply outs i top) -> False) by (intros i t [a1 _ _] N; exact (N _ _ a1)).
  intros r r' [N|i t W O|i k t c W O L E] [N'|i' t' W' O'|i' k' t' c' W' O' L' E']; try exact I.
  - exact (NS _ _ W' N).
  - destruct (WU _ _ _ _ W W') as [<- <-]. pose proof (OU _ _ _ O O'). lia.
  - exact (NS _ _ W N').
  - destruct (WU _ _ _ _ W W') as [<- <-]. pose proof (OU _ _ _ O O'). lia.
  - destruct (WU _ _ _ _ W W') as [<- <-]. pose proof (OU _ _ _ O O') as <-. rewrite E, E'. reflexivity.
Qed.
Print Assumptions C49_round_determined.

(** Four minutes: the heater comes on in minute 1, in minute 2 the top is at 110, in minute 3 at 112. *)
Definition ex_out (usable out top : Q) : step_out := mkStep 1 usable out None 0 50 [50; 60; 70; 80; 90; top] "normal"%string None None None None.
Definition ex_outs : list step_out := [ex_out 50 0 130; ex_out 20 40 125; ex_out 0 40 110; ex_out 0 40 112].
Example C49_round_case : round_says 300 (9 # 10) 120 40 ex_outs (Some (40 + 300 * (9 # 10) * rho_cp * 10 * 60 / 1000)).
Proof.
  apply (says_more _ _ _ _ _ 2 1 110); [| |lia|vm_compute; reflexivity].
  - split.
    + eexists. split; [reflexivity|]. split; [discriminate|]. split; [reflexivity|reflexivity].
    + intros j t (o & N & U & T & L). do 4 (destruct j as [|j]; [cbn in N; injection N as <-; cbn in T, U; try (exfalso; apply U; reflexivity); subst t; discriminate|]). destruct j; discriminate.
    + intros j t (o & N & U & T & L) J. do 2 (destruct j as [|j]; [cbn in N; injection N as <-; exfalso; apply U; reflexivity|]). lia.
  - split; [lia|]. split.
    + intros j J [(o & N & P) B]. assert (j = 2)%nat as -> by lia. specialize (B 1%nat _ eq_refl eq_refl). exfalso. apply B. reflexivity.
    + left. split; [eexists; split; [reflexivity|reflexivity]|]. intros k o E N. injection E as ->. cbn in N. injection N as <-. discriminate.
Qed.
