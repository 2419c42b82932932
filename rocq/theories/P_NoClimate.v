(** Property C92: nothing is sized for, plotted for, or simulated in a building whose climate is not known. *)
From Verif Require Import Prelude M_StratifiedTank M_Building M_Utility M_Heater M_Sizing M_SimRun M_Step M_Swing M_SwingER2 M_MPRTP M_Engine M_EngineOut.
Open Scope Q_scope.

Lemma none_inlet b : bd_climate b = None -> design_inlet b = Err ValueError.
Proof. intros H. unfold design_inlet, bd_design_inlet. rewrite H. reflexivity. Qed.
Lemma daily_climate lib b b1 : bd_set_daily lib b = Ok b1 -> bd_climate b1 = bd_climate b.
Proof.
  unfold bd_set_daily. destruct (negb _); [discriminate|]. destruct (load_file lib "multi_family"); [|discriminate]. cbn [bind].
  destruct (sf_stream_avg a); [|discriminate]. intros H. injection H as <-. reflexivity.
Qed.
Lemma resized_climate lib b b1 : (if bd_is_annual b then bd_set_daily lib b else Ok b) = Ok b1 -> bd_climate b1 = bd_climate b.
Proof. destruct (bd_is_annual b); intros H; [apply (daily_climate lib); exact H|]. injection H as <-. reflexivity. Qed.
Lemma restore_err {A} lib was b e : exists b' e', @restore_annual A lib was b (Err e) = (b', Err e').
Proof. unfold restore_annual. destruct was; [destruct (bd_set_annual lib b)|]; eauto. Qed.
Lemma run_back s x : dh_set_run (dh_set_run s x) (dh_run s) = s.
Proof. destruct s; reflexivity. Qed.
Lemma run_same s : dh_set_run s (dh_run s) = s.
Proof. destruct s; reflexivity. Qed.
Lemma cap_run_back s sched m : dh_set_run (cap_run s sched m) (dh_run s) = s.
Proof. unfold cap_run. destruct sched; [destruct (ls_active _ _)|]; try apply run_back; apply run_same. Qed.
Lemma sw_back s d : dh_set_run d (dh_run (sw_dhw s)) = sw_dhw s -> sw_set_run (sw_set_dhw s d) (dh_run (sw_dhw s)) = s.
Proof. intros H. unfold sw_set_run, sw_set_dhw. cbn [sw_dhw sw_return sw_flow sw_safety sw_eff_mix sw_tm_vol sw_tm_ca sw_tm_cap]. rewrite H. destruct s; reflexivity. Qed.

(** size() raises, and leaves the sizes of the system as they were.  The error is ValueError, unless the annual shape
    could not be exchanged for the daily one. *)
Theorem C92_size : forall K lib s b sched m slope fract s' b' out, bd_climate b = None ->
  dhw_size K lib s b sched m slope fract = (s', b', out) ->
  s' = s /\ exists e, out = Err e /\ (e = ValueError \/ (bd_is_annual b = true /\ bd_set_daily lib b = Err e)).
Proof.
  intros K lib s b sched m slope fract s' b' out N H. unfold dhw_size in H.
  destruct (if bd_is_annual b then bd_set_daily lib b else Ok b) as [b1|e] eqn:E.
  - rewrite <- (resized_climate _ _ _ E) in N. unfold size_try, size_values in H. rewrite (none_inlet b1 N) in H. cbn [bind] in H.
    injection H as <- <- <-. split; [apply cap_run_back|]. eexists. split; [reflexivity|]. left. reflexivity.
  - injection H as <- <- <-. split; [reflexivity|]. exists e. split; [reflexivity|]. right. destruct (bd_is_annual b); [split; [reflexivity|exact E]|discriminate E].
Qed.
Print Assumptions C92_size.

Theorem C92_swing_size : forall lib s b sched m slope fract s' b' out, bd_climate b = None ->
  swing_size lib s b sched m slope fract = (s', b', out) ->
  s' = s /\ exists e, out = Err e /\ (e = ValueError \/ (bd_is_annual b = true /\ bd_set_daily lib b = Err e)).
Proof.
  intros lib s b sched m slope fract s' b' out N H. unfold swing_size in H.
  destruct (if bd_is_annual b then bd_set_daily lib b else Ok b) as [b1|e] eqn:E.
  - rewrite <- (resized_climate _ _ _ E) in N. unfold swing_size_try in H. rewrite (none_inlet b1 N) in H.
    injection H as <- <- <-. split; [apply sw_back, cap_run_back|]. eexists. split; [reflexivity|]. left. reflexivity.
  - injection H as <- <- <-. split; [reflexivity|]. exists e. split; [reflexivity|]. right. destruct (bd_is_annual b); [split; [reflexivity|exact E]|discriminate E].
Qed.
Print Assumptions C92_swing_size.

Lemma bind_err {A B} (e : res A) (f : A -> res B) : (forall x, exists k, f x = Err k) -> exists k, bind e f = Err k.
Proof. intros H. destruct e as [a|k]; [apply H|exists k; reflexivity]. Qed.

Theorem C92_multipass_size : forall ret flow lib s b m slope s' b' out, bd_climate b = None ->
  mp_size ret flow lib s b m slope = (s', b', out) -> s' = s /\ exists e, out = Err e.
Proof.
  intros ret flow lib s b m slope s' b' out N H. unfold mp_size in H.
  destruct (is_load_shifting m). { injection H as <- <- <-. eauto. }
  destruct (if bd_is_annual b then bd_set_daily lib b else Ok b) as [b1|e] eqn:E.
  2: { injection H as <- <- <-. eauto. }
  rewrite <- (resized_climate _ _ _ E) in N.
  assert (V : exists e, mp_size_values ret flow s b1 m slope = Err e).
  { unfold mp_size_values. destruct m as [d|]; [|eauto]. apply bind_err. intros l. apply bind_err. intros h.
    unfold rtp_capacity, base_capacity. rewrite (none_inlet b1 N). cbn [bind]. eauto. }
  destruct V as (e & V). rewrite V in H. destruct (@restore_err unit lib (bd_is_annual b) b1 e) as (b2 & e2 & R). rewrite R in H.
  injection H as <- <- <-. eauto.
Qed.
Print Assumptions C92_multipass_size.

Theorem C92_instant_size : forall s b, bd_climate b = None -> instant_size s b = Err ValueError.
Proof. intros s b N. unfold instant_size. rewrite (none_inlet b N). reflexivity. Qed.
Print Assumptions C92_instant_size.

(** The constructors that size, or that choose the element of a swing tank, raise. *)
Theorem C92_from_size : forall lib b, bd_climate b = None ->
  (forall supply storage ret flow run defrost sched m slope pu days iters,
     exists b' e, mp_from_size lib b supply storage ret flow run defrost sched m slope pu days iters = (b', Err e)) /\
  (forall supply storage ret flow tm_safety safety run defrost sched m slope fract x,
     er_from_size lib b supply storage ret flow tm_safety safety run defrost sched m slope fract <> Ok x) /\
  (forall hs tank sw initial supply storage ret flow safety x,
     er_from_components hs tank sw initial b supply storage ret flow safety <> Ok x).
Proof.
  intros lib b N. split; [|split].
  - intros supply storage ret flow run defrost sched m slope pu days iters. unfold mp_from_size. destruct (negb _); [eauto|].
    destruct (mp_size ret flow lib (mkDhw supply storage run defrost None None None) b m slope) as ((s & b1) & out) eqn:E.
    destruct (C92_multipass_size _ _ _ _ _ _ _ _ _ _ N E) as (_ & e & ->). cbn [bind]. eauto.
  - intros supply storage ret flow tm_safety safety run defrost sched m slope fract x H. unfold er_from_size in H.
    destruct (er_new supply storage ret flow tm_safety safety run defrost) as [s0|]; [|discriminate H]. cbn [bind] in H.
    unfold swing_er_size in H. destruct (swing_size lib (er_base s0) b sched m slope fract) as ((s1 & b1) & out) eqn:E.
    destruct (C92_swing_size _ _ _ _ _ _ _ _ _ _ N E) as (_ & e & -> & _). discriminate H.
  - intros hs tank sw initial supply storage ret flow safety x H. unfold er_from_components in H.
    destruct (er_new supply storage ret flow (6 # 5) safety 24 1) as [s0|]; [|discriminate H]. cbn [bind] in H.
    destruct (bd_design_oat b) as [o|]; [|discriminate H]. cbn [bind] in H. rewrite (none_inlet b N) in H. discriminate H.
Qed.
Print Assumptions C92_from_size.

(** No curve is computed either. *)
Theorem C92_curves : forall dt e slope, bd_climate (en_building e) = None ->
  (exists e' k, eng_curve dt e slope = (e', Err k)) /\
  (forall sched m p, exists e' k, eng_ls_curve dt e sched m slope p = (e', Err k)).
Proof.
  intros dt [b y] slope N. cbn [en_building] in N.
  assert (A : forall K s cmap step, exists s' b' k, sizing_curve K (da_lib dt) s b cmap slope step = (s', b', Err k)).
  { intros K s cmap step. unfold sizing_curve. destruct (if bd_is_annual b then _ else _) as [b1|k] eqn:E; [|eauto].
    rewrite <- (resized_climate _ _ _ E) in N. unfold curve_body. rewrite (none_inlet b1 N). cbn [bind].
    destruct (@restore_err curve (da_lib dt) (bd_is_annual b) b1 ValueError) as (b2 & e2 & R). rewrite R. eauto. }
  assert (B : forall K s sched m p, exists s' b' k, ls_sizing_curve K (da_lib dt) (da_icdf dt) s b sched m slope p = (s', b', Err k)).
  { intros K s sched m p. unfold ls_sizing_curve. destruct m as [d|]; [|eauto]. destruct (negb _); [eauto|].
    destruct (if bd_is_annual b then _ else _) as [b1|k] eqn:E; [|eauto].
    rewrite <- (resized_climate _ _ _ E) in N. unfold ls_curve_body. rewrite (none_inlet b1 N). cbn [bind].
    destruct (@restore_err curve (da_lib dt) (bd_is_annual b) b1 ValueError) as (b2 & e2 & R). rewrite R. eauto. }
  split.
  - unfold eng_curve. cbn [en_building en_system]. destruct y.
    all: try (match goal with |- context [sizing_curve ?K ?l ?s ?bb ?c ?sl ?st] => destruct (A K s c st) as (s' & b' & k & R); rewrite R; eauto end).
    + unfold swing_sizing_curve. destruct (if bd_is_annual b then _ else _) as [b1|k] eqn:E; [|eauto].
      rewrite <- (resized_climate _ _ _ E) in N. unfold swing_curve_body. rewrite (none_inlet b1 N). cbn [bind].
      destruct (@restore_err curve (da_lib dt) (bd_is_annual b) b1 ValueError) as (b2 & e2 & R). rewrite R. cbn [bind]. eauto.
    + unfold mp_sizing_curve. destruct (if bd_is_annual b then _ else _) as [b1|k] eqn:E; [|eauto].
      rewrite <- (resized_climate _ _ _ E) in N. unfold mp_curve_body. rewrite (none_inlet b1 N). cbn [bind].
      destruct (@restore_err curve (da_lib dt) (bd_is_annual b) b1 ValueError) as (b2 & e2 & R). rewrite R. cbn [bind]. eauto.
  - intros sched m p. unfold eng_ls_curve. cbn [en_building en_system]. destruct y.
    all: try (match goal with |- context [ls_sizing_curve ?K ?l ?i ?s ?bb ?c ?mm ?sl ?pp] => destruct (B K s c mm pp) as (s' & b' & k & R); rewrite R; eauto end).
    + unfold swing_ls_sizing_curve. destruct (negb _); [eauto|]. destruct (if bd_is_annual b then _ else _) as [b1|k] eqn:E; [|eauto].
      rewrite <- (resized_climate _ _ _ E) in N. unfold swing_ls_curve_body. rewrite (none_inlet b1 N). cbn [bind].
      destruct (@restore_err curve (da_lib dt) (bd_is_annual b) b1 ValueError) as (b2 & e2 & R). rewrite R. cbn [bind]. eauto.
    + unfold mp_ls_sizing_curve. destruct (if bd_is_annual b then _ else _) as [b1|k] eqn:E; [|eauto].
      rewrite <- (resized_climate _ _ _ E) in N. rewrite (none_inlet b1 N). cbn [bind].
      destruct (@restore_err curve (da_lib dt) (bd_is_annual b) b1 ValueError) as (b2 & e2 & R). rewrite R. cbn [bind]. eauto.
Qed.
Print Assumptions C92_curves.

(** A simulation raises at its first step, although the tanks were initialised with mains water of 50 F. *)
Lemma first_step_raises {St} (stp : St -> Z -> Z -> res (St * step_out)) s0 supply dur thr maxm tm :
  (forall s t iv, exists k, stp s t iv = Err k) -> exists k, simulate stp s0 supply dur thr maxm tm = Err k.
Proof.
  intros H. unfold simulate. destruct (sim_times dur) as [(d & iv)|k] eqn:E; [|exists k; reflexivity]. cbn [bind].
  assert (P : (0 < d / iv)%Z).
  { unfold sim_times in E. destruct (String.eqb dur "3day"); [injection E as <- <-; reflexivity|]. destruct (String.eqb dur "annual"); [injection E as <- <-; reflexivity|discriminate E]. }
  destruct (Z.to_nat (d / iv)) as [|n] eqn:EN; [lia|]. cbn [sim_loop].
  destruct (H s0 0%Z (sr_iv (sr_new d iv thr maxm tm))) as (k & R). rewrite R. exists k. reflexivity.
Qed.

Theorem C92_simulate : forall e dur thr maxm, bd_climate (en_building e) = None ->
  exists k, eng_simulate e dur thr maxm = Err k.
Proof.
  intros [b y] dur thr maxm N. cbn [en_building] in N.
  assert (O : forall t iv, bd_oat b t iv = Err AttributeError) by (intros; unfold bd_oat; rewrite N; reflexivity).
  assert (BS : forall s t iv, exists k, base_step b s t iv = Err k).
  { intros s t iv. unfold base_step. apply bind_err. intros dm. rewrite O. cbn [bind]. eauto. }
  unfold eng_simulate. cbn [en_building en_system]. destruct y.
  all: unfold simulate_base, simulate_parallel, simulate_swing, simulate_sprtp, simulate_mp, simulate_instant.
  all: match goal with |- exists k, bind (bind ?x ?f) ?g = Err k => assert (W : exists k, bind x f = Err k); [|destruct W as (k & W); rewrite W; exists k; reflexivity] end.
  all: apply bind_err; intros s0; apply first_step_raises; intros s1 t iv.
  - apply BS.
  - unfold parallel_step. destruct (BS (ps_base s1) t iv) as (k & R). rewrite R. cbn [bind]. eauto.
  - unfold swing_sim_step. apply bind_err. intros dm. rewrite O. cbn [bind]. eauto.
  - unfold sprtp_step. destruct (BS s1 t iv) as (k & R). rewrite R. cbn [bind]. eauto.
  - unfold mp_step. apply bind_err. intros dm. rewrite O. cbn [bind]. eauto.
  - unfold instant_step. apply bind_err. intros dm. rewrite O. cbn [bind]. eauto.
Qed.
Print Assumptions C92_simulate.

(** A building of 1000 gallons a day with a flat profile and no climate: the same system can be sized once the
    climate is known. *)
Example C92_case : exists b c w s', bd_climate b = None /\ bd_is_annual b = false /\
  dhw_size base_klass (mkLibrary (fun _ => None) (fun _ => Err KeyError) (fun _ => 0)) (mkDhw 120 150 16 1 None None None) b None None 2 1
    = (mkDhw 120 150 16 1 None None None, b, Err ValueError) /\
  let b2 := mkBuilding (Some c) (bd_daily b) (bd_peak b) (bd_avg b) (bd_type b) in
  dhw_size base_klass (mkLibrary (fun _ => None) (fun _ => Err KeyError) (fun _ => 0)) (mkDhw 120 150 16 1 None None None) b2 None None 2 1
    = (s', b2, Ok w) /\ dh_min_cap s' <> None.
Proof.
  exists (mkBuilding None 1000 (repeat (1 # 24) 24) (repeat (1 # 24) 24) "multi_family"), (cz_from_design (Some 40) (Some 50)). do 2 eexists.
  split; [reflexivity|]. split; [reflexivity|]. split; [vm_compute; reflexivity|]. cbv zeta. split; [vm_compute; reflexivity|]. discriminate.
Qed.
