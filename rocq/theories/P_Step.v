(** C55: whole simulations of the base system.  Vocabulary in S_Step and S_SimRun. *)
From Verif Require Import Prelude M_StratifiedTank S_StratifiedTank L_StratifiedTank L_StratifiedTank3
  M_MixedTank M_Building L_Building M_Heater S_Heater L_Heater M_Sizing M_SimRun S_SimRun L_SimRun L_Sizing3 M_Step S_Step L_Step L_Step2.
Open Scope Q_scope.

(** Whatever the building, the weather and the controls: every simulated step is physical. *)
Theorem C55_every_step_physical : forall b s tk dur thr maxm s' r,
  bs_tank s = Some tk -> 0 < st_vol tk -> 0 < st_slope tk ->
  simulate_base b s dur thr maxm = Ok (s', r) ->
  exists s0 outs, init_base b s = Ok s0 /\ executed (base_step b) (sr_iv r) s0 0 outs s' /\ recorded outs r /\
    forall i o, nth_error outs i = Some o ->
      physical_step b (bs_heaters s) (bs_storage s) (st_vol tk) (Z.of_nat i) (sr_iv r) o.
Proof.
  intros b s tk dur thr maxm s' r ET V1 V2 H. unfold simulate_base in H. destruct (bind_ok _ _ _ H) as (s0 & E0 & H1).
  destruct (simulate_inv _ _ _ _ _ _ _ _ _ H1) as (total & iv & outs & Et & Piv & Eiv & _ & _ & EX & RC & _).
  exists s0, outs. rewrite Eiv. split; [exact E0|]. split; [exact EX|]. split; [exact RC|].
  pose proof (base_inv_init b s s0 tk ET (conj V1 V2) E0) as BI.
  destruct (executed_forall (base_step b) iv _ (fun t o => physical_step b (bs_heaters s) (bs_storage s) (st_vol tk) t iv o)
    (fun s1 t s2 o => step_physical b _ _ _ _ _ s1 t iv s2 o) _ _ _ _ BI EX) as [_ P].
  intros i o E. exact (P i o E).
Qed.
Print Assumptions C55_every_step_physical.

(** In each step the aquastats look at the tank as the previous step left it; the reported output
    is the sum of what each heater then gives, not negative if no capacity is; the reported power
    is the sum over the running heaters, absent if none of them knows its power. *)
Theorem C55_heating : forall b s t iv s' o tk hour,
  bs_tank s = Some tk -> in_hour t iv hour -> base_step b s t iv = Ok (s', o) ->
  aquastats (bs_heaters s) (bs_heaters s') (st_temp tk) hour /\
  (exists l, Forall2 (heater_gives (so_oat o) (so_inlet o) hour) (bs_heaters s') l /\ so_output o = qsum l) /\
  (Forall heats (bs_heaters s) -> 0 <= so_output o) /\
  exists kws, Forall2 (fun h kw => exists c, in_effect h hour c /\
      match wh_pm h with
      | Some m => pm_power m (Some (so_oat o)) (ct_outlet c) (Some (so_inlet o))
      | None => Ok None
      end = Ok kw) (filter wh_active (bs_heaters s')) kws /\
    ((forall kw, In kw kws -> kw = None) -> so_power o = None) /\
    ((exists x, In (Some x) kws) -> so_power o = Some (qsum (map or0 kws))).
Proof.
  intros b s t iv s' o tk hour ET HH H. apply in_hour_eq in HH. subst hour.
  destruct (base_step_inv b s t iv s' o tk ET H) as (out & tk1 & tk2 & hs' & Ed & Eo & Ei & Eout & Ehs & Eq & E1 & E2 & Eu & Ets & Em & _ & _ & -> & kws & Ek & Ep).
  pose proof (hour_of_range t iv) as HR. cbn [bs_heaters].
  pose proof (aquastats_of _ _ _ _ (proj1 HR) Ehs) as AQ.
  destruct (total_output_spec _ _ _ _ _ (proj1 HR) Eq) as (l & F & El).
  split; [exact AQ|]. split; [exists l; auto|]. split.
  - intro R. apply aquastats_same in AQ. rewrite El. clear - F AQ R.
    assert (N : forall x, In x l -> 0 <= x).
    { revert R AQ. generalize (bs_heaters s) as hs. induction F as [|h x hs' l G F IH]; intros hs R AQ y I; [destruct I|].
      inversion AQ as [|h0 h1 hs0 hs1 SH F2]; subst. inversion R as [|a c R1 R2]; subst. destruct I as [<-|I]; [|exact (IH hs0 R2 F2 y I)].
      destruct G as (c & _ & [[_ ->]|[_ (cap & Ec & ->)]]); [lra|].
      destruct cap as [c'|]; [|cbn; lra]. apply (R1 (so_oat o) (ct_outlet c) (Some (so_inlet o))). unfold wh_capacity in *. destruct SH as (SP & _). rewrite SP in Ec. exact Ec. }
    clear - N. induction l as [|x l IH]; cbn [qsum]; [lra|]. assert (0 <= x) by (apply N; left; reflexivity).
    assert (0 <= qsum l) by (apply IH; intros y I; apply N; right; exact I). lra.
  - exists kws. split; [|split].
    + unfold active_powers in Ek. apply mapM_forall2 in Ek. clear - Ek HR. induction Ek as [|h kw hs kws E F IH]; constructor; [|exact IH].
      destruct (bind_ok _ _ _ E) as (x & Ex & E2). unfold wh_outlet_temp in Ex. destruct (bind_ok _ _ _ Ex) as ([c|] & Ec & E3); [|discriminate].
      apply ok_inj in E3. subst x. exists c. split; [apply in_effect_iff; [lia|exact Ec]|exact E2].
    + intro A. rewrite Ep. unfold total_kw. replace (existsb is_some kws) with false; [reflexivity|]. symmetry.
      apply not_true_iff_false. intro X. apply existsb_exists in X. destruct X as (kw & I & J). rewrite (A kw I) in J. discriminate.
    + intros (x & I). rewrite Ep. unfold total_kw. replace (existsb is_some kws) with true; [reflexivity|]. symmetry.
      apply existsb_exists. exists (Some x). auto.
Qed.
Print Assumptions C55_heating.

(** The stored heat of a step: the tank is heated by the reported output at the delivery
    temperature, then the demand is drawn. *)
Theorem C55_tank_operations : forall b s t iv s' o tk hour,
  bs_tank s = Some tk -> in_hour t iv hour -> base_step b s t iv = Ok (s', o) ->
  exists sp tk1 tk2, setpoint (bs_heaters s) (bs_storage s) hour sp /\
    st_heat tk (so_output o) (qz iv) sp = Ok tk1 /\
    st_draw tk1 (so_demand o) (so_inlet o) (bs_supply s) sp = Ok tk2 /\
    bs_tank s' = Some tk2 /\ bs_supply s' = bs_supply s /\ bs_storage s' = bs_storage s /\
    st_usable tk2 (bs_supply s) = Ok (so_usable o) /\
    Forall2 (fun f x => st_temp tk2 f = Ok x) [0; 2 # 10; 4 # 10; 6 # 10; 8 # 10; 1] (so_temps o).
Proof.
  intros b s t iv s' o tk hour ET HH H. apply in_hour_eq in HH. subst hour.
  destruct (base_step_inv b s t iv s' o tk ET H) as (out & tk1 & tk2 & hs' & Ed & Eo & Ei & Eout & Ehs & Eq & E1 & E2 & Eu & Ets & Em & _ & _ & -> & _).
  exists out, tk1, tk2. split; [apply outlet_for_spec; [apply (hour_of_range t iv)|exact Eout]|].
  split; [exact E1|]. split; [exact E2|]. split; [reflexivity|]. split; [reflexivity|]. split; [reflexivity|]. split; [exact Eu|].
  exact (mapM_forall2 _ _ _ Ets).
Qed.
Print Assumptions C55_tank_operations.

(** With weather and profiles for every hour, controls at every hour and heaters that can be
    queried, the simulation of either duration runs to its end or early stop without raising. *)
Theorem C55_completes : forall b s tk dur thr maxm,
  complete b -> Forall scheduled (bs_heaters s) -> Forall rated (bs_heaters s) ->
  bs_tank s = Some tk -> 0 < st_vol tk -> 0 < st_slope tk ->
  dur = "3day"%string \/ dur = "annual"%string ->
  exists s' r, simulate_base b s dur thr maxm = Ok (s', r).
Proof.
  intros b s tk dur thr maxm C FS FR ET V1 V2 D. apply base_completes; [exact C| |exact D].
  split; [exact FS|]. split; [exact FR|]. exists tk. split; [exact ET|]. split; assumption.
Qed.
Print Assumptions C55_completes.

(** From the first step that draws hot water on, the top of the tank never reads below the supply
    temperature, whatever the heaters do. *)
Theorem C55_top_never_below_supply : forall b s tk dur thr maxm s' r,
  bs_tank s = Some tk -> 0 < st_vol tk -> 0 < st_slope tk ->
  (forall hour sp, setpoint (bs_heaters s) (bs_storage s) hour sp -> bs_supply s <= sp) ->
  simulate_base b s dur thr maxm = Ok (s', r) ->
  exists outs, recorded outs r /\
    forall i j oi oj, (i <= j)%nat -> nth_error outs i = Some oi -> nth_error outs j = Some oj ->
      draws (bs_heaters s) (bs_storage s) (Z.of_nat i) (sr_iv r) oi -> bs_supply s <= top_of oj.
Proof.
  intros b s tk dur thr maxm s' r ET V1 V2 SP H. unfold simulate_base in H. destruct (bind_ok _ _ _ H) as (s0 & E0 & H1).
  destruct (simulate_inv _ _ _ _ _ _ _ _ _ H1) as (total & iv & outs & Et & Piv & Eiv & _ & _ & EX & RC & _).
  exists outs. rewrite Eiv. split; [exact RC|]. pose proof (base_inv_init b s s0 tk ET (conj V1 V2) E0) as BI.
  intros i j oi oj L Ei Ej D. exact (executed_topped b _ _ _ _ _ iv Piv SP outs s0 0%Z s' BI EX i j oi oj L Ei Ej (or_intror D)).
Qed.
Print Assumptions C55_top_never_below_supply.

(** So a base system that draws in its first step is never stopped early. *)
Theorem C55_never_stops_early : forall b s tk dur thr maxm s' r,
  bs_tank s = Some tk -> 0 < st_vol tk -> 0 < st_slope tk -> 0 <= thr ->
  (forall hour sp, setpoint (bs_heaters s) (bs_storage s) hour sp -> bs_supply s <= sp) ->
  simulate_base b s dur thr maxm = Ok (s', r) ->
  0 < hd 0 (sr_demand r) ->
  (forall hour sp, in_hour 0 (sr_iv r) hour -> setpoint (bs_heaters s) (bs_storage s) hour sp -> hd 0 (sr_inlet r) < sp) ->
  sr_stopped r = false /\ Z.of_nat (length (sr_demand r)) = (sr_duration r / sr_iv r)%Z.
Proof.
  intros b s tk dur thr maxm s' r ET V1 V2 Ht SP H D1 D2. unfold simulate_base in H. destruct (bind_ok _ _ _ H) as (s0 & E0 & H1).
  destruct (simulate_inv _ _ _ _ _ _ _ _ _ H1) as (total & iv & outs & Et & Piv & Eiv & ED & _ & EX & RC & _ & _ & ST & NS).
  rewrite Eiv in *. pose proof (base_inv_init b s s0 tk ET (conj V1 V2) E0) as BI.
  assert (F : sr_stopped r = false).
  { destruct (sr_stopped r) eqn:S1; [|reflexivity]. exfalso. destruct (ST eq_refl) as [NE (k & K1 & (_ & K2) & _)].
    destruct (K2 (length outs - 1)%nat ltac:(lia)) as (o & Eo & TC).
    destruct outs as [|o0 outs0]; [congruence|].
    destruct (executed_forall (base_step b) iv (base_inv (bs_heaters s) (bs_supply s) (bs_storage s) (st_vol tk) (st_slope tk)) (fun t o => so_delivery o = None)
      (fun s1 t s2 o BI1 E => conj (proj1 (step_physical b _ _ _ _ _ s1 t iv s2 o BI1 E))
         (match BI1 with conj _ (conj _ (conj _ (ex_intro _ tk0 (conj ET0 _)))) =>
            match base_step_inv b s1 t iv s2 o tk0 ET0 E with
            | ex_intro _ _ (ex_intro _ _ (ex_intro _ _ (ex_intro _ _ P))) =>
                proj1 (proj2 (proj2 (proj2 (proj2 (proj2 (proj2 (proj2 (proj2 (proj2 (proj2 (proj2 P)))))))))))
            end end)) _ _ _ _ BI EX) as [_ DN].
    pose proof (DN _ _ Eo) as DO. cbn beta in DO.
    unfold too_cold, delivered in TC. rewrite DO in TC. fold (top_of o) in TC.
    pose proof (executed_topped b _ _ _ _ _ iv Piv SP (o0 :: outs0) s0 0%Z s' BI EX 0%nat _ o0 o ltac:(lia) eq_refl Eo) as TT.
    cbn [Z.of_nat Z.add] in TT. specialize (TT (or_intror (conj ltac:(rewrite (rc_demand _ _ RC) in D1; exact D1) ltac:(rewrite (rc_inlet _ _ RC) in D2; exact D2)))). lra. }
  split; [exact F|]. destruct (NS F) as [NL _]. rewrite (rc_demand _ _ RC), map_length, ED. exact NL.
Qed.
Print Assumptions C55_never_stops_early.

(** *** Concrete cases *)
Definition ex_ctl : controls := mkControls (4 # 10) 120 (2 # 10) 130 150.
Definition ex_heater (cap : Q) : heater :=
  wh_new (Some (PmNominal cap)) (Some (repeat "normal"%string 24)) (Some [("normal"%string, ex_ctl)]).
Definition ex_building : building :=
  mkBuilding (Some (cz_from_design (Some 40) (Some 50))) 1000 (repeat (1 # 24) 24) (repeat (1 # 24) 24) "office".
Definition ex_bsys (cap : Q) : bsys := mkBsys [ex_heater cap] (Some (st_new 300 1)) 120 150.

Lemma ex_complete : complete ex_building.
Proof.
  split; [discriminate|]. split; [discriminate|]. eexists. split; [reflexivity|]. split; left; discriminate.
Qed.
Lemma ex_scheduled cap : scheduled (ex_heater cap).
Proof.
  exists (repeat "normal"%string 24), [("normal"%string, ex_ctl)]. split; [reflexivity|]. split; [reflexivity|]. split; [cbn; lia|].
  intros k I. apply repeat_spec in I. subst k. exists ex_ctl. reflexivity.
Qed.
Lemma ex_rated cap : 0 <= cap -> rated (ex_heater cap).
Proof. intros _ oat out inlet. exists (Some cap), None. split; reflexivity. Qed.
Lemma ex_heats cap : 0 <= cap -> heats (ex_heater cap).
Proof. intros P oat out inlet c E. injection E as <-. exact P. Qed.

Lemma ex_setpoint cap hour sp : setpoint [ex_heater cap] 150 hour sp -> sp = 150.
Proof.
  intros [[_ E]|[(h & c & [<-|[]] & (_ & s & d & k & Es & Ed & Ek & Ec) & E) _]]; [exact E|].
  cbn in Es, Ed. injection Es as <-. injection Ed as <-. apply nth_error_In in Ek. apply (repeat_spec 24) in Ek. subst k.
  cbn in Ec. injection Ec as <-. symmetry. exact E.
Qed.

(** The example runs, and its first step draws. *)
Example C55_case : forall cap, 0 <= cap -> exists s' r,
  simulate_base ex_building (ex_bsys cap) "3day" 5 10 = Ok (s', r) /\
  0 < hd 0 (sr_demand r) /\
  forall hour sp, setpoint (bs_heaters (ex_bsys cap)) (bs_storage (ex_bsys cap)) hour sp -> bs_supply (ex_bsys cap) <= sp /\ hd 0 (sr_inlet r) < sp.
Proof.
  intros cap P.
  destruct (C55_completes ex_building (ex_bsys cap) (st_new 300 1) "3day" 5 10 ex_complete) as (s' & r & E);
    [constructor; [apply ex_scheduled|constructor]|constructor; [apply ex_rated; exact P|constructor]|reflexivity|reflexivity|reflexivity|left; reflexivity|].
  exists s', r. split; [exact E|].
  unfold simulate_base in E. destruct (bind_ok _ _ _ E) as (s0 & E0 & H1).
  destruct (simulate_inv _ _ _ _ _ _ _ _ _ H1) as (total & iv & outs & Et & Piv & Eiv & ED & _ & EX & RC & _ & _ & ST & NS).
  pose proof (base_inv_init ex_building (ex_bsys cap) s0 _ eq_refl (conj eq_refl eq_refl) E0) as BI.
  assert (NE : outs <> []).
  { cbn in Et. injection Et as <- <-. intros ->. destruct (sr_stopped r); [destruct (ST eq_refl); congruence|].
    destruct (NS eq_refl) as [X _]. cbn in X. discriminate X. }
  destruct outs as [|o0 outs]; [congruence|]. cbn [executed] in EX. destruct EX as (s1 & Es1 & _).
  destruct (step_physical _ _ _ _ _ _ _ _ _ _ _ BI Es1) as [_ PH].
  cbn in Et. injection Et as <- <-. rewrite (rc_demand _ _ RC), (rc_inlet _ _ RC). cbn [map hd].
  split.
  - pose proof (ph_demand _ _ _ _ _ _ _ PH false) as PD. cbn in PD.
    assert (X : Ok (1000 * (1 # 24) * qz 1 / 60) = Ok (so_demand o0)).
    { apply PD. split; [discriminate|]. intros (h & d & [<-|[]] & M & I). cbn in M. injection M as <-. cbn in I.
      destruct I as [[?|[]]|[?|[]]]; discriminate. }
    apply ok_inj in X. rewrite <- X. reflexivity.
  - intros h sp Hs. apply ex_setpoint in Hs. subst sp. split; [cbn; lra|]. pose proof (ph_inlet _ _ _ _ _ _ _ PH) as PI. cbn in PI.
    apply ok_inj in PI. rewrite <- PI. reflexivity.
Qed.

Lemma three_days b s tk thr maxm s' r : bs_tank s = Some tk -> 0 < st_vol tk -> 0 < st_slope tk -> 0 <= thr ->
  simulate_base b s "3day" thr maxm = Ok (s', r) -> 0 < hd 0 (sr_demand r) ->
  (forall hour sp, setpoint (bs_heaters s) (bs_storage s) hour sp -> bs_supply s <= sp /\ hd 0 (sr_inlet r) < sp) ->
  sr_stopped r = false /\ Z.of_nat (length (sr_demand r)) = 4320%Z /\
  exists outs, recorded outs r /\ forall i o, nth_error outs i = Some o -> bs_supply s <= top_of o.
Proof.
  intros ET V1 V2 Ht E D1 D2.
  assert (SP : forall hour sp, setpoint (bs_heaters s) (bs_storage s) hour sp -> bs_supply s <= sp) by (intros hour sp Hs; exact (proj1 (D2 hour sp Hs))).
  destruct (C55_never_stops_early b s tk _ thr maxm s' r ET V1 V2 Ht SP E D1 (fun hour sp _ Hs => proj2 (D2 hour sp Hs))) as [S1 L1].
  split; [exact S1|].
  assert (X : sr_duration r = 4320%Z /\ sr_iv r = 1%Z).
  { clear - E. unfold simulate_base in E. destruct (bind_ok _ _ _ E) as (s0 & E0 & H1).
    destruct (simulate_inv _ _ _ _ _ _ _ _ _ H1) as (total & iv & outs & Et & Piv & Eiv & ED & _).
    cbn in Et. injection Et as <- <-. auto. }
  destruct X as [X1 X2]. rewrite X1, X2 in L1. split; [rewrite L1; apply Z.div_1_r|].
  destruct (C55_top_never_below_supply b s tk _ thr maxm s' r ET V1 V2 SP E) as (outs' & RC & T).
  exists outs'. split; [exact RC|]. intros i o Ei. destruct outs' as [|o0 outs']; [destruct i; discriminate|].
  apply (T 0%nat i o0 o ltac:(lia) eq_refl Ei). rewrite (rc_demand _ _ RC) in D1. rewrite (rc_inlet _ _ RC) in D2.
  split; [exact D1|]. intros h sp _ Hs. exact (proj2 (D2 h sp Hs)).
Qed.

(** A system whose heater gives no heat at all runs three days of constant demand to the end,
    its tank top at 120 degrees or more in every step: the early stop cannot see it. *)
Theorem C55_dead_heater_goes_unnoticed_refuted : exists b s s' r,
  (forall oat outlet inlet h, In h (bs_heaters s) -> wh_capacity h oat outlet inlet = Ok (Some 0)) /\
  simulate_base b s "3day" 5 10 = Ok (s', r) /\ sr_stopped r = false /\ Z.of_nat (length (sr_demand r)) = 4320%Z /\
  exists outs, recorded outs r /\ forall i o, nth_error outs i = Some o -> bs_supply s <= top_of o.
Proof.
  destruct (C55_case 0 ltac:(lra)) as (s' & r & E & D1 & D2).
  exists ex_building, (ex_bsys 0), s', r.
  split; [intros oat out inlet h [<-|[]]; reflexivity|]. split; [exact E|].
  exact (three_days ex_building (ex_bsys 0) (st_new 300 1) 5 10 s' r eq_refl eq_refl eq_refl ltac:(lra) E D1 D2).
Qed.
Print Assumptions C55_dead_heater_goes_unnoticed_refuted.
