(** C76: a swing-tank system whose element covers the loop and whose primary tank keeps a hot part never runs out. *)
From Verif Require Import Prelude M_StratifiedTank S_StratifiedTank L_StratifiedTank L_StratifiedTank2 L_StratifiedTank3
  M_MixedTank L_MixedTank M_Building S_Building L_Building M_Heater S_Heater L_Heater M_Sizing S_Sizing M_SimRun S_SimRun L_SimRun L_SimMisc M_Step S_Step L_Step L_Step2 L_Step3 L_Step4 L_Step5 L_Step6
  M_Swing M_MPRTP M_Engine S_Engine S_EngineRun S_EngineSize L_Engine L_Engine2 L_Engine6 L_Engine8 S_Lasts S_Lasts2 L_Lasts L_Lasts2 L_Lasts3 L_Lasts4
  P_Sizing P_Engine P_Engine2 P_Engine6 P_Engine7 P_Lasts.
Open Scope Q_scope.

Lemma swing_sized_off dt p b b' w s h : eng_sized dt p b = Ok (b', ESwing w s) -> In h (ws_heaters s) -> wh_active h = false.
Proof.
  unfold eng_sized. intros H I. destruct (bind_ok _ _ _ H) as ([sched m] & EC & H1). clear H. destruct (bind_ok _ _ _ H1) as (fract & EF & H). clear H1.
  cbv zeta in H. destruct (kind_of (ep_schematic p)) as [[]|] eqn:EK; [| | | | | |discriminate].
  - unfold fs_primary in H. destruct (dhw_size _ _ _ _ _ _ _ _) as [[d b1] out] eqn:ES.
    destruct (bind_ok _ _ _ H) as (w0 & -> & H1). destruct (bind_ok _ _ _ H1) as (x & EP & H2). apply ok_inj in H2. discriminate H2.
  - destruct (bind_ok _ _ _ H) as ([r f] & ER & H0). clear H. unfold fs_parallel in H0. cbv zeta in H0. destruct (pl_size _ _ _ _ _ _ _) as [[l b1] out] eqn:ES.
    destruct (bind_ok _ _ _ H0) as ([] & -> & H1). clear H0. destruct (bind_ok _ _ _ H1) as (x & EP & H2). clear H1.
    destruct (pl_tm_vol l) as [tv|]; [|discriminate]. destruct (pl_tm_cap l) as [tc|]; [|discriminate].
    destruct (bind_ok _ _ _ H2) as (ps & EB & H3). apply ok_inj in H3. discriminate H3.
  - destruct (bind_ok _ _ _ H) as ([r f] & ER & H0). clear H. unfold fs_swing in H0. destruct (bind_ok _ _ _ H0) as (w0 & EW & H1). clear H0.
    destruct (swing_size _ _ _ _ _ _ _) as [[w1 b1] out] eqn:ES. destruct (bind_ok _ _ _ H1) as ([] & -> & H2). clear H1.
    destruct (dh_min_cap (sw_dhw w1)); [|discriminate]. destruct (dh_min_stor (sw_dhw w1)); [|discriminate]. destruct (sw_tm_vol w1); [|discriminate].
    apply ok_inj in H2. injection H2 as _ _ <-. destruct I as [<-|[]]. reflexivity.
  - destruct (bind_ok _ _ _ H) as ([r f] & ER & H0). clear H. unfold fs_sprtp, sprtp_size in H0. destruct (dhw_size _ _ _ _ _ _ _ _) as [[d b1] out] eqn:ES.
    destruct (bind_ok _ _ _ H0) as (rc & ERC & H1). clear H0. destruct (bind_ok _ _ _ H1) as (x & EP & H2). apply ok_inj in H2. discriminate H2.
  - destruct (bind_ok _ _ _ H) as ([r f] & ER & H0). clear H. destruct (mp_from_size _ _ _ _ _ _ _ _ _ _ _ _ _ _) as [b1 out]. destruct (bind_ok _ _ _ H0) as (x & -> & H1).
    apply ok_inj in H1. discriminate H1.
  - unfold fs_instant in H. destruct (bind_ok _ _ _ H) as (d & ED & H1). apply ok_inj in H1. discriminate H1.
Qed.

Lemma swing_new_off dt p e w s h : eng_new dt p = Ok e -> en_system e = ESwing w s -> In h (ws_heaters s) -> wh_active h = false.
Proof.
  intros H T I. destruct (new_inv _ _ _ H) as (b & sched & m & EB & EC & [(vol' & hs & EV' & EH & A & Eb & E1 & E2 & EP)|(EV' & ES & _)]).
  - destruct (assembled_parts _ _ _ _ _ A) as (_ & P & _). rewrite T in P. destruct P as [P _]; [discriminate|]. cbn [primary_heaters] in P. rewrite P in I. exact (presized_off _ _ _ _ _ _ _ EH I).
  - rewrite T in ES. exact (swing_sized_off _ _ _ _ _ _ _ ES I).
Qed.

(** ** The swing tank by itself *)

(** It has a course, and the course is the only one. *)
Section Course.
Variables (supply storage tv loss cap : Q) (iv : Z) (d mains : nat -> Q).
Hypotheses (Piv : (0 < iv)%Z) (Ptv : 0 < tv) (LC : loss <= cap) (SS : supply < storage).

Let go (n : nat) (x : Q * bool) : Q * bool :=
  let (t, e) := x in
  let dr := d n * (supply - mains n) / (t - mains n) in
  let left_ := t + qmin dr tv * (storage - t) / tv - warms loss tv iv in
  let e' := qltb left_ (if e then supply + 8 else supply) in
  (left_ + (if e' then warms cap tv iv else 0), e').
Let st (n : nat) : Q * bool := nat_rect (fun _ => (Q * bool)%type) (supply + 8, false) go n.
Let temp n := fst (st n).
Let on n := snd (st n).
Let draw n := d n * (supply - mains n) / (temp n - mains n).

Lemma course_upto (N : nat) : (forall n, (n < N)%nat -> mains n < supply /\ 0 <= d n) ->
  fed_hot supply storage tv loss cap iv (Z.of_nat N * iv) d mains temp on draw.
Proof.
  induction N as [|N IH]; intro H.
  - split; [reflexivity|reflexivity| |]; intros n L; exfalso; nia.
  - specialize (IH ltac:(intros n L; apply H; lia)).
    assert (IT : forall n M, (Z.of_nat n * iv < Z.of_nat M * iv)%Z -> (n < M)%nat) by (intros n M L; apply Z.mul_lt_mono_pos_r in L; lia).
    assert (TA : supply <= temp N).
    { refine (fed_above _ _ _ _ _ _ _ _ _ _ _ _ IH Piv Ptv LC SS _ _ N _); [intros n L; apply H; apply IT in L; lia|intros n L; apply H; apply IT in L; lia|lia]. }
    assert (NX : forall n, exists left_, left_ == temp n + qmin (draw n) tv * (storage - temp n) / tv - warms loss tv iv /\
       (on (S n) = true <-> left_ < (if on n then supply + 8 else supply)) /\ temp (S n) == left_ + (if on (S n) then warms cap tv iv else 0)).
    { intro n. exists (temp n + qmin (draw n) tv * (storage - temp n) / tv - warms loss tv iv). split; [reflexivity|].
      change (temp (S n)) with (fst (go n (st n))). change (on (S n)) with (snd (go n (st n))). unfold draw, temp, on. destruct (st n) as [t e]. unfold go. cbn [fst snd].
      split; [apply qltb_true|reflexivity]. }
    split; [reflexivity|reflexivity| |intros n _; apply NX].
    intros n L. apply IT in L. destruct (Nat.eq_dec n N) as [->|NE].
    + unfold draw. destruct (H N ltac:(lia)). field. lra.
    + apply (fh_draw _ _ _ _ _ _ _ _ _ _ _ _ IH). apply Z.mul_lt_mono_pos_r; lia.
Qed.

Lemma course_exists (N : nat) : (forall n, (n < N)%nat -> mains n < supply /\ 0 <= d n) ->
  exists temp on draw, fed_hot supply storage tv loss cap iv (Z.of_nat N * iv) d mains temp on draw.
Proof. intro H. exists temp, on, draw. exact (course_upto N H). Qed.
End Course.

(** ** C76 Swing-tank systems that never run out *)

(** A new swing-tank engine without a load-shift schedule, whose element gives at least what the loop loses.
    [draw n] are the gallons that pass through the swing tank when it is always fed with storage-temperature
    water.  If the hot gallons of the primary tank cover, beyond what the heaters bring, what any stretch of steps
    draws, the simulation is that course of the swing tank: its recorded temperatures are those of the course,
    none is below the supply temperature, the outage time is zero, the run is not stopped, the top of the primary
    tank stays at the storage temperature and usable water remains at every step. *)
Theorem C76_swing_never_runs_out : forall dt p e dur thr maxm e' r total iv vol cold warm start on_t off_t k ret flow tv cap top d mains temp on draw,
  eng_new dt p = Ok e -> without_schedule p -> type_of (en_system e) = SwingTank ->
  primary_volume (en_system e) = Some vol -> 0 < vol -> second_plant (en_system e) tv cap -> 0 < tv ->
  ep_return p = Some ret -> ep_flow p = Some flow -> let loss := loop_kbtuh (ep_supply p) ret flow in 0 <= loss <= cap ->
  defaulted (ep_on_t p) (ep_supply p) on_t -> defaulted (ep_off_t p) (ep_storage p) off_t ->
  0 <= ep_aq p -> ep_off_sensor p <= ep_aq p -> on_t <= off_t -> on_t <= ep_storage p ->
  cold <= warm -> warm < on_t -> warm < ep_supply p -> ep_supply p < ep_storage p ->
  lasts dur total iv ->
  let b := en_building e in
  (forall t x, bd_inlet b t iv = Ok x -> cold <= x /\ x <= warm) ->
  (forall di, bd_design_inlet b = Ok di -> sim_inlet di = start) -> cold <= start <= warm ->
  0 <= k -> give_at_least b iv (primary_heaters (en_system e)) (ep_storage p) k ->
  (forall n, (Z.of_nat n * iv < total)%Z -> bd_load b (Z.of_nat n) iv false = Ok (d n) /\ 0 <= d n /\ bd_inlet b (Z.of_nat n) iv = Ok (mains n)) ->
  fed_hot (ep_supply p) (ep_storage p) tv loss cap iv total d mains temp on draw ->
  let bring := heated k iv (ep_storage p) cold in
  (forall n, (Z.of_nat n * iv < total)%Z -> draw n <= top) ->
  (forall i n, (Z.of_nat (i + n) * iv <= total)%Z -> shortfall draw bring i n + top <= hot_reserve vol (28 # 10) (ep_storage p) (ep_aq p) on_t) ->
  (forall n, (Z.of_nat n * iv <= total)%Z -> shortfall draw bring 0 n <= hot_reserve vol (28 # 10) (ep_storage p) (ep_aq p) start) ->
  eng_simulate e dur thr maxm = Ok (e', r) ->
  never_out (ep_storage p) (qmin vol (vol * (ep_storage p - ep_supply p) / (100 * (28 # 10)))) thr r /\
  length (sr_tm_temp r) = length (sr_demand r) /\
  forall i x, nth_error (sr_tm_temp r) i = Some x -> x == temp (S i) /\ ep_supply p <= x.
Proof.
  intros dt p e dur thr maxm e' r total iv vol cold warm start on_t off_t k ret flow tv cap top d mains temp on draw H NS TY PV V0 (el & ST2 & EC) TV ER EF loss [LS0 LSC] ON OFF A0 SO OO OS CW WO WS SS LA b MA DI [S1 S2] K0 GK LD FED bring TOP WIN STA SIM.
  destruct (engine_assembled _ _ _ H) as (hs & vol0 & A). destruct (assembled_parts _ _ _ _ _ A) as (T & PP & _).
  destruct PP as [PH PV']; [rewrite TY; discriminate|]. rewrite PV in PV'. injection PV' as <-.
  destruct (new_controls _ _ _ H NS) as (PL & CT & IP). specialize (IP A0). apply defaulted_is in ON, OFF. rewrite <- ON, <- OFF in CT.
  destruct (C65_runs_its_system _ _ _ _ _ _ _ _ H SIM) as (_ & KS). cbv zeta in KS.
  assert (Piv : (0 < iv)%Z) by (destruct LA as [(_ & _ & ->)|(_ & _ & ->)]; lia).
  assert (DV : exists N, (Z.of_nat N * iv = total)%Z).
  { exists (Z.to_nat (total / iv)). destruct LA as [(_ & -> & ->)|(_ & -> & ->)]; reflexivity. }
  destruct DV as (N & EN).
  set (slope := 28 # 10) in *. assert (SL : 0 < slope) by reflexivity.
  set (Yon := hot_reserve vol slope (ep_storage p) (ep_aq p) on_t) in *. set (Y0 := hot_reserve vol slope (ep_storage p) (ep_aq p) start) in *.
  assert (CAP : Yon <= vol).
  { unfold Yon, hot_reserve. assert (0 <= (ep_storage p - on_t) / (100 * slope)) by (apply qdiv_nonneg; lra). 
    setoid_replace vol with (vol * 1) at 2 by ring. apply Qmult_le_l; [exact V0|]. lra. }
  assert (LD' : forall n, (n < N)%nat -> bd_load b (Z.of_nat n) iv false = Ok (d n) /\ 0 <= d n /\ bd_inlet b (Z.of_nat n) iv = Ok (mains n)) by (intros n L; apply LD; rewrite <- EN; apply Z.mul_lt_mono_pos_r; lia).
  assert (TOP' : forall n, (n < N)%nat -> draw n <= top) by (intros n L; apply TOP; rewrite <- EN; apply Z.mul_lt_mono_pos_r; lia).
  assert (WIN' : forall i n, (i + n <= N)%nat -> shortfall draw bring i n + top <= Yon) by (intros i n L; apply WIN; rewrite <- EN; apply Z.mul_le_mono_nonneg_r; lia).
  assert (STA' : forall n, (n <= N)%nat -> shortfall draw bring 0 n <= Y0) by (intros n L; apply STA; rewrite <- EN; apply Z.mul_le_mono_nonneg_r; lia).
  destruct (en_system e) as [dh s|l s|w s|dh r0 f0 s|x|dh] eqn:ES; try discriminate TY. cbn [primary_heaters primary_volume second_tank] in *.
  destruct KS as (s' & E & _). unfold simulate_swing in E. destruct (bind_ok _ _ _ E) as (s0 & E0 & E1). clear E.
  destruct A as (_ & r1 & f1 & tv1 & tc1 & R1 & F1 & A). rewrite ER in R1. injection R1 as <-. rewrite EF in F1. injection F1 as <-.
  assert (SUP : ws_supply s = ep_supply p) by (rewrite A; reflexivity). rewrite SUP in E1.
  destruct (simulate_reported _ _ _ _ _ _ _ _ _ E1) as (total' & iv' & outs & LA' & _ & EX & RP & _).
  assert (total' = total /\ iv' = iv) as [-> ->] by (destruct LA as [(L1 & -> & ->)|(L1 & -> & ->)]; destruct LA' as [(L2 & -> & ->)|(L2 & -> & ->)]; (split; reflexivity) || congruence).
  assert (LEN : (0 + length outs <= N)%nat).
  { pose proof (rp_length _ _ _ _ _ _ _ RP) as L. rewrite <- EN in L. apply Zmult_le_reg_r in L; lia. }
  injection ST2 as ETV EEL.
  assert (WT : ws_tank s = st_new vol slope) by (rewrite A; reflexivity). assert (WSG : ws_storage s = ep_storage p) by (rewrite A; reflexivity).
  (* the beginning *)
  assert (INI : exists y, swing_hot hs (ep_supply p) (ep_storage p) vol slope cold warm el ret flow tv s0 false y (temp 0%nat) (on 0%nat) /\ Kept draw bring top Yon Y0 0 y).
  { unfold init_swing in E0. destruct (bind_ok _ _ _ E0) as (di & Edi & E2). clear E0. cbv zeta in E2. destruct (bind_ok _ _ _ E2) as (off & EO & E3). clear E2. apply ok_inj in E3. rewrite (DI _ Edi) in E3.
    set (pu := initial_percent (ws_heaters s)) in *.
    assert (EOF : off == ep_supply p + 8).
    { rewrite A in EO. unfold ws_off_temp in EO. cbn [ws_element] in EO. unfold swing_element in EO.
      destruct (bind_ok _ _ _ EO) as (ct & C1 & C2). vm_compute in C1. apply ok_inj in C1. subst ct. apply ok_inj in C2. cbn [ct_off_trigger] in C2. subst off. reflexivity. }
    assert (W : st_wf (st_new vol slope)) by (split; [exact V0|exact SL]).
    pose proof (init_hot (st_new vol slope) (ep_storage p) start pu W) as IH. cbn [st_new st_vol st_slope] in IH.
    set (z := (ep_storage p - start) / (100 * slope)) in *. assert (Z0 : 0 <= z) by (unfold z; apply qdiv_nonneg; lra).
    exists (vol * (pu - z)). split.
    - subst s0. constructor; cbn [ws_return ws_flow ws_swing ws_element mx_initialize mx_vol mx_temp].
      + constructor; cbn [wcore ws_heaters ws_tank ws_supply ws_storage bs_heaters bs_supply bs_storage bs_tank]; try (rewrite A; reflexivity).
        * rewrite PH. apply same_all_refl.
        * intros h I. exact (swing_new_off _ _ _ _ _ _ H ES I).
        * setoid_replace vol with (vol * 1) at 2 by ring. apply Qmult_le_l; [exact V0|]. lra.
        * eexists. split; [reflexivity|]. rewrite WT, WSG. cbn [st_initialize st_vol st_slope st_inlet st_outlet st_new]. split; [reflexivity|]. split; [reflexivity|]. split; [exact S1|]. split; [exact S2|]. split; [reflexivity|]. exact IH.
      + rewrite A. reflexivity.
      + rewrite A. reflexivity.
      + exact ETV.
      + pose proof (fh_start _ _ _ _ _ _ _ _ _ _ _ _ FED). lra.
      + rewrite <- EEL. apply same_heater_refl.
      + rewrite (fh_off _ _ _ _ _ _ _ _ _ _ _ _ FED). rewrite A. reflexivity.
    - right. rewrite shortfall_O. unfold Y0, hot_reserve. fold z. assert (vol * (1 - ep_aq p - z) <= vol * (pu - z)) by (apply Qmult_le_l; [exact V0|lra]). lra. }
  destruct INI as (y & HS & KP).
  assert (ELC : forall hour c, in_effect el hour c -> ct_on_trigger c = ep_supply p /\ ct_off_trigger c = ep_supply p + 8).
  { intros hour c (_ & s1 & d1 & k1 & SS1 & MM & N1 & G1). rewrite <- EEL, A in SS1, MM. cbn in SS1, MM.
    assert (SI : forall X (x y : X), Some x = Some y -> y = x) by congruence. apply SI in SS1, MM. subst s1 d1. apply nth_error_In in N1. change (In k1 (repeat "normal"%string 24)) in N1. apply repeat_spec in N1. subst k1. cbn in G1. injection G1 as <-. split; reflexivity. }
  assert (ELS : loss == flow * (ep_supply p - ret) * rho_cp * 60 / 1000) by reflexivity.
  rewrite PH in PL, CT, GK.
  pose proof (run_swing_hot b iv hs (ep_supply p) (ep_storage p) vol slope cold warm k (ep_aq p) on_t (ep_off_sensor p) off_t Piv V0 SL CW WO OS WS SS OO SO MA CT PL K0 GK
     el ret flow tv loss cap TV LS0 LSC ELS ELC EC d mains temp on draw top Y0 N total EN FED LD' TOP' WIN' STA' CAP outs 0 s0 false y s' LEN HS KP EX) as FO.
  cbn [Nat.add] in FO.
  assert (ABV : forall i, (i < length outs)%nat -> ep_supply p <= temp (S i)).
  { intros i L. refine (fed_above _ _ _ _ _ _ _ _ _ _ _ _ FED Piv TV LSC SS _ _ (S i) _).
    - intros n LL. destruct (LD n LL) as (_ & _ & E). destruct (MA _ _ E). lra.
    - intros n LL. apply (LD n LL).
    - rewrite <- EN. apply Z.mul_le_mono_nonneg_r; lia. }
  destruct (rp_recorded _ _ _ _ _ _ _ RP) as [RD RU _ _ _ _ _ RT RTM _ _ RO].
  assert (LOW : 0 < qmin vol (vol * (ep_storage p - ep_supply p) / (100 * slope))).
  { assert (0 < vol * (ep_storage p - ep_supply p) / (100 * slope)) by (apply Qlt_shift_div_l; [lra|]; assert (0 < vol * (ep_storage p - ep_supply p)) by (apply Qmult_lt_0_compat; lra); lra). qmm; lra. }
  assert (TMS : exists ts, map so_tm_temp outs = map Some ts /\ length ts = length outs).
  { assert (X : forall o, In o outs -> exists x, so_tm_temp o = Some x) by (intros o I; apply In_nth_error in I; destruct I as (i & I); destruct (FO i o I) as (_ & (x & _ & X & _) & _); exists x; exact X).
    clear - X. induction outs as [|o l IH]; [exists []; split; reflexivity|]. destruct (X o (or_introl eq_refl)) as (x & E). destruct IH as (ts & E1 & E2); [intros o' I; apply X; right; exact I|].
    exists (x :: ts). cbn. rewrite E, E1, E2. split; reflexivity. }
  destruct TMS as (ts & ETS & LTS).
  assert (SM : somes (map Some ts) = ts) by (clear; induction ts as [|x l IH]; [reflexivity|]; cbn; rewrite IH; reflexivity).
  split; [split|split].
  - rewrite RO. replace (outages outs) with (@nil step_out); [cbn; lia|]. symmetry. unfold outages.
    assert (Z : forall o, In o outs -> Qle_bool (so_usable o) 0 = false) by (intros o I; apply In_nth_error in I; destruct I as (i & I); destruct (FO i o I) as (U & _); apply qleb_false; lra).
    clear - Z. induction outs as [|o l IH]; [reflexivity|]. cbn [filter]. rewrite (Z o (or_introl eq_refl)). apply IH. intros o' I. apply Z. right. exact I.
  - intro T0. destruct (sr_stopped r) eqn:ESR; [exfalso|reflexivity]. apply (rp_stopped _ _ _ _ _ _ _ RP) in ESR.
    destruct ESR as (n & N1 & (N2 & N3) & _). destruct (N3 (length outs - 1)%nat ltac:(lia)) as (o & EO & TC). destruct (FO _ o EO) as (_ & (x & DN & _ & EQX) & _).
    assert (LL : (length outs - 1 < length outs)%nat) by (apply nth_error_Some; rewrite EO; discriminate). pose proof (ABV _ LL).
    unfold too_cold, delivered in TC. rewrite DN in TC. lra.
  - intros i x E. rewrite RU in E. rewrite nth_error_map in E. destruct (nth_error outs i) as [o|] eqn:EO; [|discriminate]. cbn in E. injection E as <-. exact (proj1 (FO i o EO)).
  - eexists. split; [apply RT; lia|]. intros i x E. apply nth_error_In in E. assert (Z : exists o, In o outs /\ nth_error (so_temps o) 5 = Some x).
    { clear - E. induction outs as [|o l IH]; [destruct E|]. cbn [map somes] in E. destruct (nth_error (so_temps o) 5) as [y|] eqn:EY.
      - destruct E as [<-|E]; [exists o; split; [left; reflexivity|exact EY]|]. destruct (IH E) as (o' & I & X). exists o'. split; [right; exact I|exact X].
      - destruct (IH E) as (o' & I & X). exists o'. split; [right; exact I|exact X]. }
    destruct Z as (o & I & EX'). apply In_nth_error in I. destruct I as (j & I). destruct (FO j o I) as (_ & _ & S6 & TP). rewrite (last_nth5 _ S6) in TP. rewrite (nth_error_nth _ _ _ EX') in TP. exact TP.
  - rewrite RTM, RD, map_length, ETS, SM. exact LTS.
  - intros i x E. rewrite RTM, ETS, SM in E.
    assert (EM : nth_error (map so_tm_temp outs) i = Some (Some x)) by (rewrite ETS, nth_error_map, E; reflexivity).
    rewrite nth_error_map in EM. destruct (nth_error outs i) as [o|] eqn:EO; [|discriminate]. cbn in EM. injection EM as EM.
    destruct (FO i o EO) as (_ & (x' & _ & X1 & X2) & _). rewrite X1 in EM. injection EM as <-. split; [exact X2|].
    assert (LL : (i < length outs)%nat) by (apply nth_error_Some; rewrite EO; discriminate). pose proof (ABV _ LL). lra.
Qed.
Print Assumptions C76_swing_never_runs_out.

Lemma shortfall_less d d' g i n : (forall k, (i <= k < i + n)%nat -> d k <= d' k) -> shortfall d g i n <= shortfall d' g i n.
Proof.
  intro H. pose proof (shortfall_scale d g d' g 1 i n) as X. rewrite Qmult_1_l in X. apply X. intros k K. specialize (H k K). lra.
Qed.

(** The draws are at most the demand: a primary tank whose hot gallons cover the demand itself is enough. *)
Theorem C76_demand_covered : forall dt p e dur thr maxm e' r total iv vol cold warm start on_t off_t k ret flow tv cap top d,
  eng_new dt p = Ok e -> without_schedule p -> type_of (en_system e) = SwingTank ->
  primary_volume (en_system e) = Some vol -> 0 < vol -> second_plant (en_system e) tv cap -> 0 < tv ->
  ep_return p = Some ret -> ep_flow p = Some flow -> 0 <= loop_kbtuh (ep_supply p) ret flow <= cap ->
  defaulted (ep_on_t p) (ep_supply p) on_t -> defaulted (ep_off_t p) (ep_storage p) off_t ->
  0 <= ep_aq p -> ep_off_sensor p <= ep_aq p -> on_t <= off_t -> on_t <= ep_storage p ->
  cold <= warm -> warm < on_t -> warm < ep_supply p -> ep_supply p < ep_storage p ->
  lasts dur total iv ->
  let b := en_building e in
  (forall t x, bd_inlet b t iv = Ok x -> cold <= x /\ x <= warm) ->
  (forall di, bd_design_inlet b = Ok di -> sim_inlet di = start) -> cold <= start <= warm ->
  0 <= k -> give_at_least b iv (primary_heaters (en_system e)) (ep_storage p) k ->
  (forall n, (Z.of_nat n * iv < total)%Z -> bd_load b (Z.of_nat n) iv false = Ok (d n) /\ 0 <= d n /\ exists x, bd_inlet b (Z.of_nat n) iv = Ok x) ->
  let bring := heated k iv (ep_storage p) cold in
  (forall n, (Z.of_nat n * iv < total)%Z -> d n <= top) ->
  (forall i n, (Z.of_nat (i + n) * iv <= total)%Z -> shortfall d bring i n + top <= hot_reserve vol (28 # 10) (ep_storage p) (ep_aq p) on_t) ->
  (forall n, (Z.of_nat n * iv <= total)%Z -> shortfall d bring 0 n <= hot_reserve vol (28 # 10) (ep_storage p) (ep_aq p) start) ->
  eng_simulate e dur thr maxm = Ok (e', r) ->
  never_out (ep_storage p) (qmin vol (vol * (ep_storage p - ep_supply p) / (100 * (28 # 10)))) thr r /\
  length (sr_tm_temp r) = length (sr_demand r) /\ forall x, In x (sr_tm_temp r) -> ep_supply p <= x.
Proof.
  intros dt p e dur thr maxm e' r total iv vol cold warm start on_t off_t k ret flow tv cap top d H NS TY PV V0 SP TV ER EF [LS0 LSC] ON OFF A0 SO OO OS CW WO WS SS LA b MA DI ST K0 GK LD bring TOP WIN STA SIM.
  assert (Piv : (0 < iv)%Z) by (destruct LA as [(_ & _ & ->)|(_ & _ & ->)]; lia).
  assert (DV : exists N, (Z.of_nat N * iv = total)%Z).
  { exists (Z.to_nat (total / iv)). destruct LA as [(_ & -> & ->)|(_ & -> & ->)]; reflexivity. }
  destruct DV as (N & EN).
  set (mains := fun n => match bd_inlet b (Z.of_nat n) iv with Ok x => x | Err _ => 0 end).
  assert (LD2 : forall n, (Z.of_nat n * iv < total)%Z -> bd_load b (Z.of_nat n) iv false = Ok (d n) /\ 0 <= d n /\ bd_inlet b (Z.of_nat n) iv = Ok (mains n)).
  { intros n L. destruct (LD n L) as (X1 & X2 & x & X3). split; [exact X1|]. split; [exact X2|]. unfold mains. rewrite X3. reflexivity. }
  assert (IT : forall n, (n < N)%nat -> (Z.of_nat n * iv < total)%Z) by (intros n L; rewrite <- EN; apply Z.mul_lt_mono_pos_r; lia).
  assert (TI : forall n, (Z.of_nat n * iv <= total)%Z -> (n <= N)%nat) by (intros n L; rewrite <- EN in L; apply Zmult_le_reg_r in L; lia).
  assert (MS : forall n, (Z.of_nat n * iv < total)%Z -> mains n < ep_supply p) by (intros n L; destruct (LD2 n L) as (_ & _ & E); destruct (MA _ _ E); lra).
  assert (D0 : forall n, (Z.of_nat n * iv < total)%Z -> 0 <= d n) by (intros n L; apply (LD2 n L)).
  destruct (course_exists (ep_supply p) (ep_storage p) tv (loop_kbtuh (ep_supply p) ret flow) cap iv d mains Piv TV LSC SS N) as (temp & on & draw & FED).
  { intros n L. split; [apply MS|apply D0]; apply IT; exact L. }
  rewrite EN in FED.
  assert (LE : forall n, (n < N)%nat -> draw n <= d n).
  { intros n L. apply IT in L. pose proof (fed_above _ _ _ _ _ _ _ _ _ _ _ _ FED Piv TV LSC SS MS D0 n ltac:(lia)) as AB.
    apply (fed_draw _ _ _ _ _ _ _ _ _ _ _ _ FED MS D0 n L AB). }
  destruct (C76_swing_never_runs_out dt p e dur thr maxm e' r total iv vol cold warm start on_t off_t k ret flow tv cap top d mains temp on draw) as (NO & LT & TT); try assumption.
  - split; assumption.
  - intros n L. eapply Qle_trans; [apply LE|apply TOP; exact L]. rewrite <- EN in L. apply Z.mul_lt_mono_pos_r in L; lia.
  - intros i n L. specialize (WIN i n L). apply TI in L. fold bring. assert (shortfall draw bring i n <= shortfall d bring i n) by (apply shortfall_less; intros j J; apply LE; lia). lra.
  - intros n L. specialize (STA n L). apply TI in L. fold bring. assert (shortfall draw bring 0 n <= shortfall d bring 0 n) by (apply shortfall_less; intros j J; apply LE; lia). lra.
  - split; [exact NO|]. split; [exact LT|]. intros x I. apply In_nth_error in I. destruct I as (i & I). apply (TT i x I).
Qed.
Print Assumptions C76_demand_covered.

(** On the three design days, counted per hour: if a day brings at least the demand of a day, [R] bounds what up to
    a day's stretch of whole hours takes beyond what it brings, the hot gallons left when the aquastat calls
    exceed [R] by one minute of the busiest hour and those at the start are at least [R], the water never runs out. *)
Theorem C76_design_day : forall dt p e thr maxm e' r vol inlet on_t off_t k ret flow tv cap R,
  eng_new dt p = Ok e -> without_schedule p -> type_of (en_system e) = SwingTank ->
  primary_volume (en_system e) = Some vol -> 0 < vol -> second_plant (en_system e) tv cap -> 0 < tv ->
  ep_return p = Some ret -> ep_flow p = Some flow -> 0 <= loop_kbtuh (ep_supply p) ret flow <= cap ->
  defaulted (ep_on_t p) (ep_supply p) on_t -> defaulted (ep_off_t p) (ep_storage p) off_t ->
  0 <= ep_aq p -> ep_off_sensor p <= ep_aq p -> on_t <= off_t -> on_t <= ep_storage p ->
  inlet < on_t -> inlet < ep_supply p -> ep_supply p < ep_storage p ->
  let b := en_building e in
  length (bd_peak b) = 24%nat -> 0 <= bd_daily b -> (forall x, In x (bd_peak b) -> 0 <= x) ->
  mains e inlet -> ~ inlet == 0 -> (forall t, exists x, bd_inlet b t 1 = Ok x /\ x == inlet) ->
  0 <= k -> give_at_least b 1 (primary_heaters (en_system e)) (ep_storage p) k ->
  let bring := heated k 60 (ep_storage p) inlet in
  shortfall (wanted b) bring 0 24 <= 0 ->
  (forall start n, (start < 24)%nat -> (n <= 24)%nat -> shortfall (wanted b) bring start n <= R) ->
  (forall h, (h < 24)%nat -> R + wanted b h / 60 <= hot_reserve vol (28 # 10) (ep_storage p) (ep_aq p) on_t) ->
  R <= hot_reserve vol (28 # 10) (ep_storage p) (ep_aq p) inlet ->
  eng_simulate e "3day" thr maxm = Ok (e', r) ->
  never_out (ep_storage p) (qmin vol (vol * (ep_storage p - ep_supply p) / (100 * (28 # 10)))) thr r /\
  length (sr_tm_temp r) = length (sr_demand r) /\ forall x, In x (sr_tm_temp r) -> ep_supply p <= x.
Proof.
  intros dt p e thr maxm e' r vol inlet on_t off_t k ret flow tv cap R H NS TY PV V0 SP TV ER EF LS ON OFF A0 SO OO OS IO IS SS b L24 D0 PK MA N0 MI K0 GK bring DAY WIN TOP STA SIM.
  set (d := fun n : nat => bd_daily b * nth (n / 60 mod 24) (bd_peak b) 0 * qz 1 / 60).
  assert (NN : forall n, wanted b (n / 60)%nat / 60 == d n) by (intro n; unfold wanted, d; change (qz 1) with 1; field).
  assert (BB : bring / 60 == heated k 1 (ep_storage p) inlet).
  { unfold bring, heated. change (qz 60) with 60. change (qz 1) with 1. field. repeat split; (lra || exact rho_nz || discriminate). }
  assert (P24 : forall n, wanted b (n + 24)%nat = wanted b n).
  { intro n. unfold wanted. replace ((n + 24) mod 24)%nat with (n mod 24)%nat; [reflexivity|]. replace (n + 24)%nat with (n + 1 * 24)%nat by lia. rewrite Nat.mod_add by lia. reflexivity. }
  assert (PM : forall n, wanted b (n mod 24)%nat = wanted b n) by (intro n; unfold wanted; rewrite Nat.mod_mod by lia; reflexivity).
  pose proof (shortfall_day (wanted b) bring R P24 DAY WIN) as W.
  assert (SF : forall i n, shortfall d (heated k 1 (ep_storage p) inlet) i n <= R).
  { intros i n. rewrite (shortfall_ext _ (fun k => wanted b (k / 60)%nat / 60) _ (bring / 60)); [apply minutes_covered; exact W|].
    intros j _. rewrite NN, BB. reflexivity. }
  apply (C76_demand_covered dt p e "3day" thr maxm e' r 4320 1 vol inlet inlet inlet on_t off_t k ret flow tv cap (hot_reserve vol (28 # 10) (ep_storage p) (ep_aq p) on_t - R) d); try assumption; try lra.
  - left. auto.
  - intros t x E. destruct (MI t) as (x' & E' & X). fold b in E. rewrite E in E'. apply ok_inj in E'. subst x'. lra.
  - exact (mains_start e inlet MA N0).
  - intros n _. split; [apply load_minute; exact L24|]. split.
    + unfold d. apply qdiv_nonneg; [|reflexivity]. change (qz 1) with 1. rewrite Qmult_1_r. apply Qmult_le_0_compat; [exact D0|].
      apply PK. apply nth_In. rewrite L24. apply Nat.mod_upper_bound. lia.
    + destruct (MI (Z.of_nat n)) as (x & E & _). exists x. exact E.
  - intros n _. rewrite <- NN, <- PM. specialize (TOP (n / 60 mod 24)%nat (Nat.mod_upper_bound (n / 60) 24 (Nat.neq_succ_0 23))). lra.
  - intros i n _. specialize (SF i n). lra.
  - intros n _. specialize (SF 0%nat n). lra.
Qed.
Print Assumptions C76_design_day.

(** ** A case *)

Definition ex_swing : eparams := with_plant (ex_low "swing_tank") 2000 100 (Some 80) (Some 20).

Lemma ex_swing_windows : forallb (fun i => forallb (fun n =>
  Qle_bool (shortfall (wanted (mkBuilding (Some (cz_from_design (Some 30) (Some 50))) 1000 ex_shape ex_shape "custom")) 119 i n) 300) (seq 0 25)) (seq 0 24) = true.
Proof. vm_compute. reflexivity. Qed.

Lemma ex_swing_built : exists e, eng_new ex_data ex_swing = Ok e /\ type_of (en_system e) = SwingTank /\
  Forall rated (primary_heaters (en_system e)) /\ second_plant (en_system e) 80 20 /\
  (forall v h, second_tank (en_system e) = Some (v, h) -> 0 < v /\ rated h).
Proof.
  eexists. split; [vm_compute; reflexivity|]. split; [reflexivity|]. split; [|split].
  - cbn [en_system primary_heaters ws_heaters]. repeat apply Forall_cons; try apply Forall_nil; apply nominal_rated; discriminate.
  - eexists. split; [reflexivity|]. intros oat top. reflexivity.
  - cbn [en_system second_tank]. intros v h TH. injection TH as <- <-. split; [reflexivity|apply nominal_rated; discriminate].
Qed.

(** 1000 gallons a day with 125 in the busy hours, from a 2000 gallon tank with 100 kBTU/h, an 80 gallon swing tank
    and an element of 20 kBTU/h for a loop that loses 15. *)
Example C76_case : exists e e' r, eng_new ex_data ex_swing = Ok e /\ type_of (en_system e) = SwingTank /\
  eng_simulate e "3day" 5 60 = Ok (e', r) /\
  never_out 150 (qmin 2000 (2000 * (150 - 120) / (100 * (28 # 10)))) 5 r /\
  length (sr_tm_temp r) = length (sr_demand r) /\ forall x, In x (sr_tm_temp r) -> 120 <= x.
Proof.
  set (b := mkBuilding (Some (cz_from_design (Some 30) (Some 50))) 1000 ex_shape ex_shape "custom").
  assert (EB : eng_building ex_data ex_swing = Ok b) by reflexivity.
  destruct ex_swing_built as (e & N & T & PH & SP & ST).
  assert (Eb : en_building e = b) by exact (C67_building _ _ _ _ N EB eq_refl).
  assert (NI : type_of (en_system e) <> InstantWH) by (rewrite T; discriminate).
  assert (PV : primary_volume (en_system e) = Some 2000) by exact (proj2 (proj2 (C52_parts _ _ _ N)) NI).
  assert (MI : forall t, exists x, bd_inlet b t 1 = Ok x /\ x == 50) by (intro t; exists 50; split; reflexivity).
  destruct (C65_completes ex_data _ e "3day" 5 60 N) as (e' & r & SIM); try assumption.
  - intros ls h [X _]. discriminate X.
  - rewrite Eb. split; [discriminate|]. split; [discriminate|]. eexists. split; [reflexivity|]. split; left; discriminate.
  - left. reflexivity.
  - rewrite T. discriminate.
  - intros _. exists 2000. split; [exact PV|reflexivity].
  - intros _ t iv x X. rewrite Eb in X. cbn in X. apply ok_inj in X. subst x. discriminate.
  - rewrite T. discriminate.
  - exists e, e', r. split; [exact N|]. split; [exact T|]. split; [exact SIM|].
    assert (BR : 119 <= heated 100 60 150 50) by (vm_compute; discriminate).
    assert (W : forall i n, (i < 24)%nat -> (n <= 24)%nat -> shortfall (wanted b) (heated 100 60 150 50) i n <= 300).
    { intros i n LI LN. pose proof ex_swing_windows as X. rewrite forallb_forall in X. specialize (X i ltac:(apply in_seq; lia)). rewrite forallb_forall in X. specialize (X n ltac:(apply in_seq; lia)).
      apply Qle_bool_iff in X. eapply Qle_trans; [|exact X]. fold b. pose proof (shortfall_scale (wanted b) (heated 100 60 150 50) (wanted b) 119 1 i n) as S1. rewrite Qmult_1_l in S1. apply S1. intros j _. lra. }
    assert (DAY : shortfall (wanted b) (heated 100 60 150 50) 0 24 <= 0) by (vm_compute; discriminate).
    apply (C76_design_day ex_data ex_swing e 5 60%Z e' r 2000 50 120 150 100 110 3 80 20 300 N); rewrite ?Eb; try assumption; try reflexivity; try discriminate.
    + intros ls [X _]. discriminate X.
    + split; discriminate.
    + intros x I. unfold b in I. cbn in I. repeat (destruct I as [<-|I]; [discriminate|]). destruct I.
    + unfold mains. rewrite Eb. reflexivity.
    + rewrite <- Eb. refine (plant_output ex_data (ex_low "swing_tank") e 2000 100 (Some 80) (Some 20) N _ NI _ _ _ _ _); discriminate.
    + intros h LH. assert (WA : wanted b h <= 125).
      { unfold wanted. change (bd_daily b) with 1000. assert (X : nth (h mod 24) (bd_peak b) 0 <= 1 # 8).
        { assert (Y : forall x, In x ex_shape -> x <= 1 # 8) by (intros x I; cbn in I; repeat (destruct I as [<-|I]; [discriminate|]); destruct I).
          destruct (nth_in_or_default (h mod 24) ex_shape 0) as [I|Z0]; [exact (Y _ I)|]. change (nth (h mod 24) ex_shape 0 <= 1 # 8). rewrite Z0. discriminate. }
        lra. }
      assert (WB : wanted b h / 60 <= 3) by (apply qdiv_le_iff; [reflexivity|lra]). eapply Qle_trans; [apply Qplus_le_r; exact WB|]. vm_compute. discriminate.
Qed.
