(** Swing-tank systems whose primary tank keeps a fully hot part. *)
From Verif Require Import Prelude M_StratifiedTank S_StratifiedTank L_StratifiedTank L_StratifiedTank2 L_StratifiedTank3
  M_MixedTank L_MixedTank M_Building L_Building M_Heater S_Heater L_Heater M_SimRun S_SimRun L_SimMisc M_Step S_Step L_Step L_Step2 L_Step3 L_Step4 L_Step5 L_Step6
  M_Engine S_Engine S_EngineRun S_Lasts S_Lasts2 L_Lasts L_Lasts2.
Open Scope Q_scope.

(** A physical draw out of the hot part. *)
Lemma physical_hot t g inlet supply h : st_wf t -> 0 <= g -> g <= hot t h -> supply <= h ->
  exists t', st_draw_physical t g inlet (Some supply) = Ok t' /\ st_vol t' = st_vol t /\ st_slope t' = st_slope t /\ st_inlet t' = inlet /\ st_outlet t' = st_outlet t /\
    hot t' h == hot t h - g.
Proof.
  intros W G L SH. unfold st_draw_physical. destruct (qltb 0 g) eqn:E; qbool.
  - rewrite st_floor_ok by exact W. cbn [bind]. eexists. split; [reflexivity|]. repeat split; auto.
    unfold hot in *. cbn [set_delta set_inlet st_delta]. set (t1 := set_delta (set_inlet t inlet) (st_delta t - g)).
    change (floor_delta (set_delta t1 (qmax (st_delta t - g) (floor_delta t1 supply))) h) with (floor_delta t h).
    change (floor_delta t1 supply) with (floor_delta t supply).
    assert (F : floor_delta t supply <= floor_delta t h).
    { destruct W as [V P]. unfold floor_delta. apply Qmult_le_compat_r; [|discriminate]. apply Qmult_le_compat_r; [|lra].
      assert ((supply - st_inter t) / st_slope t <= (h - st_inter t) / st_slope t).
      { apply qdiv_le_iff; [exact P|]. assert ((h - st_inter t) / st_slope t * st_slope t == h - st_inter t) by (field; lra). lra. }
      lra. }
    qmm; lra.
  - eexists. split; [reflexivity|]. repeat split; auto. assert (g == 0) by lra. change (hot t h == hot t h - g). lra.
Qed.

(** ** The swing tank fed hot *)

Lemma warms_nonneg k tv iv : 0 <= k -> 0 < tv -> (0 < iv)%Z -> 0 <= warms k tv iv.
Proof.
  intros K V I. unfold warms. assert (R : 0 < rho_cp) by reflexivity. apply qdiv_nonneg; [|apply Qmult_lt_0_compat; lra].
  apply qdiv_nonneg; [|reflexivity]. apply Qmult_le_0_compat; [lra|apply qz_nonneg; lia].
Qed.
Lemma warms_mono k k' tv iv : k <= k' -> 0 < tv -> (0 < iv)%Z -> warms k tv iv <= warms k' tv iv.
Proof.
  intros K V I. assert (0 <= warms (k' - k) tv iv) by (apply warms_nonneg; [lra|exact V|exact I]).
  assert (R : 0 < rho_cp) by reflexivity.
  assert (warms (k' - k) tv iv == warms k' tv iv - warms k tv iv) by (unfold warms; field; repeat split; (lra || discriminate)). lra.
Qed.

Section Fed.
Variables (supply storage tv loss cap : Q) (iv : Z) (total : Z) (d mains temp : nat -> Q) (on : nat -> bool) (draw : nat -> Q).
Hypothesis F : fed_hot supply storage tv loss cap iv total d mains temp on draw.
Hypotheses (Piv : (0 < iv)%Z) (Ptv : 0 < tv) (L0 : 0 <= loss) (LC : loss <= cap) (SS : supply < storage).
Hypothesis Hm : forall n, (Z.of_nat n * iv < total)%Z -> mains n < supply.
Hypothesis Hd : forall n, (Z.of_nat n * iv < total)%Z -> 0 <= d n.

Lemma fed_draw n : (Z.of_nat n * iv < total)%Z -> supply <= temp n -> 0 <= draw n /\ draw n <= d n /\ draw n == d n * (supply - mains n) / (temp n - mains n).
Proof.
  intros L T. pose proof (Hm n L) as M. pose proof (Hd n L) as D. pose proof (fh_draw _ _ _ _ _ _ _ _ _ _ _ _ F n L) as E.
  assert (P : 0 < temp n - mains n) by lra.
  assert (EQ : draw n == d n * (supply - mains n) / (temp n - mains n)) by (apply Qmult_inj_r with (temp n - mains n); [lra|]; rewrite E; field; lra).
  split; [|split; [|exact EQ]]; rewrite EQ.
  - apply qdiv_nonneg; [apply Qmult_le_0_compat; lra|exact P].
  - apply qdiv_le_iff; [exact P|]. assert (0 <= d n * (temp n - supply)) by (apply Qmult_le_0_compat; lra). lra.
Qed.

Lemma fed_above n : (Z.of_nat n * iv <= total)%Z -> supply <= temp n.
Proof.
  induction n as [|n IH]; intro L.
  - pose proof (fh_start _ _ _ _ _ _ _ _ _ _ _ _ F). lra.
  - assert (L' : (Z.of_nat n * iv < total)%Z) by nia. specialize (IH ltac:(lia)).
    destruct (fed_draw n L' IH) as (D0 & _ & _).
    destruct (fh_next _ _ _ _ _ _ _ _ _ _ _ _ F n L') as (x & EX & ON & ET).
    assert (MIX : supply <= temp n + qmin (draw n) tv * (storage - temp n) / tv).
    { set (m := qmin (draw n) tv). assert (M : 0 <= m <= tv) by (unfold m; split; qmm; lra).
      destruct (mix_between tv m (temp n) storage supply (qmax storage (temp n)) (temp n + m * (storage - temp n) / tv)) as [B _]; try lra; try (apply qmax_l); try (apply qmax_r).
      field. lra. }
    destruct (on (S n)) eqn:EO.
    + pose proof (warms_mono loss cap tv iv LC Ptv Piv). lra.
    + assert (~ x < (if on n then supply + 8 else supply)) by (intro X; apply ON in X; discriminate).
      assert (supply <= x) by (destruct (on n); lra). lra.
Qed.
End Fed.

(** ** One step *)

Definition wcore (w : wsys) : bsys := mkBsys (ws_heaters w) (Some (ws_tank w)) (ws_supply w) (ws_storage w).

Section SwingStep.
Variables (b : building) (iv : Z) (hs0 : list heater) (supply storage vol slope cold warm K aq on_t offs off_t : Q).
Hypotheses (Piv : (0 < iv)%Z) (Pvol : 0 < vol) (Pslope : 0 < slope).
Hypotheses (Hcold : cold <= warm) (Hwarm : warm < on_t) (Hon : on_t <= storage) (Hsup : warm < supply) (Hsto : supply < storage).
Hypotheses (Hoff : on_t <= off_t) (Hsens : offs <= aq).
Hypothesis Hmains : forall t x, bd_inlet b t iv = Ok x -> cold <= x /\ x <= warm.
Hypothesis Hctl : forall h hour c, In h hs0 -> in_effect h hour c -> c = mkControls aq on_t offs off_t storage.
Hypothesis Hplain : existsb wh_load_shifting hs0 = false.
Hypothesis HK0 : 0 <= K.
Hypothesis HK : give_at_least b iv hs0 storage K.

Variables (el0 : heater) (ret flow tv loss cap : Q).
Hypotheses (Ptv : 0 < tv) (L0 : 0 <= loss) (LC : loss <= cap) (Eloss : loss == flow * (supply - ret) * rho_cp * 60 / 1000).
Hypothesis Hel : forall hour c, in_effect el0 hour c -> ct_on_trigger c = supply /\ ct_off_trigger c = supply + 8.
Hypothesis Hcap : forall oat top, wh_capacity el0 (Some oat) top None = Ok (Some cap).

Let Yon := hot_reserve vol slope storage aq on_t.
Let G := heated K iv storage cold.

Record swing_hot (w : wsys) (a : bool) (y T : Q) (e : bool) : Prop := {
  sh_primary : hot_state hs0 supply storage vol slope cold warm (wcore w) a y;
  sh_return : ws_return w = ret;
  sh_flow : ws_flow w = flow;
  sh_vol : mx_vol (ws_swing w) = tv;
  sh_temp : mx_temp (ws_swing w) == T;
  sh_element : same_heater el0 (ws_element w);
  sh_on : wh_active (ws_element w) = e }.

Definition swing_out (T : Q) (o : step_out) : Prop :=
  qmin vol (vol * (storage - supply) / (100 * slope)) <= so_usable o /\ (exists x, so_delivery o = Some x /\ so_tm_temp o = Some x /\ x == T) /\
  length (so_temps o) = 6%nat /\ last (so_temps o) 0 == storage.

Lemma swing_hot_step t w w' o a y T e d mains draw e' T' left_ :
  swing_sim_step b w t iv = Ok (w', o) -> swing_hot w a y T e ->
  bd_load b t iv false = Ok d -> 0 <= d -> bd_inlet b t iv = Ok mains ->
  supply <= T -> draw == d * (supply - mains) / (T - mains) ->
  left_ == T + qmin draw tv * (storage - T) / tv - warms loss tv iv ->
  (e' = true <-> left_ < (if e then supply + 8 else supply)) ->
  T' == left_ + (if e' then warms cap tv iv else 0) ->
  exists a' y1, (a' = false -> Yon <= y /\ y <= y1) /\ (a' = true -> qmin (y + G) vol <= y1) /\ y1 <= vol /\
    (draw <= y1 -> exists y', y1 - draw <= y' /\ swing_hot w' a' y' T' e' /\ swing_out T' o).
Proof.
  intros H [[SH FL ES EG YV (tk & ET & EV & EL & IC & IW & EO & EY)] ER EF MV MT SE SO] LD D0 MI TS ED ELf EE ET'.
  cbn [wcore bs_heaters bs_tank bs_supply bs_storage] in *. injection ET as <-.
  destruct (swing_step_inv _ _ _ _ _ _ H) as (outlet & hs & tk1 & hw & feed & sw1 & sw2 & el & sw3 & tk2 & tmo & Ed & Eo & Ei & Eout & Ehs & Eq & E1 & Ehw & Ef & Es1 & Es2 & Eel & Etm & (hx & Es3) & E2 & Eu & Ets & -> & Ett & _ & _ & Edel & _).
  pose proof (proj1 (hour_of_range t iv)) as Hh.
  set (tk := ws_tank w) in *. assert (W : st_wf tk) by (split; [rewrite EV|rewrite EL]; assumption).
  rewrite EG in Eout. pose proof (outlet_storage hs0 storage aq on_t offs off_t Hctl _ _ _ Hh SH Eout) as ->.
  pose proof (aquastats_of _ _ _ _ Hh Ehs) as AQ. pose proof (aquastats_same _ _ _ _ AQ) as SS. pose proof (same_all_trans _ _ _ SH SS) as SH'.
  destruct (total_output_spec _ _ _ _ _ Hh Eq) as (l & HG & EQ).
  assert (IE : forall h, In h hs -> exists c, in_effect h (hour_of t iv) c).
  { clear - HG. induction HG as [|h x hs l (c & E & _) H IH]; intros h' I; [destruct I|]. destruct I as [<-|I]; [exists c; exact E|exact (IH h' I)]. }
  destruct (flags hs0 storage aq on_t offs off_t Hctl tk (ws_heaters w) hs (hour_of t iv) a W Hh SH FL AQ IE) as (a' & FL' & T1 & T2).
  destruct (output_flags b iv hs0 storage K aq on_t offs off_t Hctl HK hs l _ _ _ t a' Hh SH' FL' Eo Ei HG) as [Z0 Z1].
  rewrite (shifting_same _ _ SH), Hplain in Ed. rewrite LD in Ed. apply ok_inj in Ed. rewrite <- Ed in *. rewrite MI in Ei. apply ok_inj in Ei. rewrite <- Ei in *.
  assert (IS : st_inlet tk < storage) by lra.
  destruct (heat_hot tk (so_output o) (qz iv) storage W IS) as (tk1' & E1' & V1 & L1 & I1 & O1 & N1 & P1). rewrite E1 in E1'. apply ok_inj in E1'. subst tk1'.
  exists a', (hot tk1 storage).
  assert (Cap1 : hot tk1 storage <= vol).
  { destruct (Qlt_le_dec 0 (so_output o)) as [X|X]; [rewrite (P1 X), EV; qmm; lra|rewrite (N1 X); lra]. }
  split. { intros ->. assert (OZ : so_output o <= 0) by (rewrite EQ; rewrite (Z0 eq_refl); lra). rewrite (N1 OZ).
    split; [|lra]. destruct (Qlt_le_dec y Yon) as [X|X]; [exfalso|exact X].
    assert (tval tk aq < on_t). { apply (temp_hot tk storage aq on_t W EO); [lra|exact Hon|]. rewrite EV, EL, EY. exact X. }
    destruct a; [|specialize (T1 eq_refl eq_refl); lra]. specialize (T2 eq_refl eq_refl). pose proof (tval_mono tk offs aq W Hsens). lra. }
  split. { intros ->. specialize (Z1 eq_refl). rewrite <- EQ in Z1. destruct (Qlt_le_dec 0 (so_output o)) as [X|X].
    - rewrite (P1 X), EV, EY. pose proof (heated_le K (so_output o) iv storage cold (st_inlet tk) HK0 Z1 Piv IC IS) as HL. fold G in HL. qmm; lra.
    - rewrite (N1 X), EY. assert (KZ : K == 0) by lra. assert (GZ : G == 0).
      { unfold G, heated. rewrite KZ. field. split; [lra|discriminate]. }
      rewrite GZ. qmm; lra. }
  split; [exact Cap1|]. intros LE.
  destruct (Hmains _ _ MI) as [M1 M2].
  assert (W1 : st_wf tk1) by (split; [rewrite V1, EV|rewrite L1, EL]; assumption).
  (* the draw *)
  assert (HW : hw == draw).
  { unfold swing_draw, mx_temp_at in Ehw. rewrite ES in Ehw. destruct (qltb supply (mx_temp (ws_swing w))) eqn:Q; qbool.
    - rewrite qdiv_ok in Ehw by lra. apply ok_inj in Ehw. rewrite <- Ehw, ED. rewrite MT. reflexivity.
    - apply ok_inj in Ehw. rewrite <- Ehw. rewrite ED. assert (X : T == supply) by lra. rewrite X. field. lra. }
  assert (B0 : 0 <= draw) by (rewrite ED; apply qdiv_nonneg; [apply Qmult_le_0_compat; lra|lra]).
  (* the feed *)
  assert (FE : 0 < hw -> feed == storage).
  { intro P. destruct (avg_hot tk1 hw W1) as (x & X1 & X2); [rewrite O1, I1; lra|exact P|rewrite O1; lra|rewrite O1, V1, EV; exact Cap1|].
    rewrite Ef in X1. apply ok_inj in X1. subst x. rewrite X2, O1. reflexivity. }
  (* the swing tank *)
  assert (VW : 0 < mx_vol (ws_swing w)) by (rewrite MV; exact Ptv).
  destruct (mx_inflow_cases (ws_swing w) hw feed VW) as (x & Ex & XC). rewrite Es1 in Ex. apply ok_inj in Ex. subst x.
  destruct XC as [EV1 XC].
  assert (S1 : mx_temp sw1 == T + qmin draw tv * (storage - T) / tv).
  { destruct XC as [[X ->]|[(X1 & X2 & X3)|(X1 & X2 & X3)]].
    - assert (Z : draw == 0) by lra. assert (Y : qmin draw tv == 0) by (qmm; lra). rewrite Y, MT. field. lra.
    - rewrite MV in X1. assert (Y : qmin draw tv == tv) by (qmm; lra). rewrite Y, X3, (FE X2). field. lra.
    - rewrite MV in X2, X3. assert (Y : qmin draw tv == draw) by (qmm; lra). rewrite Y. rewrite (FE X1), MT, HW in X3.
      apply Qmult_inj_l with tv; [lra|]. rewrite X3. field. lra. }
  assert (WL : ws_loss w == loss) by (unfold ws_loss; rewrite ES, ER, EF, Eloss; reflexivity).
  assert (VP1 : 0 < mx_vol sw1) by (rewrite EV1; exact VW).
  assert (WL0 : 0 <= ws_loss w) by (rewrite WL; exact L0).
  destruct (fixed_loss_keeps sw1 (ws_loss w) (qz iv) sw2 VP1 WL0 (qz_nonneg iv ltac:(lia)) Es2) as [EV2 T2'].
  assert (S2 : mx_temp sw2 == left_).
  { rewrite T2', EV1, MV, WL, ELf, S1. unfold warms. field. repeat split; (lra || exact rho_nz). }
  assert (VP2 : 0 < mx_vol sw2) by (rewrite EV2; exact VP1).
  destruct (wh_update_same _ _ _ _ Eel) as (U1 & U2 & U3).
  assert (SE2 : same_heater el0 el) by (apply same_heater_trans with (ws_element w); [exact SE|split; [exact U1|split; assumption]]).
  (* the element *)
  assert (EFF : exists c, in_effect (ws_element w) (hour_of t iv) c).
  { unfold wh_update in Eel. destruct (bind_ok _ _ _ Eel) as ([c|] & Ec & X); [|discriminate]. exists c. apply in_effect_iff; [exact Hh|exact Ec]. }
  destruct EFF as (c & IEc). destruct SE as (SE0 & SE1 & SEM).
  destruct (Hel (hour_of t iv) c (proj1 (in_effect_same _ _ _ _ SE1 SEM) IEc)) as [ON OFF].
  destruct (c30_step _ _ _ _ Hh Eel) as [K1 K2].
  assert (CON : calls_on (ws_element w) (fun f : Q => Ok (mx_temp_at sw2 f), hour_of t iv) <-> mx_temp sw2 < supply).
  { unfold calls_on. cbn [fst snd]. split.
    - intros (c' & x & Ic' & Hx & Lx). rewrite <- (in_effect_unique _ _ _ _ IEc Ic') in *. apply ok_inj in Hx. unfold mx_temp_at in Hx. subst x. rewrite ON in Lx. exact Lx.
    - intro Lx. exists c, (mx_temp sw2). split; [exact IEc|]. split; [reflexivity|rewrite ON; exact Lx]. }
  assert (COF : calls_off (ws_element w) (fun f : Q => Ok (mx_temp_at sw2 f), hour_of t iv) <-> supply + 8 <= mx_temp sw2).
  { unfold calls_off. cbn [fst snd]. split.
    - intros (c' & x & Ic' & Hx & Lx). rewrite <- (in_effect_unique _ _ _ _ IEc Ic') in *. apply ok_inj in Hx. unfold mx_temp_at in Hx. subst x. rewrite OFF in Lx. exact Lx.
    - intro Lx. exists c, (mx_temp sw2). split; [exact IEc|]. split; [reflexivity|rewrite OFF; exact Lx]. }
  assert (AE : wh_active el = e').
  { rewrite SO in K1, K2. destruct e.
    - specialize (K2 eq_refl). destruct (Qlt_le_dec (mx_temp sw2) (supply + 8)) as [X|X].
      + rewrite (proj2 EE) by lra. destruct (wh_active el); [reflexivity|]. pose proof (proj1 COF (proj1 K2 eq_refl)). lra.
      + rewrite (proj2 K2) by (apply COF; exact X). destruct e'; [|reflexivity]. pose proof (proj1 EE eq_refl). lra.
    - specialize (K1 eq_refl). destruct (Qlt_le_dec (mx_temp sw2) supply) as [X|X].
      + rewrite (proj2 EE) by lra. apply K1, CON. exact X.
      + destruct (wh_active el); [pose proof (proj1 CON (proj1 K1 eq_refl)); lra|]. destruct e'; [|reflexivity]. pose proof (proj1 EE eq_refl). lra. }
  assert (TMO : tmo = if e' then cap else 0).
  { unfold wh_output in Etm. rewrite AE in Etm. destruct e'; cbn [negb] in Etm; [|apply ok_inj in Etm; congruence].
    assert (CA : wh_capacity el (Some (so_oat o)) (mx_temp sw2) None = Ok (Some cap)).
    { rewrite <- (Hcap (so_oat o) (mx_temp sw2)). unfold wh_capacity. destruct SE2 as (-> & _). reflexivity. }
    rewrite CA in Etm. cbn [bind] in Etm. apply ok_inj in Etm. congruence. }
  assert (TN : 0 <= tmo) by (rewrite TMO; destruct e'; lra).
  destruct (mx_heat_keeps sw2 tmo (qz iv) hx sw3 VP2 TN Es3) as [EV3 T3].
  assert (S3 : mx_temp sw3 == T').
  { rewrite T3, S2, ET', EV2, EV1, MV, TMO. destruct e'; unfold warms; field; repeat split; (lra || exact rho_nz). }
  (* the primary tank *)
  rewrite ES in *.
  destruct (physical_hot tk1 hw mains supply storage W1) as (tk2' & E2' & V2 & L2 & I2 & O2 & Y2); [lra|lra|lra|].
  rewrite E2 in E2'. apply ok_inj in E2'. subst tk2'.
  assert (W2 : st_wf tk2) by (split; [rewrite V2, V1, EV|rewrite L2, L1, EL]; assumption).
  assert (HT : 0 <= hot tk2 storage) by lra. assert (HT2 : hot tk2 storage <= vol) by lra.
  exists (hot tk2 storage). split; [lra|]. split.
  - constructor; cbn [ws_return ws_flow ws_swing ws_element]; try assumption; [|congruence].
    constructor; cbn [wcore ws_heaters ws_tank ws_supply ws_storage bs_heaters bs_supply bs_storage bs_tank]; try assumption; [reflexivity|].
    exists tk2. split; [reflexivity|]. split; [congruence|]. split; [congruence|]. rewrite I2. split; [exact M1|]. split; [exact M2|]. split; [congruence|reflexivity].
  - destruct (qltb (mx_temp (ws_swing w)) supply) eqn:Q; qbool; [exfalso; lra|].
    pose proof (usable_hot tk2 storage supply (so_usable o) W2) as U. rewrite V2, V1, EV, L2, L1, EL in U. specialize (U (conj HT HT2) ltac:(lra) Eu).
    destruct (six_sorted tk2 _ W2 Ets) as (S6 & _). split; [rewrite U; qmm; lra|]. split; [exists (mx_temp sw3); auto|]. split; [exact S6|].
    rewrite six_temps_ok in Ets by exact W2. apply ok_inj in Ets. rewrite <- Ets. change (last (map (tval tk2) six_heights) 0) with (tval tk2 1).
    apply top_hot; [exact W2|congruence|rewrite I2; lra|exact HT].
Qed.

(** ** All steps *)

Variables (d mains temp : nat -> Q) (on : nat -> bool) (draw : nat -> Q) (top Y0 : Q) (N : nat) (total : Z).
Hypothesis EN : (Z.of_nat N * iv = total)%Z.
Hypothesis Hfed : fed_hot supply storage tv loss cap iv total d mains temp on draw.
Hypothesis Hd : forall k, (k < N)%nat -> bd_load b (Z.of_nat k) iv false = Ok (d k) /\ 0 <= d k /\ bd_inlet b (Z.of_nat k) iv = Ok (mains k).
Hypothesis Htop : forall k, (k < N)%nat -> draw k <= top.
Hypothesis Hwin : forall i n, (i + n <= N)%nat -> shortfall draw G i n + top <= Yon.
Hypothesis Hstart : forall n, (n <= N)%nat -> shortfall draw G 0 n <= Y0.
Hypothesis Hcapv : Yon <= vol.

Lemma in_time k : (Z.of_nat k * iv < total)%Z -> (k < N)%nat.
Proof. intro L. rewrite <- EN in L. apply Z.mul_lt_mono_pos_r in L; lia. Qed.

Lemma run_swing_hot : forall outs n w a y w', (n + length outs <= N)%nat -> swing_hot w a y (temp n) (on n) -> Kept draw G top Yon Y0 n y ->
  executed (swing_sim_step b) iv w (Z.of_nat n) outs w' -> forall i o, nth_error outs i = Some o -> swing_out (temp (S (n + i))) o.
Proof.
  assert (Hm : forall n, (Z.of_nat n * iv < total)%Z -> mains n < supply).
  { intros n L. destruct (Hd n (in_time n L)) as (_ & _ & E). destruct (Hmains _ _ E). lra. }
  assert (H0 : forall n, (Z.of_nat n * iv < total)%Z -> 0 <= d n) by (intros n L; destruct (Hd n (in_time n L)) as (_ & E & _); exact E).
  induction outs as [|o outs IH]; intros n w a y w' L HS KP EX i oi EI; [destruct i; discriminate|]. cbn in L. destruct EX as (w1 & E & EX).
  assert (LT : (Z.of_nat n * iv < total)%Z) by (rewrite <- EN; apply Z.mul_lt_mono_pos_r; lia).
  destruct (Hd n ltac:(lia)) as (EL & D0 & EI0).
  pose proof (fed_above _ _ _ _ _ _ _ _ _ _ _ _ Hfed Piv Ptv LC Hsto Hm H0 n ltac:(lia)) as TS.
  destruct (fed_draw _ _ _ _ _ _ _ _ _ _ _ _ Hfed Hm H0 n LT TS) as (B0 & _ & ED).
  destruct (fh_next _ _ _ _ _ _ _ _ _ _ _ _ Hfed n LT) as (x & X1 & X2 & X3).
  destruct (swing_hot_step _ _ _ _ _ _ _ _ _ _ _ _ _ _ E HS EL D0 EI0 TS ED X1 X2 X3) as (a' & y1 & A1 & A2 & A3 & A5).
  assert (KN : Kept draw G top Yon Y0 (S n) (y1 - draw n)).
  { apply (kept_step draw G top Yon Y0 vol N Htop Hcapv n y); [lia|exact KP|]. destruct a'; [right; specialize (A2 eq_refl); lra|left; destruct (A1 eq_refl); lra]. }
  pose proof (kept_nonneg draw G top Yon Y0 N Hwin Hstart (S n) (y1 - draw n) ltac:(lia) KN) as NN.
  destruct (A5 ltac:(lra)) as (y' & Y1 & HS' & HO). destruct i as [|i].
  - cbn in EI. injection EI as <-. rewrite Nat.add_0_r. exact HO.
  - cbn in EI. rewrite Nat.add_succ_r, <- Nat.add_succ_l.
    assert (L2 : (S n + length outs <= N)%nat) by lia. replace (Z.of_nat n + 1)%Z with (Z.of_nat (S n)) in EX by lia.
    refine (IH (S n) w1 a' y' w' L2 HS' _ EX i oi EI).
    destruct KN as [(j & I & X)|X]; [left; exists j; split; [exact I|lra]|right; lra].
Qed.
End SwingStep.
