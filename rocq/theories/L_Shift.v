(** Simulated steps under a load-shift schedule: the settings change with the hour. *)
From Verif Require Import Prelude M_StratifiedTank S_StratifiedTank L_StratifiedTank L_StratifiedTank2 L_StratifiedTank3
  M_Building L_Building M_Heater S_Heater L_Heater M_SimRun S_SimRun L_SimMisc M_Step S_Step L_Step L_Step2 L_Step3 L_Step4 M_Engine S_Engine S_Lasts L_Lasts L_Lasts2.
Open Scope Q_scope.

Section Shift.
Variables (b : building) (iv : Z) (hs0 : list heater) (supply storage vol slope cold warm K : Q) (ctl : Z -> controls) (ua : bool).
Hypotheses (Piv : (0 < iv)%Z) (Pvol : 0 < vol) (Pslope : 0 < slope).
Hypotheses (Hcold : cold <= warm) (Hsup : warm < supply) (Hsto : supply < storage).
Hypothesis Hon : forall hour, warm < ct_on_trigger (ctl hour) /\ ct_on_trigger (ctl hour) <= storage.
Hypothesis Hoff : forall hour, ct_on_trigger (ctl hour) <= ct_off_trigger (ctl hour).
Hypothesis Hsens : forall hour, ct_off_sensor (ctl hour) <= ct_on_sensor (ctl hour).
Hypothesis Hsens0 : forall hour, 0 <= ct_on_sensor (ctl hour).
Hypothesis Hout : forall hour, ct_outlet (ctl hour) = storage.
Hypothesis Hmains : forall t x, bd_inlet b t iv = Ok x -> cold <= x /\ x <= warm.
Hypothesis Hctl : forall h hour c, In h hs0 -> in_effect h hour c -> c = ctl hour.
Hypothesis Hplain : existsb wh_load_shifting hs0 = ua.
Hypothesis HK0 : 0 <= K.
Hypothesis HK : give_at_least b iv hs0 storage K.

Let Yon t := hot_reserve vol slope storage (ct_on_sensor (ctl (hour_of t iv))) (ct_on_trigger (ctl (hour_of t iv))).
Let Yoff t := hot_reserve vol slope storage (ct_off_sensor (ctl (hour_of t iv))) (ct_off_trigger (ctl (hour_of t iv))).
Let G := heated K iv storage cold.
Notation hot_state := (L_Lasts2.hot_state hs0 supply storage vol slope cold warm).
Notation hot_out := (L_Lasts2.hot_out supply storage vol slope).

(** What a step of the system does to the hot part. *)
Definition shift_moves (loss : Q) (t : Z) (s s' : bsys) (o : step_out) : Prop := forall a y, hot_state s a y ->
  exists a' y1, (a' = false -> Yon t <= y /\ y <= y1 /\ so_output o == 0 /\ so_power o = None) /\
    (a' = true -> qmin (y + G) vol <= y1) /\ y1 <= vol /\
    (a = false -> Yon t <= y -> a' = false) /\
    (a = true -> ct_off_trigger (ctl (hour_of t iv)) <= storage -> Yoff t <= y -> a' = false) /\
    bd_load b t iv ua = Ok (so_demand o) /\
    (0 <= so_demand o -> blended (so_demand o) supply storage cold + loss <= y1 ->
     exists y', y1 - (blended (so_demand o) supply storage cold + loss) <= y' /\ hot_state s' a' y' /\ hot_out o).

Lemma shift_flags tk hs hs' hour a : st_wf tk -> (0 <= hour)%Z -> Forall2 same_heater hs0 hs -> (forall h, In h hs -> wh_active h = a) ->
  aquastats hs hs' (st_temp tk) hour -> (forall h, In h hs' -> exists c, in_effect h hour c) ->
  exists a', (forall h, In h hs' -> wh_active h = a') /\
    (a = false -> (a' = false <-> ct_on_trigger (ctl hour) <= tval tk (ct_on_sensor (ctl hour)))) /\
    (a = true -> (a' = false <-> ct_off_trigger (ctl hour) <= tval tk (ct_off_sensor (ctl hour)))).
Proof.
  intros W Hh F A Q E.
  (* the controls of every heater *)
  assert (C : Forall2 (fun h h' => In h hs /\ same_heater h h' /\ in_effect h hour (ctl hour) /\ In h' hs') hs hs' /\
              Forall2 (fun h h' => (wh_active h = false -> (wh_active h' = true <-> calls_on h (st_temp tk, hour))) /\
                                   (wh_active h = true -> (wh_active h' = false <-> calls_off h (st_temp tk, hour)))) hs hs').
  { assert (P : forall h, In h hs -> forall c, in_effect h hour c -> c = ctl hour).
    { clear - F Hctl. intros h I c IE. induction F as [|x y l l' S F IH]; [destruct I|]. destruct I as [<-|I].
      - destruct S as (_ & S2 & S3). apply (Hctl x hour c); [left; reflexivity|]. apply (in_effect_same x y hour c S2 S3). exact IE.
      - apply IH; [|exact I]. intros h' hr c' I' E'. apply (Hctl h' hr c'); [right; exact I'|exact E']. }
    clear F A. unfold aquastats in Q. split.
    - assert (Z : forall l l', Forall2 (fun h h' => same_heater h h' /\ (wh_active h = false -> (wh_active h' = true <-> calls_on h (st_temp tk, hour))) /\
                 (wh_active h = true -> (wh_active h' = false <-> calls_off h (st_temp tk, hour)))) l l' ->
                (forall h, In h l -> In h hs) -> (forall h, In h l' -> In h hs') ->
                Forall2 (fun h h' => In h hs /\ same_heater h h' /\ in_effect h hour (ctl hour) /\ In h' hs') l l').
      { intros l l' X. induction X as [|x y l l' (S & _) X IH]; intros I1 I2; constructor.
        - split; [apply I1; left; reflexivity|]. split; [exact S|]. split; [|apply I2; left; reflexivity].
          destruct (E y (I2 y (or_introl eq_refl))) as (c & IE). destruct S as (_ & S2 & S3).
          apply (in_effect_same x y hour c S2 S3) in IE. rewrite <- (P x (I1 x (or_introl eq_refl)) c IE). exact IE.
        - apply IH; intros h I; [apply I1|apply I2]; right; exact I. }
      apply Z; [exact Q|auto|auto].
    - clear - Q. induction Q as [|x y l l' (_ & S) X IH]; constructor; [exact S|exact IH]. }
  destruct C as [C1 C2].
  assert (T : forall f, st_temp tk f = Ok (tval tk f)) by (intro f; apply st_temp_ok; exact W).
  destruct a.
  - exists (negb (Qle_bool (ct_off_trigger (ctl hour)) (tval tk (ct_off_sensor (ctl hour))))). split; [|split; [intro X; discriminate|intros _; rewrite negb_false_iff; apply Qle_bool_iff]].
    intros h' I'. assert (exists h, In h hs /\ in_effect h hour (ctl hour) /\ (wh_active h = true -> (wh_active h' = false <-> calls_off h (st_temp tk, hour)))) as (h & I & IE & B).
    { clear - C1 C2 I'.
      assert (Z : forall l l', Forall2 (fun h h'0 => In h hs /\ same_heater h h'0 /\ in_effect h hour (ctl hour) /\ In h'0 hs') l l' -> 
                  Forall2 (fun h h'0 => (wh_active h = false -> (wh_active h'0 = true <-> calls_on h (st_temp tk, hour))) /\ (wh_active h = true -> (wh_active h'0 = false <-> calls_off h (st_temp tk, hour)))) l l' -> In h' l' -> 
                  exists h, In h hs /\ in_effect h hour (ctl hour) /\ (wh_active h = true -> (wh_active h' = false <-> calls_off h (st_temp tk, hour)))).
      { clear. intros l l' A B I. induction B as [|x y l l' (_ & B) X IH]; [destruct I|]. inversion A as [|x' y' m m' (K1 & _ & K2 & _) K3]; subst.
        destruct I as [<-|I]; [exists x; auto|]. exact (IH K3 I). }
      exact (Z hs hs' C1 C2 I'). }
    specialize (B (A h I)). destruct (Qle_bool (ct_off_trigger (ctl hour)) (tval tk (ct_off_sensor (ctl hour)))) eqn:Z; qbool; cbn [negb].
    + apply B. exists (ctl hour), (tval tk (ct_off_sensor (ctl hour))). cbn. split; [exact IE|]. split; [apply T|lra].
    + destruct (wh_active h') eqn:WA; [reflexivity|]. exfalso. destruct (proj1 B eq_refl) as (c & x & IE' & Tx & Le). cbn in IE', Tx.
      rewrite (in_effect_unique _ _ _ _ IE' IE) in *. cbn [fst snd] in Tx, Le. rewrite T in Tx. apply ok_inj in Tx. subst x. lra.
  - exists (qltb (tval tk (ct_on_sensor (ctl hour))) (ct_on_trigger (ctl hour))). split; [|split; [intros _; apply qltb_false|intro X; discriminate]].
    intros h' I'. assert (exists h, In h hs /\ in_effect h hour (ctl hour) /\ (wh_active h = false -> (wh_active h' = true <-> calls_on h (st_temp tk, hour)))) as (h & I & IE & B).
    { clear - C1 C2 I'.
      assert (Z : forall l l', Forall2 (fun h h'0 => In h hs /\ same_heater h h'0 /\ in_effect h hour (ctl hour) /\ In h'0 hs') l l' -> 
                  Forall2 (fun h h'0 => (wh_active h = false -> (wh_active h'0 = true <-> calls_on h (st_temp tk, hour))) /\ (wh_active h = true -> (wh_active h'0 = false <-> calls_off h (st_temp tk, hour)))) l l' -> In h' l' -> 
                  exists h, In h hs /\ in_effect h hour (ctl hour) /\ (wh_active h = false -> (wh_active h' = true <-> calls_on h (st_temp tk, hour)))).
      { clear. intros l l' A B I. induction B as [|x y l l' (B & _) X IH]; [destruct I|]. inversion A as [|x' y' m m' (K1 & _ & K2 & _) K3]; subst.
        destruct I as [<-|I]; [exists x; auto|]. exact (IH K3 I). }
      exact (Z hs hs' C1 C2 I'). }
    specialize (B (A h I)). destruct (qltb (tval tk (ct_on_sensor (ctl hour))) (ct_on_trigger (ctl hour))) eqn:Z; qbool.
    + apply B. exists (ctl hour), (tval tk (ct_on_sensor (ctl hour))). cbn. split; [exact IE|]. split; [apply T|lra].
    + destruct (wh_active h') eqn:WA; [|reflexivity]. exfalso. destruct (proj1 B eq_refl) as (c & x & IE' & Tx & Le). cbn in IE', Tx.
      rewrite (in_effect_unique _ _ _ _ IE' IE) in *. cbn [fst snd] in Tx, Le. rewrite T in Tx. apply ok_inj in Tx. subst x. lra.
Qed.

(** The outlet temperature is the storage temperature. *)
Lemma shift_outlet hs hour x : (0 <= hour)%Z -> Forall2 same_heater hs0 hs -> outlet_for hs storage hour = Ok x -> x = storage.
Proof.
  intros Hh F H. apply outlet_for_spec in H; [|exact Hh]. apply (setpoint_same hs hs0) in H; [|apply same_all_sym; exact F].
  destruct H as [[_ ->]|[(h & c & I & E & <-) _]]; [reflexivity|]. rewrite (Hctl h hour c I E). apply Hout.
Qed.

(** What the heaters give, all on or all off. *)
Lemma shift_output hs l oat inlet hour t a : (0 <= hour)%Z -> Forall2 same_heater hs0 hs -> (forall h, In h hs -> wh_active h = a) ->
  bd_oat b t iv = Ok oat -> bd_inlet b t iv = Ok inlet -> Forall2 (heater_gives oat inlet hour) hs l ->
  (a = false -> qsum l == 0) /\ (a = true -> K <= qsum l).
Proof.
  intros Hh F A EO EI H. split; intros ->.
  - clear - A H. induction H as [|h x hs l (c & _ & E) H IH]; [reflexivity|]. destruct E as [[_ ->]|[E _]].
    + change (qsum (0 :: l)) with (0 + qsum l). rewrite IH; [ring|]. intros h' I. apply A. right. exact I.
    + rewrite (A h (or_introl eq_refl)) in E. discriminate.
  - apply (HK t oat inlet l EO EI). clear HK Hplain. revert hs F A H. revert l. induction hs0 as [|h0 r IH]; intros l hs F A H.
    + inversion F; subst. inversion H; subst. constructor.
    + inversion F as [|h0' h r' hs' S F']; subst. inversion H as [|h1 x r1 l' (c & IE & E) H']; subst. constructor.
      * destruct S as (S1 & S2 & S3). destruct E as [[E _]|[_ (cap & E & ->)]]; [rewrite (A h (or_introl eq_refl)) in E; discriminate|].
        exists cap. split; [|reflexivity]. apply (in_effect_same h0 h hour c S2 S3) in IE.
        rewrite (Hctl h0 hour c (or_introl eq_refl) IE), Hout in E. unfold wh_capacity in *. rewrite S1 in E. exact E.
      * apply (IH (fun h' hr c' I' E' => Hctl h' hr c' (or_intror I') E') l' hs' F'); [|exact H']. intros h' I. apply A. right. exact I.
Qed.

Lemma off_powers hs oat inlet hour kws : (forall h, In h hs -> wh_active h = false) -> active_powers hs oat inlet hour = Ok kws -> total_kw kws = None.
Proof.
  intros A E. unfold active_powers in E. replace (filter wh_active hs) with (@nil heater) in E.
  - cbn in E. apply ok_inj in E. subst kws. reflexivity.
  - symmetry. clear E. induction hs as [|h r IH]; [reflexivity|]. cbn [filter]. rewrite (A h (or_introl eq_refl)). apply IH. intros h' I. apply A. right. exact I.
Qed.

Lemma shift_base t s s' o : base_step b s t iv = Ok (s', o) -> shift_moves 0 t s s' o.
Proof.
  intros H a y [SH FL ES EG YV (tk & ET & EV & EL & IC & IW & EO & EY)].
  destruct (base_step_inv b s t iv s' o tk ET H) as (out & tk1 & tk2 & hs' & Ed & Eo & Ei & Eout & Ehs & Eq & E1 & E2 & Eu & Ets & Em & DN & _ & -> & (kws & EK & EW)).
  pose proof (proj1 (hour_of_range t iv)) as Hh.
  assert (W : st_wf tk) by (split; [rewrite EV|rewrite EL]; assumption).
  rewrite EG in Eout. pose proof (shift_outlet _ _ _ Hh SH Eout) as ->.
  pose proof (aquastats_of _ _ _ _ Hh Ehs) as AQ. pose proof (aquastats_same _ _ _ _ AQ) as SS. pose proof (same_all_trans _ _ _ SH SS) as SH'.
  destruct (total_output_spec _ _ _ _ _ Hh Eq) as (l & HG & EQ).
  assert (IE : forall h, In h hs' -> exists c, in_effect h (hour_of t iv) c).
  { clear - HG. induction HG as [|h x hs l (c & E & _) H IH]; intros h' I; [destruct I|]. destruct I as [<-|I]; [exists c; exact E|exact (IH h' I)]. }
  destruct (shift_flags tk (bs_heaters s) hs' (hour_of t iv) a W Hh SH FL AQ IE) as (a' & FL' & T1 & T2).
  destruct (shift_output hs' l _ _ _ t a' Hh SH' FL' Eo Ei HG) as [Z0 Z1].
  rewrite (shifting_same _ _ SH), Hplain in Ed.
  assert (IS : st_inlet tk < storage) by lra.
  specialize (Hon (hour_of t iv)) as [On1 On2]. specialize (Hoff (hour_of t iv)) as Off1. specialize (Hsens (hour_of t iv)) as Sens1.
  assert (TON : tval tk (ct_on_sensor (ctl (hour_of t iv))) < ct_on_trigger (ctl (hour_of t iv)) <-> y < Yon t).
  { unfold Yon. rewrite <- EY, <- EV, <- EL. apply (temp_hot tk storage); [exact W|exact EO|lra|exact On2]. }
  destruct (heat_hot tk (so_output o) (qz iv) storage W IS) as (tk1' & E1' & V1 & L1 & I1 & O1 & N1 & P1). rewrite E1 in E1'. apply ok_inj in E1'. subst tk1'.
  exists a', (hot tk1 storage).
  assert (Cap1 : hot tk1 storage <= vol).
  { destruct (Qlt_le_dec 0 (so_output o)) as [X|X]; [rewrite (P1 X), EV; qmm; lra|rewrite (N1 X); lra]. }
  split. { intros ->. assert (OZ : so_output o == 0) by (rewrite EQ; exact (Z0 eq_refl)). rewrite N1 by lra.
    split; [|split; [lra|split; [exact OZ|rewrite EW; exact (off_powers _ _ _ _ _ FL' EK)]]].
    destruct (Qlt_le_dec y (Yon t)) as [X|X]; [exfalso|exact X]. apply TON in X.
    destruct a; [|pose proof (proj1 (T1 eq_refl) eq_refl); lra].
    pose proof (proj1 (T2 eq_refl) eq_refl). pose proof (tval_mono tk _ _ W Sens1). lra. }
  split. { intros ->. specialize (Z1 eq_refl). rewrite <- EQ in Z1. destruct (Qlt_le_dec 0 (so_output o)) as [X|X].
    - rewrite (P1 X), EV, EY. pose proof (heated_le K (so_output o) iv storage cold (st_inlet tk) HK0 Z1 Piv IC IS) as HL. fold G in HL. qmm; lra.
    - rewrite (N1 X), EY. assert (KZ : K == 0) by lra. assert (GZ : G == 0).
      { unfold G, heated. rewrite KZ. field. split; [lra|discriminate]. }
      rewrite GZ. qmm; lra. }
  split; [exact Cap1|].
  split. { intros -> X. apply (T1 eq_refl). destruct (Qlt_le_dec (tval tk (ct_on_sensor (ctl (hour_of t iv)))) (ct_on_trigger (ctl (hour_of t iv)))) as [Z|Z]; [apply TON in Z; lra|exact Z]. }
  split. { intros -> OS X. apply (T2 eq_refl). destruct (Qlt_le_dec (tval tk (ct_off_sensor (ctl (hour_of t iv)))) (ct_off_trigger (ctl (hour_of t iv)))) as [Z|Z]; [exfalso|exact Z].
    apply (temp_hot tk storage) in Z; [|exact W|exact EO|lra|exact OS]. rewrite EV, EL, EY in Z. fold (Yoff t) in Z. lra. }
  split; [exact Ed|]. intros D0 LE.
  destruct (Hmains _ _ Ei) as [M1 M2].
  assert (W1 : st_wf tk1) by (split; [rewrite V1, EV|rewrite L1, EL]; assumption).
  assert (BL : blended (so_demand o) supply storage (so_inlet o) <= blended (so_demand o) supply storage cold) by (apply blended_le; lra).
  rewrite ES in *.
  destruct (draw_hot tk1 (so_demand o) (so_inlet o) supply storage W1) as (tk2' & E2' & V2 & L2 & I2 & O2 & Y2); [lra|exact D0|lra|lra|rewrite V1, EV; exact Cap1|].
  rewrite E2 in E2'. apply ok_inj in E2'. subst tk2'.
  assert (B0 : 0 <= blended (so_demand o) supply storage (so_inlet o)) by (unfold blended; apply qdiv_nonneg; [apply Qmult_le_0_compat; lra|lra]).
  assert (W2 : st_wf tk2) by (split; [rewrite V2, V1, EV|rewrite L2, L1, EL]; assumption).
  exists (hot tk2 storage). split; [lra|]. split.
  - constructor; cbn [bs_heaters bs_supply bs_storage bs_tank]; try assumption; [reflexivity|lra|].
    exists tk2. split; [reflexivity|]. split; [congruence|]. split; [congruence|]. rewrite I2. split; [exact M1|]. split; [exact M2|]. split; [exact O2|reflexivity].
  - assert (HT : 0 <= hot tk2 storage) by lra.
    pose proof (usable_hot tk2 storage supply (so_usable o) W2) as U. rewrite V2, V1, EV, L2, L1, EL in U. specialize (U ltac:(lra) ltac:(lra) Eu).
    destruct (six_sorted tk2 _ W2 Ets) as (S6 & _). split; [rewrite U; qmm; lra|]. split; [exact DN|]. split; [exact S6|].
    rewrite six_temps_ok in Ets by exact W2. apply ok_inj in Ets. rewrite <- Ets. change (last (map (tval tk2) six_heights) 0) with (tval tk2 1).
    apply top_hot; [exact W2|exact O2|rewrite I2; lra|exact HT].
Qed.

Lemma shift_sprtp ret flow loss t s s' o : 0 <= flow -> ret <= supply -> loss == flow * qz iv * (supply - ret) / (storage - warm) ->
  sprtp_step ret flow b s t iv = Ok (s', o) -> shift_moves loss t s s' o.
Proof.
  intros F0 R0 EL0 H a y HS. destruct (sprtp_delivery _ _ _ _ _ _ _ _ H) as (s1' & o1' & EB' & ED). destruct (sprtp_step_inv _ _ _ _ _ _ _ _ H) as (s1 & o1 & EB & TK).
  rewrite EB in EB'. apply ok_inj in EB'. apply pair_equal_spec in EB'. destruct EB' as [<- <-].
  destruct (shift_base t s s1 o1 EB a y HS) as (a' & y1 & A1 & A2 & A3 & B1 & B2 & A4 & A5).
  assert (L0 : 0 <= loss).
  { rewrite EL0. apply qdiv_nonneg; [|lra]. apply Qmult_le_0_compat; [|lra]. apply Qmult_le_0_compat; [exact F0|apply qz_nonneg; lia]. }
  assert (TT : exists tk, bs_tank s1 = Some tk).
  { destruct HS as [_ _ _ _ _ (tk & ET0 & _)]. destruct (base_step_inv b s t iv s1 o1 tk ET0 EB) as (out & tk1 & tk2 & hs' & X). 
    destruct X as (_ & _ & _ & _ & _ & _ & _ & _ & _ & _ & _ & _ & _ & X & _). rewrite X. eexists. reflexivity. }
  destruct TT as (tk0 & ET0). destruct (TK tk0 ET0) as (_ & _ & _ & _ & _ & DE & _ & _ & OE & PE & _).
  exists a', y1. rewrite DE, OE, PE. do 6 (split; [assumption|]). intros D0 LE. destruct (A5 D0) as (y' & Y1 & HS' & (U & DN & S6 & TP)); [lra|].
  destruct HS' as [SH FL ES EG YV (tk & ET & EV & EL & IC & IW & EO & EY)]. destruct (TK tk ET) as (tk1 & ER & Eu & Ets & -> & _ & _ & EIN & _).
  assert (W : st_wf tk) by (split; [rewrite EV|rewrite EL]; assumption). assert (IS : st_inlet tk < storage) by lra. rewrite ES in *.
  destruct (recirc_hot tk flow ret (qz iv) supply storage W EO IS) as (tk1' & E1' & V1 & L1 & I1 & O1 & Y2). rewrite ER in E1'. apply ok_inj in E1'. subst tk1'.
  set (net := flow * qz iv * (supply - ret) / (storage - st_inlet tk)) in *.
  assert (NL : 0 <= net /\ net <= loss).
  { assert (P : 0 <= flow * qz iv * (supply - ret)) by (apply Qmult_le_0_compat; [|lra]; apply Qmult_le_0_compat; [exact F0|apply qz_nonneg; lia]).
    split; [unfold net; apply qdiv_nonneg; [exact P|lra]|]. rewrite EL0. unfold net. apply qdiv_le_iff; [lra|].
    setoid_replace (flow * qz iv * (supply - ret) / (storage - warm) * (storage - st_inlet tk))
      with ((flow * qz iv * (supply - ret) * (storage - st_inlet tk)) / (storage - warm)) by (field; lra).
    apply Qle_shift_div_l; [lra|]. rewrite !(Qmult_comm (flow * qz iv * (supply - ret))). apply Qmult_le_compat_r; [lra|exact P]. }
  assert (W1 : st_wf tk1) by (split; [rewrite V1, EV|rewrite L1, EL]; assumption).
  exists (hot tk1 storage). split; [lra|]. split.
  - constructor; cbn [bs_heaters bs_supply bs_storage bs_tank]; try assumption; [reflexivity|lra|].
    exists tk1. split; [reflexivity|]. split; [congruence|]. split; [congruence|]. rewrite I1. split; [exact IC|]. split; [exact IW|]. split; [exact O1|reflexivity].
  - assert (HT : 0 <= hot tk1 storage) by lra.
    pose proof (usable_hot tk1 storage supply (so_usable o) W1) as U'. rewrite V1, EV, L1, EL in U'. specialize (U' ltac:(lra) ltac:(lra) Eu).
    destruct (six_sorted tk1 _ W1 Ets) as (S6' & _). split; [rewrite U'; qmm; lra|]. split; [rewrite ED; exact DN|]. split; [exact S6'|].
    rewrite six_temps_ok in Ets by exact W1. apply ok_inj in Ets. rewrite <- Ets. change (last (map (tval tk1) six_heights) 0) with (tval tk1 1).
    apply top_hot; [exact W1|exact O1|rewrite I1; lra|exact HT].
Qed.

Lemma shift_parallel t p p' o : parallel_step b p t iv = Ok (p', o) -> shift_moves 0 t (ps_base p) (ps_base p') o.
Proof.
  intros H a y HS. destruct (parallel_step_inv _ _ _ _ _ _ H) as (s1 & o1 & tk & h & temp & out & kw & EB & _ & -> & _ & _ & _ & D & U & OE & PE & _ & _ & T & _ & DV).
  destruct (shift_base t _ s1 o1 EB a y HS) as (a' & y1 & A1 & A2 & A3 & B1 & B2 & A4 & A5). exists a', y1. rewrite D, OE, PE. do 6 (split; [assumption|]).
  intros D0 LE. destruct (A5 D0 LE) as (y' & Y1 & HS' & (U' & DN & S6 & TP)). exists y'. split; [exact Y1|]. split; [exact HS'|].
  unfold L_Lasts2.hot_out. rewrite U, T, DV. auto.
Qed.

Lemma shift_more l l' t s s' o : l <= l' -> shift_moves l t s s' o -> shift_moves l' t s s' o.
Proof.
  intros L M a y HS. destruct (M a y HS) as (a' & y1 & A1 & A2 & A3 & B1 & B2 & A4 & A5). exists a', y1. do 6 (split; [assumption|]).
  intros D0 LE. destruct (A5 D0) as (y' & Y1 & R); [lra|]. exists y'. split; [lra|exact R].
Qed.

(** ** All steps *)

Section Run.
Context {St : Type} (stp : St -> Z -> Z -> res (St * step_out)) (core : St -> bsys) (loss : Q).
Hypothesis Hstep : forall t s s' o, stp s t iv = Ok (s', o) -> shift_moves loss t (core s) (core s') o.
Variables (d : nat -> Q) (Y0 : Q) (N : nat).
Hypothesis Hd : forall k, (k < N)%nat -> bd_load b (Z.of_nat k) iv ua = Ok (d k) /\ 0 <= d k.
Let D k := blended (d k) supply storage cold + loss.
Let Yr k := Yon (Z.of_nat k).
Hypothesis Hwin : forall j n, (S j + n <= N)%nat -> shortfall D G (S j) n + D j <= Yr j.
Hypothesis Hstart : forall n, (n <= N)%nat -> shortfall D G 0 n <= Y0.

(** The hot part is what was left when the heaters were last seen off, less what was taken since beyond what they
    brought; or what it was at the start, less what was taken beyond. *)
Definition Left (n : nat) (y : Q) : Prop :=
  (exists j, (j < n)%nat /\ Yr j - D j - shortfall D G (S j) (n - S j) <= y) \/ Y0 - shortfall D G 0 n <= y.

Lemma left_nonneg n y : (n <= N)%nat -> Left n y -> 0 <= y.
Proof.
  intros L [(i & I & H)|H]; [specialize (Hwin i (n - S i) ltac:(lia)); lra|]. specialize (Hstart n L). lra.
Qed.

Lemma reserve_cap j : Yr j <= vol.
Proof.
  unfold Yr, Yon. set (h := hour_of (Z.of_nat j) iv). unfold hot_reserve. specialize (Hsens0 h) as A. destruct (Hon h) as [_ B].
  assert (0 <= (storage - ct_on_trigger (ctl h)) / (100 * slope)) by (apply qdiv_nonneg; lra).
  setoid_replace vol with (vol * 1) at 2 by ring. apply Qmult_le_l; [exact Pvol|]. lra.
Qed.

Lemma left_step n y y' : Left n y -> (Yr n - D n <= y' \/ qmin (y + G) vol - D n <= y') -> Left (S n) y'.
Proof.
  intros KP H. assert (R : Yr n - D n <= y' -> Left (S n) y').
  { intro X. left. exists n. split; [lia|]. rewrite Nat.sub_diag, shortfall_O. lra. }
  destruct H as [H|H]; [exact (R H)|]. destruct (Qlt_le_dec (y + G) vol) as [X|X].
  - assert (E : qmin (y + G) vol == y + G) by (qmm; lra). rewrite E in H. destruct KP as [(i & I & KP)|KP].
    + left. exists i. split; [lia|]. replace (S n - S i)%nat with (S (n - S i)) by lia. rewrite shortfall_S. replace (S i + (n - S i))%nat with n by lia. lra.
    + right. rewrite shortfall_S. cbn [Nat.add]. lra.
  - apply R. assert (E : qmin (y + G) vol == vol) by (qmm; lra). pose proof (reserve_cap n). lra.
Qed.

Lemma run_shift : forall outs n s a y s', (n + length outs <= N)%nat -> hot_state (core s) a y -> Left n y ->
  executed stp iv s (Z.of_nat n) outs s' ->
  Forall hot_out outs /\
  exists (f : nat -> bool) (g : nat -> Q), f n = a /\ g n = y /\
    forall k o, nth_error outs k = Some o ->
      Left (n + k) (g (n + k)%nat) /\
      (f (S (n + k)) = false -> so_output o == 0 /\ so_power o = None /\ g (n + k)%nat - D (n + k)%nat <= g (S (n + k))) /\
      (f (n + k)%nat = false -> Yr (n + k) <= g (n + k)%nat -> f (S (n + k)) = false) /\
      (f (n + k)%nat = true -> ct_off_trigger (ctl (hour_of (Z.of_nat (n + k)) iv)) <= storage -> Yoff (Z.of_nat (n + k)) <= g (n + k)%nat -> f (S (n + k)) = false).
Proof.
  induction outs as [|o outs IH]; intros n s a y s' L HS KP EX.
  { split; [constructor|]. exists (fun _ => a), (fun _ => y). split; [reflexivity|]. split; [reflexivity|]. intros [|k] o X; discriminate X. }
  cbn in L. destruct EX as (s1 & E & EX).
  destruct (Hstep _ _ _ _ E a y HS) as (a' & y1 & A1 & A2 & A3 & B1 & B2 & A4 & A5). destruct (Hd n ltac:(lia)) as [EL D0].
  rewrite EL in A4. apply ok_inj in A4. rewrite <- A4 in *.
  assert (KN : Left (S n) (y1 - D n)).
  { apply (left_step n y); [exact KP|]. destruct a'; [right; specialize (A2 eq_refl); lra|left; destruct (A1 eq_refl) as (Z1 & Z2 & _); unfold Yr; lra]. }
  pose proof (left_nonneg (S n) (y1 - D n) ltac:(lia) KN) as NN.
  destruct (A5 D0) as (y' & Y1 & HS' & HO); [unfold D in NN; lra|]. fold (D n) in Y1.
  destruct (IH (S n) s1 a' y' s') as (FO & f & g & Ef & Eg & R); [lia|exact HS'| |replace (Z.of_nat (S n)) with (Z.of_nat n + 1)%Z by lia; exact EX|].
  { destruct KN as [(i & I & X)|X]; [left; exists i; split; [exact I|]; lra|right; lra]. }
  split; [constructor; [exact HO|exact FO]|].
  exists (fun k => if (k =? n)%nat then a else f k), (fun k => if (k =? n)%nat then y else g k).
  assert (EQ : forall k, (k =? n)%nat = true -> k = n) by (intros k X; apply Nat.eqb_eq, X).
  split; [rewrite Nat.eqb_refl; reflexivity|]. split; [rewrite Nat.eqb_refl; reflexivity|].
  intros [|k] o' X.
  - injection X as <-. rewrite !Nat.add_0_r, Nat.eqb_refl. replace (S n =? n)%nat with false by (symmetry; apply Nat.eqb_neq; lia).
    rewrite Ef, Eg. split; [exact KP|]. split; [|split; [exact B1|exact B2]].
    intro Z. destruct (A1 Z) as (Z1 & Z2 & Z3 & Z4). split; [exact Z3|]. split; [exact Z4|]. lra.
  - cbn in X. specialize (R k o' X). replace (n + S k)%nat with (S n + k)%nat by lia.
    replace (S n + k =? n)%nat with false by (symmetry; apply Nat.eqb_neq; lia).
    replace (S (S n + k) =? n)%nat with false by (symmetry; apply Nat.eqb_neq; lia). exact R.
Qed.

(** From step [q] on, for [m] steps, the heaters rest. *)
Lemma rest outs s y s' q m F : (length outs <= N)%nat -> hot_state (core s) false y -> Y0 <= y ->
  executed stp iv s 0 outs s' ->
  (forall j, (j < q)%nat -> shortfall D G (S j) (q - S j) + D j + F <= Yr j) -> shortfall D G 0 q + F <= Y0 ->
  (forall k, (k < m)%nat -> Yr (q + k) + qsum (map D (seq q k)) <= F) ->
  ct_off_trigger (ctl (hour_of (Z.of_nat q) iv)) <= storage -> Yoff (Z.of_nat q) <= F ->
  forall k o, (k < m)%nat -> nth_error outs (q + k) = Some o -> so_output o == 0 /\ so_power o = None.
Proof.
  intros L HS Y EX C1 C2 C3 C4 C5.
  destruct (run_shift outs 0 s false y s' L HS) as (_ & f & g & _ & _ & R); [right; rewrite shortfall_O; lra|exact EX|]. cbn [Nat.add] in R.
  assert (M : forall k o, (k < m)%nat -> nth_error outs (q + k) = Some o -> F - qsum (map D (seq q k)) <= g (q + k)%nat /\ f (S (q + k)) = false).
  { induction k as [|k IH]; intros o KM X.
    - rewrite Nat.add_0_r in *. destruct (R q o X) as (R1 & R2 & R3 & R4). specialize (C3 0%nat KM). rewrite Nat.add_0_r in C3. cbn [seq map qsum fold_right] in *.
      assert (FG : F <= g q). { destruct R1 as [(j & J & R1)|R1]; [specialize (C1 j J)|]; lra. }
      split; [lra|]. destruct (f q) eqn:EF; [apply R4; [reflexivity|exact C4|lra]|apply R3; [reflexivity|lra]].
    - assert (exists o', nth_error outs (q + k) = Some o') as (o' & X').
      { destruct (nth_error outs (q + k)) eqn:Z; [eexists; reflexivity|]. apply nth_error_None in Z. assert (nth_error outs (q + S k) = None) by (apply nth_error_None; lia). congruence. }
      destruct (IH o' ltac:(lia) X') as [I1 I2]. destruct (R _ _ X') as (_ & R2 & _). destruct (R2 I2) as (_ & _ & R2').
      replace (q + S k)%nat with (S (q + k)) in * by lia. destruct (R _ _ X) as (_ & _ & R3 & _).
      assert (SS : qsum (map D (seq q (S k))) == qsum (map D (seq q k)) + D (q + k)%nat).
      { rewrite seq_S, map_app. cbn [map]. clear. induction (map D (seq q k)) as [|z l IH]; cbn; [ring|]. change (fold_right Qplus 0 (l ++ [D (q + k)%nat])) with (qsum (l ++ [D (q + k)%nat])). rewrite IH. unfold qsum. ring. }
      rewrite SS. split; [lra|]. apply R3; [exact I2|]. specialize (C3 (S k) KM). rewrite SS in C3. replace (q + S k)%nat with (S (q + k)) in C3 by lia. lra. }
  intros k o KM X. destruct (M k o KM X) as [_ M2]. destruct (R _ _ X) as (_ & R2 & _). destruct (R2 M2) as (R2a & R2b & _). auto.
Qed.
End Run.
End Shift.
