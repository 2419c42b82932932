(** Simulated steps and the heaters' cycles: what a step does to the hot part, whether or not it covers the draw. *)
From Verif Require Import Prelude M_StratifiedTank S_StratifiedTank L_StratifiedTank L_StratifiedTank2 L_StratifiedTank3
  M_Building L_Building M_Heater S_Heater L_Heater M_SimRun S_SimRun L_SimMisc M_Step S_Step L_Step L_Step2 L_Step3 L_Step4 M_Engine S_Engine S_Lasts L_Lasts L_Lasts2
  S_Shift L_Shift S_Cycle.
Open Scope Q_scope.

(** A draw leaves at most the hot part there was, or the profile whose top is at the supply temperature. *)
Lemma draw_lowers t v cold supply h t' : st_wf t -> cold < h -> 0 <= v -> cold <= supply <= h ->
  st_draw t v cold supply h = Ok t' ->
  st_vol t' = st_vol t /\ st_slope t' = st_slope t /\ st_inlet t' = cold /\ st_outlet t' = h /\
  hot t' h <= qmax (hot t h) (- (st_vol t * (h - supply) / (100 * st_slope t))).
Proof.
  intros W CH V0 [S1 S2] H. unfold st_draw in H.
  destruct (Qle_bool h cold) eqn:E1; qbool; [exfalso; lra|]. cbn [orb] in H.
  destruct (Qle_bool v 0) eqn:E2; qbool.
  { apply ok_inj in H. subst t'. do 4 (split; [reflexivity|]). change (hot (set_outlet (set_inlet t cold) h) h) with (hot t h). qmm; lra. }
  rewrite qdiv_ok in H by lra. cbn [bind] in H. set (t0 := set_outlet (set_inlet t cold) h) in *.
  assert (W0 : st_wf t0) by exact W. set (p := v * (supply - cold) / (h - cold)) in *.
  assert (P0 : 0 <= p) by (unfold p; apply qdiv_nonneg; [apply Qmult_le_0_compat; lra|lra]).
  assert (K : forall g, 0 <= g -> (do fl <- st_floor (set_delta t0 (st_delta t0 - g)) (Some supply); Ok (set_delta (set_delta t0 (st_delta t0 - g)) (qmax (st_delta (set_delta t0 (st_delta t0 - g))) fl))) = Ok t' ->
    st_vol t' = st_vol t /\ st_slope t' = st_slope t /\ st_inlet t' = cold /\ st_outlet t' = h /\
    hot t' h <= qmax (hot t h) (- (st_vol t * (h - supply) / (100 * st_slope t)))).
  { intros g G0 X. rewrite st_floor_ok in X by exact W. cbn [bind] in X. apply ok_inj in X. subst t'. do 4 (split; [reflexivity|]).
    unfold hot. cbn [set_delta st_delta]. change (floor_delta (set_delta (set_delta t0 (st_delta t0 - g)) _) h) with (floor_delta t h).
    change (floor_delta (set_delta t0 (st_delta t0 - g)) supply) with (floor_delta t supply). change (st_delta t0) with (st_delta t).
    assert (F : floor_delta t supply - floor_delta t h == - (st_vol t * (h - supply) / (100 * st_slope t))).
    { destruct W as [V L]. unfold floor_delta. field. lra. }
    rewrite <- F. qmm; lra. }
  destruct (bind_ok _ _ _ H) as (a & _ & H1). clear H.
  destruct (Qle_bool (h - (1 # 1000000)) a) eqn:E3.
  - exact (K p P0 H1).
  - destruct (bind_ok _ _ _ H1) as ([lo hi] & ES & H2). clear H1.
    assert (V : 0 < st_vol t0) by (destruct W0; assumption).
    destruct (st_search_range 52 t0 cold (supply - cold) v p (st_vol t0) 0 lo hi P0 ltac:(lra) ES) as [L1 L2].
    refine (K (qmin ((lo + hi) * (1 # 2)) (st_vol t0)) _ H2). qmm; lra.
Qed.

Section Cycle.
Variables (b : building) (iv : Z) (hs0 : list heater) (supply storage vol slope cold warm low high : Q) (ctl : Z -> controls) (ua : bool).
Hypotheses (Piv : (0 < iv)%Z) (Pvol : 0 < vol) (Pslope : 0 < slope).
Hypotheses (Hcold : cold <= warm) (Hsup : warm < supply) (Hsto : supply < storage).
Hypothesis Hon : forall hour, supply <= ct_on_trigger (ctl hour) /\ ct_on_trigger (ctl hour) <= storage.
Hypothesis Hoff : forall hour, ct_on_trigger (ctl hour) <= ct_off_trigger (ctl hour).
Hypothesis Hsens : forall hour, ct_on_sensor (ctl hour) <= 1.
Hypothesis Hout : forall hour, ct_outlet (ctl hour) = storage.
Hypothesis Hmains : forall t x, bd_inlet b t iv = Ok x -> cold <= x /\ x <= warm.
Hypothesis Hctl : forall h hour c, In h hs0 -> in_effect h hour c -> c = ctl hour.
Hypothesis Hplain : existsb wh_load_shifting hs0 = ua.
Hypothesis Hlow : 0 < low.
Hypothesis HG : give_between b iv hs0 storage low high.

Let Yon t := hot_reserve vol slope storage (ct_on_sensor (ctl (hour_of t iv))) (ct_on_trigger (ctl (hour_of t iv))).
Let Yoff t := hot_reserve vol slope storage (ct_off_sensor (ctl (hour_of t iv))) (ct_off_trigger (ctl (hour_of t iv))).
Let G := heated high iv storage warm.
Let floor := - (vol * (storage - supply) / (100 * slope)).
Notation hot_state := (L_Lasts2.hot_state hs0 supply storage vol slope cold warm).

Lemma floor_below t : floor <= Yon t.
Proof.
  unfold floor, Yon, hot_reserve. set (h := hour_of t iv). destruct (Hon h) as [A _]. specialize (Hsens h) as B. set (T := ct_on_trigger (ctl h)) in *. set (s := ct_on_sensor (ctl h)) in *.
  assert (X : - (vol * (storage - supply) / (100 * slope)) == vol * (- ((storage - supply) / (100 * slope)))) by (field; lra). rewrite X.
  apply Qmult_le_l; [exact Pvol|]. assert ((storage - T) / (100 * slope) <= (storage - supply) / (100 * slope)).
  { unfold Qdiv. apply Qmult_le_compat_r; [lra|]. apply Qinv_le_0_compat. lra. }
  lra.
Qed.

Lemma cycle_output hs l oat inlet hour t a : (0 <= hour)%Z -> Forall2 same_heater hs0 hs -> (forall h, In h hs -> wh_active h = a) ->
  bd_oat b t iv = Ok oat -> bd_inlet b t iv = Ok inlet -> Forall2 (heater_gives oat inlet hour) hs l ->
  (a = false -> qsum l == 0) /\ (a = true -> low <= qsum l /\ qsum l <= high).
Proof.
  intros Hh F A EO EI H. split; intros ->.
  - clear - A H. induction H as [|h x hs l (c & _ & E) H IH]; [reflexivity|]. destruct E as [[_ ->]|[E _]].
    + change (qsum (0 :: l)) with (0 + qsum l). rewrite IH; [ring|]. intros h' I. apply A. right. exact I.
    + rewrite (A h (or_introl eq_refl)) in E. discriminate.
  - apply (HG t oat inlet l EO EI). clear HG Hplain. revert hs F A H. revert l. induction hs0 as [|h0 r IH]; intros l hs F A H.
    + inversion F; subst. inversion H; subst. constructor.
    + inversion F as [|h0' h r' hs' S F']; subst. inversion H as [|h1 x r1 l' (c & IE & E) H']; subst. constructor.
      * destruct S as (S1 & S2 & S3). destruct E as [[E _]|[_ (cap & E & ->)]]; [rewrite (A h (or_introl eq_refl)) in E; discriminate|].
        exists cap. split; [|reflexivity]. apply (in_effect_same h0 h hour c S2 S3) in IE.
        rewrite (Hctl h0 hour c (or_introl eq_refl) IE), Hout in E. unfold wh_capacity in *. rewrite S1 in E. exact E.
      * apply (IH (fun h' hr c' I' E' => Hctl h' hr c' (or_intror I') E') l' hs' F'); [|exact H']. intros h' I. apply A. right. exact I.
Qed.

(** What a step does: the flags follow the hot part, heat raises it by at most [G], a draw does not raise it above
    the floor, and takes no more than its share while the hot part covers it. *)
Definition cycle_moves (loss : Q) (t : Z) (s s' : bsys) (o : step_out) : Prop := forall a y, hot_state s a y ->
  exists a' y1,
    (a = false -> (a' = true <-> y < Yon t)) /\
    (a = true -> (a' = false <-> ct_off_trigger (ctl (hour_of t iv)) <= storage /\ Yoff t <= y)) /\
    (a' = false -> y1 == y /\ so_output o == 0) /\
    (a' = true -> 0 < so_output o /\ 0 < G /\ y1 <= y + G) /\
    bd_load b t iv ua = Ok (so_demand o) /\
    (0 <= so_demand o -> exists y', hot_state s' a' y' /\ y' <= qmax y1 floor /\
      (blended (so_demand o) supply storage cold + loss <= y1 -> y1 - (blended (so_demand o) supply storage cold + loss) <= y')).

Lemma cycle_base t s s' o : base_step b s t iv = Ok (s', o) -> cycle_moves 0 t s s' o.
Proof.
  intros H a y [SH FL ES EG YV (tk & ET & EV & EL & IC & IW & EO & EY)].
  destruct (base_step_inv b s t iv s' o tk ET H) as (out & tk1 & tk2 & hs' & Ed & Eo & Ei & Eout & Ehs & Eq & E1 & E2 & Eu & Ets & Em & DN & _ & -> & _).
  pose proof (proj1 (hour_of_range t iv)) as Hh.
  assert (W : st_wf tk) by (split; [rewrite EV|rewrite EL]; assumption).
  rewrite EG in Eout. pose proof (shift_outlet hs0 storage ctl Hout Hctl _ _ _ Hh SH Eout) as ->.
  pose proof (aquastats_of _ _ _ _ Hh Ehs) as AQ. pose proof (aquastats_same _ _ _ _ AQ) as SS. pose proof (same_all_trans _ _ _ SH SS) as SH'.
  destruct (total_output_spec _ _ _ _ _ Hh Eq) as (l & HGv & EQ).
  assert (IE : forall h, In h hs' -> exists c, in_effect h (hour_of t iv) c).
  { clear - HGv. induction HGv as [|h x hs l (c & E & _) H IH]; intros h' I; [destruct I|]. destruct I as [<-|I]; [exists c; exact E|exact (IH h' I)]. }
  destruct (shift_flags hs0 ctl Hctl tk (bs_heaters s) hs' (hour_of t iv) a W Hh SH FL AQ IE) as (a' & FL' & T1 & T2).
  destruct (cycle_output hs' l _ _ _ t a' Hh SH' FL' Eo Ei HGv) as [Z0 Z1].
  rewrite (shifting_same _ _ SH), Hplain in Ed.
  assert (IS : st_inlet tk < storage) by lra.
  specialize (Hon (hour_of t iv)) as [On1 On2]. specialize (Hoff (hour_of t iv)) as Off1.
  assert (TON : tval tk (ct_on_sensor (ctl (hour_of t iv))) < ct_on_trigger (ctl (hour_of t iv)) <-> y < Yon t).
  { unfold Yon. rewrite <- EY, <- EV, <- EL. apply (temp_hot tk storage); [exact W|exact EO|lra|exact On2]. }
  assert (TOFF : ct_off_trigger (ctl (hour_of t iv)) <= storage -> (tval tk (ct_off_sensor (ctl (hour_of t iv))) < ct_off_trigger (ctl (hour_of t iv)) <-> y < Yoff t)).
  { intro OS. unfold Yoff. rewrite <- EY, <- EV, <- EL. apply (temp_hot tk storage); [exact W|exact EO|lra|exact OS]. }
  assert (TOP : tval tk (ct_off_sensor (ctl (hour_of t iv))) <= storage) by (unfold tval; rewrite EO; qmm; lra).
  destruct (heat_hot tk (so_output o) (qz iv) storage W IS) as (tk1' & E1' & V1 & L1 & I1 & O1 & N1 & P1). rewrite E1 in E1'. apply ok_inj in E1'. subst tk1'.
  exists a', (hot tk1 storage).
  assert (Cap1 : hot tk1 storage <= vol).
  { destruct (Qlt_le_dec 0 (so_output o)) as [X|X]; [rewrite (P1 X), EV; qmm; lra|rewrite (N1 X); lra]. }
  split. { intros ->. specialize (T1 eq_refl). rewrite <- TON. destruct a'.
    - split; [|reflexivity]. intros _. destruct (Qlt_le_dec (tval tk (ct_on_sensor (ctl (hour_of t iv)))) (ct_on_trigger (ctl (hour_of t iv)))) as [Z|Z]; [exact Z|]. apply T1 in Z. discriminate.
    - split; [discriminate|]. intro Z. pose proof (proj1 T1 eq_refl). lra. }
  split. { intros ->. specialize (T2 eq_refl). rewrite T2. split.
    - intro Z. assert (OS : ct_off_trigger (ctl (hour_of t iv)) <= storage) by lra. split; [exact OS|].
      destruct (Qlt_le_dec y (Yoff t)) as [X|X]; [|exact X]. apply (TOFF OS) in X. lra.
    - intros [OS X]. destruct (Qlt_le_dec (tval tk (ct_off_sensor (ctl (hour_of t iv)))) (ct_off_trigger (ctl (hour_of t iv)))) as [Z|Z]; [|exact Z]. apply (TOFF OS) in Z. lra. }
  split. { intros ->. assert (OZ : so_output o == 0) by (rewrite EQ; exact (Z0 eq_refl)). split; [rewrite N1 by lra; exact EY|exact OZ]. }
  split. { intros ->. destruct (Z1 eq_refl) as [Z2 Z3]. rewrite <- EQ in Z2, Z3. assert (X : 0 < so_output o) by lra. split; [exact X|]. split.
    { unfold G, heated. apply qdiv_pos; [|apply qmul_pos; [reflexivity|lra]]. apply qdiv_pos; [|reflexivity]. apply qmul_pos; [lra|change 0 with (inject_Z 0); unfold qz; rewrite <- Zlt_Qlt; exact Piv]. }
    rewrite (P1 X), EV, EY. pose proof (heated_le (so_output o) high iv storage (st_inlet tk) warm ltac:(lra) Z3 Piv IW ltac:(lra)) as HL.
    change (high * 1000 * qz iv / 60 / (rho_cp * (storage - warm))) with G in HL. unfold heated in HL. qmm; lra. }
  split; [exact Ed|]. intro D0.
  destruct (Hmains _ _ Ei) as [M1 M2].
  assert (W1 : st_wf tk1) by (split; [rewrite V1, EV|rewrite L1, EL]; assumption).
  rewrite ES in *.
  destruct (draw_lowers tk1 (so_demand o) (so_inlet o) supply storage tk2 W1) as (V2 & L2 & I2 & O2 & Y2); [lra|exact D0|lra|exact E2|].
  rewrite V1, EV, L1, EL in Y2. fold floor in Y2.
  assert (FL0 : floor <= 0).
  { unfold floor. assert (0 <= vol * (storage - supply) / (100 * slope)) by (apply qdiv_nonneg; [apply Qmult_le_0_compat; lra|lra]). lra. }
  exists (hot tk2 storage). split; [|split; [exact Y2|]].
  - constructor; cbn [bs_heaters bs_supply bs_storage bs_tank]; try assumption; [reflexivity|revert Y2; qmm; lra|].
    exists tk2. split; [reflexivity|]. split; [congruence|]. split; [congruence|]. rewrite I2. split; [exact M1|]. split; [exact M2|]. split; [exact O2|reflexivity].
  - intro LE. assert (BL : blended (so_demand o) supply storage (so_inlet o) <= blended (so_demand o) supply storage cold) by (apply blended_le; lra).
    destruct (draw_hot tk1 (so_demand o) (so_inlet o) supply storage W1) as (tk2' & E2' & _ & _ & _ & _ & Y3); [lra|exact D0|lra|lra|rewrite V1, EV; exact Cap1|].
    rewrite E2 in E2'. apply ok_inj in E2'. subst tk2'. lra.
Qed.

Lemma cycle_sprtp ret flow loss t s s' o : 0 <= flow -> ret <= supply -> loss == flow * qz iv * (supply - ret) / (storage - warm) ->
  sprtp_step ret flow b s t iv = Ok (s', o) -> cycle_moves loss t s s' o.
Proof.
  intros F0 R0 EL0 H a y HS. destruct (sprtp_step_inv _ _ _ _ _ _ _ _ H) as (s1 & o1 & EB & TK).
  destruct (cycle_base t s s1 o1 EB a y HS) as (a' & y1 & A1 & A2 & A3 & A4 & A5 & A6).
  assert (TT : exists tk, bs_tank s1 = Some tk).
  { destruct HS as [_ _ _ _ _ (tk & ET0 & _)]. destruct (base_step_inv b s t iv s1 o1 tk ET0 EB) as (out & tk1 & tk2 & hs' & X). 
    destruct X as (_ & _ & _ & _ & _ & _ & _ & _ & _ & _ & _ & _ & _ & X & _). rewrite X. eexists. reflexivity. }
  destruct TT as (tk0 & ET0). destruct (TK tk0 ET0) as (_ & _ & _ & _ & _ & DE & _ & _ & OE & PE & _).
  exists a', y1. rewrite DE, OE. do 5 (split; [assumption|]). intros D0. destruct (A6 D0) as (y' & HS' & YU & YL).
  destruct HS' as [SH FL ES EG YV (tk & ET & EV & EL & IC & IW & EO & EY)]. destruct (TK tk ET) as (tk1 & ER & Eu & Ets & -> & _ & _ & EIN & _).
  assert (W : st_wf tk) by (split; [rewrite EV|rewrite EL]; assumption). assert (IS : st_inlet tk < storage) by lra. rewrite ES in *.
  destruct (recirc_hot tk flow ret (qz iv) supply storage W EO IS) as (tk1' & E1' & V1 & L1 & I1 & O1 & Y2). rewrite ER in E1'. apply ok_inj in E1'. subst tk1'.
  set (net := flow * qz iv * (supply - ret) / (storage - st_inlet tk)) in *.
  assert (NL : 0 <= net /\ net <= loss).
  { assert (P : 0 <= flow * qz iv * (supply - ret)) by (apply Qmult_le_0_compat; [|lra]; apply Qmult_le_0_compat; [exact F0|apply qz_nonneg; lia]).
    split; [unfold net; apply qdiv_nonneg; [exact P|lra]|]. rewrite EL0. unfold net. apply qdiv_le_iff; [lra|].
    setoid_replace (flow * qz iv * (supply - ret) / (storage - warm) * (storage - st_inlet tk))
      with ((flow * qz iv * (supply - ret) * (storage - st_inlet tk)) / (storage - warm)) by (field; lra).
    apply Qle_shift_div_l; [lra|]. rewrite !(Qmult_comm (flow * qz iv * (supply - ret))). apply Qmult_le_compat_r; [lra|exact P]. }
  exists (hot tk1 storage). split; [|split].
  - constructor; cbn [bs_heaters bs_supply bs_storage bs_tank]; try assumption; [reflexivity|lra|].
    exists tk1. split; [reflexivity|]. split; [congruence|]. split; [congruence|]. rewrite I1. split; [exact IC|]. split; [exact IW|]. split; [exact O1|reflexivity].
  - lra.
  - intro LE. assert (L2 : blended (so_demand o1) supply storage cold + 0 <= y1) by lra. specialize (YL L2). lra.
Qed.

Lemma cycle_parallel t p p' o : parallel_step b p t iv = Ok (p', o) -> cycle_moves 0 t (ps_base p) (ps_base p') o.
Proof.
  intros H a y HS. destruct (parallel_step_inv _ _ _ _ _ _ H) as (s1 & o1 & tk & h & temp & out & kw & EB & _ & -> & _ & _ & _ & D & U & OE & PE & _ & _ & T & _ & DV).
  destruct (cycle_base t _ s1 o1 EB a y HS) as (a' & y1 & A). exists a', y1. rewrite D, OE. exact A.
Qed.

Lemma cycle_more l l' t s s' o : l <= l' -> cycle_moves l t s s' o -> cycle_moves l' t s s' o.
Proof.
  intros L M a y HS. destruct (M a y HS) as (a' & y1 & A1 & A2 & A3 & A4 & A5 & A6). exists a', y1. do 5 (split; [assumption|]).
  intros D0. destruct (A6 D0) as (y' & H1 & H2 & H3). exists y'. split; [exact H1|]. split; [exact H2|]. intro LE. assert (X : blended (so_demand o) supply storage cold + l <= y1) by lra. specialize (H3 X). lra.
Qed.

Section Run.
Context {St : Type} (stp : St -> Z -> Z -> res (St * step_out)) (core : St -> bsys) (loss : Q).
Hypothesis Hstep : forall t s s' o, stp s t iv = Ok (s', o) -> cycle_moves loss t (core s) (core s') o.
Variables (d : nat -> Q) (N : nat).
Hypothesis Hd : forall k, (k < N)%nat -> bd_load b (Z.of_nat k) iv ua = Ok (d k) /\ 0 <= d k.
Let D k := blended (d k) supply storage cold + loss.
Let On k := Yon (Z.of_nat k).
Let Off k := Yoff (Z.of_nat k).

(** The flags [f] and hot gallons [g] with which the steps begin. *)
Lemma run_cycle : forall outs n s a y s', (n + length outs <= N)%nat -> hot_state (core s) a y ->
  executed stp iv s (Z.of_nat n) outs s' ->
  exists (f : nat -> bool) (g : nat -> Q), f n = a /\ g n = y /\
    forall k o, nth_error outs k = Some o -> let i := (n + k)%nat in
      (f i = false -> (f (S i) = true <-> g i < On i)) /\
      (f i = true -> (f (S i) = false <-> ct_off_trigger (ctl (hour_of (Z.of_nat i) iv)) <= storage /\ Off i <= g i)) /\
      (f (S i) = false -> so_output o == 0 /\ (D i <= g i -> g i - D i <= g (S i))) /\
      (f (S i) = true -> 0 < so_output o /\ 0 < G /\ g (S i) <= qmax (g i + G) floor).
Proof.
  induction outs as [|o outs IH]; intros n s a y s' L HS EX.
  { exists (fun _ => a), (fun _ => y). split; [reflexivity|]. split; [reflexivity|]. intros [|k] o X; discriminate X. }
  cbn in L. destruct EX as (s1 & E & EX).
  destruct (Hstep _ _ _ _ E a y HS) as (a' & y1 & A1 & A2 & A3 & A4 & A5 & A6). destruct (Hd n ltac:(lia)) as [EL D0].
  rewrite EL in A5. apply ok_inj in A5. rewrite <- A5 in *. destruct (A6 D0) as (y' & HS' & YU & YL). fold (D n) in YL.
  destruct (IH (S n) s1 a' y' s') as (f & g & Ef & Eg & R); [lia|exact HS'|replace (Z.of_nat (S n)) with (Z.of_nat n + 1)%Z by lia; exact EX|].
  exists (fun k => if (k =? n)%nat then a else f k), (fun k => if (k =? n)%nat then y else g k).
  split; [rewrite Nat.eqb_refl; reflexivity|]. split; [rewrite Nat.eqb_refl; reflexivity|].
  intros [|k] o' X.
  - injection X as <-. cbv zeta. rewrite !Nat.add_0_r, Nat.eqb_refl. replace (S n =? n)%nat with false by (symmetry; apply Nat.eqb_neq; lia).
    rewrite Ef, Eg. split; [exact A1|]. split; [exact A2|]. split.
    + intro Z. destruct (A3 Z) as [Z1 Z2]. split; [exact Z2|]. intro LE. specialize (YL ltac:(lra)). lra.
    + intro Z. destruct (A4 Z) as (Z1 & Z0 & Z2). split; [exact Z1|]. split; [exact Z0|]. revert YU. qmm; lra.
  - cbn in X. specialize (R k o' X). cbv zeta in *. replace (n + S k)%nat with (S n + k)%nat by lia.
    replace (S n + k =? n)%nat with false by (symmetry; apply Nat.eqb_neq; lia).
    replace (S (S n + k) =? n)%nat with false by (symmetry; apply Nat.eqb_neq; lia). exact R.
Qed.

Section Course.
Variables (outs : list step_out) (s : St) (y : Q) (s' : St).
Hypothesis HL : (length outs <= N)%nat.
Hypothesis HI : hot_state (core s) false y.
Hypothesis HX : executed stp iv s 0 outs s'.

Lemma prev_out n o : nth_error outs (S n) = Some o -> exists o', nth_error outs n = Some o'.
Proof.
  intro X. destruct (nth_error outs n) eqn:Z; [eexists; reflexivity|]. apply nth_error_None in Z. assert (nth_error outs (S n) = None) by (apply nth_error_None; lia). congruence.
Qed.

(** A run lasts. *)
Lemma run_lasts q m : (exists o, nth_error outs q = Some o /\ ~ so_output o == 0) ->
  (forall n, q = S n -> exists o, nth_error outs n = Some o /\ so_output o == 0) ->
  (forall i, (i <= m)%nat -> On q + inject_Z (Z.of_nat i) * G <= Off (q + i)) ->
  forall i o, (i <= m)%nat -> nth_error outs (q + i) = Some o -> 0 < so_output o.
Proof.
  intros (o0 & X0 & NZ) PV BAND. destruct (run_cycle outs 0 s false y s' HL HI HX) as (f & g & Ef & _ & R). cbn [Nat.add] in R. cbv zeta in R.
  assert (FQ : f q = false).
  { destruct q as [|n]; [exact Ef|]. destruct (PV n eq_refl) as (o & X & Z). destruct (R n o X) as (_ & _ & _ & R4). destruct (f (S n)); [|reflexivity]. destruct (R4 eq_refl). lra. }
  assert (FS : f (S q) = true).
  { destruct (R q o0 X0) as (_ & _ & R3 & _). destruct (f (S q)); [reflexivity|]. destruct (R3 eq_refl). contradiction. }
  destruct (R q o0 X0) as (R1 & _ & _ & R4). destruct (R4 FS) as (_ & G0 & _). pose proof (proj1 (R1 FQ) FS) as GQ.
  pose proof (floor_below (Z.of_nat q)) as FB. fold (On q) in FB.
  assert (M : forall i o, (i <= m)%nat -> nth_error outs (q + i) = Some o -> g (q + i)%nat < On q + inject_Z (Z.of_nat i) * G /\ f (S (q + i)) = true).
  { induction i as [|i IH]; intros o I X.
    - rewrite Nat.add_0_r. split; [change (inject_Z (Z.of_nat 0)) with 0; lra|exact FS].
    - replace (q + S i)%nat with (S (q + i)) in * by lia. destruct (prev_out _ _ X) as (o' & X'). destruct (IH o' ltac:(lia) X') as [I1 I2].
      destruct (R _ _ X') as (_ & _ & _ & R5). destruct (R5 I2) as (_ & _ & U).
      assert (SI : inject_Z (Z.of_nat (S i)) * G == inject_Z (Z.of_nat i) * G + G) by (rewrite Nat2Z.inj_succ; unfold Z.succ; rewrite inject_Z_plus; change (inject_Z 1) with 1; ring).
      assert (NN : 0 <= inject_Z (Z.of_nat i) * G) by (apply Qmult_le_0_compat; [change 0 with (inject_Z 0); rewrite <- Zle_Qle; lia|lra]).
      assert (GL : g (S (q + i)) < On q + inject_Z (Z.of_nat (S i)) * G) by (rewrite SI; revert U; qmm; lra).
      split; [exact GL|]. destruct (R _ _ X) as (_ & R6 & _). destruct (f (S (S (q + i)))) eqn:Z; [reflexivity|]. destruct (proj1 (R6 I2) eq_refl) as [_ Z'].
      specialize (BAND (S i) I). replace (q + S i)%nat with (S (q + i)) in BAND by lia. lra. }
  intros i o I X. destruct (M i o I X) as [_ M2]. destruct (R _ _ X) as (_ & _ & _ & R7). exact (proj1 (R7 M2)).
Qed.

(** A rest lasts. *)
Lemma rest_lasts n m : (exists o, nth_error outs n = Some o /\ ~ so_output o == 0) ->
  (exists o, nth_error outs (S n) = Some o /\ so_output o == 0) ->
  (forall i, (i <= m)%nat -> 0 <= On (S n + i) /\ On (S n + i) + qsum (map D (seq (S n) i)) <= Off (S n)) ->
  forall i o, (i <= m)%nat -> nth_error outs (S n + i) = Some o -> so_output o == 0.
Proof.
  intros (o0 & X0 & NZ) (o1 & X1 & Z1) BAND. destruct (run_cycle outs 0 s false y s' HL HI HX) as (f & g & Ef & _ & R). cbn [Nat.add] in R. cbv zeta in R.
  set (q := S n) in *.
  assert (FQ : f q = true).
  { destruct (R n o0 X0) as (_ & _ & R3 & _). fold q in R3. destruct (f q); [reflexivity|]. destruct (R3 eq_refl). contradiction. }
  assert (FS : f (S q) = false).
  { destruct (R q o1 X1) as (_ & _ & _ & R4). destruct (f (S q)); [|reflexivity]. destruct (R4 eq_refl). lra. }
  destruct (R q o1 X1) as (_ & R2 & _ & _). destruct (proj1 (R2 FQ) FS) as [_ GQ].
  assert (SS : forall i, qsum (map D (seq q (S i))) == qsum (map D (seq q i)) + D (q + i)%nat).
  { intro i. rewrite seq_S, map_app. cbn [map]. generalize (map D (seq q i)), (D (q + i)%nat). intros l x. induction l as [|z l IH]; [cbn; ring|]. change (qsum ((z :: l) ++ [x])) with (z + qsum (l ++ [x])). change (qsum (z :: l)) with (z + qsum l). rewrite IH. ring. }
  assert (M : forall i o, (i <= m)%nat -> nth_error outs (q + i) = Some o -> Off q - qsum (map D (seq q i)) <= g (q + i)%nat /\ f (S (q + i)) = false).
  { induction i as [|i IH]; intros o I X.
    - rewrite Nat.add_0_r. split; [change (qsum (map D (seq q 0))) with 0; lra|exact FS].
    - replace (q + S i)%nat with (S (q + i)) in * by lia. destruct (prev_out _ _ X) as (o' & X'). destruct (IH o' ltac:(lia) X') as [I1 I2].
      destruct (BAND (S i) I) as [B1 B2]. replace (q + S i)%nat with (S (q + i)) in B1, B2 by lia. rewrite SS in *.
      destruct (R _ _ X') as (_ & _ & R5 & _). destruct (R5 I2) as (_ & R5'). specialize (R5' ltac:(lra)).
      split; [lra|]. destruct (R _ _ X) as (R6 & _). destruct (f (S (S (q + i)))) eqn:Z; [|reflexivity]. pose proof (proj1 (R6 I2) eq_refl). lra. }
  intros i o I X. destruct (M i o I X) as [_ M2]. destruct (R _ _ X) as (_ & _ & R7 & _). exact (proj1 (R7 M2)).
Qed.
End Course.
End Run.
End Cycle.
