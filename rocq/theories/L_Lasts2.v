(** Simulated steps of a tank whose fully hot part never empties. *)
From Verif Require Import Prelude M_StratifiedTank S_StratifiedTank L_StratifiedTank L_StratifiedTank2 L_StratifiedTank3
  M_Building L_Building M_Heater S_Heater L_Heater M_SimRun S_SimRun L_SimMisc M_Step S_Step L_Step L_Step2 L_Step3 L_Step4 M_Engine S_Engine S_Lasts L_Lasts.
Open Scope Q_scope.

(** ** Sums *)

Lemma shortfall_S d g i n : shortfall d g i (S n) == shortfall d g i n + (d (i + n)%nat - g).
Proof.
  unfold shortfall. rewrite seq_S, map_app. cbn [map].
  assert (A : forall l x, qsum (l ++ [x]) == qsum l + x).
  { induction l as [|y l IH]; intro x; cbn; [ring|]. rewrite IH. ring. }
  apply A.
Qed.
Lemma shortfall_O d g i : shortfall d g i 0 == 0. Proof. reflexivity. Qed.

(** ** A reserve drained and refilled *)

Section Reserve.
Variables (D : nat -> Q) (G top Yon Y0 vol : Q) (N : nat).
Hypothesis Htop : forall k, (k < N)%nat -> D k <= top.
Hypothesis Hwin : forall i n, (i + n <= N)%nat -> shortfall D G i n + top <= Yon.
Hypothesis Hstart : forall n, (n <= N)%nat -> shortfall D G 0 n <= Y0.
Hypothesis Hcap : Yon <= vol.

Definition Kept (n : nat) (y : Q) : Prop :=
  (exists i, (i <= n)%nat /\ Yon - top - shortfall D G i (n - i) <= y) \/ Y0 - shortfall D G 0 n <= y.

Lemma kept_nonneg n y : (n <= N)%nat -> Kept n y -> 0 <= y.
Proof.
  intros L [(i & I & H)|H]; [specialize (Hwin i (n - i)); rewrite Nat.add_comm, Nat.sub_add in Hwin by exact I; specialize (Hwin L); lra|].
  specialize (Hstart n L). lra.
Qed.

Lemma kept_step n y y' : (n < N)%nat -> Kept n y -> (Yon - D n <= y' \/ qmin (y + G) vol - D n <= y') -> Kept (S n) y'.
Proof.
  intros L K H. assert (R : Yon - D n <= y' -> Kept (S n) y').
  { intro X. left. exists (S n). split; [lia|]. rewrite Nat.sub_diag, shortfall_O. specialize (Htop n L). lra. }
  destruct H as [H|H]; [exact (R H)|]. destruct (Qlt_le_dec (y + G) vol) as [X|X].
  - assert (E : qmin (y + G) vol == y + G) by (qmm; lra). rewrite E in H. destruct K as [(i & I & K)|K].
    + left. exists i. split; [lia|]. replace (S n - i)%nat with (S (n - i)) by lia. rewrite shortfall_S. replace (i + (n - i))%nat with n by lia. lra.
    + right. rewrite shortfall_S. cbn [Nat.add]. lra.
  - apply R. assert (E : qmin (y + G) vol == vol) by (qmm; lra). lra.
Qed.
End Reserve.

(** ** One step *)

Lemma blended_le d s h c i : 0 <= d -> c <= i -> i < h -> s <= h -> blended d s h i <= blended d s h c.
Proof.
  intros D C I S. unfold blended. apply qdiv_le_iff; [lra|]. setoid_replace (d * (s - c) / (h - c) * (h - i)) with (d * ((s - c) * (h - i)) / (h - c)) by (field; lra).
  apply Qle_shift_div_l; [lra|]. assert ((s - i) * (h - c) <= (s - c) * (h - i)) by nra.
  setoid_replace (d * (s - i) * (h - c)) with (d * ((s - i) * (h - c))) by ring. nra.
Qed.
Lemma heated_le K k iv h c i : 0 <= K -> K <= k -> (0 < iv)%Z -> c <= i -> i < h -> heated K iv h c <= k * 1000 * qz iv / 60 / (rho_cp * (h - i)).
Proof.
  intros K0 Kk P C I. unfold heated. assert (R : 0 < rho_cp) by reflexivity.
  assert (A : 0 < rho_cp * (h - i)) by (apply Qmult_lt_0_compat; lra). assert (B : 0 < rho_cp * (h - c)) by (apply Qmult_lt_0_compat; lra).
  assert (Q0 : 0 <= qz iv) by (apply qz_nonneg; lia).
  apply qdiv_le_iff; [exact B|].
  setoid_replace (k * 1000 * qz iv / 60 / (rho_cp * (h - i)) * (rho_cp * (h - c))) with ((k * 1000 * qz iv / 60 * (rho_cp * (h - c))) / (rho_cp * (h - i)))
    by (field; split; [lra|discriminate]).
  apply Qle_shift_div_l; [exact A|].
  assert (L1 : K * 1000 * qz iv / 60 <= k * 1000 * qz iv / 60) by (apply Qmult_le_compat_r; [|discriminate]; apply Qmult_le_compat_r; lra).
  assert (L2 : rho_cp * (h - i) <= rho_cp * (h - c)) by (apply Qmult_le_l; lra).
  assert (L3 : 0 <= K * 1000 * qz iv / 60) by (apply qdiv_nonneg; [apply Qmult_le_0_compat; lra|reflexivity]).
  apply Qle_trans with (K * 1000 * qz iv / 60 * (rho_cp * (h - c))); [|apply Qmult_le_compat_r; lra].
  rewrite !(Qmult_comm (K * 1000 * qz iv / 60)). apply Qmult_le_compat_r; assumption.
Qed.

Section Step.
Variables (b : building) (iv : Z) (hs0 : list heater) (supply storage vol slope cold warm K aq on_t offs off_t : Q).
Hypotheses (Piv : (0 < iv)%Z) (Pvol : 0 < vol) (Pslope : 0 < slope).
Hypotheses (Hcold : cold <= warm) (Hwarm : warm < on_t) (Hon : on_t <= storage) (Hsup : warm < supply) (Hsto : supply < storage).
Hypotheses (Hoff : on_t <= off_t) (Hsens : offs <= aq).
Hypothesis Hmains : forall t x, bd_inlet b t iv = Ok x -> cold <= x /\ x <= warm.
Hypothesis Hctl : forall h hour c, In h hs0 -> in_effect h hour c -> c = mkControls aq on_t offs off_t storage.
Hypothesis Hplain : existsb wh_load_shifting hs0 = false.
Hypothesis HK0 : 0 <= K.
Hypothesis HK : give_at_least b iv hs0 storage K.

Let Yon := hot_reserve vol slope storage aq on_t.
Let G := heated K iv storage cold.

Record hot_state (s : bsys) (a : bool) (y : Q) : Prop := {
  hs_heaters : Forall2 same_heater hs0 (bs_heaters s);
  hs_flags : forall h, In h (bs_heaters s) -> wh_active h = a;
  hs_supply : bs_supply s = supply;
  hs_storage : bs_storage s = storage;
  hs_cap : y <= vol;
  hs_tank : exists tk, bs_tank s = Some tk /\ st_vol tk = vol /\ st_slope tk = slope /\ cold <= st_inlet tk /\ st_inlet tk <= warm /\
              st_outlet tk = storage /\ hot tk storage == y }.

Definition hot_out (o : step_out) : Prop :=
  qmin vol (vol * (storage - supply) / (100 * slope)) <= so_usable o /\ so_delivery o = None /\ length (so_temps o) = 6%nat /\ last (so_temps o) 0 == storage.

(** What a step of the system does to the hot part. *)
Definition moves (loss : Q) (t : Z) (s s' : bsys) (o : step_out) : Prop := forall a y, hot_state s a y ->
  exists a' y1, (a' = false -> Yon <= y /\ y <= y1) /\ (a' = true -> qmin (y + G) vol <= y1) /\ y1 <= vol /\
    bd_load b t iv false = Ok (so_demand o) /\
    (0 <= so_demand o -> blended (so_demand o) supply storage cold + loss <= y1 ->
     exists y', y1 - (blended (so_demand o) supply storage cold + loss) <= y' /\ hot_state s' a' y' /\ hot_out o).


Let ctl := mkControls aq on_t offs off_t storage.

Lemma flags tk hs hs' hour a : st_wf tk -> (0 <= hour)%Z -> Forall2 same_heater hs0 hs -> (forall h, In h hs -> wh_active h = a) ->
  aquastats hs hs' (st_temp tk) hour -> (forall h, In h hs' -> exists c, in_effect h hour c) ->
  exists a', (forall h, In h hs' -> wh_active h = a') /\
    (a' = false -> a = false -> on_t <= tval tk aq) /\ (a' = false -> a = true -> off_t <= tval tk offs).
Proof.
  intros W Hh F A Q E.
  (* the controls of every heater *)
  assert (C : Forall2 (fun h h' => In h hs /\ same_heater h h' /\ in_effect h hour ctl /\ In h' hs') hs hs' /\
              Forall2 (fun h h' => (wh_active h = false -> (wh_active h' = true <-> calls_on h (st_temp tk, hour))) /\
                                   (wh_active h = true -> (wh_active h' = false <-> calls_off h (st_temp tk, hour)))) hs hs').
  { assert (P : forall h, In h hs -> forall c, in_effect h hour c -> c = ctl).
    { clear - F Hctl. intros h I c IE. induction F as [|x y l l' S F IH]; [destruct I|]. destruct I as [<-|I].
      - destruct S as (_ & S2 & S3). apply (Hctl x hour c); [left; reflexivity|]. apply (in_effect_same x y hour c S2 S3). exact IE.
      - apply IH; [|exact I]. intros h' hr c' I' E'. apply (Hctl h' hr c'); [right; exact I'|exact E']. }
    clear F A. unfold aquastats in Q. split.
    - assert (Z : forall l l', Forall2 (fun h h' => same_heater h h' /\ (wh_active h = false -> (wh_active h' = true <-> calls_on h (st_temp tk, hour))) /\
                 (wh_active h = true -> (wh_active h' = false <-> calls_off h (st_temp tk, hour)))) l l' ->
                (forall h, In h l -> In h hs) -> (forall h, In h l' -> In h hs') ->
                Forall2 (fun h h' => In h hs /\ same_heater h h' /\ in_effect h hour ctl /\ In h' hs') l l').
      { intros l l' X. induction X as [|x y l l' (S & _) X IH]; intros I1 I2; constructor.
        - split; [apply I1; left; reflexivity|]. split; [exact S|]. split; [|apply I2; left; reflexivity].
          destruct (E y (I2 y (or_introl eq_refl))) as (c & IE). destruct S as (_ & S2 & S3).
          apply (in_effect_same x y hour c S2 S3) in IE. rewrite <- (P x (I1 x (or_introl eq_refl)) c IE). exact IE.
        - apply IH; intros h I; [apply I1|apply I2]; right; exact I. }
      apply Z; [exact Q|auto|auto].
    - clear - Q. induction Q as [|x y l l' (_ & S) X IH]; constructor; [exact S|exact IH]. }
  destruct C as [C1 C2].
  assert (T : forall f, st_temp tk f = Ok (tval tk f)) by (intro f; apply st_temp_ok; exact W).
  destruct a.
  - exists (negb (Qle_bool off_t (tval tk offs))). split; [|split; [intros _ X; discriminate|intros X _; apply negb_false_iff in X; qbool; lra]].
    intros h' I'. assert (exists h, In h hs /\ in_effect h hour ctl /\ (wh_active h = true -> (wh_active h' = false <-> calls_off h (st_temp tk, hour)))) as (h & I & IE & B).
    { clear - C1 C2 I'.
      assert (Z : forall l l', Forall2 (fun h h'0 => In h hs /\ same_heater h h'0 /\ in_effect h hour ctl /\ In h'0 hs') l l' -> 
                  Forall2 (fun h h'0 => (wh_active h = false -> (wh_active h'0 = true <-> calls_on h (st_temp tk, hour))) /\ (wh_active h = true -> (wh_active h'0 = false <-> calls_off h (st_temp tk, hour)))) l l' -> In h' l' -> 
                  exists h, In h hs /\ in_effect h hour ctl /\ (wh_active h = true -> (wh_active h' = false <-> calls_off h (st_temp tk, hour)))).
      { clear. intros l l' A B I. induction B as [|x y l l' (_ & B) X IH]; [destruct I|]. inversion A as [|x' y' m m' (K1 & _ & K2 & _) K3]; subst.
        destruct I as [<-|I]; [exists x; auto|]. exact (IH K3 I). }
      exact (Z hs hs' C1 C2 I'). }
    specialize (B (A h I)). destruct (Qle_bool off_t (tval tk offs)) eqn:Z; qbool; cbn [negb].
    + apply B. exists ctl, (tval tk offs). cbn. split; [exact IE|]. split; [apply T|lra].
    + destruct (wh_active h') eqn:WA; [reflexivity|]. exfalso. destruct (proj1 B eq_refl) as (c & x & IE' & Tx & Le). cbn in IE', Tx.
      rewrite (in_effect_unique _ _ _ _ IE' IE) in *. cbn in Tx, Le. rewrite T in Tx. apply ok_inj in Tx. subst x. lra.
  - exists (qltb (tval tk aq) on_t). split; [|split; [intros X _; qbool; lra|intros _ X; discriminate]].
    intros h' I'. assert (exists h, In h hs /\ in_effect h hour ctl /\ (wh_active h = false -> (wh_active h' = true <-> calls_on h (st_temp tk, hour)))) as (h & I & IE & B).
    { clear - C1 C2 I'.
      assert (Z : forall l l', Forall2 (fun h h'0 => In h hs /\ same_heater h h'0 /\ in_effect h hour ctl /\ In h'0 hs') l l' -> 
                  Forall2 (fun h h'0 => (wh_active h = false -> (wh_active h'0 = true <-> calls_on h (st_temp tk, hour))) /\ (wh_active h = true -> (wh_active h'0 = false <-> calls_off h (st_temp tk, hour)))) l l' -> In h' l' -> 
                  exists h, In h hs /\ in_effect h hour ctl /\ (wh_active h = false -> (wh_active h' = true <-> calls_on h (st_temp tk, hour)))).
      { clear. intros l l' A B I. induction B as [|x y l l' (B & _) X IH]; [destruct I|]. inversion A as [|x' y' m m' (K1 & _ & K2 & _) K3]; subst.
        destruct I as [<-|I]; [exists x; auto|]. exact (IH K3 I). }
      exact (Z hs hs' C1 C2 I'). }
    specialize (B (A h I)). destruct (qltb (tval tk aq) on_t) eqn:Z; qbool.
    + apply B. exists ctl, (tval tk aq). cbn. split; [exact IE|]. split; [apply T|lra].
    + destruct (wh_active h') eqn:WA; [|reflexivity]. exfalso. destruct (proj1 B eq_refl) as (c & x & IE' & Tx & Le). cbn in IE', Tx.
      rewrite (in_effect_unique _ _ _ _ IE' IE) in *. cbn in Tx, Le. rewrite T in Tx. apply ok_inj in Tx. subst x. lra.
Qed.

(** The outlet temperature is the storage temperature. *)
Lemma outlet_storage hs hour x : (0 <= hour)%Z -> Forall2 same_heater hs0 hs -> outlet_for hs storage hour = Ok x -> x = storage.
Proof.
  intros Hh F H. apply outlet_for_spec in H; [|exact Hh]. apply (setpoint_same hs hs0) in H; [|apply same_all_sym; exact F].
  destruct H as [[_ ->]|[(h & c & I & E & <-) _]]; [reflexivity|]. rewrite (Hctl h hour c I E). reflexivity.
Qed.

(** What the heaters give, all on or all off. *)
Lemma output_flags hs l oat inlet hour t a : (0 <= hour)%Z -> Forall2 same_heater hs0 hs -> (forall h, In h hs -> wh_active h = a) ->
  bd_oat b t iv = Ok oat -> bd_inlet b t iv = Ok inlet -> Forall2 (heater_gives oat inlet hour) hs l ->
  (a = false -> qsum l == 0) /\ (a = true -> K <= qsum l).
Proof.
  intros Hh F A EO EI H. split; intros ->.
  - clear - A H. induction H as [|h x hs l (c & _ & E) H IH]; [reflexivity|]. destruct E as [[_ ->]|[E _]].
    + change (qsum (0 :: l)) with (0 + qsum l). rewrite IH; [ring|]. intros h' I. apply A. right. exact I.
    + rewrite (A h (or_introl eq_refl)) in E. discriminate.
  - apply (HK t oat inlet l EO EI). clear HK. clear Hplain. revert hs F A H. revert l. induction hs0 as [|h0 r IH]; intros l hs F A H.
    + inversion F; subst. inversion H; subst. constructor.
    + inversion F as [|h0' h r' hs' S F']; subst. inversion H as [|h1 x r1 l' (c & IE & E) H']; subst. constructor.
      * destruct S as (S1 & S2 & S3). destruct E as [[E _]|[_ (cap & E & ->)]]; [rewrite (A h (or_introl eq_refl)) in E; discriminate|].
        exists cap. split; [|reflexivity]. apply (in_effect_same h0 h hour c S2 S3) in IE.
        rewrite (Hctl h0 hour c (or_introl eq_refl) IE) in E. cbn [ct_outlet] in E. unfold wh_capacity in *. rewrite S1 in E. exact E.
      * apply (IH (fun h' hr c' I' E' => Hctl h' hr c' (or_intror I') E') l' hs' F'); [|exact H']. intros h' I. apply A. right. exact I.
Qed.

Lemma moves_base t s s' o : base_step b s t iv = Ok (s', o) -> moves 0 t s s' o.
Proof.
  intros H a y [SH FL ES EG YV (tk & ET & EV & EL & IC & IW & EO & EY)].
  destruct (base_step_inv b s t iv s' o tk ET H) as (out & tk1 & tk2 & hs' & Ed & Eo & Ei & Eout & Ehs & Eq & E1 & E2 & Eu & Ets & Em & DN & _ & -> & _).
  pose proof (proj1 (hour_of_range t iv)) as Hh.
  assert (W : st_wf tk) by (split; [rewrite EV|rewrite EL]; assumption).
  rewrite EG in Eout. pose proof (outlet_storage _ _ _ Hh SH Eout) as ->.
  pose proof (aquastats_of _ _ _ _ Hh Ehs) as AQ. pose proof (aquastats_same _ _ _ _ AQ) as SS. pose proof (same_all_trans _ _ _ SH SS) as SH'.
  destruct (total_output_spec _ _ _ _ _ Hh Eq) as (l & HG & EQ).
  assert (IE : forall h, In h hs' -> exists c, in_effect h (hour_of t iv) c).
  { clear - HG. induction HG as [|h x hs l (c & E & _) H IH]; intros h' I; [destruct I|]. destruct I as [<-|I]; [exists c; exact E|exact (IH h' I)]. }
  destruct (flags tk (bs_heaters s) hs' (hour_of t iv) a W Hh SH FL AQ IE) as (a' & FL' & T1 & T2).
  destruct (output_flags hs' l _ _ _ t a' Hh SH' FL' Eo Ei HG) as [Z0 Z1].
  rewrite (shifting_same _ _ SH), Hplain in Ed.
  assert (IS : st_inlet tk < storage) by lra.
  destruct (heat_hot tk (so_output o) (qz iv) storage W IS) as (tk1' & E1' & V1 & L1 & I1 & O1 & N1 & P1). rewrite E1 in E1'. apply ok_inj in E1'. subst tk1'.
  exists a', (hot tk1 storage).
  assert (Cap1 : hot tk1 storage <= vol).
  { destruct (Qlt_le_dec 0 (so_output o)) as [X|X]; [rewrite (P1 X), EV; qmm; lra|rewrite (N1 X); lra]. }
  split. { intros ->. assert (OZ : so_output o <= 0) by (rewrite EQ; rewrite (Z0 eq_refl); lra). rewrite (N1 OZ).
    split; [|lra]. destruct (Qlt_le_dec y Yon) as [X|X]; [exfalso|exact X].
    assert (tval tk aq < on_t). { apply (temp_hot tk storage aq on_t W EO); [lra|exact Hon|]. rewrite EV, EL, EY. exact X. }
    destruct a; [|specialize (T1 eq_refl eq_refl); lra]. specialize (T2 eq_refl eq_refl). pose proof (tval_mono tk offs aq W Hsens). lra. }
  split. { intros ->. specialize (Z1 eq_refl). rewrite <- EQ in Z1. destruct (Qlt_le_dec 0 (so_output o)) as [X|X].
    - rewrite (P1 X), EV, EY. pose proof (heated_le K (so_output o) iv storage cold (st_inlet tk) HK0 Z1 Piv IC IS) as HL. fold G in HL. qmm; lra.
    - rewrite (N1 X), EY. assert (KZ : K == 0) by lra. assert (GZ : G == 0).
      { unfold G, heated. rewrite KZ. field. split; [lra|discriminate]. }
      rewrite GZ. qmm; lra. }
  split; [exact Cap1|]. split; [exact Ed|]. intros D0 LE.
  destruct (Hmains _ _ Ei) as [M1 M2].
  assert (W1 : st_wf tk1) by (split; [rewrite V1, EV|rewrite L1, EL]; assumption).
  assert (BL : blended (so_demand o) supply storage (so_inlet o) <= blended (so_demand o) supply storage cold) by (apply blended_le; lra).
  rewrite ES in *.
  destruct (draw_hot tk1 (so_demand o) (so_inlet o) supply storage W1) as (tk2' & E2' & V2 & L2 & I2 & O2 & Y2); [lra|exact D0|lra|lra|rewrite V1, EV; exact Cap1|].
  rewrite E2 in E2'. apply ok_inj in E2'. subst tk2'.
  assert (B0 : 0 <= blended (so_demand o) supply storage (so_inlet o)) by (unfold blended; apply qdiv_nonneg; [apply Qmult_le_0_compat; lra|lra]).
  assert (W2 : st_wf tk2) by (split; [rewrite V2, V1, EV|rewrite L2, L1, EL]; assumption).
  exists (hot tk2 storage). split; [lra|]. split.
  - constructor; cbn [bs_heaters bs_supply bs_storage bs_tank]; try assumption; [reflexivity|lra|].
    exists tk2. split; [reflexivity|]. split; [congruence|]. split; [congruence|]. rewrite I2. split; [exact M1|]. split; [exact M2|]. split; [exact O2|reflexivity].
  - assert (HT : 0 <= hot tk2 storage) by lra.
    pose proof (usable_hot tk2 storage supply (so_usable o) W2) as U. rewrite V2, V1, EV, L2, L1, EL in U. specialize (U ltac:(lra) ltac:(lra) Eu).
    destruct (six_sorted tk2 _ W2 Ets) as (S6 & _). split; [rewrite U; qmm; lra|]. split; [exact DN|]. split; [exact S6|].
    rewrite six_temps_ok in Ets by exact W2. apply ok_inj in Ets. rewrite <- Ets. change (last (map (tval tk2) six_heights) 0) with (tval tk2 1).
    apply top_hot; [exact W2|exact O2|rewrite I2; lra|exact HT].
Qed.

Lemma sprtp_delivery ret flow s t s' o : sprtp_step ret flow b s t iv = Ok (s', o) -> exists s1 o1, base_step b s t iv = Ok (s1, o1) /\ so_delivery o = so_delivery o1.
Proof.
  unfold sprtp_step. intro H. destruct (bind_ok _ _ _ H) as ([s1 o1] & E & H1). exists s1, o1. split; [exact E|].
  destruct (bs_tank s1) as [tk|].
  - destruct (bind_ok _ _ _ H1) as (tk1 & _ & H2). destruct (bind_ok _ _ _ H2) as (u & _ & H3). destruct (bind_ok _ _ _ H3) as (ts & _ & H4).
    apply ok_inj in H4. apply pair_equal_spec in H4. destruct H4 as [_ <-]. reflexivity.
  - apply ok_inj in H1. apply pair_equal_spec in H1. destruct H1 as [_ <-]. reflexivity.
Qed.

Lemma moves_sprtp ret flow loss t s s' o : 0 <= flow -> ret <= supply -> loss == flow * qz iv * (supply - ret) / (storage - warm) ->
  sprtp_step ret flow b s t iv = Ok (s', o) -> moves loss t s s' o.
Proof.
  intros F0 R0 EL0 H a y HS. destruct (sprtp_delivery _ _ _ _ _ _ H) as (s1' & o1' & EB' & ED). destruct (sprtp_step_inv _ _ _ _ _ _ _ _ H) as (s1 & o1 & EB & TK).
  rewrite EB in EB'. apply ok_inj in EB'. apply pair_equal_spec in EB'. destruct EB' as [<- <-].
  destruct (moves_base t s s1 o1 EB a y HS) as (a' & y1 & A1 & A2 & A3 & A4 & A5).
  assert (L0 : 0 <= loss).
  { rewrite EL0. apply qdiv_nonneg; [|lra]. apply Qmult_le_0_compat; [|lra]. apply Qmult_le_0_compat; [exact F0|apply qz_nonneg; lia]. }
  assert (DE : so_demand o = so_demand o1).
  { destruct (bs_tank s1) as [tk|] eqn:ET.
    - destruct (TK tk eq_refl) as (tk1 & _ & _ & _ & _ & D & _). exact D.
    - exfalso. destruct HS as [_ _ _ _ _ (tk & ET0 & _)]. destruct (base_step_inv b s t iv s1 o1 tk ET0 EB) as (out & tk1 & tk2 & hs' & X). 
      destruct X as (_ & _ & _ & _ & _ & _ & _ & _ & _ & _ & _ & _ & _ & X & _). rewrite X in ET. discriminate. }
  exists a', y1. rewrite DE. do 4 (split; [assumption|]). intros D0 LE. destruct (A5 D0) as (y' & Y1 & HS' & (U & DN & S6 & TP)); [lra|].
  destruct HS' as [SH FL ES EG YV (tk & ET & EV & EL & IC & IW & EO & EY)]. destruct (TK tk ET) as (tk1 & ER & Eu & Ets & -> & _ & _ & EIN & _).
  assert (W : st_wf tk) by (split; [rewrite EV|rewrite EL]; assumption). assert (IS : st_inlet tk < storage) by lra. rewrite ES in *.
  destruct (recirc_hot tk flow ret (qz iv) supply storage W EO IS) as (tk1' & E1' & V1 & L1 & I1 & O1 & Y2). rewrite ER in E1'. apply ok_inj in E1'. subst tk1'.
  set (net := flow * qz iv * (supply - ret) / (storage - st_inlet tk)) in *.
  assert (NL : 0 <= net /\ net <= loss).
  { assert (P : 0 <= flow * qz iv * (supply - ret)) by (apply Qmult_le_0_compat; [|lra]; apply Qmult_le_0_compat; [exact F0|apply qz_nonneg; lia]).
    split; [unfold net; apply qdiv_nonneg; [exact P|lra]|]. rewrite EL0. unfold net. apply qdiv_le_iff; [lra|].
    setoid_replace (flow * qz iv * (supply - ret) / (storage - warm) * (storage - st_inlet tk))
      with ((flow * qz iv * (supply - ret) * (storage - st_inlet tk)) / (storage - warm)) by (field; lra).
    apply Qle_shift_div_l; [lra|]. rewrite !(Qmult_comm (flow * qz iv * (supply - ret))). apply Qmult_le_compat_r; [lra|exact P]. }
  assert (W1 : st_wf tk1) by (split; [rewrite V1, EV|rewrite L1, EL]; assumption).
  exists (hot tk1 storage). split; [lra|]. split.
  - constructor; cbn [bs_heaters bs_supply bs_storage bs_tank]; try assumption; [reflexivity|lra|].
    exists tk1. split; [reflexivity|]. split; [congruence|]. split; [congruence|]. rewrite I1. split; [exact IC|]. split; [exact IW|]. split; [exact O1|reflexivity].
  - assert (HT : 0 <= hot tk1 storage) by lra.
    pose proof (usable_hot tk1 storage supply (so_usable o) W1) as U'. rewrite V1, EV, L1, EL in U'. specialize (U' ltac:(lra) ltac:(lra) Eu).
    destruct (six_sorted tk1 _ W1 Ets) as (S6' & _). split; [rewrite U'; qmm; lra|]. split; [rewrite ED; exact DN|]. split; [exact S6'|].
    rewrite six_temps_ok in Ets by exact W1. apply ok_inj in Ets. rewrite <- Ets. change (last (map (tval tk1) six_heights) 0) with (tval tk1 1).
    apply top_hot; [exact W1|exact O1|rewrite I1; lra|exact HT].
Qed.

Lemma moves_parallel t p p' o : parallel_step b p t iv = Ok (p', o) -> moves 0 t (ps_base p) (ps_base p') o.
Proof.
  intros H a y HS. destruct (parallel_step_inv _ _ _ _ _ _ H) as (s1 & o1 & tk & h & temp & out & kw & EB & _ & -> & _ & _ & _ & D & U & _ & _ & _ & _ & T & _ & DV).
  destruct (moves_base t _ s1 o1 EB a y HS) as (a' & y1 & A1 & A2 & A3 & A4 & A5). exists a', y1. rewrite D. do 4 (split; [assumption|]).
  intros D0 LE. destruct (A5 D0 LE) as (y' & Y1 & HS' & (U' & DN & S6 & TP)). exists y'. split; [exact Y1|]. split; [exact HS'|].
  unfold hot_out. rewrite U, T, DV. auto.
Qed.

Lemma moves_more l l' t s s' o : l <= l' -> moves l t s s' o -> moves l' t s s' o.
Proof.
  intros L M a y HS. destruct (M a y HS) as (a' & y1 & A1 & A2 & A3 & A4 & A5). exists a', y1. do 4 (split; [assumption|]).
  intros D0 LE. destruct (A5 D0) as (y' & Y1 & R); [lra|]. exists y'. split; [lra|exact R].
Qed.

(** ** All steps *)

Section Run.
Context {St : Type} (stp : St -> Z -> Z -> res (St * step_out)) (core : St -> bsys) (loss : Q).
Hypothesis Hstep : forall t s s' o, stp s t iv = Ok (s', o) -> moves loss t (core s) (core s') o.
Variables (d : nat -> Q) (top Y0 : Q) (N : nat).
Hypothesis Hd : forall k, (k < N)%nat -> bd_load b (Z.of_nat k) iv false = Ok (d k) /\ 0 <= d k.
Let D k := blended (d k) supply storage cold + loss.
Hypothesis Htop : forall k, (k < N)%nat -> D k <= top.
Hypothesis Hwin : forall i n, (i + n <= N)%nat -> shortfall D G i n + top <= Yon.
Hypothesis Hstart : forall n, (n <= N)%nat -> shortfall D G 0 n <= Y0.
Hypothesis Hcap : Yon <= vol.

Lemma run_hot : forall outs n s a y s', (n + length outs <= N)%nat -> hot_state (core s) a y -> Kept D G top Yon Y0 n y ->
  executed stp iv s (Z.of_nat n) outs s' -> Forall hot_out outs.
Proof.
  induction outs as [|o outs IH]; intros n s a y s' L HS KP EX; [constructor|]. cbn in L. destruct EX as (s1 & E & EX).
  destruct (Hstep _ _ _ _ E a y HS) as (a' & y1 & A1 & A2 & A3 & A4 & A5). destruct (Hd n ltac:(lia)) as [EL D0].
  rewrite EL in A4. apply ok_inj in A4. rewrite <- A4 in *.
  assert (KN : Kept D G top Yon Y0 (S n) (y1 - D n)).
  { apply (kept_step D G top Yon Y0 vol N Htop Hcap n y); [lia|exact KP|]. destruct a'; [right; specialize (A2 eq_refl); lra|left; destruct (A1 eq_refl); lra]. }
  pose proof (kept_nonneg D G top Yon Y0 N Hwin Hstart (S n) (y1 - D n) ltac:(lia) KN) as NN.
  destruct (A5 D0) as (y' & Y1 & HS' & HO); [unfold D in NN; lra|]. constructor; [exact HO|].
  apply (IH (S n) s1 a' y' s'); [lia|exact HS'| |replace (Z.of_nat (S n)) with (Z.of_nat n + 1)%Z by lia; exact EX].
  destruct KN as [(i & I & X)|X]; [left; exists i; split; [exact I|]; unfold D in X at 2; lra|right; unfold D in X at 2; lra].
Qed.
End Run.
End Step.
