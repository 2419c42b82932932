(** Lemmas about sizing of multi-pass systems. *)
From Verif Require Import Prelude S_Integral L_Integral M_StratifiedTank M_EnergyTank L_Slug M_MixedTank L_MixedTank M_Building L_Building M_Heater L_Heater
  M_Sizing S_Sizing L_Sizing2 L_Sizing3 L_Sizing4 M_SimRun M_Step M_MPRTP S_MPRTP L_MPRTP L_AvgHot.
Open Scope Q_scope.

(** The mean lies above the supply temperature when some water does. *)
Lemma avg_hot_gt s of_ on m x : 0 < m -> 0 <= of_ -> on <= dh_storage s -> dh_supply s < dh_storage s ->
  of_ * 100 + (dh_supply s - on) / m < 100 -> avg_hot_temp s of_ on m = Ok x -> dh_supply s < x.
Proof.
  intros Hm Ho H1 H2 HB H. destruct (avg_hot_mean s of_ on m x Hm Ho H1 ltac:(lra) H) as [M _]. cbv zeta in M.
  set (sup := dh_supply s) in *. set (sto := dh_storage s) in *. set (p := of_ * 100) in *. set (hs := p + (sup - on) / m) in *.
  assert (EH : (hs - p) * m == sup - on) by (unfold hs; field; lra). clearbody hs p.
  set (bot := qmax 0 hs) in *. assert (B1 : hs <= bot) by apply qmax_r.
  assert (B2 : bot < 100) by (unfold bot; destruct (qmax_spec 0 hs) as [[_ ->]|[_ ->]]; lra). clearbody bot. specialize (M B2). unfold is_mean in M.
  set (mid := (bot + 100) * (1 # 2)). assert (M1 : bot < mid) by (unfold mid; lra). assert (M2 : mid < 100) by (unfold mid; lra). clearbody mid.
  assert (TL : forall y, hs <= y -> sup <= trigger_profile p on m sto y).
  { intros y Hy. unfold trigger_profile. apply qmin_glb; [lra|]. pose proof (qmul_nonneg (y - hs) m ltac:(lra) ltac:(lra)) as P.
    assert (X : (y - hs) * m == (y - p) * m - (hs - p) * m) by ring. lra. }
  assert (TS : sup < trigger_profile p on m sto mid).
  { unfold trigger_profile. pose proof (qmul_pos (mid - hs) m ltac:(lra) Hm) as P.
    assert (X : (mid - hs) * m == (mid - p) * m - (hs - p) * m) by ring.
    destruct (qmin_spec sto (on + (mid - p) * m)) as [[_ ->]|[_ ->]]; lra. }
  destruct (M [mid; 100]) as [L _]; [cbn; split; [lra|split; [lra|reflexivity]]|]. cbn [lower_sum] in L.
  pose proof (TL bot B1) as T1. set (A := trigger_profile p on m sto bot) in *. set (B := trigger_profile p on m sto mid) in *. clearbody A B.
  pose proof (qmul_nonneg (mid - bot) (A - sup) ltac:(lra) ltac:(lra)) as P1. pose proof (qmul_pos (100 - mid) (B - sup) ltac:(lra) ltac:(lra)) as P2.
  apply Qmult_lt_r with (100 - bot); [lra|].
  assert (E : (mid - bot) * A + ((100 - mid) * B + 0) - sup * (100 - bot) == (mid - bot) * (A - sup) + (100 - mid) * (B - sup)) by ring. lra.
Qed.

Lemma avg_hot_total s of_ on m : ~ m == 0 -> exists x, avg_hot_temp s of_ on m = Ok x.
Proof.
  intro N. unfold avg_hot_temp. rewrite !qdiv_ok by exact N. cbn [bind]. cbv zeta.
  destruct (Qle_bool 100 _); [eexists; reflexivity|]. destruct (Qle_bool _ 0); eexists; reflexivity.
Qed.

(** The controls' water at the on-trigger is hotter than supply somewhere. *)
Lemma hot_of_controls s d slope l hot :
  0 < slope -> dh_supply s < dh_storage s ->
  (forall k c, In (k, c) d -> 0 <= ct_on_sensor c /\ ct_on_trigger c <= dh_storage s /\
     ct_on_sensor c * 100 + (dh_supply s - ct_on_trigger c) / slope < 100) ->
  mapM (fun kc : string * controls => avg_hot_temp s (ct_on_sensor (snd kc)) (ct_on_trigger (snd kc)) slope) d = Ok l ->
  py_min l = Ok hot -> dh_supply s < hot.
Proof.
  intros Hm HS HC HL HM. apply py_min_in in HM. apply mapM_in in HL. destruct HL as [_ HL]. destruct (HL _ HM) as ([k c] & I & E).
  destruct (HC _ _ I) as (A & B & C). cbn [snd] in E. exact (avg_hot_gt _ _ _ _ _ Hm A B HS C E).
Qed.

Lemma mp_size_inv ret flow lib s b m slope s' b' : mp_size ret flow lib s b m slope = (s', b', Ok tt) ->
  exists b1 d l hot cap rv inlet f stor, m = Some d /\ dict_get d "shed" = None /\
    (if bd_is_annual b then bd_set_daily lib b else Ok b) = Ok b1 /\
    mapM (fun kc : string * controls => avg_hot_temp s (ct_on_sensor (snd kc)) (ct_on_trigger (snd kc)) slope) d = Ok l /\
    py_min l = Ok hot /\ rtp_capacity ret flow s b1 = Ok cap /\ mp_running ret flow hot s b1 cap = Ok rv /\
    design_inlet b1 = Ok inlet /\ strat_factor s m slope inlet = Ok f /\ storage_volume rv f = Ok stor /\
    s' = dh_set_results s cap stor slope /\ (if bd_is_annual b then bd_set_annual lib b1 = Ok b' else b' = b1).
Proof.
  unfold mp_size. destruct (is_load_shifting m) eqn:LS; [intro H; apply pair_equal_spec in H; destruct H as [_ H]; discriminate|].
  destruct (if bd_is_annual b then bd_set_daily lib b else Ok b) as [b1|e] eqn:EB; [|intro H; apply pair_equal_spec in H; destruct H as [_ H]; discriminate].
  intro H. destruct (mp_size_values ret flow s b1 m slope) as [[cap stor]|e] eqn:EV.
  - unfold restore_annual in H.
    assert (X : s' = dh_set_results s cap stor slope /\ (if bd_is_annual b then bd_set_annual lib b1 = Ok b' else b' = b1)).
    { destruct (bd_is_annual b).
      - destruct (bd_set_annual lib b1) as [b2|e2]; [|apply pair_equal_spec in H; destruct H as [_ H]; discriminate].
        apply pair_equal_spec in H; destruct H as [H _]. apply pair_equal_spec in H. destruct H as [<- <-]. auto.
      - apply pair_equal_spec in H; destruct H as [H _]. apply pair_equal_spec in H. destruct H as [<- <-]. auto. }
    destruct X as [X1 X2]. clear H. unfold mp_size_values in EV. destruct m as [d|]; [|discriminate].
    destruct (bind_ok _ _ _ EV) as (l & E1 & H1). destruct (bind_ok _ _ _ H1) as (hot & E2 & H2). destruct (bind_ok _ _ _ H2) as (c & E3 & H3).
    destruct (bind_ok _ _ _ H3) as (rv & E4 & H4). destruct (bind_ok _ _ _ H4) as (inlet & E5 & H5). destruct (bind_ok _ _ _ H5) as (f & E6 & H6).
    destruct (bind_ok _ _ _ H6) as (st & E7 & H7). apply ok_inj in H7. apply pair_equal_spec in H7. destruct H7 as [-> ->].
    exists b1, d, l, hot, cap, rv, inlet, f, stor. split; [reflexivity|]. split; [|auto 12].
    unfold is_load_shifting, dict_has in LS. destruct (dict_get d "shed"); [discriminate|reflexivity].
  - exfalso. unfold restore_annual in H. destruct (bd_is_annual b); [destruct (bd_set_annual lib b1)|]; apply pair_equal_spec in H; destruct H as [_ H]; discriminate.
Qed.

Lemma rtp_capacity_inv ret flow s b inlet c : design_inlet b = Ok inlet -> rtp_capacity ret flow s b = Ok c ->
  c * 1000 * dh_defrost s * dh_run s == bd_daily b * rho_cp * (dh_supply s - inlet) + 24 * (flow * 60) * rho_cp * (dh_supply s - ret).
Proof.
  intros Hi C. unfold rtp_capacity in C. destruct (bind_ok _ _ _ C) as (c0 & C0 & C1). destruct (bind_ok _ _ _ C1) as (r & Rr & C2). apply ok_inj in C2. subst c.
  destruct (capacity_inv _ _ _ _ Hi C0) as (R & D & ->).
  unfold recirc_capacity in Rr. rewrite qdiv_ok in Rr by exact R. cbn [bind] in Rr.
  rewrite qdiv_ok in Rr by exact D. apply ok_inj in Rr. subst r.
  unfold recirc_loss. field. split; assumption.
Qed.

(** The minutes of the sizing loop all succeeded. *)
Lemma grow_loop_minutes b flow cold supply ret storage hot h : forall n t g g',
  grow_loop n t b flow cold supply ret storage hot h g = Ok g' ->
  forall i, (i < n)%nat -> exists d x y, bd_load b (t + Z.of_nat i) 1 false = Ok d /\ mixing_valve d flow cold supply ret hot = Ok (x, y).
Proof.
  induction n as [|n IH]; intros t g g' H i L; [lia|]. cbn [grow_loop] in H.
  destruct (bind_ok _ _ _ H) as (d & Ed & H1). destruct (bind_ok _ _ _ H1) as ([x y] & Em & H2). destruct (bind_ok _ _ _ H2) as (g1 & _ & H3).
  destruct i as [|i].
  - exists d, x, y. replace (t + Z.of_nat 0)%Z with t by lia. auto.
  - destruct (IH _ _ _ H3 i ltac:(lia)) as (d' & x' & y' & A & B). exists d', x', y'. replace (t + Z.of_nat (S i))%Z with (t + 1 + Z.of_nat i)%Z by lia. auto.
Qed.

Lemma grow_loop_first_err b flow cold supply ret storage hot h n t g x e : (0 < n)%nat ->
  bd_load b t 1 false = Ok x -> mixing_valve x flow cold supply ret hot = Err e ->
  grow_loop n t b flow cold supply ret storage hot h g = Err e.
Proof. intros N E V. destruct n as [|n]; [lia|]. cbn [grow_loop]. rewrite E. cbn [bind]. rewrite V. reflexivity. Qed.

(** What the running volume is. *)
Lemma mp_running_spec ret flow hot s b cap rv cold :
  design_inlet b = Ok cold -> mp_running ret flow hot s b cap = Ok rv ->
  (forall t d, bd_load b t 1 false = Ok d -> 0 <= d) -> 0 <= flow -> cold <= ret -> cold < dh_supply s -> ret <= dh_supply s -> dh_supply s < hot ->
  let q := cap * 1000 / 60 in
  exists draw inl : nat -> Q,
    (forall i, (i < 2880)%nat -> exists d, bd_load b (Z.of_nat i) 1 false = Ok d /\ mixing_valve d flow cold (dh_supply s) ret hot = Ok (draw i, inl i)) /\
    (forall a n, (a + n <= 2880)%nat -> batch_waits draw inl q (dh_storage s) a n -> batch_vol draw a n <= rv) /\
    (rv == 0 \/ exists a n, (0 < n)%nat /\ (a + n <= 2880)%nat /\ batch_waits draw inl q (dh_storage s) a n /\ rv == batch_vol draw a n).
Proof.
  intros Hi H HL HF C1 C2 C3 C4 q. unfold mp_running in H. rewrite Hi in H. cbn [bind] in H. destruct (bind_ok _ _ _ H) as (g & Eg & Er). apply ok_inj in Er.
  rewrite qmul_1_eq in Eg. change (2 * 24 * 60)%nat with 2880%nat in Eg.
  pose proof (grow_loop_minutes _ _ _ _ _ _ _ _ _ _ _ _ Eg) as MIN.
  set (val := fun i : nat => match bd_load b (Z.of_nat i) 1 false with
                | Ok d => match mixing_valve d flow cold (dh_supply s) ret hot with Ok xy => xy | Err _ => (0, 0) end | Err _ => (0, 0) end).
  assert (VAL : forall i, (i < 2880)%nat -> exists d, bd_load b (Z.of_nat i) 1 false = Ok d /\ mixing_valve d flow cold (dh_supply s) ret hot = Ok (fst (val i), snd (val i))).
  { intros i L. destruct (MIN i L) as (d & x & y & A & B). rewrite Z.add_0_l in A. exists d. split; [exact A|]. unfold val. rewrite A, B. reflexivity. }
  exists (fun i => fst (val i)), (fun i => snd (val i)). split; [exact VAL|].
  assert (POS : forall i, (i < 0 + 2880)%nat -> 0 < fst (val i)).
  { intros i L. destruct (VAL i L) as (d & A & B). apply (valve_ordinary _ _ _ _ _ _ _ _ (Build_ordinary _ _ _ _ _ _ (HL _ _ A) HF C1 C2 C3 C4) B). }
  assert (HQ : cap * 1 / 60 * 1000 == q) by (unfold q; field).
  destruct (grow_loop_grown (fun i => fst (val i)) (fun i => snd (val i)) q (dh_storage s) b flow cold (dh_supply s) ret hot (cap * 1 / 60) HQ 2880 0 _ 0 g
    (grown_start _ _ _ _ _) VAL POS Eg) as (a' & GR).
  rewrite <- Er. split; [exact (gr_upper _ _ _ _ _ _ _ GR)|exact (gr_attained _ _ _ _ _ _ _ GR)].
Qed.

(** Sizing succeeds. *)
Lemma mp_size_total ret flow lib s b b1 d slope inlet f :
  (if bd_is_annual b then bd_set_daily lib b else Ok b) = Ok b1 -> (bd_is_annual b = true -> exists b2, bd_set_annual lib b1 = Ok b2) ->
  dict_get d "shed" = None -> d <> [] ->
  0 < slope -> dh_supply s < dh_storage s ->
  (forall k c, In (k, c) d -> 0 <= ct_on_sensor c /\ ct_on_trigger c <= dh_storage s /\
     ct_on_sensor c * 100 + (dh_supply s - ct_on_trigger c) / slope < 100) ->
  design_inlet b1 = Ok inlet -> inlet < dh_supply s -> inlet <= ret -> ret <= dh_supply s -> 0 <= flow ->
  ~ dh_run s == 0 -> ~ dh_defrost s == 0 ->
  (forall t, exists x, bd_load b1 t 1 false = Ok x /\ 0 <= x /\ (0 < x \/ 0 < flow * (dh_supply s - ret))) ->
  strat_factor s (Some d) slope inlet = Ok f -> ~ f == 0 ->
  exists s' b', mp_size ret flow lib s b (Some d) slope = (s', b', Ok tt).
Proof.
  intros EB EA ES EN HM HS HC HI I1 I2 I3 FN R D HL HF NF. unfold mp_size.
  unfold is_load_shifting, dict_has. rewrite ES, EB.
  assert (V : exists v, mp_size_values ret flow s b1 (Some d) slope = Ok v).
  { unfold mp_size_values. destruct (mapM_total (fun kc : string * controls => avg_hot_temp s (ct_on_sensor (snd kc)) (ct_on_trigger (snd kc)) slope) d) as (l & El).
    { intros x _. apply avg_hot_total. lra. }
    rewrite El. cbn [bind].
    assert (PM : exists hot, py_min l = Ok hot).
    { apply mapM_length in El. destruct l as [|y l]; [destruct d; [congruence|discriminate]|]. eexists. reflexivity. }
    destruct PM as (hot & Eh). rewrite Eh. cbn [bind]. pose proof (hot_of_controls _ _ _ _ _ HM HS HC El Eh) as HH.
    assert (CP : exists c, rtp_capacity ret flow s b1 = Ok c).
    { unfold rtp_capacity, base_capacity, recirc_capacity. rewrite HI. cbn [bind]. rewrite !qdiv_ok by assumption. cbn [bind]. rewrite !qdiv_ok by assumption. eexists. reflexivity. }
    destruct CP as (c & Ec). rewrite Ec. cbn [bind].
    assert (RV : exists rv, mp_running ret flow hot s b1 c = Ok rv).
    { unfold mp_running. rewrite HI. cbn [bind]. rewrite qmul_1_eq.
      destruct (grow_loop_total b1 flow inlet (dh_supply s) ret (dh_storage s) hot (c * 1 / 60)) with (n := (2 * 24 * 60)%nat) (t := 0%Z) (g := mkGslug 0 inlet 0) as (g & Eg).
      - intro t. destruct (HL t) as (x & Ex & N & P). exists x. split; [exact Ex|].
        apply (valve_total _ _ _ _ _ _ (Build_ordinary _ _ _ _ _ _ N FN I2 I1 I3 HH)). destruct P as [P|P]; auto.
      - rewrite Eg. eexists. reflexivity. }
    destruct RV as (rv & Er). rewrite Er. cbn [bind]. rewrite HI. cbn [bind]. rewrite HF. cbn [bind]. unfold storage_volume. rewrite qdiv_ok by exact NF. eexists. reflexivity. }
  destruct V as ([cap stor] & ->). unfold restore_annual. destruct (bd_is_annual b).
  - destruct (EA eq_refl) as (b2 & ->). eexists. eexists. reflexivity.
  - eexists. eexists. reflexivity.
Qed.

(** ** Boosting *)

Definition boosted (vol cap : Q) (s : msys) : Prop :=
  en_vol (sl_base (ms_tank s)) = vol /\ exists h, ms_heaters s = [h] /\ wh_pm h = Some (PmNominal cap).

Lemma sl_activate_vol t s t' : sl_activate t s = Ok t' -> en_vol (sl_base t') = en_vol (sl_base t).
Proof.
  unfold sl_activate. cbv zeta. destruct (sl_active t); [intro H; apply ok_inj in H; subst; reflexivity|]. intro H.
  repeat match goal with H : bind _ _ = Ok _ |- _ => let x := fresh in let E := fresh in destruct (bind_ok _ _ _ H) as (x & E & ?); clear H end.
  match goal with H : Ok _ = Ok t' |- _ => apply ok_inj in H; rewrite <- H end. reflexivity.
Qed.
Lemma sl_deactivate_vol t t' : sl_deactivate t = Ok t' -> en_vol (sl_base t') = en_vol (sl_base t).
Proof.
  unfold sl_deactivate. cbv zeta. destruct (negb (sl_active t)); [intro H; apply ok_inj in H; subst; reflexivity|]. intro H.
  repeat match goal with H : bind _ _ = Ok _ |- _ => let x := fresh in let E := fresh in destruct (bind_ok _ _ _ H) as (x & E & ?); clear H end.
  match goal with H : Ok _ = Ok t' |- _ => apply ok_inj in H; rewrite <- H end. reflexivity.
Qed.
Lemma sl_heat_vol t k d t' : sl_heat t k d = Ok t' -> en_vol (sl_base t') = en_vol (sl_base t).
Proof.
  unfold sl_heat. destruct (_ || _)%bool; [intro H; apply ok_inj in H; subst; reflexivity|]. intro H.
  repeat match goal with H : bind _ _ = Ok _ |- _ => let x := fresh in let E := fresh in destruct (bind_ok _ _ _ H) as (x & E & ?); clear H end.
  match goal with H : Ok _ = Ok t' |- _ => apply ok_inj in H; rewrite <- H end. reflexivity.
Qed.
Lemma sl_add_vol t g c t' : sl_add t g c = Ok t' -> en_vol (sl_base t') = en_vol (sl_base t).
Proof.
  unfold sl_add. cbv zeta. destruct (_ || _)%bool; [intro H; apply ok_inj in H; subst; reflexivity|]. intro H.
  repeat match goal with
  | H : bind _ _ = Ok _ |- _ => let x := fresh in let E := fresh in destruct (bind_ok _ _ _ H) as (x & E & ?); clear H
  | H : (if ?c then _ else _) = Ok _ |- _ => destruct c
  | H : Ok _ = Ok _ |- _ => apply ok_inj in H; subst
  end; reflexivity.
Qed.
Lemma sl_initialize_vol t st c pu t' : sl_initialize t st c pu = Ok t' -> en_vol (sl_base t') = en_vol (sl_base t).
Proof.
  unfold sl_initialize. cbv zeta. intro H.
  repeat match goal with
  | H : (if ?c then _ else _) = Ok _ |- _ => destruct c
  | H : bind _ _ = Ok _ |- _ => let x := fresh in let E := fresh in destruct (bind_ok _ _ _ H) as (x & E & ?); clear H
  | H : Ok _ = Ok _ |- _ => apply ok_inj in H; subst
  end; reflexivity.
Qed.
Lemma sl_draw_vol t g c u t' : sl_draw_physical t g c u = Ok t' -> en_vol (sl_base t') = en_vol (sl_base t).
Proof.
  unfold sl_draw_physical. cbv zeta. intro H. destruct (negb (sl_active t)).
  - destruct (bind_ok _ _ _ H) as (e & E & H1). apply ok_inj in H1. rewrite <- H1. cbn [sl_base]. unfold en_draw_physical in E. cbv zeta in E.
    destruct (Qle_bool g 0).
    + apply ok_inj in E. rewrite <- E. destruct u; reflexivity.
    + destruct (bind_ok _ _ _ E) as (a & _ & E1). apply ok_inj in E1. rewrite <- E1. destruct u; reflexivity.
  - destruct (qltb _ g).
    + destruct (bind_ok _ _ _ H) as (t1 & E & H1). apply ok_inj in H1. rewrite <- H1. cbn [sl_base].
      apply sl_add_vol in E. cbn [sl_base] in E. exact E.
    + destruct (bind_ok _ _ _ H) as (t1 & E & H1). apply ok_inj in H1. rewrite <- H1. cbn [sl_base]. apply sl_add_vol in E. cbn [sl_base] in E. exact E.
Qed.

Lemma mp_step_boosted vol cap b s t iv s' o : boosted vol cap s -> mp_step b s t iv = Ok (s', o) -> boosted vol cap s' /\
  ms_supply s' = ms_supply s /\ ms_storage s' = ms_storage s /\ ms_return s' = ms_return s /\ ms_flow s' = ms_flow s.
Proof.
  intros (V & h & EH & EP) H. unfold mp_step in H.
  destruct (bind_ok _ _ _ H) as (demand & _ & H1). clear H. destruct (bind_ok _ _ _ H1) as (oat & _ & H). clear H1. destruct (bind_ok _ _ _ H) as (inlet & _ & H1). clear H.
  cbv zeta in H1. destruct (bind_ok _ _ _ H1) as (mode & _ & H). clear H1.
  destruct (bind_ok _ _ _ H) as (hs & Ehs & H1). clear H. destruct (bind_ok _ _ _ H1) as (tk1 & E1 & H). clear H1.
  destruct (bind_ok _ _ _ H) as (top & _ & H1). clear H. destruct (bind_ok _ _ _ H1) as (out & _ & H). clear H1. destruct (bind_ok _ _ _ H) as (kws & _ & H1). clear H.
  destruct (bind_ok _ _ _ H1) as ([dr mv] & _ & H). clear H1. destruct (bind_ok _ _ _ H) as (tk2 & E2 & H1). clear H.
  destruct (bind_ok _ _ _ H1) as (tk3 & E3 & H). clear H1. destruct (bind_ok _ _ _ H) as (us & _ & H1). clear H. destruct (bind_ok _ _ _ H1) as (tm & _ & H). clear H1.
  apply ok_inj in H. apply pair_equal_spec in H. destruct H as [<- _]. cbn [ms_supply ms_storage ms_return ms_flow].
  split; [|auto]. split; cbn [ms_tank ms_heaters].
  - assert (A1 : en_vol (sl_base tk1) = vol).
    { unfold mp_lifecycle in E1. destruct (existsb wh_active hs); [rewrite (sl_activate_vol _ _ _ E1); exact V|].
      destruct (existsb wh_active (ms_heaters s)); [rewrite (sl_deactivate_vol _ _ E1); exact V|apply ok_inj in E1; rewrite <- E1; exact V]. }
    assert (A2 : en_vol (sl_base tk2) = vol).
    { destruct (_ && _)%bool in E2; [rewrite (sl_heat_vol _ _ _ _ E2); exact A1|apply ok_inj in E2; rewrite <- E2; exact A1]. }
    destruct (qltb 0 dr); [rewrite (sl_draw_vol _ _ _ _ _ E3); exact A2|apply ok_inj in E3; rewrite <- E3; exact A2].
  - rewrite EH in Ehs. cbn [mapM] in Ehs. destruct (bind_ok _ _ _ Ehs) as (h1 & Eh & H2). cbn [bind] in H2. apply ok_inj in H2. exists h1. split; [symmetry; exact H2|].
    destruct (wh_update_same _ _ _ _ Eh) as [-> _]. exact EP.
Qed.

Definition same_temps (s0 s : msys) : Prop :=
  ms_supply s = ms_supply s0 /\ ms_storage s = ms_storage s0 /\ ms_return s = ms_return s0 /\ ms_flow s = ms_flow s0.

Lemma trial_boosted vol cap b : forall n i s r s' r', boosted vol cap s -> trial_loop n i b s r = Ok (s', r') -> boosted vol cap s' /\ same_temps s s'.
Proof.
  induction n as [|n IH]; intros i s r s' r' B H; cbn [trial_loop] in H.
  - apply ok_inj in H. apply pair_equal_spec in H. destruct H as [<- _]. split; [exact B|repeat split].
  - destruct (bind_ok _ _ _ H) as ([s1 o] & E & H1). destruct (mp_step_boosted _ _ _ _ _ _ _ _ B E) as (B1 & T1 & T2 & T3 & T4).
    destruct (IH _ _ _ _ _ B1 H1) as (B2 & U1 & U2 & U3 & U4). cbn [fst] in *. split; [exact B2|]. repeat split; congruence.
Qed.

Lemma boost_once_boosted vol cap days b s pu inlet spu sched m go s' cap' :
  boosted vol cap s -> boost_once days b s cap pu inlet spu sched m = Ok (go, s', cap') ->
  boosted vol cap' s' /\ cap <= cap' /\ same_temps s s' /\ (go = false -> cap' = cap).
Proof.
  intros (V & h & EH & EP) H. unfold boost_once in H. destruct (bind_ok _ _ _ H) as (tk & E0 & H1). clear H.
  destruct (bind_ok _ _ _ H1) as ([s1 r] & E1 & H). clear H1.
  assert (B0 : boosted vol cap (mkMsys (ms_heaters s) tk (ms_supply s) (ms_storage s) (ms_return s) (ms_flow s))).
  { split; [cbn [ms_tank]; rewrite (sl_initialize_vol _ _ _ _ _ E0); exact V|]. exists h. auto. }
  destruct (trial_boosted _ _ _ _ _ _ _ _ _ B0 E1) as (B1 & T1 & T2 & T3 & T4). cbn [ms_supply ms_storage ms_return ms_flow] in *.
  assert (ST : same_temps s s1) by (repeat split; assumption).
  destruct (0 <? tr_deficit r)%Z eqn:D.
  - cbv zeta in H. destruct (qltb 0 _) eqn:I in H.
    + destruct (bind_ok _ _ _ H) as (x & Ex & H1). clear H. apply ok_inj in H1. apply pair_equal_spec in H1. destruct H1 as [H1 <-]. apply pair_equal_spec in H1. destruct H1 as [<- <-].
      split; [split; [exact (proj1 B1)|eexists; split; reflexivity]|]. split; [|split; [exact ST|discriminate]].
      destruct (qdiv_inv _ _ _ Ex) as [NZ ->]. apply Z.ltb_lt in D.
      match goal with |- cap <= cap + ?q => assert (0 <= q); [|lra] end. apply qltb_true in I.
      assert (DP : 0 < qz (tr_deficit r)) by (unfold qz, Qlt; cbn; lia).
      apply qdiv_nonneg; [apply Qlt_le_weak; exact I|]. apply qdiv_pos; [exact DP|reflexivity].
    + apply ok_inj in H. apply pair_equal_spec in H. destruct H as [H <-]. apply pair_equal_spec in H. destruct H as [<- <-].
      split; [exact B1|]. split; [apply Qle_refl|]. split; [exact ST|reflexivity].
  - apply ok_inj in H. apply pair_equal_spec in H. destruct H as [H <-]. apply pair_equal_spec in H. destruct H as [<- <-].
    split; [exact B1|]. split; [apply Qle_refl|]. split; [exact ST|reflexivity].
Qed.

Lemma boost_loop_boosted vol days b pu inlet spu sched m : forall iters s cap s' cap',
  boosted vol cap s -> boost_loop iters days b s cap pu inlet spu sched m = Ok (s', cap') -> boosted vol cap' s' /\ cap <= cap' /\ same_temps s s'.
Proof.
  induction iters as [|k IH]; intros s cap s' cap' B H; cbn [boost_loop] in H.
  - apply ok_inj in H. apply pair_equal_spec in H. destruct H as [<- <-]. split; [exact B|]. split; [apply Qle_refl|repeat split].
  - destruct (bind_ok _ _ _ H) as ([[go s1] c1] & E & H1). clear H. destruct (boost_once_boosted _ _ _ _ _ _ _ _ _ _ _ _ _ B E) as (B1 & L1 & S1 & _).
    destruct go.
    + destruct (IH _ _ _ _ B1 H1) as (B2 & L2 & S2). split; [exact B2|]. split; [lra|]. destruct S1 as (a1 & a2 & a3 & a4). destruct S2 as (b1 & b2 & b3 & b4). repeat split; congruence.
    + apply ok_inj in H1. apply pair_equal_spec in H1. destruct H1 as [<- <-]. auto.
Qed.
