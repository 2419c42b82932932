(** Lemmas for running a simulation twice (C66) and for multi-pass engines (C65). *)
From Verif Require Import Prelude M_StratifiedTank M_MixedTank M_EnergyTank M_Building L_Building M_Heater S_Heater L_Heater
  M_Sizing L_Sizing3 M_SimRun S_SimRun L_SimRun M_Step S_Step L_Step L_Step2 L_Step3 L_Step4 L_Step6 M_Swing M_MPRTP S_MPRTP L_MPRTP2
  M_Engine S_Engine S_EngineRun L_Engine L_Engine2 L_Engine4 L_Engine5 L_Engine6.
Open Scope Q_scope.

(** ** Two runs in lockstep *)

(** Both fail alike, or both answer alike and are again related. *)
Definition agree {A B C} (R : A -> B -> Prop) (x : res (A * C)) (y : res (B * C)) : Prop :=
  match x, y with
  | Ok (a, c), Ok (b, d) => R a b /\ c = d
  | Err e, Err e' => e = e'
  | _, _ => False
  end.

Lemma loop_agree {A B} (R : A -> B -> Prop) sa sb supply :
  (forall a b i iv, R a b -> agree R (sa a i iv) (sb b i iv)) ->
  forall n i a b r, R a b -> agree R (sim_loop sa supply n i a r) (sim_loop sb supply n i b r).
Proof.
  intros S. induction n as [|n IH]; intros i a b r H; cbn [sim_loop]; [split; auto|].
  pose proof (S a b i (sr_iv r) H) as A1. unfold agree in A1.
  destruct (sa a i (sr_iv r)) as [[a1 o]|e], (sb b i (sr_iv r)) as [[b1 o']|e']; cbn [bind]; try contradiction; [|exact A1].
  destruct A1 as [R1 <-]. destruct (record_timestep r o) as [r1|]; cbn [bind]; [|reflexivity].
  destruct (delivery_temp o) as [d|]; cbn [bind]; [|reflexivity]. destruct (check_outlet_deficit _ _ _) as [r3 []]; [split; auto|apply IH; exact R1].
Qed.
Lemma simulate_agree {A B} (R : A -> B -> Prop) sa sb supply dur thr maxm tm a b :
  (forall a b i iv, R a b -> agree R (sa a i iv) (sb b i iv)) -> R a b ->
  agree R (simulate sa a supply dur thr maxm tm) (simulate sb b supply dur thr maxm tm).
Proof.
  intros S H. unfold simulate. destruct (sim_times dur) as [[total iv]|]; cbn [bind]; [|reflexivity]. apply loop_agree; assumption.
Qed.

(** ** Slugs that differ only in the forgotten original volume of an inactive slug *)

Definition set_orig (t : slug) (x : Q) : slug :=
  mkSlug (sl_base t) (sl_supply t) (sl_pu t) (sl_max t) (sl_active t) (sl_vol t) (sl_temp t) (sl_top t) x.
Definition alike (t t' : slug) : Prop := exists x, t' = set_orig t x /\ (sl_active t = true -> x = sl_orig t).
Lemma alike_refl t : alike t t.
Proof. exists (sl_orig t). split; [destruct t; reflexivity|reflexivity]. Qed.
Lemma alike_active t t' : alike t t' -> sl_active t = true -> t' = t.
Proof. intros (x & -> & E) A. rewrite (E A). destruct t; reflexivity. Qed.

Definition both (x y : res slug) : Prop :=
  match x, y with Ok a, Ok b => alike a b | Err e, Err e' => e = e' | _, _ => False end.
Lemma both_refl x : both x x.
Proof. destruct x; [apply alike_refl|reflexivity]. Qed.

Lemma alike_cold t t' c : alike t t' -> alike (sl_set_cold t c) (sl_set_cold t' c).
Proof. intros (x & -> & E). exists x. split; [reflexivity|exact E]. Qed.
Lemma alike_temp t t' f : alike t t' -> sl_temp_at t' f = sl_temp_at t f.
Proof. intro A. destruct (sl_active t) eqn:S; [rewrite (alike_active _ _ A S); reflexivity|]. destruct A as (x & -> & _). unfold sl_temp_at. cbn. rewrite S. reflexivity. Qed.
Lemma alike_usable t t' s : alike t t' -> sl_usable t' s = sl_usable t s.
Proof. intro A. destruct (sl_active t) eqn:S; [rewrite (alike_active _ _ A S); reflexivity|]. destruct A as (x & -> & _). unfold sl_usable. cbn. rewrite S. reflexivity. Qed.
Lemma alike_fields t t' : alike t t' -> sl_active t' = sl_active t /\ sl_vol t' = sl_vol t.
Proof. intros (x & -> & _). split; reflexivity. Qed.
Lemma alike_activate t t' s : alike t t' -> both (sl_activate t s) (sl_activate t' s).
Proof.
  intro A. destruct (sl_active t) eqn:S; [rewrite (alike_active _ _ A S); apply both_refl|]. destruct A as (x & -> & _). unfold sl_activate. cbn [sl_active set_orig sl_base sl_supply sl_pu sl_max].
  rewrite S. apply both_refl.
Qed.
Lemma alike_deactivate t t' : alike t t' -> both (sl_deactivate t) (sl_deactivate t').
Proof.
  intro A. destruct (sl_active t) eqn:S; [rewrite (alike_active _ _ A S); apply both_refl|]. pose proof A as A'. destruct A as (x & -> & _). unfold sl_deactivate.
  cbn [sl_active set_orig]. rewrite S. cbn [negb]. exact A'.
Qed.
Lemma alike_heat t t' k d : alike t t' -> both (sl_heat t k d) (sl_heat t' k d).
Proof.
  intro A. destruct (sl_active t) eqn:S; [rewrite (alike_active _ _ A S); apply both_refl|]. pose proof A as A'. destruct A as (x & -> & _). unfold sl_heat.
  cbn [sl_active set_orig]. rewrite S. cbn [negb orb]. exact A'.
Qed.
Lemma alike_physical t t' g c u : alike t t' -> both (sl_draw_physical t g c u) (sl_draw_physical t' g c u).
Proof.
  intro A. destruct (sl_active t) eqn:S; [rewrite (alike_active _ _ A S); apply both_refl|]. destruct A as (x & -> & _). unfold sl_draw_physical.
  cbn [sl_active set_orig sl_base sl_supply sl_pu sl_max sl_vol sl_temp sl_top sl_orig]. rewrite S. cbn [negb]. destruct (en_draw_physical _ _ _ _) as [b|]; cbn [bind both]; [|reflexivity].
  exists x. split; [reflexivity|]. cbn. discriminate.
Qed.
Lemma alike_init t t' s c p : alike t t' -> both (sl_initialize t s c p) (sl_initialize t' s c p).
Proof.
  intros (x & -> & _). unfold sl_initialize. cbn [sl_base set_orig sl_supply sl_pu sl_max sl_orig]. cbv zeta. cbn [en_slope en_vol en_cold en_energy en_cold_pct en_storage].
  destruct (_ || _ || _)%bool.
  - exists x. split; [reflexivity|]. cbn. discriminate.
  - destruct (qdiv _ _) as [q|]; cbn [bind]; [|reflexivity]. destruct (en_energy_at _ _) as [e|]; cbn [bind]; [|reflexivity]. exists x. split; [reflexivity|]. cbn. discriminate.
Qed.
Lemma dims_alike t t' s c p : sl_dims t' = sl_dims t -> both (sl_initialize t s c p) (sl_initialize t' s c p).
Proof.
  unfold sl_dims. intro D. injection D as D1 D2 D3 D4 D5 D6. unfold sl_initialize. cbv zeta. cbn [en_slope en_vol en_cold en_energy en_cold_pct en_storage].
  rewrite D1, D2, D3, D4, D5, D6. destruct (_ || _ || _)%bool.
  - exists (sl_orig t'). split; [reflexivity|]. cbn. discriminate.
  - destruct (qdiv _ _) as [q|]; cbn [bind]; [|reflexivity].
    assert (EE : forall e e' y, en_energy_at (mkEn (en_vol (sl_base t)) c s (en_slope (sl_base t)) e (en_cold_pct (sl_base t))) y =
                                en_energy_at (mkEn (en_vol (sl_base t)) c s (en_slope (sl_base t)) e' (en_cold_pct (sl_base t))) y) by reflexivity.
    rewrite (EE (en_energy (sl_base t')) (en_energy (sl_base t))). destruct (en_energy_at _ _) as [e|]; cbn [bind]; [|reflexivity]. exists (sl_orig t'). split; [reflexivity|]. cbn. discriminate.
Qed.

Definition msame (s s' : msys) : Prop :=
  ms_heaters s' = ms_heaters s /\ alike (ms_tank s) (ms_tank s') /\
  ms_supply s' = ms_supply s /\ ms_storage s' = ms_storage s /\ ms_return s' = ms_return s /\ ms_flow s' = ms_flow s.

Lemma mapM_ext {A B} (f g : A -> res B) l : (forall x, f x = g x) -> mapM f l = mapM g l.
Proof. intro E. induction l as [|x l IH]; cbn; [reflexivity|]. rewrite E, IH. reflexivity. Qed.
Lemma update_ext h v v' hour : (forall f, v f = v' f) -> wh_update h v hour = wh_update h v' hour.
Proof.
  intro E. unfold wh_update. destruct (wh_controls_for h hour) as [[c|]|]; cbn [bind]; try reflexivity.
  unfold ct_should_turn_off, ct_should_turn_on. rewrite !E. reflexivity.
Qed.

Lemma mp_step_agree b s s' t iv : msame s s' -> agree msame (mp_step b s t iv) (mp_step b s' t iv).
Proof.
  intros (EH & EA & E1 & E2 & E3 & E4). unfold mp_step. rewrite EH, E1, E2, E3, E4.
  destruct (bd_load b t iv false) as [demand|]; cbn [bind]; [|reflexivity]. destruct (bd_oat b t iv) as [oat|]; cbn [bind]; [|reflexivity].
  destruct (bd_inlet b t iv) as [inlet|]; cbn [bind]; [|reflexivity]. cbv zeta. destruct (mode_for (ms_heaters s) (hour_of t iv)) as [mode|]; cbn [bind]; [|reflexivity].
  pose proof (alike_cold _ _ inlet EA) as A0. set (tk0 := sl_set_cold (ms_tank s) inlet) in *. set (tk0' := sl_set_cold (ms_tank s') inlet) in *. clearbody tk0 tk0'.
  rewrite (mapM_ext (fun h => wh_update h (sl_temp_at tk0') (hour_of t iv)) (fun h => wh_update h (sl_temp_at tk0) (hour_of t iv)))
    by (intro h; apply update_ext; intro f; apply alike_temp; exact A0).
  destruct (mapM _ (ms_heaters s)) as [hs|]; cbn [bind]; [|reflexivity].
  assert (A1 : both (mp_lifecycle (existsb wh_active (ms_heaters s)) (existsb wh_active hs) (ms_supply s) tk0) (mp_lifecycle (existsb wh_active (ms_heaters s)) (existsb wh_active hs) (ms_supply s) tk0')).
  { unfold mp_lifecycle. destruct (existsb wh_active hs); [apply alike_activate; exact A0|]. destruct (existsb wh_active (ms_heaters s)); [apply alike_deactivate; exact A0|exact A0]. }
  destruct (mp_lifecycle _ _ _ tk0) as [tk1|], (mp_lifecycle _ _ _ tk0') as [tk1'|]; cbn [bind]; try contradiction; [|exact A1].
  cbn [both] in A1. rewrite (alike_temp _ _ 1 A1). destruct (sl_temp_at tk1 1) as [top|]; cbn [bind]; [|reflexivity].
  destruct (mp_output hs oat (hour_of t iv)) as [out|]; cbn [bind]; [|reflexivity]. destruct (mp_powers hs oat (hour_of t iv)) as [kws|]; cbn [bind]; [|reflexivity].
  destruct (mixing_valve _ _ _ _ _ _) as [[draw mv]|]; cbn [bind]; [|reflexivity].
  destruct (alike_fields _ _ A1) as [F1 F2]. rewrite F1, F2.
  assert (A2 : both (if (existsb wh_active hs && (sl_active tk1 && qltb 0 (sl_vol tk1)))%bool then sl_heat tk1 out (qz iv) else Ok tk1)
                    (if (existsb wh_active hs && (sl_active tk1 && qltb 0 (sl_vol tk1)))%bool then sl_heat tk1' out (qz iv) else Ok tk1')).
  { destruct (_ && _)%bool; [apply alike_heat; exact A1|exact A1]. }
  match goal with |- agree msame (bind ?x _) (bind ?y _) => destruct x as [tk2|], y as [tk2'|] end; cbn [bind]; try contradiction; [|exact A2]. cbn [both] in A2.
  assert (A3 : both (if qltb 0 draw then sl_draw_physical tk2 draw mv false else Ok tk2) (if qltb 0 draw then sl_draw_physical tk2' draw mv false else Ok tk2')).
  { destruct (qltb 0 draw); [apply alike_physical; exact A2|exact A2]. }
  match goal with |- agree msame (bind ?x _) (bind ?y _) => destruct x as [tk3|], y as [tk3'|] end; cbn [bind]; try contradiction; [|exact A3]. cbn [both] in A3.
  rewrite (alike_usable _ _ (ms_supply s) A3). destruct (sl_usable tk3 (ms_supply s)) as [u|]; cbn [bind]; [|reflexivity].
  rewrite (mapM_ext (sl_temp_at tk3') (sl_temp_at tk3)) by (intro f; apply alike_temp; exact A3).
  destruct (mapM (sl_temp_at tk3) six_heights) as [ts|]; cbn [bind]; [|reflexivity]. split; [|reflexivity]. repeat split; auto.
Qed.

Lemma simulate_mp_agree b s s' dur thr maxm : ms_heaters s' = ms_heaters s -> sl_dims (ms_tank s') = sl_dims (ms_tank s) ->
  ms_supply s' = ms_supply s -> ms_storage s' = ms_storage s -> ms_return s' = ms_return s -> ms_flow s' = ms_flow s ->
  agree msame (simulate_mp b s dur thr maxm) (simulate_mp b s' dur thr maxm).
Proof.
  intros EH ED E1 E2 E3 E4. unfold simulate_mp, init_mp. destruct (bd_design_inlet b) as [di|]; cbn [bind]; [|reflexivity].
  rewrite EH, E1, E2, E3, E4. pose proof (dims_alike (ms_tank s) (ms_tank s') (ms_storage s) (sim_inlet di) (initial_percent (ms_heaters s)) ED) as A.
  destruct (sl_initialize (ms_tank s) _ _ _) as [tk|], (sl_initialize (ms_tank s') _ _ _) as [tk'|]; cbn [bind]; try contradiction; [|exact A].
  apply simulate_agree; [intros; apply mp_step_agree; assumption|]. repeat split. exact A.
Qed.

(** ** Heaters *)

Lemma same_active_eq h h' : same_heater h h' -> wh_active h' = wh_active h -> h' = h.
Proof. intros (A & B & C) D. destruct h, h'; cbn in *. congruence. Qed.
Lemma same_all_eq hs hs' : Forall2 same_heater hs hs' -> map wh_active hs' = map wh_active hs -> hs' = hs.
Proof.
  intro F. induction F as [|h h' hs hs' S F IH]; cbn; [reflexivity|]. intro E. injection E as E1 E2. rewrite (same_active_eq _ _ S E1), (IH E2). reflexivity.
Qed.

(** ** The multi-pass tank *)

Lemma trial_dims b : forall n i s r s' r', trial_loop n i b s r = Ok (s', r') -> sl_dims (ms_tank s') = sl_dims (ms_tank s).
Proof.
  induction n as [|n IH]; intros i s r s' r' H; cbn [trial_loop] in H.
  - apply ok_inj in H. apply pair_equal_spec in H. destruct H as [<- _]. reflexivity.
  - destruct (bind_ok _ _ _ H) as ([s1 o] & E & H1). rewrite (IH _ _ _ _ _ H1). cbn [fst]. apply mp_step_like in E. destruct E as (_ & E). injection E. intros. unfold sl_dims. congruence.
Qed.
Lemma boost_dims days b pu inlet spu sched m : forall iters s cap s' cap',
  boost_loop iters days b s cap pu inlet spu sched m = Ok (s', cap') -> sl_dims (ms_tank s') = sl_dims (ms_tank s).
Proof.
  induction iters as [|k IH]; intros s cap s' cap' H; cbn [boost_loop] in H.
  - apply ok_inj in H. apply pair_equal_spec in H. destruct H as [<- _]. reflexivity.
  - destruct (bind_ok _ _ _ H) as ([[go s1] c1] & E & H1). clear H.
    assert (D : sl_dims (ms_tank s1) = sl_dims (ms_tank s)).
    { unfold boost_once in E. destruct (bind_ok _ _ _ E) as (tk & E0 & E1). clear E. destruct (bind_ok _ _ _ E1) as ([s2 r] & E2 & E3). clear E1.
      pose proof (trial_dims _ _ _ _ _ _ _ E2) as T. cbn [ms_tank] in T. rewrite (sl_init_dims _ _ _ _ _ E0) in T.
      destruct (0 <? tr_deficit r)%Z; [cbv zeta in E3; destruct (qltb 0 _) in E3|].
      - destruct (bind_ok _ _ _ E3) as (x & _ & E4). apply ok_inj in E4. apply pair_equal_spec in E4. destruct E4 as [E4 _]. apply pair_equal_spec in E4. destruct E4 as [_ <-]. exact T.
      - apply ok_inj in E3. apply pair_equal_spec in E3. destruct E3 as [E3 _]. apply pair_equal_spec in E3. destruct E3 as [_ <-]. exact T.
      - apply ok_inj in E3. apply pair_equal_spec in E3. destruct E3 as [E3 _]. apply pair_equal_spec in E3. destruct E3 as [_ <-]. exact T. }
    destruct go; [rewrite (IH _ _ _ _ H1); exact D|]. apply ok_inj in H1. apply pair_equal_spec in H1. destruct H1 as [<- _]. exact D.
Qed.

Lemma mp_tank_built dt p e x : eng_new dt p = Ok e -> en_system e = EMprtp x ->
  exists vol cold, sl_dims (ms_tank (mb_sys x)) = sl_dims (sl_new vol cold (ep_storage p) (ep_supply p) 1 (8 # 10)).
Proof.
  intros H ES. destruct (new_inv _ _ _ H) as (b & sched & m & EB & EC & C). destruct C as [(vol & hs & EV & EH & A & Eb & E1 & E2 & EP)|(EV & EZ & C)].
  - rewrite ES in A, EP. destruct A as (EK & _). unfold eng_presized in EP. rewrite EC in EP. cbn [bind] in EP. rewrite EH in EP. cbn [bind] in EP. rewrite EK in EP.
    destruct (bind_ok _ _ _ EP) as ([r f] & ER & F1). destruct (bind_ok _ _ _ F1) as (di & ED & F2).
    apply ok_inj in F2. apply pair_equal_spec in F2. destruct F2 as [_ F2]. injection F2 as <-. exists vol, (sim_inlet di). reflexivity.
  - rewrite ES in EZ. unfold eng_sized in EZ. rewrite EC in EZ. cbn [bind] in EZ. destruct (bind_ok _ _ _ EZ) as (fract & EF & H1). clear EZ.
    assert (EK : kind_of (ep_schematic p) = Some KMprtp).
    { destruct C as [(d & Ed & _)|(c & v & hs & _ & _ & _ & A & _)]; [congruence|]. rewrite ES in A. exact (proj1 A). }
    cbv zeta in H1. rewrite EK in H1. destruct (bind_ok _ _ _ H1) as ([r f] & ER & H2). clear H1. cbn [fst snd] in H2. unfold mp_from_size in H2.
    destruct (negb _) in H2; [discriminate|]. destruct (mp_size _ _ _ _ _ _ _) as [[s b1] out] in H2. destruct (bind_ok _ _ _ H2) as (y & EY & H3). clear H2.
    apply ok_inj in H3. apply pair_equal_spec in H3. destruct H3 as [_ H3]. injection H3 as ->.
    destruct (bind_ok _ _ _ EY) as (u & _ & Y1). clear EY. destruct (bind_ok _ _ _ Y1) as (cold & _ & Y2). clear Y1.
    destruct (dh_min_cap s) as [cap|]; [|discriminate]. destruct (dh_min_stor s) as [vol|]; [|discriminate]. cbv zeta in Y2.
    destruct (bind_ok _ _ _ Y2) as (di & _ & Y3). clear Y2. destruct (bind_ok _ _ _ Y3) as (c & _ & Y4). clear Y3. destruct (bind_ok _ _ _ Y4) as ([s2 cap2] & EBL & Y5). clear Y4.
    apply ok_inj in Y5. subst x. cbn [mb_sys fst]. exists vol, cold. exact (boost_dims _ _ _ _ _ _ _ _ _ _ _ _ EBL).
Qed.
