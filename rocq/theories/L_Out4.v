(** Lemmas for the engine's plots (C68): what the curves leave of the engine, and a second computation. *)
From Coq Require Import Lia Lqa Setoid.
From Verif Require Import Prelude M_StratifiedTank M_MixedTank M_EnergyTank M_Building M_Heater M_Sizing S_Integral S_Sizing
  M_Step M_Swing S_Swing M_MPRTP M_Engine M_EngineOut S_Engine S_EngineSize S_EngineOut L_Building L_Sizing L_Sizing2 L_Sizing3 L_Sizing4
  P_Sizing P_Sizing2 L_Swing2 L_Swing3 L_Swing4 P_Swing P_Swing2 L_Engine2 L_Engine8 P_Engine7 L_Out L_Out2 L_Out3.
Open Scope Q_scope.

Lemma pl_same l : pl_set_dhw l (pl_dhw l) = l.
Proof. destruct l. reflexivity. Qed.

Lemma same_refl s : same_but_mix s s.
Proof. destruct s; cbn; try reflexivity. exists (sw_eff_mix w). destruct w. reflexivity. Qed.

Lemma same_trans s s' s2 : same_but_mix s s' -> same_but_mix s' s2 -> same_but_mix s s2.
Proof.
  destruct s; cbn; try (intros ->; auto). intros (mix & ->). cbn. intros (mix' & ->). exists mix'. reflexivity.
Qed.

Lemma curve_keeps dt e slope e' out : restorable dt e -> eng_curve dt e slope = (e', out) ->
  en_building e' = en_building e /\ same_but_mix (en_system e) (en_system e').
Proof.
  intros A H. unfold eng_curve in H. destruct e as [b s]. cbn [en_building en_system] in *. unfold restorable in A. cbn [en_building] in A.
  destruct s as [d x|l x|w x|d r f x|x|d].
  - destruct (sizing_curve _ _ _ _ _ _ _) as [[d' b'] o] eqn:E. destruct (C40_curve_restores _ _ _ _ _ _ _ _ _ _ A E) as [-> ->].
    apply pair_equal_spec in H. destruct H as [<- _]. split; reflexivity.
  - destruct (sizing_curve _ _ _ _ _ _ _) as [[d' b'] o] eqn:E. destruct (C40_curve_restores _ _ _ _ _ _ _ _ _ _ A E) as [-> ->].
    apply pair_equal_spec in H. destruct H as [<- _]. rewrite pl_same. split; reflexivity.
  - destruct (swing_sizing_curve _ _ _ _ _ _) as [[d' b'] o] eqn:E. destruct (C40_swing_curve_keeps_system _ _ _ _ _ _ _ _ _ A E) as [(mix & ->) ->].
    apply pair_equal_spec in H. destruct H as [<- _]. split; [reflexivity|]. exists mix. reflexivity.
  - destruct (sizing_curve _ _ _ _ _ _ _) as [[d' b'] o] eqn:E. destruct (C40_curve_restores _ _ _ _ _ _ _ _ _ _ A E) as [-> ->].
    apply pair_equal_spec in H. destruct H as [<- _]. split; reflexivity.
  - destruct (mp_sizing_curve _ _ _ _ _) as [b' o] eqn:E. unfold mp_sizing_curve in E.
    apply pair_equal_spec in H. destruct H as [<- _]. cbn [en_building en_system]. split; [|reflexivity].
    destruct (if bd_is_annual b then bd_set_daily (da_lib dt) b else Ok b) as [b1|] eqn:EB; [|congruence].
    rewrite (restore_annual_back _ _ _ _ A EB) in E. congruence.
  - destruct (sizing_curve _ _ _ _ _ _ _) as [[d' b'] o] eqn:E. destruct (C40_curve_restores _ _ _ _ _ _ _ _ _ _ A E) as [-> ->].
    apply pair_equal_spec in H. destruct H as [<- _]. split; reflexivity.
Qed.

Lemma curve_again dt e e' slope : en_building e' = en_building e -> same_but_mix (en_system e) (en_system e') ->
  snd (eng_curve dt e' slope) = snd (eng_curve dt e slope).
Proof.
  intros B S. destruct e as [b s], e' as [b' s']. cbn [en_building en_system] in *. subst b'.
  destruct s; cbn in S; try (subst s'; reflexivity). destruct S as (mix & ->). unfold eng_curve. cbn [en_building en_system].
  pose proof (swing_curve_mix (da_lib dt) w b (first_map (ws_heaters s)) slope (1 # 4) mix) as E.
  destruct (swing_sizing_curve _ (sw_set_mix w mix) _ _ _ _) as [[w1 b1] o1]. destruct (swing_sizing_curve _ w _ _ _ _) as [[w2 b2] o2]. cbn [snd] in *. exact E.
Qed.

(** ** Load shifting *)

Lemma apply_mix_set s m : exists x, apply_mix s m = sw_set_mix s x.
Proof. destruct m as [x|]; [exists x; reflexivity|]. exists (sw_eff_mix s). destruct s. reflexivity. Qed.

Lemma set_mix_same s : sw_set_mix s (sw_eff_mix s) = s.
Proof. destruct s. reflexivity. Qed.

Lemma ls_body_state icdf s b sched d slope p s1 out : swing_ls_curve_body icdf s b sched d slope p = (s1, out) ->
  exists mix, s1 = sw_set_mix s mix.
Proof.
  unfold swing_ls_curve_body. destruct (do inlet <- design_inlet b; _) as [[[inlet cap_n] [mix rv]]|e]; intro H; apply pair_equal_spec in H; destruct H as [<- _].
  - apply apply_mix_set.
  - exists (sw_eff_mix s). symmetry. apply set_mix_same.
Qed.

Lemma swing_ls_keeps lib icdf s b sched m slope p s' b' out : (bd_is_annual b = true -> library_annual lib b) ->
  swing_ls_sizing_curve lib icdf s b sched m slope p = (s', b', out) -> (exists mix, s' = sw_set_mix s mix) /\ b' = b.
Proof.
  intros A H. assert (I : exists mix, s = sw_set_mix s mix) by (exists (sw_eff_mix s); symmetry; apply set_mix_same).
  unfold swing_ls_sizing_curve in H. destruct m as [d|]; [|inversion H; subst; auto].
  destruct (negb (dict_has d "shed")); [inversion H; subst; auto|].
  destruct (if bd_is_annual b then bd_set_daily lib b else Ok b) as [b1|] eqn:EB; [|inversion H; subst; auto].
  destruct (swing_ls_curve_body _ _ _ _ _ _ _) as [s1 o] eqn:E. apply ls_body_state in E. destruct E as (mix & ->).
  rewrite (restore_annual_back _ _ _ _ A EB) in H. apply pair_equal_spec in H. destruct H as [H _]. apply pair_equal_spec in H. destruct H as [<- <-].
  split; [|reflexivity]. exists mix. destruct s as [d0 ? ? ? ? ? ? ?]. destruct d0. reflexivity.
Qed.

(** The points of a percentile but its capacity. *)
Lemma ls_point_cap icdf s b sched d slope inlet c c' st p q : swing_ls_point icdf s b sched d slope inlet c st p = Ok q ->
  exists q', swing_ls_point icdf s b sched d slope inlet c' st p = Ok q' /\ snd q' = snd q.
Proof.
  unfold swing_ls_point. intro H. apply bind_ok in H. destruct H as (fr & -> & H). cbn [bind]. apply bind_ok in H. destruct H as (lc & -> & H). cbn [bind].
  apply bind_ok in H. destruct H as (g & -> & H). cbn [bind]. apply bind_ok in H. destruct H as (rm & -> & H). cbn [bind].
  apply bind_ok in H. destruct H as (ls & -> & H). cbn [bind]. apply ok_inj in H. subst q. eexists. split; reflexivity.
Qed.

Lemma mapM_snd {A} (f g : A -> res (Q * Q)) l pts : (forall x q, f x = Ok q -> exists q', g x = Ok q' /\ snd q' = snd q) ->
  mapM f l = Ok pts -> exists pts', mapM g l = Ok pts' /\ map snd pts' = map snd pts.
Proof.
  intro F. revert pts. induction l as [|x l IH]; intros pts H; cbn [mapM] in *.
  - apply ok_inj in H. subst pts. exists []. split; reflexivity.
  - apply bind_ok in H. destruct H as (q & Q1 & H). apply bind_ok in H. destruct H as (r & R1 & H). apply ok_inj in H. subst pts.
    destruct (F _ _ Q1) as (q' & -> & Eq). destruct (IH _ R1) as (r' & -> & Er). cbn [bind]. eexists. split; [reflexivity|]. cbn [map]. rewrite Eq, Er. reflexivity.
Qed.

Lemma apply_twice s m : apply_mix (apply_mix s m) m = apply_mix s m.
Proof. destruct m; reflexivity. Qed.

Lemma swing_ls_again lib icdf s b sched m slope p s' cv : (bd_is_annual b = true -> library_annual lib b) ->
  swing_ls_sizing_curve lib icdf s b sched m slope p = (s', b, Ok cv) ->
  exists s2 cv2, swing_ls_sizing_curve lib icdf s' b sched m slope p = (s2, b, Ok cv2) /\ ls_points cv2 = ls_points cv.
Proof.
  intros A H. unfold swing_ls_sizing_curve in H |- *. destruct m as [d|]; [|discriminate]. destruct (negb (dict_has d "shed")); [discriminate|].
  destruct (if bd_is_annual b then bd_set_daily lib b else Ok b) as [b1|] eqn:EB; [|discriminate].
  set (r := qmin (dh_run (sw_dhw s)) (non_shed_hours sched)) in *.
  destruct (swing_ls_curve_body icdf (sw_set_run s r) b1 sched d (slope_or (sw_dhw s) slope) p) as [s1 o] eqn:E.
  rewrite (restore_annual_back _ _ _ _ A EB) in H. apply pair_equal_spec in H. destruct H as [H ->]. apply pair_equal_spec in H. destruct H as [<- _].
  unfold swing_ls_curve_body in E. destruct (do inlet <- design_inlet b1; _) as [[[inlet cap_n] [mix rv]]|] eqn:HD in E.
  2:{ apply pair_equal_spec in E. destruct E as [_ E]. discriminate. }
  apply pair_equal_spec in E. destruct E as [<- E].
  assert (D1 : sw_dhw (apply_mix (sw_set_run s r) mix) = dh_set_run (sw_dhw s) r) by (destruct mix; reflexivity).
  set (w := apply_mix (sw_set_run s r) mix) in *.
  assert (RW : dh_run (sw_dhw (sw_set_run w (dh_run (sw_dhw s)))) = dh_run (sw_dhw s)) by reflexivity. rewrite RW. fold r.
  assert (SL : slope_or (sw_dhw (sw_set_run w (dh_run (sw_dhw s)))) slope = slope_or (sw_dhw s) slope).
  { unfold slope_or. cbn [sw_set_run sw_set_dhw sw_dhw dh_set_run dh_slope]. rewrite D1. reflexivity. } rewrite SL.
  assert (WW : sw_set_run (sw_set_run w (dh_run (sw_dhw s))) r = w).
  { unfold w. destruct mix; destruct s as [d0 ? ? ? ? ? ? ?]; destruct d0; reflexivity. } rewrite WW.
  destruct (bind_ok _ _ _ HD) as (i & Hi & HD1). destruct (bind_ok _ _ _ HD1) as (cn & Hc & HD2). destruct (bind_ok _ _ _ HD2) as (mr & Hr & HD3).
  apply ok_inj in HD3. injection HD3 as -> -> ->.
  assert (RN : swing_running w b1 = Ok (mix, rv)).
  { unfold w. destruct (apply_mix_set (sw_set_run s r) mix) as (x & ->). rewrite running_mix. exact Hr. }
  assert (CN : exists c, swing_capacity w b1 = Ok c).
  { unfold swing_capacity, swing_capacity_of, swing_normal_gen in *. rewrite D1. cbn [dh_set_run dh_run dh_storage dh_defrost]. rewrite Hi in *. cbn [bind] in *.
    cbn [sw_set_run sw_set_dhw sw_dhw dh_set_run dh_run dh_storage dh_defrost] in Hc.
    destruct (bind_ok _ _ _ Hc) as (g & G & Hc1). apply qdiv_inv in G. destruct G as [N1 _]. rewrite qdiv_ok by exact N1. cbn [bind].
    destruct (bind_ok _ _ _ Hc1) as (y & Y & _). apply qdiv_inv in Y. destruct Y as [N2 _]. rewrite qdiv_ok by exact N2. cbn [bind]. eexists. reflexivity. }
  destruct CN as (c & CN). unfold swing_ls_curve_body. rewrite Hi. cbn [bind]. rewrite CN. cbn [bind]. rewrite RN. cbn [bind].
  assert (WM : apply_mix w mix = w) by (unfold w; apply apply_twice). rewrite WM.
  destruct (bind_ok _ _ _ E) as (f & Hf & E1). destruct (bind_ok _ _ _ E1) as (sn & Hs & E2). destruct (bind_ok _ _ _ E2) as (pts & Hp & E3). apply ok_inj in E3.
  rewrite Hf. cbn [bind]. rewrite Hs. cbn [bind].
  destruct (mapM_snd _ (swing_ls_point icdf w b1 sched d (slope_or (sw_dhw s) slope) inlet c sn) _ _ (fun x q => ls_point_cap icdf w b1 sched d _ inlet cap_n c sn x q) Hp) as (pts' & -> & EP).
  cbn [bind]. rewrite (restore_annual_back _ _ _ _ A EB). do 2 eexists. split; [reflexivity|]. subst cv. unfold ls_points. cbn [cv_hours cv_storage cv_rec]. rewrite EP. reflexivity.
Qed.

Lemma ls_keeps dt e sched m slope p e' out : restorable dt e -> eng_ls_curve dt e sched m slope p = (e', out) ->
  en_building e' = en_building e /\ same_but_mix (en_system e) (en_system e').
Proof.
  intros A H. unfold eng_ls_curve in H. destruct e as [b s]. cbn [en_building en_system] in *. unfold restorable in A. cbn [en_building] in A.
  destruct s as [d x|l x|w x|d r f x|x|d].
  - destruct (ls_sizing_curve _ _ _ _ _ _ _ _ _) as [[d' b'] o] eqn:E. destruct (C40_ls_curve_restores _ _ _ _ _ _ _ _ _ _ _ _ A E) as [-> ->].
    apply pair_equal_spec in H. destruct H as [<- _]. split; reflexivity.
  - destruct (ls_sizing_curve _ _ _ _ _ _ _ _ _) as [[d' b'] o] eqn:E. destruct (C40_ls_curve_restores _ _ _ _ _ _ _ _ _ _ _ _ A E) as [-> ->].
    apply pair_equal_spec in H. destruct H as [<- _]. rewrite pl_same. split; reflexivity.
  - destruct (swing_ls_sizing_curve _ _ _ _ _ _ _ _) as [[d' b'] o] eqn:E. destruct (swing_ls_keeps _ _ _ _ _ _ _ _ _ _ _ A E) as [(mix & ->) ->].
    apply pair_equal_spec in H. destruct H as [<- _]. split; [reflexivity|]. exists mix. reflexivity.
  - destruct (ls_sizing_curve _ _ _ _ _ _ _ _ _) as [[d' b'] o] eqn:E. destruct (C40_ls_curve_restores _ _ _ _ _ _ _ _ _ _ _ _ A E) as [-> ->].
    apply pair_equal_spec in H. destruct H as [<- _]. split; reflexivity.
  - destruct (mp_ls_sizing_curve _ _ _ _) as [b' o] eqn:E. unfold mp_ls_sizing_curve in E.
    apply pair_equal_spec in H. destruct H as [<- _]. cbn [en_building en_system]. split; [|reflexivity].
    destruct (if bd_is_annual b then bd_set_daily (da_lib dt) b else Ok b) as [b1|] eqn:EB; [|congruence].
    rewrite (restore_annual_back _ _ _ _ A EB) in E. congruence.
  - destruct (ls_sizing_curve _ _ _ _ _ _ _ _ _) as [[d' b'] o] eqn:E. destruct (C40_ls_curve_restores _ _ _ _ _ _ _ _ _ _ _ _ A E) as [-> ->].
    apply pair_equal_spec in H. destruct H as [<- _]. split; reflexivity.
Qed.

Lemma ls_again dt e sched m slope p e' cv : restorable dt e -> eng_ls_curve dt e sched m slope p = (e', Ok cv) ->
  exists e2 cv2, eng_ls_curve dt e' sched m slope p = (e2, Ok cv2) /\ ls_points cv2 = ls_points cv.
Proof.
  intros A H. destruct (ls_keeps _ _ _ _ _ _ _ _ A H) as [B S]. destruct e as [b s], e' as [b' s']. cbn [en_building en_system] in *. subst b'.
  destruct s; cbn in S; try (subst s'; do 2 eexists; split; [exact H|reflexivity]).
  destruct S as (mix & ->). unfold eng_ls_curve in *. cbn [en_building en_system] in *. unfold restorable in A. cbn [en_building] in A.
  destruct (swing_ls_sizing_curve _ _ w _ _ _ _ _) as [[w1 b1] o1] eqn:E.
  apply pair_equal_spec in H. destruct H as [H ->]. injection H as E1 E2. subst b1 w1.
  destruct (swing_ls_again _ _ _ _ _ _ _ _ _ _ A E) as (s2 & cv2 & E2 & P). rewrite E2. exists (mkEngine b (ESwing s2 s)), cv2. split; [reflexivity|exact P].
Qed.

(** ** Points *)

Lemma points_keep dt e sched m p slope e' out : restorable dt e -> eng_points dt e sched m p slope = (e', out) ->
  en_building e' = en_building e /\ same_but_mix (en_system e) (en_system e').
Proof.
  intros A H. unfold eng_points in H. destruct (is_load_shifting (Some m)).
  - destruct (eng_ls_curve _ _ _ _ _ _) as [e1 o] eqn:E. apply pair_equal_spec in H. destruct H as [<- _]. exact (ls_keeps _ _ _ _ _ _ _ _ A E).
  - destruct (eng_curve _ _ _) as [e1 o] eqn:E. apply pair_equal_spec in H. destruct H as [<- _]. exact (curve_keeps _ _ _ _ _ A E).
Qed.

Lemma points_again dt e sched m p slope e' pts : restorable dt e -> eng_points dt e sched m p slope = (e', Ok pts) ->
  snd (eng_points dt e' sched m p slope) = Ok pts.
Proof.
  intros A H. destruct (points_keep _ _ _ _ _ _ _ _ A H) as [B S]. unfold eng_points in *. destruct (is_load_shifting (Some m)).
  - destruct (eng_ls_curve dt e sched m slope p) as [e1 o] eqn:E. apply pair_equal_spec in H. destruct H as [<- H].
    apply bind_ok in H. destruct H as (cv & -> & H). apply ok_inj in H. destruct (ls_again _ _ _ _ _ _ _ _ A E) as (e2 & cv2 & -> & P). cbn [bind snd]. rewrite P, H. reflexivity.
  - destruct (eng_curve dt e slope) as [e1 o] eqn:E. apply pair_equal_spec in H. destruct H as [<- H].
    pose proof (curve_again dt e e1 slope B S) as C. rewrite E in C. destruct (eng_curve dt e1 slope) as [e2 o2]. cbn [snd] in *. subst o2. exact H.
Qed.

Lemma restorable_keeps dt e e' : en_building e' = en_building e -> restorable dt e -> restorable dt e'.
Proof. intros B A. unfold restorable in *. rewrite B. exact A. Qed.

Lemma plot_inv dt p e slope e' fig pts : restorable dt e -> eng_plot dt p e slope = (e', Ok (fig, pts)) ->
  exists sched m e1, eng_controls p = Ok (sched, m) /\ eng_points dt e sched m (ep_ls_percent p) slope = (e1, Ok pts) /\
    fig = figure_of (fst (fst pts)) (snd (fst pts)) (snd pts).
Proof.
  intros A H. unfold eng_plot in H. destruct (eng_controls p) as [[sched m]|]; [|discriminate].
  destruct (eng_points dt e sched m (ep_ls_percent p) slope) as [e1 o] eqn:E. destruct o as [[[xs ys] rec]|]; [|discriminate].
  pose proof (points_again _ _ _ _ _ _ _ _ A E) as P. destruct (eng_points dt e1 sched m (ep_ls_percent p) slope) as [e2 o2]. cbn [snd] in P. subst o2.
  apply pair_equal_spec in H. destruct H as [_ H]. cbn [bind] in H. apply ok_inj in H. injection H as <- <-. exists sched, m, e1. split; [reflexivity|]. split; [exact E|reflexivity].
Qed.

Lemma plot_total dt p e slope sched m e1 pts : restorable dt e -> eng_controls p = Ok (sched, m) ->
  eng_points dt e sched m (ep_ls_percent p) slope = (e1, Ok pts) ->
  exists e', eng_plot dt p e slope = (e', Ok (figure_of (fst (fst pts)) (snd (fst pts)) (snd pts), pts)).
Proof.
  intros A EC E. unfold eng_plot. rewrite EC, E. destruct pts as [[xs ys] rec].
  pose proof (points_again _ _ _ _ _ _ _ _ A E) as P. destruct (eng_points dt e1 sched m (ep_ls_percent p) slope) as [e2 o2]. cbn [snd] in P. subst o2.
  exists e2. reflexivity.
Qed.
