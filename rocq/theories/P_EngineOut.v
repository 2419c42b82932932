(** C68: the sizing-curve plots of an engine. *)
From Coq Require Import Lia Lqa Setoid.
From Verif Require Import Prelude M_StratifiedTank M_MixedTank M_EnergyTank M_Building M_Heater M_Sizing S_Integral S_Sizing
  M_Step M_Swing S_Swing M_MPRTP M_Engine M_EngineOut S_Engine S_EngineSize S_EngineOut L_Building L_MixedTank L_Sizing L_Sizing2 L_Sizing3 L_Sizing4
  P_Sizing P_Sizing2 L_Swing2 L_Swing3 L_Swing4 P_Swing P_Swing2 L_Step4 L_MPRTP2 L_Engine L_Engine2 L_Engine8 P_Engine P_Engine7 L_Out L_Out2 L_Out3 L_Out4.
Open Scope Q_scope.

Lemma curve_lengths dt e slope e' cv : eng_curve dt e slope = (e', Ok cv) ->
  length (cv_capacity cv) = length (cv_hours cv) /\ length (cv_storage cv) = length (cv_hours cv) /\
  (cv_hours cv <> [] -> (0 <= cv_rec cv < Z.of_nat (length (cv_hours cv)))%Z).
Proof.
  intro H. assert (S1 : 0 < 1 # 4) by reflexivity. assert (S2 : 0 < 1 # 2) by reflexivity. unfold eng_curve in H. destruct (en_system e).
  - destruct (sizing_curve _ _ _ _ _ _ _) as [[d' b'] o] eqn:E. apply pair_equal_spec in H. destruct H as [_ ->].
    destruct (C41_well_formed _ _ _ _ _ _ _ _ _ _ S1 E) as (A & B & _ & _ & C & _). auto.
  - destruct (sizing_curve _ _ _ _ _ _ _) as [[d' b'] o] eqn:E. apply pair_equal_spec in H. destruct H as [_ ->].
    destruct (C41_well_formed _ _ _ _ _ _ _ _ _ _ S1 E) as (A & B & _ & _ & C & _). auto.
  - destruct (swing_sizing_curve _ _ _ _ _ _) as [[d' b'] o] eqn:E. apply pair_equal_spec in H. destruct H as [_ ->].
    destruct (C41_swing_well_formed _ _ _ _ _ _ _ _ _ S1 E) as (A & B & _ & C & _). auto.
  - destruct (sizing_curve _ _ _ _ _ _ _) as [[d' b'] o] eqn:E. apply pair_equal_spec in H. destruct H as [_ ->].
    destruct (C41_well_formed _ _ _ _ _ _ _ _ _ _ S1 E) as (A & B & _ & _ & C & _). auto.
  - destruct (mp_sizing_curve _ _ _ _ _) as [b' o] eqn:E. apply pair_equal_spec in H. destruct H as [_ ->].
    destruct (mp_curve_mark _ _ _ _ _ _ _ S2 E) as (A & B & _ & R & _). split; [exact A|]. split; [exact B|]. intro N. rewrite R. destruct (cv_hours cv); [contradiction|cbn [length]; lia].
  - destruct (sizing_curve _ _ _ _ _ _ _) as [[d' b'] o] eqn:E. apply pair_equal_spec in H. destruct H as [_ ->].
    destruct (C41_well_formed _ _ _ _ _ _ _ _ _ _ S1 E) as (A & B & _ & _ & C & _). auto.
Qed.

Lemma swing_ls_shape lib icdf s b sched m slope p s' b' cv : swing_ls_sizing_curve lib icdf s b sched m slope p = (s', b', Ok cv) ->
  cv_hours cv = ls_percents /\ length (cv_storage cv) = 76%nat /\ cv_rec cv = ls_rec_index p.
Proof.
  intro H. unfold swing_ls_sizing_curve in H. destruct m as [d|]; [|discriminate]. destruct (negb (dict_has d "shed")); [discriminate|].
  destruct (if bd_is_annual b then bd_set_daily lib b else Ok b) as [b1|]; [|discriminate].
  destruct (swing_ls_curve_body _ _ _ _ _ _ _) as [s1 o] eqn:E.
  assert (O : o = Ok cv).
  { unfold restore_annual in H. destruct (bd_is_annual b); [destruct (bd_set_annual lib b1)|]; congruence. }
  subst o. unfold swing_ls_curve_body in E. destruct (do inlet <- design_inlet b1; _) as [[[inlet cap_n] [mix rv]]|] in E; [|discriminate].
  apply pair_equal_spec in E. destruct E as [_ E]. apply bind_ok in E. destruct E as (f & _ & E). apply bind_ok in E. destruct E as (sn & _ & E).
  apply bind_ok in E. destruct E as (pts & P & E). apply ok_inj in E. subst cv. cbn [cv_hours cv_storage cv_rec]. split; [reflexivity|]. split; [|reflexivity].
  rewrite map_length. rewrite (mapM_length _ _ _ P). reflexivity.
Qed.

Lemma rec_range p : (0 <= ls_rec_index p <= 75)%Z.
Proof. unfold ls_rec_index. change (Z.of_nat (length ls_percents) - 1)%Z with 75%Z. lia. Qed.

Lemma ls_curve_shape dt e sched m slope p e' cv : eng_ls_curve dt e sched m slope p = (e', Ok cv) ->
  cv_hours cv = ls_percents /\ length (cv_storage cv) = 76%nat /\ cv_rec cv = ls_rec_index p.
Proof.
  intro H. unfold eng_ls_curve in H.
  assert (G : forall K s b s' b', ls_sizing_curve K (da_lib dt) (da_icdf dt) s b sched (Some m) slope p = (s', b', Ok cv) ->
    cv_hours cv = ls_percents /\ length (cv_storage cv) = 76%nat /\ cv_rec cv = ls_rec_index p).
  { intros K s b s' b' E. destruct (C42_curve_well_formed _ _ _ _ _ _ _ _ _ _ _ _ E) as (_ & _ & L & _).
    destruct (ls_curve_inv _ _ _ _ _ _ _ _ _ _ _ _ E) as (d & b1 & inl & cn & rv & f & sn & pts & _ & _ & _ & _ & _ & _ & _ & _ & _ & ->). auto. }
  destruct (en_system e).
  - destruct (ls_sizing_curve _ _ _ _ _ _ _ _ _) as [[d' b'] o] eqn:E. apply pair_equal_spec in H. destruct H as [_ ->]. eapply G; exact E.
  - destruct (ls_sizing_curve _ _ _ _ _ _ _ _ _) as [[d' b'] o] eqn:E. apply pair_equal_spec in H. destruct H as [_ ->]. eapply G; exact E.
  - destruct (swing_ls_sizing_curve _ _ _ _ _ _ _ _) as [[d' b'] o] eqn:E. apply pair_equal_spec in H. destruct H as [_ ->]. eapply swing_ls_shape; exact E.
  - destruct (ls_sizing_curve _ _ _ _ _ _ _ _ _) as [[d' b'] o] eqn:E. apply pair_equal_spec in H. destruct H as [_ ->]. eapply G; exact E.
  - destruct (mp_ls_sizing_curve _ _ _ _) as [b' o] eqn:E. apply pair_equal_spec in H. destruct H as [_ ->]. exfalso.
    unfold mp_ls_sizing_curve in E. destruct (if bd_is_annual _ then _ else _) as [b1|]; [|discriminate].
    assert (X : (do _ <- design_inlet b1; do _ <- rtp_capacity (ms_return (mb_sys x)) (ms_flow (mb_sys x))
                   (dh_set_run (mb_dhw x) (qmin (dh_run (mb_dhw x)) (non_shed_hours sched))) b1; do _ <- bd_load b1 0 1 false; Err AttributeError) = Ok cv).
    { unfold restore_annual in E. destruct (bd_is_annual _); [destruct (bd_set_annual _ b1)|]; congruence. }
    apply bind_ok in X. destruct X as (? & _ & X). apply bind_ok in X. destruct X as (? & _ & X). apply bind_ok in X. destruct X as (? & _ & X). discriminate.
  - destruct (ls_sizing_curve _ _ _ _ _ _ _ _ _) as [[d' b'] o] eqn:E. apply pair_equal_spec in H. destruct H as [_ ->]. eapply G; exact E.
Qed.

Lemma shifting_iff p sched m : eng_controls p = Ok (sched, m) -> (is_load_shifting (Some m) = true <-> exists ls, given_schedule p ls).
Proof.
  intro H. apply controls_inv in H. destruct H as [(L & _ & ->)|(ls & G & _ & n & s & lu & -> & _)].
  - split; [discriminate|]. intros (ls & E & N). destruct L; congruence.
  - split; [intros _; exists ls; exact G|reflexivity].
Qed.

(** The figure shows exactly the points that are returned with it, marks the starting point among them,
    and its slider goes through them one by one.  The curve of load shifting has the whole percentages
    from 25 to 100 for its abscissas. *)
Theorem C68_figure : forall dt p e slope e' fig xs ys start, restorable dt e ->
  eng_plot dt p e slope = (e', Ok (fig, (xs, ys, start))) ->
  draws fig xs ys start /\ (xs <> [] -> (0 <= start < Z.of_nat (length xs))%Z) /\
  ((exists ls, given_schedule p ls) ->
     length xs = 76%nat /\ forall i x, nth_error xs i = Some x -> x == 25 + qz (Z.of_nat i)).
Proof.
  intros dt p e slope e' fig xs ys start A H. destruct (plot_inv _ _ _ _ _ _ _ A H) as (sched & m & e1 & EC & EP & ->). cbn [fst snd].
  pose proof (shifting_iff _ _ _ EC) as SI. unfold eng_points in EP. destruct (is_load_shifting (Some m)).
  - destruct (eng_ls_curve _ _ _ _ _ _) as [e2 o] eqn:E. apply pair_equal_spec in EP. destruct EP as [_ EP]. apply bind_ok in EP. destruct EP as (cv & -> & EP).
    apply ok_inj in EP. unfold ls_points in EP. injection EP as <- <- <-. destruct (ls_curve_shape _ _ _ _ _ _ _ _ E) as (A1 & A2 & A3).
    assert (LX : length (map (fun p => p * 100) (cv_hours cv)) = 76%nat) by (rewrite map_length, A1; reflexivity).
    split; [apply figure_draws; congruence|]. split.
    + intros _. rewrite LX, A3. pose proof (rec_range (ep_ls_percent p)). lia.
    + intros _. split; [exact LX|]. intros i x X. rewrite A1 in X. unfold ls_percents in X. rewrite !nth_error_map in X.
      destruct (nth_error (seq 25 76) i) as [k|] eqn:K; [|discriminate]. cbn in X. injection X as <-.
      assert (I : (i < 76)%nat) by (rewrite <- (seq_length 76 25); apply nth_error_Some; rewrite K; discriminate).
      rewrite (nth_error_nth' _ 0%nat) in K by (rewrite seq_length; exact I). rewrite seq_nth in K by exact I. assert (KE : k = (25 + i)%nat) by congruence. subst k. clear K.
      rewrite Nat2Z.inj_add. unfold qz. rewrite inject_Z_plus. change (inject_Z (Z.of_nat 25)) with 25. field.
  - destruct (eng_curve _ _ _) as [e2 o] eqn:E. apply pair_equal_spec in EP. destruct EP as [_ EP]. apply bind_ok in EP. destruct EP as (cv & -> & EP).
    apply ok_inj in EP. unfold plain_points in EP. injection EP as <- <- <-. destruct (curve_lengths _ _ _ _ _ E) as (A1 & A2 & A3).
    split; [apply figure_draws; rewrite !rev_length; congruence|]. split.
    + intro N. rewrite rev_length. rewrite A2. assert (H0 : cv_hours cv <> []).
      { intro Z. apply N. rewrite Z in A2. destruct (cv_storage cv); [reflexivity|discriminate]. }
      specialize (A3 H0). lia.
    + intro G. apply SI in G. discriminate.
Qed.
Print Assumptions C68_figure.

(** Plotting changes neither the building, nor the system with its equipment, nor the results of sizing. *)
Theorem C68_unchanged : forall dt p e slope e' out, restorable dt e -> eng_plot dt p e slope = (e', out) ->
  en_building e' = en_building e /\ same_but_mix (en_system e) (en_system e') /\ eng_results e' = eng_results e.
Proof.
  intros dt p e slope e' out A H.
  assert (G : en_building e' = en_building e /\ same_but_mix (en_system e) (en_system e')).
  { unfold eng_plot in H. destruct (eng_controls p) as [[sched m]|]; [|apply pair_equal_spec in H; destruct H as [<- _]; split; [reflexivity|apply same_refl]].
    destruct (eng_points dt e sched m (ep_ls_percent p) slope) as [e1 o] eqn:E. destruct (points_keep _ _ _ _ _ _ _ _ A E) as [B1 S1].
    destruct o as [[[xs ys] rec]|]; [|apply pair_equal_spec in H; destruct H as [<- _]; auto].
    destruct (eng_points dt e1 sched m (ep_ls_percent p) slope) as [e2 o2] eqn:E2. destruct (points_keep _ _ _ _ _ _ _ _ (restorable_keeps _ _ _ B1 A) E2) as [B2 S2].
    apply pair_equal_spec in H. destruct H as [<- _]. split; [congruence|]. exact (same_trans _ _ _ S1 S2). }
  destruct G as [B S]. split; [exact B|]. split; [exact S|]. unfold eng_results. destruct (en_system e); cbn in S; try (rewrite S; reflexivity).
  destruct S as (mix & ->). reflexivity.
Qed.
Print Assumptions C68_unchanged.

(** ** The marked point is the sized system *)

Lemma base_pooled s b inlet : design_inlet b = Ok inlet -> 0 < bd_daily b -> 0 < dh_defrost s -> inlet < dh_supply s ->
  pooled_class base_klass s b (daily_heat b (dh_supply s) inlet).
Proof.
  intros Hi D0 F0 I1. split.
  - intros h h0. destruct (base_cap_total (dh_set_run s h) b inlet Hi D0 h0 F0 I1) as (c & C & _). exists c. split; [exact C|]. exact (base_heat _ _ _ _ Hi C).
  - intros h c h0. apply base_running_at. exact h0.
Qed.

Lemma sprtp_pooled r f s b inlet : design_inlet b = Ok inlet -> 0 < bd_daily b -> 0 < dh_defrost s -> inlet < dh_supply s ->
  pooled_class (sprtp_klass r f) s b (daily_heat b (dh_supply s) inlet + daily_loss (dh_supply s) r f).
Proof.
  intros Hi D0 F0 I1. split.
  - intros h h0. destruct (base_cap_total (dh_set_run s h) b inlet Hi D0 h0 F0 I1) as (c & C & _).
    assert (RC : exists c', rtp_capacity r f (dh_set_run s h) b = Ok c').
    { unfold rtp_capacity. rewrite C. cbn [bind]. unfold recirc_capacity. rewrite (qdiv_ok _ (dh_run (dh_set_run s h))) by (cbn; lra). cbn [bind].
      rewrite qdiv_ok by (cbn; lra). eexists. reflexivity. }
    destruct RC as (c' & RC). exists c'. split; [exact RC|]. exact (rtp_heat _ _ _ _ _ _ Hi RC).
  - intros h c h0. cbn [sprtp_klass k_running]. unfold sprtp_running, recirc_daily_gal. rewrite Hi. cbn [bind]. pose proof rho_pos as RP.
    rewrite qdiv_ok; [apply base_running_at; exact h0|]. cbn [dh_set_run dh_supply]. intro Z.
    assert (0 < rho_cp * (dh_supply s - inlet)) by (apply Qmult_lt_0_compat; [exact RP|lra]). lra.
Qed.

Lemma running_at_eq b h h' : daily_shape b -> 0 < h -> h <= 24 -> h == h' -> running_at b h == running_at b h'.
Proof.
  intros [L24 Sh Sq Hd] h0 h24 E. apply Qle_antisym; apply running_at_mono; auto; lra.
Qed.

(** The curve of a freshly sized pooled system. *)
Lemma pooled_mark K lib s b sched m slope0 fract d w slope inlet heat : 
  dhw_size K lib s b (Some sched) (Some m) slope0 fract = (d, b, Ok w) -> no_load_shift (Some sched) (Some m) ->
  daily_shape b -> design_inlet b = Ok inlet ->
  (forall s', dh_supply s' = dh_supply s -> dh_defrost s' = dh_defrost s -> pooled_class K s' b heat) ->
  0 < dh_run s -> dh_run s <= 24 -> 0 < dh_defrost s -> storage_needed b (dh_run s) ->
  (forall f, strat_factor s (Some m) slope0 inlet = Ok f -> 0 < f) ->
  exists cv c v C V, sizing_curve K lib d b (Some m) slope (1 # 4) = (d, b, Ok cv) /\
    let n := Z.to_nat (cv_rec cv) in
    (0 <= cv_rec cv)%Z /\ (n < length (cv_hours cv))%nat /\
    nth_error (cv_capacity cv) n = Some c /\ nth_error (cv_storage cv) n = Some v /\
    dh_min_cap d = Some C /\ dh_min_stor d = Some V /\ c == C /\ v == V.
Proof.
  intros SZ NL DS Hi PC R0 R24 F0 (x & Ix & Hx) FP. pose proof DS as [L24 Sh Sq Hd]. pose proof (daily_not_annual b L24) as AN.
  assert (A' : (if bd_is_annual b then bd_set_daily lib b else Ok b) = Ok b) by (rewrite AN; reflexivity).
  destruct (normal_size_inv _ _ _ _ _ _ _ _ _ _ _ _ _ NL A' Hi SZ) as (cap & rv & f & stor & MC & MS & KC & KR & SF & SV).
  destruct (size_ok_inv _ _ _ _ _ _ _ _ _ _ _ SZ) as (b1 & c0 & v0 & _ & _ & ED).
  destruct (min_run_below b x (dh_run s) Sh Ix R0 Hx) as (lo & Hlo & LR).
  assert (SD : dh_supply d = dh_supply s /\ dh_defrost d = dh_defrost s /\ dh_run d = dh_run s) by (rewrite ED; auto). destruct SD as (SD1 & SD2 & SD3).
  assert (SF' : strat_factor d (Some m) (slope_or d slope) inlet = Ok f).
  { rewrite <- SF. rewrite ED. destruct s. reflexivity. }
  destruct (pooled_curve K lib d b (Some m) slope (1 # 4) heat inlet f lo) as (cv & h & c & E & N1 & N2 & HH & N3 & N4 & N5 & N6); try assumption; try (rewrite SD3; assumption).
  { reflexivity. } { apply PC; assumption. } { apply FP. exact SF. }
  exists cv, c, (running_at b h / f), cap, stor. split; [exact E|]. cbv zeta. repeat (split; [assumption|]).
  destruct (PC s eq_refl eq_refl) as [P1 P2]. specialize (P1 _ R0). destruct P1 as (c1 & C1 & H1). rewrite dh_set_run_same in C1. rewrite KC in C1. apply ok_inj in C1. subst c1.
  specialize (P2 (dh_run s) cap R0). rewrite dh_set_run_same in P2. rewrite KR in P2. apply ok_inj in P2. subst rv.
  rewrite SD3 in HH. split.
  - apply (Qmult_inj_r c cap (1000 * dh_defrost s * dh_run s)).
    + assert (0 < 1000 * dh_defrost s * dh_run s) by (apply Qmult_lt_0_compat; [apply Qmult_lt_0_compat; [reflexivity|exact F0]|exact R0]). lra.
    + transitivity heat.
      * rewrite <- N5. rewrite SD2, HH. ring.
      * rewrite <- H1. ring.
  - unfold storage_volume in SV. apply qdiv_inv in SV. destruct SV as [_ ->]. rewrite (running_at_eq b h (dh_run s) DS); [reflexivity| | |exact HH]; lra.
Qed.

Lemma rev_nth_error {A} (l : list A) n : (n < length l)%nat -> nth_error (rev l) (length l - 1 - n) = nth_error l n.
Proof.
  intro H. destruct (nth_error l n) as [x|] eqn:E; [|apply nth_error_None in E; lia].
  rewrite (nth_error_nth' (rev l) x) by (rewrite rev_length; lia). f_equal. rewrite rev_nth by lia.
  replace (length l - S (length l - 1 - n))%nat with n by lia. exact (nth_error_nth _ _ _ E).
Qed.

Lemma mark_reversed cv c v : length (cv_capacity cv) = length (cv_hours cv) -> length (cv_storage cv) = length (cv_hours cv) ->
  (0 <= cv_rec cv)%Z -> (Z.to_nat (cv_rec cv) < length (cv_hours cv))%nat ->
  nth_error (cv_capacity cv) (Z.to_nat (cv_rec cv)) = Some c -> nth_error (cv_storage cv) (Z.to_nat (cv_rec cv)) = Some v ->
  point_at (fst (fst (plain_points cv))) (snd (fst (plain_points cv))) (snd (plain_points cv)) v c.
Proof.
  intros L1 L2 R0 R1 C V. unfold plain_points, point_at. cbn [fst snd].
  assert (E : Z.to_nat (Z.of_nat (length (cv_storage cv)) - 1 - cv_rec cv) = (length (cv_storage cv) - 1 - Z.to_nat (cv_rec cv))%nat) by lia.
  split; [lia|]. rewrite E. split.
  - rewrite rev_nth_error by lia. exact V.
  - replace (length (cv_storage cv)) with (length (cv_capacity cv)) by congruence. rewrite rev_nth_error by lia. exact C.
Qed.


Lemma plain_plot dt p e slope sched m e1 cv : restorable dt e -> eng_controls p = Ok (sched, m) -> is_load_shifting (Some m) = false ->
  eng_curve dt e slope = (e1, Ok cv) ->
  exists e', eng_plot dt p e slope = (e', Ok (figure_of (fst (fst (plain_points cv))) (snd (fst (plain_points cv))) (snd (plain_points cv)), plain_points cv)).
Proof.
  intros A EC LS E. apply (plot_total dt p e slope sched m e1 (plain_points cv) A EC). unfold eng_points. rewrite LS, E. reflexivity.
Qed.

Lemma plain_unshifted p sched m : without_schedule p -> eng_controls p = Ok (sched, m) -> is_load_shifting (Some m) = false.
Proof. intros NS EC. destruct (plain_controls _ _ _ NS EC) as [_ ->]. reflexivity. Qed.

Lemma increasing_nth l : strictly_increasing l -> forall i j x y, (i < j)%nat -> nth_error l i = Some x -> nth_error l j = Some y -> x < y.
Proof.
  intros S. assert (G : forall l, strictly_increasing l -> match l with [] => True | x :: r => (forall y, In y r -> x < y) /\ strictly_increasing r end).
  { clear. induction l as [|x [|y r] IH]; intro H; [exact I|split; [intros ? []|exact I]|]. destruct H as [H1 H2]. split; [|exact H2].
    intros z [<-|Z]; [exact H1|]. specialize (IH H2). cbn in IH. destruct IH as [IH _]. specialize (IH z Z). lra. }
  induction l as [|a r IH]; intros [|i] j x y L X Y; cbn in X; try discriminate; (destruct j as [|j]; [lia|]); cbn in Y; apply G in S; destruct S as [S1 S2].
  - injection X as <-. apply S1. exact (nth_error_In _ _ Y).
  - apply (IH S2 i j); [lia|exact X|exact Y].
Qed.
Lemma non_increasing_nth l : non_increasing l -> forall i j x y, (i < j)%nat -> nth_error l i = Some x -> nth_error l j = Some y -> y <= x.
Proof.
  intros S. assert (G : forall l, non_increasing l -> match l with [] => True | x :: r => (forall y, In y r -> y <= x) /\ non_increasing r end).
  { clear. induction l as [|x [|y r] IH]; intro H; [exact I|split; [intros ? []|exact I]|]. destruct H as [H1 H2]. split; [|exact H2].
    intros z [<-|Z]; [exact H1|]. specialize (IH H2). cbn in IH. destruct IH as [IH _]. specialize (IH z Z). lra. }
  induction l as [|a r IH]; intros [|i] j x y L X Y; cbn in X; try discriminate; (destruct j as [|j]; [lia|]); cbn in Y; apply G in S; destruct S as [S1 S2].
  - injection X as <-. apply S1. exact (nth_error_In _ _ Y).
  - apply (IH S2 i j); [lia|exact X|exact Y].
Qed.

Lemma turned {A} (l : list A) k x : nth_error (rev l) k = Some x -> (k < length l)%nat /\ nth_error l (length l - 1 - k) = Some x.
Proof.
  intro H. assert (K : (k < length (rev l))%nat) by (apply nth_error_Some; rewrite H; discriminate). rewrite rev_length in K. split; [exact K|].
  rewrite <- H. rewrite <- (rev_nth_error l (length l - 1 - k)) by lia. f_equal. lia.
Qed.

Lemma turned_trade cv : length (cv_capacity cv) = length (cv_storage cv) -> strictly_increasing (cv_capacity cv) -> non_increasing (cv_storage cv) ->
  more_storage_less_capacity (fst (fst (plain_points cv))) (snd (fst (plain_points cv))).
Proof.
  intros L S1 S2 i j x y x' y' LT X Y X' Y'. unfold plain_points in *. cbn [fst snd] in *.
  destruct (turned _ _ _ X) as [K1 N1]. destruct (turned _ _ _ Y) as [K2 N2]. destruct (turned _ _ _ X') as [K3 N3]. destruct (turned _ _ _ Y') as [K4 N4]. split.
  - apply (non_increasing_nth _ S2 (length (cv_storage cv) - 1 - j) (length (cv_storage cv) - 1 - i)); [lia|assumption|assumption].
  - apply (increasing_nth _ S1 (length (cv_capacity cv) - 1 - j) (length (cv_capacity cv) - 1 - i)); [lia|assumption|assumption].
Qed.

Lemma sizable_factor p b t inlet on_t s sched m f : sizable p b t inlet on_t -> eng_controls p = Ok (sched, m) ->
  dh_supply s = ep_supply p -> dh_storage s = ep_storage p ->
  strat_factor s (Some m) (steepness t) inlet = Ok f -> 0 < f.
Proof.
  intros [NS L D0 BI ON R0 F0 [[I1 I2] O1] [A0 [SS A1]] LP TM SW] EC S1 S2 H. destruct (plain_controls _ _ _ NS EC) as [_ ->]. apply defaulted_is in ON.
  unfold strat_factor, map_of in H. cbn [dict_get] in H. change (String.eqb "normal" "normal") with true in H. cbn iota in H. apply bind_ok in H. destruct H as (x & SX & H). apply ok_inj in H. subst f.
  cbn [ct_on_sensor ct_on_trigger] in SX. rewrite <- ON in SX.
  assert (X0 : 0 < x). { apply (supply_gal_pos s (ep_aq p) on_t (steepness t) inlet x (steepness_pos t)); rewrite ?S1, ?S2; assumption. }
  apply qlt_div_iff; [reflexivity|lra].
Qed.

Lemma heat_pos b supply inlet : 0 < bd_daily b -> inlet < supply -> 0 < daily_heat b supply inlet.
Proof. intros D I. unfold daily_heat. pose proof rho_pos as RP. apply Qmult_lt_0_compat; [apply Qmult_lt_0_compat; assumption|lra]. Qed.
Lemma loss_nonneg supply r f : r <= supply -> 0 <= f -> 0 <= daily_loss supply r f.
Proof.
  intros A B. unfold daily_loss. pose proof rho_pos as RP. apply Qmult_le_0_compat; [|lra]. apply Qmult_le_0_compat; [|lra]. lra.
Qed.

(** A pooled system of any of the three kinds. *)
Lemma pooled_plot K dt p b t inlet on_t sched m d w slope heat :
  dhw_size K (da_lib dt) (fresh p (ep_run p)) b (Some sched) (Some m) (steepness t) 1 = (d, b, Ok w) -> eng_controls p = Ok (sched, m) ->
  sizable p b t inlet on_t -> daily_shape b -> ep_run p <= 24 -> storage_needed b (ep_run p) -> 0 < heat ->
  (forall s', dh_supply s' = ep_supply p -> dh_defrost s' = ep_defrost p -> pooled_class K s' b heat) ->
  exists cv c v C V, sizing_curve K (da_lib dt) d b (Some m) slope (1 # 4) = (d, b, Ok cv) /\
    dh_min_cap d = Some C /\ dh_min_stor d = Some V /\ c == C /\ v == V /\
    point_at (fst (fst (plain_points cv))) (snd (fst (plain_points cv))) (snd (plain_points cv)) v c /\
    more_storage_less_capacity (fst (fst (plain_points cv))) (snd (fst (plain_points cv))).
Proof.
  intros SZ EC SB DS R24 SN HP PC. pose proof SB as [NS L D0 BI ON R0 F0 [[I1 I2] O1] [A0 [SS A1]] LP TM SW]. pose proof (mains_inlet _ _ BI) as HI.
  pose proof (plain_no_shift _ _ _ NS EC) as NL.
  destruct (pooled_mark K (da_lib dt) (fresh p (ep_run p)) b sched m (steepness t) 1 d w slope inlet heat SZ NL DS HI) as (cv & c & v & C & V & E & Z); try assumption.
  { intros f SF. exact (sizable_factor _ _ _ _ _ (fresh p (ep_run p)) _ _ _ SB EC eq_refl eq_refl SF). }
  cbv zeta in Z. destruct Z as (N1 & N2 & N3 & N4 & MC & MS & EQ1 & EQ2). assert (ST : 0 < 1 # 4) by reflexivity.
  destruct (C41_well_formed _ _ _ _ _ _ _ _ _ _ ST E) as (L1 & L2 & _).
  destruct (size_ok_inv _ _ _ _ _ _ _ _ _ _ _ SZ) as (b1 & c0 & v0 & _ & _ & ED).
  assert (TR : strictly_increasing (cv_capacity cv) /\ non_increasing (cv_storage cv)).
  { apply (pooled_trade_off K (da_lib dt) d b (Some m) slope (1 # 4) heat d b cv ST DS); try (rewrite ED; assumption); try assumption.
    - apply PC; rewrite ED; reflexivity.
    - intros i f HI' SF. rewrite HI in HI'. apply ok_inj in HI'. subst i. apply Qlt_le_weak.
      apply (sizable_factor _ _ _ _ _ (fresh p (ep_run p)) _ _ _ SB EC eq_refl eq_refl). rewrite <- SF, ED. reflexivity. }
  destruct TR as [T1 T2]. exists cv, c, v, C, V. split; [exact E|]. split; [exact MC|]. split; [exact MS|]. split; [exact EQ1|]. split; [exact EQ2|]. split.
  - apply mark_reversed; assumption.
  - apply turned_trade; congruence || assumption.
Qed.

Lemma plain_fract p (fract : Q) dt : without_schedule p -> match ep_ls p with None | Some [] => fract = 1 | Some _ => ls_fract (da_icdf dt) (ep_ls_percent p) = Ok fract end -> fract = 1.
Proof. intros NS H. destruct (ep_ls p) as [[|z l]|] eqn:E; try exact H. exfalso. apply (NS (z :: l)). split; [exact E|discriminate]. Qed.

(** Without load shifting the marked point of the plot is the system the engine was sized to: its storage
    and its capacity.  In the plot of a system whose primary tank alone covers the demand, more storage
    goes with less capacity. *)
Theorem C68_marks_size : forall dt p b t inlet on_t e slope,
  eng_new dt p = Ok e -> type_of (en_system e) = t -> pooled t \/ t = SwingTank -> ep_volume p = None ->
  eng_building dt p = Ok b -> sizable p b t inlet on_t -> daily_shape b -> ep_run p <= 24 -> storage_needed b (ep_run p) ->
  exists e' fig xs ys start x y V C, eng_plot dt p e slope = (e', Ok (fig, (xs, ys, start))) /\
    sized_storage e = Some V /\ sized_capacity e = Some C /\ point_at xs ys start x y /\ x == V /\ y == C /\
    (pooled t -> more_storage_less_capacity xs ys).
Proof.
  intros dt p b t inlet on_t e slope H T PT V EB SB DS R24 SN.
  pose proof SB as [NS L D0 BI ON R0 F0 [[I1 I2] O1] [A0 [SS A1]] LP TM SW]. pose proof (mains_inlet _ _ BI) as HI.
  destruct (sized_new _ _ _ _ H V EB L) as [ES E]. pose proof (daily_not_annual b L) as A.
  assert (RE : restorable dt e) by (unfold restorable; rewrite E, A; discriminate).
  destruct (sized_common _ _ _ _ _ ES) as (sched & m & fract & EC & EF & X). apply (plain_fract p fract dt NS) in EF. subst fract.
  pose proof (plain_unshifted _ _ _ NS EC) as LS.
  assert (FM : first_map (primary_heaters (en_system e)) = Some m).
  { destruct (new_inv _ _ _ H) as (b0 & sched0 & m0 & _ & EC0 & [(vol & hs & EV & _)|(_ & _ & [(d & EI & _)|(c & v & hs & _ & _ & (h & EH & _ & _ & HM) & AS & _)])]).
    - congruence.
    - rewrite EI in T. cbn in T. subst t. destruct PT as [[Z|[Z|Z]]|Z]; discriminate Z.
    - assert (m0 = m) by congruence. subst m0. subst hs. destruct (en_system e) as [d x|l x|w x|d r f x|x|d]; cbn [primary_heaters assembled type_of] in *.
      + destruct AS as (_ & ->). exact HM.
      + destruct AS as (_ & r & f & _ & _ & -> & _). exact HM.
      + destruct AS as (_ & r & f & tv & tc & _ & _ & ->). exact HM.
      + destruct AS as (_ & _ & _ & ->). exact HM.
      + destruct AS as (_ & r & f & _ & _ & -> & _). exact HM.
      + subst t. destruct PT as [[Z|[Z|Z]]|Z]; discriminate Z. }
  unfold sized_storage, sized_capacity, eng_results. cbn [fst snd].
  assert (HB : forall s', dh_supply s' = ep_supply p -> dh_defrost s' = ep_defrost p -> pooled_class base_klass s' b (daily_heat b (ep_supply p) inlet)).
  { intros s' Q1 Q2. rewrite <- Q1. apply base_pooled; rewrite ?Q1, ?Q2; assumption. }
  pose proof (heat_pos b _ _ D0 I1) as HP. pose proof (plain_plot dt p e slope sched m) as PP.
  destruct (en_system e) as [d x|l x|w x|d r f x|x|d] eqn:EY; cbn [type_of primary_heaters sys_dhw] in *; subst t.
  - destruct X as (w & X). destruct (pooled_plot base_klass dt p b PrimaryNoRecirc inlet on_t sched m d w slope _ X EC SB DS R24 SN HP HB) as (cv & c & v & C & W & CV & MC & MS & Q1 & Q2 & PA & MO).
    destruct (PP (mkEngine b (EPrimary d x)) cv RE EC LS) as (e' & PL). { unfold eng_curve. rewrite EY, E, FM, CV. reflexivity. }
    exists e'. do 8 eexists. split; [exact PL|]. eauto 10.
  - destruct X as (r & f & _ & _ & X). destruct (pl_size_inv _ _ _ _ _ _ _ _ _ X) as (_ & (w & D) & _). cbn [pl_dhw] in D.
    destruct (pooled_plot base_klass dt p b ParallelLoop inlet on_t sched m (pl_dhw l) w slope _ D EC SB DS R24 SN HP HB) as (cv & c & v & C & W & CV & MC & MS & Q1 & Q2 & PA & MO).
    destruct (PP (mkEngine b (EParallel l x)) cv RE EC LS) as (e' & PL). { unfold eng_curve. rewrite EY, E, FM, CV, pl_same. reflexivity. }
    exists e'. do 8 eexists. split; [exact PL|]. eauto 10.
  - destruct (SW eq_refl) as (S1 & S2 & _ & S4). destruct LP as (r & f & ER & EF & LP1 & LP2). { split; discriminate. }
    pose proof (C67_maintenance _ _ _ _ H V EB L (Qlt_le_weak _ _ D0)) as MT. unfold sized_maintenance, eng_results in MT. cbn [snd] in MT. rewrite EY in MT. cbn [type_of] in MT.
    destruct MT as (r1 & f1 & z & cap & ER1 & EF1 & SM & IZ & [_ OK] & _ & QC). assert (r1 = r) by congruence. assert (f1 = f) by congruence. subst r1 f1.
    destruct X as (r1 & f1 & w0 & ER1' & EF1' & EW & X). assert (r1 = r) by congruence. assert (f1 = f) by congruence. subst r1 f1.
    unfold sw_new in EW. destruct (Qle_bool (ep_tm_safety p) 1) eqn:QB; [discriminate|]. qbool. apply ok_inj in EW.
    destruct (swing_size_inv _ _ _ _ _ _ _ _ _ _ X) as (b1 & i & s1 & mo & rv & ff & st & cp & B1 & HI1 & TM1 & RN & SF & SV & SC & cap' & stor' & mix' & EQ & [Z|Z]).
    2:{ exfalso. destruct Z as (sc & dd & g & lc & lr & lm & lst & _ & _ & Z & _). destruct (plain_controls _ _ _ NS EC) as [_ EM]. rewrite EM in Z. unfold ls_active in Z. destruct sched; discriminate Z. }
    destruct Z as (_ & -> & -> & _). rewrite A in B1. apply ok_inj in B1. subst b1. rewrite HI in HI1. apply ok_inj in HI1. subst i.
    destruct (size_tm_inv _ _ _ TM1) as (v & vol & ca & _ & _ & _ & _ & EQ1).
    assert (CR : cap_run (sw_dhw w0) (Some sched) (Some m) = sw_dhw w0). { destruct (plain_controls _ _ _ NS EC) as [_ EM]. apply cap_run_inactive. rewrite EM. unfold ls_active. destruct sched; reflexivity. }
    rewrite CR in EQ1.
    assert (DH : dh_supply (sw_dhw w) = ep_supply p /\ dh_storage (sw_dhw w) = ep_storage p /\ dh_run (sw_dhw w) = ep_run p /\ dh_defrost (sw_dhw w) = ep_defrost p).
    { rewrite EQ, <- EW. repeat split. } destruct DH as (DH1 & DH2 & DH3 & DH4).
    assert (LE : sw_loss w = loop_kbtuh (ep_supply p) r f) by (rewrite EQ, <- EW; reflexivity).
    assert (LN : 0 <= loop_kbtuh (ep_supply p) r f).
    { unfold loop_kbtuh. pose proof rho_pos as RP. apply qdiv_nonneg; [|reflexivity]. apply Qmult_le_0_compat; [|discriminate]. apply Qmult_le_0_compat; [|lra]. apply Qmult_le_0_compat; lra. }
    assert (TV : sw_tm_vol w = Some (qz z)). { destruct (sw_tm_vol w); [|discriminate]. injection SM as -> _. reflexivity. }
    assert (TC : sw_tm_cap w = Some cap). { rewrite TV in SM. injection SM as ->. reflexivity. }
    destruct SN as (x0 & Ix & Hx). pose proof DS as [_ Sh _ _]. destruct (min_run_below b x0 (ep_run p) Sh Ix R0 Hx) as (lo & Hlo & LR).
    assert (SF' : strat_factor (sw_dhw w) (Some m) (slope_or (sw_dhw w) slope) inlet = Ok ff). { rewrite <- SF, EQ, EQ1, <- EW. reflexivity. }
    assert (FP : 0 < ff). { apply (sizable_factor p b SwingTank inlet on_t (sw_dhw s1) sched m ff SB EC); [rewrite EQ1, <- EW; reflexivity|rewrite EQ1, <- EW; reflexivity|exact SF]. }
    destruct (swing_curve_mark (da_lib dt) w b (Some m) slope (1 # 4) inlet ff lo (qz z) cap) as (w' & cv & h & c & rv' & mix & CV & N1 & N2 & HH & RN' & SC' & N3 & N4);
      try (rewrite ?DH1, ?DH2, ?DH3, ?DH4, ?LE; assumption); try assumption.
    { reflexivity. } { lra. } { rewrite DH4. lra. }
    { cbn in IZ. repeat (destruct IZ as [<-|IZ]; [reflexivity|]). destruct IZ. }
    { rewrite LE. assert (K : hourly_loss (ep_supply p) r f == loop_kbtuh (ep_supply p) r f * 1000) by (unfold hourly_loss, loop_kbtuh; field).
      rewrite K in QC. assert (loop_kbtuh (ep_supply p) r f * 1000 <= cap * 1000).
      { rewrite QC. rewrite <- (Qmult_1_l (loop_kbtuh (ep_supply p) r f * 1000)) at 1. apply Qmult_le_compat_r; lra. } lra. }
    { intros y Iy. specialize (OK y Iy). specialize (S4 y z Iy IZ). assert (60 * qz z == qz z * 60) by ring. rewrite H0. apply Qle_lteq in OK. destruct OK as [OK|OK]; [exact OK|contradiction]. }
    cbv zeta in *. assert (ST : 0 < 1 # 4) by reflexivity. destruct (C41_swing_well_formed _ _ _ _ _ _ _ _ _ ST CV) as (L1 & L2 & _).
    rewrite DH3 in HH.
    destruct (swing_running_eq _ _ _ _ _ _ HH RN') as (V' & RN2 & EV). destruct (swing_capacity_eq _ _ _ _ _ _ HH SC') as (C' & SC2 & EC2).
    assert (Y : Ok (Some mix, V') = Ok (mo, rv)). { rewrite <- RN2, <- RN, EQ, EQ1, <- EW. reflexivity. }
    apply ok_inj in Y. apply pair_equal_spec in Y. destruct Y as [<- <-].
    assert (Y : Ok C' = Ok cp). { rewrite <- SC2, <- SC, EQ, EQ1, <- EW. reflexivity. }
    apply ok_inj in Y. subst cp.
    destruct (PP (mkEngine b (ESwing w' x)) cv RE EC LS) as (e' & PL). { unfold eng_curve. rewrite EY, E, FM, CV. reflexivity. }
    unfold storage_volume in SV. apply qdiv_inv in SV. destruct SV as [_ ->].
    exists e'. do 8 eexists. split; [exact PL|]. rewrite EQ. cbn [sw_dhw dh_min_cap dh_min_stor]. split; [reflexivity|]. split; [reflexivity|]. split; [apply mark_reversed; eassumption|].
    split; [rewrite EV; reflexivity|]. split; [exact EC2|]. intros [Z|[Z|Z]]; discriminate Z.
  - destruct LP as (r1 & f1 & ER & EF & LP1 & LP2). { split; discriminate. }
    destruct X as (w & ER' & EF' & X). assert (r1 = r) by congruence. assert (f1 = f) by congruence. subst r1 f1.
    assert (HB' : forall s', dh_supply s' = ep_supply p -> dh_defrost s' = ep_defrost p -> pooled_class (sprtp_klass r f) s' b (daily_heat b (ep_supply p) inlet + daily_loss (ep_supply p) r f)).
    { intros s' Q1 Q2. rewrite <- Q1. apply sprtp_pooled; rewrite ?Q1, ?Q2; assumption. }
    pose proof (loss_nonneg _ _ _ LP1 LP2) as LN. assert (HP' : 0 < daily_heat b (ep_supply p) inlet + daily_loss (ep_supply p) r f) by lra.
    destruct (pooled_plot (sprtp_klass r f) dt p b SinglePassRTP inlet on_t sched m d w slope _ X EC SB DS R24 SN HP' HB') as (cv & c & v & C & W & CV & MC & MS & Q1 & Q2 & PA & MO).
    destruct (PP (mkEngine b (ESprtp d r f x)) cv RE EC LS) as (e' & PL). { unfold eng_curve. rewrite EY, E, FM, CV. reflexivity. }
    exists e'. do 8 eexists. split; [exact PL|]. eauto 10.
  - destruct PT as [[Z|[Z|Z]]|Z]; discriminate Z.
  - destruct PT as [[Z|[Z|Z]]|Z]; discriminate Z.
Qed.
Print Assumptions C68_marks_size.

(** ** Load shifting *)

(** Methods that read only the temperatures, run hours and defrost factor, and fail or not regardless
    of the share shifted. *)
Record ls_klass (K : klass) : Prop := {
  lk_cap : forall s s' b, dh_supply s = dh_supply s' -> dh_storage s = dh_storage s' -> dh_run s = dh_run s' -> dh_defrost s = dh_defrost s' ->
    k_capacity K s b = k_capacity K s' b /\ (forall c, k_running K s b c = k_running K s' b c) /\
    (forall sc d sl f, k_gen_ls K s sc d b sl f = k_gen_ls K s' sc d b sl f) /\
    (forall sc d sl f, k_capacity_ls K s sc d b sl f = k_capacity_ls K s' sc d b sl f) /\
    (forall sc g f, k_running_ls K s sc b g f = k_running_ls K s' sc b g f);
  lk_gen : forall s sc d b sl f f' g, k_gen_ls K s sc d b sl f = Ok g -> exists g', k_gen_ls K s sc d b sl f' = Ok g';
  lk_lcap : forall s sc d b sl f f' g, k_capacity_ls K s sc d b sl f = Ok g -> exists g', k_capacity_ls K s sc d b sl f' = Ok g';
  lk_run : forall s sc b g g' f f' v, k_running_ls K s sc b g f = Ok v -> exists v', k_running_ls K s sc b g' f' = Ok v' }.

Lemma prelim_any sc b f f' x : prelim_vols sc b f = Ok x -> exists y, prelim_vols sc b f' = Ok y.
Proof.
  unfold prelim_vols. destruct (first_shed_block sc) as [[bl lu]|]; cbn [bind]; [|discriminate].
  destruct (sum_at _ bl); cbn [bind]; [|discriminate]. destruct (py_nth bl 0); cbn [bind]; [|discriminate].
  destruct (sum_at _ _); cbn [bind]; [|discriminate]. eauto.
Qed.
Lemma gen_any s sc d b sl f f' g : base_gen_ls s sc d b sl f = Ok g -> exists g', base_gen_ls s sc d b sl f' = Ok g'.
Proof.
  unfold base_gen_ls. intro H. apply bind_ok in H. destruct H as (ng & -> & H). apply bind_ok in H. destruct H as (fl & -> & H). cbn [bind]. cbv zeta in *.
  destruct (snd fl =? 0)%Z; [eauto|]. apply bind_ok in H. destruct H as (pv & P & H). destruct (prelim_any _ _ _ f' _ P) as (pv' & ->). cbn [bind]. destruct pv as [a c]. destruct pv' as [a' c'].
  apply bind_ok in H. destruct H as (nc & -> & H). cbn [bind]. apply bind_ok in H. destruct H as (sh & -> & H). cbn [bind]. apply bind_ok in H. destruct H as (np & -> & H). cbn [bind].
  apply bind_ok in H. destruct H as (lp & -> & H). cbn [bind]. apply bind_ok in H. destruct H as (sp & -> & H). cbn [bind]. destruct (Qle_bool (lp - sp) 0); eauto.
Qed.
Lemma profile_any sc (g g' : Q) l : forall x, mapM (fun h => do k <- py_nth sc h; Ok (if String.eqb k "shed" then 0 else g)) l = Ok x ->
  exists y, mapM (fun h => do k <- py_nth sc h; Ok (if String.eqb k "shed" then 0 else g')) l = Ok y /\ length y = length x.
Proof.
  induction l as [|h l IH]; intros x H; cbn [mapM] in *; [eexists; split; [reflexivity|]; apply ok_inj in H; subst x; reflexivity|].
  apply bind_ok in H. destruct H as (a & A & H). apply bind_ok in A. destruct A as (k & -> & A). apply bind_ok in H. destruct H as (r & R & H). cbn [bind].
  destruct (IH _ R) as (y & -> & L). cbn [bind]. eexists. split; [reflexivity|]. apply ok_inj in H. subst x. cbn [length]. congruence.
Qed.
Lemma vsub_any : forall a a' b d, length a = length a' -> vsub a b = Ok d -> exists d', vsub a' b = Ok d'.
Proof.
  induction a as [|x a IH]; intros [|x' a'] b d L H; try discriminate L; destruct b as [|y b]; cbn [vsub] in *; try discriminate; [eauto|].
  apply bind_ok in H. destruct H as (l & V & _). injection L as L. destruct (IH _ _ _ L V) as (l' & ->). cbn [bind]. eauto.
Qed.
Lemma running_any sc b g g' f f' v : base_running_ls sc b g f = Ok v -> exists v', base_running_ls sc b g' f' = Ok v'.
Proof.
  unfold base_running_ls. intro H. apply bind_ok in H. destruct H as (fl & -> & H). cbn [bind]. cbv zeta in *. apply bind_ok in H. destruct H as (pv & P & H).
  destruct (prelim_any _ _ _ f' _ P) as (pv' & ->). cbn [bind]. apply bind_ok in H. destruct H as (pr & PR & H). destruct (profile_any _ _ g' _ _ PR) as (pr' & -> & L). cbn [bind].
  apply bind_ok in H. destruct H as (df & D & H). destruct (vsub_any _ pr' _ _ (eq_sym L) D) as (df' & ->). cbn [bind]. apply bind_ok in H. destruct H as (la & -> & _). cbn [bind]. eauto.
Qed.
Lemma cap_of_gen_any s b (g g' : res Q) c : capacity_of_gen s b g = Ok c -> (forall x, g = Ok x -> exists y, g' = Ok y) -> exists c', capacity_of_gen s b g' = Ok c'.
Proof.
  unfold capacity_of_gen. intros H G. apply bind_ok in H. destruct H as (i & -> & H). apply bind_ok in H. destruct H as (x & X & H). destruct (G _ X) as (y & ->). cbn [bind].
  apply bind_ok in H. destruct H as (z & Z & _). apply qdiv_inv in Z. destruct Z as [N _]. rewrite qdiv_ok by exact N. cbn [bind]. eauto.
Qed.

Lemma base_ls : ls_klass base_klass.
Proof.
  split.
  - intros [a b0 c d x y z] [a' b1 c' d' x' y' z'] b. cbn. intros <- <- <- <-. repeat split.
  - intros s sc d b sl f f' g. apply gen_any.
  - intros s sc d b sl f f' g H. cbn in *. unfold base_capacity_ls in *. eapply cap_of_gen_any; [exact H|]. intros x X. exact (gen_any _ _ _ _ _ _ f' _ X).
  - intros s sc b g g' f f' v. apply running_any.
Qed.
Lemma sprtp_ls r q : ls_klass (sprtp_klass r q).
Proof.
  assert (G : forall s sc d b sl f f' g, sprtp_gen_ls r q s sc d b sl f = Ok g -> exists g', sprtp_gen_ls r q s sc d b sl f' = Ok g').
  { intros s sc d b sl f f' g H. unfold sprtp_gen_ls, sprtp_gen_ls_st in *. destruct (recirc_daily_gal r q s b); [|discriminate]. exact (gen_any _ _ _ _ _ _ f' _ H). }
  split.
  - intros [a b0 c d x y z] [a' b1 c' d' x' y' z'] b. cbn. intros <- <- <- <-. repeat split.
  - exact G.
  - intros s sc d b sl f f' g H. cbn in *. unfold sprtp_capacity_ls in *. apply bind_ok in H. destruct H as (c & C & H). apply bind_ok in H. destruct H as (rc & -> & _).
    destruct (cap_of_gen_any _ _ _ (sprtp_gen_ls r q s sc d b sl f') _ C) as (c' & ->). { intros x X. exact (G _ _ _ _ _ _ f' _ X). } cbn [bind]. eauto.
  - intros s sc b g g' f f' v H. cbn in *. unfold sprtp_running_ls, sprtp_running_ls_st in *. destruct (recirc_daily_gal r q s b); [|discriminate]. exact (running_any _ _ _ g' _ f' _ H).
Qed.

Lemma shown_index p k : shown_percent p k -> ls_rec_index (ep_ls_percent p) = (k - 25)%Z.
Proof.
  intro H. assert (LP : length ls_percents = 76%nat) by reflexivity. unfold ls_rec_index. rewrite LP. destruct H as [[R E]|[-> E]].
  - assert (Q1 : 25 <= qz k <= 100). { unfold qz. change 25 with (inject_Z 25). change 100 with (inject_Z 100). rewrite <- !Zle_Qle. exact R. }
    assert (E' : ep_ls_percent p == qz k * (1 # 100)) by (rewrite E; unfold Qdiv; reflexivity).
    assert (EE : qmax (1 # 4) (qmin 1 (ep_ls_percent p)) == ep_ls_percent p).
    { assert (E1 : qmin 1 (ep_ls_percent p) == ep_ls_percent p) by (destruct (qmin_spec 1 (ep_ls_percent p)) as [[X Y]|[X Y]]; rewrite Y; lra).
      destruct (qmax_spec (1 # 4) (qmin 1 (ep_ls_percent p))) as [[X Y]|[X Y]]; rewrite Y; lra. }
    rewrite (py_round_int (k - 25)); [lia|]. rewrite EE, E'. unfold qz, Z.sub. rewrite inject_Z_plus. change (inject_Z (-(25))) with (-(25)). ring.
  - assert (EE : qmax (1 # 4) (qmin 1 (ep_ls_percent p)) == 1).
    { assert (E1 : qmin 1 (ep_ls_percent p) == 1) by (destruct (qmin_spec 1 (ep_ls_percent p)) as [[X Y]|[X Y]]; rewrite Y; lra).
      destruct (qmax_spec (1 # 4) (qmin 1 (ep_ls_percent p))) as [[X Y]|[X Y]]; rewrite Y; lra. }
    rewrite (py_round_int 75); [reflexivity|]. rewrite EE. reflexivity.
Qed.

Lemma shown_range p k : shown_percent p k -> (25 <= k <= 100)%Z.
Proof. intros [[R _]|[-> _]]; lia. Qed.

Lemma shown_fract icdf p k fr : shown_percent p k -> ls_fract icdf (ep_ls_percent p) = Ok fr -> ls_fract icdf (qz k / 100) = Ok fr.
Proof.
  intros [[_ E]|[-> E]] H; [congruence|]. unfold ls_fract in H. apply qleb_true in E. rewrite E in H. exact H.
Qed.

Lemma percents_nth k : (25 <= k <= 100)%Z -> nth_error ls_percents (Z.to_nat (k - 25)) = Some (qz k / 100).
Proof.
  intro R. unfold ls_percents. rewrite nth_error_map. rewrite (nth_error_nth' _ 0%nat) by (rewrite seq_length; lia). rewrite seq_nth by lia. cbn [option_map].
  replace (25 + Z.to_nat (k - 25))%nat with (Z.to_nat k) by lia. rewrite Z2Nat.id by lia. reflexivity.
Qed.

Lemma mapM_all {A B} (f : A -> res B) l : (forall x, In x l -> exists y, f x = Ok y) -> exists ys, mapM f l = Ok ys.
Proof.
  induction l as [|x l IH]; intro H; cbn [mapM]; [eauto|]. destruct (H x (or_introl eq_refl)) as (y & ->). cbn [bind].
  destruct IH as (ys & ->); [intros z Z; apply H; right; exact Z|]. cbn [bind]. eauto.
Qed.

Lemma percents_pos q : In q ls_percents -> 0 < q.
Proof.
  unfold ls_percents. intro I. apply in_map_iff in I. destruct I as (i & <- & I). apply in_seq in I. apply qlt_div_iff; [reflexivity|].
  setoid_replace (0 * 100) with 0 by ring. unfold qz. change 0 with (inject_Z 0). rewrite <- Zlt_Qlt. lia.
Qed.

(** The load-shift curve of a freshly sized pooled system. *)
Lemma shift_mark K lib icdf s b sched d slope0 fract s' w slope p k : ls_klass K -> bd_is_annual b = false ->
  dhw_size K lib s b (Some sched) (Some d) slope0 fract = (s', b, Ok w) -> sched <> [] -> dict_get d "shed" <> None ->
  shown_percent p k -> ls_fract icdf (ep_ls_percent p) = Ok fract ->
  exists cv v C V, ls_sizing_curve K lib icdf s' b sched (Some d) slope (ep_ls_percent p) = (s', b, Ok cv) /\
    cv_rec cv = (k - 25)%Z /\ nth_error (cv_storage cv) (Z.to_nat (k - 25)) = Some v /\ nth_error (cv_capacity cv) (Z.to_nat (k - 25)) = Some C /\
    dh_min_cap s' = Some C /\ dh_min_stor s' = Some V /\ v = V.
Proof.
  intros LK A SZ NE SH SP FR. destruct (size_ok_inv _ _ _ _ _ _ _ _ _ _ _ SZ) as (b1 & cap & stor & E1 & E2 & ED). rewrite A in E1. apply ok_inj in E1. subst b1.
  assert (LA : ls_active (Some sched) (Some d) = true).
  { unfold ls_active, is_load_shifting, dict_has. destruct sched; [congruence|]. destruct (dict_get d "shed"); [reflexivity|congruence]. }
  unfold cap_run in E2. rewrite LA in E2. destruct (size_values_inv _ _ _ _ _ _ _ _ _ E2) as (inl & c0 & rv & f & st & I1 & C1 & R1 & F1 & V1 & [(X & _)|X]); [congruence|].
  destruct X as (sc & d' & lcap & g & lrv & lst & Q1 & Q2 & _ & LC & LG & LR & LV & -> & ->). injection Q1 as <-. injection Q2 as <-.
  set (s1 := dh_set_run s (qmin (dh_run s) (non_shed_hours sched))) in *.
  set (s2 := dh_set_run s' (qmin (dh_run s') (non_shed_hours sched))).
  destruct (lk_cap K LK s2 s1 b) as (K1 & K2 & K3 & K4 & K5); try (unfold s1, s2; rewrite ED; reflexivity).
  assert (SO : slope_or s' slope = slope0) by (rewrite ED; reflexivity).
  assert (SF : strat_factor s2 (Some d) slope0 inl = Ok f) by (rewrite <- F1; unfold s1, s2; rewrite ED; reflexivity).
  assert (SV : forall r, storage_volume_ls s2 r d slope0 inl = storage_volume_ls s1 r d slope0 inl) by (intro r; unfold s1, s2; rewrite ED; reflexivity).
  assert (PT : forall q, In q ls_percents -> exists y, ls_point K icdf s2 b sched d slope0 inl c0 st q = Ok y).
  { intros q Iq. apply percents_pos in Iq. destruct (C42_fraction_defined icdf q) as (_ & FD & _). destruct (FD Iq) as (fr & Fr). unfold ls_point. rewrite Fr. cbn [bind].
    rewrite K4. destruct (lk_lcap K LK _ _ _ _ _ _ fr _ LC) as (lc' & ->). cbn [bind]. rewrite K3. destruct (lk_gen K LK _ _ _ _ _ _ fr _ LG) as (g' & ->). cbn [bind].
    rewrite K5. destruct (lk_run K LK _ _ _ _ g' _ fr _ LR) as (r' & ->). cbn [bind]. rewrite SV. unfold storage_volume_ls in *.
    apply bind_ok in LV. destruct LV as (nc & -> & LV). cbn [bind] in *. apply bind_ok in LV. destruct LV as (sc & -> & LV). cbn [bind] in *. apply bind_ok in LV. destruct LV as (lx & -> & LV). cbn [bind] in *. apply bind_ok in LV. destruct LV as (sx & -> & LV).
    cbn [bind]. unfold storage_volume in *. apply qdiv_inv in LV. destruct LV as [N _]. rewrite qdiv_ok by exact N. cbn [bind]. eauto. }
  destruct (mapM_all _ _ PT) as (pts & M). pose proof (percents_nth k (shown_range _ _ SP)) as NK.
  destruct (mapM_nth _ _ _ _ _ M NK) as (y & NY & PY). assert (YE : y = (qmax c0 lcap, qmax st lst)).
  { unfold ls_point in PY. rewrite (shown_fract _ _ _ _ SP FR) in PY. cbn [bind] in PY. rewrite K4, LC, K3, LG in PY. cbn [bind] in PY. rewrite K5, LR in PY. cbn [bind] in PY. rewrite SV, LV in PY. apply ok_inj in PY. congruence. }
  subst y. exists (mkCurve ls_percents (map fst pts) (map snd pts) (ls_rec_index (ep_ls_percent p))), (qmax st lst), (qmax c0 lcap), (qmax st lst).
  split.
  - unfold ls_sizing_curve. assert (DH : dict_has d "shed" = true) by (unfold dict_has; destruct (dict_get d "shed"); [reflexivity|congruence]). rewrite DH. cbn [negb]. rewrite A. cbv zeta. fold s2.
    unfold ls_curve_body. rewrite I1. cbn [bind]. rewrite K1, C1. cbn [bind]. rewrite K2, R1. cbn [bind]. rewrite SO, SF. cbn [bind]. rewrite V1. cbn [bind]. rewrite M. cbn [bind].
    unfold restore_annual. unfold s2. rewrite dh_set_run_twice, dh_set_run_same. reflexivity.
  - cbn [cv_rec cv_storage cv_capacity]. rewrite !nth_error_map, NY. cbn. split; [apply shown_index; exact SP|]. rewrite ED. auto.
Qed.

(** With load shifting the plot succeeds, and its marked point is the percentage the engine was sized
    for, with the storage it was sized to. *)
Theorem C68_shift : forall dt p b e ls k slope,
  eng_new dt p = Ok e -> pooled (type_of (en_system e)) -> ep_volume p = None -> given_schedule p ls ->
  eng_building dt p = Ok b -> length (bd_peak b) = 24%nat -> shown_percent p k ->
  exists e' fig xs ys start x V, eng_plot dt p e slope = (e', Ok (fig, (xs, ys, start))) /\
    sized_storage e = Some V /\ point_at xs ys start x V /\ x == qz k.
Proof.
  intros dt p b e ls k slope H T V GS EB L SP. destruct (sized_new _ _ _ _ H V EB L) as [ES E]. pose proof (daily_not_annual b L) as A.
  assert (RE : restorable dt e) by (unfold restorable; rewrite E, A; discriminate).
  destruct (sized_common _ _ _ _ _ ES) as (sched & m & fract & EC & EF & X).
  assert (FR : ls_fract (da_icdf dt) (ep_ls_percent p) = Ok fract) by (destruct GS as [G1 G2]; rewrite G1 in EF; destruct ls; [congruence|exact EF]). clear EF.
  assert (SHM : is_load_shifting (Some m) = true) by (apply (shifting_iff _ _ _ EC); eauto).
  assert (NS : sched <> [] /\ dict_get m "shed" <> None).
  { destruct (controls_inv _ _ _ EC) as [([Z|Z] & _)|(ls' & GS' & M & nc & shc & lu & -> & _)]; [destruct GS; congruence|destruct GS; congruence|].
    split; [intro Z; rewrite Z in M; apply mapM_length in M; discriminate|]. cbn. discriminate. }
  destruct NS as [NE SH]. unfold sized_storage, eng_results. cbn [fst snd].
  assert (FIN : forall e1 cv v W, cv_rec cv = (k - 25)%Z -> nth_error (cv_storage cv) (Z.to_nat (k - 25)) = Some v -> v = W ->
    eng_ls_curve dt e sched m slope (ep_ls_percent p) = (e1, Ok cv) ->
    exists e' fig xs ys start x, eng_plot dt p e slope = (e', Ok (fig, (xs, ys, start))) /\ point_at xs ys start x W /\ x == qz k).
  { intros e1 cv v W R N <- CV. destruct (ls_curve_shape _ _ _ _ _ _ _ _ CV) as (H1 & _). pose proof (shown_range _ _ SP) as RG.
    destruct (plot_total dt p e slope sched m e1 (ls_points cv) RE EC) as (e' & PL). { unfold eng_points. rewrite SHM, CV. reflexivity. }
    unfold ls_points in PL. exists e'. do 5 eexists. split; [exact PL|]. unfold point_at. rewrite R, N, H1. rewrite nth_error_map, percents_nth by exact RG. cbn [option_map].
    split; [split; [lia|split; reflexivity]|]. field. }
  destruct (en_system e) as [d x|l x|w x|d r f x|x|d] eqn:EY; cbn [type_of sys_dhw] in *; try (destruct T as [Z|[Z|Z]]; discriminate Z).
  - destruct X as (w & X). destruct (shift_mark base_klass (da_lib dt) (da_icdf dt) _ b sched m _ fract d w slope p k base_ls A X NE SH SP FR) as (cv & v & C & W & CV & R & N & _ & _ & MS & EV).
    destruct (FIN (mkEngine b (EPrimary d x)) cv v W R N EV) as (e' & fig & xs & ys & start & x' & G). { unfold eng_ls_curve. rewrite EY, E, CV. reflexivity. }
    exists e', fig, xs, ys, start, x', W. tauto.
  - destruct X as (r & f & _ & _ & X). destruct (pl_size_inv _ _ _ _ _ _ _ _ _ X) as (_ & (w & D) & _). cbn [pl_dhw] in D.
    destruct (shift_mark base_klass (da_lib dt) (da_icdf dt) _ b sched m _ fract (pl_dhw l) w slope p k base_ls A D NE SH SP FR) as (cv & v & C & W & CV & R & N & _ & _ & MS & EV).
    destruct (FIN (mkEngine b (EParallel (pl_set_dhw l (pl_dhw l)) x)) cv v W R N EV) as (e' & fig & xs & ys & start & x' & G). { unfold eng_ls_curve. rewrite EY, E, CV. reflexivity. }
    exists e', fig, xs, ys, start, x', W. tauto.
  - destruct X as (w & _ & _ & X). destruct (shift_mark (sprtp_klass r f) (da_lib dt) (da_icdf dt) _ b sched m _ fract d w slope p k (sprtp_ls r f) A X NE SH SP FR) as (cv & v & C & W & CV & R & N & _ & _ & MS & EV).
    destruct (FIN (mkEngine b (ESprtp d r f x)) cv v W R N EV) as (e' & fig & xs & ys & start & x' & G). { unfold eng_ls_curve. rewrite EY, E, CV. reflexivity. }
    exists e', fig, xs, ys, start, x', W. tauto.
Qed.
Print Assumptions C68_shift.

(** ** Multi-pass systems *)

(** When the plot of a multi-pass system with sizing results succeeds, its marked point is the system they
    describe. *)
Theorem C68_multi_pass : forall dt p e x b slope e' fig xs ys start V C,
  without_schedule p -> en_system e = EMprtp x -> en_building e = b -> length (bd_peak b) = 24%nat -> (forall x, In x (bd_peak b) -> 0 <= x) ->
  0 < dh_run (mb_dhw x) -> storage_needed b (dh_run (mb_dhw x)) ->
  sized_storage e = Some V -> sized_capacity e = Some C -> ~ V == 0 ->
  eng_plot dt p e slope = (e', Ok (fig, (xs, ys, start))) -> point_at xs ys start V C.
Proof.
  intros dt p e x b slope e' fig xs ys start V C NS EY E L Sh R0 (x0 & Ix & Hx) SV SC V0 PL. pose proof (daily_not_annual b L) as A.
  assert (RE : restorable dt e) by (unfold restorable; rewrite E, A; discriminate).
  destruct (plot_inv _ _ _ _ _ _ _ RE PL) as (sched & m & e1 & EC & EP & _).
  unfold sized_storage, sized_capacity, eng_results in SV, SC. cbn [fst snd] in SV, SC. rewrite EY in SV, SC. cbn [sys_dhw] in SV, SC.
  pose proof (plain_unshifted _ _ _ NS EC) as LS.
  unfold eng_points in EP. rewrite LS in EP. destruct (eng_curve dt e slope) as [e2 o] eqn:CV. apply pair_equal_spec in EP. destruct EP as [_ EP]. apply bind_ok in EP. destruct EP as (cv & -> & EP).
  apply ok_inj in EP. destruct (curve_lengths _ _ _ _ _ CV) as (L1 & L2 & L3). unfold eng_curve in CV. rewrite EY, E in CV. destruct (mp_sizing_curve _ _ _ _ _) as [b3 o3] eqn:CM.
  apply pair_equal_spec in CV. destruct CV as [_ ->]. assert (ST : 0 < 1 # 2) by reflexivity.
  destruct (mp_curve_mark _ _ _ _ _ _ _ ST CM) as (_ & _ & _ & R1 & FST & NE).
  destruct (min_run_below b x0 _ Sh Ix R0 Hx) as (lo & Hlo & LR). rewrite A in NE. specialize (NE lo b V eq_refl Hlo LR SV V0).
  destruct FST as [Z|(c & v & cs & vs & MC & MS & _ & CC & CS)]; [contradiction|]. assert (c = C) by congruence. assert (v = V) by congruence. subst c v.
  pose proof (mark_reversed cv C V L1 L2) as MR. rewrite EP in MR. cbn [fst snd] in MR. apply MR; rewrite R1; [lia| | |].
  - destruct (cv_hours cv); [contradiction|cbn [length]; lia].
  - rewrite CC. reflexivity.
  - rewrite CS. reflexivity.
Qed.
Print Assumptions C68_multi_pass.

(** An engine that sizes a multi-pass system takes it to run 14 hours a day. *)
Theorem C68_multi_pass_sized : forall dt p b e slope e' fig xs ys start V C,
  eng_new dt p = Ok e -> type_of (en_system e) = MultiPassRTP -> ep_volume p = None ->
  eng_building dt p = Ok b -> length (bd_peak b) = 24%nat -> (forall x, In x (bd_peak b) -> 0 <= x) -> storage_needed b 14 ->
  sized_storage e = Some V -> sized_capacity e = Some C -> ~ V == 0 ->
  eng_plot dt p e slope = (e', Ok (fig, (xs, ys, start))) -> point_at xs ys start V C.
Proof.
  intros dt p b e slope e' fig xs ys start V C H T NV EB L Sh SN SV SC V0 PL. destruct (sized_new _ _ _ _ H NV EB L) as [ES E].
  destruct (sized_common _ _ _ _ _ ES) as (sched & m & fract & EC & _ & X).
  destruct (en_system e) as [d x|l x|w x|d r f x|x|d] eqn:EY; cbn [type_of sys_dhw] in *; try discriminate T.
  destruct X as (r & f & _ & _ & X). unfold mp_from_size in X. destruct (negb (sensors_ok (Some m) 1)); [discriminate|].
  destruct (mp_size _ _ _ _ _ _ _) as [[s b1] o] eqn:SZ. apply pair_equal_spec in X. destruct X as [_ X]. apply bind_ok in X. destruct X as ([] & -> & X).
  destruct (mp_size_inv _ _ _ _ _ _ _ _ _ SZ) as (b2 & dm & l & hot & cap & rv & il & ff & stor & EM & NSH & _). injection EM as <-.
  assert (NS : without_schedule p).
  { intros ls GS. assert (LS : is_load_shifting (Some m) = true) by (apply (shifting_iff _ _ _ EC); eauto). unfold is_load_shifting, dict_has in LS. rewrite NSH in LS. discriminate. }
  assert (RN : dh_run (mb_dhw x) = 14).
  { apply bind_ok in X. destruct X as (cold & _ & X). destruct (dh_min_cap s) as [c|]; [|discriminate]. destruct (dh_min_stor s) as [v|]; [|discriminate]. cbv zeta in X.
    apply bind_ok in X. destruct X as (di & _ & X). apply bind_ok in X. destruct X as (cc & _ & X). apply bind_ok in X. destruct X as (rr & _ & X). apply ok_inj in X. rewrite <- X. reflexivity. }
  apply (C68_multi_pass dt p e x b slope e' fig xs ys start V C NS EY E L Sh); try assumption; rewrite RN; [reflexivity|exact SN].
Qed.
Print Assumptions C68_multi_pass_sized.

(** ** When the mark is not the sized system *)

Lemma pooled_engine dt p b t inlet on_t e : eng_new dt p = Ok e -> type_of (en_system e) = t -> pooled t -> ep_volume p = None ->
  eng_building dt p = Ok b -> sizable p b t inlet on_t ->
  exists K w sched m heat, eng_controls p = Ok (sched, m) /\ en_building e = b /\
    dhw_size K (da_lib dt) (fresh p (ep_run p)) b (Some sched) (Some m) (steepness t) 1 = (sys_dhw (en_system e), b, Ok w) /\ 0 < heat /\
    (forall s', dh_supply s' = ep_supply p -> dh_defrost s' = ep_defrost p -> pooled_class K s' b heat) /\
    forall slope, exists d' b' o, sizing_curve K (da_lib dt) (sys_dhw (en_system e)) b (first_map (primary_heaters (en_system e))) slope (1 # 4) = (d', b', o) /\ snd (eng_curve dt e slope) = o.
Proof.
  intros H T PT V EB SB. pose proof SB as [NS L D0 BI ON R0 F0 [[I1 I2] O1] [A0 [SS A1]] LP TM SW]. pose proof (mains_inlet _ _ BI) as HI.
  destruct (sized_new _ _ _ _ H V EB L) as [ES E]. destruct (sized_common _ _ _ _ _ ES) as (sched & m & fract & EC & EF & X). apply (plain_fract p fract dt NS) in EF. subst fract.
  assert (HB : forall s', dh_supply s' = ep_supply p -> dh_defrost s' = ep_defrost p -> pooled_class base_klass s' b (daily_heat b (ep_supply p) inlet)).
  { intros s' Q1 Q2. rewrite <- Q1. apply base_pooled; rewrite ?Q1, ?Q2; assumption. }
  pose proof (heat_pos b _ _ D0 I1) as HP.
  destruct (en_system e) as [d x|l x|w x|d r f x|x|d] eqn:EY; cbn [type_of primary_heaters sys_dhw] in *; subst t; try (destruct PT as [Z|[Z|Z]]; discriminate Z).
  - destruct X as (w & X). exists base_klass, w, sched, m, (daily_heat b (ep_supply p) inlet). repeat (split; [assumption|]). intro slope. unfold eng_curve. rewrite EY, E.
    destruct (sizing_curve _ _ _ _ _ _ _) as [[d' b'] o]. do 3 eexists. split; reflexivity.
  - destruct X as (r & f & _ & _ & X). destruct (pl_size_inv _ _ _ _ _ _ _ _ _ X) as (_ & (w & D) & _). cbn [pl_dhw] in D.
    exists base_klass, w, sched, m, (daily_heat b (ep_supply p) inlet). repeat (split; [assumption|]). intro slope. unfold eng_curve. rewrite EY, E.
    destruct (sizing_curve _ _ _ _ _ _ _) as [[d' b'] o]. do 3 eexists. split; reflexivity.
  - destruct LP as (r1 & f1 & ER & EF & LP1 & LP2). { split; discriminate. }
    destruct X as (w & ER' & EF' & X). assert (r1 = r) by congruence. assert (f1 = f) by congruence. subst r1 f1.
    exists (sprtp_klass r f), w, sched, m, (daily_heat b (ep_supply p) inlet + daily_loss (ep_supply p) r f). repeat (split; [assumption|]).
    split; [pose proof (loss_nonneg _ _ _ LP1 LP2); lra|]. split; [intros s' Q1 Q2; rewrite <- Q1; apply sprtp_pooled; rewrite ?Q1, ?Q2; assumption|].
    intro slope. unfold eng_curve. rewrite EY, E. destruct (sizing_curve _ _ _ _ _ _ _) as [[d' b'] o]. do 3 eexists. split; reflexivity.
Qed.

(** If the run hours do not exceed the curve's shortest day by more than its margin, the system the engine
    was sized to is not on the curve: every plotted point, the marked one too, has less capacity. *)
Theorem C68_off_the_curve : forall dt p b t inlet on_t e slope e' fig xs ys start,
  eng_new dt p = Ok e -> type_of (en_system e) = t -> pooled t -> ep_volume p = None ->
  eng_building dt p = Ok b -> sizable p b t inlet on_t -> daily_shape b -> ep_run p <= 24 -> ~ storage_needed b (ep_run p) ->
  eng_plot dt p e slope = (e', Ok (fig, (xs, ys, start))) ->
  exists C, sized_capacity e = Some C /\ forall y, In y ys -> y < C.
Proof.
  intros dt p b t inlet on_t e slope e' fig xs ys start H T PT V EB SB DS R24 SN PL. pose proof DS as [_ Sh _ _].
  pose proof SB as [NS L D0 BI ON R0 F0 [[I1 I2] O1] [A0 [SS A1]] LP TM SW]. pose proof (mains_inlet _ _ BI) as HI. pose proof (daily_not_annual b L) as A.
  destruct (pooled_engine _ _ _ _ _ _ _ H T PT V EB SB) as (K & w & sched & m & heat & EC & E & SZ & HP & PC & CV).
  assert (RE : restorable dt e) by (unfold restorable; rewrite E, A; discriminate).
  destruct (plot_inv _ _ _ _ _ _ _ RE PL) as (sched' & m' & e1 & EC' & EP & _). rewrite EC in EC'. apply ok_inj in EC'. apply pair_equal_spec in EC'. destruct EC' as [<- <-].
  unfold eng_points in EP. rewrite (plain_unshifted _ _ _ NS EC) in EP. destruct (CV slope) as (d' & b' & o & CV1 & CV2). destruct (eng_curve dt e slope) as [e2 o2]. cbn [snd] in CV2. subst o2.
  apply pair_equal_spec in EP. destruct EP as [_ EP]. apply bind_ok in EP. destruct EP as (cv & -> & EP). apply ok_inj in EP. unfold plain_points in EP. injection EP as _ <- _.
  assert (A' : (if bd_is_annual b then bd_set_daily (da_lib dt) b else Ok b) = Ok b) by (rewrite A; reflexivity).
  pose proof (plain_no_shift _ _ _ NS EC) as NL. destruct (normal_size_inv _ _ _ _ _ _ _ _ _ _ _ _ _ NL A' HI SZ) as (cap & rv & f & stor & MC & MS & KC & KR & SF & SV).
  destruct (size_ok_inv _ _ _ _ _ _ _ _ _ _ _ SZ) as (bz & c0 & v0 & _ & _ & ED). set (d := sys_dhw (en_system e)) in *.
  assert (SD : dh_supply d = ep_supply p /\ dh_defrost d = ep_defrost p /\ dh_run d = ep_run p) by (rewrite ED; auto). destruct SD as (SD1 & SD2 & SD3).
  exists cap. split; [unfold sized_capacity, eng_results; cbn [fst snd]; exact MC|].
  destruct (PC (fresh p (ep_run p)) eq_refl eq_refl) as [P1 _]. specialize (P1 _ R0). change (dh_set_run (fresh p (ep_run p)) (ep_run p)) with (fresh p (ep_run p)) in P1.
  destruct P1 as (c1 & C1 & H1). rewrite KC in C1. apply ok_inj in C1. subst c1. change (dh_defrost (fresh p (ep_run p))) with (ep_defrost p) in H1.
  destruct (curve_inv _ _ _ _ _ _ _ _ _ _ CV1) as (bb & inl & f' & lo & a1 & a2 & s2 & pts & Hb' & Hi' & Hf' & Hlo & B1 & B2 & LO & EV).
  rewrite A in Hb'. apply ok_inj in Hb'. subst bb. subst cv. cbn [cv_capacity].
  assert (ST : 0 < 1 # 4) by reflexivity. destruct (arange_desc _ _ _ _ ST B1) as (_ & IN1 & _). destruct (arange_desc _ _ _ _ ST B2) as (_ & _ & _ & EMP).
  destruct (min_run_spec _ _ Sh Hlo) as (x & Ix & Hx). assert (LR : dh_run d <= lo).
  { rewrite SD3. destruct (Qlt_le_dec lo (ep_run p)) as [G|G]; [|exact G]. exfalso. apply SN. exists x. split; [exact Ix|].
    assert (X0 : 0 < x). { destruct (Qlt_le_dec 0 x) as [P|P]; [exact P|]. exfalso. assert (x == 0) by (specialize (Sh x Ix); lra). rewrite H0 in Hx. lra. }
    rewrite <- Hx. apply Qmult_lt_compat_r; assumption. }
  specialize (EMP LR). subst a2. rewrite app_nil_r in LO. destruct (curve_loop_points _ _ _ _ _ _ _ LO) as (Q1 & Q2 & Q3).
  intros y Iy. apply in_rev in Iy. apply in_map_iff in Iy. destruct Iy as ([[h c] v] & <- & Iy). cbn [fst snd].
  assert (HR : ep_run p < h). { rewrite <- SD3. apply IN1. assert (Y : In h (map (fun p => fst (fst p)) pts)) by (apply in_map_iff; exists (h, c, v); auto).
    rewrite Q1 in Y. rewrite <- (firstn_skipn (length pts) a1). apply in_or_app. left. exact Y. }
  assert (PD : pooled_class K d b heat) by (apply PC; assumption). assert (h0 : 0 < h) by lra.
  destruct (pooled_points _ _ _ _ _ _ _ _ PD h0 (Q3 _ _ _ Iy)) as (Hc & _). rewrite SD2 in Hc.
  destruct (Qlt_le_dec c cap) as [G|G]; [exact G|]. exfalso.
  assert (Y1 : 0 < cap).
  { destruct (Qlt_le_dec 0 cap) as [P|P]; [exact P|]. exfalso. assert (cap * (1000 * ep_defrost p * ep_run p) <= 0 * (1000 * ep_defrost p * ep_run p)).
    { apply Qmult_le_compat_r; [exact P|]. apply Qmult_le_0_compat; [apply Qmult_le_0_compat; lra|lra]. }
    assert (cap * (1000 * ep_defrost p * ep_run p) == heat) by (rewrite <- H1; ring). lra. }
  assert (Y2 : cap * (1000 * ep_defrost p * h) <= c * (1000 * ep_defrost p * h)).
  { apply Qmult_le_compat_r; [exact G|]. apply Qmult_le_0_compat; [apply Qmult_le_0_compat; lra|lra]. }
  assert (Y3 : cap * 1000 * ep_defrost p * ep_run p < cap * 1000 * ep_defrost p * h).
  { rewrite !(Qmult_comm (cap * 1000 * ep_defrost p)). apply Qmult_lt_compat_r; [|exact HR]. apply Qmult_lt_0_compat; [apply Qmult_lt_0_compat; [exact Y1|reflexivity]|exact F0]. }
  lra.
Qed.
Print Assumptions C68_off_the_curve.

(** get_sizing_curve_plot marks the point it is told, and needs it to exist. *)
Theorem C68_replot : forall xs ys start x y, length xs = length ys ->
  (point_at xs ys start x y -> curve_plot xs ys start = Ok (xs, ys, (x, y))) /\
  ((Z.of_nat (length xs) <= start)%Z -> curve_plot xs ys start = Err IndexError) /\ (xs = [] -> curve_plot xs ys start = Err IndexError).
Proof.
  intros xs ys start x y L. unfold curve_plot, py_nth. split; [|split].
  - intros (P0 & P1 & P2). assert (N : (Z.to_nat start < length xs)%nat) by (apply nth_error_Some; rewrite P1; discriminate). rewrite <- L.
    assert (B : (start <? 0)%Z = false) by (apply Z.ltb_ge; lia). assert (B2 : (Z.of_nat (length xs) <=? start)%Z = false) by (apply Z.leb_gt; lia).
    cbv zeta. rewrite B, B, B2, P1, P2. reflexivity.
  - intro G. assert (B : (start <? 0)%Z = false) by (apply Z.ltb_ge; lia). assert (B2 : (Z.of_nat (length xs) <=? start)%Z = true) by (apply Z.leb_le; lia).
    cbv zeta. rewrite B, B, B2. reflexivity.
  - intros ->. cbn [length]. cbv zeta. assert (B : (((if start <? 0 then start + Z.of_nat 0 else start) <? 0) || (Z.of_nat 0 <=? (if start <? 0 then start + Z.of_nat 0 else start)))%Z%bool = true).
    { destruct (start <? 0)%Z eqn:Q; [apply Z.ltb_lt in Q; change (Z.of_nat 0) with 0%Z; rewrite Z.add_0_r; apply orb_true_iff; left; apply Z.ltb_lt; exact Q|].
      apply Z.ltb_ge in Q. apply orb_true_iff. right. apply Z.leb_le. exact Q. }
    rewrite B. reflexivity.
Qed.
Print Assumptions C68_replot.

(** ** Cases *)

Lemma ex_daily_shape b : bd_peak b = ex_shape -> bd_daily b = 1000 -> daily_shape b.
Proof.
  intros P D. split; rewrite ?P, ?D; try reflexivity; [|discriminate]. intros x I. cbn in I. repeat (destruct I as [<-|I]; [discriminate|]). destruct I.
Qed.

(** Every single-pass system of the documentation that stores water, sized for 1000 gallons a day. *)
Example C68_marks_case : forall name t slope, In (name, t) documented -> pooled t \/ t = SwingTank ->
  exists e e' fig xs ys start x y V C, eng_new ex_data (ex_plain name) = Ok e /\
    eng_plot ex_data (ex_plain name) e slope = (e', Ok (fig, (xs, ys, start))) /\ draws fig xs ys start /\
    sized_storage e = Some V /\ sized_capacity e = Some C /\ point_at xs ys start x y /\ x == V /\ y == C.
Proof.
  intros name t slope D PT. assert (NM : t <> MultiPassRTP) by (destruct PT as [[->|[->| ->]]| ->]; discriminate).
  destruct (ex_plain_sizable name t D NM) as (b & EB & P & DD & BI & SZ). destruct (C67_sizes_case name t D NM) as (e & N & T & M).
  assert (DS : daily_shape b) by (apply ex_daily_shape; assumption).
  assert (SN : storage_needed b 16). { exists (1 # 8). split; [rewrite P; cbn; tauto|reflexivity]. }
  destruct (C68_marks_size ex_data (ex_plain name) b t 50 120 e slope N T PT eq_refl EB SZ DS ltac:(discriminate) SN) as (e' & fig & xs & ys & start & x & y & V & C & PL & SV & SC & PA & E1 & E2 & _).
  assert (RE : restorable ex_data e). { unfold restorable. rewrite (C67_building _ _ _ _ N EB) by (rewrite P; reflexivity). rewrite (daily_not_annual b) by (rewrite P; reflexivity). discriminate. }
  destruct (C68_figure _ _ _ _ _ _ _ _ _ RE PL) as (DR & _).
  exists e, e', fig, xs, ys, start, x, y, V, C. auto 12.
Qed.

(** The load-shifting engine of C67, sized for every day: the mark is at 100 percent. *)
Example C68_shift_case : forall slope, exists e e' fig xs ys start x V, eng_new ex_data ex_shift = Ok e /\
  eng_plot ex_data ex_shift e slope = (e', Ok (fig, (xs, ys, start))) /\ length xs = 76%nat /\
  sized_storage e = Some V /\ point_at xs ys start x V /\ x == 100.
Proof.
  intro slope. destruct C67_shed_case as (e & N & T & GS & _). assert (T' : pooled (type_of (en_system e))) by (rewrite T; left; reflexivity).
  assert (EB : exists b, eng_building ex_data ex_shift = Ok b /\ bd_peak b = ex_shape) by (eexists; split; reflexivity). destruct EB as (b & EB & P).
  assert (L : length (bd_peak b) = 24%nat) by (rewrite P; reflexivity).
  assert (SP : shown_percent ex_shift 100) by (right; split; [reflexivity|discriminate]).
  destruct (C68_shift _ _ _ _ _ _ slope N T' eq_refl GS EB L SP) as (e' & fig & xs & ys & start & x & V & PL & SV & PA & EX).
  assert (RE : restorable ex_data e). { unfold restorable. rewrite (C67_building _ _ _ _ N EB L), (daily_not_annual b L). discriminate. }
  destruct (C68_figure _ _ _ _ _ _ _ _ _ RE PL) as (_ & _ & SH). destruct (SH (ex_intro _ _ GS)) as [LX _].
  exists e, e', fig, xs, ys, start, x, V. auto 12.
Qed.

(** Run hours within the margin: the day needs storage, but the sized system is not on the curve. *)
Definition ex_edge : eparams :=
  mkParams (One None) (One (Some 1000))
    (CzDict [("design_oat_f"%string, Some 30); ("design_inlet_water_temp_f"%string, Some 50)])
    120 150 "primary_no_recirc" None (Some (One ex_shape)) None 2 None (8004 # 1000) 1 (1 # 2) (1 # 10) None None
    None 0 None None None None None 1 (Some 110) (Some 3) None None 1 (175 # 100)
    None None (Some 80) (Some 20) None 1.
Lemma ex_edge_sizable : exists b, eng_building ex_data ex_edge = Ok b /\ bd_peak b = ex_shape /\ bd_daily b = 1000 /\ sizable ex_edge b PrimaryNoRecirc 50 120.
Proof.
  exists (mkBuilding (Some (cz_from_design (Some 30) (Some 50))) 1000 ex_shape ex_shape "custom").
  split; [reflexivity|]. split; [reflexivity|]. split; [reflexivity|]. split; try reflexivity; try discriminate.
  - intros ls [X _]. discriminate X.
  - repeat split; (discriminate || reflexivity).
  - repeat split; (discriminate || reflexivity).
  - intros [X _]. congruence.
Qed.
Theorem C68_marks_size_refuted : exists dt p b e, eng_new dt p = Ok e /\ type_of (en_system e) = PrimaryNoRecirc /\
  eng_building dt p = Ok b /\ sizable p b PrimaryNoRecirc 50 120 /\ daily_shape b /\ (exists x, In x (bd_peak b) /\ 1 < ep_run p * x) /\
  (exists V, sized_storage e = Some V /\ 0 < V) /\
  forall slope e' fig xs ys start, eng_plot dt p e slope = (e', Ok (fig, (xs, ys, start))) ->
    exists C, sized_capacity e = Some C /\ forall y, In y ys -> y < C.
Proof.
  destruct ex_edge_sizable as (b & EB & P & D & SZ). assert (DC : In (ep_schematic ex_edge, PrimaryNoRecirc) documented) by (cbn; tauto).
  destruct (C67_sizes ex_data ex_edge b PrimaryNoRecirc 50 120 DC ltac:(discriminate) eq_refl EB SZ) as (e & N & T).
  pose proof (ex_daily_shape b P D) as DS. exists ex_data, ex_edge, b, e. split; [exact N|]. split; [exact T|]. split; [exact EB|]. split; [exact SZ|]. split; [exact DS|].
  split; [exists (1 # 8); split; [rewrite P; cbn; tauto|reflexivity]|]. split.
  - vm_compute in N. apply ok_inj in N. subst e. eexists. split; [reflexivity|]. reflexivity.
  - intros slope e' fig xs ys start PL. refine (C68_off_the_curve ex_data ex_edge b PrimaryNoRecirc 50 120 e slope e' fig xs ys start N T _ eq_refl EB SZ DS _ _ PL).
    + left. reflexivity.
    + discriminate.
    + intros (x & I & G). rewrite P in I. cbn in I. repeat (destruct I as [<-|I]; [vm_compute in G; discriminate G|]). destruct I.
Qed.
Print Assumptions C68_marks_size_refuted.

(** A multi-pass system of 600 gallons and 90 kBTU/h whose curve has one point. *)
Definition ex_flat : list Q := repeat (1 # 12) 12 ++ repeat 0 12.
Definition ex_multi : engine :=
  mkEngine (mkBuilding (Some (cz_from_design (Some 30) (Some 50))) 1000 ex_flat ex_flat "custom")
    (EMprtp (mkBuilt (mkDhw 120 150 (121 # 10) 1 (Some 90) (Some 600) (Some (8 # 10)))
       (mkMsys [wh_new (Some (PmNominal 90)) (Some (repeat "normal"%string 24)) (Some [("normal"%string, mkControls (1 # 2) 120 (1 # 10) 150 150)])]
               (sl_new 600 50 150 120 1 (8 # 10)) 120 150 110 3))).
Example C68_multi_pass_case : exists e' fig xs ys start, eng_plot ex_data (ex_plain "mprtp") ex_multi (8 # 10) = (e', Ok (fig, (xs, ys, start))) /\
  storage_needed (en_building ex_multi) (121 # 10) /\ sized_storage ex_multi = Some 600 /\ sized_capacity ex_multi = Some 90 /\ point_at xs ys start 600 90.
Proof.
  destruct (eng_plot ex_data (ex_plain "mprtp") ex_multi (8 # 10)) as [e' o] eqn:PL. assert (O : match o with Ok _ => true | Err _ => false end = true).
  { change o with (snd (e', o)). rewrite <- PL. vm_compute. reflexivity. }
  destruct o as [[fig [[xs ys] start]]|]; [|discriminate O]. exists e', fig, xs, ys, start. split; [reflexivity|].
  assert (SN : storage_needed (en_building ex_multi) (121 # 10)) by (exists (1 # 12); split; [cbn; tauto|reflexivity]).
  split; [exact SN|]. split; [reflexivity|]. split; [reflexivity|].
  refine (C68_multi_pass ex_data (ex_plain "mprtp") ex_multi _ _ (8 # 10) e' fig xs ys start 600 90 _ eq_refl eq_refl eq_refl _ _ SN eq_refl eq_refl _ PL).
  - intros ls [X _]. discriminate X.
  - intros y Y. cbn in Y. repeat (destruct Y as [<-|Y]; [discriminate|]). destruct Y.
  - reflexivity.
  - discriminate.
Qed.
