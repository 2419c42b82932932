(** C40, C41 and C44 for swing systems: sizing curve and load shifting. *)
From Verif Require Import Prelude M_StratifiedTank M_Building M_Heater M_Sizing S_Sizing L_Building L_Heater L_Sizing L_Sizing2 L_Sizing3 L_Sizing4 M_Swing S_Swing L_Swing L_Swing2 L_Swing3 L_Swing4 P_Swing P_Sizing2.
Open Scope Q_scope.

(** ** C40 The sizing curve *)

Lemma curve_point_state s b f : exists mix, fst (swing_curve_point s b f) = sw_set_mix s mix.
Proof.
  assert (Z : s = sw_set_mix s (sw_eff_mix s)) by (destruct s; reflexivity).
  unfold swing_curve_point. destruct (swing_running s b) as [[mo rv]|e].
  - assert (A : exists mix, apply_mix s mo = sw_set_mix s mix).
    { destruct mo as [x|]; [exists x; reflexivity|exists (sw_eff_mix s); exact Z]. }
    destruct (Qeq_bool rv 0); [exact A|].
    destruct (do cap <- swing_capacity (apply_mix s mo) b; do st <- storage_volume rv f; Ok (cap, st)) as [p|[]]; exact A.
  - exists (sw_eff_mix s). destruct e; cbn [fst]; exact Z.
Qed.

Lemma curve_loop_state_sw b f hs : forall s s1 out, swing_curve_loop s b f hs = (s1, out) ->
  exists r mix, s1 = sw_set_mix (sw_set_run s r) mix.
Proof.
  induction hs as [|h hs IH]; intros s s1 out H; cbn [swing_curve_loop] in H.
  - inversion H; subst. exists (dh_run (sw_dhw s1)), (sw_eff_mix s1). destruct s1 as [[] ? ? ? ? ? ? ?]; reflexivity.
  - destruct (curve_point_state (sw_set_run s h) b f) as (mix & E).
    destruct (swing_curve_point (sw_set_run s h) b f) as [s2 o]. cbn [fst] in E. subst s2.
    destruct o as [[[cap st]|]|e].
    + destruct (swing_curve_loop (sw_set_mix (sw_set_run s h) mix) b f hs) as [s3 rest] eqn:L. inversion H; subst.
      destruct (IH _ _ _ L) as (r & mi & ->). exists r, mi. reflexivity.
    + inversion H; subst. exists h, mix. reflexivity.
    + inversion H; subst. exists h, mix. reflexivity.
Qed.

(** Computing the curve changes nothing of the system but its mix fraction, on every exit, and leaves the
    building as it was. *)
Theorem C40_swing_curve_keeps_system : forall lib s b cmap slope step s' b' out,
  (bd_is_annual b = true -> library_annual lib b) ->
  swing_sizing_curve lib s b cmap slope step = (s', b', out) ->
  (exists mix, s' = sw_set_mix s mix) /\ b' = b.
Proof.
  intros lib s b cmap slope step s' b' out A H. unfold swing_sizing_curve in H.
  assert (Z : s = sw_set_mix s (sw_eff_mix s)) by (destruct s; reflexivity).
  destruct (if bd_is_annual b then bd_set_daily lib b else Ok b) as [b1|e] eqn:E.
  - destruct (swing_curve_body s b1 cmap slope step) as [s2 o] eqn:CB.
    rewrite (restore_annual_back _ _ _ _ A E) in H. inversion H; subst. split; [|reflexivity].
    unfold swing_curve_body in CB.
    match type of CB with match ?X with _ => _ end = _ => destruct X as [[[f a1] a2]|e] end.
    + destruct (swing_curve_loop s b1 f (a1 ++ a2)) as [s3 o3] eqn:L. inversion CB; subst.
      destruct (curve_loop_state_sw _ _ _ _ _ _ L) as (r & mix & ->). exists mix. destruct s as [[] ? ? ? ? ? ? ?]; reflexivity.
    + inversion CB; subst. exists (sw_eff_mix s'). exact Z.
  - inversion H; subst. split; [exists (sw_eff_mix s'); exact Z|reflexivity].
Qed.
Print Assumptions C40_swing_curve_keeps_system.

(** ** C41 The points of the curve *)

(** The running volume does not depend on the mix fraction left by earlier sizing. *)
Lemma running_mix s b mix : swing_running (sw_set_mix s mix) b = swing_running s b.
Proof. reflexivity. Qed.

Lemma curve_loop_points_sw b f hs : forall s s1 pts, swing_curve_loop s b f hs = (s1, Ok pts) ->
  (exists tl, hs = map (fun p => fst (fst p)) pts ++ tl) /\
  forall h c v, In (h, c, v) pts -> exists rv mix,
    swing_running (sw_set_run s h) b = Ok (Some mix, rv) /\ ~ rv == 0 /\
    swing_capacity (sw_set_mix (sw_set_run s h) mix) b = Ok c /\ storage_volume rv f = Ok v.
Proof.
  induction hs as [|h0 hs IH]; intros s s1 pts H; cbn [swing_curve_loop] in H.
  - inversion H; subst. split; [exists []; reflexivity|]. intros h c v [].
  - destruct (swing_curve_point (sw_set_run s h0) b f) as [s2 o] eqn:CP.
    assert (M : exists mix, s2 = sw_set_mix (sw_set_run s h0) mix).
    { destruct (curve_point_state (sw_set_run s h0) b f) as (mix & E). exists mix. rewrite CP in E. exact E. }
    destruct M as (mix0 & ->).
    destruct o as [[[cap st]|]|e]; [| |discriminate].
    + destruct (swing_curve_loop (sw_set_mix (sw_set_run s h0) mix0) b f hs) as [s3 rest] eqn:L.
      destruct rest as [l|e]; [|discriminate]. inversion H; subst. clear H.
      destruct (IH _ _ _ L) as ((tl & ->) & PT). split; [exists tl; reflexivity|].
      intros h c v [E|I].
      * inversion E; subst. clear E. unfold swing_curve_point in CP.
        destruct (swing_running (sw_set_run s h) b) as [[mo rv]|e] eqn:RN; [|destruct e; discriminate].
        destruct (Qeq_bool rv 0) eqn:Z; [discriminate|]. apply Qeq_bool_neq in Z.
        destruct (swing_capacity (apply_mix (sw_set_run s h) mo) b) as [c'|e] eqn:C; [|destruct e; discriminate].
        cbn [bind] in CP. destruct (storage_volume rv f) as [v'|e] eqn:V; [|destruct e; discriminate].
        cbn [bind] in CP. inversion CP; subst.
        destruct mo as [mix|].
        -- exists rv, mix. auto.
        -- exfalso. unfold swing_running in RN. apply bind_ok in RN. destruct RN as (i & _ & RN).
           apply bind_ok in RN. destruct RN as (g & _ & RN). apply bind_ok in RN. destruct RN as (d & _ & RN).
           destruct (peak_indices d).
           ++ apply ok_inj in RN. inversion RN; subst. apply Z. reflexivity.
           ++ apply bind_ok in RN. destruct RN as (e0 & _ & RN). apply bind_ok in RN. destruct RN as ([vv mm] & _ & RN).
              apply bind_ok in RN. destruct RN as (k & _ & RN). discriminate RN.
      * exact (PT _ _ _ I).
    + inversion H; subst. split; [exists (h0 :: hs); reflexivity|]. intros h c v [].
Qed.

Lemma swing_curve_inv lib s b cmap slope step s' b' cv :
  swing_sizing_curve lib s b cmap slope step = (s', b', Ok cv) ->
  exists b1 inlet f lo a1 a2 s1 pts,
    (if bd_is_annual b then bd_set_daily lib b else Ok b) = Ok b1 /\ design_inlet b1 = Ok inlet /\
    strat_factor (sw_dhw s) cmap (slope_or (sw_dhw s) slope) inlet = Ok f /\ min_run_hr b1 = Ok lo /\
    arange 24 (dh_run (sw_dhw s)) (- step) = Ok a1 /\ arange (dh_run (sw_dhw s)) lo (- step) = Ok a2 /\
    swing_curve_loop s b1 f (a1 ++ a2) = (s1, Ok pts) /\
    cv = mkCurve (map (fun p => fst (fst p)) pts) (map (fun p => snd (fst p)) pts) (map snd pts)
           (Z.min (Z.of_nat (length a1)) (Z.max 0 (Z.of_nat (length pts) - 1))).
Proof.
  unfold swing_sizing_curve. destruct (if bd_is_annual b then bd_set_daily lib b else Ok b) as [b1|e] eqn:E; [|discriminate].
  destruct (swing_curve_body s b1 cmap slope step) as [s2 o] eqn:CB. intro H.
  assert (o = Ok cv) as ->.
  { unfold restore_annual in H. destruct (bd_is_annual b); [destruct (bd_set_annual lib b1)|]; inversion H; reflexivity. }
  clear H. unfold swing_curve_body in CB.
  destruct (design_inlet b1) as [inlet|e] eqn:E1; [|discriminate]. cbn [bind] in CB.
  destruct (strat_factor (sw_dhw s) cmap (slope_or (sw_dhw s) slope) inlet) as [f|e] eqn:E2; [|discriminate]. cbn [bind] in CB.
  destruct (min_run_hr b1) as [lo|e] eqn:E3; [|discriminate]. cbn [bind] in CB.
  destruct (arange 24 (dh_run (sw_dhw s)) (- step)) as [a1|e] eqn:E4; [|discriminate]. cbn [bind] in CB.
  destruct (arange (dh_run (sw_dhw s)) lo (- step)) as [a2|e] eqn:E5; [|discriminate]. cbn [bind] in CB.
  destruct (swing_curve_loop s b1 f (a1 ++ a2)) as [s1 [pts|e]] eqn:L; [|discriminate]. cbn [bind] in CB.
  inversion CB; subst.
  exists b1, inlet, f, lo, a1, a2, s1, pts. repeat (split; [first [reflexivity|assumption]|]). reflexivity.
Qed.

(** Every point of a swing curve is what sizing for that run time gives, when the swing tank is the one
    that sizing chooses for this building (the curve keeps the tank of the last sizing). *)
Theorem C41_swing_points_agree_with_size : forall lib s b b0 s0 cmap slope step s' b' cv i h c v fract s1 b1 out,
  (if bd_is_annual b then bd_set_daily lib b else Ok b) = Ok b0 ->
  size_tm s b0 = Ok s0 -> sw_tm_vol s0 = sw_tm_vol s -> sw_tm_cap s0 = sw_tm_cap s ->
  swing_sizing_curve lib s b cmap slope step = (s', b', Ok cv) ->
  nth_error (cv_hours cv) i = Some h -> nth_error (cv_capacity cv) i = Some c -> nth_error (cv_storage cv) i = Some v ->
  swing_size lib (sw_set_run s h) b None cmap (match dh_slope (sw_dhw s) with Some x => x | None => slope end) fract = (s1, b1, out) ->
  dh_min_cap (sw_dhw s1) = Some c /\ dh_min_stor (sw_dhw s1) = Some v.
Proof.
  intros lib s b b0 s0 cmap slope step s' b' cv i h c v fract s1 b1 out Hb ST TV TC H Eh Ec Ev SZ.
  destruct (swing_curve_inv _ _ _ _ _ _ _ _ _ H) as (bb & inlet & f & lo & a1 & a2 & s2 & pts & Hb' & Hi & Hf & _ & _ & _ & L & ->).
  rewrite Hb in Hb'. apply ok_inj in Hb'. subst bb.
  cbn [cv_hours cv_capacity cv_storage] in *. rewrite nth_error_map in Eh, Ec, Ev.
  destruct (nth_error pts i) as [[[h' c'] v']|] eqn:N; [|discriminate]. cbn in Eh, Ec, Ev.
  injection Eh as <-. injection Ec as <-. injection Ev as <-.
  destruct (curve_loop_points_sw _ _ _ _ _ _ L) as (_ & P). apply nth_error_In in N.
  destruct (P _ _ _ N) as (rv & mix & RN & NZ & CP & SV).
  unfold swing_size in SZ. rewrite Hb in SZ.
  assert (ST' : exists vol ca cap, Some vol = sw_tm_vol s /\ Some cap = sw_tm_cap s /\
     size_tm (sw_set_dhw (sw_set_run s h') (cap_run (sw_dhw (sw_set_run s h')) None cmap)) b0 = Ok (sw_set_tm (sw_set_run s h') vol ca cap)).
  { destruct (size_tm_inv _ _ _ ST) as (r & vol & ca & RV & LE & TP & CA & E0).
    exists vol, ca, (sw_safety s * (sw_loss s * 1000) / 1000). rewrite <- TV, <- TC, E0.
    split; [reflexivity|]. split; [reflexivity|].
    unfold size_tm in *. change (tm_vol_required (sw_set_dhw (sw_set_run s h') (cap_run (sw_dhw (sw_set_run s h')) None cmap)) b0) with (tm_vol_required s b0).
    rewrite RV in *. cbn [bind] in *. destruct (qltb 1250 r); [discriminate|]. rewrite TP in *. cbn [bind] in *. rewrite CA in *. cbn [bind]. reflexivity. }
  destruct ST' as (vol & ca & cap & EV & EC & ST').
  unfold swing_size_try in SZ. rewrite Hi, ST' in SZ.
  assert (RN' : swing_running (sw_set_mix (sw_set_tm (sw_set_run s h') vol ca cap) 1) b0 = Ok (Some mix, rv)).
  { rewrite <- RN. unfold swing_running, env_of. cbn [sw_tm_vol sw_tm_cap sw_set_mix sw_set_tm sw_set_run sw_set_dhw sw_dhw].
    rewrite <- EV, <- EC. reflexivity. }
  rewrite RN' in SZ. cbn [apply_mix] in SZ.
  change (strat_factor (sw_dhw (sw_set_mix (sw_set_mix (sw_set_tm (sw_set_run s h') vol ca cap) 1) mix)) cmap)
    with (strat_factor (sw_dhw s) cmap) in SZ.
  change (match dh_slope (sw_dhw s) with Some x => x | None => slope end) with (slope_or (sw_dhw s) slope) in SZ.
  rewrite Hf in SZ. cbn [bind] in SZ. rewrite SV in SZ. cbn [bind] in SZ.
  change (swing_capacity (sw_set_mix (sw_set_mix (sw_set_tm (sw_set_run s h') vol ca cap) 1) mix) b0)
    with (swing_capacity (sw_set_mix (sw_set_run s h') mix) b0) in SZ.
  rewrite CP in SZ. cbn [bind] in SZ.
  destruct (bd_is_annual b); [destruct (bd_set_annual lib b0)|]; inversion SZ; subst; split; reflexivity.
Qed.
Print Assumptions C41_swing_points_agree_with_size.

(** ... and the curve is well formed like the base system's. *)
Theorem C41_swing_well_formed : forall lib s b cmap slope step s' b' cv,
  0 < step -> swing_sizing_curve lib s b cmap slope step = (s', b', Ok cv) ->
  length (cv_capacity cv) = length (cv_hours cv) /\ length (cv_storage cv) = length (cv_hours cv) /\
  strictly_decreasing (cv_hours cv) /\
  (cv_hours cv <> [] -> (0 <= cv_rec cv < Z.of_nat (length (cv_hours cv)))%Z) /\
  ((exists h, In h (cv_hours cv) /\ h <= dh_run (sw_dhw s)) -> nth (Z.to_nat (cv_rec cv)) (cv_hours cv) 0 == dh_run (sw_dhw s)).
Proof.
  intros lib s b cmap slope step s' b' cv Hst H.
  destruct (swing_curve_inv _ _ _ _ _ _ _ _ _ H) as (b1 & inlet & f & lo & a1 & a2 & s1 & pts & Hb & Hi & Hf & Hlo & A1 & A2 & L & ->).
  cbn [cv_hours cv_capacity cv_storage cv_rec].
  destruct (curve_loop_points_sw _ _ _ _ _ _ L) as ((tl & P1') & P3).
  assert (P1 : map (fun p => fst (fst p)) pts = firstn (length pts) (a1 ++ a2)).
  { rewrite P1'. rewrite firstn_app, map_length, Nat.sub_diag, firstn_O, app_nil_r.
    rewrite <- (map_length (fun p => fst (fst p)) pts). rewrite firstn_all. reflexivity. }
  destruct (arange_desc _ _ _ _ Hst A1) as (D1 & I1 & N1 & E1).
  destruct (arange_desc _ _ _ _ Hst A2) as (D2 & I2 & N2 & E2).
  assert (SD : strictly_decreasing (a1 ++ a2)).
  { apply sd_app; auto. intros x y X Y. destruct (I1 _ X). destruct (I2 _ Y). lra. }
  rewrite !map_length. repeat (split; [reflexivity|]). rewrite P1.
  split; [apply sd_firstn; exact SD|].
  assert (NN : firstn (length pts) (a1 ++ a2) <> [] -> (0 < length pts)%nat).
  { intro X. destruct pts; [exfalso; apply X; reflexivity|cbn; lia]. }
  split; [intro X; specialize (NN X); lia|].
  intros (h & X & Y). apply in_nth_lt in X. destruct X as (i & X1 & X2 & X3).
  assert (LI : (length a1 <= i)%nat).
  { destruct (Nat.le_gt_cases (length a1) i) as [C|C]; [exact C|exfalso].
    rewrite app_nth1 in X3 by exact C. destruct (I1 (nth i a1 0)) as [_ Z]; [apply nth_In; exact C|]. rewrite X3 in Z. lra. }
  replace (Z.to_nat (Z.min (Z.of_nat (length a1)) (Z.max 0 (Z.of_nat (length pts) - 1)))) with (length a1) by lia.
  rewrite nth_firstn_lt by lia. rewrite app_nth2 by lia. rewrite Nat.sub_diag.
  rewrite app_length in X2. destruct a2 as [|y a2]; [cbn in X2; lia|].
  destruct (Qlt_le_dec lo (dh_run (sw_dhw s))) as [Q1|Q1]; [|pose proof (E2 Q1); discriminate].
  destruct (N2 Q1) as (q & Z). injection Z as -> _. cbn [nth]. change (qz 0) with 0. lra.
Qed.
Print Assumptions C41_swing_well_formed.

(** A sized swing tank never makes the curve fail: every run time of the sweep gives a point or ends it,
    and the first point exists when an hour of the building exceeds an even spread over the day. *)
Lemma curve_loop_total b f v : forall hs s inlet,
  design_inlet b = Ok inlet -> ~ f == 0 -> ~ dh_defrost (sw_dhw s) == 0 -> env_of s inlet = Ok v ->
  (forall h, In h hs -> swing_ready v h (bd_daily b) (bd_peak b)) ->
  exists s1 pts, swing_curve_loop s b f hs = (s1, Ok pts) /\
    (forall h r i, hs = h :: r -> probed h (bd_peak b) i -> qsum (bd_peak b) <= 1 -> onset h (bd_peak b) i -> pts <> []).
Proof.
  induction hs as [|h hs IH]; intros s inlet Hi Nf Nd EV R.
  - exists s, []. split; [reflexivity|]. intros; discriminate.
  - cbn [swing_curve_loop]. pose proof (R h (or_introl eq_refl)) as Rh.
    destruct (running_ok (sw_set_run s h) b inlet v Hi EV Rh) as (mo & V & W & RN & W0 & VW & CV & AT).
    change (dh_run (sw_dhw (sw_set_run s h))) with h in *.
    unfold swing_curve_point. rewrite RN.
    destruct (Qeq_bool V 0) eqn:Z.
    + exists (apply_mix (sw_set_run s h) mo), []. split; [reflexivity|].
      intros h0 r i E PR Q1 ON _. injection E as <- <-. apply Qeq_bool_iff in Z.
      destruct (CV i PR) as (mi & draw & (DD & MX & CC) & MB).
      specialize (CC 1%nat). assert (L1 : (1 <= day_minutes)%nat) by (unfold day_minutes; lia). specialize (CC L1).
      cbn [total] in CC. destruct DD as [D0 _]. unfold minute_demand in D0.
      destruct ON as (I24 & ON1 & _). pose proof (sr_len _ _ _ _ Rh) as LL. rewrite LL in D0.
      change (0 / 60)%nat with 0%nat in D0. rewrite Nat.add_0_r, Nat.mod_small in D0 by exact I24.
      pose proof (sr_run _ _ _ _ Rh) as Hr. pose proof (sr_daily _ _ _ _ Rh) as Hd.
      pose proof (sr_inlet _ _ _ _ Rh) as SI. pose proof (sr_storage _ _ _ _ Rh) as SS.
      assert (EN : sv_inlet v = inlet).
      { unfold env_of in EV. destruct (sw_tm_vol s), (sw_tm_cap s); try discriminate. apply ok_inj in EV. subst v. reflexivity. }
      rewrite EN in SI.
      assert (WZ : W == 0).
      { assert (K : 0 < (sv_storage v - inlet) / (sv_supply v - inlet)) by (apply qdiv_pos; lra).
        destruct (Qlt_le_dec 0 W) as [P|P]; [|lra]. pose proof (qmul_pos _ _ P K). lra. }
      assert (A : bd_daily b * mi / h / 60 <= bd_daily b * (1 / h) / 60).
      { assert (bd_daily b * mi / h / 60 == bd_daily b / 60 * (mi / h)) as -> by (field; lra).
        assert (bd_daily b * (1 / h) / 60 == bd_daily b / 60 * (1 / h)) as -> by (field; lra).
        apply Qmult_le_l; [apply qdiv_pos; [exact Hd|reflexivity]|]. apply qle_div_iff; [exact Hr|].
        rewrite (qdiv_mul mi h) by lra. lra. }
      assert (B : bd_daily b * (1 / h) / 60 < bd_daily b * nth i (bd_peak b) 0 / 60).
      { apply Qmult_lt_r; [reflexivity|]. apply Qmult_lt_l; [exact Hd|]. exact ON1. }
      lra.
    + assert (D3 : sw_dhw (apply_mix (sw_set_run s h) mo) = sw_dhw (sw_set_run s h)) by (destruct mo; reflexivity).
      pose proof (sr_run _ _ _ _ Rh) as Hr.
      assert (CAP : exists c, swing_capacity (apply_mix (sw_set_run s h) mo) b = Ok c).
      { unfold swing_capacity, swing_capacity_of, swing_normal_gen. rewrite Hi. cbn [bind]. rewrite D3.
        change (dh_run (sw_dhw (sw_set_run s h))) with h. rewrite qdiv_ok by lra. cbn [bind].
        rewrite qdiv_ok by exact Nd. cbn [bind]. eexists. reflexivity. }
      destruct CAP as (c & ->). cbn [bind]. unfold storage_volume. rewrite (qdiv_ok V f Nf). cbn [bind].
      destruct (IH (apply_mix (sw_set_run s h) mo) inlet Hi Nf) as (s2 & pts & L & _).
      { rewrite D3. exact Nd. }
      { destruct mo; exact EV. }
      { intros h' X. apply R. right. exact X. }
      rewrite L. cbn [bind]. do 2 eexists. split; [reflexivity|]. discriminate.
Qed.

Theorem C41_swing_curve_succeeds : forall lib s b cmap slope step inlet factor vol cap,
  bd_is_annual b = false -> design_inlet b = Ok inlet ->
  strat_factor (sw_dhw s) cmap (match dh_slope (sw_dhw s) with Some x => x | None => slope end) inlet = Ok factor -> ~ factor == 0 ->
  inlet < dh_supply (sw_dhw s) -> dh_supply (sw_dhw s) <= dh_storage (sw_dhw s) ->
  ~ dh_defrost (sw_dhw s) == 0 -> 0 <= sw_loss s -> 0 < step -> 0 <= dh_run (sw_dhw s) ->
  sw_tm_vol s = Some vol -> sw_tm_cap s = Some cap -> 0 < vol -> sw_loss s <= cap ->
  length (bd_peak b) = 24%nat -> (forall x, In x (bd_peak b) -> 0 <= x /\ bd_daily b * x < 60 * vol) ->
  (exists x, In x (bd_peak b) /\ 0 < x) -> 0 < bd_daily b ->
  exists s' cv, swing_sizing_curve lib s b cmap slope step = (s', b, Ok cv) /\
    ((exists i, onset 24 (bd_peak b) i) -> qsum (bd_peak b) <= 1 -> dh_run (sw_dhw s) < 24 -> cv_hours cv <> []).
Proof.
  intros lib s b cmap slope step inlet factor vol cap AN Hi Hf Nf Hin Hst Nd Hl Hstep Hrun EV EC V0 LC LP SH (px & PX & PP) D0.
  unfold swing_sizing_curve. rewrite AN. unfold swing_curve_body. rewrite Hi. cbn [bind].
  change (match dh_slope (sw_dhw s) with Some x => x | None => slope end) with (slope_or (sw_dhw s) slope) in Hf. rewrite Hf. cbn [bind].
  assert (MR : exists lo, min_run_hr b = Ok lo /\ 0 < lo).
  { unfold min_run_hr. destruct (bd_peak b) as [|x r]; [destruct PX|].
    assert (MP : 0 < qmaxl x r).
    { destruct (qmaxl_ge x r) as [G1 G2]. destruct PX as [<-|PX]; [lra|]. specialize (G2 _ PX). lra. }
    rewrite qdiv_ok by lra. cbn [bind]. eexists. split; [reflexivity|]. apply qmul_pos; [apply qdiv_pos; [reflexivity|exact MP]|reflexivity]. }
  destruct MR as (lo & -> & LO). cbn [bind].
  assert (AR : forall x y, exists l, arange x y (- step) = Ok l).
  { intros x y. unfold arange. destruct (Qeq_bool (- step) 0) eqn:Z; [qbool; lra|]. eexists. reflexivity. }
  destruct (AR 24 (dh_run (sw_dhw s))) as (a1 & A1). destruct (AR (dh_run (sw_dhw s)) lo) as (a2 & A2).
  rewrite A1, A2. cbn [bind].
  destruct (arange_desc _ _ _ _ Hstep A1) as (_ & I1 & N1 & _).
  destruct (arange_desc _ _ _ _ Hstep A2) as (_ & I2 & _ & _).
  set (v := mkEnv (dh_supply (sw_dhw s)) (dh_storage (sw_dhw s)) inlet (sw_loss s) vol cap).
  assert (RD : forall h, In h (a1 ++ a2) -> swing_ready v h (bd_daily b) (bd_peak b)).
  { intros h H. constructor; cbn [v sv_vol sv_loss sv_cap sv_inlet sv_supply sv_storage]; try assumption.
    apply in_app_iff in H. destruct H as [H|H]; [destruct (I1 _ H); lra|destruct (I2 _ H); lra]. }
  destruct (curve_loop_total b factor v (a1 ++ a2) s inlet Hi Nf Nd) as (s1 & pts & L & NE).
  { unfold env_of. rewrite EV, EC. reflexivity. }
  { exact RD. }
  rewrite L. cbn [bind restore_annual]. do 2 eexists. split; [reflexivity|]. cbn [cv_hours].
  intros (i & ON) Q1 R24. destruct (N1 R24) as (q & ->).
  assert (E24 : 24 + qz 0 * - step == 24) by (change (qz 0) with 0; ring).
  assert (X : pts <> []).
  { assert (ON' : onset (24 + qz 0 * - step) (bd_peak b) i).
    { destruct ON as (O1 & O2 & O3). split; [exact O1|]. rewrite E24. split; [exact O2|exact O3]. }
    apply (NE (24 + qz 0 * - step) (q ++ a2) i eq_refl); [|exact Q1|exact ON'].
    split; [apply ON'|left; exact ON']. }
  destruct pts; [congruence|discriminate].
Qed.
Print Assumptions C41_swing_curve_succeeds.

(** The example system after sizing: its curve has points, so the theorems above apply. *)
Example C41_swing_case : exists s s' s0 cv,
  swing_size sw_lib sw_system sw_building None sw_controls 2 1 = (s, sw_building, Ok tt) /\
  size_tm s sw_building = Ok s0 /\ sw_tm_vol s0 = sw_tm_vol s /\ sw_tm_cap s0 = sw_tm_cap s /\
  swing_sizing_curve sw_lib s sw_building sw_controls 2 2 = (s', sw_building, Ok cv) /\ cv_hours cv <> [].
Proof.
  destruct C43_sizing_case as (s & H).
  destruct (swing_size_inv _ _ _ _ _ _ _ _ _ _ H) as (b1' & inlet' & s1 & mo & rv & f & stor & cap & A1 & A2 & A3 & _ & A5 & A6 & _ & cap' & stor' & mix' & ES & _).
  apply ok_inj in A1. subst b1'. apply ok_inj in A2. subst inlet'.
  destruct (size_tm (sw_set_dhw sw_system (cap_run (sw_dhw sw_system) None sw_controls)) sw_building) as [x|] eqn:E; [|discriminate].
  vm_compute in E. apply ok_inj in A3. subst x. apply ok_inj in E. subst s1.
  destruct (C41_swing_curve_succeeds sw_lib s sw_building sw_controls 2 2 50 f 50 (45109089000000 # 2000000000000)) as (s' & cv & CV & NE); 
    try lazymatch goal with
        | |- _ < _ => try rewrite ES; reflexivity
        | |- _ <= _ => try rewrite ES; discriminate
        | |- _ = Some _ => rewrite ES; reflexivity
        | |- ~ dh_defrost _ == 0 => rewrite ES; discriminate
        | |- length _ = _ => reflexivity
        | |- _ = false => reflexivity
        | |- design_inlet _ = _ => reflexivity
        end.
  - rewrite ES. exact A5.
  - unfold storage_volume in A6. apply qdiv_inv in A6. apply A6.
  - intros x X. unfold sw_building, sw_shape in X. cbn in X. repeat (destruct X as [<-|X]; [split; [discriminate|reflexivity]|]). destruct X.
  - exists (1 # 15). split; [|reflexivity]. unfold sw_building, sw_shape. cbn. tauto.
  - exists s, s', (sw_set_tm s 50 80 (45109089000000 # 2000000000000)), cv. split; [exact H|].
    split; [rewrite ES; vm_compute; reflexivity|]. split; [rewrite ES; reflexivity|]. split; [rewrite ES; reflexivity|].
    split; [exact CV|]. apply NE.
    + exists 18%nat. split; [lia|]. split; vm_compute; [reflexivity|discriminate].
    + vm_compute. discriminate.
    + rewrite ES. reflexivity.
Qed.

(** ** C44 with load shifting *)

(** A load-shift sizing gives at least the storage and capacity of a sizing without, for the run hours
    capped at the hours that are not shed. *)
Theorem C44_load_shift_at_least_normal : forall lib s b sc d slope fract s1' b1' w1 s2' b2' w2 v1 v2 c1 c2,
  sc <> [] -> dict_get d "shed" <> None ->
  swing_size lib s b (Some sc) (Some d) slope fract = (s1', b1', Ok w1) ->
  swing_size lib (sw_set_run s (qmin (dh_run (sw_dhw s)) (non_shed_hours sc))) b None (Some d) slope fract = (s2', b2', Ok w2) ->
  dh_min_stor (sw_dhw s1') = Some v1 -> dh_min_stor (sw_dhw s2') = Some v2 ->
  dh_min_cap (sw_dhw s1') = Some c1 -> dh_min_cap (sw_dhw s2') = Some c2 ->
  v2 <= v1 /\ c2 <= c1 /\ sw_tm_vol s1' = sw_tm_vol s2' /\ sw_tm_cap s1' = sw_tm_cap s2' /\
  (sw_eff_mix s1' = sw_eff_mix s2' \/ v2 < v1).
Proof.
  intros lib s b sc d slope fract s1' b1' w1 s2' b2' w2 v1 v2 c1 c2 N1 N2 H1 H2 V1 V2 C1 C2.
  assert (LA : ls_active (Some sc) (Some d) = true).
  { unfold ls_active, is_load_shifting. destruct sc; [congruence|]. unfold dict_has. destruct (dict_get d "shed"); [reflexivity|congruence]. }
  destruct (swing_size_inv _ _ _ _ _ _ _ _ _ _ H1) as (b1 & inlet & s1 & mo & rv & f & stor & cap & A1 & A2 & A3 & A4 & A5 & A6 & A7 & cap' & stor' & mix' & ES & X).
  destruct (swing_size_inv _ _ _ _ _ _ _ _ _ _ H2) as (b1x & inletx & s1x & mox & rvx & fx & storx & capx & B1 & B2 & B3 & B4 & B5 & B6 & B7 & cap'x & stor'x & mix'x & ESx & Y).
  destruct Y as [(_ & -> & -> & ->)|Y]; [|destruct Y as (? & ? & ? & ? & ? & ? & ? & Y & _); discriminate Y].
  destruct X as [(X & _)|(sc' & d' & g & lcap & lrv & lmix & lstor & E1 & E2 & _ & G1 & G2 & G3 & G4 & -> & -> & ->)]; [congruence|].
  injection E1 as <-. injection E2 as <-.
  rewrite A1 in B1. apply ok_inj in B1. subst b1x. rewrite A2 in B2. apply ok_inj in B2. subst inletx.
  unfold cap_run in A3, B3. rewrite LA in A3.
  change (sw_set_dhw s (dh_set_run (sw_dhw s) (qmin (dh_run (sw_dhw s)) (non_shed_hours sc)))) with (sw_set_run s (qmin (dh_run (sw_dhw s)) (non_shed_hours sc))) in A3.
  replace (sw_set_dhw (sw_set_run s (qmin (dh_run (sw_dhw s)) (non_shed_hours sc))) (sw_dhw (sw_set_run s (qmin (dh_run (sw_dhw s)) (non_shed_hours sc)))))
    with (sw_set_run s (qmin (dh_run (sw_dhw s)) (non_shed_hours sc))) in B3 by reflexivity.
  rewrite A3 in B3. apply ok_inj in B3. subst s1x. rewrite A4 in B4. apply ok_inj in B4. injection B4 as <- <-.
  rewrite A5 in B5. apply ok_inj in B5. subst fx. rewrite A6 in B6. apply ok_inj in B6. subst storx.
  rewrite A7 in B7. apply ok_inj in B7. subst capx.
  rewrite ES in V1, C1 |- *. rewrite ESx in V2, C2 |- *. cbn [sw_dhw dh_min_stor dh_min_cap sw_tm_vol sw_tm_cap sw_eff_mix] in *.
  injection V1 as <-. injection V2 as <-. injection C1 as <-. injection C2 as <-.
  destruct (qltb stor lstor) eqn:Q; qbool.
  - split; [lra|]. split; [apply qmax_l|]. split; [reflexivity|]. split; [reflexivity|]. right. exact Q.
  - split; [lra|]. split; [apply qmax_l|]. split; [reflexivity|]. split; [reflexivity|]. left. reflexivity.
Qed.
Print Assumptions C44_load_shift_at_least_normal.
