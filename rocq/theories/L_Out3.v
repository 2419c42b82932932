(** Lemmas for the engine's plots (C68): swing curves, and the curve of an engine's system. *)
From Coq Require Import Lia Lqa Setoid.
From Verif Require Import Prelude M_StratifiedTank M_MixedTank M_EnergyTank M_Building M_Heater M_Sizing S_Integral S_Sizing
  M_Step M_Swing S_Swing M_MPRTP M_Engine M_EngineOut S_Engine S_EngineSize S_EngineOut L_Building L_Sizing L_Sizing2 L_Sizing3 L_Sizing4
  P_Sizing P_Sizing2 L_Swing2 L_Swing3 L_Swing4 P_Swing P_Swing2 L_Engine2 L_Engine8 P_Engine7 L_Out L_Out2.
Open Scope Q_scope.

(** ** Hours at which demand begins to outrun the heater *)

Lemma onset_exists b h x : daily_shape b -> 0 < h -> h <= 24 -> In x (bd_peak b) -> 1 < h * x -> exists i, onset h (bd_peak b) i.
Proof.
  intros [L24 Sh Sq Hd] h0 h24 I X. pose proof (running_at_pos b h x L24 Sh Sq Hd h0 h24 I X) as P.
  unfold running_at, running_of_diff in P. destruct (peak_indices (hourly_diff (bd_daily b / h) (bd_daily b) (bd_peak b))) as [|i l] eqn:E; [lra|].
  clear P. exists i. assert (J : In i (peak_indices (hourly_diff (bd_daily b / h) (bd_daily b) (bd_peak b)))) by (rewrite E; left; reflexivity).
  unfold peak_indices in J. apply filter_In in J. destruct J as [J1 J2]. apply in_seq in J1.
  assert (LD : length (hourly_diff (bd_daily b / h) (bd_daily b) (bd_peak b)) = 24%nat) by (unfold hourly_diff; rewrite map_length; exact L24).
  rewrite LD in *. apply andb_prop in J2. destruct J2 as [J2 J3]. qbool.
  assert (NT : forall k, (k < 24)%nat -> nth k (hourly_diff (bd_daily b / h) (bd_daily b) (bd_peak b)) 0 == bd_daily b / h - bd_daily b * nth k (bd_peak b) 0).
  { intros k K. unfold hourly_diff. rewrite (nth_indep _ 0 (bd_daily b / h - bd_daily b * 0)) by (rewrite map_length; lia).
    rewrite (map_nth (fun f => bd_daily b / h - bd_daily b * f)). reflexivity. }
  assert (IP : prev_hour 24 i = ((i + 23) mod 24)%nat).
  { unfold prev_hour. destruct i as [|j]; [reflexivity|]. replace (S j + 23)%nat with (j + 1 * 24)%nat by lia. rewrite Nat.mod_add by lia. rewrite Nat.mod_small; lia. }
  rewrite IP in J2. rewrite NT in J2 by (apply Nat.mod_upper_bound; lia). rewrite NT in J3 by lia.
  assert (DH : bd_daily b / h == bd_daily b * (1 / h)) by (field; lra). rewrite DH in J2, J3.
  split; [lia|]. split.
  - destruct (Qlt_le_dec (1 / h) (nth i (bd_peak b) 0)) as [|C]; [assumption|]. exfalso.
    assert (nth i (bd_peak b) 0 * bd_daily b <= 1 / h * bd_daily b) by (apply Qmult_le_compat_r; [exact C|lra]). lra.
  - destruct (Qlt_le_dec (1 / h) (nth ((i + 23) mod 24) (bd_peak b) 0)) as [C|]; [|assumption]. exfalso.
    assert (1 / h * bd_daily b < nth ((i + 23) mod 24) (bd_peak b) 0 * bd_daily b) by (apply Qmult_lt_compat_r; assumption). lra.
Qed.

(** ** Swing curves *)

Lemma swing_loop_all b f v inlet : design_inlet b = Ok inlet -> ~ f == 0 -> qsum (bd_peak b) <= 1 ->
  forall hs s, ~ dh_defrost (sw_dhw s) == 0 -> env_of s inlet = Ok v ->
  (forall h, In h hs -> swing_ready v h (bd_daily b) (bd_peak b) /\ exists i, onset h (bd_peak b) i) ->
  exists s1 pts, swing_curve_loop s b f hs = (s1, Ok pts) /\ length pts = length hs.
Proof.
  intros Hi Nf Q1. induction hs as [|h r IH]; intros s Nd EV R; [exists s, []; split; reflexivity|].
  destruct (curve_loop_total b f v [h] s inlet Hi Nf Nd EV) as (s1 & pts & L & NE).
  { intros k [<-|[]]. apply R. left. reflexivity. }
  destruct (R h (or_introl eq_refl)) as (_ & i & ON).
  assert (PR : probed h (bd_peak b) i) by (split; [apply ON|left; exact ON]).
  specialize (NE h [] i eq_refl PR Q1 ON). cbn [swing_curve_loop] in *.
  destruct (swing_curve_point (sw_set_run s h) b f) as [s2 o] eqn:CP.
  pose proof (curve_point_state (sw_set_run s h) b f) as (mix & SM). rewrite CP in SM. cbn [fst] in SM.
  destruct o as [[[cap st]|]|e]; [| |discriminate].
  2:{ exfalso. apply NE. congruence. }
  destruct (IH s2) as (s3 & pts' & L' & LL).
  - rewrite SM. exact Nd.
  - rewrite SM. exact EV.
  - intros k K. apply R. right. exact K.
  - rewrite L'. exists s3, ((h, cap, st) :: pts'). split; [reflexivity|]. cbn [length]. rewrite LL. reflexivity.
Qed.

Lemma swing_curve_mark lib s b cmap slope step inlet f lo vol cap : 0 < step -> daily_shape b ->
  design_inlet b = Ok inlet -> strat_factor (sw_dhw s) cmap (slope_or (sw_dhw s) slope) inlet = Ok f -> ~ f == 0 ->
  inlet < dh_supply (sw_dhw s) -> dh_supply (sw_dhw s) <= dh_storage (sw_dhw s) ->
  ~ dh_defrost (sw_dhw s) == 0 -> 0 <= sw_loss s -> dh_run (sw_dhw s) <= 24 ->
  sw_tm_vol s = Some vol -> sw_tm_cap s = Some cap -> 0 < vol -> sw_loss s <= cap ->
  (forall x, In x (bd_peak b) -> bd_daily b * x < 60 * vol) -> min_run_hr b = Ok lo -> lo < dh_run (sw_dhw s) ->
  exists s' cv h c rv mix, swing_sizing_curve lib s b cmap slope step = (s', b, Ok cv) /\
    let n := Z.to_nat (cv_rec cv) in
    (0 <= cv_rec cv)%Z /\ (n < length (cv_hours cv))%nat /\ h == dh_run (sw_dhw s) /\
    swing_running (sw_set_run s h) b = Ok (Some mix, rv) /\ swing_capacity (sw_set_mix (sw_set_run s h) mix) b = Ok c /\
    nth_error (cv_capacity cv) n = Some c /\ nth_error (cv_storage cv) n = Some (rv / f).
Proof.
  intros Hst DS Hi Hf Nf Hin Hsu Nd Hl R24 EV EC V0 LC SH Hlo LR. pose proof DS as [L24 Sh Sq Hd].
  pose proof (min_run_pos _ _ Sh Hlo) as LO.
  assert (A : forall x y, exists l, arange x y (- step) = Ok l).
  { intros x y. unfold arange. destruct (Qeq_bool (- step) 0) eqn:Z; [apply Qeq_bool_iff in Z; lra|]. eexists. reflexivity. }
  destruct (A 24 (dh_run (sw_dhw s))) as [a1 A1]. destruct (A (dh_run (sw_dhw s)) lo) as [a2 A2].
  destruct (arange_desc _ _ _ _ Hst A1) as (_ & I1 & _). destruct (arange_desc _ _ _ _ Hst A2) as (_ & I2 & H2 & _).
  assert (IN : forall h, In h (a1 ++ a2) -> lo < h <= 24).
  { intros h I. apply in_app_or in I. destruct I as [I|I]; [destruct (I1 _ I)|destruct (I2 _ I)]; lra. }
  destruct (min_run_spec _ _ Sh Hlo) as (x & Ix & Hx).
  assert (X0 : 0 < x). { destruct (Qlt_le_dec 0 x) as [P|P]; [exact P|]. exfalso. assert (x == 0) by (specialize (Sh x Ix); lra).
    rewrite H in Hx. lra. }
  set (v := mkEnv (dh_supply (sw_dhw s)) (dh_storage (sw_dhw s)) inlet (sw_loss s) vol cap).
  destruct (swing_loop_all b f v inlet Hi Nf Sq (a1 ++ a2) s Nd) as (s1 & pts & L & PL).
  { unfold env_of. rewrite EV, EC. reflexivity. }
  { intros h I. destruct (IN h I) as [Lh Uh]. split.
    - constructor; cbn [v sv_vol sv_loss sv_cap sv_inlet sv_supply sv_storage]; try assumption; [lra|].
      intros y Y. split; [apply Sh; exact Y|apply SH; exact Y].
    - apply onset_exists with x; auto; [lra|]. apply Qlt_trans with (lo * x); [rewrite Hx; reflexivity|]. apply Qmult_lt_compat_r; assumption. }
  destruct (swing_sizing_curve lib s b cmap slope step) as [[s' b'] o] eqn:E.
  assert (AN : bd_is_annual b = false) by (apply daily_not_annual; exact L24).
  destruct (C40_swing_curve_keeps_system lib s b cmap slope step s' b' o) as [_ ->]; [intro X; congruence|exact E|].
  unfold swing_sizing_curve in E. rewrite AN in E. unfold swing_curve_body in E. rewrite Hi in E. cbn [bind] in E. rewrite Hf in E. cbn [bind] in E.
  rewrite Hlo in E. cbn [bind] in E. rewrite A1 in E. cbn [bind] in E. rewrite A2 in E. cbn [bind] in E. rewrite L in E. cbn [bind restore_annual] in E.
  assert (O : o = Ok (mkCurve (map (fun p => fst (fst p)) pts) (map (fun p => snd (fst p)) pts) (map snd pts)
     (Z.min (Z.of_nat (length a1)) (Z.max 0 (Z.of_nat (length pts) - 1))))) by congruence.
  rewrite O. clear E O o.
  destruct (curve_loop_points_sw _ _ _ _ _ _ L) as ((tl & P1) & P3).
  assert (TL : tl = []).
  { apply (f_equal (@length Q)) in P1. rewrite <- PL, app_length, map_length in P1. destruct tl; [reflexivity|cbn in P1; lia]. }
  rewrite TL, app_nil_r in P1. destruct (H2 LR) as [r Hr]. clear H2. set (h := dh_run (sw_dhw s) + qz 0 * - step) in *.
  assert (HH : h == dh_run (sw_dhw s)) by (unfold h; change (qz 0) with 0; ring).
  assert (PN : (length a1 < length pts)%nat) by (rewrite PL, app_length, Hr; cbn [length]; lia).
  assert (RI : Z.min (Z.of_nat (length a1)) (Z.max 0 (Z.of_nat (length pts) - 1)) = Z.of_nat (length a1)) by lia.
  rewrite RI. destruct (nth_error pts (length a1)) as [[[h' c] w]|] eqn:EN; [|apply nth_error_None in EN; lia].
  assert (EH : nth_error (map (fun p => fst (fst p)) pts) (length a1) = Some h').
  { rewrite nth_error_map, EN. reflexivity. }
  assert (h' = h).
  { rewrite <- P1, nth_error_app2, Nat.sub_diag, Hr in EH by lia. cbn in EH. congruence. }
  subst h'. destruct (P3 _ _ _ (nth_error_In _ _ EN)) as (rv & mix & RN & NZ & CP & SV).
  unfold storage_volume in SV. apply qdiv_inv in SV. destruct SV as [_ Hv].
  exists s', (mkCurve (map (fun p => fst (fst p)) pts) (map (fun p => snd (fst p)) pts) (map snd pts) (Z.of_nat (length a1))), h, c, rv, mix.
  split; [reflexivity|]. cbn [cv_hours cv_capacity cv_storage cv_rec]. rewrite Nat2Z.id.
  repeat split; auto; try lia.
  - rewrite map_length. exact PN.
  - rewrite nth_error_map, EN. reflexivity.
  - rewrite nth_error_map, EN, <- Hv. reflexivity.
Qed.

(** ** The mix fraction does not matter *)

Lemma running_none s b rv : swing_running s b = Ok (None, rv) -> rv = 0.
Proof.
  unfold swing_running. intro H. apply bind_ok in H. destruct H as (i & _ & H). apply bind_ok in H. destruct H as (g & _ & H).
  apply bind_ok in H. destruct H as (d & _ & H). destruct (peak_indices d) as [|k l].
  - apply ok_inj in H. congruence.
  - apply bind_ok in H. destruct H as (v & _ & H). apply bind_ok in H. destruct H as ([vol mix] & _ & H).
    apply bind_ok in H. destruct H as (q & _ & H). apply ok_inj in H. congruence.
Qed.

Lemma swing_point_mix s b f mix : snd (swing_curve_point (sw_set_mix s mix) b f) = snd (swing_curve_point s b f) /\
  exists mix', fst (swing_curve_point (sw_set_mix s mix) b f) = sw_set_mix (fst (swing_curve_point s b f)) mix'.
Proof.
  unfold swing_curve_point. rewrite running_mix. destruct (swing_running s b) as [[[mx|] rv]|e] eqn:R.
  - cbn [apply_mix]. change (sw_set_mix (sw_set_mix s mix) mx) with (sw_set_mix s mx). split; [reflexivity|].
    exists mx. destruct (Qeq_bool rv 0); [reflexivity|].
    destruct (do cap <- swing_capacity _ _; _) as [q|[]]; reflexivity.
  - rewrite (running_none _ _ _ R). cbn [apply_mix]. split; [reflexivity|]. exists mix. reflexivity.
  - destruct e; split; try reflexivity; exists mix; reflexivity.
Qed.

Lemma swing_loop_mix b f hs : forall s mix, snd (swing_curve_loop (sw_set_mix s mix) b f hs) = snd (swing_curve_loop s b f hs).
Proof.
  induction hs as [|h r IH]; intros s mix; cbn [swing_curve_loop]; [reflexivity|].
  change (sw_set_run (sw_set_mix s mix) h) with (sw_set_mix (sw_set_run s h) mix).
  destruct (swing_point_mix (sw_set_run s h) b f mix) as (E & mx & E2).
  destruct (swing_curve_point (sw_set_mix (sw_set_run s h) mix) b f) as [s1 o1].
  destruct (swing_curve_point (sw_set_run s h) b f) as [s2 o2]. cbn [fst snd] in *. subst o1 s1.
  destruct o2 as [[[cap st]|]|e]; try reflexivity. specialize (IH s2 mx).
  destruct (swing_curve_loop (sw_set_mix s2 mx) b f r) as [s3 r3]. destruct (swing_curve_loop s2 b f r) as [s4 r4]. cbn [snd] in *. subst r3. reflexivity.
Qed.

Lemma swing_curve_mix lib s b cmap slope step mix :
  snd (swing_sizing_curve lib (sw_set_mix s mix) b cmap slope step) = snd (swing_sizing_curve lib s b cmap slope step).
Proof.
  unfold swing_sizing_curve. destruct (if bd_is_annual b then bd_set_daily lib b else Ok b) as [b1|]; [|reflexivity].
  unfold swing_curve_body. cbn [sw_set_mix sw_dhw].
  destruct (do inlet <- design_inlet b1; _) as [[[f a1] a2]|]; [|unfold restore_annual; destruct (bd_is_annual b); [destruct (bd_set_annual lib b1)|]; reflexivity].
  pose proof (swing_loop_mix b1 f (a1 ++ a2) s mix) as E. unfold sw_set_mix in E at 1.
  destruct (swing_curve_loop _ b1 f (a1 ++ a2)) as [s1 o1] in E |- *. destruct (swing_curve_loop s b1 f (a1 ++ a2)) as [s2 o2]. cbn [snd] in E. subst o1.
  unfold restore_annual. destruct (bd_is_annual b); [destruct (bd_set_annual lib b1)|]; reflexivity.
Qed.
