(** C41: which run hours a sizing curve shows. *)
From Coq Require Import Lia Lqa Setoid.
From Verif Require Import Prelude M_StratifiedTank M_MixedTank M_EnergyTank M_Building M_Heater M_Sizing S_Integral S_Sizing
  M_Step M_Swing S_Swing M_MPRTP M_Engine M_EngineOut S_Engine S_EngineSize S_EngineOut S_Curve L_Building L_MixedTank L_Sizing L_Sizing2 L_Sizing3 L_Sizing4
  P_Sizing P_Sizing2 L_Swing2 L_Swing3 L_Swing4 P_Swing P_Swing2 L_Engine L_Engine2 L_Engine8 L_Out L_Out2 L_Out3 P_EngineOut.
Open Scope Q_scope.

Lemma arange_shows start stop step l h : 0 < step -> arange start stop (- step) = Ok l ->
  (shows l h <-> exists k : nat, h == start - qz (Z.of_nat k) * step /\ stop < h).
Proof.
  intros Hs H. destruct (arange_desc _ _ _ _ Hs H) as (_ & IN & _). unfold arange in H.
  destruct (Qeq_bool (- step) 0) eqn:Z; qbool; [lra|]. apply ok_inj in H.
  assert (EQ : (stop - start) / - step == (start - stop) / step) by (field; lra). split.
  - intros (x & I & E). destruct (IN _ I) as [_ L]. subst l. apply in_map_iff in I. destruct I as (i & <- & _).
    exists i. split; [rewrite <- E; ring|lra].
  - intros (k & E & L). exists (start + qz (Z.of_nat k) * - step). split; [|rewrite E; ring].
    subst l. apply in_map_iff. exists k. split; [reflexivity|]. apply in_seq. split; [lia|].
    assert (P : inject_Z (Z.of_nat k) < inject_Z (Qceiling ((stop - start) / - step))).
    { apply Qlt_le_trans with ((stop - start) / - step); [|apply Qle_ceiling]. rewrite EQ. apply qlt_div_iff; [exact Hs|].
      unfold qz in E. lra. }
    rewrite <- Zlt_Qlt in P. cbn. lia.
Qed.

Lemma needed_iff b lo h : (forall x, In x (bd_peak b) -> 0 <= x) -> min_run_hr b = Ok lo -> (lo < h <-> storage_needed b h).
Proof.
  intros Sh H. destruct (min_run_spec _ _ Sh H) as (x & I & E). pose proof (min_run_pos _ _ Sh H) as LO.
  assert (X0 : 0 < x).
  { destruct (Qlt_le_dec 0 x) as [P|P]; [exact P|]. exfalso. assert (Z : x == 0) by (specialize (Sh x I); lra). rewrite Z in E. lra. }
  split.
  - intro L. exists x. split; [exact I|]. rewrite <- E. apply Qmult_lt_compat_r; assumption.
  - intros (y & Iy & Ly). assert (h0 : 0 < h).
    { destruct (Qlt_le_dec 0 h) as [P|P]; [exact P|]. exfalso. specialize (Sh y Iy).
      assert (h * y <= 0 * y) by (apply Qmult_le_compat_r; assumption). lra. }
    destruct (min_run_below b y h Sh Iy h0 Ly) as (lo' & L1 & L2). rewrite H in L1. apply ok_inj in L1. subst lo'. exact L2.
Qed.

Lemma shows_app l1 l2 h : shows (l1 ++ l2) h <-> shows l1 h \/ shows l2 h.
Proof.
  unfold shows. split.
  - intros (x & I & E). apply in_app_or in I. destruct I; [left|right]; exists x; auto.
  - intros [(x & I & E)|(x & I & E)]; exists x; rewrite in_app_iff; auto.
Qed.

Lemma swept_list b run step lo a1 a2 h : 0 < step -> (forall x, In x (bd_peak b) -> 0 <= x) -> min_run_hr b = Ok lo ->
  arange 24 run (- step) = Ok a1 -> arange run lo (- step) = Ok a2 -> (shows (a1 ++ a2) h <-> swept b run step h).
Proof.
  intros Hs Sh Hlo A1 A2. rewrite shows_app, (arange_shows _ _ _ _ h Hs A1), (arange_shows _ _ _ _ h Hs A2). unfold swept.
  split; (intros [X|(k & E & L)]; [left; exact X|right; exists k; split; [exact E|]]); apply (needed_iff _ _ h Sh Hlo); exact L.
Qed.

Lemma sd_head l : forall x, strictly_decreasing (x :: l) -> forall y, In y l -> y < x.
Proof.
  induction l as [|z l IH]; intros x H y I; [destruct I|]. destruct H as [H1 H2]. destruct I as [<-|I]; [exact H1|].
  pose proof (IH _ H2 _ I). lra.
Qed.

Lemma sd_cross l1 l2 : strictly_decreasing (l1 ++ l2) -> forall x y, In x l1 -> In y l2 -> y < x.
Proof.
  induction l1 as [|z l1 IH]; intros H x y I J; [destruct I|]. destruct I as [<-|I].
  - apply (sd_head (l1 ++ l2)); [exact H|]. apply in_or_app. right. exact J.
  - apply IH; try assumption. cbn [app] in H. destruct (l1 ++ l2) eqn:E; [apply app_eq_nil in E; destruct E as [-> _]; destruct I|]. exact (proj2 H).
Qed.

(** For every class of system: the hours shown are among those swept, and none above a shown one is left out. *)
Theorem C41_no_gap : forall K lib s b b1 cmap slope step s' b' cv,
  0 < step -> (if bd_is_annual b then bd_set_daily lib b else Ok b) = Ok b1 -> (forall x, In x (bd_peak b1) -> 0 <= x) ->
  sizing_curve K lib s b cmap slope step = (s', b', Ok cv) -> dh_run s <= 24 ->
  (forall h, shows (cv_hours cv) h -> swept b1 (dh_run s) step h) /\
  (forall h h', shows (cv_hours cv) h -> swept b1 (dh_run s) step h' -> h <= h' -> shows (cv_hours cv) h').
Proof.
  intros K lib s b b1 cmap slope step s' b' cv Hs Hb Sh H R24.
  destruct (curve_inv _ _ _ _ _ _ _ _ _ _ H) as (bb & inl & f & lo & a1 & a2 & s2 & pts & Hb' & Hi' & Hf' & Hlo & A1 & A2 & L & E).
  rewrite Hb in Hb'. apply ok_inj in Hb'. subst bb. subst cv. cbn [cv_hours].
  destruct (curve_loop_points _ _ _ _ _ _ _ L) as (P1 & P2 & _). rewrite P1.
  assert (SD : strictly_decreasing (a1 ++ a2)).
  { destruct (arange_desc _ _ _ _ Hs A1) as (D1 & I1 & _). destruct (arange_desc _ _ _ _ Hs A2) as (D2 & I2 & _).
    apply sd_app; [exact D1|exact D2|]. intros x y Ix Iy. destruct (I1 _ Ix). destruct (I2 _ Iy). lra. }
  split.
  - intros h (x & I & Ex). apply (swept_list b1 (dh_run s) step lo a1 a2 h Hs Sh Hlo A1 A2). exists x. split; [|exact Ex].
    rewrite <- (firstn_skipn (length pts) (a1 ++ a2)). apply in_or_app. left. exact I.
  - intros h h' (x & I & Ex) W Le. apply (swept_list b1 (dh_run s) step lo a1 a2 h' Hs Sh Hlo A1 A2) in W. destruct W as (y & Iy & Ey).
    exists y. split; [|exact Ey]. rewrite <- (firstn_skipn (length pts) (a1 ++ a2)) in Iy. apply in_app_or in Iy. destruct Iy as [Iy|Iy]; [exact Iy|exfalso].
    rewrite <- (firstn_skipn (length pts) (a1 ++ a2)) in SD. pose proof (sd_cross _ _ SD _ _ I Iy). lra.
Qed.
Print Assumptions C41_no_gap.

(** The pooled systems show them all. *)
Lemma pooled_shows K lib s b cmap slope step heat inlet f : 0 < step -> daily_shape b -> pooled_class K s b heat ->
  0 < dh_run s -> dh_run s <= 24 -> storage_needed b (dh_run s) -> design_inlet b = Ok inlet ->
  strat_factor s cmap (slope_or s slope) inlet = Ok f -> 0 < f ->
  exists cv, sizing_curve K lib s b cmap slope step = (s, b, Ok cv) /\ forall h, shows (cv_hours cv) h <-> swept b (dh_run s) step h.
Proof.
  intros Hst DS PK R0 R24 (x0 & Ix0 & Hx0) Hi Hf F0. pose proof DS as [L24 Sh Sq Hd].
  destruct (min_run_below b x0 (dh_run s) Sh Ix0 R0 Hx0) as (lo & Hlo & LR).
  destruct (pooled_curve _ lib _ _ cmap slope _ _ _ _ _ Hst DS PK R0 R24 Hi Hf F0 Hlo LR) as (cv & h0 & c0 & CV & _).
  exists cv. split; [exact CV|].
  destruct (curve_inv _ _ _ _ _ _ _ _ _ _ CV) as (bb & inl & f' & lo' & a1 & a2 & s2 & pts & Hb' & Hi' & Hf' & Hlo' & A1 & A2 & L & E).
  rewrite (daily_not_annual _ L24) in Hb'. apply ok_inj in Hb'. subst bb. rewrite Hlo in Hlo'. apply ok_inj in Hlo'. subst lo'.
  rewrite Hi in Hi'. apply ok_inj in Hi'. subst inl. rewrite Hf in Hf'. apply ok_inj in Hf'. subst f'.
  intro h. rewrite <- (swept_list b (dh_run s) step lo a1 a2 h Hst Sh Hlo A1 A2). subst cv. cbn [cv_hours].
  destruct (curve_loop_points _ _ _ _ _ _ _ L) as (P1 & P2 & _). rewrite P1.
  destruct (arange_desc _ _ _ _ Hst A1) as (_ & I1 & _). destruct (arange_desc _ _ _ _ Hst A2) as (_ & I2 & _).
  pose proof (min_run_pos _ _ Sh Hlo) as LO. destruct (min_run_spec _ _ Sh Hlo) as (x & Ix & Hx).
  assert (X0 : 0 < x).
  { destruct (Qlt_le_dec 0 x) as [P|P]; [exact P|]. exfalso. assert (Z : x == 0) by (specialize (Sh x Ix); lra). rewrite Z in Hx. lra. }
  assert (CP : forall h, In h (a1 ++ a2) -> exists o, curve_point K (dh_set_run s h) b f = Ok (Some o)).
  { intros k I. assert (LK : lo < k <= 24) by (apply in_app_or in I; destruct I as [I|I]; [destruct (I1 _ I)|destruct (I2 _ I)]; lra).
    assert (k0 : 0 < k) by lra. destruct PK as [PC PR]. destruct (PC _ k0) as (c & C & _). exists (c, running_at b k / f).
    unfold curve_point. rewrite C. cbn [bind]. rewrite (PR k c k0). cbn [bind].
    assert (RP : 0 < running_at b k).
    { apply running_at_pos with x; try assumption; try lra. apply Qlt_trans with (lo * x); [rewrite Hx; reflexivity|]. apply Qmult_lt_compat_r; lra. }
    destruct (Qeq_bool (running_at b k) 0) eqn:Z; [apply Qeq_bool_iff in Z; lra|]. unfold storage_volume. rewrite qdiv_ok by lra. reflexivity. }
  destruct (loop_total K b f (a1 ++ a2) s) as (s3 & pts' & L' & N); [intros k I; destruct (CP k I) as (o & O); eauto|].
  rewrite L in L'. apply pair_equal_spec in L'. destruct L' as [_ L']. apply ok_inj in L'. subst pts'.
  assert (PL : length pts = length (a1 ++ a2)).
  { apply Nat.le_antisymm; [exact P2|]. apply N; [lia|]. rewrite firstn_all. exact CP. }
  rewrite PL, firstn_all. reflexivity.
Qed.

(** No-recirculation and parallel systems, and single-pass return to primary: the curve succeeds and shows
    exactly the hours swept. *)
Theorem C41_complete : forall lib s b cmap slope step inlet f K,
  K = base_klass \/ (exists ret flow, K = sprtp_klass ret flow) ->
  0 < step -> daily_shape b -> design_inlet b = Ok inlet -> inlet < dh_supply s -> 0 < dh_defrost s ->
  0 < dh_run s -> dh_run s <= 24 -> storage_needed b (dh_run s) ->
  strat_factor s cmap (slope_or s slope) inlet = Ok f -> 0 < f ->
  exists cv, sizing_curve K lib s b cmap slope step = (s, b, Ok cv) /\ forall h, shows (cv_hours cv) h <-> swept b (dh_run s) step h.
Proof.
  intros lib s b cmap slope step inlet f K HK Hst DS Hi I1 F0 R0 R24 SN Hf FP.
  assert (PK : exists heat, pooled_class K s b heat).
  { destruct HK as [->|(ret & flow & ->)]; eexists; [apply base_pooled|apply sprtp_pooled]; try eassumption; exact (ds_demand _ DS). }
  destruct PK as (heat & PK). eapply pooled_shows; eassumption.
Qed.
Print Assumptions C41_complete.

(** ** Swing-tank systems *)

Theorem C41_swing_no_gap : forall lib s b b1 cmap slope step s' b' cv,
  0 < step -> (if bd_is_annual b then bd_set_daily lib b else Ok b) = Ok b1 -> (forall x, In x (bd_peak b1) -> 0 <= x) ->
  swing_sizing_curve lib s b cmap slope step = (s', b', Ok cv) -> dh_run (sw_dhw s) <= 24 ->
  (forall h, shows (cv_hours cv) h -> swept b1 (dh_run (sw_dhw s)) step h) /\
  (forall h h', shows (cv_hours cv) h -> swept b1 (dh_run (sw_dhw s)) step h' -> h <= h' -> shows (cv_hours cv) h').
Proof.
  intros lib s b b1 cmap slope step s' b' cv Hs Hb Sh H R24.
  destruct (swing_curve_inv _ _ _ _ _ _ _ _ _ H) as (bb & inl & f & lo & a1 & a2 & s2 & pts & Hb' & Hi' & Hf' & Hlo & A1 & A2 & L & E).
  rewrite Hb in Hb'. apply ok_inj in Hb'. subst bb. subst cv. cbn [cv_hours].
  destruct (curve_loop_points_sw _ _ _ _ _ _ L) as ((tl & P1) & _).
  assert (SD : strictly_decreasing (a1 ++ a2)).
  { destruct (arange_desc _ _ _ _ Hs A1) as (D1 & I1 & _). destruct (arange_desc _ _ _ _ Hs A2) as (D2 & I2 & _).
    apply sd_app; [exact D1|exact D2|]. intros x y Ix Iy. destruct (I1 _ Ix). destruct (I2 _ Iy). lra. }
  split.
  - intros h (x & I & Ex). apply (swept_list b1 _ step lo a1 a2 h Hs Sh Hlo A1 A2). exists x. split; [|exact Ex].
    rewrite P1. apply in_or_app. left. exact I.
  - intros h h' (x & I & Ex) W Le. apply (swept_list b1 _ step lo a1 a2 h' Hs Sh Hlo A1 A2) in W. destruct W as (y & Iy & Ey).
    exists y. split; [|exact Ey]. rewrite P1 in Iy. apply in_app_or in Iy. destruct Iy as [Iy|Iy]; [exact Iy|exfalso].
    rewrite P1 in SD. pose proof (sd_cross _ _ SD _ _ I Iy). lra.
Qed.
Print Assumptions C41_swing_no_gap.

(** With a swing tank that covers the loop and is not outrun within a minute, they all are shown. *)
Theorem C41_swing_complete : forall lib s b cmap slope step inlet f vol cap,
  0 < step -> daily_shape b -> design_inlet b = Ok inlet ->
  strat_factor (sw_dhw s) cmap (slope_or (sw_dhw s) slope) inlet = Ok f -> ~ f == 0 ->
  inlet < dh_supply (sw_dhw s) -> dh_supply (sw_dhw s) <= dh_storage (sw_dhw s) ->
  ~ dh_defrost (sw_dhw s) == 0 -> 0 <= sw_loss s -> 0 < dh_run (sw_dhw s) -> dh_run (sw_dhw s) <= 24 ->
  sw_tm_vol s = Some vol -> sw_tm_cap s = Some cap -> 0 < vol -> sw_loss s <= cap ->
  (forall x, In x (bd_peak b) -> bd_daily b * x < 60 * vol) -> storage_needed b (dh_run (sw_dhw s)) ->
  exists s' cv, swing_sizing_curve lib s b cmap slope step = (s', b, Ok cv) /\
    forall h, shows (cv_hours cv) h <-> swept b (dh_run (sw_dhw s)) step h.
Proof.
  intros lib s b cmap slope step inlet f vol cap Hst DS Hi Hf Nf Hin Hsu Nd Hl R0 R24 EV EC V0 LC SH (x0 & Ix0 & Hx0).
  pose proof DS as [L24 Sh Sq Hd]. destruct (min_run_below b x0 _ Sh Ix0 R0 Hx0) as (lo & Hlo & LR).
  destruct (swing_curve_mark lib s b cmap slope step inlet f lo vol cap) as (s' & cv & h0 & c0 & rv & mix & CV & _); try assumption.
  exists s', cv. split; [exact CV|].
  destruct (swing_curve_inv _ _ _ _ _ _ _ _ _ CV) as (bb & inl & f' & lo' & a1 & a2 & s2 & pts & Hb' & Hi' & Hf' & Hlo' & A1 & A2 & L & E).
  rewrite (daily_not_annual _ L24) in Hb'. apply ok_inj in Hb'. subst bb. rewrite Hlo in Hlo'. apply ok_inj in Hlo'. subst lo'.
  rewrite Hi in Hi'. apply ok_inj in Hi'. subst inl. rewrite Hf in Hf'. apply ok_inj in Hf'. subst f'.
  intro h. rewrite <- (swept_list b _ step lo a1 a2 h Hst Sh Hlo A1 A2). subst cv. cbn [cv_hours].
  destruct (arange_desc _ _ _ _ Hst A1) as (_ & I1 & _). destruct (arange_desc _ _ _ _ Hst A2) as (_ & I2 & _).
  pose proof (min_run_pos _ _ Sh Hlo) as LO. destruct (min_run_spec _ _ Sh Hlo) as (x & Ix & Hx).
  assert (X0 : 0 < x).
  { destruct (Qlt_le_dec 0 x) as [P|P]; [exact P|]. exfalso. assert (Z : x == 0) by (specialize (Sh x Ix); lra). rewrite Z in Hx. lra. }
  set (v := mkEnv (dh_supply (sw_dhw s)) (dh_storage (sw_dhw s)) inlet (sw_loss s) vol cap).
  destruct (swing_loop_all b f v inlet Hi Nf Sq (a1 ++ a2) s Nd) as (s1 & pts' & L' & PL).
  { unfold env_of. rewrite EV, EC. reflexivity. }
  { intros k I. assert (LK : lo < k <= 24) by (apply in_app_or in I; destruct I as [I|I]; [destruct (I1 _ I)|destruct (I2 _ I)]; lra). destruct LK as [Lh Uh]. split.
    - constructor; cbn [v sv_vol sv_loss sv_cap sv_inlet sv_supply sv_storage]; try assumption; [lra|].
      intros y Y. split; [apply Sh; exact Y|apply SH; exact Y].
    - apply onset_exists with x; auto; [lra|]. apply Qlt_trans with (lo * x); [rewrite Hx; reflexivity|]. apply Qmult_lt_compat_r; assumption. }
  rewrite L in L'. apply pair_equal_spec in L'. destruct L' as [_ L']. apply ok_inj in L'. subst pts'.
  destruct (curve_loop_points_sw _ _ _ _ _ _ L) as ((tl & P1) & _).
  assert (TL : tl = []).
  { apply (f_equal (@length Q)) in P1. rewrite <- PL, app_length, map_length in P1. destruct tl; [reflexivity|cbn in P1; lia]. }
  rewrite TL, app_nil_r in P1. rewrite <- P1. reflexivity.
Qed.
Print Assumptions C41_swing_complete.

(** The example of C41: 1000 gallons on four peak hours, 16 configured hours, steps of four. *)
Example C41_complete_case : exists cv inlet f,
  sizing_curve base_klass ex_lib ex_dhw ex_building ex_map 2 4 = (ex_dhw, ex_building, Ok cv) /\
  (forall h, shows (cv_hours cv) h <-> swept ex_building 16 4 h) /\ shows (cv_hours cv) 12 /\ ~ shows (cv_hours cv) 8 /\
  daily_shape ex_building /\ storage_needed ex_building 16 /\ design_inlet ex_building = Ok inlet /\
  strat_factor ex_dhw ex_map 2 inlet = Ok f /\ 0 < f.
Proof.
  assert (DS : daily_shape ex_building).
  { split; try reflexivity; [|discriminate]. intros x I. cbn in I. repeat (destruct I as [<-|I]; [discriminate|]). destruct I. }
  assert (SN : storage_needed ex_building 16) by (exists (1 # 8); split; [cbn; tauto|reflexivity]).
  destruct (strat_factor ex_dhw ex_map 2 50) as [f|] eqn:F; [|discriminate].
  assert (FP : 0 < f) by (vm_compute in F; apply ok_inj in F; subst f; reflexivity).
  assert (DI : design_inlet ex_building = Ok 50) by (vm_compute; reflexivity).
  destruct (C41_complete ex_lib ex_dhw ex_building ex_map 2 4 50 f base_klass (or_introl eq_refl) (eq_refl : 0 < 4) DS DI (eq_refl : 50 < 120)
    (eq_refl : 0 < 1) (eq_refl : 0 < 16) ltac:(discriminate) SN F FP) as (cv & CV & SH).
  exists cv, 50, f. split; [exact CV|]. split; [exact SH|]. split.
  - apply SH. right. exists 1%nat. split; [reflexivity|]. exists (1 # 8). split; [cbn; tauto|reflexivity].
  - split; [|auto]. rewrite SH. intros [(k & _ & L)|(k & _ & x & I & X)]; [vm_compute in L; discriminate|].
    cbn in I. repeat (destruct I as [<-|I]; [vm_compute in X; discriminate|]). destruct I.
Qed.

(** The same for the swing system of C43 after its sizing chose 50 gallons, in steps of half an hour. *)
Example C41_swing_complete_case : exists s' cv,
  let s := sw_set_tm sw_system 50 80 (45109089000000 # 2000000000000) in
  swing_sizing_curve sw_lib s sw_building sw_controls 2 (1 # 2) = (s', sw_building, Ok cv) /\
  (forall h, shows (cv_hours cv) h <-> swept sw_building 16 (1 # 2) h) /\ shows (cv_hours cv) (31 # 2) /\ ~ shows (cv_hours cv) 15.
Proof.
  destruct (strat_factor (sw_dhw sw_system) sw_controls 2 50) as [f|] eqn:F; [|vm_compute in F; discriminate].
  assert (FP : ~ f == 0) by (vm_compute in F; apply ok_inj in F; subst f; discriminate).
  assert (DI : design_inlet sw_building = Ok 50) by (vm_compute; reflexivity).
  assert (DS : daily_shape sw_building).
  { constructor; [reflexivity| |vm_compute; discriminate|reflexivity]. intros x I. cbn in I. repeat (destruct I as [<-|I]; [discriminate|]). destruct I. }
  set (s := sw_set_tm sw_system 50 80 (45109089000000 # 2000000000000)).
  assert (L0 : 0 <= sw_loss s) by (vm_compute; discriminate).
  assert (LC : sw_loss s <= 45109089000000 # 2000000000000) by (vm_compute; discriminate).
  assert (NC : storage_needed sw_building 16) by (exists (1 # 15); split; [cbn; tauto|reflexivity]).
  destruct (C41_swing_complete sw_lib s sw_building sw_controls 2 (1 # 2) 50 f 50 (45109089000000 # 2000000000000)
    (eq_refl : 0 < 1 # 2) DS DI F FP (eq_refl : 50 < 120) ltac:(discriminate) ltac:(discriminate) L0 (eq_refl : 0 < 16) ltac:(discriminate)
    eq_refl eq_refl (eq_refl : 0 < 50) LC) as (s' & cv & CV & SH).
  - intros x X. unfold sw_building, sw_shape in X. cbn in X. repeat (destruct X as [<-|X]; [reflexivity|]). destruct X.
  - exact NC.
  - exists s', cv. cbv zeta. split; [exact CV|]. split; [exact SH|]. split; [|rewrite SH].
    + apply SH. right. exists 1%nat. split; [reflexivity|]. exists (1 # 15). split; [cbn; tauto|reflexivity].
    + intros [(k & _ & L)|(k & _ & x & I & X)]; [vm_compute in L; discriminate|].
      cbn in I. repeat (destruct I as [<-|I]; [vm_compute in X; discriminate|]). destruct I.
Qed.
