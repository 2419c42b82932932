(** Theorems added after a third round of mutation testing: load shifting of return-to-primary systems,
    the names of the months, the mixed tank's draw, the annual estimate. *)
From Verif Require Import Prelude M_StratifiedTank M_MixedTank M_EnergyTank M_Building M_Utility M_Heater S_Heater M_Sizing S_Sizing L_Building L_Sizing L_Sizing2 L_Sizing3 L_Sizing4 S_Building S_Integral L_Integral
  M_SimRun S_SimRun L_SimMisc M_Step M_Swing M_MPRTP M_Engine S_Engine S_EngineSize L_Engine L_Engine2 L_Engine3 L_Engine5 L_Engine8 M_Plot S_Plot S_Tighten2 P_Sizing P_SimRun P_Tighten P_Engine P_Engine2 P_Engine7.
Open Scope Q_scope.

(** ** C39, C37: load shifting with the loop returning to the primary tank *)

(** What a successful load-shift sizing of a single-pass return-to-primary system computed. *)
Lemma loop_size_inv ret flow lib s b b1 sc d slope fract s' b' w inlet :
  (if bd_is_annual b then bd_set_daily lib b else Ok b) = Ok b1 -> design_inlet b1 = Ok inlet ->
  sc <> [] -> dict_get d "shed" <> None ->
  dhw_size (sprtp_klass ret flow) lib s b (Some sc) (Some d) slope fract = (s', b', Ok w) ->
  exists h L c0 lcap g lrv st lst,
    h = qmin (dh_run s) (non_shed_hours sc) /\ ~ h == 0 /\ ~ dh_defrost s == 0 /\ 
    L * rho_cp * (dh_supply s - inlet) == daily_loss (dh_supply s) ret flow /\
    base_gen_ls (dh_set_run s h) sc d (bd_set_magnitude b1 (bd_daily b1 + L)) slope fract = Ok g /\
    base_running_ls sc (bd_set_magnitude b1 (bd_daily b1 + L)) g fract = Ok lrv /\
    lcap * (1000 * dh_defrost s * h) == g * h * rho_cp * (dh_supply s - inlet) + daily_loss (dh_supply s) ret flow /\
    storage_volume_ls s lrv d slope inlet = Ok lst /\
    dh_min_cap s' = Some (qmax c0 lcap) /\ dh_min_stor s' = Some (qmax st lst).
Proof.
  intros Hb Hi Nsc Nd H.
  assert (LA : ls_active (Some sc) (Some d) = true).
  { unfold ls_active, is_load_shifting, dict_has. destruct sc; [congruence|]. destruct (dict_get d "shed"); [reflexivity|congruence]. }
  destruct (size_ok_inv _ _ _ _ _ _ _ _ _ _ _ H) as (b1' & cap & stor & E1 & E2 & ->).
  rewrite Hb in E1. apply ok_inj in E1. subst b1'.
  unfold cap_run in E2. rewrite LA in E2. set (h := qmin (dh_run s) (non_shed_hours sc)) in *.
  destruct (size_values_inv _ _ _ _ _ _ _ _ _ E2) as (i & c0 & rv & f & st & A & B & C & D & E & [(F & _)|X]); [congruence|].
  rewrite Hi in A. apply ok_inj in A. subst i.
  destruct X as (sc' & d' & lcap & g & lrv & lst & Q1 & Q2 & _ & Q3 & Q4 & Q5 & Q6 & -> & ->).
  injection Q1 as <-. injection Q2 as <-.
  cbn [k_capacity k_capacity_ls k_gen_ls k_running_ls sprtp_klass] in B, Q3, Q4, Q5.
  unfold sprtp_gen_ls, sprtp_gen_ls_st in Q4. unfold sprtp_running_ls, sprtp_running_ls_st in Q5.
  destruct (recirc_daily_gal ret flow (dh_set_run s h) b1) as [L|e] eqn:ER; [|discriminate Q4].
  cbn [with_boost snd] in Q4, Q5. cbv zeta in Q4, Q5. cbn [snd] in Q4, Q5.
  assert (RR : L * rho_cp * (dh_supply s - inlet) == daily_loss (dh_supply s) ret flow).
  { unfold daily_loss. unfold recirc_daily_gal in ER. rewrite Hi in ER. cbn [bind dh_supply dh_set_run] in ER. destruct (bind_ok _ _ _ ER) as (x & Ex & E3). apply qdiv_inv in Ex. destruct Ex as (N & Ex). apply ok_inj in E3.
    rewrite <- E3, Ex. unfold recirc_loss. cbn [dh_supply dh_set_run].
    transitivity (flow * 60 * rho_cp * (dh_supply s - ret) / 1000 * 1000 / (rho_cp * (dh_supply s - inlet)) * (rho_cp * (dh_supply s - inlet)) * 24); [ring|]. rewrite qdiv_mul by exact N. field. }
  unfold sprtp_capacity_ls in Q3. destruct (bind_ok _ _ _ Q3) as (lc & L1 & L2). destruct (bind_ok _ _ _ L2) as (rc' & L3 & L4). apply ok_inj in L4.
  unfold capacity_of_gen in L1. rewrite Hi in L1. cbn [bind] in L1. unfold sprtp_gen_ls, sprtp_gen_ls_st in L1. rewrite ER in L1. cbn [with_boost snd] in L1. cbv zeta in L1. cbn [snd] in L1. rewrite Q4 in L1. cbn [bind dh_supply dh_defrost dh_set_run] in L1.
  destruct (bind_ok _ _ _ L1) as (x & Ex & E3). apply qdiv_inv in Ex. destruct Ex as (DF & Ex). apply ok_inj in E3.
  unfold recirc_capacity in L3. cbn [dh_set_run dh_run dh_supply dh_defrost] in L3. destruct (bind_ok _ _ _ L3) as (y & Ey & L5). apply qdiv_inv in Ey. destruct Ey as (R & Ey). rewrite qdiv_ok in L5 by exact DF. apply ok_inj in L5.
  exists h, L, c0, lcap, g, lrv, st, lst. split; [reflexivity|]. split; [exact R|]. split; [exact DF|]. split; [exact RR|]. split; [exact Q4|]. split; [exact Q5|].
  split. { rewrite <- L4, <- E3, Ex, <- L5, Ey. unfold recirc_loss, daily_loss. cbn [dh_supply dh_set_run]. field. split; assumption. }
  split; [exact Q6|]. split; reflexivity.
Qed.

(** With [L] gallons of supply water a day for the loop, the tank charged before the first shed hours
    covers use and loop through them, and afterwards until it is full again. *)
Theorem C39_loop_shed_window : forall ret flow lib s b b1 sc d slope fract s' b' w inlet lc nc shc lx sx,
  (if bd_is_annual b then bd_set_daily lib b else Ok b) = Ok b1 ->
  sc <> [] -> dict_get d "shed" = Some shc -> dict_get d "normal" = Some nc -> used_in_load_up d lc ->
  dhw_size (sprtp_klass ret flow) lib s b (Some sc) (Some d) slope fract = (s', b', Ok w) ->
  design_inlet b1 = Ok inlet -> inlet < dh_supply s -> ret <= dh_supply s -> 0 <= flow -> 0 < dh_defrost s -> 0 < dh_run s ->
  0 <= fract -> 0 <= bd_daily b1 -> (forall x, In x (bd_avg b1) -> 0 <= x) ->
  supply_gal_100 s (ct_off_sensor lc) (ct_off_trigger lc) slope inlet = Ok lx ->
  supply_gal_100 s (ct_on_sensor shc) (ct_on_trigger shc) slope inlet = Ok sx ->
  sx < lx ->
  exists V C gen a k L h, dh_min_stor s' = Some V /\ dh_min_cap s' = Some C /\
    L * rho_cp * (dh_supply s - inlet) == daily_loss (dh_supply s) ret flow /\
    h == qmin (dh_run s) (hours_outside_shed sc) /\
    gen * h * rho_cp * (dh_supply s - inlet) + daily_loss (dh_supply s) ret flow <= C * 1000 * dh_defrost s * h /\
    is_first_shed_run sc a k /\
    let left := level (V * ((lx - sx) / 100)) (fun t => fract * shed_gen sc gen t)
                  (fun t => fract * demand_at (bd_daily b1 + L) (bd_avg b1) t) a in
    (forall n, (n <= k)%nat -> 0 <= left n) /\
    (forall n, (k < n)%nat -> (a + n <= 48)%nat -> 0 <= left n \/ exists j, (k < j < n)%nat /\ left j == V * ((lx - sx) / 100)).
Proof.
  intros ret flow lib s b b1 sc d slope fract s' b' w inlet lc nc shc lx sx Hb N1 Gs Gn U H Hi Hs HR HF Hdf HH F0 D0 Sh Lx Sx LS.
  assert (N2 : dict_get d "shed" <> None) by congruence.
  assert (E : ctl_load_up d nc = lc) by (unfold ctl_load_up; destruct U as [->|[-> U]]; [reflexivity|congruence]).
  destruct (loop_size_inv _ _ _ _ _ _ _ _ _ _ _ _ _ _ Hb Hi N1 N2 H) as (h & L & c0 & lcap & g & lrv & st & lst & EH & HN & DZ & RR & G & R & LC & T & M1 & M2).
  unfold storage_volume_ls in T. unfold ctl in T. rewrite Gn, Gs in T. cbn [bind] in T. rewrite E, Lx, Sx in T. cbn [bind] in T.
  unfold storage_volume in T. apply qdiv_inv in T. destruct T as [BZ ET].
  set (band := (lx - sx) / 100) in *.
  assert (B0 : 0 < band) by (unfold band; apply qdiv_pos; lra).
  assert (RV : lrv <= qmax st lst * band).
  { apply qdiv_le_iff; [exact B0|]. rewrite <- ET. apply qmax_r. }
  assert (RP : 0 < rho_cp) by reflexivity.
  assert (L0 : 0 <= L).
  { assert (P : 0 < rho_cp * (dh_supply s - inlet)) by (apply qmul_pos; lra).
    assert (Z : 0 * (rho_cp * (dh_supply s - inlet)) <= L * (rho_cp * (dh_supply s - inlet))).
    { setoid_replace (L * (rho_cp * (dh_supply s - inlet))) with (daily_loss (dh_supply s) ret flow) by (rewrite <- RR; ring).
      setoid_replace (0 * (rho_cp * (dh_supply s - inlet))) with 0 by ring. unfold daily_loss.
      apply qmul_nonneg; [|lra]. apply qmul_nonneg; [|lra]. lra. }
    apply Qmult_le_r in Z; [exact Z|exact P]. }
  destruct (shed_covered _ _ _ _ _ _ R F0 ltac:(cbn [bd_daily bd_set_magnitude]; lra) Sh RV) as (a & k & P1 & P2 & P3).
  cbn [bd_daily bd_avg bd_set_magnitude] in P2, P3.
  assert (H0 : 0 < h).
  { pose proof (non_shed_nonneg sc) as NN. rewrite EH in *. destruct (qmin_spec (dh_run s) (non_shed_hours sc)) as [[X Y]|[X Y]]; rewrite Y in *; [exact HH|].
    destruct (Qlt_le_dec 0 (non_shed_hours sc)); [assumption|]. exfalso. apply HN. lra. }
  exists (qmax st lst), (qmax c0 lcap), g, a, k, L, h. split; [exact M2|]. split; [exact M1|]. split; [exact RR|].
  split. { rewrite EH. pose proof (C39_run_hours sc) as NS. revert NS. generalize (non_shed_hours sc) (hours_outside_shed sc). intros x y NS.
    destruct (qmin_spec (dh_run s) x) as [[? ->]|[? ->]], (qmin_spec (dh_run s) y) as [[? ->]|[? ->]]; lra. }
  split; [|cbv zeta; auto].
  rewrite <- LC.
  assert (P : 0 < 1000 * dh_defrost s * h) by (apply qmul_pos; lra).
  assert (X : lcap * (1000 * dh_defrost s * h) <= qmax c0 lcap * (1000 * dh_defrost s * h)) by (apply Qmult_le_compat_r; [apply qmax_r|lra]).
  lra.
Qed.
Print Assumptions C39_loop_shed_window.

(** Load shifting counts the heat of the loop twice: in the demand raised by the loop's daily volume, and
    again on top. *)
Theorem C37_loop_counted_twice : forall ret flow lib s b b1 sc d slope fract s' b' w inlet,
  (if bd_is_annual b then bd_set_daily lib b else Ok b) = Ok b1 ->
  sc <> [] -> dict_get d "shed" <> None ->
  dhw_size (sprtp_klass ret flow) lib s b (Some sc) (Some d) slope fract = (s', b', Ok w) ->
  design_inlet b1 = Ok inlet -> inlet < dh_supply s -> 0 < dh_defrost s -> 0 < dh_run s ->
  exists C h, dh_min_cap s' = Some C /\ h == qmin (dh_run s) (hours_outside_shed sc) /\
    daily_heat b1 (dh_supply s) inlet + 2 * daily_loss (dh_supply s) ret flow <= C * 1000 * dh_defrost s * h.
Proof.
  intros ret flow lib s b b1 sc d slope fract s' b' w inlet Hb N1 N2 H Hi Hs Hdf HH.
  destruct (loop_size_inv _ _ _ _ _ _ _ _ _ _ _ _ _ _ Hb Hi N1 N2 H) as (h & L & c0 & lcap & g & lrv & st & lst & EH & HN & DZ & RR & G & _ & LC & _ & M1 & _).
  assert (H0 : 0 < h).
  { pose proof (non_shed_nonneg sc) as NN. rewrite EH in *. destruct (qmin_spec (dh_run s) (non_shed_hours sc)) as [[X Y]|[X Y]]; rewrite Y in *; [exact HH|].
    destruct (Qlt_le_dec 0 (non_shed_hours sc)); [assumption|]. exfalso. apply HN. lra. }
  exists (qmax c0 lcap), h. split; [exact M1|].
  split. { rewrite EH. pose proof (C39_run_hours sc) as NS. revert NS. generalize (non_shed_hours sc) (hours_outside_shed sc). intros x y NS.
    destruct (qmin_spec (dh_run s) x) as [[? ->]|[? ->]], (qmin_spec (dh_run s) y) as [[? ->]|[? ->]]; lra. }
  assert (RP : 0 < rho_cp) by reflexivity.
  destruct (gen_ls_inv _ _ _ _ _ _ _ G) as [P _]. cbn [bd_daily bd_set_magnitude dh_run dh_set_run] in P.
  assert (P' : bd_daily b1 + L <= g * h) by (apply qdiv_le_iff; assumption).
  assert (K : 0 < rho_cp * (dh_supply s - inlet)) by (apply qmul_pos; lra).
  assert (X : (bd_daily b1 + L) * (rho_cp * (dh_supply s - inlet)) <= g * h * (rho_cp * (dh_supply s - inlet))) by (apply Qmult_le_compat_r; lra).
  assert (PP : 0 < 1000 * dh_defrost s * h) by (apply qmul_pos; lra).
  assert (Y : lcap * (1000 * dh_defrost s * h) <= qmax c0 lcap * (1000 * dh_defrost s * h)) by (apply Qmult_le_compat_r; [apply qmax_r|lra]).
  unfold daily_heat. lra.
Qed.
Print Assumptions C37_loop_counted_twice.

Example C39_loop_case : exists s' w V C lx sx,
  dhw_size (sprtp_klass 110 3) ex_lib ex_dhw ex_building (Some ex_ls_sched) (Some ex_lu_map) 2 1 = (s', ex_building, Ok w) /\
  dh_min_stor s' = Some V /\ dh_min_cap s' = Some C /\ 0 < V /\ 0 < C /\ used_in_load_up ex_lu_map ex_lu_controls /\
  supply_gal_100 ex_dhw (ct_off_sensor ex_lu_controls) (ct_off_trigger ex_lu_controls) 2 50 = Ok lx /\
  supply_gal_100 ex_dhw (ct_on_sensor ex_shed_controls) (ct_on_trigger ex_shed_controls) 2 50 = Ok sx /\ sx < lx.
Proof.
  destruct (dhw_size (sprtp_klass 110 3) ex_lib ex_dhw ex_building (Some ex_ls_sched) (Some ex_lu_map) 2 1) as [[s1' b1'] o1] eqn:E1.
  vm_compute in E1. inversion E1; subst. do 6 eexists. split; [reflexivity|]. split; [reflexivity|]. split; [reflexivity|].
  split; [vm_compute; reflexivity|]. split; [vm_compute; reflexivity|]. split; [left; reflexivity|].
  split; [vm_compute; reflexivity|]. split; vm_compute; reflexivity.
Qed.

(** ** C67: the engine's single-pass return-to-primary system *)

(** A tank charged before the first shed hours lasts through them with the loop running: it does not fall
    below its shed setting before they are over, nor afterwards, up to the end of the following day, until
    it has been full again. *)
Theorem C67_loop_shed_window : forall dt p b e ls inlet fs ft ds dt_ fract,
  eng_new dt p = Ok e -> ep_volume p = None -> given_schedule p ls ->
  type_of (en_system e) = SinglePassRTP ->
  eng_building dt p = Ok b -> length (bd_peak b) = 24%nat -> 0 <= bd_daily b -> (forall x, In x (bd_avg b) -> 0 <= x) ->
  mains e inlet -> inlet < ep_supply p <= ep_storage p -> 0 < ep_defrost p -> 0 < ep_run p -> shifted_share dt p fract -> 0 <= fract ->
  (forall ret flow, ep_return p = Some ret -> ep_flow p = Some flow -> ret <= ep_supply p /\ 0 <= flow) ->
  charged_to p fs ft -> drained_to p ds dt_ -> 0 <= fs -> 0 <= ds -> ft <= ep_storage p -> dt_ <= ep_storage p ->
  let slope := 17 # 10 in
  exists ret flow V C uf us, ep_return p = Some ret /\ ep_flow p = Some flow /\
    sized_storage e = Some V /\ sized_capacity e = Some C /\
    share fs ft slope (ep_supply p) (ep_storage p) inlet uf /\ share ds dt_ slope (ep_supply p) (ep_storage p) inlet us /\
    (us < uf -> exists gen a k loop h,
       loop * rho_cp * (ep_supply p - inlet) == daily_loss (ep_supply p) ret flow /\
       0 < h /\ h <= ep_run p /\ gen * h * rho_cp * (ep_supply p - inlet) + daily_loss (ep_supply p) ret flow <= C * 1000 * ep_defrost p * h /\
       first_shed_hours ls a k /\
       let usable := V * (uf - us) in
       let left := level usable (fun t => fract * off_in_shed ls gen t) (fun t => fract * demand_at (bd_daily b + loop) (bd_avg b) t) a in
       (forall n, (n <= k)%nat -> 0 <= left n) /\
       (forall n, (k < n)%nat -> (a + n <= 48)%nat -> 0 <= left n \/ exists j, (k < j < n)%nat /\ left j == usable)).
Proof.
  intros dt p b e ls inlet fs ft ds dt_ fract H V GS T EB L D0 Sh HI [I1 I2] DF HH FR F0 LP CH DR P1 P2 P3 P4 slope.
  destruct (sized_new _ _ _ _ H V EB L) as [ES E]. unfold mains in HI. rewrite E in HI. apply mains_inlet in HI. pose proof (daily_not_annual b L) as A.
  assert (T' : pooled (type_of (en_system e))) by (rewrite T; unfold pooled; auto).
  assert (SL : steepness (type_of (en_system e)) = slope) by (rewrite T; reflexivity).
  destruct (sized_pooled _ _ _ _ _ ES T') as (sched & m & fract' & K & d & w & EC & EF & D & SC & ST & KK). rewrite SL in D.
  destruct KK as [[_ X]|(ret & flow & ER & EFl & X & _)]; [congruence|]. subst K. destruct (LP _ _ ER EFl) as [LP1 LP2].
  destruct GS as [G1 G2].
  assert (EQ : fract' = fract).
  { rewrite G1 in EF. destruct ls as [|z l]; [congruence|]. unfold ls_fract in EF. destruct FR as [(X & ->)|((X1 & X2) & ->)].
    - apply qleb_true in X. rewrite X in EF. apply ok_inj in EF. auto.
    - destruct (Qle_bool 1 (ep_ls_percent p)) eqn:Q1; qbool; [lra|]. destruct (Qle_bool (ep_ls_percent p) 0) eqn:Q2; qbool; [lra|]. apply ok_inj in EF. auto. }
  subst fract'. clear EF FR.
  destruct (controls_inv _ _ _ EC) as [([X|X] & _)|(ls' & GS' & M & nc & shc & lu & EM & EN & EH & LU)]; [congruence|congruence|].
  assert (ls' = ls) by (apply (given_unique p); [exact GS'|split; assumption]). subst ls'.
  assert (NE : sched <> []). { intro X. rewrite X in M. apply mapM_length in M. discriminate. }
  assert (DN : dict_get m "normal" = Some nc) by (rewrite EM; reflexivity).
  assert (DS : dict_get m "shed" = Some shc) by (rewrite EM; reflexivity).
  destruct DR as [DR1 DR2]. apply defaulted_is in DR1. apply defaulted_is in DR2.
  assert (S1 : ct_on_sensor shc = ds /\ ct_on_trigger shc = dt_) by (rewrite EH; cbn; auto). destruct S1 as [S1 S2].
  assert (S3 : exists lc, used_in_load_up m lc /\ ct_off_sensor lc = fs /\ ct_off_trigger lc = ft).
  { destruct CH as (off_t & OT & CH1 & CH2). apply defaulted_is in OT. unfold used_in_load_up. rewrite EM. cbn [dict_get].
    change (String.eqb "normal" "loadUp") with false. change (String.eqb "shed" "loadUp") with false. cbn iota.
    destruct LU as [(-> & NL)|(HL & a & EA & ->)].
    - exists nc. split; [right; split; reflexivity|]. destruct CH2 as [-> ->]. { intros [X1 X2]. destruct NL as [NL|NL]; [congruence|lia]. } rewrite EN. cbn. auto.
    - eexists. split; [left; reflexivity|]. destruct CH1 as [C1 C2]. { split; [exact HL|congruence]. }
      apply defaulted_is in C1. apply defaulted_is in C2. cbn. rewrite C1, C2, OT. auto. }
  destruct S3 as (lc & UL & S3 & S4).
  assert (A' : (if bd_is_annual b then bd_set_daily (da_lib dt) b else Ok b) = Ok b) by (rewrite A; reflexivity).
  assert (SP : 0 < slope) by reflexivity.
  destruct (supply_gal_total (fresh p (ep_run p)) fs ft slope inlet SP I1) as (lx & LX).
  destruct (supply_gal_total (fresh p (ep_run p)) ds dt_ slope inlet SP I1) as (sx & SX).
  destruct (size_ok_inv _ _ _ _ _ _ _ _ _ _ _ D) as (b0 & cap & stor & _ & _ & DE).
  assert (DC : dh_min_cap d = Some cap) by (rewrite DE; reflexivity). assert (DV : dh_min_stor d = Some stor) by (rewrite DE; reflexivity).
  exists ret, flow, stor, cap, (lx / 100), (sx / 100). unfold sized_storage, sized_capacity, eng_results. cbn [fst snd].
  split; [exact ER|]. split; [exact EFl|]. split; [congruence|]. split; [congruence|].
  split; [exact (share_of (fresh p (ep_run p)) _ _ _ _ _ SP P1 I1 I2 P3 LX)|]. split; [exact (share_of (fresh p (ep_run p)) _ _ _ _ _ SP P2 I1 I2 P4 SX)|].
  intro US. assert (US' : sx < lx).
  { pose proof (proj1 (qdiv_lt_iff sx 100 (lx / 100) eq_refl) US) as Z. assert (Y : lx / 100 * 100 == lx) by (apply qdiv_mul; discriminate).
    eapply Qlt_le_trans; [exact Z|]. rewrite Y. apply Qle_refl. }
  rewrite <- S3, <- S4 in LX. rewrite <- S1, <- S2 in SX.
  assert (DS' : dict_get m "shed" <> None) by congruence. destruct (loop_size_inv _ _ _ _ _ _ _ _ _ _ _ _ _ _ A' HI NE DS' D) as (h0 & _ & _ & _ & _ & _ & _ & _ & EH0 & HN & _).
  destruct (C39_loop_shed_window _ _ _ _ _ _ _ _ _ _ _ _ _ _ _ _ _ _ _ A' NE DS DN UL D HI I1 LP1 LP2 DF HH F0 D0 Sh LX SX US')
    as (V1 & C1 & gen & a & k & loop & h & E1 & E2 & LL & Hh & HG & FSR & W1 & W2).
  assert (V1 = stor) by congruence. assert (C1 = cap) by congruence. subst V1 C1. cbn [fresh dh_supply dh_run dh_defrost] in *.
  assert (H0 : 0 < h /\ h <= ep_run p).
  { pose proof (C39_run_hours sched) as NS. pose proof (non_shed_nonneg sched) as NN. rewrite EH0 in HN. clear EH0. revert Hh NS NN HN. generalize (non_shed_hours sched) (hours_outside_shed sched). intros x y Hh NS NN HN.
    destruct (qmin_spec (ep_run p) y) as [[? Y]|[? Y]]; rewrite Y in Hh; destruct (qmin_spec (ep_run p) x) as [[? Z]|[? Z]]; rewrite Z in HN; (split; [|lra]).
    - lra. - lra. - lra. - destruct (Qlt_le_dec 0 x); [lra|]. exfalso. apply HN. lra. }
  exists gen, a, k, loop, h. split; [exact LL|]. split; [apply H0|]. split; [apply H0|]. split; [exact HG|]. split; [exact (first_run_labels _ _ _ _ _ M FSR)|]. cbv zeta.
  assert (LV : forall n, level (stor * (lx / 100 - sx / 100)) (fun t => fract * off_in_shed ls gen t) (fun t => fract * demand_at (bd_daily b + loop) (bd_avg b) t) a n ==
     level (stor * ((lx - sx) / 100)) (fun t => fract * shed_gen sched gen t) (fun t => fract * demand_at (bd_daily b + loop) (bd_avg b) t) a n).
  { intro n. apply level_ext; [field|]. intro t. rewrite (off_in_shed_labels p ls sched gen t M). reflexivity. }
  split.
  - intros n Hn. rewrite LV. exact (W1 n Hn).
  - intros n Hn1 Hn2. destruct (W2 n Hn1 Hn2) as [X|(j & Hj & X)].
    + left. rewrite LV. exact X.
    + right. exists j. split; [exact Hj|]. rewrite LV, X. field.
Qed.
Print Assumptions C67_loop_shed_window.

(** An engine with a loop of three gallons a minute returning at 110: shed from 17 to 20 h. *)
Definition ex_loop_shift : eparams := ex_params "sprtp" (Some ex_shed_evening) 2 (Some (8 # 10)) None None.
Example C67_loop_shed_case : exists e, eng_new ex_data ex_loop_shift = Ok e /\ type_of (en_system e) = SinglePassRTP /\
  given_schedule ex_loop_shift ex_shed_evening /\ shifted_share ex_data ex_loop_shift 1 /\
  charged_to ex_loop_shift (1 # 10) 150 /\ drained_to ex_loop_shift (1 # 2) 120 /\
  (exists ret flow, ep_return ex_loop_shift = Some ret /\ ep_flow ex_loop_shift = Some flow /\ ret < ep_supply ex_loop_shift /\ 0 < flow) /\
  exists uf us, share (1 # 10) 150 (17 # 10) 120 150 50 uf /\ share (1 # 2) 120 (17 # 10) 120 150 50 us /\ us < uf.
Proof.
  destruct (eng_new ex_data ex_loop_shift) as [e|x] eqn:N; [|vm_compute in N; discriminate]. exists e. split; [reflexivity|].
  split. { pose proof (C52_dispatch _ _ _ N) as D. apply (C52_names_unambiguous _ _ _ D). cbn. tauto. }
  split; [split; [reflexivity|discriminate]|]. split; [left; split; [discriminate|reflexivity]|].
  split. { exists 150. split; [reflexivity|]. split; [intros _; split; reflexivity|intros X; exfalso; apply X; split; [reflexivity|discriminate]]. }
  split; [split; reflexivity|]. split; [do 2 eexists; split; [reflexivity|]; split; [reflexivity|]; split; reflexivity|].
  destruct (supply_gal_100 (fresh ex_loop_shift 16) (1 # 10) 150 (17 # 10) 50) as [lx|] eqn:LX; [|discriminate].
  destruct (supply_gal_100 (fresh ex_loop_shift 16) (1 # 2) 120 (17 # 10) 50) as [sx|] eqn:SX; [|discriminate].
  exists (lx / 100), (sx / 100). split; [exact (share_of (fresh ex_loop_shift 16) (1 # 10) 150 (17 # 10) 50 _ eq_refl ltac:(discriminate) eq_refl ltac:(discriminate) ltac:(discriminate) LX)|].
  split; [exact (share_of (fresh ex_loop_shift 16) (1 # 2) 120 (17 # 10) 50 _ eq_refl ltac:(discriminate) eq_refl ltac:(discriminate) ltac:(discriminate) SX)|].
  vm_compute in LX, SX. apply ok_inj in LX. apply ok_inj in SX. subst lx sx. reflexivity.
Qed.

(** ** C25: one temperature *)

(** A mixed tank has its temperature at every height, and so has every draw from it. *)
Theorem C25_one_temperature : forall t f g, mx_temp_at t f = mx_temp t /\ mx_avg t g = mx_temp t.
Proof. split; reflexivity. Qed.
Print Assumptions C25_one_temperature.

(** ** C16: the annual estimate *)

(** The annual estimate of a run holds, for each month, the primary energy of the steps of that month: it
    is an energy, not a cost, and leaves out the temperature-maintenance heater. *)
Theorem C16_annual_estimate : forall r k m mon,
  sr_duration r = 525600%Z -> (0 < sr_iv r)%Z -> (k * sr_iv r = 1440)%Z -> (m < 12)%nat ->
  step_months (length (sr_power r)) (sr_iv r) mon ->
  exists en, annual_cost_estimate r = Ok en /\ length en = 12%nat /\
    nth m en 0 == sum_if (length (sr_power r)) (fun i => Nat.eqb (mon i) m)
                    (fun i => or0 (nth i (sr_power r) None) * step_hours r).
Proof. exact monthly_energy_month. Qed.
Print Assumptions C16_annual_estimate.

(** Of a run that is not annual it is not refused: it is twelve zeros. *)
Theorem C16_estimate_of_short_run : forall r m, sr_duration r <> 525600%Z -> (m < 12)%nat ->
  exists en, annual_cost_estimate r = Ok en /\ length en = 12%nat /\ nth m en 0 == 0.
Proof.
  intros r m H Hm. unfold annual_cost_estimate, monthly_energy. destruct (Z.eqb_spec (sr_duration r) 525600); [contradiction|]. cbn [negb].
  eexists. split; [reflexivity|]. split; [reflexivity|]. do 12 (destruct m as [|m]; [reflexivity|]). lia.
Qed.
Print Assumptions C16_estimate_of_short_run.

(** A year in which only the first three hours were recorded: one of them idle. *)
Example C16_estimate_case : exists en, annual_cost_estimate (ex_run [Some 2; None; Some 3] [1]) = Ok en /\ nth 0 en 0 == 5.
Proof. eexists. split; [reflexivity|]. vm_compute. reflexivity. Qed.
